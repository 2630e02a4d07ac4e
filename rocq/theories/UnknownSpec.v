(** Specification of the portable vector types, independent of the model: what each
    operator trait and each cast computes on one lane, and what that means for a vector. *)
From Coq Require Import String.
From Verif Require Import Base Lanes Floats FloatSpec OpTables OpSpec.
Open Scope string_scope.
Open Scope Z_scope.

(** ** Operators on one integer lane: [o] is a correct outcome. *)

(** The exact result if it is representable; otherwise a panic in a debug build and the
    representable number congruent to it in release. *)
Definition exact_or_wrapped (c : config) (t : ity) (exact : Z) (o : outcome Z) : Prop :=
  (in_ity t exact -> o = Ok exact) /\
  (~ in_ity t exact -> match build c with
    | Debug => o = Panic
    | Release => exists r k, o = Ok r /\ in_ity t r /\ r = exact + k * imod t
    end).
(** Truncated division [x = y * q + r]; dividing by zero, and the smallest number by
    -1, panics. *)
Definition divides (t : ity) (x y : Z) (o : outcome Z) (pick : Z -> Z -> Z) : Prop :=
  let overflow := y = 0 \/ (isigned t = true /\ x = imin t /\ y = -1) in
  (overflow -> o = Panic) /\
  (~ overflow -> exists q r, o = Ok (pick q r) /\ x = y * q + r /\ Z.abs r < Z.abs y /\ (0 <= x -> 0 <= r) /\ (x <= 0 -> r <= 0)).
(** A shift by [k], the amount itself if it is less than the number of bits; otherwise a
    panic in a debug build and the amount modulo the number of bits in release. *)
Definition shifts (c : config) (t : ity) (y : Z) (o : outcome Z) (by_k : Z -> Z -> Prop) : Prop :=
  let bits := 8 * Z.of_nat (ibytes t) in
  (0 <= y < bits -> exists r, o = Ok r /\ by_k y r) /\
  (~ 0 <= y < bits -> match build c with
    | Debug => o = Panic
    | Release => exists r k j, o = Ok r /\ by_k k r /\ 0 <= k < bits /\ y = k + j * bits
    end).
Definition bitwise (t : ity) (g : bool -> bool -> bool) (x y : Z) (o : outcome Z) : Prop :=
  exists r, o = Ok r /\ in_ity t r /\ forall i, 0 <= i -> Z.testbit r i = g (Z.testbit x i) (Z.testbit y i).

Definition int_result (c : config) (t : ity) (trait : string) (x y : Z) (o : outcome Z) : Prop :=
  (trait = "Add" /\ exact_or_wrapped c t (x + y) o) \/
  (trait = "Sub" /\ exact_or_wrapped c t (x - y) o) \/
  (trait = "Mul" /\ exact_or_wrapped c t (x * y) o) \/
  (trait = "Div" /\ divides t x y o (fun q r => q)) \/
  (trait = "Rem" /\ divides t x y o (fun q r => r)) \/
  (trait = "Shl" /\ shifts c t y o (fun k r => in_ity t r /\ exists j, r = x * 2 ^ k + j * imod t)) \/
  (trait = "Shr" /\ shifts c t y o (fun k r => r = x / 2 ^ k)) \/
  (trait = "BitAnd" /\ bitwise t andb x y o) \/
  (trait = "BitOr" /\ bitwise t orb x y o) \/
  (trait = "BitXor" /\ bitwise t xorb x y o).

(** The arithmetic operator of a trait on floats; its meaning is left to [arith]. *)
Definition float_result (arith : string -> elty -> Z -> Z -> Z) (e : elty) (trait : string) (x y : Z) (o : outcome Z) : Prop :=
  exists symbol, In (trait, symbol) [("Add", "+"); ("Sub", "-"); ("Mul", "*"); ("Div", "/")] /\ o = Ok (arith symbol e x y).

Definition op_result (arith : string -> elty -> Z -> Z -> Z) (c : config) (e : elty) (trait : string) (x y : Z) (o : outcome Z) : Prop :=
  match e with EInt t => int_result c t trait x y o | _ => float_result arith e trait x y o end.

(** The traits a type should implement. *)
Definition required_traits (e : elty) : list string :=
  match e with
  | EInt _ => ["Add"; "Sub"; "Mul"; "Div"; "Rem"; "Shl"; "Shr"; "BitAnd"; "BitOr"; "BitXor"]
  | _ => ["Add"; "Sub"; "Mul"; "Div"]
  end.

(** A lane-wise operator on vectors: lane by lane, or a panic if some lane panics. *)
Definition lanes_result (P : Z -> Z -> outcome Z -> Prop) (v w : list Z) (o : outcome (list Z)) : Prop :=
  (exists r, o = Ok r /\ each_lane (fun x y z => P x y (Ok z)) v w r) \/
  (o = Panic /\ exists i x y, znth v i = Some x /\ znth w i = Some y /\ P x y Panic).

(** ** Casts of one lane *)

(** Same low bits. *)
Definition wraps (t : ity) (x z : Z) : Prop := in_ity t z /\ exists k, z = x + k * imod t.
(** Truncated towards zero, saturating; NaN gives 0. *)
Definition truncates (f : ffmt) (t : ity) (x z : Z) : Prop :=
  (is_nan f x -> z = 0) /\
  (is_infinite f x -> z = if sign_bit f x =? 0 then imax t else imin t) /\
  (is_finite f x -> let n := Z.quot (fvalue f x) (fone f) in
     (in_ity t n -> z = n) /\ (n < imin t -> z = imin t) /\ (imax t < n -> z = imax t)).
(** [z] is the finite float nearest to the integer [n], with an even fraction if
    another one is as near; zero becomes +0.0. *)
Definition nearest_float (f : ffmt) (n z : Z) : Prop :=
  f_pattern f z /\ is_finite f z /\
  (forall y, f_pattern f y -> is_finite f y ->
     let dz := Z.abs (fvalue f z - n * fone f) in
     let dy := Z.abs (fvalue f y - n * fone f) in
     dz <= dy /\ (dz = dy -> fvalue f y <> fvalue f z -> Z.even (fraction_field f z) = true)) /\
  (n = 0 -> z = 0).

Definition cast_result (from to : elty) (x z : Z) : Prop :=
  match from, to with
  | EInt _, EInt t => wraps t x z
  | EInt _, _ => nearest_float (fmt_of to) x z
  | _, EInt t => truncates (fmt_of from) t x z
  | _, _ => False
  end.
(** Every lane of [r] is related to the lane of [v]. *)
Definition each_lane1 (R : Z -> Z -> Prop) (v r : list Z) : Prop :=
  zlen r = zlen v /\ forall i x, znth v i = Some x -> exists z, znth r i = Some z /\ R x z.
