(** A small language of closures that work lane by lane, and what they mean for one
    lane: the scalar program that the vector program stands for. *)
From Coq Require Import String.
From Verif Require Import Base Lanes Floats FloatSpec OpTables.
Open Scope list_scope.
Open Scope Z_scope.

(** The ten primitive number types, their names and sizes. *)
Definition primitives : list elty := [EInt u8; EInt i8; EInt u16; EInt i16; EInt u32; EInt i32; EF32; EInt u64; EInt i64; EF64].
Definition bits_of (e : elty) : Z := match e with EInt t => 8 * Z.of_nat (ibytes t) | EF32 => 32 | EF64 => 64 end.
Definition el_name (e : elty) : string :=
  match e with
  | EF32 => "f32"
  | EF64 => "f64"
  | EInt t => (if isigned t then "i" else "u") ++
      (if bits_of e =? 8 then "8" else if bits_of e =? 16 then "16" else if bits_of e =? 32 then "32" else "64")
  end.
(** The patterns of bits a lane can hold: an integer of the type, or the encoding of a
    float. *)
Definition lane (e : elty) (x : Z) : Prop :=
  match e with EInt t => in_ity t x | _ => 0 <= x < 2 ^ bits_of e end.
Definition unsigned_of (e : elty) : elty := EInt (mkIty false (Z.to_nat (bits_of e / 8))).

(** Closures: component [i] of the argument, constants ([i8s(9)]), the operators [+],
    [-], [*], [&], [|] and [^], the methods [min], [max], [saturating_add],
    [saturating_sub], [eq_mask], [ne_mask], [abs], [sqrt], [floor], [ceil], [trunc],
    [swap_bytes], and the reinterpretations [be_u8s] ... [be_f64s_unchecked]. *)
Inductive arith := Add | Sub | Mul | And | Or | Xor.
Inductive method := Min | Max | SaturatingAdd | SaturatingSub | EqMask | NeMask.
Inductive direction := Floor | Ceil | Trunc.
Inductive expr :=
| Arg (i : nat)
| Splat (e : elty) (x : Z)
| Arith (o : arith) (a b : expr)
| Call (m : method) (a b : expr)
| Abs (a : expr)
| Sqrt (a : expr)
| Rounded (d : direction) (a : expr)
| SwapBytes (a : expr)
| Be (e : elty) (a : expr).

Definition same_int (s t : ity) : bool := Bool.eqb (isigned s) (isigned t) && (ibytes s =? ibytes t)%nat.
Definition same_type (d e : elty) : bool :=
  match d, e with EInt s, EInt t => same_int s t | EF32, EF32 | EF64, EF64 => true | _, _ => false end.
(** Constants must fit their type. *)
Definition fits (e : elty) (x : Z) : bool :=
  match e with EInt t => (imin t <=? x) && (x <=? imax t) | _ => (0 <=? x) && (x <? 2 ^ bits_of e) end.
(** The types a method is for. [min] and [max] of floats are left out: builds differ on
    NaN and on signed zeros (C39). *)
Definition method_for (m : method) (e : elty) : bool :=
  match m, e with
  | (EqMask | NeMask), _ => true
  | (Min | Max), EInt t => (ibytes t <=? 4)%nat
  | (SaturatingAdd | SaturatingSub), EInt t => (ibytes t <=? 2)%nat
  | _, _ => false
  end.
(** The bitwise operators are for integers. *)
Definition arith_for (o : arith) (e : elty) : bool :=
  match o, e with (And | Or | Xor), (EF32 | EF64) => false | _, _ => true end.
Definition result_of (m : method) (e : elty) : elty := match m with EqMask | NeMask => unsigned_of e | _ => e end.

Section Types.
(** The slices have elements of type [e0]; the closure takes [n] vectors. *)
Variable e0 : elty.
Variable n : nat.
(** The element type of an expression; [None] if it is not well typed. *)
Fixpoint type_of (x : expr) : option elty :=
  match x with
  | Arg i => if (i <? n)%nat then Some e0 else None
  | Splat e k => if fits e k && existsb (same_type e) primitives && (bits_of e =? bits_of e0) then Some e else None
  | Arith o a b =>
    match type_of a, type_of b with Some d, Some e => if same_type d e && arith_for o d then Some d else None | _, _ => None end
  | Call m a b =>
    match type_of a, type_of b with Some d, Some e => if same_type d e && method_for m d then Some (result_of m d) else None | _, _ => None end
  | Abs a =>
    match type_of a with
    | Some (EInt t) => if isigned t then Some (unsigned_of (EInt t)) else None
    | r => r
    end
  | Sqrt a | Rounded _ a => match type_of a with Some (EInt _) | None => None | r => r end
  | SwapBytes a => match type_of a with Some (EInt t) => Some (EInt t) | _ => None end
  | Be e a =>
    match type_of a with Some d => if existsb (same_type e) primitives && (bits_of e =? bits_of d) then Some e else None | None => None end
  end.

(** IEEE arithmetic is a parameter; the result of comparing two floats. *)
Variable fop : arith -> elty -> Z -> Z -> Z.
Variable fsqrt : elty -> Z -> Z.
Definition nan_pattern (f : ffmt) (x : Z) : bool := (exponent_field f x =? 2 ^ f_e f - 1) && negb (fraction_field f x =? 0).
Definition same_number (e : elty) (x y : Z) : bool :=
  match e with
  | EInt _ => x =? y
  | _ => let f := match e with EF64 => fmt64 | _ => fmt32 end in
         negb (nan_pattern f x) && negb (nan_pattern f y) && (fvalue f x =? fvalue f y)
  end.
Definition exact (o : arith) (x y : Z) : Z := match o with Add => x + y | Sub => x - y | Mul => x * y | And => Z.land x y | Or => Z.lor x y | Xor => Z.lxor x y end.

(** The float with this sign bit and [u] times the smallest positive float as magnitude
    (if there is one). *)
Definition float_of (f : ffmt) (sign u : Z) : Z :=
  sign * 2 ^ (f_m f + f_e f) +
  (if u <? 2 ^ f_m f then u else let k := Z.log2 u - f_m f in (k + 1) * 2 ^ f_m f + (u / 2 ^ k - 2 ^ f_m f)).
(** [floor], [ceil] and [trunc] of a float: the integer next to its value, with its sign
    bit; infinities stay and a NaN becomes quiet. *)
Definition integral (d : direction) (f : ffmt) (x : Z) : Z :=
  if nan_pattern f x then (if Z.testbit x (f_m f - 1) then x else x + 2 ^ (f_m f - 1))
  else if exponent_field f x =? 2 ^ f_e f - 1 then x
  else float_of f (sign_bit f x)
         (fone f * Z.abs (match d with
                          | Floor => fvalue f x / fone f
                          | Ceil => - (- fvalue f x / fone f)
                          | Trunc => Z.quot (fvalue f x) (fone f)
                          end)).

(** What the expression computes for one lane: [env] are the scalars of that lane. *)
Fixpoint meaning (x : expr) (env : list Z) : Z :=
  match x with
  | Arg i => nth i env 0
  | Splat _ k => k
  | Arith o a b =>
    match type_of a with
    | Some (EInt t) => wrap t (exact o (meaning a env) (meaning b env))
    | Some e => fop o e (meaning a env) (meaning b env)
    | None => 0
    end
  | Call m a b =>
    let u := meaning a env in let v := meaning b env in
    match m, type_of a with
    | Min, _ => Z.min u v
    | Max, _ => Z.max u v
    | SaturatingAdd, Some (EInt t) => Z.max (imin t) (Z.min (imax t) (u + v))
    | SaturatingSub, Some (EInt t) => Z.max (imin t) (Z.min (imax t) (u - v))
    | EqMask, Some e => if same_number e u v then 2 ^ bits_of e - 1 else 0
    | NeMask, Some e => if same_number e u v then 0 else 2 ^ bits_of e - 1
    | _, _ => 0
    end
  | Abs a =>
    match type_of a with
    | Some (EInt _) => Z.abs (meaning a env)
    | Some e => meaning a env mod 2 ^ (bits_of e - 1)
    | None => 0
    end
  | Sqrt a => match type_of a with Some e => fsqrt e (meaning a env) | None => 0 end
  | Rounded d a => match type_of a with Some e => integral d (match e with EF64 => fmt64 | _ => fmt32 end) (meaning a env) | None => 0 end
  | SwapBytes a => match type_of a with Some (EInt t) => wrap t (of_bytes (rev (to_bytes (ibytes t) (meaning a env)))) | _ => 0 end
  | Be e a => match e with EInt t => wrap t (meaning a env) | _ => meaning a env mod 2 ^ bits_of e end
  end.
End Types.
