(** Specification of sums and bit counts, independent of the model. *)
From Coq Require Import String.
From Verif Require Import Base Lanes Floats FloatSpec OpTables.
Open Scope Z_scope.

(** The exact sum of the lanes. *)
Definition total (v : list Z) : Z := fold_right Z.add 0 v.

(** [r] is the exact sum reduced to the lane type. *)
Definition sum_mod (t : ity) (v : list Z) (r : Z) : Prop :=
  in_ity t r /\ exists k, r = total v + k * imod t.

(** Adding the lanes one after the other never leaves the type. *)
Definition no_overflow (t : ity) (v : list Z) : Prop :=
  forall n : nat, in_ity t (total (firstn n v)).

(** The integer part (towards zero) of a float pattern. *)
Definition integer_part (e : elty) (x : Z) : Z :=
  match e with
  | EInt _ => x
  | EF32 => Z.quot (fvalue fmt32 x) (fone fmt32)
  | EF64 => Z.quot (fvalue fmt64 x) (fone fmt64)
  end.
Definition finite_lane (e : elty) (x : Z) : Prop :=
  match e with
  | EInt _ => True
  | EF32 => f_pattern fmt32 x /\ is_finite fmt32 x
  | EF64 => f_pattern fmt64 x /\ is_finite fmt64 x
  end.

(** The number of set bits of the lanes (two's complement). *)
Definition bit_positions (t : ity) : list Z := map Z.of_nat (seq 0 (8 * ibytes t)).
Definition set_bits (t : ity) (v : list Z) : Z :=
  zlen (filter (fun p => Z.testbit (fst p) (snd p)) (list_prod v (bit_positions t))).
Definition clear_bits (t : ity) (v : list Z) : Z :=
  zlen (filter (fun p => negb (Z.testbit (fst p) (snd p))) (list_prod v (bit_positions t))).

(** The vectors whose optimised sum ends with the scalar addition of the sums of its two
    halves. *)
Definition two_scalar_adds (vec : string) : bool := String.eqb vec "i16x16" || String.eqb vec "i32x8".

(** The sum of [2 ^ n] lanes where the lanes of each half are added first, and the two
    results then: the order of the optimised float sums. *)
Fixpoint sum_of_halves (add : Z -> Z -> Z) (n : nat) (v : list Z) : Z :=
  match n with
  | O => nth 0 v 0
  | S m => add (sum_of_halves add m (firstn (2 ^ m) v)) (sum_of_halves add m (skipn (2 ^ m) v))
  end.
