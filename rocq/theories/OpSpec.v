(** Specification of comparison masks, minimum and maximum, independent of the model. *)
From Verif Require Import Base Lanes Floats FloatSpec OpTables.
Open Scope Z_scope.

(** The format of a float lane. *)
Definition fmt_of (e : elty) : ffmt := match e with EF64 => fmt64 | _ => fmt32 end.

(** Lanes are equal: as numbers; for floats in the IEEE sense, so a NaN is not equal to
    itself and -0.0 equals 0.0. *)
Definition equal_lanes (e : elty) (x y : Z) : Prop :=
  match e with EInt _ => x = y | _ => float_eq (fmt_of e) x y end.

(** [r] has all bits set in the lanes where [P] holds and is zero elsewhere. *)
Definition masks (P : Z -> Z -> Prop) (bits : Z) (a b r : list Z) : Prop :=
  zlen r = zlen a /\
  forall i x y, znth a i = Some x -> znth b i = Some y ->
    (P x y -> znth r i = Some (2 ^ bits - 1)) /\ (~ P x y -> znth r i = Some 0).

(** [z] is the smaller (larger) of two floats. *)
Definition least (f : ffmt) (x y z : Z) : Prop :=
  (z = x \/ z = y) /\ fvalue f z <= fvalue f x /\ fvalue f z <= fvalue f y.
Definition greatest (f : ffmt) (x y z : Z) : Prop :=
  (z = x \/ z = y) /\ fvalue f x <= fvalue f z /\ fvalue f y <= fvalue f z.

(** Every lane of [r] is related to the lanes of [a] and [b]. *)
Definition each_lane (R : Z -> Z -> Z -> Prop) (a b r : list Z) : Prop :=
  zlen r = zlen a /\
  forall i x y, znth a i = Some x -> znth b i = Some y -> exists z, znth r i = Some z /\ R x y z.
