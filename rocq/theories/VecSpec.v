(** Specification vocabulary for vector operations: what a vector is and which lane
    of the result comes from where.  Does not mention how the code computes it. *)
From Verif Require Import Base Lanes.

(** A vector of a type, lanes seen as byte strings: WIDTH lanes of SIZE bytes. *)
Definition vector_of (ty : vty) (v : list (list Z)) : Prop :=
  zlen v = WIDTH ty /\ Forall (fun lane => zlen lane = SIZE ty) v.

(** [r] takes lane [i] from [a] when [from_a i], from [b] otherwise. *)
Definition picks {A : Type} (w : Z) (from_a : Z -> bool) (a b r : list A) : Prop :=
  zlen r = w /\ forall i, 0 <= i < w -> znth r i = if from_a i then znth a i else znth b i.

(** Neighbouring lanes exchanged: indices 0 and 1, 2 and 3, and so on. *)
Fixpoint swap_adjacent {A : Type} (v : list A) : list A :=
  match v with
  | x :: y :: v' => y :: x :: swap_adjacent v'
  | _ => v
  end.

(** A vector of [w] integer lanes of type [t], lanes seen as numbers (a float lane is
    seen as its bit pattern, an unsigned number). *)
Definition int_vector (w : Z) (t : ity) (v : list Z) : Prop := zlen v = w /\ Forall (in_ity t) v.

(** Lane-wise combination of two vectors. *)
Definition lanewise (g : Z -> Z -> Z) (a b r : list Z) : Prop :=
  zlen r = zlen a /\ forall i x y, znth a i = Some x -> znth b i = Some y -> znth r i = Some (g x y).

(** Horizontal combination of two vectors: [r] is g a0 a1, g b0 b1, g a2 a3, g b2 b3
    and so on. *)
Definition horizontal (g : Z -> Z -> Z) (a b r : list Z) : Prop :=
  zlen r = zlen a /\
  forall i x y u v, 0 <= i -> znth a (2 * i) = Some x -> znth a (2 * i + 1) = Some y ->
    znth b (2 * i) = Some u -> znth b (2 * i + 1) = Some v ->
    znth r (2 * i) = Some (g x y) /\ znth r (2 * i + 1) = Some (g u v).

(** [P] holds of every pair of neighbouring lanes (0 and 1, 2 and 3, ...). *)
Definition each_pair (P : Z -> Z -> Prop) (a : list Z) : Prop :=
  forall i x y, 0 <= i -> znth a (2 * i) = Some x -> znth a (2 * i + 1) = Some y -> P x y.
