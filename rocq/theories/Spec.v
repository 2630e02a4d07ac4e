(** Small specification vocabulary, independent of the model: it mentions only
    lists.  Everything the property statements use beyond the model's entry
    points is defined here. *)
From Coq Require Import List ZArith.
From Verif Require Import Base.

(** [vs] are consecutive chunks of exactly [w] elements of [l], in order and
    without gaps, and [rest] is what is left after them. *)
Definition chunked {A : Type} (w : Z) (l : list A) (vs : list (list A)) (rest : list A) : Prop :=
  Forall (fun v => zlen v = w) vs /\ concat vs ++ rest = l.

(** [rest] written over the last lanes of the vector [d]. *)
Definition right_aligned {A : Type} (d rest : list A) : list A :=
  firstn (length d - length rest) d ++ rest.

(** Number of lanes of [d] that [rest] does not fill. *)
Definition unfilled {A : Type} (d rest : list A) : Z := zlen d - zlen rest.

(** What [end] should hand out for a leftover [rest] and default vector [d]. *)
Definition tail_of {A : Type} (d rest : list A) : option (list A * Z) :=
  match rest with
  | [] => None
  | _ => Some (right_aligned d rest, unfilled d rest)
  end.

(** Vectors seen by a traversal: the chunks, then the padded tail if any. *)
Definition visited {V : Type} (vs : list V) (t : option (V * Z)) : list V :=
  vs ++ match t with Some (p, _) => [p] | None => [] end.

(** Scalars delivered by a traversal: all lanes of the chunks, then the filled
    lanes of the tail. *)
Definition delivered {A : Type} (vs : list (list A)) (t : option (list A * Z)) : list A :=
  concat vs ++ match t with Some (p, n) => skipn (Z.to_nat n) p | None => [] end.

(** Running a stateful closure over a list of arguments: results and final
    captured state. *)
Fixpoint run_closure {E X Y : Type} (f : E -> X -> Y * E) (e : E) (xs : list X) : list Y * E :=
  match xs with
  | [] => ([], e)
  | x :: xs' =>
    let (y, e') := f e x in
    let (ys, e'') := run_closure f e' xs' in (y :: ys, e'')
  end.

(** The vector types for which the library is compiled: 1, 2, 4 or 8 byte
    scalars in 16, 32 or 64 byte vectors (src/arch/x86/vecs.rs). *)
Definition vty_ok (ty : vty) : Prop :=
  In (SIZE ty) [1; 2; 4; 8] /\ In (WIDTH ty * SIZE ty) [16; 32; 64].

(** [out] is the [base]-th of [stride] interleaved streams of [l]: its elements
    are [l[base], l[base+stride], l[base+2*stride], ..], one per complete group of
    [stride] elements of [l]. *)
Definition is_stream {A : Type} (l : list A) (base stride : Z) (out : list A) : Prop :=
  zlen out = zlen l / stride /\
  forall k, 0 <= k < zlen out -> znth out k = znth l (base + stride * k).

(** [vs] cut into groups of exactly [amt] items, except that the last group may be
    shorter; no group is empty. *)
Inductive grouped {V : Type} (amt : nat) : list V -> list (list V) -> Prop :=
| grouped_nil : grouped amt [] []
| grouped_last vs : vs <> [] -> (length vs < amt)%nat -> grouped amt vs [vs]
| grouped_cons g vs gs : length g = amt -> grouped amt vs gs -> grouped amt (g ++ vs) (g :: gs).

(** Slices occupy at most isize::MAX bytes (a guarantee of the Rust language). *)
Definition slice_ok {A : Type} (ty : vty) (l : list A) : Prop := zlen l * SIZE ty <= isize_max.

(** Element-wise combination of two vectors. *)
Fixpoint map2 {A B C : Type} (f : A -> B -> C) (a : list A) (b : list B) : list C :=
  match a, b with
  | x :: a', y :: b' => f x y :: map2 f a' b'
  | _, _ => []
  end.

(** Round-robin merge of [n] rounds: the first elements of all [outs] in order, then
    the second ones, and so on. *)
Definition interleave {A : Type} (outs : list (list A)) (n : nat) : list A :=
  flat_map (fun j => flat_map (fun out => match nth_error out j with Some x => [x] | None => [] end)
                              outs) (seq 0 n).
