(** Vocabulary for the statements about whole programs: tuples of any number of
    iterators, and closures that work lane by lane. *)
From Verif Require Import Base Spec Vecs Iters Zip.

(** A tuple of [n+1] values (Rust's flat tuple, nested to the right as in Zip.v), and
    its components in order. *)
Fixpoint tuple (X : Type) (n : nat) : Type :=
  match n with O => X | S m => (X * tuple X m)%type end.
Fixpoint items {X : Type} (n : nat) : tuple X n -> list X :=
  match n return tuple X n -> list X with
  | O => fun t => [t]
  | S m => fun t => fst t :: items m (snd t)
  end.

(** The components after the first when [n+2] iterators of one kind are zipped
    (src/zip.rs:223-303 and 373-389, expanded for 2 to 13 components). *)
Fixpoint rest_many {V I : Type} (un : UnsafeIterator V I) (n : nat) : ZipRest (tuple V n) (tuple I n) :=
  match n return ZipRest (tuple V n) (tuple I n) with
  | O => rest_one un
  | S m => rest_cons un (rest_many un m)
  end.

(** [r] are the scalars at index [k] of the lists [ls], one of each. *)
Definition column {A : Type} (ls : list (list A)) (k : Z) (r : list A) : Prop :=
  Forall2 (fun l x => znth l k = Some x) ls r.

(** [out] is [f] applied to every column of the [w]-lane vectors [vs]. *)
Definition columnwise {A B : Type} (w : Z) (f : list A -> B) (vs : list (list A)) (out : list B) : Prop :=
  zlen out = w /\ forall i r, column vs i r -> znth out i = Some (f r).

(** The closure [func] works lane by lane: on full vectors of [w] lanes whose scalars are
    all in [P] it returns [f] of every column, whatever its captured state [e]. *)
Definition lane_by_lane {A B E : Type} (w : Z) (P : A -> Prop) (n : nat) (f : list A -> B)
    (func : E -> tuple (list A) n -> list B * E) : Prop :=
  forall e t, Forall (fun v => zlen v = w /\ Forall P v) (items n t) -> columnwise w f (items n t) (fst (func e t)).
