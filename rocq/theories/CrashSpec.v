(** Vocabulary for the statements about panicking closures. *)
From Coq Require Import List.
From Verif Require Import Base.

(** Called on [xs] in order, starting in state [e], the closure returns [ys] and is left
    in state [e']. *)
Inductive returns_on {E X Y : Type} (f : E -> X -> outcome (Y * E)) : E -> list X -> list Y -> E -> Prop :=
| returns_nil e : returns_on f e [] [] e
| returns_cons e x y e1 xs ys e2 :
    f e x = Ok (y, e1) -> returns_on f e1 xs ys e2 -> returns_on f e (x :: xs) (y :: ys) e2.

(** Called on [xs] in order, the closure returns [ys] and panics on the call after that. *)
Definition panics_after {E X Y : Type} (f : E -> X -> outcome (Y * E)) (e : E) (xs : list X) (ys : list Y) : Prop :=
  exists xs1 x xs2 e', xs = xs1 ++ x :: xs2 /\ returns_on f e xs1 ys e' /\ f e' x = Panic.

(** [buf] with its first elements replaced by [xs]. *)
Definition overwritten {A : Type} (xs buf : list A) : list A := xs ++ skipn (length xs) buf.
