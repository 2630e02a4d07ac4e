(** Chains of [simd_map] calls, for the statements about collecting. *)
From Verif Require Import Base Spec Vecs Iters.

(** [map_chain c it0 s0 B I it s f]: the iterator [it] in state [s] was built from
    [it0] in state [s0] by any number of [simd_map] calls (src/iters.rs:85-91) whose
    closures act lane by lane on vectors with as many lanes of as many bytes (they
    may also update captured state), and [f] is the composition of those lane
    functions. *)
Inductive map_chain {A0 I0 : Type} (c : config) (it0 : SIMDIterator (list A0) I0) (s0 : I0)
  : forall (B I : Type), SIMDIterator (list B) I -> I -> (A0 -> B) -> Prop :=
| chain_start : map_chain c it0 s0 A0 I0 it0 s0 (fun x => x)
| chain_map (B I : Type) (it : SIMDIterator (list B) I) (s : I) (f : A0 -> B)
    (B' E : Type) (out_ty : vty) (d0 : B') (func : E -> list B -> list B' * E) (e : E) (g : B -> B') :
    map_chain c it0 s0 B I it s f ->
    vty_ok out_ty ->
    WIDTH out_ty = WIDTH (it_ty (itb it)) -> SIZE out_ty = SIZE (it_ty (itb it)) ->
    (forall e v, fst (func e v) = map g v) ->
    map_chain c it0 s0 B' (SIMDMap I E) (map_iterator c it out_ty d0 func) (mkSIMDMap s e)
              (fun x => g (f x)).

(** A history of calls on an iterator. *)
Inductive iter_op :=
| INext                 (* next() *)
| IEnd                  (* end() *)
| IAdvance (a : Z).     (* advance(a) *)

(** Running a history: the items handed out ([None] for a call that hands out
    nothing) and the final state. *)
Fixpoint run_ops {V I : Type} (it : SIMDIterator V I) (s : I) (h : list iter_op)
  : outcome (list (option V) * I) :=
  match h with
  | [] => Ok ([], s)
  | o :: h' =>
    let! r := (match o with
               | INext => it_next (itb it) s
               | IEnd => let! r := it_end it s in
                         Ok (match fst r with Some (v, _) => Some v | None => None end, snd r)
               | IAdvance a => let! s' := it_advance (itb it) s a in Ok (None, s')
               end) in
    let! q := run_ops it (snd r) h' in Ok (fst r :: fst q, snd q)
  end.

(** The items of a history, in order. *)
Fixpoint items {V : Type} (xs : list (option V)) : list V :=
  match xs with
  | [] => []
  | Some x :: xs' => x :: items xs'
  | None :: xs' => items xs'
  end.

Definition handed_out {V : Type} (x : option V) : bool :=
  match x with Some _ => true | None => false end.

(** A closure that also writes down every argument it is called with. *)
Definition logged {E V Y : Type} (f : E -> V -> Y * E) (st : list V * E) (v : V) : Y * (list V * E) :=
  let (y, e') := f (snd st) v in (y, (fst st ++ [v], e')).
