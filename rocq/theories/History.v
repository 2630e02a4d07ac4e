(** Histories of calls on one slice iterator, and the abstract machine they are
    compared with. *)
From Verif Require Import Base Spec Vecs Iters.

(** The methods of src/iters.rs:340-362 (Unpacked), 463-549 (next, end, advance, ...). *)
Inductive op :=
| ONext                 (* next() *)
| OScalar               (* unpack(), one next(), pack() *)
| OEnd                  (* end() *)
| OAdvance (a : Z)      (* advance(a) *)
| OFinalize             (* finalize() *)
| OScalarPos            (* scalar_pos() *)
| OVectorPos.           (* vector_pos() *)

(** What the calls return (src/iters.rs:340-362, 463-549). *)
Inductive answer (A : Type) :=
| AVector (o : option (list A))
| AScalar (o : option A)
| ATail (o : option (list A * Z))
| ANum (n : Z)
| ANothing.
Arguments AVector {A} o.
Arguments AScalar {A} o.
Arguments ATail {A} o.
Arguments ANum {A} n.
Arguments ANothing {A}.

Section Model.
Context {A : Type}.
Variable c : config.
Variable ty : vty.
Let it := slice_iterator (A := A) c ty.

(** One call on the model of [SIMDIter<&[S]>] (src/iters.rs:44-59, 340-360,
    463-549). *)
Definition call (s : SIMDIter A (list A)) (o : op)
  : outcome (answer A * SIMDIter A (list A)) :=
  match o with
  | ONext => let! r := it_next (itb it) s in Ok (AVector (fst r), snd r)
  | OScalar => let! r := unpacked_next (si_array (slice_array c ty)) (itb it) s in
               Ok (AScalar (fst r), snd r)
  | OEnd => let! r := it_end it s in Ok (ATail (fst r), snd r)
  | OAdvance a => let! s' := it_advance (itb it) s a in Ok (ANothing, s')
  | OFinalize => let! s' := finalize c (itb it) s in Ok (ANothing, s')
  | OScalarPos => let! p := it_scalar_pos (itb it) s in Ok (ANum p, s)
  | OVectorPos => let! p := it_vector_pos (itb it) s in Ok (ANum p, s)
  end.

(** One call after the other on the iterator of src/iters.rs:451-549. *)
Fixpoint calls (s : SIMDIter A (list A)) (h : list op)
  : outcome (list (answer A) * SIMDIter A (list A)) :=
  match h with
  | [] => Ok ([], s)
  | o :: h' => let! r := call s o in
               let! q := calls (snd r) h' in Ok (fst r :: fst q, snd q)
  end.
End Model.

(** The abstract machine: how many scalars have been passed, and the scalars that
    are left. *)
Section Abstract.
Context {A : Type}.
Variable w : Z.               (* lanes per vector *)
Variable d : list A.          (* default vector *)

(** Specification of one call of src/iters.rs:451-549. *)
Definition abs_call (st : Z * list A) (o : op) : answer A * (Z * list A) :=
  let (k, left) := st in
  match o with
  | ONext => if w <=? zlen left
             then (AVector (Some (firstn (Z.to_nat w) left)), (k + w, skipn (Z.to_nat w) left))
             else (AVector None, st)
  | OScalar => match left with
               | x :: left' => (AScalar (Some x), (k + 1, left'))
               | [] => (AScalar None, st)
               end
  | OEnd => (ATail (tail_of d left), (k + zlen left, []))
  | OAdvance a => (ANothing, (k + a, skipn (Z.to_nat a) left))
  | OFinalize => (ANothing, (k + zlen left, []))
  | OScalarPos => (ANum k, st)
  | OVectorPos => (ANum (k / w), st)
  end.

(** A whole history (src/iters.rs:451-549). *)
Fixpoint abs_calls (st : Z * list A) (h : list op) : list (answer A) * (Z * list A) :=
  match h with
  | [] => ([], st)
  | o :: h' => let (a, st') := abs_call st o in
               let (q, st'') := abs_calls st' h' in (a :: q, st'')
  end.

(** Calls the guarantee covers, for a slice of [n] scalars: positions stay below
    usize::MAX, [finalize] is not called past the end, and [end] is called with at
    most a vector left, on a slice longer than a vector unless nothing has been
    consumed yet.
    Of src/iters.rs:451-549. *)
Definition allowed (n : Z) (st : Z * list A) (o : op) : Prop :=
  match o with
  | OAdvance a => 0 <= a /\ fst st + a + w < usize_mod
  | OFinalize => fst st <= n
  | OEnd => zlen (snd st) <= w /\ (fst st = 0 \/ w < n \/ snd st = [])
  | _ => True
  end.

(** Along a whole history (src/iters.rs:451-549). *)
Fixpoint all_allowed (n : Z) (st : Z * list A) (h : list op) : Prop :=
  match h with
  | [] => True
  | o :: h' => allowed n st o /\ all_allowed n (snd (abs_call st o)) h'
  end.
End Abstract.

(** [n] calls of [next] on an unrolled iterator: the groups they returned.
    src/iters.rs:382-404. *)
Fixpoint next_groups {V I : Type} (it : SIMDIterable V I) (n : nat) (u : Unrolled V I) : outcome (list (list V) * Unrolled V I) :=
  match n with
  | O => Ok ([], u)
  | S n' =>
    let! r := unrolled_next it u in
    let! q := next_groups it n' (snd r) in
    Ok (match fst r with Some g => g :: fst q | None => fst q end, snd q)
  end.
