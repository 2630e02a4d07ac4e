(** Histories of calls on one strided stream, and the abstract machine they are
    compared with.  The operations and answers are those of History.v. *)
From Verif Require Import Base Spec Vecs Iters Stride History.

Section Model.
Context {A I : Type}.
Variable c : config.
Variable arr : SIMDArray A I.
Variable it : SIMDIterable (list A) I.

(** One call on an array-backed iterator (src/iters.rs:44-59, 340-360, 525-549). *)
Definition component_call (s : I) (o : op) : outcome (answer A * I) :=
  match o with
  | ONext => let! r := it_next it s in Ok (AVector (fst r), snd r)
  | OScalar => let! r := unpacked_next arr it s in Ok (AScalar (fst r), snd r)
  | OEnd => let! r := it_end (blanket_iterator c arr it) s in Ok (ATail (fst r), snd r)
  | OAdvance a => let! s' := it_advance it s a in Ok (ANothing, s')
  | OFinalize => let! s' := finalize c it s in Ok (ANothing, s')
  | OScalarPos => let! p := it_scalar_pos it s in Ok (ANum p, s)
  | OVectorPos => let! p := it_vector_pos it s in Ok (ANum p, s)
  end.

(** One call after the other on the iterator of src/stride.rs:20-58, 283-349. *)
Fixpoint component_calls (s : I) (h : list op) : outcome (list (answer A) * I) :=
  match h with
  | [] => Ok ([], s)
  | o :: h' => let! r := component_call s o in
               let! q := component_calls (snd r) h' in Ok (fst r :: fst q, snd q)
  end.
End Model.

(** The abstract machine of History.v, except that [next] hands out the last full
    vector only if [more] elements follow it in the data; else it is left to [end]. *)
Section Abstract.
Context {A : Type}.
Variable w : Z.               (* lanes per vector *)
Variable d : list A.          (* default vector *)
Variable more : bool.         (* is there an element after the last one of the stream? *)

(** Specification of src/stride.rs:30-49 and src/iters.rs:525-549. *)
Definition stream_call (st : Z * list A) (o : op) : answer A * (Z * list A) :=
  match o with
  | ONext => if (zlen (snd st) =? w) && negb more then (AVector None, st) else abs_call w d st o
  | _ => abs_call w d st o
  end.

(** A whole history (src/stride.rs:30-49). *)
Fixpoint stream_calls (st : Z * list A) (h : list op) : list (answer A) * (Z * list A) :=
  match h with
  | [] => ([], st)
  | o :: h' => let (a, st') := stream_call st o in
               let (q, st'') := stream_calls st' h' in (a :: q, st'')
  end.

(** Calls the guarantee covers, for stream [base] of [str] streams with [n] scalars:
    as in History.v, with the bound on [advance] in terms of the data.
    src/stride.rs:329-349. *)
Definition stream_allowed (base str n : Z) (st : Z * list A) (o : op) : Prop :=
  match o with
  | OAdvance a => 0 <= a /\ base + str * (fst st + a + w) < usize_mod
  | _ => allowed w n st o
  end.

(** Along a whole history (src/stride.rs:329-349). *)
Fixpoint all_stream_allowed (base str n : Z) (st : Z * list A) (h : list op) : Prop :=
  match h with
  | [] => True
  | o :: h' => stream_allowed base str n st o /\ all_stream_allowed base str n (snd (stream_call st o)) h'
  end.
End Abstract.
