(** Model of src/stride_zip.rs: pairwise de-interleaving of one iterator. *)
From Verif Require Import Base Vecs Iters.

(** src/stride_zip.rs:6-10 [StrideZip]. *)
Record StrideZip (V I : Type) := mkStrideZip {
  sz_base : Z;
  sz_peek : option V;
  sz_iter : I
}.
Arguments mkStrideZip {V I} _ _ _.
Arguments sz_base {V I} _.
Arguments sz_peek {V I} _.
Arguments sz_iter {V I} _.

(** src/intrin/destride.rs:16-23 [destride_two_polyfill!] with $n = 0, 2, 4, ..:
    lane $n, resp. $n+1, of [self] and then of [other]. *)
Fixpoint even_lanes {A : Type} (l : list A) : list A :=
  match l with
  | x :: _ :: l' => x :: even_lanes l'
  | _ => []
  end.
(** src/intrin/destride.rs:16-23, the lanes of odd index. *)
Fixpoint odd_lanes {A : Type} (l : list A) : list A :=
  match l with
  | _ :: y :: l' => y :: odd_lanes l'
  | _ => []
  end.
(** src/intrin/destride.rs:16-23 [destride_two_polyfill!]. *)
Definition destride_two_polyfill {A : Type} (self other : list A) : list A * list A :=
  (even_lanes self ++ even_lanes other, odd_lanes self ++ odd_lanes other).

Section StrideZip.
Context {A I : Type}.
Variable c : config.
Variable it : SIMDIterator (list A) I.
Variable d0 : A.
Variable destride_two : list A -> list A -> list A * list A.
Let W := WIDTH (it_ty (itb it)).

(** src/stride_zip.rs:20-26 [stride_zip]. *)
Definition stride_zip (s : I) : outcome (StrideZip (list A) I) :=
  let! p := it_scalar_pos (itb it) s in
  Ok {| sz_base := p; sz_peek := None; sz_iter := s |}.

(** src/stride_zip.rs:83-92 [next]. *)
Definition sz_next (s : StrideZip (list A) I)
  : outcome (option (list A * list A) * StrideZip (list A) I) :=
  let! r := it_next (itb it) (sz_iter s) in
  match r with
  | (None, i') => Ok (None, {| sz_base := sz_base s; sz_peek := sz_peek s; sz_iter := i' |})
  | (Some first, i') =>
    let! r2 := it_next (itb it) i' in
    match r2 with
    | (Some second, i'') =>
      Ok (Some (destride_two first second),
          {| sz_base := sz_base s; sz_peek := sz_peek s; sz_iter := i'' |})
    | (None, i'') =>
      Ok (None, {| sz_base := sz_base s; sz_peek := Some first; sz_iter := i'' |})
    end
  end.

(** src/stride_zip.rs:96-111 [end]. *)
Definition sz_end (s : StrideZip (list A) I)
  : outcome (option ((list A * list A) * Z) * StrideZip (list A) I) :=
  let! r := it_next (itb it) (sz_iter s) in
  let first := fst r in
  let! re := it_end it (snd r) in
  let i2 := snd re in
  let e := match fst re with Some q => fst q | None => it_default (itb it) i2 end in
  let n := match fst re with Some q => snd q | None => 0 end in
  match first with
  | Some f =>
    let! wn := uadd c W n in
    Ok (Some (destride_two f e, wn / 2),
        {| sz_base := sz_base s; sz_peek := sz_peek s; sz_iter := i2 |})
  | None =>
    match sz_peek s with
    | Some v =>
      let! wn := uadd c W n in
      Ok (Some (destride_two v e, wn / 2),
          {| sz_base := sz_base s; sz_peek := None; sz_iter := i2 |})
    | None =>
      if 0 <? n then
        Ok (Some (destride_two e (it_default (itb it) i2), n / 2),
            {| sz_base := sz_base s; sz_peek := None; sz_iter := i2 |})
      else
        Ok (None, {| sz_base := sz_base s; sz_peek := sz_peek s; sz_iter := i2 |})
    end
  end.

(** src/stride_zip.rs:29-51 [SIMDZippedObject], [len]; 53-78 [SIMDZippedIterable];
    [vector_len] is src/zip.rs:90-92. *)
Definition sz_iterable : SIMDIterable (list A * list A) (StrideZip (list A) I) := {|
  it_ty := it_ty (itb it);
  it_next := sz_next;
  it_len := fun s => let! l := it_len (itb it) (sz_iter s) in Ok (l / 2);
  it_scalar_len := fun s => let! l := it_scalar_len (itb it) (sz_iter s) in Ok (l / 2);
  it_vector_len := fun s => let! l := it_scalar_len (itb it) (sz_iter s) in udiv (l / 2) W;
  it_scalar_pos := fun s => let! p := it_scalar_pos (itb it) (sz_iter s) in
                            let! d := usub c p (sz_base s) in Ok (d / 2);
  it_vector_pos := fun s => let! p := it_vector_pos (itb it) (sz_iter s) in
                            let! b := udiv (sz_base s) W in
                            let! d := usub c p b in Ok (d / 2);
  it_advance := fun s a => let! a2 := umul c 2 a in
                           let! i' := it_advance (itb it) (sz_iter s) a2 in
                           Ok {| sz_base := sz_base s; sz_peek := sz_peek s; sz_iter := i' |};
  it_default := fun _ => (splat W d0, splat W d0)
|}.

(** src/stride_zip.rs: the iterator with its [next] and [end]. *)
Definition stride_zip_iterator : SIMDIterator (list A * list A) (StrideZip (list A) I) :=
  {| itb := sz_iterable; it_end := sz_end |}.
End StrideZip.
