(** Model of src/zip.rs: zipped iterators and the map over them. *)
From Verif Require Import Base Vecs Iters.

(** The components after the first of a zipped tuple.  The macro impl_iter_zip!
    (src/zip.rs:223-303) is expanded for 2 to 13 components; a tuple
    (A, B, C, ..) is modelled as the first component and the right-nested product
    of the others, built with [rest_one] and [rest_cons]. *)
Record ZipRest (V R : Type) := mkZipRest {
  (** [self.0.len() != self.1.len() || self.0.len() != self.2.len() || ..],
      given [self.0.len()]. *)
  rest_mismatch : R -> Z -> outcome bool;
  rest_next : R -> Z -> outcome V;
  rest_end : R -> Z -> Z -> outcome V;
  rest_default : R -> V
}.
Arguments rest_mismatch {V R} _ _ _.
Arguments rest_next {V R} _ _ _.
Arguments rest_end {V R} _ _ _ _.
Arguments rest_default {V R} _ _.

(** The last component (src/zip.rs:228, 251, 279, 299 for one index [$n]). *)
Definition rest_one {V I : Type} (un : UnsafeIterator V I) : ZipRest V I := {|
  rest_mismatch := fun s n0 => let! n := un_len un s in Ok (negb (n0 =? n));
  rest_next := un_next un;
  rest_end := un_end un;
  rest_default := un_default un
|}.

(** One component followed by others: same expressions, evaluated left to right,
    the comparison short-circuiting.
    src/zip.rs:223-303 [impl_iter_zip!], for tuples of more than two. *)
Definition rest_cons {V I VR R : Type} (un : UnsafeIterator V I) (more : ZipRest VR R)
  : ZipRest (V * VR) (I * R) := {|
  rest_mismatch := fun s n0 =>
    let! n := un_len un (fst s) in
    if negb (n0 =? n) then Ok true else rest_mismatch more (snd s) n0;
  rest_next := fun s pos =>
    let! v := un_next un (fst s) pos in
    let! vs := rest_next more (snd s) pos in Ok (v, vs);
  rest_end := fun s pos n =>
    let! v := un_end un (fst s) pos n in
    let! vs := rest_end more (snd s) pos n in Ok (v, vs);
  rest_default := fun s => (un_default un (fst s), rest_default more (snd s))
|}.

Section Zip.
Context {V I VR R : Type}.
Variable c : config.
Variable it : SIMDIterator V I.
Variable rest : ZipRest VR R.

(** src/zip.rs:227-232 [zip]; the state of a zip is the tuple of iterators
    (src/zip.rs:42-44). *)
Definition zip (s : I * R) : outcome (I * R) :=
  let! n0 := it_len (itb it) (fst s) in
  let! bad := rest_mismatch rest (snd s) n0 in
  if bad then Panic else Ok s.

(** src/zip.rs:248-253 [next]. *)
Definition zip_next (s : I * R) : outcome (option (V * VR) * (I * R)) :=
  let! pos := it_scalar_pos (itb it) (fst s) in
  let! r := it_next (itb it) (fst s) in
  match r with
  | (Some v, i') =>
    let! vs := rest_next rest (snd s) pos in
    Ok (Some (v, vs), (i', snd s))
  | (None, i') => Ok (None, (i', snd s))
  end.

(** src/zip.rs:276-281 [end]. *)
Definition zip_end (s : I * R) : outcome (option ((V * VR) * Z) * (I * R)) :=
  let! pos := it_scalar_pos (itb it) (fst s) in
  let! r := it_end it (fst s) in
  match r with
  | (Some (v, n), i') =>
    let! vs := rest_end rest (snd s) pos n in
    Ok (Some ((v, vs), n), (i', snd s))
  | (None, i') => Ok (None, (i', snd s))
  end.

(** src/zip.rs:235-241 [len], 256-270 [width]/[size], 284-302
    [SIMDZippedIterable] with the defaults of 72-106: [scalar_len] is [len],
    [vector_len] and [vector_pos] divide by the first width. *)
Definition zip_iterable : SIMDIterable (V * VR) (I * R) := {|
  it_ty := it_ty (itb it);
  it_next := zip_next;
  it_len := fun s => it_len (itb it) (fst s);
  it_scalar_len := fun s => it_len (itb it) (fst s);
  it_vector_len := fun s => let! l := it_len (itb it) (fst s) in
                            udiv l (WIDTH (it_ty (itb it)));
  it_scalar_pos := fun s => it_scalar_pos (itb it) (fst s);
  it_vector_pos := fun s => let! p := it_scalar_pos (itb it) (fst s) in
                            udiv p (WIDTH (it_ty (itb it)));
  it_advance := fun s a => let! i' := it_advance (itb it) (fst s) a in Ok (i', snd s);
  it_default := fun s => (it_default (itb it) (fst s), rest_default rest (snd s))
|}.

(** src/zip.rs:243-282: [next] and [end] of a zip. *)
Definition zip_iterator : SIMDIterator (V * VR) (I * R) :=
  {| itb := zip_iterable; it_end := zip_end |}.
End Zip.

Section ZipMap.
Context {V B I E : Type}.
Variable c : config.
Variable it : SIMDIterator V I.
Variable out_ty : vty.
Variable d0 : B.
Variable func : E -> V -> list B * E.

(** src/zip.rs:305-371 [SIMDZipMap]: [next], [len], [advance], [default] and [end]
    are those of [SIMDMap]; [scalar_len] and [vector_len] (329-342) are those of
    the zipped iterator. *)
Definition zipmap_iterable : SIMDIterable (list B) (SIMDMap I E) := {|
  it_ty := out_ty;
  it_next := sm_next it func;
  it_len := fun s => it_len (itb it) (sm_iter s);
  it_scalar_len := fun s => it_scalar_len (itb it) (sm_iter s);
  it_vector_len := fun s => it_vector_len (itb it) (sm_iter s);
  it_scalar_pos := fun s => it_scalar_pos (itb it) (sm_iter s);
  it_vector_pos := fun s => let! p := it_scalar_pos (itb it) (sm_iter s) in
                            udiv p (WIDTH out_ty);
  it_advance := sm_advance it;
  it_default := fun _ => splat (WIDTH out_ty) d0
|}.

(** src/zip.rs:305-371: [next] and [end] of a mapped zip. *)
Definition zipmap_iterator : SIMDIterator (list B) (SIMDMap I E) :=
  {| itb := zipmap_iterable; it_end := sm_end c it out_ty func |}.
End ZipMap.
