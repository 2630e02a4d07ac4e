(** Vocabulary for statements about every iterator a program can build: which
    arrays and iterators there are, what the Rust types guarantee about their
    values, and the calls a program can make on them.  No behaviour is assumed. *)
From Verif Require Import Base Spec Vecs Iters Stride Zip StrideZip.

(** A value of type [usize]. *)
Definition usize (n : Z) : Prop := 0 <= n < usize_mod.

(** A vector of type [ty]. *)
Definition lanes {A : Type} (ty : vty) (v : list A) : Prop := zlen v = WIDTH ty.

(** Values of the iterator types, whatever their fields hold; [typed] says the same
    of the array inside. *)
Definition iter_typed {A T : Type} (ty : vty) (typed : T -> Prop) (s : SIMDIter A T) : Prop :=
  usize (si_position s) /\ typed (si_data s) /\ lanes ty (si_default s).

Definition stride_typed {A T : Type} (ty : vty) (typed : T -> Prop) (s : PackedStride A T) : Prop :=
  usize (ps_pos s) /\ usize (ps_base s) /\ usize (ps_stride s) /\ typed (ps_iter s) /\
  lanes ty (ps_default s).

Definition adapter_typed {A : Type} (ty : vty) (s : SIMDAdapter A) : Prop :=
  usize (ad_position s) /\ lanes ty (ad_scratch s) /\ lanes ty (ad_default s).

Definition stride_zip_typed {V I : Type} (vtyped : V -> Prop) (typed : I -> Prop)
  (s : StrideZip V I) : Prop :=
  usize (sz_base s) /\ (forall v, sz_peek s = Some v -> vtyped v) /\ typed (sz_iter s).

(** Arrays: slices, iterators over arrays used as arrays, strided views of arrays;
    nested to any depth. *)
Inductive array_of (c : config) : forall (A T : Type), SIMDArray A T -> (T -> Prop) -> Prop :=
| array_slice (A : Type) (ty : vty) :
    vty_ok ty -> array_of c A (list A) (slice_array c ty) (slice_ok ty)
| array_iter (A T : Type) (arr : SIMDArray A T) (typed : T -> Prop) :
    array_of c A T arr typed ->
    array_of c A (SIMDIter A T) (si_array arr) (iter_typed (arr_ty arr) typed)
| array_stride (A T : Type) (arr : SIMDArray A T) (typed : T -> Prop) (d0 : A) :
    array_of c A T arr typed ->
    array_of c A (PackedStride A T) (ps_array c arr d0) (stride_typed (arr_ty arr) typed).

(** Array-backed iterators: those of [simd_iter] and of [stride]. *)
Inductive component_of (c : config)
  : forall (A I : Type), SIMDArray A I -> SIMDIterable (list A) I -> (I -> Prop) -> Prop :=
| component_iter (A T : Type) (arr : SIMDArray A T) (typed : T -> Prop) :
    array_of c A T arr typed ->
    component_of c A (SIMDIter A T) (si_array arr) (si_iterable c arr) (iter_typed (arr_ty arr) typed)
| component_stride (A T : Type) (arr : SIMDArray A T) (typed : T -> Prop) (d0 : A) :
    array_of c A T arr typed ->
    component_of c A (PackedStride A T) (ps_array c arr d0) (ps_iterable c arr d0)
                 (stride_typed (arr_ty arr) typed).

(** The components after the first of a zip; they may differ in type and number. *)
Inductive rest_of (c : config)
  : forall (VR R : Type), ZipRest VR R -> (R -> Prop) -> (VR -> Prop) -> Prop :=
| rest_of_one (A I : Type) (arr : SIMDArray A I) (it : SIMDIterable (list A) I) (typed : I -> Prop) :
    component_of c A I arr it typed ->
    rest_of c (list A) I (rest_one (blanket_unsafe c arr it)) typed (lanes (it_ty it))
| rest_of_cons (A I VR R : Type) (arr : SIMDArray A I) (it : SIMDIterable (list A) I)
    (typed : I -> Prop) (rest : ZipRest VR R) (rtyped : R -> Prop) (vtyped : VR -> Prop) :
    component_of c A I arr it typed -> rest_of c VR R rest rtyped vtyped ->
    rest_of c (list A * VR) (I * R) (rest_cons (blanket_unsafe c arr it) rest)
            (fun s => typed (fst s) /\ rtyped (snd s))
            (fun v => lanes (it_ty it) (fst v) /\ vtyped (snd v)).

(** Iterators whose items are vectors: array-backed iterators, adapters of scalar
    iterators, maps with any stateful closure that returns vectors of its result type.
    Iterators whose items are tuples of vectors: zips and [stride_zip].  A map over
    one of these yields vectors again; all are nested to any depth.  [typed] is what
    the types guarantee about the state, [vtyped] about the tuples. *)
Inductive vector_iterator (c : config)
  : forall (A I : Type), SIMDIterator (list A) I -> (I -> Prop) -> Prop :=
| of_component (A I : Type) (arr : SIMDArray A I) (it : SIMDIterable (list A) I) (typed : I -> Prop) :
    component_of c A I arr it typed ->
    vector_iterator c A I (blanket_iterator c arr it) typed
| of_adapter (A : Type) (ty : vty) :
    vty_ok ty -> vector_iterator c A (SIMDAdapter A) (adapter_iterator c ty) (adapter_typed ty)
| of_map (A B I E : Type) (it : SIMDIterator (list A) I) (typed : I -> Prop)
    (out_ty : vty) (d0 : B) (func : E -> list A -> list B * E) :
    vector_iterator c A I it typed -> vty_ok out_ty ->
    (forall e v, lanes (it_ty (itb it)) v -> lanes out_ty (fst (func e v))) ->
    vector_iterator c B (SIMDMap I E) (map_iterator c it out_ty d0 func) (fun s => typed (sm_iter s))
| of_zipmap (V B I E : Type) (it : SIMDIterator V I) (typed : I -> Prop) (vtyped : V -> Prop)
    (out_ty : vty) (d0 : B) (func : E -> V -> list B * E) :
    zipped_iterator c V I it typed vtyped -> vty_ok out_ty ->
    (forall e v, vtyped v -> lanes out_ty (fst (func e v))) ->
    vector_iterator c B (SIMDMap I E) (zipmap_iterator c it out_ty d0 func) (fun s => typed (sm_iter s))
with zipped_iterator (c : config)
  : forall (V I : Type), SIMDIterator V I -> (I -> Prop) -> (V -> Prop) -> Prop :=
| of_zip (A I VR R : Type) (arr : SIMDArray A I) (it : SIMDIterable (list A) I) (typed : I -> Prop)
    (rest : ZipRest VR R) (rtyped : R -> Prop) (vtyped : VR -> Prop) :
    component_of c A I arr it typed -> rest_of c VR R rest rtyped vtyped ->
    zipped_iterator c (list A * VR) (I * R) (zip_iterator (blanket_iterator c arr it) rest)
                    (fun s => typed (fst s) /\ rtyped (snd s))
                    (fun v => lanes (it_ty it) (fst v) /\ vtyped (snd v))
| of_stride_zip (A I : Type) (it : SIMDIterator (list A) I) (typed : I -> Prop)
    (d0 : A) (destride_two : list A -> list A -> list A * list A) :
    vector_iterator c A I it typed ->
    (forall a b, lanes (it_ty (itb it)) a -> lanes (it_ty (itb it)) b ->
       lanes (it_ty (itb it)) (fst (destride_two a b)) /\ lanes (it_ty (itb it)) (snd (destride_two a b))) ->
    zipped_iterator c (list A * list A) (StrideZip (list A) I)
                    (stride_zip_iterator c it d0 destride_two)
                    (stride_zip_typed (lanes (it_ty (itb it))) typed)
                    (fun v => lanes (it_ty (itb it)) (fst v) /\ lanes (it_ty (itb it)) (snd v)).

(** Every iterator. *)
Inductive iterator_of (c : config)
  : forall (V I : Type), SIMDIterator V I -> (I -> Prop) -> (V -> Prop) -> Prop :=
| of_vectors (A I : Type) (it : SIMDIterator (list A) I) (typed : I -> Prop) :
    vector_iterator c A I it typed -> iterator_of c (list A) I it typed (lanes (it_ty (itb it)))
| of_tuples (V I : Type) (it : SIMDIterator V I) (typed : I -> Prop) (vtyped : V -> Prop) :
    zipped_iterator c V I it typed vtyped -> iterator_of c V I it typed vtyped.

(** The calls a program can make on an iterator. *)
Inductive any_call :=
| CNext | CEnd | CAdvance (amount : Z) | CFinalize
| CLen | CScalarLen | CVectorLen | CScalarPos | CVectorPos.

Definition call_typed (k : any_call) : Prop :=
  match k with CAdvance a => usize a | _ => True end.

(** The effect of one call on the iterator (what it returns is dropped; a panic or an
    undefined access is not). *)
Definition make_call {V I : Type} (c : config) (it : SIMDIterator V I) (s : I) (k : any_call)
  : outcome I :=
  match k with
  | CNext => let! r := it_next (itb it) s in Ok (snd r)
  | CEnd => let! r := it_end it s in Ok (snd r)
  | CAdvance a => it_advance (itb it) s a
  | CFinalize => finalize c (itb it) s
  | CLen => let! _ := it_len (itb it) s in Ok s
  | CScalarLen => let! _ := it_scalar_len (itb it) s in Ok s
  | CVectorLen => let! _ := it_vector_len (itb it) s in Ok s
  | CScalarPos => let! _ := it_scalar_pos (itb it) s in Ok s
  | CVectorPos => let! _ := it_vector_pos (itb it) s in Ok s
  end.

Fixpoint make_calls {V I : Type} (c : config) (it : SIMDIterator V I) (s : I) (h : list any_call)
  : outcome I :=
  match h with
  | [] => Ok s
  | k :: h' => let! s' := make_call c it s k in make_calls c it s' h'
  end.

(** On array-backed iterators also [unpack], one [next], [pack]. *)
Fixpoint make_component_calls {A I : Type} (c : config) (arr : SIMDArray A I)
  (it : SIMDIterable (list A) I) (s : I) (h : list (option any_call)) : outcome I :=
  match h with
  | [] => Ok s
  | Some k :: h' => let! s' := make_call c (blanket_iterator c arr it) s k in
                    make_component_calls c arr it s' h'
  | None :: h' => let! r := unpacked_next arr it s in
                  make_component_calls c arr it (snd r) h'
  end.

(** [n] further calls of [next], all of which return nothing. *)
Fixpoint only_none {V I : Type} (it : SIMDIterable V I) (n : nat) (s : I) : Prop :=
  match n with
  | O => True
  | S n' => exists s', it_next it s = Ok (None, s') /\ only_none it n' s'
  end.
