(** Properties: every iterator a program can build (C15, C70). *)
From Verif Require Import Base Spec Vecs Iters Stride Zip StrideZip BuiltSpec.
From Coq Require Import Lia ZifyBool ZifyNat.
From Verif Require Import BuiltProofs.

(** C70.  In a debug build no sequence of calls on any iterator reads or writes
    outside the slices, vectors and tables involved: whatever values the fields of the
    iterator hold, and whatever is called in whatever order, misuse panics. *)
Theorem C70_debug_calls : forall (V I : Type) (c : config) (it : SIMDIterator V I) typed vtyped s h,
  build c = Debug -> iterator_of c V I it typed vtyped -> typed s -> Forall call_typed h ->
  make_calls c it s h <> UB /\ forall s', make_calls c it s h = Ok s' -> typed s'.
Proof. exact c70_debug_calls. Qed.
Print Assumptions C70_debug_calls.

(** C70, array-backed iterators: the same with [unpack]/[next]/[pack] among the calls,
    and for the random accesses [load] and [load_scalar] at any offset. *)
Theorem C70_debug_array : forall (A I : Type) (c : config) (arr : SIMDArray A I)
  (it : SIMDIterable (list A) I) typed s h,
  build c = Debug -> component_of c A I arr it typed -> typed s ->
  Forall (fun o => match o with Some k => call_typed k | None => True end) h ->
  make_component_calls c arr it s h <> UB /\
  forall s', make_component_calls c arr it s h = Ok s' ->
    forall off, usize off -> arr_load arr s' off <> UB /\ arr_load_scalar arr s' off <> UB.
Proof. exact c70_debug_array. Qed.
Print Assumptions C70_debug_array.

(** C70, consumers: after any calls, reducing, visiting and unrolling any iterator, with
    any closure ... *)
Theorem C70_debug_consumers : forall (V I B : Type) (c : config) (it : SIMDIterator V I) typed vtyped s h s'
  (acc : B) func fuel vdef amt u,
  build c = Debug -> iterator_of c V I it typed vtyped -> typed s -> Forall call_typed h ->
  make_calls c it s h = Ok s' ->
  simd_reduce it fuel s' acc func <> UB /\ simd_do_each it fuel s' acc func <> UB /\
  unroll vdef s' amt <> UB /\
  (unroll vdef s' amt = Ok u -> unrolled_drain (itb it) fuel u <> UB).
Proof. exact c70_debug_consumers. Qed.
Print Assumptions C70_debug_consumers.

(** ... and collecting or storing the scalars of any iterator over vectors, into a
    buffer of any length. *)
Theorem C70_debug_collect : forall (A I : Type) (c : config) (it : SIMDIterator (list A) I) typed s h s'
  (d0 : A) fuel buf,
  build c = Debug -> vector_iterator c A I it typed -> typed s -> Forall call_typed h ->
  make_calls c it s h = Ok s' ->
  scalar_collect c it d0 fuel s' <> UB /\ scalar_collect_all c it d0 fuel s' <> UB /\
  scalar_fill c it d0 fuel s' buf <> UB /\ scalar_fill_all c it d0 fuel s' buf <> UB.
Proof. exact c70_debug_collect. Qed.
Print Assumptions C70_debug_collect.

(** C70, in-place mutation from any position of a slice, and building a zip. *)
Theorem C70_debug_for_each_zip :
  (forall (A E : Type) (c : config) (ty : vty) (d0 : A) (func : E -> list A -> list A * E) s env fuel,
    build c = Debug -> vty_ok ty -> (forall e v, lanes ty v -> lanes ty (fst (func e v))) ->
    iter_typed ty (slice_ok ty) s -> simd_for_each c ty d0 func fuel s env <> UB) /\
  (forall (A I VR R : Type) (c : config) (arr : SIMDArray A I) (it : SIMDIterable (list A) I) typed
     (rest : ZipRest VR R) rtyped vtyped s,
    build c = Debug -> component_of c A I arr it typed -> rest_of c VR R rest rtyped vtyped ->
    typed (fst s) -> rtyped (snd s) -> zip (blanket_iterator c arr it) rest s <> UB).
Proof. exact c70_debug_for_each_zip. Qed.
Print Assumptions C70_debug_for_each_zip.

(** C15, every iterator, in every state and both build modes: once [next] has returned
    nothing, any number of further calls return nothing (and do not panic). *)
Theorem C15_fused_built : forall (V I : Type) (c : config) (it : SIMDIterator V I) typed vtyped s s' n,
  iterator_of c V I it typed vtyped ->
  it_next (itb it) s = Ok (None, s') -> only_none (itb it) n s'.
Proof. exact c15_fused_built. Qed.
Print Assumptions C15_fused_built.

Example C70_debug_calls_case : forall c, exists typed s,
  vector_iterator c Z _ (ex_zip c) typed /\ typed s /\
  Forall call_typed [CNext; CAdvance 7; CEnd; CFinalize] /\
  sm_iter s = (mkSIMDIter 0 [1;2;3;4;5] [0;0;0;0],
               mkPackedStride (mkSIMDIter 0 [1;2;3;4;5;6;7;8;9;10] [0;0;0;0]) 0 0 2 [9;9;9;9]).
Proof.
  intros c. eexists. exists (mkSIMDMap (mkSIMDIter 0 [1;2;3;4;5] [0;0;0;0],
    mkPackedStride (mkSIMDIter 0 [1;2;3;4;5;6;7;8;9;10] [0;0;0;0]) 0 0 2 [9;9;9;9]) 5).
  split; [|split; [|split]].
  - assert (Hty : vty_ok ex_ty) by (split; cbn; auto).
    eapply of_zipmap; [|exact Hty|].
    + eapply of_zip.
      * apply (component_iter c Z (list Z) (slice_array c ex_ty)). apply array_slice. exact Hty.
      * apply rest_of_one. apply component_stride. apply array_iter. apply array_slice. exact Hty.
    + intros e v [H _]. change (zlen (fst v) = 4) in H. change (zlen (firstn 4 (fst v)) = 4). unfold zlen in *. rewrite firstn_length. lia.
  - repeat split; cbn; try (unfold usize_mod; lia); vm_compute; congruence.
  - repeat constructor; cbn; unfold usize_mod; lia.
  - reflexivity.
Qed.

(** What C70 is about: the same call is undefined in a release build and panics in a
    debug build. *)
Example C70_release_differs :
  make_calls (mkConfig Release true) (slice_iterator (mkConfig Release true) ex_ty)
             (mkSIMDIter 0 (map Z.of_nat (seq 0 20)) [0;0;0;0]) [CEnd] = UB /\
  make_calls (mkConfig Debug true) (slice_iterator (mkConfig Debug true) ex_ty)
             (mkSIMDIter 0 (map Z.of_nat (seq 0 20)) [0;0;0;0]) [CEnd] = Panic /\
  make_calls (mkConfig Debug true) (slice_iterator (mkConfig Debug true) ex_ty)
             (mkSIMDIter 0 (map Z.of_nat (seq 0 6)) [0;0;0;0]) [CNext; CEnd; CEnd; CLen]
  = Ok (mkSIMDIter 6 (map Z.of_nat (seq 0 6)) [0;0;0;0]).
Proof. repeat split; vm_compute; reflexivity. Qed.

Example C70_debug_array_case : forall c, exists typed,
  component_of c Z _ (ps_array c (slice_array c ex_ty) 0) (ps_iterable c (slice_array c ex_ty) 0) typed /\
  typed (mkPackedStride [1;2;3;4;5;6;7;8;9;10] 1 1 3 [0;0;0;0]) /\
  make_component_calls (mkConfig Debug true) (ps_array (mkConfig Debug true) (slice_array (mkConfig Debug true) ex_ty) 0)
    (ps_iterable (mkConfig Debug true) (slice_array (mkConfig Debug true) ex_ty) 0)
    (mkPackedStride [1;2;3;4;5;6;7;8;9;10] 1 1 3 [0;0;0;0]) [None; Some CNext; None]
  = Ok (mkPackedStride [1;2;3;4;5;6;7;8;9;10] 7 1 3 [0;0;0;0]).
Proof.
  intros c. eexists. split; [|split].
  - apply component_stride. apply array_slice. split; cbn; auto.
  - repeat split; cbn; try (unfold usize_mod; lia); vm_compute; congruence.
  - vm_compute. reflexivity.
Qed.

Example C70_debug_consumers_case : let c := mkConfig Debug false in
  make_calls c (slice_iterator c ex_ty) (mkSIMDIter 0 [1;2;3;4;5;6;7;8;9] [0;0;0;0]) [CNext; CAdvance 1]
  = Ok (mkSIMDIter 5 [1;2;3;4;5;6;7;8;9] [0;0;0;0]) /\
  simd_reduce (slice_iterator c ex_ty) 5 (mkSIMDIter 5 [1;2;3;4;5;6;7;8;9] [0;0;0;0]) [] (fun acc v => acc ++ v)
  = Ok ([6;7;8;9], mkSIMDIter 9 [1;2;3;4;5;6;7;8;9] [0;0;0;0]).
Proof. split; vm_compute; reflexivity. Qed.

Example C70_debug_collect_case : let c := mkConfig Debug false in
  make_calls c (slice_iterator c ex_ty) (mkSIMDIter 0 [1;2;3;4;5;6;7;8;9] [0;0;0;0]) [CNext]
  = Ok (mkSIMDIter 4 [1;2;3;4;5;6;7;8;9] [0;0;0;0]) /\
  scalar_fill c (slice_iterator c ex_ty) 0 5 (mkSIMDIter 4 [1;2;3;4;5;6;7;8;9] [0;0;0;0]) [0;0;0;0] = Panic /\
  scalar_fill c (slice_iterator c ex_ty) 0 5 (mkSIMDIter 4 [1;2;3;4;5;6;7;8;9] [0;0;0;0]) [0;0;0;0;0;0]
  = Ok ([5;6;7;8;9;0], mkSIMDIter 9 [1;2;3;4;5;6;7;8;9] [0;0;0;0]).
Proof. repeat split; vm_compute; reflexivity. Qed.

Example C70_debug_for_each_zip_case : let c := mkConfig Debug true in
  simd_for_each c ex_ty 0 (fun (e : unit) v => (map (Z.add 1) v, e)) 9 (mkSIMDIter 3 [1;2;3;4;5;6;7] [0;0;0;0]) tt
  = Ok (mkSIMDIter 7 [1;2;3;5;6;7;8] [0;0;0;0], tt) /\
  simd_for_each c ex_ty 0 (fun (e : unit) v => (map (Z.add 1) v, e)) 9 (mkSIMDIter 4 [1;2;3;4;5;6;7] [0;0;0;0]) tt
  = Ok (mkSIMDIter 7 [0;0;0;0;6;7;8] [0;0;0;0], tt).
Proof. split; vm_compute; reflexivity. Qed.

Example C15_fused_built_case : let c := mkConfig Release true in
  exists s', it_next (itb (ex_zip c))
    (mkSIMDMap (mkSIMDIter 4 [1;2;3;4;5] [0;0;0;0],
       mkPackedStride (mkSIMDIter 0 [1;2;3;4;5;6;7;8;9;10] [0;0;0;0]) 0 0 2 [9;9;9;9]) 5)
  = Ok (None, s') /\ exists typed, iterator_of c _ _ (ex_zip c) typed (lanes ex_ty).
Proof.
  intros c. eexists. split; [vm_compute; reflexivity|].
  destruct (C70_debug_calls_case c) as (typed & s & H & _). exists typed.
  exact (of_vectors c Z _ (ex_zip c) typed H).
Qed.
