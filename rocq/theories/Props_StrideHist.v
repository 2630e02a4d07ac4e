(** Properties: histories of calls on strided streams (C23). *)
From Verif Require Import Base Spec Vecs Iters Stride History StrideHistory.
From Coq Require Import Lia ZifyBool ZifyNat.
From Verif Require Import StrideHistProofs.

(** C23, histories.  Every allowed history of calls on a stream of [stride(count, _)]
    gets exactly the answers of the abstract machine that holds the number of scalars
    passed and the scalars left, in both build modes; in particular no call of it
    reads outside the data. *)
Theorem C23_history_partial : forall (A : Type) (c : config) (ty : vty) (l : list A) (count : Z)
    (defaults : list (list A)) (d0 : A),
  vty_ok ty -> slice_ok ty l -> 1 <= count -> count * (WIDTH ty + 1) <= 2 ^ 63 ->
  zlen defaults = count -> Forall (fun d => zlen d = WIDTH ty) defaults ->
  let arr := ps_array c (slice_array c ty) d0 in let it := ps_iterable c (slice_array c ty) d0 in
  exists streams, stride l count defaults = Ok streams /\ zlen streams = count /\
  forall k s d out h, nth_error streams k = Some s -> nth_error defaults k = Some d ->
  is_stream l (Z.of_nat k) count out ->
  let more := Z.of_nat k <? zlen l mod count in
  all_stream_allowed (WIDTH ty) d more (Z.of_nat k) count (zlen out) (0, out) h ->
  exists s', component_calls c arr it s h = Ok (fst (stream_calls (WIDTH ty) d more (0, out) h), s').
Proof. exact c23_history_partial. Qed.
Print Assumptions C23_history_partial.

Example C23_history_partial_case :
  let c := mkConfig Release true in let ty := mkVty 2 8 in let l := [0;1;2;3;4;5;6;7;8;9;10;11;12;13;14;15;16] in
  let h := [ONext; OScalar; OVectorPos; ONext; OScalarPos; OEnd; ONext; OAdvance 5; OScalar; OScalarPos] in
  is_stream l 1 3 [1;4;7;10;13] /\
  all_stream_allowed 2 [90;91] true 1 3 5 (0, [1;4;7;10;13]) h /\
  exists s', component_calls c (ps_array c (slice_array c ty) 0) (ps_iterable c (slice_array c ty) 0)
    (mkPackedStride l 1 1 3 [90;91]) h =
  Ok ([AVector (Some [1;4]); AScalar (Some 7); ANum 1; AVector (Some [10;13]); ANum 5; ATail None; AVector None;
       ANothing; AScalar None; ANum 10], s').
Proof.
  split; [|split; [vm_compute; intuition congruence|eexists; vm_compute; reflexivity]].
  split; [reflexivity|]. intros k Hk. change (zlen _) with 5 in Hk.
  assert (k = 0 \/ k = 1 \/ k = 2 \/ k = 3 \/ k = 4) as [->|[->|[->|[->| ->]]]] by lia; reflexivity.
Qed.

(** C23, release builds, complete: what [next] does in every state whatsoever.  With all
    arithmetic modulo 2^64, it returns the elements at [pos + stride * i] if
    [pos + stride * WIDTH] lies inside the data and all these do, and nothing if it does
    not; it reads outside the data exactly when [pos + stride * WIDTH] lies inside but
    one of the [pos + stride * i] does not. *)
Theorem C23_next_release : forall (A : Type) (b : bool) (ty : vty) (l d : list A) (d0 : A) (pos base str : Z),
  let c := mkConfig Release b in let at_ i := (pos + str * i) mod usize_mod in
  vty_ok ty -> slice_ok ty l -> 0 <= pos < usize_mod -> 0 <= str < usize_mod ->
  match it_next (itb (stride_iterator c (slice_array c ty) d0)) (mkPackedStride l pos base str d) with
  | Ok (Some v, s') =>
      at_ (WIDTH ty) < zlen l /\ s' = mkPackedStride l (at_ (WIDTH ty)) base str d /\ zlen v = WIDTH ty /\
      forall i, 0 <= i < WIDTH ty -> at_ i < zlen l /\ znth v i = znth l (at_ i)
  | Ok (None, s') => zlen l <= at_ (WIDTH ty) /\ s' = mkPackedStride l pos base str d
  | UB => at_ (WIDTH ty) < zlen l /\ exists i, 0 <= i < WIDTH ty /\ zlen l <= at_ i
  | Panic | Fuel => False
  end.
Proof. exact c23_next_release. Qed.
Print Assumptions C23_next_release.

Example C23_next_release_case :
  (* a stride that wraps into the data at every step: no undefined access *)
  it_next (itb (stride_iterator (mkConfig Release true) (slice_array (mkConfig Release true) (mkVty 2 8)) 0))
    (mkPackedStride [0;1;2;3;4;5;6;7] 6 0 (usize_mod - 3) [9;9]) =
    Ok (Some [6; 3], mkPackedStride [0;1;2;3;4;5;6;7] 0 0 (usize_mod - 3) [9;9]).
Proof. vm_compute. reflexivity. Qed.
