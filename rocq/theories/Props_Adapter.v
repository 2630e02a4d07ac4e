(** Properties: stride_zip and the scalar adapter (C31, C32). *)
From Verif Require Import Base Spec Vecs Iters StrideZip.
From Verif Require Import AdapterProofs.

(** C31, the part that holds, for every length: [next] yields len / (2*WIDTH) pairs of
    full vectors, the first components together are the elements at even positions of
    those blocks, the second components those at odd positions; if the length is a
    multiple of 2*WIDTH that is all the data, and [end] returns nothing. *)
Theorem C31_blocks_partial : forall (A : Type) (c : config) (ty : vty) (l d : list A) (d0 : A) (fuel : nat),
  vty_ok ty -> slice_ok ty l -> zlen d = WIDTH ty -> (length l < fuel)%nat ->
  let it := slice_iterator c ty in
  let z := stride_zip_iterator c it d0 destride_two_polyfill in
  let n := zlen l / (2 * WIDTH ty) in
  exists s0 vs s', stride_zip it (simd_iter l d) = Ok s0 /\ drain_next z fuel s0 = Ok (vs, s') /\
    zlen vs = n /\ Forall (fun p => zlen (fst p) = WIDTH ty /\ zlen (snd p) = WIDTH ty) vs /\
    is_stream (firstn (Z.to_nat (2 * WIDTH ty * n)) l) 0 2 (concat (map fst vs)) /\
    is_stream (firstn (Z.to_nat (2 * WIDTH ty * n)) l) 1 2 (concat (map snd vs)) /\
    (zlen l mod (2 * WIDTH ty) = 0 ->
       is_stream l 0 2 (concat (map fst vs)) /\ is_stream l 1 2 (concat (map snd vs)) /\
       exists s'', it_end z s' = Ok (None, s'')).
Proof. exact c31_blocks_partial. Qed.
Print Assumptions C31_blocks_partial.

Example C31_blocks_case :
  let c := mkConfig Release true in let ty := mkVty 2 8 in
  let z := stride_zip_iterator c (slice_iterator c ty) 0 destride_two_polyfill in
  exists s0 s' s'', stride_zip (slice_iterator c ty) (simd_iter [1;2;3;4;5;6;7;8] [0;0]) = Ok s0 /\
    drain_next z 9 s0 = Ok ([([1;3],[2;4]); ([5;7],[6;8])], s') /\ it_end z s' = Ok (None, s'').
Proof. do 3 eexists. split; [reflexivity|]. split; [vm_compute; reflexivity|vm_compute; reflexivity]. Qed.

(** C31, positions: a [stride_zip] counts pairs from where its iterator stood.  It starts
    at pair 0, [advance(a)] skips [a] pairs, [next] then returns the next WIDTH pairs of
    neighbours and moves on by WIDTH pairs; [scalar_len] is the number of pairs of the
    whole slice and [vector_len] the number of full vectors they make. *)
Theorem C31_positions : forall (A : Type) (c : config) (ty : vty) (l d : list A) (d0 : A) (k a : Z),
  vty_ok ty -> slice_ok ty l -> 0 <= k -> 0 <= a -> k + 2 * a + 2 * WIDTH ty <= zlen l ->
  let it := slice_iterator c ty in
  let z := stride_zip_iterator c it d0 destride_two_polyfill in
  let block := sub l (k + 2 * a) (2 * WIDTH ty) in
  exists s0 s1 s2 p q,
    stride_zip it (mkSIMDIter k l d) = Ok s0 /\ it_scalar_pos (itb z) s0 = Ok 0 /\ it_vector_pos (itb z) s0 = Ok 0 /\
    it_scalar_len (itb z) s0 = Ok (zlen l / 2) /\ it_vector_len (itb z) s0 = Ok (zlen l / 2 / WIDTH ty) /\
    it_advance (itb z) s0 a = Ok s1 /\ it_scalar_pos (itb z) s1 = Ok a /\
    it_next (itb z) s1 = Ok (Some (p, q), s2) /\ is_stream block 0 2 p /\ is_stream block 1 2 q /\
    it_scalar_pos (itb z) s2 = Ok (a + WIDTH ty) /\
    (k mod WIDTH ty = 0 -> it_vector_pos (itb z) s1 = Ok (a / WIDTH ty) /\ it_vector_pos (itb z) s2 = Ok (a / WIDTH ty + 1)).
Proof. exact c31_positions. Qed.
Print Assumptions C31_positions.

Example C31_positions_case :
  let c := mkConfig Debug true in let ty := mkVty 2 8 in
  let z := stride_zip_iterator c (slice_iterator c ty) 0 destride_two_polyfill in
  exists s0 s1 s2, stride_zip (slice_iterator c ty) (mkSIMDIter 2 [0;0;1;2;3;4;5;6;7;8] [0;0]) = Ok s0 /\
    it_advance (itb z) s0 1 = Ok s1 /\ it_next (itb z) s1 = Ok (Some ([3;5],[4;6]), s2) /\ it_scalar_pos (itb z) s2 = Ok 3.
Proof. do 3 eexists. repeat split; vm_compute; reflexivity. Qed.

(** C31, refuted for other lengths: with an even number r of scalars left over, other
    than 0 and WIDTH, [end] reports a number of missing pairs that is wrong by half a
    vector: the pair of vectors holds r/2 pairs, so WIDTH - r/2 are missing. *)
Theorem C31_tail_count_refuted : forall (A : Type) (c : config) (ty : vty) (l d : list A) (d0 : A) (fuel : nat),
  vty_ok ty -> slice_ok ty l -> zlen d = WIDTH ty -> (length l < fuel)%nat ->
  let it := slice_iterator c ty in
  let z := stride_zip_iterator c it d0 destride_two_polyfill in
  let r := zlen l mod (2 * WIDTH ty) in
  r <> 0 -> r <> WIDTH ty -> r mod 2 = 0 ->
  exists vs p n s', drain z fuel (mkStrideZip 0 None (simd_iter l d)) = Ok (vs, Some (p, n), s') /\
    n <> WIDTH ty - r / 2 /\ (r < WIDTH ty -> n = WIDTH ty - r / 2 - WIDTH ty / 2) /\
    (WIDTH ty < r -> n = WIDTH ty - r / 2 + WIDTH ty / 2).
Proof. exact c31_tail_count_refuted. Qed.
Print Assumptions C31_tail_count_refuted.

(** A leftover of 2 of 8: the data is in the middle, the count says 3 missing. *)
Example C31_tail_case :
  let c := mkConfig Release true in let ty := mkVty 4 4 in
  let z := stride_zip_iterator c (slice_iterator c ty) 0 destride_two_polyfill in
  exists s', drain z 9 (mkStrideZip 0 None (simd_iter [1;2] [0;0;0;0])) = Ok ([], Some (([0;1;0;0],[0;2;0;0]), 1), s').
Proof. eexists. vm_compute. reflexivity. Qed.

(** C32, the part that holds: the first [next] of a fresh adapter packs the first WIDTH
    scalars in order, if there are that many. *)
Theorem C32_first_vector_partial : forall (A : Type) (c : config) (ty : vty) (l scr d : list A),
  vty_ok ty -> zlen scr = WIDTH ty -> WIDTH ty <= zlen l ->
  it_next (ad_iterable c ty) (mkSIMDAdapter l scr d 0) =
    Ok (Some (sub l 0 (WIDTH ty)), mkSIMDAdapter (skipn (Z.to_nat (WIDTH ty)) l) (sub l 0 (WIDTH ty)) d (WIDTH ty)).
Proof. exact c32_first_vector_partial. Qed.
Print Assumptions C32_first_vector_partial.

Example C32_first_vector_case :
  it_next (ad_iterable (mkConfig Debug true) (mkVty 4 4)) (mkSIMDAdapter [1;2;3;4;5;6] [0;0;0;0] [9;9;9;9] 0) =
    Ok (Some [1;2;3;4], mkSIMDAdapter [5;6] [1;2;3;4] [9;9;9;9] 4).
Proof. vm_compute. reflexivity. Qed.

(** C32, refuted for every sequence shorter than a vector: the scalars come out in
    reverse order, and the reported number of unfilled lanes is one too small. *)
Theorem C32_short_refuted : forall (A : Type) (c : config) (ty : vty) (l scr d : list A) (fuel : nat),
  vty_ok ty -> zlen d = WIDTH ty -> 0 < zlen l < WIDTH ty -> (0 < fuel)%nat ->
  exists s', drain (adapter_iterator c ty) fuel (mkSIMDAdapter l scr d 0) =
    Ok ([], Some (right_aligned d (rev l), WIDTH ty - zlen l - 1), s').
Proof. exact c32_short_refuted. Qed.
Print Assumptions C32_short_refuted.

Example C32_short_case :
  let c := mkConfig Debug true in
  exists s', drain (adapter_iterator c (mkVty 4 4)) 5 (mkSIMDAdapter [1;2] [0;0;0;0] [9;9;9;9] 0) = Ok ([], Some ([9;9;2;1], 1), s').
Proof. eexists. vm_compute. reflexivity. Qed.

(** C32, refuted: [next] stops half-way, after (len/WIDTH + 1)/2 of the len/WIDTH full
    vectors.  If len/WIDTH is odd or len is a multiple of WIDTH, [end] then returns
    nothing, and everything after those vectors is silently lost.  Only for len = 0 and
    len = WIDTH is that nothing. *)
Theorem C32_lost_refuted : forall (A : Type) (c : config) (ty : vty) (l scr d : list A) (fuel : nat),
  vty_ok ty -> zlen scr = WIDTH ty -> zlen l < usize_mod -> (length l < fuel)%nat ->
  (zlen l / WIDTH ty) mod 2 = 1 \/ zlen l mod WIDTH ty = 0 ->
  exists vs lost s', drain (adapter_iterator c ty) fuel (mkSIMDAdapter l scr d 0) = Ok (vs, None, s') /\
    chunked (WIDTH ty) l vs lost /\ zlen vs = (zlen l / WIDTH ty + 1) / 2 /\
    (lost = [] <-> zlen l = 0 \/ zlen l = WIDTH ty).
Proof. exact c32_lost_refuted. Qed.
Print Assumptions C32_lost_refuted.

Example C32_lost_case :
  let c := mkConfig Release true in
  vty_ok (mkVty 4 4) /\
  exists s', drain (adapter_iterator c (mkVty 4 4)) 5 (mkSIMDAdapter [1;2;3;4;5;6] [0;0;0;0] [9;9;9;9] 0) = Ok ([[1;2;3;4]], None, s').
Proof. split; [vm_compute; tauto|]. eexists. vm_compute. reflexivity. Qed.

Example C32_lost_long_case :
  let c := mkConfig Release true in
  exists s', drain (adapter_iterator c (mkVty 2 8)) 9 (mkSIMDAdapter [1;2;3;4;5;6;7;8] [0;0] [9;9] 0) = Ok ([[1;2];[3;4]], None, s').
Proof. eexists. vm_compute. reflexivity. Qed.

(** C32, refuted for all remaining lengths (len/WIDTH even and positive, len not a multiple
    of WIDTH): [end] runs off the front of the vector; a panic in debug builds, an
    out-of-bounds write in release builds. *)
Theorem C32_overrun_refuted : forall (A : Type) (c : config) (ty : vty) (l scr d : list A) (fuel : nat),
  vty_ok ty -> zlen scr = WIDTH ty -> zlen l < usize_mod -> (length l < fuel)%nat ->
  (zlen l / WIDTH ty) mod 2 = 0 -> 2 * WIDTH ty <= zlen l -> zlen l mod WIDTH ty <> 0 ->
  drain (adapter_iterator c ty) fuel (mkSIMDAdapter l scr d 0) = match build c with Debug => Panic | Release => UB end.
Proof. exact c32_overrun_refuted. Qed.
Print Assumptions C32_overrun_refuted.

Example C32_overrun_case :
  drain (adapter_iterator (mkConfig Debug true) (mkVty 4 4)) 5 (mkSIMDAdapter [1;2;3;4;5;6;7;8;9] [0;0;0;0] [9;9;9;9] 0) = Panic /\
  drain (adapter_iterator (mkConfig Release true) (mkVty 4 4)) 5 (mkSIMDAdapter [1;2;3;4;5;6;7;8;9] [0;0;0;0] [9;9;9;9] 0) = UB.
Proof. split; vm_compute; reflexivity. Qed.
