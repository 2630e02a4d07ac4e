(** Properties: strided views (C21-C26). *)
From Verif Require Import Base Spec Vecs Iters Stride.
From Verif Require Import StrideProofs.

(** C21.  Stream k of [stride(count, defaults)] delivers, through [next] and [end],
    exactly elements k, k+count, k+2*count, .. of the complete groups of the data, in
    order; [end] right-aligns the leftover over default k; then it is exhausted. *)
Theorem C21_stride : forall (A : Type) (c : config) (ty : vty) (l : list A) (count : Z)
    (defaults : list (list A)) (d0 : A) (fuel : nat),
  vty_ok ty -> slice_ok ty l -> 1 <= count -> count * (WIDTH ty + 1) <= 2 ^ 63 ->
  zlen defaults = count -> Forall (fun d => zlen d = WIDTH ty) defaults -> (length l < fuel)%nat ->
  let it := stride_iterator c (slice_array c ty) d0 in
  exists streams, stride l count defaults = Ok streams /\ zlen streams = count /\
  forall k s d, nth_error streams k = Some s -> nth_error defaults k = Some d ->
  exists out vs rest s',
    is_stream l (Z.of_nat k) count out /\
    drain it fuel s = Ok (vs, tail_of d rest, s') /\
    chunked (WIDTH ty) out vs rest /\ zlen rest <= WIDTH ty /\
    delivered vs (tail_of d rest) = out /\
    it_next (itb it) s' = Ok (None, s') /\ it_end it s' = Ok (None, s').
Proof. exact c21_stride. Qed.
Print Assumptions C21_stride.

Example C21_stride_case :
  let c := mkConfig Release true in let ty := mkVty 2 8 in
  let l := [0;1;2;3;4;5;6;7;8;9;10;11;12;13;14;15;16] in
  vty_ok ty /\ slice_ok ty l /\
  exists s0 s1 s2, stride l 3 [[90;91];[92;93];[94;95]] = Ok [s0; s1; s2] /\
  exists f0 f1 f2,
  drain (stride_iterator c (slice_array c ty) 0) 20 s0 = Ok ([[0;3];[6;9]], Some ([90;12], 1), f0) /\
  drain (stride_iterator c (slice_array c ty) 0) 20 s1 = Ok ([[1;4];[7;10]], Some ([92;13], 1), f1) /\
  drain (stride_iterator c (slice_array c ty) 0) 20 s2 = Ok ([[2;5];[8;11]], Some ([94;14], 1), f2).
Proof.
  split; [vm_compute; tauto|]. split; [vm_compute; congruence|].
  do 3 eexists. split; [reflexivity|]. do 3 eexists.
  split; [vm_compute; reflexivity|split; [vm_compute; reflexivity|vm_compute; reflexivity]].
Qed.

(** C17, refuted for strided streams also when fresh: [len] of stream k of
    [stride(count, _)] is the number of vectors [next] will return, plus one whenever the
    data holds at least count * WIDTH elements and at most k remain of the last block of
    count * WIDTH. *)
Theorem C17_len_stride_refuted : forall (A : Type) (c : config) (ty : vty) (l : list A) (count : Z)
    (defaults : list (list A)) (d0 : A) (fuel : nat),
  vty_ok ty -> slice_ok ty l -> 1 <= count -> count * (WIDTH ty + 1) <= 2 ^ 63 ->
  zlen defaults = count -> (length l < fuel)%nat ->
  let it := stride_iterator c (slice_array c ty) d0 in
  exists streams, stride l count defaults = Ok streams /\ zlen streams = count /\
  forall k s, nth_error streams k = Some s ->
  exists vs s' n, drain_next it fuel s = Ok (vs, s') /\ it_len (itb it) s = Ok n /\
    n = zlen l / (count * WIDTH ty) /\
    zlen vs = n - (if (count * WIDTH ty <=? zlen l) && (zlen l mod (count * WIDTH ty) <=? Z.of_nat k) then 1 else 0).
Proof. exact c17_len_stride_refuted. Qed.
Print Assumptions C17_len_stride_refuted.

Example C17_len_stride_case :
  let c := mkConfig Release true in let it := stride_iterator c (slice_array c (mkVty 4 4)) 0 in
  let s := fst (stride_two [1;2;3;4;5;6;7;8] ([0;0;0;0], [0;0;0;0])) in
  it_len (itb it) s = Ok 1 /\ drain_next it 9 s = Ok ([], s).
Proof. split; vm_compute; reflexivity. Qed.

(** C22, what holds for every length: merging what the streams deliver, round-robin,
    gives back the data up to the last complete group of [count] elements.  So for
    lengths that are a multiple of [count] the streams partition the data; for other
    lengths the leftover is dropped (see below). *)
Theorem C22_partition : forall (A : Type) (c : config) (ty : vty) (l : list A) (count : Z)
    (defaults : list (list A)) (d0 : A) (fuel : nat),
  vty_ok ty -> slice_ok ty l -> 1 <= count -> count * (WIDTH ty + 1) <= 2 ^ 63 ->
  zlen defaults = count -> Forall (fun d => zlen d = WIDTH ty) defaults -> (length l < fuel)%nat ->
  exists streams outs, stride l count defaults = Ok streams /\
    Forall2 (fun s out => exists vs t s',
       drain (stride_iterator c (slice_array c ty) d0) fuel s = Ok (vs, t, s') /\ delivered vs t = out)
      streams outs /\
    interleave outs (Z.to_nat (zlen l / count)) = firstn (Z.to_nat (zlen l / count * count)) l /\
    (zlen l mod count = 0 -> interleave outs (Z.to_nat (zlen l / count)) = l).
Proof. exact c22_partition. Qed.
Print Assumptions C22_partition.

Example C22_partition_whole_case :
  let c := mkConfig Debug true in let it := stride_iterator c (slice_array c (mkVty 2 8)) 0 in
  exists s0 s1 f0 f1, stride [0;1;2;3;4;5;6;7;8;9] 2 [[90;91];[92;93]] = Ok [s0; s1] /\
    drain it 20 s0 = Ok ([[0;2];[4;6]], Some ([90;8], 1), f0) /\ drain it 20 s1 = Ok ([[1;3];[5;7]], Some ([92;9], 1), f1) /\
    interleave [[0;2;4;6;8];[1;3;5;7;9]] 5 = [0;1;2;3;4;5;6;7;8;9].
Proof. do 4 eexists. split; [reflexivity|split; [vm_compute; reflexivity|split; [vm_compute; reflexivity|reflexivity]]]. Qed.

(** For other lengths: whenever [count] does not divide the length, the
    streams together deliver fewer elements than the data has. *)
Theorem C22_trailing_lost : forall (A : Type) (c : config) (ty : vty) (l : list A) (count : Z)
    (defaults : list (list A)) (d0 : A) (fuel : nat),
  vty_ok ty -> slice_ok ty l -> 1 <= count -> count * (WIDTH ty + 1) <= 2 ^ 63 ->
  zlen defaults = count -> Forall (fun d => zlen d = WIDTH ty) defaults -> (length l < fuel)%nat ->
  zlen l mod count <> 0 ->
  exists streams outs, stride l count defaults = Ok streams /\
    Forall2 (fun s out => exists vs t s',
       drain (stride_iterator c (slice_array c ty) d0) fuel s = Ok (vs, t, s') /\ delivered vs t = out)
      streams outs /\
    zlen (concat outs) < zlen l.
Proof. exact c22_trailing_lost. Qed.
Print Assumptions C22_trailing_lost.

Example C22_trailing_lost_case :
  let c := mkConfig Debug true in let it := stride_iterator c (slice_array c (mkVty 2 8)) 0 in
  exists s0 s1 f0 f1, stride [0;1;2;3;4] 2 [[90;91];[92;93]] = Ok [s0; s1] /\
    drain it 20 s0 = Ok ([[0;2]], None, f0) /\ drain it 20 s1 = Ok ([], Some ([1;3], 0), f1).
Proof. do 4 eexists. split; [reflexivity|split; [vm_compute; reflexivity|vm_compute; reflexivity]]. Qed.

Example C22_partition_case :
  interleave [[0;3;6];[1;4;7];[2;5;8]] 3 = [0;1;2;3;4;5;6;7;8].
Proof. reflexivity. Qed.

(** C23, the part that holds.  [next] of a strided iterator, in a debug build at any
    position whatsoever and in a release build at any position from which
    [pos + stride * WIDTH] does not overflow: it hands out elements that lie inside
    the data, nothing, or panics; it never reads outside the data. *)
Theorem C23_next_in_bounds_partial : forall (A : Type) (c : config) (ty : vty) (l d : list A) (d0 : A) (pos base str : Z),
  vty_ok ty -> slice_ok ty l -> 0 <= pos < usize_mod -> 0 <= base < usize_mod -> 0 <= str < usize_mod ->
  (build c = Debug \/ pos + str * WIDTH ty < usize_mod) ->
  match it_next (itb (stride_iterator c (slice_array c ty) d0)) (mkPackedStride l pos base str d) with
  | Ok (Some v, s') =>
      pos + str * WIDTH ty < zlen l /\ s' = mkPackedStride l (pos + str * WIDTH ty) base str d /\
      zlen v = WIDTH ty /\
      forall i, 0 <= i < WIDTH ty -> pos + str * i < zlen l /\ znth v i = znth l (pos + str * i)
  | Ok (None, s') => s' = mkPackedStride l pos base str d /\ zlen l <= pos + str * WIDTH ty
  | Panic => build c = Debug
  | UB | Fuel => False
  end.
Proof. exact c23_next_in_bounds_partial. Qed.
Print Assumptions C23_next_in_bounds_partial.

Example C23_next_in_bounds_case :
  let it := itb (stride_iterator (mkConfig Release true) (slice_array (mkConfig Release true) (mkVty 2 8)) 0) in
  it_next it (mkPackedStride [0;1;2;3;4;5;6;7] 1 1 3 [9;9]) = Ok (Some [1;4], mkPackedStride [0;1;2;3;4;5;6;7] 7 1 3 [9;9]) /\
  it_next it (mkPackedStride [0;1;2;3;4;5;6;7] 2 2 3 [9;9]) = Ok (None, mkPackedStride [0;1;2;3;4;5;6;7] 2 2 3 [9;9]).
Proof. split; vm_compute; reflexivity. Qed.

(** The same for the scalar iterator obtained by [unpack]; every state with
    [base < stride] whose position is not below the base. *)
Theorem C23_scalar_in_bounds_partial : forall (A : Type) (c : config) (ty : vty) (l d : list A) (d0 : A) (pos base str : Z),
  vty_ok ty -> slice_ok ty l -> 0 <= base < str -> base <= pos -> pos + str < usize_mod ->
  match unpacked_next (ps_array c (slice_array c ty) d0) (itb (stride_iterator c (slice_array c ty) d0))
          (mkPackedStride l pos base str d) with
  | Ok (Some x, s') => znth l (base + (pos - base) / str * str) = Some x /\
      s' = mkPackedStride l (pos + str) base str d
  | Ok (None, s') => s' = mkPackedStride l pos base str d
  | Panic => False
  | UB | Fuel => False
  end.
Proof. exact c23_scalar_in_bounds_partial. Qed.
Print Assumptions C23_scalar_in_bounds_partial.

Example C23_in_bounds_case :
  it_next (itb (stride_iterator (mkConfig Release true) (slice_array (mkConfig Release true) (mkVty 2 8)) 0))
    (mkPackedStride [0;1;2;3;4;5;6;7] 1 1 3 [9;9]) = Ok (Some [1;4], mkPackedStride [0;1;2;3;4;5;6;7] 7 1 3 [9;9]) /\
  it_next (itb (stride_iterator (mkConfig Debug true) (slice_array (mkConfig Debug true) (mkVty 2 8)) 0))
    (mkPackedStride [0;1;2;3;4;5;6;7] (usize_mod - 1) 1 3 [9;9]) = Panic.
Proof. split; vm_compute; reflexivity. Qed.

(** C23, refuted in release builds, at every position from which the end of the next
    vector wraps around to an offset inside the data: [next] reads outside the data. *)
Theorem C23_wrapped_next_refuted : forall (A : Type) (b : bool) (ty : vty) (l d : list A) (d0 : A) (pos base str : Z),
  let c := mkConfig Release b in
  vty_ok ty -> slice_ok ty l -> 0 <= str -> str * WIDTH ty < usize_mod -> zlen l <= pos < usize_mod ->
  usize_mod <= pos + str * WIDTH ty < usize_mod + zlen l ->
  it_next (itb (stride_iterator c (slice_array c ty) d0)) (mkPackedStride l pos base str d) = UB.
Proof. exact c23_wrapped_next_refuted. Qed.
Print Assumptions C23_wrapped_next_refuted.

Example C23_wrapped_next_case :
  let pos := usize_mod - 6 in
  0 <= 2 /\ 2 * 4 < usize_mod /\ 8 <= pos < usize_mod /\ usize_mod <= pos + 2 * 4 < usize_mod + 8 /\
  it_next (itb (stride_iterator (mkConfig Release true) (slice_array (mkConfig Release true) (mkVty 4 4)) 0))
    (mkPackedStride [0;1;2;3;4;5;6;7] pos 0 2 [9;9;9;9]) = UB.
Proof. repeat split; vm_compute; congruence. Qed.

(** Such a position is reached by safe code: one [advance] on a fresh two-way stride. *)
Theorem C23_in_bounds_refuted :
  let c := mkConfig Release true in let ty := mkVty 4 4 in
  let it := stride_iterator c (slice_array c ty) 0 in
  exists (l d : list Z) s s', vty_ok ty /\ slice_ok ty l /\ zlen d = 4 /\
    stride_two l (d, d) = (s, mkPackedStride l 1 1 2 d) /\
    it_advance (itb it) s (2 ^ 63 - 1) = Ok s' /\ it_next (itb it) s' = UB.
Proof. exact c23_in_bounds_refuted. Qed.
Print Assumptions C23_in_bounds_refuted.

Example C23_in_bounds_refuted_case :
  let it := stride_iterator (mkConfig Release true) (slice_array (mkConfig Release true) (mkVty 4 4)) 0 in
  it_advance (itb it) (fst (stride_two [0;1;2;3;4;5;6;7] ([9;9;9;9], [9;9;9;9]))) (2 ^ 63 - 1) =
    Ok (mkPackedStride [0;1;2;3;4;5;6;7] (usize_mod - 2) 0 2 [9;9;9;9]) /\
  it_next (itb it) (mkPackedStride [0;1;2;3;4;5;6;7] (usize_mod - 2) 0 2 [9;9;9;9]) = UB.
Proof. split; [vm_compute; reflexivity|]. apply (C23_wrapped_next_refuted Z true (mkVty 4 4)); vm_compute; try tauto; try (split; congruence); congruence. Qed.

(** C24.  Random access on a strided view, for offsets that do not overflow:
    [load_scalar(i)] is element base + i*count of the data and panics exactly when
    there is none; [load(i)] is the WIDTH elements from there and panics exactly when
    the last of them lies outside the data. *)
Theorem C24_random_access : forall (A : Type) (c : config) (ty : vty) (l d : list A) (d0 : A) (pos base str i : Z),
  vty_ok ty -> slice_ok ty l -> 0 <= base < str -> 0 <= i -> base + str * (i + WIDTH ty) < usize_mod ->
  let s := mkPackedStride l pos base str d in
  let arr := ps_array c (slice_array c ty) d0 in
  arr_load_scalar arr s i = match znth l (base + str * i) with Some x => Ok x | None => Panic end /\
  (base + str * (i + WIDTH ty - 1) < zlen l ->
     exists v, arr_load arr s i = Ok v /\ zlen v = WIDTH ty /\
       forall j, 0 <= j < WIDTH ty -> znth v j = znth l (base + str * (i + j))) /\
  (zlen l <= base + str * (i + WIDTH ty - 1) -> arr_load arr s i = Panic).
Proof. exact c24_random_access. Qed.
Print Assumptions C24_random_access.

Example C24_random_access_case :
  let arr := ps_array (mkConfig Debug true) (slice_array (mkConfig Debug true) (mkVty 2 8)) 0 in
  let s := mkPackedStride [0;1;2;3;4;5;6;7] 1 1 3 [9;9] in
  arr_load arr s 1 = Ok [4;7] /\ arr_load arr s 2 = Panic /\ arr_load_scalar arr s 2 = Ok 7 /\
  arr_load_scalar arr s 3 = Panic.
Proof. repeat split; vm_compute; reflexivity. Qed.

(** C25.  The fixed-count constructors build exactly the streams of [stride(count)],
    and [stride] panics exactly when the number of defaults is not [count]. *)
Theorem C25_constructors : forall (A T : Type) (data : T) (a b d e f g h i j : list A),
  (let '(s0, s1) := stride_two data (a, b) in stride data 2 [a; b] = Ok [s0; s1]) /\
  (let '(s0, s1, s2) := stride_three data (a, b, d) in stride data 3 [a; b; d] = Ok [s0; s1; s2]) /\
  (let '(s0, s1, s2, s3) := stride_four data (a, b, d, e) in
   stride data 4 [a; b; d; e] = Ok [s0; s1; s2; s3]) /\
  (let '(s0, s1, s2, s3, s4, s5, s6, s7, s8) := stride_nine data (a, b, d, e, f, g, h, i, j) in
   stride data 9 [a; b; d; e; f; g; h; i; j] = Ok [s0; s1; s2; s3; s4; s5; s6; s7; s8]) /\
  (forall count defaults, (exists ss, stride (A := A) data count defaults = Ok ss) <-> zlen defaults = count) /\
  (forall count defaults, stride (A := A) data count defaults = Panic <-> zlen defaults <> count).
Proof. exact c25_constructors. Qed.
Print Assumptions C25_constructors.

Example C25_constructors_case :
  stride_three [1;2;3;4;5;6;7] ([7], [8], [9]) =
    (mkPackedStride [1;2;3;4;5;6;7] 0 0 3 [7], mkPackedStride [1;2;3;4;5;6;7] 1 1 3 [8], mkPackedStride [1;2;3;4;5;6;7] 2 2 3 [9]) /\
  stride (A := Z) [1;2;3;4;5;6;7] 3 [[7];[8]] = Panic.
Proof. split; reflexivity. Qed.

(** C26.  Stream j of an n-fold stride of stream k of an m-fold stride delivers elements
    k + m*(j + n*i) of the data: a stride of m*n with base k + m*j. *)
Theorem C26_nested : forall (A : Type) (c : config) (ty : vty) (l d d' : list A) (d0 : A) (m n k j pos : Z) (fuel : nat),
  vty_ok ty -> slice_ok ty l -> zlen d = WIDTH ty -> zlen d' = WIDTH ty ->
  0 <= k < m -> 0 <= j < n -> m * (WIDTH ty + 1) <= 2 ^ 63 -> n * (WIDTH ty + 1) <= 2 ^ 63 ->
  (length l < fuel)%nat ->
  let inner := mkPackedStride l pos k m d in
  let arr := ps_array c (slice_array c ty) d0 in
  exists out vs t s',
    drain (stride_iterator c arr d0) fuel (mkPackedStride inner j j n d') = Ok (vs, t, s') /\
    delivered vs t = out /\ zlen out = zlen l / m / n /\
    forall i, 0 <= i < zlen out -> znth out i = znth l (k + m * j + m * n * i).
Proof. exact c26_nested. Qed.
Print Assumptions C26_nested.

Example C26_nested_case :
  let c := mkConfig Release true in let ty := mkVty 2 8 in
  let l := [0;1;2;3;4;5;6;7;8;9;10;11;12;13;14;15;16;17;18;19;20] in
  exists s', drain (stride_iterator c (ps_array c (slice_array c ty) 0) 0) 30
    (mkPackedStride (mkPackedStride l 1 1 2 [0;0]) 2 2 3 [90;91]) = Ok ([[5;11]], Some ([90;17], 1), s').
Proof. eexists. vm_compute. reflexivity. Qed.

Example C23_scalar_in_bounds_case : let c := mkConfig Debug true in let a := slice_array c (mkVty 2 8) in
  unpacked_next (ps_array c a 0) (itb (stride_iterator c a 0)) (mkPackedStride [0;1;2;3;4;5;6;7] 4 1 3 [9;9]) = Ok (Some 4, mkPackedStride [0;1;2;3;4;5;6;7] 7 1 3 [9;9]).
Proof. vm_compute; reflexivity. Qed.
