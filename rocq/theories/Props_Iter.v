(** Properties: traversal of slice iterators (C01-C07, C15-C18, C20, C51). *)
From Verif Require Import Base Spec Vecs Iters History.
From Verif Require Import IterProofs.

(** C01.  Draining an iterator delivers every remaining scalar exactly once, in
    order: full chunks first, then a leftover shorter than a vector. *)
Theorem C01_traversal : forall (A : Type) (c : config) (ty : vty) (l d : list A) (k : Z) (fuel : nat),
  vty_ok ty -> slice_ok ty l -> zlen d = WIDTH ty ->
  0 <= k <= zlen l -> (k = 0 \/ WIDTH ty < zlen l) -> (length l < fuel)%nat ->
  exists vs rest,
    drain (slice_iterator c ty) fuel (mkSIMDIter k l d) =
      Ok (vs, tail_of d rest, mkSIMDIter (zlen l) l d) /\
    chunked (WIDTH ty) (skipn (Z.to_nat k) l) vs rest /\ zlen rest < WIDTH ty /\
    delivered vs (tail_of d rest) = skipn (Z.to_nat k) l.
Proof. exact c01_traversal. Qed.
Print Assumptions C01_traversal.

Example C01_traversal_case :
  vty_ok (mkVty 4 4) /\ slice_ok (mkVty 4 4) [1;2;3;4;5;6;7] /\
  drain (slice_iterator (mkConfig Release true) (mkVty 4 4)) 8
        (mkSIMDIter 2 [1;2;3;4;5;6;7] [91;92;93;94]) =
    Ok ([[3;4;5;6]], Some ([91;92;93;7], 3), mkSIMDIter 7 [1;2;3;4;5;6;7] [91;92;93;94]) /\
  drain (slice_iterator (mkConfig Debug false) (mkVty 4 4)) 8
        (mkSIMDIter 0 [1;2;3] [91;92;93;94]) =
    Ok ([], Some ([91;1;2;3], 1), mkSIMDIter 3 [1;2;3] [91;92;93;94]).
Proof. repeat split; try (vm_compute; tauto); vm_compute; congruence. Qed.

(** C02.  With at most a vector's worth of scalars left, [end] returns them in the
    last lanes of the default vector together with the number of unfilled lanes,
    and nothing if none are left; afterwards [next], [end] and scalar iteration
    return nothing. *)
Theorem C02_end : forall (A : Type) (c : config) (ty : vty) (l d : list A) (k : Z),
  vty_ok ty -> slice_ok ty l -> zlen d = WIDTH ty ->
  0 <= k <= zlen l -> zlen l - k <= WIDTH ty -> (k = 0 \/ WIDTH ty < zlen l) ->
  let it := slice_iterator c ty in
  let left := skipn (Z.to_nat k) l in
  let s' := mkSIMDIter (zlen l) l d in
  it_end it (mkSIMDIter k l d) =
    Ok (match left with
        | [] => None
        | _ => Some (firstn (Z.to_nat (WIDTH ty - zlen left)) d ++ left, WIDTH ty - zlen left)
        end, s') /\
  it_next (itb it) s' = Ok (None, s') /\ it_end it s' = Ok (None, s') /\
  unpacked_next (si_array (slice_array c ty)) (itb it) s' = Ok (None, s').
Proof. exact c02_end. Qed.
Print Assumptions C02_end.

Example C02_end_case :
  vty_ok (mkVty 8 2) /\ slice_ok (mkVty 8 2) [1;2;3;4;5;6;7;8;9;10;11] /\
  it_end (slice_iterator (mkConfig Release true) (mkVty 8 2))
         (mkSIMDIter 6 [1;2;3;4;5;6;7;8;9;10;11] [80;81;82;83;84;85;86;87]) =
    Ok (Some ([80;81;82;7;8;9;10;11], 3),
        mkSIMDIter 11 [1;2;3;4;5;6;7;8;9;10;11] [80;81;82;83;84;85;86;87]).
Proof. repeat split; try (vm_compute; tauto); vm_compute; congruence. Qed.

(** C51, refuted.  "[end] hands out the leftover of a slice no longer than a vector,
    also when some scalars have already been consumed" is false for every such
    slice and position: debug builds panic and release builds write outside the
    vector, because [end] indexes lanes by the absolute position. *)
Theorem C51_short_partly_consumed_refuted :
  forall (A : Type) (c : config) (ty : vty) (l d : list A) (k : Z),
  vty_ok ty -> slice_ok ty l -> zlen d = WIDTH ty -> 0 < k < zlen l -> zlen l <= WIDTH ty ->
  it_end (slice_iterator c ty) (mkSIMDIter k l d) =
  match build c with Debug => Panic | Release => UB end.
Proof. exact c51_short_partly_consumed_refuted. Qed.
Print Assumptions C51_short_partly_consumed_refuted.

(** The state is reached by safe code: one scalar step of [unpack], then [pack]. *)
Example C51_short_partly_consumed_case :
  calls (mkConfig Release true) (mkVty 4 4) (simd_iter [1;2;3] [0;0;0;0]) [OScalar] =
    Ok ([AScalar (Some 1)], mkSIMDIter 1 [1;2;3] [0;0;0;0]) /\
  calls (mkConfig Release true) (mkVty 4 4) (simd_iter [1;2;3] [0;0;0;0]) [OScalar; OEnd] = UB /\
  calls (mkConfig Debug true) (mkVty 4 4) (simd_iter [1;2;3] [0;0;0;0]) [OScalar; OEnd] = Panic.
Proof. repeat split; vm_compute; reflexivity. Qed.

(** C03, the part that holds: in a debug build [end] called at any position
    whatsoever never touches memory it should not; and in every build, called with
    at most a vector left on a slice longer than a vector (or on an untouched one),
    it is correct (C02).  What fails in release builds is
    [C03_end_any_time_refuted]. *)
Theorem C03_end_debug_partial : forall (A : Type) (b : bool) (ty : vty) (l d : list A) (pos : Z),
  vty_ok ty -> slice_ok ty l -> zlen d = WIDTH ty -> 0 <= pos < usize_mod ->
  match it_end (slice_iterator (mkConfig Debug b) ty) (mkSIMDIter pos l d) with
  | Ok (Some (v, n), s') =>
      pos < zlen l /\ s' = mkSIMDIter (zlen l) l d /\ n = WIDTH ty - (zlen l - pos) /\ 0 <= n /\
      v = right_aligned d (skipn (Z.to_nat pos) l)
  | Ok (None, s') => zlen l <= pos /\ s' = mkSIMDIter pos l d
  | Panic => True
  | UB | Fuel => False
  end.
Proof. exact c03_end_debug_partial. Qed.
Print Assumptions C03_end_debug_partial.

Example C03_end_debug_case :
  it_end (slice_iterator (mkConfig Debug true) (mkVty 4 4)) (mkSIMDIter 1 [1;2;3;4;5;6] [0;0;0;0]) = Panic /\
  it_end (slice_iterator (mkConfig Debug true) (mkVty 4 4)) (mkSIMDIter 2 [1;2;3;4;5;6] [0;0;0;0]) =
    Ok (Some ([3;4;5;6], 0), mkSIMDIter 6 [1;2;3;4;5;6] [0;0;0;0]).
Proof. split; vm_compute; reflexivity. Qed.

(** C03, refuted, at every position with more than a vector left: a debug build panics; so
    does a release build on a portable back-end; on a blend back-end a release build
    hands out the last vector of the slice with a nonsensical count, and skips the
    rest, if at most 64 bytes are left; otherwise it reads past the end of the mask
    table or panics. *)
Theorem C03_end_any_time_refuted : forall (A : Type) (c : config) (ty : vty) (l d : list A) (pos : Z),
  vty_ok ty -> slice_ok ty l -> zlen d = WIDTH ty -> 0 <= pos -> WIDTH ty < zlen l - pos ->
  let left := zlen l - pos in
  it_end (slice_iterator c ty) (mkSIMDIter pos l d) =
  match build c with
  | Debug => Panic
  | Release =>
    if negb (blend c) then Panic
    else if left <=? 64 / SIZE ty then
      Ok (Some (skipn (length l - Z.to_nat (WIDTH ty)) l, 2 ^ 64 - (left - WIDTH ty)), mkSIMDIter (zlen l) l d)
    else if 64 / SIZE ty + left <=? 128 then UB
    else Panic
  end.
Proof. exact c03_end_any_time_refuted. Qed.
Print Assumptions C03_end_any_time_refuted.

Example C03_end_any_time_case :
  it_end (slice_iterator (mkConfig Release true) (mkVty 4 4)) (simd_iter [1;2;3;4;5;6] [0;0;0;0]) =
    Ok (Some ([3;4;5;6], 2 ^ 64 - 2), mkSIMDIter 6 [1;2;3;4;5;6] [0;0;0;0]) /\
  it_end (slice_iterator (mkConfig Release true) (mkVty 4 4)) (simd_iter (repeat 7 17) [0;0;0;0]) = UB /\
  it_end (slice_iterator (mkConfig Release true) (mkVty 16 1)) (simd_iter (repeat 7 65) (repeat 0 16)) = Panic.
Proof. repeat split; vm_compute; reflexivity. Qed.

(** C04.  [next] from any value of the position: a vector that lies inside the
    slice, nothing, or a panic (only when [position + width] overflows); never a read
    outside the slice. *)
Theorem C04_next_safe : forall (A : Type) (c : config) (ty : vty) (l d : list A) (pos : Z),
  vty_ok ty -> slice_ok ty l -> 0 <= pos < usize_mod ->
  match it_next (itb (slice_iterator c ty)) (mkSIMDIter pos l d) with
  | Ok (Some v, s') => pos + WIDTH ty <= zlen l /\ s' = mkSIMDIter (pos + WIDTH ty) l d /\
      zlen v = WIDTH ty /\ forall i, 0 <= i < WIDTH ty -> znth v i = znth l (pos + i)
  | Ok (None, s') => zlen l < pos + WIDTH ty /\ s' = mkSIMDIter pos l d
  | Panic => usize_mod <= pos + WIDTH ty
  | UB | Fuel => False
  end.
Proof. exact c04_next_safe. Qed.
Print Assumptions C04_next_safe.

Example C04_next_safe_case :
  it_next (itb (slice_iterator (mkConfig Release true) (mkVty 4 4)))
          (mkSIMDIter (usize_mod - 3) [1;2;3;4;5] [0;0;0;0]) = Panic /\
  it_next (itb (slice_iterator (mkConfig Release true) (mkVty 4 4)))
          (mkSIMDIter 1 [1;2;3;4;5] [0;0;0;0]) = Ok (Some [2;3;4;5], mkSIMDIter 5 [1;2;3;4;5] [0;0;0;0]).
Proof. split; vm_compute; reflexivity. Qed.

(** C05.  Every allowed history of calls gets exactly the answers of the abstract
    machine that holds the number of scalars passed and the scalars left. *)
Theorem C05_history : forall (A : Type) (c : config) (ty : vty) (l d : list A) (h : list op),
  vty_ok ty -> slice_ok ty l -> zlen d = WIDTH ty ->
  all_allowed (WIDTH ty) d (zlen l) (0, l) h ->
  exists s', calls c ty (simd_iter l d) h = Ok (fst (abs_calls (WIDTH ty) d (0, l) h), s').
Proof. exact c05_history. Qed.
Print Assumptions C05_history.

Example C05_history_case :
  all_allowed 4 [0;0;0;0] 11 (0, [1;2;3;4;5;6;7;8;9;10;11])
    [ONext; OScalar; OVectorPos; OAdvance 1; ONext; OEnd; ONext; OScalarPos] /\
  exists s',
  calls (mkConfig Release true) (mkVty 4 4) (simd_iter [1;2;3;4;5;6;7;8;9;10;11] [0;0;0;0])
    [ONext; OScalar; OVectorPos; OAdvance 1; ONext; OEnd; ONext; OScalarPos] =
  Ok ([AVector (Some [1;2;3;4]); AScalar (Some 5); ANum 1; ANothing; AVector (Some [7;8;9;10]);
       ATail (Some ([0;0;0;11], 3)); AVector None; ANum 11], s').
Proof. split; [vm_compute; intuition congruence|eexists; vm_compute; reflexivity]. Qed.

(** C06.  [simd_reduce] and [simd_do_each] are the fold of the closure over the full
    chunks in order and then, once, over the padded leftover if there is one;
    ceil(len / WIDTH) calls in all. *)
Theorem C06_reduce : forall (A B : Type) (c : config) (ty : vty) (l d : list A) (k : Z) (start : B)
    (f : B -> list A -> B) (fuel : nat),
  vty_ok ty -> slice_ok ty l -> zlen d = WIDTH ty ->
  0 <= k <= zlen l -> (k = 0 \/ WIDTH ty < zlen l) -> (length l < fuel)%nat ->
  exists vs rest,
    chunked (WIDTH ty) (skipn (Z.to_nat k) l) vs rest /\ zlen rest < WIDTH ty /\
    let args := vs ++ match rest with [] => [] | _ => [right_aligned d rest] end in
    zlen args = (zlen l - k + WIDTH ty - 1) / WIDTH ty /\
    simd_reduce (slice_iterator c ty) fuel (mkSIMDIter k l d) start f =
      Ok (fold_left f args start, mkSIMDIter (zlen l) l d) /\
    simd_do_each (slice_iterator c ty) fuel (mkSIMDIter k l d) start f =
      Ok (fold_left f args start, mkSIMDIter (zlen l) l d).
Proof. exact c06_reduce. Qed.
Print Assumptions C06_reduce.

Example C06_reduce_case :
  simd_reduce (slice_iterator (mkConfig Release true) (mkVty 4 4)) 8
    (simd_iter [1;2;3;4;5;6;7] [9;9;9;9]) [] (fun acc v => acc ++ [v]) =
  Ok ([[1;2;3;4]; [9;5;6;7]], mkSIMDIter 7 [1;2;3;4;5;6;7] [9;9;9;9]).
Proof. vm_compute. reflexivity. Qed.

(** C07.  For a commutative monoid, reducing lane-wise from splat(e) with a default
    vector of e's, and then reducing the lanes, is the scalar fold of the slice;
    so any two widths agree.  [g] is applied to every lane on the way (a fused
    [simd_map]); it must send the default lanes to e. *)
Theorem C07_width_independent : forall (A B : Type) (op : B -> B -> B) (e : B) (g : A -> B) (x0 : A),
  (forall x y z, op x (op y z) = op (op x y) z) -> (forall x y, op x y = op y x) ->
  (forall x, op e x = x) -> g x0 = e ->
  forall (c : config) (ty : vty) (l : list A) (fuel : nat),
  vty_ok ty -> slice_ok ty l -> (length l < fuel)%nat ->
  exists acc s',
    simd_reduce (slice_iterator c ty) fuel (simd_iter l (splat (WIDTH ty) x0)) (splat (WIDTH ty) e)
      (fun a v => map2 op a (map g v)) = Ok (acc, s') /\
    zlen acc = WIDTH ty /\ fold_left op acc e = fold_left op (map g l) e.
Proof. exact c07_width_independent. Qed.
Print Assumptions C07_width_independent.

Example C07_width_independent_case :
  exists a1 s1 a2 s2,
  simd_reduce (slice_iterator (mkConfig Release true) (mkVty 4 4)) 20
    (simd_iter [1;2;3;4;5;6;7;8;9] (splat 4 0)) (splat 4 0) (fun a v => map2 Z.add a (map (Z.mul 3) v)) = Ok (a1, s1) /\
  simd_reduce (slice_iterator (mkConfig Release false) (mkVty 8 8)) 20
    (simd_iter [1;2;3;4;5;6;7;8;9] (splat 8 0)) (splat 8 0) (fun a v => map2 Z.add a (map (Z.mul 3) v)) = Ok (a2, s2) /\
  fold_left Z.add a1 0 = 135 /\ fold_left Z.add a2 0 = 135 /\ a1 <> a2.
Proof.
  do 4 eexists. split; [vm_compute; reflexivity|]. split; [vm_compute; reflexivity|].
  repeat split; vm_compute; congruence.
Qed.

(** C15.  Whatever the state, a [next] that returns nothing leaves the iterator
    unchanged, so it keeps returning nothing; and once [end] has been called with at
    most a vector left, or [finalize] has, both [next] and [end] return nothing. *)
Theorem C15_fused : forall (A : Type) (c : config) (ty : vty) (l d : list A),
  vty_ok ty -> slice_ok ty l -> zlen d = WIDTH ty ->
  let it := slice_iterator c ty in
  (forall pos s', 0 <= pos < usize_mod ->
     it_next (itb it) (mkSIMDIter pos l d) = Ok (None, s') -> s' = mkSIMDIter pos l d) /\
  (forall pos s' t, 0 <= pos < usize_mod ->
     it_end it (mkSIMDIter pos l d) = Ok (t, s') ->
     (t = None \/ exists v n, t = Some (v, n) /\ 0 <= n <= WIDTH ty) ->
     it_end it s' = Ok (None, s') /\
     (pos + WIDTH ty < usize_mod -> it_next (itb it) s' = Ok (None, s'))) /\
  (forall pos s', 0 <= pos < usize_mod -> finalize c (itb it) (mkSIMDIter pos l d) = Ok s' ->
     s' = mkSIMDIter (zlen l) l d /\
     it_next (itb it) s' = Ok (None, s') /\ it_end it s' = Ok (None, s')).
Proof. exact c15_fused. Qed.
Print Assumptions C15_fused.

Example C15_fused_case :
  it_next (itb (slice_iterator (mkConfig Release true) (mkVty 4 4))) (mkSIMDIter 3 [1;2;3;4;5] [0;0;0;0]) =
    Ok (None, mkSIMDIter 3 [1;2;3;4;5] [0;0;0;0]) /\
  it_end (slice_iterator (mkConfig Release true) (mkVty 4 4)) (mkSIMDIter 3 [1;2;3;4;5] [0;0;0;0]) =
    Ok (Some ([0;0;4;5], 2), mkSIMDIter 5 [1;2;3;4;5] [0;0;0;0]) /\
  finalize (mkConfig Debug true) (itb (slice_iterator (mkConfig Debug true) (mkVty 4 4)))
    (mkSIMDIter 3 [1;2;3;4;5] [0;0;0;0]) = Ok (mkSIMDIter 5 [1;2;3;4;5] [0;0;0;0]).
Proof. repeat split; vm_compute; reflexivity. Qed.

(** C16.  [unroll(k)] for 1 <= k <= 8 yields the chunks in groups of k, the last one
    possibly shorter, none empty, and leaves the iterator where [next] would have
    left it; k > 8 panics; k = 0 yields nothing at all. *)
Theorem C16_unroll : forall (A : Type) (c : config) (ty : vty) (l d vdef : list A) (k amt : Z) (fuel : nat),
  vty_ok ty -> slice_ok ty l -> zlen d = WIDTH ty ->
  0 <= k <= zlen l -> 0 <= amt < usize_mod -> (length l < fuel)%nat ->
  let it := itb (slice_iterator c ty) in
  let s := mkSIMDIter k l d in
  (8 < amt -> unroll vdef s amt = Panic) /\
  (amt = 0 -> forall u, unroll vdef s amt = Ok u -> unrolled_next it u = Ok (None, u)) /\
  (1 <= amt <= 8 ->
   exists u gs vs rest u',
     unroll vdef s amt = Ok u /\ unrolled_drain it fuel u = Ok (gs, u') /\
     chunked (WIDTH ty) (skipn (Z.to_nat k) l) vs rest /\ zlen rest < WIDTH ty /\
     concat gs = vs /\ grouped (Z.to_nat amt) vs gs /\
     ur_iter u' = mkSIMDIter (k + WIDTH ty * zlen vs) l d).
Proof. exact c16_unroll. Qed.
Print Assumptions C16_unroll.

Example C16_unroll_case :
  unrolled_drain (itb (slice_iterator (mkConfig Release true) (mkVty 2 8))) 10
    (mkUnrolled (simd_iter [1;2;3;4;5;6;7] [0;0]) 2 (repeat [0;0] 8)) =
  Ok ([[[1;2];[3;4]]; [[5;6]]],
      mkUnrolled (mkSIMDIter 6 [1;2;3;4;5;6;7] [0;0]) 2 ([5;6] :: [3;4] :: repeat [0;0] 6)).
Proof. vm_compute. reflexivity. Qed.

(** C16.  [chunk_len] is the group size asked for, and [chunk_pos] counts groups: after any
    number of calls it is the number of vectors delivered before and since [unroll],
    divided by the group size. *)
Theorem C16_chunk_pos : forall (A : Type) (c : config) (ty : vty) (l d vdef : list A) (k amt : Z) (n : nat),
  vty_ok ty -> slice_ok ty l -> 0 <= k <= zlen l -> 0 <= amt <= 8 ->
  let it := itb (slice_iterator c ty) in
  exists u gs u', unroll vdef (mkSIMDIter k l d) amt = Ok u /\ next_groups it n u = Ok (gs, u') /\
    chunk_len u' = amt /\
    chunk_pos it u' = (if amt =? 0 then Panic else Ok ((k / WIDTH ty + zlen (concat gs)) / amt)).
Proof. exact c16_chunk_pos. Qed.
Print Assumptions C16_chunk_pos.

Example C16_chunk_pos_case : exists u gs u', unroll [0;0] (simd_iter [1;2;3;4;5;6;7;8;9;10;11] [0;0]) 2 = Ok u /\
  next_groups (itb (slice_iterator (mkConfig Debug true) (mkVty 2 8))) 2 u = Ok (gs, u') /\ gs = [[[1;2];[3;4]]; [[5;6];[7;8]]] /\
  chunk_pos (itb (slice_iterator (mkConfig Debug true) (mkVty 2 8))) u' = Ok 2.
Proof. do 3 eexists. repeat split; vm_compute; reflexivity. Qed.
