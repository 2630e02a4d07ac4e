(** Properties: mapping, collecting, filling and in-place mutation (C08-C14, C17-C20, C52). *)
From Verif Require Import Base Spec Vecs Iters Stride CollectSpec.
From Verif Require Import CollectProofs.

(** C08.  Any chain of lane-wise [simd_map]s over a fresh slice iterator, collected,
    is the element-wise map of the slice: same length, same order, every cell
    initialised ([Some]), whatever the default vector, width and build. *)
Theorem C08_map_collect : forall (A B : Type) (c : config) (ty : vty) (l d : list A)
    (I : Type) (it : SIMDIterator (list B) I) (s : I) (f : A -> B) (d0 : B) (fuel : nat),
  vty_ok ty -> zlen d = WIDTH ty -> (zlen l + WIDTH ty) * SIZE ty <= isize_max ->
  map_chain c (slice_iterator c ty) (simd_iter l d) B I it s f ->
  (length l < fuel)%nat ->
  exists s', scalar_collect c it d0 fuel s = Ok (map Some (map f l), s').
Proof. exact c08_map_collect. Qed.
Print Assumptions C08_map_collect.

Example C08_map_collect_case :
  let c := mkConfig Release true in let ty := mkVty 4 4 in
  let m1 := map_iterator c (slice_iterator c ty) ty 0 (fun (n : Z) v => (map (Z.mul 10) v, n + 1)) in
  let m2 := map_iterator c m1 ty true (fun (_ : unit) v => (map (Z.leb 50) v, tt)) in
  let s := mkSIMDMap (mkSIMDMap (simd_iter [1;2;3;4;5;6;7] [91;92;93;94]) 0) tt in
  map_chain c (slice_iterator c ty) (simd_iter [1;2;3;4;5;6;7] [91;92;93;94]) bool _ m2 s
            (fun x => (50 <=? 10 * x)) /\
  exists s', scalar_collect c m2 false 9 s =
    Ok (map Some [false;false;false;false;true;true;true], s').
Proof.
  split.
  - apply (chain_map _ _ _ Z _ _ _ (fun x => 10 * x) bool unit (mkVty 4 4) true
             (fun (_ : unit) v => (map (Z.leb 50) v, tt)) tt (Z.leb 50)); try reflexivity.
    2: vm_compute; tauto.
    apply (chain_map _ _ _ Z _ _ _ (fun x => x) Z Z (mkVty 4 4) 0
             (fun (n : Z) v => (map (Z.mul 10) v, n + 1)) 0 (Z.mul 10)); try reflexivity.
    2: vm_compute; tauto.
    apply chain_start.
  - eexists. vm_compute. reflexivity.
Qed.

(** C09.  For an arbitrary stateful closure from vectors to vectors of the same byte
    size, the collected scalars are its results on the full chunks, in order,
    followed by the last lanes of its result on the padded leftover; the closure's
    state is threaded through exactly those calls. *)
Theorem C09_collect_closure : forall (A B E : Type) (c : config) (ty out_ty : vty) (l d : list A)
    (func : E -> list A -> list B * E) (e : E) (d0 d1 : B) (fuel : nat),
  vty_ok ty -> vty_ok out_ty -> WIDTH ty * SIZE ty = WIDTH out_ty * SIZE out_ty ->
  zlen d = WIDTH ty -> (zlen l + WIDTH ty) * SIZE ty <= isize_max ->
  (forall e v, zlen v = WIDTH ty -> zlen (fst (func e v)) = WIDTH out_ty) ->
  (length l < fuel)%nat ->
  exists vs rest,
    chunked (WIDTH ty) l vs rest /\ zlen rest < WIDTH ty /\
    let (ys, e1) := run_closure func e vs in
    let tail := match rest with
                | [] => []
                | _ => skipn (Z.to_nat ((WIDTH ty - zlen rest) * SIZE ty / SIZE out_ty))
                             (fst (func e1 (right_aligned d rest)))
                end in
    let e2 := match rest with [] => e1 | _ => snd (func e1 (right_aligned d rest)) end in
    scalar_collect c (map_iterator c (slice_iterator c ty) out_ty d0 func) d1 fuel
      (mkSIMDMap (simd_iter l d) e) =
    Ok (map Some (concat ys ++ tail), mkSIMDMap (mkSIMDIter (zlen l) l d) e2).
Proof. exact c09_collect_closure. Qed.
Print Assumptions C09_collect_closure.

Example C09_collect_closure_case :
  scalar_collect (mkConfig Release true)
    (map_iterator (mkConfig Release true) (slice_iterator (mkConfig Release true) (mkVty 4 4)) (mkVty 2 8) 0
       (fun (n : Z) v => ([n; fold_left Z.add v 0], n + 1))) 0 9
    (mkSIMDMap (simd_iter [1;2;3;4;5] [9;9;9;9]) 100) =
  Ok ([Some 100; Some 10; Some 32], mkSIMDMap (mkSIMDIter 5 [1;2;3;4;5] [9;9;9;9]) 102).
Proof. vm_compute. reflexivity. Qed.

(** C10.  [scalar_fill] into a buffer with room for all results writes result k to
    buf[k] and leaves every later element alone. *)
Theorem C10_fill : forall (A B : Type) (c : config) (ty : vty) (l d : list A)
    (I : Type) (it : SIMDIterator (list B) I) (s : I) (f : A -> B) (d0 : B) (buf : list B) (fuel : nat),
  vty_ok ty -> zlen d = WIDTH ty -> (zlen l + WIDTH ty) * SIZE ty <= isize_max ->
  map_chain c (slice_iterator c ty) (simd_iter l d) B I it s f ->
  zlen l <= zlen buf -> (length l < fuel)%nat ->
  exists s', scalar_fill c it d0 fuel s buf = Ok (map f l ++ skipn (length l) buf, s').
Proof. exact c10_fill. Qed.
Print Assumptions C10_fill.

Example C10_fill_chain_case :
  let c := mkConfig Debug false in let ty := mkVty 2 8 in
  let m := map_iterator c (slice_iterator c ty) ty 0 (fun (n : Z) v => (map (Z.mul 10) v, n + 1)) in
  map_chain c (slice_iterator c ty) (simd_iter [1;2;3] [91;92]) Z _ m (mkSIMDMap (simd_iter [1;2;3] [91;92]) 0) (Z.mul 10) /\
  exists s', scalar_fill c m 0 9 (mkSIMDMap (simd_iter [1;2;3] [91;92]) 0) [7;7;7;7;7] = Ok ([10;20;30;7;7], s').
Proof.
  split.
  - apply (chain_map _ _ _ Z _ _ _ (fun x => x) Z Z (mkVty 2 8) 0 (fun (n : Z) v => (map (Z.mul 10) v, n + 1)) 0 (Z.mul 10)); try reflexivity.
    2: vm_compute; tauto.
    apply chain_start.
  - eexists. vm_compute. reflexivity.
Qed.

(** C10 for arbitrary stateful (also width-changing) closures. *)
Theorem C10_fill_closure : forall (A B E : Type) (c : config) (ty out_ty : vty) (l d : list A)
    (func : E -> list A -> list B * E) (e : E) (d0 d1 : B) (buf : list B) (fuel : nat),
  vty_ok ty -> vty_ok out_ty -> WIDTH ty * SIZE ty = WIDTH out_ty * SIZE out_ty ->
  zlen d = WIDTH ty -> (zlen l + WIDTH ty) * SIZE ty <= isize_max ->
  (forall e v, zlen v = WIDTH ty -> zlen (fst (func e v)) = WIDTH out_ty) ->
  (length l < fuel)%nat ->
  exists vs rest,
    chunked (WIDTH ty) l vs rest /\ zlen rest < WIDTH ty /\
    let (ys, e1) := run_closure func e vs in
    let tail := match rest with
                | [] => []
                | _ => skipn (Z.to_nat ((WIDTH ty - zlen rest) * SIZE ty / SIZE out_ty))
                             (fst (func e1 (right_aligned d rest)))
                end in
    let results := concat ys ++ tail in
    zlen results <= zlen buf ->
    exists s', scalar_fill c (map_iterator c (slice_iterator c ty) out_ty d0 func) d1 fuel
      (mkSIMDMap (simd_iter l d) e) buf = Ok (results ++ skipn (length results) buf, s').
Proof. exact c10_fill_closure. Qed.
Print Assumptions C10_fill_closure.

Example C10_fill_case :
  exists s', scalar_fill (mkConfig Release true)
    (map_iterator (mkConfig Release true) (slice_iterator (mkConfig Release true) (mkVty 4 4)) (mkVty 4 4) 0
       (fun (_ : unit) v => (map (Z.mul 2) v, tt))) 0 9
    (mkSIMDMap (simd_iter [1;2;3;4;5;6] [9;9;9;9]) tt) [71;72;73;74;75;76;77;78;79] =
  Ok ([2;4;6;8;10;12;77;78;79], s').
Proof. eexists. vm_compute. reflexivity. Qed.

(** C11, the part that holds: [scalar_fill] of a fresh slice iterator (through any
    lane-wise maps) into a buffer that is too short panics in a debug build, and in a
    release build if there is less than one vector.  The claim for other release
    runs is refuted below. *)
Theorem C11_short_fill_partial : forall (A B : Type) (c : config) (ty : vty) (l d : list A)
    (I : Type) (it : SIMDIterator (list B) I) (s : I) (f : A -> B) (d0 : B) (buf : list B) (fuel : nat),
  vty_ok ty -> zlen d = WIDTH ty -> (zlen l + WIDTH ty) * SIZE ty <= isize_max ->
  map_chain c (slice_iterator c ty) (simd_iter l d) B I it s f ->
  zlen buf < zlen l -> (length l < fuel)%nat ->
  build c = Debug \/ zlen l < WIDTH ty ->
  scalar_fill c it d0 fuel s buf = Panic.
Proof. exact c11_short_fill_partial. Qed.
Print Assumptions C11_short_fill_partial.

Example C11_short_fill_case :
  let c := mkConfig Debug true in
  scalar_fill c (slice_iterator c (mkVty 4 4)) 0 9 (simd_iter [1;2;3;4;5;6] [9;9;9;9]) [71;72;73;74;75] = Panic /\
  scalar_fill c (slice_iterator c (mkVty 4 4)) 0 9 (simd_iter [1;2;3] [9;9;9;9]) [71;72] = Panic.
Proof. split; vm_compute; reflexivity. Qed.

(** C11, refuted in release builds, for every slice that fills at least one vector: a
    buffer that is too short, by however little, is overrun. *)
Theorem C11_short_fill_refuted : forall (A B : Type) (b : bool) (ty : vty) (l d : list A)
    (I : Type) (it : SIMDIterator (list B) I) (s : I) (f : A -> B) (d0 : B) (buf : list B) (fuel : nat),
  let c := mkConfig Release b in
  vty_ok ty -> zlen d = WIDTH ty -> (zlen l + WIDTH ty) * SIZE ty <= isize_max ->
  map_chain c (slice_iterator c ty) (simd_iter l d) B I it s f ->
  zlen buf < zlen l -> (length l < fuel)%nat -> WIDTH ty <= zlen l ->
  scalar_fill c it d0 fuel s buf = UB.
Proof. exact c11_short_fill_refuted. Qed.
Print Assumptions C11_short_fill_refuted.

Example C11_overrun_case :
  let c := mkConfig Release true in
  scalar_fill c (slice_iterator c (mkVty 4 4)) 0 9 (simd_iter [1;2;3;4;5;6] [9;9;9;9]) [71;72;73] = UB.
Proof. vm_compute. reflexivity. Qed.

(** C12, the part that holds.  [scalar_fill_all] into a long enough buffer stores the
    whole vectors of the traversal, the padded leftover included: exactly
    ceil(len / WIDTH) * WIDTH elements, and leaves the rest of the buffer alone.
    [scalar_collect_all] is refuted below. *)
Theorem C12_fill_all_partial : forall (A B : Type) (c : config) (ty : vty) (l d : list A)
    (I : Type) (it : SIMDIterator (list B) I) (s : I) (f : A -> B) (d0 : B) (buf : list B) (fuel : nat),
  vty_ok ty -> zlen d = WIDTH ty -> (zlen l + WIDTH ty) * SIZE ty <= isize_max ->
  map_chain c (slice_iterator c ty) (simd_iter l d) B I it s f ->
  (zlen l + WIDTH ty - 1) / WIDTH ty * WIDTH ty <= zlen buf -> (length l < fuel)%nat ->
  exists full rest out s',
    l = full ++ rest /\ zlen rest < WIDTH ty /\ zlen full mod WIDTH ty = 0 /\
    scalar_fill_all c it d0 fuel s buf = Ok (out ++ skipn (length out) buf, s') /\
    zlen out = (zlen l + WIDTH ty - 1) / WIDTH ty * WIDTH ty /\
    out = map f full ++ match rest with [] => [] | _ => map f (right_aligned d rest) end.
Proof. exact c12_fill_all_partial. Qed.
Print Assumptions C12_fill_all_partial.

Example C12_fill_all_case :
  let c := mkConfig Release true in
  scalar_fill_all c (slice_iterator c (mkVty 4 4)) 0 9 (simd_iter [1;2;3;4;5;6] [90;91;92;93])
     [71;72;73;74;75;76;77;78;79] =
  Ok ([1;2;3;4;90;91;5;6;79], mkSIMDIter 6 [1;2;3;4;5;6] [90;91;92;93]).
Proof. vm_compute. reflexivity. Qed.

(** C11 for [scalar_fill_all]: a buffer without room for all whole vectors makes a debug
    build panic; a release build writes past its end. *)
Theorem C11_short_fill_all_refuted : forall (A B : Type) (c : config) (ty : vty) (l d : list A)
    (I : Type) (it : SIMDIterator (list B) I) (s : I) (f : A -> B) (d0 : B) (buf : list B) (fuel : nat),
  vty_ok ty -> zlen d = WIDTH ty -> (zlen l + WIDTH ty) * SIZE ty <= isize_max ->
  map_chain c (slice_iterator c ty) (simd_iter l d) B I it s f ->
  zlen buf < (zlen l + WIDTH ty - 1) / WIDTH ty * WIDTH ty -> (length l < fuel)%nat ->
  scalar_fill_all c it d0 fuel s buf = match build c with Debug => Panic | Release => UB end.
Proof. exact c11_short_fill_all_refuted. Qed.
Print Assumptions C11_short_fill_all_refuted.

Example C11_short_fill_all_case :
  let c := mkConfig Release true in
  scalar_fill_all c (slice_iterator c (mkVty 4 4)) 0 9 (simd_iter [1;2;3;4;5] [9;9;9;9]) [71;72;73;74;75;76;77] = UB.
Proof. vm_compute. reflexivity. Qed.

(** C12, refuted for [scalar_collect_all]: on every non-empty slice, through any lane-wise
    maps, it fails, because the new Vec is given as many elements as there are vectors:
    a debug build panics, a release build writes past the end of the slice it fills. *)
Theorem C12_collect_all_refuted : forall (A B : Type) (c : config) (ty : vty) (l d : list A)
    (I : Type) (it : SIMDIterator (list B) I) (s : I) (f : A -> B) (d0 : B) (fuel : nat),
  vty_ok ty -> zlen d = WIDTH ty -> (zlen l + WIDTH ty) * SIZE ty <= isize_max ->
  map_chain c (slice_iterator c ty) (simd_iter l d) B I it s f ->
  l <> [] -> (length l < fuel)%nat ->
  scalar_collect_all c it d0 fuel s = match build c with Debug => Panic | Release => UB end.
Proof. exact c12_collect_all_refuted. Qed.
Print Assumptions C12_collect_all_refuted.

Example C12_collect_all_case :
  let c := mkConfig Debug true in
  slice_ok (mkVty 4 4) [1;2;3;4;5;6] /\
  scalar_collect_all c (slice_iterator c (mkVty 4 4)) 0 9 (simd_iter [1;2;3;4;5;6] [90;91;92;93]) = Panic.
Proof. split; vm_compute; congruence. Qed.

(** C13.  [simd_for_each] on a fresh mutable slice iterator replaces each full chunk
    by the closure's result on it, and the leftover by the last lanes of the
    closure's result on the padded leftover; length unchanged. *)
Theorem C13_for_each : forall (A E : Type) (c : config) (ty : vty) (l d : list A)
    (func : E -> list A -> list A * E) (e : E) (d0 : A) (fuel : nat),
  vty_ok ty -> slice_ok ty l -> zlen d = WIDTH ty ->
  (forall e v, zlen v = WIDTH ty -> zlen (fst (func e v)) = WIDTH ty) -> (length l < fuel)%nat ->
  exists vs rest,
    chunked (WIDTH ty) l vs rest /\ zlen rest < WIDTH ty /\
    let (ys, e1) := run_closure func e vs in
    let tail := match rest with
                | [] => []
                | _ => skipn (Z.to_nat (WIDTH ty - zlen rest)) (fst (func e1 (right_aligned d rest)))
                end in
    let e2 := match rest with [] => e1 | _ => snd (func e1 (right_aligned d rest)) end in
    simd_for_each c ty d0 func fuel (simd_iter l d) e =
      Ok (mkSIMDIter (zlen l) (concat ys ++ tail) d, e2) /\
    zlen (concat ys ++ tail) = zlen l.
Proof. exact c13_for_each. Qed.
Print Assumptions C13_for_each.

Example C13_for_each_closure_case :
  (* the closure reverses the vector, so the leftover is taken from the end of the reversed padded vector *)
  simd_for_each (mkConfig Release true) (mkVty 4 4) 0 (fun (n : Z) v => (rev v, n + 1)) 9 (simd_iter [1;2;3;4;5;6] [70;71;72;73]) 0 =
  Ok (mkSIMDIter 6 [4;3;2;1;71;70] [70;71;72;73], 2).
Proof. vm_compute. reflexivity. Qed.

(** C13 for lane-wise closures: the in-place map. *)
Theorem C13_for_each_lanes : forall (A E : Type) (c : config) (ty : vty) (l d : list A)
    (func : E -> list A -> list A * E) (f : A -> A) (e : E) (d0 : A) (fuel : nat),
  vty_ok ty -> slice_ok ty l -> zlen d = WIDTH ty ->
  (forall e v, fst (func e v) = map f v) -> (length l < fuel)%nat ->
  exists e', simd_for_each c ty d0 func fuel (simd_iter l d) e =
    Ok (mkSIMDIter (zlen l) (map f l) d, e').
Proof. exact c13_for_each_lanes. Qed.
Print Assumptions C13_for_each_lanes.

Example C13_for_each_case :
  simd_for_each (mkConfig Release true) (mkVty 4 4) 0 (fun (n : Z) v => (map (Z.add n) v, n + 100)) 9
    (simd_iter [1;2;3;4;5;6] [9;9;9;9]) 1000 =
  Ok (mkSIMDIter 6 [1001;1002;1003;1004;1105;1106] [9;9;9;9], 1200) /\
  simd_for_each (mkConfig Debug false) (mkVty 4 4) 0 (fun (_ : unit) v => (map (Z.mul 3) v, tt)) 9
    (simd_iter [1;2;3] [9;9;9;9]) tt = Ok (mkSIMDIter 3 [3;6;9] [9;9;9;9], tt).
Proof. split; vm_compute; reflexivity. Qed.

(** C14, the part that holds: started at position k with a full vector still to come
    (or nothing left, or k = 0), [simd_for_each] leaves the first k elements
    alone and maps the others. *)
Theorem C14_for_each_from_partial : forall (A E : Type) (c : config) (ty : vty) (l d : list A) (k : Z)
    (func : E -> list A -> list A * E) (f : A -> A) (e : E) (d0 : A) (fuel : nat),
  vty_ok ty -> slice_ok ty l -> zlen d = WIDTH ty ->
  (forall e v, fst (func e v) = map f v) -> (length l < fuel)%nat ->
  0 <= k <= zlen l -> (k = 0 \/ k + WIDTH ty <= zlen l \/ k = zlen l) ->
  exists e', simd_for_each c ty d0 func fuel (mkSIMDIter k l d) e =
    Ok (mkSIMDIter (zlen l) (firstn (Z.to_nat k) l ++ map f (skipn (Z.to_nat k) l)) d, e').
Proof. exact c14_for_each_from_partial. Qed.
Print Assumptions C14_for_each_from_partial.

Example C14_for_each_from_case :
  simd_for_each (mkConfig Release true) (mkVty 4 4) 0 (fun (_ : unit) v => (map (Z.mul 10) v, tt)) 9
    (mkSIMDIter 2 [1;2;3;4;5;6;7] [9;9;9;9]) tt =
  Ok (mkSIMDIter 7 [1;2;30;40;50;60;70] [9;9;9;9], tt).
Proof. vm_compute. reflexivity. Qed.

(** C14, refuted: whenever at least a vector has been consumed and fewer than a
    vector's worth of elements is left, the last WIDTH consumed elements are
    overwritten with the scalar default. *)
Theorem C14_for_each_from_refuted : forall (A E : Type) (c : config) (ty : vty) (l d : list A) (k : Z)
    (func : E -> list A -> list A * E) (f : A -> A) (e : E) (d0 : A) (fuel : nat),
  vty_ok ty -> slice_ok ty l -> zlen d = WIDTH ty ->
  (forall e v, fst (func e v) = map f v) -> (length l < fuel)%nat ->
  WIDTH ty <= k < zlen l -> zlen l < k + WIDTH ty ->
  exists e', simd_for_each c ty d0 func fuel (mkSIMDIter k l d) e =
    Ok (mkSIMDIter (zlen l)
          (firstn (Z.to_nat (k - WIDTH ty)) l ++ repeat d0 (Z.to_nat (WIDTH ty)) ++
           map f (skipn (Z.to_nat k) l)) d, e').
Proof. exact c14_for_each_from_refuted. Qed.
Print Assumptions C14_for_each_from_refuted.

Example C14_for_each_from_refuted_case :
  simd_for_each (mkConfig Release true) (mkVty 4 4) 0 (fun (_ : unit) v => (map (Z.mul 10) v, tt)) 9
    (mkSIMDIter 5 [1;2;3;4;5;6;7;8] [9;9;9;9]) tt =
  Ok (mkSIMDIter 8 [1;0;0;0;0;60;70;80] [9;9;9;9], tt).
Proof. vm_compute. reflexivity. Qed.

(** C14, refuted for the remaining positions: with less than a vector consumed and less
    than a vector left, [simd_for_each] panics; in a release build, if the slice is no
    longer than a vector, it writes outside the vector instead. *)
Theorem C14_for_each_short_refuted : forall (A E : Type) (c : config) (ty : vty) (l d : list A) (k : Z)
    (func : E -> list A -> list A * E) (e : E) (d0 : A) (fuel : nat),
  vty_ok ty -> slice_ok ty l -> zlen d = WIDTH ty ->
  (forall e v, zlen v = WIDTH ty -> zlen (fst (func e v)) = WIDTH ty) -> (length l < fuel)%nat ->
  0 < k < WIDTH ty -> k < zlen l < k + WIDTH ty ->
  simd_for_each c ty d0 func fuel (mkSIMDIter k l d) e =
  if WIDTH ty <? zlen l then Panic else match build c with Debug => Panic | Release => UB end.
Proof. exact c14_for_each_short_refuted. Qed.
Print Assumptions C14_for_each_short_refuted.

Example C14_for_each_short_case :
  simd_for_each (mkConfig Release true) (mkVty 4 4) 0 (fun (u : unit) v => (map Z.opp v, u)) 9
    (mkSIMDIter 3 [1;2;3;4;5;6] [0;0;0;0]) tt = Panic /\
  simd_for_each (mkConfig Release true) (mkVty 4 4) 0 (fun (u : unit) v => (map Z.opp v, u)) 9
    (mkSIMDIter 1 [1;2;3] [0;0;0;0]) tt = UB.
Proof. split; vm_compute; reflexivity. Qed.

(** C17, the part that holds: for a fresh slice iterator, through any chain of
    lane-wise maps, [len] is the number of vectors [next] will return. *)
Theorem C17_len_fresh_partial : forall (A B : Type) (c : config) (ty : vty) (l d : list A)
    (I : Type) (it : SIMDIterator (list B) I) (s : I) (f : A -> B) (fuel : nat),
  vty_ok ty -> zlen d = WIDTH ty -> (zlen l + WIDTH ty) * SIZE ty <= isize_max ->
  map_chain c (slice_iterator c ty) (simd_iter l d) B I it s f -> (length l < fuel)%nat ->
  exists vs s', drain_next it fuel s = Ok (vs, s') /\ it_len (itb it) s = Ok (zlen vs).
Proof. exact c17_len_fresh_partial. Qed.
Print Assumptions C17_len_fresh_partial.

Example C17_len_fresh_case :
  it_len (itb (slice_iterator (mkConfig Release true) (mkVty 4 4))) (simd_iter [1;2;3;4;5;6;7;8;9] [0;0;0;0]) = Ok 2.
Proof. vm_compute. reflexivity. Qed.

(** C17, refuted: after at least one vector has been consumed, [len] is always wrong. *)
Theorem C17_len_refuted : forall (A : Type) (c : config) (ty : vty) (l d : list A) (k : Z) (fuel : nat),
  vty_ok ty -> slice_ok ty l -> zlen d = WIDTH ty -> WIDTH ty <= k <= zlen l -> (length l < fuel)%nat ->
  exists vs s' n, drain_next (slice_iterator c ty) fuel (mkSIMDIter k l d) = Ok (vs, s') /\
    it_len (itb (slice_iterator c ty)) (mkSIMDIter k l d) = Ok n /\ zlen vs < n.
Proof. exact c17_len_refuted. Qed.
Print Assumptions C17_len_refuted.

Example C17_len_refuted_case :
  vty_ok (mkVty 4 4) /\ slice_ok (mkVty 4 4) [1;2;3;4;5;6;7;8;9] /\
  it_len (itb (slice_iterator (mkConfig Release true) (mkVty 4 4))) (mkSIMDIter 8 [1;2;3;4;5;6;7;8;9] [0;0;0;0]) = Ok 2.
Proof. repeat split; try (vm_compute; tauto); vm_compute; congruence. Qed.

(** C18, the part that holds: for a slice iterator [scalar_len] is the length of the
    slice, [vector_len] the number of full vectors in it, the positions count what
    has been passed, and [finalize] leaves nothing to iterate. *)
Theorem C18_units_partial : forall (A : Type) (c : config) (ty : vty) (l d : list A) (k : Z),
  vty_ok ty -> slice_ok ty l -> zlen d = WIDTH ty -> 0 <= k <= zlen l ->
  let it := itb (slice_iterator c ty) in let s := mkSIMDIter k l d in
  it_scalar_len it s = Ok (zlen l) /\ it_vector_len it s = Ok (zlen l / WIDTH ty) /\
  it_scalar_pos it s = Ok k /\ it_vector_pos it s = Ok (k / WIDTH ty) /\
  finalize c it s = Ok (mkSIMDIter (zlen l) l d) /\
  it_next it (mkSIMDIter (zlen l) l d) = Ok (None, mkSIMDIter (zlen l) l d).
Proof. exact c18_units_partial. Qed.
Print Assumptions C18_units_partial.

Example C18_units_case :
  finalize (mkConfig Debug true) (itb (slice_iterator (mkConfig Debug true) (mkVty 4 4)))
    (mkSIMDIter 3 [1;2;3;4;5] [0;0;0;0]) = Ok (mkSIMDIter 5 [1;2;3;4;5] [0;0;0;0]).
Proof. vm_compute. reflexivity. Qed.

(** C18: positions of a mapped iterator are those of the iterator it maps: [scalar_pos] is
    in scalars of the input, [vector_pos] divides it by the width of the output vectors
    (for maps that keep the width: vectors delivered), and [advance] skips input scalars
    without calling the closure. *)
Theorem C18_mapped_positions_partial : forall (A B E : Type) (c : config) (ty out_ty : vty) (l d : list A) (d0 : B)
    (func : E -> list A -> list B * E) (e : E) (k a : Z),
  vty_ok ty -> vty_ok out_ty -> slice_ok ty l -> 0 <= k -> 0 <= a -> k + a <= zlen l ->
  let m := itb (map_iterator c (slice_iterator c ty) out_ty d0 func) in
  let s := mkSIMDMap (mkSIMDIter k l d) e in
  it_scalar_pos m s = Ok k /\ it_vector_pos m s = Ok (k / WIDTH out_ty) /\
  it_advance m s a = Ok (mkSIMDMap (mkSIMDIter (k + a) l d) e).
Proof. exact c18_mapped_positions_partial. Qed.
Print Assumptions C18_mapped_positions_partial.

Example C18_mapped_positions_case :
  let m := itb (map_iterator (mkConfig Debug true) (slice_iterator (mkConfig Debug true) (mkVty 4 4)) (mkVty 2 8) 0 (fun (e : Z) (v : list Z) => (firstn 2 v, e + 1))) in
  let s := mkSIMDMap (mkSIMDIter 4 [1;2;3;4;5;6;7;8;9;10] [0;0;0;0]) 0 in
  it_scalar_pos m s = Ok 4 /\ it_vector_pos m s = Ok 2 /\ it_advance m s 3 = Ok (mkSIMDMap (mkSIMDIter 7 [1;2;3;4;5;6;7;8;9;10] [0;0;0;0]) 0).
Proof. repeat split; vm_compute; reflexivity. Qed.

(** C18, refuted for mapped iterators: over any slice with at least one full vector,
    [scalar_len] of the map is the number of vectors, and [finalize] does not
    exhaust it. *)
Theorem C18_mapped_refuted : forall (A B E : Type) (c : config) (ty : vty) (l d : list A) (d0 : B)
    (func : E -> list A -> list B * E) (e : E),
  vty_ok ty -> slice_ok ty l -> zlen d = WIDTH ty -> WIDTH ty <= zlen l ->
  let m := map_iterator c (slice_iterator c ty) ty d0 func in
  let s := mkSIMDMap (simd_iter l d) e in
  it_scalar_len (itb m) s = Ok (zlen l / WIDTH ty) /\ zlen l / WIDTH ty < zlen l /\
  exists s', finalize c (itb m) s = Ok s' /\
    (WIDTH ty + zlen l / WIDTH ty <= zlen l ->
     exists v s'', it_next (itb m) s' = Ok (Some v, s'')).
Proof. exact c18_mapped_refuted. Qed.
Print Assumptions C18_mapped_refuted.

Example C18_mapped_refuted_case :
  let c := mkConfig Release true in let ty := mkVty 4 4 in
  let m := map_iterator c (slice_iterator c ty) ty 0 (fun (_ : unit) v => (map (Z.mul 2) v, tt)) in
  let s := mkSIMDMap (simd_iter [1;2;3;4;5;6;7;8] [0;0;0;0]) tt in
  it_scalar_len (itb m) s = Ok 2 /\
  exists s' s'', finalize c (itb m) s = Ok s' /\ it_next (itb m) s' = Ok (Some [6;8;10;12], s'').
Proof. split; [vm_compute; reflexivity|]. do 2 eexists.
  split; [vm_compute; reflexivity|vm_compute; reflexivity].
Qed.

(** C19.  Collecting a map from S-byte to T-byte scalars (equally large vectors) yields
    exactly ceil(len * S / T) scalars, which is len * (S / T) when T <= S; their
    values are those of C09. *)
Theorem C19_width_change : forall (A B E : Type) (c : config) (ty out_ty : vty) (l d : list A)
    (func : E -> list A -> list B * E) (e : E) (d0 d1 : B) (fuel : nat),
  vty_ok ty -> vty_ok out_ty -> WIDTH ty * SIZE ty = WIDTH out_ty * SIZE out_ty ->
  zlen d = WIDTH ty -> (zlen l + WIDTH ty) * SIZE ty <= isize_max ->
  (forall e v, zlen v = WIDTH ty -> zlen (fst (func e v)) = WIDTH out_ty) ->
  (length l < fuel)%nat ->
  exists out s',
    scalar_collect c (map_iterator c (slice_iterator c ty) out_ty d0 func) d1 fuel
      (mkSIMDMap (simd_iter l d) e) = Ok (map Some out, s') /\
    zlen out = (zlen l * SIZE ty + SIZE out_ty - 1) / SIZE out_ty /\
    (SIZE out_ty <= SIZE ty -> zlen out = zlen l * (SIZE ty / SIZE out_ty)).
Proof. exact c19_width_change. Qed.
Print Assumptions C19_width_change.

Example C19_width_change_case :
  exists s1 s2,
  scalar_collect (mkConfig Release true)
    (map_iterator (mkConfig Release true) (slice_iterator (mkConfig Release true) (mkVty 8 2)) (mkVty 4 4) None
       (fun (_ : unit) v => (map (fun i => znth v (2 * i)) [0;1;2;3], tt))) None 12
    (mkSIMDMap (simd_iter [1;2;3;4;5;6;7;8;9;10;11] (repeat 99 8)) tt) =
  Ok (map Some [Some 1; Some 3; Some 5; Some 7; Some 99; Some 10], s1) /\
  scalar_collect (mkConfig Release true)
    (map_iterator (mkConfig Release true) (slice_iterator (mkConfig Release true) (mkVty 4 4)) (mkVty 8 2) 0
       (fun (_ : unit) v => (flat_map (fun x => [x; x]) v, tt))) 0 12
    (mkSIMDMap (simd_iter [1;2;3;4;5] (repeat 99 4)) tt) =
  Ok (map Some [1;1;2;2;3;3;4;4;5;5], s2).
Proof. do 2 eexists. split; [vm_compute; reflexivity|vm_compute; reflexivity]. Qed.

(** C20.  For every history of [next], [end] and [advance] on a mapped iterator, over
    any iterator whatsoever, the closure has been called exactly on the vectors the
    inner iterator hands out under the same history, once each and in order, and
    what the map hands out are its results. *)
Theorem C20_closure_calls : forall (V B I E : Type) (c : config) (it : SIMDIterator V I) (out_ty : vty) (d0 : B)
    (f : E -> V -> list B * E) (h : list iter_op) (s : I) (e : E) ys s' log e',
  run_ops (map_iterator c it out_ty d0 (logged f)) (mkSIMDMap s ([], e)) h =
    Ok (ys, mkSIMDMap s' (log, e')) ->
  exists xs, run_ops it s h = Ok (xs, s') /\ log = items xs /\
    run_closure f e (items xs) = (items ys, e') /\ map handed_out ys = map handed_out xs.
Proof. exact c20_closure_calls. Qed.
Print Assumptions C20_closure_calls.

Example C20_closure_calls_case :
  let c := mkConfig Release true in
  exists s',
  run_ops (map_iterator c (slice_iterator c (mkVty 4 4)) (mkVty 4 4) 0 (logged (fun (n : Z) v => (map (Z.add n) v, n + 10))))
    (mkSIMDMap (simd_iter [1;2;3;4;5;6;7;8;9;10] [0;0;0;0]) ([], 0)) [INext; IAdvance 1; INext; INext; IEnd; IEnd] =
  Ok ([Some [1;2;3;4]; None; Some [16;17;18;19]; None; Some [20;20;20;30]; None],
      mkSIMDMap s' ([[1;2;3;4]; [6;7;8;9]; [0;0;0;10]], 30)).
Proof. eexists. vm_compute. reflexivity. Qed.

(** C52, refuted: a group handed out by an unrolled iterator keeps its contents while
    the next one is computed.  The slice aliases the iterator's scratch space: whatever
    the iterator, the next group overwrites it from the front. *)
Theorem C52_unrolled_groups_refuted : forall (V I : Type) (it : SIMDIterable V I) u g1 u1 g2 u2,
  0 <= ur_amt u <= zlen (ur_scratch u) ->
  unrolled_next it u = Ok (Some g1, u1) -> unrolled_next it u1 = Ok (Some g2, u2) ->
  group_view u2 (zlen g1) = firstn (length g1) (g2 ++ skipn (length g2) g1) /\
  (hd_error g2 <> hd_error g1 -> group_view u2 (zlen g1) <> g1).
Proof. exact c52_unrolled_groups_refuted. Qed.
Print Assumptions C52_unrolled_groups_refuted.

Example C52_unrolled_groups_case :
  let it := itb (slice_iterator (mkConfig Release true) (mkVty 2 8)) in
  exists u0 u1 u2, unroll [0;0] (simd_iter [1;2;3;4;5;6;7;8] [0;0]) 2 = Ok u0 /\
    unrolled_next it u0 = Ok (Some [[1;2];[3;4]], u1) /\ group_view u1 2 = [[1;2];[3;4]] /\
    unrolled_next it u1 = Ok (Some [[5;6];[7;8]], u2) /\ group_view u2 2 = [[5;6];[7;8]].
Proof. do 3 eexists. split; [vm_compute; reflexivity|split; [vm_compute; reflexivity|split; [vm_compute; reflexivity|split; vm_compute; reflexivity]]]. Qed.

(** C52, the part that holds: until the next call the slice reads what was returned. *)
Theorem C52_unrolled_group_fresh_partial : forall (V I : Type) (it : SIMDIterable V I) u g u',
  0 <= ur_amt u <= zlen (ur_scratch u) ->
  unrolled_next it u = Ok (Some g, u') -> group_view u' (zlen g) = g /\ 1 <= zlen g <= ur_amt u.
Proof. exact c52_unrolled_group_fresh_partial. Qed.
Print Assumptions C52_unrolled_group_fresh_partial.

Example C52_unrolled_group_fresh_case :
  let u := mkUnrolled (simd_iter [1;2;3;4;5;6;7] [0;0]) 2 (repeat [0;0] 8) in
  0 <= ur_amt u <= zlen (ur_scratch u) /\
  exists u', unrolled_next (itb (slice_iterator (mkConfig Debug true) (mkVty 2 8))) u = Ok (Some [[1;2];[3;4]], u') /\ group_view u' 2 = [[1;2];[3;4]].
Proof. split; [vm_compute; split; congruence|]. eexists. split; vm_compute; reflexivity. Qed.
