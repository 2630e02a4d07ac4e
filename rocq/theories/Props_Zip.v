(** Properties: zipped iterators (C27-C30, and the zipped part of C07 and C18). *)
From Verif Require Import Base Spec Vecs Iters Stride Zip ZipSpec.
From Coq Require Import Lia ZifyBool ZifyNat.
From Verif Require Import ZipProofs.

(** C27.  Zipping fresh iterators of equal length (over slices or strided streams, any
    number of them, of any scalar types with equally many lanes) is accepted; [next]
    yields the tuples of their vectors at 0, W, 2W, .., [end] the tuple of their padded
    tails with the number of unfilled lanes, and then the zip is exhausted.  Nothing
    is read outside the data, and the other components are not moved. *)
Theorem C27_lockstep : forall (c : config) (A I : Type) (arr : SIMDArray A I) (it : SIMDIterable (list A) I)
    (s : I) (l d : list A) (VR R : Type) (rest : ZipRest VR R) (r : R) (chunk tail : Z -> VR) (fuel : nat),
  source c A I arr it s l d 0 -> zipped c (WIDTH (it_ty it)) (zlen l) 0 VR R rest r chunk tail ->
  (length l < fuel)%nat ->
  let W := WIDTH (it_ty it) in
  let z := zip_iterator (blanket_iterator c arr it) rest in
  zip (blanket_iterator c arr it) rest (s, r) = Ok (s, r) /\
  exists m s', W * Z.of_nat m <= zlen l <= W * Z.of_nat (m + 1) /\
    drain z fuel (s, r) =
      Ok (map (fun p => (sub l p W, chunk p)) (vector_starts 0 W m),
          (let p := W * Z.of_nat m in
           if p <? zlen l
           then Some ((right_aligned d (skipn (Z.to_nat p) l), tail p), W - (zlen l - p)) else None),
          (s', r)) /\
    it_next (itb z) (s', r) = Ok (None, (s', r)) /\ it_end z (s', r) = Ok (None, (s', r)).
Proof. exact c27_lockstep. Qed.
Print Assumptions C27_lockstep.

(** C27 for two slices, spelled out. *)
Theorem C27_two_slices : forall (A B : Type) (c : config) (t1 t2 : vty) (l1 d1 : list A) (l2 d2 : list B) (fuel : nat),
  vty_ok t1 -> vty_ok t2 -> WIDTH t2 = WIDTH t1 -> slice_ok t1 l1 -> slice_ok t2 l2 ->
  zlen d1 = WIDTH t1 -> zlen d2 = WIDTH t2 -> zlen l1 = zlen l2 -> (length l1 < fuel)%nat ->
  let rest := rest_one (blanket_unsafe c (si_array (slice_array c t2)) (si_iterable c (slice_array c t2))) in
  let st := (simd_iter l1 d1, simd_iter l2 d2) in
  zip (slice_iterator c t1) rest st = Ok st /\
  exists vs1 rest1 vs2 rest2 s',
    chunked (WIDTH t1) l1 vs1 rest1 /\ chunked (WIDTH t1) l2 vs2 rest2 /\
    length vs1 = length vs2 /\ length rest1 = length rest2 /\ zlen rest1 < WIDTH t1 /\
    drain (zip_iterator (slice_iterator c t1) rest) fuel st =
      Ok (combine vs1 vs2,
          (match tail_of d1 rest1, tail_of d2 rest2 with
           | Some (p, n), Some (q, _) => Some ((p, q), n) | _, _ => None end), s').
Proof. exact c27_two_slices. Qed.
Print Assumptions C27_two_slices.

Example C27_two_slices_case :
  let c := mkConfig Debug true in let t1 := mkVty 4 4 in let t2 := mkVty 4 8 in
  let rest := rest_one (blanket_unsafe c (si_array (slice_array c t2)) (si_iterable c (slice_array c t2))) in
  exists s', drain (zip_iterator (slice_iterator c t1) rest) 9 (simd_iter [1;2;3;4;5] [8;8;8;8], simd_iter [11;12;13;14;15] [9;9;9;9]) =
    Ok ([([1;2;3;4], [11;12;13;14])], Some (([8;8;8;5], [9;9;9;15]), 3), s').
Proof. eexists. vm_compute. reflexivity. Qed.

Example C27_lockstep_case :
  let c := mkConfig Release true in let ty := mkVty 4 4 in
  let l1 := [1;2;3;4;5;6;7] in let l2 := [11;12;13;14;15;16;17] in
  let data := [21;0;22;0;23;0;24;0;25;0;26;0;27;0] in
  let strided := mkPackedStride data 0 0 2 [0;0;0;0] in
  let rest := rest_cons (blanket_unsafe c (si_array (slice_array c ty)) (si_iterable c (slice_array c ty)))
                (rest_one (blanket_unsafe c (ps_array c (slice_array c ty) 0) (ps_iterable c (slice_array c ty) 0))) in
  let r := (simd_iter l2 [9;9;9;9], strided) in
  source c Z _ (si_array (slice_array c ty)) (si_iterable c (slice_array c ty)) (simd_iter l1 [8;8;8;8]) l1 [8;8;8;8] 0 /\
  (exists chunk tail, zipped c 4 7 0 _ _ rest r chunk tail) /\
  exists s', drain (zip_iterator (slice_iterator c ty) rest) 8 (simd_iter l1 [8;8;8;8], r) =
    Ok ([([1;2;3;4], ([11;12;13;14], [21;22;23;24]))],
        Some (([8;5;6;7], ([9;15;16;17], [0;25;26;27])), 1), s').
Proof.
  split; [apply source_slice with (ty := mkVty 4 4); [vm_compute; tauto|vm_compute; congruence|reflexivity|vm_compute; split; congruence]|].
  split.
  - do 2 eexists. eapply zipped_more; [apply source_slice; [vm_compute; tauto|vm_compute; congruence|reflexivity|vm_compute; split; congruence]|reflexivity|reflexivity|].
    eapply zipped_one with (l := [21;22;23;24;25;26;27]); [|reflexivity|reflexivity].
    apply (source_stride _ _ (mkVty 4 4) _ _ _ 0 2 _ 0); [vm_compute; tauto|vm_compute; congruence|reflexivity|vm_compute; split; congruence|vm_compute; congruence| |vm_compute; split; congruence].
    split; [reflexivity|]. intros k Hk. change (0 <= k < 7) in Hk.
    assert (k = 0 \/ k = 1 \/ k = 2 \/ k = 3 \/ k = 4 \/ k = 5 \/ k = 6) as Hc by lia.
    repeat (destruct Hc as [->|Hc]; [reflexivity|]). subst k. reflexivity.
  - eexists. vm_compute. reflexivity.
Qed.

(** C28 for any number of zipped iterators and any closure: [simd_map] over the zip
    followed by [scalar_collect] returns what the closure returns for the tuples in
    order, cut to the filled lanes. *)
Theorem C28_zip_closure : forall (c : config) (A I : Type) (arr : SIMDArray A I) (it : SIMDIterable (list A) I)
    (s : I) (l d : list A) (VR R : Type) (rest : ZipRest VR R) (r : R) (chunk tail : Z -> VR)
    (B E : Type) (out_ty : vty) (d0 : B) (func : E -> list A * VR -> list B * E) (e : E) (fuel : nat),
  source c A I arr it s l d 0 -> zipped c (WIDTH (it_ty it)) (zlen l) 0 VR R rest r chunk tail ->
  vty_ok out_ty -> WIDTH out_ty * SIZE out_ty = WIDTH (it_ty it) * SIZE (it_ty it) ->
  (forall e v, zlen (fst (func e v)) = WIDTH out_ty) ->
  (zlen l + WIDTH (it_ty it)) * SIZE (it_ty it) <= isize_max -> (length l < fuel)%nat ->
  let W := WIDTH (it_ty it) in
  let z := zip_iterator (blanket_iterator c arr it) rest in
  exists tuples t s', drain z fuel (s, r) = Ok (tuples, t, s') /\
  exists s'',
    scalar_collect c (zipmap_iterator c z out_ty d0 func) d0 fuel (mkSIMDMap (s, r) e) =
      Ok (map Some (let '(ys, e1) := run_closure func e tuples in
                    concat ys ++ match t with
                                 | Some (p, n) => skipn (Z.to_nat (n * SIZE (it_ty it) / SIZE out_ty)) (fst (func e1 p))
                                 | None => [] end), s'').
Proof. exact c28_zip_closure. Qed.
Print Assumptions C28_zip_closure.

Example C28_zip_closure_case :
  (* the closure swaps its arguments and counts its calls; the output lanes are half as wide *)
  let c := mkConfig Release true in let ty := mkVty 2 8 in let out_ty := mkVty 4 4 in
  let rest := rest_one (blanket_unsafe c (si_array (slice_array c ty)) (si_iterable c (slice_array c ty))) in
  let func := fun (n : Z) (v : list Z * list Z) => (snd v ++ fst v, n + 1) in
  exists s', scalar_collect c (zipmap_iterator c (zip_iterator (slice_iterator c ty) rest) out_ty 0 func) 0 10
    (mkSIMDMap (simd_iter [1;2;3] [0;0], simd_iter [11;12;13] [9;9]) 0) =
    Ok (map Some [11;12;1;2;0;3], s') /\ sm_env s' = 2.
Proof. eexists. split; [vm_compute; reflexivity|reflexivity]. Qed.

(** C28 for two slices and a lane-wise closure: mapping the zip and collecting (or
    filling a long enough slice) gives the element-wise combination of the slices, and
    leaves the rest of the filled slice alone. *)
Theorem C28_zip_map_collect : forall (A B C E : Type) (c : config) (t1 t2 out_ty : vty)
    (l1 d1 : list A) (l2 d2 : list B) (d0 : C) (g : A -> B -> C)
    (func : E -> list A * list B -> list C * E) (e : E) (fill : list C) (fuel : nat),
  vty_ok t1 -> vty_ok t2 -> vty_ok out_ty -> WIDTH t2 = WIDTH t1 ->
  WIDTH out_ty = WIDTH t1 -> SIZE out_ty = SIZE t1 -> slice_ok t2 l2 ->
  zlen d1 = WIDTH t1 -> zlen d2 = WIDTH t2 -> zlen l1 = zlen l2 ->
  (zlen l1 + WIDTH t1) * SIZE t1 <= isize_max -> (length l1 < fuel)%nat ->
  (forall e v, fst (func e v) = map2 g (fst v) (snd v)) ->
  let rest := rest_one (blanket_unsafe c (si_array (slice_array c t2)) (si_iterable c (slice_array c t2))) in
  let m := zipmap_iterator c (zip_iterator (slice_iterator c t1) rest) out_ty d0 func in
  let st := mkSIMDMap (simd_iter l1 d1, simd_iter l2 d2) e in
  (exists s', scalar_collect c m d0 fuel st = Ok (map Some (map2 g l1 l2), s')) /\
  (zlen l1 <= zlen fill ->
   exists s', scalar_fill c m d0 fuel st fill = Ok (map2 g l1 l2 ++ skipn (length l1) fill, s')).
Proof. exact c28_zip_map_collect. Qed.
Print Assumptions C28_zip_map_collect.

Example C28_zip_map_collect_case :
  let c := mkConfig Debug false in let ty := mkVty 4 4 in
  let rest := rest_one (blanket_unsafe c (si_array (slice_array c ty)) (si_iterable c (slice_array c ty))) in
  let func := fun (n : Z) (v : list Z * list Z) => (map2 Z.sub (fst v) (snd v), n + 1) in
  exists s', scalar_collect c (zipmap_iterator c (zip_iterator (slice_iterator c ty) rest) ty 0 func) 0 10
    (mkSIMDMap (simd_iter [10;20;30;40;50] [0;0;0;0], simd_iter [1;2;3;4;5] [0;0;0;0]) 0) =
    Ok (map Some [9;18;27;36;45], s') /\ sm_env s' = 2.
Proof. eexists. split; [vm_compute; reflexivity|reflexivity]. Qed.

(** C29, what the check does: zipping two slice iterators is accepted exactly when they
    hold the same number of full vectors, and panics otherwise. *)
Theorem C29_vector_counts_partial : forall (A B : Type) (c : config) (t1 t2 : vty) (l1 d1 : list A) (l2 d2 : list B) (k1 k2 : Z),
  vty_ok t1 -> vty_ok t2 ->
  let rest := rest_one (blanket_unsafe c (si_array (slice_array c t2)) (si_iterable c (slice_array c t2))) in
  let st := (mkSIMDIter k1 l1 d1, mkSIMDIter k2 l2 d2) in
  zip (slice_iterator c t1) rest st =
  if zlen l1 / WIDTH t1 =? zlen l2 / WIDTH t2 then Ok st else Panic.
Proof. exact c29_vector_counts_partial. Qed.
Print Assumptions C29_vector_counts_partial.

Example C29_vector_counts_case :
  let c := mkConfig Release true in let ty := mkVty 4 4 in
  let rest := rest_one (blanket_unsafe c (si_array (slice_array c ty)) (si_iterable c (slice_array c ty))) in
  zip (slice_iterator c ty) rest (simd_iter [1;2;3;4;5] [0;0;0;0], simd_iter [1;2;3] [0;0;0;0]) = Panic /\
  zip (slice_iterator c ty) rest (simd_iter [1;2;3;4;5] [0;0;0;0], simd_iter [1;2;3;4] [0;0;0;0]) =
    Ok (simd_iter [1;2;3;4;5] [0;0;0;0], simd_iter [1;2;3;4] [0;0;0;0]).
Proof. split; vm_compute; reflexivity. Qed.

(** C29, refuted: [zip] accepts any two slices shorter than a vector; if the first is
    non-empty and shorter than the second, draining the zip in a release build writes
    outside the second component's vector. *)
Theorem C29_lengths_refuted : forall (A B : Type) (b : bool) (t1 t2 : vty) (l1 d1 : list A) (l2 d2 : list B) (fuel : nat),
  vty_ok t1 -> vty_ok t2 -> WIDTH t2 = WIDTH t1 -> slice_ok t1 l1 -> slice_ok t2 l2 ->
  zlen d1 = WIDTH t1 -> zlen d2 = WIDTH t2 ->
  0 < zlen l1 < zlen l2 -> zlen l2 < WIDTH t2 -> (0 < fuel)%nat ->
  let c := mkConfig Release b in
  let rest := rest_one (blanket_unsafe c (si_array (slice_array c t2)) (si_iterable c (slice_array c t2))) in
  let st := (simd_iter l1 d1, simd_iter l2 d2) in
  zip (slice_iterator c t1) rest st = Ok st /\
  drain (zip_iterator (slice_iterator c t1) rest) fuel st = UB.
Proof. exact c29_lengths_refuted. Qed.
Print Assumptions C29_lengths_refuted.

Example C29_lengths_case :
  let c := mkConfig Release true in let ty := mkVty 4 4 in
  let rest := rest_one (blanket_unsafe c (si_array (slice_array c ty)) (si_iterable c (slice_array c ty))) in
  drain (zip_iterator (slice_iterator c ty) rest) 9 (simd_iter [1;2] [0;0;0;0], simd_iter [1;2;3] [0;0;0;0]) = UB.
Proof. vm_compute. reflexivity. Qed.

(** C29, refuted for different lane counts too: a vector type with half as many lanes
    and a slice half as long is accepted, and the second [next] of the zip reads
    outside the second slice (in a release build; it panics in a debug build). *)
Theorem C29_widths_refuted : forall (A B : Type) (c : config) (t1 t2 : vty) (l1 d1 : list A) (l2 d2 : list B) (fuel : nat),
  vty_ok t1 -> vty_ok t2 -> WIDTH t1 = 2 * WIDTH t2 -> slice_ok t1 l1 -> slice_ok t2 l2 -> zlen d1 = WIDTH t1 -> zlen d2 = WIDTH t2 ->
  zlen l1 = 2 * WIDTH t1 -> zlen l2 = 2 * WIDTH t2 -> (1 < fuel)%nat ->
  let rest := rest_one (blanket_unsafe c (si_array (slice_array c t2)) (si_iterable c (slice_array c t2))) in
  let st := (simd_iter l1 d1, simd_iter l2 d2) in
  zip (slice_iterator c t1) rest st = Ok st /\
  drain (zip_iterator (slice_iterator c t1) rest) fuel st = match build c with Debug => Panic | Release => UB end.
Proof. exact c29_widths_refuted. Qed.
Print Assumptions C29_widths_refuted.

Example C29_widths_case :
  let c := mkConfig Release true in let t1 := mkVty 4 4 in let t2 := mkVty 2 8 in
  let rest := rest_one (blanket_unsafe c (si_array (slice_array c t2)) (si_iterable c (slice_array c t2))) in
  drain (zip_iterator (slice_iterator c t1) rest) 9 (simd_iter [1;2;3;4;5;6;7;8] [0;0;0;0], simd_iter [1;2;3;4] [0;0]) = UB.
Proof. vm_compute. reflexivity. Qed.

(** C30, the part that holds: if all zipped iterators are at the same position, the zip
    continues all of them from there. *)
Theorem C30_same_position_partial : forall (A B : Type) (c : config) (t1 t2 : vty) (l1 d1 : list A) (l2 d2 : list B) (k : Z) (fuel : nat),
  vty_ok t1 -> vty_ok t2 -> WIDTH t2 = WIDTH t1 -> slice_ok t1 l1 -> slice_ok t2 l2 ->
  zlen d1 = WIDTH t1 -> zlen d2 = WIDTH t2 -> zlen l1 = zlen l2 -> 0 <= k <= zlen l1 ->
  (k = 0 \/ WIDTH t1 < zlen l1 \/ k = zlen l1) -> (length l1 < fuel)%nat ->
  let rest := rest_one (blanket_unsafe c (si_array (slice_array c t2)) (si_iterable c (slice_array c t2))) in
  exists vs1 rest1 vs2 rest2 s',
    chunked (WIDTH t1) (skipn (Z.to_nat k) l1) vs1 rest1 /\ chunked (WIDTH t1) (skipn (Z.to_nat k) l2) vs2 rest2 /\
    zlen rest1 < WIDTH t1 /\ length rest1 = length rest2 /\
    drain (zip_iterator (slice_iterator c t1) rest) fuel (mkSIMDIter k l1 d1, mkSIMDIter k l2 d2) =
      Ok (combine vs1 vs2,
          (match tail_of d1 rest1, tail_of d2 rest2 with
           | Some (p, n), Some (q, _) => Some ((p, q), n) | _, _ => None end), s').
Proof. exact c30_same_position_partial. Qed.
Print Assumptions C30_same_position_partial.

Example C30_same_position_case :
  let c := mkConfig Release true in let ty := mkVty 4 4 in
  let rest := rest_one (blanket_unsafe c (si_array (slice_array c ty)) (si_iterable c (slice_array c ty))) in
  exists s', drain (zip_iterator (slice_iterator c ty) rest) 9
    (mkSIMDIter 1 [1;2;3;4;5;6] [0;0;0;0], mkSIMDIter 1 [11;12;13;14;15;16] [0;0;0;0]) =
    Ok ([([2;3;4;5], [12;13;14;15])], Some (([0;0;0;6], [0;0;0;16]), 3), s').
Proof. eexists. vm_compute. reflexivity. Qed.

(** C30, refuted: the position of the second iterator is ignored.  Whatever it is, the
    zip pairs the first iterator's remaining elements with those at the same indices
    of the second slice. *)
Theorem C30_positions_refuted : forall (A B : Type) (c : config) (t1 t2 : vty) (l1 d1 : list A) (l2 d2 : list B) (k2 : Z) (fuel : nat),
  vty_ok t1 -> vty_ok t2 -> WIDTH t2 = WIDTH t1 -> slice_ok t1 l1 -> slice_ok t2 l2 ->
  zlen d1 = WIDTH t1 -> zlen d2 = WIDTH t2 -> zlen l1 = zlen l2 -> 0 < k2 <= zlen l2 -> (length l1 < fuel)%nat ->
  let rest := rest_one (blanket_unsafe c (si_array (slice_array c t2)) (si_iterable c (slice_array c t2))) in
  let st := (simd_iter l1 d1, mkSIMDIter k2 l2 d2) in
  zip (slice_iterator c t1) rest st = Ok st /\
  exists vs1 rest1 vs2 rest2 s',
    chunked (WIDTH t1) l1 vs1 rest1 /\ chunked (WIDTH t1) l2 vs2 rest2 /\
    length vs1 = length vs2 /\ length rest1 = length rest2 /\ zlen rest1 < WIDTH t1 /\
    drain (zip_iterator (slice_iterator c t1) rest) fuel st =
      Ok (combine vs1 vs2,
          (match tail_of d1 rest1, tail_of d2 rest2 with
           | Some (p, n), Some (q, _) => Some ((p, q), n) | _, _ => None end), s').
Proof. exact c30_positions_refuted. Qed.
Print Assumptions C30_positions_refuted.

Example C30_positions_case :
  let c := mkConfig Release true in let ty := mkVty 4 4 in
  let rest := rest_one (blanket_unsafe c (si_array (slice_array c ty)) (si_iterable c (slice_array c ty))) in
  exists s', drain (zip_iterator (slice_iterator c ty) rest) 9
    (simd_iter [1;2;3;4;5;6] [0;0;0;0], mkSIMDIter 4 [11;12;13;14;15;16] [0;0;0;0]) =
    Ok ([([1;2;3;4], [11;12;13;14])], Some (([0;0;5;6], [0;0;15;16]), 2), s').
Proof. eexists. vm_compute. reflexivity. Qed.

(** C18, refuted for zips: [scalar_len] of a zip is a number of vectors. *)
Theorem C18_zipped_refuted : forall (A B : Type) (c : config) (ty : vty) (l1 d1 : list A) (l2 d2 : list B),
  vty_ok ty -> slice_ok ty l1 -> 0 < zlen l1 -> zlen l2 = zlen l1 ->
  let rest := rest_one (blanket_unsafe c (si_array (slice_array (A := B) c ty)) (si_iterable c (slice_array c ty))) in
  let z := zip_iterator (slice_iterator c ty) rest in
  exists n, it_scalar_len (itb z) (simd_iter l1 d1, simd_iter l2 d2) = Ok n /\ n = zlen l1 / WIDTH ty /\ n < zlen l1.
Proof. exact c18_zipped_refuted. Qed.
Print Assumptions C18_zipped_refuted.

Example C18_zipped_case :
  let c := mkConfig Release true in let ty := mkVty 4 4 in
  let rest := rest_one (blanket_unsafe c (si_array (slice_array c ty)) (si_iterable c (slice_array c ty))) in
  it_scalar_len (itb (zip_iterator (slice_iterator c ty) rest)) (simd_iter [1;2;3;4;5;6;7;8;9] [0;0;0;0], simd_iter [1;2;3;4;5;6;7;8;9] [0;0;0;0]) = Ok 2.
Proof. vm_compute. reflexivity. Qed.

(** C07 for zips: a zipped map-reduce with a commutative monoid whose mapped defaults are
    the unit does not depend on the vector width. *)
Theorem C07_zip_width_independent : forall (A B C : Type) (op : C -> C -> C) (e : C) (g : A -> B -> C) (x1 : A) (x2 : B),
  (forall x y z, op x (op y z) = op (op x y) z) -> (forall x y, op x y = op y x) ->
  (forall x, op e x = x) -> g x1 x2 = e ->
  forall (c : config) (t1 t2 out_ty : vty) (l1 : list A) (l2 : list B) (d0 : C) (fuel : nat),
  vty_ok t1 -> vty_ok t2 -> vty_ok out_ty -> WIDTH t2 = WIDTH t1 -> WIDTH out_ty = WIDTH t1 ->
  slice_ok t1 l1 -> slice_ok t2 l2 -> zlen l1 = zlen l2 -> (length l1 < fuel)%nat ->
  let rest := rest_one (blanket_unsafe c (si_array (slice_array c t2)) (si_iterable c (slice_array c t2))) in
  let z := zip_iterator (slice_iterator c t1) rest in
  let m := zipmap_iterator c z out_ty d0 (fun (u : unit) v => (map2 g (fst v) (snd v), u)) in
  exists acc s',
    simd_reduce m fuel (mkSIMDMap (simd_iter l1 (splat (WIDTH t1) x1), simd_iter l2 (splat (WIDTH t2) x2)) tt)
      (splat (WIDTH t1) e) (map2 op) = Ok (acc, s') /\
    zlen acc = WIDTH t1 /\ fold_left op acc e = fold_left op (map2 g l1 l2) e.
Proof. exact c07_zip_width_independent. Qed.
Print Assumptions C07_zip_width_independent.

Example C07_zip_case :
  let dot ty := let c := mkConfig Release true in
    let rest := rest_one (blanket_unsafe c (si_array (slice_array c ty)) (si_iterable c (slice_array c ty))) in
    match simd_reduce (zipmap_iterator c (zip_iterator (slice_iterator c ty) rest) ty 0
            (fun (u : unit) v => (map2 Z.mul (fst v) (snd v), u))) 20
          (mkSIMDMap (simd_iter [1;2;3;4;5;6;7;8;9;10] (splat (WIDTH ty) 0),
                      simd_iter [1;1;1;2;2;2;3;3;3;4] (splat (WIDTH ty) 0)) tt)
          (splat (WIDTH ty) 0) (map2 Z.add) with
    | Ok (acc, _) => fold_left Z.add acc 0 | _ => -1 end in
  dot (mkVty 2 8) = 148 /\ dot (mkVty 4 4) = 148 /\ dot (mkVty 8 4) = 148 /\ dot (mkVty 16 4) = 148.
Proof. repeat split; vm_compute; reflexivity. Qed.
