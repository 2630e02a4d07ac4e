(** Properties: collecting over stride_zip (C75). *)
From Verif Require Import Base Spec Vecs Iters Zip StrideZip ZipSpec.
From Coq Require Import Lia ZifyBool ZifyNat.
From Verif Require Import SzCollectProofs.

(** What [stride_zip().simd_map(|(a, b)| f(a, b)).scalar_collect()] returns, for every slice and
    lane-wise [f]: the pairs of the whole blocks of 2*WIDTH scalars, in order.  If r scalars
    are left over, 0 < r, also the last lanes of the tail vectors ([padded], see
    C31_outcomes_partial), from the number of missing pairs on.  If nothing is left over,
    this is [f] of every pair of neighbours. *)
Theorem C75_collect_partial : forall (A B : Type) (c : config) (ty : vty) (l d : list A) (d0 : A) (b0 : B) (f : A -> A -> B) (fuel : nat),
  vty_ok ty -> slice_ok ty l -> zlen d = WIDTH ty -> (length l < fuel)%nat ->
  let it := slice_iterator c ty in
  let m := zipmap_iterator c (stride_zip_iterator c it d0 destride_two_polyfill) ty b0 (fun (e : unit) p => (map2 f (fst p) (snd p), e)) in
  let W := WIDTH ty in let n := zlen l / (2 * W) in let r := zlen l mod (2 * W) in
  let whole := firstn (Z.to_nat (2 * W * n)) l in let rest := skipn (Z.to_nat (2 * W * n)) l in
  let padded := if r <? W then right_aligned d rest ++ d
                else firstn (Z.to_nat W) rest ++ right_aligned d (skipn (Z.to_nat W) rest) in
  let missing := if r <? W then (W - r) / 2 else if r =? W then W / 2 else (3 * W - r) / 2 in
  exists s0 s' evens odds pe po,
    stride_zip it (simd_iter l d) = Ok s0 /\
    is_stream whole 0 2 evens /\ is_stream whole 1 2 odds /\ is_stream padded 0 2 pe /\ is_stream padded 1 2 po /\
    scalar_collect c m b0 fuel (mkSIMDMap s0 tt) =
      Ok (map Some (map2 f evens odds ++ if r =? 0 then [] else skipn (Z.to_nat missing) (map2 f pe po)), s') /\
    (r = 0 -> whole = l).
Proof. exact c75_collect_partial. Qed.
Print Assumptions C75_collect_partial.

(** Whenever the slice is not a multiple of two vectors, that is not [f] of every pair of
    neighbours.  With r scalars left over, 0 < r < 2*WIDTH: if r < WIDTH, or r > WIDTH and
    WIDTH > 2, the result does not have one element per pair; if r = WIDTH it has, but the
    last WIDTH/2 of them are computed from the default vector instead of the slice. *)
Theorem C75_collect_refuted : forall (A B : Type) (c : config) (ty : vty) (l d : list A) (d0 : A) (b0 : B) (f : A -> A -> B) (fuel : nat),
  vty_ok ty -> slice_ok ty l -> zlen d = WIDTH ty -> (length l < fuel)%nat ->
  let it := slice_iterator c ty in
  let m := zipmap_iterator c (stride_zip_iterator c it d0 destride_two_polyfill) ty b0 (fun (e : unit) p => (map2 f (fst p) (snd p), e)) in
  let W := WIDTH ty in let n := zlen l / (2 * W) in let r := zlen l mod (2 * W) in
  r <> 0 ->
  exists s0 s' out, stride_zip it (simd_iter l d) = Ok s0 /\ scalar_collect c m b0 fuel (mkSIMDMap s0 tt) = Ok (out, s') /\
    (r < W \/ W < r /\ 2 < W -> zlen out <> zlen l / 2) /\
    (r = W -> zlen out = zlen l / 2 /\
       forall k, 0 <= k < W / 2 -> exists x y, znth d (2 * k) = Some x /\ znth d (2 * k + 1) = Some y /\ znth out (W * n + k) = Some (Some (f x y))).
Proof. exact c75_collect_refuted. Qed.
Print Assumptions C75_collect_refuted.

(** A slice of one vector: the closure only sees lanes of the default vector. *)
Example C75_collect_case :
  let c := mkConfig Release true in let ty := mkVty 4 4 in
  let m := zipmap_iterator c (stride_zip_iterator c (slice_iterator c ty) 0 destride_two_polyfill) ty 0 (fun (e : unit) p => (map2 Z.add (fst p) (snd p), e)) in
  let run l := match scalar_collect c m 0 20 (mkSIMDMap (mkStrideZip 0 None (simd_iter l [100; 200; 300; 400])) tt) with Ok (out, _) => out | _ => [] end in
  vty_ok ty /\ run [1; 2; 3; 4; 5; 6; 7; 8] = map Some [3; 7; 11; 15] /\ run [1; 2; 3; 4] = map Some [300; 700] /\
  run [1; 2] = map Some [3; 300; 700] /\ run [1; 2; 3; 4; 5; 6] = map Some [11].
Proof. cbv zeta. split; [vm_compute; auto 10|]. repeat split; vm_compute; reflexivity. Qed.
