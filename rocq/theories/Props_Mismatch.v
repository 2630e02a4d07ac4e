(** Properties: what draining a zip of two slices of different lengths does, in every
    case and in both builds (C29), a zip of iterators at different positions (C30), and
    everything stride_zip delivers, for every length (C31). *)
From Verif Require Import Base Spec Vecs Iters Zip StrideZip ZipSpec.
From Coq Require Import Lia ZifyBool ZifyNat.
From Verif Require Import MismatchProofs.

(** Two slices are accepted by [zip] whenever they hold the same number of whole vectors.
    What draining does then depends only on the two leftovers.  If the first slice has
    none, that of the second is dropped in silence.  Otherwise, if they differ in length,
    debug builds panic.  Release builds give the first leftover its padded tail, and pair
    it with something else of the second slice: if that is longer than one vector, with
    its last scalars, as many as the first slice had left over, even ones already handed out;
    if not and its leftover is shorter, with that leftover in the wrong lanes; and if not and its leftover is
    longer, behaviour is undefined. *)
Theorem C29_outcomes_partial : forall (A B : Type) (c : config) (t1 t2 : vty) (l1 d1 : list A) (l2 d2 : list B) (k2 : Z) (fuel : nat),
  vty_ok t1 -> vty_ok t2 -> WIDTH t2 = WIDTH t1 -> slice_ok t1 l1 -> slice_ok t2 l2 ->
  zlen d1 = WIDTH t1 -> zlen d2 = WIDTH t2 -> 0 <= k2 <= zlen l2 ->
  zlen l1 / WIDTH t1 = zlen l2 / WIDTH t1 -> (length l1 < fuel)%nat ->
  let rest := rest_one (blanket_unsafe c (si_array (slice_array c t2)) (si_iterable c (slice_array c t2))) in
  let st := (simd_iter l1 d1, mkSIMDIter k2 l2 d2) in
  zip (slice_iterator c t1) rest st = Ok st /\
  exists vs1 rest1 vs2 rest2 s',
    chunked (WIDTH t1) l1 vs1 rest1 /\ chunked (WIDTH t1) l2 vs2 rest2 /\
    zlen rest1 < WIDTH t1 /\ zlen rest2 < WIDTH t1 /\ length vs1 = length vs2 /\
    drain (zip_iterator (slice_iterator c t1) rest) fuel st =
      let n := WIDTH t1 - zlen rest1 in
      let paired q := Ok (combine vs1 vs2, Some ((right_aligned d1 rest1, q), n), s') in
      if zlen rest1 =? 0 then Ok (combine vs1 vs2, None, s')
      else if zlen rest1 =? zlen rest2 then paired (right_aligned d2 rest2)
      else match build c with
           | Debug => Panic
           | Release =>
             if WIDTH t1 <? zlen l2 then paired (right_aligned d2 (skipn (Z.to_nat (zlen l2 - zlen rest1)) l2))
             else if zlen rest1 <? zlen rest2 then UB
             else paired (firstn (Z.to_nat n) d2 ++ rest2 ++ skipn (Z.to_nat (n + zlen rest2)) d2)
           end.
Proof. exact c29_outcomes_partial. Qed.
Print Assumptions C29_outcomes_partial.

Example C29_outcomes_case :
  let ty := mkVty 4 4 in let c := mkConfig Release true in
  let out l1 l2 := match drain (zip_iterator (slice_iterator c ty) (rest_one (blanket_unsafe c (si_array (slice_array c ty)) (si_iterable c (slice_array c ty)))))
                           9 (simd_iter l1 [0; 0; 0; 0], simd_iter l2 [0; 0; 0; 0]) with
                   | Ok (vs, t, _) => Ok (vs, t) | Panic => Panic | UB => UB | Fuel => Fuel end in
  vty_ok ty /\ 6 / 4 = 5 / 4 /\
  out [1; 2; 3; 4; 5; 6] [7; 8; 9; 10; 11] = Ok ([([1; 2; 3; 4], [7; 8; 9; 10])], Some (([0; 0; 5; 6], [0; 0; 10; 11]), 2)) /\
  out [1; 2; 3; 4] [7; 8; 9; 10; 11] = Ok ([([1; 2; 3; 4], [7; 8; 9; 10])], None) /\
  out [1; 2; 3] [7; 8] = Ok ([], Some (([0; 1; 2; 3], [0; 7; 8; 0]), 1)) /\
  out [1; 2] [7; 8; 9] = UB.
Proof. cbn zeta. repeat split; try reflexivity; cbn; auto 10. Qed.

(** Only the position of the first iterator counts: whatever the position of the second,
    both slices are read from the position of the first on. *)
Theorem C30_first_position_partial : forall (A B : Type) (c : config) (t1 t2 : vty) (l1 d1 : list A) (l2 d2 : list B) (k k2 : Z) (fuel : nat),
  vty_ok t1 -> vty_ok t2 -> WIDTH t2 = WIDTH t1 -> slice_ok t1 l1 -> slice_ok t2 l2 ->
  zlen d1 = WIDTH t1 -> zlen d2 = WIDTH t2 -> zlen l1 = zlen l2 -> 0 <= k <= zlen l1 -> 0 <= k2 <= zlen l2 ->
  (k = 0 \/ WIDTH t1 < zlen l1 \/ k = zlen l1) -> (length l1 < fuel)%nat ->
  let rest := rest_one (blanket_unsafe c (si_array (slice_array c t2)) (si_iterable c (slice_array c t2))) in
  let st := (mkSIMDIter k l1 d1, mkSIMDIter k2 l2 d2) in
  zip (slice_iterator c t1) rest st = Ok st /\
  exists vs1 rest1 vs2 rest2 s',
    chunked (WIDTH t1) (skipn (Z.to_nat k) l1) vs1 rest1 /\ chunked (WIDTH t1) (skipn (Z.to_nat k) l2) vs2 rest2 /\
    length vs1 = length vs2 /\ length rest1 = length rest2 /\ zlen rest1 < WIDTH t1 /\
    drain (zip_iterator (slice_iterator c t1) rest) fuel st =
      Ok (combine vs1 vs2,
          (match tail_of d1 rest1, tail_of d2 rest2 with
           | Some (p, n), Some (q, _) => Some ((p, q), n) | _, _ => None end), s').
Proof. exact c30_first_position_partial. Qed.
Print Assumptions C30_first_position_partial.

Example C30_first_position_case :
  let ty := mkVty 4 4 in let c := mkConfig Release true in let l := [1; 2; 3; 4; 5; 6; 7; 8; 9] in
  exists s, drain (zip_iterator (slice_iterator c ty) (rest_one (blanket_unsafe c (si_array (slice_array c ty)) (si_iterable c (slice_array c ty)))))
    9 (mkSIMDIter 4 l [0; 0; 0; 0], mkSIMDIter 8 l [0; 0; 0; 0]) =
  Ok ([([5; 6; 7; 8], [5; 6; 7; 8])], Some (([0; 0; 0; 9], [0; 0; 0; 9]), 3), s).
Proof. eexists. reflexivity. Qed.

(** For every length: [next] yields the whole blocks of 2*WIDTH scalars, split into even and
    odd positions.  If r scalars are left over, 0 < r, [end] puts the vectors the
    underlying iterator returns for them (a full one if there is one, then the right-aligned
    tail or the default) side by side, and splits that into even and odd lanes: all leftover
    scalars are handed out.  But if their number is odd, the tail starts at an odd lane, so that
    pairs are torn apart.  The number of missing pairs is reported as (WIDTH-r)/2 if
    r < WIDTH, WIDTH/2 if r = WIDTH, and (3*WIDTH-r)/2 if r > WIDTH. *)
Theorem C31_outcomes_partial : forall (A : Type) (c : config) (ty : vty) (l d : list A) (d0 : A) (fuel : nat),
  vty_ok ty -> slice_ok ty l -> zlen d = WIDTH ty -> (length l < fuel)%nat ->
  let it := slice_iterator c ty in
  let z := stride_zip_iterator c it d0 destride_two_polyfill in
  let W := WIDTH ty in let n := zlen l / (2 * W) in let r := zlen l mod (2 * W) in
  let whole := firstn (Z.to_nat (2 * W * n)) l in let rest := skipn (Z.to_nat (2 * W * n)) l in
  let padded := if r <? W then right_aligned d rest ++ d
                else firstn (Z.to_nat W) rest ++ right_aligned d (skipn (Z.to_nat W) rest) in
  let missing := if r <? W then (W - r) / 2 else if r =? W then W / 2 else (3 * W - r) / 2 in
  exists s0 vs t s', stride_zip it (simd_iter l d) = Ok s0 /\ drain z fuel s0 = Ok (vs, t, s') /\
    zlen vs = n /\ Forall (fun p => zlen (fst p) = W /\ zlen (snd p) = W) vs /\
    is_stream whole 0 2 (concat (map fst vs)) /\ is_stream whole 1 2 (concat (map snd vs)) /\
    match t with
    | None => r = 0
    | Some ((p, q), miss) => r <> 0 /\ is_stream padded 0 2 p /\ is_stream padded 1 2 q /\ miss = missing
    end.
Proof. exact c31_outcomes_partial. Qed.
Print Assumptions C31_outcomes_partial.

(** C31, [end] before the last [next]: when one whole vector and [r] < WIDTH further scalars
    are left, [end] returns their pairs at once, with the same padding and the same count
    of missing pairs as after a [next] that returned [None]. *)
Theorem C31_end_early : forall (A : Type) (c : config) (ty : vty) (l d : list A) (d0 : A) (k : Z),
  vty_ok ty -> slice_ok ty l -> zlen d = WIDTH ty ->
  let W := WIDTH ty in let r := zlen l - k - W in
  0 <= k -> 0 <= r < W ->
  let it := slice_iterator c ty in
  let z := stride_zip_iterator c it d0 destride_two_polyfill in
  let padded := sub l k W ++ right_aligned d (skipn (Z.to_nat (k + W)) l) in
  exists s0 p q s', stride_zip it (mkSIMDIter k l d) = Ok s0 /\
    it_end z s0 = Ok (Some ((p, q), if r =? 0 then W / 2 else (2 * W - r) / 2), s') /\ is_stream padded 0 2 p /\ is_stream padded 1 2 q /\
    it_next (itb z) s' = Ok (None, s') /\ exists s'', it_end z s' = Ok (None, s'').
Proof. exact c31_end_early. Qed.
Print Assumptions C31_end_early.

Example C31_end_early_case : let c := mkConfig Debug true in let ty := mkVty 4 4 in
  let z := stride_zip_iterator c (slice_iterator c ty) 0 destride_two_polyfill in
  exists s0 s', stride_zip (slice_iterator c ty) (mkSIMDIter 0 [1;2;3;4;5;6] [0;0;0;0]) = Ok s0 /\ it_end z s0 = Ok (Some (([1;3;0;5],[2;4;0;6]), 3), s').
Proof. do 2 eexists. split; [reflexivity|vm_compute; reflexivity]. Qed.

(** Three scalars left of a vector of four: the pairs (5, 6) and (7, _) come out as
    (_, 5) and (6, 7). *)
Example C31_outcomes_case :
  let c := mkConfig Debug true in let ty := mkVty 4 4 in
  let z := stride_zip_iterator c (slice_iterator c ty) 0 destride_two_polyfill in
  vty_ok ty /\ exists s', drain z 9 (mkStrideZip 0 None (simd_iter [5; 6; 7] [0; 0; 0; 0])) = Ok ([], Some (([0; 6; 0; 0], [5; 7; 0; 0]), 0), s').
Proof. split; [vm_compute; auto 10|]. eexists. vm_compute. reflexivity. Qed.
