(** Proofs of the properties: what draining a zip of two slices of different lengths does, in every
    case and in both builds (C29), a zip of iterators at different positions (C30), and
    everything stride_zip delivers, for every length (C31). *)
From Verif Require Import Base Spec Vecs Iters Zip StrideZip ZipSpec.
From Coq Require Import Lia ZifyBool ZifyNat.
From Verif Require Import ListFacts VecFacts IterFacts CollectFacts MapFacts StrideFacts ZipFacts ZipProofs AdapterProofs.
Ltac Zify.zify_post_hook ::= Z.div_mod_to_equations.

Lemma slice_next_exact : forall (A : Type) c ty (l d : list A) k,
  vty_ok ty -> slice_ok ty l -> 0 <= k <= zlen l ->
  it_next (si_iterable c (slice_array c ty)) (mkSIMDIter k l d) =
  if k + WIDTH ty <=? zlen l then Ok (Some (sub l k (WIDTH ty)), mkSIMDIter (k + WIDTH ty) l d)
  else Ok (None, mkSIMDIter k l d).
Proof.
  intros A c ty l d k Hty Hl Hk. pose proof (vty_ok_facts _ Hty) as (H1 & _).
  pose proof (slice_small ty l Hty Hl) as Hsm. unfold max_len in Hsm. pose proof usize_mod_val as Hum.
  cbn [it_next si_iterable]. unfold si_next. cbn [si_position si_data arr_ty slice_array arr_scalar_len].
  pose proof (vty_ok_facts _ Hty) as (_ & H2 & H3 & H4 & H5 & H6).
  rewrite uadd_ok by lia. cbn [bind]. destruct (k + WIDTH ty <=? zlen l) eqn:E; [|reflexivity].
  pose proof (ah_vec _ _ _ (slice_array_holds c ty l Hty) k ltac:(lia) ltac:(cbn; lia)) as Hv.
  cbn [arr_load_unchecked slice_array arr_ty] in Hv |- *. rewrite Hv. cbn [bind].
  unfold si_advance. rewrite uadd_ok by (cbn; lia). cbn. reflexivity.
Qed.

Lemma zip_next_all : forall (A B : Type) c t1 t2 (l1 d1 : list A) (l2 d2 : list B) k2,
  vty_ok t1 -> vty_ok t2 -> WIDTH t2 = WIDTH t1 -> slice_ok t1 l1 -> slice_ok t2 l2 ->
  zlen d2 = WIDTH t2 -> 0 <= k2 <= zlen l2 ->
  let rest := rest_one (blanket_unsafe c (si_array (slice_array c t2)) (si_iterable c (slice_array c t2))) in
  let z := zip_iterator (slice_iterator c t1) rest in
  forall m k fuel, 0 <= k -> k + WIDTH t1 * Z.of_nat m <= zlen l1 < k + WIDTH t1 * (Z.of_nat m + 1) ->
  k + WIDTH t1 * Z.of_nat m <= zlen l2 -> (m < fuel)%nat ->
  drain_next z fuel (mkSIMDIter k l1 d1, mkSIMDIter k2 l2 d2) =
  Ok (map (fun p => (sub l1 p (WIDTH t1), sub l2 p (WIDTH t1))) (positions k (WIDTH t1) m),
      (mkSIMDIter (k + WIDTH t1 * Z.of_nat m) l1 d1, mkSIMDIter k2 l2 d2)).
Proof.
  intros A B c t1 t2 l1 d1 l2 d2 k2 Ht1 Ht2 Hw Hl1 Hl2 Hd2 Hk2 rest z.
  pose proof (vty_ok_facts _ Ht1) as (H1 & _). pose proof (slice_stepping c t2 l2 d2 Ht2 Hl2 Hd2) as Hst2.
  induction m as [|m IH]; intros k fuel Hk Hm Hm2 Hf; (destruct fuel as [|fuel]; [lia|]); cbn [drain_next].
  - subst z. cbn [itb zip_iterator zip_iterable it_next]. unfold zip_next. cbn [fst snd slice_iterator itb blanket_iterator].
    cbn [it_scalar_pos si_iterable si_position bind]. rewrite slice_next_exact by (assumption || lia).
    replace (k + WIDTH t1 <=? zlen l1) with false by lia. cbn [bind positions map].
    replace (k + WIDTH t1 * Z.of_nat 0) with k by lia. reflexivity.
  - assert (Hn : it_next (itb z) (mkSIMDIter k l1 d1, mkSIMDIter k2 l2 d2) =
       Ok (Some (sub l1 k (WIDTH t1), sub l2 k (WIDTH t1)), (mkSIMDIter (k + WIDTH t1) l1 d1, mkSIMDIter k2 l2 d2))).
    { subst z. cbn [itb zip_iterator zip_iterable it_next]. unfold zip_next. cbn [fst snd slice_iterator itb blanket_iterator].
      cbn [it_scalar_pos si_iterable si_position bind]. rewrite slice_next_exact by (assumption || lia).
      replace (k + WIDTH t1 <=? zlen l1) with true by lia. cbn [bind]. subst rest. cbn [rest_next rest_one blanket_unsafe un_next].
      rewrite (next_unchecked_ok c _ _ l2 d2 _ Hst2 _ k2 k (conj eq_refl Hk2) Hk) by (cbn [it_ty si_iterable arr_ty slice_array]; lia).
      cbn [bind it_ty si_iterable arr_ty slice_array]. rewrite Hw. reflexivity. }
    rewrite Hn. cbn [bind]. rewrite IH by lia. cbn [bind fst snd positions map].
    replace (k + WIDTH t1 + WIDTH t1 * Z.of_nat m) with (k + WIDTH t1 * Z.of_nat (S m)) by lia. reflexivity.
Qed.

Lemma end_unchecked_debug : forall (B : Type) b t2 (l2 d2 : list B) k2 off e,
  vty_ok t2 -> slice_ok t2 l2 -> 0 <= off <= zlen l2 -> zlen l2 - off <= WIDTH t2 -> (off = zlen l2 \/ e <> WIDTH t2 - (zlen l2 - off)) ->
  let c := mkConfig Debug b in
  end_unchecked c (si_array (slice_array c t2)) (si_iterable c (slice_array c t2)) (mkSIMDIter k2 l2 d2) off e = Panic.
Proof.
  intros B b t2 l2 d2 k2 off e Ht2 Hl2 Ho Hw He c. pose proof (vty_ok_facts _ Ht2) as (H1 & H2 & H3 & H4 & H5 & H6).
  pose proof (slice_small t2 l2 Ht2 Hl2) as Hsm. unfold max_len in Hsm. pose proof usize_mod_val as Hum.
  unfold end_unchecked. cbn [it_scalar_len si_iterable arr_scalar_len slice_array si_data bind].
  unfold debug_assert. cbn [build c]. destruct (off <? zlen l2) eqn:E; [|reflexivity]. cbn [bind rassert].
  rewrite usub_ok by lia. cbn [bind]. cbn [it_ty si_iterable arr_ty slice_array]. rewrite usub_ok by lia. cbn [bind].
  replace (e =? WIDTH t2 - (zlen l2 - off)) with false by lia. reflexivity.
Qed.

Lemma end_unchecked_release : forall (B : Type) b t2 (l2 d2 : list B) k2 off r1,
  vty_ok t2 -> slice_ok t2 l2 -> zlen d2 = WIDTH t2 -> 0 <= k2 <= zlen l2 -> 0 <= off <= zlen l2 -> zlen l2 - off < WIDTH t2 -> 0 < r1 < WIDTH t2 ->
  (off = 0 \/ WIDTH t2 <= off) ->
  let c := mkConfig Release b in
  end_unchecked c (si_array (slice_array c t2)) (si_iterable c (slice_array c t2)) (mkSIMDIter k2 l2 d2) off (WIDTH t2 - r1) =
  if WIDTH t2 <? zlen l2 then Ok (right_aligned d2 (skipn (Z.to_nat (zlen l2 - r1)) l2))
  else if r1 <? zlen l2 - off then UB
  else Ok (firstn (Z.to_nat (WIDTH t2 - r1)) d2 ++ skipn (Z.to_nat off) l2 ++ skipn (Z.to_nat (WIDTH t2 - r1 + (zlen l2 - off))) d2).
Proof.
  intros B b t2 l2 d2 k2 off r1 Ht2 Hl2 Hd2 Hk2 Ho Hw Hr Hal c. pose proof (vty_ok_facts _ Ht2) as (H1 & H2 & H3 & H4 & H5 & H6).
  pose proof (slice_small t2 l2 Ht2 Hl2) as Hsm. unfold max_len in Hsm. pose proof usize_mod_val as Hum.
  pose proof (slice_stepping c t2 l2 d2 Ht2 Hl2 Hd2) as Hst2.
  assert (HR : si_at l2 d2 (zlen l2) (mkSIMDIter k2 l2 d2) k2) by (split; [reflexivity|exact Hk2]).
  unfold end_unchecked. cbn [it_scalar_len si_iterable arr_scalar_len slice_array si_data bind].
  unfold debug_assert. cbn [build c bind]. unfold partial_vector. cbn [it_ty si_iterable arr_ty slice_array].
  destruct (WIDTH t2 <? zlen l2) eqn:E.
  - rewrite usub_ok by lia. cbn [bind it_default si_iterable si_default].
    pose proof (load_vec_ok _ _ l2 d2 _ Hst2 _ k2 HR (zlen l2 - WIDTH t2)) as Hv. cbn [it_ty si_iterable arr_ty slice_array] in Hv.
    fold c. rewrite Hv by lia. cbn [bind].
    rewrite merge_partitioned_ok; [|exact Ht2|exact Hd2|rewrite zlen_sub; lia|lia].
    pose proof (tail_merge _ _ l2 d2 _ Hst2 (WIDTH t2 - r1)) as Ht. cbn [it_ty si_iterable arr_ty slice_array] in Ht. rewrite Ht by lia.
    unfold right_aligned. rewrite skipn_length. do 2 f_equal; [f_equal; unfold zlen in *; lia|f_equal; lia].
  - cbn [it_default si_iterable si_default]. fold c. destruct (r1 <? zlen l2 - off) eqn:E2.
    + match goal with |- for_range _ _ ?F _ = _ => set (f := F) end.
      assert (off = 0) by lia. subst off.
      assert (Hgen : forall m i v, Z.of_nat m = zlen l2 - i -> 0 <= i <= r1 -> for_range m i f v = UB).
      { induction m as [|m IH]; intros i v Hm Hi; [lia|]. cbn [for_range]. unfold f at 1.
        rewrite uadd_ok by lia. cbn [bind]. destruct (znth_exists l2 i ltac:(lia)) as [y Hy].
        cbn [arr_load_scalar_unchecked si_array si_data slice_array]. unfold debug_assert. cbn [build c bind]. rewrite Hy. cbn [bind].
        unfold replace_unchecked. destruct (i + (WIDTH t2 - r1) <? WIDTH t2) eqn:Ein.
        - cbn [bind]. apply IH; lia.
        - reflexivity. }
      apply Hgen; lia.
    + set (e := WIDTH t2 - r1) in *.
      replace (Z.to_nat (zlen l2 - off)) with (length (skipn (Z.to_nat off) l2)) by (rewrite skipn_length; unfold zlen; lia).
      assert (Hsplit : d2 = firstn (Z.to_nat e) d2 ++ firstn (Z.to_nat (zlen l2 - off)) (skipn (Z.to_nat e) d2) ++ skipn (Z.to_nat (e + (zlen l2 - off))) d2).
      { rewrite <- (firstn_skipn (Z.to_nat e) d2) at 1. f_equal.
        rewrite <- (firstn_skipn (Z.to_nat (zlen l2 - off)) (skipn (Z.to_nat e) d2)) at 1. f_equal. rewrite skipn_skipn. f_equal. lia. }
      rewrite Hsplit at 1.
      match goal with |- for_range _ _ ?f _ = _ =>
        apply (for_range_write f (skipn (Z.to_nat off) l2) off (firstn (Z.to_nat e) d2)
                 (firstn (Z.to_nat (zlen l2 - off)) (skipn (Z.to_nat e) d2)) (skipn (Z.to_nat (e + (zlen l2 - off))) d2)) end.
      * rewrite firstn_length, !skipn_length. unfold zlen in *; lia.
      * intros j x v Hj Hb. pose proof (nth_error_lt _ _ _ Hj) as Hlt. rewrite skipn_length in Hlt.
        assert (Hoff : off = 0) by (unfold zlen in *; lia).
        rewrite uadd_ok, bind_Ok by (unfold usize_mod, zlen in *; lia).
        rewrite (ah_scalar _ _ _ (st_arr _ _ _ _ _ Hst2 _ _ HR) _ x) by (apply znth_skipn; [lia|exact Hj]).
        rewrite <- Hsplit in Hb. rewrite bind_Ok, replace_unchecked_ok by (unfold zlen in *; lia).
        rewrite zlen_firstn. do 2 f_equal. unfold zlen in *; lia.
Qed.

Lemma c29_outcomes_partial : forall (A B : Type) (c : config) (t1 t2 : vty) (l1 d1 : list A) (l2 d2 : list B) (k2 : Z) (fuel : nat),
  vty_ok t1 -> vty_ok t2 -> WIDTH t2 = WIDTH t1 -> slice_ok t1 l1 -> slice_ok t2 l2 ->
  zlen d1 = WIDTH t1 -> zlen d2 = WIDTH t2 -> 0 <= k2 <= zlen l2 ->
  zlen l1 / WIDTH t1 = zlen l2 / WIDTH t1 -> (length l1 < fuel)%nat ->
  let rest := rest_one (blanket_unsafe c (si_array (slice_array c t2)) (si_iterable c (slice_array c t2))) in
  let st := (simd_iter l1 d1, mkSIMDIter k2 l2 d2) in
  zip (slice_iterator c t1) rest st = Ok st /\
  exists vs1 rest1 vs2 rest2 s',
    chunked (WIDTH t1) l1 vs1 rest1 /\ chunked (WIDTH t1) l2 vs2 rest2 /\
    zlen rest1 < WIDTH t1 /\ zlen rest2 < WIDTH t1 /\ length vs1 = length vs2 /\
    drain (zip_iterator (slice_iterator c t1) rest) fuel st =
      let n := WIDTH t1 - zlen rest1 in
      let paired q := Ok (combine vs1 vs2, Some ((right_aligned d1 rest1, q), n), s') in
      if zlen rest1 =? 0 then Ok (combine vs1 vs2, None, s')
      else if zlen rest1 =? zlen rest2 then paired (right_aligned d2 rest2)
      else match build c with
           | Debug => Panic
           | Release =>
             if WIDTH t1 <? zlen l2 then paired (right_aligned d2 (skipn (Z.to_nat (zlen l2 - zlen rest1)) l2))
             else if zlen rest1 <? zlen rest2 then UB
             else paired (firstn (Z.to_nat n) d2 ++ rest2 ++ skipn (Z.to_nat (n + zlen rest2)) d2)
           end.
Proof.
  intros A B c t1 t2 l1 d1 l2 d2 k2 fuel Ht1 Ht2 Hw Hl1 Hl2 Hd1 Hd2 Hk2 Hq Hf rest st.
  pose proof (vty_ok_facts _ Ht1) as (H1 & _). pose proof (vty_ok_facts _ Ht2) as (G1 & _).
  pose proof (slice_stepping c t1 l1 d1 Ht1 Hl1 Hd1) as Hst1. pose proof (slice_stepping c t2 l2 d2 Ht2 Hl2 Hd2) as Hst2.
  pose proof (zlen_nonneg l1) as Hz1. pose proof (zlen_nonneg l2) as Hz2.
  split.
  { unfold rest, st, simd_iter. rewrite (c29_vector_counts_partial A B c t1 t2 l1 d1 l2 d2 0 k2 Ht1 Ht2).
    rewrite Hw, Hq, Z.eqb_refl. reflexivity. }
  set (W := WIDTH t1) in *. set (m := Z.to_nat (zlen l1 / W)).
  assert (Hm1 : W * Z.of_nat m <= zlen l1 < W * (Z.of_nat m + 1)) by (subst m; clear - H1 Hz1; clearbody W; nia).
  assert (Hm2 : W * Z.of_nat m <= zlen l2 < W * (Z.of_nat m + 1)) by (subst m; rewrite Hq; clear - H1 Hz2; clearbody W; nia).
  assert (Hmf : (m < fuel)%nat) by (clear - H1 Hm1 Hf; unfold zlen in *; nia).
  set (p := W * Z.of_nat m) in *.
  exists (map (fun p => sub l1 p W) (vector_starts 0 W m)), (skipn (Z.to_nat p) l1),
    (map (fun p => sub l2 p W) (vector_starts 0 W m)), (skipn (Z.to_nat p) l2), (mkSIMDIter (zlen l1) l1 d1, mkSIMDIter k2 l2 d2).
  assert (Hch : forall C (l : list C), p <= zlen l -> chunked W l (map (fun p => sub l p W) (vector_starts 0 W m)) (skipn (Z.to_nat p) l)).
  { intros C l Hp. rewrite <- positions_starts. apply (positions_chunked l W m 0); subst p; lia. }
  assert (Hr1 : zlen (skipn (Z.to_nat p) l1) = zlen l1 - p) by (rewrite zlen_skipn; subst p; clear - Hm1 H1; lia).
  assert (Hr2 : zlen (skipn (Z.to_nat p) l2) = zlen l2 - p) by (rewrite zlen_skipn; subst p; clear - Hm2 H1; lia).
  assert (HpW : W * (Z.of_nat m + 1) = p + W) by (subst p; lia). rewrite HpW in Hm1, Hm2.
  assert (Hp0 : 0 <= p) by (subst p; clear - H1; lia).
  assert (Hpal : p = 0 \/ W <= p) by (subst p; clear - H1; clearbody W; nia).
  split; [apply Hch; lia|]. split; [apply Hch; lia|]. split; [lia|]. split; [lia|]. split; [rewrite !map_length; reflexivity|].
  rewrite Hr1, Hr2.
  unfold drain. pose proof (zip_next_all A B c t1 t2 l1 d1 l2 d2 k2 Ht1 Ht2 Hw Hl1 Hl2 Hd2 Hk2 m 0 fuel) as Hall.
  fold W in Hall. cbn zeta in Hall. unfold st, simd_iter. unfold rest. rewrite Hall by (fold p; lia).
  cbn [bind fst snd]. rewrite Z.add_0_l. fold p. rewrite positions_starts, map_combine.
  cbn [it_end zip_iterator]. unfold zip_end. cbn [fst snd slice_iterator itb blanket_iterator it_end].
  cbn [it_scalar_pos si_iterable si_position bind].
  assert (HR : si_at l1 d1 (zlen l1) (mkSIMDIter p l1 d1) p) by (split; [reflexivity|lia]).
  destruct (blanket_end_ok c _ _ l1 d1 _ Hst1 _ p HR) as (s' & He & HR').
  { unfold tail_ready. cbn [it_ty si_iterable arr_ty slice_array]. fold W. lia. }
  { cbn [it_ty si_iterable arr_ty slice_array]. fold W. lia. }
  rewrite He. cbn [bind]. destruct HR' as [-> _].
  destruct (zlen l1 - p =? 0) eqn:E0.
  { replace (skipn (Z.to_nat p) l1) with (@nil A) by (destruct (skipn (Z.to_nat p) l1); [reflexivity|rewrite zlen_cons in Hr1; pose proof (zlen_nonneg l); lia]).
    reflexivity. }
  unfold tail_of. destruct (skipn (Z.to_nat p) l1) as [|x xs] eqn:Es; [cbn in Hr1; lia|]. rewrite <- Es in *. clear Es x xs.
  unfold unfilled. rewrite Hd1, Hr1. fold W. cbn [rest_end rest_one blanket_unsafe un_end].
  destruct (zlen l1 - p =? zlen l2 - p) eqn:E1.
  { replace (W - (zlen l1 - p)) with (WIDTH t2 - (zlen l2 - p)) by lia.
    pose proof (end_unchecked_ok c _ _ l2 d2 _ Hst2 (mkSIMDIter k2 l2 d2) k2 p (conj eq_refl Hk2)) as He2.
    cbn [it_ty si_iterable arr_ty slice_array] in He2. unfold tail_ready in He2. cbn [it_ty si_iterable arr_ty slice_array] in He2.
    rewrite He2 by lia. cbn [bind fst snd]. reflexivity. }
  destruct c as [bd b]. destruct bd; cbn [build].
  - rewrite (end_unchecked_debug B b t2 l2 d2 k2 p (W - (zlen l1 - p)) Ht2 Hl2) by lia. reflexivity.
  - rewrite <- Hw at 1. rewrite (end_unchecked_release B b t2 l2 d2 k2 p (zlen l1 - p) Ht2 Hl2 Hd2 Hk2) by lia. rewrite Hw.
    replace (skipn (Z.to_nat (zlen l2 - (zlen l1 - p))) l2) with (skipn (Z.to_nat (zlen l2 - (zlen l1 - p))) l2) by reflexivity.
    destruct (W <? zlen l2) eqn:E2; [reflexivity|]. destruct (zlen l1 - p <? zlen l2 - p) eqn:E3; reflexivity.
Qed.

Lemma c30_first_position_partial : forall (A B : Type) (c : config) (t1 t2 : vty) (l1 d1 : list A) (l2 d2 : list B) (k k2 : Z) (fuel : nat),
  vty_ok t1 -> vty_ok t2 -> WIDTH t2 = WIDTH t1 -> slice_ok t1 l1 -> slice_ok t2 l2 ->
  zlen d1 = WIDTH t1 -> zlen d2 = WIDTH t2 -> zlen l1 = zlen l2 -> 0 <= k <= zlen l1 -> 0 <= k2 <= zlen l2 ->
  (k = 0 \/ WIDTH t1 < zlen l1 \/ k = zlen l1) -> (length l1 < fuel)%nat ->
  let rest := rest_one (blanket_unsafe c (si_array (slice_array c t2)) (si_iterable c (slice_array c t2))) in
  let st := (mkSIMDIter k l1 d1, mkSIMDIter k2 l2 d2) in
  zip (slice_iterator c t1) rest st = Ok st /\
  exists vs1 rest1 vs2 rest2 s',
    chunked (WIDTH t1) (skipn (Z.to_nat k) l1) vs1 rest1 /\ chunked (WIDTH t1) (skipn (Z.to_nat k) l2) vs2 rest2 /\
    length vs1 = length vs2 /\ length rest1 = length rest2 /\ zlen rest1 < WIDTH t1 /\
    drain (zip_iterator (slice_iterator c t1) rest) fuel st =
      Ok (combine vs1 vs2,
          (match tail_of d1 rest1, tail_of d2 rest2 with
           | Some (p, n), Some (q, _) => Some ((p, q), n) | _, _ => None end), s').
Proof.
  intros A B c t1 t2 l1 d1 l2 d2 k k2 fuel Ht1 Ht2 Hw Hl1 Hl2 Hd1 Hd2 Hl Hk Hk2 Hrd Hf rest st.
  destruct (two_slices A B c t1 t2 l1 d1 l2 d2 k k2 Ht1 Ht2 Hw Hl1 Hl2 Hd1 Hd2 Hl Hk Hk2 Hrd)
    as (Hz & vs1 & r1 & vs2 & r2 & s' & He & Hc1 & Hc2 & Hv & Hr & Hlt & _).
  split; [exact Hz|]. exists vs1, r1, vs2, r2, s'. repeat (split; [assumption|]).
  rewrite (emits_drain _ _ _ _ _ He).
  - do 3 f_equal. unfold tail_of. destruct r1, r2; try discriminate; reflexivity.
  - rewrite combine_length. pose proof (chunked_length t1 _ Ht1 vs1 r1 Hc1) as Hcl. rewrite skipn_length in Hcl. lia.
Qed.

Lemma sz_outcomes : forall (A : Type) (c : config) (ty : vty) (l d : list A) (d0 : A) (fuel : nat),
  vty_ok ty -> slice_ok ty l -> zlen d = WIDTH ty -> (length l < fuel)%nat ->
  let it := slice_iterator c ty in
  let z := stride_zip_iterator c it d0 destride_two_polyfill in
  let W := WIDTH ty in let n := zlen l / (2 * W) in let r := zlen l mod (2 * W) in
  let whole := firstn (Z.to_nat (2 * W * n)) l in let rest := skipn (Z.to_nat (2 * W * n)) l in
  let padded := if r <? W then right_aligned d rest ++ d
                else firstn (Z.to_nat W) rest ++ right_aligned d (skipn (Z.to_nat W) rest) in
  let missing := if r <? W then (W - r) / 2 else if r =? W then W / 2 else (3 * W - r) / 2 in
  exists s0 vs t s', stride_zip it (simd_iter l d) = Ok s0 /\ drain z fuel s0 = Ok (vs, t, s') /\
    zlen vs = n /\ Forall (fun p => zlen (fst p) = W /\ zlen (snd p) = W) vs /\
    is_stream whole 0 2 (concat (map fst vs)) /\ is_stream whole 1 2 (concat (map snd vs)) /\
    si_data (sz_iter s') = l /\
    match t with
    | None => r = 0
    | Some ((p, q), miss) => r <> 0 /\ is_stream padded 0 2 p /\ is_stream padded 1 2 q /\ miss = missing
    end.
Proof.
  intros A c ty l d d0 fuel Hty Hl Hd Hf it z W n r whole rest padded missing.
  pose proof (vty_ok_facts _ Hty) as (H1 & H2 & H3 & H4 & H5 & H6).
  destruct (width_even ty Hty) as (h & Hh & Hh0).
  pose proof usize_mod_val as Hum. pose proof (zlen_nonneg l) as Hl0. fold W in H1, H2, H3, H4, H5, H6, Hh, Hd.
  pose proof (Z.div_mod (zlen l) (2 * W) ltac:(lia)) as Hdm. fold n r in Hdm.
  pose proof (Z.mod_pos_bound (zlen l) (2 * W) ltac:(lia)) as Hmb. fold r in Hmb.
  assert (Hn : 0 <= n) by (apply Z.div_pos; lia).
  destruct (sz_drain A c ty l d d0 0 None Hty Hl (Z.to_nat n) 0 fuel) as (vs & Hvl & Hdr & Hsz & He & Ho).
  { lia. }
  { fold W. rewrite Z2Nat.id by lia. lia. }
  { unfold zlen in *. nia. }
  fold W in Hdr, Hsz, He, Ho.
  rewrite Z2Nat.id in * by lia. rewrite !Z.add_0_l in *. set (K := 2 * W * n) in *.
  assert (HK : 0 <= K) by nia.
  assert (Hwhole : sub l 0 K = whole) by reflexivity. rewrite Hwhole in He, Ho.
  assert (Hzr : zlen rest = r) by (unfold rest; rewrite zlen_skipn; lia).
  assert (Hra : forall v : list A, length v = (2 * Z.to_nat h)%nat -> forall u, destride_two_polyfill v u = (even_lanes (v ++ u), odd_lanes (v ++ u))).
  { intros v Hv u. destruct (even_lanes_app A (Z.to_nat h) v u Hv) as [-> ->]. reflexivity. }
  assert (Hral : forall R : list A, zlen R <= W -> length (right_aligned d R) = (2 * Z.to_nat h)%nat).
  { intros R HR. unfold right_aligned. rewrite app_length, firstn_length. unfold zlen in *. lia. }
  assert (Hstr : forall X : list A, is_stream X 0 2 (even_lanes X) /\ is_stream X 1 2 (odd_lanes X)) by (intros X; apply (lanes_stream A (length X)); lia).
  exists (mkStrideZip 0 None (simd_iter l d)), vs.
  unfold drain. fold it z in Hdr. unfold simd_iter. rewrite Hdr. cbn [bind fst snd].
  subst z it. cbn [it_end stride_zip_iterator]. unfold sz_end.
  rewrite He, Ho.
  destruct (Z_lt_le_dec r W) as [Hlt|Hge].
  - replace (zlen l <? K + W) with true by lia. cbn [sz_iter sz_peek sz_base].
    rewrite slice_next_none by (try assumption; lia). cbn [bind fst snd].
    rewrite slice_end_at; try assumption; [|destruct (Z.eq_dec n 0); [left; unfold K; nia|destruct (Z.eq_dec r 0); [right; right; lia|right; left; nia]]|lia|fold W; lia].
    fold rest. unfold tail_of. unfold padded, missing. replace (r <? W) with true by lia.
    destruct rest as [|x xs] eqn:Es.
    { cbn [bind fst snd itb slice_iterator blanket_iterator it_default si_iterable si_default]. replace (0 <? 0) with false by lia. cbn [bind fst snd].
      do 2 eexists. split; [reflexivity|]. split; [reflexivity|]. split; [unfold zlen; lia|]. split; [exact Hsz|]. split; [apply Hstr|]. split; [apply Hstr|]. split; [reflexivity|]. cbn in Hzr. lia. }
    rewrite <- Es in *. assert (Hr0 : r <> 0) by (rewrite Es in Hzr; rewrite zlen_cons in Hzr; pose proof (zlen_nonneg xs); lia).
    unfold unfilled. rewrite Hzr, Hd. cbn [bind fst snd]. replace (0 <? W - r) with true by lia. cbn [bind fst snd itb slice_iterator blanket_iterator it_default si_iterable si_default].
    rewrite Hra by (apply Hral; lia).
    do 2 eexists. split; [reflexivity|]. split; [reflexivity|]. split; [unfold zlen; lia|]. split; [exact Hsz|]. split; [apply Hstr|]. split; [apply Hstr|]. split; [reflexivity|].
    split; [exact Hr0|]. split; [apply Hstr|]. split; [apply Hstr|]. reflexivity.
  - replace (zlen l <? K + W) with false by lia. cbn [sz_iter sz_peek sz_base].
    rewrite slice_next_none by (try assumption; fold W; lia). cbn [bind fst snd].
    assert (Hrs : skipn (Z.to_nat (K + W)) l = skipn (Z.to_nat W) rest) by (unfold rest; rewrite skipn_skipn; f_equal; lia).
    rewrite slice_end_at; try assumption; [|fold W; nia|lia|fold W; lia].
    rewrite Hrs. assert (Hrw : zlen (skipn (Z.to_nat W) rest) = r - W) by (rewrite zlen_skipn; lia).
    assert (Hsub : sub l K W = firstn (Z.to_nat W) rest) by reflexivity. rewrite Hsub.
    assert (Hsl : length (firstn (Z.to_nat W) rest) = (2 * Z.to_nat h)%nat) by (rewrite firstn_length; unfold zlen in *; lia).
    unfold tail_of, padded, missing. replace (r <? W) with false by lia.
    destruct (skipn (Z.to_nat W) rest) as [|x xs] eqn:Es.
    { cbn in Hrw. replace (r =? W) with true by lia.
      cbn [bind fst snd itb slice_iterator blanket_iterator it_default si_iterable si_default it_ty arr_ty slice_array]. fold W. rewrite uadd_ok by lia.
      replace (W + 0) with W by lia. cbn [bind fst snd]. rewrite Hra by exact Hsl.
      do 2 eexists. split; [reflexivity|]. split; [reflexivity|]. split; [unfold zlen; lia|]. split; [exact Hsz|]. split; [apply Hstr|]. split; [apply Hstr|]. split; [reflexivity|].
      split; [lia|]. unfold right_aligned. cbn [length]. rewrite Nat.sub_0_r, firstn_all, app_nil_r. split; [apply Hstr|]. split; [apply Hstr|]. reflexivity. }
    rewrite <- Es in *. assert (Hr0 : r <> W) by (rewrite Es in Hrw; rewrite zlen_cons in Hrw; pose proof (zlen_nonneg xs); lia).
    unfold unfilled. rewrite Hrw, Hd. cbn [bind fst snd itb slice_iterator blanket_iterator si_iterable it_ty arr_ty slice_array]. fold W. rewrite uadd_ok by lia. cbn [bind fst snd].
    rewrite Hra by exact Hsl. replace (r =? W) with false by lia.
    do 2 eexists. split; [reflexivity|]. split; [reflexivity|]. split; [unfold zlen; lia|]. split; [exact Hsz|]. split; [apply Hstr|]. split; [apply Hstr|]. split; [reflexivity|].
    split; [lia|]. split; [apply Hstr|]. split; [apply Hstr|]. f_equal. lia.
Qed.

Lemma c31_outcomes_partial : forall (A : Type) (c : config) (ty : vty) (l d : list A) (d0 : A) (fuel : nat),
  vty_ok ty -> slice_ok ty l -> zlen d = WIDTH ty -> (length l < fuel)%nat ->
  let it := slice_iterator c ty in
  let z := stride_zip_iterator c it d0 destride_two_polyfill in
  let W := WIDTH ty in let n := zlen l / (2 * W) in let r := zlen l mod (2 * W) in
  let whole := firstn (Z.to_nat (2 * W * n)) l in let rest := skipn (Z.to_nat (2 * W * n)) l in
  let padded := if r <? W then right_aligned d rest ++ d
                else firstn (Z.to_nat W) rest ++ right_aligned d (skipn (Z.to_nat W) rest) in
  let missing := if r <? W then (W - r) / 2 else if r =? W then W / 2 else (3 * W - r) / 2 in
  exists s0 vs t s', stride_zip it (simd_iter l d) = Ok s0 /\ drain z fuel s0 = Ok (vs, t, s') /\
    zlen vs = n /\ Forall (fun p => zlen (fst p) = W /\ zlen (snd p) = W) vs /\
    is_stream whole 0 2 (concat (map fst vs)) /\ is_stream whole 1 2 (concat (map snd vs)) /\
    match t with
    | None => r = 0
    | Some ((p, q), miss) => r <> 0 /\ is_stream padded 0 2 p /\ is_stream padded 1 2 q /\ miss = missing
    end.
Proof.
  intros A c ty l d d0 fuel Hty Hl Hd Hf it z W n r whole rest padded missing.
  destruct (sz_outcomes A c ty l d d0 fuel Hty Hl Hd Hf) as (s0 & vs & t & s' & G1 & G2 & G3 & G4 & G5 & G6 & _ & G7).
  exists s0, vs, t, s'. repeat (split; [assumption|]). exact G7.
Qed.

Lemma c31_end_early : forall (A : Type) (c : config) (ty : vty) (l d : list A) (d0 : A) (k : Z),
  vty_ok ty -> slice_ok ty l -> zlen d = WIDTH ty ->
  let W := WIDTH ty in let r := zlen l - k - W in
  0 <= k -> 0 <= r < W ->
  let it := slice_iterator c ty in
  let z := stride_zip_iterator c it d0 destride_two_polyfill in
  let padded := sub l k W ++ right_aligned d (skipn (Z.to_nat (k + W)) l) in
  exists s0 p q s', stride_zip it (mkSIMDIter k l d) = Ok s0 /\
    it_end z s0 = Ok (Some ((p, q), if r =? 0 then W / 2 else (2 * W - r) / 2), s') /\ is_stream padded 0 2 p /\ is_stream padded 1 2 q /\
    it_next (itb z) s' = Ok (None, s') /\ exists s'', it_end z s' = Ok (None, s'').
Proof.
  intros A c ty l d d0 k Hty Hl Hd W r Hk Hr it z padded. pose proof (vty_ok_facts _ Hty) as (H1 & H2 & H3 & H4 & H5 & H6). destruct (width_even ty Hty) as (h & Hh & Hh0). pose proof usize_mod_val as Hum. fold W in H1, H2, H3, H4, H5, H6, Hh, Hd.
  assert (Hra : forall v : list A, length v = (2 * Z.to_nat h)%nat -> forall u, destride_two_polyfill v u = (even_lanes (v ++ u), odd_lanes (v ++ u))).
  { intros v Hv u. destruct (even_lanes_app A (Z.to_nat h) v u Hv) as [-> ->]. reflexivity. }
  assert (Hstr : forall X : list A, is_stream X 0 2 (even_lanes X) /\ is_stream X 1 2 (odd_lanes X)) by (intros X; apply (lanes_stream A (length X)); lia).
  assert (Hsl : length (sub l k W) = (2 * Z.to_nat h)%nat) by (unfold sub; rewrite firstn_length, skipn_length; unfold zlen in *; lia).
  assert (Hrw : zlen (skipn (Z.to_nat (k + W)) l) = r) by (rewrite zlen_skipn; lia).
  exists (mkStrideZip k None (mkSIMDIter k l d)). subst z it. exists (even_lanes padded), (odd_lanes padded), (mkStrideZip k None (mkSIMDIter (zlen l) l d)). split; [reflexivity|].
  assert (En : it_end (slice_iterator c ty) (mkSIMDIter (zlen l) l d) = Ok (None, mkSIMDIter (zlen l) l d)).
  { rewrite slice_end_at; try assumption; [|lia|lia|fold W; lia]. replace (skipn (Z.to_nat (zlen l)) l) with (@nil A) by (symmetry; apply skipn_all2; unfold zlen; lia). reflexivity. }
  split.
  { cbn [it_end stride_zip_iterator]. unfold sz_end. cbn [sz_iter sz_peek sz_base]. rewrite slice_next_some by (try assumption; fold W; lia). cbn [bind fst snd]. fold W.
    rewrite slice_end_at; try assumption; [|fold W; nia|lia|fold W; lia]. unfold tail_of, padded. destruct (skipn (Z.to_nat (k + W)) l) as [|x xs] eqn:Es.
    - cbn in Hrw. replace (r =? 0) with true by lia. cbn [bind fst snd itb slice_iterator blanket_iterator it_default si_iterable si_default it_ty arr_ty slice_array]. fold W. rewrite uadd_ok by lia. replace (W + 0) with W by lia. cbn [bind fst snd]. rewrite Hra by exact Hsl.
      unfold right_aligned. cbn [length]. rewrite Nat.sub_0_r, firstn_all, app_nil_r. reflexivity.
    - rewrite <- Es in *. assert (Hr0 : r <> 0) by (rewrite Es in Hrw; rewrite zlen_cons in Hrw; pose proof (zlen_nonneg xs); lia). unfold unfilled. rewrite Hrw, Hd. cbn [bind fst snd itb slice_iterator blanket_iterator si_iterable it_ty arr_ty slice_array]. fold W. rewrite uadd_ok by lia. cbn [bind fst snd].
      rewrite Hra by exact Hsl. replace (r =? 0) with false by lia. replace (W + (W - r)) with (2 * W - r) by lia. reflexivity. }
  split; [apply Hstr|]. split; [apply Hstr|].
  assert (Nx : it_next (itb (slice_iterator c ty)) (mkSIMDIter (zlen l) l d) = Ok (None, mkSIMDIter (zlen l) l d)) by (apply slice_next_none; try assumption; fold W; lia).
  split; [cbn [it_next itb stride_zip_iterator sz_iterable]; unfold sz_next; cbn [sz_iter]; rewrite Nx; reflexivity|].
  eexists. cbn [it_end stride_zip_iterator]. unfold sz_end. cbn [sz_iter sz_peek sz_base]. rewrite Nx. cbn [bind fst snd]. rewrite En. cbn [bind fst snd]. replace (0 <? 0) with false by lia. reflexivity.
Qed.
