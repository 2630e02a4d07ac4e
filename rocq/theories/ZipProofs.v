(** Proofs of the properties: zipped iterators (C27-C30, and the zipped part of C07 and C18). *)
From Verif Require Import Base Spec Vecs Iters Stride Zip ZipSpec.
From Coq Require Import Lia ZifyBool ZifyNat.
From Verif Require Import ListFacts VecFacts IterFacts CollectFacts MapFacts StrideFacts ZipFacts ReduceFacts.
Ltac Zify.zify_post_hook ::= Z.div_mod_to_equations.

Lemma source_stepping : forall c A I arr it s l d k, source c A I arr it s l d k ->
  exists R, stepping arr it l d R /\ R s k /\ (forall s' k', R s' k' -> it_len it s' = Ok (zlen l / WIDTH (it_ty it))).
Proof.
  intros c A I arr it s l d k H. destruct H as [A ty l d k Hty Hl Hd Hk|A ty data d d0 base str l k Hty Hl Hd Hb Hs Hst Hk];
    pose proof (vty_ok_facts _ Hty) as (H1 & _).
  - exists (si_at l d (zlen l)). split; [apply slice_stepping; assumption|]. split; [split; [reflexivity|exact Hk]|].
    intros s' k' [-> _]. cbn. apply udiv_ok. lia.
  - exists (ps_at data l d base str). split.
    + apply (ps_stepping c (slice_array c ty) d0 data data l d base str); try assumption.
      * apply slice_array_holds. exact Hty.
      * eapply slice_small; eassumption.
    + split; [split; [reflexivity|exact Hk]|]. intros s' k' [-> _].
      cbn. unfold ps_len. cbn [ps_iter ps_stride arr_scalar_len slice_array arr_ty bind].
      rewrite udiv_ok by lia. cbn [bind]. rewrite udiv_ok by lia. rewrite (proj1 Hst).
      rewrite !Z.div_div by lia. f_equal. f_equal. lia.
Qed.

Lemma zipped_rest_over : forall c W n k VR R rest r chunk tail, zipped c W n k VR R rest r chunk tail ->
  rest_over rest r W n chunk tail /\ rest_mismatch rest r (n / W) = Ok false.
Proof.
  intros c W n k VR R rest r chunk tail H.
  induction H as [A I arr it s l d Hs Hw Hn|A I arr it s l d VR R rest r chunk tail Hs Hw Hn Hz [IH1 IH2]];
    destruct (source_stepping _ _ _ _ _ _ _ _ _ Hs) as (Rel & Hst & HR & Hlen0); pose proof (Hlen0 _ _ HR) as Hlen; subst W n.
  - split; [eapply rest_over_one; eassumption|]. cbn. rewrite Hlen. cbn. rewrite Z.eqb_refl. reflexivity.
  - split; [eapply rest_over_cons; eassumption|]. cbn. rewrite Hlen. cbn. rewrite Z.eqb_refl. cbn. exact IH2.
Qed.

Lemma positions_starts : forall w m k, positions k w m = vector_starts k w m.
Proof.
  intros w. induction m as [|m IH]; intros k; [reflexivity|]. unfold vector_starts. cbn [positions seq map].
  f_equal; [lia|]. rewrite IH. unfold vector_starts. rewrite <- seq_shift, map_map.
  apply map_ext. intros i. lia.
Qed.

Lemma zip_lockstep : forall c A I arr it s (l d : list A) k VR R rest (r : R) chunk (tail : Z -> VR) (fuel : nat),
  source c A I arr it s l d k -> zipped c (WIDTH (it_ty it)) (zlen l) k VR R rest r chunk tail ->
  (k = 0 \/ WIDTH (it_ty it) < zlen l \/ k = zlen l) -> (length l < fuel)%nat ->
  let W := WIDTH (it_ty it) in
  let z := zip_iterator (blanket_iterator c arr it) rest in
  zip (blanket_iterator c arr it) rest (s, r) = Ok (s, r) /\
  exists m s', k + W * Z.of_nat m <= zlen l <= k + W * (Z.of_nat m + 1) /\
    emits z (s, r) (map (fun p => (sub l p W, chunk p)) (vector_starts k W m))
      (let p := k + W * Z.of_nat m in
       if p <? zlen l then Some ((right_aligned d (skipn (Z.to_nat p) l), tail p), W - (zlen l - p)) else None)
      (s', r) /\
    (m <= length l)%nat /\
    it_next (itb z) (s', r) = Ok (None, (s', r)) /\ it_end z (s', r) = Ok (None, (s', r)) /\
    it_len (itb z) (s, r) = Ok (zlen l / W) /\ it_len (itb z) (s', r) = Ok (zlen l / W) /\
    vty_ok (it_ty it) /\ zlen d = W.
Proof.
  intros c A I arr it s l d k VR R rest r chunk tail fuel Hs Hz Hready Hf W z.
  pose proof (source_stepping _ _ _ _ _ _ _ _ _ Hs) as (Rel & Hst & HR & Hlen0). pose proof (Hlen0 _ _ HR) as Hlen.
  destruct (zipped_rest_over _ _ _ _ _ _ _ _ _ _ Hz) as [Hro Hmm].
  pose proof (vty_ok_facts _ (st_ok _ _ _ _ _ Hst)) as (H1 & _).
  pose proof (st_range _ _ _ _ _ Hst _ _ HR) as Hk.
  split.
  { unfold zip. cbn [fst snd itb blanket_iterator]. rewrite Hlen. cbn [bind]. rewrite Hmm. reflexivity. }
  destruct (zip_emits c arr it l d Rel rest r chunk tail Hst Hro s k HR Hready) as (m & s' & Hm & He & HR').
  exists m, s'. split; [exact Hm|]. rewrite positions_starts in He. split; [exact He|].
  split. { unfold zlen in *. nia. }
  split.
  { subst z. cbn [itb zip_iterator zip_iterable it_next]. unfold zip_next. cbn [fst snd itb blanket_iterator].
    rewrite (st_pos _ _ _ _ _ Hst _ _ HR'). cbn [bind]. rewrite (next_none_end _ _ _ _ _ Hst _ HR'). reflexivity. }
  split.
  { subst z. cbn [it_end zip_iterator]. unfold zip_end. cbn [fst snd itb blanket_iterator it_end].
    rewrite (st_pos _ _ _ _ _ Hst _ _ HR'). cbn [bind]. rewrite (blanket_end_none c _ _ _ _ _ Hst _ HR'). reflexivity. }
  split; [exact Hlen|]. split; [apply (Hlen0 _ _ HR')|].
  split; [apply (st_ok _ _ _ _ _ Hst)|apply (st_d _ _ _ _ _ Hst)].
Qed.

Lemma c27_lockstep : forall (c : config) (A I : Type) (arr : SIMDArray A I) (it : SIMDIterable (list A) I)
    (s : I) (l d : list A) (VR R : Type) (rest : ZipRest VR R) (r : R) (chunk tail : Z -> VR) (fuel : nat),
  source c A I arr it s l d 0 -> zipped c (WIDTH (it_ty it)) (zlen l) 0 VR R rest r chunk tail ->
  (length l < fuel)%nat ->
  let W := WIDTH (it_ty it) in
  let z := zip_iterator (blanket_iterator c arr it) rest in
  zip (blanket_iterator c arr it) rest (s, r) = Ok (s, r) /\
  exists m s', W * Z.of_nat m <= zlen l <= W * Z.of_nat (m + 1) /\
    drain z fuel (s, r) =
      Ok (map (fun p => (sub l p W, chunk p)) (vector_starts 0 W m),
          (let p := W * Z.of_nat m in
           if p <? zlen l
           then Some ((right_aligned d (skipn (Z.to_nat p) l), tail p), W - (zlen l - p)) else None),
          (s', r)) /\
    it_next (itb z) (s', r) = Ok (None, (s', r)) /\ it_end z (s', r) = Ok (None, (s', r)).
Proof.
  intros c A I arr it s l d VR R rest r chunk tail fuel Hs Hz Hf W z.
  destruct (zip_lockstep c A I arr it s l d 0 VR R rest r chunk tail fuel Hs Hz ltac:(lia) Hf)
    as (Hzip & m & s' & Hm & He & Hml & Hn & Hend & _).
  split; [exact Hzip|]. exists m, s'. split; [subst W; lia|]. split; [|split; assumption].
  apply emits_drain; [exact He|]. rewrite map_length. unfold vector_starts. rewrite map_length, seq_length. lia.
Qed.

Lemma pair_chunks : forall (A B : Type) (l1 : list A) (l2 : list B) W m k,
  0 < W -> 0 <= k -> zlen l1 = zlen l2 -> k + W * Z.of_nat m <= zlen l1 ->
  map (fun p => (sub l1 p W, sub l2 p W)) (vector_starts k W m) =
  combine (map (fun p => sub l1 p W) (vector_starts k W m)) (map (fun p => sub l2 p W) (vector_starts k W m)) /\
  chunked W (skipn (Z.to_nat k) l1) (map (fun p => sub l1 p W) (vector_starts k W m)) (skipn (Z.to_nat (k + W * Z.of_nat m)) l1) /\
  chunked W (skipn (Z.to_nat k) l2) (map (fun p => sub l2 p W) (vector_starts k W m)) (skipn (Z.to_nat (k + W * Z.of_nat m)) l2).
Proof.
  intros A B l1 l2 W m k HW Hk Hl Hm. split; [apply map_combine|]. rewrite <- positions_starts.
  split; apply positions_chunked; lia.
Qed.

Lemma slice_source : forall (A : Type) c ty (l d : list A) k,
  vty_ok ty -> slice_ok ty l -> zlen d = WIDTH ty -> 0 <= k <= zlen l ->
  source c A (SIMDIter A (list A)) (si_array (slice_array c ty)) (si_iterable c (slice_array c ty)) (mkSIMDIter k l d) l d k.
Proof. intros. apply source_slice; assumption. Qed.

Lemma two_slices : forall (A B : Type) (c : config) (t1 t2 : vty) (l1 d1 : list A) (l2 d2 : list B) (k k2 : Z),
  vty_ok t1 -> vty_ok t2 -> WIDTH t2 = WIDTH t1 -> slice_ok t1 l1 -> slice_ok t2 l2 ->
  zlen d1 = WIDTH t1 -> zlen d2 = WIDTH t2 -> zlen l1 = zlen l2 -> 0 <= k <= zlen l1 -> 0 <= k2 <= zlen l2 ->
  (k = 0 \/ WIDTH t1 < zlen l1 \/ k = zlen l1) ->
  let rest := rest_one (blanket_unsafe c (si_array (slice_array c t2)) (si_iterable c (slice_array c t2))) in
  let z := zip_iterator (slice_iterator c t1) rest in
  let st := (mkSIMDIter k l1 d1, mkSIMDIter k2 l2 d2) in
  zip (slice_iterator c t1) rest st = Ok st /\
  exists vs1 rest1 vs2 rest2 s',
    emits z st (combine vs1 vs2)
      (match tail_of d1 rest1 with
       | Some (p, n) => Some ((p, right_aligned d2 rest2), n) | None => None end) s' /\
    chunked (WIDTH t1) (skipn (Z.to_nat k) l1) vs1 rest1 /\ chunked (WIDTH t1) (skipn (Z.to_nat k) l2) vs2 rest2 /\
    length vs1 = length vs2 /\ length rest1 = length rest2 /\ zlen rest1 < WIDTH t1 /\
    it_len (itb z) st = Ok (zlen l1 / WIDTH t1) /\ it_len (itb z) s' = Ok (zlen l1 / WIDTH t1).
Proof.
  intros A B c t1 t2 l1 d1 l2 d2 k k2 Ht1 Ht2 Hw Hl1 Hl2 Hd1 Hd2 Hl Hk Hk2 Hready rest z st.
  pose proof (vty_ok_facts _ Ht1) as (H1 & _).
  pose proof (slice_stepping c t1 l1 d1 Ht1 Hl1 Hd1) as Hst1.
  pose proof (slice_stepping c t2 l2 d2 Ht2 Hl2 Hd2) as Hst2.
  assert (Hro : rest_over rest (mkSIMDIter k2 l2 d2) (WIDTH t1) (zlen l1) (fun p => sub l2 p (WIDTH t1))
                  (fun p => right_aligned d2 (skipn (Z.to_nat p) l2))).
  { rewrite <- Hw, Hl. eapply rest_over_one; [exact Hst2|]. split; [reflexivity|exact Hk2]. }
  split.
  { unfold zip. subst rest st. cbn. rewrite udiv_ok by lia. cbn. rewrite udiv_ok by lia. cbn.
    rewrite Hw, Hl, Z.eqb_refl. reflexivity. }
  (* all full vectors are handed out by [next], so the leftover is shorter than one *)
  assert (Hgen : forall mm s0 k0, si_at l1 d1 (zlen l1) s0 k0 -> (k0 = 0 \/ WIDTH t1 < zlen l1 \/ k0 = zlen l1) ->
    Z.to_nat (zlen l1 - k0) = mm ->
    exists m s', k0 + WIDTH t1 * Z.of_nat m <= zlen l1 < k0 + WIDTH t1 * (Z.of_nat m + 1) /\
    emits z (s0, mkSIMDIter k2 l2 d2) (map (fun p => (sub l1 p (WIDTH t1), sub l2 p (WIDTH t1))) (positions k0 (WIDTH t1) m))
      (let p := k0 + WIDTH t1 * Z.of_nat m in
       if p <? zlen l1 then Some ((right_aligned d1 (skipn (Z.to_nat p) l1), right_aligned d2 (skipn (Z.to_nat p) l2)),
           WIDTH t1 - (zlen l1 - p)) else None) (s', mkSIMDIter k2 l2 d2) /\ si_at l1 d1 (zlen l1) s' (zlen l1)).
  { intros mm. induction mm as [mm IH] using (well_founded_induction lt_wf). intros s0 k0 HR Hrd Hmm.
    pose proof (proj2 HR) as Hr0.
    destruct (Z_le_gt_dec (k0 + WIDTH t1) (zlen l1)) as [Hle|Hgt].
    - destruct (st_next _ _ _ _ _ Hst1 _ _ HR) as [(s1 & _ & Hn & HR')|[Hbad Hn]]; cbn [it_ty si_iterable arr_ty slice_array] in *.
      + destruct (IH (Z.to_nat (zlen l1 - (k0 + WIDTH t1))) ltac:(lia) s1 (k0 + WIDTH t1) HR' ltac:(lia) eq_refl) as (m & s' & Hm & He & HRe).
        exists (S m), s'. split; [lia|]. split; [|exact HRe]. cbn [positions map]. eapply emits_next with (s1 := (s1, mkSIMDIter k2 l2 d2)).
        * subst z. cbn [itb zip_iterator zip_iterable it_next]. unfold zip_next. cbn [fst snd slice_iterator itb blanket_iterator].
          rewrite (st_pos _ _ _ _ _ Hst1 _ _ HR), bind_Ok, Hn, bind_Ok. rewrite (ro_next _ _ _ _ _ _ Hro) by lia. reflexivity.
        * replace (k0 + WIDTH t1 * Z.of_nat (S m)) with (k0 + WIDTH t1 + WIDTH t1 * Z.of_nat m) by lia. exact He.
      + exfalso. destruct HR as [-> _]. cbn [it_next si_iterable] in Hn. unfold si_next in Hn.
        cbn [si_position si_data arr_ty slice_array arr_scalar_len] in Hn.
        pose proof (slice_small t1 l1 Ht1 Hl1) as Hsm. unfold max_len in Hsm. pose proof usize_mod_val as Hum.
        rewrite uadd_ok in Hn by lia. cbn [bind] in Hn. replace (k0 + WIDTH t1 <=? zlen l1) with true in Hn by lia.
        pose proof (ah_vec _ _ _ (slice_array_holds c t1 l1 Ht1) k0 ltac:(lia) Hle) as Hv.
        cbn [arr_load_unchecked slice_array arr_ty] in Hn, Hv. rewrite Hv in Hn. cbn [bind] in Hn.
        unfold si_advance in Hn. rewrite uadd_ok in Hn by (cbn; lia). cbn in Hn. discriminate.
    - destruct (zip_emits c _ _ l1 d1 _ rest (mkSIMDIter k2 l2 d2) _ _ Hst1 Hro s0 k0 HR Hrd) as (m & s' & Hm & He & HR').
      cbn [it_ty si_iterable arr_ty slice_array] in *.
      assert (m = 0%nat) by nia. subst m. exists 0%nat, s'. split; [lia|]. split; [exact He|exact HR']. }
  destruct (Hgen _ (mkSIMDIter k l1 d1) k (conj eq_refl Hk) Hready eq_refl) as (m & s' & Hm & He & HR').
  destruct (pair_chunks A B l1 l2 (WIDTH t1) m k H1 ltac:(lia) Hl ltac:(lia)) as (Hp1 & Hp2 & Hp3).
  rewrite positions_starts, Hp1 in He.
  exists (map (fun p => sub l1 p (WIDTH t1)) (vector_starts k (WIDTH t1) m)), (skipn (Z.to_nat (k + WIDTH t1 * Z.of_nat m)) l1),
    (map (fun p => sub l2 p (WIDTH t1)) (vector_starts k (WIDTH t1) m)), (skipn (Z.to_nat (k + WIDTH t1 * Z.of_nat m)) l2), (s', mkSIMDIter k2 l2 d2).
  split; [|split; [exact Hp2|split; [exact Hp3|]]].
  - replace (match tail_of d1 (skipn (Z.to_nat (k + WIDTH t1 * Z.of_nat m)) l1) with
       | Some (p, n) => Some ((p, right_aligned d2 (skipn (Z.to_nat (k + WIDTH t1 * Z.of_nat m)) l2)), n) | None => None end)
     with (if k + WIDTH t1 * Z.of_nat m <? zlen l1
       then Some ((right_aligned d1 (skipn (Z.to_nat (k + WIDTH t1 * Z.of_nat m)) l1),
                   right_aligned d2 (skipn (Z.to_nat (k + WIDTH t1 * Z.of_nat m)) l2)),
                  WIDTH t1 - (zlen l1 - (k + WIDTH t1 * Z.of_nat m))) else None); [exact He|].
    unfold tail_of. destruct (k + WIDTH t1 * Z.of_nat m <? zlen l1) eqn:E.
    + destruct (skipn (Z.to_nat (k + WIDTH t1 * Z.of_nat m)) l1) as [|x xs] eqn:Es.
      { assert (H0 : zlen (skipn (Z.to_nat (k + WIDTH t1 * Z.of_nat m)) l1) = 0) by (rewrite Es; reflexivity).
        rewrite zlen_skipn in H0; lia. }
      rewrite <- Es. unfold unfilled. rewrite zlen_skipn, Hd1. do 2 f_equal. lia.
    + rewrite skipn_all2 by (unfold zlen in *; lia). reflexivity.
  - split; [rewrite !map_length; reflexivity|]. split; [rewrite !skipn_length; unfold zlen in *; lia|].
    split; [rewrite zlen_skipn; lia|]. split.
    + subst z st. cbn. apply udiv_ok. lia.
    + destruct HR' as [-> _]. subst z. cbn. apply udiv_ok. lia.
Qed.

Lemma c27_two_slices : forall (A B : Type) (c : config) (t1 t2 : vty) (l1 d1 : list A) (l2 d2 : list B) (fuel : nat),
  vty_ok t1 -> vty_ok t2 -> WIDTH t2 = WIDTH t1 -> slice_ok t1 l1 -> slice_ok t2 l2 ->
  zlen d1 = WIDTH t1 -> zlen d2 = WIDTH t2 -> zlen l1 = zlen l2 -> (length l1 < fuel)%nat ->
  let rest := rest_one (blanket_unsafe c (si_array (slice_array c t2)) (si_iterable c (slice_array c t2))) in
  let st := (simd_iter l1 d1, simd_iter l2 d2) in
  zip (slice_iterator c t1) rest st = Ok st /\
  exists vs1 rest1 vs2 rest2 s',
    chunked (WIDTH t1) l1 vs1 rest1 /\ chunked (WIDTH t1) l2 vs2 rest2 /\
    length vs1 = length vs2 /\ length rest1 = length rest2 /\ zlen rest1 < WIDTH t1 /\
    drain (zip_iterator (slice_iterator c t1) rest) fuel st =
      Ok (combine vs1 vs2,
          (match tail_of d1 rest1, tail_of d2 rest2 with
           | Some (p, n), Some (q, _) => Some ((p, q), n) | _, _ => None end), s').
Proof.
  intros A B c t1 t2 l1 d1 l2 d2 fuel Ht1 Ht2 Hw Hl1 Hl2 Hd1 Hd2 Hl Hf rest st.
  pose proof (zlen_nonneg l1).
  destruct (two_slices A B c t1 t2 l1 d1 l2 d2 0 0 Ht1 Ht2 Hw Hl1 Hl2 Hd1 Hd2 Hl ltac:(lia) ltac:(lia) ltac:(lia))
    as (Hz & vs1 & r1 & vs2 & r2 & s' & He & Hc1 & Hc2 & Hv & Hr & Hlt & _).
  split; [exact Hz|]. cbn [Z.to_nat skipn] in Hc1, Hc2.
  exists vs1, r1, vs2, r2, s'. repeat (split; [assumption|]).
  rewrite (emits_drain _ _ _ _ _ He).
  - do 3 f_equal. unfold tail_of. destruct r1, r2; try discriminate; reflexivity.
  - rewrite combine_length. pose proof (chunked_length t1 l1 Ht1 vs1 r1 Hc1). lia.
Qed.

Lemma c28_zip_closure : forall (c : config) (A I : Type) (arr : SIMDArray A I) (it : SIMDIterable (list A) I)
    (s : I) (l d : list A) (VR R : Type) (rest : ZipRest VR R) (r : R) (chunk tail : Z -> VR)
    (B E : Type) (out_ty : vty) (d0 : B) (func : E -> list A * VR -> list B * E) (e : E) (fuel : nat),
  source c A I arr it s l d 0 -> zipped c (WIDTH (it_ty it)) (zlen l) 0 VR R rest r chunk tail ->
  vty_ok out_ty -> WIDTH out_ty * SIZE out_ty = WIDTH (it_ty it) * SIZE (it_ty it) ->
  (forall e v, zlen (fst (func e v)) = WIDTH out_ty) ->
  (zlen l + WIDTH (it_ty it)) * SIZE (it_ty it) <= isize_max -> (length l < fuel)%nat ->
  let W := WIDTH (it_ty it) in
  let z := zip_iterator (blanket_iterator c arr it) rest in
  exists tuples t s', drain z fuel (s, r) = Ok (tuples, t, s') /\
  exists s'',
    scalar_collect c (zipmap_iterator c z out_ty d0 func) d0 fuel (mkSIMDMap (s, r) e) =
      Ok (map Some (let '(ys, e1) := run_closure func e tuples in
                    concat ys ++ match t with
                                 | Some (p, n) => skipn (Z.to_nat (n * SIZE (it_ty it) / SIZE out_ty)) (fst (func e1 p))
                                 | None => [] end), s'').
Proof.
  intros c A I arr it s l d VR R rest r chunk tail B E out_ty d0 func e fuel Hs Hz Hout Hbytes Hfn Hcap Hf W z.
  destruct (zip_lockstep c A I arr it s l d 0 VR R rest r chunk tail fuel Hs Hz ltac:(lia) Hf)
    as (Hzip & m & s' & Hm & He & Hml & Hn & Hend & Hlen1 & Hlen2 & Hty & Hd).
  pose proof (vty_ok_facts _ Hty) as (H1 & H2 & H3 & H4 & H5 & H6).
  fold W z in He, Hm, Hlen1, Hlen2. set (vs := map (fun p => (sub l p W, chunk p)) (vector_starts 0 W m)) in *.
  match type of He with emits _ _ _ ?T _ => set (t := T) in * end.
  assert (Hvs : length vs = m) by (unfold vs; rewrite map_length; unfold vector_starts; rewrite map_length, seq_length; reflexivity).
  exists vs, t, (s', r). split; [apply emits_drain; [exact He|lia]|].
  assert (Hc : complete z (s, r) vs t (s', r)).
  { constructor; [exact He| |exact Hty|].
    - intros p n Ht. unfold t in Ht. destruct (_ <? _) eqn:Ep; [|discriminate]. injection Ht as _ <-.
      cbn [itb z zip_iterator zip_iterable it_ty blanket_iterator]. fold W. lia.
    - exists (zlen l / W). split; [exact Hlen1|]. unfold zlen at 1. rewrite Hvs.
      split; [apply Z.div_le_lower_bound; lia|]. split.
      + cbn [itb z zip_iterator zip_iterable it_ty blanket_iterator]. fold W.
        pose proof (Z.mul_div_le (zlen l) W ltac:(lia)). fold W in H1, Hcap. rewrite Z.mul_assoc. nia.
      + intros Ht. rewrite Hlen2. unfold t in Ht. destruct (_ <? _) eqn:Ep in Ht; [discriminate|].
        f_equal. unfold zlen at 2. rewrite Hvs. symmetry. apply (Z.div_unique _ _ _ 0); lia. }
  pose proof (zipmap_complete c z out_ty d0 func Hout (eq_sym Hbytes) (s, r) vs t (s', r) e Hc) as Hmc.
  exists (mkSIMDMap (s', r) (snd (run_closure func e (visited vs t)))).
  rewrite (collect_complete c _ d0 _ _ _ _ fuel Hmc).
  - unfold delivered, map_tail. destruct (run_closure func e vs) as [ys e1]. cbn [fst snd].
    destruct t as [[p n]|]; reflexivity.
  - apply (map_sized z out_ty func (fun _ => True) vs t e); [auto|apply Forall_forall; auto|auto].
  - rewrite run_closure_length. lia.
Qed.

Lemma map2_app : forall (A B C : Type) (g : A -> B -> C) a1 b1 a2 b2, length a1 = length b1 ->
  map2 g (a1 ++ a2) (b1 ++ b2) = map2 g a1 b1 ++ map2 g a2 b2.
Proof.
  intros A B C g. induction a1 as [|x a1 IH]; intros [|y b1] a2 b2 H; try discriminate; [reflexivity|].
  cbn. rewrite IH; [reflexivity|]. injection H as H. exact H.
Qed.

Lemma map2_concat : forall (A B C : Type) (g : A -> B -> C) W vs1 vs2,
  Forall (fun v : list A => zlen v = W) vs1 -> Forall (fun v : list B => zlen v = W) vs2 -> length vs1 = length vs2 ->
  concat (map (fun p => map2 g (fst p) (snd p)) (combine vs1 vs2)) = map2 g (concat vs1) (concat vs2).
Proof.
  intros A B C g W vs1 vs2 H1. revert vs2. induction H1 as [|v1 vs1 Hv H1 IH]; intros [|v2 vs2] H2 Hl; try discriminate; [reflexivity|].
  inversion H2; subst. cbn. rewrite map2_app by (unfold zlen in *; lia). rewrite IH; [reflexivity|assumption|].
  injection Hl as Hl. exact Hl.
Qed.

Lemma map2_skipn : forall (A B C : Type) (g : A -> B -> C) n a b, skipn n (map2 g a b) = map2 g (skipn n a) (skipn n b).
Proof.
  intros A B C g. induction n as [|n IH]; intros a b; [reflexivity|]. destruct a as [|x a], b as [|y b]; cbn; try reflexivity.
  - destruct (skipn n a); reflexivity.
  - apply IH.
Qed.

Lemma lanewise_pairs : forall (A B C E : Type) (g : A -> B -> C) (func : E -> list A * list B -> list C * E),
  (forall e v, fst (func e v) = map2 g (fst v) (snd v)) ->
  forall vs e, fst (run_closure func e vs) = map (fun p => map2 g (fst p) (snd p)) vs.
Proof.
  intros A B C E g func H. induction vs as [|v vs IH]; intros e; [reflexivity|].
  cbn. pose proof (H e v) as Hv. destruct (func e v) as [y e']. cbn in Hv. subst y.
  specialize (IH e'). destruct (run_closure func e' vs). cbn in *. congruence.
Qed.

Lemma c28_zip_map_collect : forall (A B C E : Type) (c : config) (t1 t2 out_ty : vty)
    (l1 d1 : list A) (l2 d2 : list B) (d0 : C) (g : A -> B -> C)
    (func : E -> list A * list B -> list C * E) (e : E) (fill : list C) (fuel : nat),
  vty_ok t1 -> vty_ok t2 -> vty_ok out_ty -> WIDTH t2 = WIDTH t1 ->
  WIDTH out_ty = WIDTH t1 -> SIZE out_ty = SIZE t1 -> slice_ok t2 l2 ->
  zlen d1 = WIDTH t1 -> zlen d2 = WIDTH t2 -> zlen l1 = zlen l2 ->
  (zlen l1 + WIDTH t1) * SIZE t1 <= isize_max -> (length l1 < fuel)%nat ->
  (forall e v, fst (func e v) = map2 g (fst v) (snd v)) ->
  let rest := rest_one (blanket_unsafe c (si_array (slice_array c t2)) (si_iterable c (slice_array c t2))) in
  let m := zipmap_iterator c (zip_iterator (slice_iterator c t1) rest) out_ty d0 func in
  let st := mkSIMDMap (simd_iter l1 d1, simd_iter l2 d2) e in
  (exists s', scalar_collect c m d0 fuel st = Ok (map Some (map2 g l1 l2), s')) /\
  (zlen l1 <= zlen fill ->
   exists s', scalar_fill c m d0 fuel st fill = Ok (map2 g l1 l2 ++ skipn (length l1) fill, s')).
Proof.
  intros A B C E c t1 t2 out_ty l1 d1 l2 d2 d0 g func e fill fuel Ht1 Ht2 Hout Hw Hwo Hso Hl2 Hd1 Hd2 Hl Hcap Hf Hg rest m st.
  pose proof (zlen_nonneg l1). pose proof (vty_ok_facts _ Ht1) as (H1 & H2 & H3 & H4 & H5 & H6).
  assert (Hl1 : slice_ok t1 l1) by (unfold slice_ok; nia).
  destruct (two_slices A B c t1 t2 l1 d1 l2 d2 0 0 Ht1 Ht2 Hw Hl1 Hl2 Hd1 Hd2 Hl ltac:(lia) ltac:(lia) ltac:(lia))
    as (Hz & vs1 & r1 & vs2 & r2 & s' & He & Hc1 & Hc2 & Hv & Hr & Hlt & Hn1 & Hn2).
  cbn [Z.to_nat skipn] in Hc1, Hc2. fold rest in He, Hn1, Hn2.
  set (z := zip_iterator (slice_iterator c t1) rest) in *.
  match type of He with emits _ _ _ ?T _ => set (t := T) in * end.
  pose proof (chunked_count t1 l1 vs1 r1 Hc1 Hlt) as Hcnt.
  assert (Hcl : length (combine vs1 vs2) = length vs1) by (rewrite combine_length; lia).
  assert (Hc : complete z (simd_iter l1 d1, simd_iter l2 d2) (combine vs1 vs2) t s').
  { constructor; [exact He| |exact Ht1|].
    - intros p n Ht. unfold t in Ht. destruct (tail_of d1 r1) as [[p1 n1]|] eqn:Et; [|discriminate].
      injection Ht as _ <-. destruct (tail_of_fields t1 d1 Hd1 r1 p1 n1 Hlt Et) as (_ & -> & Hx & _). cbn. lia.
    - exists (zlen l1 / WIDTH t1). split; [exact Hn1|].
      assert (Hzc : zlen (combine vs1 vs2) = zlen l1 / WIDTH t1) by (rewrite <- Hcnt; unfold zlen; rewrite Hcl; reflexivity).
      rewrite Hzc. split; [lia|]. split; [|auto].
      cbn [itb z zip_iterator zip_iterable it_ty slice_iterator blanket_iterator si_iterable arr_ty slice_array].
      pose proof (Z.mul_div_le (zlen l1) (WIDTH t1) ltac:(lia)). rewrite Z.mul_assoc. nia. }
  assert (Hbytes : wd z * sz z = WIDTH out_ty * SIZE out_ty) by (rewrite Hwo, Hso; reflexivity).
  pose proof (zipmap_complete c z out_ty d0 func Hout Hbytes _ _ _ _ e Hc) as Hmc.
  assert (Hsz : sized (WIDTH out_ty) (fst (run_closure func e (combine vs1 vs2)))
     (map_tail func (snd (run_closure func e (combine vs1 vs2))) t (sz z) (SIZE out_ty))).
  { apply (map_sized z out_ty func (fun v => length (fst v) = length (snd v) /\ zlen (fst v) = WIDTH out_ty)).
    - intros e0 v [Hv1 Hv2]. rewrite Hg. unfold zlen. rewrite map2_length by exact Hv1. exact Hv2.
    - destruct Hc1 as [Hc1 _]. destruct Hc2 as [Hc2 _]. clear -Hc1 Hc2 Hwo. revert vs2 Hc2.
      induction Hc1 as [|v1 vs1 Hx Hc1 IH]; intros [|v2 vs2] Hc2; cbn; try constructor.
      + inversion Hc2; subst. cbn. unfold zlen in *. lia.
      + inversion Hc2; subst. apply IH. assumption.
    - intros p n Ht. unfold t in Ht. destruct (tail_of d1 r1) as [[p1 n1]|] eqn:Et; [|discriminate].
      injection Ht as <- _. destruct (tail_of_fields t1 d1 Hd1 r1 p1 n1 Hlt Et) as (-> & _ & Hx & Hy). cbn [fst snd].
      pose proof (right_aligned_len d2 r2 ltac:(unfold zlen in *; lia)) as Hz2. unfold zlen in *. lia. }
  assert (Hdel : delivered (fst (run_closure func e (combine vs1 vs2)))
     (map_tail func (snd (run_closure func e (combine vs1 vs2))) t (sz z) (SIZE out_ty)) = map2 g l1 l2).
  { unfold delivered. rewrite (lanewise_pairs A B C E g func Hg).
    destruct Hc1 as [Hc1 Hcat1]. destruct Hc2 as [Hc2 Hcat2].
    rewrite (map2_concat A B C g (WIDTH t1) vs1 vs2 Hc1 Hc2 Hv). rewrite <- Hcat1, <- Hcat2.
    rewrite map2_app.
    2:{ pose proof (concat_zlen _ _ Hc1). pose proof (concat_zlen _ _ Hc2). unfold zlen in *. rewrite Hv in *. lia. }
    f_equal. unfold t, tail_of, map_tail. destruct r1 as [|x1 r1]; [destruct r2; [reflexivity|discriminate]|].
    rewrite Hg. cbn [fst snd]. change (sz z) with (SIZE t1). rewrite Hso, Z.div_mul by lia.
    rewrite map2_skipn.
    rewrite (right_aligned_skipn d1 (x1 :: r1)) by lia.
    replace (unfilled d1 (x1 :: r1)) with (unfilled d2 r2) by (unfold unfilled, zlen in *; lia).
    rewrite (right_aligned_skipn d2 r2) by (unfold zlen in *; lia). reflexivity. }
  assert (Hfu : (length (fst (run_closure func e (combine vs1 vs2))) < fuel)%nat).
  { rewrite run_closure_length. pose proof (chunked_length t1 l1 Ht1 vs1 r1 Hc1). lia. }
  split.
  - eexists. rewrite <- Hdel. apply (collect_complete c m d0 _ _ _ _ fuel Hmc Hsz Hfu).
  - intros Hfill. eexists. replace (length l1) with (length (map2 g l1 l2)) by (apply map2_length; unfold zlen in Hl; lia).
    rewrite <- Hdel. apply (fill_complete c m d0 _ _ _ _ fuel fill Hmc Hsz Hfu).
    rewrite Hdel. unfold zlen in *. rewrite map2_length by lia. lia.
Qed.

Lemma c29_vector_counts_partial : forall (A B : Type) (c : config) (t1 t2 : vty) (l1 d1 : list A) (l2 d2 : list B) (k1 k2 : Z),
  vty_ok t1 -> vty_ok t2 ->
  let rest := rest_one (blanket_unsafe c (si_array (slice_array c t2)) (si_iterable c (slice_array c t2))) in
  let st := (mkSIMDIter k1 l1 d1, mkSIMDIter k2 l2 d2) in
  zip (slice_iterator c t1) rest st =
  if zlen l1 / WIDTH t1 =? zlen l2 / WIDTH t2 then Ok st else Panic.
Proof.
  intros A B c t1 t2 l1 d1 l2 d2 k1 k2 Ht1 Ht2 rest st.
  pose proof (vty_ok_facts _ Ht1) as (H1 & _). pose proof (vty_ok_facts _ Ht2) as (G1 & _).
  unfold zip. subst rest st. cbn. rewrite udiv_ok by lia. cbn. rewrite udiv_ok by lia. cbn.
  destruct (_ =? _); reflexivity.
Qed.

Lemma c29_lengths_refuted : forall (A B : Type) (b : bool) (t1 t2 : vty) (l1 d1 : list A) (l2 d2 : list B) (fuel : nat),
  vty_ok t1 -> vty_ok t2 -> WIDTH t2 = WIDTH t1 -> slice_ok t1 l1 -> slice_ok t2 l2 ->
  zlen d1 = WIDTH t1 -> zlen d2 = WIDTH t2 ->
  0 < zlen l1 < zlen l2 -> zlen l2 < WIDTH t2 -> (0 < fuel)%nat ->
  let c := mkConfig Release b in
  let rest := rest_one (blanket_unsafe c (si_array (slice_array c t2)) (si_iterable c (slice_array c t2))) in
  let st := (simd_iter l1 d1, simd_iter l2 d2) in
  zip (slice_iterator c t1) rest st = Ok st /\
  drain (zip_iterator (slice_iterator c t1) rest) fuel st = UB.
Proof.
  intros A B b t1 t2 l1 d1 l2 d2 fuel Ht1 Ht2 Hw Hl1 Hl2 Hd1 Hd2 Hlen Hlw Hf c rest st.
  pose proof (vty_ok_facts _ Ht1) as (H1 & _). pose proof (vty_ok_facts _ Ht2) as (G1 & _).
  pose proof usize_mod_val as Hum.
  assert (Hsm : WIDTH t1 < usize_mod) by (pose proof (vty_ok_facts _ Ht1); lia).
  split.
  { unfold rest, st. unfold simd_iter. rewrite (c29_vector_counts_partial A B c t1 t2 l1 d1 l2 d2 0 0 Ht1 Ht2).
    rewrite !Z.div_small by lia. reflexivity. }
  pose proof (slice_stepping c t1 l1 d1 Ht1 Hl1 Hd1) as Hst1.
  assert (HR : si_at l1 d1 (zlen l1) (simd_iter l1 d1) 0) by (split; [reflexivity|lia]).
  destruct fuel as [|fuel]; [lia|]. unfold drain. cbn [drain_next].
  assert (Hnx : it_next (itb (zip_iterator (slice_iterator c t1) rest)) st = Ok (None, st)).
  { cbn [itb zip_iterator zip_iterable it_next]. unfold zip_next. cbn [fst snd st slice_iterator itb blanket_iterator].
    rewrite (st_pos _ _ _ _ _ Hst1 _ _ HR). cbn [bind].
    destruct (st_next _ _ _ _ _ Hst1 _ _ HR) as [(s1 & Hle & _)|[_ Hn]].
    - cbn [it_ty si_iterable arr_ty slice_array] in Hle. lia.
    - rewrite Hn. reflexivity. }
  rewrite Hnx. cbn [bind fst snd]. cbn [it_end zip_iterator]. unfold zip_end. cbn [fst snd st slice_iterator itb blanket_iterator it_end].
  rewrite (st_pos _ _ _ _ _ Hst1 _ _ HR). cbn [bind].
  destruct (blanket_end_ok c _ _ l1 d1 _ Hst1 _ 0 HR) as (s' & He & _).
  { unfold tail_ready. lia. }
  { cbn [it_ty si_iterable arr_ty slice_array]. lia. }
  rewrite He. cbn [bind Z.to_nat skipn]. unfold tail_of. destruct l1 as [|x l1]; [cbn in Hlen; lia|].
  unfold unfilled. rewrite Hd1. set (n := WIDTH t1 - zlen (x :: l1)).
  cbn [rest_end rest rest_one blanket_unsafe un_end]. unfold end_unchecked.
  cbn [it_scalar_len si_iterable arr_scalar_len slice_array simd_iter si_data bind].
  unfold debug_assert at 1. cbn [build c bind]. unfold partial_vector. cbn [it_ty si_iterable arr_ty slice_array].
  replace (WIDTH t2 <? zlen l2) with false by lia. cbn [it_default si_iterable si_default simd_iter].
  match goal with |- context[for_range ?M ?I0 ?F ?V] => assert (Hub : for_range M I0 F V = UB) end.
  { match goal with |- for_range _ _ ?F _ = _ => set (f := F) end.
    assert (Hgen : forall m i v, Z.of_nat m = zlen l2 - i -> 0 <= i <= zlen (x :: l1) -> for_range m i f v = UB).
    { induction m as [|m IH]; intros i v Hm Hi; [lia|]. cbn [for_range]. unfold f at 1.
      rewrite uadd_ok by lia. cbn [bind]. destruct (znth_exists l2 i ltac:(lia)) as [y Hy].
      cbn [arr_load_scalar_unchecked si_array si_data slice_array simd_iter]. unfold debug_assert. cbn [build c bind]. rewrite Hy. cbn [bind].
      unfold replace_unchecked. destruct (i + n <? WIDTH t2) eqn:Ein.
      - cbn [bind]. apply IH; unfold n in Ein; lia.
      - reflexivity. }
    apply Hgen; lia. }
  rewrite Hub. reflexivity.
Qed.

Lemma c29_widths_refuted : forall (A B : Type) (c : config) (t1 t2 : vty) (l1 d1 : list A) (l2 d2 : list B) (fuel : nat),
  vty_ok t1 -> vty_ok t2 -> WIDTH t1 = 2 * WIDTH t2 -> slice_ok t1 l1 -> slice_ok t2 l2 -> zlen d1 = WIDTH t1 -> zlen d2 = WIDTH t2 ->
  zlen l1 = 2 * WIDTH t1 -> zlen l2 = 2 * WIDTH t2 -> (1 < fuel)%nat ->
  let rest := rest_one (blanket_unsafe c (si_array (slice_array c t2)) (si_iterable c (slice_array c t2))) in
  let st := (simd_iter l1 d1, simd_iter l2 d2) in
  zip (slice_iterator c t1) rest st = Ok st /\
  drain (zip_iterator (slice_iterator c t1) rest) fuel st = match build c with Debug => Panic | Release => UB end.
Proof.
  intros A B c t1 t2 l1 d1 l2 d2 fuel Ht1 Ht2 Hw Hl1 Hl2 Hd1 Hd2 Hn1 Hn2 Hf rest st.
  pose proof (vty_ok_facts _ Ht1) as (H1 & H2 & H3 & H4 & H5 & H6). pose proof (vty_ok_facts _ Ht2) as (G1 & _).
  pose proof usize_mod_val as Hum.
  pose proof (slice_small t1 l1 Ht1 Hl1) as Hm1. unfold max_len in Hm1.
  split.
  { unfold rest, st. unfold simd_iter. rewrite (c29_vector_counts_partial A B c t1 t2 l1 d1 l2 d2 0 0 Ht1 Ht2).
    rewrite Hn1, Hn2, !Z.div_mul by lia. reflexivity. }
  pose proof (slice_stepping c t1 l1 d1 Ht1 Hl1 Hd1) as Hst1.
  assert (Hnx : forall k s, si_at l1 d1 (zlen l1) s k -> k + WIDTH t1 <= zlen l1 -> k < WIDTH t1 + 1 ->
    exists s1 v, it_next (si_iterable c (slice_array c t1)) s = Ok (Some v, s1) /\ si_at l1 d1 (zlen l1) s1 (k + WIDTH t1)).
  { intros k s HR Hle Hk. destruct (st_next _ _ _ _ _ Hst1 _ _ HR) as [(s1 & _ & Hn & HR')|[Hbad Hn]].
    - eauto.
    - cbn [it_ty si_iterable arr_ty slice_array] in Hbad. destruct HR as [-> Hr]. exfalso.
      cbn [it_next si_iterable] in Hn. unfold si_next in Hn.
      cbn [si_position si_data arr_ty slice_array arr_scalar_len] in Hn.
      rewrite uadd_ok in Hn by lia. cbn [bind] in Hn. replace (k + WIDTH t1 <=? zlen l1) with true in Hn by lia.
      pose proof (ah_vec _ _ _ (slice_array_holds c t1 l1 Ht1) k ltac:(lia) Hle) as Hv.
      cbn [arr_load_unchecked slice_array arr_ty] in Hn, Hv. rewrite Hv in Hn. cbn [bind] in Hn.
      unfold si_advance in Hn. rewrite uadd_ok in Hn by (cbn; lia). cbn in Hn. discriminate. }
  assert (HR : si_at l1 d1 (zlen l1) (simd_iter l1 d1) 0) by (split; [reflexivity|lia]).
  destruct (Hnx 0 _ HR ltac:(lia) ltac:(lia)) as (s1 & v1 & Hs1 & HR1).
  destruct (Hnx _ _ HR1 ltac:(lia) ltac:(lia)) as (s2 & v2 & Hs2 & HR2).
  destruct fuel as [|[|fuel]]; [lia|lia|]. unfold drain. cbn [drain_next].
  cbn [itb zip_iterator zip_iterable it_next]. unfold zip_next at 1. cbn [fst snd st slice_iterator itb blanket_iterator].
  rewrite (st_pos _ _ _ _ _ Hst1 _ _ HR). cbn [bind]. rewrite Hs1. cbn [bind].
  assert (Hu1 : next_unchecked c (si_array (slice_array c t2)) (si_iterable c (slice_array c t2)) (simd_iter l2 d2) 0 =
                Ok (sub l2 0 (WIDTH t2))).
  { apply (next_unchecked_ok c _ _ l2 d2 (si_at l2 d2 (zlen l2)) (slice_stepping c t2 l2 d2 Ht2 Hl2 Hd2) _ 0).
    - split; [reflexivity|lia].
    - lia.
    - cbn [it_ty si_iterable arr_ty slice_array]. lia. }
  assert (Hu2 : next_unchecked c (si_array (slice_array c t2)) (si_iterable c (slice_array c t2)) (simd_iter l2 d2) (WIDTH t1) =
                match build c with Debug => Panic | Release => UB end).
  { unfold next_unchecked. cbn [it_scalar_len si_iterable arr_scalar_len slice_array simd_iter si_data it_ty arr_ty si_array arr_load_unchecked].
    destruct (build c) eqn:Eb.
    - rewrite uadd_ok by lia. cbn [bind]. replace (WIDTH t1 + WIDTH t2 <=? zlen l2) with false by lia. reflexivity.
    - cbn [bind]. unfold debug_assert. rewrite Eb. cbn [bind]. unfold load_unchecked.
      replace (zlen l2 <? WIDTH t1) with false by lia. replace (WIDTH t2 <=? zlen l2 - WIDTH t1) with false by lia.
      rewrite Eb. reflexivity. }
  cbn [rest_next rest rest_one blanket_unsafe un_next]. rewrite Hu1. cbn [bind].
  unfold zip_next at 1. cbn [fst snd st slice_iterator itb blanket_iterator].
  rewrite (st_pos _ _ _ _ _ Hst1 _ _ HR1). cbn [bind]. rewrite Hs2. cbn [bind].
  cbn [rest_next rest rest_one blanket_unsafe un_next]. rewrite Z.add_0_l, Hu2. destruct (build c); reflexivity.
Qed.

Lemma c30_same_position_partial : forall (A B : Type) (c : config) (t1 t2 : vty) (l1 d1 : list A) (l2 d2 : list B) (k : Z) (fuel : nat),
  vty_ok t1 -> vty_ok t2 -> WIDTH t2 = WIDTH t1 -> slice_ok t1 l1 -> slice_ok t2 l2 ->
  zlen d1 = WIDTH t1 -> zlen d2 = WIDTH t2 -> zlen l1 = zlen l2 -> 0 <= k <= zlen l1 ->
  (k = 0 \/ WIDTH t1 < zlen l1 \/ k = zlen l1) -> (length l1 < fuel)%nat ->
  let rest := rest_one (blanket_unsafe c (si_array (slice_array c t2)) (si_iterable c (slice_array c t2))) in
  exists vs1 rest1 vs2 rest2 s',
    chunked (WIDTH t1) (skipn (Z.to_nat k) l1) vs1 rest1 /\ chunked (WIDTH t1) (skipn (Z.to_nat k) l2) vs2 rest2 /\
    zlen rest1 < WIDTH t1 /\ length rest1 = length rest2 /\
    drain (zip_iterator (slice_iterator c t1) rest) fuel (mkSIMDIter k l1 d1, mkSIMDIter k l2 d2) =
      Ok (combine vs1 vs2,
          (match tail_of d1 rest1, tail_of d2 rest2 with
           | Some (p, n), Some (q, _) => Some ((p, q), n) | _, _ => None end), s').
Proof.
  intros A B c t1 t2 l1 d1 l2 d2 k fuel Ht1 Ht2 Hw Hl1 Hl2 Hd1 Hd2 Hl Hk Hready Hf rest.
  destruct (two_slices A B c t1 t2 l1 d1 l2 d2 k k Ht1 Ht2 Hw Hl1 Hl2 Hd1 Hd2 Hl Hk ltac:(lia) Hready)
    as (Hz & vs1 & r1 & vs2 & r2 & s' & He & Hc1 & Hc2 & Hv & Hr & Hlt & _).
  exists vs1, r1, vs2, r2, s'. repeat (split; [assumption|]).
  rewrite (emits_drain _ _ _ _ _ He).
  - do 3 f_equal. unfold tail_of. destruct r1, r2; try discriminate; reflexivity.
  - rewrite combine_length. pose proof (chunked_length t1 _ Ht1 vs1 r1 Hc1) as Hx. rewrite skipn_length in Hx. lia.
Qed.

Lemma c30_positions_refuted : forall (A B : Type) (c : config) (t1 t2 : vty) (l1 d1 : list A) (l2 d2 : list B) (k2 : Z) (fuel : nat),
  vty_ok t1 -> vty_ok t2 -> WIDTH t2 = WIDTH t1 -> slice_ok t1 l1 -> slice_ok t2 l2 ->
  zlen d1 = WIDTH t1 -> zlen d2 = WIDTH t2 -> zlen l1 = zlen l2 -> 0 < k2 <= zlen l2 -> (length l1 < fuel)%nat ->
  let rest := rest_one (blanket_unsafe c (si_array (slice_array c t2)) (si_iterable c (slice_array c t2))) in
  let st := (simd_iter l1 d1, mkSIMDIter k2 l2 d2) in
  zip (slice_iterator c t1) rest st = Ok st /\
  exists vs1 rest1 vs2 rest2 s',
    chunked (WIDTH t1) l1 vs1 rest1 /\ chunked (WIDTH t1) l2 vs2 rest2 /\
    length vs1 = length vs2 /\ length rest1 = length rest2 /\ zlen rest1 < WIDTH t1 /\
    drain (zip_iterator (slice_iterator c t1) rest) fuel st =
      Ok (combine vs1 vs2,
          (match tail_of d1 rest1, tail_of d2 rest2 with
           | Some (p, n), Some (q, _) => Some ((p, q), n) | _, _ => None end), s').
Proof.
  intros A B c t1 t2 l1 d1 l2 d2 k2 fuel Ht1 Ht2 Hw Hl1 Hl2 Hd1 Hd2 Hl Hk2 Hf rest st.
  destruct (two_slices A B c t1 t2 l1 d1 l2 d2 0 k2 Ht1 Ht2 Hw Hl1 Hl2 Hd1 Hd2 Hl ltac:(lia) ltac:(lia) ltac:(lia))
    as (Hz & vs1 & r1 & vs2 & r2 & s' & He & Hc1 & Hc2 & Hv & Hr & Hlt & _).
  split; [exact Hz|]. cbn [Z.to_nat skipn] in Hc1, Hc2.
  exists vs1, r1, vs2, r2, s'. repeat (split; [assumption|]).
  rewrite (emits_drain _ _ _ _ _ He).
  - do 3 f_equal. unfold tail_of. destruct r1, r2; try discriminate; reflexivity.
  - rewrite combine_length. pose proof (chunked_length t1 l1 Ht1 vs1 r1 Hc1). lia.
Qed.

Lemma c18_zipped_refuted : forall (A B : Type) (c : config) (ty : vty) (l1 d1 : list A) (l2 d2 : list B),
  vty_ok ty -> slice_ok ty l1 -> 0 < zlen l1 -> zlen l2 = zlen l1 ->
  let rest := rest_one (blanket_unsafe c (si_array (slice_array (A := B) c ty)) (si_iterable c (slice_array c ty))) in
  let z := zip_iterator (slice_iterator c ty) rest in
  exists n, it_scalar_len (itb z) (simd_iter l1 d1, simd_iter l2 d2) = Ok n /\ n = zlen l1 / WIDTH ty /\ n < zlen l1.
Proof.
  intros A B c ty l1 d1 l2 d2 Hty Hl1 Hpos Hl2 rest z.
  pose proof (vty_ok_facts _ Hty) as (H1 & _).
  assert (Hw2 : 2 <= WIDTH ty) by (destruct Hty as [Ha Hb]; cbn in Ha, Hb; nia).
  eexists. split; [cbn; apply udiv_ok; lia|]. split; [reflexivity|]. apply Z.div_lt; lia.
Qed.

Lemma c07_zip_width_independent : forall (A B C : Type) (op : C -> C -> C) (e : C) (g : A -> B -> C) (x1 : A) (x2 : B),
  (forall x y z, op x (op y z) = op (op x y) z) -> (forall x y, op x y = op y x) ->
  (forall x, op e x = x) -> g x1 x2 = e ->
  forall (c : config) (t1 t2 out_ty : vty) (l1 : list A) (l2 : list B) (d0 : C) (fuel : nat),
  vty_ok t1 -> vty_ok t2 -> vty_ok out_ty -> WIDTH t2 = WIDTH t1 -> WIDTH out_ty = WIDTH t1 ->
  slice_ok t1 l1 -> slice_ok t2 l2 -> zlen l1 = zlen l2 -> (length l1 < fuel)%nat ->
  let rest := rest_one (blanket_unsafe c (si_array (slice_array c t2)) (si_iterable c (slice_array c t2))) in
  let z := zip_iterator (slice_iterator c t1) rest in
  let m := zipmap_iterator c z out_ty d0 (fun (u : unit) v => (map2 g (fst v) (snd v), u)) in
  exists acc s',
    simd_reduce m fuel (mkSIMDMap (simd_iter l1 (splat (WIDTH t1) x1), simd_iter l2 (splat (WIDTH t2) x2)) tt)
      (splat (WIDTH t1) e) (map2 op) = Ok (acc, s') /\
    zlen acc = WIDTH t1 /\ fold_left op acc e = fold_left op (map2 g l1 l2) e.
Proof.
  intros A B C op e g x1 x2 Ha Hcm Hu Hge c t1 t2 out_ty l1 l2 d0 fuel Ht1 Ht2 Hout Hw Hwo Hl1 Hl2 Hl Hf rest z m.
  pose proof (zlen_nonneg l1). pose proof (vty_ok_facts _ Ht1) as (H1 & H2 & H3 & H4 & H5 & H6).
  pose proof (vty_ok_facts _ Hout) as (O1 & _ & [O2 _] & _).
  assert (Hd1 : zlen (splat (WIDTH t1) x1) = WIDTH t1) by (unfold splat; rewrite zlen_repeat; lia).
  assert (Hd2 : zlen (splat (WIDTH t2) x2) = WIDTH t2) by (unfold splat; rewrite zlen_repeat; lia).
  destruct (two_slices A B c t1 t2 l1 _ l2 _ 0 0 Ht1 Ht2 Hw Hl1 Hl2 Hd1 Hd2 Hl ltac:(lia) ltac:(lia) ltac:(lia))
    as (Hz & vs1 & r1 & vs2 & r2 & s' & He & Hc1 & Hc2 & Hv & Hr & Hlt & Hn1 & Hn2).
  cbn [Z.to_nat skipn] in Hc1, Hc2. fold rest z in He.
  match type of He with emits _ _ _ ?T _ => set (t := T) in * end.
  set (func := fun (u : unit) (v : list A * list B) => (map2 g (fst v) (snd v), u)) in *.
  assert (Hem := emits_zipmap c z out_ty d0 func _ _ _ _ tt O2 He).
  rewrite (run_closure_pure func (fun v => map2 g (fst v) (snd v))) in Hem by reflexivity.
  cbn [fst snd] in Hem.
  pose proof (chunked_length t1 l1 Ht1 vs1 r1 Hc1) as Hcl.
  assert (Htn : forall p n, t = Some (p, n) -> 0 <= n * SIZE (it_ty (itb z)) < usize_mod).
  { intros p n Ht. unfold t in Ht. destruct (tail_of _ r1) as [[p1 n1]|] eqn:Et; [|discriminate]. injection Ht as _ <-.
    destruct (tail_of_fields t1 _ Hd1 r1 p1 n1 Hlt Et) as (_ & -> & Hx & _).
    cbn [itb z zip_iterator zip_iterable it_ty slice_iterator blanket_iterator si_iterable arr_ty slice_array].
    pose proof usize_mod_val. nia. }
  specialize (Hem Htn).
  eexists _, _. split.
  { apply emits_reduce; [exact Hem|]. rewrite map_length, combine_length. lia. }
  destruct Hc1 as [Hc1 Hcat1]. destruct Hc2 as [Hc2 Hcat2].
  set (ys := map (fun v => map2 g (fst v) (snd v)) (combine vs1 vs2)) in *.
  assert (Hys : Forall (fun v : list C => length v = Z.to_nat (WIDTH t1)) ys).
  { unfold ys. clear -Hc1 Hc2. revert vs2 Hc2. induction Hc1 as [|v1 vs1 Hx Hc1 IH]; intros [|v2 vs2] Hc2; cbn; try constructor.
    - inversion Hc2; subst. cbn. rewrite map2_length; unfold zlen in *; lia.
    - inversion Hc2; subst. apply IH. assumption. }
  assert (Htail : fold_left op (concat match map_tail func tt t (sz z) (SIZE out_ty) with Some (p, _) => [p] | None => [] end) e =
                  fold_left op (map2 g r1 r2) e /\
     Forall (fun v : list C => length v = Z.to_nat (WIDTH t1))
       match map_tail func tt t (sz z) (SIZE out_ty) with Some (p, _) => [p] | None => [] end).
  { unfold t, tail_of, map_tail. destruct r1 as [|y1 r1]; [destruct r2; [|discriminate]; split; [reflexivity|constructor]|].
    cbn [func fst snd concat]. rewrite app_nil_r. unfold right_aligned, splat. rewrite !repeat_length.
    replace (Z.to_nat (WIDTH t2) - length r2)%nat with (Z.to_nat (WIDTH t1) - length (y1 :: r1))%nat by (rewrite Hw, Hr; reflexivity).
    rewrite Hw.
    rewrite map2_app by (rewrite !firstn_length, !repeat_length; reflexivity). split.
    - rewrite (fold_left_split op e Ha Hcm Hu). rewrite (fold_left_units op e Hu), Hu; [reflexivity|].
      generalize (Z.to_nat (WIDTH t1) - length (y1 :: r1))%nat. generalize (Z.to_nat (WIDTH t1)). clear -Hge.
      induction n as [|n IH]; intros [|q]; cbn; constructor; [exact Hge|apply IH].
    - constructor; [|constructor]. rewrite app_length, !map2_length.
      + rewrite firstn_length, repeat_length. unfold zlen in *. lia.
      + exact Hr.
      + rewrite !firstn_length, !repeat_length. reflexivity. }
  destruct Htail as [Htail Htl].
  destruct (reduce_vectors op e Ha Hcm Hu (fun v : list C => v) (Z.to_nat (WIDTH t1))
              (visited ys (map_tail func tt t (sz z) (SIZE out_ty))) (splat (WIDTH t1) e)) as [Hlacc Hfold].
  { unfold splat. apply repeat_length. }
  { apply Forall_app. split; assumption. }
  split. { unfold zlen. etransitivity; [apply f_equal; exact Hlacc|]. lia. }
  etransitivity; [exact Hfold|]. rewrite map_id. unfold visited. rewrite concat_app.
  assert (Hue : forall n, fold_left op (repeat e n) e = e).
  { intros n. apply fold_left_units; [assumption..|]. apply Forall_forall. intros y Hy. apply repeat_spec in Hy. exact Hy. }
  unfold splat. rewrite Hue, Hu, (fold_left_split op e Ha Hcm Hu), Htail.
  unfold ys. rewrite (map2_concat A B C g (WIDTH t1) vs1 vs2 Hc1 Hc2 Hv). rewrite <- (fold_left_split op e Ha Hcm Hu).
  rewrite <- map2_app, Hcat1, Hcat2; [reflexivity|].
  pose proof (concat_zlen _ _ Hc1). pose proof (concat_zlen _ _ Hc2). unfold zlen in *. rewrite Hv in *. lia.
Qed.
