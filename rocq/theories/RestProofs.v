(** Proofs of the properties: collecting what is left of an iterator (C71). *)
From Verif Require Import Base Spec Vecs Iters CollectSpec.
From Coq Require Import Lia ZifyBool ZifyNat.
From Verif Require Import ListFacts VecFacts IterFacts CollectFacts MapFacts CollectProofs.
Ltac Zify.zify_post_hook ::= Z.div_mod_to_equations.

Lemma chain_rest : forall (A0 : Type) (c : config) (ty : vty) (l d : list A0) (k : Z),
  vty_ok ty -> slice_ok ty l -> zlen d = WIDTH ty -> 0 <= k <= zlen l ->
  (k = 0 \/ WIDTH ty < zlen l \/ k = zlen l) ->
  forall B I (it : SIMDIterator (list B) I) s f,
  map_chain c (slice_iterator c ty) (mkSIMDIter k l d) B I it s f ->
  exists vs t s', emits it s vs t s' /\ sized (WIDTH ty) vs t /\
    WIDTH (it_ty (itb it)) = WIDTH ty /\ SIZE (it_ty (itb it)) = SIZE ty /\
    (forall p n, t = Some (p, n) -> 0 <= n < WIDTH ty) /\
    delivered vs t = map f (skipn (Z.to_nat k) l) /\ (length vs <= length l)%nat /\
    zlen vs = (zlen l - k) / WIDTH ty /\
    it_len (itb it) s = Ok (zlen l / WIDTH ty) /\ it_len (itb it) s' = Ok (zlen l / WIDTH ty) /\
    (t = None <-> (zlen l - k) mod WIDTH ty = 0).
Proof.
  intros A0 c ty l d k Hty Hl Hd Hk Hready B I it s f Hch.
  pose proof (vty_ok_facts _ Hty) as (H1 & H2 & H3 & H4 & H5 & H6).
  induction Hch as [|B I it s f B' E out_ty d0 func e g Hch IH Hout Hw Hs Hg].
  - destruct (slice_emits c ty l d Hty Hl Hd k Hk Hready) as (vs & rest & He & Hchk & Hr).
    exists vs, (tail_of d rest), (mkSIMDIter (zlen l) l d).
    pose proof (zlen_nonneg rest) as Hr0.
    assert (Hz : zlen l - k = WIDTH ty * zlen vs + zlen rest).
    { destruct Hchk as [Hc1 Hc2]. rewrite <- (concat_zlen (WIDTH ty) vs Hc1), <- zlen_app, Hc2, zlen_skipn. lia. }
    split; [exact He|]. split.
    { split; [apply Hchk|]. intros p n E. destruct (tail_of_fields ty d Hd rest p n Hr E) as (_ & _ & _ & Hp). exact Hp. }
    split; [reflexivity|]. split; [reflexivity|]. split.
    { intros p n E. destruct (tail_of_fields ty d Hd rest p n Hr E) as (_ & -> & ? & _). lia. }
    split.
    { rewrite (delivered_tail ty d Hd vs rest) by lia. rewrite map_id. apply Hchk. }
    split.
    { pose proof (chunked_length ty (skipn (Z.to_nat k) l) Hty vs rest Hchk) as Hcl. rewrite skipn_length in Hcl. lia. }
    split; [apply (Z.div_unique _ _ _ (zlen rest)); lia|].
    split; [cbn; apply udiv_ok; lia|]. split; [cbn; apply udiv_ok; lia|].
    assert (Hm : (zlen l - k) mod WIDTH ty = zlen rest) by (symmetry; apply (Z.mod_unique _ _ (zlen vs)); lia).
    rewrite Hm. unfold tail_of. destruct rest as [|x r]; [split; reflexivity|].
    rewrite zlen_cons. pose proof (zlen_nonneg r). split; [discriminate|lia].
  - destruct IH as (vs & t & s' & He & Hsz & Hw' & Hs' & Ht & Hdl & Hln & Hcv & HL1 & HL2 & HN).
    pose proof (vty_ok_facts _ Hout) as (G1 & G2 & G3 & G4 & G5 & G6).
    eexists _, _, _. split; [apply emits_map; [lia|exact He|]|].
    { intros p n E0. specialize (Ht p n E0). rewrite Hs'. unfold usize_mod. nia. }
    cbn [map_iterator itb sm_iterable it_ty it_len sm_iter]. split; [|split; [|split; [|split; [|split; [|split; [|split]]]]]].
    + rewrite <- Hw', <- Hw. apply map_sized with (Q := fun v => zlen v = WIDTH ty).
      * intros e0 v Hv. rewrite Hg, zlen_map. congruence.
      * apply Hsz.
      * apply Hsz.
    + congruence.
    + congruence.
    + intros p n. unfold map_tail. destruct t as [[p' n']|]; [|discriminate]. intros E0. injection E0 as <- <-.
      rewrite Hs, Z.div_mul by lia. apply (Ht p' n' eq_refl).
    + rewrite (lanewise_results _ _ _ g func Hg).
      rewrite <- (map_map f g), <- Hdl, <- delivered_map. f_equal.
      unfold map_tail. destruct t as [[p n]|]; [|reflexivity]. rewrite Hg. f_equal. f_equal.
      rewrite Hs. apply Z.div_mul. lia.
    + rewrite run_closure_length. exact Hln.
    + unfold zlen. rewrite run_closure_length. exact Hcv.
    + split; [exact HL1|]. split; [exact HL2|]. rewrite <- HN. destruct t as [[p n]|]; cbn; split; congruence.
Qed.

Lemma collect_rest : forall (A B : Type) (c : config) (ty : vty) (l d : list A) (k : Z)
    (I : Type) (it : SIMDIterator (list B) I) (s : I) (f : A -> B) (d0 : B) (fuel : nat),
  vty_ok ty -> zlen d = WIDTH ty -> (zlen l + WIDTH ty) * SIZE ty <= isize_max ->
  0 <= k <= zlen l -> (k = 0 \/ WIDTH ty < zlen l \/ k = zlen l) ->
  map_chain c (slice_iterator c ty) (mkSIMDIter k l d) B I it s f ->
  (length l < fuel)%nat ->
  exists s', scalar_collect c it d0 fuel s =
    Ok (map Some (map f (skipn (Z.to_nat k) l)) ++
        repeat None (if (zlen l - k) mod WIDTH ty =? 0 then Z.to_nat (k / WIDTH ty * WIDTH ty) else 0), s').
Proof.
  intros A B c ty l d k I it s f d0 fuel Hty Hd Hcap Hk Hready Hch Hf.
  pose proof (vty_ok_facts _ Hty) as (H1 & H2 & H3 & H4 & H5 & H6).
  assert (Hl : slice_ok ty l) by (unfold slice_ok; nia).
  destruct (chain_rest A c ty l d k Hty Hl Hd Hk Hready B I it s f Hch)
    as (vs & t & s' & He & Hsz & Hw & Hs & Ht & Hdl & Hln & Hcv & HL1 & HL2 & HN).
  exists s'. assert (Hle : (zlen l - k) / WIDTH ty <= zlen l / WIDTH ty) by (apply Z.div_le_mono; lia).
  rewrite (scalar_collect_gen c it d0 s vs t s' (zlen l / WIDTH ty) (zlen l / WIDTH ty)); try rewrite Hw; try rewrite Hs;
    try assumption; try apply Hsz; try lia.
  - rewrite Hdl. do 3 f_equal. destruct t as [[p n]|].
    + destruct (_ =? 0) eqn:E; [|reflexivity]. assert (Hm : (zlen l - k) mod WIDTH ty = 0) by (apply Z.eqb_eq; exact E).
      apply HN in Hm. discriminate.
    + rewrite (proj1 HN eq_refl). cbn [Z.eqb]. f_equal. f_equal. rewrite Hcv.
      pose proof (proj1 HN eq_refl) as Hm. pose proof (Z.div_mod (zlen l - k) (WIDTH ty) ltac:(lia)) as Hdm. rewrite Hm in Hdm.
      set (q := (zlen l - k) / WIDTH ty) in *.
      replace (zlen l) with (k + q * WIDTH ty) by lia. rewrite Z.div_add by lia. ring.
  - unfold usize_mod. lia.
  - intros p n E. split; [apply (proj2 Hsz p n E)|]. specialize (Ht p n E). lia.
  - intros _. exact HL2.
Qed.

Lemma c71_collect_rest_partial : forall (A B : Type) (c : config) (ty : vty) (l d : list A) (k : Z)
    (I : Type) (it : SIMDIterator (list B) I) (s : I) (f : A -> B) (d0 : B) (fuel : nat),
  vty_ok ty -> zlen d = WIDTH ty -> (zlen l + WIDTH ty) * SIZE ty <= isize_max ->
  0 <= k <= zlen l -> (k = 0 \/ WIDTH ty < zlen l \/ k = zlen l) ->
  map_chain c (slice_iterator c ty) (mkSIMDIter k l d) B I it s f ->
  (length l < fuel)%nat ->
  (zlen l - k) mod WIDTH ty <> 0 \/ k < WIDTH ty ->
  exists s', scalar_collect c it d0 fuel s = Ok (map Some (map f (skipn (Z.to_nat k) l)), s').
Proof.
  intros A B c ty l d k I it s f d0 fuel Hty Hd Hcap Hk Hready Hch Hf Hg.
  destruct (collect_rest A B c ty l d k I it s f d0 fuel Hty Hd Hcap Hk Hready Hch Hf) as (s' & ->).
  exists s'. do 3 f_equal. destruct (_ =? 0) eqn:E; [|apply app_nil_r].
  destruct Hg as [Hg|Hg]; [exfalso; apply Hg, Z.eqb_eq, E|].
  rewrite (Z.div_small k) by lia. apply app_nil_r.
Qed.

Lemma c71_collect_rest_refuted : forall (A B : Type) (c : config) (ty : vty) (l d : list A) (k : Z)
    (I : Type) (it : SIMDIterator (list B) I) (s : I) (f : A -> B) (d0 : B) (fuel : nat),
  vty_ok ty -> zlen d = WIDTH ty -> (zlen l + WIDTH ty) * SIZE ty <= isize_max ->
  WIDTH ty <= k <= zlen l -> (zlen l - k) mod WIDTH ty = 0 ->
  map_chain c (slice_iterator c ty) (mkSIMDIter k l d) B I it s f ->
  (length l < fuel)%nat ->
  exists s' uninit, scalar_collect c it d0 fuel s =
      Ok (map Some (map f (skipn (Z.to_nat k) l)) ++ repeat None uninit, s') /\
    (0 < uninit)%nat /\ Z.of_nat uninit = k / WIDTH ty * WIDTH ty.
Proof.
  intros A B c ty l d k I it s f d0 fuel Hty Hd Hcap Hk Hm Hch Hf.
  pose proof (vty_ok_facts _ Hty) as (H1 & H2 & H3 & H4 & H5 & H6).
  destruct (collect_rest A B c ty l d k I it s f d0 fuel Hty Hd Hcap ltac:(lia) ltac:(lia) Hch Hf) as (s' & ->).
  exists s', (Z.to_nat (k / WIDTH ty * WIDTH ty)). rewrite Hm. cbn [Z.eqb]. split; [reflexivity|].
  assert (1 <= k / WIDTH ty) by (apply Z.div_le_lower_bound; lia). nia.
Qed.
