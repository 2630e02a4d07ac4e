(** Proofs of the properties: mapping, collecting, filling and in-place mutation (C08-C14, C17-C20, C52). *)
From Verif Require Import Base Spec Vecs Iters Stride CollectSpec.
From Coq Require Import Lia ZifyBool ZifyNat.
From Verif Require Import IterProofs.
From Verif Require Import ListFacts VecFacts IterFacts CollectFacts MapFacts SafetyFacts ForEachFacts.
Ltac Zify.zify_post_hook ::= Z.div_mod_to_equations.

Lemma lanewise_results : forall (A B E : Type) (g : A -> B) (func : E -> list A -> list B * E),
  (forall e v, fst (func e v) = map g v) ->
  forall vs e, fst (run_closure func e vs) = map (map g) vs.
Proof.
  intros A B E g func H. induction vs as [|v vs IH]; intros e; [reflexivity|].
  cbn. pose proof (H e v) as Hv. destruct (func e v) as [y e']. cbn in Hv. subst y.
  specialize (IH e'). destruct (run_closure func e' vs). cbn in *. congruence.
Qed.

Lemma chain_complete : forall (A0 : Type) (c : config) (ty : vty) (l d : list A0),
  vty_ok ty -> slice_ok ty l -> zlen d = WIDTH ty ->
  (zlen l + WIDTH ty) * SIZE ty <= isize_max ->
  forall B I (it : SIMDIterator (list B) I) s f,
  map_chain c (slice_iterator c ty) (simd_iter l d) B I it s f ->
  exists vs t s', complete it s vs t s' /\ sized (WIDTH ty) vs t /\
    WIDTH (it_ty (itb it)) = WIDTH ty /\ SIZE (it_ty (itb it)) = SIZE ty /\
    delivered vs t = map f l /\ (length vs <= length l)%nat /\ zlen vs = zlen l / WIDTH ty.
Proof.
  intros A0 c ty l d Hty Hl Hd Hcap B I it s f Hch.
  induction Hch as [|B I it s f B' E out_ty d0 func e g Hch IH Hout Hw Hs Hg].
  - destruct (slice_complete c ty l d Hty Hl Hd Hcap) as (vs & rest & Hc & Hch & Hr & Hsz).
    exists vs, (tail_of d rest), (mkSIMDIter (zlen l) l d).
    split; [exact Hc|]. split; [exact Hsz|]. split; [reflexivity|]. split; [reflexivity|]. split.
    + rewrite (delivered_tail ty d Hd vs rest) by lia. rewrite map_id. apply Hch.
    + split; [eapply chunked_length; eassumption|]. apply (chunked_count ty l vs rest Hch Hr).
  - destruct IH as (vs & t & s' & Hc & Hsz & Hw' & Hs' & Hdl & Hln).
    eexists _, _, _. split; [apply map_complete; [exact Hout|rewrite Hw, Hs; reflexivity|exact Hc]|].
    cbn [map_iterator itb sm_iterable it_ty]. split; [|split; [|split; [|split]]].
    + rewrite <- Hw', <- Hw. apply map_sized with (Q := fun v => zlen v = WIDTH ty).
      * intros e0 v Hv. rewrite Hg, zlen_map. congruence.
      * apply Hsz.
      * apply Hsz.
    + congruence.
    + congruence.
    + rewrite (lanewise_results _ _ _ g func Hg).
      rewrite <- (map_map f g), <- Hdl, <- delivered_map. f_equal.
      unfold map_tail. destruct t as [[p n]|]; [|reflexivity]. rewrite Hg. f_equal. f_equal.
      rewrite Hs. pose proof (vty_ok_facts _ Hty) as (_ & _ & ? & _). apply Z.div_mul. lia.
    + unfold zlen at 1. rewrite run_closure_length. exact Hln.
Qed.

Lemma c08_map_collect : forall (A B : Type) (c : config) (ty : vty) (l d : list A)
    (I : Type) (it : SIMDIterator (list B) I) (s : I) (f : A -> B) (d0 : B) (fuel : nat),
  vty_ok ty -> zlen d = WIDTH ty -> (zlen l + WIDTH ty) * SIZE ty <= isize_max ->
  map_chain c (slice_iterator c ty) (simd_iter l d) B I it s f ->
  (length l < fuel)%nat ->
  exists s', scalar_collect c it d0 fuel s = Ok (map Some (map f l), s').
Proof.
  intros A B c ty l d I it s f d0 fuel Hty Hd Hcap Hch Hf.
  assert (Hl : slice_ok ty l).
  { unfold slice_ok. pose proof (vty_ok_facts _ Hty) as (? & _ & ? & _). nia. }
  destruct (chain_complete A c ty l d Hty Hl Hd Hcap B I it s f Hch)
    as (vs & t & s' & Hc & Hsz & Hw & Hs & Hdl & Hln & Hcv).
  exists s'. rewrite <- Hdl. apply collect_complete; [exact Hc|rewrite Hw; exact Hsz|lia].
Qed.

Lemma c09_collect_closure : forall (A B E : Type) (c : config) (ty out_ty : vty) (l d : list A)
    (func : E -> list A -> list B * E) (e : E) (d0 d1 : B) (fuel : nat),
  vty_ok ty -> vty_ok out_ty -> WIDTH ty * SIZE ty = WIDTH out_ty * SIZE out_ty ->
  zlen d = WIDTH ty -> (zlen l + WIDTH ty) * SIZE ty <= isize_max ->
  (forall e v, zlen v = WIDTH ty -> zlen (fst (func e v)) = WIDTH out_ty) ->
  (length l < fuel)%nat ->
  exists vs rest,
    chunked (WIDTH ty) l vs rest /\ zlen rest < WIDTH ty /\
    let (ys, e1) := run_closure func e vs in
    let tail := match rest with
                | [] => []
                | _ => skipn (Z.to_nat ((WIDTH ty - zlen rest) * SIZE ty / SIZE out_ty))
                             (fst (func e1 (right_aligned d rest)))
                end in
    let e2 := match rest with [] => e1 | _ => snd (func e1 (right_aligned d rest)) end in
    scalar_collect c (map_iterator c (slice_iterator c ty) out_ty d0 func) d1 fuel
      (mkSIMDMap (simd_iter l d) e) =
    Ok (map Some (concat ys ++ tail), mkSIMDMap (mkSIMDIter (zlen l) l d) e2).
Proof.
  intros A B E c ty out_ty l d func e d0 d1 fuel Hty Hout Hb Hd Hcap Hfunc Hf.
  assert (Hl : slice_ok ty l).
  { unfold slice_ok. pose proof (vty_ok_facts _ Hty) as (? & _ & ? & _). nia. }
  destruct (slice_complete c ty l d Hty Hl Hd Hcap) as (vs & rest & Hc & Hch & Hr & Hsz).
  exists vs, rest. split; [exact Hch|]. split; [exact Hr|].
  assert (HQ : forall p n, tail_of d rest = Some (p, n) -> zlen p = WIDTH ty).
  { intros p n Hp. apply (tail_of_fields ty d Hd rest p n Hr Hp). }
  pose proof (map_complete c (slice_iterator c ty) out_ty d0 func Hout Hb _ _ _ _ e Hc) as Hm.
  assert (Hs := map_sized (slice_iterator c ty) out_ty func (fun v => zlen v = WIDTH ty) vs (tail_of d rest) e
                  Hfunc (proj1 Hsz) HQ).
  rewrite (collect_complete c _ d1 _ _ _ _ fuel Hm Hs).
  2:{ rewrite run_closure_length. pose proof (chunked_length ty l Hty vs rest Hch). lia. }
  unfold visited. rewrite run_closure_app. cbn [fst snd].
  destruct (run_closure func e vs) as [ys e1] eqn:Er. cbn [fst snd].
  unfold delivered, map_tail, tail_of, unfilled. rewrite Hd.
  destruct rest as [|x r]; cbn [fst snd run_closure].
  - reflexivity.
  - cbn [itb slice_iterator blanket_iterator it_ty si_iterable arr_ty slice_array].
    destruct (func e1 (right_aligned d (x :: r))). reflexivity.
Qed.

Lemma c10_fill : forall (A B : Type) (c : config) (ty : vty) (l d : list A)
    (I : Type) (it : SIMDIterator (list B) I) (s : I) (f : A -> B) (d0 : B) (buf : list B) (fuel : nat),
  vty_ok ty -> zlen d = WIDTH ty -> (zlen l + WIDTH ty) * SIZE ty <= isize_max ->
  map_chain c (slice_iterator c ty) (simd_iter l d) B I it s f ->
  zlen l <= zlen buf -> (length l < fuel)%nat ->
  exists s', scalar_fill c it d0 fuel s buf = Ok (map f l ++ skipn (length l) buf, s').
Proof.
  intros A B c ty l d I it s f d0 buf fuel Hty Hd Hcap Hch Hbuf Hf.
  assert (Hl : slice_ok ty l).
  { unfold slice_ok. pose proof (vty_ok_facts _ Hty) as (? & _ & ? & _). nia. }
  destruct (chain_complete A c ty l d Hty Hl Hd Hcap B I it s f Hch)
    as (vs & t & s' & Hc & Hsz & Hw & Hs & Hdl & Hln & Hcv).
  exists s'. rewrite (fill_complete c it d0 s vs t s' fuel buf Hc); [|rewrite Hw; exact Hsz|lia|].
  - rewrite Hdl, map_length. reflexivity.
  - rewrite Hdl, zlen_map. exact Hbuf.
Qed.

Lemma c10_fill_closure : forall (A B E : Type) (c : config) (ty out_ty : vty) (l d : list A)
    (func : E -> list A -> list B * E) (e : E) (d0 d1 : B) (buf : list B) (fuel : nat),
  vty_ok ty -> vty_ok out_ty -> WIDTH ty * SIZE ty = WIDTH out_ty * SIZE out_ty ->
  zlen d = WIDTH ty -> (zlen l + WIDTH ty) * SIZE ty <= isize_max ->
  (forall e v, zlen v = WIDTH ty -> zlen (fst (func e v)) = WIDTH out_ty) ->
  (length l < fuel)%nat ->
  exists vs rest,
    chunked (WIDTH ty) l vs rest /\ zlen rest < WIDTH ty /\
    let (ys, e1) := run_closure func e vs in
    let tail := match rest with
                | [] => []
                | _ => skipn (Z.to_nat ((WIDTH ty - zlen rest) * SIZE ty / SIZE out_ty))
                             (fst (func e1 (right_aligned d rest)))
                end in
    let results := concat ys ++ tail in
    zlen results <= zlen buf ->
    exists s', scalar_fill c (map_iterator c (slice_iterator c ty) out_ty d0 func) d1 fuel
      (mkSIMDMap (simd_iter l d) e) buf = Ok (results ++ skipn (length results) buf, s').
Proof.
  intros A B E c ty out_ty l d func e d0 d1 buf fuel Hty Hout Hb Hd Hcap Hfunc Hf.
  assert (Hl : slice_ok ty l).
  { unfold slice_ok. pose proof (vty_ok_facts _ Hty) as (? & _ & ? & _). nia. }
  destruct (slice_complete c ty l d Hty Hl Hd Hcap) as (vs & rest & Hc & Hch & Hr & Hsz).
  exists vs, rest. split; [exact Hch|]. split; [exact Hr|].
  assert (HQ : forall p n, tail_of d rest = Some (p, n) -> zlen p = WIDTH ty).
  { intros p n Hp. apply (tail_of_fields ty d Hd rest p n Hr Hp). }
  pose proof (map_complete c (slice_iterator c ty) out_ty d0 func Hout Hb _ _ _ _ e Hc) as Hm.
  assert (Hs := map_sized (slice_iterator c ty) out_ty func (fun v => zlen v = WIDTH ty) vs (tail_of d rest) e
                  Hfunc (proj1 Hsz) HQ).
  pose proof (fill_complete c _ d1 _ _ _ _ fuel buf Hm Hs) as H.
  rewrite run_closure_length in H. pose proof (chunked_length ty l Hty vs rest Hch) as Hcl.
  specialize (H ltac:(lia)).
  destruct (run_closure func e vs) as [ys e1] eqn:Er. cbn [fst snd] in H.
  assert (Hdel : delivered ys (map_tail func e1 (tail_of d rest) (SIZE ty) (SIZE out_ty)) =
    concat ys ++ match rest with
                | [] => []
                | _ => skipn (Z.to_nat ((WIDTH ty - zlen rest) * SIZE ty / SIZE out_ty))
                             (fst (func e1 (right_aligned d rest)))
                end).
  { unfold delivered, map_tail, tail_of, unfilled. rewrite Hd. destruct rest; reflexivity. }
  cbn [itb slice_iterator blanket_iterator it_ty si_iterable arr_ty slice_array] in H.
  rewrite Hdel in H. intros tail results Hroom. eexists. apply H. exact Hroom.
Qed.

Lemma store_loop_short : forall (A I : Type) (c : config) (it : SIMDIterator (list A) I) s vs s1,
  nexts it s vs s1 -> 0 < wd it < usize_mod -> Forall (fun v => zlen v = wd it) vs ->
  forall fuel (buf : list A) offset lastvec,
  (length vs < fuel)%nat -> 0 <= offset <= zlen buf -> offset + wd it * zlen vs < usize_mod ->
  zlen buf < offset + wd it * zlen vs ->
  store_loop c it (fun x => x) fuel s buf offset lastvec = match build c with Debug => Panic | Release => UB end.
Proof.
  intros A I c it s vs s1 Hn HW Hv. induction Hn as [s s1 Hx|s v s1 vs s2 Hx Hn IH];
    intros fuel buf offset lastvec Hf Ho Hu Hs.
  - rewrite zlen_nil in Hs. lia.
  - inversion Hv as [|? ? Hv1 Hv2]; subst. rewrite zlen_cons in *. destruct fuel as [|fuel]; [cbn in Hf; lia|].
    cbn [store_loop]. rewrite Hx. cbn [bind]. unfold store_unchecked.
    replace (zlen buf <? offset) with false by lia.
    destruct (wd it <=? zlen buf - offset) eqn:E; [|destruct (build c); reflexivity]. cbn [bind].
    pose proof (zlen_nonneg vs).
    rewrite uadd_ok by nia. cbn [bind]. apply IH; try assumption; rewrite ?map_id in *;
      cbn [length] in Hf; try rewrite zlen_upd; try nia.
Qed.

Lemma for_range_checked_panics : forall (A : Type) (f : Z -> list A -> outcome (list A)) (m : Z),
  (forall i b, zlen b = m -> 0 <= i < m -> exists b', f i b = Ok b' /\ zlen b' = m) ->
  (forall b, zlen b = m -> f m b = Panic) ->
  forall n i b, zlen b = m -> 0 <= i <= m -> m < i + Z.of_nat n -> for_range n i f b = Panic.
Proof.
  intros A f m Hok Hbad. induction n as [|n IH]; intros i b Hb Hi Hn; [lia|]. cbn [for_range].
  destruct (Z.eq_dec i m) as [->|].
  - rewrite (Hbad b Hb). reflexivity.
  - destruct (Hok i b Hb ltac:(lia)) as (b' & -> & Hb'). cbn [bind]. apply IH; auto; lia.
Qed.

Lemma short_fill : forall (A B : Type) (c : config) (ty : vty) (l d : list A)
    (I : Type) (it : SIMDIterator (list B) I) (s : I) (f : A -> B) (d0 : B) (buf : list B) (fuel : nat),
  vty_ok ty -> zlen d = WIDTH ty -> (zlen l + WIDTH ty) * SIZE ty <= isize_max ->
  map_chain c (slice_iterator c ty) (simd_iter l d) B I it s f ->
  zlen buf < zlen l -> (length l < fuel)%nat ->
  scalar_fill c it d0 fuel s buf =
  match build c with Debug => Panic | Release => if zlen l <? WIDTH ty then Panic else UB end.
Proof.
  intros A B c ty l d I it s f d0 buf fuel Hty Hd Hcap Hch Hbuf Hf.
  pose proof (vty_ok_facts _ Hty) as (H1 & H2 & H3 & H4 & H5 & H6).
  assert (Hl : slice_ok ty l) by (unfold slice_ok; nia).
  destruct (chain_complete A c ty l d Hty Hl Hd Hcap B I it s f Hch)
    as (vs & t & s' & Hc & Hsz & Hw & Hs & Hdl & Hln & Hcv).
  pose proof (small_store it s vs t s' Hc) as Hsm. rewrite Hw in Hsm.
  pose proof usize_mod_val as Hum. pose proof (zlen_nonneg vs) as Hv0.
  destruct (emits_nexts it s vs t s' (cp_emits _ _ _ _ _ Hc)) as (s1 & Hn & He).
  unfold scalar_fill.
  destruct (Z_lt_le_dec (zlen buf) (WIDTH ty * zlen vs)) as [Hlt|Hge].
  { pose proof (zlen_nonneg buf).
    rewrite (store_loop_short _ _ c it s vs s1 Hn); try rewrite Hw; try (apply Hsz); try lia.
    assert (Hw2 : WIDTH ty <= zlen l).
    { destruct (Z_lt_le_dec (zlen l) (WIDTH ty)) as [Hs1|Hs1]; [|exact Hs1]. pose proof (zlen_nonneg l).
      rewrite Z.div_small in Hcv by lia. rewrite Hcv in Hlt. lia. }
    replace (zlen l <? WIDTH ty) with false by lia. destruct (build c); reflexivity. }
  assert (Hpart : buf = [] ++ firstn (Z.to_nat (WIDTH ty * zlen vs)) buf ++ skipn (Z.to_nat (WIDTH ty * zlen vs)) buf)
    by (symmetry; apply firstn_skipn).
  rewrite Hpart at 1.
  rewrite (store_loop_ok c it (fun x => x) s vs s1 Hn); try rewrite Hw; try (apply Hsz); try reflexivity; try lia.
  2:{ rewrite zlen_firstn. pose proof (zlen_nonneg buf). lia. }
  cbn [bind app]. rewrite map_id. rewrite He. cbn [bind].
  assert (Hdz : zlen (delivered vs t) = zlen l) by (rewrite Hdl; apply zlen_map).
  unfold delivered in Hdz. rewrite zlen_app, (concat_zlen (WIDTH ty) vs (proj1 Hsz)) in Hdz.
  destruct t as [[p n]|]; [|rewrite zlen_nil in Hdz; lia].
  pose proof (proj2 Hsz p n eq_refl) as Hp. pose proof (cp_tail _ _ _ _ _ Hc p n eq_refl) as Hn'.
  rewrite Hw in Hn'. rewrite zlen_skipn in Hdz.
  set (mid := concat vs ++ skipn (Z.to_nat (WIDTH ty * zlen vs)) buf).
  assert (Hmid : zlen mid = zlen buf).
  { unfold mid. rewrite zlen_app, (concat_zlen (WIDTH ty) vs (proj1 Hsz)), zlen_skipn. nia. }
  unfold store_tail. rewrite Hw. rewrite Z.add_0_l. destruct (0 <? WIDTH ty * zlen vs) eqn:E0.
  - assert (1 <= zlen vs) by nia. rewrite usub_ok by nia. cbn [bind]. rewrite map_id. unfold store_unchecked.
    replace (zlen mid <? WIDTH ty * zlen vs - n) with false by lia.
    replace (WIDTH ty <=? zlen mid - (WIDTH ty * zlen vs - n)) with false by lia.
    replace (zlen l <? WIDTH ty) with false; [destruct (build c); reflexivity|].
    pose proof (Z.mul_le_mono_nonneg_l 1 (zlen vs) (WIDTH ty)). lia.
  - assert (zlen vs = 0) by nia. rewrite usub_ok by lia. cbn [bind].
    rewrite (for_range_checked_panics _ _ (zlen mid)); try lia.
    + destruct (zlen l <? WIDTH ty) eqn:El; [destruct (build c); reflexivity|].
      assert (Hq : 1 <= zlen l / WIDTH ty) by (apply Z.div_le_lower_bound; lia). lia.
    + intros i bb Hbb Hi. assert (Hi2 : i < WIDTH ty - n) by lia.
      rewrite uadd_ok by nia. cbn [bind]. rewrite uadd_ok by lia. cbn [bind].
      destruct (znth_exists p (i + n) ltac:(lia)) as [x Hx].
      rewrite (extract_unchecked_ok c (WIDTH ty) p (i + n) x) by (assumption || lia). cbn [bind].
      replace (WIDTH ty * zlen vs + i <? zlen bb) with true by nia.
      eexists. split; [reflexivity|]. rewrite zlen_upd; [exact Hbb|nia|]. cbn. nia.
    + intros bb Hbb. pose proof (zlen_nonneg mid).
      rewrite uadd_ok by nia. cbn [bind]. rewrite uadd_ok by lia. cbn [bind].
      destruct (znth_exists p (zlen mid + n) ltac:(lia)) as [x Hx].
      rewrite (extract_unchecked_ok c (WIDTH ty) p (zlen mid + n) x) by (assumption || lia). cbn [bind].
      replace (WIDTH ty * zlen vs + zlen mid <? zlen bb) with false by nia. reflexivity.
Qed.

Lemma c11_short_fill_partial : forall (A B : Type) (c : config) (ty : vty) (l d : list A)
    (I : Type) (it : SIMDIterator (list B) I) (s : I) (f : A -> B) (d0 : B) (buf : list B) (fuel : nat),
  vty_ok ty -> zlen d = WIDTH ty -> (zlen l + WIDTH ty) * SIZE ty <= isize_max ->
  map_chain c (slice_iterator c ty) (simd_iter l d) B I it s f ->
  zlen buf < zlen l -> (length l < fuel)%nat ->
  build c = Debug \/ zlen l < WIDTH ty ->
  scalar_fill c it d0 fuel s buf = Panic.
Proof.
  intros A B c ty l d I it s f d0 buf fuel Hty Hd Hcap Hch Hbuf Hf Hp.
  rewrite (short_fill A B c ty l d I it s f d0 buf fuel Hty Hd Hcap Hch Hbuf Hf).
  destruct (build c); [reflexivity|]. destruct Hp as [Hp|Hp]; [discriminate|]. replace (zlen l <? WIDTH ty) with true by lia. reflexivity.
Qed.

Lemma c11_short_fill_refuted : forall (A B : Type) (b : bool) (ty : vty) (l d : list A)
    (I : Type) (it : SIMDIterator (list B) I) (s : I) (f : A -> B) (d0 : B) (buf : list B) (fuel : nat),
  let c := mkConfig Release b in
  vty_ok ty -> zlen d = WIDTH ty -> (zlen l + WIDTH ty) * SIZE ty <= isize_max ->
  map_chain c (slice_iterator c ty) (simd_iter l d) B I it s f ->
  zlen buf < zlen l -> (length l < fuel)%nat -> WIDTH ty <= zlen l ->
  scalar_fill c it d0 fuel s buf = UB.
Proof.
  intros A B b ty l d I it s f d0 buf fuel c Hty Hd Hcap Hch Hbuf Hf Hp.
  rewrite (short_fill A B c ty l d I it s f d0 buf fuel Hty Hd Hcap Hch Hbuf Hf). cbn.
  replace (zlen l <? WIDTH ty) with false by lia. reflexivity.
Qed.

Lemma chain_shape : forall (A0 : Type) (c : config) (ty : vty) (l d : list A0),
  vty_ok ty -> slice_ok ty l -> zlen d = WIDTH ty ->
  (zlen l + WIDTH ty) * SIZE ty <= isize_max ->
  forall B I (it : SIMDIterator (list B) I) s f,
  map_chain c (slice_iterator c ty) (simd_iter l d) B I it s f ->
  exists vs rest s', complete it s (map (map f) vs)
      (match tail_of d rest with Some (p, n) => Some (map f p, n) | None => None end) s' /\
      chunked (WIDTH ty) l vs rest /\ zlen rest < WIDTH ty /\
      WIDTH (it_ty (itb it)) = WIDTH ty /\ SIZE (it_ty (itb it)) = SIZE ty.
Proof.
  intros A0 c ty l d Hty Hl Hd Hcap B I it s f Hch.
  induction Hch as [|B I it s f B' E out_ty d1 func e g Hch IH Hout Hw Hs Hg].
  - destruct (slice_complete c ty l d Hty Hl Hd Hcap) as (vs & rest & Hc & Hch & Hr & Hsz).
    exists vs, rest, (mkSIMDIter (zlen l) l d). rewrite (map_ext (map (fun x => x)) (fun x => x)) by (apply map_id).
    rewrite map_id. split; [|split; [exact Hch|split; [exact Hr|split; reflexivity]]].
    destruct (tail_of d rest) as [[p n]|]; [rewrite map_id|]; exact Hc.
  - destruct IH as (vs & rest & s' & Hc & Hchk & Hr & Hw' & Hs').
    exists vs, rest. eexists. split; [|split; [exact Hchk|split; [exact Hr|split; cbn; congruence]]].
    pose proof (map_complete c it out_ty d1 func Hout ltac:(rewrite Hw, Hs; reflexivity) _ _ _ _ e Hc) as Hm.
    rewrite (lanewise_results _ _ _ g func Hg) in Hm. rewrite map_map in Hm.
    rewrite (map_ext (fun x => map g (map f x)) (map (fun x => g (f x)))) in Hm by (intros; apply map_map).
    replace (match tail_of d rest with
             | Some (p, n) => Some (map (fun x => g (f x)) p, n) | None => None end)
      with (map_tail func (snd (run_closure func e (map (map f) vs)))
              match tail_of d rest with Some (p, n) => Some (map f p, n) | None => None end (sz it) (SIZE out_ty));
      [exact Hm|].
    unfold map_tail. destruct (tail_of d rest) as [[p n]|]; [|reflexivity].
    rewrite Hg, map_map, Hs. rewrite Z.div_mul; [reflexivity|].
    pose proof (vty_ok_facts _ Hty) as (_ & _ & ? & _). lia.
Qed.

Lemma shape_sized : forall (A B : Type) (ty : vty) (d : list A) (f : A -> B) l vs rest,
  zlen d = WIDTH ty -> chunked (WIDTH ty) l vs rest -> zlen rest < WIDTH ty ->
  sized (WIDTH ty) (map (map f) vs)
    (match tail_of d rest with Some (p, n) => Some (map f p, n) | None => None end).
Proof.
  intros A B ty d f l vs rest Hd [Hc _] Hr. split.
  - apply Forall_map. eapply Forall_impl; [|exact Hc]. intros v Hv. cbn. rewrite zlen_map. exact Hv.
  - intros p n Hp. destruct (tail_of d rest) as [[p' n']|] eqn:Et; [|discriminate].
    injection Hp as <- <-. rewrite zlen_map. apply (tail_of_fields ty d Hd rest p' n' Hr Et).
Qed.

Lemma c12_fill_all_partial : forall (A B : Type) (c : config) (ty : vty) (l d : list A)
    (I : Type) (it : SIMDIterator (list B) I) (s : I) (f : A -> B) (d0 : B) (buf : list B) (fuel : nat),
  vty_ok ty -> zlen d = WIDTH ty -> (zlen l + WIDTH ty) * SIZE ty <= isize_max ->
  map_chain c (slice_iterator c ty) (simd_iter l d) B I it s f ->
  (zlen l + WIDTH ty - 1) / WIDTH ty * WIDTH ty <= zlen buf -> (length l < fuel)%nat ->
  exists full rest out s',
    l = full ++ rest /\ zlen rest < WIDTH ty /\ zlen full mod WIDTH ty = 0 /\
    scalar_fill_all c it d0 fuel s buf = Ok (out ++ skipn (length out) buf, s') /\
    zlen out = (zlen l + WIDTH ty - 1) / WIDTH ty * WIDTH ty /\
    out = map f full ++ match rest with [] => [] | _ => map f (right_aligned d rest) end.
Proof.
  intros A B c ty l d I it s f d0 buf fuel Hty Hd Hcap Hch Hbuf Hf.
  pose proof (vty_ok_facts _ Hty) as (H1 & H2 & H3 & H4 & H5 & H6).
  assert (Hl : slice_ok ty l) by (unfold slice_ok; nia).
  destruct (chain_shape A c ty l d Hty Hl Hd Hcap B I it s f Hch) as (vs & rest & s' & Hc & Hchk & Hr & Hw & Hs).
  pose proof (shape_sized A B ty d f l vs rest Hd Hchk Hr) as Hsz.
  pose proof (chunked_length ty l Hty vs rest Hchk) as Hcl.
  destruct Hchk as [Hc1 Hc2].
  pose proof (concat_zlen _ _ Hc1) as Hcz.
  set (out := concat (visited (map (map f) vs)
    (match tail_of d rest with Some (p, n) => Some (map f p, n) | None => None end))).
  assert (Hout : out = map f (concat vs) ++ match rest with [] => [] | _ => map f (right_aligned d rest) end).
  { unfold out, visited. rewrite concat_app, concat_map. f_equal. unfold tail_of.
    destruct rest; cbn; rewrite ?app_nil_r; reflexivity. }
  assert (Hzo : zlen out = (zlen l + WIDTH ty - 1) / WIDTH ty * WIDTH ty).
  { rewrite Hout, zlen_app, zlen_map, Hcz.
    apply (f_equal zlen) in Hc2. rewrite zlen_app, Hcz in Hc2.
    destruct rest as [|x r].
    - pose proof (@zlen_nil A). pose proof (@zlen_nil B).
      rewrite <- Hc2. replace ((_ + _ - 1) / WIDTH ty) with (zlen vs); [lia|].
      apply Z.div_unique with (WIDTH ty - 1); lia.
    - rewrite zlen_map, (right_aligned_len d (x :: r)) by lia. rewrite zlen_cons in *. pose proof (zlen_nonneg r).
      replace ((zlen l + WIDTH ty - 1) / WIDTH ty) with (zlen vs + 1); [lia|].
      apply Z.div_unique with (zlen r); lia. }
  exists (concat vs), rest, out, s'. split; [symmetry; exact Hc2|]. split; [exact Hr|].
  split. { rewrite Hcz, Z.mul_comm. apply Z.mod_mul. lia. }
  split; [|split; [exact Hzo|exact Hout]].
  unfold scalar_fill_all. rewrite (fill_all_complete c it d0 (fun x => x) s _ _ s' fuel buf Hc).
  - rewrite map_id. reflexivity.
  - rewrite Hw. exact Hsz.
  - rewrite map_length. lia.
  - fold out. lia.
Qed.

Lemma fill_all_too_short : forall (A X I : Type) (c : config) (it : SIMDIterator (list A) I) d0 (inj : A -> X) s vs t s',
  emits it s vs t s' -> 0 < wd it < usize_mod -> Forall (fun v => zlen v = wd it) vs ->
  (forall p n, t = Some (p, n) -> zlen p = wd it) ->
  forall fuel (buf : list X), (length vs < fuel)%nat -> wd it * (zlen vs + 1) < usize_mod ->
  zlen buf < zlen (concat (visited vs t)) ->
  fill_all c it d0 inj fuel s buf = match build c with Debug => Panic | Release => UB end.
Proof.
  intros A X I c it d0 inj s vs t s' He HW Hv Ht fuel buf Hf Hsm Hshort.
  unfold fill_all. generalize (splat (wd it) d0) as lastvec. intros lastvec.
  assert (Hgen : forall buf off fuel lastvec, (length vs < fuel)%nat -> 0 <= off <= zlen buf ->
    off + wd it * (zlen vs + 1) < usize_mod ->
    zlen buf < off + zlen (concat (visited vs t)) ->
    (let! q := store_loop c it inj fuel s buf off lastvec in
     match q with
     | (s1, buf1, offset, _) =>
       let! r := it_end it s1 in
       match r with
       | (Some (vec, _), s2) =>
         let! buf2 := store_unchecked c (wd it) (map inj vec) buf1 offset in Ok (buf2, s2)
       | (None, s2) => Ok (buf1, s2)
       end
     end) = match build c with Debug => Panic | Release => UB end).
  { clear buf fuel lastvec Hf Hsm Hshort.
    induction He as [s s1 t s2 Hx He|s v s1 vs t s2 Hx He IH];
      intros buf off fuel lastvec Hf Ho Hsm Hs; (destruct fuel as [|fuel]; [cbn in Hf; lia|]);
      cbn [store_loop]; rewrite Hx; cbn [bind].
    - rewrite He. cbn [bind]. unfold visited in Hs. rewrite app_nil_l in Hs.
      destruct t as [[p n]|].
      + cbn [concat] in Hs. rewrite app_nil_r, (Ht p n eq_refl) in Hs. unfold store_unchecked.
        replace (zlen buf <? off) with false by lia.
        replace (wd it <=? zlen buf - off) with false by lia. destruct (build c); reflexivity.
      + cbn [concat] in Hs. pose proof (@zlen_nil A). lia.
    - inversion Hv as [|? ? Hv1 Hv2]; subst. rewrite zlen_cons in Hsm. pose proof (zlen_nonneg vs).
      unfold store_unchecked at 1. replace (zlen buf <? off) with false by lia.
      destruct (wd it <=? zlen buf - off) eqn:E.
      2:{ destruct (build c); reflexivity. }
      cbn [bind]. rewrite uadd_ok by nia. cbn [bind]. cbn [length] in Hf.
      apply IH; try assumption; try lia; try nia.
      + rewrite zlen_upd; [lia|lia|]. rewrite zlen_map. lia.
      + rewrite zlen_upd; [|lia|rewrite zlen_map; lia].
        unfold visited in *. cbn [app concat] in Hs. rewrite zlen_app, Hv1 in Hs. lia. }
  apply Hgen; try lia. pose proof (zlen_nonneg buf). lia.
Qed.

Lemma chain_len : forall (A B : Type) (c : config) (ty : vty) (l d : list A)
    (I : Type) (it : SIMDIterator (list B) I) (s : I) (f : A -> B), 0 < WIDTH ty ->
  map_chain c (slice_iterator c ty) (simd_iter l d) B I it s f -> it_len (itb it) s = Ok (zlen l / WIDTH ty).
Proof.
  intros A B c ty l d I it s f H1 Hch. induction Hch as [|B I it s f B' E out_ty d1 func e g Hch IH Hout Hw Hs Hg].
  - cbn. apply udiv_ok. lia.
  - cbn. exact IH.
Qed.

Lemma visited_len : forall (A B : Type) (ty : vty) (l d : list A) vs rest (f : A -> B),
  vty_ok ty -> zlen d = WIDTH ty -> chunked (WIDTH ty) l vs rest -> zlen rest < WIDTH ty ->
  zlen (concat (visited (map (map f) vs) (match tail_of d rest with Some (p, n) => Some (map f p, n) | None => None end))) =
  (zlen l + WIDTH ty - 1) / WIDTH ty * WIDTH ty.
Proof.
  intros A B ty l d vs rest f Hty Hd Hchk Hr.
  pose proof (vty_ok_facts _ Hty) as (H1 & H2 & H3 & H4 & H5 & H6).
  pose proof (shape_sized A B ty d f l vs rest Hd Hchk Hr) as Hsz.
  unfold visited. rewrite concat_app, zlen_app, (concat_zlen (WIDTH ty)) by apply Hsz. rewrite zlen_map.
  assert (Hz : zlen l = WIDTH ty * zlen vs + zlen rest).
  { destruct Hchk as [Hc1 Hc2]. rewrite <- Hc2, zlen_app, (concat_zlen (WIDTH ty)) by exact Hc1. reflexivity. }
  destruct rest as [|x r].
  - cbn [tail_of concat]. rewrite zlen_nil in Hz.
    assert (E : (zlen l + WIDTH ty - 1) / WIDTH ty = zlen vs) by (symmetry; apply Z.div_unique with (WIDTH ty - 1); lia).
    rewrite E, zlen_nil. ring.
  - cbn [tail_of concat]. rewrite app_nil_r, zlen_map, right_aligned_len by lia.
    rewrite zlen_cons in Hz, Hr. pose proof (zlen_nonneg r).
    assert (E : (zlen l + WIDTH ty - 1) / WIDTH ty = zlen vs + 1) by (symmetry; apply Z.div_unique with (zlen r); lia).
    rewrite E, Hd. ring.
Qed.

Lemma c11_short_fill_all_refuted : forall (A B : Type) (c : config) (ty : vty) (l d : list A)
    (I : Type) (it : SIMDIterator (list B) I) (s : I) (f : A -> B) (d0 : B) (buf : list B) (fuel : nat),
  vty_ok ty -> zlen d = WIDTH ty -> (zlen l + WIDTH ty) * SIZE ty <= isize_max ->
  map_chain c (slice_iterator c ty) (simd_iter l d) B I it s f ->
  zlen buf < (zlen l + WIDTH ty - 1) / WIDTH ty * WIDTH ty -> (length l < fuel)%nat ->
  scalar_fill_all c it d0 fuel s buf = match build c with Debug => Panic | Release => UB end.
Proof.
  intros A B c ty l d I it s f d0 buf fuel Hty Hd Hcap Hch Hbuf Hf.
  pose proof (vty_ok_facts _ Hty) as (H1 & H2 & H3 & H4 & H5 & H6).
  assert (Hl : slice_ok ty l) by (unfold slice_ok; nia).
  destruct (chain_shape A c ty l d Hty Hl Hd Hcap B I it s f Hch) as (vs & rest & s' & Hc & Hchk & Hr & Hw & Hs).
  pose proof (chunked_length ty l Hty vs rest Hchk) as Hcl. pose proof usize_mod_val as Hum.
  pose proof (shape_sized A B ty d f l vs rest Hd Hchk Hr) as Hsz.
  pose proof (small_store _ _ _ _ _ Hc) as Hsm.
  unfold scalar_fill_all. apply (fill_all_too_short _ _ _ c it d0 (fun x => x) s _ _ s' (cp_emits _ _ _ _ _ Hc)); rewrite ?Hw.
  - lia.
  - apply Hsz.
  - apply Hsz.
  - rewrite map_length. lia.
  - rewrite Hw in Hsm. exact Hsm.
  - rewrite (visited_len A B ty l d vs rest f Hty Hd Hchk Hr). exact Hbuf.
Qed.

Lemma c12_collect_all_refuted : forall (A B : Type) (c : config) (ty : vty) (l d : list A)
    (I : Type) (it : SIMDIterator (list B) I) (s : I) (f : A -> B) (d0 : B) (fuel : nat),
  vty_ok ty -> zlen d = WIDTH ty -> (zlen l + WIDTH ty) * SIZE ty <= isize_max ->
  map_chain c (slice_iterator c ty) (simd_iter l d) B I it s f ->
  l <> [] -> (length l < fuel)%nat ->
  scalar_collect_all c it d0 fuel s = match build c with Debug => Panic | Release => UB end.
Proof.
  intros A B c ty l d I it s f d0 fuel Hty Hd Hcap Hch Hne Hf.
  pose proof (vty_ok_facts _ Hty) as (H1 & H2 & H3 & H4 & H5 & H6).
  assert (Hl : slice_ok ty l) by (unfold slice_ok; nia).
  assert (Hl1 : 1 <= zlen l) by (destruct l; [congruence|rewrite zlen_cons; pose proof (zlen_nonneg l); lia]).
  destruct (chain_shape A c ty l d Hty Hl Hd Hcap B I it s f Hch) as (vs & rest & s' & Hc & Hchk & Hr & Hw & Hs).
  pose proof (chunked_length ty l Hty vs rest Hchk) as Hcl. pose proof usize_mod_val as Hum.
  pose proof (chunked_count ty l vs rest Hchk Hr) as Hcnt.
  pose proof (shape_sized A B ty d f l vs rest Hd Hchk Hr) as Hsz.
  pose proof (small_store _ _ _ _ _ Hc) as Hsm. pose proof (zlen_nonneg vs) as Hv0.
  assert (Hle : zlen vs * WIDTH ty <= zlen l) by (rewrite Hcnt; clear -H1 Hl1; nia).
  assert (Hbytes : (zlen vs + 1) * WIDTH ty * SIZE ty <= isize_max) by (unfold isize_max in *; nia).
  unfold scalar_collect_all. rewrite (chain_len A B c ty l d I it s f ltac:(lia) Hch), <- Hcnt. cbn [bind].
  unfold isize_max in *. rewrite uadd_ok by nia. cbn [bind]. rewrite Hw.
  rewrite umul_ok by nia. cbn [bind]. unfold with_capacity. rewrite Hs. unfold isize_max.
  replace ((zlen vs + 1) * WIDTH ty * SIZE ty <=? 2 ^ 63 - 1) with true by lia. cbn [bind].
  unfold set_len. rewrite zlen_repeat. replace (zlen vs <=? Z.of_nat (Z.to_nat ((zlen vs + 1) * WIDTH ty))) with true by nia.
  cbn [bind].
  apply (fill_all_too_short _ _ _ c it d0 Some s _ _ s' (cp_emits _ _ _ _ _ Hc)); rewrite ?Hw.
  - lia.
  - apply Hsz.
  - apply Hsz.
  - rewrite map_length. lia.
  - rewrite Hw in Hsm. exact Hsm.
  - rewrite (visited_len A B ty l d vs rest f Hty Hd Hchk Hr). rewrite zlen_firstn, zlen_repeat.
    assert (Hw2 : 2 <= WIDTH ty).
    { destruct Hty as [Ha Hb]. cbn in Ha, Hb. nia. }
    clear -Hw2 Hcnt Hl1 Hv0. pose proof (Z.div_mod (zlen l) (WIDTH ty) ltac:(lia)).
    assert (zlen l / WIDTH ty < zlen l) by (apply Z.div_lt; lia).
    assert (zlen l <= (zlen l + WIDTH ty - 1) / WIDTH ty * WIDTH ty).
    { pose proof (Z.mod_pos_bound (zlen l + WIDTH ty - 1) (WIDTH ty) ltac:(lia)).
      pose proof (Z.div_mod (zlen l + WIDTH ty - 1) (WIDTH ty) ltac:(lia)). lia. }
    lia.
Qed.

Lemma c13_for_each : forall (A E : Type) (c : config) (ty : vty) (l d : list A)
    (func : E -> list A -> list A * E) (e : E) (d0 : A) (fuel : nat),
  vty_ok ty -> slice_ok ty l -> zlen d = WIDTH ty ->
  (forall e v, zlen v = WIDTH ty -> zlen (fst (func e v)) = WIDTH ty) -> (length l < fuel)%nat ->
  exists vs rest,
    chunked (WIDTH ty) l vs rest /\ zlen rest < WIDTH ty /\
    let (ys, e1) := run_closure func e vs in
    let tail := match rest with
                | [] => []
                | _ => skipn (Z.to_nat (WIDTH ty - zlen rest)) (fst (func e1 (right_aligned d rest)))
                end in
    let e2 := match rest with [] => e1 | _ => snd (func e1 (right_aligned d rest)) end in
    simd_for_each c ty d0 func fuel (simd_iter l d) e =
      Ok (mkSIMDIter (zlen l) (concat ys ++ tail) d, e2) /\
    zlen (concat ys ++ tail) = zlen l.
Proof.
  intros A E c ty l d func e d0 fuel Hty Hl Hd Hfunc Hf.
  pose proof (vty_ok_facts _ Hty) as (H1 & _).
  pose proof (slice_small ty l Hty Hl) as Hm. pose proof (zlen_nonneg l).
  destruct (slice_emits c ty l d Hty Hl Hd 0 ltac:(lia) ltac:(lia)) as (vs & rest & _ & Hc & Hr).
  cbn [Z.to_nat skipn] in Hc. exists vs, rest. split; [exact Hc|]. split; [exact Hr|].
  pose proof (chunked_length ty l Hty vs rest Hc) as Hcl.
  pose proof (simd_for_each_ok c ty d0 func Hty Hfunc [] d l vs rest e fuel Hc Hr Hd Hm (or_introl eq_refl) ltac:(lia)) as H0.
  pose proof (run_closure_Forall func (fun v => zlen v = WIDTH ty) (fun v => zlen v = WIDTH ty) vs Hfunc (proj1 Hc) e) as Hys.
  pose proof (run_closure_length func vs e) as Hyl.
  destruct (run_closure func e vs) as [ys e1]. cbn [app fst snd] in *.
  change (zlen (@nil A)) with 0 in H0. unfold simd_iter. rewrite H0.
  destruct Hc as [Hc1 Hc2]. apply (f_equal zlen) in Hc2. rewrite zlen_app, (concat_zlen _ _ Hc1) in Hc2.
  cbv zeta. unfold tail_of, unfilled. rewrite Hd. destruct rest as [|x r].
  - rewrite app_nil_r. split; [reflexivity|]. rewrite (concat_zlen _ _ Hys). pose proof (@zlen_nil A).
    unfold zlen in *. rewrite Hyl. lia.
  - split; [reflexivity|]. rewrite zlen_app, (concat_zlen _ _ Hys), zlen_skipn, Hfunc.
    + unfold zlen in *. rewrite Hyl. lia.
    + rewrite right_aligned_len; lia.
Qed.

Lemma c13_for_each_lanes : forall (A E : Type) (c : config) (ty : vty) (l d : list A)
    (func : E -> list A -> list A * E) (f : A -> A) (e : E) (d0 : A) (fuel : nat),
  vty_ok ty -> slice_ok ty l -> zlen d = WIDTH ty ->
  (forall e v, fst (func e v) = map f v) -> (length l < fuel)%nat ->
  exists e', simd_for_each c ty d0 func fuel (simd_iter l d) e =
    Ok (mkSIMDIter (zlen l) (map f l) d, e').
Proof.
  intros A E c ty l d func f e d0 fuel Hty Hl Hd Hfunc Hf.
  destruct (c13_for_each A E c ty l d func e d0 fuel Hty Hl Hd) as (vs & rest & Hc & Hr & H).
  { intros e0 v Hv. rewrite Hfunc, zlen_map. exact Hv. }
  { exact Hf. }
  pose proof (lanewise_results _ _ _ f func Hfunc vs e) as Hl1.
  destruct (run_closure func e vs) as [ys e1]. cbn [fst] in Hl1. subst ys. cbv zeta in H.
  destruct H as [H _]. eexists. rewrite H. do 3 f_equal.
  destruct Hc as [Hc1 Hc2]. rewrite <- Hc2 at 1. rewrite map_app, concat_map. f_equal.
  destruct rest as [|x r]; [reflexivity|]. rewrite Hfunc.
  rewrite skipn_map. f_equal. rewrite <- Hd. apply right_aligned_skipn. lia.
Qed.

Lemma c14_for_each_from_partial : forall (A E : Type) (c : config) (ty : vty) (l d : list A) (k : Z)
    (func : E -> list A -> list A * E) (f : A -> A) (e : E) (d0 : A) (fuel : nat),
  vty_ok ty -> slice_ok ty l -> zlen d = WIDTH ty ->
  (forall e v, fst (func e v) = map f v) -> (length l < fuel)%nat ->
  0 <= k <= zlen l -> (k = 0 \/ k + WIDTH ty <= zlen l \/ k = zlen l) ->
  exists e', simd_for_each c ty d0 func fuel (mkSIMDIter k l d) e =
    Ok (mkSIMDIter (zlen l) (firstn (Z.to_nat k) l ++ map f (skipn (Z.to_nat k) l)) d, e').
Proof.
  intros A E c ty l d k func f e d0 fuel Hty Hl Hd Hfunc Hf Hk Hcase.
  pose proof (vty_ok_facts _ Hty) as (H1 & _).
  pose proof (slice_small ty l Hty Hl) as Hm.
  assert (Hl2 : slice_ok ty (skipn (Z.to_nat k) l)).
  { unfold slice_ok in *. rewrite zlen_skipn. pose proof (vty_ok_facts _ Hty) as (_ & _ & ? & _).
    pose proof (zlen_nonneg l). nia. }
  destruct (slice_emits c ty (skipn (Z.to_nat k) l) d Hty Hl2 Hd 0) as (vs & rest & _ & Hc & Hr).
  { rewrite zlen_skipn. lia. } { left; reflexivity. }
  cbn [Z.to_nat skipn] in Hc.
  assert (Hpre : zlen (firstn (Z.to_nat k) l) = k) by (rewrite zlen_firstn; lia).
  pose proof (chunked_length ty _ Hty vs rest Hc) as Hcl. rewrite skipn_length in Hcl.
  pose proof (simd_for_each_ok c ty d0 func Hty
    ltac:(intros e0 v Hv; rewrite Hfunc, zlen_map; exact Hv)
    (firstn (Z.to_nat k) l) d (skipn (Z.to_nat k) l) vs rest e fuel Hc Hr Hd) as H0.
  rewrite firstn_skipn, Hpre in H0.
  destruct Hc as [Hc1 Hc2].
  assert (Hz : zlen (concat vs) + zlen rest = zlen l - k).
  { rewrite <- zlen_app, Hc2, zlen_skipn. lia. }
  specialize (H0 ltac:(rewrite zlen_skipn; lia)).
  rewrite H0; clear H0; [|clear -Hcase Hk Hpre Hr Hz H1|lia].
  - rewrite (lanewise_results _ _ _ f func Hfunc vs e). cbv zeta.
    assert (Hmap : map f (skipn (Z.to_nat k) l) = concat (map (map f) vs) ++ map f rest)
      by (rewrite <- Hc2, map_app, concat_map; reflexivity).
    rewrite Hmap. unfold tail_of, unfilled. destruct rest as [|x r].
    + eexists. rewrite app_nil_r. reflexivity.
    + eexists. rewrite Hfunc, skipn_map.
      pose proof (right_aligned_skipn d (x :: r) ltac:(lia)) as Hs. unfold unfilled in Hs. rewrite Hs. reflexivity.
  - destruct vs as [|v vs]; [|right; left; discriminate]. cbn in Hz. change (zlen (@nil A)) with 0 in Hz.
    destruct Hcase as [-> | [Hw | ->]].
    + left. reflexivity.
    + lia.
    + right. right. apply zlen_zero. lia.
Qed.

Lemma c14_for_each_from_refuted : forall (A E : Type) (c : config) (ty : vty) (l d : list A) (k : Z)
    (func : E -> list A -> list A * E) (f : A -> A) (e : E) (d0 : A) (fuel : nat),
  vty_ok ty -> slice_ok ty l -> zlen d = WIDTH ty ->
  (forall e v, fst (func e v) = map f v) -> (length l < fuel)%nat ->
  WIDTH ty <= k < zlen l -> zlen l < k + WIDTH ty ->
  exists e', simd_for_each c ty d0 func fuel (mkSIMDIter k l d) e =
    Ok (mkSIMDIter (zlen l)
          (firstn (Z.to_nat (k - WIDTH ty)) l ++ repeat d0 (Z.to_nat (WIDTH ty)) ++
           map f (skipn (Z.to_nat k) l)) d, e').
Proof.
  intros A E c ty l d k func f e d0 fuel Hty Hl Hd Hfunc Hf Hk Hw.
  pose proof (vty_ok_facts _ Hty) as (H1 & H2 & H3 & H4 & H5 & H6).
  pose proof (slice_small ty l Hty Hl) as Hm. unfold max_len in Hm. pose proof usize_mod_val as Hum.
  pose proof (slice_stepping c ty l d Hty Hl Hd) as Hst.
  destruct fuel as [|fuel]; [lia|]. unfold simd_for_each. cbn [for_each_loop].
  change (it_next (itb (slice_iterator c ty))) with (si_next (A := A) c (slice_array c ty)).
  rewrite (next_any_position c ty Hty l d k Hl ltac:(lia)).
  replace (k + WIDTH ty <=? zlen l) with false by lia.
  replace (k + WIDTH ty <? usize_mod) with true by lia. cbn [bind].
  cbn [itb slice_iterator blanket_iterator it_scalar_pos si_iterable bind si_position].
  destruct (blanket_end_ok c _ _ l d _ Hst (mkSIMDIter k l d) k) as (s1 & He & [-> _]);
    [split; [reflexivity|lia]|unfold tail_ready; cbn; lia|cbn; lia|].
  cbn [it_end slice_iterator blanket_iterator]. rewrite He. cbn [bind]. unfold tail_of, unfilled, right_aligned.
  set (rest := skipn (Z.to_nat k) l).
  assert (Hrest : zlen rest = zlen l - k) by (unfold rest; rewrite zlen_skipn; lia).
  destruct rest as [|x r] eqn:Er; [change (zlen (@nil A)) with 0 in Hrest; lia|]. rewrite <- Er in *.
  set (p := firstn (length d - length rest) d ++ rest).
  assert (Hp : zlen p = WIDTH ty).
  { unfold p. rewrite zlen_app, zlen_firstn. unfold zlen in *. lia. }
  pose proof (Hfunc e p) as Hfp. destruct (func e p) as [p' e2]. cbn [fst] in Hfp. subst p'.
  cbn [it_scalar_len si_iterable arr_scalar_len slice_array si_data bind].
  replace (WIDTH ty <? zlen l) with true by lia. rewrite Hd, Hrest.
  set (n := WIDTH ty - (zlen l - k)).
  rewrite usub_ok by lia. cbn [bind]. rewrite store_unchecked_ok by lia. cbn [bind].
  rewrite usub_ok by lia. cbn [bind].
  set (a := firstn (Z.to_nat (k - WIDTH ty)) l).
  set (m1 := sub l (k - WIDTH ty) (WIDTH ty - n)).
  set (m2 := sub l (k - n) n).
  assert (Hsplit : l = a ++ m1 ++ m2 ++ rest).
  { unfold a, m1, m2, rest. rewrite <- (firstn_skipn (Z.to_nat (k - WIDTH ty)) l) at 1. f_equal.
    rewrite <- (sub_skipn l (k - WIDTH ty) (WIDTH ty - n)) by lia. f_equal.
    replace (k - WIDTH ty + (WIDTH ty - n)) with (k - n) by lia.
    rewrite <- (sub_skipn l (k - n) n) by lia. f_equal. f_equal. lia. }
  assert (Ha : zlen a = k - WIDTH ty) by (unfold a; rewrite zlen_firstn; lia).
  assert (Hm1 : zlen m1 = WIDTH ty - n) by (unfold m1; apply zlen_sub; lia).
  assert (Hm2 : zlen m2 = n) by (unfold m2; apply zlen_sub; lia).
  assert (E1 : upd l (k - n) (map f p) = (a ++ m1) ++ map f p).
  { rewrite Hsplit at 1. rewrite (app_assoc a m1), <- (app_nil_r (m2 ++ rest)).
    rewrite upd_app; [rewrite app_nil_r; reflexivity|rewrite zlen_app; lia|].
    rewrite map_length, app_length. unfold zlen in *. lia. }
  rewrite E1.
  assert (E2 : (a ++ m1) ++ map f p =
    a ++ (m1 ++ map f (firstn (length d - length rest) d)) ++ map f rest).
  { unfold p. rewrite map_app, <- !app_assoc. reflexivity. }
  rewrite E2. rewrite store_unchecked_ok; [|lia| |lia].
  2:{ rewrite !zlen_app, !zlen_map, zlen_firstn. unfold zlen in *. lia. }
  cbn [bind]. rewrite upd_app; [|exact Ha|].
  2:{ unfold splat. rewrite repeat_length, app_length, map_length, firstn_length. unfold zlen in *. lia. }
  eexists. reflexivity.
Qed.

Lemma c14_for_each_short_refuted : forall (A E : Type) (c : config) (ty : vty) (l d : list A) (k : Z)
    (func : E -> list A -> list A * E) (e : E) (d0 : A) (fuel : nat),
  vty_ok ty -> slice_ok ty l -> zlen d = WIDTH ty ->
  (forall e v, zlen v = WIDTH ty -> zlen (fst (func e v)) = WIDTH ty) -> (length l < fuel)%nat ->
  0 < k < WIDTH ty -> k < zlen l < k + WIDTH ty ->
  simd_for_each c ty d0 func fuel (mkSIMDIter k l d) e =
  if WIDTH ty <? zlen l then Panic else match build c with Debug => Panic | Release => UB end.
Proof.
  intros A E c ty l d k func e d0 fuel Hty Hl Hd Hfunc Hf Hk Hw.
  pose proof (vty_ok_facts _ Hty) as (H1 & H2 & H3 & H4 & H5 & H6).
  pose proof (slice_small ty l Hty Hl) as Hm. unfold max_len in Hm. pose proof usize_mod_val as Hum.
  pose proof (slice_stepping c ty l d Hty Hl Hd) as Hst.
  destruct fuel as [|fuel]; [lia|]. unfold simd_for_each. cbn [for_each_loop].
  change (it_next (itb (slice_iterator c ty))) with (si_next (A := A) c (slice_array c ty)).
  rewrite (next_any_position c ty Hty l d k Hl ltac:(lia)).
  replace (k + WIDTH ty <=? zlen l) with false by lia.
  replace (k + WIDTH ty <? usize_mod) with true by lia. cbn [bind].
  change (it_scalar_pos (itb (slice_iterator c ty)) (mkSIMDIter k l d)) with (Ok k). cbn [bind].
  destruct (WIDTH ty <? zlen l) eqn:EW.
  2:{ rewrite (c51_short_partly_consumed_refuted A c ty l d k Hty Hl Hd ltac:(lia) ltac:(lia)). destruct (build c); reflexivity. }
  destruct (blanket_end_ok c _ _ l d _ Hst (mkSIMDIter k l d) k) as (s1 & He & [-> _]);
    [split; [reflexivity|lia]|unfold tail_ready; cbn; lia|cbn; lia|].
  cbn [it_end slice_iterator blanket_iterator]. rewrite He. cbn [bind]. unfold tail_of, unfilled.
  set (rest := skipn (Z.to_nat k) l).
  assert (Hrest : zlen rest = zlen l - k) by (unfold rest; rewrite zlen_skipn; lia).
  destruct rest as [|x r] eqn:Er; [change (zlen (@nil A)) with 0 in Hrest; lia|]. rewrite <- Er in *.
  pose proof (Hfunc e (right_aligned d rest)) as Hfp. rewrite right_aligned_len in Hfp by lia. specialize (Hfp Hd).
  destruct (func e (right_aligned d rest)) as [p' e2]. cbn [fst] in Hfp.
  cbn [itb slice_iterator blanket_iterator it_scalar_len si_iterable arr_scalar_len slice_array si_data bind]. rewrite EW, Hd, Hrest.
  rewrite usub_ok by lia. cbn [bind]. rewrite store_unchecked_ok by lia. cbn [bind].
  unfold usub, uarith. replace (0 <=? k - WIDTH ty) with false by lia. cbn [andb].
  destruct (build c); [reflexivity|]. cbn [bind]. unfold store_unchecked.
  rewrite zlen_upd by lia. assert (Hmod : (k - WIDTH ty) mod usize_mod = k - WIDTH ty + usize_mod) by (symmetry; apply Z.mod_unique with (-1); lia).
  rewrite Hmod. replace (zlen l <? k - WIDTH ty + usize_mod) with true by lia. reflexivity.
Qed.

Lemma c17_len_fresh_partial : forall (A B : Type) (c : config) (ty : vty) (l d : list A)
    (I : Type) (it : SIMDIterator (list B) I) (s : I) (f : A -> B) (fuel : nat),
  vty_ok ty -> zlen d = WIDTH ty -> (zlen l + WIDTH ty) * SIZE ty <= isize_max ->
  map_chain c (slice_iterator c ty) (simd_iter l d) B I it s f -> (length l < fuel)%nat ->
  exists vs s', drain_next it fuel s = Ok (vs, s') /\ it_len (itb it) s = Ok (zlen vs).
Proof.
  intros A B c ty l d I it s f fuel Hty Hd Hcap Hch Hf.
  pose proof (vty_ok_facts _ Hty) as (H1 & H2 & H3 & H4 & H5 & H6).
  assert (Hl : slice_ok ty l) by (unfold slice_ok; nia).
  destruct (chain_shape A c ty l d Hty Hl Hd Hcap B I it s f Hch) as (vs & rest & s' & Hc & Hchk & Hr & Hw & Hs).
  pose proof (chunked_length ty l Hty vs rest Hchk) as Hcl.
  destruct (emits_nexts _ _ _ _ _ (cp_emits _ _ _ _ _ Hc)) as (s1 & Hn & _).
  exists (map (map f) vs), s1. split.
  - assert (Hfu : (length (map (map f) vs) < fuel)%nat) by (rewrite map_length; lia). clear -Hn Hfu.
    revert fuel Hfu. induction Hn as [s s1 Hx|s v s1 vs' s2 Hx Hn IH]; intros fuel Hfu;
      (destruct fuel as [|fuel]; [cbn in Hfu; lia|]); cbn [drain_next]; rewrite Hx; cbn [bind]; [reflexivity|].
    rewrite (IH fuel) by (cbn in Hfu; lia). reflexivity.
  - rewrite zlen_map. rewrite (chunked_count ty l vs rest Hchk Hr).
    clear -Hch H1. induction Hch as [|B I it s f B' E out_ty d1 func e g Hch IH Hout Hw Hs Hg].
    + cbn. apply udiv_ok. lia.
    + cbn. exact IH.
Qed.

Lemma c17_len_refuted : forall (A : Type) (c : config) (ty : vty) (l d : list A) (k : Z) (fuel : nat),
  vty_ok ty -> slice_ok ty l -> zlen d = WIDTH ty -> WIDTH ty <= k <= zlen l -> (length l < fuel)%nat ->
  exists vs s' n, drain_next (slice_iterator c ty) fuel (mkSIMDIter k l d) = Ok (vs, s') /\
    it_len (itb (slice_iterator c ty)) (mkSIMDIter k l d) = Ok n /\ zlen vs < n.
Proof.
  intros A c ty l d k fuel Hty Hl Hd Hk Hf.
  pose proof (vty_ok_facts _ Hty) as (H1 & H2 & H3 & H4 & H5 & H6).
  destruct (slice_emits c ty l d Hty Hl Hd k ltac:(lia) ltac:(lia)) as (vs & rest & He & Hc & Hr).
  pose proof (chunked_length ty _ Hty vs rest Hc) as Hcl. rewrite skipn_length in Hcl.
  pose proof (chunked_count ty _ vs rest Hc Hr) as Hcnt. rewrite zlen_skipn in Hcnt.
  destruct (emits_nexts _ _ _ _ _ He) as (s1 & Hn & _).
  exists vs, s1, (zlen l / WIDTH ty). split; [|split].
  - assert (Hfu : (length vs < fuel)%nat) by lia. clear -Hn Hfu.
    revert fuel Hfu. induction Hn as [s s1 Hx|s v s1 vs' s2 Hx Hn IH]; intros fuel Hfu;
      (destruct fuel as [|fuel]; [cbn in Hfu; lia|]); cbn [drain_next]; rewrite Hx; cbn [bind]; [reflexivity|].
    rewrite (IH fuel) by (cbn in Hfu; lia). reflexivity.
  - cbn. apply udiv_ok. lia.
  - rewrite Hcnt. replace (Z.max 0 (zlen l - Z.of_nat (Z.to_nat k))) with (zlen l - k) by lia.
    assert (zlen l / WIDTH ty = (zlen l - WIDTH ty) / WIDTH ty + 1).
    { replace (zlen l) with ((zlen l - WIDTH ty) + 1 * WIDTH ty) at 1 by lia. apply Z.div_add. lia. }
    assert ((zlen l - k) / WIDTH ty <= (zlen l - WIDTH ty) / WIDTH ty) by (apply Z.div_le_mono; lia). lia.
Qed.

Lemma c18_units_partial : forall (A : Type) (c : config) (ty : vty) (l d : list A) (k : Z),
  vty_ok ty -> slice_ok ty l -> zlen d = WIDTH ty -> 0 <= k <= zlen l ->
  let it := itb (slice_iterator c ty) in let s := mkSIMDIter k l d in
  it_scalar_len it s = Ok (zlen l) /\ it_vector_len it s = Ok (zlen l / WIDTH ty) /\
  it_scalar_pos it s = Ok k /\ it_vector_pos it s = Ok (k / WIDTH ty) /\
  finalize c it s = Ok (mkSIMDIter (zlen l) l d) /\
  it_next it (mkSIMDIter (zlen l) l d) = Ok (None, mkSIMDIter (zlen l) l d).
Proof.
  intros A c ty l d k Hty Hl Hd Hk it s.
  pose proof (vty_ok_facts _ Hty) as (H1 & _).
  pose proof (slice_small ty l Hty Hl) as Hm. unfold max_len in Hm. pose proof usize_mod_val as Hum.
  pose proof (slice_stepping c ty l d Hty Hl Hd) as Hst.
  split; [reflexivity|]. split; [cbn; apply udiv_ok; lia|]. split; [reflexivity|].
  split; [cbn; apply udiv_ok; lia|]. split.
  - subst it s. unfold finalize. cbn [itb slice_iterator blanket_iterator it_scalar_len it_scalar_pos si_iterable
      arr_scalar_len slice_array si_data si_position bind it_advance].
    rewrite usub_ok by lia. cbn [bind]. unfold si_advance. cbn [si_position si_data si_default].
    rewrite uadd_ok by lia. cbn [bind]. do 2 f_equal. lia.
  - apply (next_none_end _ _ _ _ _ Hst). split; [reflexivity|lia].
Qed.

Lemma c18_mapped_positions_partial : forall (A B E : Type) (c : config) (ty out_ty : vty) (l d : list A) (d0 : B)
    (func : E -> list A -> list B * E) (e : E) (k a : Z),
  vty_ok ty -> vty_ok out_ty -> slice_ok ty l -> 0 <= k -> 0 <= a -> k + a <= zlen l ->
  let m := itb (map_iterator c (slice_iterator c ty) out_ty d0 func) in
  let s := mkSIMDMap (mkSIMDIter k l d) e in
  it_scalar_pos m s = Ok k /\ it_vector_pos m s = Ok (k / WIDTH out_ty) /\
  it_advance m s a = Ok (mkSIMDMap (mkSIMDIter (k + a) l d) e).
Proof.
  intros A B E c ty out_ty l d d0 func e k a Hty Hout Hl Hk Ha Hka m s. pose proof (vty_ok_facts _ Hout) as (H1 & _). pose proof (slice_small ty l Hty Hl) as Hm. unfold max_len in Hm. pose proof usize_mod_val as Hum.
  split; [reflexivity|]. split.
  - transitivity (udiv k (WIDTH out_ty)); [reflexivity|]. unfold udiv. replace (WIDTH out_ty =? 0) with false by lia. reflexivity.
  - unfold m, s, map_iterator. cbn [itb sm_iterable it_advance]. unfold sm_advance. cbn [sm_iter sm_env slice_iterator blanket_iterator itb si_iterable it_advance]. unfold si_advance. cbn [si_position si_data si_default]. rewrite uadd_ok by lia. reflexivity.
Qed.

Lemma c18_mapped_refuted : forall (A B E : Type) (c : config) (ty : vty) (l d : list A) (d0 : B)
    (func : E -> list A -> list B * E) (e : E),
  vty_ok ty -> slice_ok ty l -> zlen d = WIDTH ty -> WIDTH ty <= zlen l ->
  let m := map_iterator c (slice_iterator c ty) ty d0 func in
  let s := mkSIMDMap (simd_iter l d) e in
  it_scalar_len (itb m) s = Ok (zlen l / WIDTH ty) /\ zlen l / WIDTH ty < zlen l /\
  exists s', finalize c (itb m) s = Ok s' /\
    (WIDTH ty + zlen l / WIDTH ty <= zlen l ->
     exists v s'', it_next (itb m) s' = Ok (Some v, s'')).
Proof.
  intros A B E c ty l d d0 func e Hty Hl Hd Hw m s.
  pose proof (vty_ok_facts _ Hty) as (H1 & H2 & H3 & H4 & H5 & H6).
  pose proof (slice_small ty l Hty Hl) as Hm. unfold max_len in Hm. pose proof usize_mod_val as Hum.
  assert (Hw2 : 2 <= WIDTH ty).
  { destruct Hty as [Ha Hb]. cbn in Ha, Hb. nia. }
  assert (Hq : 0 <= zlen l / WIDTH ty < zlen l).
  { split; [apply Z.div_pos; lia|apply Z.div_lt; lia]. }
  split; [cbn; apply udiv_ok; lia|]. split; [lia|].
  exists (mkSIMDMap (mkSIMDIter (zlen l / WIDTH ty) l d) e). split.
  - subst m s. unfold finalize. cbn [itb map_iterator sm_iterable it_scalar_len it_scalar_pos sm_iter slice_iterator
      blanket_iterator it_len si_iterable arr_scalar_len slice_array simd_iter si_data si_position arr_ty bind].
    rewrite udiv_ok by lia. cbn [bind]. rewrite usub_ok by lia. cbn [bind it_advance].
    cbn [it_advance sm_iterable]. unfold sm_advance.
    cbn [itb slice_iterator blanket_iterator it_advance si_iterable sm_iter]. unfold simd_iter, si_advance. cbn [si_position si_data si_default].
    rewrite uadd_ok by lia. cbn [bind sm_env].
    replace (0 + (zlen l / WIDTH ty - 0)) with (zlen l / WIDTH ty) by lia. reflexivity.
  - intros Hroom. cbn [m itb map_iterator sm_iterable it_next]. unfold sm_next. cbn [sm_iter].
    change (it_next (itb (slice_iterator c ty))) with (si_next (A := A) c (slice_array c ty)).
    rewrite (next_any_position c ty Hty l d (zlen l / WIDTH ty) Hl ltac:(lia)).
    replace (zlen l / WIDTH ty + WIDTH ty <=? zlen l) with true by lia. cbn [bind sm_env].
    destruct (func e _) as [y e']. eauto.
Qed.

Lemma c19_width_change : forall (A B E : Type) (c : config) (ty out_ty : vty) (l d : list A)
    (func : E -> list A -> list B * E) (e : E) (d0 d1 : B) (fuel : nat),
  vty_ok ty -> vty_ok out_ty -> WIDTH ty * SIZE ty = WIDTH out_ty * SIZE out_ty ->
  zlen d = WIDTH ty -> (zlen l + WIDTH ty) * SIZE ty <= isize_max ->
  (forall e v, zlen v = WIDTH ty -> zlen (fst (func e v)) = WIDTH out_ty) ->
  (length l < fuel)%nat ->
  exists out s',
    scalar_collect c (map_iterator c (slice_iterator c ty) out_ty d0 func) d1 fuel
      (mkSIMDMap (simd_iter l d) e) = Ok (map Some out, s') /\
    zlen out = (zlen l * SIZE ty + SIZE out_ty - 1) / SIZE out_ty /\
    (SIZE out_ty <= SIZE ty -> zlen out = zlen l * (SIZE ty / SIZE out_ty)).
Proof.
  intros A B E c ty out_ty l d func e d0 d1 fuel Hty Hout Hb Hd Hcap Hfunc Hf.
  pose proof (vty_ok_facts _ Hty) as (H1 & H2 & H3 & H4 & H5 & H6).
  pose proof (vty_ok_facts _ Hout) as (O1 & O2 & O3 & O4 & O5 & O6).
  destruct (c09_collect_closure A B E c ty out_ty l d func e d0 d1 fuel Hty Hout Hb Hd Hcap Hfunc Hf)
    as (vs & rest & [Hc1 Hc2] & Hr & H).
  pose proof (run_closure_Forall func (fun v => zlen v = WIDTH ty) (fun v => zlen v = WIDTH out_ty) vs Hfunc Hc1 e) as Hys.
  pose proof (run_closure_length func vs e) as Hyl.
  destruct (run_closure func e vs) as [ys e1]. cbn [fst] in *. cbv zeta in H.
  eexists _, _. split; [exact H|]. clear H.
  apply (f_equal zlen) in Hc2. rewrite zlen_app, (concat_zlen _ _ Hc1) in Hc2.
  assert (Hyz : zlen ys = zlen vs) by (unfold zlen; lia).
  rewrite zlen_app, (concat_zlen _ _ Hys), Hyz. pose proof (zlen_nonneg rest) as Hr0.
  assert (Htail : zlen match rest with
                | [] => []
                | _ => skipn (Z.to_nat ((WIDTH ty - zlen rest) * SIZE ty / SIZE out_ty))
                             (fst (func e1 (right_aligned d rest)))
                end = (zlen rest * SIZE ty + SIZE out_ty - 1) / SIZE out_ty).
  { destruct rest as [|x r].
    - change (zlen (@nil B)) with 0. change (zlen (@nil A)) with 0.
      apply Z.div_unique with (SIZE out_ty - 1); lia.
    - rewrite zlen_skipn, Hfunc by (rewrite right_aligned_len; lia).
      set (R := zlen (x :: r)) in *.
      assert (Hq : (WIDTH ty - R) * SIZE ty / SIZE out_ty = WIDTH out_ty - (R * SIZE ty + SIZE out_ty - 1) / SIZE out_ty).
      { symmetry. pose proof (Z.div_mod (R * SIZE ty + SIZE out_ty - 1) (SIZE out_ty) ltac:(lia)) as Hdm.
        pose proof (Z.mod_pos_bound (R * SIZE ty + SIZE out_ty - 1) (SIZE out_ty) ltac:(lia)) as Hmb.
        apply Z.div_unique with (SIZE out_ty - 1 - (R * SIZE ty + SIZE out_ty - 1) mod SIZE out_ty); [lia|].
        clear -Hdm Hb. nia. }
      assert (Hp1 : 0 <= (WIDTH ty - R) * SIZE ty / SIZE out_ty) by (apply Z.div_pos; [apply Z.mul_nonneg_nonneg; lia|lia]).
      assert (Hp2 : 0 <= (R * SIZE ty + SIZE out_ty - 1) / SIZE out_ty) by (apply Z.div_pos; [assert (0 <= R * SIZE ty) by (apply Z.mul_nonneg_nonneg; lia); lia|lia]).
      rewrite Hq. clear -Hp1 Hp2 Hq. set (X := (R * SIZE ty + SIZE out_ty - 1) / SIZE out_ty) in *. set (Y := (WIDTH ty - R) * SIZE ty / SIZE out_ty) in *. clearbody X Y. lia. }
  rewrite Htail. rewrite <- Hc2.
  assert (Htot : WIDTH out_ty * zlen vs + (zlen rest * SIZE ty + SIZE out_ty - 1) / SIZE out_ty =
    ((WIDTH ty * zlen vs + zlen rest) * SIZE ty + SIZE out_ty - 1) / SIZE out_ty).
  { replace ((WIDTH ty * zlen vs + zlen rest) * SIZE ty + SIZE out_ty - 1)
      with (zlen rest * SIZE ty + SIZE out_ty - 1 + (WIDTH out_ty * zlen vs) * SIZE out_ty).
    - rewrite Z.div_add by lia. lia.
    - replace (WIDTH out_ty * zlen vs * SIZE out_ty) with (zlen vs * (WIDTH out_ty * SIZE out_ty)) by ring.
      rewrite <- Hb. ring. }
  rewrite Htot. split; [reflexivity|]. intros Hle.
  set (N := WIDTH ty * zlen vs + zlen rest).
  assert (Hdiv : SIZE ty = SIZE ty / SIZE out_ty * SIZE out_ty).
  { destruct Hty as [Ha _], Hout as [Hb' _]. cbn in Ha, Hb'.
    destruct Ha as [Ha|[Ha|[Ha|[Ha|[]]]]], Hb' as [Hb'|[Hb'|[Hb'|[Hb'|[]]]]]; rewrite <- Ha, <- Hb' in *;
      try reflexivity; lia. }
  symmetry. apply Z.div_unique with (SIZE out_ty - 1); [lia|]. rewrite Hdiv at 1. ring.
Qed.

Lemma c20_closure_calls : forall (V B I E : Type) (c : config) (it : SIMDIterator V I) (out_ty : vty) (d0 : B)
    (f : E -> V -> list B * E) (h : list iter_op) (s : I) (e : E) ys s' log e',
  run_ops (map_iterator c it out_ty d0 (logged f)) (mkSIMDMap s ([], e)) h =
    Ok (ys, mkSIMDMap s' (log, e')) ->
  exists xs, run_ops it s h = Ok (xs, s') /\ log = items xs /\
    run_closure f e (items xs) = (items ys, e') /\ map handed_out ys = map handed_out xs.
Proof.
  intros V B I E c it out_ty d0 f h.
  assert (Hgen : forall h s log0 e ys s' log e',
    run_ops (map_iterator c it out_ty d0 (logged f)) (mkSIMDMap s (log0, e)) h =
      Ok (ys, mkSIMDMap s' (log, e')) ->
    exists xs, run_ops it s h = Ok (xs, s') /\ log = log0 ++ items xs /\
      run_closure f e (items xs) = (items ys, e') /\ map handed_out ys = map handed_out xs).
  { clear h. induction h as [|o h IH]; intros s log0 e ys s' log e' H.
    - cbn in H. injection H as <- <- <- <-. exists []. cbn. rewrite app_nil_r. auto.
    - cbn [run_ops] in H. destruct o as [| |a].
      + cbn [map_iterator itb sm_iterable it_next] in H. unfold sm_next in H. cbn [sm_iter sm_env] in H.
        cbn [run_ops]. destruct (it_next (itb it) s) as [[[v|] s1]| | |]; cbn [bind] in *; try discriminate.
        * unfold logged in H at 1. cbn [fst snd] in H. destruct (f e v) as [y e1] eqn:Ef. cbn [bind fst snd] in H.
          match type of H with bind ?q _ = _ => destruct q as [[ys1 [s2 [log2 e2]]]| | |] eqn:Eq end; try discriminate.
          cbn [bind fst snd] in H. injection H as <- <- <- <-.
          destruct (IH _ _ _ _ _ _ _ Eq) as (xs & Hx & Hlog & Hrun & Hh).
          exists (Some v :: xs). cbn [fst snd]. rewrite Hx. cbn [bind fst snd]. split; [reflexivity|]. cbn [items].
          split. { rewrite Hlog, <- app_assoc. reflexivity. }
          split. { cbn [run_closure]. rewrite Ef, Hrun. reflexivity. }
          cbn. congruence.
        * match type of H with bind ?q _ = _ => destruct q as [[ys1 [s2 [log2 e2]]]| | |] eqn:Eq end; try discriminate.
          cbn [bind fst snd] in H. injection H as <- <- <- <-. cbn [fst snd] in Eq.
          destruct (IH _ _ _ _ _ _ _ Eq) as (xs & Hx & Hlog & Hrun & Hh).
          exists (None :: xs). cbn [fst snd]. rewrite Hx. cbn. repeat split; try assumption. congruence.
      + cbn [map_iterator it_end] in H. unfold sm_end in H. cbn [sm_iter sm_env] in H.
        cbn [run_ops]. destruct (it_end it s) as [[[[v n]|] s1]| | |]; cbn [bind] in *; try discriminate.
        * destruct (umul c n (SIZE (it_ty (itb it)))); cbn [bind] in H; try discriminate.
          destruct (udiv a (SIZE out_ty)); cbn [bind] in H; try discriminate.
          unfold logged in H at 1. cbn [fst snd] in H. destruct (f e v) as [y e1] eqn:Ef. cbn [bind fst snd] in H.
          match type of H with bind ?q _ = _ => destruct q as [[ys1 [s2 [log2 e2]]]| | |] eqn:Eq end; try discriminate.
          cbn [bind fst snd] in H. injection H as <- <- <- <-.
          destruct (IH _ _ _ _ _ _ _ Eq) as (xs & Hx & Hlog & Hrun & Hh).
          exists (Some v :: xs). cbn [fst snd]. rewrite Hx. cbn [bind fst snd]. split; [reflexivity|]. cbn [items].
          split. { rewrite Hlog, <- app_assoc. reflexivity. }
          split. { cbn [run_closure]. rewrite Ef, Hrun. reflexivity. }
          cbn. congruence.
        * match type of H with bind ?q _ = _ => destruct q as [[ys1 [s2 [log2 e2]]]| | |] eqn:Eq end; try discriminate.
          cbn [bind fst snd] in H. injection H as <- <- <- <-. cbn [fst snd] in Eq.
          destruct (IH _ _ _ _ _ _ _ Eq) as (xs & Hx & Hlog & Hrun & Hh).
          exists (None :: xs). cbn [fst snd]. rewrite Hx. cbn. repeat split; try assumption. congruence.
      + cbn [map_iterator itb sm_iterable it_advance] in H. unfold sm_advance in H. cbn [sm_iter sm_env] in H.
        cbn [run_ops]. destruct (it_advance (itb it) s a) as [s1| | |]; cbn [bind] in *; try discriminate.
        match type of H with bind ?q _ = _ => destruct q as [[ys1 [s2 [log2 e2]]]| | |] eqn:Eq end; try discriminate.
        cbn [bind fst snd] in H. injection H as <- <- <- <-. cbn [fst snd] in Eq.
        destruct (IH _ _ _ _ _ _ _ Eq) as (xs & Hx & Hlog & Hrun & Hh).
        exists (None :: xs). cbn [fst snd]. rewrite Hx. cbn. repeat split; try assumption. congruence. }
  intros s e ys s' log e' H. destruct (Hgen h s [] e ys s' log e' H) as (xs & Hx). exists xs. exact Hx.
Qed.

Lemma unrolled_loop_frame : forall (V I : Type) (it : SIMDIterable V I) n i s scr r, 0 <= i -> i + Z.of_nat n <= zlen scr ->
  unrolled_loop it n i s scr = Ok r ->
  i <= fst (fst r) <= i + Z.of_nat n /\ zlen (snd r) = zlen scr /\
  skipn (Z.to_nat (fst (fst r))) (snd r) = skipn (Z.to_nat (fst (fst r))) scr.
Proof.
  intros V I it. induction n as [|n IH]; intros i s scr r Hi Hn H; cbn in H.
  - injection H as <-. cbn. repeat split; lia.
  - destruct (it_next it s) as [[[v|] s1]| | |]; cbn in H; try discriminate.
    + destruct (i <? zlen scr) eqn:E; [|discriminate].
      assert (Hz : zlen (upd scr i [v]) = zlen scr) by (apply zlen_upd; [lia|cbn; lia]).
      apply IH in H; try lia. destruct H as (Ha & Hb & Hc). split; [lia|]. split; [lia|]. rewrite Hc.
      unfold upd. set (m := Z.to_nat (fst (fst r))). assert (Hm : (Z.to_nat i + 1 <= m)%nat) by lia.
      rewrite skipn_app, skipn_all2 by (rewrite firstn_length; lia). cbn [app].
      rewrite firstn_length. replace (m - Nat.min (Z.to_nat i) (length scr))%nat with (S (m - 1 - Z.to_nat i)) by (unfold zlen in *; lia).
      cbn [skipn length app]. rewrite skipn_skipn. f_equal. lia.
    + injection H as <-. cbn. repeat split; lia.
Qed.

Lemma c52_unrolled_groups_refuted : forall (V I : Type) (it : SIMDIterable V I) u g1 u1 g2 u2,
  0 <= ur_amt u <= zlen (ur_scratch u) ->
  unrolled_next it u = Ok (Some g1, u1) -> unrolled_next it u1 = Ok (Some g2, u2) ->
  group_view u2 (zlen g1) = firstn (length g1) (g2 ++ skipn (length g2) g1) /\
  (hd_error g2 <> hd_error g1 -> group_view u2 (zlen g1) <> g1).
Proof.
  intros V I it u g1 u1 g2 u2 Hamt H1 H2. unfold unrolled_next in H1, H2.
  destruct (unrolled_loop it (Z.to_nat (ur_amt u)) 0 (ur_iter u) (ur_scratch u)) as [[[i1 s1] scr1]| | |] eqn:E1;
    cbn [bind] in H1; try discriminate.
  apply unrolled_loop_frame in E1; try lia. cbn [fst snd] in E1. destruct (0 <? i1) eqn:P1; [|discriminate].
  injection H1 as <- <-. cbn [ur_amt ur_iter ur_scratch] in H2.
  destruct (unrolled_loop it (Z.to_nat (ur_amt u)) 0 s1 scr1) as [[[i2 s2] scr2]| | |] eqn:E2;
    cbn [bind] in H2; try discriminate.
  apply unrolled_loop_frame in E2; try lia. cbn [fst snd] in E2. destruct (0 <? i2) eqn:P2; [|discriminate].
  injection H2 as <- <-. unfold group_view. cbn [ur_scratch].
  assert (Hz : zlen (firstn (Z.to_nat i1) scr1) = i1) by (rewrite zlen_firstn; lia).
  assert (Hz2 : zlen (firstn (Z.to_nat i2) scr2) = i2) by (rewrite zlen_firstn; lia).
  assert (Hv : firstn (Z.to_nat (zlen (firstn (Z.to_nat i1) scr1))) scr2 =
    firstn (length (firstn (Z.to_nat i1) scr1))
      (firstn (Z.to_nat i2) scr2 ++ skipn (length (firstn (Z.to_nat i2) scr2)) (firstn (Z.to_nat i1) scr1))).
  { rewrite Hz. rewrite <- (firstn_skipn (Z.to_nat i2) scr2) at 1. rewrite (proj2 (proj2 E2)).
    replace (length (firstn (Z.to_nat i1) scr1)) with (Z.to_nat i1) by (unfold zlen in Hz; lia).
    replace (length (firstn (Z.to_nat i2) scr2)) with (Z.to_nat i2) by (unfold zlen in Hz2; lia).
    rewrite !firstn_app. f_equal. replace (length (firstn (Z.to_nat i2) scr2)) with (Z.to_nat i2) by (unfold zlen in Hz2; lia).
    rewrite skipn_firstn_comm, firstn_firstn. f_equal. lia. }
  split; [exact Hv|]. rewrite Hv. intros Hne E. apply Hne. rewrite <- E.
  destruct (firstn (Z.to_nat i2) scr2) as [|y r2]; [unfold zlen in Hz2; cbn in Hz2; lia|].
  destruct (firstn (Z.to_nat i1) scr1) as [|x r1]; [unfold zlen in Hz; cbn in Hz; lia|]. reflexivity.
Qed.

Lemma c52_unrolled_group_fresh_partial : forall (V I : Type) (it : SIMDIterable V I) u g u',
  0 <= ur_amt u <= zlen (ur_scratch u) ->
  unrolled_next it u = Ok (Some g, u') -> group_view u' (zlen g) = g /\ 1 <= zlen g <= ur_amt u.
Proof.
  intros V I it u g u' Hamt H. unfold unrolled_next in H.
  assert (Hl : forall n i s scr r, 0 <= i -> i + Z.of_nat n <= zlen scr -> unrolled_loop it n i s scr = Ok r ->
    i <= fst (fst r) <= i + Z.of_nat n /\ zlen (snd r) = zlen scr).
  { clear. induction n as [|n IH]; intros i s scr r Hi Hn H; cbn in H.
    - injection H as <-. cbn. lia.
    - destruct (it_next it s) as [[[v|] s1]| | |]; cbn in H; try discriminate.
      + destruct (i <? zlen scr) eqn:E; [|discriminate].
        assert (Hz : zlen (upd scr i [v]) = zlen scr) by (apply zlen_upd; [lia|cbn; lia]).
        apply IH in H; lia.
      + injection H as <-. cbn. lia. }
  destruct (unrolled_loop it (Z.to_nat (ur_amt u)) 0 (ur_iter u) (ur_scratch u)) as [[[i s1] scr]| | |] eqn:El;
    cbn [bind] in H; try discriminate.
  apply Hl in El; try lia. cbn [fst snd] in El. destruct (0 <? i) eqn:E; [|discriminate].
  injection H as <- <-. unfold group_view. cbn [ur_scratch].
  assert (Hz : zlen (firstn (Z.to_nat i) scr) = i) by (rewrite zlen_firstn; lia).
  rewrite Hz. split; [reflexivity|lia].
Qed.
