(** Proofs of the properties: stride_zip and the scalar adapter (C31, C32). *)
From Verif Require Import Base Spec Vecs Iters StrideZip.
From Coq Require Import Lia ZifyBool ZifyNat.
From Verif Require Import ListFacts VecFacts IterFacts CollectFacts MapFacts.
Ltac Zify.zify_post_hook ::= Z.div_mod_to_equations.

Lemma slice_next_some : forall (A : Type) c ty (l d : list A) k, vty_ok ty -> slice_ok ty l -> 0 <= k -> k + WIDTH ty <= zlen l ->
  it_next (itb (slice_iterator c ty)) (mkSIMDIter k l d) = Ok (Some (sub l k (WIDTH ty)), mkSIMDIter (k + WIDTH ty) l d).
Proof.
  intros A c ty l d k Hty Hl Hk Hle. pose proof (vty_ok_facts _ Hty) as (H1 & _).
  pose proof (slice_small ty l Hty Hl) as Hsm. unfold max_len in Hsm. pose proof usize_mod_val as Hum.
  cbn [itb slice_iterator blanket_iterator si_iterable it_next]. unfold si_next.
  cbn [si_position si_data arr_ty slice_array arr_scalar_len]. rewrite uadd_ok by lia. cbn [bind].
  replace (k + WIDTH ty <=? zlen l) with true by lia.
  pose proof (ah_vec _ _ _ (slice_array_holds c ty l Hty) k ltac:(lia) Hle) as Hv.
  cbn [arr_load_unchecked slice_array arr_ty] in Hv |- *. rewrite Hv. cbn [bind].
  unfold si_advance. cbn [si_position si_data si_default]. rewrite uadd_ok by lia. reflexivity.
Qed.

Lemma slice_next_none : forall (A : Type) c ty (l d : list A) k, vty_ok ty -> slice_ok ty l -> 0 <= k <= zlen l -> zlen l < k + WIDTH ty ->
  it_next (itb (slice_iterator c ty)) (mkSIMDIter k l d) = Ok (None, mkSIMDIter k l d).
Proof.
  intros A c ty l d k Hty Hl Hk Hle. pose proof (vty_ok_facts _ Hty) as (H1 & H2 & H3 & H4 & H5 & H6).
  pose proof (slice_small ty l Hty Hl) as Hsm. unfold max_len in Hsm. pose proof usize_mod_val as Hum.
  cbn [itb slice_iterator blanket_iterator si_iterable it_next]. unfold si_next.
  cbn [si_position si_data arr_ty slice_array arr_scalar_len]. rewrite uadd_ok by lia. cbn [bind].
  replace (k + WIDTH ty <=? zlen l) with false by lia. reflexivity.
Qed.

Lemma slice_end_at : forall (A : Type) c ty (l d : list A) k, vty_ok ty -> slice_ok ty l -> zlen d = WIDTH ty ->
  (k = 0 \/ WIDTH ty < zlen l \/ k = zlen l) -> 0 <= k <= zlen l -> zlen l <= k + WIDTH ty ->
  it_end (slice_iterator c ty) (mkSIMDIter k l d) = Ok (tail_of d (skipn (Z.to_nat k) l), mkSIMDIter (zlen l) l d).
Proof.
  intros A c ty l d k Hty Hl Hd Hrd Hk Hle.
  pose proof (slice_stepping c ty l d Hty Hl Hd) as Hst.
  destruct (blanket_end_ok c _ _ l d _ Hst (mkSIMDIter k l d) k) as (s' & He & Hs' & _).
  - split; [reflexivity|exact Hk].
  - exact Hrd.
  - cbn [it_ty si_iterable arr_ty slice_array]. lia.
  - cbn [it_end slice_iterator blanket_iterator]. rewrite He, Hs'. reflexivity.
Qed.

Lemma even_lanes_app : forall (A : Type) n (a b : list A), length a = (2 * n)%nat ->
  even_lanes (a ++ b) = even_lanes a ++ even_lanes b /\ odd_lanes (a ++ b) = odd_lanes a ++ odd_lanes b.
Proof.
  intros A. induction n as [|n IH]; intros a b H.
  - destruct a; [split; reflexivity|discriminate].
  - destruct a as [|x [|y a]]; cbn in H; try lia. destruct (IH a b ltac:(lia)) as [H1 H2].
    cbn. rewrite H1, H2. split; reflexivity.
Qed.

Lemma width_even : forall ty, vty_ok ty -> exists h, WIDTH ty = 2 * h /\ 0 < h.
Proof.
  intros [w sz] [H1 H2]. cbn [WIDTH SIZE In] in *. exists (w / 2).
  destruct H1 as [<-|[<-|[<-|[<-|[]]]]]; destruct H2 as [H2|[H2|[H2|[]]]]; lia.
Qed.

Lemma sub_two : forall (A : Type) (l : list A) k w, 0 <= k -> 0 <= w -> sub l k w ++ sub l (k + w) w = sub l k (2 * w).
Proof.
  intros A l k w Hk Hw. unfold sub. rewrite (Z2Nat.inj_add k w) by lia. rewrite <- skipn_skipn.
  replace (Z.to_nat (2 * w)) with (Z.to_nat w + Z.to_nat w)%nat by lia.
  generalize (skipn (Z.to_nat k) l). generalize (Z.to_nat w). clear. intros q l.
  assert (H : forall p (l : list A), firstn p l ++ firstn q (skipn p l) = firstn (p + q) l).
  { induction p as [|p IH]; intros [|x l0]; cbn; try reflexivity.
    - rewrite firstn_nil. reflexivity.
    - f_equal. apply IH. }
  apply H.
Qed.

(** The [next] calls of a [stride_zip] from position [k]. *)
Lemma sz_drain : forall (A : Type) c ty (l d : list A) d0 b pk, vty_ok ty -> slice_ok ty l ->
  forall m k fuel, 0 <= k -> k + 2 * WIDTH ty * Z.of_nat m <= zlen l < k + 2 * WIDTH ty * (Z.of_nat m + 1) -> (m < fuel)%nat ->
  let z := stride_zip_iterator c (slice_iterator c ty) d0 destride_two_polyfill in
  exists vs, length vs = m /\
    drain_next z fuel (mkStrideZip b pk (mkSIMDIter k l d)) =
      Ok (vs, if zlen l <? k + 2 * WIDTH ty * Z.of_nat m + WIDTH ty
              then mkStrideZip b pk (mkSIMDIter (k + 2 * WIDTH ty * Z.of_nat m) l d)
              else mkStrideZip b (Some (sub l (k + 2 * WIDTH ty * Z.of_nat m) (WIDTH ty)))
                     (mkSIMDIter (k + 2 * WIDTH ty * Z.of_nat m + WIDTH ty) l d)) /\
    Forall (fun p => zlen (fst p) = WIDTH ty /\ zlen (snd p) = WIDTH ty) vs /\
    concat (map fst vs) = even_lanes (sub l k (2 * WIDTH ty * Z.of_nat m)) /\
    concat (map snd vs) = odd_lanes (sub l k (2 * WIDTH ty * Z.of_nat m)).
Proof.
  intros A c ty l d d0 b pk Hty Hl. pose proof (vty_ok_facts _ Hty) as (H1 & _).
  destruct (width_even ty Hty) as (h & Hh & Hh0).
  assert (Hlen : forall n (v : list A), length v = (2 * n)%nat -> length (even_lanes v) = n /\ length (odd_lanes v) = n).
  { clear. induction n as [|n IH]; intros v H; [destruct v; [split; reflexivity|discriminate]|].
    destruct v as [|x [|y v]]; cbn in H; try lia. destruct (IH v ltac:(lia)). cbn. lia. }
  induction m as [|m IH]; intros k fuel Hk Hm Hf z; (destruct fuel as [|fuel]; [lia|]).
  - exists []. split; [reflexivity|]. rewrite Z.mul_0_r, Z.add_0_r in *. split; [|split; [constructor|split; reflexivity]].
    cbn [drain_next]. subst z. cbn [itb stride_zip_iterator sz_iterable it_next]. unfold sz_next.
    cbn [sz_iter sz_base sz_peek]. destruct (zlen l <? k + WIDTH ty) eqn:E.
    + rewrite slice_next_none by (try assumption; lia). reflexivity.
    + rewrite slice_next_some by (try assumption; lia). cbn [bind].
      rewrite slice_next_none by (try assumption; lia). reflexivity.
  - destruct (IH (k + 2 * WIDTH ty) fuel ltac:(lia) ltac:(lia) ltac:(lia)) as (vs & Hvl & Hdr & Hsz & He & Ho).
    exists (destride_two_polyfill (sub l k (WIDTH ty)) (sub l (k + WIDTH ty) (WIDTH ty)) :: vs).
    split; [cbn; lia|]. split; [|split].
    + cbn [drain_next]. subst z. cbn [itb stride_zip_iterator sz_iterable it_next] in *. unfold sz_next at 1.
      cbn [sz_iter sz_base sz_peek]. rewrite slice_next_some by (try assumption; lia). cbn [bind].
      rewrite slice_next_some by (try assumption; lia). cbn [bind].
      replace (k + WIDTH ty + WIDTH ty) with (k + 2 * WIDTH ty) by lia.
      rewrite Hdr. cbn [bind fst snd].
      replace (k + 2 * WIDTH ty + 2 * WIDTH ty * Z.of_nat m) with (k + 2 * WIDTH ty * Z.of_nat (S m)) by lia.
      reflexivity.
    + constructor; [|exact Hsz]. unfold destride_two_polyfill. cbn [fst snd]. rewrite !zlen_app.
      assert (Hx : forall o, 0 <= o -> o + WIDTH ty <= zlen l ->
        zlen (even_lanes (sub l o (WIDTH ty))) = h /\ zlen (odd_lanes (sub l o (WIDTH ty))) = h).
      { intros o Ho1 Ho2. pose proof (zlen_sub l o (WIDTH ty) ltac:(lia) ltac:(lia) ltac:(lia)) as Hz.
        destruct (Hlen (Z.to_nat h) (sub l o (WIDTH ty)) ltac:(unfold zlen in Hz; lia)) as [G1 G2].
        unfold zlen. rewrite G1, G2. lia. }
      destruct (Hx k ltac:(lia) ltac:(lia)) as [-> ->]. destruct (Hx (k + WIDTH ty) ltac:(lia) ltac:(lia)) as [-> ->]. lia.
    + cbn [map concat]. rewrite He, Ho. unfold destride_two_polyfill. cbn [fst snd].
      pose proof (zlen_sub l k (WIDTH ty) ltac:(lia) ltac:(lia) ltac:(lia)) as Hz1.
      pose proof (zlen_sub l k (2 * WIDTH ty) ltac:(lia) ltac:(lia) ltac:(lia)) as Hz2.
      destruct (even_lanes_app A (Z.to_nat h) (sub l k (WIDTH ty)) (sub l (k + WIDTH ty) (WIDTH ty)) ltac:(unfold zlen in Hz1; lia)) as [G1 G2].
      rewrite <- G1, <- G2. rewrite sub_two by lia.
      destruct (even_lanes_app A (2 * Z.to_nat h) (sub l k (2 * WIDTH ty)) (sub l (k + 2 * WIDTH ty) (2 * WIDTH ty * Z.of_nat m)) ltac:(unfold zlen in Hz2; clear -Hz2 Hh Hh0; lia)) as [F1 F2].
      rewrite <- F1, <- F2.
      assert (Hs : sub l k (2 * WIDTH ty) ++ sub l (k + 2 * WIDTH ty) (2 * WIDTH ty * Z.of_nat m) = sub l k (2 * WIDTH ty * Z.of_nat (S m))).
      { unfold sub. rewrite (Z2Nat.inj_add k (2 * WIDTH ty)) by lia. rewrite <- skipn_skipn.
        replace (Z.to_nat (2 * WIDTH ty * Z.of_nat (S m))) with (Z.to_nat (2 * WIDTH ty) + Z.to_nat (2 * WIDTH ty * Z.of_nat m))%nat by (rewrite <- Z2Nat.inj_add by (clear -H1; nia); f_equal; lia).
        generalize (skipn (Z.to_nat k) l). generalize (Z.to_nat (2 * WIDTH ty)). generalize (Z.to_nat (2 * WIDTH ty * Z.of_nat m)). clear.
        intros q p. induction p as [|p IH]; intros [|x l0]; cbn; try reflexivity.
        - rewrite firstn_nil. reflexivity.
        - f_equal. apply IH. }
      rewrite Hs. split; reflexivity.
Qed.

Lemma lanes_stream : forall (A : Type) (n : nat) (X : list A), (length X <= n)%nat ->
  is_stream X 0 2 (even_lanes X) /\ is_stream X 1 2 (odd_lanes X).
Proof.
  intros A. induction n as [|n IH]; intros X Hn.
  { destruct X; [|cbn in Hn; lia]. split; (split; [reflexivity|cbn; lia]). }
  destruct X as [|x [|y X]]; try (split; (split; [reflexivity|cbn; lia])).
  cbn [length] in Hn. destruct (IH X ltac:(lia)) as [[E1 E2] [O1 O2]]. cbn [even_lanes odd_lanes].
  pose proof (zlen_nonneg X) as HX.
  split; (split; [rewrite !zlen_cons; lia|]); intros k Hk; rewrite zlen_cons in Hk;
    (destruct (Z.eq_dec k 0) as [->|Hk0]; [reflexivity|]).
  - replace k with (1 + (k - 1)) at 1 by lia. replace (0 + 2 * k) with (2 + (0 + 2 * (k - 1))) by lia.
    specialize (E2 (k - 1) ltac:(lia)). unfold znth in *.
    replace (Z.to_nat (1 + (k - 1))) with (S (Z.to_nat (k - 1))) by lia.
    replace (Z.to_nat (2 + (0 + 2 * (k - 1)))) with (S (S (Z.to_nat (0 + 2 * (k - 1))))) by lia.
    cbn [nth_error]. destruct (1 + (k-1) <? 0) eqn:F1, (2 + (0 + 2 * (k-1)) <? 0) eqn:F2, (k - 1 <? 0) eqn:F3, (0 + 2 * (k - 1) <? 0) eqn:F4; try lia; exact E2.
  - replace k with (1 + (k - 1)) at 1 by lia. replace (1 + 2 * k) with (2 + (1 + 2 * (k - 1))) by lia.
    specialize (O2 (k - 1) ltac:(lia)). unfold znth in *.
    replace (Z.to_nat (1 + (k - 1))) with (S (Z.to_nat (k - 1))) by lia.
    replace (Z.to_nat (2 + (1 + 2 * (k - 1)))) with (S (S (Z.to_nat (1 + 2 * (k - 1))))) by lia.
    cbn [nth_error]. destruct (1 + (k-1) <? 0) eqn:F1, (2 + (1 + 2 * (k-1)) <? 0) eqn:F2, (k - 1 <? 0) eqn:F3, (1 + 2 * (k - 1) <? 0) eqn:F4; try lia; exact O2.
Qed.

Lemma c31_blocks_partial : forall (A : Type) (c : config) (ty : vty) (l d : list A) (d0 : A) (fuel : nat),
  vty_ok ty -> slice_ok ty l -> zlen d = WIDTH ty -> (length l < fuel)%nat ->
  let it := slice_iterator c ty in
  let z := stride_zip_iterator c it d0 destride_two_polyfill in
  let n := zlen l / (2 * WIDTH ty) in
  exists s0 vs s', stride_zip it (simd_iter l d) = Ok s0 /\ drain_next z fuel s0 = Ok (vs, s') /\
    zlen vs = n /\ Forall (fun p => zlen (fst p) = WIDTH ty /\ zlen (snd p) = WIDTH ty) vs /\
    is_stream (firstn (Z.to_nat (2 * WIDTH ty * n)) l) 0 2 (concat (map fst vs)) /\
    is_stream (firstn (Z.to_nat (2 * WIDTH ty * n)) l) 1 2 (concat (map snd vs)) /\
    (zlen l mod (2 * WIDTH ty) = 0 ->
       is_stream l 0 2 (concat (map fst vs)) /\ is_stream l 1 2 (concat (map snd vs)) /\
       exists s'', it_end z s' = Ok (None, s'')).
Proof.
  intros A c ty l d d0 fuel Hty Hl Hd Hf it z n. pose proof (vty_ok_facts _ Hty) as (H1 & _).
  pose proof (zlen_nonneg l) as Hl0.
  pose proof (Z.div_mod (zlen l) (2 * WIDTH ty) ltac:(lia)) as Hdm. fold n in Hdm.
  pose proof (Z.mod_pos_bound (zlen l) (2 * WIDTH ty) ltac:(lia)) as Hmb.
  assert (Hn : 0 <= n) by (apply Z.div_pos; lia).
  destruct (sz_drain A c ty l d d0 0 None Hty Hl (Z.to_nat n) 0 fuel) as (vs & Hvl & Hdr & Hsz & He & Ho).
  { lia. }
  { rewrite Z2Nat.id by lia. lia. }
  { unfold zlen in *. nia. }
  rewrite Z2Nat.id in * by lia. rewrite !Z.add_0_l in *.
  exists (mkStrideZip 0 None (simd_iter l d)), vs. eexists. split; [reflexivity|]. split; [exact Hdr|].
  split; [unfold zlen; lia|]. split; [exact Hsz|]. unfold sub in He, Ho. cbn [Z.to_nat skipn] in He, Ho. rewrite He, Ho.
  destruct (lanes_stream A _ (firstn (Z.to_nat (2 * WIDTH ty * n)) l) (Nat.le_refl _)) as [Hse Hso].
  split; [exact Hse|]. split; [exact Hso|].
  intros Hmod. assert (Hall : 2 * WIDTH ty * n = zlen l) by lia.
  assert (Hfa : firstn (Z.to_nat (2 * WIDTH ty * n)) l = l) by (rewrite Hall; apply firstn_all2; unfold zlen; lia).
  rewrite Hfa in *. split; [exact Hse|]. split; [exact Hso|].
  rewrite Hall. replace (zlen l <? zlen l + WIDTH ty) with true by lia. eexists.
  subst z it. cbn [it_end stride_zip_iterator]. unfold sz_end. cbn [sz_iter sz_peek sz_base].
  rewrite slice_next_none by (try assumption; lia). cbn [bind fst snd].
  rewrite slice_end_at by (try assumption; lia). rewrite skipn_all2 by (unfold zlen in *; lia).
  cbn [bind tail_of fst snd]. reflexivity.
Qed.

Lemma c31_positions : forall (A : Type) (c : config) (ty : vty) (l d : list A) (d0 : A) (k a : Z),
  vty_ok ty -> slice_ok ty l -> 0 <= k -> 0 <= a -> k + 2 * a + 2 * WIDTH ty <= zlen l ->
  let it := slice_iterator c ty in
  let z := stride_zip_iterator c it d0 destride_two_polyfill in
  let block := sub l (k + 2 * a) (2 * WIDTH ty) in
  exists s0 s1 s2 p q,
    stride_zip it (mkSIMDIter k l d) = Ok s0 /\ it_scalar_pos (itb z) s0 = Ok 0 /\ it_vector_pos (itb z) s0 = Ok 0 /\
    it_scalar_len (itb z) s0 = Ok (zlen l / 2) /\ it_vector_len (itb z) s0 = Ok (zlen l / 2 / WIDTH ty) /\
    it_advance (itb z) s0 a = Ok s1 /\ it_scalar_pos (itb z) s1 = Ok a /\
    it_next (itb z) s1 = Ok (Some (p, q), s2) /\ is_stream block 0 2 p /\ is_stream block 1 2 q /\
    it_scalar_pos (itb z) s2 = Ok (a + WIDTH ty) /\
    (k mod WIDTH ty = 0 -> it_vector_pos (itb z) s1 = Ok (a / WIDTH ty) /\ it_vector_pos (itb z) s2 = Ok (a / WIDTH ty + 1)).
Proof.
  intros A c ty l d d0 k a Hty Hl Hk Ha Hle it z block. pose proof (vty_ok_facts _ Hty) as (H1 & _).
  pose proof (slice_small ty l Hty Hl) as Hsm. unfold max_len in Hsm. pose proof usize_mod_val as Hum.
  destruct (width_even ty Hty) as (h & Hh & Hh0).
  assert (Hua : forall r, 0 <= r < usize_mod -> uarith c r = Ok r).
  { intros r Hr. unfold uarith. replace ((0 <=? r) && (r <? usize_mod)) with true by lia. reflexivity. }
  exists (mkStrideZip k None (mkSIMDIter k l d)), (mkStrideZip k None (mkSIMDIter (k + 2 * a) l d)),
    (mkStrideZip k None (mkSIMDIter (k + 2 * a + WIDTH ty + WIDTH ty) l d)).
  destruct (destride_two_polyfill (sub l (k + 2 * a) (WIDTH ty)) (sub l (k + 2 * a + WIDTH ty) (WIDTH ty))) as [p q] eqn:Epq.
  exists p, q.
  assert (Hpos : forall x, k <= x < usize_mod -> it_scalar_pos (itb z) (mkStrideZip k None (mkSIMDIter x l d)) = Ok ((x - k) / 2)).
  { intros x Hx. cbn. unfold usub. rewrite Hua by lia. reflexivity. }
  assert (Hvpos : forall x, k <= x < usize_mod -> it_vector_pos (itb z) (mkStrideZip k None (mkSIMDIter x l d)) = Ok ((x / WIDTH ty - k / WIDTH ty) / 2)).
  { intros x Hx. cbn. unfold udiv. replace (WIDTH ty =? 0) with false by lia. cbn [bind]. unfold usub.
    assert (k / WIDTH ty <= x / WIDTH ty) by (apply Z.div_le_mono; lia). assert (0 <= k / WIDTH ty) by (apply Z.div_pos; lia).
    assert (x / WIDTH ty <= x) by (apply Z.div_le_upper_bound; [lia|]; clear -H1 Hx Hk; nia).
    rewrite Hua; [reflexivity|]. clear -H H0 H2 Hx. lia. }
  split; [reflexivity|]. split; [rewrite Hpos by lia; f_equal; rewrite Z.sub_diag; reflexivity|].
  split; [rewrite Hvpos by lia; f_equal; rewrite Z.sub_diag; reflexivity|].
  split; [reflexivity|]. split; [cbn; unfold udiv; replace (WIDTH ty =? 0) with false by lia; reflexivity|].
  split. { cbn. unfold umul. rewrite Hua by lia. cbn [bind]. unfold si_advance, uadd. cbn [si_position]. rewrite Hua by lia. reflexivity. }
  split; [rewrite Hpos by lia; f_equal; replace (k + 2 * a - k) with (a * 2) by ring; apply Z.div_mul; lia|].
  split. { unfold z. cbn [itb stride_zip_iterator sz_iterable it_next]. unfold sz_next. cbn [sz_iter sz_base sz_peek]. unfold it.
    rewrite slice_next_some by (try assumption; lia). cbn [bind]. rewrite slice_next_some by (try assumption; lia). cbn [bind]. rewrite Epq. reflexivity. }
  assert (Hblock : sub l (k + 2 * a) (WIDTH ty) ++ sub l (k + 2 * a + WIDTH ty) (WIDTH ty) = block) by (apply sub_two; lia).
  pose proof (zlen_sub l (k + 2 * a) (WIDTH ty) ltac:(lia) ltac:(lia) ltac:(lia)) as Hz1.
  destruct (even_lanes_app A (Z.to_nat h) (sub l (k + 2 * a) (WIDTH ty)) (sub l (k + 2 * a + WIDTH ty) (WIDTH ty)) ltac:(unfold zlen in Hz1; lia)) as [G1 G2].
  rewrite Hblock in G1, G2. unfold destride_two_polyfill in Epq. rewrite <- G1, <- G2 in Epq. injection Epq as <- <-.
  destruct (lanes_stream A _ block (Nat.le_refl _)) as [Hse Hso].
  split; [exact Hse|]. split; [exact Hso|].
  split; [rewrite Hpos by lia; f_equal; replace (k + 2 * a + WIDTH ty + WIDTH ty - k) with ((a + WIDTH ty) * 2) by ring; apply Z.div_mul; lia|].
  intros Hkm. rewrite !Hvpos by lia. apply Z.mod_divide in Hkm; [|lia]. destruct Hkm as [j ->].
  rewrite Z.div_mul by lia. rewrite (Z.add_comm (j * WIDTH ty) (2 * a)), Z.div_add by lia.
  replace (2 * a + j * WIDTH ty + WIDTH ty + WIDTH ty) with (2 * a + (j + 2) * WIDTH ty) by ring. rewrite Z.div_add by lia.
  assert (Hd2 : 2 * a / WIDTH ty / 2 = a / WIDTH ty).
  { rewrite Z.div_div by lia. rewrite (Z.mul_comm (WIDTH ty) 2). apply Z.div_mul_cancel_l; lia. }
  replace (2 * a / WIDTH ty + j - j) with (2 * a / WIDTH ty) by ring. replace (2 * a / WIDTH ty + (j + 2) - j) with (2 * a / WIDTH ty + 1 * 2) by ring.
  rewrite Z.div_add by lia. rewrite Hd2. split; reflexivity.
Qed.

Lemma c31_tail_count_refuted : forall (A : Type) (c : config) (ty : vty) (l d : list A) (d0 : A) (fuel : nat),
  vty_ok ty -> slice_ok ty l -> zlen d = WIDTH ty -> (length l < fuel)%nat ->
  let it := slice_iterator c ty in
  let z := stride_zip_iterator c it d0 destride_two_polyfill in
  let r := zlen l mod (2 * WIDTH ty) in
  r <> 0 -> r <> WIDTH ty -> r mod 2 = 0 ->
  exists vs p n s', drain z fuel (mkStrideZip 0 None (simd_iter l d)) = Ok (vs, Some (p, n), s') /\
    n <> WIDTH ty - r / 2 /\ (r < WIDTH ty -> n = WIDTH ty - r / 2 - WIDTH ty / 2) /\
    (WIDTH ty < r -> n = WIDTH ty - r / 2 + WIDTH ty / 2).
Proof.
  intros A c ty l d d0 fuel Hty Hl Hd Hf it z r Hr0 HrW Hr2.
  pose proof (vty_ok_facts _ Hty) as (H1 & H2 & H3 & H4 & H5 & H6).
  destruct (width_even ty Hty) as (h & Hh & Hh0).
  pose proof usize_mod_val as Hum. pose proof (zlen_nonneg l) as Hl0.
  set (n := zlen l / (2 * WIDTH ty)).
  pose proof (Z.div_mod (zlen l) (2 * WIDTH ty) ltac:(lia)) as Hdm. fold n r in Hdm.
  pose proof (Z.mod_pos_bound (zlen l) (2 * WIDTH ty) ltac:(lia)) as Hmb. fold r in Hmb.
  assert (Hn : 0 <= n) by (apply Z.div_pos; lia).
  destruct (sz_drain A c ty l d d0 0 None Hty Hl (Z.to_nat n) 0 fuel) as (vs & Hvl & Hdr & Hsz & He & Ho).
  { lia. }
  { rewrite Z2Nat.id by lia. lia. }
  { unfold zlen in *. nia. }
  rewrite Z2Nat.id in * by lia. rewrite !Z.add_0_l in *. set (K := 2 * WIDTH ty * n) in *.
  assert (HK : 0 <= K) by nia. clear He Ho Hsz.
  unfold drain. fold it z in Hdr. unfold simd_iter. rewrite Hdr. cbn [bind fst snd].
  subst z it. cbn [it_end stride_zip_iterator]. unfold sz_end.
  destruct (Z_lt_le_dec r (WIDTH ty)) as [Hlt|Hge].
  - replace (zlen l <? K + WIDTH ty) with true by lia. cbn [sz_iter sz_peek sz_base].
    rewrite slice_next_none by (try assumption; lia). cbn [bind fst snd].
    rewrite slice_end_at; try assumption; [|destruct (Z.eq_dec n 0); [left; unfold K; nia|right; left; nia]|lia|lia].
    destruct (skipn (Z.to_nat K) l) as [|x xs] eqn:Es.
    { assert (H0 : zlen (skipn (Z.to_nat K) l) = 0) by (rewrite Es; reflexivity). rewrite zlen_skipn in H0. lia. }
    assert (Hzx : zlen (x :: xs) = r) by (rewrite <- Es, zlen_skipn; lia).
    cbn [bind tail_of fst snd]. unfold unfilled. rewrite Hzx, Hd.
    replace (0 <? WIDTH ty - r) with true by lia. cbn [bind fst snd].
    do 4 eexists. split; [reflexivity|]. lia.
  - replace (zlen l <? K + WIDTH ty) with false by lia. cbn [sz_iter sz_peek sz_base].
    rewrite slice_next_none by (try assumption; lia). cbn [bind fst snd].
    rewrite slice_end_at; try assumption; [|right; left; nia|lia|lia].
    destruct (skipn (Z.to_nat (K + WIDTH ty)) l) as [|x xs] eqn:Es.
    { assert (H0 : zlen (skipn (Z.to_nat (K + WIDTH ty)) l) = 0) by (rewrite Es; reflexivity). rewrite zlen_skipn in H0. lia. }
    assert (Hzx : zlen (x :: xs) = r - WIDTH ty) by (rewrite <- Es, zlen_skipn; lia).
    cbn [bind tail_of fst snd]. unfold unfilled. rewrite Hzx, Hd. cbn [itb slice_iterator blanket_iterator si_iterable it_ty arr_ty slice_array]. rewrite uadd_ok by lia. cbn [bind fst snd].
    do 4 eexists. split; [reflexivity|]. lia.
Qed.

Lemma replace_unchecked_lt : forall (A : Type) c W (v : list A) i x, i < W -> replace_unchecked c W v i x = Ok (upd v i [x]).
Proof. intros A c W v i x H. unfold replace_unchecked. replace (i <? W) with true by lia. reflexivity. Qed.

Lemma ad_take : forall (A : Type) c ty (w : nat) (items rest : list A) (pre scr post : list A) (i : Z),
  length items = w -> length scr = w -> zlen pre = i -> i + Z.of_nat w <= WIDTH ty ->
  for_range w i (fun offset (st : list A * list A) =>
    match snd st with
    | [] => Panic
    | x :: rest => let! v := replace_unchecked c (WIDTH ty) (fst st) offset x in Ok (v, rest)
    end) (pre ++ scr ++ post, items ++ rest) = Ok (pre ++ items ++ post, rest).
Proof.
  intros A c ty. induction w as [|w IH]; intros items rest pre scr post i Hi Hs Hp Hw.
  - destruct items; [|discriminate]. destruct scr; [|discriminate]. reflexivity.
  - destruct items as [|x items]; [discriminate|]. destruct scr as [|y scr]; [discriminate|].
    cbn [for_range snd fst app]. rewrite (replace_unchecked_lt A c) by lia. cbn [bind].
    assert (Hup : upd (pre ++ y :: scr ++ post) i [x] = (pre ++ [x]) ++ scr ++ post).
    { change (y :: scr ++ post) with ([y] ++ (scr ++ post)). rewrite (upd_app pre [y] (scr ++ post) [x] i); [|exact Hp|reflexivity].
      rewrite <- app_assoc. reflexivity. }
    rewrite Hup. rewrite (IH items rest (pre ++ [x]) scr post (i + 1)).
    + rewrite <- app_assoc. reflexivity.
    + cbn in Hi. lia.
    + cbn in Hs. lia.
    + rewrite zlen_app, Hp. reflexivity.
    + lia.
Qed.

Lemma ad_next_some : forall (A : Type) c ty (items rest scr d : list A) pos,
  vty_ok ty -> zlen items = WIDTH ty -> zlen scr = WIDTH ty -> 0 <= pos -> pos + WIDTH ty < usize_mod ->
  pos + WIDTH ty <= zlen items + zlen rest ->
  it_next (ad_iterable c ty) (mkSIMDAdapter (items ++ rest) scr d pos) =
    Ok (Some items, mkSIMDAdapter rest items d (pos + WIDTH ty)).
Proof.
  intros A c ty items rest scr d pos Hty Hi Hs Hp Hov Hle. cbn [it_next ad_iterable]. unfold ad_next.
  pose proof (vty_ok_facts _ Hty) as (H1 & _).
  cbn [ad_position ad_iter ad_scratch ad_default]. rewrite uadd_ok by lia. cbn [bind].
  replace (pos + WIDTH ty <=? zlen (items ++ rest)) with true by (rewrite zlen_app; lia).
  pose proof (ad_take A c ty (Z.to_nat (WIDTH ty)) items rest [] scr [] 0) as Ht. cbn [app] in Ht. rewrite !app_nil_r in Ht.
  rewrite Ht; [|unfold zlen in Hi; lia|unfold zlen in Hs; lia|reflexivity|lia]. cbn [bind fst snd].
  unfold ad_advance. cbn [ad_position ad_iter ad_scratch ad_default]. rewrite uadd_ok by lia. reflexivity.
Qed.

Lemma c32_first_vector_partial : forall (A : Type) (c : config) (ty : vty) (l scr d : list A),
  vty_ok ty -> zlen scr = WIDTH ty -> WIDTH ty <= zlen l ->
  it_next (ad_iterable c ty) (mkSIMDAdapter l scr d 0) =
    Ok (Some (sub l 0 (WIDTH ty)), mkSIMDAdapter (skipn (Z.to_nat (WIDTH ty)) l) (sub l 0 (WIDTH ty)) d (WIDTH ty)).
Proof.
  intros A c ty l scr d Hty Hs Hl. pose proof (vty_ok_facts _ Hty) as (H1 & H2 & H3 & H4 & H5 & H6).
  pose proof usize_mod_val as Hum.
  pose proof (zlen_sub l 0 (WIDTH ty) ltac:(lia) ltac:(lia) ltac:(lia)) as Hz.
  rewrite <- (firstn_skipn (Z.to_nat (WIDTH ty)) l) at 1. unfold sub in *. cbn [Z.to_nat skipn] in *.
  rewrite (ad_next_some A c ty); try assumption; try lia; [reflexivity|].
  pose proof (zlen_nonneg (skipn (Z.to_nat (WIDTH ty)) l)). lia.
Qed.

Lemma ad_end_places : forall (A : Type) c ty (items d pre : list A) (i : Z), WIDTH ty <= 64 ->
  zlen items <= i -> i < WIDTH ty -> zlen d = i + 1 ->
  ad_end_loop c ty items i (d ++ pre) = Ok (i - zlen items, firstn (Z.to_nat (i + 1 - zlen items)) d ++ rev items ++ pre).
Proof.
  intros A c ty. induction items as [|x items IH]; intros d pre i HW Hle Hw Hd.
  - cbn [ad_end_loop rev app]. change (zlen (@nil A)) with 0. rewrite !Z.sub_0_r. rewrite firstn_all2; [reflexivity|]. unfold zlen in Hd. lia.
  - rewrite zlen_cons in *. pose proof (zlen_nonneg items). pose proof usize_mod_val as Hum.
    cbn [ad_end_loop]. rewrite (replace_unchecked_lt A c) by lia. cbn [bind]. rewrite usub_ok by lia. cbn [bind].
    assert (Hsp : exists d' y, d = d' ++ [y] /\ zlen d' = i).
    { exists (removelast d), (last d x). split.
      - apply app_removelast_last. intros ->. cbn in Hd. lia.
      - assert (Hne : d <> []) by (intros ->; cbn in Hd; lia).
        pose proof (app_removelast_last x Hne) as Hrl. apply (f_equal zlen) in Hrl. rewrite zlen_app in Hrl.
        change (zlen [last d x]) with 1 in Hrl. lia. }
    destruct Hsp as (d' & y & -> & Hd').
    rewrite <- app_assoc. rewrite (upd_app d' [y] pre [x] i Hd' eq_refl).
    rewrite (IH d' ([x] ++ pre) (i - 1)) by lia. f_equal. f_equal; [lia|].
    cbn [rev]. rewrite <- !app_assoc. f_equal.
    replace (Z.to_nat (i + 1 - (1 + zlen items))) with (Z.to_nat (i - 1 + 1 - zlen items)) by lia.
    rewrite firstn_app. replace (Z.to_nat (i - 1 + 1 - zlen items) - length d')%nat with 0%nat by (unfold zlen in Hd'; lia).
    rewrite app_nil_r. reflexivity.
Qed.

Lemma c32_short_refuted : forall (A : Type) (c : config) (ty : vty) (l scr d : list A) (fuel : nat),
  vty_ok ty -> zlen d = WIDTH ty -> 0 < zlen l < WIDTH ty -> (0 < fuel)%nat ->
  exists s', drain (adapter_iterator c ty) fuel (mkSIMDAdapter l scr d 0) =
    Ok ([], Some (right_aligned d (rev l), WIDTH ty - zlen l - 1), s').
Proof.
  intros A c ty l scr d fuel Hty Hd Hl Hf. pose proof (vty_ok_facts _ Hty) as (H1 & H2 & H3 & H4 & H5 & H6).
  pose proof usize_mod_val as Hum. destruct fuel as [|fuel]; [lia|].
  unfold drain. cbn [drain_next itb adapter_iterator ad_iterable it_next]. unfold ad_next.
  cbn [ad_position ad_iter]. rewrite uadd_ok by lia. cbn [bind]. replace (0 + WIDTH ty <=? zlen l) with false by lia.
  cbn [bind fst snd it_end adapter_iterator]. unfold ad_end. cbn [ad_position ad_iter ad_default].
  replace (0 <? zlen l) with true by lia. rewrite usub_ok by lia. cbn [bind].
  pose proof (ad_end_places A c ty l d [] (WIDTH ty - 1) H5 ltac:(lia) ltac:(lia) ltac:(lia)) as He. rewrite !app_nil_r in He.
  rewrite He. cbn [bind fst snd]. unfold finalize. cbn [it_scalar_len it_scalar_pos ad_iterable ad_iter ad_position bind it_advance].
  change (zlen (@nil A)) with 0. rewrite usub_ok by lia. cbn [bind]. cbn [it_advance ad_iterable]. unfold ad_advance. cbn [ad_position].
  rewrite uadd_ok by lia. cbn [bind]. unfold right_aligned. rewrite rev_length.
  replace (Z.to_nat (WIDTH ty - 1 + 1 - zlen l)) with (length d - length l)%nat by (unfold zlen in *; lia).
  replace (WIDTH ty - 1 - zlen l) with (WIDTH ty - zlen l - 1) by lia. eexists. reflexivity.
Qed.

Lemma ad_next_none : forall (A : Type) c ty (l scr d : list A) pos,
  vty_ok ty -> 0 <= pos -> pos + WIDTH ty < usize_mod -> zlen l < pos + WIDTH ty ->
  it_next (ad_iterable c ty) (mkSIMDAdapter l scr d pos) = Ok (None, mkSIMDAdapter l scr d pos).
Proof.
  intros A c ty l scr d pos Hty Hp Hov Hl. pose proof (vty_ok_facts _ Hty) as (H1 & _).
  cbn [it_next ad_iterable]. unfold ad_next. cbn [ad_position ad_iter]. rewrite uadd_ok by lia. cbn [bind].
  replace (pos + WIDTH ty <=? zlen l) with false by lia. reflexivity.
Qed.

Lemma ad_drain_next : forall (A : Type) c ty m (l scr d : list A) pos fuel,
  vty_ok ty -> zlen scr = WIDTH ty -> 0 <= pos -> pos + WIDTH ty * (Z.of_nat m + 1) < usize_mod ->
  pos + WIDTH ty * (2 * Z.of_nat m - 1) <= zlen l < pos + WIDTH ty * (2 * Z.of_nat m + 1) ->
  (m < fuel)%nat ->
  exists vs rest scr', chunked (WIDTH ty) l vs rest /\ length vs = m /\
    drain_next (adapter_iterator c ty) fuel (mkSIMDAdapter l scr d pos) =
      Ok (vs, mkSIMDAdapter rest scr' d (pos + WIDTH ty * Z.of_nat m)).
Proof.
  intros A c ty. induction m as [|m IH]; intros l scr d pos fuel Hty Hs Hp Hov Hl Hf;
    (destruct fuel as [|fuel]; [lia|]); pose proof (vty_ok_facts _ Hty) as (H1 & H2 & H3 & H4 & H5 & H6).
  - exists [], l, scr. split; [split; [constructor|reflexivity]|]. split; [reflexivity|].
    cbn [drain_next itb adapter_iterator]. rewrite ad_next_none by (try assumption; lia). cbn [bind].
    do 3 f_equal. lia.
  - set (W := WIDTH ty) in *. assert (HWm : 0 <= W * Z.of_nat m) by (apply Z.mul_nonneg_nonneg; lia).
    assert (Hfn : zlen (firstn (Z.to_nat W) l) = W) by (rewrite zlen_firstn; lia).
    assert (Hsk : zlen (skipn (Z.to_nat W) l) = zlen l - W) by (rewrite zlen_skipn; lia).
    destruct (IH (skipn (Z.to_nat W) l) (firstn (Z.to_nat W) l) d (pos + W) fuel) as (vs & rest & scr' & [Hc1 Hc2] & Hm & Hd);
      try assumption; try lia.
    exists (firstn (Z.to_nat W) l :: vs), rest, scr'. split; [|split].
    + split; [constructor; assumption|]. cbn [concat]. rewrite <- app_assoc, Hc2. apply firstn_skipn.
    + cbn [length]. lia.
    + cbn [drain_next itb adapter_iterator].
      replace (mkSIMDAdapter l scr d pos) with (mkSIMDAdapter (firstn (Z.to_nat W) l ++ skipn (Z.to_nat W) l) scr d pos)
        by (rewrite firstn_skipn; reflexivity).
      rewrite (ad_next_some A c ty); try assumption; try lia. fold W. cbn [bind]. rewrite Hd. cbn [bind fst snd].
      do 3 f_equal. lia.
Qed.

(** C32, what happens for the other lengths: [next] compares its position with the number
    of scalars not yet taken, so it stops half-way. *)
Lemma ad_half : forall (A : Type) (c : config) (ty : vty) (l scr d : list A) (fuel : nat),
  vty_ok ty -> zlen scr = WIDTH ty -> zlen l < usize_mod -> (length l < fuel)%nat ->
  let m := (zlen l / WIDTH ty + 1) / 2 in
  exists vs rest scr', chunked (WIDTH ty) l vs rest /\ zlen vs = m /\
    drain_next (adapter_iterator c ty) fuel (mkSIMDAdapter l scr d 0) =
      Ok (vs, mkSIMDAdapter rest scr' d (WIDTH ty * m)).
Proof.
  intros A c ty l scr d fuel Hty Hs Hl Hf m. pose proof (vty_ok_facts _ Hty) as (H1 & H2 & H3 & H4 & H5 & H6).
  pose proof (zlen_nonneg l) as Hl0. pose proof usize_mod_val as Hum.
  pose proof (Z.div_mod (zlen l) (WIDTH ty) ltac:(lia)) as Hdm. pose proof (Z.mod_pos_bound (zlen l) (WIDTH ty) ltac:(lia)) as Hmb.
  assert (Hq0 : 0 <= zlen l / WIDTH ty) by (apply Z.div_pos; lia).
  set (q := zlen l / WIDTH ty) in *. set (r := zlen l mod WIDTH ty) in *. set (W := WIDTH ty) in *.
  assert (Hm : 2 * m <= q + 1 < 2 * m + 2) by (unfold m; clear; lia).
  assert (Hm0 : 0 <= m) by (unfold m; clear -Hq0; lia).
  assert (Ha : W * (2 * m - 1) <= W * q) by (apply Z.mul_le_mono_nonneg_l; lia).
  assert (Hb : W * (q + 1) <= W * (2 * m + 1)) by (apply Z.mul_le_mono_nonneg_l; lia).
  destruct (ad_drain_next A c ty (Z.to_nat m) l scr d 0 fuel) as (vs & rest & scr' & Hc & Hv & Hd); try assumption; try (rewrite Z2Nat.id by lia); fold W; try lia.
  - assert (0 <= W * q) by (apply Z.mul_nonneg_nonneg; lia).
    assert (Hmw : m <= W * m) by (clear -Hm0 H1; nia).
    assert (Hml : m <= zlen l).
    { destruct (Z.eq_dec m 0) as [->|Hm1]; [exact Hl0|].
      assert (W * m <= W * (2 * m - 1)) by (apply Z.mul_le_mono_nonneg_l; lia). lia. }
    clear -Hml Hf Hm0. unfold zlen in *. lia.
  - exists vs, rest, scr'. split; [exact Hc|]. split; [unfold zlen; lia|].
    rewrite Hd. rewrite Z2Nat.id by lia. reflexivity.
Qed.

Lemma c32_lost_refuted : forall (A : Type) (c : config) (ty : vty) (l scr d : list A) (fuel : nat),
  vty_ok ty -> zlen scr = WIDTH ty -> zlen l < usize_mod -> (length l < fuel)%nat ->
  (zlen l / WIDTH ty) mod 2 = 1 \/ zlen l mod WIDTH ty = 0 ->
  exists vs lost s', drain (adapter_iterator c ty) fuel (mkSIMDAdapter l scr d 0) = Ok (vs, None, s') /\
    chunked (WIDTH ty) l vs lost /\ zlen vs = (zlen l / WIDTH ty + 1) / 2 /\
    (lost = [] <-> zlen l = 0 \/ zlen l = WIDTH ty).
Proof.
  intros A c ty l scr d fuel Hty Hs Hl Hf Hcase. pose proof (vty_ok_facts _ Hty) as (H1 & H2 & H3 & H4 & H5 & H6).
  destruct (ad_half A c ty l scr d fuel Hty Hs Hl Hf) as (vs & rest & scr' & [Hc1 Hc2] & Hv & Hd).
  pose proof (zlen_nonneg l) as Hl0. pose proof (zlen_nonneg rest) as Hr0.
  pose proof (Z.div_mod (zlen l) (WIDTH ty) ltac:(lia)) as Hdm. pose proof (Z.mod_pos_bound (zlen l) (WIDTH ty) ltac:(lia)) as Hmb.
  assert (Hq0 : 0 <= zlen l / WIDTH ty) by (apply Z.div_pos; lia).
  assert (Hlen : WIDTH ty * zlen vs + zlen rest = zlen l).
  { rewrite <- (concat_zlen (WIDTH ty) vs Hc1), <- zlen_app, Hc2. reflexivity. }
  rewrite Hv in Hlen. set (q := zlen l / WIDTH ty) in *. set (r := zlen l mod WIDTH ty) in *. set (W := WIDTH ty) in *.
  set (m := (q + 1) / 2) in *.
  assert (Hm : 2 * m <= q + 1 < 2 * m + 2) by (unfold m; clear; lia).
  assert (Hm0 : 0 <= m) by (unfold m; clear -Hq0; lia).
  assert (Hstop : zlen rest <= W * m).
  { destruct Hcase as [Ho|Hz].
    - assert (2 * m = q + 1) by (unfold m; clear -Ho; lia).
      assert (W * (q + 1) = W * (2 * m)) by (f_equal; lia). lia.
    - assert (W * q <= W * (2 * m)) by (apply Z.mul_le_mono_nonneg_l; lia). lia. }
  exists vs, rest. unfold drain. rewrite Hd. cbn [bind fst snd it_end adapter_iterator]. unfold ad_end.
  cbn [ad_position ad_iter]. fold W. replace (W * m <? zlen rest) with false by lia. cbn [bind fst snd].
  eexists. split; [reflexivity|]. split; [split; assumption|]. split; [exact Hv|].
  assert (Hnil : rest = [] <-> zlen rest = 0).
  { destruct rest as [|x rest]; [split; reflexivity|]. rewrite zlen_cons. pose proof (zlen_nonneg rest). split; [discriminate|lia]. }
  rewrite Hnil. split.
  - intros Hz. assert (Hwm : W * m = zlen l) by lia.
    destruct (Z_le_gt_dec m 1) as [Hm1|Hm1].
    + assert (m = 0 \/ m = 1) as [E|E] by lia; rewrite E in Hwm; lia.
    + exfalso. assert (W * (m + 1) <= W * q) by (apply Z.mul_le_mono_nonneg_l; lia). lia.
  - intros [E|E].
    + assert (zlen rest <= 0 \/ 0 < W * m) by lia. assert (0 <= W * m) by (apply Z.mul_nonneg_nonneg; lia). lia.
    + assert (q = 1) as Eq. { unfold q. rewrite E. apply Z.div_same. lia. }
      assert (m = 1) as Em by (unfold m; rewrite Eq; reflexivity). rewrite Em in Hlen. lia.
Qed.

Lemma ad_end_overruns : forall (A : Type) c ty (items v : list A) (i : Z), WIDTH ty <= 64 ->
  i < zlen items -> 0 <= i < WIDTH ty -> (i + 1 < zlen items \/ build c = Debug) ->
  ad_end_loop c ty items i v = match build c with Debug => Panic | Release => UB end.
Proof.
  intros A c ty. pose proof usize_mod_val as Hum.
  induction items as [|x items IH]; intros v i HW Hi Hw Hc.
  - change (zlen (@nil A)) with 0 in Hi. lia.
  - rewrite zlen_cons in *. cbn [ad_end_loop]. rewrite (replace_unchecked_lt A c) by lia. cbn [bind].
    destruct (Z.eq_dec i 0) as [->|Hne].
    + unfold usub, uarith. cbn [Z.leb andb]. destruct (build c) eqn:Eb; [reflexivity|].
      cbn [Z.sub Z.opp Z.add Z.leb Z.compare andb bind].
      destruct items as [|x2 items]; [change (zlen (@nil A)) with 0 in *; destruct Hc; [lia|congruence]|].
      cbn [ad_end_loop]. unfold replace_unchecked. rewrite Eb.
      assert (Hbig : (-1 mod usize_mod <? WIDTH ty) = false) by (rewrite Hum; lia). rewrite Hbig. reflexivity.
    + rewrite usub_ok by lia. cbn [bind]. apply IH; try lia. destruct Hc; [left; lia|right; assumption].
Qed.

Lemma c32_overrun_refuted : forall (A : Type) (c : config) (ty : vty) (l scr d : list A) (fuel : nat),
  vty_ok ty -> zlen scr = WIDTH ty -> zlen l < usize_mod -> (length l < fuel)%nat ->
  (zlen l / WIDTH ty) mod 2 = 0 -> 2 * WIDTH ty <= zlen l -> zlen l mod WIDTH ty <> 0 ->
  drain (adapter_iterator c ty) fuel (mkSIMDAdapter l scr d 0) = match build c with Debug => Panic | Release => UB end.
Proof.
  intros A c ty l scr d fuel Hty Hs Hl Hf He H2W Hr. pose proof (vty_ok_facts _ Hty) as (H1 & H2 & H3 & H4 & H5 & H6).
  pose proof usize_mod_val as Hum.
  destruct (ad_half A c ty l scr d fuel Hty Hs Hl Hf) as (vs & rest & scr' & [Hc1 Hc2] & Hv & Hd).
  pose proof (zlen_nonneg l) as Hl0. pose proof (zlen_nonneg rest) as Hr0.
  pose proof (Z.div_mod (zlen l) (WIDTH ty) ltac:(lia)) as Hdm. pose proof (Z.mod_pos_bound (zlen l) (WIDTH ty) ltac:(lia)) as Hmb.
  assert (Hq2 : 2 <= zlen l / WIDTH ty) by (apply Z.div_le_lower_bound; lia).
  assert (Hlen : WIDTH ty * zlen vs + zlen rest = zlen l).
  { rewrite <- (concat_zlen (WIDTH ty) vs Hc1), <- zlen_app, Hc2. reflexivity. }
  rewrite Hv in Hlen. set (q := zlen l / WIDTH ty) in *. set (r := zlen l mod WIDTH ty) in *. set (W := WIDTH ty) in *.
  set (m := (q + 1) / 2) in *.
  assert (Hm : 2 * m = q) by (unfold m; clear -He; lia).
  assert (HWq : W * q = W * m + W * m) by (rewrite <- Hm; ring).
  assert (HWm : W * 1 <= W * m) by (apply Z.mul_le_mono_nonneg_l; lia).
  unfold drain. rewrite Hd. cbn [bind fst snd it_end adapter_iterator]. unfold ad_end.
  cbn [ad_position ad_iter ad_default]. fold W. replace (W * m <? zlen rest) with true by lia.
  rewrite usub_ok by lia. cbn [bind].
  rewrite ad_end_overruns; fold W; [destruct (build c); reflexivity|lia|lia|lia|left; lia].
Qed.
