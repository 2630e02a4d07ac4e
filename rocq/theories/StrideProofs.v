(** Proofs of the properties: strided views (C21-C26). *)
From Verif Require Import Base Spec Vecs Iters Stride.
From Coq Require Import Lia ZifyBool ZifyNat.
From Verif Require Import ListFacts VecFacts IterFacts MapFacts StrideFacts.
Ltac Zify.zify_post_hook ::= Z.div_mod_to_equations.

Lemma stride_streams : forall (A T : Type) (data : T) (count : Z) (defaults : list (list A)),
  zlen defaults = count ->
  exists streams, stride data count defaults = Ok streams /\ zlen streams = count /\
  forall k d, nth_error defaults k = Some d ->
    nth_error streams k = Some (mkPackedStride data (Z.of_nat k) (Z.of_nat k) count d).
Proof.
  intros A T data count defaults H. unfold stride. replace (zlen defaults =? count) with true by lia.
  cbn [rassert bind]. eexists. split; [reflexivity|]. split.
  - unfold zlen in *. rewrite map_length, combine_length, seq_length. lia.
  - intros k d Hk.
    assert (Hc : forall (ds : list (list A)) a k d, nth_error ds k = Some d ->
      nth_error (combine (seq a (length ds)) ds) k = Some ((a + k)%nat, d)).
    { clear. induction ds as [|x ds IH]; intros a k d H; [destruct k; discriminate|].
      destruct k as [|k]; cbn in *.
      - injection H as <-. rewrite Nat.add_0_r. reflexivity.
      - rewrite (IH (S a) k d H). replace (S a + k)%nat with (a + S k)%nat by lia. reflexivity. }
    apply (nth_error_map_some (fun kd => mkPackedStride data (Z.of_nat (fst kd)) (Z.of_nat (fst kd)) count (snd kd))
             _ _ _ (Hc defaults 0%nat k d Hk)).
Qed.

Lemma stream_drain : forall (A T : Type) (c : config) (arr : SIMDArray A T) (t : T) (l d : list A) (d0 : A) base str fuel,
  vty_ok (arr_ty arr) -> array_holds arr t l -> zlen l < max_len -> zlen d = WIDTH (arr_ty arr) ->
  0 <= base < str -> str * (WIDTH (arr_ty arr) + 1) <= max_len -> (length l < fuel)%nat ->
  exists out vs rest s',
    is_stream l base str out /\
    drain (stride_iterator c arr d0) fuel (mkPackedStride t base base str d) = Ok (vs, tail_of d rest, s') /\
    chunked (WIDTH (arr_ty arr)) out vs rest /\ zlen rest <= WIDTH (arr_ty arr) /\
    delivered vs (tail_of d rest) = out /\
    it_next (itb (stride_iterator c arr d0)) s' = Ok (None, s') /\
    it_end (stride_iterator c arr d0) s' = Ok (None, s').
Proof.
  intros A T c arr t l d d0 base str fuel Hty Harr Hsm Hd Hb Hstr Hf.
  pose proof (vty_ok_facts _ Hty) as (H1 & _).
  destruct (is_stream_exists l base str Hb) as [out Hout].
  pose proof (ps_stepping c arr d0 t l out d base str Hty Harr Hsm Hb Hstr Hout Hd) as Hst.
  pose proof (ps_at_start t l out d base str Hb Hout) as H0.
  destruct (stepping_emits c _ _ out d _ Hst _ 0 H0 ltac:(left; reflexivity)) as (vs & rest & s' & He & Hc & Hr & HR).
  cbn [Z.to_nat skipn] in Hc.
  exists out, vs, rest, s'. split; [exact Hout|]. split; [|split; [exact Hc|split; [exact Hr|]]].
  - apply emits_drain; [exact He|].
    pose proof (chunked_length (arr_ty arr) out Hty vs rest Hc) as Hcl.
    destruct Hout as [Hl _]. assert (zlen out <= zlen l).
    { rewrite Hl. pose proof (zlen_nonneg l). apply Z.div_le_upper_bound; nia. }
    unfold zlen in *. lia.
  - split; [|split].
    + rewrite (delivered_tail (arr_ty arr) d Hd vs rest) by exact Hr. apply Hc.
    + apply (next_none_end _ _ _ _ _ Hst). exact HR.
    + apply (blanket_end_none c _ _ _ _ _ Hst). exact HR.
Qed.

Lemma c21_stride : forall (A : Type) (c : config) (ty : vty) (l : list A) (count : Z)
    (defaults : list (list A)) (d0 : A) (fuel : nat),
  vty_ok ty -> slice_ok ty l -> 1 <= count -> count * (WIDTH ty + 1) <= 2 ^ 63 ->
  zlen defaults = count -> Forall (fun d => zlen d = WIDTH ty) defaults -> (length l < fuel)%nat ->
  let it := stride_iterator c (slice_array c ty) d0 in
  exists streams, stride l count defaults = Ok streams /\ zlen streams = count /\
  forall k s d, nth_error streams k = Some s -> nth_error defaults k = Some d ->
  exists out vs rest s',
    is_stream l (Z.of_nat k) count out /\
    drain it fuel s = Ok (vs, tail_of d rest, s') /\
    chunked (WIDTH ty) out vs rest /\ zlen rest <= WIDTH ty /\
    delivered vs (tail_of d rest) = out /\
    it_next (itb it) s' = Ok (None, s') /\ it_end it s' = Ok (None, s').
Proof.
  intros A c ty l count defaults d0 fuel Hty Hl Hc1 Hc2 Hz Hds Hf it.
  destruct (stride_streams A _ l count defaults Hz) as (streams & Hs & Hn & Hk).
  exists streams. split; [exact Hs|]. split; [exact Hn|]. intros k s d Hks Hkd.
  pose proof (Hk k d Hkd) as E. rewrite Hks in E. injection E as ->.
  pose proof (proj1 (Forall_forall _ _) Hds d (nth_error_In _ _ Hkd)) as Hd.
  pose proof (nth_error_lt _ _ _ Hkd) as Hlt.
  apply (stream_drain A _ c (slice_array c ty) l l d d0 (Z.of_nat k) count fuel); try assumption.
  - apply slice_array_holds. exact Hty.
  - eapply slice_small; eassumption.
  - unfold zlen in Hz. lia.
Qed.

Lemma stream_vectors : forall (A : Type) (c : config) (ty : vty) (l d : list A) (d0 : A) (k count : Z),
  vty_ok ty -> slice_ok ty l -> 0 <= k < count -> count * (WIDTH ty + 1) <= 2 ^ 63 ->
  forall fuel j, 0 <= j -> WIDTH ty * j <= zlen l / count -> zlen l - j < Z.of_nat fuel ->
  exists vs s', drain_next (stride_iterator c (slice_array c ty) d0) fuel (mkPackedStride l (k + count * (WIDTH ty * j)) k count d) = Ok (vs, s') /\
    zlen vs = Z.max 0 ((zlen l - 1 - k - count * WIDTH ty * j) / (count * WIDTH ty)).
Proof.
  intros A c ty l d d0 k count Hty Hl Hk Hc. pose proof (vty_ok_facts _ Hty) as (H1 & _).
  assert (HD : 0 < count * WIDTH ty) by nia.
  destruct (is_stream_exists l k count Hk) as [out Hout].
  assert (Hcases : forall q, 0 <= q <= zlen out -> _) by
    exact (ps_next_cases c (slice_array c ty) d0 l l out d k count Hty (slice_array_holds c ty l Hty) (slice_small ty l Hty Hl) Hk Hc Hout).
  cbn [arr_ty slice_array] in Hcases. destruct Hout as [Hlen _].
  induction fuel as [|fuel IH]; intros j Hj Hjn Hf.
  { assert (zlen l / count <= zlen l) by (pose proof (zlen_nonneg l); apply Z.div_le_upper_bound; nia). nia. }
  cbn [drain_next]. rewrite Hlen in Hcases.
  destruct (Hcases (WIDTH ty * j)) as [(Ha & Hb & Hx)|(Ha & Hb & Hx)]; [nia| |];
    cbn [itb stride_iterator blanket_iterator ps_iterable it_next]; rewrite Hx; cbn [bind].
  - replace (WIDTH ty * j + WIDTH ty) with (WIDTH ty * (j + 1)) in * by ring.
    destruct (IH (j + 1)) as (vs & s' & Hd & Hz); [lia|lia|lia|]. rewrite Hd. cbn [bind fst snd].
    eexists _, _. split; [reflexivity|]. rewrite zlen_cons, Hz.
    replace (zlen l - 1 - k - count * WIDTH ty * j) with (1 * (count * WIDTH ty) + (zlen l - 1 - k - count * WIDTH ty * (j + 1))) by ring.
    rewrite Z.div_add_l by lia.
    assert (0 <= (zlen l - 1 - k - count * WIDTH ty * (j + 1)) / (count * WIDTH ty)); [|lia].
    apply Z.div_pos; [|lia]. lia.
  - eexists _, _. split; [reflexivity|]. rewrite zlen_nil.
    assert ((zlen l - 1 - k - count * WIDTH ty * j) / (count * WIDTH ty) < 1); [|lia].
    apply Z.div_lt_upper_bound; [lia|]. lia.
Qed.

Lemma short_count : forall n k D, 0 <= n -> 0 <= k < D -> Z.max 0 ((n - 1 - k) / D) = n / D - (if (D <=? n) && (n mod D <=? k) then 1 else 0).
Proof.
  intros n k D Hn Hk. pose proof (Z.div_mod n D ltac:(lia)) as Hdm. pose proof (Z.mod_pos_bound n D ltac:(lia)) as Hm.
  assert (Hq : 0 <= n / D) by (apply Z.div_pos; lia).
  destruct (n mod D <=? k) eqn:E.
  - assert (Hd : (n - 1 - k) / D = n / D - 1) by (symmetry; apply Z.div_unique with (n mod D - 1 - k + D); lia).
    rewrite Hd. destruct (D <=? n) eqn:E2; cbn [andb].
    + assert (1 <= n / D) by (apply Z.div_le_lower_bound; lia). lia.
    + rewrite Z.div_small by lia. lia.
  - assert (Hd : (n - 1 - k) / D = n / D) by (symmetry; apply Z.div_unique with (n mod D - 1 - k); lia).
    rewrite Hd, andb_false_r. lia.
Qed.

Lemma c17_len_stride_refuted : forall (A : Type) (c : config) (ty : vty) (l : list A) (count : Z)
    (defaults : list (list A)) (d0 : A) (fuel : nat),
  vty_ok ty -> slice_ok ty l -> 1 <= count -> count * (WIDTH ty + 1) <= 2 ^ 63 ->
  zlen defaults = count -> (length l < fuel)%nat ->
  let it := stride_iterator c (slice_array c ty) d0 in
  exists streams, stride l count defaults = Ok streams /\ zlen streams = count /\
  forall k s, nth_error streams k = Some s ->
  exists vs s' n, drain_next it fuel s = Ok (vs, s') /\ it_len (itb it) s = Ok n /\
    n = zlen l / (count * WIDTH ty) /\
    zlen vs = n - (if (count * WIDTH ty <=? zlen l) && (zlen l mod (count * WIDTH ty) <=? Z.of_nat k) then 1 else 0).
Proof.
  intros A c ty l count defaults d0 fuel Hty Hl Hc1 Hc2 Hz Hf it.
  pose proof (vty_ok_facts _ Hty) as (H1 & _). pose proof (zlen_nonneg l).
  destruct (stride_streams A _ l count defaults Hz) as (streams & Hs & Hn & Hk).
  exists streams. split; [exact Hs|]. split; [exact Hn|]. intros k s Hks.
  pose proof (nth_error_lt _ _ _ Hks) as Hlt. destruct (nth_error defaults k) as [d|] eqn:Hkd.
  2:{ apply nth_error_None in Hkd. unfold zlen in *. lia. }
  pose proof (Hk k d Hkd) as E. rewrite Hks in E. injection E as ->.
  assert (Hkc : 0 <= Z.of_nat k < count) by (unfold zlen in Hn; lia).
  destruct (stream_vectors A c ty l d d0 (Z.of_nat k) count Hty Hl Hkc Hc2 fuel 0) as (vs & s' & Hd & Hv).
  { lia. }
  { rewrite Z.mul_0_r. apply Z.div_pos; lia. }
  { unfold zlen. lia. }
  rewrite !Z.mul_0_r, Z.add_0_r in Hd. exists vs, s', (zlen l / (count * WIDTH ty)). split; [exact Hd|]. split.
  - cbn. unfold ps_len. cbn. rewrite udiv_ok by lia. cbn [bind]. rewrite udiv_ok by lia. rewrite Z.div_div by lia. f_equal. f_equal. ring.
  - split; [reflexivity|]. rewrite Hv, Z.mul_0_r, Z.sub_0_r. apply short_count; [lia|]. nia.
Qed.

Lemma interleave_streams : forall (A : Type) (l : list A) (count : Z) (outs : list (list A)),
  1 <= count -> zlen outs = count ->
  (forall k out, nth_error outs k = Some out -> is_stream l (Z.of_nat k) count out) ->
  interleave outs (Z.to_nat (zlen l / count)) = firstn (Z.to_nat (zlen l / count * count)) l.
Proof.
  intros A l count outs Hc Hz Hs. unfold interleave.
  pose proof (zlen_nonneg l) as Hl0.
  assert (Hq : 0 <= zlen l / count) by (apply Z.div_pos; lia).
  assert (Hqc : zlen l / count * count <= zlen l) by (rewrite Z.mul_comm; apply Z.mul_div_le; lia).
  assert (Hgrp : forall j, Z.of_nat j < zlen l / count ->
    flat_map (fun out => match nth_error out j with Some x => [x] | None => [] end) outs =
    sub l (Z.of_nat j * count) count).
  { intros j Hj.
    assert (Hgen : forall (os : list (list A)) a, (forall k out, nth_error os k = Some out -> is_stream l (Z.of_nat (a + k)) count out) ->
      Z.of_nat a + zlen os <= count ->
      flat_map (fun out => match nth_error out j with Some x => [x] | None => [] end) os =
      sub l (Z.of_nat j * count + Z.of_nat a) (zlen os)).
    { induction os as [|o os IH]; intros a Hos Ha; [reflexivity|].
      cbn [flat_map]. rewrite (IH (S a)).
      2:{ intros k out Hk. replace (S a + k)%nat with (a + S k)%nat by lia. apply Hos. exact Hk. }
      2:{ rewrite zlen_cons in Ha. lia. }
      destruct (Hos 0%nat o eq_refl) as [Hl Ho]. rewrite Nat.add_0_r in Ho.
      rewrite zlen_cons in Ha. pose proof (zlen_nonneg os).
      specialize (Ho (Z.of_nat j) ltac:(lia)).
      unfold znth in Ho at 1. replace (Z.of_nat j <? 0) with false in Ho by lia. rewrite Nat2Z.id in Ho.
      rewrite Ho. replace (Z.of_nat a + count * Z.of_nat j) with (Z.of_nat j * count + Z.of_nat a) by lia.
      destruct (znth_exists l (Z.of_nat j * count + Z.of_nat a) ltac:(nia)) as [x Hx]. rewrite Hx.
      rewrite zlen_cons. unfold sub.
      replace (Z.to_nat (1 + zlen os)) with (S (Z.to_nat (zlen os))) by lia.
      assert (Hsk : skipn (Z.to_nat (Z.of_nat j * count + Z.of_nat a)) l =
        x :: skipn (Z.to_nat (Z.of_nat j * count + Z.of_nat (S a))) l).
      { unfold znth in Hx. replace (Z.of_nat j * count + Z.of_nat a <? 0) with false in Hx by nia.
        replace (Z.to_nat (Z.of_nat j * count + Z.of_nat (S a))) with (S (Z.to_nat (Z.of_nat j * count + Z.of_nat a))) by nia.
        generalize dependent (Z.to_nat (Z.of_nat j * count + Z.of_nat a)). clear.
        induction l as [|y l IH]; intros n Hn; [destruct n; discriminate|].
        destruct n; cbn in *; [congruence|]. apply IH. exact Hn. }
      rewrite Hsk. reflexivity. }
    rewrite (Hgen outs 0%nat); [|exact Hs|lia]. rewrite Hz. f_equal. lia. }
  assert (Hall : forall n a, Z.of_nat (a + n) <= zlen l / count ->
    flat_map (fun j => flat_map (fun out => match nth_error out j with Some x => [x] | None => [] end) outs) (seq a n) =
    sub l (Z.of_nat a * count) (Z.of_nat n * count)).
  { induction n as [|n IH]; intros a Ha; [reflexivity|]. cbn [seq flat_map].
    rewrite Hgrp by lia. rewrite IH by lia. unfold sub.
    replace (Z.to_nat (Z.of_nat (S n) * count)) with (Z.to_nat count + Z.to_nat (Z.of_nat n * count))%nat by nia.
    replace (Z.to_nat (Z.of_nat (S a) * count)) with (Z.to_nat (Z.of_nat a * count) + Z.to_nat count)%nat by nia.
    rewrite <- skipn_skipn. generalize (skipn (Z.to_nat (Z.of_nat a * count)) l). generalize (Z.to_nat count).
    generalize (Z.to_nat (Z.of_nat n * count)). clear. intros p q l. revert l.
    induction q as [|q IH]; intros l; [reflexivity|]. destruct l; cbn; [rewrite firstn_nil; reflexivity|].
    f_equal. apply IH. }
  rewrite Hall by lia. unfold sub. cbn [Z.of_nat Z.mul Z.to_nat skipn]. f_equal. lia.
Qed.

Lemma stride_outs : forall (A : Type) (c : config) (ty : vty) (l : list A) (count : Z)
    (defaults : list (list A)) (d0 : A) (fuel : nat),
  vty_ok ty -> slice_ok ty l -> 1 <= count -> count * (WIDTH ty + 1) <= 2 ^ 63 ->
  zlen defaults = count -> Forall (fun d => zlen d = WIDTH ty) defaults -> (length l < fuel)%nat ->
  exists streams outs, stride l count defaults = Ok streams /\
    Forall2 (fun s out => exists vs t s',
       drain (stride_iterator c (slice_array c ty) d0) fuel s = Ok (vs, t, s') /\ delivered vs t = out) streams outs /\
    zlen outs = count /\ (forall k out, nth_error outs k = Some out -> is_stream l (Z.of_nat k) count out).
Proof.
  intros A c ty l count defaults d0 fuel Hty Hl Hc1 Hc2 Hz Hds Hf.
  destruct (c21_stride A c ty l count defaults d0 fuel Hty Hl Hc1 Hc2 Hz Hds Hf) as (streams & Hs & Hn & Hk).
  exists streams.
  assert (Hgen : forall ss ds a, length ss = length ds ->
    (forall k s d, nth_error ss k = Some s -> nth_error ds k = Some d ->
       exists out vs rest s', is_stream l (Z.of_nat (a + k)) count out /\
         drain (stride_iterator c (slice_array c ty) d0) fuel s = Ok (vs, tail_of d rest, s') /\
         delivered vs (tail_of d rest) = out) ->
    exists outs, Forall2 (fun s out => exists vs t s',
       drain (stride_iterator c (slice_array c ty) d0) fuel s = Ok (vs, t, s') /\ delivered vs t = out) ss outs /\
      length outs = length ss /\
      (forall k out, nth_error outs k = Some out -> is_stream l (Z.of_nat (a + k)) count out)).
  { induction ss as [|s ss IH]; intros [|d ds] a Hlen H; cbn in Hlen; try lia.
    - exists []. split; [constructor|]. split; [reflexivity|]. intros [|k] out Hk'; discriminate.
    - destruct (IH ds (S a)) as (outs & Hf2 & Hlo & Hst). { lia. }
      { intros k s0 d1 Hk1 Hk2. destruct (H (S k) s0 d1 Hk1 Hk2) as (o & vs & r & s' & Ho).
        exists o, vs, r, s'. replace (S a + k)%nat with (a + S k)%nat by lia. exact Ho. }
      destruct (H 0%nat s d eq_refl eq_refl) as (o & vs & r & s' & Ho1 & Ho2 & Ho3).
      exists (o :: outs). split; [constructor; [eauto|exact Hf2]|]. split; [cbn; lia|].
      intros [|k] out Hk'; cbn in Hk'.
      + injection Hk' as <-. exact Ho1.
      + replace (a + S k)%nat with (S a + k)%nat by lia. apply Hst. exact Hk'. }
  destruct (Hgen streams defaults 0%nat) as (outs & Hf2 & Hlo & Hst).
  { unfold zlen in *. lia. }
  { intros k s d H1 H2. destruct (Hk k s d H1 H2) as (o & vs & r & s' & Ha & Hb & _ & _ & Hd & _).
    exists o, vs, r, s'. auto. }
  exists outs. split; [exact Hs|]. split; [exact Hf2|]. split; [unfold zlen in *; lia|exact Hst].
Qed.

Lemma c22_partition : forall (A : Type) (c : config) (ty : vty) (l : list A) (count : Z)
    (defaults : list (list A)) (d0 : A) (fuel : nat),
  vty_ok ty -> slice_ok ty l -> 1 <= count -> count * (WIDTH ty + 1) <= 2 ^ 63 ->
  zlen defaults = count -> Forall (fun d => zlen d = WIDTH ty) defaults -> (length l < fuel)%nat ->
  exists streams outs, stride l count defaults = Ok streams /\
    Forall2 (fun s out => exists vs t s',
       drain (stride_iterator c (slice_array c ty) d0) fuel s = Ok (vs, t, s') /\ delivered vs t = out)
      streams outs /\
    interleave outs (Z.to_nat (zlen l / count)) = firstn (Z.to_nat (zlen l / count * count)) l /\
    (zlen l mod count = 0 -> interleave outs (Z.to_nat (zlen l / count)) = l).
Proof.
  intros A c ty l count defaults d0 fuel Hty Hl Hc1 Hc2 Hz Hds Hf.
  destruct (stride_outs A c ty l count defaults d0 fuel Hty Hl Hc1 Hc2 Hz Hds Hf) as (streams & outs & Hs & Hf2 & Hzo & Hst).
  exists streams, outs. split; [exact Hs|]. split; [exact Hf2|].
  pose proof (interleave_streams A l count outs Hc1 Hzo Hst) as Hi. split; [exact Hi|].
  intros Hmod. rewrite Hi. apply firstn_all2.
  pose proof (Z.div_mod (zlen l) count ltac:(lia)). unfold zlen in *. lia.
Qed.

Lemma c22_trailing_lost : forall (A : Type) (c : config) (ty : vty) (l : list A) (count : Z)
    (defaults : list (list A)) (d0 : A) (fuel : nat),
  vty_ok ty -> slice_ok ty l -> 1 <= count -> count * (WIDTH ty + 1) <= 2 ^ 63 ->
  zlen defaults = count -> Forall (fun d => zlen d = WIDTH ty) defaults -> (length l < fuel)%nat ->
  zlen l mod count <> 0 ->
  exists streams outs, stride l count defaults = Ok streams /\
    Forall2 (fun s out => exists vs t s',
       drain (stride_iterator c (slice_array c ty) d0) fuel s = Ok (vs, t, s') /\ delivered vs t = out)
      streams outs /\
    zlen (concat outs) < zlen l.
Proof.
  intros A c ty l count defaults d0 fuel Hty Hl Hc1 Hc2 Hz Hds Hf Hmod.
  destruct (stride_outs A c ty l count defaults d0 fuel Hty Hl Hc1 Hc2 Hz Hds Hf) as (streams & outs & Hs & Hf2 & Hzo & Hst).
  exists streams, outs. split; [exact Hs|]. split; [exact Hf2|].
  rewrite (concat_zlen (zlen l / count)).
  - rewrite Hzo. pose proof (Z.div_mod (zlen l) count ltac:(lia)).
    pose proof (Z.mod_pos_bound (zlen l) count ltac:(lia)). lia.
  - apply Forall_forall. intros out Hin. apply In_nth_error in Hin. destruct Hin as [k Hk].
    apply (Hst k out Hk).
Qed.

Lemma umul_debug_cases : forall b a x y, a = umul (mkConfig Debug b) x y ->
  a = Panic \/ (a = Ok (x * y) /\ 0 <= x * y < usize_mod).
Proof. intros b a x y ->. unfold umul, uarith. cbn. destruct (_ && _) eqn:E; [right; split; [reflexivity|lia]|left; reflexivity]. Qed.

Lemma uadd_debug_cases : forall b a x y, a = uadd (mkConfig Debug b) x y ->
  a = Panic \/ (a = Ok (x + y) /\ 0 <= x + y < usize_mod).
Proof. intros b a x y ->. unfold uadd, uarith. cbn. destruct (_ && _) eqn:E; [right; split; [reflexivity|lia]|left; reflexivity]. Qed.

Lemma gather_at : forall (A : Type) (c : config) (ty : vty) (l : list A) (d0 : A) (f : Z -> list A -> outcome (list A)) pos str,
  vty_ok ty -> 0 <= pos -> 0 <= str -> pos + str * (WIDTH ty - 1) < zlen l ->
  (forall i x b, 0 <= i < WIDTH ty -> znth l (pos + str * i) = Some x -> f i b = Ok (upd b i [x])) ->
  exists v, for_range (Z.to_nat (WIDTH ty)) 0 f (splat (WIDTH ty) d0) = Ok v /\
    zlen v = WIDTH ty /\ forall i, 0 <= i < WIDTH ty -> znth v i = znth l (pos + str * i).
Proof.
  intros A c ty l d0 f pos str Hty Hpos Hstr Hlast Hf.
  pose proof (vty_ok_facts _ Hty) as (H1 & _).
  assert (Hx : exists xs, zlen xs = WIDTH ty /\ forall i, 0 <= i < WIDTH ty -> znth xs i = znth l (pos + str * i)).
  { assert (Hgen : forall n p, 0 <= p -> p + str * (Z.of_nat n - 1) < zlen l ->
      exists xs, zlen xs = Z.of_nat n /\ forall i, 0 <= i < Z.of_nat n -> znth xs i = znth l (p + str * i)).
    { clear -Hstr. induction n as [|n IH]; intros p Hp Hn.
      - exists []. split; [reflexivity|]. intros i Hi. lia.
      - destruct (znth_exists l p ltac:(nia)) as [x Hx].
        destruct n as [|n].
        + exists [x]. split; [reflexivity|]. intros i Hi. assert (i = 0) by lia. subst i.
          rewrite Z.mul_0_r, Z.add_0_r. rewrite Hx. reflexivity.
        + destruct (IH (p + str) ltac:(lia) ltac:(nia)) as (xs & Hz & Hxs).
          exists (x :: xs). split; [rewrite zlen_cons; lia|]. intros i Hi.
          destruct (Z.eq_dec i 0) as [->|].
          * rewrite Z.mul_0_r, Z.add_0_r, Hx. reflexivity.
          * specialize (Hxs (i - 1) ltac:(lia)).
            replace (p + str + str * (i - 1)) with (p + str * i) in Hxs by lia. rewrite <- Hxs.
            unfold znth. replace (i <? 0) with false by lia. replace (i - 1 <? 0) with false by lia.
            replace (Z.to_nat i) with (S (Z.to_nat (i - 1))) by lia. reflexivity. }
    destruct (Hgen (Z.to_nat (WIDTH ty)) pos Hpos ltac:(rewrite Z2Nat.id by lia; exact Hlast)) as (xs & Hz & Hxs).
    rewrite Z2Nat.id in * by lia. eauto. }
  destruct Hx as (xs & Hz & Hxs). exists xs. split; [|split; [exact Hz|exact Hxs]].
  pose proof (for_range_write f xs 0 [] (splat (WIDTH ty) d0) []) as Hw.
  cbn [app] in Hw. rewrite !app_nil_r in Hw.
  replace (length xs) with (Z.to_nat (WIDTH ty)) in Hw by (unfold zlen in Hz; lia).
  apply Hw.
  - unfold splat. apply repeat_length.
  - intros k x b Hk Hb. change (zlen (@nil A)) with 0. rewrite !Z.add_0_l.
    pose proof (nth_error_lt _ _ _ Hk) as Hlt.
    apply Hf; [unfold zlen in Hz; lia|].
    rewrite <- Hxs by (unfold zlen in Hz; lia). apply znth_nat. exact Hk.
Qed.

Lemma c23_next_in_bounds_partial : forall (A : Type) (c : config) (ty : vty) (l d : list A) (d0 : A) (pos base str : Z),
  vty_ok ty -> slice_ok ty l -> 0 <= pos < usize_mod -> 0 <= base < usize_mod -> 0 <= str < usize_mod ->
  (build c = Debug \/ pos + str * WIDTH ty < usize_mod) ->
  match it_next (itb (stride_iterator c (slice_array c ty) d0)) (mkPackedStride l pos base str d) with
  | Ok (Some v, s') =>
      pos + str * WIDTH ty < zlen l /\ s' = mkPackedStride l (pos + str * WIDTH ty) base str d /\
      zlen v = WIDTH ty /\
      forall i, 0 <= i < WIDTH ty -> pos + str * i < zlen l /\ znth v i = znth l (pos + str * i)
  | Ok (None, s') => s' = mkPackedStride l pos base str d /\ zlen l <= pos + str * WIDTH ty
  | Panic => build c = Debug
  | UB | Fuel => False
  end.
Proof.
  intros A c ty l d d0 pos base str Hty Hl Hpos Hbase Hstr Hno.
  pose proof (vty_ok_facts _ Hty) as (H1 & H2 & H3 & H4 & H5 & H6).
  pose proof (slice_small ty l Hty Hl) as Hm. unfold max_len in Hm. pose proof usize_mod_val as Hum.
  cbn [itb stride_iterator blanket_iterator ps_iterable it_next]. unfold ps_next.
  cbn [ps_stride ps_pos ps_iter arr_ty slice_array arr_scalar_len].
  destruct (Z_lt_le_dec (pos + str * WIDTH ty) usize_mod) as [Hlt|Hge].
  2:{ destruct Hno as [Hdbg|]; [|lia]. unfold umul, uadd, uarith. rewrite Hdbg.
      destruct ((0 <=? str * WIDTH ty) && (str * WIDTH ty <? usize_mod)); cbn [bind]; [|reflexivity].
      replace ((0 <=? pos + str * WIDTH ty) && (pos + str * WIDTH ty <? usize_mod)) with false by lia.
      reflexivity. }
  rewrite umul_ok by nia. cbn [bind]. rewrite uadd_ok by nia. cbn [bind].
  destruct (pos + str * WIDTH ty <? zlen l) eqn:E.
  - match goal with |- context[for_range _ 0 ?F _] => set (f := F) end.
    destruct (gather_at A c ty l d0 f pos str Hty) as (v & Hv & Hz & Hn); [lia|lia|nia| |].
    { intros i x b Hi Hx. unfold f. rewrite umul_ok by nia. cbn [bind]. rewrite uadd_ok by nia. cbn [bind].
      pose proof (ah_scalar _ _ _ (slice_array_holds c ty l Hty) _ x Hx) as Hs. cbn [slice_array] in Hs.
      cbn [arr_load_scalar_unchecked slice_array] in *. rewrite Hs. cbn [bind].
      apply replace_ok. lia. }
    rewrite Hv. cbn [bind]. unfold ps_advance. cbn [ps_stride ps_pos ps_iter ps_base ps_default].
    rewrite umul_ok by nia. cbn [bind]. rewrite uadd_ok by nia. cbn [bind].
    replace (pos + WIDTH ty * str) with (pos + str * WIDTH ty) by lia.
    split; [lia|]. split; [reflexivity|]. split; [exact Hz|]. intros i Hi. split; [nia|apply Hn; exact Hi].
  - split; [reflexivity|lia].
Qed.

Lemma c23_scalar_in_bounds_partial : forall (A : Type) (c : config) (ty : vty) (l d : list A) (d0 : A) (pos base str : Z),
  vty_ok ty -> slice_ok ty l -> 0 <= base < str -> base <= pos -> pos + str < usize_mod ->
  match unpacked_next (ps_array c (slice_array c ty) d0) (itb (stride_iterator c (slice_array c ty) d0))
          (mkPackedStride l pos base str d) with
  | Ok (Some x, s') => znth l (base + (pos - base) / str * str) = Some x /\
      s' = mkPackedStride l (pos + str) base str d
  | Ok (None, s') => s' = mkPackedStride l pos base str d
  | Panic => False
  | UB | Fuel => False
  end.
Proof.
  intros A c ty l d d0 pos base str Hty Hl Hb Hpos Hov.
  pose proof (vty_ok_facts _ Hty) as (H1 & H2 & H3 & H4 & H5 & H6).
  pose proof (slice_small ty l Hty Hl) as Hm. unfold max_len in Hm. pose proof usize_mod_val as Hum.
  unfold unpacked_next. cbn [itb stride_iterator blanket_iterator ps_iterable it_scalar_pos it_scalar_len it_advance].
  unfold ps_scalar_pos, ps_scalar_len. cbn [ps_stride ps_pos ps_iter ps_base arr_scalar_len slice_array].
  rewrite usub_ok by lia. cbn [bind]. rewrite udiv_ok by lia. cbn [bind]. rewrite udiv_ok by lia. cbn [bind].
  set (k := (pos - base) / str).
  assert (Hk0 : 0 <= k) by (apply Z.div_pos; lia).
  destruct (k <? zlen l / str) eqn:E; [|reflexivity].
  assert (Hk : base + k * str < zlen l).
  { pose proof (Z.mul_div_le (zlen l) str ltac:(lia)). assert (str * (k + 1) <= str * (zlen l / str)) by (apply Z.mul_le_mono_nonneg_l; lia). lia. }
  assert (Hks : 0 <= k * str) by (apply Z.mul_nonneg_nonneg; lia).
  destruct (znth_exists l (base + k * str) ltac:(lia)) as [x Hx].
  cbn [ps_array arr_load_scalar_unchecked]. unfold ps_load_scalar_unchecked. cbn [ps_stride ps_base ps_iter].
  rewrite umul_ok by lia. cbn [bind]. rewrite uadd_ok by lia. cbn [bind].
  rewrite (ah_scalar _ _ _ (slice_array_holds c ty l Hty) _ x Hx). cbn [bind].
  unfold ps_advance. cbn [ps_stride ps_pos ps_iter ps_base ps_default].
  rewrite umul_ok by lia. cbn [bind]. rewrite uadd_ok by lia. cbn [bind].
  split; [exact Hx|]. f_equal. lia.
Qed.

Lemma c23_wrapped_next_refuted : forall (A : Type) (b : bool) (ty : vty) (l d : list A) (d0 : A) (pos base str : Z),
  let c := mkConfig Release b in
  vty_ok ty -> slice_ok ty l -> 0 <= str -> str * WIDTH ty < usize_mod -> zlen l <= pos < usize_mod ->
  usize_mod <= pos + str * WIDTH ty < usize_mod + zlen l ->
  it_next (itb (stride_iterator c (slice_array c ty) d0)) (mkPackedStride l pos base str d) = UB.
Proof.
  intros A b ty l d d0 pos base str c Hty Hl Hs Hsw Hp Hw.
  pose proof (vty_ok_facts _ Hty) as (H1 & _).
  pose proof (zlen_nonneg l) as Hl0.
  cbn [itb stride_iterator blanket_iterator ps_iterable it_next]. unfold ps_next.
  cbn [ps_stride ps_pos ps_iter arr_ty slice_array arr_scalar_len].
  rewrite umul_ok by nia. cbn [bind]. unfold uadd at 1, uarith at 1. cbn [build c].
  replace ((0 <=? pos + str * WIDTH ty) && (pos + str * WIDTH ty <? usize_mod)) with false by lia.
  cbn [bind]. replace ((pos + str * WIDTH ty) mod usize_mod) with (pos + str * WIDTH ty - usize_mod)
    by (apply (Z.mod_unique_pos _ _ 1); lia).
  replace (pos + str * WIDTH ty - usize_mod <? zlen l) with true by lia.
  destruct (Z.to_nat (WIDTH ty)) as [|n] eqn:En; [lia|]. cbn [for_range].
  rewrite umul_ok by lia. cbn [bind]. rewrite uadd_ok by lia. cbn [bind].
  unfold arr_load_scalar_unchecked, slice_array. rewrite znth_None by lia. reflexivity.
Qed.

Lemma c23_in_bounds_refuted :
  let c := mkConfig Release true in let ty := mkVty 4 4 in
  let it := stride_iterator c (slice_array c ty) 0 in
  exists (l d : list Z) s s', vty_ok ty /\ slice_ok ty l /\ zlen d = 4 /\
    stride_two l (d, d) = (s, mkPackedStride l 1 1 2 d) /\
    it_advance (itb it) s (2 ^ 63 - 1) = Ok s' /\ it_next (itb it) s' = UB.
Proof.
  exists (repeat 7 10), [0;0;0;0]. eexists. exists (mkPackedStride (repeat 7 10) (usize_mod - 2) 0 2 [0;0;0;0]).
  split; [vm_compute; tauto|]. split; [vm_compute; congruence|].
  split; [reflexivity|]. split; [reflexivity|]. split; [vm_compute; reflexivity|].
  apply c23_wrapped_next_refuted; [vm_compute; tauto|..]; vm_compute; repeat split; congruence.
Qed.

Lemma c24_random_access : forall (A : Type) (c : config) (ty : vty) (l d : list A) (d0 : A) (pos base str i : Z),
  vty_ok ty -> slice_ok ty l -> 0 <= base < str -> 0 <= i -> base + str * (i + WIDTH ty) < usize_mod ->
  let s := mkPackedStride l pos base str d in
  let arr := ps_array c (slice_array c ty) d0 in
  arr_load_scalar arr s i = match znth l (base + str * i) with Some x => Ok x | None => Panic end /\
  (base + str * (i + WIDTH ty - 1) < zlen l ->
     exists v, arr_load arr s i = Ok v /\ zlen v = WIDTH ty /\
       forall j, 0 <= j < WIDTH ty -> znth v j = znth l (base + str * (i + j))) /\
  (zlen l <= base + str * (i + WIDTH ty - 1) -> arr_load arr s i = Panic).
Proof.
  intros A c ty l d d0 pos base str i Hty Hl Hb Hi Hov s arr.
  pose proof (vty_ok_facts _ Hty) as (H1 & H2 & H3 & H4 & H5 & H6).
  pose proof (slice_small ty l Hty Hl) as Hm. unfold max_len in Hm. pose proof usize_mod_val as Hum.
  subst s arr. cbn [ps_array arr_load_scalar arr_load]. unfold ps_load_scalar, ps_load.
  cbn [ps_stride ps_base ps_iter arr_ty slice_array arr_scalar_len].
  split; [|split].
  - rewrite umul_ok by nia. cbn [bind]. rewrite uadd_ok by nia. cbn [bind slice_array arr_load_scalar].
    replace (base + i * str) with (base + str * i) by lia. reflexivity.
  - intros Hlast. rewrite usub_ok by lia. cbn [bind]. rewrite uadd_ok by nia. cbn [bind].
    rewrite umul_ok by nia. cbn [bind]. rewrite uadd_ok by nia. cbn [bind].
    replace (base + str * (i + (WIDTH ty - 1)) <? zlen l) with true by lia. cbn [rassert bind].
    unfold ps_load_unchecked. cbn [ps_stride ps_base ps_iter arr_ty slice_array arr_scalar_len].
    assert (Hda : match build c with
             | Debug =>
               let! w1 := usub c (WIDTH ty) 1 in
               let! d := umul c str w1 in
               let! e := uadd c i d in
               let! len := Ok (zlen l) in rassert (e <? len)
             | Release => Ok tt
             end = Ok tt).
    { destruct (build c) eqn:Eb; [|reflexivity]. rewrite usub_ok by lia. cbn [bind].
      rewrite umul_ok by nia. cbn [bind]. rewrite uadd_ok by nia. cbn [bind].
      replace (i + str * (WIDTH ty - 1) <? zlen l) with true by nia. reflexivity. }
    rewrite Hda. cbn [bind].
    match goal with |- context[for_range _ 0 ?F _] => set (f := F) end.
    destruct (gather_at A c ty l d0 f (base + str * i) str Hty) as (v & Hv & Hz & Hn); [nia|lia|nia| |].
    { intros j x b Hj Hx. unfold f. rewrite uadd_ok by nia. cbn [bind]. rewrite umul_ok by nia. cbn [bind].
      rewrite uadd_ok by nia. cbn [bind].
      replace (base + str * i + str * j) with (base + str * (i + j)) in Hx by lia.
      pose proof (ah_scalar _ _ _ (slice_array_holds c ty l Hty) _ x Hx) as Hs.
      cbn [arr_load_scalar_unchecked slice_array] in *. rewrite Hs. cbn [bind].
      apply replace_ok. lia. }
    exists v. split; [exact Hv|]. split; [exact Hz|]. intros j Hj. rewrite (Hn j Hj). f_equal. lia.
  - intros Hlast. rewrite usub_ok by lia. cbn [bind]. rewrite uadd_ok by nia. cbn [bind].
    rewrite umul_ok by nia. cbn [bind]. rewrite uadd_ok by nia. cbn [bind].
    replace (base + str * (i + (WIDTH ty - 1)) <? zlen l) with false by lia. reflexivity.
Qed.

Lemma c25_constructors : forall (A T : Type) (data : T) (a b d e f g h i j : list A),
  (let '(s0, s1) := stride_two data (a, b) in stride data 2 [a; b] = Ok [s0; s1]) /\
  (let '(s0, s1, s2) := stride_three data (a, b, d) in stride data 3 [a; b; d] = Ok [s0; s1; s2]) /\
  (let '(s0, s1, s2, s3) := stride_four data (a, b, d, e) in
   stride data 4 [a; b; d; e] = Ok [s0; s1; s2; s3]) /\
  (let '(s0, s1, s2, s3, s4, s5, s6, s7, s8) := stride_nine data (a, b, d, e, f, g, h, i, j) in
   stride data 9 [a; b; d; e; f; g; h; i; j] = Ok [s0; s1; s2; s3; s4; s5; s6; s7; s8]) /\
  (forall count defaults, (exists ss, stride (A := A) data count defaults = Ok ss) <-> zlen defaults = count) /\
  (forall count defaults, stride (A := A) data count defaults = Panic <-> zlen defaults <> count).
Proof.
  intros A T data a b d e f g h i j. do 4 (split; [reflexivity|]).
  split; intros count defaults; split.
  - intros [ss H]. unfold stride in H. destruct (zlen defaults =? count) eqn:E; [lia|discriminate].
  - intros H. destruct (stride_streams A T data count defaults H) as (ss & Hs & _). eauto.
  - intros H Hz. destruct (stride_streams A T data count defaults Hz) as (ss & Hs & _). congruence.
  - intros H. unfold stride. replace (zlen defaults =? count) with false by lia. reflexivity.
Qed.

Lemma c26_nested : forall (A : Type) (c : config) (ty : vty) (l d d' : list A) (d0 : A) (m n k j pos : Z) (fuel : nat),
  vty_ok ty -> slice_ok ty l -> zlen d = WIDTH ty -> zlen d' = WIDTH ty ->
  0 <= k < m -> 0 <= j < n -> m * (WIDTH ty + 1) <= 2 ^ 63 -> n * (WIDTH ty + 1) <= 2 ^ 63 ->
  (length l < fuel)%nat ->
  let inner := mkPackedStride l pos k m d in
  let arr := ps_array c (slice_array c ty) d0 in
  exists out vs t s',
    drain (stride_iterator c arr d0) fuel (mkPackedStride inner j j n d') = Ok (vs, t, s') /\
    delivered vs t = out /\ zlen out = zlen l / m / n /\
    forall i, 0 <= i < zlen out -> znth out i = znth l (k + m * j + m * n * i).
Proof.
  intros A c ty l d d' d0 m n k j pos fuel Hty Hl Hd Hd' Hk Hj Hm Hn Hf inner arr.
  destruct (is_stream_exists l k m Hk) as [o1 Ho1].
  pose proof (slice_small ty l Hty Hl) as Hsm.
  pose proof (ps_array_holds c (slice_array c ty) d0 l l o1 d k m Hty (slice_array_holds c ty l Hty) Hsm Hk Hm Ho1 pos) as Hah.
  assert (Hlen : zlen o1 <= zlen l).
  { rewrite (proj1 Ho1). pose proof (zlen_nonneg l). apply Z.div_le_upper_bound; nia. }
  destruct (stream_drain A _ c arr inner o1 d' d0 j n fuel) as (out & vs & rest & s' & Hs & Hdr & _ & _ & Hdel & _);
    try assumption; try lia.
  { unfold zlen in *. lia. }
  exists out, vs, (tail_of d' rest), s'. split; [exact Hdr|]. split; [exact Hdel|].
  destruct Hs as [Hz Hs]. rewrite (proj1 Ho1) in Hz. split; [exact Hz|].
  intros i Hi. rewrite (Hs i Hi). rewrite (proj2 Ho1).
  - f_equal. lia.
  - rewrite (proj1 Ho1). rewrite Hz in Hi. set (q := zlen l / m) in *.
    pose proof (Z.mul_div_le q n ltac:(lia)). nia.
Qed.
