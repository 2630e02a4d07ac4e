(** Proofs of the properties: traversal of slice iterators (C01-C07, C15-C18, C20, C51). *)
From Verif Require Import Base Spec Vecs Iters History.
From Coq Require Import Lia ZifyBool ZifyNat.
From Verif Require Import ListFacts VecFacts IterFacts CollectFacts MapFacts SafetyFacts ReduceFacts ForEachFacts.
Ltac Zify.zify_post_hook ::= Z.div_mod_to_equations.

Lemma c01_traversal : forall (A : Type) (c : config) (ty : vty) (l d : list A) (k : Z) (fuel : nat),
  vty_ok ty -> slice_ok ty l -> zlen d = WIDTH ty ->
  0 <= k <= zlen l -> (k = 0 \/ WIDTH ty < zlen l) -> (length l < fuel)%nat ->
  exists vs rest,
    drain (slice_iterator c ty) fuel (mkSIMDIter k l d) =
      Ok (vs, tail_of d rest, mkSIMDIter (zlen l) l d) /\
    chunked (WIDTH ty) (skipn (Z.to_nat k) l) vs rest /\ zlen rest < WIDTH ty /\
    delivered vs (tail_of d rest) = skipn (Z.to_nat k) l.
Proof.
  intros A c ty l d k fuel Hty Hl Hd Hk Hr Hf.
  destruct (slice_emits c ty l d Hty Hl Hd k Hk ltac:(lia)) as (vs & rest & He & Hc & Hrest).
  exists vs, rest. split; [|split; [exact Hc|split; [exact Hrest|]]].
  - apply emits_drain; [exact He|].
    pose proof (chunked_length ty (skipn (Z.to_nat k) l) Hty vs rest Hc) as H.
    rewrite skipn_length in H. lia.
  - rewrite (delivered_tail ty d Hd) by lia. apply Hc.
Qed.

Lemma c02_end : forall (A : Type) (c : config) (ty : vty) (l d : list A) (k : Z),
  vty_ok ty -> slice_ok ty l -> zlen d = WIDTH ty ->
  0 <= k <= zlen l -> zlen l - k <= WIDTH ty -> (k = 0 \/ WIDTH ty < zlen l) ->
  let it := slice_iterator c ty in
  let left := skipn (Z.to_nat k) l in
  let s' := mkSIMDIter (zlen l) l d in
  it_end it (mkSIMDIter k l d) =
    Ok (match left with
        | [] => None
        | _ => Some (firstn (Z.to_nat (WIDTH ty - zlen left)) d ++ left, WIDTH ty - zlen left)
        end, s') /\
  it_next (itb it) s' = Ok (None, s') /\ it_end it s' = Ok (None, s') /\
  unpacked_next (si_array (slice_array c ty)) (itb it) s' = Ok (None, s').
Proof.
  intros A c ty l d k Hty Hl Hd Hk Hrem Hr it left s'.
  pose proof (slice_stepping c ty l d Hty Hl Hd) as Hst.
  pose proof (zlen_nonneg l).
  destruct (blanket_end_ok c _ _ l d _ Hst (mkSIMDIter k l d) k) as (s1 & He & [-> _]);
    [split; [reflexivity|lia]|unfold tail_ready; cbn; lia|cbn; lia|].
  split; [|split; [|split]].
  - unfold it. change (it_end (slice_iterator c ty)) with
      (blanket_end (A := A) c (si_array (slice_array c ty)) (si_iterable c (slice_array c ty))).
    rewrite He. fold left s'. unfold tail_of, right_aligned, unfilled.
    rewrite Hd. replace (length d - length left)%nat with (Z.to_nat (WIDTH ty - zlen left))
      by (unfold zlen in *; lia).
    destruct left as [|x r]; reflexivity.
  - apply (next_none_end _ _ _ _ _ Hst). split; [reflexivity|lia].
  - apply (blanket_end_none c _ _ _ _ _ Hst). split; [reflexivity|lia].
  - destruct (unpacked_next_ok _ _ _ _ _ Hst s' (zlen l)) as [(x & s2 & Hx & _)|[_ Hn]].
    + split; [reflexivity|lia].
    + apply znth_Some_lt in Hx. lia.
    + exact Hn.
Qed.

Lemma for_range_fails : forall (S : Type) (f : Z -> S -> outcome S) (bad : outcome S) (lim top : Z),
  (forall i s, 0 <= i < lim -> i < top -> exists s', f i s = Ok s') ->
  (forall i s, 0 <= i < top -> lim <= i -> f i s = bad) ->
  (forall s, bad <> Ok s) ->
  forall n i s, 0 <= i -> lim < i + Z.of_nat n -> i + Z.of_nat n <= top -> (0 < n)%nat ->
  for_range n i f s = bad.
Proof.
  intros S f bad lim top Hok Hbad Hne. induction n as [|n IH]; intros i s Hi0 Hn Ht Hp; [lia|].
  cbn [for_range]. destruct (Z_lt_le_dec i lim) as [Hlt|Hge].
  - destruct (Hok i s ltac:(lia) ltac:(lia)) as [s' Hs]. rewrite Hs. cbn [bind]. apply IH; lia.
  - rewrite Hbad by lia. destruct bad; [exfalso; eapply Hne; reflexivity|reflexivity..].
Qed.

Lemma c51_short_partly_consumed_refuted :
  forall (A : Type) (c : config) (ty : vty) (l d : list A) (k : Z),
  vty_ok ty -> slice_ok ty l -> zlen d = WIDTH ty -> 0 < k < zlen l -> zlen l <= WIDTH ty ->
  it_end (slice_iterator c ty) (mkSIMDIter k l d) =
  match build c with Debug => Panic | Release => UB end.
Proof.
  intros A c ty l d k Hty Hl Hd Hk HlW.
  pose proof (vty_ok_facts _ Hty) as (H1 & H2 & H3 & H4 & H5 & H6).
  pose proof usize_mod_val as Hum.
  cbn [it_end slice_iterator blanket_iterator]. unfold blanket_end.
  cbn [it_scalar_pos it_scalar_len si_iterable bind si_position arr_scalar_len slice_array si_data].
  destruct (k <? zlen l) eqn:E; [|lia].
  rewrite usub_ok by lia. cbn [bind it_ty arr_ty si_iterable slice_array].
  rewrite usub_ok by lia. cbn [bind].
  unfold partial_vector. cbn [it_ty si_iterable arr_ty slice_array].
  destruct (WIDTH ty <? zlen l) eqn:E2; [lia|].
  rewrite (for_range_fails _ _ (match build c with Debug => Panic | Release => UB end)
             (zlen l - k) (zlen l)); try lia.
  - destruct (build c); reflexivity.
  - intros i s Hi Hi2. rewrite uadd_ok by lia. cbn [bind].
    destruct (znth_exists l i ltac:(lia)) as [x Hx].
    rewrite (ah_scalar _ _ _ (si_array_holds _ (mkSIMDIter k l d) _ (slice_array_holds c ty l Hty)) i x Hx).
    cbn [bind]. rewrite replace_unchecked_ok by lia. eauto.
  - intros i s Hi Hi2. rewrite uadd_ok by lia. cbn [bind].
    destruct (znth_exists l i ltac:(lia)) as [x Hx].
    rewrite (ah_scalar _ _ _ (si_array_holds _ (mkSIMDIter k l d) _ (slice_array_holds c ty l Hty)) i x Hx).
    cbn [bind]. unfold replace_unchecked.
    destruct (i + (WIDTH ty - (zlen l - k)) <? WIDTH ty) eqn:E3; [lia|]. reflexivity.
  - intros s. destruct (build c); discriminate.
Qed.

Lemma end_debug_safe_aux : forall (A : Type) (ty : vty) (l d : list A) (b : bool) from len e,
  vty_ok ty -> zlen d = WIDTH ty -> 0 <= from < len -> len = zlen l -> len < max_len -> 0 <= e <= WIDTH ty ->
  let c := mkConfig Debug b in
  partial_vector c (si_array (slice_array c ty)) (si_iterable c (slice_array c ty))
    (mkSIMDIter from l d) from len e <> UB.
Proof.
  intros A ty l d b from len e Hty Hd Hf -> Hm He c.
  pose proof (vty_ok_facts _ Hty) as (H1 & H2 & H3 & H4 & H5 & H6).
  pose proof usize_mod_val as Hum. unfold max_len in Hm.
  unfold partial_vector. cbn [it_ty si_iterable arr_ty slice_array].
  destruct (WIDTH ty <? zlen l) eqn:E.
  - rewrite usub_ok by lia. cbn [bind].
    pose proof (ah_vec _ _ _ (si_array_holds _ (mkSIMDIter from l d) _ (slice_array_holds c ty l Hty))) as Hv.
    cbn [arr_ty si_array slice_array] in Hv. rewrite Hv by lia. cbn [bind it_default si_iterable si_default].
    destruct (Z.eq_dec e (WIDTH ty)) as [->|Hne].
    + unfold merge_partitioned. destruct b; cbn [blend c].
      * rewrite partition_mask_ok by (auto; lia). cbn [bind]. discriminate.
      * replace (WIDTH ty <? WIDTH ty) with false by lia. discriminate.
    + rewrite merge_partitioned_ok; [discriminate|auto|auto| |lia].
      rewrite zlen_sub; lia.
  - assert (Hgen : forall n i (s : list A), 0 <= i -> i + Z.of_nat n <= zlen l ->
      for_range n i (fun i ret =>
        let! idx := uadd c i e in
        let! x := arr_load_scalar_unchecked (si_array (slice_array c ty)) (mkSIMDIter from l d) i in
        replace_unchecked c (WIDTH ty) ret idx x) s <> UB).
    { induction n as [|n IH]; intros i s Hi Hn; cbn [for_range]; [discriminate|].
      rewrite uadd_ok by lia. cbn [bind].
      destruct (znth_exists l i ltac:(lia)) as [x Hx].
      rewrite (ah_scalar _ _ _ (si_array_holds _ (mkSIMDIter from l d) _ (slice_array_holds c ty l Hty)) i x Hx).
      cbn [bind]. unfold replace_unchecked. destruct (i + e <? WIDTH ty); cbn; [|discriminate].
      apply IH; lia. }
    apply Hgen; lia.
Qed.

Lemma c03_end_debug_partial : forall (A : Type) (b : bool) (ty : vty) (l d : list A) (pos : Z),
  vty_ok ty -> slice_ok ty l -> zlen d = WIDTH ty -> 0 <= pos < usize_mod ->
  match it_end (slice_iterator (mkConfig Debug b) ty) (mkSIMDIter pos l d) with
  | Ok (Some (v, n), s') =>
      pos < zlen l /\ s' = mkSIMDIter (zlen l) l d /\ n = WIDTH ty - (zlen l - pos) /\ 0 <= n /\
      v = right_aligned d (skipn (Z.to_nat pos) l)
  | Ok (None, s') => zlen l <= pos /\ s' = mkSIMDIter pos l d
  | Panic => True
  | UB | Fuel => False
  end.
Proof.
  intros A b ty l d pos Hty Hl Hd Hpos.
  pose proof (vty_ok_facts _ Hty) as (H1 & H2 & H3 & H4 & H5 & H6).
  pose proof (slice_small ty l Hty Hl) as Hm.
  pose proof (slice_stepping (mkConfig Debug b) ty l d Hty Hl Hd) as Hst.
  destruct (Z_lt_le_dec pos (zlen l)) as [Hlt|Hge].
  2:{ cbn [it_end slice_iterator blanket_iterator]. unfold blanket_end.
      cbn [it_scalar_pos it_scalar_len si_iterable bind si_position arr_scalar_len slice_array si_data].
      replace (pos <? zlen l) with false by lia. auto. }
  destruct (Z_lt_le_dec (WIDTH ty) (zlen l - pos)) as [Hbig|Hsm].
  { cbn [it_end slice_iterator blanket_iterator]. unfold blanket_end.
    cbn [it_scalar_pos it_scalar_len si_iterable bind si_position arr_scalar_len slice_array si_data].
    replace (pos <? zlen l) with true by lia. unfold max_len in Hm. pose proof usize_mod_val.
    rewrite usub_ok by lia. cbn [bind it_ty arr_ty si_iterable slice_array]. unfold usub, uarith.
    replace (0 <=? WIDTH ty - (zlen l - pos)) with false by lia. cbn. exact I. }
  destruct (Z.eq_dec pos 0) as [H0|H0]; [|destruct (Z_lt_le_dec (WIDTH ty) (zlen l)) as [HW|HW]].
  1,2: destruct (blanket_end_ok (mkConfig Debug b) _ _ l d _ Hst (mkSIMDIter pos l d) pos) as (s1 & He & [-> _]);
    [split; [reflexivity|lia]|unfold tail_ready; cbn; lia|cbn; lia|];
    cbn [it_end slice_iterator blanket_iterator]; rewrite He; unfold tail_of;
    assert (HL : zlen (skipn (Z.to_nat pos) l) = zlen l - pos) by (rewrite zlen_skipn; lia);
    destruct (skipn (Z.to_nat pos) l) as [|x r];
    [cbn in HL; lia|];
    unfold unfilled; repeat split; lia.
  rewrite (c51_short_partly_consumed_refuted A (mkConfig Debug b) ty l d pos Hty Hl Hd ltac:(lia) HW).
  exact I.
Qed.

Lemma lane_select_all : forall (A : Type) (m : list bool) (a b : list A), length m = length b -> length a = length b ->
  Forall (eq true) m -> lane_select m a b = b.
Proof.
  intros A m. induction m as [|x m IH]; intros [|y a] [|z b] H1 H2 Hm; try discriminate; [reflexivity|].
  inversion Hm; subst. cbn. f_equal. apply IH; cbn in *; congruence.
Qed.

Lemma usub_wraps : forall c a b, build c = Release -> a - b < 0 -> 0 <= a - b + usize_mod -> usub c a b = Ok (a - b + usize_mod).
Proof.
  intros c a b Hc H1 H2. unfold usub, uarith. replace (0 <=? a - b) with false by lia. cbn [andb]. rewrite Hc. f_equal.
  symmetry. apply Z.mod_unique with (-1); lia.
Qed.

Lemma c03_end_any_time_refuted : forall (A : Type) (c : config) (ty : vty) (l d : list A) (pos : Z),
  vty_ok ty -> slice_ok ty l -> zlen d = WIDTH ty -> 0 <= pos -> WIDTH ty < zlen l - pos ->
  let left := zlen l - pos in
  it_end (slice_iterator c ty) (mkSIMDIter pos l d) =
  match build c with
  | Debug => Panic
  | Release =>
    if negb (blend c) then Panic
    else if left <=? 64 / SIZE ty then
      Ok (Some (skipn (length l - Z.to_nat (WIDTH ty)) l, 2 ^ 64 - (left - WIDTH ty)), mkSIMDIter (zlen l) l d)
    else if 64 / SIZE ty + left <=? 128 then UB
    else Panic
  end.
Proof.
  intros A c ty l d pos Hty Hl Hd Hpos Hleft left.
  pose proof (vty_ok_facts _ Hty) as (H1 & H2 & H3 & H4 & H5 & H6).
  pose proof (slice_small ty l Hty Hl) as Hm. unfold max_len in Hm. pose proof usize_mod_val as Hum.
  cbn [it_end slice_iterator blanket_iterator]. unfold blanket_end.
  cbn [it_scalar_pos it_scalar_len si_iterable bind si_position arr_scalar_len slice_array si_data].
  replace (pos <? zlen l) with true by lia.
  rewrite usub_ok by lia. cbn [bind it_ty arr_ty si_iterable slice_array].
  destruct (build c) eqn:Hb.
  { unfold usub, uarith. replace (0 <=? WIDTH ty - (zlen l - pos)) with false by lia. cbn [andb]. rewrite Hb. reflexivity. }
  rewrite usub_wraps by (assumption || lia). cbn [bind].
  unfold partial_vector. cbn [it_ty si_iterable arr_ty slice_array].
  replace (WIDTH ty <? zlen l) with true by lia. rewrite usub_ok by lia. cbn [bind].
  rewrite (ah_vec _ _ _ (si_array_holds _ (mkSIMDIter pos l d) _ (slice_array_holds c ty l Hty)) (zlen l - WIDTH ty)); [|lia|cbn; lia].
  cbn [bind si_array arr_ty slice_array it_default si_iterable si_default]. unfold merge_partitioned.
  destruct (blend c) eqn:Hbl; cbn [negb].
  2:{ replace (WIDTH ty - (zlen l - pos) + usize_mod <? WIDTH ty) with false by lia. reflexivity. }
  unfold partition_mask, debug_assert. rewrite Hb. cbn [bind].
  rewrite usub_wraps by (assumption || lia). cbn [bind]. fold left.
  replace (64 / SIZE ty - (WIDTH ty - left + usize_mod) + usize_mod) with (64 / SIZE ty + (left - WIDTH ty)) by lia.
  assert (Hst : 64 / SIZE ty <= 2 * (64 / SIZE ty) <= 128) by lia.
  assert (Hlf : WIDTH ty < left) by exact Hleft.
  destruct (left <=? 64 / SIZE ty) eqn:E1.
  - replace (128 <? 64 / SIZE ty + (left - WIDTH ty)) with false by lia.
    replace (WIDTH ty <=? 128 - (64 / SIZE ty + (left - WIDTH ty))) with true by lia. cbn [negb].
    replace (64 / SIZE ty + (left - WIDTH ty) + WIDTH ty <=? 2 * (64 / SIZE ty)) with true by lia. cbn [bind].
    assert (Hsub : sub l (zlen l - WIDTH ty) (WIDTH ty) = skipn (length l - Z.to_nat (WIDTH ty)) l).
    { unfold sub. replace (Z.to_nat (zlen l - WIDTH ty)) with (length l - Z.to_nat (WIDTH ty))%nat by (unfold zlen; lia).
      apply firstn_all2. rewrite skipn_length. lia. }
    rewrite lane_select_all.
    + unfold finalize. cbn [it_scalar_len it_scalar_pos si_iterable bind si_position arr_scalar_len slice_array si_data it_advance].
      rewrite usub_ok by lia. cbn [bind]. unfold si_advance. cbn [si_position si_data si_default].
      rewrite uadd_ok by lia. cbn [bind]. rewrite Hsub.
      replace (pos + (zlen l - pos)) with (zlen l) by lia. replace (WIDTH ty - left + usize_mod) with (2 ^ 64 - (left - WIDTH ty)) by (unfold usize_mod; lia). reflexivity.
    + rewrite map_length, seq_length. rewrite Hsub, skipn_length. unfold zlen in *. lia.
    + rewrite Hsub, skipn_length. unfold zlen in *. lia.
    + apply Forall_forall. intros x Hx. apply in_map_iff in Hx. destruct Hx as (i & <- & _). lia.
  - destruct (64 / SIZE ty + left <=? 128) eqn:E2.
    + replace (128 <? 64 / SIZE ty + (left - WIDTH ty)) with false by lia.
      replace (WIDTH ty <=? 128 - (64 / SIZE ty + (left - WIDTH ty))) with true by lia. cbn [negb].
      replace (64 / SIZE ty + (left - WIDTH ty) + WIDTH ty <=? 2 * (64 / SIZE ty)) with false by lia. reflexivity.
    + destruct (128 <? 64 / SIZE ty + (left - WIDTH ty)) eqn:E3; [reflexivity|].
      replace (WIDTH ty <=? 128 - (64 / SIZE ty + (left - WIDTH ty))) with false by lia. reflexivity.
Qed.

Lemma c04_next_safe : forall (A : Type) (c : config) (ty : vty) (l d : list A) (pos : Z),
  vty_ok ty -> slice_ok ty l -> 0 <= pos < usize_mod ->
  match it_next (itb (slice_iterator c ty)) (mkSIMDIter pos l d) with
  | Ok (Some v, s') => pos + WIDTH ty <= zlen l /\ s' = mkSIMDIter (pos + WIDTH ty) l d /\
      zlen v = WIDTH ty /\ forall i, 0 <= i < WIDTH ty -> znth v i = znth l (pos + i)
  | Ok (None, s') => zlen l < pos + WIDTH ty /\ s' = mkSIMDIter pos l d
  | Panic => usize_mod <= pos + WIDTH ty
  | UB | Fuel => False
  end.
Proof.
  intros A c ty l d pos Hty Hl Hpos.
  pose proof (vty_ok_facts _ Hty) as (H1 & H2 & H3 & H4 & H5 & H6).
  pose proof (slice_small ty l Hty Hl) as Hm. unfold max_len in Hm.
  pose proof usize_mod_val.
  change (it_next (itb (slice_iterator c ty))) with (si_next (A := A) c (slice_array c ty)).
  rewrite (next_any_position c ty Hty l d pos Hl Hpos).
  destruct (pos + WIDTH ty <=? zlen l) eqn:E1; [|destruct (pos + WIDTH ty <? usize_mod) eqn:E2].
  - repeat split; try lia. { apply zlen_sub; lia. }
    intros i Hi. unfold znth. replace (i <? 0) with false by lia. replace (pos + i <? 0) with false by lia.
    rewrite nth_error_sub by lia. f_equal. lia.
  - split; [lia|reflexivity].
  - destruct (build c); [lia|].
    destruct (pos + WIDTH ty - usize_mod <=? zlen l) eqn:E3; [lia|]. split; [lia|reflexivity].
Qed.

Lemma c05_history : forall (A : Type) (c : config) (ty : vty) (l d : list A) (h : list op),
  vty_ok ty -> slice_ok ty l -> zlen d = WIDTH ty ->
  all_allowed (WIDTH ty) d (zlen l) (0, l) h ->
  exists s', calls c ty (simd_iter l d) h = Ok (fst (abs_calls (WIDTH ty) d (0, l) h), s').
Proof. intros. apply history_from_start; assumption. Qed.

Lemma visited_count : forall (A : Type) (ty : vty) (l d : list A) vs rest,
  vty_ok ty -> chunked (WIDTH ty) l vs rest -> zlen rest < WIDTH ty ->
  zlen (visited vs (tail_of d rest)) = (zlen l + WIDTH ty - 1) / WIDTH ty.
Proof.
  intros A ty l d vs rest Hty [Hc1 Hc2] Hrest.
  pose proof (vty_ok_facts _ Hty) as (H1 & _).
  apply (f_equal zlen) in Hc2. rewrite zlen_app, (concat_zlen _ _ Hc1) in Hc2.
  unfold visited. rewrite zlen_app. rewrite <- Hc2. pose proof (zlen_nonneg rest) as Hr0.
  unfold tail_of. destruct rest as [|x r].
  - pose proof (@zlen_nil A). pose proof (@zlen_nil (list A)).
    apply Z.div_unique with (WIDTH ty - 1); lia.
  - replace (zlen [right_aligned d (x :: r)]) with 1 by reflexivity.
    rewrite zlen_cons in *. pose proof (zlen_nonneg r).
    apply Z.div_unique with (1 + zlen r - 1); lia.
Qed.

Lemma c06_reduce : forall (A B : Type) (c : config) (ty : vty) (l d : list A) (k : Z) (start : B)
    (f : B -> list A -> B) (fuel : nat),
  vty_ok ty -> slice_ok ty l -> zlen d = WIDTH ty ->
  0 <= k <= zlen l -> (k = 0 \/ WIDTH ty < zlen l) -> (length l < fuel)%nat ->
  exists vs rest,
    chunked (WIDTH ty) (skipn (Z.to_nat k) l) vs rest /\ zlen rest < WIDTH ty /\
    let args := vs ++ match rest with [] => [] | _ => [right_aligned d rest] end in
    zlen args = (zlen l - k + WIDTH ty - 1) / WIDTH ty /\
    simd_reduce (slice_iterator c ty) fuel (mkSIMDIter k l d) start f =
      Ok (fold_left f args start, mkSIMDIter (zlen l) l d) /\
    simd_do_each (slice_iterator c ty) fuel (mkSIMDIter k l d) start f =
      Ok (fold_left f args start, mkSIMDIter (zlen l) l d).
Proof.
  intros A B c ty l d k start f fuel Hty Hl Hd Hk Hr Hf.
  destruct (slice_emits c ty l d Hty Hl Hd k Hk ltac:(lia)) as (vs & rest & He & Hc & Hrest).
  exists vs, rest. split; [exact Hc|]. split; [exact Hrest|].
  assert (Hv : vs ++ match rest with [] => [] | _ => [right_aligned d rest] end =
               visited vs (tail_of d rest)) by (destruct rest; reflexivity).
  cbv zeta. rewrite Hv.
  pose proof (chunked_length ty (skipn (Z.to_nat k) l) Hty vs rest Hc) as H.
  rewrite skipn_length in H.
  split; [|split].
  - rewrite (visited_count A ty (skipn (Z.to_nat k) l) d vs rest Hty Hc Hrest).
    f_equal. rewrite zlen_skipn. lia.
  - apply emits_reduce; [exact He|lia].
  - apply emits_do_each; [exact He|lia].
Qed.

Lemma c07_width_independent : forall (A B : Type) (op : B -> B -> B) (e : B) (g : A -> B) (x0 : A),
  (forall x y z, op x (op y z) = op (op x y) z) -> (forall x y, op x y = op y x) ->
  (forall x, op e x = x) -> g x0 = e ->
  forall (c : config) (ty : vty) (l : list A) (fuel : nat),
  vty_ok ty -> slice_ok ty l -> (length l < fuel)%nat ->
  exists acc s',
    simd_reduce (slice_iterator c ty) fuel (simd_iter l (splat (WIDTH ty) x0)) (splat (WIDTH ty) e)
      (fun a v => map2 op a (map g v)) = Ok (acc, s') /\
    zlen acc = WIDTH ty /\ fold_left op acc e = fold_left op (map g l) e.
Proof.
  intros A B op e g x0 Ha Hcm Hu Hg c ty l fuel Hty Hl Hf.
  pose proof (vty_ok_facts _ Hty) as (H1 & _).
  assert (Hd : zlen (splat (WIDTH ty) x0) = WIDTH ty) by (unfold splat; rewrite zlen_repeat; lia).
  pose proof (zlen_nonneg l).
  destruct (slice_emits c ty l (splat (WIDTH ty) x0) Hty Hl Hd 0 ltac:(lia) ltac:(lia))
    as (vs & rest & He & Hc & Hrest).
  cbn [Z.to_nat skipn] in Hc.
  pose proof (chunked_length ty l Hty vs rest Hc) as Hlen.
  eexists _, _. split; [apply emits_reduce; [exact He|lia]|].
  destruct Hc as [Hc1 Hc2].
  assert (Hsz : Forall (fun v : list A => length (map g v) = Z.to_nat (WIDTH ty))
                  (visited vs (tail_of (splat (WIDTH ty) x0) rest))).
  { apply Forall_app. split.
    - eapply Forall_impl; [|exact Hc1]. intros v Hv. rewrite map_length. unfold zlen in Hv. lia.
    - unfold tail_of. destruct rest as [|x r]; [constructor|]. constructor; [|constructor].
      rewrite map_length. pose proof (right_aligned_len (splat (WIDTH ty) x0) (x :: r) ltac:(lia)) as Hra.
      unfold zlen in *. lia. }
  destruct (reduce_vectors op e Ha Hcm Hu (map g) (Z.to_nat (WIDTH ty))
              (visited vs (tail_of (splat (WIDTH ty) x0) rest)) (splat (WIDTH ty) e)) as [Hlacc Hfold].
  { unfold splat. apply repeat_length. }
  { exact Hsz. }
  split. { unfold zlen. rewrite Hlacc. lia. }
  rewrite Hfold. unfold visited. rewrite map_app, concat_app.
  assert (Hue : forall n, fold_left op (repeat e n) e = e).
  { intros n. apply fold_left_units; [assumption..|]. apply Forall_forall. intros y Hy.
    apply repeat_spec in Hy. exact Hy. }
  unfold splat at 1. rewrite Hue, Hu, (fold_left_split op e Ha Hcm Hu).
  rewrite <- concat_map.
  assert (Ht : fold_left op (concat (map (map g)
      match tail_of (splat (WIDTH ty) x0) rest with Some (p, _) => [p] | None => [] end)) e =
      fold_left op (map g rest) e).
  { unfold tail_of. destruct rest as [|x r]; [reflexivity|]. cbn [map concat]. rewrite app_nil_r.
    unfold right_aligned. rewrite map_app, (fold_left_split op e Ha Hcm Hu).
    rewrite (fold_left_units op e Hu), Hu; [reflexivity|].
    apply Forall_forall. intros y Hy. apply in_map_iff in Hy. destruct Hy as (z & <- & Hz).
    apply (fun q => In_nth_error _ _ q) in Hz. destruct Hz as [n Hn].
    assert (Hin : In z (splat (WIDTH ty) x0)).
    { rewrite <- (firstn_skipn (length (splat (WIDTH ty) x0) - length (x :: r)) (splat (WIDTH ty) x0)).
      apply in_or_app. left. eapply nth_error_In. exact Hn. }
    unfold splat in Hin. apply repeat_spec in Hin. subst z. exact Hg. }
  rewrite Ht, <- (fold_left_split op e Ha Hcm Hu), <- map_app, Hc2. reflexivity.
Qed.

Lemma c15_fused : forall (A : Type) (c : config) (ty : vty) (l d : list A),
  vty_ok ty -> slice_ok ty l -> zlen d = WIDTH ty ->
  let it := slice_iterator c ty in
  (forall pos s', 0 <= pos < usize_mod ->
     it_next (itb it) (mkSIMDIter pos l d) = Ok (None, s') -> s' = mkSIMDIter pos l d) /\
  (forall pos s' t, 0 <= pos < usize_mod ->
     it_end it (mkSIMDIter pos l d) = Ok (t, s') ->
     (t = None \/ exists v n, t = Some (v, n) /\ 0 <= n <= WIDTH ty) ->
     it_end it s' = Ok (None, s') /\
     (pos + WIDTH ty < usize_mod -> it_next (itb it) s' = Ok (None, s'))) /\
  (forall pos s', 0 <= pos < usize_mod -> finalize c (itb it) (mkSIMDIter pos l d) = Ok s' ->
     s' = mkSIMDIter (zlen l) l d /\
     it_next (itb it) s' = Ok (None, s') /\ it_end it s' = Ok (None, s')).
Proof.
  intros A c ty l d Hty Hl Hd it.
  pose proof (vty_ok_facts _ Hty) as (H1 & H2 & H3 & H4 & H5 & H6).
  pose proof (slice_small ty l Hty Hl) as Hm. unfold max_len in Hm.
  pose proof usize_mod_val as Hum. pose proof (zlen_nonneg l) as Hl0.
  pose proof (slice_stepping c ty l d Hty Hl Hd) as Hst.
  assert (HR : si_at l d (zlen l) (mkSIMDIter (zlen l) l d) (zlen l)) by (split; [reflexivity|lia]).
  assert (Hdone : it_next (itb it) (mkSIMDIter (zlen l) l d) = Ok (None, mkSIMDIter (zlen l) l d) /\
                  it_end it (mkSIMDIter (zlen l) l d) = Ok (None, mkSIMDIter (zlen l) l d)).
  { split; [apply (next_none_end _ _ _ _ _ Hst); exact HR|apply (blanket_end_none c _ _ _ _ _ Hst); exact HR]. }
  assert (Hfin : forall pos s', 0 <= pos < usize_mod ->
    finalize c (itb it) (mkSIMDIter pos l d) = Ok s' -> s' = mkSIMDIter (zlen l) l d).
  { intros pos s' Hp. unfold finalize. cbn [itb it slice_iterator blanket_iterator it_scalar_len it_scalar_pos
      si_iterable bind arr_scalar_len slice_array si_data si_position it_advance].
    unfold usub, si_advance, uadd. cbn [si_position si_data si_default]. unfold uarith.
    destruct ((0 <=? zlen l - pos) && (zlen l - pos <? usize_mod)) eqn:E.
    - cbn [bind]. replace (pos + (zlen l - pos)) with (zlen l) by lia.
      replace ((0 <=? zlen l) && (zlen l <? usize_mod)) with true by lia. cbn. congruence.
    - destruct (build c); [discriminate|]. cbn [bind].
      assert (Hmod : (zlen l - pos) mod usize_mod = zlen l - pos + usize_mod).
      { symmetry. apply Z.mod_unique with (-1); lia. }
      rewrite Hmod. replace (pos + (zlen l - pos + usize_mod)) with (zlen l + usize_mod) by lia.
      replace ((0 <=? zlen l + usize_mod) && (zlen l + usize_mod <? usize_mod)) with false by lia.
      replace ((zlen l + usize_mod) mod usize_mod) with (zlen l)
        by (apply Z.mod_unique with 1; lia).
      cbn. congruence. }
  split; [|split].
  - intros pos s' Hp Hn. pose proof (c04_next_safe A c ty l d pos Hty Hl Hp) as H.
    fold it in H. rewrite Hn in H. apply H.
  - intros pos s' t Hp He Ht.
    assert (Hs' : s' = mkSIMDIter pos l d /\ zlen l <= pos \/ s' = mkSIMDIter (zlen l) l d).
    { revert He. cbn [it it_end slice_iterator blanket_iterator]. unfold blanket_end.
      cbn [it_scalar_pos it_scalar_len si_iterable bind si_position arr_scalar_len slice_array si_data].
      destruct (pos <? zlen l) eqn:E.
      2:{ intros He. left. split; [congruence|lia]. }
      destruct (usub c (zlen l) pos); cbn [bind]; try discriminate.
      match goal with |- context[bind (usub c ?a ?b)] => destruct (usub c a b) end; cbn [bind]; try discriminate.
      match goal with |- context[bind (partial_vector ?a ?b ?c ?d ?e ?f ?g)] =>
        destruct (partial_vector a b c d e f g) end; cbn [bind]; try discriminate.
      match goal with |- context[bind ?f] => destruct f eqn:Ef end; cbn [bind]; try discriminate.
      intros He. right. inversion He; subst. eapply Hfin; [exact Hp|exact Ef]. }
    destruct Hs' as [[-> Hge]| ->].
    + split.
      * cbn [it it_end slice_iterator blanket_iterator]. unfold blanket_end.
        cbn [it_scalar_pos it_scalar_len si_iterable bind si_position arr_scalar_len slice_array si_data].
        replace (pos <? zlen l) with false by lia. reflexivity.
      * intros Hw. change (it_next (itb it)) with (si_next (A := A) c (slice_array c ty)).
        rewrite (next_any_position c ty Hty l d pos Hl Hp).
        replace (pos + WIDTH ty <=? zlen l) with false by lia.
        replace (pos + WIDTH ty <? usize_mod) with true by lia. reflexivity.
    + split; [apply Hdone|intros _; apply Hdone].
  - intros pos s' Hp Hf. rewrite (Hfin pos s' Hp Hf). split; [reflexivity|exact Hdone].
Qed.

Lemma grouped_concat : forall (V : Type) amt (vs : list V) gs, grouped amt vs gs -> concat gs = vs.
Proof.
  intros V amt vs gs H. induction H; cbn; [reflexivity|apply app_nil_r|f_equal; assumption].
Qed.

Lemma c16_unroll : forall (A : Type) (c : config) (ty : vty) (l d vdef : list A) (k amt : Z) (fuel : nat),
  vty_ok ty -> slice_ok ty l -> zlen d = WIDTH ty ->
  0 <= k <= zlen l -> 0 <= amt < usize_mod -> (length l < fuel)%nat ->
  let it := itb (slice_iterator c ty) in
  let s := mkSIMDIter k l d in
  (8 < amt -> unroll vdef s amt = Panic) /\
  (amt = 0 -> forall u, unroll vdef s amt = Ok u -> unrolled_next it u = Ok (None, u)) /\
  (1 <= amt <= 8 ->
   exists u gs vs rest u',
     unroll vdef s amt = Ok u /\ unrolled_drain it fuel u = Ok (gs, u') /\
     chunked (WIDTH ty) (skipn (Z.to_nat k) l) vs rest /\ zlen rest < WIDTH ty /\
     concat gs = vs /\ grouped (Z.to_nat amt) vs gs /\
     ur_iter u' = mkSIMDIter (k + WIDTH ty * zlen vs) l d).
Proof.
  intros A c ty l d vdef k amt fuel Hty Hl Hd Hk Ha Hf it s.
  pose proof (vty_ok_facts _ Hty) as (H1 & _).
  pose proof (slice_small ty l Hty Hl) as Hm.
  split; [|split].
  - intros H8. unfold unroll. replace (amt <=? 8) with false by lia. reflexivity.
  - intros -> u. cbn. intros [= <-]. reflexivity.
  - intros H18.
    assert (Hnx : forall n k, 0 <= k <= zlen l -> (zlen l - k < Z.of_nat n) ->
      exists vs rest, nexts (slice_iterator c ty) (mkSIMDIter k l d) vs (mkSIMDIter (k + WIDTH ty * zlen vs) l d) /\
        chunked (WIDTH ty) (skipn (Z.to_nat k) l) vs rest /\ zlen rest < WIDTH ty /\
        k + WIDTH ty * zlen vs <= zlen l /\ zlen l < k + WIDTH ty * zlen vs + WIDTH ty).
    { clear k Hk s. induction n as [|n IH]; intros k Hk Hn; [lia|].
      destruct (si_next_cases c (slice_array c ty) (mkSIMDIter k l d) l Hty (slice_array_holds c ty l Hty) Hm Hk)
        as [[Hle Hx]|[Hlt Hx]]; cbn [si_position si_data si_default arr_ty slice_array] in *.
      - destruct (IH (k + WIDTH ty) ltac:(lia) ltac:(lia)) as (vs & rest & Hv & [Hc1 Hc2] & Hr & Hb1 & Hb2).
        exists (sub l k (WIDTH ty) :: vs), rest. rewrite zlen_cons.
        split; [|split; [|split; [lia|split; lia]]].
        + eapply nexts_some; [exact Hx|].
          replace (k + WIDTH ty * (1 + zlen vs)) with (k + WIDTH ty + WIDTH ty * zlen vs) by lia. exact Hv.
        + split. { constructor; [apply zlen_sub; lia|exact Hc1]. }
          cbn [concat]. rewrite <- app_assoc, Hc2. apply sub_skipn; lia.
      - exists [], (skipn (Z.to_nat k) l). rewrite zlen_nil. replace (k + WIDTH ty * 0) with k by lia.
        split; [|split; [|split; [rewrite zlen_skipn|split]]]; try lia.
        + apply nexts_none. exact Hx.
        + split; [constructor|reflexivity]. }
    destruct (Hnx (S (length l)) k Hk ltac:(unfold zlen; lia)) as (vs & rest & Hv & Hc & Hr & Hb1 & Hb2).
    pose proof (chunked_length ty _ Hty vs rest Hc) as Hcl. rewrite skipn_length in Hcl.
    destruct (unrolled_drain_ok (slice_iterator c ty) s vs _ (Z.to_nat amt) (repeat vdef 8) Hv) with (fuel := fuel)
      as (gs & scr & Hdr & Hg).
    { pose proof (si_next_cases c (slice_array c ty) (mkSIMDIter (k + WIDTH ty * zlen vs) l d) l Hty
         (slice_array_holds c ty l Hty) Hm) as H. cbn [si_position si_data si_default arr_ty slice_array] in H.
      destruct H as [[Hle _]|[_ Hx]]; [pose proof (zlen_nonneg vs); nia|lia|exact Hx]. }
    { rewrite repeat_length. lia. }
    { lia. }
    rewrite Z2Nat.id in Hdr by lia.
    exists (mkUnrolled s amt (repeat vdef 8)), gs, vs, rest, (mkUnrolled (mkSIMDIter (k + WIDTH ty * zlen vs) l d) amt scr).
    split. { unfold unroll. replace (amt <=? 8) with true by lia. reflexivity. }
    split; [exact Hdr|]. split; [exact Hc|]. split; [exact Hr|]. split; [eapply grouped_concat; exact Hg|].
    split; [exact Hg|reflexivity].
Qed.

Lemma unrolled_loop_slice : forall (A : Type) (c : config) (ty : vty) (l d : list A), vty_ok ty -> slice_ok ty l ->
  forall (n : nat) (i k : Z) (scr : list (list A)), 0 <= i -> 0 <= k <= zlen l -> i + Z.of_nat n <= zlen scr ->
  exists j scr', unrolled_loop (itb (slice_iterator c ty)) n i (mkSIMDIter k l d) scr = Ok (i + j, mkSIMDIter (k + WIDTH ty * j) l d, scr') /\
    0 <= j /\ k + WIDTH ty * j <= zlen l /\ i + j <= zlen scr /\ zlen scr' = zlen scr.
Proof.
  intros A c ty l d Hty Hl. pose proof (slice_small ty l Hty Hl) as Hm. pose proof (vty_ok_facts _ Hty) as (H1 & _).
  induction n as [|n IH]; intros i k scr Hi Hk Hs.
  - exists 0, scr. cbn [unrolled_loop]. replace (i + 0) with i by lia. replace (k + WIDTH ty * 0) with k by lia. repeat split; lia.
  - cbn [unrolled_loop]. destruct (si_next_cases c (slice_array c ty) (mkSIMDIter k l d) l Hty (slice_array_holds c ty l Hty) Hm Hk) as [ [Hle Hx]|[Hlt Hx] ]; cbn [si_position si_data si_default arr_ty slice_array] in *.
    + change (it_next (itb (slice_iterator c ty))) with (si_next c (slice_array (A := A) c ty)). rewrite Hx, bind_Ok. replace (i <? zlen scr) with true by lia.
      destruct (IH (i + 1) (k + WIDTH ty) (upd scr i [sub l k (WIDTH ty)]) ltac:(lia) ltac:(lia)) as (j & scr' & E & J1 & J2 & J3 & J4); [rewrite zlen_upd by (try rewrite zlen_cons, zlen_nil; lia); lia|].
      exists (1 + j), scr'. rewrite E. rewrite zlen_upd in J3, J4 by (try rewrite zlen_cons, zlen_nil; lia). replace (k + WIDTH ty * (1 + j)) with (k + WIDTH ty + WIDTH ty * j) by lia. replace (i + (1 + j)) with (i + 1 + j) by lia. split; [reflexivity|]. repeat split; lia.
    + change (it_next (itb (slice_iterator c ty))) with (si_next c (slice_array (A := A) c ty)). rewrite Hx, bind_Ok. exists 0, scr. replace (i + 0) with i by lia. replace (k + WIDTH ty * 0) with k by lia. split; [reflexivity|]. repeat split; lia.
Qed.

Lemma next_groups_slice : forall (A : Type) (c : config) (ty : vty) (l d : list A) (amt : Z), vty_ok ty -> slice_ok ty l -> 0 <= amt <= 8 ->
  forall (n : nat) (k : Z) (scr : list (list A)), 0 <= k <= zlen l -> zlen scr = 8 ->
  exists gs scr', next_groups (itb (slice_iterator c ty)) n (mkUnrolled (mkSIMDIter k l d) amt scr) = Ok (gs, mkUnrolled (mkSIMDIter (k + WIDTH ty * zlen (concat gs)) l d) amt scr') /\ k + WIDTH ty * zlen (concat gs) <= zlen l.
Proof.
  intros A c ty l d amt Hty Hl Ha. induction n as [|n IH]; intros k scr Hk Hs.
  - exists [], scr. cbn [next_groups concat]. rewrite zlen_nil. replace (k + WIDTH ty * 0) with k by lia. split; [reflexivity|lia].
  - cbn [next_groups]. unfold unrolled_next. cbn [ur_iter ur_amt ur_scratch].
    destruct (unrolled_loop_slice A c ty l d Hty Hl (Z.to_nat amt) 0 k scr ltac:(lia) Hk ltac:(lia)) as (j & scr1 & E & J1 & J2 & J3 & J4). rewrite E, bind_Ok. replace (0 + j) with j by lia.
    pose proof (vty_ok_facts _ Hty) as (H1 & _). destruct (IH (k + WIDTH ty * j) scr1 ltac:(lia) ltac:(lia)) as (gs & scr' & E2 & B).
    destruct (0 <? j) eqn:Ej; rewrite bind_Ok; cbn [fst snd]; rewrite E2, bind_Ok; cbn [fst snd].
    + exists (firstn (Z.to_nat j) scr1 :: gs), scr'. cbn [concat]. rewrite zlen_app. replace (zlen (firstn (Z.to_nat j) scr1)) with j by (rewrite zlen_firstn; lia). replace (k + WIDTH ty * (j + zlen (concat gs))) with (k + WIDTH ty * j + WIDTH ty * zlen (concat gs)) by lia. split; [reflexivity|exact B].
    + exists gs, scr'. replace j with 0 in * by lia. replace (k + WIDTH ty * 0) with k in * by lia. split; [reflexivity|exact B].
Qed.

Lemma c16_chunk_pos : forall (A : Type) (c : config) (ty : vty) (l d vdef : list A) (k amt : Z) (n : nat),
  vty_ok ty -> slice_ok ty l -> 0 <= k <= zlen l -> 0 <= amt <= 8 ->
  let it := itb (slice_iterator c ty) in
  exists u gs u', unroll vdef (mkSIMDIter k l d) amt = Ok u /\ next_groups it n u = Ok (gs, u') /\
    chunk_len u' = amt /\
    chunk_pos it u' = (if amt =? 0 then Panic else Ok ((k / WIDTH ty + zlen (concat gs)) / amt)).
Proof.
  intros A c ty l d vdef k amt n Hty Hl Hk Ha it. pose proof (vty_ok_facts _ Hty) as (H1 & _). exists (mkUnrolled (mkSIMDIter k l d) amt (repeat vdef 8)).
  destruct (next_groups_slice A c ty l d amt Hty Hl Ha n k (repeat vdef 8) Hk eq_refl) as (gs & scr' & E & B). exists gs. eexists. split; [unfold unroll; replace (amt <=? 8) with true by lia; reflexivity|]. split; [exact E|]. split; [reflexivity|].
  assert (V : it_vector_pos it (mkSIMDIter (k + WIDTH ty * zlen (concat gs)) l d) = Ok (k / WIDTH ty + zlen (concat gs))).
  { transitivity (udiv (k + WIDTH ty * zlen (concat gs)) (WIDTH ty)); [reflexivity|]. unfold udiv. replace (WIDTH ty =? 0) with false by lia. rewrite (Z.mul_comm (WIDTH ty)), Z.div_add by lia. reflexivity. }
  unfold chunk_pos, chunk_len. cbn [ur_iter ur_amt]. rewrite V, bind_Ok. reflexivity.
Qed.
