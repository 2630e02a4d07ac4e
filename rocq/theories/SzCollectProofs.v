(** Proofs of the properties: collecting over stride_zip (C75). *)
From Verif Require Import Base Spec Vecs Iters Zip StrideZip ZipSpec.
From Coq Require Import Lia ZifyBool ZifyNat.
From Verif Require Import ListFacts VecFacts IterFacts CollectFacts MapFacts StrideFacts ZipFacts ZipProofs AdapterProofs MismatchProofs.
Ltac Zify.zify_post_hook ::= Z.div_mod_to_equations.

Lemma drain_emits {V I} (it : SIMDIterator V I) : forall fuel s vs t s', drain it fuel s = Ok (vs, t, s') -> emits it s vs t s'.
Proof.
  intros fuel. induction fuel as [|fuel IH]; intros s vs t s' H; [discriminate|]. unfold drain in H. cbn [drain_next] in H.
  destruct (it_next (itb it) s) as [[[v|] s1]| | |] eqn:E1; cbn [bind] in H; try discriminate.
  - destruct (drain_next it fuel s1) as [[us s2]| | |] eqn:E2; cbn [bind fst snd] in H; try discriminate.
    destruct (it_end it s2) as [[u s3]| | |] eqn:E3; cbn [bind fst snd] in H; try discriminate. injection H as <- <- <-.
    eapply emits_next; [exact E1|]. apply IH. unfold drain. rewrite E2. cbn [bind fst snd]. rewrite E3. reflexivity.
  - cbn [fst snd] in H. destruct (it_end it s1) as [[u s3]| | |] eqn:E3; cbn [bind fst snd] in H; try discriminate. injection H as <- <- <-. eapply emits_end; eassumption.
Qed.

Lemma map2_zlen {A B C : Type} (f : A -> B -> C) : forall a b, zlen a = zlen b -> zlen (map2 f a b) = zlen a.
Proof. induction a as [|x a IH]; intros [|y b] H; rewrite ?zlen_cons in H; cbn [map2]; try reflexivity; [pose proof (zlen_nonneg a); rewrite zlen_nil in H; lia|]. rewrite !zlen_cons, IH by lia. reflexivity. Qed.

Lemma map2_concat {A B C : Type} (f : A -> B -> C) (w : Z) : forall vs : list (list A * list B), Forall (fun p => zlen (fst p) = w /\ zlen (snd p) = w) vs ->
  concat (map (fun p => map2 f (fst p) (snd p)) vs) = map2 f (concat (map fst vs)) (concat (map snd vs)).
Proof.
  induction 1 as [|p vs [H1 H2] Hvs IH]; [reflexivity|]. cbn [map concat]. rewrite IH. clear -H1 H2.
  assert (Hl : length (fst p) = length (snd p)) by (unfold zlen in *; lia). destruct p as [a b]. cbn [fst snd] in *. clear H1 H2. revert b Hl.
  induction a as [|x a IH]; intros [|y b] Hl; try discriminate; [reflexivity|]. cbn [map2 app]. f_equal. apply IH. cbn in Hl. lia.
Qed.

Lemma c75_collect_partial : forall (A B : Type) (c : config) (ty : vty) (l d : list A) (d0 : A) (b0 : B) (f : A -> A -> B) (fuel : nat),
  vty_ok ty -> slice_ok ty l -> zlen d = WIDTH ty -> (length l < fuel)%nat ->
  let it := slice_iterator c ty in
  let m := zipmap_iterator c (stride_zip_iterator c it d0 destride_two_polyfill) ty b0 (fun (e : unit) p => (map2 f (fst p) (snd p), e)) in
  let W := WIDTH ty in let n := zlen l / (2 * W) in let r := zlen l mod (2 * W) in
  let whole := firstn (Z.to_nat (2 * W * n)) l in let rest := skipn (Z.to_nat (2 * W * n)) l in
  let padded := if r <? W then right_aligned d rest ++ d
                else firstn (Z.to_nat W) rest ++ right_aligned d (skipn (Z.to_nat W) rest) in
  let missing := if r <? W then (W - r) / 2 else if r =? W then W / 2 else (3 * W - r) / 2 in
  exists s0 s' evens odds pe po,
    stride_zip it (simd_iter l d) = Ok s0 /\
    is_stream whole 0 2 evens /\ is_stream whole 1 2 odds /\ is_stream padded 0 2 pe /\ is_stream padded 1 2 po /\
    scalar_collect c m b0 fuel (mkSIMDMap s0 tt) =
      Ok (map Some (map2 f evens odds ++ if r =? 0 then [] else skipn (Z.to_nat missing) (map2 f pe po)), s') /\
    (r = 0 -> whole = l).
Proof.
  intros A B c ty l d d0 b0 f fuel Hty Hl Hd Hf it m W n r whole rest padded missing.
  pose proof (vty_ok_facts _ Hty) as (H1 & H2 & H3 & H4 & H5 & H6). pose proof usize_mod_val as Hum. pose proof (zlen_nonneg l) as Hl0.
  destruct (sz_outcomes A c ty l d d0 fuel Hty Hl Hd Hf) as (s0 & vs & t & s' & G1 & G2 & G3 & G4 & G5 & G6 & G7 & G8).
  fold it W n r whole rest padded missing in G1, G2, G3, G4, G5, G6, G8. fold W in H1, H2, H3, H4, H5, H6, Hd.
  pose proof (Z.div_mod (zlen l) (2 * W) ltac:(lia)) as Hdm. fold n r in Hdm.
  pose proof (Z.mod_pos_bound (zlen l) (2 * W) ltac:(lia)) as Hmb. fold r in Hmb.
  assert (Hn : 0 <= n) by (apply Z.div_pos; lia).
  assert (Hmiss : r <> 0 -> 0 <= missing < W) by (clear -Hmb H1; unfold missing; destruct (r <? W) eqn:E1; [lia|]; destruct (r =? W) eqn:E2; lia).
  set (func := fun (e : unit) p => (map2 f (fst p) (snd p), e)) in *.
  assert (Hpure : forall xs, run_closure func tt xs = (map (fun p => map2 f (fst p) (snd p)) xs, tt)) by (intros xs; apply run_closure_pure; reflexivity).
  assert (Hrest : zlen rest = r) by (unfold rest; rewrite zlen_skipn; clear -Hdm Hmb Hl0 Hn H1; nia).
  assert (Hpad : zlen padded = 2 * W).
  { unfold padded. destruct (r <? W) eqn:E.
    - rewrite zlen_app, right_aligned_len by lia. lia.
    - rewrite zlen_app, right_aligned_len by (rewrite zlen_skipn; lia). rewrite zlen_firstn. lia. }
  assert (Hstr : exists pe po, is_stream padded 0 2 pe /\ is_stream padded 1 2 po).
  { exists (even_lanes padded), (odd_lanes padded). apply (lanes_stream A (length padded)). lia. }
  assert (Hts : forall p q k, t = Some ((p, q), k) -> zlen p = W /\ zlen q = W /\ r <> 0 /\ k = missing /\ is_stream padded 0 2 p /\ is_stream padded 1 2 q).
  { intros p q k ->. destruct G8 as (Q1 & Q2 & Q3 & Q4). pose proof (proj1 Q2) as L1. pose proof (proj1 Q3) as L2. rewrite Hpad in L1, L2. rewrite Z.mul_comm, Z.div_mul in L1, L2 by lia. auto 10. }
  pose proof (emits_zipmap c (stride_zip_iterator c it d0 destride_two_polyfill) ty b0 func s0 vs t s' tt ltac:(lia) (drain_emits _ _ _ _ _ _ G2)) as He.
  rewrite !Hpure in He. cbn [fst snd] in He.
  assert (He' := He ltac:(intros [p q] k Et; destruct (Hts p q k Et) as (_ & _ & R & -> & _); specialize (Hmiss R); change (SIZE (it_ty (itb (stride_zip_iterator c it d0 destride_two_polyfill)))) with (SIZE ty); clear -Hmiss H1 H2 H3 H4 H5 H6 Hum; unfold usize_mod in *; nia)).
  clear He. rename He' into He. change (SIZE (it_ty (itb (stride_zip_iterator c it d0 destride_two_polyfill)))) with (SIZE ty) in He.
  assert (Hfd : forall xs ys, zlen xs = W -> zlen ys = W -> zlen (map2 f xs ys) = W) by (intros xs ys E1 E2; rewrite map2_zlen by lia; exact E1).
  assert (Hlen : forall u, si_data (sz_iter (sm_iter u)) = l -> it_len (itb m) u = Ok n).
  { intros u Eu. cbn [m itb zipmap_iterator zipmap_iterable it_len stride_zip_iterator sz_iterable]. unfold it. cbn [itb slice_iterator blanket_iterator si_iterable it_len arr_scalar_len slice_array arr_ty].
    rewrite Eu. cbn [bind]. fold W. rewrite udiv_ok by lia. cbn [bind]. f_equal. unfold n. rewrite Z.mul_comm, <- Z.div_div by lia. reflexivity. }
  assert (Hs0 : si_data (sz_iter s0) = l).
  { unfold stride_zip in G1. cbn in G1. injection G1 as <-. reflexivity. }
  assert (Hcoll : scalar_collect c m b0 fuel (mkSIMDMap s0 tt) = Ok (map Some (delivered (map (fun p => map2 f (fst p) (snd p)) vs)
            (map_tail func tt t (SIZE ty) (SIZE ty))), mkSIMDMap s' tt)).
  { eapply scalar_collect_ok with (L := n).
    - exact He.
    - change (it_ty (itb m)) with ty. fold W. lia.
    - change (it_ty (itb m)) with ty. lia.
    - change (it_ty (itb m)) with ty. fold W. apply Forall_map. eapply Forall_impl; [|exact G4]. intros p [E1 E2]. apply Hfd; assumption.
    - change (it_ty (itb m)) with ty. fold W. intros p k Et. destruct t as [[[a b] k']|]; [|discriminate]. destruct (Hts a b k' eq_refl) as (E1 & E2 & E3 & E4 & _).
      cbn [map_tail func fst snd] in Et. injection Et as <- <-. subst k'. specialize (Hmiss E3). rewrite Z.div_mul by lia. split; [apply Hfd; assumption|lia].
    - apply Hlen. exact Hs0.
    - rewrite zlen_map. lia.
    - change (it_ty (itb m)) with ty. fold W. unfold slice_ok in Hl. clear -Hl Hdm Hmb Hn H1 H3 H6. unfold isize_max in *. destruct (Z.eq_dec n 0) as [->|Hn0]; [lia|]. assert ((n + 1) * W <= zlen l) by nia. nia.
    - intros _. rewrite zlen_map, G3. apply Hlen. exact G7.
    - rewrite map_length. unfold zlen in *. clear -G3 Hf Hdm Hmb H1 Hn. nia. }
  destruct Hstr as (pe0 & po0 & S1 & S2).
  destruct t as [[[p q] k]|].
  - destruct (Hts p q k eq_refl) as (E1 & E2 & E3 & E4 & E5 & E6). exists s0, (mkSIMDMap s' tt), (concat (map fst vs)), (concat (map snd vs)), p, q. repeat (split; [assumption|]). split; [|lia].
    rewrite Hcoll. unfold delivered. rewrite (map2_concat f W) by exact G4. cbn [map_tail func fst snd]. rewrite Z.div_mul by lia. replace (r =? 0) with false by lia. subst k. reflexivity.
  - exists s0, (mkSIMDMap s' tt), (concat (map fst vs)), (concat (map snd vs)), pe0, po0. repeat (split; [assumption|]). split.
    + rewrite Hcoll. unfold delivered. rewrite (map2_concat f W) by exact G4. cbn [map_tail]. replace (r =? 0) with true by lia. reflexivity.
    + intros E. unfold whole. apply firstn_all2. unfold zlen in *. clear -Hdm E Hn H1. nia.
Qed.

Lemma sc_znth_map2 {A B C : Type} (f : A -> B -> C) : forall a b k x y, znth a k = Some x -> znth b k = Some y -> znth (map2 f a b) k = Some (f x y).
Proof.
  intros a b k x y. unfold znth. destruct (k <? 0); [discriminate|]. generalize (Z.to_nat k). intros n. revert a b.
  induction n as [|n IH]; intros [|u a] [|v b] H1 H2; cbn in *; try discriminate; [congruence|]. apply IH; assumption.
Qed.

Lemma sc_znth_app_r {A : Type} (a b : list A) i : zlen a <= i -> znth (a ++ b) i = znth b (i - zlen a).
Proof.
  intros H. pose proof (zlen_nonneg a). unfold znth. replace (i <? 0) with false by lia. replace (i - zlen a <? 0) with false by lia.
  unfold zlen in *. rewrite nth_error_app2 by lia. f_equal. lia.
Qed.

Lemma sc_znth_skipn {A : Type} (l : list A) p i x : 0 <= p -> 0 <= i -> znth l (p + i) = Some x -> znth (skipn (Z.to_nat p) l) i = Some x.
Proof.
  intros Hp Hi H. unfold znth in *. replace (i <? 0) with false by lia. replace (p + i <? 0) with false in H by lia.
  rewrite nth_error_skipn. rewrite <- H. f_equal. lia.
Qed.

Lemma sc_znth_map {A C : Type} (g : A -> C) l i x : znth l i = Some x -> znth (map g l) i = Some (g x).
Proof. intros H. unfold znth in *. destruct (i <? 0); [discriminate H|]. apply map_nth_error. exact H. Qed.

Lemma znth_some_ex {A : Type} (l : list A) k : 0 <= k < zlen l -> exists x, znth l k = Some x.
Proof.
  intros H. unfold znth. destruct (k <? 0) eqn:E; [lia|]. destruct (nth_error l (Z.to_nat k)) as [x|] eqn:E2; [exists x; reflexivity|].
  apply nth_error_None in E2. unfold zlen in H. lia.
Qed.

Lemma c75_collect_refuted : forall (A B : Type) (c : config) (ty : vty) (l d : list A) (d0 : A) (b0 : B) (f : A -> A -> B) (fuel : nat),
  vty_ok ty -> slice_ok ty l -> zlen d = WIDTH ty -> (length l < fuel)%nat ->
  let it := slice_iterator c ty in
  let m := zipmap_iterator c (stride_zip_iterator c it d0 destride_two_polyfill) ty b0 (fun (e : unit) p => (map2 f (fst p) (snd p), e)) in
  let W := WIDTH ty in let n := zlen l / (2 * W) in let r := zlen l mod (2 * W) in
  r <> 0 ->
  exists s0 s' out, stride_zip it (simd_iter l d) = Ok s0 /\ scalar_collect c m b0 fuel (mkSIMDMap s0 tt) = Ok (out, s') /\
    (r < W \/ W < r /\ 2 < W -> zlen out <> zlen l / 2) /\
    (r = W -> zlen out = zlen l / 2 /\
       forall k, 0 <= k < W / 2 -> exists x y, znth d (2 * k) = Some x /\ znth d (2 * k + 1) = Some y /\ znth out (W * n + k) = Some (Some (f x y))).
Proof.
  intros A B c ty l d d0 b0 f fuel Hty Hl Hd Hf it m W n r Hr.
  pose proof (vty_ok_facts _ Hty) as (H1 & H2 & H3 & H4 & H5 & H6). pose proof (zlen_nonneg l) as Hl0. destruct (width_even ty Hty) as (h & Hh & Hh0).
  destruct (c75_collect_partial A B c ty l d d0 b0 f fuel Hty Hl Hd Hf) as (s0 & s' & evens & odds & pe & po & G1 & [G2 _] & [G3 _] & [G4 G4'] & [G5 G5'] & G6 & _).
  fold W in H1, H2, H3, H4, H5, H6, Hd, Hh, G2, G3, G4, G5, G4', G5', G6. fold n in G2, G3, G4, G5, G4', G5', G6. fold r in G4, G5, G4', G5', G6.
  pose proof (Z.div_mod (zlen l) (2 * W) ltac:(lia)) as Hdm. fold n r in Hdm.
  pose proof (Z.mod_pos_bound (zlen l) (2 * W) ltac:(lia)) as Hmb. fold r in Hmb.
  assert (Hn : 0 <= n) by (apply Z.div_pos; lia).
  assert (Hwn : 0 <= W * n) by (clear -Hn H1; nia).
  assert (Hev : zlen evens = W * n) by (rewrite G2, zlen_firstn; lia). assert (Hod : zlen odds = W * n) by (rewrite G3, zlen_firstn; lia).
  set (rest := skipn (Z.to_nat (2 * W * n)) l) in *. assert (Hrest : zlen rest = r) by (unfold rest; rewrite zlen_skipn; lia).
  match type of G4 with _ = zlen ?P / 2 => set (padded := P) in * end.
  assert (Hpad : zlen padded = 2 * W).
  { unfold padded. destruct (r <? W) eqn:E.
    - rewrite zlen_app, right_aligned_len by lia. lia.
    - rewrite zlen_app, right_aligned_len by (rewrite zlen_skipn; lia). rewrite zlen_firstn. lia. }
  rewrite Hpad in G4, G5. assert (Hpe : zlen pe = W) by lia. assert (Hpo : zlen po = W) by lia.
  replace (r =? 0) with false in G6 by lia.
  set (missing := if r <? W then (W - r) / 2 else if r =? W then W / 2 else (3 * W - r) / 2) in *.
  assert (Hmiss : 0 <= missing < W) by (clear -Hmb H1 Hr; unfold missing; destruct (r <? W) eqn:E1; [lia|]; destruct (r =? W) eqn:E2; lia).
  exists s0, s'. eexists. split; [exact G1|]. split; [exact G6|].
  assert (Hout : forall o, o = map Some (map2 f evens odds ++ skipn (Z.to_nat missing) (map2 f pe po)) -> zlen o = W * n + W - missing).
  { intros o ->. rewrite zlen_map, zlen_app, zlen_skipn, !map2_zlen by lia. lia. }
  rewrite (Hout _ eq_refl). assert (Hl2 : zlen l / 2 = W * n + r / 2) by (rewrite Hdm; replace (2 * W * n + r) with (r + W * n * 2) by ring; rewrite Z.div_add by lia; lia).
  rewrite Hl2. split.
  - intros Hc. unfold missing. clear -Hc Hh Hh0 Hmb Hr. destruct (r <? W) eqn:E1; [lia|]. destruct (r =? W) eqn:E2; lia.
  - intros Hrw. assert (Hm2 : missing = h) by (unfold missing; replace (r <? W) with false by lia; replace (r =? W) with true by lia; lia). split; [lia|].
    intros k Hk. destruct (znth_some_ex d (2 * k) ltac:(lia)) as [x Hx]. destruct (znth_some_ex d (2 * k + 1) ltac:(lia)) as [y Hy].
    exists x, y. split; [exact Hx|]. split; [exact Hy|].
    assert (Hpd : padded = firstn (Z.to_nat W) rest ++ d).
    { unfold padded. replace (r <? W) with false by lia. f_equal. rewrite skipn_all2 by (unfold zlen in *; lia). unfold right_aligned. cbn [length]. rewrite Nat.sub_0_r, firstn_all, app_nil_r. reflexivity. }
    assert (Hfr : zlen (firstn (Z.to_nat W) rest) = W) by (rewrite zlen_firstn; lia).
    assert (Hpe' : znth pe (h + k) = Some x).
    { rewrite G4' by lia. rewrite Hpd, sc_znth_app_r by lia. rewrite Hfr. replace (0 + 2 * (h + k) - W) with (2 * k) by lia. exact Hx. }
    assert (Hpo' : znth po (h + k) = Some y).
    { rewrite G5' by lia. rewrite Hpd, sc_znth_app_r by lia. rewrite Hfr. replace (1 + 2 * (h + k) - W) with (2 * k + 1) by lia. exact Hy. }
    apply sc_znth_map. rewrite sc_znth_app_r by (rewrite map2_zlen by lia; lia). rewrite map2_zlen, Hev by lia. replace (W * n + k - W * n) with k by lia.
    apply sc_znth_skipn; [lia|lia|]. rewrite Hm2. exact (sc_znth_map2 f pe po (h + k) x y Hpe' Hpo').
Qed.
