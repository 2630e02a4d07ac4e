(** Proofs of the properties: every iterator a program can build (C15, C70). *)
From Verif Require Import Base Spec Vecs Iters Stride Zip StrideZip BuiltSpec.
From Coq Require Import Lia ZifyBool ZifyNat.
From Verif Require Import ListFacts VecFacts.
Ltac Zify.zify_post_hook ::= Z.div_mod_to_equations.

(** [o] is not undefined, and its value, if any, satisfies [P]. *)
Definition good {X : Type} (o : outcome X) (P : X -> Prop) : Prop :=
  match o with Ok a => P a | UB => False | _ => True end.

Lemma good_bind {X Y : Type} (o : outcome X) (f : X -> outcome Y) (P : X -> Prop) (Q : Y -> Prop) :
  good o P -> (forall a, P a -> good (f a) Q) -> good (bind o f) Q.
Proof. intros H Hf. destruct o; cbn in *; auto. Qed.

Lemma good_not_ub {X : Type} (o : outcome X) P : good o P -> o <> UB.
Proof. intros H ->. exact H. Qed.

Lemma good_ok {X : Type} (o : outcome X) P x : good o P -> o = Ok x -> P x.
Proof. intros H ->. exact H. Qed.

Lemma good_imp {X : Type} (o : outcome X) (P Q : X -> Prop) :
  good o P -> (forall x, P x -> Q x) -> good o Q.
Proof. intros H HI. destruct o; cbn in *; auto. Qed.

Lemma good_uarith c r : build c = Debug -> good (uarith c r) (fun x => x = r /\ usize r).
Proof.
  intros H. unfold uarith. rewrite H. destruct (_ && _) eqn:E; cbn; [|exact I].
  unfold usize. lia.
Qed.

Lemma good_udiv a b : 0 <= a -> 0 <= b -> good (udiv a b) (fun x => x = a / b /\ 0 <= x <= a /\ b > 0).
Proof.
  intros Ha Hb. unfold udiv. destruct (b =? 0) eqn:E; cbn; [exact I|].
  split; [reflexivity|]. split; [|lia]. split; [apply Z.div_pos; lia|].
  apply Z.div_le_upper_bound; [lia|]. nia.
Qed.

Lemma good_rassert b : good (rassert b) (fun _ => b = true).
Proof. destruct b; cbn; auto. Qed.

Lemma good_debug_assert c b : build c = Debug -> good (debug_assert c b) (fun _ => b = true).
Proof. intros H. unfold debug_assert. rewrite H. apply good_rassert. Qed.

Lemma good_for_range {X : Type} (P : X -> Prop) (f : Z -> X -> outcome X) : forall n i s,
  P s -> (forall j x, i <= j < i + Z.of_nat n -> P x -> good (f j x) P) -> good (for_range n i f s) P.
Proof.
  induction n as [|n IH]; intros i s Hs Hf; [exact Hs|]. cbn [for_range].
  apply (good_bind _ _ P); [apply Hf; [lia|exact Hs]|].
  intros x Hx. apply IH; [exact Hx|]. intros j y Hj Hy. apply Hf; [lia|exact Hy].
Qed.

Lemma zlen_upd_one {X} (l : list X) i x : 0 <= i < zlen l -> zlen (upd l i [x]) = zlen l.
Proof. intros H. apply zlen_upd; [lia|]. rewrite zlen_cons, zlen_nil. lia. Qed.

Lemma zlen_splat {X} W (x : X) : 0 <= W -> zlen (splat W x) = W.
Proof. intros H. unfold splat. rewrite zlen_repeat. lia. Qed.

Section Debug.
Variable c : config.
Hypothesis Hc : build c = Debug.

Lemma good_uadd a b : good (uadd c a b) (fun x => x = a + b /\ usize x).
Proof. eapply good_imp; [apply good_uarith; exact Hc|cbn beta]. cbn beta. intros x [-> H]. split; [reflexivity|exact H]. Qed.

Lemma good_usub a b : good (usub c a b) (fun x => x = a - b /\ usize x).
Proof. eapply good_imp; [apply good_uarith; exact Hc|cbn beta]. cbn beta. intros x [-> H]. split; [reflexivity|exact H]. Qed.

Lemma good_umul a b : good (umul c a b) (fun x => x = a * b /\ usize x).
Proof. eapply good_imp; [apply good_uarith; exact Hc|cbn beta]. cbn beta. intros x [-> H]. split; [reflexivity|exact H]. Qed.

Lemma good_load {X} W (l : list X) off : 0 < W -> 0 <= off ->
  good (load W l off) (fun v => zlen v = W).
Proof.
  intros HW Ho. unfold load. destruct (_ <? _) eqn:E; [exact I|]. destruct (_ <=? _) eqn:E2; [|exact I].
  cbn. rewrite zlen_sub; lia.
Qed.

Lemma good_load_unchecked {X} W (l : list X) off : 0 < W -> 0 <= off ->
  good (load_unchecked c W l off) (fun v => zlen v = W).
Proof.
  intros HW Ho. unfold load_unchecked. rewrite Hc. destruct (_ <? _) eqn:E; [exact I|]. destruct (_ <=? _) eqn:E2; [|exact I].
  cbn. rewrite zlen_sub; lia.
Qed.

Lemma good_store_unchecked {X} W (v l : list X) off : 0 <= off -> zlen v = W ->
  good (store_unchecked c W v l off) (fun l' => zlen l' = zlen l /\ off + W <= zlen l).
Proof.
  intros Ho Hv. unfold store_unchecked. rewrite Hc. destruct (_ <? _) eqn:E; [exact I|]. destruct (_ <=? _) eqn:E2; [|exact I].
  cbn. split; [|lia]. apply zlen_upd; lia.
Qed.

Lemma good_extract_unchecked {X} W (v : list X) i : 0 <= i -> zlen v = W ->
  good (extract_unchecked c W v i) (fun _ => True).
Proof.
  intros Hi Hv. unfold extract_unchecked. rewrite Hc. destruct (_ <? _) eqn:E; [|exact I].
  destruct (znth_exists v i ltac:(lia)) as [x ->]. exact I.
Qed.

Lemma good_replace_unchecked {X} W (v : list X) i x : 0 <= i -> zlen v = W ->
  good (replace_unchecked c W v i x) (fun v' => zlen v' = W).
Proof.
  intros Hi Hv. unfold replace_unchecked. rewrite Hc. destruct (_ <? _) eqn:E; [|exact I].
  cbn. rewrite zlen_upd_one; lia.
Qed.

Lemma good_replace {X} W (v : list X) i x : 0 <= i -> zlen v = W ->
  good (replace W v i x) (fun v' => zlen v' = W).
Proof.
  intros Hi Hv. unfold replace. destruct (_ <? _) eqn:E; [|exact I].
  cbn. rewrite zlen_upd_one; lia.
Qed.

Lemma lane_select_len {X} : forall m (a b : list X), length a = length m -> length b = length m ->
  length (lane_select m a b) = length m.
Proof.
  induction m as [|x m IH]; intros [|y a] [|z b] Ha Hb; cbn in *; try lia. rewrite IH; lia.
Qed.

Lemma good_partition_mask ty off : vty_ok ty -> 0 <= off ->
  good (partition_mask c ty off) (fun m => zlen m = WIDTH ty).
Proof.
  intros Hty Ho. pose proof (vty_ok_facts _ Hty) as (H1 & H2 & H3 & H4 & H5 & H6).
  unfold partition_mask. eapply good_bind; [apply good_debug_assert; exact Hc|cbn beta]. intros ? E1.
  rewrite Hc. eapply good_bind with (P := fun _ => True).
  { eapply good_bind; [apply good_umul|cbn beta]. intros m _. eapply good_imp; [apply good_rassert|cbn beta]. auto. }
  intros ? _. eapply good_bind; [apply good_usub|cbn beta]. intros start [-> Hst]. unfold usize in Hst.
  destruct (128 <? _) eqn:E3; [exact I|]. destruct (negb _) eqn:E4; [exact I|].
  destruct (_ + _ <=? _) eqn:E5; [cbn; rewrite zlen_map; unfold zlen; rewrite seq_length; lia|].
  exfalso. lia.
Qed.

Lemma good_merge {X} ty (a b : list X) off : vty_ok ty -> 0 <= off -> lanes ty a -> lanes ty b ->
  good (merge_partitioned c ty a b off) (lanes ty).
Proof.
  intros Hty Ho Ha Hb. unfold merge_partitioned. destruct (blend c).
  - eapply good_bind; [apply good_partition_mask; assumption|cbn beta]. intros m Hm. cbn.
    unfold lanes, zlen in *. rewrite lane_select_len; lia.
  - eapply good_bind; [apply good_rassert|cbn beta]. intros ? E. cbn beta in E. apply good_for_range; [exact Ha|].
    intros j x Hj Hx. eapply good_bind; [apply good_extract_unchecked; [lia|exact Hb]|cbn beta].
    intros y _. apply good_replace_unchecked; [lia|exact Hx].
Qed.

(** ** Arrays *)

Record safe_array {A T : Type} (arr : SIMDArray A T) (typed : T -> Prop) : Prop := {
  sa_ty : vty_ok (arr_ty arr);
  sa_len : forall s, typed s -> good (arr_scalar_len arr s) (fun n => 0 <= n);
  sa_load : forall s off, typed s -> 0 <= off -> good (arr_load arr s off) (lanes (arr_ty arr));
  sa_load_u : forall s off, typed s -> 0 <= off -> good (arr_load_unchecked arr s off) (lanes (arr_ty arr));
  sa_scalar : forall s off, typed s -> 0 <= off -> good (arr_load_scalar arr s off) (fun _ => True);
  sa_scalar_u : forall s off, typed s -> 0 <= off -> good (arr_load_scalar_unchecked arr s off) (fun _ => True)
}.

Lemma ty_pos ty : vty_ok ty -> 0 < WIDTH ty.
Proof. intros H. pose proof (vty_ok_facts _ H). lia. Qed.

Lemma safe_slice (A : Type) ty : vty_ok ty -> safe_array (A := A) (slice_array c ty) (slice_ok ty).
Proof.
  intros Hty. pose proof (ty_pos _ Hty). split; cbn; [exact Hty|..].
  - intros s _. apply zlen_nonneg.
  - intros s off _ Ho. apply good_load; assumption.
  - intros s off _ Ho. eapply good_bind; [apply good_debug_assert; exact Hc|cbn beta]. intros ? _.
    apply good_load_unchecked; assumption.
  - intros s off _ Ho. destruct (znth s off); exact I.
  - intros s off _ Ho. eapply good_bind; [apply good_debug_assert; exact Hc|cbn beta]. intros ? E. cbn beta in E. 
    destruct (znth_exists s off ltac:(lia)) as [x ->]. exact I.
Qed.

Lemma safe_si {A T} (arr : SIMDArray A T) typed : safe_array arr typed ->
  safe_array (si_array arr) (iter_typed (arr_ty arr) typed).
Proof.
  intros H. destruct H. split; cbn; auto; intros s; [intros (_ & Hs & _)|..]; try (intros off (_ & Hs & _)); eauto.
Qed.

Lemma good_ps_load_u {A T} (arr : SIMDArray A T) d0 typed s off : safe_array arr typed ->
  stride_typed (arr_ty arr) typed s -> 0 <= off ->
  good (ps_load_unchecked c arr d0 s off) (lanes (arr_ty arr)).
Proof.
  intros H (Hp & Hb & Hs & Ht & Hd) Ho. pose proof (ty_pos _ (sa_ty _ _ H)) as HW. unfold usize in *.
  unfold ps_load_unchecked. rewrite Hc.
  eapply good_bind with (P := fun _ => True).
  { eapply good_bind; [apply good_usub|cbn beta]. intros w1 _. eapply good_bind; [apply good_umul|cbn beta]. intros d _.
    eapply good_bind; [apply good_uadd|cbn beta]. intros e _. eapply good_bind; [apply (sa_len _ _ H); exact Ht|cbn beta].
    intros len _. eapply good_imp; [apply good_rassert|cbn beta]. auto. }
  intros ? _. apply good_for_range; [apply zlen_splat; lia|]. intros j x Hj Hx.
  eapply good_bind; [apply good_uadd|cbn beta]. intros oi _. eapply good_bind; [apply good_umul|cbn beta]. intros si [_ Hsi].
  eapply good_bind; [apply good_uadd|cbn beta]. intros k [_ Hk]. unfold usize in *.
  eapply good_bind; [apply (sa_scalar_u _ _ H); [exact Ht|lia]|cbn beta]. intros y _. apply good_replace; [lia|exact Hx].
Qed.

Lemma safe_ps {A T} (arr : SIMDArray A T) d0 typed : safe_array arr typed ->
  safe_array (ps_array c arr d0) (stride_typed (arr_ty arr) typed).
Proof.
  intros H. split; cbn [ps_array arr_ty arr_scalar_len arr_load arr_load_unchecked arr_load_scalar arr_load_scalar_unchecked].
  - exact (sa_ty _ _ H).
  - intros s (Hp & Hb & Hs & Ht & Hd). unfold ps_scalar_len, usize in *.
    eapply good_bind; [apply (sa_len _ _ H); exact Ht|cbn beta]. intros n Hn.
    eapply good_imp; [apply good_udiv; lia|cbn beta]. intros ? (_ & Hq & _); lia.
  - intros s off Ht Ho. unfold ps_load.
    eapply good_bind; [apply good_usub|cbn beta]. intros w1 _. eapply good_bind; [apply good_uadd|cbn beta]. intros o _.
    eapply good_bind; [apply good_umul|cbn beta]. intros d _. eapply good_bind; [apply good_uadd|cbn beta]. intros e _.
    eapply good_bind; [apply (sa_len _ _ H); apply Ht|cbn beta]. intros len _.
    eapply good_bind; [apply good_rassert|cbn beta]. intros ? _. eapply good_ps_load_u; eassumption.
  - intros s off Ht Ho. eapply good_ps_load_u; eassumption.
  - intros s off Ht Ho. unfold ps_load_scalar. eapply good_bind; [apply good_umul|cbn beta]. intros d _.
    eapply good_bind; [apply good_uadd|cbn beta]. intros k [_ Hk]. apply (sa_scalar _ _ H); [apply Ht|apply Hk].
  - intros s off Ht Ho. unfold ps_load_scalar_unchecked. eapply good_bind; [apply good_umul|cbn beta]. intros d _.
    eapply good_bind; [apply good_uadd|cbn beta]. intros k [_ Hk]. apply (sa_scalar_u _ _ H); [apply Ht|apply Hk].
Qed.

Lemma array_safe : forall A T arr typed, array_of c A T arr typed -> safe_array arr typed.
Proof.
  intros A T arr typed H. induction H; [apply safe_slice|apply safe_si|apply safe_ps]; assumption.
Qed.

(** ** Iterables *)

Definition len_le {V I : Type} (it : SIMDIterable V I) (s s' : I) : Prop :=
  forall n, it_len it s = Ok n -> exists n', it_len it s' = Ok n' /\ n' <= n.

Lemma len_le_refl {V I} (it : SIMDIterable V I) s : len_le it s s.
Proof. intros n H. exists n. split; [exact H|lia]. Qed.

Lemma len_le_trans {V I} (it : SIMDIterable V I) s1 s2 s3 :
  len_le it s1 s2 -> len_le it s2 s3 -> len_le it s1 s3.
Proof.
  intros H1 H2 n Hn. destruct (H1 n Hn) as (m & Hm & Hle). destruct (H2 m Hm) as (p & Hp & Hle').
  exists p. split; [exact Hp|lia].
Qed.

Record safe_it {V I : Type} (it : SIMDIterable V I) (typed : I -> Prop) (vt : V -> Prop) : Prop := {
  si_ty : vty_ok (it_ty it);
  si_nx : forall s, typed s -> good (it_next it s) (fun r =>
            typed (snd r) /\ len_le it s (snd r) /\ forall v, fst r = Some v -> vt v);
  si_ln : forall s, typed s -> good (it_len it s) (fun n => 0 <= n);
  si_sl : forall s, typed s -> good (it_scalar_len it s) (fun n => 0 <= n);
  si_vl : forall s, typed s -> good (it_vector_len it s) (fun n => 0 <= n);
  si_sp : forall s, typed s -> good (it_scalar_pos it s) usize;
  si_vp : forall s, typed s -> good (it_vector_pos it s) (fun n => 0 <= n);
  si_ad : forall s a, typed s -> usize a -> good (it_advance it s a) (fun s' => typed s' /\ len_le it s s');
  si_df : forall s, typed s -> vt (it_default it s)
}.

Record safe_end {V I : Type} (it : SIMDIterator V I) (typed : I -> Prop) (vt : V -> Prop) : Prop := {
  se_it : safe_it (itb it) typed vt;
  se_end : forall s, typed s -> good (it_end it s) (fun r =>
            typed (snd r) /\ len_le (itb it) s (snd r) /\
            forall v n, fst r = Some (v, n) -> vt v /\ 0 <= n)
}.

Lemma good_finalize {V I} (it : SIMDIterable V I) typed vt s : safe_it it typed vt -> typed s ->
  good (finalize c it s) (fun s' => typed s' /\ len_le it s s').
Proof.
  intros H Hs. unfold finalize. eapply good_bind; [apply (si_sl _ _ _ H); exact Hs|cbn beta]. intros len _.
  eapply good_bind; [apply (si_sp _ _ _ H); exact Hs|cbn beta]. intros pos _.
  eapply good_bind; [apply good_usub|cbn beta]. intros e [_ He]. apply (si_ad _ _ _ H); assumption.
Qed.

Lemma iter_safe {A T} (arr : SIMDArray A T) typed : safe_array arr typed ->
  safe_it (si_iterable c arr) (iter_typed (arr_ty arr) typed) (lanes (arr_ty arr)).
Proof.
  intros H. pose proof (ty_pos _ (sa_ty _ _ H)) as HW.
  assert (Hadv : forall (s : SIMDIter A T) a, iter_typed (arr_ty arr) typed s -> usize a ->
            good (si_advance c s a) (fun s' => iter_typed (arr_ty arr) typed s' /\
                    si_data s' = si_data s)).
  { intros s a (Hp & Ht & Hd) Ha. unfold si_advance. eapply good_bind; [apply good_uadd|cbn beta].
    intros p [_ Hp']. cbn. split; [|reflexivity]. split; [exact Hp'|]. split; [exact Ht|exact Hd]. }
  assert (Hsame : forall s s' : SIMDIter A T, si_data s' = si_data s -> len_le (si_iterable c arr) s s').
  { intros s s' E n Hn. exists n. split; [|lia]. cbn in *. rewrite E. exact Hn. }
  split; cbn [si_iterable it_ty it_next it_len it_scalar_len it_vector_len it_scalar_pos it_vector_pos it_advance it_default].
  - exact (sa_ty _ _ H).
  - intros s Hs. unfold si_next. eapply good_bind; [apply good_uadd|cbn beta]. intros p [_ Hp].
    eapply good_bind; [apply (sa_len _ _ H); apply Hs|cbn beta]. intros len _. destruct (_ <=? _).
    + eapply good_bind; [apply (sa_load_u _ _ H); [apply Hs|apply Hs]|cbn beta]. intros v Hv.
      eapply good_bind; [apply Hadv; [exact Hs|]|cbn beta].
      { destruct (vty_ok_facts _ (sa_ty _ _ H)) as (? & ? & ? & ? & ? & ?). unfold usize, usize_mod. lia. }
      intros s' [Hs' E]. cbn. split; [exact Hs'|]. split; [apply Hsame; exact E|]. intros w Hw. inversion Hw; subst; exact Hv.
    + cbn. split; [exact Hs|]. split; [apply len_le_refl|]. discriminate.
  - intros s Hs. eapply good_bind; [apply (sa_len _ _ H); apply Hs|cbn beta]. intros n Hn.
    eapply good_imp; [apply good_udiv; lia|cbn beta]. intros ? (_ & Hq & _); unfold usize in *; lia.
  - intros s Hs. apply (sa_len _ _ H); apply Hs.
  - intros s Hs. eapply good_bind; [apply (sa_len _ _ H); apply Hs|cbn beta]. intros n Hn.
    eapply good_imp; [apply good_udiv; lia|cbn beta]. intros ? (_ & Hq & _); unfold usize in *; lia.
  - intros s Hs. apply Hs.
  - intros s Hs. eapply good_imp; [apply good_udiv; [apply Hs|lia]|cbn beta]. intros ? (_ & Hq & _); unfold usize in *; lia.
  - intros s a Hs Ha. eapply good_imp; [apply Hadv; assumption|cbn beta]. intros s' [H1 H2]. split; [exact H1|apply Hsame; exact H2].
  - intros s Hs. apply Hs.
Qed.

Lemma stride_safe {A T} (arr : SIMDArray A T) d0 typed : safe_array arr typed ->
  safe_it (ps_iterable c arr d0) (stride_typed (arr_ty arr) typed) (lanes (arr_ty arr)).
Proof.
  intros H. pose proof (ty_pos _ (sa_ty _ _ H)) as HW.
  assert (Hadv : forall (s : PackedStride A T) a, stride_typed (arr_ty arr) typed s -> usize a ->
            good (ps_advance c s a) (fun s' => stride_typed (arr_ty arr) typed s' /\
                    ps_iter s' = ps_iter s /\ ps_stride s' = ps_stride s)).
  { intros s a (Hp & Hb & Hs & Ht & Hd) Ha. unfold ps_advance. eapply good_bind; [apply good_umul|cbn beta].
    intros d _. eapply good_bind; [apply good_uadd|cbn beta].
    intros p [_ Hp']. cbn. split; [|split; reflexivity]. repeat (split; [assumption|]). exact Hd. }
  assert (Hsame : forall s s' : PackedStride A T, ps_iter s' = ps_iter s -> ps_stride s' = ps_stride s ->
                    len_le (ps_iterable c arr d0) s s').
  { intros s s' E E2 n Hn. exists n. split; [|lia]. cbn in *. unfold ps_len in *. rewrite E, E2. exact Hn. }
  assert (Hlen : forall s, stride_typed (arr_ty arr) typed s -> good (ps_scalar_len arr s) (fun n => 0 <= n)).
  { intros s Hs. apply (sa_len _ _ (safe_ps arr d0 typed H)). exact Hs. }
  split; cbn [ps_iterable it_ty it_next it_len it_scalar_len it_vector_len it_scalar_pos it_vector_pos it_advance it_default].
  - exact (sa_ty _ _ H).
  - intros s Hs. unfold ps_next. eapply good_bind; [apply good_umul|cbn beta]. intros d [_ Hd].
    eapply good_bind; [apply good_uadd|cbn beta]. intros p [_ Hp].
    eapply good_bind; [apply (sa_len _ _ H); apply Hs|cbn beta]. intros len _. destruct (_ <? _).
    + eapply good_bind with (P := lanes (arr_ty arr)).
      { apply good_for_range; [apply zlen_splat; lia|]. intros j x Hj Hx.
        eapply good_bind; [apply good_umul|cbn beta]. intros si _. eapply good_bind; [apply good_uadd|cbn beta]. intros k [_ Hk].
        eapply good_bind; [apply (sa_scalar_u _ _ H); [apply Hs|apply Hk]|cbn beta]. intros y _.
        apply good_replace; [lia|exact Hx]. }
      intros v Hv. eapply good_bind; [apply Hadv; [exact Hs|]|cbn beta].
      { destruct (vty_ok_facts _ (sa_ty _ _ H)) as (? & ? & ? & ? & ? & ?). unfold usize, usize_mod. lia. }
      intros s' (Hs' & E & E2). cbn. split; [exact Hs'|]. split; [apply Hsame; assumption|].
      intros w Hw. inversion Hw; subst; exact Hv.
    + cbn. split; [exact Hs|]. split; [apply len_le_refl|]. discriminate.
  - intros s Hs. unfold ps_len. eapply good_bind; [apply (sa_len _ _ H); apply Hs|cbn beta]. intros n Hn.
    eapply good_bind; [apply good_udiv; lia|cbn beta]. intros m (_ & Hm & _). destruct Hs as (_ & _ & Hst & _). unfold usize in Hst.
    eapply good_imp; [apply good_udiv; lia|cbn beta]. intros ? (_ & Hq & _); unfold usize in *; lia.
  - exact Hlen.
  - intros s Hs. eapply good_bind; [apply Hlen; exact Hs|cbn beta]. intros n Hn.
    eapply good_imp; [apply good_udiv; lia|cbn beta]. intros ? (_ & Hq & _); unfold usize in *; lia.
  - intros s Hs. unfold ps_scalar_pos. eapply good_bind; [apply good_usub|cbn beta]. intros d [_ Hd].
    destruct Hs as (_ & _ & Hst & _). unfold usize in *.
    eapply good_imp; [apply good_udiv; lia|cbn beta]. intros ? (_ & Hq & _); unfold usize in *; lia.
  - intros s Hs. unfold ps_vector_pos. eapply good_bind; [apply good_usub|cbn beta]. intros d [_ Hd].
    eapply good_bind; [apply good_umul|cbn beta]. intros m [_ Hm]. unfold usize in *.
    eapply good_imp; [apply good_udiv; lia|cbn beta]. intros ? (_ & Hq & _); unfold usize in *; lia.
  - intros s a Hs Ha. eapply good_imp; [apply Hadv; assumption|cbn beta]. intros s' (H1 & H2 & H3). split; [exact H1|apply Hsame; assumption].
  - intros s Hs. apply Hs.
Qed.

Lemma component_safe : forall A I arr it typed, component_of c A I arr it typed ->
  safe_array arr typed /\ safe_it it typed (lanes (it_ty it)) /\ it_ty it = arr_ty arr.
Proof.
  intros A I arr it typed H. destruct H as [A T arr typed H|A T arr typed d0 H]; apply array_safe in H.
  - split; [apply safe_si; exact H|]. split; [apply iter_safe; exact H|reflexivity].
  - split; [apply safe_ps; exact H|]. split; [apply stride_safe; exact H|reflexivity].
Qed.

Lemma good_partial {A I} (arr : SIMDArray A I) it typed s from len empty :
  safe_array arr typed -> safe_it it typed (lanes (it_ty it)) -> it_ty it = arr_ty arr ->
  typed s -> 0 <= from -> 0 <= empty ->
  good (partial_vector c arr it s from len empty) (lanes (it_ty it)).
Proof.
  intros Ha Hi E Hs Hf He. pose proof (ty_pos _ (si_ty _ _ _ Hi)) as HW. unfold partial_vector.
  destruct (_ <? _).
  - eapply good_bind; [apply good_usub|cbn beta]. intros off [_ Ho].
    eapply good_bind; [apply (sa_load_u _ _ Ha); [exact Hs|apply Ho]|cbn beta]. intros v Hv.
    apply good_merge; [apply (si_ty _ _ _ Hi)|exact He|apply (si_df _ _ _ Hi); exact Hs|rewrite E; exact Hv].
  - apply good_for_range; [apply (si_df _ _ _ Hi); exact Hs|]. intros j x Hj Hx.
    eapply good_bind; [apply good_uadd|cbn beta]. intros idx [_ Hidx]. unfold usize in Hidx.
    eapply good_bind; [apply (sa_scalar_u _ _ Ha); [exact Hs|lia]|cbn beta]. intros y _.
    apply good_replace_unchecked; [lia|exact Hx].
Qed.

Lemma component_end_safe : forall A I arr it typed, component_of c A I arr it typed ->
  safe_end (blanket_iterator c arr it) typed (lanes (it_ty it)).
Proof.
  intros A I arr it typed H. destruct (component_safe _ _ _ _ _ H) as (Ha & Hi & E).
  split; [exact Hi|]. cbn [blanket_iterator it_end itb]. intros s Hs. unfold blanket_end.
  eapply good_bind; [apply (si_sp _ _ _ Hi); exact Hs|cbn beta]. intros pos Hpos.
  eapply good_bind; [apply (si_sl _ _ _ Hi); exact Hs|cbn beta]. intros len Hlen.
  destruct (_ <? _); [|cbn; split; [exact Hs|]; split; [apply len_le_refl|discriminate]].
  eapply good_bind; [apply good_usub|cbn beta]. intros rem _. eapply good_bind; [apply good_usub|cbn beta]. intros em [_ Hem].
  eapply good_bind; [apply good_partial with (typed := typed); try assumption; [apply Hpos|apply Hem]|cbn beta].
  intros v Hv. eapply good_bind; [eapply good_finalize; eassumption|cbn beta]. intros s' [Hs' Hle]. cbn.
  split; [exact Hs'|]. split; [exact Hle|]. intros w n Hw. inversion Hw; subst. split; [exact Hv|apply Hem].
Qed.

(** ** Combinators *)

Record safe_rest {VR R : Type} (rest : ZipRest VR R) (typed : R -> Prop) (vt : VR -> Prop) : Prop := {
  sr_mm : forall s n, typed s -> good (rest_mismatch rest s n) (fun _ => True);
  sr_nx : forall s p, typed s -> usize p -> good (rest_next rest s p) vt;
  sr_end : forall s p n, typed s -> usize p -> 0 <= n -> good (rest_end rest s p n) vt;
  sr_df : forall s, typed s -> vt (rest_default rest s)
}.

Lemma good_next_unchecked {A I} (arr : SIMDArray A I) it typed s p :
  component_of c A I arr it typed -> typed s -> usize p -> good (next_unchecked c arr it s p) (lanes (it_ty it)).
Proof.
  intros H Hs Hp. destruct (component_safe _ _ _ _ _ H) as (Ha & Hi & E). unfold next_unchecked. rewrite Hc.
  eapply good_bind with (P := fun _ => True).
  { eapply good_bind; [apply good_uadd|cbn beta]. intros e _. eapply good_bind; [apply (si_sl _ _ _ Hi); exact Hs|cbn beta].
    intros len _. eapply good_imp; [apply good_rassert|auto]. }
  intros ? _. rewrite E. apply (sa_load_u _ _ Ha); [exact Hs|apply Hp].
Qed.

Lemma good_end_unchecked {A I} (arr : SIMDArray A I) it typed s p n :
  component_of c A I arr it typed -> typed s -> usize p -> 0 <= n ->
  good (end_unchecked c arr it s p n) (lanes (it_ty it)).
Proof.
  intros H Hs Hp Hn. destruct (component_safe _ _ _ _ _ H) as (Ha & Hi & E). unfold end_unchecked. rewrite Hc.
  eapply good_bind; [apply (si_sl _ _ _ Hi); exact Hs|cbn beta]. intros len Hlen.
  eapply good_bind; [apply good_debug_assert; exact Hc|cbn beta]. intros ? _.
  eapply good_bind with (P := fun _ => True).
  { eapply good_bind; [apply good_usub|cbn beta]. intros rem _. eapply good_bind; [apply good_usub|cbn beta].
    intros e _. eapply good_imp; [apply good_rassert|auto]. }
  intros ? _. apply good_partial with (typed := typed); try assumption. apply Hp.
Qed.

Lemma rest_safe : forall VR R rest typed vt, rest_of c VR R rest typed vt -> safe_rest rest typed vt.
Proof.
  intros VR R rest typed vt H.
  induction H as [A I arr it typed H|A I VR R arr it typed rest rtyped vt H Hr IH];
    destruct (component_safe _ _ _ _ _ H) as (Ha & Hi & E).
  - split; cbn [rest_one rest_mismatch rest_next rest_end rest_default blanket_unsafe un_len un_next un_end un_default].
    + intros s n Hs. eapply good_bind; [apply (si_ln _ _ _ Hi); exact Hs|cbn beta]. intros ? _. exact Logic.I.
    + intros s p Hs Hp. apply good_next_unchecked with (typed := typed); assumption.
    + intros s p n Hs Hp Hn. apply good_end_unchecked with (typed := typed); assumption.
    + intros s Hs. apply (si_df _ _ _ Hi). exact Hs.
  - split; cbn [rest_cons rest_mismatch rest_next rest_end rest_default blanket_unsafe un_len un_next un_end un_default].
    + intros s n [Hs Hs2]. eapply good_bind; [apply (si_ln _ _ _ Hi); exact Hs|cbn beta]. intros m _.
      destruct (negb _); [exact Logic.I|]. apply (sr_mm _ _ _ IH). exact Hs2.
    + intros s p [Hs Hs2] Hp. eapply good_bind; [apply good_next_unchecked with (typed := typed); eassumption|]. intros v Hv.
      eapply good_bind; [apply (sr_nx _ _ _ IH); eassumption|]. intros vs Hvs. cbn. split; assumption.
    + intros s p n [Hs Hs2] Hp Hn. eapply good_bind; [apply good_end_unchecked with (typed := typed); eassumption|]. intros v Hv.
      eapply good_bind; [apply (sr_end _ _ _ IH); eassumption|]. intros vs Hvs. cbn. split; assumption.
    + intros s [Hs Hs2]. cbn. split; [apply (si_df _ _ _ Hi); exact Hs|apply (sr_df _ _ _ IH); exact Hs2].
Qed.

Lemma zip_safe {V I VR R} (it : SIMDIterator V I) (rest : ZipRest VR R) typed vt rtyped rvt :
  safe_end it typed vt -> safe_rest rest rtyped rvt ->
  safe_end (zip_iterator it rest) (fun s => typed (fst s) /\ rtyped (snd s))
           (fun v => vt (fst v) /\ rvt (snd v)).
Proof.
  intros [Hi He] Hr. pose proof (ty_pos _ (si_ty _ _ _ Hi)) as HW.
  assert (Hle : forall (s s' : I) (r r' : R), len_le (itb it) s s' -> len_le (zip_iterable it rest) (s, r) (s', r')).
  { intros s s' r r' H n Hn. cbn in *. apply H. exact Hn. }
  split.
  - split; cbn [zip_iterator zip_iterable itb it_ty it_next it_len it_scalar_len it_vector_len it_scalar_pos it_vector_pos it_advance it_default].
    + apply (si_ty _ _ _ Hi).
    + intros [s r] [Hs Hs2]. unfold zip_next. cbn [fst snd] in *.
      eapply good_bind; [apply (si_sp _ _ _ Hi); exact Hs|]. intros pos Hp.
      eapply good_bind; [apply (si_nx _ _ _ Hi); exact Hs|cbn beta]. intros [[v|] s'] (Ht & Hl & Hv); cbn [fst snd] in *.
      * eapply good_bind; [apply (sr_nx _ _ _ Hr); eassumption|]. intros vs Hvs. cbn.
        split; [split; assumption|]. split; [apply Hle; exact Hl|]. intros w Hw. inversion Hw; subst. cbn. auto.
      * cbn. split; [split; assumption|]. split; [apply Hle; exact Hl|discriminate].
    + intros s [Hs _]. apply (si_ln _ _ _ Hi). exact Hs.
    + intros s [Hs _]. apply (si_ln _ _ _ Hi). exact Hs.
    + intros s [Hs _]. eapply good_bind; [apply (si_ln _ _ _ Hi); exact Hs|cbn beta]. intros n Hn.
      eapply good_imp; [apply good_udiv; lia|cbn beta]. intros ? (_ & Hq & _); lia.
    + intros s [Hs _]. apply (si_sp _ _ _ Hi). exact Hs.
    + intros s [Hs _]. eapply good_bind; [apply (si_sp _ _ _ Hi); exact Hs|cbn beta]. intros n Hn. unfold usize in Hn.
      eapply good_imp; [apply good_udiv; lia|cbn beta]. intros ? (_ & Hq & _); lia.
    + intros [s r] a [Hs Hs2] Ha. cbn [fst snd] in *. eapply good_bind; [apply (si_ad _ _ _ Hi); eassumption|cbn beta].
      intros s' [Ht Hl]. cbn. split; [split; assumption|apply Hle; exact Hl].
    + intros [s r] [Hs Hs2]. cbn. split; [apply (si_df _ _ _ Hi); exact Hs|apply (sr_df _ _ _ Hr); exact Hs2].
  - cbn [zip_iterator it_end itb]. intros [s r] [Hs Hs2]. unfold zip_end. cbn [fst snd] in *.
    eapply good_bind; [apply (si_sp _ _ _ Hi); exact Hs|]. intros pos Hp.
    eapply good_bind; [apply He; exact Hs|cbn beta]. intros [[[v n]|] s'] (Ht & Hl & Hv); cbn [fst snd] in *.
    + destruct (Hv _ _ eq_refl) as [Hv1 Hn].
      eapply good_bind; [apply (sr_end _ _ _ Hr); eassumption|]. intros vs Hvs. cbn.
      split; [split; assumption|]. split; [apply Hle; exact Hl|]. intros w m Hw. inversion Hw; subst. cbn. auto.
    + cbn. split; [split; assumption|]. split; [apply Hle; exact Hl|discriminate].
Qed.

Section MapSafe.
Context {V B I E : Type}.
Variable it : SIMDIterator V I.
Variable typed : I -> Prop.
Variable vt : V -> Prop.
Variable out_ty : vty.
Variable d0 : B.
Variable func : E -> V -> list B * E.
Hypothesis Hit : safe_end it typed vt.
Hypothesis Hty : vty_ok out_ty.
Hypothesis Hf : forall e v, vt v -> lanes out_ty (fst (func e v)).

Lemma good_sm_next (s : SIMDMap I E) : typed (sm_iter s) -> good (sm_next it func s) (fun r =>
  typed (sm_iter (snd r)) /\ len_le (itb it) (sm_iter s) (sm_iter (snd r)) /\
  forall v, fst r = Some v -> lanes out_ty v).
Proof.
  intros Hs. unfold sm_next. eapply good_bind; [apply (si_nx _ _ _ (se_it _ _ _ Hit)); exact Hs|cbn beta].
  intros [[v|] s'] (Ht & Hl & Hv); cbn [fst snd] in *.
  - specialize (Hf (sm_env s) v (Hv _ eq_refl)). destruct (func (sm_env s) v) as [y e']. cbn in *.
    split; [exact Ht|]. split; [exact Hl|]. intros w Hw. inversion Hw; subst. exact Hf.
  - cbn. split; [exact Ht|]. split; [exact Hl|discriminate].
Qed.

Lemma good_sm_end (s : SIMDMap I E) : typed (sm_iter s) -> good (sm_end c it out_ty func s) (fun r =>
  typed (sm_iter (snd r)) /\ len_le (itb it) (sm_iter s) (sm_iter (snd r)) /\
  forall v n, fst r = Some (v, n) -> lanes out_ty v /\ 0 <= n).
Proof.
  intros Hs. unfold sm_end. eapply good_bind; [apply (se_end _ _ _ Hit); exact Hs|cbn beta].
  intros [[[v n]|] s'] (Ht & Hl & Hv); cbn [fst snd] in *.
  - destruct (Hv _ _ eq_refl) as [Hv1 Hn]. eapply good_bind; [apply good_umul|cbn beta]. intros m [_ Hm]. unfold usize in Hm.
    assert (HS : 0 < SIZE out_ty) by (pose proof (vty_ok_facts _ Hty); lia).
    eapply good_bind; [apply good_udiv; lia|cbn beta]. intros nr (_ & Hq & _).
    specialize (Hf (sm_env s) v Hv1). destruct (func (sm_env s) v) as [y e']. cbn in *.
    split; [exact Ht|]. split; [exact Hl|]. intros w k Hw. inversion Hw; subst. split; [exact Hf|lia].
  - cbn. split; [exact Ht|]. split; [exact Hl|discriminate].
Qed.

Lemma good_sm_advance (s : SIMDMap I E) a : typed (sm_iter s) -> usize a -> good (sm_advance it s a) (fun s' =>
  typed (sm_iter s') /\ len_le (itb it) (sm_iter s) (sm_iter s')).
Proof.
  intros Hs Ha. unfold sm_advance. eapply good_bind; [apply (si_ad _ _ _ (se_it _ _ _ Hit)); eassumption|cbn beta].
  intros i' H. exact H.
Qed.

Lemma map_safe : safe_end (map_iterator c it out_ty d0 func) (fun s => typed (sm_iter s)) (lanes out_ty).
Proof.
  pose proof (ty_pos _ Hty) as HW. pose proof (se_it _ _ _ Hit) as Hi.
  split; [split|]; cbn [map_iterator sm_iterable itb it_end it_ty it_next it_len it_scalar_len it_vector_len it_scalar_pos it_vector_pos it_advance it_default].
  - exact Hty.
  - intros s Hs. apply good_sm_next. exact Hs.
  - intros s Hs. apply (si_ln _ _ _ Hi). exact Hs.
  - intros s Hs. apply (si_ln _ _ _ Hi). exact Hs.
  - intros s Hs. eapply good_bind; [apply (si_ln _ _ _ Hi); exact Hs|cbn beta]. intros n Hn.
    eapply good_imp; [apply good_udiv; lia|cbn beta]. intros ? (_ & Hq & _); lia.
  - intros s Hs. apply (si_sp _ _ _ Hi). exact Hs.
  - intros s Hs. eapply good_bind; [apply (si_sp _ _ _ Hi); exact Hs|cbn beta]. intros n Hn. unfold usize in Hn.
    eapply good_imp; [apply good_udiv; lia|cbn beta]. intros ? (_ & Hq & _); lia.
  - intros s a Hs Ha. apply good_sm_advance; assumption.
  - intros s _. apply zlen_splat. lia.
  - intros s Hs. apply good_sm_end. exact Hs.
Qed.

Lemma zipmap_safe : safe_end (zipmap_iterator c it out_ty d0 func) (fun s => typed (sm_iter s)) (lanes out_ty).
Proof.
  pose proof (ty_pos _ Hty) as HW. pose proof (se_it _ _ _ Hit) as Hi.
  split; [split|]; cbn [zipmap_iterator zipmap_iterable itb it_end it_ty it_next it_len it_scalar_len it_vector_len it_scalar_pos it_vector_pos it_advance it_default].
  - exact Hty.
  - intros s Hs. apply good_sm_next. exact Hs.
  - intros s Hs. apply (si_ln _ _ _ Hi). exact Hs.
  - intros s Hs. apply (si_sl _ _ _ Hi). exact Hs.
  - intros s Hs. apply (si_vl _ _ _ Hi). exact Hs.
  - intros s Hs. apply (si_sp _ _ _ Hi). exact Hs.
  - intros s Hs. eapply good_bind; [apply (si_sp _ _ _ Hi); exact Hs|cbn beta]. intros n Hn. unfold usize in Hn.
    eapply good_imp; [apply good_udiv; lia|cbn beta]. intros ? (_ & Hq & _); lia.
  - intros s a Hs Ha. apply good_sm_advance; assumption.
  - intros s _. apply zlen_splat. lia.
  - intros s Hs. apply good_sm_end. exact Hs.
Qed.
End MapSafe.

Lemma good_ad_end_loop {A} (ty : vty) : forall (items : list A) off scratch, vty_ok ty -> 0 <= off -> lanes ty scratch ->
  good (ad_end_loop c ty items off scratch) (fun r => 0 <= fst r /\ lanes ty (snd r)).
Proof.
  induction items as [|x items IH]; intros off scratch Hty Ho Hs; cbn [ad_end_loop]; [cbn; auto|].
  eapply good_bind; [apply good_replace_unchecked; [exact Ho|exact Hs]|cbn beta]. intros v Hv.
  eapply good_bind; [apply good_usub|cbn beta]. intros o [_ Hoo]. apply IH; [exact Hty|apply Hoo|exact Hv].
Qed.

Lemma adapter_safe (A : Type) ty : vty_ok ty ->
  safe_end (adapter_iterator (A := A) c ty) (adapter_typed ty) (lanes ty).
Proof.
  intros Hty. pose proof (ty_pos _ Hty) as HW.
  assert (HWu : usize (WIDTH ty)).
  { destruct (vty_ok_facts _ Hty) as (? & ? & ? & ? & ? & ?). unfold usize, usize_mod. lia. }
  assert (Hadv : forall (s : SIMDAdapter A) a, adapter_typed ty s -> usize a ->
            good (ad_advance c s a) (fun s' => adapter_typed ty s' /\ ad_iter s' = ad_iter s /\ ad_scratch s' = ad_scratch s)).
  { intros s a (Hp & H1 & H2) Ha. unfold ad_advance. eapply good_bind; [apply good_uadd|cbn beta].
    intros p [_ Hp']. cbn. split; [|split; reflexivity]. repeat (split; [assumption|]). exact H2. }
  assert (Hle : forall s s' : SIMDAdapter A, zlen (ad_iter s') <= zlen (ad_iter s) ->
            len_le (ad_iterable c ty) s s').
  { intros s s' H n Hn. cbn in *. rewrite udiv_ok in * by lia. eexists. split; [reflexivity|].
    injection Hn as <-. apply Z.div_le_mono; lia. }
  assert (Hsi : safe_it (ad_iterable (A := A) c ty) (adapter_typed ty) (lanes ty)).
  { split; cbn [ad_iterable it_ty it_next it_len it_scalar_len it_vector_len it_scalar_pos it_vector_pos it_advance it_default].
    - exact Hty.
    - intros s Hs. unfold ad_next. eapply good_bind; [apply good_uadd|cbn beta]. intros e _. destruct (_ <=? _).
      + eapply good_bind with (P := fun q => lanes ty (fst q) /\ zlen (snd q) <= zlen (ad_iter s)).
        { apply good_for_range; [cbn; split; [apply Hs|lia]|]. intros j [v rest] Hj [Hv Hr]. cbn [fst snd] in *.
          destruct rest as [|x rest]; [exact Logic.I|]. rewrite zlen_cons in Hr.
          eapply good_bind; [apply good_replace_unchecked; [lia|exact Hv]|cbn beta]. intros w Hw. cbn.
          split; [exact Hw|lia]. }
        intros q [Hq Hr]. eapply good_bind; [apply Hadv; [|exact HWu]|cbn beta].
        { split; [apply Hs|]. split; [exact Hq|apply Hs]. }
        intros s' (Hs' & E1 & E2). cbn in *. split; [exact Hs'|]. split; [apply Hle; rewrite E1; exact Hr|].
        intros v Hv. inversion Hv; subst. apply Hs'.
      + cbn. split; [exact Hs|]. split; [apply len_le_refl|discriminate].
    - intros s _. pose proof (zlen_nonneg (ad_iter s)). eapply good_imp; [apply good_udiv; lia|cbn beta]. intros ? (_ & Hq & _); lia.
    - intros s _. apply zlen_nonneg.
    - intros s _. pose proof (zlen_nonneg (ad_iter s)). eapply good_imp; [apply good_udiv; lia|cbn beta]. intros ? (_ & Hq & _); lia.
    - intros s Hs. apply Hs.
    - intros s Hs. eapply good_imp; [apply good_udiv; [apply Hs|lia]|cbn beta]. intros ? (_ & Hq & _); lia.
    - intros s a Hs Ha. eapply good_imp; [apply Hadv; assumption|cbn beta]. intros s' (H1 & H2 & _). split; [exact H1|].
      apply Hle. rewrite H2. lia.
    - intros s Hs. apply Hs. }
  split; [exact Hsi|]. cbn [adapter_iterator it_end itb]. intros s Hs. unfold ad_end. destruct (_ <? _).
  - eapply good_bind; [apply good_usub|cbn beta]. intros o [_ Ho].
    eapply good_bind; [apply good_ad_end_loop; [exact Hty|apply Ho|apply Hs]|cbn beta]. intros q [Hq1 Hq2].
    eapply good_bind; [eapply good_finalize; [exact Hsi|]|cbn beta].
    { split; [apply Hs|]. split; [exact Hq2|apply Hs]. }
    intros s' [Hs' Hl]. cbn. split; [exact Hs'|]. split.
    + eapply len_le_trans; [|exact Hl]. apply Hle. cbn. apply zlen_nonneg.
    + intros v n Hv. inversion Hv; subst. auto.
  - cbn. split; [exact Hs|]. split; [apply len_le_refl|discriminate].
Qed.

Lemma stride_zip_safe {A I} (it : SIMDIterator (list A) I) typed vt d0 ds : safe_end it typed vt ->
  (forall a b, vt a -> vt b ->
     lanes (it_ty (itb it)) (fst (ds a b)) /\ lanes (it_ty (itb it)) (snd (ds a b))) ->
  safe_end (stride_zip_iterator c it d0 ds) (stride_zip_typed vt typed)
           (fun v => lanes (it_ty (itb it)) (fst v) /\ lanes (it_ty (itb it)) (snd v)).
Proof.
  intros [Hi He] Hds. pose proof (ty_pos _ (si_ty _ _ _ Hi)) as HW.
  assert (Hle : forall s s' : StrideZip (list A) I, len_le (itb it) (sz_iter s) (sz_iter s') ->
            len_le (sz_iterable c it d0 ds) s s').
  { intros s s' H n Hn. cbn in *. destruct (it_len (itb it) (sz_iter s)) as [m| | |] eqn:E; try discriminate.
    destruct (H m E) as (m' & Hm' & Hmm). rewrite Hm'. cbn in *. eexists. split; [reflexivity|].
    injection Hn as <-. apply Z.div_le_mono; lia. }
  split; [split|]; cbn [stride_zip_iterator sz_iterable itb it_end it_ty it_next it_len it_scalar_len it_vector_len it_scalar_pos it_vector_pos it_advance it_default].
  - apply (si_ty _ _ _ Hi).
  - intros s (Hb & Hp & Hs). unfold sz_next.
    eapply good_bind; [apply (si_nx _ _ _ Hi); exact Hs|cbn beta]. intros [[v|] s'] (Ht & Hl & Hv); cbn [fst snd] in *.
    + eapply good_bind; [apply (si_nx _ _ _ Hi); exact Ht|cbn beta]. intros [[w|] s''] (Ht' & Hl' & Hw); cbn [fst snd] in *; cbn.
      * split; [split; [exact Hb|split; [exact Hp|exact Ht']]|]. split; [apply Hle; cbn; eapply len_le_trans; eassumption|].
        intros x Hx. inversion Hx; subst. auto.
      * split; [split; [exact Hb|split; [cbn; intros x Hx; inversion Hx; subst; auto|exact Ht']]|].
        split; [apply Hle; cbn; eapply len_le_trans; eassumption|discriminate].
    + cbn. split; [split; [exact Hb|split; [exact Hp|exact Ht]]|]. split; [apply Hle; exact Hl|discriminate].
  - intros s (Hb & Hp & Hs). eapply good_bind; [apply (si_ln _ _ _ Hi); exact Hs|cbn beta]. intros n Hn. cbn. lia.
  - intros s (Hb & Hp & Hs). eapply good_bind; [apply (si_sl _ _ _ Hi); exact Hs|cbn beta]. intros n Hn. cbn. lia.
  - intros s (Hb & Hp & Hs). eapply good_bind; [apply (si_sl _ _ _ Hi); exact Hs|cbn beta]. intros n Hn.
    eapply good_imp; [apply good_udiv; lia|cbn beta]. intros ? (_ & Hq & _); lia.
  - intros s (Hb & Hp & Hs). eapply good_bind; [apply (si_sp _ _ _ Hi); exact Hs|cbn beta]. intros n Hn.
    eapply good_bind; [apply good_usub|cbn beta]. intros d [_ Hd]. unfold usize in *. cbn [good]. lia.
  - intros s (Hb & Hp & Hs). eapply good_bind; [apply (si_vp _ _ _ Hi); exact Hs|cbn beta]. intros n Hn.
    unfold usize in Hb. eapply good_bind; [apply good_udiv; lia|cbn beta]. intros b _.
    eapply good_bind; [apply good_usub|cbn beta]. intros d [_ Hd]. unfold usize in *. cbn [good]. lia.
  - intros s a (Hb & Hp & Hs) Ha. eapply good_bind; [apply good_umul|cbn beta]. intros a2 [_ Ha2].
    eapply good_bind; [apply (si_ad _ _ _ Hi); eassumption|cbn beta]. intros i' [Ht Hl]. cbn.
    split; [split; [exact Hb|split; [exact Hp|exact Ht]]|apply Hle; exact Hl].
  - intros s _. cbn. split; apply zlen_splat; lia.
  - intros s (Hb & Hp & Hs). unfold sz_end.
    eapply good_bind; [apply (si_nx _ _ _ Hi); exact Hs|cbn beta]. intros [f s'] (Ht & Hl & Hv); cbn [fst snd] in *.
    eapply good_bind; [apply He; exact Ht|cbn beta]. intros [q s''] (Ht' & Hl' & Hq); cbn [fst snd] in *.
    set (e := match q with Some q => fst q | None => it_default (itb it) s'' end).
    set (n := match q with Some q => snd q | None => 0 end).
    assert (Hen : vt e /\ 0 <= n).
    { subst e n. destruct q as [[x m]|]; [apply (Hq x m); reflexivity|]. split; [apply (si_df _ _ _ Hi); exact Ht'|lia]. }
    destruct Hen as [Hve Hn].
    assert (Hll : len_le (itb it) (sz_iter s) s'') by (eapply len_le_trans; eassumption).
    destruct f as [f|].
    + eapply good_bind; [apply good_uadd|cbn beta]. intros wn [_ Hwn]. unfold usize in Hwn. cbn.
      split; [split; [exact Hb|split; [exact Hp|exact Ht']]|]. split; [apply Hle; exact Hll|].
      intros v m Hx. inversion Hx; subst. split; [auto|lia].
    + destruct (sz_peek s) as [v|] eqn:Ep.
      * eapply good_bind; [apply good_uadd|cbn beta]. intros wn [_ Hwn]. unfold usize in Hwn. cbn.
        split; [split; [exact Hb|split; [discriminate|exact Ht']]|]. split; [apply Hle; exact Hll|].
        intros w m Hx. inversion Hx; subst. split; [auto|lia].
      * destruct (0 <? n); cbn.
        -- split; [split; [exact Hb|split; [discriminate|exact Ht']]|]. split; [apply Hle; exact Hll|].
           intros w m Hx. inversion Hx; subst. split; [|lia]. apply Hds; [exact Hve|]. apply (si_df _ _ _ Hi). exact Ht'.
        -- split; [split; [exact Hb|split; [cbn; discriminate|exact Ht']]|]. split; [apply Hle; exact Hll|discriminate].
Qed.

Scheme vector_ind2 := Minimality for vector_iterator Sort Prop
with zipped_ind2 := Minimality for zipped_iterator Sort Prop.
Combined Scheme built_ind from vector_ind2, zipped_ind2.

Lemma built_safe :
  (forall A I it typed, vector_iterator c A I it typed -> safe_end it typed (lanes (it_ty (itb it)))) /\
  (forall V I it typed vt, zipped_iterator c V I it typed vt -> safe_end it typed vt).
Proof.
  apply built_ind.
  - intros A I arr it typed H. apply component_end_safe. exact H.
  - intros A ty H. apply adapter_safe. exact H.
  - intros A B I E it typed out_ty d0 func _ IH Hty Hf. eapply map_safe; eassumption.
  - intros V B I E it typed vt out_ty d0 func _ IH Hty Hf. eapply zipmap_safe; eassumption.
  - intros A I VR R arr it typed rest rtyped vt H Hr. apply zip_safe; [apply component_end_safe; exact H|apply rest_safe; exact Hr].
  - intros A I it typed d0 ds _ IH Hds. apply stride_zip_safe; assumption.
Qed.

Lemma iterator_safe : forall V I it typed vt, iterator_of c V I it typed vt -> safe_end it typed vt.
Proof. intros V I it typed vt H. destruct H; [apply (proj1 built_safe)|apply (proj2 built_safe)]; assumption. Qed.

(** ** Histories and consumers *)

Lemma good_call {V I} (it : SIMDIterator V I) typed vt s k : safe_end it typed vt -> typed s -> call_typed k ->
  good (make_call c it s k) typed.
Proof.
  intros [Hi He] Hs Hk. destruct k as [| |a| | | | | |]; cbn [make_call].
  - eapply good_bind; [apply (si_nx _ _ _ Hi); exact Hs|cbn beta]. intros r (Hr & _). exact Hr.
  - eapply good_bind; [apply He; exact Hs|cbn beta]. intros r (Hr & _). exact Hr.
  - eapply good_imp; [apply (si_ad _ _ _ Hi); [exact Hs|exact Hk]|cbn beta]. intros s' [H _]. exact H.
  - eapply good_imp; [eapply good_finalize; eassumption|cbn beta]. intros s' [H _]. exact H.
  - eapply good_bind; [apply (si_ln _ _ _ Hi); exact Hs|cbn beta]. intros ? _. exact Hs.
  - eapply good_bind; [apply (si_sl _ _ _ Hi); exact Hs|cbn beta]. intros ? _. exact Hs.
  - eapply good_bind; [apply (si_vl _ _ _ Hi); exact Hs|cbn beta]. intros ? _. exact Hs.
  - eapply good_bind; [apply (si_sp _ _ _ Hi); exact Hs|cbn beta]. intros ? _. exact Hs.
  - eapply good_bind; [apply (si_vp _ _ _ Hi); exact Hs|cbn beta]. intros ? _. exact Hs.
Qed.

Lemma good_calls {V I} (it : SIMDIterator V I) typed vt : safe_end it typed vt -> forall h s,
  typed s -> Forall call_typed h -> good (make_calls c it s h) typed.
Proof.
  intros H. induction h as [|k h IH]; intros s Hs Hh; [exact Hs|]. inversion Hh; subst. cbn [make_calls].
  eapply good_bind; [eapply good_call; eassumption|]. intros s' Hs'. apply IH; assumption.
Qed.

Lemma good_unpacked {A I} (arr : SIMDArray A I) it typed s : component_of c A I arr it typed -> typed s ->
  good (unpacked_next arr it s) (fun r => typed (snd r)).
Proof.
  intros H Hs. destruct (component_safe _ _ _ _ _ H) as (Ha & Hi & E). unfold unpacked_next.
  eapply good_bind; [apply (si_sp _ _ _ Hi); exact Hs|]. intros pos Hp.
  eapply good_bind; [apply (si_sl _ _ _ Hi); exact Hs|cbn beta]. intros len Hl. destruct (_ <? _); [|exact Hs].
  eapply good_bind; [apply (sa_scalar_u _ _ Ha); [exact Hs|apply Hp]|cbn beta]. intros x _.
  eapply good_bind; [apply (si_ad _ _ _ Hi); [exact Hs|unfold usize, usize_mod; lia]|cbn beta]. intros s' [H1 _]. exact H1.
Qed.

Lemma good_reduce_loop {V I B} (it : SIMDIterator V I) typed vt (func : B -> V -> B) : safe_end it typed vt ->
  forall fuel s acc, typed s -> good (reduce_loop it fuel s acc func) (fun q => typed (snd q)).
Proof.
  intros [Hi He]. induction fuel as [|fuel IH]; intros s acc Hs; [exact Logic.I|]. cbn [reduce_loop].
  eapply good_bind; [apply (si_nx _ _ _ Hi); exact Hs|cbn beta]. intros [[v|] s'] (Hs' & _); cbn [snd] in *; [apply IH; exact Hs'|exact Hs'].
Qed.

Lemma good_reduce {V I B} (it : SIMDIterator V I) typed vt fuel s (acc : B) (func : B -> V -> B) : safe_end it typed vt ->
  typed s -> good (simd_reduce it fuel s acc func) (fun q => typed (snd q)).
Proof.
  intros H Hs. unfold simd_reduce. eapply good_bind; [eapply good_reduce_loop; eassumption|cbn beta].
  intros q Hq. eapply good_bind; [apply (se_end _ _ _ H); exact Hq|cbn beta].
  intros [[[v n]|] s'] (Hs' & _); exact Hs'.
Qed.

Lemma good_do_each_loop {V I E} (it : SIMDIterator V I) typed vt (func : E -> V -> E) : safe_end it typed vt ->
  forall fuel s acc, typed s -> good (do_each_loop it fuel s acc func) (fun q => typed (snd q)).
Proof.
  intros [Hi He]. induction fuel as [|fuel IH]; intros s acc Hs; [exact Logic.I|]. cbn [do_each_loop].
  eapply good_bind; [apply (si_nx _ _ _ Hi); exact Hs|cbn beta]. intros [[v|] s'] (Hs' & _); cbn [snd] in *; [apply IH; exact Hs'|exact Hs'].
Qed.

Lemma good_do_each {V I E} (it : SIMDIterator V I) typed vt fuel s (acc : E) (func : E -> V -> E) : safe_end it typed vt ->
  typed s -> good (simd_do_each it fuel s acc func) (fun q => typed (snd q)).
Proof.
  intros H Hs. unfold simd_do_each. eapply good_bind; [eapply good_do_each_loop; eassumption|cbn beta].
  intros q Hq. eapply good_bind; [apply (se_end _ _ _ H); exact Hq|cbn beta].
  intros [[[v n]|] s'] (Hs' & _); exact Hs'.
Qed.

Lemma good_unrolled_loop {V I} (it : SIMDIterable V I) typed vt : safe_it it typed vt -> forall n i s scratch,
  typed s -> good (unrolled_loop it n i s scratch) (fun q => typed (snd (fst q))).
Proof.
  intros Hi. induction n as [|n IH]; intros i s scratch Hs; [exact Hs|]. cbn [unrolled_loop].
  eapply good_bind; [apply (si_nx _ _ _ Hi); exact Hs|cbn beta]. intros [[v|] s'] (Hs' & _); cbn [snd] in *; [|exact Hs'].
  destruct (_ <? _); [apply IH; exact Hs'|exact Logic.I].
Qed.

Lemma good_unrolled_drain {V I} (it : SIMDIterable V I) typed vt : safe_it it typed vt -> forall fuel u,
  typed (ur_iter u) -> good (unrolled_drain it fuel u) (fun q => typed (ur_iter (snd q))).
Proof.
  intros Hi. induction fuel as [|fuel IH]; intros u Hu; [exact Logic.I|]. cbn [unrolled_drain].
  eapply good_bind with (P := fun r => typed (ur_iter (snd r))).
  { unfold unrolled_next. eapply good_bind; [eapply good_unrolled_loop; eassumption|cbn beta].
    intros [[i s'] sc] H. cbn [fst snd] in H. destruct (0 <? i); exact H. }
  intros [[g|] u'] Hu'; cbn [snd] in *; [|exact Hu'].
  eapply good_bind; [apply IH; exact Hu'|]. intros q Hq. exact Hq.
Qed.

Section ConsumeSafe.
Context {A I X : Type}.
Variable it : SIMDIterator (list A) I.
Variable typed : I -> Prop.
Variable inj : A -> X.
Notation W := (WIDTH (it_ty (itb it))).
Hypothesis Hit : safe_end it typed (lanes (it_ty (itb it))).

Lemma good_store_loop : forall fuel s buf off lv, typed s -> 0 <= off -> zlen lv = W ->
  good (store_loop c it inj fuel s buf off lv) (fun q =>
    typed (fst (fst (fst q))) /\ len_le (itb it) s (fst (fst (fst q))) /\
    zlen (snd (fst (fst q))) = zlen buf /\ 0 <= snd (fst q) /\ zlen (snd q) = W).
Proof.
  induction fuel as [|fuel IH]; intros s buf off lv Hs Ho Hlv; [exact Logic.I|]. cbn [store_loop].
  eapply good_bind; [apply (si_nx _ _ _ (se_it _ _ _ Hit)); exact Hs|cbn beta].
  intros [[v|] s'] (Hs' & Hl & Hv); cbn [fst snd] in *.
  - specialize (Hv v eq_refl). unfold lanes in Hv.
    eapply good_bind; [apply good_store_unchecked; [exact Ho|rewrite zlen_map; exact Hv]|cbn beta]. intros buf' [Hb Hf].
    eapply good_bind; [apply good_uadd|cbn beta]. intros off' [_ Ho']. unfold usize in Ho'.
    eapply good_imp; [apply IH; [exact Hs'|lia|exact Hv]|cbn beta]. intros q (Q1 & Q2 & Q3 & Q4 & Q5).
    split; [exact Q1|]. split; [eapply len_le_trans; eassumption|]. split; [lia|]. auto.
  - cbn. auto.
Qed.

Lemma good_store_tail buf off lv p n : 0 <= off -> zlen lv = W -> zlen p = W -> 0 <= n ->
  good (store_tail c it inj buf off lv p n) (fun b =>
    zlen b = zlen buf /\ (0 < off -> off - n + W <= zlen buf)).
Proof.
  intros Ho Hlv Hp Hn. unfold store_tail. destruct (0 <? off) eqn:E.
  - eapply good_bind; [apply good_usub|cbn beta]. intros o1 [-> Ho1]. unfold usize in Ho1.
    eapply good_bind; [apply good_store_unchecked; [lia|rewrite zlen_map; exact Hp]|cbn beta]. intros b1 [Hb1 Hf1].
    eapply good_bind; [apply good_usub|cbn beta]. intros o2 [-> Ho2]. unfold usize in Ho2.
    eapply good_imp; [apply good_store_unchecked; [lia|rewrite zlen_map; exact Hlv]|cbn beta]. intros b2 [Hb2 Hf2].
    split; [lia|intros _; lia].
  - eapply good_bind; [apply good_usub|cbn beta]. intros cnt _.
    eapply good_imp with (P := fun b => zlen b = zlen buf); [|intros b Hb; split; [exact Hb|lia]].
    apply good_for_range; [reflexivity|]. intros j b Hj Hb.
    eapply good_bind; [apply good_uadd|cbn beta]. intros o [-> Ho']. unfold usize in Ho'.
    eapply good_bind; [apply good_uadd|cbn beta]. intros k [-> Hk]. unfold usize in Hk.
    eapply good_bind; [apply good_extract_unchecked; [lia|exact Hp]|cbn beta]. intros x _.
    destruct (off + j <? zlen b) eqn:E2; [|exact Logic.I]. cbn. rewrite zlen_upd_one; lia.
Qed.

Lemma good_fill_all d0 fuel s buf : typed s -> good (fill_all c it d0 inj fuel s buf) (fun q => typed (snd q)).
Proof.
  intros Hs. pose proof (ty_pos _ (si_ty _ _ _ (se_it _ _ _ Hit))) as HW. unfold fill_all.
  eapply good_bind; [apply good_store_loop; [exact Hs|lia|apply zlen_splat; lia]|cbn beta].
  intros [[[s1 b1] off] lv] (Q1 & Q2 & Q3 & Q4 & Q5). cbn [fst snd] in *.
  eapply good_bind; [apply (se_end _ _ _ Hit); exact Q1|cbn beta]. intros [[[v n]|] s2] (R1 & R2 & R3); cbn [fst snd] in *.
  - destruct (R3 _ _ eq_refl) as [Hv _].
    eapply good_bind; [apply good_store_unchecked; [exact Q4|rewrite zlen_map; exact Hv]|cbn beta]. intros ? _. exact R1.
  - exact R1.
Qed.
End ConsumeSafe.

Section CollectSafe.
Context {A I : Type}.
Variable it : SIMDIterator (list A) I.
Variable typed : I -> Prop.
Notation W := (WIDTH (it_ty (itb it))).
Hypothesis Hit : safe_end it typed (lanes (it_ty (itb it))).

Lemma good_fill d0 fuel s buf : typed s -> good (scalar_fill c it d0 fuel s buf) (fun q => typed (snd q)).
Proof.
  intros Hs. pose proof (ty_pos _ (si_ty _ _ _ (se_it _ _ _ Hit))) as HW. unfold scalar_fill.
  eapply good_bind; [eapply good_store_loop; [exact Hit|exact Hs|lia|apply zlen_splat; lia]|cbn beta].
  intros [[[s1 b1] off] lv] (Q1 & Q2 & Q3 & Q4 & Q5). cbn [fst snd] in *.
  eapply good_bind; [apply (se_end _ _ _ Hit); exact Q1|cbn beta]. intros [[[v n]|] s2] (R1 & R2 & R3); cbn [fst snd] in *.
  - destruct (R3 _ _ eq_refl) as [Hv Hn].
    eapply good_bind; [apply good_store_tail; assumption|cbn beta]. intros ? _. exact R1.
  - exact R1.
Qed.

Lemma good_with_capacity cap : 0 <= cap -> good (with_capacity (A := A) it cap) (fun b => zlen b = cap).
Proof. intros H. unfold with_capacity. destruct (_ <=? _); [|exact Logic.I]. cbn. rewrite zlen_repeat. lia. Qed.

Lemma good_collect d0 fuel s : typed s -> good (scalar_collect c it d0 fuel s) (fun q => typed (snd q)).
Proof.
  intros Hs. pose proof (ty_pos _ (si_ty _ _ _ (se_it _ _ _ Hit))) as HW. unfold scalar_collect.
  pose proof (si_ln _ _ _ (se_it _ _ _ Hit) s Hs) as Hl.
  destruct (it_len (itb it) s) as [l| | |] eqn:El; cbn in Hl; try contradiction; try exact Logic.I. cbn [bind].
  eapply good_bind; [apply good_uadd|cbn beta]. intros l1 [-> _].
  eapply good_bind; [apply good_umul|cbn beta]. intros cap [-> Hcap]. unfold usize in Hcap.
  assert (HWc : W <= (l + 1) * W) by nia.
  eapply good_bind; [apply good_with_capacity; lia|cbn beta]. intros buf Hb.
  eapply good_bind; [eapply good_store_loop; [exact Hit|exact Hs|lia|apply zlen_splat; lia]|cbn beta].
  intros [[[s1 b1] off] lv] (Q1 & Q2 & Q3 & Q4 & Q5). cbn [fst snd] in *.
  eapply good_bind; [apply (se_end _ _ _ Hit); exact Q1|cbn beta]. intros [[[v n]|] s2] (R1 & R2 & R3); cbn [fst snd] in *.
  - destruct (R3 _ _ eq_refl) as [Hv Hn].
    eapply good_bind; [apply good_store_tail; assumption|cbn beta]. intros b2 [Hb2 Hcap2].
    eapply good_bind; [apply good_uadd|cbn beta]. intros a [-> _].
    eapply good_bind; [apply good_usub|cbn beta]. intros nl [-> _].
    eapply good_bind with (P := fun _ => True); [|intros ? _; exact R1].
    unfold set_len. destruct (_ <=? _) eqn:E; [exact Logic.I|]. exfalso.
    destruct (Z.ltb_spec 0 off); [specialize (Hcap2 ltac:(lia))|assert (off = 0) by lia; subst off]; lia.
  - destruct (len_le_trans _ _ _ _ Q2 R2 l El) as (l2 & -> & Hl2). cbn [bind].
    eapply good_bind; [apply good_umul|cbn beta]. intros nl [-> _].
    eapply good_bind with (P := fun _ => True); [|intros ? _; exact R1].
    unfold set_len. destruct (_ <=? _) eqn:E; [exact Logic.I|]. exfalso. nia.
Qed.

Lemma good_collect_all d0 fuel s : typed s -> good (scalar_collect_all c it d0 fuel s) (fun q => typed (snd q)).
Proof.
  intros Hs. pose proof (ty_pos _ (si_ty _ _ _ (se_it _ _ _ Hit))) as HW. unfold scalar_collect_all.
  eapply good_bind; [apply (si_ln _ _ _ (se_it _ _ _ Hit)); exact Hs|cbn beta]. intros l Hl.
  eapply good_bind; [apply good_uadd|cbn beta]. intros l1 [-> _].
  eapply good_bind; [apply good_umul|cbn beta]. intros cap [-> Hcap]. unfold usize in Hcap.
  eapply good_bind; [apply good_with_capacity; lia|cbn beta]. intros buf Hb.
  eapply good_bind with (P := fun _ => True); [|intros ? _; apply good_fill_all with (typed := typed); assumption].
  unfold set_len. destruct (_ <=? _) eqn:E; [exact Logic.I|]. exfalso. nia.
Qed.
End CollectSafe.

Section ForEachSafe.
Context {A E : Type}.
Variable ty : vty.
Variable func : E -> list A -> list A * E.
Hypothesis Hty : vty_ok ty.
Hypothesis Hf : forall e v, lanes ty v -> lanes ty (fst (func e v)).
Notation tp := (iter_typed (A := A) ty (slice_ok ty)).

Lemma slice_end_safe : safe_end (slice_iterator (A := A) c ty) tp (lanes ty).
Proof. apply (component_end_safe A _ (si_array (slice_array c ty)) (si_iterable c (slice_array c ty)) tp). apply (component_iter c A (list A) (slice_array c ty)). apply array_slice. exact Hty. Qed.

Lemma set_data_typed s d : tp s -> zlen d = zlen (si_data s) -> tp (si_set_data s d).
Proof. intros (H1 & H2 & H3) Hd. split; [exact H1|]. split; [|exact H3]. cbn. unfold slice_ok in *. rewrite Hd. exact H2. Qed.

Lemma good_for_each_loop : forall fuel s lv env, tp s -> zlen lv = WIDTH ty ->
  good (for_each_loop c ty func fuel s lv env) (fun q => tp (fst (fst q)) /\ zlen (snd (fst q)) = WIDTH ty).
Proof.
  pose proof slice_end_safe as Hit. pose proof (ty_pos _ Hty) as HW.
  induction fuel as [|fuel IH]; intros s lv env Hs Hlv; [exact Logic.I|]. cbn [for_each_loop].
  eapply good_bind; [apply (si_nx _ _ _ (se_it _ _ _ Hit)); exact Hs|cbn beta].
  intros [[v|] s'] (Hs' & Hl & Hv); cbn [fst snd] in *; [|cbn; auto].
  specialize (Hf env v (Hv v eq_refl)). destruct (func env v) as [v' env']. cbn [fst] in Hf.
  eapply good_bind; [apply (si_sp _ _ _ (se_it _ _ _ Hit)); exact Hs'|]. intros pos Hp.
  eapply good_bind; [apply good_usub|cbn beta]. intros off [_ Ho].
  eapply good_bind; [apply good_store_unchecked; [apply Ho|exact Hf]|cbn beta]. intros d [Hd _].
  apply IH; [apply set_data_typed; assumption|exact Hf].
Qed.

Lemma good_for_each d0 fuel s env : tp s -> good (simd_for_each c ty d0 func fuel s env) (fun q => tp (fst q)).
Proof.
  intros Hs. pose proof slice_end_safe as Hit. pose proof (ty_pos _ Hty) as HW. unfold simd_for_each.
  eapply good_bind; [apply good_for_each_loop; [exact Hs|apply zlen_splat; lia]|cbn beta].
  intros [[s1 lv] env1] [H1 Hlv]. cbn [fst snd] in *.
  eapply good_bind; [apply (si_sp _ _ _ (se_it _ _ _ Hit)); exact H1|]. intros off Hoff.
  eapply good_bind; [apply (se_end _ _ _ Hit); exact H1|cbn beta]. intros [[[p n]|] s2] (R1 & R2 & R3); cbn [fst snd] in *; [|exact R1].
  destruct (R3 _ _ eq_refl) as [Hp Hn]. specialize (Hf env1 p Hp). destruct (func env1 p) as [p' env2]. cbn [fst] in Hf.
  eapply good_bind; [apply (si_sl _ _ _ (se_it _ _ _ Hit)); exact R1|cbn beta]. intros len _.
  destruct (_ <? _).
  - eapply good_bind; [apply good_usub|cbn beta]. intros o1 [_ Ho1].
    eapply good_bind; [apply good_store_unchecked; [apply Ho1|exact Hf]|cbn beta]. intros d1 [Hd1 _].
    eapply good_bind; [apply good_usub|cbn beta]. intros o2 [_ Ho2].
    eapply good_bind; [apply good_store_unchecked; [apply Ho2|exact Hlv]|cbn beta]. intros d2 [Hd2 _].
    cbn. apply set_data_typed; [exact R1|lia].
  - eapply good_bind; [apply good_usub|cbn beta]. intros cnt _.
    eapply good_bind with (P := fun d => zlen d = zlen (si_data s2)).
    { apply good_for_range; [reflexivity|]. intros j d Hj Hd.
      eapply good_bind; [apply good_uadd|cbn beta]. intros k [-> Hk]. unfold usize in Hk.
      eapply good_bind; [apply good_extract_unchecked; [lia|exact Hf]|cbn beta]. intros x _.
      eapply good_bind; [apply good_uadd|cbn beta]. intros o [-> Ho]. unfold usize in Ho. unfold store_scalar_unchecked.
      eapply good_bind; [apply good_debug_assert; exact Hc|cbn beta]. intros ? E'. rewrite E'. cbn. rewrite zlen_upd_one; lia. }
    intros d Hd. cbn. apply set_data_typed; assumption.
Qed.
End ForEachSafe.
End Debug.

Lemma c70_debug_calls : forall (V I : Type) (c : config) (it : SIMDIterator V I) typed vtyped s h,
  build c = Debug -> iterator_of c V I it typed vtyped -> typed s -> Forall call_typed h ->
  make_calls c it s h <> UB /\ forall s', make_calls c it s h = Ok s' -> typed s'.
Proof.
  intros V I c it typed vt s h Hc H Hs Hh.
  pose proof (good_calls c Hc it typed vt (iterator_safe c Hc _ _ _ _ _ H) h s Hs Hh) as Hg.
  split; [eapply good_not_ub; exact Hg|]. intros s' E. eapply good_ok; eassumption.
Qed.

Lemma c70_debug_array : forall (A I : Type) (c : config) (arr : SIMDArray A I)
  (it : SIMDIterable (list A) I) typed s h,
  build c = Debug -> component_of c A I arr it typed -> typed s ->
  Forall (fun o => match o with Some k => call_typed k | None => True end) h ->
  make_component_calls c arr it s h <> UB /\
  forall s', make_component_calls c arr it s h = Ok s' ->
    forall off, usize off -> arr_load arr s' off <> UB /\ arr_load_scalar arr s' off <> UB.
Proof.
  intros A I c arr it typed s h Hc H Hs Hh.
  assert (Hg : good (make_component_calls c arr it s h) typed).
  { revert s Hs. induction Hh as [|k h Hk Hh IH]; intros s Hs; [exact Hs|]. destruct k as [k|]; cbn [make_component_calls].
    - eapply good_bind; [eapply good_call; [exact Hc|apply component_end_safe; eassumption|exact Hs|exact Hk]|].
      intros s' Hs'. apply IH. exact Hs'.
    - eapply good_bind; [eapply good_unpacked; eassumption|cbn beta]. intros r Hr. apply IH. exact Hr. }
  split; [eapply good_not_ub; exact Hg|]. intros s' E off Ho. pose proof (good_ok _ _ _ Hg E) as Hs'.
  destruct (component_safe c Hc _ _ _ _ _ H) as (Ha & _ & _).
  split; eapply good_not_ub; [apply (sa_load _ _ Ha)|apply (sa_scalar _ _ Ha)]; (exact Hs' || apply Ho).
Qed.

Lemma c70_debug_consumers : forall (V I B : Type) (c : config) (it : SIMDIterator V I) typed vtyped s h s'
  (acc : B) func fuel vdef amt u,
  build c = Debug -> iterator_of c V I it typed vtyped -> typed s -> Forall call_typed h ->
  make_calls c it s h = Ok s' ->
  simd_reduce it fuel s' acc func <> UB /\ simd_do_each it fuel s' acc func <> UB /\
  unroll vdef s' amt <> UB /\
  (unroll vdef s' amt = Ok u -> unrolled_drain (itb it) fuel u <> UB).
Proof.
  intros V I B c it typed vt s h s' acc func fuel vdef amt u Hc H Hs Hh E.
  pose proof (iterator_safe c Hc _ _ _ _ _ H) as Hit.
  pose proof (good_ok _ _ _ (good_calls c Hc it typed vt Hit h s Hs Hh) E) as Hs'.
  split; [eapply good_not_ub, good_reduce; eassumption|].
  split; [eapply good_not_ub, good_do_each; eassumption|].
  unfold unroll. destruct (amt <=? 8); cbn [rassert bind]; split; try discriminate.
  intros Eu. injection Eu as <-. eapply good_not_ub, good_unrolled_drain; [exact (se_it _ _ _ Hit)|exact Hs'].
Qed.

Lemma c70_debug_collect : forall (A I : Type) (c : config) (it : SIMDIterator (list A) I) typed s h s'
  (d0 : A) fuel buf,
  build c = Debug -> vector_iterator c A I it typed -> typed s -> Forall call_typed h ->
  make_calls c it s h = Ok s' ->
  scalar_collect c it d0 fuel s' <> UB /\ scalar_collect_all c it d0 fuel s' <> UB /\
  scalar_fill c it d0 fuel s' buf <> UB /\ scalar_fill_all c it d0 fuel s' buf <> UB.
Proof.
  intros A I c it typed s h s' d0 fuel buf Hc H Hs Hh E.
  pose proof (proj1 (built_safe c Hc) _ _ _ _ H) as Hit.
  pose proof (good_ok _ _ _ (good_calls c Hc it typed _ Hit h s Hs Hh) E) as Hs'.
  split; [eapply good_not_ub, good_collect; eassumption|].
  split; [eapply good_not_ub, good_collect_all; eassumption|].
  split; [eapply good_not_ub, good_fill; eassumption|].
  eapply good_not_ub. apply good_fill_all with (typed := typed); assumption.
Qed.

Lemma c70_debug_for_each_zip :
  (forall (A E : Type) (c : config) (ty : vty) (d0 : A) (func : E -> list A -> list A * E) s env fuel,
    build c = Debug -> vty_ok ty -> (forall e v, lanes ty v -> lanes ty (fst (func e v))) ->
    iter_typed ty (slice_ok ty) s -> simd_for_each c ty d0 func fuel s env <> UB) /\
  (forall (A I VR R : Type) (c : config) (arr : SIMDArray A I) (it : SIMDIterable (list A) I) typed
     (rest : ZipRest VR R) rtyped vtyped s,
    build c = Debug -> component_of c A I arr it typed -> rest_of c VR R rest rtyped vtyped ->
    typed (fst s) -> rtyped (snd s) -> zip (blanket_iterator c arr it) rest s <> UB).
Proof.
  split.
  - intros A E c ty d0 func s env fuel Hc Hty Hf Hs. eapply good_not_ub, good_for_each; eassumption.
  - intros A I VR R c arr it typed rest rtyped vt s Hc H Hr Hs Hs2.
    destruct (component_safe c Hc _ _ _ _ _ H) as (_ & Hi & _). pose proof (rest_safe c Hc _ _ _ _ _ Hr) as Hrs.
    apply (good_not_ub _ (fun _ => True)). unfold zip. cbn [itb blanket_iterator].
    eapply good_bind; [apply (si_ln _ _ _ Hi); exact Hs|cbn beta]. intros n _.
    eapply good_bind; [apply (sr_mm _ _ _ Hrs); exact Hs2|cbn beta]. intros bad _. destruct bad; exact Logic.I.
Qed.

(** ** Fusedness *)

Definition fused_it {V I : Type} (it : SIMDIterable V I) : Prop :=
  forall s s', it_next it s = Ok (None, s') -> it_next it s' = Ok (None, s').

Lemma bind_ok_inv {X Y} (o : outcome X) (f : X -> outcome Y) y : bind o f = Ok y -> exists x, o = Ok x /\ f x = Ok y.
Proof. destruct o; cbn; try discriminate. intros H. eauto. Qed.

Lemma component_fused c A I arr it typed : component_of c A I arr it typed -> fused_it it.
Proof.
  intros H. assert (Hsame : forall s s', it_next it s = Ok (None, s') -> s' = s).
  { destruct H; cbn; intros s s'; [unfold si_next|unfold ps_next]; intros E.
    - apply bind_ok_inv in E. destruct E as (p & _ & E). apply bind_ok_inv in E. destruct E as (len & _ & E).
      destruct (p <=? len).
      + apply bind_ok_inv in E. destruct E as (r & _ & E). apply bind_ok_inv in E. destruct E as (q & _ & E). discriminate.
      + injection E as <-. reflexivity.
    - apply bind_ok_inv in E. destruct E as (d & _ & E). apply bind_ok_inv in E. destruct E as (p & _ & E).
      apply bind_ok_inv in E. destruct E as (len & _ & E). destruct (p <? len).
      + apply bind_ok_inv in E. destruct E as (r & _ & E). apply bind_ok_inv in E. destruct E as (q & _ & E). discriminate.
      + injection E as <-. reflexivity. }
  intros s s' E. pose proof (Hsame _ _ E) as ->. exact E.
Qed.

Lemma map_fused {V B I E} (it : SIMDIterator V I) (func : E -> V -> list B * E) : fused_it (itb it) ->
  forall s s', sm_next it func s = Ok (None, s') -> sm_next it func s' = Ok (None, s').
Proof.
  intros H s s' Hn. unfold sm_next in *. apply bind_ok_inv in Hn. destruct Hn as ([[v|] i'] & Hi & Hn).
  - destruct (func (sm_env s) v). discriminate.
  - injection Hn as <-. cbn [sm_iter sm_env]. rewrite (H _ _ Hi). reflexivity.
Qed.

Lemma built_fused c :
  (forall A I it typed, vector_iterator c A I it typed -> fused_it (itb it)) /\
  (forall V I it typed vt, zipped_iterator c V I it typed vt -> fused_it (itb it)).
Proof.
  apply built_ind.
  - intros A I arr it typed H. eapply component_fused. exact H.
  - intros A ty _ s s' E. cbn in *. assert (s' = s) as ->; [|exact E]. unfold ad_next in E.
    apply bind_ok_inv in E. destruct E as (e & _ & E). destruct (_ <=? _); [|injection E as <-; reflexivity].
    apply bind_ok_inv in E. destruct E as (q & _ & E). apply bind_ok_inv in E. destruct E as (q2 & _ & E). discriminate.
  - intros A B I E it typed out_ty d0 func _ IH _ _ s s' Hn. apply (map_fused it func IH _ _ Hn).
  - intros V B I E it typed vt out_ty d0 func _ IH _ _ s s' Hn. apply (map_fused it func IH _ _ Hn).
  - intros A I VR R arr it typed rest rtyped vt H _ s s' Hn. cbn in *. unfold zip_next in *.
    apply bind_ok_inv in Hn. destruct Hn as (pos & Hp & Hn). apply bind_ok_inv in Hn.
    destruct Hn as ([[v|] i'] & Hi & Hn); [apply bind_ok_inv in Hn; destruct Hn as (vs & _ & Hn); discriminate|].
    injection Hn as <-. cbn [fst snd itb blanket_iterator] in *.
    pose proof (component_fused _ _ _ _ _ _ H _ _ Hi) as Hi'.
    assert (i' = fst s) as ->.
    { destruct H; cbn in Hi; [unfold si_next in Hi|unfold ps_next in Hi].
      - apply bind_ok_inv in Hi. destruct Hi as (p & _ & E). apply bind_ok_inv in E. destruct E as (len & _ & E).
        destruct (p <=? len); [|injection E as <-; reflexivity].
        apply bind_ok_inv in E. destruct E as (r & _ & E). apply bind_ok_inv in E. destruct E as (q & _ & E). discriminate.
      - apply bind_ok_inv in Hi. destruct Hi as (d & _ & E). apply bind_ok_inv in E. destruct E as (p & _ & E).
        apply bind_ok_inv in E. destruct E as (len & _ & E). destruct (p <? len); [|injection E as <-; reflexivity].
        apply bind_ok_inv in E. destruct E as (r & _ & E). apply bind_ok_inv in E. destruct E as (q & _ & E). discriminate. }
    rewrite Hp. cbn [bind]. rewrite Hi'. reflexivity.
  - intros A I it typed d0 ds _ IH _ s s' Hn. cbn in *. unfold sz_next in *.
    apply bind_ok_inv in Hn. destruct Hn as ([[v|] i'] & Hi & Hn).
    + apply bind_ok_inv in Hn. destruct Hn as ([[w|] i''] & Hi2 & Hn); [discriminate|].
      injection Hn as <-. cbn [sz_iter sz_base sz_peek]. rewrite (IH _ _ Hi2). reflexivity.
    + injection Hn as <-. cbn [sz_iter sz_base sz_peek]. rewrite (IH _ _ Hi). reflexivity.
Qed.

Lemma c15_fused_built : forall (V I : Type) (c : config) (it : SIMDIterator V I) typed vtyped s s' n,
  iterator_of c V I it typed vtyped ->
  it_next (itb it) s = Ok (None, s') -> only_none (itb it) n s'.
Proof.
  intros V I c it typed vt s s' n H Hn.
  assert (Hf : fused_it (itb it)).
  { destruct H; [eapply (proj1 (built_fused c))|eapply (proj2 (built_fused c))]; eassumption. }
  apply Hf in Hn. induction n as [|n IH]; [exact Logic.I|]. cbn [only_none]. exists s'. split; [exact Hn|exact IH].
Qed.

(** A zip of a slice iterator and a stream of a strided slice iterator, mapped by a
    stateful closure, satisfies the hypotheses; so does the map of a [stride_zip] of it. *)
Definition ex_ty : vty := mkVty 4 4.
Definition ex_zip (c : config) :=
  zipmap_iterator c
    (zip_iterator (slice_iterator (A := Z) c ex_ty)
       (rest_one (blanket_unsafe c (ps_array c (si_array (slice_array c ex_ty)) 0)
                                 (ps_iterable c (si_array (slice_array c ex_ty)) 0))))
    ex_ty 0 (fun (e : Z) v => (firstn 4 (fst v), e + 1)).
