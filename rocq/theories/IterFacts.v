(** Laws of array-backed iterators, and the blanket [end] / traversal lemmas. *)
From Coq Require Import Lia ZifyBool ZifyNat.
From Verif Require Import Base Spec ListFacts Vecs VecFacts Iters.
Ltac Zify.zify_post_hook ::= Z.div_mod_to_equations.

(** The array [t] holds the scalars [l]. *)
Record array_holds {A T} (arr : SIMDArray A T) (t : T) (l : list A) : Prop := {
  ah_len : arr_scalar_len arr t = Ok (zlen l);
  ah_scalar : forall i x, znth l i = Some x -> arr_load_scalar_unchecked arr t i = Ok x;
  ah_vec : forall off, 0 <= off -> off + WIDTH (arr_ty arr) <= zlen l ->
    arr_load_unchecked arr t off = Ok (sub l off (WIDTH (arr_ty arr)))
}.

Definition max_len : Z := 2 ^ 63.

(** [R s k]: the iterator in state [s] runs over [l] and stands at scalar [k]. *)
Record stepping {A I} (arr : SIMDArray A I) (it : SIMDIterable (list A) I)
       (l d : list A) (R : I -> Z -> Prop) : Prop := {
  st_ty : it_ty it = arr_ty arr;
  st_ok : vty_ok (it_ty it);
  st_small : zlen l < max_len;
  st_d : zlen d = WIDTH (it_ty it);
  st_arr : forall s k, R s k -> array_holds arr s l;
  st_range : forall s k, R s k -> 0 <= k <= zlen l;
  st_slen : forall s k, R s k -> it_scalar_len it s = Ok (zlen l);
  st_pos : forall s k, R s k -> it_scalar_pos it s = Ok k;
  st_default : forall s k, R s k -> it_default it s = d;
  st_next : forall s k, R s k ->
    (exists s', k + WIDTH (it_ty it) <= zlen l /\
                it_next it s = Ok (Some (sub l k (WIDTH (it_ty it))), s') /\
                R s' (k + WIDTH (it_ty it))) \/
    (zlen l <= k + WIDTH (it_ty it) /\ it_next it s = Ok (None, s));
  st_adv : forall s k a, R s k -> 0 <= a -> k + a <= zlen l ->
    exists s', it_advance it s a = Ok s' /\ R s' (k + a)
}.

Lemma slice_array_holds {A} c ty (l : list A) :
  vty_ok ty -> array_holds (slice_array c ty) l l.
Proof.
  intros Hty. pose proof (vty_ok_facts ty Hty) as (H1 & _).
  constructor; cbn.
  - reflexivity.
  - intros i x Hx. pose proof (znth_Some_lt _ _ _ Hx). rewrite debug_assert_true by lia.
    rewrite bind_Ok, Hx. reflexivity.
  - intros off H0 H2. rewrite debug_assert_true by lia. rewrite bind_Ok.
    apply load_unchecked_ok; lia.
Qed.

Lemma si_array_holds {A T} (arr : SIMDArray A T) s l :
  array_holds arr (si_data s) l -> array_holds (si_array arr) s l.
Proof. intros [H1 H2 H3]; constructor; cbn; assumption. Qed.

Lemma si_next_cases {A T} c (arr : SIMDArray A T) s l :
  vty_ok (arr_ty arr) -> array_holds arr (si_data s) l -> zlen l < max_len ->
  0 <= si_position s <= zlen l ->
  (si_position s + WIDTH (arr_ty arr) <= zlen l /\
   si_next c arr s = Ok (Some (sub l (si_position s) (WIDTH (arr_ty arr))),
     mkSIMDIter (si_position s + WIDTH (arr_ty arr)) (si_data s) (si_default s))) \/
  (zlen l < si_position s + WIDTH (arr_ty arr) /\ si_next c arr s = Ok (None, s)).
Proof.
  intros Hty Harr Hsmall Hk. pose proof (vty_ok_facts _ Hty) as (H1 & H2 & H3 & H4 & H5 & H6).
  unfold si_next. unfold max_len in *.
  rewrite uadd_ok by (unfold usize_mod; lia). rewrite bind_Ok, (ah_len _ _ _ Harr), bind_Ok.
  destruct (_ <=? _) eqn:E.
  - left. split; [lia|]. rewrite (ah_vec _ _ _ Harr) by lia. rewrite bind_Ok.
    unfold si_advance. rewrite uadd_ok by (unfold usize_mod; lia). reflexivity.
  - right. split; [lia|reflexivity].
Qed.

Definition si_at {A T} (data : T) (d : list A) (n : Z) (s : SIMDIter A T) (k : Z) : Prop :=
  s = mkSIMDIter k data d /\ 0 <= k <= n.

Lemma si_stepping {A T} c (arr : SIMDArray A T) (data : T) (l d : list A) :
  vty_ok (arr_ty arr) -> array_holds arr data l -> zlen l < max_len ->
  zlen d = WIDTH (arr_ty arr) ->
  stepping (si_array arr) (si_iterable c arr) l d (si_at data d (zlen l)).
Proof.
  intros Hty Harr Hsmall Hd.
  constructor; [reflexivity|exact Hty|exact Hsmall|exact Hd|..]; unfold si_at.
  - intros s k [-> Hk]. apply si_array_holds; exact Harr.
  - intros s k [-> Hk]. exact Hk.
  - intros s k [-> Hk]. apply (ah_len _ _ _ Harr).
  - intros s k [-> Hk]. reflexivity.
  - intros s k [-> Hk]. reflexivity.
  - intros s k [-> Hk].
    destruct (si_next_cases c arr (mkSIMDIter k data d) l Hty Harr Hsmall Hk) as [[H1 H2]|[H1 H2]];
      cbn in *.
    + left. eexists. repeat split; [exact H1|exact H2| |]; pose proof (vty_ok_facts _ Hty); lia.
    + right. split; [lia|exact H2].
  - intros s k a [-> Hk] Ha Hka. cbn. unfold si_advance; cbn.
    rewrite uadd_ok by (unfold usize_mod, max_len in *; lia).
    eexists; repeat split; lia.
Qed.

Section Blanket.
Context {A I : Type}.
Variable c : config.
Variable arr : SIMDArray A I.
Variable it : SIMDIterable (list A) I.
Variables l d : list A.
Variable R : I -> Z -> Prop.
Hypothesis Hst : stepping arr it l d R.
Notation W := (WIDTH (it_ty it)).

Lemma tail_merge off :
  0 <= off -> W <= zlen l ->
  skipn (Z.to_nat off) (sub l (zlen l - W) W) = skipn (Z.to_nat (zlen l - W + off)) l.
Proof.
  intros Ho HW. pose proof (vty_ok_facts _ (st_ok _ _ _ _ _ Hst)).
  unfold sub. rewrite firstn_all2 by (rewrite skipn_length; unfold zlen in *; lia).
  rewrite skipn_skipn. f_equal. lia.
Qed.

Lemma load_vec_ok s k : R s k -> forall off, 0 <= off -> off + W <= zlen l ->
  arr_load_unchecked arr s off = Ok (sub l off W).
Proof.
  intros HR off. rewrite (st_ty _ _ _ _ _ Hst).
  apply (ah_vec _ _ _ (st_arr _ _ _ _ _ Hst _ _ HR)).
Qed.

(** The elementwise path of [end] indexes lanes with the absolute position, so it
    is only right for a fresh iterator. *)
Definition tail_ready (k : Z) : Prop := k = 0 \/ W < zlen l \/ k = zlen l.

Lemma partial_vector_ok s k0 k :
  R s k0 -> tail_ready k -> 0 <= k < zlen l -> zlen l - k <= W ->
  partial_vector c arr it s k (zlen l) (W - (zlen l - k)) =
  Ok (right_aligned d (skipn (Z.to_nat k) l)).
Proof.
  intros HR Hready Hk Hrem. unfold tail_ready in *.
  pose proof (vty_ok_facts _ (st_ok _ _ _ _ _ Hst)) as (H1 & H2 & H3 & H4 & H5 & H6).
  pose proof (st_small _ _ _ _ _ Hst) as Hsm. pose proof (st_d _ _ _ _ _ Hst) as Hd.
  pose proof (st_arr _ _ _ _ _ Hst _ _ HR) as Harr.
  unfold partial_vector, max_len in *. rewrite (st_default _ _ _ _ _ Hst _ _ HR).
  assert (Hra : right_aligned d (skipn (Z.to_nat k) l) =
                firstn (Z.to_nat (W - (zlen l - k))) d ++ skipn (Z.to_nat k) l).
  { unfold right_aligned. rewrite skipn_length. do 2 f_equal. unfold zlen in *; lia. }
  rewrite Hra. destruct (W <? zlen l) eqn:E.
  - rewrite usub_ok, bind_Ok by (unfold usize_mod; lia).
    rewrite (load_vec_ok s k0 HR), bind_Ok by lia.
    rewrite merge_partitioned_ok; [|apply (st_ok _ _ _ _ _ Hst)|exact Hd|rewrite zlen_sub; lia|lia].
    rewrite tail_merge by lia.
    replace (zlen l - W + (W - (zlen l - k))) with k by lia. reflexivity.
  - set (e := W - (zlen l - k)) in *.
    rewrite <- (firstn_skipn (Z.to_nat e) d) at 1.
    replace (Z.to_nat (zlen l - k)) with (length (skipn (Z.to_nat k) l))
      by (rewrite skipn_length; unfold zlen; lia).
    match goal with |- for_range _ _ ?f _ = _ =>
      pose proof (for_range_write f (skipn (Z.to_nat k) l) k
                   (firstn (Z.to_nat e) d) (skipn (Z.to_nat e) d) []) as H end.
    rewrite !app_nil_r in H. apply H.
    + rewrite !skipn_length. unfold zlen in *; lia.
    + intros j x b Hj Hb.
      pose proof (nth_error_lt _ _ _ Hj) as Hlt. rewrite skipn_length in Hlt.
      rewrite uadd_ok, bind_Ok by (unfold usize_mod, zlen in *; lia).
      rewrite (ah_scalar _ _ _ Harr _ x) by (apply znth_skipn; [lia|exact Hj]).
      rewrite bind_Ok, replace_unchecked_ok by (unfold zlen in *; lia).
      rewrite zlen_firstn, Hd. do 2 f_equal. lia.
Qed.

Lemma blanket_end_ok s k :
  R s k -> tail_ready k -> zlen l - k <= W ->
  exists s', blanket_end c arr it s = Ok (tail_of d (skipn (Z.to_nat k) l), s') /\ R s' (zlen l).
Proof.
  intros HR Hready Hrem.
  pose proof (vty_ok_facts _ (st_ok _ _ _ _ _ Hst)) as (H1 & H2 & H3 & H4 & H5 & H6).
  pose proof (st_range _ _ _ _ _ Hst _ _ HR) as Hr.
  pose proof (st_small _ _ _ _ _ Hst) as Hsm. pose proof (st_d _ _ _ _ _ Hst) as Hd.
  unfold max_len in *.
  unfold blanket_end. rewrite (st_pos _ _ _ _ _ Hst _ _ HR), bind_Ok.
  rewrite (st_slen _ _ _ _ _ Hst _ _ HR), bind_Ok.
  destruct (k <? zlen l) eqn:E.
  - rewrite usub_ok, bind_Ok by (unfold usize_mod; lia).
    rewrite usub_ok, bind_Ok by (unfold usize_mod; lia).
    rewrite (partial_vector_ok s k k), bind_Ok by (auto; lia).
    unfold finalize. rewrite (st_slen _ _ _ _ _ Hst _ _ HR), bind_Ok.
    rewrite (st_pos _ _ _ _ _ Hst _ _ HR), bind_Ok.
    rewrite usub_ok, bind_Ok by (unfold usize_mod; lia).
    destruct (st_adv _ _ _ _ _ Hst s k (zlen l - k) HR) as (s' & Hs' & HR'); [lia|lia|].
    rewrite Hs', bind_Ok. exists s'. split.
    + unfold tail_of. destruct (skipn (Z.to_nat k) l) as [|x r] eqn:Es.
      * assert (zlen (skipn (Z.to_nat k) l) = 0) by (rewrite Es; reflexivity).
        rewrite zlen_skipn in *; lia.
      * rewrite <- Es. unfold unfilled. rewrite zlen_skipn. do 4 f_equal. lia.
    + replace (zlen l) with (k + (zlen l - k)) at 1 by lia. exact HR'.
  - exists s. split.
    + unfold tail_of. rewrite skipn_all2 by (unfold zlen in *; lia). reflexivity.
    + replace (zlen l) with k by lia. exact HR.
Qed.

Lemma blanket_end_none s :
  R s (zlen l) -> blanket_end c arr it s = Ok (None, s).
Proof.
  intros HR. unfold blanket_end.
  rewrite (st_pos _ _ _ _ _ Hst _ _ HR), bind_Ok.
  rewrite (st_slen _ _ _ _ _ Hst _ _ HR), bind_Ok.
  rewrite Z.ltb_irrefl. reflexivity.
Qed.

Lemma next_none_end s : R s (zlen l) -> it_next it s = Ok (None, s).
Proof.
  intros HR. destruct (st_next _ _ _ _ _ Hst _ _ HR) as [(s' & H & _)|[_ H]]; [|exact H].
  pose proof (vty_ok_facts _ (st_ok _ _ _ _ _ Hst)). lia.
Qed.

Lemma next_unchecked_ok s k pos :
  R s k -> 0 <= pos -> pos + W <= zlen l ->
  next_unchecked c arr it s pos = Ok (sub l pos W).
Proof.
  intros HR H1 H2. unfold next_unchecked.
  pose proof (st_small _ _ _ _ _ Hst) as Hsm. unfold max_len in *.
  pose proof (vty_ok_facts _ (st_ok _ _ _ _ _ Hst)).
  assert (He : match build c with
    | Debug => let! e := uadd c pos W in let! len := it_scalar_len it s in rassert (e <=? len)
    | Release => Ok tt end = Ok tt).
  { destruct (build c); [|reflexivity]. rewrite uadd_ok, bind_Ok by (unfold usize_mod; lia).
    rewrite (st_slen _ _ _ _ _ Hst _ _ HR), bind_Ok. unfold rassert.
    destruct (_ <=? _) eqn:E; [reflexivity|lia]. }
  rewrite He, bind_Ok. apply (load_vec_ok s k HR); assumption.
Qed.

Lemma end_unchecked_ok s k0 k :
  R s k0 -> tail_ready k -> 0 <= k < zlen l -> zlen l - k <= W ->
  end_unchecked c arr it s k (W - (zlen l - k)) =
  Ok (right_aligned d (skipn (Z.to_nat k) l)).
Proof.
  intros HR Hready Hk Hrem. unfold end_unchecked.
  pose proof (st_small _ _ _ _ _ Hst) as Hsm. unfold max_len in *.
  pose proof (vty_ok_facts _ (st_ok _ _ _ _ _ Hst)).
  rewrite (st_slen _ _ _ _ _ Hst _ _ HR), bind_Ok, debug_assert_true, bind_Ok by lia.
  assert (He : match build c with
    | Debug => let! rem := usub c (zlen l) k in let! e := usub c W rem in
               rassert (W - (zlen l - k) =? e)
    | Release => Ok tt end = Ok tt).
  { destruct (build c); [|reflexivity]. rewrite usub_ok, bind_Ok by (unfold usize_mod; lia).
    rewrite usub_ok, bind_Ok by (unfold usize_mod; lia). rewrite Z.eqb_refl. reflexivity. }
  rewrite He, bind_Ok. apply (partial_vector_ok s k0 k); assumption.
Qed.

Lemma unpacked_next_ok s k :
  R s k ->
  (exists x s', znth l k = Some x /\ unpacked_next arr it s = Ok (Some x, s') /\ R s' (k + 1)) \/
  (k = zlen l /\ unpacked_next arr it s = Ok (None, s)).
Proof.
  intros HR. pose proof (st_range _ _ _ _ _ Hst _ _ HR) as Hr. unfold unpacked_next.
  rewrite (st_pos _ _ _ _ _ Hst _ _ HR), bind_Ok, (st_slen _ _ _ _ _ Hst _ _ HR), bind_Ok.
  destruct (k <? zlen l) eqn:E.
  - left. destruct (znth_exists l k ltac:(lia)) as [x Hx].
    destruct (st_adv _ _ _ _ _ Hst s k 1 HR) as (s' & Hs' & HR'); [lia|lia|].
    exists x, s'. rewrite (ah_scalar _ _ _ (st_arr _ _ _ _ _ Hst _ _ HR) _ x Hx), bind_Ok, Hs'.
    auto.
  - right. split; [lia|reflexivity].
Qed.

End Blanket.

(** ** Complete traversals *)

(** [next] returns the items [vs] and then [None]; [end] then returns [t]. *)
Inductive emits {V I} (it : SIMDIterator V I) : I -> list V -> option (V * Z) -> I -> Prop :=
| emits_end s s1 t s2 :
    it_next (itb it) s = Ok (None, s1) -> it_end it s1 = Ok (t, s2) -> emits it s [] t s2
| emits_next s v s1 vs t s2 :
    it_next (itb it) s = Ok (Some v, s1) -> emits it s1 vs t s2 -> emits it s (v :: vs) t s2.

Lemma emits_drain {V I} (it : SIMDIterator V I) s vs t s' :
  emits it s vs t s' -> forall fuel, (length vs < fuel)%nat ->
  drain it fuel s = Ok (vs, t, s').
Proof.
  induction 1 as [s s1 t s2 H1 H2|s v s1 vs t s2 H1 _ IH]; intros [|fuel] Hf; cbn in Hf; try lia.
  - unfold drain. cbn [drain_next]. rewrite H1, !bind_Ok. cbn [fst snd]. rewrite H2. reflexivity.
  - specialize (IH fuel ltac:(lia)). unfold drain in *. cbn [drain_next]. rewrite H1, bind_Ok.
    destruct (drain_next it fuel s1) as [q| | |]; cbn in IH |- *; try discriminate.
    destruct (it_end it (snd q)) as [r| | |]; cbn in IH |- *; try discriminate.
    injection IH as E1 E2 E3. rewrite E1, E2, E3. reflexivity.
Qed.

Lemma emits_reduce {V I B} (it : SIMDIterator V I) s vs t s' :
  emits it s vs t s' -> forall fuel (start : B) f, (length vs < fuel)%nat ->
  simd_reduce it fuel s start f = Ok (fold_left f (visited vs t) start, s').
Proof.
  induction 1 as [s s1 t s2 H1 H2|s v s1 vs t s2 H1 _ IH]; intros [|fuel] start f Hf;
    cbn in Hf; try lia.
  - unfold simd_reduce. cbn [reduce_loop]. rewrite H1, !bind_Ok. cbn [fst snd]. rewrite H2, bind_Ok.
    destruct t as [[p n]|]; reflexivity.
  - specialize (IH fuel (f start v) f ltac:(lia)). unfold simd_reduce in *. cbn [reduce_loop].
    rewrite H1, bind_Ok. exact IH.
Qed.

Lemma emits_do_each {V I E} (it : SIMDIterator V I) s vs t s' :
  emits it s vs t s' -> forall fuel (env : E) f, (length vs < fuel)%nat ->
  simd_do_each it fuel s env f = Ok (fold_left f (visited vs t) env, s').
Proof.
  induction 1 as [s s1 t s2 H1 H2|s v s1 vs t s2 H1 _ IH]; intros [|fuel] env f Hf;
    cbn in Hf; try lia.
  - unfold simd_do_each. cbn [do_each_loop]. rewrite H1, !bind_Ok. cbn [fst snd]. rewrite H2, bind_Ok.
    destruct t as [[p n]|]; reflexivity.
  - specialize (IH fuel (f env v) f ltac:(lia)). unfold simd_do_each in *. cbn [do_each_loop].
    rewrite H1, bind_Ok. exact IH.
Qed.

Lemma stepping_emits {A I} c (arr : SIMDArray A I) it l d R :
  stepping arr it l d R -> forall s k, R s k -> tail_ready it l k ->
  exists vs rest s', emits (blanket_iterator c arr it) s vs (tail_of d rest) s' /\
    chunked (WIDTH (it_ty it)) (skipn (Z.to_nat k) l) vs rest /\
    zlen rest <= WIDTH (it_ty it) /\ R s' (zlen l).
Proof.
  intros Hst s k HR Hready.
  pose proof (vty_ok_facts _ (st_ok _ _ _ _ _ Hst)) as (HW & _).
  remember (Z.to_nat (zlen l - k)) as m eqn:Hm.
  revert s k HR Hready Hm. induction m as [m IH] using (well_founded_induction lt_wf).
  intros s k HR Hready Hm. pose proof (st_range _ _ _ _ _ Hst _ _ HR) as Hr.
  destruct (st_next _ _ _ _ _ Hst _ _ HR) as [(s' & Hle & Hn & HR')|[Hlt Hn]].
  - destruct (IH (Z.to_nat (zlen l - (k + WIDTH (it_ty it)))) ltac:(lia) s' _ HR'
                 ltac:(unfold tail_ready in *; lia) eq_refl)
      as (vs & rest & s2 & He & [Hc1 Hc2] & Hrest & HR2).
    exists (sub l k (WIDTH (it_ty it)) :: vs), rest, s2. repeat split; auto.
    + eapply emits_next; [exact Hn|exact He].
    + constructor; [apply zlen_sub; lia|exact Hc1].
    + cbn [concat]. rewrite <- app_assoc, Hc2. apply sub_skipn; lia.
  - destruct (blanket_end_ok c arr it l d R Hst s k HR Hready ltac:(lia)) as (s' & He & HR').
    exists [], (skipn (Z.to_nat k) l), s'. repeat split; auto.
    + eapply emits_end; [exact Hn|exact He].
    + rewrite zlen_skipn; lia.
Qed.

(** For SIMDIter the leftover is strictly shorter than a vector. *)
Lemma si_emits {A T} c (arr : SIMDArray A T) (data : T) (l d : list A) :
  vty_ok (arr_ty arr) -> array_holds arr data l -> zlen l < max_len ->
  zlen d = WIDTH (arr_ty arr) ->
  forall k, 0 <= k <= zlen l -> tail_ready (si_iterable c arr) l k ->
  exists vs rest,
    emits (blanket_iterator c (si_array arr) (si_iterable c arr)) (mkSIMDIter k data d)
          vs (tail_of d rest) (mkSIMDIter (zlen l) data d) /\
    chunked (WIDTH (arr_ty arr)) (skipn (Z.to_nat k) l) vs rest /\
    zlen rest < WIDTH (arr_ty arr).
Proof.
  intros Hty Harr Hsm Hd k Hk Hready.
  pose proof (si_stepping c arr data l d Hty Harr Hsm Hd) as Hst.
  pose proof (vty_ok_facts _ Hty) as (HW & _).
  remember (Z.to_nat (zlen l - k)) as m eqn:Hm.
  revert k Hk Hready Hm. induction m as [m IH] using (well_founded_induction lt_wf).
  intros k Hk Hready Hm.
  destruct (si_next_cases c arr (mkSIMDIter k data d) l Hty Harr Hsm Hk) as [[Hle Hn]|[Hlt Hn]];
    cbn [si_position si_data si_default] in *.
  - destruct (IH (Z.to_nat (zlen l - (k + WIDTH (arr_ty arr)))) ltac:(lia)
                 (k + WIDTH (arr_ty arr)) ltac:(lia)
                 ltac:(unfold tail_ready in *; cbn [it_ty si_iterable] in *; lia) eq_refl)
      as (vs & rest & He & [Hc1 Hc2] & Hrest).
    exists (sub l k (WIDTH (arr_ty arr)) :: vs), rest. repeat split; auto.
    + eapply emits_next; [exact Hn|exact He].
    + constructor; [apply zlen_sub; lia|exact Hc1].
    + cbn [concat]. rewrite <- app_assoc, Hc2. apply sub_skipn; lia.
  - destruct (blanket_end_ok c _ _ l d _ Hst (mkSIMDIter k data d) k) as (s' & He & [-> _]);
      [split; auto|exact Hready|cbn; lia|].
    exists [], (skipn (Z.to_nat k) l). repeat split; auto.
    + eapply emits_end; [exact Hn|exact He].
    + rewrite zlen_skipn; lia.
Qed.
