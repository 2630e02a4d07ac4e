(** PackedStride satisfies the array and iterator laws. *)
From Coq Require Import Lia ZifyBool ZifyNat.
From Verif Require Import Base Spec ListFacts Vecs VecFacts Iters IterFacts Stride.
Ltac Zify.zify_post_hook ::= Z.div_mod_to_equations.

Lemma znth_ext {A} (a b : list A) :
  zlen a = zlen b -> (forall k, 0 <= k < zlen a -> znth a k = znth b k) -> a = b.
Proof.
  intros Hl H. apply nth_error_ext. intros i.
  destruct (Nat.ltb i (length a)) eqn:E.
  - specialize (H (Z.of_nat i)). unfold znth in H.
    destruct (Z.of_nat i <? 0) eqn:E2; [lia|]. rewrite Nat2Z.id in H. apply H. unfold zlen. lia.
  - transitivity (@None A); [|symmetry]; apply nth_error_None; unfold zlen in *; lia.
Qed.

Lemma is_stream_unique {A} (l : list A) base stride o1 o2 :
  is_stream l base stride o1 -> is_stream l base stride o2 -> o1 = o2.
Proof.
  intros [H1 H2] [H3 H4]. apply znth_ext; [lia|].
  intros k Hk. rewrite H2 by lia. rewrite H4 by lia. reflexivity.
Qed.

(** Streams exist. *)
Fixpoint gather {A} (l : list A) (base stride : Z) (n : nat) : list A :=
  match n with
  | O => []
  | S n' => match znth l base with
            | Some x => x :: gather l (base + stride) stride n'
            | None => []
            end
  end.

Lemma gather_spec {A} (l : list A) stride n : forall base,
  0 < stride -> 0 <= base -> base + stride * (Z.of_nat n - 1) < zlen l ->
  zlen (gather l base stride n) = Z.of_nat n /\
  forall k, 0 <= k < Z.of_nat n -> znth (gather l base stride n) k = znth l (base + stride * k).
Proof.
  induction n as [|n IH]; intros base Hs Hb Hl.
  - split; [reflexivity|]. intros k Hk; lia.
  - cbn [gather].
    destruct (znth_exists l base ltac:(nia)) as [x Hx]. rewrite Hx.
    destruct (IH (base + stride)) as [H1 H2]; [lia|lia|lia|].
    split.
    + rewrite zlen_cons, H1. lia.
    + intros k Hk. destruct (Z.eq_dec k 0) as [->|Hne].
      * rewrite Z.mul_0_r, Z.add_0_r, Hx. reflexivity.
      * replace (base + stride * k) with (base + stride + stride * (k - 1)) by ring.
        rewrite <- H2 by lia. unfold znth.
        destruct (k <? 0) eqn:E1; [lia|]. destruct (k - 1 <? 0) eqn:E2; [lia|].
        replace (Z.to_nat k) with (S (Z.to_nat (k - 1))) by lia. reflexivity.
Qed.

Lemma is_stream_exists {A} (l : list A) base stride :
  0 <= base < stride -> exists out, is_stream l base stride out.
Proof.
  intros H. exists (gather l base stride (Z.to_nat (zlen l / stride))).
  pose proof (zlen_nonneg l).
  assert (Hq : 0 <= zlen l / stride) by (apply Z.div_pos; lia).
  assert (Hm : stride * (zlen l / stride) <= zlen l) by (apply Z.mul_div_le; lia).
  destruct (gather_spec l stride (Z.to_nat (zlen l / stride)) base) as [H1 H2]; [lia|lia| |].
  { rewrite Z2Nat.id by lia. rewrite Z.mul_sub_distr_l. lia. }
  rewrite Z2Nat.id in * by lia. split; [exact H1|]. rewrite H1. exact H2.
Qed.

Section Stride.
Context {A T : Type}.
Variable c : config.
Variable arr : SIMDArray A T.
Variable d0 : A.
Variable t : T.
Variables l out d : list A.
Variables base str : Z.
Hypothesis Hty : vty_ok (arr_ty arr).
Hypothesis Harr : array_holds arr t l.
Hypothesis Hsmall : zlen l < max_len.
Hypothesis Hb : 0 <= base < str.
Notation W := (WIDTH (arr_ty arr)).
Hypothesis Hstr : str * (W + 1) <= max_len.
Hypothesis Hout : is_stream l base str out.

Let n := zlen out.

Lemma n_facts : 0 <= n /\ str * n <= zlen l < str * n + str.
Proof.
  destruct Hout as [H1 _]. unfold n. rewrite H1. pose proof (zlen_nonneg l).
  split; [apply Z.div_pos; lia|].
  pose proof (Z.div_mod (zlen l) str ltac:(lia)). pose proof (Z.mod_pos_bound (zlen l) str ltac:(lia)).
  lia.
Qed.

Lemma mul_bounds k : 0 <= k <= n -> 0 <= str * k <= zlen l.
Proof. intros Hk. pose proof n_facts. nia. Qed.

Lemma str_small : str <= 2 ^ 63 /\ str * W + str <= 2 ^ 63 /\ n < 2 ^ 63.
Proof.
  pose proof (vty_ok_facts _ Hty) as (HW & _). pose proof n_facts. unfold max_len in *.
  repeat split; nia.
Qed.

Lemma stream_at k : 0 <= k < n -> exists x, znth out k = Some x /\ znth l (base + str * k) = Some x.
Proof.
  intros Hk. destruct (znth_exists out k Hk) as [x Hx]. exists x. split; [exact Hx|].
  destruct Hout as [_ H2]. rewrite <- H2 by exact Hk. exact Hx.
Qed.

(** The gathering loops of [next] and [load_unchecked]. *)
Lemma gather_loop (f : Z -> list A -> outcome (list A)) k :
  0 <= k -> k + W <= n ->
  (forall i x b, 0 <= i < W -> znth out (k + i) = Some x -> f i b = Ok (upd b i [x])) ->
  for_range (Z.to_nat W) 0 f (splat W d0) = Ok (sub out k W).
Proof.
  intros Hk HkW Hf. pose proof (vty_ok_facts _ Hty) as (HW & _).
  pose proof (for_range_write f (sub out k W) 0 [] (splat W d0) []) as H.
  rewrite !app_nil_r in H. cbn [app] in H.
  assert (Hlen : zlen (sub out k W) = W) by (apply zlen_sub; unfold n in *; lia).
  replace (Z.to_nat W) with (length (sub out k W)) by (unfold zlen in Hlen; lia).
  apply H.
  - unfold splat. rewrite repeat_length. unfold zlen in Hlen; lia.
  - intros j x b Hj Hbb. cbn [Z.add]. rewrite zlen_nil, Z.add_0_l.
    pose proof (nth_error_lt _ _ _ Hj).
    apply Hf; [unfold zlen in Hlen; lia|].
    rewrite nth_error_sub in Hj by (unfold zlen in Hlen; lia).
    replace (k + Z.of_nat j) with (Z.of_nat (Z.to_nat k + j)) by lia.
    apply znth_nat; exact Hj.
Qed.

Lemma ps_array_holds pos :
  array_holds (ps_array c arr d0) (mkPackedStride t pos base str d) out.
Proof.
  pose proof n_facts as [Hn0 Hn]. pose proof str_small as (Hss1 & Hss2 & Hss3). pose proof (vty_ok_facts _ Hty) as (HW & HWb).
  unfold max_len in *.
  constructor; cbn.
  - unfold ps_scalar_len; cbn. rewrite (ah_len _ _ _ Harr), bind_Ok, udiv_ok by lia.
    destruct Hout as [H1 _]. rewrite H1. reflexivity.
  - intros i x Hx. pose proof (znth_Some_lt _ _ _ Hx) as Hi. fold n in Hi.
    pose proof (mul_bounds i ltac:(lia)) as Hm.
    unfold ps_load_scalar_unchecked; cbn.
    rewrite umul_ok, bind_Ok by (unfold usize_mod; lia).
    rewrite uadd_ok, bind_Ok by (unfold usize_mod; lia).
    apply (ah_scalar _ _ _ Harr). rewrite (Z.mul_comm i str). destruct Hout as [_ H2].
    rewrite <- H2; assumption.
  - intros off Ho HoW. fold n in HoW. unfold ps_load_unchecked; cbn.
    assert (Hg : match build c with
             | Debug =>
               let! w1 := usub c W 1 in
               let! dd := umul c str w1 in
               let! e := uadd c off dd in
               let! len := arr_scalar_len arr t in
               rassert (e <? len)
             | Release => Ok tt end = Ok tt).
    { destruct (build c); [|reflexivity].
      assert (0 <= str * (W - 1)) by nia.
      assert (Hlt : off + str * (W - 1) < str * n).
      { assert (off <= str * off) by nia.
        assert (str * (off + W) <= str * n) by (apply Z.mul_le_mono_nonneg_l; lia). lia. }
      rewrite usub_ok, bind_Ok by (unfold usize_mod; lia).
      rewrite umul_ok, bind_Ok by (unfold usize_mod; lia).
      rewrite uadd_ok, bind_Ok by (unfold usize_mod; lia).
      rewrite (ah_len _ _ _ Harr), bind_Ok. unfold rassert.
      destruct (_ <? zlen l) eqn:E; [reflexivity|lia]. }
    rewrite Hg, bind_Ok. apply gather_loop; [lia|lia|].
    intros i x b Hi Hx. pose proof (mul_bounds (off + i) ltac:(lia)) as Hm.
    rewrite uadd_ok, bind_Ok by (unfold usize_mod; lia).
    rewrite umul_ok, bind_Ok by (unfold usize_mod; lia).
    rewrite uadd_ok, bind_Ok by (unfold usize_mod; lia).
    rewrite (ah_scalar _ _ _ Harr _ x), bind_Ok.
    + apply replace_ok; lia.
    + destruct Hout as [_ H2]. rewrite <- H2; [assumption|]. fold n; lia.
Qed.

Definition ps_at (s : PackedStride A T) (k : Z) : Prop :=
  s = mkPackedStride t (base + str * k) base str d /\ 0 <= k <= n.

Lemma ps_next_cases k :
  0 <= k <= n ->
  (base + str * (k + W) < zlen l /\ k + W <= n /\
   ps_next c arr d0 (mkPackedStride t (base + str * k) base str d) =
   Ok (Some (sub out k W), mkPackedStride t (base + str * (k + W)) base str d)) \/
  (zlen l <= base + str * (k + W) /\ n <= k + W /\
   ps_next c arr d0 (mkPackedStride t (base + str * k) base str d) =
   Ok (None, mkPackedStride t (base + str * k) base str d)).
Proof.
  intros Hk. pose proof n_facts as [Hn0 Hn]. pose proof str_small as (Hss1 & Hss2 & Hss3). pose proof (vty_ok_facts _ Hty) as (HW & HWb).
  pose proof (mul_bounds k Hk) as Hm. unfold max_len in *.
  assert (HsW : 0 <= str * W) by nia.
  unfold ps_next; cbn.
  rewrite umul_ok, bind_Ok by (unfold usize_mod; lia).
  rewrite uadd_ok, bind_Ok by (unfold usize_mod; lia).
  rewrite (ah_len _ _ _ Harr), bind_Ok.
  destruct (_ <? zlen l) eqn:E.
  - left. assert (HkW : k + W <= n).
    { destruct (Z_le_gt_dec (k + W) n); [assumption|exfalso].
      assert (str * (n + 1) <= str * (k + W)) by (apply Z.mul_le_mono_nonneg_l; lia). lia. }
    split; [lia|]. split; [exact HkW|].
    rewrite (gather_loop _ k).
    + rewrite bind_Ok. unfold ps_advance; cbn.
      rewrite umul_ok, bind_Ok by (unfold usize_mod; lia).
      rewrite uadd_ok, bind_Ok by (unfold usize_mod; lia).
      rewrite bind_Ok. replace (base + str * k + W * str) with (base + str * (k + W)) by ring.
      reflexivity.
    + lia.
    + exact HkW.
    + intros i x b Hi Hx. pose proof (mul_bounds (k + i) ltac:(lia)) as Hmi.
      assert (0 <= str * i) by nia.
      rewrite umul_ok, bind_Ok by (unfold usize_mod; lia).
      rewrite uadd_ok, bind_Ok by (unfold usize_mod; lia).
      rewrite (ah_scalar _ _ _ Harr _ x), bind_Ok.
      * apply replace_ok; lia.
      * replace (base + str * k + str * i) with (base + str * (k + i)) by ring.
        destruct Hout as [_ H2]. rewrite <- H2; [assumption|]. fold n; lia.
  - right. split; [lia|]. split; [|reflexivity].
    destruct (Z_le_gt_dec n (k + W)); [assumption|exfalso].
    assert (str * (k + W + 1) <= str * n) by (apply Z.mul_le_mono_nonneg_l; lia). lia.
Qed.

Lemma ps_stepping :
  zlen d = W -> stepping (ps_array c arr d0) (ps_iterable c arr d0) out d ps_at.
Proof.
  intros Hd. pose proof n_facts as [Hn0 Hn]. pose proof str_small as (Hss1 & Hss2 & Hss3). unfold ps_at.
  assert (Hno : n <= zlen l) by nia. unfold max_len in *.
  constructor; [reflexivity|exact Hty|fold n; unfold max_len; lia|exact Hd|..].
  - intros s k [-> Hk]. apply ps_array_holds.
  - intros s k [-> Hk]. exact Hk.
  - intros s k [-> Hk]. apply (ah_len _ _ _ (ps_array_holds (base + str * k))).
  - intros s k [-> Hk]. pose proof (mul_bounds k Hk). cbn. unfold ps_scalar_pos; cbn.
    rewrite usub_ok, bind_Ok by (unfold usize_mod; lia).
    rewrite udiv_ok by lia. f_equal.
    replace (base + str * k - base) with (k * str) by ring. apply Z.div_mul; lia.
  - intros s k [-> Hk]. reflexivity.
  - intros s k [-> Hk]. destruct (ps_next_cases k Hk) as [(H1 & H2 & H3)|(H1 & H2 & H3)].
    + left. eexists. split; [exact H2|]. split; [exact H3|]. split; [reflexivity|].
      cbn. pose proof (vty_ok_facts _ Hty). lia.
    + right. split; [exact H2|exact H3].
  - intros s k a [-> Hk] Ha Hka. fold n in Hka. pose proof (mul_bounds k Hk).
    pose proof (mul_bounds a ltac:(lia)). pose proof (mul_bounds (k + a) ltac:(lia)).
    cbn. unfold ps_advance; cbn.
    rewrite umul_ok, bind_Ok by (unfold usize_mod; lia).
    rewrite uadd_ok, bind_Ok by (unfold usize_mod; lia).
    eexists. split; [reflexivity|]. split; [f_equal; ring|fold n; lia].
Qed.

Lemma ps_at_start : ps_at (mkPackedStride t base base str d) 0.
Proof. unfold ps_at. split; [f_equal; ring|]. pose proof n_facts; lia. Qed.

(** Checked random access agrees with the stream. *)
Lemma ps_load_checked pos off :
  0 <= off -> off + W <= n ->
  ps_load c arr d0 (mkPackedStride t pos base str d) off = Ok (sub out off W).
Proof.
  intros Ho HoW. unfold ps_load; cbn.
  pose proof n_facts as [Hn0 Hn]. pose proof str_small as (Hss1 & Hss2 & Hss3). pose proof (vty_ok_facts _ Hty) as (HW & HWb).
  pose proof (mul_bounds (off + (W - 1)) ltac:(lia)) as Hm. unfold max_len in *.
  rewrite usub_ok, bind_Ok by (unfold usize_mod; lia).
  assert (off <= zlen l) by nia.
  rewrite uadd_ok, bind_Ok by (unfold usize_mod; lia).
  rewrite umul_ok, bind_Ok by (unfold usize_mod; lia).
  rewrite uadd_ok, bind_Ok by (unfold usize_mod; lia).
  rewrite (ah_len _ _ _ Harr), bind_Ok.
  assert (str * (off + (W - 1) + 1) <= str * n) by (apply Z.mul_le_mono_nonneg_l; lia).
  unfold rassert. destruct (_ <? zlen l) eqn:E; [|lia]. rewrite bind_Ok.
  apply (ah_vec _ _ _ (ps_array_holds pos)); assumption.
Qed.
End Stride.
