(** Proofs of the properties: correctly rounded float arithmetic (C41, C47, C56, C60, C69) and the estimates [recip] and [rsqrt] (C67, C68). *)
From Coq Require Import String.
From Verif Require Import Base Spec VecSpec Vecs Lanes Floats FloatSpec X86 OpTables OpSpec Ops PortTables Hops Ports SumTables SumSpec Sums UnknownTables Unknown Arith ArithSpec Estimates.
Open Scope list_scope.
Open Scope Z_scope.
From Coq Require Import Lia ZifyBool ZifyNat.
From Verif Require Import ListFacts VecFacts FloatFacts VecProofs PatternProofs ShuffleProofs OpProofs RoundProofs HopProofs PortProofs SumProofs UnknownSpec UnknownProofs ArithFacts.
Ltac Zify.zify_post_hook ::= Z.div_mod_to_equations.

Lemma el_fmt_of : forall e, el_fmt e = fmt_of e.
Proof. intros e. destruct e; reflexivity. Qed.

Lemma fraction_bits : forall e, 8192 <= 2 ^ f_m (fmt_of e).
Proof. intros e. destruct e; vm_compute; discriminate. Qed.

Lemma bias_bits : forall e, f_m (fmt_of e) + 3 <= 2 ^ (f_e (fmt_of e) - 1) - 1.
Proof. intros e. destruct e; vm_compute; discriminate. Qed.

Lemma ieee_add_in : forall e a b, e = EF32 \/ e = EF64 -> in_ity (lane_ity e) a -> in_ity (lane_ity e) b -> in_ity (lane_ity e) (ieee_add e a b).
Proof. intros e a b He Ha Hb. apply pattern_float; [exact He|]. change (ieee_add e a b) with (f_add (fmt_of e) a b). apply (proj1 (add_ok _ (fmt_of_ok e) a b (float_pattern _ _ He Ha) (float_pattern _ _ He Hb))). Qed.

Lemma ieee_sub_in : forall e a b, e = EF32 \/ e = EF64 -> in_ity (lane_ity e) a -> in_ity (lane_ity e) b -> in_ity (lane_ity e) (ieee_sub e a b).
Proof. intros e a b He Ha Hb. apply pattern_float; [exact He|]. change (ieee_sub e a b) with (f_sub (fmt_of e) a b). apply (proj1 (sub_ok _ (fmt_of_ok e) a b (float_pattern _ _ He Ha) (float_pattern _ _ He Hb))). Qed.

Lemma ieee_sqrt_in : forall e a, e = EF32 \/ e = EF64 -> in_ity (lane_ity e) a -> in_ity (lane_ity e) (ieee_sqrt e a).
Proof. intros e a He Ha. apply pattern_float; [exact He|]. change (ieee_sqrt e a) with (f_sqrt (fmt_of e) a). apply (proj1 (sqrt_ok _ (fmt_of_ok e) (bias_bits e) a (float_pattern _ _ He Ha))). Qed.

Lemma int_vector_at : forall W t l i x, int_vector W t l -> znth l i = Some x -> in_ity t x.
Proof. intros W t l i x [_ H] Hx. rewrite Forall_forall in H. apply H. exact (znth_In _ _ _ _ Hx). Qed.

Lemma horizontal_rel : forall (W : Z) (t : ity) (g : Z -> Z -> Z) (R : Z -> Z -> Z -> Prop) (a b r : list Z), int_vector W t a -> int_vector W t b ->
  (forall x y, in_ity t x -> in_ity t y -> R x y (g x y)) -> horizontal g a b r -> horizontal_result R a b r.
Proof.
  intros W t g R a b r Ha Hb Hg [H1 H2]. split; [exact H1|]. intros i x y u v Hi Hx Hy Hu Hv. destruct (H2 i x y u v Hi Hx Hy Hu Hv) as [E1 E2]. exists (g x y), (g u v). split; [exact E1|]. split; [exact E2|].
  split; apply Hg; [exact (int_vector_at _ _ _ _ _ Ha Hx)|exact (int_vector_at _ _ _ _ _ Ha Hy)|exact (int_vector_at _ _ _ _ _ Hb Hu)|exact (int_vector_at _ _ _ _ _ Hb Hv)].
Qed.

Lemma c41_hadd_float : forall (c : config) (o : hop_impl) (a b : list Z), In o (x86_hadd ++ unknown_hadd) -> h_el o = EF32 \/ h_el o = EF64 ->
  int_vector (WIDTH (h_ty o)) (lane_ity (h_el o)) a -> int_vector (WIDTH (h_ty o)) (lane_ity (h_el o)) b ->
  exists r, hop_portable ieee_add ieee_sub c o a b = Ok r /\ horizontal_result (sum_result (fmt_of (h_el o))) a b r.
Proof.
  intros c o a b Ho He Ha Hb. destruct (c41_hadd ieee_add ieee_sub c o a b Ho (proj1 Ha) (proj1 Hb)) as (r & H1 & H2); [intros t Ht; destruct He as [He|He]; rewrite He in Ht; discriminate|]. exists r. split; [exact H1|].
  revert H2. apply (horizontal_rel _ _ _ _ a b r Ha Hb). intros x y Hx Hy. apply (float_pattern _ _ He) in Hx, Hy. pose proof (fmt_of_ok (h_el o)) as Hk. destruct He as [He|He]; rewrite He in *; apply add_ok; assumption.
Qed.

Lemma c41_hsub_float : forall (c : config) (o : hop_impl) (a b : list Z), In o (x86_hsub ++ unknown_hsub) -> h_el o = EF32 \/ h_el o = EF64 ->
  int_vector (WIDTH (h_ty o)) (lane_ity (h_el o)) a -> int_vector (WIDTH (h_ty o)) (lane_ity (h_el o)) b ->
  exists r, hop_portable ieee_add ieee_sub c o a b = Ok r /\ horizontal_result (difference_result (fmt_of (h_el o))) a b r.
Proof.
  intros c o a b Ho He Ha Hb. destruct (c41_hsub ieee_add ieee_sub c o a b Ho (proj1 Ha) (proj1 Hb)) as (r & H1 & H2); [intros t Ht; destruct He as [He|He]; rewrite He in Ht; discriminate|]. exists r. split; [exact H1|].
  revert H2. apply (horizontal_rel _ _ _ _ a b r Ha Hb). intros x y Hx Hy. apply (float_pattern _ _ He) in Hx, Hy. pose proof (fmt_of_ok (h_el o)) as Hk. destruct He as [He|He]; rewrite He in *; apply sub_ok; assumption.
Qed.

Lemma c41_float_optimized : forall (x : xhop) (a b : list Z), xh_el x = EF32 \/ xh_el x = EF64 ->
  int_vector (WIDTH (xh_ty x)) (lane_ity (xh_el x)) a -> int_vector (WIDTH (xh_ty x)) (lane_ity (xh_el x)) b ->
  (In x (x86_hadd_optimized ieee_add) -> horizontal_result (sum_result (fmt_of (xh_el x))) a b (hop_optimized x a b)) /\
  (In x (x86_hsub_optimized ieee_sub) -> horizontal_result (difference_result (fmt_of (xh_el x))) a b (hop_optimized x a b)).
Proof.
  intros x a b He Ha Hb. pose proof (fmt_of_ok (xh_el x)) as Hk. split; intros Hx.
  - pose proof (c41_hadd_optimized ieee_add x a b Hx ieee_add_in Ha Hb) as H. revert H. apply (horizontal_rel _ _ _ _ a b _ Ha Hb). intros u v Hu Hv. apply (float_pattern _ _ He) in Hu, Hv. destruct He as [He|He]; rewrite He in *; apply add_ok; assumption.
  - pose proof (c41_hsub_optimized ieee_sub x a b Hx ieee_sub_in Ha Hb) as H. revert H. apply (horizontal_rel _ _ _ _ a b _ Ha Hb). intros u v Hu Hv. apply (float_pattern _ _ He) in Hu, Hv. destruct He as [He|He]; rewrite He in *; apply sub_ok; assumption.
Qed.

Lemma c56_sqrt_rounded : forall (o : op_impl) (a : list Z), In o (x86_sqrt ++ unknown_sqrt) -> int_vector (WIDTH (op_ty o)) (lane_ity (op_el o)) a ->
  exists r, portable1 ieee_sqrt o a = Some (Ok r) /\ Forall2 (root_result (fmt_of (op_el o))) a r /\
    (forall q, optimized1 ieee_sqrt o a = Some q -> q = r) /\ (In o x86_sqrt -> optimized1 ieee_sqrt o a = Some r).
Proof.
  intros o a Ho Ha. destruct (c56_sqrt ieee_sqrt o a Ho ieee_sqrt_in Ha) as (H1 & H2 & H3). eexists. split; [exact H1|]. split.
  - pose proof (unary_entries ieee_sqrt) as He. rewrite Forall_forall in He. destruct (He o ltac:(apply in_or_app; right; exact Ho)) as (_ & Hel & _). apply Forall2_map_r. intros x Hx. destruct Ha as [_ Ha]. rewrite Forall_forall in Ha. specialize (Ha x Hx). apply (float_pattern _ _ Hel) in Ha. change (ieee_sqrt (op_el o) x) with (f_sqrt (fmt_of (op_el o)) x). apply sqrt_ok; [apply fmt_of_ok|apply bias_bits|exact Ha].
  - split; [exact H2|]. intros Hx. specialize (H3 Hx). destruct (optimized1 ieee_sqrt o a) as [q|]; [rewrite (H2 q eq_refl); reflexivity|congruence].
Qed.

Lemma c60_float_operators : forall (c : config) (r : uop) (u : utype) (trait sym : string) (v w : list Z),
  In r unknown_ops -> utype_of (uo_vec r) = Some u -> In (trait, sym) (uo_ops r) -> ut_el u = EF32 \/ ut_el u = EF64 ->
  int_vector (ut_sz u) (lane_ity (ut_el u)) v -> int_vector (ut_sz u) (lane_ity (ut_el u)) w ->
  exists q, uv_op ieee_op c (uo_el r) (ut_sz u) sym v w = Ok q /\ each_lane (operator_result (fmt_of (ut_el u)) trait) v w q.
Proof.
  intros c r u trait sym v w Hr Hu Ht He Hv Hw. destruct (c60_operators ieee_op c r u trait sym v w Hr Hu Ht Hv Hw) as [(q & H1 & H2)|(H1 & i & x & y & _ & _ & H2)].
  - exists q. split; [exact H1|]. destruct H2 as [H2 H3]. split; [exact H2|]. intros i x y Hx Hy. destruct (H3 i x y Hx Hy) as (z & Hz & H4). exists z. split; [exact Hz|].
    pose proof (int_vector_at _ _ _ _ _ Hv Hx) as Ix. pose proof (int_vector_at _ _ _ _ _ Hw Hy) as Iy. apply (float_pattern _ _ He) in Ix, Iy. pose proof (fmt_of_ok (ut_el u)) as Hk. unfold op_result in H4.
    assert (H5 : float_result ieee_op (ut_el u) trait x y (Ok z)) by (destruct He as [He|He]; rewrite He in *; exact H4). destruct H5 as (symbol & Hs & H5). injection H5 as ->. unfold ieee_op. change (el_fmt (ut_el u)) with (fmt_of (ut_el u)). unfold operator_result. cbn [In] in Hs.
    destruct Hs as [Hs|[Hs|[Hs|[Hs|[]]]]]; injection Hs as <- <-; cbn [String.eqb Ascii.eqb Bool.eqb].
    + left. split; [reflexivity|]. apply add_ok; assumption.
    + right; left. split; [reflexivity|]. apply sub_ok; assumption.
    + right; right; left. split; [reflexivity|]. apply mul_ok; assumption.
    + right; right; right. split; [reflexivity|]. apply div_ok; assumption.
  - exfalso. unfold op_result in H2. assert (H5 : float_result ieee_op (ut_el u) trait x y Panic) by (destruct He as [He|He]; rewrite He in *; exact H2). destruct H5 as (symbol & _ & H5). discriminate.
Qed.

Lemma c47_downcast_float : forall (p : port_impl) (a b : list Z), In p (x86_downcast ++ unknown_downcast) -> pt_el p = EF64 ->
  int_vector (WIDTH (pt_ty p)) (lane_ity (pt_el p)) a -> int_vector (WIDTH (pt_ty p)) (lane_ity (pt_el p)) b ->
  exists r, port_portable f_narrow p [a; b] = Ok [r] /\ Forall2 narrowing_result (a ++ b) r.
Proof.
  intros p a b Hp He Ha Hb. pose proof (c47_downcast_portable_partial f_narrow p a b Hp) as H. rewrite He in *. specialize (H eq_refl Ha Hb). eexists. split; [exact H|].
  assert (G : forall p, In p (x86_downcast ++ unknown_downcast) -> pt_el p = EF64 -> pt_out p = EF32).
  { clear. intros p Hp He. assert (C : forallb (fun p => match pt_el p, pt_out p with EF64, EF32 => true | EF64, _ => false | _, _ => true end) (x86_downcast ++ unknown_downcast) = true) by (vm_compute; reflexivity). rewrite forallb_forall in C. specialize (C p Hp). rewrite He in C. destruct (pt_out p); [discriminate|reflexivity|discriminate]. }
  rewrite (G p Hp He). apply Forall2_map_r. intros x Hx. apply narrow_ok. apply (float_pattern EF64); [right; reflexivity|]. apply in_app_or in Hx. destruct Ha as [_ Ha], Hb as [_ Hb]. rewrite Forall_forall in Ha, Hb. destruct Hx as [Hx|Hx]; auto.
Qed.

(** ** Sums *)

Lemma total_app : forall a b, total (a ++ b) = total a + total b.
Proof. induction a as [|x a IH]; intros b; [reflexivity|]. cbn [app total fold_right]. unfold total in *. rewrite IH. ring. Qed.

Section Exact.
Variable e : elty.
Local Notation f := (fmt_of e).
Variable j : Z.
Hypothesis Hj : 0 <= j <= 2 ^ f_e f - 3.

Definition scaled (x a : Z) : Prop := f_pattern f x /\ is_finite f x /\ fvalue f x = a * 2 ^ j.

Lemma scaled_add : forall x y a b, scaled x a -> scaled y b -> Z.abs (a + b) < 2 * 2 ^ f_m f -> scaled (ieee_add e x y) (a + b).
Proof. intros x y a b (X1 & X2 & X3) (Y1 & Y2 & Y3) H. unfold ieee_add. change (el_fmt e) with f. exact (add_exact f (fmt_of_ok e) x y j a b X1 Y1 X2 Y2 Hj X3 Y3 H). Qed.

Lemma abs_total : forall l, Z.abs (total l) <= total (map Z.abs l).
Proof. induction l as [|x l IH]; [reflexivity|]. cbn [map total fold_right]. unfold total in *. lia. Qed.

Lemma total_nonneg : forall l, 0 <= total (map Z.abs l).
Proof. intros l. pose proof (abs_total l). lia. Qed.

Lemma scaled_fold : forall v ks x a, Forall2 scaled v ks -> scaled x a -> Z.abs a + total (map Z.abs ks) < 2 * 2 ^ f_m f -> scaled (fold_left (ieee_add e) v x) (a + total ks).
Proof.
  induction v as [|y v IH]; intros ks x a Hv Hx Hb; inversion Hv as [|? k ? ks' Hy Hv']; subst; cbn [fold_left total fold_right map] in *; [rewrite Z.add_0_r; exact Hx|].
  fold (total ks') in *. fold (total (map Z.abs ks')) in *. pose proof (total_nonneg ks'). rewrite Z.add_assoc. apply IH; [exact Hv'|apply scaled_add; [exact Hx|exact Hy|lia]|lia].
Qed.

Lemma scaled_halves : forall n v ks, Forall2 scaled v ks -> length v = (2 ^ n)%nat -> total (map Z.abs ks) < 2 * 2 ^ f_m f -> scaled (sum_of_halves (ieee_add e) n v) (total ks).
Proof.
  induction n as [|n IH]; intros v ks Hv L Hb.
  - destruct v as [|x [|y v]]; try discriminate L. inversion Hv as [|? k ? ks' Hx Hv']; subst. inversion Hv'; subst. cbn [sum_of_halves nth total fold_right]. rewrite Z.add_0_r. exact Hx.
  - cbn [sum_of_halves]. assert (L2 : (2 ^ S n = 2 ^ n + 2 ^ n)%nat) by (cbn [Nat.pow]; lia). assert (Lk : length ks = (2 ^ S n)%nat) by (rewrite <- L; clear - Hv; induction Hv as [|? ? ? ? _ _ IHv]; [reflexivity|cbn [length]; f_equal; exact IHv]).
    rewrite <- (firstn_skipn (2 ^ n) ks) in Hb |- *. rewrite map_app, total_app in Hb. rewrite total_app. pose proof (total_nonneg (firstn (2 ^ n) ks)). pose proof (total_nonneg (skipn (2 ^ n) ks)). pose proof (abs_total (firstn (2 ^ n) ks)). pose proof (abs_total (skipn (2 ^ n) ks)).
    assert (Hs : Forall2 scaled (firstn (2 ^ n) v) (firstn (2 ^ n) ks) /\ Forall2 scaled (skipn (2 ^ n) v) (skipn (2 ^ n) ks)).
    { clear - Hv. revert v ks Hv. induction (2 ^ n)%nat as [|m IHm]; intros v ks Hv; [split; [constructor|exact Hv]|]. inversion Hv as [|x k v' ks' Hx Hv']; subst; [split; constructor|]. cbn [firstn skipn]. destruct (IHm _ _ Hv') as [I1 I2]. split; [constructor; assumption|exact I2]. }
    destruct Hs as [Hs1 Hs2]. apply scaled_add; [apply IH; [exact Hs1|rewrite firstn_length; lia|lia]|apply IH; [exact Hs2|rewrite skipn_length; lia|lia]|lia].
Qed.
End Exact.

Lemma c69_sum_float_exact_partial : forall (c : config) (x : xsum) (s : fold_impl) (v : list Z) (j : Z),
  In x (x86_sum_float ieee_add) -> In s (x86_sum ++ unknown_sum) -> s_vec s = xs_vec x -> zlen v = WIDTH (xs_ty x) -> Forall (finite_lane (xs_el x)) v ->
  let value := fvalue (fmt_of (xs_el x)) in
  0 <= j <= 2 ^ f_e (fmt_of (xs_el x)) - 3 -> Forall (fun y => Z.divide (2 ^ j) (value y)) v ->
  total (map (fun y => Z.abs (value y)) v) < 2 ^ (f_m (fmt_of (xs_el x)) + 1) * 2 ^ j ->
  exists p q, sum_portable ieee_add c s v = Ok p /\ sum_optimized c x v = Ok q /\ finite_lane (xs_el x) p /\ finite_lane (xs_el x) q /\ value p = total (map value v) /\ value q = total (map value v).
Proof.
  intros c x s v j Hx Hs Hn L Hf value Hj Hd Hb. assert (E : xs_el x = EF32 \/ xs_el x = EF64) by (unfold x86_sum_float in Hx; cbn [In] in Hx; destruct Hx as [<-|[<-|[<-|[<-|[]]]]]; cbn; tauto).
  assert (FL : forall y, finite_lane (xs_el x) y <-> f_pattern (fmt_of (xs_el x)) y /\ is_finite (fmt_of (xs_el x)) y) by (intros y; destruct E as [E|E]; rewrite E; reflexivity).
  assert (V : int_vector (WIDTH (xs_ty x)) (lane_ity (xs_el x)) v) by (split; [exact L|]; eapply Forall_impl; [|exact Hf]; intros y Hy; apply FL in Hy; apply pattern_float; [exact E|apply Hy]).
  destruct (c69_sum_float_order ieee_add c x s v Hx Hs Hn V ieee_add_in) as (P1 & P2 & _ & _ & W). eexists. eexists. split; [exact P1|]. split; [exact P2|].
  set (g := 2 ^ j) in *. assert (Hg : 0 < g) by (apply Z.pow_pos_nonneg; lia). rewrite Z.pow_add_r, Z.pow_1_r in Hb by (try lia; destruct E as [E|E]; rewrite E; vm_compute; discriminate).
  set (ks := map (fun y => value y / g) v).
  assert (Sc : Forall2 (scaled (xs_el x) j) v ks /\ total (map value v) = total ks * g /\ total (map (fun y => Z.abs (value y)) v) = total (map Z.abs ks) * g).
  { subst ks. clear - Hf Hd FL Hg. induction v as [|y v IH]; [split; [constructor|split; reflexivity]|]. inversion Hf as [|? ? Hy Hf']; subst. inversion Hd as [|? ? Dy Hd']; subst. destruct (IH Hf' Hd') as (I1 & I2 & I3). destruct Dy as [k Dk]. assert (Ek : value y / g = k) by (rewrite Dk; apply Z.div_mul; lia). cbn [map total fold_right]. fold (total (map value v)). fold (total (map (fun y => Z.abs (value y)) v)). rewrite I2, I3, Ek.
    split; [constructor; [|exact I1]|]. { apply FL in Hy. split; [apply Hy|]. split; [apply Hy|]. exact Dk. } unfold total. rewrite Dk, Z.abs_mul, (Z.abs_eq g) by lia. split; ring. }
  destruct Sc as (S1 & S2 & S3). rewrite S3 in Hb. assert (Hb' : total (map Z.abs ks) < 2 * 2 ^ f_m (fmt_of (xs_el x))) by nia.
  assert (Z0 : scaled (xs_el x) j 0 0) by (split; [|split]; destruct E as [E|E]; rewrite E; try (split; vm_compute; [discriminate|reflexivity]); vm_compute; try reflexivity; discriminate).
  pose proof (scaled_fold (xs_el x) j Hj v ks 0 0 S1 Z0 ltac:(change (Z.abs 0) with 0; lia)) as (A1 & A2 & A3). rewrite Z.add_0_l in A3.
  assert (Ln : length v = (2 ^ Z.to_nat (Z.log2 (WIDTH (xs_ty x))))%nat) by (unfold zlen in L; cbn [In] in W; destruct W as [W|[W|[W|[]]]]; rewrite <- W in *; [change (Z.log2 2) with 1|change (Z.log2 4) with 2|change (Z.log2 8) with 3]; cbn [Z.to_nat Pos.to_nat Pos.iter_op Nat.add Nat.pow Nat.mul]; lia).
  pose proof (scaled_halves (xs_el x) j Hj _ v ks S1 Ln Hb') as (B1 & B2 & B3).
  split; [apply FL; split; assumption|]. split; [apply FL; split; assumption|]. fold g in A3, B3. rewrite S2. split; assumption.
Qed.

Lemma c69_sum_negative_zero_refuted : forall (c : config) (x : xsum) (s : fold_impl), In x (x86_sum_float ieee_add) -> In s (x86_sum ++ unknown_sum) -> s_vec s = xs_vec x ->
  let f := fmt_of (xs_el x) in let v := splat (WIDTH (xs_ty x)) (2 ^ (f_e f + f_m f)) in
  Forall (fun y => sign_bit f y = 1 /\ fvalue f y = 0) v /\
  sum_portable ieee_add c s v = Ok 0 /\ sum_optimized c x v = Ok (2 ^ (f_e f + f_m f)).
Proof.
  intros c x s Hx Hs Hn f v. assert (G : int_vector (WIDTH (xs_ty x)) (lane_ity (xs_el x)) v /\ Forall (fun y => sign_bit f y = 1 /\ fvalue f y = 0) v /\ fold_left (ieee_add (xs_el x)) v 0 = 0 /\ sum_of_halves (ieee_add (xs_el x)) (Z.to_nat (Z.log2 (WIDTH (xs_ty x)))) v = 2 ^ (f_e f + f_m f)).
  { subst f v. clear - Hx. unfold x86_sum_float in Hx. cbn [In] in Hx. destruct Hx as [<-|[<-|[<-|[<-|[]]]]]; cbn [xs_ty xs_el WIDTH]; (split; [split; [reflexivity|]|split; [|split; vm_compute; reflexivity]]; apply Forall_forall; intros y Hy; apply repeat_spec in Hy; subst y; split; vm_compute; congruence). }
  destruct G as (V & Z1 & F1 & F2). destruct (c69_sum_float_order ieee_add c x s v Hx Hs Hn V ieee_add_in) as (P1 & P2 & _). rewrite F1 in P1. rewrite F2 in P2. auto.
Qed.

Lemma c69_sum_rounding_refuted : forall (c : config) (x : xsum) (s : fold_impl), In x (x86_sum_float ieee_add) -> In s (x86_sum ++ unknown_sum) -> s_vec s = xs_vec x -> 4 <= WIDTH (xs_ty x) ->
  exists v p q, int_vector (WIDTH (xs_ty x)) (lane_ity (xs_el x)) v /\ Forall (finite_lane (xs_el x)) v /\
    sum_portable ieee_add c s v = Ok p /\ sum_optimized c x v = Ok q /\ finite_lane (xs_el x) p /\ finite_lane (xs_el x) q /\
    fvalue (fmt_of (xs_el x)) p < fvalue (fmt_of (xs_el x)) q /\ fvalue (fmt_of (xs_el x)) q = total (map (fvalue (fmt_of (xs_el x))) v).
Proof.
  intros c x s Hx Hs Hn H4. assert (G : exists v, int_vector (WIDTH (xs_ty x)) (lane_ity (xs_el x)) v /\ Forall (finite_lane (xs_el x)) v /\ let p := fold_left (ieee_add (xs_el x)) v 0 in let q := sum_of_halves (ieee_add (xs_el x)) (Z.to_nat (Z.log2 (WIDTH (xs_ty x)))) v in
    finite_lane (xs_el x) p /\ finite_lane (xs_el x) q /\ fvalue (fmt_of (xs_el x)) p < fvalue (fmt_of (xs_el x)) q /\ fvalue (fmt_of (xs_el x)) q = total (map (fvalue (fmt_of (xs_el x))) v)).
  { clear - Hx H4. assert (B32 : finite_lane EF32 1266679808 /\ finite_lane EF32 0 /\ finite_lane EF32 1065353216) by (repeat split; vm_compute; congruence). assert (B64 : finite_lane EF64 4845873199050653696 /\ finite_lane EF64 0 /\ finite_lane EF64 4607182418800017408) by (repeat split; vm_compute; congruence). destruct B32 as (X1 & X2 & X3). destruct B64 as (Y1 & Y2 & Y3).
    assert (I32 : forall y, finite_lane EF32 y -> in_ity u32 y) by (intros y Hy; apply (pattern_float EF32); [tauto|apply Hy]). assert (I64 : forall y, finite_lane EF64 y -> in_ity u64 y) by (intros y Hy; apply (pattern_float EF64); [tauto|apply Hy]).
    unfold x86_sum_float in Hx. cbn [In] in Hx. destruct Hx as [<-|[<-|[<-|[<-|[]]]]]; cbn [xs_ty xs_el WIDTH lane_ity] in *; [exists [1266679808; 0; 1065353216; 1065353216]|lia|exists [1266679808; 0; 1065353216; 1065353216; 0; 0; 0; 0]|exists [4845873199050653696; 0; 4607182418800017408; 4607182418800017408]];
      (split; [split; [reflexivity|repeat (apply Forall_cons; [auto|]); apply Forall_nil]|]; split; [repeat (apply Forall_cons; [assumption|]); apply Forall_nil|]; cbv zeta; split; [repeat split; vm_compute; congruence|]; split; [repeat split; vm_compute; congruence|]; split; vm_compute; reflexivity). }
  destruct G as (v & V & Fv & Fp & Fq & Lt & Ex). destruct (c69_sum_float_order ieee_add c x s v Hx Hs Hn V ieee_add_in) as (P1 & P2 & _). exists v. eexists. eexists. split; [exact V|]. split; [exact Fv|]. split; [exact P1|]. split; [exact P2|]. auto.
Qed.

(** ** Estimates *)

Definition estimate_entry (fn : string) (o : op_impl) : Prop :=
  idx_check o = true /\ (op_el o = EF32 \/ op_el o = EF64) /\ op_fn o = fn.

Lemma estimate_entries : Forall (estimate_entry "recip") (x86_recip ++ unknown_recip) /\ Forall (estimate_entry "rsqrt") (x86_rsqrt ++ unknown_rsqrt).
Proof. split; [unfold x86_recip, unknown_recip|unfold x86_rsqrt, unknown_rsqrt]; cbn [app]; split_table; (split; [vm_compute; reflexivity|]; split; [cbn [op_el]; tauto|reflexivity]). Qed.

Lemma estimate_portable_ok : forall o g a, idx_check o = true -> rust_estimate o = Some g -> zlen a = WIDTH (op_ty o) -> estimate_portable o a = Some (Ok (map g a)).
Proof.
  intros o g a Hi Hg Ha. unfold idx_check in Hi. apply andb_true_iff in Hi. destruct Hi as [Hw Hi]. apply list_dec_true in Hi.
  unfold estimate_portable. rewrite Hg. cbn [option_map]. rewrite Hi. f_equal. unfold zlen in *. apply (lanes1_seq (WIDTH (op_ty o)) g a _ [] a); try reflexivity; unfold zlen; lia.
Qed.

Lemma estimate_optimized_ok : forall rcp rsq (h : Z -> Z) o a, In o (x86_recip ++ x86_rsqrt) -> h = (if String.eqb (op_fn o) "recip" then rcp else rsq) -> (forall x, in_ity u32 x -> in_ity u32 (h x)) -> int_vector (WIDTH (op_ty o)) (lane_ity (op_el o)) a ->
  estimate_optimized rcp rsq o a = Some (map h a) /\ op_el o = EF32.
Proof.
  intros rcp rsq h o a Ho Hh Hr [_ Ha]. assert (G : op_el o = EF32 /\ exists i, find (fun i => String.eqb (i1_name i) (op_mm o) && strings_eqb (i1_args i) (op_args o)) (estimate_instrs rcp rsq) = Some i /\ Z.of_nat (i1_reg i) = WIDTH (op_ty o) * SIZE (op_ty o) /\ i1_ty i = u32 /\ i1_op i = h).
  { unfold x86_recip, x86_rsqrt in Ho. cbn [app In] in Ho. destruct Ho as [<-|[<-|[<-|[<-|[]]]]]; (split; [reflexivity|]; eexists; split; [cbv [find estimate_instrs String.eqb Ascii.eqb Bool.eqb strings_eqb i1_name i1_args op_mm op_args andb]; reflexivity|]; split; [vm_compute; reflexivity|]; split; [reflexivity|]; rewrite Hh; reflexivity). }
  destruct G as [E (i & F & R & T & O)]. split; [|exact E]. unfold estimate_optimized. rewrite F, (proj2 (Z.eqb_eq _ _) R). f_equal. rewrite E in *. cbn [lane_ity] in *. unfold exec1. rewrite T, O.
  rewrite (lanes_of_bytes_of u32 a) by (try exact Ha; cbn; lia). apply lanes_of_bytes_of; [cbn; lia|]. apply Forall_forall. intros y Hy. apply in_map_iff in Hy. destruct Hy as (x & <- & Hx). apply Hr. rewrite Forall_forall in Ha. apply Ha. exact Hx.
Qed.

Lemma c67_recip_portable : forall (o : op_impl) (a : list Z), In o (x86_recip ++ unknown_recip) -> int_vector (WIDTH (op_ty o)) (lane_ity (op_el o)) a ->
  let f := fmt_of (op_el o) in
  exists r, estimate_portable o a = Some (Ok r) /\ Forall2 (recip_estimate f) a r /\
    exists one, fvalue f one = fone f /\ Forall2 (quotient_result f one) a r.
Proof.
  intros o a Ho Ha f. destruct estimate_entries as [E _]. rewrite Forall_forall in E. destruct (E o Ho) as (E1 & E2 & E3). pose proof (fmt_of_ok (op_el o)) as Hk. fold f in Hk. destruct (one_ok f Hk) as (O1 & O2 & O3).
  eexists. split; [apply estimate_portable_ok; [exact E1|unfold rust_estimate; rewrite E3; reflexivity|apply Ha]|]. change (el_fmt (op_el o)) with f. assert (P : forall x, In x a -> f_pattern f x) by (intros x Hx; destruct Ha as [_ Ha]; rewrite Forall_forall in Ha; apply float_pattern; [exact E2|apply Ha; exact Hx]).
  split; [apply Forall2_map_r; intros x Hx; apply (proj2 (recip_ok f Hk (fraction_bits _) x (P x Hx)))|]. exists (f_one f). split; [exact O3|]. apply Forall2_map_r. intros x Hx. exact (proj2 (div_ok f Hk _ x O1 (P x Hx))).
Qed.

Lemma c67_recip_optimized : forall (rcp rsq : Z -> Z) (o : op_impl) (a : list Z), In o x86_recip ->
  (forall x, f_pattern fmt32 x -> f_pattern fmt32 (rcp x) /\ recip_estimate fmt32 x (rcp x)) ->
  int_vector (WIDTH (op_ty o)) (lane_ity (op_el o)) a ->
  exists r, estimate_optimized rcp rsq o a = Some r /\ op_el o = EF32 /\ Forall2 (recip_estimate fmt32) a r.
Proof.
  intros rcp rsq o a Ho Hr Ha. destruct estimate_entries as [E _]. rewrite Forall_forall in E. destruct (E o ltac:(apply in_or_app; left; exact Ho)) as (_ & _ & E3).
  destruct (estimate_optimized_ok rcp rsq rcp o a ltac:(apply in_or_app; left; exact Ho)) as [H1 H2]; [rewrite E3; reflexivity|intros x Hx; apply (pattern_float EF32); [tauto|exact (proj1 (Hr x (float_pattern EF32 x (or_introl eq_refl) Hx)))]|exact Ha|].
  eexists. split; [exact H1|]. split; [exact H2|]. apply Forall2_map_r. intros x Hx. apply (fun H => proj2 (Hr x (float_pattern EF32 x (or_introl eq_refl) H))). rewrite H2 in Ha. destruct Ha as [_ Ha]. rewrite Forall_forall in Ha. apply Ha. exact Hx.
Qed.

Lemma c67_recip_agree : forall (rcp rsq : Z -> Z) (o : op_impl) (a p q : list Z), In o x86_recip ->
  (forall x, f_pattern fmt32 x -> f_pattern fmt32 (rcp x) /\ recip_estimate fmt32 x (rcp x)) ->
  int_vector (WIDTH (op_ty o)) (lane_ity (op_el o)) a -> estimate_portable o a = Some (Ok p) -> estimate_optimized rcp rsq o a = Some q ->
  forall i x y z, znth a i = Some x -> znth p i = Some y -> znth q i = Some z ->
    is_finite fmt32 x -> 2 ^ f_m fmt32 <= Z.abs (fvalue fmt32 x) -> Z.abs (fvalue fmt32 x) * (2 * 2 ^ f_m fmt32) <= fone fmt32 * fone fmt32 ->
    8192 * Z.abs (fvalue fmt32 y - fvalue fmt32 z) * Z.abs (fvalue fmt32 x) <= 6 * (fone fmt32 * fone fmt32).
Proof.
  intros rcp rsq o a p q Ho Hr Ha Hp Hq i x y z Hx Hy Hz Fx Lo Hi. destruct (c67_recip_optimized rcp rsq o a Ho Hr Ha) as (r & R1 & R2 & R3). rewrite Hq in R1. injection R1 as <-.
  destruct (c67_recip_portable o a ltac:(apply in_or_app; left; exact Ho) Ha) as (r & S1 & S2 & _). rewrite Hp in S1. injection S1 as <-. rewrite R2 in S2. change (fmt_of EF32) with fmt32 in S2.
  assert (At : forall (R : Z -> Z -> Prop) u v, Forall2 R u v -> forall i s t, znth u i = Some s -> znth v i = Some t -> R s t).
  { clear. intros R u v H i s t Hs Ht. unfold znth in *. destruct (i <? 0); [discriminate|]. revert Hs Ht. generalize (Z.to_nat i). clear i. induction H as [|s' t' u v Hst H IH]; intros n Hs Ht; [destruct n; discriminate|]. destruct n as [|n]; cbn in *; [congruence|eauto]. }
  destruct (At _ _ _ S2 i x y Hx Hy) as (_ & _ & _ & T1). destruct (At _ _ _ R3 i x z Hx Hz) as (_ & _ & _ & T2). destruct (T1 Fx Lo Hi) as [_ U1]. destruct (T2 Fx Lo Hi) as [_ U2].
  rewrite <- Z.mul_assoc, <- Z.abs_mul, Z.mul_sub_distr_r. set (u := fone fmt32 * fone fmt32) in *. set (s := fvalue fmt32 y * fvalue fmt32 x) in *. set (t := fvalue fmt32 z * fvalue fmt32 x) in *. clearbody u s t. lia.
Qed.

Lemma rcp_satisfiable : forall x, f_pattern fmt32 x -> f_pattern fmt32 (f_recip fmt32 x) /\ recip_estimate fmt32 x (f_recip fmt32 x).
Proof. intros x Hx. apply recip_ok; [exact fmt32_ok|vm_compute; discriminate|exact Hx]. Qed.

Lemma c68_rsqrt_scalar : forall (e : elty) (x : Z), e = EF32 \/ e = EF64 -> in_ity (lane_ity e) x -> rsqrt_estimate (fmt_of e) x (f_rsqrt (fmt_of e) x).
Proof. intros e x He Hx. apply rsqrt_ok; [apply fmt_of_ok|apply fraction_bits|apply bias_bits|apply float_pattern; assumption]. Qed.

Lemma c68_rsqrt_portable : forall (o : op_impl) (a : list Z), In o (x86_rsqrt ++ unknown_rsqrt) -> int_vector (WIDTH (op_ty o)) (lane_ity (op_el o)) a ->
  exists r, estimate_portable o a = Some (Ok r) /\ Forall2 (rsqrt_estimate (fmt_of (op_el o))) a r.
Proof.
  intros o a Ho Ha. destruct estimate_entries as [_ E]. rewrite Forall_forall in E. destruct (E o Ho) as (E1 & E2 & E3).
  eexists. split; [apply estimate_portable_ok; [exact E1|unfold rust_estimate; rewrite E3; reflexivity|apply Ha]|]. change (el_fmt (op_el o)) with (fmt_of (op_el o)). apply Forall2_map_r. intros x Hx. apply c68_rsqrt_scalar; [exact E2|]. destruct Ha as [_ Ha]. rewrite Forall_forall in Ha. apply Ha. exact Hx.
Qed.

Lemma c68_rsqrt_optimized : forall (rcp rsq : Z -> Z) (o : op_impl) (a : list Z), In o x86_rsqrt ->
  (forall x, f_pattern fmt32 x -> f_pattern fmt32 (rsq x) /\ rsqrt_estimate fmt32 x (rsq x)) ->
  int_vector (WIDTH (op_ty o)) (lane_ity (op_el o)) a ->
  exists r, estimate_optimized rcp rsq o a = Some r /\ op_el o = EF32 /\ Forall2 (rsqrt_estimate fmt32) a r.
Proof.
  intros rcp rsq o a Ho Hr Ha. destruct estimate_entries as [_ E]. rewrite Forall_forall in E. destruct (E o ltac:(apply in_or_app; left; exact Ho)) as (_ & _ & E3).
  destruct (estimate_optimized_ok rcp rsq rsq o a ltac:(apply in_or_app; right; exact Ho)) as [H1 H2]; [rewrite E3; reflexivity|intros x Hx; apply (pattern_float EF32); [tauto|exact (proj1 (Hr x (float_pattern EF32 x (or_introl eq_refl) Hx)))]|exact Ha|].
  eexists. split; [exact H1|]. split; [exact H2|]. apply Forall2_map_r. intros x Hx. apply (fun H => proj2 (Hr x (float_pattern EF32 x (or_introl eq_refl) H))). rewrite H2 in Ha. destruct Ha as [_ Ha]. rewrite Forall_forall in Ha. apply Ha. exact Hx.
Qed.

Lemma rsq_satisfiable : forall x, f_pattern fmt32 x -> f_pattern fmt32 (f_rsqrt fmt32 x) /\ rsqrt_estimate fmt32 x (f_rsqrt fmt32 x).
Proof. intros x Hx. apply rsqrt_ok; [exact fmt32_ok|vm_compute; discriminate|vm_compute; discriminate|exact Hx]. Qed.
