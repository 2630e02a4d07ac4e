(** Proofs of the properties: sums of slices of floats on every target (C86). *)
From Coq Require Import String.
From Verif Require Import Base Spec VecSpec Vecs Iters GateTables GateSpec Gates Lanes Floats FloatSpec Arith ArithSpec OpTables Ops OpSpec PortTables Ports PortSpec SumTables Sums SumSpec Builds AvailSpec ExprSpec Exprs FloatSumSpec.
Open Scope list_scope.
Open Scope Z_scope.
From Coq Require Import Lia ZifyBool ZifyNat.
From Verif Require Import Spec X86 ListFacts VecFacts VecProofs FloatFacts ArithFacts IterProofs SumProofs ArithProofs BuildProofs PipeProofs ExprProofs ReduceFacts OpProofs RoundProofs.
Ltac Zify.zify_post_hook ::= Z.div_mod_to_equations.

Section Half.
Variable f : ffmt.
Hypothesis Hok : fmt_ok f.
Local Notation M := (2 ^ f_m f).
Local Notation E := (2 ^ f_e f).

Lemma abs_sg : forall v, v = sg (v <? 0) * Z.abs v.
Proof. intros v. unfold sg. destruct (v <? 0) eqn:C; lia. Qed.

Lemma absval_abs : forall z, f_pattern f z -> absval f z = Z.abs (fvalue f z).
Proof. intros z Hz. rewrite (value_sg f Hok z Hz). pose proof (absval_nonneg f Hok z Hz). unfold sg. destruct (f_sign f z); lia. Qed.

Lemma nearest_half : forall v z, Z.abs v < M * 2 ^ (E - 2) -> nearest_to f v 1 z -> 2 * M * Z.abs (fvalue f z - v) <= Z.abs v.
Proof.
  intros v z Hv (Z1 & Z2 & N). pose proof (M_pos f Hok) as HM. pose proof (E_pos f Hok) as HE. set (s := v <? 0). set (a := Z.abs v) in *. assert (Ha : 0 <= a) by lia. assert (Va : v = sg s * a) by apply abs_sg. clearbody s a.
  destruct (Z_lt_le_dec a M) as [Hlt|Hge].
  - destruct (representable f Hok s 0 a) as (y & Y1 & Y2 & Y3); [lia|lia|]. destruct (N y Y1 Y2) as [D _]. cbv zeta in D. rewrite Z.pow_0_r, Z.mul_1_r in Y3. rewrite Y3, <- Va in D. assert (Z.abs (fvalue f z - v) = 0) by lia. rewrite H. lia.
  - destruct (scale f Hok a Ha) as (k & n & K1 & K2 & K3 & K4 & K5). assert (Hn : M <= n) by (apply K5; exact Hge). assert (P2 : 0 < 2 ^ k) by (apply Z.pow_pos_nonneg; lia).
    assert (Hkf : k <= E - 3) by (apply (fits f Hok k n); [exact K1|exact Hn|lia]).
    destruct (pattern_value f Hok s k n K1) as (Y1 & Y2 & Y3 & Y4 & Y5 & _); [lia|exact K4|rewrite (inf_eq f); clear -Hkf K3 HM; nia|].
    destruct (pattern_value f Hok s k (n + 1) K1) as (X1 & X2 & X3 & X4 & X5 & _); [lia|right; lia|rewrite (inf_eq f); clear -Hkf K3 HM; nia|].
    destruct (N _ Y1 Y2) as [N1 _]. destruct (N _ X1 X2) as [N2 _]. cbv zeta in N1, N2. rewrite (value_sg f Hok _ Y1), Y3, Y5 in N1. rewrite (value_sg f Hok _ X1), X3, X5 in N2.
    rewrite !Z.mul_1_r in N1, N2. set (dz := Z.abs (fvalue f z - v)) in *. clearbody dz. subst v. set (h := 2 ^ k) in *. clearbody h. assert (D1 : dz <= a - n * h) by (clear -N1 K2; unfold sg in N1; destruct s; lia). assert (D2 : dz <= (n + 1) * h - a) by (clear -N2 K2; unfold sg in N2; destruct s; lia).
    assert (D3 : 2 * dz <= h) by (clear -D1 D2; lia). assert (D4 : M * h <= a) by (clear -Hn K2 P2; nia). clear -D3 D4 HM. nia.
Qed.

Lemma add_half : forall x y, f_pattern f x -> f_pattern f y -> is_finite f x -> is_finite f y -> Z.abs (fvalue f x + fvalue f y) < M * 2 ^ (E - 2) ->
  let z := f_add f x y in f_pattern f z /\ 2 * M * Z.abs (fvalue f z - (fvalue f x + fvalue f y)) <= Z.abs (fvalue f x + fvalue f y) /\ (Z.abs (fvalue f z) < M * 2 ^ (E - 2) -> is_finite f z).
Proof.
  intros x y Hx Hy Fx Fy Hs z. destruct (add_ok f Hok x y Hx Hy) as (P & _ & _ & _ & _ & S5). destruct (S5 Fx Fy) as [N _]. fold z in P, N. split; [exact P|]. split; [apply nearest_half; assumption|].
  intros L. apply (finite_small f Hok z P (proj1 (proj2 N))). rewrite absval_abs by exact P. exact L.
Qed.
End Half.

Lemma abs_nonneg : forall (val : Z -> Z) v, 0 <= total (map (fun x => Z.abs (val x)) v).
Proof. intros val. induction v as [|x v IH]; [reflexivity|]. cbn [map total fold_right]. fold (total (map (fun x => Z.abs (val x)) v)). lia. Qed.

(** Sums by any relation between a float, the exact sum it stands for, the sum of the
    magnitudes and the number of roundings. *)

Section Accumulate.
Variable R : nat -> Z -> Z -> Z -> Prop.
Variable add : Z -> Z -> Z.
Variable D : nat.
Variable Bmax : Z.
Hypothesis R_add : forall d x y a1 b1 a2 b2, (d < D)%nat -> b1 + b2 <= Bmax -> R d x a1 b1 -> R d y a2 b2 -> R (S d) (add x y) (a1 + a2) (b1 + b2).
Hypothesis R_mono : forall d x a b, R d x a b -> R (S d) x a b.
Hypothesis R_nonneg : forall d x a b, R d x a b -> 0 <= b.

Definition rel_vec (d : nat) (v : list Z) (ks : list (Z * Z)) : Prop := Forall2 (fun x k => R d x (fst k) (snd k)) v ks.
Definition sum_a (ks : list (Z * Z)) : Z := total (map fst ks).
Definition sum_b (ks : list (Z * Z)) : Z := total (map snd ks).
Definition plus2 (p q : Z * Z) : Z * Z := (fst p + fst q, snd p + snd q).

Lemma sum_b_nonneg : forall d v ks, rel_vec d v ks -> 0 <= sum_b ks.
Proof. intros d v ks H. induction H as [|x k v ks Hx H IH]; [unfold sum_b; cbn; lia|]. unfold sum_b in *. cbn [map total fold_right]. fold (total (map snd ks)). pose proof (R_nonneg _ _ _ _ Hx). lia. Qed.

Lemma R_more : forall n d x a b, R d x a b -> R (d + n) x a b.
Proof. induction n as [|n IH]; intros d x a b H; [rewrite Nat.add_0_r; exact H|]. rewrite Nat.add_succ_r. apply R_mono. apply IH. exact H. Qed.

Lemma rel_more : forall n d v ks, rel_vec d v ks -> rel_vec (d + n) v ks.
Proof. intros n d v ks H. induction H as [|x k v ks Hx H IH]; constructor; [apply R_more; exact Hx|exact IH]. Qed.

Lemma rel_add : forall d u ks, rel_vec d u ks -> (d < D)%nat -> forall v js, rel_vec d v js -> length u = length v -> sum_b ks + sum_b js <= Bmax ->
  rel_vec (S d) (map2 add u v) (map2 plus2 ks js) /\ sum_a (map2 plus2 ks js) = sum_a ks + sum_a js /\ sum_b (map2 plus2 ks js) = sum_b ks + sum_b js.
Proof.
  intros d u ks H Hd. induction H as [|x k u ks Hx H IH]; intros v js Hv L Hb; destruct Hv as [|y j v js Hy Hv]; try discriminate L; [split; [constructor|split; reflexivity]|].
  unfold sum_a, sum_b in *. cbn [map map2 total fold_right] in *. fold (total (map fst ks)) (total (map snd ks)) (total (map fst js)) (total (map snd js)) (total (map snd (map2 plus2 ks js))) (total (map fst (map2 plus2 ks js))) in *.
  pose proof (R_nonneg _ _ _ _ Hx). pose proof (R_nonneg _ _ _ _ Hy). pose proof (sum_b_nonneg _ _ _ H) as S1. pose proof (sum_b_nonneg _ _ _ Hv) as S2. unfold sum_b in S1, S2.
  destruct (IH v js Hv) as (I1 & I2 & I3); [cbn in L; lia|lia|]. split; [constructor; [|exact I1]|cbn [plus2 fst snd]; lia]. cbn [plus2 fst snd]. apply R_add; [exact Hd|lia|exact Hx|exact Hy].
Qed.

Lemma rel_len : forall d v ks, rel_vec d v ks -> length v = length ks.
Proof. intros d v ks H. induction H; cbn; congruence. Qed.

Section Base.
Variable val : Z -> Z.
Variable good : Z -> Prop.
Hypothesis R_base : forall x, good x -> R 0 x (val x) (Z.abs (val x)).
Definition base (v : list Z) : list (Z * Z) := map (fun x => (val x, Z.abs (val x))) v.

Lemma rel_base : forall v, Forall good v -> rel_vec 0 v (base v).
Proof. intros v H. induction H; constructor; [apply R_base; assumption|assumption]. Qed.

Lemma sum_base : forall v, sum_a (base v) = total (map val v) /\ sum_b (base v) = total (map (fun x => Z.abs (val x)) v).
Proof. intros v. unfold sum_a, sum_b, base. rewrite !map_map. split; reflexivity. Qed.

Lemma fold_vectors : forall w args d acc ks, rel_vec d acc ks -> length acc = w -> Forall (fun v => length v = w /\ Forall good v) args -> (d + length args <= D)%nat ->
  sum_b ks + total (map (fun x => Z.abs (val x)) (concat args)) <= Bmax ->
  exists js, rel_vec (d + length args) (fold_left (map2 add) args acc) js /\ length (fold_left (map2 add) args acc) = w /\
    sum_a js = sum_a ks + total (map val (concat args)) /\ sum_b js = sum_b ks + total (map (fun x => Z.abs (val x)) (concat args)).
Proof.
  intros w. induction args as [|v args IH]; intros d acc ks H Hl Ha Hd Hb; cbn [fold_left concat length].
  - exists ks. rewrite Nat.add_0_r. cbn. split; [exact H|]. split; [exact Hl|]. split; lia.
  - inversion Ha as [|? ? [Lv Gv] Ha']; subst. cbn [concat length] in *. rewrite !map_app, !total_app in *. pose proof (sum_base v) as [B1 B2]. pose proof (abs_nonneg val (concat args)).
    assert (Hv : rel_vec d v (base v)) by (apply (rel_more d 0); apply rel_base; exact Gv).
    destruct (rel_add d acc ks H ltac:(lia) v (base v) Hv ltac:(congruence) ltac:(rewrite B2; lia)) as (S1 & S2 & S3).
    destruct (IH (S d) (map2 add acc v) (map2 plus2 ks (base v)) S1) as (js & J1 & J2 & J3 & J4).
    + rewrite map2_length by congruence. reflexivity.
    + exact Ha'.
    + lia.
    + rewrite S3, B2. lia.
    + exists js. rewrite Nat.add_succ_r. split; [exact J1|]. split; [exact J2|]. rewrite J3, J4, S2, S3, B1, B2. lia.
Qed.
End Base.

Lemma fold_lanes : forall v ks d x a b, rel_vec d v ks -> R d x a b -> (d + length v <= D)%nat -> b + sum_b ks <= Bmax -> R (d + length v) (fold_left add v x) (a + sum_a ks) (b + sum_b ks).
Proof.
  induction v as [|y v IH]; intros ks d x a b Hv Hx Hd Hb; inversion Hv as [|? k ? ks' Hy Hv']; subst; cbn [fold_left length].
  - unfold sum_a, sum_b. cbn. rewrite Nat.add_0_r, !Z.add_0_r. exact Hx.
  - unfold sum_a, sum_b in *. cbn [map total fold_right length] in *. fold (total (map fst ks')) (total (map snd ks')) in *. pose proof (sum_b_nonneg _ _ _ Hv') as S2. unfold sum_b in S2.
    rewrite !Z.add_assoc, Nat.add_succ_r. apply (IH ks' (S d)); [apply (rel_more 1) in Hv'; rewrite Nat.add_1_r in Hv'; exact Hv'|apply R_add; [lia|lia|exact Hx|exact Hy]|lia|lia].
Qed.

Lemma rel_split : forall n d v ks, rel_vec d v ks -> rel_vec d (firstn n v) (firstn n ks) /\ rel_vec d (skipn n v) (skipn n ks).
Proof. induction n as [|n IH]; intros d v ks H; [split; [constructor|exact H]|]. destruct H as [|x k v ks Hx H]; [split; constructor|]. cbn [firstn skipn]. destruct (IH _ _ _ H) as [I1 I2]. split; [constructor; assumption|exact I2]. Qed.

Lemma sum_split : forall n ks, sum_a ks = sum_a (firstn n ks) + sum_a (skipn n ks) /\ sum_b ks = sum_b (firstn n ks) + sum_b (skipn n ks).
Proof. intros n ks. unfold sum_a, sum_b. rewrite <- !total_app, <- !map_app, firstn_skipn. split; reflexivity. Qed.

Lemma halves_lanes : forall n d v ks, rel_vec d v ks -> length v = (2 ^ n)%nat -> (d + n <= D)%nat -> sum_b ks <= Bmax -> R (d + n) (sum_of_halves add n v) (sum_a ks) (sum_b ks).
Proof.
  induction n as [|n IH]; intros d v ks Hv L Hd Hb.
  - destruct v as [|x [|y v]]; try discriminate L. inversion Hv as [|? k ? ks' Hx Hv']; subst. inversion Hv'; subst. unfold sum_a, sum_b. cbn. rewrite Nat.add_0_r, !Z.add_0_r. exact Hx.
  - cbn [sum_of_halves]. assert (L2 : (2 ^ S n = 2 ^ n + 2 ^ n)%nat) by (cbn [Nat.pow]; lia). destruct (rel_split (2 ^ n) d v ks Hv) as [Hs1 Hs2]. destruct (sum_split (2 ^ n) ks) as [A B]. pose proof (sum_b_nonneg _ _ _ Hs1). pose proof (sum_b_nonneg _ _ _ Hs2).
    rewrite A, B, Nat.add_succ_r. apply R_add; [lia|lia|apply IH; [exact Hs1|rewrite firstn_length; lia|lia|lia]|apply IH; [exact Hs2|rewrite skipn_length; lia|lia|lia]].
Qed.
End Accumulate.

Lemma total_const : forall (g : Z -> Z) n m, g 0 = 0 -> total (map g (firstn n (repeat 0 m))) = 0.
Proof. intros g n. induction n as [|n IH]; intros m H; [reflexivity|]. destruct m as [|m]; [reflexivity|]. cbn [repeat firstn map total fold_right]. fold (total (map g (firstn n (repeat 0 m)))). rewrite IH, H by exact H. reflexivity. Qed.

Lemma Forall_firstn : forall (A : Type) (P : A -> Prop) n l, Forall P l -> Forall P (firstn n l).
Proof. intros A P n. induction n as [|n IH]; intros l H; [constructor|]. destruct H as [|x l Hx H]; constructor; [exact Hx|apply IH; exact H]. Qed.

Lemma float_columns : forall fadd, forallb (fun e => forallb (fun b => negb (is_fl e) || existsb (fun x => String.eqb (xs_vec x) (vector_name (scalar_of e) b) && elty_eqb (xs_el x) e &&
  vty_eqb (xs_ty x) (mkVty (b / (bits_of e / 8)) (bits_of e / 8)) && existsb (fun p => String.eqb (s_vec p) (xs_vec x) && elty_eqb (s_el p) e) x86_sum) (x86_sum_float fadd)) [16; 32]) primitives = true.
Proof. intros fadd. vm_compute. reflexivity. Qed.

Lemma float_line : forall fs fadd e, In e primitives -> is_fl e = true -> exists p x, In p x86_sum /\ In x (x86_sum_float fadd) /\ s_el p = e /\
  s_vec p = vector_name (scalar_of e) (register fs) /\ xs_vec x = s_vec p /\ xs_el x = e /\ WIDTH (xs_ty x) = register fs / (bits_of e / 8).
Proof.
  intros fs fadd e H Hd. pose proof (proj1 (forallb_forall _ _) (float_columns fadd) e H) as K. cbv beta in K.
  pose proof (proj1 (forallb_forall _ _) K (register fs) (register_in fs)) as K2. cbv beta in K2. rewrite Hd in K2. cbn [orb negb] in K2. apply existsb_exists in K2. destruct K2 as (x & Hx & K2).
  rewrite !andb_true_iff in K2. destruct K2 as [ [ [K2 K3] K4] K5]. apply existsb_exists in K5. destruct K5 as (p & Hp & K5). rewrite andb_true_iff in K5. destruct K5 as [K5 K6].
  apply String.eqb_eq in K2. apply String.eqb_eq in K5. apply elty_eqb_eq in K3. apply elty_eqb_eq in K6. apply vty_eqb_eq in K4. exists p, x. rewrite K4. repeat split; try assumption; congruence.
Qed.

Lemma sum_in_float : forall fs fadd c e v, In e primitives -> is_fl e = true -> int_vector (register fs / (bits_of e / 8)) (lane_ity e) v ->
  (forall e a b, e = EF32 \/ e = EF64 -> in_ity (lane_ity e) a -> in_ity (lane_ity e) b -> in_ity (lane_ity e) (fadd e a b)) ->
  exists n, (length v = 2 ^ n)%nat /\ (sum_in fs fadd c (vector_name (scalar_of e) (register fs)) v = Some (Ok (fold_left (fadd e) v 0)) \/
    sum_in fs fadd c (vector_name (scalar_of e) (register fs)) v = Some (Ok (sum_of_halves (fadd e) n v))).
Proof.
  intros fs fadd c e v He Hf Hv Hin. destruct (float_line fs fadd e He Hf) as (p & x & P1 & P2 & P3 & P4 & P5 & P6 & P7). rewrite <- P4.
  pose proof (in_or_app x86_sum unknown_sum p (or_introl P1)) as Pp.
  destruct (c69_sum_float_order fadd c x p v P2 Pp (eq_sym P5)) as (Q1 & _ & _ & _ & W); [rewrite P7, P6; exact Hv|exact Hin|]. rewrite P6 in Q1. rewrite P7 in W.
  exists (Z.to_nat (Z.log2 (register fs / (bits_of e / 8)))). split.
  { destruct Hv as [L _]. unfold zlen in L. cbn [In] in W. destruct W as [W|[W|[W|[]]]]; rewrite <- W in *; [change (Z.log2 2) with 1|change (Z.log2 4) with 2|change (Z.log2 8) with 3]; cbn [Z.to_nat Pos.to_nat Pos.iter_op Nat.add Nat.pow Nat.mul]; lia. }
  destruct (sum_coherent fadd) as [C _]. unfold sum_in, fold_in.
  destruct (present_one _ _ _ _ _ _ _ _ (x86_sum_optimized ++ x86_sum_float fadd) x86_sum fs p C P1) as [E|(y & Hy & K & S & _ & E)]; cbv beta in E; rewrite E; cbn [run_one].
  - left. rewrite Q1. reflexivity.
  - right. injection S as S1 S2. injection K as K. apply in_app_or in Hy. destruct Hy as [Hy|Hy].
    + exfalso. assert (G : forallb (fun x => negb (is_fl (xs_el x))) x86_sum_optimized = true) by (vm_compute; reflexivity). pose proof (proj1 (forallb_forall _ _) G y Hy) as G2. cbv beta in G2. rewrite S2, P3, Hf in G2. discriminate.
    + assert (Wy : WIDTH (xs_ty y) = WIDTH (xs_ty x)).
      { assert (G : forallb (fun y => forallb (fun x => negb (String.eqb (xs_vec y) (xs_vec x)) || (WIDTH (xs_ty y) =? WIDTH (xs_ty x))) (x86_sum_float fadd)) (x86_sum_float fadd) = true) by (vm_compute; reflexivity). pose proof (proj1 (forallb_forall _ _) G y Hy) as G2. cbv beta in G2. pose proof (proj1 (forallb_forall _ _) G2 x P2) as G3. cbv beta in G3. rewrite K, P5, String.eqb_refl in G3. cbn [negb orb] in G3. apply Z.eqb_eq in G3. exact G3. }
      assert (Ey : xs_el y = e) by congruence.
      destruct (c69_sum_float_order fadd c y p v Hy Pp (eq_sym K)) as (_ & Q2 & _); [rewrite Wy, P7, Ey; exact Hv|exact Hin|]. rewrite Q2, Ey, Wy, P7. reflexivity.
Qed.

Lemma float_sum : forall (R : nat -> Z -> Z -> Z -> Prop) (D : nat) (Bmax : Z) (val : Z -> Z) (good : Z -> Prop) (e : elty) (fs : features) (c : config) (l : list Z) (l0 : packed_line) (fuel : nat),
  (forall d x y a1 b1 a2 b2, (d < D)%nat -> b1 + b2 <= Bmax -> R d x a1 b1 -> R d y a2 b2 -> R (S d) (ieee_add e x y) (a1 + a2) (b1 + b2)) ->
  (forall d x a b, R d x a b -> R (S d) x a b) -> (forall d x a b, R d x a b -> 0 <= b) -> (forall d x a b, R d x a b -> in_ity (lane_ity e) x) ->
  (forall x, good x -> R 0%nat x (val x) (Z.abs (val x))) -> good 0 -> val 0 = 0 ->
  target fs -> In e primitives -> is_fl e = true -> natural fs (el_name e ++ "s") = [l0] -> zlen l * p_size l0 <= isize_max -> (length l < fuel)%nat ->
  Forall good l -> (zlen l + p_width l0 - 1) / p_width l0 + p_width l0 <= Z.of_nat D -> total (map (fun x => Z.abs (val x)) l) <= Bmax ->
  let zero := splat (p_width l0) 0 in
  exists acc s' r, simd_reduce (slice_iterator c (vty_of l0)) fuel (simd_iter l zero) zero (fun a v => map2 (ieee_add e) a v) = Ok (acc, s') /\
    sum_in fs ieee_add c (p_vec l0) acc = Some (Ok r) /\ R D r (total (map val l)) (total (map (fun x => Z.abs (val x)) l)).
Proof.
  intros R D Bmax val good e fs c l l0 fuel Radd Rmono Rnn Rin Rbase G0 V0 T H0 Hfl N0 Cap Hfu Hl HD HB zero.
  destruct (natural_vty fs _ l0 T H0 N0) as (Vt & W0 & S0 & _). destruct (natural_line fs _ T H0) as (m & M & _ & Vn & _ & _). rewrite N0 in M. injection M as <-.
  pose proof (vty_ok_facts _ Vt) as (H1 & _). pose proof (zlen_nonneg l). set (w := p_width l0) in *. change (WIDTH (vty_of l0)) with w in *.
  assert (Hz : zlen zero = w) by (unfold zero, splat; rewrite zlen_repeat; lia).
  destruct (c06_reduce Z (list Z) c (vty_of l0) l zero 0 zero (fun a v => map2 (ieee_add e) a v) fuel Vt Cap Hz ltac:(lia) ltac:(lia) Hfu) as (vs & rest & [Hc1 Hc2] & Hr & Ha & Hred & _).
  cbn [Z.to_nat skipn] in Hc2. change (WIDTH (vty_of l0)) with w in *. rewrite Z.sub_0_r in Ha.
  match type of Hred with context [fold_left _ ?A _] => set (args := A) in * end. set (acc := fold_left _ args zero) in *.
  assert (Gz : Forall good zero) by (unfold zero, splat; apply Forall_forall; intros x Hx; apply repeat_spec in Hx; subst x; exact G0).
  assert (Tz : forall g : Z -> Z, g 0 = 0 -> total (map g zero) = 0) by (intros g Hg; unfold zero, splat; rewrite <- (firstn_all (repeat 0 (Z.to_nat w))); apply total_const; exact Hg).
  assert (Ta : forall g : Z -> Z, g 0 = 0 -> total (map g (concat args)) = total (map g l)).
  { intros g Hg. unfold args. rewrite concat_app, map_app, total_app, <- Hc2, map_app, total_app. f_equal. destruct rest as [|x r]; [reflexivity|]. cbn [concat]. rewrite app_nil_r. unfold right_aligned. rewrite map_app, total_app. unfold zero, splat. rewrite total_const by exact Hg. reflexivity. }
  assert (Hga : Forall (fun v => length v = Z.to_nat w /\ Forall good v) args).
  { assert (Hl2 : Forall good (concat vs ++ rest)) by (rewrite Hc2; exact Hl). apply Forall_app in Hl2. destruct Hl2 as [L1 L2]. unfold args. apply Forall_app. split.
    - clear -Hc1 L1. induction vs as [|v vs IH]; [constructor|]. cbn [concat] in L1. apply Forall_app in L1. destruct L1 as [A B]. pose proof (Forall_inv Hc1) as C. cbv beta in C. constructor; [split; [unfold zlen in C; clear -C; lia|exact A]|apply IH; [exact (Forall_inv_tail Hc1)|exact B]].
    - destruct rest as [|x r]; constructor; [|constructor]. split; [pose proof (right_aligned_len zero (x :: r) ltac:(lia)) as Q; rewrite Hz in Q; unfold zlen in Q; lia|]. unfold right_aligned. apply Forall_app. split; [apply Forall_firstn; exact Gz|exact L2]. }
  assert (Ba : val 0 = 0 -> Z.abs (val 0) = 0) by (intros ->; reflexivity).
  assert (L0 : length zero = Z.to_nat w) by (unfold zlen in Hz; lia).
  assert (La : Z.of_nat (length args) = (zlen l + w - 1) / w) by exact Ha.
  destruct (sum_base val zero) as [B1 B2]. rewrite (Tz val V0) in B1. rewrite (Tz (fun x => Z.abs (val x)) (Ba V0)) in B2.
  destruct (fold_vectors R (ieee_add e) D Bmax Radd Rmono Rnn val good Rbase (Z.to_nat w) args 0 zero (base val zero)) as (js & J1 & J2 & J3 & J4).
  - apply (rel_base R val good Rbase). exact Gz.
  - exact L0.
  - exact Hga.
  - lia.
  - rewrite B2, (Ta (fun x => Z.abs (val x)) (Ba V0)). lia.
  - change (fold_left (map2 (ieee_add e)) args zero) with acc in *. rewrite (Ta val V0), B1 in J3. rewrite (Ta (fun x => Z.abs (val x)) (Ba V0)), B2 in J4. rewrite Z.add_0_l in J3, J4. cbn [Nat.add] in J1.
    assert (Va : int_vector (register fs / (bits_of e / 8)) (lane_ity e) acc).
    { rewrite <- W0. split; [unfold zlen; lia|]. clear -J1 Rin. induction J1 as [|x k v ks Hx H IH]; constructor; [exact (Rin _ _ _ _ Hx)|exact IH]. }
    destruct (sum_in_float fs ieee_add c e acc H0 Hfl Va ieee_add_in) as (n & Ln & [Q|Q]); rewrite <- Vn in Q.
    + exists acc. eexists. eexists. split; [exact Hred|]. split; [exact Q|].
      assert (Z0 : R (length args) 0 0 0) by (pose proof (R_more R Rmono (length args) 0%nat 0 _ _ (Rbase 0 G0)) as Z1; rewrite V0 in Z1; exact Z1).
      pose proof (fold_lanes R (ieee_add e) D Bmax Radd Rmono Rnn acc js (length args) 0 0 0 J1 Z0 ltac:(lia) ltac:(lia)) as F. rewrite !Z.add_0_l, J3, J4 in F.
      replace D with ((length args + length acc) + (D - (length args + length acc)))%nat by lia. apply (R_more R Rmono). exact F.
    + exists acc. eexists. eexists. split; [exact Hred|]. split; [exact Q|]. assert (Hn : (n < 2 ^ n)%nat) by (apply Nat.pow_gt_lin_r; lia).
      pose proof (halves_lanes R (ieee_add e) D Bmax Radd Rmono Rnn n (length args) acc js J1 Ln ltac:(lia) ltac:(lia)) as F. rewrite J3, J4 in F.
      replace D with ((length args + n) + (D - (length args + n)))%nat by lia. apply (R_more R Rmono). exact F.
Qed.

Lemma float_prims : forall e, e = EF32 \/ e = EF64 -> In e primitives /\ is_fl e = true.
Proof. intros e [-> | ->]; (split; [vm_compute; tauto|reflexivity]). Qed.

Lemma finite_parts : forall e x, e = EF32 \/ e = EF64 -> (finite_lane e x <-> f_pattern (fmt_of e) x /\ is_finite (fmt_of e) x).
Proof. intros e x [-> | ->]; reflexivity. Qed.

Lemma zero_float : forall e, e = EF32 \/ e = EF64 -> finite_lane e 0 /\ fvalue (fmt_of e) 0 = 0.
Proof. intros e [-> | ->]; (split; [split; [split; vm_compute; [discriminate|reflexivity]|vm_compute; discriminate]|vm_compute; reflexivity]). Qed.

(** ** Exact sums *)

Definition exactly (e : elty) (j : Z) (d : nat) (x a b : Z) : Prop := exists k, scaled e j x k /\ a = k * 2 ^ j /\ Z.abs k * 2 ^ j <= b /\ 0 <= b.

Lemma c86_sum_exact : forall (fs : features) (c : config) (e : elty) (l : list Z) (l0 : packed_line) (fuel : nat) (j : Z),
  let f := fmt_of e in let zero := splat (p_width l0) 0 in
  target fs -> e = EF32 \/ e = EF64 -> natural fs (el_name e ++ "s") = [l0] -> zlen l * p_size l0 <= isize_max -> (length l < fuel)%nat ->
  Forall (finite_lane e) l -> 0 <= j <= 2 ^ f_e f - 3 -> Forall (fun x => (2 ^ j | fvalue f x)) l -> magnitudes f l < 2 ^ (f_m f + 1 + j) ->
  exists acc s' r, simd_reduce (slice_iterator c (vty_of l0)) fuel (simd_iter l zero) zero (fun a v => map2 (ieee_add e) a v) = Ok (acc, s') /\
    sum_in fs ieee_add c (p_vec l0) acc = Some (Ok r) /\ finite_lane e r /\ fvalue f r = exact_sum f l.
Proof.
  intros fs c e l l0 fuel j f zero T He N0 Cap Hfu Hl Hj Hd Hm. destruct (float_prims e He) as [H0 Hfl]. destruct (zero_float e He) as [Z1 Z2]. assert (Hg : 0 < 2 ^ j) by (apply Z.pow_pos_nonneg; lia).
  assert (Hm2 : magnitudes f l < 2 * 2 ^ f_m f * 2 ^ j) by (rewrite !Z.pow_add_r, Z.pow_1_r in Hm by (try lia; destruct He as [He|He]; unfold f; rewrite He; vm_compute; discriminate); lia).
  set (D := Z.to_nat ((zlen l + p_width l0 - 1) / p_width l0 + p_width l0)).
  destruct (float_sum (exactly e j) D (magnitudes f l) (fvalue f) (fun x => finite_lane e x /\ (2 ^ j | fvalue f x)) e fs c l l0 fuel) as (acc & s' & r & R1 & R2 & (k & (K1 & K2 & K3) & K4 & _)).
  - intros d x y a1 b1 a2 b2 _ Hb (k1 & S1 & A1 & B1 & C1) (k2 & S2 & A2 & B2 & C2). exists (k1 + k2). assert (Hk : Z.abs (k1 + k2) * 2 ^ j <= b1 + b2) by (clear -B1 B2 Hg; nia).
    split; [apply (scaled_add e j Hj); [exact S1|exact S2|]|split; [lia|split; [exact Hk|lia]]]. fold f. clear -Hk Hb Hm2 Hg. nia.
  - intros d x a b H. exact H.
  - intros d x a b (k & _ & _ & _ & H). exact H.
  - intros d x a b (k & (P & _) & _). apply pattern_float; [exact He|exact P].
  - intros x [F [k K]]. apply (finite_parts e x He) in F. exists k. split; [split; [apply F|split; [apply F|exact K]]|]. split; [exact K|]. rewrite K, Z.abs_mul, (Z.abs_eq (2 ^ j)) by lia. split; [lia|]. apply Z.mul_nonneg_nonneg; lia.
  - split; [exact Z1|]. unfold f. rewrite Z2. apply Z.divide_0_r.
  - exact Z2.
  - exact T.
  - exact H0.
  - exact Hfl.
  - exact N0.
  - exact Cap.
  - exact Hfu.
  - apply Forall_forall. intros x Hx. rewrite Forall_forall in Hl, Hd. auto.
  - unfold D. lia.
  - reflexivity.
  - exists acc, s', r. split; [exact R1|]. split; [exact R2|]. split; [apply finite_parts; [exact He|split; assumption]|]. unfold exact_sum. rewrite K4. exact K3.
Qed.

(** ** Sums with rounding *)

Lemma growth : forall N d D b B I, 0 < N -> (d <= D)%nat -> 0 <= b <= B -> 0 <= I -> (N + 1) ^ Z.of_nat D * B < N ^ Z.of_nat D * I -> (N + 1) ^ Z.of_nat d * b < N ^ Z.of_nat d * I.
Proof.
  intros N d D b B I HN Hd Hb HI H. replace (Z.of_nat D) with (Z.of_nat d + Z.of_nat (D - d)) in H by lia. rewrite !Z.pow_add_r in H by lia.
  assert (P : N ^ Z.of_nat (D - d) <= (N + 1) ^ Z.of_nat (D - d)) by (apply Z.pow_le_mono_l; lia). assert (P0 : 0 < N ^ Z.of_nat (D - d)) by (apply Z.pow_pos_nonneg; lia). assert (Q0 : 0 < N ^ Z.of_nat d) by (apply Z.pow_pos_nonneg; lia). assert (Q1 : 0 < (N + 1) ^ Z.of_nat d) by (apply Z.pow_pos_nonneg; lia).
  set (p := N ^ Z.of_nat (D - d)) in *. set (q := (N + 1) ^ Z.of_nat (D - d)) in *. set (r := N ^ Z.of_nat d) in *. set (s := (N + 1) ^ Z.of_nat d) in *. clearbody p q r s.
  destruct (Z_lt_le_dec (s * b) (r * I)) as [L|L]; [exact L|]. exfalso. assert (E1 : s * q * b <= s * q * B) by (apply Z.mul_le_mono_nonneg_l; [apply Z.mul_nonneg_nonneg; lia|lia]).
  assert (E2 : r * I * q <= s * b * q) by (apply Z.mul_le_mono_nonneg_r; lia). assert (E3 : r * I * p <= r * I * q) by (apply Z.mul_le_mono_nonneg_l; [apply Z.mul_nonneg_nonneg; lia|lia]). clear -E1 E2 E3 H. lia.
Qed.

Definition approx (f : ffmt) (d : nat) (x a b : Z) : Prop := f_pattern f x /\ is_finite f x /\ Z.abs a <= b /\
  parts f ^ Z.of_nat d * Z.abs (fvalue f x - a) <= ((parts f + 1) ^ Z.of_nat d - parts f ^ Z.of_nat d) * b.

Lemma abs_bound : forall p q x a b, 0 < p -> Z.abs a <= b -> p * Z.abs (x - a) <= (q - p) * b -> p * Z.abs x <= q * b.
Proof. intros p q x a b Hp Ha H. assert (p * Z.abs x <= p * Z.abs (x - a) + p * b) by (rewrite <- Z.mul_add_distr_l; apply Z.mul_le_mono_nonneg_l; lia). lia. Qed.

Lemma parts_pos : forall f, fmt_ok f -> parts f = 2 * 2 ^ f_m f /\ 0 < parts f /\ too_large f = 2 ^ f_m f * 2 ^ (2 ^ f_e f - 2) /\ 0 <= too_large f.
Proof.
  intros f Hok. pose proof (M_pos f Hok). pose proof (E_pos f Hok). destruct Hok as (K1 & K2 & K3). assert (P : parts f = 2 * 2 ^ f_m f) by (unfold parts; rewrite Z.pow_add_r by lia; lia). split; [exact P|]. split; [lia|]. unfold too_large. split; [apply Z.pow_add_r; lia|apply Z.pow_nonneg; lia].
Qed.

Lemma approx_add : forall f, fmt_ok f -> forall D B, (parts f + 1) ^ Z.of_nat D * B < parts f ^ Z.of_nat D * too_large f -> forall d x y a1 b1 a2 b2, (d < D)%nat -> b1 + b2 <= B ->
  approx f d x a1 b1 -> approx f d y a2 b2 -> approx f (S d) (f_add f x y) (a1 + a2) (b1 + b2).
Proof.
  intros f Hok D B HB d x y a1 b1 a2 b2 Hd Hb (X1 & X2 & X3 & X4) (Y1 & Y2 & Y3 & Y4). destruct (parts_pos f Hok) as (P1 & P2 & P3 & P4). set (N := parts f) in *. set (I := too_large f) in *.
  pose proof (growth N d D (b1 + b2) B I P2 ltac:(lia) ltac:(lia) P4 HB) as G1. pose proof (growth N (S d) D (b1 + b2) B I P2 ltac:(lia) ltac:(lia) P4 HB) as G2.
  assert (Q0 : 0 < N ^ Z.of_nat d) by (apply Z.pow_pos_nonneg; lia). assert (Q1 : 0 < (N + 1) ^ Z.of_nat d) by (apply Z.pow_pos_nonneg; lia).
  rewrite !Nat2Z.inj_succ, !Z.pow_succ_r in * by lia. unfold approx. rewrite !Nat2Z.inj_succ, !Z.pow_succ_r by lia. fold N.
  set (r := N ^ Z.of_nat d) in *. set (s := (N + 1) ^ Z.of_nat d) in *. set (v := fvalue f x + fvalue f y) in *. set (a := a1 + a2) in *. set (b := b1 + b2) in *.
  assert (E1 : r * Z.abs (v - a) <= (s - r) * b).
  { unfold b. rewrite Z.mul_add_distr_l. eapply Z.le_trans; [|apply Z.add_le_mono; [exact X4|exact Y4]]. rewrite <- Z.mul_add_distr_l. apply Z.mul_le_mono_nonneg_l; [lia|]. unfold v, a. lia. }
  assert (Ha : Z.abs a <= b) by (unfold a, b; lia). assert (E2 : r * Z.abs v <= s * b) by (apply (abs_bound r s v a b); assumption).
  assert (Hv : Z.abs v < 2 ^ f_m f * 2 ^ (2 ^ f_e f - 2)) by (rewrite <- P3; apply (Z.mul_lt_mono_pos_l r); lia).
  destruct (add_half f Hok x y X1 Y1 X2 Y2 Hv) as (A1 & A2 & A3). fold v in A2. rewrite <- P1 in A2. set (z := fvalue f (f_add f x y)) in *.
  assert (E3 : N * r * Z.abs (z - a) <= ((N + 1) * s - N * r) * b).
  { assert (T1 : N * r * Z.abs (z - a) <= r * (N * Z.abs (z - v)) + N * (r * Z.abs (v - a))).
    { replace (r * (N * Z.abs (z - v)) + N * (r * Z.abs (v - a))) with (N * r * (Z.abs (z - v) + Z.abs (v - a))) by ring. apply Z.mul_le_mono_nonneg_l; [apply Z.mul_nonneg_nonneg; lia|lia]. }
    assert (T2 : r * (N * Z.abs (z - v)) <= r * Z.abs v) by (apply Z.mul_le_mono_nonneg_l; lia). assert (T3 : N * (r * Z.abs (v - a)) <= N * ((s - r) * b)) by (apply Z.mul_le_mono_nonneg_l; lia). clear -T1 T2 T3 E2. lia. }
  assert (Hn : 0 < N * r) by (apply Z.mul_pos_pos; lia).
  split; [exact A1|]. split; [|split; [exact Ha|exact E3]]. apply A3. rewrite <- P3. pose proof (abs_bound (N * r) ((N + 1) * s) z a b Hn Ha E3). apply (Z.mul_lt_mono_pos_l (N * r)); [exact Hn|]. clear -H G2. lia.
Qed.

Lemma approx_mono : forall f, fmt_ok f -> forall d x a b, approx f d x a b -> approx f (S d) x a b.
Proof.
  intros f Hok d x a b (X1 & X2 & X3 & X4). split; [exact X1|]. split; [exact X2|]. split; [exact X3|]. destruct (parts_pos f Hok) as (_ & P2 & _). set (N := parts f) in *. rewrite Nat2Z.inj_succ, !Z.pow_succ_r by lia.
  assert (Q1 : 0 < (N + 1) ^ Z.of_nat d) by (apply Z.pow_pos_nonneg; lia). set (r := N ^ Z.of_nat d) in *. set (s := (N + 1) ^ Z.of_nat d) in *. set (t := Z.abs (fvalue f x - a)) in *. assert (T : N * (r * t) <= N * ((s - r) * b)) by (apply Z.mul_le_mono_nonneg_l; lia). assert (0 <= s * b) by (apply Z.mul_nonneg_nonneg; lia). clear -T H. lia.
Qed.

Lemma c86_sum_error : forall (fs : features) (c : config) (e : elty) (l : list Z) (l0 : packed_line) (fuel : nat) (n : Z),
  let f := fmt_of e in let zero := splat (p_width l0) 0 in
  target fs -> e = EF32 \/ e = EF64 -> natural fs (el_name e ++ "s") = [l0] -> zlen l * p_size l0 <= isize_max -> (length l < fuel)%nat ->
  Forall (finite_lane e) l -> (zlen l + p_width l0 - 1) / p_width l0 + p_width l0 <= n -> no_float_overflow f n l ->
  exists acc s' r, simd_reduce (slice_iterator c (vty_of l0)) fuel (simd_iter l zero) zero (fun a v => map2 (ieee_add e) a v) = Ok (acc, s') /\
    sum_in fs ieee_add c (p_vec l0) acc = Some (Ok r) /\ finite_lane e r /\ rounded_sum f n l r.
Proof.
  intros fs c e l l0 fuel n f zero T He N0 Cap Hfu Hl Hn Ho. destruct (float_prims e He) as [H0 Hfl]. destruct (zero_float e He) as [Z1 Z2]. pose proof (fmt_of_ok e) as Hok. fold f in Hok.
  destruct (natural_vty fs _ l0 T H0 N0) as (Vt & _). pose proof (vty_ok_facts _ Vt) as (H1 & _). change (WIDTH (vty_of l0)) with (p_width l0) in H1. pose proof (zlen_nonneg l). assert (0 <= (zlen l + p_width l0 - 1) / p_width l0) by (apply Z.div_pos; lia). unfold no_float_overflow in Ho.
  replace n with (Z.of_nat (Z.to_nat n)) in * by lia. set (D := Z.to_nat n) in *. clearbody D. clear n.
  destruct (float_sum (approx f) D (magnitudes f l) (fvalue f) (finite_lane e) e fs c l l0 fuel) as (acc & s' & r & R1 & R2 & (A1 & A2 & A3 & A4)).
  - intros d x y a1 b1 a2 b2 Hd Hb. exact (approx_add f Hok D _ Ho d x y a1 b1 a2 b2 Hd Hb).
  - exact (approx_mono f Hok).
  - intros d x a b (_ & _ & K2 & _). lia.
  - intros d x a b (P & _). apply pattern_float; [exact He|exact P].
  - intros x F. apply (finite_parts e x He) in F. destruct F as [F1 F2]. split; [exact F1|]. split; [exact F2|]. split; [lia|]. rewrite Z.sub_diag. change (Z.of_nat 0) with 0. rewrite !Z.pow_0_r. lia.
  - exact Z1.
  - exact Z2.
  - exact T.
  - exact H0.
  - exact Hfl.
  - exact N0.
  - exact Cap.
  - exact Hfu.
  - exact Hl.
  - exact Hn.
  - reflexivity.
  - exists acc, s', r. split; [exact R1|]. split; [exact R2|]. split; [apply finite_parts; [exact He|split; assumption]|]. exact A4.
Qed.

(** ** Not-a-number *)

Definition poisoned (f : ffmt) (d : nat) (x a b : Z) : Prop := f_pattern f x /\ 0 <= b /\ (0 < b -> is_nan f x).

Lemma nan_dec : forall f x, {is_nan f x} + {~ is_nan f x}.
Proof. intros f x. unfold is_nan. destruct (Z.eq_dec (exponent_field f x) (2 ^ f_e f - 1)); [destruct (Z.eq_dec (fraction_field f x) 0)|]; [right|left|right]; tauto. Qed.

Lemma c86_sum_nan : forall (fs : features) (c : config) (e : elty) (l : list Z) (l0 : packed_line) (fuel : nat),
  let f := fmt_of e in let zero := splat (p_width l0) 0 in
  target fs -> e = EF32 \/ e = EF64 -> natural fs (el_name e ++ "s") = [l0] -> zlen l * p_size l0 <= isize_max -> (length l < fuel)%nat ->
  Forall (lane e) l -> (exists x, In x l /\ is_nan f x) ->
  exists acc s' r, simd_reduce (slice_iterator c (vty_of l0)) fuel (simd_iter l zero) zero (fun a v => map2 (ieee_add e) a v) = Ok (acc, s') /\
    sum_in fs ieee_add c (p_vec l0) acc = Some (Ok r) /\ is_nan f r.
Proof.
  intros fs c e l l0 fuel f zero T He N0 Cap Hfu Hl (x0 & I0 & Nx). destruct (float_prims e He) as [H0 Hfl]. destruct (zero_float e He) as [Z1 Z2]. pose proof (fmt_of_ok e) as Hok. fold f in Hok.
  set (val := fun x => if nan_dec f x then 1 else 0). set (D := Z.to_nat ((zlen l + p_width l0 - 1) / p_width l0 + p_width l0)).
  destruct (float_sum (poisoned f) D (total (map (fun x => Z.abs (val x)) l)) val (lane e) e fs c l l0 fuel) as (acc & s' & r & R1 & R2 & (A1 & A2 & A3)).
  - intros d x y a1 b1 a2 b2 _ _ (X1 & X2 & X3) (Y1 & Y2 & Y3). change (ieee_add e x y) with (f_add f x y). destruct (add_ok f Hok x y X1 Y1) as (P & S1 & _). split; [exact P|]. split; [lia|]. intros Hb. apply S1. destruct (Z_lt_le_dec 0 b1) as [L|L]; [left; apply X3; exact L|right; apply Y3; lia].
  - intros d x a b H. exact H.
  - intros d x a b (_ & H & _). exact H.
  - intros d x a b (P & _). apply pattern_float; [exact He|exact P].
  - intros x Hx. split; [apply float_pattern; [exact He|apply (lane_in e x H0); exact Hx]|]. unfold val. destruct (nan_dec f x) as [N|N]; split; try lia; intros _; exact N.
  - apply finite_parts in Z1; [|exact He]. apply (lane_in e 0 H0). apply pattern_float; [exact He|apply Z1].
  - unfold val. destruct (nan_dec f 0) as [N|N]; [exfalso|reflexivity]. unfold f in N. destruct He as [He|He]; rewrite He in N; vm_compute in N; destruct N as [N _]; discriminate.
  - exact T.
  - exact H0.
  - exact Hfl.
  - exact N0.
  - exact Cap.
  - exact Hfu.
  - exact Hl.
  - unfold D. lia.
  - reflexivity.
  - exists acc, s', r. split; [exact R1|]. split; [exact R2|]. apply A3. clear -I0 Nx. induction l as [|y l IH]; [destruct I0|]. cbn [map total fold_right]. fold (total (map (fun x => Z.abs (val x)) l)). pose proof (abs_nonneg val l). destruct I0 as [-> |I0].
    + unfold val at 1. destruct (nan_dec f x0); [lia|contradiction].
    + specialize (IH I0). lia.
Qed.
