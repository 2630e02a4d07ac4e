(** Facts about IEEE-754 patterns: fields, value, and that the order of the patterns is
    the order of the values. *)
From Coq Require Import Lia ZifyBool ZifyNat.
From Verif Require Import Base Floats FloatSpec.
Ltac Zify.zify_post_hook ::= Z.div_mod_to_equations.

(** What a format must satisfy; both formats do. *)
Definition fmt_ok (f : ffmt) : Prop := 2 <= f_e f /\ 1 <= f_m f /\ f_m f < 2 ^ (f_e f - 1).

Lemma fmt32_ok : fmt_ok fmt32.
Proof. vm_compute. intuition congruence. Qed.

Lemma fmt64_ok : fmt_ok fmt64.
Proof. vm_compute. intuition congruence. Qed.

Section Fields.
Variable f : ffmt.
Hypothesis Hok : fmt_ok f.

Local Notation M := (2 ^ f_m f).
Local Notation E := (2 ^ f_e f).

Lemma M_pos : 0 < M.
Proof. destruct Hok as (H1 & H2 & H3). apply Z.pow_pos_nonneg; lia. Qed.

Lemma E_pos : 4 <= E.
Proof. destruct Hok as (H1 & H2 & H3). change 4 with (2 ^ 2). apply Z.pow_le_mono_r; lia. Qed.

Lemma EM : 2 ^ (f_e f + f_m f) = E * M.
Proof.  destruct Hok as (H1 & H2 & H3). apply Z.pow_add_r; lia. Qed.

Lemma EM1 : 2 ^ (1 + f_e f + f_m f) = 2 * (E * M).
Proof. rewrite <- EM. destruct Hok as (H1 & H2 & H3). replace (1 + f_e f + f_m f) with (Z.succ (f_e f + f_m f)) by lia. apply Z.pow_succ_r. lia. Qed.

Lemma mag_fields : forall x, f_pattern f x -> f_mag f x = exponent_field f x * M + fraction_field f x /\ 0 <= exponent_field f x < E /\ 0 <= fraction_field f x < M /\
  (f_sign f x = false /\ sign_bit f x = 0 \/ f_sign f x = true /\ sign_bit f x = 1).
Proof.
  intros x Hx. unfold f_pattern in Hx. rewrite EM1 in Hx. pose proof M_pos. pose proof E_pos. unfold f_mag, exponent_field, fraction_field, sign_bit, f_sign. rewrite (Z.add_comm (f_m f)), EM.
  split; [|split; [apply Z.mod_pos_bound; lia|split; [apply Z.mod_pos_bound; lia|]]].
  - rewrite (Z.mul_comm E M). rewrite Z.rem_mul_r by lia. ring.
  - assert (0 < E * M) by (apply Z.mul_pos_pos; lia). destruct (E * M <=? x) eqn:C.
    + right. split; [reflexivity|]. symmetry. apply (Z.div_unique_pos _ _ _ (x - E * M)); lia.
    + left. split; [reflexivity|]. apply Z.div_small. lia.
Qed.

Lemma fields_of : forall s e m, s = 0 \/ s = 1 -> 0 <= e < E -> 0 <= m < M -> let x := s * (E * M) + (e * M + m) in
  f_pattern f x /\ exponent_field f x = e /\ fraction_field f x = m /\ sign_bit f x = s.
Proof.
  intros s e m Hs He Hm x. pose proof M_pos. pose proof E_pos. assert (e * M + m < E * M) by nia. assert (0 <= e * M + m) by nia.
  unfold f_pattern. rewrite EM1. split; [subst x; nia|]. unfold exponent_field, fraction_field, sign_bit. rewrite (Z.add_comm (f_m f)), EM.
  assert (D : x / M = s * E + e) by (symmetry; apply (Z.div_unique_pos _ _ _ m); subst x; [lia|ring]).
  assert (R : x mod M = m) by (symmetry; apply (Z.mod_unique_pos _ _ (s * E + e)); subst x; [lia|ring]).
  split; [|split; [exact R|]].
  - rewrite D. symmetry. apply (Z.mod_unique_pos _ _ s); [lia|ring].
  - symmetry. apply (Z.div_unique_pos _ _ _ (e * M + m)); [lia|subst x; ring].
Qed.

Lemma nan_iff : forall x, f_pattern f x -> (f_nan f x = true <-> is_nan f x) /\ (f_nan f x = false <-> is_finite f x \/ is_infinite f x) /\
  (is_infinite f x -> f_mag f x = f_inf f) /\ (is_finite f x <-> f_mag f x < f_inf f).
Proof.
  intros x Hx. destruct (mag_fields x Hx) as (H1 & H2 & H3 & _). pose proof M_pos. pose proof E_pos. unfold f_nan, f_inf, is_nan, is_finite, is_infinite. rewrite H1.
  assert (G : exponent_field f x = E - 1 \/ exponent_field f x <= E - 2) by lia. destruct G as [G|G].
  - rewrite G. split; [|split; [|split]]; lia.
  - assert (exponent_field f x * M + fraction_field f x < (E - 1) * M) by nia.
    split; [|split; [|split]]; try lia.
Qed.
End Fields.

Section Value.
Variable f : ffmt.
Hypothesis Hok : fmt_ok f.

Local Notation M := (2 ^ f_m f).
Local Notation E := (2 ^ f_e f).

Definition absval (x : Z) : Z := f_sig f x * 2 ^ (f_exp f x - 1).

Lemma sig_exp : forall x, f_pattern f x -> f_exp f x = Z.max 1 (exponent_field f x) /\
  f_sig f x = (if exponent_field f x =? 0 then fraction_field f x else M + fraction_field f x) /\ 0 <= f_sig f x < 2 * M.
Proof.
  intros x Hx. destruct (mag_fields f Hok x Hx) as (H1 & H2 & H3 & _). pose proof (M_pos f Hok).
  assert (D : f_mag f x / M = exponent_field f x) by (symmetry; apply (Z.div_unique_pos _ _ _ (fraction_field f x)); lia).
  assert (R : f_mag f x mod M = fraction_field f x) by (symmetry; apply (Z.mod_unique_pos _ _ (exponent_field f x)); lia).
  unfold f_exp, f_sig.  rewrite D, R. split; [reflexivity|]. destruct (exponent_field f x =? 0) eqn:C; lia.
Qed.

Lemma fvalue_abs : forall x, f_pattern f x -> fvalue f x = (if f_sign f x then -1 else 1) * absval x.
Proof.
  intros x Hx. destruct (mag_fields f Hok x Hx) as (H1 & H2 & H3 & H4). destruct (sig_exp x Hx) as (H5 & H6 & H7). unfold fvalue, absval. rewrite H5, H6.
  assert (S : (if sign_bit f x =? 0 then 1 else -1) = if f_sign f x then -1 else 1) by (destruct H4 as [[-> ->]|[-> ->]]; reflexivity). rewrite S. f_equal.
  destruct (exponent_field f x =? 0) eqn:C; [replace (Z.max 1 (exponent_field f x) - 1) with 0 by lia; lia|]. replace (Z.max 1 (exponent_field f x)) with (exponent_field f x) by lia. reflexivity.
Qed.

(** The magnitude of the value is strictly monotone in the magnitude of the pattern. *)
Lemma absval_bounds : forall x, f_pattern f x -> let e := exponent_field f x in
  (if e =? 0 then 0 else M * 2 ^ (e - 1)) <= absval x < M * 2 ^ e.
Proof.
  intros x Hx e. destruct (sig_exp x Hx) as (H1 & H2 & H3). destruct (mag_fields f Hok x Hx) as (_ & G2 & G3 & _). fold e in H1, H2, G2. unfold absval. rewrite H1, H2.
  destruct (e =? 0) eqn:C.
  - assert (e = 0) as -> by lia. replace (Z.max 1 0 - 1) with 0 by lia. rewrite !Z.pow_0_r. lia.
  - replace (Z.max 1 e) with e by lia. assert (0 < 2 ^ (e - 1)) by (apply Z.pow_pos_nonneg; lia). replace (2 ^ e) with (2 * 2 ^ (e - 1)) by (rewrite <- Z.pow_succ_r by lia; f_equal; lia). nia.
Qed.

Lemma absval_lt : forall x y, f_pattern f x -> f_pattern f y -> f_mag f x < f_mag f y -> absval x < absval y.
Proof.
  intros x y Hx Hy H. destruct (mag_fields f Hok x Hx) as (X1 & X2 & X3 & _). destruct (mag_fields f Hok y Hy) as (Y1 & Y2 & Y3 & _). pose proof (M_pos f Hok) as HM.
  assert (C : exponent_field f x < exponent_field f y \/ exponent_field f x = exponent_field f y /\ fraction_field f x < fraction_field f y) by nia.
  destruct C as [C|[C1 C2]].
  - pose proof (absval_bounds x Hx) as [_ Bx]. pose proof (absval_bounds y Hy) as [By _]. cbv zeta in *. replace (exponent_field f y =? 0) with false in By by lia.
    assert (2 ^ exponent_field f x <= 2 ^ (exponent_field f y - 1)) by (apply Z.pow_le_mono_r; lia). nia.
  - destruct (sig_exp x Hx) as (P1 & P2 & _). destruct (sig_exp y Hy) as (Q1 & Q2 & _). unfold absval. rewrite P1, Q1, P2, Q2, C1.
    assert (0 < 2 ^ (Z.max 1 (exponent_field f y) - 1)) by (apply Z.pow_pos_nonneg; lia). destruct (exponent_field f y =? 0); nia.
Qed.

Lemma absval_nonneg : forall x, f_pattern f x -> 0 <= absval x.
Proof.
  intros x Hx. pose proof (absval_bounds x Hx) as [B _]. cbv zeta in B. destruct (exponent_field f x =? 0) eqn:C; [exact B|].
  destruct (mag_fields f Hok x Hx) as (_ & G & _). pose proof (M_pos f Hok). assert (0 < 2 ^ (exponent_field f x - 1)) by (apply Z.pow_pos_nonneg; lia). nia.
Qed.

Lemma absval_mag : forall x y, f_pattern f x -> f_pattern f y -> (absval x ?= absval y) = (f_mag f x ?= f_mag f y).
Proof.
  intros x y Hx Hy. destruct (Z.compare_spec (f_mag f x) (f_mag f y)) as [C|C|C].
  - apply Z.compare_eq_iff. unfold absval, f_sig, f_exp. rewrite C. reflexivity.
  - apply Z.compare_lt_iff. apply absval_lt; assumption.
  - apply Z.compare_gt_iff. apply absval_lt; assumption.
Qed.

Lemma absval_zero : forall x, f_pattern f x -> (absval x = 0 <-> f_mag f x = 0).
Proof.
  intros x Hx. assert (P0 : f_pattern f 0) by (unfold f_pattern; split; [lia|]; apply Z.pow_pos_nonneg; destruct Hok as (H1 & H2 & H3); lia).
  assert (M0 : f_mag f 0 = 0) by (unfold f_mag; apply Z.mod_0_l; apply Z.pow_nonzero; destruct Hok as (H1 & H2 & H3); lia).
  assert (A0 : absval 0 = 0) by (unfold absval, f_sig; rewrite M0, Z.div_0_l by (apply Z.pow_nonzero; destruct Hok as (H1 & H2 & H3); lia); reflexivity).
  pose proof (absval_mag x 0 Hx P0) as H. rewrite M0, A0 in H. split; intros G; rewrite G in H; cbn in H; symmetry in H || idtac; apply Z.compare_eq_iff; congruence.
Qed.

(** The order of the keys is the order of the values. *)
Lemma key_value : forall x y, f_pattern f x -> f_pattern f y -> (fvalue f x ?= fvalue f y) = (f_key f x ?= f_key f y).
Proof.
  intros x y Hx Hy. rewrite (fvalue_abs x Hx), (fvalue_abs y Hy). unfold f_key. pose proof (absval_nonneg x Hx). pose proof (absval_nonneg y Hy).
  pose proof (absval_mag x y Hx Hy) as C. pose proof (absval_zero x Hx) as Zx. pose proof (absval_zero y Hy) as Zy.
  assert (0 <= f_mag f x) by (destruct (mag_fields f Hok x Hx) as (-> & G1 & G2 & _); pose proof (M_pos f Hok); nia).
  assert (0 <= f_mag f y) by (destruct (mag_fields f Hok y Hy) as (-> & G1 & G2 & _); pose proof (M_pos f Hok); nia).
  destruct (f_sign f x), (f_sign f y); try (replace (1 * absval x) with (absval x) by ring); try (replace (1 * absval y) with (absval y) by ring);
    try (replace (-1 * absval x) with (- absval x) by ring); try (replace (-1 * absval y) with (- absval y) by ring).
  - rewrite !Z.compare_opp. apply absval_mag; assumption.
  - destruct (Z.compare_spec (- absval x) (absval y)), (Z.compare_spec (- f_mag f x) (f_mag f y)); try reflexivity; lia.
  - destruct (Z.compare_spec (absval x) (- absval y)), (Z.compare_spec (f_mag f x) (- f_mag f y)); try reflexivity; lia.
  - exact C.
Qed.

Lemma eq_value : forall x y, f_pattern f x -> f_pattern f y -> (f_eq f x y = true <-> float_eq f x y).
Proof.
  intros x y Hx Hy. destruct (nan_iff f Hok x Hx) as (Nx & _). destruct (nan_iff f Hok y Hy) as (Ny & _). unfold f_eq, float_eq. pose proof (key_value x y Hx Hy) as K.
  rewrite !andb_true_iff, !negb_true_iff, Z.eqb_eq, <- Nx, <- Ny, !not_true_iff_false. rewrite <- (Z.compare_eq_iff (fvalue f x)), K, Z.compare_eq_iff. tauto.
Qed.

Lemma lt_value : forall x y, f_pattern f x -> f_pattern f y -> (f_lt f x y = true <-> float_lt f x y).
Proof.
  intros x y Hx Hy. destruct (nan_iff f Hok x Hx) as (Nx & _). destruct (nan_iff f Hok y Hy) as (Ny & _). unfold f_lt, float_lt. pose proof (key_value x y Hx Hy) as K.
  rewrite !andb_true_iff, !negb_true_iff, Z.ltb_lt, <- Nx, <- Ny, !not_true_iff_false. rewrite <- (Z.compare_lt_iff (fvalue f x)), K, Z.compare_lt_iff. tauto.
Qed.
End Value.
