(** Proofs of the properties: rounding and square root (C50, C56). *)
From Coq Require Import String.
From Verif Require Import Base Spec VecSpec Vecs Lanes Floats FloatSpec X86 OpTables OpSpec Ops.
Open Scope list_scope.
Open Scope Z_scope.
From Coq Require Import Lia ZifyBool ZifyNat.
From Verif Require Import ListFacts VecFacts FloatFacts VecProofs PatternProofs ShuffleProofs OpProofs.
Ltac Zify.zify_post_hook ::= Z.div_mod_to_equations.

Section Rounding.
Variable f : ffmt.
Hypothesis Hok : fmt_ok f.

Local Notation M := (2 ^ f_m f).
Local Notation E := (2 ^ f_e f).
Local Notation B := (2 ^ (f_e f - 1) - 1).

Lemma B_range : f_m f <= B /\ 2 * B + 2 = E.
Proof.
  destruct Hok as (H1 & H2 & H3).  split; [lia|]. replace (f_e f) with (Z.succ (f_e f - 1)) at 2 by lia. rewrite Z.pow_succ_r by lia. lia.
Qed.

Lemma fone_eq : fone f = 2 ^ (B + f_m f - 1).
Proof. reflexivity. Qed.

(** The pattern of a small integer has that value. *)
Lemma of_int_value : forall s n, 0 <= n <= M -> let r := f_with_sign f s (f_of_int f n) in
  f_pattern f r /\ is_finite f r /\ f_sign f r = s /\ absval f r = n * fone f.
Proof.
  intros s n Hn r. pose proof (M_pos f Hok) as HM. pose proof (E_pos f Hok) as HE. destruct B_range as [B1 B2].  destruct Hok as (K1 & K2 & K3).
  assert (Hr : exists e m, 0 <= e < E - 1 /\ 0 <= m < M /\ f_of_int f n = e * M + m /\ (if e =? 0 then m else (M + m) * 2 ^ (e - 1)) = n * fone f).
  { unfold f_of_int. destruct (n =? 0) eqn:N; [exists 0, 0; repeat split; try lia; cbn; lia|].
    assert (Hlog : 0 <= Z.log2 n <= f_m f) by (split; [apply Z.log2_nonneg|]; apply (Z.le_trans _ (Z.log2 M)); [apply Z.log2_le_mono; lia|rewrite Z.log2_pow2; lia]).
    pose proof (Z.log2_spec n ltac:(lia)) as [L1 L2]. rewrite Z.pow_succ_r in L2 by lia.
    assert (P : 2 ^ Z.log2 n * 2 ^ (f_m f - Z.log2 n) = M) by (rewrite <- Z.pow_add_r by lia; f_equal; lia).
    set (k := 2 ^ (f_m f - Z.log2 n)) in *. assert (0 < k) by (apply Z.pow_pos_nonneg; lia).
    unfold f_bias.  exists (Z.log2 n + B), (n * k - M). split; [lia|]. split; [split; nia|]. split; [reflexivity|].
    replace (Z.log2 n + B =? 0) with false by lia. replace (M + (n * k - M)) with (n * k) by lia. rewrite <- Z.mul_assoc. f_equal. unfold k. rewrite <- Z.pow_add_r by lia. rewrite fone_eq. f_equal. lia. }
  destruct Hr as (e & m & He & Hm & Hr & Hv).
  assert (Hf : r = (if s then 1 else 0) * (E * M) + (e * M + m)) by (subst r; unfold f_with_sign; rewrite Hr, (EM f Hok); destruct s; lia).
  destruct (fields_of f Hok (if s then 1 else 0) e m) as (P1 & P2 & P3 & P4); [destruct s; tauto|lia|lia|].  rewrite <- Hf in *.
  split; [exact P1|]. split; [unfold is_finite; lia|]. destruct (mag_fields f Hok r P1) as (_ & _ & _ & P5). split.
  - destruct s; destruct P5 as [[P5 P6]|[P5 P6]]; try exact P5; exfalso; rewrite P4 in P6; discriminate.
  - destruct ((sig_exp f Hok) r P1) as (Q1 & Q2 & _). unfold absval. rewrite Q1, Q2, P2, P3.  rewrite <- Hv. destruct (e =? 0) eqn:C; [replace (Z.max 1 e - 1) with 0 by lia; lia|]. replace (Z.max 1 e) with e by lia. reflexivity.
Qed.

Lemma sign_bits : forall x r, f_pattern f x -> f_pattern f r -> f_sign f r = f_sign f x -> sign_bit f r = sign_bit f x.
Proof. intros x r Hx Hr H. destruct (mag_fields f Hok x Hx) as (_ & _ & _ & [[A1 A2]|[A1 A2]]); destruct (mag_fields f Hok r Hr) as (_ & _ & _ & [[B1 B2]|[B1 B2]]); congruence. Qed.

(** Rounding with any rule: integral numbers stay, others go to the integral part or
    one more, in magnitude. *)
Lemma integral_finite : forall up x, f_pattern f x -> is_finite f x ->
  let r := f_integral f up x in f_pattern f r /\ is_finite f r /\ f_sign f r = f_sign f x /\
  ((r = x /\ exists k, absval f x = fone f * k) \/
   exists q n t u, 0 < u /\ fone f = q * u /\ absval f x = n * fone f + t * u /\ 0 <= t < q /\ 0 <= n /\
     r = f_with_sign f (f_sign f x) (f_of_int f (if up (f_sign f x) n t q then n + 1 else n)) /\
     absval f r = (if up (f_sign f x) n t q then n + 1 else n) * fone f).
Proof.
  intros up x Hx Hf r. destruct (nan_iff f Hok x Hx) as (_ & N & _ & _). assert (Nn : f_nan f x = false) by (apply N; left; exact Hf).
  subst r. unfold f_integral. rewrite Nn. destruct ((sig_exp f Hok) x Hx) as (H5 & H6 & H7). pose proof (M_pos f Hok) as HM. destruct B_range as [B1 B2].  destruct Hok as (K1 & K2 & K3).
  destruct (mag_fields f Hok x Hx) as (_ & G2 & _ & _).
  destruct (0 <=? f_pow f x) eqn:P; unfold f_pow, f_bias in P.
  - split; [exact Hx|]. split; [exact Hf|]. split; [reflexivity|]. left. split; [reflexivity|]. exists (f_sig f x * 2 ^ (f_exp f x - B - f_m f)). unfold absval. rewrite fone_eq.
    rewrite Z.mul_assoc, (Z.mul_comm (2 ^ _) (f_sig f x)), <- Z.mul_assoc. f_equal. rewrite <- Z.pow_add_r by lia. f_equal. lia.
  - unfold f_pow, f_bias.  set (q := 2 ^ (- (f_exp f x - B - f_m f))). set (u := 2 ^ (f_exp f x - 1)).
    assert (Hu : 0 < u) by (apply Z.pow_pos_nonneg; lia). assert (Hq : 2 <= q) by (unfold q; change 2 with (2 ^ 1) at 1; apply Z.pow_le_mono_r; lia).
    assert (Hqu : fone f = q * u) by (unfold q, u; rewrite fone_eq, <- Z.pow_add_r by lia; f_equal; lia).
    assert (Hn : 0 <= f_sig f x / q) by (apply Z.div_pos; lia).
    assert (Hn1 : f_sig f x / q + 1 <= M) by (assert (f_sig f x / q < M) by (apply Z.div_lt_upper_bound; nia); lia).
    destruct (of_int_value (f_sign f x) (if up (f_sign f x) (f_sig f x / q) (f_sig f x mod q) q then f_sig f x / q + 1 else f_sig f x / q)) as (R1 & R2 & R3 & R4); [destruct (up _ _ _ _); lia|].
    split; [exact R1|]. split; [exact R2|]. split; [exact R3|]. right. exists q, (f_sig f x / q), (f_sig f x mod q), u.
    split; [exact Hu|]. split; [exact Hqu|]. split; [|split; [apply Z.mod_pos_bound; lia|split; [exact Hn|split; [reflexivity|exact R4]]]].
    unfold absval. fold u. rewrite Hqu. pose proof (Z.div_mod (f_sig f x) q ltac:(lia)) as D. rewrite D at 1. ring.
Qed.

Lemma integral_other : forall up x, f_pattern f x -> (is_infinite f x -> f_integral f up x = x) /\ (is_nan f x -> is_nan f (f_integral f up x) /\ f_pattern f (f_integral f up x)).
Proof.
  intros up x Hx. destruct (nan_iff f Hok x Hx) as (N1 & N2 & N3 & _). pose proof (M_pos f Hok) as HM. pose proof (E_pos f Hok) as HE. destruct B_range as [B1 B2].  destruct Hok as (K1 & K2 & K3). destruct (mag_fields f Hok x Hx) as (G1 & G2 & G3 & G4).  split.
  - intros Hi. unfold f_integral. assert (Nn : f_nan f x = false) by (apply N2; right; exact Hi). rewrite Nn. destruct ((sig_exp f Hok) x Hx) as (H5 & _ & _). destruct Hi as [I1 I2].
    unfold f_pow, f_bias.  rewrite H5, I1.  replace (0 <=? Z.max 1 (E - 1) - B - f_m f) with true by lia. reflexivity.
  - intros Hn. unfold f_integral. assert (Nn : f_nan f x = true) by (apply N1; exact Hn). rewrite Nn. destruct (Z.testbit x (f_m f - 1)) eqn:T; [split; assumption|].
    destruct Hn as [I1 I2].  set (h := 2 ^ (f_m f - 1)). assert (Hh : M = 2 * h) by (unfold h; rewrite <- Z.pow_succ_r by lia; f_equal; lia). assert (0 < h) by (apply Z.pow_pos_nonneg; lia).
    assert (Hlow : fraction_field f x < h).
    { rewrite Z.testbit_spec' in T ||  assert (T' : (x / h) mod 2 = 0) by (unfold h; rewrite <- Z.testbit_spec' by lia; rewrite T; reflexivity).
      unfold fraction_field.  rewrite Hh. rewrite (Z.mul_comm 2 h). rewrite Z.rem_mul_r by lia. rewrite T'. pose proof (Z.mod_pos_bound x h). lia. }
    assert (Hs : exists s, (s = 0 \/ s = 1) /\ x = s * (E * M) + ((E - 1) * M + fraction_field f x)).
    { exists (sign_bit f x). split; [destruct G4 as [[_ ->]|[_ ->]]; tauto|]. unfold f_mag in G1. rewrite (EM f Hok) in G1.  rewrite I1 in G1. rewrite <- G1. unfold sign_bit. rewrite Z.add_comm. rewrite (Z.add_comm (f_m f)), (EM f Hok).
      assert (0 < E * M) by nia. pose proof (Z.div_mod x (E * M) ltac:(lia)). lia. }
    destruct Hs as (s & Hs & Hxs). destruct (fields_of f Hok s (E - 1) (fraction_field f x + h) Hs) as (P1 & P2 & P3 & P4); [lia|lia|].
     replace (s * (E * M) + ((E - 1) * M + (fraction_field f x + h))) with (x + h) in * by lia. split; [|exact P1]. split; [exact P2|lia].
Qed.

Lemma div_part : forall n t u q, 0 < u -> 0 <= t < q -> (n * (q * u) + t * u) / (q * u) = n.
Proof. intros n t u q Hu Ht. symmetry. apply (Z.div_unique_pos _ _ _ (t * u)); nia. Qed.

Lemma div_neg : forall n t u q, 0 < u -> 0 <= t < q -> (- (n * (q * u) + t * u)) / (q * u) = if 0 <? t then - (n + 1) else - n.
Proof.
  intros n t u q Hu Ht. destruct (0 <? t) eqn:T.
  - symmetry. apply (Z.div_unique_pos _ _ _ ((q - t) * u)); nia.
  - assert (t = 0) by lia. subst t. symmetry. apply (Z.div_unique_pos _ _ _ 0); nia.
Qed.

Lemma fone_pos : 0 < fone f.
Proof. rewrite fone_eq. destruct B_range. destruct Hok as (K1 & K2 & K3). apply Z.pow_pos_nonneg; lia. Qed.

Lemma rounds_of : forall up (how : Z -> Z -> Prop) x, f_pattern f x ->
  (is_finite f x -> how x (f_integral f up x)) -> rounds f how x (f_integral f up x).
Proof.
  intros up how x Hx H. destruct (integral_other up x Hx) as [H1 H2]. split; [|split; [exact H1|intros Hn; apply H2; exact Hn]].
  intros Hf. destruct (integral_finite up x Hx Hf) as (P1 & P2 & P3 & _). split; [exact P2|]. split; [apply sign_bits; assumption|apply H; exact Hf].
Qed.

Lemma floor_ok : forall x, f_pattern f x -> rounds f (floor_of f) x (f_floor f x).
Proof.
  intros x Hx. apply rounds_of; [exact Hx|]. intros Hf. unfold floor_of. destruct (integral_finite (fun s n r q => s && (0 <? r)) x Hx Hf) as (P1 & P2 & P3 & P4). pose proof fone_pos as HF.
  rewrite ((fvalue_abs f Hok) _ P1), ((fvalue_abs f Hok) _ Hx), P3. destruct P4 as [(-> & k & Hk)|(q & n & t & u & Hu & Hqu & Ha & Ht & Hn & _ & Hr)].
  - rewrite Hk. destruct (f_sign f x).
    + replace (-1 * (fone f * k)) with (- k * fone f) by ring. rewrite Z.div_mul by lia. ring.
    + replace (1 * (fone f * k)) with (k * fone f) by ring. rewrite Z.div_mul by lia. ring.
  - rewrite Hr, Ha. destruct (f_sign f x); cbn [andb].
    + replace (-1 * (n * fone f + t * u)) with (- (n * fone f + t * u)) by ring. rewrite Hqu, div_neg by assumption. destruct (0 <? t); ring.
    + rewrite Z.mul_1_l. rewrite Z.mul_1_l. rewrite Hqu, div_part by assumption. ring.
Qed.

Lemma ceil_ok : forall x, f_pattern f x -> rounds f (ceil_of f) x (f_ceil f x).
Proof.
  intros x Hx. apply rounds_of; [exact Hx|]. intros Hf. unfold ceil_of. destruct (integral_finite (fun s n r q => negb s && (0 <? r)) x Hx Hf) as (P1 & P2 & P3 & P4). pose proof fone_pos as HF.
  rewrite ((fvalue_abs f Hok) _ P1), ((fvalue_abs f Hok) _ Hx), P3. destruct P4 as [(-> & k & Hk)|(q & n & t & u & Hu & Hqu & Ha & Ht & Hn & _ & Hr)].
  - rewrite Hk. destruct (f_sign f x).
    + replace (- (-1 * (fone f * k))) with (k * fone f) by ring. rewrite Z.div_mul by lia. ring.
    + replace (- (1 * (fone f * k))) with (- k * fone f) by ring. rewrite Z.div_mul by lia. ring.
  - rewrite Hr, Ha. destruct (f_sign f x); cbn [andb negb].
    + replace (- (-1 * (n * fone f + t * u))) with (n * fone f + t * u) by ring. rewrite Hqu, div_part by assumption. ring.
    + rewrite !Z.mul_1_l. rewrite Hqu, div_neg by assumption. destruct (0 <? t); ring.
Qed.

Lemma trunc_ok : forall x, f_pattern f x -> rounds f (trunc_of f) x (f_trunc f x).
Proof.
  intros x Hx. apply rounds_of; [exact Hx|]. intros Hf. unfold trunc_of. destruct (integral_finite (fun s n r q => false) x Hx Hf) as (P1 & P2 & P3 & P4). pose proof fone_pos as HF.
  rewrite ((fvalue_abs f Hok) _ P1), ((fvalue_abs f Hok) _ Hx), P3.
  assert (Q : absval f (f_integral f (fun s n r q => false) x) = fone f * Z.quot (absval f x) (fone f)).
  { destruct P4 as [(-> & k & Hk)|(q & n & t & u & Hu & Hqu & Ha & Ht & Hn & _ & Hr)].
    - rewrite Hk. rewrite Z.mul_comm, Z.quot_mul by lia. ring.
    - rewrite Hr, Ha. rewrite Z.quot_div_nonneg by nia. rewrite Hqu, div_part by assumption. ring. }
  unfold f_trunc. rewrite Q. destruct (f_sign f x); [|rewrite !Z.mul_1_l; reflexivity].
  replace (-1 * absval f x) with (- absval f x) by ring. rewrite Z.quot_opp_l by lia. ring.
Qed.

Lemma nearest_ok : forall up x, f_pattern f x -> (forall s n r q, 0 <= r < q -> (up s n r q = true -> q <= 2 * r) /\ (up s n r q = false -> 2 * r <= q)) ->
  rounds f (nearest_of f) x (f_integral f up x).
Proof.
  intros up x Hx Hup. apply rounds_of; [exact Hx|]. intros Hf. unfold nearest_of. destruct (integral_finite up x Hx Hf) as (P1 & P2 & P3 & P4). pose proof fone_pos as HF.
  rewrite ((fvalue_abs f Hok) _ P1), ((fvalue_abs f Hok) _ Hx), P3. destruct P4 as [(-> & k & Hk)|(q & n & t & u & Hu & Hqu & Ha & Ht & Hn & _ & Hr)].
  - split; [exists ((if f_sign f x then -1 else 1) * k); rewrite Hk; ring|]. rewrite Z.sub_diag. cbn. lia.
  - rewrite Hr, Ha. split; [exists ((if f_sign f x then -1 else 1) * (if up (f_sign f x) n t q then n + 1 else n)); ring|].
    specialize (Hup (f_sign f x) n t q Ht). rewrite <- Z.mul_sub_distr_l, Z.abs_mul.
    replace (Z.abs (if f_sign f x then -1 else 1)) with 1 by (destruct (f_sign f x); reflexivity). rewrite Z.mul_1_l, Hqu. destruct Hup as [U1 U2]. destruct (up (f_sign f x) n t q).
    + replace ((n + 1) * (q * u) - (n * (q * u) + t * u)) with ((q - t) * u) by ring. specialize (U1 eq_refl). rewrite Z.abs_eq by nia. nia.
    + replace (n * (q * u) - (n * (q * u) + t * u)) with (- (t * u)) by ring. specialize (U2 eq_refl). rewrite Z.abs_opp, Z.abs_eq by nia. nia.
Qed.

Lemma even_up : forall (n r q : Z), 0 <= r < q -> ((q <? 2 * r) || ((q =? 2 * r) && Z.odd n) = true -> q <= 2 * r) /\ ((q <? 2 * r) || ((q =? 2 * r) && Z.odd n) = false -> 2 * r <= q).
Proof. intros n r q H. destruct (Z.odd n); lia. Qed.

(** The two roundings to nearest agree unless the lane is a tie. *)
Lemma nearest_agree : forall x, f_pattern f x -> ~ tie f x -> f_nearest_even f x = f_nearest_away f x.
Proof.
  intros x Hx Ht. destruct (nan_iff f Hok x Hx) as (N1 & N2 & _). destruct (f_nan f x) eqn:Nn; [unfold f_nearest_even, f_nearest_away, f_integral; rewrite Nn; reflexivity|].
  destruct (proj1 N2 eq_refl) as [Hf|Hi].
  2:{ unfold f_nearest_even, f_nearest_away. rewrite !(proj1 (integral_other _ x Hx) Hi). reflexivity. }
  unfold f_nearest_even, f_nearest_away, f_integral. rewrite Nn. destruct (0 <=? f_pow f x) eqn:P; [reflexivity|]. do 2 f_equal.
  destruct ((sig_exp f Hok) x Hx) as (H5 & H6 & H7). destruct B_range as [B1 B2]. destruct Hok as (K1 & K2 & K3). unfold f_pow, f_bias in *.
  set (q := 2 ^ (- (f_exp f x - B - f_m f))) in *. assert (Hq : 2 <= q) by (unfold q; change 2 with (2 ^ 1) at 1; apply Z.pow_le_mono_r; lia).
  assert (Hne : q <> 2 * (f_sig f x mod q)).
  { intros C. apply Ht. split; [exact Hf|]. set (u := 2 ^ (f_exp f x - 1)). assert (Hqu : fone f = q * u) by (unfold q, u; rewrite fone_eq, <- Z.pow_add_r by lia; f_equal; lia).
    assert (Ha : 2 * absval f x = fone f * (2 * (f_sig f x / q) + 1)).
    { unfold absval. fold u. rewrite Hqu. pose proof (Z.div_mod (f_sig f x) q ltac:(lia)) as D. rewrite D at 1. replace (2 * ((q * (f_sig f x / q) + f_sig f x mod q) * u)) with ((2 * q * (f_sig f x / q) + 2 * (f_sig f x mod q)) * u) by ring. rewrite <- C. ring. }
    exists (if f_sign f x then - (f_sig f x / q) - 1 else f_sig f x / q). rewrite ((fvalue_abs f Hok) _ Hx). destruct (f_sign f x).
    - replace (2 * (-1 * absval f x)) with (- (2 * absval f x)) by ring. rewrite Ha. ring.
    - rewrite Z.mul_1_l. exact Ha. }
  pose proof (Z.mod_pos_bound (f_sig f x) q ltac:(lia)). replace (q =? 2 * (f_sig f x mod q)) with false by lia. cbn [andb]. rewrite orb_false_r.
  replace (q <? 2 * (f_sig f x mod q)) with (q <=? 2 * (f_sig f x mod q)) by lia. reflexivity.
Qed.

(** At a tie above an even integer they differ by one. *)
Lemma nearest_tie : forall x n, f_pattern f x -> is_finite f x -> 0 <= n -> 2 * Z.abs (fvalue f x) = fone f * (2 * (2 * n) + 1) ->
  Z.abs (fvalue f (f_nearest_even f x)) = fone f * (2 * n) /\ Z.abs (fvalue f (f_nearest_away f x)) = fone f * (2 * n + 1).
Proof.
  intros x n Hx Hf Hn0 Hv. pose proof fone_pos as HF.
  assert (Habs : forall y, f_pattern f y -> Z.abs (fvalue f y) = absval f y).
  { intros y Hy. rewrite ((fvalue_abs f Hok) _ Hy), Z.abs_mul. assert (0 <= absval f y) by (unfold absval; destruct ((sig_exp f Hok) y Hy) as (A1 & A2 & A3); apply Z.mul_nonneg_nonneg; [lia|apply Z.pow_nonneg; lia]).
    replace (Z.abs (if f_sign f y then -1 else 1)) with 1 by (destruct (f_sign f y); reflexivity). lia. }
  rewrite (Habs x Hx) in Hv.
  assert (Fe : exists h, fone f = 2 * h /\ 0 < h).
  { destruct B_range as [B1 B2]. destruct Hok as (K1 & K2 & K3). pose proof (E_pos f Hok) as HE.  exists (2 ^ (B + f_m f - 2)). split; [rewrite fone_eq, <- Z.pow_succ_r by lia; f_equal; lia|apply Z.pow_pos_nonneg; lia]. }
  destruct Fe as (h & Hh & Hhp).
  assert (Hsplit : forall up, exists q t u, 0 < u /\ fone f = q * u /\ 0 <= t < q /\ q = 2 * t /\ f_pattern f (f_integral f up x) /\ absval f (f_integral f up x) = (if up (f_sign f x) (2 * n) t q then 2 * n + 1 else 2 * n) * fone f).
  { intros up. destruct (integral_finite up x Hx Hf) as (P1 & P2 & P3 & P4). destruct P4 as [(_ & k & Hk)|(q & n' & t & u & Hu & Hqu & Ha & Ht & Hn & _ & Hr)].
    - exfalso. rewrite Hk in Hv. assert (2 * k = 2 * (2 * n) + 1) by (apply (Z.mul_reg_l _ _ (fone f)); lia). lia.
    - assert (n' = 2 * n).
      { assert (A1 : 2 * (t * u) = fone f * (2 * (2 * n - n') + 1)) by lia. assert (A2 : t * u < fone f) by nia. assert (A3 : 0 <= t * u) by nia.
        assert (0 < 2 * (2 * n - n') + 1 \/ 2 * (2 * n - n') + 1 < 0) by lia. nia. }
      assert (Hq2 : q = 2 * t) by (assert (u * (2 * t) = u * q) by (subst n'; lia); assert (2 * t = q) by (apply (Z.mul_reg_l _ _ u); lia); lia).
      subst n'. exists q, t, u. split; [exact Hu|]. split; [exact Hqu|]. split; [exact Ht|]. split; [exact Hq2|]. split; [exact P1|exact Hr]. }
  unfold f_nearest_even, f_nearest_away. split.
  - destruct (Hsplit (fun s n r q => (q <? 2 * r) || ((q =? 2 * r) && Z.odd n))) as (q & t & u & _ & _ & _ & Hq & Hp & Ha). rewrite (Habs _ Hp), Ha.
    replace (q <? 2 * t) with false by lia. replace (Z.odd (2 * n)) with false by (rewrite Z.odd_mul; reflexivity). rewrite andb_false_r. cbn [orb]. ring.
  - destruct (Hsplit (fun s n r q => q <=? 2 * r)) as (q & t & u & _ & _ & _ & Hq & Hp & Ha). rewrite (Habs _ Hp), Ha. replace (q <=? 2 * t) with true by lia. ring.
Qed.

(** At a tie the remainder is one half. *)
Lemma tie_split : forall up x, f_pattern f x -> tie f x ->
  let r := f_integral f up x in f_pattern f r /\ f_sign f r = f_sign f x /\
  exists q n t, 0 < fone f /\ q = 2 * t /\ 0 <= n /\ 2 * absval f x = (2 * n + 1) * fone f /\
    absval f r = (if up (f_sign f x) n t q then n + 1 else n) * fone f.
Proof.
  intros up x Hx [Hf (k & Hv)]. pose proof fone_pos as HF. destruct (integral_finite up x Hx Hf) as (P1 & P2 & P3 & P4). split; [exact P1|]. split; [exact P3|].
  assert (Hodd : exists k', 2 * absval f x = fone f * (2 * k' + 1)).
  { rewrite ((fvalue_abs f Hok) _ Hx) in Hv. destruct (f_sign f x); [exists (- k - 1)|exists k]; lia. }
  destruct Hodd as (k' & Hk'). destruct P4 as [(_ & j & Hj)|(q & n & t & u & Hu & Hqu & Ha & Ht & Hn & _ & Hr)].
  - exfalso. rewrite Hj in Hk'. assert (2 * j = 2 * k' + 1) by (apply (Z.mul_reg_l _ _ (fone f)); lia). lia.
  - assert (n = k').
    { assert (A1 : 2 * (t * u) = fone f * (2 * (k' - n) + 1)) by lia. assert (A2 : t * u < fone f) by nia. assert (A3 : 0 <= t * u) by nia.
      assert (0 < 2 * (k' - n) + 1 \/ 2 * (k' - n) + 1 < 0) by lia. nia. }
    subst k'. assert (Hq2 : q = 2 * t) by (assert (u * (2 * t) = u * q) by lia; assert (2 * t = q) by (apply (Z.mul_reg_l _ _ u); lia); lia).
    exists q, n, t. split; [exact HF|]. split; [exact Hq2|]. split; [exact Hn|]. split; [lia|exact Hr].
Qed.

Lemma nearest_away_ok : forall x, f_pattern f x -> rounds f (nearest_away_of f) x (f_nearest_away f x).
Proof.
  intros x Hx. unfold f_nearest_away. destruct (nearest_ok (fun s n r q => q <=? 2 * r) x Hx) as (R1 & R2 & R3); [intros s n r q Hq; split; lia|].
  split; [|split; [exact R2|exact R3]]. intros Hf. destruct (R1 Hf) as (G1 & G2 & G3). split; [exact G1|]. split; [exact G2|]. split; [exact G3|].
  intros Ht. destruct (tie_split (fun s n r q => q <=? 2 * r) x Hx Ht) as (P1 & P3 & q & n & t & HF & Hq & Hn & Ha & Hr).
  rewrite ((fvalue_abs f Hok) _ P1), ((fvalue_abs f Hok) _ Hx), P3, Hr, !Z.abs_mul. replace (q <=? 2 * t) with true by lia.
  replace (Z.abs (if f_sign f x then -1 else 1)) with 1 by (destruct (f_sign f x); reflexivity). rewrite (Z.abs_eq (absval f x)) by nia. nia.
Qed.

Lemma nearest_even_ok : forall x, f_pattern f x -> rounds f (nearest_even_of f) x (f_nearest_even f x).
Proof.
  intros x Hx. unfold f_nearest_even. destruct (nearest_ok (fun s n r q => (q <? 2 * r) || ((q =? 2 * r) && Z.odd n)) x Hx) as (R1 & R2 & R3); [intros s n r q Hq; apply even_up; exact Hq|].
  split; [|split; [exact R2|exact R3]]. intros Hf. destruct (R1 Hf) as (G1 & G2 & G3). split; [exact G1|]. split; [exact G2|]. split; [exact G3|].
  intros Ht. destruct (tie_split (fun s n r q => (q <? 2 * r) || ((q =? 2 * r) && Z.odd n)) x Hx Ht) as (P1 & P3 & q & n & t & HF & Hq & Hn & Ha & Hr).
  rewrite ((fvalue_abs f Hok) _ P1), P3, Hr. replace (q <? 2 * t) with false by lia. replace (q =? 2 * t) with true by lia. cbn [orb andb].
  destruct (Z.odd n) eqn:On.
  - exists ((if f_sign f x then -1 else 1) * ((n + 1) / 2)). assert (n + 1 = 2 * ((n + 1) / 2)) by (apply Z.odd_spec in On; destruct On as [m ->]; replace (2 * m + 1 + 1) with ((m + 1) * 2) by lia; rewrite Z.div_mul by lia; lia).
    set (e := (n + 1) / 2) in *. destruct (f_sign f x); nia.
  - exists ((if f_sign f x then -1 else 1) * (n / 2)). assert (n = 2 * (n / 2)) by (assert (Z.even n = true) by (rewrite <- Z.negb_odd, On; reflexivity); apply Z.even_spec in H; destruct H as [m ->]; rewrite (Z.mul_comm 2 m), Z.div_mul by lia; lia).
    set (e := n / 2) in *. destruct (f_sign f x); nia.
Qed.

Lemma integral_pattern : forall up x, f_pattern f x -> f_pattern f (f_integral f up x).
Proof.
  intros up x Hx. destruct (nan_iff f Hok x Hx) as (N1 & N2 & _). destruct (f_nan f x) eqn:Nn; [apply integral_other; [exact Hx|apply N1; reflexivity]|].
  destruct (proj1 N2 eq_refl) as [Hf|Hi]; [apply (integral_finite up x Hx Hf)|rewrite (proj1 (integral_other up x Hx) Hi); exact Hx].
Qed.
End Rounding.

(** The instruction of a unary entry, and what it computes on each lane. *)
Definition instr1_of (fs : elty -> Z -> Z) (o : op_impl) : option instr1 :=
  find (fun i => String.eqb (i1_name i) (op_mm o) && strings_eqb (i1_args i) (op_args o)) (unary_instrs (fs EF32) (fs EF64)).

Definition opt_fn (fs : elty -> Z -> Z) (o : op_impl) : Z -> Z :=
  let f := fmt_of (op_el o) in
  if String.eqb (op_fn o) "round" then f_nearest_even f else if String.eqb (op_fn o) "ceil" then f_ceil f
  else if String.eqb (op_fn o) "floor" then f_floor f else if String.eqb (op_fn o) "trunc" then f_trunc f else fs (op_el o).

Definition entry1_ok (fs : elty -> Z -> Z) (o : op_impl) : Prop :=
  idx_check o = true /\ (op_el o = EF32 \/ op_el o = EF64) /\
  match instr1_of fs o with
  | Some i => i1_ty i = lane_ity (op_el o) /\ Z.of_nat (i1_reg i) = WIDTH (op_ty o) * SIZE (op_ty o) /\ i1_op i = opt_fn fs o
  | None => ~ (In o x86_round \/ In o x86_sqrt)
  end.

Lemma unary_entries : forall fs, Forall (entry1_ok fs) ((x86_round ++ unknown_round) ++ x86_sqrt ++ unknown_sqrt).
Proof.
  intros fs. unfold x86_round, unknown_round, x86_sqrt, unknown_sqrt. cbn [app].
  split_table; (split; [vm_compute; reflexivity|]; split; [cbn [op_el]; tauto|];
    cbv [instr1_of find unary_instrs String.eqb Ascii.eqb Bool.eqb strings_eqb i1_name i1_args op_mm op_args andb];
    first [split; [vm_compute; reflexivity|]; split; [vm_compute; reflexivity|]; reflexivity
          |unfold x86_round, x86_sqrt; cbn [In]; intros [C|C]; repeat (destruct C as [C|C]; [discriminate C|]); exact C]).
Qed.

Lemma lanes1_seq : forall W g a n pa ra, a = pa ++ ra -> length ra = n -> zlen a <= W ->
  lanes1 W g a (map Z.of_nat (seq (length pa) n)) = Ok (map g ra).
Proof.
  intros W g a. induction n as [|n IH]; intros pa ra Ha H1 Hwa; [destruct ra; [reflexivity|discriminate]|].
  destruct ra as [|x ra]; [discriminate|]. cbn [seq map lanes1].
  assert (E1 : extract W a (Z.of_nat (length pa)) = Ok x) by (subst a; apply extract_prefix; exact Hwa).
  rewrite E1. cbn [bind]. specialize (IH (pa ++ [x]) ra). rewrite app_length in IH. cbn [length] in IH. replace (length pa + 1)%nat with (S (length pa)) in IH by lia.
  rewrite IH; [reflexivity|subst a; rewrite <- app_assoc; reflexivity|cbn in H1; lia|exact Hwa].
Qed.

Lemma portable1_ok : forall fs o g a, idx_check o = true -> rust_unary fs o = Some g -> zlen a = WIDTH (op_ty o) -> portable1 fs o a = Some (Ok (map g a)).
Proof.
  intros fs o g a Hi Hg Ha. unfold idx_check in Hi. apply andb_true_iff in Hi. destruct Hi as [Hw Hi]. apply list_dec_true in Hi.
  unfold portable1. rewrite Hg. cbn [option_map]. rewrite Hi. f_equal. unfold zlen in *. apply (lanes1_seq (WIDTH (op_ty o)) g a _ [] a); try reflexivity; unfold zlen; lia.
Qed.

Lemma optimized1_ok : forall fs o a, entry1_ok fs o -> int_vector (WIDTH (op_ty o)) (lane_ity (op_el o)) a ->
  (forall x, in_ity (lane_ity (op_el o)) x -> in_ity (lane_ity (op_el o)) (opt_fn fs o x)) ->
  (forall r, optimized1 fs o a = Some r -> r = map (opt_fn fs o) a) /\ (In o x86_round \/ In o x86_sqrt -> optimized1 fs o a <> None).
Proof.
  intros fs o a (_ & Hel & Hi) [Ha1 Ha2] Hr. unfold optimized1. fold (instr1_of fs o). destruct (instr1_of fs o) as [i|]; [|split; [discriminate|intros C; exfalso; exact (Hi C)]].
  destruct Hi as (H1 & H2 & H3). split; [|discriminate]. intros r E. inversion E. subst r. unfold exec1. rewrite H1, H3.
  assert (Hp : (0 < ibytes (lane_ity (op_el o)))%nat) by (destruct Hel as [-> | ->]; apply Nat.ltb_lt; reflexivity).
  rewrite lanes_of_cast by (reflexivity || exact Hp). rewrite lanes_of_cast by (reflexivity || exact Hp). rewrite !map_map. apply map_ext_in. intros x Hx. rewrite Forall_forall in Ha2. specialize (Ha2 x Hx).
  rewrite (wrap_id _ x) by assumption. apply wrap_id. apply Hr. exact Ha2.
Qed.

Lemma pattern_float : forall e x, e = EF32 \/ e = EF64 -> f_pattern (fmt_of e) x -> in_ity (lane_ity e) x.
Proof.
  intros e x [-> | ->] H; unfold f_pattern in H; unfold in_ity; cbn [lane_ity fmt_of] in *.
  - change (imin u32) with 0. change (imax u32) with 4294967295. change (2 ^ (1 + f_e fmt32 + f_m fmt32)) with 4294967296 in H. lia.
  - change (imin u64) with 0. change (imax u64) with 18446744073709551615. change (2 ^ (1 + f_e fmt64 + f_m fmt64)) with 18446744073709551616 in H. lia.
Qed.

Lemma round_entry : forall fs o, In o (x86_round ++ unknown_round) -> entry1_ok fs o /\ (op_fn o = "round" \/ op_fn o = "ceil" \/ op_fn o = "floor" \/ op_fn o = "trunc")%string /\
  rust_unary fs o = Some (if String.eqb (op_fn o) "round" then f_nearest_away (fmt_of (op_el o)) else opt_fn fs o) /\
  (forall x, in_ity (lane_ity (op_el o)) x -> in_ity (lane_ity (op_el o)) (opt_fn fs o x)).
Proof.
  intros fs o Hin. pose proof (unary_entries fs) as He. rewrite Forall_forall in He. specialize (He o ltac:(apply in_or_app; left; exact Hin)).
  assert (Hn : (op_fn o = "round" \/ op_fn o = "ceil" \/ op_fn o = "floor" \/ op_fn o = "trunc")%string).
  { assert (G : forallb (fun o => String.eqb (op_fn o) "round" || (String.eqb (op_fn o) "ceil" || (String.eqb (op_fn o) "floor" || String.eqb (op_fn o) "trunc"))) (x86_round ++ unknown_round) = true) by (vm_compute; reflexivity).
    rewrite forallb_forall in G. specialize (G o Hin). rewrite !orb_true_iff, !String.eqb_eq in G. exact G. }
  split; [exact He|]. split; [exact Hn|]. destruct He as (_ & Hel & _). split.
  - unfold rust_unary, opt_fn. destruct Hel as [-> | ->]; destruct Hn as [-> |[-> |[-> | ->]]]; reflexivity.
  - intros x Hx. apply pattern_float; [exact Hel|]. apply float_pattern in Hx; [|exact Hel]. unfold opt_fn, f_nearest_even, f_ceil, f_floor, f_trunc.
    destruct Hn as [-> |[-> |[-> | ->]]]; cbn [String.eqb Ascii.eqb Bool.eqb]; apply integral_pattern; try apply fmt_of_ok; exact Hx.
Qed.

Lemma Forall2_map_r : forall (A B : Type) (R : A -> B -> Prop) (g : A -> B) (a : list A), (forall x, In x a -> R x (g x)) -> Forall2 R a (map g a).
Proof. intros A B R g. induction a as [|x a IH]; intros H; constructor; [apply H; left; reflexivity|apply IH; intros y Hy; apply H; right; exact Hy]. Qed.

Lemma c50_directed : forall (fsqrt : elty -> Z -> Z) (o : op_impl) (a : list Z), In o (x86_round ++ unknown_round) -> op_fn o <> "round"%string ->
  int_vector (WIDTH (op_ty o)) (lane_ity (op_el o)) a ->
  let f := match op_el o with EF64 => fmt64 | _ => fmt32 end in
  exists r, portable1 fsqrt o a = Some (Ok r) /\ (forall r', optimized1 fsqrt o a = Some r' -> r' = r) /\ (In o x86_round -> optimized1 fsqrt o a <> None) /\
    Forall2 (rounds f (if String.eqb (op_fn o) "ceil" then ceil_of f else if String.eqb (op_fn o) "floor" then floor_of f else trunc_of f)) a r.
Proof.
  intros fs o a Hin Hnr Ha f. change f with (fmt_of (op_el o)). clear f. destruct (round_entry fs o Hin) as (He & Hn & Hu & Hr). destruct (optimized1_ok fs o a He Ha Hr) as [O1 O2].
  exists (map (opt_fn fs o) a). split; [|split; [exact O1|split; [intros Hx; apply O2; left; exact Hx|]]].
  - apply portable1_ok; [apply He| |apply Ha]. rewrite Hu. replace (String.eqb (op_fn o) "round") with false by (symmetry; apply String.eqb_neq; exact Hnr). reflexivity.
  - apply Forall2_map_r. intros x Hx. destruct Ha as [_ Ha]. rewrite Forall_forall in Ha. specialize (Ha x Hx). destruct He as (_ & Hel & _). apply float_pattern in Ha; [|exact Hel]. pose proof (fmt_of_ok (op_el o)) as Hok. unfold opt_fn.
    destruct Hn as [Hn|[-> |[-> | ->]]]; [contradiction| | |]; cbn [String.eqb Ascii.eqb Bool.eqb]; [apply ceil_ok|apply floor_ok|apply trunc_ok]; assumption.
Qed.

Lemma c50_round_partial : forall (fsqrt : elty -> Z -> Z) (o : op_impl) (a : list Z), In o (x86_round ++ unknown_round) -> op_fn o = "round"%string ->
  int_vector (WIDTH (op_ty o)) (lane_ity (op_el o)) a ->
  let f := match op_el o with EF64 => fmt64 | _ => fmt32 end in
  exists r, portable1 fsqrt o a = Some (Ok r) /\ Forall2 (rounds f (nearest_away_of f)) a r /\ (In o x86_round -> optimized1 fsqrt o a <> None) /\
    (forall r', optimized1 fsqrt o a = Some r' -> Forall2 (rounds f (nearest_even_of f)) a r' /\ (Forall (fun x => ~ tie f x) a -> r' = r)).
Proof.
  intros fs o a Hin Hnr Ha f. change f with (fmt_of (op_el o)). clear f. destruct (round_entry fs o Hin) as (He & Hn & Hu & Hr). destruct (optimized1_ok fs o a He Ha Hr) as [O1 O2]. rewrite Hnr in Hu. cbn [String.eqb Ascii.eqb Bool.eqb] in Hu.
  pose proof (fmt_of_ok (op_el o)) as Hok. pose proof Ha as Ha'. destruct Ha' as [Ha1 Ha2]. rewrite Forall_forall in Ha2. pose proof He as (Hidx & Hel & _).
  assert (Hp : forall x, In x a -> f_pattern (fmt_of (op_el o)) x) by (intros x Hx; apply float_pattern; [exact Hel|apply Ha2; exact Hx]).
  assert (Hopt : opt_fn fs o = f_nearest_even (fmt_of (op_el o))) by (unfold opt_fn; rewrite Hnr; reflexivity). rewrite Hopt in O1.
  exists (map (f_nearest_away (fmt_of (op_el o))) a). split; [|split; [|split; [intros Hx; apply O2; left; exact Hx|]]].
  - apply portable1_ok; [exact Hidx|exact Hu|exact Ha1].
  - apply Forall2_map_r. intros x Hx. apply nearest_away_ok; [exact Hok|apply Hp; exact Hx].
  - intros r' E. rewrite (O1 r' E). split.
    + apply Forall2_map_r. intros x Hx. apply nearest_even_ok; [exact Hok|apply Hp; exact Hx].
    + intros Ht. apply map_ext_in. intros x Hx. rewrite Forall_forall in Ht. apply nearest_agree; [exact Hok|apply Hp; exact Hx|apply Ht; exact Hx].
Qed.

Lemma c50_round_ties_refuted : forall (fsqrt : elty -> Z -> Z) (o : op_impl) (x n : Z), In o x86_round -> op_fn o = "round"%string ->
  let f := match op_el o with EF64 => fmt64 | _ => fmt32 end in
  in_ity (lane_ity (op_el o)) x -> is_finite f x -> 0 <= n -> 2 * Z.abs (fvalue f x) = fone f * (2 * (2 * n) + 1) ->
  exists p r, portable1 fsqrt o (splat (WIDTH (op_ty o)) x) = Some (Ok (splat (WIDTH (op_ty o)) p)) /\
    optimized1 fsqrt o (splat (WIDTH (op_ty o)) x) = Some (splat (WIDTH (op_ty o)) r) /\
    Z.abs (fvalue f p) = fone f * (2 * n + 1) /\ Z.abs (fvalue f r) = fone f * (2 * n) /\ p <> r.
Proof.
  intros fs o x n Hin Hnr f Hx Hf Hn0 Hv. change f with (fmt_of (op_el o)) in *. clear f. assert (Hin' : In o (x86_round ++ unknown_round)) by (apply in_or_app; left; exact Hin).
  destruct (round_entry fs o Hin') as (He & Hn & Hu & Hr). rewrite Hnr in Hu. cbn [String.eqb Ascii.eqb Bool.eqb] in Hu. pose proof (fmt_of_ok (op_el o)) as Hok. pose proof He as (Hidx & Hel & _).
  assert (Hw : 0 < WIDTH (op_ty o)) by (unfold idx_check in Hidx; apply andb_true_iff in Hidx; lia).
  assert (Hl : zlen (splat (WIDTH (op_ty o)) x) = WIDTH (op_ty o)) by (unfold zlen, splat; rewrite repeat_length; lia).
  assert (Ha : int_vector (WIDTH (op_ty o)) (lane_ity (op_el o)) (splat (WIDTH (op_ty o)) x)).
  { split; [exact Hl|]. unfold splat. apply Forall_forall. intros u Hu'. apply repeat_spec in Hu'. subst u. exact Hx. }
  destruct (optimized1_ok fs o _ He Ha Hr) as [O1 O2]. assert (Hopt : opt_fn fs o = f_nearest_even (fmt_of (op_el o))) by (unfold opt_fn; rewrite Hnr; reflexivity). rewrite Hopt in O1.
  assert (Hmap : forall g : Z -> Z, map g (splat (WIDTH (op_ty o)) x) = splat (WIDTH (op_ty o)) (g x)) by (intros g; unfold splat; induction (Z.to_nat (WIDTH (op_ty o))) as [|k IH]; [reflexivity|cbn [repeat map]; rewrite IH; reflexivity]).
  apply (float_pattern _ _ Hel) in Hx. destruct (nearest_tie _ Hok x n Hx Hf Hn0 Hv) as [T1 T2]. pose proof (fone_pos _ Hok) as HF.
  exists (f_nearest_away (fmt_of (op_el o)) x), (f_nearest_even (fmt_of (op_el o)) x). split; [|split; [|split; [exact T2|split; [exact T1|intros C; rewrite C in T2; nia]]]].
  - rewrite (portable1_ok fs o _ _ Hidx Hu Hl), Hmap. reflexivity.
  - destruct (optimized1 fs o (splat (WIDTH (op_ty o)) x)) as [r|] eqn:E; [|exfalso; apply (O2 (or_introl Hin)); reflexivity]. f_equal. rewrite (O1 r eq_refl). apply Hmap.
Qed.

Lemma c56_sqrt : forall (fsqrt : elty -> Z -> Z) (o : op_impl) (a : list Z), In o (x86_sqrt ++ unknown_sqrt) ->
  (forall e x, e = EF32 \/ e = EF64 -> in_ity (lane_ity e) x -> in_ity (lane_ity e) (fsqrt e x)) -> int_vector (WIDTH (op_ty o)) (lane_ity (op_el o)) a ->
  portable1 fsqrt o a = Some (Ok (map (fsqrt (op_el o)) a)) /\ (forall r, optimized1 fsqrt o a = Some r -> r = map (fsqrt (op_el o)) a) /\
  (In o x86_sqrt -> optimized1 fsqrt o a <> None).
Proof.
  intros fs o a Hin Hfs Ha. pose proof (unary_entries fs) as He. rewrite Forall_forall in He. specialize (He o ltac:(apply in_or_app; right; exact Hin)).
  assert (Hn : op_fn o = "sqrt"%string) by (apply (fn_named (x86_sqrt ++ unknown_sqrt)); [vm_compute; reflexivity|exact Hin]).
  assert (Hopt : opt_fn fs o = fs (op_el o)) by (unfold opt_fn; rewrite Hn; reflexivity).
  destruct (optimized1_ok fs o a He Ha) as [O1 O2]; [rewrite Hopt; intros x; apply Hfs; apply He|]. rewrite Hopt in O1. split; [|split; [exact O1|intros Hx; apply O2; right; exact Hx]].
  apply portable1_ok; [apply He| |apply Ha]. unfold rust_unary. rewrite Hn. destruct He as (_ & [-> | ->] & _); reflexivity.
Qed.
