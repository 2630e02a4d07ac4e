(** Proofs that the arithmetic of Arith.v rounds correctly. *)
From Coq Require Import String Lia ZifyBool ZifyNat.
From Verif Require Import Base Floats FloatSpec OpTables OpSpec Arith ArithSpec FloatFacts RoundProofs.
Open Scope Z_scope.
Ltac Zify.zify_post_hook ::= Z.div_mod_to_equations.

(** Choosing between two neighbouring multiples of [D]. *)
Lemma pick : forall D r n Y, 0 < D -> 0 <= r < D -> 0 <= n -> 0 <= Y -> (Y <= n * D \/ (n + 1) * D <= Y) ->
  let N := n * D + r in let up := (D <? 2 * r) || ((D =? 2 * r) && Z.odd n) in let n' := n + (if up then 1 else 0) in
  Z.abs (n' * D - N) <= Z.abs (Y - N) /\ (Z.abs (n' * D - N) = Z.abs (Y - N) -> Y <> n' * D -> Z.even n' = true).
Proof.
  intros D r n Y HD Hr Hn HY Side N up n'. assert (E1 : (n + 1) * D = n * D + D) by ring. rewrite E1 in Side.
  subst n' N. unfold up. clear up. destruct (D <? 2 * r) eqn:U1; cbn [orb andb].
  - rewrite E1. set (u := n * D) in *. clearbody u. split; [lia|]. intros; exfalso; lia.
  - destruct (D =? 2 * r) eqn:U2; cbn [andb].
    + destruct (Z.odd n) eqn:O.
      * rewrite E1. rewrite Z.even_add, <- Z.negb_odd, O. split; [|reflexivity]. set (u := n * D) in *. clearbody u. lia.
      * rewrite Z.add_0_r, <- Z.negb_odd, O. split; [|reflexivity]. set (u := n * D) in *. clearbody u. lia.
    + rewrite Z.add_0_r. set (u := n * D) in *. clearbody u. split; [lia|]. intros; exfalso; lia.
Qed.

Section Round.
Variable f : ffmt.
Hypothesis Hok : fmt_ok f.

Local Notation M := (2 ^ f_m f).
Local Notation E := (2 ^ f_e f).
Local Notation B := (2 ^ (f_e f - 1) - 1).

Lemma inf_eq : f_inf f = (E - 1) * M.
Proof. reflexivity. Qed.

(** The pattern [k * M + n] has the value [n * 2 ^ k]. *)
Lemma pattern_value : forall s k n, 0 <= k -> 0 <= n <= 2 * M -> (k = 0 \/ M <= n) -> k * M + n <= f_inf f -> let r := f_with_sign f s (k * M + n) in
  f_pattern f r /\ ~ is_nan f r /\ f_sign f r = s /\ f_mag f r = k * M + n /\ absval f r = n * 2 ^ k /\ Z.even (fraction_field f r) = Z.even n.
Proof.
  intros s k n Hk Hn Hkn Hinf r. pose proof (M_pos f Hok) as HM. pose proof (E_pos f Hok) as HE. rewrite inf_eq in Hinf.
  assert (Ev : Z.even M = true) by (destruct Hok as (K1 & K2 & K3); replace (f_m f) with (Z.succ (f_m f - 1)) by lia; rewrite Z.pow_succ_r by lia; rewrite Z.even_mul; reflexivity).
  assert (Hr : exists e m, 0 <= e < E /\ 0 <= m < M /\ k * M + n = e * M + m /\ (if e =? 0 then m else M + m) * 2 ^ (Z.max 1 e - 1) = n * 2 ^ k /\ Z.even m = Z.even n /\ (e = E - 1 -> m = 0)).
  { destruct (Z_lt_dec n M) as [L|L].
    - assert (k = 0) as -> by lia. exists 0, n. replace (Z.max 1 0 - 1) with 0 by lia. rewrite !Z.pow_0_r. repeat split; try lia. 
    - assert (Hsplit : n = 2 * M \/ M <= n < 2 * M) by lia. destruct Hsplit as [->|L2].
      + assert (k + 2 <= E - 1) by nia. exists (k + 2), 0. replace (k + 2 =? 0) with false by lia. replace (Z.max 1 (k + 2) - 1) with (Z.succ k) by lia. rewrite Z.pow_succ_r by lia. split; [lia|]. split; [lia|]. split; [ring|]. split; [ring|]. split; [rewrite Z.even_mul; reflexivity|lia].
      + assert (k + 1 <= E - 1) by nia. exists (k + 1), (n - M). replace (k + 1 =? 0) with false by lia. replace (Z.max 1 (k + 1) - 1) with k by lia. split; [lia|]. split; [lia|]. split; [ring|]. split; [f_equal; lia|]. split; [rewrite Z.even_sub, Ev; destruct (Z.even n); reflexivity|].
        intros He. assert (k = E - 2) by lia. subst k. nia. }
  destruct Hr as (e & m & He & Hm & Hp & Hv & Hev & Hi).
  assert (R : r = (if s then 1 else 0) * (E * M) + (e * M + m)) by (subst r; unfold f_with_sign; rewrite Hp, (EM f Hok); destruct s; lia).
  destruct (fields_of f Hok (if s then 1 else 0) e m) as (F1 & F2 & F3 & F4); [destruct s; lia|lia|exact Hm|]. rewrite <- R in F1, F2, F3, F4.
  destruct (mag_fields f Hok r F1) as (G1 & _ & _ & G4). rewrite F2, F3 in G1. rewrite F4 in G4.
  split; [exact F1|]. split; [unfold is_nan; rewrite F2, F3; tauto|]. split; [destruct s, G4 as [ [? ?]|[? ?] ]; congruence|]. split; [lia|].
  destruct (sig_exp f Hok r F1) as (S1 & S2 & _). split; [|rewrite F3; exact Hev]. unfold absval. rewrite S1, S2, F2, F3. exact Hv.
Qed.

Lemma mag_le_inf : forall y, f_pattern f y -> ~ is_nan f y -> 0 <= f_mag f y <= f_inf f.
Proof.
  intros y Hy Hn. destruct (nan_iff f Hok y Hy) as (N1 & _). destruct (mag_fields f Hok y Hy) as (G1 & G2 & G3 & _). pose proof (M_pos f Hok).
  split; [rewrite G1; nia|]. destruct (f_nan f y) eqn:C; [tauto|]. unfold f_nan in C. lia.
Qed.

Lemma absval_le : forall x y, f_pattern f x -> f_pattern f y -> f_mag f x <= f_mag f y -> absval f x <= absval f y.
Proof.
  intros x y Hx Hy H. pose proof (absval_mag f Hok x y Hx Hy) as K. destruct (Z.compare_spec (f_mag f x) (f_mag f y)) as [C|C|C]; [apply Z.compare_eq_iff in K; lia|apply (proj1 (Z.compare_lt_iff _ _)) in K; lia|lia].
Qed.

Definition sg (s : bool) : Z := if s then -1 else 1.

Lemma signed_dist : forall s s' Z0 Y N, 0 <= Z0 -> 0 <= Y -> 0 <= N -> (Z0 = 0 \/ 0 < N) -> Z.abs (Z0 - N) <= Z.abs (Y - N) ->
  Z.abs (sg s * Z0 - sg s * N) <= Z.abs (sg s' * Y - sg s * N) /\
  (Z.abs (sg s * Z0 - sg s * N) = Z.abs (sg s' * Y - sg s * N) -> sg s' * Y <> sg s * Z0 -> Z.abs (Z0 - N) = Z.abs (Y - N) /\ Y <> Z0).
Proof. intros [] []; unfold sg; intros; lia. Qed.

Lemma round_nearest : forall s num den, 0 <= num -> 0 < den -> let z := f_round f s num den in
  nearest_to f (sg s * num) den z /\ f_sign f z = s /\ f_pattern f z /\ ~ is_nan f z /\ (num = 0 -> absval f z = 0).
Proof.
  intros s num den Hnum Hden z. pose proof (M_pos f Hok) as HM. pose proof (E_pos f Hok) as HE. assert (Km : 1 <= f_m f) by (destruct Hok as (_ & ? & _); assumption).
  unfold f_round in z. set (k := Z.max 0 (Z.log2 (num / den) - f_m f)) in *. set (d := den * 2 ^ k) in *. set (n := num / d) in *. set (r := num mod d) in *.
  set (up := (d <? 2 * r) || ((d =? 2 * r) && Z.odd n)) in *. assert (Hk : 0 <= k) by lia. assert (P2 : 0 < 2 ^ k) by (apply Z.pow_pos_nonneg; lia). assert (Hd : 0 < d) by (apply Z.mul_pos_pos; lia).
  assert (Hdiv : num = d * n + r) by (apply Z.div_mod; lia). assert (Hr : 0 <= r < d) by (apply Z.mod_pos_bound; lia). assert (Hn0 : 0 <= n) by (apply Z.div_pos; lia).
  assert (Hnq : n = (num / den) / 2 ^ k) by (unfold n, d; rewrite Z.div_div by lia; reflexivity).
  assert (Hq0 : 0 <= num / den) by (apply Z.div_pos; lia).
  assert (Hn : n < 2 * M /\ (k = 0 \/ M <= n)).
  { rewrite Hnq. set (q := num / den) in *. destruct (Z.eq_dec q 0) as [Z0|N0].
    - rewrite Z0. rewrite Z.div_0_l by lia. split; [lia|]. left. unfold k. rewrite Z0. change (Z.log2 0) with 0. lia.
    - pose proof (Z.log2_spec q ltac:(lia)) as [L1 L2]. pose proof (Z.log2_nonneg q). destruct (Z.eq_dec k 0) as [K0|K1].
      + split; [|left; exact K0]. rewrite K0, Z.pow_0_r, Z.div_1_r. assert (2 ^ Z.succ (Z.log2 q) <= 2 ^ Z.succ (f_m f)) by (apply Z.pow_le_mono_r; lia). rewrite (Z.pow_succ_r 2 (f_m f)) in * by lia. lia.
      + assert (KE : Z.log2 q = k + f_m f) by lia. rewrite Z.pow_succ_r in L2 by lia. rewrite KE, Z.pow_add_r in L1, L2 by lia. split; [apply Z.div_lt_upper_bound; lia|right; apply Z.div_le_lower_bound; lia]. }
  destruct Hn as [Hn1 Hn2].
  assert (Num0 : num = 0 -> n = 0 /\ r = 0) by (intros ->; unfold n, r; rewrite Z.div_0_l, Z.mod_0_l by lia; auto).
  destruct (Z_lt_dec (k * M + n) (f_inf f)) as [Hlt|Hge].
  - set (n' := n + (if up then 1 else 0)). assert (Hz : z = f_with_sign f s (k * M + n')) by (unfold z, n'; f_equal; destruct up; lia).
    destruct (pattern_value s k n' Hk) as (Z1 & Z2 & Z3 & Z4 & Z5 & Z6); [unfold n'; destruct up; lia|unfold n'; destruct up; lia|unfold n'; destruct up; lia|]. rewrite <- Hz in *.
    destruct (pattern_value false k n Hk) as (A1 & A2 & A3 & A4 & A5 & A6); [lia|lia|lia|]. destruct (pattern_value false k (n + 1) Hk) as (C1 & C2 & C3 & C4 & C5 & C6); [lia|lia|lia|]. cbn [f_with_sign] in A1, A4, A5, C1, C4, C5.
    assert (Vz : fvalue f z * den = sg s * (n' * d)) by (rewrite (fvalue_abs f Hok z Z1), Z3, Z5; unfold d, sg; destruct s; ring).
    split; [|split; [exact Z3|split; [exact Z1|split; [exact Z2|] ] ] ].
    + split; [exact Z1|]. split; [exact Z2|]. intros y Hy Hny. cbv zeta.
      set (Y := absval f y * den). assert (HY : 0 <= Y) by (apply Z.mul_nonneg_nonneg; [apply absval_nonneg; assumption|lia]).
      assert (Side : Y <= n * d \/ (n + 1) * d <= Y).
      { unfold Y, d. destruct (Z_le_dec (f_mag f y) (k * M + n)) as [H|H].
        - left. rewrite <- A4 in H. pose proof (absval_le y _ Hy A1 H) as AL. rewrite A5 in AL. replace (n * (den * 2 ^ k)) with (n * 2 ^ k * den) by ring. apply Z.mul_le_mono_nonneg_r; [clear - Hden; lia|exact AL].
        - right. assert (H' : f_mag f (k * M + (n + 1)) <= f_mag f y) by lia. pose proof (absval_le _ y C1 Hy H') as AL. rewrite C5 in AL. replace ((n + 1) * (den * 2 ^ k)) with ((n + 1) * 2 ^ k * den) by ring. apply Z.mul_le_mono_nonneg_r; [clear - Hden; lia|exact AL]. }
      assert (Vy : fvalue f y * den = sg (f_sign f y) * Y) by (rewrite (fvalue_abs f Hok y Hy); unfold sg, Y; ring).
      destruct (pick d r n Y Hd Hr Hn0 HY Side) as [Q1 Q2]. cbv zeta in Q1, Q2. fold up in Q1, Q2. fold n' in Q1, Q2. replace (n * d + r) with num in Q1, Q2 by lia.
      assert (Z0pos : 0 <= n' * d) by (apply Z.mul_nonneg_nonneg; [unfold n'; destruct up; lia|lia]).
      destruct (signed_dist s (f_sign f y) (n' * d) Y num Z0pos HY Hnum) as [T1 T2]; [|exact Q1|].
      { destruct (Z.eq_dec num 0) as [X|X]; [left|right; lia]. destruct (Num0 X) as [X1 X2]. unfold n', up. rewrite X1, X2. replace (d <? 2 * 0) with false by lia. replace (d =? 2 * 0) with false by lia. reflexivity. }
      rewrite Vz, Vy. split; [exact T1|]. intros D Ne. rewrite Z6. assert (Ne2 : sg (f_sign f y) * Y <> sg s * (n' * d)). { rewrite <- Vz, <- Vy. intros X. apply Ne. apply Z.mul_reg_r in X; [exact X|clear - Hden; lia]. }
      destruct (T2 D Ne2) as [T3 T4]. apply Q2; assumption.
    + intros X. destruct (Num0 X) as [X1 X2]. rewrite Z5. unfold n', up. rewrite X1, X2. replace (d <? 2 * 0) with false by lia. replace (d =? 2 * 0) with false by lia. reflexivity.
  - assert (Hz : z = f_with_sign f s ((E - 2) * M + M)) by (unfold z; f_equal; rewrite inf_eq in *; destruct up; lia).
    destruct (pattern_value s (E - 2) M) as (Z1 & Z2 & Z3 & Z4 & Z5 & Z6); [lia|lia|lia|rewrite inf_eq; lia|]. rewrite <- Hz in *.
    assert (Big : absval f z * den <= num).
    { rewrite Z5. rewrite inf_eq in Hge. assert (Hk2 : E - 2 <= k) by nia. 
      assert (X : M * 2 ^ (E - 2) <= n * 2 ^ k).
      { destruct (Z.eq_dec k (E - 2)) as [->|Kne]; [apply Z.mul_le_mono_nonneg_r; lia|]. assert (2 * 2 ^ (E - 2) <= 2 ^ k) by (rewrite <- Z.pow_succ_r by lia; apply Z.pow_le_mono_r; lia). assert (0 < 2 ^ (E - 2)) by (apply Z.pow_pos_nonneg; lia). assert (M <= n) by lia. apply Z.mul_le_mono_nonneg; lia. }
      rewrite Hdiv. unfold d. set (u := M * 2 ^ (E - 2)) in *. clearbody u. assert (u * den <= n * 2 ^ k * den) by (apply Z.mul_le_mono_nonneg_r; lia). lia. }
    assert (Zpos : 0 < absval f z) by (rewrite Z5; apply Z.mul_pos_pos; [lia|apply Z.pow_pos_nonneg; lia]).
    assert (Zd : 0 < absval f z * den) by (apply Z.mul_pos_pos; lia).
    split; [|split; [exact Z3|split; [exact Z1|split; [exact Z2|lia] ] ] ].
    split; [exact Z1|]. split; [exact Z2|]. intros y Hy Hny. cbv zeta.
    destruct (mag_le_inf y Hy Hny) as [_ My]. assert (My2 : f_mag f y <= f_mag f z) by (rewrite Z4; rewrite inf_eq in My; lia). pose proof (absval_le y z Hy Z1 My2) as Le. pose proof (absval_nonneg f Hok y Hy).
    set (Y := absval f y * den). assert (HY : 0 <= Y <= absval f z * den) by (unfold Y; split; [apply Z.mul_nonneg_nonneg; lia|apply Z.mul_le_mono_nonneg_r; lia]).
    assert (Vy : fvalue f y * den = sg (f_sign f y) * Y) by (rewrite (fvalue_abs f Hok y Hy); unfold sg, Y; ring).
    assert (Vz : fvalue f z * den = sg s * (absval f z * den)) by (rewrite (fvalue_abs f Hok z Z1), Z3; unfold sg; ring).
    rewrite Vz, Vy. assert (Back : sg (f_sign f y) * Y = sg s * (absval f z * den) -> fvalue f y = fvalue f z) by (rewrite <- Vy, <- Vz; intros X; apply Z.mul_reg_r in X; lia). clear Vz Vy. set (u := absval f z * den) in *. clearbody u Y. split; [clear - HY Big; unfold sg; destruct s, (f_sign f y); lia|]. intros D Ne. exfalso. apply Ne, Back. clear - D HY Big Zd. revert D. generalize (f_sign f y). intros b D. unfold sg in *. destruct s, b; lia.
Qed.

(** ** Classes of patterns, signs *)

Lemma classes : forall x, f_pattern f x ->
  (f_nan f x = true /\ is_nan f x /\ ~ is_infinite f x /\ ~ is_finite f x) \/
  (f_nan f x = false /\ f_infinite f x = true /\ is_infinite f x /\ ~ is_nan f x /\ ~ is_finite f x) \/
  (f_nan f x = false /\ f_infinite f x = false /\ is_finite f x /\ ~ is_nan f x /\ ~ is_infinite f x).
Proof.
  intros x Hx. destruct (mag_fields f Hok x Hx) as (G1 & G2 & G3 & _). pose proof (M_pos f Hok). unfold f_nan, f_infinite, is_nan, is_infinite, is_finite. rewrite G1, inf_eq.
  set (e := exponent_field f x) in *. set (m := fraction_field f x) in *. clearbody e m.
  destruct (Z.eq_dec e (E - 1)) as [->|He].
  - destruct (Z.eq_dec m 0) as [->|Hm]; [right; left|left].
    + repeat split; try lia; intros; lia.
    + repeat split; try lia; intros; lia.
  - right; right. assert (e * M + m < (E - 1) * M) by nia. repeat split; try lia; intros; lia.
Qed.

Lemma sign_cases : forall x, f_pattern f x -> sign_bit f x = if f_sign f x then 1 else 0.
Proof. intros x Hx. destruct (mag_fields f Hok x Hx) as (_ & _ & _ & [ [-> ->]|[-> ->] ]); reflexivity. Qed.

Lemma value_sg : forall x, f_pattern f x -> fvalue f x = sg (f_sign f x) * absval f x.
Proof. intros x Hx. exact (fvalue_abs f Hok x Hx). Qed.

Lemma zero_iff : forall x, f_pattern f x -> (f_zero f x = true <-> fvalue f x = 0).
Proof. intros x Hx. unfold f_zero. rewrite (value_sg x Hx), Z.eqb_eq, <- (absval_zero f Hok x Hx). unfold sg. destruct (f_sign f x); lia. Qed.

Lemma quiet_ok : forall x, f_pattern f x -> is_nan f x -> is_nan f (f_quiet f x) /\ f_pattern f (f_quiet f x).
Proof.
  intros x Hx Hn. destruct (integral_other f Hok (fun _ _ _ _ => false) x Hx) as [_ G]. specialize (G Hn). destruct (nan_iff f Hok x Hx) as (N & _). unfold f_integral in G. rewrite (proj2 N Hn) in G. exact G.
Qed.

Lemma default_ok : is_nan f (f_default_nan f) /\ f_pattern f (f_default_nan f).
Proof.
  pose proof (M_pos f Hok). pose proof (E_pos f Hok). assert (HH : 0 < 2 ^ (f_m f - 1) < M) by (destruct Hok as (H1 & H2 & H3); split; [apply Z.pow_pos_nonneg; lia|apply Z.pow_lt_mono_r; lia]).
  destruct (fields_of f Hok 1 (E - 1) (2 ^ (f_m f - 1))) as (F1 & F2 & F3 & F4); [lia|lia|lia|].
  assert (Eq : f_default_nan f = 1 * (E * M) + ((E - 1) * M + 2 ^ (f_m f - 1))) by (unfold f_default_nan, f_with_sign; rewrite inf_eq, (EM f Hok); ring). rewrite Eq.
  split; [|exact F1]. unfold is_nan. rewrite F2, F3. lia.
Qed.

Lemma inf_ok : forall s, let z := f_with_sign f s (f_inf f) in f_pattern f z /\ is_infinite f z /\ f_sign f z = s.
Proof.
  intros s z. pose proof (M_pos f Hok). pose proof (E_pos f Hok). destruct (fields_of f Hok (if s then 1 else 0) (E - 1) 0) as (F1 & F2 & F3 & F4); [destruct s; lia|lia|lia|].
  assert (Eq : z = (if s then 1 else 0) * (E * M) + ((E - 1) * M + 0)) by (unfold z, f_with_sign; rewrite inf_eq, (EM f Hok); destruct s; ring). rewrite <- Eq in *. clearbody z.
  split; [exact F1|]. split; [unfold is_infinite; lia|]. rewrite (sign_cases z F1) in F4. destruct s, (f_sign f z); congruence.
Qed.

Lemma round_zero : forall s, f_round f s 0 1 = f_with_sign f s 0.
Proof.
  intros s. unfold f_round. change (0 / 1) with 0. change (Z.log2 0) with 0. assert (1 <= f_m f) by (destruct Hok as (_ & ? & _); assumption). replace (Z.max 0 (0 - f_m f)) with 0 by lia.
  change (1 * 2 ^ 0) with 1. change (0 / 1) with 0. change (0 mod 1) with 0. cbn [Z.mul Z.ltb Z.eqb orb andb Z.compare Z.add]. f_equal. pose proof (M_pos f Hok). pose proof (E_pos f Hok). assert (0 <= f_inf f) by (rewrite inf_eq; nia). lia.
Qed.

Lemma zero_ok : forall s, let z := f_with_sign f s 0 in f_pattern f z /\ is_finite f z /\ f_sign f z = s /\ absval f z = 0.
Proof.
  intros s z. destruct (of_int_value f Hok s 0) as (P1 & P2 & P3 & P4); [pose proof (M_pos f Hok); lia|]. change (f_of_int f 0) with 0 in *. auto.
Qed.

Lemma mag_of_abs : forall x y, f_pattern f x -> f_pattern f y -> f_mag f x = f_mag f y -> absval f x = absval f y.
Proof. intros x y Hx Hy H. unfold absval, f_sig, f_exp. rewrite H. reflexivity. Qed.

Lemma neg_ok : forall y, f_pattern f y -> f_pattern f (f_neg f y) /\ f_sign f (f_neg f y) = negb (f_sign f y) /\ f_mag f (f_neg f y) = f_mag f y /\ fvalue f (f_neg f y) = - fvalue f y.
Proof.
  intros y Hy. destruct (mag_fields f Hok y Hy) as (G1 & G2 & G3 & G4). set (e := exponent_field f y) in *. set (m := fraction_field f y) in *. pose proof (M_pos f Hok) as HM. pose proof (E_pos f Hok) as HE.
  assert (Rep : y = (if f_sign f y then 1 else 0) * (E * M) + (e * M + m)).
  { pose proof Hy as Hy'. unfold f_pattern in Hy'. rewrite (EM1 f Hok) in Hy'. unfold f_mag in G1. rewrite (EM f Hok) in G1. assert (HEM : 0 < E * M) by (apply Z.mul_pos_pos; lia). unfold f_sign. rewrite (EM f Hok). rewrite <- G1. clear - Hy' HEM. set (w := E * M) in *. clearbody w. destruct (w <=? y) eqn:C.
    - assert (y / w = 1) by (symmetry; apply (Z.div_unique_pos _ _ _ (y - w)); lia). pose proof (Z.div_mod y w). lia.
    - rewrite Z.mod_small by lia. lia. }
  destruct (fields_of f Hok (if f_sign f y then 0 else 1) e m) as (F1 & F2 & F3 & F4); [destruct (f_sign f y); lia|lia|lia|].
  assert (Eq : f_neg f y = (if f_sign f y then 0 else 1) * (E * M) + (e * M + m)) by (unfold f_neg; rewrite (EM f Hok); destruct (f_sign f y); lia). rewrite <- Eq in *. set (w := f_neg f y) in *. clearbody w.
  destruct (mag_fields f Hok w F1) as (K1 & _ & _ & _). rewrite F2, F3 in K1. assert (Sg : f_sign f w = negb (f_sign f y)) by (rewrite (sign_cases w F1) in F4; destruct (f_sign f w), (f_sign f y); try reflexivity; discriminate).
  assert (Mg : f_mag f w = f_mag f y) by lia. split; [exact F1|]. split; [exact Sg|]. split; [exact Mg|]. rewrite (value_sg w F1), (value_sg y Hy), Sg, (mag_of_abs w y F1 Hy Mg). unfold sg. destruct (f_sign f y); cbn [negb]; ring.
Qed.

Lemma neg_classes : forall y, f_pattern f y -> (is_nan f (f_neg f y) <-> is_nan f y) /\ (is_infinite f (f_neg f y) <-> is_infinite f y) /\ (is_finite f (f_neg f y) <-> is_finite f y) /\
  f_nan f (f_neg f y) = f_nan f y /\ sign_bit f (f_neg f y) = 1 - sign_bit f y.
Proof.
  intros y Hy. destruct (neg_ok y Hy) as (N1 & N2 & N3 & _). rewrite (sign_cases _ N1), (sign_cases _ Hy), N2. assert (Nn : f_nan f (f_neg f y) = f_nan f y) by (unfold f_nan; rewrite N3; reflexivity). assert (Ni : f_infinite f (f_neg f y) = f_infinite f y) by (unfold f_infinite; rewrite N3; reflexivity).
  destruct (classes y Hy) as [(A1 & A2 & A3 & A4)|[(A1 & A2 & A3 & A4 & A5)|(A1 & A2 & A3 & A4 & A5)] ]; destruct (classes _ N1) as [(B1 & B2 & B3 & B4)|[(B1 & B2 & B3 & B4 & B5)|(B1 & B2 & B3 & B4 & B5)] ]; try congruence; (split; [tauto|split; [tauto|split; [tauto|split; [exact Nn|destruct (f_sign f y); reflexivity] ] ] ]).
Qed.

(** ** The operations *)

Local Ltac cases := repeat match goal with |- _ /\ _ => split | |- _ -> _ => intro end; try assumption; try (exfalso; tauto); try tauto.

Lemma add_ok : forall x y, f_pattern f x -> f_pattern f y -> f_pattern f (f_add f x y) /\ sum_result f x y (f_add f x y).
Proof.
  intros x y Hx Hy. pose proof (sign_cases x Hx) as Sx. pose proof (sign_cases y Hy) as Sy. destruct default_ok as [D1 D2]. unfold f_add, sum_result.
  destruct (classes x Hx) as [(A1 & A2 & A3 & A4)|[(A1 & A2 & A3 & A4 & A5)|(A1 & A2 & A3 & A4 & A5)] ]; rewrite A1.
  { destruct (quiet_ok x Hx A2) as [Q1 Q2]. cases. }
  all: destruct (classes y Hy) as [(B1 & B2 & B3 & B4)|[(B1 & B2 & B3 & B4 & B5)|(B1 & B2 & B3 & B4 & B5)] ]; rewrite B1; [destruct (quiet_ok y Hy B2) as [Q1 Q2]; cases|..].
  all: rewrite A2, B2; cbn [andb].
  - rewrite Sx, Sy. destruct (f_sign f x), (f_sign f y); cbn [xorb Z.eqb Pos.eqb]; cases.
  - cases.
  - cases.
  - assert (Ux : f_units f x = fvalue f x) by (rewrite (value_sg x Hx); unfold f_units, sg, absval, f_abs_units; destruct (f_sign f x); ring). assert (Uy : f_units f y = fvalue f y) by (rewrite (value_sg y Hy); unfold f_units, sg, absval, f_abs_units; destruct (f_sign f y); ring). rewrite Ux, Uy.
    set (v := fvalue f x + fvalue f y) in *. destruct (v =? 0) eqn:V.
    + assert (v = 0) as -> by lia. rewrite <- round_zero. destruct (round_nearest (f_sign f x && f_sign f y) 0 1) as (R1 & R2 & R3 & R4 & R5); [lia|lia|]. rewrite Z.mul_0_r in R1. set (z := f_round f (f_sign f x && f_sign f y) 0 1) in *. clearbody z. split; [exact R3|]. split; [tauto|]. split; [tauto|]. split; [tauto|]. split; [tauto|]. intros _ _. split; [exact R1|]. intros _. rewrite (sign_cases z R3), R2, Sx, Sy. destruct (f_sign f x), (f_sign f y); reflexivity.
    + destruct (round_nearest (v <? 0) (Z.abs v) 1) as (R1 & R2 & R3 & R4 & R5); [lia|lia|]. assert (Ev : sg (v <? 0) * Z.abs v = v) by (unfold sg; destruct (v <? 0) eqn:?; lia). rewrite Ev in R1. split; [exact R3|]. split; [tauto|]. split; [tauto|]. split; [tauto|]. split; [tauto|]. intros _ _. split; [exact R1|lia].
Qed.

Lemma sub_ok : forall x y, f_pattern f x -> f_pattern f y -> f_pattern f (f_sub f x y) /\ difference_result f x y (f_sub f x y).
Proof.
  intros x y Hx Hy. unfold f_sub. destruct (neg_ok y Hy) as (N1 & N2 & N3 & N4). destruct (neg_classes y Hy) as (C1 & C2 & C3 & C4 & C5).
  destruct (add_ok x (f_neg f y) Hx N1) as (P & S1 & S2 & S3 & S4 & S5). rewrite C1, C2, C3, C5 in *. rewrite N4 in S5.
  destruct (classes x Hx) as [(A1 & A2 & A3 & A4)|A]; [rewrite A1; destruct (quiet_ok x Hx A2) as [Q1 Q2]; unfold difference_result; cases|].
  assert (f_nan f x = false /\ ~ is_nan f x) as [A1 A2] by tauto. rewrite A1.
  destruct (classes y Hy) as [(B1 & B2 & B3 & B4)|B]; [rewrite B1; destruct (quiet_ok y Hy B2) as [Q1 Q2]; unfold difference_result; cases|].
  assert (f_nan f y = false /\ ~ is_nan f y) as [B1 B2] by tauto. rewrite B1.
  split; [exact P|]. unfold difference_result. split; [tauto|]. split.
  { intros I J. specialize (S2 I J). rewrite (sign_cases x Hx), (sign_cases y Hy) in *. destruct (f_sign f x), (f_sign f y); cbn in *; exact S2. }
  split; [exact S3|]. split; [|exact S5]. intros I J. rewrite (S4 I J). unfold infinity_of_sign. rewrite C2, C5. auto.
Qed.

Lemma fone_unit : f_unit f = fone f.
Proof. reflexivity. Qed.

Lemma sg_xor : forall a b, sg (xorb a b) = sg a * sg b.
Proof. intros [] []; reflexivity. Qed.

Lemma sign_xor : forall x y, f_pattern f x -> f_pattern f y -> sign_product f x y = if xorb (f_sign f x) (f_sign f y) then 1 else 0.
Proof. intros x y Hx Hy. unfold sign_product. rewrite (sign_cases x Hx), (sign_cases y Hy). destruct (f_sign f x), (f_sign f y); reflexivity. Qed.

Lemma inf_sign : forall s : bool, infinity_of_sign f (if s then 1 else 0) (f_with_sign f s (f_inf f)).
Proof. intros s. destruct (inf_ok s) as (I1 & I2 & I3). split; [exact I1|]. split; [exact I2|]. rewrite (sign_cases _ I1), I3. reflexivity. Qed.

Lemma mul_ok : forall x y, f_pattern f x -> f_pattern f y -> f_pattern f (f_mul f x y) /\ product_result f x y (f_mul f x y).
Proof.
  intros x y Hx Hy. pose proof (sign_xor x y Hx Hy) as SX. destruct default_ok as [D1 D2]. unfold f_mul, product_result. rewrite SX. set (s := xorb (f_sign f x) (f_sign f y)) in *. pose proof (inf_sign s) as IS. destruct (inf_ok s) as (I1 & _).
  pose proof (zero_iff x Hx) as Zx. pose proof (zero_iff y Hy) as Zy.
  destruct (classes x Hx) as [(A1 & A2 & A3 & A4)|[(A1 & A2 & A3 & A4 & A5)|(A1 & A2 & A3 & A4 & A5)] ]; rewrite A1.
  { destruct (quiet_ok x Hx A2) as [Q1 Q2]. cases. }
  all: destruct (classes y Hy) as [(B1 & B2 & B3 & B4)|[(B1 & B2 & B3 & B4 & B5)|(B1 & B2 & B3 & B4 & B5)] ]; rewrite B1; [destruct (quiet_ok y Hy B2) as [Q1 Q2]; cases|..].
  all: rewrite A2; try rewrite B2.
  - assert (Nz : f_zero f y = false).
    { unfold f_infinite in B2. unfold f_zero. pose proof (M_pos f Hok). pose proof (E_pos f Hok). rewrite inf_eq in B2. assert (0 < (E - 1) * M) by (apply Z.mul_pos_pos; lia). lia. }
    rewrite Nz. split; [exact I1|]. split; [tauto|]. split; [tauto|]. split; [tauto|]. split; [auto|tauto].
  - destruct (f_zero f y) eqn:Z0; destruct (fvalue f y =? 0) eqn:V0; try (exfalso; rewrite ?Z.eqb_eq, ?Z.eqb_neq in V0; intuition congruence); (split; [assumption|]); (split; [tauto|]); (split; [intros _ _; assumption|]); cases.
  - destruct (f_zero f x) eqn:Z0; destruct (fvalue f x =? 0) eqn:V0; try (exfalso; rewrite ?Z.eqb_eq, ?Z.eqb_neq in V0; intuition congruence); (split; [assumption|]); (split; [tauto|]); (split; [tauto|]); (split; [intros _ _; assumption|]); cases.
  - change (f_abs_units f x) with (absval f x). change (f_abs_units f y) with (absval f y). rewrite fone_unit. pose proof (absval_nonneg f Hok x Hx). pose proof (absval_nonneg f Hok y Hy). destruct (round_nearest s (absval f x * absval f y) (fone f)) as (R1 & R2 & R3 & R4 & R5); [nia|apply fone_pos; exact Hok|].
    assert (Ev : sg s * (absval f x * absval f y) = fvalue f x * fvalue f y) by (rewrite (value_sg x Hx), (value_sg y Hy); unfold s; rewrite sg_xor; ring). rewrite Ev in R1.
    split; [exact R3|]. split; [tauto|]. split; [tauto|]. split; [tauto|]. split; [tauto|]. intros _ _. split; [exact R1|]. rewrite (sign_cases _ R3), R2. reflexivity.
Qed.

Lemma div_ok : forall x y, f_pattern f x -> f_pattern f y -> f_pattern f (f_div f x y) /\ quotient_result f x y (f_div f x y).
Proof.
  intros x y Hx Hy. pose proof (sign_xor x y Hx Hy) as SX. destruct default_ok as [D1 D2]. unfold f_div, quotient_result. rewrite SX. set (s := xorb (f_sign f x) (f_sign f y)) in *. pose proof (inf_sign s) as IS. destruct (inf_ok s) as (I1 & _).
  pose proof (zero_iff x Hx) as Zx. pose proof (zero_iff y Hy) as Zy.
  destruct (classes x Hx) as [(A1 & A2 & A3 & A4)|[(A1 & A2 & A3 & A4 & A5)|(A1 & A2 & A3 & A4 & A5)] ]; rewrite A1.
  { destruct (quiet_ok x Hx A2) as [Q1 Q2]. cases. }
  all: destruct (classes y Hy) as [(B1 & B2 & B3 & B4)|[(B1 & B2 & B3 & B4 & B5)|(B1 & B2 & B3 & B4 & B5)] ]; rewrite B1; [destruct (quiet_ok y Hy B2) as [Q1 Q2]; cases|..].
  all: rewrite A2; try rewrite B2.
  - cases.
  - split; [exact I1|]. split; [tauto|]. split; [tauto|]. split; [auto|]. cases.
  - destruct (zero_ok s) as (Z1 & Z2 & Z3 & Z4). split; [exact Z1|]. split; [tauto|]. split; [tauto|]. split; [tauto|]. split; [|cases]. intros _ _. split; [exact Z1|]. split; [exact Z2|]. split; [rewrite (value_sg _ Z1), Z4; apply Z.mul_0_r|]. rewrite (sign_cases _ Z1), Z3. reflexivity.
  - destruct (f_zero f y) eqn:Z0.
    + assert (Vy : fvalue f y = 0) by tauto. split; [destruct (f_zero f x); assumption|]. split; [tauto|]. split; [tauto|]. split; [tauto|]. split; [tauto|]. split; [|intros; tauto]. intros _ _ _. destruct (f_zero f x) eqn:Z1; destruct (fvalue f x =? 0) eqn:V0; try (exfalso; rewrite ?Z.eqb_eq, ?Z.eqb_neq in V0; intuition congruence); assumption.
    + assert (Vy : fvalue f y <> 0) by (intros X; apply Zy in X; discriminate). pose proof (value_sg y Hy) as Vs. pose proof (absval_nonneg f Hok x Hx). pose proof (absval_nonneg f Hok y Hy). assert (Ay : 0 < absval f y) by (destruct (Z.eq_dec (absval f y) 0) as [X|X]; [rewrite X, Z.mul_0_r in Vs; lia|lia]).
      change (f_abs_units f x) with (absval f x). change (f_abs_units f y) with (absval f y). rewrite fone_unit. assert (F : 0 < fone f) by (apply fone_pos; exact Hok). destruct (round_nearest s (absval f x * fone f) (absval f y)) as (R1 & R2 & R3 & R4 & R5); [apply Z.mul_nonneg_nonneg; lia|exact Ay|].
      assert (Sy : Z.sgn (fvalue f y) = sg (f_sign f y) /\ Z.abs (fvalue f y) = absval f y) by (rewrite Vs; clear - Ay; unfold sg; destruct (f_sign f y); lia). destruct Sy as [Sy1 Sy2].
      assert (Ev : sg s * (absval f x * fone f) = fvalue f x * fone f * Z.sgn (fvalue f y)) by (rewrite Sy1, (value_sg x Hx); unfold s; rewrite sg_xor; ring). rewrite Ev in R1.
      split; [exact R3|]. split; [tauto|]. split; [tauto|]. split; [tauto|]. split; [tauto|]. split; [tauto|]. intros _ _ _. rewrite Sy2. split; [exact R1|]. rewrite (sign_cases _ R3), R2. reflexivity.
Qed.

(** ** Square roots *)

Lemma odd_small : forall y, f_pattern f y -> Z.odd (absval f y) = true -> absval f y < 2 * M.
Proof.
  intros y Hy O. destruct (sig_exp f Hok y Hy) as (S1 & S2 & S3). unfold absval in *. destruct (Z.eq_dec (f_exp f y) 1) as [->|H]; [rewrite Z.sub_diag, Z.pow_0_r; lia|].
  exfalso. replace (f_exp f y - 1) with (Z.succ (f_exp f y - 2)) in O by lia. rewrite Z.pow_succ_r in O by lia. rewrite Z.odd_mul, Z.odd_mul in O. cbn in O. rewrite andb_false_r in O. discriminate.
Qed.

Lemma no_half : forall r z, 2 * M <= r -> nearest_to f (2 * r + 1) 2 z -> 0 <= fvalue f z ->
  forall y, f_pattern f y -> ~ is_nan f y -> 0 <= fvalue f y -> y = z \/ fvalue f z + fvalue f y <> 2 * r + 1.
Proof.
  intros r z Hr (Hz & Nz & N) Pz y Hy Ny Py. pose proof (M_pos f Hok) as HM. pose proof (E_pos f Hok) as HE.
  destruct (pattern_value false 0 (2 * M)) as (T1 & T2 & T3 & T4 & T5 & T6); [lia|lia|lia|rewrite inf_eq; nia|]. set (t := f_with_sign f false (0 * M + 2 * M)) in *. clearbody t. rewrite Z.pow_0_r, Z.mul_1_r in T5.
  assert (Vt : fvalue f t = 2 * M) by (rewrite (value_sg t T1), T3, T5; unfold sg; ring). destruct (N t T1 T2) as [Nt _]. rewrite Vt in Nt. right. intros Hs.
  assert (Az : absval f z = fvalue f z) by (rewrite (value_sg z Hz) in *; pose proof (absval_nonneg f Hok z Hz); clear - Pz H; unfold sg in *; destruct (f_sign f z); lia).
  assert (Ay : absval f y = fvalue f y) by (rewrite (value_sg y Hy) in *; pose proof (absval_nonneg f Hok y Hy); clear - Py H; unfold sg in *; destruct (f_sign f y); lia).
  assert (O : Z.odd (fvalue f z + fvalue f y) = true) by (rewrite Hs, Z.odd_add, Z.odd_mul; reflexivity). rewrite Z.odd_add in O.
  destruct (Z.odd (fvalue f z)) eqn:Oz.
  - rewrite <- Az in Oz. apply odd_small in Oz; [|exact Hz]. rewrite Az in Oz. lia.
  - rewrite xorb_false_l in O. rewrite <- Ay in O. apply odd_small in O; [|exact Hy]. rewrite Ay in O. lia.
Qed.

Lemma sqrt_ok : f_m f + 3 <= B -> forall x, f_pattern f x -> f_pattern f (f_sqrt f x) /\ root_result f x (f_sqrt f x).
Proof.
  intros HB x Hx. destruct default_ok as [D1 D2]. unfold f_sqrt, root_result. pose proof (zero_iff x Hx) as Zx. pose proof (value_sg x Hx) as Vx. pose proof (absval_nonneg f Hok x Hx) as Ax.
  destruct (classes x Hx) as [(A1 & A2 & A3 & A4)|A]; [rewrite A1; destruct (quiet_ok x Hx A2) as [Q1 Q2]; cases|].
  assert (f_nan f x = false /\ ~ is_nan f x) as [A1 A2] by tauto. rewrite A1. destruct (f_zero f x) eqn:Z0.
  { assert (V0 : fvalue f x = 0) by tauto. split; [exact Hx|]. split; [tauto|]. split; [lia|]. split; [tauto|]. split; [tauto|lia]. }
  assert (V0 : fvalue f x <> 0) by (intros X; apply Zx in X; discriminate). destruct (f_sign f x) eqn:Sg; unfold sg in Vx.
  { split; [exact D2|]. split; [tauto|]. split; [tauto|]. split; [tauto|]. split; [lia|lia]. }
  destruct A as [(K1 & K2 & K3 & K4 & K5)|(K1 & K2 & K3 & K4 & K5)]; rewrite K2.
  { split; [exact Hx|]. split; [tauto|]. split; [lia|]. split; [tauto|]. split; [tauto|tauto]. }
  change (f_abs_units f x) with (absval f x). rewrite fone_unit. set (n := absval f x * fone f) in *. set (r := Z.sqrt n) in *. pose proof (M_pos f Hok) as HM. assert (F : 0 < fone f) by (apply fone_pos; exact Hok).
  assert (Hn : fone f <= n) by (unfold n; nia). assert (Rs : r * r <= n < (r + 1) * (r + 1)) by (apply Z.sqrt_spec; lia). assert (R0 : 0 <= r) by apply Z.sqrt_nonneg.
  assert (RM : 2 * M <= r).
  { assert (X : 2 * M * (2 * M) <= fone f).
    { rewrite (fone_eq f). assert (Km : 1 <= f_m f) by (destruct Hok as (_ & ? & _); assumption). replace (2 * M) with (2 ^ (f_m f + 1)) by (rewrite Z.pow_add_r by lia; ring). rewrite <- Z.pow_add_r by lia. apply Z.pow_le_mono_r; lia. }
    nia. }
  assert (Vn : fvalue f x * fone f = n) by (unfold n; rewrite Vx; ring). rewrite Vn.
  destruct (r * r =? n) eqn:Ex.
  - destruct (round_nearest false (2 * r) 2) as ((_ & _ & N) & Z3 & Z1 & Z2 & _); [lia|lia|]. set (z := f_round f false (2 * r) 2) in *. clearbody z. change (sg false) with 1 in N. assert (Pz : 0 <= fvalue f z) by (rewrite (value_sg z Z1), Z3; pose proof (absval_nonneg f Hok z Z1); unfold sg; lia).
    split; [exact Z1|]. split; [tauto|]. split; [lia|]. split; [tauto|]. split; [tauto|]. intros _ _. split; [exact Z1|]. split; [exact Z2|]. split; [exact Pz|]. intros y Hy Ny Py. cbv zeta. destruct (N y Hy Ny) as [N1 N2]. clear N. assert (En : n = r * r) by lia. rewrite En. clear - N1 N2 Pz Py R0. clearbody r. set (a := fvalue f z) in *. set (b := fvalue f y) in *. clearbody a b.
    split; [intros L; assert (2 * r <= a + b) by lia; nia|]. split; [intros L; assert (a + b <= 2 * r) by lia; nia|]. intros S1 Ne. assert (a + b = 2 * r) by nia. apply N2; lia.
  - destruct (round_nearest false (2 * r + 1) 2) as (NN & Z3 & Z1 & Z2 & _); [lia|lia|]. set (z := f_round f false (2 * r + 1) 2) in *. clearbody z. change (sg false) with 1 in NN. rewrite Z.mul_1_l in NN. assert (Pz : 0 <= fvalue f z) by (rewrite (value_sg z Z1), Z3; pose proof (absval_nonneg f Hok z Z1); unfold sg; lia).
    split; [exact Z1|]. split; [tauto|]. split; [lia|]. split; [tauto|]. split; [tauto|]. intros _ _. split; [exact Z1|]. split; [exact Z2|]. split; [exact Pz|]. intros y Hy Ny Py. cbv zeta. pose proof (no_half r z RM NN Pz y Hy Ny Py) as Hne. destruct NN as (_ & _ & N). destruct (N y Hy Ny) as [N1 N2]. clear N. assert (Hl : r * r < n) by lia.
    assert (Hne' : fvalue f y <> fvalue f z -> fvalue f z + fvalue f y <> 2 * r + 1) by (intros X; destruct Hne as [->|Hne]; [congruence|exact Hne]). clear Hne. clear - N1 Hne' Pz Py R0 Rs Hl. set (a := fvalue f z) in *. set (b := fvalue f y) in *. clearbody a b.
    split; [intros L; assert (2 * r + 2 <= a + b) by lia; nia|]. split; [intros L; assert (a + b <= 2 * r) by lia; nia|]. intros S1 Ne. exfalso. assert (a + b <> 2 * r + 1) by auto. assert (a + b <= 2 * r \/ 2 * r + 2 <= a + b) by lia. nia.
Qed.

Lemma one_ok : f_pattern f (f_one f) /\ is_finite f (f_one f) /\ fvalue f (f_one f) = fone f.
Proof.
  destruct (of_int_value f Hok false 1) as (P1 & P2 & P3 & P4); [pose proof (M_pos f Hok); lia|]. assert (Eq : f_with_sign f false (f_of_int f 1) = f_one f).
  { unfold f_with_sign, f_of_int, f_one. change (1 =? 0) with false. cbn [Z.log2]. rewrite Z.sub_0_r, Z.mul_1_l. lia. }
  rewrite Eq in *. split; [exact P1|]. split; [exact P2|]. rewrite (value_sg _ P1), P3, P4. unfold sg. ring.
Qed.

(** ** Estimates *)

(** Every number lies between two neighbouring multiples of a power of two that are
    floats. *)
Lemma scale : forall v, 0 <= v -> exists k n, 0 <= k /\ n * 2 ^ k <= v < (n + 1) * 2 ^ k /\ 0 <= n < 2 * M /\ (k = 0 \/ M <= n) /\ (M <= v -> M <= n).
Proof.
  intros v Hv. pose proof (M_pos f Hok) as HM. assert (Km : 1 <= f_m f) by (destruct Hok as (_ & ? & _); assumption). exists (Z.max 0 (Z.log2 v - f_m f)). set (k := Z.max 0 (Z.log2 v - f_m f)). assert (Hk : 0 <= k) by lia. assert (P2 : 0 < 2 ^ k) by (apply Z.pow_pos_nonneg; lia). exists (v / 2 ^ k).
  split; [lia|]. split; [pose proof (Z.div_mod v (2 ^ k)); pose proof (Z.mod_pos_bound v (2 ^ k)); nia|]. assert (0 <= v / 2 ^ k) by (apply Z.div_pos; lia).
  destruct (Z.eq_dec v 0) as [Z0|N0].
  - subst v. rewrite Z.div_0_l by lia. split; [lia|]. split; [left; unfold k; change (Z.log2 0) with 0; lia|lia].
  - pose proof (Z.log2_spec v ltac:(lia)) as [L1 L2]. pose proof (Z.log2_nonneg v). destruct (Z.eq_dec k 0) as [K0|K1].
    + rewrite K0, Z.pow_0_r, Z.div_1_r. split; [|split; [left; reflexivity|auto] ]. assert (2 ^ Z.succ (Z.log2 v) <= 2 ^ Z.succ (f_m f)) by (apply Z.pow_le_mono_r; lia). rewrite (Z.pow_succ_r 2 (f_m f)) in * by lia. lia.
    + assert (KE : Z.log2 v = k + f_m f) by lia. rewrite Z.pow_succ_r in L2 by lia. rewrite KE, Z.pow_add_r in L1, L2 by lia. assert (v / 2 ^ k < 2 * M) by (apply Z.div_lt_upper_bound; lia). assert (M <= v / 2 ^ k) by (apply Z.div_le_lower_bound; lia). lia.
Qed.

(** Below the value of infinity the pattern fits. *)
Lemma fits : forall k n, 0 <= k -> M <= n -> n * 2 ^ k < M * 2 ^ (E - 2) -> k <= E - 3.
Proof.
  intros k n Hk Hn H. destruct (Z_le_dec k (E - 3)) as [L|L]; [exact L|]. exfalso. assert (2 ^ (E - 2) <= 2 ^ k) by (apply Z.pow_le_mono_r; [lia|pose proof (E_pos f Hok); lia]). assert (0 < 2 ^ (E - 2)) by (apply Z.pow_pos_nonneg; [lia|pose proof (E_pos f Hok); lia]). pose proof (M_pos f Hok). nia.
Qed.

Lemma inf_value : forall x, f_pattern f x -> (is_infinite f x -> absval f x = M * 2 ^ (E - 2)) /\ (is_finite f x -> absval f x < M * 2 ^ (E - 2)) /\ (~ is_nan f x -> absval f x <= M * 2 ^ (E - 2)).
Proof.
  intros x Hx. pose proof (M_pos f Hok). pose proof (E_pos f Hok). destruct (pattern_value false (E - 2) M) as (P1 & P2 & P3 & P4 & P5 & _); [lia|lia|lia|rewrite inf_eq; lia|]. set (i := f_with_sign f false ((E - 2) * M + M)) in *. clearbody i. rewrite <- P5. destruct (nan_iff f Hok x Hx) as (_ & _ & N3 & N4). rewrite inf_eq in N3, N4.
  split; [intros I; apply mag_of_abs; [exact Hx|exact P1|rewrite N3 by exact I; lia]|]. split; [intros F; apply absval_lt; [exact Hok|exact Hx|exact P1|apply N4 in F; lia]|]. intros Nn. apply absval_le; [exact Hx|exact P1|]. destruct (mag_le_inf x Hx Nn) as [_ L]. rewrite inf_eq in L. lia.
Qed.

Lemma finite_small : forall z, f_pattern f z -> ~ is_nan f z -> absval f z < M * 2 ^ (E - 2) -> is_finite f z.
Proof. intros z Hz Nz L. destruct (classes z Hz) as [C|[C|C] ]; [tauto| |tauto]. destruct (inf_value z Hz) as [I _]. rewrite I in L by tauto. lia. Qed.

Lemma nearest_close : forall s num den z, 0 < den -> M * den <= num -> num < M * 2 ^ (E - 2) * den -> nearest_to f (sg s * num) den z -> Z.abs (fvalue f z * den - sg s * num) * M <= num.
Proof.
  intros s num den z Hd Hlo Hhi (Z1 & Z2 & N). pose proof (M_pos f Hok) as HM. pose proof (E_pos f Hok) as HE.
  destruct (scale (num / den)) as (k & n & K1 & K2 & K3 & K4 & K5); [apply Z.div_pos; lia|]. assert (Hn : M <= n) by (apply K5; apply Z.div_le_lower_bound; lia). assert (P2 : 0 < 2 ^ k) by (apply Z.pow_pos_nonneg; lia).
  pose proof (Z.div_mod num den ltac:(lia)) as DM. pose proof (Z.mod_pos_bound num den Hd) as MB. set (q := num / den) in *. set (t := num mod den) in *. clearbody q t.
  assert (B1 : n * 2 ^ k * den <= num) by nia. assert (B2 : num < (n * 2 ^ k + 2 ^ k) * den) by nia.
  assert (Hkf : k <= E - 3) by (apply (fits k n); [exact K1|exact Hn|]; nia).
  destruct (pattern_value s k n K1) as (Y1 & Y2 & Y3 & Y4 & Y5 & _); [lia|exact K4|rewrite inf_eq; nia|]. set (y := f_with_sign f s (k * M + n)) in *. clearbody y. destruct (N y Y1 Y2) as [N1 _]. cbv zeta in N1.
  assert (Vy : fvalue f y * den = sg s * (n * 2 ^ k * den)) by (rewrite (value_sg y Y1), Y3, Y5; ring). rewrite Vy in N1. set (dz := Z.abs (fvalue f z * den - sg s * num)) in *. assert (Hdz : dz <= num - n * 2 ^ k * den) by (clear - N1 B1; unfold sg in *; destruct s; lia). assert (0 <= dz) by lia. clearbody dz.
  clear - Hdz B1 B2 H Hn HM P2 Hd. replace (n * 2 ^ k * den) with (n * (2 ^ k * den)) in * by ring. replace ((n * 2 ^ k + 2 ^ k) * den) with (n * (2 ^ k * den) + 2 ^ k * den) in B2 by ring. assert (Pg : 0 < 2 ^ k * den) by (apply Z.mul_pos_pos; assumption). set (g := 2 ^ k * den) in *. clearbody g. assert (M * g <= n * g) by (apply Z.mul_le_mono_nonneg_r; lia). assert (dz * M <= g * M) by (apply Z.mul_le_mono_nonneg_r; lia). lia.
Qed.

Lemma recip_close : forall x z, f_pattern f x -> 8192 <= M -> M <= Z.abs (fvalue f x) -> Z.abs (fvalue f x) * (2 * M) <= fone f * fone f ->
  nearest_to f (fone f * fone f * Z.sgn (fvalue f x)) (Z.abs (fvalue f x)) z -> Z.abs (fvalue f z * fvalue f x - fone f * fone f) * M <= fone f * fone f /\ is_finite f z.
Proof.
  intros x z Hx HM Lo Hi N. pose proof (M_pos f Hok) as HM0. pose proof (E_pos f Hok) as HE. assert (F : 0 < fone f) by (apply fone_pos; exact Hok). destruct (B_range f Hok) as [B1 B2]. set (a := Z.abs (fvalue f x)) in *. assert (FF : 0 < fone f * fone f) by (apply Z.mul_pos_pos; lia).
  assert (Top : 4 * (fone f * fone f) <= M * 2 ^ (E - 2) * M).
  { rewrite (fone_eq f). assert (Km : 1 <= f_m f) by (destruct Hok as (_ & ? & _); assumption). change 4 with (2 ^ 2). rewrite <- !Z.pow_add_r by lia. apply Z.pow_le_mono_r; lia. }
  assert (T2 : 0 < 2 ^ (E - 2)) by (apply Z.pow_pos_nonneg; lia). remember (2 ^ (E - 2)) as w eqn:Ew.
  assert (NN : nearest_to f (sg (fvalue f x <? 0) * (fone f * fone f)) a z) by (replace (sg (fvalue f x <? 0)) with (Z.sgn (fvalue f x)); [rewrite Z.mul_comm; exact N|unfold sg; destruct (fvalue f x <? 0) eqn:C; lia]).
  assert (Hhi : fone f * fone f < M * w * a).
  { assert (M * w * M <= M * w * a) by (apply Z.mul_le_mono_nonneg_l; nia). lia. }
  pose proof (nearest_close (fvalue f x <? 0) (fone f * fone f) a z ltac:(lia) ltac:(lia)) as NC. rewrite <- Ew in NC. specialize (NC Hhi NN).
  assert (Eq : Z.abs (fvalue f z * fvalue f x - fone f * fone f) = Z.abs (fvalue f z * a - sg (fvalue f x <? 0) * (fone f * fone f))).
  { clear. unfold a, sg. set (v := fvalue f z). set (u := fone f * fone f). destruct (fvalue f x <? 0) eqn:C; [rewrite (Z.abs_neq (fvalue f x)) by lia; rewrite <- Z.abs_opp; f_equal; ring|rewrite (Z.abs_eq (fvalue f x)) by lia; f_equal; ring]. }
  rewrite Eq. split; [exact NC|]. destruct NN as (Z1 & Z2 & _). apply finite_small; [exact Z1|exact Z2|]. rewrite <- Ew. clear Ew.
  assert (Az : Z.abs (fvalue f z) = absval f z) by (rewrite (value_sg z Z1); pose proof (absval_nonneg f Hok z Z1) as An; clear - An; unfold sg; destruct (f_sign f z); lia). rewrite <- Az.
  assert (Pz : Z.abs (fvalue f z) * a * M <= 2 * (fone f * fone f) * M).
  { assert (Z.abs (fvalue f z * a) <= Z.abs (fvalue f z * a - sg (fvalue f x <? 0) * (fone f * fone f)) + fone f * fone f) by (clear - FF; set (u := fone f * fone f) in *; set (v := fvalue f z * a); clearbody u v; unfold sg; destruct (fvalue f x <? 0); lia). rewrite Z.abs_mul, (Z.abs_eq a) in H by lia. set (u := fone f * fone f) in *. clearbody u. set (d := Z.abs (fvalue f z * a - sg (fvalue f x <? 0) * u)) in *. clearbody d. clear - H NC FF HM0. set (g := Z.abs (fvalue f z) * a) in *. clearbody g. assert (g * M <= (d + u) * M) by (apply Z.mul_le_mono_nonneg_r; lia). assert (u * 1 <= u * M) by (apply Z.mul_le_mono_nonneg_l; lia). lia. }
  apply Z.mul_le_mono_pos_r in Pz; [|lia]. clear - Pz Top Lo HM0 T2 HM FF. set (v := Z.abs (fvalue f z)) in *. assert (0 <= v) by (unfold v; lia). clearbody v. set (u := fone f * fone f) in *. clearbody u. clearbody a. assert (v * M <= v * a) by (apply Z.mul_le_mono_nonneg_l; lia). assert (2 * (v * M) <= M * w * M) by lia. assert (0 < M * w) by (apply Z.mul_pos_pos; lia). nia.
Qed.

Lemma root_bounds : forall m N v r a b u, 0 < m -> 0 <= r -> r * r <= N < (r + 1) * (r + 1) -> 0 < a -> m <= a -> b <= 2 * a -> a <= v -> v <= b -> a <= r -> r + 1 <= b -> b * m <= a * (m + 1) -> r * (4 * m) <= u ->
  N * (m * m) <= v * v * ((m + 1) * (m + 1)) /\ v * v * (m * m) <= N * ((m + 1) * (m + 1)) /\ m <= v /\ v * (2 * m) <= u.
Proof.
  intros m N v r a b u Hm Hr [N1 N2] Ha Hma Hb V1 V2 A1 B1 G U. split; [|split; [|split] ].
  - assert (X0 : (r + 1) * (r + 1) <= b * b) by (apply Z.mul_le_mono_nonneg; lia). assert (X : N * (m * m) <= b * b * (m * m)) by (apply Z.mul_le_mono_nonneg_r; nia). assert (Z : b * m <= v * (m + 1)) by (transitivity (a * (m + 1)); [lia|apply Z.mul_le_mono_nonneg_r; lia]). assert (Y : b * m * (b * m) <= v * (m + 1) * (v * (m + 1))) by (apply Z.mul_le_mono_nonneg; try lia; apply Z.mul_nonneg_nonneg; lia). lia.
  - assert (X : v * m <= a * (m + 1)) by (transitivity (b * m); [apply Z.mul_le_mono_nonneg_r; lia|lia]). assert (Y : v * m * (v * m) <= a * (m + 1) * (a * (m + 1))) by (apply Z.mul_le_mono_nonneg; try lia; apply Z.mul_nonneg_nonneg; lia). assert (A2 : a * a <= r * r) by (apply Z.mul_le_mono_nonneg; lia). assert (Q : a * a * ((m + 1) * (m + 1)) <= N * ((m + 1) * (m + 1))) by (apply Z.mul_le_mono_nonneg_r; [apply Z.mul_nonneg_nonneg; lia|lia]). lia.
  - lia.
  - transitivity (2 * r * (2 * m)); [apply Z.mul_le_mono_nonneg_r; lia|lia].
Qed.

Lemma root_close : 8192 <= M -> f_m f + 3 <= B -> forall x z, f_pattern f x -> is_finite f x -> M <= fvalue f x -> nearest_to_root f (fvalue f x * fone f) z ->
  let N := fvalue f x * fone f in let v := fvalue f z in
  N * (M * M) <= v * v * ((M + 1) * (M + 1)) /\ v * v * (M * M) <= N * ((M + 1) * (M + 1)) /\ M <= v /\ v * (2 * M) <= fone f * fone f.
Proof.
  intros HM HB x z Hx Fx Lo (Z1 & Z2 & Z3 & NR) N v. pose proof (M_pos f Hok) as HM0. pose proof (E_pos f Hok) as HE. assert (F : 0 < fone f) by (apply fone_pos; exact Hok). destruct (B_range f Hok) as [B1 B2]. assert (Km : 1 <= f_m f) by (destruct Hok as (_ & ? & _); assumption).
  assert (Km13 : 13 <= f_m f) by (apply (Z.pow_le_mono_r_iff 2); [lia|lia|exact HM]).
  assert (HN : fone f * M <= N) by (unfold N; nia). assert (HN0 : 0 < N) by nia.
  set (r := Z.sqrt N). assert (Rs : r * r <= N < (r + 1) * (r + 1)) by (apply Z.sqrt_spec; lia). assert (R0 : 0 <= r) by apply Z.sqrt_nonneg.
  assert (FM : 2 * M * (2 * M) <= fone f).
  { rewrite (fone_eq f). replace (2 * M) with (2 ^ (f_m f + 1)) by (rewrite Z.pow_add_r by lia; ring). rewrite <- Z.pow_add_r by lia. apply Z.pow_le_mono_r; lia. }
  assert (RM : M <= r) by nia.
  assert (Nhi : N * (16 * M * M) < fone f * fone f * (fone f * fone f)).
  { assert (Xhi : fvalue f x < M * 2 ^ (E - 2)). { destruct (inf_value x Hx) as (_ & I & _). specialize (I Fx). rewrite (value_sg x Hx). pose proof (absval_nonneg f Hok x Hx) as An. clear - I An. unfold sg. destruct (f_sign f x); lia. }
    assert (Top : M * 2 ^ (E - 2) * (16 * M * M) <= fone f * fone f * fone f). { rewrite (fone_eq f). change 16 with (2 ^ 4). rewrite <- !Z.pow_add_r by lia. apply Z.pow_le_mono_r; lia. }
    unfold N. assert (fvalue f x * (16 * M * M) < fone f * fone f * fone f) by (apply Z.lt_le_trans with (2 := Top); apply Z.mul_lt_mono_pos_r; [nia|exact Xhi]). set (u := 16 * M * M) in *. clearbody u. replace (fvalue f x * fone f * u) with (fvalue f x * u * fone f) by ring. replace (fone f * fone f * (fone f * fone f)) with (fone f * fone f * fone f * fone f) by ring. apply Z.mul_lt_mono_pos_r; assumption. }
  assert (Rhi : r * (4 * M) <= fone f * fone f).
  { destruct (Z_le_dec (r * (4 * M)) (fone f * fone f)) as [L|L]; [exact L|]. exfalso. assert (X : fone f * fone f * (fone f * fone f) <= r * (4 * M) * (r * (4 * M))) by (apply Z.mul_le_mono_nonneg; nia). assert (r * (4 * M) * (r * (4 * M)) <= N * (16 * M * M)) by nia. lia. }
  destruct (scale r R0) as (k & n & K1 & K2 & K3 & K4 & K5). specialize (K5 RM). assert (P2 : 0 < 2 ^ k) by (apply Z.pow_pos_nonneg; lia).
  assert (Hkf : k <= E - 3).
  { apply (fits k n); [exact K1|exact K5|]. assert (Top : fone f * fone f <= M * 2 ^ (E - 2) * M). { rewrite (fone_eq f). rewrite <- !Z.pow_add_r by lia. apply Z.pow_le_mono_r; lia. } set (w := M * 2 ^ (E - 2)) in *. clearbody w. assert (r * (4 * M) <= w * M) by lia. nia. }
  destruct (pattern_value false k n K1) as (Y1 & Y2 & Y3 & Y4 & Y5 & _); [lia|exact K4|rewrite inf_eq; pose proof (M_pos f Hok) as MP; clear - K3 Hkf MP; nia|]. destruct (pattern_value false k (n + 1) K1) as (U1 & U2 & U3 & U4 & U5 & _); [lia|lia|rewrite inf_eq; pose proof (M_pos f Hok) as MP; clear - K3 Hkf MP; nia|].
  assert (Vy := value_sg _ Y1). rewrite Y3, Y5 in Vy. assert (Vu := value_sg _ U1). rewrite U3, U5 in Vu. set (y := f_with_sign f false (k * M + n)) in *. set (u := f_with_sign f false (k * M + (n + 1))) in *. clearbody y u. change (sg false) with 1 in Vy, Vu. rewrite Z.mul_1_l in Vy, Vu.
  set (g := 2 ^ k) in *. clearbody g. fold v in Z3, NR. fold N in NR.
  assert (Glo : n * g <= v).
  { destruct (Z_le_dec (n * g) v) as [L|L]; [exact L|]. exfalso. destruct (NR y Y1 Y2) as (Q & _ & _); [rewrite Vy; nia|]. rewrite Vy in Q. specialize (Q ltac:(lia)). clear - Q L K2 Rs R0 Z3. set (a := n * g) in *. clearbody a. assert (0 <= v + a < 2 * r) by lia. nia. }
  assert (Ghi : v <= (n + 1) * g).
  { destruct (Z_le_dec v ((n + 1) * g)) as [L|L]; [exact L|]. exfalso. destruct (NR u U1 U2) as (_ & Q & _); [rewrite Vu; nia|]. rewrite Vu in Q. specialize (Q ltac:(lia)). clear - Q L K2 Rs R0 Z3. set (a := (n + 1) * g) in *. clearbody a. assert (2 * (r + 1) < v + a) by lia. nia. }
  clear NR. assert (Hroot : n * g <= r) by lia. assert (Hroot2 : r + 1 <= (n + 1) * g) by lia. assert (Gap : (n + 1) * g * M <= n * g * (M + 1)) by (clear - K5 P2; assert (M * g <= n * g) by (apply Z.mul_le_mono_nonneg_r; lia); lia).
  apply (root_bounds M N v r (n * g) ((n + 1) * g) (fone f * fone f)); try assumption; try lia; clear - K5 P2 HM0; nia.
Qed.

Lemma est_low : forall C X m, 8192 <= m -> 0 < C -> C * ((m - 1) * (m - 1)) <= X * ((m + 1) * (m + 1)) -> 8189 * 8189 * C <= 8192 * 8192 * X.
Proof.
  intros C X m Hm HC W. assert (T2 : 8189 * (m + 1) * (8189 * (m + 1)) <= 8192 * (m - 1) * (8192 * (m - 1))) by (apply Z.mul_le_mono_nonneg; lia).
  apply (Z.mul_le_mono_pos_r _ _ ((m + 1) * (m + 1))); [apply Z.mul_pos_pos; lia|].
  apply Z.le_trans with (C * (8192 * (m - 1) * (8192 * (m - 1)))).
  - replace (8189 * 8189 * C * ((m + 1) * (m + 1))) with (C * (8189 * (m + 1) * (8189 * (m + 1)))) by ring. apply Z.mul_le_mono_nonneg_l; [lia|exact T2].
  - replace (C * (8192 * (m - 1) * (8192 * (m - 1)))) with (8192 * 8192 * (C * ((m - 1) * (m - 1)))) by ring. replace (8192 * 8192 * X * ((m + 1) * (m + 1))) with (8192 * 8192 * (X * ((m + 1) * (m + 1)))) by ring. apply Z.mul_le_mono_nonneg_l; [lia|exact W].
Qed.

Lemma est_high : forall C X m, 8192 <= m -> 0 < C -> X * (m * m) * (m * m) <= C * ((m + 1) * (m + 1)) * ((m + 1) * (m + 1)) -> 8192 * 8192 * X <= 8195 * 8195 * C.
Proof.
  intros C X m Hm HC W. assert (T : 8192 * ((m + 1) * (m + 1)) <= 8195 * (m * m)) by nia. set (q := (m + 1) * (m + 1)) in *. set (s := m * m) in *. assert (Hq : 0 <= q) by (unfold q; nia). assert (Hs : 0 < s) by (unfold s; nia). clearbody q s.
  assert (T2 : 8192 * q * (8192 * q) <= 8195 * s * (8195 * s)) by (apply Z.mul_le_mono_nonneg; lia).
  apply (Z.mul_le_mono_pos_r _ _ (s * s)); [apply Z.mul_pos_pos; lia|].
  apply Z.le_trans with (8192 * 8192 * (C * q * q)).
  - replace (8192 * 8192 * X * (s * s)) with (8192 * 8192 * (X * s * s)) by ring. apply Z.mul_le_mono_nonneg_l; [lia|exact W].
  - replace (8192 * 8192 * (C * q * q)) with (C * (8192 * q * (8192 * q))) by ring. replace (8195 * 8195 * C * (s * s)) with (C * (8195 * s * (8195 * s))) by ring. apply Z.mul_le_mono_nonneg_l; [lia|exact T2].
Qed.

(** Combining the two roundings of [sqrt().recip()]. *)
Lemma rsqrt_bounds : forall A F N s z m, 8192 <= m -> 0 < F -> 0 < s -> 0 <= z -> 0 < N -> N = A * F ->
  N * (m * m) <= s * s * ((m + 1) * (m + 1)) -> s * s * (m * m) <= N * ((m + 1) * (m + 1)) -> Z.abs (z * s - F * F) * m <= F * F ->
  (8192 - 3) * (8192 - 3) * (F * F * F) <= 8192 * 8192 * (z * z * A) <= (8192 + 3) * (8192 + 3) * (F * F * F).
Proof.
  intros A F N s z m Hm HF Hs Hz HN EN H1 H2 H3. set (u := F * F) in *. assert (Hu : 0 < u) by (apply Z.mul_pos_pos; lia).
  assert (L1 : z * s * m <= u * (m + 1)) by (clear - H3 Hm; set (p := z * s) in *; clearbody p u; nia). assert (L2 : u * (m - 1) <= z * s * m) by (clear - H3 Hm; set (p := z * s) in *; clearbody p u; nia). set (p := z * s) in *. assert (Hp : 0 <= p) by (apply Z.mul_nonneg_nonneg; lia).
  assert (S1 : p * m * (p * m) <= u * (m + 1) * (u * (m + 1))) by (apply Z.mul_le_mono_nonneg; try assumption; apply Z.mul_nonneg_nonneg; lia). assert (S2 : u * (m - 1) * (u * (m - 1)) <= p * m * (p * m)) by (apply Z.mul_le_mono_nonneg; try assumption; apply Z.mul_nonneg_nonneg; lia).
  set (q := m + 1) in *. assert (Hzz : 0 <= z * z) by (apply Z.mul_nonneg_nonneg; lia).
  assert (Pp : p * p = z * z * (s * s)) by (unfold p; ring).
  (* upper *)
  assert (U1 : z * z * N * (m * m) <= p * p * (q * q)) by (rewrite Pp; transitivity (z * z * (s * s * (q * q))); [rewrite <- Z.mul_assoc; apply Z.mul_le_mono_nonneg_l; lia|lia]).
  assert (U2 : p * p * (m * m) <= u * u * (q * q)) by lia.
  assert (V1 : u * u * ((m - 1) * (m - 1)) <= p * p * (m * m)) by lia.
  assert (V2 : p * p * (m * m) <= z * z * N * (q * q)) by (rewrite Pp; transitivity (z * z * (s * s * (m * m))); [lia|rewrite <- (Z.mul_assoc (z * z)); apply Z.mul_le_mono_nonneg_l; lia]).
  assert (EA : z * z * N = z * z * A * F) by (rewrite EN; ring). set (X := z * z * A) in *. set (C := u * F) in *. assert (EC : u * u = C * F) by (unfold C, u; ring). rewrite EA in *. rewrite EC in *.
  assert (HC : 0 < C) by (apply Z.mul_pos_pos; [exact Hu|exact HF]). clear H1 H2 H3 L1 L2 S1 S2 Pp.
  assert (W1 : C * ((m - 1) * (m - 1)) <= X * (q * q)).
  { assert (C * F * ((m - 1) * (m - 1)) <= X * F * (q * q)) by lia. apply (Z.mul_le_mono_pos_l _ _ F HF). lia. }
  assert (W2 : X * (m * m) * (m * m) <= C * (q * q) * (q * q)).
  { assert (T1 : X * F * (m * m) * (m * m) <= p * p * (q * q) * (m * m)) by (apply Z.mul_le_mono_nonneg_r; [apply Z.square_nonneg|exact U1]). assert (T2 : p * p * (m * m) * (q * q) <= C * F * (q * q) * (q * q)) by (apply Z.mul_le_mono_nonneg_r; [apply Z.square_nonneg|exact U2]).
    apply (Z.mul_le_mono_pos_l _ _ F HF). lia. }
  clear U1 U2 V1 V2 EA EC Hp Hzz. clearbody X C. clear p. 
  split.
  - change ((8192 - 3) * (8192 - 3)) with (8189 * 8189); apply (est_low C X m); assumption.
  - change ((8192 + 3) * (8192 + 3)) with (8195 * 8195); apply (est_high C X m); assumption.
Qed.

Lemma one_sign : sign_bit f (f_one f) = 0.
Proof.
  destruct one_ok as (O1 & _ & O3). rewrite (sign_cases _ O1). rewrite (value_sg _ O1) in O3. pose proof (absval_nonneg f Hok _ O1). pose proof (fone_pos f Hok). unfold sg in O3. destruct (f_sign f (f_one f)); lia.
Qed.

Lemma sign_product_one : forall x, f_pattern f x -> sign_product f (f_one f) x = sign_bit f x.
Proof. intros x Hx. unfold sign_product. rewrite one_sign, (sign_cases x Hx). destruct (f_sign f x); reflexivity. Qed.

Lemma recip_ok : 8192 <= M -> forall x, f_pattern f x -> f_pattern f (f_recip f x) /\ recip_estimate f x (f_recip f x).
Proof.
  intros HM x Hx. destruct one_ok as (O1 & O2 & O3). destruct (div_ok (f_one f) x O1 Hx) as (P & Q1 & Q2 & Q3 & Q4 & Q5 & Q6). rewrite (sign_product_one x Hx), O3 in *. pose proof (fone_pos f Hok) as F1. unfold f_recip. set (z := f_div f (f_one f) x) in *. clearbody z.
  split; [exact P|]. split; [intros H; apply Q1; right; exact H|]. split; [intros H0 H1; specialize (Q5 O2 H0 H1); replace (fone f =? 0) with false in Q5 by lia; exact Q5|]. split; [intros H; exact (Q4 O2 H)|].
  intros H0 H1 H2. assert (N0 : fvalue f x <> 0) by (intros C; rewrite C in H1; pose proof (M_pos f Hok); change (Z.abs 0) with 0 in H1; lia). destruct (Q6 O2 H0 N0) as [N _]. destruct (recip_close x z Hx HM H1 H2 N) as [C1 C2]. split; [exact C2|]. set (d := Z.abs (fvalue f z * fvalue f x - fone f * fone f)) in *. assert (0 <= d) by (unfold d; lia). clearbody d. set (u := fone f * fone f) in *. clearbody u. nia.
Qed.

Lemma pos_sign : forall x, f_pattern f x -> 0 < fvalue f x -> sign_bit f x = 0.
Proof. intros x Hx H. rewrite (sign_cases x Hx). rewrite (value_sg x Hx) in H. pose proof (absval_nonneg f Hok x Hx). unfold sg in H. destruct (f_sign f x); lia. Qed.

Lemma rsqrt_ok : 8192 <= M -> f_m f + 3 <= B -> forall x, f_pattern f x -> f_pattern f (f_rsqrt f x) /\ rsqrt_estimate f x (f_rsqrt f x).
Proof.
  intros HM HB x Hx. destruct (sqrt_ok HB x Hx) as (S0 & S1 & S2 & S3 & S4 & S5). unfold f_rsqrt. set (s := f_sqrt f x) in *. clearbody s. destruct one_ok as (O1 & O2 & O3). pose proof (div_ok (f_one f) s O1 S0) as (P & Q1 & Q2 & Q3 & Q4 & Q5 & Q6). destruct (recip_ok HM s S0) as (_ & R1 & R2 & R3 & R4).
  fold (f_recip f s) in *. set (z := f_recip f s) in *. clearbody z.
  split; [exact P|]. split; [intros H; auto|]. split; [intros H0 H1; auto|]. split; [intros H0 H1; rewrite (S3 H0 H1) in *; auto|]. split; [intros H0 H1; rewrite (S4 H0 H1) in R3; rewrite <- (pos_sign x Hx H1); auto|].
  intros H0 H1. pose proof (M_pos f Hok) as HM0. assert (X0 : 0 < fvalue f x) by lia. specialize (S5 H0 X0). pose proof (root_close HM HB x s Hx H0 H1 S5) as RC. cbv zeta in RC. destruct RC as (C1 & C2 & C3 & C4).
  assert (Sf : is_finite f s).
  { apply finite_small; [exact S0|apply S5|]. assert (As : absval f s = fvalue f s) by (rewrite (value_sg s S0) in *; pose proof (absval_nonneg f Hok s S0); unfold sg in *; destruct (f_sign f s); lia). rewrite As.
    destruct (B_range f Hok) as [B1 B2]. pose proof (E_pos f Hok). assert (Km : 1 <= f_m f) by (destruct Hok as (_ & ? & _); assumption). assert (Top : fone f * fone f <= M * 2 ^ (E - 2) * M). { rewrite (fone_eq f). rewrite <- !Z.pow_add_r by lia. apply Z.pow_le_mono_r; lia. } set (w := M * 2 ^ (E - 2)) in *. clearbody w. nia. }
  assert (Abs : Z.abs (fvalue f s) = fvalue f s) by lia. rewrite Abs in R4. specialize (Q6 O2 Sf ltac:(lia)). rewrite O3 in Q6. destruct Q6 as [N _]. destruct (recip_close s z S0 HM ltac:(lia) ltac:(rewrite Abs; exact C4) N) as [D1 D2]. split; [exact D2|].
  pose proof (fone_pos f Hok) as F1. assert (Zp : 0 < fvalue f z).
  { clear - D1 HM C3 F1 HM0. set (F := fone f) in *. set (v := fvalue f s) in *. set (y := fvalue f z) in *. clearbody F v y. set (m := M) in *. clearbody m. destruct (Z_le_dec y 0) as [L|L]; [|lia]. exfalso. assert (y * v <= 0) by nia. assert (0 < F * F) by (apply Z.mul_pos_pos; lia). set (u := F * F) in *. clearbody u. set (p := y * v) in *. clearbody p. assert (Z.abs (p - u) = u - p) by lia. nia. }
  split; [exact Zp|]. apply (rsqrt_bounds (fvalue f x) (fone f) (fvalue f x * fone f) (fvalue f s) (fvalue f z) M); try assumption; try lia; try reflexivity.
Qed.

(** ** Exact sums *)

Lemma representable : forall s j a, 0 <= j <= E - 3 -> 0 <= a < 2 * M -> exists y, f_pattern f y /\ ~ is_nan f y /\ fvalue f y = sg s * (a * 2 ^ j).
Proof.
  intros s j a Hj Ha. pose proof (M_pos f Hok) as HM. assert (Pj : 0 < 2 ^ j) by (apply Z.pow_pos_nonneg; lia). destruct (scale (a * 2 ^ j)) as (k & n & K1 & K2 & K3 & K4 & _); [apply Z.mul_nonneg_nonneg; lia|].
  assert (Hk : k <= j).
  { destruct (Z_le_dec k j) as [L|L]; [exact L|]. exfalso. destruct K4 as [K4|K4]; [lia|]. assert (2 ^ (j + 1) <= 2 ^ k) by (apply Z.pow_le_mono_r; lia). rewrite Z.pow_add_r, Z.pow_1_r in H by lia. set (g := 2 ^ j) in *. set (h := 2 ^ k) in *. clearbody g h. nia. }
  assert (Ej : 2 ^ j = 2 ^ (j - k) * 2 ^ k) by (rewrite <- Z.pow_add_r by lia; f_equal; lia). assert (P2 : 0 < 2 ^ k) by (apply Z.pow_pos_nonneg; lia).
  assert (En : a * 2 ^ j = n * 2 ^ k) by (rewrite Ej in *; set (h := 2 ^ k) in *; set (g := 2 ^ (j - k)) in *; clearbody g h; rewrite Z.mul_assoc in *; set (b := a * g) in *; clearbody b; assert (n = b) by nia; subst; reflexivity).
  destruct (pattern_value s k n K1) as (Y1 & Y2 & Y3 & Y4 & Y5 & _); [lia|exact K4|rewrite inf_eq; pose proof (E_pos f Hok); nia|].
  eexists. split; [exact Y1|]. split; [exact Y2|]. rewrite (value_sg _ Y1), Y3, Y5, En. reflexivity.
Qed.

Lemma add_exact : forall x y j a b, f_pattern f x -> f_pattern f y -> is_finite f x -> is_finite f y -> 0 <= j <= E - 3 -> fvalue f x = a * 2 ^ j -> fvalue f y = b * 2 ^ j -> Z.abs (a + b) < 2 * M ->
  f_pattern f (f_add f x y) /\ is_finite f (f_add f x y) /\ fvalue f (f_add f x y) = (a + b) * 2 ^ j.
Proof.
  intros x y j a b Hx Hy Fx Fy Hj Ea Eb Hab. destruct (add_ok x y Hx Hy) as (P & _ & _ & _ & _ & S5). destruct (S5 Fx Fy) as [(N1 & N2 & N) _]. set (z := f_add f x y) in *. clearbody z. split; [exact P|].
  destruct (representable (a + b <? 0) j (Z.abs (a + b)) Hj ltac:(lia)) as (t & T1 & T2 & T3). assert (Vt : fvalue f t = (a + b) * 2 ^ j) by (rewrite T3; unfold sg; destruct (a + b <? 0) eqn:C; [rewrite (Z.abs_neq (a + b)) by lia|rewrite (Z.abs_eq (a + b)) by lia]; ring).
  destruct (N t T1 T2) as [D _]. cbv zeta in D. assert (Vz : fvalue f z = (a + b) * 2 ^ j) by lia. split; [|exact Vz]. apply finite_small; [exact P|exact N2|].
  assert (As : absval f z = Z.abs (fvalue f z)) by (rewrite (value_sg z P); pose proof (absval_nonneg f Hok z P); unfold sg; destruct (f_sign f z); lia). rewrite As, Vz, Z.abs_mul, (Z.abs_eq (2 ^ j)) by (apply Z.pow_nonneg; lia).
  assert (2 ^ j <= 2 ^ (E - 3)) by (apply Z.pow_le_mono_r; lia). replace (E - 2) with (E - 3 + 1) by lia. rewrite Z.pow_add_r, Z.pow_1_r by (pose proof (E_pos f Hok); lia). assert (0 < 2 ^ j) by (apply Z.pow_pos_nonneg; lia). set (g := 2 ^ j) in *. set (h := 2 ^ (E - 3)) in *. clearbody g h. nia.
Qed.
End Round.

(** ** Narrowing *)

Lemma narrow_ok : forall x, f_pattern fmt64 x -> f_pattern fmt32 (f_narrow x) /\ narrowing_result x (f_narrow x).
Proof.
  intros x Hx. unfold f_narrow, narrowing_result. pose proof (sign_cases fmt64 fmt64_ok x Hx) as Sx. destruct (classes fmt64 fmt64_ok x Hx) as [(A1 & A2 & A3 & A4)|[(A1 & A2 & A3 & A4 & A5)|(A1 & A2 & A3 & A4 & A5)] ]; rewrite A1.
  - assert (H : f_pattern fmt32 (f_with_sign fmt32 (f_sign fmt64 x) (f_inf fmt32 + 2 ^ 22 + x mod 2 ^ 51 / 2 ^ 29)) /\ is_nan fmt32 (f_with_sign fmt32 (f_sign fmt64 x) (f_inf fmt32 + 2 ^ 22 + x mod 2 ^ 51 / 2 ^ 29))).
    { assert (R : 0 <= x mod 2 ^ 51 / 2 ^ 29 < 2 ^ 22) by (pose proof (Z.mod_pos_bound x (2 ^ 51) ltac:(lia)); split; [apply Z.div_pos; lia|apply Z.div_lt_upper_bound; lia]). set (p := x mod 2 ^ 51 / 2 ^ 29) in *. clearbody p.
      unfold f_pattern, is_nan, exponent_field, fraction_field, f_with_sign, f_inf, fmt32. cbn [f_m f_e]. change (2 ^ (8 + 23)) with 2147483648. change ((2 ^ 8 - 1) * 2 ^ 23) with 2139095040. change (2 ^ 23) with 8388608. change (2 ^ 22) with 4194304 in *. change (2 ^ 8) with 256. change (2 ^ (1 + 8 + 23)) with 4294967296. destruct (f_sign fmt64 x); lia. }
    split; [apply H|]. split; [intros _; apply H|]. split; intros; tauto.
  - rewrite A2. pose proof (inf_sign fmt32 fmt32_ok (f_sign fmt64 x)) as I. split; [apply I|]. split; [intros; tauto|]. split; [intros _; rewrite Sx; exact I|intros; tauto].
  - rewrite A2. destruct (round_nearest fmt32 fmt32_ok (f_sign fmt64 x) (f_abs_units fmt64 x) (2 ^ 925)) as (N & S & P & _); [exact (absval_nonneg fmt64 fmt64_ok x Hx)|reflexivity|]. set (z := f_round fmt32 (f_sign fmt64 x) (f_abs_units fmt64 x) (2 ^ 925)) in *. clearbody z.
    split; [exact P|]. split; [intros; tauto|]. split; [intros; tauto|]. intros _. split; [|rewrite (sign_cases fmt32 fmt32_ok z P), Sx, S; reflexivity]. change (fone fmt64 / fone fmt32) with (2 ^ 925). rewrite (value_sg fmt64 fmt64_ok x Hx). exact N.
Qed.
