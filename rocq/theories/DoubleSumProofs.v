(** Proofs of the properties: sums and roots of f32 computed in f64 (C98). *)
From Coq Require Import String.
From Verif Require Import Base Floats FloatSpec OpTables ExprSpec Arith ArithSpec Demos Ports DoubleSpec.
Open Scope list_scope.
Open Scope Z_scope.
From Coq Require Import Lia ZifyBool ZifyNat.
From Verif Require Import Lanes OpSpec FloatFacts RoundProofs ArithFacts DoubleProofs.
Ltac Zify.zify_post_hook ::= Z.div_mod_to_equations.

(** ** Arithmetic of double rounding *)

Lemma pow_split : forall a b, 0 <= b <= a -> 2 ^ a = 2 ^ (a - b) * 2 ^ b.
Proof. intros a b H. rewrite <- Z.pow_add_r by lia. f_equal. lia. Qed.

Lemma pow_gt : forall k n x j, 0 <= k -> 0 <= j -> n < 2 ^ x -> 0 <= x -> 2 ^ (x + j) <= n * 2 ^ k -> j < k.
Proof.
  intros k n x j Hk Hj Hn Hx H. destruct (Z_lt_dec j k) as [L|L]; [exact L|]. exfalso. assert (2 ^ k <= 2 ^ j) by (apply Z.pow_le_mono_r; lia). rewrite Z.pow_add_r in H by lia. assert (0 < 2 ^ k) by (apply Z.pow_pos_nonneg; lia). assert (0 < 2 ^ x) by (apply Z.pow_pos_nonneg; lia). set (p := 2 ^ k) in *. set (q := 2 ^ j) in *. set (X := 2 ^ x) in *. clearbody p q X. clear -Hn H H0 H1 H2. nia.
Qed.

Lemma multiple : forall n k j, 0 <= j <= k -> exists g, n * 2 ^ k = g * 2 ^ j.
Proof. intros n k j H. exists (n * 2 ^ (k - j)). rewrite (pow_split k j H). ring. Qed.

(** [a + b] cannot be very near to, and different from, a number half way between two floats. *)
Lemma not_near : forall j h sa na ka sb nb kb n, 0 <= j -> h = 2 ^ j -> 0 <= na < 2 ^ 24 -> 0 <= ka -> 0 <= nb < 2 ^ 24 -> 0 <= kb -> 2 ^ 23 <= n ->
  let a := sg sa * (na * 2 ^ ka) in let b := sg sb * (nb * 2 ^ kb) in let mid := (2 * n + 1) * 2 ^ 29 * h in
  Z.abs b <= Z.abs a -> 2 ^ 53 * h <= a + b -> Z.abs (a + b - mid) <= h -> a + b = mid.
Proof.
  intros j h sa na ka sb nb kb n Hj Eh Hna Hka Hnb Hkb Hn a b mid Hab Hs Hd. assert (Ph : 0 < h) by (rewrite Eh; apply Z.pow_pos_nonneg; lia).
  assert (A1 : 2 ^ 52 * h <= a) by (clear -Hab Hs Ph; lia). assert (Xa : a = na * 2 ^ ka). { unfold a, sg in *. destruct sa; [|lia]. assert (0 <= na * 2 ^ ka) by (apply Z.mul_nonneg_nonneg; [lia|apply Z.pow_nonneg; lia]). clear -A1 H Ph. lia. }
  assert (Ka : 28 + j < ka). { apply (pow_gt ka na 24 (28 + j)); try lia. replace (24 + (28 + j)) with (52 + j) by lia. rewrite Z.pow_add_r, <- Eh, <- Xa by lia. exact A1. }
  destruct (multiple na ka (29 + j)) as [ga Ga]; [lia|]. rewrite Z.pow_add_r, <- Eh in Ga by lia.
  assert (Ne : ga <> 2 * n + 1).
  { intros Q. destruct (Z.eq_dec ka (29 + j)) as [E|E].
    - rewrite E in Ga. rewrite Z.pow_add_r, <- Eh in Ga by lia. assert (na = ga) by (clear -Ga Ph; change (2 ^ 29) with 536870912 in Ga; nia). change (2 ^ 24) with 16777216 in Hna. change (2 ^ 23) with 8388608 in Hn. clear -H Q Hna Hn. lia.
    - destruct (multiple na ka (30 + j)) as [gb Gb]; [lia|]. rewrite Z.pow_add_r, <- Eh in Gb by lia. rewrite Gb in Ga. assert (2 * gb = ga) by (clear -Ga Ph; change (2 ^ 29) with 536870912 in Ga; change (2 ^ 30) with (2 * 536870912) in Ga; nia). clear -H Q. lia. }
  set (d := 2 * n + 1 - ga). assert (Hd0 : d <> 0) by (unfold d; clear -Ne; lia). assert (Em : mid - a = d * 2 ^ 29 * h) by (rewrite Xa, Ga; unfold mid, d; ring).
  assert (B1 : 2 ^ 28 * h <= Z.abs b). { clear -Em Hd Hd0 Ph. change (2 ^ 28) with 268435456. change (2 ^ 29) with 536870912 in Em. assert (536870912 * h <= Z.abs (d * 536870912 * h)) by (rewrite !Z.abs_mul, (Z.abs_eq h) by lia; change (Z.abs 536870912) with 536870912; assert (1 <= Z.abs d) by lia; nia). lia. }
  assert (Xb : Z.abs b = nb * 2 ^ kb). { unfold b. assert (0 <= nb * 2 ^ kb) by (apply Z.mul_nonneg_nonneg; [lia|apply Z.pow_nonneg; lia]). unfold sg. destruct sb; clear -H; lia. }
  assert (Kb : 4 + j < kb). { apply (pow_gt kb nb 24 (4 + j)); try lia. replace (24 + (4 + j)) with (28 + j) by lia. rewrite Z.pow_add_r, <- Eh, <- Xb by lia. exact B1. }
  destruct (multiple nb kb (1 + j)) as [gb Gb]; [lia|]. rewrite Z.pow_add_r, <- Eh in Gb by lia.
  assert (Xd : a + b - mid = (sg sb * gb - d * 2 ^ 28) * (2 * h)). { replace (a + b - mid) with (b - (mid - a)) by ring. rewrite Em. unfold b. rewrite Gb. change (2 ^ 1) with 2. change (2 ^ 29) with (2 ^ 28 * 2). ring. }
  set (t := sg sb * gb - d * 2 ^ 28) in *. clearbody t. rewrite Xd in Hd. assert (t = 0). { clear -Hd Ph. rewrite Z.abs_mul in Hd. rewrite (Z.abs_eq (2 * h)) in Hd by lia. nia. } rewrite H in Xd. clear -Xd. lia.
Qed.

(** Values of [f32] and of [f64], in units of [f32] and of [1 / C] of them. *)
Definition v32 (v : Z) : Prop := exists s n k, v = sg s * (n * 2 ^ k) /\ 0 <= n <= 2 ^ 24 /\ 0 <= k <= 253.

Definition v64 (C v : Z) : Prop := exists s n k, v = sg s * (n * 2 ^ k) * C /\ 0 <= n <= 2 ^ 53 /\ 0 <= k <= 300.

(** No [f32] lies strictly between two neighbours. *)
Lemma gap : forall w n k, v32 w -> 2 ^ 23 <= n -> 0 <= k -> n * 2 ^ k < w -> (n + 1) * 2 ^ k <= w.
Proof.
  intros w n k (s & m & j & -> & Hm & Hj) Hn Hk H. assert (P1 : 0 < 2 ^ k) by (apply Z.pow_pos_nonneg; lia). assert (P2 : 0 < 2 ^ j) by (apply Z.pow_pos_nonneg; lia).
  assert (E : sg s = 1). { unfold sg in *. destruct s; [|reflexivity]. exfalso. set (p := 2 ^ k) in *. set (q := 2 ^ j) in *. clearbody p q. change (2 ^ 23) with 8388608 in Hn. assert (0 <= m * q) by (apply Z.mul_nonneg_nonneg; lia). clear -H H0 Hn P1. nia. }
  rewrite E, Z.mul_1_l in *. destruct (Z_le_dec k j) as [L|L].
  - destruct (multiple m j k) as [g G]; [lia|]. rewrite G in *. set (p := 2 ^ k) in *. clearbody p. clear -H P1. apply Z.mul_lt_mono_pos_r in H; [|exact P1]. apply Z.mul_le_mono_nonneg_r; lia.
  - exfalso. assert (2 ^ (j + 1) <= 2 ^ k) by (apply Z.pow_le_mono_r; lia). rewrite Z.pow_add_r, Z.pow_1_r in H0 by lia. set (p := 2 ^ k) in *. set (q := 2 ^ j) in *. clearbody p q. change (2 ^ 23) with 8388608 in Hn. change (2 ^ 24) with 16777216 in Hm. clear -H H0 Hm Hn P1 P2. nia.
Qed.

Lemma bounded : forall w, v32 w -> w <= 2 ^ 24 * 2 ^ 253.
Proof.
  intros w (s & m & j & -> & Hm & Hj). assert (2 ^ j <= 2 ^ 253) by (apply Z.pow_le_mono_r; lia). assert (P : 0 < 2 ^ j) by (apply Z.pow_pos_nonneg; lia). set (p := 2 ^ j) in *. set (q := 2 ^ 253) in *. clearbody p q. set (t := 2 ^ 24) in *. assert (0 <= m * p) by nia. assert (m * p <= t * q) by nia. unfold sg. destruct s; clear -H0 H1; lia.
Qed.

(** The second rounding picks the right neighbour. *)
Lemma choose : forall C P Q s zv vr, 0 < C -> v32 P -> v32 Q -> P <= s <= Q -> (forall w, v32 w -> w <= P \/ Q <= w) -> P * C <= zv <= Q * C ->
  (2 * s < P + Q /\ 2 * zv < (P + Q) * C) \/ (P + Q < 2 * s /\ (P + Q) * C < 2 * zv) ->
  v32 vr -> (forall w, v32 w -> Z.abs (vr * C - zv) <= Z.abs (w * C - zv)) -> forall w, v32 w -> w <> vr -> Z.abs (vr - s) < Z.abs (w - s).
Proof.
  intros C P Q s zv vr HC VP VQ Hs Side Hz H Vr N w Vw Ne. pose proof (Side vr Vr) as S1. pose proof (Side w Vw) as S2. clear Side. destruct H as [[H1 H2]|[H1 H2]].
  - specialize (N P VP). assert (vr = P) by (destruct S1 as [S1|S1]; [|exfalso]; clear -N H2 S1 HC Hz; nia). clear -H H1 S2 Ne Hs. lia.
  - specialize (N Q VQ). assert (vr = Q) by (destruct S1 as [S1|S1]; [exfalso|]; clear -N H2 S1 HC Hz; nia). clear -H H1 S2 Ne Hs. lia.
Qed.

(** What is known after the first rounding, whose results are the multiples of [2 * h]. *)
Lemma first_round : forall C h s zv n, 0 < C -> 0 < h -> 0 <= n < 16777216 -> n * 1073741824 * h <= s < (n + 1) * 1073741824 * h ->
  (forall m, 0 <= m <= 9007199254740992 -> Z.abs (zv - s * C) <= Z.abs (m * (2 * h) * C - s * C)) ->
  let mid := (2 * n + 1) * 536870912 * h in
  Z.abs (zv - s * C) <= h * C /\ n * 1073741824 * h * C <= zv <= (n + 1) * 1073741824 * h * C /\ (s <= mid -> zv <= mid * C) /\ (mid <= s -> mid * C <= zv).
Proof.
  intros C h s zv n HC Hh Hn Hs H mid. assert (F : forall g, Z.abs (g * C - s * C) = Z.abs (g - s) * C) by (intros g; rewrite <- Z.mul_sub_distr_r, Z.abs_mul, (Z.abs_eq C) by lia; reflexivity).
  assert (Up : forall g m, g = m * (2 * h) -> 0 <= m <= 9007199254740992 -> (s <= g -> zv <= g * C) /\ (g <= s -> g * C <= zv)). { intros g m -> Hm. specialize (H m Hm). rewrite F in H. set (g := m * (2 * h)) in *. clearbody g. clear -H HC. split; intros L; [rewrite (Z.abs_eq (g - s)) in H by lia|rewrite (Z.abs_neq (g - s)) in H by lia]; clear -H HC L; lia. }
  split; [|split].
  - set (q := s / (2 * h)). assert (Q : q * (2 * h) <= s < (q + 1) * (2 * h)) by (unfold q; pose proof (Z.div_mod s (2 * h) ltac:(lia)); pose proof (Z.mod_pos_bound s (2 * h) ltac:(lia)); clear -H0 H1; nia).
    assert (Bq : 0 <= q < 9007199254740992) by (clearbody q; clear -Q Hs Hh Hn; split; nia).
    destruct (Z_le_dec (s - q * (2 * h)) h) as [L|L].
    + specialize (H q ltac:(lia)). rewrite F in H. rewrite (Z.abs_neq (q * (2 * h) - s)) in H by (clear -Q; lia). apply (Z.le_trans _ _ _ H). apply Z.mul_le_mono_nonneg_r; clear -L HC; lia.
    + specialize (H (q + 1) ltac:(lia)). rewrite F in H. rewrite (Z.abs_eq ((q + 1) * (2 * h) - s)) in H by (clear -Q; lia). apply (Z.le_trans _ _ _ H). apply Z.mul_le_mono_nonneg_r; clear -L HC; lia.
  - destruct (Up (n * 1073741824 * h) (n * 536870912)) as [_ U1]; [ring|lia|]. destruct (Up ((n + 1) * 1073741824 * h) ((n + 1) * 536870912)) as [U2 _]; [ring|lia|]. split; [apply U1; clear -Hs; lia|apply U2; clear -Hs; lia].
  - apply (Up mid (n * 536870912 + 268435456)); [unfold mid; ring|lia].
Qed.

Lemma innocuous_pos : forall C sa na ka sb nb kb zv vr, 0 < C -> 0 <= na < 2 ^ 24 -> 0 <= ka <= 253 -> 0 <= nb < 2 ^ 24 -> 0 <= kb <= 253 ->
  let a := sg sa * (na * 2 ^ ka) in let b := sg sb * (nb * 2 ^ kb) in let s := a + b in
  Z.abs b <= Z.abs a -> 0 < s -> zv <> s * C -> (forall w, v64 C w -> Z.abs (zv - s * C) <= Z.abs (w - s * C)) ->
  v32 vr -> (forall w, v32 w -> Z.abs (vr * C - zv) <= Z.abs (w * C - zv)) -> forall w, v32 w -> w <> vr -> Z.abs (vr - s) < Z.abs (w - s).
Proof.
  intros C sa na ka sb nb kb zv vr HC Hna Hka Hnb Hkb a b s Hab Hs Nz N1 Vr N2.
  assert (Ba : Z.abs a < 2 ^ 277). { assert (E : Z.abs a = na * 2 ^ ka) by (unfold a; assert (0 <= na * 2 ^ ka) by (apply Z.mul_nonneg_nonneg; [lia|apply Z.pow_nonneg; lia]); unfold sg; destruct sa; clear -H; lia). rewrite E. change 277 with (24 + 253). rewrite Z.pow_add_r by lia. assert (2 ^ ka <= 2 ^ 253) by (apply Z.pow_le_mono_r; lia). assert (0 < 2 ^ ka) by (apply Z.pow_pos_nonneg; lia). set (p := 2 ^ ka) in *. set (q := 2 ^ 253) in *. set (t := 2 ^ 24) in *. clearbody p q t. clear -H H0 Hna. nia. }
  assert (Bs : s < 2 ^ 278) by (change 278 with (1 + 277); rewrite Z.pow_add_r by lia; unfold s; set (t := 2 ^ 277) in *; clearbody t; change (2 ^ 1) with 2; clear -Ba Hab; lia).
  assert (Ls : 2 ^ 53 <= s). { destruct (Z_le_dec (2 ^ 53) s) as [L|L]; [exact L|]. exfalso. apply Nz. assert (V : v64 C (s * C)) by (exists false, s, 0; split; [unfold sg; rewrite Z.pow_0_r; ring|lia]). specialize (N1 _ V). rewrite Z.sub_diag in N1. clear -N1. change (Z.abs 0) with 0 in N1. lia. }
  pose proof (Z.log2_spec s Hs) as [Lg1 Lg2]. set (L := Z.log2 s) in *. assert (HL : 53 <= L) by (unfold L; rewrite <- (Z.log2_pow2 53) by lia; apply Z.log2_le_mono; exact Ls). assert (HL2 : L <= 277) by (apply Z.log2_lt_pow2 in Bs; [fold L in Bs; lia|exact Hs]). clearbody L.
  set (j := L - 53). set (h := 2 ^ j). assert (Ph : 0 < h) by (apply Z.pow_pos_nonneg; lia). assert (S1 : 9007199254740992 * h <= s < 18014398509481984 * h) by (unfold h, j; change 9007199254740992 with (2 ^ 53); change 18014398509481984 with (2 ^ 54); rewrite <- !Z.pow_add_r by lia; replace (53 + (L - 53)) with L by lia; replace (54 + (L - 53)) with (Z.succ L) by lia; split; assumption).
  set (n := s / (1073741824 * h)). assert (Hn : n * 1073741824 * h <= s < (n + 1) * 1073741824 * h) by (unfold n; pose proof (Z.div_mod s (1073741824 * h) ltac:(lia)); pose proof (Z.mod_pos_bound s (1073741824 * h) ltac:(lia)); clear -H H0; nia). clearbody n.
  assert (Bn : 8388608 <= n < 16777216) by (clear -Hn S1 Ph; nia).
  assert (M64 : forall m, 0 <= m <= 9007199254740992 -> Z.abs (zv - s * C) <= Z.abs (m * (2 * h) * C - s * C)). { intros m Hm. apply N1. exists false, m, (1 + j). unfold sg. rewrite Z.pow_add_r by lia. fold h. change (2 ^ 1) with 2. split; [ring|]. change (2 ^ 53) with 9007199254740992. split; lia. }
  destruct (first_round C h s zv n HC Ph ltac:(clear -Bn; lia) Hn M64) as (R1 & R2 & R3 & R4).
  destruct (Z.eq_dec L 277) as [E|E].
  - assert (Ep : n * 1073741824 * h = n * 2 ^ 254) by (unfold h, j; rewrite E, <- Z.mul_assoc; f_equal). assert (Top : 2 ^ 24 * 2 ^ 253 <= n * 2 ^ 254) by (change 254 with (1 + 253); rewrite (Z.pow_add_r 2 1 253) by lia; change (2 ^ 24) with 16777216; change (2 ^ 1) with 2; assert (0 < 2 ^ 253) by (apply Z.pow_pos_nonneg; lia); set (p := 2 ^ 253) in *; clearbody p; clear -H Bn; nia).
    set (T := 2 ^ 24 * 2 ^ 253) in *. assert (VT : v32 T) by (exists false, (2 ^ 24), 253; split; [unfold sg; symmetry; apply Z.mul_1_l|lia]). assert (Ts : T <= s) by (clear -Hn Ep Top; lia). assert (Tz : T * C <= zv) by (apply (Z.le_trans _ (n * 1073741824 * h * C)); [apply Z.mul_le_mono_nonneg_r; [lia|rewrite Ep; exact Top]|exact (proj1 R2)]).
    pose proof (bounded vr Vr) as B1. fold T in B1. specialize (N2 T VT). assert (vr = T) by (clearbody T; clear -N2 B1 Tz HC; nia). intros w Vw Ne. pose proof (bounded w Vw) as B2. fold T in B2. clearbody T. clear -H B2 Ne Ts. lia.
  - assert (Kp : 2 ^ (j + 30) = 1073741824 * h) by (rewrite Z.add_comm, Z.pow_add_r by lia; reflexivity).
    assert (Mem : forall m, 0 <= m <= 16777216 -> v32 (m * 1073741824 * h)). { intros m Hm. exists false, m, (j + 30). rewrite Kp. unfold sg. split; [ring|]. change (2 ^ 24) with 16777216. split; lia. }
    assert (Side : forall w, v32 w -> w <= n * 1073741824 * h \/ (n + 1) * 1073741824 * h <= w). { intros w Vw. destruct (Z_le_dec w (n * 1073741824 * h)) as [Q|Q]; [left; exact Q|right]. rewrite <- Z.mul_assoc, <- Kp in *. apply gap; [exact Vw|change (2 ^ 23) with 8388608; lia|lia|]. clear -Q. lia. }
    set (mid := (2 * n + 1) * 536870912 * h) in *. assert (Em : n * 1073741824 * h + (n + 1) * 1073741824 * h = 2 * mid) by (unfold mid; ring).
    assert (Nm : s <> mid). { intros Q. apply Nz. rewrite Q. clear -R3 R4 Q. specialize (R3 ltac:(lia)). specialize (R4 ltac:(lia)). lia. }
    assert (Nzm : zv <> mid * C). { intros Q. apply Nm. apply (not_near j h sa na ka sb nb kb n); try lia; try assumption; try reflexivity. fold a b s. change (2 ^ 29) with 536870912. fold mid. rewrite Q, <- Z.mul_sub_distr_r, Z.abs_mul, (Z.abs_eq C) in R1 by lia. apply Z.mul_le_mono_pos_r in R1; [|exact HC]. clear -R1. lia. }
    intros w Vw Ne. apply (choose C (n * 1073741824 * h) ((n + 1) * 1073741824 * h) s zv vr); try assumption; try (apply Mem; clear -Bn; lia); [clear -Hn; lia|]. rewrite Em. clear -R3 R4 Nm Nzm. destruct (Z_lt_dec s mid) as [Q|Q]; [left|right]; split; lia.
Qed.

Lemma v32_neg : forall v, v32 v -> v32 (- v).
Proof. intros v (s & n & k & -> & H). exists (negb s), n, k. split; [|exact H]. unfold sg. destruct s; cbn [negb]; ring. Qed.

Lemma v64_neg : forall C v, v64 C v -> v64 C (- v).
Proof. intros C v (s & n & k & -> & H). exists (negb s), n, k. split; [|exact H]. unfold sg. destruct s; cbn [negb]; ring. Qed.

Lemma innocuous_sign : forall C sa na ka sb nb kb zv vr, 0 < C -> 0 <= na < 2 ^ 24 -> 0 <= ka <= 253 -> 0 <= nb < 2 ^ 24 -> 0 <= kb <= 253 ->
  let a := sg sa * (na * 2 ^ ka) in let b := sg sb * (nb * 2 ^ kb) in let s := a + b in
  0 < s -> zv <> s * C -> (forall w, v64 C w -> Z.abs (zv - s * C) <= Z.abs (w - s * C)) ->
  v32 vr -> (forall w, v32 w -> Z.abs (vr * C - zv) <= Z.abs (w * C - zv)) -> forall w, v32 w -> w <> vr -> Z.abs (vr - s) < Z.abs (w - s).
Proof.
  intros C sa na ka sb nb kb zv vr HC Hna Hka Hnb Hkb a b s Hs Nz N1 Vr N2. destruct (Z_le_dec (Z.abs b) (Z.abs a)) as [L|L].
  - apply (innocuous_pos C sa na ka sb nb kb zv vr); assumption.
  - unfold s in *. rewrite (Z.add_comm a b) in *. apply (innocuous_pos C sb nb kb sa na ka zv vr); try assumption. fold a b. clear -L. lia.
Qed.

(** The second of two roundings does not harm a sum. *)
Lemma innocuous : forall C sa na ka sb nb kb zv vr, 0 < C -> 0 <= na < 2 ^ 24 -> 0 <= ka <= 253 -> 0 <= nb < 2 ^ 24 -> 0 <= kb <= 253 ->
  let s := sg sa * (na * 2 ^ ka) + sg sb * (nb * 2 ^ kb) in
  zv <> s * C -> (forall w, v64 C w -> Z.abs (zv - s * C) <= Z.abs (w - s * C)) ->
  v32 vr -> (forall w, v32 w -> Z.abs (vr * C - zv) <= Z.abs (w * C - zv)) -> forall w, v32 w -> w <> vr -> Z.abs (vr - s) < Z.abs (w - s).
Proof.
  intros C sa na ka sb nb kb zv vr HC Hna Hka Hnb Hkb s Nz N1 Vr N2 w Vw Ne. destruct (Z.eq_dec s 0) as [E|E].
  { exfalso. apply Nz. assert (V : v64 C 0) by (exists false, 0, 0; split; [reflexivity|lia]). specialize (N1 0 V). rewrite E in *. rewrite Z.mul_0_l in *. clear -N1. lia. }
  destruct (Z_lt_dec 0 s) as [L|L]; [exact (innocuous_sign C sa na ka sb nb kb zv vr HC Hna Hka Hnb Hkb L Nz N1 Vr N2 w Vw Ne)|].
  assert (Es : sg (negb sa) * (na * 2 ^ ka) + sg (negb sb) * (nb * 2 ^ kb) = - s) by (unfold s, sg; destruct sa, sb; cbn [negb]; ring).
  pose proof (innocuous_sign C (negb sa) na ka (negb sb) nb kb (- zv) (- vr) HC Hna Hka Hnb Hkb) as I. cbv zeta in I. rewrite Es in I. clearbody s. clear Es.
  assert (A : forall x y, Z.abs (- x - - y) = Z.abs (x - y)) by (clear; intros; lia).
  specialize (I ltac:(clear -E L; lia) ltac:(clear -Nz; lia)). rewrite <- (A vr s), <- (A w s). apply I; [|exact (v32_neg vr Vr)| |exact (v32_neg w Vw)|clear -Ne; lia].
  - intros u Hu. specialize (N1 (- u) (v64_neg C u Hu)). clear -N1. lia.
  - intros u Hu. specialize (N2 (- u) (v32_neg u Hu)). clear -N2. lia.
Qed.

(** ** The values of patterns *)

Lemma value32 : forall y, f_pattern fmt32 y -> ~ is_nan fmt32 y -> v32 (fvalue fmt32 y).
Proof.
  intros y Py Ny. destruct (classes fmt32 fmt32_ok y Py) as [C|[C|C]]; [tauto| |].
  - destruct (inf_value fmt32 fmt32_ok y Py) as [I _]. rewrite (value_sg fmt32 fmt32_ok y Py), I by tauto. exists (f_sign fmt32 y), (2 ^ 24), 253. split; [reflexivity|lia].
  - destruct (finite_form y Py ltac:(tauto)) as (s & n & k & E & Hn & Hk). exists s, n, k. split; [exact E|]. change (2 ^ 24) with 16777216. lia.
Qed.

Lemma repr32 : forall v, v32 v -> exists y, f_pattern fmt32 y /\ ~ is_nan fmt32 y /\ fvalue fmt32 y = v.
Proof.
  intros v (s & n & k & -> & Hn & Hk). change (2 ^ 24) with 16777216 in Hn. destruct (Z_lt_dec n 16777216) as [L|L].
  - apply (representable fmt32 fmt32_ok s k n); [change (2 ^ f_e fmt32 - 3) with 253; lia|change (2 * 2 ^ f_m fmt32) with 16777216; lia].
  - assert (n = 16777216) by (clear -Hn L; lia). subst n. destruct (Z.eq_dec k 253) as [->|E].
    + destruct (inf_ok fmt32 fmt32_ok s) as (I1 & I2 & I3). eexists. split; [exact I1|]. destruct (classes fmt32 fmt32_ok _ I1) as [C|[C|C]]; [tauto| |tauto]. split; [tauto|]. destruct (inf_value fmt32 fmt32_ok _ I1) as [I _]. rewrite (value_sg fmt32 fmt32_ok _ I1), I, I3 by exact I2. reflexivity.
    + replace (16777216 * 2 ^ k) with (8388608 * 2 ^ (k + 1)) by (rewrite Z.pow_add_r by lia; change (2 ^ 1) with 2; ring). apply (representable fmt32 fmt32_ok s (k + 1) 8388608); [change (2 ^ f_e fmt32 - 3) with 253; lia|change (2 * 2 ^ f_m fmt32) with 16777216; lia].
Qed.

Lemma repr64 : forall v, v64 (2 ^ 925) v -> exists y, f_pattern fmt64 y /\ ~ is_nan fmt64 y /\ fvalue fmt64 y = v.
Proof.
  intros v (s & n & k & -> & Hn & Hk). change (2 ^ 53) with 9007199254740992 in Hn. replace (sg s * (n * 2 ^ k) * 2 ^ 925) with (sg s * (n * 2 ^ (k + 925))) by (rewrite (Z.pow_add_r 2 k 925) by lia; generalize (2 ^ 925); intros; ring). destruct (Z_lt_dec n 9007199254740992) as [L|L].
  - apply (representable fmt64 fmt64_ok s (k + 925) n); [change (2 ^ f_e fmt64 - 3) with 2045; lia|change (2 * 2 ^ f_m fmt64) with 9007199254740992; lia].
  - assert (n = 9007199254740992) by (clear -Hn L; lia). subst n. replace (9007199254740992 * 2 ^ (k + 925)) with (4503599627370496 * 2 ^ (k + 925 + 1)) by (rewrite (Z.pow_add_r 2 (k + 925) 1) by lia; change (2 ^ 1) with 2; ring). apply (representable fmt64 fmt64_ok s (k + 925 + 1) 4503599627370496); [change (2 ^ f_e fmt64 - 3) with 2045; lia|change (2 * 2 ^ f_m fmt64) with 9007199254740992; lia].
Qed.

Lemma form_small : forall s n k, 0 <= n < 16777216 -> 0 <= k <= 253 -> Z.abs (sg s * (n * 2 ^ k)) < 2 ^ 277.
Proof.
  intros s n k Hn Hk. assert (E : Z.abs (sg s * (n * 2 ^ k)) = n * 2 ^ k) by (assert (0 <= n * 2 ^ k) by (apply Z.mul_nonneg_nonneg; [lia|apply Z.pow_nonneg; lia]); unfold sg; destruct s; clear -H; lia). rewrite E. change 277 with (24 + 253). rewrite Z.pow_add_r by lia. change (2 ^ 24) with 16777216. assert (2 ^ k <= 2 ^ 253) by (apply Z.pow_le_mono_r; lia). assert (0 < 2 ^ k) by (apply Z.pow_pos_nonneg; lia). set (p := 2 ^ k) in *. set (q := 2 ^ 253) in *. clearbody p q. clear -H H0 Hn. nia.
Qed.

Lemma zero64 : v64 (2 ^ 925) 0.
Proof. exists false, 0, 0. split; [unfold sg; generalize (2 ^ 925); intros; ring|lia]. Qed.

Lemma small_finite : forall v z, Z.abs v < 2 ^ 278 -> nearest_to fmt64 (v * 2 ^ 925) 1 z -> is_finite fmt64 z.
Proof.
  intros v z Hv (P & Nn & H). destruct (repr64 0 zero64) as (y & Y1 & Y2 & Y3). destruct (H y Y1 Y2) as [D _]. cbv zeta in D. rewrite Y3, !Z.mul_1_r in D. apply (finite_small fmt64 fmt64_ok z P Nn).
  assert (As : absval fmt64 z = Z.abs (fvalue fmt64 z)) by (rewrite (value_sg fmt64 fmt64_ok z P); pose proof (absval_nonneg fmt64 fmt64_ok z P); unfold sg; destruct (f_sign fmt64 z); clear -H0; lia). rewrite As.
  change (2 ^ f_e fmt64 - 2) with (1 + (278 + (925 + 842))). rewrite (Z.pow_add_r 2 1), (Z.pow_add_r 2 278), (Z.pow_add_r 2 925) by lia. change (2 ^ f_m fmt64) with 4503599627370496. change (2 ^ 1) with 2. assert (P1 : 0 < 2 ^ 925) by (apply Z.pow_pos_nonneg; lia). assert (P2 : 0 < 2 ^ 842) by (apply Z.pow_pos_nonneg; lia). assert (P3 : 0 < 2 ^ 278) by (apply Z.pow_pos_nonneg; lia).
  set (c := 2 ^ 925) in *. set (d := 2 ^ 842) in *. set (e := 2 ^ 278) in *. set (u := fvalue fmt64 z) in *. clearbody c d e u. clear -D Hv P1 P2 P3. assert (A : Z.abs u <= 2 * (Z.abs v * c)) by (rewrite <- (Z.abs_eq c) at 1 by lia; rewrite <- Z.abs_mul; lia). assert (B : Z.abs v * c < e * c) by (apply Z.mul_lt_mono_pos_r; assumption). assert (0 < e * c) by (apply Z.mul_pos_pos; assumption). rewrite (Z.mul_assoc e c d). set (g := e * c) in *. clearbody g. nia.
Qed.

Lemma twice_rounded : forall sa na ka sb nb kb z r, 0 <= na < 16777216 -> 0 <= ka <= 253 -> 0 <= nb < 16777216 -> 0 <= kb <= 253 ->
  let s := sg sa * (na * 2 ^ ka) + sg sb * (nb * 2 ^ kb) in
  nearest_to fmt64 (s * 2 ^ 925) 1 z -> nearest_to fmt32 (fvalue fmt64 z) (2 ^ 925) r -> nearest_to fmt32 s 1 r.
Proof.
  intros sa na ka sb nb kb z r Hna Hka Hnb Hkb s Nz Nr. assert (PC : 0 < 2 ^ 925) by (apply Z.pow_pos_nonneg; lia). pose proof repr64 as R64. set (C := 2 ^ 925) in *. clearbody C. destruct (Z.eq_dec (fvalue fmt64 z) (s * C)) as [E|E].
  { rewrite E in Nr. apply (nearest_scale _ _ _ C _ PC). rewrite Z.mul_1_l. exact Nr. }
  destruct Nr as (Pr & Nn & Nr). destruct Nz as (_ & _ & Nz). split; [exact Pr|]. split; [exact Nn|]. intros y Py Ny. cbv zeta. rewrite !Z.mul_1_r. destruct (Z.eq_dec (fvalue fmt32 y) (fvalue fmt32 r)) as [Q|Q].
  { rewrite Q. split; [apply Z.le_refl|]. intros _ X. exfalso. apply X. reflexivity. }
  assert (St : Z.abs (fvalue fmt32 r - s) < Z.abs (fvalue fmt32 y - s)); [|split; [clear -St; lia|intros X; exfalso; clear -St X; lia]].
  apply (innocuous C sa na ka sb nb kb (fvalue fmt64 z) (fvalue fmt32 r) PC Hna Hka Hnb Hkb E); [|exact (value32 r Pr Nn)| |exact (value32 y Py Ny)|exact Q].
  - intros w Hw. destruct (R64 w Hw) as (t & T1 & T2 & T3). destruct (Nz t T1 T2) as [D _]. cbv zeta in D. rewrite T3, !Z.mul_1_r in D. exact D.
  - intros w Hw. destruct (repr32 w Hw) as (t & T1 & T2 & T3). destruct (Nr t T1 T2) as [D _]. cbv zeta in D. rewrite T3 in D. exact D.
Qed.

Lemma infinity_unique : forall x y, f_pattern fmt32 x -> is_infinite fmt32 x -> infinity_of_sign fmt32 (sign_bit fmt32 x) y -> y = x.
Proof.
  intros x y Px (X1 & X2) (Py & (Y1 & Y2) & Y3). unfold f_pattern, exponent_field, fraction_field, sign_bit, fmt32 in *. cbn [f_m f_e] in *. change (2 ^ (23 + 8)) with 2147483648 in *. change (2 ^ 23) with 8388608 in *. change (2 ^ 8) with 256 in *. lia.
Qed.

Lemma c98_sum : forall a b : Z, f_pattern fmt32 a -> f_pattern fmt32 b ->
  sum_result fmt32 a b (f_narrow (meaning EF64 2 ieee_arith ieee_sqrt (Arith Add (Arg 0) (Arg 1)) (map (as_f64 EF32) [a; b]))).
Proof.
  intros a b Pa Pb. change (meaning EF64 2 ieee_arith ieee_sqrt (Arith Add (Arg 0) (Arg 1)) (map (as_f64 EF32) [a; b])) with (f_add fmt64 (f_widen a) (f_widen b)).
  destruct (widened_value a Pa) as (Qa & Sa & Fa & Ia & Na). destruct (widened_value b Pb) as (Qb & Sb & Fb & Ib & Nb). destruct (add_ok fmt64 fmt64_ok _ _ Qa Qb) as (Pz & M1 & M2 & M3 & M4 & M5). set (z := f_add fmt64 (f_widen a) (f_widen b)) in *. clearbody z.
  destruct (narrow_ok z Pz) as (Pr & R1 & R2 & R3). set (r := f_narrow z) in *. clearbody r. rewrite Sa, Sb in *.
  assert (Ea : is_infinite fmt32 a -> z = f_widen a -> r = a) by (intros H E; apply infinity_unique; [exact Pa|exact H|]; rewrite <- Sa, <- E; apply R2; rewrite E; exact (Ia H)).
  assert (Eb : is_infinite fmt32 b -> z = f_widen b -> r = b) by (intros H E; apply infinity_unique; [exact Pb|exact H|]; rewrite <- Sb, <- E; apply R2; rewrite E; exact (Ib H)).
  split; [intros [H|H]; [exact (R1 (M1 (or_introl (Na H))))|exact (R1 (M1 (or_intror (Nb H))))]|]. split; [|split; [|split]].
  - intros H1 H2. specialize (M2 (Ia H1) (Ib H2)). destruct (sign_bit fmt32 a =? sign_bit fmt32 b); [exact (Ea H1 M2)|exact (R1 M2)].
  - intros H1 H2. exact (Ea H1 (M3 (Ia H1) (proj1 (Fb H2)))).
  - intros H1 H2. exact (Eb H2 (M4 (proj1 (Fa H1)) (Ib H2))).
  - intros H1 H2. destruct (Fa H1) as [G1 G2]. destruct (Fb H2) as [G3 G4]. destruct (M5 G1 G3) as [Nz Sz]. rewrite G2, G4, <- Z.mul_add_distr_r in Nz, Sz. destruct (finite_form a Pa H1) as (sa & na & ka & Xa & Bn & Bk). destruct (finite_form b Pb H2) as (sb & nb & kb & Xb & Cn & Ck).
    assert (Fz : is_finite fmt64 z). { apply (small_finite _ _) with (2 := Nz). rewrite Xa, Xb. pose proof (form_small sa na ka Bn Bk) as Q1. pose proof (form_small sb nb kb Cn Ck) as Q2. change (2 ^ 278) with (2 * 2 ^ 277). set (t := 2 ^ 277) in *. clearbody t. clear -Q1 Q2. lia. }
    destruct (R3 Fz) as [Nr Sr]. rewrite narrow_ratio in Nr. rewrite Xa, Xb in *. split; [exact (twice_rounded sa na ka sb nb kb z r Bn Bk Cn Ck Nz Nr)|]. intros E. rewrite Sr. apply Sz. rewrite E. apply Z.mul_0_l.
Qed.

Lemma c98_difference : forall a b : Z, f_pattern fmt32 a -> f_pattern fmt32 b ->
  difference_result fmt32 a b (f_narrow (meaning EF64 2 ieee_arith ieee_sqrt (Arith Sub (Arg 0) (Arg 1)) (map (as_f64 EF32) [a; b]))).
Proof.
  intros a b Pa Pb. change (meaning EF64 2 ieee_arith ieee_sqrt (Arith Sub (Arg 0) (Arg 1)) (map (as_f64 EF32) [a; b])) with (f_sub fmt64 (f_widen a) (f_widen b)).
  destruct (widened_value a Pa) as (Qa & Sa & Fa & Ia & Na). destruct (widened_value b Pb) as (Qb & Sb & Fb & Ib & Nb). destruct (sub_ok fmt64 fmt64_ok _ _ Qa Qb) as (Pz & M1 & M2 & M3 & M4 & M5). set (z := f_sub fmt64 (f_widen a) (f_widen b)) in *. clearbody z.
  destruct (narrow_ok z Pz) as (Pr & R1 & R2 & R3). set (r := f_narrow z) in *. clearbody r. rewrite Sa, Sb in *.
  assert (Ea : is_infinite fmt32 a -> z = f_widen a -> r = a) by (intros H E; apply infinity_unique; [exact Pa|exact H|]; rewrite <- Sa, <- E; apply R2; rewrite E; exact (Ia H)).
  split; [intros [H|H]; [exact (R1 (M1 (or_introl (Na H))))|exact (R1 (M1 (or_intror (Nb H))))]|]. split; [|split; [|split]].
  - intros H1 H2. specialize (M2 (Ia H1) (Ib H2)). destruct (sign_bit fmt32 a =? sign_bit fmt32 b); [exact (R1 M2)|exact (Ea H1 M2)].
  - intros H1 H2. exact (Ea H1 (M3 (Ia H1) (proj1 (Fb H2)))).
  - intros H1 H2. destruct (M4 (proj1 (Fa H1)) (Ib H2)) as (_ & I1 & I2). rewrite <- I2. exact (R2 I1).
  - intros H1 H2. destruct (Fa H1) as [G1 G2]. destruct (Fb H2) as [G3 G4]. destruct (M5 G1 G3) as [Nz Sz]. rewrite G2, G4, <- Z.mul_sub_distr_r in Nz, Sz. destruct (finite_form a Pa H1) as (sa & na & ka & Xa & Bn & Bk). destruct (finite_form b Pb H2) as (sb & nb & kb & Xb & Cn & Ck).
    assert (Y : fvalue fmt32 a - fvalue fmt32 b = sg sa * (na * 2 ^ ka) + sg (negb sb) * (nb * 2 ^ kb)) by (rewrite Xa, Xb; unfold sg; destruct sb; cbn [negb]; ring).
    assert (Fz : is_finite fmt64 z). { apply (small_finite _ _) with (2 := Nz). rewrite Y. pose proof (form_small sa na ka Bn Bk) as Q1. pose proof (form_small (negb sb) nb kb Cn Ck) as Q2. change (2 ^ 278) with (2 * 2 ^ 277). set (t := 2 ^ 277) in *. clearbody t. clear -Q1 Q2. lia. }
    destruct (R3 Fz) as [Nr Sr]. rewrite narrow_ratio in Nr. rewrite Y in *. split; [exact (twice_rounded sa na ka (negb sb) nb kb z r Bn Bk Cn Ck Nz Nr)|]. intros E. rewrite Sr. apply Sz. rewrite E. apply Z.mul_0_l.
Qed.

(** ** Roots *)

Lemma chosen : forall C P Q zv vr, 0 < C -> v32 P -> v32 Q -> (forall w, v32 w -> w <= P \/ Q <= w) -> P * C <= zv <= Q * C ->
  v32 vr -> (forall w, v32 w -> Z.abs (vr * C - zv) <= Z.abs (w * C - zv)) -> (2 * zv < (P + Q) * C -> vr = P) /\ ((P + Q) * C < 2 * zv -> vr = Q).
Proof.
  intros C P Q zv vr HC VP VQ Side Hz Vr N. pose proof (Side vr Vr) as S1. clear Side. split; intros H2.
  - specialize (N P VP). destruct S1 as [S1|S1]; [|exfalso]; clear -N H2 S1 HC Hz; nia.
  - specialize (N Q VQ). destruct S1 as [S1|S1]; [exfalso|]; clear -N H2 S1 HC Hz; nia.
Qed.

(** The scale of the root of [N]. *)
Lemma root_scale : forall N, 2 ^ 149 <= N < 2 ^ 426 -> exists j n, 21 <= j <= 159 /\ 8388608 <= n < 16777216 /\ let D := 1073741824 * 2 ^ j in n * D * (n * D) <= N < (n + 1) * D * ((n + 1) * D).
Proof.
  intros N [H1 H2]. assert (PN : 0 <= N) by (apply (Z.le_trans _ (2 ^ 149)); [apply Z.pow_nonneg; lia|exact H1]). set (t := Z.sqrt N). pose proof (Z.sqrt_spec N PN) as S. cbv zeta in S. fold t in S. pose proof (Z.sqrt_nonneg N) as T0. fold t in T0.
  assert (T1 : 2 ^ 74 <= t). { destruct (Z_le_dec (2 ^ 74) t) as [Q|Q]; [exact Q|]. exfalso. change 149 with (74 + 75) in H1. rewrite Z.pow_add_r in H1 by lia. change 75 with (1 + 74) in H1. rewrite (Z.pow_add_r 2 1) in H1 by lia. change (2 ^ 1) with 2 in H1. set (q := 2 ^ 74) in *. clearbody q t. clear -H1 S Q T0. unfold Z.succ in S. nia. }
  assert (T2 : t < 2 ^ 213). { destruct (Z_lt_dec t (2 ^ 213)) as [Q|Q]; [exact Q|]. exfalso. change 426 with (213 + 213) in H2. rewrite Z.pow_add_r in H2 by lia. assert (0 < 2 ^ 213) by (apply Z.pow_pos_nonneg; lia). set (q := 2 ^ 213) in *. clearbody q t. clear -H2 S Q H. assert (q * q <= t * t) by (apply Z.mul_le_mono_nonneg; lia). lia. }
  assert (Pt : 0 < t) by (clear -T1; lia). pose proof (Z.log2_spec t Pt) as [G1 G2]. assert (L1 : 74 <= Z.log2 t) by (rewrite <- (Z.log2_pow2 74) by lia; apply Z.log2_le_mono; exact T1). assert (L2 : Z.log2 t < 213) by (apply Z.log2_lt_pow2; assumption). set (L := Z.log2 t) in *. clearbody L t. clear PN.
  set (j := L - 53). assert (Ph : 0 < 2 ^ j) by (apply Z.pow_pos_nonneg; lia). assert (E1 : 2 ^ L = 9007199254740992 * 2 ^ j) by (unfold j; change 9007199254740992 with (2 ^ 53); rewrite <- Z.pow_add_r by lia; f_equal; lia). rewrite Z.pow_succ_r, E1 in G2 by lia. rewrite E1 in G1. clear E1.
  exists j, (t / (1073741824 * 2 ^ j)). set (h := 2 ^ j) in *. clearbody h. set (n := t / (1073741824 * h)). assert (Q : n * (1073741824 * h) <= t < (n + 1) * (1073741824 * h)) by (unfold n; pose proof (Z.div_mod t (1073741824 * h) ltac:(lia)); pose proof (Z.mod_pos_bound t (1073741824 * h) ltac:(lia)); clear -H H0; nia). clearbody n.
  split; [lia|]. assert (Bn : 8388608 <= n < 16777216) by (clear -Q G1 G2 Ph; nia). split; [exact Bn|]. cbv zeta. set (P := n * (1073741824 * h)) in *. set (R := (n + 1) * (1073741824 * h)) in *. assert (0 <= P) by (unfold P; clear -Bn Ph; nia). clearbody P R. clear -S Q H T0. unfold Z.succ in S. assert (P * P <= t * t) by (apply Z.mul_le_mono_nonneg; lia). assert ((t + 1) * (t + 1) <= R * R) by (apply Z.mul_le_mono_nonneg; lia). lia.
Qed.

(** The square of a number half way between two floats is not near the radicand. *)
Lemma root_not_near : forall j h na e n, 0 <= j -> h = 2 ^ j -> 0 <= na < 2 ^ 24 -> 0 <= e -> 8388608 <= n < 16777216 ->
  let N := na * 2 ^ e in let D := 1073741824 * h in let mid := (2 * n + 1) * (536870912 * h) in
  n * D * (n * D) <= N -> N <> mid * mid /\ ~ ((mid - h) * (mid - h) <= N <= (mid + h) * (mid + h)).
Proof.
  intros j h na e n Hj Eh Hna He Hn N D mid HN. assert (Ph : 0 < h) by (rewrite Eh; apply Z.pow_pos_nonneg; lia). set (g := h * h). assert (Eg : g = 2 ^ (j + j)) by (unfold g; rewrite Eh, Z.pow_add_r by lia; reflexivity). assert (Pg : 0 < g) by (unfold g; apply Z.mul_pos_pos; assumption).
  assert (K : 81 + (j + j) < e). { apply (pow_gt e na 24 (81 + (j + j))); try lia. replace (24 + (81 + (j + j))) with (105 + (j + j)) by lia. rewrite Z.pow_add_r, <- Eg by lia. apply (Z.le_trans _ (n * D * (n * D))); [|exact HN]. replace (n * D * (n * D)) with (n * n * 1152921504606846976 * g) by (unfold D, g; ring). change (2 ^ 105) with (35184372088832 * 1152921504606846976). apply Z.mul_le_mono_nonneg_r; [lia|]. apply Z.mul_le_mono_nonneg_r; [lia|]. clear -Hn. nia. }
  destruct (multiple na e (59 + (j + j))) as [q Q]; [lia|]. rewrite Z.pow_add_r, <- Eg in Q by lia. fold N in Q. change (2 ^ 59) with (2 * 288230376151711744) in Q.
  assert (Em : mid * mid = (2 * n + 1) * (2 * n + 1) * 288230376151711744 * g) by (unfold mid, g; ring).
  assert (Ne : 288230376151711744 * g <= Z.abs (N - mid * mid)). { replace (N - mid * mid) with ((2 * q - (2 * n + 1) * (2 * n + 1)) * (288230376151711744 * g)) by (rewrite Q, Em; ring). rewrite Z.abs_mul, (Z.abs_eq (288230376151711744 * g)) by lia. assert (1 <= Z.abs (2 * q - (2 * n + 1) * (2 * n + 1))) by (replace (2 * q - (2 * n + 1) * (2 * n + 1)) with (2 * (q - 2 * n * n - 2 * n) - 1) by ring; clear; lia). rewrite <- (Z.mul_1_l (288230376151711744 * g)) at 1. apply Z.mul_le_mono_nonneg_r; [lia|exact H]. }
  assert (Sm : 2 * mid * h + g < 288230376151711744 * g). { replace (2 * mid * h + g) with (((2 * n + 1) * 1073741824 + 1) * g) by (unfold mid, g; ring). apply Z.mul_lt_mono_pos_r; [exact Pg|]. clear -Hn. lia. }
  split; [intros X; rewrite X, Z.sub_diag in Ne; clear -Ne Pg; change (Z.abs 0) with 0 in Ne; lia|]. intros [X1 X2]. replace ((mid - h) * (mid - h)) with (mid * mid - 2 * mid * h + g) in X1 by (unfold g; ring). replace ((mid + h) * (mid + h)) with (mid * mid + 2 * mid * h + g) in X2 by (unfold g; ring). clear -X1 X2 Ne Sm Pg. lia.
Qed.

(** What is known after the first rounding of a root. *)
Lemma root_first : forall C h N zv n, 0 < C -> 0 < h -> 8388608 <= n < 16777216 -> 0 <= zv ->
  let D := 1073741824 * h in let mid := (2 * n + 1) * (536870912 * h) in
  n * D * (n * D) <= N < (n + 1) * D * ((n + 1) * D) -> N <> mid * mid -> ~ ((mid - h) * (mid - h) <= N <= (mid + h) * (mid + h)) ->
  (forall m, 0 <= m <= 9007199254740992 -> let y := m * (2 * h) * C in (zv < y -> 4 * (N * (C * C)) <= (zv + y) * (zv + y)) /\ (y < zv -> (zv + y) * (zv + y) <= 4 * (N * (C * C)))) ->
  n * D * C <= zv <= (n + 1) * D * C /\ ((N < mid * mid /\ zv < mid * C) \/ (mid * mid < N /\ mid * C < zv)).
Proof.
  intros C h N zv n HC Hh Hn Hz D mid HN Nm Near H.
  assert (Up : forall g m, g = m * (2 * h) -> 0 <= m <= 9007199254740992 -> (N <= g * g -> zv <= g * C) /\ (g * g <= N -> g * C <= zv)).
  { intros g m -> Hm. destruct (H m Hm) as [U1 U2]. clear H. set (g := m * (2 * h)) in *. assert (G0 : 0 <= g) by (unfold g; apply Z.mul_nonneg_nonneg; lia). assert (GC : 0 <= g * C) by (apply Z.mul_nonneg_nonneg; lia). assert (Eg : g * C * (g * C) = g * g * (C * C)) by ring. assert (PC : 0 < C * C) by (apply Z.mul_pos_pos; assumption). clearbody g. set (y := g * C) in *. clearbody y. split; intros L.
    - destruct (Z_le_dec zv y) as [Q|Q]; [exact Q|]. exfalso. specialize (U2 ltac:(lia)). assert (N * (C * C) <= g * g * (C * C)) by (apply Z.mul_le_mono_nonneg_r; lia). rewrite <- Eg in H. clear -U2 H Q GC. nia.
    - destruct (Z_le_dec y zv) as [Q|Q]; [exact Q|]. exfalso. specialize (U1 ltac:(lia)). assert (g * g * (C * C) <= N * (C * C)) by (apply Z.mul_le_mono_nonneg_r; lia). rewrite <- Eg in H. clear -U1 H Q Hz. nia. }
  split.
  - destruct (Up (n * D) (n * 536870912)) as [_ U1]; [unfold D; ring|lia|]. destruct (Up ((n + 1) * D) ((n + 1) * 536870912)) as [U2 _]; [unfold D; ring|lia|]. split; [apply U1; exact (proj1 HN)|apply U2; clear -HN; lia].
  - destruct (Up mid (n * 536870912 + 268435456)) as [U1 U2]; [unfold mid; ring|lia|]. assert (Nz : zv <> mid * C).
    { intros Q. apply Near. assert (PC : 0 < C * C) by (apply Z.mul_pos_pos; assumption). split.
      - destruct (H (n * 536870912 + 268435455) ltac:(lia)) as [_ X]. cbv zeta in X. replace ((n * 536870912 + 268435455) * (2 * h) * C) with ((mid - 2 * h) * C) in X by (unfold mid; ring). rewrite Q in X. assert (L : (mid - 2 * h) * C < mid * C) by (apply Z.mul_lt_mono_pos_r; lia). specialize (X L). replace ((mid * C + (mid - 2 * h) * C) * (mid * C + (mid - 2 * h) * C)) with (4 * ((mid - h) * (mid - h)) * (C * C)) in X by ring. rewrite (Z.mul_assoc 4 N) in X. apply Z.mul_le_mono_pos_r in X; [|exact PC]. clear -X. lia.
      - destruct (H (n * 536870912 + 268435457) ltac:(lia)) as [X _]. cbv zeta in X. replace ((n * 536870912 + 268435457) * (2 * h) * C) with ((mid + 2 * h) * C) in X by (unfold mid; ring). rewrite Q in X. assert (L : mid * C < (mid + 2 * h) * C) by (apply Z.mul_lt_mono_pos_r; lia). specialize (X L). replace ((mid * C + (mid + 2 * h) * C) * (mid * C + (mid + 2 * h) * C)) with (4 * ((mid + h) * (mid + h)) * (C * C)) in X by ring. rewrite (Z.mul_assoc 4 N) in X. apply Z.mul_le_mono_pos_r in X; [|exact PC]. clear -X. lia. }
    destruct (Z_lt_dec N (mid * mid)) as [Q|Q]; [left; specialize (U1 ltac:(lia)); clear -Q U1 Nz; lia|right; specialize (U2 ltac:(lia)); clear -Q U2 Nz Nm; lia].
Qed.

Lemma root_small : forall n j z, 0 <= n < 16777216 -> 0 <= j <= 159 -> f_pattern fmt64 z -> ~ is_nan fmt64 z -> 0 <= fvalue fmt64 z <= (n + 1) * (1073741824 * 2 ^ j) * 2 ^ 925 -> is_finite fmt64 z.
Proof.
  intros n j z Hn Hj Pz Nz Hz. apply (finite_small fmt64 fmt64_ok z Pz Nz). assert (As : absval fmt64 z = fvalue fmt64 z) by (rewrite (value_sg fmt64 fmt64_ok z Pz) in *; pose proof (absval_nonneg fmt64 fmt64_ok z Pz) as A; destruct Hz as [Hz _]; clear -Hz A; unfold sg in *; destruct (f_sign fmt64 z); lia). rewrite As. apply (Z.le_lt_trans _ _ _ (proj2 Hz)). clear As Hz.
  assert (J : 2 ^ j <= 2 ^ 159) by (apply Z.pow_le_mono_r; lia). assert (P1 : 0 < 2 ^ 925) by (apply Z.pow_pos_nonneg; lia). assert (P2 : 1 <= 2 ^ 962) by (apply (Z.pow_le_mono_r 2 0 962); lia). assert (P3 : 0 < 2 ^ j) by (apply Z.pow_pos_nonneg; lia).
  change (2 ^ f_e fmt64 - 2) with (159 + (925 + 962)). rewrite !(Z.pow_add_r 2) by lia. change (2 ^ f_m fmt64) with 4503599627370496. set (c := 2 ^ 925) in *. set (d := 2 ^ 962) in *. set (g := 2 ^ 159) in *. set (h := 2 ^ j) in *.
  assert (P4 : 2 * 4503599627370496 * 2 <= d) by (unfold d; change 962 with (55 + 907); rewrite Z.pow_add_r by lia; change (2 ^ 55) with (2 * 4503599627370496 * 4); assert (1 <= 2 ^ 907) by (apply (Z.pow_le_mono_r 2 0 907); lia); set (w := 2 ^ 907) in *; clearbody w; clear -H; lia).
  clearbody c d g h. assert (A : (n + 1) * (1073741824 * h) <= 18014398509481984 * g) by (clear -Hn J P3; nia). assert (B : (n + 1) * (1073741824 * h) * c <= 18014398509481984 * g * c) by (apply Z.mul_le_mono_nonneg_r; lia). apply (Z.le_lt_trans _ _ _ B). assert (0 < g * c) by (apply Z.mul_pos_pos; lia). replace (18014398509481984 * g * c) with (18014398509481984 * (g * c)) by ring. replace (4503599627370496 * (g * (c * d))) with (4503599627370496 * d * (g * c)) by ring. apply Z.mul_lt_mono_pos_r; [exact H|]. clear -P4. lia.
Qed.

Lemma root_twice : forall na ka z, 0 < na < 16777216 -> 0 <= ka <= 253 -> let N := na * 2 ^ (ka + 149) in
  nearest_to_root fmt64 (N * (2 ^ 925 * 2 ^ 925)) z -> is_finite fmt64 z /\ forall r, nearest_to fmt32 (fvalue fmt64 z) (2 ^ 925) r -> nearest_to_root fmt32 N r.
Proof.
  intros na ka z Hna Hka N (Pz & Nz & Z0 & H).
  assert (BN : 2 ^ 149 <= N < 2 ^ 426). { unfold N. assert (A : 2 ^ 149 <= 2 ^ (ka + 149)) by (apply Z.pow_le_mono_r; lia). assert (B : 2 ^ (ka + 149) <= 2 ^ 402) by (apply Z.pow_le_mono_r; lia). change 426 with (24 + 402). rewrite (Z.pow_add_r 2 24 402) by lia. change (2 ^ 24) with 16777216. assert (P : 0 < 2 ^ 149) by (apply Z.pow_pos_nonneg; lia). set (p := 2 ^ (ka + 149)) in *. set (q := 2 ^ 149) in *. set (w := 2 ^ 402) in *. clearbody p q w. clear -A B P Hna. nia. }
  destruct (root_scale N BN) as (j & n & Hj & Hn & HN). cbv zeta in HN. assert (Ph : 0 < 2 ^ j) by (apply Z.pow_pos_nonneg; lia).
  destruct (root_not_near j (2 ^ j) na (ka + 149) n ltac:(lia) eq_refl ltac:(change (2 ^ 24) with 16777216; lia) ltac:(lia) Hn (proj1 HN)) as [Ne Near]. fold N in Ne, Near.
  assert (PC : 0 < 2 ^ 925) by (apply Z.pow_pos_nonneg; lia).
  destruct (root_first (2 ^ 925) (2 ^ j) N (fvalue fmt64 z) n PC Ph Hn Z0 HN Ne Near) as [R1 R2].
  { intros m Hm y. destruct (repr64 y) as (t & T1 & T2 & T3). { exists false, m, (1 + j). unfold y, sg. rewrite (Z.pow_add_r 2 1 j) by lia. change (2 ^ 1) with 2. split; [generalize (2 ^ 925); intros; ring|]. change (2 ^ 53) with 9007199254740992. split; lia. }
    assert (Y0 : 0 <= y) by (unfold y; apply Z.mul_nonneg_nonneg; [apply Z.mul_nonneg_nonneg|]; lia). destruct (H t T1 T2) as (H1 & H2 & _); [rewrite T3; exact Y0|]. rewrite T3 in H1, H2. split; assumption. }
  split; [apply (root_small n j z); [lia|lia|exact Pz|exact Nz|split; [exact Z0|exact (proj2 R1)]]|]. clear H. set (C := 2 ^ 925) in *. clearbody C. set (zv := fvalue fmt64 z) in *. clearbody zv. clear Pz Nz Near.
  intros r (Pr & Nr & Hr). set (D := 1073741824 * 2 ^ j) in *. assert (ED : D = 2 ^ (j + 30)) by (unfold D; rewrite Z.add_comm, Z.pow_add_r by lia; reflexivity). set (mid := (2 * n + 1) * (536870912 * 2 ^ j)) in *. assert (Em : n * D + (n + 1) * D = 2 * mid) by (unfold mid, D; ring).
  assert (Mem : forall m, 0 <= m <= 16777216 -> v32 (m * D)). { intros m Hm. exists false, m, (j + 30). rewrite ED. unfold sg. split; [ring|]. change (2 ^ 24) with 16777216. split; lia. }
  assert (Side : forall w, v32 w -> w <= n * D \/ (n + 1) * D <= w). { intros w Vw. destruct (Z_le_dec w (n * D)) as [Q|Q]; [left; exact Q|right]. rewrite ED in *. apply gap; [exact Vw|change (2 ^ 23) with 8388608; lia|lia|]. clear -Q. lia. }
  assert (PD : 0 < D) by (unfold D; lia). assert (P0 : 0 <= n * D) by (apply Z.mul_nonneg_nonneg; lia). assert (E1 : (n + 1) * D = n * D + D) by ring.
  destruct (chosen C (n * D) ((n + 1) * D) zv (fvalue fmt32 r) PC) as [C1 C2]; [apply Mem; lia|apply Mem; lia|exact Side|exact R1|exact (value32 r Pr Nr)| |].
  { intros w Hw. destruct (repr32 w Hw) as (t & T1 & T2 & T3). destruct (Hr t T1 T2) as [X _]. cbv zeta in X. rewrite T3 in X. exact X. }
  rewrite Em in C1, C2. split; [exact Pr|]. split; [exact Nr|]. set (P := n * D) in *. rewrite E1 in *. clearbody P mid D. clear E1 ED Mem.
  destruct R2 as [[Q1 Q2]|[Q1 Q2]].
  - rewrite C1 by (clear -Q2; lia). split; [exact P0|]. intros y Py Ny Y0. cbv zeta. destruct (Side _ (value32 y Py Ny)) as [S|S]; set (v := fvalue fmt32 y) in *; clearbody v; clear -Q1 HN Em P0 PD S Y0.
    + split; [intros; lia|]. split; [intros L; assert ((P + v) * (P + v) <= 2 * P * (2 * P)) by (apply Z.mul_le_mono_nonneg; lia); lia|]. intros X L. exfalso. assert ((P + v) * (P + v) < 2 * P * (2 * P)) by (apply Z.mul_lt_mono_nonneg; lia). lia.
    + assert (A : 2 * mid * (2 * mid) <= (P + v) * (P + v)) by (apply Z.mul_le_mono_nonneg; lia). split; [intros; lia|]. split; [intros; lia|]. intros X L. exfalso. lia.
  - rewrite C2 by (clear -Q2; lia). split; [clear -P0 PD; lia|]. intros y Py Ny Y0. cbv zeta. destruct (Side _ (value32 y Py Ny)) as [S|S]; set (v := fvalue fmt32 y) in *; clearbody v; clear -Q1 HN Em P0 PD S Y0.
    + assert (A : (P + D + v) * (P + D + v) <= 2 * mid * (2 * mid)) by (apply Z.mul_le_mono_nonneg; lia). split; [intros; lia|]. split; [intros; lia|]. intros X L. exfalso. lia.
    + assert (A : 2 * (P + D) * (2 * (P + D)) <= (P + D + v) * (P + D + v)) by (apply Z.mul_le_mono_nonneg; lia). split; [intros; lia|]. split; [intros; lia|]. intros X L. exfalso. lia.
Qed.

Lemma infinite_sign : forall f x, fmt_ok f -> f_pattern f x -> is_infinite f x -> (sign_bit f x = 0 -> 0 < fvalue f x) /\ (sign_bit f x <> 0 -> fvalue f x < 0).
Proof.
  intros f x Ok Px I. destruct (inf_value f Ok x Px) as [V _]. specialize (V I). assert (0 < absval f x) by (rewrite V; pose proof (M_pos f Ok); pose proof (E_pos f Ok); apply Z.mul_pos_pos; [lia|apply Z.pow_pos_nonneg; lia]). rewrite (value_sg f Ok x Px), (sign_cases f Ok x Px). unfold sg. destruct (f_sign f x); split; intros; lia.
Qed.

Lemma zero_unique : forall x y, f_pattern fmt32 x -> f_pattern fmt32 y -> fvalue fmt32 x = 0 -> fvalue fmt32 y = 0 -> sign_bit fmt32 x = sign_bit fmt32 y -> x = y.
Proof.
  intros x y Px Py Vx Vy S. assert (Z0 : forall w, f_pattern fmt32 w -> fvalue fmt32 w = 0 -> w = sign_bit fmt32 w * 2147483648).
  { intros w Pw Vw. apply (proj2 (zero_iff fmt32 fmt32_ok w Pw)) in Vw. unfold f_zero, f_mag, f_pattern, sign_bit, fmt32 in *. cbn [f_m f_e] in *. change (2 ^ (8 + 23)) with 2147483648 in *. change (2 ^ (23 + 8)) with 2147483648. clear -Vw. apply Z.eqb_eq in Vw. lia. }
  rewrite (Z0 x Px Vx), (Z0 y Py Vy), S. reflexivity.
Qed.

Lemma c98_root : forall a : Z, f_pattern fmt32 a ->
  root_result fmt32 a (f_narrow (meaning EF64 1 ieee_arith ieee_sqrt (Sqrt (Arg 0)) (map (as_f64 EF32) [a]))).
Proof.
  intros a Pa. change (meaning EF64 1 ieee_arith ieee_sqrt (Sqrt (Arg 0)) (map (as_f64 EF32) [a])) with (f_sqrt fmt64 (f_widen a)).
  destruct (widened_value a Pa) as (Qa & Sa & Fa & Ia & Na). destruct (sqrt_ok fmt64 fmt64_ok ltac:(vm_compute; discriminate) _ Qa) as (Pz & M1 & M2 & M3 & M4 & M5). set (z := f_sqrt fmt64 (f_widen a)) in *. clearbody z.
  destruct (narrow_ok z Pz) as (Pr & R1 & R2 & R3). set (r := f_narrow z) in *. clearbody r. assert (PC : 0 < 2 ^ 925) by (apply Z.pow_pos_nonneg; lia). rewrite narrow_ratio in R3.
  assert (Wn : ~ is_nan fmt32 a -> ~ is_nan fmt64 (f_widen a)). { intros H. destruct (classes fmt32 fmt32_ok a Pa) as [K|[K|K]]; [tauto| |]; destruct (classes fmt64 fmt64_ok _ Qa) as [G|[G|G]]; try tauto. }
  split; [intros H; exact (R1 (M1 (Na H)))|]. split; [|split; [|split]].
  - intros H1 H2. apply R1. apply M2; [exact (Wn H1)|]. destruct (classes fmt32 fmt32_ok a Pa) as [K|[K|K]]; [tauto| |].
    + assert (I : is_infinite fmt32 a) by tauto. destruct (infinite_sign fmt32 a fmt32_ok Pa I) as [X1 X2]. destruct (infinite_sign fmt64 _ fmt64_ok Qa (Ia I)) as [_ X3]. apply X3. rewrite Sa. intros Q. specialize (X1 Q). clear -X1 H2. lia.
    + destruct (Fa ltac:(tauto)) as [_ ->]. clear -H2 PC. set (c := 2 ^ 925) in *. clearbody c. apply Z.mul_neg_pos; assumption.
  - intros H1 H2. destruct (Fa H1) as [G1 G2]. rewrite H2, Z.mul_0_l in G2. specialize (M3 G1 G2). rewrite M3 in *. destruct (R3 G1) as [(_ & Nn & Nr) Sr]. rewrite G2 in Nr. destruct (Nr a Pa) as [D _]; [destruct (classes fmt32 fmt32_ok a Pa) as [K|[K|K]]; tauto|]. cbv zeta in D. rewrite H2, Z.mul_0_l in D. apply zero_unique; [exact Pr|exact Pa| |exact H2|rewrite Sr; exact Sa].
    clear -D PC. set (c := 2 ^ 925) in *. clearbody c. change (Z.abs (0 - 0)) with 0 in D. assert (fvalue fmt32 r * c = 0) by lia. apply Z.mul_eq_0 in H. lia.
  - intros H1 H2. destruct (infinite_sign fmt32 a fmt32_ok Pa H1) as [_ X]. destruct (infinite_sign fmt64 _ fmt64_ok Qa (Ia H1)) as [X2 _]. assert (S0 : sign_bit fmt32 a = 0) by (destruct (Z.eq_dec (sign_bit fmt32 a) 0) as [Q|Q]; [exact Q|specialize (X Q); clear -X H2; lia]). rewrite <- Sa in S0. specialize (M4 (Ia H1) (X2 S0)). apply infinity_unique; [exact Pa|exact H1|]. rewrite <- Sa, <- M4. apply R2. rewrite M4. exact (Ia H1).
  - intros H1 H2. destruct (Fa H1) as [G1 G2]. assert (V : 0 < fvalue fmt64 (f_widen a)) by (rewrite G2; clear -H2 PC; set (c := 2 ^ 925) in *; clearbody c; apply Z.mul_pos_pos; assumption). specialize (M5 G1 V). rewrite G2 in M5. destruct (finite_form a Pa H1) as (sa & na & ka & Xa & Bn & Bk).
    assert (Pk : 0 < 2 ^ ka) by (apply Z.pow_pos_nonneg; lia). assert (Y : fvalue fmt32 a = na * 2 ^ ka /\ 0 < na) by (rewrite Xa in *; set (p := 2 ^ ka) in *; clearbody p; clear -H2 Bn Pk; assert (0 <= na * p) by (apply Z.mul_nonneg_nonneg; lia); unfold sg in *; destruct sa; [lia|split; [ring|nia]]). destruct Y as [Y Pn].
    assert (E64 : fvalue fmt32 a * 2 ^ 925 * fone fmt64 = na * 2 ^ (ka + 149) * (2 ^ 925 * 2 ^ 925)). { rewrite Y. change (fone fmt64) with (2 ^ (149 + 925)). rewrite (Z.pow_add_r 2 149 925), (Z.pow_add_r 2 ka 149) by lia. generalize (2 ^ 925) (2 ^ 149). intros. ring. }
    rewrite E64 in M5. destruct (root_twice na ka z ltac:(lia) Bk M5) as [Fz X]. change (fone fmt32) with (2 ^ 149). rewrite Y, <- Z.mul_assoc, <- Z.pow_add_r by lia. apply X. exact (proj1 (R3 Fz)).
Qed.
