(** Proofs of the properties: inner products of slices of floats on every target (C89). *)
From Coq Require Import String.
From Verif Require Import Base Spec VecSpec Vecs Iters Zip GateTables GateSpec Gates Lanes Floats FloatSpec Arith ArithSpec OpTables Ops OpSpec PortTables Ports PortSpec SumTables Sums SumSpec Builds AvailSpec ExprSpec Exprs FloatSumSpec DotSpec.
Open Scope list_scope.
Open Scope Z_scope.
From Coq Require Import Lia ZifyBool ZifyNat.
From Verif Require Import X86 ListFacts VecFacts IterFacts CollectFacts MapFacts ZipFacts VecProofs FloatFacts ArithFacts IterProofs ZipProofs SumProofs ArithProofs BuildProofs PipeProofs ExprProofs ReduceFacts OpProofs RoundProofs FSumProofs.
Ltac Zify.zify_post_hook ::= Z.div_mod_to_equations.

Lemma map2_len {A B C : Type} (g : A -> B -> C) : forall a b, length a = length b -> length (map2 g a b) = length a.
Proof. induction a as [|x a IH]; intros [|y b] H; try discriminate; [reflexivity|]. cbn [map2 length] in *. f_equal. apply IH. lia. Qed.

Lemma map2_firstn {A B C : Type} (g : A -> B -> C) : forall n a b, map2 g (firstn n a) (firstn n b) = firstn n (map2 g a b).
Proof. induction n as [|n IH]; intros [|x a] [|y b]; cbn [firstn map2]; try reflexivity. f_equal. apply IH. Qed.

Lemma map2_concat {A B C : Type} (g : A -> B -> C) (w : Z) : forall vs1 vs2, length vs1 = length vs2 -> Forall (fun v => zlen v = w) vs1 -> Forall (fun v => zlen v = w) vs2 ->
  concat (map2 (map2 g) vs1 vs2) = map2 g (concat vs1) (concat vs2) /\ Forall (fun v => zlen v = w) (map2 (map2 g) vs1 vs2).
Proof.
  induction vs1 as [|v vs1 IH]; intros [|u vs2] H F1 F2; try discriminate; [split; constructor|]. pose proof (Forall_inv F1) as Hv. pose proof (Forall_inv F2) as Hu. cbv beta in Hv, Hu. cbn [length] in H.
  destruct (IH vs2 ltac:(lia) (Forall_inv_tail F1) (Forall_inv_tail F2)) as [I1 I2]. cbn [map2 concat]. rewrite I1, map2_app by (unfold zlen in *; lia). split; [reflexivity|]. constructor; [|exact I2]. unfold zlen in *. rewrite map2_len by lia. exact Hv.
Qed.

Lemma fold_combine {A B C R : Type} (g : A -> B -> C) (f : R -> list C -> R) : forall vs1 vs2 s, length vs1 = length vs2 ->
  fold_left (fun acc (p : list A * list B) => f acc (map2 g (fst p) (snd p))) (combine vs1 vs2) s = fold_left f (map2 (map2 g) vs1 vs2) s.
Proof. induction vs1 as [|v vs1 IH]; intros [|u vs2] s H; try discriminate; [reflexivity|]. cbn [combine fold_left map2 fst snd]. apply IH. cbn [length] in H. lia. Qed.

Lemma c89_fused : forall (A B C R : Type) (c : config) (t1 t2 t3 : vty) (l1 d1 : list A) (l2 d2 : list B) (g : A -> B -> C) (start : R) (f : R -> list C -> R) (fuel : nat),
  vty_ok t1 -> vty_ok t2 -> vty_ok t3 -> WIDTH t2 = WIDTH t1 -> WIDTH t3 = WIDTH t1 -> slice_ok t1 l1 -> slice_ok t2 l2 -> zlen l1 * SIZE t3 <= isize_max ->
  zlen d1 = WIDTH t1 -> zlen d2 = WIDTH t1 -> zlen l1 = zlen l2 -> (length l1 < fuel)%nat ->
  let rest := rest_one (blanket_unsafe c (si_array (slice_array c t2)) (si_iterable c (slice_array c t2))) in
  let st := (simd_iter l1 d1, simd_iter l2 d2) in
  zip (slice_iterator c t1) rest st = Ok st /\
  exists acc s s', simd_reduce (zip_iterator (slice_iterator c t1) rest) fuel st start (fun r p => f r (map2 g (fst p) (snd p))) = Ok (acc, s) /\
    simd_reduce (slice_iterator c t3) fuel (simd_iter (map2 g l1 l2) (map2 g d1 d2)) start f = Ok (acc, s').
Proof.
  intros A B C R c t1 t2 t3 l1 d1 l2 d2 g start f fuel T1 T2 T3 W2 W3 L1 L2 L3 D1 D2 Hl Hf rest st. pose proof (vty_ok_facts _ T1) as (H1 & _). pose proof (zlen_nonneg l1).
  destruct (two_slices A B c t1 t2 l1 d1 l2 d2 0 0 T1 T2 W2 L1 L2 D1 ltac:(lia) Hl ltac:(lia) ltac:(lia) ltac:(lia)) as (Hz & vs1 & r1 & vs2 & r2 & s & He & [Hc1 Hc1'] & [Hc2 Hc2'] & Hv & Hr & Hlt & _).
  cbn [Z.to_nat skipn] in Hc1', Hc2'. split; [exact Hz|].
  assert (Lg : forall a b, length a = length b -> zlen (map2 g a b) = zlen a) by (intros a b K; unfold zlen; rewrite map2_len by exact K; reflexivity).
  assert (Ll : length l1 = length l2) by (unfold zlen in Hl; lia). assert (Ld : length d1 = length d2) by (unfold zlen in *; lia).
  destruct (c06_reduce C R c t3 (map2 g l1 l2) (map2 g d1 d2) 0 start f fuel T3) as (vs & rs & [Hc Hc'] & Hrs & _ & Hred & _).
  - unfold slice_ok. rewrite Lg by exact Ll. exact L3.
  - rewrite Lg by exact Ld. lia.
  - rewrite Lg by exact Ll. lia.
  - left. reflexivity.
  - rewrite map2_len by exact Ll. exact Hf.
  - cbn [Z.to_nat skipn] in Hc'. rewrite W3 in *. eexists. eexists. eexists. split; [|exact Hred].
    rewrite (emits_reduce _ _ _ _ _ He).
    2:{ rewrite combine_length. pose proof (chunked_length t1 l1 T1 vs1 r1 (conj Hc1 Hc1')). lia. }
    f_equal. f_equal. destruct (map2_concat g (WIDTH t1) vs1 vs2 Hv Hc1 Hc2) as [M1 M2].
    assert (U : map2 (map2 g) vs1 vs2 = vs /\ map2 g r1 r2 = rs).
    { apply (chunked_unique (WIDTH t1) (map2 g l1 l2)); [lia|split; [exact M2|]|split; assumption|rewrite Lg by exact Hr; exact Hlt|exact Hrs].
      rewrite M1, <- Hc1', <- Hc2', map2_app; [reflexivity|]. pose proof (concat_zlen _ vs1 Hc1). pose proof (concat_zlen _ vs2 Hc2). unfold zlen in *. lia. }
    destruct U as [<- <-]. unfold visited. rewrite !fold_left_app, fold_combine by exact Hv. unfold tail_of. destruct r1 as [|x r1]; destruct r2 as [|y r2]; try discriminate Hr; [reflexivity|]. cbn [fold_left fst snd map2]. f_equal.
    unfold right_aligned. rewrite map2_app; [|rewrite !firstn_length; cbn [length] in *; lia]. rewrite map2_len by exact Ld. cbn [length] in Hr |- *. rewrite map2_len by lia. replace (length r2) with (length r1) by lia. rewrite <- Ld, map2_firstn. reflexivity.
Qed.

Section Product.
Variable f : ffmt.
Hypothesis Hok : fmt_ok f.
Local Notation M := (2 ^ f_m f).
Local Notation E := (2 ^ f_e f).

Lemma nearest_den : forall num den z, 0 < den -> Z.abs num < M * 2 ^ (E - 2) * den -> nearest_to f num den z ->
  2 * Z.abs (fvalue f z * den - num) <= den \/ 2 * M * Z.abs (fvalue f z * den - num) <= Z.abs num.
Proof.
  intros num den z Hden Hnum (Z1 & Z2 & N). pose proof (M_pos f Hok) as HM. pose proof (E_pos f Hok) as HE. set (s := num <? 0). set (a := Z.abs num) in *. assert (Ha : 0 <= a) by lia. assert (Va : num = sg s * a) by apply abs_sg. clearbody s a.
  set (q := a / den). assert (Hq0 : 0 <= q) by (apply Z.div_pos; lia). assert (Hq : q * den <= a < (q + 1) * den) by (unfold q; clear -Hden; nia).
  destruct (scale f Hok q Hq0) as (k & n & K1 & K2 & K3 & K4 & K5). assert (P2 : 0 < 2 ^ k) by (apply Z.pow_pos_nonneg; lia).
  assert (Bounds : n * 2 ^ k * den <= a <= (n + 1) * 2 ^ k * den).
  { assert (n * 2 ^ k * den <= q * den) by (apply Z.mul_le_mono_nonneg_r; lia). assert ((q + 1) * den <= (n + 1) * 2 ^ k * den) by (apply Z.mul_le_mono_nonneg_r; lia). lia. }
  assert (Fit : k * M + (n + 1) <= f_inf f).
  { rewrite (inf_eq f). destruct K4 as [->|Hn]; [clear -K3 HM HE; nia|]. assert (Hkf : k <= E - 3).
    { apply (fits f Hok k n); [exact K1|exact Hn|]. apply (Z.mul_lt_mono_pos_r den); [exact Hden|]. lia. }
    clear -Hkf K3 HM; nia. }
  destruct (pattern_value f Hok s k n K1) as (Y1 & Y2 & Y3 & Y4 & Y5 & _); [lia|exact K4|lia|].
  destruct (pattern_value f Hok s k (n + 1) K1) as (X1 & X2 & X3 & X4 & X5 & _); [lia|lia|exact Fit|].
  destruct (N _ Y1 Y2) as [N1 _]. destruct (N _ X1 X2) as [N2 _]. cbv zeta in N1, N2. rewrite (value_sg f Hok _ Y1), Y3, Y5 in N1. rewrite (value_sg f Hok _ X1), X3, X5 in N2.
  set (dz := Z.abs (fvalue f z * den - num)) in *. clearbody dz. subst num. set (h := 2 ^ k) in *.
  assert (D1 : dz <= a - n * h * den). { replace (sg s * (n * h) * den - sg s * a) with (sg s * (n * h * den - a)) in N1 by ring. clear -N1 Bounds. unfold sg in N1. destruct s; lia. }
  assert (D2 : dz <= (n + 1) * h * den - a). { replace (sg s * ((n + 1) * h) * den - sg s * a) with (sg s * ((n + 1) * h * den - a)) in N2 by ring. clear -N2 Bounds. unfold sg in N2. destruct s; lia. }
  assert (D3 : 2 * dz <= h * den) by (clear -D1 D2; lia). destruct K4 as [K0|Hn].
  - left. unfold h in D3. rewrite K0 in D3. lia.
  - right. assert (D4 : M * (h * den) <= a). { assert (M * (h * den) <= n * (h * den)) by (apply Z.mul_le_mono_nonneg_r; [apply Z.mul_nonneg_nonneg; lia|exact Hn]). lia. }
    assert (M * (2 * dz) <= M * (h * den)) by (apply Z.mul_le_mono_nonneg_l; lia). lia.
Qed.

Lemma mul_half : forall x y, f_pattern f x -> f_pattern f y -> is_finite f x -> is_finite f y -> let w := fvalue f x * fvalue f y in let z := f_mul f x y in Z.abs w < too_large f * fone f ->
  f_pattern f z /\ 2 * parts f * Z.abs (fvalue f z * fone f - w) <= 2 * Z.abs w + parts f * fone f /\ (Z.abs (fvalue f z) < too_large f -> is_finite f z).
Proof.
  intros x y Hx Hy Fx Fy w z Hw. destruct (parts_pos f Hok) as (P1 & P2 & P3 & P4). destruct (mul_ok f Hok x y Hx Hy) as (P & _ & _ & _ & _ & S). destruct (S Fx Fy) as [N _]. fold z in P, N. fold w in N. assert (F : 0 < fone f) by (apply fone_pos; exact Hok).
  split; [exact P|]. rewrite P3 in Hw |- *. split.
  - rewrite P1. pose proof (M_pos f Hok) as HM. set (dz := Z.abs (fvalue f z * fone f - w)). destruct (nearest_den w (fone f) z F Hw N) as [D|D]; fold dz in D.
    + assert (2 * M * (2 * dz) <= 2 * M * fone f) by (apply Z.mul_le_mono_nonneg_l; lia). lia.
    + assert (0 <= 2 * M * fone f) by (apply Z.mul_nonneg_nonneg; lia). lia.
  - intros L. apply (finite_small f Hok z P (proj1 (proj2 N))). rewrite (absval_abs f Hok) by exact P. exact L.
Qed.

Lemma mul_exact : forall x y j q, f_pattern f x -> f_pattern f y -> is_finite f x -> is_finite f y -> 0 <= j <= E - 3 -> fvalue f x * fvalue f y = q * 2 ^ j * fone f -> Z.abs q < 2 * M ->
  let z := f_mul f x y in f_pattern f z /\ is_finite f z /\ fvalue f z = q * 2 ^ j.
Proof.
  intros x y j q Hx Hy Fx Fy Hj Hw Hq z. destruct (mul_ok f Hok x y Hx Hy) as (P & _ & _ & _ & _ & S). destruct (S Fx Fy) as [(Z1 & Z2 & N) _]. fold z in P, Z1, Z2, N. assert (F : 0 < fone f) by (apply fone_pos; exact Hok). pose proof (M_pos f Hok) as HM. pose proof (E_pos f Hok) as HE.
  destruct (representable f Hok (q <? 0) j (Z.abs q) Hj) as (y0 & Y1 & Y2 & Y3); [lia|]. rewrite Z.mul_assoc, <- abs_sg in Y3.
  destruct (N y0 Y1 Y2) as [D _]. cbv zeta in D. rewrite Hw, Y3, Z.sub_diag in D. assert (V : fvalue f z = q * 2 ^ j). { assert (K : (fvalue f z - q * 2 ^ j) * fone f = 0) by (clear -D; lia). apply Z.mul_eq_0 in K. lia. }
  split; [exact P|]. split; [|exact V]. apply (finite_small f Hok z P Z2). rewrite (absval_abs f Hok) by exact P. rewrite V, Z.abs_mul, (Z.abs_eq (2 ^ j)) by (apply Z.pow_nonneg; lia).
  assert (G : 0 < 2 ^ j) by (apply Z.pow_pos_nonneg; lia). assert (L : 2 * 2 ^ j <= 2 ^ (E - 2)) by (change (2 * 2 ^ j) with (2 ^ 1 * 2 ^ j); rewrite <- Z.pow_add_r by lia; apply Z.pow_le_mono_r; lia). clear -Hq G L HM. nia.
Qed.
End Product.

Lemma dot_terms : forall f a b, 0 <= dot_magnitudes f a b /\ (forall k x y, znth a k = Some x -> znth b k = Some y -> Z.abs (fvalue f x * fvalue f y) <= dot_magnitudes f a b).
Proof.
  intros f. induction a as [|u a IH]; intros [|v b]; try (split; [reflexivity|intros k x y K1 K2; exfalso; unfold znth in *; destruct (k <? 0); try discriminate; destruct (Z.to_nat k); discriminate]).
  destruct (IH b) as [I1 I2]. unfold dot_magnitudes in *. cbn [map2 total fold_right]. fold (total (map2 (fun x y => Z.abs (fvalue f x * fvalue f y)) a b)). split; [lia|].
  intros k x y Hx Hy. unfold znth in *. destruct (k <? 0) eqn:Ck; [discriminate|]. destruct (Z.to_nat k) as [|k'] eqn:Ek; cbn [nth_error] in Hx, Hy; [injection Hx as <-; injection Hy as <-; lia|].
  specialize (I2 (Z.of_nat k') x y). replace (Z.of_nat k' <? 0) with false in I2 by lia. rewrite Nat2Z.id in I2. specialize (I2 Hx Hy). lia.
Qed.

Lemma products_bounds : forall f, fmt_ok f -> forall a b, length a = length b -> Forall (fun x => f_pattern f x /\ is_finite f x) a -> Forall (fun x => f_pattern f x /\ is_finite f x) b ->
  2 * (parts f + 1) * dot_magnitudes f a b + zlen a * parts f * fone f < 2 * parts f * too_large f * fone f ->
  let p := map2 (f_mul f) a b in Forall (fun x => f_pattern f x /\ is_finite f x) p /\
  2 * parts f * Z.abs (exact_sum f p * fone f - exact_dot f a b) <= 2 * dot_magnitudes f a b + zlen a * parts f * fone f /\
  2 * parts f * fone f * magnitudes f p <= 2 * (parts f + 1) * dot_magnitudes f a b + zlen a * parts f * fone f.
Proof.
  intros f Hok. destruct (parts_pos f Hok) as (P1 & P2 & P3 & P4). assert (F : 0 < fone f) by (apply fone_pos; exact Hok). set (P := parts f) in *. set (I := too_large f) in *. set (G := fone f) in *. assert (PG : 0 < P * G) by (apply Z.mul_pos_pos; lia).
  induction a as [|u a IH]; intros [|v b] Hl Fa Fb Hb; try discriminate.
  - cbn. split; [constructor|]. split; lia.
  - destruct (Forall_inv Fa) as [Ua1 Ua2]. destruct (Forall_inv Fb) as [Ub1 Ub2]. cbn [length] in Hl. rewrite zlen_cons in *. pose proof (zlen_nonneg a) as La. destruct (dot_terms f a b) as [Hd _].
    unfold dot_magnitudes, exact_dot, exact_sum, magnitudes in *. cbn [map2 map total fold_right] in *. fold (total (map2 (fun x y => Z.abs (fvalue f x * fvalue f y)) a b)) in *. fold (total (map2 (fun x y => fvalue f x * fvalue f y) a b)).
    fold (total (map (fvalue f) (map2 (f_mul f) a b))). fold (total (map (fun x => Z.abs (fvalue f x)) (map2 (f_mul f) a b))). set (dm := total (map2 (fun x y => Z.abs (fvalue f x * fvalue f y)) a b)) in *. set (w := fvalue f u * fvalue f v) in *.
    assert (NPG : 0 <= zlen a * (P * G)) by (apply Z.mul_nonneg_nonneg; lia). assert (Pd : 0 <= P * dm) by (apply Z.mul_nonneg_nonneg; lia). assert (Pw : 0 <= P * Z.abs w) by (apply Z.mul_nonneg_nonneg; lia).
    destruct (IH b ltac:(lia) (Forall_inv_tail Fa) (Forall_inv_tail Fb)) as (I1 & I2 & I3); [clear -Hb Pd NPG PG Pw; lia|].
    assert (Hw : Z.abs w < I * G). { apply (Z.mul_lt_mono_pos_l (2 * P)); [lia|]. clear -Hb Pd NPG PG Pw Hd. lia. }
    destruct (mul_half f Hok u v Ua1 Ub1 Ua2 Ub2 Hw) as (M1 & M2 & M3). fold w P G in M2. fold I in M3. set (z := fvalue f (f_mul f u v)) in *.
    assert (Mz : 2 * P * G * Z.abs z <= 2 * (P + 1) * Z.abs w + P * G).
    { assert (T : Z.abs (z * G) <= Z.abs (z * G - w) + Z.abs w) by lia. rewrite Z.abs_mul, (Z.abs_eq G) in T by lia. assert (T2 : 2 * P * (Z.abs z * G) <= 2 * P * (Z.abs (z * G - w) + Z.abs w)) by (apply Z.mul_le_mono_nonneg_l; lia). clear -T2 M2. lia. }
    split; [constructor; [split; [exact M1|]|exact I1]|split].
    + apply M3. apply (Z.mul_lt_mono_pos_l (2 * (P * G))); [lia|]. clear -Mz Hb Pd NPG Hd. lia.
    + set (sv := total (map (fvalue f) (map2 (f_mul f) a b))) in *. set (dt := total (map2 (fun x y => fvalue f x * fvalue f y) a b)) in *. replace ((z + sv) * G - (w + dt)) with ((z * G - w) + (sv * G - dt)) by ring.
      assert (T : 2 * P * Z.abs ((z * G - w) + (sv * G - dt)) <= 2 * P * (Z.abs (z * G - w) + Z.abs (sv * G - dt))) by (apply Z.mul_le_mono_nonneg_l; lia). clear -T M2 I2. lia.
    + clear -Mz I3. lia.
Qed.

Lemma dot_reduce : forall (fs : features) (c : config) (e : elty) (a b : list Z) (l0 : packed_line) (fuel : nat) (Q : Z -> Prop),
  let f := fmt_of e in let zero := splat (p_width l0) 0 in
  target fs -> e = EF32 \/ e = EF64 -> natural fs (el_name e ++ "s") = [l0] -> zlen a = zlen b -> zlen a * p_size l0 <= isize_max -> (length a < fuel)%nat ->
  (exists acc s' r, simd_reduce (slice_iterator c (vty_of l0)) fuel (simd_iter (map2 (f_mul f) a b) zero) zero (fun a v => map2 (ieee_add e) a v) = Ok (acc, s') /\ sum_in fs ieee_add c (p_vec l0) acc = Some (Ok r) /\ Q r) ->
  let rest := rest_one (blanket_unsafe c (si_array (slice_array c (vty_of l0))) (si_iterable c (slice_array c (vty_of l0)))) in
  let st := (simd_iter a zero, simd_iter b zero) in
  zip (slice_iterator c (vty_of l0)) rest st = Ok st /\
  exists acc s' r, simd_reduce (zip_iterator (slice_iterator c (vty_of l0)) rest) fuel st zero (fun acc p => map2 (ieee_add e) acc (map2 (f_mul f) (fst p) (snd p))) = Ok (acc, s') /\
    sum_in fs ieee_add c (p_vec l0) acc = Some (Ok r) /\ Q r.
Proof.
  intros fs c e a b l0 fuel Q f zero T He N0 Hab Cap Hfu (acc & s' & r & R1 & R2 & R3) rest st. destruct (float_prims e He) as [H0 Hfl]. destruct (natural_vty fs _ l0 T H0 N0) as (Vt & _). pose proof (vty_ok_facts _ Vt) as (H1 & _). change (WIDTH (vty_of l0)) with (p_width l0) in H1.
  assert (Hz : zlen zero = WIDTH (vty_of l0)) by (unfold zero, splat; rewrite zlen_repeat; change (WIDTH (vty_of l0)) with (p_width l0); lia).
  destruct (c89_fused Z Z Z (list Z) c (vty_of l0) (vty_of l0) (vty_of l0) a zero b zero (f_mul f) zero (fun a v => map2 (ieee_add e) a v) fuel) as (F1 & acc2 & s2 & s3 & F2 & F3); try assumption; try reflexivity; try (rewrite <- Hab; exact Cap).
  { unfold slice_ok. rewrite <- Hab. exact Cap. }
  assert (Ez : map2 (f_mul f) zero zero = zero).
  { assert (E0 : f_mul f 0 0 = 0) by (unfold f; destruct He as [-> | ->]; vm_compute; reflexivity). unfold zero, splat. clear -E0. induction (Z.to_nat (p_width l0)) as [|n IH]; [reflexivity|]. cbn [repeat map2]. rewrite E0, IH. reflexivity. }
  rewrite Ez, R1 in F3. injection F3 as <- _. split; [exact F1|]. exists acc, s2, r. split; [exact F2|]. split; assumption.
Qed.

Lemma c89_dot_error : forall (fs : features) (c : config) (e : elty) (a b : list Z) (l0 : packed_line) (fuel : nat) (n : Z),
  let f := fmt_of e in let zero := splat (p_width l0) 0 in
  target fs -> e = EF32 \/ e = EF64 -> natural fs (el_name e ++ "s") = [l0] -> zlen a = zlen b -> zlen a * p_size l0 <= isize_max -> (length a < fuel)%nat ->
  Forall (finite_lane e) a -> Forall (finite_lane e) b -> (zlen a + p_width l0 - 1) / p_width l0 + p_width l0 <= n -> no_dot_overflow f n a b ->
  let rest := rest_one (blanket_unsafe c (si_array (slice_array c (vty_of l0))) (si_iterable c (slice_array c (vty_of l0)))) in
  let st := (simd_iter a zero, simd_iter b zero) in
  zip (slice_iterator c (vty_of l0)) rest st = Ok st /\
  exists acc s' r, simd_reduce (zip_iterator (slice_iterator c (vty_of l0)) rest) fuel st zero (fun acc p => map2 (ieee_add e) acc (map2 (f_mul f) (fst p) (snd p))) = Ok (acc, s') /\
    sum_in fs ieee_add c (p_vec l0) acc = Some (Ok r) /\ finite_lane e r /\ rounded_dot f n a b r.
Proof.
  intros fs c e a b l0 fuel n f zero T He N0 Hab Cap Hfu Fa Fb Hn Ho rest st. apply (dot_reduce fs c e a b l0 fuel); try assumption.
  destruct (float_prims e He) as [H0 Hfl]. destruct (natural_vty fs _ l0 T H0 N0) as (Vt & _). pose proof (vty_ok_facts _ Vt) as (H1 & _). change (WIDTH (vty_of l0)) with (p_width l0) in H1.
  pose proof (zlen_nonneg a). assert (Hn0 : 0 <= n) by (assert (0 <= (zlen a + p_width l0 - 1) / p_width l0) by (apply Z.div_pos; lia); lia). clear H.
  pose proof (fmt_of_ok e) as Hok. fold f in Hok. assert (Lab : length a = length b) by (unfold zlen in Hab; lia).
  assert (FF : forall l, Forall (finite_lane e) l -> Forall (fun x => f_pattern f x /\ is_finite f x) l) by (intros l; apply Forall_impl; intros x Hx; apply (finite_parts e x He); exact Hx).
  destruct (parts_pos f Hok) as (P1 & P2 & P3 & P4). assert (F : 0 < fone f) by (apply fone_pos; exact Hok). destruct (dot_terms f a b) as [Hd _]. pose proof (zlen_nonneg a) as La.
  unfold no_dot_overflow in Ho. unfold rounded_dot. set (P := parts f) in *. set (I := too_large f) in *. set (G := fone f) in *. set (dm := dot_magnitudes f a b) in *. set (N := zlen a) in *.
  rewrite !Z.pow_add_r, !Z.pow_1_r in * by lia. assert (Pn : 0 < P ^ n) by (apply Z.pow_pos_nonneg; lia). assert (Qn : P ^ n <= (P + 1) ^ n) by (apply Z.pow_le_mono_l; lia). 
  set (p := P ^ n) in *. set (q := (P + 1) ^ n) in *. set (K := 2 * (P + 1) * dm + N * P * G).
  assert (K0 : 0 <= K) by (unfold K; apply Z.add_nonneg_nonneg; repeat apply Z.mul_nonneg_nonneg; lia).
  assert (HK : q * K < p * (2 * P * I * G)) by (unfold K; clear -Ho; lia).
  assert (HK1 : K < 2 * P * I * G). { apply (Z.mul_lt_mono_pos_l p); [exact Pn|]. assert (p * K <= q * K) by (apply Z.mul_le_mono_nonneg_r; assumption). lia. }
  destruct (products_bounds f Hok a b Lab (FF a Fa) (FF b Fb) HK1) as (B1 & B2 & B3). fold P G dm N in B2, B3. fold K in B3. set (l := map2 (f_mul f) a b) in *.
  assert (Ll : zlen l = N) by (unfold l, N, zlen; rewrite map2_len by exact Lab; reflexivity).
  assert (PG : 0 < 2 * P * G) by (apply Z.mul_pos_pos; lia).
  destruct (c86_sum_error fs c e l l0 fuel n T He N0) as (acc & s' & r & R1 & R2 & R3 & R4).
  - rewrite Ll. exact Cap.
  - unfold l. rewrite map2_len by exact Lab. exact Hfu.
  - eapply Forall_impl; [|exact B1]. intros x Hx. apply (finite_parts e x He). exact Hx.
  - rewrite Ll. exact Hn.
  - unfold no_float_overflow. fold f P I p q. apply (Z.mul_lt_mono_pos_l (2 * P * G)); [exact PG|]. assert (q * (2 * P * G * magnitudes f l) <= q * K) by (apply Z.mul_le_mono_nonneg_l; lia). clear -HK H. lia.
  - exists acc, s', r. split; [exact R1|]. split; [exact R2|]. split; [exact R3|]. unfold rounded_sum in R4. fold f P p q in R4. set (v := fvalue f r) in *. set (sv := exact_sum f l) in *. set (D := exact_dot f a b) in *. set (mg := magnitudes f l) in *.
    assert (T1 : 2 * (p * P) * Z.abs (v * G - D) <= 2 * P * G * (p * Z.abs (v - sv)) + p * (2 * P * Z.abs (sv * G - D))).
    { assert (U : Z.abs (v * G - D) <= G * Z.abs (v - sv) + Z.abs (sv * G - D)). { assert (X : G * Z.abs (v - sv) = Z.abs (v * G - sv * G)) by (rewrite <- Z.mul_sub_distr_r, Z.abs_mul, (Z.abs_eq G) by lia; ring). rewrite X. lia. }
      assert (U2 : 2 * (p * P) * Z.abs (v * G - D) <= 2 * (p * P) * (G * Z.abs (v - sv) + Z.abs (sv * G - D))) by (apply Z.mul_le_mono_nonneg_l; [assert (0 < p * P) by (apply Z.mul_pos_pos; lia); lia|exact U]). clear -U2. lia. }
    assert (T2 : 2 * P * G * (p * Z.abs (v - sv)) <= 2 * P * G * ((q - p) * mg)) by (apply Z.mul_le_mono_nonneg_l; [lia|exact R4]).
    assert (T3 : (q - p) * (2 * P * G * mg) <= (q - p) * K) by (apply Z.mul_le_mono_nonneg_l; [lia|exact B3]).
    assert (T4 : p * (2 * P * Z.abs (sv * G - D)) <= p * (2 * dm + N * P * G)) by (apply Z.mul_le_mono_nonneg_l; [lia|exact B2]).
    unfold K in T3. clear -T1 T2 T3 T4. lia.
Qed.

Lemma products_exact : forall f, fmt_ok f -> forall j S a b, 0 <= j <= 2 ^ f_e f - 3 -> S < 2 * 2 ^ f_m f * 2 ^ j * fone f -> Forall (fun x => f_pattern f x /\ is_finite f x) a -> Forall (fun x => f_pattern f x /\ is_finite f x) b ->
  Forall2 (fun x y => (2 ^ j * fone f | fvalue f x * fvalue f y)) a b -> dot_magnitudes f a b <= S ->
  let p := map2 (f_mul f) a b in Forall (fun x => f_pattern f x /\ is_finite f x) p /\ Forall (fun x => (2 ^ j | fvalue f x)) p /\
  exact_sum f p * fone f = exact_dot f a b /\ magnitudes f p * fone f = dot_magnitudes f a b.
Proof.
  intros f Hok j S a b Hj HS Fa Fb Hd. assert (F : 0 < fone f) by (apply fone_pos; exact Hok). assert (G : 0 < 2 ^ j) by (apply Z.pow_pos_nonneg; lia). induction Hd as [|u v a b [q Hq] Hd IH]; intros Hm.
  - cbn. repeat split; constructor.
  - destruct (Forall_inv Fa) as [Ua1 Ua2]. destruct (Forall_inv Fb) as [Ub1 Ub2]. destruct (dot_terms f a b) as [D0 _]. unfold dot_magnitudes, exact_dot, exact_sum, magnitudes in *. cbn [map2 map total fold_right] in *. fold (total (map2 (fun x y => Z.abs (fvalue f x * fvalue f y)) a b)) in *. fold (total (map2 (fun x y => fvalue f x * fvalue f y) a b)).
    fold (total (map (fvalue f) (map2 (f_mul f) a b))). fold (total (map (fun x => Z.abs (fvalue f x)) (map2 (f_mul f) a b))).
    destruct (IH (Forall_inv_tail Fa) (Forall_inv_tail Fb) ltac:(lia)) as (I1 & I2 & I3 & I4). rewrite Z.mul_assoc in Hq.
    assert (Aq : Z.abs (fvalue f u * fvalue f v) = Z.abs q * 2 ^ j * fone f) by (rewrite Hq, !Z.abs_mul, (Z.abs_eq (2 ^ j)), (Z.abs_eq (fone f)) by lia; reflexivity).
    assert (Bq : Z.abs q < 2 * 2 ^ f_m f) by (apply (Z.mul_lt_mono_pos_r (2 ^ j)); [exact G|]; apply (Z.mul_lt_mono_pos_r (fone f)); [exact F|]; lia).
    destruct (mul_exact f Hok u v j q Ua1 Ub1 Ua2 Ub2 Hj Hq Bq) as (M1 & M2 & M3).
    split; [constructor; [split; assumption|exact I1]|]. split; [constructor; [exists q; exact M3|exact I2]|]. rewrite M3, Aq, Hq, !Z.mul_add_distr_r, I3, I4, Z.abs_mul, (Z.abs_eq (2 ^ j)) by lia. split; reflexivity.
Qed.

Lemma c89_dot_exact : forall (fs : features) (c : config) (e : elty) (a b : list Z) (l0 : packed_line) (fuel : nat) (j : Z),
  let f := fmt_of e in let zero := splat (p_width l0) 0 in
  target fs -> e = EF32 \/ e = EF64 -> natural fs (el_name e ++ "s") = [l0] -> zlen a * p_size l0 <= isize_max -> (length a < fuel)%nat ->
  Forall (finite_lane e) a -> Forall (finite_lane e) b -> 0 <= j <= 2 ^ f_e f - 3 ->
  Forall2 (fun x y => (2 ^ j * fone f | fvalue f x * fvalue f y)) a b -> dot_magnitudes f a b < 2 ^ (f_m f + 1 + j) * fone f ->
  let rest := rest_one (blanket_unsafe c (si_array (slice_array c (vty_of l0))) (si_iterable c (slice_array c (vty_of l0)))) in
  let st := (simd_iter a zero, simd_iter b zero) in
  zip (slice_iterator c (vty_of l0)) rest st = Ok st /\
  exists acc s' r, simd_reduce (zip_iterator (slice_iterator c (vty_of l0)) rest) fuel st zero (fun acc p => map2 (ieee_add e) acc (map2 (f_mul f) (fst p) (snd p))) = Ok (acc, s') /\
    sum_in fs ieee_add c (p_vec l0) acc = Some (Ok r) /\ finite_lane e r /\ fvalue f r * fone f = exact_dot f a b.
Proof.
  intros fs c e a b l0 fuel j f zero T He N0 Cap Hfu Fa Fb Hj Hd Hm rest st. assert (Lab : length a = length b) by (clear -Hd; induction Hd; [reflexivity|cbn [length]; congruence]).
  apply (dot_reduce fs c e a b l0 fuel); try assumption; [unfold zlen; lia|]. pose proof (fmt_of_ok e) as Hok. fold f in Hok.
  assert (FF : forall l, Forall (finite_lane e) l -> Forall (fun x => f_pattern f x /\ is_finite f x) l) by (intros l; apply Forall_impl; intros x Hx; apply (finite_parts e x He); exact Hx).
  assert (F : 0 < fone f) by (apply fone_pos; exact Hok).
  assert (Hm2 : dot_magnitudes f a b < 2 * 2 ^ f_m f * 2 ^ j * fone f) by (rewrite !Z.pow_add_r, Z.pow_1_r in Hm by (try lia; destruct He as [He|He]; unfold f; rewrite He; vm_compute; discriminate); lia).
  destruct (products_exact f Hok j (dot_magnitudes f a b) a b Hj Hm2 (FF a Fa) (FF b Fb) Hd ltac:(lia)) as (B1 & B2 & B3 & B4). set (l := map2 (f_mul f) a b) in *. assert (Ll : length l = length a) by (apply map2_len; exact Lab).
  destruct (c86_sum_exact fs c e l l0 fuel j T He N0) as (acc & s' & r & R1 & R2 & R3 & R4).
  - unfold zlen. rewrite Ll. exact Cap.
  - lia.
  - eapply Forall_impl; [|exact B1]. intros x Hx. apply (finite_parts e x He). exact Hx.
  - exact Hj.
  - exact B2.
  - fold f. apply (Z.mul_lt_mono_pos_r (fone f)); [exact F|]. rewrite B4. exact Hm.
  - exists acc, s', r. split; [exact R1|]. split; [exact R2|]. split; [exact R3|]. fold f in R4. rewrite R4. exact B3.
Qed.

Lemma c89_dot_whole : forall (fs : features) (c : config) (e : elty) (a b : list Z) (l0 : packed_line) (fuel : nat),
  let f := fmt_of e in let zero := splat (p_width l0) 0 in
  target fs -> e = EF32 \/ e = EF64 -> natural fs (el_name e ++ "s") = [l0] -> zlen a = zlen b -> zlen a * p_size l0 <= isize_max -> (length a < fuel)%nat ->
  Forall (finite_lane e) a -> Forall (finite_lane e) b -> Forall (fun x => (fone f | fvalue f x)) (a ++ b) -> dot_magnitudes f a b < parts f * (fone f * fone f) ->
  let rest := rest_one (blanket_unsafe c (si_array (slice_array c (vty_of l0))) (si_iterable c (slice_array c (vty_of l0)))) in
  let st := (simd_iter a zero, simd_iter b zero) in
  zip (slice_iterator c (vty_of l0)) rest st = Ok st /\
  exists acc s' r, simd_reduce (zip_iterator (slice_iterator c (vty_of l0)) rest) fuel st zero (fun acc p => map2 (ieee_add e) acc (map2 (f_mul f) (fst p) (snd p))) = Ok (acc, s') /\
    sum_in fs ieee_add c (p_vec l0) acc = Some (Ok r) /\ finite_lane e r /\ fvalue f r * fone f = exact_dot f a b.
Proof.
  intros fs c e a b l0 fuel f zero T He N0 Hab Cap Hfu Fa Fb Hw Hm rest st.
  assert (J : exists j, 0 <= j <= 2 ^ f_e f - 3 /\ fone f = 2 ^ j /\ 2 ^ (f_m f + 1 + j) = parts f * fone f).
  { unfold f. destruct He as [-> | ->]; [exists 149|exists 1074]; (split; [vm_compute; split; discriminate|split; vm_compute; reflexivity]). }
  destruct J as (j & Hj & Ej & Ek). apply (c89_dot_exact fs c e a b l0 fuel j); try assumption.
  - fold f. rewrite <- Ej. apply Forall_app in Hw. destruct Hw as [Wa Wb]. assert (Lab : length a = length b) by (unfold zlen in Hab; lia). clear -Lab Wa Wb. revert b Lab Wb. induction Wa as [|x a Hx Wa IH]; intros [|y b] Lab Wb; try discriminate; constructor; [|apply IH; [cbn [length] in Lab; lia|exact (Forall_inv_tail Wb)]]. pose proof (Forall_inv Wb) as Hy. cbv beta in Hy. apply Z.mul_divide_mono_l with (p := fvalue f x) in Hy. eapply Z.divide_trans; [|exact Hy]. apply Z.mul_divide_mono_r. exact Hx.
  - fold f. rewrite Ek, <- Z.mul_assoc. exact Hm.
Qed.

Lemma c89_dot_nan : forall (fs : features) (c : config) (e : elty) (a b : list Z) (l0 : packed_line) (fuel : nat) (k x y : Z),
  let f := fmt_of e in let zero := splat (p_width l0) 0 in
  target fs -> e = EF32 \/ e = EF64 -> natural fs (el_name e ++ "s") = [l0] -> zlen a = zlen b -> zlen a * p_size l0 <= isize_max -> (length a < fuel)%nat ->
  Forall (lane e) a -> Forall (lane e) b -> znth a k = Some x -> znth b k = Some y ->
  is_nan f x \/ is_nan f y \/ (is_infinite f x /\ is_finite f y /\ fvalue f y = 0) \/ (is_finite f x /\ fvalue f x = 0 /\ is_infinite f y) ->
  let rest := rest_one (blanket_unsafe c (si_array (slice_array c (vty_of l0))) (si_iterable c (slice_array c (vty_of l0)))) in
  let st := (simd_iter a zero, simd_iter b zero) in
  zip (slice_iterator c (vty_of l0)) rest st = Ok st /\
  exists acc s' r, simd_reduce (zip_iterator (slice_iterator c (vty_of l0)) rest) fuel st zero (fun acc p => map2 (ieee_add e) acc (map2 (f_mul f) (fst p) (snd p))) = Ok (acc, s') /\
    sum_in fs ieee_add c (p_vec l0) acc = Some (Ok r) /\ is_nan f r.
Proof.
  intros fs c e a b l0 fuel k x y f zero T He N0 Hab Cap Hfu Fa Fb Hx Hy Hn rest st. assert (Lab : length a = length b) by (unfold zlen in Hab; lia).
  apply (dot_reduce fs c e a b l0 fuel); try assumption. pose proof (fmt_of_ok e) as Hok. fold f in Hok.
  assert (Pt : forall z, lane e z -> f_pattern f z) by (intros z Hz; unfold f; destruct He as [He|He]; subst e; exact Hz).
  assert (Tp : forall z, f_pattern f z -> lane e z) by (intros z Hz; unfold f in Hz; destruct He as [He|He]; subst e; exact Hz).
  set (l := map2 (f_mul f) a b) in *. assert (Ll : length l = length a) by (apply map2_len; exact Lab).
  apply (c86_sum_nan fs c e l l0 fuel T He N0).
  - unfold zlen. rewrite Ll. exact Cap.
  - lia.
  - unfold l. clear -Fa Fb Pt Tp Hok. revert b Fb. induction Fa as [|u a Hu Fa IH]; intros b Fb; [constructor|]. destruct Fb as [|v b Hv Fb]; [constructor|]. constructor; [exact (Tp _ (proj1 (mul_ok f Hok u v (Pt u Hu) (Pt v Hv))))|apply IH; exact Fb].
  - exists (f_mul f x y). split.
    + unfold l. clear -Hx Hy. unfold znth in *. destruct (k <? 0); [discriminate|]. revert a b Hx Hy. induction (Z.to_nat k) as [|n IH]; intros [|u a] [|v b] Hx Hy; try discriminate; cbn [nth_error] in *; cbn [map2]; [injection Hx as <-; injection Hy as <-; left; reflexivity|right; apply IH; assumption].
    + fold f. assert (Px : f_pattern f x) by (apply Pt; rewrite Forall_forall in Fa; apply Fa; unfold znth in Hx; destruct (k <? 0); [discriminate|eapply nth_error_In; exact Hx]). assert (Py : f_pattern f y) by (apply Pt; rewrite Forall_forall in Fb; apply Fb; unfold znth in Hy; destruct (k <? 0); [discriminate|eapply nth_error_In; exact Hy]).
      destruct (mul_ok f Hok x y Px Py) as (_ & S1 & S2 & S3 & _). destruct Hn as [Hn|[Hn|[(Q1 & Q2 & Q3)|(Q1 & Q2 & Q3)]]]; [tauto|tauto| |].
      * specialize (S2 Q1 Q2). rewrite Q3 in S2. exact S2.
      * specialize (S3 Q1 Q3). rewrite Q2 in S3. exact S3.
Qed.
