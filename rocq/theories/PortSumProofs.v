(** Proofs of the properties: sums and extrema of slices of floats on the portable back-end (C97). *)
From Coq Require Import String.
From Verif Require Import Base Spec VecSpec Vecs Iters GateTables GateSpec Gates Lanes Floats FloatSpec Arith ArithSpec OpTables Ops OpSpec PortTables Ports PortSpec SumTables Sums SumSpec Builds AvailSpec Estimates ExprSpec Exprs FloatSumSpec Demos OverflowSpec Portables.
Open Scope list_scope.
Open Scope Z_scope.
From Coq Require Import Lia ZifyBool ZifyNat.
From Verif Require Import X86 ListFacts VecFacts VecProofs FloatFacts ArithFacts IterProofs SumProofs ArithProofs BuildProofs PipeProofs ExprProofs ReduceFacts OpProofs RoundProofs FSumProofs FoldProofs DemoProofs PeakProofs PortableProofs PortFoldProofs.
Ltac Zify.zify_post_hook ::= Z.div_mod_to_equations.

(** ** The pieces *)

Lemma portable_add_lanes : forall fs c tie narrow e l0 a v r0, fs "undefined"%string = false -> e = EF32 \/ e = EF64 -> portable_natural fs (el_name e ++ "s") = [l0] ->
  zlen a = p_width l0 -> zlen v = p_width l0 -> Forall (lane e) a -> Forall (lane e) v ->
  (forall r, portable_run fs c tie ieee_arith ieee_sqrt narrow e 2 (Arith Add (Arg 0) (Arg 1)) [a; v] = Some (Ok r) -> r0 = r) -> r0 = map2 (ieee_add e) a v.
Proof.
  intros fs c tie narrow e l0 a v r0 T He N0 La Lv Fa Fv Hr. destruct (float_prims e He) as [H0 _]. destruct ieee_lanes as [Hf Hs].
  assert (Tx : type_of e 2 (Arith Add (Arg 0) (Arg 1)) = Some e) by (destruct He as [-> | ->]; reflexivity).
  rewrite (portable_binary_lanes fs c tie ieee_arith ieee_sqrt narrow e _ l0 (lane e) a v r0 T H0 Hf Hs Tx N0 (fun u Hu => Hu)); [|right; intros k p q _ _; destruct He as [-> | ->]; reflexivity|exact La|exact Lv|exact Fa|exact Fv|exact Hr].
  destruct He as [-> | ->]; reflexivity.
Qed.

Lemma add_lanes_in : forall e a v, e = EF32 \/ e = EF64 -> zlen a = zlen v -> Forall (lane e) a -> Forall (lane e) v -> zlen (map2 (ieee_add e) a v) = zlen a /\ Forall (lane e) (map2 (ieee_add e) a v).
Proof.
  intros e a v He L Fa. destruct (float_prims e He) as [H0 _]. revert v L. induction Fa as [|x a Hx Fa IH]; intros [|y v] L Fv; cbn [map2]; try (unfold zlen in L; cbn [length] in L; lia); [split; [reflexivity|constructor]|].
  assert (L2 : zlen a = zlen v) by (unfold zlen in *; cbn [length] in L; lia). destruct (IH v L2 (Forall_inv_tail Fv)) as [I1 I2]. split; [unfold zlen in *; cbn [length]; lia|]. constructor; [|exact I2]. apply (lane_in e _ H0). apply ieee_add_in; [exact He|apply (lane_in e x H0); exact Hx|apply (lane_in e y H0); exact (Forall_inv Fv)].
Qed.

Lemma fold_add_lanes : forall e w (f : list Z -> list Z -> list Z), e = EF32 \/ e = EF64 -> (forall a v, zlen a = w -> zlen v = w -> Forall (lane e) a -> Forall (lane e) v -> f a v = map2 (ieee_add e) a v) ->
  forall vs a, Forall (fun v => zlen v = w /\ Forall (lane e) v) vs -> zlen a = w -> Forall (lane e) a -> fold_left f vs a = fold_left (map2 (ieee_add e)) vs a.
Proof.
  intros e w f He Hf. induction vs as [|v vs IH]; intros a Fv La Fa; [reflexivity|]. destruct (Forall_inv Fv) as [Lv Gv]. cbn [fold_left]. rewrite (Hf a v La Lv Fa Gv). destruct (add_lanes_in e a v He ltac:(lia) Fa Gv) as [K1 K2]. apply IH; [exact (Forall_inv_tail Fv)|lia|exact K2].
Qed.

Lemma portable_sum_float : forall fs c e l0, fs "undefined"%string = false -> e = EF32 \/ e = EF64 -> portable_natural fs (el_name e ++ "s") = [l0] ->
  exists s, filter (fun s => String.eqb (s_vec s) (p_vec l0)) unknown_sum = [s] /\ forall acc, zlen acc = p_width l0 -> sum_portable ieee_add c s acc = Ok (fold_left (ieee_add e) acc 0).
Proof.
  intros fs c e l0 T He N0. destruct (float_prims e He) as [H0 _]. destruct (portable_line fs e T H0) as (l & N & _ & V & W & _). rewrite N0 in N. injection N as <-.
  assert (S : exists s, filter (fun s => String.eqb (s_vec s) (p_vec l0)) unknown_sum = [s] /\ s_el s = e /\ WIDTH (s_ty s) = p_width l0) by (rewrite V, W; destruct He as [-> | ->]; (eexists; split; [reflexivity|split; reflexivity])).
  destruct S as (s & S1 & S2 & S3). exists s. split; [exact S1|]. intros acc La. unfold sum_portable. rewrite c34_scalar_reduce by (rewrite S3; exact La). cbn [bind]. rewrite S2. clear -He. generalize 0. induction acc as [|x acc IH]; intros z; [reflexivity|]. cbn [fold_left bind]. rewrite <- IH. f_equal. destruct He as [-> | ->]; reflexivity.
Qed.

Lemma float_sum_portable : forall (R : nat -> Z -> Z -> Z -> Prop) (D : nat) (Bmax : Z) (val : Z -> Z) (good : Z -> Prop) (e : elty) (fs : features) (c : config) (l : list Z) (l0 : packed_line) (f : list Z -> list Z -> list Z) (fuel : nat),
  (forall d x y a1 b1 a2 b2, (d < D)%nat -> b1 + b2 <= Bmax -> R d x a1 b1 -> R d y a2 b2 -> R (S d) (ieee_add e x y) (a1 + a2) (b1 + b2)) ->
  (forall d x a b, R d x a b -> R (S d) x a b) -> (forall d x a b, R d x a b -> 0 <= b) -> (forall d x a b, R d x a b -> in_ity (lane_ity e) x) ->
  (forall x, good x -> R 0%nat x (val x) (Z.abs (val x))) -> good 0 -> val 0 = 0 ->
  fs "undefined"%string = false -> e = EF32 \/ e = EF64 -> portable_natural fs (el_name e ++ "s") = [l0] -> zlen l * p_size l0 <= isize_max -> (length l < fuel)%nat ->
  Forall good l -> (zlen l + p_width l0 - 1) / p_width l0 + p_width l0 <= Z.of_nat D -> total (map (fun x => Z.abs (val x)) l) <= Bmax ->
  (forall a v, zlen a = p_width l0 -> zlen v = p_width l0 -> Forall (lane e) a -> Forall (lane e) v -> f a v = map2 (ieee_add e) a v) ->
  let zero := splat (p_width l0) 0 in
  exists s acc s' r, filter (fun s => String.eqb (s_vec s) (p_vec l0)) unknown_sum = [s] /\ simd_reduce (slice_iterator c (vty_of l0)) fuel (simd_iter l zero) zero f = Ok (acc, s') /\
    sum_portable ieee_add c s acc = Ok r /\ R D r (total (map val l)) (total (map (fun x => Z.abs (val x)) l)).
Proof.
  intros R D Bmax val good e fs c l l0 f fuel Radd Rmono Rnn Rin Rbase G0 V0 T He N0 Cap Hfu Hl HD HB Rf zero. destruct (float_prims e He) as [H0 _].
  destruct (portable_vty fs _ l0 T H0 N0) as (Vt & W0 & S0 & _). destruct (portable_sum_float fs c e l0 T He N0) as (s & Es & Hs).
  pose proof (vty_ok_facts _ Vt) as (H1 & _). pose proof (zlen_nonneg l). set (w := p_width l0) in *. change (WIDTH (vty_of l0)) with w in *.
  assert (Hz : zlen zero = w) by (unfold zero, splat; rewrite zlen_repeat; lia).
  destruct (c06_reduce Z (list Z) c (vty_of l0) l zero 0 zero f fuel Vt Cap Hz ltac:(lia) ltac:(lia) Hfu) as (vs & rest & [Hc1 Hc2] & Hr & Ha & Hred & _).
  cbn [Z.to_nat skipn] in Hc2. change (WIDTH (vty_of l0)) with w in *. rewrite Z.sub_0_r in Ha.
  match type of Hred with context [fold_left _ ?A _] => set (args := A) in * end.
  assert (Gz : Forall good zero) by (unfold zero, splat; apply Forall_forall; intros x Hx; apply repeat_spec in Hx; subst x; exact G0).
  assert (Tz : forall g : Z -> Z, g 0 = 0 -> total (map g zero) = 0) by (intros g Hg; unfold zero, splat; rewrite <- (firstn_all (repeat 0 (Z.to_nat w))); apply total_const; exact Hg).
  assert (Ta : forall g : Z -> Z, g 0 = 0 -> total (map g (concat args)) = total (map g l)).
  { intros g Hg. unfold args. rewrite concat_app, map_app, total_app, <- Hc2, map_app, total_app. f_equal. destruct rest as [|x r]; [reflexivity|]. cbn [concat]. rewrite app_nil_r. unfold right_aligned. rewrite map_app, total_app. unfold zero, splat. rewrite total_const by exact Hg. reflexivity. }
  assert (Hga : Forall (fun v => length v = Z.to_nat w /\ Forall good v) args).
  { assert (Hl2 : Forall good (concat vs ++ rest)) by (rewrite Hc2; exact Hl). apply Forall_app in Hl2. destruct Hl2 as [L1 L2]. unfold args. apply Forall_app. split.
    - clear -Hc1 L1. induction vs as [|v vs IH]; [constructor|]. cbn [concat] in L1. apply Forall_app in L1. destruct L1 as [A B]. pose proof (Forall_inv Hc1) as C. cbv beta in C. constructor; [split; [unfold zlen in C; clear -C; lia|exact A]|apply IH; [exact (Forall_inv_tail Hc1)|exact B]].
    - destruct rest as [|x r]; constructor; [|constructor]. split; [pose proof (right_aligned_len zero (x :: r) ltac:(lia)) as Q; rewrite Hz in Q; unfold zlen in Q; lia|]. unfold right_aligned. apply Forall_app. split; [apply Forall_firstn; exact Gz|exact L2]. }
  assert (Gl : forall v, Forall good v -> Forall (lane e) v) by (intros v; apply Forall_impl; intros x Hx; apply (lane_in e x H0); exact (Rin _ _ _ _ (Rbase x Hx))).
  rewrite (fold_add_lanes e w f He Rf args zero) in Hred; [|eapply Forall_impl; [|exact Hga]; intros v [K1 K2]; split; [clear -K1 H1; unfold zlen; lia|apply Gl; exact K2]|exact Hz|apply Gl; exact Gz].
  set (acc := fold_left _ args zero) in *.
  assert (Ba : val 0 = 0 -> Z.abs (val 0) = 0) by (intros ->; reflexivity).
  assert (L0 : length zero = Z.to_nat w) by (unfold zlen in Hz; lia).
  assert (La : Z.of_nat (length args) = (zlen l + w - 1) / w) by exact Ha.
  destruct (sum_base val zero) as [B1 B2]. rewrite (Tz val V0) in B1. rewrite (Tz (fun x => Z.abs (val x)) (Ba V0)) in B2.
  destruct (fold_vectors R (ieee_add e) D Bmax Radd Rmono Rnn val good Rbase (Z.to_nat w) args 0 zero (base val zero)) as (js & J1 & J2 & J3 & J4).
  - apply (rel_base R val good Rbase). exact Gz.
  - exact L0.
  - exact Hga.
  - lia.
  - rewrite B2, (Ta (fun x => Z.abs (val x)) (Ba V0)). lia.
  - fold acc in J1, J2. rewrite (Ta val V0), B1 in J3. rewrite (Ta (fun x => Z.abs (val x)) (Ba V0)), B2 in J4. rewrite Z.add_0_l in J3, J4. cbn [Nat.add] in J1.
    exists s, acc. eexists. eexists. split; [exact Es|]. split; [exact Hred|]. split; [apply Hs; clear -J2 H1; unfold zlen; lia|].
    assert (Z0 : R (length args) 0 0 0) by (pose proof (R_more R Rmono (length args) 0%nat 0 _ _ (Rbase 0 G0)) as Z1; rewrite V0 in Z1; exact Z1).
    pose proof (fold_lanes R (ieee_add e) D Bmax Radd Rmono Rnn acc js (length args) 0 0 0 J1 Z0 ltac:(lia) ltac:(lia)) as F. rewrite !Z.add_0_l, J3, J4 in F.
    replace D with ((length args + length acc) + (D - (length args + length acc)))%nat by lia. apply (R_more R Rmono). exact F.
Qed.

Lemma c97_sum_exact : forall (fs : features) (c : config) (tie : bool) (narrow : Z -> Z) (e : elty) (l : list Z) (l0 : packed_line) (add : list Z -> list Z -> list Z) (fuel : nat) (j : Z),
  let f := fmt_of e in let zero := splat (p_width l0) 0 in
  fs "undefined"%string = false -> e = EF32 \/ e = EF64 -> portable_natural fs (el_name e ++ "s") = [l0] -> zlen l * p_size l0 <= isize_max -> (length l < fuel)%nat ->
  Forall (finite_lane e) l -> 0 <= j <= 2 ^ f_e f - 3 -> Forall (fun x => (2 ^ j | fvalue f x)) l -> magnitudes f l < 2 ^ (f_m f + 1 + j) ->
  (forall a v r, zlen a = p_width l0 -> zlen v = p_width l0 -> Forall (lane e) a -> Forall (lane e) v -> portable_run fs c tie ieee_arith ieee_sqrt narrow e 2 (Arith Add (Arg 0) (Arg 1)) [a; v] = Some (Ok r) -> add a v = r) ->
  exists s acc s' r, filter (fun s => String.eqb (s_vec s) (p_vec l0)) unknown_sum = [s] /\ simd_reduce (slice_iterator c (vty_of l0)) fuel (simd_iter l zero) zero add = Ok (acc, s') /\
    sum_portable ieee_add c s acc = Ok r /\ finite_lane e r /\ fvalue f r = exact_sum f l.
Proof.
  intros fs c tie narrow e l l0 add fuel j f zero T He N0 Cap Hfu Hl Hj Hd Hm Ra. destruct (float_prims e He) as [H0 Hfl]. destruct (zero_float e He) as [Z1 Z2]. assert (Hg : 0 < 2 ^ j) by (apply Z.pow_pos_nonneg; lia).
  assert (Hm2 : magnitudes f l < 2 * 2 ^ f_m f * 2 ^ j) by (rewrite !Z.pow_add_r, Z.pow_1_r in Hm by (try lia; destruct He as [He|He]; unfold f; rewrite He; vm_compute; discriminate); lia).
  set (D := Z.to_nat ((zlen l + p_width l0 - 1) / p_width l0 + p_width l0)).
  destruct (float_sum_portable (exactly e j) D (magnitudes f l) (fvalue f) (fun x => finite_lane e x /\ (2 ^ j | fvalue f x)) e fs c l l0 add fuel) as (s & acc & s' & r & R0 & R1 & R2 & (k & (K1 & K2 & K3) & K4 & _)).
  - intros d x y a1 b1 a2 b2 _ Hb (k1 & S1 & A1 & B1 & C1) (k2 & S2 & A2 & B2 & C2). exists (k1 + k2). assert (Hk : Z.abs (k1 + k2) * 2 ^ j <= b1 + b2) by (clear -B1 B2 Hg; nia).
    split; [apply (scaled_add e j Hj); [exact S1|exact S2|]|split; [lia|split; [exact Hk|lia]]]. fold f. clear -Hk Hb Hm2 Hg. nia.
  - intros d x a b H. exact H.
  - intros d x a b (k & _ & _ & _ & H). exact H.
  - intros d x a b (k & (P & _) & _). apply pattern_float; [exact He|exact P].
  - intros x [F [k K]]. apply (finite_parts e x He) in F. exists k. split; [split; [apply F|split; [apply F|exact K]]|]. split; [exact K|]. rewrite K, Z.abs_mul, (Z.abs_eq (2 ^ j)) by lia. split; [lia|]. apply Z.mul_nonneg_nonneg; lia.
  - split; [exact Z1|]. unfold f. rewrite Z2. apply Z.divide_0_r.
  - exact Z2.
  - exact T.
  - exact He.
  - exact N0.
  - exact Cap.
  - exact Hfu.
  - apply Forall_forall. intros x Hx. rewrite Forall_forall in Hl, Hd. auto.
  - unfold D. lia.
  - reflexivity.
  - intros a v La Lv Fa Fv. apply (portable_add_lanes fs c tie narrow e l0 a v _ T He N0 La Lv Fa Fv). intros r0 Hr0. exact (Ra a v r0 La Lv Fa Fv Hr0).
  - exists s, acc, s', r. split; [exact R0|]. split; [exact R1|]. split; [exact R2|]. split; [apply finite_parts; [exact He|split; assumption]|]. unfold exact_sum. rewrite K4. exact K3.
Qed.

Lemma c97_sum_error : forall (fs : features) (c : config) (tie : bool) (narrow : Z -> Z) (e : elty) (l : list Z) (l0 : packed_line) (add : list Z -> list Z -> list Z) (fuel : nat) (n : Z),
  let f := fmt_of e in let zero := splat (p_width l0) 0 in
  fs "undefined"%string = false -> e = EF32 \/ e = EF64 -> portable_natural fs (el_name e ++ "s") = [l0] -> zlen l * p_size l0 <= isize_max -> (length l < fuel)%nat ->
  Forall (finite_lane e) l -> (zlen l + p_width l0 - 1) / p_width l0 + p_width l0 <= n -> no_float_overflow f n l ->
  (forall a v r, zlen a = p_width l0 -> zlen v = p_width l0 -> Forall (lane e) a -> Forall (lane e) v -> portable_run fs c tie ieee_arith ieee_sqrt narrow e 2 (Arith Add (Arg 0) (Arg 1)) [a; v] = Some (Ok r) -> add a v = r) ->
  exists s acc s' r, filter (fun s => String.eqb (s_vec s) (p_vec l0)) unknown_sum = [s] /\ simd_reduce (slice_iterator c (vty_of l0)) fuel (simd_iter l zero) zero add = Ok (acc, s') /\
    sum_portable ieee_add c s acc = Ok r /\ finite_lane e r /\ rounded_sum f n l r.
Proof.
  intros fs c tie narrow e l l0 add fuel n f zero T He N0 Cap Hfu Hl Hn Ho Ra. destruct (float_prims e He) as [H0 Hfl]. destruct (zero_float e He) as [Z1 Z2]. pose proof (fmt_of_ok e) as Hok. fold f in Hok.
  destruct (portable_vty fs _ l0 T H0 N0) as (Vt & _). pose proof (vty_ok_facts _ Vt) as (H1 & _). change (WIDTH (vty_of l0)) with (p_width l0) in H1. pose proof (zlen_nonneg l). assert (0 <= (zlen l + p_width l0 - 1) / p_width l0) by (apply Z.div_pos; lia). unfold no_float_overflow in Ho.
  replace n with (Z.of_nat (Z.to_nat n)) in * by lia. set (D := Z.to_nat n) in *. clearbody D. clear n.
  destruct (float_sum_portable (approx f) D (magnitudes f l) (fvalue f) (finite_lane e) e fs c l l0 add fuel) as (s & acc & s' & r & R0 & R1 & R2 & (A1 & A2 & A3 & A4)).
  - intros d x y a1 b1 a2 b2 Hd Hb. exact (approx_add f Hok D _ Ho d x y a1 b1 a2 b2 Hd Hb).
  - exact (approx_mono f Hok).
  - intros d x a b (_ & _ & K2 & _). lia.
  - intros d x a b (P & _). apply pattern_float; [exact He|exact P].
  - intros x F. apply (finite_parts e x He) in F. destruct F as [F1 F2]. split; [exact F1|]. split; [exact F2|]. split; [lia|]. rewrite Z.sub_diag. change (Z.of_nat 0) with 0. rewrite !Z.pow_0_r. lia.
  - exact Z1.
  - exact Z2.
  - exact T.
  - exact He.
  - exact N0.
  - exact Cap.
  - exact Hfu.
  - exact Hl.
  - exact Hn.
  - reflexivity.
  - intros a v La Lv Fa Fv. apply (portable_add_lanes fs c tie narrow e l0 a v _ T He N0 La Lv Fa Fv). intros r0 Hr0. exact (Ra a v r0 La Lv Fa Fv Hr0).
  - exists s, acc, s', r. split; [exact R0|]. split; [exact R1|]. split; [exact R2|]. split; [apply finite_parts; [exact He|split; assumption]|]. exact A4.
Qed.

Lemma c97_sum_nan : forall (fs : features) (c : config) (tie : bool) (narrow : Z -> Z) (e : elty) (l : list Z) (l0 : packed_line) (add : list Z -> list Z -> list Z) (fuel : nat),
  let f := fmt_of e in let zero := splat (p_width l0) 0 in
  fs "undefined"%string = false -> e = EF32 \/ e = EF64 -> portable_natural fs (el_name e ++ "s") = [l0] -> zlen l * p_size l0 <= isize_max -> (length l < fuel)%nat ->
  Forall (lane e) l -> (exists x, In x l /\ is_nan f x) ->
  (forall a v r, zlen a = p_width l0 -> zlen v = p_width l0 -> Forall (lane e) a -> Forall (lane e) v -> portable_run fs c tie ieee_arith ieee_sqrt narrow e 2 (Arith Add (Arg 0) (Arg 1)) [a; v] = Some (Ok r) -> add a v = r) ->
  exists s acc s' r, filter (fun s => String.eqb (s_vec s) (p_vec l0)) unknown_sum = [s] /\ simd_reduce (slice_iterator c (vty_of l0)) fuel (simd_iter l zero) zero add = Ok (acc, s') /\
    sum_portable ieee_add c s acc = Ok r /\ is_nan f r.
Proof.
  intros fs c tie narrow e l l0 add fuel f zero T He N0 Cap Hfu Hl (x0 & I0 & Nx) Ra. destruct (float_prims e He) as [H0 Hfl]. destruct (zero_float e He) as [Z1 Z2]. pose proof (fmt_of_ok e) as Hok. fold f in Hok.
  set (val := fun x => if nan_dec f x then 1 else 0). set (D := Z.to_nat ((zlen l + p_width l0 - 1) / p_width l0 + p_width l0)).
  destruct (float_sum_portable (poisoned f) D (total (map (fun x => Z.abs (val x)) l)) val (lane e) e fs c l l0 add fuel) as (s & acc & s' & r & R0 & R1 & R2 & (A1 & A2 & A3)).
  - intros d x y a1 b1 a2 b2 _ _ (X1 & X2 & X3) (Y1 & Y2 & Y3). change (ieee_add e x y) with (f_add f x y). destruct (add_ok f Hok x y X1 Y1) as (P & S1 & _). split; [exact P|]. split; [lia|]. intros Hb. apply S1. destruct (Z_lt_le_dec 0 b1) as [L|L]; [left; apply X3; exact L|right; apply Y3; lia].
  - intros d x a b H. exact H.
  - intros d x a b (_ & H & _). exact H.
  - intros d x a b (P & _). apply pattern_float; [exact He|exact P].
  - intros x Hx. split; [apply float_pattern; [exact He|apply (lane_in e x H0); exact Hx]|]. unfold val. destruct (nan_dec f x) as [N|N]; split; try lia; intros _; exact N.
  - apply finite_parts in Z1; [|exact He]. apply (lane_in e 0 H0). apply pattern_float; [exact He|apply Z1].
  - unfold val. destruct (nan_dec f 0) as [N|N]; [exfalso|reflexivity]. unfold f in N. destruct He as [He|He]; rewrite He in N; vm_compute in N; destruct N as [N _]; discriminate.
  - exact T.
  - exact He.
  - exact N0.
  - exact Cap.
  - exact Hfu.
  - exact Hl.
  - unfold D. lia.
  - reflexivity.
  - intros a v La Lv Fa Fv. apply (portable_add_lanes fs c tie narrow e l0 a v _ T He N0 La Lv Fa Fv). intros r0 Hr0. exact (Ra a v r0 La Lv Fa Fv Hr0).
  - exists s, acc, s', r. split; [exact R0|]. split; [exact R1|]. split; [exact R2|]. apply A3. clear -I0 Nx. induction l as [|y l IH]; [destruct I0|]. cbn [map total fold_right]. fold (total (map (fun x => Z.abs (val x)) l)). pose proof (abs_nonneg val l). destruct I0 as [-> |I0].
    + unfold val at 1. destruct (nan_dec f x0); [lia|contradiction].
    + specialize (IH I0). lia.
Qed.

(** ** Extrema *)

Section Skipping.
Variable good any : Z -> Prop.
Variable le : Z -> Z -> Prop.
Hypothesis le_refl : forall x, le x x.
Hypothesis le_trans : forall x y z, le x y -> le y z -> le x z.
(** [z] is [x] or a number [y], and neither is beyond it. *)
Definition kept (x y z : Z) : Prop := (z = x \/ z = y /\ good y) /\ le x z /\ (good y -> le y z).

Lemma kept_lanes : forall a v r, length a = length v -> each_lane kept a v r ->
  length r = length a /\ (forall y, In y r -> In y a \/ In y v /\ good y) /\ (forall x, In x a -> exists y, In y r /\ le x y) /\ (forall x, In x v -> good x -> exists y, In y r /\ le x y).
Proof.
  intros a v r L [Lr H]. assert (Lr2 : length r = length a) by (unfold zlen in Lr; lia). split; [exact Lr2|].
  assert (N : forall k x y, nth_error a k = Some x -> nth_error v k = Some y -> exists z, nth_error r k = Some z /\ kept x y z).
  { intros k x y Hx Hy. specialize (H (Z.of_nat k) x y). unfold znth in H. replace (Z.of_nat k <? 0) with false in H by lia. rewrite Nat2Z.id in H. exact (H Hx Hy). }
  assert (S : forall (l1 l2 : list Z) k x, length l1 = length l2 -> nth_error l1 k = Some x -> exists y, nth_error l2 k = Some y).
  { intros l1 l2 k x E Hk. destruct (nth_error l2 k) as [y|] eqn:C; [exists y; reflexivity|]. apply nth_error_None in C. assert (K : nth_error l1 k <> None) by congruence. apply nth_error_Some in K. lia. }
  split; [|split].
  - intros y Hy. apply In_nth_error in Hy. destruct Hy as [k Hk]. destruct (S r a k y Lr2 Hk) as [x Hx]. destruct (S a v k x L Hx) as [x2 Hx2]. destruct (N k x x2 Hx Hx2) as (z & Hz & (Q & _)). rewrite Hk in Hz. injection Hz as <-. destruct Q as [-> | [-> G]]; [left|right; split; [|exact G]]; eapply nth_error_In; eassumption.
  - intros x Hx. apply In_nth_error in Hx. destruct Hx as [k Hk]. destruct (S a v k x L Hk) as [y Hy]. destruct (N k x y Hk Hy) as (z & Hz & (_ & P & _)). exists z. split; [eapply nth_error_In; exact Hz|exact P].
  - intros x Hx G. apply In_nth_error in Hx. destruct Hx as [k Hk]. destruct (S v a k x (eq_sym L) Hk) as [y Hy]. destruct (N k y x Hy Hk) as (z & Hz & (_ & _ & P)). exists z. split; [eapply nth_error_In; exact Hz|exact (P G)].
Qed.

Lemma kept_vectors : forall (f : list Z -> list Z -> list Z) w vs acc, length acc = w -> Forall good acc -> Forall (fun v => length v = w /\ Forall any v) vs ->
  (forall a v, length a = w -> length v = w -> Forall good a -> Forall any v -> each_lane kept a v (f a v)) ->
  let r := fold_left f vs acc in length r = w /\ Forall good r /\ (forall y, In y r -> In y acc \/ In y (concat vs)) /\ (forall x, In x acc -> exists y, In y r /\ le x y) /\ (forall x, In x (concat vs) -> good x -> exists y, In y r /\ le x y).
Proof.
  intros f w vs. induction vs as [|v vs IH]; intros acc La Fa Fv Hf; cbn [fold_left concat].
  - split; [exact La|]. split; [exact Fa|]. split; [tauto|]. split; [|intros x []]. intros x Hx. exists x. split; [exact Hx|apply le_refl].
  - destruct (Forall_inv Fv) as [Lv Gv]. destruct (kept_lanes acc v (f acc v) ltac:(lia) (Hf acc v La Lv Fa Gv)) as (P1 & P2 & P3 & P4).
    assert (Fn : Forall good (f acc v)) by (apply Forall_forall; intros y Hy; rewrite Forall_forall in Fa; destruct (P2 y Hy) as [K|[_ K]]; auto).
    destruct (IH (f acc v) ltac:(lia) Fn (Forall_inv_tail Fv) Hf) as (I1 & I2 & I3 & I4 & I5). cbv zeta. split; [exact I1|]. split; [exact I2|].
    assert (Up : forall x, (exists y, In y (f acc v) /\ le x y) -> exists z, In z (fold_left f vs (f acc v)) /\ le x z) by (intros x (y & Y1 & Y2); destruct (I4 y Y1) as (z & Z1 & Z2); exists z; split; [exact Z1|exact (le_trans x y z Y2 Z2)]).
    split; [|split].
    + intros y Hy. destruct (I3 y Hy) as [K|K]; [destruct (P2 y K) as [Q|[Q _]]; [left|right; apply in_or_app; left]; exact Q|right; apply in_or_app; right; exact K].
    + intros x Hx. apply Up. exact (P3 x Hx).
    + intros x Hx G. apply in_app_or in Hx. destruct Hx as [Hx|Hx]; [apply Up; exact (P4 x Hx G)|exact (I5 x Hx G)].
Qed.
End Skipping.

Lemma portable_pick_lanes : forall fs c tie narrow e l0 m a v, fs "undefined"%string = false -> e = EF32 \/ e = EF64 -> m = Min \/ m = Max -> portable_natural fs (el_name e ++ "s") = [l0] ->
  zlen a = p_width l0 -> zlen v = p_width l0 ->
  portable_run fs c tie ieee_arith ieee_sqrt narrow e 2 (Call m (Arg 0) (Arg 1)) [a; v] = Some (Ok (zipw (match m with Min => rust_fmin (fmt_of e) tie | _ => rust_fmax (fmt_of e) tie end) a v)).
Proof.
  intros fs c tie narrow e l0 m a v T He Hm N0 La Lv. destruct (float_prims e He) as [H0 _]. destruct (portable_line fs e T H0) as (l & N & Po & V & W & _). rewrite N0 in N. injection N as <-.
  assert (O : exists o, lookup (portable_table m) (p_vec l0) (method_name m) = Some o /\ In o unknown_cmp /\ op_el o = e /\ WIDTH (op_ty o) = p_width l0 /\ rust_binary tie o = Some (match m with Min => rust_fmin (fmt_of e) tie | _ => rust_fmax (fmt_of e) tie end)).
  { rewrite V, W. destruct Hm as [-> | ->]; destruct He as [-> | ->]; (eexists; split; [vm_compute; reflexivity|]; split; [vm_compute; tauto|split; [reflexivity|split; reflexivity]]). }
  destruct O as (o & O1 & O2 & O3 & O4 & O5). pose proof cmp_entries as Hent. rewrite Forall_forall in Hent. specialize (Hent o (in_or_app _ _ _ (or_intror O2))).
  cbn [portable_run nth_error option_map type_of Nat.ltb Nat.leb]. rewrite Po, O1. cbn [andthen]. rewrite (portable2_ok tie o _ a v (proj1 Hent) O5); [|rewrite O4; exact La|rewrite O4; exact Lv]. cbn [andthen]. destruct Hm as [-> | ->]; reflexivity.
Qed.

Lemma c97_extremum : forall (fs : features) (c : config) (tie : bool) (narrow : Z -> Z) (e : elty) (l : list Z) (l0 : packed_line) (m : method) (u : Z) (f : list Z -> list Z -> list Z) (g : Z -> Z -> Z) (fuel : nat),
  let fm := fmt_of e in let number x := lane e x /\ ~ is_nan fm x in let best := match m with Min => least fm | _ => greatest fm end in
  fs "undefined"%string = false -> e = EF32 \/ e = EF64 -> m = Min \/ m = Max -> portable_natural fs (el_name e ++ "s") = [l0] ->
  infinity_of_sign fm (match m with Min => 0 | _ => 1 end) u -> Forall (lane e) l -> zlen l * p_size l0 <= isize_max -> (length l < fuel)%nat ->
  (forall a v r, zlen a = p_width l0 -> zlen v = p_width l0 -> Forall number a -> Forall (lane e) v -> portable_run fs c tie ieee_arith ieee_sqrt narrow e 2 (Call m (Arg 0) (Arg 1)) [a; v] = Some (Ok r) -> f a v = r) ->
  (forall x y, number x -> number y -> best x y (g x y)) ->
  exists acc s' r, simd_reduce (slice_iterator c (vty_of l0)) fuel (simd_iter l (splat (p_width l0) u)) (splat (p_width l0) u) f = Ok (acc, s') /\
    scalar_reduce (p_width l0) acc u g = Ok r /\ (Forall (is_nan fm) l -> r = u) /\ (~ Forall (is_nan fm) l -> In r l /\ ~ is_nan fm r) /\
    Forall (fun x => ~ is_nan fm x -> match m with Min => fvalue fm r <= fvalue fm x | _ => fvalue fm x <= fvalue fm r end) l.
Proof.
  intros fs c tie narrow e l l0 m u f g fuel fm number best T He Hm N0 Hu Hl Cap Hfu Rf Rg. destruct (float_prims e He) as [H0 Hfl]. pose proof (fmt_of_ok e) as Hok. fold fm in Hok.
  destruct (portable_vty fs _ l0 T H0 N0) as (Vt & W0 & S0 & _). pose proof (vty_ok_facts _ Vt) as (H1 & _). pose proof (zlen_nonneg l). set (w := p_width l0) in *. change (WIDTH (vty_of l0)) with w in *.
  assert (Gu : number u). { destruct Hu as (U1 & U2 & _). split; [unfold fm in U1; destruct He as [He|He]; rewrite He in *; exact U1|]. destruct (classes fm Hok u U1) as [C|[C|C]]; tauto. }
  set (le := fun x y => match m with Min => fvalue fm y <= fvalue fm x | _ => fvalue fm x <= fvalue fm y end).
  assert (Lr : forall x, le x x) by (intros x; unfold le; destruct Hm as [-> | ->]; lia). assert (Lt : forall x y z, le x y -> le y z -> le x z) by (intros x y z; unfold le; destruct Hm as [-> | ->]; lia).
  assert (Bp : forall x y z, best x y z -> picked le x y z) by (intros x y z; unfold best, picked, le, least, greatest; destruct Hm as [-> | ->]; tauto).
  assert (Hz : zlen (splat w u) = w) by (unfold splat; rewrite zlen_repeat; lia).
  destruct (c06_reduce Z (list Z) c (vty_of l0) l (splat w u) 0 (splat w u) f fuel Vt Cap Hz ltac:(lia) ltac:(lia) Hfu) as (vs & rest & [Hc1 Hc2] & Hr & Ha & Hred & _).
  cbn [Z.to_nat skipn] in Hc2. change (WIDTH (vty_of l0)) with w in *. match type of Hred with context [fold_left _ ?A _] => set (args := A) in * end.
  assert (Us : forall x, In x (splat w u) -> x = u) by (intros x Hx; unfold splat in Hx; apply repeat_spec in Hx; exact Hx).
  assert (Su : Forall number (splat w u)) by (apply Forall_forall; intros x Hx; rewrite (Us x Hx); exact Gu).
  assert (Ic : forall x, In x (concat args) -> x = u \/ In x l).
  { intros x Hx. unfold args in Hx. rewrite concat_app in Hx. rewrite <- Hc2. apply in_app_or in Hx. destruct Hx as [Hx|Hx]; [right; apply in_or_app; left; exact Hx|]. destruct rest as [|y r]; [contradiction|]. cbn [concat] in Hx. rewrite app_nil_r in Hx. unfold right_aligned in Hx. apply in_app_or in Hx. destruct Hx as [Hx|Hx]; [left; apply Us; rewrite <- (firstn_skipn (length (splat w u) - length (y :: r)) (splat w u)); apply in_or_app; left; exact Hx|right; apply in_or_app; right; exact Hx]. }
  assert (Il : forall x, In x l -> In x (concat args)).
  { intros x Hx. rewrite <- Hc2 in Hx. unfold args. rewrite concat_app. apply in_app_or in Hx. apply in_or_app. destruct Hx as [Hx|Hx]; [left; exact Hx|right]. destruct rest as [|y r]; [contradiction|]. cbn [concat]. rewrite app_nil_r. unfold right_aligned. apply in_or_app. right. exact Hx. }
  assert (Fv : Forall (fun v => length v = Z.to_nat w /\ Forall (lane e) v) args).
  { apply Forall_forall. intros v Hv2. split.
    - unfold args in Hv2. apply in_app_or in Hv2. destruct Hv2 as [Hv2|Hv2]; [rewrite Forall_forall in Hc1; specialize (Hc1 v Hv2); unfold zlen in Hc1; lia|]. destruct rest as [|y r]; [contradiction|]. destruct Hv2 as [<-|[]]. pose proof (right_aligned_len (splat w u) (y :: r) ltac:(lia)) as Q. rewrite Hz in Q. unfold zlen in Q. lia.
    - apply Forall_forall. intros x Hx. assert (Hx2 : In x (concat args)) by (apply in_concat; exists v; split; assumption). destruct (Ic x Hx2) as [->|K]; [exact (proj1 Gu)|]. rewrite Forall_forall in Hl. exact (Hl x K). }
  destruct (kept_vectors number (lane e) le Lr Lt f (Z.to_nat w) args (splat w u)) as (P1 & P2 & P3 & P4 & P5).
  - unfold zlen in Hz. lia.
  - exact Su.
  - exact Fv.
  - intros a v La Lv Ga Gv. rewrite (Rf a v _ ltac:(unfold zlen; lia) ltac:(unfold zlen; lia) Ga Gv (portable_pick_lanes fs c tie narrow e l0 m a v T He Hm N0 ltac:(unfold zlen; lia) ltac:(unfold zlen; lia))).
    match goal with |- each_lane _ _ _ (zipw ?h _ _) => set (h0 := h) in * end. destruct (zipw_lanewise h0 a v ltac:(unfold zlen in *; lia)) as [L1 L2]. split; [exact L1|]. intros i x y Hx Hy. exists (h0 x y). split; [apply L2; assumption|].
    rewrite Forall_forall in Ga, Gv. destruct (Ga x (OpProofs.znth_In _ _ _ _ Hx)) as [X1 X2]. pose proof (Gv y (OpProofs.znth_In _ _ _ _ Hy)) as Y1. destruct (not_nan e x He X1 X2) as (Px & Nx & _). fold fm in Px, Nx.
    assert (Py : f_pattern fm y) by (unfold fm; destruct He as [He|He]; rewrite He in *; exact Y1). destruct (nan_iff fm Hok y Py) as (Q & _). destruct (f_nan fm y) eqn:Ny.
    + assert (E : h0 x y = x) by (unfold h0; destruct Hm as [-> | ->]; fold fm; unfold rust_fmin, rust_fmax; rewrite Nx, Ny; reflexivity). rewrite E. split; [left; reflexivity|]. split; [apply Lr|]. intros [_ K]. tauto.
    + assert (Gy : number y) by (split; [exact Y1|intros K; apply Q in K; discriminate]). destruct (rust_picks fm tie x y Hok Px Py Nx Ny) as (R1 & _ & R2 & _). assert (B : best x y (h0 x y)) by (unfold best, h0; destruct Hm as [-> | ->]; assumption). destruct (Bp _ _ _ B) as (B1 & B2 & B3). split; [destruct B1 as [-> | ->]; tauto|]. split; [exact B2|intros _; exact B3].
  - set (acc := fold_left f args (splat w u)) in *. destruct (picked_scalars number le Lr Lt g acc u P2 Gu) as (S1 & S2 & S3 & S4); [intros x y Gx Gy; apply Bp; apply Rg; assumption|]. set (r := fold_left g acc u) in *.
    exists acc. eexists. exists r. split; [exact Hred|]. split; [change w with (WIDTH (vty_of l0)); apply c34_scalar_reduce; change (WIDTH (vty_of l0)) with w; unfold zlen; lia|].
    assert (Rl : r = u \/ In r l). { destruct S2 as [->|S2]; [left; reflexivity|]. destruct (P3 r S2) as [K|K]; [left; apply Us; exact K|apply Ic; exact K]. }
    assert (Bound : forall x, In x l -> ~ is_nan fm x -> le x r). { intros x Hx Nx. rewrite Forall_forall in Hl. destruct (P5 x (Il x Hx) (conj (Hl x Hx) Nx)) as (y & Y1 & Y2). rewrite Forall_forall in S4. exact (Lt x y r Y2 (S4 y Y1)). }
    assert (Same : forall x, In x l -> ~ is_nan fm x -> r = u -> x = u).
    { intros x Hx Nx Ru. pose proof (Bound x Hx Nx) as Bx. rewrite Ru in Bx. rewrite Forall_forall in Hl. apply (only_infinity fm Hok (match m with Min => false | _ => true end) u x).
      - destruct Hm as [-> | ->]; exact Hu.
      - apply (not_nan e x He (Hl x Hx) Nx).
      - exact Nx.
      - unfold le in Bx. destruct Hm as [-> | ->]; exact Bx. }
    split; [intros Fn; destruct Rl as [Rl|Rl]; [exact Rl|]; rewrite Forall_forall in Fn; exfalso; exact (proj2 S1 (Fn r Rl))|]. split; [|apply Forall_forall; exact Bound].
    intros Hne. split; [|exact (proj2 S1)]. destruct Rl as [Ru|Rl]; [|exact Rl].
    destruct (Exists_dec (fun x => ~ is_nan fm x) l) as [Ex|Ex]; [intros x; destruct (nan_dec fm x); [right|left]; tauto| |].
    + apply Exists_exists in Ex. destruct Ex as (x & Hx & Nx). rewrite Ru, <- (Same x Hx Nx Ru). exact Hx.
    + exfalso. apply Hne. apply Forall_forall. intros x Hx. destruct (nan_dec fm x) as [K|K]; [exact K|]. exfalso. apply Ex. apply Exists_exists. exists x. split; assumption.
Qed.
