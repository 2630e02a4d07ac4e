(** Proofs of the properties: the float pipelines of the example program on every target (C91). *)
From Coq Require Import String.
From Verif Require Import Base Spec VecSpec Vecs Iters GateTables GateSpec Gates Lanes Floats FloatSpec Arith ArithSpec X86 Tables Shuffles OpTables Ops OpSpec PortTables Ports PortSpec SumTables Sums SumSpec Builds AvailSpec Estimates ExprSpec Exprs FloatSumSpec Demos.
Open Scope list_scope.
Open Scope Z_scope.
From Coq Require Import Lia ZifyBool ZifyNat.
From Verif Require Import ListFacts VecFacts IterFacts CollectFacts MapFacts VecProofs FloatFacts ArithFacts IterProofs SumProofs ArithProofs BuildProofs PipeProofs DocProofs KernProofs ExprProofs ReduceFacts OpProofs RoundProofs FSumProofs FoldProofs.
Ltac Zify.zify_post_hook ::= Z.div_mod_to_equations.

Lemma float_lane : forall e x, e = EF32 \/ e = EF64 -> (lane e x <-> f_pattern (fmt_of e) x).
Proof. intros e x He. rewrite (lane_in e x) by (destruct He as [-> | ->]; cbn; tauto). split; [apply float_pattern; exact He|apply pattern_float; exact He]. Qed.

Lemma ieee_lanes : (forall o e u v, e = EF32 \/ e = EF64 -> lane e u -> lane e v -> lane e (ieee_arith o e u v)) /\ (forall e u, e = EF32 \/ e = EF64 -> lane e u -> lane e (ieee_sqrt e u)).
Proof.
  split.
  - intros o e u v He Hu Hv. pose proof (fmt_of_ok e) as Hk. apply (float_lane e _ He) in Hu. pose proof Hu as Hu'. apply (float_lane e _ He) in Hv. apply (float_lane e _ He). destruct o; cbn [ieee_arith]; try exact Hu'; change (el_fmt e) with (fmt_of e); [exact (proj1 (add_ok _ Hk _ _ Hu Hv))|exact (proj1 (sub_ok _ Hk _ _ Hu Hv))|exact (proj1 (mul_ok _ Hk _ _ Hu Hv))].
  - intros e u He Hu. apply (float_lane e _ He) in Hu. apply (float_lane e _ He). unfold ieee_sqrt. change (el_fmt e) with (fmt_of e). exact (proj1 (sqrt_ok _ (fmt_of_ok e) (bias_bits e) u Hu)).
Qed.

(** The root of a float from 1.0015 on is at least 1.00074, and finite. *)
Lemma root_large : forall x, f_pattern fmt32 x -> is_finite fmt32 x -> 10015 * fone fmt32 <= 10000 * fvalue fmt32 x ->
  let s := f_sqrt fmt32 x in f_pattern fmt32 s /\ is_finite fmt32 s /\ 8195 * 8195 * fone fmt32 <= 8192 * 8192 * fvalue fmt32 s.
Proof.
  intros x Hx Hf Hv s. destruct (sqrt_ok fmt32 fmt32_ok ltac:(vm_compute; discriminate) x Hx) as (P & _ & _ & _ & _ & R). fold s in P, R.
  assert (O : 0 < fone fmt32) by (apply (fone_pos fmt32 fmt32_ok)). specialize (R Hf ltac:(lia)). destruct R as (_ & N & Z0 & R).
  split; [exact P|]. split.
  - pose proof (R 1602224128 ltac:(vm_compute; split; congruence) ltac:(intros [C _]; vm_compute in C; discriminate) ltac:(vm_compute; discriminate)) as (_ & R2 & _). cbv zeta in R2.
    apply (finite_small fmt32 fmt32_ok s P N). destruct (inf_value fmt32 fmt32_ok x Hx) as (_ & I & _). specialize (I Hf). pose proof (value_sg fmt32 fmt32_ok x Hx) as Vx. pose proof (value_sg fmt32 fmt32_ok s P) as Vs.
    pose proof (absval_nonneg fmt32 fmt32_ok x Hx) as Ax. pose proof (absval_nonneg fmt32 fmt32_ok s P) as As.
    assert (Ex : absval fmt32 x = fvalue fmt32 x) by (destruct (f_sign fmt32 x); cbn [sg] in Vx; lia). rewrite Ex in I.
    change (2 ^ f_m fmt32 * 2 ^ (2 ^ f_e fmt32 - 2)) with (fvalue fmt32 1602224128 * 2 ^ 64) in *. change (fone fmt32) with (2 ^ 149) in *. change (fvalue fmt32 1602224128) with (2 ^ 213) in *.
    assert (Es : absval fmt32 s = fvalue fmt32 s) by (destruct (f_sign fmt32 s); cbn [sg] in Vs; lia). rewrite Es. set (y := fvalue fmt32 s) in *. set (u := fvalue fmt32 x) in *. clearbody y u. clear -I Z0 R2.
    destruct (Z_lt_dec (2 ^ 213) y) as [L|L]; [|lia]. exfalso. specialize (R2 L). assert (2 ^ 213 * 2 ^ 213 * 4 < (y + 2 ^ 213) * (y + 2 ^ 213)) by nia. lia.
  - pose proof (R 1065359424 ltac:(vm_compute; split; congruence) ltac:(intros [C _]; vm_compute in C; discriminate) ltac:(vm_compute; discriminate)) as (R1 & _ & _). cbv zeta in R1.
    change (fone fmt32) with (2 ^ 149) in *. change (fvalue fmt32 1065359424) with (8394816 * 2 ^ 126) in *. set (y := fvalue fmt32 s) in *. set (u := fvalue fmt32 x) in *. clearbody y u. clear -Hv Z0 R1.
    destruct (Z_lt_dec y (8394816 * 2 ^ 126)) as [L|L]; [|lia]. exfalso. specialize (R1 L). assert ((y + 8394816 * 2 ^ 126) * (y + 8394816 * 2 ^ 126) < 4 * (8394816 * 2 ^ 126) * (8394816 * 2 ^ 126)) by nia. lia.
Qed.

(** An estimate of the reciprocal root of such a root is rounded up to 1.0. *)
Lemma estimate_one : forall s z, f_pattern fmt32 s -> is_finite fmt32 s -> 8195 * 8195 * fone fmt32 <= 8192 * 8192 * fvalue fmt32 s -> f_pattern fmt32 z -> rsqrt_estimate fmt32 s z -> integral Ceil fmt32 z = 1065353216.
Proof.
  intros s z Ps Fs Vs Pz (_ & _ & _ & _ & R). change (fone fmt32) with (2 ^ 149) in *. specialize (R Fs ltac:(change (2 ^ f_m fmt32) with (2 ^ 23); lia)). destruct R as (Fz & Z0 & _ & R). cbv zeta in R.
  assert (Le : fvalue fmt32 z <= 2 ^ 149).
  { set (y := fvalue fmt32 z) in *. set (u := fvalue fmt32 s) in *. clearbody y u. clear -R Z0 Vs. destruct (Z_le_dec y (2 ^ 149)) as [L|L]; [exact L|]. exfalso.
    assert (2 ^ 149 * 2 ^ 149 < y * y) by nia. assert (8195 * 8195 * (2 ^ 149 * 2 ^ 149 * 2 ^ 149) < 8192 * 8192 * (y * y * u)); [|lia]. nia. }
  unfold integral. replace (nan_pattern fmt32 z) with false by (symmetry; apply not_true_iff_false; intros C; apply nan_pattern_iff in C; exact (Fz (proj1 C))). unfold is_finite in Fz.
  replace (exponent_field fmt32 z =? 2 ^ f_e fmt32 - 1) with false by lia.
  assert (Q : - (- fvalue fmt32 z / fone fmt32) = 1) by (change (fone fmt32) with (2 ^ 149); set (y := fvalue fmt32 z) in *; clearbody y; clear -Z0 Le; pose proof (Z.div_unique_pos (- y) (2 ^ 149) (-1) (2 ^ 149 - y)); lia). rewrite Q.
  assert (S : sign_bit fmt32 z = 0).
  { unfold fvalue in Z0. destruct (mag_fields fmt32 fmt32_ok z Pz) as (_ & G2 & G3 & [[_ G]|[_ G]]); [exact G|]. exfalso. rewrite G in Z0. cbn [Z.eqb] in Z0. destruct (exponent_field fmt32 z =? 0) eqn:X; [lia|].
    assert (0 < 2 ^ (exponent_field fmt32 z - 1)) by (apply Z.pow_pos_nonneg; lia). assert (0 < 2 ^ f_m fmt32) by (vm_compute; reflexivity). assert (0 < (2 ^ f_m fmt32 + fraction_field fmt32 z) * 2 ^ (exponent_field fmt32 z - 1)) by (apply Z.mul_pos_pos; lia). lia. }
  rewrite S. vm_compute. reflexivity.
Qed.

Lemma abs_pattern : forall x, f_pattern fmt32 x -> f_pattern fmt32 (x mod 2 ^ 31) /\ (is_finite fmt32 x -> is_finite fmt32 (x mod 2 ^ 31) /\ fvalue fmt32 (x mod 2 ^ 31) = Z.abs (fvalue fmt32 x)).
Proof.
  intros x Hx. unfold f_pattern in *. change (2 ^ (1 + f_e fmt32 + f_m fmt32)) with (2 ^ 32) in *. assert (M : 0 <= x mod 2 ^ 31 < 2 ^ 31) by (apply Z.mod_pos_bound; lia). split; [lia|].
  assert (E : exponent_field fmt32 (x mod 2 ^ 31) = exponent_field fmt32 x /\ fraction_field fmt32 (x mod 2 ^ 31) = fraction_field fmt32 x /\ sign_bit fmt32 (x mod 2 ^ 31) = 0).
  { unfold exponent_field, fraction_field, sign_bit. change (f_m fmt32 + f_e fmt32) with 31. change (f_e fmt32) with 8. change (f_m fmt32) with 23. split; [|split].
    - rewrite (Z.mod_eq x (2 ^ 31)) by lia. replace (x - 2 ^ 31 * (x / 2 ^ 31)) with (x + - (x / 2 ^ 31) * 2 ^ 8 * 2 ^ 23) by ring. rewrite Z.div_add by lia. replace (- (x / 2 ^ 31) * 2 ^ 8) with (- (x / 2 ^ 31) * 2 ^ 8) by ring. apply Z.mod_add. lia.
    - rewrite (Z.mod_eq x (2 ^ 31)) by lia. replace (x - 2 ^ 31 * (x / 2 ^ 31)) with (x + - (x / 2 ^ 31) * 2 ^ 8 * 2 ^ 23) by ring. apply Z.mod_add. lia.
    - apply Z.div_small. exact M. }
  destruct E as (E1 & E2 & E3). intros Fx. split; [unfold is_finite; rewrite E1; exact Fx|]. unfold fvalue. rewrite E1, E2, E3. cbn [Z.eqb]. rewrite Z.mul_1_l.
  destruct (mag_fields fmt32 fmt32_ok x ltac:(unfold f_pattern; change (2 ^ (1 + f_e fmt32 + f_m fmt32)) with (2 ^ 32); exact Hx)) as (_ & G2 & G3 & _).
  set (w := if exponent_field fmt32 x =? 0 then fraction_field fmt32 x else (2 ^ f_m fmt32 + fraction_field fmt32 x) * 2 ^ (exponent_field fmt32 x - 1)).
  assert (W : 0 <= w). { unfold w. destruct (exponent_field fmt32 x =? 0) eqn:X; [lia|]. apply Z.mul_nonneg_nonneg; [assert (0 < 2 ^ f_m fmt32) by (vm_compute; reflexivity); lia|apply Z.pow_nonneg; lia]. }
  clearbody w. destruct (sign_bit fmt32 x =? 0); lia.
Qed.

Lemma rsqrt_columns : forallb (fun b => match lookup x86_rsqrt (vector_name (scalar_of EF32) b) "rsqrt" with
  | Some o => elty_eqb (op_el o) EF32 && vty_eqb (op_ty o) (mkVty (b / (bits_of EF32 / 8)) (bits_of EF32 / 8)) && String.eqb (op_feat o) (if b =? 16 then "sse" else "avx")
  | None => false
  end) [16; 32] = true.
Proof. vm_compute. reflexivity. Qed.

Lemma rsqrt_line : forall fs, exists o, lookup x86_rsqrt (vector_name (scalar_of EF32) (register fs)) "rsqrt" = Some o /\ In o x86_rsqrt /\ op_el o = EF32 /\ op_ty o = mkVty (register fs / (bits_of EF32 / 8)) (bits_of EF32 / 8) /\ op_feat o = (if register fs =? 16 then "sse"%string else "avx"%string).
Proof.
  intros fs. pose proof (proj1 (forallb_forall _ _) rsqrt_columns (register fs) (register_in fs)) as K. cbv beta in K. destruct (lookup _ _ _) as [o|] eqn:L; [|discriminate]. exists o. split; [reflexivity|]. split; [exact (proj1 (find_some _ _ L))|].
  apply andb_prop in K. destruct K as [K K3]. apply andb_prop in K. destruct K as [K1 K2]. split; [apply elty_eqb_eq; exact K1|]. split; [apply vty_eqb_eq; exact K2|apply String.eqb_eq; exact K3].
Qed.

(** What [rsqrt] computes on a lane in a build. *)
Definition rsqrt_of (fs : features) (rsq : Z -> Z) : Z -> Z := if fs (if register fs =? 16 then "sse"%string else "avx"%string) then rsq else f_rsqrt fmt32.

Lemma estimate_lanes : forall fs rcp rsq o a, In o x86_rsqrt -> op_el o = EF32 -> op_feat o = (if register fs =? 16 then "sse"%string else "avx"%string) -> (forall x, f_pattern fmt32 x -> f_pattern fmt32 (rsq x)) ->
  int_vector (WIDTH (op_ty o)) (lane_ity (op_el o)) a -> estimate_in fs rcp rsq o a = Some (Ok (map (rsqrt_of fs rsq) a)).
Proof.
  intros fs rcp rsq o a Ho He Hf Hr Ha. destruct estimate_entries as [_ E]. rewrite Forall_forall in E. destruct (E o ltac:(apply in_or_app; left; exact Ho)) as (E1 & _ & E3).
  unfold estimate_in, rsqrt_of. rewrite Hf. destruct (fs _).
  - destruct (estimate_optimized_ok rcp rsq rsq o a ltac:(apply in_or_app; right; exact Ho)) as [H1 _]; [rewrite E3; reflexivity|intros x Hx; apply (pattern_float EF32); [tauto|exact (Hr x (float_pattern EF32 x (or_introl eq_refl) Hx))]|exact Ha|]. rewrite H1. reflexivity.
  - apply estimate_portable_ok; [exact E1|unfold rust_estimate; rewrite E3, He; reflexivity|apply Ha].
Qed.

(** The closure of the example on one lane, for any [rsqrt]. *)
Definition threes_lane (r : Z -> Z) (x : Z) : Z := meaning EF32 1 ieee_arith ieee_sqrt after_rsqrt [r (f_sqrt fmt32 (x mod 2 ^ 31))].

Lemma lanewise1 : forall (g : Z -> Z) v r, length v = length r -> (forall k a, znth v k = Some a -> znth r k = Some (g a)) -> r = map g v.
Proof.
  intros g. induction v as [|a v IH]; intros [|y r] L K; try discriminate; [reflexivity|]. cbn [map]. f_equal; [specialize (K 0 a eq_refl); injection K as ->; reflexivity|].
  apply IH; [cbn [length] in L; lia|]. intros k b Hb. pose proof (znth_Some_lt _ _ _ Hb) as Hk. specialize (K (k + 1) b). rewrite !LoopProofs.znth_cons_shift in K by lia. replace (k + 1 - 1) with k in K by lia. apply K. exact Hb.
Qed.

Lemma threes_run : forall fs tie rcp rsq narrow l0 v, target fs -> (forall x, f_pattern fmt32 x -> f_pattern fmt32 (rsq x)) -> natural fs "f32s" = [l0] -> zlen v = p_width l0 -> Forall (lane EF32) v ->
  threes_in fs tie rcp rsq narrow v = Some (Ok (map (threes_lane (rsqrt_of fs rsq)) v)).
Proof.
  intros fs tie rcp rsq narrow l0 v T Hr N0 Lv Fv. assert (P : In EF32 primitives) by (cbn; tauto). destruct ieee_lanes as [Hf Hs]. assert (F32 : EF32 = EF32 \/ EF32 = EF64) by tauto.
  destruct (natural_line fs EF32 T P) as (l & N & N' & V & _). change (natural fs "f32s") with (natural fs (el_name EF32 ++ "s")) in N0. rewrite N in N0. injection N0 as <-.
  assert (W : p_width l = register fs / (bits_of EF32 / 8)) by (destruct (natural_vty fs EF32 l T P N) as (_ & W & _); exact W).
  destruct (rsqrt_line fs) as (o & O1 & O2 & O3 & O4 & O5). unfold threes_in. rewrite N', V, O1.
  destruct (c83_closure fs tie ieee_arith ieee_sqrt narrow EF32 EF32 before_rsqrt [v] l l T P Hf Hs eq_refl N N ltac:(discriminate)) as (u & Ru & Lu & Fu & Mu); [constructor; [split; assumption|constructor]|]. cbn [length] in Ru, Mu. rewrite Ru. cbn [andthen].
  assert (Eu : u = map (fun x => f_sqrt fmt32 (x mod 2 ^ 31)) v).
  { apply lanewise1; [unfold zlen in *; lia|]. intros k a Ha. rewrite (Mu k [a]) by (constructor; [exact Ha|constructor]). reflexivity. }
  rewrite (estimate_lanes fs rcp rsq o u O2 O3 O5 Hr) by (split; [rewrite O4; cbn [WIDTH]; rewrite <- W; exact Lu|rewrite O3; apply (lanes_in EF32 u P); exact Fu]). cbn [andthen].
  assert (Pr : forall x, f_pattern fmt32 x -> f_pattern fmt32 (rsqrt_of fs rsq x)) by (intros x Hx; unfold rsqrt_of; destruct (fs _); [apply Hr; exact Hx|apply (proj1 (rsq_satisfiable x Hx))]).
  destruct (c83_closure fs tie ieee_arith ieee_sqrt narrow EF32 EF32 after_rsqrt [map (rsqrt_of fs rsq) u] l l T P Hf Hs eq_refl N N ltac:(discriminate)) as (r & Rr & Lr & _ & Mr).
  { constructor; [split; [unfold zlen; rewrite map_length; exact Lu|]|constructor]. apply Forall_map. eapply Forall_impl; [|exact Fu]. intros x Hx. apply (float_lane EF32 _ F32). apply Pr. apply (float_lane EF32 _ F32). exact Hx. }
  cbn [length] in Rr, Mr. rewrite Rr. f_equal. f_equal. apply lanewise1; [unfold zlen in *; lia|]. intros k a Ha. apply (Mr k [rsqrt_of fs rsq (f_sqrt fmt32 (a mod 2 ^ 31))]). constructor; [|constructor].
  rewrite Eu, map_map. apply (znth_lanes (fun x => rsqrt_of fs rsq (f_sqrt fmt32 (x mod 2 ^ 31))) v k a Ha).
Qed.

Lemma threes_ok : forall r x, (forall y, f_pattern fmt32 y -> f_pattern fmt32 (r y) /\ rsqrt_estimate fmt32 y (r y)) -> f_pattern fmt32 x -> is_finite fmt32 x -> 10015 * fone fmt32 <= 10000 * Z.abs (fvalue fmt32 x) -> threes_lane r x = 1077936128.
Proof.
  intros r x Hr Hx Hf Hv. destruct (abs_pattern x Hx) as [Pa Va]. destruct (Va Hf) as [Fa Ea]. rewrite <- Ea in Hv. destruct (root_large _ Pa Fa Hv) as (Ps & Fs & Vs). destruct (Hr _ Ps) as [Pz Ez].
  pose proof (estimate_one _ _ Ps Fs Vs Pz Ez) as C. unfold threes_lane, after_rsqrt. cbn [meaning type_of Nat.ltb Nat.leb nth]. rewrite C. vm_compute. reflexivity.
Qed.

Lemma c91_closure : forall (fs : features) (tie : bool) (rcp rsq narrow : Z -> Z) (l0 : packed_line) (v : list Z),
  target fs -> (forall x, f_pattern fmt32 x -> f_pattern fmt32 (rsq x)) -> natural fs "f32s" = [l0] -> zlen v = p_width l0 -> Forall (lane EF32) v ->
  exists r, threes_in fs tie rcp rsq narrow v = Some (Ok r) /\ zlen r = p_width l0.
Proof. intros fs tie rcp rsq narrow l0 v T Hr N0 Lv Fv. eexists. split; [apply (threes_run fs tie rcp rsq narrow l0 v T Hr N0 Lv Fv)|]. unfold zlen in *. rewrite map_length. exact Lv. Qed.

Lemma c91_threes : forall (fs : features) (c : config) (tie : bool) (rcp rsq narrow : Z -> Z) (l d : list Z) (l0 : packed_line) (E : Type) (func : E -> list Z -> list Z * E) (env : E) (fuel : nat),
  target fs -> (forall x, f_pattern fmt32 x -> f_pattern fmt32 (rsq x) /\ rsqrt_estimate fmt32 x (rsq x)) -> natural fs "f32s" = [l0] ->
  Forall (lane EF32) l -> Forall (fun x => is_finite fmt32 x /\ 10015 * fone fmt32 <= 10000 * Z.abs (fvalue fmt32 x)) l ->
  zlen d = p_width l0 -> Forall (lane EF32) d -> zlen l * p_size l0 + 32 <= isize_max -> (length l < fuel)%nat ->
  (forall e v, zlen v = p_width l0 -> Forall (lane EF32) v -> threes_in fs tie rcp rsq narrow v = Some (Ok (fst (func e v)))) ->
  exists s', scalar_collect c (map_iterator c (slice_iterator c (vty_of l0)) (vty_of l0) 0 func) 0 fuel (mkSIMDMap (simd_iter l d) env) = Ok (map (fun _ => Some 1077936128) l, s').
Proof.
  intros fs c tie rcp rsq narrow l d l0 E func env fuel T Hr N0 Fl Hl Ld Fd Cap Hfu Hrun. assert (P : In EF32 primitives) by (cbn; tauto). assert (F32 : EF32 = EF32 \/ EF32 = EF64) by tauto.
  destruct (natural_vty fs EF32 l0 T P N0) as (V0 & W0 & S0 & C0).
  destruct (c72_map Z Z E c (vty_of l0) (vty_of l0) l d (lane EF32) (fun x y => is_finite fmt32 x -> 10015 * fone fmt32 <= 10000 * Z.abs (fvalue fmt32 x) -> y = 1077936128) func env 0 fuel V0 V0 eq_refl eq_refl) as (out & s' & R & F); try assumption.
  - unfold vty_of in C0 |- *. cbn [WIDTH SIZE] in C0 |- *. lia.
  - intros e v Lv Fv. pose proof (Hrun e v Lv Fv) as R. rewrite (threes_run fs tie rcp rsq narrow l0 v T (fun x Hx => proj1 (Hr x Hx)) N0 Lv Fv) in R. injection R as R. rewrite <- R. apply Forall2_map_r. intros x Hx Fx Vx. apply threes_ok; try assumption.
    + intros y Hy. unfold rsqrt_of. destruct (fs _); [apply Hr; exact Hy|apply rsq_satisfiable; exact Hy].
    + rewrite Forall_forall in Fv. apply (float_lane EF32 x F32). apply Fv. exact Hx.
  - exists s'. rewrite R. f_equal. f_equal. clear -F Hl. induction F as [|a y l out K F IH]; [reflexivity|]. cbn [map]. inversion Hl as [|? ? [H1 H2] Hl']; subst. rewrite (K H1 H2), IH by exact Hl'. reflexivity.
Qed.

Lemma c91_scalar : forall x, lane EF32 x -> is_finite fmt32 x -> 10015 * fone fmt32 <= 10000 * Z.abs (fvalue fmt32 x) -> threes_scalar x = 1077936128.
Proof.
  assert (G : forall z, f_pattern fmt32 z -> f_sub fmt32 (f_sub fmt32 (f_mul fmt32 1091567616 (f_sqrt fmt32 (f_ceil fmt32 z))) 1082130432) 1073741824 = meaning EF32 1 ieee_arith ieee_sqrt after_rsqrt [z]).
  { intros z Hz. pose proof (integral_ok fmt32 fmt32_ok Ceil z Hz) as I. cbv beta iota in I. rewrite I. unfold after_rsqrt, ieee_sqrt. cbn [meaning type_of Nat.ltb Nat.leb nth ieee_arith el_fmt]. reflexivity. }
  intros x Hx Hf Hv. apply (float_lane EF32 x ltac:(tauto)) in Hx. rewrite <- (threes_ok (f_rsqrt fmt32) x rsq_satisfiable Hx Hf Hv). unfold threes_scalar, threes_lane. cbv zeta.
  destruct (abs_pattern x Hx) as [Pa _]. pose proof (proj1 (sqrt_ok fmt32 fmt32_ok ltac:(vm_compute; discriminate) _ Pa)) as Ps. apply (G _ (proj1 (rsq_satisfiable _ Ps))).
Qed.

Lemma map_splat : forall (g : Z -> Z) w x, map g (splat w x) = splat w (g x).
Proof. intros g w x. unfold splat. induction (Z.to_nat w) as [|n IH]; [reflexivity|]. cbn [repeat map]. rewrite IH. reflexivity. Qed.

Lemma c91_at_one : exists rsq : Z -> Z, (forall x, f_pattern fmt32 x -> f_pattern fmt32 (rsq x) /\ rsqrt_estimate fmt32 x (rsq x)) /\
  forall (fs : features) (tie : bool) (rcp narrow : Z -> Z) (l0 : packed_line), target fs -> natural fs "f32s" = [l0] ->
  exists y, threes_in fs tie rcp rsq narrow (splat (p_width l0) 1065353216) = Some (Ok (splat (p_width l0) y)) /\ (y = 1077936128 <-> fs "sse"%string = false).
Proof.
  exists (fun x => if x =? 1065353216 then 1065353217 else f_rsqrt fmt32 x). split.
  - intros x Hx. destruct (x =? 1065353216) eqn:E; [|apply rsq_satisfiable; exact Hx]. apply Z.eqb_eq in E. subst x. split; [vm_compute; split; congruence|].
    split; [intros [C _]; vm_compute in C; discriminate|]. split; [intros _ C; vm_compute in C; discriminate|]. split; [intros _ C; vm_compute in C; discriminate|]. split; [intros [C _]; vm_compute in C; discriminate|]. intros _ _. split; [vm_compute; discriminate|]. split; [vm_compute; reflexivity|]. cbv zeta. split; vm_compute; discriminate.
  - intros fs tie rcp narrow l0 T N0. assert (P : In EF32 primitives) by (cbn; tauto). destruct (natural_vty fs EF32 l0 T P N0) as (V0 & W0 & _). pose proof (vty_ok_facts _ V0) as (F1 & _). change (WIDTH (vty_of l0)) with (p_width l0) in *.
    destruct (splat_lanes (lane EF32) (p_width l0) 1065353216 ltac:(lia) ltac:(vm_compute; split; congruence)) as (L1 & L2 & _). eexists. split.
    + rewrite (threes_run fs tie rcp (fun x => if x =? 1065353216 then 1065353217 else f_rsqrt fmt32 x) narrow l0 _ T); [rewrite map_splat; reflexivity| |exact N0|exact L1|exact L2].
      intros x Hx. destruct (x =? 1065353216); [vm_compute; split; congruence|exact (proj1 (rsq_satisfiable x Hx))].
    + assert (B : fs (if register fs =? 16 then "sse"%string else "avx"%string) = fs "sse"%string).
      { unfold register. destruct (fs "avx2"%string) eqn:A; [|reflexivity]. cbn [Z.eqb Pos.eqb]. destruct T as [T _]. assert (Up : forall hi lo, In (hi, lo) levels -> fs hi = true -> fs lo = true) by exact T.
        assert (A1 : fs "avx"%string = true) by (apply (Up "avx2"%string); [cbn; tauto|exact A]). rewrite A1. symmetry.
        apply (Up "sse2"%string); [cbn; tauto|]. apply (Up "sse3"%string); [cbn; tauto|]. apply (Up "ssse3"%string); [cbn; tauto|]. apply (Up "sse4.1"%string); [cbn; tauto|]. apply (Up "sse4.2"%string); [cbn; tauto|]. apply (Up "avx"%string); [cbn; tauto|exact A1]. }
      unfold threes_lane, rsqrt_of. rewrite B. destruct (fs "sse"%string); [|split; intros _; [reflexivity|vm_compute; reflexivity]]. split; [intros C; vm_compute in C; discriminate|discriminate].
Qed.

(** Mapping before reducing, fused: reducing with a closure that maps the vector first is
    reducing the mapped slice. *)
Lemma map_fused : forall (A C R : Type) (c : config) (ty : vty) (l d : list A) (g : A -> C) (start : R) (f : R -> list C -> R) (fuel : nat),
  vty_ok ty -> slice_ok ty l -> zlen d = WIDTH ty -> (length l < fuel)%nat ->
  exists acc s s', simd_reduce (slice_iterator c ty) fuel (simd_iter l d) start (fun r v => f r (map g v)) = Ok (acc, s) /\
    simd_reduce (slice_iterator c ty) fuel (simd_iter (map g l) (map g d)) start f = Ok (acc, s').
Proof.
  intros A C R c ty l d g start f fuel T L D Hf. pose proof (vty_ok_facts _ T) as (H1 & _). assert (Lg : forall a : list A, zlen (map g a) = zlen a) by (intros a; unfold zlen; rewrite map_length; reflexivity).
  destruct (c06_reduce A R c ty l d 0 start (fun r v => f r (map g v)) fuel T L D) as (vs1 & r1 & [Hc1 Hc1'] & Hr1 & _ & Hred1 & _); [pose proof (zlen_nonneg l); lia|left; reflexivity|exact Hf|].
  destruct (c06_reduce C R c ty (map g l) (map g d) 0 start f fuel T) as (vs & rs & [Hc Hc'] & Hrs & _ & Hred & _); [unfold slice_ok; rewrite Lg; exact L|rewrite Lg; exact D|rewrite Lg; pose proof (zlen_nonneg l); lia|left; reflexivity|rewrite map_length; exact Hf|].
  cbn [Z.to_nat skipn] in Hc', Hc1'. assert (U : map (map g) vs1 = vs /\ map g r1 = rs).
  { apply (chunked_unique (WIDTH ty) (map g l)); [lia| |split; assumption|rewrite Lg; exact Hr1|exact Hrs]. split; [apply Forall_map; eapply Forall_impl; [|exact Hc1]; intros v Hv; cbv beta in *; rewrite Lg; exact Hv|].
    rewrite <- Hc1', map_app, concat_map. reflexivity. }
  destruct U as [<- <-]. eexists. eexists. eexists. split; [exact Hred1|]. unfold simd_iter. rewrite Hred. f_equal. f_equal. rewrite !fold_left_app.
  assert (Ef : forall (us : list (list A)) i, fold_left f (map (map g) us) i = fold_left (fun r v => f r (map g v)) us i) by (induction us as [|u us IH]; intros i; [reflexivity|]; cbn [map fold_left]; apply IH). rewrite Ef.
  destruct r1 as [|x r1]; [reflexivity|]. cbn [map fold_left]. f_equal. unfold right_aligned. rewrite map_app, firstn_map. cbn [map length]. rewrite !map_length. reflexivity.
Qed.

Lemma firstn_within : forall (A : Type) n (l : list A) x, In x (firstn n l) -> In x l.
Proof. intros A. induction n as [|n IH]; intros [|y l] x H; cbn [firstn In] in *; try contradiction. destruct H as [->|H]; [left; reflexivity|right; apply IH; exact H]. Qed.

(** Two closures that agree on the vectors a reduction can pass to them. *)
Lemma reduce_same : forall (c : config) (ty : vty) (l d : list Z) (P : Z -> Prop) (Q : list Z -> Prop) (start : list Z) (f f' : list Z -> list Z -> list Z) (fuel : nat),
  vty_ok ty -> slice_ok ty l -> zlen d = WIDTH ty -> Forall P l -> Forall P d -> (length l < fuel)%nat -> Q start ->
  (forall a v, Q a -> zlen v = WIDTH ty -> Forall P v -> f a v = f' a v /\ Q (f a v)) ->
  simd_reduce (slice_iterator c ty) fuel (simd_iter l d) start f = simd_reduce (slice_iterator c ty) fuel (simd_iter l d) start f'.
Proof.
  intros c ty l d P Q start f f' fuel T L D Fl Fd Hf Q0 Hq. pose proof (vty_ok_facts _ T) as (H1 & _). pose proof (zlen_nonneg l) as L0.
  destruct (c06_reduce Z (list Z) c ty l d 0 start f fuel T L D ltac:(lia) (or_introl eq_refl) Hf) as (vs & r & C & Hr & _ & R & _).
  destruct (c06_reduce Z (list Z) c ty l d 0 start f' fuel T L D ltac:(lia) (or_introl eq_refl) Hf) as (vs' & r' & C' & Hr' & _ & R' & _).
  cbn [Z.to_nat skipn] in C, C'. destruct (chunked_unique (WIDTH ty) l ltac:(lia) vs r vs' r' C C' Hr Hr') as [<- <-]. unfold simd_iter. rewrite R, R'. f_equal. f_equal. destruct C as [C1 C2].
  assert (A : Forall (fun v => zlen v = WIDTH ty /\ Forall P v) (vs ++ match r with [] => [] | _ => [right_aligned d r] end)).
  { rewrite <- C2 in Fl. apply Forall_app in Fl. destruct Fl as [Fv Fr]. apply Forall_app. split.
    - clear -C1 Fv. induction C1 as [|v vs Hv C1 IH]; [constructor|]. cbn [concat] in Fv. apply Forall_app in Fv. constructor; [split; [exact Hv|apply Fv]|apply IH; apply Fv].
    - destruct r as [|x r]; [constructor|]. constructor; [|constructor]. unfold right_aligned. split; [unfold zlen in *; rewrite app_length, firstn_length; lia|]. apply Forall_app. split; [|exact Fr]. apply Forall_forall. intros y Hy. rewrite Forall_forall in Fd. apply Fd. revert Hy. apply firstn_within. }
  revert Q0. generalize start. clear -A Hq. induction A as [|v us [Lv Fv] A IH]; intros i Hi; [reflexivity|]. cbn [fold_left]. destruct (Hq i v Hi Lv Fv) as [E1 E2]. rewrite <- E1. apply IH. exact E2.
Qed.

Lemma c91_sum_closure : forall (fs : features) (c : config) (tie : bool) (narrow : Z -> Z) (e : elty) (x : expr) (g : Z -> Z) (l d : list Z) (l0 : packed_line) (func : list Z -> list Z -> list Z) (fuel : nat),
  let zero := splat (p_width l0) 0 in
  target fs -> e = EF32 \/ e = EF64 -> natural fs (el_name e ++ "s") = [l0] -> type_of e 2 x = Some e ->
  (forall a v, lane e a -> lane e v -> lane e (g v) /\ meaning e 2 ieee_arith ieee_sqrt x [a; v] = ieee_add e a (g v)) ->
  Forall (lane e) l -> zlen d = p_width l0 -> Forall (fun v => lane e v /\ g v = 0) d -> zlen l * p_size l0 <= isize_max -> (length l < fuel)%nat ->
  (forall a v, zlen a = p_width l0 -> zlen v = p_width l0 -> Forall (lane e) a -> Forall (lane e) v -> run fs tie ieee_arith ieee_sqrt narrow e 2 x [a; v] = Some (Ok (func a v))) ->
  exists acc s s', simd_reduce (slice_iterator c (vty_of l0)) fuel (simd_iter l d) zero func = Ok (acc, s) /\
    simd_reduce (slice_iterator c (vty_of l0)) fuel (simd_iter (map g l) zero) zero (fun a v => map2 (ieee_add e) a v) = Ok (acc, s').
Proof.
  intros fs c tie narrow e x g l d l0 func fuel zero T He N0 Tx Hg Fl Ld Fd Cap Hfu Hrun. assert (P : In e primitives) by (destruct He as [-> | ->]; cbn; tauto). destruct ieee_lanes as [Hf Hs].
  destruct (natural_vty fs e l0 T P N0) as (V0 & W0 & S0 & C0). pose proof (vty_ok_facts _ V0) as (F1 & _). change (WIDTH (vty_of l0)) with (p_width l0) in *.
  assert (Cx : forall a v, zlen a = p_width l0 -> zlen v = p_width l0 -> Forall (lane e) a -> Forall (lane e) v -> func a v = map2 (ieee_add e) a (map g v) /\ zlen (map2 (ieee_add e) a (map g v)) = p_width l0 /\ Forall (lane e) (map2 (ieee_add e) a (map g v))).
  { intros a v La Lv Fa Fv. destruct (c83_closure fs tie ieee_arith ieee_sqrt narrow e e x [a; v] l0 l0 T P Hf Hs Tx N0 N0 ltac:(discriminate)) as (r & Rr & Lr & Fr & M); [repeat constructor; assumption|].
    cbn [length] in Rr, M. rewrite (Hrun a v La Lv Fa Fv) in Rr. injection Rr as Rr. rewrite Rr. assert (Em : r = map2 (ieee_add e) a (map g v)).
    { apply meaning2; [unfold zlen in *; lia|unfold zlen in *; rewrite map_length; lia|]. intros k p q Hp Hq.
      destruct (znth_some v k) as [q' Hq']; [pose proof (znth_Some_lt _ _ _ Hp); lia|]. pose proof (znth_lanes g v k q' Hq') as Hq2. rewrite Hq in Hq2. injection Hq2 as ->. rewrite (M k [p; q']) by (constructor; [exact Hp|constructor; [exact Hq'|constructor]]).
      f_equal. apply Hg; [exact (proj1 (Forall_forall _ _) Fa _ (OpProofs.znth_In _ _ _ _ Hp))|exact (proj1 (Forall_forall _ _) Fv _ (OpProofs.znth_In _ _ _ _ Hq'))]. }
    split; [exact Em|]. rewrite <- Em. split; [exact Lr|exact Fr]. }
  assert (Z1 : zlen zero = p_width l0 /\ Forall (lane e) zero) by (destruct (splat_lanes (lane e) (p_width l0) 0 ltac:(lia) ltac:(destruct He as [-> | ->]; vm_compute; split; congruence)) as (A & B & _); split; assumption).
  destruct (map_fused Z Z (list Z) c (vty_of l0) l d g zero (fun a v => map2 (ieee_add e) a v) fuel V0) as (acc & s & s' & R1 & R2); [unfold slice_ok, vty_of; cbn [SIZE]; exact Cap|exact Ld|exact Hfu|].
  exists acc, s, s'. split.
  - rewrite <- R1. apply (reduce_same c (vty_of l0) l d (lane e) (fun a => zlen a = p_width l0 /\ Forall (lane e) a)); try assumption.
    + eapply Forall_impl; [|exact Fd]. intros v [Hv _]. exact Hv.
    + intros a v [La Fa] Lv Fv. destruct (Cx a v La Lv Fa Fv) as (E1 & E2 & E3). split; [exact E1|]. rewrite E1. split; assumption.
  - rewrite <- R2. replace (map g d) with zero; [reflexivity|]. unfold zero, splat. clear -Ld Fd. replace (Z.to_nat (p_width l0)) with (length d) by (unfold zlen in Ld; lia). clear Ld. induction Fd as [|v d [_ Hv] F IH]; [reflexivity|]. cbn [length repeat map]. rewrite Hv, IH. reflexivity.
Qed.

Lemma c91_whole_sum : forall (fs : features) (c : config) (tie : bool) (narrow : Z -> Z) (e : elty) (x : expr) (g : Z -> Z) (l d : list Z) (l0 : packed_line) (func : list Z -> list Z -> list Z) (fuel : nat),
  let f := fmt_of e in let zero := splat (p_width l0) 0 in
  target fs -> e = EF32 \/ e = EF64 -> natural fs (el_name e ++ "s") = [l0] -> type_of e 2 x = Some e ->
  (forall a v, lane e a -> lane e v -> lane e (g v) /\ meaning e 2 ieee_arith ieee_sqrt x [a; v] = ieee_add e a (g v)) ->
  Forall (lane e) l -> zlen d = p_width l0 -> Forall (fun v => lane e v /\ g v = 0) d -> zlen l * p_size l0 <= isize_max -> (length l < fuel)%nat ->
  (forall a v, zlen a = p_width l0 -> zlen v = p_width l0 -> Forall (lane e) a -> Forall (lane e) v -> run fs tie ieee_arith ieee_sqrt narrow e 2 x [a; v] = Some (Ok (func a v))) ->
  Forall (fun v => is_finite f (g v) /\ (fone f | fvalue f (g v))) l -> magnitudes f (map g l) < parts f * fone f ->
  exists acc s r, simd_reduce (slice_iterator c (vty_of l0)) fuel (simd_iter l d) zero func = Ok (acc, s) /\
    sum_in fs ieee_add c (p_vec l0) acc = Some (Ok r) /\ finite_lane e r /\ fvalue f r = exact_sum f (map g l).
Proof.
  intros fs c tie narrow e x g l d l0 func fuel f zero T He N0 Tx Hg Fl Ld Fd Cap Hfu Hrun Hw Hm.
  destruct (c91_sum_closure fs c tie narrow e x g l d l0 func fuel T He N0 Tx Hg Fl Ld Fd Cap Hfu Hrun) as (acc & s & s' & R1 & R2). fold zero in R1, R2.
  assert (H0 : lane e 0) by (destruct He as [-> | ->]; vm_compute; split; congruence).
  assert (J : exists j, fone f = 2 ^ j /\ 0 <= j <= 2 ^ f_e f - 3) by (unfold f; destruct He as [-> | ->]; [exists 149|exists 1074]; (split; [reflexivity|vm_compute; split; discriminate])). destruct J as (j & J1 & J2).
  destruct (c86_sum_exact fs c e (map g l) l0 fuel j T He N0) as (acc' & s1 & r & Q1 & Q2 & Q3 & Q4).
  - unfold zlen in *. rewrite map_length. exact Cap.
  - rewrite map_length. exact Hfu.
  - apply Forall_map. rewrite Forall_forall in *. intros v Hv. assert (Pv : f_pattern f (g v)) by (apply (float_lane e _ He); apply (Hg 0 v H0 (Fl v Hv))). specialize (Hw v Hv). unfold f in *. destruct He as [-> | ->]; cbn [finite_lane fmt_of] in *; tauto.
  - exact J2.
  - apply Forall_map. rewrite <- J1. eapply Forall_impl; [|exact Hw]. intros v [_ Hv]. exact Hv.
  - fold f. rewrite J1 in Hm. unfold parts in Hm. rewrite Z.pow_add_r by (unfold f; destruct He as [-> | ->]; cbn; lia). exact Hm.
  - fold zero in Q1. rewrite R2 in Q1. injection Q1 as <- <-. exists acc, s, r. split; [exact R1|]. split; [exact Q2|]. split; [exact Q3|exact Q4].
Qed.

Lemma root_finite : forall f, fmt_ok f -> f_m f + 3 <= 2 ^ (f_e f - 1) - 1 -> forall x, f_pattern f x -> is_finite f x -> 0 <= fvalue f x -> f_pattern f (f_sqrt f x) /\ is_finite f (f_sqrt f x) /\ 0 <= fvalue f (f_sqrt f x).
Proof.
  intros f Hok HB x Hx Hf Hv. destruct (sqrt_ok f Hok HB x Hx) as (P & _ & _ & S3 & _ & S5). split; [exact P|]. destruct (Z.eq_dec (fvalue f x) 0) as [Z0|Z0]; [rewrite (S3 Hf Z0); split; [exact Hf|lia]|].
  destruct (S5 Hf ltac:(lia)) as (_ & N & G & R). split; [|exact G]. set (s := f_sqrt f x) in *. clearbody s. pose proof (fone_pos f Hok) as O. destruct (one_ok f Hok) as (O1 & O2 & O3).
  assert (Nn : forall y, is_finite f y -> ~ is_nan f y) by (intros y Fy [C _]; exact (Fy C)).
  assert (L : forall y, f_pattern f y -> is_finite f y -> 0 <= fvalue f y -> fvalue f x * fone f <= fvalue f y * fvalue f y -> is_finite f s).
  { intros y Py Fy Gy Hy. destruct (R y Py (Nn y Fy) Gy) as (_ & R2 & _). cbv zeta in R2. assert (Ls : fvalue f s <= fvalue f y) by (destruct (Z_le_dec (fvalue f s) (fvalue f y)) as [K|K]; [exact K|]; specialize (R2 ltac:(lia)); nia).
    apply (finite_small f Hok s P N). destruct (inf_value f Hok y Py) as (_ & I & _). specialize (I Fy). pose proof (value_sg f Hok y Py) as Vy. pose proof (value_sg f Hok s P) as Vs. pose proof (absval_nonneg f Hok y Py). pose proof (absval_nonneg f Hok s P).
    destruct (f_sign f y), (f_sign f s); cbn [sg] in Vy, Vs; lia. }
  destruct (Z_le_dec (fone f) (fvalue f x)) as [K|K]; [apply (L x Hx Hf Hv); nia|]. apply (L (f_one f) O1 O2); rewrite O3; nia.
Qed.

Lemma floor_finite : forall f, fmt_ok f -> forall x, f_pattern f x -> is_finite f x -> f_pattern f (integral Floor f x) /\ is_finite f (integral Floor f x) /\ fvalue f (integral Floor f x) = fone f * (fvalue f x / fone f).
Proof.
  intros f Hok x Hx Hf. rewrite <- (integral_ok f Hok Floor x Hx). destruct (floor_ok f Hok x Hx) as [R _]. destruct (R Hf) as (R1 & _ & R3). split; [apply (integral_pattern f Hok); exact Hx|]. split; [exact R1|exact R3].
Qed.

Lemma abs_finite : forall e x, e = EF32 \/ e = EF64 -> lane e x -> lane e (x mod 2 ^ (bits_of e - 1)) /\ (is_finite (fmt_of e) x -> is_finite (fmt_of e) (x mod 2 ^ (bits_of e - 1)) /\ 0 <= fvalue (fmt_of e) (x mod 2 ^ (bits_of e - 1))).
Proof.
  intros e x He Hx. set (f := fmt_of e). assert (Hk : fmt_ok f) by apply fmt_of_ok. assert (Bp : bits_of e - 1 = f_e f + f_m f) by (unfold f; destruct He as [-> | ->]; reflexivity). rewrite Bp. assert (Px : f_pattern f x) by (apply (float_lane e x He); exact Hx).
  pose proof (E_pos f Hk) as HE. pose proof (M_pos f Hk) as HM. assert (P2 : 2 ^ (f_e f + f_m f) = 2 ^ f_e f * 2 ^ f_m f) by apply (EM f Hk). assert (Q : 0 < 2 ^ f_e f * 2 ^ f_m f) by (apply Z.mul_pos_pos; lia).
  assert (Mb : 0 <= x mod 2 ^ (f_e f + f_m f) < 2 ^ (f_e f + f_m f)) by (apply Z.mod_pos_bound; lia).
  assert (Pa : f_pattern f (x mod 2 ^ (f_e f + f_m f))) by (unfold f_pattern; rewrite (EM1 f Hk); rewrite P2 in Mb; lia). split; [apply (float_lane e _ He); exact Pa|].
  assert (E1 : exponent_field f (x mod 2 ^ (f_e f + f_m f)) = exponent_field f x).
  { unfold exponent_field. rewrite P2. rewrite (Z.mod_eq x) by lia. replace (x - 2 ^ f_e f * 2 ^ f_m f * (x / (2 ^ f_e f * 2 ^ f_m f))) with (x + - (x / (2 ^ f_e f * 2 ^ f_m f)) * 2 ^ f_e f * 2 ^ f_m f) by ring. rewrite Z.div_add by lia. apply Z.mod_add. lia. }
  intros Fx. split; [unfold is_finite; rewrite E1; exact Fx|]. destruct (mag_fields f Hk _ Pa) as (_ & G2 & G3 & G4).
  assert (S : sign_bit f (x mod 2 ^ (f_e f + f_m f)) = 0) by (unfold sign_bit; rewrite (Z.add_comm (f_m f)); apply Z.div_small; exact Mb). unfold fvalue. rewrite S. cbn [Z.eqb]. rewrite Z.mul_1_l. destruct (exponent_field f _ =? 0) eqn:X; [lia|]. apply Z.mul_nonneg_nonneg; [lia|apply Z.pow_nonneg; lia].
Qed.

Lemma c91_fourth_roots : forall (fs : features) (c : config) (tie : bool) (narrow : Z -> Z) (e : elty) (l : list Z) (l0 : packed_line) (func : list Z -> list Z -> list Z) (fuel : nat),
  let f := fmt_of e in let zero := splat (p_width l0) 0 in let whole x := fvalue f (f_sqrt f (f_sqrt f (x mod 2 ^ (bits_of e - 1)))) / fone f in
  target fs -> e = EF32 \/ e = EF64 -> natural fs (el_name e ++ "s") = [l0] -> Forall (finite_lane e) l -> zlen l * p_size l0 <= isize_max -> (length l < fuel)%nat ->
  (forall a v, zlen a = p_width l0 -> zlen v = p_width l0 -> Forall (lane e) a -> Forall (lane e) v -> run fs tie ieee_arith ieee_sqrt narrow e 2 add_fourth_root [a; v] = Some (Ok (func a v))) ->
  total (map whole l) < parts f ->
  exists acc s r, simd_reduce (slice_iterator c (vty_of l0)) fuel (simd_iter l zero) zero func = Ok (acc, s) /\
    sum_in fs ieee_add c (p_vec l0) acc = Some (Ok r) /\ finite_lane e r /\ fvalue f r = fone f * total (map whole l).
Proof.
  intros fs c tie narrow e l l0 func fuel f zero whole T He N0 Fl Cap Hfu Hrun Hm. assert (Hk : fmt_ok f) by apply fmt_of_ok. pose proof (bias_bits e) as Hb. assert (P : In e primitives) by (destruct He as [-> | ->]; cbn; tauto).
  destruct (natural_vty fs e l0 T P N0) as (V0 & _). pose proof (vty_ok_facts _ V0) as (F1 & _). change (WIDTH (vty_of l0)) with (p_width l0) in *. pose proof (fone_pos f Hk) as O.
  set (g := fun x => integral Floor f (f_sqrt f (f_sqrt f (x mod 2 ^ (bits_of e - 1))))).
  assert (Fin : forall x, finite_lane e x -> lane e x /\ is_finite f x) by (intros x Hx; unfold f; destruct He as [-> | ->]; cbn [finite_lane fmt_of] in Hx |- *; (split; [apply float_lane; tauto|tauto])).
  assert (Roots : forall x, lane e x -> f_pattern f (f_sqrt f (f_sqrt f (x mod 2 ^ (bits_of e - 1))))).
  { intros x Hx. destruct (abs_finite e x He Hx) as [Pa _]. apply (float_lane e _ He) in Pa. exact (proj1 (sqrt_ok f Hk Hb _ (proj1 (sqrt_ok f Hk Hb _ Pa)))). }
  assert (Gp : forall x, lane e x -> lane e (g x)) by (intros x Hx; apply (float_lane e _ He); unfold g; rewrite <- (integral_ok f Hk Floor) by (apply Roots; exact Hx); apply (integral_pattern f Hk); apply Roots; exact Hx).
  assert (Gv : forall x, finite_lane e x -> is_finite f (g x) /\ fvalue f (g x) = fone f * whole x /\ 0 <= whole x).
  { intros x Hx. destruct (Fin x Hx) as [Hl Hf]. destruct (abs_finite e x He Hl) as [Pa Fa]. apply (float_lane e _ He) in Pa. destruct (Fa Hf) as [F0 G0]. destruct (root_finite f Hk Hb _ Pa F0 G0) as (Pb & F2 & G2). destruct (root_finite f Hk Hb _ Pb F2 G2) as (Pc & F3 & G3).
    destruct (floor_finite f Hk _ Pc F3) as (_ & F4 & G4). split; [exact F4|]. split; [exact G4|]. apply Z.div_pos; [exact G3|lia]. }
  assert (El : forall vs, Forall (finite_lane e) vs -> exact_sum f (map g vs) = fone f * total (map whole vs) /\ magnitudes f (map g vs) = fone f * total (map whole vs)).
  { unfold exact_sum, magnitudes. induction 1 as [|v vs Hv _ [I1 I2]]; [cbn; lia|]. cbn [map]. rewrite !total_cons, I1, I2. destruct (Gv v Hv) as (_ & -> & W). rewrite Z.abs_eq by (apply Z.mul_nonneg_nonneg; lia). lia. }
  destruct (El l Fl) as [E1 E2]. rewrite <- E1. apply (c91_whole_sum fs c tie narrow e add_fourth_root g l zero l0 func fuel T He N0); try assumption.
  - destruct He as [-> | ->]; reflexivity.
  - intros a v Ha Hv. split; [apply Gp; exact Hv|]. unfold g, f. destruct He as [-> | ->]; reflexivity.
  - eapply Forall_impl; [|exact Fl]. intros x Hx. apply (Fin x Hx).
  - unfold zero, splat, zlen. rewrite repeat_length. lia.
  - unfold zero, splat. apply Forall_forall. intros y Hy. apply repeat_spec in Hy. rewrite Hy. unfold g, f. destruct He as [-> | ->]; (split; [vm_compute; split; congruence|vm_compute; reflexivity]).
  - eapply Forall_impl; [|exact Fl]. intros x Hx. destruct (Gv x Hx) as (G1 & G2 & _). split; [exact G1|]. exists (whole x). etransitivity; [exact G2|]. unfold f. ring.
  - fold f. rewrite E2. nia.
Qed.
