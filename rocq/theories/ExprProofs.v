(** Proofs of the properties: programs return the same in every build (C83). *)
From Coq Require Import String.
From Verif Require Import Base Spec VecSpec Vecs Iters Zip ZipSpec Stride GateTables GateSpec Gates Lanes Floats FloatSpec OpTables Ops OpSpec Tables Shuffles PortTables Ports PortSpec SumTables Sums SumSpec Builds PipeSpec AvailSpec ExprSpec Exprs.
Open Scope list_scope.
Open Scope Z_scope.
From Coq Require Import Lia ZifyBool ZifyNat.
From Verif Require Import X86 FloatFacts RoundProofs ShuffleProofs VecProofs ListFacts VecFacts OpProofs PortProofs SumProofs GateProofs AvailProofs BuildProofs PipeProofs LoopProofs KernProofs DocProofs.
Ltac Zify.zify_post_hook ::= Z.div_mod_to_equations.

Lemma same_int_eq : forall s t, same_int s t = true -> s = t.
Proof. intros [a b] [c d] H. unfold same_int in H. cbn [isigned ibytes] in H. apply andb_prop in H. destruct H as [H1 H2]. apply Bool.eqb_prop in H1. apply Nat.eqb_eq in H2. subst. reflexivity. Qed.

Lemma same_type_eq : forall d e, same_type d e = true -> d = e.
Proof. intros [s| |] [t| |] H; try discriminate H; try reflexivity. f_equal. apply same_int_eq. exact H. Qed.

Lemma primitive_in : forall e, existsb (same_type e) primitives = true -> In e primitives.
Proof. intros e H. apply existsb_exists in H. destruct H as (d & Hd & E). apply same_type_eq in E. subst. exact Hd. Qed.

Ltac prim H := unfold primitives in H; cbn [In] in H; repeat (destruct H as [<-|H]); [..|destruct H].

Lemma unsigned_prim : forall e, In e primitives -> In (unsigned_of e) primitives /\ bits_of (unsigned_of e) = bits_of e.
Proof. intros e H. prim H; (split; [vm_compute; tauto|reflexivity]). Qed.

Lemma type_prim : forall e0 n, In e0 primitives -> forall x e, type_of e0 n x = Some e -> In e primitives /\ bits_of e = bits_of e0.
Proof.
  intros e0 n H0. induction x as [i|e' k|o a IHa b IHb|m a IHa b IHb|a IHa|a IHa|d' a IHa|a IHa|e' a IHa]; intros e H; cbn [type_of] in H.
  - destruct (i <? n)%nat; [|discriminate]. injection H as <-. split; [exact H0|reflexivity].
  - destruct (fits e' k && existsb (same_type e') primitives && (bits_of e' =? bits_of e0)) eqn:K; [|discriminate]. injection H as <-.
    apply andb_prop in K. destruct K as [K K2]. apply andb_prop in K. destruct K as [_ K]. split; [apply primitive_in; exact K|apply Z.eqb_eq; exact K2].
  - destruct (type_of e0 n a) as [d|]; [|discriminate]. destruct (type_of e0 n b) as [d'|]; [|discriminate]. destruct (same_type d d' && arith_for o d); [|discriminate]. injection H as <-. apply IHa. reflexivity.
  - destruct (type_of e0 n a) as [d|]; [|discriminate]. destruct (type_of e0 n b) as [d'|]; [|discriminate]. destruct (same_type d d' && method_for m d); [|discriminate]. injection H as <-.
    destruct (IHa d eq_refl) as [P B]. destruct m; cbn [result_of]; try (split; assumption); destruct (unsigned_prim d P) as [U V]; (split; [exact U|rewrite V; exact B]).
  - destruct (type_of e0 n a) as [d|]; [|discriminate]. destruct (IHa d eq_refl) as [P B]. destruct d as [t| |]; [|injection H as <-; split; assumption|injection H as <-; split; assumption].
    destruct (isigned t); [|discriminate]. injection H as <-. destruct (unsigned_prim _ P) as [U V]. split; [exact U|rewrite V; exact B].
  - destruct (type_of e0 n a) as [d|]; [|discriminate]. destruct (IHa d eq_refl) as [P B]. destruct d; try discriminate; injection H as <-; split; assumption.
  - destruct (type_of e0 n a) as [d|]; [|discriminate]. destruct (IHa d eq_refl) as [P B]. destruct d; try discriminate; injection H as <-; split; assumption.
  - destruct (type_of e0 n a) as [d|]; [|discriminate]. destruct (IHa d eq_refl) as [P B]. destruct d; try discriminate; injection H as <-; split; assumption.
  - destruct (type_of e0 n a) as [d|]; [|discriminate]. destruct (IHa d eq_refl) as [P B]. destruct (existsb (same_type e') primitives && (bits_of e' =? bits_of d)) eqn:K; [|discriminate]. injection H as <-.
    apply andb_prop in K. destruct K as [K K2]. split; [apply primitive_in; exact K|]. apply Z.eqb_eq in K2. rewrite K2. exact B.
Qed.

Lemma lane_in : forall e x, In e primitives -> (lane e x <-> in_ity (lane_ity e) x).
Proof.
  assert (F : forall b x, 0 <= x < b <-> 0 <= x <= b - 1) by (intros; lia). intros e x H. destruct e as [t| |]; [tauto| |]; exact (F _ x).
Qed.

Lemma lanes_in : forall e v, In e primitives -> (Forall (lane e) v <-> Forall (in_ity (lane_ity e)) v).
Proof. intros e v H. split; apply Forall_impl; intros x; apply (lane_in e x H). Qed.

Lemma lane_bytes : forall e, In e primitives -> (0 < ibytes (lane_ity e))%nat /\ 8 * Z.of_nat (ibytes (lane_ity e)) = bits_of e.
Proof. intros e H. prim H; (split; [cbn; lia|reflexivity]). Qed.

Lemma fits_lane : forall e x, fits e x = true -> lane e x.
Proof. intros [t| |] x H; unfold fits in H; unfold lane, in_ity; lia. Qed.

(** The register size of a build. *)
Definition register (fs : features) : Z := if fs "avx2"%string then 32 else 16.

Definition scalar_of (e : elty) : scalar :=
  mkScalar (el_name e) (match e with EInt t => if isigned t then Signed else Unsigned | _ => Float end) (bits_of e / 8).

Lemma scalar_of_in : forall e, In e primitives -> In (scalar_of e) scalars.
Proof. intros e H. prim H; vm_compute; tauto. Qed.

Lemma packed_columns : forallb (fun l => forallb (fun s => forallb (fun b => negb (String.eqb (p_vec l) (vector_name s b)) || ((p_width l =? b / sc_size s) && (p_size l =? sc_size s))) [16; 32]) scalars) x86_packed = true.
Proof. vm_compute. reflexivity. Qed.

Lemma in_filter {X : Type} f (l : list X) x : In x (filter f l) -> In x l.
Proof. intros H. apply filter_In in H. tauto. Qed.

Lemma in_natural : forall fs s l, In l (natural fs s) -> In l x86_packed.
Proof. intros fs s l. unfold natural. apply in_filter. Qed.

Lemma register_in : forall fs, In (register fs) [16; 32].
Proof. intros fs. unfold register. destruct (fs "avx2"%string); cbn [In]; tauto. Qed.

Lemma packed_line_ok : forall l s b, In l x86_packed -> In s scalars -> In b [16; 32] -> p_vec l = vector_name s b -> p_width l = b / sc_size s /\ p_size l = sc_size s.
Proof.
  intros l s b Hl Hs Hb E. pose proof packed_columns as K. rewrite forallb_forall in K. specialize (K l Hl). rewrite forallb_forall in K. specialize (K s Hs). rewrite forallb_forall in K. specialize (K b Hb).
  rewrite E, String.eqb_refl in K. cbn [negb orb] in K. apply andb_prop in K. destruct K as [K1 K2]. split; apply Z.eqb_eq; assumption.
Qed.

Lemma natural_line : forall fs e, target fs -> In e primitives -> exists l, natural fs (el_name e ++ "s") = [l] /\ natural_of fs e = Some l /\
  p_vec l = vector_name (scalar_of e) (register fs) /\ p_width l = register fs / (bits_of e / 8) /\ p_size l = bits_of e / 8.
Proof.
  intros fs e T H. destruct (natural_name fs (scalar_of e) T (scalar_of_in e H)) as (l & En & Ep). exists l. unfold alias in En. cbn [sc_name scalar_of] in En.
  split; [exact En|]. split; [unfold natural_of; rewrite En; reflexivity|]. split; [exact Ep|].
  apply (packed_line_ok l (scalar_of e) (register fs)); [|exact (scalar_of_in e H)|exact (register_in fs)|exact Ep].
  apply (in_natural fs (el_name e ++ "s")). rewrite En. left. reflexivity.
Qed.

Definition all_methods : list method := [Min; Max; SaturatingAdd; SaturatingSub; EqMask; NeMask].

Lemma method_columns : forallb (fun e => forallb (fun b => forallb (fun m => negb (method_for m e) ||
  match lookup (method_table m) (vector_name (scalar_of e) b) (method_name m) with
  | Some o => elty_eqb (op_el o) e && vty_eqb (op_ty o) (mkVty (b / (bits_of e / 8)) (bits_of e / 8)) && String.eqb (op_fn o) (method_name m)
  | None => false
  end) all_methods) [16; 32]) primitives = true.
Proof. vm_compute. reflexivity. Qed.

Lemma method_line : forall fs e m, In e primitives -> method_for m e = true -> exists o,
  lookup (method_table m) (vector_name (scalar_of e) (register fs)) (method_name m) = Some o /\ In o (method_table m) /\ op_el o = e /\ op_fn o = method_name m /\
  op_ty o = mkVty (register fs / (bits_of e / 8)) (bits_of e / 8).
Proof.
  intros fs e m H Hm. pose proof (proj1 (forallb_forall _ _) method_columns e H) as K. cbv beta in K.
  pose proof (register_in fs) as B.
  pose proof (proj1 (forallb_forall _ _) K (register fs) B) as K1. cbv beta in K1. assert (M : In m all_methods) by (destruct m; cbn; tauto).
  pose proof (proj1 (forallb_forall _ _) K1 m M) as K2. cbv beta in K2. rewrite Hm in K2. cbn [negb orb] in K2.
  destruct (lookup _ _ _) as [o|] eqn:L; [|discriminate]. exists o. split; [reflexivity|]. split; [exact (proj1 (find_some _ _ L))|].
  apply andb_prop in K2. destruct K2 as [K2 K4]. apply andb_prop in K2. destruct K2 as [K2 K3]. split; [apply elty_eqb_eq; exact K2|]. split; [apply String.eqb_eq; exact K4|apply vty_eqb_eq; exact K3].
Qed.

Definition is_fl (e : elty) : bool := match e with EInt _ => false | _ => true end.

Lemma sqrt_columns : forallb (fun e => forallb (fun b => negb (is_fl e) ||
  match lookup x86_sqrt (vector_name (scalar_of e) b) "sqrt" with
  | Some o => elty_eqb (op_el o) e && vty_eqb (op_ty o) (mkVty (b / (bits_of e / 8)) (bits_of e / 8))
  | None => false
  end) [16; 32]) primitives = true.
Proof. vm_compute. reflexivity. Qed.

Lemma sqrt_line : forall fs e, In e primitives -> is_fl e = true -> exists o,
  lookup x86_sqrt (vector_name (scalar_of e) (register fs)) "sqrt" = Some o /\ In o x86_sqrt /\ op_el o = e /\ op_ty o = mkVty (register fs / (bits_of e / 8)) (bits_of e / 8).
Proof.
  intros fs e H Hm. pose proof (proj1 (forallb_forall _ _) sqrt_columns e H) as K. cbv beta in K.
  pose proof (register_in fs) as B.
  pose proof (proj1 (forallb_forall _ _) K (register fs) B) as K2. cbv beta in K2. rewrite Hm in K2. cbn [negb orb] in K2.
  destruct (lookup _ _ _) as [o|] eqn:L; [|discriminate]. exists o. split; [reflexivity|]. split; [exact (proj1 (find_some _ _ L))|].
  apply andb_prop in K2. destruct K2 as [K2 K3]. split; [apply elty_eqb_eq; exact K2|apply vty_eqb_eq; exact K3].
Qed.

Definition abs_type (e : elty) : option elty := match e with EInt t => if isigned t then Some (unsigned_of e) else None | _ => Some e end.

Lemma abs_columns : forallb (fun e => forallb (fun b =>
  match abs_type e with
  | Some d =>
    existsb (fun p => String.eqb (pt_vec p) (vector_name (scalar_of e) b) && String.eqb (pt_outvec p) (vector_name (scalar_of d) b) && elty_eqb (pt_el p) e && elty_eqb (pt_out p) d &&
      vty_eqb (pt_ty p) (mkVty (b / (bits_of e / 8)) (bits_of e / 8))) x86_abs
  | None => true
  end) [16; 32]) primitives = true.
Proof. vm_compute. reflexivity. Qed.

Lemma abs_line : forall fs e d, In e primitives -> abs_type e = Some d -> exists p, In p x86_abs /\
  pt_vec p = vector_name (scalar_of e) (register fs) /\ pt_outvec p = vector_name (scalar_of d) (register fs) /\ pt_el p = e /\ pt_out p = d /\ pt_ty p = mkVty (register fs / (bits_of e / 8)) (bits_of e / 8).
Proof.
  intros fs e d H Hd. pose proof (proj1 (forallb_forall _ _) abs_columns e H) as K. cbv beta in K.
  pose proof (register_in fs) as B.
  pose proof (proj1 (forallb_forall _ _) K (register fs) B) as K2. cbv beta in K2. rewrite Hd in K2. apply existsb_exists in K2. destruct K2 as (p & Hp & K2). exists p. split; [exact Hp|].
  rewrite !andb_true_iff in K2. destruct K2 as [ [ [ [K2 K3] K4] K5] K6]. apply String.eqb_eq in K2, K3. apply elty_eqb_eq in K4, K5. apply vty_eqb_eq in K6. repeat split; assumption.
Qed.

Lemma forall_znth {X : Type} (P : X -> Prop) (l : list X) : (forall i x, znth l i = Some x -> P x) -> Forall P l.
Proof.
  intros H. apply Forall_forall. intros x Hx. apply In_nth_error in Hx. destruct Hx as [k Hk]. apply (H (Z.of_nat k)). apply znth_nat. exact Hk.
Qed.

Lemma lanewise_forall (g : Z -> Z -> Z) (P Q R : Z -> Prop) a b m : zlen a = zlen b -> lanewise g a b m -> Forall P a -> Forall Q b -> (forall x y, P x -> Q y -> R (g x y)) -> Forall R m.
Proof.
  intros Hab [Hl Hg] Ha Hb HR. apply forall_znth. intros i z Hz. pose proof (znth_Some_lt m i z Hz) as Hi.
  destruct (znth_exists a i ltac:(lia)) as [x Hx]. destruct (znth_exists b i ltac:(lia)) as [y Hy]. rewrite (Hg i x y Hx Hy) in Hz. injection Hz as <-.
  apply HR; [exact (proj1 (Forall_forall _ _) Ha x (znth_In _ _ _ _ Hx))|exact (proj1 (Forall_forall _ _) Hb y (znth_In _ _ _ _ Hy))].
Qed.

Lemma nan_pattern_iff : forall f x, nan_pattern f x = true <-> is_nan f x.
Proof. intros f x. unfold nan_pattern, is_nan. rewrite andb_true_iff, Z.eqb_eq, negb_true_iff, Z.eqb_neq. tauto. Qed.

Lemma same_number_iff : forall e x y, In e primitives -> (same_number e x y = true <-> equal_lanes e x y).
Proof.
  intros e x y H.
  assert (F : forall f, (negb (nan_pattern f x) && negb (nan_pattern f y) && (fvalue f x =? fvalue f y) = true <-> float_eq f x y)).
  { intros f. unfold float_eq. rewrite <- !nan_pattern_iff, !andb_true_iff, !negb_true_iff, Z.eqb_eq, <- !not_true_iff_false. tauto. }
  destruct e as [t| |]; unfold same_number, equal_lanes; [apply Z.eqb_eq|apply F|apply F].
Qed.

Lemma masks_lanewise : forall e a b m, In e primitives -> zlen a = zlen b -> masks (equal_lanes e) (bits_of e) a b m ->
  lanewise (fun x y => if same_number e x y then 2 ^ bits_of e - 1 else 0) a b m.
Proof.
  intros e a b m H Hl [Hm K]. split; [exact Hm|]. intros i x y Hx Hy. destruct (K i x y Hx Hy) as [K1 K2]. destruct (same_number e x y) eqn:S.
  - apply K1. apply (same_number_iff e x y H). exact S.
  - apply K2. intros Q. apply (same_number_iff e x y H) in Q. congruence.
Qed.

Lemma abs_bits : forall m e x r, 0 <= m -> 0 <= e -> r / 2 ^ (m + e) = 0 -> (r / 2 ^ m) mod 2 ^ e = (x / 2 ^ m) mod 2 ^ e -> r mod 2 ^ m = x mod 2 ^ m -> r = x mod 2 ^ (m + e).
Proof.
  intros m e x r Hm He H0 H1 H2. assert (P : 0 < 2 ^ m) by (apply Z.pow_pos_nonneg; lia). assert (Q : 0 < 2 ^ e) by (apply Z.pow_pos_nonneg; lia).
  rewrite Z.pow_add_r in * by lia. assert (E : r mod (2 ^ m * 2 ^ e) = r).
  { rewrite Z.mod_eq by lia. rewrite H0. lia. }
  rewrite <- E. rewrite !Z.rem_mul_r by lia. rewrite H1, H2. reflexivity.
Qed.

Lemma absolute_value : forall e x r, In e primitives -> absolute e x r -> r = match e with EInt _ => Z.abs x | _ => x mod 2 ^ (bits_of e - 1) end.
Proof.
  intros [t| |] x r H A; unfold absolute in A; [exact A| |]; destruct A as (A1 & A2 & A3).
  - exact (abs_bits 23 8 x r ltac:(lia) ltac:(lia) A1 A2 A3).
  - exact (abs_bits 52 11 x r ltac:(lia) ltac:(lia) A1 A2 A3).
Qed.

Lemma clamp_lane : forall t z, (0 < ibytes t)%nat -> in_ity t (Z.max (imin t) (Z.min (imax t) z)).
Proof.
  intros t z H. unfold in_ity. assert (M : imin t <= imax t). { unfold imin, imax, imod. assert (P : 2 ^ 8 <= 2 ^ (8 * Z.of_nat (ibytes t))) by (apply Z.pow_le_mono_r; lia). destruct (isigned t); lia. }
  lia.
Qed.

Lemma method_runs : forall fs tie e m o a b, In e primitives -> method_for m e = true -> In o (method_table m) -> op_el o = e -> op_fn o = method_name m -> SIZE (op_ty o) = bits_of e / 8 ->
  zlen a = WIDTH (op_ty o) -> zlen b = WIDTH (op_ty o) -> Forall (lane e) a -> Forall (lane e) b ->
  exists w, op2_in fs tie o a b = Some (Ok w) /\ let v := finish m o w in Forall (lane (result_of m e)) v /\
    lanewise (fun x y => match m, e with
      | Min, _ => Z.min x y | Max, _ => Z.max x y
      | SaturatingAdd, EInt t => Z.max (imin t) (Z.min (imax t) (x + y)) | SaturatingSub, EInt t => Z.max (imin t) (Z.min (imax t) (x - y))
      | EqMask, _ => if same_number e x y then 2 ^ bits_of e - 1 else 0 | NeMask, _ => if same_number e x y then 0 else 2 ^ bits_of e - 1 | _, _ => 0 end) a b v.
Proof.
  intros fs tie e m o a b H Hm Ho He Hf Hs La Lb Fa Fb.
  assert (Va : int_vector (WIDTH (op_ty o)) (lane_ity (op_el o)) a) by (split; [exact La|rewrite He; apply (lanes_in e a H); exact Fa]).
  assert (Vb : int_vector (WIDTH (op_ty o)) (lane_ity (op_el o)) b) by (split; [exact Lb|rewrite He; apply (lanes_in e b H); exact Fb]).
  assert (Lab : zlen a = zlen b) by lia. pose proof (lane_bytes e H) as [By _].
  destruct m; cbn [method_table method_name finish] in *.
  - destruct e as [t| |]; try discriminate Hm. destruct (c78_min_max fs tie o t a b Ho He) as (v & E & L); [rewrite He in Va; exact Va|rewrite He in Vb; exact Vb|].
    exists v. split; [exact E|]. rewrite Hf in L. cbn in L. split; [|exact L]. eapply lanewise_forall; [exact Lab|exact L|exact Fa|exact Fb|]. cbn [result_of lane]. unfold in_ity. lia.
  - destruct e as [t| |]; try discriminate Hm. destruct (c78_min_max fs tie o t a b Ho He) as (v & E & L); [rewrite He in Va; exact Va|rewrite He in Vb; exact Vb|].
    exists v. split; [exact E|]. rewrite Hf in L. cbn in L. split; [|exact L]. eapply lanewise_forall; [exact Lab|exact L|exact Fa|exact Fb|]. cbn [result_of lane]. unfold in_ity. lia.
  - destruct e as [t| |]; try discriminate Hm. destruct (proj1 (c78_saturating fs tie o a b Va Vb) Ho) as (v & E & L). rewrite He in L. cbn [lane_ity] in L.
    exists v. split; [exact E|]. split; [|exact L]. eapply lanewise_forall; [exact Lab|exact L|exact Fa|exact Fb|]. intros x y _ _. cbn [result_of lane]. apply clamp_lane. exact By.
  - destruct e as [t| |]; try discriminate Hm. destruct (proj2 (c78_saturating fs tie o a b Va Vb) Ho) as (v & E & L). rewrite He in L. cbn [lane_ity] in L.
    exists v. split; [exact E|]. split; [|exact L]. eapply lanewise_forall; [exact Lab|exact L|exact Fa|exact Fb|]. intros x y _ _. cbn [result_of lane]. apply clamp_lane. exact By.
  - destruct (c78_eq_mask fs tie o a b Ho Va Vb) as (v & E & M). rewrite He, Hs in M. assert (B8 : 8 * (bits_of e / 8) = bits_of e) by (prim H; reflexivity). rewrite B8 in M.
    pose proof (masks_lanewise e a b v H Lab M) as L. exists v. split; [exact E|]. split; [|exact L]. eapply lanewise_forall; [exact Lab|exact L|exact Fa|exact Fb|].
    intros x y _ _. cbn [result_of]. destruct (unsigned_prim e H) as [U W]. apply (lane_in _ _ U). unfold unsigned_of, lane_ity, in_ity, imin, imax, imod. cbn [isigned ibytes].
    assert (R : 2 ^ (8 * Z.of_nat (Z.to_nat (bits_of e / 8))) = 2 ^ bits_of e) by (f_equal; prim H; reflexivity). rewrite R. assert (P : 0 < 2 ^ bits_of e) by (prim H; reflexivity). destruct (same_number e x y); lia.
  - destruct (c78_eq_mask fs tie o a b Ho Va Vb) as (v & E & M). rewrite He, Hs in M. assert (B8 : 8 * (bits_of e / 8) = bits_of e) by (prim H; reflexivity). rewrite B8 in M.
    pose proof (masks_lanewise e a b v H Lab M) as L0. exists v. split; [exact E|]. cbv zeta.
    assert (Mx : imax (lane_ity (op_out o)) = 2 ^ bits_of e - 1).
    { pose proof (mask_size o (in_or_app _ _ _ (or_introl Ho))) as S. rewrite Hs, B8 in S. assert (U : existsb (fun q => isigned (lane_ity (op_out q))) x86_eq = false) by (vm_compute; reflexivity).
      unfold imax. destruct (isigned (lane_ity (op_out o))) eqn:G; [|rewrite S; reflexivity]. exfalso. rewrite <- not_true_iff_false in U. apply U. apply existsb_exists. exists o. split; assumption. }
    assert (L : lanewise (fun x y => if same_number e x y then 0 else 2 ^ bits_of e - 1) a b (ne_mask_of o v)).
    { unfold ne_mask_of. rewrite Mx. pose proof (zipw_lanewise Z.lxor v (splat (WIDTH (op_ty o)) (2 ^ bits_of e - 1))) as Q. destruct Q as [Q1 Q2]; [rewrite (proj1 L0), La; clear -La; unfold zlen, splat in *; rewrite repeat_length; lia|].
      split; [rewrite Q1; exact (proj1 L0)|]. intros i x y Hx Hy. rewrite (Q2 i _ (2 ^ bits_of e - 1) (proj2 L0 i x y Hx Hy)).
      - f_equal. destruct (same_number e x y); [apply Z.lxor_nilpotent|apply Z.lxor_0_l].
      - apply znth_splat. pose proof (znth_Some_lt _ _ _ Hx). lia. }
    split; [|exact L]. eapply lanewise_forall; [exact Lab|exact L|exact Fa|exact Fb|].
    intros x y _ _. cbn [result_of]. destruct (unsigned_prim e H) as [U W]. apply (lane_in _ _ U). unfold unsigned_of, lane_ity, in_ity, imin, imax, imod. cbn [isigned ibytes].
    assert (R : 2 ^ (8 * Z.of_nat (Z.to_nat (bits_of e / 8))) = 2 ^ bits_of e) by (f_equal; prim H; reflexivity). rewrite R. assert (P : 0 < 2 ^ bits_of e) by (prim H; reflexivity). destruct (same_number e x y); lia.
Qed.

Lemma nth_column : forall (args : list (list Z)) k env i, column args k env -> (i < length args)%nat -> exists v, nth_error args i = Some v /\ znth v k = Some (nth i env 0).
Proof.
  intros args k env i H. revert i. induction H as [|l x ls r Hx H IH]; intros i Hi; [cbn in Hi; lia|]. destruct i as [|i]; [exists l; split; [reflexivity|exact Hx]|].
  cbn [length] in Hi. apply IH. lia.
Qed.

Lemma Forall2_len {X Y : Type} (R : X -> Y -> Prop) a b : Forall2 R a b -> length b = length a.
Proof. intros H. induction H as [|x y a b _ _ IH]; [reflexivity|cbn [length]; rewrite IH; reflexivity]. Qed.

Lemma round_columns : forallb (fun e => forallb (fun b => forallb (fun d => negb (is_fl e) ||
  match lookup x86_round (vector_name (scalar_of e) b) (direction_name d) with
  | Some o => elty_eqb (op_el o) e && vty_eqb (op_ty o) (mkVty (b / (bits_of e / 8)) (bits_of e / 8))
  | None => false
  end) [Floor; Ceil; Trunc]) [16; 32]) primitives = true.
Proof. vm_compute. reflexivity. Qed.

Lemma round_line : forall fs e d, In e primitives -> is_fl e = true -> exists o,
  lookup x86_round (vector_name (scalar_of e) (register fs)) (direction_name d) = Some o /\ In o x86_round /\ op_el o = e /\ op_ty o = mkVty (register fs / (bits_of e / 8)) (bits_of e / 8) /\ op_fn o = direction_name d.
Proof.
  intros fs e d H Hm. pose proof (proj1 (forallb_forall _ _) round_columns e H) as K. cbv beta in K.
  pose proof (register_in fs) as B. pose proof (proj1 (forallb_forall _ _) K (register fs) B) as K1. cbv beta in K1.
  assert (D : In d [Floor; Ceil; Trunc]) by (destruct d; cbn; tauto).
  pose proof (proj1 (forallb_forall _ _) K1 d D) as K2. cbv beta in K2. rewrite Hm in K2. cbn [negb orb] in K2.
  destruct (lookup _ _ _) as [o|] eqn:L; [|discriminate]. exists o. split; [reflexivity|]. destruct (find_some _ _ L) as [L1 L2]. split; [exact L1|].
  apply andb_prop in K2. destruct K2 as [K2 K3]. split; [apply elty_eqb_eq; exact K2|]. split; [apply vty_eqb_eq; exact K3|].
  apply andb_prop in L2. destruct L2 as [_ L2]. apply String.eqb_eq. exact L2.
Qed.

Lemma swap_columns : forallb (fun e => forallb (fun b => is_fl e ||
  match find (fun s => String.eqb (sh_name s) (vector_name (scalar_of e) b)) x86_swap_bytes with
  | Some s => vty_eqb (sh_ty s) (mkVty (b / (bits_of e / 8)) (bits_of e / 8))
  | None => false
  end) [16; 32]) primitives = true.
Proof. vm_compute. reflexivity. Qed.

Lemma swap_line : forall fs t, In (EInt t) primitives -> exists s,
  find (fun s => String.eqb (sh_name s) (vector_name (scalar_of (EInt t)) (register fs))) x86_swap_bytes = Some s /\ In s x86_swap_bytes /\ sh_ty s = mkVty (register fs / (bits_of (EInt t) / 8)) (bits_of (EInt t) / 8).
Proof.
  intros fs t H. pose proof (proj1 (forallb_forall _ _) swap_columns (EInt t) H) as K. cbv beta in K.
  pose proof (register_in fs) as B. pose proof (proj1 (forallb_forall _ _) K (register fs) B) as K2. cbv beta in K2. cbn [is_fl orb] in K2.
  destruct (find _ _) as [o|] eqn:L; [|discriminate]. exists o. split; [reflexivity|]. split; [exact (proj1 (find_some _ _ L))|]. apply vty_eqb_eq. exact K2.
Qed.

(** A finite float is determined by its sign bit and its magnitude. *)
Lemma float_of_value : forall f, fmt_ok f -> forall r, f_pattern f r -> is_finite f r -> r = float_of f (sign_bit f r) (Z.abs (fvalue f r)).
Proof.
  intros f Hok r Hr Hf. destruct (mag_fields f Hok r Hr) as (G1 & G2 & G3 & G4). pose proof (M_pos f Hok) as HM.
  assert (Hx : r = sign_bit f r * 2 ^ (f_m f + f_e f) + (exponent_field f r * 2 ^ f_m f + fraction_field f r)).
  { unfold f_mag in G1. rewrite <- G1. unfold sign_bit. rewrite (Z.add_comm (f_m f)). pose proof (Z.div_mod r (2 ^ (f_e f + f_m f))) as D. rewrite (EM f Hok) in *. pose proof (E_pos f Hok). assert (0 < 2 ^ f_e f * 2 ^ f_m f) by (apply Z.mul_pos_pos; lia). lia. }
  unfold float_of. rewrite Hx at 1. f_equal.
  assert (Ha : Z.abs (fvalue f r) = if exponent_field f r =? 0 then fraction_field f r else (2 ^ f_m f + fraction_field f r) * 2 ^ (exponent_field f r - 1)).
  { unfold fvalue. destruct (exponent_field f r =? 0) eqn:C; [destruct (sign_bit f r =? 0); lia|]. assert (0 < 2 ^ (exponent_field f r - 1)) by (apply Z.pow_pos_nonneg; lia).
    assert (0 <= (2 ^ f_m f + fraction_field f r) * 2 ^ (exponent_field f r - 1)) by (apply Z.mul_nonneg_nonneg; lia). destruct (sign_bit f r =? 0); lia. }
  rewrite Ha. destruct (exponent_field f r =? 0) eqn:C.
  - replace (fraction_field f r <? 2 ^ f_m f) with true by lia. assert (exponent_field f r = 0) by lia. rewrite H. lia.
  - assert (He : 0 <= exponent_field f r - 1) by lia. set (k := exponent_field f r - 1) in *. assert (Pk : 0 < 2 ^ k) by (apply Z.pow_pos_nonneg; lia).
    replace ((2 ^ f_m f + fraction_field f r) * 2 ^ k <? 2 ^ f_m f) with false by (symmetry; apply Z.ltb_ge; nia).
    assert (L : Z.log2 ((2 ^ f_m f + fraction_field f r) * 2 ^ k) = f_m f + k).
    { destruct Hok as (K1 & K2 & K3). rewrite Z.log2_mul_pow2 by lia. rewrite Z.add_comm. f_equal. apply Z.log2_unique; [lia|]. rewrite Z.pow_succ_r by lia. lia. }
    rewrite L. cbv zeta. replace (f_m f + k - f_m f) with k by lia. rewrite Z.div_mul by lia. subst k. lia.
Qed.

Lemma integral_ok : forall f, fmt_ok f -> forall d x, f_pattern f x -> (match d with Floor => f_floor f | Ceil => f_ceil f | Trunc => f_trunc f end) x = integral d f x.
Proof.
  intros f Hok d x Hx. unfold integral. destruct (nan_iff f Hok x Hx) as (N1 & N2 & _). destruct (nan_pattern f x) eqn:N.
  - apply nan_pattern_iff in N. apply N1 in N. destruct d; unfold f_floor, f_ceil, f_trunc, f_integral; rewrite N; reflexivity.
  - assert (Nn : ~ is_nan f x) by (intros Q; apply nan_pattern_iff in Q; congruence). destruct (exponent_field f x =? 2 ^ f_e f - 1) eqn:X.
    + assert (I : is_infinite f x) by (split; [lia|]; destruct (Z.eq_dec (fraction_field f x) 0) as [Z0|Z0]; [exact Z0|]; exfalso; apply Nn; split; [lia|exact Z0]).
      destruct d; [apply (floor_ok f Hok x Hx)|apply (ceil_ok f Hok x Hx)|apply (trunc_ok f Hok x Hx)]; exact I.
    + assert (F : is_finite f x) by (unfold is_finite; lia). pose proof (fone_pos f Hok) as HF.
      assert (P : forall g how, f_pattern f (g x) -> rounds f how x (g x) -> (how x (g x) -> exists z, fvalue f (g x) = fone f * z /\ Z.abs z = Z.abs (match d with Floor => fvalue f x / fone f | Ceil => - (- fvalue f x / fone f) | Trunc => Z.quot (fvalue f x) (fone f) end)) -> g x = float_of f (sign_bit f x) (fone f * Z.abs (match d with Floor => fvalue f x / fone f | Ceil => - (- fvalue f x / fone f) | Trunc => Z.quot (fvalue f x) (fone f) end))).
      { intros g how Pg [R _] Q. destruct (R F) as (R1 & R2 & R3). destruct (Q R3) as (z & Z1 & Z2). rewrite (float_of_value f Hok (g x) Pg R1), R2, Z1, Z.abs_mul, Z2. f_equal. f_equal. lia. }
      destruct d.
      * apply (P _ (floor_of f)); [apply (integral_pattern f Hok); exact Hx|apply (floor_ok f Hok x Hx)|]. intros Q. unfold floor_of in Q. eexists. split; [exact Q|reflexivity].
      * apply (P _ (ceil_of f)); [apply (integral_pattern f Hok); exact Hx|apply (ceil_ok f Hok x Hx)|]. intros Q. unfold ceil_of in Q. exists (- (- fvalue f x / fone f)). split; [rewrite Q; ring|reflexivity].
      * apply (P _ (trunc_of f)); [apply (integral_pattern f Hok); exact Hx|apply (trunc_ok f Hok x Hx)|]. intros Q. unfold trunc_of in Q. eexists. split; [exact Q|reflexivity].
Qed.

Lemma directed_exact : forall fs fsqrt o d a, In o x86_round -> op_fn o = direction_name d -> int_vector (WIDTH (op_ty o)) (lane_ity (op_el o)) a ->
  op1_in fs fsqrt o a = Some (Ok (map (integral d (fmt_of (op_el o))) a)) /\ Forall (in_ity (lane_ity (op_el o))) (map (integral d (fmt_of (op_el o))) a).
Proof.
  intros fs fsqrt o d a Ho Hf Ha. assert (Hin : In o (x86_round ++ unknown_round)) by (apply in_or_app; left; exact Ho).
  destruct (round_entry fsqrt o Hin) as (He & _ & Hu & Hr). destruct (optimized1_ok fsqrt o a He Ha Hr) as [O1 O2].
  assert (E : map (opt_fn fsqrt o) a = map (integral d (fmt_of (op_el o))) a).
  { apply map_ext_in. intros x Hx. destruct Ha as [_ Ha]. rewrite Forall_forall in Ha. specialize (Ha x Hx). destruct He as (_ & Hel & _). apply float_pattern in Ha; [|exact Hel].
    rewrite <- (integral_ok _ (fmt_of_ok (op_el o)) d x Ha). unfold opt_fn. rewrite Hf. destruct d; reflexivity. }
  split; [|rewrite <- E; apply Forall_map; destruct Ha as [_ Ha]; rewrite Forall_forall in *; intros x Hx; apply Hr; apply Ha; exact Hx].
  assert (P1 : portable1 fsqrt o a = Some (Ok (map (opt_fn fsqrt o) a))).
  { apply portable1_ok; [apply He| |apply Ha]. rewrite Hu, Hf. destruct d; reflexivity. }
  rewrite op1_cases by (apply in_or_app; left; exact Ho). rewrite <- E. destruct (fs (op_feat o)); [|exact P1].
  destruct (optimized1 fsqrt o a) as [q|] eqn:G; [rewrite (O1 q eq_refl); reflexivity|exfalso; apply (O2 (or_introl Ho)); reflexivity].
Qed.

(** The closure in a build computes the meaning of the expression in every lane. *)
Lemma run_meaning : forall fs tie fop fsqrt narrow e0 n args, target fs -> In e0 primitives ->
  (forall o e x y, e = EF32 \/ e = EF64 -> lane e x -> lane e y -> lane e (fop o e x y)) -> (forall e x, e = EF32 \/ e = EF64 -> lane e x -> lane e (fsqrt e x)) ->
  length args = n -> args <> [] -> Forall (fun v => zlen v = register fs / (bits_of e0 / 8) /\ Forall (lane e0) v) args ->
  forall x e, type_of e0 n x = Some e -> exists v, run fs tie fop fsqrt narrow e0 n x args = Some (Ok v) /\ zlen v = register fs / (bits_of e0 / 8) /\ Forall (lane e) v /\
    forall k env, column args k env -> znth v k = Some (meaning e0 n fop fsqrt x env).
Proof.
  intros fs tie fop fsqrt narrow e0 n args T H0 Hfop Hsq Hn Hne Hargs. set (w := register fs / (bits_of e0 / 8)) in *.
  assert (Hcol : forall k env, column args k env -> 0 <= k < w).
  { intros k env Hc. destruct Hc as [|l x ls r Hx Hc]; [contradiction|]. inversion Hargs as [|? ? [Hl _] _]; subst. rewrite <- Hl. apply (znth_Some_lt _ _ _ Hx). }
  assert (Wpos : 0 < w) by (unfold w, register; destruct (fs "avx2"%string); prim H0; reflexivity).
  induction x as [i|e' k|o a IHa b IHb|m a IHa b IHb|a IHa|a IHa|d' a IHa|a IHa|e' a IHa]; intros e H.
  - cbn [type_of] in H. destruct (i <? n)%nat eqn:Hi; [|discriminate]. injection H as <-. apply Nat.ltb_lt in Hi. cbn [run meaning].
    destruct (nth_error args i) as [v|] eqn:E; [|apply nth_error_None in E; lia]. exists v. split; [reflexivity|].
    destruct (proj1 (Forall_forall _ _) Hargs v (nth_error_In _ _ E)) as [L F]. split; [exact L|]. split; [exact F|].
    intros k env Hc. destruct (nth_column args k env i Hc ltac:(lia)) as (v' & E' & Z'). rewrite E in E'. injection E' as <-. exact Z'.
  - cbn [type_of] in H. destruct (fits e' k && existsb (same_type e') primitives && (bits_of e' =? bits_of e0)) eqn:K; [|discriminate]. injection H as <-.
    apply andb_prop in K. destruct K as [K K3]. apply andb_prop in K. destruct K as [K1 K2]. apply primitive_in in K2. apply Z.eqb_eq in K3. apply fits_lane in K1.
    destruct (natural_line fs e' T K2) as (l & _ & N & _ & W & _). cbn [run meaning]. unfold constant. rewrite N. rewrite K3 in W. fold w in W. rewrite W. exists (splat w k). split; [reflexivity|].
    split; [unfold splat, zlen; rewrite repeat_length; lia|]. split; [unfold splat; apply Forall_forall; intros y Hy; apply repeat_spec in Hy; subst y; exact K1|].
    intros j env Hc. pose proof (Hcol j env Hc) as Hj. unfold splat. destruct (znth_exists (repeat k (Z.to_nat w)) j) as [y Hy]; [unfold zlen; rewrite repeat_length; lia|].
    rewrite Hy. apply znth_In in Hy. apply repeat_spec in Hy. subst y. reflexivity.
  - pose proof H as H'. cbn [type_of] in H. destruct (type_of e0 n a) as [d|] eqn:Ta; [|discriminate]. destruct (type_of e0 n b) as [d'|] eqn:Tb; [|discriminate]. destruct (same_type d d' && arith_for o d) eqn:S; [|discriminate]. injection H as <-.
    apply andb_prop in S. destruct S as [S _]. apply same_type_eq in S. subst d'. destruct (IHa d eq_refl) as (u & Ru & Lu & Fu & Mu). destruct (IHb d eq_refl) as (v & Rv & Lv & Fv & Mv). destruct (type_prim e0 n H0 a d Ta) as [Pd _].
    cbn [run meaning]. rewrite Ta, Ru, Rv. cbn [andthen]. eexists. split; [reflexivity|]. unfold operator.
    pose proof (zipw_lanewise (fun x y => match d with EInt t => wrap t (exact o x y) | _ => fop o d x y end) u v ltac:(lia)) as Lw.
    split; [rewrite (proj1 Lw); exact Lu|]. split.
    + eapply lanewise_forall; [|exact Lw|exact Fu|exact Fv|]; [lia|]. intros x y Px Py. destruct (lane_bytes d Pd) as [By _]. destruct d as [t| |]; [apply wrap_in; exact By|apply Hfop; tauto|apply Hfop; tauto].
    + intros j env Hc. rewrite (proj2 Lw j _ _ (Mu j env Hc) (Mv j env Hc)). destruct d; reflexivity.
  - cbn [type_of] in H. destruct (type_of e0 n a) as [d|] eqn:Ta; [|discriminate]. destruct (type_of e0 n b) as [d'|] eqn:Tb; [|discriminate]. destruct (same_type d d' && method_for m d) eqn:S; [|discriminate]. injection H as <-.
    apply andb_prop in S. destruct S as [S Sm]. apply same_type_eq in S. subst d'. destruct (IHa d eq_refl) as (u & Ru & Lu & Fu & Mu). destruct (IHb d eq_refl) as (v & Rv & Lv & Fv & Mv). destruct (type_prim e0 n H0 a d Ta) as [Pd Bd].
    destruct (natural_line fs d T Pd) as (l & _ & N & V & _ & _). destruct (method_line fs d m Pd Sm) as (q & Q1 & Q2 & Q3 & Q4 & Q5).
    cbn [run meaning]. rewrite Ta, N, V, Q1, Ru, Rv. cbn [andthen]. destruct (method_runs fs tie d m q u v Pd Sm Q2 Q3 Q4) as (r & Rr & Fr & Lr); [rewrite Q5; reflexivity|rewrite Q5, Bd; exact Lu|rewrite Q5, Bd; exact Lv|exact Fu|exact Fv|].
    rewrite Rr. cbn [andthen]. exists (finish m q r). split; [reflexivity|]. cbv zeta in Fr, Lr. split; [rewrite (proj1 Lr); exact Lu|]. split; [exact Fr|]. intros j env Hc. rewrite (proj2 Lr j _ _ (Mu j env Hc) (Mv j env Hc)).
    destruct m; try reflexivity; destruct d; try reflexivity; discriminate Sm.
  - pose proof H as Tabs. cbn [type_of] in H. destruct (type_of e0 n a) as [d|] eqn:Ta; [|discriminate]. destruct (IHa d eq_refl) as (u & Ru & Lu & Fu & Mu). destruct (type_prim e0 n H0 a d Ta) as [Pd Bd].
    assert (A : abs_type d = Some e) by (unfold abs_type; destruct d as [t| |]; [destruct (isigned t); [exact H|discriminate]|exact H|exact H]).
    destruct (type_prim e0 n H0 (Abs a) e Tabs) as [Pe Be]. destruct (natural_line fs d T Pd) as (l & _ & N & V & _ & _). destruct (natural_line fs e T Pe) as (l' & _ & N' & V' & _ & _).
    destruct (abs_line fs d e Pd A) as (p & P1 & P2 & P3 & P4 & P5 & P6).
    destruct (c78_abs fs narrow p u P1) as (r & Rr & Ar & Fr); [split; [rewrite P6, Bd; exact Lu|rewrite P4; apply (lanes_in d u Pd); exact Fu]|].
    cbn [run]. rewrite Ta, Tabs, N, N', Ru. cbn [andthen]. rewrite V, V', <- P2, <- P3, Rr. cbn [andthen]. exists r. split; [reflexivity|]. rewrite P4 in Ar. rewrite P5 in Fr.
    assert (Lr : zlen r = zlen u) by (unfold zlen; rewrite (Forall2_len _ _ _ Ar); reflexivity). split; [lia|]. split; [apply (lanes_in e r Pe); exact Fr|].
    intros j env Hc. cbn [meaning]. rewrite Ta. pose proof (Mu j env Hc) as Hu. pose proof (Hcol j env Hc) as Hj. destruct (znth_exists r j ltac:(lia)) as [y Hy].
    assert (R : absolute d (meaning e0 n fop fsqrt a env) y).
    { clear -Ar Hu Hy. revert j Hu Hy. generalize (meaning e0 n fop fsqrt a env) as x0. induction Ar as [|x y0 us rs Hxy Ar IH]; intros x0 j Hu Hy; [apply znth_Some_lt in Hu; cbn in Hu; unfold zlen in Hu; cbn in Hu; lia|].
      pose proof (znth_Some_lt _ _ _ Hu) as Hb. unfold znth in Hu, Hy. destruct (j <? 0) eqn:Ej; [discriminate|]. destruct (Z.to_nat j) as [|k] eqn:Ek; cbn [nth_error] in Hu, Hy; [congruence|].
      apply (IH x0 (Z.of_nat k)); apply znth_nat; assumption. }
    rewrite Hy. f_equal. rewrite (absolute_value d _ y Pd R). destruct d; reflexivity.
  - cbn [type_of] in H. destruct (type_of e0 n a) as [d|] eqn:Ta; [|discriminate]. destruct (IHa d eq_refl) as (u & Ru & Lu & Fu & Mu). destruct (type_prim e0 n H0 a d Ta) as [Pd Bd].
    assert (Fl : is_fl d = true /\ e = d /\ (d = EF32 \/ d = EF64)) by (destruct d; [discriminate|injection H as <-; cbn; tauto|injection H as <-; cbn; tauto]). destruct Fl as (Fl & -> & Dd).
    destruct (natural_line fs d T Pd) as (l & _ & N & V & _ & _). destruct (sqrt_line fs d Pd Fl) as (q & Q1 & Q2 & Q3 & Q4).
    cbn [run meaning]. rewrite Ta, N, V, Q1, Ru. cbn [andthen]. rewrite (c78_sqrt fs fsqrt q u Q2); [rewrite Q3|..].
    + exists (map (fsqrt d) u). split; [reflexivity|]. split; [unfold zlen; rewrite map_length; exact Lu|]. split.
      * apply Forall_map. apply (Forall_impl _ (fun x Hx => Hsq d x Dd Hx) Fu).
      * intros j env Hc. rewrite (znth_lanes (fsqrt d) u j _ (Mu j env Hc)). reflexivity.
    + intros e x De Hx. assert (Pe : In e primitives) by (destruct De as [-> | ->]; vm_compute; tauto). apply (lane_in e _ Pe). apply Hsq; [exact De|]. apply (lane_in e _ Pe). exact Hx.
    + split; [rewrite Q4, Bd; exact Lu|rewrite Q3; apply (lanes_in d u Pd); exact Fu].
  - cbn [type_of] in H. destruct (type_of e0 n a) as [d|] eqn:Ta; [|discriminate]. destruct (IHa d eq_refl) as (u & Ru & Lu & Fu & Mu). destruct (type_prim e0 n H0 a d Ta) as [Pd Bd].
    assert (Fl : is_fl d = true /\ e = d /\ (d = EF32 \/ d = EF64)) by (destruct d; [discriminate|injection H as <-; cbn; tauto|injection H as <-; cbn; tauto]). destruct Fl as (Fl & -> & Dd).
    destruct (natural_line fs d T Pd) as (l & _ & N & V & _ & _). destruct (round_line fs d d' Pd Fl) as (q & Q1 & Q2 & Q3 & Q4 & Q5).
    cbn [run meaning]. rewrite Ta, N, V, Q1, Ru. cbn [andthen]. destruct (directed_exact fs fsqrt q d' u Q2 Q5) as [R1 R2]; [split; [rewrite Q4, Bd; exact Lu|rewrite Q3; apply (lanes_in d u Pd); exact Fu]|]. rewrite Q3 in R1, R2. rewrite R1.
    exists (map (integral d' (fmt_of d)) u). split; [reflexivity|]. split; [unfold zlen; rewrite map_length; exact Lu|]. split.
    + apply (lanes_in d _ Pd). exact R2.
    + intros j env Hc. rewrite (znth_lanes (integral d' (fmt_of d)) u j _ (Mu j env Hc)). reflexivity.
  - cbn [type_of] in H. destruct (type_of e0 n a) as [d|] eqn:Ta; [|discriminate]. destruct d as [t| |]; try discriminate. injection H as <-. destruct (IHa _ eq_refl) as (u & Ru & Lu & Fu & Mu). destruct (type_prim e0 n H0 a _ Ta) as [Pd Bd].
    destruct (natural_line fs _ T Pd) as (l & _ & N & V & _ & _). destruct (swap_line fs t Pd) as (q & Q1 & Q2 & Q3). destruct (lane_bytes _ Pd) as [By Bb]. cbn [lane_ity] in By, Bb.
    cbn [run meaning]. rewrite Ta, N, V, Q1, Ru. cbn [andthen lane_ity]. rewrite (proj2 (c78_shuffle fs q (map (to_bytes (ibytes t)) u) T ltac:(split; [rewrite Q3; unfold zlen; rewrite map_length; cbn [WIDTH]; rewrite Bd; exact Lu|rewrite Q3; apply Forall_map; apply Forall_forall; intros x _; unfold zlen; rewrite to_bytes_len; cbn [SIZE]; lia])) Q2). cbn [andthen].
    rewrite !map_map. exists (map (fun x => wrap t (of_bytes (rev (to_bytes (ibytes t) x)))) u). split; [reflexivity|]. split; [unfold zlen; rewrite map_length; exact Lu|]. split.
    + apply Forall_map. apply Forall_forall. intros x _. apply wrap_in. exact By.
    + intros j env Hc. rewrite (znth_lanes (fun x => wrap t (of_bytes (rev (to_bytes (ibytes t) x)))) u j _ (Mu j env Hc)). reflexivity.
  - pose proof H as Tbe. cbn [type_of] in H. destruct (type_of e0 n a) as [d|] eqn:Ta; [|discriminate]. destruct (existsb (same_type e') primitives && (bits_of e' =? bits_of d)) eqn:K; [|discriminate]. injection H as <-.
    apply andb_prop in K. destruct K as [K K2]. apply primitive_in in K. apply Z.eqb_eq in K2. destruct (IHa d eq_refl) as (u & Ru & Lu & Fu & Mu). destruct (type_prim e0 n H0 a d Ta) as [Pd Bd].
    destruct (lane_bytes d Pd) as [B1 B2]. destruct (lane_bytes e' K) as [B3 B4]. assert (Eb : ibytes (lane_ity d) = ibytes (lane_ity e')) by lia.
    cbn [run meaning]. rewrite Ta, Ru. cbn [andthen]. unfold bitcast. rewrite (lanes_of_cast _ _ u Eb B1). exists (map (wrap (lane_ity e')) u). split; [reflexivity|]. split; [unfold zlen; rewrite map_length; exact Lu|]. split.
    + apply Forall_map. apply Forall_forall. intros x _. apply (lane_in e' _ K). apply wrap_in. exact B3.
    + intros j env Hc. rewrite (znth_lanes (wrap (lane_ity e')) u j _ (Mu j env Hc)). f_equal. destruct e' as [t| |]; cbn [lane_ity]; [reflexivity| |]; unfold wrap, imin, imod, bits_of; cbn [isigned ibytes u32 u64]; rewrite Z.sub_0_r, Z.add_0_r; reflexivity.
Qed.

Lemma c83_closure : forall (fs : features) (tie : bool) (fop : arith -> elty -> Z -> Z -> Z) (fsqrt : elty -> Z -> Z) (narrow : Z -> Z) (e0 e1 : elty) (x : expr) (args : list (list Z)) (l0 l1 : packed_line),
  target fs -> In e0 primitives ->
  (forall o e u v, e = EF32 \/ e = EF64 -> lane e u -> lane e v -> lane e (fop o e u v)) -> (forall e u, e = EF32 \/ e = EF64 -> lane e u -> lane e (fsqrt e u)) ->
  type_of e0 (length args) x = Some e1 -> natural fs (el_name e0 ++ "s") = [l0] -> natural fs (el_name e1 ++ "s") = [l1] ->
  args <> [] -> Forall (fun v => zlen v = p_width l0 /\ Forall (lane e0) v) args ->
  exists v, run fs tie fop fsqrt narrow e0 (length args) x args = Some (Ok v) /\ zlen v = p_width l1 /\ Forall (lane e1) v /\
    forall k env, column args k env -> znth v k = Some (meaning e0 (length args) fop fsqrt x env).
Proof.
  intros fs tie fop fsqrt narrow e0 e1 x args l0 l1 T H0 Hf Hs Ht N0 N1 Hne Ha. destruct (natural_line fs e0 T H0) as (m0 & M0 & _ & _ & W0 & _). rewrite N0 in M0. injection M0 as <-.
  destruct (type_prim e0 (length args) H0 x e1 Ht) as [P1 B1]. destruct (natural_line fs e1 T P1) as (m1 & M1 & _ & _ & W1 & _). rewrite N1 in M1. injection M1 as <-. rewrite W0 in Ha.
  destruct (run_meaning fs tie fop fsqrt narrow e0 (length args) args T H0 Hf Hs eq_refl Hne Ha x e1 Ht) as (v & R & L & F & M). exists v. split; [exact R|]. split; [rewrite W1, B1; exact L|]. split; [exact F|exact M].
Qed.

Lemma natural_vty : forall fs e l, target fs -> In e primitives -> natural fs (el_name e ++ "s") = [l] -> vty_ok (vty_of l) /\ WIDTH (vty_of l) = register fs / (bits_of e / 8) /\ SIZE (vty_of l) = bits_of e / 8 /\ WIDTH (vty_of l) * SIZE (vty_of l) <= 32.
Proof.
  intros fs e l T H N. destruct (natural_line fs e T H) as (m & M & _ & _ & W & S). rewrite N in M. injection M as <-. unfold vty_of, vty_ok. cbn [WIDTH SIZE]. rewrite W, S.
  unfold register. destruct (fs "avx2"%string); prim H; (split; [split; vm_compute; tauto|split; [reflexivity|split; [reflexivity|vm_compute; discriminate]]]).
Qed.

Lemma c83_map : forall (fs : features) (c : config) (tie : bool) (fop : arith -> elty -> Z -> Z -> Z) (fsqrt : elty -> Z -> Z) (narrow : Z -> Z) (e0 e1 : elty) (x : expr) (l d : list Z) (l0 l1 : packed_line)
    (E : Type) (func : E -> list Z -> list Z * E) (e : E) (fuel : nat),
  target fs -> In e0 primitives ->
  (forall o e u v, e = EF32 \/ e = EF64 -> lane e u -> lane e v -> lane e (fop o e u v)) -> (forall e u, e = EF32 \/ e = EF64 -> lane e u -> lane e (fsqrt e u)) ->
  type_of e0 1 x = Some e1 -> natural fs (el_name e0 ++ "s") = [l0] -> natural fs (el_name e1 ++ "s") = [l1] ->
  Forall (lane e0) l -> zlen d = p_width l0 -> Forall (lane e0) d -> zlen l * p_size l0 + 32 <= isize_max -> (length l < fuel)%nat ->
  (forall e v, zlen v = p_width l0 -> Forall (lane e0) v -> run fs tie fop fsqrt narrow e0 1 x [v] = Some (Ok (fst (func e v)))) ->
  exists s', scalar_collect c (map_iterator c (slice_iterator c (vty_of l0)) (vty_of l1) 0 func) 0 fuel (mkSIMDMap (simd_iter l d) e) =
    Ok (map (fun a => Some (meaning e0 1 fop fsqrt x [a])) l, s').
Proof.
  intros fs c tie fop fsqrt narrow e0 e1 x l d l0 l1 E func e fuel T H0 Hf Hs Ht N0 N1 Fl Ld Fd Cap Hfu Hrun.
  destruct (type_prim e0 1 H0 x e1 Ht) as [P1 B1]. destruct (natural_vty fs e0 l0 T H0 N0) as (V0 & W0 & S0 & C0). destruct (natural_vty fs e1 l1 T P1 N1) as (V1 & W1 & S1 & _).
  destruct (c72_map Z Z E c (vty_of l0) (vty_of l1) l d (lane e0) (fun a y => y = meaning e0 1 fop fsqrt x [a]) func e 0 fuel V0 V1) as (out & s' & R & F); try assumption.
  - rewrite W1, W0, B1. reflexivity.
  - rewrite S1, S0, B1. reflexivity.
  - unfold vty_of in C0 |- *. cbn [WIDTH SIZE] in C0 |- *. lia.
  - intros e' v Lv Fv. destruct (c83_closure fs tie fop fsqrt narrow e0 e1 x [v] l0 l1 T H0 Hf Hs Ht N0 N1 ltac:(discriminate)) as (r & Rr & Lr & _ & M); [constructor; [split; assumption|constructor]|].
    cbn [length] in Rr. rewrite (Hrun e' v Lv Fv) in Rr. injection Rr as Rr. rewrite Rr. cbn [length] in M.
    assert (Lvr : length v = length r). { assert (Z.of_nat (length v) = Z.of_nat (length r)); [|lia]. change (zlen v = zlen r). rewrite Lr. change (p_width l1) with (WIDTH (vty_of l1)). rewrite W1, B1, <- W0. exact Lv. }
    assert (K : forall k a, znth v k = Some a -> znth r k = Some (meaning e0 1 fop fsqrt x [a])) by (intros k a Ha; apply M; constructor; [exact Ha|constructor]).
    clear -K Lvr. revert r Lvr K. induction v as [|a v IH]; intros [|y r] Lvr K; try discriminate; [constructor|]. constructor; [specialize (K 0 a eq_refl); injection K as ->; reflexivity|].
    apply IH; [cbn [length] in Lvr; lia|]. intros k b Hb. pose proof (znth_Some_lt _ _ _ Hb) as Hk. specialize (K (k + 1) b).
    rewrite !znth_cons_shift in K by lia. replace (k + 1 - 1) with k in K by lia. apply K. exact Hb.
  - exists s'. rewrite R. f_equal. f_equal. clear -F. induction F as [|a y l out -> F IH]; [reflexivity|]. cbn [map]. rewrite IH. reflexivity.
Qed.

Lemma closure_lanes : forall (fs : features) (tie : bool) fop fsqrt narrow (e0 e1 : elty) (x : expr) (l0 l1 : packed_line) (n : nat) (E : Type) (func : E -> tuple (list Z) (S n) -> list Z * E), target fs -> In e0 primitives ->
  (forall o e u v, e = EF32 \/ e = EF64 -> lane e u -> lane e v -> lane e (fop o e u v)) -> (forall e u, e = EF32 \/ e = EF64 -> lane e u -> lane e (fsqrt e u)) ->
  type_of e0 (S (S n)) x = Some e1 -> natural fs (el_name e0 ++ "s") = [l0] -> natural fs (el_name e1 ++ "s") = [l1] ->
  (forall e t, Forall (fun v => zlen v = p_width l0 /\ Forall (lane e0) v) (items (S n) t) -> run fs tie fop fsqrt narrow e0 (S (S n)) x (items (S n) t) = Some (Ok (fst (func e t)))) ->
  lane_by_lane (WIDTH (vty_of l0)) (lane e0) (S n) (meaning e0 (S (S n)) fop fsqrt x) func.
Proof.
  intros fs tie fop fsqrt narrow e0 e1 x l0 l1 n E func T H0 Hf Hs Ht N0 N1 Hrun e t Ht0. pose proof (items_length (S n) t) as Il.
  assert (Hne : items (S n) t <> []) by (intros Q; rewrite Q in Il; discriminate). assert (Ht' := Ht). rewrite <- Il in Ht'.
  destruct (c83_closure fs tie fop fsqrt narrow e0 e1 x (items (S n) t) l0 l1 T H0 Hf Hs Ht' N0 N1 Hne Ht0) as (r & Rr & Lr & _ & M). rewrite Il, (Hrun e t Ht0) in Rr. injection Rr as Rr. rewrite Rr.
  destruct (natural_vty fs e0 l0 T H0 N0) as (_ & W0 & _ & _). destruct (type_prim e0 _ H0 x e1 Ht) as [P1 B1]. destruct (natural_vty fs e1 l1 T P1 N1) as (_ & W1 & _ & _).
  split; [rewrite Lr; change (p_width l1) with (WIDTH (vty_of l1)); rewrite W1, W0, B1; reflexivity|]. intros i r0 Hc. rewrite (M i r0 Hc), Il. reflexivity.
Qed.

Lemma c83_zip : forall (fs : features) (c : config) (tie : bool) (fop : arith -> elty -> Z -> Z -> Z) (fsqrt : elty -> Z -> Z) (narrow : Z -> Z) (e0 e1 : elty) (x : expr) (n : nat) (ls ds : list (list Z)) (N : Z) (l0 l1 : packed_line)
    (E : Type) (func : E -> tuple (list Z) (S n) -> list Z * E) (e : E) (t : tuple (SIMDIter Z (list Z)) (S n)) (fuel : nat),
  target fs -> In e0 primitives ->
  (forall o e u v, e = EF32 \/ e = EF64 -> lane e u -> lane e v -> lane e (fop o e u v)) -> (forall e u, e = EF32 \/ e = EF64 -> lane e u -> lane e (fsqrt e u)) ->
  type_of e0 (S (S n)) x = Some e1 -> natural fs (el_name e0 ++ "s") = [l0] -> natural fs (el_name e1 ++ "s") = [l1] ->
  Forall (fun l => zlen l = N /\ Forall (lane e0) l) ls -> Forall (fun d => zlen d = p_width l0 /\ Forall (lane e0) d) ds -> length ls = length ds ->
  items (S n) t = map2 simd_iter ls ds -> N * p_size l0 + 32 <= isize_max -> N < Z.of_nat fuel ->
  (forall e t, Forall (fun v => zlen v = p_width l0 /\ Forall (lane e0) v) (items (S n) t) -> run fs tie fop fsqrt narrow e0 (S (S n)) x (items (S n) t) = Some (Ok (fst (func e t)))) ->
  let rest := rest_many (blanket_unsafe c (si_array (slice_array c (vty_of l0))) (si_iterable c (slice_array c (vty_of l0)))) n in
  let m := zipmap_iterator c (zip_iterator (slice_iterator c (vty_of l0)) rest) (vty_of l1) 0 func in
  zip (slice_iterator c (vty_of l0)) rest t = Ok t /\
  exists out s', scalar_collect c m 0 fuel (mkSIMDMap t e) = Ok (map Some out, s') /\
    zlen out = N /\ forall k r, column ls k r -> znth out k = Some (meaning e0 (S (S n)) fop fsqrt x r).
Proof.
  intros fs c tie fop fsqrt narrow e0 e1 x n ls ds N l0 l1 E func e t fuel T H0 Hf Hs Ht N0 N1 Hls Hds Hlen Hit Cap Hfu Hrun.
  destruct (type_prim e0 _ H0 x e1 Ht) as [P1 B1]. destruct (natural_vty fs e0 l0 T H0 N0) as (V0 & W0 & S0 & C0). destruct (natural_vty fs e1 l1 T P1 N1) as (V1 & W1 & S1 & _).
  apply (c72_zip_slices Z Z E c (vty_of l0) (vty_of l1) n ls ds N 0 (meaning e0 (S (S n)) fop fsqrt x) func e (lane e0) t fuel V0 V1); try assumption.
  - rewrite W1, W0, B1. reflexivity.
  - rewrite S1, S0, B1. reflexivity.
  - unfold vty_of in C0 |- *. cbn [WIDTH SIZE] in C0 |- *. lia.
  - exact (closure_lanes fs tie fop fsqrt narrow e0 e1 x l0 l1 n E func T H0 Hf Hs Ht N0 N1 Hrun).
Qed.

Lemma c83_strides : forall (fs : features) (c : config) (tie : bool) (fop : arith -> elty -> Z -> Z -> Z) (fsqrt : elty -> Z -> Z) (narrow : Z -> Z) (e0 e1 : elty) (x : expr) (n : nat) (l : list Z) (ds : list (list Z)) (x0 : Z) (l0 l1 : packed_line)
    (E : Type) (func : E -> tuple (list Z) (S n) -> list Z * E) (e : E) (fuel : nat),
  let count := Z.of_nat n + 2 in
  target fs -> In e0 primitives ->
  (forall o e u v, e = EF32 \/ e = EF64 -> lane e u -> lane e v -> lane e (fop o e u v)) -> (forall e u, e = EF32 \/ e = EF64 -> lane e u -> lane e (fsqrt e u)) ->
  type_of e0 (S (S n)) x = Some e1 -> natural fs (el_name e0 ++ "s") = [l0] -> natural fs (el_name e1 ++ "s") = [l1] ->
  Forall (lane e0) l -> zlen l * p_size l0 <= isize_max -> count * 33 <= 2 ^ 63 -> zlen ds = count -> Forall (fun d => zlen d = p_width l0 /\ Forall (lane e0) d) ds -> (length l < fuel)%nat ->
  (forall e t, Forall (fun v => zlen v = p_width l0 /\ Forall (lane e0) v) (items (S n) t) -> run fs tie fop fsqrt narrow e0 (S (S n)) x (items (S n) t) = Some (Ok (fst (func e t)))) ->
  let it := stride_iterator c (slice_array c (vty_of l0)) x0 in
  let rest := rest_many (blanket_unsafe c (ps_array c (slice_array c (vty_of l0)) x0) (ps_iterable c (slice_array c (vty_of l0)) x0)) n in
  let m := zipmap_iterator c (zip_iterator it rest) (vty_of l1) 0 func in
  exists t : tuple (PackedStride Z (list Z)) (S n), stride l count ds = Ok (items (S n) t) /\ zip it rest t = Ok t /\
  exists out s', scalar_collect c m 0 fuel (mkSIMDMap t e) = Ok (map Some out, s') /\
    zlen out = zlen l / count /\ forall k, 0 <= k < zlen out -> znth out k = Some (meaning e0 (S (S n)) fop fsqrt x (sub l (count * k) count)).
Proof.
  intros fs c tie fop fsqrt narrow e0 e1 x n l ds x0 l0 l1 E func e fuel count T H0 Hf Hs Ht N0 N1 Fl Cap Hcnt Hlen Hds Hfu Hrun.
  destruct (type_prim e0 _ H0 x e1 Ht) as [P1 B1]. destruct (natural_vty fs e0 l0 T H0 N0) as (V0 & W0 & S0 & C0). destruct (natural_vty fs e1 l1 T P1 N1) as (V1 & W1 & S1 & _).
  apply (c72_zip_strides Z Z E c (vty_of l0) (vty_of l1) n l ds x0 0 (meaning e0 (S (S n)) fop fsqrt x) func e (lane e0) fuel V0 V1); try assumption.
  - rewrite W1, W0, B1. reflexivity.
  - rewrite S1, S0, B1. reflexivity.
  - assert (W : WIDTH (vty_of l0) <= 32) by (rewrite W0; unfold register; destruct (fs "avx2"%string); prim H0; vm_compute; discriminate). unfold count in Hcnt. nia.
  - exact (closure_lanes fs tie fop fsqrt narrow e0 e1 x l0 l1 n E func T H0 Hf Hs Ht N0 N1 Hrun).
Qed.

Lemma sum_columns : forallb (fun e => forallb (fun b => is_fl e || existsb (fun p => String.eqb (s_vec p) (vector_name (scalar_of e) b) && elty_eqb (s_el p) e &&
  vty_eqb (s_ty p) (mkVty (b / (bits_of e / 8)) (bits_of e / 8))) x86_sum) [16; 32]) primitives = true.
Proof. vm_compute. reflexivity. Qed.

Lemma sum_line : forall fs e, In e primitives -> is_fl e = false -> exists p, In p x86_sum /\
  s_vec p = vector_name (scalar_of e) (register fs) /\ s_el p = e /\ s_ty p = mkVty (register fs / (bits_of e / 8)) (bits_of e / 8).
Proof.
  intros fs e H Hd. pose proof (proj1 (forallb_forall _ _) sum_columns e H) as K. cbv beta in K.
  pose proof (proj1 (forallb_forall _ _) K (register fs) (register_in fs)) as K2. cbv beta in K2. rewrite Hd in K2. cbn [orb] in K2. apply existsb_exists in K2. destruct K2 as (p & Hp & K2). exists p. split; [exact Hp|].
  rewrite !andb_true_iff in K2. destruct K2 as [ [K2 K3] K4]. apply String.eqb_eq in K2. apply elty_eqb_eq in K3. apply vty_eqb_eq in K4. repeat split; assumption.
Qed.

Lemma c83_sum : forall (fs : features) (fadd : elty -> Z -> Z -> Z) (b : bool) (t : ity) (l : list Z) (l0 : packed_line) (fuel : nat),
  let c := mkConfig Release b in let zero := splat (p_width l0) 0 in
  target fs -> In (EInt t) primitives -> natural fs (el_name (EInt t) ++ "s") = [l0] -> zlen l * p_size l0 <= isize_max -> (length l < fuel)%nat ->
  exists acc s', simd_reduce (slice_iterator c (vty_of l0)) fuel (simd_iter l zero) zero (fun a v => map2 (fun x y => wrap t (x + y)) a v) = Ok (acc, s') /\
    sum_in fs fadd c (p_vec l0) acc = Some (Ok (wrap t (total l))).
Proof.
  intros fs fadd b t l l0 fuel c zero T H0 N0 Cap Hfu. destruct (natural_vty fs _ l0 T H0 N0) as (V0 & W0 & S0 & _). destruct (lane_bytes _ H0) as [By _]. cbn [lane_ity] in By.
  destruct (reduce_total c t (vty_of l0) l fuel V0 By Cap Hfu) as (acc & s' & Hr & Hacc & Hc). exists acc, s'. split; [exact Hr|].
  destruct (natural_line fs _ T H0) as (m & M & _ & V & _ & _). rewrite N0 in M. injection M as <-.
  destruct (sum_line fs _ H0 eq_refl) as (p & P1 & P2 & P3 & P4).
  destruct (c78_sum fs fadd c p t acc P1 P3) as (r & R1 & [R2 [k R3]]); [rewrite P4; cbn [WIDTH]; rewrite <- W0; exact Hacc|reflexivity|].
  rewrite V, <- P2, R1. f_equal. f_equal. rewrite <- (wrap_id t r R2). apply wrap_wraps. eapply cong_trans; [exists k; exact R3|exact Hc].
Qed.
