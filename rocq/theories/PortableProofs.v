(** Proofs of the properties: programs on the portable back-end (C94). *)
From Coq Require Import String.
From Verif Require Import Base Spec VecSpec Vecs Iters Zip ZipSpec Stride GateTables GateSpec Gates Lanes Floats FloatSpec OpTables Ops OpSpec Tables Shuffles PortTables Ports PortSpec SumTables Sums SumSpec Builds PipeSpec AvailSpec UnknownTables Unknown ExprSpec Exprs OverflowSpec Portables.
Open Scope list_scope.
Open Scope Z_scope.
From Coq Require Import Lia ZifyBool ZifyNat.
From Verif Require Import X86 FloatFacts RoundProofs ShuffleProofs VecProofs ListFacts VecFacts OpProofs PortProofs UnknownSpec UnknownProofs SumProofs BuildProofs PipeProofs LoopProofs KernProofs DocProofs ExprProofs.
Ltac Zify.zify_post_hook ::= Z.div_mod_to_equations.

Ltac prims H := cbn [primitives In] in H; repeat (destruct H as [<-|H]; [|]); [..|destruct H].

Lemma portable_line : forall fs e, fs "undefined"%string = false -> In e primitives -> exists l, portable_natural fs (el_name e ++ "s") = [l] /\ portable_of fs e = Some l /\
  p_vec l = vector_name (scalar_of e) 16 /\ p_width l = 16 / (bits_of e / 8) /\ p_size l = bits_of e / 8.
Proof.
  intros fs e U H. assert (A : forall l, In l unknown_packed -> active fs (p_pos l) (p_neg l) = true).
  { intros l Hl. unfold unknown_packed in Hl. cbn [In] in Hl. unfold active. repeat (destruct Hl as [<-|Hl]; [cbn [p_pos p_neg forallb]; rewrite U; reflexivity|]). destruct Hl. }
  assert (F : forall s, portable_natural fs s = filter (fun l => String.eqb (p_alias l) s) unknown_packed).
  { intros s. unfold portable_natural. apply filter_ext_in. intros l Hl. rewrite (A l Hl), andb_true_r. reflexivity. }
  unfold portable_of. rewrite F. clear A F. prims H; (eexists; split; [vm_compute; reflexivity|]; vm_compute; repeat split; reflexivity).
Qed.

Lemma portable_method_columns : forallb (fun e => forallb (fun m => negb (method_for m e) ||
  match lookup (portable_table m) (vector_name (scalar_of e) 16) (method_name m) with
  | Some o => elty_eqb (op_el o) e && vty_eqb (op_ty o) (mkVty (16 / (bits_of e / 8)) (bits_of e / 8)) && String.eqb (op_fn o) (method_name m)
  | None => false
  end) all_methods) primitives = true.
Proof. vm_compute. reflexivity. Qed.

Lemma portable_method_line : forall e m, In e primitives -> method_for m e = true -> exists o,
  lookup (portable_table m) (vector_name (scalar_of e) 16) (method_name m) = Some o /\ In o (portable_table m) /\ op_el o = e /\ op_fn o = method_name m /\
  op_ty o = mkVty (16 / (bits_of e / 8)) (bits_of e / 8).
Proof.
  intros e m H Hm. pose proof (proj1 (forallb_forall _ _) portable_method_columns e H) as K. cbv beta in K. assert (M : In m all_methods) by (destruct m; cbn; tauto).
  pose proof (proj1 (forallb_forall _ _) K m M) as K2. cbv beta in K2. rewrite Hm in K2. cbn [negb orb] in K2.
  destruct (lookup _ _ _) as [o|] eqn:L; [|discriminate]. exists o. split; [reflexivity|]. split; [exact (proj1 (find_some _ _ L))|].
  apply andb_prop in K2. destruct K2 as [K2 K4]. apply andb_prop in K2. destruct K2 as [K2 K3]. split; [apply elty_eqb_eq; exact K2|]. split; [apply String.eqb_eq; exact K4|apply vty_eqb_eq; exact K3].
Qed.

Lemma portable_unary_columns : forallb (fun e => negb (is_fl e) || forallb (fun tn =>
  match lookup (fst tn) (vector_name (scalar_of e) 16) (snd tn) with
  | Some o => elty_eqb (op_el o) e && vty_eqb (op_ty o) (mkVty (16 / (bits_of e / 8)) (bits_of e / 8)) && String.eqb (op_fn o) (snd tn)
  | None => false
  end) [(unknown_sqrt, "sqrt"%string); (unknown_round, direction_name Floor); (unknown_round, direction_name Ceil); (unknown_round, direction_name Trunc)]) primitives = true.
Proof. vm_compute. reflexivity. Qed.

Lemma portable_unary_line : forall e table fn, In e primitives -> is_fl e = true ->
  In (table, fn) [(unknown_sqrt, "sqrt"%string); (unknown_round, direction_name Floor); (unknown_round, direction_name Ceil); (unknown_round, direction_name Trunc)] -> exists o,
  lookup table (vector_name (scalar_of e) 16) fn = Some o /\ In o table /\ op_el o = e /\ op_ty o = mkVty (16 / (bits_of e / 8)) (bits_of e / 8) /\ op_fn o = fn.
Proof.
  intros e table fn H Hm Ht. pose proof (proj1 (forallb_forall _ _) portable_unary_columns e H) as K. cbv beta in K. rewrite Hm in K. cbn [negb orb] in K.
  pose proof (proj1 (forallb_forall _ _) K (table, fn) Ht) as K2. cbv beta in K2. cbn [fst snd] in K2.
  destruct (lookup _ _ _) as [o|] eqn:L; [|discriminate]. exists o. split; [reflexivity|]. split; [exact (proj1 (find_some _ _ L))|].
  apply andb_prop in K2. destruct K2 as [K2 K4]. apply andb_prop in K2. destruct K2 as [K2 K3]. split; [apply elty_eqb_eq; exact K2|]. split; [apply vty_eqb_eq; exact K3|apply String.eqb_eq; exact K4].
Qed.

Lemma portable_abs_columns : forallb (fun e => match abs_type e with
  | Some d =>
    match find (fun p => String.eqb (pt_vec p) (vector_name (scalar_of e) 16) && String.eqb (pt_outvec p) (vector_name (scalar_of d) 16)) unknown_abs with
    | Some p => elty_eqb (pt_el p) e && elty_eqb (pt_out p) d && vty_eqb (pt_ty p) (mkVty (16 / (bits_of e / 8)) (bits_of e / 8))
    | None => false
    end
  | None => true
  end) primitives = true.
Proof. vm_compute. reflexivity. Qed.

Lemma portable_abs_line : forall e d, In e primitives -> abs_type e = Some d -> exists p,
  find (fun p => String.eqb (pt_vec p) (vector_name (scalar_of e) 16) && String.eqb (pt_outvec p) (vector_name (scalar_of d) 16)) unknown_abs = Some p /\
  In p unknown_abs /\ pt_el p = e /\ pt_out p = d /\ pt_ty p = mkVty (16 / (bits_of e / 8)) (bits_of e / 8).
Proof.
  intros e d H Hd. pose proof (proj1 (forallb_forall _ _) portable_abs_columns e H) as K. cbv beta in K. rewrite Hd in K.
  destruct (find _ _) as [p|] eqn:L; [|discriminate]. exists p. split; [reflexivity|]. split; [exact (proj1 (find_some _ _ L))|].
  rewrite !andb_true_iff in K. destruct K as [ [K4 K5] K6]. apply elty_eqb_eq in K4, K5. apply vty_eqb_eq in K6. repeat split; assumption.
Qed.

Lemma portable_swap_columns : forallb (fun e => is_fl e ||
  match find (fun s => String.eqb (sh_name s) (vector_name (scalar_of e) 16)) unknown_swap_bytes with
  | Some s => vty_eqb (sh_ty s) (mkVty (16 / (bits_of e / 8)) (bits_of e / 8))
  | None => false
  end) primitives = true.
Proof. vm_compute. reflexivity. Qed.

Lemma portable_swap_line : forall t, In (EInt t) primitives -> exists s,
  find (fun s => String.eqb (sh_name s) (vector_name (scalar_of (EInt t)) 16)) unknown_swap_bytes = Some s /\ In s unknown_swap_bytes /\ sh_ty s = mkVty (16 / (bits_of (EInt t) / 8)) (bits_of (EInt t) / 8).
Proof.
  intros t H. pose proof (proj1 (forallb_forall _ _) portable_swap_columns _ H) as K. cbv beta in K. change (is_fl (EInt t)) with false in K. cbn [orb] in K.
  destruct (find _ _) as [s|] eqn:L; [|discriminate]. exists s. split; [reflexivity|]. split; [exact (proj1 (find_some _ _ L))|apply vty_eqb_eq; exact K].
Qed.

(** The operators. *)
Definition symbol_of (o : arith) : string := match o with Add => "+" | Sub => "-" | Mul => "*" | And => "&" | Or => "|" | Xor => "^" end.

Definition all_operators : list arith := [Add; Sub; Mul; And; Or; Xor].

Lemma portable_operator_columns : forallb (fun e => forallb (fun o => negb (arith_for o e) ||
  match find (fun r => String.eqb (uo_vec r) (vector_name (scalar_of e) 16)) unknown_ops, utype_of (vector_name (scalar_of e) 16) with
  | Some r, Some t => elty_eqb (uo_el r) e && (ut_sz t =? 16 / (bits_of e / 8)) &&
      match find (fun a => String.eqb (fst a) (trait_of o)) (uo_ops r) with Some (_, s) => String.eqb s (symbol_of o) | None => false end
  | _, _ => false
  end) all_operators) primitives = true.
Proof. vm_compute. reflexivity. Qed.

Definition over (o : arith) (e : elty) (x y : Z) : bool :=
  match o, e with (Add | Sub | Mul), EInt t => outside t (ExprSpec.exact o x y) | _, _ => false end.

Definition lane_operator (fop : arith -> elty -> Z -> Z -> Z) (o : arith) (e : elty) (x y : Z) : Z :=
  match e with EInt t => wrap t (ExprSpec.exact o x y) | _ => fop o e x y end.

Lemma scalar_cases : forall fop c o e x y, In e primitives -> arith_for o e = true -> lane e x -> lane e y ->
  run_op (float_symbol fop) c e (symbol_of o) x y = if over o e x y then (match build c with Debug => Panic | Release => Ok (lane_operator fop o e x y) end) else Ok (lane_operator fop o e x y).
Proof.
  intros fop c o e x y H Ho Hx Hy. destruct e as [t| |]; [|destruct o; try discriminate Ho; reflexivity|destruct o; try discriminate Ho; reflexivity].
  destruct (lane_bytes _ H) as [By _]. cbn [lane_ity] in By. cbn [lane] in Hx, Hy.
  assert (A : forall z, iarith c t z = if outside t z then (match build c with Debug => Panic | Release => Ok (wrap t z) end) else Ok (wrap t z)).
  { intros z. unfold iarith, outside. destruct (imin t <=? z) eqn:P1, (z <=? imax t) eqn:P2; cbn [andb];
      [replace (z <? imin t) with false by lia; replace (imax t <? z) with false by lia; cbn [orb]; rewrite wrap_id by (unfold in_ity; lia); reflexivity|..];
      (replace ((z <? imin t) || (imax t <? z)) with true by lia; reflexivity). }
  unfold run_op, scalar_op, lane_operator, over. destruct o; cbn [symbol_of ExprSpec.exact]; unfold int_op; cbn [String.eqb Ascii.eqb Bool.eqb]; try apply A.
  - destruct (bitwise_ok t andb Z.land x y By Hx Hy) as (r & E & I & _); [intros; apply Z.land_spec|intros; apply Z.shiftr_land|reflexivity|cbn; auto|cbn; auto|cbn; auto|]. injection E as E. rewrite wrap_id by (rewrite E; exact I). reflexivity.
  - destruct (bitwise_ok t orb Z.lor x y By Hx Hy) as (r & E & I & _); [intros; apply Z.lor_spec|intros; apply Z.shiftr_lor|reflexivity|cbn; auto|cbn; auto|cbn; auto|]. injection E as E. rewrite wrap_id by (rewrite E; exact I). reflexivity.
  - destruct (bitwise_ok t xorb Z.lxor x y By Hx Hy) as (r & E & I & _); [intros; apply Z.lxor_spec|intros; apply Z.shiftr_lxor|reflexivity|cbn; auto|cbn; auto|cbn; auto|]. injection E as E. rewrite wrap_id by (rewrite E; exact I). reflexivity.
Qed.

Lemma operator_runs : forall fs fop c o e l u v, fs "undefined"%string = false -> In e primitives -> arith_for o e = true -> portable_of fs e = Some l ->
  zlen u = 16 / (bits_of e / 8) -> zlen v = 16 / (bits_of e / 8) -> Forall (lane e) u -> Forall (lane e) v ->
  (exists z, portable_operator c fop o l u v = Some (Ok z) /\ lanewise (lane_operator fop o e) u v z /\ (build c = Release \/ forall i x y, znth u i = Some x -> znth v i = Some y -> over o e x y = false)) \/
  (portable_operator c fop o l u v = Some Panic /\ build c = Debug /\ exists i x y, znth u i = Some x /\ znth v i = Some y /\ over o e x y = true).
Proof.
  intros fs fop c o e l u v U H Ho N Lu Lv Fu Fv. destruct (portable_line fs e U H) as (l' & _ & N' & V & _). rewrite N in N'. injection N' as <-.
  pose proof (proj1 (forallb_forall _ _) portable_operator_columns e H) as K. cbv beta in K. assert (M : In o all_operators) by (destruct o; cbn; tauto).
  pose proof (proj1 (forallb_forall _ _) K o M) as K2. cbv beta in K2. rewrite Ho in K2. cbn [negb orb] in K2. unfold portable_operator. rewrite V.
  destruct (find (fun r => String.eqb (uo_vec r) (vector_name (scalar_of e) 16)) unknown_ops) as [r|]; [|discriminate]. destruct (utype_of (vector_name (scalar_of e) 16)) as [t|]; [|discriminate].
  apply andb_prop in K2. destruct K2 as [K2 K4]. apply andb_prop in K2. destruct K2 as [K2 K3]. apply elty_eqb_eq in K2. apply Z.eqb_eq in K3.
  destruct (find (fun a => String.eqb (fst a) (trait_of o)) (uo_ops r)) as [ [tr s]|]; [|discriminate]. apply String.eqb_eq in K4. subst s. rewrite K2, K3. clear K M K2 K3 r t tr. unfold uv_op.
  set (f := run_op (float_symbol fop) c e (symbol_of o)).
  assert (Fxy : forall x y, lane e x -> lane e y -> f x y = if over o e x y then (match build c with Debug => Panic | Release => Ok (lane_operator fop o e x y) end) else Ok (lane_operator fop o e x y)) by (intros x y Hx Hy; apply (scalar_cases fop c o e x y H Ho Hx Hy)).
  assert (Tot : forall x y, f x y = Panic \/ exists z, f x y = Ok z).
  { intros x y. apply (scalar_total (float_symbol fop) c e (trait_of o)). destruct e; destruct o; try discriminate Ho; cbn; tauto. }
  assert (In1 : forall w i x, Forall (lane e) w -> znth w i = Some x -> lane e x) by (intros w i x Fw Hx; exact (proj1 (Forall_forall _ _) Fw x (znth_In _ _ _ _ Hx))).
  destruct (op_loop_spec f u v 0 (uv_splat (16 / (bits_of e / 8)) 0) Tot) as [(zs & E & L & Z)|(E & k & x & y & Hx & Hy & Hp)]; [unfold zlen in *; lia|lia|unfold uv_splat; rewrite zlen_repeat; assert (0 <= 16 / (bits_of e / 8)) by (rewrite <- Lu; unfold zlen; lia); lia| |].
  - left. exists zs. cbn [Z.to_nat firstn app] in E. rewrite E. split; [reflexivity|]. assert (Z' : forall i x y, znth u i = Some x -> znth v i = Some y -> znth zs i = Some (lane_operator fop o e x y) /\ (build c = Release \/ over o e x y = false)).
    { intros i x y Hx Hy. destruct (Z i x y Hx Hy) as (z & G1 & G2). rewrite (Fxy x y (In1 u i x Fu Hx) (In1 v i y Fv Hy)) in G2. destruct (over o e x y); [destruct (build c); [discriminate|]|]; injection G2 as <-; split; auto. }
    split; [split; [unfold zlen; rewrite L; reflexivity|intros i x y Hx Hy; apply (Z' i x y Hx Hy)]|]. destruct (build c) eqn:B; [|left; reflexivity]. right. intros i x y Hx Hy. destruct (Z' i x y Hx Hy) as [_ [G|G]]; [discriminate|exact G].
  - right. rewrite E. split; [reflexivity|]. rewrite (Fxy x y (In1 u k x Fu Hx) (In1 v k y Fv Hy)) in Hp. destruct (over o e x y) eqn:O; [|discriminate]. destruct (build c) eqn:B; [|discriminate]. split; [reflexivity|]. exists k, x, y. split; [exact Hx|]. split; [exact Hy|exact O].
Qed.

(** The binary methods. *)
Lemma portable_method_runs : forall tie e m o a b, In e primitives -> method_for m e = true -> In o (portable_table m) -> op_el o = e -> op_fn o = method_name m -> SIZE (op_ty o) = bits_of e / 8 ->
  zlen a = WIDTH (op_ty o) -> zlen b = WIDTH (op_ty o) -> Forall (lane e) a -> Forall (lane e) b ->
  exists w, portable2 tie o a b = Some (Ok w) /\ let v := finish m o w in Forall (lane (result_of m e)) v /\
    lanewise (fun x y => match m, e with
      | Min, _ => Z.min x y | Max, _ => Z.max x y
      | SaturatingAdd, EInt t => Z.max (imin t) (Z.min (imax t) (x + y)) | SaturatingSub, EInt t => Z.max (imin t) (Z.min (imax t) (x - y))
      | EqMask, _ => if same_number e x y then 2 ^ bits_of e - 1 else 0 | NeMask, _ => if same_number e x y then 0 else 2 ^ bits_of e - 1 | _, _ => 0 end) a b v.
Proof.
  intros tie e m o a b H Hm Ho He Hf Hs La Lb Fa Fb.
  assert (Va : int_vector (WIDTH (op_ty o)) (lane_ity (op_el o)) a) by (split; [exact La|rewrite He; apply (lanes_in e a H); exact Fa]).
  assert (Vb : int_vector (WIDTH (op_ty o)) (lane_ity (op_el o)) b) by (split; [exact Lb|rewrite He; apply (lanes_in e b H); exact Fb]).
  assert (Lab : zlen a = zlen b) by lia. pose proof (lane_bytes e H) as [By _].
  assert (MaskIn : forall x y : bool, x = y -> lane (unsigned_of e) (if x then 2 ^ bits_of e - 1 else 0)).
  { intros x y _. destruct (unsigned_prim e H) as [U W]. apply (lane_in _ _ U). unfold unsigned_of, lane_ity, in_ity, imin, imax, imod. cbn [isigned ibytes].
    assert (R : 2 ^ (8 * Z.of_nat (Z.to_nat (bits_of e / 8))) = 2 ^ bits_of e) by (f_equal; prim H; reflexivity). rewrite R. assert (P : 0 < 2 ^ bits_of e) by (prim H; reflexivity). destruct x; lia. }
  assert (B8 : 8 * (bits_of e / 8) = bits_of e) by (prim H; reflexivity).
  destruct m; cbn [portable_table method_name finish result_of] in *.
  - destruct e as [t| |]; try discriminate Hm. destruct (c39_int tie o t a b (in_or_app _ _ _ (or_intror Ho)) He) as (v & E & _ & _ & L); [rewrite He in Va; exact Va|rewrite He in Vb; exact Vb|].
    exists v. split; [exact E|]. rewrite Hf in L. cbn in L. split; [|exact L]. eapply lanewise_forall; [exact Lab|exact L|exact Fa|exact Fb|]. cbn [lane]. unfold in_ity. lia.
  - destruct e as [t| |]; try discriminate Hm. destruct (c39_int tie o t a b (in_or_app _ _ _ (or_intror Ho)) He) as (v & E & _ & _ & L); [rewrite He in Va; exact Va|rewrite He in Vb; exact Vb|].
    exists v. split; [exact E|]. rewrite Hf in L. cbn in L. split; [|exact L]. eapply lanewise_forall; [exact Lab|exact L|exact Fa|exact Fb|]. cbn [lane]. unfold in_ity. lia.
  - destruct e as [t| |]; try discriminate Hm. destruct (c40_saturating_add tie o a b (in_or_app _ _ _ (or_intror Ho)) Va Vb) as (v & E & _ & _ & L). rewrite He in L. cbn [lane_ity] in L.
    exists v. split; [exact E|]. split; [|exact L]. eapply lanewise_forall; [exact Lab|exact L|exact Fa|exact Fb|]. intros x y _ _. cbn [lane]. apply clamp_lane. exact By.
  - destruct e as [t| |]; try discriminate Hm. destruct (c40_saturating_sub tie o a b (in_or_app _ _ _ (or_intror Ho)) Va Vb) as (v & E & _ & _ & L). rewrite He in L. cbn [lane_ity] in L.
    exists v. split; [exact E|]. split; [|exact L]. eapply lanewise_forall; [exact Lab|exact L|exact Fa|exact Fb|]. intros x y _ _. cbn [lane]. apply clamp_lane. exact By.
  - destruct (c38_eq_mask tie o a b (in_or_app _ _ _ (or_intror Ho)) Va Vb) as (v & E & _ & _ & M). rewrite He, Hs, B8 in M.
    pose proof (masks_lanewise e a b v H Lab M) as L. exists v. split; [exact E|]. split; [|exact L]. eapply lanewise_forall; [exact Lab|exact L|exact Fa|exact Fb|].
    intros x y _ _. apply (MaskIn _ _ eq_refl).
  - destruct (c38_eq_mask tie o a b (in_or_app _ _ _ (or_intror Ho)) Va Vb) as (v & E & _ & _ & M). rewrite He, Hs, B8 in M.
    pose proof (masks_lanewise e a b v H Lab M) as L0. exists v. split; [exact E|]. cbv zeta.
    assert (Mx : imax (lane_ity (op_out o)) = 2 ^ bits_of e - 1).
    { pose proof (mask_size o (in_or_app _ _ _ (or_intror Ho))) as S. rewrite Hs, B8 in S. assert (U : existsb (fun q => isigned (lane_ity (op_out q))) unknown_eq = false) by (vm_compute; reflexivity).
      unfold imax. destruct (isigned (lane_ity (op_out o))) eqn:G; [|rewrite S; reflexivity]. exfalso. rewrite <- not_true_iff_false in U. apply U. apply existsb_exists. exists o. split; assumption. }
    assert (L : lanewise (fun x y => if same_number e x y then 0 else 2 ^ bits_of e - 1) a b (ne_mask_of o v)).
    { unfold ne_mask_of. rewrite Mx. pose proof (zipw_lanewise Z.lxor v (splat (WIDTH (op_ty o)) (2 ^ bits_of e - 1))) as Q. destruct Q as [Q1 Q2]; [rewrite (proj1 L0), La; clear -La; unfold zlen, splat in *; rewrite repeat_length; lia|].
      split; [rewrite Q1; exact (proj1 L0)|]. intros i x y Hx Hy. rewrite (Q2 i _ (2 ^ bits_of e - 1) (proj2 L0 i x y Hx Hy)).
      - f_equal. destruct (same_number e x y); [apply Z.lxor_nilpotent|apply Z.lxor_0_l].
      - apply znth_splat. pose proof (znth_Some_lt _ _ _ Hx). lia. }
    split; [|exact L]. eapply lanewise_forall; [exact Lab|exact L|exact Fa|exact Fb|].
    intros x y _ _. pose proof (MaskIn (negb (same_number e x y)) _ eq_refl) as Q. change (lane (unsigned_of e) (if same_number e x y then 0 else 2 ^ bits_of e - 1)). destruct (same_number e x y); exact Q.
Qed.

Lemma portable_directed : forall fsqrt o d a, In o unknown_round -> op_fn o = direction_name d -> int_vector (WIDTH (op_ty o)) (lane_ity (op_el o)) a ->
  portable1 fsqrt o a = Some (Ok (map (integral d (fmt_of (op_el o))) a)) /\ Forall (in_ity (lane_ity (op_el o))) (map (integral d (fmt_of (op_el o))) a).
Proof.
  intros fsqrt o d a Ho Hf Ha. assert (Hin : In o (x86_round ++ unknown_round)) by (apply in_or_app; right; exact Ho).
  destruct (round_entry fsqrt o Hin) as (He & _ & Hu & Hr).
  assert (E : map (opt_fn fsqrt o) a = map (integral d (fmt_of (op_el o))) a).
  { apply map_ext_in. intros x Hx. destruct Ha as [_ Ha]. rewrite Forall_forall in Ha. specialize (Ha x Hx). destruct He as (_ & Hel & _). apply float_pattern in Ha; [|exact Hel].
    rewrite <- (integral_ok _ (fmt_of_ok (op_el o)) d x Ha). unfold opt_fn. rewrite Hf. destruct d; reflexivity. }
  split; [|rewrite <- E; apply Forall_map; destruct Ha as [_ Ha]; rewrite Forall_forall in *; intros x Hx; apply Hr; apply Ha; exact Hx].
  rewrite <- E. apply portable1_ok; [apply He| |apply Ha]. rewrite Hu, Hf. destruct d; reflexivity.
Qed.

Lemma column_exists : forall (args : list (list Z)) k w, Forall (fun v => zlen v = w) args -> 0 <= k < w -> exists env, column args k env.
Proof.
  intros args k w H Hk. induction H as [|v args Hv H (env & IH)]; [exists []; constructor|]. destruct (znth_exists v k ltac:(lia)) as [x Hx]. exists (x :: env). constructor; [exact Hx|exact IH].
Qed.

(** What a closure does: it returns its meaning, or panics where the scalar program
    overflows. *)
Definition behaves (c : config) (e0 e1 : elty) (fop : arith -> elty -> Z -> Z -> Z) (fsqrt : elty -> Z -> Z) (x : expr) (args : list (list Z)) (w : Z) (r : option (outcome (list Z))) : Prop :=
  (exists v, r = Some (Ok v) /\ zlen v = w /\ Forall (lane e1) v /\ (forall k env, column args k env -> znth v k = Some (meaning e0 (length args) fop fsqrt x env)) /\
     (build c = Release \/ forall k env, column args k env -> overflows e0 (length args) fop fsqrt x env = false)) \/
  (r = Some Panic /\ build c = Debug /\ exists k env, column args k env /\ overflows e0 (length args) fop fsqrt x env = true).

Lemma behaves_run : forall fs c tie fop fsqrt narrow e0 args, fs "undefined"%string = false -> In e0 primitives ->
  (forall o e x y, e = EF32 \/ e = EF64 -> lane e x -> lane e y -> lane e (fop o e x y)) -> (forall e x, e = EF32 \/ e = EF64 -> lane e x -> lane e (fsqrt e x)) ->
  args <> [] -> Forall (fun v => zlen v = 16 / (bits_of e0 / 8) /\ Forall (lane e0) v) args ->
  forall x e, type_of e0 (length args) x = Some e -> behaves c e0 e fop fsqrt x args (16 / (bits_of e0 / 8)) (portable_run fs c tie fop fsqrt narrow e0 (length args) x args).
Proof.
  intros fs c tie fop fsqrt narrow e0 args T H0 Hfop Hsq Hne Hargs. set (w := 16 / (bits_of e0 / 8)) in *. remember (length args) as n eqn:Hn.
  assert (Hcol : forall k env, column args k env -> 0 <= k < w).
  { intros k env Hc. destruct Hc as [|l x ls r Hx Hc]; [contradiction|]. inversion Hargs as [|? ? [Hl _] _]; subst. rewrite <- Hl. apply (znth_Some_lt _ _ _ Hx). }
  assert (Hex : forall k, 0 <= k < w -> exists env, column args k env) by (intros k Hk; apply (column_exists args k w); [apply (Forall_impl _ (fun v Hv => proj1 Hv) Hargs)|exact Hk]).
  assert (Wpos : 0 < w) by (unfold w; prims H0; reflexivity).
  induction x as [i|e' k|o a IHa b IHb|m a IHa b IHb|a IHa|a IHa|d' a IHa|a IHa|e' a IHa]; intros e H; unfold behaves; rewrite <- Hn.
  - cbn [type_of] in H. destruct (i <? n)%nat eqn:Hi; [|discriminate]. injection H as <-. apply Nat.ltb_lt in Hi. cbn [portable_run meaning overflows].
    destruct (nth_error args i) as [v|] eqn:E; [|apply nth_error_None in E; lia]. left. exists v. split; [reflexivity|].
    destruct (proj1 (Forall_forall _ _) Hargs v (nth_error_In _ _ E)) as [L F]. split; [exact L|]. split; [exact F|]. split; [|right; reflexivity].
    intros k env Hc. destruct (nth_column args k env i Hc ltac:(lia)) as (v' & E' & Z'). rewrite E in E'. injection E' as <-. exact Z'.
  - cbn [type_of] in H. destruct (fits e' k && existsb (same_type e') primitives && (bits_of e' =? bits_of e0)) eqn:K; [|discriminate]. injection H as <-.
    apply andb_prop in K. destruct K as [K K3]. apply andb_prop in K. destruct K as [K1 K2]. apply primitive_in in K2. apply Z.eqb_eq in K3. apply fits_lane in K1.
    destruct (portable_line fs e' T K2) as (l & _ & N & V & _). cbn [portable_run meaning overflows]. unfold portable_constant. rewrite N, V.
    assert (Uw : exists t, utype_of (vector_name (scalar_of e') 16) = Some t /\ ut_sz t = w) by (unfold w; rewrite <- K3; clear -K2; prims K2; (eexists; split; [reflexivity|reflexivity])).
    destruct Uw as (t & Ut & Uw). rewrite Ut, Uw. left. exists (uv_splat w k). split; [reflexivity|]. unfold uv_splat.
    split; [unfold zlen; rewrite repeat_length; lia|]. split; [apply Forall_forall; intros y Hy; apply repeat_spec in Hy; subst y; exact K1|]. split; [|right; reflexivity].
    intros j env Hc. pose proof (Hcol j env Hc) as Hj. destruct (znth_exists (repeat k (Z.to_nat w)) j) as [y Hy]; [unfold zlen; rewrite repeat_length; lia|].
    rewrite Hy. apply znth_In in Hy. apply repeat_spec in Hy. subst y. reflexivity.
  - cbn [type_of] in H. destruct (type_of e0 n a) as [d|] eqn:Ta; [|discriminate]. destruct (type_of e0 n b) as [d'|] eqn:Tb; [|discriminate]. destruct (same_type d d' && arith_for o d) eqn:S; [|discriminate]. injection H as <-.
    apply andb_prop in S. destruct S as [S So]. apply same_type_eq in S. subst d'. destruct (type_prim e0 n H0 a d Ta) as [Pd Bd]. destruct (portable_line fs d T Pd) as (l & _ & N & V & _).
    specialize (IHa d eq_refl). specialize (IHb d eq_refl). unfold behaves in IHa, IHb. rewrite <- Hn in IHa, IHb. cbn [portable_run meaning overflows]. rewrite Ta, N.
    destruct IHa as [(u & Ru & Lu & Fu & Mu & Su)|(Ru & B & k & env & Hc & O)]; rewrite Ru; cbn [andthen]; [|right; split; [reflexivity|]; split; [exact B|]; exists k, env; split; [exact Hc|]; rewrite O; reflexivity].
    destruct IHb as [(v & Rv & Lv & Fv & Mv & Sv)|(Rv & B & k & env & Hc & O)]; rewrite Rv; cbn [andthen]; [|right; split; [reflexivity|]; split; [exact B|]; exists k, env; split; [exact Hc|]; rewrite O, orb_true_r; reflexivity].
    assert (Ov : forall env, (match o with Add | Sub | Mul => match d with EInt t => outside t (ExprSpec.exact o (meaning e0 n fop fsqrt a env) (meaning e0 n fop fsqrt b env)) | _ => false end | _ => false end) = over o d (meaning e0 n fop fsqrt a env) (meaning e0 n fop fsqrt b env)) by (intros env; destruct o, d; reflexivity).
    destruct (operator_runs fs fop c o d l u v T Pd So N) as [(z & R & Lw & Sz)|(R & B & i & x & y & Hx & Hy & O)]; [rewrite Bd; exact Lu|rewrite Bd; exact Lv|exact Fu|exact Fv|left|right]; rewrite R.
    + exists z. split; [reflexivity|]. split; [rewrite (proj1 Lw); exact Lu|]. split; [|split].
      * eapply lanewise_forall; [|exact Lw|exact Fu|exact Fv|]; [lia|]. intros x y Px Py. unfold lane_operator. destruct (lane_bytes d Pd) as [By _]. destruct d as [t| |]; [apply wrap_in; exact By|apply Hfop; tauto|apply Hfop; tauto].
      * intros j env Hc. rewrite (proj2 Lw j _ _ (Mu j env Hc) (Mv j env Hc)). unfold lane_operator. destruct d; reflexivity.
      * destruct (build c) eqn:B; [|left; reflexivity]. right. destruct Su as [Su|Su]; [discriminate|]. destruct Sv as [Sv|Sv]; [discriminate|]. destruct Sz as [Sz|Sz]; [discriminate|]. intros j env Hc.
        rewrite (Su j env Hc), (Sv j env Hc), Ov. apply (Sz j _ _ (Mu j env Hc) (Mv j env Hc)).
    + split; [reflexivity|]. split; [exact B|]. destruct (Hex i) as (env & Hc); [rewrite <- Lu; apply (znth_Some_lt _ _ _ Hx)|]. exists i, env. split; [exact Hc|]. rewrite Ov.
      pose proof (Mu i env Hc) as Q1. rewrite Hx in Q1. injection Q1 as <-. pose proof (Mv i env Hc) as Q2. rewrite Hy in Q2. injection Q2 as <-. rewrite O. apply orb_true_r.
  - cbn [type_of] in H. destruct (type_of e0 n a) as [d|] eqn:Ta; [|discriminate]. destruct (type_of e0 n b) as [d'|] eqn:Tb; [|discriminate]. destruct (same_type d d' && method_for m d) eqn:S; [|discriminate]. injection H as <-.
    apply andb_prop in S. destruct S as [S Sm]. apply same_type_eq in S. subst d'. destruct (type_prim e0 n H0 a d Ta) as [Pd Bd].
    destruct (portable_line fs d T Pd) as (l & _ & N & V & _). destruct (portable_method_line d m Pd Sm) as (q & Q1 & Q2 & Q3 & Q4 & Q5).
    specialize (IHa d eq_refl). specialize (IHb d eq_refl). unfold behaves in IHa, IHb. rewrite <- Hn in IHa, IHb. cbn [portable_run meaning overflows]. rewrite Ta, N, V, Q1.
    destruct IHa as [(u & Ru & Lu & Fu & Mu & Su)|(Ru & B & k & env & Hc & O)]; rewrite Ru; cbn [andthen]; [|right; split; [reflexivity|]; split; [exact B|]; exists k, env; split; [exact Hc|]; rewrite O; reflexivity].
    destruct IHb as [(v & Rv & Lv & Fv & Mv & Sv)|(Rv & B & k & env & Hc & O)]; rewrite Rv; cbn [andthen]; [|right; split; [reflexivity|]; split; [exact B|]; exists k, env; split; [exact Hc|]; rewrite O, orb_true_r; reflexivity].
    destruct (portable_method_runs tie d m q u v Pd Sm Q2 Q3 Q4) as (r & Rr & Fr & Lr); [rewrite Q5; reflexivity|rewrite Q5, Bd; exact Lu|rewrite Q5, Bd; exact Lv|exact Fu|exact Fv|].
    rewrite Rr. cbn [andthen]. left. exists (finish m q r). split; [reflexivity|]. cbv zeta in Fr, Lr. split; [rewrite (proj1 Lr); exact Lu|]. split; [exact Fr|]. split.
    + intros j env Hc. rewrite (proj2 Lr j _ _ (Mu j env Hc) (Mv j env Hc)). destruct m; try reflexivity; destruct d; try reflexivity; discriminate Sm.
    + destruct Su as [Su|Su]; [left; exact Su|]. destruct Sv as [Sv|Sv]; [left; exact Sv|]. right. intros j env Hc. rewrite (Su j env Hc), (Sv j env Hc). reflexivity.
  - pose proof H as Tabs. cbn [type_of] in H. destruct (type_of e0 n a) as [d|] eqn:Ta; [|discriminate]. destruct (type_prim e0 n H0 a d Ta) as [Pd Bd].
    assert (A : abs_type d = Some e) by (unfold abs_type; destruct d as [t| |]; [destruct (isigned t); [exact H|discriminate]|exact H|exact H]).
    destruct (type_prim e0 n H0 (Abs a) e Tabs) as [Pe Be]. destruct (portable_line fs d T Pd) as (l & _ & N & V & _). destruct (portable_line fs e T Pe) as (l' & _ & N' & V' & _).
    destruct (portable_abs_line d e Pd A) as (p & P1 & P2 & P4 & P5 & P6). specialize (IHa d eq_refl). unfold behaves in IHa. rewrite <- Hn in IHa.
    cbn [portable_run overflows]. rewrite Ta, Tabs, N, N', V, V', P1.
    destruct IHa as [(u & Ru & Lu & Fu & Mu & Su)|(Ru & B & k & env & Hc & O)]; rewrite Ru; cbn [andthen]; [|right; split; [reflexivity|]; split; [exact B|]; exists k, env; split; [exact Hc|exact O]].
    destruct (c49_abs_portable narrow p u (in_or_app _ _ _ (or_intror P2))) as (r & Rr & Ar & Fr); [split; [rewrite P6, Bd; exact Lu|rewrite P4; apply (lanes_in d u Pd); exact Fu]|].
    rewrite Rr. cbn [andthen]. left. exists r. split; [reflexivity|]. rewrite P4 in Ar. rewrite P5 in Fr.
    assert (Lr : zlen r = zlen u) by (unfold zlen; rewrite (Forall2_len _ _ _ Ar); reflexivity). split; [lia|]. split; [apply (lanes_in e r Pe); exact Fr|]. split; [|exact Su].
    intros j env Hc. cbn [meaning]. rewrite Ta. pose proof (Mu j env Hc) as Hu. pose proof (Hcol j env Hc) as Hj. destruct (znth_exists r j ltac:(lia)) as [y Hy].
    assert (R : absolute d (meaning e0 n fop fsqrt a env) y).
    { clear -Ar Hu Hy. revert j Hu Hy. generalize (meaning e0 n fop fsqrt a env) as x0. induction Ar as [|x y0 us rs Hxy Ar IH]; intros x0 j Hu Hy; [apply znth_Some_lt in Hu; cbn in Hu; unfold zlen in Hu; cbn in Hu; lia|].
      pose proof (znth_Some_lt _ _ _ Hu) as Hb. unfold znth in Hu, Hy. destruct (j <? 0) eqn:Ej; [discriminate|]. destruct (Z.to_nat j) as [|k] eqn:Ek; cbn [nth_error] in Hu, Hy; [congruence|].
      apply (IH x0 (Z.of_nat k)); apply znth_nat; assumption. }
    rewrite Hy. f_equal. rewrite (absolute_value d _ y Pd R). destruct d; reflexivity.
  - cbn [type_of] in H. destruct (type_of e0 n a) as [d|] eqn:Ta; [|discriminate]. destruct (type_prim e0 n H0 a d Ta) as [Pd Bd].
    assert (Fl : is_fl d = true /\ e = d /\ (d = EF32 \/ d = EF64)) by (destruct d; [discriminate|injection H as <-; cbn; tauto|injection H as <-; cbn; tauto]). destruct Fl as (Fl & -> & Dd).
    destruct (portable_line fs d T Pd) as (l & _ & N & V & _). destruct (portable_unary_line d unknown_sqrt "sqrt" Pd Fl) as (q & Q1 & Q2 & Q3 & Q4 & _); [left; reflexivity|].
    specialize (IHa d eq_refl). unfold behaves in IHa. rewrite <- Hn in IHa. cbn [portable_run meaning overflows]. rewrite Ta, N, V, Q1.
    destruct IHa as [(u & Ru & Lu & Fu & Mu & Su)|(Ru & B & k & env & Hc & O)]; rewrite Ru; cbn [andthen]; [|right; split; [reflexivity|]; split; [exact B|]; exists k, env; split; [exact Hc|exact O]].
    rewrite (proj1 (c56_sqrt fsqrt q u (in_or_app _ _ _ (or_intror Q2)) ltac:(intros e x De Hx; assert (Pe : In e primitives) by (destruct De as [-> | ->]; vm_compute; tauto); apply (lane_in e _ Pe); apply Hsq; [exact De|]; apply (lane_in e _ Pe); exact Hx) ltac:(split; [rewrite Q4, Bd; exact Lu|rewrite Q3; apply (lanes_in d u Pd); exact Fu]))). rewrite Q3.
    left. exists (map (fsqrt d) u). split; [reflexivity|]. split; [unfold zlen; rewrite map_length; exact Lu|]. split; [|split; [|exact Su]].
    + apply Forall_map. apply (Forall_impl _ (fun x Hx => Hsq d x Dd Hx) Fu).
    + intros j env Hc. rewrite (znth_lanes (fsqrt d) u j _ (Mu j env Hc)). reflexivity.
  - cbn [type_of] in H. destruct (type_of e0 n a) as [d|] eqn:Ta; [|discriminate]. destruct (type_prim e0 n H0 a d Ta) as [Pd Bd].
    assert (Fl : is_fl d = true /\ e = d /\ (d = EF32 \/ d = EF64)) by (destruct d; [discriminate|injection H as <-; cbn; tauto|injection H as <-; cbn; tauto]). destruct Fl as (Fl & -> & Dd).
    destruct (portable_line fs d T Pd) as (l & _ & N & V & _). destruct (portable_unary_line d unknown_round (direction_name d') Pd Fl) as (q & Q1 & Q2 & Q3 & Q4 & Q5); [destruct d'; cbn; tauto|].
    specialize (IHa d eq_refl). unfold behaves in IHa. rewrite <- Hn in IHa. cbn [portable_run meaning overflows]. rewrite Ta, N, V, Q1.
    destruct IHa as [(u & Ru & Lu & Fu & Mu & Su)|(Ru & B & k & env & Hc & O)]; rewrite Ru; cbn [andthen]; [|right; split; [reflexivity|]; split; [exact B|]; exists k, env; split; [exact Hc|exact O]].
    destruct (portable_directed fsqrt q d' u Q2 Q5) as [R1 R2]; [split; [rewrite Q4, Bd; exact Lu|rewrite Q3; apply (lanes_in d u Pd); exact Fu]|]. rewrite Q3 in R1, R2. rewrite R1.
    left. exists (map (integral d' (fmt_of d)) u). split; [reflexivity|]. split; [unfold zlen; rewrite map_length; exact Lu|]. split; [|split; [|exact Su]].
    + apply (lanes_in d _ Pd). exact R2.
    + intros j env Hc. rewrite (znth_lanes (integral d' (fmt_of d)) u j _ (Mu j env Hc)). reflexivity.
  - cbn [type_of] in H. destruct (type_of e0 n a) as [d|] eqn:Ta; [|discriminate]. destruct d as [t| |]; try discriminate. injection H as <-. destruct (type_prim e0 n H0 a _ Ta) as [Pd Bd].
    destruct (portable_line fs _ T Pd) as (l & _ & N & V & _). destruct (portable_swap_line t Pd) as (q & Q1 & Q2 & Q3). destruct (lane_bytes _ Pd) as [By Bb]. cbn [lane_ity] in By, Bb.
    specialize (IHa _ eq_refl). unfold behaves in IHa. rewrite <- Hn in IHa. cbn [portable_run meaning overflows]. rewrite Ta, N, V, Q1.
    destruct IHa as [(u & Ru & Lu & Fu & Mu & Su)|(Ru & B & k & env & Hc & O)]; rewrite Ru; cbn [andthen]; [|right; split; [reflexivity|]; split; [exact B|]; exists k, env; split; [exact Hc|exact O]].
    cbn [lane_ity]. rewrite (proj1 (c44_swap_bytes q (map (to_bytes (ibytes t)) u) (in_or_app _ _ _ (or_intror Q2)) ltac:(split; [rewrite Q3; unfold zlen; rewrite map_length; cbn [WIDTH]; rewrite Bd; exact Lu|rewrite Q3; apply Forall_map; apply Forall_forall; intros x _; unfold zlen; rewrite to_bytes_len; cbn [SIZE]; lia]))). cbn [andthen].
    rewrite !map_map. left. exists (map (fun x => wrap t (of_bytes (rev (to_bytes (ibytes t) x)))) u). split; [reflexivity|]. split; [unfold zlen; rewrite map_length; exact Lu|]. split; [|split; [|exact Su]].
    + apply Forall_map. apply Forall_forall. intros x _. apply wrap_in. exact By.
    + intros j env Hc. rewrite (znth_lanes (fun x => wrap t (of_bytes (rev (to_bytes (ibytes t) x)))) u j _ (Mu j env Hc)). reflexivity.
  - pose proof H as Tbe. cbn [type_of] in H. destruct (type_of e0 n a) as [d|] eqn:Ta; [|discriminate]. destruct (existsb (same_type e') primitives && (bits_of e' =? bits_of d)) eqn:K; [|discriminate]. injection H as <-.
    apply andb_prop in K. destruct K as [K K2]. apply primitive_in in K. apply Z.eqb_eq in K2. destruct (type_prim e0 n H0 a d Ta) as [Pd Bd].
    destruct (lane_bytes d Pd) as [B1 B2]. destruct (lane_bytes e' K) as [B3 B4]. assert (Eb : ibytes (lane_ity d) = ibytes (lane_ity e')) by lia.
    specialize (IHa d eq_refl). unfold behaves in IHa. rewrite <- Hn in IHa. cbn [portable_run meaning overflows]. rewrite Ta.
    destruct IHa as [(u & Ru & Lu & Fu & Mu & Su)|(Ru & B & k & env & Hc & O)]; rewrite Ru; cbn [andthen]; [|right; split; [reflexivity|]; split; [exact B|]; exists k, env; split; [exact Hc|exact O]].
    unfold bitcast. rewrite (lanes_of_cast _ _ u Eb B1). left. exists (map (wrap (lane_ity e')) u). split; [reflexivity|]. split; [unfold zlen; rewrite map_length; exact Lu|]. split; [|split; [|exact Su]].
    + apply Forall_map. apply Forall_forall. intros x _. apply (lane_in e' _ K). apply wrap_in. exact B3.
    + intros j env Hc. rewrite (znth_lanes (wrap (lane_ity e')) u j _ (Mu j env Hc)). f_equal. destruct e' as [t| |]; cbn [lane_ity]; [reflexivity| |]; unfold wrap, imin, imod, bits_of; cbn [isigned ibytes u32 u64]; rewrite Z.sub_0_r, Z.add_0_r; reflexivity.
Qed.

Lemma c94_closure : forall (fs : features) (c : config) (tie : bool) (fop : arith -> elty -> Z -> Z -> Z) (fsqrt : elty -> Z -> Z) (narrow : Z -> Z) (e0 e1 : elty) (x : expr) (args : list (list Z)) (l0 l1 : packed_line),
  fs "undefined"%string = false -> In e0 primitives ->
  (forall o e u v, e = EF32 \/ e = EF64 -> lane e u -> lane e v -> lane e (fop o e u v)) -> (forall e u, e = EF32 \/ e = EF64 -> lane e u -> lane e (fsqrt e u)) ->
  type_of e0 (length args) x = Some e1 -> portable_natural fs (el_name e0 ++ "s") = [l0] -> portable_natural fs (el_name e1 ++ "s") = [l1] ->
  args <> [] -> Forall (fun v => zlen v = p_width l0 /\ Forall (lane e0) v) args ->
  let result := portable_run fs c tie fop fsqrt narrow e0 (length args) x args in
  (build c = Release \/ (forall k env, column args k env -> overflows e0 (length args) fop fsqrt x env = false) ->
    exists v, result = Some (Ok v) /\ zlen v = p_width l1 /\ Forall (lane e1) v /\
      forall k env, column args k env -> znth v k = Some (meaning e0 (length args) fop fsqrt x env)) /\
  (build c = Debug -> forall k env, column args k env -> overflows e0 (length args) fop fsqrt x env = true -> result = Some Panic).
Proof.
  intros fs c tie fop fsqrt narrow e0 e1 x args l0 l1 U H0 Hf Hs Ht N0 N1 Hne Ha result. destruct (portable_line fs e0 U H0) as (m0 & M0 & _ & _ & W0 & _). rewrite N0 in M0. injection M0 as <-.
  destruct (type_prim e0 (length args) H0 x e1 Ht) as [P1 B1]. destruct (portable_line fs e1 U P1) as (m1 & M1 & _ & _ & W1 & _). rewrite N1 in M1. injection M1 as <-. rewrite W0 in Ha. rewrite W1, B1.
  destruct (behaves_run fs c tie fop fsqrt narrow e0 args U H0 Hf Hs Hne Ha x e1 Ht) as [(v & R & L & F & M & S)|(R & B & k & env & Hc & O)]; subst result; rewrite R; split.
  - intros _. exists v. split; [reflexivity|]. split; [exact L|]. split; [exact F|exact M].
  - intros B k env Hc O. destruct S as [S|S]; [rewrite B in S; discriminate|]. rewrite (S k env Hc) in O. discriminate.
  - intros [Q|Q]; [rewrite B in Q; discriminate|]. rewrite (Q k env Hc) in O. discriminate.
  - reflexivity.
Qed.

Lemma portable_vty : forall fs e l, fs "undefined"%string = false -> In e primitives -> portable_natural fs (el_name e ++ "s") = [l] -> vty_ok (vty_of l) /\ WIDTH (vty_of l) = 16 / (bits_of e / 8) /\ SIZE (vty_of l) = bits_of e / 8 /\ WIDTH (vty_of l) * SIZE (vty_of l) = 16.
Proof.
  intros fs e l T H N. destruct (portable_line fs e T H) as (m & M & _ & _ & W & S). rewrite N in M. injection M as <-. unfold vty_of, vty_ok. cbn [WIDTH SIZE]. rewrite W, S.
  prims H; (split; [split; vm_compute; tauto|split; [reflexivity|split; reflexivity]]).
Qed.

Lemma c94_map : forall (fs : features) (c : config) (tie : bool) (fop : arith -> elty -> Z -> Z -> Z) (fsqrt : elty -> Z -> Z) (narrow : Z -> Z) (e0 e1 : elty) (x : expr) (l d : list Z) (l0 l1 : packed_line)
    (E : Type) (func : E -> list Z -> list Z * E) (e : E) (fuel : nat),
  fs "undefined"%string = false -> In e0 primitives ->
  (forall o e u v, e = EF32 \/ e = EF64 -> lane e u -> lane e v -> lane e (fop o e u v)) -> (forall e u, e = EF32 \/ e = EF64 -> lane e u -> lane e (fsqrt e u)) ->
  type_of e0 1 x = Some e1 -> portable_natural fs (el_name e0 ++ "s") = [l0] -> portable_natural fs (el_name e1 ++ "s") = [l1] ->
  Forall (lane e0) l -> zlen d = p_width l0 -> Forall (lane e0) d -> zlen l * p_size l0 + 16 <= isize_max -> (length l < fuel)%nat ->
  build c = Release \/ Forall (fun a => overflows e0 1 fop fsqrt x [a] = false) (l ++ d) ->
  (forall e v r, zlen v = p_width l0 -> Forall (lane e0) v -> portable_run fs c tie fop fsqrt narrow e0 1 x [v] = Some (Ok r) -> fst (func e v) = r) ->
  exists s', scalar_collect c (map_iterator c (slice_iterator c (vty_of l0)) (vty_of l1) 0 func) 0 fuel (mkSIMDMap (simd_iter l d) e) =
    Ok (map (fun a => Some (meaning e0 1 fop fsqrt x [a])) l, s').
Proof.
  intros fs c tie fop fsqrt narrow e0 e1 x l d l0 l1 E func e fuel T H0 Hf Hs Ht N0 N1 Fl Ld Fd Cap Hfu Hov Hrun.
  destruct (type_prim e0 1 H0 x e1 Ht) as [P1 B1]. destruct (portable_vty fs e0 l0 T H0 N0) as (V0 & W0 & S0 & C0). destruct (portable_vty fs e1 l1 T P1 N1) as (V1 & W1 & S1 & _).
  set (P := fun a => lane e0 a /\ (build c = Release \/ overflows e0 1 fop fsqrt x [a] = false)).
  assert (FP : Forall P l /\ Forall P d).
  { destruct Hov as [Hov|Hov]; [split; [apply (Forall_impl _ (fun a Ha => conj Ha (or_introl Hov)) Fl)|apply (Forall_impl _ (fun a Ha => conj Ha (or_introl Hov)) Fd)]|].
    apply Forall_app in Hov. destruct Hov as [O1 O2]. split; [clear -Fl O1; induction Fl; inversion O1; subst; constructor; [split; [assumption|right; assumption]|auto]|clear -Fd O2; induction Fd; inversion O2; subst; constructor; [split; [assumption|right; assumption]|auto]]. }
  destruct (c72_map Z Z E c (vty_of l0) (vty_of l1) l d P (fun a y => y = meaning e0 1 fop fsqrt x [a]) func e 0 fuel V0 V1) as (out & s' & R & F); try assumption; try apply FP.
  - rewrite W1, W0, B1. reflexivity.
  - rewrite S1, S0, B1. reflexivity.
  - unfold vty_of in C0 |- *. cbn [WIDTH SIZE] in C0 |- *. lia.
  - intros e' v Lv Fv. assert (Fv' : Forall (lane e0) v) by (apply (Forall_impl _ (fun a Ha => proj1 Ha) Fv)).
    destruct (c94_closure fs c tie fop fsqrt narrow e0 e1 x [v] l0 l1 T H0 Hf Hs Ht N0 N1 ltac:(discriminate)) as [C _]; [constructor; [split; assumption|constructor]|].
    destruct C as (r & Rr & Lr & _ & M).
    { destruct (build c) eqn:B; [|left; reflexivity]. right. intros k env Hc. inversion Hc as [|? a ? ? Ha Hc']; subst. inversion Hc'; subst.
      destruct (proj1 (Forall_forall _ _) Fv a (znth_In _ _ _ _ Ha)) as [_ [Q|Q]]; [congruence|exact Q]. }
    cbn [length] in Rr, M. rewrite (Hrun e' v r Lv Fv' Rr).
    assert (Lvr : length v = length r). { assert (Z.of_nat (length v) = Z.of_nat (length r)); [|lia]. change (zlen v = zlen r). rewrite Lr. change (p_width l1) with (WIDTH (vty_of l1)). rewrite W1, B1, <- W0. exact Lv. }
    assert (K : forall k a, znth v k = Some a -> znth r k = Some (meaning e0 1 fop fsqrt x [a])) by (intros k a Ha; apply M; constructor; [exact Ha|constructor]).
    clear -K Lvr. revert r Lvr K. induction v as [|a v IH]; intros [|y r] Lvr K; try discriminate; [constructor|]. constructor; [specialize (K 0 a eq_refl); injection K as ->; reflexivity|].
    apply IH; [cbn [length] in Lvr; lia|]. intros k b Hb. pose proof (znth_Some_lt _ _ _ Hb) as Hk. specialize (K (k + 1) b).
    rewrite !znth_cons_shift in K by lia. replace (k + 1 - 1) with k in K by lia. apply K. exact Hb.
  - exists s'. rewrite R. f_equal. f_equal. clear -F. induction F as [|a y l out -> F IH]; [reflexivity|]. cbn [map]. rewrite IH. reflexivity.
Qed.

Lemma c94_zip : forall (fs : features) (c : config) (tie : bool) (fop : arith -> elty -> Z -> Z -> Z) (fsqrt : elty -> Z -> Z) (narrow : Z -> Z) (e0 e1 : elty) (x : expr) (n : nat) (ls ds : list (list Z)) (N : Z) (l0 l1 : packed_line)
    (E : Type) (func : E -> tuple (list Z) (S n) -> list Z * E) (e : E) (t : tuple (SIMDIter Z (list Z)) (S n)) (fuel : nat),
  fs "undefined"%string = false -> In e0 primitives ->
  (forall o e u v, e = EF32 \/ e = EF64 -> lane e u -> lane e v -> lane e (fop o e u v)) -> (forall e u, e = EF32 \/ e = EF64 -> lane e u -> lane e (fsqrt e u)) ->
  type_of e0 (S (S n)) x = Some e1 -> portable_natural fs (el_name e0 ++ "s") = [l0] -> portable_natural fs (el_name e1 ++ "s") = [l1] ->
  Forall (fun l => zlen l = N /\ Forall (lane e0) l) ls -> Forall (fun d => zlen d = p_width l0 /\ Forall (lane e0) d) ds -> length ls = length ds ->
  items (S n) t = map2 simd_iter ls ds -> N * p_size l0 + 16 <= isize_max -> N < Z.of_nat fuel ->
  build c = Release \/ (forall r, Forall (lane e0) r -> overflows e0 (S (S n)) fop fsqrt x r = false) ->
  (forall e t r, Forall (fun v => zlen v = p_width l0 /\ Forall (lane e0) v) (items (S n) t) -> portable_run fs c tie fop fsqrt narrow e0 (S (S n)) x (items (S n) t) = Some (Ok r) -> fst (func e t) = r) ->
  let rest := rest_many (blanket_unsafe c (si_array (slice_array c (vty_of l0))) (si_iterable c (slice_array c (vty_of l0)))) n in
  let m := zipmap_iterator c (zip_iterator (slice_iterator c (vty_of l0)) rest) (vty_of l1) 0 func in
  zip (slice_iterator c (vty_of l0)) rest t = Ok t /\
  exists out s', scalar_collect c m 0 fuel (mkSIMDMap t e) = Ok (map Some out, s') /\
    zlen out = N /\ forall k r, column ls k r -> znth out k = Some (meaning e0 (S (S n)) fop fsqrt x r).
Proof.
  intros fs c tie fop fsqrt narrow e0 e1 x n ls ds N l0 l1 E func e t fuel T H0 Hf Hs Ht N0 N1 Hls Hds Hlen Hit Cap Hfu Hov Hrun.
  destruct (type_prim e0 _ H0 x e1 Ht) as [P1 B1]. destruct (portable_vty fs e0 l0 T H0 N0) as (V0 & W0 & S0 & C0). destruct (portable_vty fs e1 l1 T P1 N1) as (V1 & W1 & S1 & _).
  apply (c72_zip_slices Z Z E c (vty_of l0) (vty_of l1) n ls ds N 0 (meaning e0 (S (S n)) fop fsqrt x) func e (lane e0) t fuel V0 V1); try assumption.
  - rewrite W1, W0, B1. reflexivity.
  - rewrite S1, S0, B1. reflexivity.
  - unfold vty_of in C0 |- *. cbn [WIDTH SIZE] in C0 |- *. lia.
  - intros e' t' Ht0. pose proof (items_length (S n) t') as Il. assert (Hne : items (S n) t' <> []) by (intros Q; rewrite Q in Il; discriminate). assert (Ht' := Ht). rewrite <- Il in Ht'.
    destruct (c94_closure fs c tie fop fsqrt narrow e0 e1 x (items (S n) t') l0 l1 T H0 Hf Hs Ht' N0 N1 Hne Ht0) as [C _]. destruct C as (r & Rr & Lr & _ & M).
    { destruct Hov as [Hov|Hov]; [left; exact Hov|right]. intros k env Hc. rewrite Il. apply Hov. clear -Hc Ht0. induction Hc as [|v a vs env Ha Hc IH]; [constructor|]. inversion Ht0 as [|? ? [_ F] Ht1]; subst. constructor; [exact (proj1 (Forall_forall _ _) F a (znth_In _ _ _ _ Ha))|exact (IH Ht1)]. }
    rewrite Il in Rr. rewrite (Hrun e' t' r Ht0 Rr). split; [rewrite Lr; change (p_width l1) with (WIDTH (vty_of l1)); rewrite W1, W0, B1; reflexivity|]. intros i r0 Hc. rewrite (M i r0 Hc), Il. reflexivity.
Qed.

Lemma c94_same : forall (fs gs : features) (c c' : config) (tie tie' : bool) (fop : arith -> elty -> Z -> Z -> Z) (fsqrt : elty -> Z -> Z) (narrow : Z -> Z) (e0 e1 : elty) (x : expr) (l d d' : list Z) (l0 l1 m0 m1 : packed_line)
    (E : Type) (func func' : E -> list Z -> list Z * E) (e : E) (fuel : nat),
  target fs -> gs "undefined"%string = false -> In e0 primitives ->
  (forall o e u v, e = EF32 \/ e = EF64 -> lane e u -> lane e v -> lane e (fop o e u v)) -> (forall e u, e = EF32 \/ e = EF64 -> lane e u -> lane e (fsqrt e u)) ->
  type_of e0 1 x = Some e1 -> natural fs (el_name e0 ++ "s") = [l0] -> natural fs (el_name e1 ++ "s") = [l1] -> portable_natural gs (el_name e0 ++ "s") = [m0] -> portable_natural gs (el_name e1 ++ "s") = [m1] ->
  Forall (lane e0) l -> zlen d = p_width l0 -> Forall (lane e0) d -> zlen d' = p_width m0 -> Forall (lane e0) d' -> zlen l * p_size l0 + 32 <= isize_max -> (length l < fuel)%nat ->
  build c' = Release \/ Forall (fun a => overflows e0 1 fop fsqrt x [a] = false) (l ++ d') ->
  (forall e v r, zlen v = p_width l0 -> Forall (lane e0) v -> run fs tie fop fsqrt narrow e0 1 x [v] = Some (Ok r) -> fst (func e v) = r) ->
  (forall e v r, zlen v = p_width m0 -> Forall (lane e0) v -> portable_run gs c' tie' fop fsqrt narrow e0 1 x [v] = Some (Ok r) -> fst (func' e v) = r) ->
  exists out s s', scalar_collect c (map_iterator c (slice_iterator c (vty_of l0)) (vty_of l1) 0 func) 0 fuel (mkSIMDMap (simd_iter l d) e) = Ok (out, s) /\
    scalar_collect c' (map_iterator c' (slice_iterator c' (vty_of m0)) (vty_of m1) 0 func') 0 fuel (mkSIMDMap (simd_iter l d') e) = Ok (out, s') /\ length out = length l.
Proof.
  intros fs gs c c' tie tie' fop fsqrt narrow e0 e1 x l d d' l0 l1 m0 m1 E func func' e fuel T U H0 Hf Hs Ht N0 N1 M0 M1 Fl Ld Fd Ld' Fd' Cap Hfu Hov Hrun Hrun'.
  destruct (natural_vty fs e0 l0 T H0 N0) as (_ & _ & S0 & _). destruct (portable_vty gs e0 m0 U H0 M0) as (_ & _ & Sm & _). change (p_size l0 = bits_of e0 / 8) in S0. change (p_size m0 = bits_of e0 / 8) in Sm.
  destruct (c83_map fs c tie fop fsqrt narrow e0 e1 x l d l0 l1 E func e fuel T H0 Hf Hs Ht N0 N1 Fl Ld Fd Cap Hfu) as [s R].
  { intros e' v Lv Fv. destruct (c83_closure fs tie fop fsqrt narrow e0 e1 x [v] l0 l1 T H0 Hf Hs Ht N0 N1 ltac:(discriminate)) as (r & Rr & _); [constructor; [split; assumption|constructor]|]. cbn [length] in Rr. rewrite Rr, (Hrun e' v r Lv Fv Rr). reflexivity. }
  destruct (c94_map gs c' tie' fop fsqrt narrow e0 e1 x l d' m0 m1 E func' e fuel U H0 Hf Hs Ht M0 M1 Fl Ld' Fd' ltac:(rewrite Sm, <- S0; lia) Hfu Hov Hrun') as [s' R'].
  exists (map (fun a => Some (meaning e0 1 fop fsqrt x [a])) l), s, s'. split; [exact R|]. split; [exact R'|apply map_length].
Qed.
