(** Proofs of the properties: kernels that compute in f64 on slices of f32 or i32 (C98). *)
From Coq Require Import String.
From Verif Require Import Base Spec VecSpec Vecs Iters Zip ZipSpec Stride GateTables GateSpec Gates Floats FloatSpec Lanes OpTables Ops OpSpec PortTables Ports PortSpec PipeSpec AvailSpec Builds ExprSpec Exprs Widens Arith ArithSpec Demos OverflowSpec Portables WidePorts DoubleSpec Doubles.
Open Scope list_scope.
Open Scope Z_scope.
From Coq Require Import Lia ZifyBool ZifyNat.
From Verif Require Import ListFacts VecFacts MapFacts FloatFacts VecProofs OpProofs PortProofs BuildProofs PipeProofs LoopProofs KernProofs DocProofs ExprProofs AlgebraProofs ExactProofs CollectProofs FoldProofs RoundProofs ArithFacts DemoProofs WidenProofs PortableProofs.
Ltac Zify.zify_post_hook ::= Z.div_mod_to_equations.

Ltac dbl H := unfold doubles in H; cbn [In] in H; destruct H as [<-|[<-|H]]; [| |destruct H].

Lemma double_prim : forall e, In e doubles -> In e primitives /\ bits_of e = 32 /\ widens e EF64 /\ as_f64 e = widened e EF64 /\ forall x, lane e x -> in_ity (lane_ity e) x /\ lane EF64 (as_f64 e x).
Proof.
  intros e He. assert (P : In e primitives) by (dbl He; vm_compute; tauto). split; [exact P|]. split; [dbl He; reflexivity|]. assert (Wd : widens e EF64) by (dbl He; [exact I|reflexivity]). split; [exact Wd|]. assert (A : as_f64 e = widened e EF64) by (dbl He; reflexivity). split; [exact A|].
  intros x Hx. apply (lane_in e x P) in Hx. split; [exact Hx|]. rewrite A. apply lane_in; [vm_compute; tauto|]. exact (proj2 (proj2 (widens_sound (fun z => z) e EF64 x Wd Hx))).
Qed.

(** ** The conversions *)

Lemma parted : forall (rs : list (list Z)) (v : list Z) (g : Z -> Z) W, concat rs = map g v -> map (@length Z) rs = [W; W] -> rs = [map g (firstn W v); map g (skipn W v)].
Proof.
  intros rs v g W C L. destruct rs as [|a [|b [|? ?]]]; try discriminate L. injection L as La Lb. cbn [concat] in C. rewrite app_nil_r in C. rewrite <- firstn_map, <- skipn_map, <- C.
  rewrite firstn_app, skipn_app, La, Nat.sub_diag, firstn_all2, skipn_all2 by lia. cbn [firstn skipn app]. rewrite app_nil_r. reflexivity.
Qed.

Lemma upcast_portable_exact : forall narrow p v, In p (x86_upcast ++ unknown_upcast) -> int_vector (WIDTH (pt_ty p)) (lane_ity (pt_el p)) v ->
  port_portable narrow p [v] = Ok [map (widened (pt_el p) (pt_out p)) (firstn (Z.to_nat (WIDTH (pt_outty p))) v); map (widened (pt_el p) (pt_out p)) (skipn (Z.to_nat (WIDTH (pt_outty p))) v)].
Proof.
  intros narrow p v Hp [Hv1 Hv2]. pose proof upcasts_ok as H. rewrite Forall_forall in H. destruct (H p Hp) as (H1 & H2 & H0 & H3).
  destruct (port_rows narrow p [v] (in_ity (lane_ity (pt_el p))) (widened (pt_el p) (pt_out p)) [PAs (pt_out p)] H1) as (rs & R1 & R2 & R3); [intros x Hx; apply widens_sound; assumption|constructor; [split; assumption|constructor]|].
  rewrite R1. f_equal. rewrite H2 in R3. cbn [concat] in R2. rewrite app_nil_r in R2. exact (parted rs v _ _ R2 R3).
Qed.

Lemma upcast_in_exact : forall fs narrow p v, In p x86_upcast -> int_vector (WIDTH (pt_ty p)) (lane_ity (pt_el p)) v ->
  upcast_in fs narrow (pt_vec p) (pt_outvec p) [v] = Some (Ok [map (widened (pt_el p) (pt_out p)) (firstn (Z.to_nat (WIDTH (pt_outty p))) v); map (widened (pt_el p) (pt_out p)) (skipn (Z.to_nat (WIDTH (pt_outty p))) v)]).
Proof.
  intros fs narrow p v Hp Hv. pose proof port_coherent as C. rewrite !andb_true_iff in C. destruct C as (((((_ & C1) & _) & _) & C2) & _).
  destruct (port_cases fs narrow x86_upcast_optimized x86_upcast p [v] (fun r => r = [map (widened (pt_el p) (pt_out p)) (firstn (Z.to_nat (WIDTH (pt_outty p))) v); map (widened (pt_el p) (pt_out p)) (skipn (Z.to_nat (WIDTH (pt_outty p))) v)]) C1 C2 Hp) as (r & E & ->); [| |exact E].
  - eexists. split; [|reflexivity]. apply upcast_portable_exact; [apply in_or_app; left; exact Hp|exact Hv].
  - intros x Hx E1 E2 E3 E4. pose proof xupcasts_ok as H. rewrite Forall_forall in H. destruct (H x Hx) as (_ & _ & _ & H3). rewrite <- E2, <- E3, <- E4. apply H3. rewrite E1, E2. exact Hv.
Qed.

Lemma double_rows : forallb (fun e => forallb (fun b => existsb (fun p => String.eqb (pt_vec p) (vector_name (scalar_of e) b) && String.eqb (pt_outvec p) (vector_name (scalar_of EF64) b) && elty_eqb (pt_el p) e && elty_eqb (pt_out p) EF64 &&
  vty_eqb (pt_ty p) (mkVty (b / 4) 4) && vty_eqb (pt_outty p) (mkVty (b / 8) 8)) x86_upcast) [16; 32]) doubles &&
  forallb (fun b => existsb (fun p => String.eqb (pt_vec p) (vector_name (scalar_of EF64) b) && String.eqb (pt_outvec p) (vector_name (scalar_of EF32) b) && elty_eqb (pt_el p) EF64 && elty_eqb (pt_out p) EF32 &&
  vty_eqb (pt_ty p) (mkVty (b / 8) 8)) x86_downcast) [16; 32] && forallb (fun x => negb (elty_eqb (xp_el x) EF64)) x86_downcast_optimized &&
  forallb (fun e => match find (fun p => String.eqb (pt_vec p) (vector_name (scalar_of e) 16) && String.eqb (pt_outvec p) (vector_name (scalar_of EF64) 16)) unknown_upcast with
  | Some p => elty_eqb (pt_el p) e && elty_eqb (pt_out p) EF64 && vty_eqb (pt_ty p) (mkVty 4 4) && vty_eqb (pt_outty p) (mkVty 2 8) | None => false end) doubles &&
  match find (fun p => String.eqb (pt_vec p) (vector_name (scalar_of EF64) 16) && String.eqb (pt_outvec p) (vector_name (scalar_of EF32) 16)) unknown_downcast with
  | Some p => elty_eqb (pt_el p) EF64 && elty_eqb (pt_out p) EF32 && vty_eqb (pt_ty p) (mkVty 2 8) | None => false end = true.
Proof. vm_compute. reflexivity. Qed.

Lemma double_vector : forall e v w, In e doubles -> zlen v = w -> Forall (lane e) v -> int_vector w (lane_ity e) v.
Proof. intros e v w He Lv Fv. split; [exact Lv|]. eapply Forall_impl; [|exact Fv]. intros x Hx. exact (proj1 (proj2 (proj2 (proj2 (proj2 (double_prim e He)))) x Hx)). Qed.

Lemma f64_vector : forall v w, zlen v = w -> Forall (lane EF64) v -> int_vector w (lane_ity EF64) v.
Proof. intros v w Lv Fv. split; [exact Lv|]. eapply Forall_impl; [|exact Fv]. intros x Hx. apply lane_in; [vm_compute; tauto|exact Hx]. Qed.

Lemma double_up : forall fs narrow e l lw v, target fs -> In e doubles -> natural fs (el_name e ++ "s") = [l] -> natural fs (el_name EF64 ++ "s") = [lw] -> zlen v = p_width l -> Forall (lane e) v ->
  upcast_in fs narrow (p_vec l) (p_vec lw) [v] = Some (Ok [map (as_f64 e) (firstn (Z.to_nat (p_width lw)) v); map (as_f64 e) (skipn (Z.to_nat (p_width lw)) v)]).
Proof.
  intros fs narrow e l lw v T He Nl Nw Lv Fv. destruct (double_prim e He) as (P1 & B & _ & A & _). assert (P2 : In EF64 primitives) by (vm_compute; tauto).
  destruct (natural_line fs _ T P1) as (m & M & _ & V1 & W1 & S1). rewrite Nl in M. injection M as <-. destruct (natural_line fs _ T P2) as (m & M & _ & V2 & W2 & S2). rewrite Nw in M. injection M as <-.
  pose proof double_rows as K. rewrite !andb_true_iff in K. destruct K as ((((K & _) & _) & _) & _). pose proof (proj1 (forallb_forall _ _) K e He) as K1. cbv beta in K1. pose proof (proj1 (forallb_forall _ _) K1 (register fs) (register_in fs)) as K2. cbv beta in K2. clear K K1. apply existsb_exists in K2. destruct K2 as (p & Hp & K).
  rewrite !andb_true_iff in K. destruct K as (((((K1 & K2) & K3) & K4) & K5) & K6). apply String.eqb_eq in K1, K2. apply elty_eqb_eq in K3, K4. apply vty_eqb_eq in K5, K6. rewrite <- V1 in K1. rewrite <- V2 in K2. rewrite <- K1, <- K2.
  rewrite (upcast_in_exact fs narrow p v Hp).
  - rewrite K3, K4, K6, W2, A. reflexivity.
  - rewrite K3, K5. apply double_vector; [exact He| |exact Fv]. rewrite Lv, W1, B. reflexivity.
Qed.

Lemma double_down : forall fs narrow lw lo a b, target fs -> natural fs (el_name EF64 ++ "s") = [lw] -> natural fs (el_name EF32 ++ "s") = [lo] -> zlen a = p_width lw -> zlen b = p_width lw -> Forall (lane EF64) a -> Forall (lane EF64) b ->
  downcast_in fs narrow (p_vec lw) (p_vec lo) [a; b] = Some (Ok [map narrow (a ++ b)]).
Proof.
  intros fs narrow lw lo a b T Nw No La Lb Fa Fb. assert (P1 : In EF32 primitives) by (vm_compute; tauto). assert (P2 : In EF64 primitives) by (vm_compute; tauto).
  destruct (natural_line fs _ T P2) as (m & M & _ & V1 & W1 & _). rewrite Nw in M. injection M as <-. destruct (natural_line fs _ T P1) as (m & M & _ & V2 & _ & _). rewrite No in M. injection M as <-.
  pose proof double_rows as K. rewrite !andb_true_iff in K. destruct K as ((((_ & K) & O) & _) & _). pose proof (proj1 (forallb_forall _ _) K (register fs) (register_in fs)) as K2. cbv beta in K2. clear K. apply existsb_exists in K2. destruct K2 as (q & Hq & K).
  rewrite !andb_true_iff in K. destruct K as ((((K1 & K2) & K3) & K4) & K5). apply String.eqb_eq in K1, K2. apply elty_eqb_eq in K3, K4. apply vty_eqb_eq in K5. rewrite <- V1 in K1. rewrite <- V2 in K2. rewrite <- K1, <- K2.
  assert (Wq : WIDTH (pt_ty q) = p_width lw) by (rewrite K5, W1; reflexivity).
  pose proof port_coherent as C. rewrite !andb_true_iff in C. destruct C as (((((_ & _) & C1) & _) & _) & C2).
  destruct (port_cases fs narrow x86_downcast_optimized x86_downcast q [a; b] (fun r => r = [map narrow (a ++ b)]) C1 C2 Hq) as (r & E & ->); [| |exact E].
  - eexists. split; [|reflexivity]. rewrite c47_downcast_portable_partial; [rewrite K4; reflexivity|apply in_or_app; left; exact Hq|rewrite K3; reflexivity|rewrite K3, Wq; apply f64_vector; assumption|rewrite K3, Wq; apply f64_vector; assumption].
  - intros x Hx _ E2 _ _. pose proof (proj1 (forallb_forall _ _) O x Hx) as N. cbv beta in N. rewrite E2, K3 in N. discriminate N.
Qed.

Lemma portable_up : forall fs narrow e l lw v, fs "undefined"%string = false -> In e doubles -> portable_natural fs (el_name e ++ "s") = [l] -> portable_natural fs (el_name EF64 ++ "s") = [lw] -> zlen v = p_width l -> Forall (lane e) v ->
  portable_port narrow unknown_upcast (p_vec l) (p_vec lw) [v] = Some (Ok [map (as_f64 e) (firstn (Z.to_nat (p_width lw)) v); map (as_f64 e) (skipn (Z.to_nat (p_width lw)) v)]).
Proof.
  intros fs narrow e l lw v T He Nl Nw Lv Fv. destruct (double_prim e He) as (P1 & B & _ & A & _). assert (P2 : In EF64 primitives) by (vm_compute; tauto).
  destruct (portable_line fs _ T P1) as (m & M & _ & V1 & W1 & _). rewrite Nl in M. injection M as <-. destruct (portable_line fs _ T P2) as (m & M & _ & V2 & W2 & _). rewrite Nw in M. injection M as <-.
  pose proof double_rows as K. rewrite !andb_true_iff in K. destruct K as ((_ & K) & _). pose proof (proj1 (forallb_forall _ _) K e He) as K1. cbv beta in K1. clear K. rewrite <- V1, <- V2 in K1. unfold portable_port.
  destruct (find (fun p => String.eqb (pt_vec p) (p_vec l) && String.eqb (pt_outvec p) (p_vec lw)) unknown_upcast) as [p|] eqn:Ep; [|discriminate K1]. pose proof (proj1 (find_some _ _ Ep)) as Hp. cbn [option_map].
  rewrite !andb_true_iff in K1. destruct K1 as (((K3 & K4) & K5) & K6). apply elty_eqb_eq in K3, K4. apply vty_eqb_eq in K5, K6.
  rewrite upcast_portable_exact.
  - rewrite K3, K4, K6, W2, A. reflexivity.
  - apply in_or_app. right. exact Hp.
  - rewrite K3, K5. apply double_vector; [exact He| |exact Fv]. rewrite Lv, W1, B. reflexivity.
Qed.

Lemma portable_down : forall fs narrow lw lo a b, fs "undefined"%string = false -> portable_natural fs (el_name EF64 ++ "s") = [lw] -> portable_natural fs (el_name EF32 ++ "s") = [lo] -> zlen a = p_width lw -> zlen b = p_width lw -> Forall (lane EF64) a -> Forall (lane EF64) b ->
  portable_port narrow unknown_downcast (p_vec lw) (p_vec lo) [a; b] = Some (Ok [map narrow (a ++ b)]).
Proof.
  intros fs narrow lw lo a b T Nw No La Lb Fa Fb. assert (P1 : In EF32 primitives) by (vm_compute; tauto). assert (P2 : In EF64 primitives) by (vm_compute; tauto).
  destruct (portable_line fs _ T P2) as (m & M & _ & V1 & W1 & _). rewrite Nw in M. injection M as <-. destruct (portable_line fs _ T P1) as (m & M & _ & V2 & _ & _). rewrite No in M. injection M as <-.
  pose proof double_rows as K. rewrite !andb_true_iff in K. destruct K as (_ & K). rewrite <- V1, <- V2 in K. unfold portable_port.
  destruct (find (fun p => String.eqb (pt_vec p) (p_vec lw) && String.eqb (pt_outvec p) (p_vec lo)) unknown_downcast) as [q|] eqn:Eq; [|discriminate K]. pose proof (proj1 (find_some _ _ Eq)) as Hq. cbn [option_map].
  rewrite !andb_true_iff in K. destruct K as ((K3 & K4) & K5). apply elty_eqb_eq in K3, K4. apply vty_eqb_eq in K5. assert (Wq : WIDTH (pt_ty q) = p_width lw) by (rewrite K5, W1; reflexivity).
  rewrite c47_downcast_portable_partial; [rewrite K4; reflexivity|apply in_or_app; right; exact Hq|rewrite K3; reflexivity|rewrite K3, Wq; apply f64_vector; assumption|rewrite K3, Wq; apply f64_vector; assumption].
Qed.

(** ** Columns of the two halves *)

Lemma znth_firstn_some : forall (v : list Z) (W k : Z) a, znth (firstn (Z.to_nat W) v) k = Some a <-> znth v k = Some a /\ k < W.
Proof.
  intros v W k a. unfold znth. destruct (k <? 0) eqn:C; [split; [discriminate|intros [? _]; discriminate]|]. split.
  - intros H. assert (L : (Z.to_nat k < length (firstn (Z.to_nat W) v))%nat) by (apply nth_error_Some; congruence). rewrite firstn_length in L. split; [|lia]. rewrite <- (firstn_skipn (Z.to_nat W) v), nth_error_app1 by (rewrite firstn_length; lia). exact H.
  - intros [H Hk]. assert (L : (Z.to_nat k < length v)%nat) by (apply nth_error_Some; congruence). rewrite <- (firstn_skipn (Z.to_nat W) v), nth_error_app1 in H by (rewrite firstn_length; lia). exact H.
Qed.

Lemma znth_skipn_some : forall (v : list Z) (W k : Z) (a : Z), 0 <= W -> 0 <= k -> znth (skipn (Z.to_nat W) v) k = znth v (k + W).
Proof.
  intros v W k a HW Hk. unfold znth. replace (k <? 0) with false by lia. replace (k + W <? 0) with false by lia. replace (Z.to_nat (k + W)) with (Z.to_nat W + Z.to_nat k)%nat by lia. generalize (Z.to_nat W) (Z.to_nat k). clear.
  intros n m. revert v. induction n as [|n IH]; intros v; [reflexivity|]. destruct v as [|x v]; [cbn [skipn plus]; destruct m; reflexivity|]. cbn [skipn plus nth_error]. apply IH.
Qed.

Lemma znth_map : forall (g : Z -> Z) (v : list Z) k, znth (map g v) k = option_map g (znth v k).
Proof. intros g v k. unfold znth. destruct (k <? 0); [reflexivity|]. apply nth_error_map. Qed.

Lemma halves_columns : forall (g : Z -> Z) (W : Z) (args : list (list Z)), 0 <= W ->
  let us := map (fun v => map g (firstn (Z.to_nat W) v)) args in let vs := map (fun v => map g (skipn (Z.to_nat W) v)) args in
  (forall k env, column args k env -> (k < W -> column us k (map g env)) /\ (W <= k -> column vs (k - W) (map g env))) /\
  (forall k row, column us k row -> exists env, column args k env /\ row = map g env) /\ (forall k row, column vs k row -> exists env, column args (k + W) env /\ row = map g env).
Proof.
  intros g W args HW us vs. split; [|split].
  - intros k env H. subst us vs. induction H as [|v a args env Ha H [I1 I2]]; [split; constructor|]. cbn [map]. pose proof (znth_Some_lt _ _ _ Ha) as Hk. split; intros Hc; (constructor; [|first [exact (I1 Hc)|exact (I2 Hc)]]).
    + rewrite znth_map, (proj2 (znth_firstn_some v W k a)) by (split; assumption). reflexivity.
    + rewrite znth_map, (znth_skipn_some v W (k - W) a HW) by lia. replace (k - W + W) with k by lia. rewrite Ha. reflexivity.
  - intros k row H. subst us vs. revert row H. induction args as [|v args IH]; intros row H; cbn [map] in H; inversion H as [|? z ? row' Hz H']; subst; [exists []; split; [constructor|reflexivity]|].
    destruct (IH row' H') as (env & C & ->). rewrite znth_map in Hz. destruct (znth (firstn (Z.to_nat W) v) k) as [a|] eqn:Ea; [|discriminate]. injection Hz as <-. apply znth_firstn_some in Ea. destruct Ea as [Ea _]. exists (a :: env). split; [constructor; assumption|reflexivity].
  - intros k row H. subst us vs. revert row H. induction args as [|v args IH]; intros row H; cbn [map] in H; inversion H as [|? z ? row' Hz H']; subst; [exists []; split; [constructor|reflexivity]|].
    destruct (IH row' H') as (env & C & ->). pose proof (znth_Some_lt _ _ _ Hz) as Hk. rewrite znth_map in Hz. rewrite (znth_skipn_some v W k 0 HW) in Hz by lia. destruct (znth v (k + W)) as [a|] eqn:Ea; [|discriminate]. injection Hz as <-. exists (a :: env). split; [constructor; assumption|reflexivity].
Qed.

Lemma halves_shape : forall e W (args : list (list Z)), In e doubles -> 0 <= W -> Forall (fun v => zlen v = 2 * W /\ Forall (lane e) v) args ->
  Forall (fun v => zlen v = W /\ Forall (lane EF64) v) (map (fun v => map (as_f64 e) (firstn (Z.to_nat W) v)) args) /\ Forall (fun v => zlen v = W /\ Forall (lane EF64) v) (map (fun v => map (as_f64 e) (skipn (Z.to_nat W) v)) args).
Proof.
  intros e W args He HW F. destruct (double_prim e He) as (_ & _ & _ & _ & Ln). split; apply Forall_map; (eapply Forall_impl; [|exact F]); intros v [Lv Fv]; unfold zlen in *; rewrite map_length.
  - rewrite firstn_length. split; [lia|]. apply Forall_map. eapply Forall_impl; [|apply Forall_firstn; exact Fv]. intros x Hx. exact (proj2 (Ln x Hx)).
  - rewrite skipn_length. split; [lia|]. apply Forall_map. eapply Forall_impl; [|apply Forall_skipn; exact Fv]. intros x Hx. exact (proj2 (Ln x Hx)).
Qed.

Lemma double_up_all : forall fs narrow e l lw args, target fs -> In e doubles -> natural fs (el_name e ++ "s") = [l] -> natural fs (el_name EF64 ++ "s") = [lw] -> Forall (fun v => zlen v = p_width l /\ Forall (lane e) v) args ->
  upcast_all fs narrow (p_vec l) (p_vec lw) args = Some (Ok (map (fun v => map (as_f64 e) (firstn (Z.to_nat (p_width lw)) v)) args, map (fun v => map (as_f64 e) (skipn (Z.to_nat (p_width lw)) v)) args)).
Proof. intros fs narrow e l lw args T He Nl Nw F. induction F as [|v args [Lv Fv] F IH]; [reflexivity|]. cbn [upcast_all]. rewrite (double_up fs narrow e l lw v T He Nl Nw Lv Fv). cbn [andthen]. rewrite IH. reflexivity. Qed.

Lemma portable_up_all : forall fs narrow e l lw args, fs "undefined"%string = false -> In e doubles -> portable_natural fs (el_name e ++ "s") = [l] -> portable_natural fs (el_name EF64 ++ "s") = [lw] -> Forall (fun v => zlen v = p_width l /\ Forall (lane e) v) args ->
  portable_upcast_all narrow (p_vec l) (p_vec lw) args = Some (Ok (map (fun v => map (as_f64 e) (firstn (Z.to_nat (p_width lw)) v)) args, map (fun v => map (as_f64 e) (skipn (Z.to_nat (p_width lw)) v)) args)).
Proof. intros fs narrow e l lw args T He Nl Nw F. induction F as [|v args [Lv Fv] F IH]; [reflexivity|]. cbn [portable_upcast_all]. rewrite (portable_up fs narrow e l lw v T He Nl Nw Lv Fv). cbn [andthen]. rewrite IH. reflexivity. Qed.

Lemma joined : forall (narrow : Z -> Z) (a b : list Z) (W k y : Z), zlen a = W -> 0 <= k -> (k < W -> znth a k = Some y) -> (W <= k -> znth b (k - W) = Some y) -> znth (map narrow (a ++ b)) k = Some (narrow y).
Proof. intros narrow a b W k y La Hk Ha Hb. apply znth_lanes. rewrite znth_app by exact Hk. rewrite La. destruct (k <? W) eqn:C; [apply Ha|apply Hb]; lia. Qed.

Lemma joined_len : forall (narrow : Z -> Z) (a b : list Z) W, zlen a = W -> zlen b = W -> zlen (map narrow (a ++ b)) = 2 * W.
Proof. intros narrow a b W La Lb. unfold zlen in *. rewrite map_length, app_length. lia. Qed.

Lemma column_nonneg : forall (args : list (list Z)) k env, args <> [] -> column args k env -> 0 <= k.
Proof. intros args k env Hne Hc. destruct Hc as [|v z args env Hz Hc]; [congruence|]. pose proof (znth_Some_lt _ _ _ Hz). lia. Qed.

Lemma andthen_ok : forall (A B : Type) (a : A) (f : A -> option (outcome B)), andthen (Some (Ok a)) f = f a.
Proof. reflexivity. Qed.

Lemma c98_vector : forall (fs : features) (tie : bool) (fop : arith -> elty -> Z -> Z -> Z) (fsqrt : elty -> Z -> Z) (narrow : Z -> Z) (e : elty) (x : expr) (args : list (list Z)) (l0 : packed_line),
  target fs -> In e doubles ->
  (forall o e u v, e = EF32 \/ e = EF64 -> lane e u -> lane e v -> lane e (fop o e u v)) -> (forall e u, e = EF32 \/ e = EF64 -> lane e u -> lane e (fsqrt e u)) ->
  type_of EF64 (length args) x = Some EF64 -> natural fs (el_name e ++ "s") = [l0] ->
  args <> [] -> Forall (fun v => zlen v = p_width l0 /\ Forall (lane e) v) args ->
  exists r, doubled_in fs tie fop fsqrt narrow e x args = Some (Ok r) /\ zlen r = p_width l0 /\
    forall k env, column args k env -> znth r k = Some (narrow (meaning EF64 (length args) fop fsqrt x (map (as_f64 e) env))).
Proof.
  intros fs tie fop fsqrt narrow e x args l0 T He Hf Hs Ht N0 Hne Fa. destruct (double_prim e He) as (P1 & B1 & _). assert (P2 : In EF64 primitives) by (vm_compute; tauto). assert (P3 : In EF32 primitives) by (vm_compute; tauto).
  destruct (natural_line fs _ T P1) as (m & M & N1 & _ & W1 & _). rewrite N0 in M. injection M as <-. destruct (natural_line fs _ T P2) as (lw & Nw & N2 & _ & W2 & _). destruct (natural_line fs _ T P3) as (lo & No & N3 & _ & W3 & _).
  assert (Ww : p_width l0 = 2 * p_width lw /\ 0 <= p_width lw) by (rewrite W1, W2, B1; unfold register; destruct (fs "avx2"%string); vm_compute; split; congruence). destruct Ww as (Ww & W0).
  pose proof (double_up_all fs narrow e l0 lw args T He N0 Nw Fa) as Eu. rewrite Ww in Fa. destruct (halves_shape e _ args He W0 Fa) as [Fu Fv]. destruct (halves_columns (as_f64 e) (p_width lw) args W0) as (Cu & _).
  set (us := map (fun v => map (as_f64 e) (firstn (Z.to_nat (p_width lw)) v)) args) in *. set (vs := map (fun v => map (as_f64 e) (skipn (Z.to_nat (p_width lw)) v)) args) in *.
  assert (Lu : length us = length args) by apply map_length. assert (Lv : length vs = length args) by apply map_length. assert (Hu : us <> []) by (intros Q; rewrite Q in Lu; destruct args; [congruence|discriminate]). assert (Hv : vs <> []) by (intros Q; rewrite Q in Lv; destruct args; [congruence|discriminate]).
  destruct (c83_closure fs tie fop fsqrt narrow EF64 EF64 x us lw lw T P2 Hf Hs ltac:(rewrite Lu; exact Ht) Nw Nw Hu Fu) as (a & Ra & La & Ia & Ma). destruct (c83_closure fs tie fop fsqrt narrow EF64 EF64 x vs lw lw T P2 Hf Hs ltac:(rewrite Lv; exact Ht) Nw Nw Hv Fv) as (b & Rb & Lb & Ib & Mb). rewrite Lu in Ra, Ma. rewrite Lv in Rb, Mb.
  exists (map narrow (a ++ b)). unfold doubled_in. rewrite N1, N2, N3, Eu, andthen_ok. cbn [fst snd]. rewrite Ra, andthen_ok, Rb, andthen_ok, (double_down fs narrow lw lo a b T Nw No La Lb Ia Ib), andthen_ok. split; [reflexivity|]. split; [rewrite Ww; exact (joined_len narrow a b _ La Lb)|].
  intros k env Hc. destruct (Cu k env Hc) as [C1 C2]. pose proof (column_nonneg args k env Hne Hc) as Hk.
  apply (joined narrow a b (p_width lw)); [exact La|exact Hk|intros C; exact (Ma k _ (C1 C))|intros C; exact (Mb _ _ (C2 C))].
Qed.

Lemma c98_vector_portable : forall (fs : features) (c : config) (tie : bool) (fop : arith -> elty -> Z -> Z -> Z) (fsqrt : elty -> Z -> Z) (narrow : Z -> Z) (e : elty) (x : expr) (args : list (list Z)) (l0 : packed_line),
  fs "undefined"%string = false -> In e doubles ->
  (forall o e u v, e = EF32 \/ e = EF64 -> lane e u -> lane e v -> lane e (fop o e u v)) -> (forall e u, e = EF32 \/ e = EF64 -> lane e u -> lane e (fsqrt e u)) ->
  type_of EF64 (length args) x = Some EF64 -> portable_natural fs (el_name e ++ "s") = [l0] ->
  args <> [] -> Forall (fun v => zlen v = p_width l0 /\ Forall (lane e) v) args ->
  build c = Release \/ (forall k env, column args k env -> overflows EF64 (length args) fop fsqrt x (map (as_f64 e) env) = false) ->
  exists r, portable_doubled fs tie fop fsqrt narrow c e x args = Some (Ok r) /\ zlen r = p_width l0 /\
    forall k env, column args k env -> znth r k = Some (narrow (meaning EF64 (length args) fop fsqrt x (map (as_f64 e) env))).
Proof.
  intros fs c tie fop fsqrt narrow e x args l0 T He Hf Hs Ht N0 Hne Fa Hov. destruct (double_prim e He) as (P1 & B1 & _). assert (P2 : In EF64 primitives) by (vm_compute; tauto). assert (P3 : In EF32 primitives) by (vm_compute; tauto).
  destruct (portable_line fs _ T P1) as (m & M & N1 & _ & W1 & _). rewrite N0 in M. injection M as <-. destruct (portable_line fs _ T P2) as (lw & Nw & N2 & _ & W2 & _). destruct (portable_line fs _ T P3) as (lo & No & N3 & _ & W3 & _).
  assert (Ww : p_width l0 = 2 * p_width lw /\ 0 <= p_width lw) by (rewrite W1, W2, B1; vm_compute; split; congruence). destruct Ww as (Ww & W0).
  pose proof (portable_up_all fs narrow e l0 lw args T He N0 Nw Fa) as Eu. rewrite Ww in Fa. destruct (halves_shape e _ args He W0 Fa) as [Fu Fv]. destruct (halves_columns (as_f64 e) (p_width lw) args W0) as (Cu & Du & Dv).
  set (us := map (fun v => map (as_f64 e) (firstn (Z.to_nat (p_width lw)) v)) args) in *. set (vs := map (fun v => map (as_f64 e) (skipn (Z.to_nat (p_width lw)) v)) args) in *.
  assert (Lu : length us = length args) by apply map_length. assert (Lv : length vs = length args) by apply map_length. assert (Hu : us <> []) by (intros Q; rewrite Q in Lu; destruct args; [congruence|discriminate]). assert (Hv : vs <> []) by (intros Q; rewrite Q in Lv; destruct args; [congruence|discriminate]).
  destruct (c94_closure fs c tie fop fsqrt narrow EF64 EF64 x us lw lw T P2 Hf Hs ltac:(rewrite Lu; exact Ht) Nw Nw Hu Fu) as [Au _]. destruct (c94_closure fs c tie fop fsqrt narrow EF64 EF64 x vs lw lw T P2 Hf Hs ltac:(rewrite Lv; exact Ht) Nw Nw Hv Fv) as [Av _]. rewrite Lu in Au. rewrite Lv in Av.
  destruct Au as (a & Ra & La & Ia & Ma). { destruct Hov as [Q|Q]; [left; exact Q|right]. intros k row Hc. destruct (Du k row Hc) as (env & C & ->). exact (Q k env C). }
  destruct Av as (b & Rb & Lb & Ib & Mb). { destruct Hov as [Q|Q]; [left; exact Q|right]. intros k row Hc. destruct (Dv k row Hc) as (env & C & ->). exact (Q _ env C). }
  exists (map narrow (a ++ b)). unfold portable_doubled. rewrite N1, N2, N3, Eu, andthen_ok. cbn [fst snd]. rewrite Ra, andthen_ok, Rb, andthen_ok, (portable_down fs narrow lw lo a b T Nw No La Lb Ia Ib), andthen_ok. split; [reflexivity|]. split; [rewrite Ww; exact (joined_len narrow a b _ La Lb)|].
  intros k env Hc. destruct (Cu k env Hc) as [C1 C2]. pose proof (column_nonneg args k env Hne Hc) as Hk.
  apply (joined narrow a b (p_width lw)); [exact La|exact Hk|intros C; exact (Ma k _ (C1 C))|intros C; exact (Mb _ _ (C2 C))].
Qed.

Lemma doubled_lanes : forall (fs : features) (c : config) (tie : bool) (fop : arith -> elty -> Z -> Z -> Z) (fsqrt : elty -> Z -> Z) (narrow : Z -> Z) (e : elty) (x : expr) (args : list (list Z)) (l0 : packed_line),
  target fs -> In e doubles ->
  (forall o e u v, e = EF32 \/ e = EF64 -> lane e u -> lane e v -> lane e (fop o e u v)) -> (forall e u, e = EF32 \/ e = EF64 -> lane e u -> lane e (fsqrt e u)) ->
  type_of EF64 (length args) x = Some EF64 -> natural fs (el_name e ++ "s") = [l0] ->
  args <> [] -> Forall (fun v => zlen v = p_width l0 /\ Forall (lane e) v) args ->
  exists r, doubled_in fs tie fop fsqrt narrow e x args = Some (Ok r) /\ zlen r = p_width l0 /\
    forall k env, column args k env -> znth r k = Some (narrow (meaning EF64 (length args) fop fsqrt x (map (as_f64 e) env))).
Proof.
  intros fs c tie fop fsqrt narrow e x args l0 T He Hf Hs Ht N0 Hne Fa. exact (c98_vector fs tie fop fsqrt narrow e x args l0 T He Hf Hs Ht N0 Hne Fa).
Qed.

Lemma doubled_tuple : forall (fs : features) (c : config) (tie : bool) (fop : arith -> elty -> Z -> Z -> Z) (fsqrt : elty -> Z -> Z) (narrow : Z -> Z) (e : elty) (x : expr) (l0 : packed_line) (n : nat) (E : Type) (func : E -> tuple (list Z) (S n) -> list Z * E),
  target fs -> In e doubles ->
  (forall o e u v, e = EF32 \/ e = EF64 -> lane e u -> lane e v -> lane e (fop o e u v)) -> (forall e u, e = EF32 \/ e = EF64 -> lane e u -> lane e (fsqrt e u)) ->
  type_of EF64 (S (S n)) x = Some EF64 -> natural fs (el_name e ++ "s") = [l0] ->
  (forall e' t r, Forall (fun v => zlen v = p_width l0 /\ Forall (lane e) v) (PipeSpec.items (S n) t) -> doubled_in fs tie fop fsqrt narrow e x (PipeSpec.items (S n) t) = Some (Ok r) -> fst (func e' t) = r) ->
  lane_by_lane (WIDTH (vty_of l0)) (lane e) (S n) (fun row => narrow (meaning EF64 (S (S n)) fop fsqrt x (map (as_f64 e) row))) func.
Proof.
  intros fs c tie fop fsqrt narrow e x l0 n E func T He Hf Hs Ht N0 Hrun e' tp Htp. pose proof (items_length (S n) tp) as Il. assert (Hne : PipeSpec.items (S n) tp <> []) by (intros Q; rewrite Q in Il; discriminate).
  destruct (doubled_lanes fs c tie fop fsqrt narrow e x (PipeSpec.items (S n) tp) l0 T He Hf Hs) as (r & Rr & Lr & M); [rewrite Il; exact Ht|exact N0|exact Hne|exact Htp|].
  rewrite (Hrun e' tp r Htp Rr). split; [exact Lr|]. intros i r0 Hc. rewrite (M i r0 Hc), Il. reflexivity.
Qed.

Lemma c98_map : forall (fs : features) (c : config) (tie : bool) (fop : arith -> elty -> Z -> Z -> Z) (fsqrt : elty -> Z -> Z) (narrow : Z -> Z) (e : elty) (x : expr) (l d : list Z) (l0 l1 : packed_line)
    (E : Type) (func : E -> list Z -> list Z * E) (env : E) (fuel : nat),
  target fs -> In e doubles ->
  (forall o e u v, e = EF32 \/ e = EF64 -> lane e u -> lane e v -> lane e (fop o e u v)) -> (forall e u, e = EF32 \/ e = EF64 -> lane e u -> lane e (fsqrt e u)) ->
  type_of EF64 1 x = Some EF64 -> natural fs (el_name e ++ "s") = [l0] -> natural fs (el_name EF32 ++ "s") = [l1] ->
  Forall (lane e) l -> zlen d = p_width l0 -> Forall (lane e) d -> zlen l * p_size l0 + 32 <= isize_max -> (length l < fuel)%nat ->
  (forall e' v r, zlen v = p_width l0 -> Forall (lane e) v -> doubled_in fs tie fop fsqrt narrow e x [v] = Some (Ok r) -> fst (func e' v) = r) ->
  exists s', scalar_collect c (map_iterator c (slice_iterator c (vty_of l0)) (vty_of l1) 0 func) 0 fuel (mkSIMDMap (simd_iter l d) env) =
    Ok (map (fun a => Some (narrow (meaning EF64 1 fop fsqrt x [as_f64 e a]))) l, s').
Proof.
  intros fs c tie fop fsqrt narrow e x l d l0 l1 E func env fuel T He Hf Hs Ht N0 N1 Fl Ld Fd Cap Hfu Hrun. destruct (double_prim e He) as (P1 & B & _). assert (P3 : In EF32 primitives) by (vm_compute; tauto).
  destruct (natural_vty fs e l0 T P1 N0) as (V0 & W0 & S0 & C0). destruct (natural_vty fs _ l1 T P3 N1) as (V1 & W1 & S1 & _).
  destruct (c72_map Z Z E c (vty_of l0) (vty_of l1) l d (lane e) (fun a y => y = narrow (meaning EF64 1 fop fsqrt x [as_f64 e a])) func env 0 fuel V0 V1) as (out & s' & R & F); try assumption.
  - rewrite W1, W0, B. reflexivity.
  - rewrite S1, S0, B. reflexivity.
  - unfold vty_of in C0 |- *. cbn [WIDTH SIZE] in C0 |- *. lia.
  - intros e' v Lv Fv. destruct (doubled_lanes fs c tie fop fsqrt narrow e x [v] l0 T He Hf Hs Ht N0) as (r & Rr & Lr & M); [discriminate|constructor; [split; assumption|constructor]|].
    rewrite (Hrun e' v r Lv Fv Rr). cbn [length] in M.
    assert (Lvr : length v = length r) by (change (WIDTH (vty_of l0)) with (p_width l0) in Lv; unfold zlen in *; lia).
    assert (K : forall k a, znth v k = Some a -> znth r k = Some (narrow (meaning EF64 1 fop fsqrt x [as_f64 e a]))) by (intros k a Ha; apply (M k [a]); constructor; [exact Ha|constructor]).
    clear -K Lvr. revert r Lvr K. induction v as [|a v IH]; intros [|y r] Lvr K; try discriminate; [constructor|]. constructor; [specialize (K 0 a eq_refl); injection K as ->; reflexivity|].
    apply IH; [cbn [length] in Lvr; lia|]. intros k b Hb. pose proof (znth_Some_lt _ _ _ Hb) as Hk. specialize (K (k + 1) b).
    rewrite !znth_cons_shift in K by lia. replace (k + 1 - 1) with k in K by lia. apply K. exact Hb.
  - exists s'. rewrite R. f_equal. f_equal. clear -F. induction F as [|a y l out -> F IH]; [reflexivity|]. cbn [map]. rewrite IH. reflexivity.
Qed.

Lemma c98_zip : forall (fs : features) (c : config) (tie : bool) (fop : arith -> elty -> Z -> Z -> Z) (fsqrt : elty -> Z -> Z) (narrow : Z -> Z) (e : elty) (x : expr) (n : nat) (ls ds : list (list Z)) (N : Z) (l0 l1 : packed_line)
    (E : Type) (func : E -> tuple (list Z) (S n) -> list Z * E) (env : E) (tp : tuple (SIMDIter Z (list Z)) (S n)) (fuel : nat),
  target fs -> In e doubles ->
  (forall o e u v, e = EF32 \/ e = EF64 -> lane e u -> lane e v -> lane e (fop o e u v)) -> (forall e u, e = EF32 \/ e = EF64 -> lane e u -> lane e (fsqrt e u)) ->
  type_of EF64 (S (S n)) x = Some EF64 -> natural fs (el_name e ++ "s") = [l0] -> natural fs (el_name EF32 ++ "s") = [l1] ->
  Forall (fun l => zlen l = N /\ Forall (lane e) l) ls -> Forall (fun d => zlen d = p_width l0 /\ Forall (lane e) d) ds -> length ls = length ds ->
  PipeSpec.items (S n) tp = map2 simd_iter ls ds -> N * p_size l0 + 32 <= isize_max -> N < Z.of_nat fuel ->
  (forall e' t r, Forall (fun v => zlen v = p_width l0 /\ Forall (lane e) v) (PipeSpec.items (S n) t) -> doubled_in fs tie fop fsqrt narrow e x (PipeSpec.items (S n) t) = Some (Ok r) -> fst (func e' t) = r) ->
  let rest := rest_many (blanket_unsafe c (si_array (slice_array c (vty_of l0))) (si_iterable c (slice_array c (vty_of l0)))) n in
  let m := zipmap_iterator c (zip_iterator (slice_iterator c (vty_of l0)) rest) (vty_of l1) 0 func in
  zip (slice_iterator c (vty_of l0)) rest tp = Ok tp /\
  exists out s', scalar_collect c m 0 fuel (mkSIMDMap tp env) = Ok (map Some out, s') /\
    zlen out = N /\ forall k r, column ls k r -> znth out k = Some (narrow (meaning EF64 (S (S n)) fop fsqrt x (map (as_f64 e) r))).
Proof.
  intros fs c tie fop fsqrt narrow e x n ls ds N l0 l1 E func env tp fuel T He Hf Hs Ht N0 N1 Hls Hds Hlen Hit Cap Hfu Hrun. destruct (double_prim e He) as (P1 & B & _). assert (P3 : In EF32 primitives) by (vm_compute; tauto).
  destruct (natural_vty fs e l0 T P1 N0) as (V0 & W0 & S0 & C0). destruct (natural_vty fs _ l1 T P3 N1) as (V1 & W1 & S1 & _).
  apply (c72_zip_slices Z Z E c (vty_of l0) (vty_of l1) n ls ds N 0 (fun row => narrow (meaning EF64 (S (S n)) fop fsqrt x (map (as_f64 e) row))) func env (lane e) tp fuel V0 V1); try assumption.
  - rewrite W1, W0, B. reflexivity.
  - rewrite S1, S0, B. reflexivity.
  - unfold vty_of in C0 |- *. cbn [WIDTH SIZE] in C0 |- *. lia.
  - exact (doubled_tuple fs c tie fop fsqrt narrow e x l0 n E func T He Hf Hs Ht N0 Hrun).
Qed.

Lemma c98_strides : forall (fs : features) (c : config) (tie : bool) (fop : arith -> elty -> Z -> Z -> Z) (fsqrt : elty -> Z -> Z) (narrow : Z -> Z) (e : elty) (x : expr) (n : nat) (l : list Z) (ds : list (list Z)) (x0 : Z) (l0 l1 : packed_line)
    (E : Type) (func : E -> tuple (list Z) (S n) -> list Z * E) (env : E) (fuel : nat),
  let count := Z.of_nat n + 2 in
  target fs -> In e doubles ->
  (forall o e u v, e = EF32 \/ e = EF64 -> lane e u -> lane e v -> lane e (fop o e u v)) -> (forall e u, e = EF32 \/ e = EF64 -> lane e u -> lane e (fsqrt e u)) ->
  type_of EF64 (S (S n)) x = Some EF64 -> natural fs (el_name e ++ "s") = [l0] -> natural fs (el_name EF32 ++ "s") = [l1] ->
  Forall (lane e) l -> zlen l * p_size l0 <= isize_max -> count * 33 <= 2 ^ 63 -> zlen ds = count -> Forall (fun d => zlen d = p_width l0 /\ Forall (lane e) d) ds -> (length l < fuel)%nat ->
  (forall e' t r, Forall (fun v => zlen v = p_width l0 /\ Forall (lane e) v) (PipeSpec.items (S n) t) -> doubled_in fs tie fop fsqrt narrow e x (PipeSpec.items (S n) t) = Some (Ok r) -> fst (func e' t) = r) ->
  let it := stride_iterator c (slice_array c (vty_of l0)) x0 in
  let rest := rest_many (blanket_unsafe c (ps_array c (slice_array c (vty_of l0)) x0) (ps_iterable c (slice_array c (vty_of l0)) x0)) n in
  let m := zipmap_iterator c (zip_iterator it rest) (vty_of l1) 0 func in
  exists tp : tuple (PackedStride Z (list Z)) (S n), stride l count ds = Ok (PipeSpec.items (S n) tp) /\ zip it rest tp = Ok tp /\
  exists out s', scalar_collect c m 0 fuel (mkSIMDMap tp env) = Ok (map Some out, s') /\
    zlen out = zlen l / count /\ forall k, 0 <= k < zlen out -> znth out k = Some (narrow (meaning EF64 (S (S n)) fop fsqrt x (map (as_f64 e) (sub l (count * k) count)))).
Proof.
  intros fs c tie fop fsqrt narrow e x n l ds x0 l0 l1 E func env fuel count T He Hf Hs Ht N0 N1 Fl Cap Hcnt Hlen Hds Hfu Hrun. destruct (double_prim e He) as (P1 & B & _). assert (P3 : In EF32 primitives) by (vm_compute; tauto).
  destruct (natural_vty fs e l0 T P1 N0) as (V0 & W0 & S0 & C0). destruct (natural_vty fs _ l1 T P3 N1) as (V1 & W1 & S1 & _).
  apply (c72_zip_strides Z Z E c (vty_of l0) (vty_of l1) n l ds x0 0 (fun row => narrow (meaning EF64 (S (S n)) fop fsqrt x (map (as_f64 e) row))) func env (lane e) fuel V0 V1); try assumption.
  - rewrite W1, W0, B. reflexivity.
  - rewrite S1, S0, B. reflexivity.
  - assert (W : WIDTH (vty_of l0) <= 32) by (rewrite W0, B; unfold register; destruct (fs "avx2"%string); vm_compute; discriminate). unfold count in Hcnt. nia.
  - exact (doubled_tuple fs c tie fop fsqrt narrow e x l0 n E func T He Hf Hs Ht N0 Hrun).
Qed.

Lemma portable_doubled_lanes : forall (fs : features) (c : config) (tie : bool) (fop : arith -> elty -> Z -> Z -> Z) (fsqrt : elty -> Z -> Z) (narrow : Z -> Z) (e : elty) (x : expr) (args : list (list Z)) (l0 : packed_line),
  fs "undefined"%string = false -> In e doubles ->
  (forall o e u v, e = EF32 \/ e = EF64 -> lane e u -> lane e v -> lane e (fop o e u v)) -> (forall e u, e = EF32 \/ e = EF64 -> lane e u -> lane e (fsqrt e u)) ->
  type_of EF64 (length args) x = Some EF64 -> build c = Release \/ (forall row, length row = length args -> Forall (lane e) row -> overflows EF64 (length args) fop fsqrt x (map (as_f64 e) row) = false) -> portable_natural fs (el_name e ++ "s") = [l0] ->
  args <> [] -> Forall (fun v => zlen v = p_width l0 /\ Forall (lane e) v) args ->
  exists r, portable_doubled fs tie fop fsqrt narrow c e x args = Some (Ok r) /\ zlen r = p_width l0 /\
    forall k env, column args k env -> znth r k = Some (narrow (meaning EF64 (length args) fop fsqrt x (map (as_f64 e) env))).
Proof.
  intros fs c tie fop fsqrt narrow e x args l0 T He Hf Hs Ht Hov N0 Hne Fa. apply c98_vector_portable; try assumption. destruct Hov as [Q|Q]; [left; exact Q|right]. intros k env Hc.
  assert (Fe : length env = length args /\ Forall (lane e) env). { clear -Hc Fa. induction Hc as [|v z args env Hz Hc IH]; [split; [reflexivity|constructor]|]. inversion Fa as [|? ? [_ Fv] Fa']; subst. destruct (IH Fa') as [I1 I2]. split; [cbn [length]; lia|]. constructor; [exact (proj1 (Forall_forall _ _) Fv _ (OpProofs.znth_In _ _ _ _ Hz))|exact I2]. }
  apply Q; apply Fe.
Qed.

Lemma portable_doubled_tuple : forall (fs : features) (c : config) (tie : bool) (fop : arith -> elty -> Z -> Z -> Z) (fsqrt : elty -> Z -> Z) (narrow : Z -> Z) (e : elty) (x : expr) (l0 : packed_line) (n : nat) (E : Type) (func : E -> tuple (list Z) (S n) -> list Z * E),
  fs "undefined"%string = false -> In e doubles ->
  (forall o e u v, e = EF32 \/ e = EF64 -> lane e u -> lane e v -> lane e (fop o e u v)) -> (forall e u, e = EF32 \/ e = EF64 -> lane e u -> lane e (fsqrt e u)) ->
  type_of EF64 (S (S n)) x = Some EF64 -> build c = Release \/ (forall row, length row = S (S n) -> Forall (lane e) row -> overflows EF64 (S (S n)) fop fsqrt x (map (as_f64 e) row) = false) -> portable_natural fs (el_name e ++ "s") = [l0] ->
  (forall e' t r, Forall (fun v => zlen v = p_width l0 /\ Forall (lane e) v) (PipeSpec.items (S n) t) -> portable_doubled fs tie fop fsqrt narrow c e x (PipeSpec.items (S n) t) = Some (Ok r) -> fst (func e' t) = r) ->
  lane_by_lane (WIDTH (vty_of l0)) (lane e) (S n) (fun row => narrow (meaning EF64 (S (S n)) fop fsqrt x (map (as_f64 e) row))) func.
Proof.
  intros fs c tie fop fsqrt narrow e x l0 n E func T He Hf Hs Ht Hov N0 Hrun e' tp Htp. pose proof (items_length (S n) tp) as Il. assert (Hne : PipeSpec.items (S n) tp <> []) by (intros Q; rewrite Q in Il; discriminate).
  destruct (portable_doubled_lanes fs c tie fop fsqrt narrow e x (PipeSpec.items (S n) tp) l0 T He Hf Hs) as (r & Rr & Lr & M); [rewrite Il; exact Ht|rewrite Il; exact Hov|exact N0|exact Hne|exact Htp|].
  rewrite (Hrun e' tp r Htp Rr). split; [exact Lr|]. intros i r0 Hc. rewrite (M i r0 Hc), Il. reflexivity.
Qed.

Lemma c98_map_portable : forall (fs : features) (c : config) (tie : bool) (fop : arith -> elty -> Z -> Z -> Z) (fsqrt : elty -> Z -> Z) (narrow : Z -> Z) (e : elty) (x : expr) (l d : list Z) (l0 l1 : packed_line)
    (E : Type) (func : E -> list Z -> list Z * E) (env : E) (fuel : nat),
  fs "undefined"%string = false -> In e doubles ->
  (forall o e u v, e = EF32 \/ e = EF64 -> lane e u -> lane e v -> lane e (fop o e u v)) -> (forall e u, e = EF32 \/ e = EF64 -> lane e u -> lane e (fsqrt e u)) ->
  type_of EF64 1 x = Some EF64 -> build c = Release \/ (forall row, length row = 1%nat -> Forall (lane e) row -> overflows EF64 1 fop fsqrt x (map (as_f64 e) row) = false) -> portable_natural fs (el_name e ++ "s") = [l0] -> portable_natural fs (el_name EF32 ++ "s") = [l1] ->
  Forall (lane e) l -> zlen d = p_width l0 -> Forall (lane e) d -> zlen l * p_size l0 + 16 <= isize_max -> (length l < fuel)%nat ->
  (forall e' v r, zlen v = p_width l0 -> Forall (lane e) v -> portable_doubled fs tie fop fsqrt narrow c e x [v] = Some (Ok r) -> fst (func e' v) = r) ->
  exists s', scalar_collect c (map_iterator c (slice_iterator c (vty_of l0)) (vty_of l1) 0 func) 0 fuel (mkSIMDMap (simd_iter l d) env) =
    Ok (map (fun a => Some (narrow (meaning EF64 1 fop fsqrt x [as_f64 e a]))) l, s').
Proof.
  intros fs c tie fop fsqrt narrow e x l d l0 l1 E func env fuel T He Hf Hs Ht Hov N0 N1 Fl Ld Fd Cap Hfu Hrun. destruct (double_prim e He) as (P1 & B & _). assert (P3 : In EF32 primitives) by (vm_compute; tauto).
  destruct (portable_vty fs e l0 T P1 N0) as (V0 & W0 & S0 & C0). destruct (portable_vty fs _ l1 T P3 N1) as (V1 & W1 & S1 & _).
  destruct (c72_map Z Z E c (vty_of l0) (vty_of l1) l d (lane e) (fun a y => y = narrow (meaning EF64 1 fop fsqrt x [as_f64 e a])) func env 0 fuel V0 V1) as (out & s' & R & F); try assumption.
  - rewrite W1, W0, B. reflexivity.
  - rewrite S1, S0, B. reflexivity.
  - unfold vty_of in C0 |- *. cbn [WIDTH SIZE] in C0 |- *. lia.
  - intros e' v Lv Fv. destruct (portable_doubled_lanes fs c tie fop fsqrt narrow e x [v] l0 T He Hf Hs Ht Hov N0) as (r & Rr & Lr & M); [discriminate|constructor; [split; assumption|constructor]|].
    rewrite (Hrun e' v r Lv Fv Rr). cbn [length] in M.
    assert (Lvr : length v = length r) by (change (WIDTH (vty_of l0)) with (p_width l0) in Lv; unfold zlen in *; lia).
    assert (K : forall k a, znth v k = Some a -> znth r k = Some (narrow (meaning EF64 1 fop fsqrt x [as_f64 e a]))) by (intros k a Ha; apply (M k [a]); constructor; [exact Ha|constructor]).
    clear -K Lvr. revert r Lvr K. induction v as [|a v IH]; intros [|y r] Lvr K; try discriminate; [constructor|]. constructor; [specialize (K 0 a eq_refl); injection K as ->; reflexivity|].
    apply IH; [cbn [length] in Lvr; lia|]. intros k b Hb. pose proof (znth_Some_lt _ _ _ Hb) as Hk. specialize (K (k + 1) b).
    rewrite !znth_cons_shift in K by lia. replace (k + 1 - 1) with k in K by lia. apply K. exact Hb.
  - exists s'. rewrite R. f_equal. f_equal. clear -F. induction F as [|a y l out -> F IH]; [reflexivity|]. cbn [map]. rewrite IH. reflexivity.
Qed.

Lemma c98_zip_portable : forall (fs : features) (c : config) (tie : bool) (fop : arith -> elty -> Z -> Z -> Z) (fsqrt : elty -> Z -> Z) (narrow : Z -> Z) (e : elty) (x : expr) (n : nat) (ls ds : list (list Z)) (N : Z) (l0 l1 : packed_line)
    (E : Type) (func : E -> tuple (list Z) (S n) -> list Z * E) (env : E) (tp : tuple (SIMDIter Z (list Z)) (S n)) (fuel : nat),
  fs "undefined"%string = false -> In e doubles ->
  (forall o e u v, e = EF32 \/ e = EF64 -> lane e u -> lane e v -> lane e (fop o e u v)) -> (forall e u, e = EF32 \/ e = EF64 -> lane e u -> lane e (fsqrt e u)) ->
  type_of EF64 (S (S n)) x = Some EF64 -> build c = Release \/ (forall row, length row = S (S n) -> Forall (lane e) row -> overflows EF64 (S (S n)) fop fsqrt x (map (as_f64 e) row) = false) -> portable_natural fs (el_name e ++ "s") = [l0] -> portable_natural fs (el_name EF32 ++ "s") = [l1] ->
  Forall (fun l => zlen l = N /\ Forall (lane e) l) ls -> Forall (fun d => zlen d = p_width l0 /\ Forall (lane e) d) ds -> length ls = length ds ->
  PipeSpec.items (S n) tp = map2 simd_iter ls ds -> N * p_size l0 + 16 <= isize_max -> N < Z.of_nat fuel ->
  (forall e' t r, Forall (fun v => zlen v = p_width l0 /\ Forall (lane e) v) (PipeSpec.items (S n) t) -> portable_doubled fs tie fop fsqrt narrow c e x (PipeSpec.items (S n) t) = Some (Ok r) -> fst (func e' t) = r) ->
  let rest := rest_many (blanket_unsafe c (si_array (slice_array c (vty_of l0))) (si_iterable c (slice_array c (vty_of l0)))) n in
  let m := zipmap_iterator c (zip_iterator (slice_iterator c (vty_of l0)) rest) (vty_of l1) 0 func in
  zip (slice_iterator c (vty_of l0)) rest tp = Ok tp /\
  exists out s', scalar_collect c m 0 fuel (mkSIMDMap tp env) = Ok (map Some out, s') /\
    zlen out = N /\ forall k r, column ls k r -> znth out k = Some (narrow (meaning EF64 (S (S n)) fop fsqrt x (map (as_f64 e) r))).
Proof.
  intros fs c tie fop fsqrt narrow e x n ls ds N l0 l1 E func env tp fuel T He Hf Hs Ht Hov N0 N1 Hls Hds Hlen Hit Cap Hfu Hrun. destruct (double_prim e He) as (P1 & B & _). assert (P3 : In EF32 primitives) by (vm_compute; tauto).
  destruct (portable_vty fs e l0 T P1 N0) as (V0 & W0 & S0 & C0). destruct (portable_vty fs _ l1 T P3 N1) as (V1 & W1 & S1 & _).
  apply (c72_zip_slices Z Z E c (vty_of l0) (vty_of l1) n ls ds N 0 (fun row => narrow (meaning EF64 (S (S n)) fop fsqrt x (map (as_f64 e) row))) func env (lane e) tp fuel V0 V1); try assumption.
  - rewrite W1, W0, B. reflexivity.
  - rewrite S1, S0, B. reflexivity.
  - unfold vty_of in C0 |- *. cbn [WIDTH SIZE] in C0 |- *. lia.
  - exact (portable_doubled_tuple fs c tie fop fsqrt narrow e x l0 n E func T He Hf Hs Ht Hov N0 Hrun).
Qed.

Lemma c98_strides_portable : forall (fs : features) (c : config) (tie : bool) (fop : arith -> elty -> Z -> Z -> Z) (fsqrt : elty -> Z -> Z) (narrow : Z -> Z) (e : elty) (x : expr) (n : nat) (l : list Z) (ds : list (list Z)) (x0 : Z) (l0 l1 : packed_line)
    (E : Type) (func : E -> tuple (list Z) (S n) -> list Z * E) (env : E) (fuel : nat),
  let count := Z.of_nat n + 2 in
  fs "undefined"%string = false -> In e doubles ->
  (forall o e u v, e = EF32 \/ e = EF64 -> lane e u -> lane e v -> lane e (fop o e u v)) -> (forall e u, e = EF32 \/ e = EF64 -> lane e u -> lane e (fsqrt e u)) ->
  type_of EF64 (S (S n)) x = Some EF64 -> build c = Release \/ (forall row, length row = S (S n) -> Forall (lane e) row -> overflows EF64 (S (S n)) fop fsqrt x (map (as_f64 e) row) = false) -> portable_natural fs (el_name e ++ "s") = [l0] -> portable_natural fs (el_name EF32 ++ "s") = [l1] ->
  Forall (lane e) l -> zlen l * p_size l0 <= isize_max -> count * 33 <= 2 ^ 63 -> zlen ds = count -> Forall (fun d => zlen d = p_width l0 /\ Forall (lane e) d) ds -> (length l < fuel)%nat ->
  (forall e' t r, Forall (fun v => zlen v = p_width l0 /\ Forall (lane e) v) (PipeSpec.items (S n) t) -> portable_doubled fs tie fop fsqrt narrow c e x (PipeSpec.items (S n) t) = Some (Ok r) -> fst (func e' t) = r) ->
  let it := stride_iterator c (slice_array c (vty_of l0)) x0 in
  let rest := rest_many (blanket_unsafe c (ps_array c (slice_array c (vty_of l0)) x0) (ps_iterable c (slice_array c (vty_of l0)) x0)) n in
  let m := zipmap_iterator c (zip_iterator it rest) (vty_of l1) 0 func in
  exists tp : tuple (PackedStride Z (list Z)) (S n), stride l count ds = Ok (PipeSpec.items (S n) tp) /\ zip it rest tp = Ok tp /\
  exists out s', scalar_collect c m 0 fuel (mkSIMDMap tp env) = Ok (map Some out, s') /\
    zlen out = zlen l / count /\ forall k, 0 <= k < zlen out -> znth out k = Some (narrow (meaning EF64 (S (S n)) fop fsqrt x (map (as_f64 e) (sub l (count * k) count)))).
Proof.
  intros fs c tie fop fsqrt narrow e x n l ds x0 l0 l1 E func env fuel count T He Hf Hs Ht Hov N0 N1 Fl Cap Hcnt Hlen Hds Hfu Hrun. destruct (double_prim e He) as (P1 & B & _). assert (P3 : In EF32 primitives) by (vm_compute; tauto).
  destruct (portable_vty fs e l0 T P1 N0) as (V0 & W0 & S0 & C0). destruct (portable_vty fs _ l1 T P3 N1) as (V1 & W1 & S1 & _).
  apply (c72_zip_strides Z Z E c (vty_of l0) (vty_of l1) n l ds x0 0 (fun row => narrow (meaning EF64 (S (S n)) fop fsqrt x (map (as_f64 e) row))) func env (lane e) fuel V0 V1); try assumption.
  - rewrite W1, W0, B. reflexivity.
  - rewrite S1, S0, B. reflexivity.
  - assert (W : WIDTH (vty_of l0) <= 32) by (rewrite W0, B; vm_compute; discriminate). unfold count in Hcnt. nia.
  - exact (portable_doubled_tuple fs c tie fop fsqrt narrow e x l0 n E func T He Hf Hs Ht Hov N0 Hrun).
Qed.

(** ** Arithmetic without double rounding *)

Lemma nearest_exact : forall s n j den z, 0 < den -> 0 <= j <= 1990 -> 0 <= n < 2 * 2 ^ 52 -> nearest_to fmt64 (sg s * (n * 2 ^ j) * den) den z -> is_finite fmt64 z /\ fvalue fmt64 z = sg s * (n * 2 ^ j).
Proof.
  intros s n j den z Hd Hj Hn (P & Nn & H). destruct (representable fmt64 fmt64_ok s j n) as (y & Y1 & Y2 & Y3); [change (2 ^ f_e fmt64 - 3) with 2045; lia|exact Hn|].
  destruct (H y Y1 Y2) as [D _]. cbv zeta in D. rewrite Y3, Z.sub_diag in D. assert (V : fvalue fmt64 z = sg s * (n * 2 ^ j)). { clear -D Hd. set (v := sg s * (n * 2 ^ j)) in *. clearbody v. change (Z.abs 0) with 0 in D. assert (Q : fvalue fmt64 z * den - v * den = 0) by lia. assert (Q2 : fvalue fmt64 z * den = v * den) by lia. apply Z.mul_reg_r in Q2; [exact Q2|lia]. }
  split; [|exact V]. apply (finite_small fmt64 fmt64_ok z P Nn). assert (As : absval fmt64 z = Z.abs (fvalue fmt64 z)) by (rewrite (value_sg fmt64 fmt64_ok z P); pose proof (absval_nonneg fmt64 fmt64_ok z P); unfold sg; destruct (f_sign fmt64 z); clear -H0; lia).
  rewrite As, V. assert (Pj : 0 < 2 ^ j) by (apply Z.pow_pos_nonneg; lia). assert (L : Z.abs (sg s * (n * 2 ^ j)) = n * 2 ^ j) by (rewrite Z.abs_mul, (Z.abs_eq (n * 2 ^ j)) by (apply Z.mul_nonneg_nonneg; lia); unfold sg; destruct s; change (Z.abs (-1)) with 1; change (Z.abs 1) with 1; apply Z.mul_1_l). rewrite L.
  assert (J : 2 ^ j <= 2 ^ 1990) by (apply Z.pow_le_mono_r; lia). change (2 ^ f_e fmt64 - 2) with (1990 + 56). rewrite Z.pow_add_r by (vm_compute; discriminate). change (2 ^ f_m fmt64) with 4503599627370496. change (2 ^ 56) with 72057594037927936. change (2 * 2 ^ 52) with 9007199254740992 in Hn. clear -Hn Pj J. set (g := 2 ^ j) in *. set (h := 2 ^ 1990) in *. clearbody g h. nia.
Qed.

Lemma nearest_scale : forall f num den c z, 0 < c -> nearest_to f (num * c) (den * c) z -> nearest_to f num den z.
Proof.
  intros f num den c z Hc (P & Nn & H). split; [exact P|]. split; [exact Nn|]. intros y Y1 Y2. destruct (H y Y1 Y2) as [D1 D2]. cbv zeta in *.
  assert (S : forall v, Z.abs (v * (den * c) - num * c) = Z.abs (v * den - num) * c) by (intros v; rewrite <- (Z.abs_eq c) at 3 by lia; rewrite <- Z.abs_mul; f_equal; ring). rewrite !S in D1, D2. split; [apply Z.mul_le_mono_pos_r in D1; [exact D1|exact Hc]|]. intros Q. apply D2. rewrite Q. reflexivity.
Qed.

Lemma finite_form : forall a, f_pattern fmt32 a -> is_finite fmt32 a -> exists s n k, fvalue fmt32 a = sg s * (n * 2 ^ k) /\ 0 <= n < 16777216 /\ 0 <= k <= 253.
Proof.
  intros a Pa Fa. destruct (mag_fields fmt32 fmt32_ok a Pa) as (_ & He & Hm & _). unfold is_finite in Fa. change (2 ^ f_e fmt32) with 256 in He, Fa. change (2 ^ f_m fmt32) with 8388608 in Hm. unfold fvalue. change (2 ^ f_m fmt32) with 8388608.
  exists (negb (sign_bit fmt32 a =? 0)). set (S := if sign_bit fmt32 a =? 0 then 1 else -1). assert (ES : sg (negb (sign_bit fmt32 a =? 0)) = S) by (unfold sg, S; destruct (sign_bit fmt32 a =? 0); reflexivity). rewrite ES. clearbody S. clear ES.
  set (ex := exponent_field fmt32 a) in *. set (fr := fraction_field fmt32 a) in *. clearbody ex fr. destruct (ex =? 0) eqn:C.
  - exists fr, 0. rewrite Z.pow_0_r, Z.mul_1_r. split; [reflexivity|lia].
  - exists (8388608 + fr), (ex - 1). split; [reflexivity|lia].
Qed.

Lemma widened_value : forall a, f_pattern fmt32 a -> f_pattern fmt64 (f_widen a) /\ sign_bit fmt64 (f_widen a) = sign_bit fmt32 a /\
  (is_finite fmt32 a -> is_finite fmt64 (f_widen a) /\ fvalue fmt64 (f_widen a) = fvalue fmt32 a * 2 ^ 925) /\ (is_infinite fmt32 a -> is_infinite fmt64 (f_widen a)) /\ (is_nan fmt32 a -> is_nan fmt64 (f_widen a)).
Proof.
  intros a Pa. destruct (widen_same a) as (I & S & F & If & Nn); [exact (pattern_float EF32 a (or_introl eq_refl) Pa)|]. split; [exact (float_pattern EF64 _ (or_intror eq_refl) I)|]. split; [exact S|]. split; [|split; assumption].
  intros Fa. destruct (F Fa) as [F1 F2]. split; [exact F1|]. change (fone fmt32) with (2 ^ 149) in F2. change (fone fmt64) with (2 ^ (925 + 149)) in F2. rewrite Z.pow_add_r, Z.mul_assoc in F2 by (vm_compute; discriminate). apply Z.mul_reg_r in F2; [exact F2|]. apply Z.pow_nonzero; discriminate.
Qed.

Lemma fone64_pos : 0 < fone fmt64.
Proof. apply Z.pow_pos_nonneg; [reflexivity|vm_compute; discriminate]. Qed.

Lemma narrow_ratio : fone fmt64 / fone fmt32 = 2 ^ 925.
Proof. vm_compute. reflexivity. Qed.

Lemma c98_product : forall a b : Z, f_pattern fmt32 a -> f_pattern fmt32 b ->
  product_result fmt32 a b (f_narrow (meaning EF64 2 ieee_arith ieee_sqrt (Arith Mul (Arg 0) (Arg 1)) (map (as_f64 EF32) [a; b]))).
Proof.
  intros a b Pa Pb. change (meaning EF64 2 ieee_arith ieee_sqrt (Arith Mul (Arg 0) (Arg 1)) (map (as_f64 EF32) [a; b])) with (f_mul fmt64 (f_widen a) (f_widen b)).
  destruct (widened_value a Pa) as (Qa & Sa & Fa & Ia & Na). destruct (widened_value b Pb) as (Qb & Sb & Fb & Ib & Nb). destruct (mul_ok fmt64 fmt64_ok _ _ Qa Qb) as (Pz & M1 & M2 & M3 & M4 & M5). set (z := f_mul fmt64 (f_widen a) (f_widen b)) in *. clearbody z.
  destruct (narrow_ok z Pz) as (Pr & R1 & R2 & R3). set (r := f_narrow z) in *. clearbody r.
  assert (Sp : sign_product fmt64 (f_widen a) (f_widen b) = sign_product fmt32 a b) by (unfold sign_product; rewrite Sa, Sb; reflexivity). rewrite Sp in *.
  assert (Inf : infinity_of_sign fmt64 (sign_product fmt32 a b) z -> infinity_of_sign fmt32 (sign_product fmt32 a b) r) by (intros (_ & I1 & I2); rewrite <- I2; exact (R2 I1)).
  assert (Z0 : forall v, (v * 2 ^ 925 =? 0) = (v =? 0)). { intros v. assert (0 < 2 ^ 925) by (apply Z.pow_pos_nonneg; [reflexivity|discriminate]). set (c := 2 ^ 925) in *. clearbody c. destruct (v =? 0) eqn:C; [replace v with 0 by lia; reflexivity|]. apply Z.eqb_neq. intros Q. apply Z.mul_eq_0 in Q. lia. }
  split; [intros [H|H]; [exact (R1 (M1 (or_introl (Na H))))|exact (R1 (M1 (or_intror (Nb H))))]|]. split; [|split; [|split]].
  - intros H1 H2. destruct (Fb H2) as [G1 G2]. specialize (M2 (Ia H1) G1). rewrite G2, Z0 in M2. destruct (fvalue fmt32 b =? 0); [exact (R1 M2)|exact (Inf M2)].
  - intros H1 H2. destruct (Fa H1) as [G1 G2]. specialize (M3 G1 (Ib H2)). rewrite G2, Z0 in M3. destruct (fvalue fmt32 a =? 0); [exact (R1 M3)|exact (Inf M3)].
  - intros H1 H2. exact (Inf (M4 (Ia H1) (Ib H2))).
  - intros H1 H2. destruct (Fa H1) as [G1 G2]. destruct (Fb H2) as [G3 G4]. destruct (M5 G1 G3) as [Nz Sz]. rewrite G2, G4 in Nz. destruct (finite_form a Pa H1) as (sa & na & ka & Ea & Bn & Bk). destruct (finite_form b Pb H2) as (sb & nb & kb & Eb & Cn & Ck).
    assert (V : fvalue fmt32 a * 2 ^ 925 * (fvalue fmt32 b * 2 ^ 925) = sg (xorb sa sb) * (na * nb * 2 ^ (ka + kb + 776)) * fone fmt64).
    { change (fone fmt64) with (2 ^ 1074). rewrite Ea, Eb, sg_xor. replace (2 ^ (ka + kb + 776)) with (2 ^ ka * 2 ^ kb * 2 ^ 776) by (rewrite !Z.pow_add_r by (clear -Bk Ck; lia); reflexivity). replace (sg sa * sg sb * (na * nb * (2 ^ ka * 2 ^ kb * 2 ^ 776)) * 2 ^ 1074) with (sg sa * sg sb * (na * nb * (2 ^ ka * 2 ^ kb)) * (2 ^ 776 * 2 ^ 1074)) by (generalize (2 ^ 776) (2 ^ 1074); intros; ring). rewrite <- (Z.pow_add_r 2 776 1074) by (vm_compute; discriminate). change (776 + 1074) with (925 + 925). rewrite Z.pow_add_r by (vm_compute; discriminate). generalize (2 ^ 925). intros. ring. }
    rewrite V in Nz. destruct (nearest_exact (xorb sa sb) (na * nb) (ka + kb + 776) (fone fmt64) z fone64_pos ltac:(clear -Bk Ck; lia) ltac:(change (2 * 2 ^ 52) with 9007199254740992; clear -Bn Cn; nia) Nz) as [Fz Vz]. destruct (R3 Fz) as [Nr Sr]. split; [|rewrite Sr; exact Sz].
    rewrite narrow_ratio in Nr. change 925 with (149 + 776) in Nr. rewrite Z.pow_add_r in Nr by (vm_compute; discriminate). change (fone fmt32) with (2 ^ 149). apply (nearest_scale _ _ _ (2 ^ 776)); [apply Z.pow_pos_nonneg; [reflexivity|discriminate]|]. replace (fvalue fmt32 a * fvalue fmt32 b * 2 ^ 776) with (fvalue fmt64 z); [exact Nr|].
    rewrite Vz, Ea, Eb, sg_xor. rewrite !Z.pow_add_r by (clear -Bk Ck; lia). generalize (2 ^ 776) (2 ^ ka) (2 ^ kb). intros. ring.
Qed.

Lemma int_value : forall a, in_ity i32 a -> f_pattern fmt64 (f64_of_int a) /\ is_finite fmt64 (f64_of_int a) /\ fvalue fmt64 (f64_of_int a) = a * 2 ^ 1074.
Proof. intros a Ha. destruct (of_int_same a Ha) as (I & F & V). split; [exact (float_pattern EF64 _ (or_intror eq_refl) I)|]. split; [exact F|exact V]. Qed.

Lemma int_narrowed : forall z v, f_pattern fmt64 z -> Z.abs v <= 4294967296 -> nearest_to fmt64 (v * 2 ^ 1074) 1 z -> nearest_to fmt32 (v * fone fmt32) 1 (f_narrow z).
Proof.
  intros z v Pz Hv Nz. destruct (narrow_ok z Pz) as (Pr & _ & _ & R3). assert (E : v = sg (v <? 0) * Z.abs v) by (unfold sg; destruct (v <? 0) eqn:C; lia).
  assert (Nz' : nearest_to fmt64 (sg (v <? 0) * (Z.abs v * 2 ^ 1074) * 1) 1 z) by (rewrite Z.mul_1_r, Z.mul_assoc, <- E; exact Nz).
  destruct (nearest_exact (v <? 0) (Z.abs v) 1074 1 z ltac:(reflexivity) ltac:(split; [|]; vm_compute; discriminate) ltac:(change (2 * 2 ^ 52) with 9007199254740992; clear -Hv; lia) Nz') as [Fz Vz]. destruct (R3 Fz) as [Nr _].
  rewrite narrow_ratio in Nr. change (fone fmt32) with (2 ^ 149). apply (nearest_scale _ _ _ (2 ^ 925)); [apply Z.pow_pos_nonneg; [reflexivity|discriminate]|]. rewrite Z.mul_1_l, <- Z.mul_assoc, <- (Z.pow_add_r 2 149 925) by (vm_compute; discriminate). change (149 + 925) with 1074. rewrite Z.mul_assoc, <- E in Vz. rewrite <- Vz. exact Nr.
Qed.

Lemma c98_int_sum : forall a b : Z, in_ity i32 a -> in_ity i32 b ->
  let computed o := f_narrow (meaning EF64 2 ieee_arith ieee_sqrt (Arith o (Arg 0) (Arg 1)) (map (as_f64 (EInt i32)) [a; b])) in
  nearest_to fmt32 ((a + b) * fone fmt32) 1 (computed Add) /\ nearest_to fmt32 ((a - b) * fone fmt32) 1 (computed Sub).
Proof.
  intros a b Ha Hb computed. destruct (int_value a Ha) as (Pa & Fa & Va). destruct (int_value b Hb) as (Pb & Fb & Vb). assert (Ba : -2147483648 <= a <= 2147483647) by exact Ha. assert (Bb : -2147483648 <= b <= 2147483647) by exact Hb. subst computed. cbv beta. split.
  - change (meaning EF64 2 ieee_arith ieee_sqrt (Arith Add (Arg 0) (Arg 1)) (map (as_f64 (EInt i32)) [a; b])) with (f_add fmt64 (f64_of_int a) (f64_of_int b)). destruct (add_ok fmt64 fmt64_ok _ _ Pa Pb) as (Pz & _ & _ & _ & _ & S). destruct (S Fa Fb) as [Nz _]. apply int_narrowed; [exact Pz|clear -Ba Bb; lia|]. rewrite Va, Vb, <- Z.mul_add_distr_r in Nz. exact Nz.
  - change (meaning EF64 2 ieee_arith ieee_sqrt (Arith Sub (Arg 0) (Arg 1)) (map (as_f64 (EInt i32)) [a; b])) with (f_sub fmt64 (f64_of_int a) (f64_of_int b)). destruct (sub_ok fmt64 fmt64_ok _ _ Pa Pb) as (Pz & _ & _ & _ & _ & S). destruct (S Fa Fb) as [Nz _]. apply int_narrowed; [exact Pz|clear -Ba Bb; lia|]. rewrite Va, Vb, <- Z.mul_sub_distr_r in Nz. exact Nz.
Qed.
