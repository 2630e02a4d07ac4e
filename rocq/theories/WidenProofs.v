(** Proofs of the properties: kernels that compute with wider lanes, on every target (C92). *)
From Coq Require Import String.
From Verif Require Import Base Spec VecSpec Vecs Iters Zip ZipSpec Stride GateTables GateSpec Gates Lanes OpTables Ops OpSpec PortTables Ports PortSpec Builds PipeSpec AvailSpec ExprSpec Exprs WidenSpec Widens.
Open Scope list_scope.
Open Scope Z_scope.
From Coq Require Import Lia ZifyBool ZifyNat.
From Verif Require Import ListFacts VecFacts MapFacts VecProofs OpProofs PortProofs GateProofs AvailProofs BuildProofs PipeProofs LoopProofs KernProofs DocProofs ExprProofs AlgebraProofs ExactProofs CollectProofs FoldProofs.
Ltac Zify.zify_post_hook ::= Z.div_mod_to_equations.

Ltac widens H := unfold widenable in H; cbn [In] in H; repeat (destruct H as [<-|H]); [..|destruct H].

Definition wides : list ity := [u16; i16; u32; i32; u64; i64].

Lemma wide_prim : forall e, In e widenable -> In e primitives /\ In (wide e) primitives /\ bits_of (wide e) = 2 * bits_of e /\ exists t, e = EInt t /\ wide e = EInt (mkIty (isigned t) (2 * ibytes t)) /\ forall x, in_ity t x -> in_ity (mkIty (isigned t) (2 * ibytes t)) x.
Proof.
  intros e H. widens H; (split; [vm_compute; tauto|]; split; [vm_compute; tauto|]; split; [reflexivity|]; eexists; split; [reflexivity|]; split; [reflexivity|]; unfold in_ity, imin, imax, imod; cbn; intros; lia).
Qed.

Lemma result_wide : forall e n x t, In e widenable -> type_of (wide e) n x = Some (EInt t) -> In t wides /\ In (EInt t) primitives /\ In (EInt (half t)) primitives /\ bits_of (EInt t) = 2 * bits_of e /\ bits_of (EInt (half t)) = bits_of e.
Proof.
  intros e n x t H Ht. destruct (wide_prim e H) as (_ & P & B & _). destruct (type_prim (wide e) n P x _ Ht) as [Q C]. rewrite B in C. split; [|split; [exact Q|]].
  - clear -Q C H. cbn [primitives In] in Q. repeat (destruct Q as [Q|Q]); [..|destruct Q]; try discriminate Q; injection Q as <-; widens H; try discriminate C; vm_compute; tauto.
  - clear -Q C H. cbn [primitives In] in Q. repeat (destruct Q as [Q|Q]); [..|destruct Q]; try discriminate Q; injection Q as <-; widens H; try discriminate C; (split; [vm_compute; tauto|split; reflexivity]).
Qed.

Lemma upcast_rows : forallb (fun e => forallb (fun b => existsb (fun p => String.eqb (pt_vec p) (vector_name (scalar_of e) b) && String.eqb (pt_outvec p) (vector_name (scalar_of (wide e)) b) && elty_eqb (pt_el p) e && elty_eqb (pt_out p) (wide e) &&
  vty_eqb (pt_ty p) (mkVty (b / (bits_of e / 8)) (bits_of e / 8)) && vty_eqb (pt_outty p) (mkVty (b / (bits_of (wide e) / 8)) (bits_of (wide e) / 8))) x86_upcast) [16; 32]) widenable = true.
Proof. vm_compute. reflexivity. Qed.

Lemma downcast_rows : forallb (fun t => forallb (fun b => existsb (fun p => String.eqb (pt_vec p) (vector_name (scalar_of (EInt t)) b) && String.eqb (pt_outvec p) (vector_name (scalar_of (EInt (half t))) b) && elty_eqb (pt_el p) (EInt t) && elty_eqb (pt_out p) (EInt (half t)) &&
  vty_eqb (pt_ty p) (mkVty (b / (bits_of (EInt t) / 8)) (bits_of (EInt t) / 8)) &&
  String.eqb (pt_not p) (if (ibytes t =? 8)%nat then "" else if b =? 32 then "avx2" else if (ibytes t =? 4)%nat && negb (isigned t) then "sse4.1" else "sse2")) x86_downcast) [16; 32]) wides = true.
Proof. vm_compute. reflexivity. Qed.

Lemma optimised_rows : forallb (fun x => match xp_el x, xp_out x with
  | EInt t, EInt t' => same_int t' (half t) && negb (ibytes t =? 8)%nat && String.eqb (xp_feat x) (if bytes (xp_ty x) =? 32 then "avx2" else if (ibytes t =? 4)%nat && negb (isigned t) then "sse4.1" else "sse2")
  | _, _ => false end) x86_downcast_optimized = true.
Proof. vm_compute. reflexivity. Qed.

Lemma avx2_includes : forall fs, target fs -> fs "avx2"%string = true -> fs "sse2"%string = true /\ fs "sse4.1"%string = true.
Proof.
  intros fs [L _] H. assert (A : fs "avx"%string = true) by (apply (L "avx2"%string); [vm_compute; tauto|exact H]). assert (B : fs "sse4.2"%string = true) by (apply (L "avx"%string); [vm_compute; tauto|exact A]).
  assert (C : fs "sse4.1"%string = true) by (apply (L "sse4.2"%string); [vm_compute; tauto|exact B]). assert (D : fs "ssse3"%string = true) by (apply (L "sse4.1"%string); [vm_compute; tauto|exact C]).
  assert (F : fs "sse3"%string = true) by (apply (L "ssse3"%string); [vm_compute; tauto|exact D]). split; [apply (L "sse3"%string); [vm_compute; tauto|exact F]|exact C].
Qed.

Lemma swapped_lanes : forall (h : Z) (a b : list Z) k y, 0 <= h -> zlen a = 2 * h -> zlen b = 2 * h -> 0 <= k -> znth (a ++ b) (quarter_swap (4 * h) k) = Some y ->
  znth ((firstn (Z.to_nat h) a ++ firstn (Z.to_nat h) b) ++ skipn (Z.to_nat h) a ++ skipn (Z.to_nat h) b) k = Some y.
Proof.
  intros h a b k y Hh La Lb Hk H. rewrite <- (firstn_skipn (Z.to_nat h) a), <- (firstn_skipn (Z.to_nat h) b) in H.
  assert (L1 : zlen (firstn (Z.to_nat h) a) = h) by (unfold zlen in *; rewrite firstn_length; lia). assert (L2 : zlen (skipn (Z.to_nat h) a) = h) by (unfold zlen in *; rewrite skipn_length; lia).
  assert (L3 : zlen (firstn (Z.to_nat h) b) = h) by (unfold zlen in *; rewrite firstn_length; lia). assert (L4 : zlen (skipn (Z.to_nat h) b) = h) by (unfold zlen in *; rewrite skipn_length; lia).
  revert L1 L2 L3 L4 H. generalize (firstn (Z.to_nat h) a) (skipn (Z.to_nat h) a) (firstn (Z.to_nat h) b) (skipn (Z.to_nat h) b). intros a1 a2 b1 b2 L1 L2 L3 L4 H. clear La Lb.
  assert (Q : 4 * h / 4 = h /\ 4 * h / 2 = 2 * h) by lia. destruct Q as [Q1 Q2]. unfold quarter_swap in H. rewrite Q1, Q2 in H.
  assert (A : forall u v : list Z, zlen u = h -> zlen v = h -> zlen (u ++ v) = 2 * h) by (intros u v Lu Lv; unfold zlen in *; rewrite app_length; lia).
  destruct ((h <=? k) && (k <? 2 * h)) eqn:C1; [|destruct ((2 * h <=? k) && (k <? 3 * h)) eqn:C2].
  - rewrite znth_app in H |- * by lia. rewrite A in H |- * by assumption. replace (k + h <? 2 * h) with false in H by lia. replace (k <? 2 * h) with true by lia.
    rewrite znth_app in H |- * by lia. rewrite L3 in H. rewrite L1. replace (k + h - 2 * h <? h) with true in H by lia. replace (k <? h) with false by lia. rewrite <- H. f_equal. lia.
  - rewrite znth_app in H |- * by lia. rewrite A in H |- * by assumption. replace (k - h <? 2 * h) with true in H by lia. replace (k <? 2 * h) with false by lia.
    rewrite znth_app in H |- * by lia. rewrite L1 in H. rewrite L2. replace (k - h <? h) with false in H by lia. replace (k - 2 * h <? h) with true by lia. rewrite <- H. f_equal. lia.
  - rewrite znth_app in H |- * by lia. rewrite A in H |- * by assumption. destruct (k <? 2 * h) eqn:C3.
    + rewrite znth_app in H |- * by lia. rewrite L1 in H |- *. replace (k <? h) with true in H |- * by lia. exact H.
    + rewrite znth_app in H |- * by lia. rewrite L3 in H. rewrite L2. replace (k - 2 * h <? h) with false in H |- * by lia. exact H.
Qed.

(** What the [saturating_downcast] of a build does to every lane. *)
Definition narrow_lane (fs : features) (t : ity) (w k y : Z) : Z := if same_int t u64 then Z.min y (if (k <? w / 2) && Z.even k then 4294967295 else 2147483647) else narrowed fs t y.

Definition from_lane (fs : features) (t : ity) (w k : Z) : Z := if fs "avx2"%string && (ibytes t <=? 4)%nat then quarter_swap w k else k.

Lemma downcast_exact : forall fs narrow t lr lo a b, target fs -> In t wides -> natural fs (el_name (EInt t) ++ "s") = [lr] -> natural fs (el_name (EInt (half t)) ++ "s") = [lo] ->
  zlen a = p_width lr -> zlen b = p_width lr -> Forall (in_ity t) a -> Forall (in_ity t) b ->
  exists r, downcast_in fs narrow (p_vec lr) (p_vec lo) [a; b] = Some (Ok [r]) /\ zlen r = p_width lo /\
    forall k y, 0 <= k -> znth (a ++ b) (from_lane fs t (p_width lo) k) = Some y -> znth r k = Some (narrow_lane fs t (p_width lo) k y).
Proof.
  intros fs narrow t lr lo a b T Ht Nr No La Lb Fa Fb. assert (P : In (EInt t) primitives /\ In (EInt (half t)) primitives /\ bits_of (EInt t) = 2 * bits_of (EInt (half t)) /\ (0 < ibytes t)%nat) by (clear -Ht; cbn [wides In] in Ht; repeat (destruct Ht as [<-|Ht]); [..|destruct Ht]; (split; [vm_compute; tauto|split; [vm_compute; tauto|split; [reflexivity|vm_compute; lia]]])). destruct P as (P1 & P2 & Bt & By).
  destruct (natural_line fs _ T P1) as (m & M & _ & V1 & W1 & S1). rewrite Nr in M. injection M as <-. destruct (natural_line fs _ T P2) as (m & M & _ & V2 & W2 & S2). rewrite No in M. injection M as <-.
  assert (Wd : p_width lo = 2 * p_width lr /\ 0 <= p_width lr /\ p_width lo mod 4 = 0) by (rewrite W1, W2; clear -Ht; unfold register; cbn [wides In] in Ht; repeat (destruct Ht as [<-|Ht]); [..|destruct Ht]; destruct (fs "avx2"%string); vm_compute; repeat split; congruence). destruct Wd as (Wd & W0 & W4).
  pose proof (proj1 (forallb_forall _ _) downcast_rows t Ht) as K. cbv beta in K. pose proof (proj1 (forallb_forall _ _) K (register fs) (register_in fs)) as K2. cbv beta in K2. clear K. apply existsb_exists in K2. destruct K2 as (q & Hq & K).
  rewrite !andb_true_iff in K. destruct K as (((((K1 & K2) & K3) & K4) & K5) & K6). apply String.eqb_eq in K1, K2, K6. apply elty_eqb_eq in K3, K4. apply vty_eqb_eq in K5. rewrite <- V1 in K1. rewrite <- V2 in K2.
  assert (Wq : WIDTH (pt_ty q) = p_width lr) by (rewrite K5, W1; reflexivity). rewrite <- K1, <- K2.
  assert (Va : int_vector (WIDTH (pt_ty q)) t a) by (split; [rewrite Wq; exact La|exact Fa]). assert (Vb : int_vector (WIDTH (pt_ty q)) t b) by (split; [rewrite Wq; exact Lb|exact Fb]).
  pose proof port_coherent as C. rewrite !andb_true_iff in C. destruct C as (((((_ & _) & C1) & _) & _) & _). unfold downcast_in, port_in.
  destruct (present_one _ _ _ _ _ _ _ _ x86_downcast_optimized x86_downcast fs q C1 Hq) as [Ep|(x & Hin & Kx & S & Hf & Ep)]; cbv beta in Ep; rewrite Ep; cbn [run_one].
  - assert (Hno : without fs (pt_not q) = true).
    { assert (I : In (inr q) (@present xport port_impl (fun x => (xp_vec x, xp_outvec x)) xp_feat (fun p => (pt_vec p, pt_outvec p)) pt_not fs x86_downcast_optimized x86_downcast (pt_vec q, pt_outvec q))) by (rewrite Ep; left; reflexivity).
      unfold present in I. apply in_app_or in I. destruct I as [I|I]; apply in_map_iff in I; destruct I as (z & Ez & I); [discriminate|]. injection Ez as ->. apply filter_In in I. destruct I as [_ I]. rewrite andb_true_iff in I. apply I. }
    destruct (is_u64 (EInt t)) eqn:U.
    + assert (t = u64) as -> by (clear -Ht U; cbn [wides In] in Ht; repeat (destruct Ht as [<-|Ht]); [..|destruct Ht]; try discriminate U; reflexivity).
      destruct (c47_downcast_u64_lanes narrow q a b) as (r & R1 & R2 & R3); [apply in_or_app; left; exact Hq|rewrite K3; reflexivity|rewrite K3; exact Va|rewrite K3; exact Vb|].
      exists r. rewrite R1. split; [reflexivity|]. split; [rewrite R2; lia|]. intros k y Hk Hy. unfold from_lane in Hy. cbn [ibytes u64 Nat.leb] in Hy. rewrite andb_false_r in Hy. rewrite (R3 k y Hy). unfold narrow_lane. change (same_int u64 u64) with true. cbv iota. rewrite Wq. replace (p_width lo / 2) with (p_width lr) by lia. reflexivity.
    + eexists. rewrite c47_downcast_portable_partial; [|apply in_or_app; left; exact Hq|rewrite K3; exact U|rewrite K3; exact Va|rewrite K3; exact Vb]. rewrite K4. split; [reflexivity|]. split; [unfold zlen in *; rewrite map_length, app_length; lia|].
      intros k y Hk Hy. assert (Q : from_lane fs t (p_width lo) k = k /\ narrow_lane fs t (p_width lo) k y = clamp (half t) y).
      { unfold from_lane, narrow_lane, narrowed, reads_signed. unfold register in K6. clear -Ht U K6 Hno. rewrite K6 in Hno. unfold without in Hno.
        cbn [wides In] in Ht; repeat (destruct Ht as [<-|Ht]); [..|destruct Ht]; try discriminate U; destruct (fs "avx2"%string) eqn:A; cbn in Hno; rewrite ?A in Hno; try discriminate Hno; cbn; split; try reflexivity; apply negb_true_iff in Hno; rewrite Hno; reflexivity. }
      destruct Q as [Q1 Q2]. rewrite Q1 in Hy. rewrite Q2. apply znth_lanes. exact Hy.
  - injection S as G1 G2. pose proof (proj1 (forallb_forall _ _) optimised_rows x Hin) as O. cbv beta in O. rewrite G1, G2, K3 in O. destruct (xp_out x) as [t'| |] eqn:Eo; try discriminate O. rewrite !andb_true_iff in O. destruct O as ((O1 & O2) & O3). apply same_int_eq in O1. subst t'. apply String.eqb_eq in O3.
    pose proof (c47_downcast_instruction x a b Hin) as R. cbv zeta in R. rewrite G1, G2, K3, Eo in R. cbn [lane_ity] in R. specialize (R Va Vb). eexists. rewrite R. split; [reflexivity|].
    assert (Bq : bytes (pt_ty q) = register fs) by (rewrite K5; unfold bytes; cbn [WIDTH SIZE]; clear -Ht; unfold register; cbn [wides In] in Ht; repeat (destruct Ht as [<-|Ht]); [..|destruct Ht]; destruct (fs "avx2"%string); reflexivity). rewrite Bq in O3.
    assert (Rd : reads_signed fs t = negb (isigned t) /\ same_int t u64 = false /\ (ibytes t <=? 4)%nat = true).
    { rewrite O3 in Hf. unfold reads_signed. unfold register in Hf. clear -Ht O2 Hf T. pose proof (avx2_includes fs T) as AI.
      cbn [wides In] in Ht; repeat (destruct Ht as [<-|Ht]); [..|destruct Ht]; try discriminate O2; (split; [|split; reflexivity]); cbn; try reflexivity; destruct (fs "avx2"%string) eqn:A; cbn in Hf; try (destruct (AI eq_refl) as [A1 A2]; assumption); exact Hf. }
    destruct Rd as (Rd & Ns & N4).
    assert (Nl : forall k y, in_ity t y -> narrow_lane fs t (p_width lo) k y = clamp (half t) (if y <? imod t / 2 then y else y - imod t)).
    { intros k y Hy. unfold narrow_lane, narrowed. rewrite Ns, Rd. f_equal. unfold in_ity, imin, imax in Hy. destruct (isigned t); cbn [negb andb]; [replace (y <? imod t / 2) with true by lia; reflexivity|]. destruct (imod t / 2 <=? y) eqn:C2, (y <? imod t / 2) eqn:C3; lia. }
    assert (Fab : Forall (in_ity t) (a ++ b)) by (apply Forall_app; split; assumption).
    assert (Ax : String.eqb (xp_feat x) "avx2" = fs "avx2"%string) by (rewrite O3; unfold register; destruct (fs "avx2"%string); [reflexivity|]; change (16 =? 32) with false; cbv iota; destruct ((ibytes t =? 4)%nat && negb (isigned t)); reflexivity).
    rewrite Ax, Wq. split.
    + unfold zlen in *. rewrite map_length. destruct (fs "avx2"%string); rewrite !app_length, ?firstn_length, ?skipn_length; lia.
    + intros k y Hk Hy. unfold from_lane in Hy. rewrite N4, andb_true_r in Hy. assert (Iy : in_ity t y) by exact (proj1 (Forall_forall _ _) Fab _ (OpProofs.znth_In _ _ _ _ Hy)). rewrite (Nl k y Iy).
      apply (znth_lanes (fun y => clamp (half t) (if y <? imod t / 2 then y else y - imod t))). destruct (fs "avx2"%string); [|exact Hy]. apply swapped_lanes; try lia. replace (4 * (p_width lr / 2)) with (p_width lo) by lia. exact Hy.
Qed.

Lemma upcast_all_ok : forall fs narrow e l lw args, target fs -> In e widenable -> natural fs (el_name e ++ "s") = [l] -> natural fs (el_name (wide e) ++ "s") = [lw] -> Forall (fun v => zlen v = p_width l /\ Forall (lane e) v) args ->
  exists us vs, upcast_all fs narrow (p_vec l) (p_vec lw) args = Some (Ok (us, vs)) /\ length us = length args /\ length vs = length args /\
    Forall (fun v => zlen v = p_width lw /\ Forall (lane (wide e)) v) us /\ Forall (fun v => zlen v = p_width lw /\ Forall (lane (wide e)) v) vs /\
    forall k env, column args k env -> (k < p_width lw -> column us k env) /\ (p_width lw <= k -> column vs (k - p_width lw) env).
Proof.
  intros fs narrow e l lw args T He Nl Nw F. destruct (wide_prim e He) as (P1 & P2 & _ & t & Et & Ew & In2).
  destruct (natural_line fs _ T P1) as (m & M & _ & V1 & W1 & S1). rewrite Nl in M. injection M as <-. destruct (natural_line fs _ T P2) as (m & M & _ & V2 & W2 & S2). rewrite Nw in M. injection M as <-.
  pose proof (proj1 (forallb_forall _ _) upcast_rows e He) as K. cbv beta in K. pose proof (proj1 (forallb_forall _ _) K (register fs) (register_in fs)) as K2. cbv beta in K2. clear K. apply existsb_exists in K2. destruct K2 as (p & Hp & K).
  rewrite !andb_true_iff in K. destruct K as (((((K1 & K2) & K3) & K4) & K5) & K6). apply String.eqb_eq in K1, K2. apply elty_eqb_eq in K3, K4. apply vty_eqb_eq in K5, K6. rewrite <- V1 in K1. rewrite <- V2 in K2. rewrite <- K1, <- K2.
  assert (Wp : WIDTH (pt_ty p) = p_width l) by (rewrite K5, W1; reflexivity). assert (Wo : WIDTH (pt_outty p) = p_width lw) by (rewrite K6, W2; reflexivity).
  induction F as [|v args [Lv Fv] F (us & vs & E & L1 & L2 & F1 & F2 & C)].
  - exists [], []. split; [reflexivity|]. split; [reflexivity|]. split; [reflexivity|]. split; [constructor|]. split; [constructor|]. intros k env H. inversion H. split; constructor.
  - destruct (upcast_parts fs narrow p t (mkIty (isigned t) (2 * ibytes t)) v Hp) as (a & b & Eu & Eab & La & Lb); [rewrite K3; exact Et|rewrite K4; exact Ew|split; [rewrite Wp; exact Lv|rewrite Et in Fv; exact Fv]|].
    exists (a :: us), (b :: vs). cbn [upcast_all]. rewrite Eu. cbn [andthen]. rewrite E. cbn [andthen fst snd]. split; [reflexivity|]. cbn [length]. split; [lia|]. split; [lia|].
    assert (Fw : Forall (lane (wide e)) (a ++ b)) by (rewrite Eab, Ew; eapply Forall_impl; [exact In2|]; rewrite Et in Fv; exact Fv). apply Forall_app in Fw. destruct Fw as [Fa Fb]. rewrite Wo in La, Lb.
    split; [constructor; [split; assumption|exact F1]|]. split; [constructor; [split; assumption|exact F2]|].
    intros k env H. inversion H as [|? z ? env' Hz H' E1 E2]; subst. destruct (C k env' H') as [C1 C2]. pose proof (znth_Some_lt _ _ _ Hz) as Hk. rewrite znth_app in Hz by lia. rewrite La in Hz. split; intros Hc.
    + replace (k <? p_width lw) with true in Hz by lia. constructor; [exact Hz|exact (C1 Hc)].
    + replace (k <? p_width lw) with false in Hz by lia. constructor; [exact Hz|exact (C2 Hc)].
Qed.

Lemma c92_vector : forall (fs : features) (tie : bool) (fop : arith -> elty -> Z -> Z -> Z) (fsqrt : elty -> Z -> Z) (narrow : Z -> Z) (e : elty) (t : ity) (x : expr) (args : list (list Z)) (l0 : packed_line),
  target fs -> In e widenable ->
  (forall o e u v, e = EF32 \/ e = EF64 -> lane e u -> lane e v -> lane e (fop o e u v)) -> (forall e u, e = EF32 \/ e = EF64 -> lane e u -> lane e (fsqrt e u)) ->
  type_of (wide e) (length args) x = Some (EInt t) -> natural fs (el_name e ++ "s") = [l0] ->
  args <> [] -> Forall (fun v => zlen v = p_width l0 /\ Forall (lane e) v) args ->
  exists r, widened_in fs tie fop fsqrt narrow e x args = Some (Ok r) /\ zlen r = p_width l0 /\
    forall k env, 0 <= k -> column args (if fs "avx2"%string && (bits_of e <=? 16) then quarter_swap (p_width l0) k else k) env ->
      let y := meaning (wide e) (length args) fop fsqrt x env in
      in_ity t y /\ znth r k = Some (if same_int t u64 then Z.min y (if (k <? p_width l0 / 2) && Z.even k then 4294967295 else 2147483647) else narrowed fs t y).
Proof.
  intros fs tie fop fsqrt narrow e t x args l0 T He Hf Hs Ht N0 Hne Fa. destruct (wide_prim e He) as (P1 & P2 & B2 & _). destruct (result_wide e _ x t He Ht) as (Wt & P3 & P4 & B3 & B4).
  destruct (natural_line fs _ T P1) as (m & M & N1 & _ & W1 & _). rewrite N0 in M. injection M as <-. destruct (natural_line fs _ T P2) as (lw & Nw & N2 & _ & W2 & _). destruct (natural_line fs _ T P3) as (lr & Nr & N3 & _ & W3 & _). destruct (natural_line fs _ T P4) as (lo & No & N4 & _ & W4 & _).
  rewrite B2 in W2. rewrite B3 in W3. rewrite B4 in W4. assert (Ww : p_width l0 = 2 * p_width lw /\ p_width lr = p_width lw /\ p_width lo = p_width l0 /\ 0 <= p_width lw) by (rewrite W1, W2, W3, W4; clear -He; unfold register; widens He; destruct (fs "avx2"%string); vm_compute; repeat split; congruence). destruct Ww as (Ww & Wr & Wo & W0).
  destruct (upcast_all_ok fs narrow e l0 lw args T He N0 Nw Fa) as (us & vs & Eu & Lu & Lv & Fu & Fv & Cu).
  assert (Hu : us <> []) by (intros ->; destruct args; [congruence|discriminate]). assert (Hv : vs <> []) by (intros ->; destruct args; [congruence|discriminate]).
  destruct (c83_closure fs tie fop fsqrt narrow (wide e) (EInt t) x us lw lr T P2 Hf Hs ltac:(rewrite Lu; exact Ht) Nw Nr Hu Fu) as (a & Ra & La & Ia & Ma). destruct (c83_closure fs tie fop fsqrt narrow (wide e) (EInt t) x vs lw lr T P2 Hf Hs ltac:(rewrite Lv; exact Ht) Nw Nr Hv Fv) as (b & Rb & Lb & Ib & Mb). rewrite Lu in Ra, Ma. rewrite Lv in Rb, Mb.
  destruct (downcast_exact fs narrow t lr lo a b T Wt Nr No La Lb Ia Ib) as (r & Rd & Lr & Mr). exists r. unfold widened_in. rewrite Ht, N1, N2, N3, N4, Eu. cbn [andthen fst snd]. rewrite Ra. cbn [andthen]. rewrite Rb. cbn [andthen]. rewrite Rd. cbn [andthen]. split; [reflexivity|]. split; [rewrite Lr; exact Wo|].
  intros k env Hk Hc. set (y := meaning (wide e) (length args) fop fsqrt x env). assert (Ef : from_lane fs t (p_width lo) k = if fs "avx2"%string && (bits_of e <=? 16) then quarter_swap (p_width l0) k else k).
  { unfold from_lane. rewrite Wo. replace (ibytes t <=? 4)%nat with (bits_of e <=? 16); [reflexivity|]. cbn [bits_of] in B3. destruct (bits_of e <=? 16) eqn:C1, (ibytes t <=? 4)%nat eqn:C2; lia. }
  rewrite <- Ef in Hc. set (j := from_lane fs t (p_width lo) k) in *. specialize (Mr k y Hk). fold j in Mr. unfold narrow_lane in Mr. rewrite Wo in Mr. destruct (Cu j env Hc) as [C1 C2].
  assert (Hj : 0 <= j). { unfold j, from_lane, quarter_swap. rewrite Wo, Ww. destruct (fs "avx2"%string && (ibytes t <=? 4)%nat); [|exact Hk]. destruct ((2 * p_width lw / 4 <=? k) && (k <? 2 * p_width lw / 2)); [lia|]. destruct ((2 * p_width lw / 2 <=? k) && (k <? 3 * (2 * p_width lw / 4))) eqn:C; lia. }
  assert (Hy : znth (a ++ b) j = Some y) by (rewrite znth_app by exact Hj; rewrite La, Wr; destruct (j <? p_width lw) eqn:C; [exact (Ma j env (C1 ltac:(lia)))|exact (Mb (j - p_width lw) env (C2 ltac:(lia)))]).
  split; [|exact (Mr Hy)]. assert (Iab : Forall (in_ity t) (a ++ b)) by (apply Forall_app; split; assumption). exact (proj1 (Forall_forall _ _) Iab _ (OpProofs.znth_In _ _ _ _ Hy)).
Qed.

(** The closure works lane by lane in the builds that keep the order. *)
Lemma widened_lanes : forall (fs : features) (tie : bool) fop fsqrt narrow (e : elty) (t : ity) (x : expr) (P : Z -> Prop) (args : list (list Z)) (l0 : packed_line),
  target fs -> In e widenable -> (forall a, P a -> lane e a) -> fs "avx2"%string = false \/ bits_of e = 32 ->
  (forall o e u v, e = EF32 \/ e = EF64 -> lane e u -> lane e v -> lane e (fop o e u v)) -> (forall e u, e = EF32 \/ e = EF64 -> lane e u -> lane e (fsqrt e u)) ->
  type_of (wide e) (length args) x = Some (EInt t) -> (t = u64 -> forall env, length env = length args -> Forall P env -> meaning (wide e) (length args) fop fsqrt x env <= 2147483647) -> natural fs (el_name e ++ "s") = [l0] ->
  args <> [] -> Forall (fun v => zlen v = p_width l0 /\ Forall P v) args ->
  exists r, widened_in fs tie fop fsqrt narrow e x args = Some (Ok r) /\ zlen r = p_width l0 /\
    forall k env, column args k env -> znth r k = Some (narrowed fs t (meaning (wide e) (length args) fop fsqrt x env)).
Proof.
  intros fs tie fop fsqrt narrow e t x P args l0 T He HP Hb Hf Hs Ht Hu N0 Hne Fa. destruct (c92_vector fs tie fop fsqrt narrow e t x args l0 T He Hf Hs Ht N0 Hne) as (r & Rr & Lr & M); [eapply Forall_impl; [|exact Fa]; intros v [Lv Fv]; split; [exact Lv|eapply Forall_impl; [exact HP|exact Fv]]|].
  exists r. split; [exact Rr|]. split; [exact Lr|]. intros k env Hc. assert (Hk : 0 <= k) by (destruct args as [|v args]; [congruence|]; inversion Hc as [|? z ? env' Hz]; subst; pose proof (znth_Some_lt _ _ _ Hz); lia).
  assert (Hsw : fs "avx2"%string && (bits_of e <=? 16) = false) by (destruct Hb as [-> | ->]; [reflexivity|apply andb_false_r]). specialize (M k env Hk). rewrite Hsw in M. specialize (M Hc). cbv zeta in M. destruct M as [Iy M]. rewrite M. f_equal.
  destruct (same_int t u64) eqn:S; [|reflexivity]. apply same_int_eq in S. subst t.
  assert (Fe : length env = length args /\ Forall P env). { clear -Hc Fa. induction Hc as [|v z args env Hz Hc IH]; [split; [reflexivity|constructor]|]. inversion Fa as [|? ? [_ Fv] Fa']; subst. destruct (IH Fa') as [I1 I2]. split; [cbn [length]; lia|]. constructor; [exact (proj1 (Forall_forall _ _) Fv _ (OpProofs.znth_In _ _ _ _ Hz))|exact I2]. }
  specialize (Hu eq_refl env (proj1 Fe) (proj2 Fe)). unfold narrowed, reads_signed. cbn [isigned u64 ibytes negb Nat.eqb andb]. 
  set (y := meaning (wide e) (length args) fop fsqrt x env) in *. unfold in_ity, clamp, half, imin, imax, imod in *. cbn [isigned ibytes u64 Nat.div2] in *. change (2 ^ (8 * Z.of_nat 4)) with 4294967296. destruct ((k <? p_width l0 / 2) && Z.even k); lia.
Qed.

Lemma c92_map_partial : forall (fs : features) (c : config) (tie : bool) (fop : arith -> elty -> Z -> Z -> Z) (fsqrt : elty -> Z -> Z) (narrow : Z -> Z) (e : elty) (t : ity) (x : expr) (P : Z -> Prop) (l d : list Z) (l0 l1 : packed_line)
    (E : Type) (func : E -> list Z -> list Z * E) (env : E) (fuel : nat),
  target fs -> In e widenable -> (forall a, P a -> lane e a) -> fs "avx2"%string = false \/ bits_of e = 32 ->
  (forall o e u v, e = EF32 \/ e = EF64 -> lane e u -> lane e v -> lane e (fop o e u v)) -> (forall e u, e = EF32 \/ e = EF64 -> lane e u -> lane e (fsqrt e u)) ->
  type_of (wide e) 1 x = Some (EInt t) -> (t = u64 -> forall a, P a -> meaning (wide e) 1 fop fsqrt x [a] <= 2147483647) ->
  natural fs (el_name e ++ "s") = [l0] -> natural fs (el_name (EInt (half t)) ++ "s") = [l1] ->
  Forall P l -> zlen d = p_width l0 -> Forall P d -> zlen l * p_size l0 + 32 <= isize_max -> (length l < fuel)%nat ->
  (forall e' v, zlen v = p_width l0 -> Forall P v -> widened_in fs tie fop fsqrt narrow e x [v] = Some (Ok (fst (func e' v)))) ->
  exists s', scalar_collect c (map_iterator c (slice_iterator c (vty_of l0)) (vty_of l1) 0 func) 0 fuel (mkSIMDMap (simd_iter l d) env) =
    Ok (map (fun a => Some (narrowed fs t (meaning (wide e) 1 fop fsqrt x [a]))) l, s').
Proof.
  intros fs c tie fop fsqrt narrow e t x P l d l0 l1 E func env fuel T He HP Hb Hf Hs Ht Hu N0 N1 Fl Ld Fd Cap Hfu Hrun. destruct (wide_prim e He) as (P1 & _). destruct (result_wide e _ x t He Ht) as (_ & _ & P4 & _ & B4).
  destruct (natural_vty fs e l0 T P1 N0) as (V0 & W0 & S0 & C0). destruct (natural_vty fs _ l1 T P4 N1) as (V1 & W1 & S1 & _).
  destruct (c72_map Z Z E c (vty_of l0) (vty_of l1) l d P (fun a y => y = narrowed fs t (meaning (wide e) 1 fop fsqrt x [a])) func env 0 fuel V0 V1) as (out & s' & R & F); try assumption.
  - rewrite W1, W0, B4. reflexivity.
  - rewrite S1, S0, B4. reflexivity.
  - unfold vty_of in C0 |- *. cbn [WIDTH SIZE] in C0 |- *. lia.
  - intros e' v Lv Fv. destruct (widened_lanes fs tie fop fsqrt narrow e t x P [v] l0 T He HP Hb Hf Hs Ht) as (r & Rr & Lr & M); [|exact N0|discriminate|constructor; [split; assumption|constructor]|].
    { intros U en Le Fe. destruct en as [|a [|? ?]]; try discriminate Le. cbn [length]. apply Hu; [exact U|inversion Fe; assumption]. }
    rewrite (Hrun e' v Lv Fv) in Rr. injection Rr as Rr. rewrite Rr. cbn [length] in M.
    assert (Lvr : length v = length r) by (change (WIDTH (vty_of l0)) with (p_width l0) in Lv; unfold zlen in *; lia).
    assert (K : forall k a, znth v k = Some a -> znth r k = Some (narrowed fs t (meaning (wide e) 1 fop fsqrt x [a]))) by (intros k a Ha; apply M; constructor; [exact Ha|constructor]).
    clear -K Lvr. revert r Lvr K. induction v as [|a v IH]; intros [|y r] Lvr K; try discriminate; [constructor|]. constructor; [specialize (K 0 a eq_refl); injection K as ->; reflexivity|].
    apply IH; [cbn [length] in Lvr; lia|]. intros k b Hb. pose proof (znth_Some_lt _ _ _ Hb) as Hk. specialize (K (k + 1) b).
    rewrite !znth_cons_shift in K by lia. replace (k + 1 - 1) with k in K by lia. apply K. exact Hb.
  - exists s'. rewrite R. f_equal. f_equal. clear -F. induction F as [|a y l out -> F IH]; [reflexivity|]. cbn [map]. rewrite IH. reflexivity.
Qed.

Lemma widened_tuple : forall (fs : features) (tie : bool) fop fsqrt narrow (e : elty) (t : ity) (x : expr) (P : Z -> Prop) (l0 : packed_line) (n : nat) (E : Type) (func : E -> tuple (list Z) (S n) -> list Z * E),
  target fs -> In e widenable -> (forall a, P a -> lane e a) -> fs "avx2"%string = false \/ bits_of e = 32 ->
  (forall o e u v, e = EF32 \/ e = EF64 -> lane e u -> lane e v -> lane e (fop o e u v)) -> (forall e u, e = EF32 \/ e = EF64 -> lane e u -> lane e (fsqrt e u)) ->
  type_of (wide e) (S (S n)) x = Some (EInt t) -> (t = u64 -> forall row, length row = S (S n) -> Forall P row -> meaning (wide e) (S (S n)) fop fsqrt x row <= 2147483647) -> natural fs (el_name e ++ "s") = [l0] ->
  (forall e' t, Forall (fun v => zlen v = p_width l0 /\ Forall P v) (PipeSpec.items (S n) t) -> widened_in fs tie fop fsqrt narrow e x (PipeSpec.items (S n) t) = Some (Ok (fst (func e' t)))) ->
  lane_by_lane (WIDTH (vty_of l0)) P (S n) (fun row => narrowed fs t (meaning (wide e) (S (S n)) fop fsqrt x row)) func.
Proof.
  intros fs tie fop fsqrt narrow e t x P l0 n E func T He HP Hb Hf Hs Ht Hu N0 Hrun e' tp Htp. pose proof (items_length (S n) tp) as Il. assert (Hne : PipeSpec.items (S n) tp <> []) by (intros Q; rewrite Q in Il; discriminate).
  destruct (widened_lanes fs tie fop fsqrt narrow e t x P (PipeSpec.items (S n) tp) l0 T He HP Hb Hf Hs) as (r & Rr & Lr & M); [rewrite Il; exact Ht|rewrite Il; exact Hu|exact N0|exact Hne|exact Htp|].
  rewrite (Hrun e' tp Htp) in Rr. injection Rr as Rr. rewrite Rr. split; [exact Lr|]. intros i r0 Hc. rewrite (M i r0 Hc), Il. reflexivity.
Qed.

Lemma c92_zip_partial : forall (fs : features) (c : config) (tie : bool) (fop : arith -> elty -> Z -> Z -> Z) (fsqrt : elty -> Z -> Z) (narrow : Z -> Z) (e : elty) (t : ity) (x : expr) (P : Z -> Prop) (n : nat) (ls ds : list (list Z)) (N : Z) (l0 l1 : packed_line)
    (E : Type) (func : E -> tuple (list Z) (S n) -> list Z * E) (env : E) (tp : tuple (SIMDIter Z (list Z)) (S n)) (fuel : nat),
  target fs -> In e widenable -> (forall a, P a -> lane e a) -> fs "avx2"%string = false \/ bits_of e = 32 ->
  (forall o e u v, e = EF32 \/ e = EF64 -> lane e u -> lane e v -> lane e (fop o e u v)) -> (forall e u, e = EF32 \/ e = EF64 -> lane e u -> lane e (fsqrt e u)) ->
  type_of (wide e) (S (S n)) x = Some (EInt t) -> (t = u64 -> forall row, length row = S (S n) -> Forall P row -> meaning (wide e) (S (S n)) fop fsqrt x row <= 2147483647) ->
  natural fs (el_name e ++ "s") = [l0] -> natural fs (el_name (EInt (half t)) ++ "s") = [l1] ->
  Forall (fun l => zlen l = N /\ Forall P l) ls -> Forall (fun d => zlen d = p_width l0 /\ Forall P d) ds -> length ls = length ds ->
  PipeSpec.items (S n) tp = map2 simd_iter ls ds -> N * p_size l0 + 32 <= isize_max -> N < Z.of_nat fuel ->
  (forall e' t, Forall (fun v => zlen v = p_width l0 /\ Forall P v) (PipeSpec.items (S n) t) -> widened_in fs tie fop fsqrt narrow e x (PipeSpec.items (S n) t) = Some (Ok (fst (func e' t)))) ->
  let rest := rest_many (blanket_unsafe c (si_array (slice_array c (vty_of l0))) (si_iterable c (slice_array c (vty_of l0)))) n in
  let m := zipmap_iterator c (zip_iterator (slice_iterator c (vty_of l0)) rest) (vty_of l1) 0 func in
  zip (slice_iterator c (vty_of l0)) rest tp = Ok tp /\
  exists out s', scalar_collect c m 0 fuel (mkSIMDMap tp env) = Ok (map Some out, s') /\
    zlen out = N /\ forall k r, column ls k r -> znth out k = Some (narrowed fs t (meaning (wide e) (S (S n)) fop fsqrt x r)).
Proof.
  intros fs c tie fop fsqrt narrow e t x P n ls ds N l0 l1 E func env tp fuel T He HP Hb Hf Hs Ht Hu N0 N1 Hls Hds Hlen Hit Cap Hfu Hrun. destruct (wide_prim e He) as (P1 & _). destruct (result_wide e _ x t He Ht) as (_ & _ & P4 & _ & B4).
  destruct (natural_vty fs e l0 T P1 N0) as (V0 & W0 & S0 & C0). destruct (natural_vty fs _ l1 T P4 N1) as (V1 & W1 & S1 & _).
  apply (c72_zip_slices Z Z E c (vty_of l0) (vty_of l1) n ls ds N 0 (fun row => narrowed fs t (meaning (wide e) (S (S n)) fop fsqrt x row)) func env P tp fuel V0 V1); try assumption.
  - rewrite W1, W0, B4. reflexivity.
  - rewrite S1, S0, B4. reflexivity.
  - unfold vty_of in C0 |- *. cbn [WIDTH SIZE] in C0 |- *. lia.
  - exact (widened_tuple fs tie fop fsqrt narrow e t x P l0 n E func T He HP Hb Hf Hs Ht Hu N0 Hrun).
Qed.

Lemma c92_strides_partial : forall (fs : features) (c : config) (tie : bool) (fop : arith -> elty -> Z -> Z -> Z) (fsqrt : elty -> Z -> Z) (narrow : Z -> Z) (e : elty) (t : ity) (x : expr) (P : Z -> Prop) (n : nat) (l : list Z) (ds : list (list Z)) (x0 : Z) (l0 l1 : packed_line)
    (E : Type) (func : E -> tuple (list Z) (S n) -> list Z * E) (env : E) (fuel : nat),
  let count := Z.of_nat n + 2 in
  target fs -> In e widenable -> (forall a, P a -> lane e a) -> fs "avx2"%string = false \/ bits_of e = 32 ->
  (forall o e u v, e = EF32 \/ e = EF64 -> lane e u -> lane e v -> lane e (fop o e u v)) -> (forall e u, e = EF32 \/ e = EF64 -> lane e u -> lane e (fsqrt e u)) ->
  type_of (wide e) (S (S n)) x = Some (EInt t) -> (t = u64 -> forall row, length row = S (S n) -> Forall P row -> meaning (wide e) (S (S n)) fop fsqrt x row <= 2147483647) ->
  natural fs (el_name e ++ "s") = [l0] -> natural fs (el_name (EInt (half t)) ++ "s") = [l1] ->
  Forall P l -> zlen l * p_size l0 <= isize_max -> count * 33 <= 2 ^ 63 -> zlen ds = count -> Forall (fun d => zlen d = p_width l0 /\ Forall P d) ds -> (length l < fuel)%nat ->
  (forall e' t, Forall (fun v => zlen v = p_width l0 /\ Forall P v) (PipeSpec.items (S n) t) -> widened_in fs tie fop fsqrt narrow e x (PipeSpec.items (S n) t) = Some (Ok (fst (func e' t)))) ->
  let it := stride_iterator c (slice_array c (vty_of l0)) x0 in
  let rest := rest_many (blanket_unsafe c (ps_array c (slice_array c (vty_of l0)) x0) (ps_iterable c (slice_array c (vty_of l0)) x0)) n in
  let m := zipmap_iterator c (zip_iterator it rest) (vty_of l1) 0 func in
  exists tp : tuple (PackedStride Z (list Z)) (S n), stride l count ds = Ok (PipeSpec.items (S n) tp) /\ zip it rest tp = Ok tp /\
  exists out s', scalar_collect c m 0 fuel (mkSIMDMap tp env) = Ok (map Some out, s') /\
    zlen out = zlen l / count /\ forall k, 0 <= k < zlen out -> znth out k = Some (narrowed fs t (meaning (wide e) (S (S n)) fop fsqrt x (sub l (count * k) count))).
Proof.
  intros fs c tie fop fsqrt narrow e t x P n l ds x0 l0 l1 E func env fuel count T He HP Hb Hf Hs Ht Hu N0 N1 Fl Cap Hcnt Hlen Hds Hfu Hrun. destruct (wide_prim e He) as (P1 & _). destruct (result_wide e _ x t He Ht) as (_ & _ & P4 & _ & B4).
  destruct (natural_vty fs e l0 T P1 N0) as (V0 & W0 & S0 & C0). destruct (natural_vty fs _ l1 T P4 N1) as (V1 & W1 & S1 & _).
  apply (c72_zip_strides Z Z E c (vty_of l0) (vty_of l1) n l ds x0 0 (fun row => narrowed fs t (meaning (wide e) (S (S n)) fop fsqrt x row)) func env P fuel V0 V1); try assumption.
  - rewrite W1, W0, B4. reflexivity.
  - rewrite S1, S0, B4. reflexivity.
  - assert (W : WIDTH (vty_of l0) <= 32) by (rewrite W0; unfold register; destruct (fs "avx2"%string); prim P1; vm_compute; discriminate). unfold count in Hcnt. nia.
  - exact (widened_tuple fs tie fop fsqrt narrow e t x P l0 n E func T He HP Hb Hf Hs Ht Hu N0 Hrun).
Qed.

Lemma run_forall : forall (E : Type) (func : E -> list Z -> list Z * E) (R : list Z -> list Z -> Prop) vs (e : E), Forall (fun v => forall e, R v (fst (func e v))) vs -> Forall2 R vs (fst (run_closure func e vs)).
Proof. intros E func R. induction vs as [|v vs IH]; intros e F; cbn [run_closure]; [constructor|]. inversion F as [|? ? H F']; subst. specialize (H e). destruct (func e v) as [y e'] eqn:Ef. specialize (IH e' F'). destruct (run_closure func e' vs) as [ys e'']. cbn [fst] in *. constructor; assumption. Qed.

Lemma block_lanes : forall (w : Z) (s : Z -> Z) (g : Z -> Z) vs ys, 0 < w -> (forall k, 0 <= k < w -> 0 <= s k < w) ->
  Forall2 (fun v y => zlen v = w /\ zlen y = w /\ forall k a, 0 <= k -> znth v (s k) = Some a -> znth y k = Some (g a)) vs ys ->
  zlen (concat ys) = zlen (concat vs) /\ forall j k a, 0 <= j -> 0 <= k < w -> znth (concat vs) (w * j + s k) = Some a -> znth (concat ys) (w * j + k) = Some (g a).
Proof.
  intros w s g vs ys Hw Hs F. induction F as [|v y vs ys (Lv & Ly & Hv) F [L IH]]; cbn [concat].
  - split; [reflexivity|]. intros j k a Hj Hk H. pose proof (znth_Some_lt _ _ _ H) as Q. unfold zlen in Q. cbn in Q. lia.
  - split; [unfold zlen in *; rewrite !app_length; lia|]. intros j k a Hj Hk H. specialize (Hs k Hk). assert (0 <= w * j) by (apply Z.mul_nonneg_nonneg; lia). rewrite znth_app in H |- * by lia. rewrite Lv in H. rewrite Ly. destruct (Z.eq_dec j 0) as [->|J].
    + rewrite Z.mul_0_r, Z.add_0_l in *. replace (s k <? w) with true in H by lia. replace (k <? w) with true by lia. apply Hv; [lia|exact H].
    + assert (w <= w * j) by nia. replace (w * j + s k <? w) with false in H by lia. replace (w * j + k <? w) with false by lia. replace (w * j + k - w) with (w * (j - 1) + k) by lia. apply IH; [lia|exact Hk|]. rewrite <- H. f_equal. lia.
Qed.

Lemma c92_map_avx2_refuted : forall (fs : features) (c : config) (tie : bool) (fop : arith -> elty -> Z -> Z -> Z) (fsqrt : elty -> Z -> Z) (narrow : Z -> Z) (e : elty) (t : ity) (x : expr) (l d : list Z) (l0 l1 : packed_line)
    (E : Type) (func : E -> list Z -> list Z * E) (env : E) (fuel : nat),
  let g a := narrowed fs t (meaning (wide e) 1 fop fsqrt x [a]) in let w := p_width l0 in
  target fs -> In e widenable -> fs "avx2"%string = true -> bits_of e <= 16 ->
  (forall o e u v, e = EF32 \/ e = EF64 -> lane e u -> lane e v -> lane e (fop o e u v)) -> (forall e u, e = EF32 \/ e = EF64 -> lane e u -> lane e (fsqrt e u)) ->
  type_of (wide e) 1 x = Some (EInt t) -> natural fs (el_name e ++ "s") = [l0] -> natural fs (el_name (EInt (half t)) ++ "s") = [l1] ->
  Forall (lane e) l -> zlen d = w -> Forall (lane e) d -> zlen l * p_size l0 + 32 <= isize_max -> (length l < fuel)%nat ->
  (forall e' v, zlen v = w -> zlen (fst (func e' v)) = w) ->
  (forall e' v, zlen v = w -> Forall (lane e) v -> widened_in fs tie fop fsqrt narrow e x [v] = Some (Ok (fst (func e' v)))) ->
  exists out s', scalar_collect c (map_iterator c (slice_iterator c (vty_of l0)) (vty_of l1) 0 func) 0 fuel (mkSIMDMap (simd_iter l d) env) = Ok (map Some out, s') /\ zlen out = zlen l /\
    forall j k a b, 0 <= j -> w * (j + 1) <= zlen l -> 0 <= k < w -> znth l (w * j + k) = Some a -> znth l (w * j + quarter_swap w k) = Some b ->
      znth out (w * j + k) = Some (g b) /\ (g a <> g b -> znth out (w * j + k) <> Some (g a)).
Proof.
  intros fs c tie fop fsqrt narrow e t x l d l0 l1 E func env fuel g w T He Ha Hb Hf Hs Ht N0 N1 Fl Ld Fd Cap Hfu Hlen Hrun. destruct (wide_prim e He) as (P1 & _). destruct (result_wide e _ x t He Ht) as (Wt & _ & P4 & _ & B4).
  destruct (natural_vty fs e l0 T P1 N0) as (V0 & W0 & S0 & C0). destruct (natural_vty fs _ l1 T P4 N1) as (V1 & W1 & S1 & _). pose proof (vty_ok_facts _ V0) as (Hw & Hz & _). change (WIDTH (vty_of l0)) with w in *. rewrite B4 in W1, S1.
  assert (E1 : WIDTH (vty_of l1) = w) by (rewrite W1, W0; reflexivity). assert (E2 : SIZE (vty_of l1) = SIZE (vty_of l0)) by (rewrite S1, S0; reflexivity).
  destruct (CollectProofs.c09_collect_closure Z Z E c (vty_of l0) (vty_of l1) l d func env 0 0 fuel V0 V1) as (vs & rest & [Cv Cc] & Lr & R).
  { change (WIDTH (vty_of l0)) with w. rewrite E1, E2. reflexivity. }
  { exact Ld. }
  { change (WIDTH (vty_of l0)) with w. unfold vty_of in C0 |- *. cbn [WIDTH SIZE] in C0 |- *. fold w in C0. nia. }
  { intros e' v Lv. rewrite E1. apply Hlen. exact Lv. }
  { exact Hfu. }
  change (WIDTH (vty_of l0)) with w in *. rewrite E2 in R. rewrite Z.div_mul in R by lia.
  destruct (run_closure func env vs) as [ys e1] eqn:Er. eexists. eexists. split; [exact R|].
  assert (Q : w mod 4 = 0) by (rewrite W0; clear -He; unfold register; widens He; destruct (fs "avx2"%string); reflexivity).
  assert (Fv : Forall (Forall (lane e)) vs /\ Forall (lane e) rest). { rewrite <- Cc in Fl. apply Forall_app in Fl. destruct Fl as [F1 F2]. split; [|exact F2]. clear -F1. induction vs as [|v vs IH]; [constructor|]. cbn [concat] in F1. apply Forall_app in F1. constructor; [apply F1|apply IH; apply F1]. }
  destruct Fv as [Fv Fr].
  assert (Hsw : fs "avx2"%string && (bits_of e <=? 16) = true) by (rewrite Ha; cbn [andb]; lia). assert (N64 : same_int t u64 = false) by (destruct (result_wide e _ x t He Ht) as (_ & _ & _ & B3 & _); destruct (same_int t u64) eqn:S; [|reflexivity]; apply same_int_eq in S; subst t; cbn [bits_of u64 ibytes] in B3; lia).
  assert (G : Forall2 (fun v y => zlen v = w /\ zlen y = w /\ forall k a, 0 <= k -> znth v (quarter_swap w k) = Some a -> znth y k = Some (g a)) vs ys).
  { replace ys with (fst (run_closure func env vs)) by (rewrite Er; reflexivity). apply run_forall. clear -Cv Fv T He Hf Hs Ht N0 Hrun Hsw N64. induction Cv as [|v vs Lv Cv IH]; [constructor|]. inversion Fv as [|? ? Fv1 Fv2]; subst. constructor; [|exact (IH Fv2)].
    intros e'. destruct (c92_vector fs tie fop fsqrt narrow e t x [v] l0 T He Hf Hs Ht N0 ltac:(discriminate)) as (r & Rr & Lr & M); [constructor; [split; assumption|constructor]|]. rewrite (Hrun e' v Lv Fv1) in Rr. injection Rr as Rr. rewrite Rr.
    split; [exact Lv|]. split; [exact Lr|]. intros k a Hk Hv. specialize (M k [a] Hk). rewrite Hsw in M. destruct (M ltac:(constructor; [exact Hv|constructor])) as [_ M']. rewrite N64 in M'. exact M'. }
  assert (Sw : forall k, 0 <= k < w -> 0 <= quarter_swap w k < w) by (intros k Hk; unfold quarter_swap; destruct ((w / 4 <=? k) && (k <? w / 2)) eqn:C1; [lia|]; destruct ((w / 2 <=? k) && (k <? 3 * (w / 4))) eqn:C2; lia).
  destruct (block_lanes w (quarter_swap w) g vs ys ltac:(lia) Sw G) as [Lc Hc].
  assert (Lt : zlen (match rest with [] => [] | _ :: _ => skipn (Z.to_nat (w - zlen rest)) (fst (func e1 (right_aligned d rest))) end) = zlen rest).
  { destruct rest as [|z rest]; [reflexivity|]. assert (Lra : zlen (right_aligned d (z :: rest)) = w) by (unfold right_aligned, zlen in *; rewrite app_length, firstn_length; lia). pose proof (Hlen e1 _ Lra) as Lf. unfold zlen in *. rewrite skipn_length. lia. }
  split; [rewrite <- Cc; unfold zlen in *; rewrite !app_length; lia|].
  intros j k a b Hj Hjl Hk Hka Hkb. assert (Hout : znth (concat ys ++ match rest with [] => [] | _ :: _ => skipn (Z.to_nat (w - zlen rest)) (fst (func e1 (right_aligned d rest))) end) (w * j + k) = Some (g b)).
  { assert (0 <= w * j) by (apply Z.mul_nonneg_nonneg; lia). assert (Hcv : w * (j + 1) <= zlen (concat vs)). { assert (Lcv : zlen (concat vs) = w * zlen vs) by (clear -Cv; induction Cv as [|v vs Lv Cv IH]; [unfold zlen; cbn; lia|]; cbn [concat]; unfold zlen in *; rewrite app_length; cbn [length]; lia). assert (Ll : zlen l = zlen (concat vs) + zlen rest) by (rewrite <- Cc; unfold zlen; rewrite app_length; lia). rewrite Lcv in *. destruct (Z_le_gt_dec (j + 1) (zlen vs)) as [J|J]; [apply Z.mul_le_mono_nonneg_l; lia|]. exfalso. assert (w * (zlen vs + 1) <= w * (j + 1)) by (apply Z.mul_le_mono_nonneg_l; lia). clear -H0 Hjl Ll Lr. lia. }
    specialize (Sw k Hk). rewrite <- Cc in Hkb. rewrite znth_app in Hkb by lia. replace (w * j + quarter_swap w k <? zlen (concat vs)) with true in Hkb by lia. rewrite znth_app by lia. rewrite Lc. replace (w * j + k <? zlen (concat vs)) with true by lia. apply Hc; assumption. }
  split; [exact Hout|]. intros Ne. rewrite Hout. intros K. injection K as K. congruence.
Qed.

Lemma c92_unsigned_refuted : forall (fs : features) (c : config) (tie : bool) (fop : arith -> elty -> Z -> Z -> Z) (fsqrt : elty -> Z -> Z) (narrow : Z -> Z) (e : elty) (t : ity) (x : expr) (l d : list Z) (l0 l1 : packed_line)
    (E : Type) (func : E -> list Z -> list Z * E) (env : E) (fuel : nat),
  target fs -> In e widenable -> fs "avx2"%string = false -> t = u16 /\ fs "sse2"%string = true \/ t = u32 /\ fs "sse4.1"%string = true ->
  (forall o e u v, e = EF32 \/ e = EF64 -> lane e u -> lane e v -> lane e (fop o e u v)) -> (forall e u, e = EF32 \/ e = EF64 -> lane e u -> lane e (fsqrt e u)) ->
  type_of (wide e) 1 x = Some (EInt t) -> natural fs (el_name e ++ "s") = [l0] -> natural fs (el_name (EInt (half t)) ++ "s") = [l1] ->
  Forall (lane e) l -> zlen d = p_width l0 -> Forall (lane e) d -> zlen l * p_size l0 + 32 <= isize_max -> (length l < fuel)%nat ->
  (forall e' v, zlen v = p_width l0 -> Forall (lane e) v -> widened_in fs tie fop fsqrt narrow e x [v] = Some (Ok (fst (func e' v)))) ->
  exists out s', scalar_collect c (map_iterator c (slice_iterator c (vty_of l0)) (vty_of l1) 0 func) 0 fuel (mkSIMDMap (simd_iter l d) env) = Ok (map Some out, s') /\ zlen out = zlen l /\
    forall k a, znth l k = Some a -> let y := meaning (wide e) 1 fop fsqrt x [a] in imod t / 2 <= y <= imax t -> znth out k = Some 0 /\ clamp (half t) y = imax (half t) /\ 0 < imax (half t).
Proof.
  intros fs c tie fop fsqrt narrow e t x l d l0 l1 E func env fuel T He Ha Hi Hf Hs Ht N0 N1 Fl Ld Fd Cap Hfu Hrun.
  destruct (c92_map_partial fs c tie fop fsqrt narrow e t x (lane e) l d l0 l1 E func env fuel T He (fun a H => H) (or_introl Ha) Hf Hs Ht) as (s' & R); try assumption; [intros U; destruct Hi as [ [Hi _]|[Hi _] ]; rewrite Hi in U; discriminate U|].
  exists (map (fun a => narrowed fs t (meaning (wide e) 1 fop fsqrt x [a])) l), s'. rewrite map_map. split; [exact R|]. split; [unfold zlen; rewrite map_length; reflexivity|].
  intros k a Hk y Hy. pose proof (znth_lanes (fun a => narrowed fs t (meaning (wide e) 1 fop fsqrt x [a])) l k a Hk) as K. cbv beta in K. fold y in K. rewrite K. clear -Hi Hy.
  assert (Rd : reads_signed fs t = true) by (unfold reads_signed; destruct Hi as [ [-> Hi]|[-> Hi] ]; cbn; exact Hi). unfold narrowed. rewrite Rd. replace (imod t / 2 <=? y) with true by lia. cbn [andb].
  destruct Hi as [ [-> _]|[-> _] ]; unfold clamp, half, imax, imin, imod in *; cbn in Hy |- *; (split; [f_equal; lia|split; lia]).
Qed.
