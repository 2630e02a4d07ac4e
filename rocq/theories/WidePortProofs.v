(** Proofs of the properties: kernels that compute with wider lanes, on the portable back-end (C95). *)
From Coq Require Import String.
From Verif Require Import Base Spec VecSpec Vecs Iters Zip ZipSpec Stride GateTables GateSpec Gates Lanes OpTables Ops OpSpec PortTables Ports PortSpec PipeSpec AvailSpec ExprSpec Exprs WidenSpec Widens OverflowSpec Portables WidePorts.
Open Scope list_scope.
Open Scope Z_scope.
From Coq Require Import Lia ZifyBool ZifyNat.
From Verif Require Import ListFacts VecFacts MapFacts VecProofs OpProofs PortProofs BuildProofs PipeProofs LoopProofs KernProofs DocProofs ExprProofs AlgebraProofs ExactProofs CollectProofs FoldProofs WidenProofs PortableProofs.
Ltac Zify.zify_post_hook ::= Z.div_mod_to_equations.

Ltac widens H := unfold widenable in H; cbn [In] in H; repeat (destruct H as [<-|H]); [..|destruct H].

Lemma portable_upcast_rows : forallb (fun e => match find (fun p => String.eqb (pt_vec p) (vector_name (scalar_of e) 16) && String.eqb (pt_outvec p) (vector_name (scalar_of (wide e)) 16)) unknown_upcast with
  | Some p => elty_eqb (pt_el p) e && elty_eqb (pt_out p) (wide e) && vty_eqb (pt_ty p) (mkVty (16 / (bits_of e / 8)) (bits_of e / 8)) && vty_eqb (pt_outty p) (mkVty (16 / (bits_of (wide e) / 8)) (bits_of (wide e) / 8))
  | None => false end) widenable = true.
Proof. vm_compute. reflexivity. Qed.

Lemma portable_downcast_rows : forallb (fun t => match find (fun p => String.eqb (pt_vec p) (vector_name (scalar_of (EInt t)) 16) && String.eqb (pt_outvec p) (vector_name (scalar_of (EInt (half t))) 16)) unknown_downcast with
  | Some p => elty_eqb (pt_el p) (EInt t) && elty_eqb (pt_out p) (EInt (half t)) && vty_eqb (pt_ty p) (mkVty (16 / (bits_of (EInt t) / 8)) (bits_of (EInt t) / 8))
  | None => false end) wides = true.
Proof. vm_compute. reflexivity. Qed.

Definition portable_narrow (t : ity) (k y : Z) : Z := if same_int t u64 then Z.min y (if k =? 0 then 4294967295 else 2147483647) else clamp (half t) y.

Lemma portable_downcast_exact : forall fs narrow t lr lo a b, fs "undefined"%string = false -> In t wides -> portable_natural fs (el_name (EInt t) ++ "s") = [lr] -> portable_natural fs (el_name (EInt (half t)) ++ "s") = [lo] ->
  zlen a = p_width lr -> zlen b = p_width lr -> Forall (in_ity t) a -> Forall (in_ity t) b ->
  exists r, portable_port narrow unknown_downcast (p_vec lr) (p_vec lo) [a; b] = Some (Ok [r]) /\ zlen r = p_width lo /\
    forall k y, znth (a ++ b) k = Some y -> znth r k = Some (portable_narrow t k y).
Proof.
  intros fs narrow t lr lo a b T Ht Nr No La Lb Fa Fb. assert (P : In (EInt t) primitives /\ In (EInt (half t)) primitives /\ (0 < ibytes t)%nat) by (clear -Ht; cbn [wides In] in Ht; repeat (destruct Ht as [<-|Ht]); [..|destruct Ht]; (split; [vm_compute; tauto|split; [vm_compute; tauto|vm_compute; lia]])). destruct P as (P1 & P2 & By).
  destruct (portable_line fs _ T P1) as (m & M & _ & V1 & W1 & S1). rewrite Nr in M. injection M as <-. destruct (portable_line fs _ T P2) as (m & M & _ & V2 & W2 & S2). rewrite No in M. injection M as <-.
  assert (Wd : p_width lo = 2 * p_width lr) by (rewrite W1, W2; clear -Ht; cbn [wides In] in Ht; repeat (destruct Ht as [<-|Ht]); [..|destruct Ht]; reflexivity).
  pose proof (proj1 (forallb_forall _ _) portable_downcast_rows t Ht) as K. cbv beta in K. rewrite <- V1, <- V2 in K. unfold portable_port.
  destruct (find (fun p => String.eqb (pt_vec p) (p_vec lr) && String.eqb (pt_outvec p) (p_vec lo)) unknown_downcast) as [q|] eqn:Eq; [|discriminate K]. pose proof (proj1 (find_some _ _ Eq)) as Hq. cbn [option_map].
  rewrite !andb_true_iff in K. destruct K as ((K3 & K4) & K5). apply elty_eqb_eq in K3, K4. apply vty_eqb_eq in K5.
  assert (Wq : WIDTH (pt_ty q) = p_width lr) by (rewrite K5, W1; reflexivity).
  assert (Va : int_vector (WIDTH (pt_ty q)) t a) by (split; [rewrite Wq; exact La|exact Fa]). assert (Vb : int_vector (WIDTH (pt_ty q)) t b) by (split; [rewrite Wq; exact Lb|exact Fb]).
  destruct (is_u64 (EInt t)) eqn:U.
  - assert (t = u64) as -> by (clear -Ht U; cbn [wides In] in Ht; repeat (destruct Ht as [<-|Ht]); [..|destruct Ht]; try discriminate U; reflexivity).
    destruct (c47_downcast_u64_lanes narrow q a b) as (r & R1 & R2 & R3); [apply in_or_app; right; exact Hq|rewrite K3; reflexivity|rewrite K3; exact Va|rewrite K3; exact Vb|].
    exists r. rewrite R1. split; [reflexivity|]. split; [rewrite R2; lia|]. intros k y Hy. rewrite (R3 k y Hy). unfold portable_narrow. change (same_int u64 u64) with true. cbv iota. rewrite Wq, W1. change (16 / (bits_of (EInt u64) / 8)) with 2. do 2 f_equal.
    pose proof (znth_Some_lt _ _ _ Hy) as Hk. destruct (Z.eq_dec k 0) as [->|H0]; [reflexivity|]. replace (k =? 0) with false by lia. destruct (Z.eq_dec k 1) as [->|H1]; [reflexivity|]. replace (k <? 2) with false by lia. reflexivity.
  - eexists. rewrite c47_downcast_portable_partial; [|apply in_or_app; right; exact Hq|rewrite K3; exact U|rewrite K3; exact Va|rewrite K3; exact Vb]. rewrite K4. split; [reflexivity|]. split; [unfold zlen in *; rewrite map_length, app_length; lia|].
    intros k y Hy. unfold portable_narrow. replace (same_int t u64) with false by (clear -Ht U; cbn [wides In] in Ht; repeat (destruct Ht as [<-|Ht]); [..|destruct Ht]; try discriminate U; reflexivity). apply znth_lanes. exact Hy.
Qed.

Lemma portable_upcast_ok : forall fs narrow e l lw args, fs "undefined"%string = false -> In e widenable -> portable_natural fs (el_name e ++ "s") = [l] -> portable_natural fs (el_name (wide e) ++ "s") = [lw] -> Forall (fun v => zlen v = p_width l /\ Forall (lane e) v) args ->
  exists us vs, portable_upcast_all narrow (p_vec l) (p_vec lw) args = Some (Ok (us, vs)) /\ length us = length args /\ length vs = length args /\
    Forall (fun v => zlen v = p_width lw /\ Forall (lane (wide e)) v) us /\ Forall (fun v => zlen v = p_width lw /\ Forall (lane (wide e)) v) vs /\
    (forall k env, column args k env -> (k < p_width lw -> column us k env) /\ (p_width lw <= k -> column vs (k - p_width lw) env)) /\
    (forall k env, column us k env -> column args k env) /\ (forall k env, column vs k env -> column args (k + p_width lw) env).
Proof.
  intros fs narrow e l lw args T He Nl Nw F. destruct (wide_prim e He) as (P1 & P2 & _ & t & Et & Ew & In2).
  destruct (portable_line fs _ T P1) as (m & M & _ & V1 & W1 & S1). rewrite Nl in M. injection M as <-. destruct (portable_line fs _ T P2) as (m & M & _ & V2 & W2 & S2). rewrite Nw in M. injection M as <-.
  pose proof (proj1 (forallb_forall _ _) portable_upcast_rows e He) as K. cbv beta in K. rewrite <- V1, <- V2 in K.
  destruct (find (fun p => String.eqb (pt_vec p) (p_vec l) && String.eqb (pt_outvec p) (p_vec lw)) unknown_upcast) as [p|] eqn:Ep; [|discriminate K]. pose proof (proj1 (find_some _ _ Ep)) as Hp.
  rewrite !andb_true_iff in K. destruct K as (((K3 & K4) & K5) & K6). apply elty_eqb_eq in K3, K4. apply vty_eqb_eq in K5, K6.
  assert (Wp : WIDTH (pt_ty p) = p_width l) by (rewrite K5, W1; reflexivity). assert (Wo : WIDTH (pt_outty p) = p_width lw) by (rewrite K6, W2; reflexivity).
  induction F as [|v args [Lv Fv] F (us & vs & E & L1 & L2 & F1 & F2 & C & D1 & D2)].
  - exists [], []. split; [reflexivity|]. split; [reflexivity|]. split; [reflexivity|]. split; [constructor|]. split; [constructor|]. split; [intros k env H; inversion H; split; constructor|]. split; intros k env H; inversion H; constructor.
  - destruct (c46_upcast_portable narrow p v) as (r & R & a & b & -> & La & Lb & Fab); [apply in_or_app; right; exact Hp|split; [rewrite Wp; exact Lv|rewrite K3, Et; rewrite Et in Fv; exact Fv]|].
    rewrite K3, K4, Ew, Et in Fab. apply same_values in Fab. rewrite Wo in La, Lb.
    exists (a :: us), (b :: vs). cbn [portable_upcast_all]. unfold portable_port. rewrite Ep. cbn [option_map]. rewrite R. cbn [andthen]. rewrite E. cbn [andthen fst snd]. split; [reflexivity|]. cbn [length]. split; [lia|]. split; [lia|].
    assert (Fw : Forall (lane (wide e)) (a ++ b)) by (rewrite Fab, Ew; eapply Forall_impl; [exact In2|]; rewrite Et in Fv; exact Fv). apply Forall_app in Fw. destruct Fw as [Fa Fb].
    split; [constructor; [split; assumption|exact F1]|]. split; [constructor; [split; assumption|exact F2]|]. split; [|split].
    + intros k env H. inversion H as [|? z ? env' Hz H' E1 E2]; subst. destruct (C k env' H') as [C1 C2]. pose proof (znth_Some_lt _ _ _ Hz) as Hk. rewrite znth_app in Hz by lia. rewrite La in Hz. split; intros Hc.
      * replace (k <? p_width lw) with true in Hz by lia. constructor; [exact Hz|exact (C1 Hc)].
      * replace (k <? p_width lw) with false in Hz by lia. constructor; [exact Hz|exact (C2 Hc)].
    + intros k env H. inversion H as [|? z ? env' Hz H' E1 E2]; subst. pose proof (znth_Some_lt _ _ _ Hz) as Hk. constructor; [|exact (D1 k env' H')]. rewrite znth_app by lia. replace (k <? zlen a) with true by lia. exact Hz.
    + intros k env H. inversion H as [|? z ? env' Hz H' E1 E2]; subst. pose proof (znth_Some_lt _ _ _ Hz) as Hk. constructor; [|exact (D2 k env' H')]. rewrite <- La, znth_app_r by (pose proof (zlen_nonneg a); lia). replace (k + zlen a - zlen a) with k by lia. exact Hz.
Qed.

Lemma c95_closure : forall (fs : features) (c : config) (tie : bool) (fop : arith -> elty -> Z -> Z -> Z) (fsqrt : elty -> Z -> Z) (narrow : Z -> Z) (e : elty) (t : ity) (x : expr) (args : list (list Z)) (l0 : packed_line),
  fs "undefined"%string = false -> In e widenable ->
  (forall o e u v, e = EF32 \/ e = EF64 -> lane e u -> lane e v -> lane e (fop o e u v)) -> (forall e u, e = EF32 \/ e = EF64 -> lane e u -> lane e (fsqrt e u)) ->
  type_of (wide e) (length args) x = Some (EInt t) -> portable_natural fs (el_name e ++ "s") = [l0] ->
  args <> [] -> Forall (fun v => zlen v = p_width l0 /\ Forall (lane e) v) args ->
  let result := portable_widened fs c tie fop fsqrt narrow e x args in
  (build c = Release \/ (forall k env, column args k env -> overflows (wide e) (length args) fop fsqrt x env = false) ->
    exists r, result = Some (Ok r) /\ zlen r = p_width l0 /\
      forall k env, column args k env ->
        let y := meaning (wide e) (length args) fop fsqrt x env in
        in_ity t y /\ znth r k = Some (if same_int t u64 then Z.min y (if k =? 0 then 4294967295 else 2147483647) else clamp (half t) y)) /\
  (build c = Debug -> forall k env, column args k env -> overflows (wide e) (length args) fop fsqrt x env = true -> result = Some Panic).
Proof.
  intros fs c tie fop fsqrt narrow e t x args l0 T He Hf Hs Ht N0 Hne Fa result. destruct (wide_prim e He) as (P1 & P2 & B2 & _). destruct (result_wide e _ x t He Ht) as (Wt & P3 & P4 & B3 & B4).
  destruct (portable_line fs _ T P1) as (m & M & N1 & _ & W1 & _). rewrite N0 in M. injection M as <-. destruct (portable_line fs _ T P2) as (lw & Nw & N2 & _ & W2 & _). destruct (portable_line fs _ T P3) as (lr & Nr & N3 & _ & W3 & _). destruct (portable_line fs _ T P4) as (lo & No & N4 & _ & W4 & _).
  assert (Ww : p_width l0 = 2 * p_width lw /\ p_width lr = p_width lw /\ p_width lo = p_width l0 /\ 0 <= p_width lw) by (rewrite W1, W2, W3, W4, B2, B3, B4; clear -He; widens He; vm_compute; repeat split; congruence). destruct Ww as (Ww & Wr & Wo & W0).
  destruct (portable_upcast_ok fs narrow e l0 lw args T He N0 Nw Fa) as (us & vs & Eu & Lu & Lv & Fu & Fv & Cu & Du & Dv).
  assert (Hu : us <> []) by (intros ->; destruct args; [congruence|discriminate]). assert (Hv : vs <> []) by (intros ->; destruct args; [congruence|discriminate]).
  destruct (c94_closure fs c tie fop fsqrt narrow (wide e) (EInt t) x us lw lr T P2 Hf Hs ltac:(rewrite Lu; exact Ht) Nw Nr Hu Fu) as [Au Bu]. destruct (c94_closure fs c tie fop fsqrt narrow (wide e) (EInt t) x vs lw lr T P2 Hf Hs ltac:(rewrite Lv; exact Ht) Nw Nr Hv Fv) as [Av Bv]. rewrite Lu in Au, Bu. rewrite Lv in Av, Bv.
  subst result. unfold portable_widened. rewrite Ht, N1, N2, N3, N4, Eu. cbn [andthen fst snd]. split.
  - intros Hov. destruct Au as (a & Ra & La & Ia & Ma); [destruct Hov as [Q|Q]; [left; exact Q|right; intros k env Hc; exact (Q k env (Du k env Hc))]|]. destruct Av as (b & Rb & Lb & Ib & Mb); [destruct Hov as [Q|Q]; [left; exact Q|right; intros k env Hc; exact (Q _ env (Dv k env Hc))]|].
    destruct (portable_downcast_exact fs narrow t lr lo a b T Wt Nr No La Lb Ia Ib) as (r & Rd & Lr & Mr). exists r. rewrite Ra. cbn [andthen]. rewrite Rb. cbn [andthen]. rewrite Rd. cbn [andthen]. split; [reflexivity|]. split; [rewrite Lr; exact Wo|].
    intros k env Hc. set (y := meaning (wide e) (length args) fop fsqrt x env). destruct (Cu k env Hc) as [C1 C2].
    assert (Hk : 0 <= k) by (destruct args as [|v args]; [congruence|]; inversion Hc as [|? z ? env' Hz]; subst; pose proof (znth_Some_lt _ _ _ Hz); lia).
    assert (Hy : znth (a ++ b) k = Some y) by (rewrite znth_app by exact Hk; rewrite La, Wr; destruct (k <? p_width lw) eqn:C; [exact (Ma k env (C1 ltac:(lia)))|exact (Mb (k - p_width lw) env (C2 ltac:(lia)))]).
    split; [|exact (Mr k y Hy)]. assert (Iab : Forall (in_ity t) (a ++ b)) by (apply Forall_app; split; assumption). exact (proj1 (Forall_forall _ _) Iab _ (OpProofs.znth_In _ _ _ _ Hy)).
  - intros B k env Hc O. destruct (Cu k env Hc) as [C1 C2]. destruct (Z.lt_ge_cases k (p_width lw)) as [Hk|Hk]; [rewrite (Bu B k env (C1 Hk) O); reflexivity|].
    rewrite (Bv B _ env (C2 Hk) O). assert (Fu' : Forall (fun v => zlen v = 16 / (bits_of (wide e) / 8) /\ Forall (lane (wide e)) v) us) by (rewrite <- W2; exact Fu).
    destruct (behaves_run fs c tie fop fsqrt narrow (wide e) us T P2 Hf Hs Hu Fu' x (EInt t) ltac:(rewrite Lu; exact Ht)) as [(v & R & _)|(R & _)]; rewrite Lu in R; rewrite R; reflexivity.
Qed.

Lemma portable_widened_lanes : forall fs c tie fop fsqrt narrow (e : elty) (t : ity) (x : expr) (P : Z -> Prop) (args : list (list Z)) (l0 : packed_line),
  fs "undefined"%string = false -> In e widenable -> (forall a, P a -> lane e a) ->
  (forall o e u v, e = EF32 \/ e = EF64 -> lane e u -> lane e v -> lane e (fop o e u v)) -> (forall e u, e = EF32 \/ e = EF64 -> lane e u -> lane e (fsqrt e u)) ->
  type_of (wide e) (length args) x = Some (EInt t) -> t <> u64 \/ (forall env, length env = length args -> Forall P env -> meaning (wide e) (length args) fop fsqrt x env <= 2147483647) ->
  build c = Release \/ (forall env, length env = length args -> Forall P env -> overflows (wide e) (length args) fop fsqrt x env = false) -> portable_natural fs (el_name e ++ "s") = [l0] ->
  args <> [] -> Forall (fun v => zlen v = p_width l0 /\ Forall P v) args ->
  exists r, portable_widened fs c tie fop fsqrt narrow e x args = Some (Ok r) /\ zlen r = p_width l0 /\
    forall k env, column args k env -> znth r k = Some (clamp (half t) (meaning (wide e) (length args) fop fsqrt x env)).
Proof.
  intros fs c tie fop fsqrt narrow e t x P args l0 T He HP Hf Hs Ht Hu Hov N0 Hne Fa.
  assert (Fe : forall k env, column args k env -> length env = length args /\ Forall P env). { intros k env Hc. clear -Hc Fa. induction Hc as [|v z args env Hz Hc IH]; [split; [reflexivity|constructor]|]. inversion Fa as [|? ? [_ Fv] Fa']; subst. destruct (IH Fa') as [I1 I2]. split; [cbn [length]; lia|]. constructor; [exact (proj1 (Forall_forall _ _) Fv _ (OpProofs.znth_In _ _ _ _ Hz))|exact I2]. }
  destruct (c95_closure fs c tie fop fsqrt narrow e t x args l0 T He Hf Hs Ht N0 Hne) as [A _]; [eapply Forall_impl; [|exact Fa]; intros v [Lv Fv]; split; [exact Lv|eapply Forall_impl; [exact HP|exact Fv]]|].
  destruct A as (r & Rr & Lr & M); [destruct Hov as [Q|Q]; [left; exact Q|right; intros k env Hc; destruct (Fe k env Hc); apply Q; assumption]|].
  exists r. split; [exact Rr|]. split; [exact Lr|]. intros k env Hc. specialize (M k env Hc). cbv zeta in M. destruct M as [Iy M]. rewrite M. f_equal.
  destruct (same_int t u64) eqn:S; [|reflexivity]. apply same_int_eq in S. subst t. destruct Hu as [Hu|Hu]; [congruence|]. destruct (Fe k env Hc) as [Le Fp]. specialize (Hu env Le Fp).
  set (y := meaning (wide e) (length args) fop fsqrt x env) in *. unfold in_ity, clamp, half, imin, imax, imod in *. cbn [isigned ibytes u64 Nat.div2] in *. change (2 ^ (8 * Z.of_nat 4)) with 4294967296. destruct (k =? 0); lia.
Qed.

Lemma portable_widened_tuple : forall fs c tie fop fsqrt narrow (e : elty) (t : ity) (x : expr) (P : Z -> Prop) (l0 : packed_line) (n : nat) (E : Type) (func : E -> tuple (list Z) (S n) -> list Z * E),
  fs "undefined"%string = false -> In e widenable -> (forall a, P a -> lane e a) ->
  (forall o e u v, e = EF32 \/ e = EF64 -> lane e u -> lane e v -> lane e (fop o e u v)) -> (forall e u, e = EF32 \/ e = EF64 -> lane e u -> lane e (fsqrt e u)) ->
  type_of (wide e) (S (S n)) x = Some (EInt t) -> t <> u64 \/ (forall row, length row = S (S n) -> Forall P row -> meaning (wide e) (S (S n)) fop fsqrt x row <= 2147483647) ->
  build c = Release \/ (forall row, length row = S (S n) -> Forall P row -> overflows (wide e) (S (S n)) fop fsqrt x row = false) -> portable_natural fs (el_name e ++ "s") = [l0] ->
  (forall e' t r, Forall (fun v => zlen v = p_width l0 /\ Forall P v) (PipeSpec.items (S n) t) -> portable_widened fs c tie fop fsqrt narrow e x (PipeSpec.items (S n) t) = Some (Ok r) -> fst (func e' t) = r) ->
  lane_by_lane (WIDTH (vty_of l0)) P (S n) (fun row => clamp (half t) (meaning (wide e) (S (S n)) fop fsqrt x row)) func.
Proof.
  intros fs c tie fop fsqrt narrow e t x P l0 n E func T He HP Hf Hs Ht Hu Hov N0 Hrun e' tp Htp. pose proof (items_length (S n) tp) as Il. assert (Hne : PipeSpec.items (S n) tp <> []) by (intros Q; rewrite Q in Il; discriminate).
  destruct (portable_widened_lanes fs c tie fop fsqrt narrow e t x P (PipeSpec.items (S n) tp) l0 T He HP Hf Hs) as (r & Rr & Lr & M); [rewrite Il; exact Ht|rewrite Il; exact Hu|rewrite Il; exact Hov|exact N0|exact Hne|exact Htp|].
  rewrite (Hrun e' tp r Htp Rr). split; [exact Lr|]. intros i r0 Hc. rewrite (M i r0 Hc), Il. reflexivity.
Qed.

Lemma c95_map : forall (fs : features) (c : config) (tie : bool) (fop : arith -> elty -> Z -> Z -> Z) (fsqrt : elty -> Z -> Z) (narrow : Z -> Z) (e : elty) (t : ity) (x : expr) (P : Z -> Prop) (l d : list Z) (l0 l1 : packed_line)
    (E : Type) (func : E -> list Z -> list Z * E) (env : E) (fuel : nat),
  fs "undefined"%string = false -> In e widenable -> (forall a, P a -> lane e a) ->
  (forall o e u v, e = EF32 \/ e = EF64 -> lane e u -> lane e v -> lane e (fop o e u v)) -> (forall e u, e = EF32 \/ e = EF64 -> lane e u -> lane e (fsqrt e u)) ->
  type_of (wide e) 1 x = Some (EInt t) -> t <> u64 \/ (forall a, P a -> meaning (wide e) 1 fop fsqrt x [a] <= 2147483647) ->
  build c = Release \/ (forall a, P a -> overflows (wide e) 1 fop fsqrt x [a] = false) ->
  portable_natural fs (el_name e ++ "s") = [l0] -> portable_natural fs (el_name (EInt (half t)) ++ "s") = [l1] ->
  Forall P l -> zlen d = p_width l0 -> Forall P d -> zlen l * p_size l0 + 16 <= isize_max -> (length l < fuel)%nat ->
  (forall e' v r, zlen v = p_width l0 -> Forall P v -> portable_widened fs c tie fop fsqrt narrow e x [v] = Some (Ok r) -> fst (func e' v) = r) ->
  exists s', scalar_collect c (map_iterator c (slice_iterator c (vty_of l0)) (vty_of l1) 0 func) 0 fuel (mkSIMDMap (simd_iter l d) env) =
    Ok (map (fun a => Some (clamp (half t) (meaning (wide e) 1 fop fsqrt x [a]))) l, s').
Proof.
  intros fs c tie fop fsqrt narrow e t x P l d l0 l1 E func env fuel T He HP Hf Hs Ht Hu Hov N0 N1 Fl Ld Fd Cap Hfu Hrun. destruct (wide_prim e He) as (P1 & _). destruct (result_wide e _ x t He Ht) as (_ & _ & P4 & _ & B4).
  destruct (portable_vty fs e l0 T P1 N0) as (V0 & W0 & S0 & C0). destruct (portable_vty fs _ l1 T P4 N1) as (V1 & W1 & S1 & _).
  destruct (c72_map Z Z E c (vty_of l0) (vty_of l1) l d P (fun a y => y = clamp (half t) (meaning (wide e) 1 fop fsqrt x [a])) func env 0 fuel V0 V1) as (out & s' & R & F); try assumption.
  - rewrite W1, W0, B4. reflexivity.
  - rewrite S1, S0, B4. reflexivity.
  - unfold vty_of in C0 |- *. cbn [WIDTH SIZE] in C0 |- *. lia.
  - intros e' v Lv Fv. assert (One : forall en, length en = 1%nat -> Forall P en -> exists a, en = [a] /\ P a) by (intros en Le Fe; destruct en as [|a [|? ?]]; try discriminate Le; exists a; split; [reflexivity|inversion Fe; assumption]).
    destruct (portable_widened_lanes fs c tie fop fsqrt narrow e t x P [v] l0 T He HP Hf Hs Ht) as (r & Rr & Lr & M); [| |exact N0|discriminate|constructor; [split; assumption|constructor]|].
    { destruct Hu as [Q|Q]; [left; exact Q|right]. intros en Le Fe. destruct (One en Le Fe) as (a & -> & Pa). exact (Q a Pa). }
    { destruct Hov as [Q|Q]; [left; exact Q|right]. intros en Le Fe. destruct (One en Le Fe) as (a & -> & Pa). exact (Q a Pa). }
    rewrite (Hrun e' v r Lv Fv Rr). cbn [length] in M.
    assert (Lvr : length v = length r) by (change (WIDTH (vty_of l0)) with (p_width l0) in Lv; unfold zlen in *; lia).
    assert (K : forall k a, znth v k = Some a -> znth r k = Some (clamp (half t) (meaning (wide e) 1 fop fsqrt x [a]))) by (intros k a Ha; apply M; constructor; [exact Ha|constructor]).
    clear -K Lvr. revert r Lvr K. induction v as [|a v IH]; intros [|y r] Lvr K; try discriminate; [constructor|]. constructor; [specialize (K 0 a eq_refl); injection K as ->; reflexivity|].
    apply IH; [cbn [length] in Lvr; lia|]. intros k b Hb. pose proof (znth_Some_lt _ _ _ Hb) as Hk. specialize (K (k + 1) b).
    rewrite !znth_cons_shift in K by lia. replace (k + 1 - 1) with k in K by lia. apply K. exact Hb.
  - exists s'. rewrite R. f_equal. f_equal. clear -F. induction F as [|a y l out -> F IH]; [reflexivity|]. cbn [map]. rewrite IH. reflexivity.
Qed.

Lemma c95_zip : forall (fs : features) (c : config) (tie : bool) (fop : arith -> elty -> Z -> Z -> Z) (fsqrt : elty -> Z -> Z) (narrow : Z -> Z) (e : elty) (t : ity) (x : expr) (P : Z -> Prop) (n : nat) (ls ds : list (list Z)) (N : Z) (l0 l1 : packed_line)
    (E : Type) (func : E -> tuple (list Z) (S n) -> list Z * E) (env : E) (tp : tuple (SIMDIter Z (list Z)) (S n)) (fuel : nat),
  fs "undefined"%string = false -> In e widenable -> (forall a, P a -> lane e a) ->
  (forall o e u v, e = EF32 \/ e = EF64 -> lane e u -> lane e v -> lane e (fop o e u v)) -> (forall e u, e = EF32 \/ e = EF64 -> lane e u -> lane e (fsqrt e u)) ->
  type_of (wide e) (S (S n)) x = Some (EInt t) -> t <> u64 \/ (forall row, length row = S (S n) -> Forall P row -> meaning (wide e) (S (S n)) fop fsqrt x row <= 2147483647) ->
  build c = Release \/ (forall row, length row = S (S n) -> Forall P row -> overflows (wide e) (S (S n)) fop fsqrt x row = false) ->
  portable_natural fs (el_name e ++ "s") = [l0] -> portable_natural fs (el_name (EInt (half t)) ++ "s") = [l1] ->
  Forall (fun l => zlen l = N /\ Forall P l) ls -> Forall (fun d => zlen d = p_width l0 /\ Forall P d) ds -> length ls = length ds ->
  PipeSpec.items (S n) tp = map2 simd_iter ls ds -> N * p_size l0 + 16 <= isize_max -> N < Z.of_nat fuel ->
  (forall e' t r, Forall (fun v => zlen v = p_width l0 /\ Forall P v) (PipeSpec.items (S n) t) -> portable_widened fs c tie fop fsqrt narrow e x (PipeSpec.items (S n) t) = Some (Ok r) -> fst (func e' t) = r) ->
  let rest := rest_many (blanket_unsafe c (si_array (slice_array c (vty_of l0))) (si_iterable c (slice_array c (vty_of l0)))) n in
  let m := zipmap_iterator c (zip_iterator (slice_iterator c (vty_of l0)) rest) (vty_of l1) 0 func in
  zip (slice_iterator c (vty_of l0)) rest tp = Ok tp /\
  exists out s', scalar_collect c m 0 fuel (mkSIMDMap tp env) = Ok (map Some out, s') /\
    zlen out = N /\ forall k r, column ls k r -> znth out k = Some (clamp (half t) (meaning (wide e) (S (S n)) fop fsqrt x r)).
Proof.
  intros fs c tie fop fsqrt narrow e t x P n ls ds N l0 l1 E func env tp fuel T He HP Hf Hs Ht Hu Hov N0 N1 Hls Hds Hlen Hit Cap Hfu Hrun. destruct (wide_prim e He) as (P1 & _). destruct (result_wide e _ x t He Ht) as (_ & _ & P4 & _ & B4).
  destruct (portable_vty fs e l0 T P1 N0) as (V0 & W0 & S0 & C0). destruct (portable_vty fs _ l1 T P4 N1) as (V1 & W1 & S1 & _).
  apply (c72_zip_slices Z Z E c (vty_of l0) (vty_of l1) n ls ds N 0 (fun row => clamp (half t) (meaning (wide e) (S (S n)) fop fsqrt x row)) func env P tp fuel V0 V1); try assumption.
  - rewrite W1, W0, B4. reflexivity.
  - rewrite S1, S0, B4. reflexivity.
  - unfold vty_of in C0 |- *. cbn [WIDTH SIZE] in C0 |- *. lia.
  - exact (portable_widened_tuple fs c tie fop fsqrt narrow e t x P l0 n E func T He HP Hf Hs Ht Hu Hov N0 Hrun).
Qed.

Lemma c95_strides : forall (fs : features) (c : config) (tie : bool) (fop : arith -> elty -> Z -> Z -> Z) (fsqrt : elty -> Z -> Z) (narrow : Z -> Z) (e : elty) (t : ity) (x : expr) (P : Z -> Prop) (n : nat) (l : list Z) (ds : list (list Z)) (x0 : Z) (l0 l1 : packed_line)
    (E : Type) (func : E -> tuple (list Z) (S n) -> list Z * E) (env : E) (fuel : nat),
  let count := Z.of_nat n + 2 in
  fs "undefined"%string = false -> In e widenable -> (forall a, P a -> lane e a) ->
  (forall o e u v, e = EF32 \/ e = EF64 -> lane e u -> lane e v -> lane e (fop o e u v)) -> (forall e u, e = EF32 \/ e = EF64 -> lane e u -> lane e (fsqrt e u)) ->
  type_of (wide e) (S (S n)) x = Some (EInt t) -> t <> u64 \/ (forall row, length row = S (S n) -> Forall P row -> meaning (wide e) (S (S n)) fop fsqrt x row <= 2147483647) ->
  build c = Release \/ (forall row, length row = S (S n) -> Forall P row -> overflows (wide e) (S (S n)) fop fsqrt x row = false) ->
  portable_natural fs (el_name e ++ "s") = [l0] -> portable_natural fs (el_name (EInt (half t)) ++ "s") = [l1] ->
  Forall P l -> zlen l * p_size l0 <= isize_max -> count * 33 <= 2 ^ 63 -> zlen ds = count -> Forall (fun d => zlen d = p_width l0 /\ Forall P d) ds -> (length l < fuel)%nat ->
  (forall e' t r, Forall (fun v => zlen v = p_width l0 /\ Forall P v) (PipeSpec.items (S n) t) -> portable_widened fs c tie fop fsqrt narrow e x (PipeSpec.items (S n) t) = Some (Ok r) -> fst (func e' t) = r) ->
  let it := stride_iterator c (slice_array c (vty_of l0)) x0 in
  let rest := rest_many (blanket_unsafe c (ps_array c (slice_array c (vty_of l0)) x0) (ps_iterable c (slice_array c (vty_of l0)) x0)) n in
  let m := zipmap_iterator c (zip_iterator it rest) (vty_of l1) 0 func in
  exists tp : tuple (PackedStride Z (list Z)) (S n), stride l count ds = Ok (PipeSpec.items (S n) tp) /\ zip it rest tp = Ok tp /\
  exists out s', scalar_collect c m 0 fuel (mkSIMDMap tp env) = Ok (map Some out, s') /\
    zlen out = zlen l / count /\ forall k, 0 <= k < zlen out -> znth out k = Some (clamp (half t) (meaning (wide e) (S (S n)) fop fsqrt x (sub l (count * k) count))).
Proof.
  intros fs c tie fop fsqrt narrow e t x P n l ds x0 l0 l1 E func env fuel count T He HP Hf Hs Ht Hu Hov N0 N1 Fl Cap Hcnt Hlen Hds Hfu Hrun. destruct (wide_prim e He) as (P1 & _). destruct (result_wide e _ x t He Ht) as (_ & _ & P4 & _ & B4).
  destruct (portable_vty fs e l0 T P1 N0) as (V0 & W0 & S0 & C0). destruct (portable_vty fs _ l1 T P4 N1) as (V1 & W1 & S1 & _).
  apply (c72_zip_strides Z Z E c (vty_of l0) (vty_of l1) n l ds x0 0 (fun row => clamp (half t) (meaning (wide e) (S (S n)) fop fsqrt x row)) func env P fuel V0 V1); try assumption.
  - rewrite W1, W0, B4. reflexivity.
  - rewrite S1, S0, B4. reflexivity.
  - assert (W : WIDTH (vty_of l0) <= 32) by (rewrite W0; prims P1; vm_compute; discriminate). unfold count in Hcnt. nia.
  - exact (portable_widened_tuple fs c tie fop fsqrt narrow e t x P l0 n E func T He HP Hf Hs Ht Hu Hov N0 Hrun).
Qed.
