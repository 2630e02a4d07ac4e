(** Proofs of the properties: reductions on the portable back-end (C96). *)
From Coq Require Import String.
From Verif Require Import Base Spec VecSpec Vecs Iters Stride Zip ZipSpec GateTables GateSpec Gates Lanes OpTables Ops OpSpec PipeSpec SumSpec ExprSpec Exprs OverflowSpec Portables.
Open Scope list_scope.
Open Scope Z_scope.
From Coq Require Import Lia ZifyBool ZifyNat.
From Verif Require Import ListFacts VecFacts IterFacts CollectFacts MapFacts StrideFacts ZipFacts ReduceFacts VecProofs OpProofs IterProofs CollectSpec CollectProofs LawSpec LawProofs LoopProofs SumProofs ZipProofs PipeProofs DocProofs KernProofs ExprProofs FoldProofs PortableProofs.
Ltac Zify.zify_post_hook ::= Z.div_mod_to_equations.

(** The closures on full vectors whose lanes do not overflow. *)
Lemma portable_unary_lanes : forall fs c tie fop fsqrt narrow e0 e1 g l0 l1 (Q : Z -> Prop) v r0, fs "undefined"%string = false -> In e0 primitives ->
  (forall o e u v, e = EF32 \/ e = EF64 -> lane e u -> lane e v -> lane e (fop o e u v)) -> (forall e u, e = EF32 \/ e = EF64 -> lane e u -> lane e (fsqrt e u)) ->
  type_of e0 1 g = Some e1 -> portable_natural fs (el_name e0 ++ "s") = [l0] -> portable_natural fs (el_name e1 ++ "s") = [l1] ->
  (forall u, Q u -> lane e0 u) -> build c = Release \/ (forall u, Q u -> overflows e0 1 fop fsqrt g [u] = false) ->
  zlen v = p_width l0 -> Forall Q v -> (forall r, portable_run fs c tie fop fsqrt narrow e0 1 g [v] = Some (Ok r) -> r0 = r) ->
  r0 = map (fun a => meaning e0 1 fop fsqrt g [a]) v.
Proof.
  intros fs c tie fop fsqrt narrow e0 e1 g l0 l1 Q v r0 T H0 Hf Hs Ht N0 N1 HQ Hov Lv Fv Hrun.
  destruct (type_prim e0 1 H0 g e1 Ht) as [P1 B1]. destruct (portable_vty fs e0 l0 T H0 N0) as (_ & W0 & _). destruct (portable_vty fs e1 l1 T P1 N1) as (_ & W1 & _).
  assert (Ww : p_width l1 = p_width l0) by (change (WIDTH (vty_of l1) = WIDTH (vty_of l0)); rewrite W1, W0, B1; reflexivity).
  destruct (c94_closure fs c tie fop fsqrt narrow e0 e1 g [v] l0 l1 T H0 Hf Hs Ht N0 N1 ltac:(discriminate)) as [C _]; [constructor; [split; [exact Lv|eapply Forall_impl; [exact HQ|exact Fv]]|constructor]|].
  destruct C as (r & Rr & Lr & _ & M).
  { destruct Hov as [B|B]; [left; exact B|right]. intros k env Hc. inversion Hc as [|? a ? ? Ha Hc']; subst. inversion Hc'; subst. apply B. exact (proj1 (Forall_forall _ _) Fv a (OpProofs.znth_In _ _ _ _ Ha)). }
  cbn [length] in Rr, M. rewrite (Hrun r Rr). apply meaning1; [rewrite Ww in Lr; clear -Lr Lv; unfold zlen in *; lia|]. intros k a Ha. apply M. constructor; [exact Ha|constructor].
Qed.

Lemma portable_binary_lanes : forall fs c tie fop fsqrt narrow e1 x l1 (Q : Z -> Prop) a v r0, fs "undefined"%string = false -> In e1 primitives ->
  (forall o e u v, e = EF32 \/ e = EF64 -> lane e u -> lane e v -> lane e (fop o e u v)) -> (forall e u, e = EF32 \/ e = EF64 -> lane e u -> lane e (fsqrt e u)) ->
  type_of e1 2 x = Some e1 -> portable_natural fs (el_name e1 ++ "s") = [l1] ->
  (forall u, Q u -> lane e1 u) -> build c = Release \/ (forall k p q, znth a k = Some p -> znth v k = Some q -> overflows e1 2 fop fsqrt x [p; q] = false) ->
  zlen a = p_width l1 -> zlen v = p_width l1 -> Forall Q a -> Forall Q v -> (forall r, portable_run fs c tie fop fsqrt narrow e1 2 x [a; v] = Some (Ok r) -> r0 = r) ->
  r0 = map2 (fun p q => meaning e1 2 fop fsqrt x [p; q]) a v.
Proof.
  intros fs c tie fop fsqrt narrow e1 x l1 Q a v r0 T H1 Hf Hs Ht N1 HQ Hov La Lv Fa Fv Hrun.
  destruct (c94_closure fs c tie fop fsqrt narrow e1 e1 x [a; v] l1 l1 T H1 Hf Hs Ht N1 N1 ltac:(discriminate)) as [C _]; [constructor; [split; [exact La|eapply Forall_impl; [exact HQ|exact Fa]]|constructor; [split; [exact Lv|eapply Forall_impl; [exact HQ|exact Fv]]|constructor]]|].
  destruct C as (r & Rr & Lr & _ & M).
  { destruct Hov as [B|B]; [left; exact B|right]. intros k env Hc. inversion Hc as [|? p ? ? Hp Hc']; subst. inversion Hc' as [|? q ? ? Hq Hc'']; subst. inversion Hc''; subst. exact (B k p q Hp Hq). }
  cbn [length] in Rr, M. rewrite (Hrun r Rr). apply meaning2; [clear -Lr La; unfold zlen in *; lia|clear -Lr Lv; unfold zlen in *; lia|]. intros k p q Hp Hq. apply M. constructor; [exact Hp|constructor; [exact Hq|constructor]].
Qed.

(** The closures on tuples of full vectors whose lanes do not overflow. *)
Lemma portable_tuple_lanes : forall fs c tie fop fsqrt narrow e0 e1 g n l0 l1 (Q : Z -> Prop) (E : Type) (func : E -> tuple (list Z) (S n) -> list Z * E), fs "undefined"%string = false -> In e0 primitives ->
  (forall o e u v, e = EF32 \/ e = EF64 -> lane e u -> lane e v -> lane e (fop o e u v)) -> (forall e u, e = EF32 \/ e = EF64 -> lane e u -> lane e (fsqrt e u)) ->
  type_of e0 (S (S n)) g = Some e1 -> portable_natural fs (el_name e0 ++ "s") = [l0] -> portable_natural fs (el_name e1 ++ "s") = [l1] ->
  (forall u, Q u -> lane e0 u) -> build c = Release \/ (forall row, Forall Q row -> overflows e0 (S (S n)) fop fsqrt g row = false) ->
  (forall e t r, Forall (fun v => zlen v = p_width l0 /\ Forall Q v) (PipeSpec.items (S n) t) -> portable_run fs c tie fop fsqrt narrow e0 (S (S n)) g (PipeSpec.items (S n) t) = Some (Ok r) -> fst (func e t) = r) ->
  lane_by_lane (WIDTH (vty_of l0)) Q (S n) (meaning e0 (S (S n)) fop fsqrt g) func.
Proof.
  intros fs c tie fop fsqrt narrow e0 e1 g n l0 l1 Q E func T H0 Hf Hsq Tg N0 N1 HQ Hov Rg.
  destruct (type_prim e0 _ H0 g e1 Tg) as [P1 B1]. destruct (portable_vty fs e0 l0 T H0 N0) as (V0 & W0 & S0 & C0). destruct (portable_vty fs e1 l1 T P1 N1) as (V1 & W1 & S1 & _).
  assert (Hw : WIDTH (vty_of l1) = WIDTH (vty_of l0)) by (rewrite W1, W0, B1; reflexivity).
  intros e' t' Ht0. pose proof (items_length (S n) t') as Il. assert (Hne : PipeSpec.items (S n) t' <> []) by (intros K; rewrite K in Il; discriminate). assert (Ht' := Tg). rewrite <- Il in Ht'.
  assert (Ht1 : Forall (fun v => zlen v = p_width l0 /\ Forall (lane e0) v) (PipeSpec.items (S n) t')) by (eapply Forall_impl; [|exact Ht0]; intros v [Lv Fv]; split; [exact Lv|eapply Forall_impl; [exact HQ|exact Fv]]).
  destruct (c94_closure fs c tie fop fsqrt narrow e0 e1 g (PipeSpec.items (S n) t') l0 l1 T H0 Hf Hsq Ht' N0 N1 Hne Ht1) as [C _]. destruct C as (r & Rr & Lr & _ & M).
  { destruct Hov as [Hov|Hov]; [left; exact Hov|right]. intros k row Hc. rewrite Il. apply Hov. clear -Hc Ht0. induction Hc as [|v a vs row Ha Hc IH]; [constructor|]. inversion Ht0 as [|? ? [_ F] Ht1]; subst. constructor; [exact (proj1 (Forall_forall _ _) F a (OpProofs.znth_In _ _ _ _ Ha))|exact (IH Ht1)]. }
  rewrite Il in Rr. rewrite (Rg e' t' r Ht0 Rr). split; [rewrite Lr; exact Hw|]. intros k r0 Hc. rewrite (M k r0 Hc), Il. reflexivity.
Qed.

Lemma c94_strides : forall (fs : features) (c : config) (tie : bool) (fop : arith -> elty -> Z -> Z -> Z) (fsqrt : elty -> Z -> Z) (narrow : Z -> Z) (e0 e1 : elty) (x : expr) (n : nat) (P : Z -> Prop) (l : list Z) (ds : list (list Z)) (x0 : Z) (l0 l1 : packed_line)
    (E : Type) (func : E -> tuple (list Z) (S n) -> list Z * E) (e : E) (fuel : nat),
  let count := Z.of_nat n + 2 in
  fs "undefined"%string = false -> In e0 primitives ->
  (forall o e u v, e = EF32 \/ e = EF64 -> lane e u -> lane e v -> lane e (fop o e u v)) -> (forall e u, e = EF32 \/ e = EF64 -> lane e u -> lane e (fsqrt e u)) ->
  type_of e0 (S (S n)) x = Some e1 -> portable_natural fs (el_name e0 ++ "s") = [l0] -> portable_natural fs (el_name e1 ++ "s") = [l1] ->
  (forall u, P u -> lane e0 u) -> build c = Release \/ (forall row, Forall P row -> overflows e0 (S (S n)) fop fsqrt x row = false) ->
  Forall P l -> zlen l * p_size l0 <= isize_max -> count * 33 <= 2 ^ 63 -> zlen ds = count -> Forall (fun d => zlen d = p_width l0 /\ Forall P d) ds -> (length l < fuel)%nat ->
  (forall e t r, Forall (fun v => zlen v = p_width l0 /\ Forall P v) (PipeSpec.items (S n) t) -> portable_run fs c tie fop fsqrt narrow e0 (S (S n)) x (PipeSpec.items (S n) t) = Some (Ok r) -> fst (func e t) = r) ->
  let it := stride_iterator c (slice_array c (vty_of l0)) x0 in
  let rest := rest_many (blanket_unsafe c (ps_array c (slice_array c (vty_of l0)) x0) (ps_iterable c (slice_array c (vty_of l0)) x0)) n in
  let m := zipmap_iterator c (zip_iterator it rest) (vty_of l1) 0 func in
  exists t : tuple (PackedStride Z (list Z)) (S n), stride l count ds = Ok (PipeSpec.items (S n) t) /\ zip it rest t = Ok t /\
  exists out s', scalar_collect c m 0 fuel (mkSIMDMap t e) = Ok (map Some out, s') /\
    zlen out = zlen l / count /\ forall k, 0 <= k < zlen out -> znth out k = Some (meaning e0 (S (S n)) fop fsqrt x (sub l (count * k) count)).
Proof.
  intros fs c tie fop fsqrt narrow e0 e1 x n P l ds x0 l0 l1 E func e fuel count T H0 Hf Hs Ht N0 N1 HP Hov Fl Cap Hcnt Hlen Hds Hfu Hrun.
  destruct (type_prim e0 _ H0 x e1 Ht) as [P1 B1]. destruct (portable_vty fs e0 l0 T H0 N0) as (V0 & W0 & S0 & C0). destruct (portable_vty fs e1 l1 T P1 N1) as (V1 & W1 & S1 & _).
  apply (c72_zip_strides Z Z E c (vty_of l0) (vty_of l1) n l ds x0 0 (meaning e0 (S (S n)) fop fsqrt x) func e P fuel V0 V1); try assumption.
  - rewrite W1, W0, B1. reflexivity.
  - rewrite S1, S0, B1. reflexivity.
  - assert (W : WIDTH (vty_of l0) <= 32) by (rewrite W0; prims H0; vm_compute; discriminate). clear -W Hcnt. unfold count in Hcnt. nia.
  - exact (portable_tuple_lanes fs c tie fop fsqrt narrow e0 e1 x n l0 l1 P E func T H0 Hf Hs Ht N0 N1 HP Hov Hrun).
Qed.

Lemma c96_reduce : forall (fs : features) (c : config) (tie : bool) (fop : arith -> elty -> Z -> Z -> Z) (fsqrt : elty -> Z -> Z) (narrow : Z -> Z) (e0 e1 : elty) (g x : expr) (Q P : Z -> Prop) (l : list Z) (d i : Z) (l0 l1 : packed_line)
    (E : Type) (func : E -> list Z -> list Z * E) (env : E) (f : list Z -> list Z -> list Z) (fuel : nat),
  let op a b := meaning e1 2 fop fsqrt x [a; b] in let h a := meaning e0 1 fop fsqrt g [a] in
  fs "undefined"%string = false -> In e0 primitives ->
  (forall o e u v, e = EF32 \/ e = EF64 -> lane e u -> lane e v -> lane e (fop o e u v)) -> (forall e u, e = EF32 \/ e = EF64 -> lane e u -> lane e (fsqrt e u)) ->
  type_of e0 1 g = Some e1 -> type_of e1 2 x = Some e1 -> portable_natural fs (el_name e0 ++ "s") = [l0] -> portable_natural fs (el_name e1 ++ "s") = [l1] ->
  (forall u, Q u -> lane e0 u /\ P (h u)) -> (forall u, P u -> lane e1 u) -> (forall u v, P u -> P v -> P (op u v)) ->
  (forall u v w, P u -> P v -> P w -> op u (op v w) = op (op u v) w) -> (forall u v, P u -> P v -> op u v = op v u) -> (forall u, P u -> op i u = u) ->
  build c = Release \/ (forall u, Q u -> overflows e0 1 fop fsqrt g [u] = false) /\ (forall u v, P u -> P v -> overflows e1 2 fop fsqrt x [u; v] = false) ->
  P i -> Q d -> h d = i -> Forall Q l -> zlen l * p_size l0 <= isize_max -> (length l < fuel)%nat ->
  (forall e v r, zlen v = p_width l0 -> Forall Q v -> portable_run fs c tie fop fsqrt narrow e0 1 g [v] = Some (Ok r) -> fst (func e v) = r) ->
  (forall a v r, zlen a = p_width l1 -> zlen v = p_width l1 -> Forall P a -> Forall P v -> portable_run fs c tie fop fsqrt narrow e1 2 x [a; v] = Some (Ok r) -> f a v = r) ->
  exists acc s', simd_reduce (map_iterator c (slice_iterator c (vty_of l0)) (vty_of l1) 0 func) fuel (mkSIMDMap (simd_iter l (splat (p_width l0) d)) env) (splat (p_width l1) i) f = Ok (acc, s') /\
    scalar_reduce (p_width l1) acc i op = Ok (fold_left op (map h l) i).
Proof.
  intros fs c tie fop fsqrt narrow e0 e1 g x Q P l d i l0 l1 E func env f fuel op h T H0 Hf Hsq Tg Tx N0 N1 HQ HP Pop As Cm Un Hov Hi Hd Hdi Hl Cap Hfu Rg Rx.
  destruct (type_prim e0 1 H0 g e1 Tg) as [P1 B1]. destruct (portable_vty fs e0 l0 T H0 N0) as (V0 & W0 & S0 & C0). destruct (portable_vty fs e1 l1 T P1 N1) as (V1 & W1 & S1 & _).
  pose proof (vty_ok_facts _ V0) as (F1 & F2 & F3 & F4 & F5 & F6). pose proof (vty_ok_facts _ V1) as (G1 & G2 & G3 & G4 & G5 & G6). set (w := p_width l0) in *. assert (Ww : p_width l1 = w) by (change (WIDTH (vty_of l1) = WIDTH (vty_of l0)); rewrite W1, W0, B1; reflexivity). rewrite Ww in *.
  change (WIDTH (vty_of l0)) with w in *. change (WIDTH (vty_of l1)) with (p_width l1) in *. rewrite Ww in *.
  assert (Wpos : 0 < w) by (clear -F1; lia).
  assert (Cg : forall e v, zlen v = w -> Forall Q v -> fst (func e v) = map h v /\ Forall P (map h v)).
  { intros e v Lv Fv. split; [|apply Forall_map; eapply Forall_impl; [|exact Fv]; intros u Hu; exact (proj2 (HQ u Hu))].
    apply (portable_unary_lanes fs c tie fop fsqrt narrow e0 e1 g l0 l1 Q v _ T H0 Hf Hsq Tg N0 N1 (fun u Hu => proj1 (HQ u Hu))); [destruct Hov as [B|[B _]]; [left; exact B|right; exact B]|exact Lv|exact Fv|intros r; apply Rg; assumption]. }
  assert (Cx : forall a v, zlen a = w -> zlen v = w -> Forall P a -> Forall P v -> f a v = map2 op a v).
  { intros a v La Lv Fa Fv. apply (portable_binary_lanes fs c tie fop fsqrt narrow e1 x l1 P a v _ T P1 Hf Hsq Tx N1 HP); [|rewrite Ww; exact La|rewrite Ww; exact Lv|exact Fa|exact Fv|intros r; apply Rx; assumption].
    destruct Hov as [B|[_ B]]; [left; exact B|right]. intros k p q Hp Hq. apply B; [exact (proj1 (Forall_forall _ _) Fa p (OpProofs.znth_In _ _ _ _ Hp))|exact (proj1 (Forall_forall _ _) Fv q (OpProofs.znth_In _ _ _ _ Hq))]. }
  set (dv := splat w d). assert (Ldv : zlen dv = w) by (unfold dv, splat; rewrite zlen_repeat; clear -Wpos; lia).
  destruct (c01_traversal Z c (vty_of l0) l dv 0 fuel V0 Cap Ldv (conj (Z.le_refl 0) (zlen_nonneg l)) (or_introl eq_refl) Hfu) as (vs0 & rest0 & Dr & _ & Lr0 & _). change (WIDTH (vty_of l0)) with w in *.
  set (step := fun (a : list Z * E) v => (f (fst a) (fst (func (snd a) v)), snd (func (snd a) v))).
  destruct (c06_reduce Z (list Z * E) c (vty_of l0) l dv 0 (splat w i, env) step fuel V0 Cap Ldv (conj (Z.le_refl 0) (zlen_nonneg l)) (or_introl eq_refl) Hfu) as (vs & rest & [Hc1 Hc2] & Hr & _ & Hred & _). cbn [Z.to_nat skipn] in Hc2. change (WIDTH (vty_of l0)) with w in *.
  assert (Ms : forall p n, tail_of dv rest0 = Some (p, n) -> 0 <= n * SIZE (vty_of l0) < 2 ^ 64).
  { intros p n E1. unfold tail_of in E1. destruct rest0 as [|y ys]; [discriminate|]. injection E1 as <- <-. unfold unfilled. rewrite Ldv. pose proof (zlen_nonneg (y :: ys)) as Hyy. change (2 ^ 64) with 18446744073709551616. assert (H32 : w * SIZE (vty_of l0) = 16) by exact C0. split; [apply Z.mul_nonneg_nonneg; clear -F1 F2 F3 F4 F5 F6 Lr0; lia|]. assert (Hle : (w - zlen (y :: ys)) * SIZE (vty_of l0) <= w * SIZE (vty_of l0)) by (apply Z.mul_le_mono_nonneg_r; clear -F1 F2 F3 Hyy; lia). clear -H32 Hle; lia. }
  destruct (c79_reduce_map (list Z) Z _ E (list Z) c (slice_iterator c (vty_of l0)) (vty_of l1) 0 func (simd_iter l dv) (mkSIMDIter (zlen l) l dv) env fuel vs0 (tail_of dv rest0) (splat w i) f) as [R _]; [clear -F1 F2 G1 G2; lia|exact Dr|exact Ms|].
  cbv zeta in R. fold step in R. unfold simd_iter in *. rewrite Hred in R. cbn [bind fst snd] in R.
  eexists. eexists. split; [exact R|].
  destruct (fold_args Q P op h i d w E step env l vs rest Pop Hi As Cm Un (fun u Hu => proj2 (HQ u Hu)) Hd Hdi Hl Wpos Hc1 Hc2 Hr) as (O1 & O2 & O3).
  - intros a e v La Lv Fa Fv. unfold step. cbn [fst snd]. destruct (Cg e v Lv Fv) as [K1 K2]. rewrite K1. apply Cx; [exact La|clear -Lv; unfold zlen in *; rewrite map_length; exact Lv|exact Fa|exact K2].
  - change w with (WIDTH (vty_of l0)). rewrite c34_scalar_reduce by exact O1. f_equal. exact O3.
Qed.

Lemma c96_slice : forall (fs : features) (c : config) (tie : bool) (fop : arith -> elty -> Z -> Z -> Z) (fsqrt : elty -> Z -> Z) (narrow : Z -> Z) (e0 : elty) (x : expr) (P : Z -> Prop) (l : list Z) (i : Z) (l0 : packed_line) (f : list Z -> list Z -> list Z) (fuel : nat),
  let op a b := meaning e0 2 fop fsqrt x [a; b] in let start := splat (p_width l0) i in
  fs "undefined"%string = false -> In e0 primitives ->
  (forall o e u v, e = EF32 \/ e = EF64 -> lane e u -> lane e v -> lane e (fop o e u v)) -> (forall e u, e = EF32 \/ e = EF64 -> lane e u -> lane e (fsqrt e u)) ->
  type_of e0 2 x = Some e0 -> portable_natural fs (el_name e0 ++ "s") = [l0] ->
  (forall u, P u -> lane e0 u) -> (forall u v, P u -> P v -> P (op u v)) ->
  (forall u v w, P u -> P v -> P w -> op u (op v w) = op (op u v) w) -> (forall u v, P u -> P v -> op u v = op v u) -> (forall u, P u -> op i u = u) ->
  build c = Release \/ (forall u v, P u -> P v -> overflows e0 2 fop fsqrt x [u; v] = false) ->
  P i -> Forall P l -> zlen l * p_size l0 <= isize_max -> (length l < fuel)%nat ->
  (forall a v r, zlen a = p_width l0 -> zlen v = p_width l0 -> Forall P a -> Forall P v -> portable_run fs c tie fop fsqrt narrow e0 2 x [a; v] = Some (Ok r) -> f a v = r) ->
  exists acc s', simd_reduce (slice_iterator c (vty_of l0)) fuel (simd_iter l start) start f = Ok (acc, s') /\
    scalar_reduce (p_width l0) acc i op = Ok (fold_left op l i).
Proof.
  intros fs c tie fop fsqrt narrow e0 x P l i l0 f fuel op start T H0 Hf Hsq Tx N0 HP Pop As Cm Un Hov Hi Hl Cap Hfu Rx.
  destruct (portable_vty fs e0 l0 T H0 N0) as (V0 & W0 & S0 & C0). pose proof (vty_ok_facts _ V0) as (F1 & F2 & F3 & F4 & F5 & F6). set (w := p_width l0) in *. change (WIDTH (vty_of l0)) with w in *. assert (Wpos : 0 < w) by (clear -F1; lia).
  assert (Cx : forall a v, zlen a = w -> zlen v = w -> Forall P a -> Forall P v -> f a v = map2 op a v).
  { intros a v La Lv Fa Fv. apply (portable_binary_lanes fs c tie fop fsqrt narrow e0 x l0 P a v _ T H0 Hf Hsq Tx N0 HP); [|exact La|exact Lv|exact Fa|exact Fv|intros r; apply Rx; assumption].
    destruct Hov as [B|B]; [left; exact B|right]. intros k p q Hp Hq. apply B; [exact (proj1 (Forall_forall _ _) Fa p (OpProofs.znth_In _ _ _ _ Hp))|exact (proj1 (Forall_forall _ _) Fv q (OpProofs.znth_In _ _ _ _ Hq))]. }
  destruct (splat_lanes _ w i Wpos Hi) as (Ls & _ & _).
  destruct (c06_reduce Z (list Z) c (vty_of l0) l start 0 start f fuel V0 Cap Ls (conj (Z.le_refl 0) (zlen_nonneg l)) (or_introl eq_refl) Hfu) as (vs & rest & [Hc1 Hc2] & Hr & _ & Hred & _). cbn [Z.to_nat skipn] in Hc2. change (WIDTH (vty_of l0)) with w in *.
  eexists. eexists. split; [exact Hred|]. rewrite <- fold_pair.
  destruct (fold_args P P op (fun u => u) i i w unit (fun p v => (f (fst p) v, tt)) tt l vs rest Pop Hi As Cm Un (fun u Hu => Hu) Hi eq_refl Hl Wpos Hc1 Hc2 Hr) as (O1 & O2 & O3).
  - intros a e v La Lv Fa Fv. cbn [fst]. rewrite map_id. apply Cx; assumption.
  - change w with (WIDTH (vty_of l0)). rewrite map_id in O3. rewrite c34_scalar_reduce by exact O1. f_equal. exact O3.
Qed.

Lemma c96_zip : forall (fs : features) (c : config) (tie : bool) (fop : arith -> elty -> Z -> Z -> Z) (fsqrt : elty -> Z -> Z) (narrow : Z -> Z) (e0 e1 : elty) (g x : expr) (n : nat) (Q P : Z -> Prop) (ls ds : list (list Z)) (N i : Z) (l0 l1 : packed_line)
    (E : Type) (func : E -> tuple (list Z) (S n) -> list Z * E) (env : E) (t : tuple (SIMDIter Z (list Z)) (S n)) (f : list Z -> list Z -> list Z) (fuel : nat),
  let op a b := meaning e1 2 fop fsqrt x [a; b] in let h row := meaning e0 (S (S n)) fop fsqrt g row in
  fs "undefined"%string = false -> In e0 primitives ->
  (forall o e u v, e = EF32 \/ e = EF64 -> lane e u -> lane e v -> lane e (fop o e u v)) -> (forall e u, e = EF32 \/ e = EF64 -> lane e u -> lane e (fsqrt e u)) ->
  type_of e0 (S (S n)) g = Some e1 -> type_of e1 2 x = Some e1 -> portable_natural fs (el_name e0 ++ "s") = [l0] -> portable_natural fs (el_name e1 ++ "s") = [l1] ->
  (forall u, Q u -> lane e0 u) -> (forall row, length row = S (S n) -> Forall Q row -> P (h row)) -> (forall u, P u -> lane e1 u) -> (forall u v, P u -> P v -> P (op u v)) ->
  (forall u v w, P u -> P v -> P w -> op u (op v w) = op (op u v) w) -> (forall u v, P u -> P v -> op u v = op v u) -> (forall u, P u -> op i u = u) ->
  build c = Release \/ (forall row, Forall Q row -> overflows e0 (S (S n)) fop fsqrt g row = false) /\ (forall u v, P u -> P v -> overflows e1 2 fop fsqrt x [u; v] = false) ->
  P i -> (forall k row, column ds k row -> h row = i) ->
  Forall (fun l => zlen l = N /\ Forall Q l) ls -> Forall (fun d => zlen d = p_width l0 /\ Forall Q d) ds -> length ls = length ds ->
  PipeSpec.items (S n) t = map2 simd_iter ls ds -> N * p_size l0 + 16 <= isize_max -> N < Z.of_nat fuel ->
  (forall e t r, Forall (fun v => zlen v = p_width l0 /\ Forall Q v) (PipeSpec.items (S n) t) -> portable_run fs c tie fop fsqrt narrow e0 (S (S n)) g (PipeSpec.items (S n) t) = Some (Ok r) -> fst (func e t) = r) ->
  (forall a v r, zlen a = p_width l1 -> zlen v = p_width l1 -> Forall P a -> Forall P v -> portable_run fs c tie fop fsqrt narrow e1 2 x [a; v] = Some (Ok r) -> f a v = r) ->
  let rest := rest_many (blanket_unsafe c (si_array (slice_array c (vty_of l0))) (si_iterable c (slice_array c (vty_of l0)))) n in
  let m := zipmap_iterator c (zip_iterator (slice_iterator c (vty_of l0)) rest) (vty_of l1) 0 func in
  zip (slice_iterator c (vty_of l0)) rest t = Ok t /\
  exists out acc s', zlen out = N /\ (forall k row, column ls k row -> znth out k = Some (h row)) /\
    simd_reduce m fuel (mkSIMDMap t env) (splat (p_width l1) i) f = Ok (acc, s') /\ scalar_reduce (p_width l1) acc i op = Ok (fold_left op out i).
Proof.
  intros fs c tie fop fsqrt narrow e0 e1 g x n Q P ls ds N i l0 l1 E func env t f fuel op h T H0 Hf Hsq Tg Tx N0 N1 HQ Ph HP Pop As Cm Un Hov Hi Hdi Hls Hds Hlen Hit Cap Hfu Rg Rx rest m.
  destruct (type_prim e0 _ H0 g e1 Tg) as [P1 B1]. destruct (portable_vty fs e0 l0 T H0 N0) as (V0 & W0 & S0 & C0). destruct (portable_vty fs e1 l1 T P1 N1) as (V1 & W1 & S1 & _).
  assert (Hw : WIDTH (vty_of l1) = WIDTH (vty_of l0)) by (rewrite W1, W0, B1; reflexivity). assert (Hsz : SIZE (vty_of l1) = SIZE (vty_of l0)) by (rewrite S1, S0, B1; reflexivity).
  pose proof (vty_ok_facts _ V0) as (F1 & F2 & F3 & F4 & F5 & F6).
  assert (Hfn : lane_by_lane (WIDTH (vty_of l0)) Q (S n) h func) by (apply (portable_tuple_lanes fs c tie fop fsqrt narrow e0 e1 g n l0 l1 Q E func T H0 Hf Hsq Tg N0 N1 HQ); [destruct Hov as [B|[B _]]; [left; exact B|right; exact B]|exact Rg]).
  assert (Cap' : (N + WIDTH (vty_of l0)) * SIZE (vty_of l0) <= isize_max) by (unfold vty_of in C0 |- *; cbn [WIDTH SIZE] in C0 |- *; clear -C0 Cap; lia).
  destruct (slices_run c (vty_of l0) (vty_of l1) n ls ds N 0 h func env Q t fuel V0 V1 Hw Hsz Hls Hds Hlen Hit Cap' Hfu Hfn) as (Hz & G & ys & tl & s' & R1 & R2 & R3 & R4 & R5 & R6 & pad & R7 & R8 & R9 & R10).
  fold rest in Hz, R1. fold m in R1. split; [exact Hz|].
  pose proof (emits_reduce m _ _ _ _ (cp_emits _ _ _ _ _ R1) fuel (splat (p_width l1) i) f R4) as Hred.
  set (w := p_width l0) in *. assert (Ww : p_width l1 = w) by exact Hw. rewrite Ww in *. change (WIDTH (vty_of l0)) with w in *. assert (Wpos : 0 < w) by (clear -F1; lia).
  assert (Cx : forall a v, zlen a = w -> zlen v = w -> Forall P a -> Forall P v -> f a v = map2 op a v).
  { intros a v La Lv Fa Fv. apply (portable_binary_lanes fs c tie fop fsqrt narrow e1 x l1 P a v _ T P1 Hf Hsq Tx N1 HP); [|rewrite Ww; exact La|rewrite Ww; exact Lv|exact Fa|exact Fv|intros r; apply Rx; assumption].
    destruct Hov as [B|[_ B]]; [left; exact B|right]. intros k p q Hp Hq. apply B; [exact (proj1 (Forall_forall _ _) Fa p (OpProofs.znth_In _ _ _ _ Hp))|exact (proj1 (Forall_forall _ _) Fv q (OpProofs.znth_In _ _ _ _ Hq))]. }
  assert (Ll : length ls = S (S n)). { pose proof (items_length (S n) t) as Hil. rewrite Hit, map2_length in Hil by exact Hlen. exact Hil. }
  assert (FG : Forall P G).
  { apply forall_znth. intros k Hk. destruct (column_of ls Q N k Hls ltac:(clear -Hk R5; lia)) as (r & Cr & Fr). exists (h r). split; [apply R6; exact Cr|]. apply Ph; [|exact Fr]. rewrite <- Ll. symmetry. clear -Cr. induction Cr; [reflexivity|cbn [length]; congruence]. }
  assert (Lp : zlen pad < w). { rewrite R9. assert (HN : 0 <= N) by (rewrite <- R5; apply zlen_nonneg). clear -Wpos HN. nia. }
  assert (Hpad : forall k y, znth pad k = Some y -> y = i).
  { intros k y Hy. pose proof (znth_Some_lt _ _ _ Hy) as Hk. destruct (column_of ds Q w k Hds ltac:(clear -Hk Lp; lia)) as (r & Cr & _). rewrite (R10 k r Hk Cr) in Hy. injection Hy as <-. exact (Hdi k r Cr). }
  assert (FP : Forall P pad) by (apply forall_znth; intros k Hk; destruct (znth_some pad k Hk) as [y Hy]; exists y; split; [exact Hy|rewrite (Hpad k y Hy); exact Hi]).
  set (tail := skipn (Z.to_nat (w * zlen ys)) G) in *. assert (EG : G = concat ys ++ tail) by (rewrite <- R8; unfold tail; symmetry; apply firstn_skipn).
  assert (FG2 : Forall P (concat ys) /\ Forall P tail) by (apply Forall_app; rewrite <- EG; exact FG). destruct FG2 as [FY FT].
  destruct (splat_lanes _ w i Wpos Hi) as (Li & Fi & _).
  assert (FV : Forall (fun v => zlen v = w /\ Forall P v) (visited ys tl)).
  { apply Forall_forall. intros v Hv. split; [pose proof (visited_sized _ _ _ R2) as K; rewrite Forall_forall in K; exact (K v Hv)|]. assert (FC : Forall P (concat (visited ys tl))) by (rewrite R7; repeat (apply Forall_app; split); assumption).
    rewrite Forall_forall in FC |- *. intros y Hy. apply FC. apply in_concat. exists v. split; assumption. }
  destruct (on_vectors P op i Pop Hi As Cm Un unit (Z.to_nat w) (fun v => v) (fun p v => (f (fst p) v, tt)) (visited ys tl) (splat w i) tt) as (O1 & O2 & O3).
  - clear -Li. unfold zlen in Li. lia.
  - exact Fi.
  - eapply Forall_impl; [|exact FV]. intros v [Lv Fv]. cbv beta. split; [clear -Lv; unfold zlen in Lv; lia|exact Fv].
  - intros a u v La Fa Iv. rewrite Forall_forall in FV. destruct (FV v Iv) as [Lv Fv]. cbn [fst]. apply Cx; try assumption. clear -La Wpos. unfold zlen. lia.
  - rewrite fold_pair in O1, O2, O3. exists G, (fold_left f (visited ys tl) (splat w i)), s'. split; [exact R5|]. split; [exact R6|]. split; [exact Hred|].
    change w with (WIDTH (vty_of l0)). rewrite c34_scalar_reduce by (change (WIDTH (vty_of l0)) with w; clear -O1 Wpos; unfold zlen; lia). f_equal. change (WIDTH (vty_of l0)) with w. rewrite O3. unfold splat. rewrite (on_units P op i Hi Un), map_id, R7, EG.
    rewrite !(on_app P op i Pop Hi As Cm Un) by (try (apply Forall_app; split); assumption). rewrite (fold_some P op i Hi Un pad Hpad).
    pose proof (on_fold P op Pop _ i FT Hi) as PT. pose proof (on_fold P op Pop _ i FY Hi) as PY. rewrite (Un _ PT). apply Un. apply Pop; assumption.
Qed.

Lemma c96_minimum : forall (fs : features) (c : config) (tie : bool) (fop : arith -> elty -> Z -> Z -> Z) (fsqrt : elty -> Z -> Z) (narrow : Z -> Z) (t : ity) (l : list Z) (l0 : packed_line) (f : list Z -> list Z -> list Z) (fuel : nat),
  let start := splat (p_width l0) (imax t) in
  fs "undefined"%string = false -> In (EInt t) primitives -> (ibytes t <= 4)%nat -> portable_natural fs (el_name (EInt t) ++ "s") = [l0] -> Forall (in_ity t) l -> zlen l * p_size l0 <= isize_max -> (length l < fuel)%nat ->
  (forall a v r, zlen a = p_width l0 -> zlen v = p_width l0 -> Forall (in_ity t) a -> Forall (in_ity t) v -> portable_run fs c tie fop fsqrt narrow (EInt t) 2 (Call Min (Arg 0) (Arg 1)) [a; v] = Some (Ok r) -> f a v = r) ->
  exists acc s' r, simd_reduce (slice_iterator c (vty_of l0)) fuel (simd_iter l start) start f = Ok (acc, s') /\ scalar_reduce (p_width l0) acc (imax t) Z.min = Ok r /\
    (l = [] -> r = imax t) /\ (l <> [] -> In r l) /\ Forall (Z.le r) l.
Proof.
  intros fs c tie fop fsqrt narrow t l l0 f fuel start T H0 Hb N0 Hl Cap Hfu Rx. destruct (method_int t (EInt t) H0 (or_introl eq_refl)) as [B0 B1].
  destruct (c96_slice fs c tie (fun _ _ u _ => u) (fun _ u => u) narrow (EInt t) (Call Min (Arg 0) (Arg 1)) (in_ity t) l (imax t) l0 f fuel) as (acc & s' & R1 & R2); try assumption; cbn [meaning nth lane] in *.
  - intros; assumption.
  - intros; assumption.
  - clear -H0 Hb. unfold primitives in H0. cbn [In] in H0. repeat (destruct H0 as [H|H0]; [first [discriminate H | injection H as <-; try (cbn in Hb; lia); reflexivity]|]). contradiction.
  - intros u Hu. exact Hu.
  - unfold in_ity. intros u v Hu Hv. clear -Hu Hv. lia.
  - intros; apply Z.min_assoc.
  - intros; apply Z.min_comm.
  - unfold in_ity. intros u Hu. clear -Hu. lia.
  - right. reflexivity.
  - unfold in_ity. clear -B1. lia.
  - exists acc, s', (fold_left Z.min l (imax t)). split; [exact R1|]. split; [exact R2|]. destruct (fold_min l (imax t)) as (A & B & C). split; [intros ->; reflexivity|]. split; [|exact C]. intros Hne. destruct A as [A|A]; [|exact A].
    destruct l as [|y ys]; [congruence|]. rewrite A in C |- *. left. pose proof (Forall_inv C) as C1. cbv beta in C1. pose proof (Forall_inv Hl) as C2. unfold in_ity in C2. clear -C1 C2. lia.
Qed.

Lemma c96_maximum : forall (fs : features) (c : config) (tie : bool) (fop : arith -> elty -> Z -> Z -> Z) (fsqrt : elty -> Z -> Z) (narrow : Z -> Z) (t : ity) (l : list Z) (l0 : packed_line) (f : list Z -> list Z -> list Z) (fuel : nat),
  let start := splat (p_width l0) (imin t) in
  fs "undefined"%string = false -> In (EInt t) primitives -> (ibytes t <= 4)%nat -> portable_natural fs (el_name (EInt t) ++ "s") = [l0] -> Forall (in_ity t) l -> zlen l * p_size l0 <= isize_max -> (length l < fuel)%nat ->
  (forall a v r, zlen a = p_width l0 -> zlen v = p_width l0 -> Forall (in_ity t) a -> Forall (in_ity t) v -> portable_run fs c tie fop fsqrt narrow (EInt t) 2 (Call Max (Arg 0) (Arg 1)) [a; v] = Some (Ok r) -> f a v = r) ->
  exists acc s' r, simd_reduce (slice_iterator c (vty_of l0)) fuel (simd_iter l start) start f = Ok (acc, s') /\ scalar_reduce (p_width l0) acc (imin t) Z.max = Ok r /\
    (l = [] -> r = imin t) /\ (l <> [] -> In r l) /\ Forall (fun y => y <= r) l.
Proof.
  intros fs c tie fop fsqrt narrow t l l0 f fuel start T H0 Hb N0 Hl Cap Hfu Rx. destruct (method_int t (EInt t) H0 (or_introl eq_refl)) as [B0 B1].
  destruct (c96_slice fs c tie (fun _ _ u _ => u) (fun _ u => u) narrow (EInt t) (Call Max (Arg 0) (Arg 1)) (in_ity t) l (imin t) l0 f fuel) as (acc & s' & R1 & R2); try assumption; cbn [meaning nth lane] in *.
  - intros; assumption.
  - intros; assumption.
  - clear -H0 Hb. unfold primitives in H0. cbn [In] in H0. repeat (destruct H0 as [H|H0]; [first [discriminate H | injection H as <-; try (cbn in Hb; lia); reflexivity]|]). contradiction.
  - intros u Hu. exact Hu.
  - unfold in_ity. intros u v Hu Hv. clear -Hu Hv. lia.
  - intros; apply Z.max_assoc.
  - intros; apply Z.max_comm.
  - unfold in_ity. intros u Hu. clear -Hu. lia.
  - right. reflexivity.
  - unfold in_ity. clear -B1. lia.
  - exists acc, s', (fold_left Z.max l (imin t)). split; [exact R1|]. split; [exact R2|]. destruct (fold_max l (imin t)) as (A & B & C). split; [intros ->; reflexivity|]. split; [|exact C]. intros Hne. destruct A as [A|A]; [|exact A].
    destruct l as [|y ys]; [congruence|]. rewrite A in C |- *. left. pose proof (Forall_inv C) as C1. cbv beta in C1. pose proof (Forall_inv Hl) as C2. unfold in_ity in C2. clear -C1 C2. lia.
Qed.

Lemma c96_bitwise : forall (fs : features) (c : config) (tie : bool) (fop : arith -> elty -> Z -> Z -> Z) (fsqrt : elty -> Z -> Z) (narrow : Z -> Z) (t : ity) (o : arith) (i : Z) (l : list Z) (l0 : packed_line) (f : list Z -> list Z -> list Z) (fuel : nat),
  let start := splat (p_width l0) i in
  fs "undefined"%string = false -> In (EInt t) primitives ->
  (forall o e u v, e = EF32 \/ e = EF64 -> lane e u -> lane e v -> lane e (fop o e u v)) -> (forall e u, e = EF32 \/ e = EF64 -> lane e u -> lane e (fsqrt e u)) ->
  In (o, i) [(And, wrap t (-1)); (Or, 0); (Xor, 0)] -> portable_natural fs (el_name (EInt t) ++ "s") = [l0] -> Forall (in_ity t) l -> zlen l * p_size l0 <= isize_max -> (length l < fuel)%nat ->
  (forall a v r, zlen a = p_width l0 -> zlen v = p_width l0 -> Forall (in_ity t) a -> Forall (in_ity t) v -> portable_run fs c tie fop fsqrt narrow (EInt t) 2 (Arith o (Arg 0) (Arg 1)) [a; v] = Some (Ok r) -> f a v = r) ->
  exists acc s', simd_reduce (slice_iterator c (vty_of l0)) fuel (simd_iter l start) start f = Ok (acc, s') /\
    scalar_reduce (p_width l0) acc i (fun a b => wrap t (ExprSpec.exact o a b)) = Ok (fold_left (ExprSpec.exact o) l i).
Proof.
  intros fs c tie fop fsqrt narrow t o i l l0 f fuel start T H0 Hf Hsq Hoi N0 Hl Cap Hfu Rx. destruct (method_int t (EInt t) H0 (or_introl eq_refl)) as [B0 B1].
  assert (Bt : (0 < ibytes t)%nat) by (clear -H0; unfold primitives in H0; cbn [In] in H0; repeat (destruct H0 as [H|H0]; [first [discriminate H | injection H as <-; cbn; apply Nat.lt_0_succ]|]); contradiction).
  assert (Z0 : in_ity t 0) by (unfold in_ity; lia).
  assert (Ho : In o [And; Or; Xor] /\ in_ity t i /\ (forall u, in_ity t u -> ExprSpec.exact o i u = u)).
  { cbn [In] in Hoi. destruct Hoi as [E|[E|[E|[]]]]; injection E as <- <-; cbn [ExprSpec.exact In]; (split; [tauto|]).
    - split; [apply (ones_in t 0 Bt Z0)|]. intros u Hu. apply (ones_in t u Bt Hu).
    - split; [exact Z0|]. intros u _. apply Z.lor_0_l.
    - split; [exact Z0|]. intros u _. apply Z.lxor_0_l. }
  destruct Ho as (Ho & Hi & Hu). assert (Wi : forall u v, in_ity t u -> in_ity t v -> wrap t (ExprSpec.exact o u v) = ExprSpec.exact o u v) by (intros u v Gu Gv; apply wrap_id; try assumption; apply bits_in; assumption).
  destruct (c96_slice fs c tie fop fsqrt narrow (EInt t) (Arith o (Arg 0) (Arg 1)) (in_ity t) l i l0 f fuel) as (acc & s' & R1 & R2); try assumption.
  - clear -H0. unfold primitives in H0. cbn [In] in H0. repeat (destruct H0 as [H|H0]; [first [discriminate H | injection H as <-; destruct o; reflexivity]|]). contradiction.
  - intros u Gu. exact Gu.
  - intros u v Gu Gv. cbn [meaning nth type_of Nat.ltb Nat.leb]. rewrite Wi by assumption. apply bits_in; assumption.
  - intros u v w Gu Gv Gw. cbn [meaning nth type_of Nat.ltb Nat.leb]. rewrite (Wi v w), (Wi u v) by assumption. rewrite !Wi by (try assumption; apply bits_in; assumption). destruct Ho as [<- | [<- | [<- | []]]]; cbn [ExprSpec.exact]; [apply Z.land_assoc|apply Z.lor_assoc|symmetry; apply Z.lxor_assoc].
  - intros u v _ _. cbn [meaning nth type_of Nat.ltb Nat.leb]. f_equal. destruct Ho as [<- | [<- | [<- | []]]]; cbn [ExprSpec.exact]; [apply Z.land_comm|apply Z.lor_comm|apply Z.lxor_comm].
  - intros u Gu. cbn [meaning nth type_of Nat.ltb Nat.leb]. rewrite Wi by assumption. apply Hu. exact Gu.
  - right. intros u v _ _. destruct Ho as [<- | [<- | [<- | []]]]; reflexivity.
  - exists acc, s'. split; [exact R1|]. cbn [meaning nth type_of Nat.ltb Nat.leb] in R2. rewrite R2. f_equal. apply fold_bits; assumption.
Qed.

Lemma total_app2 : forall a b, total (a ++ b) = total a + total b.
Proof. induction a as [|x a IH]; intros b; [reflexivity|]. cbn [app]. rewrite !total_cons, IH. lia. Qed.

Lemma total_nonneg : forall a, Forall (Z.le 0) a -> 0 <= total a /\ Forall (fun y => y <= total a) a.
Proof.
  induction 1 as [|x a Hx Ha [I1 I2]]; [split; [reflexivity|constructor]|]. rewrite total_cons. split; [lia|]. constructor; [lia|]. eapply Forall_impl; [|exact I2]. cbv beta. intros; lia.
Qed.

Lemma total_map2 : forall a b, length a = length b -> Forall (Z.le 0) a -> Forall (Z.le 0) b -> Forall (Z.le 0) (map2 Z.add a b) /\ total (map2 Z.add a b) = total a + total b.
Proof.
  induction a as [|x a IH]; intros [|y b] L Ha Hb; try discriminate L; [split; [constructor|reflexivity]|]. cbn [map2]. inversion Ha; subst. inversion Hb; subst. destruct (IH b ltac:(cbn in L; lia)) as [I1 I2]; [assumption|assumption|]. split; [constructor; [lia|exact I1]|]. rewrite !total_cons, I2. lia.
Qed.

Lemma sum_vectors : forall (w : nat) (m : Z) (f : list Z -> list Z -> list Z) vs acc,
  length acc = w -> Forall (Z.le 0) acc -> Forall (fun v => length v = w /\ Forall (Z.le 0) v) vs -> total acc + total (concat vs) <= m ->
  (forall a v, length a = w -> length v = w -> Forall (Z.le 0) a -> Forall (Z.le 0) v -> Forall (fun y => y <= m) (map2 Z.add a v) -> f a v = map2 Z.add a v) ->
  let r := fold_left f vs acc in length r = w /\ Forall (Z.le 0) r /\ total r = total acc + total (concat vs).
Proof.
  intros w m f. induction vs as [|v vs IH]; intros acc La Fa Fv Hm Hf; cbn [fold_left concat]; [split; [exact La|split; [exact Fa|change (total []) with 0; lia]]|].
  inversion Fv as [|? ? [Lv Hv] Fv']; subst. cbn [concat] in Hm. rewrite total_app2 in Hm. destruct (total_map2 acc v ltac:(congruence) Fa Hv) as [M1 M2].
  assert (N : 0 <= total (concat vs)). { apply total_nonneg. clear -Fv'. induction Fv' as [|u us [_ Hu] _ IHu]; [constructor|cbn [concat]; apply Forall_app; split; assumption]. }
  rewrite (Hf acc v eq_refl Lv Fa Hv) by (eapply Forall_impl; [|exact (proj2 (total_nonneg _ M1))]; cbv beta; intros; lia).
  destruct (IH (map2 Z.add acc v)) as (I1 & I2 & I3); [apply map2_length; congruence|exact M1|exact Fv'|lia|exact Hf|]. split; [exact I1|]. split; [exact I2|]. rewrite total_app2. lia.
Qed.

Lemma total_zeros : forall n, total (repeat 0 n) = 0.
Proof. induction n as [|n IH]; [reflexivity|]. cbn [repeat]. rewrite total_cons, IH. reflexivity. Qed.

Lemma c96_sum : forall (fs : features) (c : config) (tie : bool) (fop : arith -> elty -> Z -> Z -> Z) (fsqrt : elty -> Z -> Z) (narrow : Z -> Z) (t : ity) (l : list Z) (l0 : packed_line) (f : list Z -> list Z -> list Z) (fuel : nat),
  let zero := splat (p_width l0) 0 in
  fs "undefined"%string = false -> In (EInt t) primitives ->
  (forall o e u v, e = EF32 \/ e = EF64 -> lane e u -> lane e v -> lane e (fop o e u v)) -> (forall e u, e = EF32 \/ e = EF64 -> lane e u -> lane e (fsqrt e u)) ->
  portable_natural fs (el_name (EInt t) ++ "s") = [l0] ->
  Forall (Z.le 0) l -> total l <= imax t -> zlen l * p_size l0 <= isize_max -> (length l < fuel)%nat ->
  (forall a v r, zlen a = p_width l0 -> zlen v = p_width l0 -> Forall (in_ity t) a -> Forall (in_ity t) v -> portable_run fs c tie fop fsqrt narrow (EInt t) 2 (Arith Add (Arg 0) (Arg 1)) [a; v] = Some (Ok r) -> f a v = r) ->
  exists acc s', simd_reduce (slice_iterator c (vty_of l0)) fuel (simd_iter l zero) zero f = Ok (acc, s') /\ Forall (in_ity t) acc /\
    scalar_reduce (p_width l0) acc 0 Z.add = Ok (total l).
Proof.
  intros fs c tie fop fsqrt narrow t l l0 f fuel zero T H0 Hf Hsq N0 Fl Hm Cap Hfu Rx.
  destruct (portable_vty fs _ l0 T H0 N0) as (V0 & W0 & S0 & C0). pose proof (vty_ok_facts _ V0) as (F1 & F2 & F3 & F4 & F5 & F6). set (w := p_width l0) in *. change (WIDTH (vty_of l0)) with w in *. assert (Wpos : 0 < w) by (clear -F1; lia).
  assert (Hmin : imin t <= 0) by (clear; unfold imin; destruct (isigned t); [|lia]; pose proof (imod_pos t); assert (0 <= imod t / 2) by (apply Z.div_pos; lia); lia).
  assert (In0 : forall y, 0 <= y <= imax t -> in_ity t y) by (intros y Hy; unfold in_ity; clear -Hy Hmin; lia).
  destruct (total_nonneg l Fl) as [Tl0 Tl1].
  assert (Cx : forall a v, length a = Z.to_nat w -> length v = Z.to_nat w -> Forall (Z.le 0) a -> Forall (Z.le 0) v -> Forall (fun y => y <= imax t) (map2 Z.add a v) -> f a v = map2 Z.add a v).
  { intros a v La Lv Fa Fv Fs. assert (K : Forall (fun y => 0 <= y <= imax t) a /\ Forall (fun y => 0 <= y <= imax t) v /\ forall k p q, znth a k = Some p -> znth v k = Some q -> 0 <= p + q <= imax t).
    { assert (Lav : length a = length v) by congruence. clear -Lav Fa Fv Fs. revert v Lav Fv Fs. induction a as [|p a IH]; intros [|q v] L Fv Fs; try discriminate L; [split; [constructor|split; [constructor|intros k p q Hp; unfold znth in Hp; destruct (k <? 0); [discriminate|destruct (Z.to_nat k); discriminate]]]|].
      inversion Fa as [|? ? Pp Fa']; subst. inversion Fv as [|? ? Pq Fv']; subst. cbn [map2] in Fs. inversion Fs as [|? ? Ps Fs']; subst. destruct (IH Fa' v ltac:(cbn in L; lia) Fv' Fs') as (I1 & I2 & I3).
      split; [constructor; [lia|exact I1]|]. split; [constructor; [lia|exact I2]|]. intros k p' q' Hp Hq. destruct (Z.eq_dec k 0) as [->|N]; [injection Hp as <-; injection Hq as <-; lia|].
      pose proof (znth_Some_lt _ _ _ Hp) as Hk. rewrite znth_cons_shift in Hp, Hq by lia. exact (I3 (k - 1) p' q' Hp Hq). }
    destruct K as (Ka & Kv & Ks). assert (Ia : Forall (in_ity t) a) by (eapply Forall_impl; [exact In0|exact Ka]). assert (Iv : Forall (in_ity t) v) by (eapply Forall_impl; [exact In0|exact Kv]).
    assert (Za : zlen a = w) by (clear -La Wpos; unfold zlen; lia). assert (Zv : zlen v = w) by (clear -Lv Wpos; unfold zlen; lia).
    rewrite (portable_binary_lanes fs c tie fop fsqrt narrow (EInt t) (Arith Add (Arg 0) (Arg 1)) l0 (in_ity t) a v (f a v) T H0 Hf Hsq); [..|intros r; apply Rx; assumption]; [|prims H0; reflexivity|exact N0|intros u Hu; exact Hu| |exact Za|exact Zv|exact Ia|exact Iv].
    - clear -Ks In0 H0 La Lv. assert (L : length a = length v) by congruence. clear La Lv. revert v L Ks. induction a as [|p a IH]; intros [|q v] L Ks; try discriminate L; [reflexivity|]. cbn [map2]. f_equal.
      + specialize (Ks 0 p q eq_refl eq_refl). change (wrap t (p + q) = p + q). apply wrap_id. apply In0. exact Ks.
      + apply IH; [cbn in L; lia|]. intros k p' q' Hp Hq. pose proof (znth_Some_lt _ _ _ Hp) as Hk. apply (Ks (k + 1)); rewrite znth_cons_shift by lia; replace (k + 1 - 1) with k by lia; assumption.
    - right. intros k p q Hp Hq. specialize (Ks k p q Hp Hq). assert (Et : outside t (p + q) = false) by (unfold outside; clear -Ks Hmin; lia). exact Et. }
  assert (Lz : zlen zero = w) by (unfold zero, splat; rewrite zlen_repeat; clear -Wpos; lia).
  destruct (c06_reduce Z (list Z) c (vty_of l0) l zero 0 zero f fuel V0 Cap Lz (conj (Z.le_refl 0) (zlen_nonneg l)) (or_introl eq_refl) Hfu) as (vs & rest & [Hc1 Hc2] & Hr & _ & Hred & _). cbn [Z.to_nat skipn] in Hc2. change (WIDTH (vty_of l0)) with w in *.
  set (args := vs ++ match rest with [] => [] | _ :: _ => [right_aligned zero rest] end) in *.
  assert (Fz : Forall (Z.le 0) zero) by (unfold zero, splat; apply Forall_forall; intros y Hy; apply repeat_spec in Hy; subst y; reflexivity).
  rewrite <- Hc2 in Fl. apply Forall_app in Fl. destruct Fl as [Fv Fr].
  assert (Tot : total (concat args) = total l).
  { unfold args. rewrite <- Hc2, concat_app, !total_app2. destruct rest as [|y r]; [reflexivity|]. cbn [concat]. rewrite app_nil_r. unfold right_aligned. rewrite total_app2. f_equal.
    assert (Z0 : forall n m, total (firstn n (repeat 0 m)) = 0) by (clear; induction n as [|n IH]; intros [|m]; try reflexivity; cbn [repeat firstn]; rewrite total_cons, IH; reflexivity). unfold zero, splat. rewrite Z0. reflexivity. }
  assert (Fargs : Forall (fun v => length v = Z.to_nat w /\ Forall (Z.le 0) v) args).
  { unfold args. apply Forall_app. split.
    - clear -Hc1 Fv. induction vs as [|v vs IH]; [constructor|]. cbn [concat] in Fv. apply Forall_app in Fv. destruct Fv as [A B]. pose proof (Forall_inv Hc1) as C. cbv beta in C. constructor; [split; [unfold zlen in C; lia|exact A]|apply IH; [exact B|exact (Forall_inv_tail Hc1)]].
    - destruct rest as [|y r]; constructor; [|constructor]. split; [|apply Forall_aligned; assumption]. pose proof (right_aligned_len zero (y :: r)) as RL. unfold zlen in *. clear -RL Lz Hr. lia. }
  destruct (sum_vectors (Z.to_nat w) (imax t) f args zero) as (O1 & O2 & O3); [clear -Lz; unfold zlen in Lz; lia|exact Fz|exact Fargs|unfold zero, splat at 1; rewrite total_zeros, Tot; exact Hm|exact Cx|].
  eexists. eexists. split; [exact Hred|]. unfold zero, splat at 2 in O3. rewrite total_zeros, Tot in O3. fold (splat w 0) in O3. fold zero in O3. cbn [Z.add] in O3. split.
  - destruct (total_nonneg _ O2) as [_ U]. apply Forall_forall. intros y Hy. apply In0. split; [exact (proj1 (Forall_forall _ _) O2 y Hy)|]. rewrite <- O3 in Hm. exact (Z.le_trans _ _ _ (proj1 (Forall_forall _ _) U y Hy) Hm).
  - change w with (WIDTH (vty_of l0)). rewrite c34_scalar_reduce by (change (WIDTH (vty_of l0)) with w; clear -O1 Wpos; unfold zlen; lia). f_equal. rewrite <- O3. clear. generalize (fold_left f args zero). intros a. transitivity (0 + total a); [|reflexivity]. generalize 0. induction a as [|y a IH]; intros s; [cbn; unfold total; cbn; lia|]. cbn [fold_left]. rewrite IH, total_cons. lia.
Qed.
