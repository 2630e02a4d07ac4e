(** Proofs of the properties: what kernels with f64 stages leave in memory when they panic (C99). *)
From Coq Require Import String.
From Verif Require Import Base Spec VecSpec Vecs Iters GateTables GateSpec Lanes OpTables PipeSpec ExprSpec Exprs OverflowSpec Arith Demos Portables Crash CrashSpec DoubleSpec Doubles StageSpec Stages.
Open Scope list_scope.
Open Scope Z_scope.
From Coq Require Import Lia ZifyBool ZifyNat.
From Verif Require Import ListFacts VecFacts IterFacts CollectFacts MapFacts VecProofs IterProofs CollectProofs OpProofs PipeProofs LoopProofs ExprProofs PlaceProofs CrashProofs PortableProofs AbortProofs DoubleProofs StageProofs.
Ltac Zify.zify_post_hook ::= Z.div_mod_to_equations.

Lemma stage_call : forall (fs : features) (c : config) (tie : bool) (fop : arith -> elty -> Z -> Z -> Z) (fsqrt : elty -> Z -> Z) (narrow : Z -> Z) (e0 e e1 : elty) (ps : list expr) (x q : expr) (l0 l1 : packed_line) (v : list Z),
  fs "undefined"%string = false -> In e0 primitives -> In e doubles ->
  (forall o e u v, e = EF32 \/ e = EF64 -> lane e u -> lane e v -> lane e (fop o e u v)) -> (forall e u, e = EF32 \/ e = EF64 -> lane e u -> lane e (fsqrt e u)) ->
  (forall u, lane EF64 u -> lane EF32 (narrow u)) ->
  ps <> [] -> Forall (fun p => type_of e0 1 p = Some e) ps -> type_of EF64 (length ps) x = Some EF64 -> type_of EF32 1 q = Some e1 ->
  portable_natural fs (el_name e0 ++ "s") = [l0] -> portable_natural fs (el_name e1 ++ "s") = [l1] -> p_width l1 = p_width l0 ->
  zlen v = p_width l0 -> Forall (lane e0) v ->
  (build c = Release \/ Forall (fun a => staged_overflows fop fsqrt narrow e0 e 1 ps x q [a] = false) v -> portable_mixed fs tie fop fsqrt narrow c e0 e ps x q [v] = Some (Ok (map (fun a => staged fop fsqrt narrow e0 e 1 ps x q [a]) v))) /\
  (build c = Debug -> Exists (fun a => staged_overflows fop fsqrt narrow e0 e 1 ps x q [a] = true) v -> portable_mixed fs tie fop fsqrt narrow c e0 e ps x q [v] = Some Panic).
Proof.
  intros fs c tie fop fsqrt narrow e0 e e1 ps x q l0 l1 v T H0 He Hf Hs Hn Hps Ft Tx Tq N0 N1 Wl Lv Fv. assert (F1 : Forall (fun v => zlen v = p_width l0 /\ Forall (lane e0) v) [v]) by (constructor; [split; assumption|constructor]). split.
  - intros Hov. destruct (c99_vector_portable fs c tie fop fsqrt narrow e0 e e1 ps x q [v] l0 l1 T H0 He Hf Hs Hn Hps Ft Tx Tq N0 N1 ltac:(discriminate) F1) as (r & Rr & Lr & _ & M).
    { destruct Hov as [Hov|Hov]; [left; exact Hov|right]. intros k env Hc. inversion Hc as [|? a ? ? Ha Hc']; subst. inversion Hc'; subst. exact (proj1 (Forall_forall _ _) Hov a (znth_In _ _ _ _ Ha)). }
    rewrite Rr. do 2 f_equal. cbn [length] in M. assert (Lvr : length v = length r) by (rewrite <- Wl in Lv; unfold zlen in *; clear -Lv Lr; lia).
    assert (K : forall k a, znth v k = Some a -> znth r k = Some (staged fop fsqrt narrow e0 e 1 ps x q [a])) by (intros k a Ha; apply (M k [a]); constructor; [exact Ha|constructor]).
    clear -K Lvr. revert r Lvr K. induction v as [|a v IH]; intros [|y r] Lvr K; try discriminate; [reflexivity|]. cbn [map]. f_equal; [specialize (K 0 a eq_refl); injection K as ->; reflexivity|].
    apply IH; [cbn [length] in Lvr; lia|]. intros k b Hb. pose proof (znth_Some_lt _ _ _ Hb) as Hk. specialize (K (k + 1) b).
    rewrite !znth_cons_shift in K by lia. replace (k + 1 - 1) with k in K by lia. apply K. exact Hb.
  - intros B Hex. apply Exists_exists in Hex. destruct Hex as (a & Ha & O). apply In_nth_error in Ha. destruct Ha as [k Hk].
    apply (c99_panic fs c tie fop fsqrt narrow e0 e e1 ps x q [v] l0 l1 (Z.of_nat k) [a] T H0 He Hf Hs Hn Hps Ft Tx Tq N0 N1 ltac:(discriminate) F1 B); [constructor; [apply znth_nat; exact Hk|constructor]|exact O].
Qed.

Lemma c99_fill_panic : forall (fs : features) (c : config) (tie : bool) (fop : arith -> elty -> Z -> Z -> Z) (fsqrt : elty -> Z -> Z) (narrow : Z -> Z) (e0 e e1 : elty) (ps : list expr) (x q : expr) (l d buf : list Z) (l0 l1 : packed_line)
    (E : Type) (func : E -> list Z -> outcome (list Z * E)) (env : E) (d0 d1 : Z) (fuel : nat) (i a : Z),
  fs "undefined"%string = false -> In e0 primitives -> In e doubles ->
  (forall o e u v, e = EF32 \/ e = EF64 -> lane e u -> lane e v -> lane e (fop o e u v)) -> (forall e u, e = EF32 \/ e = EF64 -> lane e u -> lane e (fsqrt e u)) ->
  (forall u, lane EF64 u -> lane EF32 (narrow u)) ->
  ps <> [] -> Forall (fun p => type_of e0 1 p = Some e) ps -> type_of EF64 (length ps) x = Some EF64 -> type_of EF32 1 q = Some e1 ->
  portable_natural fs (el_name e0 ++ "s") = [l0] -> portable_natural fs (el_name e1 ++ "s") = [l1] ->
  Forall (lane e0) l -> zlen d = p_width l0 -> Forall (lane e0) d -> zlen l * p_size l0 <= isize_max -> (length l < fuel)%nat -> zlen l <= zlen buf ->
  (forall e' v r, zlen v = p_width l0 -> func e' v = Ok r -> zlen (fst r) = p_width l1) ->
  (forall e' v, zlen v = p_width l0 -> Forall (lane e0) v -> portable_mixed fs tie fop fsqrt narrow c e0 e ps x q [v] = Some (let! r := func e' v in Ok (fst r))) ->
  let done := p_width l0 * (i / p_width l0) in
  build c = Debug -> znth l i = Some a -> staged_overflows fop fsqrt narrow e0 e 1 ps x q [a] = true ->
  (forall j b, j < done -> znth l j = Some b -> staged_overflows fop fsqrt narrow e0 e 1 ps x q [b] = false) ->
  scalar_fill_memory c (panicking_map_iterator c (slice_iterator c (vty_of l0)) (vty_of l1) d0 func) d1 fuel (mkSIMDMap (simd_iter l d) env) buf =
    (map (fun b => staged fop fsqrt narrow e0 e 1 ps x q [b]) (firstn (Z.to_nat done) l) ++ skipn (Z.to_nat done) buf, Panic).
Proof.
  intros fs c tie fop fsqrt narrow e0 e e1 ps x q l d buf l0 l1 E func env d0 d1 fuel i a T H0 He Hf Hs Hn Hps Ft Tx Tq N0 N1 Fl Ld Fd Cap Hfu Hbuf Hlen Hrun done B Hi Ha Hbefore.
  destruct (double_prim e He) as (Pe & Be & _). assert (P3 : In EF32 primitives) by (vm_compute; tauto). destruct (type_prim EF32 1 P3 q e1 Tq) as [P1 B1].
  assert (B32 : bits_of e0 = 32) by (destruct ps as [|p ps]; [congruence|]; rewrite <- (proj2 (type_prim e0 _ H0 p e (Forall_inv Ft))); exact Be).
  assert (Bb : bits_of e1 = bits_of e0) by (rewrite B1, B32; reflexivity). destruct (portable_vty fs e0 l0 T H0 N0) as (V0 & W0 & S0 & C0). destruct (portable_vty fs e1 l1 T P1 N1) as (V1 & W1 & S1 & _).
  assert (HB : WIDTH (vty_of l0) * SIZE (vty_of l0) = WIDTH (vty_of l1) * SIZE (vty_of l1)) by (rewrite W0, W1, S0, S1, Bb; reflexivity).
  assert (Wl : p_width l1 = p_width l0) by (change (WIDTH (vty_of l1) = WIDTH (vty_of l0)); rewrite W1, W0, Bb; reflexivity).
  assert (Wpos : 0 < p_width l0) by (change (0 < WIDTH (vty_of l0)); rewrite W0, B32; reflexivity).
  destruct (c13_for_each Z unit c (vty_of l0) l d (fun u v => (v, u)) tt d0 fuel V0 Cap Ld ltac:(intros u v Lv; exact Lv) Hfu) as (vs & rest & Hc & Hr & _). change (WIDTH (vty_of l0)) with (p_width l0) in *.
  set (f := fun b => staged fop fsqrt narrow e0 e 1 ps x q [b]). pose proof (znth_Some_lt _ _ _ Hi) as Hb.
  assert (D0 : 0 <= done <= i) by (unfold done; pose proof (Z.mul_div_le i (p_width l0) Wpos); split; [apply Z.mul_nonneg_nonneg; [lia|apply Z.div_pos; lia]|lia]).
  destruct (panic_at (p_width l0) (lane e0) (fun b => staged_overflows fop fsqrt narrow e0 e 1 ps x q [b] = true) (fun b => staged_overflows fop fsqrt narrow e0 e 1 ps x q [b] = false) f func l d rest vs env i a Wpos Ld Hc Hr) as (ys & Hp & Hys); try assumption.
  - intros e' v Lv Fv Ov. pose proof (Hrun e' v Lv Fv) as R. rewrite (proj1 (stage_call fs c tie fop fsqrt narrow e0 e e1 ps x q l0 l1 v T H0 He Hf Hs Hn Hps Ft Tx Tq N0 N1 Wl Lv Fv) (or_intror Ov)) in R.
    destruct (func e' v) as [ [r e2]| | |]; try discriminate R. cbn [bind fst] in R. injection R as R. exists e2. rewrite <- R. reflexivity.
  - intros e' v Lv Fv Ov. pose proof (Hrun e' v Lv Fv) as R. rewrite (proj2 (stage_call fs c tie fop fsqrt narrow e0 e e1 ps x q l0 l1 v T H0 He Hf Hs Hn Hps Ft Tx Tq N0 N1 Wl Lv Fv) B Ov) in R.
    destruct (func e' v) as [r| | |]; try discriminate R. reflexivity.
  - apply Forall_forall. intros b Hin. apply In_nth_error in Hin. destruct Hin as [k Hk]. pose proof (proj1 (nth_error_Some (firstn (Z.to_nat (p_width l0 * (i / p_width l0))) l) k) ltac:(congruence)) as Lk. rewrite firstn_length in Lk. fold done in Hk, Lk.
    apply (Hbefore (Z.of_nat k) b); [lia|]. apply znth_nat. rewrite <- (firstn_skipn (Z.to_nat done) l). rewrite nth_error_app1 by (rewrite firstn_length; lia). exact Hk.
  - fold done in Hys. assert (Ly : length (concat ys) = Z.to_nat done) by (rewrite Hys, map_length, firstn_length; unfold zlen in Hb; lia).
    rewrite (c76_fill_panic Z Z E c (vty_of l0) (vty_of l1) l d func env d0 d1 buf fuel vs rest ys V0 V1 HB Cap Ld Hlen Hc Hr Hp); [|unfold zlen in *; lia|exact Hfu]. unfold overwritten. rewrite Ly, Hys. reflexivity.
Qed.
