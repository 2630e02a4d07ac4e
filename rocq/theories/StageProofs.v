(** Proofs of the properties: kernels in three stages, of which the middle one computes in f64 (C99). *)
From Coq Require Import String.
From Verif Require Import Base Spec VecSpec Vecs Iters Zip ZipSpec Stride GateTables GateSpec Gates Floats FloatSpec Lanes OpTables Ops OpSpec PortTables Ports PortSpec PipeSpec AvailSpec Builds ExprSpec Exprs Widens Arith ArithSpec Demos OverflowSpec Portables WidePorts DoubleSpec Doubles StageSpec Stages.
Open Scope list_scope.
Open Scope Z_scope.
From Coq Require Import Lia ZifyBool ZifyNat.
From Verif Require Import ListFacts VecFacts MapFacts FloatFacts VecProofs OpProofs PortProofs BuildProofs PipeProofs LoopProofs KernProofs DocProofs ExprProofs CollectProofs FoldProofs ArithFacts DemoProofs WidenProofs PortableProofs DoubleProofs IterFacts CollectFacts IterProofs PlaceProofs.
Ltac Zify.zify_post_hook ::= Z.div_mod_to_equations.

Lemma column_exists : forall (vs : list (list Z)) W k, Forall (fun v => zlen v = W) vs -> 0 <= k < W -> exists env, column vs k env.
Proof.
  intros vs W k F Hk. induction F as [|v vs Hv F IH]; [exists []; constructor|]. destruct IH as [env IH]. destruct (znth v k) as [a|] eqn:A; [exists (a :: env); constructor; assumption|].
  exfalso. destruct (FoldProofs.znth_some v k) as [b B]; [lia|congruence].
Qed.

Lemma column_fun : forall (vs : list (list Z)) k r, column vs k r -> forall r', column vs k r' -> r = r'.
Proof. intros vs k r H. induction H as [|v a vs r Ha H IH]; intros r' H'; inversion H'; subst; [reflexivity|]. f_equal; [congruence|]. apply IH. assumption. Qed.

Lemma column_forall : forall (P : Z -> Prop) (vs : list (list Z)) k r, column vs k r -> Forall (fun v => Forall P v) vs -> length r = length vs /\ Forall P r.
Proof.
  intros P vs k r H. induction H as [|v a vs r Ha H IH]; intros F; [split; [reflexivity|constructor]|]. inversion F as [|? ? Fv Fs]; subst. destruct (IH Fs) as [I1 I2]. split; [cbn [length]; lia|].
  constructor; [exact (proj1 (Forall_forall _ _) Fv _ (OpProofs.znth_In _ _ _ _ Ha))|exact I2].
Qed.

Lemma column_range : forall (vs : list (list Z)) W k r, vs <> [] -> Forall (fun v => zlen v = W) vs -> column vs k r -> 0 <= k < W.
Proof. intros vs W k r Hne F Hc. destruct Hc as [|v a vs r Ha Hc]; [congruence|]. inversion F as [|? ? Hv _]; subst. exact (znth_Some_lt _ _ _ Ha). Qed.

Lemma shape_split : forall (P : Z -> Prop) W (vs : list (list Z)), Forall (fun v => zlen v = W /\ Forall P v) vs -> Forall (fun v => zlen v = W) vs /\ Forall (fun v => Forall P v) vs.
Proof. intros P W vs F. split; (eapply Forall_impl; [|exact F]); intros v [A B]; assumption. Qed.

Lemma fill_lanes : forall (c : config) (t0 t1 : vty) (P : Z -> Prop) (g : Z -> Z) (l d : list Z) (E : Type) (func : E -> list Z -> list Z * E) (e : E) (buf : list Z) (fuel : nat),
  vty_ok t0 -> vty_ok t1 -> WIDTH t1 = WIDTH t0 -> SIZE t1 = SIZE t0 -> Forall P l -> zlen d = WIDTH t0 -> Forall P d -> (zlen l + WIDTH t0) * SIZE t0 <= isize_max -> (length l < fuel)%nat -> zlen l <= zlen buf ->
  (forall e v, zlen v = WIDTH t0 -> Forall P v -> fst (func e v) = map g v) ->
  exists s', scalar_fill c (map_iterator c (slice_iterator c t0) t1 0 func) 0 fuel (mkSIMDMap (simd_iter l d) e) buf = Ok (map g l ++ skipn (length l) buf, s').
Proof.
  intros c t0 t1 P g l d E func e buf fuel V0 V1 Hw Hsz Fl Ld Fd Hcap Hfu Hbuf K.
  pose proof (vty_ok_facts _ V0) as (H1 & H2 & H3 & _). pose proof (zlen_nonneg l) as Hl0.
  destruct (slice_complete c t0 l d V0) as (vs & rest & Hc & Hch & Hr & Hszd); [unfold slice_ok; nia|exact Ld|exact Hcap|]. destruct Hch as [Hch1 Hch2].
  set (Q := fun v : list Z => zlen v = WIDTH t0 /\ Forall P v).
  assert (HQf : forall e v, Q v -> zlen (fst (func e v)) = WIDTH t1) by (intros e2 v [Hv1 Hv2]; rewrite (K e2 v Hv1 Hv2), zlen_map; lia).
  assert (HP : Forall P (concat vs) /\ Forall P rest) by (apply Forall_app; rewrite Hch2; exact Fl). destruct HP as [HP1 HP2].
  assert (HQvs : Forall Q vs).
  { clear -Hch1 HP1. induction Hch1 as [|v vs Hv Hch1 IH]; constructor; cbn [concat] in HP1; apply Forall_app in HP1; [split; [exact Hv|exact (proj1 HP1)]|apply IH; exact (proj2 HP1)]. }
  assert (HQt : forall p n, tail_of d rest = Some (p, n) -> Q p).
  { intros p n Hp. split; [apply (tail_of_fields t0 d Ld rest p n Hr Hp)|]. unfold tail_of in Hp. destruct rest; [discriminate|]. injection Hp as <- _. apply Forall_aligned; assumption. }
  assert (Hbytes : WIDTH t0 * SIZE t0 = WIDTH t1 * SIZE t1) by (rewrite Hw, Hsz; reflexivity).
  pose proof (map_complete c (slice_iterator c t0) t1 0 func V1 Hbytes _ _ _ _ e Hc) as Hm.
  assert (Hs' := map_sized (slice_iterator c t0) t1 func Q vs (tail_of d rest) e HQf HQvs HQt).
  match type of Hm with complete _ _ ?ys ?tl _ => assert (HD : delivered ys tl = map g l) end.
  { unfold delivered. rewrite (run_lanes (WIDTH t0) P _ func vs e K Hch1 HP1). rewrite <- Hch2, map_app. f_equal.
    unfold map_tail. destruct (tail_of d rest) as [[p n]|] eqn:Et. 2:{ unfold tail_of in Et. destruct rest; [reflexivity|discriminate]. }
    destruct (HQt p n eq_refl) as [Hp1 Hp2]. rewrite K by assumption. change (sz (@slice_iterator Z c t0)) with (SIZE t0). rewrite Hsz, Z.div_mul by lia.
    unfold tail_of in Et. destruct rest as [|y r]; [discriminate|]. injection Et as <- <-. unfold unfilled. rewrite Ld. apply aligned_lanes; [exact Ld|]. lia. }
  eexists. rewrite (fill_complete c _ 0 _ _ _ _ fuel buf Hm Hs').
  - rewrite HD, map_length. reflexivity.
  - rewrite run_closure_length. pose proof (chunked_length t0 l V0 vs rest (conj Hch1 Hch2)). lia.
  - rewrite HD, zlen_map. exact Hbuf.
Qed.

Lemma meaning_lane : forall (fop : arith -> elty -> Z -> Z -> Z) (fsqrt : elty -> Z -> Z) (e0 e1 : elty) (x : expr) (env : list Z), In e0 primitives ->
  (forall o e u v, e = EF32 \/ e = EF64 -> lane e u -> lane e v -> lane e (fop o e u v)) -> (forall e u, e = EF32 \/ e = EF64 -> lane e u -> lane e (fsqrt e u)) ->
  type_of e0 (length env) x = Some e1 -> env <> [] -> Forall (lane e0) env -> lane e1 (meaning e0 (length env) fop fsqrt x env).
Proof.
  intros fop fsqrt e0 e1 x env H0 Hf Hs Ht Hne Fe. set (fs := fun _ : string => false). assert (U : fs "undefined"%string = false) by reflexivity.
  destruct (portable_line fs e0 U H0) as (l0 & N0 & _ & _ & W0 & _). destruct (type_prim e0 _ H0 x e1 Ht) as [P1 B1]. destruct (portable_line fs e1 U P1) as (l1 & N1 & _).
  assert (Hw : 0 < p_width l0) by (rewrite W0; clear -H0; unfold primitives in H0; cbn [In] in H0; repeat (destruct H0 as [<-|H0]; [reflexivity|]); destruct H0).
  set (args := map (fun a => splat (p_width l0) a) env). assert (La : length args = length env) by apply map_length.
  assert (Fa : Forall (fun v => zlen v = p_width l0 /\ Forall (lane e0) v) args).
  { unfold args. clear -Fe Hw. induction Fe as [|a env Ha Fe IH]; [constructor|]. constructor; [|exact IH]. unfold splat, zlen. rewrite repeat_length. split; [lia|]. apply Forall_forall. intros y Hy. apply repeat_spec in Hy. subst. exact Ha. }
  assert (C : column args 0 env).
  { unfold args. clear -Hw. induction env as [|a env IH]; [constructor|]. constructor; [|exact IH]. unfold splat. destruct (Z.to_nat (p_width l0)) eqn:Q; [lia|reflexivity]. }
  destruct (c94_closure fs (mkConfig Release true) true fop fsqrt (fun z => z) e0 e1 x args l0 l1 U H0 Hf Hs) as [R _]; [rewrite La; exact Ht|exact N0|exact N1|intros Q; rewrite Q in La; destruct env; [congruence|discriminate]|exact Fa|].
  destruct R as (v & _ & _ & Fv & M); [left; reflexivity|]. rewrite La in M. exact (proj1 (Forall_forall _ _) Fv _ (OpProofs.znth_In _ _ _ _ (M 0 env C))).
Qed.

Lemma each_lanes : forall (fs : features) (c : config) (tie : bool) (fop : arith -> elty -> Z -> Z -> Z) (fsqrt : elty -> Z -> Z) (narrow : Z -> Z) (e0 e : elty) (args : list (list Z)) (l0 le : packed_line),
  target fs -> In e0 primitives ->
  (forall o e u v, e = EF32 \/ e = EF64 -> lane e u -> lane e v -> lane e (fop o e u v)) -> (forall e u, e = EF32 \/ e = EF64 -> lane e u -> lane e (fsqrt e u)) ->
  natural fs (el_name e0 ++ "s") = [l0] -> natural fs (el_name e ++ "s") = [le] -> args <> [] -> Forall (fun v => zlen v = p_width l0 /\ Forall (lane e0) v) args ->
  forall ps, Forall (fun p => type_of e0 (length args) p = Some e) ps ->
  exists vs, run_each fs tie fop fsqrt narrow e0 (length args) ps args = Some (Ok vs) /\ length vs = length ps /\ Forall (fun v => zlen v = p_width le /\ Forall (lane e) v) vs /\
    forall k env, column args k env -> column vs k (map (fun p => meaning e0 (length args) fop fsqrt p env) ps).
Proof.
  intros fs c tie fop fsqrt narrow e0 e args l0 le T H0 Hf Hs N0 Ne Hne Fa. induction ps as [|p ps IH]; intros Ft.
  - exists []. split; [reflexivity|]. split; [reflexivity|]. split; [constructor|]. intros. constructor.
  - inversion Ft as [|? ? Tp Ft']; subst. destruct (c83_closure fs tie fop fsqrt narrow e0 e p args l0 le T H0 Hf Hs Tp N0 Ne Hne Fa) as (v & R & L & F & M).
    destruct (IH Ft') as (vs & Rs & Ls & Fs & Ms). exists (v :: vs). cbn [run_each]. rewrite R, andthen_ok, Rs, andthen_ok. split; [reflexivity|]. split; [cbn [length]; lia|]. split; [constructor; [split; assumption|exact Fs]|].
    intros k env Hc. cbn [map]. constructor; [exact (M k env Hc)|exact (Ms k env Hc)].
Qed.

Lemma c99_vector : forall (fs : features) (c : config) (tie : bool) (fop : arith -> elty -> Z -> Z -> Z) (fsqrt : elty -> Z -> Z) (narrow : Z -> Z) (e0 e e1 : elty) (ps : list expr) (x q : expr) (args : list (list Z)) (l0 l1 : packed_line),
  target fs -> In e0 primitives -> In e doubles ->
  (forall o e u v, e = EF32 \/ e = EF64 -> lane e u -> lane e v -> lane e (fop o e u v)) -> (forall e u, e = EF32 \/ e = EF64 -> lane e u -> lane e (fsqrt e u)) ->
  (forall u, lane EF64 u -> lane EF32 (narrow u)) ->
  ps <> [] -> Forall (fun p => type_of e0 (length args) p = Some e) ps -> type_of EF64 (length ps) x = Some EF64 -> type_of EF32 1 q = Some e1 ->
  natural fs (el_name e0 ++ "s") = [l0] -> natural fs (el_name e1 ++ "s") = [l1] ->
  args <> [] -> Forall (fun v => zlen v = p_width l0 /\ Forall (lane e0) v) args ->
  exists r, mixed_in fs tie fop fsqrt narrow e0 e ps x q args = Some (Ok r) /\ zlen r = p_width l1 /\ Forall (lane e1) r /\
    forall k env, column args k env -> znth r k = Some (staged fop fsqrt narrow e0 e (length args) ps x q env).
Proof.
  intros fs c tie fop fsqrt narrow e0 e e1 ps x q args l0 l1 T H0 He Hf Hs Hn Hps Ft Tx Tq N0 N1 Hne Fa.
  destruct (double_prim e He) as (Pe & Be & _ & _ & Le). assert (P3 : In EF32 primitives) by (vm_compute; tauto). assert (P2 : In EF64 primitives) by (vm_compute; tauto).
  destruct (natural_line fs _ T Pe) as (le & Ne & _ & _ & We & _). destruct (natural_line fs _ T H0) as (m & M0 & _ & _ & W0 & _). rewrite N0 in M0. injection M0 as <-. destruct (natural_line fs _ T P3) as (l3 & N3 & _ & _ & W3 & _).
  assert (B0 : bits_of e = bits_of e0) by (destruct ps as [|p ps]; [congruence|]; exact (proj2 (type_prim e0 _ H0 p e (Forall_inv Ft)))).
  assert (Wle : p_width le = p_width l0) by (rewrite We, W0, B0; reflexivity). assert (Wl3 : p_width l3 = p_width le) by (rewrite We, W3, Be; reflexivity).
  destruct (each_lanes fs c tie fop fsqrt narrow e0 e args l0 le T H0 Hf Hs N0 Ne Hne Fa ps Ft) as (vs & Rs & Ls & Fs & Ms).
  assert (Hvs : vs <> []) by (intros Q; rewrite Q in Ls; destruct ps; [congruence|discriminate]). destruct (shape_split _ _ _ Fs) as [Fs1 Fs2]. destruct (shape_split _ _ _ Fa) as [Fa1 Fa2].
  assert (Row : forall k env', column vs k env' -> exists env, column args k env /\ env' = map (fun p => meaning e0 (length args) fop fsqrt p env) ps).
  { intros k env' Hc. pose proof (column_range vs _ k env' Hvs Fs1 Hc) as Hk. rewrite Wle in Hk. destruct (column_exists args _ k Fa1 Hk) as [env C]. exists env. split; [exact C|]. exact (column_fun vs k env' Hc _ (Ms k env C)). }
  destruct (c98_vector fs tie fop fsqrt narrow e x vs le T He Hf Hs ltac:(rewrite Ls; exact Tx) Ne Hvs Fs) as (w & Rw & Lw & Mw). rewrite Ls in Mw.
  assert (Fw : Forall (lane EF32) w).
  { apply Forall_forall. intros y Hy. apply In_nth_error in Hy. destruct Hy as [j Hj]. assert (Hz : znth w (Z.of_nat j) = Some y) by (unfold znth; destruct (Z.of_nat j <? 0) eqn:Q; [lia|]; rewrite Nat2Z.id; exact Hj).
    pose proof (znth_Some_lt _ _ _ Hz) as Hj'. rewrite Lw in Hj'. destruct (column_exists vs _ _ Fs1 Hj') as [env' C]. rewrite (Mw _ env' C) in Hz. injection Hz as <-. apply Hn. destruct (column_forall _ _ _ _ C Fs2) as [Len Fe'].
    assert (Q : length (map (as_f64 e) env') = length ps) by (clear -Len Ls; rewrite map_length; congruence). rewrite <- Q. apply (meaning_lane fop fsqrt EF64 EF64 x _ P2 Hf Hs); [rewrite Q; exact Tx|intros Z0; rewrite Z0 in Q; destruct ps; [congruence|discriminate]|].
    clear -Fe' Le. induction Fe' as [|a r Ha F IH]; [constructor|]. constructor; [exact (proj2 (Le a Ha))|exact IH]. }
  assert (Mid : forall k env, column args k env -> znth w k = Some (narrowed_stage fop fsqrt narrow e0 e (length args) ps x env)).
  { intros k env Hc. rewrite (Mw k _ (Ms k env Hc)). unfold narrowed_stage, widened_stage. rewrite map_map. reflexivity. }
  assert (F1 : Forall (fun v => zlen v = p_width l3 /\ Forall (lane EF32) v) [w]) by (constructor; [split; [rewrite Wl3; exact Lw|exact Fw]|constructor]).
  destruct (c83_closure fs tie fop fsqrt narrow EF32 e1 q [w] l3 l1 T P3 Hf Hs Tq N3 N1 ltac:(discriminate) F1) as (r & Rr & Lr & Fr & Mr). cbn [length] in Rr, Mr.
  exists r. unfold mixed_in. rewrite Rs, andthen_ok, Rw, andthen_ok. split; [exact Rr|]. split; [exact Lr|]. split; [exact Fr|].
  intros k env Hc. unfold staged. apply (Mr k [narrowed_stage fop fsqrt narrow e0 e (length args) ps x env]). constructor; [exact (Mid k env Hc)|constructor].
Qed.

Lemma staged_tuple : forall (fs : features) (c : config) (tie : bool) (fop : arith -> elty -> Z -> Z -> Z) (fsqrt : elty -> Z -> Z) (narrow : Z -> Z) (e0 e e1 : elty) (ps : list expr) (x q : expr) (l0 l1 : packed_line) (n : nat) (E : Type) (func : E -> tuple (list Z) (S n) -> list Z * E),
  target fs -> In e0 primitives -> In e doubles ->
  (forall o e u v, e = EF32 \/ e = EF64 -> lane e u -> lane e v -> lane e (fop o e u v)) -> (forall e u, e = EF32 \/ e = EF64 -> lane e u -> lane e (fsqrt e u)) ->
  (forall u, lane EF64 u -> lane EF32 (narrow u)) ->
  ps <> [] -> Forall (fun p => type_of e0 (S (S n)) p = Some e) ps -> type_of EF64 (length ps) x = Some EF64 -> type_of EF32 1 q = Some e1 ->
  natural fs (el_name e0 ++ "s") = [l0] -> natural fs (el_name e1 ++ "s") = [l1] -> p_width l1 = p_width l0 ->
  (forall e' t r, Forall (fun v => zlen v = p_width l0 /\ Forall (lane e0) v) (PipeSpec.items (S n) t) -> mixed_in fs tie fop fsqrt narrow e0 e ps x q (PipeSpec.items (S n) t) = Some (Ok r) -> fst (func e' t) = r) ->
  lane_by_lane (WIDTH (vty_of l0)) (lane e0) (S n) (staged fop fsqrt narrow e0 e (S (S n)) ps x q) func.
Proof.
  intros fs c tie fop fsqrt narrow e0 e e1 ps x q l0 l1 n E func T H0 He Hf Hs Hn Hps Ft Tx Tq N0 N1 Wl Hrun e' tp Htp. pose proof (items_length (S n) tp) as Il. assert (Hne : PipeSpec.items (S n) tp <> []) by (intros Q; rewrite Q in Il; discriminate).
  destruct (c99_vector fs c tie fop fsqrt narrow e0 e e1 ps x q (PipeSpec.items (S n) tp) l0 l1 T H0 He Hf Hs Hn Hps) as (r & Rr & Lr & _ & M); [rewrite Il; exact Ft|exact Tx|exact Tq|exact N0|exact N1|exact Hne|exact Htp|].
  rewrite (Hrun e' tp r Htp Rr). split; [rewrite Lr; exact Wl|]. intros i r0 Hc. rewrite (M i r0 Hc), Il. reflexivity.
Qed.

Lemma c99_map : forall (fs : features) (c : config) (tie : bool) (fop : arith -> elty -> Z -> Z -> Z) (fsqrt : elty -> Z -> Z) (narrow : Z -> Z) (e0 e e1 : elty) (ps : list expr) (x q : expr) (l d : list Z) (l0 l1 : packed_line)
    (E : Type) (func : E -> list Z -> list Z * E) (env : E) (fuel : nat),
  target fs -> In e0 primitives -> In e doubles ->
  (forall o e u v, e = EF32 \/ e = EF64 -> lane e u -> lane e v -> lane e (fop o e u v)) -> (forall e u, e = EF32 \/ e = EF64 -> lane e u -> lane e (fsqrt e u)) ->
  (forall u, lane EF64 u -> lane EF32 (narrow u)) ->
  ps <> [] -> Forall (fun p => type_of e0 1 p = Some e) ps -> type_of EF64 (length ps) x = Some EF64 -> type_of EF32 1 q = Some e1 ->
  natural fs (el_name e0 ++ "s") = [l0] -> natural fs (el_name e1 ++ "s") = [l1] ->
  Forall (lane e0) l -> zlen d = p_width l0 -> Forall (lane e0) d -> zlen l * p_size l0 + 32 <= isize_max -> (length l < fuel)%nat ->
  (forall e' v r, zlen v = p_width l0 -> Forall (lane e0) v -> mixed_in fs tie fop fsqrt narrow e0 e ps x q [v] = Some (Ok r) -> fst (func e' v) = r) ->
  exists s', scalar_collect c (map_iterator c (slice_iterator c (vty_of l0)) (vty_of l1) 0 func) 0 fuel (mkSIMDMap (simd_iter l d) env) =
    Ok (map (fun a => Some (staged fop fsqrt narrow e0 e 1 ps x q [a])) l, s').
Proof.
  intros fs c tie fop fsqrt narrow e0 e e1 ps x q l d l0 l1 E func env fuel T H0 He Hf Hs Hn Hps Ft Tx Tq N0 N1 Fl Ld Fd Cap Hfu Hrun.
  destruct (double_prim e He) as (Pe & Be & _). assert (P3 : In EF32 primitives) by (vm_compute; tauto). destruct (type_prim EF32 1 P3 q e1 Tq) as [P1 B1].
  assert (B32 : bits_of e0 = 32) by (destruct ps as [|p ps]; [congruence|]; rewrite <- (proj2 (type_prim e0 _ H0 p e (Forall_inv Ft))); exact Be).
  assert (B : bits_of e1 = bits_of e0) by (rewrite B1, B32; reflexivity). destruct (natural_vty fs e0 l0 T H0 N0) as (V0 & W0 & S0 & C0). destruct (natural_vty fs _ l1 T P1 N1) as (V1 & W1 & S1 & _).
  assert (Wl : p_width l1 = p_width l0) by (change (WIDTH (vty_of l1) = WIDTH (vty_of l0)); rewrite W1, W0, B; reflexivity).
  destruct (c72_map Z Z E c (vty_of l0) (vty_of l1) l d (lane e0) (fun a y => y = staged fop fsqrt narrow e0 e 1 ps x q [a]) func env 0 fuel V0 V1) as (out & s' & R & F); try assumption.
  - rewrite S1, S0, B. reflexivity.
  - unfold vty_of in C0 |- *. cbn [WIDTH SIZE] in C0 |- *. lia.
  - intros e' v Lv Fv. destruct (c99_vector fs c tie fop fsqrt narrow e0 e e1 ps x q [v] l0 l1 T H0 He Hf Hs Hn Hps Ft Tx Tq N0 N1) as (r & Rr & Lr & _ & M); [discriminate|constructor; [split; assumption|constructor]|].
    rewrite (Hrun e' v r Lv Fv Rr). cbn [length] in M.
    assert (Lvr : length v = length r) by (change (WIDTH (vty_of l0)) with (p_width l0) in Lv; rewrite <- Wl in Lv; unfold zlen in *; lia).
    assert (K : forall k a, znth v k = Some a -> znth r k = Some (staged fop fsqrt narrow e0 e 1 ps x q [a])) by (intros k a Ha; apply (M k [a]); constructor; [exact Ha|constructor]).
    clear -K Lvr. revert r Lvr K. induction v as [|a v IH]; intros [|y r] Lvr K; try discriminate; [constructor|]. constructor; [specialize (K 0 a eq_refl); injection K as ->; reflexivity|].
    apply IH; [cbn [length] in Lvr; lia|]. intros k b Hb. pose proof (znth_Some_lt _ _ _ Hb) as Hk. specialize (K (k + 1) b).
    rewrite !znth_cons_shift in K by lia. replace (k + 1 - 1) with k in K by lia. apply K. exact Hb.
  - exists s'. rewrite R. f_equal. f_equal. clear -F. induction F as [|a y l out -> F IH]; [reflexivity|]. cbn [map]. rewrite IH. reflexivity.
Qed.

Lemma c99_fill : forall (fs : features) (c : config) (tie : bool) (fop : arith -> elty -> Z -> Z -> Z) (fsqrt : elty -> Z -> Z) (narrow : Z -> Z) (e0 e e1 : elty) (ps : list expr) (x q : expr) (l d : list Z) (l0 l1 : packed_line)
    (E : Type) (func : E -> list Z -> list Z * E) (env : E) (buf : list Z) (fuel : nat),
  target fs -> In e0 primitives -> In e doubles ->
  (forall o e u v, e = EF32 \/ e = EF64 -> lane e u -> lane e v -> lane e (fop o e u v)) -> (forall e u, e = EF32 \/ e = EF64 -> lane e u -> lane e (fsqrt e u)) ->
  (forall u, lane EF64 u -> lane EF32 (narrow u)) ->
  ps <> [] -> Forall (fun p => type_of e0 1 p = Some e) ps -> type_of EF64 (length ps) x = Some EF64 -> type_of EF32 1 q = Some e1 ->
  natural fs (el_name e0 ++ "s") = [l0] -> natural fs (el_name e1 ++ "s") = [l1] ->
  Forall (lane e0) l -> zlen d = p_width l0 -> Forall (lane e0) d -> zlen l * p_size l0 + 32 <= isize_max -> (length l < fuel)%nat -> zlen l <= zlen buf ->
  (forall e' v r, zlen v = p_width l0 -> Forall (lane e0) v -> mixed_in fs tie fop fsqrt narrow e0 e ps x q [v] = Some (Ok r) -> fst (func e' v) = r) ->
  exists s', scalar_fill c (map_iterator c (slice_iterator c (vty_of l0)) (vty_of l1) 0 func) 0 fuel (mkSIMDMap (simd_iter l d) env) buf =
    Ok (map (fun a => staged fop fsqrt narrow e0 e 1 ps x q [a]) l ++ skipn (length l) buf, s').
Proof.
  intros fs c tie fop fsqrt narrow e0 e e1 ps x q l d l0 l1 E func env buf fuel T H0 He Hf Hs Hn Hps Ft Tx Tq N0 N1 Fl Ld Fd Cap Hfu Hbuf Hrun.
  destruct (double_prim e He) as (Pe & Be & _). assert (P3 : In EF32 primitives) by (vm_compute; tauto). destruct (type_prim EF32 1 P3 q e1 Tq) as [P1 B1].
  assert (B32 : bits_of e0 = 32) by (destruct ps as [|p ps]; [congruence|]; rewrite <- (proj2 (type_prim e0 _ H0 p e (Forall_inv Ft))); exact Be).
  assert (B : bits_of e1 = bits_of e0) by (rewrite B1, B32; reflexivity). destruct (natural_vty fs e0 l0 T H0 N0) as (V0 & W0 & S0 & C0). destruct (natural_vty fs _ l1 T P1 N1) as (V1 & W1 & S1 & _).
  assert (Wl : p_width l1 = p_width l0) by (change (WIDTH (vty_of l1) = WIDTH (vty_of l0)); rewrite W1, W0, B; reflexivity).
  apply (fill_lanes c (vty_of l0) (vty_of l1) (lane e0) (fun a => staged fop fsqrt narrow e0 e 1 ps x q [a]) l d E func env buf fuel V0 V1); try assumption.
  - rewrite S1, S0, B. reflexivity.
  - unfold vty_of in C0 |- *. cbn [WIDTH SIZE] in C0 |- *. lia.
  - intros e' v Lv Fv. destruct (c99_vector fs c tie fop fsqrt narrow e0 e e1 ps x q [v] l0 l1 T H0 He Hf Hs Hn Hps Ft Tx Tq N0 N1) as (r & Rr & Lr & _ & M); [discriminate|constructor; [split; assumption|constructor]|].
    rewrite (Hrun e' v r Lv Fv Rr). cbn [length] in M.
    assert (Lvr : length v = length r) by (change (WIDTH (vty_of l0)) with (p_width l0) in Lv; rewrite <- Wl in Lv; unfold zlen in *; lia).
    assert (K : forall k a, znth v k = Some a -> znth r k = Some (staged fop fsqrt narrow e0 e 1 ps x q [a])) by (intros k a Ha; apply (M k [a]); constructor; [exact Ha|constructor]).
    clear -K Lvr. revert r Lvr K. induction v as [|a v IH]; intros [|y r] Lvr K; try discriminate; [reflexivity|]. cbn [map]. f_equal; [specialize (K 0 a eq_refl); injection K as ->; reflexivity|].
    apply IH; [cbn [length] in Lvr; lia|]. intros k b Hb. pose proof (znth_Some_lt _ _ _ Hb) as Hk. specialize (K (k + 1) b).
    rewrite !znth_cons_shift in K by lia. replace (k + 1 - 1) with k in K by lia. apply K. exact Hb.
Qed.

Lemma c99_zip : forall (fs : features) (c : config) (tie : bool) (fop : arith -> elty -> Z -> Z -> Z) (fsqrt : elty -> Z -> Z) (narrow : Z -> Z) (e0 e e1 : elty) (ps : list expr) (x q : expr) (n : nat) (ls ds : list (list Z)) (N : Z) (l0 l1 : packed_line)
    (E : Type) (func : E -> tuple (list Z) (S n) -> list Z * E) (env : E) (tp : tuple (SIMDIter Z (list Z)) (S n)) (fuel : nat),
  target fs -> In e0 primitives -> In e doubles ->
  (forall o e u v, e = EF32 \/ e = EF64 -> lane e u -> lane e v -> lane e (fop o e u v)) -> (forall e u, e = EF32 \/ e = EF64 -> lane e u -> lane e (fsqrt e u)) ->
  (forall u, lane EF64 u -> lane EF32 (narrow u)) ->
  ps <> [] -> Forall (fun p => type_of e0 (S (S n)) p = Some e) ps -> type_of EF64 (length ps) x = Some EF64 -> type_of EF32 1 q = Some e1 ->
  natural fs (el_name e0 ++ "s") = [l0] -> natural fs (el_name e1 ++ "s") = [l1] ->
  Forall (fun l => zlen l = N /\ Forall (lane e0) l) ls -> Forall (fun d => zlen d = p_width l0 /\ Forall (lane e0) d) ds -> length ls = length ds ->
  PipeSpec.items (S n) tp = map2 simd_iter ls ds -> N * p_size l0 + 32 <= isize_max -> N < Z.of_nat fuel ->
  (forall e' t r, Forall (fun v => zlen v = p_width l0 /\ Forall (lane e0) v) (PipeSpec.items (S n) t) -> mixed_in fs tie fop fsqrt narrow e0 e ps x q (PipeSpec.items (S n) t) = Some (Ok r) -> fst (func e' t) = r) ->
  let rest := rest_many (blanket_unsafe c (si_array (slice_array c (vty_of l0))) (si_iterable c (slice_array c (vty_of l0)))) n in
  let m := zipmap_iterator c (zip_iterator (slice_iterator c (vty_of l0)) rest) (vty_of l1) 0 func in
  zip (slice_iterator c (vty_of l0)) rest tp = Ok tp /\
  exists out s', scalar_collect c m 0 fuel (mkSIMDMap tp env) = Ok (map Some out, s') /\
    zlen out = N /\ forall k r, column ls k r -> znth out k = Some (staged fop fsqrt narrow e0 e (S (S n)) ps x q r).
Proof.
  intros fs c tie fop fsqrt narrow e0 e e1 ps x q n ls ds N l0 l1 E func env tp fuel T H0 He Hf Hs Hn Hps Ft Tx Tq N0 N1 Hls Hds Hlen Hit Cap Hfu Hrun.
  destruct (double_prim e He) as (Pe & Be & _). assert (P3 : In EF32 primitives) by (vm_compute; tauto). destruct (type_prim EF32 1 P3 q e1 Tq) as [P1 B1].
  assert (B32 : bits_of e0 = 32) by (destruct ps as [|p ps]; [congruence|]; rewrite <- (proj2 (type_prim e0 _ H0 p e (Forall_inv Ft))); exact Be).
  assert (B : bits_of e1 = bits_of e0) by (rewrite B1, B32; reflexivity). destruct (natural_vty fs e0 l0 T H0 N0) as (V0 & W0 & S0 & C0). destruct (natural_vty fs _ l1 T P1 N1) as (V1 & W1 & S1 & _).
  assert (Wl : p_width l1 = p_width l0) by (change (WIDTH (vty_of l1) = WIDTH (vty_of l0)); rewrite W1, W0, B; reflexivity).
  apply (c72_zip_slices Z Z E c (vty_of l0) (vty_of l1) n ls ds N 0 (staged fop fsqrt narrow e0 e (S (S n)) ps x q) func env (lane e0) tp fuel V0 V1); try assumption.
  - rewrite S1, S0, B. reflexivity.
  - unfold vty_of in C0 |- *. cbn [WIDTH SIZE] in C0 |- *. lia.
  - exact (staged_tuple fs c tie fop fsqrt narrow e0 e e1 ps x q l0 l1 n E func T H0 He Hf Hs Hn Hps Ft Tx Tq N0 N1 Wl Hrun).
Qed.

Lemma c99_strides : forall (fs : features) (c : config) (tie : bool) (fop : arith -> elty -> Z -> Z -> Z) (fsqrt : elty -> Z -> Z) (narrow : Z -> Z) (e0 e e1 : elty) (ps : list expr) (x q : expr) (n : nat) (l : list Z) (ds : list (list Z)) (x0 : Z) (l0 l1 : packed_line)
    (E : Type) (func : E -> tuple (list Z) (S n) -> list Z * E) (env : E) (fuel : nat),
  let count := Z.of_nat n + 2 in
  target fs -> In e0 primitives -> In e doubles ->
  (forall o e u v, e = EF32 \/ e = EF64 -> lane e u -> lane e v -> lane e (fop o e u v)) -> (forall e u, e = EF32 \/ e = EF64 -> lane e u -> lane e (fsqrt e u)) ->
  (forall u, lane EF64 u -> lane EF32 (narrow u)) ->
  ps <> [] -> Forall (fun p => type_of e0 (S (S n)) p = Some e) ps -> type_of EF64 (length ps) x = Some EF64 -> type_of EF32 1 q = Some e1 ->
  natural fs (el_name e0 ++ "s") = [l0] -> natural fs (el_name e1 ++ "s") = [l1] ->
  Forall (lane e0) l -> zlen l * p_size l0 <= isize_max -> count * 33 <= 2 ^ 63 -> zlen ds = count -> Forall (fun d => zlen d = p_width l0 /\ Forall (lane e0) d) ds -> (length l < fuel)%nat ->
  (forall e' t r, Forall (fun v => zlen v = p_width l0 /\ Forall (lane e0) v) (PipeSpec.items (S n) t) -> mixed_in fs tie fop fsqrt narrow e0 e ps x q (PipeSpec.items (S n) t) = Some (Ok r) -> fst (func e' t) = r) ->
  let it := stride_iterator c (slice_array c (vty_of l0)) x0 in
  let rest := rest_many (blanket_unsafe c (ps_array c (slice_array c (vty_of l0)) x0) (ps_iterable c (slice_array c (vty_of l0)) x0)) n in
  let m := zipmap_iterator c (zip_iterator it rest) (vty_of l1) 0 func in
  exists tp : tuple (PackedStride Z (list Z)) (S n), stride l count ds = Ok (PipeSpec.items (S n) tp) /\ zip it rest tp = Ok tp /\
  exists out s', scalar_collect c m 0 fuel (mkSIMDMap tp env) = Ok (map Some out, s') /\
    zlen out = zlen l / count /\ forall k, 0 <= k < zlen out -> znth out k = Some (staged fop fsqrt narrow e0 e (S (S n)) ps x q (sub l (count * k) count)).
Proof.
  intros fs c tie fop fsqrt narrow e0 e e1 ps x q n l ds x0 l0 l1 E func env fuel count T H0 He Hf Hs Hn Hps Ft Tx Tq N0 N1 Fl Cap Hcnt Hlen Hds Hfu Hrun.
  destruct (double_prim e He) as (Pe & Be & _). assert (P3 : In EF32 primitives) by (vm_compute; tauto). destruct (type_prim EF32 1 P3 q e1 Tq) as [P1 B1].
  assert (B32 : bits_of e0 = 32) by (destruct ps as [|p ps]; [congruence|]; rewrite <- (proj2 (type_prim e0 _ H0 p e (Forall_inv Ft))); exact Be).
  assert (B : bits_of e1 = bits_of e0) by (rewrite B1, B32; reflexivity). destruct (natural_vty fs e0 l0 T H0 N0) as (V0 & W0 & S0 & C0). destruct (natural_vty fs _ l1 T P1 N1) as (V1 & W1 & S1 & _).
  assert (Wl : p_width l1 = p_width l0) by (change (WIDTH (vty_of l1) = WIDTH (vty_of l0)); rewrite W1, W0, B; reflexivity).
  apply (c72_zip_strides Z Z E c (vty_of l0) (vty_of l1) n l ds x0 0 (staged fop fsqrt narrow e0 e (S (S n)) ps x q) func env (lane e0) fuel V0 V1); try assumption.
  - rewrite S1, S0, B. reflexivity.
  - assert (W : WIDTH (vty_of l0) <= 32) by (rewrite W0, B32; unfold register; destruct (fs "avx2"%string); vm_compute; discriminate). unfold count in Hcnt. clear -Hcnt W. nia.
  - exact (staged_tuple fs c tie fop fsqrt narrow e0 e e1 ps x q l0 l1 n E func T H0 He Hf Hs Hn Hps Ft Tx Tq N0 N1 Wl Hrun).
Qed.

Lemma portable_each_lanes : forall (fs : features) (c : config) (tie : bool) (fop : arith -> elty -> Z -> Z -> Z) (fsqrt : elty -> Z -> Z) (narrow : Z -> Z) (e0 e : elty) (args : list (list Z)) (l0 le : packed_line),
  fs "undefined"%string = false -> In e0 primitives ->
  (forall o e u v, e = EF32 \/ e = EF64 -> lane e u -> lane e v -> lane e (fop o e u v)) -> (forall e u, e = EF32 \/ e = EF64 -> lane e u -> lane e (fsqrt e u)) ->
  portable_natural fs (el_name e0 ++ "s") = [l0] -> portable_natural fs (el_name e ++ "s") = [le] -> args <> [] -> Forall (fun v => zlen v = p_width l0 /\ Forall (lane e0) v) args ->
  forall ps, Forall (fun p => type_of e0 (length args) p = Some e) ps ->
  build c = Release \/ (forall k env, column args k env -> existsb (fun p => overflows e0 (length args) fop fsqrt p env) ps = false) ->
  exists vs, portable_run_each fs tie fop fsqrt narrow c e0 (length args) ps args = Some (Ok vs) /\ length vs = length ps /\ Forall (fun v => zlen v = p_width le /\ Forall (lane e) v) vs /\
    forall k env, column args k env -> column vs k (map (fun p => meaning e0 (length args) fop fsqrt p env) ps).
Proof.
  intros fs c tie fop fsqrt narrow e0 e args l0 le T H0 Hf Hs N0 Ne Hne Fa. induction ps as [|p ps IH]; intros Ft Hov.
  - exists []. split; [reflexivity|]. split; [reflexivity|]. split; [constructor|]. intros. constructor.
  - inversion Ft as [|? ? Tp Ft']; subst. destruct (c94_closure fs c tie fop fsqrt narrow e0 e p args l0 le T H0 Hf Hs Tp N0 Ne Hne Fa) as [Q _]. destruct Q as (v & R & L & F & M).
    { destruct Hov as [Q|Q]; [left; exact Q|right]. intros k env Hc. specialize (Q k env Hc). cbn [existsb] in Q. apply Bool.orb_false_iff in Q. apply Q. }
    destruct (IH Ft') as (vs & Rs & Ls & Fs & Ms); [destruct Hov as [Q|Q]; [left; exact Q|right]; intros k env Hc; specialize (Q k env Hc); cbn [existsb] in Q; apply Bool.orb_false_iff in Q; apply Q|]. exists (v :: vs). cbn [portable_run_each]. rewrite R, andthen_ok, Rs, andthen_ok. split; [reflexivity|]. split; [cbn [length]; lia|]. split; [constructor; [split; assumption|exact Fs]|].
    intros k env Hc. cbn [map]. constructor; [exact (M k env Hc)|exact (Ms k env Hc)].
Qed.

Lemma c99_vector_portable : forall (fs : features) (c : config) (tie : bool) (fop : arith -> elty -> Z -> Z -> Z) (fsqrt : elty -> Z -> Z) (narrow : Z -> Z) (e0 e e1 : elty) (ps : list expr) (x q : expr) (args : list (list Z)) (l0 l1 : packed_line),
  fs "undefined"%string = false -> In e0 primitives -> In e doubles ->
  (forall o e u v, e = EF32 \/ e = EF64 -> lane e u -> lane e v -> lane e (fop o e u v)) -> (forall e u, e = EF32 \/ e = EF64 -> lane e u -> lane e (fsqrt e u)) ->
  (forall u, lane EF64 u -> lane EF32 (narrow u)) ->
  ps <> [] -> Forall (fun p => type_of e0 (length args) p = Some e) ps -> type_of EF64 (length ps) x = Some EF64 -> type_of EF32 1 q = Some e1 ->
  portable_natural fs (el_name e0 ++ "s") = [l0] -> portable_natural fs (el_name e1 ++ "s") = [l1] ->
  args <> [] -> Forall (fun v => zlen v = p_width l0 /\ Forall (lane e0) v) args ->
  build c = Release \/ (forall k env, column args k env -> staged_overflows fop fsqrt narrow e0 e (length args) ps x q env = false) ->
  exists r, portable_mixed fs tie fop fsqrt narrow c e0 e ps x q args = Some (Ok r) /\ zlen r = p_width l1 /\ Forall (lane e1) r /\
    forall k env, column args k env -> znth r k = Some (staged fop fsqrt narrow e0 e (length args) ps x q env).
Proof.
  intros fs c tie fop fsqrt narrow e0 e e1 ps x q args l0 l1 T H0 He Hf Hs Hn Hps Ft Tx Tq N0 N1 Hne Fa Hov.
  destruct (double_prim e He) as (Pe & Be & _ & _ & Le). assert (P3 : In EF32 primitives) by (vm_compute; tauto). assert (P2 : In EF64 primitives) by (vm_compute; tauto).
  destruct (portable_line fs _ T Pe) as (le & Ne & _ & _ & We & _). destruct (portable_line fs _ T H0) as (m & M0 & _ & _ & W0 & _). rewrite N0 in M0. injection M0 as <-. destruct (portable_line fs _ T P3) as (l3 & N3 & _ & _ & W3 & _).
  assert (B0 : bits_of e = bits_of e0) by (destruct ps as [|p ps]; [congruence|]; exact (proj2 (type_prim e0 _ H0 p e (Forall_inv Ft)))).
  assert (Wle : p_width le = p_width l0) by (rewrite We, W0, B0; reflexivity). assert (Wl3 : p_width l3 = p_width le) by (rewrite We, W3, Be; reflexivity).
  destruct (portable_each_lanes fs c tie fop fsqrt narrow e0 e args l0 le T H0 Hf Hs N0 Ne Hne Fa ps Ft) as (vs & Rs & Ls & Fs & Ms); [destruct Hov as [Q|Q]; [left; exact Q|right]; intros k env Hc; specialize (Q k env Hc); unfold staged_overflows in Q; rewrite !Bool.orb_false_iff in Q; apply Q|].
  assert (Hvs : vs <> []) by (intros Q; rewrite Q in Ls; destruct ps; [congruence|discriminate]). destruct (shape_split _ _ _ Fs) as [Fs1 Fs2]. destruct (shape_split _ _ _ Fa) as [Fa1 Fa2].
  assert (Row : forall k env', column vs k env' -> exists env, column args k env /\ env' = map (fun p => meaning e0 (length args) fop fsqrt p env) ps).
  { intros k env' Hc. pose proof (column_range vs _ k env' Hvs Fs1 Hc) as Hk. rewrite Wle in Hk. destruct (column_exists args _ k Fa1 Hk) as [env C]. exists env. split; [exact C|]. exact (column_fun vs k env' Hc _ (Ms k env C)). }
  destruct (c98_vector_portable fs c tie fop fsqrt narrow e x vs le T He Hf Hs ltac:(rewrite Ls; exact Tx) Ne Hvs Fs) as (w & Rw & Lw & Mw); [destruct Hov as [Q|Q]; [left; exact Q|right]; intros k env' Hc; destruct (Row k env' Hc) as (env & C & ->); specialize (Q k env C); unfold staged_overflows, widened_stage in Q; rewrite !Bool.orb_false_iff in Q; rewrite Ls, map_map; apply Q|]. rewrite Ls in Mw.
  assert (Fw : Forall (lane EF32) w).
  { apply Forall_forall. intros y Hy. apply In_nth_error in Hy. destruct Hy as [j Hj]. assert (Hz : znth w (Z.of_nat j) = Some y) by (unfold znth; destruct (Z.of_nat j <? 0) eqn:Q; [lia|]; rewrite Nat2Z.id; exact Hj).
    pose proof (znth_Some_lt _ _ _ Hz) as Hj'. rewrite Lw in Hj'. destruct (column_exists vs _ _ Fs1 Hj') as [env' C]. rewrite (Mw _ env' C) in Hz. injection Hz as <-. apply Hn. destruct (column_forall _ _ _ _ C Fs2) as [Len Fe'].
    assert (Q : length (map (as_f64 e) env') = length ps) by (clear -Len Ls; rewrite map_length; congruence). rewrite <- Q. apply (meaning_lane fop fsqrt EF64 EF64 x _ P2 Hf Hs); [rewrite Q; exact Tx|intros Z0; rewrite Z0 in Q; destruct ps; [congruence|discriminate]|].
    clear -Fe' Le. induction Fe' as [|a r Ha F IH]; [constructor|]. constructor; [exact (proj2 (Le a Ha))|exact IH]. }
  assert (Mid : forall k env, column args k env -> znth w k = Some (narrowed_stage fop fsqrt narrow e0 e (length args) ps x env)).
  { intros k env Hc. rewrite (Mw k _ (Ms k env Hc)). unfold narrowed_stage, widened_stage. rewrite map_map. reflexivity. }
  assert (F1 : Forall (fun v => zlen v = p_width l3 /\ Forall (lane EF32) v) [w]) by (constructor; [split; [rewrite Wl3; exact Lw|exact Fw]|constructor]).
  destruct (c94_closure fs c tie fop fsqrt narrow EF32 e1 q [w] l3 l1 T P3 Hf Hs Tq N3 N1 ltac:(discriminate) F1) as [Qr _]. destruct Qr as (r & Rr & Lr & Fr & Mr).
  { destruct Hov as [Q|Q]; [left; exact Q|right]. intros k row Hc. inversion Hc as [|? y ? ? Hy Hc']; subst. inversion Hc'; subst. pose proof (znth_Some_lt _ _ _ Hy) as Hk. rewrite Lw, Wle in Hk. destruct (column_exists args _ k Fa1 Hk) as [env C].
    rewrite (Mid k env C) in Hy. injection Hy as <-. specialize (Q k env C). unfold staged_overflows in Q. rewrite !Bool.orb_false_iff in Q. apply Q. }
  cbn [length] in Rr, Mr.
  exists r. unfold portable_mixed. rewrite Rs, andthen_ok, Rw, andthen_ok. split; [exact Rr|]. split; [exact Lr|]. split; [exact Fr|].
  intros k env Hc. unfold staged. apply (Mr k [narrowed_stage fop fsqrt narrow e0 e (length args) ps x env]). constructor; [exact (Mid k env Hc)|constructor].
Qed.

Lemma portable_staged_tuple : forall (fs : features) (c : config) (tie : bool) (fop : arith -> elty -> Z -> Z -> Z) (fsqrt : elty -> Z -> Z) (narrow : Z -> Z) (e0 e e1 : elty) (ps : list expr) (x q : expr) (l0 l1 : packed_line) (n : nat) (E : Type) (func : E -> tuple (list Z) (S n) -> list Z * E),
  fs "undefined"%string = false -> In e0 primitives -> In e doubles ->
  (forall o e u v, e = EF32 \/ e = EF64 -> lane e u -> lane e v -> lane e (fop o e u v)) -> (forall e u, e = EF32 \/ e = EF64 -> lane e u -> lane e (fsqrt e u)) ->
  (forall u, lane EF64 u -> lane EF32 (narrow u)) ->
  ps <> [] -> Forall (fun p => type_of e0 (S (S n)) p = Some e) ps -> type_of EF64 (length ps) x = Some EF64 -> type_of EF32 1 q = Some e1 ->
  portable_natural fs (el_name e0 ++ "s") = [l0] -> portable_natural fs (el_name e1 ++ "s") = [l1] -> p_width l1 = p_width l0 ->
  build c = Release \/ (forall row, length row = S (S n) -> Forall (lane e0) row -> staged_overflows fop fsqrt narrow e0 e (S (S n)) ps x q row = false) ->
  (forall e' t r, Forall (fun v => zlen v = p_width l0 /\ Forall (lane e0) v) (PipeSpec.items (S n) t) -> portable_mixed fs tie fop fsqrt narrow c e0 e ps x q (PipeSpec.items (S n) t) = Some (Ok r) -> fst (func e' t) = r) ->
  lane_by_lane (WIDTH (vty_of l0)) (lane e0) (S n) (staged fop fsqrt narrow e0 e (S (S n)) ps x q) func.
Proof.
  intros fs c tie fop fsqrt narrow e0 e e1 ps x q l0 l1 n E func T H0 He Hf Hs Hn Hps Ft Tx Tq N0 N1 Wl Hov Hrun e' tp Htp. pose proof (items_length (S n) tp) as Il. assert (Hne : PipeSpec.items (S n) tp <> []) by (intros Q; rewrite Q in Il; discriminate).
  destruct (c99_vector_portable fs c tie fop fsqrt narrow e0 e e1 ps x q (PipeSpec.items (S n) tp) l0 l1 T H0 He Hf Hs Hn Hps) as (r & Rr & Lr & _ & M); [rewrite Il; exact Ft|exact Tx|exact Tq|exact N0|exact N1|exact Hne|exact Htp|destruct Hov as [Q|Q]; [left; exact Q|right]; intros k row Hc; rewrite Il; destruct (shape_split _ _ _ Htp) as [_ F2]; destruct (column_forall _ _ _ _ Hc F2) as [G1 G2]; apply Q; [rewrite G1; exact Il|exact G2]|].
  rewrite (Hrun e' tp r Htp Rr). split; [rewrite Lr; exact Wl|]. intros i r0 Hc. rewrite (M i r0 Hc), Il. reflexivity.
Qed.

Lemma c99_map_portable : forall (fs : features) (c : config) (tie : bool) (fop : arith -> elty -> Z -> Z -> Z) (fsqrt : elty -> Z -> Z) (narrow : Z -> Z) (e0 e e1 : elty) (ps : list expr) (x q : expr) (l d : list Z) (l0 l1 : packed_line)
    (E : Type) (func : E -> list Z -> list Z * E) (env : E) (fuel : nat),
  fs "undefined"%string = false -> In e0 primitives -> In e doubles ->
  (forall o e u v, e = EF32 \/ e = EF64 -> lane e u -> lane e v -> lane e (fop o e u v)) -> (forall e u, e = EF32 \/ e = EF64 -> lane e u -> lane e (fsqrt e u)) ->
  (forall u, lane EF64 u -> lane EF32 (narrow u)) ->
  ps <> [] -> Forall (fun p => type_of e0 1 p = Some e) ps -> type_of EF64 (length ps) x = Some EF64 -> type_of EF32 1 q = Some e1 ->
  portable_natural fs (el_name e0 ++ "s") = [l0] -> portable_natural fs (el_name e1 ++ "s") = [l1] ->
  Forall (lane e0) l -> zlen d = p_width l0 -> Forall (lane e0) d -> zlen l * p_size l0 + 16 <= isize_max -> (length l < fuel)%nat ->
  build c = Release \/ (forall row, length row = 1%nat -> Forall (lane e0) row -> staged_overflows fop fsqrt narrow e0 e 1 ps x q row = false) ->
  (forall e' v r, zlen v = p_width l0 -> Forall (lane e0) v -> portable_mixed fs tie fop fsqrt narrow c e0 e ps x q [v] = Some (Ok r) -> fst (func e' v) = r) ->
  exists s', scalar_collect c (map_iterator c (slice_iterator c (vty_of l0)) (vty_of l1) 0 func) 0 fuel (mkSIMDMap (simd_iter l d) env) =
    Ok (map (fun a => Some (staged fop fsqrt narrow e0 e 1 ps x q [a])) l, s').
Proof.
  intros fs c tie fop fsqrt narrow e0 e e1 ps x q l d l0 l1 E func env fuel T H0 He Hf Hs Hn Hps Ft Tx Tq N0 N1 Fl Ld Fd Cap Hfu Hov Hrun.
  destruct (double_prim e He) as (Pe & Be & _). assert (P3 : In EF32 primitives) by (vm_compute; tauto). destruct (type_prim EF32 1 P3 q e1 Tq) as [P1 B1].
  assert (B32 : bits_of e0 = 32) by (destruct ps as [|p ps]; [congruence|]; rewrite <- (proj2 (type_prim e0 _ H0 p e (Forall_inv Ft))); exact Be).
  assert (B : bits_of e1 = bits_of e0) by (rewrite B1, B32; reflexivity). destruct (portable_vty fs e0 l0 T H0 N0) as (V0 & W0 & S0 & C0). destruct (portable_vty fs _ l1 T P1 N1) as (V1 & W1 & S1 & _).
  assert (Wl : p_width l1 = p_width l0) by (change (WIDTH (vty_of l1) = WIDTH (vty_of l0)); rewrite W1, W0, B; reflexivity).
  destruct (c72_map Z Z E c (vty_of l0) (vty_of l1) l d (lane e0) (fun a y => y = staged fop fsqrt narrow e0 e 1 ps x q [a]) func env 0 fuel V0 V1) as (out & s' & R & F); try assumption.
  - rewrite S1, S0, B. reflexivity.
  - unfold vty_of in C0 |- *. cbn [WIDTH SIZE] in C0 |- *. lia.
  - intros e' v Lv Fv. destruct (c99_vector_portable fs c tie fop fsqrt narrow e0 e e1 ps x q [v] l0 l1 T H0 He Hf Hs Hn Hps Ft Tx Tq N0 N1) as (r & Rr & Lr & _ & M); [discriminate|constructor; [split; assumption|constructor]|destruct Hov as [Q|Q]; [left; exact Q|right]; intros k row Hc; destruct (column_forall (lane e0) _ _ _ Hc) as [G1 G2]; [constructor; [exact Fv|constructor]|]; apply Q; [exact G1|exact G2]|].
    rewrite (Hrun e' v r Lv Fv Rr). cbn [length] in M.
    assert (Lvr : length v = length r) by (change (WIDTH (vty_of l0)) with (p_width l0) in Lv; rewrite <- Wl in Lv; unfold zlen in *; lia).
    assert (K : forall k a, znth v k = Some a -> znth r k = Some (staged fop fsqrt narrow e0 e 1 ps x q [a])) by (intros k a Ha; apply (M k [a]); constructor; [exact Ha|constructor]).
    clear -K Lvr. revert r Lvr K. induction v as [|a v IH]; intros [|y r] Lvr K; try discriminate; [constructor|]. constructor; [specialize (K 0 a eq_refl); injection K as ->; reflexivity|].
    apply IH; [cbn [length] in Lvr; lia|]. intros k b Hb. pose proof (znth_Some_lt _ _ _ Hb) as Hk. specialize (K (k + 1) b).
    rewrite !znth_cons_shift in K by lia. replace (k + 1 - 1) with k in K by lia. apply K. exact Hb.
  - exists s'. rewrite R. f_equal. f_equal. clear -F. induction F as [|a y l out -> F IH]; [reflexivity|]. cbn [map]. rewrite IH. reflexivity.
Qed.

Lemma c99_fill_portable : forall (fs : features) (c : config) (tie : bool) (fop : arith -> elty -> Z -> Z -> Z) (fsqrt : elty -> Z -> Z) (narrow : Z -> Z) (e0 e e1 : elty) (ps : list expr) (x q : expr) (l d : list Z) (l0 l1 : packed_line)
    (E : Type) (func : E -> list Z -> list Z * E) (env : E) (buf : list Z) (fuel : nat),
  fs "undefined"%string = false -> In e0 primitives -> In e doubles ->
  (forall o e u v, e = EF32 \/ e = EF64 -> lane e u -> lane e v -> lane e (fop o e u v)) -> (forall e u, e = EF32 \/ e = EF64 -> lane e u -> lane e (fsqrt e u)) ->
  (forall u, lane EF64 u -> lane EF32 (narrow u)) ->
  ps <> [] -> Forall (fun p => type_of e0 1 p = Some e) ps -> type_of EF64 (length ps) x = Some EF64 -> type_of EF32 1 q = Some e1 ->
  portable_natural fs (el_name e0 ++ "s") = [l0] -> portable_natural fs (el_name e1 ++ "s") = [l1] ->
  Forall (lane e0) l -> zlen d = p_width l0 -> Forall (lane e0) d -> zlen l * p_size l0 + 16 <= isize_max -> (length l < fuel)%nat -> zlen l <= zlen buf ->
  build c = Release \/ (forall row, length row = 1%nat -> Forall (lane e0) row -> staged_overflows fop fsqrt narrow e0 e 1 ps x q row = false) ->
  (forall e' v r, zlen v = p_width l0 -> Forall (lane e0) v -> portable_mixed fs tie fop fsqrt narrow c e0 e ps x q [v] = Some (Ok r) -> fst (func e' v) = r) ->
  exists s', scalar_fill c (map_iterator c (slice_iterator c (vty_of l0)) (vty_of l1) 0 func) 0 fuel (mkSIMDMap (simd_iter l d) env) buf =
    Ok (map (fun a => staged fop fsqrt narrow e0 e 1 ps x q [a]) l ++ skipn (length l) buf, s').
Proof.
  intros fs c tie fop fsqrt narrow e0 e e1 ps x q l d l0 l1 E func env buf fuel T H0 He Hf Hs Hn Hps Ft Tx Tq N0 N1 Fl Ld Fd Cap Hfu Hbuf Hov Hrun.
  destruct (double_prim e He) as (Pe & Be & _). assert (P3 : In EF32 primitives) by (vm_compute; tauto). destruct (type_prim EF32 1 P3 q e1 Tq) as [P1 B1].
  assert (B32 : bits_of e0 = 32) by (destruct ps as [|p ps]; [congruence|]; rewrite <- (proj2 (type_prim e0 _ H0 p e (Forall_inv Ft))); exact Be).
  assert (B : bits_of e1 = bits_of e0) by (rewrite B1, B32; reflexivity). destruct (portable_vty fs e0 l0 T H0 N0) as (V0 & W0 & S0 & C0). destruct (portable_vty fs _ l1 T P1 N1) as (V1 & W1 & S1 & _).
  assert (Wl : p_width l1 = p_width l0) by (change (WIDTH (vty_of l1) = WIDTH (vty_of l0)); rewrite W1, W0, B; reflexivity).
  apply (fill_lanes c (vty_of l0) (vty_of l1) (lane e0) (fun a => staged fop fsqrt narrow e0 e 1 ps x q [a]) l d E func env buf fuel V0 V1); try assumption.
  - rewrite S1, S0, B. reflexivity.
  - unfold vty_of in C0 |- *. cbn [WIDTH SIZE] in C0 |- *. lia.
  - intros e' v Lv Fv. destruct (c99_vector_portable fs c tie fop fsqrt narrow e0 e e1 ps x q [v] l0 l1 T H0 He Hf Hs Hn Hps Ft Tx Tq N0 N1) as (r & Rr & Lr & _ & M); [discriminate|constructor; [split; assumption|constructor]|destruct Hov as [Q|Q]; [left; exact Q|right]; intros k row Hc; destruct (column_forall (lane e0) _ _ _ Hc) as [G1 G2]; [constructor; [exact Fv|constructor]|]; apply Q; [exact G1|exact G2]|].
    rewrite (Hrun e' v r Lv Fv Rr). cbn [length] in M.
    assert (Lvr : length v = length r) by (change (WIDTH (vty_of l0)) with (p_width l0) in Lv; rewrite <- Wl in Lv; unfold zlen in *; lia).
    assert (K : forall k a, znth v k = Some a -> znth r k = Some (staged fop fsqrt narrow e0 e 1 ps x q [a])) by (intros k a Ha; apply (M k [a]); constructor; [exact Ha|constructor]).
    clear -K Lvr. revert r Lvr K. induction v as [|a v IH]; intros [|y r] Lvr K; try discriminate; [reflexivity|]. cbn [map]. f_equal; [specialize (K 0 a eq_refl); injection K as ->; reflexivity|].
    apply IH; [cbn [length] in Lvr; lia|]. intros k b Hb. pose proof (znth_Some_lt _ _ _ Hb) as Hk. specialize (K (k + 1) b).
    rewrite !znth_cons_shift in K by lia. replace (k + 1 - 1) with k in K by lia. apply K. exact Hb.
Qed.

Lemma c99_zip_portable : forall (fs : features) (c : config) (tie : bool) (fop : arith -> elty -> Z -> Z -> Z) (fsqrt : elty -> Z -> Z) (narrow : Z -> Z) (e0 e e1 : elty) (ps : list expr) (x q : expr) (n : nat) (ls ds : list (list Z)) (N : Z) (l0 l1 : packed_line)
    (E : Type) (func : E -> tuple (list Z) (S n) -> list Z * E) (env : E) (tp : tuple (SIMDIter Z (list Z)) (S n)) (fuel : nat),
  fs "undefined"%string = false -> In e0 primitives -> In e doubles ->
  (forall o e u v, e = EF32 \/ e = EF64 -> lane e u -> lane e v -> lane e (fop o e u v)) -> (forall e u, e = EF32 \/ e = EF64 -> lane e u -> lane e (fsqrt e u)) ->
  (forall u, lane EF64 u -> lane EF32 (narrow u)) ->
  ps <> [] -> Forall (fun p => type_of e0 (S (S n)) p = Some e) ps -> type_of EF64 (length ps) x = Some EF64 -> type_of EF32 1 q = Some e1 ->
  portable_natural fs (el_name e0 ++ "s") = [l0] -> portable_natural fs (el_name e1 ++ "s") = [l1] ->
  Forall (fun l => zlen l = N /\ Forall (lane e0) l) ls -> Forall (fun d => zlen d = p_width l0 /\ Forall (lane e0) d) ds -> length ls = length ds ->
  PipeSpec.items (S n) tp = map2 simd_iter ls ds -> N * p_size l0 + 16 <= isize_max -> N < Z.of_nat fuel ->
  build c = Release \/ (forall row, length row = S (S n) -> Forall (lane e0) row -> staged_overflows fop fsqrt narrow e0 e (S (S n)) ps x q row = false) ->
  (forall e' t r, Forall (fun v => zlen v = p_width l0 /\ Forall (lane e0) v) (PipeSpec.items (S n) t) -> portable_mixed fs tie fop fsqrt narrow c e0 e ps x q (PipeSpec.items (S n) t) = Some (Ok r) -> fst (func e' t) = r) ->
  let rest := rest_many (blanket_unsafe c (si_array (slice_array c (vty_of l0))) (si_iterable c (slice_array c (vty_of l0)))) n in
  let m := zipmap_iterator c (zip_iterator (slice_iterator c (vty_of l0)) rest) (vty_of l1) 0 func in
  zip (slice_iterator c (vty_of l0)) rest tp = Ok tp /\
  exists out s', scalar_collect c m 0 fuel (mkSIMDMap tp env) = Ok (map Some out, s') /\
    zlen out = N /\ forall k r, column ls k r -> znth out k = Some (staged fop fsqrt narrow e0 e (S (S n)) ps x q r).
Proof.
  intros fs c tie fop fsqrt narrow e0 e e1 ps x q n ls ds N l0 l1 E func env tp fuel T H0 He Hf Hs Hn Hps Ft Tx Tq N0 N1 Hls Hds Hlen Hit Cap Hfu Hov Hrun.
  destruct (double_prim e He) as (Pe & Be & _). assert (P3 : In EF32 primitives) by (vm_compute; tauto). destruct (type_prim EF32 1 P3 q e1 Tq) as [P1 B1].
  assert (B32 : bits_of e0 = 32) by (destruct ps as [|p ps]; [congruence|]; rewrite <- (proj2 (type_prim e0 _ H0 p e (Forall_inv Ft))); exact Be).
  assert (B : bits_of e1 = bits_of e0) by (rewrite B1, B32; reflexivity). destruct (portable_vty fs e0 l0 T H0 N0) as (V0 & W0 & S0 & C0). destruct (portable_vty fs _ l1 T P1 N1) as (V1 & W1 & S1 & _).
  assert (Wl : p_width l1 = p_width l0) by (change (WIDTH (vty_of l1) = WIDTH (vty_of l0)); rewrite W1, W0, B; reflexivity).
  apply (c72_zip_slices Z Z E c (vty_of l0) (vty_of l1) n ls ds N 0 (staged fop fsqrt narrow e0 e (S (S n)) ps x q) func env (lane e0) tp fuel V0 V1); try assumption.
  - rewrite S1, S0, B. reflexivity.
  - unfold vty_of in C0 |- *. cbn [WIDTH SIZE] in C0 |- *. lia.
  - exact (portable_staged_tuple fs c tie fop fsqrt narrow e0 e e1 ps x q l0 l1 n E func T H0 He Hf Hs Hn Hps Ft Tx Tq N0 N1 Wl Hov Hrun).
Qed.

Lemma c99_strides_portable : forall (fs : features) (c : config) (tie : bool) (fop : arith -> elty -> Z -> Z -> Z) (fsqrt : elty -> Z -> Z) (narrow : Z -> Z) (e0 e e1 : elty) (ps : list expr) (x q : expr) (n : nat) (l : list Z) (ds : list (list Z)) (x0 : Z) (l0 l1 : packed_line)
    (E : Type) (func : E -> tuple (list Z) (S n) -> list Z * E) (env : E) (fuel : nat),
  let count := Z.of_nat n + 2 in
  fs "undefined"%string = false -> In e0 primitives -> In e doubles ->
  (forall o e u v, e = EF32 \/ e = EF64 -> lane e u -> lane e v -> lane e (fop o e u v)) -> (forall e u, e = EF32 \/ e = EF64 -> lane e u -> lane e (fsqrt e u)) ->
  (forall u, lane EF64 u -> lane EF32 (narrow u)) ->
  ps <> [] -> Forall (fun p => type_of e0 (S (S n)) p = Some e) ps -> type_of EF64 (length ps) x = Some EF64 -> type_of EF32 1 q = Some e1 ->
  portable_natural fs (el_name e0 ++ "s") = [l0] -> portable_natural fs (el_name e1 ++ "s") = [l1] ->
  Forall (lane e0) l -> zlen l * p_size l0 <= isize_max -> count * 33 <= 2 ^ 63 -> zlen ds = count -> Forall (fun d => zlen d = p_width l0 /\ Forall (lane e0) d) ds -> (length l < fuel)%nat ->
  build c = Release \/ (forall row, length row = S (S n) -> Forall (lane e0) row -> staged_overflows fop fsqrt narrow e0 e (S (S n)) ps x q row = false) ->
  (forall e' t r, Forall (fun v => zlen v = p_width l0 /\ Forall (lane e0) v) (PipeSpec.items (S n) t) -> portable_mixed fs tie fop fsqrt narrow c e0 e ps x q (PipeSpec.items (S n) t) = Some (Ok r) -> fst (func e' t) = r) ->
  let it := stride_iterator c (slice_array c (vty_of l0)) x0 in
  let rest := rest_many (blanket_unsafe c (ps_array c (slice_array c (vty_of l0)) x0) (ps_iterable c (slice_array c (vty_of l0)) x0)) n in
  let m := zipmap_iterator c (zip_iterator it rest) (vty_of l1) 0 func in
  exists tp : tuple (PackedStride Z (list Z)) (S n), stride l count ds = Ok (PipeSpec.items (S n) tp) /\ zip it rest tp = Ok tp /\
  exists out s', scalar_collect c m 0 fuel (mkSIMDMap tp env) = Ok (map Some out, s') /\
    zlen out = zlen l / count /\ forall k, 0 <= k < zlen out -> znth out k = Some (staged fop fsqrt narrow e0 e (S (S n)) ps x q (sub l (count * k) count)).
Proof.
  intros fs c tie fop fsqrt narrow e0 e e1 ps x q n l ds x0 l0 l1 E func env fuel count T H0 He Hf Hs Hn Hps Ft Tx Tq N0 N1 Fl Cap Hcnt Hlen Hds Hfu Hov Hrun.
  destruct (double_prim e He) as (Pe & Be & _). assert (P3 : In EF32 primitives) by (vm_compute; tauto). destruct (type_prim EF32 1 P3 q e1 Tq) as [P1 B1].
  assert (B32 : bits_of e0 = 32) by (destruct ps as [|p ps]; [congruence|]; rewrite <- (proj2 (type_prim e0 _ H0 p e (Forall_inv Ft))); exact Be).
  assert (B : bits_of e1 = bits_of e0) by (rewrite B1, B32; reflexivity). destruct (portable_vty fs e0 l0 T H0 N0) as (V0 & W0 & S0 & C0). destruct (portable_vty fs _ l1 T P1 N1) as (V1 & W1 & S1 & _).
  assert (Wl : p_width l1 = p_width l0) by (change (WIDTH (vty_of l1) = WIDTH (vty_of l0)); rewrite W1, W0, B; reflexivity).
  apply (c72_zip_strides Z Z E c (vty_of l0) (vty_of l1) n l ds x0 0 (staged fop fsqrt narrow e0 e (S (S n)) ps x q) func env (lane e0) fuel V0 V1); try assumption.
  - rewrite S1, S0, B. reflexivity.
  - assert (W : WIDTH (vty_of l0) <= 32) by (rewrite W0, B32; vm_compute; discriminate). unfold count in Hcnt. clear -Hcnt W. nia.
  - exact (portable_staged_tuple fs c tie fop fsqrt narrow e0 e e1 ps x q l0 l1 n E func T H0 He Hf Hs Hn Hps Ft Tx Tq N0 N1 Wl Hov Hrun).
Qed.

Lemma decide_rows : forall (f : list Z -> bool) (vs : list (list Z)) W, vs <> [] -> Forall (fun v => zlen v = W) vs ->
  (forall k env, column vs k env -> f env = false) \/ (exists k env, column vs k env /\ f env = true).
Proof.
  intros f vs W Hne F. assert (D : forall n : nat, (forall k env, k < Z.of_nat n -> column vs k env -> f env = false) \/ (exists k env, column vs k env /\ f env = true)).
  { induction n as [|n [IH|IH]]; [left; intros k env Hk Hc; pose proof (column_range vs W k env Hne F Hc); lia| |right; exact IH].
    destruct (Z_lt_dec (Z.of_nat n) W) as [L|L].
    - destruct (column_exists vs W (Z.of_nat n) F ltac:(lia)) as [env0 C0]. destruct (f env0) eqn:Q; [right; exists (Z.of_nat n), env0; split; assumption|].
      left. intros k env Hk Hc. destruct (Z.eq_dec k (Z.of_nat n)) as [->|Hn]; [rewrite (column_fun vs _ env Hc env0 C0); exact Q|apply (IH k env); [lia|exact Hc]].
    - left. intros k env Hk Hc. pose proof (column_range vs W k env Hne F Hc) as R. apply (IH k env); [lia|exact Hc]. }
  destruct (D (Z.to_nat W)) as [Q|Q]; [left|right; exact Q]. intros k env Hc. pose proof (column_range vs W k env Hne F Hc) as R. apply (Q k env); [lia|exact Hc].
Qed.

Lemma c98_panic : forall (fs : features) (c : config) (tie : bool) (fop : arith -> elty -> Z -> Z -> Z) (fsqrt : elty -> Z -> Z) (narrow : Z -> Z) (e : elty) (x : expr) (args : list (list Z)) (l0 : packed_line) (k : Z) (env : list Z),
  fs "undefined"%string = false -> In e doubles ->
  (forall o e u v, e = EF32 \/ e = EF64 -> lane e u -> lane e v -> lane e (fop o e u v)) -> (forall e u, e = EF32 \/ e = EF64 -> lane e u -> lane e (fsqrt e u)) ->
  type_of EF64 (length args) x = Some EF64 -> portable_natural fs (el_name e ++ "s") = [l0] ->
  args <> [] -> Forall (fun v => zlen v = p_width l0 /\ Forall (lane e) v) args ->
  build c = Debug -> column args k env -> overflows EF64 (length args) fop fsqrt x (map (as_f64 e) env) = true ->
  portable_doubled fs tie fop fsqrt narrow c e x args = Some Panic.
Proof.
  intros fs c tie fop fsqrt narrow e x args l0 k env T He Hf Hs Ht N0 Hne Fa Hb Hc Ho. destruct (double_prim e He) as (P1 & B1 & _). assert (P2 : In EF64 primitives) by (vm_compute; tauto). assert (P3 : In EF32 primitives) by (vm_compute; tauto).
  destruct (portable_line fs _ T P1) as (m & M & N1 & _ & W1 & _). rewrite N0 in M. injection M as <-. destruct (portable_line fs _ T P2) as (lw & Nw & N2 & _ & W2 & _). destruct (portable_line fs _ T P3) as (lo & No & N3 & _ & W3 & _).
  assert (Ww : p_width l0 = 2 * p_width lw /\ 0 <= p_width lw) by (rewrite W1, W2, B1; vm_compute; split; congruence). destruct Ww as (Ww & W0).
  pose proof (portable_up_all fs narrow e l0 lw args T He N0 Nw Fa) as Eu. rewrite Ww in Fa. destruct (halves_shape e _ args He W0 Fa) as [Fu Fv]. destruct (halves_columns (as_f64 e) (p_width lw) args W0) as (Cu & _).
  set (us := map (fun v => map (as_f64 e) (firstn (Z.to_nat (p_width lw)) v)) args) in *. set (vs := map (fun v => map (as_f64 e) (skipn (Z.to_nat (p_width lw)) v)) args) in *.
  assert (Lu : length us = length args) by apply map_length. assert (Lv : length vs = length args) by apply map_length. assert (Hu : us <> []) by (intros Q; rewrite Q in Lu; destruct args; [congruence|discriminate]). assert (Hv : vs <> []) by (intros Q; rewrite Q in Lv; destruct args; [congruence|discriminate]).
  destruct (c94_closure fs c tie fop fsqrt narrow EF64 EF64 x us lw lw T P2 Hf Hs ltac:(rewrite Lu; exact Ht) Nw Nw Hu Fu) as [Au Bu]. destruct (c94_closure fs c tie fop fsqrt narrow EF64 EF64 x vs lw lw T P2 Hf Hs ltac:(rewrite Lv; exact Ht) Nw Nw Hv Fv) as [_ Bv]. rewrite Lu in Au, Bu. rewrite Lv in Bv.
  unfold portable_doubled. rewrite N1, N2, N3, Eu, andthen_ok. cbn [fst snd]. destruct (shape_split _ _ _ Fu) as [Fu1 _].
  destruct (decide_rows (overflows EF64 (length args) fop fsqrt x) us _ Hu Fu1) as [Q|(k' & env' & C' & O')]; [|rewrite (Bu Hb k' env' C' O'); reflexivity].
  destruct (Au (or_intror Q)) as (a & Ra & _). rewrite Ra, andthen_ok. destruct (Cu k env Hc) as [C1 C2]. destruct (Z_lt_dec k (p_width lw)) as [L|L]; [rewrite (Q k _ (C1 L)) in Ho; discriminate|].
  rewrite (Bv Hb _ _ (C2 ltac:(lia)) Ho). reflexivity.
Qed.

Lemma portable_each_panic : forall (fs : features) (c : config) (tie : bool) (fop : arith -> elty -> Z -> Z -> Z) (fsqrt : elty -> Z -> Z) (narrow : Z -> Z) (e0 e : elty) (args : list (list Z)) (l0 le : packed_line) (k : Z) (env : list Z),
  fs "undefined"%string = false -> In e0 primitives ->
  (forall o e u v, e = EF32 \/ e = EF64 -> lane e u -> lane e v -> lane e (fop o e u v)) -> (forall e u, e = EF32 \/ e = EF64 -> lane e u -> lane e (fsqrt e u)) ->
  portable_natural fs (el_name e0 ++ "s") = [l0] -> portable_natural fs (el_name e ++ "s") = [le] -> args <> [] -> Forall (fun v => zlen v = p_width l0 /\ Forall (lane e0) v) args ->
  build c = Debug -> column args k env -> forall ps, Forall (fun p => type_of e0 (length args) p = Some e) ps -> existsb (fun p => overflows e0 (length args) fop fsqrt p env) ps = true ->
  portable_run_each fs tie fop fsqrt narrow c e0 (length args) ps args = Some Panic.
Proof.
  intros fs c tie fop fsqrt narrow e0 e args l0 le k env T H0 Hf Hs N0 Ne Hne Fa Hb Hc. destruct (shape_split _ _ _ Fa) as [Fa1 _]. induction ps as [|p ps IH]; intros Ft Ho; [discriminate|]. inversion Ft as [|? ? Tp Ft']; subst.
  destruct (c94_closure fs c tie fop fsqrt narrow e0 e p args l0 le T H0 Hf Hs Tp N0 Ne Hne Fa) as [A B]. cbn [portable_run_each existsb] in *.
  destruct (decide_rows (overflows e0 (length args) fop fsqrt p) args _ Hne Fa1) as [Q|(k' & env' & C' & O')]; [|rewrite (B Hb k' env' C' O'); reflexivity].
  destruct (A (or_intror Q)) as (a & Ra & _). rewrite Ra, andthen_ok. rewrite (Q k env Hc) in Ho. rewrite (IH Ft' Ho). reflexivity.
Qed.

Lemma c99_panic : forall (fs : features) (c : config) (tie : bool) (fop : arith -> elty -> Z -> Z -> Z) (fsqrt : elty -> Z -> Z) (narrow : Z -> Z) (e0 e e1 : elty) (ps : list expr) (x q : expr) (args : list (list Z)) (l0 l1 : packed_line) (k : Z) (env : list Z),
  fs "undefined"%string = false -> In e0 primitives -> In e doubles ->
  (forall o e u v, e = EF32 \/ e = EF64 -> lane e u -> lane e v -> lane e (fop o e u v)) -> (forall e u, e = EF32 \/ e = EF64 -> lane e u -> lane e (fsqrt e u)) ->
  (forall u, lane EF64 u -> lane EF32 (narrow u)) ->
  ps <> [] -> Forall (fun p => type_of e0 (length args) p = Some e) ps -> type_of EF64 (length ps) x = Some EF64 -> type_of EF32 1 q = Some e1 ->
  portable_natural fs (el_name e0 ++ "s") = [l0] -> portable_natural fs (el_name e1 ++ "s") = [l1] ->
  args <> [] -> Forall (fun v => zlen v = p_width l0 /\ Forall (lane e0) v) args ->
  build c = Debug -> column args k env -> staged_overflows fop fsqrt narrow e0 e (length args) ps x q env = true ->
  portable_mixed fs tie fop fsqrt narrow c e0 e ps x q args = Some Panic.
Proof.
  intros fs c tie fop fsqrt narrow e0 e e1 ps x q args l0 l1 k env T H0 He Hf Hs Hn Hps Ft Tx Tq N0 N1 Hne Fa Hb Hc Ho.
  destruct (double_prim e He) as (Pe & Be & _ & _ & Le). assert (P3 : In EF32 primitives) by (vm_compute; tauto). assert (P2 : In EF64 primitives) by (vm_compute; tauto).
  destruct (portable_line fs _ T Pe) as (le & Ne & _ & _ & We & _). destruct (portable_line fs _ T H0) as (m & M0 & _ & _ & W0 & _). rewrite N0 in M0. injection M0 as <-. destruct (portable_line fs _ T P3) as (l3 & N3 & _ & _ & W3 & _).
  assert (B0 : bits_of e = bits_of e0) by (destruct ps as [|p ps]; [congruence|]; exact (proj2 (type_prim e0 _ H0 p e (Forall_inv Ft)))).
  assert (Wle : p_width le = p_width l0) by (rewrite We, W0, B0; reflexivity). assert (Wl3 : p_width l3 = p_width le) by (rewrite We, W3, Be; reflexivity).
  destruct (shape_split _ _ _ Fa) as [Fa1 Fa2]. unfold portable_mixed.
  destruct (decide_rows (fun env => existsb (fun p => overflows e0 (length args) fop fsqrt p env) ps) args _ Hne Fa1) as [Q1|(k' & env' & C' & O')].
  2:{ rewrite (portable_each_panic fs c tie fop fsqrt narrow e0 e args l0 le k' env' T H0 Hf Hs N0 Ne Hne Fa Hb C' ps Ft O'). reflexivity. }
  destruct (portable_each_lanes fs c tie fop fsqrt narrow e0 e args l0 le T H0 Hf Hs N0 Ne Hne Fa ps Ft (or_intror Q1)) as (vs & Rs & Ls & Fs & Ms). rewrite Rs, andthen_ok.
  assert (Hvs : vs <> []) by (intros Q; rewrite Q in Ls; destruct ps; [congruence|discriminate]). destruct (shape_split _ _ _ Fs) as [Fs1 Fs2].
  destruct (decide_rows (fun env' => overflows EF64 (length vs) fop fsqrt x (map (as_f64 e) env')) vs _ Hvs Fs1) as [Q2|(k' & env' & C' & O')].
  2:{ rewrite (c98_panic fs c tie fop fsqrt narrow e x vs le k' env' T He Hf Hs ltac:(rewrite Ls; exact Tx) Ne Hvs Fs Hb C' O'). reflexivity. }
  destruct (c98_vector_portable fs c tie fop fsqrt narrow e x vs le T He Hf Hs ltac:(rewrite Ls; exact Tx) Ne Hvs Fs (or_intror Q2)) as (w & Rw & Lw & Mw). rewrite Rw, andthen_ok. rewrite Ls in Mw, Q2.
  assert (Fw : Forall (lane EF32) w).
  { apply Forall_forall. intros y Hy. apply In_nth_error in Hy. destruct Hy as [j Hj]. assert (Hz : znth w (Z.of_nat j) = Some y) by (unfold znth; destruct (Z.of_nat j <? 0) eqn:Q; [lia|]; rewrite Nat2Z.id; exact Hj).
    pose proof (znth_Some_lt _ _ _ Hz) as Hj'. rewrite Lw in Hj'. destruct (column_exists vs _ _ Fs1 Hj') as [env' C]. rewrite (Mw _ env' C) in Hz. injection Hz as <-. apply Hn. destruct (column_forall _ _ _ _ C Fs2) as [Len Fe'].
    assert (Q : length (map (as_f64 e) env') = length ps) by (clear -Len Ls; rewrite map_length; congruence). rewrite <- Q. apply (meaning_lane fop fsqrt EF64 EF64 x _ P2 Hf Hs); [rewrite Q; exact Tx|intros Z0; rewrite Z0 in Q; destruct ps; [congruence|discriminate]|].
    clear -Fe' Le. induction Fe' as [|a r Ha F IH]; [constructor|]. constructor; [exact (proj2 (Le a Ha))|exact IH]. }
  assert (F1 : Forall (fun v => zlen v = p_width l3 /\ Forall (lane EF32) v) [w]) by (constructor; [split; [rewrite Wl3; exact Lw|exact Fw]|constructor]).
  destruct (c94_closure fs c tie fop fsqrt narrow EF32 e1 q [w] l3 l1 T P3 Hf Hs Tq N3 N1 ltac:(discriminate) F1) as [_ B]. cbn [length] in B.
  pose proof (Q1 k env Hc) as O1. pose proof (Q2 k _ (Ms k env Hc)) as O2. pose proof (Mw k _ (Ms k env Hc)) as O3. rewrite map_map in O2, O3.
  unfold staged_overflows, narrowed_stage, widened_stage in Ho. cbn beta in O1. rewrite O1, O2 in Ho. cbn [orb] in Ho.
  apply (B Hb k [narrow (meaning EF64 (length ps) fop fsqrt x (map (fun p => as_f64 e (meaning e0 (length args) fop fsqrt p env)) ps))]); [constructor; [exact O3|constructor]|exact Ho].
Qed.

Lemma high_latency_value : forall a, staged ieee_arith ieee_sqrt f_narrow EF32 EF32 1 [Arith Mul (Arg 0) (Splat EF32 1067030938)] (Arith Mul (Sqrt (Arg 0)) (Splat EF64 4614256656552045848)) (Arg 0) [a] =
  f_narrow (f_mul fmt64 (f_sqrt fmt64 (f_widen (f_mul fmt32 a 1067030938))) 4614256656552045848).
Proof.
  intros a. unfold staged, narrowed_stage, widened_stage. cbn [meaning map type_of length]. lazy beta iota zeta delta [nth]. cbn [as_f64]. unfold ieee_arith, ieee_sqrt. cbn [el_fmt]. reflexivity.
Qed.

Lemma c99_high_latency : forall (fs : features) (c : config) (tie : bool) (l d : list Z) (l0 : packed_line) (E : Type) (func : E -> list Z -> list Z * E) (env : E) (buf : list Z) (fuel : nat),
  let p := Arith Mul (Arg 0) (Splat EF32 1067030938) in let x := Arith Mul (Sqrt (Arg 0)) (Splat EF64 4614256656552045848) in
  target fs -> natural fs "f32s" = [l0] ->
  Forall (f_pattern fmt32) l -> zlen d = p_width l0 -> Forall (f_pattern fmt32) d -> zlen l * p_size l0 + 32 <= isize_max -> (length l < fuel)%nat -> zlen l <= zlen buf ->
  (forall e' v r, zlen v = p_width l0 -> Forall (f_pattern fmt32) v -> mixed_in fs tie ieee_arith ieee_sqrt f_narrow EF32 EF32 [p] x (Arg 0) [v] = Some (Ok r) -> fst (func e' v) = r) ->
  exists s', scalar_fill c (map_iterator c (slice_iterator c (vty_of l0)) (vty_of l0) 0 func) 0 fuel (mkSIMDMap (simd_iter l d) env) buf =
    Ok (map (fun a => f_narrow (f_mul fmt64 (f_sqrt fmt64 (f_widen (f_mul fmt32 a 1067030938))) 4614256656552045848)) l ++ skipn (length l) buf, s').
Proof.
  intros fs c tie l d l0 E func env buf fuel p x T N0 Fl Ld Fd Cap Hfu Hbuf Hrun. destruct ieee_lanes as [Hf Hs]. assert (P : In EF32 primitives) by (vm_compute; tauto).
  destruct (c99_fill fs c tie ieee_arith ieee_sqrt f_narrow EF32 EF32 EF32 [p] x (Arg 0) l d l0 l0 E func env buf fuel T P ltac:(left; reflexivity) Hf Hs) as (s' & R); try assumption.
  - intros u Hu. exact (proj1 (narrow_ok u Hu)).
  - discriminate.
  - constructor; [reflexivity|constructor].
  - reflexivity.
  - reflexivity.
  - exists s'. rewrite (map_ext _ _ high_latency_value) in R. exact R.
Qed.

Lemma c99_high_latency_portable : forall (fs : features) (c : config) (tie : bool) (l d : list Z) (l0 : packed_line) (E : Type) (func : E -> list Z -> list Z * E) (env : E) (buf : list Z) (fuel : nat),
  let p := Arith Mul (Arg 0) (Splat EF32 1067030938) in let x := Arith Mul (Sqrt (Arg 0)) (Splat EF64 4614256656552045848) in
  fs "undefined"%string = false -> portable_natural fs "f32s" = [l0] ->
  Forall (f_pattern fmt32) l -> zlen d = p_width l0 -> Forall (f_pattern fmt32) d -> zlen l * p_size l0 + 16 <= isize_max -> (length l < fuel)%nat -> zlen l <= zlen buf ->
  (forall e' v r, zlen v = p_width l0 -> Forall (f_pattern fmt32) v -> portable_mixed fs tie ieee_arith ieee_sqrt f_narrow c EF32 EF32 [p] x (Arg 0) [v] = Some (Ok r) -> fst (func e' v) = r) ->
  exists s', scalar_fill c (map_iterator c (slice_iterator c (vty_of l0)) (vty_of l0) 0 func) 0 fuel (mkSIMDMap (simd_iter l d) env) buf =
    Ok (map (fun a => f_narrow (f_mul fmt64 (f_sqrt fmt64 (f_widen (f_mul fmt32 a 1067030938))) 4614256656552045848)) l ++ skipn (length l) buf, s').
Proof.
  intros fs c tie l d l0 E func env buf fuel p x T N0 Fl Ld Fd Cap Hfu Hbuf Hrun. destruct ieee_lanes as [Hf Hs]. assert (P : In EF32 primitives) by (vm_compute; tauto).
  destruct (c99_fill_portable fs c tie ieee_arith ieee_sqrt f_narrow EF32 EF32 EF32 [p] x (Arg 0) l d l0 l0 E func env buf fuel T P ltac:(left; reflexivity) Hf Hs) as (s' & R); try assumption.
  - intros u Hu. exact (proj1 (narrow_ok u Hu)).
  - discriminate.
  - constructor; [reflexivity|constructor].
  - reflexivity.
  - reflexivity.
  - right. intros row _ _. reflexivity.
  - exists s'. rewrite (map_ext _ _ high_latency_value) in R. exact R.
Qed.
