(** Proofs of the properties: reductions on every target (C88). *)
From Coq Require Import String.
From Verif Require Import Base Spec VecSpec Vecs Iters Zip ZipSpec GateTables GateSpec Gates Lanes Floats FloatSpec OpTables Ops OpSpec PortTables Ports PortSpec SumTables Sums SumSpec Builds PipeSpec AvailSpec ExprSpec Exprs.
Open Scope list_scope.
Open Scope Z_scope.
From Coq Require Import Lia ZifyBool ZifyNat.
From Verif Require UnknownProofs.
From Verif Require Import ListFacts VecFacts IterFacts CollectFacts MapFacts StrideFacts ZipFacts ReduceFacts VecProofs OpProofs IterProofs CollectSpec CollectProofs LawSpec LawProofs LoopProofs SumProofs ZipProofs PipeProofs DocProofs KernProofs ExprProofs.
Ltac Zify.zify_post_hook ::= Z.div_mod_to_equations.

(** Monoids on the numbers of a type. *)

Section On.
Variable P : Z -> Prop.
Variable op : Z -> Z -> Z.
Variable i : Z.
Hypothesis P_op : forall x y, P x -> P y -> P (op x y).
Hypothesis P_i : P i.
Hypothesis assoc : forall x y z, P x -> P y -> P z -> op x (op y z) = op (op x y) z.
Hypothesis comm : forall x y, P x -> P y -> op x y = op y x.
Hypothesis unit : forall x, P x -> op i x = x.

Lemma on_fold : forall l x, Forall P l -> P x -> P (fold_left op l x).
Proof. induction l as [|y l IH]; intros x H Hx; [exact Hx|]. inversion H; subst. cbn [fold_left]. apply IH; [assumption|apply P_op; assumption]. Qed.

Lemma on_start : forall l x, Forall P l -> P x -> fold_left op l x = op x (fold_left op l i).
Proof.
  induction l as [|y l IH]; intros x H Hx; cbn [fold_left].
  - rewrite comm, unit by assumption. reflexivity.
  - inversion H as [|? ? Hy Hl]; subst. rewrite (IH (op x y)), (IH (op i y)), unit by (try apply P_op; assumption). symmetry. apply assoc; try assumption. apply on_fold; assumption.
Qed.

Lemma on_app : forall a b, Forall P a -> Forall P b -> fold_left op (a ++ b) i = op (fold_left op a i) (fold_left op b i).
Proof. intros a b Ha Hb. rewrite fold_left_app. apply on_start; [exact Hb|apply on_fold; assumption]. Qed.

Lemma on_map2 : forall a b, Forall P a -> Forall P b -> length a = length b -> Forall P (map2 op a b) /\ fold_left op (map2 op a b) i = op (fold_left op a i) (fold_left op b i).
Proof.
  induction a as [|x a IH]; intros [|y b] Ha Hb L; try discriminate L; cbn [map2 fold_left]; [split; [constructor|symmetry; apply unit; exact P_i]|].
  inversion Ha as [|? ? Hx Ha']; subst. inversion Hb as [|? ? Hy Hb']; subst. destruct (IH b Ha' Hb') as [I1 I2]; [cbn in L; lia|]. split; [constructor; [apply P_op; assumption|exact I1]|].
  rewrite !unit by (try apply P_op; assumption). rewrite (on_start (map2 op a b)), (on_start a), (on_start b), I2 by (try apply P_op; assumption). pose proof (on_fold a i Ha' P_i) as Pa. pose proof (on_fold b i Hb' P_i) as Pb. set (u := fold_left op a i) in *. set (v := fold_left op b i) in *.
  rewrite <- !assoc by (try apply P_op; assumption). f_equal. rewrite !assoc by (try apply P_op; assumption). f_equal. apply comm; assumption.
Qed.

Lemma on_units : forall n, fold_left op (repeat i n) i = i.
Proof. induction n as [|n IH]; [reflexivity|]. cbn [repeat fold_left]. rewrite unit by exact P_i. exact IH. Qed.

(** Vectors [g v] folded into an accumulator, with any state beside it. *)
Lemma on_vectors : forall (E : Type) (w : nat) (g : list Z -> list Z) (step : list Z * E -> list Z -> list Z * E) vs acc e,
  length acc = w -> Forall P acc -> Forall (fun v => length (g v) = w /\ Forall P (g v)) vs ->
  (forall a e v, length a = w -> Forall P a -> In v vs -> fst (step (a, e) v) = map2 op a (g v)) ->
  let r := fst (fold_left step vs (acc, e)) in
  length r = w /\ Forall P r /\ fold_left op r i = op (fold_left op acc i) (fold_left op (concat (map g vs)) i).
Proof.
  intros E w g step. induction vs as [|v vs IH]; intros acc e La Pa Hv Hs; cbn [fold_left map concat].
  - split; [exact La|]. split; [exact Pa|]. cbn [fst fold_left]. pose proof (on_fold acc i Pa P_i). rewrite comm, unit by assumption. reflexivity.
  - inversion Hv as [|? ? [Lv Pv] Hv']; subst. pose proof (Hs acc e v eq_refl Pa (or_introl eq_refl)) as Es. destruct (step (acc, e) v) as [a2 e2]. cbn [fst] in Es. subst a2.
    destruct (on_map2 acc (g v) Pa Pv ltac:(congruence)) as [M1 M2]. destruct (IH (map2 op acc (g v)) e2) as (I1 & I2 & I3).
    + rewrite map2_length by congruence. reflexivity.
    + exact M1.
    + exact Hv'.
    + intros a e' u Ha Hp Hu. apply Hs; [exact Ha|exact Hp|right; exact Hu].
    + split; [exact I1|]. split; [exact I2|]. rewrite I3, M2. assert (Pc : Forall P (concat (map g vs))) by (clear -Hv'; induction Hv' as [|u us [_ Hu] _ IHu]; [constructor|cbn [map concat]; apply Forall_app; split; assumption]).
      rewrite on_app by assumption. symmetry. apply assoc; apply on_fold; assumption.
Qed.
End On.

Lemma meaning1 : forall (v r : list Z) (h : Z -> Z), length v = length r -> (forall k a, znth v k = Some a -> znth r k = Some (h a)) -> r = map h v.
Proof.
  induction v as [|a v IH]; intros [|y r] h L K; try discriminate L; [reflexivity|]. cbn [map]. f_equal; [specialize (K 0 a eq_refl); injection K as ->; reflexivity|]. apply IH; [cbn in L; lia|].
  intros k b Hb. pose proof (znth_Some_lt _ _ _ Hb) as Hk. specialize (K (k + 1) b). rewrite !znth_cons_shift in K by lia. replace (k + 1 - 1) with k in K by lia. apply K. exact Hb.
Qed.

Lemma meaning2 : forall (u v r : list Z) (h : Z -> Z -> Z), length u = length r -> length v = length r -> (forall k a b, znth u k = Some a -> znth v k = Some b -> znth r k = Some (h a b)) -> r = map2 h u v.
Proof.
  induction u as [|a u IH]; intros [|b v] [|y r] h L1 L2 K; try discriminate L1; try discriminate L2; [reflexivity|]. cbn [map2]. f_equal; [specialize (K 0 a b eq_refl eq_refl); injection K as ->; reflexivity|]. apply IH; [cbn in L1; lia|cbn in L2; lia|].
  intros k x z Hx Hz. pose proof (znth_Some_lt _ _ _ Hx) as Hk. specialize (K (k + 1) x z). rewrite !znth_cons_shift in K by lia. replace (k + 1 - 1) with k in K by lia. apply K; assumption.
Qed.

Lemma forall_firstn : forall (A : Type) (P : A -> Prop) n v, Forall P v -> Forall P (firstn n v).
Proof. intros A P. induction n as [|n IH]; intros v H; [constructor|]. destruct H; constructor; [assumption|apply IH; assumption]. Qed.

Lemma znth_some : forall (v : list Z) k, 0 <= k < zlen v -> exists a, znth v k = Some a.
Proof. intros v k H. destruct (znth v k) as [a|] eqn:E; [exists a; reflexivity|]. exfalso. revert k H E. induction v as [|x v IH]; intros k H E; [cbn in H; lia|]. destruct (Z.eq_dec k 0) as [->|N]; [discriminate E|]. rewrite znth_cons_shift in E by lia. apply (IH (k - 1)); [rewrite zlen_cons in H; lia|exact E]. Qed.

(** The vectors that a reduction passes to its closure, the last one filled up on the
    left with values that [h] sends to the unit. *)
Lemma fold_args : forall (Q P : Z -> Prop) (op : Z -> Z -> Z) (h : Z -> Z) (i d w : Z) (E : Type) (step : list Z * E -> list Z -> list Z * E) env (l : list Z) vs rest,
  (forall x y, P x -> P y -> P (op x y)) -> P i -> (forall x y z, P x -> P y -> P z -> op x (op y z) = op (op x y) z) -> (forall x y, P x -> P y -> op x y = op y x) -> (forall x, P x -> op i x = x) ->
  (forall x, Q x -> P (h x)) -> Q d -> h d = i -> Forall Q l -> 0 < w -> Forall (fun v => zlen v = w) vs -> concat vs ++ rest = l -> zlen rest < w ->
  let args := vs ++ match rest with [] => [] | _ :: _ => [right_aligned (splat w d) rest] end in
  (forall a e v, zlen a = w -> zlen v = w -> Forall P a -> Forall Q v -> fst (step (a, e) v) = map2 op a (map h v)) ->
  let r := fst (fold_left step args (splat w i, env)) in zlen r = w /\ Forall P r /\ fold_left op r i = fold_left op (map h l) i.
Proof.
  intros Q P op h i d w E step env l vs rest Pop Hi As Cm Un Hh Hd Hdi Hl Wpos Hc1 Hc2 Hr args Hs.
  set (dv := splat w d) in *. assert (Ldv : zlen dv = w) by (unfold dv, splat; rewrite zlen_repeat; lia).
  assert (Fdv : Forall Q dv) by (unfold dv, splat; apply Forall_forall; intros y Hy; apply repeat_spec in Hy; rewrite Hy; exact Hd).
  assert (Hl2 : Forall Q (concat vs ++ rest)) by (rewrite Hc2; exact Hl). apply Forall_app in Hl2. destruct Hl2 as [L1 L2].
  assert (Hargs : Forall (fun v => zlen v = w /\ Forall Q v) args).
  { unfold args. apply Forall_app. split.
    - clear -Hc1 L1. induction vs as [|v vs IH]; [constructor|]. cbn [concat] in L1. apply Forall_app in L1. destruct L1 as [A B]. pose proof (Forall_inv Hc1) as C. cbv beta in C. constructor; [split; [exact C|exact A]|apply IH; [exact (Forall_inv_tail Hc1)|exact B]].
    - destruct rest as [|y r]; constructor; [|constructor]. split; [rewrite right_aligned_len by lia; exact Ldv|]. unfold right_aligned. apply Forall_app. split; [|exact L2]. apply forall_firstn. exact Fdv. }
  assert (Li : zlen (splat w i) = w) by (unfold splat; rewrite zlen_repeat; lia). assert (Fi : Forall P (splat w i)) by (unfold splat; apply Forall_forall; intros y Hy; apply repeat_spec in Hy; rewrite Hy; exact Hi).
  assert (Fm : forall q, Forall Q q -> Forall P (map h q)) by (intros q Fq; apply Forall_map; eapply Forall_impl; [|exact Fq]; exact Hh).
  destruct (on_vectors P op i Pop Hi As Cm Un E (Z.to_nat w) (map h) step args (splat w i) env) as (O1 & O2 & O3).
  - unfold zlen in Li. lia.
  - exact Fi.
  - eapply Forall_impl; [|exact Hargs]. intros v [Lv Fv]. cbv beta. rewrite map_length. split; [unfold zlen in Lv; lia|apply Fm; exact Fv].
  - intros a e v La Fa Iv. rewrite Forall_forall in Hargs. destruct (Hargs v Iv) as [Lv Fv]. apply Hs; [unfold zlen; lia|exact Lv|exact Fa|exact Fv].
  - cbv zeta. split; [unfold zlen; lia|]. split; [exact O2|]. rewrite O3. unfold splat. rewrite (on_units P op i Hi Un).
    assert (Fl : Forall P (map h l)) by (apply Fm; exact Hl).
    assert (Ec : fold_left op (concat (map (map h) args)) i = fold_left op (map h l) i).
    { rewrite <- concat_map. unfold args. rewrite concat_app, map_app, <- Hc2, map_app.
      destruct rest as [|y r]; [reflexivity|]. cbn [concat]. rewrite app_nil_r. unfold right_aligned. rewrite map_app.
      assert (Eu : map h (firstn (length dv - length (y :: r)) dv) = repeat i (length (firstn (length dv - length (y :: r)) dv))).
      { unfold dv, splat. generalize (length (repeat d (Z.to_nat w)) - length (y :: r))%nat. intros n. clear -Hdi. generalize (Z.to_nat w). induction n as [|n IH]; intros [|m]; try reflexivity. cbn [repeat firstn map length]. rewrite Hdi, IH. reflexivity. }
      rewrite Eu. rewrite (on_app P op i Pop Hi As Cm Un (map h (concat vs))), (on_app P op i Pop Hi As Cm Un (repeat i _)), (on_app P op i Pop Hi As Cm Un (map h (concat vs))); try (apply Fm; assumption).
      - f_equal. rewrite (on_units P op i Hi Un). apply Un. apply (on_fold P op Pop); [apply Fm; exact L2|exact Hi].
      - apply Forall_forall. intros z Hz. apply repeat_spec in Hz. rewrite Hz. exact Hi.
      - apply Forall_app. split; [apply Forall_forall; intros z Hz; apply repeat_spec in Hz; rewrite Hz; exact Hi|apply Fm; exact L2]. }
    rewrite Ec. apply Un. apply (on_fold P op Pop); [exact Fl|exact Hi].
Qed.

Lemma splat_lanes : forall (P : Z -> Prop) w x, 0 < w -> P x -> zlen (splat w x) = w /\ Forall P (splat w x) /\ exists n, splat w x = x :: repeat x n.
Proof.
  intros P w x Hw Hx. unfold splat. split; [rewrite zlen_repeat; lia|]. split; [apply Forall_forall; intros y Hy; apply repeat_spec in Hy; subst; exact Hx|]. destruct (Z.to_nat w) as [|n] eqn:En; [lia|]. exists n. reflexivity.
Qed.

Lemma c88_reduce : forall (fs : features) (c : config) (tie : bool) (fop : arith -> elty -> Z -> Z -> Z) (fsqrt : elty -> Z -> Z) (narrow : Z -> Z) (e0 e1 : elty) (g x : expr) (l : list Z) (d i : Z) (l0 l1 : packed_line)
    (E : Type) (func : E -> list Z -> list Z * E) (env : E) (f : list Z -> list Z -> list Z) (fuel : nat),
  let op a b := meaning e1 2 fop fsqrt x [a; b] in let h a := meaning e0 1 fop fsqrt g [a] in
  target fs -> In e0 primitives ->
  (forall o e u v, e = EF32 \/ e = EF64 -> lane e u -> lane e v -> lane e (fop o e u v)) -> (forall e u, e = EF32 \/ e = EF64 -> lane e u -> lane e (fsqrt e u)) ->
  type_of e0 1 g = Some e1 -> type_of e1 2 x = Some e1 -> natural fs (el_name e0 ++ "s") = [l0] -> natural fs (el_name e1 ++ "s") = [l1] ->
  (forall u v w, lane e1 u -> lane e1 v -> lane e1 w -> op u (op v w) = op (op u v) w) -> (forall u v, lane e1 u -> lane e1 v -> op u v = op v u) -> (forall u, lane e1 u -> op i u = u) ->
  lane e1 i -> lane e0 d -> h d = i -> Forall (lane e0) l -> zlen l * p_size l0 <= isize_max -> (length l < fuel)%nat ->
  (forall e v, zlen v = p_width l0 -> Forall (lane e0) v -> run fs tie fop fsqrt narrow e0 1 g [v] = Some (Ok (fst (func e v)))) ->
  (forall a v, zlen a = p_width l1 -> zlen v = p_width l1 -> Forall (lane e1) a -> Forall (lane e1) v -> run fs tie fop fsqrt narrow e1 2 x [a; v] = Some (Ok (f a v))) ->
  exists acc s', simd_reduce (map_iterator c (slice_iterator c (vty_of l0)) (vty_of l1) 0 func) fuel (mkSIMDMap (simd_iter l (splat (p_width l0) d)) env) (splat (p_width l1) i) f = Ok (acc, s') /\
    scalar_reduce (p_width l1) acc i op = Ok (fold_left op (map h l) i).
Proof.
  intros fs c tie fop fsqrt narrow e0 e1 g x l d i l0 l1 E func env f fuel op h T H0 Hf Hsq Tg Tx N0 N1 As Cm Un Hi Hd Hdi Hl Cap Hfu Rg Rx.
  destruct (type_prim e0 1 H0 g e1 Tg) as [P1 B1]. destruct (natural_vty fs e0 l0 T H0 N0) as (V0 & W0 & S0 & C0). destruct (natural_vty fs e1 l1 T P1 N1) as (V1 & W1 & S1 & _).
  pose proof (vty_ok_facts _ V0) as (F1 & F2 & F3 & F4 & F5 & F6). pose proof (vty_ok_facts _ V1) as (G1 & G2 & G3 & G4 & G5 & G6). set (w := p_width l0) in *. assert (Ww : p_width l1 = w) by (change (WIDTH (vty_of l1) = WIDTH (vty_of l0)); rewrite W1, W0, B1; reflexivity). rewrite Ww in *.
  change (WIDTH (vty_of l0)) with w in *. change (WIDTH (vty_of l1)) with (p_width l1) in *. rewrite Ww in *.
  assert (Wpos : 0 < w) by (clear -F1; lia).
  (* the closures *)
  assert (Cg : forall e v, zlen v = w -> Forall (lane e0) v -> fst (func e v) = map h v /\ Forall (lane e1) (map h v)).
  { intros e v Lv Fv. destruct (c83_closure fs tie fop fsqrt narrow e0 e1 g [v] l0 l1 T H0 Hf Hsq Tg N0 N1 ltac:(discriminate)) as (r & Rr & Lr & Fr & M); [constructor; [split; assumption|constructor]|].
    cbn [length] in Rr, M. rewrite (Rg e v Lv Fv) in Rr. injection Rr as Rr. rewrite Rr. assert (Em : r = map h v).
    { apply meaning1; [rewrite Ww in Lr; unfold zlen in *; lia|]. intros k a Ha. apply M. constructor; [exact Ha|constructor]. }
    split; [exact Em|rewrite <- Em; exact Fr]. }
  assert (Cx : forall a v, zlen a = w -> zlen v = w -> Forall (lane e1) a -> Forall (lane e1) v -> f a v = map2 op a v /\ Forall (lane e1) (map2 op a v)).
  { intros a v La Lv Fa Fv. destruct (c83_closure fs tie fop fsqrt narrow e1 e1 x [a; v] l1 l1 T P1 Hf Hsq Tx N1 N1 ltac:(discriminate)) as (r & Rr & Lr & Fr & M); [rewrite Ww; repeat constructor; assumption|].
    cbn [length] in Rr, M. rewrite (Rx a v La Lv Fa Fv) in Rr. injection Rr as Rr. rewrite Rr. assert (Em : r = map2 op a v).
    { rewrite Ww in Lr. apply meaning2; [unfold zlen in *; lia|unfold zlen in *; lia|]. intros k p q Hp Hq. apply M. constructor; [exact Hp|constructor; [exact Hq|constructor]]. }
    split; [exact Em|rewrite <- Em; exact Fr]. }
  assert (Pop : forall u v, lane e1 u -> lane e1 v -> lane e1 (op u v)).
  { intros u v Hu Hv. destruct (splat_lanes _ w u Wpos Hu) as (Su1 & Su2 & n & Su3). destruct (splat_lanes _ w v Wpos Hv) as (Sv1 & Sv2 & m & Sv3). destruct (Cx _ _ Su1 Sv1 Su2 Sv2) as [_ F]. rewrite Su3, Sv3 in F. cbn [map2] in F. exact (Forall_inv F). }
  assert (Ph : forall u, lane e0 u -> lane e1 (h u)).
  { intros u Hu. destruct (splat_lanes _ w u Wpos Hu) as (Su1 & Su2 & n & Su3). destruct (Cg env _ Su1 Su2) as [_ F]. rewrite Su3 in F. cbn [map] in F. exact (Forall_inv F). }
  (* the traversal *)
  set (dv := splat w d). assert (Ldv : zlen dv = w) by (unfold dv, splat; rewrite zlen_repeat; clear -Wpos; lia). pose proof (zlen_nonneg l).
  destruct (c01_traversal Z c (vty_of l0) l dv 0 fuel V0 Cap Ldv (conj (Z.le_refl 0) (zlen_nonneg l)) (or_introl eq_refl) Hfu) as (vs0 & rest0 & Dr & _ & Lr0 & _). change (WIDTH (vty_of l0)) with w in *.
  set (step := fun (a : list Z * E) v => (f (fst a) (fst (func (snd a) v)), snd (func (snd a) v))).
  destruct (c06_reduce Z (list Z * E) c (vty_of l0) l dv 0 (splat w i, env) step fuel V0 Cap Ldv (conj (Z.le_refl 0) (zlen_nonneg l)) (or_introl eq_refl) Hfu) as (vs & rest & [Hc1 Hc2] & Hr & _ & Hred & _). cbn [Z.to_nat skipn] in Hc2. change (WIDTH (vty_of l0)) with w in *.
  assert (Ms : forall p n, tail_of dv rest0 = Some (p, n) -> 0 <= n * SIZE (vty_of l0) < 2 ^ 64).
  { intros p n E1. unfold tail_of in E1. destruct rest0 as [|y ys]; [discriminate|]. injection E1 as <- <-. unfold unfilled. rewrite Ldv. pose proof (zlen_nonneg (y :: ys)) as Hyy. change (2 ^ 64) with 18446744073709551616. assert (H32 : w * SIZE (vty_of l0) <= 32) by exact C0. split; [apply Z.mul_nonneg_nonneg; clear -F1 F2 F3 F4 F5 F6 Lr0; lia|]. assert (Hle : (w - zlen (y :: ys)) * SIZE (vty_of l0) <= w * SIZE (vty_of l0)) by (apply Z.mul_le_mono_nonneg_r; clear -F1 F2 F3 Hyy; lia). clear -H32 Hle; lia. }
  destruct (c79_reduce_map (list Z) Z _ E (list Z) c (slice_iterator c (vty_of l0)) (vty_of l1) 0 func (simd_iter l dv) (mkSIMDIter (zlen l) l dv) env fuel vs0 (tail_of dv rest0) (splat w i) f) as [Q _]; [clear -F1 F2 G1 G2; lia|exact Dr|exact Ms|].
  cbv zeta in Q. fold step in Q. unfold simd_iter in *. rewrite Hred in Q. cbn [bind fst snd] in Q.
  eexists. eexists. split; [exact Q|].
  destruct (fold_args (lane e0) (lane e1) op h i d w E step env l vs rest Pop Hi As Cm Un Ph Hd Hdi Hl Wpos Hc1 Hc2 Hr) as (O1 & O2 & O3).
  - intros a e v La Lv Fa Fv. unfold step. cbn [fst snd]. destruct (Cg e v Lv Fv) as [C1 C2]. rewrite C1. apply Cx; [exact La|unfold zlen in *; rewrite map_length; exact Lv|exact Fa|exact C2].
  - change w with (WIDTH (vty_of l0)). rewrite c34_scalar_reduce by exact O1. f_equal. exact O3.
Qed.

Lemma fold_pair : forall (A V : Type) (f : A -> V -> A) vs a, fst (fold_left (fun (p : A * unit) v => (f (fst p) v, tt)) vs (a, tt)) = fold_left f vs a.
Proof. intros A V f. induction vs as [|v vs IH]; intros a; [reflexivity|]. cbn [fold_left]. apply IH. Qed.

Lemma c88_slice : forall (fs : features) (c : config) (tie : bool) (fop : arith -> elty -> Z -> Z -> Z) (fsqrt : elty -> Z -> Z) (narrow : Z -> Z) (e0 : elty) (x : expr) (l : list Z) (i : Z) (l0 : packed_line) (f : list Z -> list Z -> list Z) (fuel : nat),
  let op a b := meaning e0 2 fop fsqrt x [a; b] in let start := splat (p_width l0) i in
  target fs -> In e0 primitives ->
  (forall o e u v, e = EF32 \/ e = EF64 -> lane e u -> lane e v -> lane e (fop o e u v)) -> (forall e u, e = EF32 \/ e = EF64 -> lane e u -> lane e (fsqrt e u)) ->
  type_of e0 2 x = Some e0 -> natural fs (el_name e0 ++ "s") = [l0] ->
  (forall u v w, lane e0 u -> lane e0 v -> lane e0 w -> op u (op v w) = op (op u v) w) -> (forall u v, lane e0 u -> lane e0 v -> op u v = op v u) -> (forall u, lane e0 u -> op i u = u) ->
  lane e0 i -> Forall (lane e0) l -> zlen l * p_size l0 <= isize_max -> (length l < fuel)%nat ->
  (forall a v, zlen a = p_width l0 -> zlen v = p_width l0 -> Forall (lane e0) a -> Forall (lane e0) v -> run fs tie fop fsqrt narrow e0 2 x [a; v] = Some (Ok (f a v))) ->
  exists acc s', simd_reduce (slice_iterator c (vty_of l0)) fuel (simd_iter l start) start f = Ok (acc, s') /\
    scalar_reduce (p_width l0) acc i op = Ok (fold_left op l i).
Proof.
  intros fs c tie fop fsqrt narrow e0 x l i l0 f fuel op start T H0 Hf Hsq Tx N0 As Cm Un Hi Hl Cap Hfu Rx.
  destruct (natural_vty fs e0 l0 T H0 N0) as (V0 & W0 & S0 & C0). pose proof (vty_ok_facts _ V0) as (F1 & F2 & F3 & F4 & F5 & F6). set (w := p_width l0) in *. change (WIDTH (vty_of l0)) with w in *. assert (Wpos : 0 < w) by lia.
  assert (Cx : forall a v, zlen a = w -> zlen v = w -> Forall (lane e0) a -> Forall (lane e0) v -> f a v = map2 op a v /\ Forall (lane e0) (map2 op a v)).
  { intros a v La Lv Fa Fv. destruct (c83_closure fs tie fop fsqrt narrow e0 e0 x [a; v] l0 l0 T H0 Hf Hsq Tx N0 N0 ltac:(discriminate)) as (r & Rr & Lr & Fr & M); [repeat constructor; assumption|].
    cbn [length] in Rr, M. rewrite (Rx a v La Lv Fa Fv) in Rr. injection Rr as Rr. rewrite Rr. fold w in Lr. assert (Em : r = map2 op a v).
    { apply meaning2; [unfold zlen in *; lia|unfold zlen in *; lia|]. intros k p q Hp Hq. apply M. constructor; [exact Hp|constructor; [exact Hq|constructor]]. }
    split; [exact Em|rewrite <- Em; exact Fr]. }
  assert (Pop : forall u v, lane e0 u -> lane e0 v -> lane e0 (op u v)).
  { intros u v Hu Hv. destruct (splat_lanes _ w u Wpos Hu) as (Su1 & Su2 & n & Su3). destruct (splat_lanes _ w v Wpos Hv) as (Sv1 & Sv2 & m & Sv3). destruct (Cx _ _ Su1 Sv1 Su2 Sv2) as [_ F]. rewrite Su3, Sv3 in F. cbn [map2] in F. exact (Forall_inv F). }
  pose proof (zlen_nonneg l). destruct (splat_lanes _ w i Wpos Hi) as (Ls & _ & _).
  destruct (c06_reduce Z (list Z) c (vty_of l0) l start 0 start f fuel V0 Cap Ls ltac:(lia) ltac:(lia) Hfu) as (vs & rest & [Hc1 Hc2] & Hr & _ & Hred & _). cbn [Z.to_nat skipn] in Hc2. change (WIDTH (vty_of l0)) with w in *.
  eexists. eexists. split; [exact Hred|]. rewrite <- fold_pair.
  destruct (fold_args (lane e0) (lane e0) op (fun u => u) i i w unit (fun p v => (f (fst p) v, tt)) tt l vs rest Pop Hi As Cm Un (fun u Hu => Hu) Hi eq_refl Hl Wpos Hc1 Hc2 Hr) as (O1 & O2 & O3).
  - intros a e v La Lv Fa Fv. cbn [fst]. rewrite map_id. apply Cx; assumption.
  - change w with (WIDTH (vty_of l0)). rewrite map_id in O3. rewrite c34_scalar_reduce by exact O1. f_equal. exact O3.
Qed.

Lemma method_int : forall t e, In (EInt t) primitives -> In e [EInt t] -> (0 < ibytes t)%nat /\ imin t <= 0 <= imax t.
Proof. intros t e H _. unfold primitives in H. cbn [In] in H. repeat (destruct H as [H|H]; [first [discriminate H | injection H as <-; split; [cbn; lia|cbv; split; discriminate]]|]). contradiction. Qed.

Lemma fold_min : forall l i, (fold_left Z.min l i = i \/ In (fold_left Z.min l i) l) /\ fold_left Z.min l i <= i /\ Forall (Z.le (fold_left Z.min l i)) l.
Proof.
  induction l as [|y l IH]; intros i; cbn [fold_left]; [split; [left; reflexivity|split; [lia|constructor]]|]. destruct (IH (Z.min i y)) as (A & B & C). split.
  - destruct A as [A|A]; [|right; right; exact A]. rewrite A. destruct (Z.min_spec i y) as [[_ ->]|[_ ->]]; [left; reflexivity|right; left; reflexivity].
  - split; [lia|]. constructor; [lia|exact C].
Qed.

Lemma fold_max : forall l i, (fold_left Z.max l i = i \/ In (fold_left Z.max l i) l) /\ i <= fold_left Z.max l i /\ Forall (fun y => y <= fold_left Z.max l i) l.
Proof.
  induction l as [|y l IH]; intros i; cbn [fold_left]; [split; [left; reflexivity|split; [lia|constructor]]|]. destruct (IH (Z.max i y)) as (A & B & C). split.
  - destruct A as [A|A]; [|right; right; exact A]. rewrite A. destruct (Z.max_spec i y) as [[_ ->]|[_ ->]]; [right; left; reflexivity|left; reflexivity].
  - split; [lia|]. constructor; [lia|exact C].
Qed.

Lemma run_call : forall fs tie fop fop' fsqrt fsqrt' narrow e m args, run fs tie fop fsqrt narrow e 2 (Call m (Arg 0) (Arg 1)) args = run fs tie fop' fsqrt' narrow e 2 (Call m (Arg 0) (Arg 1)) args.
Proof. intros. cbn [run]. reflexivity. Qed.

Lemma run_mul : forall fs tie fop fop' fsqrt fsqrt' narrow t args, run fs tie fop fsqrt narrow (EInt t) 2 (Arith Mul (Arg 0) (Arg 1)) args = run fs tie fop' fsqrt' narrow (EInt t) 2 (Arith Mul (Arg 0) (Arg 1)) args.
Proof. intros. cbn [run type_of Nat.ltb Nat.leb]. reflexivity. Qed.

Lemma c88_minimum : forall (fs : features) (c : config) (tie : bool) (fop : arith -> elty -> Z -> Z -> Z) (fsqrt : elty -> Z -> Z) (narrow : Z -> Z) (t : ity) (l : list Z) (l0 : packed_line) (f : list Z -> list Z -> list Z) (fuel : nat),
  let start := splat (p_width l0) (imax t) in
  target fs -> In (EInt t) primitives -> (ibytes t <= 4)%nat -> natural fs (el_name (EInt t) ++ "s") = [l0] -> Forall (in_ity t) l -> zlen l * p_size l0 <= isize_max -> (length l < fuel)%nat ->
  (forall a v, zlen a = p_width l0 -> zlen v = p_width l0 -> Forall (in_ity t) a -> Forall (in_ity t) v -> run fs tie fop fsqrt narrow (EInt t) 2 (Call Min (Arg 0) (Arg 1)) [a; v] = Some (Ok (f a v))) ->
  exists acc s' r, simd_reduce (slice_iterator c (vty_of l0)) fuel (simd_iter l start) start f = Ok (acc, s') /\ scalar_reduce (p_width l0) acc (imax t) Z.min = Ok r /\
    (l = [] -> r = imax t) /\ (l <> [] -> In r l) /\ Forall (Z.le r) l.
Proof.
  intros fs c tie fop fsqrt narrow t l l0 f fuel start T H0 Hb N0 Hl Cap Hfu Rx. destruct (method_int t (EInt t) H0 (or_introl eq_refl)) as [B0 B1].
  assert (Rx' : forall a v, zlen a = p_width l0 -> zlen v = p_width l0 -> Forall (lane (EInt t)) a -> Forall (lane (EInt t)) v -> run fs tie (fun _ _ u _ => u) (fun _ u => u) narrow (EInt t) 2 (Call Min (Arg 0) (Arg 1)) [a; v] = Some (Ok (f a v))) by (intros a v La Lv Fa Fv; rewrite (run_call fs tie _ fop _ fsqrt); apply Rx; assumption). clear Rx.
  destruct (c88_slice fs c tie (fun _ _ u _ => u) (fun _ u => u) narrow (EInt t) (Call Min (Arg 0) (Arg 1)) l (imax t) l0 f fuel) as (acc & s' & R1 & R2); try assumption; cbn [meaning nth lane] in *.
  - intros; assumption.
  - intros; assumption.
  - clear -H0 Hb. unfold primitives in H0. cbn [In] in H0. repeat (destruct H0 as [H|H0]; [first [discriminate H | injection H as <-; try (cbn in Hb; lia); reflexivity]|]). contradiction.
  - intros; apply Z.min_assoc.
  - intros; apply Z.min_comm.
  - unfold in_ity. intros u Hu. lia.
  - unfold in_ity. lia.
  - exists acc, s', (fold_left Z.min l (imax t)). split; [exact R1|]. split; [exact R2|]. destruct (fold_min l (imax t)) as (A & B & C). split; [intros ->; reflexivity|]. split; [|exact C]. intros Hne. destruct A as [A|A]; [|exact A].
    destruct l as [|y ys]; [congruence|]. rewrite A in C |- *. left. pose proof (Forall_inv C) as C1. pose proof (Forall_inv Hl) as C2. unfold in_ity in C2. lia.
Qed.

Lemma c88_maximum : forall (fs : features) (c : config) (tie : bool) (fop : arith -> elty -> Z -> Z -> Z) (fsqrt : elty -> Z -> Z) (narrow : Z -> Z) (t : ity) (l : list Z) (l0 : packed_line) (f : list Z -> list Z -> list Z) (fuel : nat),
  let start := splat (p_width l0) (imin t) in
  target fs -> In (EInt t) primitives -> (ibytes t <= 4)%nat -> natural fs (el_name (EInt t) ++ "s") = [l0] -> Forall (in_ity t) l -> zlen l * p_size l0 <= isize_max -> (length l < fuel)%nat ->
  (forall a v, zlen a = p_width l0 -> zlen v = p_width l0 -> Forall (in_ity t) a -> Forall (in_ity t) v -> run fs tie fop fsqrt narrow (EInt t) 2 (Call Max (Arg 0) (Arg 1)) [a; v] = Some (Ok (f a v))) ->
  exists acc s' r, simd_reduce (slice_iterator c (vty_of l0)) fuel (simd_iter l start) start f = Ok (acc, s') /\ scalar_reduce (p_width l0) acc (imin t) Z.max = Ok r /\
    (l = [] -> r = imin t) /\ (l <> [] -> In r l) /\ Forall (fun y => y <= r) l.
Proof.
  intros fs c tie fop fsqrt narrow t l l0 f fuel start T H0 Hb N0 Hl Cap Hfu Rx. destruct (method_int t (EInt t) H0 (or_introl eq_refl)) as [B0 B1].
  assert (Rx' : forall a v, zlen a = p_width l0 -> zlen v = p_width l0 -> Forall (lane (EInt t)) a -> Forall (lane (EInt t)) v -> run fs tie (fun _ _ u _ => u) (fun _ u => u) narrow (EInt t) 2 (Call Max (Arg 0) (Arg 1)) [a; v] = Some (Ok (f a v))) by (intros a v La Lv Fa Fv; rewrite (run_call fs tie _ fop _ fsqrt); apply Rx; assumption). clear Rx.
  destruct (c88_slice fs c tie (fun _ _ u _ => u) (fun _ u => u) narrow (EInt t) (Call Max (Arg 0) (Arg 1)) l (imin t) l0 f fuel) as (acc & s' & R1 & R2); try assumption; cbn [meaning nth lane] in *.
  - intros; assumption.
  - intros; assumption.
  - clear -H0 Hb. unfold primitives in H0. cbn [In] in H0. repeat (destruct H0 as [H|H0]; [first [discriminate H | injection H as <-; try (cbn in Hb; lia); reflexivity]|]). contradiction.
  - intros; apply Z.max_assoc.
  - intros; apply Z.max_comm.
  - unfold in_ity. intros u Hu. lia.
  - unfold in_ity. lia.
  - exists acc, s', (fold_left Z.max l (imin t)). split; [exact R1|]. split; [exact R2|]. destruct (fold_max l (imin t)) as (A & B & C). split; [intros ->; reflexivity|]. split; [|exact C]. intros Hne. destruct A as [A|A]; [|exact A].
    destruct l as [|y ys]; [congruence|]. rewrite A in C |- *. left. pose proof (Forall_inv C) as C1. cbv beta in C1. pose proof (Forall_inv Hl) as C2. unfold in_ity in C2. lia.
Qed.

Lemma total_cons : forall x l, total (x :: l) = x + total l.
Proof. intros x l. change (x :: l) with ([x] ++ l). rewrite total_app. unfold total at 1. cbn. lia. Qed.

Lemma fold_saturating : forall m l i, 0 <= i <= m -> Forall (fun y => 0 <= y <= m) l -> fold_left (fun a b => Z.max 0 (Z.min m (a + b))) l i = Z.min m (i + total l).
Proof.
  intros m. assert (Tn : forall l, Forall (fun y => 0 <= y <= m) l -> 0 <= total l) by (induction l as [|y l IH]; intros H; [cbn; lia|]; rewrite total_cons; pose proof (Forall_inv H); specialize (IH (Forall_inv_tail H)); cbv beta in *; lia).
  induction l as [|y l IH]; intros i Hi H; cbn [fold_left]; [cbn; lia|]. pose proof (Forall_inv H) as Hy. cbv beta in Hy. pose proof (Tn l (Forall_inv_tail H)). rewrite IH by (try lia; exact (Forall_inv_tail H)). rewrite total_cons. lia.
Qed.

Lemma c88_saturating : forall (fs : features) (c : config) (tie : bool) (fop : arith -> elty -> Z -> Z -> Z) (fsqrt : elty -> Z -> Z) (narrow : Z -> Z) (t : ity) (l : list Z) (l0 : packed_line) (f : list Z -> list Z -> list Z) (fuel : nat),
  let start := splat (p_width l0) 0 in
  target fs -> In t [u8; u16] -> natural fs (el_name (EInt t) ++ "s") = [l0] -> Forall (in_ity t) l -> zlen l * p_size l0 <= isize_max -> (length l < fuel)%nat ->
  (forall a v, zlen a = p_width l0 -> zlen v = p_width l0 -> Forall (in_ity t) a -> Forall (in_ity t) v -> run fs tie fop fsqrt narrow (EInt t) 2 (Call SaturatingAdd (Arg 0) (Arg 1)) [a; v] = Some (Ok (f a v))) ->
  exists acc s', simd_reduce (slice_iterator c (vty_of l0)) fuel (simd_iter l start) start f = Ok (acc, s') /\
    scalar_reduce (p_width l0) acc 0 (fun a b => clamp t (a + b)) = Ok (Z.min (imax t) (total l)).
Proof.
  intros fs c tie fop fsqrt narrow t l l0 f fuel start T H0 N0 Hl Cap Hfu Rx. assert (Hm : imin t = 0 /\ 0 <= imax t /\ In (EInt t) primitives) by (clear -H0; destruct H0 as [<-|[<-|[]]]; (split; [reflexivity|split; [cbv; discriminate|cbn; tauto]])). destruct Hm as (M0 & M1 & M2).
  assert (Rx' : forall a v, zlen a = p_width l0 -> zlen v = p_width l0 -> Forall (lane (EInt t)) a -> Forall (lane (EInt t)) v -> run fs tie (fun _ _ u _ => u) (fun _ u => u) narrow (EInt t) 2 (Call SaturatingAdd (Arg 0) (Arg 1)) [a; v] = Some (Ok (f a v))) by (intros a v La Lv Fa Fv; rewrite (run_call fs tie _ fop _ fsqrt); apply Rx; assumption). clear Rx.
  destruct (c88_slice fs c tie (fun _ _ u _ => u) (fun _ u => u) narrow (EInt t) (Call SaturatingAdd (Arg 0) (Arg 1)) l 0 l0 f fuel) as (acc & s' & R1 & R2); try assumption.
  - intros; assumption.
  - intros; assumption.
  - clear -H0. destruct H0 as [<-|[<-|[]]]; reflexivity.
  - intros u v w. cbn [meaning nth lane type_of Nat.ltb Nat.leb]. unfold in_ity. rewrite M0. lia.
  - intros u v. cbn [meaning nth lane type_of Nat.ltb Nat.leb]. unfold in_ity. rewrite M0. lia.
  - intros u. cbn [meaning nth lane type_of Nat.ltb Nat.leb]. unfold in_ity. rewrite M0. lia.
  - cbn [lane]. unfold in_ity. lia.
  - exists acc, s'. split; [exact R1|]. cbn [meaning nth type_of Nat.ltb Nat.leb] in R2. unfold clamp. rewrite R2. f_equal. rewrite M0. rewrite fold_saturating; [f_equal|lia|]. eapply Forall_impl; [|exact Hl]. unfold in_ity. intros y Hy. lia.
Qed.

Lemma wrap_mul : forall t x y, wrap t (wrap t x * y) = wrap t (x * y) /\ wrap t (x * wrap t y) = wrap t (x * y).
Proof.
  intros t x y. assert (K : forall z, exists q, wrap t z = z + imod t * q) by (intros z; exists (- ((z - imin t) / imod t)); unfold wrap; rewrite Z.mod_eq by (unfold imod; pose proof (Z.pow_pos_nonneg 2 (8 * Z.of_nat (ibytes t)) ltac:(lia) ltac:(lia)); lia); lia).
  assert (W : forall z q, wrap t (z + imod t * q) = wrap t z) by (intros z q; unfold wrap; replace (z + imod t * q - imin t) with (z - imin t + q * imod t) by lia; rewrite Z_mod_plus_full; reflexivity).
  destruct (K x) as [q ->]. destruct (K y) as [p ->]. split; [replace ((x + imod t * q) * y) with (x * y + imod t * (q * y)) by lia|replace (x * (y + imod t * p)) with (x * y + imod t * (x * p)) by lia]; apply W.
Qed.

Lemma fold_product : forall t l i, in_ity t i -> (0 < ibytes t)%nat -> fold_left (fun a b => wrap t (a * b)) l i = wrap t (i * fold_left Z.mul l 1).
Proof.
  intros t. assert (P : forall l i, fold_left Z.mul l i = i * fold_left Z.mul l 1) by (induction l as [|y l IH]; intros i; cbn [fold_left]; [lia|]; rewrite IH, (IH (1 * y)); lia).
  induction l as [|y l IH]; intros i Hi Hb; cbn [fold_left]; [rewrite Z.mul_1_r; symmetry; apply wrap_id; assumption|]. rewrite IH by (try (apply wrap_in; assumption); assumption). rewrite (proj1 (wrap_mul t _ _)), (P l (1 * y)). f_equal. lia.
Qed.

Lemma c88_product : forall (fs : features) (c : config) (tie : bool) (fop : arith -> elty -> Z -> Z -> Z) (fsqrt : elty -> Z -> Z) (narrow : Z -> Z) (t : ity) (l : list Z) (l0 : packed_line) (f : list Z -> list Z -> list Z) (fuel : nat),
  let start := splat (p_width l0) 1 in
  target fs -> In (EInt t) primitives -> natural fs (el_name (EInt t) ++ "s") = [l0] -> Forall (in_ity t) l -> zlen l * p_size l0 <= isize_max -> (length l < fuel)%nat ->
  (forall a v, zlen a = p_width l0 -> zlen v = p_width l0 -> Forall (in_ity t) a -> Forall (in_ity t) v -> run fs tie fop fsqrt narrow (EInt t) 2 (Arith Mul (Arg 0) (Arg 1)) [a; v] = Some (Ok (f a v))) ->
  exists acc s', simd_reduce (slice_iterator c (vty_of l0)) fuel (simd_iter l start) start f = Ok (acc, s') /\
    scalar_reduce (p_width l0) acc 1 (fun a b => wrap t (a * b)) = Ok (wrap t (fold_left Z.mul l 1)).
Proof.
  intros fs c tie fop fsqrt narrow t l l0 f fuel start T H0 N0 Hl Cap Hfu Rx. destruct (method_int t (EInt t) H0 (or_introl eq_refl)) as [B0 B1].
  assert (H1 : in_ity t 1) by (clear -H0; unfold primitives in H0; cbn [In] in H0; repeat (destruct H0 as [H|H0]; [first [discriminate H | injection H as <-; cbv; split; discriminate]|]); contradiction).
  assert (Rx' : forall a v, zlen a = p_width l0 -> zlen v = p_width l0 -> Forall (lane (EInt t)) a -> Forall (lane (EInt t)) v -> run fs tie (fun _ _ u _ => u) (fun _ u => u) narrow (EInt t) 2 (Arith Mul (Arg 0) (Arg 1)) [a; v] = Some (Ok (f a v))) by (intros a v La Lv Fa Fv; rewrite (run_mul fs tie _ fop _ fsqrt); apply Rx; assumption). clear Rx.
  destruct (c88_slice fs c tie (fun _ _ u _ => u) (fun _ u => u) narrow (EInt t) (Arith Mul (Arg 0) (Arg 1)) l 1 l0 f fuel) as (acc & s' & R1 & R2); try assumption.
  - intros; assumption.
  - intros; assumption.
  - clear -H0. unfold primitives in H0. cbn [In] in H0. repeat (destruct H0 as [H|H0]; [first [discriminate H | injection H as <-; reflexivity]|]). contradiction.
  - intros u v w _ _ _. cbn [meaning nth type_of Nat.ltb Nat.leb exact]. rewrite (proj2 (wrap_mul t _ _)), (proj1 (wrap_mul t _ _)). f_equal. lia.
  - intros u v _ _. cbn [meaning nth type_of Nat.ltb Nat.leb exact]. f_equal. lia.
  - intros u Hu. cbn [meaning nth type_of Nat.ltb Nat.leb exact]. rewrite Z.mul_1_l. apply wrap_id; assumption.
  - exists acc, s'. split; [exact R1|]. cbn [meaning nth type_of Nat.ltb Nat.leb exact] in R2. rewrite R2. f_equal. rewrite fold_product by assumption. f_equal. lia.
Qed.

Lemma bits_in : forall t o x y, (0 < ibytes t)%nat -> In o [And; Or; Xor] -> in_ity t x -> in_ity t y -> in_ity t (ExprSpec.exact o x y).
Proof.
  intros t o x y Ht Ho Hx Hy. apply UnknownProofs.testbit_ext_sign; [exact Ht|]. apply UnknownProofs.testbit_ext_sign in Hx; [|exact Ht]. apply UnknownProofs.testbit_ext_sign in Hy; [|exact Ht].
  destruct Ho as [<- | [<- | [<- | []]]]; cbn [ExprSpec.exact]; destruct (isigned t); rewrite ?Z.shiftr_land, ?Z.shiftr_lor, ?Z.shiftr_lxor.
  all: try (rewrite Hx, Hy; reflexivity). all: destruct Hx as [-> | ->], Hy as [-> | ->]; cbn; tauto.
Qed.

Lemma ones_in : forall t x, (0 < ibytes t)%nat -> in_ity t x -> in_ity t (wrap t (-1)) /\ Z.land (wrap t (-1)) x = x.
Proof.
  intros t x Ht Hx. split; [apply wrap_in; exact Ht|]. pose proof (imod_pos t) as P. unfold wrap, in_ity, imin, imax, imod in *. set (n := 8 * Z.of_nat (ibytes t)) in *.
  assert (Q : 2 ^ n = 2 * 2 ^ (n - 1)) by (rewrite <- Z.pow_succ_r by lia; f_equal; lia). assert (0 < 2 ^ (n - 1)) by (apply Z.pow_pos_nonneg; lia). destruct (isigned t).
  - rewrite Z.mod_small by (rewrite Q in *; rewrite (Z.mul_comm 2), Z.div_mul in * by lia; lia). replace (-1 - - (2 ^ n / 2) + - (2 ^ n / 2)) with (-1) by lia. apply Z.land_m1_l.
  - match goal with |- Z.land ?a x = x => replace a with (Z.ones n) end.
    + rewrite Z.land_comm, Z.land_ones by lia. apply Z.mod_small. lia.
    + rewrite Z.ones_equiv. symmetry. replace (-1 - 0) with (Z.pred (2 ^ n) + (-1) * 2 ^ n) by lia. rewrite Z.mod_add by lia. rewrite Z.mod_small by lia. reflexivity || lia.
Qed.

Lemma fold_bits : forall t o l i, (0 < ibytes t)%nat -> In o [And; Or; Xor] -> in_ity t i -> Forall (in_ity t) l -> fold_left (fun a b => wrap t (ExprSpec.exact o a b)) l i = fold_left (ExprSpec.exact o) l i.
Proof.
  intros t o l. induction l as [|y l IH]; intros i Ht Ho Hi Hl; [reflexivity|]. inversion Hl; subst. cbn [fold_left]. rewrite wrap_id by (try assumption; apply bits_in; assumption). apply IH; try assumption. apply bits_in; assumption.
Qed.

Lemma c88_bitwise : forall (fs : features) (c : config) (tie : bool) (fop : arith -> elty -> Z -> Z -> Z) (fsqrt : elty -> Z -> Z) (narrow : Z -> Z) (t : ity) (o : arith) (i : Z) (l : list Z) (l0 : packed_line) (f : list Z -> list Z -> list Z) (fuel : nat),
  let start := splat (p_width l0) i in
  target fs -> In (EInt t) primitives -> In (o, i) [(And, wrap t (-1)); (Or, 0); (Xor, 0)] -> natural fs (el_name (EInt t) ++ "s") = [l0] -> Forall (in_ity t) l -> zlen l * p_size l0 <= isize_max -> (length l < fuel)%nat ->
  (forall a v, zlen a = p_width l0 -> zlen v = p_width l0 -> Forall (in_ity t) a -> Forall (in_ity t) v -> run fs tie fop fsqrt narrow (EInt t) 2 (Arith o (Arg 0) (Arg 1)) [a; v] = Some (Ok (f a v))) ->
  exists acc s', simd_reduce (slice_iterator c (vty_of l0)) fuel (simd_iter l start) start f = Ok (acc, s') /\
    scalar_reduce (p_width l0) acc i (fun a b => wrap t (ExprSpec.exact o a b)) = Ok (fold_left (ExprSpec.exact o) l i).
Proof.
  intros fs c tie fop fsqrt narrow t o i l l0 f fuel start T H0 Hoi N0 Hl Cap Hfu Rx. destruct (method_int t (EInt t) H0 (or_introl eq_refl)) as [B0 B1].
  assert (Bt : (0 < ibytes t)%nat) by (clear -H0; unfold primitives in H0; cbn [In] in H0; repeat (destruct H0 as [H|H0]; [first [discriminate H | injection H as <-; cbn; apply Nat.lt_0_succ]|]); contradiction).
  assert (Z0 : in_ity t 0) by (unfold in_ity; lia).
  assert (Ho : In o [And; Or; Xor] /\ in_ity t i /\ (forall u, in_ity t u -> ExprSpec.exact o i u = u)).
  { cbn [In] in Hoi. destruct Hoi as [E|[E|[E|[]]]]; injection E as <- <-; cbn [ExprSpec.exact In]; (split; [tauto|]).
    - split; [apply (ones_in t 0 Bt Z0)|]. intros u Hu. apply (ones_in t u Bt Hu).
    - split; [exact Z0|]. intros u _. apply Z.lor_0_l.
    - split; [exact Z0|]. intros u _. apply Z.lxor_0_l. }
  destruct Ho as (Ho & Hi & Hu). assert (Wi : forall u v, in_ity t u -> in_ity t v -> wrap t (ExprSpec.exact o u v) = ExprSpec.exact o u v) by (intros u v Gu Gv; apply wrap_id; try assumption; apply bits_in; assumption).
  assert (Rx' : forall a v, zlen a = p_width l0 -> zlen v = p_width l0 -> Forall (lane (EInt t)) a -> Forall (lane (EInt t)) v -> run fs tie (fun _ _ u _ => u) (fun _ u => u) narrow (EInt t) 2 (Arith o (Arg 0) (Arg 1)) [a; v] = Some (Ok (f a v))).
  { intros a v La Lv Fa Fv. rewrite <- (Rx a v La Lv Fa Fv). cbn [run type_of Nat.ltb Nat.leb]. reflexivity. } clear Rx.
  destruct (c88_slice fs c tie (fun _ _ u _ => u) (fun _ u => u) narrow (EInt t) (Arith o (Arg 0) (Arg 1)) l i l0 f fuel) as (acc & s' & R1 & R2); try assumption.
  - intros; assumption.
  - intros; assumption.
  - clear -H0. unfold primitives in H0. cbn [In] in H0. repeat (destruct H0 as [H|H0]; [first [discriminate H | injection H as <-; destruct o; reflexivity]|]). contradiction.
  - intros u v w Gu Gv Gw. cbn [meaning nth type_of Nat.ltb Nat.leb]. cbn [lane] in Gu, Gv, Gw. rewrite (Wi v w), (Wi u v) by assumption. rewrite !Wi by (try assumption; apply bits_in; assumption). destruct Ho as [<- | [<- | [<- | []]]]; cbn [ExprSpec.exact]; [apply Z.land_assoc|apply Z.lor_assoc|symmetry; apply Z.lxor_assoc].
  - intros u v _ _. cbn [meaning nth type_of Nat.ltb Nat.leb]. f_equal. destruct Ho as [<- | [<- | [<- | []]]]; cbn [ExprSpec.exact]; [apply Z.land_comm|apply Z.lor_comm|apply Z.lxor_comm].
  - intros u Gu. cbn [meaning nth type_of Nat.ltb Nat.leb]. rewrite Wi by assumption. apply Hu. exact Gu.
  - exists acc, s'. split; [exact R1|]. cbn [meaning nth type_of Nat.ltb Nat.leb] in R2. rewrite R2. f_equal. apply fold_bits; assumption.
Qed.

Lemma fold_some : forall (P : Z -> Prop) op i, P i -> (forall x, P x -> op i x = x) -> forall l, (forall k x, znth l k = Some x -> x = i) -> fold_left op l i = i.
Proof.
  intros P op i Hi Un. induction l as [|y l IH]; intros H; [reflexivity|]. cbn [fold_left]. rewrite (H 0 y eq_refl), Un by exact Hi. apply IH. intros k x Hx. pose proof (znth_Some_lt _ _ _ Hx) as Hk. apply (H (k + 1)). rewrite znth_cons_shift by lia. replace (k + 1 - 1) with k by lia. exact Hx.
Qed.

Lemma forall_znth : forall (P : Z -> Prop) l, (forall k, 0 <= k < zlen l -> exists x, znth l k = Some x /\ P x) -> Forall P l.
Proof.
  intros P. induction l as [|y l IH]; intros H; [constructor|]. rewrite zlen_cons in H. pose proof (zlen_nonneg l). constructor; [destruct (H 0 ltac:(lia)) as (x & [= <-] & Px); exact Px|]. apply IH. intros k Hk. destruct (H (k + 1) ltac:(lia)) as (x & Hx & Px). rewrite znth_cons_shift in Hx by lia. replace (k + 1 - 1) with k in Hx by lia. exists x. split; assumption.
Qed.

Lemma column_of : forall (ls : list (list Z)) (P : Z -> Prop) N k, Forall (fun l => zlen l = N /\ Forall P l) ls -> 0 <= k < N -> exists r, column ls k r /\ Forall P r.
Proof.
  intros ls P N k H Hk. induction H as [|l ls [Hl HP] _ (r & IH1 & IH2)]; [exists []; split; constructor|]. destruct (znth_some l k ltac:(lia)) as [a Ha]. exists (a :: r). split; [constructor; assumption|]. constructor; [|exact IH2].
  rewrite Forall_forall in HP. apply HP. unfold znth in Ha. destruct (k <? 0); [discriminate|]. eapply nth_error_In; exact Ha.
Qed.

Lemma column_splats : forall (r : list Z) w, 0 < w -> column (map (splat w) r) 0 r.
Proof. intros r w Hw. induction r as [|a r IH]; [constructor|]. cbn [map]. constructor; [apply znth_splat; lia|exact IH]. Qed.

Lemma c88_zip : forall (fs : features) (c : config) (tie : bool) (fop : arith -> elty -> Z -> Z -> Z) (fsqrt : elty -> Z -> Z) (narrow : Z -> Z) (e0 e1 : elty) (g x : expr) (n : nat) (ls ds : list (list Z)) (N i : Z) (l0 l1 : packed_line)
    (E : Type) (func : E -> tuple (list Z) (S n) -> list Z * E) (env : E) (t : tuple (SIMDIter Z (list Z)) (S n)) (f : list Z -> list Z -> list Z) (fuel : nat),
  let op a b := meaning e1 2 fop fsqrt x [a; b] in let h row := meaning e0 (S (S n)) fop fsqrt g row in
  target fs -> In e0 primitives ->
  (forall o e u v, e = EF32 \/ e = EF64 -> lane e u -> lane e v -> lane e (fop o e u v)) -> (forall e u, e = EF32 \/ e = EF64 -> lane e u -> lane e (fsqrt e u)) ->
  type_of e0 (S (S n)) g = Some e1 -> type_of e1 2 x = Some e1 -> natural fs (el_name e0 ++ "s") = [l0] -> natural fs (el_name e1 ++ "s") = [l1] ->
  (forall u v w, lane e1 u -> lane e1 v -> lane e1 w -> op u (op v w) = op (op u v) w) -> (forall u v, lane e1 u -> lane e1 v -> op u v = op v u) -> (forall u, lane e1 u -> op i u = u) ->
  lane e1 i -> (forall k row, column ds k row -> h row = i) ->
  Forall (fun l => zlen l = N /\ Forall (lane e0) l) ls -> Forall (fun d => zlen d = p_width l0 /\ Forall (lane e0) d) ds -> length ls = length ds ->
  PipeSpec.items (S n) t = map2 simd_iter ls ds -> N * p_size l0 + 32 <= isize_max -> N < Z.of_nat fuel ->
  (forall e t, Forall (fun v => zlen v = p_width l0 /\ Forall (lane e0) v) (PipeSpec.items (S n) t) -> run fs tie fop fsqrt narrow e0 (S (S n)) g (PipeSpec.items (S n) t) = Some (Ok (fst (func e t)))) ->
  (forall a v, zlen a = p_width l1 -> zlen v = p_width l1 -> Forall (lane e1) a -> Forall (lane e1) v -> run fs tie fop fsqrt narrow e1 2 x [a; v] = Some (Ok (f a v))) ->
  let rest := rest_many (blanket_unsafe c (si_array (slice_array c (vty_of l0))) (si_iterable c (slice_array c (vty_of l0)))) n in
  let m := zipmap_iterator c (zip_iterator (slice_iterator c (vty_of l0)) rest) (vty_of l1) 0 func in
  zip (slice_iterator c (vty_of l0)) rest t = Ok t /\
  exists out acc s', zlen out = N /\ (forall k row, column ls k row -> znth out k = Some (h row)) /\
    simd_reduce m fuel (mkSIMDMap t env) (splat (p_width l1) i) f = Ok (acc, s') /\ scalar_reduce (p_width l1) acc i op = Ok (fold_left op out i).
Proof.
  intros fs c tie fop fsqrt narrow e0 e1 g x n ls ds N i l0 l1 E func env t f fuel op h T H0 Hf Hsq Tg Tx N0 N1 As Cm Un Hi Hdi Hls Hds Hlen Hit Cap Hfu Rg Rx rest m.
  destruct (type_prim e0 _ H0 g e1 Tg) as [P1 B1]. destruct (natural_vty fs e0 l0 T H0 N0) as (V0 & W0 & S0 & C0). destruct (natural_vty fs e1 l1 T P1 N1) as (V1 & W1 & S1 & _).
  pose proof (closure_lanes fs tie fop fsqrt narrow e0 e1 g l0 l1 n E func T H0 Hf Hsq Tg N0 N1 Rg) as Hfn.
  assert (Hw : WIDTH (vty_of l1) = WIDTH (vty_of l0)) by (rewrite W1, W0, B1; reflexivity). assert (Hsz : SIZE (vty_of l1) = SIZE (vty_of l0)) by (rewrite S1, S0, B1; reflexivity).
  pose proof (vty_ok_facts _ V0) as (F1 & F2 & F3 & F4 & F5 & F6).
  assert (Cap' : (N + WIDTH (vty_of l0)) * SIZE (vty_of l0) <= isize_max) by (unfold vty_of in C0 |- *; cbn [WIDTH SIZE] in C0 |- *; lia).
  destruct (slices_run c (vty_of l0) (vty_of l1) n ls ds N 0 h func env (lane e0) t fuel V0 V1 Hw Hsz Hls Hds Hlen Hit Cap' Hfu Hfn) as (Hz & G & ys & tl & s' & R1 & R2 & R3 & R4 & R5 & R6 & pad & R7 & R8 & R9 & R10).
  fold rest in Hz, R1. fold m in R1. split; [exact Hz|].
  pose proof (emits_reduce m _ _ _ _ (cp_emits _ _ _ _ _ R1) fuel (splat (p_width l1) i) f R4) as Hred.
  set (w := p_width l0) in *. assert (Ww : p_width l1 = w) by exact Hw. rewrite Ww in *. change (WIDTH (vty_of l0)) with w in *. assert (Wpos : 0 < w) by lia.
  assert (Cx : forall a v, zlen a = w -> zlen v = w -> Forall (lane e1) a -> Forall (lane e1) v -> f a v = map2 op a v /\ Forall (lane e1) (map2 op a v)).
  { intros a v La Lv Fa Fv. destruct (c83_closure fs tie fop fsqrt narrow e1 e1 x [a; v] l1 l1 T P1 Hf Hsq Tx N1 N1 ltac:(discriminate)) as (r & Rr & Lr & Fr & M); [rewrite Ww; repeat constructor; assumption|].
    cbn [length] in Rr, M. rewrite (Rx a v La Lv Fa Fv) in Rr. injection Rr as Rr. rewrite Rr. assert (Em : r = map2 op a v).
    { rewrite Ww in Lr. apply meaning2; [unfold zlen in *; lia|unfold zlen in *; lia|]. intros k p q Hp Hq. apply M. constructor; [exact Hp|constructor; [exact Hq|constructor]]. }
    split; [exact Em|rewrite <- Em; exact Fr]. }
  assert (Pop : forall u v, lane e1 u -> lane e1 v -> lane e1 (op u v)).
  { intros u v Hu Hv. destruct (splat_lanes _ w u Wpos Hu) as (Su1 & Su2 & q & Su3). destruct (splat_lanes _ w v Wpos Hv) as (Sv1 & Sv2 & p & Sv3). destruct (Cx _ _ Su1 Sv1 Su2 Sv2) as [_ F]. rewrite Su3, Sv3 in F. cbn [map2] in F. exact (Forall_inv F). }
  assert (Ph : forall row, length row = S (S n) -> Forall (lane e0) row -> lane e1 (h row)).
  { intros row Lr Fr. assert (Lm : length (map (splat w) row) = S (S n)) by (rewrite map_length; exact Lr).
    destruct (c83_closure fs tie fop fsqrt narrow e0 e1 g (map (splat w) row) l0 l1 T H0 Hf Hsq ltac:(rewrite Lm; exact Tg) N0 N1) as (r & Rr & Lr2 & Fr2 & M).
    - destruct row; [discriminate Lr|discriminate].
    - apply Forall_map. eapply Forall_impl; [|exact Fr]. intros y Hy. destruct (splat_lanes _ w y Wpos Hy) as (Y1 & Y2 & _). split; assumption.
    - rewrite Lm in M. specialize (M 0 row (column_splats row w Wpos)). rewrite Forall_forall in Fr2. apply Fr2. unfold znth in M. cbn [Z.ltb Z.compare] in M. eapply nth_error_In; exact M. }
  assert (Ll : length ls = S (S n)). { pose proof (items_length (S n) t) as Hil. rewrite Hit, map2_length in Hil by exact Hlen. exact Hil. }
  assert (FG : Forall (lane e1) G).
  { apply forall_znth. intros k Hk. destruct (column_of ls (lane e0) N k Hls ltac:(lia)) as (r & Cr & Fr). exists (h r). split; [apply R6; exact Cr|]. apply Ph; [|exact Fr]. rewrite <- Ll. symmetry. clear -Cr. induction Cr; [reflexivity|cbn [length]; congruence]. }
  assert (Lp : zlen pad < w). { rewrite R9. assert (HN : 0 <= N) by (rewrite <- R5; apply zlen_nonneg). clear -Wpos HN. nia. }
  assert (Hpad : forall k y, znth pad k = Some y -> y = i).
  { intros k y Hy. pose proof (znth_Some_lt _ _ _ Hy) as Hk. destruct (column_of ds (lane e0) w k Hds ltac:(lia)) as (r & Cr & _). rewrite (R10 k r Hk Cr) in Hy. injection Hy as <-. exact (Hdi k r Cr). }
  assert (FP : Forall (lane e1) pad) by (apply forall_znth; intros k Hk; destruct (znth_some pad k Hk) as [y Hy]; exists y; split; [exact Hy|rewrite (Hpad k y Hy); exact Hi]).
  set (tail := skipn (Z.to_nat (w * zlen ys)) G) in *. assert (EG : G = concat ys ++ tail) by (rewrite <- R8; unfold tail; symmetry; apply firstn_skipn).
  assert (FG2 : Forall (lane e1) (concat ys) /\ Forall (lane e1) tail) by (apply Forall_app; rewrite <- EG; exact FG). destruct FG2 as [FY FT].
  destruct (splat_lanes _ w i Wpos Hi) as (Li & Fi & _).
  assert (FV : Forall (fun v => zlen v = w /\ Forall (lane e1) v) (visited ys tl)).
  { apply Forall_forall. intros v Hv. split; [pose proof (visited_sized _ _ _ R2) as K; rewrite Forall_forall in K; exact (K v Hv)|]. assert (FC : Forall (lane e1) (concat (visited ys tl))) by (rewrite R7; repeat (apply Forall_app; split); assumption).
    rewrite Forall_forall in FC |- *. intros y Hy. apply FC. apply in_concat. exists v. split; assumption. }
  destruct (on_vectors (lane e1) op i Pop Hi As Cm Un unit (Z.to_nat w) (fun v => v) (fun p v => (f (fst p) v, tt)) (visited ys tl) (splat w i) tt) as (O1 & O2 & O3).
  - unfold zlen in Li. lia.
  - exact Fi.
  - eapply Forall_impl; [|exact FV]. intros v [Lv Fv]. cbv beta. split; [unfold zlen in Lv; lia|exact Fv].
  - intros a u v La Fa Iv. rewrite Forall_forall in FV. destruct (FV v Iv) as [Lv Fv]. cbn [fst]. apply Cx; try assumption. unfold zlen. lia.
  - rewrite fold_pair in O1, O2, O3. exists G, (fold_left f (visited ys tl) (splat w i)), s'. split; [exact R5|]. split; [exact R6|]. split; [exact Hred|].
    change w with (WIDTH (vty_of l0)). rewrite c34_scalar_reduce by (change (WIDTH (vty_of l0)) with w; unfold zlen; lia). f_equal. change (WIDTH (vty_of l0)) with w. rewrite O3. unfold splat. rewrite (on_units (lane e1) op i Hi Un), map_id, R7, EG.
    rewrite !(on_app (lane e1) op i Pop Hi As Cm Un) by (try (apply Forall_app; split); assumption). rewrite (fold_some (lane e1) op i Hi Un pad Hpad).
    pose proof (on_fold (lane e1) op Pop _ i FT Hi) as PT. pose proof (on_fold (lane e1) op Pop _ i FY Hi) as PY. rewrite (Un _ PT). apply Un. apply Pop; assumption.
Qed.

Lemma fold_wrap_sum : forall t, (0 < ibytes t)%nat -> forall l s, in_ity t s -> fold_left (fun x y => wrap t (x + y)) l s = wrap t (s + total l).
Proof.
  intros t B0. induction l as [|y l IH]; intros s Hs; cbn [fold_left]; [unfold total; cbn; rewrite Z.add_0_r; symmetry; apply wrap_id; exact Hs|].
  rewrite IH by (apply wrap_in; exact B0). apply wrap_wraps. rewrite total_cons. destruct (wrap_cong t (s + y)) as [p ->]. exists p. ring.
Qed.

Lemma total_wrapped : forall t a b, cong (imod t) (total (map2 (fun x y => wrap t (x * y)) a b)) (total (map2 Z.mul a b)).
Proof.
  intros t. induction a as [|x a IH]; intros [|y b]; cbn [map2]; try (exists 0; ring). rewrite !total_cons. destruct (IH b) as [p ->]. destruct (wrap_cong t (x * y)) as [q ->]. exists (p + q). ring.
Qed.

Lemma c88_product_sum : forall (fs : features) (c : config) (tie : bool) (fop : arith -> elty -> Z -> Z -> Z) (fsqrt : elty -> Z -> Z) (narrow : Z -> Z) (t : ity) (a b : list Z) (l0 : packed_line) (E : Type) (func : E -> list Z * list Z -> list Z * E) (env : E) (f : list Z -> list Z -> list Z) (fuel : nat),
  let zero := splat (p_width l0) 0 in
  target fs -> In (EInt t) primitives -> natural fs (el_name (EInt t) ++ "s") = [l0] -> Forall (in_ity t) a -> Forall (in_ity t) b -> zlen a = zlen b -> zlen a * p_size l0 + 32 <= isize_max -> zlen a < Z.of_nat fuel ->
  (forall e u v, zlen u = p_width l0 -> zlen v = p_width l0 -> Forall (in_ity t) u -> Forall (in_ity t) v -> run fs tie fop fsqrt narrow (EInt t) 2 (Arith Mul (Arg 0) (Arg 1)) [u; v] = Some (Ok (fst (func e (u, v))))) ->
  (forall u v, zlen u = p_width l0 -> zlen v = p_width l0 -> Forall (in_ity t) u -> Forall (in_ity t) v -> run fs tie fop fsqrt narrow (EInt t) 2 (Arith Add (Arg 0) (Arg 1)) [u; v] = Some (Ok (f u v))) ->
  let rest := rest_one (blanket_unsafe c (si_array (slice_array c (vty_of l0))) (si_iterable c (slice_array c (vty_of l0)))) in
  let m := zipmap_iterator c (zip_iterator (slice_iterator c (vty_of l0)) rest) (vty_of l0) 0 func in
  zip (slice_iterator c (vty_of l0)) rest (simd_iter a zero, simd_iter b zero) = Ok (simd_iter a zero, simd_iter b zero) /\
  exists acc s', simd_reduce m fuel (mkSIMDMap (simd_iter a zero, simd_iter b zero) env) zero f = Ok (acc, s') /\
    scalar_reduce (p_width l0) acc 0 (fun x y => wrap t (x + y)) = Ok (wrap t (total (map2 Z.mul a b))).
Proof.
  intros fs c tie fop fsqrt narrow t a b l0 E func env f fuel zero T H0 N0 Fa Fb Hab Cap Hfu Rg Rx rest m. destruct (method_int t (EInt t) H0 (or_introl eq_refl)) as [B0 B1].
  destruct (natural_vty fs (EInt t) l0 T H0 N0) as (V0 & W0 & S0 & C0). pose proof (vty_ok_facts _ V0) as (F1 & F2 & _). change (WIDTH (vty_of l0)) with (p_width l0) in *.
  assert (Hz0 : in_ity t 0) by (unfold in_ity; lia). destruct (splat_lanes (in_ity t) (p_width l0) 0 ltac:(lia) Hz0) as (Z1 & Z2 & _).
  assert (Ty : forall o, type_of (EInt t) 2 (Arith o (Arg 0) (Arg 1)) = Some (EInt t)) by (intros o; clear -H0; unfold primitives in H0; cbn [In] in H0; repeat (destruct H0 as [H|H0]; [first [discriminate H | injection H as <-; destruct o; reflexivity]|]); contradiction).
  assert (Hrun : forall fop' fsqrt' o l, run fs tie fop' fsqrt' narrow (EInt t) 2 (Arith o (Arg 0) (Arg 1)) l = run fs tie fop fsqrt narrow (EInt t) 2 (Arith o (Arg 0) (Arg 1)) l) by (intros; cbn [run type_of Nat.ltb Nat.leb]; reflexivity).
  destruct (c88_zip fs c tie (fun _ _ u _ => u) (fun _ u => u) narrow (EInt t) (EInt t) (Arith Mul (Arg 0) (Arg 1)) (Arith Add (Arg 0) (Arg 1)) 0 [a; b] [zero; zero] (zlen a) 0 l0 l0 E func env (simd_iter a zero, simd_iter b zero) f fuel) as (Q1 & out & acc & s' & Q2 & Q3 & Q4 & Q5); try assumption.
  - intros; assumption.
  - intros; assumption.
  - apply Ty.
  - apply Ty.
  - intros u v w _ _ _. cbn [meaning nth type_of Nat.ltb Nat.leb exact]. apply wrap_wraps. destruct (wrap_cong t (v + w)) as [p ->]. destruct (wrap_cong t (u + v)) as [q ->]. exists (p - q). ring.
  - intros u v _ _. cbn [meaning nth type_of Nat.ltb Nat.leb exact]. f_equal. lia.
  - intros u Hu. cbn [meaning nth type_of Nat.ltb Nat.leb exact]. rewrite Z.add_0_l. apply wrap_id. exact Hu.
  - intros k row Hc. inversion Hc as [|? ? ? ? Hx Hc']; subst. inversion Hc' as [|? ? ? ? Hy Hc'']; subst. inversion Hc''; subst. cbn [meaning nth type_of Nat.ltb Nat.leb exact].
    assert (y = 0) as -> by (unfold zero in Hx; pose proof (znth_Some_lt _ _ _ Hx) as Hk; rewrite Z1 in Hk; rewrite znth_splat in Hx by exact Hk; congruence). rewrite Z.mul_0_l. apply wrap_id. exact Hz0.
  - repeat constructor; try assumption. congruence.
  - repeat constructor; assumption.
  - reflexivity.
  - reflexivity.
  - intros e [u v] Huv. cbn [PipeSpec.items fst snd] in *. destruct (Forall_inv Huv) as [Lu Fu]. destruct (Forall_inv (Forall_inv_tail Huv)) as [Lv Fv]. rewrite Hrun. apply Rg; assumption.
  - split; [exact Q1|]. exists acc, s'. split; [exact Q4|]. cbn [meaning nth type_of Nat.ltb Nat.leb exact] in Q5. rewrite Q5. f_equal.
    assert (Eo : out = map2 (fun x y => wrap t (x * y)) a b).
    { apply meaning2; [unfold zlen in *; lia|unfold zlen in *; lia|]. intros k x y Hx Hy. rewrite (Q3 k [x; y]) by (constructor; [exact Hx|constructor; [exact Hy|constructor]]). reflexivity. }
    rewrite Eo, fold_wrap_sum, Z.add_0_l by assumption. apply wrap_wraps. apply total_wrapped.
Qed.
