(** Proofs of the properties: what programs on the portable back-end leave in memory when an operator overflows (C94). *)
From Coq Require Import String.
From Verif Require Import Base Spec VecSpec Vecs Iters GateTables GateSpec Lanes OpTables PipeSpec ExprSpec Exprs OverflowSpec Portables Crash CrashSpec.
Open Scope list_scope.
Open Scope Z_scope.
From Coq Require Import Lia ZifyBool ZifyNat.
From Verif Require Import ListFacts VecFacts IterFacts CollectFacts MapFacts VecProofs IterProofs CollectProofs OpProofs PipeProofs LoopProofs ExprProofs PlaceProofs CrashProofs PortableProofs.
Ltac Zify.zify_post_hook ::= Z.div_mod_to_equations.

(** One call of the closure: the scalar program in every lane, or a panic. *)
Lemma call_lanes : forall (fs : features) (c : config) (tie : bool) (fop : arith -> elty -> Z -> Z -> Z) (fsqrt : elty -> Z -> Z) (narrow : Z -> Z) (e0 e1 : elty) (x : expr) (l0 l1 : packed_line) (v : list Z),
  fs "undefined"%string = false -> In e0 primitives ->
  (forall o e u v, e = EF32 \/ e = EF64 -> lane e u -> lane e v -> lane e (fop o e u v)) -> (forall e u, e = EF32 \/ e = EF64 -> lane e u -> lane e (fsqrt e u)) ->
  type_of e0 1 x = Some e1 -> portable_natural fs (el_name e0 ++ "s") = [l0] -> portable_natural fs (el_name e1 ++ "s") = [l1] ->
  zlen v = p_width l0 -> Forall (lane e0) v ->
  (build c = Release \/ Forall (fun a => overflows e0 1 fop fsqrt x [a] = false) v -> portable_run fs c tie fop fsqrt narrow e0 1 x [v] = Some (Ok (map (fun a => meaning e0 1 fop fsqrt x [a]) v))) /\
  (build c = Debug -> Exists (fun a => overflows e0 1 fop fsqrt x [a] = true) v -> portable_run fs c tie fop fsqrt narrow e0 1 x [v] = Some Panic).
Proof.
  intros fs c tie fop fsqrt narrow e0 e1 x l0 l1 v T H0 Hf Hs Ht N0 N1 Lv Fv.
  destruct (type_prim e0 1 H0 x e1 Ht) as [P1 B1]. destruct (portable_vty fs e0 l0 T H0 N0) as (V0 & W0 & S0 & C0). destruct (portable_vty fs e1 l1 T P1 N1) as (V1 & W1 & S1 & _).
  destruct (c94_closure fs c tie fop fsqrt narrow e0 e1 x [v] l0 l1 T H0 Hf Hs Ht N0 N1 ltac:(discriminate)) as [C D]; [constructor; [split; assumption|constructor]|]. cbn [length] in C, D. split.
  - intros Hov. destruct C as (r & Rr & Lr & _ & M).
    { destruct Hov as [Hov|Hov]; [left; exact Hov|right]. intros k env Hc. inversion Hc as [|? a ? ? Ha Hc']; subst. inversion Hc'; subst. exact (proj1 (Forall_forall _ _) Hov a (znth_In _ _ _ _ Ha)). }
    rewrite Rr. do 2 f_equal. assert (Lvr : length v = length r). { assert (Z.of_nat (length v) = Z.of_nat (length r)); [|lia]. change (zlen v = zlen r). rewrite Lr. change (p_width l1) with (WIDTH (vty_of l1)). rewrite W1, B1, <- W0. exact Lv. }
    assert (K : forall k a, znth v k = Some a -> znth r k = Some (meaning e0 1 fop fsqrt x [a])) by (intros k a Ha; apply M; constructor; [exact Ha|constructor]).
    clear -K Lvr. revert r Lvr K. induction v as [|a v IH]; intros [|y r] Lvr K; try discriminate; [reflexivity|]. cbn [map]. f_equal; [specialize (K 0 a eq_refl); injection K as ->; reflexivity|].
    apply IH; [cbn [length] in Lvr; lia|]. intros k b Hb. pose proof (znth_Some_lt _ _ _ Hb) as Hk. specialize (K (k + 1) b).
    rewrite !znth_cons_shift in K by lia. replace (k + 1 - 1) with k in K by lia. apply K. exact Hb.
  - intros B Hex. apply Exists_exists in Hex. destruct Hex as (a & Ha & O). apply In_nth_error in Ha. destruct Ha as [k Hk]. apply (D B (Z.of_nat k) [a]); [constructor; [apply znth_nat; exact Hk|constructor]|exact O].
Qed.

(** The vector that holds element [i]. *)
Lemma chunk_of {A : Type} (w : Z) (vs : list (list A)) : forall (l rest : list A) i a, 0 < w -> chunked w l vs rest -> zlen rest < w -> znth l i = Some a ->
  (exists vs1 v vs2, vs = vs1 ++ v :: vs2 /\ In a v /\ concat vs1 = firstn (Z.to_nat (w * (i / w))) l) \/ (In a rest /\ rest <> [] /\ concat vs = firstn (Z.to_nat (w * (i / w))) l).
Proof.
  induction vs as [|v vs IH]; intros l rest i a Hw [Hc1 Hc2] Hr Hi; pose proof (znth_Some_lt _ _ _ Hi) as Hb.
  - right. cbn [concat app] in Hc2. subst rest. split; [exact (znth_In _ _ _ _ Hi)|]. split; [intros ->; unfold zlen in Hb; cbn in Hb; lia|]. rewrite Z.div_small by lia. rewrite Z.mul_0_r. reflexivity.
  - inversion Hc1 as [|? ? Hv Hc3]; subst. cbn [concat]. cbn [concat] in Hi, Hb. rewrite <- app_assoc in Hi, Hb |- *. destruct (Z_lt_ge_dec i (zlen v)) as [Hlt|Hge].
    + left. exists [], v, vs. split; [reflexivity|]. split; [rewrite znth_app in Hi by lia; replace (i <? zlen v) with true in Hi by lia; exact (znth_In _ _ _ _ Hi)|]. rewrite Z.div_small by lia. rewrite Z.mul_0_r. reflexivity.
    + rewrite znth_app_r in Hi by lia. assert (Q : i / zlen v = 1 + (i - zlen v) / zlen v) by (replace i with ((i - zlen v) + 1 * zlen v) at 1 by lia; rewrite Z.div_add by lia; lia).
      assert (Q0 : 0 <= (i - zlen v) / zlen v) by (apply Z.div_pos; lia).
      assert (F : forall t : list A, firstn (Z.to_nat (zlen v * (i / zlen v))) (v ++ t) = v ++ firstn (Z.to_nat (zlen v * ((i - zlen v) / zlen v))) t).
      { intros t. rewrite Q. set (k := (i - zlen v) / zlen v) in *. assert (K0 : 0 <= zlen v * k) by (apply Z.mul_nonneg_nonneg; [lia|exact Q0]).
        replace (Z.to_nat (zlen v * (1 + k))) with (length v + Z.to_nat (zlen v * k))%nat by (rewrite Z.mul_add_distr_l, Z.mul_1_r; clear -K0 Hw; set (p := zlen v * k) in *; clearbody p; unfold zlen; lia). apply firstn_app_2. }
      destruct (IH (concat vs ++ rest) rest (i - zlen v) a Hw (conj Hc3 eq_refl) Hr Hi) as [(vs1 & v1 & vs2 & -> & I1 & I2)|(I1 & I2 & I3)].
      * left. exists (v :: vs1), v1, vs2. split; [reflexivity|]. split; [exact I1|]. cbn [concat]. rewrite I2, F. reflexivity.
      * right. split; [exact I1|]. split; [exact I2|]. rewrite F, <- I3. reflexivity.
Qed.

Lemma returns_lanes {A B E : Type} (w : Z) (P : A -> Prop) (f : A -> B) (func : E -> list A -> outcome (list B * E)) vs e :
  (forall e v, zlen v = w -> Forall P v -> exists e', func e v = Ok (map f v, e')) -> Forall (fun v => zlen v = w) vs -> Forall P (concat vs) -> exists e', returns_on func e vs (map (map f) vs) e'.
Proof.
  intros Hf Hw. revert e. induction Hw as [|v vs Hv Hw IH]; intros e HP; [exists e; constructor|]. cbn [concat] in HP. apply Forall_app in HP. destruct HP as [HP1 HP2].
  destruct (Hf e v Hv HP1) as (e1 & E1). destruct (IH e1 HP2) as (e2 & E2). exists e2. cbn [map]. econstructor; [exact E1|exact E2].
Qed.

Lemma panic_at {A B E : Type} (w : Z) (P Q R : A -> Prop) (f : A -> B) (func : E -> list A -> outcome (list B * E)) (l d rest : list A) vs e i a :
  0 < w -> zlen d = w -> chunked w l vs rest -> zlen rest < w ->
  (forall e v, zlen v = w -> Forall P v -> Forall R v -> exists e', func e v = Ok (map f v, e')) -> (forall e v, zlen v = w -> Forall P v -> Exists Q v -> func e v = Panic) ->
  Forall P l -> Forall P d -> znth l i = Some a -> Q a -> Forall R (firstn (Z.to_nat (w * (i / w))) l) ->
  exists ys, panics_after func e (visited vs (tail_of d rest)) ys /\ concat ys = map f (firstn (Z.to_nat (w * (i / w))) l).
Proof.
  intros Hw Hd Hc Hr Hok Hbad HPl HPd Hi HQ HR. pose proof Hc as [Hc1 Hc2]. assert (HPv : Forall P (concat vs) /\ Forall P rest) by (apply Forall_app; rewrite Hc2; exact HPl).
  assert (M : forall us : list (list A), concat (map (map f) us) = map f (concat us)) by (intros us; symmetry; apply concat_map).
  destruct (chunk_of w vs l rest i a Hw Hc Hr Hi) as [(vs1 & v & vs2 & -> & I1 & I2)|(I1 & I2 & I3)].
  - apply Forall_app in Hc1. destruct Hc1 as [C1 C2]. inversion C2 as [|? ? C3 C4]; subst. rewrite concat_app in HPv. cbn [concat] in HPv. destruct HPv as [HPv _]. apply Forall_app in HPv. destruct HPv as [Q1 Q2]. apply Forall_app in Q2. destruct Q2 as [Q2 _].
    rewrite <- I2 in HR. destruct (returns_lanes (zlen d) (fun a => P a /\ R a) f func vs1 e) as (e' & E'); [intros e1 u Lu Fu; apply Hok; [exact Lu|apply (Forall_impl _ (fun _ H => proj1 H) Fu)|apply (Forall_impl _ (fun _ H => proj2 H) Fu)]|exact C1|apply Forall_and; assumption|].
    exists (map (map f) vs1). split; [|rewrite M, I2; reflexivity]. destruct (tail_of d rest) as [ [tv tn]|]; cbn [visited].
    + exists vs1, v, (vs2 ++ [tv]), e'. split; [unfold visited; rewrite <- app_assoc; reflexivity|]. split; [exact E'|]. apply Hbad; [exact C3|exact Q2|apply Exists_exists; exists a; split; assumption].
    + exists vs1, v, vs2, e'. split; [unfold visited; rewrite app_nil_r; reflexivity|]. split; [exact E'|]. apply Hbad; [exact C3|exact Q2|apply Exists_exists; exists a; split; assumption].
  - rewrite <- I3 in HR. destruct HPv as [Q1 Q2]. destruct (returns_lanes w (fun a => P a /\ R a) f func vs e) as (e' & E'); [intros e1 u Lu Fu; apply Hok; [exact Lu|apply (Forall_impl _ (fun _ H => proj1 H) Fu)|apply (Forall_impl _ (fun _ H => proj2 H) Fu)]|exact Hc1|apply Forall_and; assumption|].
    exists (map (map f) vs). split; [|rewrite M, I3; reflexivity]. destruct rest as [|y r]; [contradiction|]. cbn [tail_of visited]. exists vs, (right_aligned d (y :: r)), [], e'. split; [reflexivity|]. split; [exact E'|].
    apply Hbad; [rewrite right_aligned_len; [exact Hd|unfold zlen in *; lia]|apply Forall_aligned; assumption|]. apply Exists_exists. exists a. split; [|exact HQ]. unfold right_aligned. apply in_or_app. right. exact I1.
Qed.

Lemma c94_for_each : forall (fs : features) (c : config) (tie : bool) (fop : arith -> elty -> Z -> Z -> Z) (fsqrt : elty -> Z -> Z) (narrow : Z -> Z) (e0 : elty) (x : expr) (l d : list Z) (l0 : packed_line)
    (E : Type) (func : E -> list Z -> list Z * E) (e : E) (d0 : Z) (fuel : nat),
  fs "undefined"%string = false -> In e0 primitives ->
  (forall o e u v, e = EF32 \/ e = EF64 -> lane e u -> lane e v -> lane e (fop o e u v)) -> (forall e u, e = EF32 \/ e = EF64 -> lane e u -> lane e (fsqrt e u)) ->
  type_of e0 1 x = Some e0 -> portable_natural fs (el_name e0 ++ "s") = [l0] ->
  Forall (lane e0) l -> zlen d = p_width l0 -> Forall (lane e0) d -> zlen l * p_size l0 <= isize_max -> (length l < fuel)%nat ->
  build c = Release \/ Forall (fun a => overflows e0 1 fop fsqrt x [a] = false) (l ++ d) ->
  (forall e v, zlen v = p_width l0 -> zlen (fst (func e v)) = p_width l0) ->
  (forall e v r, zlen v = p_width l0 -> Forall (lane e0) v -> portable_run fs c tie fop fsqrt narrow e0 1 x [v] = Some (Ok r) -> fst (func e v) = r) ->
  exists e', simd_for_each c (vty_of l0) d0 func fuel (simd_iter l d) e =
    Ok (mkSIMDIter (zlen l) (map (fun a => meaning e0 1 fop fsqrt x [a]) l) d, e').
Proof.
  intros fs c tie fop fsqrt narrow e0 x l d l0 E func e d0 fuel T H0 Hf Hs Ht N0 Fl Ld Fd Cap Hfu Hov Hlen Hrun.
  destruct (portable_vty fs e0 l0 T H0 N0) as (V0 & W0 & S0 & C0). set (P := fun a => lane e0 a /\ (build c = Release \/ overflows e0 1 fop fsqrt x [a] = false)).
  assert (FP : Forall P l /\ Forall P d).
  { destruct Hov as [Hov|Hov]; [split; [apply (Forall_impl _ (fun a Ha => conj Ha (or_introl Hov)) Fl)|apply (Forall_impl _ (fun a Ha => conj Ha (or_introl Hov)) Fd)]|].
    apply Forall_app in Hov. destruct Hov as [O1 O2]. split; [clear -Fl O1; induction Fl; inversion O1; subst; constructor; [split; [assumption|right; assumption]|auto]|clear -Fd O2; induction Fd; inversion O2; subst; constructor; [split; [assumption|right; assumption]|auto]]. }
  assert (K : forall e v, zlen v = p_width l0 -> Forall P v -> fst (func e v) = map (fun a => meaning e0 1 fop fsqrt x [a]) v).
  { intros e' v Lv Fv. assert (Fv' : Forall (lane e0) v) by (apply (Forall_impl _ (fun a Ha => proj1 Ha) Fv)). apply (Hrun e' v _ Lv Fv').
    apply (proj1 (call_lanes fs c tie fop fsqrt narrow e0 e0 x l0 l0 v T H0 Hf Hs Ht N0 N0 Lv Fv')). destruct (build c) eqn:B; [|left; reflexivity]. right. apply Forall_forall. intros a Ha. destruct (proj1 (Forall_forall _ _) Fv a Ha) as [_ [Q|Q]]; [discriminate|exact Q]. }
  destruct (c13_for_each Z E c (vty_of l0) l d func e d0 fuel V0 Cap Ld Hlen Hfu) as (vs & rest & Hc & Hr & H). destruct Hc as [Hc1 Hc2]. destruct FP as [FP1 FP2].
  assert (HP : Forall P (concat vs) /\ Forall P rest) by (apply Forall_app; rewrite Hc2; exact FP1). destruct HP as [HP1 HP2].
  pose proof (run_lanes (p_width l0) P (fun a => meaning e0 1 fop fsqrt x [a]) func vs e K Hc1 HP1) as Hys.
  destruct (run_closure func e vs) as [ys e1]. cbn [fst] in Hys. cbv zeta in H. destruct H as [H _]. eexists. rewrite H. do 3 f_equal.
  rewrite Hys, <- Hc2, map_app. f_equal. destruct rest as [|y r]; [reflexivity|]. change (WIDTH (vty_of l0)) with (p_width l0) in *.
  rewrite K; [apply aligned_lanes; lia|rewrite right_aligned_len; lia|apply Forall_aligned; assumption].
Qed.

Lemma c94_for_each_panic : forall (fs : features) (c : config) (tie : bool) (fop : arith -> elty -> Z -> Z -> Z) (fsqrt : elty -> Z -> Z) (narrow : Z -> Z) (e0 : elty) (x : expr) (l d : list Z) (l0 : packed_line)
    (E : Type) (func : E -> list Z -> outcome (list Z * E)) (e : E) (d0 : Z) (fuel : nat) (i a : Z),
  fs "undefined"%string = false -> In e0 primitives ->
  (forall o e u v, e = EF32 \/ e = EF64 -> lane e u -> lane e v -> lane e (fop o e u v)) -> (forall e u, e = EF32 \/ e = EF64 -> lane e u -> lane e (fsqrt e u)) ->
  type_of e0 1 x = Some e0 -> portable_natural fs (el_name e0 ++ "s") = [l0] ->
  Forall (lane e0) l -> zlen d = p_width l0 -> Forall (lane e0) d -> zlen l * p_size l0 <= isize_max -> (length l < fuel)%nat ->
  (forall e v r, zlen v = p_width l0 -> func e v = Ok r -> zlen (fst r) = p_width l0) ->
  (forall e v, zlen v = p_width l0 -> Forall (lane e0) v -> portable_run fs c tie fop fsqrt narrow e0 1 x [v] = Some (let! q := func e v in Ok (fst q))) ->
  let done := p_width l0 * (i / p_width l0) in
  build c = Debug -> znth l i = Some a -> overflows e0 1 fop fsqrt x [a] = true ->
  (forall j b, j < done -> znth l j = Some b -> overflows e0 1 fop fsqrt x [b] = false) ->
  simd_for_each_memory c (vty_of l0) d0 func fuel (simd_iter l d) e =
    (map (fun b => meaning e0 1 fop fsqrt x [b]) (firstn (Z.to_nat done) l) ++ skipn (Z.to_nat done) l, Panic).
Proof.
  intros fs c tie fop fsqrt narrow e0 x l d l0 E func e d0 fuel i a T H0 Hf Hs Ht N0 Fl Ld Fd Cap Hfu Hlen Hrun done B Hi Ha Hbefore.
  destruct (portable_vty fs e0 l0 T H0 N0) as (V0 & W0 & S0 & C0). change (WIDTH (vty_of l0)) with (p_width l0) in *. assert (Wpos : 0 < p_width l0) by (rewrite W0; prims H0; reflexivity).
  destruct (c13_for_each Z unit c (vty_of l0) l d (fun u v => (v, u)) tt d0 fuel V0 Cap Ld ltac:(intros u v Lv; exact Lv) Hfu) as (vs & rest & Hc & Hr & _). change (WIDTH (vty_of l0)) with (p_width l0) in *.
  set (f := fun b => meaning e0 1 fop fsqrt x [b]). pose proof (znth_Some_lt _ _ _ Hi) as Hb.
  assert (D0 : 0 <= done <= i) by (unfold done; pose proof (Z.mul_div_le i (p_width l0) Wpos); split; [apply Z.mul_nonneg_nonneg; [lia|apply Z.div_pos; lia]|lia]).
  destruct (panic_at (p_width l0) (lane e0) (fun b => overflows e0 1 fop fsqrt x [b] = true) (fun b => overflows e0 1 fop fsqrt x [b] = false) f func l d rest vs e i a Wpos Ld Hc Hr) as (ys & Hp & Hys); try assumption.
  - intros e' v Lv Fv Ov. pose proof (Hrun e' v Lv Fv) as R. rewrite (proj1 (call_lanes fs c tie fop fsqrt narrow e0 e0 x l0 l0 v T H0 Hf Hs Ht N0 N0 Lv Fv) (or_intror Ov)) in R.
    destruct (func e' v) as [ [q e2]| | |]; try discriminate R. cbn [bind fst] in R. injection R as R. exists e2. rewrite <- R. reflexivity.
  - intros e' v Lv Fv Ov. pose proof (Hrun e' v Lv Fv) as R. rewrite (proj2 (call_lanes fs c tie fop fsqrt narrow e0 e0 x l0 l0 v T H0 Hf Hs Ht N0 N0 Lv Fv) B Ov) in R.
    destruct (func e' v) as [q| | |]; try discriminate R. reflexivity.
  - apply Forall_forall. intros b Hin. apply In_nth_error in Hin. destruct Hin as [k Hk]. pose proof (proj1 (nth_error_Some (firstn (Z.to_nat (p_width l0 * (i / p_width l0))) l) k) ltac:(congruence)) as Lk. rewrite firstn_length in Lk. fold done in Hk, Lk.
    apply (Hbefore (Z.of_nat k) b); [lia|]. apply znth_nat. rewrite <- (firstn_skipn (Z.to_nat done) l). rewrite nth_error_app1 by (rewrite firstn_length; lia). exact Hk.
  - fold done in Hys. destruct (c76_for_each_panic Z E c (vty_of l0) l d func e d0 fuel vs rest ys V0 Cap Ld Hlen Hc Hr Hp Hfu) as [R _]. rewrite R. unfold overwritten. rewrite Hys. f_equal. f_equal.
    rewrite map_length, firstn_length. f_equal. unfold zlen in Hb. lia.
Qed.

Lemma c94_fill_panic : forall (fs : features) (c : config) (tie : bool) (fop : arith -> elty -> Z -> Z -> Z) (fsqrt : elty -> Z -> Z) (narrow : Z -> Z) (e0 e1 : elty) (x : expr) (l d buf : list Z) (l0 l1 : packed_line)
    (E : Type) (func : E -> list Z -> outcome (list Z * E)) (e : E) (d0 d1 : Z) (fuel : nat) (i a : Z),
  fs "undefined"%string = false -> In e0 primitives ->
  (forall o e u v, e = EF32 \/ e = EF64 -> lane e u -> lane e v -> lane e (fop o e u v)) -> (forall e u, e = EF32 \/ e = EF64 -> lane e u -> lane e (fsqrt e u)) ->
  type_of e0 1 x = Some e1 -> portable_natural fs (el_name e0 ++ "s") = [l0] -> portable_natural fs (el_name e1 ++ "s") = [l1] ->
  Forall (lane e0) l -> zlen d = p_width l0 -> Forall (lane e0) d -> zlen l * p_size l0 <= isize_max -> (length l < fuel)%nat -> zlen l <= zlen buf ->
  (forall e v r, zlen v = p_width l0 -> func e v = Ok r -> zlen (fst r) = p_width l1) ->
  (forall e v, zlen v = p_width l0 -> Forall (lane e0) v -> portable_run fs c tie fop fsqrt narrow e0 1 x [v] = Some (let! q := func e v in Ok (fst q))) ->
  let done := p_width l0 * (i / p_width l0) in
  build c = Debug -> znth l i = Some a -> overflows e0 1 fop fsqrt x [a] = true ->
  (forall j b, j < done -> znth l j = Some b -> overflows e0 1 fop fsqrt x [b] = false) ->
  scalar_fill_memory c (panicking_map_iterator c (slice_iterator c (vty_of l0)) (vty_of l1) d0 func) d1 fuel (mkSIMDMap (simd_iter l d) e) buf =
    (map (fun b => meaning e0 1 fop fsqrt x [b]) (firstn (Z.to_nat done) l) ++ skipn (Z.to_nat done) buf, Panic).
Proof.
  intros fs c tie fop fsqrt narrow e0 e1 x l d buf l0 l1 E func e d0 d1 fuel i a T H0 Hf Hs Ht N0 N1 Fl Ld Fd Cap Hfu Hbuf Hlen Hrun done B Hi Ha Hbefore.
  destruct (type_prim e0 1 H0 x e1 Ht) as [P1 B1]. destruct (portable_vty fs e0 l0 T H0 N0) as (V0 & W0 & S0 & C0). destruct (portable_vty fs e1 l1 T P1 N1) as (V1 & W1 & S1 & _).
  assert (HB : WIDTH (vty_of l0) * SIZE (vty_of l0) = WIDTH (vty_of l1) * SIZE (vty_of l1)) by (rewrite W0, W1, S0, S1, B1; reflexivity).
  change (WIDTH (vty_of l0)) with (p_width l0) in *. assert (Wpos : 0 < p_width l0) by (rewrite W0; prims H0; reflexivity).
  destruct (c13_for_each Z unit c (vty_of l0) l d (fun u v => (v, u)) tt d0 fuel V0 Cap Ld ltac:(intros u v Lv; exact Lv) Hfu) as (vs & rest & Hc & Hr & _). change (WIDTH (vty_of l0)) with (p_width l0) in *.
  set (f := fun b => meaning e0 1 fop fsqrt x [b]). pose proof (znth_Some_lt _ _ _ Hi) as Hb.
  assert (D0 : 0 <= done <= i) by (unfold done; pose proof (Z.mul_div_le i (p_width l0) Wpos); split; [apply Z.mul_nonneg_nonneg; [lia|apply Z.div_pos; lia]|lia]).
  destruct (panic_at (p_width l0) (lane e0) (fun b => overflows e0 1 fop fsqrt x [b] = true) (fun b => overflows e0 1 fop fsqrt x [b] = false) f func l d rest vs e i a Wpos Ld Hc Hr) as (ys & Hp & Hys); try assumption.
  - intros e' v Lv Fv Ov. pose proof (Hrun e' v Lv Fv) as R. rewrite (proj1 (call_lanes fs c tie fop fsqrt narrow e0 e1 x l0 l1 v T H0 Hf Hs Ht N0 N1 Lv Fv) (or_intror Ov)) in R.
    destruct (func e' v) as [ [q e2]| | |]; try discriminate R. cbn [bind fst] in R. injection R as R. exists e2. rewrite <- R. reflexivity.
  - intros e' v Lv Fv Ov. pose proof (Hrun e' v Lv Fv) as R. rewrite (proj2 (call_lanes fs c tie fop fsqrt narrow e0 e1 x l0 l1 v T H0 Hf Hs Ht N0 N1 Lv Fv) B Ov) in R.
    destruct (func e' v) as [q| | |]; try discriminate R. reflexivity.
  - apply Forall_forall. intros b Hin. apply In_nth_error in Hin. destruct Hin as [k Hk]. pose proof (proj1 (nth_error_Some (firstn (Z.to_nat (p_width l0 * (i / p_width l0))) l) k) ltac:(congruence)) as Lk. rewrite firstn_length in Lk. fold done in Hk, Lk.
    apply (Hbefore (Z.of_nat k) b); [lia|]. apply znth_nat. rewrite <- (firstn_skipn (Z.to_nat done) l). rewrite nth_error_app1 by (rewrite firstn_length; lia). exact Hk.
  - fold done in Hys. assert (Ly : length (concat ys) = Z.to_nat done) by (rewrite Hys, map_length, firstn_length; unfold zlen in Hb; lia).
    rewrite (c76_fill_panic Z Z E c (vty_of l0) (vty_of l1) l d func e d0 d1 buf fuel vs rest ys V0 V1 HB Cap Ld Hlen Hc Hr Hp); [|unfold zlen in *; lia|exact Hfu]. unfold overwritten. rewrite Ly, Hys. reflexivity.
Qed.
