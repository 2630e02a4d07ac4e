(** Proofs of the properties: kernels that compute with wider lanes and write to a buffer, on the portable back-end (C95). *)
From Coq Require Import String.
From Verif Require Import Base Spec VecSpec Vecs Iters GateTables GateSpec Lanes OpTables Ops OpSpec Ports PortSpec PipeSpec ExprSpec Exprs WidenSpec Widens OverflowSpec Portables WidePorts Crash CrashSpec.
Open Scope list_scope.
Open Scope Z_scope.
From Coq Require Import Lia ZifyBool ZifyNat.
From Verif Require Import ListFacts VecFacts IterFacts CollectFacts MapFacts VecProofs IterProofs CollectProofs OpProofs PipeProofs LoopProofs ExprProofs PlaceProofs CrashProofs WidenProofs PortableProofs AbortProofs WidePortProofs StageProofs.
Ltac Zify.zify_post_hook ::= Z.div_mod_to_equations.

Lemma wide_call : forall (fs : features) (c : config) (tie : bool) (fop : arith -> elty -> Z -> Z -> Z) (fsqrt : elty -> Z -> Z) (narrow : Z -> Z) (e : elty) (t : ity) (x : expr) (P : Z -> Prop) (l0 : packed_line) (v : list Z),
  fs "undefined"%string = false -> In e widenable -> (forall a, P a -> lane e a) ->
  (forall o e u v, e = EF32 \/ e = EF64 -> lane e u -> lane e v -> lane e (fop o e u v)) -> (forall e u, e = EF32 \/ e = EF64 -> lane e u -> lane e (fsqrt e u)) ->
  type_of (wide e) 1 x = Some (EInt t) -> t <> u64 \/ (forall a, P a -> meaning (wide e) 1 fop fsqrt x [a] <= 2147483647) ->
  portable_natural fs (el_name e ++ "s") = [l0] -> zlen v = p_width l0 -> Forall P v ->
  (build c = Release \/ Forall (fun a => overflows (wide e) 1 fop fsqrt x [a] = false) v -> portable_widened fs c tie fop fsqrt narrow e x [v] = Some (Ok (map (fun a => clamp (half t) (meaning (wide e) 1 fop fsqrt x [a])) v))) /\
  (build c = Debug -> Exists (fun a => overflows (wide e) 1 fop fsqrt x [a] = true) v -> portable_widened fs c tie fop fsqrt narrow e x [v] = Some Panic).
Proof.
  intros fs c tie fop fsqrt narrow e t x P l0 v T He HP Hf Hs Ht Hu N0 Lv Fv. assert (Fl : Forall (lane e) v) by (apply (Forall_impl _ HP Fv)).
  assert (F1 : Forall (fun v => zlen v = p_width l0 /\ Forall (lane e) v) [v]) by (constructor; [split; assumption|constructor]).
  destruct (c95_closure fs c tie fop fsqrt narrow e t x [v] l0 T He Hf Hs Ht N0 ltac:(discriminate) F1) as [A B]. cbn [length] in A, B. split.
  - intros Hov. destruct A as (r & Rr & Lr & M).
    { destruct Hov as [Hov|Hov]; [left; exact Hov|right]. intros k env Hc. inversion Hc as [|? a ? ? Ha Hc']; subst. inversion Hc'; subst. exact (proj1 (Forall_forall _ _) Hov a (znth_In _ _ _ _ Ha)). }
    rewrite Rr. do 2 f_equal. assert (Lvr : length v = length r) by (unfold zlen in *; clear -Lv Lr; lia).
    assert (K : forall k a, znth v k = Some a -> znth r k = Some (clamp (half t) (meaning (wide e) 1 fop fsqrt x [a]))).
    { intros k a Ha. destruct (M k [a]) as [I Z0]; [constructor; [exact Ha|constructor]|]. rewrite Z0. f_equal. destruct (same_int t u64) eqn:Q; [|reflexivity].
      assert (Tu : t = u64) by (exact (same_int_eq _ _ Q)). destruct Hu as [Hu|Hu]; [congruence|]. specialize (Hu a (proj1 (Forall_forall _ _) Fv a (znth_In _ _ _ _ Ha))). subst t. clear -I Hu. unfold in_ity in I. change (imin u64) with 0 in I. change (imax u64) with 18446744073709551615 in I. change (half u64) with u32. unfold clamp. change (imin u32) with 0. change (imax u32) with 4294967295. destruct (k =? 0); lia. }
    clear -K Lvr. revert r Lvr K. induction v as [|a v IH]; intros [|y r] Lvr K; try discriminate; [reflexivity|]. cbn [map]. f_equal; [specialize (K 0 a eq_refl); injection K as ->; reflexivity|].
    apply IH; [cbn [length] in Lvr; lia|]. intros k b Hb. pose proof (znth_Some_lt _ _ _ Hb) as Hk. specialize (K (k + 1) b).
    rewrite !znth_cons_shift in K by lia. replace (k + 1 - 1) with k in K by lia. apply K. exact Hb.
  - intros D Hex. apply Exists_exists in Hex. destruct Hex as (a & Ha & O). apply In_nth_error in Ha. destruct Ha as [k Hk]. apply (B D (Z.of_nat k) [a]); [constructor; [apply znth_nat; exact Hk|constructor]|exact O].
Qed.

Lemma c95_fill : forall (fs : features) (c : config) (tie : bool) (fop : arith -> elty -> Z -> Z -> Z) (fsqrt : elty -> Z -> Z) (narrow : Z -> Z) (e : elty) (t : ity) (x : expr) (P : Z -> Prop) (l d buf : list Z) (l0 l1 : packed_line)
    (E : Type) (func : E -> list Z -> list Z * E) (env : E) (fuel : nat),
  fs "undefined"%string = false -> In e widenable -> (forall a, P a -> lane e a) ->
  (forall o e u v, e = EF32 \/ e = EF64 -> lane e u -> lane e v -> lane e (fop o e u v)) -> (forall e u, e = EF32 \/ e = EF64 -> lane e u -> lane e (fsqrt e u)) ->
  type_of (wide e) 1 x = Some (EInt t) -> t <> u64 \/ (forall a, P a -> meaning (wide e) 1 fop fsqrt x [a] <= 2147483647) ->
  build c = Release \/ (forall a, P a -> overflows (wide e) 1 fop fsqrt x [a] = false) ->
  portable_natural fs (el_name e ++ "s") = [l0] -> portable_natural fs (el_name (EInt (half t)) ++ "s") = [l1] ->
  Forall P l -> zlen d = p_width l0 -> Forall P d -> zlen l * p_size l0 + 16 <= isize_max -> (length l < fuel)%nat -> zlen l <= zlen buf ->
  (forall e' v r, zlen v = p_width l0 -> Forall P v -> portable_widened fs c tie fop fsqrt narrow e x [v] = Some (Ok r) -> fst (func e' v) = r) ->
  exists s', scalar_fill c (map_iterator c (slice_iterator c (vty_of l0)) (vty_of l1) 0 func) 0 fuel (mkSIMDMap (simd_iter l d) env) buf =
    Ok (map (fun a => clamp (half t) (meaning (wide e) 1 fop fsqrt x [a])) l ++ skipn (length l) buf, s').
Proof.
  intros fs c tie fop fsqrt narrow e t x P l d buf l0 l1 E func env fuel T He HP Hf Hs Ht Hu Hov N0 N1 Fl Ld Fd Cap Hfu Hbuf Hrun. destruct (wide_prim e He) as (P1 & _). destruct (result_wide e _ x t He Ht) as (_ & _ & P4 & _ & B4).
  destruct (portable_vty fs e l0 T P1 N0) as (V0 & W0 & S0 & C0). destruct (portable_vty fs _ l1 T P4 N1) as (V1 & W1 & S1 & _).
  apply (fill_lanes c (vty_of l0) (vty_of l1) P (fun a => clamp (half t) (meaning (wide e) 1 fop fsqrt x [a])) l d E func env buf fuel V0 V1); try assumption.
  - rewrite W1, W0, B4. reflexivity.
  - rewrite S1, S0, B4. reflexivity.
  - unfold vty_of in C0 |- *. cbn [WIDTH SIZE] in C0 |- *. lia.
  - intros e' v Lv Fv. apply (Hrun e' v _ Lv Fv). apply (proj1 (wide_call fs c tie fop fsqrt narrow e t x P l0 v T He HP Hf Hs Ht Hu N0 Lv Fv)). destruct Hov as [Q|Q]; [left; exact Q|right]. apply (Forall_impl _ Q Fv).
Qed.

Lemma c95_fill_panic : forall (fs : features) (c : config) (tie : bool) (fop : arith -> elty -> Z -> Z -> Z) (fsqrt : elty -> Z -> Z) (narrow : Z -> Z) (e : elty) (t : ity) (x : expr) (P : Z -> Prop) (l d buf : list Z) (l0 l1 : packed_line)
    (E : Type) (func : E -> list Z -> outcome (list Z * E)) (env : E) (d0 d1 : Z) (fuel : nat) (i a : Z),
  fs "undefined"%string = false -> In e widenable -> (forall a, P a -> lane e a) ->
  (forall o e u v, e = EF32 \/ e = EF64 -> lane e u -> lane e v -> lane e (fop o e u v)) -> (forall e u, e = EF32 \/ e = EF64 -> lane e u -> lane e (fsqrt e u)) ->
  type_of (wide e) 1 x = Some (EInt t) -> t <> u64 \/ (forall a, P a -> meaning (wide e) 1 fop fsqrt x [a] <= 2147483647) ->
  portable_natural fs (el_name e ++ "s") = [l0] -> portable_natural fs (el_name (EInt (half t)) ++ "s") = [l1] ->
  Forall P l -> zlen d = p_width l0 -> Forall P d -> zlen l * p_size l0 <= isize_max -> (length l < fuel)%nat -> zlen l <= zlen buf ->
  (forall e' v r, zlen v = p_width l0 -> func e' v = Ok r -> zlen (fst r) = p_width l1) ->
  (forall e' v, zlen v = p_width l0 -> Forall P v -> portable_widened fs c tie fop fsqrt narrow e x [v] = Some (let! r := func e' v in Ok (fst r))) ->
  let done := p_width l0 * (i / p_width l0) in
  build c = Debug -> znth l i = Some a -> overflows (wide e) 1 fop fsqrt x [a] = true ->
  (forall j b, j < done -> znth l j = Some b -> overflows (wide e) 1 fop fsqrt x [b] = false) ->
  scalar_fill_memory c (panicking_map_iterator c (slice_iterator c (vty_of l0)) (vty_of l1) d0 func) d1 fuel (mkSIMDMap (simd_iter l d) env) buf =
    (map (fun b => clamp (half t) (meaning (wide e) 1 fop fsqrt x [b])) (firstn (Z.to_nat done) l) ++ skipn (Z.to_nat done) buf, Panic).
Proof.
  intros fs c tie fop fsqrt narrow e t x P l d buf l0 l1 E func env d0 d1 fuel i a T He HP Hf Hs Ht Hu N0 N1 Fl Ld Fd Cap Hfu Hbuf Hlen Hrun done B Hi Ha Hbefore.
  destruct (wide_prim e He) as (P1 & _). destruct (result_wide e _ x t He Ht) as (_ & _ & P4 & _ & B4). destruct (portable_vty fs e l0 T P1 N0) as (V0 & W0 & S0 & C0). destruct (portable_vty fs _ l1 T P4 N1) as (V1 & W1 & S1 & _).
  assert (HB : WIDTH (vty_of l0) * SIZE (vty_of l0) = WIDTH (vty_of l1) * SIZE (vty_of l1)) by (rewrite W0, W1, S0, S1, B4; reflexivity).
  pose proof (vty_ok_facts _ V0) as (Wpos & _). change (WIDTH (vty_of l0)) with (p_width l0) in *.
  destruct (c13_for_each Z unit c (vty_of l0) l d (fun u v => (v, u)) tt d0 fuel V0 Cap Ld ltac:(intros u v Lv; exact Lv) Hfu) as (vs & rest & Hc & Hr & _). change (WIDTH (vty_of l0)) with (p_width l0) in *.
  set (f := fun b => clamp (half t) (meaning (wide e) 1 fop fsqrt x [b])). pose proof (znth_Some_lt _ _ _ Hi) as Hb.
  assert (D0 : 0 <= done <= i) by (unfold done; pose proof (Z.mul_div_le i (p_width l0) Wpos); split; [apply Z.mul_nonneg_nonneg; [lia|apply Z.div_pos; lia]|lia]).
  destruct (panic_at (p_width l0) P (fun b => overflows (wide e) 1 fop fsqrt x [b] = true) (fun b => overflows (wide e) 1 fop fsqrt x [b] = false) f func l d rest vs env i a Wpos Ld Hc Hr) as (ys & Hp & Hys); try assumption.
  - intros e' v Lv Fv Ov. pose proof (Hrun e' v Lv Fv) as R. rewrite (proj1 (wide_call fs c tie fop fsqrt narrow e t x P l0 v T He HP Hf Hs Ht Hu N0 Lv Fv) (or_intror Ov)) in R.
    destruct (func e' v) as [ [r e2]| | |]; try discriminate R. cbn [bind fst] in R. injection R as R. exists e2. rewrite <- R. reflexivity.
  - intros e' v Lv Fv Ov. pose proof (Hrun e' v Lv Fv) as R. rewrite (proj2 (wide_call fs c tie fop fsqrt narrow e t x P l0 v T He HP Hf Hs Ht Hu N0 Lv Fv) B Ov) in R.
    destruct (func e' v) as [r| | |]; try discriminate R. reflexivity.
  - apply Forall_forall. intros b Hin. apply In_nth_error in Hin. destruct Hin as [k Hk]. pose proof (proj1 (nth_error_Some (firstn (Z.to_nat (p_width l0 * (i / p_width l0))) l) k) ltac:(congruence)) as Lk. rewrite firstn_length in Lk. fold done in Hk, Lk.
    apply (Hbefore (Z.of_nat k) b); [lia|]. apply znth_nat. rewrite <- (firstn_skipn (Z.to_nat done) l). rewrite nth_error_app1 by (rewrite firstn_length; lia). exact Hk.
  - fold done in Hys. assert (Ly : length (concat ys) = Z.to_nat done) by (rewrite Hys, map_length, firstn_length; unfold zlen in Hb; lia).
    rewrite (c76_fill_panic Z Z E c (vty_of l0) (vty_of l1) l d func env d0 d1 buf fuel vs rest ys V0 V1 HB Cap Ld Hlen Hc Hr Hp); [|unfold zlen in *; lia|exact Hfu]. unfold overwritten. rewrite Ly, Hys. reflexivity.
Qed.
