(** Proofs of the properties: exact totals in every x86 build, debug builds included (C78, C83, C100). *)
From Coq Require Import String.
From Verif Require Import Base Spec VecSpec Vecs Iters Zip ZipSpec GateTables GateSpec Gates Floats FloatSpec Lanes OpTables Ops OpSpec PortTables Ports PortSpec SumTables Sums SumSpec PipeSpec AvailSpec Builds ExprSpec Exprs WidenSpec Widens OverflowSpec Portables WidePorts Accums.
Open Scope list_scope.
Open Scope Z_scope.
From Coq Require Import Lia ZifyBool ZifyNat.
From Verif Require Import ListFacts VecFacts IterFacts CollectFacts MapFacts ReduceFacts VecProofs OpProofs PortProofs IterProofs SumProofs BuildProofs PipeProofs LoopProofs KernProofs DocProofs ExprProofs CollectProofs FoldProofs WidenProofs PortableProofs PortFoldProofs WidePortProofs AccumProofs.
Ltac Zify.zify_post_hook ::= Z.div_mod_to_equations.

Lemma c78_sum_exact : forall (fs : features) (fadd : elty -> Z -> Z -> Z) (c : config) (s : fold_impl) (t : ity) (v : list Z), In s x86_sum -> s_el s = EInt t -> zlen v = WIDTH (s_ty s) -> Forall (Z.le 0) v -> total v <= imax t ->
  sum_in fs fadd c (s_vec s) v = Some (Ok (total v)).
Proof.
  intros fs fadd c s t v Hs He Lv Fv Hm. assert (Bmin : imin t <= 0) by (clear; unfold imin; destruct (isigned t); [|lia]; pose proof (imod_pos t); assert (0 <= imod t / 2) by (apply Z.div_pos; lia); lia).
  assert (In0 : forall y, 0 <= y <= imax t -> in_ity t y) by (intros y Hy; unfold in_ity; clear -Hy Bmin; lia). destruct (total_nonneg v Fv) as [T1 T2].
  assert (Iv : Forall (in_ity t) v) by (clear -Fv T2 In0 Hm; rewrite Forall_forall in *; intros y Hy; apply In0; specialize (Fv y Hy); specialize (T2 y Hy); lia).
  assert (Part : forall k, in_ity t (total (firstn k v)) /\ in_ity t (total (skipn k v))).
  { intros k. clear -Fv Hm In0. rewrite <- (firstn_skipn k v) in Hm, Fv. rewrite total_app2 in Hm. apply Forall_app in Fv. destruct Fv as [A B]. destruct (total_nonneg _ A) as [A1 _]. destruct (total_nonneg _ B) as [B1 _]. split; apply In0; lia. }
  assert (No : no_overflow t v) by (intros k; exact (proj1 (Part k))). assert (Fin : forall r, sum_mod t v r -> r = total v) by (intros r [R1 [j R2]]; rewrite <- (wrap_id t r R1); rewrite (wrap_wraps t r (total v)) by (exists j; exact R2); apply wrap_id, In0; lia).
  destruct (sum_coherent fadd) as [C _]. unfold sum_in, fold_in.
  destruct (present_one _ _ _ _ _ _ _ _ (x86_sum_optimized ++ x86_sum_float fadd) x86_sum fs s C Hs) as [E|(x & Hin & K & S & _ & E)]; cbv beta in E; rewrite E; cbn [run_one].
  - destruct (c42_sum_portable fadd c s t v (in_or_app _ _ _ (or_introl Hs)) He (conj Lv Iv) (or_intror No)) as (r & H1 & H2). rewrite H1, (Fin r H2). reflexivity.
  - injection S as S1 S2. apply in_app_or in Hin. destruct Hin as [Hin|Hin].
    + destruct (c42_sum_optimized_partial c x t v Hin) as (r & H1 & H2); [congruence|rewrite S1; exact (conj Lv Iv)|right; right; split; [apply In0; lia|split; apply Part]|]. rewrite H1, (Fin r H2). reflexivity.
    + exfalso. rewrite He in S2. clear - Hin S2. cbn [x86_sum_float In] in Hin. destruct Hin as [<-|[<-|[<-|[<-|[]]]]]; discriminate.
Qed.

Lemma c83_total : forall (fs : features) (fadd : elty -> Z -> Z -> Z) (c : config) (t : ity) (l : list Z) (l0 : packed_line) (fuel : nat),
  let zero := splat (p_width l0) 0 in
  target fs -> In (EInt t) primitives -> natural fs (el_name (EInt t) ++ "s") = [l0] -> Forall (Z.le 0) l -> total l <= imax t -> zlen l * p_size l0 <= isize_max -> (length l < fuel)%nat ->
  exists acc s', simd_reduce (slice_iterator c (vty_of l0)) fuel (simd_iter l zero) zero (fun a v => map2 (fun x y => wrap t (x + y)) a v) = Ok (acc, s') /\ sum_in fs fadd c (p_vec l0) acc = Some (Ok (total l)).
Proof.
  intros fs fadd c t l l0 fuel zero T H0 N0 Fl Hm Cap Hfu. destruct (natural_vty fs _ l0 T H0 N0) as (V0 & W0 & S0 & _). destruct (method_int t (EInt t) H0 (or_introl eq_refl)) as [By [Bmin _]].
  assert (In0 : forall y, 0 <= y <= imax t -> in_ity t y) by (intros y Hy; unfold in_ity; clear -Hy Bmin; lia). pose proof (vty_ok_facts _ V0) as (F1 & _). change (WIDTH (vty_of l0)) with (p_width l0) in F1.
  assert (Wp : 0 < p_width l0) by (clear -F1; lia). destruct (splat_lanes (Z.le 0) (p_width l0) 0 Wp (Z.le_refl 0)) as (Lz & Fz & _). fold zero in Lz, Fz.
  set (f := fun a v => map2 (fun x y => wrap t (x + y)) a v).
  destruct (c06_reduce Z (list Z) c (vty_of l0) l zero 0 zero f fuel V0 Cap Lz (conj (Z.le_refl 0) (zlen_nonneg l)) (or_introl eq_refl) Hfu) as (vs & rest & [Hc1 Hc2] & Hr & _ & Hred & _). cbn [Z.to_nat skipn] in Hc2. change (WIDTH (vty_of l0)) with (p_width l0) in *.
  set (args := vs ++ match rest with [] => [] | _ :: _ => [right_aligned zero rest] end) in *.
  assert (Fl2 : Forall (Z.le 0) (concat vs ++ rest)) by (rewrite Hc2; exact Fl). apply Forall_app in Fl2. destruct Fl2 as [L1 L2].
  assert (Hargs : Forall (fun v => length v = Z.to_nat (p_width l0) /\ Forall (Z.le 0) v) args).
  { unfold args. apply Forall_app. split.
    - clear -Hc1 L1. induction vs as [|v vs IH]; [constructor|]. cbn [concat] in L1. apply Forall_app in L1. destruct L1 as [A B]. pose proof (Forall_inv Hc1) as C. cbv beta in C. constructor; [split; [unfold zlen in C; clear -C; lia|exact A]|apply IH; [exact (Forall_inv_tail Hc1)|exact B]].
    - destruct rest as [|y r]; constructor; [|constructor]. split; [pose proof (right_aligned_len zero (y :: r) ltac:(lia)) as R; rewrite Lz in R; unfold zlen in R; clear -R; lia|]. unfold right_aligned. apply Forall_app. split; [|exact L2]. apply forall_firstn. exact Fz. }
  assert (Tot : total (concat args) = total l).
  { unfold args. rewrite <- Hc2, concat_app, !total_app2. destruct rest as [|y r]; [reflexivity|]. cbn [concat]. rewrite app_nil_r. unfold right_aligned. rewrite total_app2. f_equal.
    assert (Z0 : forall n m, total (firstn n (repeat 0 m)) = 0) by (clear; induction n as [|n IH]; intros [|m]; try reflexivity; cbn [repeat firstn]; rewrite total_cons, IH; reflexivity). unfold zero, splat. rewrite Z0. reflexivity. }
  destruct (sum_vectors (Z.to_nat (p_width l0)) (imax t) f args zero) as (O1 & O2 & O3).
  - unfold zlen in Lz. clear -Lz. lia.
  - exact Fz.
  - exact Hargs.
  - unfold zero, splat. rewrite total_zeros, Tot. exact Hm.
  - intros a v La Lv Fa Fv Fs. unfold f. clear -In0 Fa Fv Fs. revert v Fv Fs. induction a as [|p a IH]; intros [|q v] Fv Fs; try reflexivity. cbn [map2] in *. f_equal; [apply wrap_id, In0; pose proof (Forall_inv Fa); pose proof (Forall_inv Fv); pose proof (Forall_inv Fs) as M; cbv beta in M; lia|]. apply IH; [exact (Forall_inv_tail Fa)|exact (Forall_inv_tail Fv)|exact (Forall_inv_tail Fs)].
  - unfold zero, splat in O3. rewrite total_zeros, Tot in O3. cbn [Z.add] in O3. eexists. eexists. split; [exact Hred|]. fold zero in O1, O2. set (acc := fold_left f args zero) in *. change (total acc = total l) in O3.
    destruct (natural_line fs _ T H0) as (m & M & _ & V & W & _). rewrite N0 in M. injection M as <-. destruct (sum_line fs _ H0 eq_refl) as (p & S1 & S2 & S3 & S4).
    rewrite V, <- S2, <- O3. apply (c78_sum_exact fs fadd c p t acc S1 S3); [rewrite S4; cbn [WIDTH]; rewrite <- W; unfold zlen; clear -O1 Wp; lia|exact O2|rewrite O3; exact Hm].
Qed.

Lemma c100_total_x86 : forall (fs : features) (fadd : elty -> Z -> Z -> Z) (c : config) (tie : bool) (fop : arith -> elty -> Z -> Z -> Z) (fsqrt : elty -> Z -> Z) (narrow : Z -> Z) (t : ity) (x : expr) (h : Z -> Z) (Q : Z -> Prop) (l : list Z) (d : Z) (l0 lw : packed_line) (f : list Z -> list Z -> list Z) (fuel : nat),
  let u := mkIty (isigned t) (2 * ibytes t) in
  target fs -> In (EInt t) widenable ->
  (forall o e u v, e = EF32 \/ e = EF64 -> lane e u -> lane e v -> lane e (fop o e u v)) -> (forall e u, e = EF32 \/ e = EF64 -> lane e u -> lane e (fsqrt e u)) ->
  type_of (EInt u) 3 x = Some (EInt u) -> natural fs (el_name (EInt t) ++ "s") = [l0] -> natural fs (el_name (EInt u) ++ "s") = [lw] ->
  (forall a, Q a -> in_ity t a /\ 0 <= h a) ->
  (forall y a b, 0 <= y -> Q a -> Q b -> y + h a + h b <= imax u -> meaning (EInt u) 3 fop fsqrt x [y; a; b] = y + h a + h b) ->
  Q d -> h d = 0 -> Forall Q l -> total (map h l) <= imax u -> zlen l * p_size l0 <= isize_max -> (length l < fuel)%nat ->
  (forall s v, zlen s = p_width lw -> zlen v = p_width l0 -> Forall (in_ity u) s -> Forall (in_ity t) v -> accumulate_in fs tie fop fsqrt narrow (EInt t) x s v = Some (Ok (f s v))) ->
  exists acc s', simd_reduce (slice_iterator c (vty_of l0)) fuel (simd_iter l (splat (p_width l0) d)) (splat (p_width lw) 0) f = Ok (acc, s') /\
    sum_in fs fadd c (p_vec lw) acc = Some (Ok (total (map h l))).
Proof.
  intros fs fadd c tie fop fsqrt narrow t x h Q l d l0 lw f fuel u T He Hf Hsq Tx N0 Nw HQ Hx Hd Hd0 Hl Hm Cap Hfu Rx. destruct (wide_prim _ He) as (P1 & P2 & _). change (wide (EInt t)) with (EInt u) in *. destruct (widths_double fs (EInt t) l0 lw T He N0 Nw) as (Ww & Wp & _ & _).
  destruct (natural_vty fs _ l0 T P1 N0) as (V0 & _). destruct (splat_lanes Q (p_width l0) d ltac:(lia) Hd) as (Ls & Fs & _). destruct (method_int u (EInt u) P2 (or_introl eq_refl)) as [By [Bmin Bmax]].
  assert (In0 : forall y, 0 <= y <= imax u -> in_ity u y) by (intros y Hy; unfold in_ity; clear -Hy Bmin; lia).
  destruct (c06_reduce Z (list Z) c (vty_of l0) l (splat (p_width l0) d) 0 (splat (p_width lw) 0) f fuel V0 Cap Ls (conj (Z.le_refl 0) (zlen_nonneg l)) (or_introl eq_refl) Hfu) as (vs & rest & [Hc1 Hc2] & Hr & _ & Hred & _). cbn [Z.to_nat skipn] in Hc2. change (WIDTH (vty_of l0)) with (p_width l0) in *.
  set (args := vs ++ match rest with [] => [] | _ :: _ => [right_aligned (splat (p_width l0) d) rest] end) in *.
  assert (Hl2 : Forall Q (concat vs ++ rest)) by (rewrite Hc2; exact Hl). apply Forall_app in Hl2. destruct Hl2 as [L1 L2].
  assert (Hargs : Forall (fun v => zlen v = 2 * p_width lw /\ Forall Q v) args).
  { rewrite <- Ww. unfold args. apply Forall_app. split.
    - clear -Hc1 L1. induction vs as [|v vs IH]; [constructor|]. cbn [concat] in L1. apply Forall_app in L1. destruct L1 as [A B]. pose proof (Forall_inv Hc1) as C. cbv beta in C. constructor; [split; [exact C|exact A]|apply IH; [exact (Forall_inv_tail Hc1)|exact B]].
    - destruct rest as [|y r]; constructor; [|constructor]. split; [rewrite right_aligned_len by lia; exact Ls|]. unfold right_aligned. apply Forall_app. split; [|exact L2]. apply forall_firstn. exact Fs. }
  assert (Tot : total (map h (concat args)) = total (map h l)).
  { unfold args. rewrite <- Hc2, concat_app, !map_app, !total_app2. destruct rest as [|y r]; [reflexivity|]. cbn [concat]. rewrite app_nil_r. unfold right_aligned. rewrite map_app, total_app2. f_equal.
    assert (Z0 : forall k j, total (map h (firstn k (repeat d j))) = 0) by (clear -Hd0; induction k as [|k IH]; intros [|j]; try reflexivity; cbn [repeat firstn map]; rewrite total_cons, IH, Hd0; reflexivity). unfold splat. rewrite Z0. reflexivity. }
  destruct (total_accumulated Q h (p_width lw) (imax u) f) with (vs := args) (acc := splat (p_width lw) 0) as (O1 & O2 & O3).
  - intros q Hq. apply HQ. exact Hq.
  - exact Wp.
  - intros s a b Lsn La Lb Fs0 Fa Fb Fm. assert (Lab : zlen (a ++ b) = p_width l0) by (rewrite zlen_app; lia). assert (Fab : Forall Q (a ++ b)) by (apply Forall_app; split; assumption).
    assert (Iab : Forall (in_ity t) (a ++ b)) by (eapply Forall_impl; [|exact Fab]; intros q Hq; apply HQ; exact Hq).
    assert (K : Forall (fun y => 0 <= y <= imax u) s /\ forall k y p q, znth s k = Some y -> znth a k = Some p -> znth b k = Some q -> 0 <= y /\ Q p /\ Q q /\ y + h p + h q <= imax u).
    { assert (E1 : length s = length a) by (clear -Lsn La; unfold zlen in *; lia). assert (E2 : length a = length b) by (clear -Lb La; unfold zlen in *; lia). clear -E1 E2 Fs0 Fa Fb Fm HQ. revert a b E1 E2 Fa Fb Fm. induction s as [|y s IH]; intros [|p a] [|q b] E1 E2 Fa Fb Fm; try discriminate E1; try discriminate E2.
      - split; [constructor|]. intros k y p q Hy. unfold znth in Hy. destruct (k <? 0); [discriminate|destruct (Z.to_nat k); discriminate].
      - cbn [map map2] in Fm. pose proof (Forall_inv Fm) as M0. cbv beta in M0. pose proof (Forall_inv Fs0) as Y0. destruct (HQ p (Forall_inv Fa)) as [_ Hp]. destruct (HQ q (Forall_inv Fb)) as [_ Hq]. destruct (IH (Forall_inv_tail Fs0) a b ltac:(cbn in E1; lia) ltac:(cbn in E2; lia) (Forall_inv_tail Fa) (Forall_inv_tail Fb) (Forall_inv_tail Fm)) as [I1 I2].
        split; [constructor; [lia|exact I1]|]. intros k y' p' q' Hy' Hp' Hq'. destruct (Z.eq_dec k 0) as [->|Nk]; [injection Hy' as <-; injection Hp' as <-; injection Hq' as <-; split; [exact Y0|split; [exact (Forall_inv Fa)|split; [exact (Forall_inv Fb)|exact M0]]]|].
        pose proof (znth_Some_lt _ _ _ Hy') as Hk. rewrite znth_cons_shift in Hy', Hp', Hq' by lia. exact (I2 (k - 1) y' p' q' Hy' Hp' Hq'). }
    destruct K as [Ks Kv]. assert (Is : Forall (in_ity u) s) by (eapply Forall_impl; [exact In0|exact Ks]).
    destruct (c100_step fs tie fop fsqrt narrow (EInt t) x s (a ++ b) l0 lw T He Hf Hsq Tx N0 Nw Lsn Is Lab Iab) as (r & Rr & Lr & _ & M).
    rewrite (Rx s (a ++ b) Lsn Lab Is Iab) in Rr. injection Rr as Rr. rewrite Rr. apply (meaning3 s a b r (fun y p q => y + h p + h q)) with (S := fun _ => True) (A := fun _ => True); try (unfold zlen in *; clear -Lsn La Lb Lr; lia); try (apply Forall_forall; intros; exact I); try (intros; reflexivity).
    intros k y p q Hy Hp Hq. destruct (Kv k y p q Hy Hp Hq) as (K1 & K2 & K3 & K4). rewrite <- (Hx y p q K1 K2 K3 K4). pose proof (znth_Some_lt _ _ _ Hy) as Hk. apply M; [exact Hy| |]; rewrite znth_app by lia; [replace (k <? zlen a) with true by lia; exact Hp|replace (k + p_width lw <? zlen a) with false by lia; replace (k + p_width lw - zlen a) with k by lia; exact Hq].
  - unfold splat. rewrite zlen_repeat. clear -Wp. lia.
  - unfold splat. apply Forall_forall. intros y Hy. apply repeat_spec in Hy. subst y. reflexivity.
  - exact Hargs.
  - unfold splat. rewrite total_zeros, Tot. exact Hm.
  - unfold splat in O3. rewrite total_zeros, Tot in O3. cbn [Z.add] in O3. set (acc := fold_left f args (splat (p_width lw) 0)) in *. change (fold_left f args (repeat 0 (Z.to_nat (p_width lw)))) with acc in O3.
    destruct (natural_line fs _ T P2) as (m & M & _ & V & W & _). change (wide (EInt t)) with (EInt u) in M. rewrite Nw in M. injection M as <-. destruct (sum_line fs _ P2 eq_refl) as (p & S1 & S2 & S3 & S4).
    eexists acc, _. split; [exact Hred|]. rewrite V, <- S2, <- O3. apply (c78_sum_exact fs fadd c p u acc S1 S3); [rewrite S4; cbn [WIDTH]; rewrite <- W; exact O1|exact O2|rewrite O3; exact Hm].
Qed.

Lemma c100_closures_exact : forall (fs : features) (fadd : elty -> Z -> Z -> Z) (c : config) (tie : bool) (fop : arith -> elty -> Z -> Z -> Z) (fsqrt : elty -> Z -> Z) (narrow : Z -> Z) (t : ity) (x : expr) (h : Z -> Z) (l : list Z) (l0 lw : packed_line) (f : list Z -> list Z -> list Z) (fuel : nat),
  let u := mkIty (isigned t) (2 * ibytes t) in
  x = add_halves /\ h = (fun a => a) /\ Forall (Z.le 0) l \/ x = add_squares /\ h = (fun a => a * a) ->
  target fs -> In (EInt t) widenable ->
  (forall o e u v, e = EF32 \/ e = EF64 -> lane e u -> lane e v -> lane e (fop o e u v)) -> (forall e u, e = EF32 \/ e = EF64 -> lane e u -> lane e (fsqrt e u)) ->
  natural fs (el_name (EInt t) ++ "s") = [l0] -> natural fs (el_name (EInt u) ++ "s") = [lw] ->
  Forall (in_ity t) l -> total (map h l) <= imax u -> zlen l * p_size l0 <= isize_max -> (length l < fuel)%nat ->
  (forall s v, zlen s = p_width lw -> zlen v = p_width l0 -> Forall (in_ity u) s -> Forall (in_ity t) v -> accumulate_in fs tie fop fsqrt narrow (EInt t) x s v = Some (Ok (f s v))) ->
  exists acc s', simd_reduce (slice_iterator c (vty_of l0)) fuel (simd_iter l (splat (p_width l0) 0)) (splat (p_width lw) 0) f = Ok (acc, s') /\
    sum_in fs fadd c (p_vec lw) acc = Some (Ok (total (map h l))).
Proof.
  intros fs fadd c tie fop fsqrt narrow t x h l l0 lw f fuel u Hx T He Hf Hsq N0 Nw Hl Hm Cap Hfu Rx. destruct (wide_prim _ He) as (P1 & P2 & _). destruct (method_int t (EInt t) P1 (or_introl eq_refl)) as [_ B]. destruct (method_int u (EInt u) P2 (or_introl eq_refl)) as [_ [Bn Bm]].
  assert (In0 : forall y, 0 <= y <= imax u -> in_ity u y) by (intros y Hy; unfold in_ity; clear -Hy Bn; lia). assert (Out : forall y, 0 <= y <= imax u -> outside u y = false) by (intros y Hy; unfold outside; clear -Hy Bn; lia).
  assert (Ty : type_of (EInt u) 3 x = Some (EInt u)) by (destruct Hx as [[-> _]|[-> _]]; [exact (proj1 (halves_meaning t fop fsqrt 0 0 0 He))|exact (proj1 (squares_meaning t fop fsqrt 0 0 0 He))]).
  destruct Hx as [(Ex & Eh & Fl)|[Ex Eh]].
  - apply (c100_total_x86 fs fadd c tie fop fsqrt narrow t x h (fun a => in_ity t a /\ 0 <= a) l 0 l0 lw f fuel T He Hf Hsq Ty N0 Nw); try assumption; subst x h.
    + intros a Ha. exact Ha.
    + intros y p q Hy [_ Hp] [_ Hq] Hs. cbv beta in Hs, Hp, Hq |- *. fold u in Hs |- *. assert (A : wrap u (y + p) = y + p) by (apply wrap_id, In0; lia). destruct (halves_meaning t fop fsqrt y p q He) as (_ & M1 & _). fold u in M1. etransitivity; [exact M1|]. rewrite A. apply wrap_id, In0. lia.
    + split; [exact B|lia].
    + reflexivity.
    + clear -Hl Fl. rewrite Forall_forall in *. intros a Ha. split; [exact (Hl a Ha)|exact (Fl a Ha)].
  - apply (c100_total_x86 fs fadd c tie fop fsqrt narrow t x h (in_ity t) l 0 l0 lw f fuel T He Hf Hsq Ty N0 Nw); try assumption; subst x h.
    + intros a Ha. split; [exact Ha|nia].
    + intros y p q Hy Hp Hq Hs. cbv beta in Hs |- *. fold u in Hs |- *. assert (P : 0 <= p * p) by nia. assert (Q : 0 <= q * q) by nia. assert (A : wrap u (p * p) = p * p) by (apply wrap_id, In0; lia). assert (C : wrap u (q * q) = q * q) by (apply wrap_id, In0; lia). assert (D : wrap u (y + p * p) = y + p * p) by (apply wrap_id, In0; lia).
      destruct (squares_meaning t fop fsqrt y p q He) as (_ & M1 & _). fold u in M1. etransitivity; [exact M1|]. rewrite A, C, D. apply wrap_id, In0. lia.
    + reflexivity.
Qed.
