(** Proofs of the properties: inner products of two slices in a wider type (C100). *)
From Coq Require Import String.
From Verif Require Import Base Spec VecSpec Vecs Iters Zip ZipSpec GateTables GateSpec Gates Floats FloatSpec Lanes OpTables Ops OpSpec PortTables Ports PortSpec SumTables Sums SumSpec PipeSpec AvailSpec Builds ExprSpec Exprs WidenSpec Widens OverflowSpec Portables WidePorts ZipAccums.
Open Scope list_scope.
Open Scope Z_scope.
From Coq Require Import Lia ZifyBool ZifyNat.
From Verif Require Import ListFacts VecFacts IterFacts CollectFacts MapFacts ReduceFacts VecProofs OpProofs PortProofs IterProofs SumProofs BuildProofs PipeProofs LoopProofs KernProofs DocProofs ExprProofs CollectProofs FoldProofs WidenProofs PortableProofs PortFoldProofs WidePortProofs ZipProofs DotProofs AccumProofs TotalProofs.
Ltac Zify.zify_post_hook ::= Z.div_mod_to_equations.

Lemma fold_related : forall {R A B : Type} (I : R -> Prop) (f : R -> list A * list B -> R) (F : R -> list Z -> R) (g : A -> B -> Z) (G : list A -> list B -> Prop) vs1 vs2 s, length vs1 = length vs2 ->
  (forall acc v w, I acc -> G v w -> I (f acc (v, w)) /\ f acc (v, w) = F acc (map2 g v w)) -> (forall v w, In (v, w) (combine vs1 vs2) -> G v w) -> I s ->
  I (fold_left f (combine vs1 vs2) s) /\ fold_left f (combine vs1 vs2) s = fold_left F (map2 (map2 g) vs1 vs2) s.
Proof.
  intros R A B I f F g G. induction vs1 as [|v vs1 IH]; intros [|w vs2] s L H K Hs; try discriminate L; [split; [exact Hs|reflexivity]|]. cbn [combine fold_left map2]. destruct (H s v w Hs (K v w (or_introl eq_refl))) as [H1 H2]. rewrite <- H2. apply IH; [cbn in L; lia|exact H|intros a b Hab; apply K; right; exact Hab|exact H1].
Qed.

Lemma zip_fold : forall (R : Type) (P : Z -> Prop) (I : R -> Prop) (c : config) (ty : vty) (l1 d1 l2 d2 : list Z) (g : Z -> Z -> Z) (start : R) (f : R -> list Z * list Z -> R) (F : R -> list Z -> R) (fuel : nat),
  vty_ok ty -> slice_ok ty l1 -> slice_ok ty l2 -> zlen d1 = WIDTH ty -> zlen d2 = WIDTH ty -> zlen l1 = zlen l2 -> (length l1 < fuel)%nat -> Forall P l1 -> Forall P l2 -> Forall P d1 -> Forall P d2 -> I start ->
  (forall acc v w, I acc -> zlen v = WIDTH ty -> zlen w = WIDTH ty -> Forall P v -> Forall P w -> I (f acc (v, w)) /\ f acc (v, w) = F acc (map2 g v w)) ->
  let rest := rest_one (blanket_unsafe c (si_array (slice_array c ty)) (si_iterable c (slice_array c ty))) in
  let st := (simd_iter l1 d1, simd_iter l2 d2) in
  zip (slice_iterator c ty) rest st = Ok st /\
  exists vs rs s, chunked (WIDTH ty) (map2 g l1 l2) vs rs /\ zlen rs < WIDTH ty /\
    simd_reduce (zip_iterator (slice_iterator c ty) rest) fuel st start f = Ok (fold_left F (vs ++ match rs with [] => [] | _ :: _ => [right_aligned (map2 g d1 d2) rs] end) start, s).
Proof.
  intros R P I c ty l1 d1 l2 d2 g start f F fuel T L1 L2 D1 D2 Hl Hf P1 P2 Q1 Q2 Hs HF rest st. pose proof (vty_ok_facts _ T) as (H1 & _). pose proof (zlen_nonneg l1).
  destruct (two_slices Z Z c ty ty l1 d1 l2 d2 0 0 T T eq_refl L1 L2 D1 ltac:(lia) Hl ltac:(lia) ltac:(lia) ltac:(lia)) as (Hz & vs1 & r1 & vs2 & r2 & s & He & [Hc1 Hc1'] & [Hc2 Hc2'] & Hv & Hr & Hlt & _).
  cbn [Z.to_nat skipn] in Hc1', Hc2'. split; [exact Hz|].
  assert (Lg : forall a b, length a = length b -> zlen (map2 g a b) = zlen a) by (intros a b K; unfold zlen; rewrite map2_len by exact K; reflexivity).
  destruct (DotProofs.map2_concat g (WIDTH ty) vs1 vs2 Hv Hc1 Hc2) as [M1 M2].
  exists (map2 (map2 g) vs1 vs2), (map2 g r1 r2), s. split; [split; [exact M2|]|split; [rewrite Lg by exact Hr; exact Hlt|]].
  - rewrite M1, <- Hc1', <- Hc2', map2_app; [reflexivity|]. pose proof (concat_zlen _ vs1 Hc1). pose proof (concat_zlen _ vs2 Hc2). unfold zlen in *. lia.
  - rewrite (emits_reduce _ _ _ _ _ He).
    2:{ rewrite combine_length. pose proof (chunked_length ty l1 T vs1 r1 (conj Hc1 Hc1')). lia. }
    f_equal. f_equal. unfold visited. rewrite !fold_left_app.
    assert (X1 : Forall P (concat vs1 ++ r1)) by (rewrite Hc1'; exact P1). assert (X2 : Forall P (concat vs2 ++ r2)) by (rewrite Hc2'; exact P2). apply Forall_app in X1, X2. destruct X1 as [X1 Y1]. destruct X2 as [X2 Y2].
    destruct (fold_related I f F g (fun v w => zlen v = WIDTH ty /\ zlen w = WIDTH ty /\ Forall P v /\ Forall P w) vs1 vs2 start Hv) as [F1 F2].
    + intros acc v w Ha (G1 & G2 & G3 & G4). apply HF; assumption.
    + intros v w Hvw. pose proof (in_combine_l _ _ _ _ Hvw) as U1. pose proof (in_combine_r _ _ _ _ Hvw) as U2. rewrite Forall_forall in Hc1, Hc2. split; [exact (Hc1 v U1)|]. split; [exact (Hc2 w U2)|]. rewrite Forall_forall in X1, X2. split; apply Forall_forall; intros y Hy; [apply X1|apply X2]; apply in_concat; [exists v|exists w]; split; assumption.
    + exact Hs.
    + rewrite <- F2. unfold tail_of. destruct r1 as [|x r1]; destruct r2 as [|y r2]; try discriminate Hr; [reflexivity|]. cbn [fold_left fst snd].
      assert (Ld : length d1 = length d2) by (unfold zlen in *; lia).
      destruct (HF (fold_left f (combine vs1 vs2) start) (right_aligned d1 (x :: r1)) (right_aligned d2 (y :: r2)) F1) as [_ E].
      * rewrite right_aligned_len by lia. exact D1.
      * rewrite right_aligned_len by (unfold zlen in *; lia). exact D2.
      * unfold right_aligned. apply Forall_app. split; [apply forall_firstn; exact Q1|exact Y1].
      * unfold right_aligned. apply Forall_app. split; [apply forall_firstn; exact Q2|exact Y2].
      * rewrite E. cbn [map2 fold_left]. f_equal. change (g x y :: map2 g r1 r2) with (map2 g (x :: r1) (y :: r2)).
        unfold right_aligned. rewrite map2_app; [|rewrite !firstn_length; cbn [length] in *; lia]. rewrite map2_len by exact Ld. rewrite (map2_len _ (x :: r1)) by exact Hr. rewrite <- Hr, <- Ld, map2_firstn. reflexivity.
Qed.

Lemma c100_zip_step : forall (fs : features) (tie : bool) (fop : arith -> elty -> Z -> Z -> Z) (fsqrt : elty -> Z -> Z) (narrow : Z -> Z) (e : elty) (x : expr) (s v w : list Z) (l0 lw : packed_line),
  target fs -> In e widenable ->
  (forall o e u v, e = EF32 \/ e = EF64 -> lane e u -> lane e v -> lane e (fop o e u v)) -> (forall e u, e = EF32 \/ e = EF64 -> lane e u -> lane e (fsqrt e u)) ->
  type_of (wide e) 5 x = Some (wide e) -> natural fs (el_name e ++ "s") = [l0] -> natural fs (el_name (wide e) ++ "s") = [lw] ->
  zlen s = p_width lw -> Forall (lane (wide e)) s -> zlen v = p_width l0 -> Forall (lane e) v -> zlen w = p_width l0 -> Forall (lane e) w ->
  exists r, accumulate_zip_in fs tie fop fsqrt narrow e x s v w = Some (Ok r) /\ zlen r = p_width lw /\ Forall (lane (wide e)) r /\
    forall k y a b p q, znth s k = Some y -> znth v k = Some a -> znth w k = Some b -> znth v (k + p_width lw) = Some p -> znth w (k + p_width lw) = Some q ->
      znth r k = Some (meaning (wide e) 5 fop fsqrt x [y; a; b; p; q]).
Proof.
  intros fs tie fop fsqrt narrow e x s v w l0 lw T He Hf Hs Ht N0 Nw Ls Fs Lv Fv Lw Fw. destruct (wide_prim e He) as (P1 & P2 & _). destruct (widths_double fs e l0 lw T He N0 Nw) as (Ww & Wp & N1 & N2).
  destruct (upcast_all_ok fs narrow e l0 lw [v; w] T He N0 Nw) as (us & vs & Eu & Lu & Lvs & Fu & Fvs & Cu); [constructor; [split; assumption|constructor; [split; assumption|constructor]]|].
  destruct us as [|va [|wa [|? ?]]]; try discriminate Lu. destruct vs as [|vb [|wb [|? ?]]]; try discriminate Lvs.
  destruct (Forall_inv Fu) as [La Fa]. destruct (Forall_inv (Forall_inv_tail Fu)) as [La' Fa']. destruct (Forall_inv Fvs) as [Lb Fb]. destruct (Forall_inv (Forall_inv_tail Fvs)) as [Lb' Fb'].
  destruct (c83_closure fs tie fop fsqrt narrow (wide e) (wide e) x [s; va; wa; vb; wb] lw lw T P2 Hf Hs Ht Nw Nw ltac:(discriminate)) as (r & Rr & Lr & Fr & M); [repeat (constructor; [split; assumption|]); constructor|]. cbn [length] in Rr, M.
  exists r. unfold accumulate_zip_in. rewrite N1, N2, Eu. cbn [andthen fst snd app]. split; [exact Rr|]. split; [exact Lr|]. split; [exact Fr|].
  intros k y a b p q Hy Ha Hb Hp Hq. pose proof (znth_Some_lt _ _ _ Hy) as Hk.
  destruct (Cu k [a; b]) as [C1 _]; [repeat (constructor; [assumption|]); constructor|]. specialize (C1 ltac:(lia)).
  destruct (Cu (k + p_width lw) [p; q]) as [_ C2]; [repeat (constructor; [assumption|]); constructor|]. specialize (C2 ltac:(lia)). replace (k + p_width lw - p_width lw) with k in C2 by lia.
  inversion C1 as [|? ? ? ? K1 K2]; subst. inversion K2 as [|? ? ? ? K3 K4]; subst. inversion C2 as [|? ? ? ? K5 K6]; subst. inversion K6 as [|? ? ? ? K7 K8]; subst.
  apply M. repeat (constructor; [assumption|]). constructor.
Qed.

Lemma map2_lanes : forall (A B C : Z -> Prop) (g : Z -> Z -> Z), (forall a b, A a -> B b -> C (g a b)) -> forall l1 l2, Forall A l1 -> Forall B l2 -> Forall C (map2 g l1 l2).
Proof. intros A B C g H. induction l1 as [|a l1 IH]; intros [|b l2] F1 F2; try constructor. - apply H; [exact (Forall_inv F1)|exact (Forall_inv F2)]. - apply IH; [exact (Forall_inv_tail F1)|exact (Forall_inv_tail F2)]. Qed.

Lemma map2_splat : forall (g : Z -> Z -> Z) n a b, map2 g (splat n a) (splat n b) = splat n (g a b).
Proof. intros g n a b. unfold splat. induction (Z.to_nat n) as [|m IH]; [reflexivity|]. cbn [repeat map2]. rewrite IH. reflexivity. Qed.

Lemma znth_ext_eq : forall (r q : list Z), length r = length q -> (forall k y, znth q k = Some y -> znth r k = Some y) -> r = q.
Proof.
  induction r as [|x r IH]; intros [|y q] L H; try discriminate L; [reflexivity|]. f_equal; [specialize (H 0 y eq_refl); injection H as ->; reflexivity|]. apply IH; [cbn in L; lia|]. intros k z Hz. pose proof (znth_Some_lt _ _ _ Hz) as Hk. specialize (H (k + 1) z). rewrite !znth_cons_shift in H by lia. replace (k + 1 - 1) with k in H by lia. apply H. exact Hz.
Qed.

Lemma znth_map2_inv : forall (g : Z -> Z -> Z) a b k y, znth (map2 g a b) k = Some y -> exists p q, znth a k = Some p /\ znth b k = Some q /\ y = g p q.
Proof.
  intros g. induction a as [|p a IH]; intros [|q b] k y H; try (pose proof (znth_Some_lt _ _ _ H) as Hk; cbn in Hk; exfalso; lia). pose proof (znth_Some_lt _ _ _ H) as Hk. cbn [map2] in H. destruct (Z.eq_dec k 0) as [->|Nk]; [injection H as <-; exists p, q; repeat split|].
  rewrite znth_cons_shift in H by lia. destruct (IH b _ _ H) as (p' & q' & H1 & H2 & H3). exists p', q'. rewrite !znth_cons_shift by lia. split; [exact H1|]. split; [exact H2|exact H3].
Qed.

Lemma zip_wraps : forall (c : config) (t u : ity) (g : Z -> Z -> Z) (l1 l2 : list Z) (d1 d2 : Z) (ty : vty) (n : Z) (f : list Z -> list Z * list Z -> list Z) (fuel : nat),
  vty_ok ty -> WIDTH ty = 2 * n -> 0 < n -> (0 < ibytes u)%nat -> in_ity u 0 -> slice_ok ty l1 -> slice_ok ty l2 -> zlen l1 = zlen l2 -> (length l1 < fuel)%nat ->
  in_ity t d1 -> in_ity t d2 -> g d1 d2 = 0 -> Forall (in_ity t) l1 -> Forall (in_ity t) l2 ->
  (forall s v w, zlen s = n -> zlen v = 2 * n -> zlen w = 2 * n -> Forall (in_ity u) s -> Forall (in_ity t) v -> Forall (in_ity t) w ->
    zlen (f s (v, w)) = n /\ Forall (in_ity u) (f s (v, w)) /\
    forall k y a b p q, znth s k = Some y -> znth v k = Some a -> znth w k = Some b -> znth v (k + n) = Some p -> znth w (k + n) = Some q -> znth (f s (v, w)) k = Some (wrap u (y + g a b + g p q))) ->
  let rest := rest_one (blanket_unsafe c (si_array (slice_array c ty)) (si_iterable c (slice_array c ty))) in
  let st := (simd_iter l1 (splat (2 * n) d1), simd_iter l2 (splat (2 * n) d2)) in
  zip (slice_iterator c ty) rest st = Ok st /\
  exists acc s', simd_reduce (zip_iterator (slice_iterator c ty) rest) fuel st (splat n 0) f = Ok (acc, s') /\ zlen acc = n /\ Forall (in_ity u) acc /\ wrap u (total acc) = wrap u (total (map2 g l1 l2)) /\
    (Forall (Z.le 0) (map2 g l1 l2) -> total (map2 g l1 l2) <= imax u -> Forall (Z.le 0) acc /\ total acc = total (map2 g l1 l2)).
Proof.
  intros c t u g l1 l2 d1 d2 ty n f fuel V0 Ww Wp By I0 C1 C2 Hl Hfu Hd1 Hd2 Hd0 Hl1 Hl2 Step rest st.
  destruct (splat_lanes (in_ity t) (2 * n) d1 ltac:(lia) Hd1) as (Ls1 & Fs1 & _). destruct (splat_lanes (in_ity t) (2 * n) d2 ltac:(lia) Hd2) as (Ls2 & Fs2 & _).
  assert (WI : forall z, in_ity u (wrap u z)) by (intros z; apply wrap_in; exact By).
  set (op := fun p q => wrap u (p + q)). set (k := fun a b => wrap u (g a b)).
  assert (WA : forall p q, wrap u (wrap u p + q) = wrap u (p + q)) by (intros p q; apply wrap_wraps; destruct (wrap_cong u p) as [m Em]; exists m; clear -Em; lia).
  assert (WB : forall p q, wrap u (p + wrap u q) = wrap u (p + q)) by (intros p q; rewrite Z.add_comm, WA; f_equal; lia).
  destruct (splat_lanes (in_ity u) n 0 Wp I0) as (Lz & Fz & _).
  set (F := fun s p => map2 op (map2 op s (firstn (Z.to_nat n) p)) (skipn (Z.to_nat n) p)).
  destruct (zip_fold (list Z) (in_ity t) (fun a => zlen a = n /\ Forall (in_ity u) a) c ty l1 (splat (2 * n) d1) l2 (splat (2 * n) d2) k (splat n 0) f F fuel V0 C1) as (Hz & vs & rs & s' & [Hc1 Hc2] & Hr & Hred); try assumption; try (rewrite Ww; assumption); try (split; assumption).
  - intros acc v w [La Fa] Lv Lw Fv Fw. rewrite Ww in Lv, Lw. destruct (Step acc v w La Lv Lw Fa Fv Fw) as (Lr & Fr & M). split; [split; assumption|].
    assert (Lvw : length v = length w) by (clear -Lv Lw; unfold zlen in *; lia).
    assert (Lk : length (map2 k v w) = (2 * Z.to_nat n)%nat) by (rewrite map2_len by exact Lvw; clear -Lv Wp; unfold zlen in *; lia).
    apply znth_ext_eq.
    + unfold F. rewrite !map2_len; rewrite ?map2_len; rewrite ?firstn_length, ?skipn_length, ?Lk; clear -Lr La Wp; unfold zlen in *; lia.
    + intros j y Hy. unfold F in Hy. apply znth_map2_inv in Hy. destruct Hy as (y1 & y2 & Hy1 & Hy2 & ->). apply znth_map2_inv in Hy1. destruct Hy1 as (y0 & y1' & Hy0 & Hy1 & ->).
      pose proof (znth_Some_lt _ _ _ Hy0) as Hj. rewrite La in Hj.
      assert (E1 : znth (map2 k v w) j = Some y1').
      { rewrite <- (firstn_skipn (Z.to_nat n) (map2 k v w)). rewrite znth_app by lia. replace (j <? zlen (firstn (Z.to_nat n) (map2 k v w))) with true by (unfold zlen; rewrite firstn_length, Lk; clear -Hj; lia). exact Hy1. }
      assert (E2 : znth (map2 k v w) (j + n) = Some y2).
      { rewrite <- (firstn_skipn (Z.to_nat n) (map2 k v w)). assert (Lf : zlen (firstn (Z.to_nat n) (map2 k v w)) = n) by (unfold zlen; rewrite firstn_length, Lk; clear -Hj; lia). rewrite znth_app by lia. rewrite Lf. replace (j + n <? n) with false by lia. replace (j + n - n) with j by lia. exact Hy2. }
      apply znth_map2_inv in E1, E2. destruct E1 as (a & q & A1 & A2 & ->). destruct E2 as (a' & q' & A3 & A4 & ->).
      rewrite (M j y0 a q a' q' Hy0 A1 A2 A3 A4). f_equal. unfold op, k. rewrite WB, WB, WA. reflexivity.
  - split; [exact Hz|]. rewrite map2_splat in Hred. assert (Hkd : k d1 d2 = 0) by (unfold k; rewrite Hd0; apply wrap_id; exact I0). rewrite Hkd in Hred. rewrite Ww in Hc1, Hr.
    destruct (accumulated (in_ity u) (in_ity u) op (fun a => a) 0 0 n F (map2 k l1 l2) vs rs) as (O1 & O2 & O3); try assumption; try (intros; assumption); try reflexivity.
    + intros p q _ _. apply WI.
    + intros p q r _ _ _. unfold op. rewrite WA, WB. f_equal. lia.
    + intros p q _ _. unfold op. f_equal. lia.
    + intros p Hp. unfold op. cbn [Z.add]. apply wrap_id. exact Hp.
    + apply (map2_lanes (in_ity t) (in_ity t)); [intros; apply WI|exact Hl1|exact Hl2].
    + intros s a q Lsn La Lb _ _ _. unfold F. rewrite !map_id. replace (Z.to_nat n) with (length a) by (clear -La; unfold zlen in La; lia). rewrite firstn_app, skipn_app, firstn_all, skipn_all, Nat.sub_diag. cbn [firstn skipn app]. rewrite app_nil_r. reflexivity.
    + eexists. eexists. split; [exact Hred|]. split; [exact O1|]. split; [exact O2|].
      unfold op in O3. rewrite map_id in O3. rewrite !fold_wrap_sum in O3 by assumption. cbn [Z.add] in O3. split; [etransitivity; [exact O3|]|].
      assert (C : forall m1 m2, cong (imod u) (total (map2 k m1 m2)) (total (map2 g m1 m2))).
      { clear. induction m1 as [|a m1 IH]; intros [|a2 m2]; try (exists 0; reflexivity). cbn [map2]. rewrite !total_cons. unfold k at 1. destruct (wrap_cong u (g a a2)) as [p Ep]. destruct (IH m2) as [q Eq]. exists (p + q). lia. }
      apply wrap_wraps. apply C.
      intros Fn Hm. assert (Bmin : imin u <= 0) by (unfold in_ity in I0; clear -I0; lia). assert (In0 : forall y, 0 <= y <= imax u -> in_ity u y) by (intros y Hy; unfold in_ity; clear -Hy Bmin; lia).
      assert (Ek : map2 k l1 l2 = map2 g l1 l2).
      { clear -Fn Hm In0. revert l2 Fn Hm. induction l1 as [|a l1 IH]; intros [|a2 l2] Fn Hm; try reflexivity. cbn [map2] in *. rewrite total_cons in Hm. pose proof (Forall_inv Fn) as N0. destruct (total_nonneg _ (Forall_inv_tail Fn)) as [N1 _]. f_equal; [apply wrap_id, In0; lia|apply IH; [exact (Forall_inv_tail Fn)|lia]]. }
      set (args := vs ++ match rs with [] => [] | _ :: _ => [right_aligned (splat (2 * n) 0) rs] end) in *.
      assert (Fl2 : Forall (Z.le 0) (concat vs ++ rs)) by (rewrite Hc2, Ek; exact Fn). apply Forall_app in Fl2. destruct Fl2 as [L1 L2]. destruct (splat_lanes (Z.le 0) (2 * n) 0 ltac:(lia) (Z.le_refl 0)) as (Ls0 & Fs0 & _).
      assert (Hargs : Forall (fun v => zlen v = 2 * n /\ Forall (Z.le 0) v) args).
      { unfold args. apply Forall_app. split.
        - clear -Hc1 L1. induction vs as [|v vs IH]; [constructor|]. cbn [concat] in L1. apply Forall_app in L1. destruct L1 as [A B]. pose proof (Forall_inv Hc1) as C. cbv beta in C. constructor; [split; [exact C|exact A]|apply IH; [exact (Forall_inv_tail Hc1)|exact B]].
        - destruct rs as [|y r]; constructor; [|constructor]. split; [rewrite right_aligned_len by lia; exact Ls0|]. unfold right_aligned. apply Forall_app. split; [|exact L2]. apply forall_firstn. exact Fs0. }
      assert (Tot : total (concat args) = total (map2 g l1 l2)).
      { unfold args. rewrite <- Ek, <- Hc2, concat_app, !total_app2. destruct rs as [|y r]; [reflexivity|]. cbn [concat]. rewrite app_nil_r. unfold right_aligned. rewrite total_app2. f_equal.
        assert (Z0 : forall i j, total (firstn i (repeat 0 j)) = 0) by (clear; induction i as [|i IH]; intros [|j]; try reflexivity; cbn [repeat firstn]; rewrite total_cons, IH; reflexivity). unfold splat. rewrite Z0. reflexivity. }
      destruct (total_accumulated (Z.le 0) (fun a => a) n (imax u) F) with (vs := args) (acc := splat n 0) as (_ & T2 & T3).
      * intros q Hq. exact Hq.
      * exact Wp.
      * intros s a q Lsn La Lb Fs Fa Fq Fm. unfold F. rewrite !map_id in *. replace (Z.to_nat n) with (length a) by (clear -La; unfold zlen in La; lia). rewrite firstn_app, skipn_app, firstn_all, skipn_all, Nat.sub_diag. cbn [firstn skipn app]. rewrite app_nil_r.
        clear -In0 Fs Fa Fq Fm. revert a q Fa Fq Fm. induction s as [|y s IH]; intros [|p a] [|r q] Fa Fq Fm; try reflexivity. cbn [map2] in *. pose proof (Forall_inv Fs). pose proof (Forall_inv Fa). pose proof (Forall_inv Fq). pose proof (Forall_inv Fm) as B. cbv beta in *.
        f_equal; [unfold op; rewrite (wrap_id u (y + p)) by (apply In0; lia); apply wrap_id, In0; lia|apply IH; [exact (Forall_inv_tail Fs)|exact (Forall_inv_tail Fa)|exact (Forall_inv_tail Fq)|exact (Forall_inv_tail Fm)]].
      * exact Lz.
      * unfold splat. apply Forall_forall. intros y Hy. apply repeat_spec in Hy. subst y. reflexivity.
      * exact Hargs.
      * unfold splat. rewrite total_zeros, map_id, Tot. exact Hm.
      * split; [exact T2|]. rewrite map_id, Tot in T3. unfold splat in T3 at 2. rewrite total_zeros in T3. exact T3.
Qed.

Lemma c100_zip : forall (fs : features) (fadd : elty -> Z -> Z -> Z) (b : bool) (tie : bool) (fop : arith -> elty -> Z -> Z -> Z) (fsqrt : elty -> Z -> Z) (narrow : Z -> Z) (t : ity) (x : expr) (g : Z -> Z -> Z) (l1 l2 : list Z) (d1 d2 : Z) (l0 lw : packed_line) (f : list Z -> list Z * list Z -> list Z) (fuel : nat),
  let c := mkConfig Release b in let u := mkIty (isigned t) (2 * ibytes t) in
  target fs -> In (EInt t) widenable ->
  (forall o e u v, e = EF32 \/ e = EF64 -> lane e u -> lane e v -> lane e (fop o e u v)) -> (forall e u, e = EF32 \/ e = EF64 -> lane e u -> lane e (fsqrt e u)) ->
  type_of (EInt u) 5 x = Some (EInt u) -> natural fs (el_name (EInt t) ++ "s") = [l0] -> natural fs (el_name (EInt u) ++ "s") = [lw] ->
  (forall y a b p q, in_ity u y -> in_ity t a -> in_ity t b -> in_ity t p -> in_ity t q -> meaning (EInt u) 5 fop fsqrt x [y; a; b; p; q] = wrap u (y + g a b + g p q)) ->
  in_ity t d1 -> in_ity t d2 -> g d1 d2 = 0 -> Forall (in_ity t) l1 -> Forall (in_ity t) l2 -> zlen l1 = zlen l2 -> zlen l1 * p_size l0 <= isize_max -> (length l1 < fuel)%nat ->
  (forall s v w, zlen s = p_width lw -> zlen v = p_width l0 -> zlen w = p_width l0 -> Forall (in_ity u) s -> Forall (in_ity t) v -> Forall (in_ity t) w -> accumulate_zip_in fs tie fop fsqrt narrow (EInt t) x s v w = Some (Ok (f s (v, w)))) ->
  let rest := rest_one (blanket_unsafe c (si_array (slice_array c (vty_of l0))) (si_iterable c (slice_array c (vty_of l0)))) in
  let st := (simd_iter l1 (splat (p_width l0) d1), simd_iter l2 (splat (p_width l0) d2)) in
  zip (slice_iterator c (vty_of l0)) rest st = Ok st /\
  exists acc s', simd_reduce (zip_iterator (slice_iterator c (vty_of l0)) rest) fuel st (splat (p_width lw) 0) f = Ok (acc, s') /\
    sum_in fs fadd c (p_vec lw) acc = Some (Ok (wrap u (total (map2 g l1 l2)))) /\ (in_ity u (total (map2 g l1 l2)) -> wrap u (total (map2 g l1 l2)) = total (map2 g l1 l2)).
Proof.
  intros fs fadd b tie fop fsqrt narrow t x g l1 l2 d1 d2 l0 lw f fuel c u T He Hf Hsq Tx N0 Nw Hx Hd1 Hd2 Hd0 Hl1 Hl2 Hl Cap Hfu Rx rest st. destruct (wide_prim _ He) as (P1 & P2 & _). change (wide (EInt t)) with (EInt u) in *. destruct (widths_double fs (EInt t) l0 lw T He N0 Nw) as (Ww & Wp & _ & _).
  destruct (natural_vty fs _ l0 T P1 N0) as (V0 & _). destruct (method_int u (EInt u) P2 (or_introl eq_refl)) as [By I0].
  subst rest st. rewrite Ww. destruct (zip_wraps c t u g l1 l2 d1 d2 (vty_of l0) (p_width lw) f fuel V0 Ww Wp By I0 Cap) as (Hz & acc & s' & Hr & La & Fa & Ht & _); try assumption.
  - unfold slice_ok. rewrite <- Hl. exact Cap.
  - intros s v w Ls Lv Lw Fs Fv Fw. rewrite <- Ww in Lv, Lw. destruct (c100_zip_step fs tie fop fsqrt narrow (EInt t) x s v w l0 lw T He Hf Hsq Tx N0 Nw Ls Fs Lv Fv Lw Fw) as (r & Rr & Lr & Fr & M). rewrite (Rx s v w Ls Lv Lw Fs Fv Fw) in Rr. injection Rr as Rr. rewrite Rr. split; [exact Lr|]. split; [exact Fr|].
    intros k y a a2 p q Hy Ha Ha2 Hp Hq. rewrite (M k y a a2 p q Hy Ha Ha2 Hp Hq). f_equal. rewrite Forall_forall in Fs, Fv, Fw. apply Hx; [apply Fs|apply Fv|apply Fw|apply Fv|apply Fw]; eapply OpProofs.znth_In; eassumption.
  - split; [exact Hz|]. exists acc, s'. split; [exact Hr|]. split; [|intros Hin; apply wrap_id; exact Hin].
    destruct (natural_line fs _ T P2) as (m & M & _ & V & W & _). change (wide (EInt t)) with (EInt u) in M. rewrite Nw in M. injection M as <-. destruct (sum_line fs _ P2 eq_refl) as (p & Q1 & Q2 & Q3 & Q4).
    destruct (c78_sum fs fadd c p u acc Q1 Q3) as (r & R1 & [R2 [j R3]]); [rewrite Q4; cbn [WIDTH]; rewrite <- W; split; [exact La|exact Fa]|reflexivity|].
    rewrite V, <- Q2, R1. f_equal. f_equal. rewrite <- (wrap_id u r R2), <- Ht. apply wrap_wraps. exists j. exact R3.
Qed.

Lemma c100_zip_step_portable : forall (fs : features) (c : config) (tie : bool) (fop : arith -> elty -> Z -> Z -> Z) (fsqrt : elty -> Z -> Z) (narrow : Z -> Z) (e : elty) (x : expr) (s v w : list Z) (l0 lw : packed_line),
  fs "undefined"%string = false -> In e widenable ->
  (forall o e u v, e = EF32 \/ e = EF64 -> lane e u -> lane e v -> lane e (fop o e u v)) -> (forall e u, e = EF32 \/ e = EF64 -> lane e u -> lane e (fsqrt e u)) ->
  type_of (wide e) 5 x = Some (wide e) -> portable_natural fs (el_name e ++ "s") = [l0] -> portable_natural fs (el_name (wide e) ++ "s") = [lw] ->
  zlen s = p_width lw -> Forall (lane (wide e)) s -> zlen v = p_width l0 -> Forall (lane e) v -> zlen w = p_width l0 -> Forall (lane e) w ->
  let result := portable_accumulate_zip fs tie fop fsqrt narrow c e x s v w in
  let lanes k y a b p q := znth s k = Some y /\ znth v k = Some a /\ znth w k = Some b /\ znth v (k + p_width lw) = Some p /\ znth w (k + p_width lw) = Some q in
  (build c = Release \/ (forall k y a b p q, lanes k y a b p q -> overflows (wide e) 5 fop fsqrt x [y; a; b; p; q] = false) ->
    exists r, result = Some (Ok r) /\ zlen r = p_width lw /\ Forall (lane (wide e)) r /\ forall k y a b p q, lanes k y a b p q -> znth r k = Some (meaning (wide e) 5 fop fsqrt x [y; a; b; p; q])) /\
  (build c = Debug -> forall k y a b p q, lanes k y a b p q -> overflows (wide e) 5 fop fsqrt x [y; a; b; p; q] = true -> result = Some Panic).
Proof.
  intros fs c tie fop fsqrt narrow e x s v w l0 lw T He Hf Hs Ht N0 Nw Ls Fs Lv Fv Lw Fw result lanes. destruct (wide_prim e He) as (P1 & P2 & _). destruct (portable_widths fs e l0 lw T He N0 Nw) as (Ww & Wp & N1 & N2).
  destruct (portable_upcast_ok fs narrow e l0 lw [v; w] T He N0 Nw) as (us & vs & Eu & Lu & Lvs & Fu & Fvs & Cu & _); [constructor; [split; assumption|constructor; [split; assumption|constructor]]|].
  destruct us as [|va [|wa [|? ?]]]; try discriminate Lu. destruct vs as [|vb [|wb [|? ?]]]; try discriminate Lvs.
  destruct (Forall_inv Fu) as [La Fa]. destruct (Forall_inv (Forall_inv_tail Fu)) as [La' Fa']. destruct (Forall_inv Fvs) as [Lb Fb]. destruct (Forall_inv (Forall_inv_tail Fvs)) as [Lb' Fb'].
  destruct (c94_closure fs c tie fop fsqrt narrow (wide e) (wide e) x [s; va; wa; vb; wb] lw lw T P2 Hf Hs Ht Nw Nw ltac:(discriminate)) as [A B]; [repeat (constructor; [split; assumption|]); constructor|]. cbn [length] in A, B.
  assert (Ev : v = va ++ vb /\ w = wa ++ wb).
  { split; (apply (split_halves _ _ _ (p_width lw)); [lia|assumption|assumption|]); intros k env Hc; inversion Hc as [|? z ? e1 Hz H1]; subst; inversion H1; subst; pose proof (znth_Some_lt _ _ _ Hz) as Hk.
    - destruct (znth_exists w k ltac:(lia)) as [z2 Hz2]. destruct (Cu k [z; z2]) as [C1 C2]; [repeat (constructor; [assumption|]); constructor|]. split; intros Hlt; [specialize (C1 Hlt); inversion C1 as [|? ? ? ? K1 K2]; subst|specialize (C2 Hlt); inversion C2 as [|? ? ? ? K1 K2]; subst]; constructor; [exact K1|constructor|exact K1|constructor].
    - destruct (znth_exists v k ltac:(lia)) as [z2 Hz2]. destruct (Cu k [z2; z]) as [C1 C2]; [repeat (constructor; [assumption|]); constructor|]. split; intros Hlt; [specialize (C1 Hlt); inversion C1 as [|? ? ? ? K1 K2]; subst|specialize (C2 Hlt); inversion C2 as [|? ? ? ? K1 K2]; subst]; inversion K2 as [|? ? ? ? K3 K4]; subst; constructor; [exact K3|constructor|exact K3|constructor]. }
  destruct Ev as [Ev Ew].
  assert (Hl : forall k y a b p q, lanes k y a b p q <-> column [s; va; wa; vb; wb] k [y; a; b; p; q]).
  { intros k y a b p q. unfold lanes. rewrite Ev, Ew. split.
    - intros (Hy & Ha & Hb & Hp & Hq). pose proof (znth_Some_lt _ _ _ Hy) as Hk. rewrite znth_app in Ha, Hb, Hp, Hq by lia. rewrite La in Ha, Hp. rewrite La' in Hb, Hq. replace (k <? p_width lw) with true in Ha, Hb by lia. replace (k + p_width lw <? p_width lw) with false in Hp, Hq by lia. replace (k + p_width lw - p_width lw) with k in Hp, Hq by lia. repeat (constructor; [assumption|]). constructor.
    - intros H. inversion H as [|? ? ? ? Hy H1]; subst. inversion H1 as [|? ? ? ? Ha H2]; subst. inversion H2 as [|? ? ? ? Hb H3]; subst. inversion H3 as [|? ? ? ? Hp H4]; subst. inversion H4 as [|? ? ? ? Hq H5]; subst. pose proof (znth_Some_lt _ _ _ Hy) as Hk. rewrite !znth_app by lia. rewrite La, La'. replace (k <? p_width lw) with true by lia. replace (k + p_width lw <? p_width lw) with false by lia. replace (k + p_width lw - p_width lw) with k by lia. repeat split; assumption. }
  subst result. unfold portable_accumulate_zip. rewrite N1, N2, Eu. cbn [andthen fst snd app]. split.
  - intros Hov. destruct A as (r & Rr & Lr & Fr & M).
    { destruct Hov as [Q|Q]; [left; exact Q|right]. intros k env Hc. inversion Hc as [|? y ? e1 Hy H1]; subst. inversion H1 as [|? a ? e2 Ha H2]; subst. inversion H2 as [|? b ? e3 Hb H3]; subst. inversion H3 as [|? p ? e4 Hp H4]; subst. inversion H4 as [|? q ? e5 Hq H5]; subst. inversion H5; subst. apply (Q k). apply Hl. exact Hc. }
    exists r. split; [exact Rr|]. split; [exact Lr|]. split; [exact Fr|]. intros k y a b p q H. apply M. apply Hl. exact H.
  - intros D k y a b p q H O. apply (B D k [y; a; b; p; q]); [apply Hl; exact H|exact O].
Qed.

Lemma c100_zip_portable : forall (fs : features) (b : bool) (tie : bool) (fop : arith -> elty -> Z -> Z -> Z) (fsqrt : elty -> Z -> Z) (narrow : Z -> Z) (t : ity) (x : expr) (g : Z -> Z -> Z) (l1 l2 : list Z) (d1 d2 : Z) (l0 lw : packed_line) (f : list Z -> list Z * list Z -> list Z) (fuel : nat),
  let c := mkConfig Release b in let u := mkIty (isigned t) (2 * ibytes t) in
  fs "undefined"%string = false -> In (EInt t) widenable ->
  (forall o e u v, e = EF32 \/ e = EF64 -> lane e u -> lane e v -> lane e (fop o e u v)) -> (forall e u, e = EF32 \/ e = EF64 -> lane e u -> lane e (fsqrt e u)) ->
  type_of (EInt u) 5 x = Some (EInt u) -> portable_natural fs (el_name (EInt t) ++ "s") = [l0] -> portable_natural fs (el_name (EInt u) ++ "s") = [lw] ->
  (forall y a b p q, in_ity u y -> in_ity t a -> in_ity t b -> in_ity t p -> in_ity t q -> meaning (EInt u) 5 fop fsqrt x [y; a; b; p; q] = wrap u (y + g a b + g p q)) ->
  in_ity t d1 -> in_ity t d2 -> g d1 d2 = 0 -> Forall (in_ity t) l1 -> Forall (in_ity t) l2 -> zlen l1 = zlen l2 -> zlen l1 * p_size l0 <= isize_max -> (length l1 < fuel)%nat ->
  (forall s v w, zlen s = p_width lw -> zlen v = p_width l0 -> zlen w = p_width l0 -> Forall (in_ity u) s -> Forall (in_ity t) v -> Forall (in_ity t) w -> portable_accumulate_zip fs tie fop fsqrt narrow c (EInt t) x s v w = Some (Ok (f s (v, w)))) ->
  let rest := rest_one (blanket_unsafe c (si_array (slice_array c (vty_of l0))) (si_iterable c (slice_array c (vty_of l0)))) in
  let st := (simd_iter l1 (splat (p_width l0) d1), simd_iter l2 (splat (p_width l0) d2)) in
  zip (slice_iterator c (vty_of l0)) rest st = Ok st /\
  exists m acc s', filter (fun m => String.eqb (s_vec m) (p_vec lw)) unknown_sum = [m] /\ simd_reduce (zip_iterator (slice_iterator c (vty_of l0)) rest) fuel st (splat (p_width lw) 0) f = Ok (acc, s') /\
    sum_portable (fun e => fop Add e) c m acc = Ok (wrap u (total (map2 g l1 l2))) /\ (in_ity u (total (map2 g l1 l2)) -> wrap u (total (map2 g l1 l2)) = total (map2 g l1 l2)).
Proof.
  intros fs b tie fop fsqrt narrow t x g l1 l2 d1 d2 l0 lw f fuel c u T He Hf Hsq Tx N0 Nw Hx Hd1 Hd2 Hd0 Hl1 Hl2 Hl Cap Hfu Rx rest st. destruct (wide_prim _ He) as (P1 & P2 & _). change (wide (EInt t)) with (EInt u) in *. destruct (portable_widths fs (EInt t) l0 lw T He N0 Nw) as (Ww & Wp & _ & _).
  destruct (portable_vty fs _ l0 T P1 N0) as (V0 & _). destruct (method_int u (EInt u) P2 (or_introl eq_refl)) as [By I0].
  subst rest st. rewrite Ww. destruct (zip_wraps c t u g l1 l2 d1 d2 (vty_of l0) (p_width lw) f fuel V0 Ww Wp By I0 Cap) as (Hz & acc & s' & Hr & La & Fa & Ht & _); try assumption.
  - unfold slice_ok. rewrite <- Hl. exact Cap.
  - intros s v w Ls Lv Lw Fs Fv Fw. rewrite <- Ww in Lv, Lw. destruct (c100_zip_step_portable fs c tie fop fsqrt narrow (EInt t) x s v w l0 lw T He Hf Hsq Tx N0 Nw Ls Fs Lv Fv Lw Fw) as [A _]. destruct (A (or_introl eq_refl)) as (r & Rr & Lr & Fr & M). rewrite (Rx s v w Ls Lv Lw Fs Fv Fw) in Rr. injection Rr as Rr. rewrite Rr. split; [exact Lr|]. split; [exact Fr|].
    intros k y a a2 p q Hy Ha Ha2 Hp Hq. rewrite (M k y a a2 p q (conj Hy (conj Ha (conj Ha2 (conj Hp Hq))))). f_equal. rewrite Forall_forall in Fs, Fv, Fw. apply Hx; [apply Fs|apply Fv|apply Fw|apply Fv|apply Fw]; eapply OpProofs.znth_In; eassumption.
  - split; [exact Hz|]. destruct (portable_line fs _ T P2) as (m & M & _ & V & W & _). change (wide (EInt t)) with (EInt u) in M. rewrite Nw in M. injection M as <-.
    assert (S : exists p, filter (fun p => String.eqb (s_vec p) (p_vec lw)) unknown_sum = [p] /\ s_el p = EInt u /\ WIDTH (s_ty p) = p_width lw) by (rewrite V, W; clear -He; unfold u; unfold widenable in He; cbn [In] in He; repeat (destruct He as [He|He]; [injection He as <-; (eexists; split; [reflexivity|split; reflexivity])|]); contradiction).
    destruct S as (p & S1 & S2 & S3). exists p, acc, s'. split; [exact S1|]. split; [exact Hr|]. split; [|intros Hin; apply wrap_id; exact Hin].
    assert (Ip : In p (x86_sum ++ unknown_sum)) by (apply in_or_app; right; assert (I1 : In p [p]) by (left; reflexivity); rewrite <- S1 in I1; apply filter_In in I1; exact (proj1 I1)).
    destruct (c42_sum_portable (fun e => fop Add e) c p u acc Ip S2) as (r & R1 & [R2 [j R3]]); [rewrite S3; split; [exact La|exact Fa]|left; reflexivity|].
    rewrite R1. f_equal. rewrite <- (wrap_id u r R2), <- Ht. apply wrap_wraps. exists j. exact R3.
Qed.

Lemma products_meaning : forall t fop fsqrt y a b p q, In (EInt t) widenable -> let u := mkIty (isigned t) (2 * ibytes t) in
  type_of (EInt u) 5 add_products = Some (EInt u) /\ meaning (EInt u) 5 fop fsqrt add_products [y; a; b; p; q] = wrap u (wrap u (y + wrap u (a * b)) + wrap u (p * q)).
Proof. intros t fop fsqrt y a b p q He u. subst u. unfold widenable in He. cbn [In] in He. repeat (destruct He as [He|He]; [injection He as <-; split; reflexivity|]). contradiction. Qed.

Lemma c100_dot : forall (fs : features) (fadd : elty -> Z -> Z -> Z) (b : bool) (tie : bool) (fop : arith -> elty -> Z -> Z -> Z) (fsqrt : elty -> Z -> Z) (narrow : Z -> Z) (t : ity) (l1 l2 : list Z) (d1 d2 : Z) (l0 lw : packed_line) (f : list Z -> list Z * list Z -> list Z) (fuel : nat),
  let c := mkConfig Release b in let u := mkIty (isigned t) (2 * ibytes t) in
  target fs -> In (EInt t) widenable ->
  (forall o e u v, e = EF32 \/ e = EF64 -> lane e u -> lane e v -> lane e (fop o e u v)) -> (forall e u, e = EF32 \/ e = EF64 -> lane e u -> lane e (fsqrt e u)) ->
  natural fs (el_name (EInt t) ++ "s") = [l0] -> natural fs (el_name (EInt u) ++ "s") = [lw] ->
  in_ity t d1 -> in_ity t d2 -> d1 = 0 \/ d2 = 0 -> Forall (in_ity t) l1 -> Forall (in_ity t) l2 -> zlen l1 = zlen l2 -> zlen l1 * p_size l0 <= isize_max -> (length l1 < fuel)%nat ->
  (forall s v w, zlen s = p_width lw -> zlen v = p_width l0 -> zlen w = p_width l0 -> Forall (in_ity u) s -> Forall (in_ity t) v -> Forall (in_ity t) w -> accumulate_zip_in fs tie fop fsqrt narrow (EInt t) add_products s v w = Some (Ok (f s (v, w)))) ->
  let rest := rest_one (blanket_unsafe c (si_array (slice_array c (vty_of l0))) (si_iterable c (slice_array c (vty_of l0)))) in
  let st := (simd_iter l1 (splat (p_width l0) d1), simd_iter l2 (splat (p_width l0) d2)) in
  zip (slice_iterator c (vty_of l0)) rest st = Ok st /\
  exists acc s', simd_reduce (zip_iterator (slice_iterator c (vty_of l0)) rest) fuel st (splat (p_width lw) 0) f = Ok (acc, s') /\
    sum_in fs fadd c (p_vec lw) acc = Some (Ok (wrap u (total (map2 Z.mul l1 l2)))) /\ (in_ity u (total (map2 Z.mul l1 l2)) -> wrap u (total (map2 Z.mul l1 l2)) = total (map2 Z.mul l1 l2)).
Proof.
  intros fs fadd b tie fop fsqrt narrow t l1 l2 d1 d2 l0 lw f fuel c u T He Hf Hsq N0 Nw Hd1 Hd2 Hd Hl1 Hl2 Hl Cap Hfu Rx.
  apply (c100_zip fs fadd b tie fop fsqrt narrow t add_products Z.mul l1 l2 d1 d2 l0 lw f fuel); try assumption.
  - exact (proj1 (products_meaning t fop fsqrt 0 0 0 0 0 He)).
  - intros y a a2 p q _ _ _ _ _. etransitivity; [exact (proj2 (products_meaning t fop fsqrt y a a2 p q He))|]. fold u. apply wrap_wraps. destruct (wrap_cong u (a * a2)) as [i A]. destruct (wrap_cong u (p * q)) as [j B]. destruct (wrap_cong u (y + wrap u (a * a2))) as [m M]. exists (m + i + j). clear -A B M. lia.
  - destruct Hd as [-> | ->]; lia.
Qed.

Lemma c100_dot_exact : forall (fs : features) (fadd : elty -> Z -> Z -> Z) (c : config) (tie : bool) (fop : arith -> elty -> Z -> Z -> Z) (fsqrt : elty -> Z -> Z) (narrow : Z -> Z) (t : ity) (l1 l2 : list Z) (d1 d2 : Z) (l0 lw : packed_line) (f : list Z -> list Z * list Z -> list Z) (fuel : nat),
  let u := mkIty (isigned t) (2 * ibytes t) in
  target fs -> In (EInt t) widenable ->
  (forall o e u v, e = EF32 \/ e = EF64 -> lane e u -> lane e v -> lane e (fop o e u v)) -> (forall e u, e = EF32 \/ e = EF64 -> lane e u -> lane e (fsqrt e u)) ->
  natural fs (el_name (EInt t) ++ "s") = [l0] -> natural fs (el_name (EInt u) ++ "s") = [lw] ->
  in_ity t d1 -> in_ity t d2 -> d1 = 0 \/ d2 = 0 -> Forall (in_ity t) l1 -> Forall (in_ity t) l2 -> Forall (Z.le 0) l1 -> Forall (Z.le 0) l2 -> total (map2 Z.mul l1 l2) <= imax u -> zlen l1 = zlen l2 -> zlen l1 * p_size l0 <= isize_max -> (length l1 < fuel)%nat ->
  (forall s v w, zlen s = p_width lw -> zlen v = p_width l0 -> zlen w = p_width l0 -> Forall (in_ity u) s -> Forall (in_ity t) v -> Forall (in_ity t) w -> accumulate_zip_in fs tie fop fsqrt narrow (EInt t) add_products s v w = Some (Ok (f s (v, w)))) ->
  let rest := rest_one (blanket_unsafe c (si_array (slice_array c (vty_of l0))) (si_iterable c (slice_array c (vty_of l0)))) in
  let st := (simd_iter l1 (splat (p_width l0) d1), simd_iter l2 (splat (p_width l0) d2)) in
  zip (slice_iterator c (vty_of l0)) rest st = Ok st /\
  exists acc s', simd_reduce (zip_iterator (slice_iterator c (vty_of l0)) rest) fuel st (splat (p_width lw) 0) f = Ok (acc, s') /\
    sum_in fs fadd c (p_vec lw) acc = Some (Ok (total (map2 Z.mul l1 l2))).
Proof.
  intros fs fadd c tie fop fsqrt narrow t l1 l2 d1 d2 l0 lw f fuel u T He Hf Hsq N0 Nw Hd1 Hd2 Hd Hl1 Hl2 Pl1 Pl2 Hm Hl Cap Hfu Rx rest st. destruct (wide_prim _ He) as (P1 & P2 & _). change (wide (EInt t)) with (EInt u) in *. destruct (widths_double fs (EInt t) l0 lw T He N0 Nw) as (Ww & Wp & _ & _).
  destruct (natural_vty fs _ l0 T P1 N0) as (V0 & _). destruct (method_int u (EInt u) P2 (or_introl eq_refl)) as [By I0].
  subst rest st. rewrite Ww. destruct (zip_wraps c t u Z.mul l1 l2 d1 d2 (vty_of l0) (p_width lw) f fuel V0 Ww Wp By I0 Cap) as (Hz & acc & s' & Hr & La & Fa & _ & Ht); try assumption.
  - unfold slice_ok. rewrite <- Hl. exact Cap.
  - destruct Hd as [-> | ->]; lia.
  - intros s v w Ls Lv Lw Fs Fv Fw. rewrite <- Ww in Lv, Lw. destruct (c100_zip_step fs tie fop fsqrt narrow (EInt t) add_products s v w l0 lw T He Hf Hsq (proj1 (products_meaning t fop fsqrt 0 0 0 0 0 He)) N0 Nw Ls Fs Lv Fv Lw Fw) as (r & Rr & Lr & Fr & M). rewrite (Rx s v w Ls Lv Lw Fs Fv Fw) in Rr. injection Rr as Rr. rewrite Rr. split; [exact Lr|]. split; [exact Fr|].
    intros k y a a2 p q Hy Ha Ha2 Hp Hq. rewrite (M k y a a2 p q Hy Ha Ha2 Hp Hq). f_equal. etransitivity; [exact (proj2 (products_meaning t fop fsqrt y a a2 p q He))|]. fold u. apply wrap_wraps. destruct (wrap_cong u (a * a2)) as [i A]. destruct (wrap_cong u (p * q)) as [j B]. destruct (wrap_cong u (y + wrap u (a * a2))) as [m E]. exists (m + i + j). clear -A B E. lia.
  - split; [exact Hz|]. exists acc, s'. split; [exact Hr|]. destruct Ht as [T1 T2].
    + apply (map2_lanes (Z.le 0) (Z.le 0)); [intros; nia|exact Pl1|exact Pl2].
    + exact Hm.
    + destruct (natural_line fs _ T P2) as (m & M & _ & V & W & _). change (wide (EInt t)) with (EInt u) in M. rewrite Nw in M. injection M as <-. destruct (sum_line fs _ P2 eq_refl) as (p & Q1 & Q2 & Q3 & Q4).
      rewrite V, <- Q2, <- T2. apply (c78_sum_exact fs fadd c p u acc Q1 Q3); [rewrite Q4; cbn [WIDTH]; rewrite <- W; exact La|exact T1|rewrite T2; exact Hm].
Qed.

Lemma c100_dot_portable : forall (fs : features) (b : bool) (tie : bool) (fop : arith -> elty -> Z -> Z -> Z) (fsqrt : elty -> Z -> Z) (narrow : Z -> Z) (t : ity) (l1 l2 : list Z) (d1 d2 : Z) (l0 lw : packed_line) (f : list Z -> list Z * list Z -> list Z) (fuel : nat),
  let c := mkConfig Release b in let u := mkIty (isigned t) (2 * ibytes t) in
  fs "undefined"%string = false -> In (EInt t) widenable ->
  (forall o e u v, e = EF32 \/ e = EF64 -> lane e u -> lane e v -> lane e (fop o e u v)) -> (forall e u, e = EF32 \/ e = EF64 -> lane e u -> lane e (fsqrt e u)) ->
  portable_natural fs (el_name (EInt t) ++ "s") = [l0] -> portable_natural fs (el_name (EInt u) ++ "s") = [lw] ->
  in_ity t d1 -> in_ity t d2 -> d1 = 0 \/ d2 = 0 -> Forall (in_ity t) l1 -> Forall (in_ity t) l2 -> zlen l1 = zlen l2 -> zlen l1 * p_size l0 <= isize_max -> (length l1 < fuel)%nat ->
  (forall s v w, zlen s = p_width lw -> zlen v = p_width l0 -> zlen w = p_width l0 -> Forall (in_ity u) s -> Forall (in_ity t) v -> Forall (in_ity t) w -> portable_accumulate_zip fs tie fop fsqrt narrow c (EInt t) add_products s v w = Some (Ok (f s (v, w)))) ->
  let rest := rest_one (blanket_unsafe c (si_array (slice_array c (vty_of l0))) (si_iterable c (slice_array c (vty_of l0)))) in
  let st := (simd_iter l1 (splat (p_width l0) d1), simd_iter l2 (splat (p_width l0) d2)) in
  zip (slice_iterator c (vty_of l0)) rest st = Ok st /\
  exists m acc s', filter (fun m => String.eqb (s_vec m) (p_vec lw)) unknown_sum = [m] /\ simd_reduce (zip_iterator (slice_iterator c (vty_of l0)) rest) fuel st (splat (p_width lw) 0) f = Ok (acc, s') /\
    sum_portable (fun e => fop Add e) c m acc = Ok (wrap u (total (map2 Z.mul l1 l2))) /\ (in_ity u (total (map2 Z.mul l1 l2)) -> wrap u (total (map2 Z.mul l1 l2)) = total (map2 Z.mul l1 l2)).
Proof.
  intros fs b tie fop fsqrt narrow t l1 l2 d1 d2 l0 lw f fuel c u T He Hf Hsq N0 Nw Hd1 Hd2 Hd Hl1 Hl2 Hl Cap Hfu Rx.
  apply (c100_zip_portable fs b tie fop fsqrt narrow t add_products Z.mul l1 l2 d1 d2 l0 lw f fuel); try assumption.
  - exact (proj1 (products_meaning t fop fsqrt 0 0 0 0 0 He)).
  - intros y a a2 p q _ _ _ _ _. etransitivity; [exact (proj2 (products_meaning t fop fsqrt y a a2 p q He))|]. fold u. apply wrap_wraps. destruct (wrap_cong u (a * a2)) as [i A]. destruct (wrap_cong u (p * q)) as [j B]. destruct (wrap_cong u (y + wrap u (a * a2))) as [m M]. exists (m + i + j). clear -A B M. lia.
  - destruct Hd as [-> | ->]; lia.
Qed.
