(** Proofs of the properties: exact inner products in a wider type on portable targets, debug builds included
    (C100). *)
From Coq Require Import String.
From Verif Require Import Base Spec VecSpec Vecs Iters Zip ZipSpec GateTables GateSpec Gates Floats FloatSpec Lanes OpTables Ops OpSpec PortTables Ports PortSpec SumTables Sums SumSpec PipeSpec AvailSpec Builds ExprSpec Exprs WidenSpec Widens OverflowSpec Portables WidePorts ZipAccums.
Open Scope list_scope.
Open Scope Z_scope.
From Coq Require Import Lia ZifyBool ZifyNat.
From Verif Require Import ListFacts VecFacts IterFacts CollectFacts MapFacts ReduceFacts VecProofs OpProofs PortProofs IterProofs SumProofs BuildProofs PipeProofs LoopProofs KernProofs DocProofs ExprProofs CollectProofs FoldProofs WidenProofs PortableProofs PortFoldProofs WidePortProofs ZipProofs DotProofs AccumProofs TotalProofs ZipAccumProofs.
Ltac Zify.zify_post_hook ::= Z.div_mod_to_equations.

Lemma map_combine2 : forall (g : Z -> Z -> Z) vs1 vs2, map (fun p => map2 g (fst p) (snd p)) (combine vs1 vs2) = map2 (map2 g) vs1 vs2.
Proof. intros g. induction vs1 as [|v vs1 IH]; intros [|w vs2]; try reflexivity. cbn [combine map map2 fst snd]. rewrite IH. reflexivity. Qed.

Lemma zip_pairs : forall (R : Type) (P : Z -> Prop) (c : config) (ty : vty) (l1 d1 l2 d2 : list Z) (g : Z -> Z -> Z) (start : R) (f : R -> list Z * list Z -> R) (fuel : nat),
  vty_ok ty -> slice_ok ty l1 -> slice_ok ty l2 -> zlen d1 = WIDTH ty -> zlen d2 = WIDTH ty -> zlen l1 = zlen l2 -> (length l1 < fuel)%nat -> Forall P l1 -> Forall P l2 -> Forall P d1 -> Forall P d2 ->
  let rest := rest_one (blanket_unsafe c (si_array (slice_array c ty)) (si_iterable c (slice_array c ty))) in
  let st := (simd_iter l1 d1, simd_iter l2 d2) in
  zip (slice_iterator c ty) rest st = Ok st /\
  exists ps vs rs s, chunked (WIDTH ty) (map2 g l1 l2) vs rs /\ zlen rs < WIDTH ty /\ Forall (fun p => zlen (fst p) = WIDTH ty /\ zlen (snd p) = WIDTH ty /\ Forall P (fst p) /\ Forall P (snd p)) ps /\
    map (fun p => map2 g (fst p) (snd p)) ps = vs ++ match rs with [] => [] | _ :: _ => [right_aligned (map2 g d1 d2) rs] end /\
    simd_reduce (zip_iterator (slice_iterator c ty) rest) fuel st start f = Ok (fold_left f ps start, s).
Proof.
  intros R P c ty l1 d1 l2 d2 g start f fuel T L1 L2 D1 D2 Hl Hf P1 P2 Q1 Q2 rest st. pose proof (vty_ok_facts _ T) as (H1 & _). pose proof (zlen_nonneg l1).
  destruct (two_slices Z Z c ty ty l1 d1 l2 d2 0 0 T T eq_refl L1 L2 D1 ltac:(lia) Hl ltac:(lia) ltac:(lia) ltac:(lia)) as (Hz & vs1 & r1 & vs2 & r2 & s & He & [Hc1 Hc1'] & [Hc2 Hc2'] & Hv & Hr & Hlt & _).
  cbn [Z.to_nat skipn] in Hc1', Hc2'. split; [exact Hz|].
  assert (Lg : forall a b, length a = length b -> zlen (map2 g a b) = zlen a) by (intros a b K; unfold zlen; rewrite map2_len by exact K; reflexivity).
  destruct (DotProofs.map2_concat g (WIDTH ty) vs1 vs2 Hv Hc1 Hc2) as [M1 M2]. assert (Ld : length d1 = length d2) by (unfold zlen in *; lia).
  assert (X1 : Forall P (concat vs1 ++ r1)) by (rewrite Hc1'; exact P1). assert (X2 : Forall P (concat vs2 ++ r2)) by (rewrite Hc2'; exact P2). apply Forall_app in X1, X2. destruct X1 as [X1 Y1]. destruct X2 as [X2 Y2].
  eexists. exists (map2 (map2 g) vs1 vs2), (map2 g r1 r2), s. split; [split; [exact M2|]|split; [rewrite Lg by exact Hr; exact Hlt|split; [|split]]].
  - rewrite M1, <- Hc1', <- Hc2', map2_app; [reflexivity|]. pose proof (concat_zlen _ vs1 Hc1). pose proof (concat_zlen _ vs2 Hc2). unfold zlen in *. lia.
  - shelve.
  - shelve.
  - rewrite (emits_reduce _ _ _ _ _ He); [reflexivity|]. rewrite combine_length. pose proof (chunked_length ty l1 T vs1 r1 (conj Hc1 Hc1')). lia.
  Unshelve.
  + unfold visited. apply Forall_app. split.
    * apply Forall_forall. intros [v w] Hvw. pose proof (in_combine_l _ _ _ _ Hvw) as U1. pose proof (in_combine_r _ _ _ _ Hvw) as U2. cbn [fst snd]. rewrite Forall_forall in Hc1, Hc2. split; [exact (Hc1 v U1)|]. split; [exact (Hc2 w U2)|]. rewrite Forall_forall in X1, X2. split; apply Forall_forall; intros y Hy; [apply X1|apply X2]; apply in_concat; [exists v|exists w]; split; assumption.
    * unfold tail_of. destruct r1 as [|x r1]; destruct r2 as [|y r2]; try discriminate Hr; constructor; [|constructor]. cbn [fst snd]. split; [rewrite right_aligned_len by lia; exact D1|]. split; [rewrite right_aligned_len by (unfold zlen in *; lia); exact D2|]. split; unfold right_aligned; apply Forall_app; (split; [apply forall_firstn; assumption|assumption]).
  + unfold visited. rewrite map_app, map_combine2. f_equal. unfold tail_of. destruct r1 as [|x r1]; destruct r2 as [|y r2]; try discriminate Hr; [reflexivity|]. cbn [map fst snd map2]. f_equal. change (g x y :: map2 g r1 r2) with (map2 g (x :: r1) (y :: r2)).
    unfold right_aligned. rewrite map2_app; [|rewrite !firstn_length; cbn [length] in *; lia]. rewrite map2_len by exact Ld. rewrite (map2_len _ (x :: r1)) by exact Hr. rewrite <- Hr, <- Ld, map2_firstn. reflexivity.
Qed.

Lemma In_znth : forall (l : list Z) y, In y l -> exists k, znth l k = Some y.
Proof.
  induction l as [|x l IH]; intros y H; [contradiction|]. destruct H as [-> |H]; [exists 0; reflexivity|]. destruct (IH y H) as [k Hk]. pose proof (znth_Some_lt _ _ _ Hk) as Hb. exists (k + 1). rewrite znth_cons_shift by lia. replace (k + 1 - 1) with k by lia. exact Hk.
Qed.

Lemma total_pairs : forall (P : Z -> Prop) (n m : Z) (f : list Z -> list Z * list Z -> list Z), (forall a b, P a -> P b -> 0 <= a * b) -> 0 < n ->
  let F := fun s p => map2 Z.add (map2 Z.add s (firstn (Z.to_nat n) p)) (skipn (Z.to_nat n) p) in
  (forall s v w, zlen s = n -> zlen v = 2 * n -> zlen w = 2 * n -> Forall (Z.le 0) s -> Forall P v -> Forall P w -> Forall (fun y => y <= m) (F s (map2 Z.mul v w)) -> f s (v, w) = F s (map2 Z.mul v w)) ->
  forall ps acc, zlen acc = n -> Forall (Z.le 0) acc -> Forall (fun p => zlen (fst p) = 2 * n /\ zlen (snd p) = 2 * n /\ Forall P (fst p) /\ Forall P (snd p)) ps ->
  total acc + total (concat (map (fun p => map2 Z.mul (fst p) (snd p)) ps)) <= m ->
  let r := fold_left f ps acc in zlen r = n /\ Forall (Z.le 0) r /\ total r = total acc + total (concat (map (fun p => map2 Z.mul (fst p) (snd p)) ps)).
Proof.
  intros P n m f HP Np F Hf. induction ps as [|[v w] ps IH]; intros acc La Fa Fp Hm; cbn [fold_left concat map] in *; [split; [exact La|split; [exact Fa|change (total []) with 0; lia]]|].
  destruct (Forall_inv Fp) as (Lv & Lw & Pv & Pw). pose proof (Forall_inv_tail Fp) as Fp'. cbn [fst snd] in *. rewrite total_app2 in *. set (u := map2 Z.mul v w) in *.
  assert (Lu : length u = (2 * Z.to_nat n)%nat) by (unfold u; rewrite map2_len by (clear -Lv Lw; unfold zlen in *; lia); clear -Lv Np; unfold zlen in *; lia).
  assert (Fu : Forall (Z.le 0) u) by (apply (map2_lanes P P); [exact HP|exact Pv|exact Pw]). set (a := firstn (Z.to_nat n) u) in *. set (b := skipn (Z.to_nat n) u) in *. assert (Eu : a ++ b = u) by apply firstn_skipn.
  assert (Fab : Forall (Z.le 0) (a ++ b)) by (rewrite Eu; exact Fu). apply Forall_app in Fab. destruct Fab as [A B].
  assert (La' : length acc = length a /\ length a = length b) by (unfold a, b; rewrite firstn_length, skipn_length; clear -La Lu Np; unfold zlen in *; lia). destruct La' as [L1 L2].
  destruct (total_halves (fun q => q) acc a b L1 L2 Fa A B) as [M1 M2]. cbv zeta in M1, M2. rewrite !map_id in M1, M2. rewrite Eu, map_id in M2.
  assert (N : 0 <= total (concat (map (fun p => map2 Z.mul (fst p) (snd p)) ps))). { apply total_nonneg. clear -Fp' HP. induction Fp' as [|p ps (_ & _ & H1 & H2) _ IHp]; [constructor|cbn [map concat]; apply Forall_app; split; [apply (map2_lanes P P); assumption|exact IHp]]. }
  assert (Es : f acc (v, w) = map2 Z.add (map2 Z.add acc a) b).
  { apply (Hf acc v w); try assumption. eapply Forall_impl; [|exact (proj2 (total_nonneg _ M1))]. intros y Hy. cbv beta. rewrite M2 in Hy. clear -Hy N Hm. lia. }
  rewrite Es. destruct (IH (map2 Z.add (map2 Z.add acc a) b)) as (I1 & I2 & I3); [|exact M1|exact Fp'|rewrite M2; clear -Hm; lia|].
  - unfold zlen in *. rewrite !map2_length; rewrite ?map2_length; clear -La L1 L2; lia.
  - split; [exact I1|]. split; [exact I2|]. rewrite I3, M2. clear. lia.
Qed.

Lemma products_overflow : forall t fop fsqrt y a b p q, In (EInt t) widenable -> let u := mkIty (isigned t) (2 * ibytes t) in
  overflows (EInt u) 5 fop fsqrt add_products [y; a; b; p; q] = (outside u (a * b) || outside u (y + wrap u (a * b)) || outside u (p * q) || outside u (wrap u (y + wrap u (a * b)) + wrap u (p * q)))%bool.
Proof. intros t fop fsqrt y a b p q He u. subst u. unfold widenable in He. cbn [In] in He. repeat (destruct He as [He|He]; [injection He as <-; reflexivity|]). contradiction. Qed.

Lemma c100_dot_total : forall (fs : features) (c : config) (tie : bool) (fop : arith -> elty -> Z -> Z -> Z) (fsqrt : elty -> Z -> Z) (narrow : Z -> Z) (t : ity) (l1 l2 : list Z) (d1 d2 : Z) (l0 lw : packed_line) (f : list Z -> list Z * list Z -> list Z) (fuel : nat),
  let u := mkIty (isigned t) (2 * ibytes t) in
  fs "undefined"%string = false -> In (EInt t) widenable ->
  (forall o e u v, e = EF32 \/ e = EF64 -> lane e u -> lane e v -> lane e (fop o e u v)) -> (forall e u, e = EF32 \/ e = EF64 -> lane e u -> lane e (fsqrt e u)) ->
  portable_natural fs (el_name (EInt t) ++ "s") = [l0] -> portable_natural fs (el_name (EInt u) ++ "s") = [lw] ->
  in_ity t d1 -> in_ity t d2 -> 0 <= d1 -> 0 <= d2 -> d1 = 0 \/ d2 = 0 -> Forall (in_ity t) l1 -> Forall (in_ity t) l2 -> Forall (Z.le 0) l1 -> Forall (Z.le 0) l2 -> total (map2 Z.mul l1 l2) <= imax u ->
  zlen l1 = zlen l2 -> zlen l1 * p_size l0 <= isize_max -> (length l1 < fuel)%nat ->
  (forall s v w r, zlen s = p_width lw -> zlen v = p_width l0 -> zlen w = p_width l0 -> Forall (in_ity u) s -> Forall (in_ity t) v -> Forall (in_ity t) w -> portable_accumulate_zip fs tie fop fsqrt narrow c (EInt t) add_products s v w = Some (Ok r) -> f s (v, w) = r) ->
  let rest := rest_one (blanket_unsafe c (si_array (slice_array c (vty_of l0))) (si_iterable c (slice_array c (vty_of l0)))) in
  let st := (simd_iter l1 (splat (p_width l0) d1), simd_iter l2 (splat (p_width l0) d2)) in
  zip (slice_iterator c (vty_of l0)) rest st = Ok st /\
  exists m acc s', filter (fun m => String.eqb (s_vec m) (p_vec lw)) unknown_sum = [m] /\ simd_reduce (zip_iterator (slice_iterator c (vty_of l0)) rest) fuel st (splat (p_width lw) 0) f = Ok (acc, s') /\
    sum_portable (fun e => fop Add e) c m acc = Ok (total (map2 Z.mul l1 l2)).
Proof.
  intros fs c tie fop fsqrt narrow t l1 l2 d1 d2 l0 lw f fuel u T He Hf Hsq N0 Nw Hd1 Hd2 Pd1 Pd2 Hd Hl1 Hl2 Pl1 Pl2 Hm Hl Cap Hfu Rx rest st. destruct (wide_prim _ He) as (P1 & P2 & _). change (wide (EInt t)) with (EInt u) in *. destruct (portable_widths fs (EInt t) l0 lw T He N0 Nw) as (Ww & Wp & _ & _).
  destruct (portable_vty fs _ l0 T P1 N0) as (V0 & _). destruct (method_int u (EInt u) P2 (or_introl eq_refl)) as [By [Bmin Bmax]]. assert (In0 : forall y, 0 <= y <= imax u -> in_ity u y) by (intros y Hy; unfold in_ity; clear -Hy Bmin; lia). assert (Out : forall y, 0 <= y <= imax u -> outside u y = false) by (intros y Hy; unfold outside; clear -Hy Bmin; lia).
  set (P := fun a => in_ity t a /\ 0 <= a).
  destruct (splat_lanes P (p_width l0) d1 ltac:(lia) (conj Hd1 Pd1)) as (Ls1 & Fs1 & _). destruct (splat_lanes P (p_width l0) d2 ltac:(lia) (conj Hd2 Pd2)) as (Ls2 & Fs2 & _).
  assert (Pl : Forall P l1 /\ Forall P l2) by (clear -Hl1 Hl2 Pl1 Pl2; rewrite !Forall_forall in *; split; intros a Ha; split; auto). destruct Pl as [PP1 PP2].
  destruct (zip_pairs (list Z) P c (vty_of l0) l1 (splat (p_width l0) d1) l2 (splat (p_width l0) d2) Z.mul (splat (p_width lw) 0) f fuel V0 Cap) as (Hz & ps & vs & rs & s' & [Hc1 Hc2] & Hr & Hps & Eps & Hred); try assumption; [unfold slice_ok; rewrite <- Hl; exact Cap|].
  split; [exact Hz|]. change (WIDTH (vty_of l0)) with (p_width l0) in *. rewrite Ww in Hps.
  assert (Tot : total (concat (map (fun p => map2 Z.mul (fst p) (snd p)) ps)) = total (map2 Z.mul l1 l2)).
  { rewrite Eps, <- Hc2, concat_app, !total_app2. destruct rs as [|y r]; [reflexivity|]. cbn [concat]. rewrite app_nil_r. unfold right_aligned. rewrite total_app2. f_equal. rewrite map2_splat. replace (d1 * d2) with 0 by (destruct Hd as [-> | ->]; lia).
    assert (Z0 : forall i j, total (firstn i (repeat 0 j)) = 0) by (clear; induction i as [|i IH]; intros [|j]; try reflexivity; cbn [repeat firstn]; rewrite total_cons, IH; reflexivity). unfold splat. rewrite Z0. reflexivity. }
  destruct (total_pairs P (p_width lw) (imax u) f) with (ps := ps) (acc := splat (p_width lw) 0) as (O1 & O2 & O3).
  - intros a b [_ Ha] [_ Hb]. nia.
  - exact Wp.
  - intros s v w Ls Lv Lw Fs Fv Fw Fm. set (n := p_width lw) in *.
    assert (Iv : Forall (in_ity t) v) by (eapply Forall_impl; [|exact Fv]; intros a [Ha _]; exact Ha). assert (Iw : Forall (in_ity t) w) by (eapply Forall_impl; [|exact Fw]; intros a [Ha _]; exact Ha).
    assert (Lvw : length v = length w) by (clear -Lv Lw; unfold zlen in *; lia). assert (Lk : length (map2 Z.mul v w) = (2 * Z.to_nat n)%nat) by (rewrite map2_len by exact Lvw; clear -Lv Wp; unfold zlen in *; lia).
    set (pr := map2 Z.mul v w) in *. set (goal := map2 Z.add (map2 Z.add s (firstn (Z.to_nat n) pr)) (skipn (Z.to_nat n) pr)) in *.
    assert (Lg : zlen goal = n) by (unfold goal, zlen in *; rewrite !map2_len; rewrite ?map2_len; rewrite ?firstn_length, ?skipn_length, ?Lk; clear -Ls Wp; lia).
    assert (Zp : forall k y a b p q, znth s k = Some y -> znth v k = Some a -> znth w k = Some b -> znth v (k + n) = Some p -> znth w (k + n) = Some q -> znth goal k = Some (y + a * b + p * q)).
    { intros k y a b p q Hy Ha Hb Hp Hq. pose proof (znth_Some_lt _ _ _ Hy) as Hk. destruct (znth_exists goal k ltac:(lia)) as [z Hg]. rewrite Hg. f_equal. unfold goal in Hg. apply znth_map2_inv in Hg. destruct Hg as (z1 & z2 & G1 & G2 & ->). apply znth_map2_inv in G1. destruct G1 as (z0 & z3 & G0 & G1 & ->).
      rewrite Hy in G0. injection G0 as <-. assert (Lf : zlen (firstn (Z.to_nat n) pr) = n) by (unfold zlen; rewrite firstn_length, Lk; clear -Wp; lia).
      assert (E1 : znth pr k = Some z3) by (rewrite <- (firstn_skipn (Z.to_nat n) pr), znth_app by lia; rewrite Lf; replace (k <? n) with true by lia; exact G1).
      assert (E2 : znth pr (k + n) = Some z2) by (rewrite <- (firstn_skipn (Z.to_nat n) pr), znth_app by lia; rewrite Lf; replace (k + n <? n) with false by lia; replace (k + n - n) with k by lia; exact G2).
      unfold pr in E1, E2. apply znth_map2_inv in E1, E2. destruct E1 as (a' & b' & A1 & A2 & ->). destruct E2 as (p' & q' & A3 & A4 & ->). rewrite Ha in A1. rewrite Hb in A2. rewrite Hp in A3. rewrite Hq in A4. injection A1 as <-. injection A2 as <-. injection A3 as <-. injection A4 as <-. reflexivity. }
    assert (Bd : forall k y a b p q, znth s k = Some y -> znth v k = Some a -> znth w k = Some b -> znth v (k + n) = Some p -> znth w (k + n) = Some q -> 0 <= y /\ 0 <= a * b /\ 0 <= p * q /\ y + a * b + p * q <= imax u).
    { intros k y a b p q Hy Ha Hb Hp Hq. pose proof (Zp k y a b p q Hy Ha Hb Hp Hq) as G. rewrite Forall_forall in Fs, Fv, Fw, Fm. specialize (Fm _ (OpProofs.znth_In _ _ _ _ G)). pose proof (Fs _ (OpProofs.znth_In _ _ _ _ Hy)). destruct (Fv _ (OpProofs.znth_In _ _ _ _ Ha)) as [_ ?]. destruct (Fw _ (OpProofs.znth_In _ _ _ _ Hb)) as [_ ?]. destruct (Fv _ (OpProofs.znth_In _ _ _ _ Hp)) as [_ ?]. destruct (Fw _ (OpProofs.znth_In _ _ _ _ Hq)) as [_ ?]. cbv beta in Fm. repeat split; try assumption; nia. }
    assert (Ws : forall k y a b p q, znth s k = Some y -> znth v k = Some a -> znth w k = Some b -> znth v (k + n) = Some p -> znth w (k + n) = Some q -> wrap u (a * b) = a * b /\ wrap u (p * q) = p * q /\ wrap u (y + a * b) = y + a * b /\ wrap u (y + a * b + p * q) = y + a * b + p * q).
    { intros k y a b p q Hy Ha Hb Hp Hq. destruct (Bd k y a b p q Hy Ha Hb Hp Hq) as (B1 & B2 & B3 & B4). repeat split; apply wrap_id, In0; lia. }
    assert (Is : Forall (in_ity u) s).
    { apply Forall_forall. intros y Hy. destruct (In_znth _ _ Hy) as [k Hk]. pose proof (znth_Some_lt _ _ _ Hk) as Kb. destruct (znth_exists v k ltac:(lia)) as [a Ha]. destruct (znth_exists w k ltac:(lia)) as [b Hb]. destruct (znth_exists v (k + n) ltac:(lia)) as [p Hp]. destruct (znth_exists w (k + n) ltac:(lia)) as [q Hq].
      destruct (Bd k y a b p q Hk Ha Hb Hp Hq) as (B1 & B2 & B3 & B4). apply In0. lia. }
    assert (Lv0 : zlen v = p_width l0) by lia. assert (Lw0 : zlen w = p_width l0) by lia.
    destruct (c100_zip_step_portable fs c tie fop fsqrt narrow (EInt t) add_products s v w l0 lw T He Hf Hsq (proj1 (products_meaning t fop fsqrt 0 0 0 0 0 He)) N0 Nw Ls Is Lv0 Iv Lw0 Iw) as [A _]. destruct A as (r & Rr & Lr & _ & M).
    { right. intros k y a b p q (Hy & Ha & Hb & Hp & Hq). fold n in Hp, Hq. destruct (Bd k y a b p q Hy Ha Hb Hp Hq) as (B1 & B2 & B3 & B4). destruct (Ws k y a b p q Hy Ha Hb Hp Hq) as (W1 & W2 & W3 & W4). etransitivity; [exact (products_overflow t fop fsqrt y a b p q He)|]. fold u. rewrite W1, W2, W3, !Out by lia. reflexivity. }
    rewrite (Rx s v w r Ls Lv0 Lw0 Is Iv Iw Rr). apply znth_ext_eq; [clear -Lr Lg; unfold zlen, n in *; lia|]. intros k z Hg. pose proof (znth_Some_lt _ _ _ Hg) as Kb.
    destruct (znth_exists s k ltac:(lia)) as [y Hy]. destruct (znth_exists v k ltac:(lia)) as [a Ha]. destruct (znth_exists w k ltac:(lia)) as [b Hb]. destruct (znth_exists v (k + n) ltac:(lia)) as [p Hp]. destruct (znth_exists w (k + n) ltac:(lia)) as [q Hq].
    rewrite (Zp k y a b p q Hy Ha Hb Hp Hq) in Hg. injection Hg as <-. destruct (Ws k y a b p q Hy Ha Hb Hp Hq) as (W1 & W2 & W3 & W4). rewrite (M k y a b p q (conj Hy (conj Ha (conj Hb (conj Hp Hq))))). f_equal. etransitivity; [exact (proj2 (products_meaning t fop fsqrt y a b p q He))|]. fold u. rewrite W1, W2, W3. exact W4.
  - unfold splat. rewrite zlen_repeat. clear -Wp. lia.
  - unfold splat. apply Forall_forall. intros y Hy. apply repeat_spec in Hy. subst y. reflexivity.
  - exact Hps.
  - unfold splat. rewrite total_zeros, Tot. exact Hm.
  - unfold splat in O3 at 2. rewrite total_zeros, Tot in O3. cbn [Z.add] in O3. set (acc := fold_left f ps (splat (p_width lw) 0)) in *.
    destruct (portable_line fs _ T P2) as (m & M & _ & V & W & _). change (wide (EInt t)) with (EInt u) in M. rewrite Nw in M. injection M as <-.
    assert (S : exists p, filter (fun p => String.eqb (s_vec p) (p_vec lw)) unknown_sum = [p] /\ s_el p = EInt u /\ WIDTH (s_ty p) = p_width lw) by (rewrite V, W; clear -He; unfold u; unfold widenable in He; cbn [In] in He; repeat (destruct He as [He|He]; [injection He as <-; (eexists; split; [reflexivity|split; reflexivity])|]); contradiction).
    destruct S as (p & S1 & S2 & S3). exists p, acc, s'. split; [exact S1|]. split; [exact Hred|].
    assert (Ip : In p (x86_sum ++ unknown_sum)) by (apply in_or_app; right; assert (I1 : In p [p]) by (left; reflexivity); rewrite <- S1 in I1; apply filter_In in I1; exact (proj1 I1)).
    destruct (total_nonneg acc O2) as [T1 T2]. assert (Ia : Forall (in_ity u) acc) by (clear -O2 T2 In0 O3 Hm; rewrite Forall_forall in *; intros y Hy; apply In0; specialize (O2 y Hy); specialize (T2 y Hy); lia).
    destruct (c42_sum_portable (fun e => fop Add e) c p u acc Ip S2) as (r & R1 & [R2 [j R3]]).
    + rewrite S3. split; [exact O1|exact Ia].
    + right. intros k. apply In0. clear -O2 O3 Hm. rewrite <- (firstn_skipn k acc) in O3, O2. rewrite total_app2 in O3. apply Forall_app in O2. destruct O2 as [A B]. destruct (total_nonneg _ A) as [A1 _]. destruct (total_nonneg _ B) as [B1 _]. lia.
    + rewrite R1. f_equal. rewrite <- (wrap_id u r R2). rewrite <- O3. rewrite (wrap_wraps u r (total acc)); [|exists j; exact R3]. apply wrap_id. apply In0. lia.
Qed.
