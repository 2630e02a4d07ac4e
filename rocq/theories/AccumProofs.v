(** Proofs of the properties: reductions whose accumulator is wider than the elements (C100). *)
From Coq Require Import String.
From Verif Require Import Base Spec VecSpec Vecs Iters Zip ZipSpec GateTables GateSpec Gates Floats FloatSpec Lanes OpTables Ops OpSpec PortTables Ports PortSpec SumTables Sums SumSpec PipeSpec AvailSpec Builds ExprSpec Exprs WidenSpec Widens OverflowSpec Portables WidePorts Accums.
Open Scope list_scope.
Open Scope Z_scope.
From Coq Require Import Lia ZifyBool ZifyNat.
From Verif Require Import ListFacts VecFacts IterFacts CollectFacts MapFacts ReduceFacts VecProofs OpProofs PortProofs IterProofs SumProofs BuildProofs PipeProofs LoopProofs KernProofs DocProofs ExprProofs CollectProofs FoldProofs WidenProofs PortableProofs PortFoldProofs WidePortProofs.
Ltac Zify.zify_post_hook ::= Z.div_mod_to_equations.

Lemma split_halves : forall (v a b : list Z) n, zlen v = 2 * n -> zlen a = n -> zlen b = n ->
  (forall k env, column [v] k env -> (k < n -> column [a] k env) /\ (n <= k -> column [b] (k - n) env)) -> v = a ++ b.
Proof.
  intros v a b n Lv La Lb H. symmetry. rewrite <- (map_id v). apply meaning1; [rewrite app_length; unfold zlen in *; lia|]. intros k z Hz. pose proof (znth_Some_lt _ _ _ Hz) as Hk. destruct (H k [z]) as [H1 H2]; [constructor; [exact Hz|constructor]|].
  rewrite znth_app by lia. rewrite La. destruct (k <? n) eqn:C; [specialize (H1 ltac:(lia)); inversion H1; assumption|specialize (H2 ltac:(lia)); inversion H2; assumption].
Qed.

Lemma meaning3 : forall (s a b r : list Z) (m : Z -> Z -> Z -> Z), length s = length r -> length a = length r -> length b = length r ->
  (forall k x y z, znth s k = Some x -> znth a k = Some y -> znth b k = Some z -> znth r k = Some (m x y z)) -> forall (S A : Z -> Prop) (op : Z -> Z -> Z) (h : Z -> Z), Forall S s -> Forall A a -> Forall A b ->
  (forall x y z, S x -> A y -> A z -> m x y z = op (op x (h y)) (h z)) -> r = map2 op (map2 op s (map h a)) (map h b).
Proof.
  induction s as [|x s IH]; intros [|y a] [|z b] [|q r] m L1 L2 L3 K S A op h Fs Fa Fb Hm; try discriminate L1; try discriminate L2; try discriminate L3; [reflexivity|]. cbn [map map2]. inversion Fs; subst. inversion Fa; subst. inversion Fb; subst. f_equal.
  - specialize (K 0 x y z eq_refl eq_refl eq_refl). injection K as ->. apply Hm; assumption.
  - apply (IH a b r m ltac:(cbn in L1; lia) ltac:(cbn in L2; lia) ltac:(cbn in L3; lia)) with (S := S) (A := A); try assumption. intros k u v w Hu Hv Hw. pose proof (znth_Some_lt _ _ _ Hu) as Hk. specialize (K (k + 1) u v w). rewrite !znth_cons_shift in K by lia. replace (k + 1 - 1) with k in K by lia. apply K; assumption.
Qed.

Lemma map2_assoc_on : forall (P : Z -> Prop) (op : Z -> Z -> Z) a b s, (forall x y z, P x -> P y -> P z -> op x (op y z) = op (op x y) z) -> Forall P s -> Forall P a -> Forall P b -> map2 op (map2 op s a) b = map2 op s (map2 op a b).
Proof.
  intros P op a b s As. revert a b. induction s as [|x s IH]; intros [|y a] [|z b] Fs Fa Fb; try reflexivity. cbn [map2]. inversion Fs; subst. inversion Fa; subst. inversion Fb; subst. f_equal; [symmetry; apply As; assumption|apply IH; assumption].
Qed.

Lemma accumulated : forall (Q P : Z -> Prop) (op : Z -> Z -> Z) (h : Z -> Z) (i d n : Z) (f : list Z -> list Z -> list Z) (l : list Z) vs rest,
  (forall x y, P x -> P y -> P (op x y)) -> P i -> (forall x y z, P x -> P y -> P z -> op x (op y z) = op (op x y) z) -> (forall x y, P x -> P y -> op x y = op y x) -> (forall x, P x -> op i x = x) ->
  (forall x, Q x -> P (h x)) -> Q d -> h d = i -> Forall Q l -> 0 < n -> Forall (fun v => zlen v = 2 * n) vs -> concat vs ++ rest = l -> zlen rest < 2 * n ->
  let args := vs ++ match rest with [] => [] | _ :: _ => [right_aligned (splat (2 * n) d) rest] end in
  (forall s a b, zlen s = n -> zlen a = n -> zlen b = n -> Forall P s -> Forall Q a -> Forall Q b -> f s (a ++ b) = map2 op (map2 op s (map h a)) (map h b)) ->
  let r := fold_left f args (splat n i) in zlen r = n /\ Forall P r /\ fold_left op r i = fold_left op (map h l) i.
Proof.
  intros Q P op h i d n f l vs rest Pop Hi As Cm Un Hh Hd Hdi Hl Npos Hc1 Hc2 Hr args Hs. set (w := 2 * n) in *. assert (Wpos : 0 < w) by (unfold w; lia).
  set (dv := splat w d) in *. assert (Ldv : zlen dv = w) by (unfold dv, splat; rewrite zlen_repeat; lia).
  assert (Fdv : Forall Q dv) by (unfold dv, splat; apply Forall_forall; intros y Hy; apply repeat_spec in Hy; rewrite Hy; exact Hd).
  assert (Hl2 : Forall Q (concat vs ++ rest)) by (rewrite Hc2; exact Hl). apply Forall_app in Hl2. destruct Hl2 as [L1 L2].
  assert (Hargs : Forall (fun v => zlen v = w /\ Forall Q v) args).
  { unfold args. apply Forall_app. split.
    - clear -Hc1 L1. induction vs as [|v vs IH]; [constructor|]. cbn [concat] in L1. apply Forall_app in L1. destruct L1 as [A B]. pose proof (Forall_inv Hc1) as C. cbv beta in C. constructor; [split; [exact C|exact A]|apply IH; [exact (Forall_inv_tail Hc1)|exact B]].
    - destruct rest as [|y r]; constructor; [|constructor]. split; [rewrite right_aligned_len by lia; exact Ldv|]. unfold right_aligned. apply Forall_app. split; [|exact L2]. apply forall_firstn. exact Fdv. }
  assert (Fm : forall q, Forall Q q -> Forall P (map h q)) by (intros q Fq; apply Forall_map; eapply Forall_impl; [|exact Fq]; exact Hh).
  set (g := fun v => map2 op (map h (firstn (Z.to_nat n) v)) (map h (skipn (Z.to_nat n) v))).
  assert (Hv : forall v, zlen v = w -> Forall Q v -> exists a b, v = a ++ b /\ zlen a = n /\ zlen b = n /\ Forall Q a /\ Forall Q b /\ g v = map2 op (map h a) (map h b)).
  { intros v Lv Fv. exists (firstn (Z.to_nat n) v), (skipn (Z.to_nat n) v). rewrite firstn_skipn. split; [reflexivity|]. assert (Ll : length v = (2 * Z.to_nat n)%nat) by (clear -Lv Npos; unfold zlen, w in *; lia). split; [unfold zlen; rewrite firstn_length; clear -Ll Npos; lia|]. split; [unfold zlen; rewrite skipn_length; clear -Ll Npos; lia|].
    rewrite <- (firstn_skipn (Z.to_nat n) v) in Fv. apply Forall_app in Fv. split; [exact (proj1 Fv)|]. split; [exact (proj2 Fv)|reflexivity]. }
  assert (Gv : forall v, zlen v = w -> Forall Q v -> length (g v) = Z.to_nat n /\ Forall P (g v) /\ fold_left op (g v) i = fold_left op (map h v) i).
  { intros v Lv Fv. destruct (Hv v Lv Fv) as (a & b & Ev & La & Lb & Fa & Fb & Eg). rewrite Eg. assert (Lab : length (map h a) = length (map h b)) by (rewrite !map_length; clear -La Lb; unfold zlen in *; lia). destruct (on_map2 P op i Pop Hi As Cm Un (map h a) (map h b) (Fm a Fa) (Fm b Fb) Lab) as [M1 M2].
    split; [rewrite map2_length by exact Lab; rewrite map_length; clear -La; unfold zlen in La; lia|]. split; [exact M1|]. rewrite M2, Ev, map_app. symmetry. apply (on_app P op i Pop Hi As Cm Un); apply Fm; assumption. }
  rewrite <- fold_pair. destruct (on_vectors P op i Pop Hi As Cm Un unit (Z.to_nat n) g (fun p v => (f (fst p) v, tt)) args (splat n i) tt) as (O1 & O2 & O3).
  - unfold splat. rewrite repeat_length. reflexivity.
  - unfold splat. apply Forall_forall. intros y Hy. apply repeat_spec in Hy. rewrite Hy. exact Hi.
  - eapply Forall_impl; [|exact Hargs]. intros v [Lv Fv]. destruct (Gv v Lv Fv) as (G1 & G2 & _). split; assumption.
  - intros a e v La Fa Iv. rewrite Forall_forall in Hargs. destruct (Hargs v Iv) as [Lv Fv]. cbn [fst]. destruct (Hv v Lv Fv) as (p & q & Ev & Lp & Lq & Fp & Fq & Eg). rewrite Eg, Ev. rewrite Hs by (try assumption; unfold zlen; clear -La Npos; lia). apply (map2_assoc_on P); [exact As|exact Fa|apply Fm; exact Fp|apply Fm; exact Fq].
  - cbv zeta. split; [unfold zlen; clear -O1 Npos; lia|]. split; [exact O2|]. rewrite O3. unfold splat. rewrite (on_units P op i Hi Un).
    assert (Fl : Forall P (map h l)) by (apply Fm; exact Hl).
    assert (E1 : fold_left op (concat (map g args)) i = fold_left op (map h (concat args)) i).
    { clear Hs O1 O2 O3. clearbody args. clear -Hargs Gv Pop Hi As Cm Un Fm. induction Hargs as [|v vs [Lv Fv] Hvs IH]; [reflexivity|]. cbn [map concat]. rewrite map_app. destruct (Gv v Lv Fv) as (_ & G2 & G3).
      assert (Fc : Forall P (concat (map g vs)) /\ Forall Q (concat vs)) by (clear -Hvs Gv; induction Hvs as [|u us [Lu Fu] _ [I1 I2]]; [split; constructor|cbn [map concat]; split; apply Forall_app; split; [apply Gv; assumption|exact I1|exact Fu|exact I2]]). destruct Fc as [Fc Fq].
      rewrite (on_app P op i Pop Hi As Cm Un _ _ G2 Fc), (on_app P op i Pop Hi As Cm Un _ _ (Fm v Fv) (Fm _ Fq)), G3, IH. reflexivity. }
    assert (Ec : fold_left op (map h (concat args)) i = fold_left op (map h l) i).
    { unfold args. rewrite concat_app, map_app, <- Hc2, map_app.
      destruct rest as [|y r]; [reflexivity|]. cbn [concat]. rewrite app_nil_r. unfold right_aligned. rewrite map_app.
      assert (Eu : map h (firstn (length dv - length (y :: r)) dv) = repeat i (length (firstn (length dv - length (y :: r)) dv))).
      { unfold dv, splat. generalize (length (repeat d (Z.to_nat w)) - length (y :: r))%nat. intros k. clear -Hdi. generalize (Z.to_nat w). induction k as [|k IH]; intros [|m]; try reflexivity. cbn [repeat firstn map length]. rewrite Hdi, IH. reflexivity. }
      rewrite Eu. rewrite (on_app P op i Pop Hi As Cm Un (map h (concat vs))), (on_app P op i Pop Hi As Cm Un (repeat i _)), (on_app P op i Pop Hi As Cm Un (map h (concat vs))); try (apply Fm; assumption).
      - f_equal. rewrite (on_units P op i Hi Un). apply Un. apply (on_fold P op Pop); [apply Fm; exact L2|exact Hi].
      - apply Forall_forall. intros z Hz. apply repeat_spec in Hz. rewrite Hz. exact Hi.
      - apply Forall_app. split; [apply Forall_forall; intros z Hz; apply repeat_spec in Hz; rewrite Hz; exact Hi|apply Fm; exact L2]. }
    rewrite E1, Ec. apply Un. apply (on_fold P op Pop); [exact Fl|exact Hi].
Qed.

Lemma widths_double : forall fs e l lw, target fs -> In e widenable -> natural fs (el_name e ++ "s") = [l] -> natural fs (el_name (wide e) ++ "s") = [lw] -> p_width l = 2 * p_width lw /\ 0 < p_width lw /\ natural_of fs e = Some l /\ natural_of fs (wide e) = Some lw.
Proof.
  intros fs e l lw T He Nl Nw. destruct (wide_prim e He) as (P1 & P2 & B2 & _). destruct (natural_line fs _ T P1) as (m & M & N1 & _ & W1 & _). rewrite Nl in M. injection M as <-. destruct (natural_line fs _ T P2) as (m & M & N2 & _ & W2 & _). rewrite Nw in M. injection M as <-.
  rewrite B2 in W2. assert (Ww : p_width l = 2 * p_width lw /\ 0 < p_width lw) by (rewrite W1, W2; clear -He; unfold register; widens He; destruct (fs "avx2"%string); vm_compute; split; congruence). destruct Ww as [A B]. repeat split; assumption.
Qed.

Lemma c100_step : forall (fs : features) (tie : bool) (fop : arith -> elty -> Z -> Z -> Z) (fsqrt : elty -> Z -> Z) (narrow : Z -> Z) (e : elty) (x : expr) (s v : list Z) (l0 lw : packed_line),
  target fs -> In e widenable ->
  (forall o e u v, e = EF32 \/ e = EF64 -> lane e u -> lane e v -> lane e (fop o e u v)) -> (forall e u, e = EF32 \/ e = EF64 -> lane e u -> lane e (fsqrt e u)) ->
  type_of (wide e) 3 x = Some (wide e) -> natural fs (el_name e ++ "s") = [l0] -> natural fs (el_name (wide e) ++ "s") = [lw] ->
  zlen s = p_width lw -> Forall (lane (wide e)) s -> zlen v = p_width l0 -> Forall (lane e) v ->
  exists r, accumulate_in fs tie fop fsqrt narrow e x s v = Some (Ok r) /\ zlen r = p_width lw /\ Forall (lane (wide e)) r /\
    forall k y a b, znth s k = Some y -> znth v k = Some a -> znth v (k + p_width lw) = Some b -> znth r k = Some (meaning (wide e) 3 fop fsqrt x [y; a; b]).
Proof.
  intros fs tie fop fsqrt narrow e x s v l0 lw T He Hf Hs Ht N0 Nw Ls Fs Lv Fv. destruct (wide_prim e He) as (P1 & P2 & _). destruct (widths_double fs e l0 lw T He N0 Nw) as (Ww & Wp & N1 & N2).
  destruct (upcast_all_ok fs narrow e l0 lw [v] T He N0 Nw) as (us & vs & Eu & Lu & Lvs & Fu & Fvs & Cu); [constructor; [split; assumption|constructor]|].
  destruct us as [|a [|? ?]]; try discriminate Lu. destruct vs as [|b [|? ?]]; try discriminate Lvs. destruct (Forall_inv Fu) as [La Fa]. destruct (Forall_inv Fvs) as [Lb Fb].
  pose proof (split_halves v a b (p_width lw) ltac:(lia) La Lb Cu) as Ev.
  destruct (c83_closure fs tie fop fsqrt narrow (wide e) (wide e) x [s; a; b] lw lw T P2 Hf Hs Ht Nw Nw ltac:(discriminate)) as (r & Rr & Lr & Fr & M); [repeat (constructor; [split; assumption|]); constructor|]. cbn [length] in Rr, M.
  exists r. unfold accumulate_in. rewrite N1, N2, Eu. cbn [andthen fst snd app]. split; [exact Rr|]. split; [exact Lr|]. split; [exact Fr|]. intros k y p q Hy Hp Hq. pose proof (znth_Some_lt _ _ _ Hy) as Hk. rewrite Ev in Hp, Hq. rewrite znth_app in Hp, Hq by lia. rewrite La in Hp, Hq.
  replace (k <? p_width lw) with true in Hp by lia. replace (k + p_width lw <? p_width lw) with false in Hq by lia. replace (k + p_width lw - p_width lw) with k in Hq by lia. apply M. repeat (constructor; [eassumption|]). constructor.
Qed.

Lemma step_halves : forall (S Q : Z -> Prop) (r s a b : list Z) (m : list Z -> Z) (op : Z -> Z -> Z) (h : Z -> Z) n, zlen s = n -> zlen a = n -> zlen b = n -> zlen r = n -> Forall S s -> Forall Q a -> Forall Q b ->
  (forall k y p q, znth s k = Some y -> znth (a ++ b) k = Some p -> znth (a ++ b) (k + n) = Some q -> znth r k = Some (m [y; p; q])) ->
  (forall y p q, S y -> Q p -> Q q -> m [y; p; q] = op (op y (h p)) (h q)) -> r = map2 op (map2 op s (map h a)) (map h b).
Proof.
  intros S Q r s a b m op h n Ls La Lb Lr Fs Fa Fb M Hm. apply (meaning3 s a b r (fun y p q => m [y; p; q])) with (S := S) (A := Q); try assumption; try (unfold zlen in *; lia). intros k y p q Hy Hp Hq. pose proof (znth_Some_lt _ _ _ Hy) as Hk. apply M; [exact Hy| |].
  - rewrite znth_app by lia. replace (k <? zlen a) with true by lia. exact Hp.
  - rewrite znth_app by lia. replace (k + n <? zlen a) with false by lia. replace (k + n - zlen a) with k by lia. exact Hq.
Qed.

Lemma c100_reduce : forall (fs : features) (c : config) (tie : bool) (fop : arith -> elty -> Z -> Z -> Z) (fsqrt : elty -> Z -> Z) (narrow : Z -> Z) (e : elty) (x : expr) (op : Z -> Z -> Z) (h : Z -> Z) (l : list Z) (d i : Z) (l0 lw : packed_line) (f : list Z -> list Z -> list Z) (fuel : nat),
  target fs -> In e widenable ->
  (forall o e u v, e = EF32 \/ e = EF64 -> lane e u -> lane e v -> lane e (fop o e u v)) -> (forall e u, e = EF32 \/ e = EF64 -> lane e u -> lane e (fsqrt e u)) ->
  type_of (wide e) 3 x = Some (wide e) -> natural fs (el_name e ++ "s") = [l0] -> natural fs (el_name (wide e) ++ "s") = [lw] ->
  (forall y a b, lane (wide e) y -> lane e a -> lane e b -> meaning (wide e) 3 fop fsqrt x [y; a; b] = op (op y (h a)) (h b)) -> (forall a, lane e a -> lane (wide e) (h a)) -> (forall u v, lane (wide e) u -> lane (wide e) v -> lane (wide e) (op u v)) ->
  (forall u v w, lane (wide e) u -> lane (wide e) v -> lane (wide e) w -> op u (op v w) = op (op u v) w) -> (forall u v, lane (wide e) u -> lane (wide e) v -> op u v = op v u) -> (forall u, lane (wide e) u -> op i u = u) ->
  lane (wide e) i -> lane e d -> h d = i -> Forall (lane e) l -> zlen l * p_size l0 <= isize_max -> (length l < fuel)%nat ->
  (forall s v, zlen s = p_width lw -> zlen v = p_width l0 -> Forall (lane (wide e)) s -> Forall (lane e) v -> accumulate_in fs tie fop fsqrt narrow e x s v = Some (Ok (f s v))) ->
  exists acc s', simd_reduce (slice_iterator c (vty_of l0)) fuel (simd_iter l (splat (p_width l0) d)) (splat (p_width lw) i) f = Ok (acc, s') /\ zlen acc = p_width lw /\ Forall (lane (wide e)) acc /\
    scalar_reduce (p_width lw) acc i op = Ok (fold_left op (map h l) i).
Proof.
  intros fs c tie fop fsqrt narrow e x op h l d i l0 lw f fuel T He Hf Hsq Tx N0 Nw Hx Hh Pop As Cm Un Hi Hd Hdi Hl Cap Hfu Rx. destruct (wide_prim e He) as (P1 & P2 & _). destruct (widths_double fs e l0 lw T He N0 Nw) as (Ww & Wp & _ & _).
  destruct (natural_vty fs e l0 T P1 N0) as (V0 & _). destruct (splat_lanes (lane e) (p_width l0) d ltac:(lia) Hd) as (Ls & _ & _).
  destruct (c06_reduce Z (list Z) c (vty_of l0) l (splat (p_width l0) d) 0 (splat (p_width lw) i) f fuel V0 Cap Ls (conj (Z.le_refl 0) (zlen_nonneg l)) (or_introl eq_refl) Hfu) as (vs & rest & [Hc1 Hc2] & Hr & _ & Hred & _). cbn [Z.to_nat skipn] in Hc2. change (WIDTH (vty_of l0)) with (p_width l0) in *. rewrite Ww in Hc1, Hr, Hred.
  eexists. eexists. rewrite Ww. split; [exact Hred|].
  destruct (accumulated (lane e) (lane (wide e)) op h i d (p_width lw) f l vs rest Pop Hi As Cm Un Hh Hd Hdi Hl Wp Hc1 Hc2 Hr) as (O1 & O2 & O3).
  - intros s a b Lsn La Lb Fs Fa Fb. assert (Lab : zlen (a ++ b) = p_width l0) by (rewrite zlen_app; lia). assert (Fab : Forall (lane e) (a ++ b)) by (apply Forall_app; split; assumption).
    destruct (c100_step fs tie fop fsqrt narrow e x s (a ++ b) l0 lw T He Hf Hsq Tx N0 Nw Lsn Fs Lab Fab) as (r & Rr & Lr & _ & M). rewrite (Rx s (a ++ b) Lsn Lab Fs Fab) in Rr. injection Rr as Rr. rewrite Rr. exact (step_halves _ _ r s a b _ op h _ Lsn La Lb Lr Fs Fa Fb M Hx).
  - split; [exact O1|]. split; [exact O2|]. destruct (natural_vty fs (wide e) lw T P2 Nw) as (Vw & _). change (p_width lw) with (WIDTH (vty_of lw)). rewrite c34_scalar_reduce by exact O1. f_equal. exact O3.
Qed.

Lemma c100_sum : forall (fs : features) (fadd : elty -> Z -> Z -> Z) (b : bool) (tie : bool) (fop : arith -> elty -> Z -> Z -> Z) (fsqrt : elty -> Z -> Z) (narrow : Z -> Z) (t : ity) (x : expr) (h : Z -> Z) (l : list Z) (d : Z) (l0 lw : packed_line) (f : list Z -> list Z -> list Z) (fuel : nat),
  let c := mkConfig Release b in let u := mkIty (isigned t) (2 * ibytes t) in
  target fs -> In (EInt t) widenable ->
  (forall o e u v, e = EF32 \/ e = EF64 -> lane e u -> lane e v -> lane e (fop o e u v)) -> (forall e u, e = EF32 \/ e = EF64 -> lane e u -> lane e (fsqrt e u)) ->
  type_of (EInt u) 3 x = Some (EInt u) -> natural fs (el_name (EInt t) ++ "s") = [l0] -> natural fs (el_name (EInt u) ++ "s") = [lw] ->
  (forall y a b, in_ity u y -> in_ity t a -> in_ity t b -> meaning (EInt u) 3 fop fsqrt x [y; a; b] = wrap u (y + h a + h b)) ->
  in_ity t d -> h d = 0 -> Forall (in_ity t) l -> zlen l * p_size l0 <= isize_max -> (length l < fuel)%nat ->
  (forall s v, zlen s = p_width lw -> zlen v = p_width l0 -> Forall (in_ity u) s -> Forall (in_ity t) v -> accumulate_in fs tie fop fsqrt narrow (EInt t) x s v = Some (Ok (f s v))) ->
  exists acc s', simd_reduce (slice_iterator c (vty_of l0)) fuel (simd_iter l (splat (p_width l0) d)) (splat (p_width lw) 0) f = Ok (acc, s') /\
    sum_in fs fadd c (p_vec lw) acc = Some (Ok (wrap u (total (map h l)))) /\ (in_ity u (total (map h l)) -> wrap u (total (map h l)) = total (map h l)).
Proof.
  intros fs fadd b tie fop fsqrt narrow t x h l d l0 lw f fuel c u T He Hf Hsq Tx N0 Nw Hx Hd Hd0 Hl Cap Hfu Rx. destruct (wide_prim _ He) as (P1 & P2 & _ & t' & Et & Ew & _). injection Et as <-. change (wide (EInt t)) with (EInt u) in *.
  assert (By : (0 < ibytes u)%nat) by (clear -P2; destruct (method_int u (EInt u) P2 (or_introl eq_refl)) as [B _]; exact B).
  assert (I0 : in_ity u 0) by (destruct (method_int u (EInt u) P2 (or_introl eq_refl)) as [_ B]; exact B).
  assert (WI : forall z, in_ity u (wrap u z)) by (intros z; apply wrap_in; exact By).
  set (op := fun p q => wrap u (p + q)). set (k := fun a => wrap u (h a)).
  assert (WA : forall p q, wrap u (wrap u p + q) = wrap u (p + q)) by (intros p q; apply wrap_wraps; destruct (wrap_cong u p) as [m Em]; exists m; clear -Em; lia).
  destruct (c100_reduce fs c tie fop fsqrt narrow (EInt t) x op k l d 0 l0 lw f fuel T He Hf Hsq Tx N0 Nw) as (acc & s' & Hr & La & Fa & Hsr); try assumption.
  - intros y a q Hy Ha Hq. rewrite Hx by assumption. unfold op, k. rewrite WA. rewrite !(Z.add_comm _ (wrap u (h _))), WA. rewrite <- !Z.add_assoc. rewrite (Z.add_comm (h q)), <- Z.add_assoc, WA. f_equal. lia.
  - intros a _. apply WI.
  - intros p q _ _. apply WI.
  - intros p q r _ _ _. unfold op. rewrite WA. rewrite (Z.add_comm p), WA. f_equal. lia.
  - intros p q _ _. unfold op. f_equal. lia.
  - intros p Hp. unfold op. cbn [Z.add]. apply wrap_id. exact Hp.
  - unfold k. rewrite Hd0. apply wrap_id. exact I0.
  - exists acc, s'. split; [exact Hr|]. split; [|intros Hin; apply wrap_id; exact Hin].
    destruct (natural_line fs _ T P2) as (m & M & _ & V & W & _). change (wide (EInt t)) with (EInt u) in M. rewrite Nw in M. injection M as <-. destruct (sum_line fs _ P2 eq_refl) as (p & Q1 & Q2 & Q3 & Q4).
    destruct (c78_sum fs fadd c p u acc Q1 Q3) as (r & R1 & [R2 [j R3]]); [rewrite Q4; cbn [WIDTH]; rewrite <- W; split; [exact La|exact Fa]|reflexivity|].
    rewrite V, <- Q2, R1. f_equal. f_equal. change (p_width lw) with (WIDTH (vty_of lw)) in Hsr. rewrite c34_scalar_reduce in Hsr by exact La. injection Hsr as Hsr. unfold op in Hsr. rewrite !fold_wrap_sum in Hsr by assumption. cbn [Z.add] in Hsr.
    rewrite <- (wrap_id u r R2). rewrite R3. replace (wrap u (total acc + j * imod u)) with (wrap u (total acc)) by (apply wrap_wraps; exists (- j); lia). rewrite Hsr.
    clear -By. unfold k. induction l as [|a l IH]; [reflexivity|]. cbn [map]. rewrite !total_cons. apply wrap_wraps. destruct (wrap_cong u (h a)) as [m Em]. assert (C : cong (imod u) (total (map (fun a => wrap u (h a)) l)) (total (map h l))) by (clear IH; induction l as [|z l IHl]; [exists 0; reflexivity|cbn [map]; rewrite !total_cons; destruct (wrap_cong u (h z)) as [p Ep]; destruct IHl as [q Eq]; exists (p + q); lia]). destruct C as [q Eq]. exists (m + q). lia.
Qed.

Lemma portable_widths : forall fs e l lw, fs "undefined"%string = false -> In e widenable -> portable_natural fs (el_name e ++ "s") = [l] -> portable_natural fs (el_name (wide e) ++ "s") = [lw] -> p_width l = 2 * p_width lw /\ 0 < p_width lw /\ portable_of fs e = Some l /\ portable_of fs (wide e) = Some lw.
Proof.
  intros fs e l lw T He Nl Nw. destruct (wide_prim e He) as (P1 & P2 & B2 & _). destruct (portable_line fs _ T P1) as (m & M & N1 & _ & W1 & _). rewrite Nl in M. injection M as <-. destruct (portable_line fs _ T P2) as (m & M & N2 & _ & W2 & _). rewrite Nw in M. injection M as <-.
  rewrite B2 in W2. assert (Ww : p_width l = 2 * p_width lw /\ 0 < p_width lw) by (rewrite W1, W2; clear -He; widens He; vm_compute; split; congruence). destruct Ww as [A B]. repeat split; assumption.
Qed.

Lemma c100_step_portable : forall (fs : features) (c : config) (tie : bool) (fop : arith -> elty -> Z -> Z -> Z) (fsqrt : elty -> Z -> Z) (narrow : Z -> Z) (e : elty) (x : expr) (s v : list Z) (l0 lw : packed_line),
  fs "undefined"%string = false -> In e widenable ->
  (forall o e u v, e = EF32 \/ e = EF64 -> lane e u -> lane e v -> lane e (fop o e u v)) -> (forall e u, e = EF32 \/ e = EF64 -> lane e u -> lane e (fsqrt e u)) ->
  type_of (wide e) 3 x = Some (wide e) -> portable_natural fs (el_name e ++ "s") = [l0] -> portable_natural fs (el_name (wide e) ++ "s") = [lw] ->
  zlen s = p_width lw -> Forall (lane (wide e)) s -> zlen v = p_width l0 -> Forall (lane e) v ->
  let result := portable_accumulate fs tie fop fsqrt narrow c e x s v in let lanes k y a b := znth s k = Some y /\ znth v k = Some a /\ znth v (k + p_width lw) = Some b in
  (build c = Release \/ (forall k y a b, lanes k y a b -> overflows (wide e) 3 fop fsqrt x [y; a; b] = false) ->
    exists r, result = Some (Ok r) /\ zlen r = p_width lw /\ Forall (lane (wide e)) r /\ forall k y a b, lanes k y a b -> znth r k = Some (meaning (wide e) 3 fop fsqrt x [y; a; b])) /\
  (build c = Debug -> forall k y a b, lanes k y a b -> overflows (wide e) 3 fop fsqrt x [y; a; b] = true -> result = Some Panic).
Proof.
  intros fs c tie fop fsqrt narrow e x s v l0 lw T He Hf Hs Ht N0 Nw Ls Fs Lv Fv result lanes. destruct (wide_prim e He) as (P1 & P2 & _). destruct (portable_widths fs e l0 lw T He N0 Nw) as (Ww & Wp & N1 & N2).
  destruct (portable_upcast_ok fs narrow e l0 lw [v] T He N0 Nw) as (us & vs & Eu & Lu & Lvs & Fu & Fvs & Cu & _); [constructor; [split; assumption|constructor]|].
  destruct us as [|a [|? ?]]; try discriminate Lu. destruct vs as [|b [|? ?]]; try discriminate Lvs. destruct (Forall_inv Fu) as [La Fa]. destruct (Forall_inv Fvs) as [Lb Fb].
  pose proof (split_halves v a b (p_width lw) ltac:(lia) La Lb Cu) as Ev.
  destruct (c94_closure fs c tie fop fsqrt narrow (wide e) (wide e) x [s; a; b] lw lw T P2 Hf Hs Ht Nw Nw ltac:(discriminate)) as [A B]; [repeat (constructor; [split; assumption|]); constructor|]. cbn [length] in A, B.
  assert (Hl : forall k y p q, lanes k y p q <-> column [s; a; b] k [y; p; q]).
  { intros k y p q. unfold lanes. rewrite Ev. split.
    - intros (Hy & Hp & Hq). pose proof (znth_Some_lt _ _ _ Hy) as Hk. rewrite znth_app in Hp, Hq by lia. rewrite La in Hp, Hq. replace (k <? p_width lw) with true in Hp by lia. replace (k + p_width lw <? p_width lw) with false in Hq by lia. replace (k + p_width lw - p_width lw) with k in Hq by lia. repeat (constructor; [assumption|]). constructor.
    - intros H. inversion H as [|? ? ? ? Hy H1]; subst. inversion H1 as [|? ? ? ? Hp H2]; subst. inversion H2 as [|? ? ? ? Hq H3]; subst. pose proof (znth_Some_lt _ _ _ Hy) as Hk. rewrite !znth_app by lia. rewrite La. replace (k <? p_width lw) with true by lia. replace (k + p_width lw <? p_width lw) with false by lia. replace (k + p_width lw - p_width lw) with k by lia. repeat split; assumption. }
  subst result. unfold portable_accumulate. rewrite N1, N2, Eu. cbn [andthen fst snd app]. split.
  - intros Hov. destruct A as (r & Rr & Lr & Fr & M).
    { destruct Hov as [Q|Q]; [left; exact Q|right]. intros k env Hc. inversion Hc as [|? y ? e1 Hy H1]; subst. inversion H1 as [|? p ? e2 Hp H2]; subst. inversion H2 as [|? q ? e3 Hq H3]; subst. inversion H3; subst. apply (Q k). apply Hl. exact Hc. }
    exists r. split; [exact Rr|]. split; [exact Lr|]. split; [exact Fr|]. intros k y p q H. apply M. apply Hl. exact H.
  - intros D k y p q H O. apply (B D k [y; p; q]); [apply Hl; exact H|exact O].
Qed.

Lemma c100_reduce_portable : forall (fs : features) (c : config) (tie : bool) (fop : arith -> elty -> Z -> Z -> Z) (fsqrt : elty -> Z -> Z) (narrow : Z -> Z) (e : elty) (x : expr) (op : Z -> Z -> Z) (h : Z -> Z) (Q P : Z -> Prop) (l : list Z) (d i : Z) (l0 lw : packed_line) (f : list Z -> list Z -> list Z) (fuel : nat),
  fs "undefined"%string = false -> In e widenable ->
  (forall o e u v, e = EF32 \/ e = EF64 -> lane e u -> lane e v -> lane e (fop o e u v)) -> (forall e u, e = EF32 \/ e = EF64 -> lane e u -> lane e (fsqrt e u)) ->
  type_of (wide e) 3 x = Some (wide e) -> portable_natural fs (el_name e ++ "s") = [l0] -> portable_natural fs (el_name (wide e) ++ "s") = [lw] ->
  (forall a, Q a -> lane e a) -> (forall y, P y -> lane (wide e) y) ->
  (forall y a b, P y -> Q a -> Q b -> meaning (wide e) 3 fop fsqrt x [y; a; b] = op (op y (h a)) (h b)) -> (forall a, Q a -> P (h a)) -> (forall u v, P u -> P v -> P (op u v)) ->
  (forall u v w, P u -> P v -> P w -> op u (op v w) = op (op u v) w) -> (forall u v, P u -> P v -> op u v = op v u) -> (forall u, P u -> op i u = u) ->
  build c = Release \/ (forall y a b, P y -> Q a -> Q b -> overflows (wide e) 3 fop fsqrt x [y; a; b] = false) ->
  P i -> Q d -> h d = i -> Forall Q l -> zlen l * p_size l0 <= isize_max -> (length l < fuel)%nat ->
  (forall s v r, zlen s = p_width lw -> zlen v = p_width l0 -> Forall P s -> Forall Q v -> portable_accumulate fs tie fop fsqrt narrow c e x s v = Some (Ok r) -> f s v = r) ->
  exists acc s', simd_reduce (slice_iterator c (vty_of l0)) fuel (simd_iter l (splat (p_width l0) d)) (splat (p_width lw) i) f = Ok (acc, s') /\ zlen acc = p_width lw /\ Forall P acc /\
    scalar_reduce (p_width lw) acc i op = Ok (fold_left op (map h l) i).
Proof.
  intros fs c tie fop fsqrt narrow e x op h Q P l d i l0 lw f fuel T He Hf Hsq Tx N0 Nw HQ HP Hx Hh Pop As Cm Un Hov Hi Hd Hdi Hl Cap Hfu Rx. destruct (wide_prim e He) as (P1 & P2 & _). destruct (portable_widths fs e l0 lw T He N0 Nw) as (Ww & Wp & _ & _).
  destruct (portable_vty fs e l0 T P1 N0) as (V0 & _). destruct (splat_lanes Q (p_width l0) d ltac:(lia) Hd) as (Ls & _ & _).
  destruct (c06_reduce Z (list Z) c (vty_of l0) l (splat (p_width l0) d) 0 (splat (p_width lw) i) f fuel V0 Cap Ls (conj (Z.le_refl 0) (zlen_nonneg l)) (or_introl eq_refl) Hfu) as (vs & rest & [Hc1 Hc2] & Hr & _ & Hred & _). cbn [Z.to_nat skipn] in Hc2. change (WIDTH (vty_of l0)) with (p_width l0) in *. rewrite Ww in Hc1, Hr, Hred.
  eexists. eexists. rewrite Ww. split; [exact Hred|].
  destruct (accumulated Q P op h i d (p_width lw) f l vs rest Pop Hi As Cm Un Hh Hd Hdi Hl Wp Hc1 Hc2 Hr) as (O1 & O2 & O3).
  - intros s a b Lsn La Lb Fs Fa Fb. assert (Lab : zlen (a ++ b) = p_width l0) by (rewrite zlen_app; lia). assert (Fab : Forall Q (a ++ b)) by (apply Forall_app; split; assumption).
    destruct (c100_step_portable fs c tie fop fsqrt narrow e x s (a ++ b) l0 lw T He Hf Hsq Tx N0 Nw Lsn ltac:(eapply Forall_impl; [exact HP|exact Fs]) Lab ltac:(eapply Forall_impl; [exact HQ|exact Fab])) as [A _]. destruct A as (r & Rr & Lr & _ & M).
    { destruct Hov as [D|D]; [left; exact D|right]. intros k y p q (Hy & Hp & Hq). apply D; [exact (proj1 (Forall_forall _ _) Fs _ (OpProofs.znth_In _ _ _ _ Hy))|exact (proj1 (Forall_forall _ _) Fab _ (OpProofs.znth_In _ _ _ _ Hp))|exact (proj1 (Forall_forall _ _) Fab _ (OpProofs.znth_In _ _ _ _ Hq))]. }
    rewrite (Rx s (a ++ b) r Lsn Lab Fs Fab Rr). apply (step_halves P Q r s a b (meaning (wide e) 3 fop fsqrt x) op h _ Lsn La Lb Lr Fs Fa Fb); [|exact Hx]. intros k y p q Hy Hp Hq. apply M. split; [exact Hy|split; assumption].
  - split; [exact O1|]. split; [exact O2|]. change (p_width lw) with (WIDTH (vty_of lw)). rewrite c34_scalar_reduce by exact O1. f_equal. exact O3.
Qed.

Lemma total_halves : forall (h : Z -> Z) (s a b : list Z), length s = length a -> length a = length b -> Forall (Z.le 0) s -> Forall (fun q => 0 <= h q) a -> Forall (fun q => 0 <= h q) b ->
  let r := map2 Z.add (map2 Z.add s (map h a)) (map h b) in Forall (Z.le 0) r /\ total r = total s + total (map h (a ++ b)).
Proof.
  intros h s a b L1 L2 Fs Fa Fb r. rewrite map_app, total_app2. destruct (total_map2 s (map h a)) as [A1 A2]; [rewrite map_length; exact L1|exact Fs|apply Forall_map; exact Fa|]. destruct (total_map2 (map2 Z.add s (map h a)) (map h b)) as [B1 B2]; [rewrite map2_length by (rewrite map_length; exact L1); rewrite map_length; congruence|exact A1|apply Forall_map; exact Fb|].
  split; [exact B1|]. unfold r. rewrite B2, A2. lia.
Qed.

Lemma total_accumulated : forall (Q : Z -> Prop) (h : Z -> Z) (n m : Z) (f : list Z -> list Z -> list Z), (forall q, Q q -> 0 <= h q) -> 0 < n ->
  (forall s a b, zlen s = n -> zlen a = n -> zlen b = n -> Forall (Z.le 0) s -> Forall Q a -> Forall Q b -> Forall (fun y => y <= m) (map2 Z.add (map2 Z.add s (map h a)) (map h b)) -> f s (a ++ b) = map2 Z.add (map2 Z.add s (map h a)) (map h b)) ->
  forall vs acc, zlen acc = n -> Forall (Z.le 0) acc -> Forall (fun v => zlen v = 2 * n /\ Forall Q v) vs -> total acc + total (map h (concat vs)) <= m ->
  let r := fold_left f vs acc in zlen r = n /\ Forall (Z.le 0) r /\ total r = total acc + total (map h (concat vs)).
Proof.
  intros Q h n m f Hh Np Hf. induction vs as [|v vs IH]; intros acc La Fa Fv Hm; cbn [fold_left concat map]; [split; [exact La|split; [exact Fa|change (total []) with 0; lia]]|].
  destruct (Forall_inv Fv) as [Lv Qv]. pose proof (Forall_inv_tail Fv) as Fv'. cbn [concat] in Hm. rewrite map_app, total_app2 in *. set (a := firstn (Z.to_nat n) v). set (b := skipn (Z.to_nat n) v). assert (Ev : v = a ++ b) by (symmetry; apply firstn_skipn).
  assert (Lab : zlen a = n /\ zlen b = n) by (unfold a, b, zlen in *; rewrite firstn_length, skipn_length; clear -Lv Np; lia). destruct Lab as [L1 L2]. rewrite Ev in Qv. apply Forall_app in Qv. destruct Qv as [Qa Qb].
  destruct (total_halves h acc a b) as [M1 M2]; [clear -La L1; unfold zlen in *; lia|clear -L1 L2; unfold zlen in *; lia|exact Fa|eapply Forall_impl; [exact Hh|exact Qa]|eapply Forall_impl; [exact Hh|exact Qb]|].
  assert (N : 0 <= total (map h (concat vs))). { apply total_nonneg. clear -Fv' Hh. induction Fv' as [|u us [_ Hu] _ IHu]; [constructor|cbn [concat]; rewrite map_app; apply Forall_app; split; [apply Forall_map; eapply Forall_impl; [exact Hh|exact Hu]|exact IHu]]. }
  assert (Es : f acc v = map2 Z.add (map2 Z.add acc (map h a)) (map h b)). { rewrite Ev. apply Hf; try assumption. eapply Forall_impl; [|exact (proj2 (total_nonneg _ M1))]. intros y Hy. cbv beta. rewrite M2, <- Ev in Hy. clear -Hy N Hm. lia. }
  rewrite Es. rewrite <- Ev in M2. destruct (IH (map2 Z.add (map2 Z.add acc (map h a)) (map h b))) as (I1 & I2 & I3); [|exact M1|exact Fv'|rewrite M2; clear -Hm; lia|].
  - unfold zlen in *. rewrite !map2_length; rewrite ?map2_length; rewrite ?map_length; clear -La L1 L2; lia.
  - split; [exact I1|]. split; [exact I2|]. rewrite I3, M2. clear. lia.
Qed.

Lemma c100_total : forall (fs : features) (c : config) (tie : bool) (fop : arith -> elty -> Z -> Z -> Z) (fsqrt : elty -> Z -> Z) (narrow : Z -> Z) (t : ity) (x : expr) (h : Z -> Z) (Q : Z -> Prop) (l : list Z) (d : Z) (l0 lw : packed_line) (f : list Z -> list Z -> list Z) (fuel : nat),
  let u := mkIty (isigned t) (2 * ibytes t) in
  fs "undefined"%string = false -> In (EInt t) widenable ->
  (forall o e u v, e = EF32 \/ e = EF64 -> lane e u -> lane e v -> lane e (fop o e u v)) -> (forall e u, e = EF32 \/ e = EF64 -> lane e u -> lane e (fsqrt e u)) ->
  type_of (EInt u) 3 x = Some (EInt u) -> portable_natural fs (el_name (EInt t) ++ "s") = [l0] -> portable_natural fs (el_name (EInt u) ++ "s") = [lw] ->
  (forall a, Q a -> in_ity t a /\ 0 <= h a) ->
  (forall y a b, 0 <= y -> Q a -> Q b -> y + h a + h b <= imax u -> meaning (EInt u) 3 fop fsqrt x [y; a; b] = y + h a + h b /\ overflows (EInt u) 3 fop fsqrt x [y; a; b] = false) ->
  Q d -> h d = 0 -> Forall Q l -> total (map h l) <= imax u -> zlen l * p_size l0 <= isize_max -> (length l < fuel)%nat ->
  (forall s v r, zlen s = p_width lw -> zlen v = p_width l0 -> Forall (in_ity u) s -> Forall (in_ity t) v -> portable_accumulate fs tie fop fsqrt narrow c (EInt t) x s v = Some (Ok r) -> f s v = r) ->
  exists p acc s', filter (fun p => String.eqb (s_vec p) (p_vec lw)) unknown_sum = [p] /\ simd_reduce (slice_iterator c (vty_of l0)) fuel (simd_iter l (splat (p_width l0) d)) (splat (p_width lw) 0) f = Ok (acc, s') /\
    sum_portable (fun e => fop Add e) c p acc = Ok (total (map h l)).
Proof.
  intros fs c tie fop fsqrt narrow t x h Q l d l0 lw f fuel u T He Hf Hsq Tx N0 Nw HQ Hx Hd Hd0 Hl Hm Cap Hfu Rx. destruct (wide_prim _ He) as (P1 & P2 & _). change (wide (EInt t)) with (EInt u) in *. destruct (portable_widths fs (EInt t) l0 lw T He N0 Nw) as (Ww & Wp & _ & _).
  destruct (portable_vty fs _ l0 T P1 N0) as (V0 & _). destruct (splat_lanes Q (p_width l0) d ltac:(lia) Hd) as (Ls & Fs & _). destruct (method_int u (EInt u) P2 (or_introl eq_refl)) as [By [Bmin Bmax]].
  assert (In0 : forall y, 0 <= y <= imax u -> in_ity u y) by (intros y Hy; unfold in_ity; clear -Hy Bmin; lia).
  destruct (c06_reduce Z (list Z) c (vty_of l0) l (splat (p_width l0) d) 0 (splat (p_width lw) 0) f fuel V0 Cap Ls (conj (Z.le_refl 0) (zlen_nonneg l)) (or_introl eq_refl) Hfu) as (vs & rest & [Hc1 Hc2] & Hr & _ & Hred & _). cbn [Z.to_nat skipn] in Hc2. change (WIDTH (vty_of l0)) with (p_width l0) in *.
  set (args := vs ++ match rest with [] => [] | _ :: _ => [right_aligned (splat (p_width l0) d) rest] end) in *.
  assert (Hl2 : Forall Q (concat vs ++ rest)) by (rewrite Hc2; exact Hl). apply Forall_app in Hl2. destruct Hl2 as [L1 L2].
  assert (Hargs : Forall (fun v => zlen v = 2 * p_width lw /\ Forall Q v) args).
  { rewrite <- Ww. unfold args. apply Forall_app. split.
    - clear -Hc1 L1. induction vs as [|v vs IH]; [constructor|]. cbn [concat] in L1. apply Forall_app in L1. destruct L1 as [A B]. pose proof (Forall_inv Hc1) as C. cbv beta in C. constructor; [split; [exact C|exact A]|apply IH; [exact (Forall_inv_tail Hc1)|exact B]].
    - destruct rest as [|y r]; constructor; [|constructor]. split; [rewrite right_aligned_len by lia; exact Ls|]. unfold right_aligned. apply Forall_app. split; [|exact L2]. apply forall_firstn. exact Fs. }
  assert (Tot : total (map h (concat args)) = total (map h l)).
  { unfold args. rewrite <- Hc2, concat_app, !map_app, !total_app2. destruct rest as [|y r]; [reflexivity|]. cbn [concat]. rewrite app_nil_r. unfold right_aligned. rewrite map_app, total_app2. f_equal.
    assert (Z0 : forall k j, total (map h (firstn k (repeat d j))) = 0) by (clear -Hd0; induction k as [|k IH]; intros [|j]; try reflexivity; cbn [repeat firstn map]; rewrite total_cons, IH, Hd0; reflexivity). unfold splat. rewrite Z0. reflexivity. }
  destruct (total_accumulated Q h (p_width lw) (imax u) f) with (vs := args) (acc := splat (p_width lw) 0) as (O1 & O2 & O3).
  - intros q Hq. apply HQ. exact Hq.
  - exact Wp.
  - intros s a b Lsn La Lb Fs0 Fa Fb Fm. assert (Lab : zlen (a ++ b) = p_width l0) by (rewrite zlen_app; lia). assert (Fab : Forall Q (a ++ b)) by (apply Forall_app; split; assumption).
    assert (Iab : Forall (in_ity t) (a ++ b)) by (eapply Forall_impl; [|exact Fab]; intros q Hq; apply HQ; exact Hq).
    assert (K : Forall (fun y => 0 <= y <= imax u) s /\ forall k y p q, znth s k = Some y -> znth a k = Some p -> znth b k = Some q -> 0 <= y /\ Q p /\ Q q /\ y + h p + h q <= imax u).
    { assert (E1 : length s = length a) by (clear -Lsn La; unfold zlen in *; lia). assert (E2 : length a = length b) by (clear -Lb La; unfold zlen in *; lia). clear -E1 E2 Fs0 Fa Fb Fm HQ. revert a b E1 E2 Fa Fb Fm. induction s as [|y s IH]; intros [|p a] [|q b] E1 E2 Fa Fb Fm; try discriminate E1; try discriminate E2.
      - split; [constructor|]. intros k y p q Hy. unfold znth in Hy. destruct (k <? 0); [discriminate|destruct (Z.to_nat k); discriminate].
      - cbn [map map2] in Fm. pose proof (Forall_inv Fm) as M0. cbv beta in M0. pose proof (Forall_inv Fs0) as Y0. destruct (HQ p (Forall_inv Fa)) as [_ Hp]. destruct (HQ q (Forall_inv Fb)) as [_ Hq]. destruct (IH (Forall_inv_tail Fs0) a b ltac:(cbn in E1; lia) ltac:(cbn in E2; lia) (Forall_inv_tail Fa) (Forall_inv_tail Fb) (Forall_inv_tail Fm)) as [I1 I2].
        split; [constructor; [lia|exact I1]|]. intros k y' p' q' Hy' Hp' Hq'. destruct (Z.eq_dec k 0) as [->|Nk]; [injection Hy' as <-; injection Hp' as <-; injection Hq' as <-; split; [exact Y0|split; [exact (Forall_inv Fa)|split; [exact (Forall_inv Fb)|exact M0]]]|].
        pose proof (znth_Some_lt _ _ _ Hy') as Hk. rewrite znth_cons_shift in Hy', Hp', Hq' by lia. exact (I2 (k - 1) y' p' q' Hy' Hp' Hq'). }
    destruct K as [Ks Kv]. assert (Is : Forall (in_ity u) s) by (eapply Forall_impl; [exact In0|exact Ks]).
    destruct (c100_step_portable fs c tie fop fsqrt narrow (EInt t) x s (a ++ b) l0 lw T He Hf Hsq Tx N0 Nw Lsn Is Lab Iab) as [A _].
    assert (Hh : forall k y p q, znth s k = Some y /\ znth (a ++ b) k = Some p /\ znth (a ++ b) (k + p_width lw) = Some q -> znth a k = Some p /\ znth b k = Some q).
    { intros k y p q (Hy & Hp & Hq). pose proof (znth_Some_lt _ _ _ Hy) as Hk. rewrite znth_app in Hp, Hq by lia. replace (k <? zlen a) with true in Hp by lia. replace (k + p_width lw <? zlen a) with false in Hq by lia. replace (k + p_width lw - zlen a) with k in Hq by lia. split; assumption. }
    destruct A as (r & Rr & Lr & _ & M).
    { right. intros k y p q H. destruct (Hh k y p q H) as [H1 H2]. destruct H as [Hy _]. destruct (Kv k y p q Hy H1 H2) as (K1 & K2 & K3 & K4). exact (proj2 (Hx y p q K1 K2 K3 K4)). }
    rewrite (Rx s (a ++ b) r Lsn Lab Is Iab Rr). apply (meaning3 s a b r (fun y p q => y + h p + h q)) with (S := fun _ => True) (A := fun _ => True); try (unfold zlen in *; clear -Lsn La Lb Lr; lia); try (apply Forall_forall; intros; exact I); try (intros; reflexivity).
    intros k y p q Hy Hp Hq. destruct (Kv k y p q Hy Hp Hq) as (K1 & K2 & K3 & K4). rewrite <- (proj1 (Hx y p q K1 K2 K3 K4)). apply M. pose proof (znth_Some_lt _ _ _ Hy) as Hk. rewrite !znth_app by lia. replace (k <? zlen a) with true by lia. replace (k + p_width lw <? zlen a) with false by lia. replace (k + p_width lw - zlen a) with k by lia. repeat split; assumption.
  - unfold splat. rewrite zlen_repeat. clear -Wp. lia.
  - unfold splat. apply Forall_forall. intros y Hy. apply repeat_spec in Hy. subst y. reflexivity.
  - exact Hargs.
  - unfold splat. rewrite total_zeros, Tot. exact Hm.
  - unfold splat in O3. rewrite total_zeros, Tot in O3. cbn [Z.add] in O3. set (acc := fold_left f args (splat (p_width lw) 0)) in *. change (fold_left f args (repeat 0 (Z.to_nat (p_width lw)))) with acc in O3.
    destruct (portable_line fs _ T P2) as (m & M & _ & V & W & _). change (wide (EInt t)) with (EInt u) in M. rewrite Nw in M. injection M as <-.
    assert (S : exists p, filter (fun p => String.eqb (s_vec p) (p_vec lw)) unknown_sum = [p] /\ s_el p = EInt u /\ WIDTH (s_ty p) = p_width lw) by (rewrite V, W; clear -He; unfold u; unfold widenable in He; cbn [In] in He; repeat (destruct He as [He|He]; [injection He as <-; (eexists; split; [reflexivity|split; reflexivity])|]); contradiction).
    destruct S as (p & S1 & S2 & S3). exists p. eexists acc, _. split; [exact S1|]. split; [exact Hred|].
    assert (Ip : In p (x86_sum ++ unknown_sum)) by (apply in_or_app; right; assert (I1 : In p [p]) by (left; reflexivity); rewrite <- S1 in I1; apply filter_In in I1; exact (proj1 I1)).
    destruct (total_nonneg acc O2) as [T1 T2]. assert (Ia : Forall (in_ity u) acc) by (clear -O2 T2 In0 O3 Hm; rewrite Forall_forall in *; intros y Hy; apply In0; specialize (O2 y Hy); specialize (T2 y Hy); lia).
    destruct (c42_sum_portable (fun e => fop Add e) c p u acc Ip S2) as (r & R1 & [R2 [j R3]]).
    + rewrite S3. split; [exact O1|exact Ia].
    + right. intros k. apply In0. clear -O2 O3 Hm. rewrite <- (firstn_skipn k acc) in O3, O2. rewrite total_app2 in O3. apply Forall_app in O2. destruct O2 as [A B]. destruct (total_nonneg _ A) as [A1 _]. destruct (total_nonneg _ B) as [B1 _]. lia.
    + rewrite R1. f_equal. rewrite <- (wrap_id u r R2). rewrite <- O3. rewrite (wrap_wraps u r (total acc)); [|exists j; exact R3]. apply wrap_id. apply In0. lia.
Qed.

Lemma wrap_sum3 : forall u y p q, wrap u (wrap u (y + p) + q) = wrap u (y + p + q).
Proof. intros u y p q. apply wrap_wraps. destruct (wrap_cong u (y + p)) as [m Em]. exists m. clear -Em. lia. Qed.

Lemma wrap_sum_squares : forall u y p q, wrap u (wrap u (y + wrap u (p * p)) + wrap u (q * q)) = wrap u (y + p * p + q * q).
Proof. intros u y p q. apply wrap_wraps. destruct (wrap_cong u (p * p)) as [a A]. destruct (wrap_cong u (q * q)) as [b B]. destruct (wrap_cong u (y + wrap u (p * p))) as [m M]. exists (m + a + b). clear -A B M. lia. Qed.

Lemma halves_meaning : forall t fop fsqrt y p q, In (EInt t) widenable -> let u := mkIty (isigned t) (2 * ibytes t) in
  type_of (EInt u) 3 add_halves = Some (EInt u) /\ meaning (EInt u) 3 fop fsqrt add_halves [y; p; q] = wrap u (wrap u (y + p) + q) /\ overflows (EInt u) 3 fop fsqrt add_halves [y; p; q] = (outside u (y + p) || false || outside u (wrap u (y + p) + q))%bool.
Proof. intros t fop fsqrt y p q He u. subst u. unfold widenable in He. cbn [In] in He. repeat (destruct He as [He|He]; [injection He as <-; split; [reflexivity|split; reflexivity]|]). contradiction. Qed.

Lemma squares_meaning : forall t fop fsqrt y p q, In (EInt t) widenable -> let u := mkIty (isigned t) (2 * ibytes t) in
  type_of (EInt u) 3 add_squares = Some (EInt u) /\ meaning (EInt u) 3 fop fsqrt add_squares [y; p; q] = wrap u (wrap u (y + wrap u (p * p)) + wrap u (q * q)) /\
  overflows (EInt u) 3 fop fsqrt add_squares [y; p; q] = (outside u (p * p) || outside u (y + wrap u (p * p)) || outside u (q * q) || outside u (wrap u (y + wrap u (p * p)) + wrap u (q * q)))%bool.
Proof. intros t fop fsqrt y p q He u. subst u. unfold widenable in He. cbn [In] in He. repeat (destruct He as [He|He]; [injection He as <-; split; [reflexivity|split; reflexivity]|]). contradiction. Qed.

Lemma c100_closures : forall (fs : features) (fadd : elty -> Z -> Z -> Z) (b : bool) (tie : bool) (fop : arith -> elty -> Z -> Z -> Z) (fsqrt : elty -> Z -> Z) (narrow : Z -> Z) (t : ity) (x : expr) (h : Z -> Z) (l : list Z) (l0 lw : packed_line) (f : list Z -> list Z -> list Z) (fuel : nat),
  let c := mkConfig Release b in let u := mkIty (isigned t) (2 * ibytes t) in
  x = add_halves /\ h = (fun a => a) \/ x = add_squares /\ h = (fun a => a * a) ->
  target fs -> In (EInt t) widenable ->
  (forall o e u v, e = EF32 \/ e = EF64 -> lane e u -> lane e v -> lane e (fop o e u v)) -> (forall e u, e = EF32 \/ e = EF64 -> lane e u -> lane e (fsqrt e u)) ->
  natural fs (el_name (EInt t) ++ "s") = [l0] -> natural fs (el_name (EInt u) ++ "s") = [lw] ->
  Forall (in_ity t) l -> zlen l * p_size l0 <= isize_max -> (length l < fuel)%nat ->
  (forall s v, zlen s = p_width lw -> zlen v = p_width l0 -> Forall (in_ity u) s -> Forall (in_ity t) v -> accumulate_in fs tie fop fsqrt narrow (EInt t) x s v = Some (Ok (f s v))) ->
  exists acc s', simd_reduce (slice_iterator c (vty_of l0)) fuel (simd_iter l (splat (p_width l0) 0)) (splat (p_width lw) 0) f = Ok (acc, s') /\
    sum_in fs fadd c (p_vec lw) acc = Some (Ok (wrap u (total (map h l)))) /\ (in_ity u (total (map h l)) -> wrap u (total (map h l)) = total (map h l)).
Proof.
  intros fs fadd b tie fop fsqrt narrow t x h l l0 lw f fuel c u Hx T He Hf Hsq N0 Nw Hl Cap Hfu Rx. destruct (wide_prim _ He) as (P1 & P2 & _). destruct (method_int t (EInt t) P1 (or_introl eq_refl)) as [_ B].
  apply (c100_sum fs fadd b tie fop fsqrt narrow t x h l 0 l0 lw f fuel T He Hf Hsq); try assumption.
  - destruct Hx as [[-> _]|[-> _]]; [exact (proj1 (halves_meaning t fop fsqrt 0 0 0 He))|exact (proj1 (squares_meaning t fop fsqrt 0 0 0 He))].
  - intros y p q Hy Hp Hq. destruct Hx as [[-> ->]|[-> ->]]; [rewrite (proj1 (proj2 (halves_meaning t fop fsqrt y p q He))); exact (wrap_sum3 u y p q)|rewrite (proj1 (proj2 (squares_meaning t fop fsqrt y p q He))); exact (wrap_sum_squares u y p q)].
  - destruct Hx as [[_ ->]|[_ ->]]; reflexivity.
Qed.

Lemma c100_closures_portable : forall (fs : features) (c : config) (tie : bool) (fop : arith -> elty -> Z -> Z -> Z) (fsqrt : elty -> Z -> Z) (narrow : Z -> Z) (t : ity) (x : expr) (h : Z -> Z) (l : list Z) (l0 lw : packed_line) (f : list Z -> list Z -> list Z) (fuel : nat),
  let u := mkIty (isigned t) (2 * ibytes t) in
  x = add_halves /\ h = (fun a => a) /\ Forall (Z.le 0) l \/ x = add_squares /\ h = (fun a => a * a) ->
  fs "undefined"%string = false -> In (EInt t) widenable ->
  (forall o e u v, e = EF32 \/ e = EF64 -> lane e u -> lane e v -> lane e (fop o e u v)) -> (forall e u, e = EF32 \/ e = EF64 -> lane e u -> lane e (fsqrt e u)) ->
  portable_natural fs (el_name (EInt t) ++ "s") = [l0] -> portable_natural fs (el_name (EInt u) ++ "s") = [lw] ->
  Forall (in_ity t) l -> total (map h l) <= imax u -> zlen l * p_size l0 <= isize_max -> (length l < fuel)%nat ->
  (forall s v r, zlen s = p_width lw -> zlen v = p_width l0 -> Forall (in_ity u) s -> Forall (in_ity t) v -> portable_accumulate fs tie fop fsqrt narrow c (EInt t) x s v = Some (Ok r) -> f s v = r) ->
  exists p acc s', filter (fun p => String.eqb (s_vec p) (p_vec lw)) unknown_sum = [p] /\ simd_reduce (slice_iterator c (vty_of l0)) fuel (simd_iter l (splat (p_width l0) 0)) (splat (p_width lw) 0) f = Ok (acc, s') /\
    sum_portable (fun e => fop Add e) c p acc = Ok (total (map h l)).
Proof.
  intros fs c tie fop fsqrt narrow t x h l l0 lw f fuel u Hx T He Hf Hsq N0 Nw Hl Hm Cap Hfu Rx. destruct (wide_prim _ He) as (P1 & P2 & _). destruct (method_int t (EInt t) P1 (or_introl eq_refl)) as [_ B]. destruct (method_int u (EInt u) P2 (or_introl eq_refl)) as [_ [Bn Bm]].
  assert (In0 : forall y, 0 <= y <= imax u -> in_ity u y) by (intros y Hy; unfold in_ity; clear -Hy Bn; lia). assert (Out : forall y, 0 <= y <= imax u -> outside u y = false) by (intros y Hy; unfold outside; clear -Hy Bn; lia).
  assert (Ty : type_of (EInt u) 3 x = Some (EInt u)) by (destruct Hx as [[-> _]|[-> _]]; [exact (proj1 (halves_meaning t fop fsqrt 0 0 0 He))|exact (proj1 (squares_meaning t fop fsqrt 0 0 0 He))]).
  destruct Hx as [(Ex & Eh & Fl)|[Ex Eh]].
  - apply (c100_total fs c tie fop fsqrt narrow t x h (fun a => in_ity t a /\ 0 <= a) l 0 l0 lw f fuel T He Hf Hsq Ty N0 Nw); try assumption; subst x h.
    + intros a Ha. exact Ha.
    + intros y p q Hy [_ Hp] [_ Hq] Hs. cbv beta in Hs, Hp, Hq |- *. fold u in Hs |- *. assert (A : wrap u (y + p) = y + p) by (apply wrap_id, In0; lia). destruct (halves_meaning t fop fsqrt y p q He) as (_ & M1 & M2). fold u in M1, M2. split; [etransitivity; [exact M1|]; rewrite A; apply wrap_id, In0; lia|].
      etransitivity; [exact M2|]. rewrite A, (Out (y + p)), (Out (y + p + q)) by lia. reflexivity.
    + split; [exact B|lia].
    + reflexivity.
    + clear -Hl Fl. rewrite Forall_forall in *. intros a Ha. split; [exact (Hl a Ha)|exact (Fl a Ha)].
  - apply (c100_total fs c tie fop fsqrt narrow t x h (in_ity t) l 0 l0 lw f fuel T He Hf Hsq Ty N0 Nw); try assumption; subst x h.
    + intros a Ha. split; [exact Ha|nia].
    + intros y p q Hy Hp Hq Hs. cbv beta in Hs |- *. fold u in Hs |- *. assert (P : 0 <= p * p) by nia. assert (Q : 0 <= q * q) by nia. assert (A : wrap u (p * p) = p * p) by (apply wrap_id, In0; lia). assert (C : wrap u (q * q) = q * q) by (apply wrap_id, In0; lia). assert (D : wrap u (y + p * p) = y + p * p) by (apply wrap_id, In0; lia).
      destruct (squares_meaning t fop fsqrt y p q He) as (_ & M1 & M2). fold u in M1, M2. split; [etransitivity; [exact M1|]; rewrite A, C, D; apply wrap_id, In0; lia|].
      etransitivity; [exact M2|]. rewrite A, C, D, (Out (p * p)), (Out (q * q)), (Out (y + p * p)), (Out (y + p * p + q * q)) by lia. reflexivity.
    + reflexivity.
Qed.
