(** Proofs of the properties: minimum and maximum of slices of floats on every target (C90). *)
From Coq Require Import String.
From Verif Require Import Base Spec VecSpec Vecs Iters GateTables GateSpec Gates Lanes Floats FloatSpec ArithSpec OpTables Ops OpSpec Builds AvailSpec ExprSpec Exprs.
Open Scope list_scope.
Open Scope Z_scope.
From Coq Require Import Lia ZifyBool ZifyNat.
From Verif Require Import X86 ListFacts VecFacts VecProofs FloatFacts ArithFacts IterProofs OpProofs RoundProofs BuildProofs PipeProofs ExprProofs FoldProofs FSumProofs KernProofs.
Ltac Zify.zify_post_hook ::= Z.div_mod_to_equations.

Lemma rust_picks : forall f tie x y, fmt_ok f -> f_pattern f x -> f_pattern f y -> f_nan f x = false -> f_nan f y = false ->
  least f x y (rust_fmin f tie x y) /\ least f x y (if f_lt f x y then x else y) /\ greatest f x y (rust_fmax f tie x y) /\ greatest f x y (if f_lt f y x then x else y).
Proof.
  intros f tie x y Hok Hx Hy Nx Ny. pose proof (key_value f Hok x y Hx Hy) as K. unfold rust_fmin, rust_fmax, f_lt, least, greatest. rewrite Nx, Ny. cbn [negb andb].
  destruct (Z.compare_spec (fvalue f x) (fvalue f y)) as [C|C|C]; destruct (Z.compare_spec (f_key f x) (f_key f y)) as [D|D|D]; try discriminate.
  - rewrite D, Z.ltb_irrefl. destruct tie; repeat split; try tauto; lia.
  - replace (f_key f x <? f_key f y) with true by lia. replace (f_key f y <? f_key f x) with false by lia. repeat split; try tauto; lia.
  - replace (f_key f x <? f_key f y) with false by lia. replace (f_key f y <? f_key f x) with true by lia. repeat split; try tauto; lia.
Qed.

Lemma not_nan : forall e x, e = EF32 \/ e = EF64 -> lane e x -> ~ is_nan (fmt_of e) x -> f_pattern (fmt_of e) x /\ f_nan (fmt_of e) x = false /\ in_ity (lane_ity e) x.
Proof.
  intros e x He Hl Hn. assert (Px : f_pattern (fmt_of e) x) by (destruct He as [-> | ->]; exact Hl). split; [exact Px|]. split; [|apply pattern_float; assumption]. destruct (nan_iff _ (fmt_of_ok e) x Px) as (N1 & _). destruct (f_nan (fmt_of e) x); tauto.
Qed.

Lemma c90_scalar : forall (e : elty) (tie : bool) (x y : Z), e = EF32 \/ e = EF64 -> lane e x -> lane e y -> ~ is_nan (fmt_of e) x -> ~ is_nan (fmt_of e) y ->
  least (fmt_of e) x y (rust_fmin (fmt_of e) tie x y) /\ greatest (fmt_of e) x y (rust_fmax (fmt_of e) tie x y).
Proof. intros e tie x y He Hx Hy Nx Ny. destruct (not_nan e x He Hx Nx) as (A1 & A2 & _). destruct (not_nan e y He Hy Ny) as (B1 & B2 & _). destruct (rust_picks _ tie x y (fmt_of_ok e) A1 B1 A2 B2) as (P1 & _ & P2 & _). split; assumption. Qed.

Lemma c90_lanes : forall (fs : features) (tie : bool) (o : op_impl) (a b : list Z), In o x86_cmp -> op_el o = EF32 \/ op_el o = EF64 ->
  zlen a = WIDTH (op_ty o) -> zlen b = WIDTH (op_ty o) -> Forall (fun x => lane (op_el o) x /\ ~ is_nan (fmt_of (op_el o)) x) a -> Forall (fun x => lane (op_el o) x /\ ~ is_nan (fmt_of (op_el o)) x) b ->
  exists m, op2_in fs tie o a b = Some (Ok m) /\ each_lane (if String.eqb (op_fn o) "min" then least (fmt_of (op_el o)) else greatest (fmt_of (op_el o))) a b m.
Proof.
  intros fs tie o a b Ho He La Lb Fa Fb. set (f := fmt_of (op_el o)) in *. pose proof (fmt_of_ok (op_el o)) as Hok. fold f in Hok.
  assert (NN : forall v, Forall (fun x => lane (op_el o) x /\ ~ is_nan f x) v -> Forall (fun x => f_pattern f x /\ f_nan f x = false /\ in_ity (lane_ity (op_el o)) x) v) by (intros v; apply Forall_impl; intros x [H1 H2]; apply not_nan; assumption).
  apply NN in Fa, Fb. assert (Ha : int_vector (WIDTH (op_ty o)) (lane_ity (op_el o)) a) by (split; [exact La|eapply Forall_impl; [|exact Fa]; intros x (_ & _ & K); exact K]). assert (Hb : int_vector (WIDTH (op_ty o)) (lane_ity (op_el o)) b) by (split; [exact Lb|eapply Forall_impl; [|exact Fb]; intros x (_ & _ & K); exact K]).
  assert (Hin : In o (x86_cmp ++ unknown_cmp)) by (apply in_or_app; left; exact Ho). pose proof cmp_entries as Hent. rewrite Forall_forall in Hent. specialize (Hent o Hin).
  assert (Lane : forall g, (forall x y, f_pattern f x -> f_pattern f y -> f_nan f x = false -> f_nan f y = false -> (if String.eqb (op_fn o) "min" then least f else greatest f) x y (g x y)) -> each_lane (if String.eqb (op_fn o) "min" then least f else greatest f) a b (zipw g a b)).
  { intros g Hg. destruct (zipw_lanewise g a b ltac:(unfold zlen in *; lia)) as [L1 L2]. split; [exact L1|]. intros i x y Hx Hy. exists (g x y). split; [apply L2; assumption|]. rewrite Forall_forall in Fa, Fb. destruct (Fa x (znth_In _ _ _ _ Hx)) as (A1 & A2 & _). destruct (Fb y (znth_In _ _ _ _ Hy)) as (B1 & B2 & _). apply Hg; assumption. }
  rewrite op2_cases by (apply in_or_app; right; apply in_or_app; left; exact Ho). destruct (fs (op_feat o)) eqn:Cf.
  - assert (Hi : optimized2 o a b <> None) by (apply has_instr_some; assert (G : forallb has_instr x86_cmp = true) by (vm_compute; reflexivity); rewrite forallb_forall in G; apply G; exact Ho).
    destruct (optimized2 o a b) as [r|] eqn:Er; [|congruence]. exists r. split; [reflexivity|]. rewrite (entry_result _ _ o a b r Hent Ha Hb (vector_pairs _ _ (WIDTH (op_ty o)) a b La Lb) Er). apply Lane. intros x y Px Py Nx Ny.
    assert (Hs : cmp_spec o x y = if String.eqb (op_fn o) "min" then (if f_lt f x y then x else y) else (if f_lt f y x then x else y)) by (unfold cmp_spec, f; destruct He as [-> | ->]; reflexivity).
    rewrite Hs. destruct (rust_picks f tie x y Hok Px Py Nx Ny) as (_ & P1 & _ & P2). destruct (String.eqb (op_fn o) "min"); assumption.
  - set (g := if String.eqb (op_fn o) "min" then rust_fmin f tie else rust_fmax f tie).
    assert (Hr : rust_binary tie o = Some g) by (unfold rust_binary, g, f; destruct (cmp_named o Hin) as [-> | ->]; destruct He as [-> | ->]; reflexivity).
    exists (zipw g a b). split; [exact (portable2_ok tie o g a b (proj1 Hent) Hr La Lb)|]. apply Lane. intros x y Px Py Nx Ny. destruct (rust_picks f tie x y Hok Px Py Nx Ny) as (P1 & _ & P2 & _). unfold g. destruct (String.eqb (op_fn o) "min"); assumption.
Qed.

Lemma same_float : forall f, fmt_ok f -> forall x y, f_pattern f x -> f_pattern f y -> f_sign f x = f_sign f y -> f_mag f x = f_mag f y -> x = y.
Proof.
  intros f Hok x y Hx Hy Hs Hm. unfold f_pattern, f_sign, f_mag in *. rewrite (EM1 f Hok) in *. rewrite (EM f Hok) in *. pose proof (M_pos f Hok). pose proof (E_pos f Hok). assert (P : 0 < 2 ^ f_e f * 2 ^ f_m f) by (apply Z.mul_pos_pos; lia). set (k := 2 ^ f_e f * 2 ^ f_m f) in *. clearbody k.
  assert (Hi : forall z, 0 <= z < 2 * k -> k <= z -> z mod k = z - k) by (intros z Z1 Z2; symmetry; apply (Z.mod_unique_pos z k 1); lia).
  destruct (k <=? x) eqn:Cx; destruct (k <=? y) eqn:Cy; try discriminate; [rewrite !Hi in Hm by lia; lia|rewrite !Z.mod_small in Hm by lia; exact Hm].
Qed.

Lemma only_infinity : forall f, fmt_ok f -> forall s u x, infinity_of_sign f (if s : bool then 1 else 0) u -> f_pattern f x -> ~ is_nan f x -> (if s then fvalue f x <= fvalue f u else fvalue f u <= fvalue f x) -> x = u.
Proof.
  intros f Hok s u x (U1 & U2 & U3) Px Nx H. pose proof (M_pos f Hok). pose proof (E_pos f Hok). destruct (inf_value f Hok u U1) as (I1 & _). specialize (I1 U2). destruct (inf_value f Hok x Px) as (_ & _ & I2). specialize (I2 Nx). pose proof (absval_nonneg f Hok x Px) as A0.
  assert (Tp : 0 < 2 ^ f_m f * 2 ^ (2 ^ f_e f - 2)) by (apply Z.mul_pos_pos; [lia|apply Z.pow_pos_nonneg; lia]). set (top := 2 ^ f_m f * 2 ^ (2 ^ f_e f - 2)) in *. rewrite (value_sg f Hok x Px), (value_sg f Hok u U1), I1 in H. rewrite (sign_cases f Hok u U1) in U3.
  assert (Su : f_sign f u = s) by (destruct s; destruct (f_sign f u); congruence). rewrite Su in H.
  assert (Q : f_sign f x = s /\ absval f x = top) by (unfold sg in H; destruct s; destruct (f_sign f x); lia). destruct Q as [Q1 Q2].
  apply (same_float f Hok); [exact Px|exact U1|congruence|]. apply Z.compare_eq_iff. rewrite <- (absval_mag f Hok x u Px U1). apply Z.compare_eq_iff. lia.
Qed.

Definition cmp_line_check (o : op_impl) (e : elty) (b : Z) : bool :=
  negb (String.eqb (op_vec o) (vector_name (scalar_of e) b)) || (elty_eqb (op_el o) e && (WIDTH (op_ty o) =? b / (bits_of e / 8))).

Lemma cmp_line : forall o e b, In o x86_cmp -> e = EF32 \/ e = EF64 -> In b [16; 32] -> op_vec o = vector_name (scalar_of e) b -> op_el o = e /\ WIDTH (op_ty o) = b / (bits_of e / 8).
Proof.
  intros o e b Ho He Hb Hv. assert (G : forallb (fun o => forallb (fun e => forallb (cmp_line_check o e) [16; 32]) [EF32; EF64]) x86_cmp = true) by (vm_compute; reflexivity).
  rewrite forallb_forall in G. specialize (G o Ho). cbv beta in G. rewrite forallb_forall in G. specialize (G e ltac:(destruct He as [-> | ->]; [left|right; left]; reflexivity)). cbv beta in G. rewrite forallb_forall in G. specialize (G b Hb). cbv beta in G. unfold cmp_line_check in G. rewrite Hv, String.eqb_refl in G. cbn [negb orb] in G. apply andb_prop in G. destruct G as [G1 G2]. split; [|apply Z.eqb_eq; exact G2].
  apply elty_eqb_eq; exact G1.
Qed.

Section Picking.
Variable good : Z -> Prop.
Variable le : Z -> Z -> Prop.
Hypothesis le_refl : forall x, le x x.
Hypothesis le_trans : forall x y z, le x y -> le y z -> le x z.
Definition picked (x y z : Z) : Prop := (z = x \/ z = y) /\ le x z /\ le y z.

Lemma picked_lanes : forall a v r, length a = length v -> each_lane picked a v r -> length r = length a /\ (forall y, In y r -> In y a \/ In y v) /\ (forall x, In x a \/ In x v -> exists y, In y r /\ le x y).
Proof.
  intros a v r L [Lr H]. assert (Lr2 : length r = length a) by (unfold zlen in Lr; lia). split; [exact Lr2|].
  assert (N : forall k x y, nth_error a k = Some x -> nth_error v k = Some y -> exists z, nth_error r k = Some z /\ picked x y z).
  { intros k x y Hx Hy. specialize (H (Z.of_nat k) x y). unfold znth in H. replace (Z.of_nat k <? 0) with false in H by lia. rewrite Nat2Z.id in H. exact (H Hx Hy). }
  assert (S : forall (l1 l2 : list Z) k x, length l1 = length l2 -> nth_error l1 k = Some x -> exists y, nth_error l2 k = Some y).
  { intros l1 l2 k x E Hk. destruct (nth_error l2 k) as [y|] eqn:C; [exists y; reflexivity|]. apply nth_error_None in C. assert (K : nth_error l1 k <> None) by congruence. apply nth_error_Some in K. lia. }
  split.
  - intros y Hy. apply In_nth_error in Hy. destruct Hy as [k Hk]. destruct (S r a k y Lr2 Hk) as [x Hx]. destruct (S a v k x L Hx) as [x2 Hx2]. destruct (N k x x2 Hx Hx2) as (z & Hz & ([->| ->] & _)); rewrite Hk in Hz; injection Hz as ->; [left|right]; eapply nth_error_In; eassumption.
  - intros x [Hx|Hx]; apply In_nth_error in Hx; destruct Hx as [k Hk].
    + destruct (S a v k x L Hk) as [y Hy]. destruct (N k x y Hk Hy) as (z & Hz & (_ & P & _)). exists z. split; [eapply nth_error_In; exact Hz|exact P].
    + destruct (S v a k x (eq_sym L) Hk) as [y Hy]. destruct (N k y x Hy Hk) as (z & Hz & (_ & _ & P)). exists z. split; [eapply nth_error_In; exact Hz|exact P].
Qed.

Lemma picked_vectors : forall (f : list Z -> list Z -> list Z) w vs acc, length acc = w -> Forall good acc -> Forall (fun v => length v = w /\ Forall good v) vs ->
  (forall a v, length a = w -> length v = w -> Forall good a -> Forall good v -> each_lane picked a v (f a v)) ->
  let r := fold_left f vs acc in length r = w /\ Forall good r /\ (forall y, In y r -> In y acc \/ In y (concat vs)) /\ (forall x, In x acc \/ In x (concat vs) -> exists y, In y r /\ le x y).
Proof.
  intros f w vs. induction vs as [|v vs IH]; intros acc La Fa Fv Hf; cbn [fold_left concat].
  - split; [exact La|]. split; [exact Fa|]. split; [tauto|]. intros x [Hx|[]]. exists x. split; [exact Hx|apply le_refl].
  - destruct (Forall_inv Fv) as [Lv Gv]. destruct (picked_lanes acc v (f acc v) ltac:(lia) (Hf acc v La Lv Fa Gv)) as (P1 & P2 & P3).
    assert (Fn : Forall good (f acc v)) by (apply Forall_forall; intros y Hy; rewrite Forall_forall in Fa, Gv; destruct (P2 y Hy); auto).
    destruct (IH (f acc v) ltac:(lia) Fn (Forall_inv_tail Fv) Hf) as (I1 & I2 & I3 & I4). cbv zeta. split; [exact I1|]. split; [exact I2|]. split.
    + intros y Hy. destruct (I3 y Hy) as [K|K]; [destruct (P2 y K); [left|right; apply in_or_app; left]; assumption|right; apply in_or_app; right; exact K].
    + intros x Hx. assert (Hx2 : (In x acc \/ In x v) \/ In x (concat vs)) by (destruct Hx as [Hx|Hx]; [tauto|apply in_app_or in Hx; tauto]). destruct Hx2 as [Hx2|Hx2]; [|apply I4; right; exact Hx2].
      destruct (P3 x Hx2) as (y & Y1 & Y2). destruct (I4 y (or_introl Y1)) as (z & Z1 & Z2). exists z. split; [exact Z1|exact (le_trans x y z Y2 Z2)].
Qed.

Lemma picked_scalars : forall (g : Z -> Z -> Z) l s, Forall good l -> good s -> (forall x y, good x -> good y -> picked x y (g x y)) ->
  let r := fold_left g l s in good r /\ (r = s \/ In r l) /\ le s r /\ Forall (fun x => le x r) l.
Proof.
  intros g l. induction l as [|x l IH]; intros s Fl Gs Hg; cbn [fold_left].
  - split; [exact Gs|]. split; [left; reflexivity|]. split; [apply le_refl|constructor].
  - pose proof (Forall_inv Fl) as Gx. destruct (Hg s x Gs Gx) as (P1 & P2 & P3). assert (Gn : good (g s x)) by (destruct P1 as [->| ->]; assumption).
    destruct (IH (g s x) (Forall_inv_tail Fl) Gn Hg) as (I1 & I2 & I3 & I4). cbv zeta. split; [exact I1|]. split; [destruct I2 as [->|I2]; [destruct P1 as [->| ->]; [left; reflexivity|right; left; reflexivity]|right; right; exact I2]|].
    split; [exact (le_trans _ _ _ P2 I3)|]. constructor; [exact (le_trans _ _ _ P3 I3)|exact I4].
Qed.
End Picking.

Lemma c90_extremum : forall (fs : features) (c : config) (tie : bool) (e : elty) (l : list Z) (l0 : packed_line) (o : op_impl) (u : Z) (f : list Z -> list Z -> list Z) (g : Z -> Z -> Z) (fuel : nat),
  let fm := fmt_of e in let number x := lane e x /\ ~ is_nan fm x in let best := if String.eqb (op_fn o) "min" then least fm else greatest fm in
  target fs -> e = EF32 \/ e = EF64 -> natural fs (el_name e ++ "s") = [l0] -> In o x86_cmp -> op_vec o = p_vec l0 ->
  infinity_of_sign fm (if String.eqb (op_fn o) "min" then 0 else 1) u -> Forall number l -> zlen l * p_size l0 <= isize_max -> (length l < fuel)%nat ->
  (forall a v, zlen a = p_width l0 -> zlen v = p_width l0 -> Forall number a -> Forall number v -> op2_in fs tie o a v = Some (Ok (f a v))) ->
  (forall x y, number x -> number y -> best x y (g x y)) ->
  exists acc s' r, simd_reduce (slice_iterator c (vty_of l0)) fuel (simd_iter l (splat (p_width l0) u)) (splat (p_width l0) u) f = Ok (acc, s') /\
    scalar_reduce (p_width l0) acc u g = Ok r /\ (l = [] -> r = u) /\ (l <> [] -> In r l) /\
    Forall (fun x => if String.eqb (op_fn o) "min" then fvalue fm r <= fvalue fm x else fvalue fm x <= fvalue fm r) l.
Proof.
  intros fs c tie e l l0 o u f g fuel fm number best T He N0 Ho Hv Hu Hl Cap Hfu Rf Rg. destruct (float_prims e He) as [H0 Hfl]. pose proof (fmt_of_ok e) as Hok. fold fm in Hok.
  destruct (natural_vty fs _ l0 T H0 N0) as (Vt & W0 & S0 & _). destruct (natural_line fs _ T H0) as (m & M & _ & Vn & _ & _). rewrite N0 in M. injection M as <-. pose proof (vty_ok_facts _ Vt) as (H1 & _). pose proof (zlen_nonneg l). set (w := p_width l0) in *. change (WIDTH (vty_of l0)) with w in *.
  set (min := String.eqb (op_fn o) "min") in *.
  assert (Line : op_el o = e /\ WIDTH (op_ty o) = w).
  { rewrite W0. rewrite Vn in Hv. apply (cmp_line o e (register fs) Ho He (register_in fs) Hv). }
  destruct Line as [Oe Ow].
  assert (Gu : number u). { destruct Hu as (U1 & U2 & _). split; [unfold fm in U1; destruct He as [He|He]; rewrite He in *; exact U1|]. destruct (classes fm Hok u U1) as [C|[C|C]]; tauto. }
  set (le := fun x y => if min then fvalue fm y <= fvalue fm x else fvalue fm x <= fvalue fm y).
  assert (Lr : forall x, le x x) by (intros x; unfold le; destruct min; lia). assert (Lt : forall x y z, le x y -> le y z -> le x z) by (intros x y z; unfold le; destruct min; lia).
  assert (Bp : forall x y z, best x y z -> picked le x y z) by (intros x y z; unfold best, picked, le, least, greatest; destruct min; tauto).
  assert (Hz : zlen (splat w u) = w) by (unfold splat; rewrite zlen_repeat; lia).
  destruct (c06_reduce Z (list Z) c (vty_of l0) l (splat w u) 0 (splat w u) f fuel Vt Cap Hz ltac:(lia) ltac:(lia) Hfu) as (vs & rest & [Hc1 Hc2] & Hr & Ha & Hred & _).
  cbn [Z.to_nat skipn] in Hc2. change (WIDTH (vty_of l0)) with w in *. match type of Hred with context [fold_left _ ?A _] => set (args := A) in * end.
  assert (Us : forall x, In x (splat w u) -> x = u) by (intros x Hx; unfold splat in Hx; apply repeat_spec in Hx; exact Hx).
  assert (Su : Forall number (splat w u)) by (apply Forall_forall; intros x Hx; rewrite (Us x Hx); exact Gu).
  assert (Ic : forall x, In x (concat args) -> x = u \/ In x l).
  { intros x Hx. unfold args in Hx. rewrite concat_app in Hx. rewrite <- Hc2. apply in_app_or in Hx. destruct Hx as [Hx|Hx]; [right; apply in_or_app; left; exact Hx|]. destruct rest as [|y r]; [contradiction|]. cbn [concat] in Hx. rewrite app_nil_r in Hx. unfold right_aligned in Hx. apply in_app_or in Hx. destruct Hx as [Hx|Hx]; [left; apply Us; rewrite <- (firstn_skipn (length (splat w u) - length (y :: r)) (splat w u)); apply in_or_app; left; exact Hx|right; apply in_or_app; right; exact Hx]. }
  assert (Il : forall x, In x l -> In x (concat args)).
  { intros x Hx. rewrite <- Hc2 in Hx. unfold args. rewrite concat_app. apply in_app_or in Hx. apply in_or_app. destruct Hx as [Hx|Hx]; [left; exact Hx|right]. destruct rest as [|y r]; [contradiction|]. cbn [concat]. rewrite app_nil_r. unfold right_aligned. apply in_or_app. right. exact Hx. }
  assert (Fv : Forall (fun v => length v = Z.to_nat w /\ Forall number v) args).
  { apply Forall_forall. intros v Hv2. split.
    - unfold args in Hv2. apply in_app_or in Hv2. destruct Hv2 as [Hv2|Hv2]; [rewrite Forall_forall in Hc1; specialize (Hc1 v Hv2); unfold zlen in Hc1; lia|]. destruct rest as [|y r]; [contradiction|]. destruct Hv2 as [<-|[]]. pose proof (right_aligned_len (splat w u) (y :: r) ltac:(lia)) as Q. rewrite Hz in Q. unfold zlen in Q. lia.
    - apply Forall_forall. intros x Hx. assert (Hx2 : In x (concat args)) by (apply in_concat; exists v; split; assumption). destruct (Ic x Hx2) as [->|K]; [exact Gu|]. rewrite Forall_forall in Hl. exact (Hl x K). }
  destruct (picked_vectors number le Lr Lt f (Z.to_nat w) args (splat w u)) as (P1 & P2 & P3 & P4).
  - unfold zlen in Hz. lia.
  - exact Su.
  - exact Fv.
  - intros a v La Lv Ga Gv. destruct (c90_lanes fs tie o a v Ho) as (m & M1 & M2 & M3); [rewrite Oe; exact He|rewrite Ow; unfold zlen; lia|rewrite Ow; unfold zlen; lia|rewrite Oe; exact Ga|rewrite Oe; exact Gv|].
    rewrite (Rf a v ltac:(unfold zlen; lia) ltac:(unfold zlen; lia) Ga Gv) in M1. injection M1 as ->. split; [exact M2|]. intros i x y Hx Hy. destruct (M3 i x y Hx Hy) as (z & Z1 & Z2). exists z. split; [exact Z1|]. apply Bp. unfold best, min. rewrite Oe in Z2. exact Z2.
  - set (acc := fold_left f args (splat w u)) in *. destruct (picked_scalars number le Lr Lt g acc u P2 Gu) as (S1 & S2 & S3 & S4); [intros x y Gx Gy; apply Bp; apply Rg; assumption|]. set (r := fold_left g acc u) in *.
    exists acc. eexists. exists r. split; [exact Hred|]. split; [change w with (WIDTH (vty_of l0)); apply c34_scalar_reduce; change (WIDTH (vty_of l0)) with w; unfold zlen; lia|].
    assert (Rl : r = u \/ In r l). { destruct S2 as [->|S2]; [left; reflexivity|]. destruct (P3 r S2) as [K|K]; [left; apply Us; exact K|apply Ic; exact K]. }
    assert (Bound : Forall (fun x => le x r) l). { apply Forall_forall. intros x Hx. destruct (P4 x (or_intror (Il x Hx))) as (y & Y1 & Y2). rewrite Forall_forall in S4. exact (Lt x y r Y2 (S4 y Y1)). }
    split; [intros ->; destruct Rl as [Rl|[]]; exact Rl|]. split; [|exact Bound].
    intros Hne. destruct Rl as [Ru|Rl]; [|exact Rl]. destruct l as [|x l']; [congruence|]. pose proof (Forall_inv Bound) as Bx. cbv beta in Bx. destruct (Forall_inv Hl) as [X1 X2]. left. rewrite Ru in *.
    apply (only_infinity fm Hok (negb min) u x).
    + destruct min; exact Hu.
    + apply (not_nan e x He X1 X2).
    + exact X2.
    + unfold le in Bx. destruct min; exact Bx.
Qed.

Lemma all_same : forall (v : list Z) w x, zlen v = w -> (forall y, In y v -> y = x) -> v = splat w x.
Proof.
  intros v w x L H. unfold splat. replace (Z.to_nat w) with (length v) by (unfold zlen in L; lia). clear L. induction v as [|y v IH]; [reflexivity|]. cbn [length repeat]. rewrite (H y (or_introl eq_refl)). f_equal. apply IH. intros z Hz. apply H. right. exact Hz.
Qed.

Lemma fold_same : forall (g : Z -> Z -> Z) x u z w, g u x = z -> (z = u \/ g z x = z) -> 0 < w -> fold_left g (splat w x) u = z.
Proof.
  intros g x u z w H1 H2 Hw. unfold splat. destruct (Z.to_nat w) as [|n] eqn:E; [lia|]. clear E Hw. cbn [repeat fold_left]. rewrite H1. assert (K : g z x = z) by (destruct H2 as [->|H2]; [exact H1|exact H2]). induction n as [|n IH]; [reflexivity|]. cbn [repeat fold_left]. rewrite K. exact IH.
Qed.

Lemma c90_nan_lost : forall (fs : features) (c : config) (tie : bool) (e : elty) (l0 : packed_line) (o : op_impl) (u x nan : Z) (f : list Z -> list Z -> list Z) (g : Z -> Z -> Z) (fuel : nat),
  let fm := fmt_of e in let w := Z.to_nat (p_width l0) in let l := repeat x w ++ repeat nan w in
  target fs -> e = EF32 \/ e = EF64 -> natural fs (el_name e ++ "s") = [l0] -> In o x86_cmp -> op_vec o = p_vec l0 ->
  infinity_of_sign fm (if String.eqb (op_fn o) "min" then 0 else 1) u -> lane e x -> ~ is_nan fm x -> lane e nan -> is_nan fm nan -> (length l < fuel)%nat ->
  (forall a v, zlen a = p_width l0 -> zlen v = p_width l0 -> Forall (lane e) a -> Forall (lane e) v -> op2_in fs tie o a v = Some (Ok (f a v))) ->
  g = (if String.eqb (op_fn o) "min" then rust_fmin fm tie else rust_fmax fm tie) ->
  exists acc s' r, simd_reduce (slice_iterator c (vty_of l0)) fuel (simd_iter l (splat (p_width l0) u)) (splat (p_width l0) u) f = Ok (acc, s') /\
    scalar_reduce (p_width l0) acc u g = Ok r /\ r = if fs (op_feat o) then u else x.
Proof.
  intros fs c tie e l0 o u x nan f g fuel fm wn l T He N0 Ho Hv Hu Lx Nx Ln Nn Hfu Rf Rg. destruct (float_prims e He) as [H0 Hfl]. pose proof (fmt_of_ok e) as Hok. fold fm in Hok.
  destruct (natural_vty fs _ l0 T H0 N0) as (Vt & W0 & S0 & B0). destruct (natural_line fs _ T H0) as (m & M & _ & Vn & _ & _). rewrite N0 in M. injection M as <-. pose proof (vty_ok_facts _ Vt) as (H1 & H2 & _). set (w := p_width l0) in *. change (WIDTH (vty_of l0)) with w in *.
  assert (Line : op_el o = e /\ WIDTH (op_ty o) = w).
  { rewrite W0. rewrite Vn in Hv. apply (cmp_line o e (register fs) Ho He (register_in fs) Hv). }
  destruct Line as [Oe Ow]. assert (Hz : forall y : Z, zlen (splat w y) = w) by (intros y; unfold splat; rewrite zlen_repeat; lia).
  change (repeat x wn) with (splat w x) in l. change (repeat nan wn) with (splat w nan) in l.
  assert (Ll : zlen l = w + w) by (unfold l; rewrite zlen_app, !Hz; reflexivity).
  assert (Cap : slice_ok (vty_of l0) l). { unfold slice_ok. rewrite Ll. assert (K : (w + w) * SIZE (vty_of l0) <= 64) by lia. eapply Z.le_trans; [exact K|]. vm_compute. congruence. }
  destruct (c06_reduce Z (list Z) c (vty_of l0) l (splat w u) 0 (splat w u) f fuel Vt Cap (Hz u) ltac:(lia) ltac:(lia) Hfu) as (vs & rest & Hc & Hr & Ha & Hred & _).
  cbn [Z.to_nat skipn] in Hc. change (WIDTH (vty_of l0)) with w in *.
  destruct (chunked_unique w l ltac:(lia) vs rest [splat w x; splat w nan] [] Hc) as [-> ->]; [|exact Hr|cbn; lia|].
  { split; [repeat constructor; apply Hz|]. cbn [concat]. rewrite !app_nil_r. reflexivity. }
  cbn [app fold_left] in Hred.
  assert (Pu : f_pattern fm u) by (destruct Hu as (U & _); exact U). assert (Lu : lane e u) by (unfold fm in Pu; destruct He as [He|He]; rewrite He in *; exact Pu).
  assert (Nu : ~ is_nan fm u) by (destruct Hu as (U1 & U2 & _); destruct (classes fm Hok u U1) as [C|[C|C]]; tauto).
  assert (Best : forall z, (if String.eqb (op_fn o) "min" then least fm else greatest fm) u x z -> z = x).
  { intros z Hzz. destruct (not_nan e x He Lx Nx) as (Px & _). assert (Q : z = u -> x = u); [|destruct (String.eqb (op_fn o) "min"); destruct Hzz as ([Z1|Z1] & _); try exact Z1; rewrite (Q Z1); exact Z1].
    intros Zu. rewrite Zu in Hzz. apply (only_infinity fm Hok (negb (String.eqb (op_fn o) "min")) u x); [destruct (String.eqb (op_fn o) "min"); exact Hu|exact Px|exact Nx|]. destruct (String.eqb (op_fn o) "min"); destruct Hzz as (_ & _ & K); exact K. }
  assert (Sp : forall y, lane e y -> Forall (lane e) (splat w y)) by (intros y Hy; apply Forall_forall; intros z Hzz; unfold splat in Hzz; apply repeat_spec in Hzz; rewrite Hzz; exact Hy).
  assert (F1 : f (splat w u) (splat w x) = splat w x).
  { destruct (c90_lanes fs tie o (splat w u) (splat w x) Ho) as (m & M1 & M2 & M3); [rewrite Oe; exact He|rewrite Ow; apply Hz|rewrite Ow; apply Hz|rewrite Oe; apply Forall_forall; intros z Hzz; unfold splat in Hzz; apply repeat_spec in Hzz; rewrite Hzz; split; assumption|rewrite Oe; apply Forall_forall; intros z Hzz; unfold splat in Hzz; apply repeat_spec in Hzz; rewrite Hzz; split; assumption|].
    rewrite (Rf _ _ (Hz u) (Hz x) (Sp u Lu) (Sp x Lx)) in M1. injection M1 as ->. rewrite (Hz u) in M2. apply all_same; [exact M2|]. intros y Hy. apply In_nth_error in Hy. destruct Hy as [k Hk].
    assert (Kb : 0 <= Z.of_nat k < w) by (assert (K : nth_error m k <> None) by congruence; apply nth_error_Some in K; unfold zlen in M2; lia).
    assert (Kz : forall v : Z, znth (splat w v) (Z.of_nat k) = Some v) by (intros v; apply KernProofs.znth_splat; exact Kb). destruct (M3 (Z.of_nat k) u x (Kz u) (Kz x)) as (z & Z1 & Z2). unfold znth in Z1. replace (Z.of_nat k <? 0) with false in Z1 by lia. rewrite Nat2Z.id, Hk in Z1. injection Z1 as ->. apply Best. rewrite Oe in Z2. exact Z2. }
  assert (Ix : in_ity (lane_ity e) x) by (apply not_nan; assumption). assert (In_ : in_ity (lane_ity e) nan) by (destruct He as [He|He]; rewrite He in *; apply pattern_float; first [exact Ln|tauto]).
  destruct (c39_nan_differs tie o x nan Ho) as (D1 & D2 & _); [rewrite Oe; exact He|rewrite Oe; exact Ix|rewrite Oe; exact In_|rewrite Oe; exact Nn|rewrite Oe; exact Nx|]. rewrite Ow in D1, D2.
  assert (F2 : f (splat w x) (splat w nan) = if fs (op_feat o) then splat w nan else splat w x).
  { pose proof (Rf _ _ (Hz x) (Hz nan) (Sp x Lx) (Sp nan Ln)) as R. rewrite op2_cases in R by (apply in_or_app; right; apply in_or_app; left; exact Ho). destruct (fs (op_feat o)); [rewrite D2 in R|rewrite D1 in R]; injection R as <-; reflexivity. }
  rewrite F1, F2 in Hred. destruct (not_nan e u He Lu Nu) as (_ & Nu2 & _). destruct (not_nan e x He Lx Nx) as (_ & Nx2 & _). assert (Nn2 : f_nan fm nan = true) by (destruct (nan_iff fm Hok nan ltac:(unfold fm; destruct He as [He|He]; rewrite He in *; exact Ln)) as (Q & _); destruct (f_nan fm nan); tauto).
  exists (if fs (op_feat o) then splat w nan else splat w x). eexists. exists (if fs (op_feat o) then u else x). split; [exact Hred|]. split; [|reflexivity].
  assert (R : forall v, scalar_reduce w (splat w v) u g = Ok (fold_left g (splat w v) u)) by (intros v; change w with (WIDTH (vty_of l0)); apply c34_scalar_reduce; change (WIDTH (vty_of l0)) with w; apply Hz).
  destruct (fs (op_feat o)); rewrite R; f_equal; apply fold_same; try lia.
  - rewrite Rg. destruct (String.eqb (op_fn o) "min"); unfold rust_fmin, rust_fmax; fold fm in Nu2; rewrite Nu2, Nn2; reflexivity.
  - rewrite Rg. apply Best. destruct (c90_scalar e tie u x He Lu Lx Nu Nx) as [B1 B2]. destruct (String.eqb (op_fn o) "min"); assumption.
  - right. rewrite Rg. destruct (c90_scalar e tie x x He Lx Lx Nx Nx) as [B1 B2]. destruct (String.eqb (op_fn o) "min"); [destruct B1 as ([B|B] & _)|destruct B2 as ([B|B] & _)]; exact B.
Qed.
