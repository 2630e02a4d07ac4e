(** Proofs of the properties: conversions, absolute value and de-interleaving (C46, C47, C48, C49). *)
From Coq Require Import String.
From Verif Require Import Base Spec VecSpec Vecs Lanes Floats FloatSpec X86 X86Reg OpTables OpSpec Ops Tables PortTables Ports PortSpec.
Open Scope list_scope.
Open Scope Z_scope.
From Coq Require Import Lia ZifyBool ZifyNat.
From Verif Require Import ListFacts VecFacts FloatFacts VecProofs Patterns Merge PatternProofs ShuffleProofs OpProofs RoundProofs HopProofs.
Ltac Zify.zify_post_hook ::= Z.div_mod_to_equations.

(** ** Float conversions are exact *)

Lemma of_int_same : forall x, in_ity i32 x -> in_ity u64 (f64_of_int x) /\ same_value (EInt i32) EF64 x (f64_of_int x).
Proof.
  intros x Hx. assert (Hb : -2147483648 <= x <= 2147483647) by exact Hx. unfold f64_of_int.
  assert (Hn : 0 <= Z.abs x <= 2 ^ f_m fmt64) by (change (2 ^ f_m fmt64) with 4503599627370496; lia).
  destruct (of_int_value fmt64 fmt64_ok (x <? 0) (Z.abs x) Hn) as (H1 & H2 & H3 & H4). set (r := f_with_sign fmt64 (x <? 0) (f_of_int fmt64 (Z.abs x))) in *.
  split; [unfold f_pattern in H1; change (2 ^ (1 + f_e fmt64 + f_m fmt64)) with 18446744073709551616 in H1; change (0 <= r <= 18446744073709551615); lia|].
  unfold same_value. split; [exact H2|]. rewrite (fvalue_abs fmt64 fmt64_ok r H1), H3, H4. destruct (x <? 0) eqn:C; [rewrite Z.abs_neq by lia|rewrite Z.abs_eq by lia]; ring.
Qed.

Lemma nan_fraction : forall m, 0 <= m < 2 ^ 23 -> 0 < Z.lor (m * 2 ^ 29) (2 ^ 51) < 2 ^ 52.
Proof.
  intros m Hm. assert (H0 : 0 <= Z.lor (m * 2 ^ 29) (2 ^ 51)) by (apply Z.lor_nonneg; split; lia).
  assert (H1 : Z.lor (m * 2 ^ 29) (2 ^ 51) <> 0) by (intros H; apply Z.lor_eq_0_iff in H; lia).
  split; [lia|]. destruct (Z.eq_dec (Z.lor (m * 2 ^ 29) (2 ^ 51)) 0); [lia|].
  apply Z.log2_lt_pow2; [lia|]. rewrite Z.log2_lor by lia. apply Z.max_lub_lt; [|vm_compute; reflexivity].
  destruct (Z.eq_dec m 0) as [->|N]; [vm_compute; reflexivity|]. apply Z.log2_lt_pow2; lia.
Qed.

Lemma pow_split : forall a b c, 0 <= a -> 0 <= b -> c = a + b -> 2 ^ c = 2 ^ a * 2 ^ b.
Proof. intros a b c Ha Hb ->. apply Z.pow_add_r; assumption. Qed.

Lemma widen_same : forall x, in_ity u32 x -> in_ity u64 (f_widen x) /\ same_value EF32 EF64 x (f_widen x).
Proof.
  intros x Hx. assert (Hb : f_pattern fmt32 x) by (unfold f_pattern; change (0 <= x < 4294967296); change (0 <= x <= 4294967295) in Hx; lia).
  destruct (mag_fields fmt32 fmt32_ok x Hb) as (_ & He & Hm & Hs).
  assert (Hs' : sign_bit fmt32 x = 0 \/ sign_bit fmt32 x = 1) by (destruct Hs as [[_ ?]|[_ ?]]; [left|right]; assumption). clear Hs.
  assert (E1 : x / 2 ^ 31 = sign_bit fmt32 x) by reflexivity. assert (E2 : (x / 2 ^ 23) mod 2 ^ 8 = exponent_field fmt32 x) by reflexivity. assert (E3 : x mod 2 ^ 23 = fraction_field fmt32 x) by reflexivity.
  unfold f_widen. cbv zeta. rewrite E1, E2, E3. clear E1 E2 E3.
  change (f_e fmt32) with 8 in He. change (f_m fmt32) with 23 in Hm.
  assert (G : exists e m, 0 <= e < 2 ^ 11 /\ 0 <= m < 2 ^ 52 /\
     (if exponent_field fmt32 x =? 255 then 2047 * 2 ^ 52 + (if fraction_field fmt32 x =? 0 then 0 else Z.lor (fraction_field fmt32 x * 2 ^ 29) (2 ^ 51))
      else if exponent_field fmt32 x =? 0 then (if fraction_field fmt32 x =? 0 then 0 else (Z.log2 (fraction_field fmt32 x) - 149 + 1023) * 2 ^ 52 + (fraction_field fmt32 x * 2 ^ (52 - Z.log2 (fraction_field fmt32 x)) - 2 ^ 52))
      else (exponent_field fmt32 x - 127 + 1023) * 2 ^ 52 + fraction_field fmt32 x * 2 ^ 29) = e * 2 ^ 52 + m /\
     (exponent_field fmt32 x <> 255 -> e <> 2047 /\ (if e =? 0 then m else (2 ^ 52 + m) * 2 ^ (e - 1)) * 2 ^ 149 =
        (if exponent_field fmt32 x =? 0 then fraction_field fmt32 x else (2 ^ 23 + fraction_field fmt32 x) * 2 ^ (exponent_field fmt32 x - 1)) * 2 ^ 1074) /\
     (exponent_field fmt32 x = 255 -> e = 2047 /\ (fraction_field fmt32 x = 0 -> m = 0) /\ (fraction_field fmt32 x <> 0 -> m <> 0))).
  { set (e0 := exponent_field fmt32 x) in *. set (m0 := fraction_field fmt32 x) in *. destruct (e0 =? 255) eqn:C.
    - destruct (m0 =? 0) eqn:C2; [exists 2047, 0|exists 2047, (Z.lor (m0 * 2 ^ 29) (2 ^ 51))].
      + repeat split; try lia.
      + pose proof (nan_fraction m0 Hm). repeat split; try lia.
    - destruct (e0 =? 0) eqn:C1.
      + destruct (m0 =? 0) eqn:C2; [exists 0, 0; split; [lia|split; [lia|split; [lia|split; [|lia]]]]; intros _; split; [lia|]; cbn [Z.eqb]; assert (m0 = 0) by lia; lia|].
        pose proof (Z.log2_spec m0 ltac:(lia)) as [L1 L2]. pose proof (Z.log2_nonneg m0) as L0. assert (L3 : Z.log2 m0 < 23) by (apply Z.log2_lt_pow2; lia).
        rewrite Z.pow_succ_r in L2 by lia. assert (P : 2 ^ 52 = 2 ^ Z.log2 m0 * 2 ^ (52 - Z.log2 m0)) by (apply pow_split; lia).
        assert (0 < 2 ^ (52 - Z.log2 m0)) by (apply Z.pow_pos_nonneg; lia).
        exists (Z.log2 m0 - 149 + 1023), (m0 * 2 ^ (52 - Z.log2 m0) - 2 ^ 52). split; [lia|]. split; [rewrite P; nia|]. split; [reflexivity|]. split; [|lia]. intros _. split; [lia|].
        replace (Z.log2 m0 - 149 + 1023 =? 0) with false by lia.
        replace (2 ^ 52 + (m0 * 2 ^ (52 - Z.log2 m0) - 2 ^ 52)) with (m0 * 2 ^ (52 - Z.log2 m0)) by ring.
        rewrite <- !Z.mul_assoc, <- !Z.pow_add_r by lia. do 2 f_equal. lia.
      + exists (e0 - 127 + 1023), (m0 * 2 ^ 29). split; [lia|]. split; [lia|]. split; [reflexivity|]. split; [|lia]. intros _. split; [lia|].
        replace (e0 - 127 + 1023 =? 0) with false by lia. replace (2 ^ 52 + m0 * 2 ^ 29) with ((2 ^ 23 + m0) * 2 ^ 29) by lia.
        rewrite <- !Z.mul_assoc, <- !Z.pow_add_r by lia. do 2 f_equal. lia. }
  destruct G as (e & m & Ge & Gm & Gv & Gf & Gi). rewrite Gv. clear Gv.
  destruct (fields_of fmt64 fmt64_ok (sign_bit fmt32 x) e m Hs' Ge Gm) as (P1 & P2 & P3 & P4).
  change (2 ^ f_e fmt64 * 2 ^ f_m fmt64) with (2 ^ 63) in P1, P2, P3, P4. change (2 ^ f_m fmt64) with (2 ^ 52) in P1, P2, P3, P4.
  set (r := sign_bit fmt32 x * 2 ^ 63 + (e * 2 ^ 52 + m)) in *.
  split; [unfold f_pattern in P1; change (2 ^ (1 + f_e fmt64 + f_m fmt64)) with 18446744073709551616 in P1; change (0 <= r <= 18446744073709551615); lia|].
  unfold same_value. split; [exact P4|]. unfold is_finite, is_infinite, is_nan. rewrite P2, P3.
  change (2 ^ f_e fmt32 - 1) with 255. change (2 ^ f_e fmt64 - 1) with 2047. split; [|split].
  - intros Hf. destruct (Gf Hf) as [G1 G2]. split; [exact G1|]. unfold fvalue. rewrite P2, P3, P4.
    change (fone fmt32) with (2 ^ 149). change (fone fmt64) with (2 ^ 1074). change (f_m fmt32) with 23. change (f_m fmt64) with 52.
    rewrite <- !Z.mul_assoc. f_equal. exact G2.
  - intros [Hf1 Hf2]. destruct (Gi Hf1) as (G1 & G2 & _). split; [exact G1|exact (G2 Hf2)].
  - intros [Hf1 Hf2]. destruct (Gi Hf1) as (G1 & _ & G2). split; [exact G1|exact (G2 Hf2)].
Qed.

(** ** The portable versions *)

Lemma in_order_ok : forall (A B : Type) (f : A -> outcome B) (g : A -> B) l, Forall (fun x => f x = Ok (g x)) l -> in_order f l = Ok (map g l).
Proof. intros A B f g l H. induction H as [|x l Hx _ IH]; [reflexivity|]. cbn [in_order map]. rewrite Hx, IH. reflexivity. Qed.

Lemma in_order_rows : forall (A B : Type) (f : A -> outcome B) (g : A -> B) ll, Forall (fun x => f x = Ok (g x)) (concat ll) -> in_order (in_order f) ll = Ok (map (map g) ll).
Proof.
  intros A B f g ll H. apply in_order_ok. induction ll as [|l ll IH]; [constructor|]. cbn [concat] in H. apply Forall_app in H. destruct H as [H1 H2].
  constructor; [apply in_order_ok; exact H1|apply IH; exact H2].
Qed.

(** Every operand's lanes in order, all with the same operations. *)
Definition positions (n W : nat) (ops : list pop) : list (nat * Z * list pop) :=
  flat_map (fun k => map (fun i => (k, Z.of_nat i, ops)) (seq 0 W)) (seq 0 n).

Definition lane_at (args : list (list Z)) (l : nat * Z * list pop) : Z := let '(k, i, _) := l in nth (Z.to_nat i) (nth k args []) 0.

Lemma map_nth_seq : forall (A : Type) (d : A) (v : list A), map (fun i => nth i v d) (seq 0 (length v)) = v.
Proof.
  intros A d v. apply nth_ext with (d := d) (d' := d); rewrite map_length, seq_length; [reflexivity|]. intros n Hn.
  rewrite (nth_indep _ d (nth 0 v d)) by (rewrite map_length, seq_length; exact Hn). rewrite (map_nth (fun i => nth i v d)), seq_nth by exact Hn. reflexivity.
Qed.

Lemma positions_lanes : forall args W ops, Forall (fun v => length v = W) args -> map (lane_at args) (positions (length args) W ops) = concat args.
Proof.
  intros args W ops H. unfold positions. rewrite flat_map_concat_map, concat_map, map_map. f_equal. transitivity (map (fun k => nth k args []) (seq 0 (length args))); [|apply map_nth_seq]. apply map_ext_in. intros k Hk. apply in_seq in Hk.
  rewrite map_map. cbn [lane_at]. assert (Hl : length (nth k args []) = W) by (apply (proj1 (Forall_nth _ args) H); lia).
  rewrite <- Hl. transitivity (map (fun i => nth i (nth k args []) 0) (seq 0 (length (nth k args [])))); [|apply map_nth_seq]. apply map_ext. intros i. rewrite Nat2Z.id. reflexivity.
Qed.

Lemma port_rows : forall narrow p args (P : Z -> Prop) (F : Z -> Z) ops, concat (pt_body p) = positions (length args) (Z.to_nat (WIDTH (pt_ty p))) ops ->
  (forall x, P x -> apply_pops narrow (pt_el p) x ops = Some (pt_out p, F x)) -> Forall (fun v => zlen v = WIDTH (pt_ty p) /\ Forall P v) args ->
  exists rs, port_portable narrow p args = Ok rs /\ concat rs = map F (concat args) /\ map (@length Z) rs = map (@length _) (pt_body p).
Proof.
  intros narrow p args P F ops Hb HF Ha. exists (map (map (fun l => F (lane_at args l))) (pt_body p)). split; [|split].
  - unfold port_portable. apply in_order_rows. rewrite Hb. apply Forall_forall. intros l Hl. unfold positions in Hl. apply in_flat_map in Hl. destruct Hl as (k & Hk & Hl). apply in_seq in Hk.
    apply in_map_iff in Hl. destruct Hl as (i & <- & Hi). apply in_seq in Hi. unfold port_lane, lane_at. rewrite Nat2Z.id.
    assert (Hv : zlen (nth k args []) = WIDTH (pt_ty p) /\ Forall P (nth k args [])) by (apply (proj1 (Forall_nth _ args) Ha); lia). destruct Hv as [Hv1 Hv2].
    unfold extract. replace (Z.of_nat i <? WIDTH (pt_ty p)) with true by lia. unfold znth. replace (Z.of_nat i <? 0) with false by lia. rewrite Nat2Z.id.
    unfold zlen in Hv1. rewrite (nth_error_nth' _ 0) by lia. cbn [bind]. rewrite HF; [reflexivity|]. apply (proj1 (Forall_nth P _) Hv2). lia.
  - rewrite <- concat_map, Hb, <- map_map, positions_lanes; [reflexivity|]. eapply Forall_impl; [|exact Ha]. intros v [Hv _]. unfold zlen in Hv. lia.
  - rewrite map_map. apply map_ext. intros r. apply map_length.
Qed.

(** ** upcast *)

(** The conversions that occur: to a wider integer type holding every value, and the
    two exact ones to f64. *)
Definition widens (e e' : elty) : Prop :=
  match e, e' with
  | EInt t, EInt t' => imin t' <= imin t /\ imax t <= imax t' /\ (0 < ibytes t')%nat
  | EInt t, EF64 => t = i32
  | EF32, EF64 => True
  | _, _ => False
  end.

Definition widened (e e' : elty) (x : Z) : Z :=
  match e, e' with EInt _, EF64 => f64_of_int x | EF32, EF64 => f_widen x | _, _ => x end.

Lemma widens_sound : forall narrow e e' x, widens e e' -> in_ity (lane_ity e) x ->
  apply_pops narrow e x [PAs e'] = Some (e', widened e e' x) /\ same_value e e' x (widened e e' x) /\ in_ity (lane_ity e') (widened e e' x).
Proof.
  intros narrow e e' x H Hx. destruct e as [t| |], e' as [t'| |]; cbn [widens] in H; try contradiction; cbn [lane_ity] in *.
  - destruct H as (H1 & H2 & H3). assert (Hi : in_ity t' x) by (unfold in_ity in *; lia). cbn [apply_pops cast widened same_value]. rewrite wrap_id by exact Hi. auto.
  - subst t. cbn [apply_pops cast widened ibytes i32 Nat.leb]. destruct (of_int_same x Hx) as [G1 G2]. auto.
  - cbn [apply_pops cast widened]. destruct (widen_same x Hx) as [G1 G2]. auto.
Qed.

Definition upcast_ok (p : port_impl) : Prop :=
  concat (pt_body p) = positions 1 (Z.to_nat (WIDTH (pt_ty p))) [PAs (pt_out p)] /\
  map (@length _) (pt_body p) = [Z.to_nat (WIDTH (pt_outty p)); Z.to_nat (WIDTH (pt_outty p))] /\
  0 <= WIDTH (pt_outty p) /\ widens (pt_el p) (pt_out p).

Ltac widens_tac := first [exact I|reflexivity|split; [vm_compute; intuition congruence|split; [vm_compute; intuition congruence|apply Nat.ltb_lt; reflexivity]]].

Lemma upcasts_ok : Forall upcast_ok (x86_upcast ++ unknown_upcast).
Proof.
  apply Forall_app. split; [unfold x86_upcast|unfold unknown_upcast]; split_table; (split; [vm_compute; reflexivity|split; [vm_compute; reflexivity|split; [vm_compute; intuition congruence|widens_tac]]]).
Qed.

Lemma c46_upcast_portable : forall (narrow : Z -> Z) (p : port_impl) (v : list Z), In p (x86_upcast ++ unknown_upcast) ->
  int_vector (WIDTH (pt_ty p)) (lane_ity (pt_el p)) v ->
  exists r, port_portable narrow p [v] = Ok r /\ upcasts (pt_el p) (pt_out p) (WIDTH (pt_outty p)) v r.
Proof.
  intros narrow p v Hp [Hv1 Hv2]. pose proof upcasts_ok as H. rewrite Forall_forall in H. destruct (H p Hp) as (H1 & H2 & H0 & H3).
  destruct (port_rows narrow p [v] (in_ity (lane_ity (pt_el p))) (widened (pt_el p) (pt_out p)) [PAs (pt_out p)] H1) as (rs & R1 & R2 & R3).
  - intros x Hx. apply widens_sound; assumption.
  - constructor; [split; assumption|constructor].
  - exists rs. split; [exact R1|]. rewrite H2 in R3. destruct rs as [|r0 [|r1 [|r2 rs]]]; try discriminate R3. injection R3 as L0 L1. exists r0, r1. split; [reflexivity|]. unfold zlen. split; [lia|split; [lia|]].
    cbn [concat] in R2. rewrite !app_nil_r in R2. rewrite R2. apply Forall2_map_r. intros x Hx. rewrite Forall_forall in Hv2. apply (widens_sound narrow); auto.
Qed.

Lemma list_split16 : forall bs : list Z, length bs = 16%nat -> shuffle_epi32 bs 14 = skipn 8 bs ++ firstn 4 bs ++ firstn 4 bs.
Proof. intros bs H. do 16 (destruct bs as [|? bs]; [discriminate H|]). destruct bs; [reflexivity|discriminate H]. Qed.

Lemma list_split32 : forall bs : list Z, length bs = 32%nat -> low128 (permute4x64 bs 14) = skipn 16 bs.
Proof. intros bs H. do 32 (destruct bs as [|? bs]; [discriminate H|]). destruct bs; [reflexivity|discriminate H]. Qed.

Lemma cvt_lanes : forall t1 t2 n g w, (0 < ibytes t1)%nat -> Forall (in_ity t1) w -> cvt t1 t2 n g (bytes_of t1 w) = bytes_of t2 (map g (firstn n w)).
Proof. intros t1 t2 n g w Hp Hw. unfold cvt. rewrite lanes_of_bytes_of by assumption. reflexivity. Qed.

Lemma Forall_firstn : forall (A : Type) (P : A -> Prop) n l, Forall P l -> Forall P (firstn n l).
Proof. intros A P n l H. rewrite <- (firstn_skipn n l) in H. apply Forall_app in H. apply H. Qed.

Lemma Forall_skipn : forall (A : Type) (P : A -> Prop) n l, Forall P l -> Forall P (skipn n l).
Proof. intros A P n l H. rewrite <- (firstn_skipn n l) in H. apply Forall_app in H. apply H. Qed.

Lemma up128_lanes : forall t1 t2 g n q v, (0 < ibytes t1)%nat -> (0 < ibytes t2)%nat -> (n * ibytes t1 = 8)%nat -> (q * ibytes t1 = 4)%nat -> length v = (n + n)%nat ->
  Forall (in_ity t1) v -> (forall x, in_ity t1 x -> in_ity t2 (g x)) ->
  map (lanes_of t2) (up128 t1 t2 n g [bytes_of t1 v]) = [map g (firstn n v); map g (skipn n v)].
Proof.
  intros t1 t2 g n q v Hp1 Hp2 Hn Hq Hl Hv Hg. unfold up128, on1. cbn [nth map].
  assert (Hlen : length (bytes_of t1 v) = 16%nat) by (rewrite bytes_of_len; nia).
  rewrite list_split16 by exact Hlen. rewrite <- Hn, <- Hq. rewrite bytes_of_skipn, bytes_of_firstn, <- !bytes_of_app.
  rewrite !cvt_lanes; [|assumption|rewrite !Forall_app; auto using Forall_firstn, Forall_skipn|assumption|assumption].
  assert (Hs : length (skipn n v) = n) by (rewrite skipn_length; lia). rewrite (firstn_app n), Hs, Nat.sub_diag. cbn [firstn]. rewrite app_nil_r, (firstn_all2 (skipn n v)) by lia.
  rewrite !lanes_of_bytes_of; [reflexivity|assumption| |assumption|].
  - apply Forall_map. eapply Forall_impl; [exact Hg|]. apply Forall_skipn. exact Hv.
  - apply Forall_map. eapply Forall_impl; [exact Hg|]. apply Forall_firstn. exact Hv.
Qed.

Lemma up256_lanes : forall t1 t2 g n v, (0 < ibytes t1)%nat -> (0 < ibytes t2)%nat -> (n * ibytes t1 = 16)%nat -> length v = (n + n)%nat ->
  Forall (in_ity t1) v -> (forall x, in_ity t1 x -> in_ity t2 (g x)) ->
  map (lanes_of t2) (up256 t1 t2 n g [bytes_of t1 v]) = [map g (firstn n v); map g (skipn n v)].
Proof.
  intros t1 t2 g n v Hp1 Hp2 Hn Hl Hv Hg. unfold up256, on1. cbn [nth map].
  assert (Hlen : length (bytes_of t1 v) = 32%nat) by (rewrite bytes_of_len; nia).
  rewrite list_split32 by exact Hlen. unfold low128. rewrite <- Hn. rewrite bytes_of_skipn, bytes_of_firstn.
  rewrite !cvt_lanes; [|assumption|auto using Forall_firstn, Forall_skipn|assumption|auto using Forall_firstn, Forall_skipn].
  assert (Hs : length (skipn n v) = n) by (rewrite skipn_length; lia). rewrite firstn_firstn, Nat.min_id, (firstn_all2 (skipn n v)) by lia.
  rewrite !lanes_of_bytes_of; [reflexivity|assumption| |assumption|].
  - apply Forall_map. eapply Forall_impl; [exact Hg|]. apply Forall_skipn. exact Hv.
  - apply Forall_map. eapply Forall_impl; [exact Hg|]. apply Forall_firstn. exact Hv.
Qed.

Definition xupcast_ok (x : xport) : Prop :=
  widens (xp_el x) (xp_out x) /\ 0 <= WIDTH (xp_outty x) /\ WIDTH (xp_ty x) = 2 * WIDTH (xp_outty x) /\
  forall v, int_vector (WIDTH (xp_ty x)) (lane_ity (xp_el x)) v ->
    port_optimized x [v] = [map (widened (xp_el x) (xp_out x)) (firstn (Z.to_nat (WIDTH (xp_outty x))) v); map (widened (xp_el x) (xp_out x)) (skipn (Z.to_nat (WIDTH (xp_outty x))) v)].

Lemma range_up : forall t t' y, imin t' <= imin t -> imax t <= imax t' -> in_ity t y -> in_ity t' (same y).
Proof. intros t t' y H1 H2 Hy. unfold same, in_ity in *. lia. Qed.

Ltac pos_tac := apply Nat.ltb_lt; reflexivity.
Tactic Notation "xup_tac" uconstr(lem) := split; [widens_tac|split; [vm_compute; intuition congruence|split; [reflexivity|]]];
  intros v [Hv1 Hv2]; unfold zlen in Hv1; cbn [xp_ty xp_outty xp_el xp_out WIDTH lane_ity] in Hv1, Hv2 |- *; unfold port_optimized; cbn [xp_run xp_el xp_out lane_ity map];
  apply lem; [pos_tac|pos_tac|reflexivity..|cbn; lia|exact Hv2|idtac].
Ltac up_range := intros y Hy; first [apply widen_same; exact Hy|apply of_int_same; exact Hy|refine (range_up _ _ y _ _ Hy); vm_compute; congruence].

Lemma xupcasts_ok : Forall xupcast_ok x86_upcast_optimized.
Proof.
  unfold x86_upcast_optimized. split_table.
  1,2: xup_tac (up128_lanes _ _ same _ 4%nat); up_range.
  1,2: xup_tac (up128_lanes _ _ same _ 2%nat); up_range.
  1-4: xup_tac (up256_lanes _ _ same _); up_range.
  - xup_tac (up128_lanes _ _ f_widen _ 1%nat); up_range.
  - xup_tac (up128_lanes _ _ f64_of_int _ 1%nat); up_range.
  - xup_tac (up128_lanes _ _ same _ 1%nat); up_range.
  - xup_tac (up128_lanes _ _ same _ 1%nat); up_range.
  - xup_tac (up256_lanes _ _ f_widen _); up_range.
  - xup_tac (up256_lanes _ _ f64_of_int _); up_range.
  - xup_tac (up256_lanes _ _ same _); up_range.
  - xup_tac (up256_lanes _ _ same _); up_range.
Qed.

Lemma c46_upcast_optimized : forall (x : xport) (v : list Z), In x x86_upcast_optimized ->
  int_vector (WIDTH (xp_ty x)) (lane_ity (xp_el x)) v ->
  upcasts (xp_el x) (xp_out x) (WIDTH (xp_outty x)) v (port_optimized x [v]).
Proof.
  intros x v Hx Hv. pose proof xupcasts_ok as H. rewrite Forall_forall in H. destruct (H x Hx) as (H1 & H0 & H2 & H3). rewrite (H3 v Hv). destruct Hv as [Hv1 Hv2]. unfold zlen in Hv1.
  do 2 eexists. split; [reflexivity|]. unfold zlen. rewrite !map_length, firstn_length, skipn_length. split; [lia|split; [lia|]]. rewrite <- map_app, firstn_skipn.
  apply Forall2_map_r. intros y Hy. rewrite Forall_forall in Hv2. apply (widens_sound (fun z => z)); auto.
Qed.

(** ** abs *)

Lemma wrap_same_size : forall t u x, ibytes t = ibytes u -> wrap u (wrap t x) = wrap u x.
Proof.
  intros t u x H. assert (E : imod t = imod u) by (unfold imod; rewrite H; reflexivity). pose proof (imod_pos u). apply wrap_eq; [lia|]. rewrite <- E. apply wrap_mod. lia.
Qed.

Lemma abs_in : forall t u x, ibytes t = ibytes u -> (0 < ibytes t)%nat -> isigned t = true -> isigned u = false -> in_ity t x -> in_ity u (Z.abs x).
Proof.
  intros t u x H Hp Ht Hu Hx. assert (E : imod t = imod u) by (unfold imod; rewrite H; reflexivity). pose proof (imod_even t Hp) as [M1 M2].
  unfold in_ity, imin, imax in *. rewrite Ht in Hx. rewrite Hu. lia.
Qed.

Lemma f_abs_absolute : forall e x, match e with EInt _ => False | _ => True end -> in_ity (lane_ity e) x -> absolute e x (f_abs e x) /\ in_ity (lane_ity e) (f_abs e x).
Proof.
  intros e x He Hx. destruct e as [t| |]; [contradiction| |].
  - change (0 <= x <= 4294967295) in Hx. unfold f_abs, absolute, sign_bit, exponent_field, fraction_field.
    change (f_m fmt32 + f_e fmt32) with 31. change (f_m fmt32) with 23. change (f_e fmt32) with 8. change (8 * Z.of_nat (ibytes (lane_ity EF32)) - 1) with 31.
    change (in_ity (lane_ity EF32) (x mod 2 ^ 31)) with (0 <= x mod 2 ^ 31 <= 4294967295).
    change (2 ^ 31) with 2147483648. change (2 ^ 23) with 8388608. change (2 ^ 8) with 256. repeat split; lia.
  - change (0 <= x <= 18446744073709551615) in Hx. unfold f_abs, absolute, sign_bit, exponent_field, fraction_field.
    change (f_m fmt64 + f_e fmt64) with 63. change (f_m fmt64) with 52. change (f_e fmt64) with 11. change (8 * Z.of_nat (ibytes (lane_ity EF64)) - 1) with 63.
    change (in_ity (lane_ity EF64) (x mod 2 ^ 63)) with (0 <= x mod 2 ^ 63 <= 18446744073709551615).
    change (2 ^ 63) with 9223372036854775808. change (2 ^ 52) with 4503599627370496. change (2 ^ 11) with 2048. repeat split; lia.
Qed.

Definition abs_types (e e' : elty) : Prop :=
  match e, e' with
  | EInt t, EInt u => ibytes t = ibytes u /\ (0 < ibytes t)%nat /\ isigned t = true /\ isigned u = false
  | EF32, EF32 => True
  | EF64, EF64 => True
  | _, _ => False
  end.

Definition abs_ops (e e' : elty) : list pop :=
  match e, e' with EInt t, EInt u => [POverflowingAbs; PTransmute t u] | _, _ => [PFAbs] end.

Definition abs_of (e : elty) (x : Z) : Z := match e with EInt _ => Z.abs x | _ => f_abs e x end.

Lemma abs_sound : forall narrow e e' x, abs_types e e' -> in_ity (lane_ity e) x ->
  apply_pops narrow e x (abs_ops e e') = Some (e', abs_of e x) /\ absolute e x (abs_of e x) /\ in_ity (lane_ity e') (abs_of e x).
Proof.
  intros narrow e e' x H Hx. destruct e as [t| |], e' as [u| |]; cbn [abs_types] in H; try contradiction.
  - destruct H as (H1 & H2 & H3 & H4). cbn [lane_ity] in *. cbn [abs_ops apply_pops abs_of absolute]. pose proof (abs_in t u x H1 H2 H3 H4 Hx) as Hi.
    rewrite wrap_same_size by exact H1. rewrite wrap_id by exact Hi. auto.
  - split; [reflexivity|]. apply f_abs_absolute; [exact I|exact Hx].
  - split; [reflexivity|]. apply f_abs_absolute; [exact I|exact Hx].
Qed.

Definition abs_ok (p : port_impl) : Prop :=
  concat (pt_body p) = positions 1 (Z.to_nat (WIDTH (pt_ty p))) (abs_ops (pt_el p) (pt_out p)) /\ length (pt_body p) = 1%nat /\ abs_types (pt_el p) (pt_out p).

Ltac abs_types_tac := first [exact I|split; [reflexivity|split; [apply Nat.ltb_lt; reflexivity|split; reflexivity]]].

Lemma abss_ok : Forall abs_ok (x86_abs ++ unknown_abs).
Proof.
  apply Forall_app. split; [unfold x86_abs|unfold unknown_abs]; split_table; (split; [vm_compute; reflexivity|split; [reflexivity|abs_types_tac]]).
Qed.

Lemma c49_abs_portable : forall (narrow : Z -> Z) (p : port_impl) (v : list Z), In p (x86_abs ++ unknown_abs) ->
  int_vector (WIDTH (pt_ty p)) (lane_ity (pt_el p)) v ->
  exists r, port_portable narrow p [v] = Ok [r] /\ Forall2 (absolute (pt_el p)) v r /\ Forall (in_ity (lane_ity (pt_out p))) r.
Proof.
  intros narrow p v Hp [Hv1 Hv2]. pose proof abss_ok as H. rewrite Forall_forall in H. destruct (H p Hp) as (H1 & H2 & H3).
  destruct (port_rows narrow p [v] (in_ity (lane_ity (pt_el p))) (abs_of (pt_el p)) (abs_ops (pt_el p) (pt_out p)) H1) as (rs & R1 & R2 & R3).
  - intros x Hx. apply abs_sound; assumption.
  - constructor; [split; assumption|constructor].
  - assert (L : length rs = 1%nat) by (rewrite <- (map_length (@length Z)), R3, map_length; exact H2). destruct rs as [|r [|? ?]]; try discriminate L.
    exists r. split; [exact R1|]. cbn [concat] in R2. rewrite !app_nil_r in R2. subst r. rewrite Forall_forall in Hv2. split.
    + apply Forall2_map_r. intros x Hx. apply (abs_sound narrow _ (pt_out p)); auto.
    + apply Forall_map, Forall_forall. intros x Hx. apply (abs_sound narrow _ (pt_out p)); auto.
Qed.

Lemma land_bytes : forall n x y, zipw Z.land (to_bytes n x) (to_bytes n y) = to_bytes n (Z.land x y).
Proof.
  induction n as [|n IH]; intros x y; [reflexivity|]. cbn [to_bytes zipw]. rewrite IH. change 256 with (2 ^ 8). rewrite <- !Z.land_ones, <- !Z.shiftr_div_pow2, Z.shiftr_land by lia. f_equal.
  apply Z.bits_inj'. intros k Hk. rewrite !Z.land_spec. destruct (Z.testbit x k), (Z.testbit y k), (Z.testbit (Z.ones 8) k); reflexivity.
Qed.

Lemma pand_lanes : forall t a b, length a = length b -> pand (bytes_of t a) (bytes_of t b) = bytes_of t (zipw Z.land a b).
Proof.
  intros t. unfold pand. induction a as [|x a IH]; intros [|y b] H; try discriminate H; [reflexivity|]. injection H as H. cbn [zipw]. unfold bytes_of in *. cbn [flat_map]. rewrite <- (IH b H), <- land_bytes.
  generalize (flat_map (to_bytes (ibytes t)) a) as ra. generalize (flat_map (to_bytes (ibytes t)) b) as rb. clear IH H. generalize (ibytes t) as n. intros n. revert x y.
  induction n as [|n IH]; intros x y rb ra; [reflexivity|]. cbn [to_bytes app zipw]. rewrite IH. reflexivity.
Qed.

Lemma zipw_repeat : forall (g : Z -> Z -> Z) m v, zipw g v (repeat m (length v)) = map (fun x => g x m) v.
Proof. intros g m. induction v as [|x v IH]; [reflexivity|]. cbn. rewrite IH. reflexivity. Qed.

Lemma abs_mask_lanes : forall e v n, match e with EInt _ => False | _ => True end -> length v = n -> pand (bytes_of (lane_ity e) v) (abs_mask (lane_ity e) n) = bytes_of (lane_ity e) (map (f_abs e) v).
Proof.
  intros e v n He <-. unfold abs_mask. rewrite pand_lanes by (rewrite repeat_length; reflexivity). rewrite zipw_repeat. f_equal. apply map_ext. intros x. destruct e as [t| |]; [contradiction| |]; unfold f_abs.
  - change (imod (lane_ity EF32) / 2 - 1) with (Z.ones 31). rewrite Z.land_ones by lia. reflexivity.
  - change (imod (lane_ity EF64) / 2 - 1) with (Z.ones 63). rewrite Z.land_ones by lia. reflexivity.
Qed.

Definition xabs_ok (x : xport) : Prop :=
  abs_types (xp_el x) (xp_out x) /\ forall v, int_vector (WIDTH (xp_ty x)) (lane_ity (xp_el x)) v -> port_optimized x [v] = [map (abs_of (xp_el x)) v].

Lemma xabs_float : forall x n, match xp_el x with EInt _ => False | _ => True end -> xp_out x = xp_el x ->
  xp_run x = on1 (fun a => [pand a (abs_mask (lane_ity (xp_el x)) n)]) -> WIDTH (xp_ty x) = Z.of_nat n -> xabs_ok x.
Proof.
  intros x n He Ho Hr Hw. split; [rewrite Ho; destruct (xp_el x); [contradiction|exact I|exact I]|]. intros v [Hv1 Hv2]. unfold port_optimized. rewrite Hr, Ho. unfold on1. cbn [map nth]. f_equal.
  rewrite abs_mask_lanes; [|exact He|unfold zlen in Hv1; lia]. rewrite lanes_of_bytes_of.
  - apply map_ext. intros y. destruct (xp_el x); [contradiction|reflexivity|reflexivity].
  - destruct (xp_el x); [contradiction|apply Nat.ltb_lt; reflexivity|apply Nat.ltb_lt; reflexivity].
  - apply Forall_map. eapply Forall_impl; [|exact Hv2]. intros y Hy. apply f_abs_absolute; assumption.
Qed.

Lemma xabs_int : forall x t u, xp_el x = EInt t -> xp_out x = EInt u -> abs_types (EInt t) (EInt u) -> xp_run x = on1 (fun a => [pabs t a]) -> xabs_ok x.
Proof.
  intros x t u He Ho Ht Hr. split; [rewrite He, Ho; exact Ht|]. intros v [Hv1 Hv2]. rewrite He in *. cbn [lane_ity] in Hv2. destruct Ht as (H1 & H2 & H3 & H4). unfold port_optimized. rewrite Hr, He, Ho. unfold on1. cbn [map nth lane_ity]. f_equal.
  unfold pabs. rewrite lanes_of_bytes_of by assumption. rewrite lanes_of_cast by assumption. rewrite map_map. apply map_ext_in. intros y Hy. rewrite Forall_forall in Hv2. apply wrap_id. apply (abs_in t u); auto.
Qed.

Lemma xabss_ok : Forall xabs_ok x86_abs_optimized.
Proof.
  unfold x86_abs_optimized. split_table;
  first [eapply xabs_float; [exact I|reflexivity|reflexivity|reflexivity]|eapply xabs_int; [reflexivity|reflexivity|abs_types_tac|reflexivity]].
Qed.

Lemma c49_abs_optimized : forall (x : xport) (v : list Z), In x x86_abs_optimized ->
  int_vector (WIDTH (xp_ty x)) (lane_ity (xp_el x)) v ->
  exists r, port_optimized x [v] = [r] /\ Forall2 (absolute (xp_el x)) v r /\ Forall (in_ity (lane_ity (xp_out x))) r.
Proof.
  intros x v Hx Hv. pose proof xabss_ok as H. rewrite Forall_forall in H. destruct (H x Hx) as [H1 H2]. rewrite (H2 v Hv). eexists. split; [reflexivity|]. destruct Hv as [_ Hv]. rewrite Forall_forall in Hv. split.
  - apply Forall2_map_r. intros y Hy. apply (abs_sound (fun z => z) _ (xp_out x)); auto.
  - apply Forall_map, Forall_forall. intros y Hy. apply (abs_sound (fun z => z) _ (xp_out x)); auto.
Qed.

(** ** saturating_downcast *)

Definition down_ops (t : ity) : list pop :=
  if isigned t then [PMin (imax t); PMax (imin t); PAs (EInt t)] else [PMin (imax t); PAs (EInt t)].

Definition downcast_ok (p : port_impl) : Prop :=
  length (pt_body p) = 1%nat /\
  match pt_el p, pt_out p with
  | EInt t, EInt t' => isigned t = isigned t' /\ (0 < ibytes t')%nat /\ concat (pt_body p) = positions 2 (Z.to_nat (WIDTH (pt_ty p))) (down_ops t')
  | EF64, EF32 => concat (pt_body p) = positions 2 (Z.to_nat (WIDTH (pt_ty p))) [PAs EF32]
  | _, _ => False
  end.

Lemma downcasts_ok : Forall (fun p => is_u64 (pt_el p) = false -> downcast_ok p) (x86_downcast ++ unknown_downcast).
Proof.
  apply Forall_app. split; [unfold x86_downcast|unfold unknown_downcast]; split_table; intros H; try discriminate H; (split; [reflexivity|]);
  cbn [pt_el pt_out]; first [vm_compute; reflexivity|split; [reflexivity|split; [apply Nat.ltb_lt; reflexivity|vm_compute; reflexivity]]].
Qed.

Lemma down_ops_clamp : forall narrow t t' x, isigned t = isigned t' -> (0 < ibytes t')%nat -> in_ity t x -> apply_pops narrow (EInt t) x (down_ops t') = Some (EInt t', clamp t' x).
Proof.
  intros narrow t t' x Hs Hp Hx. pose proof (imin_le_imax t' Hp) as Hm. unfold down_ops. destruct (isigned t') eqn:S; cbn [apply_pops cast].
  - do 2 f_equal. replace (Z.max (Z.min x (imax t')) (imin t')) with (clamp t' x) by (unfold clamp; lia). apply wrap_id, in_clamp, Hp.
  - assert (0 <= x) by (unfold in_ity, imin in Hx; rewrite Hs in Hx; lia). assert (imin t' = 0) by (unfold imin; rewrite S; reflexivity).
    do 2 f_equal. replace (Z.min x (imax t')) with (clamp t' x) by (unfold clamp; lia). apply wrap_id, in_clamp, Hp.
Qed.

Lemma downcast_rows : forall narrow p a b (F : Z -> Z) ops, length (pt_body p) = 1%nat -> concat (pt_body p) = positions 2 (Z.to_nat (WIDTH (pt_ty p))) ops ->
  int_vector (WIDTH (pt_ty p)) (lane_ity (pt_el p)) a -> int_vector (WIDTH (pt_ty p)) (lane_ity (pt_el p)) b ->
  (forall x, in_ity (lane_ity (pt_el p)) x -> apply_pops narrow (pt_el p) x ops = Some (pt_out p, F x)) ->
  port_portable narrow p [a; b] = Ok [map F (a ++ b)].
Proof.
  intros narrow p a b F ops Hl Hb Ha Hb' HF. destruct (port_rows narrow p [a; b] _ F ops Hb HF) as (rs & R1 & R2 & R3); [constructor; [exact Ha|constructor; [exact Hb'|constructor]]|].
  assert (L : length rs = 1%nat) by (rewrite <- (map_length (@length Z)), R3, map_length; exact Hl). destruct rs as [|r [|? ?]]; try discriminate L. cbn [concat] in R2. rewrite !app_nil_r in R2. rewrite R1, R2. reflexivity.
Qed.

Lemma c47_downcast_portable_partial : forall (narrow : Z -> Z) (p : port_impl) (a b : list Z), In p (x86_downcast ++ unknown_downcast) -> is_u64 (pt_el p) = false ->
  int_vector (WIDTH (pt_ty p)) (lane_ity (pt_el p)) a -> int_vector (WIDTH (pt_ty p)) (lane_ity (pt_el p)) b ->
  port_portable narrow p [a; b] = Ok [map (match pt_out p with EInt t => clamp t | _ => narrow end) (a ++ b)].
Proof.
  intros narrow p a b Hp Hn Ha Hb. pose proof downcasts_ok as H. rewrite Forall_forall in H. destruct (H p Hp Hn) as (H1 & H2).
  destruct (pt_el p) as [t| |] eqn:Ee, (pt_out p) as [t'| |] eqn:Eo; try contradiction.
  - destruct H2 as (H2 & H3 & H4). apply (downcast_rows narrow p a b (clamp t') (down_ops t') H1 H4); rewrite ?Ee; [exact Ha|exact Hb|]. rewrite Eo. intros x Hx. apply down_ops_clamp; assumption.
  - apply (downcast_rows narrow p a b narrow [PAs EF32] H1 H2); rewrite ?Ee; [exact Ha|exact Hb|]. rewrite Eo. intros x Hx. reflexivity.
Qed.

Lemma wrap_min : forall x n, 0 <= n <= 4294967295 -> 0 <= x -> wrap u32 (Z.min x n) = Z.min x n.
Proof. intros x n Hn Hx. apply wrap_id. change (0 <= Z.min x n <= 4294967295). lia. Qed.

Lemma u64_results : forall narrow p a b, In p (x86_downcast ++ unknown_downcast) -> is_u64 (pt_el p) = true ->
  int_vector (WIDTH (pt_ty p)) (lane_ity (pt_el p)) a -> int_vector (WIDTH (pt_ty p)) (lane_ity (pt_el p)) b ->
  exists r, port_portable narrow p [a; b] = Ok [r ++ map (fun x => Z.min x 2147483647) b] /\ Forall2 (fun x y => y = Z.min x 4294967295 \/ y = Z.min x 2147483647) a r /\ pt_out p = EInt u32 /\ pt_el p = EInt u64.
Proof.
  intros narrow p a b Hp Hu Ha Hb. assert (T : pt_ty p = mkVty 2 8 \/ pt_ty p = mkVty 4 8).
  { assert (G : Forall (fun p => is_u64 (pt_el p) = true -> pt_ty p = mkVty 2 8 \/ pt_ty p = mkVty 4 8) (x86_downcast ++ unknown_downcast)) by (apply Forall_app; split; [unfold x86_downcast|unfold unknown_downcast]; split_table; intros H; first [discriminate H|left; reflexivity|right; reflexivity]).
    rewrite Forall_forall in G. exact (G p Hp Hu). }
  assert (G : Forall (fun p => is_u64 (pt_el p) = true -> forall a b, int_vector (WIDTH (pt_ty p)) u64 a -> int_vector (WIDTH (pt_ty p)) u64 b ->
    exists r, port_portable narrow p [a; b] = Ok [r ++ map (fun x => Z.min x 2147483647) b] /\ Forall2 (fun x y => y = Z.min x 4294967295 \/ y = Z.min x 2147483647) a r /\ pt_out p = EInt u32 /\ pt_el p = EInt u64) (x86_downcast ++ unknown_downcast)).
  { clear p a b Hp Hu Ha Hb T. assert (Pos : forall x, in_ity u64 x -> 0 <= x) by (intros x Hx; exact (proj1 Hx)).
    apply Forall_app; split; [unfold x86_downcast|unfold unknown_downcast]; split_table; intros Hu; try discriminate Hu; clear Hu; intros a b [La Ra] [Lb Rb]; cbn [pt_ty WIDTH] in La, Lb.
    1,3: destruct (list2 _ a La) as (a0 & a1 & ->); destruct (list2 _ b Lb) as (b0 & b1 & ->); rewrite !Forall_cons_iff in Ra, Rb; destruct Ra as (A0 & A1 & _); destruct Rb as (B0 & B1 & _);
      exists [Z.min a0 4294967295; Z.min a1 2147483647]; (split; [cbv -[wrap Z.min u32]; rewrite !wrap_min by (try lia; auto); reflexivity|]);
      (split; [repeat constructor; tauto|split; reflexivity]).
    all: destruct (list4 _ a La) as (a0 & a1 & a2 & a3 & ->); destruct (list4 _ b Lb) as (b0 & b1 & b2 & b3 & ->); rewrite !Forall_cons_iff in Ra, Rb; destruct Ra as (A0 & A1 & A2 & A3 & _); destruct Rb as (B0 & B1 & B2 & B3 & _);
      exists [Z.min a0 4294967295; Z.min a1 2147483647; Z.min a2 4294967295; Z.min a3 2147483647]; (split; [cbv -[wrap Z.min u32]; rewrite !wrap_min by (try lia; auto); reflexivity|]);
      (split; [repeat constructor; tauto|split; reflexivity]). }
  rewrite Forall_forall in G. apply (G p Hp Hu); destruct (pt_el p) as [t| |]; try discriminate Hu; cbn [lane_ity] in *; assert (Et : t = u64) by (destruct t as [s n]; cbn in Hu; destruct s; [discriminate Hu|]; cbn in Hu; apply Nat.eqb_eq in Hu; subst n; reflexivity); subst t; assumption.
Qed.

Lemma c47_downcast_u64_partial : forall (narrow : Z -> Z) (p : port_impl) (a b : list Z), In p (x86_downcast ++ unknown_downcast) -> is_u64 (pt_el p) = true ->
  int_vector (WIDTH (pt_ty p)) (lane_ity (pt_el p)) a -> int_vector (WIDTH (pt_ty p)) (lane_ity (pt_el p)) b ->
  Forall (fun x => x <= 2147483647) (a ++ b) -> port_portable narrow p [a; b] = Ok [map (clamp u32) (a ++ b)].
Proof.
  intros narrow p a b Hp Hu Ha Hb Hs. destruct (u64_results narrow p a b Hp Hu Ha Hb) as (r & R1 & R2 & _ & R3). rewrite R1. rewrite R3 in Ha, Hb. cbn [lane_ity] in Ha, Hb. destruct Ha as [_ Ha]. destruct Hb as [_ Hb]. do 2 f_equal. rewrite map_app. apply Forall_app in Hs. destruct Hs as [Hs1 Hs2].
  assert (C : forall x, in_ity u64 x -> clamp u32 x = Z.min x 4294967295) by (intros x Hx; change (0 <= x <= 18446744073709551615) in Hx; change (clamp u32 x) with (Z.max 0 (Z.min 4294967295 x)); lia). f_equal.
  - clear R1 R3 Hb Hs2 Hu Hp. induction R2 as [|x y a' r' Hxy _ IH]; [reflexivity|]. inversion Ha; subst. inversion Hs1; subst. cbn [map]. rewrite <- IH by assumption. f_equal. rewrite C by assumption. lia.
  - apply map_ext_in. intros x Hx. rewrite Forall_forall in Hb, Hs2. rewrite C by auto. specialize (Hs2 x Hx). cbv beta in Hs2. lia.
Qed.

Lemma c47_downcast_u64_refuted : forall (narrow : Z -> Z) (p : port_impl) (a b : list Z) (i x : Z), In p (x86_downcast ++ unknown_downcast) -> is_u64 (pt_el p) = true ->
  int_vector (WIDTH (pt_ty p)) (lane_ity (pt_el p)) a -> int_vector (WIDTH (pt_ty p)) (lane_ity (pt_el p)) b ->
  znth b i = Some x -> 2147483647 < x ->
  exists r, port_portable narrow p [a; b] = Ok [r] /\ znth r (zlen a + i) = Some 2147483647 /\ 2147483647 < clamp u32 x.
Proof.
  intros narrow p a b i x Hp Hu Ha Hb Hx Hl. destruct (u64_results narrow p a b Hp Hu Ha Hb) as (r & R1 & R2 & _ & R3). exists (r ++ map (fun x => Z.min x 2147483647) b). split; [exact R1|].
  assert (L : length a = length r) by (clear - R2; induction R2; cbn; lia). assert (0 <= i) by (unfold znth in Hx; destruct (i <? 0) eqn:C; [discriminate Hx|lia]). split.
  - unfold znth in *. replace (zlen a + i <? 0) with false by (unfold zlen; lia). replace (i <? 0) with false in Hx by lia. rewrite nth_error_app2 by (unfold zlen; lia).
    replace (Z.to_nat (zlen a + i) - length r)%nat with (Z.to_nat i) by (unfold zlen; lia). rewrite nth_error_map, Hx. cbn [option_map]. f_equal. lia.
  - change (clamp u32 x) with (Z.max 0 (Z.min 4294967295 x)). lia.
Qed.

Lemma pack_lanes : forall s t1 t2 a b, ibytes s = ibytes t1 -> (0 < ibytes t1)%nat -> pack t1 t2 (bytes_of s a) (bytes_of s b) = bytes_of t2 (map (fun x => clamp t2 (wrap t1 x)) (a ++ b)).
Proof. intros s t1 t2 a b Hs Hp. unfold pack. rewrite !lanes_of_cast by (rewrite ?Hs; auto). rewrite <- map_app, map_map. reflexivity. Qed.

Lemma pack256_lanes : forall s t1 t2 n a b, ibytes s = ibytes t1 -> (0 < ibytes t1)%nat -> (n * ibytes s = 16)%nat ->
  pack256 t1 t2 (bytes_of s a) (bytes_of s b) = bytes_of t2 (map (fun x => clamp t2 (wrap t1 x)) ((firstn n a ++ firstn n b) ++ skipn n a ++ skipn n b)).
Proof. intros s t1 t2 n a b Hs Hp Hn. unfold pack256, per_half2. rewrite <- Hn, !bytes_of_firstn, !bytes_of_skipn, !pack_lanes by assumption. rewrite <- bytes_of_app, <- map_app. reflexivity. Qed.

Lemma lanes_clamped : forall t (g : Z -> Z) l, (0 < ibytes t)%nat -> lanes_of t (bytes_of t (map (fun x => clamp t (g x)) l)) = map (fun x => clamp t (g x)) l.
Proof. intros t g l H. apply lanes_of_bytes_of; [exact H|]. apply Forall_map, Forall_forall. intros x _. apply in_clamp, H. Qed.

(** The signed type of the same size: how the instruction reads a lane. *)
Definition signed_of (e : elty) : ity := mkIty true (ibytes (lane_ity e)).

Definition xdown128_ok (x : xport) : Prop := forall a b,
  port_optimized x [a; b] = [map (fun y => clamp (lane_ity (xp_out x)) (wrap (signed_of (xp_el x)) y)) (a ++ b)].

Definition xdown256_ok (x : xport) : Prop := forall a b,
  port_optimized x [a; b] = [map (fun y => clamp (lane_ity (xp_out x)) (wrap (signed_of (xp_el x)) y))
    ((firstn (Z.to_nat (WIDTH (xp_ty x) / 2)) a ++ firstn (Z.to_nat (WIDTH (xp_ty x) / 2)) b) ++ skipn (Z.to_nat (WIDTH (xp_ty x) / 2)) a ++ skipn (Z.to_nat (WIDTH (xp_ty x) / 2)) b)].

Ltac xdown128_tac := intros a b; unfold port_optimized, on2; cbn [xp_run xp_el xp_out lane_ity map nth]; rewrite pack_lanes by (try reflexivity; apply Nat.ltb_lt; reflexivity); rewrite lanes_clamped by (apply Nat.ltb_lt; reflexivity); reflexivity.
Ltac xdown256_tac n := intros a b; unfold port_optimized, on2; cbn [xp_run xp_el xp_out lane_ity map nth]; rewrite (pack256_lanes _ _ _ n) by (try reflexivity; apply Nat.ltb_lt; reflexivity); rewrite lanes_clamped by (apply Nat.ltb_lt; reflexivity); reflexivity.

Lemma xdowncasts_ok : Forall (fun x => (xp_feat x = "avx2"%string -> xdown256_ok x) /\ (xp_feat x <> "avx2"%string -> xdown128_ok x) /\
  isigned (lane_ity (xp_el x)) = isigned (lane_ity (xp_out x)) /\ (0 < ibytes (lane_ity (xp_el x)))%nat /\ (0 < ibytes (lane_ity (xp_out x)))%nat /\ imax (lane_ity (xp_out x)) < imod (lane_ity (xp_el x)) / 2) x86_downcast_optimized.
Proof.
  unfold x86_downcast_optimized. split_table; (split; [intros H; try discriminate H; clear H|split; [intros H; try (exfalso; apply H; reflexivity); clear H|split; [reflexivity|split; [apply Nat.ltb_lt; reflexivity|split; [apply Nat.ltb_lt; reflexivity|vm_compute; reflexivity]]]]]).
  1-4: xdown128_tac.
  1,3: xdown256_tac 4%nat.
  all: xdown256_tac 8%nat.
Qed.

Lemma c47_downcast_optimized_partial : forall (x : xport) (a b : list Z), In x x86_downcast_optimized -> xp_feat x <> "avx2"%string ->
  int_vector (WIDTH (xp_ty x)) (lane_ity (xp_el x)) a -> int_vector (WIDTH (xp_ty x)) (lane_ity (xp_el x)) b ->
  (isigned (lane_ity (xp_el x)) = false -> Forall (fun y => y < imod (lane_ity (xp_el x)) / 2) (a ++ b)) ->
  port_optimized x [a; b] = [map (clamp (lane_ity (xp_out x))) (a ++ b)].
Proof.
  intros x a b Hx Hf [_ Ha] [_ Hb] Hs. pose proof xdowncasts_ok as H. rewrite Forall_forall in H. destruct (H x Hx) as (_ & H2 & H3 & H4 & H5 & _). rewrite (H2 Hf a b). f_equal. apply map_ext_in. intros y Hy. f_equal. apply wrap_id.
  assert (Hy1 : in_ity (lane_ity (xp_el x)) y) by (assert (G : Forall (in_ity (lane_ity (xp_el x))) (a ++ b)) by (apply Forall_app; split; assumption); rewrite Forall_forall in G; auto).
  assert (E : imod (signed_of (xp_el x)) = imod (lane_ity (xp_el x))) by reflexivity. unfold in_ity, imin, imax in *. cbn [isigned signed_of]. rewrite E. pose proof (imod_even (lane_ity (xp_el x)) H4).
  destruct (isigned (lane_ity (xp_el x))) eqn:S; [lia|]. specialize (Hs eq_refl). rewrite Forall_forall in Hs. specialize (Hs y Hy). cbv beta in Hs. lia.
Qed.

Lemma c47_downcast_unsigned_refuted : forall (x : xport) (a b : list Z) (i y : Z), In x x86_downcast_optimized -> xp_feat x <> "avx2"%string ->
  isigned (lane_ity (xp_el x)) = false -> int_vector (WIDTH (xp_ty x)) (lane_ity (xp_el x)) a -> int_vector (WIDTH (xp_ty x)) (lane_ity (xp_el x)) b ->
  znth (a ++ b) i = Some y -> imod (lane_ity (xp_el x)) / 2 <= y ->
  exists r, port_optimized x [a; b] = [r] /\ znth r i = Some 0 /\ clamp (lane_ity (xp_out x)) y = imax (lane_ity (xp_out x)) /\ 0 < imax (lane_ity (xp_out x)).
Proof.
  intros x a b i y Hx Hf Hu [_ Ha] [_ Hb] Hi Hy. pose proof xdowncasts_ok as H. rewrite Forall_forall in H. destruct (H x Hx) as (_ & H2 & H3 & H4 & H5 & H6). rewrite (H2 Hf a b). eexists. split; [reflexivity|].
  assert (Hy1 : in_ity (lane_ity (xp_el x)) y).
  { assert (G : Forall (in_ity (lane_ity (xp_el x))) (a ++ b)) by (apply Forall_app; split; assumption). rewrite Forall_forall in G. apply G. unfold znth in Hi. destruct (i <? 0); [discriminate Hi|]. eapply nth_error_In. exact Hi. }
  pose proof (imod_even (lane_ity (xp_el x)) H4) as M. pose proof (imin_le_imax (lane_ity (xp_out x)) H5) as M2.
  assert (M3 : imin (lane_ity (xp_out x)) = 0) by (unfold imin; rewrite <- H3, Hu; reflexivity). pose proof (imod_even (lane_ity (xp_out x)) H5) as M4.
  assert (M5 : 0 < imax (lane_ity (xp_out x))) by (unfold imax; rewrite <- H3, Hu; lia). split; [|split; [unfold clamp; lia|exact M5]].
  unfold znth in *. destruct (i <? 0); [discriminate Hi|]. rewrite nth_error_map, Hi. cbn [option_map]. f_equal.
  assert (W : wrap (signed_of (xp_el x)) y = y - imod (lane_ity (xp_el x))).
  { assert (E : imod (signed_of (xp_el x)) = imod (lane_ity (xp_el x))) by reflexivity. unfold in_ity, imin, imax in Hy1. rewrite Hu in Hy1.
    transitivity (wrap (signed_of (xp_el x)) (y - imod (lane_ity (xp_el x)))).
    - apply wrap_eq; [lia|]. rewrite E. rewrite <- (Z_mod_plus_full (y - imod (lane_ity (xp_el x))) 1). f_equal. lia.
    - apply wrap_id. unfold in_ity, imin, imax. cbn [isigned signed_of]. rewrite E. lia. }
  rewrite W. unfold in_ity, imin, imax in Hy1. rewrite Hu in Hy1. unfold clamp. lia.
Qed.

Lemma c47_downcast_256_refuted : forall (x : xport) (a b : list Z), In x x86_downcast_optimized -> xp_feat x = "avx2"%string ->
  let h := Z.to_nat (WIDTH (xp_ty x) / 2) in
  int_vector (WIDTH (xp_ty x)) (lane_ity (xp_out x)) a -> int_vector (WIDTH (xp_ty x)) (lane_ity (xp_out x)) b -> skipn h a <> firstn h b ->
  port_optimized x [a; b] = [(firstn h a ++ firstn h b) ++ skipn h a ++ skipn h b] /\
  map (clamp (lane_ity (xp_out x))) (a ++ b) = a ++ b /\ port_optimized x [a; b] <> [a ++ b].
Proof.
  intros x a b Hx Hf h [La Ha] [Lb Hb] Hd. pose proof xdowncasts_ok as H. rewrite Forall_forall in H. destruct (H x Hx) as (H1 & _ & H3 & H4 & H5 & H6). rewrite (H1 Hf a b). fold h.
  assert (Hh : WIDTH (xp_ty x) = 2 * (WIDTH (xp_ty x) / 2)) by (clear - Hx; assert (G : Forall (fun x => WIDTH (xp_ty x) = 2 * (WIDTH (xp_ty x) / 2)) x86_downcast_optimized) by (unfold x86_downcast_optimized; split_table; reflexivity); rewrite Forall_forall in G; exact (G x Hx)).
  assert (C : forall y, in_ity (lane_ity (xp_out x)) y -> clamp (lane_ity (xp_out x)) y = y) by (intros y Hy; unfold in_ity in Hy; unfold clamp; lia).
  assert (W : forall y, in_ity (lane_ity (xp_out x)) y -> clamp (lane_ity (xp_out x)) (wrap (signed_of (xp_el x)) y) = y).
  { intros y Hy. rewrite wrap_id; [apply C; exact Hy|]. assert (E : imod (signed_of (xp_el x)) = imod (lane_ity (xp_el x))) by reflexivity. pose proof (imod_even (lane_ity (xp_el x)) H4) as M1. pose proof (imod_even (lane_ity (xp_out x)) H5) as M2.
    unfold in_ity, imin, imax in *. cbn [isigned signed_of]. rewrite E. destruct (isigned (lane_ity (xp_out x))); lia. }
  assert (A1 : forall l, Forall (in_ity (lane_ity (xp_out x))) l -> map (fun y => clamp (lane_ity (xp_out x)) (wrap (signed_of (xp_el x)) y)) l = l).
  { intros l Hl. rewrite <- (map_id l) at 2. apply map_ext_in. intros y Hy. rewrite Forall_forall in Hl. apply W, Hl, Hy. }
  rewrite A1 by (rewrite !Forall_app; auto using Forall_firstn, Forall_skipn). split; [reflexivity|]. split.
  - rewrite <- (map_id (a ++ b)) at 2. apply map_ext_in. intros y Hy. apply C. apply in_app_or in Hy. rewrite Forall_forall in Ha, Hb. destruct Hy; auto.
  - intros E. injection E as E. apply Hd. unfold zlen in La, Lb. rewrite <- (firstn_skipn h a) in E at 3. rewrite <- !app_assoc in E. apply app_inv_head in E.
    rewrite <- (firstn_skipn h b) in E at 3. apply (f_equal (firstn h)) in E. rewrite !firstn_app in E. rewrite !firstn_length, !skipn_length in E. replace (h - (length b - h))%nat with 0%nat in E by lia. replace (h - Nat.min h (length b))%nat with 0%nat in E by lia. replace (h - (length a - h))%nat with 0%nat in E by lia.
    cbn [firstn] in E. rewrite !app_nil_r, firstn_firstn, Nat.min_id in E. rewrite (firstn_all2 (skipn h a)) in E by (rewrite skipn_length; lia). symmetry. exact E.
Qed.

(** ** destride *)

Definition pick (n k : Z) (v : list Z) : list Z := map (fun i => nth (Z.to_nat (n * Z.of_nat i + k)) v 0) (seq 0 (Z.to_nat (zlen v / n))).

Lemma nth_znth : forall (l : list Z) i x, znth l i = Some x -> 0 <= i < zlen l /\ nth (Z.to_nat i) l 0 = x.
Proof.
  intros l i x H. unfold znth in H. destruct (i <? 0) eqn:C; [discriminate H|]. assert (L : (Z.to_nat i < length l)%nat) by (apply nth_error_Some; rewrite H; discriminate). unfold zlen. split; [lia|]. apply nth_error_nth. exact H.
Qed.

Lemma pick_every : forall n k h v, 0 < n -> 0 <= k < n -> zlen v = n * h -> every_nth n k v (pick n k v).
Proof.
  intros n k h v Hn Hk Hv. assert (D : zlen v / n = h) by (rewrite Hv, Z.mul_comm; apply Z_div_mult; lia). assert (0 <= h) by (unfold zlen in Hv; nia). unfold every_nth, pick. rewrite D. unfold zlen at 1. rewrite map_length, seq_length. split; [rewrite Z2Nat.id by lia; lia|].
  intros i x Hi Hx. apply nth_znth in Hx. destruct Hx as [Hx <-]. assert (i < h) by nia. unfold znth. replace (i <? 0) with false by lia. rewrite nth_error_map, (nth_error_nth' _ 0%nat) by (rewrite seq_length; lia). cbn [option_map]. rewrite seq_nth by lia. do 3 f_equal. lia.
Qed.

Lemma every_app : forall n k v w r s, 0 < n -> 0 <= k < n -> every_nth n k v r -> every_nth n k w s -> every_nth n k (v ++ w) (r ++ s).
Proof.
  intros n k v w r s Hn Hk [H1 H2] [H3 H4]. split; [unfold zlen in *; rewrite !app_length; lia|]. intros i x Hi Hx. assert (C : i < zlen r \/ zlen r <= i) by lia. unfold zlen in *. destruct C as [C|C].
  - assert (n * i + k < Z.of_nat (length v)) by nia. assert (G : znth r i = Some x).
    { apply H2; [lia|]. unfold znth in *. destruct (n * i + k <? 0); [discriminate Hx|]. rewrite nth_error_app1 in Hx by lia. exact Hx. }
    unfold znth in *. destruct (i <? 0); [discriminate G|]. rewrite nth_error_app1 by lia. exact G.
  - assert (Z.of_nat (length v) <= n * i) by nia. assert (G : znth s (i - Z.of_nat (length r)) = Some x).
    { apply H4; [lia|]. unfold znth in *. replace (n * i + k <? 0) with false in Hx by lia. rewrite nth_error_app2 in Hx by lia. replace (n * (i - Z.of_nat (length r)) + k) with (n * i + k - Z.of_nat (length v)) by lia.
      replace (n * i + k - Z.of_nat (length v) <? 0) with false by lia. rewrite <- Hx. f_equal. lia. }
    unfold znth in *. replace (i <? 0) with false by lia. replace (i - Z.of_nat (length r) <? 0) with false in G by lia. rewrite nth_error_app2 by lia. rewrite <- G. f_equal. lia.
Qed.

Lemma gather_pick : forall W n k h idx vs, 0 < n -> 0 <= k < n -> W = n * Z.of_nat h -> idx = map (fun i => n * Z.of_nat i) (seq 0 h) -> Forall (fun v => zlen v = W) vs ->
  gather W k idx vs = Ok (flat_map (pick n k) vs).
Proof.
  intros W n k h idx vs Hn Hk HW -> H. induction H as [|v vs Hv _ IH]; [reflexivity|]. cbn [gather flat_map]. rewrite IH.
  assert (E : extract_every W k (map (fun i => n * Z.of_nat i) (seq 0 h)) v = Ok (pick n k v)); [|rewrite E; reflexivity].
  unfold extract_every. rewrite (in_order_ok _ _ _ (fun j => nth (Z.to_nat (j + k)) v 0)).
  - unfold pick. rewrite map_map. do 2 f_equal. f_equal. rewrite Hv, HW, Z.mul_comm, Z_div_mult by lia. rewrite Nat2Z.id. reflexivity.
  - apply Forall_forall. intros j Hj. apply in_map_iff in Hj. destruct Hj as (i & <- & Hi). apply in_seq in Hi. assert (n * Z.of_nat i + k < W) by nia. unfold extract. replace (n * Z.of_nat i + k <? W) with true by lia.
    unfold znth. replace (n * Z.of_nat i + k <? 0) with false by nia. unfold zlen in Hv. rewrite (nth_error_nth' _ 0) by lia. reflexivity.
Qed.

Definition destride_ok (d : destride_impl) : Prop := exists h, WIDTH (d_ty d) = 4 * Z.of_nat h /\
  d_two d = map (fun i => 2 * Z.of_nat i) (seq 0 (2 * h)) /\ d_four d = map (fun i => 4 * Z.of_nat i) (seq 0 h).

Lemma destrides_ok : Forall destride_ok (x86_destride ++ unknown_destride).
Proof.
  apply Forall_app. split; [unfold x86_destride|unfold unknown_destride]; split_table;
  first [exists 8%nat; split; [reflexivity|split; vm_compute; reflexivity]|exists 4%nat; split; [reflexivity|split; vm_compute; reflexivity]|exists 2%nat; split; [reflexivity|split; vm_compute; reflexivity]|exists 1%nat; split; [reflexivity|split; vm_compute; reflexivity]].
Qed.

Lemma c48_destride_two_portable : forall (d : destride_impl) (a b : list Z), In d (x86_destride ++ unknown_destride) -> zlen a = WIDTH (d_ty d) -> zlen b = WIDTH (d_ty d) ->
  exists r0 r1, destride_two_portable d a b = Ok [r0; r1] /\ every_nth 2 0 (a ++ b) r0 /\ every_nth 2 1 (a ++ b) r1.
Proof.
  intros d a b Hd Ha Hb. pose proof destrides_ok as H. rewrite Forall_forall in H. destruct (H d Hd) as (h & H1 & H2 & _). unfold destride_two_portable. cbn [in_order].
  rewrite !(gather_pick _ 2 _ (2 * h)%nat) by (try lia; try exact H2; repeat constructor; assumption). cbn [bind flat_map]. rewrite !app_nil_r. do 2 eexists. split; [reflexivity|].
  split; apply every_app; try lia; apply (pick_every _ _ (2 * Z.of_nat h)); lia.
Qed.

Lemma c48_destride_four : forall (d : destride_impl) (a b e f : list Z), In d (x86_destride ++ unknown_destride) ->
  zlen a = WIDTH (d_ty d) -> zlen b = WIDTH (d_ty d) -> zlen e = WIDTH (d_ty d) -> zlen f = WIDTH (d_ty d) ->
  exists r0 r1 r2 r3, destride_four_portable d a b e f = Ok [r0; r1; r2; r3] /\ every_nth 4 0 (a ++ b ++ e ++ f) r0 /\ every_nth 4 1 (a ++ b ++ e ++ f) r1 /\
    every_nth 4 2 (a ++ b ++ e ++ f) r2 /\ every_nth 4 3 (a ++ b ++ e ++ f) r3.
Proof.
  intros d a b e f Hd Ha Hb He Hf. pose proof destrides_ok as H. rewrite Forall_forall in H. destruct (H d Hd) as (h & H1 & _ & H2). unfold destride_four_portable. cbn [in_order].
  rewrite !(gather_pick _ 4 _ h) by (try lia; try exact H2; repeat constructor; assumption). cbn [bind flat_map]. rewrite !app_nil_r. do 4 eexists. split; [reflexivity|].
  split; [|split; [|split]]; repeat (apply every_app; try lia); apply (pick_every _ _ (Z.of_nat h)); lia.
Qed.

Lemma single_vector : forall W (a : list Z), zlen a = W -> vector_of (mkVty W 1) (map (fun x => [x]) a).
Proof.
  intros W a Ha. unfold vector_of. cbn [WIDTH SIZE]. unfold zlen. rewrite map_length. split; [exact Ha|]. apply Forall_map, Forall_forall. intros x _. reflexivity.
Qed.

Lemma concat_single : forall l : list Z, concat (map (fun x => [x]) l) = l.
Proof. induction l as [|x l IH]; [reflexivity|]. cbn. rewrite IH. reflexivity. Qed.

Lemma merge_bytes : forall c vec W a b, (vec = "i8x16"%string /\ W = 16 \/ (vec = "u8x32"%string \/ vec = "i8x32"%string) /\ W = 32) -> zlen a = W -> zlen b = W ->
  merge_halves_bytes c vec a b = Ok (firstn (Z.to_nat (W / 2)) a ++ skipn (Z.to_nat (W / 2)) b).
Proof.
  intros c vec W a b Hv Ha Hb. assert (F : exists m, find (fun m => String.eqb (mi_name m) vec) x86_merges = Some m /\ mi_ty m = mkVty W 1 /\ can_blend m = true).
  { destruct Hv as [[-> ->]|[[->| ->] ->]]; eexists; (split; [vm_compute; reflexivity|split; reflexivity]). }
  destruct F as (m & F & Ht & Hc). unfold merge_halves_bytes. rewrite F. apply find_some in F. destruct F as [Hm _]. cbv zeta.
  pose proof (single_vector W a Ha) as Va. pose proof (single_vector W b Hb) as Vb. rewrite <- Ht in Va, Vb.
  assert (G : concat (firstn (Z.to_nat (WIDTH (mi_ty m) / 2)) (map (fun x => [x]) a) ++ skipn (Z.to_nat (WIDTH (mi_ty m) / 2)) (map (fun x => [x]) b)) = firstn (Z.to_nat (W / 2)) a ++ skipn (Z.to_nat (W / 2)) b)
    by (rewrite Ht; cbn [WIDTH]; rewrite firstn_map, skipn_map, concat_app, !concat_single; reflexivity).
  destruct (blend c).
  - destruct (c37_merge_blend c m _ _ Hm Hc Va Vb) as [E _]. rewrite E, G. reflexivity.
  - destruct (c37_merge_portable c m _ _ (in_or_app _ _ _ (or_introl Hm)) Va Vb) as [E _]. rewrite E. cbn [bind]. rewrite G. reflexivity.
Qed.

Lemma list16n : forall (A : Type) (v : list A), length v = 16%nat -> exists a b c d e f g h i j k l m n o p, v = [a; b; c; d; e; f; g; h; i; j; k; l; m; n; o; p].
Proof. intros A v H. apply list16. unfold zlen. rewrite H. reflexivity. Qed.

(** The 16 bytes of a register after the first shuffle: even ones, then odd ones. *)
Lemma evens_odds_16 : forall v : list Z, length v = 16%nat -> pshufb v evens_odds = pick 2 0 v ++ pick 2 1 v /\ pshufb v odds_evens = pick 2 1 v ++ pick 2 0 v /\ length (pick 2 0 v) = 8%nat /\ length (pick 2 1 v) = 8%nat.
Proof. intros v H. destruct (list16n _ v H) as (a & b & c & d & e & f & g & h & i & j & k & l & m & n & o & p & ->). repeat split; reflexivity. Qed.

Lemma swapped_16 : forall v : list Z, length v = 16%nat -> pshufb v halves_swapped = skipn 8 v ++ firstn 8 v.
Proof. intros v H. destruct (list16n _ v H) as (a & b & c & d & e & f & g & h & i & j & k & l & m & n & o & p & ->). reflexivity. Qed.

Lemma permute_32 : forall v : list Z, length v = 32%nat ->
  permute4x64 v 216 = firstn 8 v ++ firstn 8 (skipn 16 v) ++ firstn 8 (skipn 8 v) ++ skipn 24 v /\ permute4x64 v 78 = skipn 16 v ++ firstn 16 v.
Proof. intros v H. do 32 (destruct v as [|? v]; [discriminate H|]). destruct v; [split; reflexivity|discriminate H]. Qed.

Lemma pick_app_16 : forall n k h (v w : list Z), 0 < n -> 0 <= k < n -> zlen v = n * h -> pick n k (v ++ w) = pick n k v ++ pick n k w.
Proof.
  intros n k h v w Hn Hk Hv. unfold pick. assert (Hz : zlen (v ++ w) = h * n + zlen w) by (unfold zlen in *; rewrite app_length; lia). rewrite Hz, Z.add_comm, Z_div_plus by lia. rewrite Hv, (Z.mul_comm n h), Z_div_mult by lia.
  assert (0 <= h) by (unfold zlen in Hv; nia). assert (0 <= zlen w / n) by (apply Z_div_pos; unfold zlen; lia). rewrite Z.add_comm, Z2Nat.inj_add, seq_app, map_app by lia. f_equal.
  - apply map_ext_in. intros i Hi. apply in_seq in Hi. apply app_nth1. unfold zlen in Hv. nia.
  - replace (0 + Z.to_nat h)%nat with (Z.to_nat h + 0)%nat by lia. generalize (Z.to_nat (zlen w / n)) as q. intros q.
    transitivity (map (fun i => nth (Z.to_nat (n * Z.of_nat (Z.to_nat h + i) + k)) (v ++ w) 0) (seq 0 q)).
    + generalize 0%nat as s. induction q as [|q IH]; intros s; [reflexivity|]. cbn [seq map]. f_equal. rewrite <- IH. f_equal. f_equal. lia.
    + apply map_ext. intros i. unfold zlen in Hv. rewrite app_nth2 by nia. f_equal. nia.
Qed.

Lemma bytes_of_pick : forall t n k h v, ibytes t = 1%nat -> 0 < n -> 0 <= k < n -> zlen v = n * h -> pick n k (bytes_of t v) = bytes_of t (pick n k v).
Proof.
  intros t n k h v Ht Hn Hk Hv. assert (E : forall l, bytes_of t l = map (fun x => x mod 256) l) by (intros l; unfold bytes_of; rewrite Ht; induction l as [|x l IH]; [reflexivity|]; cbn [flat_map map]; rewrite IH; reflexivity).
  rewrite !E. unfold pick. unfold zlen. rewrite map_length, map_map. apply map_ext. intros i. change 0 with (0 mod 256) at 1. apply (map_nth (fun x => x mod 256)).
Qed.

Lemma pick_in : forall t n k h v, 0 < n -> 0 <= k < n -> zlen v = n * h -> Forall (in_ity t) v -> Forall (in_ity t) (pick n k v).
Proof.
  intros t n k h v Hn Hk Hv H. unfold pick. apply Forall_map, Forall_forall. intros i Hi. apply in_seq in Hi. rewrite Hv, Z.mul_comm, Z_div_mult in Hi by lia. apply (proj1 (Forall_nth _ v) H). unfold zlen in Hv. nia.
Qed.

Lemma firstn_exact : forall (A : Type) n (a b : list A), length a = n -> firstn n (a ++ b) = a.
Proof. intros A n a b <-. rewrite firstn_app, Nat.sub_diag, firstn_all. cbn [firstn]. apply app_nil_r. Qed.

Lemma skipn_exact : forall (A : Type) n (a b : list A), length a = n -> skipn n (a ++ b) = b.
Proof. intros A n a b <-. rewrite skipn_app, Nat.sub_diag, skipn_all. reflexivity. Qed.

Lemma destride_128_bytes : forall c a b, length a = 16%nat -> length b = 16%nat -> destride_two_128 c "i8x16" a b = Ok [pick 2 0 a ++ pick 2 0 b; pick 2 1 a ++ pick 2 1 b].
Proof.
  intros c a b Ha Hb. destruct (evens_odds_16 a Ha) as (A1 & _ & A3 & A4). destruct (evens_odds_16 b Hb) as (_ & B2 & B3 & B4). unfold destride_two_128. rewrite A1, B2.
  rewrite !(merge_bytes c _ 16) by (try (left; split; reflexivity); unfold zlen; rewrite app_length; lia). cbn [bind]. change (Z.to_nat (16 / 2)) with 8%nat.
  rewrite !firstn_exact, !skipn_exact by assumption. rewrite swapped_16 by (rewrite app_length; lia). rewrite firstn_exact, skipn_exact by assumption. reflexivity.
Qed.

Lemma destride_256_bytes : forall c vec a b, vec = "u8x32"%string \/ vec = "i8x32"%string -> length a = 32%nat -> length b = 32%nat ->
  destride_two_256 c vec a b = Ok [pick 2 0 a ++ pick 2 0 b; pick 2 0 b ++ pick 2 0 a].
Proof.
  intros c vec a b Hv Ha Hb.
  assert (La1 : length (firstn 16 a) = 16%nat) by (rewrite firstn_length; lia). assert (La2 : length (skipn 16 a) = 16%nat) by (rewrite skipn_length; lia).
  assert (Lb1 : length (firstn 16 b) = 16%nat) by (rewrite firstn_length; lia). assert (Lb2 : length (skipn 16 b) = 16%nat) by (rewrite skipn_length; lia).
  assert (Pa : pick 2 0 a = pick 2 0 (firstn 16 a) ++ pick 2 0 (skipn 16 a)) by (rewrite <- (firstn_skipn 16 a) at 1; apply (pick_app_16 2 0 8); try lia; unfold zlen; lia).
  assert (Pb : pick 2 0 b = pick 2 0 (firstn 16 b) ++ pick 2 0 (skipn 16 b)) by (rewrite <- (firstn_skipn 16 b) at 1; apply (pick_app_16 2 0 8); try lia; unfold zlen; lia).
  unfold destride_two_256, pshufb256, per_half2. rewrite !(firstn_exact _ 16), !(skipn_exact _ 16) by reflexivity.
  destruct (evens_odds_16 _ La1) as (A1 & _ & A3 & A4). destruct (evens_odds_16 _ La2) as (A1' & _ & A3' & A4'). destruct (evens_odds_16 _ Lb1) as (_ & B2 & B3 & B4). destruct (evens_odds_16 _ Lb2) as (_ & B2' & B3' & B4').
  rewrite A1, A1', B2, B2', Pa, Pb. clear A1 A1' B2 B2' Pa Pb La1 La2 Lb1 Lb2 Ha Hb.
  revert A3 A4 A3' A4' B3 B4 B3' B4'. generalize (pick 2 0 (firstn 16 a)) (pick 2 1 (firstn 16 a)) (pick 2 0 (skipn 16 a)) (pick 2 1 (skipn 16 a)) (pick 2 0 (firstn 16 b)) (pick 2 1 (firstn 16 b)) (pick 2 0 (skipn 16 b)) (pick 2 1 (skipn 16 b)).
  intros e f e' f' g h g' h' L1 L2 L3 L4 L5 L6 L7 L8.
  assert (Q : forall x y x' y' : list Z, length x = 8%nat -> length y = 8%nat -> length x' = 8%nat -> length y' = 8%nat -> permute4x64 ((x ++ y) ++ x' ++ y') 216 = (x ++ x') ++ y ++ y').
  { intros x y x' y' X1 X2 X3 X4. destruct (permute_32 ((x ++ y) ++ x' ++ y')) as [P _]; [rewrite !app_length; lia|]. rewrite P. rewrite (skipn_exact _ 16) by (rewrite app_length; lia). rewrite (firstn_exact _ 8 x') by assumption. rewrite <- !app_assoc.
    rewrite (firstn_exact _ 8 x), (skipn_exact _ 8 x), (firstn_exact _ 8 y) by assumption. do 3 f_equal.
    replace (x ++ y ++ x' ++ y') with ((x ++ y ++ x') ++ y') by (rewrite <- !app_assoc; reflexivity). apply skipn_exact. rewrite !app_length. lia. }
  rewrite !Q by assumption. rewrite !(merge_bytes c _ 32) by (try (right; split; [exact Hv|reflexivity]); unfold zlen; rewrite !app_length; lia). cbn [bind]. change (Z.to_nat (32 / 2)) with 16%nat.
  rewrite !firstn_exact, !skipn_exact by (rewrite app_length; lia). destruct (permute_32 ((e ++ e') ++ g ++ g')) as [_ P]; [rewrite !app_length; lia|]. rewrite P, firstn_exact, skipn_exact by (rewrite app_length; lia). reflexivity.
Qed.

Lemma destride_lanes : forall t h a b, ibytes t = 1%nat -> int_vector (2 * h) t a -> int_vector (2 * h) t b -> forall k, 0 <= k < 2 ->
  lanes_of t (pick 2 k (bytes_of t a) ++ pick 2 k (bytes_of t b)) = pick 2 k a ++ pick 2 k b.
Proof.
  intros t h a b Ht [La Ra] [Lb Rb] k Hk. rewrite !(bytes_of_pick t 2 k h) by (try assumption; lia). rewrite <- bytes_of_app. apply lanes_of_bytes_of; [lia|]. apply Forall_app. split; apply (pick_in t 2 k h); try assumption; lia.
Qed.

Lemma c48_destride_two_128 : forall (c : config) (x : xdestride) (a b : list Z), In x x86_destride_128 -> int_vector (WIDTH (xd_ty x)) (xd_el x) a -> int_vector (WIDTH (xd_ty x)) (xd_el x) b ->
  exists r0 r1, destride_two_optimized c x a b = Ok [r0; r1] /\ every_nth 2 0 (a ++ b) r0 /\ every_nth 2 1 (a ++ b) r1.
Proof.
  intros c x a b Hx Ha Hb. exists (pick 2 0 a ++ pick 2 0 b), (pick 2 1 a ++ pick 2 1 b).
  assert (T : ibytes (xd_el x) = 1%nat /\ WIDTH (xd_ty x) = 2 * 8 /\ xd_run x c (bytes_of (xd_el x) a) (bytes_of (xd_el x) b) = destride_two_128 c "i8x16" (bytes_of (xd_el x) a) (bytes_of (xd_el x) b)) by (destruct Hx as [<-|[<-|[]]]; repeat split).
  destruct T as (T1 & T2 & T3). rewrite T2 in Ha, Hb. assert (La : zlen a = 2 * 8) by apply Ha. assert (Lb : zlen b = 2 * 8) by apply Hb. split; [|split; apply every_app; try lia; apply (pick_every _ _ 8); lia].
  unfold destride_two_optimized. rewrite T3, destride_128_bytes by (rewrite bytes_of_len, T1; unfold zlen in *; lia). cbn [bind map]. rewrite !(destride_lanes _ 8) by (try assumption; lia). reflexivity.
Qed.

Lemma c48_destride_two_256_refuted : forall (c : config) (x : xdestride) (a b : list Z) (u v : Z), In x x86_destride_256 -> int_vector (WIDTH (xd_ty x)) (xd_el x) a -> int_vector (WIDTH (xd_ty x)) (xd_el x) b ->
  znth a 1 = Some u -> znth b 0 = Some v -> u <> v ->
  exists r0 r1, destride_two_optimized c x a b = Ok [r0; r1] /\ every_nth 2 0 (a ++ b) r0 /\ r1 = skipn 16 r0 ++ firstn 16 r0 /\ ~ every_nth 2 1 (a ++ b) r1.
Proof.
  intros c x a b u v Hx Ha Hb Hu Hv Huv. exists (pick 2 0 a ++ pick 2 0 b), (pick 2 0 b ++ pick 2 0 a).
  assert (T : ibytes (xd_el x) = 1%nat /\ WIDTH (xd_ty x) = 2 * 16 /\ exists vec, (vec = "u8x32"%string \/ vec = "i8x32"%string) /\ xd_run x c (bytes_of (xd_el x) a) (bytes_of (xd_el x) b) = destride_two_256 c vec (bytes_of (xd_el x) a) (bytes_of (xd_el x) b)).
  { destruct Hx as [<-|[<-|[]]]; (split; [reflexivity|split; [reflexivity|]]); [exists "u8x32"%string|exists "i8x32"%string]; auto. }
  destruct T as (T1 & T2 & vec & Tv & T3). rewrite T2 in Ha, Hb. assert (La : zlen a = 2 * 16) by apply Ha. assert (Lb : zlen b = 2 * 16) by apply Hb.
  assert (Pa : every_nth 2 0 a (pick 2 0 a)) by (apply (pick_every _ _ 16); lia). assert (Pb : every_nth 2 0 b (pick 2 0 b)) by (apply (pick_every _ _ 16); lia). split; [|split; [apply every_app; try lia; assumption|split]].
  - unfold destride_two_optimized. rewrite T3, destride_256_bytes by (try exact Tv; rewrite bytes_of_len, T1; unfold zlen in *; lia). cbn [bind map]. rewrite !(destride_lanes _ 16) by (try assumption; lia). reflexivity.
  - destruct Pa as [Pa _]. rewrite firstn_exact, skipn_exact by (unfold zlen in *; lia). reflexivity.
  - intros [_ H]. destruct Pb as [Pb1 Pb2]. specialize (Pb2 0 v ltac:(lia) Hv). specialize (H 0 u ltac:(lia)). change (2 * 0 + 1) with 1 in H.
    assert (G : znth (a ++ b) 1 = Some u) by (unfold znth in *; cbn [Z.ltb Z.compare] in *; rewrite nth_error_app1 by (unfold zlen in La; lia); exact Hu). specialize (H G).
    unfold znth in H, Pb2. cbn [Z.ltb Z.compare] in H, Pb2. rewrite nth_error_app1 in H by (unfold zlen in *; lia). congruence.
Qed.
