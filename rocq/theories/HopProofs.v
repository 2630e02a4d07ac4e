(** Proofs of the properties: horizontal operations (C41, C40). *)
From Coq Require Import String.
From Verif Require Import Base Spec VecSpec Vecs Lanes X86 X86Reg OpTables OpSpec Ops PortTables Hops.
Open Scope list_scope.
Open Scope Z_scope.
From Coq Require Import Lia ZifyBool ZifyNat.
From Verif Require Import ListFacts VecFacts FloatFacts VecProofs PatternProofs ShuffleProofs OpProofs.
Ltac Zify.zify_post_hook ::= Z.div_mod_to_equations.

Lemma pair_ind : forall (A : Type) (P : list A -> Prop), P [] -> (forall x, P [x]) -> (forall x y l, P l -> P (x :: y :: l)) -> forall l, P l.
Proof.
  intros A P H0 H1 H2 l. assert (G : P l /\ forall x, P (x :: l)); [|apply G]. induction l as [|x l [IH1 IH2]]; [split; [exact H0|exact H1]|].
  split; [apply IH2|]. intros y. apply H2. exact IH1.
Qed.

Lemma znth_two : forall (A : Type) (x y : A) l i, 0 <= i -> znth (x :: y :: l) (2 * (i + 1)) = znth l (2 * i) /\ znth (x :: y :: l) (2 * (i + 1) + 1) = znth l (2 * i + 1).
Proof.
  intros A x y l i H. split; rewrite (znth_app A [x; y] l) by lia; unfold zlen; cbn [length]; [destruct (2 * (i + 1) <? Z.of_nat 2) eqn:E|destruct (2 * (i + 1) + 1 <? Z.of_nat 2) eqn:E]; try lia; f_equal; lia.
Qed.

Lemma each_pair_cons : forall P x y l, each_pair P (x :: y :: l) <-> P x y /\ each_pair P l.
Proof.
  intros P x y l. split.
  - intros H. split; [apply (H 0); [lia|reflexivity|reflexivity]|]. intros i u v Hi Hu Hv. destruct (znth_two Z x y l i Hi) as [E1 E2].
    apply (H (i + 1)); [lia|rewrite E1; exact Hu|rewrite E2; exact Hv].
  - intros [H1 H2] i u v Hi Hu Hv. destruct (Z.eq_dec i 0) as [->|Hn].
    + cbn in Hu, Hv. inversion Hu; inversion Hv; subst. exact H1.
    + destruct (znth_two Z x y l (i - 1) ltac:(lia)) as [E1 E2]. replace (i - 1 + 1) with i in E1, E2 by lia. rewrite E1 in Hu. rewrite E2 in Hv. apply (H2 (i - 1)); [lia|assumption|assumption].
Qed.

Lemma horizontal_riffle : forall g n a b, length a = (2 * n)%nat -> length b = (2 * n)%nat -> horizontal g a b (riffle (pairs g a) (pairs g b)).
Proof.
  intros g. induction n as [|n IH]; intros a b Ha Hb.
  - destruct a; [|discriminate]. destruct b; [|discriminate]. split; [reflexivity|]. intros i x y u v Hi Hx. unfold znth in Hx. destruct (2 * i <? 0); [discriminate|]. destruct (Z.to_nat (2 * i)); discriminate.
  - destruct a as [|a0 [|a1 a]]; try (cbn in Ha; lia). destruct b as [|b0 [|b1 b]]; try (cbn in Hb; lia).
    destruct (IH a b ltac:(cbn in Ha; lia) ltac:(cbn in Hb; lia)) as [IH1 IH2]. cbn [pairs riffle]. split; [unfold zlen in *; cbn [length] in *; lia|].
    intros i x y u v Hi Hx Hy Hu Hv. destruct (Z.eq_dec i 0) as [->|Hn].
    + cbn in Hx, Hy, Hu, Hv. inversion Hx; inversion Hy; inversion Hu; inversion Hv; subst. split; reflexivity.
    + replace i with (i - 1 + 1) in Hx, Hy, Hu, Hv |- * by lia. destruct (znth_two Z a0 a1 a (i - 1) ltac:(lia)) as [E1 E2]. destruct (znth_two Z b0 b1 b (i - 1) ltac:(lia)) as [E3 E4].
      destruct (znth_two Z (g a0 a1) (g b0 b1) (riffle (pairs g a) (pairs g b)) (i - 1) ltac:(lia)) as [E5 E6].
      rewrite E1 in Hx. rewrite E2 in Hy. rewrite E3 in Hu. rewrite E4 in Hv. rewrite E5, E6. apply (IH2 (i - 1) x y u v); assumption || lia.
Qed.

Lemma horizontal_ext : forall g h a b r, each_pair (fun x y => g x y = h x y) a -> each_pair (fun x y => g x y = h x y) b -> horizontal g a b r -> horizontal h a b r.
Proof.
  intros g h a b r Ha Hb [H1 H2]. split; [exact H1|]. intros i x y u v Hi Hx Hy Hu Hv. destruct (H2 i x y u v Hi Hx Hy Hu Hv) as [E1 E2].
  rewrite <- (Ha i x y Hi Hx Hy), <- (Hb i u v Hi Hu Hv). split; assumption.
Qed.

(** The pairs seen in order, the first of [self] then the first of [other]. *)
Lemma hop_pairs_seq : forall c o f g a b n pa pb ra rb, a = pa ++ ra -> b = pb ++ rb -> length pa = length pb -> length ra = (2 * n)%nat -> length rb = (2 * n)%nat ->
  zlen a <= WIDTH (h_ty o) -> zlen b <= WIDTH (h_ty o) ->
  each_pair (fun x y => f x y = Some (Ok (g x y))) ra -> each_pair (fun x y => f x y = Some (Ok (g x y))) rb ->
  hop_pairs c o f a b (map Z.of_nat (seq (length pa) (2 * n))) = Ok (riffle (pairs g ra) (pairs g rb)).
Proof.
  intros c o f g a b. induction n as [|n IH]; intros pa pb ra rb Ea Eb Hp H1 H2 Hwa Hwb Hfa Hfb; [destruct ra; [destruct rb; [reflexivity|discriminate]|discriminate]|].
  destruct ra as [|x0 [|x1 ra]]; try (cbn in H1; lia). destruct rb as [|y0 [|y1 rb]]; try (cbn in H2; lia).
  apply each_pair_cons in Hfa, Hfb. destruct Hfa as [Hf1 Hfa]. destruct Hfb as [Hf2 Hfb].
  replace (2 * S n)%nat with (S (S (2 * n))) by lia. cbn [seq map hop_pairs pairs riffle].
  assert (X0 : extract (WIDTH (h_ty o)) a (Z.of_nat (length pa)) = Ok x0) by (subst a; apply extract_prefix; exact Hwa).
  assert (Y0 : extract (WIDTH (h_ty o)) b (Z.of_nat (length pa)) = Ok y0) by (rewrite Hp; subst b; apply extract_prefix; exact Hwb).
  assert (X1 : extract (WIDTH (h_ty o)) a (Z.of_nat (S (length pa))) = Ok x1).
  { subst a. replace (S (length pa)) with (length (pa ++ [x0])) by (rewrite app_length; cbn; lia). replace (pa ++ x0 :: x1 :: ra) with ((pa ++ [x0]) ++ x1 :: ra) in * by (rewrite <- app_assoc; reflexivity). apply extract_prefix; exact Hwa. }
  assert (Y1 : extract (WIDTH (h_ty o)) b (Z.of_nat (S (length pa))) = Ok y1).
  { subst b. rewrite Hp. replace (S (length pb)) with (length (pb ++ [y0])) by (rewrite app_length; cbn; lia). replace (pb ++ y0 :: y1 :: rb) with ((pb ++ [y0]) ++ y1 :: rb) in * by (rewrite <- app_assoc; reflexivity). apply extract_prefix; exact Hwb. }
  rewrite X0. cbn [bind]. rewrite X1. cbn [bind]. rewrite Hf1. cbn [bind]. rewrite Y0. cbn [bind]. rewrite Y1. cbn [bind]. rewrite Hf2. cbn [bind].
  specialize (IH (pa ++ [x0; x1]) (pb ++ [y0; y1]) ra rb). rewrite !app_length in IH. cbn [length] in IH. replace (length pa + 2)%nat with (S (S (length pa))) in IH by lia.
  rewrite IH; [reflexivity|subst a; rewrite <- app_assoc; reflexivity|subst b; rewrite <- app_assoc; reflexivity|lia|cbn in H1; lia|cbn in H2; lia|exact Hwa|exact Hwb|exact Hfa|exact Hfb].
Qed.

(** If some pair makes the scalar function panic, and no pair does anything else than
    succeed or panic, the whole operation panics. *)
Lemma hop_pairs_panic : forall c o f a b n pa pb ra rb, a = pa ++ ra -> b = pb ++ rb -> length pa = length pb -> length ra = (2 * n)%nat -> length rb = (2 * n)%nat ->
  zlen a <= WIDTH (h_ty o) -> zlen b <= WIDTH (h_ty o) -> (forall x y, f x y = Some Panic \/ exists z, f x y = Some (Ok z)) ->
  ~ (each_pair (fun x y => f x y <> Some Panic) ra /\ each_pair (fun x y => f x y <> Some Panic) rb) ->
  hop_pairs c o f a b (map Z.of_nat (seq (length pa) (2 * n))) = Panic.
Proof.
  intros c o f a b. induction n as [|n IH]; intros pa pb ra rb Ea Eb Hp H1 H2 Hwa Hwb Hf Hn.
  - exfalso. apply Hn. destruct ra; [|discriminate]. destruct rb; [|discriminate]. split; intros i x y Hi Hx; unfold znth in Hx; destruct (2 * i <? 0); try discriminate; destruct (Z.to_nat (2 * i)); discriminate.
  - destruct ra as [|x0 [|x1 ra]]; try (cbn in H1; lia). destruct rb as [|y0 [|y1 rb]]; try (cbn in H2; lia).
    rewrite !each_pair_cons in Hn. replace (2 * S n)%nat with (S (S (2 * n))) by lia. cbn [seq map hop_pairs].
    assert (X0 : extract (WIDTH (h_ty o)) a (Z.of_nat (length pa)) = Ok x0) by (subst a; apply extract_prefix; exact Hwa).
    assert (Y0 : extract (WIDTH (h_ty o)) b (Z.of_nat (length pa)) = Ok y0) by (rewrite Hp; subst b; apply extract_prefix; exact Hwb).
    assert (X1 : extract (WIDTH (h_ty o)) a (Z.of_nat (S (length pa))) = Ok x1).
    { subst a. replace (S (length pa)) with (length (pa ++ [x0])) by (rewrite app_length; cbn; lia). replace (pa ++ x0 :: x1 :: ra) with ((pa ++ [x0]) ++ x1 :: ra) in * by (rewrite <- app_assoc; reflexivity). apply extract_prefix; exact Hwa. }
    assert (Y1 : extract (WIDTH (h_ty o)) b (Z.of_nat (S (length pa))) = Ok y1).
    { subst b. rewrite Hp. replace (S (length pb)) with (length (pb ++ [y0])) by (rewrite app_length; cbn; lia). replace (pb ++ y0 :: y1 :: rb) with ((pb ++ [y0]) ++ y1 :: rb) in * by (rewrite <- app_assoc; reflexivity). apply extract_prefix; exact Hwb. }
    rewrite X0. cbn [bind]. rewrite X1. cbn [bind]. destruct (Hf x0 x1) as [E|[z E]]; rewrite E; cbn [bind]; [reflexivity|].
    rewrite Y0. cbn [bind]. rewrite Y1. cbn [bind]. destruct (Hf y0 y1) as [E'|[z' E']]; rewrite E'; cbn [bind]; [reflexivity|].
    specialize (IH (pa ++ [x0; x1]) (pb ++ [y0; y1]) ra rb). rewrite !app_length in IH. cbn [length] in IH. replace (length pa + 2)%nat with (S (S (length pa))) in IH by lia.
    rewrite IH; [reflexivity|subst a; rewrite <- app_assoc; reflexivity|subst b; rewrite <- app_assoc; reflexivity|lia|cbn in H1; lia|cbn in H2; lia|exact Hwa|exact Hwb|exact Hf|].
    intros [G1 G2]. apply Hn. repeat split; try assumption; congruence.
Qed.

Definition hop_check (o : hop_impl) : bool :=
  (0 <? WIDTH (h_ty o)) && (WIDTH (h_ty o) mod 2 =? 0) && Nat.ltb 0 (ibytes (lane_ity (h_el o))) &&
  (if list_eq_dec Z.eq_dec (h_idx o) (map Z.of_nat (seq 0 (Z.to_nat (WIDTH (h_ty o))))) then true else false).

Lemma hops_checked : forallb hop_check (x86_hadd ++ unknown_hadd ++ x86_hsub ++ unknown_hsub ++ x86_saturating_hadd ++ unknown_saturating_hadd ++ x86_saturating_hsub ++ unknown_saturating_hsub) = true.
Proof. vm_compute. reflexivity. Qed.

Lemma hop_checked : forall o tab, incl tab (x86_hadd ++ unknown_hadd ++ x86_hsub ++ unknown_hsub ++ x86_saturating_hadd ++ unknown_saturating_hadd ++ x86_saturating_hsub ++ unknown_saturating_hsub) ->
  In o tab -> exists n, WIDTH (h_ty o) = 2 * Z.of_nat n /\ (0 < ibytes (lane_ity (h_el o)))%nat /\ h_idx o = map Z.of_nat (seq 0 (2 * n)).
Proof.
  intros o tab Hi Ho. pose proof hops_checked as H. rewrite forallb_forall in H. specialize (H o (Hi o Ho)). unfold hop_check in H. rewrite !andb_true_iff in H.
  destruct H as (((H1 & H2) & H3) & H4). apply list_dec_true in H4. apply Nat.ltb_lt in H3. exists (Z.to_nat (WIDTH (h_ty o) / 2)). split; [lia|]. split; [exact H3|].
  rewrite H4. do 2 f_equal. lia.
Qed.

Lemma hop_total : forall fadd fsub c o g a b n, WIDTH (h_ty o) = 2 * Z.of_nat n -> h_idx o = map Z.of_nat (seq 0 (2 * n)) -> zlen a = WIDTH (h_ty o) -> zlen b = WIDTH (h_ty o) ->
  each_pair (fun x y => scalar_hop fadd fsub c o x y = Some (Ok (g x y))) a -> each_pair (fun x y => scalar_hop fadd fsub c o x y = Some (Ok (g x y))) b ->
  exists r, hop_portable fadd fsub c o a b = Ok r /\ horizontal g a b r.
Proof.
  intros fadd fsub c o g a b n Hw Hi Ha Hb Hfa Hfb. exists (riffle (pairs g a) (pairs g b)). unfold zlen in *. split.
  - unfold hop_portable. rewrite Hi. apply (hop_pairs_seq c o _ g a b n [] [] a b); try reflexivity; try assumption; unfold zlen; lia.
  - apply (horizontal_riffle g n); lia.
Qed.

Lemma incl_tab1 : incl (x86_hadd ++ unknown_hadd) (x86_hadd ++ unknown_hadd ++ x86_hsub ++ unknown_hsub ++ x86_saturating_hadd ++ unknown_saturating_hadd ++ x86_saturating_hsub ++ unknown_saturating_hsub).
Proof. intros o H. rewrite !in_app_iff in *. tauto. Qed.

Lemma incl_tab2 : incl (x86_hsub ++ unknown_hsub) (x86_hadd ++ unknown_hadd ++ x86_hsub ++ unknown_hsub ++ x86_saturating_hadd ++ unknown_saturating_hadd ++ x86_saturating_hsub ++ unknown_saturating_hsub).
Proof. intros o H. rewrite !in_app_iff in *. tauto. Qed.

Lemma incl_tab3 : incl (x86_saturating_hadd ++ unknown_saturating_hadd) (x86_hadd ++ unknown_hadd ++ x86_hsub ++ unknown_hsub ++ x86_saturating_hadd ++ unknown_saturating_hadd ++ x86_saturating_hsub ++ unknown_saturating_hsub).
Proof. intros o H. rewrite !in_app_iff in *. tauto. Qed.

Lemma incl_tab4 : incl (x86_saturating_hsub ++ unknown_saturating_hsub) (x86_hadd ++ unknown_hadd ++ x86_hsub ++ unknown_hsub ++ x86_saturating_hadd ++ unknown_saturating_hadd ++ x86_saturating_hsub ++ unknown_saturating_hsub).
Proof. intros o H. rewrite !in_app_iff in *. tauto. Qed.

Lemma op_named : forall tab (P : hop_impl -> bool), forallb P tab = true -> forall o, In o tab -> P o = true.
Proof. intros tab P H o Ho. rewrite forallb_forall in H. apply H. exact Ho. Qed.

Lemma add_named : forall o, In o (x86_hadd ++ unknown_hadd) -> h_op o = "Add::add"%string.
Proof. intros o H. apply String.eqb_eq. revert o H. apply op_named. vm_compute. reflexivity. Qed.

Lemma sub_named : forall o, In o (x86_hsub ++ unknown_hsub) -> h_op o = "Sub::sub"%string.
Proof. intros o H. apply String.eqb_eq. revert o H. apply op_named. vm_compute. reflexivity. Qed.

Lemma iarith_cases : forall c t r, iarith c t r = Panic \/ exists z, iarith c t r = Ok z.
Proof. intros c t r. unfold iarith. destruct ((imin t <=? r) && (r <=? imax t)); [right; eauto|]. destruct (build c); eauto. Qed.

Lemma iarith_wrap : forall c t r, build c = Release \/ in_ity t r -> iarith c t r = Ok (wrap t r).
Proof.
  intros c t r [H|H]; [apply iarith_release; exact H|]. unfold iarith. unfold in_ity in H. destruct ((imin t <=? r) && (r <=? imax t)) eqn:E; [|lia].
  rewrite wrap_id by exact H. reflexivity.
Qed.

Lemma iarith_debug_overflow : forall c t r, build c = Debug -> (iarith c t r = Panic <-> ~ in_ity t r).
Proof.
  intros c t r H. unfold iarith, in_ity. rewrite H. destruct ((imin t <=? r) && (r <=? imax t)) eqn:E; split; intros G; try discriminate; try reflexivity; try lia.
Qed.

Lemma each_pair_mono : forall (P Q : Z -> Z -> Prop) a, (forall x y, P x y -> Q x y) -> each_pair P a -> each_pair Q a.
Proof. intros P Q a H G i x y Hi Hx Hy. apply H. apply (G i); assumption. Qed.

Lemma each_pair_all : forall (P : Z -> Z -> Prop) a, (forall x y, P x y) -> each_pair P a.
Proof. intros P a H i x y _ _ _. apply H. Qed.

Lemma c41_hadd : forall (fadd fsub : elty -> Z -> Z -> Z) (c : config) (o : hop_impl) (a b : list Z), In o (x86_hadd ++ unknown_hadd) ->
  zlen a = WIDTH (h_ty o) -> zlen b = WIDTH (h_ty o) ->
  (forall t, h_el o = EInt t -> build c = Debug -> each_pair (fun x y => in_ity t (x + y)) a /\ each_pair (fun x y => in_ity t (x + y)) b) ->
  exists r, hop_portable fadd fsub c o a b = Ok r /\
    horizontal (fun x y => match h_el o with EInt t => wrap t (x + y) | e => fadd e x y end) a b r.
Proof.
  intros fadd fsub c o a b Ho Ha Hb Hov. destruct (hop_checked o _ incl_tab1 Ho) as (n & Hw & _ & Hi). apply (hop_total fadd fsub c o _ a b n Hw Hi Ha Hb).
  - unfold scalar_hop. rewrite (add_named o Ho). destruct (h_el o) as [t| |]; [|apply each_pair_all; reflexivity|apply each_pair_all; reflexivity].
    destruct (build c) eqn:E; [|apply each_pair_all; intros x y; cbn [String.eqb]; cbn; rewrite iarith_wrap by (left; exact E); reflexivity].
    destruct (Hov t eq_refl eq_refl) as [H _]. revert H. apply each_pair_mono. intros x y H. cbn. rewrite iarith_wrap by (right; exact H). reflexivity.
  - unfold scalar_hop. rewrite (add_named o Ho). destruct (h_el o) as [t| |]; [|apply each_pair_all; reflexivity|apply each_pair_all; reflexivity].
    destruct (build c) eqn:E; [|apply each_pair_all; intros x y; cbn [String.eqb]; cbn; rewrite iarith_wrap by (left; exact E); reflexivity].
    destruct (Hov t eq_refl eq_refl) as [_ H]. revert H. apply each_pair_mono. intros x y H. cbn. rewrite iarith_wrap by (right; exact H). reflexivity.
Qed.

Lemma c41_hsub : forall (fadd fsub : elty -> Z -> Z -> Z) (c : config) (o : hop_impl) (a b : list Z), In o (x86_hsub ++ unknown_hsub) ->
  zlen a = WIDTH (h_ty o) -> zlen b = WIDTH (h_ty o) ->
  (forall t, h_el o = EInt t -> build c = Debug -> each_pair (fun x y => in_ity t (x - y)) a /\ each_pair (fun x y => in_ity t (x - y)) b) ->
  exists r, hop_portable fadd fsub c o a b = Ok r /\
    horizontal (fun x y => match h_el o with EInt t => wrap t (x - y) | e => fsub e x y end) a b r.
Proof.
  intros fadd fsub c o a b Ho Ha Hb Hov. destruct (hop_checked o _ incl_tab2 Ho) as (n & Hw & _ & Hi). apply (hop_total fadd fsub c o _ a b n Hw Hi Ha Hb).
  - unfold scalar_hop. rewrite (sub_named o Ho). destruct (h_el o) as [t| |]; [|apply each_pair_all; reflexivity|apply each_pair_all; reflexivity].
    destruct (build c) eqn:E; [|apply each_pair_all; intros x y; cbn [String.eqb]; cbn; rewrite iarith_wrap by (left; exact E); reflexivity].
    destruct (Hov t eq_refl eq_refl) as [H _]. revert H. apply each_pair_mono. intros x y H. cbn. rewrite iarith_wrap by (right; exact H). reflexivity.
  - unfold scalar_hop. rewrite (sub_named o Ho). destruct (h_el o) as [t| |]; [|apply each_pair_all; reflexivity|apply each_pair_all; reflexivity].
    destruct (build c) eqn:E; [|apply each_pair_all; intros x y; cbn [String.eqb]; cbn; rewrite iarith_wrap by (left; exact E); reflexivity].
    destruct (Hov t eq_refl eq_refl) as [_ H]. revert H. apply each_pair_mono. intros x y H. cbn. rewrite iarith_wrap by (right; exact H). reflexivity.
Qed.

Lemma c41_overflow_panics : forall (fadd fsub : elty -> Z -> Z -> Z) (c : config) (o : hop_impl) (t : ity) (a b : list Z), build c = Debug -> h_el o = EInt t ->
  zlen a = WIDTH (h_ty o) -> zlen b = WIDTH (h_ty o) ->
  (In o (x86_hadd ++ unknown_hadd) -> ~ (each_pair (fun x y => in_ity t (x + y)) a /\ each_pair (fun x y => in_ity t (x + y)) b) -> hop_portable fadd fsub c o a b = Panic) /\
  (In o (x86_hsub ++ unknown_hsub) -> ~ (each_pair (fun x y => in_ity t (x - y)) a /\ each_pair (fun x y => in_ity t (x - y)) b) -> hop_portable fadd fsub c o a b = Panic).
Proof.
  intros fadd fsub c o t a b Hd He Ha Hb. split; intros Ho Hn.
  - destruct (hop_checked o _ incl_tab1 Ho) as (n & Hw & _ & Hi). unfold hop_portable. rewrite Hi. unfold zlen in *.
    assert (Hs : forall x y, scalar_hop fadd fsub c o x y = Some (iarith c t (x + y))) by (intros x y; unfold scalar_hop; rewrite He, (add_named o Ho); reflexivity).
    apply (hop_pairs_panic c o _ a b n [] [] a b); try reflexivity; unfold zlen; try lia.
    + intros x y. rewrite Hs. destruct (iarith_cases c t (x + y)) as [->|[z ->]]; eauto.
    + intros [H1 H2]. apply Hn. split; [revert H1|revert H2]; apply each_pair_mono; intros x y H; rewrite Hs in H; pose proof (iarith_debug_overflow c t (x + y) Hd) as [_ G];
        unfold in_ity in *; destruct (Z_le_gt_dec (imin t) (x + y)); destruct (Z_le_gt_dec (x + y) (imax t)); try lia; exfalso; apply H; f_equal; apply G; lia.
  - destruct (hop_checked o _ incl_tab2 Ho) as (n & Hw & _ & Hi). unfold hop_portable. rewrite Hi. unfold zlen in *.
    assert (Hs : forall x y, scalar_hop fadd fsub c o x y = Some (iarith c t (x - y))) by (intros x y; unfold scalar_hop; rewrite He, (sub_named o Ho); reflexivity).
    apply (hop_pairs_panic c o _ a b n [] [] a b); try reflexivity; unfold zlen; try lia.
    + intros x y. rewrite Hs. destruct (iarith_cases c t (x - y)) as [->|[z ->]]; eauto.
    + intros [H1 H2]. apply Hn. split; [revert H1|revert H2]; apply each_pair_mono; intros x y H; rewrite Hs in H; pose proof (iarith_debug_overflow c t (x - y) Hd) as [_ G];
        unfold in_ity in *; destruct (Z_le_gt_dec (imin t) (x - y)); destruct (Z_le_gt_dec (x - y) (imax t)); try lia; exfalso; apply H; f_equal; apply G; lia.
Qed.

(** The instructions on registers holding lanes. *)
Lemma hop128_lanes : forall t g a b, (0 < ibytes t)%nat -> Forall (in_ity t) a -> Forall (in_ity t) b -> hop128 t g (bytes_of t a) (bytes_of t b) = bytes_of t (pairs g a ++ pairs g b).
Proof. intros t g a b Hp Ha Hb. unfold hop128. rewrite !lanes_of_bytes_of by assumption. reflexivity. Qed.

Lemma bytes_of_app : forall t a b, bytes_of t (a ++ b) = bytes_of t a ++ bytes_of t b.
Proof. intros t a b. unfold bytes_of. apply flat_map_app. Qed.

Lemma bytes_of_firstn : forall t n a, firstn (n * ibytes t) (bytes_of t a) = bytes_of t (firstn n a).
Proof.
  intros t. induction n as [|n IH]; intros a; [reflexivity|]. destruct a as [|x a]; [cbn [bytes_of flat_map firstn]; apply firstn_nil|]. cbn [bytes_of flat_map]. fold (bytes_of t a).
  rewrite firstn_app, to_bytes_len. replace (S n * ibytes t - ibytes t)%nat with (n * ibytes t)%nat by lia. rewrite IH. rewrite firstn_all2 by (rewrite to_bytes_len; lia). reflexivity.
Qed.

Lemma bytes_of_skipn : forall t n a, skipn (n * ibytes t) (bytes_of t a) = bytes_of t (skipn n a).
Proof.
  intros t. induction n as [|n IH]; intros a; [reflexivity|]. destruct a as [|x a]; [cbn [bytes_of flat_map skipn]; apply skipn_nil|]. cbn [bytes_of flat_map]. fold (bytes_of t a).
  rewrite skipn_app, to_bytes_len. replace (S n * ibytes t - ibytes t)%nat with (n * ibytes t)%nat by lia. rewrite IH. rewrite skipn_all2 by (rewrite to_bytes_len; lia). reflexivity.
Qed.

Lemma hop256_lanes : forall t g n a b, (0 < ibytes t)%nat -> (n * ibytes t = 16)%nat -> Forall (in_ity t) a -> Forall (in_ity t) b ->
  hop256 t g (bytes_of t a) (bytes_of t b) = bytes_of t ((pairs g (firstn n a) ++ pairs g (firstn n b)) ++ pairs g (skipn n a) ++ pairs g (skipn n b)).
Proof.
  intros t g n a b Hp Hn Ha Hb. unfold hop256, per_half2. rewrite <- Hn. rewrite !bytes_of_firstn, !bytes_of_skipn. rewrite !hop128_lanes; try assumption.
  - rewrite <- bytes_of_app. reflexivity.
  - rewrite <- (firstn_skipn n a) in Ha. apply Forall_app in Ha. apply Ha.
  - rewrite <- (firstn_skipn n b) in Hb. apply Forall_app in Hb. apply Hb.
  - rewrite <- (firstn_skipn n a) in Ha. apply Forall_app in Ha. apply Ha.
  - rewrite <- (firstn_skipn n b) in Hb. apply Forall_app in Hb. apply Hb.
Qed.

Lemma list2 : forall (A : Type) (v : list A), zlen v = 2 -> exists a b, v = [a; b].
Proof. intros A v H. unfold zlen in H. do 2 (destruct v as [|? v]; [cbn in H; lia|]). destruct v; [eauto|cbn in H; lia]. Qed.

Lemma list4 : forall (A : Type) (v : list A), zlen v = 4 -> exists a b c d, v = [a; b; c; d].
Proof. intros A v H. unfold zlen in H. do 4 (destruct v as [|? v]; [cbn in H; lia|]). destruct v; [do 4 eexists; reflexivity|cbn in H; lia]. Qed.

Lemma list8 : forall (A : Type) (v : list A), zlen v = 8 -> exists a b c d e f g h, v = [a; b; c; d; e; f; g; h].
Proof. intros A v H. unfold zlen in H. do 8 (destruct v as [|? v]; [cbn in H; lia|]). destruct v; [do 8 eexists; reflexivity|cbn in H; lia]. Qed.

Lemma list16 : forall (A : Type) (v : list A), zlen v = 16 -> exists a b c d e f g h i j k l m n o p, v = [a; b; c; d; e; f; g; h; i; j; k; l; m; n; o; p].
Proof. intros A v H. unfold zlen in H. do 16 (destruct v as [|? v]; [cbn in H; lia|]). destruct v; [do 16 eexists; reflexivity|cbn in H; lia]. Qed.

Ltac finish_unpack := split; [reflexivity|split; [reflexivity|split; [|split; [|intros g; reflexivity]]]]; rewrite !Forall_cons_iff in *; tauto.

Lemma unpack_i16x8 : forall a b, zlen a = 8 -> zlen b = 8 -> Forall (in_ity i16) a -> Forall (in_ity i16) b -> exists lo hi,
  unpacklo 4 (bytes_of i16 a) (bytes_of i16 b) = bytes_of i16 lo /\ unpackhi 4 (bytes_of i16 a) (bytes_of i16 b) = bytes_of i16 hi /\
  Forall (in_ity i16) lo /\ Forall (in_ity i16) hi /\ forall g, pairs g lo ++ pairs g hi = riffle (pairs g a) (pairs g b).
Proof.
  intros a b Ha Hb Ra Rb. destruct (list8 _ a Ha) as (a0 & a1 & a2 & a3 & a4 & a5 & a6 & a7 & ->). destruct (list8 _ b Hb) as (b0 & b1 & b2 & b3 & b4 & b5 & b6 & b7 & ->).
  exists [a0; a1; b0; b1; a2; a3; b2; b3], [a4; a5; b4; b5; a6; a7; b6; b7]. finish_unpack.
Qed.

Lemma unpack_i32x4 : forall a b, zlen a = 4 -> zlen b = 4 -> Forall (in_ity i32) a -> Forall (in_ity i32) b -> exists lo hi,
  unpacklo 8 (bytes_of i32 a) (bytes_of i32 b) = bytes_of i32 lo /\ unpackhi 8 (bytes_of i32 a) (bytes_of i32 b) = bytes_of i32 hi /\
  Forall (in_ity i32) lo /\ Forall (in_ity i32) hi /\ forall g, pairs g lo ++ pairs g hi = riffle (pairs g a) (pairs g b).
Proof.
  intros a b Ha Hb Ra Rb. destruct (list4 _ a Ha) as (a0 & a1 & a2 & a3 & ->). destruct (list4 _ b Hb) as (b0 & b1 & b2 & b3 & ->).
  exists [a0; a1; b0; b1], [a2; a3; b2; b3]. finish_unpack.
Qed.

Lemma shuffle_f32x4 : forall a b, zlen a = 4 -> zlen b = 4 -> Forall (in_ity u32) a -> Forall (in_ity u32) b -> exists lo hi,
  shuffle_ps (bytes_of u32 a) (bytes_of u32 b) 68 = bytes_of u32 lo /\ shuffle_ps (bytes_of u32 a) (bytes_of u32 b) 238 = bytes_of u32 hi /\
  Forall (in_ity u32) lo /\ Forall (in_ity u32) hi /\ forall g, pairs g lo ++ pairs g hi = riffle (pairs g a) (pairs g b).
Proof.
  intros a b Ha Hb Ra Rb. destruct (list4 _ a Ha) as (a0 & a1 & a2 & a3 & ->). destruct (list4 _ b Hb) as (b0 & b1 & b2 & b3 & ->).
  exists [a0; a1; b0; b1], [a2; a3; b2; b3]. finish_unpack.
Qed.

Lemma unpack_i16x16 : forall a b, zlen a = 16 -> zlen b = 16 -> Forall (in_ity i16) a -> Forall (in_ity i16) b -> exists lo hi,
  unpacklo256 4 (bytes_of i16 a) (bytes_of i16 b) = bytes_of i16 lo /\ unpackhi256 4 (bytes_of i16 a) (bytes_of i16 b) = bytes_of i16 hi /\
  Forall (in_ity i16) lo /\ Forall (in_ity i16) hi /\
  forall g, (pairs g (firstn 8 lo) ++ pairs g (firstn 8 hi)) ++ pairs g (skipn 8 lo) ++ pairs g (skipn 8 hi) = riffle (pairs g a) (pairs g b).
Proof.
  intros a b Ha Hb Ra Rb. destruct (list16 _ a Ha) as (a0 & a1 & a2 & a3 & a4 & a5 & a6 & a7 & a8 & a9 & a10 & a11 & a12 & a13 & a14 & a15 & ->).
  destruct (list16 _ b Hb) as (b0 & b1 & b2 & b3 & b4 & b5 & b6 & b7 & b8 & b9 & b10 & b11 & b12 & b13 & b14 & b15 & ->).
  exists [a0; a1; b0; b1; a2; a3; b2; b3; a8; a9; b8; b9; a10; a11; b10; b11], [a4; a5; b4; b5; a6; a7; b6; b7; a12; a13; b12; b13; a14; a15; b14; b15]. finish_unpack.
Qed.

Lemma unpack_x8 : forall t a b, t = i32 \/ t = u32 -> zlen a = 8 -> zlen b = 8 -> Forall (in_ity t) a -> Forall (in_ity t) b -> exists lo hi,
  unpacklo256 8 (bytes_of t a) (bytes_of t b) = bytes_of t lo /\ unpackhi256 8 (bytes_of t a) (bytes_of t b) = bytes_of t hi /\
  Forall (in_ity t) lo /\ Forall (in_ity t) hi /\
  forall g, (pairs g (firstn 4 lo) ++ pairs g (firstn 4 hi)) ++ pairs g (skipn 4 lo) ++ pairs g (skipn 4 hi) = riffle (pairs g a) (pairs g b).
Proof.
  intros t a b Ht Ha Hb Ra Rb. destruct (list8 _ a Ha) as (a0 & a1 & a2 & a3 & a4 & a5 & a6 & a7 & ->). destruct (list8 _ b Hb) as (b0 & b1 & b2 & b3 & b4 & b5 & b6 & b7 & ->).
  exists [a0; a1; b0; b1; a4; a5; b4; b5], [a2; a3; b2; b3; a6; a7; b6; b7]. destruct Ht as [-> | ->]; finish_unpack.
Qed.

Lemma direct_x2 : forall g a b, zlen a = 2 -> zlen b = 2 -> pairs g a ++ pairs g b = riffle (pairs g a) (pairs g b).
Proof. intros g a b Ha Hb. destruct (list2 _ a Ha) as (a0 & a1 & ->). destruct (list2 _ b Hb) as (b0 & b1 & ->). reflexivity. Qed.

Lemma direct_x4 : forall g a b, zlen a = 4 -> zlen b = 4 ->
  (pairs g (firstn 2 a) ++ pairs g (firstn 2 b)) ++ pairs g (skipn 2 a) ++ pairs g (skipn 2 b) = riffle (pairs g a) (pairs g b).
Proof. intros g a b Ha Hb. destruct (list4 _ a Ha) as (a0 & a1 & a2 & a3 & ->). destruct (list4 _ b Hb) as (b0 & b1 & b2 & b3 & ->). reflexivity. Qed.

Lemma riffle_map : forall (A B : Type) (h : A -> B) a b, map h (riffle a b) = riffle (map h a) (map h b).
Proof. intros A B h. induction a as [|x a IH]; intros [|y b]; cbn; try reflexivity. do 2 f_equal. apply IH. Qed.

Lemma pairs_map : forall h g a, map h (pairs g a) = pairs (fun x y => h (g x y)) a.
Proof. intros h g a. induction a as [|x|x y a IH] using pair_ind; [reflexivity|reflexivity|]. cbn. rewrite IH. reflexivity. Qed.

(** What every optimised entry computes. *)
Definition xhop_ok (G : elty -> Z -> Z -> Z) (x : xhop) : Prop :=
  (exists n, WIDTH (xh_ty x) = 2 * Z.of_nat n) /\
  forall a b, int_vector (WIDTH (xh_ty x)) (lane_ity (xh_el x)) a -> int_vector (WIDTH (xh_ty x)) (lane_ity (xh_el x)) b ->
    hop_optimized x a b = map (wrap (lane_ity (xh_el x))) (riffle (pairs (G (xh_el x)) a) (pairs (G (xh_el x)) b)).

Ltac xcase n := split; [exists n; reflexivity|]; intros a b [Ha Ra] [Hb Rb]; cbn [xh_ty xh_el WIDTH lane_ity] in *;
  unfold hop_optimized, hadd_epi, hsub_epi, hadds_epi, hsubs_epi, hadd256_epi, hsub256_epi, hadds256_epi, hsubs256_epi; cbn [xh_run xh_el lane_ity].
Ltac by_unpack L := destruct L as (lo & hi & E1 & E2 & R1 & R2 & E); [try tauto; assumption..|]; rewrite E1, E2.
Ltac close128 E := rewrite hop128_lanes by (try assumption; apply Nat.ltb_lt; reflexivity); rewrite E, lanes_of_cast by (try reflexivity; apply Nat.ltb_lt; reflexivity); reflexivity.
Ltac close256 n E := rewrite (hop256_lanes _ _ n) by (try assumption; try reflexivity; apply Nat.ltb_lt; reflexivity); rewrite E, lanes_of_cast by (try reflexivity; apply Nat.ltb_lt; reflexivity); reflexivity.

Lemma hadd_optimized_ok : forall fadd, Forall (xhop_ok (fun e x y => match e with EInt t => x + y | _ => fadd e x y end)) (x86_hadd_optimized fadd).
Proof.
  intros fadd. unfold x86_hadd_optimized. split_table.
  - xcase 2%nat. by_unpack (shuffle_f32x4 a b). close128 E.
  - xcase 1%nat. close128 (direct_x2 (fadd EF64) a b Ha Hb).
  - xcase 4%nat. by_unpack (unpack_x8 u32 a b). close256 4%nat E.
  - xcase 2%nat. close256 2%nat (direct_x4 (fadd EF64) a b Ha Hb).
  - xcase 4%nat. by_unpack (unpack_i16x8 a b). close128 E.
  - xcase 2%nat. by_unpack (unpack_i32x4 a b). close128 E.
  - xcase 8%nat. by_unpack (unpack_i16x16 a b). close256 8%nat E.
  - xcase 4%nat. by_unpack (unpack_x8 i32 a b). close256 4%nat E.
Qed.

Lemma hsub_optimized_ok : forall fsub, Forall (xhop_ok (fun e x y => match e with EInt t => x - y | _ => fsub e x y end)) (x86_hsub_optimized fsub).
Proof.
  intros fsub. unfold x86_hsub_optimized. split_table.
  - xcase 2%nat. by_unpack (shuffle_f32x4 a b). close128 E.
  - xcase 1%nat. close128 (direct_x2 (fsub EF64) a b Ha Hb).
  - xcase 4%nat. by_unpack (unpack_x8 u32 a b). close256 4%nat E.
  - xcase 2%nat. close256 2%nat (direct_x4 (fsub EF64) a b Ha Hb).
  - xcase 4%nat. by_unpack (unpack_i16x8 a b). close128 E.
  - xcase 2%nat. by_unpack (unpack_i32x4 a b). close128 E.
  - xcase 8%nat. by_unpack (unpack_i16x16 a b). close256 8%nat E.
  - xcase 4%nat. by_unpack (unpack_x8 i32 a b). close256 4%nat E.
Qed.

Lemma hadds_optimized_ok : Forall (xhop_ok (fun e x y => clamp (lane_ity e) (x + y))) x86_saturating_hadd_optimized.
Proof.
  unfold x86_saturating_hadd_optimized. split_table.
  - xcase 4%nat. by_unpack (unpack_i16x8 a b). close128 E.
  - xcase 8%nat. by_unpack (unpack_i16x16 a b). close256 8%nat E.
Qed.

Lemma hsubs_optimized_ok : Forall (xhop_ok (fun e x y => clamp (lane_ity e) (x - y))) x86_saturating_hsub_optimized.
Proof.
  unfold x86_saturating_hsub_optimized. split_table.
  - xcase 4%nat. by_unpack (unpack_i16x8 a b). close128 E.
  - xcase 8%nat. by_unpack (unpack_i16x16 a b). close256 8%nat E.
Qed.

Lemma xhop_horizontal : forall G x a b, xhop_ok G x -> int_vector (WIDTH (xh_ty x)) (lane_ity (xh_el x)) a -> int_vector (WIDTH (xh_ty x)) (lane_ity (xh_el x)) b ->
  horizontal (fun u v => wrap (lane_ity (xh_el x)) (G (xh_el x) u v)) a b (hop_optimized x a b).
Proof.
  intros G x a b [[n Hw] H] Ha Hb. rewrite (H a b Ha Hb), riffle_map, !pairs_map. destruct Ha as [Ha _]. destruct Hb as [Hb _]. unfold zlen in *. apply (horizontal_riffle _ n); lia.
Qed.

Lemma each_pair_in : forall W t l, int_vector W t l -> each_pair (fun u v => in_ity t u /\ in_ity t v) l.
Proof.
  intros W t l [_ H] i u v _ Hu Hv. rewrite Forall_forall in H. split; apply H; [exact (znth_In _ _ _ _ Hu)|exact (znth_In _ _ _ _ Hv)].
Qed.

Lemma c41_hadd_optimized : forall (fadd : elty -> Z -> Z -> Z) (x : xhop) (a b : list Z), In x (x86_hadd_optimized fadd) ->
  (forall e u v, e = EF32 \/ e = EF64 -> in_ity (lane_ity e) u -> in_ity (lane_ity e) v -> in_ity (lane_ity e) (fadd e u v)) ->
  int_vector (WIDTH (xh_ty x)) (lane_ity (xh_el x)) a -> int_vector (WIDTH (xh_ty x)) (lane_ity (xh_el x)) b ->
  horizontal (fun u v => match xh_el x with EInt t => wrap t (u + v) | e => fadd e u v end) a b (hop_optimized x a b).
Proof.
  intros fadd x a b Hx Hf Ha Hb. pose proof (hadd_optimized_ok fadd) as H. rewrite Forall_forall in H. pose proof (xhop_horizontal _ x a b (H x Hx) Ha Hb) as G.
  revert G. apply horizontal_ext; [apply (each_pair_mono (fun u v => in_ity (lane_ity (xh_el x)) u /\ in_ity (lane_ity (xh_el x)) v)); [|exact (each_pair_in _ _ a Ha)]|apply (each_pair_mono (fun u v => in_ity (lane_ity (xh_el x)) u /\ in_ity (lane_ity (xh_el x)) v)); [|exact (each_pair_in _ _ b Hb)]]; intros u v [Hu Hv]; destruct (xh_el x); try reflexivity; apply wrap_id; apply Hf; tauto.
Qed.

Lemma c41_hsub_optimized : forall (fsub : elty -> Z -> Z -> Z) (x : xhop) (a b : list Z), In x (x86_hsub_optimized fsub) ->
  (forall e u v, e = EF32 \/ e = EF64 -> in_ity (lane_ity e) u -> in_ity (lane_ity e) v -> in_ity (lane_ity e) (fsub e u v)) ->
  int_vector (WIDTH (xh_ty x)) (lane_ity (xh_el x)) a -> int_vector (WIDTH (xh_ty x)) (lane_ity (xh_el x)) b ->
  horizontal (fun u v => match xh_el x with EInt t => wrap t (u - v) | e => fsub e u v end) a b (hop_optimized x a b).
Proof.
  intros fsub x a b Hx Hf Ha Hb. pose proof (hsub_optimized_ok fsub) as H. rewrite Forall_forall in H. pose proof (xhop_horizontal _ x a b (H x Hx) Ha Hb) as G.
  revert G. apply horizontal_ext; [apply (each_pair_mono (fun u v => in_ity (lane_ity (xh_el x)) u /\ in_ity (lane_ity (xh_el x)) v)); [|exact (each_pair_in _ _ a Ha)]|apply (each_pair_mono (fun u v => in_ity (lane_ity (xh_el x)) u /\ in_ity (lane_ity (xh_el x)) v)); [|exact (each_pair_in _ _ b Hb)]]; intros u v [Hu Hv]; destruct (xh_el x); try reflexivity; apply wrap_id; apply Hf; tauto.
Qed.

Definition is_int (e : elty) : bool := match e with EInt _ => true | _ => false end.

Lemma c40_saturating_hadd : forall (fadd fsub : elty -> Z -> Z -> Z) (c : config) (o : hop_impl) (a b : list Z), In o (x86_saturating_hadd ++ unknown_saturating_hadd) ->
  zlen a = WIDTH (h_ty o) -> zlen b = WIDTH (h_ty o) ->
  exists t r, h_el o = EInt t /\ hop_portable fadd fsub c o a b = Ok r /\ horizontal (fun x y => clamp t (x + y)) a b r.
Proof.
  intros fadd fsub c o a b Ho Ha Hb. destruct (hop_checked o _ incl_tab3 Ho) as (n & Hw & _ & Hi).
  assert (He : exists t, h_el o = EInt t) by (assert (G : is_int (h_el o) = true) by (revert o Ho Ha Hb n Hw Hi; intros o Ho _ _ _ _ _; revert o Ho; apply op_named; vm_compute; reflexivity); destruct (h_el o); [eauto|discriminate|discriminate]).
  destruct He as [t He]. exists t. assert (Hs : forall x y, scalar_hop fadd fsub c o x y = Some (Ok (clamp t (x + y)))).
  { intros x y. unfold scalar_hop. rewrite He. assert (G : existsb (String.eqb (h_op o)) ["u8::saturating_add"; "u16::saturating_add"; "u32::saturating_add"; "u64::saturating_add"; "i8::saturating_add"; "i16::saturating_add"; "i32::saturating_add"; "i64::saturating_add"]%string = true).
    { clear - Ho. revert o Ho. apply op_named. vm_compute. reflexivity. }
    apply existsb_exists in G. destruct G as (s & Hs & G). apply String.eqb_eq in G. rewrite G. cbn [In] in Hs.
    repeat (destruct Hs as [Hs|Hs]; [subst s; reflexivity|]). contradiction. }
  destruct (hop_total fadd fsub c o (fun x y => clamp t (x + y)) a b n Hw Hi Ha Hb) as [r [H1 H2]]; [apply each_pair_all; exact Hs|apply each_pair_all; exact Hs|].
  exists r. tauto.
Qed.

Lemma c40_saturating_hsub : forall (fadd fsub : elty -> Z -> Z -> Z) (c : config) (o : hop_impl) (a b : list Z), In o (x86_saturating_hsub ++ unknown_saturating_hsub) ->
  zlen a = WIDTH (h_ty o) -> zlen b = WIDTH (h_ty o) ->
  exists t r, h_el o = EInt t /\ hop_portable fadd fsub c o a b = Ok r /\ horizontal (fun x y => clamp t (x - y)) a b r.
Proof.
  intros fadd fsub c o a b Ho Ha Hb. destruct (hop_checked o _ incl_tab4 Ho) as (n & Hw & _ & Hi).
  assert (He : exists t, h_el o = EInt t) by (assert (G : is_int (h_el o) = true) by (revert o Ho Ha Hb n Hw Hi; intros o Ho _ _ _ _ _; revert o Ho; apply op_named; vm_compute; reflexivity); destruct (h_el o); [eauto|discriminate|discriminate]).
  destruct He as [t He]. exists t. assert (Hs : forall x y, scalar_hop fadd fsub c o x y = Some (Ok (clamp t (x - y)))).
  { intros x y. unfold scalar_hop. rewrite He. assert (G : existsb (String.eqb (h_op o)) ["u8::saturating_sub"; "u16::saturating_sub"; "u32::saturating_sub"; "u64::saturating_sub"; "i8::saturating_sub"; "i16::saturating_sub"; "i32::saturating_sub"; "i64::saturating_sub"]%string = true).
    { clear - Ho. revert o Ho. apply op_named. vm_compute. reflexivity. }
    apply existsb_exists in G. destruct G as (s & Hs & G). apply String.eqb_eq in G. rewrite G. cbn [In] in Hs.
    repeat (destruct Hs as [Hs|Hs]; [subst s; reflexivity|]). contradiction. }
  destruct (hop_total fadd fsub c o (fun x y => clamp t (x - y)) a b n Hw Hi Ha Hb) as [r [H1 H2]]; [apply each_pair_all; exact Hs|apply each_pair_all; exact Hs|].
  exists r. tauto.
Qed.

Lemma c40_saturating_h_optimized : forall (x : xhop) (a b : list Z),
  int_vector (WIDTH (xh_ty x)) (lane_ity (xh_el x)) a -> int_vector (WIDTH (xh_ty x)) (lane_ity (xh_el x)) b ->
  (In x x86_saturating_hadd_optimized -> horizontal (fun u v => clamp (lane_ity (xh_el x)) (u + v)) a b (hop_optimized x a b)) /\
  (In x x86_saturating_hsub_optimized -> horizontal (fun u v => clamp (lane_ity (xh_el x)) (u - v)) a b (hop_optimized x a b)).
Proof.
  intros x a b Ha Hb. split; intros Hx.
  - pose proof hadds_optimized_ok as H. rewrite Forall_forall in H. pose proof (xhop_horizontal _ x a b (H x Hx) Ha Hb) as G. revert G.
    apply horizontal_ext; apply each_pair_all; intros u v; apply wrap_id; apply in_clamp; destruct Hx as [<-|[<-|[]]]; apply Nat.ltb_lt; reflexivity.
  - pose proof hsubs_optimized_ok as H. rewrite Forall_forall in H. pose proof (xhop_horizontal _ x a b (H x Hx) Ha Hb) as G. revert G.
    apply horizontal_ext; apply each_pair_all; intros u v; apply wrap_id; apply in_clamp; destruct Hx as [<-|[<-|[]]]; apply Nat.ltb_lt; reflexivity.
Qed.
