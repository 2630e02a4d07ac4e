(** Proofs of the properties: the exact result where an operation is not what it should be (C47, C48,
    C85). *)
From Coq Require Import String.
From Verif Require Import Base Spec GateTables GateSpec VecSpec Vecs Lanes Floats FloatSpec OpTables Ops OpSpec PortTables Ports PortSpec Builds.
Open Scope list_scope.
Open Scope Z_scope.
From Coq Require Import Lia ZifyBool ZifyNat.
From Verif Require Import X86 ListFacts VecFacts VecProofs OpProofs RoundProofs HopProofs ShuffleProofs PortProofs BuildProofs PipeProofs AlgebraProofs.
Ltac Zify.zify_post_hook ::= Z.div_mod_to_equations.

Lemma c47_downcast_u64_lanes : forall (narrow : Z -> Z) (p : port_impl) (a b : list Z), In p (x86_downcast ++ unknown_downcast) -> is_u64 (pt_el p) = true ->
  int_vector (WIDTH (pt_ty p)) (lane_ity (pt_el p)) a -> int_vector (WIDTH (pt_ty p)) (lane_ity (pt_el p)) b ->
  exists r, port_portable narrow p [a; b] = Ok [r] /\ zlen r = 2 * WIDTH (pt_ty p) /\
    forall k x, znth (a ++ b) k = Some x -> znth r k = Some (Z.min x (if (k <? WIDTH (pt_ty p)) && Z.even k then 4294967295 else 2147483647)).
Proof.
  intros narrow p a b Hp Hu Ha Hb.
  assert (G : Forall (fun p => is_u64 (pt_el p) = true -> forall a b, int_vector (WIDTH (pt_ty p)) u64 a -> int_vector (WIDTH (pt_ty p)) u64 b ->
    exists r, port_portable narrow p [a; b] = Ok [r] /\ zlen r = 2 * WIDTH (pt_ty p) /\
    forall k x, znth (a ++ b) k = Some x -> znth r k = Some (Z.min x (if (k <? WIDTH (pt_ty p)) && Z.even k then 4294967295 else 2147483647))) (x86_downcast ++ unknown_downcast)).
  { clear p a b Hp Hu Ha Hb. assert (Pos : forall x, in_ity u64 x -> 0 <= x) by (intros x Hx; exact (proj1 Hx)).
    apply Forall_app; split; [unfold x86_downcast|unfold unknown_downcast]; split_table; intros Hu; try discriminate Hu; clear Hu; intros a b [La Ra] [Lb Rb]; cbn [pt_ty WIDTH] in La, Lb |- *.
    1,3: destruct (list2 _ a La) as (a0 & a1 & ->); destruct (list2 _ b Lb) as (b0 & b1 & ->); rewrite !Forall_cons_iff in Ra, Rb; destruct Ra as (A0 & A1 & _); destruct Rb as (B0 & B1 & _);
      eexists; (split; [cbv -[wrap Z.min u32]; rewrite !wrap_min by (try lia; auto); reflexivity|]); (split; [reflexivity|]); intros k x Hk; pose proof (znth_Some_lt _ _ _ Hk) as Hr; cbn [app] in Hk, Hr; unfold zlen in Hr; cbn [length] in Hr;
      assert (K : k = 0 \/ k = 1 \/ k = 2 \/ k = 3) by lia; destruct K as [->|[->|[->| ->]]]; injection Hk as <-; reflexivity.
    all: destruct (list4 _ a La) as (a0 & a1 & a2 & a3 & ->); destruct (list4 _ b Lb) as (b0 & b1 & b2 & b3 & ->); rewrite !Forall_cons_iff in Ra, Rb; destruct Ra as (A0 & A1 & A2 & A3 & _); destruct Rb as (B0 & B1 & B2 & B3 & _);
      eexists; (split; [cbv -[wrap Z.min u32]; rewrite !wrap_min by (try lia; auto); reflexivity|]); (split; [reflexivity|]); intros k x Hk; pose proof (znth_Some_lt _ _ _ Hk) as Hr; cbn [app] in Hk, Hr; unfold zlen in Hr; cbn [length] in Hr;
      assert (K : k = 0 \/ k = 1 \/ k = 2 \/ k = 3 \/ k = 4 \/ k = 5 \/ k = 6 \/ k = 7) by lia; destruct K as [->|[->|[->|[->|[->|[->|[->| ->]]]]]]]; injection Hk as <-; reflexivity. }
  rewrite Forall_forall in G. apply (G p Hp Hu); destruct (pt_el p) as [t| |]; try discriminate Hu; cbn [lane_ity] in *; assert (Et : t = u64) by (destruct t as [s n]; cbn in Hu; destruct s; [discriminate Hu|]; cbn in Hu; apply Nat.eqb_eq in Hu; subst n; reflexivity); subst t; assumption.
Qed.

Lemma c47_downcast_instruction : forall (x : xport) (a b : list Z), In x x86_downcast_optimized ->
  let t := lane_ity (xp_el x) in let h := Z.to_nat (WIDTH (xp_ty x) / 2) in
  let signed y := if y <? imod t / 2 then y else y - imod t in
  int_vector (WIDTH (xp_ty x)) t a -> int_vector (WIDTH (xp_ty x)) t b ->
  port_optimized x [a; b] = [map (fun y => clamp (lane_ity (xp_out x)) (signed y))
    (if String.eqb (xp_feat x) "avx2" then (firstn h a ++ firstn h b) ++ skipn h a ++ skipn h b else a ++ b)].
Proof.
  intros x a b Hx t h signed [_ Ha] [_ Hb]. pose proof xdowncasts_ok as H. rewrite Forall_forall in H. destruct (H x Hx) as (H1 & H2 & H3 & H4 & H5 & H6). fold t in H3, H4, H6.
  assert (W : forall y, in_ity t y -> wrap (signed_of (xp_el x)) y = signed y).
  { intros y Hy. assert (E : imod (signed_of (xp_el x)) = imod t) by reflexivity. pose proof (imod_even t H4) as M. unfold in_ity, imin, imax in Hy. unfold signed. destruct (y <? imod t / 2) eqn:C.
    - apply wrap_id. unfold in_ity, imin, imax. cbn [isigned signed_of]. rewrite E. destruct (isigned t); lia.
    - transitivity (wrap (signed_of (xp_el x)) (y - imod t)); [apply wrap_eq; [lia|]; rewrite E; rewrite <- (Z_mod_plus_full (y - imod t) 1); f_equal; lia|]. apply wrap_id. unfold in_ity, imin, imax. cbn [isigned signed_of]. rewrite E. destruct (isigned t); lia. }
  assert (Q : forall l, Forall (in_ity t) l -> map (fun y => clamp (lane_ity (xp_out x)) (wrap (signed_of (xp_el x)) y)) l = map (fun y => clamp (lane_ity (xp_out x)) (signed y)) l).
  { intros l Hl. apply map_ext_in. intros y Hy. f_equal. apply W. rewrite Forall_forall in Hl. exact (Hl y Hy). }
  destruct (String.eqb (xp_feat x) "avx2") eqn:F.
  - apply String.eqb_eq in F. rewrite (H1 F a b). f_equal. apply Q. rewrite !Forall_app. auto using Forall_firstn, Forall_skipn.
  - apply String.eqb_neq in F. rewrite (H2 F a b). f_equal. apply Q. apply Forall_app. split; assumption.
Qed.

Lemma c48_destride_two_256 : forall (c : config) (x : xdestride) (a b : list Z), In x x86_destride_256 -> int_vector (WIDTH (xd_ty x)) (xd_el x) a -> int_vector (WIDTH (xd_ty x)) (xd_el x) b ->
  exists r0 r1, destride_two_optimized c x a b = Ok [r0; r1] /\ every_nth 2 0 (a ++ b) r0 /\ every_nth 2 0 (b ++ a) r1.
Proof.
  intros c x a b Hx Ha Hb. exists (pick 2 0 a ++ pick 2 0 b), (pick 2 0 b ++ pick 2 0 a).
  assert (T : ibytes (xd_el x) = 1%nat /\ WIDTH (xd_ty x) = 2 * 16 /\ exists vec, (vec = "u8x32"%string \/ vec = "i8x32"%string) /\ xd_run x c (bytes_of (xd_el x) a) (bytes_of (xd_el x) b) = destride_two_256 c vec (bytes_of (xd_el x) a) (bytes_of (xd_el x) b)).
  { destruct Hx as [<-|[<-|[]]]; (split; [reflexivity|split; [reflexivity|]]); [exists "u8x32"%string|exists "i8x32"%string]; auto. }
  destruct T as (T1 & T2 & vec & Tv & T3). rewrite T2 in Ha, Hb. assert (La : zlen a = 2 * 16) by apply Ha. assert (Lb : zlen b = 2 * 16) by apply Hb.
  assert (Pa : every_nth 2 0 a (pick 2 0 a)) by (apply (pick_every _ _ 16); lia). assert (Pb : every_nth 2 0 b (pick 2 0 b)) by (apply (pick_every _ _ 16); lia). split; [|split; apply every_app; try lia; assumption].
  unfold destride_two_optimized. rewrite T3, destride_256_bytes by (try exact Tv; rewrite bytes_of_len, T1; unfold zlen in *; lia). cbn [bind map]. rewrite !(destride_lanes _ 16) by (try assumption; lia). reflexivity.
Qed.

Lemma c85_roundtrip_u32 : forall (fs : features) (narrow : Z -> Z) (p q : port_impl) (v : list Z), In p x86_upcast -> In q x86_downcast ->
  pt_outvec p = pt_vec q -> pt_vec p = pt_outvec q -> pt_el p = EInt u32 -> pt_out p = EInt u64 -> int_vector (WIDTH (pt_ty p)) u32 v ->
  exists a b r, upcast_in fs narrow (pt_vec p) (pt_outvec p) [v] = Some (Ok [a; b]) /\ downcast_in fs narrow (pt_vec q) (pt_outvec q) [a; b] = Some (Ok [r]) /\ zlen r = zlen v /\
    forall k x, znth v k = Some x -> znth r k = Some (if (k <? WIDTH (pt_ty p) / 2) && Z.even k then x else Z.min x 2147483647).
Proof.
  intros fs narrow p q v Hp Hq E1 E2 Et Et' Hv. destruct (back_facts p q u32 u64 Hp Hq E1 E2 Et Et') as (B1 & B2 & B3 & B4 & B5 & B6 & _).
  destruct (upcast_parts fs narrow p u32 u64 v Hp Et Et' Hv) as (a & b & E & Eab & La & Lb). rewrite B1 in La, Lb. pose proof (proj2 Hv) as F. rewrite <- Eab in F.
  destruct (halves_vectors (WIDTH (pt_ty q)) u32 u64 a b F (fun x H => proj1 (B6 x H)) La Lb) as [Va Vb].
  destruct (c47_downcast_u64_lanes narrow q a b) as (r & R1 & R2 & R3); [apply in_or_app; left; exact Hq|rewrite B3; reflexivity|rewrite B3; exact Va|rewrite B3; exact Vb|].
  exists a, b, r. split; [exact E|]. split; [|split].
  - pose proof port_coherent as C. rewrite !andb_true_iff in C. destruct C as (((((_ & _) & C1) & _) & _) & _). unfold downcast_in, port_in.
    destruct (present_one _ _ _ _ _ _ _ _ x86_downcast_optimized x86_downcast fs q C1 Hq) as [Ep|(y & Hin & K & S & Hf & Ep)]; cbv beta in Ep; rewrite Ep; cbn [run_one]; [rewrite R1; reflexivity|].
    exfalso. injection S as S1 S2. pose proof (proj1 (forallb_forall _ _) no_wide_u64 y Hin) as N. cbv beta in N. rewrite S2, B3 in N. discriminate.
  - rewrite R2, <- Eab. unfold zlen in *. rewrite app_length. lia.
  - intros k x Hk. rewrite <- Eab in Hk. rewrite (R3 k x Hk). assert (Hx : in_ity u32 x). { rewrite Forall_forall in F. apply F. unfold znth in Hk. destruct (k <? 0); [discriminate|]. eapply nth_error_In; exact Hk. }
    assert (Hx2 : 0 <= x <= 4294967295) by exact Hx. assert (Lv : zlen v = WIDTH (pt_ty p)) by exact (proj1 Hv). assert (Wq : WIDTH (pt_ty p) / 2 = WIDTH (pt_ty q)).
    { rewrite <- Lv, <- Eab. unfold zlen in *. rewrite app_length. lia. }
    rewrite Wq. destruct ((k <? WIDTH (pt_ty q)) && Z.even k); f_equal. lia.
Qed.
