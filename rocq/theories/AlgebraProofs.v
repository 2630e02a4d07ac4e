(** Proofs of the properties: laws between operations, in every build (C84, C85). *)
From Coq Require Import String.
From Verif Require Import Base GateTables GateSpec VecSpec Vecs Lanes Floats Tables Patterns Merge Shuffles OpTables Ops OpSpec PortTables Ports PortSpec Hops SumTables Sums SumSpec Builds.
Open Scope list_scope.
Open Scope Z_scope.
From Coq Require Import Lia ZifyBool ZifyNat.
From Verif Require Import X86 ListFacts VecFacts VecProofs PatternProofs ShuffleProofs OpProofs PortProofs HopProofs SumProofs BuildProofs PipeProofs LoopProofs KernProofs ExprProofs.
Ltac Zify.zify_post_hook ::= Z.div_mod_to_equations.

Lemma splat_vector : forall ty (x : list Z), 0 <= WIDTH ty -> zlen x = SIZE ty -> vector_of ty (splat (WIDTH ty) x).
Proof.
  intros ty x Hw Hx. split; [unfold splat, zlen; rewrite repeat_length; lia|]. unfold splat. apply Forall_forall. intros y Hy. apply repeat_spec in Hy. subst y. exact Hx.
Qed.

Lemma firstn_splat {X : Type} : forall (x : X) n k, (k <= n)%nat -> firstn k (repeat x n) = repeat x k.
Proof. intros x n. induction n as [|n IH]; intros [|k] H; try reflexivity; [lia|]. cbn [repeat firstn]. rewrite IH by lia. reflexivity. Qed.

Lemma skipn_splat {X : Type} : forall (x : X) n k, skipn k (repeat x n) = repeat x (n - k).
Proof. intros x n. induction n as [|n IH]; intros [|k]; try reflexivity. cbn [repeat skipn]. rewrite IH. reflexivity. Qed.

Lemma c84_merge_patterns : forall (fs : features) (c : config) (m : merge_impl) (p : pattern_impl) (hi lo : list Z), target fs ->
  In m x86_merges -> In p x86_patterns -> pi_ty p = mi_ty m -> zlen hi = SIZE (mi_ty m) -> zlen lo = SIZE (mi_ty m) ->
  let a := splat (WIDTH (mi_ty m)) hi in let b := splat (WIDTH (mi_ty m)) lo in
  merge_halves_in fs c m a b = Some (Ok (halfs p hi lo)) /\ merge_interleaved_in fs c m a b = Some (Ok (interleave p hi lo)) /\
  forall off, 0 <= off < WIDTH (mi_ty m) -> merge_partitioned_in fs c m a b off = Some (partition_portable p hi lo off).
Proof.
  intros fs c m p hi lo T Hm Hp Hty Hh Hl a b. assert (Hp' : In p (x86_patterns ++ unknown_patterns)) by (apply in_or_app; left; exact Hp).
  destruct (c35_halfs_interleave _ p hi lo Hp') as (H1 & H2 & H3 & H4). rewrite Hty in H1, H2, H3, H4. set (W := WIDTH (mi_ty m)) in *.
  assert (HW : 0 <= W) by (rewrite <- H3; apply zlen_nonneg).
  destruct (c78_merge fs c m a b T Hm) as (M1 & (r & M2 & [M3 M4]) & M5); [apply splat_vector; assumption|apply splat_vector; assumption|]. fold W in M1, M3, M4, M5. split; [|split].
  - rewrite M1, H1. unfold a, b, splat. rewrite firstn_splat by (clear -HW; lia). rewrite skipn_splat. do 3 f_equal. f_equal. clear -H2 HW. lia.
  - rewrite M2. do 2 f_equal. apply znth_ext; [rewrite M3, H3; reflexivity|]. intros i Hi. rewrite M3 in Hi. rewrite (M4 i Hi), (H4 i Hi). unfold a, b. rewrite !znth_splat by exact Hi. destruct (i mod 2 =? 0); reflexivity.
  - intros off Ho. rewrite (M5 off Ho), (c35_partition _ p hi lo off Hp') by lia. rewrite Hty. fold W. assert (L : (off <=? W) = true) by (apply Z.leb_le; lia). rewrite L. unfold a, b, splat. rewrite firstn_splat by (clear -Ho; lia). rewrite skipn_splat.
    do 3 f_equal. f_equal. clear -Ho. lia.
Qed.

Lemma swap_adjacent_len {A : Type} : forall n (v : list A), (length v <= n)%nat -> length (swap_adjacent v) = length v.
Proof. induction n as [|n IH]; intros [|x [|y v]] H; try reflexivity; cbn [length] in H; [lia|]. cbn [swap_adjacent length]. rewrite (IH v) by lia. reflexivity. Qed.

Lemma swap_adjacent_forall {A : Type} (P : A -> Prop) : forall n (v : list A), (length v <= n)%nat -> Forall P v -> Forall P (swap_adjacent v).
Proof.
  induction n as [|n IH]; intros [|x [|y v]] H F; try exact F; cbn [length] in H; [lia|]. cbn [swap_adjacent].
  inversion F as [|? ? Fx F1]; subst. inversion F1 as [|? ? Fy F2]; subst. constructor; [exact Fy|]. constructor; [exact Fx|]. apply IH; [lia|exact F2].
Qed.

Lemma swap_adjacent_twice {A : Type} : forall n (v : list A), (length v <= n)%nat -> swap_adjacent (swap_adjacent v) = v.
Proof. induction n as [|n IH]; intros [|x [|y v]] H; try reflexivity; cbn [length] in H; [lia|]. cbn [swap_adjacent]. rewrite (IH v) by lia. reflexivity. Qed.

Lemma c84_shuffle : forall (fs : features) (s : shuffle_impl), target fs ->
  (forall v, In s x86_swizzles -> vector_of (sh_ty s) v -> exists r, flip_in fs s v = Some (Ok r) /\ flip_in fs s r = Some (Ok v)) /\
  (forall v, In s x86_swap_bytes -> vector_of (sh_ty s) v -> exists r, swap_bytes_in fs s v = Some (Ok r) /\ swap_bytes_in fs s r = Some (Ok v)) /\
  (forall p hi lo, In s x86_swizzles -> In p x86_patterns -> pi_ty p = sh_ty s -> zlen hi = SIZE (sh_ty s) -> zlen lo = SIZE (sh_ty s) ->
    flip_in fs s (interleave p hi lo) = Some (Ok (interleave p lo hi))).
Proof.
  intros fs s T. split; [|split].
  - intros v Hs Hv. exists (swap_adjacent v). split; [exact (proj1 (c78_shuffle fs s v T Hv) Hs)|].
    assert (Hv' : vector_of (sh_ty s) (swap_adjacent v)). { destruct Hv as [L F]. split; [unfold zlen; rewrite (swap_adjacent_len (length v)) by lia; exact L|apply (swap_adjacent_forall _ (length v)); [lia|exact F]]. }
    rewrite (proj1 (c78_shuffle fs s _ T Hv') Hs), (swap_adjacent_twice (length v)) by lia. reflexivity.
  - intros v Hs Hv. exists (map (@rev Z) v). split; [exact (proj2 (c78_shuffle fs s v T Hv) Hs)|].
    assert (Hv' : vector_of (sh_ty s) (map (@rev Z) v)). { destruct Hv as [L F]. split; [unfold zlen; rewrite map_length; exact L|]. apply Forall_map. apply (Forall_impl _ (fun l (H : zlen l = SIZE (sh_ty s)) => eq_trans (f_equal Z.of_nat (rev_length l)) H) F). }
    rewrite (proj2 (c78_shuffle fs s _ T Hv') Hs), map_map. do 2 f_equal. rewrite (map_ext _ (fun l => l)) by (intros l; apply rev_involutive). apply map_id.
  - intros p hi lo Hs Hp Hty Hh Hl. assert (Hp' : In p (x86_patterns ++ unknown_patterns)) by (apply in_or_app; left; exact Hp).
    destruct (c35_halfs_interleave _ p hi lo Hp') as (_ & H2 & H3 & H4). destruct (c35_halfs_interleave _ p lo hi Hp') as (_ & _ & I3 & I4). rewrite Hty in *. set (W := WIDTH (sh_ty s)) in *.
    assert (Hv : vector_of (sh_ty s) (interleave p hi lo)).
    { split; [exact H3|]. apply forall_znth. intros i x Hx. pose proof (znth_Some_lt _ _ _ Hx) as Hi. rewrite H3 in Hi. rewrite (H4 i Hi) in Hx. injection Hx as <-. destruct (i mod 2 =? 0); assumption. }
    rewrite (proj1 (c78_shuffle fs s _ T Hv) Hs). do 2 f_equal. destruct (c53_flip_index _ (interleave p hi lo)) as (F1 & _ & F3); [rewrite H3; exact H2|].
    apply znth_ext; [rewrite F1, H3, I3; reflexivity|]. intros i Hi. rewrite F1 in Hi. rewrite (F3 i Hi). rewrite H3 in Hi. rewrite (I4 i Hi).
    assert (Pos : 0 <= (if i mod 2 =? 0 then i + 1 else i - 1) < W) by (clear -Hi H2; destruct (i mod 2 =? 0) eqn:E; lia). rewrite (H4 _ Pos). clear -Hi.
    destruct (i mod 2 =? 0) eqn:E; [assert (R : ((i + 1) mod 2 =? 0) = false) by lia|assert (R : ((i - 1) mod 2 =? 0) = true) by lia]; rewrite R; reflexivity.
Qed.

Lemma eq_sizes : forallb (fun o => 0 <? SIZE (op_ty o)) x86_eq = true.
Proof. vm_compute. reflexivity. Qed.

Lemma int_vector_at : forall w t v i x, int_vector w t v -> znth v i = Some x -> in_ity t x.
Proof. intros w t v i x [_ F] H. exact (proj1 (Forall_forall _ _) F x (znth_In _ _ _ _ H)). Qed.

Lemma c84_lanes : forall (fs : features) (tie : bool) (t : ity) (ty : vty) (omin omax osub oeq : op_impl) (a b : list Z),
  In omin x86_cmp -> op_fn omin = "min"%string -> op_el omin = EInt t -> op_ty omin = ty ->
  In omax x86_cmp -> op_fn omax = "max"%string -> op_el omax = EInt t -> op_ty omax = ty ->
  In osub x86_saturating_sub -> op_el osub = EInt t -> op_ty osub = ty -> In oeq x86_eq -> op_el oeq = EInt t -> op_ty oeq = ty ->
  int_vector (WIDTH ty) t a -> int_vector (WIDTH ty) t b ->
  exists lo hi d1 d2 q, op2_in fs tie omin a b = Some (Ok lo) /\ op2_in fs tie omax a b = Some (Ok hi) /\
    op2_in fs tie osub a b = Some (Ok d1) /\ op2_in fs tie osub b a = Some (Ok d2) /\ op2_in fs tie oeq a b = Some (Ok q) /\
    (forall i x y, znth a i = Some x -> znth b i = Some y -> exists l h, znth lo i = Some l /\ znth hi i = Some h /\ l <= h /\ (l = x /\ h = y \/ l = y /\ h = x)) /\
    (isigned t = false -> forall i x y, znth a i = Some x -> znth b i = Some y -> exists l h u v, znth lo i = Some l /\ znth hi i = Some h /\ znth d1 i = Some u /\ znth d2 i = Some v /\ u + v = Z.abs (x - y) /\ h - l = u + v /\ (u = 0 \/ v = 0)) /\
    (q = splat (WIDTH ty) (2 ^ (8 * SIZE ty) - 1) <-> a = b).
Proof.
  intros fs tie t ty omin omax osub oeq a b M1 M2 M3 M4 X1 X2 X3 X4 S1 S3 S4 Q1 Q3 Q4 Ha Hb.
  assert (Lab : zlen a = zlen b) by (destruct Ha, Hb; lia).
  destruct (c78_min_max fs tie omin t a b M1 M3) as (lo & El & Ll); [rewrite M4; exact Ha|rewrite M4; exact Hb|]. rewrite M2 in Ll. cbn in Ll.
  destruct (c78_min_max fs tie omax t a b X1 X3) as (hi & Eh & Lh); [rewrite X4; exact Ha|rewrite X4; exact Hb|]. rewrite X2 in Lh. cbn in Lh.
  assert (Ha' : int_vector (WIDTH (op_ty osub)) (lane_ity (op_el osub)) a) by (rewrite S4, S3; exact Ha). assert (Hb' : int_vector (WIDTH (op_ty osub)) (lane_ity (op_el osub)) b) by (rewrite S4, S3; exact Hb).
  destruct (proj2 (c78_saturating fs tie osub a b Ha' Hb') S1) as (d1 & E1 & L1). destruct (proj2 (c78_saturating fs tie osub b a Hb' Ha') S1) as (d2 & E2 & L2). rewrite S3 in L1, L2. cbn [lane_ity] in L1, L2.
  destruct (c78_eq_mask fs tie oeq a b Q1) as (q & Eq & Mq); [rewrite Q4, Q3; exact Ha|rewrite Q4, Q3; exact Hb|]. rewrite Q3, Q4 in Mq. destruct Mq as [Mq1 Mq2]. cbn [equal_lanes] in Mq2.
  exists lo, hi, d1, d2, q. do 5 (split; [assumption|]). split; [|split].
  - intros i x y Hx Hy. exists (Z.min x y), (Z.max x y). split; [exact (proj2 Ll i x y Hx Hy)|]. split; [exact (proj2 Lh i x y Hx Hy)|]. lia.
  - intros Hs i x y Hx Hy. exists (Z.min x y), (Z.max x y), (Z.max (imin t) (Z.min (imax t) (x - y))), (Z.max (imin t) (Z.min (imax t) (y - x))).
    split; [exact (proj2 Ll i x y Hx Hy)|]. split; [exact (proj2 Lh i x y Hx Hy)|]. split; [exact (proj2 L1 i x y Hx Hy)|]. split; [exact (proj2 L2 i y x Hy Hx)|].
    pose proof (int_vector_at _ _ _ _ _ Ha Hx) as Rx. pose proof (int_vector_at _ _ _ _ _ Hb Hy) as Ry. unfold in_ity in Rx, Ry. unfold imin in *. rewrite Hs in *. clear -Rx Ry. lia.
  - assert (Z0 : 2 ^ (8 * SIZE ty) - 1 <> 0 \/ WIDTH ty <= 0). { left. destruct (Z_le_gt_dec (8 * SIZE ty) 0) as [N|N].
      - exfalso. pose proof (proj1 (forallb_forall _ _) eq_sizes oeq Q1) as K. cbv beta in K. rewrite Q4 in K. clear -K N. apply Z.ltb_lt in K. lia.
      - assert (2 ^ 1 <= 2 ^ (8 * SIZE ty)) by (apply Z.pow_le_mono_r; lia). lia. }
    split.
    + intros ->. apply znth_ext; [exact Lab|]. intros i Hi. destruct (znth_exists a i Hi) as [x Hx]. destruct (znth_exists b i ltac:(lia)) as [y Hy]. rewrite Hx, Hy.
      destruct (Mq2 i x y Hx Hy) as [_ K]. destruct (Z.eq_dec x y) as [->|Ne]; [reflexivity|]. specialize (K Ne). rewrite znth_splat in K by (destruct Ha; lia). exfalso. destruct Z0 as [Z0|Z0]; [congruence|destruct Ha; lia].
    + intros <-. apply znth_ext; [rewrite Mq1; unfold splat, zlen; rewrite repeat_length; destruct Ha as [Ha _]; unfold zlen in Ha; lia|]. intros i Hi. rewrite Mq1 in Hi. destruct (znth_exists a i Hi) as [x Hx].
      rewrite (proj1 (Mq2 i x x Hx Hx) eq_refl), znth_splat by (destruct Ha; lia). reflexivity.
Qed.

Lemma same_values : forall t t' v r, Forall2 (same_value (EInt t) (EInt t')) v r -> r = v.
Proof. intros t t' v r F. induction F as [|x y v r H F IH]; [reflexivity|]. cbn [same_value] in H. subst. reflexivity. Qed.

Definition casts_back (p q : port_impl) : bool :=
  implb (String.eqb (pt_outvec p) (pt_vec q) && String.eqb (pt_vec p) (pt_outvec q))
    (vty_eqb (pt_outty p) (pt_ty q) && vty_eqb (pt_ty p) (pt_outty q) && elty_eqb (pt_out p) (pt_el q) && elty_eqb (pt_el p) (pt_out q) && (WIDTH (pt_ty p) =? 2 * WIDTH (pt_ty q)) &&
     match pt_el p, pt_out p with
     | EInt t, EInt t' => eqb (isigned t) (isigned t') && (2 * ibytes t =? ibytes t')%nat && (1 <=? ibytes t)%nat && eqb (is_u64 (pt_el q)) (ity_eqb t u32)
     | _, _ => true end).

Lemma casts_checked : forallb (fun p => forallb (casts_back p) x86_downcast) x86_upcast = true.
Proof. vm_compute. reflexivity. Qed.

Lemma back_facts : forall p q t t', In p x86_upcast -> In q x86_downcast -> pt_outvec p = pt_vec q -> pt_vec p = pt_outvec q -> pt_el p = EInt t -> pt_out p = EInt t' ->
  pt_outty p = pt_ty q /\ pt_ty p = pt_outty q /\ pt_el q = EInt t' /\ pt_out q = EInt t /\ WIDTH (pt_ty p) = 2 * WIDTH (pt_ty q) /\
  (forall x, in_ity t x -> in_ity t' x /\ clamp t x = x /\ (isigned t' = false -> x < imod t' / 2)) /\ is_u64 (EInt t') = ity_eqb t u32.
Proof.
  intros p q t t' Hp Hq E1 E2 Et Et'. pose proof (proj1 (forallb_forall _ _) (proj1 (forallb_forall _ _) casts_checked p Hp) q Hq) as C. unfold casts_back in C.
  rewrite E1, <- E2, !String.eqb_refl in C. cbn [andb implb] in C. rewrite !andb_true_iff in C. destruct C as (((((C1 & C2) & C3) & C4) & C5) & C6).
  apply vty_eqb_eq in C1, C2. apply elty_eqb_eq in C3, C4. rewrite Et' in C3. rewrite Et in C4. apply Z.eqb_eq in C5. rewrite Et, Et', <- C3 in C6. rewrite !andb_true_iff in C6. destruct C6 as (((S1 & S2) & S3) & S4).
  apply eqb_prop in S1, S4. apply Nat.eqb_eq in S2. apply Nat.leb_le in S3. repeat (split; [first [assumption|symmetry; assumption]|]). split; [|exact S4].
  intros x Hx. clear -Hx S1 S2 S3. destruct t as [sg n], t' as [sg' n']. cbn [isigned ibytes] in *. subst sg' n'. unfold in_ity, clamp, imin, imax, imod in *. cbn [isigned ibytes] in *.
  set (P := 8 * Z.of_nat n) in *. assert (HP : 8 <= P) by lia. replace (8 * Z.of_nat (2 * n)) with (P + P) by lia.
  assert (H2 : 2 ^ P = 2 * 2 ^ (P - 1)) by (rewrite <- Z.pow_succ_r by lia; f_equal; lia). assert (H4 : 2 ^ (P + P) = 2 ^ P * 2 ^ P) by (apply Z.pow_add_r; lia).
  assert (H5 : 2 ^ (P + P) = 2 * 2 ^ (P + P - 1)) by (rewrite <- Z.pow_succ_r by lia; f_equal; lia). assert (H6 : 2 ^ 7 <= 2 ^ (P - 1)) by (apply Z.pow_le_mono_r; lia). change (2 ^ 7) with 128 in H6.
  assert (H7 : 2 ^ (P - 1) * 256 <= 2 ^ (P + P - 1)) by nia. clear H4. destruct sg; (split; [lia|]; split; [lia|]); intros D; [discriminate|]. lia.
Qed.

Lemma upcast_parts : forall fs narrow p t t' v, In p x86_upcast -> pt_el p = EInt t -> pt_out p = EInt t' -> int_vector (WIDTH (pt_ty p)) t v ->
  exists a b, upcast_in fs narrow (pt_vec p) (pt_outvec p) [v] = Some (Ok [a; b]) /\ a ++ b = v /\ zlen a = WIDTH (pt_outty p) /\ zlen b = WIDTH (pt_outty p).
Proof.
  intros fs narrow p t t' v Hp Et Et' Hv. destruct (c78_upcast fs narrow p v Hp) as (r & E & a & b & -> & La & Lb & F); [rewrite Et; exact Hv|]. rewrite Et, Et' in F. apply same_values in F.
  exists a, b. repeat split; assumption.
Qed.

Lemma halves_vectors : forall w t t' a b, Forall (in_ity t) (a ++ b) -> (forall x, in_ity t x -> in_ity t' x) -> zlen a = w -> zlen b = w -> int_vector w t' a /\ int_vector w t' b.
Proof. intros w t t' a b F I La Lb. apply Forall_app in F. destruct F as [Fa Fb]. split; (split; [assumption|]); eapply Forall_impl; [exact I|assumption|exact I|assumption]. Qed.

(** Whether the optimised [saturating_downcast] of the 256-bit vectors of lanes of up to
    32 bits is in the build: with AVX2 (see [C47_downcast_256_refuted]). *)
Lemma wide_casts : forallb (fun x => Bool.eqb (String.eqb (xp_feat x) "avx2") (negb (bytes (xp_ty x) =? 16)) && negb (SIZE (xp_ty x) =? 8) && match xp_out x with EInt _ => true | _ => false end) x86_downcast_optimized &&
  forallb (fun q => match pt_el q with EInt _ => implb (negb (bytes (pt_ty q) =? 16) && negb (SIZE (pt_ty q) =? 8)) (existsb (fun x => key_eqb (xp_vec x, xp_outvec x) (pt_vec q, pt_outvec q) && String.eqb (xp_feat x) "avx2") x86_downcast_optimized) | _ => true end) x86_downcast = true.
Proof. vm_compute. reflexivity. Qed.

Lemma c85_roundtrip_partial : forall (fs : features) (narrow : Z -> Z) (p q : port_impl) (t t' : ity) (v : list Z), In p x86_upcast -> In q x86_downcast ->
  pt_outvec p = pt_vec q -> pt_vec p = pt_outvec q -> pt_el p = EInt t -> pt_out p = EInt t' -> int_vector (WIDTH (pt_ty p)) t v ->
  bytes (pt_ty q) = 16 \/ SIZE (pt_ty q) = 8 \/ fs "avx2"%string = false -> (t = u32 -> Forall (fun x => x <= 2147483647) v) ->
  exists a b, upcast_in fs narrow (pt_vec p) (pt_outvec p) [v] = Some (Ok [a; b]) /\ downcast_in fs narrow (pt_vec q) (pt_outvec q) [a; b] = Some (Ok [v]).
Proof.
  intros fs narrow p q t t' v Hp Hq E1 E2 Et Et' Hv Hb Hu. destruct (back_facts p q t t' Hp Hq E1 E2 Et Et') as (B1 & B2 & B3 & B4 & B5 & B6 & B7).
  destruct (upcast_parts fs narrow p t t' v Hp Et Et' Hv) as (a & b & E & Eab & La & Lb). exists a, b. split; [exact E|]. rewrite B1 in La, Lb. pose proof (proj2 Hv) as F. rewrite <- Eab in F.
  destruct (halves_vectors (WIDTH (pt_ty q)) t t' a b F (fun x H => proj1 (B6 x H)) La Lb) as [Va Vb]. rewrite Eab in F.
  assert (Cl : map (clamp t) v = v). { clear -F B6. induction F as [|x v Hx F IH]; [reflexivity|]. cbn [map]. rewrite IH, (proj1 (proj2 (B6 x Hx))). reflexivity. }
  pose proof port_coherent as C. rewrite !andb_true_iff in C. destruct C as (((((_ & _) & C1) & _) & _) & C2).
  pose proof wide_casts as W. rewrite andb_true_iff in W. destruct W as [W _]. unfold downcast_in, port_in.
  destruct (present_one _ _ _ _ _ _ _ _ x86_downcast_optimized x86_downcast fs q C1 Hq) as [Ep|(x & Hin & K & S & Hf & Ep)]; cbv beta in Ep; rewrite Ep; cbn [run_one].
  - do 2 f_equal. destruct (is_u64 (EInt t')) eqn:U.
    + try rewrite U in B7. symmetry in B7. assert (Ht : t = u32). { unfold ity_eqb in B7. rewrite andb_true_iff in B7. destruct B7 as [G1 G2]. apply eqb_prop in G1. apply Nat.eqb_eq in G2. clear -G1 G2. destruct t as [sg n]. cbn in G1, G2. subst. reflexivity. }
      rewrite c47_downcast_u64_partial; [rewrite Eab, <- Ht, Cl; reflexivity|apply in_or_app; left; exact Hq|rewrite B3; exact U|rewrite B3; exact Va|rewrite B3; exact Vb|rewrite Eab; exact (Hu Ht)].
    + rewrite c47_downcast_portable_partial; [rewrite Eab, B4, Cl; reflexivity|apply in_or_app; left; exact Hq|rewrite B3; exact U|rewrite B3; exact Va|rewrite B3; exact Vb].
  - pose proof (proj1 (forallb_forall _ _) W x Hin) as N. cbv beta in N. rewrite !andb_true_iff, negb_true_iff, Z.eqb_neq in N. destruct N as ((N1 & N2) & N3). apply eqb_prop in N1. injection S as S1 S2. do 2 f_equal.
    unfold port_shape_ok in C2. rewrite forallb_forall in C2. specialize (C2 x Hin). cbv beta in C2. rewrite forallb_forall in C2. specialize (C2 q Hq). cbv beta in C2. rewrite (proj2 (key_eqb_eq _ _) K) in C2. cbn [implb] in C2. rewrite andb_true_iff in C2. destruct C2 as [_ C3]. apply elty_eqb_eq in C3.
    assert (Nf : xp_feat x <> "avx2"%string).
    { intros Hx. rewrite Hx, String.eqb_refl in N1. symmetry in N1. rewrite negb_true_iff, Z.eqb_neq in N1. rewrite S1 in N1, N2. destruct Hb as [Hb|[Hb|Hb]]; [exact (N1 Hb)|exact (N2 Hb)|]. rewrite Hx in Hf. congruence. }
    rewrite c47_downcast_optimized_partial; [rewrite C3, B4, Eab; cbn [lane_ity]; rewrite Cl; reflexivity|exact Hin|exact Nf|rewrite S1, S2, B3; exact Va|rewrite S1, S2, B3; exact Vb|].
    rewrite S2, B3, Eab. cbn [lane_ity]. intros Hs. eapply Forall_impl; [|exact F]. intros y Hy. exact (proj2 (proj2 (B6 y Hy)) Hs).
Qed.

Lemma quarters : forallb (fun q => WIDTH (pt_outty q) mod 4 =? 0) x86_downcast = true.
Proof. vm_compute. reflexivity. Qed.

Lemma firstn_app2 {A : Type} : forall n (a b : list A), length a = n -> firstn n (a ++ b) = a.
Proof. intros n a b <-. rewrite firstn_app, firstn_all, Nat.sub_diag. cbn [firstn]. apply app_nil_r. Qed.

Lemma skipn_app2 {A : Type} : forall n (a b : list A), length a = n -> skipn n (a ++ b) = b.
Proof. intros n a b <-. rewrite skipn_app, skipn_all, Nat.sub_diag. reflexivity. Qed.

Lemma c85_roundtrip_256_refuted : forall (fs : features) (narrow : Z -> Z) (p q : port_impl) (t t' : ity) (v1 v2 v3 v4 : list Z), In p x86_upcast -> In q x86_downcast ->
  pt_outvec p = pt_vec q -> pt_vec p = pt_outvec q -> pt_el p = EInt t -> pt_out p = EInt t' -> int_vector (WIDTH (pt_ty p)) t (v1 ++ v2 ++ v3 ++ v4) ->
  bytes (pt_ty q) <> 16 -> SIZE (pt_ty q) <> 8 -> fs "avx2"%string = true ->
  zlen v1 = WIDTH (pt_ty p) / 4 -> zlen v2 = WIDTH (pt_ty p) / 4 -> zlen v3 = WIDTH (pt_ty p) / 4 -> v2 <> v3 ->
  exists a b, upcast_in fs narrow (pt_vec p) (pt_outvec p) [v1 ++ v2 ++ v3 ++ v4] = Some (Ok [a; b]) /\
    downcast_in fs narrow (pt_vec q) (pt_outvec q) [a; b] = Some (Ok [v1 ++ v3 ++ v2 ++ v4]) /\ v1 ++ v3 ++ v2 ++ v4 <> v1 ++ v2 ++ v3 ++ v4.
Proof.
  intros fs narrow p q t t' v1 v2 v3 v4 Hp Hq E1 E2 Et Et' Hv Hb H8 Hfs L1 L2 L3 Ne. destruct (back_facts p q t t' Hp Hq E1 E2 Et Et') as (B1 & B2 & B3 & B4 & B5 & B6 & _).
  destruct (upcast_parts fs narrow p t t' _ Hp Et Et' Hv) as (a & b & E & Eab & La & Lb). exists a, b. split; [exact E|]. rewrite B1 in La, Lb.
  pose proof port_coherent as C. rewrite !andb_true_iff in C. destruct C as (((((_ & _) & C1) & _) & _) & C2).
  pose proof wide_casts as W. rewrite andb_true_iff in W. destruct W as [W W2]. rewrite forallb_forall in W2. specialize (W2 q Hq). cbv beta in W2. rewrite B3 in W2. apply Z.eqb_neq in Hb, H8. rewrite Hb, H8 in W2. cbn [negb andb implb] in W2.
  unfold downcast_in, port_in.
  destruct (present_one _ _ _ _ _ _ _ _ x86_downcast_optimized x86_downcast fs q C1 Hq) as [Ep|(x & Hin & K & S & Hf & Ep)]; cbv beta in Ep.
  - exfalso. apply existsb_exists in W2. destruct W2 as (x & Hin & K). rewrite andb_true_iff in K. destruct K as [K N]. apply String.eqb_eq in N.
    assert (Hx : In (inl x) (present (fun x => (xp_vec x, xp_outvec x)) xp_feat (fun p => (pt_vec p, pt_outvec p)) pt_not fs x86_downcast_optimized x86_downcast (pt_vec q, pt_outvec q))).
    { unfold present. apply in_or_app. left. apply in_map. apply filter_In. split; [exact Hin|]. rewrite K, N, Hfs. reflexivity. }
    rewrite Ep in Hx. destruct Hx as [Hx|[]]. discriminate.
  - rewrite Ep. cbn [run_one]. injection S as S1 S2. pose proof (proj1 (forallb_forall _ _) W x Hin) as N. cbv beta in N. rewrite !andb_true_iff in N. destruct N as ((N1 & _) & _). apply eqb_prop in N1. rewrite S1, Hb in N1. apply String.eqb_eq in N1.
    unfold port_shape_ok in C2. rewrite forallb_forall in C2. specialize (C2 x Hin). cbv beta in C2. rewrite forallb_forall in C2. specialize (C2 q Hq). cbv beta in C2. rewrite (proj2 (key_eqb_eq _ _) K) in C2. cbn [implb] in C2. rewrite andb_true_iff in C2. destruct C2 as [_ C3]. apply elty_eqb_eq in C3.
    pose proof (proj2 Hv) as F. rewrite <- Eab in F. destruct (halves_vectors (WIDTH (pt_ty q)) t t a b F (fun x H => H) La Lb) as [Va Vb].
    assert (Q : WIDTH (pt_ty p) mod 4 = 0) by (clear -Hq B2; pose proof (proj1 (forallb_forall _ _) quarters q Hq) as Q; cbv beta in Q; rewrite <- B2 in Q; apply Z.eqb_eq in Q; exact Q).
    set (h := Z.to_nat (WIDTH (pt_ty q) / 2)) in *. assert (Hh : WIDTH (pt_ty p) / 4 = Z.of_nat h) by (clear -B5 Q La; unfold h; pose proof (zlen_nonneg a); lia).
    assert (Ea : a = v1 ++ v2). { apply (f_equal (firstn (h + h))) in Eab. rewrite firstn_app2 in Eab by (unfold zlen in La; clear -La B5 Hh Q; lia). rewrite Eab, app_assoc, firstn_app2 by (rewrite app_length; unfold zlen in *; clear -L1 L2 Hh; lia). reflexivity. }
    assert (Eb : b = v3 ++ v4). { rewrite Ea, <- !app_assoc in Eab. apply app_inv_head in Eab. apply app_inv_head in Eab. exact Eab. }
    assert (Fa : firstn h a = v1 /\ skipn h a = v2) by (rewrite Ea; split; [apply firstn_app2|apply skipn_app2]; unfold zlen in L1; clear -L1 Hh; lia). destruct Fa as [Fa1 Fa2].
    assert (Fb : firstn h b = v3 /\ skipn h b = v4) by (rewrite Eb; split; [apply firstn_app2|apply skipn_app2]; unfold zlen in L3; clear -L3 Hh; lia). destruct Fb as [Fb1 Fb2].
    destruct (c47_downcast_256_refuted x a b Hin N1) as (R1 & _ & _); [rewrite S1, C3, B4; exact Va|rewrite S1, C3, B4; exact Vb|rewrite S1; fold h; rewrite Fa2, Fb1; exact Ne|].
    rewrite S1 in R1. fold h in R1. rewrite Fa1, Fa2, Fb1, Fb2 in R1. rewrite R1, <- app_assoc. split; [reflexivity|].
    intros Eq. apply app_inv_head in Eq. apply Ne. apply (f_equal (firstn h)) in Eq. rewrite !firstn_app2 in Eq by (unfold zlen in L2, L3; clear -L2 L3 Hh; lia). symmetry. exact Eq.
Qed.

(** With every feature up to AVX2 ("a Haswell"). *)
(*props*)
Definition with_avx2 (f : string) : bool := sandy_bridge f || String.eqb f "avx2".

Lemma no_wide_u64 : forallb (fun x => negb (is_u64 (xp_el x))) x86_downcast_optimized = true.
Proof. vm_compute. reflexivity. Qed.

Lemma c85_roundtrip_u32_refuted : forall (fs : features) (narrow : Z -> Z) (p q : port_impl) (v : list Z) (i x : Z), In p x86_upcast -> In q x86_downcast ->
  pt_outvec p = pt_vec q -> pt_vec p = pt_outvec q -> pt_el p = EInt u32 -> pt_out p = EInt u64 -> int_vector (WIDTH (pt_ty p)) u32 v ->
  WIDTH (pt_ty p) / 2 <= i -> znth v i = Some x -> 2147483647 < x ->
  exists a b r, upcast_in fs narrow (pt_vec p) (pt_outvec p) [v] = Some (Ok [a; b]) /\ downcast_in fs narrow (pt_vec q) (pt_outvec q) [a; b] = Some (Ok [r]) /\ znth r i = Some 2147483647 /\ r <> v.
Proof.
  intros fs narrow p q v i x Hp Hq E1 E2 Et Et' Hv Hi Hx Hbig. destruct (back_facts p q u32 u64 Hp Hq E1 E2 Et Et') as (B1 & B2 & B3 & B4 & B5 & B6 & _).
  destruct (upcast_parts fs narrow p u32 u64 v Hp Et Et' Hv) as (a & b & E & Eab & La & Lb). rewrite B1 in La, Lb. pose proof (proj2 Hv) as F. rewrite <- Eab in F.
  destruct (halves_vectors (WIDTH (pt_ty q)) u32 u64 a b F (fun x H => proj1 (B6 x H)) La Lb) as [Va Vb].
  assert (Hxb : znth b (i - zlen a) = Some x). { rewrite <- Eab in Hx. rewrite znth_app_r in Hx by (rewrite La; clear -Hi B5; lia). exact Hx. }
  destruct (c47_downcast_u64_refuted narrow q a b (i - zlen a) x) as (r & R1 & R2 & _); [apply in_or_app; left; exact Hq|rewrite B3; reflexivity|rewrite B3; exact Va|rewrite B3; exact Vb|exact Hxb|exact Hbig|].
  replace (zlen a + (i - zlen a)) with i in R2 by lia. exists a, b, r. split; [exact E|]. split; [|split; [exact R2|intros ->; rewrite Hx in R2; injection R2 as R2; lia]].
  pose proof port_coherent as C. rewrite !andb_true_iff in C. destruct C as (((((_ & _) & C1) & _) & _) & _). unfold downcast_in, port_in.
  destruct (present_one _ _ _ _ _ _ _ _ x86_downcast_optimized x86_downcast fs q C1 Hq) as [Ep|(y & Hin & K & S & Hf & Ep)]; cbv beta in Ep; rewrite Ep; cbn [run_one]; [rewrite R1; reflexivity|].
  exfalso. injection S as S1 S2. pose proof (proj1 (forallb_forall _ _) no_wide_u64 y Hin) as N. cbv beta in N. rewrite S2, B3 in N. discriminate.
Qed.

Lemma horizontal_total : forall t, (0 < ibytes t)%nat -> forall n a b r, length a = (2 * n)%nat -> length b = (2 * n)%nat -> horizontal (fun x y => wrap t (x + y)) a b r -> cong (imod t) (total r) (total a + total b).
Proof.
  intros t Ht. induction n as [|n IH]; intros a b r Ha Hb [Hl H].
  - destruct a; [|discriminate]. destruct b; [|discriminate]. destruct r; [|unfold zlen in Hl; cbn in Hl; lia]. exists 0. reflexivity.
  - destruct a as [|x [|y a]]; cbn [length] in Ha; try lia. destruct b as [|u [|v b]]; cbn [length] in Hb; try lia. destruct r as [|p [|q r]]; unfold zlen in Hl; cbn [length] in Hl; try lia.
    destruct (H 0 x y u v ltac:(lia) eq_refl eq_refl eq_refl eq_refl) as [P Q]. cbn in P, Q. injection P as ->. injection Q as ->.
    destruct (IH a b r) as [k K]; [lia|lia| |].
    + split; [unfold zlen; lia|]. intros i x' y' u' v' Hi E1 E2 E3 E4. destruct (H (i + 1) x' y' u' v') as [G1 G2]; [lia| | | | |].
      * rewrite !znth_cons_shift by lia. replace (2 * (i + 1) - 1 - 1) with (2 * i) by lia. exact E1.
      * rewrite !znth_cons_shift by lia. replace (2 * (i + 1) + 1 - 1 - 1) with (2 * i + 1) by lia. exact E2.
      * rewrite !znth_cons_shift by lia. replace (2 * (i + 1) - 1 - 1) with (2 * i) by lia. exact E3.
      * rewrite !znth_cons_shift by lia. replace (2 * (i + 1) + 1 - 1 - 1) with (2 * i + 1) by lia. exact E4.
      * rewrite !znth_cons_shift in G1 by lia. replace (2 * (i + 1) - 1 - 1) with (2 * i) in G1 by lia. rewrite !znth_cons_shift in G2 by lia. replace (2 * (i + 1) + 1 - 1 - 1) with (2 * i + 1) in G2 by lia. split; assumption.
    + assert (W1 : exists k1, wrap t (x + y) = x + y + k1 * imod t) by (exact (wrap_cong t (x + y))). assert (W2 : exists k2, wrap t (u + v) = u + v + k2 * imod t) by (exact (wrap_cong t (u + v))).
      destruct W1 as [k1 ->], W2 as [k2 ->]. exists (k + k1 + k2). cbn [total fold_right] in *. fold (total r) (total a) (total b) in *. rewrite K. ring.
Qed.

Lemma sum_tables : forallb (fun o => forallb (fun s => implb (String.eqb (h_vec o) (s_vec s)) (vty_eqb (h_ty o) (s_ty s) && elty_eqb (h_el o) (s_el s))) x86_sum &&
  (WIDTH (h_ty o) mod 2 =? 0) && match h_el o with EInt t => (0 <? ibytes t)%nat | _ => true end) x86_hadd = true.
Proof. vm_compute. reflexivity. Qed.

Lemma c84_sum_hadd : forall (fs : features) (fadd fsub : elty -> Z -> Z -> Z) (c : config) (o : hop_impl) (s : fold_impl) (t : ity) (a b : list Z), In o x86_hadd -> In s x86_sum -> h_vec o = s_vec s -> h_el o = EInt t -> build c = Release ->
  (forall e u v, e = EF32 \/ e = EF64 -> in_ity (lane_ity e) u -> in_ity (lane_ity e) v -> in_ity (lane_ity e) (fadd e u v)) ->
  int_vector (WIDTH (h_ty o)) t a -> int_vector (WIDTH (h_ty o)) t b ->
  exists r x, hadd_in fs fadd fsub c (h_vec o) a b = Some (Ok r) /\ sum_in fs fadd c (s_vec s) r = Some (Ok x) /\ sum_mod t (a ++ b) x.
Proof.
  intros fs fadd fsub c o s t a b Ho Hs Ev Et Hc Hf Ha Hb. pose proof (proj1 (forallb_forall _ _) sum_tables o Ho) as T. cbv beta in T. rewrite Et, !andb_true_iff in T. destruct T as ((T & T2) & T3).
  pose proof (proj1 (forallb_forall _ _) T s Hs) as T1. cbv beta in T1. rewrite (proj2 (String.eqb_eq _ _) Ev) in T1. cbn [implb] in T1. rewrite andb_true_iff in T1. destruct T1 as [T4 T5]. apply vty_eqb_eq in T4. apply elty_eqb_eq in T5. apply Z.eqb_eq in T2. apply Nat.ltb_lt in T3.
  destruct (c78_hadd fs fadd fsub c o a b Ho Hf) as (r & E & H); [rewrite Et; exact Ha|rewrite Et; exact Hb|intros t' _ D; congruence|]. rewrite Et in H.
  assert (Hn : exists n : nat, length a = (2 * n)%nat /\ length b = (2 * n)%nat). { exists (Z.to_nat (WIDTH (h_ty o) / 2)). destruct Ha as [Ha _]. destruct Hb as [Hb _]. unfold zlen in *. clear -Ha Hb T2. lia. } destruct Hn as (n & La & Lb).
  assert (Hr : int_vector (WIDTH (s_ty s)) t r).
  { rewrite <- T4. split; [rewrite (proj1 H); exact (proj1 Ha)|]. apply forall_znth. intros i x Hx. pose proof (znth_Some_lt _ _ _ Hx) as Hi. rewrite (proj1 H) in Hi. assert (Li : 0 <= i / 2 /\ 2 * (i / 2) + 1 < zlen a) by (clear -Hi La; unfold zlen in *; lia).
    destruct (znth_exists a (2 * (i / 2)) ltac:(lia)) as [x0 G0]. destruct (znth_exists a (2 * (i / 2) + 1) ltac:(lia)) as [x1 G1]. assert (Lab : zlen a = zlen b) by (destruct Ha, Hb; lia).
    destruct (znth_exists b (2 * (i / 2)) ltac:(lia)) as [y0 G2]. destruct (znth_exists b (2 * (i / 2) + 1) ltac:(lia)) as [y1 G3].
    destruct (proj2 H (i / 2) x0 x1 y0 y1 (proj1 Li) G0 G1 G2 G3) as [P Q]. assert (i = 2 * (i / 2) \/ i = 2 * (i / 2) + 1) as [Ei|Ei] by lia; rewrite Ei in Hx; [rewrite P in Hx|rewrite Q in Hx]; injection Hx as <-; apply wrap_in; exact T3. }
  destruct (c78_sum fs fadd c s t r Hs) as (x & Ex & Hx1 & k & Hx2); [congruence|exact Hr|exact Hc|]. exists r, x. split; [exact E|]. split; [exact Ex|]. split; [exact Hx1|].
  destruct (horizontal_total t T3 n a b r La Lb H) as [k' K]. exists (k + k'). rewrite total_app, Hx2, K. ring.
Qed.
