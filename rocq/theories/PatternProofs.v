(** Proofs of the properties: pattern constructors and merges (C35, C36, C37). *)
From Coq Require Import String Ascii.
From Verif Require Import Base Spec VecSpec Vecs Lanes X86 Tables Patterns Merge.
From Coq Require Import Lia ZifyBool ZifyNat.
Open Scope list_scope.
Open Scope Z_scope.
From Verif Require Import ListFacts VecFacts VecProofs.
Ltac Zify.zify_post_hook ::= Z.div_mod_to_equations.

Lemma skipn_repeat : forall (A : Type) (x : A) n k, skipn k (repeat x n) = repeat x (n - k).
Proof. intros A x. induction n as [|n IH]; intros [|k]; cbn; try reflexivity. apply IH. Qed.

Lemma firstn_repeat : forall (A : Type) (x : A) n k, (k <= n)%nat -> firstn k (repeat x n) = repeat x k.
Proof. intros A x. induction n as [|n IH]; intros [|k] H; cbn; try reflexivity; try lia. f_equal. apply IH. lia. Qed.

Lemma firstn_repeat_ge : forall (A : Type) (x : A) n k, (n <= k)%nat -> firstn k (repeat x n) = repeat x n.
Proof. intros A x n k H. apply firstn_all2. rewrite repeat_length. exact H. Qed.

(** The bytes of a window of the mask table. *)
Lemma table_window : forall k len, 0 <= k <= 64 -> 0 <= len <= 64 ->
  sub x86_part_mask k len = repeat 0 (Z.to_nat (Z.min (64 - k) len)) ++ repeat 255 (Z.to_nat (Z.max 0 (k + len - 64))).
Proof.
  intros k len Hk Hl. change x86_part_mask with (repeat 0 64 ++ repeat 255 64). unfold sub.
  rewrite skipn_app, repeat_length, !skipn_repeat. replace (Z.to_nat k - 64)%nat with 0%nat by lia.
  rewrite Nat.sub_0_r, firstn_app, repeat_length. destruct (Z_le_gt_dec len (64 - k)).
  - rewrite firstn_repeat by lia. replace (Z.to_nat len - (64 - Z.to_nat k))%nat with 0%nat by lia.
    replace (Z.to_nat (Z.max 0 (k + len - 64))) with 0%nat by lia. cbn [firstn repeat]. do 2 f_equal. lia.
  - rewrite firstn_repeat_ge by lia. rewrite firstn_repeat by lia. f_equal; f_equal; lia.
Qed.

Lemma debug_mask_checks : forall c ty off, vty_ok ty -> 0 <= off <= WIDTH ty ->
  (let! _ := debug_assert c (off <=? WIDTH ty) in
   match build c with Debug => let! m := umul c off (SIZE ty) in rassert (m <=? 64) | Release => Ok tt end) = Ok tt.
Proof.
  intros c ty off Hty Ho. pose proof (vty_ok_facts _ Hty) as (H1 & H2 & H3 & H4 & H5 & H6). pose proof usize_mod_val.
  unfold debug_assert. destruct (build c) eqn:Eb; [|reflexivity].
  replace (off <=? WIDTH ty) with true by lia. cbn [rassert bind].
  assert (off * SIZE ty <= 64) by nia. assert (0 <= off * SIZE ty) by nia. rewrite umul_ok by lia. cbn [bind].
  replace (off * SIZE ty <=? 64) with true by lia. reflexivity.
Qed.

Lemma c35_partition_mask : forall (c : config) (table : list Z) (ty : vty) (off : Z),
  In table [x86_part_mask; unknown_part_mask] -> vty_ok ty -> 0 <= off <= WIDTH ty ->
  partition_mask_bytes c table ty off =
    Ok (repeat 0 (Z.to_nat (off * SIZE ty)) ++ repeat 255 (Z.to_nat ((WIDTH ty - off) * SIZE ty))).
Proof.
  intros c table ty off Hin Hty Ho.
  assert (table = x86_part_mask) as -> by (destruct Hin as [<-|[<-|[]]]; reflexivity).
  pose proof (vty_ok_facts _ Hty) as (H1 & H2 & H3 & H4 & H5 & H6). pose proof usize_mod_val.
  pose proof (debug_mask_checks c ty off Hty Ho) as Hc. unfold partition_mask_bytes.
  destruct (debug_assert c (off <=? WIDTH ty)) as [u| | |]; cbn [bind] in *; try discriminate. rewrite Hc. cbn [bind].
  rewrite usub_ok by lia. cbn [bind].
  assert (Hs64 : 64 / SIZE ty * SIZE ty = 64).
  { destruct Hty as [Hs _]. destruct Hs as [<-|[<-|[<-|[<-|[]]]]]; reflexivity. }
  replace (128 <? 64 / SIZE ty - off) with false by lia.
  replace (negb (WIDTH ty <=? 128 - (64 / SIZE ty - off))) with false by lia.
  change (zlen x86_part_mask) with 128.
  assert (Hmul : (64 / SIZE ty - off) * SIZE ty = 64 - off * SIZE ty) by nia.
  assert (Hb : (64 / SIZE ty - off + WIDTH ty) * SIZE ty <= 128) by nia.
  replace ((64 / SIZE ty - off + WIDTH ty) * SIZE ty <=? 128) with true by lia.
  assert (0 <= off * SIZE ty <= 64) by nia. assert (0 <= WIDTH ty * SIZE ty) by nia.
  assert (off * SIZE ty <= WIDTH ty * SIZE ty) by nia.
  rewrite Hmul, table_window by lia. do 2 f_equal; f_equal; [lia|].
  rewrite Z.mul_sub_distr_r. lia.
Qed.

Lemma c36_mask_in_table_partial : forall (c : config) (table : list Z) (ty : vty) (off : Z),
  In table [x86_part_mask; unknown_part_mask] -> vty_ok ty -> 0 <= off < usize_mod ->
  build c = Debug \/ SIZE ty = 1 \/ off <= 64 / SIZE ty ->
  partition_mask_bytes c table ty off = Panic \/
  exists m, partition_mask_bytes c table ty off = Ok m /\ zlen m = WIDTH ty * SIZE ty.
Proof.
  intros c table ty off Hin Hty Ho Hok.
  assert (table = x86_part_mask) as -> by (destruct Hin as [<-|[<-|[]]]; reflexivity).
  pose proof (vty_ok_facts _ Hty) as (H1 & H2 & H3 & H4 & H5 & H6). pose proof usize_mod_val as Hum.
  assert (Hs64 : 64 / SIZE ty * SIZE ty = 64).
  { destruct Hty as [Hs _]. destruct Hs as [<-|[<-|[<-|[<-|[]]]]]; reflexivity. }
  destruct (Z_le_gt_dec off (WIDTH ty)) as [Hle|Hgt].
  - right. eexists. split; [apply c35_partition_mask; [left; reflexivity|assumption|lia]|].
    rewrite zlen_app. unfold zlen. rewrite !repeat_length. assert (0 <= off * SIZE ty) by nia. assert (0 <= (WIDTH ty - off) * SIZE ty) by nia. lia.
  - unfold partition_mask_bytes. unfold debug_assert. destruct (build c) eqn:Eb.
    + left. replace (off <=? WIDTH ty) with false by lia. reflexivity.
    + cbn [bind]. destruct (Z_le_gt_dec off (64 / SIZE ty)) as [Hle|Hgt2].
      * right. rewrite usub_ok by lia. cbn [bind]. replace (128 <? 64 / SIZE ty - off) with false by lia.
        replace (negb (WIDTH ty <=? 128 - (64 / SIZE ty - off))) with false by lia.
        change (zlen x86_part_mask) with 128. assert (Hb : (64 / SIZE ty - off + WIDTH ty) * SIZE ty <= 128) by nia.
        replace ((64 / SIZE ty - off + WIDTH ty) * SIZE ty <=? 128) with true by lia. eexists. split; [reflexivity|].
        apply zlen_sub; [nia|nia|]. change (zlen x86_part_mask) with 128. lia.
      * destruct Hok as [Hok|[Hok|Hok]]; [discriminate| |lia]. rewrite Hok in *. change (64 / 1) with 64 in *.
        unfold usub, uarith. replace ((0 <=? 64 - off) && (64 - off <? usize_mod)) with false by lia. rewrite Eb. cbn [bind].
        assert (Hm : (64 - off) mod usize_mod = 64 - off + usize_mod) by (symmetry; apply (Z.mod_unique_pos _ _ (-1)); lia).
        rewrite Hm. destruct (128 <? 64 - off + usize_mod) eqn:E; [left; reflexivity|].
        destruct (negb (WIDTH ty <=? 128 - (64 - off + usize_mod))) eqn:E2; [left; reflexivity|]. right.
        change (zlen x86_part_mask) with 128. replace ((64 - off + usize_mod + WIDTH ty) * 1 <=? 128) with true by lia.
        eexists. split; [reflexivity|]. apply zlen_sub; [lia|lia|]. change (zlen x86_part_mask) with 128. lia.
Qed.

Lemma c36_mask_overread_refuted : forall (table : list Z) (ty : vty) (b : bool),
  In table [x86_part_mask; unknown_part_mask] -> vty_ok ty -> 1 < SIZE ty ->
  exists off, 0 <= off < usize_mod /\ partition_mask_bytes (mkConfig Release b) table ty off = UB.
Proof.
  intros table ty b Hin Hty Hs.
  assert (table = x86_part_mask) as -> by (destruct Hin as [<-|[<-|[]]]; reflexivity).
  pose proof (vty_ok_facts _ Hty) as (H1 & H2 & H3 & H4 & H5 & H6). pose proof usize_mod_val as Hum.
  assert (Hs64 : 64 / SIZE ty * SIZE ty = 64).
  { destruct Hty as [Hs' _]. destruct Hs' as [<-|[<-|[<-|[<-|[]]]]]; reflexivity. }
  set (d := 64 / SIZE ty - WIDTH ty + 1). exists (usize_mod - d). split; [lia|].
  unfold partition_mask_bytes, debug_assert, usub, uarith. cbn [build bind].
  replace ((0 <=? 64 / SIZE ty - (usize_mod - d)) && (64 / SIZE ty - (usize_mod - d) <? usize_mod)) with false by lia. cbn [bind].
  assert (Hm : (64 / SIZE ty - (usize_mod - d)) mod usize_mod = 64 / SIZE ty + d) by (symmetry; apply (Z.mod_unique_pos _ _ (-1)); lia).
  rewrite Hm. assert (64 / SIZE ty <= 32) by nia.
  replace (128 <? 64 / SIZE ty + d) with false by lia.
  replace (negb (WIDTH ty <=? 128 - (64 / SIZE ty + d))) with false by lia. change (zlen x86_part_mask) with 128.
  replace ((64 / SIZE ty + d + WIDTH ty) * SIZE ty <=? 128) with false; [reflexivity|].
  symmetry. apply Z.leb_gt. unfold d. replace (64 / SIZE ty + (64 / SIZE ty - WIDTH ty + 1) + WIDTH ty) with (2 * (64 / SIZE ty) + 1) by lia. nia.
Qed.

Lemma threshold_mask : forall off w, (off <= w)%nat ->
  map (fun i => Z.of_nat off <=? Z.of_nat i) (seq 0 w) = repeat false off ++ repeat true (w - off).
Proof.
  intros off w H. replace w with (off + (w - off))%nat at 1 by lia. rewrite seq_app, map_app. cbn [Nat.add]. f_equal.
  - assert (G : forall n k, (k + n <= off)%nat -> map (fun i => Z.of_nat off <=? Z.of_nat i) (seq k n) = repeat false n).
    { induction n as [|n IH]; intros k Hk; [reflexivity|]. cbn [seq map repeat]. f_equal; [lia|]. apply IH. lia. }
    apply G. lia.
  - assert (G : forall n k, (off <= k)%nat -> map (fun i => Z.of_nat off <=? Z.of_nat i) (seq k n) = repeat true n).
    { induction n as [|n IH]; intros k Hk; [reflexivity|]. cbn [seq map repeat]. f_equal; [lia|]. apply IH. lia. }
    apply G. lia.
Qed.

Definition widen (n : nat) (k : bool) : list Z := repeat (if k then 255 else 0) n.

Lemma mask_bytes_lanes : forall (c : config) table (ty : vty) (off : Z), In table [x86_part_mask; unknown_part_mask] -> vty_ok ty -> 0 <= off <= WIDTH ty ->
  partition_mask_bytes c table ty off = Ok (flat_map (widen (Z.to_nat (SIZE ty))) (repeat false (Z.to_nat off) ++ repeat true (Z.to_nat (WIDTH ty - off)))).
Proof.
  intros c table ty off Hin Hty Ho. pose proof (vty_ok_facts _ Hty) as (H1 & H2 & H3 & _).
  rewrite c35_partition_mask by assumption. rewrite flat_map_app.
  assert (G : forall (b : bool) n, flat_map (widen (Z.to_nat (SIZE ty))) (repeat b n) = repeat (if b then 255 else 0) (n * Z.to_nat (SIZE ty))).
  { intros b. induction n as [|n IH]; [reflexivity|]. cbn [repeat flat_map Nat.mul]. rewrite IH. unfold widen. rewrite <- repeat_app. reflexivity. }
  rewrite !G, !Z2Nat.inj_mul by lia. reflexivity.
Qed.

Lemma c35_mask_lanes : forall (c : config) (ty : vty) (off : Z), vty_ok ty -> 0 <= off <= WIDTH ty ->
  exists m, partition_mask c ty off = Ok m /\
    partition_mask_bytes c x86_part_mask ty off = Ok (flat_map (fun k : bool => repeat (if k then 255 else 0) (Z.to_nat (SIZE ty))) m).
Proof.
  intros c ty off Hty Ho. exists (repeat false (Z.to_nat off) ++ repeat true (Z.to_nat (WIDTH ty - off))). split.
  - rewrite partition_mask_ok by assumption. f_equal.
    transitivity (map (fun i => Z.of_nat (Z.to_nat off) <=? Z.of_nat i) (seq 0 (Z.to_nat (WIDTH ty)))).
    { rewrite Z2Nat.id by lia. reflexivity. }
    rewrite threshold_mask by lia. do 2 f_equal. lia.
  - apply mask_bytes_lanes; [left; reflexivity|assumption|assumption].
Qed.

Fixpoint ls (n : nat) : string := match n with O => EmptyString | S n' => String "l"%char (ls n') end.

Fixpoint hls (k n : nat) : string :=
  match k with
  | O => ls n
  | S k' => String "h"%char (hls k' n)
  end.

Fixpoint hlhl (n : nat) : string :=
  match n with O => EmptyString | S n' => String "h"%char (String "l"%char (hlhl n')) end.

Lemma spell_hls : forall (A : Type) (hi lo : A) k n, spell hi lo (hls k n) = repeat hi k ++ repeat lo n.
Proof.
  intros A hi lo. induction k as [|k IH]; intros n; [|cbn; f_equal; apply IH].
  induction n as [|n IHn]; [reflexivity|]. cbn in *. f_equal. exact IHn.
Qed.

Lemma spell_hlhl : forall (A : Type) (hi lo : A) n i, 0 <= i < 2 * Z.of_nat n -> znth (spell hi lo (hlhl n)) i = Some (if i mod 2 =? 0 then hi else lo).
Proof.
  intros A hi lo. induction n as [|n IH]; intros i Hi; [lia|].
  destruct (Z.eq_dec i 0) as [->|H0]; [reflexivity|]. destruct (Z.eq_dec i 1) as [->|H1]; [reflexivity|].
  change (spell hi lo (hlhl (S n))) with ([hi; lo] ++ spell hi lo (hlhl n)). rewrite znth_app by lia. change (zlen [hi; lo]) with 2.
  replace (i <? 2) with false by lia. rewrite IH by lia. replace ((i - 2) mod 2) with (i mod 2) by lia. reflexivity.
Qed.

Lemma spell_hlhl_len : forall (A : Type) (hi lo : A) n, zlen (spell hi lo (hlhl n)) = 2 * Z.of_nat n.
Proof. intros A hi lo. induction n as [|n IH]; [reflexivity|]. cbn [hlhl spell]. rewrite !zlen_cons, IH. lia. Qed.

Definition pattern_check (p : pattern_impl) : bool :=
  let w := Z.to_nat (WIDTH (pi_ty p)) in
  let h := Nat.div w 2 in
  (Z.of_nat h * 2 =? WIDTH (pi_ty p)) &&
  String.eqb (pi_halfs p) (hls h h) && String.eqb (pi_interleave p) (hlhl h) &&
  forallb (fun k => match find (fun a => fst a =? Z.of_nat k) (pi_arms p) with Some a => String.eqb (snd a) (hls k (w - k)) | None => false end) (seq 0 (S w)) &&
  (pi_ones p =? 2 ^ (8 * SIZE (pi_ty p)) - 1) && (pi_zeroes p =? 0).

Lemma patterns_checked : forallb pattern_check (x86_patterns ++ unknown_patterns) = true.
Proof. vm_compute. reflexivity. Qed.

Lemma pattern_checked : forall p, In p (x86_patterns ++ unknown_patterns) -> pattern_check p = true.
Proof. apply forallb_forall. exact patterns_checked. Qed.

Lemma c35_halfs_interleave : forall (A : Type) (p : pattern_impl) (hi lo : A),
  In p (x86_patterns ++ unknown_patterns) ->
  halfs p hi lo = repeat hi (Z.to_nat (WIDTH (pi_ty p) / 2)) ++ repeat lo (Z.to_nat (WIDTH (pi_ty p) / 2)) /\
  WIDTH (pi_ty p) mod 2 = 0 /\ zlen (interleave p hi lo) = WIDTH (pi_ty p) /\
  forall i, 0 <= i < WIDTH (pi_ty p) -> znth (interleave p hi lo) i = Some (if i mod 2 =? 0 then hi else lo).
Proof.
  intros A p hi lo Hin. pose proof (pattern_checked p Hin) as H. unfold pattern_check in H. rewrite !andb_true_iff in H.
  destruct H as (((((H0 & H1) & H2) & _) & _) & _). apply String.eqb_eq in H1, H2. apply Z.eqb_eq in H0.
  set (h := Nat.div (Z.to_nat (WIDTH (pi_ty p))) 2) in *. unfold halfs, interleave. rewrite H1, H2, spell_hls, spell_hlhl_len.
  replace (Z.to_nat (WIDTH (pi_ty p) / 2)) with h by lia. split; [reflexivity|]. split; [lia|]. split; [lia|].
  intros i Hi. apply spell_hlhl. lia.
Qed.

Lemma c35_partition : forall (A : Type) (p : pattern_impl) (hi lo : A) (off : Z),
  In p (x86_patterns ++ unknown_patterns) -> 0 <= off ->
  partition_portable p hi lo off =
    if off <=? WIDTH (pi_ty p) then Ok (repeat hi (Z.to_nat off) ++ repeat lo (Z.to_nat (WIDTH (pi_ty p) - off))) else Panic.
Proof.
  intros A p hi lo off Hin Ho. pose proof (pattern_checked p Hin) as H. unfold pattern_check in H. rewrite !andb_true_iff in H.
  destruct H as (((((H0 & _) & _) & H1) & _) & _). unfold partition_portable. destruct (off <=? WIDTH (pi_ty p)) eqn:E; [|reflexivity].
  cbn [rassert bind]. rewrite forallb_forall in H1. specialize (H1 (Z.to_nat off)). rewrite Z2Nat.id in H1 by lia.
  assert (Hs : In (Z.to_nat off) (seq 0 (S (Z.to_nat (WIDTH (pi_ty p)))))) by (apply in_seq; lia). specialize (H1 Hs).
  destruct (find (fun a : Z * string => fst a =? off) (pi_arms p)) as [a|]; [|discriminate].
  apply String.eqb_eq in H1. rewrite H1, spell_hls. do 3 f_equal. lia.
Qed.

Lemma blendv_app : forall a1 b1 m1 a2 b2 m2, length a1 = length m1 -> length b1 = length m1 ->
  blendv_epi8 (a1 ++ a2) (b1 ++ b2) (m1 ++ m2) = blendv_epi8 a1 b1 m1 ++ blendv_epi8 a2 b2 m2.
Proof.
  induction a1 as [|x a1 IH]; intros [|y b1] [|k m1] a2 b2 m2 H1 H2; cbn in *; try lia; [reflexivity|]. f_equal. apply IH; lia.
Qed.

Lemma blendv_zero : forall a b n, length a = n -> length b = n -> blendv_epi8 a b (repeat 0 n) = a.
Proof. induction a as [|x a IH]; intros [|y b] [|n] H1 H2; cbn in *; try lia; [reflexivity|]. f_equal. apply IH; lia. Qed.

Lemma blendv_ones : forall a b n, length a = n -> length b = n -> blendv_epi8 a b (repeat 255 n) = b.
Proof. induction a as [|x a IH]; intros [|y b] [|n] H1 H2; cbn in *; try lia; [reflexivity|]. f_equal. apply IH; lia. Qed.

Lemma concat_length_all : forall (A : Type) n (v : list (list A)), Forall (fun x => length x = n) v -> length (concat v) = (length v * n)%nat.
Proof. intros A n v H. induction H as [|x v Hx Hv IH]; [reflexivity|]. cbn. rewrite app_length, IH, Hx. lia. Qed.

Lemma regroup_fuel_concat : forall (A : Type) n (v : list (list A)) fuel, (0 < n)%nat -> Forall (fun x => length x = n) v -> (length v <= fuel)%nat ->
  regroup_fuel fuel n (concat v) = v.
Proof.
  intros A n v fuel Hn H. revert fuel. induction H as [|x v Hx Hv IH]; intros fuel Hf; [destruct fuel; reflexivity|].
  destruct fuel as [|fuel]; [cbn in Hf; lia|]. destruct x as [|e x]; [cbn in Hx; lia|].
  assert (Hf1 : firstn n ((e :: x) ++ concat v) = e :: x) by (rewrite firstn_app, Hx, Nat.sub_diag, firstn_O, app_nil_r, <- Hx; apply firstn_all).
  assert (Hs1 : skipn n ((e :: x) ++ concat v) = concat v) by (rewrite skipn_app, Hx, Nat.sub_diag, skipn_all2 by lia; reflexivity).
  cbn [concat regroup_fuel]. rewrite Hf1, Hs1. cbn [app]. f_equal. apply IH. cbn in Hf. lia.
Qed.

Lemma regroup_concat : forall (A : Type) n (v : list (list A)), (0 < n)%nat -> Forall (fun x => length x = n) v -> regroup n (concat v) = v.
Proof.
  intros A n v Hn H. unfold regroup. apply regroup_fuel_concat; try assumption. rewrite (concat_length_all A n) by exact H. nia.
Qed.

Lemma blend_lanes : forall n m (a b : list (list Z)), Forall (fun x => length x = n) a -> Forall (fun x => length x = n) b ->
  length a = length m -> length b = length m ->
  blendv_epi8 (concat a) (concat b) (flat_map (widen n) m) = concat (lane_select m a b).
Proof.
  intros n. induction m as [|k m IH]; intros a b Ha Hb H1 H2; [destruct a; [|discriminate]; destruct b; [|discriminate]; reflexivity|].
  destruct a as [|x a]; [discriminate|]. destruct b as [|y b]; [discriminate|]. inversion Ha; inversion Hb; subst. cbn [flat_map concat lane_select].
  rewrite blendv_app by (unfold widen; rewrite repeat_length; lia). rewrite IH by (try assumption; cbn in *; lia). f_equal.
  unfold widen. destruct k; [apply blendv_ones|apply blendv_zero]; lia.
Qed.

Lemma lane_select_Forall : forall (A : Type) (P : A -> Prop) m a b, Forall P a -> Forall P b -> Forall P (lane_select m a b).
Proof.
  intros A P. induction m as [|k m IH]; intros [|x a] [|y b] Ha Hb; cbn; try constructor; inversion Ha; inversion Hb; subst.
  - destruct k; assumption.
  - apply IH; assumption.
Qed.

Lemma regroup_blend : forall n m (a b : list (list Z)), (0 < n)%nat -> Forall (fun x => length x = n) a -> Forall (fun x => length x = n) b ->
  length a = length m -> length b = length m ->
  regroup n (blendv_epi8 (concat a) (concat b) (flat_map (widen n) m)) = lane_select m a b.
Proof.
  intros n m a b Hn Ha Hb H1 H2. rewrite blend_lanes by assumption. apply regroup_concat; [exact Hn|]. apply lane_select_Forall; assumption.
Qed.

Lemma select_true : forall (A : Type) n (a b : list A), length a = n -> length b = n -> lane_select (repeat true n) a b = b.
Proof. intros A. induction n as [|n IH]; intros [|x a] [|y b] H1 H2; cbn in *; try lia; [reflexivity|]. f_equal. apply IH; lia. Qed.

Lemma select_split : forall (A : Type) k n (a b : list A), length a = (k + n)%nat -> length b = (k + n)%nat ->
  lane_select (repeat false k ++ repeat true n) a b = firstn k a ++ skipn k b.
Proof.
  intros A. induction k as [|k IH]; intros n a b H1 H2; [apply select_true; assumption|].
  destruct a as [|x a]; [cbn in H1; lia|]. destruct b as [|y b]; [cbn in H2; lia|]. cbn. f_equal. apply IH; cbn in *; lia.
Qed.

Lemma vector_lanes : forall ty v, 0 < SIZE ty -> vector_of ty v -> length v = Z.to_nat (WIDTH ty) /\ Forall (fun x => length x = Z.to_nat (SIZE ty)) v.
Proof.
  intros ty v Hs [H1 H2]. split; [unfold zlen in H1; lia|]. eapply Forall_impl; [|exact H2]. intros x Hx. unfold zlen in Hx. lia.
Qed.

Lemma repeat_vector : forall ty lane, 0 <= WIDTH ty -> 0 < SIZE ty -> zlen lane = SIZE ty -> vector_of ty (splat (WIDTH ty) lane).
Proof.
  intros ty lane Hw Hs Hl. split.
  - unfold splat, zlen. rewrite repeat_length. lia.
  - unfold splat. apply Forall_forall. intros x Hx. apply repeat_spec in Hx. subst x. exact Hl.
Qed.

Lemma c35_partition_blend : forall (c : config) (p : pattern_impl) (hi lo : list Z) (off : Z),
  In p x86_patterns -> vty_ok (pi_ty p) -> zlen hi = SIZE (pi_ty p) -> zlen lo = SIZE (pi_ty p) -> 0 <= off <= WIDTH (pi_ty p) ->
  partition_blend c x86_part_mask (pi_ty p) hi lo off = partition_portable p hi lo off.
Proof.
  intros c p hi lo off Hin Hty Hhi Hlo Ho. pose proof (vty_ok_facts _ Hty) as (H1 & H2 & H3 & _).
  rewrite c35_partition by (try lia; apply in_or_app; left; exact Hin). replace (off <=? WIDTH (pi_ty p)) with true by lia.
  unfold partition_blend. rewrite mask_bytes_lanes by (try assumption; left; reflexivity). cbn [bind].
  destruct (vector_lanes (pi_ty p) _ ltac:(lia) (repeat_vector (pi_ty p) hi ltac:(lia) ltac:(lia) Hhi)) as [Ha1 Ha2].
  destruct (vector_lanes (pi_ty p) _ ltac:(lia) (repeat_vector (pi_ty p) lo ltac:(lia) ltac:(lia) Hlo)) as [Hb1 Hb2].
  rewrite regroup_blend; try assumption; try lia; try (rewrite app_length, !repeat_length; lia).
  f_equal. rewrite select_split by lia. unfold splat. rewrite firstn_repeat by lia. rewrite skipn_repeat. do 2 f_equal. lia.
Qed.

Lemma c35_ones_zeroes : forall (p : pattern_impl), In p (x86_patterns ++ unknown_patterns) ->
  concat (ones p) = repeat 255 (Z.to_nat (WIDTH (pi_ty p) * SIZE (pi_ty p))) /\
  concat (zeroes p) = repeat 0 (Z.to_nat (WIDTH (pi_ty p) * SIZE (pi_ty p))).
Proof.
  intros p Hin. revert p Hin. apply Forall_forall. repeat (constructor; [split; vm_compute; reflexivity|]). constructor.
Qed.

Lemma znth_select : forall (A : Type) m (a b : list A) i, length a = length m -> length b = length m ->
  znth (lane_select m a b) i = match znth m i with Some true => znth b i | Some false => znth a i | None => None end.
Proof.
  intros A m a b i H1 H2. unfold znth. destruct (i <? 0); [reflexivity|]. generalize (Z.to_nat i) as k. revert a b H1 H2.
  induction m as [|x m IH]; intros [|y a] [|z b] H1 H2 k; cbn in H1, H2; try lia; destruct k as [|k]; cbn; try reflexivity.
  - destruct x; reflexivity.
  - apply IH; lia.
Qed.

Lemma select_length : forall (A : Type) m (a b : list A), length a = length m -> length b = length m -> length (lane_select m a b) = length m.
Proof. intros A. induction m as [|x m IH]; intros [|y a] [|z b] H1 H2; cbn in *; try lia. f_equal. apply IH; lia. Qed.

Fixpoint alternating (n : nat) : list bool := match n with O => [] | S n' => false :: true :: alternating n' end.

Lemma alternating_length : forall n, length (alternating n) = (2 * n)%nat.
Proof. induction n as [|n IH]; [reflexivity|]. cbn [alternating length]. lia. Qed.

Lemma alternating_nth : forall n i, 0 <= i < 2 * Z.of_nat n -> znth (alternating n) i = Some (negb (i mod 2 =? 0)).
Proof.
  induction n as [|n IH]; intros i Hi; [lia|].
  destruct (Z.eq_dec i 0) as [->|H0]; [reflexivity|]. destruct (Z.eq_dec i 1) as [->|H1]; [reflexivity|].
  change (alternating (S n)) with ([false; true] ++ alternating n). rewrite znth_app by lia. change (zlen [false; true]) with 2.
  replace (i <? 2) with false by lia. rewrite IH by lia. replace ((i - 2) mod 2) with (i mod 2) by lia. reflexivity.
Qed.

Lemma alternating_picks : forall (A : Type) n (a b : list A), length a = (2 * n)%nat -> length b = (2 * n)%nat ->
  picks (2 * Z.of_nat n) (fun i => i mod 2 =? 0) a b (lane_select (alternating n) a b).
Proof.
  intros A n a b Ha Hb. split.
  - unfold zlen. rewrite select_length; rewrite alternating_length; lia.
  - intros i Hi. rewrite znth_select by (rewrite alternating_length; lia). rewrite alternating_nth by lia.
    destruct (i mod 2 =? 0); reflexivity.
Qed.

Lemma extract_unchecked_in : forall (A : Type) c W (v : list A) i x, znth v i = Some x -> i < W -> extract_unchecked c W v i = Ok x.
Proof. intros A c W v i x H Hi. unfold extract_unchecked. replace (i <? W) with true by lia. rewrite H. reflexivity. Qed.

Lemma extract_all_seq : forall c m (v : list (list Z)) n pre mid post, v = pre ++ mid ++ post -> length mid = n -> zlen v <= WIDTH (mi_ty m) ->
  extract_all c m v (map Z.of_nat (seq (length pre) n)) = Ok mid.
Proof.
  intros c m v. induction n as [|n IH]; intros pre mid post Hv Hl Hw; [destruct mid; [reflexivity|discriminate]|].
  destruct mid as [|x mid]; [discriminate|]. cbn [seq map extract_all].
  assert (Hx : znth v (Z.of_nat (length pre)) = Some x).
  { subst v. rewrite znth_app by lia. unfold zlen. rewrite Z.ltb_irrefl, Z.sub_diag. reflexivity. }
  rewrite (extract_unchecked_in _ c _ _ _ _ Hx).
  2:{ subst v. unfold zlen in *. rewrite !app_length in Hw. cbn in Hw. lia. }
  cbn [bind]. specialize (IH (pre ++ [x]) mid post). rewrite app_length in IH. cbn [length] in IH.
  replace (length pre + 1)%nat with (S (length pre)) in IH by lia. rewrite IH; [reflexivity| |cbn in Hl; lia|exact Hw].
  subst v. rewrite <- app_assoc. reflexivity.
Qed.

Lemma extract_pairs_seq : forall c m (a b : list (list Z)) n pa pb ra rb, a = pa ++ ra -> b = pb ++ rb -> length pa = length pb ->
  length ra = (2 * n)%nat -> length rb = (2 * n)%nat -> zlen a <= WIDTH (mi_ty m) ->
  extract_pairs c m a b (map Z.of_nat (seq (length pa) (2 * n))) = Ok (lane_select (alternating n) ra rb).
Proof.
  intros c m a b. induction n as [|n IH]; intros pa pb ra rb Ha Hb Hp H1 H2 Hw; [reflexivity|].
  destruct ra as [|x0 [|x1 ra]]; cbn in H1; try lia. destruct rb as [|y0 [|y1 rb]]; cbn in H2; try lia.
  replace (2 * S n)%nat with (S (S (2 * n))) by lia. cbn [seq map extract_pairs].
  assert (Hx : znth a (Z.of_nat (length pa)) = Some x0).
  { subst a. rewrite znth_app by lia. unfold zlen. rewrite Z.ltb_irrefl, Z.sub_diag. reflexivity. }
  assert (Hy : znth b (Z.of_nat (S (length pa))) = Some y1).
  { subst b. rewrite znth_app by lia. unfold zlen. rewrite <- Hp. replace (Z.of_nat (S (length pa)) <? Z.of_nat (length pa)) with false by lia.
    replace (Z.of_nat (S (length pa)) - Z.of_nat (length pa)) with 1 by lia. reflexivity. }
  assert (Hlen : zlen a = Z.of_nat (length pa) + 2 + Z.of_nat (length ra)) by (subst a; unfold zlen; rewrite app_length; cbn; lia).
  rewrite (extract_unchecked_in _ c _ _ _ _ Hx) by lia. cbn [bind]. rewrite (extract_unchecked_in _ c _ _ _ _ Hy) by lia. cbn [bind].
  specialize (IH (pa ++ [x0; x1]) (pb ++ [y0; y1]) ra rb). rewrite !app_length in IH. cbn [length] in IH.
  replace (length pa + 2)%nat with (S (S (length pa))) in IH by lia.
  rewrite IH; [reflexivity| | |lia|lia|lia|exact Hw].
  - subst a. rewrite <- app_assoc. reflexivity.
  - subst b. rewrite <- app_assoc. reflexivity.
Qed.

Definition merge_check (m : merge_impl) : bool :=
  let w := Z.to_nat (WIDTH (mi_ty m)) in
  let h := Nat.div w 2 in
  (Z.of_nat h * 2 =? WIDTH (mi_ty m)) && (0 <? SIZE (mi_ty m)) &&
  existsb (Z.eqb (SIZE (mi_ty m))) [1;2;4;8] && existsb (Z.eqb (WIDTH (mi_ty m) * SIZE (mi_ty m))) [16;32;64] &&
  (if list_eq_dec Z.eq_dec (mi_a m) (map Z.of_nat (seq 0 h)) then true else false) &&
  (if list_eq_dec Z.eq_dec (mi_b m) (map Z.of_nat (seq h h)) then true else false) &&
  (if list_eq_dec Z.eq_dec (mi_n m) (map Z.of_nat (seq 0 (2 * h))) then true else false) &&
  (negb (can_blend m) ||
   ((Z.of_nat (mi_usize m) =? SIZE (mi_ty m)) &&
    (if list_eq_dec Z.eq_dec (uscl_min m) (repeat 0 (mi_usize m)) then true else false) &&
    (if list_eq_dec Z.eq_dec (uscl_max m) (repeat 255 (mi_usize m)) then true else false) &&
    match pattern_of x86_patterns (mi_uvec m) with
    | Some p => String.eqb (pi_halfs p) (hls h h) && String.eqb (pi_interleave p) (hlhl h)
    | None => false
    end)).

Lemma merges_checked : forallb merge_check (x86_merges ++ unknown_merges) = true.
Proof. vm_compute. reflexivity. Qed.

Lemma merge_checked : forall m, In m (x86_merges ++ unknown_merges) -> merge_check m = true.
Proof. apply forallb_forall. exact merges_checked. Qed.

Lemma list_dec_true : forall (A : Type) (dec : forall x y : A, {x = y} + {x <> y}) a b, (if list_eq_dec dec a b then true else false) = true -> a = b.
Proof. intros A dec a b. destruct (list_eq_dec dec a b); [auto|discriminate]. Qed.

Lemma merge_facts : forall m, In m (x86_merges ++ unknown_merges) -> exists h, WIDTH (mi_ty m) = 2 * Z.of_nat h /\ vty_ok (mi_ty m) /\
  mi_a m = map Z.of_nat (seq 0 h) /\ mi_b m = map Z.of_nat (seq h h) /\ mi_n m = map Z.of_nat (seq 0 (2 * h)) /\
  (can_blend m = true -> Z.of_nat (mi_usize m) = SIZE (mi_ty m) /\ uscl_min m = widen (mi_usize m) false /\ uscl_max m = widen (mi_usize m) true /\
    exists p, pattern_of x86_patterns (mi_uvec m) = Some p /\ pi_halfs p = hls h h /\ pi_interleave p = hlhl h).
Proof.
  intros m Hin. pose proof (merge_checked m Hin) as H. unfold merge_check in H. rewrite !andb_true_iff in H.
  set (h := Nat.div (Z.to_nat (WIDTH (mi_ty m))) 2) in *. exists h.
  destruct H as (((((((H1 & H2) & H3) & H4) & H5) & H6) & H7) & H8).
  apply list_dec_true in H5, H6, H7. apply Z.eqb_eq in H1. split; [lia|]. split.
  { split.
    - apply existsb_exists in H3. destruct H3 as (x & Hx & E). apply Z.eqb_eq in E. rewrite E. exact Hx.
    - apply existsb_exists in H4. destruct H4 as (x & Hx & E). apply Z.eqb_eq in E. rewrite E. exact Hx. }
  split; [exact H5|]. split; [exact H6|]. split; [exact H7|].
  intros Hb. rewrite Hb in H8. cbn [negb orb] in H8. rewrite !andb_true_iff in H8. destruct H8 as (((H8 & H9) & H10) & H11).
  apply list_dec_true in H9, H10. apply Z.eqb_eq in H8. split; [exact H8|]. split; [exact H9|]. split; [exact H10|].
  destruct (pattern_of x86_patterns (mi_uvec m)) as [p|]; [|discriminate]. rewrite andb_true_iff in H11. destruct H11 as [H11 H12].
  apply String.eqb_eq in H11, H12. exists p. repeat split; assumption.
Qed.

Lemma c37_merge_portable : forall (c : config) (m : merge_impl) (self other : list (list Z)),
  In m (x86_merges ++ unknown_merges) -> vector_of (mi_ty m) self -> vector_of (mi_ty m) other ->
  merge_halves_portable c m self other =
    Ok (firstn (Z.to_nat (WIDTH (mi_ty m) / 2)) self ++ skipn (Z.to_nat (WIDTH (mi_ty m) / 2)) other)%list /\
  (exists r, merge_interleaved_portable c m self other = Ok r /\ picks (WIDTH (mi_ty m)) (fun i => i mod 2 =? 0) self other r) /\
  (forall off, 0 <= off < WIDTH (mi_ty m) ->
     merge_partitioned_portable c m self other off = Ok (firstn (Z.to_nat off) self ++ skipn (Z.to_nat off) other)%list).
Proof.
  intros c m self other Hin Hs Ho. destruct (merge_facts m Hin) as (h & Hw & Hty & Ha & Hb & Hn & _).
  pose proof (vty_ok_facts _ Hty) as (H1 & H2 & H3 & _).
  destruct (vector_lanes (mi_ty m) self ltac:(lia) Hs) as [Hs1 _]. destruct (vector_lanes (mi_ty m) other ltac:(lia) Ho) as [Ho1 _].
  split; [|split].
  - unfold merge_halves_portable. rewrite Ha, Hb. replace (Z.to_nat (WIDTH (mi_ty m) / 2)) with h by lia.
    assert (E1 : extract_all c m self (map Z.of_nat (seq 0 h)) = Ok (firstn h self)).
    { apply (extract_all_seq c m self h [] (firstn h self) (skipn h self)); [cbn; rewrite firstn_skipn; reflexivity|rewrite firstn_length; lia|destruct Hs; lia]. }
    assert (E2 : extract_all c m other (map Z.of_nat (seq h h)) = Ok (skipn h other)).
    { replace (seq h h) with (seq (length (firstn h other)) h) by (rewrite firstn_length; f_equal; lia).
      apply (extract_all_seq c m other h (firstn h other) (skipn h other) []); [rewrite app_nil_r, firstn_skipn; reflexivity|rewrite skipn_length; lia|destruct Ho; lia]. }
    rewrite E1. cbn [bind]. rewrite E2. reflexivity.
  - unfold merge_interleaved_portable. rewrite Hn.
    assert (E : extract_pairs c m self other (map Z.of_nat (seq 0 (2 * h))) = Ok (lane_select (alternating h) self other)).
    { apply (extract_pairs_seq c m self other h [] [] self other); try reflexivity; try lia. destruct Hs; lia. }
    rewrite E.
    eexists. split; [reflexivity|]. rewrite Hw. apply alternating_picks; lia.
  - intros off Hoff. pose proof (merge_partitioned_ok (mkConfig (build c) false) (mi_ty m) self other off Hty) as H.
    unfold merge_partitioned in H. cbn [blend build] in H. unfold merge_partitioned_portable. unfold extract_unchecked, replace_unchecked in *. cbn [build] in H.
    apply H; destruct Hs, Ho; lia.
Qed.

Lemma concat_spell : forall n (s : string), concat (spell (widen n false) (widen n true) s) = flat_map (widen n) (spell false true s).
Proof. intros n. induction s as [|ch s IH]; [reflexivity|]. cbn [spell concat flat_map]. rewrite IH. destruct (Ascii.eqb ch "h"%char); reflexivity. Qed.

Lemma spell_alternating : forall n, spell false true (hlhl n) = alternating n.
Proof. induction n as [|n IH]; [reflexivity|]. cbn. do 2 f_equal. exact IH. Qed.

Lemma c37_merge_blend : forall (c : config) (m : merge_impl) (self other : list (list Z)),
  In m x86_merges -> can_blend m = true -> vector_of (mi_ty m) self -> vector_of (mi_ty m) other ->
  merge_halves_blend m x86_patterns self other =
    Some (firstn (Z.to_nat (WIDTH (mi_ty m) / 2)) self ++ skipn (Z.to_nat (WIDTH (mi_ty m) / 2)) other)%list /\
  (exists r, merge_interleaved_blend m x86_patterns self other = Some r /\ picks (WIDTH (mi_ty m)) (fun i => i mod 2 =? 0) self other r) /\
  (forall off, 0 <= off <= WIDTH (mi_ty m) ->
     merge_partitioned_blend c m x86_part_mask self other off = Ok (firstn (Z.to_nat off) self ++ skipn (Z.to_nat off) other)%list).
Proof.
  intros c m self other Hin Hcb Hs Ho.
  destruct (merge_facts m (in_or_app _ _ _ (or_introl Hin))) as (h & Hw & Hty & _ & _ & _ & Hf). destruct (Hf Hcb) as (Hsz & Hmin & Hmax & p & Hp & Hh & Hi).
  pose proof (vty_ok_facts _ Hty) as (H1 & H2 & H3 & _).
  destruct (vector_lanes (mi_ty m) self ltac:(lia) Hs) as [Hs1 Hs2]. destruct (vector_lanes (mi_ty m) other ltac:(lia) Ho) as [Ho1 Ho2].
  unfold merge_halves_blend, merge_interleaved_blend, merge_partitioned_blend, blend_with. rewrite Hp. unfold halfs, interleave. rewrite Hmin, Hmax, !concat_spell, Hh, Hi.
  replace (mi_usize m) with (Z.to_nat (SIZE (mi_ty m))) by lia. rewrite spell_hls, spell_alternating. split; [|split].
  - f_equal. rewrite regroup_blend; try assumption; try lia; try (rewrite app_length, !repeat_length; lia).
    rewrite select_split by lia. do 3 f_equal; lia.
  - eexists. split; [reflexivity|]. rewrite regroup_blend; try assumption; try lia; try (rewrite alternating_length; lia).
    rewrite Hw. apply alternating_picks; lia.
  - intros off Hoff. rewrite mask_bytes_lanes by (try assumption; left; reflexivity). cbn [bind]. f_equal.
    rewrite regroup_blend; try assumption; try lia; try (rewrite app_length, !repeat_length; lia). apply select_split; lia.
Qed.

Lemma c54_offset_width_refuted : forall (c : config) (m : merge_impl) (self other : list (list Z)),
  In m x86_merges -> can_blend m = true -> vector_of (mi_ty m) self -> vector_of (mi_ty m) other ->
  merge_partitioned_blend c m x86_part_mask self other (WIDTH (mi_ty m)) = Ok self /\
  merge_partitioned_portable c m self other (WIDTH (mi_ty m)) = Panic.
Proof.
  intros c m self other Hin Hcb Hs Ho. destruct (c37_merge_blend c m self other Hin Hcb Hs Ho) as (_ & _ & H).
  destruct (merge_facts m (in_or_app _ _ _ (or_introl Hin))) as (h & Hw & Hty & _). pose proof (vty_ok_facts _ Hty) as (H1 & H2 & H3 & _).
  rewrite H by lia. destruct (vector_lanes (mi_ty m) self ltac:(lia) Hs) as [Hs1 _]. destruct (vector_lanes (mi_ty m) other ltac:(lia) Ho) as [Ho1 _].
  rewrite firstn_all2 by lia. rewrite skipn_all2 by lia. rewrite app_nil_r. split; [reflexivity|].
  unfold merge_partitioned_portable. rewrite Z.ltb_irrefl. reflexivity.
Qed.
