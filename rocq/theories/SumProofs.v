(** Proofs of the properties: sums and bit counts (C42, C43). *)
From Coq Require Import String.
From Verif Require Import Base Spec VecSpec Vecs Lanes Floats FloatSpec X86 X86Reg OpTables OpSpec Ops Ports SumTables Sums SumSpec.
Open Scope list_scope.
Open Scope Z_scope.
From Coq Require Import Lia ZifyBool ZifyNat.
From Verif Require Import ListFacts VecFacts FloatFacts VecProofs ShuffleProofs OpProofs RoundProofs HopProofs PortProofs.
Ltac Zify.zify_post_hook ::= Z.div_mod_to_equations.

(** ** Sums of lists and congruence *)

Lemma total_app : forall a b, total (a ++ b) = total a + total b.
Proof. intros a b. unfold total. induction a as [|x a IH]; cbn [app fold_right]; [reflexivity|rewrite IH; ring]. Qed.

Lemma total_bounds : forall lo hi v, Forall (fun x => lo <= x <= hi) v -> zlen v * lo <= total v <= zlen v * hi.
Proof. intros lo hi v H. induction H as [|x v Hx H IH]; [cbn; lia|]. unfold zlen in *. cbn [total fold_right length]. fold (total v). nia. Qed.

Definition cong (n x y : Z) : Prop := exists k, x = y + k * n.

Lemma cong_refl : forall n x, cong n x x.
Proof. intros n x. exists 0. ring. Qed.

Lemma cong_trans : forall n x y z, cong n x y -> cong n y z -> cong n x z.
Proof. intros n x y z [k ->] [l ->]. exists (k + l). ring. Qed.

Lemma cong_add : forall n x y x' y', cong n x x' -> cong n y y' -> cong n (x + y) (x' + y').
Proof. intros n x y x' y' [k ->] [l ->]. exists (k + l). ring. Qed.

Lemma cong_sub : forall n x y x' y', cong n x x' -> cong n y y' -> cong n (x - y) (x' - y').
Proof. intros n x y x' y' [k ->] [l ->]. exists (k - l). ring. Qed.

Lemma cong_divides : forall n m x y, (exists d, m = d * n) -> cong m x y -> cong n x y.
Proof. intros n m x y [d ->] [k ->]. exists (k * d). ring. Qed.

Lemma wrap_cong : forall t x, cong (imod t) (wrap t x) x.
Proof. intros t x. pose proof (imod_pos t). exists (- ((x - imin t) / imod t)). unfold wrap. pose proof (Z.div_mod (x - imin t) (imod t)). lia. Qed.

Lemma wrap_wraps : forall t x y, cong (imod t) x y -> wrap t x = wrap t y.
Proof. intros t x y [k ->]. pose proof (imod_pos t). apply wrap_eq; [lia|]. apply Z.mod_add. lia. Qed.

Lemma wrap_sum_mod : forall t v x, (0 < ibytes t)%nat -> cong (imod t) x (total v) -> sum_mod t v (wrap t x).
Proof. intros t v x Ht H. split; [apply wrap_in; exact Ht|]. destruct (cong_trans _ _ _ _ (wrap_cong t x) H) as [k E]. exists k. exact E. Qed.

Lemma sum_mod_total : forall t v, in_ity t (total v) -> sum_mod t v (total v).
Proof. intros t v H. split; [exact H|]. exists 0. ring. Qed.

(** ** The portable sums *)

Section Fold.
Variable c : config.
Variable t : ity.
Hypothesis Ht : (0 < ibytes t)%nat.
Notation step := (fun acc x => let! a := acc in iarith c t (a + x)).

Lemma fold_stuck : forall v, fold_left step v (Panic : outcome Z) = Panic.
Proof. induction v as [|x v IH]; [reflexivity|]. cbn [fold_left bind]. exact IH. Qed.

Lemma fold_release : forall v a, build c = Release -> in_ity t a -> fold_left step v (Ok a) = Ok (wrap t (a + total v)).
Proof.
  induction v as [|x v IH]; intros a Hc Ha; cbn [fold_left bind].
  - cbn [total fold_right]. rewrite Z.add_0_r, wrap_id by exact Ha. reflexivity.
  - rewrite iarith_wrap by (left; exact Hc). rewrite IH by (try exact Hc; apply wrap_in; exact Ht). f_equal. apply wrap_wraps. cbn [total fold_right]. fold (total v).
    replace (a + (x + total v)) with (a + x + total v) by ring. apply cong_add; [apply wrap_cong|apply cong_refl].
Qed.

Lemma fold_exact : forall v a, (forall n : nat, in_ity t (a + total (firstn n v))) -> fold_left step v (Ok a) = Ok (a + total v).
Proof.
  induction v as [|x v IH]; intros a H; cbn [fold_left bind].
  - cbn [total fold_right]. rewrite Z.add_0_r. reflexivity.
  - pose proof (H 1%nat) as H1. cbn [firstn total fold_right] in H1. rewrite Z.add_0_r in H1. rewrite iarith_wrap by (right; exact H1). rewrite wrap_id by exact H1. rewrite IH.
    + f_equal. cbn [total fold_right]. fold (total v). ring.
    + intros n. specialize (H (S n)). cbn [firstn total fold_right] in H. fold (total (firstn n v)) in H. rewrite <- Z.add_assoc. exact H.
Qed.

Lemma fold_debug : forall v a, build c = Debug -> in_ity t a -> (exists n : nat, ~ in_ity t (a + total (firstn n v))) -> fold_left step v (Ok a) = Panic.
Proof.
  induction v as [|x v IH]; intros a Hc Ha [n H]; cbn [fold_left bind].
  - exfalso. apply H. rewrite firstn_nil. cbn [total fold_right]. rewrite Z.add_0_r. exact Ha.
  - destruct n as [|n]; [exfalso; apply H; cbn [firstn total fold_right]; rewrite Z.add_0_r; exact Ha|].
    destruct (iarith_cases c t (a + x)) as [E|[z E]]; [rewrite E; apply fold_stuck|].
    assert (Hr : in_ity t (a + x)) by (pose proof (iarith_debug_overflow c t (a + x) Hc) as [_ G]; unfold in_ity in *; destruct (Z_le_gt_dec (imin t) (a + x)); destruct (Z_le_gt_dec (a + x) (imax t)); try lia; rewrite G in E by lia; discriminate).
    rewrite iarith_wrap by (right; exact Hr). rewrite wrap_id by exact Hr. apply IH; [exact Hc|exact Hr|]. exists n. cbn [firstn total fold_right] in H. fold (total (firstn n v)) in H. rewrite <- Z.add_assoc. exact H.
Qed.
End Fold.

Lemma in_ity_dec : forall t x, in_ity t x \/ ~ in_ity t x.
Proof. intros t x. unfold in_ity. lia. Qed.

Lemma overflow_dec : forall t v, no_overflow t v \/ exists n : nat, ~ in_ity t (total (firstn n v)).
Proof.
  intros t v. assert (H : forall k, (forall n : nat, (n <= k)%nat -> in_ity t (total (firstn n v))) \/ exists n : nat, ~ in_ity t (total (firstn n v))).
  { induction k as [|k [IH|IH]]; [| |right; exact IH].
    - destruct (in_ity_dec t (total (firstn 0 v))) as [H|H]; [left|right; exists 0%nat; exact H]. intros n Hn. replace n with 0%nat by lia. exact H.
    - destruct (in_ity_dec t (total (firstn (S k) v))) as [H|H]; [left|right; exists (S k); exact H]. intros n Hn. destruct (Nat.eq_dec n (S k)) as [->|]; [exact H|]. apply IH. lia. }
  destruct (H (length v)) as [G|G]; [left|right; exact G]. intros n. destruct (Nat.le_gt_cases n (length v)) as [L|L]; [apply G; exact L|]. rewrite firstn_all2 by lia. specialize (G (length v) ltac:(lia)). rewrite firstn_all in G. exact G.
Qed.

Definition lane_sized (e : elty) (ty : vty) : bool := (SIZE ty =? Z.of_nat (ibytes (lane_ity e))) && (0 <? WIDTH ty) && (WIDTH ty <=? 64) && (0 <? SIZE ty).

Lemma sums_checked : forallb (fun s => lane_sized (s_el s) (s_ty s)) (x86_sum ++ unknown_sum ++ x86_upcast_sum ++ unknown_upcast_sum) = true.
Proof. vm_compute. reflexivity. Qed.

Lemma sum_entry : forall s t, In s (x86_sum ++ unknown_sum ++ x86_upcast_sum ++ unknown_upcast_sum) -> s_el s = EInt t -> (0 < ibytes t)%nat /\ 0 < WIDTH (s_ty s) <= 64.
Proof. intros s t H E. pose proof (proj1 (forallb_forall _ _) sums_checked s H) as G. cbv beta in G. unfold lane_sized in G. rewrite E in G. cbn [lane_ity] in G. lia. Qed.

Lemma sum_is_fold : forall fadd c s t v, s_el s = EInt t -> zlen v = WIDTH (s_ty s) ->
  sum_portable fadd c s v = fold_left (fun acc x => let! a := acc in iarith c t (a + x)) v (Ok 0).
Proof. intros fadd c s t v E Hv. unfold sum_portable. rewrite c34_scalar_reduce by exact Hv. cbn [bind]. unfold scalar_add. rewrite E. reflexivity. Qed.

Lemma zero_in : forall t, (0 < ibytes t)%nat -> in_ity t 0.
Proof. intros t H. pose proof (imod_even t H). unfold in_ity, imin, imax. destruct (isigned t); lia. Qed.

Lemma c42_sum_portable : forall (fadd : elty -> Z -> Z -> Z) (c : config) (s : fold_impl) (t : ity) (v : list Z), In s (x86_sum ++ unknown_sum) -> s_el s = EInt t ->
  int_vector (WIDTH (s_ty s)) t v -> build c = Release \/ no_overflow t v ->
  exists r, sum_portable fadd c s v = Ok r /\ sum_mod t v r.
Proof.
  intros fadd c s t v Hs E [Lv _] Hc. destruct (sum_entry s t) as [Ht _]; [rewrite !in_app_iff in *; tauto|exact E|]. rewrite (sum_is_fold fadd c s t v E Lv). destruct Hc as [Hc|Hc].
  - exists (wrap t (0 + total v)). split; [apply fold_release; [exact Ht|exact Hc|apply zero_in; exact Ht]|]. apply wrap_sum_mod; [exact Ht|apply cong_refl].
  - exists (0 + total v). split; [apply fold_exact; assumption|]. apply sum_mod_total. specialize (Hc (length v)). rewrite firstn_all in Hc. exact Hc.
Qed.

Lemma c42_sum_overflow_panics : forall (fadd : elty -> Z -> Z -> Z) (c : config) (s : fold_impl) (t : ity) (v : list Z), In s (x86_sum ++ unknown_sum) -> s_el s = EInt t ->
  int_vector (WIDTH (s_ty s)) t v -> build c = Debug ->
  (sum_portable fadd c s v = Panic <-> exists n : nat, ~ in_ity t (total (firstn n v))).
Proof.
  intros fadd c s t v Hs E [Lv _] Hc. destruct (sum_entry s t) as [Ht _]; [rewrite !in_app_iff in *; tauto|exact E|]. rewrite (sum_is_fold fadd c s t v E Lv). split.
  - intros P. destruct (overflow_dec t v) as [H|H]; [|exact H]. rewrite fold_exact in P by assumption. discriminate.
  - intros H. apply fold_debug; [exact Ht|exact Hc|apply zero_in; exact Ht|exact H].
Qed.

Lemma upcast_is_fold : forall c s t v, s_el s = EInt t -> zlen v = WIDTH (s_ty s) ->
  sum_upcast_portable c s v = fold_left (fun acc x => let! a := acc in iarith c i64 (a + x)) (map (wrap i64) v) (Ok 0).
Proof.
  intros c s t v E Hv. unfold sum_upcast_portable. rewrite c34_scalar_reduce by exact Hv. cbn [bind]. rewrite E. generalize (Ok 0 : outcome Z). clear Hv.
  induction v as [|x v IH]; intros o; cbn [fold_left map]; [reflexivity|]. rewrite IH. reflexivity.
Qed.

Lemma cong_total_wrap : forall t v, cong (imod t) (total (map (wrap t) v)) (total v).
Proof. intros t v. induction v as [|x v IH]; cbn [map total fold_right]; [apply cong_refl|]. apply cong_add; [apply wrap_cong|exact IH]. Qed.

Lemma total_wrap_id : forall v, Forall (fun x => 0 <= x) v \/ Forall (in_ity i64) v -> no_overflow i64 v -> map (wrap i64) v = v.
Proof.
  intros v H Ho. assert (G : Forall (in_ity i64) v).
  { destruct H as [H|H]; [|exact H]. assert (Hb : forall n : nat, total (firstn n v) <= imax i64) by (intros n; apply Ho). clear Ho. assert (N : forall n : nat, 0 <= total (firstn n v)) by (intros n; rewrite <- (firstn_skipn n v) in H; apply Forall_app in H; destruct H as [H _]; clear Hb; induction H as [|x w Hx H IH]; cbn [total fold_right]; [lia|]; fold (total w); lia).
    apply Forall_forall. intros x Hx. destruct (In_nth v x 0 Hx) as (i & Hi & E). split; [change (imin i64) with (-9223372036854775808); rewrite Forall_forall in H; specialize (H x Hx); lia|].
    specialize (Hb (S i)). specialize (N i). rewrite <- (firstn_skipn i v) in E. rewrite app_nth2 in E by (rewrite firstn_length; lia). rewrite firstn_length, Nat.min_l, Nat.sub_diag in E by lia.
    assert (F : firstn (S i) v = firstn i v ++ [x]).
    { rewrite <- (firstn_skipn i v) at 1. destruct (skipn i v) as [|y w] eqn:Sk; [exfalso; assert (L : length (skipn i v) = 0%nat) by (rewrite Sk; reflexivity); rewrite skipn_length in L; lia|]. cbn [nth] in E. subst y.
      rewrite firstn_app, firstn_length, Nat.min_l by lia. rewrite firstn_all2 by (rewrite firstn_length; lia). replace (S i - i)%nat with 1%nat by lia. reflexivity. }
    rewrite F, total_app in Hb. cbn [total fold_right] in Hb. lia. }
  clear H Ho. induction G as [|x v Hx G IH]; cbn [map]; [reflexivity|]. rewrite IH, wrap_id by exact Hx. reflexivity.
Qed.

Lemma c42_sum_upcast_portable : forall (c : config) (s : fold_impl) (t : ity) (v : list Z), In s (x86_upcast_sum ++ unknown_upcast_sum) -> s_el s = EInt t ->
  int_vector (WIDTH (s_ty s)) t v -> build c = Release \/ no_overflow i64 v ->
  exists r, sum_upcast_portable c s v = Ok r /\ sum_mod i64 v r.
Proof.
  intros c s t v Hs E [Lv Rv] Hc. rewrite (upcast_is_fold c s t v E Lv). destruct Hc as [Hc|Hc].
  - exists (wrap i64 (0 + total (map (wrap i64) v))). split; [apply fold_release; [cbn; lia|exact Hc|apply zero_in; cbn; lia]|]. apply wrap_sum_mod; [cbn; lia|]. apply cong_total_wrap.
  - exists (0 + total v). split; [|apply sum_mod_total; specialize (Hc (length v)); rewrite firstn_all in Hc; exact Hc]. rewrite total_wrap_id; [apply fold_exact; exact Hc| |exact Hc].
    assert (T : In t [u8; i8; u16; i16; u32; i32; u64; i64]).
    { assert (C : forallb (fun s => match s_el s with EInt t => existsb (fun u => Bool.eqb (isigned t) (isigned u) && Nat.eqb (ibytes t) (ibytes u)) [u8; i8; u16; i16; u32; i32; u64; i64] | _ => true end) (x86_upcast_sum ++ unknown_upcast_sum) = true) by (vm_compute; reflexivity).
      pose proof (proj1 (forallb_forall _ _) C s Hs) as G. cbv beta in G. rewrite E in G. apply existsb_exists in G. destruct G as (u & Hu & G). apply andb_prop in G. destruct G as [G1 G2]. apply eqb_prop in G1. apply Nat.eqb_eq in G2. destruct t as [ts tb], u as [us ub]. cbn [isigned ibytes] in *. subst. exact Hu. }
    destruct T as [<-|[<-|[<-|[<-|[<-|[<-|[<-|[<-|[]]]]]]]]]; [left|right|left|right|left|right|left|right]; (eapply Forall_impl; [|exact Rv]); intros x Hx; try exact (proj1 Hx); (split; [refine (Z.le_trans _ _ _ _ (proj1 Hx))|refine (Z.le_trans _ _ _ (proj2 Hx) _)]; vm_compute; congruence).
Qed.

Lemma c42_sum_upcast_exact : forall (c : config) (s : fold_impl) (t : ity) (v : list Z), In s (x86_upcast_sum ++ unknown_upcast_sum) -> s_el s = EInt t -> (ibytes t <= 4)%nat ->
  int_vector (WIDTH (s_ty s)) t v -> sum_upcast_portable c s v = Ok (total v).
Proof.
  intros c s t v Hs E Hb Hv. destruct (sum_entry s t) as [Ht Hw]; [rewrite !in_app_iff in *; tauto|exact E|].
  assert (N : no_overflow i64 v).
  { intros n. assert (B : Forall (fun x => - 4294967296 <= x <= 4294967296) (firstn n v)).
    { apply Forall_firstn. eapply Forall_impl; [|apply Hv]. intros x Hx. cbv beta. assert (imod t <= 2 ^ 32) by (unfold imod; apply Z.pow_le_mono_r; lia). pose proof (imod_pos t). change (2 ^ 32) with 4294967296 in *. unfold in_ity, imin, imax in Hx. destruct (isigned t); lia. }
    pose proof (total_bounds _ _ _ B) as T. assert (L : 0 <= zlen (firstn n v) <= 64) by (destruct Hv as [Hv _]; unfold zlen in *; rewrite firstn_length; lia). split; [change (imin i64) with (-9223372036854775808)|change (imax i64) with 9223372036854775807]; nia. }
  destruct (c42_sum_upcast_portable c s t v Hs E Hv (or_intror N)) as (r & -> & Hr & k & Ek). f_equal. pose proof (N (length v)) as T. rewrite firstn_all in T. unfold in_ity in *. change (imin i64) with (-9223372036854775808) in *. change (imax i64) with 9223372036854775807 in *. change (imod i64) with 18446744073709551616 in Ek. lia.
Qed.

Lemma c42_sum_upcast_panics : forall (c : config) (s : fold_impl) (t : ity) (v : list Z), In s (x86_upcast_sum ++ unknown_upcast_sum) -> s_el s = EInt t ->
  int_vector (WIDTH (s_ty s)) t v -> build c = Debug ->
  (sum_upcast_portable c s v = Panic <-> exists n : nat, ~ in_ity i64 (total (firstn n (map (wrap i64) v)))).
Proof.
  intros c s t v Hs E [Lv _] Hc. rewrite (upcast_is_fold c s t v E Lv). split.
  - intros P. destruct (overflow_dec i64 (map (wrap i64) v)) as [H|H]; [|exact H]. rewrite fold_exact in P by assumption. discriminate.
  - intros H. apply fold_debug; [cbn; lia|exact Hc|apply zero_in; cbn; lia|exact H].
Qed.

(** ** Sums of absolute differences *)

Lemma to_bytes_small : forall n s, 0 <= s < 2 ^ 16 -> to_bytes (2 + n) s = [s mod 256; s / 256] ++ repeat 0 n.
Proof.
  intros n s H. assert (Z0 : forall m, to_bytes m 0 = repeat 0 m) by (induction m as [|m IH]; cbn [to_bytes repeat]; [reflexivity|]; f_equal; exact IH).
  change (2 + n)%nat with (S (S n)). cbn [to_bytes app]. rewrite <- (Z0 n). change (2 ^ 16) with 65536 in H. replace (s / 256 / 256) with 0 by lia. replace ((s / 256) mod 256) with (s / 256) by lia. reflexivity.
Qed.

Lemma regroup_two : forall (x y : Z) l, regroup 2 (x :: y :: l) = [x; y] :: regroup 2 l.
Proof.
  assert (F : forall f f' (l : list Z), (length l <= f)%nat -> (length l <= f')%nat -> regroup_fuel f 2 l = regroup_fuel f' 2 l).
  { induction f as [|f IH]; intros f' k H1 H2; [destruct k; [destruct f'; reflexivity|cbn in H1; lia]|]. destruct k as [|x k]; [destruct f'; reflexivity|]. destruct f' as [|f']; [cbn in H2; lia|]. cbn [regroup_fuel]. f_equal. apply IH; rewrite skipn_length; cbn [length] in *; lia. }
  intros x y l. unfold regroup. transitivity ([x; y] :: regroup_fuel (S (length l)) 2 l); [reflexivity|]. f_equal. apply F; lia.
Qed.

Lemma sad_lane : forall s l, 0 <= s < 2 ^ 16 -> lanes_of u16 (bytes_of u64 (s :: l)) = [s; 0; 0; 0] ++ lanes_of u16 (bytes_of u64 l).
Proof.
  intros s l H. cbn [bytes_of flat_map]. fold (bytes_of u64 l). change (ibytes u64) with (2 + 6)%nat. rewrite to_bytes_small by exact H. change (repeat 0 6) with [0; 0; 0; 0; 0; 0].
  unfold lanes_of. change (ibytes u16) with 2%nat. cbn [app]. rewrite !regroup_two. cbn [map].
  assert (W : wrap u16 (of_bytes [s mod 256; s / 256]) = s) by (unfold of_bytes; cbn [fold_right]; change (2 ^ 16) with 65536 in H; rewrite wrap_id; [lia|]; split; [change (imin u16) with 0|change (imax u16) with 65535]; lia).
  rewrite W. reflexivity.
Qed.

Lemma zipw_zero : forall v, Forall is_byte v -> zipw (fun x y => Z.abs (x - y)) v (repeat 0 (length v)) = v.
Proof. intros v H. induction H as [|x v Hx H IH]; cbn [zipw repeat length]; [reflexivity|]. rewrite IH. f_equal. unfold is_byte in Hx. lia. Qed.

Lemma byte_total : forall v, Forall is_byte v -> (length v <= 32)%nat -> 0 <= total v < 2 ^ 16.
Proof. intros v H L. assert (B : Forall (fun x => 0 <= x <= 255) v) by (eapply Forall_impl; [|exact H]; unfold is_byte; lia). pose proof (total_bounds _ _ _ B). unfold zlen in *. lia. Qed.

Lemma sad_16 : forall v, Forall is_byte v -> length v = 16%nat -> sad_u16s v = [total (firstn 8 v); 0; 0; 0; total (skipn 8 v); 0; 0; 0].
Proof.
  intros v H L. unfold sad_u16s, psad. rewrite zipw_zero by exact H.
  assert (R : regroup 8 v = [firstn 8 v; skipn 8 v]) by (do 16 (destruct v as [|? v]; [discriminate L|]); destruct v; [reflexivity|discriminate L]).
  rewrite R. cbn [map]. rewrite !sad_lane; [reflexivity| |].
  - apply byte_total; [apply Forall_skipn; exact H|rewrite skipn_length; lia].
  - apply byte_total; [apply Forall_firstn; exact H|rewrite firstn_length; lia].
Qed.

Lemma quarters : forall v, total v = total (firstn 8 v) + total (firstn 8 (skipn 8 v)) + total (firstn 8 (skipn 16 v)) + total (skipn 24 v).
Proof.
  intros v. assert (H : forall n l, total l = total (firstn n l) + total (skipn n l)) by (intros n l; rewrite <- total_app, firstn_skipn; reflexivity).
  rewrite (H 8%nat v), (H 8%nat (skipn 8 v)), skipn_skipn. change (8 + 8)%nat with 16%nat. rewrite (H 8%nat (skipn 16 v)), skipn_skipn. change (16 + 8)%nat with 24%nat. ring.
Qed.

Lemma sad_32 : forall v, Forall is_byte v -> length v = 32%nat ->
  sad_u16s v = [total (firstn 8 v); 0; 0; 0; total (firstn 8 (skipn 8 v)); 0; 0; 0; total (firstn 8 (skipn 16 v)); 0; 0; 0; total (skipn 24 v); 0; 0; 0].
Proof.
  intros v H L. unfold sad_u16s, psad. rewrite zipw_zero by exact H.
  assert (R : regroup 8 v = [firstn 8 v; firstn 8 (skipn 8 v); firstn 8 (skipn 16 v); skipn 24 v]) by (do 32 (destruct v as [|? v]; [discriminate L|]); destruct v; [reflexivity|discriminate L]).
  rewrite R. cbn [map]. rewrite !sad_lane; [reflexivity| | | |]; (apply byte_total; [auto using Forall_skipn, Forall_firstn|rewrite ?firstn_length, ?skipn_length; lia]).
Qed.

Ltac read := repeat match goal with |- context [extract ?w ?l ?i] => let n := eval vm_compute in (Z.to_nat i) in let x := eval cbn [nth] in (nth n l 0) in change (extract w l i) with (Ok x : outcome Z) end; cbn [bind].

Lemma sum_u8x16_total : forall c v, Forall is_byte v -> length v = 16%nat -> sum_u8x16 c v = Ok (total v) /\ 0 <= total v < 2 ^ 16.
Proof.
  intros c v H L. pose proof (byte_total v H ltac:(lia)) as B. split; [|exact B]. unfold sum_u8x16. rewrite sad_16 by assumption. read. rewrite <- total_app, firstn_skipn. rewrite iarith_wrap; [rewrite wrap_id; [reflexivity|]|right]; (split; [change (imin u16) with 0|change (imax u16) with 65535]; lia).
Qed.

Lemma sum_u8x32_total : forall c v, Forall is_byte v -> length v = 32%nat -> sum_u8x32 c v = Ok (total v) /\ 0 <= total v < 2 ^ 16.
Proof.
  intros c v H L. pose proof (byte_total v H ltac:(lia)) as B. split; [|exact B]. unfold sum_u8x32. rewrite sad_32 by assumption.
  assert (E : total v = total (firstn 8 v) + total (firstn 8 (skipn 8 v)) + total (firstn 8 (skipn 16 v)) + total (skipn 24 v)) by apply quarters.
  assert (P : forall l, Forall is_byte l -> 0 <= total l) by (intros l Q; induction Q as [|x l Qx Q IH]; cbn [total fold_right]; [lia|]; fold (total l); unfold is_byte in Qx; lia).
  pose proof (P _ (Forall_firstn _ _ 8 _ H)). pose proof (P _ (Forall_firstn _ _ 8 _ (Forall_skipn _ _ 8 _ H))). pose proof (P _ (Forall_firstn _ _ 8 _ (Forall_skipn _ _ 16 _ H))). pose proof (P _ (Forall_skipn _ _ 24 _ H)).
  read. 
  assert (I : forall x, 0 <= x < 2 ^ 16 -> iarith c u16 x = Ok x) by (intros x Hx; rewrite iarith_wrap; [rewrite wrap_id; [reflexivity|]|right]; (split; [change (imin u16) with 0|change (imax u16) with 65535]; lia)).
  rewrite I by lia. cbn [bind]. rewrite I by lia. cbn [bind]. rewrite I by lia. rewrite E. reflexivity.
Qed.

(** ** The i8 sums *)

Lemma bytes_small : forall t v, ibytes t = 1%nat -> Forall is_byte v -> bytes_of t v = v.
Proof. intros t v Ht H. unfold bytes_of. rewrite Ht. induction H as [|x v Hx H IH]; cbn [flat_map]; [reflexivity|]. rewrite IH. cbn [to_bytes app]. unfold is_byte in Hx. rewrite Z.mod_small by exact Hx. reflexivity. Qed.

Lemma positives_lanes : forall v, Forall (in_ity i8) v -> positives (bytes_of i8 v) = map (fun x => Z.max x 0) v /\ Forall is_byte (map (fun x => Z.max x 0) v).
Proof.
  intros v H. assert (B : Forall is_byte (map (fun x => Z.max x 0) v)) by (apply Forall_map; eapply Forall_impl; [|exact H]; intros x Hx; assert (-128 <= x <= 127) by exact Hx; unfold is_byte; lia).
  split; [|exact B]. unfold positives. rewrite lanes_of_bytes_of by (try exact H; cbn; lia). apply bytes_small; [reflexivity|exact B].
Qed.

Lemma negatives_lanes : forall v, Forall (in_ity i8) v -> negatives (bytes_of i8 v) = map (fun x => Z.abs (Z.min x 0)) v /\ Forall is_byte (map (fun x => Z.abs (Z.min x 0)) v).
Proof.
  intros v H. assert (B : Forall is_byte (map (fun x => Z.abs (Z.min x 0)) v)) by (apply Forall_map; eapply Forall_impl; [|exact H]; intros x Hx; assert (-128 <= x <= 127) by exact Hx; unfold is_byte; lia).
  split; [|exact B]. unfold negatives. rewrite lanes_of_bytes_of by (try exact H; cbn; lia). apply bytes_small; [reflexivity|exact B].
Qed.

Lemma pos_neg : forall v, total (map (fun x => Z.max x 0) v) - total (map (fun x => Z.abs (Z.min x 0)) v) = total v.
Proof. induction v as [|x v IH]; [reflexivity|]. cbn [map total fold_right]. fold (total v). fold (total (map (fun x => Z.max x 0) v)). fold (total (map (fun x => Z.abs (Z.min x 0)) v)). lia. Qed.

Lemma sum_i8x16_total : forall v, Forall (in_ity i8) v -> length v = 16%nat -> exists s, sum_i8x16 (bytes_of i8 v) = Ok s /\ cong (imod u16) s (total v).
Proof.
  intros v H L. unfold sum_i8x16. destruct (positives_lanes v H) as [-> P]. destruct (negatives_lanes v H) as [-> N]. rewrite !sad_16 by (try assumption; rewrite map_length; exact L). unfold sad_difference. read.
  rewrite !firstn_map, !skipn_map, !pos_neg. eexists. split; [reflexivity|]. eapply cong_trans; [apply wrap_cong|]. replace (total v) with (total (firstn 8 v) + total (skipn 8 v)) by (rewrite <- total_app, firstn_skipn; reflexivity). apply cong_add; apply wrap_cong.
Qed.

Lemma sum_i8x32_total : forall v, Forall (in_ity i8) v -> length v = 32%nat -> exists s, sum_i8x32 (bytes_of i8 v) = Ok s /\ cong (imod u16) s (total v).
Proof.
  intros v H L. unfold sum_i8x32. destruct (positives_lanes v H) as [-> P]. destruct (negatives_lanes v H) as [-> N]. rewrite !sad_32 by (try assumption; rewrite map_length; exact L). unfold sad_difference. read.
  rewrite !firstn_map, !skipn_map, !firstn_map, !pos_neg. eexists. split; [reflexivity|].
  assert (E : total v = total (firstn 8 v) + total (firstn 8 (skipn 8 v)) + total (firstn 8 (skipn 16 v)) + total (skipn 24 v)) by apply quarters.
  rewrite E. eapply cong_trans; [apply wrap_cong|]. apply cong_add; [|apply wrap_cong]. eapply cong_trans; [apply wrap_cong|]. apply cong_add; [|apply wrap_cong]. eapply cong_trans; [apply wrap_cong|]. apply cong_add; apply wrap_cong.
Qed.

(** ** The horizontal-add sums *)

Lemma bytes_of_wrapped : forall t v, bytes_of t (map (wrap t) v) = bytes_of t v.
Proof. intros t v. unfold bytes_of. induction v as [|x v IH]; cbn [map flat_map]; [reflexivity|]. rewrite IH, to_bytes_wrap. reflexivity. Qed.

Lemma wrapped_in : forall t v, (0 < ibytes t)%nat -> Forall (in_ity t) (map (wrap t) v).
Proof. intros t v Ht. apply Forall_map. apply Forall_forall. intros x _. apply wrap_in. exact Ht. Qed.

Lemma zeroes_in : forall t n, (0 < ibytes t)%nat -> Forall (in_ity t) (repeat 0 n).
Proof. intros t n Ht. apply Forall_forall. intros x Hx. apply repeat_spec in Hx. subst. apply zero_in. exact Ht. Qed.

Lemma hadd_x8 : forall a b c d e f g h, Forall (in_ity i16) [a; b; c; d; e; f; g; h] ->
  hadd_epi i16 (bytes_of i16 [a; b; c; d; e; f; g; h]) (zeroes 16) = bytes_of i16 (map (wrap i16) [a + b; c + d; e + f; g + h; 0; 0; 0; 0]).
Proof.
  intros a b c d e f g h H. change (zeroes 16) with (bytes_of i16 (repeat 0 8)). unfold hadd_epi. rewrite hop128_lanes by (try exact H; try apply zeroes_in; cbn; lia). rewrite bytes_of_wrapped. reflexivity.
Qed.

Lemma hadd_x16 : forall a b c d e f g h a' b' c' d' e' f' g' h', Forall (in_ity i16) [a; b; c; d; e; f; g; h; a'; b'; c'; d'; e'; f'; g'; h'] ->
  hadd256_epi i16 (bytes_of i16 [a; b; c; d; e; f; g; h; a'; b'; c'; d'; e'; f'; g'; h']) (zeroes 32) = bytes_of i16 (map (wrap i16) [a + b; c + d; e + f; g + h; 0; 0; 0; 0; a' + b'; c' + d'; e' + f'; g' + h'; 0; 0; 0; 0]).
Proof.
  intros a b c d e f g h a' b' c' d' e' f' g' h' H. change (zeroes 32) with (bytes_of i16 (repeat 0 16)). unfold hadd256_epi. rewrite (hop256_lanes _ _ 8) by (try exact H; try apply zeroes_in; cbn; lia). rewrite bytes_of_wrapped. reflexivity.
Qed.

Lemma hadd_i32x8 : forall a b c d a' b' c' d', Forall (in_ity i32) [a; b; c; d; a'; b'; c'; d'] ->
  hadd256_epi i32 (bytes_of i32 [a; b; c; d; a'; b'; c'; d']) (zeroes 32) = bytes_of i32 (map (wrap i32) [a + b; c + d; 0; 0; a' + b'; c' + d'; 0; 0]).
Proof.
  intros a b c d a' b' c' d' H. change (zeroes 32) with (bytes_of i32 (repeat 0 8)). unfold hadd256_epi. rewrite (hop256_lanes _ _ 4) by (try exact H; try apply zeroes_in; cbn; lia). rewrite bytes_of_wrapped. reflexivity.
Qed.

Lemma hadd_twice_lanes : forall v, int_vector 8 i32 v -> exists x y, hadd_twice (bytes_of i32 v) = [x; 0; 0; 0; y; 0; 0; 0] /\ in_ity i32 x /\ in_ity i32 y /\ cong (imod i32) x (total (firstn 4 v)) /\ cong (imod i32) y (total (skipn 4 v)).
Proof.
  intros v [L H]. destruct (list8 _ v L) as (a & b & c & d & a' & b' & c' & d' & ->). unfold hadd_twice. rewrite hadd_i32x8 by exact H. pose proof (wrapped_in i32 [a + b; c + d; 0; 0; a' + b'; c' + d'; 0; 0] ltac:(cbn; lia)) as W. cbn [map] in *. rewrite hadd_i32x8 by exact W.
  rewrite lanes_of_bytes_of; [|cbn; lia|apply wrapped_in; cbn; lia]. cbn [map]. change (wrap i32 0) with 0. change (wrap i32 (0 + 0)) with 0. do 2 eexists. split; [reflexivity|]. cbn [firstn skipn total fold_right].
  split; [apply wrap_in; cbn; lia|]. split; [apply wrap_in; cbn; lia|]. split; (eapply cong_trans; [apply wrap_cong|]); [replace (a + (b + (c + (d + 0)))) with ((a + b) + (c + d)) by ring|replace (a' + (b' + (c' + (d' + 0)))) with ((a' + b') + (c' + d')) by ring]; apply cong_add; apply wrap_cong.
Qed.

Lemma cong_exact : forall t x y, cong (imod t) x y -> in_ity t x -> in_ity t y -> x = y.
Proof. intros t x y C Hx Hy. rewrite <- (wrap_id t x Hx), <- (wrap_id t y Hy). apply wrap_wraps. exact C. Qed.

Definition upcast_u16 : xport := mkXPort "u16x16" (mkVty 16 2) (EInt u16) "u32x8" (mkVty 8 4) (EInt u32) "avx2" (up256 u16 u32 8 same).

Definition upcast_i16 : xport := mkXPort "i16x16" (mkVty 16 2) (EInt i16) "i32x8" (mkVty 8 4) (EInt i32) "avx2" (up256 i16 i32 8 same).

Lemma up256_bytes : forall t1 t2 v, (0 < ibytes t1)%nat -> (8 * ibytes t1 = 16)%nat -> length v = 16%nat -> Forall (in_ity t1) v ->
  up256 t1 t2 8 same [bytes_of t1 v] = [bytes_of t2 (firstn 8 v); bytes_of t2 (skipn 8 v)].
Proof.
  intros t1 t2 v Hp Hn L H. unfold up256, on1. cbn [nth]. assert (Hlen : length (bytes_of t1 v) = 32%nat) by (rewrite bytes_of_len; lia).
  rewrite list_split32 by exact Hlen. unfold low128. rewrite <- Hn. rewrite bytes_of_skipn, bytes_of_firstn. rewrite !cvt_lanes; [|assumption|auto using Forall_firstn, Forall_skipn|assumption|auto using Forall_firstn, Forall_skipn].
  rewrite firstn_firstn, Nat.min_id, (firstn_all2 (skipn 8 v)) by (rewrite skipn_length; lia). unfold same. rewrite !map_id. reflexivity.
Qed.

Lemma sum_x16_total : forall c vec t v, (vec = "u16x16"%string /\ t = u16 \/ vec = "i16x16"%string /\ t = i16) -> int_vector 16 t v -> sum_x16 c vec (bytes_of t v) = Ok (total v) /\ - 2 ^ 20 <= total v <= 2 ^ 20.
Proof.
  intros c vec t v Ht [L H].
  assert (B : Forall (fun x => -65536 <= x <= 65536) v) by (eapply Forall_impl; [|exact H]; intros x Hx; cbv beta; destruct Ht as [[_ ->]|[_ ->]]; [assert (0 <= x <= 65535) by exact Hx|assert (-32768 <= x <= 32767) by exact Hx]; lia).
  pose proof (total_bounds _ _ _ B) as T. rewrite L in T. split; [|lia].
  assert (R : upcast_register vec (bytes_of t v) = [bytes_of i32 (firstn 8 v); bytes_of i32 (skipn 8 v)]).
  { unfold upcast_register. destruct Ht as [[-> ->]|[-> ->]].
    - replace (find _ x86_upcast_optimized) with (Some upcast_u16) by reflexivity. cbn [xp_run upcast_u16]. rewrite up256_bytes by (try exact H; unfold zlen in L; cbn; lia). reflexivity.
    - replace (find _ x86_upcast_optimized) with (Some upcast_i16) by reflexivity. cbn [xp_run upcast_i16]. rewrite up256_bytes by (try exact H; unfold zlen in L; cbn; lia). reflexivity. }
  unfold sum_x16. rewrite R. cbn [nth].
  assert (I : forall l, Forall (fun x => -65536 <= x <= 65536) l -> (length l <= 16)%nat -> in_ity i32 (total l)).
  { intros l Hl Ll. pose proof (total_bounds _ _ _ Hl). unfold zlen in *. split; [change (imin i32) with (-2147483648)|change (imax i32) with 2147483647]; lia. }
  assert (J : forall l, Forall (fun x => -65536 <= x <= 65536) l -> Forall (in_ity i32) l) by (intros l Hl; eapply Forall_impl; [|exact Hl]; intros x Hx; cbv beta in Hx; split; [change (imin i32) with (-2147483648)|change (imax i32) with 2147483647]; lia).
  unfold zlen in L. assert (L1 : length (firstn 8 v) = 8%nat) by (rewrite firstn_length; lia). assert (L2 : length (skipn 8 v) = 8%nat) by (rewrite skipn_length; lia).
  destruct (hadd_twice_lanes (firstn 8 v)) as (x & y & -> & X1 & Y1 & X2 & Y2); [split; [unfold zlen; lia|apply J, Forall_firstn, B]|].
  destruct (hadd_twice_lanes (skipn 8 v)) as (z & w & -> & Z1 & W1 & Z2 & W2); [split; [unfold zlen; lia|apply J, Forall_skipn, B]|].
  set (v1 := firstn 8 v) in *. set (v2 := skipn 8 v) in *. assert (B1 : Forall (fun x => -65536 <= x <= 65536) v1) by (apply Forall_firstn, B). assert (B2 : Forall (fun x => -65536 <= x <= 65536) v2) by (apply Forall_skipn, B).
  apply cong_exact in X2; [|exact X1|apply I; [apply Forall_firstn; exact B1|rewrite firstn_length; lia]]. apply cong_exact in Y2; [|exact Y1|apply I; [apply Forall_skipn; exact B1|rewrite skipn_length; lia]].
  apply cong_exact in Z2; [|exact Z1|apply I; [apply Forall_firstn; exact B2|rewrite firstn_length; lia]]. apply cong_exact in W2; [|exact W1|apply I; [apply Forall_skipn; exact B2|rewrite skipn_length; lia]].
  assert (E : total v = x + y + z + w) by (subst x y z w; rewrite <- (firstn_skipn 8 v); fold v1 v2; rewrite total_app; rewrite <- (firstn_skipn 4 v1) at 1; rewrite <- (firstn_skipn 4 v2) at 1; rewrite !total_app; ring).
  assert (K : forall n l, Forall (fun x => -65536 <= x <= 65536) l -> zlen l <= n -> 0 <= n -> - (n * 65536) <= total l <= n * 65536) by (intros n l Hl Ln Hn; pose proof (total_bounds _ _ _ Hl); nia).
  assert (X3 : -262144 <= x <= 262144) by (rewrite X2; apply (K 4); [apply Forall_firstn; exact B1|unfold zlen; rewrite firstn_length; lia|lia]). assert (Y3 : -262144 <= y <= 262144) by (rewrite Y2; apply (K 4); [apply Forall_skipn; exact B1|unfold zlen; rewrite skipn_length; lia|lia]).
  assert (Z3 : -262144 <= z <= 262144) by (rewrite Z2; apply (K 4); [apply Forall_firstn; exact B2|unfold zlen; rewrite firstn_length; lia|lia]). assert (W3 : -262144 <= w <= 262144) by (rewrite W2; apply (K 4); [apply Forall_skipn; exact B2|unfold zlen; rewrite skipn_length; lia|lia]).
  assert (Q : forall n, -2000000 <= n <= 2000000 -> iarith c i32 n = Ok n) by (intros n Hn; rewrite iarith_wrap; [rewrite wrap_id; [reflexivity|]|right]; (split; [change (imin i32) with (-2147483648)|change (imax i32) with 2147483647]; lia)).
  clear X2 Y2 Z2 W2. read. rewrite Q by lia. cbn [bind]. rewrite Q by lia. cbn [bind]. rewrite Q by lia. rewrite E. reflexivity.
Qed.

Lemma cong_u16 : forall t s x, ibytes t = 1%nat -> cong (imod u16) s x -> cong (imod t) s x.
Proof. intros t s x Ht. apply cong_divides. exists 256. unfold imod. rewrite Ht. reflexivity. Qed.

Lemma half_sums : forall c t v x y, (0 < ibytes t)%nat -> in_ity t x -> in_ity t y -> cong (imod t) x (total (firstn (length v / 2) v)) -> cong (imod t) y (total (skipn (length v / 2) v)) ->
  (build c = Release \/ in_ity t (total v) /\ in_ity t (total (firstn (length v / 2) v)) /\ in_ity t (total (skipn (length v / 2) v))) -> exists r, iarith c t (x + y) = Ok r /\ sum_mod t v r.
Proof.
  intros c t v x y Ht Hx Hy Cx Cy Hc. assert (E : total v = total (firstn (length v / 2) v) + total (skipn (length v / 2) v)) by (rewrite <- total_app, firstn_skipn; reflexivity). exists (wrap t (x + y)). split.
  - apply iarith_wrap. destruct Hc as [Hc|(H0 & H1 & H2)]; [left; exact Hc|right]. rewrite (cong_exact _ _ _ Cx Hx H1), (cong_exact _ _ _ Cy Hy H2), <- E. exact H0.
  - apply wrap_sum_mod; [exact Ht|]. rewrite E. apply cong_add; assumption.
Qed.

Lemma c42_sum_optimized_partial : forall (c : config) (x : xsum) (t : ity) (v : list Z), In x x86_sum_optimized -> xs_el x = EInt t -> int_vector (WIDTH (xs_ty x)) t v ->
  (two_scalar_adds (xs_vec x) = false \/ build c = Release \/ in_ity t (total v) /\ in_ity t (total (firstn (length v / 2) v)) /\ in_ity t (total (skipn (length v / 2) v))) ->
  exists r, sum_optimized c x v = Ok r /\ sum_mod t v r.
Proof.
  intros c x t v Hx Et Hv Hc. unfold x86_sum_optimized in Hx. cbn [In] in Hx. destruct Hx as [<-|[<-|[<-|[<-|[<-|[<-|[<-|[<-|[]]]]]]]]]; cbn [xs_el xs_ty WIDTH two_scalar_adds xs_vec] in *; injection Et as <-; destruct Hv as [L H]; assert (L' := L); unfold zlen in L'; unfold sum_optimized; cbn [xs_el xs_run lane_ity].
  - destruct (sum_i8x16_total v H ltac:(lia)) as (s & -> & C). cbn [bind]. eexists. split; [reflexivity|]. apply wrap_sum_mod; [cbn; lia|]. apply cong_u16; [reflexivity|exact C].
  - destruct (sum_i8x32_total v H ltac:(lia)) as (s & -> & C). cbn [bind]. eexists. split; [reflexivity|]. apply wrap_sum_mod; [cbn; lia|]. apply cong_u16; [reflexivity|exact C].
  - rewrite bytes_small; [|reflexivity|eapply Forall_impl; [|exact H]; intros y Hy; assert (0 <= y <= 255) by exact Hy; unfold is_byte; lia]. destruct (sum_u8x16_total c v) as [-> _]; [eapply Forall_impl; [|exact H]; intros y Hy; assert (0 <= y <= 255) by exact Hy; unfold is_byte; lia|lia|]. cbn [bind]. eexists. split; [reflexivity|]. apply wrap_sum_mod; [cbn; lia|apply cong_refl].
  - rewrite bytes_small; [|reflexivity|eapply Forall_impl; [|exact H]; intros y Hy; assert (0 <= y <= 255) by exact Hy; unfold is_byte; lia]. destruct (sum_u8x32_total c v) as [-> _]; [eapply Forall_impl; [|exact H]; intros y Hy; assert (0 <= y <= 255) by exact Hy; unfold is_byte; lia|lia|]. cbn [bind]. eexists. split; [reflexivity|]. apply wrap_sum_mod; [cbn; lia|apply cong_refl].
  - destruct (list8 _ v L) as (a & b & d & e & f & g & h & i & ->). rewrite hadd_x8 by exact H. cbn [map]. rewrite hadd_x8 by (apply (wrapped_in i16 [a + b; d + e; f + g; h + i; 0; 0; 0; 0]); cbn; lia). cbn [map].
    rewrite hadd_x8 by (apply (wrapped_in i16 [wrap i16 (a + b) + wrap i16 (d + e); wrap i16 (f + g) + wrap i16 (h + i); wrap i16 0 + wrap i16 0; wrap i16 0 + wrap i16 0; 0; 0; 0; 0]); cbn; lia). cbn [map].
    rewrite lanes_of_bytes_of; [|cbn; lia|apply (wrapped_in i16 [_; _; _; _; _; _; _; _]); cbn; lia]. read. eexists. split; [reflexivity|]. apply wrap_sum_mod; [cbn; lia|]. cbn [total fold_right].
    replace (a + (b + (d + (e + (f + (g + (h + (i + 0)))))))) with (((a + b) + (d + e)) + ((f + g) + (h + i))) by ring. apply cong_add; (eapply cong_trans; [apply wrap_cong|]; apply cong_add; apply wrap_cong).
  - destruct Hc as [Hc|Hc]; [discriminate Hc|]. destruct (list16 _ v L) as (a & b & d & e & f & g & h & i & a' & b' & d' & e' & f' & g' & h' & i' & ->). rewrite hadd_x16 by exact H. cbn [map].
    rewrite hadd_x16 by (apply (wrapped_in i16 [a + b; d + e; f + g; h + i; 0; 0; 0; 0; a' + b'; d' + e'; f' + g'; h' + i'; 0; 0; 0; 0]); cbn; lia). cbn [map].
    rewrite hadd_x16 by (apply (wrapped_in i16 [wrap i16 (a + b) + wrap i16 (d + e); wrap i16 (f + g) + wrap i16 (h + i); wrap i16 0 + wrap i16 0; wrap i16 0 + wrap i16 0; 0; 0; 0; 0; wrap i16 (a' + b') + wrap i16 (d' + e'); wrap i16 (f' + g') + wrap i16 (h' + i'); wrap i16 0 + wrap i16 0; wrap i16 0 + wrap i16 0; 0; 0; 0; 0]); cbn; lia). cbn [map].
    rewrite lanes_of_bytes_of; [|cbn; lia|apply (wrapped_in i16 [_; _; _; _; _; _; _; _; _; _; _; _; _; _; _; _]); cbn; lia]. cbv zeta. read.
    apply half_sums; [cbn; lia|apply wrap_in; cbn; lia|apply wrap_in; cbn; lia| | |exact Hc]; change (length _ / 2)%nat with 8%nat; cbn [firstn skipn total fold_right].
    + replace (a + (b + (d + (e + (f + (g + (h + (i + 0)))))))) with (((a + b) + (d + e)) + ((f + g) + (h + i))) by ring. eapply cong_trans; [apply wrap_cong|]. apply cong_add; (eapply cong_trans; [apply wrap_cong|]; apply cong_add; apply wrap_cong).
    + replace (a' + (b' + (d' + (e' + (f' + (g' + (h' + (i' + 0)))))))) with (((a' + b') + (d' + e')) + ((f' + g') + (h' + i'))) by ring. eapply cong_trans; [apply wrap_cong|]. apply cong_add; (eapply cong_trans; [apply wrap_cong|]; apply cong_add; apply wrap_cong).
  - destruct (sum_x16_total c "u16x16" u16 v) as [-> _]; [left; split; reflexivity|split; assumption|]. cbn [bind]. eexists. split; [reflexivity|]. apply wrap_sum_mod; [cbn; lia|apply cong_refl].
  - destruct Hc as [Hc|Hc]; [discriminate Hc|]. destruct (hadd_twice_lanes v) as (y & z & -> & Y1 & Z1 & Y2 & Z2); [split; assumption|]. cbv zeta. read. replace 4%nat with (length v / 2)%nat in Y2, Z2 by (replace (length v) with 8%nat by lia; reflexivity). apply half_sums; try assumption. cbn; lia.
Qed.

Lemma c42_sum_optimized_debug : forall (c : config) (x : xsum) (t : ity) (v : list Z), In x x86_sum_optimized -> two_scalar_adds (xs_vec x) = true -> xs_el x = EInt t -> int_vector (WIDTH (xs_ty x)) t v ->
  exists y z, sum_mod t (firstn (length v / 2) v) y /\ sum_mod t (skipn (length v / 2) v) z /\
    (in_ity t (y + z) -> sum_optimized c x v = Ok (y + z)) /\ (~ in_ity t (y + z) -> build c = Debug -> sum_optimized c x v = Panic).
Proof.
  assert (F : forall t y z (l1 l2 : list Z) c r, in_ity t y -> in_ity t z -> cong (imod t) y (total l1) -> cong (imod t) z (total l2) -> r = iarith c t (y + z) ->
    exists y z, sum_mod t l1 y /\ sum_mod t l2 z /\ (in_ity t (y + z) -> r = Ok (y + z)) /\ (~ in_ity t (y + z) -> build c = Debug -> r = Panic)).
  { intros t y z l1 l2 c r Hy Hz Cy Cz ->. exists y, z. split; [split; [exact Hy|exact Cy]|]. split; [split; [exact Hz|exact Cz]|]. unfold iarith, in_ity. split.
    - intros H. replace ((imin t <=? y + z) && (y + z <=? imax t)) with true by (symmetry; apply andb_true_intro; split; apply Z.leb_le; lia). reflexivity.
    - intros H B. rewrite B. replace ((imin t <=? y + z) && (y + z <=? imax t)) with false; [reflexivity|]. symmetry. apply Bool.andb_false_iff. rewrite !Z.leb_gt. lia. }
  intros c x t v Hx T Et Hv. unfold x86_sum_optimized in Hx. cbn [In] in Hx. destruct Hx as [<-|[<-|[<-|[<-|[<-|[<-|[<-|[<-|[]]]]]]]]]; try discriminate T; cbn [xs_el xs_ty WIDTH] in *; injection Et as <-; destruct Hv as [L H]; assert (L' := L); unfold zlen in L'; unfold sum_optimized; cbn [xs_el xs_run lane_ity].
  - destruct (list16 _ v L) as (a & b & d & e & f & g & h & i & a' & b' & d' & e' & f' & g' & h' & i' & ->). rewrite hadd_x16 by exact H. cbn [map].
    rewrite hadd_x16 by (apply (wrapped_in i16 [a + b; d + e; f + g; h + i; 0; 0; 0; 0; a' + b'; d' + e'; f' + g'; h' + i'; 0; 0; 0; 0]); cbn; lia). cbn [map].
    rewrite hadd_x16 by (apply (wrapped_in i16 [wrap i16 (a + b) + wrap i16 (d + e); wrap i16 (f + g) + wrap i16 (h + i); wrap i16 0 + wrap i16 0; wrap i16 0 + wrap i16 0; 0; 0; 0; 0; wrap i16 (a' + b') + wrap i16 (d' + e'); wrap i16 (f' + g') + wrap i16 (h' + i'); wrap i16 0 + wrap i16 0; wrap i16 0 + wrap i16 0; 0; 0; 0; 0]); cbn; lia). cbn [map].
    rewrite lanes_of_bytes_of; [|cbn; lia|apply (wrapped_in i16 [_; _; _; _; _; _; _; _; _; _; _; _; _; _; _; _]); cbn; lia]. cbv zeta. read.
    eapply F; [apply wrap_in; cbn; lia|apply wrap_in; cbn; lia| | |reflexivity]; change (length _ / 2)%nat with 8%nat; cbn [firstn skipn total fold_right].
    + replace (a + (b + (d + (e + (f + (g + (h + (i + 0)))))))) with (((a + b) + (d + e)) + ((f + g) + (h + i))) by ring. eapply cong_trans; [apply wrap_cong|]. apply cong_add; (eapply cong_trans; [apply wrap_cong|]; apply cong_add; apply wrap_cong).
    + replace (a' + (b' + (d' + (e' + (f' + (g' + (h' + (i' + 0)))))))) with (((a' + b') + (d' + e')) + ((f' + g') + (h' + i'))) by ring. eapply cong_trans; [apply wrap_cong|]. apply cong_add; (eapply cong_trans; [apply wrap_cong|]; apply cong_add; apply wrap_cong).
  - destruct (hadd_twice_lanes v) as (y & z & -> & Y1 & Z1 & Y2 & Z2); [split; assumption|]. cbv zeta. read. replace 4%nat with (length v / 2)%nat in Y2, Z2 by (replace (length v) with 8%nat by lia; reflexivity). eapply F; [exact Y1|exact Z1|exact Y2|exact Z2|reflexivity].
Qed.

Lemma c42_sum_optimized_refuted : forall (c : config) (x : xsum) (t : ity), build c = Debug -> In x x86_sum_optimized -> two_scalar_adds (xs_vec x) = true -> xs_el x = EInt t ->
  exists v, int_vector (WIDTH (xs_ty x)) t v /\ no_overflow t v /\ sum_optimized c x v = Panic.
Proof.
  intros c x t Hc Hx T Et. unfold x86_sum_optimized in Hx. cbn [In] in Hx. destruct Hx as [<-|[<-|[<-|[<-|[<-|[<-|[<-|[<-|[]]]]]]]]]; try discriminate T; cbn [xs_el] in Et; injection Et as <-; destruct c as [m bl]; cbn [build] in Hc; subst m.
  - exists [32767; 0; 0; 0; 0; 0; 0; 0; -30000; -10000; 0; 0; 0; 0; 0; 0]. split; [split; [reflexivity|repeat constructor; vm_compute; congruence]|]. split; [|destruct bl; vm_compute; reflexivity].
    intros n. do 17 (destruct n as [|n]; [vm_compute; split; congruence|]). vm_compute. split; congruence.
  - exists [2147483647; 0; 0; 0; -2000000000; -1000000000; 0; 0]. split; [split; [reflexivity|repeat constructor; vm_compute; congruence]|]. split; [|destruct bl; vm_compute; reflexivity].
    intros n. do 9 (destruct n as [|n]; [vm_compute; split; congruence|]). vm_compute. split; congruence.
Qed.

Lemma c42_sum_upcast_optimized : forall (c : config) (x : xsum) (t : ity) (v : list Z), In x x86_sum_upcast_optimized -> xs_el x = EInt t -> t <> i8 -> int_vector (WIDTH (xs_ty x)) t v ->
  sum_optimized c x v = Ok (total v).
Proof.
  assert (W : forall n, - 2 ^ 20 <= n <= 2 ^ 20 -> wrap i64 n = n) by (intros n Hn; apply wrap_id; split; [change (imin i64) with (-9223372036854775808)|change (imax i64) with 9223372036854775807]; lia).
  intros c x t v Hx Et Hn Hv. unfold x86_sum_upcast_optimized in Hx. cbn [In] in Hx. destruct Hx as [<-|[<-|[<-|[<-|[<-|[<-|[]]]]]]]; cbn [xs_el xs_ty WIDTH] in *; injection Et as <-; try (exfalso; apply Hn; reflexivity); unfold sum_optimized; cbn [xs_el xs_run lane_ity].
  - destruct Hv as [L H]. assert (B : Forall is_byte v) by (eapply Forall_impl; [|exact H]; intros y Hy; assert (0 <= y <= 255) by exact Hy; unfold is_byte; lia). rewrite bytes_small by (try exact B; reflexivity). destruct (sum_u8x16_total c v B) as [-> R]; [unfold zlen in L; lia|]. cbn [bind]. rewrite W by lia. reflexivity.
  - destruct Hv as [L H]. assert (B : Forall is_byte v) by (eapply Forall_impl; [|exact H]; intros y Hy; assert (0 <= y <= 255) by exact Hy; unfold is_byte; lia). rewrite bytes_small by (try exact B; reflexivity). destruct (sum_u8x32_total c v B) as [-> R]; [unfold zlen in L; lia|]. cbn [bind]. rewrite W by lia. reflexivity.
  - destruct (sum_x16_total c "i16x16" i16 v) as [-> R]; [right; split; reflexivity|exact Hv|]. cbn [bind]. rewrite W by lia. reflexivity.
  - destruct (sum_x16_total c "u16x16" u16 v) as [-> R]; [left; split; reflexivity|exact Hv|]. cbn [bind]. rewrite W by lia. reflexivity.
Qed.

Lemma sum_upcast_i8 : forall c x v, In x x86_sum_upcast_optimized -> xs_el x = EInt i8 -> int_vector (WIDTH (xs_ty x)) i8 v -> exists r, sum_optimized c x v = Ok r /\ sum_mod i8 v r.
Proof.
  intros c x v Hx Et [L H]. unfold x86_sum_upcast_optimized in Hx. cbn [In] in Hx. destruct Hx as [<-|[<-|[<-|[<-|[<-|[<-|[]]]]]]]; cbn [xs_el xs_ty WIDTH] in *; try discriminate Et; unfold sum_optimized; cbn [xs_el xs_run lane_ity]; unfold zlen in L.
  - destruct (sum_i8x16_total v H ltac:(lia)) as (s & -> & C). cbn [bind]. assert (S : sum_mod i8 v (wrap i8 s)) by (apply wrap_sum_mod; [cbn; lia|]; apply cong_u16; [reflexivity|exact C]). exists (wrap i8 s). split; [|exact S]. f_equal. apply wrap_id. destruct S as [[S1 S2] _]. change (imin i8) with (-128) in S1. change (imax i8) with 127 in S2. split; [change (imin i64) with (-9223372036854775808)|change (imax i64) with 9223372036854775807]; lia.
  - destruct (sum_i8x32_total v H ltac:(lia)) as (s & -> & C). cbn [bind]. assert (S : sum_mod i8 v (wrap i8 s)) by (apply wrap_sum_mod; [cbn; lia|]; apply cong_u16; [reflexivity|exact C]). exists (wrap i8 s). split; [|exact S]. f_equal. apply wrap_id. destruct S as [[S1 S2] _]. change (imin i8) with (-128) in S1. change (imax i8) with 127 in S2. split; [change (imin i64) with (-9223372036854775808)|change (imax i64) with 9223372036854775807]; lia.
Qed.

Lemma c42_sum_upcast_i8_partial : forall (c : config) (x : xsum) (v : list Z), In x x86_sum_upcast_optimized -> xs_el x = EInt i8 -> int_vector (WIDTH (xs_ty x)) i8 v ->
  in_ity i8 (total v) -> sum_optimized c x v = Ok (total v).
Proof. intros c x v Hx Et Hv Ht. destruct (sum_upcast_i8 c x v Hx Et Hv) as (r & -> & Hr & k & E). f_equal. apply (cong_exact i8); [exists k; exact E|exact Hr|exact Ht]. Qed.

Lemma c42_sum_upcast_i8_refuted : forall (c : config) (x : xsum) (v : list Z), In x x86_sum_upcast_optimized -> xs_el x = EInt i8 -> int_vector (WIDTH (xs_ty x)) i8 v ->
  ~ in_ity i8 (total v) -> exists r, sum_optimized c x v = Ok r /\ r <> total v /\ in_ity i8 r.
Proof. intros c x v Hx Et Hv Ht. destruct (sum_upcast_i8 c x v Hx Et Hv) as (r & -> & Hr & k & E). exists r. split; [reflexivity|]. split; [intros ->; apply Ht; exact Hr|exact Hr]. Qed.

(** ** Float lanes *)

Lemma as_i64_value : forall f x, fmt_ok f -> f_pattern f x -> is_finite f x -> in_ity i64 (Z.quot (fvalue f x) (fone f)) -> f_as_i64 f x = Ok (Z.quot (fvalue f x) (fone f)).
Proof.
  intros f x Hok Hx Hf Hi. unfold f_as_i64. destruct (sig_exp f Hok x Hx) as (H5 & _ & H7). destruct (mag_fields f Hok x Hx) as (G1 & G2 & G3 & _). pose proof (M_pos f Hok). pose proof (E_pos f Hok). destruct (B_range f Hok) as [B1 B2].
  assert (Ff : f_finite f x = true) by (unfold f_finite, f_inf; rewrite G1; unfold is_finite in Hf; apply Z.ltb_lt; nia). rewrite Ff. cbn [andb].
  set (m := if 0 <=? f_pow f x then f_sig f x * 2 ^ f_pow f x else f_sig f x / 2 ^ (- f_pow f x)).
  assert (Fp : 0 < fone f) by (rewrite fone_eq; apply Z.pow_pos_nonneg; destruct Hok; lia).
  assert (Ap : 0 <= absval f x) by (unfold absval; apply Z.mul_nonneg_nonneg; [lia|apply Z.pow_nonneg; lia]).
  assert (Em : m = absval f x / fone f).
  { unfold m, absval. destruct Hok as (K1 & K2 & K3). destruct (0 <=? f_pow f x) eqn:P; unfold f_pow, f_bias in *.
    - apply Z.div_unique_exact; [lia|]. rewrite fone_eq, Z.mul_assoc, (Z.mul_comm (2 ^ _) (f_sig f x)), <- Z.mul_assoc. f_equal. rewrite <- Z.pow_add_r by lia. f_equal. lia.
    - set (q := 2 ^ (- (f_exp f x - (2 ^ (f_e f - 1) - 1) - f_m f))). set (u := 2 ^ (f_exp f x - 1)). assert (Hu : 0 < u) by (apply Z.pow_pos_nonneg; lia). assert (Hq : 0 < q) by (apply Z.pow_pos_nonneg; lia).
      assert (Hqu : fone f = q * u) by (unfold q, u; rewrite fone_eq, <- Z.pow_add_r by lia; f_equal; lia). rewrite Hqu, Z.div_mul_cancel_r by lia. reflexivity. }
  assert (Eq : Z.quot (fvalue f x) (fone f) = if f_sign f x then - m else m).
  { rewrite (fvalue_abs f Hok x Hx). rewrite Em. rewrite <- Z.quot_div_nonneg by lia. destruct (f_sign f x); [replace (-1 * absval f x) with (- absval f x) by ring; apply Z.quot_opp_l; lia|rewrite Z.mul_1_l; reflexivity]. }
  rewrite Eq in *. destruct Hi as [I1 I2]. apply Z.leb_le in I1, I2. rewrite I1, I2. reflexivity.
Qed.

Lemma c42_sum_upcast_float : forall (c : config) (s : fold_impl) (v : list Z), In s (x86_upcast_sum ++ unknown_upcast_sum) -> s_el s = EF32 \/ s_el s = EF64 ->
  zlen v = WIDTH (s_ty s) -> Forall (finite_lane (s_el s)) v -> Forall (in_ity i64) (map (integer_part (s_el s)) v) -> no_overflow i64 (map (integer_part (s_el s)) v) ->
  sum_upcast_portable c s v = Ok (total (map (integer_part (s_el s)) v)).
Proof.
  intros c s v Hs E L Hf Hi Ho. unfold sum_upcast_portable. rewrite c34_scalar_reduce by exact L. cbn [bind].
  assert (F : forall v o, Forall (finite_lane (s_el s)) v -> Forall (in_ity i64) (map (integer_part (s_el s)) v) -> (exists a, o = Ok a) \/ o = Panic -> fold_left (fun acc x => let! a := acc in let! y := as_i64 (s_el s) x in iarith c i64 (a + y)) v o =
    fold_left (fun acc x => let! a := acc in iarith c i64 (a + x)) (map (integer_part (s_el s)) v) o).
  { clear v L Hf Hi Ho. induction v as [|x v IH]; intros o Hf Hi Hc; cbn [fold_left map]; [reflexivity|]. inversion Hf as [|? ? Hx Hf']; subst. cbn [map] in Hi. inversion Hi as [|? ? Hx' Hi']; subst.
    assert (A : as_i64 (s_el s) x = Ok (integer_part (s_el s) x)) by (destruct E as [E|E]; rewrite E in *; destruct Hx as [Hx1 Hx2]; apply as_i64_value; try assumption; [exact fmt32_ok|exact fmt64_ok]).
    rewrite A. cbn [bind]. rewrite IH; [reflexivity|exact Hf'|exact Hi'|]. destruct Hc as [ [a ->]| ->]; cbn [bind]; [|right; reflexivity]. destruct (iarith_cases c i64 (a + integer_part (s_el s) x)) as [ ->|[z ->] ]; eauto. }
  rewrite F by eauto. rewrite fold_exact by exact Ho. reflexivity.
Qed.

Lemma c69_sum_float_order : forall (fadd : elty -> Z -> Z -> Z) (c : config) (x : xsum) (s : fold_impl) (v : list Z),
  In x (x86_sum_float fadd) -> In s (x86_sum ++ unknown_sum) -> s_vec s = xs_vec x -> int_vector (WIDTH (xs_ty x)) (lane_ity (xs_el x)) v ->
  (forall e a b, e = EF32 \/ e = EF64 -> in_ity (lane_ity e) a -> in_ity (lane_ity e) b -> in_ity (lane_ity e) (fadd e a b)) ->
  sum_portable fadd c s v = Ok (fold_left (fadd (xs_el x)) v 0) /\ sum_optimized c x v = Ok (sum_of_halves (fadd (xs_el x)) (Z.to_nat (Z.log2 (WIDTH (xs_ty x)))) v) /\
  s_el s = xs_el x /\ (xs_el x = EF32 \/ xs_el x = EF64) /\ In (WIDTH (xs_ty x)) [2; 4; 8].
Proof.
  intros fadd c x s v Hx Hs Hn [L Hv] Pc.
  assert (S : s_ty s = xs_ty x /\ s_el s = xs_el x).
  { assert (C : forall x, In x (x86_sum_float fadd) -> forallb (fun s => if String.eqb (s_vec s) (xs_vec x) then (WIDTH (s_ty s) =? WIDTH (xs_ty x)) && (SIZE (s_ty s) =? SIZE (xs_ty x)) && match s_el s, xs_el x with EF32, EF32 => true | EF64, EF64 => true | _, _ => false end else true) (x86_sum ++ unknown_sum) = true) by (intros y Hy; unfold x86_sum_float in Hy; cbn [In] in Hy; destruct Hy as [<-|[<-|[<-|[<-|[]]]]]; vm_compute; reflexivity).
    pose proof (proj1 (forallb_forall _ _) (C x Hx) s Hs) as G. cbv beta in G. rewrite Hn, String.eqb_refl in G. destruct (s_ty s) as [w1 z1], (xs_ty x) as [w2 z2]. cbn [WIDTH SIZE] in G. apply andb_prop in G. destruct G as [G1 G2]. apply andb_prop in G1. destruct G1 as [G0 G1]. apply Z.eqb_eq in G0, G1. subst. split; [reflexivity|]. destruct (s_el s), (xs_el x); try discriminate G2; reflexivity. }
  destruct S as [S1 S2]. assert (E : xs_el x = EF32 \/ xs_el x = EF64) by (unfold x86_sum_float in Hx; cbn [In] in Hx; destruct Hx as [<-|[<-|[<-|[<-|[]]]]]; cbn; tauto).
  split.
  { unfold sum_portable. rewrite S1, c34_scalar_reduce by exact L. cbn [bind]. rewrite S2. clear - E. change (Ok 0) with (Ok (A := Z) 0). generalize 0. induction v as [|a v IH]; intros z; [reflexivity|]. cbn [fold_left bind]. rewrite <- IH. f_equal. unfold scalar_add. destruct E as [-> | ->]; reflexivity. }
  split; [|split; [exact S2|split; [exact E|unfold x86_sum_float in Hx; cbn [In] in Hx; destruct Hx as [<-|[<-|[<-|[<-|[]]]]]; cbn; tauto] ] ]. clear S1 S2 Hs Hn E.
  pose proof (fun a b => Pc EF32 a b (or_introl eq_refl)) as P32. pose proof (fun a b => Pc EF64 a b (or_intror eq_refl)) as P64. cbn [lane_ity] in P32, P64. clear Pc.
  unfold x86_sum_float in Hx. cbn [In] in Hx. destruct Hx as [<-|[<-|[<-|[<-|[]]]]]; cbn [xs_el xs_ty WIDTH lane_ity] in *; unfold sum_optimized; cbn [xs_el xs_run lane_ity].
  - destruct (list4 _ v L) as (a & b & d & e & ->). inversion Hv as [|? ? Ha Hv1]; subst. inversion Hv1 as [|? ? Hb Hv2]; subst. inversion Hv2 as [|? ? Hd Hv3]; subst. inversion Hv3 as [|? ? He _]; subst.
    rewrite hop128_lanes by (try exact Hv; cbn; lia). cbn [pairs app].
    assert (Hw : Forall (in_ity u32) [fadd EF32 a b; fadd EF32 d e; fadd EF32 a b; fadd EF32 d e]) by (repeat (apply Forall_cons; [auto 6|]); apply Forall_nil). rewrite hop128_lanes by (try exact Hw; cbn; lia). cbn [pairs app]. rewrite lanes_of_bytes_of; [|cbn; lia|repeat (apply Forall_cons; [auto 6|]); apply Forall_nil].
    read. reflexivity.
  - destruct (list2 _ v L) as (a & b & ->). inversion Hv as [|? ? Ha Hv1]; subst. inversion Hv1 as [|? ? Hb Hv2]; subst. rewrite hop128_lanes by (try exact Hv; cbn; lia). cbn [pairs app]. rewrite lanes_of_bytes_of; [|cbn; lia|repeat (apply Forall_cons; [auto 6|]); apply Forall_nil].
    read. reflexivity.
  - destruct (list8 _ v L) as (a & b & d & e & a' & b' & d' & e' & ->). inversion Hv as [|? ? Ha Hv1]; subst. inversion Hv1 as [|? ? Hb Hv2]; subst. inversion Hv2 as [|? ? Hd Hv3]; subst. inversion Hv3 as [|? ? He Hv4]; subst. inversion Hv4 as [|? ? Ha' Hv5]; subst. inversion Hv5 as [|? ? Hb' Hv6]; subst. inversion Hv6 as [|? ? Hd' Hv7]; subst. inversion Hv7 as [|? ? He' _]; subst.
    rewrite (hop256_lanes _ _ 4) by (try exact Hv; cbn; lia). cbn [pairs app firstn skipn].
    assert (Hw : Forall (in_ity u32) [fadd EF32 a b; fadd EF32 d e; fadd EF32 a b; fadd EF32 d e; fadd EF32 a' b'; fadd EF32 d' e'; fadd EF32 a' b'; fadd EF32 d' e']) by (repeat (apply Forall_cons; [auto 6|]); apply Forall_nil). rewrite (hop256_lanes _ _ 4) by (try exact Hw; cbn; lia). cbn [pairs app firstn skipn]. rewrite lanes_of_bytes_of; [|cbn; lia|repeat (apply Forall_cons; [auto 6|]); apply Forall_nil].
    cbv zeta. read. reflexivity.
  - destruct (list4 _ v L) as (a & b & d & e & ->). inversion Hv as [|? ? Ha Hv1]; subst. inversion Hv1 as [|? ? Hb Hv2]; subst. inversion Hv2 as [|? ? Hd Hv3]; subst. inversion Hv3 as [|? ? He _]; subst.
    rewrite (hop256_lanes _ _ 2) by (try exact Hv; cbn; lia). cbn [pairs app firstn skipn]. rewrite lanes_of_bytes_of; [|cbn; lia|repeat (apply Forall_cons; [auto 6|]); apply Forall_nil].
    cbv zeta. read. reflexivity.
Qed.

(** ** Bit counts *)

Lemma ones_plus : forall a b x, ones (a + b) x = ones a x + ones b (x / 2 ^ Z.of_nat a).
Proof.
  induction a as [|a IH]; intros b x; [cbn [plus ones]; change (2 ^ Z.of_nat 0) with 1; rewrite Z.div_1_r; reflexivity|]. cbn [plus ones]. rewrite IH.
  replace (2 ^ Z.of_nat (S a)) with (2 * 2 ^ Z.of_nat a) by (rewrite Nat2Z.inj_succ, Z.pow_succ_r by lia; reflexivity). rewrite Z.div_div by (try apply Z.pow_pos_nonneg; lia). ring.
Qed.

Lemma ones_mod : forall n x, ones n (x mod 2 ^ Z.of_nat n) = ones n x.
Proof.
  induction n as [|n IH]; intros x; [reflexivity|]. cbn [ones]. replace (2 ^ Z.of_nat (S n)) with (2 * 2 ^ Z.of_nat n) by (rewrite Nat2Z.inj_succ, Z.pow_succ_r by lia; reflexivity).
  assert (0 < 2 ^ Z.of_nat n) by (apply Z.pow_pos_nonneg; lia). rewrite Z.rem_mul_r by lia. f_equal.
  - rewrite Z.add_mod, Z.mod_mod, Z.mul_comm, Z.mod_mul, Z.add_0_r, Z.mod_mod by lia. reflexivity.
  - rewrite <- (IH (x / 2)). f_equal. rewrite Z.mul_comm, Z.div_add by lia. rewrite Z.div_small by (apply Z.mod_pos_bound; lia). lia.
Qed.

Lemma ones_bytes : forall n x, ones (8 * n) x = total (map (ones 8) (to_bytes n x)).
Proof.
  induction n as [|n IH]; intros x; [reflexivity|]. replace (8 * S n)%nat with (8 + 8 * n)%nat by lia. rewrite ones_plus, IH. change (2 ^ Z.of_nat 8) with 256. cbn [to_bytes map total fold_right].
  change (x mod 256) with (x mod 2 ^ Z.of_nat 8). rewrite ones_mod. reflexivity.
Qed.

Lemma ones_bytes_of : forall t v, total (map (ones (8 * ibytes t)) v) = total (map (ones 8) (bytes_of t v)).
Proof. intros t v. induction v as [|x v IH]; [reflexivity|]. cbn [map total fold_right bytes_of flat_map]. fold (bytes_of t v). rewrite map_app, total_app, <- IH, <- ones_bytes. reflexivity. Qed.

Lemma ones_testbit : forall n x, zlen (filter (Z.testbit x) (map Z.of_nat (seq 0 n))) = ones n x.
Proof.
  induction n as [|n IH]; intros x; [reflexivity|]. cbn [seq map filter ones]. change (Z.of_nat 0) with 0. rewrite <- seq_shift, map_map.
  assert (E : zlen (filter (Z.testbit x) (map (fun k => Z.of_nat (S k)) (seq 0 n))) = ones n (x / 2)).
  { rewrite <- IH. unfold zlen. f_equal. generalize (seq 0 n). induction l as [|k l IHl]; [reflexivity|]. cbn [map filter]. replace (Z.testbit x (Z.of_nat (S k))) with (Z.testbit (x / 2) (Z.of_nat k)) by (rewrite <- Z.div2_div, Z.div2_spec, Z.shiftr_spec by lia; f_equal; lia). destruct (Z.testbit (x / 2) (Z.of_nat k)); cbn [length]; lia. }
  rewrite Z.bit0_odd. rewrite Zmod_odd. destruct (Z.odd x); unfold zlen in *; cbn [length]; lia.
Qed.

Lemma set_bits_ones : forall t v, set_bits t v = total (map (ones (8 * ibytes t)) v).
Proof.
  intros t v. unfold set_bits. induction v as [|x v IH]; [reflexivity|]. cbn [list_prod map total fold_right]. rewrite filter_app. unfold zlen in *. rewrite app_length, Nat2Z.inj_add, IH. f_equal.
  rewrite <- ones_testbit. unfold zlen, bit_positions. f_equal. generalize (map Z.of_nat (seq 0 (8 * ibytes t))). induction l as [|k l IHl]; [reflexivity|]. cbn [map filter fst snd]. destruct (Z.testbit x k); cbn [length]; rewrite IHl; reflexivity.
Qed.

Lemma bits_split : forall t v, set_bits t v + clear_bits t v = zlen v * (8 * Z.of_nat (ibytes t)).
Proof.
  intros t v. assert (H : forall l : list (Z * Z), zlen (filter (fun p => Z.testbit (fst p) (snd p)) l) + zlen (filter (fun p => negb (Z.testbit (fst p) (snd p))) l) = zlen l).
  { induction l as [|p l IH]; [reflexivity|]. cbn [filter]. unfold zlen in *. destruct (Z.testbit (fst p) (snd p)); cbn [negb length]; lia. }
  unfold set_bits, clear_bits. rewrite H. unfold zlen. rewrite prod_length. unfold bit_positions. rewrite map_length, seq_length. lia.
Qed.

Lemma ones_bound : forall n x, 0 <= ones n x <= Z.of_nat n.
Proof. induction n as [|n IH]; intros x; [cbn; lia|]. cbn [ones]. specialize (IH (x / 2)). lia. Qed.

Lemma nibble_bytes : forall b, is_byte b -> let at_ k := if 128 <=? k then 0 else nth (Z.to_nat (k mod 16)) nibbles 0 in wrap u8 (at_ (Z.shiftr b 4) + at_ (Z.land b 15)) = ones 8 b.
Proof.
  intros b Hb. assert (C : forallb (fun i => let b := Z.of_nat i in let at_ k := if 128 <=? k then 0 else nth (Z.to_nat (k mod 16)) nibbles 0 in wrap u8 (at_ (Z.shiftr b 4) + at_ (Z.land b 15)) =? ones 8 b) (seq 0 256) = true) by (vm_compute; reflexivity).
  pose proof (proj1 (forallb_forall _ _) C (Z.to_nat b)) as G. unfold is_byte in Hb. cbv beta zeta in G. rewrite Z2Nat.id in G by lia. cbv zeta. apply Z.eqb_eq, G, in_seq. lia.
Qed.

Lemma zipw_maps : forall (A : Type) (f : Z -> Z -> Z) (g h : A -> Z) v, zipw f (map g v) (map h v) = map (fun x => f (g x) (h x)) v.
Proof. intros A f g h v. induction v as [|x v IH]; cbn [map zipw]; [reflexivity|]. rewrite IH. reflexivity. Qed.

Lemma nibble_sums : forall v, Forall is_byte v -> zipw (fun x y => wrap u8 (x + y)) (pshufb nibbles (map (fun x => Z.shiftr x 4) v)) (pshufb nibbles (map (fun x => Z.land x 15) v)) = map (ones 8) v.
Proof. intros v H. unfold pshufb. rewrite !map_map, zipw_maps. apply map_ext_in. intros b Hb. rewrite Forall_forall in H. exact (nibble_bytes b (H b Hb)). Qed.

Lemma popcnt_portable_ones : forall c W bs, Forall is_byte bs -> 0 <= W <= 8 -> zlen bs = 8 * W -> popcnt_portable c W bs = Ok (total (map (ones 8) bs)).
Proof.
  intros c W bs Hb HW L. unfold popcnt_portable. assert (Ll : zlen (lanes_of u64 bs) = WIDTH (mkVty W 8)).
  { cbn [WIDTH]. assert (E := bytes_of_lanes_of u64 bs (Z.to_nat W) ltac:(cbn; lia) Hb ltac:(unfold zlen in L; cbn [ibytes u64]; lia)). assert (F := f_equal (@length Z) E). rewrite bytes_of_len in F. change (ibytes u64) with 8%nat in F. unfold zlen in *. lia. }
  change W with (WIDTH (mkVty W 8)) at 1. rewrite c34_scalar_reduce by exact Ll. cbn [bind]. cbn [WIDTH] in Ll.
  assert (F : forall v a, 0 <= a -> a + 64 * zlen v < 2 ^ 32 -> fold_left (fun acc s => let! a := acc in uadd c a (ones 64 s)) v (Ok a) = Ok (a + total (map (ones 64) v))).
  { induction v as [|x v IH]; intros a H1 H2; cbn [fold_left bind map total fold_right]; [rewrite Z.add_0_r; reflexivity|]. pose proof (ones_bound 64 x) as Bx. change (2 ^ 32) with 4294967296 in *. unfold zlen in *. cbn [length] in H2.
    unfold uadd, uarith. assert (R : (0 <=? a + ones 64 x) && (a + ones 64 x <? usize_mod) = true) by (unfold usize_mod; change (2 ^ 64) with 18446744073709551616; lia). rewrite R. rewrite IH by lia. f_equal. fold (total (map (ones 64) v)). ring. }
  rewrite F by (try lia; rewrite Ll; lia). f_equal. change 64%nat with (8 * ibytes u64)%nat. rewrite ones_bytes_of. rewrite (bytes_of_lanes_of u64 bs (Z.to_nat W)); [reflexivity|cbn; lia|exact Hb|]. unfold zlen in L. cbn [ibytes u64]. lia.
Qed.

Lemma popcnt128_ones : forall c bs, Forall is_byte bs -> length bs = 16%nat -> popcnt128 c bs = Ok (total (map (ones 8) bs)).
Proof.
  intros c bs Hb L. unfold popcnt128. cbv zeta. rewrite nibble_sums by exact Hb. assert (B : Forall is_byte (map (ones 8) bs)) by (apply Forall_map, Forall_forall; intros x _; pose proof (ones_bound 8 x); unfold is_byte; lia).
  destruct (sum_u8x16_total c (map (ones 8) bs) B) as [-> R]; [rewrite map_length; exact L|]. cbn [bind]. change (2 ^ 16) with 65536 in R. rewrite (wrap_id i64), (wrap_id u64); [reflexivity| |]; (split; [change (imin i64) with (-9223372036854775808) || change (imin u64) with 0|change (imax i64) with 9223372036854775807 || change (imax u64) with 18446744073709551615]; lia).
Qed.

Lemma popcnt256_ones : forall c bs, Forall is_byte bs -> length bs = 32%nat -> popcnt256 c bs = Ok (total (map (ones 8) bs)).
Proof.
  intros c bs Hb L. unfold popcnt256. cbv zeta.
  assert (E : zipw (fun x y => wrap u8 (x + y)) (pshufb256 (nibbles ++ nibbles) (map (fun x => Z.shiftr x 4) bs)) (pshufb256 (nibbles ++ nibbles) (map (fun x => Z.land x 15) bs)) = map (ones 8) bs).
  { rewrite <- (nibble_sums bs Hb). unfold pshufb256, per_half2. change (firstn 16 (nibbles ++ nibbles)) with nibbles. change (skipn 16 (nibbles ++ nibbles)) with nibbles. unfold pshufb. rewrite <- !map_app, !firstn_skipn. reflexivity. }
  rewrite E. assert (B : Forall is_byte (map (ones 8) bs)) by (apply Forall_map, Forall_forall; intros x _; pose proof (ones_bound 8 x); unfold is_byte; lia).
  destruct (sum_u8x32_total c (map (ones 8) bs) B) as [-> R]; [rewrite map_length; exact L|]. cbn [bind]. change (2 ^ 16) with 65536 in R. rewrite (wrap_id i64), (wrap_id u64); [reflexivity| |]; (split; [change (imin i64) with (-9223372036854775808) || change (imin u64) with 0|change (imax i64) with 9223372036854775807 || change (imax u64) with 18446744073709551615]; lia).
Qed.

Definition popcnt_check (p : popcnt_impl) : bool :=
  (SIZE (c_ty p) =? Z.of_nat (ibytes (c_el p))) && (0 <? WIDTH (c_ty p)) &&
  (let n := WIDTH (c_ty p) * SIZE (c_ty p) in
   (String.eqb (c_fn p) "popcnt128" && (n =? 16)) || (String.eqb (c_fn p) "popcnt256" && (n =? 32)) || (String.eqb (c_fn p) "popcnt512" && (n =? 64))).

Lemma popcnts_checked : forallb popcnt_check x86_popcnt = true.
Proof. vm_compute. reflexivity. Qed.

Lemma c43_count_ones : forall (c : config) (optimized : bool) (p : popcnt_impl) (v : list Z), In p x86_popcnt -> int_vector (WIDTH (c_ty p)) (c_el p) v ->
  count_ones c optimized p v = Ok (set_bits (c_el p) v).
Proof.
  intros c o p v Hp [L H]. pose proof (proj1 (forallb_forall _ _) popcnts_checked p Hp) as K. unfold popcnt_check in K. apply andb_prop in K. destruct K as [K K3]. apply andb_prop in K. destruct K as [K1 K2]. apply Z.eqb_eq in K1.
  rewrite set_bits_ones, ones_bytes_of. assert (B := bytes_of_byte (c_el p) v). assert (Lb : zlen (bytes_of (c_el p) v) = WIDTH (c_ty p) * SIZE (c_ty p)) by (unfold zlen in *; rewrite bytes_of_len; nia). unfold count_ones.
  apply orb_prop in K3. destruct K3 as [K3|K3]; [apply orb_prop in K3; destruct K3 as [K3|K3]|]; apply andb_prop in K3; destruct K3 as [K3 K4]; apply Z.eqb_eq in K4; apply String.eqb_eq in K3; rewrite K3; cbn [String.eqb Ascii.eqb Bool.eqb].
  - destruct o; [apply popcnt128_ones; [exact B|unfold zlen in *; lia]|apply popcnt_portable_ones; [exact B|lia|lia]].
  - destruct o; [apply popcnt256_ones; [exact B|unfold zlen in *; lia]|apply popcnt_portable_ones; [exact B|lia|lia]].
  - apply popcnt_portable_ones; [exact B|lia|lia].
Qed.

Lemma c43_count_zeroes : forall (c : config) (optimized : bool) (p : popcnt_impl) (v : list Z), In p x86_popcnt -> int_vector (WIDTH (c_ty p)) (c_el p) v ->
  count_zeroes c optimized p v = Ok (clear_bits (c_el p) v) /\ set_bits (c_el p) v + clear_bits (c_el p) v = WIDTH (c_ty p) * SIZE (c_ty p) * 8.
Proof.
  intros c o p v Hp Hv. pose proof (proj1 (forallb_forall _ _) popcnts_checked p Hp) as K. unfold popcnt_check in K. apply andb_prop in K. destruct K as [K K3]. apply andb_prop in K. destruct K as [K1 K2]. apply Z.eqb_eq in K1.
  assert (K4 : WIDTH (c_ty p) * SIZE (c_ty p) <= 64) by (apply orb_prop in K3; destruct K3 as [K3|K3]; [apply orb_prop in K3; destruct K3 as [K3|K3]|]; apply andb_prop in K3; lia).
  assert (E : set_bits (c_el p) v + clear_bits (c_el p) v = WIDTH (c_ty p) * SIZE (c_ty p) * 8) by (rewrite bits_split; destruct Hv as [-> _]; rewrite K1; ring). split; [|exact E].
  assert (N1 : 0 <= set_bits (c_el p) v) by (unfold set_bits, zlen; lia). assert (N2 : 0 <= clear_bits (c_el p) v) by (unfold clear_bits, zlen; lia).
  assert (U : forall x, 0 <= x < 1000 -> uarith c x = Ok x) by (intros x Hx; unfold uarith, usize_mod; change (2 ^ 64) with 18446744073709551616; replace ((0 <=? x) && (x <? 18446744073709551616)) with true by lia; reflexivity).
  unfold count_zeroes, umul, usub. rewrite U by lia. cbn [bind]. rewrite U by lia. cbn [bind]. rewrite c43_count_ones by assumption. cbn [bind]. rewrite U by lia. f_equal. lia.
Qed.
