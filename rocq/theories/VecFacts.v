(** Lemmas about the vector operations of Vecs.v. *)
From Coq Require Import Lia ZifyBool ZifyNat.
From Verif Require Import Base Spec ListFacts Vecs.
Ltac Zify.zify_post_hook ::= Z.div_mod_to_equations.

Lemma vty_ok_facts ty : vty_ok ty ->
  0 < WIDTH ty /\ WIDTH ty <= 64 / SIZE ty /\ 0 < SIZE ty <= 8 /\ 64 / SIZE ty <= 64 /\
  WIDTH ty <= 64 /\ WIDTH ty * SIZE ty <= 64.
Proof.
  destruct ty as [w s]; intros [Hs Hw]; cbn in *.
  destruct Hs as [<-|[<-|[<-|[<-|[]]]]]; destruct Hw as [H|[H|[H|[]]]]; lia.
Qed.

Lemma load_unchecked_ok {A} c W (l : list A) off :
  0 <= off -> off + W <= zlen l -> 0 <= W -> load_unchecked c W l off = Ok (sub l off W).
Proof.
  intros; unfold load_unchecked.
  destruct (zlen l <? off) eqn:E; [lia|]. destruct (W <=? zlen l - off) eqn:E2; [reflexivity|lia].
Qed.

Lemma load_ok {A} W (l : list A) off :
  0 <= off -> off + W <= zlen l -> 0 <= W -> load W l off = Ok (sub l off W).
Proof.
  intros; unfold load.
  destruct (zlen l <? off) eqn:E; [lia|]. destruct (W <=? zlen l - off) eqn:E2; [reflexivity|lia].
Qed.

Lemma store_unchecked_ok {A} c W (v l : list A) off :
  0 <= off -> off + W <= zlen l -> 0 <= W -> store_unchecked c W v l off = Ok (upd l off v).
Proof.
  intros; unfold store_unchecked.
  destruct (zlen l <? off) eqn:E; [lia|]. destruct (W <=? zlen l - off) eqn:E2; [reflexivity|lia].
Qed.

Lemma extract_unchecked_ok {A} c W (v : list A) i x :
  i < W -> znth v i = Some x -> extract_unchecked c W v i = Ok x.
Proof. intros H Hx; unfold extract_unchecked; rewrite Hx; destruct (i <? W) eqn:E; [reflexivity|lia]. Qed.

Lemma extract_ok {A} W (v : list A) i x :
  i < W -> znth v i = Some x -> extract W v i = Ok x.
Proof. intros H Hx; unfold extract; rewrite Hx; destruct (i <? W) eqn:E; [reflexivity|lia]. Qed.

Lemma replace_unchecked_ok {A} c W (v : list A) i x :
  i < W -> replace_unchecked c W v i x = Ok (upd v i [x]).
Proof. intros H; unfold replace_unchecked; destruct (i <? W) eqn:E; [reflexivity|lia]. Qed.

Lemma replace_ok {A} W (v : list A) i x :
  i < W -> replace W v i x = Ok (upd v i [x]).
Proof. intros H; unfold replace; destruct (i <? W) eqn:E; [reflexivity|lia]. Qed.

Lemma znth_nat {A} (l : list A) k x : nth_error l k = Some x -> znth l (Z.of_nat k) = Some x.
Proof.
  intros H; unfold znth. destruct (Z.of_nat k <? 0) eqn:E; [lia|]. rewrite Nat2Z.id; exact H.
Qed.

Lemma nth_error_lt {A} (l : list A) k x : nth_error l k = Some x -> (k < length l)%nat.
Proof. intros H; apply nth_error_Some; congruence. Qed.

Lemma znth_skipn {A} (l : list A) n k x :
  0 <= n -> nth_error (skipn (Z.to_nat n) l) k = Some x -> znth l (n + Z.of_nat k) = Some x.
Proof.
  intros Hn H. rewrite nth_error_skipn in H.
  replace (n + Z.of_nat k) with (Z.of_nat (Z.to_nat n + k)) by lia. apply znth_nat; exact H.
Qed.

Lemma partition_mask_ok c ty off :
  vty_ok ty -> 0 <= off <= WIDTH ty ->
  partition_mask c ty off =
  Ok (map (fun i => off <=? Z.of_nat i) (seq 0 (Z.to_nat (WIDTH ty)))).
Proof.
  intros Hty Ho. pose proof (vty_ok_facts ty Hty) as (H1 & H2 & H3 & H4 & H5 & H6).
  unfold partition_mask.
  rewrite debug_assert_true by lia. rewrite bind_Ok.
  assert (Hm : 0 <= off * SIZE ty <= 64) by nia.
  assert (He : match build c with
               | Debug => let! m := umul c off (SIZE ty) in rassert (m <=? 64)
               | Release => Ok tt end = Ok tt).
  { destruct (build c); [|reflexivity]. rewrite umul_ok by (unfold usize_mod; lia).
    rewrite bind_Ok. unfold rassert. destruct (_ <=? 64) eqn:E; [reflexivity|lia]. }
  rewrite He, bind_Ok, usub_ok, bind_Ok by (unfold usize_mod; lia).
  destruct (128 <? 64 / SIZE ty - off) eqn:E1; [lia|].
  destruct (WIDTH ty <=? 128 - (64 / SIZE ty - off)) eqn:E2; [cbn [negb]|lia].
  destruct (64 / SIZE ty - off + WIDTH ty <=? 2 * (64 / SIZE ty)) eqn:E3; [|lia].
  f_equal. apply map_ext. intros i. lia.
Qed.

Lemma lane_select_partition {A} off : forall (a b : list A) k n,
  length a = n -> length b = n ->
  lane_select (map (fun i => off <=? Z.of_nat i) (seq k n)) a b =
  firstn (Z.to_nat off - k) a ++ skipn (Z.to_nat off - k) b.
Proof.
  induction a as [|x a IH]; intros [|y b] k n Ha Hb; subst n; try discriminate.
  - cbn. rewrite firstn_nil, skipn_nil. reflexivity.
  - cbn [length seq map lane_select]. rewrite IH by (cbn in Hb; lia).
    destruct (off <=? Z.of_nat k) eqn:E.
    + replace (Z.to_nat off - k)%nat with O by lia.
      replace (Z.to_nat off - S k)%nat with O by lia. reflexivity.
    + replace (Z.to_nat off - k)%nat with (S (Z.to_nat off - S k)) by lia. reflexivity.
Qed.

Lemma merge_partitioned_ok {A} c ty (a b : list A) off :
  vty_ok ty -> zlen a = WIDTH ty -> zlen b = WIDTH ty -> 0 <= off < WIDTH ty ->
  merge_partitioned c ty a b off = Ok (firstn (Z.to_nat off) a ++ skipn (Z.to_nat off) b).
Proof.
  intros Hty Ha Hb Ho. unfold merge_partitioned. destruct (blend c).
  - rewrite partition_mask_ok by (auto; lia). rewrite bind_Ok.
    rewrite lane_select_partition by (unfold zlen in *; lia).
    rewrite Nat.sub_0_r. reflexivity.
  - unfold rassert. destruct (off <? WIDTH ty) eqn:E; [|lia]. rewrite bind_Ok.
    rewrite <- (firstn_skipn (Z.to_nat off) a) at 1.
    replace (Z.to_nat (WIDTH ty - off)) with (length (skipn (Z.to_nat off) b))
      by (rewrite skipn_length; unfold zlen in *; lia).
    pose proof (for_range_write (fun i ret =>
       let! x := extract_unchecked c (WIDTH ty) b i in
       replace_unchecked c (WIDTH ty) ret i x) (skipn (Z.to_nat off) b) off
       (firstn (Z.to_nat off) a) (skipn (Z.to_nat off) a) []) as H.
    rewrite !app_nil_r in H. apply H.
    + rewrite !skipn_length. unfold zlen in *; lia.
    + intros k x bb Hk Hbb.
      pose proof (nth_error_lt _ _ _ Hk) as Hlt. rewrite skipn_length in Hlt.
      rewrite (extract_unchecked_ok c _ b _ x); [|unfold zlen in *; lia|apply znth_skipn; [lia|exact Hk]].
      rewrite bind_Ok, replace_unchecked_ok by (unfold zlen in *; lia).
      rewrite zlen_firstn, Ha. do 2 f_equal. lia.
Qed.
