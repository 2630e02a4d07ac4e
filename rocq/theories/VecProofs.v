(** Proofs of the properties: vectors as stored data and lanes (C33, C34). *)
From Verif Require Import Base Spec Vecs Lanes.
From Coq Require Import Lia ZifyBool ZifyNat.
From Verif Require Import ListFacts VecFacts.
Ltac Zify.zify_post_hook ::= Z.div_mod_to_equations.

Lemma znth_app : forall (A : Type) (a b : list A) i, 0 <= i -> znth (a ++ b) i = if i <? zlen a then znth a i else znth b (i - zlen a).
Proof.
  intros A a b i Hi. unfold znth, zlen. replace (i <? 0) with false by lia. destruct (i <? Z.of_nat (length a)) eqn:E.
  - apply nth_error_app1. lia.
  - replace (i - Z.of_nat (length a) <? 0) with false by lia. rewrite nth_error_app2 by lia. f_equal. lia.
Qed.

Lemma znth_skipn : forall (A : Type) (l : list A) n i, 0 <= i -> znth (skipn n l) i = znth l (Z.of_nat n + i).
Proof.
  intros A l n i Hi. unfold znth. replace (i <? 0) with false by lia. replace (Z.of_nat n + i <? 0) with false by lia.
  replace (Z.to_nat (Z.of_nat n + i)) with (n + Z.to_nat i)%nat by lia. generalize (Z.to_nat i). clear.
  intros k. revert l. induction n as [|n IH]; intros [|x l]; cbn; try reflexivity.
  - destruct k; reflexivity.
  - apply IH.
Qed.

Lemma znth_firstn : forall (A : Type) (l : list A) n i, 0 <= i < Z.of_nat n -> znth (firstn n l) i = znth l i.
Proof.
  intros A l n i Hi. unfold znth. replace (i <? 0) with false by lia. assert (Z.to_nat i < n)%nat by lia.
  revert H. generalize (Z.to_nat i). clear. intros k. revert k l. induction n as [|n IH]; intros [|k] [|x l] H; cbn; try reflexivity; try lia.
  apply IH. lia.
Qed.

Lemma znth_sub : forall (A : Type) (l : list A) off w i, 0 <= off -> 0 <= i < w -> znth (sub l off w) i = znth l (off + i).
Proof.
  intros A l off w i Ho Hi. unfold sub. rewrite znth_firstn by lia. rewrite znth_skipn by lia. f_equal. lia.
Qed.

Lemma znth_upd : forall (A : Type) (l : list A) off v i, 0 <= off -> off + zlen v <= zlen l -> 0 <= i ->
  znth (upd l off v) i = if (off <=? i) && (i <? off + zlen v) then znth v (i - off) else znth l i.
Proof.
  intros A l off v i Ho Hl Hi. unfold upd. pose proof (zlen_nonneg v).
  assert (Hf : zlen (firstn (Z.to_nat off) l) = off) by (rewrite zlen_firstn; lia).
  rewrite znth_app by lia. rewrite Hf. destruct (i <? off) eqn:E1.
  - replace (off <=? i) with false by lia. cbn [andb]. apply znth_firstn. lia.
  - replace (off <=? i) with true by lia. cbn [andb]. rewrite znth_app by lia. destruct (i - off <? zlen v) eqn:E2.
    + replace (i <? off + zlen v) with true by lia. reflexivity.
    + replace (i <? off + zlen v) with false by lia. rewrite znth_skipn by lia. f_equal. unfold zlen in *. lia.
Qed.

Lemma upd_len : forall (A : Type) (l : list A) off v, 0 <= off -> off + zlen v <= zlen l -> zlen (upd l off v) = zlen l.
Proof.
  intros A l off v Ho Hl. unfold upd. pose proof (zlen_nonneg v). rewrite !zlen_app, zlen_firstn, zlen_skipn. unfold zlen in *. lia.
Qed.

Lemma sub_upd_same : forall (A : Type) (l : list A) off v, 0 <= off -> off + zlen v <= zlen l -> sub (upd l off v) off (zlen v) = v.
Proof.
  intros A l off v Ho Hl. unfold sub, upd. pose proof (zlen_nonneg v).
  assert (Hf : length (firstn (Z.to_nat off) l) = Z.to_nat off) by (rewrite firstn_length; unfold zlen in *; lia).
  rewrite skipn_app, skipn_all2 by lia. cbn [app]. rewrite Hf, Nat.sub_diag. cbn [skipn].
  rewrite firstn_app. replace (Z.to_nat (zlen v)) with (length v) by (unfold zlen; lia).
  rewrite firstn_all, Nat.sub_diag. cbn [firstn]. apply app_nil_r.
Qed.

Lemma c33_store_load : forall (A : Type) (c : config) (ty : vty) (v data : list A) (off : Z),
  0 <= off -> zlen v = WIDTH ty -> off + WIDTH ty <= zlen data ->
  exists data', store (WIDTH ty) v data off = Ok data' /\ store_unchecked c (WIDTH ty) v data off = Ok data' /\
    load (WIDTH ty) data' off = Ok v /\ load_unchecked c (WIDTH ty) data' off = Ok v /\
    zlen data' = zlen data /\
    (forall i, 0 <= i < WIDTH ty -> znth data' (off + i) = znth v i) /\
    (forall i, 0 <= i < off \/ off + WIDTH ty <= i -> znth data' i = znth data i).
Proof.
  intros A c ty v data off Ho Hv Hd. exists (upd data off v). pose proof (zlen_nonneg v).
  assert (Hlen : zlen (upd data off v) = zlen data) by (apply upd_len; lia).
  unfold store, store_unchecked, load, load_unchecked. rewrite Hlen.
  replace (zlen data <? off) with false by lia. replace (WIDTH ty <=? zlen data - off) with true by lia.
  rewrite <- Hv, sub_upd_same by lia. repeat split.
  - intros i Hi. rewrite znth_upd by lia.
    replace ((off <=? off + i) && (off + i <? off + zlen v)) with true by lia. f_equal. lia.
  - intros i Hi. rewrite znth_upd by lia.
    replace ((off <=? i) && (i <? off + zlen v)) with false by lia. reflexivity.
Qed.

Lemma c33_load : forall (A : Type) (c : config) (ty : vty) (data : list A) (off : Z),
  0 <= off -> 0 <= WIDTH ty ->
  (off + WIDTH ty <= zlen data -> exists v, load (WIDTH ty) data off = Ok v /\ load_unchecked c (WIDTH ty) data off = Ok v /\
      zlen v = WIDTH ty /\ forall i, 0 <= i < WIDTH ty -> znth v i = znth data (off + i)) /\
  (zlen data < off + WIDTH ty -> load (WIDTH ty) data off = Panic /\
      (build c = Debug \/ zlen data < off -> load_unchecked c (WIDTH ty) data off = Panic)).
Proof.
  intros A c ty data off Ho Hw. unfold load, load_unchecked. split.
  - intros Hle. exists (sub data off (WIDTH ty)). replace (zlen data <? off) with false by lia.
    replace (WIDTH ty <=? zlen data - off) with true by lia. repeat split.
    + apply zlen_sub; lia.
    + intros i Hi. apply znth_sub; lia.
  - intros Hlt. destruct (zlen data <? off) eqn:E; [split; reflexivity|]. replace (WIDTH ty <=? zlen data - off) with false by lia.
    split; [reflexivity|]. intros [Hc|Hc]; [rewrite Hc; reflexivity|lia].
Qed.

Lemma c33_store_panics : forall (A : Type) (c : config) (ty : vty) (v data : list A) (off : Z),
  0 <= off -> 0 <= WIDTH ty -> (store (WIDTH ty) v data off = Panic <-> zlen data < off + WIDTH ty) /\
  (zlen data < off + WIDTH ty -> build c = Debug \/ zlen data < off -> store_unchecked c (WIDTH ty) v data off = Panic).
Proof.
  intros A c ty v data off Ho Hw. unfold store, store_unchecked. destruct (zlen data <? off) eqn:E.
  - split; [split; [lia|reflexivity]|reflexivity].
  - destruct (WIDTH ty <=? zlen data - off) eqn:E2; split; try (split; intros H; try reflexivity; try discriminate; lia).
    + intros H. lia.
    + intros _ [Hc|Hc]; [rewrite Hc; reflexivity|lia].
Qed.

Lemma c34_extract_replace : forall (A : Type) (c : config) (ty : vty) (v : list A) (i : Z) (x : A),
  zlen v = WIDTH ty -> 0 <= i ->
  (i < WIDTH ty -> exists v', replace (WIDTH ty) v i x = Ok v' /\ replace_unchecked c (WIDTH ty) v i x = Ok v' /\
      zlen v' = WIDTH ty /\ extract (WIDTH ty) v' i = Ok x /\
      (forall j, 0 <= j -> j <> i -> extract (WIDTH ty) v' j = extract (WIDTH ty) v j) /\
      (forall j, 0 <= j < WIDTH ty -> extract_unchecked c (WIDTH ty) v' j = extract (WIDTH ty) v' j)) /\
  (WIDTH ty <= i -> replace (WIDTH ty) v i x = Panic /\ extract (WIDTH ty) v i = Panic /\
      (build c = Debug -> replace_unchecked c (WIDTH ty) v i x = Panic /\ extract_unchecked c (WIDTH ty) v i = Panic)).
Proof.
  intros A c ty v i x Hv Hi. split.
  - intros Hlt. exists (upd v i [x]). unfold replace, replace_unchecked. replace (i <? WIDTH ty) with true by lia.
    split; [reflexivity|]. split; [reflexivity|].
    assert (H1 : zlen [x] = 1) by reflexivity. split; [rewrite upd_len by lia; exact Hv|]. split; [|split].
    + unfold extract. replace (i <? WIDTH ty) with true by lia. rewrite znth_upd by lia. rewrite H1.
      replace ((i <=? i) && (i <? i + 1)) with true by lia. rewrite Z.sub_diag. reflexivity.
    + intros j Hj Hne. unfold extract. destruct (j <? WIDTH ty) eqn:E; [|reflexivity]. rewrite znth_upd by lia. rewrite H1.
      replace ((i <=? j) && (j <? i + 1)) with false by lia. reflexivity.
    + intros j Hj. unfold extract, extract_unchecked. replace (j <? WIDTH ty) with true by lia. reflexivity.
  - intros Hge. unfold replace, extract, replace_unchecked, extract_unchecked. replace (i <? WIDTH ty) with false by lia.
    split; [reflexivity|]. split; [reflexivity|]. intros Hc. rewrite Hc. split; reflexivity.
Qed.

Lemma extract_at : forall (A : Type) W (v : list A) i x, znth v i = Some x -> i < W -> extract W v i = Ok x.
Proof. intros A W v i x H Hi. unfold extract. replace (i <? W) with true by lia. rewrite H. reflexivity. Qed.

Lemma for_range_fold : forall (A T : Type) (W : Z) (f : T -> A -> outcome T) (v pre : list A) acc,
  zlen pre + zlen v <= W ->
  for_range (length v) (zlen pre) (fun i acc => let! x := extract W (pre ++ v) i in f acc x) acc =
  fold_left (fun o x => let! acc := o in f acc x) v (Ok acc).
Proof.
  intros A T W f v. induction v as [|x v IH]; intros pre acc Hw; [reflexivity|].
  cbn [length for_range fold_left]. rewrite zlen_cons in Hw. pose proof (zlen_nonneg v).
  assert (Hx : znth (pre ++ x :: v) (zlen pre) = Some x).
  { rewrite znth_app by apply zlen_nonneg. rewrite Z.ltb_irrefl, Z.sub_diag. reflexivity. }
  rewrite (extract_at _ _ _ _ _ Hx) by lia. cbn [bind].
  specialize (IH (pre ++ [x])). rewrite <- app_assoc in IH. cbn [app] in IH. rewrite zlen_app in IH. change (zlen [x]) with 1 in IH.
  destruct (f acc x) as [acc'| | |]; cbn [bind]; [apply IH; lia| | |]; clear; induction v; cbn; auto.
Qed.

Lemma c34_scalar_reduce : forall (A T : Type) (ty : vty) (v : list A) (acc : T) (f : T -> A -> T),
  zlen v = WIDTH ty -> scalar_reduce (WIDTH ty) v acc f = Ok (fold_left f v acc).
Proof.
  intros A T ty v acc f Hv. unfold scalar_reduce. replace (Z.to_nat (WIDTH ty)) with (length v) by (unfold zlen in Hv; lia).
  pose proof (for_range_fold A T (WIDTH ty) (fun acc x => Ok (f acc x)) v [] acc) as H. cbn [app] in H. change (zlen (@nil A)) with 0 in H.
  rewrite H by lia. clear. revert acc. induction v as [|x v IH]; intros acc; cbn; [reflexivity|]. apply IH.
Qed.

Lemma wrap_mod : forall t x, imod t <> 0 -> wrap t x mod imod t = x mod imod t.
Proof.
  intros t x H. unfold wrap. rewrite Z.add_mod_idemp_l by exact H. f_equal. lia.
Qed.

Lemma wrap_eq : forall t x y, imod t <> 0 -> x mod imod t = y mod imod t -> wrap t x = wrap t y.
Proof.
  intros t x y H E. unfold wrap. f_equal. rewrite (Zminus_mod x), (Zminus_mod y), E. reflexivity.
Qed.

Lemma imod_pos : forall t, 0 < imod t.
Proof. intros t. unfold imod. apply Z.pow_pos_nonneg; lia. Qed.

Lemma wrap_id : forall t x, in_ity t x -> wrap t x = x.
Proof.
  intros t x H. pose proof (imod_pos t). unfold in_ity in H. unfold wrap.
  assert (Hx : 0 <= x - imin t < imod t).
  { unfold imin, imax in *. destruct (isigned t); [|lia].
    destruct (Z.eq_dec (imod t) 1) as [E|E]; [rewrite E in *; lia|].
    assert (imod t mod 2 = 0).
    { unfold imod in *. destruct (ibytes t) as [|n]; [cbn in E; lia|].
      replace (2 ^ (8 * Z.of_nat (S n))) with (2 ^ (8 * Z.of_nat (S n) - 1) * 2).
      - apply Z.mod_mul. lia.
      - rewrite Z.mul_comm, <- Z.pow_succ_r by lia. f_equal. lia. }
    lia. }
  rewrite Z.mod_small by exact Hx. lia.
Qed.

Lemma iarith_release : forall c t r, build c = Release -> iarith c t r = Ok (wrap t r).
Proof.
  intros c t r Hb. unfold iarith. destruct ((imin t <=? r) && (r <=? imax t)) eqn:E.
  - rewrite wrap_id; [reflexivity|]. unfold in_ity. lia.
  - rewrite Hb. reflexivity.
Qed.

Lemma c34_product_release : forall (c : config) (t : ity) (ty : vty) (v : list Z),
  build c = Release -> (0 < ibytes t)%nat -> zlen v = WIDTH ty ->
  product (fun a b => iarith c t (a * b)) 1 (WIDTH ty) v = Ok (wrap t (fold_left Z.mul v 1)).
Proof.
  intros c t ty v Hb Ht Hv. unfold product. replace (Z.to_nat (WIDTH ty)) with (length v) by (unfold zlen in Hv; lia).
  pose proof (for_range_fold Z Z (WIDTH ty) (fun a b => iarith c t (a * b)) v [] 1) as H. cbn [app] in H. change (zlen (@nil Z)) with 0 in H.
  rewrite H by lia. clear H Hv. pose proof (imod_pos t) as Hp.
  assert (H1 : wrap t 1 = 1).
  { apply wrap_id. unfold in_ity, imin, imax, imod. destruct (ibytes t) as [|n]; [lia|].
    assert (256 <= 2 ^ (8 * Z.of_nat (S n))) by (change 256 with (2 ^ 8); apply Z.pow_le_mono_r; lia).
    destruct (isigned t); lia. }
  assert (G : forall acc, fold_left (fun o x => let! a := o in iarith c t (a * x)) v (Ok (wrap t acc)) = Ok (wrap t (fold_left Z.mul v acc))).
  { induction v as [|x v IH]; intros acc; [reflexivity|]. cbn [fold_left bind]. rewrite iarith_release by exact Hb.
    rewrite (wrap_eq t (wrap t acc * x) (acc * x)); [apply IH|lia|].
    rewrite Z.mul_mod by lia. rewrite wrap_mod by lia. rewrite <- Z.mul_mod by lia. reflexivity. }
  rewrite <- H1 at 1. apply G.
Qed.

Lemma c34_product_debug : forall (c : config) (t : ity) (ty : vty) (v : list Z),
  build c = Debug -> zlen v = WIDTH ty ->
  ((forall k, (0 < k <= length v)%nat -> in_ity t (fold_left Z.mul (firstn k v) 1)) ->
     product (fun a b => iarith c t (a * b)) 1 (WIDTH ty) v = Ok (fold_left Z.mul v 1)) /\
  ((exists k, (0 < k <= length v)%nat /\ ~ in_ity t (fold_left Z.mul (firstn k v) 1)) ->
     product (fun a b => iarith c t (a * b)) 1 (WIDTH ty) v = Panic).
Proof.
  intros c t ty v Hb Hv. unfold product. replace (Z.to_nat (WIDTH ty)) with (length v) by (unfold zlen in Hv; lia).
  pose proof (for_range_fold Z Z (WIDTH ty) (fun a b => iarith c t (a * b)) v [] 1) as H. cbn [app] in H. change (zlen (@nil Z)) with 0 in H.
  rewrite H by lia. clear H Hv. generalize 1 as acc. split; revert acc; induction v as [|x v IH]; intros acc Hk.
  - reflexivity.
  - cbn [fold_left bind]. pose proof (Hk 1%nat ltac:(cbn; lia)) as H1. cbn [firstn fold_left] in H1. unfold in_ity in H1. unfold iarith at 2.
    replace ((imin t <=? acc * x) && (acc * x <=? imax t)) with true by lia. apply IH. intros k Hk1.
    apply (Hk (S k)). cbn. lia.
  - destruct Hk as (k & Hk & _). cbn in Hk. lia.
  - destruct Hk as (k & Hk & Hn). cbn [fold_left bind]. unfold iarith at 2.
    destruct ((imin t <=? acc * x) && (acc * x <=? imax t)) eqn:E.
    + apply IH. destruct k as [|[|k]]; [lia|exfalso; apply Hn; cbn; unfold in_ity; lia|]. exists (S k). split; [cbn in Hk; lia|exact Hn].
    + rewrite Hb. clear. induction v; cbn; auto.
Qed.

Lemma c34_splat_coalesce : forall (A : Type) (c : config) (eqb : A -> A -> bool) (ty : vty) (x : A),
  0 < WIDTH ty -> eqb x x = true ->
  zlen (splat (WIDTH ty) x) = WIDTH ty /\
  (forall i, 0 <= i < WIDTH ty -> extract (WIDTH ty) (splat (WIDTH ty) x) i = Ok x) /\
  coalesce c eqb (WIDTH ty) (splat (WIDTH ty) x) = Ok x.
Proof.
  intros A c eqb ty x Hw He.
  assert (Hx : forall i, 0 <= i < WIDTH ty -> extract (WIDTH ty) (splat (WIDTH ty) x) i = Ok x).
  { intros i Hi. apply extract_at; [|lia]. unfold znth, splat. replace (i <? 0) with false by lia.
    apply nth_error_repeat. lia. }
  split; [unfold splat, zlen; rewrite repeat_length; lia|]. split; [exact Hx|].
  unfold coalesce.
  assert (Hf : forall n i, 1 <= i -> i + Z.of_nat n <= WIDTH ty ->
    for_range n i (fun i _ => let! a := extract (WIDTH ty) (splat (WIDTH ty) x) (i - 1) in let! b := extract (WIDTH ty) (splat (WIDTH ty) x) i in debug_assert c (eqb a b)) tt = Ok tt).
  { induction n as [|n IH]; intros i H1 H2; [reflexivity|]. cbn [for_range]. rewrite !Hx by lia. cbn [bind]. unfold debug_assert at 1. rewrite He.
    destruct (build c); cbn [rassert bind]; apply IH; lia. }
  rewrite Hf by lia. cbn [bind]. apply Hx. lia.
Qed.

Lemma c34_coalesce_unequal : forall (A : Type) (c : config) (eqb : A -> A -> bool) (ty : vty) (v : list A),
  zlen v = WIDTH ty -> (exists i x y, 0 <= i /\ znth v i = Some x /\ znth v (i + 1) = Some y /\ eqb x y = false) ->
  coalesce c eqb (WIDTH ty) v = match build c with Debug => Panic | Release => extract (WIDTH ty) v 0 end.
Proof.
  intros A c eqb ty v Hv (i & x & y & Hi & Hx & Hy & He). unfold coalesce.
  assert (Hlt : i + 1 < zlen v).
  { destruct (Z_lt_le_dec (i + 1) (zlen v)); [assumption|]. rewrite znth_None in Hy by lia. discriminate. }
  assert (Hin : forall j, 0 <= j < WIDTH ty -> exists z, extract (WIDTH ty) v j = Ok z).
  { intros j Hj. destruct (znth_exists v j ltac:(lia)) as (z & Hz). exists z. apply extract_at; [exact Hz|lia]. }
  destruct (build c) eqn:Eb.
  - assert (Hf : forall n j, 1 <= j <= i + 1 -> i + 1 < j + Z.of_nat n -> j + Z.of_nat n <= WIDTH ty ->
      for_range n j (fun i _ => let! a := extract (WIDTH ty) v (i - 1) in let! b := extract (WIDTH ty) v i in debug_assert c (eqb a b)) tt = Panic).
    { induction n as [|n IH]; intros j H1 H2 H3; [lia|]. cbn [for_range]. destruct (Z.eq_dec j (i + 1)) as [->|Hne].
      - replace (i + 1 - 1) with i by lia. rewrite (extract_at _ _ _ _ _ Hx), (extract_at _ _ _ _ _ Hy) by lia. cbn [bind].
        unfold debug_assert at 1. rewrite Eb, He. reflexivity.
      - destruct (Hin (j - 1) ltac:(lia)) as (a & ->). destruct (Hin j ltac:(lia)) as (b & ->). cbn [bind].
        unfold debug_assert at 1. rewrite Eb. destruct (eqb a b); cbn [rassert bind]; [apply IH; lia|reflexivity]. }
    rewrite Hf by lia. reflexivity.
  - assert (Hf : forall n j, 1 <= j -> j + Z.of_nat n <= WIDTH ty ->
      for_range n j (fun i _ => let! a := extract (WIDTH ty) v (i - 1) in let! b := extract (WIDTH ty) v i in debug_assert c (eqb a b)) tt = Ok tt).
    { induction n as [|n IH]; intros j H1 H2; [reflexivity|]. cbn [for_range].
      destruct (Hin (j - 1) ltac:(lia)) as (a & ->). destruct (Hin j ltac:(lia)) as (b & ->). cbn [bind]. unfold debug_assert at 1. rewrite Eb. cbn [bind]. apply IH; lia. }
    rewrite Hf by lia. reflexivity.
Qed.
