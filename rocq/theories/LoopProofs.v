(** Proofs of the properties: loops over an unrolled iterator (C80, C81). *)
From Verif Require Import Base Spec Vecs Iters Crash Loops.
From Coq Require Import Lia ZifyBool ZifyNat.
From Verif Require Import ListFacts VecFacts IterFacts CollectFacts MapFacts VecProofs IterProofs CrashSpec CrashProofs.
Ltac Zify.zify_post_hook ::= Z.div_mod_to_equations.

Lemma znth_mid {X : Type} (a : list X) x b : znth (a ++ x :: b) (zlen a) = Some x.
Proof. pose proof (zlen_nonneg a). rewrite znth_app by lia. replace (zlen a <? zlen a) with false by lia. rewrite Z.sub_diag. reflexivity. Qed.

Lemma upd_mid {X : Type} (pre post v : list X) w : zlen v = w -> 0 <= w <= zlen post -> upd (pre ++ post) (zlen pre) v = pre ++ v ++ skipn (Z.to_nat w) post.
Proof.
  intros Hv Hw. rewrite <- (firstn_skipn (Z.to_nat w) post) at 1. apply upd_app; [reflexivity|]. rewrite firstn_length. unfold zlen in *. lia.
Qed.

(* storing the rest [h] of a group, contiguously from where [pre] ends *)
Lemma store_group_run {V A : Type} w (f : V -> list A) place i : 0 < w ->
  forall n gp h pre post, (forall v, In v h -> zlen (f v) = w) -> (forall x, place i x = place i 0 + x) -> zlen pre = (place i 0 + zlen gp) * w ->
  let j := Z.min (Z.min (Z.of_nat n) (zlen h)) (zlen post / w) in
  store_group_memory w f place n (zlen gp) (gp ++ h) i (pre ++ post) =
  (pre ++ overwritten (concat (map f (firstn (Z.to_nat j) h))) post,
   if (Z.of_nat n <=? zlen h) && (Z.of_nat n * w <=? zlen post) then Ok tt else Panic).
Proof.
  intros Hw. induction n as [|n IH]; intros gp h pre post Hf Hp Hpre j; cbn [store_group_memory].
  - pose proof (zlen_nonneg h). pose proof (zlen_nonneg post). assert (0 <= zlen post / w) by (apply Z.div_pos; lia). replace j with 0 by (unfold j; lia). cbn [Z.to_nat firstn map concat]. replace ((Z.of_nat 0 <=? zlen h) && (Z.of_nat 0 * w <=? zlen post)) with true by lia. reflexivity.
  - pose proof (zlen_nonneg post). destruct h as [|v h].
    + rewrite app_nil_r. replace (znth gp (zlen gp)) with (@None V) by (symmetry; apply znth_None; lia).
      replace (firstn (Z.to_nat j) (@nil V)) with (@nil V) by (rewrite firstn_nil; reflexivity). change (zlen (@nil V)) with 0. replace (Z.of_nat (S n) <=? 0) with false by lia. reflexivity.
    + rewrite znth_mid. pose proof (zlen_nonneg h). pose proof (zlen_nonneg pre). rewrite (Hp (zlen gp)), <- Hpre. unfold store. rewrite zlen_app.
      replace (zlen pre + zlen post <? zlen pre) with false by lia. replace (zlen pre + zlen post - zlen pre) with (zlen post) by lia. rewrite zlen_cons in *.
      assert (Hfv : zlen (f v) = w) by (apply Hf; left; reflexivity).
      destruct (w <=? zlen post) eqn:E; cbn [step].
      * rewrite (upd_mid pre post (f v) w Hfv) by lia.
        specialize (IH (gp ++ [v]) h (pre ++ f v) (skipn (Z.to_nat w) post)). rewrite <- !app_assoc in IH. cbn [app] in IH.
        replace (zlen (gp ++ [v])) with (zlen gp + 1) in IH by (rewrite zlen_app; reflexivity). rewrite IH; [|intros v0 Hv0; apply Hf; right; exact Hv0|exact Hp|rewrite zlen_app, Hfv, Hpre; ring].
        rewrite zlen_skipn, Z2Nat.id by lia. rewrite Z.max_r by lia.
        assert (Hq : (zlen post - w) / w = zlen post / w - 1) by (replace (zlen post - w) with (zlen post + (-1) * w) by lia; rewrite Z.div_add by lia; lia).
        rewrite Hq. assert (H1p : 1 <= zlen post / w) by (apply Z.div_le_lower_bound; lia). replace j with (1 + Z.min (Z.min (Z.of_nat n) (zlen h)) (zlen post / w - 1)) by (unfold j; rewrite ?zlen_cons; lia).
        set (q := Z.min (Z.min (Z.of_nat n) (zlen h)) (zlen post / w - 1)). assert (Hq0 : 0 <= q) by (unfold q; lia).
        replace (Z.to_nat (1 + q)) with (S (Z.to_nat q)) by lia. cbn [firstn map concat]. f_equal.
        -- unfold overwritten. rewrite <- !app_assoc. f_equal. f_equal. f_equal. rewrite skipn_skipn, app_length. f_equal. unfold zlen in Hfv. lia.
        -- replace ((Z.of_nat n <=? zlen h) && (Z.of_nat n * w <=? zlen post - w)) with ((Z.of_nat (S n) <=? 1 + zlen h) && (Z.of_nat (S n) * w <=? zlen post)) by lia. reflexivity.
      * replace j with 0 by (unfold j; rewrite (Z.div_small (zlen post) w), ?zlen_cons by lia; lia). cbn [Z.to_nat firstn map concat].
        replace (Z.of_nat (S n) * w <=? zlen post) with false by nia. rewrite andb_false_r. reflexivity.
Qed.

(* the loop, as a function of the groups *)
Fixpoint store_groups {V A : Type} w (f : V -> list A) k place (gs : list (list V)) (i : Z) (out : list A) : list A * outcome unit :=
  match gs with
  | [] => (out, Ok tt)
  | g :: gs' => let m := store_group_memory w f place k 0 g i out in step (fst m) (snd m) (fun _ => store_groups w f k place gs' (i + 1) (fst m))
  end.

Lemma for_unrolled_groups {V A I : Type} (it : SIMDIterable V I) w (f : V -> list A) k place : forall fuel u gs u' i out, unrolled_drain it fuel u = Ok (gs, u') ->
  for_unrolled_memory it w f k place fuel u i out = (fst (store_groups w f k place gs i out), bind (snd (store_groups w f k place gs i out)) (fun _ => Ok u')).
Proof.
  induction fuel as [|fuel IH]; intros u gs u' i out H; [discriminate|]. cbn [unrolled_drain] in H. cbn [for_unrolled_memory].
  destruct (unrolled_next it u) as [[[g|] u1]| | |]; cbn [bind] in H; try discriminate; cbn [step].
  - destruct (unrolled_drain it fuel u1) as [[gs1 u2]| | |] eqn:E; cbn [bind fst snd] in H; try discriminate. injection H as <- <-.
    cbn [store_groups]. destruct (store_group_memory w f place k 0 g i out) as [m [x| | |]]; cbn [step fst snd bind]; try reflexivity. apply IH. exact E.
  - injection H as <- <-. reflexivity.
Qed.

Lemma fvs_len {V A : Type} w (f : V -> list A) vs : (forall v, In v vs -> zlen (f v) = w) -> zlen (concat (map f vs)) = w * zlen vs.
Proof. intros H. rewrite (concat_zlen w); [rewrite zlen_map; reflexivity|]. apply Forall_map. apply Forall_forall. exact H. Qed.

(* groups of [amt] stored one after the other *)
Lemma store_groups_run {V A : Type} w (f : V -> list A) amt : 0 < w -> (0 < amt)%nat -> forall vs gs, grouped amt vs gs -> (forall v, In v vs -> zlen (f v) = w) ->
  forall i pre post, zlen pre = i * Z.of_nat amt * w ->
  store_groups w f amt (fun i idx => i * Z.of_nat amt + idx) gs i (pre ++ post) =
  (pre ++ overwritten (concat (map f (firstn (Z.to_nat (zlen post / w)) vs))) post,
   if (zlen vs mod Z.of_nat amt =? 0) && (zlen vs * w <=? zlen post) then Ok tt else Panic).
Proof.
  intros Hw Ha vs gs Hg. induction Hg as [|vs Hlt|g vs gs Hlen Hg IH]; intros Hf i pre post Hpre; cbn [store_groups]; pose proof (zlen_nonneg post).
  - rewrite firstn_nil. cbn [map concat]. change (zlen (@nil V)) with 0. rewrite Zmod_0_l. replace ((0 =? 0) && (0 * w <=? zlen post)) with true by lia. reflexivity.
  - assert (Hv0 : 0 < zlen vs) by (destruct vs; [contradiction|rewrite zlen_cons; pose proof (zlen_nonneg vs); lia]).
    pose proof (store_group_run w f (fun i idx => i * Z.of_nat amt + idx) i Hw amt [] vs pre post Hf ltac:(intros x; cbv beta; lia) ltac:(change (zlen (@nil V)) with 0; cbv beta; rewrite Hpre; ring)) as E.
    change (zlen (@nil V)) with 0 in E. cbn [app] in E. rewrite E. clear E. cbn [fst snd].
    replace (Z.of_nat amt <=? zlen vs) with false by (unfold zlen; lia). cbn [andb step].
    rewrite Z.mod_small by (unfold zlen in *; lia). replace (zlen vs =? 0) with false by lia. cbn [andb]. f_equal. f_equal. f_equal. f_equal. f_equal.
    assert (0 <= zlen post / w) by (apply Z.div_pos; lia). destruct (Z.leb_spec (zlen vs) (zlen post / w)).
    + rewrite !firstn_all2; [reflexivity|..]; unfold zlen in *; lia.
    + f_equal. unfold zlen in *. lia.
  - assert (Hgz : zlen g = Z.of_nat amt) by (unfold zlen; lia).
    pose proof (store_group_run w f (fun i idx => i * Z.of_nat amt + idx) i Hw amt [] g pre post ltac:(intros v Hv; apply Hf; apply in_or_app; left; exact Hv) ltac:(intros x; cbv beta; lia) ltac:(change (zlen (@nil V)) with 0; cbv beta; rewrite Hpre; ring)) as E.
    change (zlen (@nil V)) with 0 in E. cbn [app] in E. rewrite E. clear E. cbn [fst snd].
    replace (Z.of_nat amt <=? zlen g) with true by lia. cbn [andb]. rewrite zlen_app, Hgz.
    assert (Hq0 : 0 <= zlen post / w) by (apply Z.div_pos; lia). pose proof (zlen_nonneg vs).
    assert (Hfg : forall v, In v g -> zlen (f v) = w) by (intros v Hv; apply Hf; apply in_or_app; left; exact Hv).
    destruct (Z.of_nat amt * w <=? zlen post) eqn:El; cbn [step].
    + assert (Hq : Z.of_nat amt <= zlen post / w) by (apply Z.div_le_lower_bound; lia).
      replace (Z.to_nat (Z.min (Z.min (Z.of_nat amt) (Z.of_nat amt)) (zlen post / w))) with (length g) by lia. rewrite firstn_all.
      unfold overwritten at 1. rewrite app_assoc.
      pose proof (fvs_len w f g Hfg) as Hcg. set (cg := concat (map f g)) in *. assert (Hcl : length cg = Z.to_nat (w * Z.of_nat amt)) by (unfold zlen in *; lia).
      rewrite (IH ltac:(intros v Hv; apply Hf; apply in_or_app; right; exact Hv) (i + 1) (pre ++ cg) (skipn (length cg) post)); [|rewrite zlen_app, Hcg, Hpre, Hgz; ring].
      rewrite zlen_skipn, Hcl, Z2Nat.id by lia. rewrite Z.max_r by lia.
      assert (Hd : (zlen post - w * Z.of_nat amt) / w = zlen post / w - Z.of_nat amt) by (replace (zlen post - w * Z.of_nat amt) with (zlen post + (- Z.of_nat amt) * w) by lia; rewrite Z.div_add by lia; lia). rewrite Hd.
      f_equal.
      * rewrite firstn_app, (firstn_all2 g) by lia. replace (Z.to_nat (zlen post / w) - length g)%nat with (Z.to_nat (zlen post / w - Z.of_nat amt)) by lia.
        rewrite map_app, concat_app. fold cg. unfold overwritten. rewrite <- !app_assoc. f_equal. f_equal. f_equal. rewrite skipn_skipn, app_length. f_equal. lia.
      * replace ((Z.of_nat amt + zlen vs) mod Z.of_nat amt) with (zlen vs mod Z.of_nat amt) by (replace (Z.of_nat amt + zlen vs) with (zlen vs + 1 * Z.of_nat amt) by lia; rewrite Z.mod_add by lia; reflexivity).
        replace (zlen vs * w <=? zlen post - w * Z.of_nat amt) with ((Z.of_nat amt + zlen vs) * w <=? zlen post) by lia. reflexivity.
    + assert (Hq : zlen post / w < Z.of_nat amt) by (apply Z.div_lt_upper_bound; lia).
      replace ((Z.of_nat amt + zlen vs) * w <=? zlen post) with false by nia. rewrite andb_false_r. f_equal. f_equal. f_equal. f_equal. f_equal.
      rewrite firstn_app. replace (Z.to_nat (zlen post / w) - length g)%nat with 0%nat by lia. cbn [firstn]. rewrite app_nil_r. f_equal. lia.
Qed.

Lemma c80_unrolled_store : forall (A B : Type) (c : config) (ty : vty) (l d vdef : list A) (f : list A -> list B) (out : list B) (amt : nat) (fuel : nat),
  vty_ok ty -> slice_ok ty l -> zlen d = WIDTH ty -> (forall v, zlen v = WIDTH ty -> zlen (f v) = WIDTH ty) -> (1 <= amt <= 8)%nat -> (length l < fuel)%nat ->
  let W := WIDTH ty in
  exists u vs rest memory r, unroll vdef (simd_iter l d) (Z.of_nat amt) = Ok u /\ chunked W l vs rest /\ zlen rest < W /\
  for_unrolled_memory (itb (slice_iterator c ty)) W f amt (fun i idx => i * Z.of_nat amt + idx) fuel u 0 out = (memory, r) /\
  (zlen vs * W <= zlen out -> memory = concat (map f vs) ++ skipn (Z.to_nat (zlen vs * W)) out /\
     (zlen vs mod Z.of_nat amt = 0 -> exists u', r = Ok u') /\ (zlen vs mod Z.of_nat amt <> 0 -> r = Panic)) /\
  (zlen out < zlen vs * W -> r = Panic /\
     memory = concat (map f (firstn (Z.to_nat (zlen out / W)) vs)) ++ skipn (Z.to_nat (W * (zlen out / W))) out).
Proof.
  intros A B c ty l d vdef f out amt fuel Hty Hl Hd Hf Ha Hfu W. pose proof (vty_ok_facts _ Hty) as (H1 & _). fold W in H1. pose proof (zlen_nonneg l).
  destruct (c16_unroll A c ty l d vdef 0 (Z.of_nat amt) fuel Hty Hl Hd ltac:(lia) ltac:(unfold usize_mod; lia) Hfu) as (_ & _ & Hu).
  destruct (Hu ltac:(lia)) as (u & gs & vs & rest & u' & Hun & Hdr & Hch & Hr & _ & Hg & _). cbn [Z.to_nat skipn] in Hch. rewrite Nat2Z.id in Hg.
  pose proof (proj1 Hch) as Hv. assert (Hfv : forall v, In v vs -> zlen (f v) = W) by (intros v Hin; apply Hf; rewrite Forall_forall in Hv; exact (Hv v Hin)).
  pose proof (for_unrolled_groups (itb (slice_iterator c ty)) W f amt (fun i idx => i * Z.of_nat amt + idx) fuel u gs u' 0 out Hdr) as Hloop.
  pose proof (store_groups_run W f amt ltac:(lia) ltac:(lia) vs gs Hg Hfv 0 [] out ltac:(reflexivity)) as Hst. cbn [app] in Hst. rewrite Hst in Hloop. cbn [fst snd] in Hloop.
  exists u, vs, rest. do 2 eexists. split; [exact Hun|]. split; [exact Hch|]. split; [exact Hr|]. split; [exact Hloop|].
  pose proof (zlen_nonneg vs). pose proof (zlen_nonneg out). split; intros Hcase.
  - replace (zlen vs * W <=? zlen out) with true by lia. rewrite andb_true_r. assert (Hk : zlen vs <= zlen out / W) by (apply Z.div_le_lower_bound; lia).
    rewrite firstn_all2 by (unfold zlen in *; lia). unfold overwritten. pose proof (fvs_len W f vs Hfv) as Hcl. split; [|split].
    + f_equal. f_equal. unfold zlen in *. lia.
    + intros ->. exists u'. reflexivity.
    + intros Hne. replace (zlen vs mod Z.of_nat amt =? 0) with false by lia. reflexivity.
  - replace (zlen vs * W <=? zlen out) with false by lia. rewrite andb_false_r. split; [reflexivity|]. unfold overwritten. f_equal. f_equal.
    assert (0 <= zlen out / W) by (apply Z.div_pos; lia). assert (Hk : zlen out / W < zlen vs) by (apply Z.div_lt_upper_bound; lia).
    pose proof (fvs_len W f (firstn (Z.to_nat (zlen out / W)) vs)) as Hcl. rewrite zlen_firstn, Z2Nat.id, Z.min_l in Hcl by lia.
    specialize (Hcl ltac:(intros v Hin; apply Hfv; rewrite <- (firstn_skipn (Z.to_nat (zlen out / W)) vs); apply in_or_app; left; exact Hin)). unfold zlen in *. lia.
Qed.

(* the blocks left by storing group number i from block i on *)
Fixpoint overlapped {V : Type} (gs : list (list V)) : list V :=
  match gs with
  | [] => []
  | [g] => g
  | g :: gs' => firstn 1 g ++ overlapped gs'
  end.

Lemma overlapped_cons {V : Type} (g g2 : list V) gs : overlapped (g :: g2 :: gs) = firstn 1 g ++ overlapped (g2 :: gs).
Proof. reflexivity. Qed.

Lemma overlapped_length {V : Type} amt : (0 < amt)%nat -> forall gs (g : list V), Forall (fun g => length g = amt) (g :: gs) -> length (overlapped (g :: gs)) = (length gs + amt)%nat.
Proof.
  intros Ha. induction gs as [|g2 gs IH]; intros g H; [cbn; inversion H; lia|]. rewrite overlapped_cons, app_length, firstn_length, (IH g2) by (inversion H; assumption). inversion H; subst. cbn [length] in *. lia.
Qed.

Lemma overlapped_in {V : Type} : forall gs (v : V), In v (overlapped gs) -> In v (concat gs).
Proof.
  induction gs as [|g [|g2 gs] IH]; intros v H; [exact H|cbn in *; rewrite app_nil_r; exact H|]. rewrite overlapped_cons in H. apply in_app_or in H. apply in_or_app. destruct H as [H|H].
  - left. rewrite <- (firstn_skipn 1 g). apply in_or_app. left. exact H.
  - right. apply IH. exact H.
Qed.

Lemma overlapped_run {V A : Type} w (f : V -> list A) amt : 0 < w -> (0 < amt)%nat -> forall gs g, Forall (fun g => length g = amt) (g :: gs) -> (forall v, In v (concat (g :: gs)) -> zlen (f v) = w) ->
  forall i pre post, zlen pre = i * w -> (zlen gs + Z.of_nat amt) * w <= zlen post ->
  store_groups w f amt (fun i idx => i + idx) (g :: gs) i (pre ++ post) = (pre ++ overwritten (concat (map f (overlapped (g :: gs)))) post, Ok tt).
Proof.
  intros Hw Ha. induction gs as [|g2 gs IH]; intros g Hg Hf i pre post Hpre Hpost.
  - pose proof (Forall_inv Hg) as Hgl. cbv beta in Hgl. assert (Hgz : zlen g = Z.of_nat amt) by (unfold zlen; lia). cbn [concat] in Hf. rewrite app_nil_r in Hf. change (zlen (@nil (list V))) with 0 in Hpost.
    cbn [store_groups overlapped].
    pose proof (store_group_run w f (fun i idx => i + idx) i Hw amt [] g pre post Hf ltac:(intros x; cbv beta; lia) ltac:(change (zlen (@nil V)) with 0; cbv beta; rewrite Hpre; ring)) as E.
    change (zlen (@nil V)) with 0 in E. cbn [app] in E. rewrite E. clear E. cbn [fst snd].
    replace ((Z.of_nat amt <=? zlen g) && (Z.of_nat amt * w <=? zlen post)) with true by lia. cbn [step]. f_equal. f_equal. f_equal. f_equal. f_equal.
    assert (Hq : Z.of_nat amt <= zlen post / w) by (apply Z.div_le_lower_bound; lia). apply firstn_all2. lia.
  - pose proof (Forall_inv Hg) as Hgl. cbv beta in Hgl. assert (Hgz : zlen g = Z.of_nat amt) by (unfold zlen; lia). rewrite zlen_cons in Hpost. pose proof (zlen_nonneg gs).
    assert (Hfg : forall v, In v g -> zlen (f v) = w) by (intros v Hv; apply Hf; cbn [concat]; apply in_or_app; left; exact Hv).
    change (store_groups w f amt (fun i idx => i + idx) (g :: g2 :: gs) i (pre ++ post)) with
      (let m := store_group_memory w f (fun i idx => i + idx) amt 0 g i (pre ++ post) in step (fst m) (snd m) (fun _ => store_groups w f amt (fun i idx => i + idx) (g2 :: gs) (i + 1) (fst m))).
    cbv zeta.
    pose proof (store_group_run w f (fun i idx => i + idx) i Hw amt [] g pre post Hfg ltac:(intros x; cbv beta; lia) ltac:(change (zlen (@nil V)) with 0; cbv beta; rewrite Hpre; ring)) as E.
    change (zlen (@nil V)) with 0 in E. cbn [app] in E. rewrite E. clear E. cbn [fst snd].
    assert (Hpa : Z.of_nat amt * w <= zlen post) by nia.
    replace ((Z.of_nat amt <=? zlen g) && (Z.of_nat amt * w <=? zlen post)) with true by lia. cbn [step].
    assert (Hq : Z.of_nat amt <= zlen post / w) by (apply Z.div_le_lower_bound; lia).
    replace (Z.to_nat (Z.min (Z.min (Z.of_nat amt) (zlen g)) (zlen post / w))) with (length g) by lia. rewrite firstn_all.
    destruct g as [|v g]; [cbn in Hgl; lia|]. unfold overwritten. cbn [map concat].
    assert (Hfv : zlen (f v) = w) by (apply Hfg; left; reflexivity).
    pose proof (fvs_len w f g ltac:(intros v0 Hv0; apply Hfg; right; exact Hv0)) as Hcg. set (cg := concat (map f g)) in *. rewrite zlen_cons in Hgz.
    rewrite <- (app_assoc (f v) cg), (app_assoc pre (f v)).
    set (post2 := cg ++ skipn (length (f v ++ cg)) post).
    assert (Hfcl : length (f v ++ cg) = Z.to_nat (Z.of_nat amt * w)) by (rewrite app_length; unfold zlen in *; lia).
    assert (Hp2 : zlen post2 = zlen post - w) by (unfold post2; rewrite zlen_app, zlen_skipn, Hcg, Hfcl, Z2Nat.id by lia; lia).
    rewrite (IH g2 (Forall_inv_tail Hg)); [|intros v0 Hv0; apply Hf; cbn [concat]; apply in_or_app; right; exact Hv0|rewrite zlen_app, Hpre, Hfv; ring|rewrite Hp2; lia].
    rewrite overlapped_cons. cbn [firstn map concat app]. f_equal. rewrite <- app_assoc. f_equal. unfold overwritten. rewrite <- app_assoc. f_equal. f_equal.
    pose proof (fvs_len w f (overlapped (g2 :: gs)) ltac:(intros v0 Hv0; apply Hf; cbn [concat]; apply in_or_app; right; apply (overlapped_in (g2 :: gs)); exact Hv0)) as Hol.
    unfold zlen in Hol at 2. rewrite (overlapped_length amt Ha gs g2 (Forall_inv_tail Hg)) in Hol. set (co := concat (map f (overlapped (g2 :: gs)))) in *.
    unfold post2. rewrite skipn_app, (skipn_all2 cg) by (unfold zlen in *; nia). cbn [app]. rewrite skipn_skipn. f_equal. rewrite !app_length. unfold zlen in *. nia.
Qed.

Lemma concat_block {V A : Type} w (f : V -> list A) : 0 < w -> forall vs p v r, (forall v, In v vs -> zlen (f v) = w) -> znth vs p = Some v ->
  sub (concat (map f vs) ++ r) (p * w) w = f v.
Proof.
  intros Hw. induction vs as [|x vs IH]; intros p v r Hf Hp; pose proof (znth_Some_lt _ _ _ Hp) as Hr; [change (zlen (@nil V)) with 0 in Hr; lia|]. cbn [map concat].
  assert (Hfx : zlen (f x) = w) by (apply Hf; left; reflexivity). destruct (Z.eq_dec p 0) as [->|Hne].
  - injection Hp as <-. unfold sub. cbn [Z.mul Z.to_nat skipn]. rewrite <- app_assoc, firstn_app. replace (Z.to_nat w - length (f x))%nat with 0%nat by (unfold zlen in Hfx; lia).
    rewrite firstn_all2 by (unfold zlen in Hfx; lia). apply app_nil_r.
  - rewrite <- (IH (p - 1) v r); [|intros v0 Hv0; apply Hf; right; exact Hv0|].
    + unfold sub. f_equal. rewrite <- app_assoc, skipn_app, (skipn_all2 (f x)) by (unfold zlen in Hfx; nia). cbn [app]. f_equal. unfold zlen in Hfx. nia.
    + unfold znth in *. replace (p <? 0) with false in Hp by lia. replace (p - 1 <? 0) with false by lia. replace (Z.to_nat p) with (S (Z.to_nat (p - 1))) in Hp by lia. exact Hp.
Qed.

Lemma znth_skipped {A : Type} (l : list A) p i : 0 <= p -> 0 <= i -> znth (skipn (Z.to_nat p) l) i = znth l (p + i).
Proof.
  intros Hp Hi. unfold znth. replace (i <? 0) with false by lia. replace (p + i <? 0) with false by lia.
  rewrite nth_error_skipn. f_equal. lia.
Qed.

Lemma znth_cons_shift {X : Type} (x : X) l p : 0 < p -> znth (x :: l) p = znth l (p - 1).
Proof. intros H. unfold znth. replace (p <? 0) with false by lia. replace (p - 1 <? 0) with false by lia. replace (Z.to_nat p) with (S (Z.to_nat (p - 1))) by lia. reflexivity. Qed.

Lemma overlapped_nth {V : Type} (amt : nat) : (0 < amt)%nat -> forall gs (g : list V), Forall (fun g => length g = amt) (g :: gs) ->
  (forall p, 0 <= p <= zlen gs -> znth (overlapped (g :: gs)) p = znth (concat (g :: gs)) (Z.of_nat amt * p)) /\
  (forall j, 0 <= j < Z.of_nat amt -> znth (overlapped (g :: gs)) (zlen gs + j) = znth (concat (g :: gs)) (Z.of_nat amt * zlen gs + j)).
Proof.
  intros Ha. induction gs as [|g2 gs IH]; intros g Hg.
  - change (zlen (@nil (list V))) with 0. cbn [overlapped concat]. rewrite app_nil_r. split; [intros p Hp; replace p with 0 by lia; f_equal; lia|]. intros j Hj. f_equal. lia.
  - destruct (IH g2 (Forall_inv_tail Hg)) as [I1 I2]. pose proof (Forall_inv Hg) as Hgl. cbv beta in Hgl. rewrite overlapped_cons, zlen_cons. pose proof (zlen_nonneg gs).
    assert (Hgz : zlen g = Z.of_nat amt) by (unfold zlen; lia). change (concat (g :: g2 :: gs)) with (g ++ concat (g2 :: gs)).
    destruct g as [|v g]; [cbn in Hgl; lia|]. cbn [firstn app].
    split.
    + intros p Hp. destruct (Z.eq_dec p 0) as [->|Hne]; [rewrite Z.mul_0_r; reflexivity|]. rewrite znth_cons_shift, (I1 (p - 1)) by lia.
      change (v :: g ++ concat (g2 :: gs)) with ((v :: g) ++ concat (g2 :: gs)). rewrite (znth_app _ (v :: g)) by nia. rewrite Hgz. replace (Z.of_nat amt * p <? Z.of_nat amt) with false by nia. f_equal. ring.
    + intros j Hj. rewrite znth_cons_shift by lia. replace (1 + zlen gs + j - 1) with (zlen gs + j) by ring. rewrite I2 by lia.
      change (v :: g ++ concat (g2 :: gs)) with ((v :: g) ++ concat (g2 :: gs)). rewrite (znth_app _ (v :: g)) by nia. rewrite Hgz. replace (Z.of_nat amt * (1 + zlen gs) + j <? Z.of_nat amt) with false by nia. f_equal. ring.
Qed.

Lemma grouped_full {V : Type} (amt : nat) : (0 < amt)%nat -> forall vs (gs : list (list V)), grouped amt vs gs -> zlen vs mod Z.of_nat amt = 0 ->
  Forall (fun g => length g = amt) gs /\ zlen vs = Z.of_nat amt * zlen gs /\ concat gs = vs.
Proof.
  intros Ha vs gs Hg. induction Hg as [|vs Hne Hlt|g vs gs Hl Hg IH]; intros Hm.
  - split; [constructor|]. split; [change (0 = Z.of_nat amt * 0); lia|reflexivity].
  - exfalso. rewrite Z.mod_small in Hm by (unfold zlen; lia). destruct vs; [contradiction|]. unfold zlen in Hm. cbn in Hm. lia.
  - assert (Hgz : zlen g = Z.of_nat amt) by (unfold zlen; lia). rewrite zlen_app, Hgz in *. replace (Z.of_nat amt + zlen vs) with (zlen vs + 1 * Z.of_nat amt) in Hm by lia. rewrite Z.mod_add in Hm by lia.
    destruct (IH Hm) as (I1 & I2 & I3). split; [constructor; assumption|]. split; [rewrite I2, zlen_cons; ring|]. cbn [concat]. rewrite I3. reflexivity.
Qed.

Lemma c81_benchmark_refuted : forall (A B : Type) (c : config) (ty : vty) (l d vdef : list A) (f : list A -> list B) (out : list B) (amt : nat) (n : Z) (fuel : nat),
  vty_ok ty -> slice_ok ty l -> zlen d = WIDTH ty -> (forall v, zlen v = WIDTH ty -> zlen (f v) = WIDTH ty) -> (1 <= amt <= 8)%nat -> (length l < fuel)%nat ->
  let W := WIDTH ty in
  1 <= n -> W * (Z.of_nat amt * n) <= zlen l < W * (Z.of_nat amt * n + 1) -> zlen l <= zlen out ->
  exists u vs rest memory u', unroll vdef (simd_iter l d) (Z.of_nat amt) = Ok u /\ chunked W l vs rest /\ zlen rest < W /\
  for_unrolled_memory (itb (slice_iterator c ty)) W f amt (fun i idx => i + idx) fuel u 0 out = (memory, Ok u') /\
  zlen memory = zlen out /\
  (forall p v, 0 <= p < n -> znth vs (Z.of_nat amt * p) = Some v -> sub memory (p * W) W = f v) /\
  (forall j v, 0 <= j < Z.of_nat amt -> znth vs (Z.of_nat amt * (n - 1) + j) = Some v -> sub memory ((n - 1 + j) * W) W = f v) /\
  (forall k, (n + Z.of_nat amt - 1) * W <= k -> znth memory k = znth out k) /\
  (2 <= n -> 2 <= Z.of_nat amt -> n + Z.of_nat amt - 1 < zlen vs).
Proof.
  intros A B c ty l d vdef f out amt n fuel Hty Hl Hd Hf Ha Hfu W Hn Hln Hout. pose proof (vty_ok_facts _ Hty) as (H1 & _). fold W in H1. pose proof (zlen_nonneg l).
  destruct (c16_unroll A c ty l d vdef 0 (Z.of_nat amt) fuel Hty Hl Hd ltac:(lia) ltac:(unfold usize_mod; lia) Hfu) as (_ & _ & Hu).
  destruct (Hu ltac:(lia)) as (u & gs & vs & rest & u' & Hun & Hdr & Hch & Hr & _ & Hg & _). cbn [Z.to_nat skipn] in Hch. rewrite Nat2Z.id in Hg.
  pose proof (proj1 Hch) as Hv. assert (Hfv : forall v, In v vs -> zlen (f v) = W) by (intros v Hin; apply Hf; rewrite Forall_forall in Hv; exact (Hv v Hin)).
  assert (Hlv : zlen l = W * zlen vs + zlen rest) by (rewrite <- (proj2 Hch), zlen_app, (concat_zlen _ _ Hv); reflexivity). pose proof (zlen_nonneg rest) as Hr0.
  assert (Hvn : zlen vs = Z.of_nat amt * n) by (fold W in Hr; clear -Hlv Hln Hr H1 Hr0; nia).
  destruct (grouped_full amt ltac:(lia) vs gs Hg) as (Hgl & Hgn & Hgc); [rewrite Hvn, Z.mul_comm, Z.mod_mul by lia; reflexivity|].
  assert (Hgn2 : zlen gs = n) by (clear -Hvn Hgn Ha; nia).
  destruct gs as [|g gs]; [change (zlen (@nil (list (list A)))) with 0 in Hgn2; lia|]. rewrite zlen_cons in Hgn2.
  assert (Hroom : (n - 1 + Z.of_nat amt) * W <= zlen out) by (assert (Hna : n - 1 + Z.of_nat amt <= Z.of_nat amt * n) by (clear -Hn Ha; nia); clear -Hout Hln H1 Hna; nia).
  pose proof (for_unrolled_groups (itb (slice_iterator c ty)) W f amt (fun i idx => i + idx) fuel u (g :: gs) u' 0 out Hdr) as Hloop.
  pose proof (overlapped_run W f amt ltac:(lia) ltac:(lia) gs g Hgl ltac:(rewrite Hgc; exact Hfv) 0 [] out ltac:(reflexivity) ltac:(replace (zlen gs) with (n - 1) by lia; exact Hroom)) as Hst.
  cbn [app] in Hst. rewrite Hst in Hloop. cbn [fst snd bind] in Hloop.
  destruct (overlapped_nth amt ltac:(lia) gs g Hgl) as [N1 N2]. rewrite Hgc in N1, N2. replace (zlen gs) with (n - 1) in N1, N2 by lia.
  pose proof (overlapped_length amt ltac:(lia) gs g Hgl) as Hol.
  assert (Hfo : forall v, In v (overlapped (g :: gs)) -> zlen (f v) = W) by (intros v Hin; apply Hfv; rewrite <- Hgc; apply overlapped_in; exact Hin).
  pose proof (fvs_len W f _ Hfo) as Hcl. set (o := overlapped (g :: gs)) in *. assert (Hoz : zlen o = n - 1 + Z.of_nat amt) by (unfold zlen in *; lia). rewrite Hoz in Hcl.
  unfold overwritten in Hloop.
  exists u, vs, rest. do 2 eexists. split; [exact Hun|]. split; [exact Hch|]. split; [exact Hr|]. split; [exact Hloop|].
  assert (Hcn : length (concat (map f o)) = Z.to_nat (W * (n - 1 + Z.of_nat amt))) by (unfold zlen in Hcl; lia).
  split; [rewrite zlen_app, zlen_skipn, Hcl, Hcn, Z2Nat.id by nia; nia|].
  split; [intros p v Hp Hz; apply (concat_block W f ltac:(lia)); [exact Hfo|]; rewrite N1 by lia; exact Hz|].
  split; [intros j v Hj Hz; apply (concat_block W f ltac:(lia)); [exact Hfo|]; rewrite N2 by lia; exact Hz|].
  split.
  - intros k Hk. assert (0 <= k) by nia. rewrite znth_app by lia. rewrite Hcl. replace (k <? W * (n - 1 + Z.of_nat amt)) with false by nia. rewrite Hcn.
    destruct (Z.ltb_spec k (zlen out)) as [Hlt|Hge].
    + rewrite znth_skipped by nia. f_equal. nia.
    + rewrite !znth_None; [reflexivity|lia|]. rewrite zlen_skipn, Z2Nat.id by nia. nia.
  - intros Hn2 Ha2. rewrite Hvn. clear -Hn2 Ha2. nia.
Qed.
