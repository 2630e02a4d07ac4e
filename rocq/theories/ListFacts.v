(** Lemmas about the helpers of Base.v.  No property statements here. *)
From Coq Require Import Lia ZifyBool ZifyNat.
From Verif Require Import Base Spec.
Ltac Zify.zify_post_hook ::= Z.div_mod_to_equations.

Lemma bind_Ok {A B} (a : A) (f : A -> outcome B) : bind (Ok a) f = f a.
Proof. reflexivity. Qed.

Lemma zlen_nonneg {A} (l : list A) : 0 <= zlen l.
Proof. unfold zlen; lia. Qed.

Lemma zlen_nil {A} : zlen (@nil A) = 0.
Proof. reflexivity. Qed.

Lemma zlen_cons {A} (x : A) l : zlen (x :: l) = 1 + zlen l.
Proof. unfold zlen; cbn [length]; lia. Qed.

Lemma zlen_app {A} (a b : list A) : zlen (a ++ b) = zlen a + zlen b.
Proof. unfold zlen; rewrite app_length; lia. Qed.

Lemma zlen_map {A B} (f : A -> B) l : zlen (map f l) = zlen l.
Proof. unfold zlen; rewrite map_length; reflexivity. Qed.

Lemma zlen_repeat {A} (x : A) n : zlen (repeat x n) = Z.of_nat n.
Proof. unfold zlen; rewrite repeat_length; reflexivity. Qed.

Lemma zlen_firstn {A} (l : list A) n : zlen (firstn n l) = Z.min (Z.of_nat n) (zlen l).
Proof. unfold zlen; rewrite firstn_length; lia. Qed.

Lemma zlen_skipn {A} (l : list A) n : zlen (skipn n l) = Z.max 0 (zlen l - Z.of_nat n).
Proof. unfold zlen; rewrite skipn_length; lia. Qed.

Lemma zlen_zero {A} (l : list A) : zlen l = 0 -> l = [].
Proof. destruct l; [reflexivity | rewrite zlen_cons; pose proof (zlen_nonneg l); lia]. Qed.

Lemma zlen_sub {A} (l : list A) off len :
  0 <= off -> 0 <= len -> off + len <= zlen l -> zlen (sub l off len) = len.
Proof. intros Ho Hl Hb; unfold sub; rewrite zlen_firstn, zlen_skipn; lia. Qed.

Lemma skipn_skipn {A} (l : list A) a b : skipn a (skipn b l) = skipn (b + a) l.
Proof.
  revert l; induction b as [|b IH]; intros l; [reflexivity|].
  destruct l; [rewrite !skipn_nil; reflexivity|]. cbn [skipn Nat.add]. apply IH.
Qed.

Lemma sub_skipn {A} (l : list A) off len :
  0 <= off -> 0 <= len ->
  sub l off len ++ skipn (Z.to_nat (off + len)) l = skipn (Z.to_nat off) l.
Proof.
  intros Ho Hl; unfold sub.
  replace (Z.to_nat (off + len)) with (Z.to_nat off + Z.to_nat len)%nat by lia.
  rewrite <- skipn_skipn. apply firstn_skipn.
Qed.

Lemma znth_Some_lt {A} (l : list A) i x : znth l i = Some x -> 0 <= i < zlen l.
Proof.
  unfold znth, zlen; destruct (i <? 0) eqn:E; [discriminate|]; intros H.
  assert (Z.to_nat i < length l)%nat by (apply nth_error_Some; congruence). lia.
Qed.

Lemma znth_exists {A} (l : list A) i : 0 <= i < zlen l -> exists x, znth l i = Some x.
Proof.
  unfold znth, zlen; intros H; destruct (i <? 0) eqn:E; [lia|].
  destruct (nth_error l (Z.to_nat i)) as [x|] eqn:E2; [eauto|].
  apply nth_error_None in E2; lia.
Qed.

Lemma znth_None {A} (l : list A) i : zlen l <= i -> znth l i = None.
Proof.
  unfold znth, zlen; intros H; destruct (i <? 0) eqn:E; [reflexivity|].
  apply nth_error_None; lia.
Qed.

Lemma nth_error_skipn {A} (l : list A) a b : nth_error (skipn a l) b = nth_error l (a + b).
Proof.
  revert l; induction a as [|a IH]; intros l; [reflexivity|].
  destruct l; [destruct b; reflexivity|]. apply IH.
Qed.

Lemma nth_error_firstn {A} (l : list A) n i :
  (i < n)%nat -> nth_error (firstn n l) i = nth_error l i.
Proof.
  revert l i; induction n as [|n IH]; intros l i H; [lia|].
  destruct l; [destruct i; reflexivity|]. destruct i; [reflexivity|]. cbn [firstn nth_error]. apply IH; lia.
Qed.

Lemma nth_error_ext {A} (l l' : list A) :
  (forall i, nth_error l i = nth_error l' i) -> l = l'.
Proof.
  revert l'; induction l as [|x l IH]; intros [|y l'] H.
  - reflexivity.
  - specialize (H O); discriminate.
  - specialize (H O); discriminate.
  - f_equal; [specialize (H O); now inversion H|]. apply IH; intros i; apply (H (S i)).
Qed.

Lemma nth_error_sub {A} (l : list A) off len i :
  0 <= off -> (i < Z.to_nat len)%nat ->
  nth_error (sub l off len) i = nth_error l (Z.to_nat off + i).
Proof. intros Ho Hi; unfold sub; rewrite nth_error_firstn by lia; apply nth_error_skipn. Qed.

Lemma nth_error_map_some {A B} (f : A -> B) l i x :
  nth_error l i = Some x -> nth_error (map f l) i = Some (f x).
Proof. intros H; apply map_nth_error; exact H. Qed.

(** Overwriting a middle section. *)
Lemma upd_app {A} (a x b v : list A) off :
  zlen a = off -> length x = length v -> upd (a ++ x ++ b) off v = a ++ v ++ b.
Proof.
  intros Ha Hx; unfold upd, zlen in *.
  replace (Z.to_nat off) with (length a) by lia.
  rewrite firstn_app, Nat.sub_diag, firstn_O, app_nil_r, firstn_all.
  do 2 f_equal.
  rewrite skipn_app. replace (length a + length v - length a)%nat with (length v) by lia.
  rewrite skipn_all2 by lia. cbn [app].
  rewrite <- Hx, skipn_app, Nat.sub_diag, skipn_all. reflexivity.
Qed.

Lemma zlen_upd {A} (l v : list A) off :
  0 <= off -> off + zlen v <= zlen l -> zlen (upd l off v) = zlen l.
Proof.
  intros Ho Hb; unfold upd; rewrite !zlen_app, zlen_firstn, zlen_skipn; unfold zlen in *; lia.
Qed.

(** A loop writing the elements [xs] one by one over consecutive cells. *)
Lemma for_range_write {X} (f : Z -> list X -> outcome (list X)) (xs : list X) :
  forall (i0 : Z) (pre mid post : list X),
  length mid = length xs ->
  (forall (k : nat) x b, nth_error xs k = Some x -> zlen b = zlen (pre ++ mid ++ post) ->
     f (i0 + Z.of_nat k) b = Ok (upd b (zlen pre + Z.of_nat k) [x])) ->
  for_range (length xs) i0 f (pre ++ mid ++ post) = Ok (pre ++ xs ++ post).
Proof.
  induction xs as [|x xs IH]; intros i0 pre mid post Hm Hf.
  - destruct mid; [reflexivity|discriminate].
  - destruct mid as [|m mid]; [discriminate|].
    cbn [length for_range].
    pose proof (Hf O x (pre ++ (m :: mid) ++ post) eq_refl eq_refl) as H0.
    change (Z.of_nat 0) with 0 in H0. rewrite !Z.add_0_r in H0. rewrite H0, bind_Ok.
    change ((m :: mid) ++ post) with ([m] ++ (mid ++ post)).
    rewrite upd_app by reflexivity.
    change ([x] ++ mid ++ post) with ((x :: nil) ++ mid ++ post).
    rewrite app_assoc.
    rewrite (IH (i0 + 1) (pre ++ [x]) mid post).
    + rewrite <- app_assoc; reflexivity.
    + cbn [length] in Hm; lia.
    + intros k y b Hk Hb.
      pose proof (Hf (S k) y b Hk) as Hs.
      rewrite zlen_app, zlen_cons, zlen_nil.
      replace (i0 + 1 + Z.of_nat k) with (i0 + Z.of_nat (S k)) by lia.
      replace (zlen pre + (1 + 0) + Z.of_nat k) with (zlen pre + Z.of_nat (S k)) by lia.
      apply Hs. rewrite Hb, !zlen_app, !zlen_cons, zlen_nil. lia.
Qed.

(** Arithmetic that does not leave the usize range. *)
Lemma uarith_ok c r : 0 <= r < usize_mod -> uarith c r = Ok r.
Proof. intros H; unfold uarith. replace ((0 <=? r) && (r <? usize_mod)) with true by lia. reflexivity. Qed.

Lemma uadd_ok c a b : 0 <= a + b < usize_mod -> uadd c a b = Ok (a + b).
Proof. apply uarith_ok. Qed.
Lemma usub_ok c a b : 0 <= a - b < usize_mod -> usub c a b = Ok (a - b).
Proof. apply uarith_ok. Qed.
Lemma umul_ok c a b : 0 <= a * b < usize_mod -> umul c a b = Ok (a * b).
Proof. apply uarith_ok. Qed.
Lemma udiv_ok a b : 0 < b -> udiv a b = Ok (a / b).
Proof. intros H; unfold udiv; destruct (b =? 0) eqn:E; [lia|reflexivity]. Qed.

Lemma debug_assert_true c b : b = true -> debug_assert c b = Ok tt.
Proof. intros ->; unfold debug_assert; destruct (build c); reflexivity. Qed.

Lemma usize_mod_val : usize_mod = 18446744073709551616.
Proof. reflexivity. Qed.

(** A leftover is at most a vector long. *)
Lemma right_aligned_len {A} (d rest : list A) :
  zlen rest <= zlen d -> zlen (right_aligned d rest) = zlen d.
Proof. intros H; unfold right_aligned; rewrite zlen_app, zlen_firstn; unfold zlen in *; lia. Qed.

Lemma right_aligned_skipn {A} (d rest : list A) :
  zlen rest <= zlen d -> skipn (Z.to_nat (unfilled d rest)) (right_aligned d rest) = rest.
Proof.
  intros H; unfold right_aligned, unfilled, zlen in *.
  rewrite skipn_app, firstn_length, skipn_all2 by (rewrite firstn_length; lia).
  cbn [app]. replace (Z.to_nat _ - _)%nat with O by lia. reflexivity.
Qed.

Lemma concat_zlen {A} (w : Z) (vs : list (list A)) :
  Forall (fun v => zlen v = w) vs -> zlen (concat vs) = w * zlen vs.
Proof.
  induction 1 as [|v vs Hv _ IH]; [cbn; lia|].
  cbn [concat]; rewrite zlen_app, zlen_cons, IH, Hv; lia.
Qed.

Lemma chunked_unique {A} w (l : list A) :
  0 < w ->
  forall vs rest vs' rest', chunked w l vs rest -> chunked w l vs' rest' ->
  zlen rest < w -> zlen rest' < w -> vs = vs' /\ rest = rest'.
Proof.
  intros Hw vs. revert l. induction vs as [|v vs IH]; intros l rest vs' rest' [Hf Hc] [Hf' Hc'] Hr Hr'.
  - cbn in Hc; subst rest. destruct vs' as [|v' vs']; [cbn in Hc'; auto|].
    inversion Hf' as [|? ? Hv' _]; subst. cbn [concat] in Hr. rewrite !zlen_app in Hr.
    pose proof (zlen_nonneg (concat vs')); pose proof (zlen_nonneg rest'). lia.
  - destruct vs' as [|v' vs'].
    + inversion Hf as [|? ? Hv _]; subst. cbn in Hc'. subst rest'. cbn [concat] in Hr'.
      rewrite !zlen_app in Hr'.
      pose proof (zlen_nonneg (concat vs)); pose proof (zlen_nonneg rest). lia.
    + inversion Hf as [|? ? Hv Hfs]; inversion Hf' as [|? ? Hv' Hfs']; subst.
      cbn [concat] in Hc'. rewrite <- !app_assoc in Hc'.
      assert (Hl : length v = length v') by (unfold zlen in *; lia).
      assert (v = v' /\ concat vs ++ rest = concat vs' ++ rest') as [-> He].
      { clear -Hc' Hl. revert v' Hl Hc'. induction v as [|a v IHv]; intros [|a' v'] Hl Hc'; try discriminate.
        - cbn in Hc'; auto.
        - cbn in Hc'. injection Hc' as -> Hc'. destruct (IHv v') as [-> ?]; auto. }
      destruct (IH (concat vs ++ rest) rest vs' rest') as [-> ->]; auto.
      * split; auto.
      * split; [auto|congruence].
Qed.
