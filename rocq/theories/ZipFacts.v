(** Zips of array-backed iterators. *)
From Coq Require Import Lia ZifyBool ZifyNat.
From Verif Require Import Base Spec ListFacts Vecs VecFacts Iters IterFacts CollectFacts Zip.
Ltac Zify.zify_post_hook ::= Z.div_mod_to_equations.

(** The components [r] deliver the tuple [chunk pos] for the full vectors at
    [pos], and [tail pos] for the tail starting at [pos], over [n] scalars. *)
Record rest_over {VR Rt} (rest : ZipRest VR Rt) (r : Rt) (w n : Z)
       (chunk tail : Z -> VR) : Prop := {
  ro_next : forall pos, 0 <= pos -> pos + w <= n -> rest_next rest r pos = Ok (chunk pos);
  ro_end : forall pos, (pos = 0 \/ w < n) -> 0 <= pos < n -> n - pos <= w ->
           rest_end rest r pos (w - (n - pos)) = Ok (tail pos)
}.

Lemma rest_over_one {A I} c (arr : SIMDArray A I) it l d R s k0 :
  stepping arr it l d R -> R s k0 ->
  rest_over (rest_one (blanket_unsafe c arr it)) s (WIDTH (it_ty it)) (zlen l)
    (fun pos => sub l pos (WIDTH (it_ty it)))
    (fun pos => right_aligned d (skipn (Z.to_nat pos) l)).
Proof.
  intros Hst HR. constructor; cbn.
  - intros pos H1 H2. eapply next_unchecked_ok; eassumption.
  - intros pos H1 H2 H3. eapply end_unchecked_ok; try eassumption.
    unfold tail_ready; lia.
Qed.

Lemma rest_over_cons {A I VR Rt} c (arr : SIMDArray A I) it l d R s k0
      (more : ZipRest VR Rt) r chunk tail :
  stepping arr it l d R -> R s k0 ->
  rest_over more r (WIDTH (it_ty it)) (zlen l) chunk tail ->
  rest_over (rest_cons (blanket_unsafe c arr it) more) (s, r) (WIDTH (it_ty it)) (zlen l)
    (fun pos => (sub l pos (WIDTH (it_ty it)), chunk pos))
    (fun pos => (right_aligned d (skipn (Z.to_nat pos) l), tail pos)).
Proof.
  intros Hst HR [H1 H2].
  destruct (rest_over_one c arr it l d R s k0 Hst HR) as [H3 H4]. cbn in H3, H4.
  constructor; cbn.
  - intros pos Hp Hp2. rewrite H3, bind_Ok, H1, bind_Ok by assumption. reflexivity.
  - intros pos Hp Hp2 Hp3. rewrite H4, bind_Ok, H2, bind_Ok by assumption. reflexivity.
Qed.

(** Positions [0, w, 2w, ..] of [m] consecutive vectors starting at [k]. *)
Fixpoint positions (k w : Z) (m : nat) : list Z :=
  match m with
  | O => []
  | S m' => k :: positions (k + w) w m'
  end.

Lemma zip_emits {A I VR Rt} c (arr : SIMDArray A I) it l d R (rest : ZipRest VR Rt) r chunk tail :
  stepping arr it l d R ->
  rest_over rest r (WIDTH (it_ty it)) (zlen l) chunk tail ->
  forall s k, R s k -> (tail_ready it l k) ->
  exists m s',
    k + WIDTH (it_ty it) * Z.of_nat m <= zlen l <= k + WIDTH (it_ty it) * (Z.of_nat m + 1) /\
    emits (zip_iterator (blanket_iterator c arr it) rest) (s, r)
      (map (fun p => (sub l p (WIDTH (it_ty it)), chunk p)) (positions k (WIDTH (it_ty it)) m))
      (let p := k + WIDTH (it_ty it) * Z.of_nat m in
       if p <? zlen l then
         Some ((right_aligned d (skipn (Z.to_nat p) l), tail p),
               WIDTH (it_ty it) - (zlen l - p))
       else None) (s', r) /\ R s' (zlen l).
Proof.
  intros Hst [Hrn Hre] s k HR Hready. set (W := WIDTH (it_ty it)) in *.
  pose proof (vty_ok_facts _ (st_ok _ _ _ _ _ Hst)) as (HW & _). fold W in HW.
  remember (Z.to_nat (zlen l - k)) as mm eqn:Hm.
  revert s k HR Hready Hm. induction mm as [mm IH] using (well_founded_induction lt_wf).
  intros s k HR Hready Hm. pose proof (st_range _ _ _ _ _ Hst _ _ HR) as Hr.
  unfold tail_ready in Hready. fold W in Hready.
  destruct (st_next _ _ _ _ _ Hst _ _ HR) as [(s1 & Hle & Hn & HR')|[Hlt Hn]].
  - fold W in Hle, Hn, HR'.
    destruct (IH (Z.to_nat (zlen l - (k + W))) ltac:(lia) s1 _ HR'
                 ltac:(unfold tail_ready in *; fold W; lia) eq_refl)
      as (m & s2 & Hm2 & He & HR2).
    exists (S m), s2. split; [lia|]. split; [|exact HR2].
    { cbn [positions map]. eapply emits_next with (s1 := (s1, r)).
      * cbn. unfold zip_next; cbn. rewrite (st_pos _ _ _ _ _ Hst _ _ HR), bind_Ok, Hn, bind_Ok.
        rewrite Hrn, bind_Ok by lia. reflexivity.
      * replace (k + W * Z.of_nat (S m)) with (k + W + W * Z.of_nat m) by lia. exact He. }
  - destruct (blanket_end_ok c arr it l d R Hst s k HR ltac:(unfold tail_ready; lia) ltac:(fold W; lia))
      as (s' & He & HR').
    exists O, s'. cbn [Z.of_nat]. rewrite Z.mul_0_r, Z.add_0_r.
    split; [fold W in Hlt; lia|]. split; [|exact HR'].
    { cbn [positions map]. eapply emits_end with (s1 := (s, r)).
      * cbn. unfold zip_next; cbn. rewrite (st_pos _ _ _ _ _ Hst _ _ HR), bind_Ok, Hn. reflexivity.
      * cbn. unfold zip_end; cbn. rewrite (st_pos _ _ _ _ _ Hst _ _ HR), bind_Ok, He, bind_Ok.
        unfold tail_of, unfilled. destruct (k <? zlen l) eqn:E.
        -- destruct (skipn (Z.to_nat k) l) as [|x xs] eqn:Es.
           { assert (zlen (skipn (Z.to_nat k) l) = 0) by (rewrite Es; reflexivity).
             rewrite zlen_skipn in *; lia. }
           rewrite <- Es. rewrite zlen_skipn, (st_d _ _ _ _ _ Hst). fold W.
           replace (W - Z.max 0 (zlen l - Z.of_nat (Z.to_nat k))) with (W - (zlen l - k)) by lia.
           rewrite Hre, bind_Ok by lia. reflexivity.
        -- rewrite skipn_all2 by (unfold zlen in *; lia). reflexivity. }
Qed.

Lemma positions_chunked {A} (l : list A) w m : forall k,
  0 < w -> 0 <= k -> k + w * Z.of_nat m <= zlen l ->
  chunked w (skipn (Z.to_nat k) l) (map (fun p => sub l p w) (positions k w m))
            (skipn (Z.to_nat (k + w * Z.of_nat m)) l).
Proof.
  induction m as [|m IH]; intros k Hw Hk Hl.
  - cbn [positions map Z.of_nat]. rewrite Z.mul_0_r, Z.add_0_r. split; [constructor|reflexivity].
  - destruct (IH (k + w)) as [H1 H2]; [lia|lia|lia|]. cbn [positions map]. split.
    + constructor; [apply zlen_sub; nia|exact H1].
    + cbn [concat]. rewrite <- app_assoc.
      replace (k + w * Z.of_nat (S m)) with (k + w + w * Z.of_nat m) by lia. rewrite H2.
      apply sub_skipn; lia.
Qed.

Lemma positions_length k w m : length (positions k w m) = m.
Proof. revert k; induction m as [|m IH]; intros k; cbn; [reflexivity|rewrite IH; reflexivity]. Qed.

Lemma map_combine {X Y Z'} (f : X -> Y) (g : X -> Z') l :
  map (fun x => (f x, g x)) l = combine (map f l) (map g l).
Proof. induction l as [|x l IH]; cbn; [reflexivity|rewrite IH; reflexivity]. Qed.
