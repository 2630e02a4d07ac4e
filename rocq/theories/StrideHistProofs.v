(** Proofs of the properties: histories of calls on strided streams (C23). *)
From Verif Require Import Base Spec Vecs Iters Stride History StrideHistory.
From Coq Require Import Lia ZifyBool ZifyNat.
From Verif Require Import ListFacts VecFacts IterFacts MapFacts StrideFacts SafetyFacts StrideProofs.
Ltac Zify.zify_post_hook ::= Z.div_mod_to_equations.

Section Hist.
Context {A T : Type}.
Variable c : config.
Variable arr : SIMDArray A T.
Variable d0 : A.
Variable t : T.
Variables l out d : list A.
Variables base str : Z.
Hypothesis Hty : vty_ok (arr_ty arr).
Hypothesis Harr : array_holds arr t l.
Hypothesis Hsmall : zlen l < max_len.
Hypothesis Hb : 0 <= base < str.
Notation W := (WIDTH (arr_ty arr)).
Hypothesis Hstr : str * (W + 1) <= max_len.
Hypothesis Hout : is_stream l base str out.
Hypothesis Hd : zlen d = W.

Notation n := (zlen out).

Notation more := (base <? zlen l mod str).

Definition srel (s : PackedStride A T) (st : Z * list A) : Prop :=
  s = mkPackedStride t (base + str * fst st) base str d /\ 0 <= fst st /\
  base + str * (fst st + W) < usize_mod /\ snd st = skipn (Z.to_nat (fst st)) out.

Lemma next_strict k : 0 <= k <= n ->
  ps_next c arr d0 (mkPackedStride t (base + str * k) base str d) =
  if (k + W <? n) || ((k + W =? n) && more)
  then Ok (Some (sub out k W), mkPackedStride t (base + str * (k + W)) base str d)
  else Ok (None, mkPackedStride t (base + str * k) base str d).
Proof.
  intros Hk. pose proof (n_facts l out base str Hb Hout) as [Hn0 Hn]. cbv zeta in *.
  assert (Hm : zlen l mod str = zlen l - str * n).
  { destruct Hout as [Ho _]. rewrite Ho. pose proof (Z.div_mod (zlen l) str ltac:(lia)). lia. }
  destruct (ps_next_cases c arr d0 t l out d base str Hty Harr Hsmall Hb Hstr Hout k Hk) as [(H1 & H2 & ->)|(H1 & H2 & ->)].
  - destruct (k + W <? n) eqn:E1; [reflexivity|]. assert (E2 : k + W = n) by lia. rewrite E2 in *.
    rewrite Z.eqb_refl. cbn [andb orb]. rewrite (proj2 (Z.ltb_lt base (zlen l mod str))) by (rewrite Hm; lia). reflexivity.
  - destruct (k + W <? n) eqn:E1.
    + exfalso. apply Z.ltb_lt in E1.
      assert (str * (k + W + 1) <= str * n) by (apply Z.mul_le_mono_nonneg_l; lia). lia.
    + destruct (k + W =? n) eqn:E2; [|reflexivity]. apply Z.eqb_eq in E2. rewrite E2 in *. cbn [andb orb].
      rewrite (proj2 (Z.ltb_ge base (zlen l mod str))) by (rewrite Hm; lia). reflexivity.
Qed.

Lemma next_past k : n <= k -> base + str * (k + W) < usize_mod ->
  ps_next c arr d0 (mkPackedStride t (base + str * k) base str d) = Ok (None, mkPackedStride t (base + str * k) base str d).
Proof.
  intros Hk Hov. pose proof (n_facts l out base str Hb Hout) as [Hn0 Hn]. cbv zeta in *.
  pose proof (vty_ok_facts _ Hty) as (HW & _).
  unfold ps_next; cbn. unfold max_len in *.
  assert (0 <= str * W) by nia. assert (Hge : str * (n + 1) <= str * (k + W)) by (apply Z.mul_le_mono_nonneg_l; lia).
  assert (0 <= str * k) by nia.
  rewrite umul_ok, bind_Ok by (unfold usize_mod; nia).
  rewrite uadd_ok, bind_Ok by lia.
  rewrite (ah_len _ _ _ Harr), bind_Ok.
  rewrite (proj2 (Z.ltb_ge _ _)) by lia. reflexivity.
Qed.

Lemma ps_positions k : 0 <= k -> base + str * (k + W) < usize_mod ->
  ps_scalar_pos c (mkPackedStride t (base + str * k) base str d) = Ok k /\
  ps_vector_pos c arr (mkPackedStride t (base + str * k) base str d) = Ok (k / W) /\
  ps_scalar_len arr (mkPackedStride t (base + str * k) base str d) = Ok n.
Proof.
  intros Hk Hov. pose proof (vty_ok_facts _ Hty) as (HW & _). unfold max_len in *.
  assert (0 <= str * k) by nia. assert (0 < str * W) by nia.
  assert (Hu : usub c (base + str * k) base = Ok (str * k)) by (rewrite usub_ok by lia; f_equal; ring).
  split; [|split].
  - unfold ps_scalar_pos. cbn [ps_pos ps_base ps_stride]. rewrite Hu, bind_Ok, udiv_ok by lia.
    f_equal. rewrite Z.mul_comm. apply Z.div_mul. lia.
  - unfold ps_vector_pos. cbn [ps_pos ps_base ps_stride]. rewrite Hu, bind_Ok, umul_ok, bind_Ok by (unfold usize_mod; lia).
    rewrite udiv_ok by lia. f_equal. apply Z.div_mul_cancel_l; lia.
  - unfold ps_scalar_len. cbn [ps_iter ps_stride]. rewrite (ah_len _ _ _ Harr), bind_Ok, udiv_ok by lia.
    destruct Hout as [Ho _]. rewrite Ho. reflexivity.
Qed.

Lemma ps_advance_ok k a : 0 <= k -> 0 <= a -> base + str * (k + a) < usize_mod ->
  ps_advance c (mkPackedStride t (base + str * k) base str d) a = Ok (mkPackedStride t (base + str * (k + a)) base str d).
Proof.
  intros Hk Ha Hov. unfold ps_advance; cbn. assert (0 <= str * k) by nia. assert (0 <= str * a) by nia.
  rewrite umul_ok, bind_Ok by lia. rewrite uadd_ok, bind_Ok by lia. do 2 f_equal. ring.
Qed.

Lemma stream_call_refines s st o :
  srel s st -> stream_allowed W base str n st o ->
  exists s', component_call c (ps_array c arr d0) (ps_iterable c arr d0) s o = Ok (fst (stream_call W d more st o), s') /\
             srel s' (snd (stream_call W d more st o)).
Proof.
  intros (-> & Hk & HkW & Hleft) Hal. destruct st as [k left]. cbn [fst snd] in *. subst left.
  pose proof (n_facts l out base str Hb Hout) as [Hn0 Hn]. cbv zeta in *.
  pose proof (str_small arr l out base str Hty Hsmall Hb Hstr Hout) as (Hss1 & Hss2 & Hss3). cbv zeta in *.
  pose proof (vty_ok_facts _ Hty) as (H1 & _).
  assert (Hzs : zlen (skipn (Z.to_nat k) out) = Z.max 0 (n - k)) by (rewrite zlen_skipn; lia).
  destruct (ps_positions k Hk HkW) as (Hp1 & Hp2 & Hp3).
  assert (Hsk : 0 <= str * k) by nia.
  unfold component_call. destruct o as [| | |a| | |]; cbn [stream_call abs_call stream_allowed allowed fst snd] in *.
  - cbn [it_next ps_iterable]. destruct (Z_le_gt_dec n k) as [Hkn|Hkn].
    + rewrite next_past by lia. rewrite Hzs.
      destruct (_ && _) eqn:E; [lia|]. destruct (W <=? _) eqn:E2; [lia|].
      cbn [bind fst snd]. eexists; split; [reflexivity|]. unfold srel; cbn [fst snd]. auto.
    + rewrite next_strict by lia. rewrite Hzs.
      replace (Z.max 0 (n - k) =? W) with (k + W =? n) by lia.
      destruct more eqn:Em; cbn [negb andb].
      * rewrite andb_false_r. rewrite andb_true_r. destruct (W <=? _) eqn:E2.
        -- replace ((k + W <? n) || (k + W =? n)) with true by lia. cbn [bind fst snd].
           eexists; split; [reflexivity|]. unfold srel; cbn [fst snd].
           assert (str * (k + W + W) <= str * n + str * W) by nia.
           split; [reflexivity|]. split; [lia|]. split; [unfold max_len, usize_mod in *; lia|]. rewrite skipn_skipn. f_equal. lia.
        -- replace ((k + W <? n) || (k + W =? n)) with false by lia. cbn [bind fst snd].
           eexists; split; [reflexivity|]. unfold srel; cbn [fst snd]. auto.
      * rewrite andb_false_r, orb_false_r, andb_true_r. destruct (k + W =? n) eqn:E3.
        -- replace (k + W <? n) with false by lia. cbn [bind fst snd]. eexists; split; [reflexivity|]. unfold srel; cbn [fst snd]. auto.
        -- destruct (W <=? _) eqn:E2.
           ++ replace (k + W <? n) with true by lia. cbn [bind fst snd]. eexists; split; [reflexivity|]. unfold srel; cbn [fst snd].
              assert (str * (k + W + W) <= str * n + str * W) by nia.
              split; [reflexivity|]. split; [lia|]. split; [unfold max_len, usize_mod in *; lia|]. rewrite skipn_skipn. f_equal. lia.
           ++ replace (k + W <? n) with false by lia. cbn [bind fst snd]. eexists; split; [reflexivity|]. unfold srel; cbn [fst snd]. auto.
  - unfold unpacked_next. cbn [it_scalar_pos it_scalar_len ps_iterable].
    rewrite Hp1, bind_Ok, Hp3, bind_Ok. destruct (k <? n) eqn:E1.
    + destruct (skipn (Z.to_nat k) out) as [|x r] eqn:Es; [rewrite zlen_nil in Hzs; lia|].
      destruct (skipn_cons_znth out k x r Hk Es) as [Hx Hr].
      rewrite (ah_scalar _ _ _ (ps_array_holds c arr d0 t l out d base str Hty Harr Hsmall Hb Hstr Hout _) k x Hx), bind_Ok.
      cbn [it_advance ps_iterable]. rewrite ps_advance_ok by (try lia; nia). cbn [bind fst snd].
      assert (str * (k + 1 + W) <= str * n + str * W) by nia.
      eexists; split; [reflexivity|]. unfold srel; cbn [fst snd].
      split; [reflexivity|]. split; [lia|]. split; [unfold max_len, usize_mod in *; lia|auto].
    + destruct (skipn (Z.to_nat k) out) as [|x r] eqn:Es;
        [|rewrite zlen_cons in Hzs; pose proof (zlen_nonneg r); lia].
      cbn [bind fst snd]. eexists; split; [reflexivity|]. unfold srel; cbn [fst snd]. auto.
  - destruct Hal as [Hal1 Hal2]. destruct (Z_le_gt_dec k n) as [Hkl|Hkl].
    + pose proof (ps_stepping c arr d0 t l out d base str Hty Harr Hsmall Hb Hstr Hout Hd) as Hst.
      destruct (blanket_end_ok c _ _ out d _ Hst (mkPackedStride t (base + str * k) base str d) k) as (s' & He & [-> _]).
      * split; [reflexivity|lia].
      * unfold tail_ready. cbn [it_ty ps_iterable].
        destruct Hal2 as [Ha|[Ha|Ha]]; [auto|auto|]. rewrite Ha, zlen_nil in Hzs. lia.
      * cbn [it_ty ps_iterable]. lia.
      * cbn [it_end blanket_iterator]. rewrite He. cbn [bind fst snd].
        eexists; split; [reflexivity|]. unfold srel; cbn [fst snd]. rewrite Hzs.
        replace (k + Z.max 0 (n - k)) with n by lia.
        split; [reflexivity|]. split; [lia|]. split; [unfold max_len, usize_mod in *; nia|]. symmetry. apply skipn_all2. unfold zlen. lia.
    + cbn [it_end blanket_iterator]. unfold blanket_end.
      cbn [it_scalar_pos it_scalar_len ps_iterable]. rewrite Hp1, bind_Ok, Hp3, bind_Ok.
      destruct (k <? n) eqn:E; [lia|]. cbn [bind fst snd].
      rewrite Hzs. rewrite skipn_all2 by (unfold zlen in *; lia). cbn [tail_of].
      eexists; split; [reflexivity|]. unfold srel; cbn [fst snd].
      replace (k + Z.max 0 (n - k)) with k by lia.
      split; [reflexivity|]. split; [lia|]. split; [lia|]. symmetry. apply skipn_all2. unfold zlen in *. lia.
  - destruct Hal as [Ha1 Ha2]. cbn [it_advance ps_iterable]. rewrite ps_advance_ok by (try lia; nia). cbn [bind fst snd].
    eexists; split; [reflexivity|]. unfold srel; cbn [fst snd]. split; [reflexivity|]. split; [lia|]. split; [lia|].
    rewrite skipn_skipn. f_equal. lia.
  - unfold finalize. cbn [it_scalar_pos it_scalar_len ps_iterable it_advance].
    rewrite Hp3, bind_Ok, Hp1, bind_Ok. rewrite usub_ok by (unfold usize_mod in *; lia). cbn [bind].
    rewrite ps_advance_ok by (unfold max_len, usize_mod in *; try lia; nia). cbn [bind fst snd].
    eexists; split; [reflexivity|]. unfold srel; cbn [fst snd]. rewrite Hzs.
    replace (k + Z.max 0 (n - k)) with n by lia. replace (k + (n - k)) with n by lia.
    split; [reflexivity|]. split; [lia|]. split; [unfold max_len, usize_mod in *; nia|]. symmetry. apply skipn_all2. unfold zlen. lia.
  - cbn [it_scalar_pos ps_iterable]. rewrite Hp1. cbn [bind fst snd].
    eexists; split; [reflexivity|]. unfold srel; cbn [fst snd]. auto.
  - cbn [it_vector_pos ps_iterable]. rewrite Hp2. cbn [bind fst snd].
    eexists; split; [reflexivity|]. unfold srel; cbn [fst snd]. auto.
Qed.

Lemma stream_calls_refine h : forall s st,
  srel s st -> all_stream_allowed W d more base str n st h ->
  exists s', component_calls c (ps_array c arr d0) (ps_iterable c arr d0) s h = Ok (fst (stream_calls W d more st h), s').
Proof.
  induction h as [|o h IH]; intros s st Hr Ha.
  - exists s. reflexivity.
  - destruct Ha as [Ha1 Ha2].
    destruct (stream_call_refines s st o Hr Ha1) as (s1 & Hc & Hr1).
    cbn [component_calls stream_calls]. rewrite Hc, bind_Ok. cbn [fst snd].
    destruct (stream_call W d more st o) as [a st'] eqn:Eo. cbn [fst snd] in *.
    destruct (IH s1 st' Hr1 Ha2) as (s2 & Hcs). rewrite Hcs, bind_Ok.
    destruct (stream_calls W d more st' h) as [q st''] eqn:Eh. cbn [fst snd] in *.
    exists s2. reflexivity.
Qed.

End Hist.

Lemma c23_history_partial : forall (A : Type) (c : config) (ty : vty) (l : list A) (count : Z)
    (defaults : list (list A)) (d0 : A),
  vty_ok ty -> slice_ok ty l -> 1 <= count -> count * (WIDTH ty + 1) <= 2 ^ 63 ->
  zlen defaults = count -> Forall (fun d => zlen d = WIDTH ty) defaults ->
  let arr := ps_array c (slice_array c ty) d0 in let it := ps_iterable c (slice_array c ty) d0 in
  exists streams, stride l count defaults = Ok streams /\ zlen streams = count /\
  forall k s d out h, nth_error streams k = Some s -> nth_error defaults k = Some d ->
  is_stream l (Z.of_nat k) count out ->
  let more := Z.of_nat k <? zlen l mod count in
  all_stream_allowed (WIDTH ty) d more (Z.of_nat k) count (zlen out) (0, out) h ->
  exists s', component_calls c arr it s h = Ok (fst (stream_calls (WIDTH ty) d more (0, out) h), s').
Proof.
  intros A c ty l count defaults d0 Hty Hl Hc1 Hc2 Hdn Hdw arr it.
  pose proof (slice_small ty l Hty Hl) as Hsm.
  destruct (stride_streams A _ l count defaults Hdn) as (streams & Hs & Hn & Hnth).
  exists streams. split; [exact Hs|]. split; [exact Hn|].
  intros k s d out h Hks Hkd Ho more Ha.
  assert (Hk : (k < length streams)%nat) by (apply nth_error_Some; congruence).
  assert (Hd : zlen d = WIDTH ty) by (rewrite Forall_forall in Hdw; apply Hdw; eapply nth_error_In; exact Hkd).
  pose proof (Hnth k d Hkd) as Hks'. rewrite Hks in Hks'. injection Hks' as ->.
  apply (stream_calls_refine c (slice_array c ty) d0 l l out d (Z.of_nat k) count); auto.
  - apply slice_array_holds. exact Hty.
  - unfold zlen in *. lia.
  - unfold srel. cbn [fst snd]. pose proof (vty_ok_facts _ Hty) as (H1 & _).
    split; [f_equal; ring|]. split; [lia|]. split; [|reflexivity].
    assert (Z.of_nat k < count) by (unfold zlen in *; lia). cbn [slice_array arr_ty]. unfold usize_mod. nia.
Qed.

Lemma uarith_release (b : bool) (r : Z) : uarith (mkConfig Release b) r = Ok (r mod usize_mod).
Proof.
  unfold uarith. cbn [build]. destruct (_ && _) eqn:E; [|reflexivity].
  f_equal. symmetry. apply Z.mod_small. lia.
Qed.

Lemma gather_or_ub : forall (A : Type) (rd : Z -> option A) (f : Z -> list A -> outcome (list A)) n i b,
  (forall j b, i <= j < i + Z.of_nat n ->
     f j b = match rd j with Some x => Ok (upd b j [x]) | None => UB end) ->
  (exists j, i <= j < i + Z.of_nat n /\ rd j = None /\ for_range n i f b = UB) \/
  (exists xs, zlen xs = Z.of_nat n /\ forall j, 0 <= j < Z.of_nat n -> znth xs j = rd (i + j) /\ rd (i + j) <> None).
Proof.
  intros A rd f. induction n as [|n IH]; intros i b Hf.
  - right. exists []. split; [reflexivity|]. intros j Hj. lia.
  - cbn [for_range]. rewrite (Hf i b) by lia. destruct (rd i) as [x|] eqn:Ex.
    + cbn [bind]. destruct (IH (i + 1) (upd b i [x])) as [(j & Hj & Hr & Hu)|(xs & Hz & Hx)].
      * intros j b' Hj. apply Hf. lia.
      * left. exists j. split; [lia|auto].
      * right. exists (x :: xs). split; [rewrite zlen_cons; lia|]. intros j Hj.
        destruct (Z.eq_dec j 0) as [->|Hj0].
        -- rewrite Z.add_0_r, Ex. split; [reflexivity|discriminate].
        -- destruct (Hx (j - 1) ltac:(lia)) as [H1 H2]. replace (i + 1 + (j - 1)) with (i + j) in * by lia.
           split; [|exact H2]. rewrite <- H1. unfold znth. replace (j <? 0) with false by lia.
           replace (j - 1 <? 0) with false by lia. replace (Z.to_nat j) with (S (Z.to_nat (j - 1))) by lia. reflexivity.
    + left. exists i. split; [lia|]. split; [exact Ex|reflexivity].
Qed.

Lemma c23_next_release : forall (A : Type) (b : bool) (ty : vty) (l d : list A) (d0 : A) (pos base str : Z),
  let c := mkConfig Release b in let at_ i := (pos + str * i) mod usize_mod in
  vty_ok ty -> slice_ok ty l -> 0 <= pos < usize_mod -> 0 <= str < usize_mod ->
  match it_next (itb (stride_iterator c (slice_array c ty) d0)) (mkPackedStride l pos base str d) with
  | Ok (Some v, s') =>
      at_ (WIDTH ty) < zlen l /\ s' = mkPackedStride l (at_ (WIDTH ty)) base str d /\ zlen v = WIDTH ty /\
      forall i, 0 <= i < WIDTH ty -> at_ i < zlen l /\ znth v i = znth l (at_ i)
  | Ok (None, s') => zlen l <= at_ (WIDTH ty) /\ s' = mkPackedStride l pos base str d
  | UB => at_ (WIDTH ty) < zlen l /\ exists i, 0 <= i < WIDTH ty /\ zlen l <= at_ i
  | Panic | Fuel => False
  end.
Proof.
  intros A b ty l d d0 pos base str c at_ Hty Hl Hpos Hstr.
  pose proof (vty_ok_facts _ Hty) as (H1 & H2 & H3 & H4 & H5 & H6).
  pose proof usize_mod_val as Hum.
  assert (Hmm : forall i, (pos + (str * i) mod usize_mod) mod usize_mod = at_ i).
  { intros i. unfold at_. rewrite Zplus_mod_idemp_r. reflexivity. }
  assert (Hrange : forall i, 0 <= at_ i < usize_mod) by (intros i; apply Z.mod_pos_bound; lia).
  cbn [itb stride_iterator blanket_iterator ps_iterable it_next]. unfold ps_next.
  cbn [ps_stride ps_pos ps_iter arr_ty slice_array arr_scalar_len]. unfold umul, uadd.
  unfold c at 1. rewrite uarith_release. cbn [bind]. unfold c at 1. rewrite uarith_release. cbn [bind]. rewrite Hmm.
  destruct (at_ (WIDTH ty) <? zlen l) eqn:E; [|split; [lia|reflexivity]].
  match goal with |- context[for_range _ 0 ?F _] => set (f := F) end.
  assert (Hf : forall j b', f j b' = if j <? WIDTH ty then match znth l (at_ j) with Some x => Ok (upd b' j [x]) | None => UB end
                                 else match znth l (at_ j) with Some x => Panic | None => UB end).
  { intros j b'. unfold f, c. rewrite uarith_release. cbn [bind]. rewrite uarith_release. cbn [bind]. rewrite Hmm.
    cbn [arr_load_scalar_unchecked slice_array]. unfold debug_assert. cbn [build bind].
    unfold replace. destruct (znth l (at_ j)) as [x|]; cbn [bind]; destruct (j <? WIDTH ty); reflexivity. }
  destruct (gather_or_ub A (fun j => znth l (at_ j)) f (Z.to_nat (WIDTH ty)) 0 (splat (WIDTH ty) d0)) as [(j & Hj & Hn & ->)|(xs & Hz & Hx)].
  - intros j b' Hj. rewrite Hf. replace (j <? WIDTH ty) with true by lia. reflexivity.
  - cbn [bind]. split; [lia|]. exists j. split; [lia|].
    destruct (Z_lt_le_dec (at_ j) (zlen l)) as [Hlt|]; [|assumption].
    destruct (znth_exists l (at_ j) ltac:(specialize (Hrange j); lia)) as [x Hx]. congruence.
  - rewrite Z2Nat.id in * by lia. cbn [Z.add] in *.
    pose proof (for_range_write f xs 0 [] (splat (WIDTH ty) d0) []) as Hw.
    cbn [app] in Hw. rewrite !app_nil_r in Hw.
    replace (length xs) with (Z.to_nat (WIDTH ty)) in Hw by (unfold zlen in Hz; lia).
    rewrite Hw.
    + cbn [bind]. unfold ps_advance. cbn [ps_stride ps_pos ps_iter ps_base ps_default]. unfold umul, uadd, c.
      rewrite uarith_release. cbn [bind]. rewrite uarith_release. cbn [bind].
      rewrite (Z.mul_comm (WIDTH ty) str), Hmm.
      split; [lia|]. split; [reflexivity|]. split; [exact Hz|]. intros i Hi. destruct (Hx i Hi) as [Hx1 Hx2].
      split; [|exact Hx1]. destruct (znth l (at_ i)) as [x|] eqn:Ei; [|congruence]. apply (znth_Some_lt _ _ _ Ei).
    + unfold splat. apply repeat_length.
    + intros k x b' Hk _. assert (Hk' : 0 <= Z.of_nat k < WIDTH ty).
      { pose proof (nth_error_lt _ _ _ Hk). unfold zlen in Hz. lia. }
      change (zlen (@nil A)) with 0. rewrite !Z.add_0_l. rewrite Hf. replace (Z.of_nat k <? WIDTH ty) with true by lia.
      destruct (Hx (Z.of_nat k) Hk') as [Hx1 _]. rewrite <- Hx1. unfold znth. replace (Z.of_nat k <? 0) with false by lia.
      rewrite Nat2Z.id, Hk. reflexivity.
Qed.
