(** Histories, memory safety of [next], fusedness. *)
From Coq Require Import Lia ZifyBool ZifyNat.
From Verif Require Import Base Spec ListFacts Vecs VecFacts Iters IterFacts CollectFacts MapFacts History.
Ltac Zify.zify_post_hook ::= Z.div_mod_to_equations.

Section Slice.
Context {A : Type}.
Variable c : config.
Variable ty : vty.
Notation W := (WIDTH ty).
Hypothesis Hty : vty_ok ty.

(** [next] from every position. *)
Lemma next_any_position (l d : list A) pos :
  slice_ok ty l -> 0 <= pos < usize_mod ->
  si_next c (slice_array c ty) (mkSIMDIter pos l d) =
  if pos + W <=? zlen l then Ok (Some (sub l pos W), mkSIMDIter (pos + W) l d)
  else if pos + W <? usize_mod then Ok (None, mkSIMDIter pos l d)
  else match build c with
       | Debug => Panic
       | Release => if pos + W - usize_mod <=? zlen l then Panic
                    else Ok (None, mkSIMDIter pos l d)
       end.
Proof.
  intros Hl Hpos. pose proof (slice_small ty l Hty Hl) as Hsm.
  pose proof (vty_ok_facts _ Hty) as (H1 & H2 & H3 & H4 & H5 & H6).
  pose proof (zlen_nonneg l).
  unfold si_next, max_len in *. cbn [si_position si_data si_default arr_ty slice_array arr_scalar_len].
  destruct (pos + W <=? zlen l) eqn:E1.
  - rewrite uadd_ok, bind_Ok by (unfold usize_mod; lia). cbn [bind].
    destruct (_ <=? _) eqn:E2; [|lia].
    cbn [arr_load_unchecked slice_array].
    rewrite debug_assert_true by lia. cbn [bind]. rewrite load_unchecked_ok by lia.
    rewrite bind_Ok. unfold si_advance; cbn [si_position].
    rewrite uadd_ok, bind_Ok by (unfold usize_mod; lia). reflexivity.
  - destruct (pos + W <? usize_mod) eqn:E3.
    + rewrite uadd_ok, bind_Ok by lia. cbn [bind]. rewrite E1. reflexivity.
    + unfold uadd, uarith. destruct ((0 <=? pos + W) && (pos + W <? usize_mod)) eqn:E4; [lia|].
      destruct (build c) eqn:Eb; [reflexivity|]. cbn [bind].
      replace ((pos + W) mod usize_mod) with (pos + W - usize_mod)
        by (apply (Z.mod_unique _ _ 1); unfold usize_mod in *; lia).
      destruct (pos + W - usize_mod <=? zlen l) eqn:E5; [|reflexivity].
      cbn [arr_load_unchecked slice_array]. unfold debug_assert. rewrite Eb. cbn [bind].
      unfold load_unchecked. unfold usize_mod in *. destruct (zlen l <? pos) eqn:E6; [reflexivity|lia].
Qed.

Lemma skipn_cons_znth (l : list A) k x r :
  0 <= k -> skipn (Z.to_nat k) l = x :: r -> znth l k = Some x /\ skipn (Z.to_nat (k + 1)) l = r.
Proof.
  intros Hk H. split.
  - replace k with (k + Z.of_nat 0) by lia. apply znth_skipn; [exact Hk|]. rewrite H. reflexivity.
  - replace (Z.to_nat (k + 1)) with (Z.to_nat k + 1)%nat by lia. rewrite <- skipn_skipn, H. reflexivity.
Qed.

Definition rel (l d : list A) (s : SIMDIter A (list A)) (st : Z * list A) : Prop :=
  s = mkSIMDIter (fst st) l d /\ 0 <= fst st /\ fst st + W < usize_mod /\
  snd st = skipn (Z.to_nat (fst st)) l.

Lemma call_refines (l d : list A) s st o :
  slice_ok ty l -> zlen d = W -> zlen l + W < usize_mod ->
  rel l d s st -> allowed W (zlen l) st o ->
  exists s', call c ty s o = Ok (fst (abs_call W d st o), s') /\ rel l d s' (snd (abs_call W d st o)).
Proof.
  intros Hl Hd Hlw (-> & Hk & HkW & Hleft) Hal. destruct st as [k left]. cbn [fst snd] in *. subst left.
  pose proof (slice_small ty l Hty Hl) as Hsm. pose proof (zlen_nonneg l) as Hnl.
  pose proof (vty_ok_facts _ Hty) as (H1 & H2 & H3 & H4 & H5 & H6).
  assert (Hzs : zlen (skipn (Z.to_nat k) l) = Z.max 0 (zlen l - k)) by (rewrite zlen_skipn; lia).
  unfold call, max_len in *.
  destruct o as [| | |a| | |]; cbn [abs_call allowed fst snd] in *.
  - change (it_next (itb (slice_iterator c ty))) with (si_next (A := A) c (slice_array c ty)).
    rewrite next_any_position by (auto; lia). rewrite Hzs.
    destruct (k + W <=? zlen l) eqn:E1.
    + destruct (W <=? _) eqn:E2; [|lia]. cbn [bind fst snd]. eexists; split; [reflexivity|].
      unfold rel; cbn [fst snd]. repeat split; [lia|lia|].
      rewrite skipn_skipn. f_equal. lia.
    + destruct (W <=? _) eqn:E2; [lia|]. destruct (_ <? usize_mod) eqn:E3; [|lia].
      cbn [bind fst snd]. eexists; split; [reflexivity|]. unfold rel; cbn [fst snd]. auto.
  - unfold unpacked_next.
    cbn [it_scalar_pos it_scalar_len itb slice_iterator blanket_iterator si_iterable bind si_position
         arr_scalar_len slice_array si_data].
    destruct (k <? zlen l) eqn:E1.
    + destruct (skipn (Z.to_nat k) l) as [|x r] eqn:Es; [rewrite zlen_nil in Hzs; lia|].
      destruct (skipn_cons_znth l k x r Hk Es) as [Hx Hr].
      cbn [arr_load_scalar_unchecked si_array slice_array si_data].
      rewrite debug_assert_true by lia. cbn [bind]. rewrite Hx. cbn [bind].
      cbn [it_advance itb slice_iterator blanket_iterator si_iterable]. unfold si_advance. cbn [si_position].
      rewrite uadd_ok by lia. cbn [bind fst snd]. eexists; split; [reflexivity|].
      unfold rel; cbn [fst snd]. repeat split; [lia|lia|auto].
    + destruct (skipn (Z.to_nat k) l) as [|x r] eqn:Es;
        [|rewrite zlen_cons in Hzs; pose proof (zlen_nonneg r); lia].
      cbn [bind fst snd]. eexists; split; [reflexivity|]. unfold rel; cbn [fst snd]. auto.
  - destruct Hal as [Hal1 Hal2].
    assert (Hcase : k <= zlen l \/ zlen l < k) by lia. destruct Hcase as [Hkl|Hkl].
    + pose proof (slice_stepping c ty l d Hty Hl Hd) as Hst.
      destruct (blanket_end_ok c _ _ l d _ Hst (mkSIMDIter k l d) k) as (s' & He & [-> _]).
      * split; [reflexivity|lia].
      * unfold tail_ready. cbn [it_ty si_iterable arr_ty slice_array].
        destruct Hal2 as [Ha|[Ha|Ha]]; [auto|auto|]. rewrite Ha, zlen_nil in Hzs. lia.
      * cbn [it_ty si_iterable arr_ty slice_array]. lia.
      * change (blanket_end c (si_array (slice_array c ty)) (si_iterable c (slice_array c ty)))
          with (it_end (slice_iterator (A := A) c ty)) in He. rewrite He. cbn [bind fst snd].
        eexists; split; [reflexivity|]. unfold rel; cbn [fst snd]. rewrite Hzs.
        replace (k + Z.max 0 (zlen l - k)) with (zlen l) by lia.
        repeat split; [lia|lia|]. symmetry. apply skipn_all2. unfold zlen. lia.
    + cbn [it_end slice_iterator blanket_iterator]. unfold blanket_end.
      cbn [it_scalar_pos it_scalar_len si_iterable bind si_position arr_scalar_len slice_array si_data].
      destruct (k <? zlen l) eqn:E; [lia|]. cbn [bind fst snd].
      rewrite Hzs. rewrite skipn_all2 by (unfold zlen in *; lia). cbn [tail_of].
      eexists; split; [reflexivity|]. unfold rel; cbn [fst snd].
      replace (k + Z.max 0 (zlen l - k)) with k by lia.
      repeat split; [lia|lia|]. symmetry. apply skipn_all2. unfold zlen in *. lia.
  - destruct Hal as [Ha1 Ha2]. cbn [it_advance itb slice_iterator blanket_iterator si_iterable].
    unfold si_advance. cbn [si_position]. rewrite uadd_ok by lia. cbn [bind fst snd].
    eexists; split; [reflexivity|]. unfold rel; cbn [fst snd]. repeat split; [lia|lia|].
    rewrite skipn_skipn. f_equal. lia.
  - unfold finalize.
    cbn [it_scalar_pos it_scalar_len itb slice_iterator blanket_iterator si_iterable bind si_position
         arr_scalar_len slice_array si_data it_advance].
    rewrite usub_ok by (unfold usize_mod in *; lia). cbn [bind]. unfold si_advance. cbn [si_position].
    rewrite uadd_ok by (unfold usize_mod in *; lia). cbn [bind fst snd].
    eexists; split; [reflexivity|]. unfold rel; cbn [fst snd]. rewrite Hzs.
    replace (k + Z.max 0 (zlen l - k)) with (zlen l) by lia.
    replace (k + (zlen l - k)) with (zlen l) by lia.
    repeat split; [lia|lia|]. symmetry. apply skipn_all2. unfold zlen. lia.
  - cbn [it_scalar_pos itb slice_iterator blanket_iterator si_iterable bind si_position fst snd].
    eexists; split; [reflexivity|]. unfold rel; cbn [fst snd]. auto.
  - cbn [it_vector_pos itb slice_iterator blanket_iterator si_iterable bind si_position arr_ty slice_array].
    rewrite udiv_ok by lia. cbn [bind fst snd].
    eexists; split; [reflexivity|]. unfold rel; cbn [fst snd]. auto.
Qed.

Lemma calls_refine (l d : list A) h : forall s st,
  slice_ok ty l -> zlen d = W -> zlen l + W < usize_mod ->
  rel l d s st -> all_allowed W d (zlen l) st h ->
  exists s', calls c ty s h = Ok (fst (abs_calls W d st h), s') /\ rel l d s' (snd (abs_calls W d st h)).
Proof.
  induction h as [|o h IH]; intros s st Hl Hd Hlw Hr Ha.
  - exists s. split; [reflexivity|exact Hr].
  - destruct Ha as [Ha1 Ha2].
    destruct (call_refines l d s st o Hl Hd Hlw Hr Ha1) as (s1 & Hc & Hr1).
    cbn [calls abs_calls]. rewrite Hc, bind_Ok. cbn [fst snd].
    destruct (abs_call W d st o) as [a st'] eqn:Eo. cbn [fst snd] in *.
    destruct (IH s1 st' Hl Hd Hlw Hr1 Ha2) as (s2 & Hcs & Hr2). rewrite Hcs, bind_Ok.
    destruct (abs_calls W d st' h) as [q st''] eqn:Eh. cbn [fst snd] in *.
    exists s2. split; [reflexivity|exact Hr2].
Qed.

Lemma history_from_start (l d : list A) h :
  slice_ok ty l -> zlen d = W ->
  all_allowed W d (zlen l) (0, l) h ->
  exists s', calls c ty (simd_iter l d) h = Ok (fst (abs_calls W d (0, l) h), s').
Proof.
  intros Hl Hd Ha. pose proof (slice_small ty l Hty Hl) as Hsm. unfold max_len in *.
  pose proof (vty_ok_facts _ Hty) as (H1 & H2 & H3 & H4 & H5 & H6).
  destruct (calls_refine l d h (simd_iter l d) (0, l) Hl Hd) as (s' & H & _); auto.
  - unfold usize_mod. lia.
  - unfold rel. cbn [fst snd]. repeat split; [lia|unfold usize_mod; lia].
  - exists s'. exact H.
Qed.
End Slice.
