(** Proofs of the properties: zipping iterators of different kinds (C28). *)
From Verif Require Import Base Spec Vecs Iters Stride Zip ZipSpec.
From Coq Require Import Lia ZifyBool ZifyNat.
From Verif Require Import ListFacts VecFacts IterFacts CollectFacts MapFacts StrideFacts ZipFacts ReduceFacts ZipProofs.
Ltac Zify.zify_post_hook ::= Z.div_mod_to_equations.

Lemma right_aligned_any : forall (A : Type) (d l : list A), zlen l <= zlen d -> zlen (right_aligned d l) = zlen d /\ skipn (Z.to_nat (zlen d - zlen l)) (right_aligned d l) = l.
Proof. intros A d l H. split; [apply right_aligned_len; exact H|exact (right_aligned_skipn d l H)]. Qed.

Lemma c28_mixed : forall (A B C E I J : Type) (c : config) (arr1 : SIMDArray A I) (it1 : SIMDIterable (list A) I) (s1 : I) (l1 d1 : list A)
    (arr2 : SIMDArray B J) (it2 : SIMDIterable (list B) J) (s2 : J) (l2 d2 : list B) (out_ty : vty) (d0 : C) (g : A -> B -> C)
    (func : E -> list A * list B -> list C * E) (e : E) (fill : list C) (fuel : nat),
  source c A I arr1 it1 s1 l1 d1 0 -> source c B J arr2 it2 s2 l2 d2 0 -> WIDTH (it_ty it2) = WIDTH (it_ty it1) -> zlen l2 = zlen l1 ->
  vty_ok out_ty -> WIDTH out_ty = WIDTH (it_ty it1) -> SIZE out_ty = SIZE (it_ty it1) ->
  (zlen l1 + WIDTH (it_ty it1)) * SIZE (it_ty it1) <= isize_max -> (length l1 < fuel)%nat ->
  (forall e v, fst (func e v) = map2 g (fst v) (snd v)) ->
  let z := zip_iterator (blanket_iterator c arr1 it1) (rest_one (blanket_unsafe c arr2 it2)) in
  let m := zipmap_iterator c z out_ty d0 func in
  zip (blanket_iterator c arr1 it1) (rest_one (blanket_unsafe c arr2 it2)) (s1, s2) = Ok (s1, s2) /\
  (exists s', scalar_collect c m d0 fuel (mkSIMDMap (s1, s2) e) = Ok (map Some (map2 g l1 l2), s')) /\
  (zlen l1 <= zlen fill -> exists s', scalar_fill c m d0 fuel (mkSIMDMap (s1, s2) e) fill = Ok (map2 g l1 l2 ++ skipn (length l1) fill, s')).
Proof.
  intros A B C E I J c arr1 it1 s1 l1 d1 arr2 it2 s2 l2 d2 out_ty d0 g func e fill fuel Hs1 Hs2 Hw Hl Hout Hwo Hso Hcap Hf Hg z m.
  assert (Hd2 : zlen d2 = WIDTH (it_ty it1)) by (destruct (source_stepping _ _ _ _ _ _ _ _ _ Hs2) as (Rel & Hst & _); rewrite <- Hw; apply (st_d _ _ _ _ _ Hst)).
  destruct (zip_lockstep c A I arr1 it1 s1 l1 d1 0 _ _ _ _ _ _ fuel Hs1 (zipped_one c (WIDTH (it_ty it1)) (zlen l1) 0 B J arr2 it2 s2 l2 d2 Hs2 Hw Hl) ltac:(lia) Hf)
    as (Hzip & mm & s' & Hm & He & Hml & Hn & Hend & Hlen1 & Hlen2 & Hty & Hd).
  split; [exact Hzip|]. pose proof (vty_ok_facts _ Hty) as (H1 & H2 & H3 & H4 & H5 & H6). fold z in He, Hlen1, Hlen2. set (W := WIDTH (it_ty it1)) in *. rewrite Z.add_0_l in He.
  set (vs1 := map (fun p => sub l1 p W) (vector_starts 0 W mm)). set (vs2 := map (fun p => sub l2 p W) (vector_starts 0 W mm)). set (r1 := skipn (Z.to_nat (W * Z.of_nat mm)) l1). set (r2 := skipn (Z.to_nat (W * Z.of_nat mm)) l2).
  destruct (pair_chunks A B l1 l2 W mm 0 H1 ltac:(lia) (eq_sym Hl) ltac:(lia)) as (Hp1 & Hp2 & Hp3). rewrite Hp1 in He. fold vs1 vs2 in He, Hp2, Hp3. rewrite Z.add_0_l in Hp2, Hp3. fold r1 in Hp2. fold r2 in Hp3. cbn [Z.to_nat skipn] in Hp2, Hp3.
  cbv zeta in He. fold r1 r2 in He. match type of He with emits _ _ _ ?T _ => set (t := T) in * end.
  assert (Lv : length vs1 = length vs2) by (unfold vs1, vs2; rewrite !map_length; reflexivity). assert (Lm : length vs1 = mm) by (unfold vs1, vector_starts; rewrite !map_length, seq_length; reflexivity).
  assert (Hcl : length (combine vs1 vs2) = mm) by (rewrite combine_length; lia).
  assert (Lr1 : zlen r1 = zlen l1 - W * Z.of_nat mm) by (unfold r1; rewrite zlen_skipn; lia). assert (Lr2 : zlen r2 = zlen l1 - W * Z.of_nat mm) by (unfold r2; rewrite zlen_skipn; lia).
  assert (Hr : zlen r1 <= W) by lia.
  assert (Hc : complete z (s1, s2) (combine vs1 vs2) t (s', s2)).
  { constructor; [exact He| |exact Hty|].
    - intros p n Ht. unfold t in Ht. destruct (_ <? _) eqn:Ep; [|discriminate]. injection Ht as _ <-. cbn [itb z zip_iterator zip_iterable it_ty blanket_iterator]. fold W. clear -Ep Hm H1. lia.
    - exists (zlen l1 / W). split; [exact Hlen1|]. unfold zlen at 1. rewrite Hcl. split; [apply Z.div_le_lower_bound; lia|]. split.
      + cbn [itb z zip_iterator zip_iterable it_ty blanket_iterator]. fold W. pose proof (Z.mul_div_le (zlen l1) W ltac:(lia)). rewrite Z.mul_assoc. clear -H H1 H3 Hcap. nia.
      + intros Ht. rewrite Hlen2. unfold t in Ht. destruct (_ <? _) eqn:Ep in Ht; [discriminate|]. f_equal. unfold zlen at 2. rewrite Hcl. symmetry. apply (Z.div_unique _ _ _ 0); lia. }
  assert (Hbytes : wd z * sz z = WIDTH out_ty * SIZE out_ty) by (rewrite Hwo, Hso; reflexivity).
  pose proof (zipmap_complete c z out_ty d0 func Hout Hbytes _ _ _ _ e Hc) as Hmc. destruct Hp2 as [Hc1 Hcat1]. destruct Hp3 as [Hc2 Hcat2].
  assert (Hsz : sized (WIDTH out_ty) (fst (run_closure func e (combine vs1 vs2))) (map_tail func (snd (run_closure func e (combine vs1 vs2))) t (sz z) (SIZE out_ty))).
  { apply (map_sized z out_ty func (fun v => length (fst v) = length (snd v) /\ zlen (fst v) = WIDTH out_ty)).
    - intros e0 v [Hv1 Hv2]. rewrite Hg. unfold zlen. rewrite map2_length by exact Hv1. exact Hv2.
    - clear -Hc1 Hc2 Hwo. revert Hc1 Hc2. generalize vs1 vs2. intros us1 us2 Hc1. revert us2. induction Hc1 as [|v1 vs Hx Hc1 IH]; intros [|v2 vs'] Hc2; cbn; try constructor.
      + inversion Hc2; subst. cbn. unfold zlen in *. lia.
      + inversion Hc2; subst. apply IH. assumption.
    - intros p n Ht. unfold t in Ht. destruct (_ <? _); [|discriminate]. injection Ht as <- _. cbn [fst snd]. destruct (right_aligned_any A d1 r1 ltac:(lia)) as [Q1 _]. destruct (right_aligned_any B d2 r2 ltac:(lia)) as [Q2 _]. clear -Q1 Q2 Hd Hd2 Hwo. unfold zlen in *. lia. }
  assert (Hdel : delivered (fst (run_closure func e (combine vs1 vs2))) (map_tail func (snd (run_closure func e (combine vs1 vs2))) t (sz z) (SIZE out_ty)) = map2 g l1 l2).
  { unfold delivered. rewrite (lanewise_pairs A B C E g func Hg). rewrite (map2_concat A B C g W vs1 vs2 Hc1 Hc2 Lv). rewrite <- Hcat1, <- Hcat2. rewrite map2_app.
    2:{ pose proof (concat_zlen _ _ Hc1) as K1. pose proof (concat_zlen _ _ Hc2) as K2. clear -K1 K2 Lv. unfold zlen in *. rewrite Lv in *. lia. }
    f_equal. unfold t, map_tail. destruct (_ <? _) eqn:Ep.
    - rewrite Hg. cbn [fst snd]. change (sz z) with (SIZE (it_ty it1)). rewrite Hso, Z.div_mul by lia. rewrite map2_skipn. destruct (right_aligned_any A d1 r1 ltac:(lia)) as [_ Q1]. destruct (right_aligned_any B d2 r2 ltac:(lia)) as [_ Q2].
      replace (W - (zlen l1 - W * Z.of_nat mm)) with (zlen d1 - zlen r1) by lia. rewrite Q1. replace (zlen d1 - zlen r1) with (zlen d2 - zlen r2) by lia. rewrite Q2. reflexivity.
    - assert (E1 : r1 = []) by (destruct r1; [reflexivity|]; unfold zlen in Lr1 at 1; cbn [length] in Lr1; lia). rewrite E1. reflexivity. }
  assert (Hfu : (length (fst (run_closure func e (combine vs1 vs2))) < fuel)%nat) by (rewrite run_closure_length, Hcl; lia).
  split.
  - eexists. rewrite <- Hdel. apply (collect_complete c m d0 _ _ _ _ fuel Hmc Hsz Hfu).
  - intros Hfill. eexists. replace (length l1) with (length (map2 g l1 l2)) by (apply map2_length; unfold zlen in Hl; lia).
    rewrite <- Hdel. apply (fill_complete c m d0 _ _ _ _ fuel fill Hmc Hsz Hfu). rewrite Hdel. unfold zlen in *. rewrite map2_length by lia. lia.
Qed.
