(** In-place mutation and unrolling. *)
From Coq Require Import Lia ZifyBool ZifyNat.
From Verif Require Import Base Spec ListFacts Vecs VecFacts Iters IterFacts CollectFacts.
Ltac Zify.zify_post_hook ::= Z.div_mod_to_equations.

Section ForEach.
Context {A E : Type}.
Variable c : config.
Variable ty : vty.
Variable d0 : A.
Variable func : E -> list A -> list A * E.
Notation W := (WIDTH ty).
Hypothesis Hty : vty_ok ty.
Hypothesis Hfunc : forall e v, zlen v = W -> zlen (fst (func e v)) = W.

Lemma for_each_loop_ok (d : list A) vs : forall fuel (pre rest : list A) lastvec env,
  Forall (fun v => zlen v = W) vs -> zlen rest < W -> zlen d = W ->
  zlen pre + W * zlen vs + zlen rest < max_len ->
  (length vs < fuel)%nat ->
  for_each_loop c ty func fuel (mkSIMDIter (zlen pre) (pre ++ concat vs ++ rest) d) lastvec env =
  Ok (mkSIMDIter (zlen pre + W * zlen vs)
        (pre ++ concat (fst (run_closure func env vs)) ++ rest) d,
      last (fst (run_closure func env vs)) lastvec, snd (run_closure func env vs)).
Proof.
  pose proof (vty_ok_facts ty Hty) as (HW & HWb).
  induction vs as [|v vs IH]; intros [|fuel] pre rest lastvec env Hv Hrest Hd Hsm Hf; cbn in Hf; try lia.
  - cbn [concat run_closure fst snd app last for_each_loop]. rewrite zlen_nil in *.
    pose proof (zlen_nonneg pre). pose proof (zlen_nonneg rest).
    destruct (si_next_cases c (slice_array c ty) (mkSIMDIter (zlen pre) (pre ++ rest) d) (pre ++ rest))
      as [[H1 H2]|[H1 H2]]; cbn [si_position si_data si_default arr_ty slice_array] in *.
    + exact Hty.
    + apply slice_array_holds; exact Hty.
    + rewrite zlen_app; lia.
    + rewrite zlen_app; lia.
    + rewrite zlen_app in H1. lia.
    + unfold slice_iterator, blanket_iterator, itb, it_next, si_iterable in *. rewrite H2, bind_Ok.
      rewrite Z.mul_0_r, Z.add_0_r. reflexivity.
  - inversion Hv as [|? ? Hv1 Hv2]; subst. rewrite zlen_cons in *.
    pose proof (zlen_nonneg pre). pose proof (zlen_nonneg rest). pose proof (zlen_nonneg vs).
    pose proof (concat_zlen W vs Hv2) as Hc.
    cbn [for_each_loop].
    set (l := pre ++ concat (v :: vs) ++ rest).
    assert (Hl : zlen l = zlen pre + W + W * zlen vs + zlen rest)
      by (unfold l; cbn [concat]; rewrite !zlen_app, Hc; lia).
    assert (HWv : 0 <= W * zlen vs) by nia.
    destruct (si_next_cases c (slice_array c ty) (mkSIMDIter (zlen pre) l d) l)
      as [[Hx1 Hx2]|[Hx1 Hx2]]; cbn [si_position si_data si_default arr_ty slice_array] in *.
    + exact Hty.
    + apply slice_array_holds; exact Hty.
    + lia.
    + lia.
    + unfold slice_iterator, blanket_iterator, itb, it_next, it_scalar_pos, si_iterable in Hx2 |- *.
      rewrite Hx2, bind_Ok.
      assert (Hsub : sub l (zlen pre) W = v).
      { unfold sub, l. cbn [concat]. unfold zlen at 1. rewrite Nat2Z.id, skipn_app, skipn_all, Nat.sub_diag.
        cbn [app skipn]. rewrite <- app_assoc. rewrite firstn_app.
        replace (Z.to_nat W) with (length v) by (unfold zlen in *; lia).
        rewrite firstn_all, Nat.sub_diag. cbn [firstn]. apply app_nil_r. }
      rewrite Hsub. pose proof (Hfunc env v Hv1) as Hy.
      cbn [run_closure]. destruct (func env v) as [y env'] eqn:Ef. cbn [fst] in Hy.
      cbn [si_position si_data]. rewrite bind_Ok. unfold max_len in *.
      rewrite usub_ok, bind_Ok by (unfold usize_mod; lia).
      rewrite store_unchecked_ok by lia. rewrite bind_Ok.
      replace (zlen pre + W - W) with (zlen pre) by lia.
      replace (upd l (zlen pre) y) with (pre ++ y ++ concat vs ++ rest).
      2:{ unfold l. cbn [concat]. rewrite <- app_assoc. symmetry.
          apply upd_app; unfold zlen in *; lia. }
      unfold si_set_data. cbn [si_position si_data si_default].
      rewrite app_assoc.
      replace (zlen pre + W) with (zlen (pre ++ y)) by (rewrite zlen_app; lia).
      rewrite IH; [|exact Hv2|exact Hrest|exact Hd|rewrite zlen_app; lia|lia].
      destruct (run_closure func env' vs) as [ys e''] eqn:Er. cbn [fst snd concat].
      rewrite last_cons, zlen_app, <- !app_assoc. do 3 f_equal. f_equal. lia.
    + lia.
Qed.

(** Writing the tail over a buffer whose last full vector is [lastvec]. *)
Lemma two_stores (pre post lastvec p : list A) n offset :
  0 < W -> zlen lastvec = W -> zlen p = W -> 0 <= n <= W ->
  zlen pre + W = offset -> zlen post = W - n ->
  exists b1, store_unchecked c W p (pre ++ lastvec ++ post) (offset - n) = Ok b1 /\
    store_unchecked c W lastvec b1 (offset - W) =
    Ok (pre ++ lastvec ++ skipn (Z.to_nat n) p).
Proof.
  intros HW Hl Hp Hn Hoff Hpost. pose proof (zlen_nonneg pre).
  set (La := firstn (Z.to_nat (W - n)) lastvec).
  set (Lb := skipn (Z.to_nat (W - n)) lastvec).
  set (Pa := firstn (Z.to_nat n) p). set (Pb := skipn (Z.to_nat n) p).
  assert (HLa : zlen La = W - n) by (unfold La; rewrite zlen_firstn; lia).
  assert (HLb : zlen Lb = n) by (unfold Lb; rewrite zlen_skipn; lia).
  assert (HPa : zlen Pa = n) by (unfold Pa; rewrite zlen_firstn; lia).
  assert (HPb : zlen Pb = W - n) by (unfold Pb; rewrite zlen_skipn; lia).
  assert (E1 : pre ++ lastvec ++ post = (pre ++ La) ++ (Lb ++ post) ++ []).
  { rewrite <- (firstn_skipn (Z.to_nat (W - n)) lastvec).
    fold La Lb. rewrite app_nil_r, <- !app_assoc. reflexivity. }
  exists ((pre ++ La) ++ p ++ []). split.
  - rewrite store_unchecked_ok by (rewrite ?zlen_app; lia).
    rewrite E1, upd_app; [reflexivity|rewrite zlen_app; lia|rewrite app_length; unfold zlen in *; lia].
  - assert (E2 : (pre ++ La) ++ p ++ [] = pre ++ (La ++ Pa) ++ Pb).
    { rewrite <- (firstn_skipn (Z.to_nat n) p). fold Pa Pb. rewrite app_nil_r, <- !app_assoc. reflexivity. }
    rewrite E2, store_unchecked_ok by (rewrite ?zlen_app; lia).
    rewrite upd_app; [reflexivity|lia|rewrite app_length; unfold zlen in *; lia].
Qed.

Lemma simd_for_each_ok (pre d l : list A) vs rest env fuel :
  chunked W l vs rest -> zlen rest < W -> zlen d = W -> zlen pre + zlen l < max_len ->
  (pre = [] \/ vs <> [] \/ rest = []) ->
  (length vs < fuel)%nat ->
  simd_for_each c ty d0 func fuel (mkSIMDIter (zlen pre) (pre ++ l) d) env =
  let ys := fst (run_closure func env vs) in
  let e1 := snd (run_closure func env vs) in
  Ok match tail_of d rest with
     | None => (mkSIMDIter (zlen (pre ++ l)) (pre ++ concat ys) d, e1)
     | Some (p, n) =>
       (mkSIMDIter (zlen (pre ++ l)) (pre ++ concat ys ++ skipn (Z.to_nat n) (fst (func e1 p))) d,
        snd (func e1 p))
     end.
Proof.
  intros [Hv Hl] Hrest Hd Hsm Hcond Hf. pose proof (vty_ok_facts ty Hty) as (HW & HWb).
  pose proof (concat_zlen W vs Hv) as Hc. pose proof (zlen_nonneg vs) as Hnv.
  pose proof (zlen_nonneg rest) as Hnr. pose proof (zlen_nonneg pre) as Hnp.
  assert (Hll : zlen l = W * zlen vs + zlen rest) by (rewrite <- Hl, zlen_app, Hc; reflexivity).
  assert (HWv : 0 <= W * zlen vs) by nia.
  set (ys := fst (run_closure func env vs)). set (e1 := snd (run_closure func env vs)).
  assert (Hys : Forall (fun v => zlen v = W) ys).
  { unfold ys. apply (run_closure_Forall func (fun v => zlen v = W)); [exact Hfunc|exact Hv]. }
  assert (Hylen : zlen ys = zlen vs) by (unfold ys, zlen; rewrite run_closure_length; reflexivity).
  pose proof (concat_zlen W ys Hys) as Hcy. rewrite Hylen in Hcy.
  unfold simd_for_each.
  pose proof (for_each_loop_ok d vs fuel pre rest (splat W d0) env Hv Hrest Hd) as Hloop.
  rewrite Hl in Hloop. rewrite Hloop; [|lia|exact Hf]. fold ys e1. rewrite bind_Ok.
  set (l1 := pre ++ concat ys ++ rest). set (k := zlen pre + W * zlen vs).
  assert (Hpl : zlen (pre ++ l) = zlen pre + zlen l) by apply zlen_app.
  assert (Hl1 : zlen l1 = zlen pre + zlen l) by (unfold l1; rewrite !zlen_app; lia).
  pose proof (si_stepping c (slice_array c ty) l1 l1 d Hty (slice_array_holds c ty l1 Hty)
                ltac:(lia) Hd) as Hst.
  change (it_scalar_pos (itb (slice_iterator c ty)) (mkSIMDIter k l1 d)) with (Ok k).
  rewrite bind_Ok.
  assert (Hcond' : zlen pre = 0 \/ 1 <= zlen vs \/ zlen rest = 0).
  { destruct Hcond as [-> | [H | ->]]; [left; reflexivity| |right; right; reflexivity].
    right; left. destruct vs; [congruence|]. rewrite zlen_cons. pose proof (zlen_nonneg vs). lia. }
  assert (Hready : tail_ready (si_iterable c (slice_array c ty)) l1 k).
  { unfold tail_ready, k. cbn [it_ty si_iterable arr_ty slice_array].
    destruct (Z.eq_dec (zlen rest) 0) as [E1|E1]; [right; right; lia|].
    destruct (Z.eq_dec (zlen vs) 0) as [E0|E0]; [left; lia|].
    right; left. assert (W <= W * zlen vs) by nia. lia. }
  destruct (blanket_end_ok c _ _ l1 d _ Hst (mkSIMDIter k l1 d) k) as (s' & He & [-> _]).
  { split; [reflexivity|unfold k; lia]. }
  { exact Hready. }
  { cbn [it_ty si_iterable arr_ty slice_array]. unfold k. lia. }
  change (blanket_end c (si_array (slice_array c ty)) (si_iterable c (slice_array c ty)))
    with (it_end (slice_iterator (A := A) c ty)) in He.
  rewrite He, bind_Ok.
  assert (Hskip : skipn (Z.to_nat k) l1 = rest).
  { unfold l1, k. rewrite <- Hcy, <- zlen_app, app_assoc. unfold zlen. rewrite Nat2Z.id, skipn_app, skipn_all, Nat.sub_diag.
    reflexivity. }
  rewrite Hskip. cbn zeta. destruct (Z.eq_dec (zlen rest) 0) as [E0|E0].
  - unfold l1. apply zlen_zero in E0. rewrite E0 in *. cbn [tail_of].
    rewrite !app_nil_r, !zlen_app, Hcy. rewrite zlen_nil in *. do 3 f_equal. lia.
  - assert (Htl : tail_of d rest = Some (right_aligned d rest, unfilled d rest)).
    { destruct rest; [rewrite zlen_nil in E0; lia|reflexivity]. }
    rewrite Htl. set (p := right_aligned d rest). set (n := unfilled d rest).
    assert (Hp : zlen p = W) by (unfold p; rewrite right_aligned_len; lia).
    assert (Hn : n = W - zlen rest) by (unfold n, unfilled; lia).
    assert (Hr1 : 1 <= zlen rest) by lia.
    pose proof (Hfunc e1 p Hp) as Hp'. destruct (func e1 p) as [p' e2]. cbn [fst snd] in *.
    change (it_scalar_len (itb (slice_iterator c ty)) (mkSIMDIter (zlen l1) l1 d))
      with (Ok (zlen l1)). rewrite bind_Ok. cbn [si_data].
    destruct (W <? zlen l1) eqn:EW.
    + assert (Hne : 1 <= zlen vs) by lia.
      assert (HWle : W <= W * zlen vs) by nia. unfold max_len, k in *.
      rewrite usub_ok, bind_Ok by (unfold usize_mod; lia).
      destruct (exists_last (l := ys)) as (ys1 & lv & Hys1).
      { intros E1. rewrite E1 in Hylen. rewrite zlen_nil in Hylen. lia. }
      assert (Hlast : last ys (splat W d0) = lv) by (rewrite Hys1; apply last_last).
      rewrite Hlast.
      assert (Hlv : zlen lv = W).
      { rewrite Forall_forall in Hys. apply Hys. rewrite Hys1. apply in_app_iff; right; left; reflexivity. }
      assert (Hcc : concat ys = concat ys1 ++ lv)
        by (rewrite Hys1, concat_app; cbn [concat]; rewrite app_nil_r; reflexivity).
      assert (Hpre : zlen (concat ys1) + W = W * zlen vs) by (rewrite <- Hcy, Hcc, zlen_app; lia).
      destruct (two_stores (pre ++ concat ys1) rest lv p' n (zlen pre + W * zlen vs))
        as (b1 & Hb1 & Hb2); try lia.
      { rewrite zlen_app; lia. }
      rewrite <- app_assoc in Hb1. rewrite (app_assoc (concat ys1)), <- Hcc in Hb1.
      fold l1 in Hb1. rewrite Hb1, bind_Ok.
      rewrite usub_ok, bind_Ok by (unfold usize_mod; lia). rewrite Hb2, bind_Ok.
      unfold si_set_data. cbn [si_position si_data si_default].
      rewrite Hcc, <- !app_assoc, Hl1, Hpl. reflexivity.
    + assert (Hv0 : zlen vs = 0) by nia.
      assert (vs = []) as E1 by (apply zlen_zero; exact Hv0).
      assert (Hys0 : ys = []) by (apply zlen_zero; lia).
      assert (Hpre0 : pre = []) by (apply zlen_zero; lia).
      rewrite usub_ok, bind_Ok by (unfold usize_mod; lia).
      rewrite Hys0, Hpre0. cbn [concat app].
      assert (Hl1r : l1 = rest) by (unfold l1; rewrite Hys0, Hpre0; reflexivity).
      rewrite Hl1r in *. assert (Hk0 : k = 0) by (unfold k; lia). rewrite Hk0.
      assert (Hx : for_range (Z.to_nat (W - n)) 0 (fun i d1 =>
                    let! k := uadd c i n in
                    let! x := extract_unchecked c W p' k in
                    let! o := uadd c 0 i in
                    store_scalar_unchecked c d1 x o) rest = Ok (skipn (Z.to_nat n) p')).
      { replace (Z.to_nat (W - n)) with (length (skipn (Z.to_nat n) p'))
          by (rewrite skipn_length; unfold zlen in *; lia).
        match goal with |- for_range _ _ ?f _ = _ =>
          pose proof (for_range_write f (skipn (Z.to_nat n) p') 0 [] rest []) as H end.
        rewrite !app_nil_r in H. cbn [app] in H. apply H.
        - rewrite skipn_length. unfold zlen in *; lia.
        - intros j x b Hj Hb. pose proof (nth_error_lt _ _ _ Hj) as Hlt. rewrite skipn_length in Hlt.
          rewrite uadd_ok, bind_Ok by (unfold usize_mod, zlen in *; lia).
          replace (0 + Z.of_nat j + n) with (n + Z.of_nat j) by lia.
          rewrite (extract_unchecked_ok c W p' _ x);
            [|unfold zlen in *; lia|apply znth_skipn; [lia|exact Hj]].
          rewrite bind_Ok, uadd_ok, bind_Ok by (unfold usize_mod, zlen in *; lia).
          unfold store_scalar_unchecked.
          assert (0 + (0 + Z.of_nat j) < zlen b) by (rewrite Hb; unfold zlen in *; lia).
          rewrite debug_assert_true, bind_Ok by lia.
          destruct (_ <? zlen b) eqn:E3; [|lia]. reflexivity. }
      rewrite Hx, bind_Ok. unfold si_set_data. cbn [si_position si_data si_default].
      rewrite Hl1, Hpre0. reflexivity.
Qed.
End ForEach.

(** ** Unrolling *)

Section Unroll.
Context {V I : Type}.
Variable it : SIMDIterator V I.

Lemma unrolled_loop_ok s vs s1 :
  nexts it s vs s1 -> it_next (itb it) s1 = Ok (None, s1) ->
  forall n i (pre mid post : list V),
  zlen pre = i -> length mid = n ->
  exists s2 scratch',
    unrolled_loop (itb it) n i s (pre ++ mid ++ post) =
      Ok (i + Z.of_nat (Nat.min n (length vs)), s2, scratch') /\
    nexts it s2 (skipn n vs) s1 /\
    length scratch' = length (pre ++ mid ++ post) /\
    firstn (length pre + Nat.min n (length vs)) scratch' = pre ++ firstn n vs.
Proof.
  intros Hn Hfused n. revert s vs Hn. induction n as [|n IH]; intros s vs Hn i pre mid post Hi Hmid.
  - destruct mid; [|discriminate]. exists s, (pre ++ [] ++ post). cbn [unrolled_loop Nat.min Z.of_nat].
    rewrite Z.add_0_r. repeat split; [exact Hn|].
    cbn [firstn app]. rewrite Nat.add_0_r, firstn_app, firstn_all, Nat.sub_diag. cbn [firstn].
    rewrite !app_nil_r. reflexivity.
  - destruct mid as [|m0 mid]; [discriminate|]. cbn in Hmid.
    inversion Hn as [? ? H1|? v s' vs' ? H1 H2]; subst.
    + exists s1, (pre ++ (m0 :: mid) ++ post). cbn [unrolled_loop]. rewrite H1, bind_Ok.
      cbn [length]. rewrite Nat.min_0_r. cbn [Z.of_nat]. rewrite Z.add_0_r.
      repeat split.
      * constructor. exact Hfused.
      * rewrite Nat.add_0_r, firstn_app, firstn_all, Nat.sub_diag. reflexivity.
    + cbn [unrolled_loop]. rewrite H1, bind_Ok.
      destruct (zlen pre <? zlen (pre ++ (m0 :: mid) ++ post)) eqn:E.
      2:{ rewrite !zlen_app, zlen_cons in E. pose proof (zlen_nonneg mid). pose proof (zlen_nonneg post). lia. }
      replace (pre ++ (m0 :: mid) ++ post) with (pre ++ [m0] ++ (mid ++ post)) by (cbn; reflexivity).
      rewrite upd_app by reflexivity.
      replace (pre ++ [v] ++ (mid ++ post)) with ((pre ++ [v]) ++ mid ++ post)
        by (rewrite <- app_assoc; reflexivity).
      destruct (IH s' vs' H2 (zlen pre + 1) (pre ++ [v]) mid post) as (s2 & sc & Hl & Hnx & Hlen & Hfi).
      * rewrite zlen_app. reflexivity.
      * lia.
      * exists s2, sc. cbn [length Nat.min skipn firstn]. repeat split.
        -- rewrite Hl. do 3 f_equal. lia.
        -- exact Hnx.
        -- rewrite Hlen. rewrite !app_length. cbn. lia.
        -- rewrite app_length in Hfi. cbn [length] in Hfi.
           replace (length pre + S (Nat.min n (length vs')))%nat
             with (length pre + 1 + Nat.min n (length vs'))%nat by lia.
           rewrite Hfi, <- app_assoc. reflexivity.
Qed.

Lemma unrolled_drain_ok s vs s1 amt scratch :
  nexts it s vs s1 -> it_next (itb it) s1 = Ok (None, s1) ->
  (0 < amt <= length scratch)%nat ->
  forall fuel, (length vs < fuel)%nat ->
  exists gs scratch',
    unrolled_drain (itb it) fuel (mkUnrolled s (Z.of_nat amt) scratch) =
      Ok (gs, mkUnrolled s1 (Z.of_nat amt) scratch') /\ grouped amt vs gs.
Proof.
  intros Hn Hfused Hamt fuel. revert s vs scratch Hn Hamt.
  induction fuel as [|fuel IH]; intros s vs scratch Hn Hamt Hf; [lia|].
  cbn [unrolled_drain]. unfold unrolled_next. cbn [ur_iter ur_amt ur_scratch]. rewrite Nat2Z.id.
  destruct (unrolled_loop_ok s vs s1 Hn Hfused amt 0 [] (firstn amt scratch) (skipn amt scratch))
    as (s2 & sc & Hl & Hnx & Hlen & Hfi); [reflexivity|rewrite firstn_length; lia|].
  cbn [app length] in *. rewrite firstn_skipn in *. rewrite Hl, bind_Ok, Z.add_0_l.
  rewrite Nat2Z.id. cbn [Nat.add] in Hfi. rewrite Hfi.
  destruct (0 <? Z.of_nat (Nat.min amt (length vs))) eqn:E.
  - rewrite bind_Ok.
    destruct (IH s2 (skipn amt vs) sc Hnx) as (gs & sc' & Hd & Hg); [lia|rewrite skipn_length; lia|].
    rewrite Hd, bind_Ok. cbn [fst snd]. exists (firstn amt vs :: gs), sc'. split; [reflexivity|].
    destruct (Nat.leb amt (length vs)) eqn:E2.
    + rewrite <- (firstn_skipn amt vs) at 1. constructor; [rewrite firstn_length; lia|exact Hg].
    + rewrite firstn_all2 by lia. rewrite skipn_all2 in Hg by lia.
      inversion Hg as [Hnil| |g ? gs' Hgl ? Heq]; subst.
      * apply grouped_last; [intros ->; cbn in E; rewrite Nat.min_0_r in E; lia|lia].
      * congruence.
      * apply app_eq_nil in Heq. destruct Heq as [-> _]. cbn in *. lia.
  - assert (length vs = O) by lia. destruct vs; [|discriminate].
    rewrite bind_Ok. exists [], sc. split; [|constructor].
    rewrite skipn_nil in Hnx. inversion Hnx as [? ? H1|]; subst.
    assert (s2 = s1) as ->; [|reflexivity].
    clear -Hl Hn Hfused Hamt. inversion Hn as [? ? H1|]; subst.
    destruct amt as [|amt]; [lia|]. cbn [unrolled_loop] in Hl. rewrite H1, bind_Ok in Hl. congruence.
Qed.
End Unroll.
