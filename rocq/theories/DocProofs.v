(** Proofs of the properties: what the documentation says about portability: closures with a state
    (C73) and reductions with constants (C74); inner products (C72). *)
From Coq Require Import String.
From Verif Require Import Base Spec VecSpec Vecs Iters Zip Lanes OpTables Ops SumTables Sums SumSpec.
Open Scope list_scope.
Open Scope Z_scope.
From Coq Require Import Lia ZifyBool ZifyNat.
From Verif Require Import ListFacts VecFacts IterFacts CollectFacts MapFacts ZipFacts ReduceFacts VecProofs OpProofs PortProofs SumProofs IterProofs CollectProofs ZipProofs PipeProofs.
Ltac Zify.zify_post_hook ::= Z.div_mod_to_equations.

Lemma iter_shift {E : Type} (next : E -> E) : forall n e, Nat.iter n next (next e) = next (Nat.iter n next e).
Proof. induction n as [|n IH]; intros e; [reflexivity|]. cbn. f_equal. apply IH. Qed.

Lemma znth_lanes {A B : Type} (g : A -> B) l i x : znth l i = Some x -> znth (map g l) i = Some (g x).
Proof. unfold znth. destruct (i <? 0); [discriminate|]. apply map_nth_error. Qed.

Lemma run_stateful {A B E : Type} (w : Z) (g : E -> A -> B) (next : E -> E) (func : E -> list A -> list B * E) :
  0 < w -> (forall e v, zlen v = w -> func e v = (map (g e) v, next e)) ->
  forall vs e, Forall (fun v => zlen v = w) vs ->
  let r := run_closure func e vs in
  snd r = Nat.iter (length vs) next e /\ zlen (concat (fst r)) = zlen (concat vs) /\
  forall k x, znth (concat vs) k = Some x -> znth (concat (fst r)) k = Some (g (Nat.iter (Z.to_nat (k / w)) next e) x).
Proof.
  intros Hw Hfn. induction vs as [|v vs IH]; intros e Hvs r.
  - subst r. cbn. split; [reflexivity|]. split; [reflexivity|]. intros k x Hk. pose proof (znth_Some_lt _ _ _ Hk) as Hlt. cbn in Hlt. lia.
  - pose proof (Forall_inv Hvs) as Hv. cbv beta in Hv. specialize (IH (next e) (Forall_inv_tail Hvs)). subst r. cbn [run_closure]. rewrite (Hfn e v Hv).
    destruct (run_closure func (next e) vs) as [ys e2]. cbn [fst snd] in *. cbn zeta in IH. destruct IH as (I1 & I2 & I3).
    split; [rewrite I1; cbn [length Nat.iter]; apply iter_shift|]. split.
    { cbn [concat]. rewrite !zlen_app, I2. f_equal. unfold zlen. rewrite map_length. reflexivity. }
    intros k x Hk. cbn [concat] in *. pose proof (znth_Some_lt _ _ _ Hk) as Hlt.
    assert (Hmv : zlen (map (g e) v) = w) by (unfold zlen in *; rewrite map_length; exact Hv).
    rewrite znth_app in Hk |- * by lia. rewrite Hv in Hk. rewrite Hmv.
    destruct (k <? w) eqn:Ek.
    + rewrite Z.div_small by lia. cbn [Z.to_nat Nat.iter]. apply znth_lanes. exact Hk.
    + rewrite (I3 _ _ Hk). replace (Z.to_nat (k / w)) with (S (Z.to_nat ((k - w) / w))).
      * cbn [Nat.iter]. rewrite iter_shift. reflexivity.
      * replace k with (k - w + 1 * w) at 2 by lia. rewrite Z.div_add by lia. assert (0 <= (k - w) / w) by (apply Z.div_pos; lia). lia.
Qed.

Lemma c73_state_per_vector : forall (A B E : Type) (c : config) (ty out_ty : vty) (l d : list A) (g : E -> A -> B) (next : E -> E)
    (func : E -> list A -> list B * E) (e : E) (d0 : B) (fuel : nat),
  vty_ok ty -> vty_ok out_ty -> WIDTH out_ty = WIDTH ty -> SIZE out_ty = SIZE ty ->
  zlen d = WIDTH ty -> (zlen l + WIDTH ty) * SIZE ty <= isize_max -> (length l < fuel)%nat ->
  (forall e v, zlen v = WIDTH ty -> func e v = (map (g e) v, next e)) ->
  exists out s',
    scalar_collect c (map_iterator c (slice_iterator c ty) out_ty d0 func) d0 fuel (mkSIMDMap (simd_iter l d) e) =
      Ok (map Some out, s') /\
    zlen out = zlen l /\ (forall k x, znth l k = Some x -> znth out k = Some (g (Nat.iter (Z.to_nat (k / WIDTH ty)) next e) x)) /\
    sm_env s' = Nat.iter (Z.to_nat ((zlen l + WIDTH ty - 1) / WIDTH ty)) next e.
Proof.
  intros A B E c ty out_ty l d g next func e d0 fuel Hty Hout Hw Hsz Hd Hcap Hf Hfn.
  pose proof (vty_ok_facts _ Hty) as (H1 & H2 & H3 & _). pose proof (zlen_nonneg l) as Hl0.
  assert (Hl : slice_ok ty l) by (unfold slice_ok; nia).
  destruct (slice_complete c ty l d Hty Hl Hd Hcap) as (vs & rest & Hc & Hch & Hr & Hszd).
  pose proof Hch as [Hch1 Hch2].
  assert (HQt : forall p n, tail_of d rest = Some (p, n) -> zlen p = WIDTH ty) by (intros p n Hp; apply (tail_of_fields ty d Hd rest p n Hr Hp)).
  assert (HQf : forall e v, zlen v = WIDTH ty -> zlen (fst (func e v)) = WIDTH out_ty).
  { intros e0 v Hv. rewrite (Hfn e0 v Hv). cbn [fst]. unfold zlen in *. rewrite map_length. lia. }
  assert (Hbytes : WIDTH ty * SIZE ty = WIDTH out_ty * SIZE out_ty) by (rewrite Hw, Hsz; reflexivity).
  pose proof (map_complete c (slice_iterator c ty) out_ty d0 func Hout Hbytes _ _ _ _ e Hc) as Hm.
  assert (Hs := map_sized (slice_iterator c ty) out_ty func (fun v => zlen v = WIDTH ty) vs (tail_of d rest) e HQf Hch1 HQt).
  destruct (run_stateful (WIDTH ty) g next func H1 Hfn vs e Hch1) as (R1 & R2 & R3).
  pose proof (concat_zlen (WIDTH ty) vs Hch1) as Hcz.
  assert (Hzl : zlen l = WIDTH ty * zlen vs + zlen rest) by (rewrite <- Hch2, zlen_app, Hcz; reflexivity).
  pose proof (zlen_nonneg rest) as Hr0. pose proof (zlen_nonneg vs) as Hvs0.
  eexists. eexists. split; [apply (collect_complete c _ d0 _ _ _ _ fuel Hm Hs)|].
  { rewrite run_closure_length. pose proof (chunked_length ty l Hty vs rest Hch). lia. }
  assert (Htail : exists o, delivered (fst (run_closure func e vs)) (map_tail func (snd (run_closure func e vs)) (tail_of d rest) (sz (@slice_iterator A c ty)) (SIZE out_ty)) =
      concat (fst (run_closure func e vs)) ++ o /\ o = map (g (Nat.iter (length vs) next e)) rest).
  { unfold delivered. eexists. split; [reflexivity|]. unfold map_tail. destruct (tail_of d rest) as [[p n]|] eqn:Et.
    2:{ unfold tail_of in Et. destruct rest; [reflexivity|discriminate]. }
    assert (Hnn : Z.to_nat (n * SIZE ty / SIZE out_ty) = Z.to_nat n) by (rewrite Hsz, Z.div_mul by lia; reflexivity).
    change (sz (@slice_iterator A c ty)) with (SIZE ty). rewrite Hnn, R1, Hfn by (eapply HQt; reflexivity). cbn [fst].
    assert (Hsk : rest = skipn (Z.to_nat n) p).
    { unfold tail_of in Et. destruct rest as [|x r]; [discriminate|]. injection Et as <- <-. symmetry. apply right_aligned_skipn. lia. }
    rewrite Hsk, skipn_map. reflexivity. }
  destruct Htail as (o & Ho & Hoe). rewrite Ho. assert (Hzo : zlen o = zlen rest) by (rewrite Hoe; unfold zlen; rewrite map_length; reflexivity).
  split; [rewrite zlen_app, R2, Hcz; lia|]. split.
  - intros k x Hk. pose proof (znth_Some_lt _ _ _ Hk) as Hlt. rewrite <- Hch2 in Hk. rewrite znth_app in Hk |- * by lia. rewrite R2.
    destruct (k <? zlen (concat vs)) eqn:Ek; [apply R3; exact Hk|]. rewrite Hoe. apply znth_lanes with (g := g (Nat.iter (length vs) next e)) in Hk. rewrite Hk. do 2 f_equal.
    assert (Hq : k / WIDTH ty = zlen vs) by (symmetry; apply Z.div_unique with (r := k - WIDTH ty * zlen vs); lia). rewrite Hq. unfold zlen. rewrite Nat2Z.id. reflexivity.
  - cbn [sm_env]. unfold visited. assert (Hrun : forall a b e0, snd (run_closure func e0 (a ++ b)) = snd (run_closure func (snd (run_closure func e0 a)) b)).
    { clear. induction a as [|v a IH]; intros b e0; [reflexivity|]. cbn [run_closure app]. destruct (func e0 v) as [y e1]. specialize (IH b e1).
      destruct (run_closure func e1 a) as [ys e2]. cbn [snd] in IH. destruct (run_closure func e1 (a ++ b)) as [zs e3]. exact IH. }
    rewrite Hrun, R1. unfold tail_of. destruct rest as [|x rest].
    + cbn [run_closure snd]. replace ((zlen l + WIDTH ty - 1) / WIDTH ty) with (zlen vs); [unfold zlen; rewrite Nat2Z.id; reflexivity|].
      apply Z.div_unique with (r := WIDTH ty - 1); [lia|]. cbn in Hzl. lia.
    + cbn [run_closure]. rewrite Hfn by (eapply HQt; reflexivity). cbn [snd].
      replace ((zlen l + WIDTH ty - 1) / WIDTH ty) with (zlen vs + 1); [replace (Z.to_nat (zlen vs + 1)) with (S (length vs)) by (unfold zlen; lia); reflexivity|].
      rewrite zlen_cons in *. pose proof (zlen_nonneg rest). apply Z.div_unique with (r := zlen rest); lia.
Qed.

Lemma fold_contrib {V : Type} (t : ity) (w : Z) (Q : V -> Prop) (func : list Z -> V -> list Z) (h : V -> Z) :
  (forall a v, int_vector w t a -> Q v -> int_vector w t (func a v) /\ cong (imod t) (total (func a v)) (total a + h v)) ->
  forall args acc, int_vector w t acc -> Forall Q args ->
  int_vector w t (fold_left func args acc) /\ cong (imod t) (total (fold_left func args acc)) (total acc + total (map h args)).
Proof.
  intros Hf. induction args as [|v args IH]; intros acc Ha HQ; cbn [fold_left map total fold_right].
  - split; [exact Ha|]. rewrite Z.add_0_r. apply cong_refl.
  - fold (total (map h args)). destruct (Hf acc v Ha (Forall_inv HQ)) as [F1 F2]. destruct (IH _ F1 (Forall_inv_tail HQ)) as [G1 G2].
    split; [exact G1|]. eapply cong_trans; [exact G2|]. rewrite Z.add_assoc. apply cong_add; [exact F2|apply cong_refl].
Qed.

Lemma map2_add_in (t : ity) (f : Z -> Z -> Z) (w : Z) a v : (0 < ibytes t)%nat -> zlen a = w -> zlen v = w -> int_vector w t (map2 (fun x y => wrap t (f x y)) a v).
Proof.
  intros Ht Ha Hv. split; [unfold zlen in *; rewrite map2_length by lia; exact Ha|].
  clear -Ht. revert v. induction a as [|x a IH]; intros [|y v]; cbn [map2]; constructor; [apply wrap_in; exact Ht|apply IH].
Qed.

Lemma total_repeat x : forall n, total (repeat x n) = x * Z.of_nat n.
Proof. induction n as [|n IH]; [cbn; lia|]. cbn [repeat total fold_right]. fold (total (repeat x n)). rewrite IH. lia. Qed.

Lemma firstn_repeat {A : Type} (x : A) : forall n m, firstn n (repeat x m) = repeat x (Nat.min n m).
Proof. induction n as [|n IH]; intros [|m]; cbn; [reflexivity..|]. f_equal. apply IH. Qed.

Lemma splat_in (t : ity) (w x : Z) : 0 <= w -> in_ity t x -> int_vector w t (splat w x).
Proof.
  intros Hw Hx. split; [unfold splat; rewrite zlen_repeat; lia|]. apply Forall_forall. intros y Hy. unfold splat in Hy. apply repeat_spec in Hy. subst y. exact Hx.
Qed.

Lemma sums_of (t : ity) (fadd : elty -> Z -> Z -> Z) (b : bool) (x : Z) : (0 < ibytes t)%nat ->
  let c := mkConfig Release b in
  (forall s acc, In s (x86_sum ++ unknown_sum) -> s_el s = EInt t -> int_vector (WIDTH (s_ty s)) t acc -> cong (imod t) (total acc) x ->
     sum_portable fadd c s acc = Ok (wrap t x)) /\
  (forall s acc, In s x86_sum_optimized -> xs_el s = EInt t -> int_vector (WIDTH (xs_ty s)) t acc -> cong (imod t) (total acc) x ->
     sum_optimized c s acc = Ok (wrap t x)).
Proof.
  intros Ht c. assert (Hu : forall v r, cong (imod t) (total v) x -> sum_mod t v r -> r = wrap t x).
  { intros v r Hv [Hr1 [k Hr2]]. rewrite <- (wrap_id t r Hr1). apply wrap_wraps. eapply cong_trans; [exists k; exact Hr2|exact Hv]. }
  split; intros s acc Hs He Hacc Hc.
  - destruct (c42_sum_portable fadd c s t acc Hs He Hacc (or_introl eq_refl)) as (r & Hr1 & Hr2). rewrite Hr1. f_equal. exact (Hu acc r Hc Hr2).
  - destruct (c42_sum_optimized_partial c s t acc Hs He Hacc (or_intror (or_introl eq_refl))) as (r & Hr1 & Hr2). rewrite Hr1. f_equal. exact (Hu acc r Hc Hr2).
Qed.

Lemma sum_types : (forall s, In s (x86_sum ++ unknown_sum) -> vty_ok (s_ty s)) /\ (forall s, In s x86_sum_optimized -> vty_ok (xs_ty s)).
Proof.
  split; intros s Hs.
  - pose proof (proj1 (forallb_forall _ _) sum_shapes s Hs) as Hsh. apply andb_prop in Hsh. apply vty_okb_ok. apply Hsh.
  - pose proof (proj1 (forallb_forall _ _) xsum_shapes s Hs) as Hsh. apply andb_prop in Hsh. apply vty_okb_ok. apply Hsh.
Qed.

Lemma reduce_constant : forall (c : config) (t : ity) (ty : vty) (l : list Z) (a0 d k : Z) (fuel : nat),
  vty_ok ty -> (0 < ibytes t)%nat -> slice_ok ty l -> (length l < fuel)%nat -> in_ity t a0 ->
  let W := WIDTH ty in let n := (zlen l + W - 1) / W in
  exists acc s',
    simd_reduce (slice_iterator c ty) fuel (simd_iter l (splat W d)) (splat W a0)
      (fun a v => map2 (fun x y => wrap t (x + y)) (map2 (fun x y => wrap t (x + y)) a v) (splat W k)) = Ok (acc, s') /\
    int_vector W t acc /\ cong (imod t) (total acc) (total l + a0 * W + d * (W * n - zlen l) + k * (W * n)).
Proof.
  intros c t ty l a0 d k fuel Hty Ht Hl Hf Ha0 W n. pose proof (vty_ok_facts _ Hty) as (H1 & _). fold W in H1. pose proof (zlen_nonneg l).
  assert (Hsp : forall x : Z, zlen (splat W x) = W) by (intros x; unfold splat; rewrite zlen_repeat; lia).
  assert (Hts : forall x, total (splat W x) = x * W) by (intros x; unfold splat; rewrite total_repeat; lia).
  match goal with |- context [simd_reduce _ _ _ _ ?F] => set (func := F) end.
  destruct (c06_reduce Z (list Z) c ty l (splat W d) 0 (splat W a0) func fuel Hty Hl (Hsp d) ltac:(lia) ltac:(lia) Hf) as (vs & rest & [Hc1 Hc2] & Hr & Hza & Hred & _).
  fold W in Hc1, Hr, Hza. cbn [Z.to_nat skipn] in Hc2. eexists. eexists. split; [exact Hred|].
  rewrite Z.sub_0_r in Hza. fold n in Hza. set (args := vs ++ match rest with [] => [] | _ => [right_aligned (splat W d) rest] end) in *.
  destruct (fold_contrib t W (fun v => zlen v = W) func (fun v => total v + k * W)) with (args := args) (acc := splat W a0) as [G1 G2].
  - intros a v [Ha1 Ha2] Hv. unfold func. assert (Hav : zlen (map2 (fun x y => wrap t (x + y)) a v) = W) by (unfold zlen in *; rewrite map2_length by lia; exact Ha1).
    split; [apply map2_add_in; [exact Ht|exact Hav|apply Hsp]|].
    eapply cong_trans; [apply total_map2; specialize (Hsp k); unfold zlen in *; lia|]. rewrite Hts, Z.add_assoc. apply cong_add; [|apply cong_refl]. apply total_map2. unfold zlen in *; lia.
  - apply splat_in; [lia|exact Ha0].
  - unfold args. apply Forall_app. split; [exact Hc1|]. destruct rest as [|x r]; constructor; [|constructor]. rewrite right_aligned_len; [apply Hsp|rewrite Hsp; lia].
  - split; [exact G1|]. eapply cong_trans; [exact G2|]. rewrite Hts.
    assert (Hm : forall us : list (list Z), total (map (fun v => total v + k * W) us) = total (concat us) + k * (W * zlen us)).
    { clear. induction us as [|v us IH]; [cbn; lia|]. cbn [map concat total fold_right]. fold (total (map (fun v => total v + k * W) us)). rewrite IH, total_app, zlen_cons. lia. }
    rewrite Hm, Hza.
    assert (Hta : total (concat args) = total l + d * (W * n - zlen l)).
    { assert (Hlv : zlen l = W * zlen vs + zlen rest) by (rewrite <- Hc2, zlen_app, (concat_zlen W vs Hc1); reflexivity).
      unfold args. rewrite concat_app, total_app. rewrite <- Hc2 at 1. rewrite total_app, <- Z.add_assoc. f_equal. rewrite <- Hza. unfold args. rewrite zlen_app.
      destruct rest as [|x r].
      - cbn [concat total fold_right]. rewrite Hlv. change (zlen (@nil Z)) with 0. change (zlen (@nil (list Z))) with 0. lia.
      - cbn [concat]. rewrite app_nil_r. unfold right_aligned. rewrite total_app. unfold splat at 2. rewrite firstn_repeat, total_repeat.
        rewrite (Z.add_comm (total (x :: r))). f_equal. f_equal. match goal with |- context [zlen [?u]] => change (zlen [u]) with 1 end. specialize (Hsp d). unfold zlen in *. lia. }
    rewrite Hta. replace (a0 * W + (total l + d * (W * n - zlen l) + k * (W * n))) with (total l + a0 * W + d * (W * n - zlen l) + k * (W * n)) by ring. apply cong_refl.
Qed.

Lemma c74_constants : forall (fadd : elty -> Z -> Z -> Z) (b : bool) (t : ity) (l : list Z) (a d k : Z) (fuel : nat),
  let c := mkConfig Release b in
  let reduce ty := simd_reduce (slice_iterator c ty) fuel (simd_iter l (splat (WIDTH ty) d)) (splat (WIDTH ty) a)
                     (fun acc v => map2 (fun x y => wrap t (x + y)) (map2 (fun x y => wrap t (x + y)) acc v) (splat (WIDTH ty) k)) in
  let lanes ty := WIDTH ty * ((zlen l + WIDTH ty - 1) / WIDTH ty) in
  let result ty r := in_ity t r /\ exists m, r = total l + a * WIDTH ty + d * (lanes ty - zlen l) + k * lanes ty + m * imod t in
  (0 < ibytes t)%nat -> (length l < fuel)%nat -> in_ity t a ->
  (forall s, In s (x86_sum ++ unknown_sum) -> s_el s = EInt t -> slice_ok (s_ty s) l ->
   exists acc s' r, reduce (s_ty s) = Ok (acc, s') /\ sum_portable fadd c s acc = Ok r /\ result (s_ty s) r) /\
  (forall x, In x x86_sum_optimized -> xs_el x = EInt t -> slice_ok (xs_ty x) l ->
   exists acc s' r, reduce (xs_ty x) = Ok (acc, s') /\ sum_optimized c x acc = Ok r /\ result (xs_ty x) r).
Proof.
  intros fadd b t l a d k fuel c reduce lanes result Ht Hf Ha. destruct sum_types as [T1 T2].
  assert (Hres : forall ty x, x = total l + a * WIDTH ty + d * (lanes ty - zlen l) + k * lanes ty -> result ty (wrap t x)).
  { intros ty x ->. split; [apply wrap_in; exact Ht|]. destruct (wrap_cong t (total l + a * WIDTH ty + d * (lanes ty - zlen l) + k * lanes ty)) as [m Hm]. exists m. exact Hm. }
  split; intros s Hs He Hl.
  - destruct (reduce_constant c t (s_ty s) l a d k fuel (T1 s Hs) Ht Hl Hf Ha) as (acc & s' & Hr & Hacc & Hc).
    exists acc, s'. eexists. split; [exact Hr|]. split; [apply (proj1 (sums_of t fadd b _ Ht) s acc Hs He Hacc Hc)|]. apply Hres. reflexivity.
  - destruct (reduce_constant c t (xs_ty s) l a d k fuel (T2 s Hs) Ht Hl Hf Ha) as (acc & s' & Hr & Hacc & Hc).
    exists acc, s'. eexists. split; [exact Hr|]. split; [apply (proj2 (sums_of t fadd b _ Ht) s acc Hs He Hacc Hc)|]. apply Hres. reflexivity.
Qed.

Lemma map2_app {A B C : Type} (f : A -> B -> C) : forall a a' b b', length a = length b -> map2 f (a ++ a') (b ++ b') = map2 f a b ++ map2 f a' b'.
Proof. induction a as [|x a IH]; intros a' [|y b] b' H; try discriminate; [reflexivity|]. cbn [map2 app]. f_equal. apply IH. cbn in H. lia. Qed.

Lemma total_products (t : ity) : forall a b, cong (imod t) (total (map2 (fun x y => wrap t (x * y)) a b)) (total (map2 Z.mul a b)).
Proof.
  induction a as [|x a IH]; intros [|y b]; cbn [map2 total fold_right]; try apply cong_refl.
  fold (total (map2 (fun x y => wrap t (x * y)) a b)) (total (map2 Z.mul a b)). apply cong_add; [apply wrap_cong|apply IH].
Qed.

Lemma products_pairs (w : Z) : forall vs1 vs2 : list (list Z), length vs1 = length vs2 -> Forall (fun v => zlen v = w) vs1 -> Forall (fun v => zlen v = w) vs2 ->
  total (map (fun p => total (map2 Z.mul (fst p) (snd p))) (combine vs1 vs2)) = total (map2 Z.mul (concat vs1) (concat vs2)).
Proof.
  induction vs1 as [|v vs1 IH]; intros [|u vs2] H H1 H2; try discriminate; [reflexivity|]. cbn [combine map concat total fold_right].
  pose proof (Forall_inv H1) as Hv. pose proof (Forall_inv H2) as Hu. cbv beta in Hv, Hu. rewrite map2_app by (unfold zlen in *; lia). rewrite total_app. f_equal.
  apply IH; [cbn in H; lia|exact (Forall_inv_tail H1)|exact (Forall_inv_tail H2)].
Qed.

Lemma reduce_products : forall (c : config) (t : ity) (ty : vty) (l1 l2 : list Z) (d1 d2 : Z) (fuel : nat),
  vty_ok ty -> (0 < ibytes t)%nat -> slice_ok ty l1 -> slice_ok ty l2 -> zlen l1 = zlen l2 -> (length l1 < fuel)%nat ->
  let W := WIDTH ty in
  let rest := rest_one (blanket_unsafe c (si_array (slice_array c ty)) (si_iterable c (slice_array c ty))) in
  let st := (simd_iter l1 (splat W d1), simd_iter l2 (splat W d2)) in
  zip (slice_iterator c ty) rest st = Ok st /\
  exists acc s',
    simd_reduce (zip_iterator (slice_iterator c ty) rest) fuel st (splat W 0)
      (fun a p => map2 (fun x y => wrap t (x + y)) a (map2 (fun x y => wrap t (x * y)) (fst p) (snd p))) = Ok (acc, s') /\
    int_vector W t acc /\ cong (imod t) (total acc) (total (map2 Z.mul l1 l2) + d1 * d2 * (W * ((zlen l1 + W - 1) / W) - zlen l1)).
Proof.
  intros c t ty l1 l2 d1 d2 fuel Hty Ht Hl1 Hl2 Hl Hf W rest st. pose proof (vty_ok_facts _ Hty) as (H1 & _). fold W in H1. pose proof (zlen_nonneg l1).
  assert (Hsp : forall x : Z, zlen (splat W x) = W) by (intros x; unfold splat; rewrite zlen_repeat; lia).
  destruct (two_slices Z Z c ty ty l1 (splat W d1) l2 (splat W d2) 0 0 Hty Hty eq_refl Hl1 Hl2 (Hsp d1) (Hsp d2) Hl ltac:(lia) ltac:(lia) ltac:(lia))
    as (Hz & vs1 & r1 & vs2 & r2 & s' & He & [Hc1 Hc1'] & [Hc2 Hc2'] & Hv & Hr & Hlt & _).
  fold W in Hc1, Hc2, Hlt. cbn [Z.to_nat skipn] in Hc1', Hc2'.
  split; [exact Hz|]. match goal with |- context [simd_reduce _ _ _ _ ?F] => set (func := F) end.
  assert (Hlv : zlen l1 = W * zlen vs1 + zlen r1) by (rewrite <- Hc1', zlen_app, (concat_zlen W vs1 Hc1); reflexivity).
  pose proof (zlen_nonneg vs1) as Hv0. pose proof (zlen_nonneg r1) as Hr0.
  eexists. eexists. split; [unfold st, simd_iter; apply (emits_reduce _ _ _ _ _ He)|].
  { rewrite combine_length. pose proof (chunked_length ty l1 Hty vs1 r1 (conj Hc1 Hc1')). lia. }
  set (tl := match tail_of (splat W d1) r1 with Some (p, n) => Some (p, right_aligned (splat W d2) r2, n) | None => None end).
  assert (Hra : forall (x : Z) (r : list Z), length r = length r1 -> zlen (right_aligned (splat W x) r) = W).
  { intros x r E. rewrite right_aligned_len; [apply Hsp|]. rewrite Hsp. unfold zlen in *. lia. }
  destruct (fold_contrib t W (fun p => zlen (fst p) = W /\ zlen (snd p) = W) func (fun p => total (map2 Z.mul (fst p) (snd p)))) with (args := visited (combine vs1 vs2) tl) (acc := splat W 0) as [G1 G2].
  - intros a v [Ha1 Ha2] [Hv1 Hv2]. unfold func.
    assert (Hp : zlen (map2 (fun x y => wrap t (x * y)) (fst v) (snd v)) = W) by (unfold zlen in *; rewrite map2_length by lia; exact Hv1).
    split; [apply map2_add_in; assumption|]. eapply cong_trans; [apply total_map2; unfold zlen in *; lia|]. apply cong_add; [apply cong_refl|]. apply total_products.
  - apply splat_in; [lia|]. apply zero_in. exact Ht.
  - unfold visited. apply Forall_app. split.
    + clear -Hc1 Hc2. revert vs2 Hc2. induction Hc1 as [|v vs1 Hv Hc1 IH]; intros vs2 Hc2; [constructor|]. destruct Hc2 as [|u vs2 Hu Hc2]; [constructor|]. constructor; [split; assumption|]. apply IH. exact Hc2.
    + unfold tl, tail_of. destruct r1 as [|x r1]; constructor; [|constructor]. cbn [fst snd]. split; apply Hra; [reflexivity|symmetry; exact Hr].
  - split; [exact G1|]. eapply cong_trans; [exact G2|].
    assert (E : total (splat W 0) + total (map (fun p => total (map2 Z.mul (fst p) (snd p))) (visited (combine vs1 vs2) tl)) =
                total (map2 Z.mul l1 l2) + d1 * d2 * (W * ((zlen l1 + W - 1) / W) - zlen l1)); [|rewrite E; apply cong_refl].
    unfold splat. rewrite total_repeat, Z.mul_0_l, Z.add_0_l. unfold visited. rewrite map_app, total_app, (products_pairs W) by assumption.
    rewrite <- Hc1' at 1. rewrite <- Hc2', map2_app, total_app, <- Z.add_assoc.
    2:{ pose proof (concat_zlen W vs1 Hc1). pose proof (concat_zlen W vs2 Hc2). unfold zlen in *. lia. }
    f_equal. unfold tl, tail_of. destruct r1 as [|x r1].
    + destruct r2; [|discriminate]. cbn [map map2 total fold_right]. replace ((zlen l1 + W - 1) / W) with (zlen vs1); [change (zlen (@nil Z)) with 0 in Hlv; lia|].
      change (zlen (@nil Z)) with 0 in Hlv. apply Z.div_unique with (r := W - 1); lia.
    + cbn [map]. replace ((zlen l1 + W - 1) / W) with (zlen vs1 + 1) by (rewrite zlen_cons in *; pose proof (zlen_nonneg r1); apply Z.div_unique with (r := zlen r1); lia).
      cbn [fst snd]. unfold right_aligned, splat. rewrite !firstn_repeat.
      assert (Hn : forall r : list Z, length r = length (x :: r1) -> Nat.min (length (repeat d1 (Z.to_nat W)) - length r) (Z.to_nat W) = Z.to_nat (W - zlen (x :: r1))) by (intros r E; rewrite repeat_length; unfold zlen; lia).
      assert (Hn2 : Nat.min (length (repeat d2 (Z.to_nat W)) - length r2) (Z.to_nat W) = Z.to_nat (W - zlen (x :: r1))) by (rewrite repeat_length, <- Hr; unfold zlen; lia).
      rewrite (Hn (x :: r1) eq_refl), Hn2, map2_app, total_app by (rewrite !repeat_length; reflexivity).
      assert (Hrep : forall n, map2 Z.mul (repeat d1 n) (repeat d2 n) = repeat (d1 * d2) n) by (induction n as [|n IH]; [reflexivity|]; cbn; f_equal; exact IH).
      rewrite Hrep, total_repeat. cbn [total fold_right]. fold (total (map2 Z.mul (x :: r1) r2)). rewrite Hlv. lia.
Qed.

Lemma c72_inner_product : forall (fadd : elty -> Z -> Z -> Z) (b : bool) (t : ity) (l1 l2 : list Z) (d1 d2 : Z) (fuel : nat),
  let c := mkConfig Release b in
  let rest ty := rest_one (blanket_unsafe c (si_array (slice_array c ty)) (si_iterable c (slice_array c ty))) in
  let reduce ty := bind (zip (slice_iterator c ty) (rest ty) (simd_iter l1 (splat (WIDTH ty) d1), simd_iter l2 (splat (WIDTH ty) d2)))
                     (fun st => simd_reduce (zip_iterator (slice_iterator c ty) (rest ty)) fuel st (splat (WIDTH ty) 0)
                       (fun acc p => map2 (fun x y => wrap t (x + y)) acc (map2 (fun x y => wrap t (x * y)) (fst p) (snd p)))) in
  let lanes ty := WIDTH ty * ((zlen l1 + WIDTH ty - 1) / WIDTH ty) in
  let inner := total (map (fun p => fst p * snd p) (combine l1 l2)) in
  let result ty r := in_ity t r /\ exists m, r = inner + d1 * d2 * (lanes ty - zlen l1) + m * imod t in
  (0 < ibytes t)%nat -> (length l1 < fuel)%nat -> zlen l1 = zlen l2 ->
  (forall s, In s (x86_sum ++ unknown_sum) -> s_el s = EInt t -> slice_ok (s_ty s) l1 -> slice_ok (s_ty s) l2 ->
   exists acc s' r, reduce (s_ty s) = Ok (acc, s') /\ sum_portable fadd c s acc = Ok r /\ result (s_ty s) r) /\
  (forall x, In x x86_sum_optimized -> xs_el x = EInt t -> slice_ok (xs_ty x) l1 -> slice_ok (xs_ty x) l2 ->
   exists acc s' r, reduce (xs_ty x) = Ok (acc, s') /\ sum_optimized c x acc = Ok r /\ result (xs_ty x) r).
Proof.
  intros fadd b t l1 l2 d1 d2 fuel c rest reduce lanes inner result Ht Hf Hl. destruct sum_types as [T1 T2].
  assert (Hin : inner = total (map2 Z.mul l1 l2)).
  { unfold inner. f_equal. clear. revert l2. induction l1 as [|x l1 IH]; intros [|y l2]; cbn; [reflexivity..|]. f_equal. apply IH. }
  assert (Hres : forall ty x, x = inner + d1 * d2 * (lanes ty - zlen l1) -> result ty (wrap t x)).
  { intros ty x ->. split; [apply wrap_in; exact Ht|]. destruct (wrap_cong t (inner + d1 * d2 * (lanes ty - zlen l1))) as [m Hm]. exists m. exact Hm. }
  split; intros s Hs He Hl1 Hl2.
  - destruct (reduce_products c t (s_ty s) l1 l2 d1 d2 fuel (T1 s Hs) Ht Hl1 Hl2 Hl Hf) as (Hz & acc & s' & Hred & Hacc & Hcong). rewrite <- Hin in Hcong.
    exists acc, s', (wrap t (inner + d1 * d2 * (lanes (s_ty s) - zlen l1))). split; [unfold reduce, rest; rewrite Hz; exact Hred|]. split; [|apply Hres; reflexivity].
    destruct (sums_of t fadd b (inner + d1 * d2 * (lanes (s_ty s) - zlen l1)) Ht) as [S _]. exact (S s acc Hs He Hacc Hcong).
  - destruct (reduce_products c t (xs_ty s) l1 l2 d1 d2 fuel (T2 s Hs) Ht Hl1 Hl2 Hl Hf) as (Hz & acc & s' & Hred & Hacc & Hcong). rewrite <- Hin in Hcong.
    exists acc, s', (wrap t (inner + d1 * d2 * (lanes (xs_ty s) - zlen l1))). split; [unfold reduce, rest; rewrite Hz; exact Hred|]. split; [|apply Hres; reflexivity].
    destruct (sums_of t fadd b (inner + d1 * d2 * (lanes (xs_ty s) - zlen l1)) Ht) as [_ S]. exact (S s acc Hs He Hacc Hcong).
Qed.
