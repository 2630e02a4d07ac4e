(** Proofs of the properties: laws of chained maps (C79). *)
From Verif Require Import Base Spec Vecs Iters Zip CollectSpec LawSpec.
From Coq Require Import Lia ZifyBool ZifyNat.
From Verif Require Import ListFacts VecFacts IterFacts CollectFacts MapFacts ZipFacts CollectProofs.
Ltac Zify.zify_post_hook ::= Z.div_mod_to_equations.

(* [it1] does in state [phi s] what [it2] does in state [s] *)
Record simulates {V I J : Type} (it1 : SIMDIterator V J) (it2 : SIMDIterator V I) (phi : I -> J) : Prop := {
  sim_ty : it_ty (itb it1) = it_ty (itb it2);
  sim_len : forall s, it_len (itb it1) (phi s) = it_len (itb it2) s;
  sim_next : forall s, it_next (itb it1) (phi s) = with_state phi (it_next (itb it2) s);
  sim_end : forall s, it_end it1 (phi s) = with_state phi (it_end it2 s)
}.

Lemma sim_store_loop {A X I J : Type} c (it1 : SIMDIterator (list A) J) (it2 : SIMDIterator (list A) I) phi (inj : A -> X) :
  simulates it1 it2 phi -> forall fuel s buf offset lastvec,
  store_loop c it1 inj fuel (phi s) buf offset lastvec =
  let! q := store_loop c it2 inj fuel s buf offset lastvec in Ok (phi (fst (fst (fst q))), snd (fst (fst q)), snd (fst q), snd q).
Proof.
  intros [Hty Hlen Hnext Hend]. induction fuel as [|fuel IH]; intros s buf offset lastvec; [reflexivity|].
  cbn [store_loop]. rewrite Hnext, Hty. destruct (it_next (itb it2) s) as [[[v|] s']| | |]; cbn [with_state bind fst snd]; try reflexivity.
  destruct (store_unchecked c (WIDTH (it_ty (itb it2))) (map inj v) buf offset) as [buf'| | |]; cbn [bind]; try reflexivity.
  destruct (uadd c offset (WIDTH (it_ty (itb it2)))) as [o'| | |]; cbn [bind]; try reflexivity. apply IH.
Qed.

Lemma sim_store_tail {A X I J : Type} c (it1 : SIMDIterator (list A) J) (it2 : SIMDIterator (list A) I) (inj : A -> X) :
  it_ty (itb it1) = it_ty (itb it2) -> forall buf offset lastvec p n,
  store_tail c it1 inj buf offset lastvec p n = store_tail c it2 inj buf offset lastvec p n.
Proof. intros H buf offset lastvec p n. unfold store_tail. rewrite H. reflexivity. Qed.

Lemma sim_collect {A I J : Type} c (it1 : SIMDIterator (list A) J) (it2 : SIMDIterator (list A) I) phi d0 :
  simulates it1 it2 phi -> forall fuel s, scalar_collect c it1 d0 fuel (phi s) = with_state phi (scalar_collect c it2 d0 fuel s).
Proof.
  intros Hs fuel s. pose proof (sim_store_loop c it1 it2 phi Some Hs) as Hloop. pose proof (sim_store_tail c it1 it2 (@Some A) (sim_ty _ _ _ Hs)) as Htail.
  destruct Hs as [Hty Hlen Hnext Hend]. unfold scalar_collect, with_capacity. rewrite Hlen, Hty.
  destruct (it_len (itb it2) s) as [l| | |]; cbn [bind with_state]; try reflexivity.
  destruct (uadd c l 1) as [l1| | |]; cbn [bind with_state]; try reflexivity.
  destruct (umul c l1 _) as [cap| | |]; cbn [bind with_state]; try reflexivity.
  destruct (_ <=? isize_max); cbn [bind with_state]; try reflexivity.
  rewrite Hloop. destruct (store_loop c it2 Some fuel s _ 0 _) as [[[[s1 b] o] lv]| | |]; cbn [bind with_state fst snd]; try reflexivity.
  rewrite Hend. destruct (it_end it2 s1) as [[[[p n]|] s2]| | |]; cbn [bind with_state fst snd]; try reflexivity.
  - rewrite Htail. destruct (store_tail c it2 Some b o lv p n) as [b2| | |]; cbn [bind with_state]; try reflexivity.
    destruct (uadd c _ o) as [a| | |]; cbn [bind with_state]; try reflexivity.
    destruct (usub c a n) as [nl| | |]; cbn [bind with_state]; try reflexivity.
    destruct (set_len b2 nl) as [out| | |]; reflexivity.
  - rewrite Hlen. destruct (it_len (itb it2) s2) as [l2| | |]; cbn [bind with_state]; try reflexivity.
    destruct (umul c l2 _) as [nl| | |]; cbn [bind with_state]; try reflexivity.
    destruct (set_len b nl) as [out| | |]; reflexivity.
Qed.

Lemma sim_fill {A I J : Type} c (it1 : SIMDIterator (list A) J) (it2 : SIMDIterator (list A) I) phi d0 :
  simulates it1 it2 phi -> forall fuel s buf, scalar_fill c it1 d0 fuel (phi s) buf = with_state phi (scalar_fill c it2 d0 fuel s buf).
Proof.
  intros Hs fuel s buf. pose proof (sim_store_loop c it1 it2 phi (fun x => x) Hs) as Hloop. pose proof (sim_store_tail c it1 it2 (fun x : A => x) (sim_ty _ _ _ Hs)) as Htail.
  destruct Hs as [Hty Hlen Hnext Hend]. unfold scalar_fill. rewrite Hloop, Hty.
  destruct (store_loop c it2 _ fuel s _ 0 _) as [[[[s1 b] o] lv]| | |]; cbn [bind with_state fst snd]; try reflexivity.
  rewrite Hend. destruct (it_end it2 s1) as [[[[p n]|] s2]| | |]; cbn [bind with_state fst snd]; try reflexivity.
  rewrite Htail. destruct (store_tail c it2 _ b o lv p n) as [b2| | |]; reflexivity.
Qed.

Lemma sim_fill_all {A X I J : Type} c (it1 : SIMDIterator (list A) J) (it2 : SIMDIterator (list A) I) phi d0 (inj : A -> X) :
  simulates it1 it2 phi -> forall fuel s buf, fill_all c it1 d0 inj fuel (phi s) buf = with_state phi (fill_all c it2 d0 inj fuel s buf).
Proof.
  intros Hs fuel s buf. pose proof (sim_store_loop c it1 it2 phi inj Hs) as Hloop.
  destruct Hs as [Hty Hlen Hnext Hend]. unfold fill_all. rewrite Hloop, Hty.
  destruct (store_loop c it2 _ fuel s _ 0 _) as [[[[s1 b] o] lv]| | |]; cbn [bind with_state fst snd]; try reflexivity.
  rewrite Hend. destruct (it_end it2 s1) as [[[[p n]|] s2]| | |]; cbn [bind with_state fst snd]; try reflexivity.
  destruct (store_unchecked c _ _ b o) as [b2| | |]; reflexivity.
Qed.

Lemma sim_collect_all {A I J : Type} c (it1 : SIMDIterator (list A) J) (it2 : SIMDIterator (list A) I) phi d0 :
  simulates it1 it2 phi -> forall fuel s, scalar_collect_all c it1 d0 fuel (phi s) = with_state phi (scalar_collect_all c it2 d0 fuel s).
Proof.
  intros Hs fuel s. pose proof (sim_fill_all c it1 it2 phi d0 Some Hs) as Hfill.
  destruct Hs as [Hty Hlen Hnext Hend]. unfold scalar_collect_all, with_capacity. rewrite Hlen, Hty.
  destruct (it_len (itb it2) s) as [l| | |]; cbn [bind with_state]; try reflexivity.
  destruct (uadd c l 1) as [l1| | |]; cbn [bind with_state]; try reflexivity.
  destruct (umul c l1 _) as [cap| | |]; cbn [bind with_state]; try reflexivity.
  destruct (_ <=? isize_max); cbn [bind with_state]; try reflexivity.
  destruct (set_len _ l) as [r| | |]; cbn [bind with_state]; try reflexivity. apply Hfill.
Qed.

Lemma sim_reduce {V I J B : Type} (it1 : SIMDIterator V J) (it2 : SIMDIterator V I) phi :
  simulates it1 it2 phi -> forall fuel s (start : B) func, simd_reduce it1 fuel (phi s) start func = with_state phi (simd_reduce it2 fuel s start func).
Proof.
  intros [Hty Hlen Hnext Hend] fuel s start func.
  assert (Hloop : forall fuel s start, reduce_loop it1 fuel (phi s) start func = with_state phi (reduce_loop it2 fuel s start func)).
  { induction fuel0 as [|k IH]; intros s0 start0; [reflexivity|]. cbn [reduce_loop]. rewrite Hnext.
    destruct (it_next (itb it2) s0) as [[[v|] s']| | |]; cbn [with_state bind fst snd]; try reflexivity. apply IH. }
  unfold simd_reduce. rewrite Hloop. destruct (reduce_loop it2 fuel s start func) as [[a s1]| | |]; cbn [with_state bind fst snd]; try reflexivity.
  rewrite Hend. destruct (it_end it2 s1) as [[[[p n]|] s2]| | |]; reflexivity.
Qed.

Lemma sim_do_each {V I J E : Type} (it1 : SIMDIterator V J) (it2 : SIMDIterator V I) phi :
  simulates it1 it2 phi -> forall fuel s (env : E) func, simd_do_each it1 fuel (phi s) env func = with_state phi (simd_do_each it2 fuel s env func).
Proof.
  intros [Hty Hlen Hnext Hend] fuel s env func.
  assert (Hloop : forall fuel s env, do_each_loop it1 fuel (phi s) env func = with_state phi (do_each_loop it2 fuel s env func)).
  { induction fuel0 as [|k IH]; intros s0 env0; [reflexivity|]. cbn [do_each_loop]. rewrite Hnext.
    destruct (it_next (itb it2) s0) as [[[v|] s']| | |]; cbn [with_state bind fst snd]; try reflexivity. apply IH. }
  unfold simd_do_each. rewrite Hloop. destruct (do_each_loop it2 fuel s env func) as [[a s1]| | |]; cbn [with_state bind fst snd]; try reflexivity.
  rewrite Hend. destruct (it_end it2 s1) as [[[[p n]|] s2]| | |]; reflexivity.
Qed.

Lemma uarith_range c z r : uarith c z = Ok r -> 0 <= r < usize_mod.
Proof.
  unfold uarith. destruct ((0 <=? z) && (z <? usize_mod)) eqn:E; [intros H; injection H as <-; lia|].
  destruct (build c); [discriminate|]. intros H. injection H as <-. apply Z.mod_pos_bound. unfold usize_mod. lia.
Qed.

Lemma uarith_multiple c k z r : In k [1; 2; 4; 8] -> uarith c (z * k) = Ok r -> r = k * (r / k).
Proof.
  intros Hk. assert (Hm : (k | r) -> r = k * (r / k)).
  { intros Hd. assert (k <> 0) by (cbn in Hk; lia). apply Z_div_exact_full_2; [assumption|]. apply Z.mod_divide; assumption. }
  unfold uarith. destruct ((0 <=? z * k) && (z * k <? usize_mod)).
  - intros H. apply Hm. injection H as <-. exists z. reflexivity.
  - destruct (build c); [discriminate|]. intros H. apply Hm. injection H as <-.
    rewrite Z.mod_eq by (unfold usize_mod; lia). apply Z.divide_sub_r; [exists z; reflexivity|].
    apply Z.divide_mul_l. unfold usize_mod. cbn in Hk. destruct Hk as [<-|[<-|[<-|[<-|[]]]]]; [exists (2^64)|exists (2^63)|exists (2^62)|exists (2^61)]; reflexivity.
Qed.

(* rescaling the tail count through a middle size *)
Lemma rescale_twice c n a m b : In a [1; 2; 4; 8] -> In m [1; 2; 4; 8] -> In b [1; 2; 4; 8] -> m <= a \/ m <= b ->
  (let! x := umul c n a in let! k := udiv x m in let! y := umul c k m in udiv y b) = (let! x := umul c n a in udiv x b).
Proof.
  intros Ha Hm Hb Hor. unfold umul at 1 3. destruct (uarith c (n * a)) as [x| | |] eqn:Ex; cbn [bind]; try reflexivity.
  pose proof (uarith_range _ _ _ Ex) as Hx. pose proof (uarith_multiple c a n x Ha Ex) as Hxa.
  assert (Hm0 : 0 < m) by (cbn in Hm; lia). assert (Hb0 : 0 < b) by (cbn in Hb; lia).
  unfold udiv at 1. replace (m =? 0) with false by lia. cbn [bind]. unfold umul.
  assert (Hle : 0 <= x / m * m <= x) by (pose proof (Z.mul_div_le x m Hm0); pose proof (Z.div_pos x m ltac:(lia) Hm0); split; [apply Z.mul_nonneg_nonneg; lia|rewrite Z.mul_comm; assumption]).
  unfold uarith. replace ((0 <=? x / m * m) && (x / m * m <? usize_mod)) with true by lia. cbn [bind].
  unfold udiv. replace (b =? 0) with false by lia. f_equal.
  clear Hle Ex. cbn in Ha, Hm, Hb. destruct Hm as [<-|[<-|[<-|[<-|[]]]]]; destruct Ha as [<-|[<-|[<-|[<-|[]]]]]; destruct Hb as [<-|[<-|[<-|[<-|[]]]]]; lia.
Qed.

Lemma fused_simulates {V B C I E1 E2 : Type} c (it : SIMDIterator V I) mid_ty out_ty (b0 : B) (d0 : C)
    (f : E1 -> V -> list B * E1) (g : E2 -> list B -> list C * E2) (m1 : SIMDIterator (list B) (SIMDMap I E1)) (m2 : SIMDIterator (list C) (SIMDMap I (E1 * E2))) :
  In (SIZE (it_ty (itb it))) [1; 2; 4; 8] -> In (SIZE mid_ty) [1; 2; 4; 8] -> In (SIZE out_ty) [1; 2; 4; 8] ->
  SIZE mid_ty <= SIZE (it_ty (itb it)) \/ SIZE mid_ty <= SIZE out_ty ->
  m1 = map_iterator c it mid_ty b0 f /\ m2 = map_iterator c it out_ty d0 (composed f g) \/
  m1 = zipmap_iterator c it mid_ty b0 f /\ m2 = zipmap_iterator c it out_ty d0 (composed f g) ->
  simulates (map_iterator c m1 out_ty d0 g) m2 twice_mapped.
Proof.
  intros Ha Hm Hb Hor Hk.
  assert (Hend : forall s : SIMDMap I (E1 * E2), sm_end c m1 out_ty g (twice_mapped s) = with_state twice_mapped (sm_end c it out_ty (composed f g) s)).
  { intros [s [e1 e2]]. unfold sm_end at 1. cbn [twice_mapped sm_iter sm_env fst snd].
    assert (He1 : it_end m1 = sm_end c it mid_ty f) by (destruct Hk as [[-> ->]|[-> ->]]; reflexivity).
    assert (Ht1 : it_ty (itb m1) = mid_ty) by (destruct Hk as [[-> ->]|[-> ->]]; reflexivity).
    rewrite He1, Ht1. unfold sm_end. cbn [sm_iter sm_env].
    destruct (it_end it s) as [[[[v n]|] s']| | |]; cbn [bind with_state fst snd]; try reflexivity.
    pose proof (rescale_twice c n _ _ _ Ha Hm Hb Hor) as Hr.
    destruct (umul c n (SIZE (it_ty (itb it)))) as [x| | |]; cbn [bind] in *; try reflexivity.
    assert (Hm0 : SIZE mid_ty <> 0) by (cbn in Hm; lia). assert (Hb0 : SIZE out_ty <> 0) by (cbn in Hb; lia).
    unfold udiv in *. replace (SIZE mid_ty =? 0) with false in * by lia. replace (SIZE out_ty =? 0) with false in * by lia. cbn [bind] in *.
    unfold composed. cbn [fst snd]. destruct (f e1 v) as [y e1']. cbn [bind fst snd].
    destruct (umul c (x / SIZE mid_ty) (SIZE mid_ty)) as [z| | |]; cbn [bind] in *; try discriminate. injection Hr as ->.
    destruct (g e2 y) as [w e2']. reflexivity. }
  assert (Hnext : forall s : SIMDMap I (E1 * E2), sm_next m1 g (twice_mapped s) = with_state twice_mapped (sm_next it (composed f g) s)).
  { intros [s [e1 e2]]. unfold sm_next at 1. cbn [twice_mapped sm_iter sm_env fst snd].
    assert (Hn1 : it_next (itb m1) = sm_next it f) by (destruct Hk as [[-> ->]|[-> ->]]; reflexivity).
    rewrite Hn1. unfold sm_next. cbn [sm_iter sm_env].
    destruct (it_next (itb it) s) as [[[v|] s']| | |]; cbn [bind with_state fst snd]; try reflexivity.
    unfold composed. cbn [fst snd]. destruct (f e1 v) as [y e1']. cbn [bind fst snd]. destruct (g e2 y) as [w e2']. reflexivity. }
  destruct Hk as [[-> ->]|[-> ->]]; constructor; try reflexivity; try exact Hend; try exact Hnext.
Qed.

Lemma c79_fusion_partial : forall (V B C I E1 E2 : Type) (c : config) (it : SIMDIterator V I) (mid_ty out_ty : vty) (b0 : B) (d0 : C)
    (f : E1 -> V -> list B * E1) (g : E2 -> list B -> list C * E2) (s : I) (e1 : E1) (e2 : E2) (fuel : nat),
  In (SIZE (it_ty (itb it))) [1; 2; 4; 8] -> In (SIZE mid_ty) [1; 2; 4; 8] -> In (SIZE out_ty) [1; 2; 4; 8] ->
  SIZE mid_ty <= SIZE (it_ty (itb it)) \/ SIZE mid_ty <= SIZE out_ty ->
  let chain := map_iterator c (map_iterator c it mid_ty b0 f) out_ty d0 g in
  let once := map_iterator c it out_ty d0 (composed f g) in
  let st := mkSIMDMap (mkSIMDMap s e1) e2 in
  let st1 := mkSIMDMap s (e1, e2) in
  scalar_collect c chain d0 fuel st = with_state twice_mapped (scalar_collect c once d0 fuel st1) /\
  scalar_collect_all c chain d0 fuel st = with_state twice_mapped (scalar_collect_all c once d0 fuel st1) /\
  (forall buf, scalar_fill c chain d0 fuel st buf = with_state twice_mapped (scalar_fill c once d0 fuel st1 buf)) /\
  (forall buf, scalar_fill_all c chain d0 fuel st buf = with_state twice_mapped (scalar_fill_all c once d0 fuel st1 buf)) /\
  (forall (R : Type) (start : R) func, simd_reduce chain fuel st start func = with_state twice_mapped (simd_reduce once fuel st1 start func)) /\
  (forall (R : Type) (env : R) func, simd_do_each chain fuel st env func = with_state twice_mapped (simd_do_each once fuel st1 env func)) /\
  (forall h, run_ops chain st h = with_state twice_mapped (run_ops once st1 h)).
Proof.
  intros V B C I E1 E2 c it mid_ty out_ty b0 d0 f g s e1 e2 fuel Ha Hm Hb Hor chain once st st1.
  assert (Hs : simulates chain once twice_mapped) by (apply (fused_simulates c it mid_ty out_ty b0 d0 f g); try assumption; left; split; reflexivity).
  change st with (twice_mapped st1). repeat split; intros.
  - apply sim_collect. exact Hs.
  - apply sim_collect_all. exact Hs.
  - apply sim_fill. exact Hs.
  - apply sim_fill_all. exact Hs.
  - apply sim_reduce. exact Hs.
  - apply sim_do_each. exact Hs.
  - generalize st1. clear st st1. induction h as [|o h IH]; intros st; [reflexivity|]. cbn [run_ops].
    assert (Ho : forall o, (match o with INext => it_next (itb chain) (twice_mapped st) | IEnd => let! r := it_end chain (twice_mapped st) in
        Ok (match fst r with Some (v, _) => Some v | None => None end, snd r) | IAdvance a => let! s' := it_advance (itb chain) (twice_mapped st) a in Ok (None, s') end) =
      with_state twice_mapped (match o with INext => it_next (itb once) st | IEnd => let! r := it_end once st in
        Ok (match fst r with Some (v, _) => Some v | None => None end, snd r) | IAdvance a => let! s' := it_advance (itb once) st a in Ok (None, s') end)).
    { intros [| |a].
      - apply (sim_next _ _ _ Hs).
      - rewrite (sim_end _ _ _ Hs). destruct (it_end once st) as [[r s']| | |]; reflexivity.
      - destruct st as [s0 [a1 a2]]. cbn. unfold sm_advance. cbn. unfold sm_advance. cbn. destruct (it_advance (itb it) s0 a); reflexivity. }
    rewrite Ho. destruct (match o with INext => _ | IEnd => _ | IAdvance a => _ end) as [[r s']| | |]; cbn [with_state bind fst snd]; try reflexivity.
    rewrite IH. destruct (run_ops once s' h) as [[q s'']| | |]; reflexivity.
Qed.

Lemma c79_zip_fusion_partial : forall (V B C I E1 E2 : Type) (c : config) (it : SIMDIterator V I) (mid_ty out_ty : vty) (b0 : B) (d0 : C)
    (f : E1 -> V -> list B * E1) (g : E2 -> list B -> list C * E2) (s : I) (e1 : E1) (e2 : E2) (fuel : nat),
  In (SIZE (it_ty (itb it))) [1; 2; 4; 8] -> In (SIZE mid_ty) [1; 2; 4; 8] -> In (SIZE out_ty) [1; 2; 4; 8] ->
  SIZE mid_ty <= SIZE (it_ty (itb it)) \/ SIZE mid_ty <= SIZE out_ty ->
  let chain := map_iterator c (zipmap_iterator c it mid_ty b0 f) out_ty d0 g in
  let once := zipmap_iterator c it out_ty d0 (composed f g) in
  let st := mkSIMDMap (mkSIMDMap s e1) e2 in
  let st1 := mkSIMDMap s (e1, e2) in
  scalar_collect c chain d0 fuel st = with_state twice_mapped (scalar_collect c once d0 fuel st1) /\
  scalar_collect_all c chain d0 fuel st = with_state twice_mapped (scalar_collect_all c once d0 fuel st1) /\
  (forall buf, scalar_fill c chain d0 fuel st buf = with_state twice_mapped (scalar_fill c once d0 fuel st1 buf)) /\
  (forall buf, scalar_fill_all c chain d0 fuel st buf = with_state twice_mapped (scalar_fill_all c once d0 fuel st1 buf)) /\
  (forall (R : Type) (start : R) func, simd_reduce chain fuel st start func = with_state twice_mapped (simd_reduce once fuel st1 start func)) /\
  (forall (R : Type) (env : R) func, simd_do_each chain fuel st env func = with_state twice_mapped (simd_do_each once fuel st1 env func)).
Proof.
  intros V B C I E1 E2 c it mid_ty out_ty b0 d0 f g s e1 e2 fuel Ha Hm Hb Hor chain once st st1.
  assert (Hs : simulates chain once twice_mapped) by (apply (fused_simulates c it mid_ty out_ty b0 d0 f g); try assumption; right; split; reflexivity).
  change st with (twice_mapped st1). repeat split; intros.
  - apply sim_collect. exact Hs.
  - apply sim_collect_all. exact Hs.
  - apply sim_fill. exact Hs.
  - apply sim_fill_all. exact Hs.
  - apply sim_reduce. exact Hs.
  - apply sim_do_each. exact Hs.
Qed.

Lemma drain_inv {V I : Type} (it : SIMDIterator V I) : forall fuel s vs t s', drain it fuel s = Ok (vs, t, s') ->
  exists s1, drain_next it fuel s = Ok (vs, s1) /\ it_end it s1 = Ok (t, s').
Proof.
  intros fuel s vs t s' H. unfold drain in H. destruct (drain_next it fuel s) as [[vs1 s1]| | |]; cbn in H; try discriminate.
  destruct (it_end it s1) as [[t1 s2]| | |] eqn:E; cbn in H; try discriminate. injection H as <- <- <-. exists s1. split; [reflexivity|exact E].
Qed.

Lemma drain_next_step {V I : Type} (it : SIMDIterator V I) : forall fuel s vs s1, drain_next it (S fuel) s = Ok (vs, s1) ->
  (exists v s2 vs2, it_next (itb it) s = Ok (Some v, s2) /\ vs = v :: vs2 /\ drain_next it fuel s2 = Ok (vs2, s1)) \/
  it_next (itb it) s = Ok (None, s1) /\ vs = [].
Proof.
  intros fuel s vs s1 H. cbn [drain_next] in H. destruct (it_next (itb it) s) as [[[v|] s2]| | |]; cbn [bind] in H; try discriminate.
  - left. destruct (drain_next it fuel s2) as [[vs2 s3]| | |] eqn:E; cbn in H; try discriminate. injection H as <- <-. exists v, s2, vs2. repeat split. exact E.
  - right. injection H as <- <-. split; reflexivity.
Qed.

Lemma run_closure_cons {E X Y : Type} (f : E -> X -> Y * E) e x xs : snd (run_closure f e (x :: xs)) = snd (run_closure f (snd (f e x)) xs).
Proof. cbn [run_closure]. destruct (f e x) as [y e']. cbn [snd]. destruct (run_closure f e' xs); reflexivity. Qed.

Lemma identity_loop {A X I E : Type} c (it : SIMDIterator (list A) I) d0 (inj : A -> X) (f : E -> list A -> list A * E) : (forall e v, fst (f e v) = v) ->
  forall fuel s e buf offset lastvec vs s1, drain_next it fuel s = Ok (vs, s1) ->
  store_loop c (map_iterator c it (it_ty (itb it)) d0 f) inj fuel (mkSIMDMap s e) buf offset lastvec =
  (let! q := store_loop c it inj fuel s buf offset lastvec in Ok (mkSIMDMap s1 (snd (run_closure f e vs)), snd (fst (fst q)), snd (fst q), snd q)) /\
  forall q, store_loop c it inj fuel s buf offset lastvec = Ok q -> fst (fst (fst q)) = s1.
Proof.
  intros Hf. induction fuel as [|fuel IH]; intros s e buf offset lastvec vs s1 Hd; [discriminate|].
  destruct (drain_next_step it fuel s vs s1 Hd) as [(v & s2 & vs2 & Hn & -> & Hd2)|[Hn ->]].
  - rewrite run_closure_cons. cbn [store_loop map_iterator itb sm_iterable it_next it_ty]. unfold sm_next. cbn [sm_iter sm_env]. rewrite Hn. cbn [bind].
    pose proof (Hf e v) as Hv. destruct (f e v) as [y e']. cbn [fst snd] in *. subst y. cbn [bind].
    destruct (store_unchecked c (WIDTH (it_ty (itb it))) (map inj v) buf offset) as [buf'| | |]; cbn [bind]; try (split; [reflexivity|discriminate]).
    destruct (uadd c offset (WIDTH (it_ty (itb it)))) as [o'| | |]; cbn [bind]; try (split; [reflexivity|discriminate]).
    exact (IH s2 e' buf' o' v vs2 s1 Hd2).
  - cbn [store_loop map_iterator itb sm_iterable it_next it_ty]. unfold sm_next. cbn [sm_iter sm_env]. rewrite Hn. cbn.
    split; [reflexivity|]. intros q Hq. injection Hq as <-. reflexivity.
Qed.

Lemma identity_end {A I E : Type} c (it : SIMDIterator (list A) I) d0 (f : E -> list A -> list A * E) s1 t s' e : (forall e v, fst (f e v) = v) ->
  0 < SIZE (it_ty (itb it)) -> it_end it s1 = Ok (t, s') -> (forall p n, t = Some (p, n) -> 0 <= n * SIZE (it_ty (itb it)) < usize_mod) ->
  it_end (map_iterator c it (it_ty (itb it)) d0 f) (mkSIMDMap s1 e) = Ok (t, mkSIMDMap s' (match t with Some (p, _) => snd (f e p) | None => e end)).
Proof.
  intros Hf Hs He Hfit. cbn [map_iterator it_end]. unfold sm_end. cbn [sm_iter sm_env]. rewrite He. cbn [bind].
  destruct t as [[p n]|]; [|reflexivity]. specialize (Hfit p n eq_refl). unfold umul, uarith.
  replace ((0 <=? n * SIZE (it_ty (itb it))) && (n * SIZE (it_ty (itb it)) <? usize_mod)) with true by lia. cbn [bind].
  unfold udiv. replace (SIZE (it_ty (itb it)) =? 0) with false by lia. cbn [bind]. rewrite Z.div_mul by lia.
  pose proof (Hf e p) as Hp. destruct (f e p) as [y e']. cbn [fst snd] in *. subst y. reflexivity.
Qed.

Lemma c79_identity : forall (A I E : Type) (c : config) (it : SIMDIterator (list A) I) (d0 : A) (f : E -> list A -> list A * E) (s s' : I) (e : E)
    (fuel : nat) (vs : list (list A)) (t : option (list A * Z)),
  let ty := it_ty (itb it) in
  (forall e v, fst (f e v) = v) -> 0 < SIZE ty ->
  drain it fuel s = Ok (vs, t, s') -> (forall p n, t = Some (p, n) -> 0 <= n * SIZE ty < 2 ^ 64) ->
  let m := map_iterator c it ty d0 f in
  let final := fun s' => mkSIMDMap s' (snd (run_closure f e (visited vs t))) in
  scalar_collect c m d0 fuel (mkSIMDMap s e) = with_state final (scalar_collect c it d0 fuel s) /\
  scalar_collect_all c m d0 fuel (mkSIMDMap s e) = with_state final (scalar_collect_all c it d0 fuel s) /\
  (forall buf, scalar_fill c m d0 fuel (mkSIMDMap s e) buf = with_state final (scalar_fill c it d0 fuel s buf)) /\
  (forall buf, scalar_fill_all c m d0 fuel (mkSIMDMap s e) buf = with_state final (scalar_fill_all c it d0 fuel s buf)).
Proof.
  intros A I E c it d0 f s s' e fuel vs t ty Hf Hs Hdr Hfit m final. change (2 ^ 64) with usize_mod in Hfit. destruct (drain_inv it fuel s vs t s' Hdr) as (s1 & Hd & He).
  set (ev := snd (run_closure f e vs)).
  pose proof (identity_end c it d0 f s1 t s' ev Hf Hs He Hfit) as Hend. fold ty in Hend. fold m in Hend.
  assert (Hfin : forall r, mkSIMDMap r (match t with Some (p, _) => snd (f ev p) | None => ev end) = final r).
  { intros r. unfold final. f_equal. unfold visited. rewrite run_closure_app. cbn [snd]. fold ev. destruct t as [[p n]|]; [|reflexivity]. symmetry. apply (run_closure_cons f ev p []). }
  rewrite Hfin in Hend. clear Hfin.
  assert (Hlen : forall x, it_len (itb m) x = it_len (itb it) (sm_iter x)) by reflexivity.
  assert (Hmt : it_ty (itb m) = it_ty (itb it)) by reflexivity.
  assert (Hloop : forall (X : Type) (inj : A -> X) buf o lv, exists k, store_loop c m inj fuel (mkSIMDMap s e) buf o lv = (let! q := k in Ok (mkSIMDMap s1 ev, fst (fst q), snd (fst q), snd q)) /\
    store_loop c it inj fuel s buf o lv = let! q := k in Ok (s1, fst (fst q), snd (fst q), snd q)).
  { intros X inj buf o lv. destruct (identity_loop c it d0 inj f Hf fuel s e buf o lv vs s1 Hd) as [H1 H2]. fold ev ty in H1. fold m in H1.
    destruct (store_loop c it inj fuel s buf o lv) as [[[[s2 b] o'] lv']| | |]; [|exists Panic; split; [exact H1|reflexivity]|exists UB; split; [exact H1|reflexivity]|exists Fuel; split; [exact H1|reflexivity]].
    exists (Ok (b, o', lv')). split; [exact H1|]. specialize (H2 _ eq_refl). cbn in H2. subst s2. reflexivity. }
  assert (Hst : forall X (inj : A -> X) b o lv p n, store_tail c m inj b o lv p n = store_tail c it inj b o lv p n) by reflexivity.
  assert (Hfa : forall X (inj : A -> X) buf, fill_all c m d0 inj fuel (mkSIMDMap s e) buf = with_state final (fill_all c it d0 inj fuel s buf)).
  { intros X inj buf. unfold fill_all. rewrite Hmt. destruct (Hloop X inj buf 0 (splat (WIDTH (it_ty (itb it))) d0)) as (k & -> & ->).
    destruct k as [[[b o] lv]| | |]; cbn [bind with_state fst snd]; try reflexivity. rewrite Hend, He. cbn [bind].
    destruct t as [[p n]|]; cbn [with_state bind fst snd]; [|reflexivity]. destruct (store_unchecked _ _ _ _ _) as [b2| | |]; reflexivity. }
  repeat split.
  - unfold scalar_collect, with_capacity. rewrite Hlen, Hmt. cbn [sm_iter].
    destruct (it_len (itb it) s) as [l| | |]; cbn [bind with_state]; try reflexivity.
    destruct (uadd c l 1) as [l1| | |]; cbn [bind with_state]; try reflexivity.
    destruct (umul c l1 _) as [cap| | |]; cbn [bind with_state]; try reflexivity.
    destruct (_ <=? isize_max); cbn [bind with_state]; try reflexivity.
    destruct (Hloop _ (@Some A) (repeat None (Z.to_nat cap)) 0 (splat (WIDTH (it_ty (itb it))) d0)) as (k & -> & ->).
    destruct k as [[[b o] lv]| | |]; cbn [bind with_state fst snd]; try reflexivity. rewrite Hend, He. cbn [bind].
    destruct t as [[p n]|]; cbn [with_state bind fst snd].
    + rewrite Hst. destruct (store_tail c it Some b o lv p n) as [b2| | |]; cbn [bind with_state]; try reflexivity.
      destruct (uadd c _ o) as [a| | |]; cbn [bind with_state]; try reflexivity.
      destruct (usub c a n) as [nl| | |]; cbn [bind with_state]; try reflexivity.
      destruct (set_len b2 nl) as [out| | |]; reflexivity.
    + rewrite Hlen. change (sm_iter (final s')) with s'. destruct (it_len (itb it) s') as [l2| | |]; cbn [bind with_state]; try reflexivity.
      destruct (umul c l2 _) as [nl| | |]; cbn [bind with_state]; try reflexivity.
      destruct (set_len b nl) as [out| | |]; reflexivity.
  - unfold scalar_collect_all, with_capacity. rewrite Hlen, Hmt. cbn [sm_iter].
    destruct (it_len (itb it) s) as [l| | |]; cbn [bind with_state]; try reflexivity.
    destruct (uadd c l 1) as [l1| | |]; cbn [bind with_state]; try reflexivity.
    destruct (umul c l1 _) as [cap| | |]; cbn [bind with_state]; try reflexivity.
    destruct (_ <=? isize_max); cbn [bind with_state]; try reflexivity.
    destruct (set_len _ l) as [r| | |]; cbn [bind with_state]; try reflexivity. apply Hfa.
  - intros buf. unfold scalar_fill. rewrite Hmt. destruct (Hloop A (fun x => x) buf 0 (splat (WIDTH (it_ty (itb it))) d0)) as (k & -> & ->).
    destruct k as [[[b o] lv]| | |]; cbn [bind with_state fst snd]; try reflexivity. rewrite Hend, He. cbn [bind].
    destruct t as [[p n]|]; cbn [with_state bind fst snd]; [|reflexivity]. rewrite Hst. destruct (store_tail c it _ b o lv p n) as [b2| | |]; reflexivity.
  - intros buf. apply Hfa.
Qed.

Lemma c79_reduce_map : forall (V B I E R : Type) (c : config) (it : SIMDIterator V I) (out_ty : vty) (d0 : B) (f : E -> V -> list B * E) (s s' : I) (e : E)
    (fuel : nat) (vs : list V) (t : option (V * Z)) (start : R) (func : R -> list B -> R),
  SIZE out_ty <> 0 -> drain it fuel s = Ok (vs, t, s') -> (forall p n, t = Some (p, n) -> 0 <= n * SIZE (it_ty (itb it)) < 2 ^ 64) ->
  let m := map_iterator c it out_ty d0 f in
  let inlined := fun (a : R * E) v => (func (fst a) (fst (f (snd a) v)), snd (f (snd a) v)) in
  simd_reduce m fuel (mkSIMDMap s e) start func =
    (let! r := simd_reduce it fuel s (start, e) inlined in Ok (fst (fst r), mkSIMDMap (snd r) (snd (fst r)))) /\
  simd_do_each m fuel (mkSIMDMap s e) start func =
    (let! r := simd_do_each it fuel s (start, e) inlined in Ok (fst (fst r), mkSIMDMap (snd r) (snd (fst r)))).
Proof.
  intros V B I E R c it out_ty d0 f s s' e fuel vs t start func Hs Hdr Hfit m inlined. change (2 ^ 64) with usize_mod in Hfit. destruct (drain_inv it fuel s vs t s' Hdr) as (s1 & Hd & He).
  assert (Hend : forall e, it_end m (mkSIMDMap s1 e) = Ok (match t with Some (p, n) => Some (fst (f e p), n * SIZE (it_ty (itb it)) / SIZE out_ty) | None => None end,
    mkSIMDMap s' (match t with Some (p, _) => snd (f e p) | None => e end))).
  { intros e0. unfold m. cbn [map_iterator it_end]. unfold sm_end. cbn [sm_iter sm_env]. rewrite He. cbn [bind].
    destruct t as [[p n]|]; [|reflexivity]. specialize (Hfit p n eq_refl). unfold umul, uarith.
    replace ((0 <=? n * SIZE (it_ty (itb it))) && (n * SIZE (it_ty (itb it)) <? usize_mod)) with true by lia. cbn [bind].
    unfold udiv. replace (SIZE out_ty =? 0) with false by lia. cbn [bind]. destruct (f e0 p). reflexivity. }
  assert (Hfold : forall (LP : forall {V I : Type}, SIMDIterator V I -> forall R : Type, nat -> I -> R -> (R -> V -> R) -> outcome (R * I)),
     (forall V I (it : SIMDIterator V I) R fuel s (start : R) func, LP it R (S fuel) s start func =
        let! r := it_next (itb it) s in match r with (Some v, s') => LP it R fuel s' (func start v) func | (None, s') => Ok (start, s') end) ->
     forall fuel s e start vs, drain_next it fuel s = Ok (vs, s1) ->
     exists r e', LP it (R * E)%type fuel s (start, e) inlined = Ok ((r, e'), s1) /\ LP m R fuel (mkSIMDMap s e) start func = Ok (r, mkSIMDMap s1 e')).
  { intros LP HLP. clear -HLP. induction fuel as [|fuel IH]; intros s e start vs Hd; [discriminate|].
    rewrite !HLP. unfold m. cbn [map_iterator itb sm_iterable it_next]. unfold sm_next. cbn [sm_iter sm_env].
    destruct (drain_next_step it fuel s vs s1 Hd) as [(v & s2 & vs2 & Hn & -> & Hd2)|[Hn ->]]; rewrite Hn; cbn [bind].
    - replace (inlined (start, e) v) with (func start (fst (f e v)), snd (f e v)) by reflexivity. destruct (f e v) as [y e'] eqn:Ef. cbn [bind fst snd]. exact (IH s2 e' (func start y) vs2 Hd2).
    - do 2 eexists. split; reflexivity. }
  split.
  - destruct (Hfold (fun V I it R => @reduce_loop V I it R) ltac:(reflexivity) fuel s e start vs Hd) as (r & e' & H1 & H2).
    unfold simd_reduce. rewrite H1, H2. cbn [bind fst snd]. rewrite Hend, He. cbn [bind]. destruct t as [[p n]|]; reflexivity.
  - destruct (Hfold (fun V I it R => @do_each_loop V I it R) ltac:(reflexivity) fuel s e start vs Hd) as (r & e' & H1 & H2).
    unfold simd_do_each. rewrite H1, H2. cbn [bind fst snd]. rewrite Hend, He. cbn [bind]. destruct t as [[p n]|]; reflexivity.
Qed.

Lemma run_round_trip {E1 E2 X Y : Type} (f : E1 -> X -> Y * E1) (g : E2 -> Y -> X * E2) (Q : X -> Prop) :
  (forall e1 e2 v, Q v -> fst (g e2 (fst (f e1 v))) = v) -> forall vs e1 e2, Forall Q vs -> fst (run_closure g e2 (fst (run_closure f e1 vs))) = vs.
Proof.
  intros H. induction vs as [|v vs IH]; intros e1 e2 HQ; [reflexivity|]. pose proof (H e1 e2 v (Forall_inv HQ)) as Hv. cbn [run_closure].
  destruct (f e1 v) as [y e1']. cbn [fst] in Hv. specialize (IH e1' (snd (g e2 y)) (Forall_inv_tail HQ)).
  destruct (run_closure f e1' vs) as [ys e1'']. cbn [fst run_closure] in *. destruct (g e2 y) as [z e2']. cbn [fst snd] in *. subst z.
  destruct (run_closure g e2' ys) as [zs e2'']. cbn [fst] in *. subst zs. reflexivity.
Qed.

Lemma rescale_gap k w z : 1 < k -> z mod k <> 0 -> (k * w - z) / k * k = k * w - z - (k - z mod k).
Proof.
  intros Hk Hz. replace (k * w - z) with (- z + w * k) by ring. rewrite Z.div_add by lia. rewrite Z.div_opp_l_nz by lia.
  rewrite (Z.div_mod z k) at 2 by lia. ring.
Qed.

Lemma c79_widen_narrow_refuted : forall (A B E1 E2 : Type) (c : config) (ty mid_ty : vty) (k : Z) (l d : list A) (b0 : B) (d0 : A)
    (f : E1 -> list A -> list B * E1) (g : E2 -> list B -> list A * E2) (e1 : E1) (e2 : E2) (fuel : nat),
  vty_ok ty -> vty_ok mid_ty -> SIZE mid_ty = k * SIZE ty -> WIDTH ty = k * WIDTH mid_ty -> 1 < k ->
  zlen d = WIDTH ty -> (zlen l + WIDTH ty) * SIZE ty <= isize_max -> (length l < fuel)%nat ->
  (forall e v, zlen v = WIDTH ty -> zlen (fst (f e v)) = WIDTH mid_ty) ->
  (forall e1 e2 v, zlen v = WIDTH ty -> fst (g e2 (fst (f e1 v))) = v) ->
  let r := zlen l mod WIDTH ty in
  let extra := k - r mod k in
  r mod k <> 0 ->
  let chain := map_iterator c (map_iterator c (slice_iterator c ty) mid_ty b0 f) ty d0 g in
  let once := map_iterator c (slice_iterator c ty) ty d0 (composed f g) in
  exists s1 s2,
    scalar_collect c once d0 fuel (mkSIMDMap (simd_iter l d) (e1, e2)) = Ok (map Some l, s1) /\
    scalar_collect c chain d0 fuel (mkSIMDMap (mkSIMDMap (simd_iter l d) e1) e2) =
      Ok (map Some (firstn (Z.to_nat (zlen l - r)) l ++ sub d (WIDTH ty - r - extra) extra ++ skipn (Z.to_nat (zlen l - r)) l), s2) /\
    zlen (sub d (WIDTH ty - r - extra) extra) = extra.
Proof.
  intros A B E1 E2 c ty mid_ty k l d b0 d0 f g e1 e2 fuel Hty Hmid Hk Hw Hk1 Hd Hcap Hf Hlf Hrt r extra Hr0 chain once.
  pose proof (vty_ok_facts _ Hty) as (H1 & H2 & H3 & H4 & H5 & H6). pose proof (vty_ok_facts _ Hmid) as (G1 & G2 & G3 & _). pose proof (zlen_nonneg l) as Hl0.
  assert (Hl : slice_ok ty l) by (unfold slice_ok; nia).
  destruct (slice_complete c ty l d Hty Hl Hd Hcap) as (vs & rest & Hc & Hch & Hr & Hszd).
  pose proof (chunked_length ty l Hty vs rest Hch) as Hvl. destruct Hch as [Hch1 Hch2].
  assert (Hlr : zlen l = WIDTH ty * zlen vs + zlen rest) by (rewrite <- Hch2, zlen_app, (concat_zlen (WIDTH ty)) by exact Hch1; ring).
  pose proof (zlen_nonneg rest) as Hrest0.
  assert (Hrr : r = zlen rest) by (unfold r; symmetry; apply (Z.mod_unique _ _ (zlen vs)); lia).
  assert (Hne : rest <> []) by (intros ->; apply Hr0; rewrite Hrr; apply Z.mod_0_l; lia).
  set (n := WIDTH ty - zlen rest). set (p := right_aligned d rest).
  assert (Ht : tail_of d rest = Some (p, n)) by (unfold tail_of, unfilled; rewrite Hd; destruct rest; [contradiction|reflexivity]).
  assert (Hp : zlen p = WIDTH ty) by (unfold p; rewrite right_aligned_len by lia; exact Hd).
  rewrite Ht in *.
  assert (Hbytes1 : wd (slice_iterator (A := A) c ty) * sz (slice_iterator (A := A) c ty) = WIDTH mid_ty * SIZE mid_ty) by (cbn; rewrite Hk, Hw; ring).
  pose proof (map_complete c (slice_iterator c ty) mid_ty b0 f Hmid Hbytes1 _ _ _ _ e1 Hc) as Hm1.
  assert (Hbytes2 : wd (map_iterator c (slice_iterator c ty) mid_ty b0 f) * sz (map_iterator c (slice_iterator c ty) mid_ty b0 f) = WIDTH ty * SIZE ty) by (cbn; rewrite Hk, Hw; ring).
  pose proof (map_complete c _ ty d0 g Hty Hbytes2 _ _ _ _ e2 Hm1) as Hm2.
  assert (Hbytes3 : wd (slice_iterator (A := A) c ty) * sz (slice_iterator (A := A) c ty) = WIDTH ty * SIZE ty) by reflexivity.
  pose proof (map_complete c (slice_iterator c ty) ty d0 (composed f g) Hty Hbytes3 _ _ _ _ (e1, e2) Hc) as Hm3.
  fold chain in Hm2. fold once in Hm3. cbn [map_tail] in Hm2, Hm3.
  change (sz (slice_iterator (A := A) c ty)) with (SIZE ty) in *. change (sz (map_iterator c (slice_iterator c ty) mid_ty b0 f)) with (SIZE mid_ty) in *.
  (* both give the same vectors *)
  pose proof (run_round_trip f g (fun v => zlen v = WIDTH ty) Hrt vs e1 e2 Hch1) as Hvs. rewrite Hvs in Hm2.
  assert (Hcomp : forall e v, zlen v = WIDTH ty -> fst (composed f g e v) = v).
  { intros [a b] v Hv. unfold composed. cbn [fst snd]. pose proof (Hrt a b v Hv) as Hx. destruct (f a v) as [y a']. cbn [fst] in Hx. destruct (g b y). exact Hx. }
  assert (Hvs3 : fst (run_closure (composed f g) (e1, e2) vs) = vs).
  { clear -Hcomp Hch1. generalize (e1, e2). induction vs as [|v vs IH]; intros e; [reflexivity|]. cbn [run_closure]. pose proof (Hcomp e v (Forall_inv Hch1)) as Hv.
    destruct (composed f g e v) as [y e']. cbn [fst] in Hv. subst y. specialize (IH (Forall_inv_tail Hch1) e'). destruct (run_closure _ e' vs). cbn [fst] in *. subst. reflexivity. }
  rewrite Hvs3 in Hm3. rewrite Hcomp in Hm3 by exact Hp. rewrite Hrt in Hm2 by exact Hp.
  rewrite Z.div_mul in Hm3 by lia.
  set (n' := n * SIZE ty / SIZE mid_ty * SIZE mid_ty / SIZE ty) in *.
  assert (Hn' : n' = n - extra).
  { unfold n'. rewrite Hk. rewrite (Z.mul_comm n), (Z.mul_comm k), Z.div_mul_cancel_l by lia.
    rewrite (Z.mul_comm (SIZE ty) k), Z.mul_assoc, Z.div_mul by lia. unfold extra, n. rewrite Hrr, Hw.
    rewrite Hrr in Hr0. rewrite rescale_gap by assumption. ring. }
  assert (Hex : 0 < extra < k) by (unfold extra; pose proof (Z.mod_pos_bound r k ltac:(lia)); lia).
  assert (Hn0 : 0 <= n') by (unfold n'; apply Z.div_pos; [|lia]; apply Z.mul_nonneg_nonneg; [|lia]; apply Z.div_pos; [|lia]; apply Z.mul_nonneg_nonneg; unfold n; lia).
  eexists. eexists. split; [|split].
  - rewrite (collect_complete c once d0 _ _ _ _ fuel Hm3); [|split; [exact Hch1|intros p0 n0 H0; injection H0 as <- <-; exact Hp]|lia].
    unfold delivered, p. replace n with (unfilled d rest) by (unfold unfilled, n; lia). rewrite right_aligned_skipn by lia. rewrite Hch2. reflexivity.
  - rewrite (collect_complete c chain d0 _ _ _ _ fuel Hm2); [|split; [exact Hch1|intros p0 n0 H0; injection H0 as <- <-; exact Hp]|lia].
    do 3 f_equal. unfold delivered. rewrite Hrr.
    assert (Hfl : firstn (Z.to_nat (zlen l - zlen rest)) l = concat vs /\ skipn (Z.to_nat (zlen l - zlen rest)) l = rest).
    { assert (Hcl : length (concat vs) = Z.to_nat (zlen l - zlen rest)).
      { pose proof (concat_zlen (WIDTH ty) vs Hch1). unfold zlen in *. lia. }
      rewrite <- Hcl. rewrite <- Hch2. rewrite firstn_app, skipn_app, Nat.sub_diag, firstn_all, skipn_all. cbn [firstn skipn]. rewrite app_nil_r. split; reflexivity. }
    destruct Hfl as [-> ->]. f_equal.
    unfold p, right_aligned. rewrite skipn_app, firstn_length.
    assert (Hdl : (length d - length rest)%nat = Z.to_nat n) by (clear -Hd; unfold n, zlen in *; lia). rewrite Hdl.
    assert (Ha : n' <= n) by (rewrite Hn'; clear -Hex; lia).
    assert (Hb : n <= Z.of_nat (length d)) by (change (n <= zlen d); rewrite Hd; clear -Hrest0; unfold n; lia).
    replace (Z.to_nat n' - Nat.min (Z.to_nat n) (length d))%nat with 0%nat by (clear -Ha Hb; clearbody n n'; lia).
    cbn [skipn]. f_equal. unfold sub. fold n. rewrite <- Hn'.
    rewrite skipn_firstn_comm. f_equal. clear -Hn' Hn0 Hex. clearbody n n' extra. lia.
  - rewrite Hrr. fold n. apply zlen_sub; clear -Hn' Hn0 Hex Hd Hrest0; unfold n in *; clearbody n' extra; lia.
Qed.
