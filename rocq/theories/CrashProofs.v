(** Proofs of the properties: panicking closures and short buffers (C76), vectors stored in a for loop (C77). *)
From Verif Require Import Base Spec Vecs Iters CollectSpec Crash CrashSpec.
From Coq Require Import Lia ZifyBool ZifyNat.
From Verif Require Import ListFacts VecFacts IterFacts CollectFacts MapFacts ForEachFacts CollectProofs.
Ltac Zify.zify_post_hook ::= Z.div_mod_to_equations.

Definition joined {M R : Type} (x : M * outcome R) : outcome (M * R) := let! r := snd x in Ok (fst x, r).

Lemma joined_step {X R M : Type} (m : M) (e : outcome X) (k : X -> M * outcome R) : joined (step m e k) = bind e (fun x => joined (k x)).
Proof. destruct e; reflexivity. Qed.

Lemma bind_ext {X Y : Type} (e : outcome X) (k k' : X -> outcome Y) : (forall x, k x = k' x) -> bind e k = bind e k'.
Proof. intros H. destruct e; cbn; auto. Qed.

Lemma bind_assoc {X Y Z : Type} (e : outcome X) (k : X -> outcome Y) (k' : Y -> outcome Z) : bind (bind e k) k' = bind e (fun x => bind (k x) k').
Proof. destruct e; reflexivity. Qed.

Lemma fill_loop_joined {A I} c (it : SIMDIterator (list A) I) : forall fuel s buf offset lastvec,
  store_loop c it (fun x => x) fuel s buf offset lastvec =
  let! q := joined (fill_loop_memory c it fuel s buf offset lastvec) in Ok (fst (fst (snd q)), fst q, snd (fst (snd q)), snd (snd q)).
Proof.
  induction fuel as [|fuel IH]; intros s buf offset lastvec; [reflexivity|]. cbn [store_loop fill_loop_memory].
  rewrite joined_step, bind_assoc. apply bind_ext. intros [[v|] s']; [|reflexivity].
  rewrite joined_step, bind_assoc, map_id. apply bind_ext. intros buf'. rewrite joined_step, bind_assoc. apply bind_ext. intros o. apply IH.
Qed.

Lemma fill_elements_joined {A I} c (it : SIMDIterator (list A) I) : forall n i offset p skip buf,
  for_range n i (fun i buf => let! o := uadd c offset i in let! k := uadd c i skip in
    let! x := extract_unchecked c (WIDTH (it_ty (itb it))) p k in if o <? zlen buf then Ok (upd buf o [x]) else Panic) buf =
  let! q := joined (fill_elements_memory c it n i offset p skip buf) in Ok (fst q).
Proof.
  induction n as [|n IH]; intros i offset p skip buf; [reflexivity|]. cbn [for_range fill_elements_memory].
  rewrite joined_step, !bind_assoc. apply bind_ext. intros o. rewrite joined_step, !bind_assoc. apply bind_ext. intros k.
  rewrite joined_step, !bind_assoc. apply bind_ext. intros x. rewrite joined_step, !bind_assoc. apply bind_ext. intros b. apply IH.
Qed.

Lemma fill_tail_joined {A I} c (it : SIMDIterator (list A) I) buf offset lastvec p n :
  store_tail c it (fun x => x) buf offset lastvec p n = let! q := joined (fill_tail_memory c it buf offset lastvec p n) in Ok (fst q).
Proof.
  unfold store_tail, fill_tail_memory. rewrite !map_id. destruct (0 <? offset).
  - rewrite joined_step, bind_assoc. apply bind_ext. intros o1. rewrite joined_step, bind_assoc. apply bind_ext. intros b1.
    rewrite joined_step, bind_assoc. apply bind_ext. intros o2. rewrite joined_step, bind_assoc.
    destruct (store_unchecked c (WIDTH (it_ty (itb it))) lastvec b1 o2); reflexivity.
  - rewrite joined_step, bind_assoc. apply bind_ext. intros cnt. apply fill_elements_joined.
Qed.

Lemma fill_joined {A I} c (it : SIMDIterator (list A) I) d0 fuel s buf :
  scalar_fill c it d0 fuel s buf = joined (scalar_fill_memory c it d0 fuel s buf).
Proof.
  unfold scalar_fill, scalar_fill_memory. rewrite fill_loop_joined.
  destruct (fill_loop_memory c it fuel s buf 0 (splat (WIDTH (it_ty (itb it))) d0)) as [m [[[s1 o] lv]| | |]]; cbn; try reflexivity.
  destruct (it_end it s1) as [[[[p n]|] s2]| | |]; cbn; try reflexivity.
  rewrite fill_tail_joined. destruct (fill_tail_memory c it m o lv p n) as [m2 [[]| | |]]; reflexivity.
Qed.

Lemma fill_memory_ext {A I} c (it it' : SIMDIterator (list A) I) d0 :
  it_ty (itb it) = it_ty (itb it') -> (forall s, it_next (itb it) s = it_next (itb it') s) -> (forall s, it_end it s = it_end it' s) ->
  forall fuel s buf, scalar_fill c it d0 fuel s buf = scalar_fill c it' d0 fuel s buf.
Proof.
  intros Ht Hn He fuel s buf. unfold scalar_fill. rewrite Ht.
  assert (Hl : forall fuel s buf o lv, store_loop c it (fun x => x) fuel s buf o lv = store_loop c it' (fun x => x) fuel s buf o lv).
  { clear -Ht Hn. induction fuel as [|fuel IH]; intros s buf o lv; [reflexivity|]. cbn [store_loop]. rewrite Hn, Ht. apply bind_ext. intros [[v|] s']; [|reflexivity].
    apply bind_ext. intros b. apply bind_ext. intros o'. apply IH. }
  rewrite Hl. apply bind_ext. intros [[[s1 b1] o] lv]. rewrite He. apply bind_ext. intros [[[p n]|] s2]; [|reflexivity].
  unfold store_tail. rewrite Ht. reflexivity.
Qed.

Lemma fill_all_joined {A I} c (it : SIMDIterator (list A) I) d0 fuel s buf :
  scalar_fill_all c it d0 fuel s buf = joined (scalar_fill_all_memory c it d0 fuel s buf).
Proof.
  unfold scalar_fill_all, fill_all, scalar_fill_all_memory. rewrite fill_loop_joined.
  destruct (fill_loop_memory c it fuel s buf 0 (splat (WIDTH (it_ty (itb it))) d0)) as [m [[[s1 o] lv]| | |]]; cbn; try reflexivity.
  destruct (it_end it s1) as [[[[p n]|] s2]| | |]; cbn; try reflexivity. rewrite map_id.
  destruct (store_unchecked c (WIDTH (it_ty (itb it))) p m o); reflexivity.
Qed.

Lemma fill_all_memory_ext {A I} c (it it' : SIMDIterator (list A) I) d0 :
  it_ty (itb it) = it_ty (itb it') -> (forall s, it_next (itb it) s = it_next (itb it') s) -> (forall s, it_end it s = it_end it' s) ->
  forall fuel s buf, scalar_fill_all c it d0 fuel s buf = scalar_fill_all c it' d0 fuel s buf.
Proof.
  intros Ht Hn He fuel s buf. unfold scalar_fill_all, fill_all. rewrite Ht.
  assert (Hl : forall fuel s buf o lv, store_loop c it (fun x => x) fuel s buf o lv = store_loop c it' (fun x => x) fuel s buf o lv).
  { clear -Ht Hn. induction fuel as [|fuel IH]; intros s buf o lv; [reflexivity|]. cbn [store_loop]. rewrite Hn, Ht. apply bind_ext. intros [[v|] s']; [|reflexivity].
    apply bind_ext. intros b. apply bind_ext. intros o'. apply IH. }
  rewrite Hl. apply bind_ext. intros [[[s1 b1] o] lv]. rewrite He. reflexivity.
Qed.

Lemma for_each_loop_joined {A E} c ty (func : E -> list A -> list A * E) : forall fuel s lastvec env,
  for_each_loop c ty func fuel s lastvec env =
  let! q := joined (for_each_loop_memory c ty (fun e v => Ok (func e v)) fuel s lastvec env) in Ok (snd q).
Proof.
  induction fuel as [|fuel IH]; intros s lastvec env; [reflexivity|]. cbn [for_each_loop for_each_loop_memory].
  rewrite joined_step, bind_assoc. apply bind_ext. intros [[v|] s']; [|reflexivity].
  rewrite joined_step, bind_assoc. cbn [bind]. destruct (func env v) as [v' env'].
  rewrite joined_step, bind_assoc. apply bind_ext. intros pos. rewrite joined_step, bind_assoc. apply bind_ext. intros o.
  rewrite joined_step, bind_assoc. apply bind_ext. intros d. apply IH.
Qed.

Lemma for_each_loop_data {A E} c ty (func : E -> list A -> outcome (list A * E)) : forall fuel s lastvec env m s1 lv e1,
  for_each_loop_memory c ty func fuel s lastvec env = (m, Ok (s1, lv, e1)) -> m = si_data s1.
Proof.
  induction fuel as [|fuel IH]; intros s lastvec env m s1 lv e1 H; [discriminate|]. cbn [for_each_loop_memory] in H. unfold step in H.
  destruct (it_next _ s) as [[[v|] s']| | |]; try discriminate.
  - destruct (func env v) as [[v' env']| | |]; try discriminate. destruct (it_scalar_pos _ s') as [pos| | |]; try discriminate.
    destruct (usub c pos (WIDTH ty)) as [o| | |]; try discriminate. destruct (store_unchecked c (WIDTH ty) v' (si_data s') o) as [d| | |]; try discriminate.
    exact (IH _ _ _ _ _ _ _ H).
  - injection H as <- <- _ _. reflexivity.
Qed.

Lemma for_each_elements_joined {A} c ty : forall n i offset (p : list A) skip d,
  for_range n i (fun i d => let! k := uadd c i skip in let! x := extract_unchecked c (WIDTH ty) p k in let! o := uadd c offset i in store_scalar_unchecked c d x o) d =
  let! q := joined (for_each_elements_memory c ty n i offset p skip d) in Ok (fst q).
Proof.
  induction n as [|n IH]; intros i offset p skip d; [reflexivity|]. cbn [for_range for_each_elements_memory].
  rewrite joined_step, !bind_assoc. apply bind_ext. intros k. rewrite joined_step, !bind_assoc. apply bind_ext. intros x.
  rewrite joined_step, !bind_assoc. apply bind_ext. intros o. rewrite joined_step, !bind_assoc. apply bind_ext. intros b. apply IH.
Qed.

Lemma c76_no_panic : forall (V A B E I : Type) (c : config) (it : SIMDIterator V I) (ty out_ty : vty) (d0 d1 : B) (a0 : A)
    (func : E -> V -> list B * E) (g : E -> list A -> list A * E) (fuel : nat) (s : SIMDMap I E) (buf : list B) (sl : SIMDIter A (list A)) (e : E),
  scalar_fill c (map_iterator c it out_ty d0 func) d1 fuel s buf =
    (let (memory, end_) := scalar_fill_memory c (panicking_map_iterator c it out_ty d0 (fun e v => Ok (func e v))) d1 fuel s buf in
     let! s' := end_ in Ok (memory, s')) /\
  scalar_fill_all c (map_iterator c it out_ty d0 func) d1 fuel s buf =
    (let (memory, end_) := scalar_fill_all_memory c (panicking_map_iterator c it out_ty d0 (fun e v => Ok (func e v))) d1 fuel s buf in
     let! s' := end_ in Ok (memory, s')) /\
  simd_for_each c ty a0 g fuel sl e =
    (let (memory, end_) := simd_for_each_memory c ty a0 (fun e v => Ok (g e v)) fuel sl e in
     let! q := end_ in Ok q) /\
  (forall memory s' e', simd_for_each_memory c ty a0 (fun e v => Ok (g e v)) fuel sl e = (memory, Ok (s', e')) -> memory = si_data s').
Proof.
  intros V A B E I c it ty out_ty d0 d1 a0 func g fuel s buf sl e. split; [|split; [|split]].
  - transitivity (joined (scalar_fill_memory c (panicking_map_iterator c it out_ty d0 (fun e v => Ok (func e v))) d1 fuel s buf)).
    + rewrite <- fill_joined. apply fill_memory_ext.
      * reflexivity.
      * intros x. cbn. unfold sm_next, pm_next. apply bind_ext. intros [[v|] i']; [|reflexivity]. cbn. destruct (func (sm_env x) v); reflexivity.
      * intros x. cbn. unfold sm_end, pm_end. apply bind_ext. intros [[[v n]|] i']; [|reflexivity]. apply bind_ext. intros m. apply bind_ext. intros nr.
        cbn. destruct (func (sm_env x) v); reflexivity.
    + destruct (scalar_fill_memory _ _ _ _ _ _) as [m r]. reflexivity.
  - transitivity (joined (scalar_fill_all_memory c (panicking_map_iterator c it out_ty d0 (fun e v => Ok (func e v))) d1 fuel s buf)).
    + rewrite <- fill_all_joined. apply fill_all_memory_ext.
      * reflexivity.
      * intros x. cbn. unfold sm_next, pm_next. apply bind_ext. intros [[v|] i']; [|reflexivity]. cbn. destruct (func (sm_env x) v); reflexivity.
      * intros x. cbn. unfold sm_end, pm_end. apply bind_ext. intros [[[v n]|] i']; [|reflexivity]. apply bind_ext. intros m. apply bind_ext. intros nr.
        cbn. destruct (func (sm_env x) v); reflexivity.
    + destruct (scalar_fill_all_memory _ _ _ _ _ _) as [m r]. reflexivity.
  - unfold simd_for_each, simd_for_each_memory. rewrite for_each_loop_joined.
    destruct (for_each_loop_memory c ty (fun e v => Ok (g e v)) fuel sl (splat (WIDTH ty) a0) e) as [m [[[s1 lv] e1]| | |]] eqn:El; try reflexivity.
    unfold joined. cbn [fst snd bind step].
    destruct (it_scalar_pos _ s1) as [off| | |]; try reflexivity. cbn [bind step].
    destruct (it_end _ s1) as [[[[p n]|] s2]| | |]; try reflexivity. cbn [bind step].
    destruct (g e1 p) as [p' e2]. destruct (it_scalar_len _ s2) as [len| | |]; try reflexivity. cbn [bind step]. destruct (WIDTH ty <? len).
    + destruct (usub c off n) as [o1| | |]; try reflexivity. cbn [bind step]. destruct (store_unchecked c (WIDTH ty) p' (si_data s2) o1) as [b1| | |]; try reflexivity. cbn [bind step].
      destruct (usub c off (WIDTH ty)) as [o2| | |]; try reflexivity. cbn [bind step]. destruct (store_unchecked c (WIDTH ty) lv b1 o2); reflexivity.
    + destruct (usub c (WIDTH ty) n) as [cnt| | |]; try reflexivity. cbn [bind step]. rewrite for_each_elements_joined.
      destruct (for_each_elements_memory c ty (Z.to_nat cnt) 0 off p' n (si_data s2)) as [b [[]| | |]]; reflexivity.
  - intros memory s' e'. unfold simd_for_each_memory.
    destruct (for_each_loop_memory c ty (fun e v => Ok (g e v)) fuel sl (splat (WIDTH ty) a0) e) as [m [[[s1 lv] e1]| | |]] eqn:El; try discriminate.
    cbn [step]. destruct (it_scalar_pos _ s1) as [off| | |]; try discriminate. cbn [step].
    destruct (it_end _ s1) as [[[[p n]|] s2]| | |] eqn:Ee; try discriminate; cbn [step].
    + destruct (g e1 p) as [p' e2]. destruct (it_scalar_len _ s2) as [len| | |]; try discriminate. cbn [step]. destruct (WIDTH ty <? len).
      * destruct (usub c off n) as [o1| | |]; try discriminate. cbn [step]. destruct (store_unchecked c (WIDTH ty) p' (si_data s2) o1) as [b1| | |]; try discriminate. cbn [step].
        destruct (usub c off (WIDTH ty)) as [o2| | |]; try discriminate. cbn [step]. destruct (store_unchecked c (WIDTH ty) lv b1 o2) as [b2| | |]; try discriminate. cbn [step].
        intros H. injection H as <- <- _. reflexivity.
      * destruct (usub c (WIDTH ty) n) as [cnt| | |]; try discriminate. cbn [step].
        destruct (for_each_elements_memory c ty (Z.to_nat cnt) 0 off p' n (si_data s2)) as [b [[]| | |]]; try discriminate. cbn [step].
        intros H. injection H as <- <- _. reflexivity.
    + intros H. injection H as <- <- _. apply for_each_loop_data in El. rewrite El.
      cbn in Ee. unfold blanket_end in Ee. cbn in Ee. destruct (si_position s1 <? zlen (si_data s1)).
      * destruct (usub c (zlen (si_data s1)) (si_position s1)) as [rem| | |]; try discriminate. cbn in Ee. destruct (usub c (WIDTH ty) rem) as [em| | |]; try discriminate. cbn in Ee.
        destruct (partial_vector _ _ _ _ _ _ _); try discriminate. cbn in Ee. destruct (si_advance c s1 rem); discriminate.
      * injection Ee as <-. reflexivity.
Qed.

Lemma returns_length {E X Y : Type} (f : E -> X -> outcome (Y * E)) e xs ys e' : returns_on f e xs ys e' -> zlen ys = zlen xs.
Proof. induction 1 as [|e x y e1 xs ys e2 _ _ IH]; [reflexivity|]. rewrite !zlen_cons. lia. Qed.

Lemma returns_sized {E X Y : Type} (f : E -> X -> outcome (list Y * E)) (P : X -> Prop) w :
  (forall e x r, P x -> f e x = Ok r -> zlen (fst r) = w) ->
  forall e xs ys e', returns_on f e xs ys e' -> Forall P xs -> Forall (fun v => zlen v = w) ys.
Proof.
  intros Hf e xs ys e' H. induction H as [|e x y e1 xs ys e2 H1 _ IH]; intros HP; [constructor|]. inversion HP; subst. constructor; [|apply IH; assumption].
  match goal with HP : P x |- _ => exact (Hf _ _ _ HP H1) end.
Qed.

Lemma fill_loop_panicking {V B I E} c (it : SIMDIterator V I) out_ty (d0 : B) (func : E -> V -> outcome (list B * E)) :
  let m := panicking_map_iterator c it out_ty d0 func in
  0 < WIDTH out_ty ->
  forall xs ys e e', returns_on func e xs ys e' -> Forall (fun v => zlen v = WIDTH out_ty) ys ->
  forall more s s1, nexts it s (xs ++ more) s1 ->
  forall fuel pre post offset lastvec, (length xs < fuel)%nat -> zlen pre = offset -> zlen (concat ys) <= zlen post -> offset + WIDTH out_ty * zlen ys < usize_mod ->
  exists s2, nexts it s2 more s1 /\
  fill_loop_memory c m fuel (mkSIMDMap s e) (pre ++ post) offset lastvec =
  fill_loop_memory c m (fuel - length xs) (mkSIMDMap s2 e') (pre ++ overwritten (concat ys) post) (offset + WIDTH out_ty * zlen ys) (last ys lastvec).
Proof.
  intros m HW xs ys e e' H. unfold overwritten. induction H as [e|e x y e1 xs ys e2 H1 _ IH]; intros Hy more s s1 Hn fuel pre post offset lastvec Hf Hpre Hpost Hb.
  - exists s. split; [exact Hn|]. cbn. rewrite Nat.sub_0_r, Z.mul_0_r, Z.add_0_r. reflexivity.
  - inversion Hy as [|? ? Hy1 Hy2]; subst. inversion Hn as [|? ? s3 ? ? Hn1 Hn2]; subst. destruct fuel as [|fuel]; [cbn in Hf; lia|]. cbn [length] in Hf.
    cbn [concat] in Hpost. rewrite zlen_app in Hpost. rewrite zlen_cons in Hb. pose proof (zlen_nonneg (concat ys)). pose proof (zlen_nonneg ys). pose proof (zlen_nonneg pre).
    assert (0 <= WIDTH out_ty * zlen ys) by nia.
    destruct (IH Hy2 more s3 s1 Hn2 fuel (pre ++ y) (skipn (Z.to_nat (WIDTH out_ty)) post) (zlen pre + WIDTH out_ty) y) as (s2 & G1 & G2);
      [lia|rewrite zlen_app; lia|rewrite zlen_skipn; lia|lia|].
    exists s2. split; [exact G1|]. cbn [fill_loop_memory]. cbn [it_next itb m panicking_map_iterator]. unfold pm_next at 1. cbn [sm_iter sm_env]. rewrite Hn1. cbn [bind step]. rewrite H1. cbn [bind step fst snd it_ty].
    rewrite store_unchecked_ok by (rewrite ?zlen_app; lia). cbn [step]. rewrite uadd_ok by lia. cbn [step].
    assert (Hu : upd (pre ++ post) (zlen pre) y = (pre ++ y) ++ skipn (Z.to_nat (WIDTH out_ty)) post).
    { rewrite <- (firstn_skipn (Z.to_nat (WIDTH out_ty)) post) at 1. rewrite upd_app; [apply app_assoc|reflexivity|]. rewrite firstn_length. unfold zlen in *. lia. }
    rewrite Hu. fold m. rewrite G2. cbn [length Nat.sub]. rewrite last_cons, zlen_cons. cbn [concat]. rewrite app_length, skipn_skipn, <- !app_assoc.
    replace (length y) with (Z.to_nat (WIDTH out_ty)) by (unfold zlen in *; lia). f_equal. lia.
Qed.

Lemma c76_fill_panic : forall (A B E : Type) (c : config) (ty out_ty : vty) (l d : list A) (func : E -> list A -> outcome (list B * E)) (e : E)
    (d0 d1 : B) (buf : list B) (fuel : nat) (vs : list (list A)) (rest : list A) (ys : list (list B)),
  vty_ok ty -> vty_ok out_ty -> WIDTH ty * SIZE ty = WIDTH out_ty * SIZE out_ty -> slice_ok ty l -> zlen d = WIDTH ty ->
  (forall e v r, zlen v = WIDTH ty -> func e v = Ok r -> zlen (fst r) = WIDTH out_ty) ->
  chunked (WIDTH ty) l vs rest -> zlen rest < WIDTH ty ->
  panics_after func e (visited vs (tail_of d rest)) ys ->
  zlen (concat ys) <= zlen buf -> (length l < fuel)%nat ->
  scalar_fill_memory c (panicking_map_iterator c (slice_iterator c ty) out_ty d0 func) d1 fuel (mkSIMDMap (simd_iter l d) e) buf =
    (overwritten (concat ys) buf, Panic).
Proof.
  intros A B E c ty out_ty l d func e d0 d1 buf fuel vs rest ys Hty Hout Hbytes Hl Hd Hsz Hch Hr (xs1 & x & xs2 & e' & Hvis & Hret & Hpan) Hbuf Hf.
  pose proof (vty_ok_facts _ Hty) as (H1 & H2 & H3 & H4 & H5 & H6). pose proof (vty_ok_facts _ Hout) as (G1 & G2 & G3 & G4 & G5 & G6).
  pose proof (zlen_nonneg l) as Hl0.
  destruct (slice_emits c ty l d Hty Hl Hd 0 ltac:(lia) ltac:(lia)) as (vs' & rest' & Hem & Hch' & Hr'). cbn [Z.to_nat skipn] in Hch'.
  destruct (chunked_unique (WIDTH ty) l ltac:(lia) _ _ _ _ Hch Hch' Hr Hr') as [<- <-].
  destruct (emits_nexts _ _ _ _ _ Hem) as (s1 & Hnx & Hend).
  assert (Hvlen : (length vs <= length l)%nat) by (apply (chunked_length ty l Hty vs rest Hch)).
  assert (Hall : Forall (fun v => zlen v = WIDTH ty) (visited vs (tail_of d rest))).
  { unfold visited. apply Forall_app. split; [exact (proj1 Hch)|]. destruct (tail_of d rest) as [[p n]|] eqn:Et; [|constructor]. constructor; [|constructor].
    apply (tail_of_fields ty d Hd rest p n Hr) in Et. apply Et. }
  rewrite Hvis in Hall. assert (Hys : Forall (fun v => zlen v = WIDTH out_ty) ys) by (apply (returns_sized func (fun v => zlen v = WIDTH ty) _ Hsz _ _ _ _ Hret); apply Forall_app in Hall; apply Hall).
  assert (Hyl : zlen ys = zlen xs1) by (apply (returns_length func e _ _ _ Hret)).
  assert (Hxl : zlen xs1 <= zlen vs).
  { apply (f_equal zlen) in Hvis. unfold visited in Hvis. rewrite !zlen_app, zlen_cons in Hvis. pose proof (zlen_nonneg xs2). destruct (tail_of d rest) as [[p n]|]; rewrite ?zlen_cons, ?zlen_nil in Hvis; lia. }
  assert (Hwl : WIDTH ty * zlen vs <= zlen l) by (destruct Hch as [Hc1 Hc2]; rewrite <- Hc2, zlen_app, (concat_zlen _ _ Hc1); pose proof (zlen_nonneg rest); lia).
  assert (Hbig : WIDTH out_ty * zlen ys < usize_mod).
  { rewrite Hyl. pose proof (zlen_nonneg xs1). unfold slice_ok, isize_max in Hl. unfold usize_mod.
    assert (WIDTH out_ty * zlen xs1 <= (WIDTH ty * SIZE ty) * zlen vs) by (clear -Hbytes Hxl G1 G2 G3 G4 G5 G6 H; nia). assert ((WIDTH ty * SIZE ty) * zlen vs <= zlen l * SIZE ty) by (clear -Hwl H2 H3 H4; nia). lia. }
  set (m := panicking_map_iterator c (slice_iterator c ty) out_ty d0 func).
  unfold scalar_fill_memory.
  destruct (Nat.lt_ge_cases (length xs1) (length vs)) as [Hlt|Hge].
  - assert (exists more, vs = xs1 ++ x :: more) as [more ->].
    { exists (skipn (S (length xs1)) vs). unfold visited in Hvis. set (tl := match tail_of d rest with Some (p, _) => [p] | None => [] end) in Hvis. clearbody tl. clear -Hvis Hlt. revert vs Hvis Hlt.
      induction xs1 as [|a xs1 IH]; intros [|v vs] Hvis Hlt; cbn in *; try lia; injection Hvis as -> Hvis; [reflexivity|]. f_equal. apply IH; [exact Hvis|lia]. }
    destruct (fill_loop_panicking c (slice_iterator c ty) out_ty d0 func ltac:(lia) xs1 ys e e' Hret Hys (x :: more) _ _ Hnx fuel [] buf 0 (splat (WIDTH out_ty) d1)) as (s2 & K1 & K2); [lia|reflexivity|lia|lia|].
    cbn [app] in K2. fold m in K2. change (WIDTH (it_ty (itb m))) with (WIDTH out_ty). unfold simd_iter in *. rewrite K2. destruct (fuel - length xs1)%nat as [|fuel'] eqn:Efu; [lia|].
    inversion K1 as [|? ? s3 ? ? K3 K4]; subst. cbn [fill_loop_memory]. cbn [it_next itb m panicking_map_iterator]. unfold pm_next at 1. cbn [sm_iter sm_env]. rewrite K3. cbn [bind]. rewrite Hpan. reflexivity.
  - assert (Hxv : xs1 = vs /\ exists n, tail_of d rest = Some (x, n)).
    { unfold visited in Hvis. destruct (tail_of d rest) as [[p n]|].
      - assert (Hlen : length xs1 = length vs) by (apply (f_equal (@length _)) in Hvis; rewrite !app_length in Hvis; cbn in Hvis; lia).
        clear -Hvis Hlen. revert xs1 Hvis Hlen. induction vs as [|v vs IH]; intros [|a xs1] Hvis Hlen; cbn in *; try discriminate.
        + injection Hvis as -> _. split; [reflexivity|exists n; reflexivity].
        + injection Hvis as -> Hvis. injection Hlen as Hlen. destruct (IH _ Hvis Hlen) as [-> K]. split; [reflexivity|exact K].
      - apply (f_equal (@length _)) in Hvis. rewrite !app_length in Hvis. cbn in Hvis. lia. }
    destruct Hxv as [-> [n Ht]]. rewrite Ht in Hend.
    destruct (tail_of_fields ty d Hd rest x n Hr Ht) as (T1 & T2 & T3 & T4).
    destruct (fill_loop_panicking c (slice_iterator c ty) out_ty d0 func ltac:(lia) vs ys e e' Hret Hys [] _ s1 ltac:(rewrite app_nil_r; exact Hnx) fuel [] buf 0 (splat (WIDTH out_ty) d1)) as (s2 & K1 & K2); [lia|reflexivity|lia|lia|].
    cbn [app] in K2. fold m in K2. change (WIDTH (it_ty (itb m))) with (WIDTH out_ty). unfold simd_iter in *. rewrite K2. destruct (fuel - length vs)%nat as [|fuel'] eqn:Efu; [lia|].
    inversion K1 as [? ? K3|]; subst. cbn [fill_loop_memory]. cbn [it_next itb m panicking_map_iterator]. unfold pm_next at 1. cbn [sm_iter sm_env]. rewrite K3. cbn [bind step].
    cbn [it_end m panicking_map_iterator]. unfold pm_end. cbn [sm_iter sm_env]. rewrite Hend. cbn [bind step it_ty itb slice_iterator blanket_iterator si_iterable slice_array arr_ty].
    rewrite umul_ok by (unfold usize_mod; nia). cbn [bind]. rewrite udiv_ok by lia. cbn [bind]. rewrite Hpan. reflexivity.
Qed.

Lemma c76_fill_all_panic : forall (A B E : Type) (c : config) (ty out_ty : vty) (l d : list A) (func : E -> list A -> outcome (list B * E)) (e : E)
    (d0 d1 : B) (buf : list B) (fuel : nat) (vs : list (list A)) (rest : list A) (ys : list (list B)),
  vty_ok ty -> vty_ok out_ty -> WIDTH ty * SIZE ty = WIDTH out_ty * SIZE out_ty -> slice_ok ty l -> zlen d = WIDTH ty ->
  (forall e v r, zlen v = WIDTH ty -> func e v = Ok r -> zlen (fst r) = WIDTH out_ty) ->
  chunked (WIDTH ty) l vs rest -> zlen rest < WIDTH ty ->
  panics_after func e (visited vs (tail_of d rest)) ys ->
  zlen (concat ys) <= zlen buf -> (length l < fuel)%nat ->
  scalar_fill_all_memory c (panicking_map_iterator c (slice_iterator c ty) out_ty d0 func) d1 fuel (mkSIMDMap (simd_iter l d) e) buf =
    (overwritten (concat ys) buf, Panic).
Proof.
  intros A B E c ty out_ty l d func e d0 d1 buf fuel vs rest ys Hty Hout Hbytes Hl Hd Hsz Hch Hr (xs1 & x & xs2 & e' & Hvis & Hret & Hpan) Hbuf Hf.
  pose proof (vty_ok_facts _ Hty) as (H1 & H2 & H3 & H4 & H5 & H6). pose proof (vty_ok_facts _ Hout) as (G1 & G2 & G3 & G4 & G5 & G6).
  pose proof (zlen_nonneg l) as Hl0.
  destruct (slice_emits c ty l d Hty Hl Hd 0 ltac:(lia) ltac:(lia)) as (vs' & rest' & Hem & Hch' & Hr'). cbn [Z.to_nat skipn] in Hch'.
  destruct (chunked_unique (WIDTH ty) l ltac:(lia) _ _ _ _ Hch Hch' Hr Hr') as [<- <-].
  destruct (emits_nexts _ _ _ _ _ Hem) as (s1 & Hnx & Hend).
  assert (Hvlen : (length vs <= length l)%nat) by (apply (chunked_length ty l Hty vs rest Hch)).
  assert (Hall : Forall (fun v => zlen v = WIDTH ty) (visited vs (tail_of d rest))).
  { unfold visited. apply Forall_app. split; [exact (proj1 Hch)|]. destruct (tail_of d rest) as [[p n]|] eqn:Et; [|constructor]. constructor; [|constructor].
    apply (tail_of_fields ty d Hd rest p n Hr) in Et. apply Et. }
  rewrite Hvis in Hall. assert (Hys : Forall (fun v => zlen v = WIDTH out_ty) ys) by (apply (returns_sized func (fun v => zlen v = WIDTH ty) _ Hsz _ _ _ _ Hret); apply Forall_app in Hall; apply Hall).
  assert (Hyl : zlen ys = zlen xs1) by (apply (returns_length func e _ _ _ Hret)).
  assert (Hxl : zlen xs1 <= zlen vs).
  { apply (f_equal zlen) in Hvis. unfold visited in Hvis. rewrite !zlen_app, zlen_cons in Hvis. pose proof (zlen_nonneg xs2). destruct (tail_of d rest) as [[p n]|]; rewrite ?zlen_cons, ?zlen_nil in Hvis; lia. }
  assert (Hwl : WIDTH ty * zlen vs <= zlen l) by (destruct Hch as [Hc1 Hc2]; rewrite <- Hc2, zlen_app, (concat_zlen _ _ Hc1); pose proof (zlen_nonneg rest); lia).
  assert (Hbig : WIDTH out_ty * zlen ys < usize_mod).
  { rewrite Hyl. pose proof (zlen_nonneg xs1). unfold slice_ok, isize_max in Hl. unfold usize_mod.
    assert (WIDTH out_ty * zlen xs1 <= (WIDTH ty * SIZE ty) * zlen vs) by (clear -Hbytes Hxl G1 G2 G3 G4 G5 G6 H; nia). assert ((WIDTH ty * SIZE ty) * zlen vs <= zlen l * SIZE ty) by (clear -Hwl H2 H3 H4; nia). lia. }
  set (m := panicking_map_iterator c (slice_iterator c ty) out_ty d0 func).
  unfold scalar_fill_all_memory.
  destruct (Nat.lt_ge_cases (length xs1) (length vs)) as [Hlt|Hge].
  - assert (exists more, vs = xs1 ++ x :: more) as [more ->].
    { exists (skipn (S (length xs1)) vs). unfold visited in Hvis. set (tl := match tail_of d rest with Some (p, _) => [p] | None => [] end) in Hvis. clearbody tl. clear -Hvis Hlt. revert vs Hvis Hlt.
      induction xs1 as [|a xs1 IH]; intros [|v vs] Hvis Hlt; cbn in *; try lia; injection Hvis as -> Hvis; [reflexivity|]. f_equal. apply IH; [exact Hvis|lia]. }
    destruct (fill_loop_panicking c (slice_iterator c ty) out_ty d0 func ltac:(lia) xs1 ys e e' Hret Hys (x :: more) _ _ Hnx fuel [] buf 0 (splat (WIDTH out_ty) d1)) as (s2 & K1 & K2); [lia|reflexivity|lia|lia|].
    cbn [app] in K2. fold m in K2. change (WIDTH (it_ty (itb m))) with (WIDTH out_ty). unfold simd_iter in *. rewrite K2. destruct (fuel - length xs1)%nat as [|fuel'] eqn:Efu; [lia|].
    inversion K1 as [|? ? s3 ? ? K3 K4]; subst. cbn [fill_loop_memory]. cbn [it_next itb m panicking_map_iterator]. unfold pm_next at 1. cbn [sm_iter sm_env]. rewrite K3. cbn [bind]. rewrite Hpan. reflexivity.
  - assert (Hxv : xs1 = vs /\ exists n, tail_of d rest = Some (x, n)).
    { unfold visited in Hvis. destruct (tail_of d rest) as [[p n]|].
      - assert (Hlen : length xs1 = length vs) by (apply (f_equal (@length _)) in Hvis; rewrite !app_length in Hvis; cbn in Hvis; lia).
        clear -Hvis Hlen. revert xs1 Hvis Hlen. induction vs as [|v vs IH]; intros [|a xs1] Hvis Hlen; cbn in *; try discriminate.
        + injection Hvis as -> _. split; [reflexivity|exists n; reflexivity].
        + injection Hvis as -> Hvis. injection Hlen as Hlen. destruct (IH _ Hvis Hlen) as [-> K]. split; [reflexivity|exact K].
      - apply (f_equal (@length _)) in Hvis. rewrite !app_length in Hvis. cbn in Hvis. lia. }
    destruct Hxv as [-> [n Ht]]. rewrite Ht in Hend.
    destruct (tail_of_fields ty d Hd rest x n Hr Ht) as (T1 & T2 & T3 & T4).
    destruct (fill_loop_panicking c (slice_iterator c ty) out_ty d0 func ltac:(lia) vs ys e e' Hret Hys [] _ s1 ltac:(rewrite app_nil_r; exact Hnx) fuel [] buf 0 (splat (WIDTH out_ty) d1)) as (s2 & K1 & K2); [lia|reflexivity|lia|lia|].
    cbn [app] in K2. fold m in K2. change (WIDTH (it_ty (itb m))) with (WIDTH out_ty). unfold simd_iter in *. rewrite K2. destruct (fuel - length vs)%nat as [|fuel'] eqn:Efu; [lia|].
    inversion K1 as [? ? K3|]; subst. cbn [fill_loop_memory]. cbn [it_next itb m panicking_map_iterator]. unfold pm_next at 1. cbn [sm_iter sm_env]. rewrite K3. cbn [bind step].
    cbn [it_end m panicking_map_iterator]. unfold pm_end. cbn [sm_iter sm_env]. rewrite Hend. cbn [bind step it_ty itb slice_iterator blanket_iterator si_iterable slice_array arr_ty].
    rewrite umul_ok by (unfold usize_mod; nia). cbn [bind]. rewrite udiv_ok by lia. cbn [bind]. rewrite Hpan. reflexivity.
Qed.

Lemma for_each_loop_panicking {A E} c ty (d : list A) (func : E -> list A -> outcome (list A * E)) : vty_ok ty -> zlen d = WIDTH ty ->
  forall xs ys e e', returns_on func e xs ys e' -> Forall (fun v => zlen v = WIDTH ty) xs -> Forall (fun v => zlen v = WIDTH ty) ys ->
  forall fuel pre post lastvec, (length xs < fuel)%nat -> zlen pre + zlen (concat xs ++ post) < max_len ->
  for_each_loop_memory c ty func fuel (mkSIMDIter (zlen pre) (pre ++ concat xs ++ post) d) lastvec e =
  for_each_loop_memory c ty func (fuel - length xs) (mkSIMDIter (zlen pre + WIDTH ty * zlen ys) (pre ++ concat ys ++ post) d) (last ys lastvec) e'.
Proof.
  intros Hty Hd xs ys e e' H. pose proof (vty_ok_facts _ Hty) as (H1 & H2 & H3 & H4 & H5 & H6).
  induction H as [e|e x y e1 xs ys e2 Hfx _ IH]; intros Hx Hy fuel pre post lastvec Hf Hsm.
  - cbn. rewrite Nat.sub_0_r, Z.mul_0_r, Z.add_0_r. reflexivity.
  - inversion Hx as [|? ? Hx1 Hx2]; subst. inversion Hy as [|? ? Hy1 Hy2]; subst. destruct fuel as [|fuel]; [cbn in Hf; lia|]. cbn [length] in Hf.
    cbn [concat] in *. rewrite !zlen_app in Hsm. pose proof (zlen_nonneg (concat xs)). pose proof (zlen_nonneg pre). pose proof (zlen_nonneg post).
    cbn [for_each_loop_memory].
    set (l := pre ++ (x ++ concat xs) ++ post). assert (Hll : zlen l = zlen pre + WIDTH ty + zlen (concat xs) + zlen post) by (unfold l; rewrite !zlen_app; lia).
    destruct (si_next_cases c (slice_array c ty) (mkSIMDIter (zlen pre) l d) l) as [[Hn1 Hn2]|[Hn1 Hn2]]; cbn [si_position si_data si_default arr_ty slice_array] in *;
      [exact Hty|apply slice_array_holds; exact Hty|lia|lia| |lia].
    unfold slice_iterator, blanket_iterator, itb, it_next, it_scalar_pos, si_iterable in Hn2 |- *. rewrite Hn2. cbn [step].
    assert (Hsub : sub l (zlen pre) (WIDTH ty) = x).
    { unfold sub, l. unfold zlen at 1. rewrite Nat2Z.id, skipn_app, skipn_all, Nat.sub_diag. cbn [app skipn]. rewrite <- app_assoc, firstn_app.
      replace (Z.to_nat (WIDTH ty)) with (length x) by (unfold zlen in *; lia). rewrite firstn_all, Nat.sub_diag. cbn [firstn]. apply app_nil_r. }
    rewrite Hsub, Hfx. cbn [step si_position si_data]. unfold max_len in *. rewrite usub_ok by (unfold usize_mod; lia). cbn [step].
    rewrite store_unchecked_ok by lia. cbn [step]. replace (zlen pre + WIDTH ty - WIDTH ty) with (zlen pre) by lia.
    replace (upd l (zlen pre) y) with ((pre ++ y) ++ concat xs ++ post).
    2:{ unfold l. rewrite <- !app_assoc. symmetry. apply upd_app; unfold zlen in *; lia. }
    unfold si_set_data. cbn [si_position si_data si_default]. replace (zlen pre + WIDTH ty) with (zlen (pre ++ y)) by (rewrite zlen_app; lia).
    unfold slice_iterator, blanket_iterator, itb, it_next, it_scalar_pos, si_iterable in IH.
    rewrite IH; [|exact Hx2|exact Hy2|lia|rewrite !zlen_app; lia]. cbn [length Nat.sub]. rewrite last_cons, zlen_app, zlen_cons, <- !app_assoc. f_equal. f_equal. lia.
Qed.

Lemma c76_for_each_panic : forall (A E : Type) (c : config) (ty : vty) (l d : list A) (func : E -> list A -> outcome (list A * E)) (e : E)
    (d0 : A) (fuel : nat) (vs : list (list A)) (rest : list A) (ys : list (list A)),
  vty_ok ty -> slice_ok ty l -> zlen d = WIDTH ty ->
  (forall e v r, zlen v = WIDTH ty -> func e v = Ok r -> zlen (fst r) = WIDTH ty) ->
  chunked (WIDTH ty) l vs rest -> zlen rest < WIDTH ty ->
  panics_after func e (visited vs (tail_of d rest)) ys -> (length l < fuel)%nat ->
  simd_for_each_memory c ty d0 func fuel (simd_iter l d) e = (overwritten (concat ys) l, Panic) /\ zlen (concat ys) <= zlen l.
Proof.
  intros A E c ty l d func e d0 fuel vs rest ys Hty Hl Hd Hsz Hch Hr (xs1 & x & xs2 & e' & Hvis & Hret & Hpan) Hf.
  pose proof (vty_ok_facts _ Hty) as (H1 & H2 & H3 & H4 & H5 & H6). pose proof (slice_small ty l Hty Hl) as Hsm.
  assert (Hvlen : (length vs <= length l)%nat) by (apply (chunked_length ty l Hty vs rest Hch)).
  assert (Hall : Forall (fun v => zlen v = WIDTH ty) (visited vs (tail_of d rest))).
  { unfold visited. apply Forall_app. split; [exact (proj1 Hch)|]. destruct (tail_of d rest) as [[p n]|] eqn:Et; [|constructor]. constructor; [|constructor].
    apply (tail_of_fields ty d Hd rest p n Hr) in Et. apply Et. }
  rewrite Hvis in Hall. apply Forall_app in Hall. destruct Hall as [Hx1 Hx2].
  assert (Hys : Forall (fun v => zlen v = WIDTH ty) ys) by (apply (returns_sized func (fun v => zlen v = WIDTH ty) _ Hsz _ _ _ _ Hret Hx1)).
  assert (Hyl : zlen ys = zlen xs1) by (apply (returns_length func e _ _ _ Hret)).
  assert (Hcy : zlen (concat ys) = zlen (concat xs1)) by (rewrite (concat_zlen _ _ Hys), (concat_zlen _ _ Hx1), Hyl; reflexivity).
  destruct Hch as [Hv Hconc].
  assert (Hover : forall post, l = concat xs1 ++ post -> overwritten (concat ys) l = concat ys ++ post).
  { intros post ->. unfold overwritten. f_equal. replace (length (concat ys)) with (length (concat xs1)) by (unfold zlen in *; lia). rewrite skipn_app, skipn_all, Nat.sub_diag. reflexivity. }
  unfold simd_for_each_memory, simd_iter.
  destruct (Nat.lt_ge_cases (length xs1) (length vs)) as [Hlt|Hge].
  - assert (exists more, vs = xs1 ++ x :: more) as [more ->].
    { exists (skipn (S (length xs1)) vs). unfold visited in Hvis. set (tl := match tail_of d rest with Some (p, _) => [p] | None => [] end) in Hvis. clearbody tl. clear -Hvis Hlt. revert vs Hvis Hlt.
      induction xs1 as [|a xs1 IH]; intros [|v vs] Hvis Hlt; cbn in *; try lia; injection Hvis as -> Hvis; [reflexivity|]. f_equal. apply IH; [exact Hvis|lia]. }
    rewrite concat_app in Hconc. cbn [concat] in Hconc. rewrite <- !app_assoc in Hconc. set (post := concat more ++ rest) in *.
    assert (Hx : zlen x = WIDTH ty) by (inversion Hx2; assumption). symmetry in Hconc.
    rewrite (Hover _ Hconc). split; [|rewrite Hconc, zlen_app; pose proof (zlen_nonneg (x ++ post)); lia].
    pose proof (for_each_loop_panicking c ty d func Hty Hd xs1 ys e e' Hret Hx1 Hys fuel [] (x ++ post) (splat (WIDTH ty) d0) ltac:(lia)) as K. cbn [app] in K. rewrite <- Hconc in K. specialize (K ltac:(rewrite zlen_nil; lia)).
    rewrite zlen_nil in K. rewrite K. destruct (fuel - length xs1)%nat as [|fuel'] eqn:Efu; [lia|]. cbn [for_each_loop_memory].
    set (l2 := concat ys ++ x ++ post). assert (Hl2 : zlen l2 = zlen l) by (unfold l2; rewrite Hconc, !zlen_app; lia).
    assert (Hpos : 0 + WIDTH ty * zlen ys = zlen (concat ys)) by (rewrite (concat_zlen _ _ Hys); lia).
    pose proof (zlen_nonneg (concat ys)). pose proof (zlen_nonneg post). assert (Hl2' : zlen l2 = zlen (concat ys) + WIDTH ty + zlen post) by (unfold l2; rewrite !zlen_app; lia).
    destruct (si_next_cases c (slice_array c ty) (mkSIMDIter (0 + WIDTH ty * zlen ys) l2 d) l2) as [[Hn1 Hn2]|[Hn1 Hn2]]; cbn [si_position si_data si_default arr_ty slice_array] in *;
      [exact Hty|apply slice_array_holds; exact Hty|lia|lia| |lia].
    unfold slice_iterator, blanket_iterator, itb, it_next, it_scalar_pos, si_iterable in Hn2 |- *. rewrite Hn2. cbn [step].
    assert (Hsub : sub l2 (0 + WIDTH ty * zlen ys) (WIDTH ty) = x).
    { rewrite Hpos. unfold sub, l2. unfold zlen at 1. rewrite Nat2Z.id, skipn_app, skipn_all, Nat.sub_diag. cbn [app skipn]. rewrite firstn_app.
      replace (Z.to_nat (WIDTH ty)) with (length x) by (unfold zlen in *; lia). rewrite firstn_all, Nat.sub_diag. cbn [firstn]. apply app_nil_r. }
    rewrite Hsub, Hpan. reflexivity.
  - assert (Hxv : xs1 = vs /\ exists n, tail_of d rest = Some (x, n)).
    { unfold visited in Hvis. destruct (tail_of d rest) as [[p n]|].
      - assert (Hlen : length xs1 = length vs) by (apply (f_equal (@length _)) in Hvis; rewrite !app_length in Hvis; cbn in Hvis; lia).
        clear -Hvis Hlen. revert xs1 Hvis Hlen. induction vs as [|v vs IH]; intros [|a xs1] Hvis Hlen; cbn in *; try discriminate.
        + injection Hvis as -> _. split; [reflexivity|exists n; reflexivity].
        + injection Hvis as -> Hvis. injection Hlen as Hlen. destruct (IH _ Hvis Hlen) as [-> K]. split; [reflexivity|exact K].
      - apply (f_equal (@length _)) in Hvis. rewrite !app_length in Hvis. cbn in Hvis. lia. }
    destruct Hxv as [-> [n Ht]]. symmetry in Hconc. rewrite (Hover _ Hconc). split; [|rewrite Hconc, zlen_app; pose proof (zlen_nonneg rest); lia].
    pose proof (for_each_loop_panicking c ty d func Hty Hd vs ys e e' Hret Hx1 Hys fuel [] rest (splat (WIDTH ty) d0) ltac:(lia)) as K. cbn [app] in K. rewrite <- Hconc in K. specialize (K ltac:(rewrite zlen_nil; lia)).
    rewrite zlen_nil in K. rewrite K. destruct (fuel - length vs)%nat as [|fuel'] eqn:Efu; [lia|]. cbn [for_each_loop_memory].
    set (l2 := concat ys ++ rest). assert (Hl2 : zlen l2 = zlen l) by (unfold l2; rewrite Hconc, !zlen_app; lia).
    assert (Hpos : 0 + WIDTH ty * zlen ys = zlen (concat ys)) by (rewrite (concat_zlen _ _ Hys); lia).
    pose proof (zlen_nonneg (concat ys)). pose proof (zlen_nonneg rest). assert (Hl2' : zlen l2 = zlen (concat ys) + zlen rest) by (unfold l2; rewrite !zlen_app; lia).
    assert (Hso : slice_ok ty l2) by (unfold slice_ok in *; rewrite Hl2; exact Hl).
    destruct (slice_emits c ty l2 d Hty Hso Hd (zlen (concat ys)) ltac:(lia)) as (vs' & rest' & Hem & Hch' & Hr').
    { destruct vs as [|v0 vs0]; [left; destruct ys; [reflexivity|rewrite zlen_cons, zlen_nil in Hyl; pose proof (zlen_nonneg ys); lia]|]. right. left.
      rewrite zlen_cons in Hyl. pose proof (zlen_nonneg vs0). destruct (tail_of_fields ty d Hd rest x n Hr Ht) as (T1 & T2 & T3 & T4). rewrite (concat_zlen _ _ Hys), Hyl in Hl2'. rewrite Hl2'. clear -H7 H1 T3 H0. nia. }
    assert (Hsk : skipn (Z.to_nat (zlen (concat ys))) l2 = rest) by (unfold l2; unfold zlen; rewrite Nat2Z.id, skipn_app, skipn_all, Nat.sub_diag; reflexivity).
    rewrite Hsk in Hch'. destruct (chunked_unique (WIDTH ty) rest ltac:(lia) [] rest _ _ ltac:(split; [constructor|reflexivity]) Hch' Hr Hr') as [<- <-].
    rewrite Ht in Hem. destruct (emits_nexts _ _ _ _ _ Hem) as (s1 & Hnx & Hend).
    assert (Hn : it_next (itb (slice_iterator c ty)) (mkSIMDIter (zlen (concat ys)) l2 d) = Ok (None, s1)) by (inversion Hnx; assumption). rewrite Hpos. cbn [itb slice_iterator blanket_iterator] in Hn |- *. rewrite Hn. cbn [step].
    assert (Hs1 : si_data s1 = l2).
    { destruct (si_next_cases c (slice_array c ty) (mkSIMDIter (zlen (concat ys)) l2 d) l2) as [[Hn1 Hn2]|[Hn1 Hn2]]; cbn [si_position si_data si_default arr_ty slice_array] in *;
        [exact Hty|apply slice_array_holds; exact Hty|lia|lia|lia|]. cbn [it_next si_iterable] in Hn. rewrite Hn2 in Hn. injection Hn as <-. reflexivity. }
    cbn [it_scalar_pos si_iterable step]. cbn [slice_iterator blanket_iterator it_end] in Hend |- *. rewrite Hend. cbn [step]. rewrite Hpan, Hs1. reflexivity.
Qed.

Lemma fill_loop_prefix {B I} c (it : SIMDIterator (list B) I) : let W := WIDTH (it_ty (itb it)) in 0 < W ->
  forall ys more s s1, Forall (fun v => zlen v = W) ys -> nexts it s (ys ++ more) s1 ->
  forall fuel pre post offset lastvec, (length ys < fuel)%nat -> zlen pre = offset -> zlen (concat ys) <= zlen post -> offset + W * zlen ys < usize_mod ->
  exists s2, nexts it s2 more s1 /\
  fill_loop_memory c it fuel s (pre ++ post) offset lastvec =
  fill_loop_memory c it (fuel - length ys) s2 (pre ++ overwritten (concat ys) post) (offset + W * zlen ys) (last ys lastvec).
Proof.
  intros W HW ys. unfold overwritten. induction ys as [|y ys IH]; intros more s s1 Hy Hn fuel pre post offset lastvec Hf Hpre Hpost Hb.
  - exists s. split; [exact Hn|]. cbn. rewrite Nat.sub_0_r, Z.mul_0_r, Z.add_0_r. reflexivity.
  - inversion Hy as [|? ? Hy1 Hy2]; subst. inversion Hn as [|? ? s3 ? ? Hn1 Hn2]; subst. destruct fuel as [|fuel]; [cbn in Hf; lia|]. cbn [length] in Hf.
    cbn [concat] in Hpost. rewrite zlen_app in Hpost. rewrite zlen_cons in Hb. pose proof (zlen_nonneg (concat ys)). pose proof (zlen_nonneg ys). pose proof (zlen_nonneg pre).
    assert (0 <= W * zlen ys) by nia.
    destruct (IH more s3 s1 Hy2 Hn2 fuel (pre ++ y) (skipn (Z.to_nat W) post) (zlen pre + W) y) as (s2 & G1 & G2);
      [lia|rewrite zlen_app; lia|rewrite zlen_skipn; lia|lia|].
    exists s2. split; [exact G1|]. cbn [fill_loop_memory]. rewrite Hn1. cbn [step]. fold W.
    rewrite store_unchecked_ok by (rewrite ?zlen_app; lia). cbn [step]. rewrite uadd_ok by lia. cbn [step].
    assert (Hu : upd (pre ++ post) (zlen pre) y = (pre ++ y) ++ skipn (Z.to_nat W) post).
    { rewrite <- (firstn_skipn (Z.to_nat W) post) at 1. rewrite upd_app; [apply app_assoc|reflexivity|]. rewrite firstn_length. unfold zlen in *. lia. }
    rewrite Hu, G2. cbn [length Nat.sub]. rewrite last_cons, zlen_cons. cbn [concat]. rewrite app_length, skipn_skipn, <- !app_assoc.
    replace (length y) with (Z.to_nat W) by (unfold zlen in *; lia). f_equal. lia.
Qed.

Lemma fill_elements_short {B I} c (it : SIMDIterator (list B) I) (p : list B) skip : let W := WIDTH (it_ty (itb it)) in 0 < W < usize_mod -> zlen p = W -> 0 <= skip ->
  forall n i buf, 0 <= i <= zlen buf -> zlen buf < i + Z.of_nat n -> i + Z.of_nat n + skip <= W ->
  fill_elements_memory c it n i 0 p skip buf = (firstn (Z.to_nat i) buf ++ sub p (i + skip) (zlen buf - i), Panic).
Proof.
  intros W HW Hp Hs. induction n as [|n IH]; intros i buf Hi Hn Hk; [lia|]. cbn [fill_elements_memory]. fold W.
  rewrite uadd_ok by lia. cbn [step]. rewrite uadd_ok by lia. cbn [step]. rewrite Z.add_0_l.
  destruct (znth_exists p (i + skip) ltac:(lia)) as [x Hx]. rewrite (extract_unchecked_ok c W p (i + skip) x) by (assumption || lia). cbn [step].
  destruct (i <? zlen buf) eqn:E.
  - cbn [step]. assert (Hz : zlen (upd buf i [x]) = zlen buf) by (apply zlen_upd; [lia|cbn; lia]). rewrite IH by (rewrite ?Hz; lia). rewrite Hz. f_equal.
    assert (Hf1 : firstn (Z.to_nat (i + 1)) (upd buf i [x]) = firstn (Z.to_nat i) buf ++ [x]).
    { unfold upd. rewrite app_assoc, firstn_app. rewrite firstn_all2; [|rewrite app_length, firstn_length; cbn; unfold zlen in *; lia].
      rewrite app_length, firstn_length. cbn [length]. replace (Z.to_nat (i + 1) - (Nat.min (Z.to_nat i) (length buf) + 1))%nat with 0%nat by (unfold zlen in *; lia). cbn. rewrite app_nil_r. reflexivity. }
    rewrite Hf1, <- app_assoc. f_equal. unfold sub. replace (Z.to_nat (zlen buf - i)) with (S (Z.to_nat (zlen buf - (i + 1)))) by lia.
    replace (Z.to_nat (i + 1 + skip)) with (S (Z.to_nat (i + skip))) by lia. unfold znth in Hx. destruct (i + skip <? 0); [discriminate|].
    clear -Hx. revert p Hx. generalize (Z.to_nat (zlen buf - (i + 1))) as k. generalize (Z.to_nat (i + skip)) as j. intros j. induction j as [|j IH]; intros k [|a p] Hx; try discriminate.
    + cbn in Hx. injection Hx as ->. reflexivity.
    + cbn in Hx |- *. apply (IH k p Hx).
  - cbn [step]. replace i with (zlen buf) by lia. rewrite Z.sub_diag. unfold sub. cbn [Z.to_nat firstn]. rewrite app_nil_r, firstn_all2 by (unfold zlen; lia). reflexivity.
Qed.

Lemma c76_fill_short : forall (A B : Type) (c : config) (ty : vty) (l d : list A)
    (I : Type) (it : SIMDIterator (list B) I) (s : I) (f : A -> B) (d0 : B) (buf : list B) (fuel : nat),
  vty_ok ty -> zlen d = WIDTH ty -> (zlen l + WIDTH ty) * SIZE ty <= isize_max ->
  map_chain c (slice_iterator c ty) (simd_iter l d) B I it s f ->
  zlen buf < zlen l -> (length l < fuel)%nat -> build c = Debug \/ zlen l < WIDTH ty ->
  let fit := if zlen l <? WIDTH ty then zlen buf else WIDTH ty * (zlen buf / WIDTH ty) in
  scalar_fill_memory c it d0 fuel s buf = (overwritten (firstn (Z.to_nat fit) (map f l)) buf, Panic).
Proof.
  intros A B c ty l d I it s f d0 buf fuel Hty Hd Hcap Hch Hbuf Hf Hdbg fit.
  pose proof (vty_ok_facts _ Hty) as (H1 & H2 & H3 & H4 & H5 & H6). pose proof (zlen_nonneg l) as Hl0. pose proof (zlen_nonneg buf) as Hb0.
  assert (Hl : slice_ok ty l) by (unfold slice_ok; clear -Hcap H1 H2 H3 H4; nia).
  destruct (chain_shape A c ty l d Hty Hl Hd Hcap B I it s f Hch) as (vs & rest & s' & Hcp & [Hv Hc] & Hr & Hw & Hsz).
  pose proof (chunked_count ty l vs rest (conj Hv Hc) Hr) as Hcnt.
  destruct (emits_nexts _ _ _ _ _ (cp_emits _ _ _ _ _ Hcp)) as (s1 & Hnx & Hend).
  pose proof (small_store _ _ _ _ _ Hcp) as Hss. rewrite Hw, zlen_map in Hss.
  set (ws := map (map f) vs) in *.
  assert (Hws : Forall (fun v => zlen v = WIDTH (it_ty (itb it))) ws).
  { unfold ws. rewrite Hw. apply Forall_map. eapply Forall_impl; [|exact Hv]. intros v Hz. cbv beta. rewrite zlen_map. exact Hz. }
  assert (Hvlen : (length vs <= length l)%nat) by (apply (chunked_length ty l Hty vs rest (conj Hv Hc))).
  set (k := zlen buf / WIDTH ty). assert (Hk : 0 <= k <= zlen vs) by (rewrite Hcnt; unfold k; split; [apply Z.div_pos; lia|apply Z.div_le_mono; lia]).
  assert (Hml : map f l = concat ws ++ map f rest) by (unfold ws; rewrite <- Hc, map_app, concat_map; reflexivity).
  rewrite <- (firstn_skipn (Z.to_nat k) ws) in Hnx.
  assert (Hwk : zlen (firstn (Z.to_nat k) ws) = k) by (rewrite zlen_firstn; unfold ws; rewrite zlen_map; lia).
  assert (Hfk : Forall (fun v => zlen v = WIDTH (it_ty (itb it))) (firstn (Z.to_nat k) ws)).
  { apply Forall_forall. intros v Hin. rewrite Forall_forall in Hws. apply Hws. rewrite <- (firstn_skipn (Z.to_nat k) ws). apply in_or_app. left. exact Hin. }
  pose proof (concat_zlen _ _ Hfk) as Hck. rewrite Hwk, Hw in Hck. pose proof (Z.div_mod (zlen buf) (WIDTH ty) ltac:(lia)) as Hdm. fold k in Hdm.
  pose proof (Z.mod_pos_bound (zlen buf) (WIDTH ty) ltac:(lia)) as Hmb.
  assert (Hkl : (length (firstn (Z.to_nat k) ws) < fuel)%nat) by (unfold zlen in *; lia).
  destruct (fill_loop_prefix c it ltac:(lia) (firstn (Z.to_nat k) ws) _ _ _ Hfk Hnx fuel [] buf 0 (splat (WIDTH (it_ty (itb it))) d0) Hkl eq_refl ltac:(lia) ltac:(clear -Hss Hk Hwk Hw H1; nia)) as (s2 & G1 & G2).
  cbn [app] in G2. unfold scalar_fill_memory. rewrite G2. clear G2.
  assert (Hfit : WIDTH ty <= zlen l -> overwritten (concat (firstn (Z.to_nat k) ws)) buf = overwritten (firstn (Z.to_nat fit) (map f l)) buf).
  { intros Hge. f_equal. unfold fit. replace (zlen l <? WIDTH ty) with false by lia. fold k. rewrite Hml. rewrite <- (firstn_skipn (Z.to_nat k) ws) at 2. rewrite concat_app, <- app_assoc, firstn_app.
    rewrite (firstn_all2 (concat (firstn (Z.to_nat k) ws))) by (unfold zlen in *; lia). replace (Z.to_nat (WIDTH ty * k) - length (concat (firstn (Z.to_nat k) ws)))%nat with 0%nat by (unfold zlen in *; lia). cbn. rewrite app_nil_r. reflexivity. }
  set (mem := overwritten (concat (firstn (Z.to_nat k) ws)) buf) in *.
  assert (Hmem : zlen mem = zlen buf) by (unfold mem, overwritten; rewrite zlen_app; replace (length (concat (firstn (Z.to_nat k) ws))) with (Z.to_nat (zlen (concat (firstn (Z.to_nat k) ws)))) by (unfold zlen; lia); rewrite zlen_skipn; lia).
  assert (Hlv : zlen l = WIDTH ty * zlen vs + zlen rest) by (rewrite <- Hc, zlen_app, (concat_zlen _ _ Hv); reflexivity).
  destruct (fuel - length (firstn (Z.to_nat k) ws))%nat as [|fuel'] eqn:Efu; [lia|]. cbn [fill_loop_memory]. rewrite Hwk, Z.add_0_l, Hw.
  assert (Hskl : zlen (skipn (Z.to_nat k) ws) = zlen vs - k) by (rewrite zlen_skipn; unfold ws; rewrite zlen_map; lia).
  destruct (skipn (Z.to_nat k) ws) as [|w more] eqn:Esk.
  - assert (Hn : it_next (itb it) s2 = Ok (None, s1)) by (inversion G1; assumption). rewrite Hn. cbn [step].
    assert (Hkv : k = zlen vs) by (rewrite zlen_nil in Hskl; lia).
    rewrite Hend. cbn [step]. destruct (tail_of d rest) as [[p n]|] eqn:Et; [|].
    + destruct (tail_of_fields ty d Hd rest p n Hr Et) as (T1 & T2 & T3 & T4). unfold fill_tail_memory. rewrite Hw. destruct (0 <? WIDTH ty * k) eqn:E0.
      * assert (1 <= k) by nia. assert (Hge : WIDTH ty <= zlen l) by (rewrite Hlv, <- Hkv; pose proof (zlen_nonneg rest); clear -H H1 H0; nia).
        rewrite usub_ok by (rewrite Hkv in *; clear -T2 T3 Hss Hr H H1; nia). cbn [step]. unfold store_unchecked.
        replace (zlen mem <? WIDTH ty * k - n) with false by lia. replace (WIDTH ty <=? zlen mem - (WIDTH ty * k - n)) with false by lia.
        destruct Hdbg as [->|Hlt]; [|lia]. cbn [step]. rewrite (Hfit Hge). reflexivity.
      * assert (Hk0 : k = 0) by nia. assert (Hlt : zlen l < WIDTH ty) by lia. replace (WIDTH ty * k) with 0 by lia.
        rewrite usub_ok by (unfold usize_mod; lia). cbn [step].
        rewrite fill_elements_short; rewrite ?Hw; [|unfold usize_mod; lia|rewrite zlen_map; exact T4|lia|lia|lia|lia].
        cbn [step]. f_equal. cbn [Z.to_nat firstn app]. unfold fit. replace (zlen l <? WIDTH ty) with true by lia. rewrite Hmem.
        assert (vs = []) as -> by (apply zlen_zero; lia). cbn [concat app] in Hc. subst rest. unfold overwritten.
        rewrite skipn_all2 by (rewrite firstn_length, map_length; unfold zlen in *; lia). rewrite app_nil_r. unfold sub. rewrite Z.sub_0_r, Z.add_0_l.
        f_equal. rewrite T1, T2, <- Hd. rewrite skipn_map. fold (unfilled d l). rewrite right_aligned_skipn by lia. reflexivity.
    + exfalso. destruct rest; [rewrite zlen_nil in Hlv; lia|discriminate].
  - assert (Hk1 : 1 <= zlen vs) by (rewrite zlen_cons in Hskl; pose proof (zlen_nonneg more); lia).
    assert (Hge : WIDTH ty <= zlen l) by (rewrite Hlv; pose proof (zlen_nonneg rest); clear -H Hk1 H1; nia).
    assert (exists s3, it_next (itb it) s2 = Ok (Some w, s3)) as [s3 Hn1] by (inversion G1; eexists; eassumption). rewrite Hn1. cbn [step]. unfold store_unchecked.
    replace (zlen mem <? WIDTH ty * k) with false by lia. replace (WIDTH ty <=? zlen mem - WIDTH ty * k) with false by lia.
    destruct Hdbg as [->|Hlt]; [|lia]. cbn [step]. rewrite (Hfit Hge). reflexivity.
Qed.

Lemma c76_fill_all_short : forall (A B : Type) (c : config) (ty : vty) (l d : list A)
    (I : Type) (it : SIMDIterator (list B) I) (s : I) (f : A -> B) (d0 : B) (buf : list B) (fuel : nat),
  vty_ok ty -> zlen d = WIDTH ty -> (zlen l + WIDTH ty) * SIZE ty <= isize_max ->
  map_chain c (slice_iterator c ty) (simd_iter l d) B I it s f ->
  zlen buf < (zlen l + WIDTH ty - 1) / WIDTH ty * WIDTH ty -> (length l < fuel)%nat -> build c = Debug ->
  scalar_fill_all_memory c it d0 fuel s buf = (overwritten (firstn (Z.to_nat (WIDTH ty * (zlen buf / WIDTH ty))) (map f l)) buf, Panic).
Proof.
  intros A B c ty l d I it s f d0 buf fuel Hty Hd Hcap Hch Hbuf Hf Hdbg.
  pose proof (vty_ok_facts _ Hty) as (H1 & H2 & H3 & H4 & H5 & H6). pose proof (zlen_nonneg l) as Hl0. pose proof (zlen_nonneg buf) as Hb0.
  assert (Hl : slice_ok ty l) by (unfold slice_ok; clear -Hcap H1 H2 H3 H4; nia).
  destruct (chain_shape A c ty l d Hty Hl Hd Hcap B I it s f Hch) as (vs & rest & s' & Hcp & [Hv Hc] & Hr & Hw & Hsz).
  pose proof (chunked_count ty l vs rest (conj Hv Hc) Hr) as Hcnt.
  destruct (emits_nexts _ _ _ _ _ (cp_emits _ _ _ _ _ Hcp)) as (s1 & Hnx & Hend).
  pose proof (small_store _ _ _ _ _ Hcp) as Hss. rewrite Hw, zlen_map in Hss.
  set (ws := map (map f) vs) in *.
  assert (Hws : Forall (fun v => zlen v = WIDTH (it_ty (itb it))) ws).
  { unfold ws. rewrite Hw. apply Forall_map. eapply Forall_impl; [|exact Hv]. intros v Hz. cbv beta. rewrite zlen_map. exact Hz. }
  assert (Hvlen : (length vs <= length l)%nat) by (apply (chunked_length ty l Hty vs rest (conj Hv Hc))).
  assert (Hlv : zlen l = WIDTH ty * zlen vs + zlen rest) by (rewrite <- Hc, zlen_app, (concat_zlen _ _ Hv); reflexivity).
  set (k := zlen buf / WIDTH ty).
  assert (Hceil : (zlen l + WIDTH ty - 1) / WIDTH ty = if zlen rest =? 0 then zlen vs else zlen vs + 1).
  { pose proof (zlen_nonneg rest) as Hr0. destruct (zlen rest =? 0) eqn:Er; symmetry; [apply Z.div_unique with (WIDTH ty - 1); lia|apply Z.div_unique with (zlen rest - 1); lia]. }
  assert (Hk : 0 <= k <= zlen vs /\ (zlen rest = 0 -> k < zlen vs)).
  { rewrite Hceil in Hbuf. pose proof (zlen_nonneg rest) as Hr0. unfold k. split; [split; [apply Z.div_pos; lia|]|intros Er].
    - apply Z.lt_succ_r. apply Z.div_lt_upper_bound; [lia|]. destruct (zlen rest =? 0); lia.
    - apply Z.div_lt_upper_bound; [lia|]. rewrite Er in Hbuf. cbn in Hbuf. lia. }
  destruct Hk as [Hk Hke].
  assert (Hml : map f l = concat ws ++ map f rest) by (unfold ws; rewrite <- Hc, map_app, concat_map; reflexivity).
  rewrite <- (firstn_skipn (Z.to_nat k) ws) in Hnx.
  assert (Hwk : zlen (firstn (Z.to_nat k) ws) = k) by (rewrite zlen_firstn; unfold ws; rewrite zlen_map; lia).
  assert (Hfk : Forall (fun v => zlen v = WIDTH (it_ty (itb it))) (firstn (Z.to_nat k) ws)).
  { apply Forall_forall. intros v Hin. rewrite Forall_forall in Hws. apply Hws. rewrite <- (firstn_skipn (Z.to_nat k) ws). apply in_or_app. left. exact Hin. }
  pose proof (concat_zlen _ _ Hfk) as Hck. rewrite Hwk, Hw in Hck. pose proof (Z.div_mod (zlen buf) (WIDTH ty) ltac:(lia)) as Hdm. fold k in Hdm.
  pose proof (Z.mod_pos_bound (zlen buf) (WIDTH ty) ltac:(lia)) as Hmb.
  assert (Hkl : (length (firstn (Z.to_nat k) ws) < fuel)%nat) by (unfold zlen in *; lia).
  destruct (fill_loop_prefix c it ltac:(lia) (firstn (Z.to_nat k) ws) _ _ _ Hfk Hnx fuel [] buf 0 (splat (WIDTH (it_ty (itb it))) d0) Hkl eq_refl ltac:(lia) ltac:(clear -Hss Hk Hwk Hw H1; nia)) as (s2 & G1 & G2).
  cbn [app] in G2. unfold scalar_fill_all_memory. rewrite G2. clear G2.
  assert (Hfit : overwritten (concat (firstn (Z.to_nat k) ws)) buf = overwritten (firstn (Z.to_nat (WIDTH ty * k)) (map f l)) buf).
  { f_equal. rewrite Hml. rewrite <- (firstn_skipn (Z.to_nat k) ws) at 2. rewrite concat_app, <- app_assoc, firstn_app.
    rewrite (firstn_all2 (concat (firstn (Z.to_nat k) ws))) by (unfold zlen in *; lia). replace (Z.to_nat (WIDTH ty * k) - length (concat (firstn (Z.to_nat k) ws)))%nat with 0%nat by (unfold zlen in *; lia). cbn. rewrite app_nil_r. reflexivity. }
  set (mem := overwritten (concat (firstn (Z.to_nat k) ws)) buf) in *.
  assert (Hmem : zlen mem = zlen buf) by (unfold mem, overwritten; rewrite zlen_app; replace (length (concat (firstn (Z.to_nat k) ws))) with (Z.to_nat (zlen (concat (firstn (Z.to_nat k) ws)))) by (unfold zlen; lia); rewrite zlen_skipn; lia).
  destruct (fuel - length (firstn (Z.to_nat k) ws))%nat as [|fuel'] eqn:Efu; [lia|]. cbn [fill_loop_memory]. rewrite Hwk, Z.add_0_l, Hw.
  assert (Hskl : zlen (skipn (Z.to_nat k) ws) = zlen vs - k) by (rewrite zlen_skipn; unfold ws; rewrite zlen_map; lia).
  destruct (skipn (Z.to_nat k) ws) as [|w more] eqn:Esk.
  - assert (Hn : it_next (itb it) s2 = Ok (None, s1)) by (inversion G1; assumption). rewrite Hn. cbn [step].
    assert (Hkv : k = zlen vs) by (rewrite zlen_nil in Hskl; lia).
    rewrite Hend. cbn [step]. destruct (tail_of d rest) as [[p n]|] eqn:Et.
    + unfold store_unchecked. replace (zlen mem <? WIDTH ty * k) with false by lia. replace (WIDTH ty <=? zlen mem - WIDTH ty * k) with false by lia.
      rewrite Hdbg. cbn [step]. rewrite Hfit. reflexivity.
    + exfalso. destruct rest; [rewrite zlen_nil in Hke; lia|discriminate].
  - assert (exists s3, it_next (itb it) s2 = Ok (Some w, s3)) as [s3 Hn1] by (inversion G1; eexists; eassumption). rewrite Hn1. cbn [step]. unfold store_unchecked.
    replace (zlen mem <? WIDTH ty * k) with false by lia. replace (WIDTH ty <=? zlen mem - WIDTH ty * k) with false by lia.
    rewrite Hdbg. cbn [step]. rewrite Hfit. reflexivity.
Qed.

Lemma for_store_loop {A B I} (it : SIMDIterator (list A) I) w (f : list A -> list B) : 0 < w -> (forall v, zlen v = w -> zlen (f v) = w) ->
  forall vs s s1, nexts it s vs s1 -> Forall (fun v => zlen v = w) vs ->
  forall fuel i pre post, (length vs < fuel)%nat -> zlen pre = i * w ->
  let k := Z.min (zlen vs) (zlen post / w) in
  exists r, for_store_memory (itb it) w f fuel s i (pre ++ post) = (pre ++ overwritten (concat (map f (firstn (Z.to_nat k) vs))) post, r) /\
    r = if zlen vs * w <=? zlen post then Ok s1 else Panic.
Proof.
  intros Hw Hf vs s s1 Hn. induction Hn as [s s1 H1|s v s1 vs s2 H1 _ IH]; intros Hv [|fuel] i pre post Hfu Hpre k; cbn [length] in Hfu; try lia; cbn [for_store_memory]; rewrite H1; cbn [step].
  - exists (Ok s1). pose proof (zlen_nonneg post). split; [unfold overwritten; rewrite firstn_nil; reflexivity|]. change (zlen (@nil (list A))) with 0. replace (0 * w <=? zlen post) with true by lia. reflexivity.
  - assert (Hv1 : zlen v = w) by (inversion Hv; assumption). assert (Hv2 : Forall (fun v => zlen v = w) vs) by (inversion Hv; assumption). rewrite zlen_cons in *. pose proof (zlen_nonneg vs). pose proof (zlen_nonneg post). pose proof (zlen_nonneg pre). unfold store. rewrite zlen_app, Hpre.
    replace (i * w + zlen post <? i * w) with false by lia. replace (i * w + zlen post - i * w) with (zlen post) by lia. destruct (w <=? zlen post) eqn:E; cbn [step].
    + assert (Hu : upd (pre ++ post) (i * w) (f v) = (pre ++ f v) ++ skipn (Z.to_nat w) post).
      { rewrite <- (firstn_skipn (Z.to_nat w) post) at 1. rewrite upd_app; [apply app_assoc|exact Hpre|]. rewrite firstn_length. specialize (Hf v Hv1). unfold zlen in *. lia. }
      rewrite Hu. destruct (IH Hv2 fuel (i + 1) (pre ++ f v) (skipn (Z.to_nat w) post) ltac:(lia) ltac:(rewrite zlen_app, Hpre, (Hf v Hv1); lia)) as (r & G1 & G2).
      exists r. rewrite G1. split.
      * f_equal. rewrite <- app_assoc. f_equal. unfold overwritten. rewrite zlen_skipn. assert (Hq : (zlen post - w) / w = zlen post / w - 1) by (replace (zlen post - w) with (zlen post + (-1) * w) by lia; rewrite Z.div_add by lia; lia).
        rewrite Z2Nat.id by lia. replace (Z.max 0 (zlen post - w)) with (zlen post - w) by lia. rewrite Hq. replace k with (1 + Z.min (zlen vs) (zlen post / w - 1)) by (unfold k; rewrite ?zlen_cons; lia).
        set (j := Z.min (zlen vs) (zlen post / w - 1)). assert (Hj : 0 <= j) by (unfold j; assert (1 <= zlen post / w) by (apply Z.div_le_lower_bound; lia); lia).
        replace (Z.to_nat (1 + j)) with (S (Z.to_nat j)) by lia. cbn [firstn map concat]. rewrite <- app_assoc. f_equal. f_equal. rewrite app_length, skipn_skipn. f_equal. specialize (Hf v Hv1). unfold zlen in *. lia.
      * rewrite G2, zlen_skipn. rewrite Z2Nat.id by lia. replace (zlen vs * w <=? Z.max 0 (zlen post - w)) with ((1 + zlen vs) * w <=? zlen post) by lia. reflexivity.
    + exists Panic. split; [|replace ((1 + zlen vs) * w <=? zlen post) with false by nia; reflexivity]. f_equal. f_equal. replace k with 0 by (unfold k; rewrite (Z.div_small (zlen post) w), ?zlen_cons by lia; lia). unfold overwritten. reflexivity.
Qed.

Lemma c77_for_store : forall (A B : Type) (c : config) (ty : vty) (l d : list A) (f : list A -> list B) (out : list B) (fuel : nat),
  vty_ok ty -> slice_ok ty l -> zlen d = WIDTH ty -> (forall v, zlen v = WIDTH ty -> zlen (f v) = WIDTH ty) -> (length l < fuel)%nat ->
  exists vs rest memory r, chunked (WIDTH ty) l vs rest /\ zlen rest < WIDTH ty /\
  for_store_memory (itb (slice_iterator c ty)) (WIDTH ty) f fuel (simd_iter l d) 0 out = (memory, r) /\
  (zlen l - zlen rest <= zlen out -> memory = concat (map f vs) ++ skipn (Z.to_nat (zlen l - zlen rest)) out /\ exists s', r = Ok s') /\
  (zlen out < zlen l - zlen rest -> r = Panic /\
     memory = concat (map f (firstn (Z.to_nat (zlen out / WIDTH ty)) vs)) ++ skipn (Z.to_nat (WIDTH ty * (zlen out / WIDTH ty))) out).
Proof.
  intros A B c ty l d f out fuel Hty Hl Hd Hsz Hf.
  pose proof (vty_ok_facts _ Hty) as (H1 & H2 & H3 & H4 & H5 & H6). pose proof (zlen_nonneg l) as Hl0.
  destruct (slice_emits c ty l d Hty Hl Hd 0 ltac:(lia) ltac:(lia)) as (vs & rest & Hem & Hch & Hr). cbn [Z.to_nat skipn] in Hch.
  destruct (emits_nexts _ _ _ _ _ Hem) as (s1 & Hnx & _). pose proof (chunked_length ty l Hty vs rest Hch) as Hvl. destruct Hch as [Hv Hc].
  assert (Hlv : zlen l - zlen rest = zlen vs * WIDTH ty) by (rewrite <- Hc, zlen_app, (concat_zlen _ _ Hv); lia).
  destruct (for_store_loop (slice_iterator c ty) (WIDTH ty) f ltac:(lia) Hsz vs _ _ Hnx Hv fuel 0 [] out ltac:(lia) ltac:(reflexivity)) as (r & G1 & G2).
  cbn [app] in G1. exists vs, rest. eexists. exists r. split; [split; assumption|]. split; [exact Hr|]. split; [exact G1|].
  assert (Hfz : forall k, 0 <= k <= zlen vs -> length (concat (map f (firstn (Z.to_nat k) vs))) = Z.to_nat (WIDTH ty * k)).
  { intros k Hk. assert (Hz : zlen (concat (map f (firstn (Z.to_nat k) vs))) = WIDTH ty * k).
    { rewrite (concat_zlen (WIDTH ty)); [rewrite zlen_map; f_equal; rewrite zlen_firstn; lia|]. apply Forall_map. apply Forall_forall. intros v Hin. apply Hsz. rewrite Forall_forall in Hv. apply Hv.
      rewrite <- (firstn_skipn (Z.to_nat k) vs). apply in_or_app. left. exact Hin. }
    unfold zlen in Hz |- *. unfold zlen in Hk. lia. }
  pose proof (zlen_nonneg vs). pose proof (zlen_nonneg out). assert (0 <= zlen out / WIDTH ty) by (apply Z.div_pos; lia).
  split; intros Hcase; rewrite Hlv in *.
  - assert (Hk : zlen vs <= zlen out / WIDTH ty) by (apply Z.div_le_lower_bound; lia). rewrite Z.min_l by lia. unfold overwritten. rewrite Hfz by lia. split; [|rewrite G2; replace (zlen vs * WIDTH ty <=? zlen out) with true by lia; exists s1; reflexivity].
    rewrite firstn_all2 by (unfold zlen; lia). rewrite (Z.mul_comm (WIDTH ty)). reflexivity.
  - assert (Hk : zlen out / WIDTH ty < zlen vs) by (apply Z.div_lt_upper_bound; lia). rewrite Z.min_r by lia. unfold overwritten. rewrite Hfz by lia. split; [|reflexivity]. rewrite G2. replace (zlen vs * WIDTH ty <=? zlen out) with false by lia. reflexivity.
Qed.
