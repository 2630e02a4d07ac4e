(** Mapping and collecting over complete traversals. *)
From Coq Require Import Lia ZifyBool ZifyNat.
From Verif Require Import Base Spec ListFacts Vecs VecFacts Iters IterFacts Zip.
Ltac Zify.zify_post_hook ::= Z.div_mod_to_equations.

(** ** Closures *)

Lemma run_closure_app {E X Y} (f : E -> X -> Y * E) xs : forall e zs,
  run_closure f e (xs ++ zs) =
  (fst (run_closure f e xs) ++ fst (run_closure f (snd (run_closure f e xs)) zs),
   snd (run_closure f (snd (run_closure f e xs)) zs)).
Proof.
  induction xs as [|x xs IH]; intros e zs; cbn [app run_closure].
  - cbn [fst snd app]. destruct (run_closure f e zs); reflexivity.
  - destruct (f e x) as [y e'] eqn:E1. rewrite IH.
    destruct (run_closure f e' xs) as [ys e''] eqn:E2. cbn [fst snd app].
    destruct (run_closure f e'' zs); reflexivity.
Qed.

Lemma run_closure_length {E X Y} (f : E -> X -> Y * E) xs : forall e,
  length (fst (run_closure f e xs)) = length xs.
Proof.
  induction xs as [|x xs IH]; intros e; [reflexivity|].
  cbn [run_closure]. destruct (f e x) as [y e']. specialize (IH e').
  destruct (run_closure f e' xs) as [ys e'']. cbn in *. lia.
Qed.

Lemma run_closure_Forall {E X Y} (f : E -> X -> Y * E) (Q : X -> Prop) (P : Y -> Prop) xs :
  (forall e x, Q x -> P (fst (f e x))) -> Forall Q xs ->
  forall e, Forall P (fst (run_closure f e xs)).
Proof.
  intros Hf HQ. induction HQ as [|x xs Hx _ IH]; intros e; [constructor|].
  cbn [run_closure]. pose proof (Hf e x Hx) as Hp. destruct (f e x) as [y e']. specialize (IH e').
  destruct (run_closure f e' xs) as [ys e'']. cbn in *. constructor; assumption.
Qed.

Lemma run_closure_pure {E X Y} (f : E -> X -> Y * E) (g : X -> Y) :
  (forall e x, f e x = (g x, e)) -> forall xs e, run_closure f e xs = (map g xs, e).
Proof.
  intros Hf. induction xs as [|x xs IH]; intros e; [reflexivity|].
  cbn [run_closure map]. rewrite Hf, IH. reflexivity.
Qed.

(** The tail after mapping: the closure's value and the rescaled count. *)
Definition map_tail {E V Y} (f : E -> V -> Y * E) (e : E) (t : option (V * Z)) (num den : Z)
  : option (Y * Z) :=
  match t with
  | Some (p, n) => Some (fst (f e p), n * num / den)
  | None => None
  end.

Lemma emits_map_gen {V B I E} c (it : SIMDIterator V I) out_ty
      (func : E -> V -> list B * E) (m : SIMDIterator (list B) (SIMDMap I E)) :
  (forall s, it_next (itb m) s = sm_next it func s) ->
  (forall s, it_end m s = sm_end c it out_ty func s) ->
  0 < SIZE out_ty ->
  forall s vs t s', emits it s vs t s' ->
  (forall p n, t = Some (p, n) -> 0 <= n * SIZE (it_ty (itb it)) < usize_mod) ->
  forall e,
  emits m (mkSIMDMap s e) (fst (run_closure func e vs))
    (map_tail func (snd (run_closure func e vs)) t (SIZE (it_ty (itb it))) (SIZE out_ty))
    (mkSIMDMap s' (snd (run_closure func e (visited vs t)))).
Proof.
  intros Hn He Hsz s vs t s' H Ht.
  induction H as [s s1 t s2 H1 H2|s v s1 vs t s2 H1 _ IH]; intros e.
  - cbn [run_closure fst snd].
    eapply emits_end with (s1 := mkSIMDMap s1 e).
    + rewrite Hn. unfold sm_next. cbn [sm_iter sm_env]. rewrite H1. reflexivity.
    + rewrite He. unfold sm_end. cbn [sm_iter sm_env]. rewrite H2, bind_Ok.
      destruct t as [[p n]|]; [|reflexivity].
      rewrite umul_ok, bind_Ok by (apply (Ht p); reflexivity).
      rewrite udiv_ok, bind_Ok by exact Hsz. unfold visited; cbn [app run_closure map_tail].
      destruct (func e p) as [y e']; reflexivity.
  - unfold visited in *. cbn [run_closure app].
    destruct (func e v) as [y e'] eqn:Ef. specialize (IH Ht e').
    destruct (run_closure func e' vs) as [ys e''] eqn:Er.
    destruct (run_closure func e' (vs ++ _)) as [zs e3] eqn:Ez. cbn [fst snd] in *.
    eapply emits_next; [|exact IH].
    rewrite Hn. unfold sm_next. cbn [sm_iter sm_env]. rewrite H1, bind_Ok, Ef. reflexivity.
Qed.

Lemma emits_map {V B I E} c (it : SIMDIterator V I) out_ty (d0 : B)
      (func : E -> V -> list B * E) s vs t s' e :
  0 < SIZE out_ty -> emits it s vs t s' ->
  (forall p n, t = Some (p, n) -> 0 <= n * SIZE (it_ty (itb it)) < usize_mod) ->
  emits (map_iterator c it out_ty d0 func) (mkSIMDMap s e) (fst (run_closure func e vs))
    (map_tail func (snd (run_closure func e vs)) t (SIZE (it_ty (itb it))) (SIZE out_ty))
    (mkSIMDMap s' (snd (run_closure func e (visited vs t)))).
Proof. intros; apply (emits_map_gen c); auto. Qed.

Lemma emits_zipmap {V B I E} c (it : SIMDIterator V I) out_ty (d0 : B)
      (func : E -> V -> list B * E) s vs t s' e :
  0 < SIZE out_ty -> emits it s vs t s' ->
  (forall p n, t = Some (p, n) -> 0 <= n * SIZE (it_ty (itb it)) < usize_mod) ->
  emits (zipmap_iterator c it out_ty d0 func) (mkSIMDMap s e) (fst (run_closure func e vs))
    (map_tail func (snd (run_closure func e vs)) t (SIZE (it_ty (itb it))) (SIZE out_ty))
    (mkSIMDMap s' (snd (run_closure func e (visited vs t)))).
Proof. intros; apply (emits_map_gen c); auto. Qed.

(** ** Storing *)

(** [next] returns [vs] and then [None]. *)
Inductive nexts {V I} (it : SIMDIterator V I) : I -> list V -> I -> Prop :=
| nexts_none s s1 : it_next (itb it) s = Ok (None, s1) -> nexts it s [] s1
| nexts_some s v s1 vs s2 :
    it_next (itb it) s = Ok (Some v, s1) -> nexts it s1 vs s2 -> nexts it s (v :: vs) s2.

Lemma emits_nexts {V I} (it : SIMDIterator V I) s vs t s' :
  emits it s vs t s' -> exists s1, nexts it s vs s1 /\ it_end it s1 = Ok (t, s').
Proof.
  induction 1 as [s s1 t s2 H1 H2|s v s1 vs t s2 H1 _ (s3 & H3 & H4)].
  - exists s1; split; [constructor|]; assumption.
  - exists s3; split; [econstructor; eassumption|assumption].
Qed.

Lemma last_cons {V} (v : V) vs x : last (v :: vs) x = last vs v.
Proof.
  revert v x; induction vs as [|w vs IH]; intros v x; [reflexivity|].
  rewrite (IH w v). change (last (v :: w :: vs) x) with (last (w :: vs) x). apply IH.
Qed.

Section Store.
Context {A I X : Type}.
Variable c : config.
Variable it : SIMDIterator (list A) I.
Variable inj : A -> X.
Notation W := (WIDTH (it_ty (itb it))).

Lemma store_loop_ok s vs s1 :
  nexts it s vs s1 -> 0 < W -> Forall (fun v => zlen v = W) vs ->
  forall fuel pre mid post offset lastvec,
  (length vs < fuel)%nat ->
  zlen pre = offset -> zlen mid = W * zlen vs ->
  offset + W * zlen vs < usize_mod ->
  store_loop c it inj fuel s (pre ++ mid ++ post) offset lastvec =
  Ok (s1, pre ++ map inj (concat vs) ++ post, offset + W * zlen vs, last vs lastvec).
Proof.
  intros H HW. induction H as [s s1 H1|s v s1 vs s2 H1 _ IH];
    intros Hv [|fuel] pre mid post offset lastvec Hf Hpre Hmid Hb; cbn in Hf; try lia.
  - rewrite zlen_nil in *. assert (mid = []) as -> by (apply zlen_zero; lia).
    cbn [store_loop]. rewrite H1, bind_Ok. cbn [concat map app last]. do 3 f_equal. lia.
  - rewrite zlen_cons in *. pose proof (zlen_nonneg vs). pose proof (zlen_nonneg pre).
    pose proof (zlen_nonneg post).
    inversion Hv as [|? ? Hv1 Hv2]; subst.
    cbn [store_loop]. rewrite H1, bind_Ok.
    rewrite <- (firstn_skipn (Z.to_nat W) mid).
    set (m1 := firstn (Z.to_nat W) mid). set (m2 := skipn (Z.to_nat W) mid).
    assert (Hm1 : zlen m1 = W) by (unfold m1; rewrite zlen_firstn; nia).
    assert (Hm2 : zlen m2 = W * zlen vs) by (unfold m2; rewrite zlen_skipn; nia).
    rewrite store_unchecked_ok; [|lia| rewrite !zlen_app; nia|lia].
    rewrite bind_Ok, uadd_ok, bind_Ok by nia.
    rewrite <- app_assoc. rewrite upd_app; [|reflexivity|rewrite map_length; unfold zlen in *; lia].
    rewrite app_assoc.
    rewrite (IH Hv2 fuel (pre ++ map inj v) m2 post (zlen pre + W) v);
      [|lia|rewrite zlen_app, zlen_map; lia|exact Hm2|lia].
    rewrite last_cons. cbn [concat]. rewrite map_app, <- !app_assoc.
    do 3 f_equal. lia.
Qed.

(** The tail: offset > 0. *)
Lemma store_tail_over (pre post : list X) (lastvec p : list A) n offset :
  0 < W -> zlen lastvec = W -> zlen p = W -> 0 <= n <= W ->
  zlen pre + W = offset -> W - n <= zlen post -> offset + W < usize_mod ->
  store_tail c it inj (pre ++ map inj lastvec ++ post) offset lastvec p n =
  Ok (pre ++ map inj lastvec ++ map inj (skipn (Z.to_nat n) p) ++ skipn (Z.to_nat (W - n)) post).
Proof.
  intros HW Hl Hp Hn Hoff Hpost Hb. pose proof (zlen_nonneg pre). unfold store_tail.
  destruct (0 <? offset) eqn:E; [|lia].
  rewrite usub_ok, bind_Ok by lia.
  rewrite store_unchecked_ok by (rewrite ?zlen_app, ?zlen_map; lia).
  rewrite bind_Ok, usub_ok, bind_Ok by lia.
  set (La := firstn (Z.to_nat (W - n)) (map inj lastvec)).
  set (Lb := skipn (Z.to_nat (W - n)) (map inj lastvec)).
  set (S1 := firstn (Z.to_nat (W - n)) post). set (S2 := skipn (Z.to_nat (W - n)) post).
  set (Pa := map inj (firstn (Z.to_nat n) p)). set (Pb := map inj (skipn (Z.to_nat n) p)).
  assert (HLa : zlen La = W - n) by (unfold La; rewrite zlen_firstn, zlen_map; lia).
  assert (HLb : zlen Lb = n) by (unfold Lb; rewrite zlen_skipn, zlen_map; lia).
  assert (HS1 : zlen S1 = W - n) by (unfold S1; rewrite zlen_firstn; lia).
  assert (HPa : zlen Pa = n) by (unfold Pa; rewrite zlen_map, zlen_firstn; lia).
  assert (HPb : zlen Pb = W - n) by (unfold Pb; rewrite zlen_map, zlen_skipn; lia).
  assert (E1 : pre ++ map inj lastvec ++ post = (pre ++ La) ++ (Lb ++ S1) ++ S2).
  { rewrite <- (firstn_skipn (Z.to_nat (W - n)) (map inj lastvec)).
    rewrite <- (firstn_skipn (Z.to_nat (W - n)) post). fold La Lb S1 S2.
    rewrite <- !app_assoc. reflexivity. }
  rewrite E1, upd_app;
    [|rewrite zlen_app; lia|rewrite app_length, map_length; unfold zlen in *; lia].
  assert (E2 : (pre ++ La) ++ map inj p ++ S2 = pre ++ (La ++ Pa) ++ (Pb ++ S2)).
  { rewrite <- (firstn_skipn (Z.to_nat n) p), map_app. fold Pa Pb. rewrite <- !app_assoc. reflexivity. }
  rewrite E2, store_unchecked_ok
    by (try lia; rewrite !zlen_app; pose proof (zlen_nonneg S2); lia).
  rewrite upd_app; [|lia|rewrite app_length, map_length; unfold zlen in *; lia].
  reflexivity.
Qed.

(** The tail: offset = 0. *)
Lemma store_tail_fresh (buf : list X) (lastvec p : list A) n :
  0 < W < usize_mod -> zlen p = W -> 0 <= n <= W -> W - n <= zlen buf ->
  store_tail c it inj buf 0 lastvec p n =
  Ok (map inj (skipn (Z.to_nat n) p) ++ skipn (Z.to_nat (W - n)) buf).
Proof.
  intros HW Hp Hn Hbuf. unfold store_tail.
  destruct (0 <? 0) eqn:E; [lia|]. rewrite usub_ok, bind_Ok by lia.
  assert (Hlen : Z.to_nat (W - n) = length (map inj (skipn (Z.to_nat n) p)))
    by (rewrite map_length, skipn_length; unfold zlen in *; lia).
  rewrite <- (firstn_skipn (Z.to_nat (W - n)) buf) at 1. rewrite Hlen at 1.
  match goal with |- for_range _ _ ?f _ = _ =>
    pose proof (for_range_write f (map inj (skipn (Z.to_nat n) p)) 0 []
                 (firstn (Z.to_nat (W - n)) buf) (skipn (Z.to_nat (W - n)) buf)) as H end.
  cbn [app] in H. apply H.
  - rewrite <- Hlen, firstn_length. unfold zlen in *; lia.
  - intros j x b Hj Hb. rewrite firstn_skipn in Hb.
    pose proof (nth_error_lt _ _ _ Hj) as Hlt. rewrite <- Hlen in Hlt.
    rewrite uadd_ok, bind_Ok by lia. rewrite uadd_ok, bind_Ok by lia.
    destruct (nth_error (skipn (Z.to_nat n) p) j) as [y|] eqn:Ey.
    2:{ apply nth_error_None in Ey. rewrite skipn_length in Ey. unfold zlen in *; lia. }
    rewrite (map_nth_error inj _ _ Ey) in Hj. injection Hj as <-.
    replace (0 + Z.of_nat j + n) with (n + Z.of_nat j) by lia.
    rewrite (extract_unchecked_ok c W p _ y); [|lia|apply znth_skipn; [lia|exact Ey]].
    rewrite bind_Ok. destruct (0 + (0 + Z.of_nat j) <? zlen b) eqn:E2; [|lia].
    cbn [Z.add]. rewrite zlen_nil. reflexivity.
Qed.

(** What a sequence of vectors and a tail leave in the buffer. *)
Lemma store_all_ok s vs t s' :
  emits it s vs t s' -> 0 < W < usize_mod -> Forall (fun v => zlen v = W) vs ->
  (forall p n, t = Some (p, n) -> zlen p = W /\ 0 <= n <= W) ->
  forall fuel d0 (buf : list X),
  (length vs < fuel)%nat -> W * (zlen vs + 1) < usize_mod ->
  zlen (delivered vs t) <= zlen buf ->
  exists s1 lastvec buf1,
    store_loop c it inj fuel s buf 0 (splat W d0) = Ok (s1, buf1, W * zlen vs, lastvec) /\
    it_end it s1 = Ok (t, s') /\
    buf1 = map inj (concat vs) ++ skipn (Z.to_nat (W * zlen vs)) buf /\
    forall p n, t = Some (p, n) ->
      store_tail c it inj buf1 (W * zlen vs) lastvec p n =
      Ok (map inj (delivered vs t) ++ skipn (Z.to_nat (zlen (delivered vs t))) buf).
Proof.
  intros He HW Hv Ht fuel d0 buf Hf Hb Hd.
  destruct (emits_nexts _ _ _ _ _ He) as (s1 & Hn & Hend).
  pose proof (concat_zlen W vs Hv) as Hc. pose proof (zlen_nonneg vs) as Hvs.
  assert (HWvs : 0 <= W * zlen vs) by nia.
  set (tl := match t with Some (p, n) => skipn (Z.to_nat n) p | None => [] end) in *.
  assert (Hdd : zlen (delivered vs t) = W * zlen vs + zlen tl).
  { unfold delivered, tl. rewrite zlen_app, Hc. reflexivity. }
  pose proof (zlen_nonneg tl).
  pose proof (store_loop_ok s vs s1 Hn ltac:(lia) Hv fuel []
    (firstn (Z.to_nat (W * zlen vs)) buf) (skipn (Z.to_nat (W * zlen vs)) buf) 0 (splat W d0) Hf
    eq_refl ltac:(rewrite zlen_firstn; lia) ltac:(lia)) as Hloop.
  cbn [app] in Hloop. rewrite firstn_skipn, Z.add_0_l in Hloop.
  exists s1, (last vs (splat W d0)), (map inj (concat vs) ++ skipn (Z.to_nat (W * zlen vs)) buf).
  repeat split; [exact Hloop|exact Hend|].
  intros p n ->. destruct (Ht p n eq_refl) as [Hp Hn'].
  assert (Htl : zlen tl = W - n) by (unfold tl; rewrite zlen_skipn; lia).
  assert (Hdel : map inj (delivered vs (Some (p, n))) = map inj (concat vs) ++ map inj tl)
    by (unfold delivered, tl; apply map_app).
  rewrite Hdel, <- app_assoc.
  destruct (zlen vs =? 0) eqn:E0.
  - assert (vs = []) as -> by (apply zlen_zero; lia).
    rewrite Hdd, Htl, zlen_nil, Z.mul_0_r in *. cbn [concat map app]. cbn [skipn Z.to_nat].
    rewrite store_tail_fresh by lia.
    rewrite Z.add_0_l. reflexivity.
  - destruct (exists_last (l := vs)) as (vs1 & lv & Hvs1).
    { intros ->. cbn in E0. discriminate. }
    assert (Hlast : last vs (splat W d0) = lv) by (rewrite Hvs1; apply last_last).
    rewrite Hlast.
    assert (Hlv : zlen lv = W).
    { rewrite Forall_forall in Hv. apply Hv. rewrite Hvs1. apply in_app_iff; right; left; reflexivity. }
    assert (Hcc : concat vs = concat vs1 ++ lv)
      by (rewrite Hvs1, concat_app; cbn [concat]; rewrite app_nil_r; reflexivity).
    rewrite Hcc, map_app, <- !app_assoc.
    assert (zlen (concat vs1) + W = W * zlen vs) by (rewrite <- Hc, Hcc, zlen_app; lia).
    rewrite store_tail_over; try lia.
    + rewrite skipn_skipn. do 4 f_equal. rewrite Hdd. f_equal. lia.
    + rewrite zlen_map. lia.
    + rewrite zlen_skipn. lia.
Qed.
End Store.

Lemma skipn_repeat {X} (x : X) n m : skipn n (repeat x m) = repeat x (m - n).
Proof. revert m; induction n as [|n IH]; intros [|m]; cbn; auto. Qed.

Lemma firstn_repeat {X} (x : X) n m : firstn n (repeat x m) = repeat x (Nat.min n m).
Proof. revert m; induction n as [|n IH]; intros [|m]; cbn; auto. rewrite IH. reflexivity. Qed.

Section Collect.
Context {A I : Type}.
Variable c : config.
Variable it : SIMDIterator (list A) I.
Variable d0 : A.
Notation W := (WIDTH (it_ty (itb it))).

Lemma scalar_fill_ok s vs t s' :
  emits it s vs t s' -> 0 < W < usize_mod -> Forall (fun v => zlen v = W) vs ->
  (forall p n, t = Some (p, n) -> zlen p = W /\ 0 <= n <= W) ->
  forall fuel (fill : list A),
  (length vs < fuel)%nat -> W * (zlen vs + 1) < usize_mod ->
  zlen (delivered vs t) <= zlen fill ->
  scalar_fill c it d0 fuel s fill =
  Ok (delivered vs t ++ skipn (length (delivered vs t)) fill, s').
Proof.
  intros He HW Hv Ht fuel fill Hf Hb Hd.
  destruct (store_all_ok c it (fun x => x) s vs t s' He HW Hv Ht fuel d0 fill Hf Hb Hd)
    as (s1 & lastvec & buf1 & Hl & Hend & Hbuf & Htail).
  unfold scalar_fill. rewrite Hl, bind_Ok, Hend, bind_Ok.
  destruct t as [[p n]|].
  - rewrite (Htail p n eq_refl), bind_Ok, map_id. unfold zlen. rewrite Nat2Z.id. reflexivity.
  - subst buf1. unfold delivered. rewrite map_id, app_nil_r, <- (concat_zlen W vs Hv).
    unfold zlen. rewrite Nat2Z.id. reflexivity.
Qed.

Lemma fill_all_ok {X} (inj : A -> X) s vs t s' :
  emits it s vs t s' -> 0 < W < usize_mod -> Forall (fun v => zlen v = W) vs ->
  (forall p n, t = Some (p, n) -> zlen p = W /\ 0 <= n <= W) ->
  forall fuel (fill : list X),
  (length vs < fuel)%nat -> W * (zlen vs + 1) < usize_mod ->
  zlen (concat (visited vs t)) <= zlen fill ->
  fill_all c it d0 inj fuel s fill =
  Ok (map inj (concat (visited vs t)) ++ skipn (length (concat (visited vs t))) fill, s').
Proof.
  intros He HW Hv Ht fuel fill Hf Hb Hd.
  assert (Hdd : zlen (delivered vs t) <= zlen (concat (visited vs t))).
  { unfold delivered, visited. rewrite concat_app, !zlen_app.
    destruct t as [[p n]|]; cbn [concat]; [rewrite app_nil_r, zlen_skipn|]; pose proof (zlen_nonneg (concat vs)); [pose proof (zlen_nonneg p)|]; lia. }
  destruct (store_all_ok c it inj s vs t s' He HW Hv Ht fuel d0 fill Hf Hb ltac:(lia))
    as (s1 & lastvec & buf1 & Hl & Hend & Hbuf & _).
  pose proof (concat_zlen W vs Hv) as Hc. pose proof (zlen_nonneg vs).
  assert (0 <= W * zlen vs) by nia.
  unfold fill_all. rewrite Hl, bind_Ok, Hend, bind_Ok. subst buf1.
  unfold visited in *. destruct t as [[p n]|].
  - destruct (Ht p n eq_refl) as [Hp _].
    rewrite concat_app in *. cbn [concat] in *. rewrite app_nil_r, zlen_app in *.
    rewrite store_unchecked_ok by (rewrite ?zlen_app, ?zlen_map, ?zlen_skipn; lia).
    rewrite bind_Ok.
    rewrite <- (firstn_skipn (length p) (skipn (Z.to_nat (W * zlen vs)) fill)).
    rewrite upd_app; [|rewrite zlen_map; lia|rewrite map_length, firstn_length, skipn_length; unfold zlen in *; lia].
    rewrite map_app, <- app_assoc, skipn_skipn, app_length.
    do 5 f_equal. rewrite <- Hc. unfold zlen. lia.
  - rewrite !app_nil_r. do 4 f_equal. rewrite <- Hc. unfold zlen. lia.
Qed.

(** [L2] is the length the iterator reports after the traversal: when it ends without a
    partial vector, the result is cut at [L2] vectors, whatever was stored. *)
Lemma scalar_collect_gen s vs t s' L L2 :
  emits it s vs t s' -> 0 < W < usize_mod -> 0 < SIZE (it_ty (itb it)) ->
  Forall (fun v => zlen v = W) vs ->
  (forall p n, t = Some (p, n) -> zlen p = W /\ 0 <= n <= W) ->
  it_len (itb it) s = Ok L -> zlen vs <= L -> (L + 1) * W * SIZE (it_ty (itb it)) <= isize_max ->
  (t = None -> it_len (itb it) s' = Ok L2) -> zlen vs <= L2 <= L ->
  forall fuel, (length vs < fuel)%nat ->
  scalar_collect c it d0 fuel s =
  Ok (map Some (delivered vs t) ++
      match t with Some _ => [] | None => repeat None (Z.to_nat ((L2 - zlen vs) * W)) end, s').
Proof.
  intros He HW HS Hv Ht HL HvL Hcap HL2 HvL2 fuel Hf.
  pose proof (zlen_nonneg vs). pose proof (concat_zlen W vs Hv) as Hc.
  assert (Hc0 : 0 <= (L + 1) * W) by (apply Z.mul_nonneg_nonneg; lia).
  assert (HcW : (L + 1) * W <= isize_max).
  { generalize dependent ((L + 1) * W). intros q H1 H2. clear -H1 H2 HS. nia. }
  assert (HL1 : L + 1 <= isize_max).
  { clear -HcW HW HvL H. nia. }
  assert (HWvs : 0 <= W * zlen vs <= L * W).
  { clear -HW HvL H. nia. }
  assert (HLW : (L + 1) * W = L * W + W) by ring.
  unfold isize_max in *.
  assert (Hsz : W * (zlen vs + 1) < usize_mod).
  { assert (W * (zlen vs + 1) = W * zlen vs + W) by ring. unfold usize_mod in *. lia. }
  assert (Hlenbuf : zlen (repeat (@None A) (Z.to_nat ((L + 1) * W))) = (L + 1) * W)
    by (rewrite zlen_repeat; lia).
  assert (Hdd : zlen (delivered vs t) <= (L + 1) * W).
  { unfold delivered. rewrite zlen_app, Hc. destruct t as [[p n]|].
    - destruct (Ht p n eq_refl). rewrite zlen_skipn. lia.
    - rewrite zlen_nil. lia. }
  destruct (store_all_ok c it Some s vs t s' He HW Hv Ht fuel d0
             (repeat None (Z.to_nat ((L + 1) * W))) Hf Hsz ltac:(lia))
    as (s1 & lastvec & buf1 & Hl & Hend & Hbuf & Htail).
  unfold scalar_collect. rewrite HL, bind_Ok, uadd_ok, bind_Ok by (unfold usize_mod in *; lia).
  rewrite umul_ok, bind_Ok by (unfold usize_mod in *; lia).
  unfold with_capacity. unfold isize_max. destruct (_ <=? _) eqn:E; [|lia].
  rewrite bind_Ok, Hl, bind_Ok, Hend, bind_Ok.
  destruct t as [[p n]|].
  - destruct (Ht p n eq_refl) as [Hp Hn].
    rewrite (Htail p n eq_refl), bind_Ok.
    rewrite uadd_ok, bind_Ok by (unfold usize_mod in *; lia).
    rewrite usub_ok, bind_Ok by (unfold usize_mod in *; lia).
    assert (Hdl : zlen (delivered vs (Some (p, n))) = W + W * zlen vs - n).
    { unfold delivered. rewrite zlen_app, Hc, zlen_skipn. lia. }
    unfold set_len. destruct (_ <=? zlen _) eqn:E2.
    + rewrite bind_Ok. do 3 f_equal.
      replace (Z.to_nat (W + W * zlen vs - n))
        with (length (map Some (delivered vs (Some (p, n))))) by (rewrite map_length; unfold zlen in *; lia).
      rewrite firstn_app, firstn_all, Nat.sub_diag. reflexivity.
    + rewrite zlen_app, zlen_map, zlen_skipn, Hlenbuf in E2. lia.
  - assert (HL2W : W * zlen vs <= L2 * W <= L * W).
    { clear -HW HvL2 H. nia. }
    rewrite (HL2 eq_refl), bind_Ok, umul_ok, bind_Ok by (unfold usize_mod in *; lia).
    assert (Hb1 : zlen buf1 = (L + 1) * W).
    { subst buf1. rewrite zlen_app, zlen_map, Hc, zlen_skipn, Hlenbuf. lia. }
    unfold set_len. destruct (_ <=? zlen _) eqn:E2; [|rewrite Hb1 in E2; lia].
    rewrite bind_Ok. subst buf1. unfold delivered. rewrite app_nil_r. do 3 f_equal.
    rewrite firstn_app, map_length, firstn_all2 by (rewrite map_length; unfold zlen in *; lia).
    f_equal. rewrite skipn_repeat, firstn_repeat. f_equal.
    replace ((L2 - zlen vs) * W) with (L2 * W - W * zlen vs) by ring.
    unfold zlen in *. lia.
Qed.

Lemma scalar_collect_ok s vs t s' L :
  emits it s vs t s' -> 0 < W < usize_mod -> 0 < SIZE (it_ty (itb it)) ->
  Forall (fun v => zlen v = W) vs ->
  (forall p n, t = Some (p, n) -> zlen p = W /\ 0 <= n <= W) ->
  it_len (itb it) s = Ok L -> zlen vs <= L -> (L + 1) * W * SIZE (it_ty (itb it)) <= isize_max ->
  (t = None -> it_len (itb it) s' = Ok (zlen vs)) ->
  forall fuel, (length vs < fuel)%nat ->
  scalar_collect c it d0 fuel s = Ok (map Some (delivered vs t), s').
Proof.
  intros He HW HS Hv Ht HL HvL Hcap HL2 fuel Hf.
  rewrite (scalar_collect_gen s vs t s' L (zlen vs)) by (try assumption; lia).
  rewrite Z.sub_diag, Z.mul_0_l. cbn [Z.to_nat repeat]. destruct t; rewrite app_nil_r; reflexivity.
Qed.
End Collect.
