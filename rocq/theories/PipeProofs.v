(** Proofs of the properties: whole programs (C72). *)
From Coq Require Import String.
From Verif Require Import Base Spec VecSpec Vecs Iters Stride Zip ZipSpec Lanes OpTables Ops PortTables Ports PortSpec SumTables Sums SumSpec PipeSpec.
Open Scope list_scope.
Open Scope Z_scope.
From Coq Require Import Lia ZifyBool ZifyNat.
From Verif Require Import ListFacts VecFacts IterFacts CollectFacts MapFacts StrideFacts ZipFacts ReduceFacts VecProofs OpProofs PortProofs SumProofs IterProofs CollectProofs StrideProofs ZipProofs.
Ltac Zify.zify_post_hook ::= Z.div_mod_to_equations.

Lemma tuple_exists {X : Type} : forall n (xs : list X), length xs = S n -> exists t : tuple X n, items n t = xs.
Proof.
  induction n as [|n IH]; intros [|x xs] H; try discriminate.
  - destruct xs; [|discriminate]. exists x. reflexivity.
  - injection H as H. destruct (IH xs H) as [t Ht]. exists (x, t). cbn. rewrite Ht. reflexivity.
Qed.

Lemma items_length {X : Type} : forall n (t : tuple X n), length (items n t) = S n.
Proof. induction n as [|n IH]; intros t; [reflexivity|]. cbn. rewrite IH. reflexivity. Qed.

Lemma znth_sub {A : Type} (l : list A) p w i : 0 <= p -> 0 <= i < w -> znth (sub l p w) i = znth l (p + i).
Proof.
  intros Hp Hi. unfold znth. replace (i <? 0) with false by lia. replace (p + i <? 0) with false by lia.
  rewrite nth_error_sub by lia. f_equal. lia.
Qed.

Lemma znth_map2 {A B C : Type} (g : A -> B -> C) a b i x y : znth a i = Some x -> znth b i = Some y -> znth (map2 g a b) i = Some (g x y).
Proof.
  unfold znth. destruct (i <? 0); [discriminate|]. generalize (Z.to_nat i). intros n. revert a b.
  induction n as [|n IH]; intros [|u a] [|v b] Ha Hb; try discriminate; cbn in *.
  - injection Ha as ->. injection Hb as ->. reflexivity.
  - apply IH; assumption.
Qed.

Lemma zlen_map2 {A B C : Type} (g : A -> B -> C) a b : zlen a = zlen b -> zlen (map2 g a b) = zlen a.
Proof. unfold zlen. intros H. rewrite map2_length by lia. reflexivity. Qed.

Lemma znth_app_r {A : Type} (a b : list A) i : zlen a <= i -> znth (a ++ b) i = znth b (i - zlen a).
Proof.
  intros H. pose proof (zlen_nonneg a). unfold znth. replace (i <? 0) with false by lia. replace (i - zlen a <? 0) with false by lia.
  unfold zlen in *. rewrite nth_error_app2 by lia. f_equal. lia.
Qed.

Lemma znth_skipn_at {A : Type} (l : list A) p i : 0 <= p -> 0 <= i -> znth (skipn (Z.to_nat p) l) i = znth l (p + i).
Proof.
  intros Hp Hi. unfold znth. replace (i <? 0) with false by lia. replace (p + i <? 0) with false by lia.
  rewrite nth_error_skipn. f_equal. lia.
Qed.

Lemma znth_ext {A : Type} (a b : list A) : zlen a = zlen b -> (forall i, 0 <= i < zlen a -> znth a i = znth b i) -> a = b.
Proof.
  intros H E. apply nth_error_ext. intros i. destruct (Nat.lt_ge_cases i (length a)) as [Hi|Hi].
  - specialize (E (Z.of_nat i)). unfold znth, zlen in *. replace (Z.of_nat i <? 0) with false in E by lia.
    rewrite Nat2Z.id in E. apply E. lia.
  - rewrite (proj2 (nth_error_None a i)) by lia. symmetry. apply nth_error_None. unfold zlen in *. lia.
Qed.

Lemma znth_aligned {A : Type} (d o : list A) w p j : zlen d = w -> 0 <= p -> zlen o - p <= w -> 0 <= j < zlen o - p ->
  znth (right_aligned d (skipn (Z.to_nat p) o)) (w - (zlen o - p) + j) = znth o (p + j).
Proof.
  intros Hd Hp Hw Hj. unfold right_aligned.
  assert (Hf : zlen (firstn (length d - length (skipn (Z.to_nat p) o)) d) = w - (zlen o - p)).
  { rewrite zlen_firstn. pose proof (zlen_skipn o (Z.to_nat p)). unfold zlen in *. lia. }
  rewrite znth_app_r by lia. rewrite Hf, znth_skipn_at by lia. f_equal. lia.
Qed.

Lemma run_closure_on {E X Y Z' : Type} (func : E -> X -> Y * E) (g : Z' -> X) (h : Z' -> Y) : forall ps e,
  (forall e p, In p ps -> fst (func e (g p)) = h p) -> fst (run_closure func e (map g ps)) = map h ps.
Proof.
  induction ps as [|p ps IH]; intros e H; [reflexivity|]. cbn.
  pose proof (H e p (or_introl eq_refl)) as Hp. destruct (func e (g p)) as [y e']. cbn in Hp. subst y.
  specialize (IH e' (fun e p Hi => H e p (or_intror Hi))). destruct (run_closure func e' (map g ps)). cbn in *. congruence.
Qed.

Lemma Forall2_map_l {X Y R : Type} (P : Y -> R -> Prop) (g : X -> Y) xs rs : Forall2 (fun x r => P (g x) r) xs rs -> Forall2 P (map g xs) rs.
Proof. induction 1; constructor; assumption. Qed.

Lemma Forall2_imp {X Y : Type} (P Q : X -> Y -> Prop) xs ys : (forall x y, P x y -> Q x y) -> Forall2 P xs ys -> Forall2 Q xs ys.
Proof. intros H. induction 1; constructor; auto. Qed.

(* the iterators [ss] over the lists [os] with default vectors [ds] *)
Inductive sources {A I : Type} (c : config) (arr : SIMDArray A I) (it : SIMDIterable (list A) I) (P : A -> Prop) (n : Z)
  : list I -> list (list A) -> list (list A) -> Prop :=
| sources_nil : sources c arr it P n [] [] []
| sources_cons s o d ss os ds : source c A I arr it s o d 0 -> zlen o = n /\ Forall P o -> zlen d = WIDTH (it_ty it) /\ Forall P d ->
    sources c arr it P n ss os ds -> sources c arr it P n (s :: ss) (o :: os) (d :: ds).

Lemma zipped_many {A I : Type} c (arr : SIMDArray A I) it P n : forall k (r : tuple I k) os ds,
  sources c arr it P n (items k r) os ds ->
  exists chunk tail, zipped c (WIDTH (it_ty it)) n 0 _ _ (rest_many (blanket_unsafe c arr it) k) r chunk tail /\
    forall p, items k (chunk p) = map (fun o => sub o p (WIDTH (it_ty it))) os /\
              items k (tail p) = map2 (fun d o => right_aligned d (skipn (Z.to_nat p) o)) ds os.
Proof.
  induction k as [|k IH]; intros r os ds H.
  - cbn in H. inversion H as [|s o d ss os' ds' Hs [Ho HPo] [Hd HPd] Hr]; subst. inversion Hr; subst.
    do 2 eexists. split; [apply (zipped_one c _ _ 0 A I arr it r o d); [exact Hs|reflexivity|reflexivity]|].
    intros p. split; reflexivity.
  - destruct r as [s r]. cbn [items fst snd] in H. inversion H as [|s' o d ss os' ds' Hs [Ho HPo] [Hd HPd] Hr]; subst.
    destruct (IH r os' ds' Hr) as (chunk & tail & Hz & Hi).
    do 2 eexists. split; [apply (zipped_more c _ _ 0 A I arr it s o d _ _ _ r chunk tail Hs eq_refl eq_refl Hz)|].
    intros p. destruct (Hi p) as [H1 H2]. cbn [items fst snd map map2]. rewrite H1, H2. split; reflexivity.
Qed.

Lemma sources_parts {A I : Type} c (arr : SIMDArray A I) it P n : forall ss os ds, sources c arr it P n ss os ds ->
  Forall (fun o => zlen o = n /\ Forall P o) os /\ Forall (fun d => zlen d = WIDTH (it_ty it) /\ Forall P d) ds /\ length ds = length os.
Proof.
  induction 1 as [|s o d ss os ds Hs Ho Hd H (IH1 & IH2 & IH3)]; [split; [constructor|split; [constructor|reflexivity]]|].
  split; [constructor; assumption|]. split; [constructor; assumption|]. cbn. lia.
Qed.

Lemma Forall_sub {A : Type} (P : A -> Prop) l p w : Forall P l -> Forall P (sub l p w).
Proof. intros H. unfold sub. apply Forall_firstn. apply Forall_skipn. exact H. Qed.

Lemma Forall_aligned {A : Type} (P : A -> Prop) d l : Forall P d -> Forall P l -> Forall P (right_aligned d l).
Proof. intros Hd Hl. unfold right_aligned. apply Forall_app. split; [apply Forall_firstn; exact Hd|exact Hl]. Qed.

Lemma Forall_and_l {A : Type} (P Q : A -> Prop) l : Forall (fun x => P x /\ Q x) l -> Forall P l.
Proof. apply Forall_impl. intros a [H _]. exact H. Qed.

Lemma column_chunk {A : Type} : forall (os : list (list A)) p w i r, 0 <= p -> 0 <= i < w ->
  column os (p + i) r -> column (map (fun o => sub o p w) os) i r.
Proof.
  intros os p w i r Hp Hi H. apply Forall2_map_l. eapply Forall2_imp; [|exact H]. cbn. intros o x Hx. rewrite znth_sub; assumption.
Qed.

Lemma column_tail {A : Type} : forall (os ds : list (list A)) n p w j r, 0 <= p -> n - p <= w -> 0 <= j < n - p ->
  Forall (fun o => zlen o = n) os -> Forall (fun d => zlen d = w) ds -> length ds = length os ->
  column os (p + j) r -> column (map2 (fun d o => right_aligned d (skipn (Z.to_nat p) o)) ds os) (w - (n - p) + j) r.
Proof.
  intros os ds n p w j r Hp Hw Hj Ho Hd Hl H. revert ds Hd Hl. unfold column in *.
  induction H as [|o x os r Hx H IH]; intros [|d ds] Hd Hl; try discriminate; [constructor|].
  inversion Ho; subst. inversion Hd; subst. cbn [map2]. constructor.
  - rewrite znth_aligned; auto.
  - apply IH; [assumption|assumption|]. cbn in Hl. lia.
Qed.

Lemma column_pad {A : Type} : forall (os ds : list (list A)) n p w j r, 0 <= p -> 0 <= n - p <= w -> 0 <= j < w - (n - p) ->
  Forall (fun o => zlen o = n) os -> Forall (fun d => zlen d = w) ds -> length ds = length os ->
  column ds j r -> column (map2 (fun d o => right_aligned d (skipn (Z.to_nat p) o)) ds os) j r.
Proof.
  intros os ds n p w j r Hp Hw Hj Ho Hd Hl H. revert os Ho Hl. unfold column in *.
  induction H as [|d x ds r Hx H IH]; intros [|o os] Ho Hl; try discriminate; [constructor|].
  inversion Ho; subst. inversion Hd; subst. cbn [map2]. constructor.
  - unfold right_aligned. rewrite znth_app by lia.
    match goal with |- context [if ?b then _ else _] => replace b with true by (rewrite zlen_firstn; pose proof (zlen_skipn o (Z.to_nat p)); unfold zlen in *; lia) end.
    replace (firstn (length d - length (skipn (Z.to_nat p) o)) d) with (firstn (Z.to_nat (zlen d - (zlen o - p))) d).
    + rewrite znth_firstn by lia. exact Hx.
    + f_equal. pose proof (zlen_skipn o (Z.to_nat p)). unfold zlen in *. lia.
  - apply IH; [assumption|assumption|]. cbn in Hl. lia.
Qed.

Lemma lanewise_zip_run {A B E I : Type} (c : config) (arr : SIMDArray A I) (it : SIMDIterable (list A) I) (out_ty : vty)
    (P : A -> Prop) (k : nat) (ss : tuple I (S k)) (os ds : list (list A)) (N : Z) (d0 : B) (f : list A -> B)
    (func : E -> tuple (list A) (S k) -> list B * E) (e : E) (fuel : nat) (G : list B) :
  sources c arr it P N (items (S k) ss) os ds ->
  vty_ok out_ty -> WIDTH out_ty = WIDTH (it_ty it) -> SIZE out_ty = SIZE (it_ty it) ->
  lane_by_lane (WIDTH out_ty) P (S k) f func ->
  (N + WIDTH (it_ty it)) * SIZE (it_ty it) <= isize_max -> N < Z.of_nat fuel ->
  zlen G = N -> (forall j, 0 <= j < N -> exists r, column os j r /\ znth G j = Some (f r)) ->
  let z := zip_iterator (blanket_iterator c arr it) (rest_many (blanket_unsafe c arr it) k) in
  zip (blanket_iterator c arr it) (rest_many (blanket_unsafe c arr it) k) ss = Ok ss /\
  exists ys t s', complete (zipmap_iterator c z out_ty d0 func) (mkSIMDMap ss e) ys t s' /\ sized (WIDTH out_ty) ys t /\
    delivered ys t = G /\ (length ys < fuel)%nat /\
    (exists pad, concat (visited ys t) = concat ys ++ pad ++ skipn (Z.to_nat (WIDTH out_ty * zlen ys)) G /\ firstn (Z.to_nat (WIDTH out_ty * zlen ys)) G = concat ys /\
      zlen pad = WIDTH out_ty * ((N + WIDTH out_ty - 1) / WIDTH out_ty) - N /\
      forall i r, 0 <= i < zlen pad -> column ds i r -> znth pad i = Some (f r)).
Proof.
  intros Hss Hout Hwo Hso Hfn Hcap Hf HG Hcol z. destruct ss as [s r]. cbn [items fst snd] in Hss.
  inversion Hss as [|s' o d ss' os' ds' Hs [Ho HPo] [Hd HPd] Hr]; subst s' ss' os ds.
  destruct (zipped_many c arr it P N k r os' ds' Hr) as (chunk & tail & Hz & Hi).
  pose proof (sources_parts c arr it P N _ _ _ Hr) as (Hos & Hds & Hlen).
  rewrite <- Ho in Hz.
  destruct (zip_lockstep c A I arr it s o d 0 _ _ _ r chunk tail fuel Hs Hz ltac:(lia) ltac:(unfold zlen in *; lia))
    as (Hzip & m & s' & Hm & He & Hml & Hn & Hend & Hlen1 & Hlen2 & Hty & _).
  split; [exact Hzip|].
  pose proof (vty_ok_facts _ Hty) as (H1 & H2 & H3 & H4 & H5 & H6).
  set (W := WIDTH (it_ty it)) in *. fold z in He, Hlen1, Hlen2.
  set (vs := map (fun p => (sub o p W, chunk p)) (vector_starts 0 W m)) in *.
  match type of He with emits _ _ _ ?T _ => set (t := T) in * end.
  assert (Hvs : length vs = m) by (unfold vs; rewrite map_length; unfold vector_starts; rewrite map_length, seq_length; reflexivity).
  assert (Hc : complete z (s, r) vs t (s', r)).
  { constructor; [exact He| |exact Hty|].
    - intros p n Ht. unfold t in Ht. destruct (_ <? _) eqn:Ep; [|discriminate]. injection Ht as _ <-.
      cbn [itb z zip_iterator zip_iterable it_ty blanket_iterator]. fold W. lia.
    - exists (zlen o / W). split; [exact Hlen1|]. unfold zlen at 1. rewrite Hvs.
      split; [apply Z.div_le_lower_bound; lia|]. split.
      + cbn [itb z zip_iterator zip_iterable it_ty blanket_iterator]. fold W.
        pose proof (Z.mul_div_le (zlen o) W ltac:(lia)). rewrite Z.mul_assoc. nia.
      + intros Ht. rewrite Hlen2. unfold t in Ht. destruct (_ <? _) eqn:Ep in Ht; [discriminate|].
        f_equal. unfold zlen at 2. rewrite Hvs. symmetry. apply (Z.div_unique _ _ _ 0); lia. }
  assert (Hbytes : wd z * sz z = WIDTH out_ty * SIZE out_ty) by (rewrite Hwo, Hso; reflexivity).
  pose proof (zipmap_complete c z out_ty d0 func Hout Hbytes (s, r) vs t (s', r) e Hc) as Hmc.
  (* the tuples handed to the closure have full vectors *)
  assert (Hpos : forall p, In p (vector_starts 0 W m) -> 0 <= p /\ p + W <= N).
  { intros p Hp. unfold vector_starts in Hp. apply in_map_iff in Hp. destruct Hp as (i & <- & Hi'). apply in_seq in Hi'. nia. }
  assert (Hq : forall p, In p (vector_starts 0 W m) -> Forall (fun v => zlen v = W /\ Forall P v) (items (S k) (sub o p W, chunk p))).
  { intros p Hp. destruct (Hpos p Hp). cbn [items fst snd]. rewrite (proj1 (Hi p)). constructor; [split; [apply zlen_sub; lia|apply Forall_sub; exact HPo]|].
    apply Forall_map. eapply Forall_impl; [|exact Hos]. intros o' [Ho' HPo']. split; [apply zlen_sub; lia|apply Forall_sub; exact HPo']. }
  assert (Hqt : forall p n, t = Some (p, n) -> Forall (fun v => zlen v = W /\ Forall P v) (items (S k) p)).
  { intros p n Ht. unfold t in Ht. destruct (_ <? _) eqn:Ep in Ht; [|discriminate]. injection Ht as <- _.
    cbn [items fst snd]. rewrite (proj2 (Hi _)).
    assert (Hra : forall d' o' : list A, zlen d' = W /\ Forall P d' -> zlen o' = N /\ Forall P o' ->
      zlen (right_aligned d' (skipn (Z.to_nat (0 + W * Z.of_nat m)) o')) = W /\ Forall P (right_aligned d' (skipn (Z.to_nat (0 + W * Z.of_nat m)) o'))).
    { intros d' o' [Hd' HPd'] [Ho' HPo']. split; [|apply Forall_aligned; [exact HPd'|apply Forall_skipn; exact HPo']]. unfold right_aligned. rewrite zlen_app, zlen_firstn.
      assert (Hp0 : 0 <= W * Z.of_nat m) by (clear -H1; nia).
      pose proof (zlen_skipn o' (Z.to_nat (0 + W * Z.of_nat m))) as Hsk. rewrite Z2Nat.id in Hsk by lia.
      set (q := skipn (Z.to_nat (0 + W * Z.of_nat m)) o') in *. clearbody q. rewrite Ho, Ho' in *. clear -Hsk Hd' Hm Ep Hp0. unfold zlen in *. lia. }
    constructor; [apply Hra; split; assumption|]. clear -Hos Hds Hlen Hra. revert ds' Hds Hlen.
    induction Hos as [|o' os' Ho' Hos IH]; intros [|d' ds'] Hds Hlen; cbn [map2]; constructor; try discriminate.
    - apply Hra; [exact (Forall_inv Hds)|exact Ho'].
    - apply IH; [exact (Forall_inv_tail Hds)|]. cbn in Hlen. lia. }
  assert (Hsz : sized (WIDTH out_ty) (fst (run_closure func e vs))
     (map_tail func (snd (run_closure func e vs)) t (sz z) (SIZE out_ty))).
  { apply (map_sized z out_ty func (fun v => Forall (fun v => zlen v = W /\ Forall P v) (items (S k) v))).
    - intros e0 v Hv. rewrite <- Hwo in Hv. exact (proj1 (Hfn e0 v Hv)).
    - unfold vs. apply Forall_map. apply Forall_forall. exact Hq.
    - exact Hqt. }
  assert (Hys : fst (run_closure func e vs) = map (fun p => sub G p W) (vector_starts 0 W m)).
  { unfold vs. apply run_closure_on. intros e0 p Hp. destruct (Hpos p Hp) as [Hp0 Hp1].
    pose proof (Hq p Hp) as Hv. rewrite <- Hwo in Hv. destruct (Hfn e0 _ Hv) as [Hl1 Hl2]. rewrite Hwo in Hl1.
    rewrite Hwo in *.
    apply znth_ext; [rewrite Hl1; symmetry; apply zlen_sub; lia|]. rewrite Hl1. intros i Hii.
    destruct (Hcol (p + i) ltac:(lia)) as (row & Hrow & HGi). rewrite znth_sub by lia. rewrite HGi. apply Hl2.
    cbn [items fst snd]. rewrite (proj1 (Hi p)). change (sub o p W :: map (fun o0 => sub o0 p W) os') with (map (fun o0 => sub o0 p W) (o :: os')).
    apply column_chunk; [lia|lia|exact Hrow]. }
  assert (Hdel : delivered (fst (run_closure func e vs))
     (map_tail func (snd (run_closure func e vs)) t (sz z) (SIZE out_ty)) = G).
  { unfold delivered. rewrite Hys.
    assert (Hch : chunked W (skipn (Z.to_nat 0) G) (map (fun p => sub G p W) (vector_starts 0 W m)) (skipn (Z.to_nat (0 + W * Z.of_nat m)) G)).
    { rewrite <- positions_starts. apply positions_chunked; lia. }
    cbn [Z.to_nat skipn] in Hch. destruct Hch as [_ Hcat]. etransitivity; [|exact Hcat]. f_equal.
    change (sz z) with (SIZE (it_ty it)).
    unfold map_tail, t. cbv zeta. destruct (0 + W * Z.of_nat m <? zlen o) eqn:Ep.
    2:{ symmetry. apply zlen_zero. rewrite zlen_skipn. lia. }
    rewrite Hso, Z.div_mul by lia.
    set (p := 0 + W * Z.of_nat m) in *.
    match goal with |- skipn _ (fst (func ?E0 ?P)) = _ => set (e1 := E0); set (tp := P) end.
    assert (Hv : Forall (fun v => zlen v = WIDTH out_ty /\ Forall P v) (items (S k) tp)).
    { rewrite Hwo. apply (Hqt tp (W - (zlen o - p))). unfold t. cbv zeta. fold p. rewrite Ep. reflexivity. }
    destruct (Hfn e1 tp Hv) as [Hl1 Hl2]. rewrite Hwo in Hl1.
    apply znth_ext; [rewrite !zlen_skipn; lia|]. rewrite zlen_skipn, Hl1. intros j Hj.
    rewrite !znth_skipn_at by lia.
    destruct (Hcol (p + j) ltac:(lia)) as (row & Hrow & HGi). rewrite HGi. apply Hl2.
    unfold tp. cbn [items fst snd]. rewrite (proj2 (Hi p)), Ho.
    change (right_aligned d (skipn (Z.to_nat p) o) :: map2 (fun d1 o0 => right_aligned d1 (skipn (Z.to_nat p) o0)) ds' os')
      with (map2 (fun d1 o0 => right_aligned d1 (skipn (Z.to_nat p) o0)) (d :: ds') (o :: os')).
    apply column_tail; try lia; [constructor; [assumption|eapply Forall_and_l; exact Hos]|constructor; [assumption|eapply Forall_and_l; exact Hds]|cbn; lia|exact Hrow]. }
  exists (fst (run_closure func e vs)), (map_tail func (snd (run_closure func e vs)) t (sz z) (SIZE out_ty)), (mkSIMDMap (s', r) (snd (run_closure func e (visited vs t)))).
  split; [exact Hmc|]. split; [exact Hsz|]. split; [exact Hdel|]. split; [rewrite run_closure_length; assert (Hvf : (length vs < fuel)%nat) by (rewrite Hvs; clear -Hm Hf H1 Ho Hml; rewrite <- Ho in Hf; pose proof (zlen_nonneg o); nia); exact Hvf|].
  assert (Hny : zlen (fst (run_closure func e vs)) = Z.of_nat m) by (unfold zlen; rewrite run_closure_length; f_equal; exact Hvs).
  rewrite Hny, Hwo.
  assert (Hcat : concat (fst (run_closure func e vs)) ++ skipn (Z.to_nat (W * Z.of_nat m)) G = G).
  { rewrite Hys. assert (Hch : chunked W (skipn (Z.to_nat 0) G) (map (fun p => sub G p W) (vector_starts 0 W m)) (skipn (Z.to_nat (0 + W * Z.of_nat m)) G)).
    { rewrite <- positions_starts. apply positions_chunked; lia. }
    cbn [Z.to_nat skipn] in Hch. exact (proj2 Hch). }
  assert (Hcl : zlen (concat (fst (run_closure func e vs))) = W * Z.of_nat m).
  { destruct Hsz as [Hsz1 _]. rewrite (concat_zlen (WIDTH out_ty) _ Hsz1), Hny, Hwo. reflexivity. }
  assert (Hfst : firstn (Z.to_nat (W * Z.of_nat m)) G = concat (fst (run_closure func e vs))).
  { rewrite <- Hcat at 1. replace (Z.to_nat (W * Z.of_nat m)) with (length (concat (fst (run_closure func e vs)))) by (unfold zlen in Hcl; lia). rewrite firstn_app, firstn_all, Nat.sub_diag. cbn [firstn]. apply app_nil_r. }
  assert (Hdiv : W * Z.of_nat m < N -> (N + W - 1) / W = Z.of_nat m + 1) by (intros Hlt; symmetry; apply (Z.div_unique _ _ _ (N + W - 1 - W * (Z.of_nat m + 1))); lia).
  assert (Hdiv0 : W * Z.of_nat m = N -> (N + W - 1) / W = Z.of_nat m) by (intros Hlt; symmetry; apply (Z.div_unique _ _ _ (W - 1)); lia).
  unfold delivered in Hdel. unfold map_tail, t in Hdel |- *. cbv zeta in *. change (sz z) with (SIZE (it_ty it)) in *.
  destruct (0 + W * Z.of_nat m <? zlen o) eqn:Ep.
  - rewrite Hso, Z.div_mul in Hdel by lia. rewrite Hso, Z.div_mul by lia. set (p := 0 + W * Z.of_nat m) in *.
    match type of Hdel with context [func ?E0 ?P] => set (e1 := E0) in *; set (tp := P) in * end.
    assert (Hv : Forall (fun v => zlen v = WIDTH out_ty /\ Forall P v) (items (S k) tp)).
    { rewrite Hwo. apply (Hqt tp (W - (zlen o - p))). unfold t. cbv zeta. fold p. reflexivity. }
    destruct (Hfn e1 tp Hv) as [Hl1 Hl2]. rewrite Hwo in Hl1.
    exists (firstn (Z.to_nat (W - (zlen o - p))) (fst (func e1 tp))). unfold visited. rewrite concat_app. cbn [concat]. rewrite app_nil_r.
    assert (Hsk : skipn (Z.to_nat (W - (zlen o - p))) (fst (func e1 tp)) = skipn (Z.to_nat (W * Z.of_nat m)) G).
    { rewrite <- Hcat in Hdel at 1. apply app_inv_head in Hdel. exact Hdel. }
    split; [rewrite <- Hsk, firstn_skipn; reflexivity|]. split; [exact Hfst|].
    assert (Hpl : zlen (firstn (Z.to_nat (W - (zlen o - p))) (fst (func e1 tp))) = W - (N - p)).
    { rewrite zlen_firstn, Hl1, Ho. unfold p in *. lia. }
    split; [rewrite Hpl, Hdiv by lia; unfold p; ring|]. rewrite Hpl. intros i row Hi2 Hrow.
    rewrite znth_firstn by lia. apply Hl2. unfold tp. cbn [items fst snd]. rewrite (proj2 (Hi p)).
    change (right_aligned d (skipn (Z.to_nat p) o) :: map2 (fun d1 o0 => right_aligned d1 (skipn (Z.to_nat p) o0)) ds' os')
      with (map2 (fun d1 o0 => right_aligned d1 (skipn (Z.to_nat p) o0)) (d :: ds') (o :: os')).
    apply (column_pad (o :: os') (d :: ds') N p W i row); try (unfold p in *; lia); [constructor; [assumption|eapply Forall_and_l; exact Hos]|constructor; [assumption|eapply Forall_and_l; exact Hds]|cbn; lia|exact Hrow].
  - exists []. unfold visited. rewrite app_nil_r. cbn [app].
    assert (Hs0 : skipn (Z.to_nat (W * Z.of_nat m)) G = []) by (apply zlen_zero; rewrite zlen_skipn; lia).
    rewrite Hs0, app_nil_r. split; [reflexivity|]. split; [exact Hfst|]. split; [change (zlen (@nil B)) with 0; rewrite Hdiv0 by lia; lia|].
    intros i row Hi2. change (zlen (@nil B)) with 0 in Hi2. lia.
Qed.

Lemma lanewise_zip {A B E I : Type} (c : config) (arr : SIMDArray A I) (it : SIMDIterable (list A) I) (out_ty : vty)
    (P : A -> Prop) (k : nat) (ss : tuple I (S k)) (os ds : list (list A)) (N : Z) (d0 : B) (f : list A -> B)
    (func : E -> tuple (list A) (S k) -> list B * E) (e : E) (fuel : nat) (G : list B) :
  sources c arr it P N (items (S k) ss) os ds ->
  vty_ok out_ty -> WIDTH out_ty = WIDTH (it_ty it) -> SIZE out_ty = SIZE (it_ty it) ->
  lane_by_lane (WIDTH out_ty) P (S k) f func ->
  (N + WIDTH (it_ty it)) * SIZE (it_ty it) <= isize_max -> N < Z.of_nat fuel ->
  zlen G = N -> (forall j, 0 <= j < N -> exists r, column os j r /\ znth G j = Some (f r)) ->
  let z := zip_iterator (blanket_iterator c arr it) (rest_many (blanket_unsafe c arr it) k) in
  zip (blanket_iterator c arr it) (rest_many (blanket_unsafe c arr it) k) ss = Ok ss /\
  exists s', scalar_collect c (zipmap_iterator c z out_ty d0 func) d0 fuel (mkSIMDMap ss e) = Ok (map Some G, s').
Proof.
  intros Hss Hout Hwo Hso Hfn Hcap Hf HG Hcol z.
  destruct (lanewise_zip_run c arr it out_ty P k ss os ds N d0 f func e fuel G Hss Hout Hwo Hso Hfn Hcap Hf HG Hcol) as (Hzip & ys & t & s' & Hc & Hsz & Hdel & Hl & _).
  split; [exact Hzip|]. exists s'. rewrite <- Hdel. exact (collect_complete c _ d0 _ _ _ _ fuel Hc Hsz Hl).
Qed.

Definition col {A : Type} (ls : list (list A)) (k : Z) : list A :=
  flat_map (fun l => match znth l k with Some x => [x] | None => [] end) ls.

Lemma col_column {A : Type} : forall (ls : list (list A)) n k, Forall (fun l => zlen l = n) ls -> 0 <= k < n -> column ls k (col ls k).
Proof.
  intros ls n k H Hk. induction H as [|l ls Hl H IH]; [constructor|]. unfold column, col in *. cbn [flat_map].
  destruct (znth_exists l k ltac:(lia)) as [x Hx]. rewrite Hx. cbn [app]. constructor; [exact Hx|exact IH].
Qed.

Lemma column_unique {A : Type} : forall (ls : list (list A)) k r1 r2, column ls k r1 -> column ls k r2 -> r1 = r2.
Proof.
  unfold column. intros ls k r1 r2 H. revert r2. induction H as [|l x ls r1 Hx H IH]; intros r2 H2; inversion H2; subst; [reflexivity|].
  f_equal; [congruence|apply IH; assumption].
Qed.

Lemma znth_tabulate {B : Type} (h : Z -> B) n k : 0 <= k < n -> znth (map (fun i => h (Z.of_nat i)) (seq 0 (Z.to_nat n))) k = Some (h k).
Proof.
  intros H. unfold znth. replace (k <? 0) with false by lia.
  rewrite (nth_error_map_some (fun i => h (Z.of_nat i)) _ _ (Z.to_nat k)).
  - do 2 f_equal. lia.
  - rewrite (nth_error_nth' _ 0%nat) by (rewrite seq_length; lia). rewrite seq_nth by lia. reflexivity.
Qed.

Lemma zlen_tabulate {B : Type} (h : Z -> B) n : 0 <= n -> zlen (map (fun i => h (Z.of_nat i)) (seq 0 (Z.to_nat n))) = n.
Proof. intros H. unfold zlen. rewrite map_length, seq_length. lia. Qed.

Lemma c72_zip_slices : forall (A B E : Type) (c : config) (ty out_ty : vty) (n : nat) (ls ds : list (list A)) (N : Z) (d0 : B)
    (f : list A -> B) (func : E -> tuple (list A) (S n) -> list B * E) (e : E) (P : A -> Prop) (t : tuple (SIMDIter A (list A)) (S n)) (fuel : nat),
  vty_ok ty -> vty_ok out_ty -> WIDTH out_ty = WIDTH ty -> SIZE out_ty = SIZE ty ->
  Forall (fun l => zlen l = N /\ Forall P l) ls -> Forall (fun d => zlen d = WIDTH ty /\ Forall P d) ds -> length ls = length ds ->
  items (S n) t = map2 simd_iter ls ds ->
  (N + WIDTH ty) * SIZE ty <= isize_max -> N < Z.of_nat fuel -> lane_by_lane (WIDTH ty) P (S n) f func ->
  let rest := rest_many (blanket_unsafe c (si_array (slice_array c ty)) (si_iterable c (slice_array c ty))) n in
  let m := zipmap_iterator c (zip_iterator (slice_iterator c ty) rest) out_ty d0 func in
  zip (slice_iterator c ty) rest t = Ok t /\
  exists out s', scalar_collect c m d0 fuel (mkSIMDMap t e) = Ok (map Some out, s') /\
    zlen out = N /\ forall k r, column ls k r -> znth out k = Some (f r).
Proof.
  intros A B E c ty out_ty n ls ds N d0 f func e P t fuel Hty Hout Hw Hsz Hls Hds Hlen Ht Hcap Hf Hfn rest m.
  assert (HN : 0 <= N /\ ls <> []).
  { pose proof (items_length (S n) t) as Hil. rewrite Ht in Hil. destruct Hls as [|l ls [Hl HPl] Hls]; [discriminate|].
    subst N. split; [apply zlen_nonneg|discriminate]. }
  destruct HN as [HN Hne]. pose proof (vty_ok_facts _ Hty) as (H1 & H2 & H3 & _).
  set (G := map (fun i => f (col ls (Z.of_nat i))) (seq 0 (Z.to_nat N))).
  assert (Hsrc : sources c (si_array (slice_array c ty)) (si_iterable c (slice_array c ty)) P N (items (S n) t) ls ds).
  { rewrite Ht. clear -Hls Hds Hlen Hty HN Hcap H1 H3. revert ds Hds Hlen. induction Hls as [|l ls [Hl HPl] Hls IH]; intros [|d ds] Hds Hlen; try discriminate; cbn [map2]; constructor.
    - apply source_slice; [exact Hty|unfold slice_ok; nia|exact (proj1 (Forall_inv Hds))|lia].
    - split; assumption.
    - exact (Forall_inv Hds).
    - apply IH; [exact (Forall_inv_tail Hds)|]. cbn in Hlen. lia. }
  destruct (lanewise_zip c _ _ out_ty P n t ls ds N d0 f func e fuel G Hsrc Hout Hw Hsz) as [Hz [s' Hs']].
  - rewrite Hw. exact Hfn.
  - exact Hcap.
  - exact Hf.
  - apply (zlen_tabulate (fun i => f (col ls i))). exact HN.
  - intros j Hj. exists (col ls j). split; [eapply col_column; [eapply Forall_and_l; exact Hls|exact Hj]|]. apply (znth_tabulate (fun i => f (col ls i))). exact Hj.
  - split; [exact Hz|]. exists G, s'. split; [exact Hs'|]. split; [apply (zlen_tabulate (fun i => f (col ls i))); exact HN|].
    intros k r Hr. assert (Hk : 0 <= k < N).
    { destruct Hls as [|l ls [Hl HPl] Hls]; [contradiction|]. inversion Hr as [|? x ? ? Hx]; subst. apply (znth_Some_lt _ _ _ Hx). }
    rewrite (column_unique ls k r (col ls k) Hr (col_column ls N k (Forall_and_l _ _ _ Hls) Hk)).
    apply (znth_tabulate (fun i => f (col ls i))). exact Hk.
Qed.

Lemma stream_Forall {A : Type} (P : A -> Prop) l base str o : Forall P l -> is_stream l base str o -> Forall P o.
Proof.
  intros Hl [_ Ho]. rewrite Forall_forall in *. intros x Hx. apply In_nth_error in Hx. destruct Hx as [i Hi].
  pose proof (znth_nat _ _ _ Hi) as Hz. pose proof (znth_Some_lt _ _ _ Hz) as Hr. rewrite (Ho _ Hr) in Hz.
  unfold znth in Hz. destruct (_ <? 0) in Hz; [discriminate|]. apply Hl. apply (nth_error_In _ _ Hz).
Qed.

Lemma c72_zip_strides : forall (A B E : Type) (c : config) (ty out_ty : vty) (n : nat) (l : list A) (ds : list (list A)) (x0 : A) (d0 : B)
    (f : list A -> B) (func : E -> tuple (list A) (S n) -> list B * E) (e : E) (P : A -> Prop) (fuel : nat),
  let count := Z.of_nat n + 2 in
  vty_ok ty -> vty_ok out_ty -> WIDTH out_ty = WIDTH ty -> SIZE out_ty = SIZE ty ->
  slice_ok ty l -> Forall P l -> count * (WIDTH ty + 1) <= 2 ^ 63 ->
  zlen ds = count -> Forall (fun d => zlen d = WIDTH ty /\ Forall P d) ds ->
  (length l < fuel)%nat -> lane_by_lane (WIDTH ty) P (S n) f func ->
  let it := stride_iterator c (slice_array c ty) x0 in
  let rest := rest_many (blanket_unsafe c (ps_array c (slice_array c ty) x0) (ps_iterable c (slice_array c ty) x0)) n in
  let m := zipmap_iterator c (zip_iterator it rest) out_ty d0 func in
  exists t : tuple (PackedStride A (list A)) (S n), stride l count ds = Ok (items (S n) t) /\
  zip it rest t = Ok t /\
  exists out s', scalar_collect c m d0 fuel (mkSIMDMap t e) = Ok (map Some out, s') /\
    zlen out = zlen l / count /\ forall k, 0 <= k < zlen out -> znth out k = Some (f (sub l (count * k) count)).
Proof.
  intros A B E c ty out_ty n l ds x0 d0 f func e P fuel count Hty Hout Hw Hsz Hl HPl Hcnt Hds1 Hds Hf Hfn it rest m.
  pose proof (vty_ok_facts _ Hty) as (H1 & H2 & H3 & H4 & H5 & H6). pose proof (zlen_nonneg l) as Hl0.
  destruct (stride_streams A (list A) l count ds Hds1) as (streams & Hst & Hlen & Hnth).
  destruct (tuple_exists (S n) streams) as [t Ht]. { unfold zlen in Hlen. lia. }
  exists t. rewrite Ht. split; [exact Hst|].
  set (N := zlen l / count) in *.
  assert (HN : 0 <= N /\ count * N <= zlen l).
  { unfold N. split; [apply Z.div_pos; lia|apply Z.mul_div_le; lia]. }
  (* the streams and their contents *)
  assert (Hsrc : exists os, sources c (ps_array c (slice_array c ty) x0) (ps_iterable c (slice_array c ty) x0) P N streams os ds /\
    forall k o, nth_error os k = Some o -> is_stream l (Z.of_nat k) count o).
  { assert (Hgen : forall ds' ss a, length ss = length ds' -> Forall (fun d => zlen d = WIDTH ty /\ Forall P d) ds' ->
      Z.of_nat a + zlen ds' <= count ->
      (forall k d, nth_error ds' k = Some d -> nth_error ss k = Some (mkPackedStride l (Z.of_nat (a + k)) (Z.of_nat (a + k)) count d)) ->
      exists os, sources c (ps_array c (slice_array c ty) x0) (ps_iterable c (slice_array c ty) x0) P N ss os ds' /\
        forall k o, nth_error os k = Some o -> is_stream l (Z.of_nat (a + k)) count o).
    { induction ds' as [|d ds' IH]; intros [|s ss] a Hlen' Hds' Ha Hn'; try discriminate.
      - exists []. split; [constructor|]. intros [|k] o Hk; discriminate.
      - rewrite zlen_cons in Ha. pose proof (zlen_nonneg ds').
        destruct (IH ss (S a)) as (os & Hos & Hos2).
        { cbn in Hlen'. lia. } { exact (Forall_inv_tail Hds'). } { lia. }
        { intros k d' Hk. replace (S a + k)%nat with (a + S k)%nat by lia. exact (Hn' (S k) d' Hk). }
        destruct (is_stream_exists l (Z.of_nat a) count ltac:(lia)) as [o Ho].
        exists (o :: os). split.
        + pose proof (Hn' 0%nat d eq_refl) as Hs. cbn in Hs. injection Hs as ->. rewrite Nat.add_0_r. constructor.
          * replace (mkPackedStride l (Z.of_nat a) (Z.of_nat a) count d) with (mkPackedStride l (Z.of_nat a + count * 0) (Z.of_nat a) count d) by (f_equal; lia).
            apply (source_stride c A ty l d x0 (Z.of_nat a) count o 0); try assumption; [exact (proj1 (Forall_inv Hds'))|lia|]. pose proof (zlen_nonneg o). lia.
          * split; [exact (proj1 Ho)|]. eapply stream_Forall; eassumption.
          * exact (Forall_inv Hds').
          * exact Hos.
        + intros [|k] o' Hk; cbn in Hk.
          * injection Hk as <-. rewrite Nat.add_0_r. exact Ho.
          * replace (a + S k)%nat with (S a + k)%nat by lia. apply Hos2. exact Hk. }
    apply (Hgen ds streams 0%nat); [unfold zlen in *; lia|exact Hds|cbn; lia|exact Hnth]. }
  destruct Hsrc as (os & Hsrc & Hos).
  pose proof (sources_parts _ _ _ _ _ _ _ _ Hsrc) as (Hozl & _ & Holen).
  set (G := map (fun i => f (sub l (count * Z.of_nat i) count)) (seq 0 (Z.to_nat N))).
  assert (HG : zlen G = N) by (apply (zlen_tabulate (fun i => f (sub l (count * i) count))); lia).
  assert (HGk : forall k, 0 <= k < N -> znth G k = Some (f (sub l (count * k) count))).
  { intros k Hk. apply (znth_tabulate (fun i => f (sub l (count * i) count))). exact Hk. }
  rewrite <- Ht in Hsrc.
  destruct (lanewise_zip c _ _ out_ty P n t os ds N d0 f func e fuel G Hsrc Hout Hw Hsz) as [Hz [s' Hs']].
  - rewrite Hw. exact Hfn.
  - cbn [it_ty ps_iterable arr_ty slice_array]. unfold slice_ok in Hl.
    assert (2 * N <= zlen l) by nia. destruct (Z_le_gt_dec N (2 * WIDTH ty)); [|nia].
    assert ((N + WIDTH ty) * SIZE ty <= 3 * (WIDTH ty * SIZE ty)) by nia. unfold isize_max in *. lia.
  - unfold N in *. unfold zlen in *. nia.
  - exact HG.
  - intros j Hj. exists (sub l (count * j) count). split; [|apply HGk; exact Hj].
    (* the column of the streams at [j] is the group [j] *)
    assert (Hsubl : length (sub l (count * j) count) = length os).
    { assert (Hzs : zlen (sub l (count * j) count) = count) by (apply zlen_sub; nia). unfold zlen in *. lia. }
    assert (Hgen : forall (xs : list (list A)) (ys : list A), length ys = length xs ->
      (forall k o, nth_error xs k = Some o -> exists y, nth_error ys k = Some y /\ znth o j = Some y) -> Forall2 (fun o y => znth o j = Some y) xs ys).
    { clear. induction xs as [|o xs IH]; intros [|y ys] Hl H; try discriminate; constructor.
      - destruct (H 0%nat o eq_refl) as (y' & Hy & Ho). cbn in Hy. injection Hy as <-. exact Ho.
      - apply IH; [cbn in Hl; lia|]. intros k o' Hk. exact (H (S k) o' Hk). }
    apply Hgen; [exact Hsubl|]. intros k o Hk. destruct (Hos k o Hk) as [Ho1 Ho2].
    fold N in Ho1. rewrite Ho1 in Ho2. specialize (Ho2 j Hj).
    pose proof (nth_error_lt _ _ _ Hk) as Hkl.
    destruct (znth_exists o j ltac:(lia)) as [y Hy]. exists y. split; [|exact Hy].
    rewrite nth_error_sub by (unfold zlen in *; nia). rewrite Hy in Ho2. symmetry in Ho2. unfold znth in Ho2.
    destruct (_ <? 0) eqn:E0 in Ho2; [discriminate|]. rewrite <- Ho2. f_equal. nia.
  - split; [exact Hz|]. exists G, s'. split; [exact Hs'|]. split; [exact HG|]. rewrite HG. exact HGk.
Qed.

Lemma c72_map : forall (A B E : Type) (c : config) (ty out_ty : vty) (l d : list A) (P : A -> Prop) (R : A -> B -> Prop)
    (func : E -> list A -> list B * E) (e : E) (d0 : B) (fuel : nat),
  vty_ok ty -> vty_ok out_ty -> WIDTH out_ty = WIDTH ty -> SIZE out_ty = SIZE ty ->
  zlen d = WIDTH ty -> Forall P l -> Forall P d -> (zlen l + WIDTH ty) * SIZE ty <= isize_max -> (length l < fuel)%nat ->
  (forall e v, zlen v = WIDTH ty -> Forall P v -> Forall2 R v (fst (func e v))) ->
  exists out s',
    scalar_collect c (map_iterator c (slice_iterator c ty) out_ty d0 func) d0 fuel (mkSIMDMap (simd_iter l d) e) =
      Ok (map Some out, s') /\ Forall2 R l out.
Proof.
  intros A B E c ty out_ty l d P R func e d0 fuel Hty Hout Hw Hsz Hd HPl HPd Hcap Hf Hfn.
  pose proof (vty_ok_facts _ Hty) as (H1 & H2 & H3 & _). pose proof (zlen_nonneg l) as Hl0.
  assert (Hl : slice_ok ty l) by (unfold slice_ok; nia).
  destruct (slice_complete c ty l d Hty Hl Hd Hcap) as (vs & rest & Hc & Hch & Hr & Hszd).
  set (Q := fun v : list A => zlen v = WIDTH ty /\ Forall P v).
  assert (HF2 : forall (x : list A) (y : list B), Forall2 R x y -> zlen y = zlen x).
  { clear. intros x y H. induction H as [|a b x y _ _ IH]; [reflexivity|]. rewrite !zlen_cons. lia. }
  assert (HQf : forall e v, Q v -> zlen (fst (func e v)) = WIDTH out_ty).
  { intros e0 v [Hv1 Hv2]. rewrite (HF2 _ _ (Hfn e0 v Hv1 Hv2)). lia. }
  destruct Hch as [Hch1 Hch2].
  assert (HPall : Forall P (concat vs) /\ Forall P rest) by (apply Forall_app; rewrite Hch2; exact HPl).
  destruct HPall as [HPvs HPr].
  assert (HQvs : Forall Q vs).
  { clear -Hch1 HPvs. induction Hch1 as [|v vs Hv Hch1 IH]; constructor.
    - cbn [concat] in HPvs. apply Forall_app in HPvs. split; [exact Hv|exact (proj1 HPvs)].
    - apply IH. cbn [concat] in HPvs. apply Forall_app in HPvs. exact (proj2 HPvs). }
  assert (HQt : forall p n, tail_of d rest = Some (p, n) -> Q p).
  { intros p n Hp. split; [apply (tail_of_fields ty d Hd rest p n Hr Hp)|].
    unfold tail_of in Hp. destruct rest; [discriminate|]. injection Hp as <- _. apply Forall_aligned; assumption. }
  assert (Hbytes : WIDTH ty * SIZE ty = WIDTH out_ty * SIZE out_ty) by (rewrite Hw, Hsz; reflexivity).
  pose proof (map_complete c (slice_iterator c ty) out_ty d0 func Hout Hbytes _ _ _ _ e Hc) as Hm.
  assert (Hs := map_sized (slice_iterator c ty) out_ty func Q vs (tail_of d rest) e HQf HQvs HQt).
  eexists. eexists. split; [apply (collect_complete c _ d0 _ _ _ _ fuel Hm Hs)|].
  { rewrite run_closure_length. pose proof (chunked_length ty l Hty vs rest (conj Hch1 Hch2)). lia. }
  rewrite <- Hch2 at 1. unfold delivered. apply Forall2_app.
  - clear -Hfn HQvs. revert e. induction HQvs as [|v vs [Hv1 Hv2] HQvs IH]; intros e; [constructor|].
    cbn [concat run_closure]. pose proof (Hfn e v Hv1 Hv2) as Hx. destruct (func e v) as [y e']. cbn [fst] in Hx.
    specialize (IH e'). destruct (run_closure func e' vs) as [ys e'']. cbn [fst concat] in *. apply Forall2_app; assumption.
  - unfold map_tail. destruct (tail_of d rest) as [[p n]|] eqn:Et.
    2:{ unfold tail_of in Et. destruct rest; [constructor|discriminate]. }
    destruct (HQt p n eq_refl) as [Hp1 Hp2].
    match goal with |- Forall2 _ _ (skipn _ (fst (func ?e0 p))) => pose proof (Hfn e0 p Hp1 Hp2) as Hx; set (y := fst (func e0 p)) in * end.
    assert (Hnn : Z.to_nat (n * SIZE ty / SIZE out_ty) = Z.to_nat n).
    { rewrite Hsz, Z.div_mul by lia. reflexivity. }
    change (sz (@slice_iterator A c ty)) with (SIZE ty). rewrite Hnn. destruct (tail_of_fields ty d Hd rest p n Hr Et) as (Hp & Hn & _).
    assert (Hsk : rest = skipn (Z.to_nat n) p).
    { unfold tail_of in Et. destruct rest as [|x r]; [discriminate|]. injection Et as <- <-. symmetry. apply right_aligned_skipn. lia. }
    rewrite Hsk. clearbody y. clear -Hx. revert p y Hx. generalize (Z.to_nat n). induction n0 as [|k IH]; intros p y Hx; [exact Hx|].
    destruct Hx as [|a b p y Hab Hx]; [constructor|]. cbn [skipn]. apply IH. exact Hx.
Qed.

Definition vty_okb (ty : vty) : bool :=
  existsb (Z.eqb (SIZE ty)) [1; 2; 4; 8] && existsb (Z.eqb (WIDTH ty * SIZE ty)) [16; 32; 64].

Lemma vty_okb_ok : forall ty, vty_okb ty = true -> vty_ok ty.
Proof. intros ty H. unfold vty_okb, vty_ok in *. cbn [existsb In] in *. lia. Qed.

Lemma abs_shapes : forallb (fun p => (WIDTH (pt_outty p) =? WIDTH (pt_ty p)) && (SIZE (pt_outty p) =? SIZE (pt_ty p)) &&
  (vty_okb (pt_ty p) && vty_okb (pt_outty p))) (x86_abs ++ unknown_abs) = true.
Proof. vm_compute. reflexivity. Qed.

Lemma c72_abs : forall (E : Type) (c : config) (narrow : Z -> Z) (p : port_impl) (l d : list Z) (func : E -> list Z -> list Z * E) (e : E) (fuel : nat),
  let ty := pt_ty p in
  In p (x86_abs ++ unknown_abs) -> Forall (in_ity (lane_ity (pt_el p))) l -> int_vector (WIDTH ty) (lane_ity (pt_el p)) d ->
  (zlen l + WIDTH ty) * SIZE ty <= isize_max -> (length l < fuel)%nat ->
  (forall e v, int_vector (WIDTH ty) (lane_ity (pt_el p)) v -> port_portable narrow p [v] = Ok [fst (func e v)]) ->
  exists out s',
    scalar_collect c (map_iterator c (slice_iterator c ty) (pt_outty p) 0 func) 0 fuel (mkSIMDMap (simd_iter l d) e) =
      Ok (map Some out, s') /\ Forall2 (absolute (pt_el p)) l out.
Proof.
  intros E c narrow p l d func e fuel ty Hp Hl [Hd1 Hd2] Hcap Hf Hfn.
  pose proof (proj1 (forallb_forall _ _) abs_shapes p Hp) as Hsh. apply andb_prop in Hsh. destruct Hsh as [Hsh Hex].
  apply andb_prop in Hex. destruct Hex as [Hty Hto]. apply vty_okb_ok in Hty, Hto.
  apply (c72_map Z Z E c ty (pt_outty p) l d (in_ity (lane_ity (pt_el p))) (absolute (pt_el p)) func e 0 fuel); try assumption; try (fold ty in Hsh; lia).
  intros e0 v Hv1 Hv2. destruct (c49_abs_portable narrow p v Hp (conj Hv1 Hv2)) as (r & Hr & Hr2 & _).
  rewrite (Hfn e0 v (conj Hv1 Hv2)) in Hr. injection Hr as <-. exact Hr2.
Qed.

Lemma total_map2 : forall t a b, length a = length b ->
  cong (imod t) (total (map2 (fun x y => wrap t (x + y)) a b)) (total a + total b).
Proof.
  intros t. induction a as [|x a IH]; intros [|y b] H; try discriminate; cbn [map2 total fold_right].
  - apply cong_refl.
  - fold (total (map2 (fun x y => wrap t (x + y)) a b)) (total a) (total b).
    replace (x + total a + (y + total b)) with ((x + y) + (total a + total b)) by ring.
    apply cong_add; [apply wrap_cong|apply IH; cbn in H; lia].
Qed.

Lemma fold_total : forall t w, (0 < ibytes t)%nat -> forall args acc, zlen acc = w -> Forall (in_ity t) acc -> Forall (fun v => zlen v = w) args ->
  let r := fold_left (map2 (fun x y => wrap t (x + y))) args acc in
  int_vector w t r /\ cong (imod t) (total r) (total acc + total (concat args)).
Proof.
  intros t w Ht. induction args as [|v args IH]; intros acc Ha Hta Hv; cbn [fold_left concat].
  - split; [split; assumption|]. cbn. rewrite Z.add_0_r. apply cong_refl.
  - pose proof (Forall_inv Hv) as Hv1. cbv beta in Hv1.
    assert (Hlen : length acc = length v) by (unfold zlen in *; lia).
    destruct (IH (map2 (fun x y => wrap t (x + y)) acc v)) as [H1 H2].
    + unfold zlen in *. rewrite map2_length by exact Hlen. exact Ha.
    + clear -Ht. revert v. induction acc as [|x acc IH]; intros [|y v]; cbn [map2]; constructor; [apply wrap_in; exact Ht|apply IH].
    + exact (Forall_inv_tail Hv).
    + split; [exact H1|]. eapply cong_trans; [exact H2|]. rewrite total_app, Z.add_assoc. apply cong_add; [apply total_map2; exact Hlen|apply cong_refl].
Qed.

Lemma total_repeat0 : forall n, total (repeat 0 n) = 0.
Proof. induction n as [|n IH]; [reflexivity|]. cbn. exact IH. Qed.

Lemma reduce_total : forall (c : config) (t : ity) (ty : vty) (l : list Z) (fuel : nat),
  vty_ok ty -> (0 < ibytes t)%nat -> slice_ok ty l -> (length l < fuel)%nat ->
  exists acc s',
    simd_reduce (slice_iterator c ty) fuel (simd_iter l (splat (WIDTH ty) 0)) (splat (WIDTH ty) 0)
      (fun a v => map2 (fun x y => wrap t (x + y)) a v) = Ok (acc, s') /\
    int_vector (WIDTH ty) t acc /\ cong (imod t) (total acc) (total l).
Proof.
  intros c t ty l fuel Hty Ht Hl Hf. pose proof (vty_ok_facts _ Hty) as (H1 & _). pose proof (zlen_nonneg l).
  assert (Hz : zlen (splat (WIDTH ty) 0) = WIDTH ty) by (unfold splat; rewrite zlen_repeat; lia).
  destruct (c06_reduce Z (list Z) c ty l (splat (WIDTH ty) 0) 0 (splat (WIDTH ty) 0) (fun a v => map2 (fun x y => wrap t (x + y)) a v) fuel
    Hty Hl Hz ltac:(lia) ltac:(lia) Hf) as (vs & rest & [Hc1 Hc2] & Hr & _ & Hred & _).
  cbn [Z.to_nat skipn] in Hc2. eexists. eexists. split; [exact Hred|].
  match goal with |- context [fold_left _ ?A _] => set (args := A) end.
  destruct (fold_total t (WIDTH ty) Ht args (splat (WIDTH ty) 0) Hz) as [Ha Hb].
  - unfold splat. apply Forall_forall. intros x Hx. apply repeat_spec in Hx. subst x. unfold in_ity, imin, imax, imod.
    assert (0 < 2 ^ (8 * Z.of_nat (ibytes t) - 1)) by (apply Z.pow_pos_nonneg; lia).
    assert (2 ^ (8 * Z.of_nat (ibytes t)) = 2 * 2 ^ (8 * Z.of_nat (ibytes t) - 1)) as ->.
    { rewrite <- Z.pow_succ_r by lia. f_equal. lia. }
    destruct (isigned t); lia.
  - unfold args. apply Forall_app. split; [exact Hc1|]. destruct rest as [|x r]; constructor; [|constructor].
    rewrite right_aligned_len by lia. exact Hz.
  - split; [exact Ha|]. eapply cong_trans; [exact Hb|].
    assert (Ht0 : total (splat (WIDTH ty) 0) = 0) by (unfold splat; apply total_repeat0). rewrite Ht0.
    assert (Hta : total (concat args) = total l).
    { unfold args. rewrite concat_app, total_app. rewrite <- Hc2, total_app. f_equal.
      destruct rest as [|x r]; [reflexivity|]. cbn [concat]. rewrite app_nil_r. unfold right_aligned. rewrite total_app.
      assert (Hfz : forall n m, total (firstn n (repeat 0 m)) = 0).
      { clear. induction n as [|n IH]; intros [|m]; cbn; auto. }
      unfold splat. rewrite Hfz. lia. }
    rewrite Hta. cbn. apply cong_refl.
Qed.

Lemma sum_shapes : forallb (fun s => vty_okb (s_ty s) && (match s_el s with EInt t => (0 <? ibytes t)%nat | _ => true end)) (x86_sum ++ unknown_sum) = true.
Proof. vm_compute. reflexivity. Qed.

Lemma xsum_shapes : forallb (fun s => vty_okb (xs_ty s) && (match xs_el s with EInt t => (0 <? ibytes t)%nat | _ => true end)) x86_sum_optimized = true.
Proof. reflexivity. Qed.

Lemma c72_sum : forall (fadd : elty -> Z -> Z -> Z) (b : bool) (t : ity) (l : list Z) (fuel : nat),
  let c := mkConfig Release b in
  let reduce ty := simd_reduce (slice_iterator c ty) fuel (simd_iter l (splat (WIDTH ty) 0)) (splat (WIDTH ty) 0)
                     (fun a v => map2 (fun x y => wrap t (x + y)) a v) in
  (0 < ibytes t)%nat -> (length l < fuel)%nat ->
  exists total_of_l, sum_mod t l total_of_l /\
  (forall s, In s (x86_sum ++ unknown_sum) -> s_el s = EInt t -> slice_ok (s_ty s) l ->
   exists acc s', reduce (s_ty s) = Ok (acc, s') /\ sum_portable fadd c s acc = Ok total_of_l) /\
  (forall x, In x x86_sum_optimized -> xs_el x = EInt t -> slice_ok (xs_ty x) l ->
   exists acc s', reduce (xs_ty x) = Ok (acc, s') /\ sum_optimized c x acc = Ok total_of_l).
Proof.
  intros fadd b t l fuel c reduce Ht Hf. exists (wrap t (total l)).
  assert (Hu : forall v r, cong (imod t) (total v) (total l) -> sum_mod t v r -> r = wrap t (total l)).
  { intros v r Hv [Hr1 [k Hr2]]. rewrite <- (wrap_id t r Hr1). apply wrap_wraps.
    eapply cong_trans; [exists k; exact Hr2|exact Hv]. }
  split; [apply wrap_sum_mod; [exact Ht|apply cong_refl]|]. split.
  - intros s Hs He Hl. pose proof (proj1 (forallb_forall _ _) sum_shapes s Hs) as Hsh. apply andb_prop in Hsh. destruct Hsh as [Hty _].
    apply vty_okb_ok in Hty. destruct (reduce_total c t (s_ty s) l fuel Hty Ht Hl Hf) as (acc & s' & Hr & Hacc & Hc).
    exists acc, s'. split; [exact Hr|]. destruct (c42_sum_portable fadd c s t acc Hs He Hacc (or_introl eq_refl)) as (r & Hr1 & Hr2).
    rewrite Hr1. f_equal. exact (Hu acc r Hc Hr2).
  - intros x Hx He Hl. pose proof (proj1 (forallb_forall _ _) xsum_shapes x Hx) as Hsh. apply andb_prop in Hsh. destruct Hsh as [Hty _].
    apply vty_okb_ok in Hty. destruct (reduce_total c t (xs_ty x) l fuel Hty Ht Hl Hf) as (acc & s' & Hr & Hacc & Hc).
    exists acc, s'. split; [exact Hr|]. destruct (c42_sum_optimized_partial c x t acc Hx He Hacc (or_intror (or_introl eq_refl))) as (r & Hr1 & Hr2).
    rewrite Hr1. f_equal. exact (Hu acc r Hc Hr2).
Qed.
