(** Complete traversals that can be collected, and their closure under maps. *)
From Coq Require Import Lia ZifyBool ZifyNat.
From Verif Require Import Base Spec ListFacts Vecs VecFacts Iters IterFacts CollectFacts Zip.
Ltac Zify.zify_post_hook ::= Z.div_mod_to_equations.

Notation wd it := (WIDTH (it_ty (itb it))).
Notation sz it := (SIZE (it_ty (itb it))).

Record complete {V I} (it : SIMDIterator V I) (s : I) (vs : list V) (t : option (V * Z)) (s' : I)
  : Prop := {
  cp_emits : emits it s vs t s';
  cp_tail : forall p n, t = Some (p, n) -> 0 <= n < wd it;
  cp_ty : vty_ok (it_ty (itb it));
  cp_len : exists L, it_len (itb it) s = Ok L /\ zlen vs <= L /\
           (L + 1) * (wd it * sz it) <= isize_max /\
           (t = None -> it_len (itb it) s' = Ok (zlen vs))
}.

(** The vectors are [w] lanes long. *)
Definition sized {A} (w : Z) (vs : list (list A)) (t : option (list A * Z)) : Prop :=
  Forall (fun v => zlen v = w) vs /\ forall p n, t = Some (p, n) -> zlen p = w.

Lemma collect_complete {A I} c (it : SIMDIterator (list A) I) d0 s vs t s' fuel :
  complete it s vs t s' -> sized (wd it) vs t -> (length vs < fuel)%nat ->
  scalar_collect c it d0 fuel s = Ok (map Some (delivered vs t), s').
Proof.
  intros [He Ht Hty (L & HL & HvL & Hcap & HL2)] [Hv Hp] Hf.
  pose proof (vty_ok_facts _ Hty) as (H1 & H2 & H3 & H4 & H5 & H6).
  eapply scalar_collect_ok with (L := L); try eassumption.
  - unfold usize_mod; lia.
  - lia.
  - intros p n E. split; [eauto|]. specialize (Ht p n E). lia.
  - lia.
Qed.

Lemma small_store {V I} (it : SIMDIterator V I) s vs t s' :
  complete it s vs t s' -> wd it * (zlen vs + 1) < usize_mod.
Proof.
  intros [He Ht Hty (L & HL & HvL & Hcap & HL2)].
  pose proof (vty_ok_facts _ Hty) as (H1 & H2 & H3 & H4 & H5 & H6).
  pose proof (zlen_nonneg vs). unfold isize_max, usize_mod in *.
  assert (wd it * (zlen vs + 1) <= (L + 1) * (wd it * sz it)) by nia. lia.
Qed.

Lemma fill_complete {A I} c (it : SIMDIterator (list A) I) d0 s vs t s' fuel fill :
  complete it s vs t s' -> sized (wd it) vs t -> (length vs < fuel)%nat ->
  zlen (delivered vs t) <= zlen fill ->
  scalar_fill c it d0 fuel s fill = Ok (delivered vs t ++ skipn (length (delivered vs t)) fill, s').
Proof.
  intros Hc [Hv Hp] Hf Hd. pose proof (small_store _ _ _ _ _ Hc) as Hs.
  destruct Hc as [He Ht Hty _].
  pose proof (vty_ok_facts _ Hty) as (H1 & H2 & H3 & H4 & H5 & H6).
  eapply scalar_fill_ok; try eassumption.
  - unfold usize_mod; lia.
  - intros p n E. split; [eauto|]. specialize (Ht p n E). lia.
Qed.

Lemma fill_all_complete {A X I} c (it : SIMDIterator (list A) I) d0 (inj : A -> X) s vs t s' fuel fill :
  complete it s vs t s' -> sized (wd it) vs t -> (length vs < fuel)%nat ->
  zlen (concat (visited vs t)) <= zlen fill ->
  fill_all c it d0 inj fuel s fill =
  Ok (map inj (concat (visited vs t)) ++ skipn (length (concat (visited vs t))) fill, s').
Proof.
  intros Hc [Hv Hp] Hf Hd. pose proof (small_store _ _ _ _ _ Hc) as Hs.
  destruct Hc as [He Ht Hty _].
  pose proof (vty_ok_facts _ Hty) as (H1 & H2 & H3 & H4 & H5 & H6).
  eapply fill_all_ok; try eassumption.
  - unfold usize_mod; lia.
  - intros p n E. split; [eauto|]. specialize (Ht p n E). lia.
Qed.

Section Map.
Context {V B I E : Type}.
Variable c : config.
Variable it : SIMDIterator V I.
Variable out_ty : vty.
Variable d0 : B.
Variable func : E -> V -> list B * E.
Hypothesis Hout : vty_ok out_ty.
Hypothesis Hbytes : wd it * sz it = WIDTH out_ty * SIZE out_ty.

Lemma tail_count_ok n : vty_ok (it_ty (itb it)) -> 0 <= n < wd it ->
  0 <= n * sz it < usize_mod /\ 0 <= n * sz it / SIZE out_ty < WIDTH out_ty.
Proof.
  intros Hty Hn. pose proof (vty_ok_facts _ Hty) as (H1 & H2 & H3 & H4 & H5 & H6).
  pose proof (vty_ok_facts _ Hout) as (G1 & G2 & G3 & G4 & G5 & G6).
  assert (0 <= n * sz it < wd it * sz it) by nia. unfold usize_mod. split; [lia|].
  split; [apply Z.div_pos; lia|]. apply Z.div_lt_upper_bound; lia.
Qed.

Lemma map_complete_gen (m : SIMDIterator (list B) (SIMDMap I E)) s vs t s' e :
  it_ty (itb m) = out_ty ->
  (forall x, it_next (itb m) x = sm_next it func x) ->
  (forall x, it_end m x = sm_end c it out_ty func x) ->
  (forall x, it_len (itb m) x = it_len (itb it) (sm_iter x)) ->
  complete it s vs t s' ->
  complete m (mkSIMDMap s e) (fst (run_closure func e vs))
    (map_tail func (snd (run_closure func e vs)) t (sz it) (SIZE out_ty))
    (mkSIMDMap s' (snd (run_closure func e (visited vs t)))).
Proof.
  intros Hmt Hn He Hl [Hem Ht Hty (L & HL & HvL & Hcap & HL2)].
  pose proof (vty_ok_facts _ Hout) as (G1 & G2 & G3 & G4 & G5 & G6).
  constructor.
  - apply (emits_map_gen c); auto; [lia|]. intros p n E1. apply (tail_count_ok n Hty). eauto.
  - rewrite Hmt. intros p n. unfold map_tail. destruct t as [[p' n']|]; [|discriminate].
    intros E1. injection E1 as <- <-. apply (tail_count_ok n' Hty). eauto.
  - rewrite Hmt. exact Hout.
  - exists L. rewrite !Hl, Hmt. cbn [sm_iter]. unfold zlen. rewrite run_closure_length.
    repeat split; auto.
    + rewrite <- Hbytes. exact Hcap.
    + intros E1. apply HL2. destruct t as [[p n]|]; [discriminate|reflexivity].
Qed.

Lemma map_complete s vs t s' e :
  complete it s vs t s' ->
  complete (map_iterator c it out_ty d0 func) (mkSIMDMap s e) (fst (run_closure func e vs))
    (map_tail func (snd (run_closure func e vs)) t (sz it) (SIZE out_ty))
    (mkSIMDMap s' (snd (run_closure func e (visited vs t)))).
Proof. apply map_complete_gen; reflexivity. Qed.

Lemma zipmap_complete s vs t s' e :
  complete it s vs t s' ->
  complete (zipmap_iterator c it out_ty d0 func) (mkSIMDMap s e) (fst (run_closure func e vs))
    (map_tail func (snd (run_closure func e vs)) t (sz it) (SIZE out_ty))
    (mkSIMDMap s' (snd (run_closure func e (visited vs t)))).
Proof. apply map_complete_gen; reflexivity. Qed.

Lemma map_sized (Q : V -> Prop) vs t e :
  (forall e v, Q v -> zlen (fst (func e v)) = WIDTH out_ty) ->
  Forall Q vs -> (forall p n, t = Some (p, n) -> Q p) ->
  sized (WIDTH out_ty) (fst (run_closure func e vs))
    (map_tail func (snd (run_closure func e vs)) t (sz it) (SIZE out_ty)).
Proof.
  intros Hf Hv Ht. split.
  - apply (run_closure_Forall func Q); assumption.
  - intros p n. unfold map_tail. destruct t as [[p' n']|]; [|discriminate].
    intros E1. injection E1 as <- <-. apply Hf. eauto.
Qed.
End Map.

(** ** Slices *)

Section Slice.
Context {A : Type}.
Variable c : config.
Variable ty : vty.
Variables l d : list A.
Hypothesis Hty : vty_ok ty.
Hypothesis Hl : slice_ok ty l.
Hypothesis Hd : zlen d = WIDTH ty.

Lemma slice_small : zlen l < max_len.
Proof.
  pose proof (vty_ok_facts _ Hty) as (H1 & H2 & H3 & H4 & H5 & H6).
  unfold slice_ok, isize_max, max_len in *. pose proof (zlen_nonneg l). nia.
Qed.

Lemma slice_stepping :
  stepping (si_array (slice_array c ty)) (si_iterable c (slice_array c ty)) l d (si_at l d (zlen l)).
Proof.
  apply si_stepping; [exact Hty|apply slice_array_holds; exact Hty|exact slice_small|exact Hd].
Qed.

Lemma slice_emits k :
  0 <= k <= zlen l -> (k = 0 \/ WIDTH ty < zlen l \/ k = zlen l) ->
  exists vs rest,
    emits (slice_iterator c ty) (mkSIMDIter k l d) vs (tail_of d rest) (mkSIMDIter (zlen l) l d) /\
    chunked (WIDTH ty) (skipn (Z.to_nat k) l) vs rest /\ zlen rest < WIDTH ty.
Proof.
  intros Hk Hr. apply (si_emits c (slice_array c ty) l l d); auto.
  - apply slice_array_holds; exact Hty.
  - exact slice_small.
Qed.

Lemma chunked_count vs rest : chunked (WIDTH ty) l vs rest -> zlen rest < WIDTH ty ->
  zlen vs = zlen l / WIDTH ty.
Proof.
  intros [Hv Hc] Hr. rewrite <- Hc, zlen_app, (concat_zlen (WIDTH ty) vs Hv).
  pose proof (zlen_nonneg rest). apply (Z.div_unique _ _ _ (zlen rest)); lia.
Qed.

Lemma chunked_length vs rest : chunked (WIDTH ty) l vs rest -> (length vs <= length l)%nat.
Proof.
  pose proof (vty_ok_facts _ Hty) as (H1 & _).
  intros [Hv Hc]. rewrite <- Hc, app_length. pose proof (concat_zlen (WIDTH ty) vs Hv) as H.
  unfold zlen in H. nia.
Qed.

Lemma tail_of_fields rest p n :
  zlen rest < WIDTH ty -> tail_of d rest = Some (p, n) ->
  p = right_aligned d rest /\ n = WIDTH ty - zlen rest /\ 1 <= zlen rest /\ zlen p = WIDTH ty.
Proof.
  intros Hr. unfold tail_of. destruct rest as [|x r] eqn:E; [discriminate|]. rewrite <- E in *.
  intros H. injection H as <- <-. unfold unfilled. rewrite right_aligned_len by lia.
  rewrite Hd. assert (1 <= zlen rest) by (rewrite E, zlen_cons; pose proof (zlen_nonneg r); lia).
  auto.
Qed.

Lemma slice_complete :
  (zlen l + WIDTH ty) * SIZE ty <= isize_max ->
  exists vs rest,
    complete (slice_iterator c ty) (simd_iter l d) vs (tail_of d rest) (mkSIMDIter (zlen l) l d) /\
    chunked (WIDTH ty) l vs rest /\ zlen rest < WIDTH ty /\ sized (WIDTH ty) vs (tail_of d rest).
Proof.
  intros Hcap. pose proof (zlen_nonneg l).
  pose proof (vty_ok_facts _ Hty) as (H1 & H2 & H3 & H4 & H5 & H6).
  destruct (slice_emits 0) as (vs & rest & He & Hc & Hr); [lia|auto|].
  cbn [skipn Z.to_nat] in Hc.
  exists vs, rest. split; [|split; [exact Hc|split; [exact Hr|]]].
  - pose proof (chunked_count vs rest Hc Hr) as Hcnt.
    constructor; [exact He| |exact Hty|].
    + intros p n E. destruct (tail_of_fields rest p n Hr E) as (-> & -> & H7 & H8). cbn. lia.
    + exists (zlen l / WIDTH ty). cbn [itb slice_iterator blanket_iterator it_len si_iterable si_data simd_iter
        arr_scalar_len slice_array it_ty arr_ty]. rewrite bind_Ok, udiv_ok, Hcnt by lia.
      repeat split; [lia|].
      assert ((zlen l / WIDTH ty + 1) * WIDTH ty <= zlen l + WIDTH ty).
      { pose proof (Z.mul_div_le (zlen l) (WIDTH ty) ltac:(lia)). lia. }
      rewrite Z.mul_assoc. nia.
  - split; [apply Hc|]. intros p n E. destruct (tail_of_fields rest p n Hr E) as (_ & _ & _ & H8).
    exact H8.
Qed.

Lemma delivered_tail (vs : list (list A)) rest : zlen rest <= WIDTH ty ->
  delivered vs (tail_of d rest) = concat vs ++ rest.
Proof.
  intros Hr. unfold delivered, tail_of. destruct rest as [|x r] eqn:E; [reflexivity|].
  rewrite right_aligned_skipn by lia. reflexivity.
Qed.
End Slice.

(** Lane-wise maps. *)
Lemma delivered_map {A B} (f : A -> B) (vs : list (list A)) t :
  delivered (map (map f) vs) (match t with Some (p, n) => Some (map f p, n) | None => None end) =
  map f (delivered vs t).
Proof.
  unfold delivered. rewrite map_app, concat_map. destruct t as [[p n]|]; [|reflexivity].
  rewrite skipn_map. reflexivity.
Qed.

Lemma lanewise_closure {A B E} (f : A -> B) (func : E -> list A -> list B * E) e vs t s1 s2 :
  (forall e v, func e v = (map f v, e)) -> 0 < s2 -> s1 = s2 ->
  delivered (fst (run_closure func e vs))
     (map_tail func (snd (run_closure func e vs)) t s1 s2) = map f (delivered vs t).
Proof.
  intros Hf Hs ->. rewrite (run_closure_pure func (map f) Hf). cbn [fst snd].
  rewrite <- delivered_map. f_equal. unfold map_tail. destruct t as [[p n]|]; [|reflexivity].
  rewrite Hf, Z.div_mul by lia. reflexivity.
Qed.
