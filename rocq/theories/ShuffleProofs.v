(** Proofs of the properties: flip, byte order and reinterpretation (C44, C45, C53). *)
From Coq Require Import String Ascii.
From Verif Require Import Base Spec VecSpec Vecs Lanes X86 Tables Shuffles.
Open Scope list_scope.
Open Scope Z_scope.
From Coq Require Import Lia ZifyBool ZifyNat.
From Verif Require Import ListFacts VecFacts VecProofs PatternProofs.
Ltac Zify.zify_post_hook ::= Z.div_mod_to_equations.

(** A list is the image of its index list. *)
Lemma map_nth_seq : forall (A : Type) (d : A) (l : list A), map (fun i => nth i l d) (seq 0 (length l)) = l.
Proof.
  intros A d l. apply nth_ext with (d := d) (d' := d); [rewrite map_length, seq_length; reflexivity|].
  intros n Hn. rewrite map_length, seq_length in Hn. rewrite (nth_indep _ d (nth 0 l d)) by (rewrite map_length, seq_length; lia).
  rewrite (map_nth (fun i => nth i l d)). rewrite seq_nth by lia. reflexivity.
Qed.

Lemma regroup_fuel_map : forall (A B : Type) (g : A -> B) fuel n l, regroup_fuel fuel n (map g l) = map (map g) (regroup_fuel fuel n l).
Proof.
  intros A B g. induction fuel as [|fuel IH]; intros n l; [reflexivity|]. destruct l as [|x l]; [reflexivity|].
  cbn [regroup_fuel]. change (map g (x :: l)) with (g x :: map g l) at 1. cbn [regroup_fuel map].
  rewrite firstn_map with (f := g) (l := x :: l) (n := n) || idtac. change (g x :: map g l) with (map g (x :: l)). rewrite firstn_map, skipn_map, IH. reflexivity.
Qed.

Lemma regroup_map : forall (A B : Type) (g : A -> B) n l, regroup n (map g l) = map (map g) (regroup n l).
Proof. intros A B g n l. unfold regroup. rewrite map_length. apply regroup_fuel_map. Qed.

Lemma swap_adjacent_map : forall (A B : Type) (g : A -> B) v, swap_adjacent (map g v) = map g (swap_adjacent v).
Proof.
  intros A B g. assert (G : forall n v, (length v <= n)%nat -> swap_adjacent (map g v) = map g (swap_adjacent v)).
  { induction n as [|n IH]; intros v Hv; [destruct v; [reflexivity|cbn in Hv; lia]|].
    destruct v as [|x [|y v]]; [reflexivity|reflexivity|]. cbn. do 2 f_equal. apply IH. cbn in Hv. lia. }
  intros v. apply (G (length v)). lia.
Qed.

Lemma nth_firstn_lt : forall (A : Type) n (l : list A) k d, (k < n)%nat -> nth k (firstn n l) d = nth k l d.
Proof. intros A. induction n as [|n IH]; intros [|x l] [|k] d H; cbn; try lia; try reflexivity. apply IH. lia. Qed.

Lemma nth_skipn : forall (A : Type) n (l : list A) k d, nth k (skipn n l) d = nth (n + k) l d.
Proof. intros A. induction n as [|n IH]; intros l k d; [reflexivity|]. destruct l as [|x l]; [cbn; destruct k; reflexivity|]. cbn. apply IH. Qed.

Lemma pshufb_indices : forall a ctrl, forallb (fun k => (0 <=? k) && (k <? 128)) ctrl = true ->
  pshufb a ctrl = map (fun k => nth (Z.to_nat (k mod 16)) a 0) ctrl.
Proof.
  intros a ctrl H. unfold pshufb. apply map_ext_in. intros k Hk. rewrite forallb_forall in H. specialize (H k Hk).
  replace (128 <=? k) with false by lia. reflexivity.
Qed.

Definition shuffle_width (s : shuffle_impl) : option nat :=
  if String.eqb (sh_fn s) "_mm_shuffle_epi8" then Some 16%nat
  else if String.eqb (sh_fn s) "_mm256_shuffle_epi8" then Some 32%nat else None.

Definition shuffle_indices (s : shuffle_impl) (n : nat) : list nat :=
  if Nat.eqb n 16 then map (fun k => Z.to_nat (k mod 16)) (sh_c s)
  else map (fun k => Z.to_nat (k mod 16)) (firstn 16 (sh_c s)) ++ map (fun k => 16 + Z.to_nat (k mod 16))%nat (skipn 16 (sh_c s)).

Lemma byte_shuffle_indices : forall s v r, byte_shuffle s v = Some r -> forallb (fun k => (0 <=? k) && (k <? 128)) (sh_c s) = true ->
  exists n, shuffle_width s = Some n /\
    r = map (map (fun i => nth i (concat v) 0)) (regroup (Z.to_nat (SIZE (sh_ty s))) (shuffle_indices s n)).
Proof.
  intros s v r H Hc. unfold byte_shuffle in H. unfold shuffle_width.
  destruct (String.eqb (sh_fn s) "_mm_shuffle_epi8").
  - exists 16%nat. split; [reflexivity|]. inversion H; subst r. rewrite <- regroup_map. f_equal.
    rewrite pshufb_indices by exact Hc. unfold shuffle_indices. cbn [Nat.eqb]. rewrite map_map. reflexivity.
  - destruct (String.eqb (sh_fn s) "_mm256_shuffle_epi8"); [|discriminate].
    exists 32%nat. split; [reflexivity|]. inversion H; subst r. rewrite <- regroup_map. f_equal.
    unfold pshufb256, per_half2. rewrite <- (firstn_skipn 16 (sh_c s)), forallb_app, andb_true_iff in Hc. destruct Hc as [Hc1 Hc2].
    rewrite !pshufb_indices by assumption. unfold shuffle_indices. cbn [Nat.eqb]. rewrite map_app, !map_map. f_equal.
    + apply map_ext_in. intros k Hk. apply nth_firstn_lt. lia.
    + apply map_ext_in. intros k Hk. apply nth_skipn.
Qed.

Lemma vector_indices : forall ty v, 0 < SIZE ty -> vector_of ty v ->
  v = map (map (fun i => nth i (concat v) 0)) (regroup (Z.to_nat (SIZE ty)) (seq 0 (Z.to_nat (WIDTH ty) * Z.to_nat (SIZE ty)))).
Proof.
  intros ty v Hs Hv. destruct (vector_lanes ty v Hs Hv) as [H1 H2]. rewrite <- regroup_map.
  replace (Z.to_nat (WIDTH ty) * Z.to_nat (SIZE ty))%nat with (length (concat v)) by (rewrite (concat_length_all _ (Z.to_nat (SIZE ty))) by exact H2; lia).
  rewrite map_nth_seq. symmetry. apply regroup_concat; [lia|exact H2].
Qed.

Fixpoint nats_eqb (a b : list nat) : bool :=
  match a, b with [], [] => true | x :: a', y :: b' => Nat.eqb x y && nats_eqb a' b' | _, _ => false end.

Fixpoint natss_eqb (a b : list (list nat)) : bool :=
  match a, b with [], [] => true | x :: a', y :: b' => nats_eqb x y && natss_eqb a' b' | _, _ => false end.

Lemma nats_eqb_eq : forall a b, nats_eqb a b = true -> a = b.
Proof. induction a as [|x a IH]; intros [|y b] H; cbn in H; try discriminate; [reflexivity|]. apply andb_true_iff in H. destruct H as [H1 H2]. apply Nat.eqb_eq in H1. subst. f_equal. apply IH. exact H2. Qed.

Lemma natss_eqb_eq : forall a b, natss_eqb a b = true -> a = b.
Proof. induction a as [|x a IH]; intros [|y b] H; cbn in H; try discriminate; [reflexivity|]. apply andb_true_iff in H. destruct H as [H1 H2]. apply nats_eqb_eq in H1. subst. f_equal. apply IH. exact H2. Qed.

(** A table entry computes [f] on lanes: checked on index lists, for any [f] that
    commutes with renaming the bytes. *)
Definition shuffle_check (f : list (list nat) -> list (list nat)) (s : shuffle_impl) : bool :=
  let w := Z.to_nat (WIDTH (sh_ty s)) in
  let z := Z.to_nat (SIZE (sh_ty s)) in
  (0 <? WIDTH (sh_ty s)) && (0 <? SIZE (sh_ty s)) && Nat.even w &&
  nats_eqb (map Z.to_nat (sh_ab s)) (seq 0 w) && forallb (fun k => 0 <=? k) (sh_ab s) &&
  match shuffle_width s with
  | Some n => forallb (fun k => (0 <=? k) && (k <? 128)) (sh_c s) && natss_eqb (regroup z (shuffle_indices s n)) (f (regroup z (seq 0 (w * z))))
  | None => true
  end.

Lemma shuffle_entry : forall f s, shuffle_check f s = true ->
  0 < SIZE (sh_ty s) /\ (exists h, WIDTH (sh_ty s) = 2 * Z.of_nat h /\ sh_ab s = map Z.of_nat (seq 0 (2 * h))) /\
  forall v r, vector_of (sh_ty s) v -> byte_shuffle s v = Some r ->
    r = map (map (fun i => nth i (concat v) 0)) (f (regroup (Z.to_nat (SIZE (sh_ty s))) (seq 0 (Z.to_nat (WIDTH (sh_ty s)) * Z.to_nat (SIZE (sh_ty s)))))).
Proof.
  intros f s H. unfold shuffle_check in H. rewrite !andb_true_iff in H. destruct H as (((((H1 & H2) & H3) & H4) & H5) & H6).
  split; [lia|]. split.
  - apply Nat.even_spec in H3. destruct H3 as [h Hh]. exists h. split; [lia|]. apply nats_eqb_eq in H4. rewrite Hh in H4. rewrite <- H4, map_map.
    rewrite forallb_forall in H5. rewrite <- (map_id (sh_ab s)) at 1. apply map_ext_in. intros k Hk. specialize (H5 k Hk). cbv beta in *. lia.
  - intros v r Hv Hr. unfold byte_shuffle in Hr. unfold shuffle_width in H6.
    assert (Hc : forallb (fun k => (0 <=? k) && (k <? 128)) (sh_c s) = true).
    { destruct (String.eqb (sh_fn s) "_mm_shuffle_epi8"); [apply andb_true_iff in H6; tauto|].
      destruct (String.eqb (sh_fn s) "_mm256_shuffle_epi8"); [apply andb_true_iff in H6; tauto|discriminate]. }
    destruct (byte_shuffle_indices s v r Hr Hc) as (n & Hn & ->). unfold shuffle_width in Hn. rewrite Hn in H6.
    apply andb_true_iff in H6. destruct H6 as [_ H6]. apply natss_eqb_eq in H6. rewrite H6. reflexivity.
Qed.

Lemma flips_checked : forallb (shuffle_check swap_adjacent) x86_swizzles = true.
Proof. vm_compute. reflexivity. Qed.

Lemma swaps_checked : forallb (shuffle_check (map (@rev nat))) (x86_swap_bytes ++ unknown_swap_bytes) = true.
Proof. vm_compute. reflexivity. Qed.

Lemma extract_prefix : forall (A : Type) W (pre : list A) x post, zlen (pre ++ x :: post) <= W -> extract W (pre ++ x :: post) (Z.of_nat (length pre)) = Ok x.
Proof.
  intros A W pre x post H. rewrite zlen_app, zlen_cons in H. unfold zlen in H. apply extract_at; [|lia].
  rewrite znth_app by lia. unfold zlen. rewrite Z.ltb_irrefl, Z.sub_diag. reflexivity.
Qed.

Lemma flip_pairs_seq : forall s (v : list (list Z)) n pre rest, v = pre ++ rest -> length rest = (2 * n)%nat -> zlen v <= WIDTH (sh_ty s) ->
  flip_pairs s v (map Z.of_nat (seq (length pre) (2 * n))) = Ok (swap_adjacent rest).
Proof.
  intros s v. induction n as [|n IH]; intros pre rest Hv Hl Hw; [destruct rest; [reflexivity|discriminate]|].
  destruct rest as [|x [|y rest]]; cbn in Hl; try lia. replace (2 * S n)%nat with (S (S (2 * n))) by lia. cbn [seq map flip_pairs swap_adjacent].
  assert (E1 : extract (WIDTH (sh_ty s)) v (Z.of_nat (S (length pre))) = Ok y).
  { subst v. change (pre ++ x :: y :: rest) with (pre ++ [x] ++ y :: rest) in *. rewrite app_assoc in *.
    replace (S (length pre)) with (length (pre ++ [x])) by (rewrite app_length; cbn; lia). apply extract_prefix. exact Hw. }
  assert (E2 : extract (WIDTH (sh_ty s)) v (Z.of_nat (length pre)) = Ok x) by (subst v; apply extract_prefix; exact Hw).
  rewrite E1. cbn [bind]. rewrite E2. cbn [bind].
  specialize (IH (pre ++ [x; y]) rest). rewrite app_length in IH. cbn [length] in IH. replace (length pre + 2)%nat with (S (S (length pre))) in IH by lia.
  rewrite IH; [reflexivity|subst v; rewrite <- app_assoc; reflexivity|lia|exact Hw].
Qed.

Lemma swap_pairs_seq : forall s (v : list (list Z)) n pre rest, v = pre ++ rest -> length rest = (2 * n)%nat -> zlen v <= WIDTH (sh_ty s) ->
  swap_pairs s v (map Z.of_nat (seq (length pre) (2 * n))) = Ok (map (@rev Z) rest).
Proof.
  intros s v. induction n as [|n IH]; intros pre rest Hv Hl Hw; [destruct rest; [reflexivity|discriminate]|].
  destruct rest as [|x [|y rest]]; cbn in Hl; try lia. replace (2 * S n)%nat with (S (S (2 * n))) by lia. cbn [seq map swap_pairs].
  assert (E1 : extract (WIDTH (sh_ty s)) v (Z.of_nat (S (length pre))) = Ok y).
  { subst v. change (pre ++ x :: y :: rest) with (pre ++ [x] ++ y :: rest) in *. rewrite app_assoc in *.
    replace (S (length pre)) with (length (pre ++ [x])) by (rewrite app_length; cbn; lia). apply extract_prefix. exact Hw. }
  assert (E2 : extract (WIDTH (sh_ty s)) v (Z.of_nat (length pre)) = Ok x) by (subst v; apply extract_prefix; exact Hw).
  rewrite E2. cbn [bind]. rewrite E1. cbn [bind].
  specialize (IH (pre ++ [x; y]) rest). rewrite app_length in IH. cbn [length] in IH. replace (length pre + 2)%nat with (S (S (length pre))) in IH by lia.
  rewrite IH; [reflexivity|subst v; rewrite <- app_assoc; reflexivity|lia|exact Hw].
Qed.

Lemma c53_flip : forall (s : shuffle_impl) (v : list (list Z)), In s x86_swizzles -> vector_of (sh_ty s) v ->
  flip_portable s v = Ok (swap_adjacent v) /\ (forall r, byte_shuffle s v = Some r -> r = swap_adjacent v).
Proof.
  intros s v Hin Hv. pose proof flips_checked as Hc. rewrite forallb_forall in Hc. destruct (shuffle_entry _ s (Hc s Hin)) as (Hs & (h & Hw & Hab) & Hr).
  destruct (vector_lanes _ _ Hs Hv) as [Hl _]. split.
  - unfold flip_portable. rewrite Hab. apply (flip_pairs_seq s v h [] v); [reflexivity|lia|destruct Hv; lia].
  - intros r E. rewrite (Hr v r Hv E), <- swap_adjacent_map, <- vector_indices by assumption. reflexivity.
Qed.

Lemma c53_flip_index : forall (A : Type) (v : list A), zlen v mod 2 = 0 ->
  zlen (swap_adjacent v) = zlen v /\ swap_adjacent (swap_adjacent v) = v /\
  forall i, 0 <= i < zlen v -> znth (swap_adjacent v) i = znth v (if i mod 2 =? 0 then i + 1 else i - 1).
Proof.
  intros A. assert (G : forall n (v : list A), length v = (2 * n)%nat -> zlen (swap_adjacent v) = zlen v /\ swap_adjacent (swap_adjacent v) = v /\
    forall i, 0 <= i < zlen v -> znth (swap_adjacent v) i = znth v (if i mod 2 =? 0 then i + 1 else i - 1)).
  { induction n as [|n IH]; intros v Hv; [destruct v; [|discriminate]; repeat split; intros i Hi; cbn in Hi; lia|].
    destruct v as [|x [|y v]]; cbn in Hv; try lia. destruct (IH v ltac:(lia)) as (I1 & I2 & I3). cbn [swap_adjacent]. rewrite !zlen_cons, I1, I2.
    split; [reflexivity|]. split; [reflexivity|]. intros i Hi.
    destruct (Z.eq_dec i 0) as [->|H0]; [reflexivity|]. destruct (Z.eq_dec i 1) as [->|H1]; [reflexivity|].
    change (y :: x :: swap_adjacent v) with ([y; x] ++ swap_adjacent v). change (x :: y :: v) with ([x; y] ++ v).
    rewrite !znth_app by (destruct (i mod 2 =? 0); lia). change (zlen [y; x]) with 2. change (zlen [x; y]) with 2.
    replace (i <? 2) with false by lia. rewrite I3 by lia. replace ((i - 2) mod 2) with (i mod 2) by lia.
    destruct (i mod 2 =? 0) eqn:E.
    - replace (i + 1 <? 2) with false by lia. f_equal. lia.
    - replace (i - 1 <? 2) with false by lia. f_equal. lia. }
  intros v Hv. apply (G (Z.to_nat (zlen v / 2))). unfold zlen in *. lia.
Qed.

Lemma c44_swap_bytes : forall (s : shuffle_impl) (v : list (list Z)), In s (x86_swap_bytes ++ unknown_swap_bytes) -> vector_of (sh_ty s) v ->
  swap_bytes_portable s v = Ok (map (@rev Z) v) /\ (forall r, byte_shuffle s v = Some r -> r = map (@rev Z) v).
Proof.
  intros s v Hin Hv. pose proof swaps_checked as Hc. rewrite forallb_forall in Hc. destruct (shuffle_entry _ s (Hc s Hin)) as (Hs & (h & Hw & Hab) & Hr).
  destruct (vector_lanes _ _ Hs Hv) as [Hl _]. split.
  - unfold swap_bytes_portable. rewrite Hab. apply (swap_pairs_seq s v h [] v); [reflexivity|lia|destruct Hv; lia].
  - intros r E. rewrite (Hr v r Hv E). pose proof (f_equal (map (@rev Z)) (vector_indices (sh_ty s) v Hs Hv)) as E2. cbv beta in E2. rewrite E2, !map_map. apply map_ext. intros l. apply map_rev.
Qed.

Lemma map_rev_rev : forall (A : Type) (v : list (list A)), map (@rev A) (map (@rev A) v) = v.
Proof. intros A v. rewrite map_map. erewrite map_ext; [apply map_id|]. intros a. apply rev_involutive. Qed.

Lemma c44_round_trip : forall (big : bool) (v : list (list Z)),
  from_be big (map (@rev Z)) (to_be big (map (@rev Z)) v) = v /\ to_be big (map (@rev Z)) (from_be big (map (@rev Z)) v) = v /\
  from_le big (map (@rev Z)) (to_le big (map (@rev Z)) v) = v /\ to_le big (map (@rev Z)) (from_le big (map (@rev Z)) v) = v.
Proof. intros big v. unfold from_be, from_le, to_be, to_le. destruct big; repeat split; try reflexivity; apply map_rev_rev. Qed.

Lemma c44_memory_order : forall (big : bool) (n : nat) (xs : list Z),
  let stored x := if big then rev (to_bytes n x) else to_bytes n x in
  to_be big (map (@rev Z)) (map stored xs) = map (fun x => rev (to_bytes n x)) xs /\
  to_le big (map (@rev Z)) (map stored xs) = map (to_bytes n) xs.
Proof.
  intros big n xs stored. unfold to_be, to_le, stored. destruct big; split; try reflexivity.
  - rewrite map_map. apply map_ext. intros a. apply rev_involutive.
  - rewrite map_map. reflexivity.
Qed.

Lemma of_to_bytes : forall n x, of_bytes (to_bytes n x) = x mod 2 ^ (8 * Z.of_nat n).
Proof.
  induction n as [|n IH]; intros x; [cbn; rewrite Z.mod_1_r; reflexivity|].
  cbn [to_bytes of_bytes fold_right]. change (fold_right (fun b acc => b + 256 * acc) 0 (to_bytes n (x / 256))) with (of_bytes (to_bytes n (x / 256))).
  rewrite IH. replace (8 * Z.of_nat (S n)) with (8 + 8 * Z.of_nat n) by lia. rewrite Z.pow_add_r by lia. change (2 ^ 8) with 256.
  rewrite Z.rem_mul_r by lia. reflexivity.
Qed.

Lemma to_of_bytes : forall bs, Forall is_byte bs -> to_bytes (length bs) (of_bytes bs) = bs.
Proof.
  intros bs H. induction H as [|b bs Hb Hbs IH]; [reflexivity|]. cbn [length to_bytes of_bytes fold_right].
  change (fold_right (fun b0 acc => b0 + 256 * acc) 0 bs) with (of_bytes bs). unfold is_byte in Hb. f_equal; [lia|].
  replace ((b + 256 * of_bytes bs) / 256) with (of_bytes bs) by lia. exact IH.
Qed.

Lemma to_bytes_len : forall n x, length (to_bytes n x) = n.
Proof. induction n as [|n IH]; intros x; [reflexivity|]. cbn. f_equal. apply IH. Qed.

Lemma to_bytes_byte : forall n x, Forall is_byte (to_bytes n x).
Proof. induction n as [|n IH]; intros x; cbn; constructor; [unfold is_byte; lia|apply IH]. Qed.

Lemma to_bytes_mod : forall n x y, x mod 2 ^ (8 * Z.of_nat n) = y mod 2 ^ (8 * Z.of_nat n) -> to_bytes n x = to_bytes n y.
Proof.
  intros n x y H. rewrite <- (to_of_bytes (to_bytes n x)) by apply to_bytes_byte. rewrite <- (to_of_bytes (to_bytes n y)) by apply to_bytes_byte.
  rewrite !to_bytes_len, !of_to_bytes, H. reflexivity.
Qed.

Lemma wrap_mod_eq : forall t x, wrap t x mod imod t = x mod imod t.
Proof.
  intros t x. unfold wrap. pose proof (imod_pos t). rewrite Zplus_mod_idemp_l. f_equal. lia.
Qed.

Lemma to_bytes_wrap : forall t x, to_bytes (ibytes t) (wrap t x) = to_bytes (ibytes t) x.
Proof. intros t x. apply to_bytes_mod. apply (wrap_mod_eq t x). Qed.

Lemma bytes_of_lanes_of : forall t bs k, (0 < ibytes t)%nat -> Forall is_byte bs -> length bs = (k * ibytes t)%nat -> bytes_of t (lanes_of t bs) = bs.
Proof.
  intros t bs k Ht Hb Hl.
  assert (G : forall k bs fuel, Forall is_byte bs -> length bs = (k * ibytes t)%nat -> (k <= fuel)%nat ->
    flat_map (to_bytes (ibytes t)) (map (fun b => wrap t (of_bytes b)) (regroup_fuel fuel (ibytes t) bs)) = bs).
  { clear k bs Hb Hl. induction k as [|k IH]; intros bs fuel Hb Hl Hf.
    - destruct bs; [|discriminate]. destruct fuel; reflexivity.
    - destruct fuel as [|fuel]; [lia|]. destruct bs as [|b0 bs0] eqn:Eb; [cbn in Hl; lia|]. cbn [regroup_fuel]. rewrite <- Eb in *. clear b0 bs0 Eb.
      cbn [map flat_map]. rewrite to_bytes_wrap.
      assert (L : length (firstn (ibytes t) bs) = ibytes t) by (rewrite firstn_length; nia).
      rewrite <- L at 1. rewrite to_of_bytes by (rewrite <- (firstn_skipn (ibytes t) bs) in Hb; apply Forall_app in Hb; tauto).
      rewrite IH; [apply firstn_skipn| |rewrite skipn_length; nia|lia].
      rewrite <- (firstn_skipn (ibytes t) bs) in Hb. apply Forall_app in Hb. tauto. }
  unfold bytes_of, lanes_of, regroup. apply (G k); [assumption|assumption|nia].
Qed.

Lemma wrap_of_to : forall t x, in_ity t x -> wrap t (of_bytes (to_bytes (ibytes t) x)) = x.
Proof.
  intros t x Hx. rewrite of_to_bytes. fold (imod t). rewrite <- (wrap_id t x Hx) at 2. pose proof (imod_pos t) as Hp. apply wrap_eq; [lia|]. apply Z.mod_mod. lia.
Qed.

Lemma lanes_of_bytes_of : forall t v, (0 < ibytes t)%nat -> Forall (in_ity t) v -> lanes_of t (bytes_of t v) = v.
Proof.
  intros t v Ht Hv. unfold lanes_of, bytes_of. rewrite flat_map_concat_map. rewrite regroup_concat; [|exact Ht|].
  - rewrite map_map. induction Hv as [|x v Hx Hv IH]; [reflexivity|]. cbn. rewrite IH. f_equal. apply wrap_of_to. exact Hx.
  - apply Forall_forall. intros b Hb. apply in_map_iff in Hb. destruct Hb as (x & <- & _). apply to_bytes_len.
Qed.

Lemma bytes_of_len : forall t v, length (bytes_of t v) = (length v * ibytes t)%nat.
Proof. intros t v. unfold bytes_of. induction v as [|x v IH]; [reflexivity|]. cbn. rewrite app_length, IH, to_bytes_len. lia. Qed.

Lemma bytes_of_byte : forall t v, Forall is_byte (bytes_of t v).
Proof. intros t v. unfold bytes_of. induction v as [|x v IH]; [constructor|]. cbn. apply Forall_app. split; [apply to_bytes_byte|exact IH]. Qed.

Lemma c45_bitcast : forall (t1 t2 : ity) (v : list Z) (k : nat), (0 < ibytes t1)%nat -> (0 < ibytes t2)%nat ->
  Forall (in_ity t1) v -> (length v * ibytes t1 = k * ibytes t2)%nat ->
  bytes_of t2 (bitcast t1 t2 v) = bytes_of t1 v /\ bitcast t2 t1 (bitcast t1 t2 v) = v.
Proof.
  intros t1 t2 v k H1 H2 Hv Hl.
  assert (E : bytes_of t2 (bitcast t1 t2 v) = bytes_of t1 v).
  { unfold bitcast. apply (bytes_of_lanes_of t2 (bytes_of t1 v) k); [exact H2|apply bytes_of_byte|rewrite bytes_of_len; exact Hl]. }
  split; [exact E|]. unfold bitcast at 1. rewrite E. apply lanes_of_bytes_of; assumption.
Qed.

Lemma regroup_fuel_pieces : forall (A : Type) n k (l : list A) fuel, (0 < n)%nat -> length l = (k * n)%nat -> (k <= fuel)%nat ->
  length (regroup_fuel fuel n l) = k /\ Forall (fun x => length x = n) (regroup_fuel fuel n l) /\ concat (regroup_fuel fuel n l) = l.
Proof.
  intros A n. induction k as [|k IH]; intros l fuel Hn Hl Hf.
  - destruct l; [|discriminate]. destruct fuel; repeat split; constructor.
  - destruct fuel as [|fuel]; [lia|]. destruct l as [|x0 l0] eqn:El; [cbn in Hl; lia|]. cbn [regroup_fuel]. rewrite <- El in *. clear x0 l0 El.
    destruct (IH (skipn n l) fuel Hn ltac:(rewrite skipn_length; nia) ltac:(lia)) as (I1 & I2 & I3).
    cbn [length concat]. rewrite I1, I3, firstn_skipn. repeat split. constructor; [rewrite firstn_length; nia|exact I2].
Qed.

Lemma groups_checked : forallb (fun g => forallb (fun a => (0 <? WIDTH a) && (0 <? SIZE a) && forallb (fun b => WIDTH a * SIZE a =? WIDTH b * SIZE b) g) g) transmute_groups = true.
Proof. vm_compute. reflexivity. Qed.

Lemma c45_be_as : forall (g : list vty) (a b : vty) (v : list (list Z)), In g transmute_groups -> In a g -> In b g -> vector_of a v ->
  vector_of b (be_as b v) /\ concat (be_as b v) = concat v /\ be_as a (be_as b v) = v.
Proof.
  intros g a b v Hg Ha Hb Hv. pose proof groups_checked as Hc. rewrite forallb_forall in Hc. specialize (Hc g Hg). rewrite forallb_forall in Hc.
  pose proof (Hc a Ha) as Ca. pose proof (Hc b Hb) as Cb. rewrite !andb_true_iff in Ca, Cb. destruct Ca as [[A1 A2] A3]. destruct Cb as [[B1 B2] _].
  rewrite forallb_forall in A3. specialize (A3 b Hb). destruct (vector_lanes a v ltac:(lia) Hv) as [V1 V2].
  pose proof (concat_length_all _ _ _ V2) as L. rewrite V1 in L.
  assert (Lb : length (concat v) = (Z.to_nat (WIDTH b) * Z.to_nat (SIZE b))%nat) by (rewrite L, <- !Z2Nat.inj_mul by lia; f_equal; lia).
  destruct (regroup_fuel_pieces Z (Z.to_nat (SIZE b)) (Z.to_nat (WIDTH b)) (concat v) (length (concat v)) ltac:(lia) Lb ltac:(nia)) as (R1 & R2 & R3).
  unfold be_as, retype. fold (regroup (Z.to_nat (SIZE b)) (concat v)) in R1, R2, R3. split; [|split].
  - split; [unfold zlen; lia|]. eapply Forall_impl; [|exact R2]. intros x Hx. unfold zlen. rewrite Hx. lia.
  - exact R3.
  - rewrite R3. apply regroup_concat; [lia|exact V2].
Qed.
