(** Proofs of the properties: the portable vector types (C59-C64). *)
From Coq Require Import String.
From Coq Require Import Lia ZifyBool ZifyNat.
From Verif Require Import Base Lanes VecSpec Floats FloatSpec OpTables OpSpec Ops UnknownTables UnknownSpec Unknown.
From Verif Require Import ListFacts FloatFacts VecProofs ShuffleProofs OpProofs RoundProofs.
Ltac Zify.zify_post_hook ::= Z.div_mod_to_equations.
Open Scope list_scope.
Open Scope Z_scope.

Definition sizes_ok (u : utype) : bool :=
  (0 <? ut_sz u) && (Z.of_nat (ut_params u) =? ut_sz u) && (0 <? ibytes (lane_ity (ut_el u)))%nat.

Lemma types_ok : forallb sizes_ok unknown_types = true.
Proof. vm_compute. reflexivity. Qed.

Lemma type_facts : forall u, In u unknown_types -> 0 < ut_sz u /\ Z.of_nat (ut_params u) = ut_sz u /\ (0 < ibytes (lane_ity (ut_el u)))%nat.
Proof. intros u H. pose proof (proj1 (forallb_forall _ _) types_ok u H) as K. unfold sizes_ok in K. rewrite !andb_true_iff in K. destruct K as [[K1 K2] K3]. apply Nat.ltb_lt in K3. lia. Qed.

Lemma znth_neg : forall (A : Type) (l : list A) i, i < 0 -> znth l i = None.
Proof. intros A l i H. unfold znth. replace (i <? 0) with true by lia. reflexivity. Qed.

Lemma upd_whole : forall (A : Type) (l v : list A), zlen v = zlen l -> upd l 0 v = v.
Proof. intros A l v H. unfold upd. cbn. rewrite skipn_all2; [apply app_nil_r|]. unfold zlen in H. lia. Qed.

Lemma load_unchecked_ok : forall (A : Type) sz (zero : A) slice offset, 0 <= sz -> 0 <= offset -> offset + sz <= zlen slice -> uv_load_unchecked sz zero slice offset = Ok (sub slice offset sz).
Proof.
  intros A sz zero slice offset Hs Ho Hl. unfold uv_load_unchecked. replace (zlen slice <? offset) with false by lia. replace (sz <=? zlen slice - offset) with true by lia. f_equal. apply upd_whole. rewrite zlen_sub by lia. unfold uv_splat. rewrite zlen_repeat. lia.
Qed.

Lemma c59_load_refuted : forall (A : Type) (zero : A) (u : utype) (slice : list A) (offset : Z), In u unknown_types ->
  ut_sz u <= zlen slice -> zlen slice - ut_sz u < offset <= zlen slice ->
  uv_load (ut_sz u) zero slice offset = UB.
Proof.
  intros A zero u slice offset Hu H1 H2. unfold uv_load, rassert. replace (ut_sz u <=? zlen slice) with true by lia. cbn [bind]. unfold uv_load_unchecked. replace (zlen slice <? offset) with false by lia. replace (ut_sz u <=? zlen slice - offset) with false by lia. reflexivity.
Qed.

Lemma c59_store_refuted : forall (A : Type) (u : utype) (v slice : list A) (offset : Z), In u unknown_types ->
  ut_sz u <= zlen slice -> zlen slice - ut_sz u < offset <= zlen slice ->
  uv_store (ut_sz u) v slice offset = UB.
Proof.
  intros A u v slice offset Hu H1 H2. unfold uv_store, rassert. replace (ut_sz u <=? zlen slice) with true by lia. cbn [bind]. unfold uv_store_unchecked. replace (zlen slice <? offset) with false by lia. replace (ut_sz u <=? zlen slice - offset) with false by lia. reflexivity.
Qed.

Lemma c59_load_partial : forall (A : Type) (zero : A) (u : utype) (slice : list A) (offset : Z), In u unknown_types -> 0 <= offset ->
  (offset + ut_sz u <= zlen slice -> exists v, uv_load (ut_sz u) zero slice offset = Ok v /\ zlen v = ut_sz u /\
     forall i, 0 <= i < ut_sz u -> znth v i = znth slice (offset + i)) /\
  (zlen slice < ut_sz u \/ zlen slice < offset -> uv_load (ut_sz u) zero slice offset = Panic).
Proof.
  intros A zero u slice offset Hu Ho. destruct (type_facts u Hu) as (H1 & _). split; intros H.
  - exists (sub slice offset (ut_sz u)). unfold uv_load, rassert. replace (ut_sz u <=? zlen slice) with true by lia. cbn [bind]. rewrite load_unchecked_ok by lia. split; [reflexivity|]. split; [apply zlen_sub; lia|]. intros i Hi. apply znth_sub; lia.
  - unfold uv_load, rassert. destruct (ut_sz u <=? zlen slice) eqn:E; [|reflexivity]. cbn [bind]. unfold uv_load_unchecked. replace (zlen slice <? offset) with true by lia. reflexivity.
Qed.

Lemma c59_store_partial : forall (A : Type) (u : utype) (v slice : list A) (offset : Z), In u unknown_types -> zlen v = ut_sz u -> 0 <= offset ->
  (offset + ut_sz u <= zlen slice -> exists s, uv_store (ut_sz u) v slice offset = Ok s /\ zlen s = zlen slice /\
     forall i, 0 <= i -> znth s i = if (offset <=? i) && (i <? offset + ut_sz u) then znth v (i - offset) else znth slice i) /\
  (zlen slice < ut_sz u \/ zlen slice < offset -> uv_store (ut_sz u) v slice offset = Panic).
Proof.
  intros A u v slice offset Hu Hv Ho. destruct (type_facts u Hu) as (H1 & _). split; intros H.
  - exists (upd slice offset v). unfold uv_store, rassert. replace (ut_sz u <=? zlen slice) with true by lia. cbn [bind]. unfold uv_store_unchecked. replace (zlen slice <? offset) with false by lia. replace (ut_sz u <=? zlen slice - offset) with true by lia. split; [reflexivity|]. split; [apply zlen_upd; lia|]. intros i Hi. rewrite znth_upd by lia. rewrite Hv. reflexivity.
  - unfold uv_store, rassert. destruct (ut_sz u <=? zlen slice) eqn:E; [|reflexivity]. cbn [bind]. unfold uv_store_unchecked. replace (zlen slice <? offset) with true by lia. reflexivity.
Qed.

Lemma c59_unaligned : forall (A : Type) (zero : A) (u : utype) (v slice : list A), In u unknown_types -> zlen v = ut_sz u ->
  (zlen slice < ut_sz u -> uv_load_unaligned (ut_sz u) zero slice = Panic /\ uv_store_unaligned (ut_sz u) v slice = Panic) /\
  (ut_sz u <= zlen slice ->
     uv_load_unaligned (ut_sz u) zero slice = Ok (firstn (Z.to_nat (ut_sz u)) slice) /\
     uv_store_unaligned (ut_sz u) v slice = Ok (v ++ skipn (Z.to_nat (ut_sz u)) slice)).
Proof.
  intros A zero u v slice Hu Hv. destruct (type_facts u Hu) as (H1 & _). pose proof (zlen_nonneg slice). split; intros H0; unfold uv_load_unaligned, uv_store_unaligned, rassert.
  - replace (ut_sz u <=? zlen slice) with false by lia. split; reflexivity.
  - replace (ut_sz u <=? zlen slice) with true by lia. cbn [bind]. split; [rewrite load_unchecked_ok by lia; reflexivity|].
    unfold uv_store_unchecked. replace (zlen slice <? 0) with false by lia. replace (ut_sz u <=? zlen slice - 0) with true by lia. f_equal. unfold upd. cbn. do 2 f_equal. unfold zlen in Hv. lia.
Qed.

Lemma c59_unchecked : forall (A : Type) (zero : A) (u : utype) (v slice : list A) (offset : Z), In u unknown_types -> zlen v = ut_sz u -> 0 <= offset ->
  offset + ut_sz u <= zlen slice ->
  uv_load_unchecked (ut_sz u) zero slice offset = Ok (sub slice offset (ut_sz u)) /\
  uv_store_unchecked (ut_sz u) v slice offset = Ok (upd slice offset v) /\
  uv_load_unaligned_unchecked (ut_sz u) zero slice = Ok (firstn (Z.to_nat (ut_sz u)) slice) /\
  uv_store_unaligned_unchecked (ut_sz u) v slice = Ok (v ++ skipn (Z.to_nat (ut_sz u)) slice) /\
  (let! s := uv_store_unchecked (ut_sz u) v slice offset in uv_load_unchecked (ut_sz u) zero s offset) = Ok v.
Proof.
  intros A zero u v slice offset Hu Hv Ho Hl. destruct (type_facts u Hu) as (H1 & _).
  assert (St : uv_store_unchecked (ut_sz u) v slice offset = Ok (upd slice offset v)).
  { unfold uv_store_unchecked. replace (zlen slice <? offset) with false by lia. replace (ut_sz u <=? zlen slice - offset) with true by lia. reflexivity. }
  split; [apply load_unchecked_ok; lia|]. split; [exact St|]. unfold uv_load_unaligned_unchecked, uv_store_unaligned_unchecked. replace (ut_sz u <=? zlen slice) with true by lia. split; [|split].
  - f_equal. rewrite upd_whole; [reflexivity|]. rewrite zlen_sub by lia. unfold uv_splat. rewrite zlen_repeat. lia.
  - f_equal. unfold upd. cbn. do 2 f_equal. unfold zlen in Hv. lia.
  - rewrite St. cbn [bind]. rewrite load_unchecked_ok; [|lia|lia|rewrite zlen_upd by lia; lia]. f_equal. unfold upd, sub. rewrite skipn_app, skipn_all2 by (rewrite firstn_length; lia). cbn [app]. unfold zlen in *. rewrite firstn_length. replace (Z.to_nat offset - Nat.min (Z.to_nat offset) (length slice))%nat with 0%nat by lia. cbn [skipn]. rewrite firstn_app. replace (Z.to_nat (ut_sz u) - length v)%nat with 0%nat by lia. cbn [firstn]. rewrite app_nil_r. apply firstn_all2. lia.
Qed.

(** ** Operators *)

Lemma set_index_ok : forall (A : Type) (l : list A) i x, 0 <= i < zlen l -> set_index l i x = Ok (upd l i [x]).
Proof. intros A l i x H. unfold set_index. replace ((0 <=? i) && (i <? zlen l)) with true by lia. reflexivity. Qed.

Lemma firstn_snoc_upd : forall (A : Type) (l : list A) i x, 0 <= i < zlen l -> firstn (Z.to_nat (i + 1)) (upd l i [x]) = firstn (Z.to_nat i) l ++ [x].
Proof.
  intros A l i x H. unfold upd. unfold zlen in H. rewrite firstn_app, firstn_length. replace (Z.to_nat (i + 1) - Nat.min (Z.to_nat i) (length l))%nat with 1%nat by lia. rewrite firstn_all2 by (rewrite firstn_length; lia). reflexivity.
Qed.

Lemma skipn_upd1 : forall (A : Type) (l : list A) i x, 0 <= i < zlen l -> skipn (Z.to_nat (i + 1)) (upd l i [x]) = skipn (Z.to_nat (i + 1)) l.
Proof.
  intros A l i x H. unfold upd. unfold zlen in H. rewrite skipn_app, firstn_length. rewrite (skipn_all2 (firstn _ _)) by (rewrite firstn_length; lia). replace (Z.to_nat (i + 1) - Nat.min (Z.to_nat i) (length l))%nat with 1%nat by lia. cbn [app length skipn]. f_equal. lia.
Qed.

(** A loop that writes lane after lane ends with all results, or stops at the first
    lane whose operator does not return. *)
Lemma op_loop_spec : forall f xs ys i ret, (forall x y, f x y = Panic \/ exists z, f x y = Ok z) -> length xs = length ys -> 0 <= i -> zlen ret = i + zlen xs ->
  (exists zs, op_loop f i xs ys ret = Ok (firstn (Z.to_nat i) ret ++ zs) /\ length zs = length xs /\ forall k x y, znth xs k = Some x -> znth ys k = Some y -> exists z, znth zs k = Some z /\ f x y = Ok z) \/
  (op_loop f i xs ys ret = Panic /\ exists k x y, znth xs k = Some x /\ znth ys k = Some y /\ f x y = Panic).
Proof.
  intros f xs. induction xs as [|x xs IH]; intros [|y ys] i ret Hf Hl Hi Hr; try discriminate Hl.
  - left. exists []. cbn [op_loop]. split; [|split; [reflexivity|]].
    + rewrite app_nil_r. rewrite firstn_all2; [reflexivity|]. unfold zlen in Hr. cbn in Hr. lia.
    + intros k x y H. apply znth_Some_lt in H. cbn in H. lia.
  - rewrite zlen_cons in Hr. pose proof (zlen_nonneg xs). cbn [op_loop]. destruct (Hf x y) as [E|(z & E)].
    + right. rewrite E. split; [reflexivity|]. exists 0, x, y. auto.
    + rewrite E. cbn [bind]. rewrite set_index_ok by lia. cbn [bind].
      destruct (IH ys (i + 1) (upd ret i [z])) as [(zs & H1 & H2 & H3)|(H1 & k & a & b & H2 & H3 & H4)]; [exact Hf|cbn in Hl; lia|lia|rewrite zlen_upd by (cbn; lia); lia| |].
      * left. exists (z :: zs). rewrite H1, firstn_snoc_upd by lia. rewrite <- app_assoc. split; [reflexivity|]. split; [cbn; lia|].
        intros k a b Ha Hb. destruct (Z.eq_dec k 0) as [->|Hk].
        { cbn in Ha, Hb. injection Ha as <-. injection Hb as <-. exists z. auto. }
        pose proof (znth_Some_lt _ _ _ Ha). change (x :: xs) with ([x] ++ xs) in Ha. change (y :: ys) with ([y] ++ ys) in Hb. rewrite znth_app in Ha, Hb by lia. change (zlen [x]) with 1 in Ha. change (zlen [y]) with 1 in Hb. replace (k <? 1) with false in Ha, Hb by lia.
        destruct (H3 _ _ _ Ha Hb) as (z' & G1 & G2). exists z'. split; [|exact G2]. change (z :: zs) with ([z] ++ zs). rewrite znth_app by lia. change (zlen [z]) with 1. replace (k <? 1) with false by lia. exact G1.
      * right. split; [exact H1|]. exists (k + 1), a, b. pose proof (znth_Some_lt _ _ _ H2). change (x :: xs) with ([x] ++ xs). change (y :: ys) with ([y] ++ ys). rewrite !znth_app by lia. change (zlen [x]) with 1. change (zlen [y]) with 1. replace (k + 1 <? 1) with false by lia. replace (k + 1 - 1) with k by lia. auto.
Qed.

(** The loop of the assigning operators computes the same. *)
Lemma assign_loop_eq : forall f ys i self ret, 0 <= i -> zlen self = i + zlen ys -> length ret = length self -> firstn (Z.to_nat i) ret = firstn (Z.to_nat i) self ->
  assign_loop f i ys self = op_loop f i (skipn (Z.to_nat i) self) ys ret.
Proof.
  intros f ys. induction ys as [|y ys IH]; intros i self ret Hi Hl Hr Hp.
  - cbn [assign_loop]. change (zlen (@nil Z)) with 0 in Hl. rewrite skipn_all2 by (unfold zlen in Hl; lia). cbn [op_loop]. rewrite !firstn_all2 in Hp by (unfold zlen in Hl; lia). congruence.
  - rewrite zlen_cons in Hl. pose proof (zlen_nonneg ys). cbn [assign_loop]. unfold index. destruct (znth_exists self i ltac:(lia)) as (x & Hx). rewrite Hx. cbn [bind].
    assert (S : skipn (Z.to_nat i) self = x :: skipn (Z.to_nat (i + 1)) self).
    { unfold znth in Hx. replace (i <? 0) with false in Hx by lia. replace (Z.to_nat (i + 1)) with (1 + Z.to_nat i)%nat by lia. revert Hx. generalize (Z.to_nat i) as n. clear. intros n. revert self. induction n as [|n IH]; intros [|a l] H; try discriminate H; [injection H as ->; reflexivity|]. cbn [skipn]. apply IH. exact H. }
    rewrite S. cbn [op_loop]. destruct (f x y) as [r| | |]; [|reflexivity|reflexivity|reflexivity]. cbn [bind]. assert (zlen ret = zlen self) by (unfold zlen; lia). rewrite !set_index_ok by lia. cbn [bind].
    rewrite (IH (i + 1) (upd self i [r]) (upd ret i [r])); [|lia|rewrite zlen_upd by (cbn; lia); lia| |].
    + rewrite skipn_upd1 by lia. reflexivity.
    + assert (zlen (upd ret i [r]) = zlen (upd self i [r])) by (rewrite !zlen_upd by (cbn; lia); assumption). unfold zlen in *. lia.
    + rewrite !firstn_snoc_upd by lia. rewrite Hp. reflexivity.
Qed.

Lemma testbit_ext_sign : forall t x, (0 < ibytes t)%nat -> (in_ity t x <-> if isigned t then Z.shiftr x (8 * Z.of_nat (ibytes t) - 1) = 0 \/ Z.shiftr x (8 * Z.of_nat (ibytes t) - 1) = -1 else Z.shiftr x (8 * Z.of_nat (ibytes t)) = 0).
Proof.
  intros t x H. unfold in_ity, imin, imax, imod. set (n := 8 * Z.of_nat (ibytes t)). assert (Hn : 8 <= n) by lia. assert (P : 2 ^ n = 2 * 2 ^ (n - 1)) by (rewrite <- Z.pow_succ_r by lia; f_equal; lia). assert (0 < 2 ^ (n - 1)) by (apply Z.pow_pos_nonneg; lia).
  destruct (isigned t).
  - rewrite Z.shiftr_div_pow2 by lia. rewrite P. replace (2 * 2 ^ (n - 1) / 2) with (2 ^ (n - 1)) by (rewrite Z.mul_comm; symmetry; apply Z.div_mul; lia). set (p := 2 ^ (n - 1)) in *. clearbody p. split; intros K.
    + destruct (Z_lt_dec x 0); [right|left]; [symmetry; apply (Z.div_unique_pos _ _ _ (x + p)); lia|apply Z.div_small; lia].
    + pose proof (Z.div_mod x p ltac:(lia)). pose proof (Z.mod_pos_bound x p ltac:(lia)). destruct K as [K|K]; rewrite K in *; lia.
  - rewrite Z.shiftr_div_pow2 by lia. set (p := 2 ^ n) in *. clearbody p. split; intros K; [apply Z.div_small; lia|]. pose proof (Z.div_mod x p ltac:(lia)). pose proof (Z.mod_pos_bound x p ltac:(lia)). rewrite K in *. lia.
Qed.

Lemma bitwise_ok : forall t g op x y, (0 < ibytes t)%nat -> in_ity t x -> in_ity t y ->
  (forall a b n, 0 <= n -> Z.testbit (op a b) n = g (Z.testbit a n) (Z.testbit b n)) -> (forall a b n, Z.shiftr (op a b) n = op (Z.shiftr a n) (Z.shiftr b n)) ->
  op 0 0 = 0 -> (op 0 (-1) = 0 \/ op 0 (-1) = -1) -> (op (-1) 0 = 0 \/ op (-1) 0 = -1) -> (op (-1) (-1) = 0 \/ op (-1) (-1) = -1) -> bitwise t g x y (Ok (op x y)).
Proof.
  intros t g op x y Ht Hx Hy Hb Hs H00 H01 H10 H11. exists (op x y). split; [reflexivity|]. split; [|intros i Hi; apply Hb; exact Hi].
  apply testbit_ext_sign; [exact Ht|]. apply testbit_ext_sign in Hx; [|exact Ht]. apply testbit_ext_sign in Hy; [|exact Ht]. destruct (isigned t).
  - rewrite Hs. destruct Hx as [-> | ->], Hy as [-> | ->]; auto.
  - rewrite Hs, Hx, Hy. exact H00.
Qed.

Lemma iarith_ok : forall c t r, (0 < ibytes t)%nat -> exact_or_wrapped c t r (iarith c t r).
Proof.
  intros c t r Ht. unfold exact_or_wrapped, iarith. split; intros H.
  - unfold in_ity in H. replace ((imin t <=? r) && (r <=? imax t)) with true by lia. reflexivity.
  - unfold in_ity in H. replace ((imin t <=? r) && (r <=? imax t)) with false by lia. destruct (build c); [reflexivity|]. exists (wrap t r), (- ((r - imin t) / imod t)). split; [reflexivity|]. split; [apply wrap_in; exact Ht|].
    unfold wrap. pose proof (imod_pos t). rewrite Z.mod_eq by lia. ring.
Qed.

Lemma divides_ok : forall t x y pick o, o = Ok (pick (Z.quot x y) (Z.rem x y)) ->
  divides t x y (if (y =? 0) || ((x =? imin t) && isigned t && (y =? -1)) then Panic else o) pick.
Proof.
  intros t x y pick o ->. unfold divides. split; intros H.
  - replace ((y =? 0) || ((x =? imin t) && isigned t && (y =? -1))) with true by (destruct (isigned t); lia). reflexivity.
  - replace ((y =? 0) || ((x =? imin t) && isigned t && (y =? -1))) with false by (destruct (isigned t); lia). assert (y <> 0) by tauto. exists (Z.quot x y), (Z.rem x y). split; [reflexivity|]. split; [apply Z.quot_rem; assumption|]. split; [apply Z.rem_bound_abs; assumption|].
    split; intros K; [apply Z.rem_nonneg|apply Z.rem_nonpos]; assumption.
Qed.

Lemma shifts_ok : forall c t y (by_k : Z -> Z -> Prop) (k : Z -> Z), (0 < ibytes t)%nat -> (forall n, 0 <= n -> by_k n (k n)) ->
  shifts c t y (if (0 <=? y) && (y <? 8 * Z.of_nat (ibytes t)) then Ok (k y) else match build c with Debug => Panic | Release => Ok (k (y mod (8 * Z.of_nat (ibytes t)))) end) by_k.
Proof.
  intros c t y by_k k Ht Hk. unfold shifts. set (n := 8 * Z.of_nat (ibytes t)). assert (0 < n) by lia. clearbody n. split; intros H0.
  - replace ((0 <=? y) && (y <? n)) with true by lia. exists (k y). split; [reflexivity|]. apply Hk. lia.
  - replace ((0 <=? y) && (y <? n)) with false by lia. destruct (build c); [reflexivity|]. exists (k (y mod n)), (y mod n), (y / n). pose proof (Z.mod_pos_bound y n ltac:(lia)). split; [reflexivity|]. split; [apply Hk; lia|]. split; [lia|]. rewrite (Z.div_mod y n) at 1 by lia. ring.
Qed.

Definition symbols : list (string * string) :=
  [("Add", "+"); ("Sub", "-"); ("Mul", "*"); ("Div", "/"); ("Rem", "%"); ("Shl", "<<"); ("Shr", ">>"); ("BitAnd", "&"); ("BitOr", "|"); ("BitXor", "^")]%string.

Definition float_symbols : list (string * string) := [("Add", "+"); ("Sub", "-"); ("Mul", "*"); ("Div", "/")]%string.

Lemma int_op_ok : forall c t trait sym x y, (0 < ibytes t)%nat -> in_ity t x -> in_ity t y -> In (trait, sym) symbols ->
  exists o, int_op c t sym x y = Some o /\ int_result c t trait x y o.
Proof.
  intros c t trait sym x y Ht Hx Hy H. unfold symbols in H. cbn [In] in H.
  repeat (destruct H as [E|H]; [injection E as <- <-; eexists; split; [reflexivity|]|]); [..|destruct H]; unfold int_result.
  - left. split; [reflexivity|]. apply iarith_ok. exact Ht.
  - right; left. split; [reflexivity|]. apply iarith_ok. exact Ht.
  - do 2 right; left. split; [reflexivity|]. apply iarith_ok. exact Ht.
  - do 3 right; left. split; [reflexivity|]. apply (divides_ok t x y (fun q r => q)). reflexivity.
  - do 4 right; left. split; [reflexivity|]. apply (divides_ok t x y (fun q r => r)). reflexivity.
  - do 5 right; left. split; [reflexivity|]. apply (shifts_ok c t y _ (fun k => wrap t (Z.shiftl x k)) Ht). intros n Hn. split; [apply wrap_in; exact Ht|].
    exists (- ((Z.shiftl x n - imin t) / imod t)). rewrite Z.shiftl_mul_pow2 by lia. unfold wrap. pose proof (imod_pos t). rewrite Z.mod_eq by lia. ring.
  - do 6 right; left. split; [reflexivity|]. apply (shifts_ok c t y _ (fun k => Z.shiftr x k) Ht). intros n Hn. apply Z.shiftr_div_pow2. lia.
  - do 7 right; left. split; [reflexivity|]. apply bitwise_ok; try assumption; try (cbn; auto; fail); [intros; apply Z.land_spec|intros; apply Z.shiftr_land].
  - do 8 right; left. split; [reflexivity|]. apply bitwise_ok; try assumption; try (cbn; auto; fail); [intros; apply Z.lor_spec|intros; apply Z.shiftr_lor].
  - do 9 right. split; [reflexivity|]. apply bitwise_ok; try assumption; try (cbn; auto; fail); [intros; apply Z.lxor_spec|intros; apply Z.shiftr_lxor].
Qed.

Definition int_el (e : elty) : bool := match e with EInt _ => true | _ => false end.

Lemma scalar_ok : forall arith c e trait sym x y, (0 < ibytes (lane_ity e))%nat -> in_ity (lane_ity e) x -> in_ity (lane_ity e) y -> In (trait, sym) (if int_el e then symbols else float_symbols) ->
  op_result arith c e trait x y (run_op arith c e sym x y).
Proof.
  intros arith c e trait sym x y Ht Hx Hy H. unfold run_op, scalar_op, op_result. destruct e as [t| |]; cbn [int_el] in H.
  - destruct (int_op_ok c t trait sym x y Ht Hx Hy H) as (o & -> & R). exact R.
  - unfold float_symbols in H. exists sym. split; [exact H|]. cbn [In] in H. repeat (destruct H as [E|H]; [injection E as <- <-; reflexivity|]). destruct H.
  - unfold float_symbols in H. exists sym. split; [exact H|]. cbn [In] in H. repeat (destruct H as [E|H]; [injection E as <- <-; reflexivity|]). destruct H.
Qed.

(** An operator returns or panics. *)
Lemma scalar_total : forall arith c e trait sym x y, In (trait, sym) (if int_el e then symbols else float_symbols) -> run_op arith c e sym x y = Panic \/ exists z, run_op arith c e sym x y = Ok z.
Proof.
  intros arith c e trait sym x y H. unfold run_op, scalar_op. destruct e as [t| |]; cbn [int_el] in H; unfold symbols, float_symbols in H; cbn [In] in H;
    repeat (destruct H as [E|H]; [injection E as <- <-; cbn; unfold iarith; repeat match goal with |- context [if ?b then _ else _] => destruct b end; try destruct (build c); eauto|]); destruct H.
Qed.

Definition op_eqb (a b : string * string) : bool := String.eqb (fst a) (fst b) && String.eqb (snd a) (snd b).

Definition row_ok (syms : elty -> list (string * string)) (r : uop) : bool :=
  match utype_of (uo_vec r) with
  | Some u => match ut_el u, uo_el r with
              | EInt t, EInt t' => Bool.eqb (isigned t) (isigned t') && Nat.eqb (ibytes t) (ibytes t')
              | EF32, EF32 => true | EF64, EF64 => true | _, _ => false end
              && forallb (fun a => existsb (op_eqb a) (syms (uo_el r))) (uo_ops r)
  | None => false end.

Definition syms_of (e : elty) : list (string * string) := if int_el e then symbols else float_symbols.

Definition assign_syms_of (e : elty) : list (string * string) := map (fun a => (fst a ++ "Assign", snd a ++ "=")%string) (syms_of e).

Lemma ops_rows_ok : forallb (row_ok syms_of) unknown_ops = true.
Proof. vm_compute. reflexivity. Qed.

Lemma assign_rows_ok : forallb (row_ok assign_syms_of) unknown_assignops = true.
Proof. vm_compute. reflexivity. Qed.

Lemma row_facts : forall syms r u a, row_ok syms r = true -> utype_of (uo_vec r) = Some u -> In a (uo_ops r) -> uo_el r = ut_el u /\ In a (syms (ut_el u)) /\ In u unknown_types.
Proof.
  intros syms r u a H Hu Ha. unfold row_ok in H. rewrite Hu in H. apply andb_prop in H. destruct H as [H1 H2].
  assert (E : uo_el r = ut_el u).
  { destruct (ut_el u) as [[s b]| |], (uo_el r) as [[s' b']| |]; try discriminate H1; try reflexivity. apply andb_prop in H1. destruct H1 as [H1 H3]. apply Bool.eqb_prop in H1. apply Nat.eqb_eq in H3. cbn in *. congruence. }
  split; [exact E|]. split.
  - pose proof (proj1 (forallb_forall _ _) H2 a Ha) as K. apply existsb_exists in K. destruct K as (b & Hb & K). unfold op_eqb in K. apply andb_prop in K. destruct K as [K1 K2]. apply String.eqb_eq in K1. apply String.eqb_eq in K2. rewrite E in Hb. destruct a, b. cbn in K1, K2. subst. exact Hb.
  - unfold utype_of in Hu. apply find_some in Hu. apply Hu.
Qed.

Lemma op_vectors : forall arith c u trait sym v w, In u unknown_types -> int_vector (ut_sz u) (lane_ity (ut_el u)) v -> int_vector (ut_sz u) (lane_ity (ut_el u)) w -> In (trait, sym) (syms_of (ut_el u)) ->
  lanes_result (op_result arith c (ut_el u) trait) v w (uv_op arith c (ut_el u) (ut_sz u) sym v w).
Proof.
  intros arith c u trait sym v w Hu [Hv1 Hv2] [Hw1 Hw2] Hs. destruct (type_facts u Hu) as (H1 & _ & H2). unfold uv_op, lanes_result.
  assert (Lr : zlen (uv_splat (ut_sz u) 0) = 0 + zlen v) by (unfold uv_splat; rewrite zlen_repeat; lia).
  assert (Lv : length v = length w) by (unfold zlen in *; lia).
  assert (Hin : forall l x i, Forall (in_ity (lane_ity (ut_el u))) l -> znth l i = Some x -> in_ity (lane_ity (ut_el u)) x) by (intros l x i Hl Hx; apply (proj1 (Forall_forall _ _) Hl); apply (znth_In _ _ _ _ Hx)).
  destruct (op_loop_spec (run_op arith c (ut_el u) sym) v w 0 (uv_splat (ut_sz u) 0)) as [(zs & E & L & Z)|(E & k & x & y & Hx & Hy & Hp)]; [intros x y; apply (scalar_total arith c (ut_el u) trait); exact Hs|exact Lv|lia|exact Lr| |].
  - left. exists zs. rewrite E. split; [reflexivity|]. split; [unfold zlen; lia|]. intros i x y Hx Hy. destruct (Z i x y Hx Hy) as (z & G1 & G2). exists z. split; [exact G1|]. rewrite <- G2. apply scalar_ok; [exact H2|apply (Hin v x i Hv2 Hx)|apply (Hin w y i Hw2 Hy)|exact Hs].
  - right. split; [exact E|]. exists k, x, y. split; [exact Hx|]. split; [exact Hy|]. rewrite <- Hp. apply scalar_ok; [exact H2|apply (Hin v x k Hv2 Hx)|apply (Hin w y k Hw2 Hy)|exact Hs].
Qed.

Lemma c60_operators : forall (arith : string -> elty -> Z -> Z -> Z) (c : config) (r : uop) (u : utype) (trait sym : string) (v w : list Z),
  In r unknown_ops -> utype_of (uo_vec r) = Some u -> In (trait, sym) (uo_ops r) ->
  int_vector (ut_sz u) (lane_ity (ut_el u)) v -> int_vector (ut_sz u) (lane_ity (ut_el u)) w ->
  lanes_result (op_result arith c (ut_el u) trait) v w (uv_op arith c (uo_el r) (ut_sz u) sym v w).
Proof.
  intros arith c r u trait sym v w Hr Hu Ho Hv Hw. destruct (row_facts _ r u (trait, sym) (proj1 (forallb_forall _ _) ops_rows_ok r Hr) Hu Ho) as (E & Hs & Hin). rewrite E. apply op_vectors; assumption.
Qed.

Lemma c60_assigning : forall (arith : string -> elty -> Z -> Z -> Z) (c : config) (r : uop) (u : utype) (name sym : string) (v w : list Z),
  In r unknown_assignops -> utype_of (uo_vec r) = Some u -> In (name, sym) (uo_ops r) ->
  int_vector (ut_sz u) (lane_ity (ut_el u)) v -> int_vector (ut_sz u) (lane_ity (ut_el u)) w ->
  exists trait, name = (trait ++ "Assign")%string /\ lanes_result (op_result arith c (ut_el u) trait) v w (uv_assign arith c (uo_el r) sym v w).
Proof.
  intros arith c r u name sym v w Hr Hu Ho Hv Hw. destruct (row_facts _ r u (name, sym) (proj1 (forallb_forall _ _) assign_rows_ok r Hr) Hu Ho) as (E & Hs & Hin). rewrite E.
  unfold assign_syms_of in Hs. apply in_map_iff in Hs. destruct Hs as ((trait & s) & Es & Hs). injection Es as <- <-. exists trait. split; [reflexivity|].
  assert (Q : uv_assign arith c (ut_el u) (s ++ "=")%string v w = uv_op arith c (ut_el u) (ut_sz u) s v w).
  { unfold uv_assign, uv_op. assert (B : base_op (s ++ "=") = s).
    { unfold syms_of, symbols, float_symbols in Hs. destruct (int_el (ut_el u)); cbn [In] in Hs; repeat (destruct Hs as [X|Hs]; [injection X as <- <-; reflexivity|]); destruct Hs. }
    rewrite B. destruct Hv as [Hv1 _], Hw as [Hw1 _]. rewrite (assign_loop_eq _ w 0 v (uv_splat (ut_sz u) 0)); [reflexivity|lia|lia| |reflexivity]. unfold uv_splat. rewrite repeat_length. unfold zlen in *. lia. }
  rewrite Q. apply op_vectors; assumption.
Qed.

Definition has_traits (suffix : string) (rows : list uop) (u : utype) : bool :=
  match filter (fun r => String.eqb (uo_vec r) (ut_name u)) rows with
  | [r] => let names := map fst (uo_ops r) in
           forallb (fun t => existsb (String.eqb (t ++ suffix)) names) (required_traits (ut_el u)) && Nat.eqb (List.length names) (List.length (required_traits (ut_el u)))
  | _ => false end.

Lemma traits_present : forallb (fun u => has_traits "" unknown_ops u && has_traits "Assign" unknown_assignops u) unknown_types = true.
Proof. vm_compute. reflexivity. Qed.

Lemma c60_complete : forall u, In u unknown_types ->
  (exists r, In r unknown_ops /\ uo_vec r = ut_name u /\ (forall r', In r' unknown_ops -> uo_vec r' = ut_name u -> r' = r) /\
     NoDup (map fst (uo_ops r)) /\ forall t, In t (map fst (uo_ops r)) <-> In t (required_traits (ut_el u))) /\
  (exists r, In r unknown_assignops /\ uo_vec r = ut_name u /\ (forall r', In r' unknown_assignops -> uo_vec r' = ut_name u -> r' = r) /\
     NoDup (map fst (uo_ops r)) /\ forall t, In t (map fst (uo_ops r)) <-> exists t', In t' (required_traits (ut_el u)) /\ t = (t' ++ "Assign")%string).
Proof.
  intros u Hu. pose proof (proj1 (forallb_forall _ _) traits_present u Hu) as K. apply andb_prop in K. destruct K as [K1 K2].
  assert (NR : forall e, NoDup (required_traits e)) by (intros [t| |]; cbn; repeat constructor; cbn; intuition congruence).
  assert (NA : forall e, NoDup (map (fun t => t ++ "Assign")%string (required_traits e))) by (intros [t| |]; cbn; repeat constructor; cbn; intuition congruence).
  assert (G : forall suffix rows, has_traits suffix rows u = true -> NoDup (map (fun t => t ++ suffix)%string (required_traits (ut_el u))) ->
     exists r, In r rows /\ uo_vec r = ut_name u /\ (forall r', In r' rows -> uo_vec r' = ut_name u -> r' = r) /\ NoDup (map fst (uo_ops r)) /\ forall t, In t (map fst (uo_ops r)) <-> In t (map (fun t => t ++ suffix)%string (required_traits (ut_el u)))).
  { intros suffix rows H HN. unfold has_traits in H. destruct (filter (fun r => String.eqb (uo_vec r) (ut_name u)) rows) as [|r [|r2 l] ] eqn:E; try discriminate H.
    assert (F : In r (filter (fun r => String.eqb (uo_vec r) (ut_name u)) rows)) by (rewrite E; left; reflexivity). apply filter_In in F. destruct F as [F1 F2]. apply String.eqb_eq in F2. exists r. split; [exact F1|]. split; [exact F2|]. split.
    { intros r' Hr Hn. assert (F : In r' (filter (fun r => String.eqb (uo_vec r) (ut_name u)) rows)) by (apply filter_In; split; [exact Hr|apply String.eqb_eq; exact Hn]). rewrite E in F. destruct F as [F|[] ]. congruence. }
    apply andb_prop in H. destruct H as [H1 H2]. apply Nat.eqb_eq in H2.
    assert (I : incl (map (fun t => t ++ suffix)%string (required_traits (ut_el u))) (map fst (uo_ops r))).
    { intros t Ht. apply in_map_iff in Ht. destruct Ht as (t' & <- & Ht). pose proof (proj1 (forallb_forall _ _) H1 t' Ht) as X. apply existsb_exists in X. destruct X as (n & Hn & X). apply String.eqb_eq in X. rewrite X. exact Hn. }
    assert (I' : incl (map fst (uo_ops r)) (map (fun t => t ++ suffix)%string (required_traits (ut_el u)))) by (apply NoDup_length_incl; [exact HN|rewrite (map_length (fun t => t ++ suffix)%string); lia|exact I]).
    split; [|intros t; split; [apply I'|apply I] ]. apply (NoDup_incl_NoDup HN); [rewrite (map_length (fun t => t ++ suffix)%string); lia|exact I]. }
  split.
  - assert (M : map (fun t => t ++ "")%string (required_traits (ut_el u)) = required_traits (ut_el u)) by (destruct (ut_el u); reflexivity). destruct (G ""%string unknown_ops K1) as (r & R); [rewrite M; apply NR|]. rewrite M in R. exists r. exact R.
  - destruct (G "Assign"%string unknown_assignops K2 (NA _)) as (r & R1 & R2 & R3 & R4 & R5). exists r. split; [exact R1|split; [exact R2|split; [exact R3|split; [exact R4|] ] ] ]. intros t. rewrite R5, in_map_iff. split; intros (t' & A & B); exists t'; auto.
Qed.

(** ** Casts *)

Section ToFloat.
Variable f : ffmt.
Hypothesis Hok : fmt_ok f.

Local Notation M := (2 ^ f_m f).
Local Notation E := (2 ^ f_e f).
Local Notation B := (2 ^ (f_e f - 1) - 1).

(** The pattern with significand [M <= q <= 2 * M] (the last carries) and exponent
    [L] has the value [q * 2 ^ (L - f_m)]. *)
Lemma big_value : forall s L q, f_m f <= L < B -> M <= q <= 2 * M -> let r := f_with_sign f s ((L + B) * M + (q - M)) in
  f_pattern f r /\ is_finite f r /\ f_sign f r = s /\ absval f r = q * 2 ^ (L - f_m f) * fone f /\ f_mag f r = (L + B) * M + (q - M) /\ (Z.even (fraction_field f r) = Z.even q).
Proof.
  intros s L q HL Hq r. pose proof (M_pos f Hok) as HM. pose proof (E_pos f Hok) as HE. destruct (B_range f Hok) as [B1 B2]. destruct Hok as (K1 & K2 & K3).
  assert (Ev : Z.even M = true) by (replace (f_m f) with (Z.succ (f_m f - 1)) by lia; rewrite Z.pow_succ_r by lia; rewrite Z.even_mul; reflexivity).
  assert (Hr : exists e m, 0 < e < E - 1 /\ 0 <= m < M /\ (L + B) * M + (q - M) = e * M + m /\ (M + m) * 2 ^ (e - 1) = q * 2 ^ (L - f_m f) * fone f /\ Z.even m = Z.even q).
  { rewrite (fone_eq f). assert (P : 2 ^ (L - f_m f) * 2 ^ (B + f_m f - 1) = 2 ^ (L + B - 1)) by (rewrite <- Z.pow_add_r by lia; f_equal; lia).
    destruct (Z.eq_dec q (2 * M)) as [->|Hne].
    - exists (L + B + 1), 0. split; [lia|]. split; [lia|]. split; [lia|]. split; [|rewrite Z.even_mul; reflexivity].
      rewrite <- Z.mul_assoc, P. replace (L + B + 1 - 1) with (Z.succ (L + B - 1)) by lia. rewrite Z.pow_succ_r by lia. ring.
    - exists (L + B), (q - M). split; [lia|]. split; [lia|]. split; [lia|]. split; [|rewrite Z.even_sub, Ev; destruct (Z.even q); reflexivity].
      rewrite <- Z.mul_assoc, P. ring. }
  destruct Hr as (e & m & He & Hm & Hp & Hv & Hev).
  assert (R : r = (if s then 1 else 0) * (E * M) + (e * M + m)) by (subst r; unfold f_with_sign; rewrite Hp, (EM f Hok); destruct s; lia).
  destruct (fields_of f Hok (if s then 1 else 0) e m) as (F1 & F2 & F3 & F4); [destruct s; lia|lia|exact Hm|]. rewrite <- R in F1, F2, F3, F4.
  destruct (mag_fields f Hok r F1) as (G1 & _ & _ & G4). rewrite F2, F3 in G1. rewrite F4 in G4.
  split; [exact F1|]. split; [unfold is_finite; rewrite F2; lia|]. split; [destruct s, G4 as [ [? ?]|[? ?] ]; congruence|]. split; [|split; [lia|rewrite F3; exact Hev] ].
  destruct (sig_exp f Hok r F1) as (S1 & S2 & _). unfold absval. rewrite S1, S2, F2, F3. replace (e =? 0) with false by lia. replace (Z.max 1 e) with e by lia. exact Hv.
Qed.

Lemma abs_dist : forall (x : Z) (s : bool) (n F : Z), f_pattern f x -> f_sign f x = s -> Z.abs (fvalue f x - (if s then -1 else 1) * n * F) = Z.abs (absval f x - n * F).
Proof. intros x s n F Hx Hs. rewrite (fvalue_abs f Hok x Hx), Hs. destruct s; [|f_equal; ring]. rewrite <- Z.abs_opp. f_equal. ring. Qed.

(** A float of the other sign is further away than zero. *)
Lemma dist_below : forall (y : Z) (s : bool) (n : Z), f_pattern f y -> 0 <= n -> Z.abs (fvalue f y - (if s then -1 else 1) * n * fone f) >= Z.abs (absval f y - n * fone f).
Proof.
  intros y s n Hy Hn. rewrite (fvalue_abs f Hok y Hy). pose proof (absval_nonneg f Hok y Hy). assert (0 < fone f) by (apply fone_pos; exact Hok). assert (0 <= n * fone f) by (apply Z.mul_nonneg_nonneg; lia). set (t := n * fone f) in *. 
  destruct (f_sign f y), s; try replace (-1 * n * fone f) with (- t) by (subst t; ring); try replace (1 * n * fone f) with t by (subst t; ring); lia.
Qed.

Lemma dist_eq : forall (y : Z) (s : bool) (n : Z), f_pattern f y -> 0 < n -> Z.abs (fvalue f y - (if s then -1 else 1) * n * fone f) = Z.abs (absval f y - n * fone f) -> fvalue f y = (if s then -1 else 1) * absval f y.
Proof.
  intros y s n Hy Hn. rewrite (fvalue_abs f Hok y Hy). pose proof (absval_nonneg f Hok y Hy). assert (0 < fone f) by (apply fone_pos; exact Hok). assert (0 < n * fone f) by (apply Z.mul_pos_pos; lia). set (t := n * fone f) in *.
  destruct (f_sign f y), s; try replace (-1 * n * fone f) with (- t) by (subst t; ring); try replace (1 * n * fone f) with t by (subst t; ring); lia.
Qed.

Lemma from_int_nearest : forall n, Z.log2 (Z.abs n) < B -> nearest_float f n (f_from_int f n).
Proof.
  intros n HL. pose proof (M_pos f Hok) as HM. destruct (B_range f Hok) as [B1 B2]. assert (HF : 0 < fone f) by (apply fone_pos; exact Hok).
  assert (Km : 1 <= f_m f) by (destruct Hok as (_ & ? & _); assumption).
  destruct (Z.eq_dec n 0) as [->|N0].
  { assert (Z0 : f_from_int f 0 = 0) by (unfold f_from_int; cbn; replace (0 <=? f_m f) with true by lia; reflexivity). rewrite Z0.
    destruct (of_int_value f Hok false 0 ltac:(lia)) as (P1 & P2 & P3 & P4). change (f_with_sign f false (f_of_int f 0)) with 0 in *. assert (V0 : fvalue f 0 = 0) by (rewrite (fvalue_abs f Hok 0 P1), P4; lia). split; [exact P1|]. split; [exact P2|]. split; [|reflexivity].
    intros y Hy Hfy. cbv zeta. rewrite V0. change (0 * fone f) with 0. split; [lia|]. intros D. rewrite Z.sub_0_r in D. lia. }
  set (m := Z.abs n) in *. set (s := n <? 0). assert (Hn : n = (if s then -1 else 1) * m) by (subst s m; destruct (n <? 0) eqn:?; lia). assert (Hm : 0 <= m) by lia. assert (M0 : m <> 0) by lia.
  assert (L0 : 2 ^ Z.log2 m <= m < 2 ^ Z.succ (Z.log2 m)) by (apply Z.log2_spec; lia). pose proof (Z.log2_nonneg m) as L1.
  unfold f_from_int. fold m. fold s. destruct (Z.log2 m <=? f_m f) eqn:C.
  - (* exact *)
    assert (G : exists r, f_with_sign f s (f_of_int f m) = r /\ f_pattern f r /\ is_finite f r /\ f_sign f r = s /\ absval f r = m * fone f).
    { exists (f_with_sign f s (f_of_int f m)). split; [reflexivity|]. destruct (Z_le_dec m M) as [Hle|Hgt]; [apply (of_int_value f Hok s m); lia|].
      assert (Hlog : Z.log2 m = f_m f).
      { assert (f_m f <= Z.log2 m) by (apply Z.log2_le_pow2; lia). lia. }
      assert (E1 : f_of_int f m = (f_m f + B) * M + (m - M)).
      { unfold f_of_int. replace (m =? 0) with false by lia. rewrite Hlog. rewrite Z.sub_diag, Z.pow_0_r, Z.mul_1_r. reflexivity. }
      rewrite E1. rewrite Hlog in L0. rewrite Z.pow_succ_r in L0 by lia.
      destruct (big_value s (f_m f) m) as (P1 & P2 & P3 & P4 & _); [lia|lia|]. rewrite Z.sub_diag, Z.pow_0_r, Z.mul_1_r in P4. auto. }
    destruct G as (r & -> & P1 & P2 & P3 & P4). assert (V : fvalue f r = n * fone f) by (rewrite (fvalue_abs f Hok r P1), P3, P4, Hn; destruct s; ring).
    split; [exact P1|]. split; [exact P2|]. split; [|intros; lia]. intros y Hy Hfy. cbv zeta. rewrite V, Z.sub_diag. cbn. split; [lia|]. intros D Hne. exfalso. apply Hne. lia.
  - set (L := Z.log2 m) in *. set (d := 2 ^ (L - f_m f)). set (q := m / d). set (rm := m mod d).
    assert (Hd : 0 < d) by (apply Z.pow_pos_nonneg; lia). assert (HdM : d * M = 2 ^ L) by (subst d; rewrite <- Z.pow_add_r by lia; f_equal; lia).
    rewrite Z.pow_succ_r in L0 by lia. assert (Hdiv : m = d * q + rm) by (apply Z.div_mod; lia). assert (Hrm : 0 <= rm < d) by (apply Z.mod_pos_bound; lia).
    assert (Hq : M <= q < 2 * M).
    { split; [apply Z.div_le_lower_bound; lia|apply Z.div_lt_upper_bound; lia]. }
    set (up := (d <? 2 * rm) || ((d =? 2 * rm) && Z.odd q)). set (q' := q + (if up then 1 else 0)).
    assert (Eq : (L + f_bias f) * M + (q - M) + (if up then 1 else 0) = (L + B) * M + (q' - M)) by (unfold f_bias; subst q'; lia). rewrite Eq.
    assert (Hq' : M <= q' <= 2 * M) by (subst q'; destruct up; lia).
    destruct (big_value s L q') as (P1 & P2 & P3 & P4 & P5 & P6); [lia|exact Hq'|]. set (r := f_with_sign f s ((L + B) * M + (q' - M))) in *. fold d in P4.
    destruct (big_value false L q) as (A1 & _ & _ & A4 & A5 & _); [lia|lia|]. destruct (big_value false L (q + 1)) as (C1 & _ & _ & C4 & C5 & _); [lia|lia|]. fold d in A4, C4. cbn [f_with_sign] in A1, A4, A5, C1, C4, C5.
    split; [exact P1|]. split; [exact P2|]. split; [|intros; lia].
    assert (Dz : Z.abs (fvalue f r - n * fone f) = Z.abs (q' * d - m) * fone f).
    { rewrite Hn. rewrite (abs_dist r s m (fone f) P1 P3), P4. rewrite <- Z.mul_sub_distr_r, Z.abs_mul, (Z.abs_eq (fone f)) by lia. reflexivity. }
    intros y Hy Hfy. cbv zeta. rewrite Dz.
    pose proof (dist_below y s m Hy Hm) as Dy. rewrite <- Hn in Dy.
    assert (Side : absval f y <= q * d * fone f \/ (q + 1) * d * fone f <= absval f y).
    { destruct (Z_le_dec (f_mag f y) ((L + B) * M + (q - M))) as [H|H].
      - left. rewrite <- A4. rewrite <- A5 in H. pose proof (absval_mag f Hok y _ Hy A1) as K. destruct (Z.compare_spec (f_mag f y) (f_mag f ((L + B) * M + (q - M)))) as [H'|H'|H']; [apply Z.compare_eq_iff in K; lia|apply (proj1 (Z.compare_lt_iff _ _)) in K; lia|lia].
      - right. rewrite <- C4. assert (H' : f_mag f ((L + B) * M + (q + 1 - M)) <= f_mag f y) by lia. pose proof (absval_mag f Hok y _ Hy C1) as K. destruct (Z.compare_spec (f_mag f y) (f_mag f ((L + B) * M + (q + 1 - M)))) as [H''|H''|H'']; [apply Z.compare_eq_iff in K; lia|lia|apply (proj1 (Z.compare_gt_iff _ _)) in K; lia]. }
    assert (Mn : Z.min rm (d - rm) * fone f = Z.min (rm * fone f) ((d - rm) * fone f)) by (symmetry; apply Z.mul_min_distr_nonneg_r; lia).
    assert (E1 : (q + 1) * d * fone f = q * d * fone f + d * fone f) by ring. assert (E2 : m * fone f = q * d * fone f + rm * fone f) by (rewrite Hdiv at 1; ring). assert (E3 : (d - rm) * fone f = d * fone f - rm * fone f) by ring.
    assert (T1 : 0 <= rm * fone f) by (apply Z.mul_nonneg_nonneg; lia). assert (T2 : rm * fone f < d * fone f) by (apply Z.mul_lt_mono_pos_r; lia).
    assert (Ymin : Z.abs (absval f y - m * fone f) >= Z.min rm (d - rm) * fone f).
    { rewrite Mn. clear - Side E1 E2 E3 T1 T2. rewrite E1 in Side. rewrite E2, E3. set (u := q * d * fone f) in *. set (w := d * fone f) in *. set (t := rm * fone f) in *. set (x := absval f y) in *. clearbody u w t x. lia. }
    assert (Q' : Z.abs (q' * d - m) = Z.min rm (d - rm)).
    { subst q'. unfold up in *. rewrite Hdiv. destruct (d <? 2 * rm) eqn:U1; cbn [orb]; [lia|]. destruct (d =? 2 * rm) eqn:U2; cbn [andb]; [destruct (Z.odd q); lia|lia]. }
    rewrite Q'. split; [lia|]. intros D Hne. rewrite P6.
    assert (Dq : Z.abs (fvalue f y - n * fone f) = Z.abs (absval f y - m * fone f)) by lia. rewrite Hn in Dq. apply dist_eq in Dq; [|exact Hy|lia].
    assert (Vr : fvalue f r = (if s then -1 else 1) * (q' * d * fone f)) by (rewrite (fvalue_abs f Hok r P1), P3, P4; reflexivity).
    assert (Ne : absval f y <> q' * d * fone f) by (intros X; apply Hne; rewrite Dq, Vr, X; reflexivity).
    assert (Tie : d = 2 * rm).
    { assert (Ey : Z.abs (absval f y - m * fone f) = Z.min rm (d - rm) * fone f) by lia. rewrite Mn, E2, E3 in Ey. rewrite E1 in Side. destruct (Z.lt_trichotomy (2 * rm) d) as [T|[T|T] ]; [|lia|]; exfalso; apply Ne; subst q'; unfold up in *.
      - replace (d <? 2 * rm) with false by lia. replace (d =? 2 * rm) with false by lia. cbn [orb andb]. rewrite Z.add_0_r. assert (T3 : 2 * (rm * fone f) < d * fone f) by (rewrite Z.mul_assoc; apply Z.mul_lt_mono_pos_r; lia).
        clear - Side Ey T1 T2 T3. set (u := q * d * fone f) in *. set (w := d * fone f) in *. set (t := rm * fone f) in *. set (x := absval f y) in *. clearbody u w t x. lia.
      - replace (d <? 2 * rm) with true by lia. cbn [orb]. rewrite E1. assert (T3 : d * fone f < 2 * (rm * fone f)) by (rewrite Z.mul_assoc; apply Z.mul_lt_mono_pos_r; lia).
        clear - Side Ey T1 T2 T3. set (u := q * d * fone f) in *. set (w := d * fone f) in *. set (t := rm * fone f) in *. set (x := absval f y) in *. clearbody u w t x. lia. }
    subst q'. unfold up. replace (d <? 2 * rm) with false by lia. replace (d =? 2 * rm) with true by lia. cbn [orb andb]. destruct (Z.odd q) eqn:O; rewrite Z.even_add; rewrite <- Z.negb_odd, O; reflexivity.
Qed.
End ToFloat.

Lemma clamp_cases : forall t n, (0 < ibytes t)%nat -> (in_ity t n -> clamp t n = n) /\ (n < imin t -> clamp t n = imin t) /\ (imax t < n -> clamp t n = imax t).
Proof. intros t n Ht. pose proof (imin_le_imax t Ht). unfold in_ity, clamp. repeat split; lia. Qed.

Section FromFloat.
Variable f : ffmt.
Hypothesis Hok : fmt_ok f.

Local Notation M := (2 ^ f_m f).
Local Notation E := (2 ^ f_e f).
Local Notation B := (2 ^ (f_e f - 1) - 1).

Lemma trunc_abs : forall x, f_pattern f x -> Z.quot (absval f x) (fone f) = if 0 <=? f_pow f x then f_sig f x * 2 ^ f_pow f x else f_sig f x / 2 ^ (- f_pow f x).
Proof.
  intros x Hx. destruct (sig_exp f Hok x Hx) as (H1 & _ & H3). destruct (B_range f Hok) as [B1 B2]. assert (K : 1 <= f_m f) by (destruct Hok as (_ & ? & _); assumption). pose proof (fone_pos f Hok) as HF. pose proof (absval_nonneg f Hok x Hx).
  rewrite Z.quot_div_nonneg by lia. unfold absval, f_pow, f_bias. rewrite (fone_eq f). assert (He : 1 <= f_exp f x) by lia. destruct (0 <=? f_exp f x - B - f_m f) eqn:C.
  - replace (f_exp f x - 1) with (f_exp f x - B - f_m f + (B + f_m f - 1)) by lia. rewrite Z.pow_add_r by lia. rewrite Z.mul_assoc. apply Z.div_mul. apply Z.pow_nonzero; lia.
  - replace (B + f_m f - 1) with (- (f_exp f x - B - f_m f) + (f_exp f x - 1)) by lia. rewrite Z.pow_add_r by lia. apply Z.div_mul_cancel_r; apply Z.pow_nonzero; lia.
Qed.

Lemma to_int_ok : forall t x, (0 < ibytes t)%nat -> f_pattern f x -> truncates f t x (f_to_int f t x).
Proof.
  intros t x Ht Hx. destruct (nan_iff f Hok x Hx) as (N1 & N2 & N3 & N4). pose proof (imod_even t Ht) as Hev. pose proof (imod_pos t) as Hp. unfold truncates, f_to_int. split; [intros H; apply N1 in H; rewrite H; reflexivity|]. split; intros H.
  - assert (Nn : f_nan f x = false) by (apply N2; right; exact H). rewrite Nn. unfold f_finite. rewrite (N3 H). replace (f_inf f <? f_inf f) with false by lia.
    assert (Hs : (sign_bit f x =? 0) = negb (f_sign f x)) by (destruct (mag_fields f Hok x Hx) as (_ & _ & _ & [ [-> ->]|[-> ->] ]); reflexivity). rewrite Hs. pose proof (imin_le_imax t Ht). unfold clamp, imin, imax in *. destruct (f_sign f x), (isigned t); cbn [negb]; lia.
  - assert (Nn : f_nan f x = false) by (apply N2; left; exact H). rewrite Nn. apply N4 in H. unfold f_finite. replace (f_mag f x <? f_inf f) with true by lia. cbv zeta. rewrite <- (trunc_abs x Hx).
    assert (V : Z.quot (fvalue f x) (fone f) = if f_sign f x then - Z.quot (absval f x) (fone f) else Z.quot (absval f x) (fone f)).
    { rewrite (fvalue_abs f Hok x Hx). destruct (f_sign f x); [replace (-1 * absval f x) with (- absval f x) by ring; apply Z.quot_opp_l; pose proof (fone_pos f Hok); lia|replace (1 * absval f x) with (absval f x) by ring; reflexivity]. }
    rewrite V. apply clamp_cases. exact Ht.
Qed.
End FromFloat.

Lemma cast_loop_spec : forall f g xs i ret, (forall x, In x xs -> f x = Ok (g x)) -> 0 <= i -> zlen ret = i + zlen xs -> cast_loop f i xs ret = Ok (firstn (Z.to_nat i) ret ++ map g xs).
Proof.
  intros f g xs. induction xs as [|x xs IH]; intros i ret Hf Hi Hr.
  - cbn. rewrite app_nil_r, firstn_all2; [reflexivity|]. change (zlen (@nil Z)) with 0 in Hr. unfold zlen in Hr. lia.
  - rewrite zlen_cons in Hr. pose proof (zlen_nonneg xs). cbn [cast_loop map]. rewrite (Hf x) by (left; reflexivity). cbn [bind]. rewrite set_index_ok by lia. cbn [bind]. rewrite IH; [|intros y Hy; apply Hf; right; exact Hy|lia|rewrite zlen_upd by (cbn; lia); lia].
    rewrite firstn_snoc_upd by lia. rewrite <- app_assoc. reflexivity.
Qed.

Lemma znth_map : forall (A C : Type) (g : A -> C) l i x, znth l i = Some x -> znth (map g l) i = Some (g x).
Proof. intros A C g l i x H. unfold znth in *. destruct (i <? 0); [discriminate H|]. apply map_nth_error. exact H. Qed.

Definition el_eqb (a b : elty) : bool :=
  match a, b with
  | EInt t, EInt t' => Bool.eqb (isigned t) (isigned t') && Nat.eqb (ibytes t) (ibytes t')
  | EF32, EF32 => true | EF64, EF64 => true | _, _ => false end.

Lemma el_eqb_eq : forall a b, el_eqb a b = true <-> a = b.
Proof.
  intros [ [s n]| |] [ [s' n']| |]; cbn; split; intros H; try discriminate H; try reflexivity.
  - apply andb_prop in H. destruct H as [H1 H2]. apply Bool.eqb_prop in H1. apply Nat.eqb_eq in H2. congruence.
  - injection H as -> ->. rewrite Bool.eqb_reflx, Nat.eqb_refl. reflexivity.
Qed.

(** Integers of at most eight bytes, or the two float formats. *)
Definition cast_ok (from to : elty) : bool :=
  match from, to with
  | EInt a, EInt b => true
  | EInt a, _ => (ibytes a <=? 8)%nat
  | _, EInt b => true
  | _, _ => false end.

Lemma pattern_iff : forall e x, int_el e = false -> (in_ity (lane_ity e) x <-> f_pattern (fmt_of e) x).
Proof.
  intros [t| |] x H; [discriminate H| |]; unfold in_ity, f_pattern; cbn [lane_ity fmt_of].
  - change (imin u32) with 0. change (imax u32) with 4294967295. change (2 ^ (1 + f_e fmt32 + f_m fmt32)) with 4294967296. lia.
  - change (imin u64) with 0. change (imax u64) with 18446744073709551615. change (2 ^ (1 + f_e fmt64 + f_m fmt64)) with 18446744073709551616. lia.
Qed.

Lemma cast_lane_ok : forall from to x, cast_ok from to = true -> (0 < ibytes (lane_ity to))%nat -> in_ity (lane_ity from) x -> exists z, cast_lane from to x = Some z /\ in_ity (lane_ity to) z /\ cast_result from to x z.
Proof.
  assert (F : forall e a x, int_el e = false -> (ibytes a <= 8)%nat -> in_ity a x -> nearest_float (fmt_of e) x (f_from_int (fmt_of e) x)).
  { intros e a x He Ha Hx. apply from_int_nearest; [apply fmt_of_ok|]. assert (A : Z.abs x < 2 ^ 64).
    { assert (imod a <= 2 ^ 64) by (unfold imod; apply Z.pow_le_mono_r; lia). pose proof (imod_pos a). unfold in_ity, imin, imax in Hx. destruct (isigned a); lia. }
    assert (Z.log2 (Z.abs x) < 64) by (destruct (Z.eq_dec (Z.abs x) 0) as [->|]; [cbn; lia|apply Z.log2_lt_pow2; lia]). destruct e as [t| |]; [discriminate He| |]; cbn [fmt_of]; [change (2 ^ (f_e fmt32 - 1) - 1) with 127|change (2 ^ (f_e fmt64 - 1) - 1) with 1023]; lia. }
  assert (G : forall e b x, int_el e = false -> (0 < ibytes b)%nat -> in_ity (lane_ity e) x -> in_ity b (f_to_int (fmt_of e) b x) /\ truncates (fmt_of e) b x (f_to_int (fmt_of e) b x)).
  { intros e b x He Hb Hx. split; [|apply to_int_ok; [apply fmt_of_ok|exact Hb|apply pattern_iff; assumption] ]. unfold f_to_int. destruct (f_nan (fmt_of e) x); [|apply in_clamp; exact Hb]. pose proof (imod_even b Hb). pose proof (imod_pos b). unfold in_ity, imin, imax. destruct (isigned b); lia. }
  intros from to x H Ht Hx. destruct from as [a| |], to as [b| |]; try discriminate H; cbn [cast_lane cast_result lane_ity] in *.
  - exists (wrap b x). split; [reflexivity|]. split; [apply wrap_in; exact Ht|]. split; [apply wrap_in; exact Ht|]. exists (- ((x - imin b) / imod b)). unfold wrap. pose proof (imod_pos b). rewrite Z.mod_eq by lia. ring.
  - apply Nat.leb_le in H. pose proof (F EF32 a x eq_refl H Hx) as R. eexists. split; [reflexivity|]. split; [|exact R]. apply (pattern_iff EF32 _ eq_refl). apply R.
  - apply Nat.leb_le in H. pose proof (F EF64 a x eq_refl H Hx) as R. eexists. split; [reflexivity|]. split; [|exact R]. apply (pattern_iff EF64 _ eq_refl). apply R.
  - eexists. split; [reflexivity|]. apply (G EF32); auto.
  - eexists. split; [reflexivity|]. apply (G EF64); auto.
Qed.

Definition cast_row_ok (r : ucast) : bool :=
  match utype_of (uc_from r), utype_of (uc_to r) with
  | Some a, Some b => (ut_sz a =? ut_sz b) && Nat.eqb (ibytes (lane_ity (ut_el a))) (ibytes (lane_ity (ut_el b))) && el_eqb (uc_el r) (ut_el b) && cast_ok (ut_el a) (ut_el b) && String.eqb (uc_name r) ("as_" ++ uc_to r)
  | _, _ => false end.

Lemma cast_rows_ok : forallb cast_row_ok unknown_casts = true.
Proof. vm_compute. reflexivity. Qed.

Lemma utype_in : forall n u, utype_of n = Some u -> In u unknown_types /\ ut_name u = n.
Proof. intros n u H. unfold utype_of in H. apply find_some in H. destruct H as [H1 H2]. apply String.eqb_eq in H2. auto. Qed.

Lemma c61_casts : forall (r : ucast) (a b : utype) (v : list Z), In r unknown_casts -> utype_of (uc_from r) = Some a -> utype_of (uc_to r) = Some b ->
  int_vector (ut_sz a) (lane_ity (ut_el a)) v ->
  exists w, uv_cast (ut_el a) (uc_el r) (ut_sz b) v = Ok w /\ int_vector (ut_sz b) (lane_ity (ut_el b)) w /\ each_lane1 (cast_result (ut_el a) (ut_el b)) v w.
Proof.
  intros r a b v Hr Ha Hb [Hv1 Hv2]. pose proof (proj1 (forallb_forall _ _) cast_rows_ok r Hr) as K. unfold cast_row_ok in K. rewrite Ha, Hb in K. rewrite !andb_true_iff in K. destruct K as [ [ [ [K1 K2] K3] K4] K5]. apply el_eqb_eq in K3. rewrite K3. clear K3. apply Z.eqb_eq in K1.
  destruct (utype_in _ _ Hb) as [Hbi _]. destruct (type_facts b Hbi) as (P1 & _ & P3).
  set (g := fun x => match cast_lane (ut_el a) (ut_el b) x with Some z => z | None => 0 end).
  assert (G : forall x, in_ity (lane_ity (ut_el a)) x -> cast_lane (ut_el a) (ut_el b) x = Some (g x) /\ in_ity (lane_ity (ut_el b)) (g x) /\ cast_result (ut_el a) (ut_el b) x (g x)).
  { intros x Hx. destruct (cast_lane_ok (ut_el a) (ut_el b) x K4 P3 Hx) as (z & E & G1 & G2). unfold g. rewrite E. auto. }
  exists (map g v). unfold uv_cast. rewrite (cast_loop_spec _ g); [|intros x Hx; rewrite (proj1 (G x (proj1 (Forall_forall _ _) Hv2 x Hx))); reflexivity|lia|unfold uv_splat; rewrite zlen_repeat; lia].
  split; [reflexivity|]. split.
  - split; [rewrite zlen_map; lia|]. apply Forall_forall. intros z Hz. apply in_map_iff in Hz. destruct Hz as (x & <- & Hx). apply G. apply (proj1 (Forall_forall _ _) Hv2 x Hx).
  - split; [apply zlen_map|]. intros i x Hx. exists (g x). split; [apply znth_map; exact Hx|]. apply G. apply (proj1 (Forall_forall _ _) Hv2). apply (znth_In _ _ _ _ Hx).
Qed.

Definition pair_once (rows : list ucast) (a b : utype) : bool :=
  if negb (String.eqb (ut_name a) (ut_name b)) && (ut_sz a =? ut_sz b) && Nat.eqb (ibytes (lane_ity (ut_el a))) (ibytes (lane_ity (ut_el b)))
  then match filter (fun r => String.eqb (uc_from r) (ut_name a) && String.eqb (uc_to r) (ut_name b)) rows with [r] => String.eqb (uc_name r) ("as_" ++ ut_name b) | _ => false end
  else true.

Lemma pairs_once : forallb (fun a => forallb (pair_once unknown_casts a) unknown_types) unknown_types = true.
Proof. vm_compute. reflexivity. Qed.

Lemma pair_found : forall rows a b, pair_once rows a b = true -> ut_name a <> ut_name b -> ut_sz a = ut_sz b -> ibytes (lane_ity (ut_el a)) = ibytes (lane_ity (ut_el b)) ->
  exists r, In r rows /\ uc_from r = ut_name a /\ uc_to r = ut_name b.
Proof.
  intros rows a b K Hn Hs He. unfold pair_once in K. apply String.eqb_neq in Hn. rewrite Hn, Hs, He, Z.eqb_refl, Nat.eqb_refl in K. cbn [negb andb] in K.
  destruct (filter (fun r => String.eqb (uc_from r) (ut_name a) && String.eqb (uc_to r) (ut_name b)) rows) as [|r [|] ] eqn:E; try discriminate K. assert (F : In r (filter (fun r => String.eqb (uc_from r) (ut_name a) && String.eqb (uc_to r) (ut_name b)) rows)) by (rewrite E; left; reflexivity). apply filter_In in F. destruct F as [F1 F2]. apply andb_prop in F2. destruct F2 as [F2 F3]. apply String.eqb_eq in F2. apply String.eqb_eq in F3. exists r. auto.
Qed.

Lemma forallb2 : forall (A C : Type) (P : A -> C -> bool) l m, forallb (fun a => forallb (P a) m) l = true -> forall a b, In a l -> In b m -> P a b = true.
Proof. intros A C P l m H a b Ha Hb. exact (proj1 (forallb_forall _ _) (proj1 (forallb_forall _ _) H a Ha) b Hb). Qed.

Lemma c61_complete :
  (forall r, In r unknown_casts -> uc_name r = ("as_" ++ uc_to r)%string /\ exists a b, utype_of (uc_from r) = Some a /\ utype_of (uc_to r) = Some b /\
     ut_sz a = ut_sz b /\ ibytes (lane_ity (ut_el a)) = ibytes (lane_ity (ut_el b)) /\ uc_el r = ut_el b) /\
  (forall a b, In a unknown_types -> In b unknown_types -> ut_name a <> ut_name b -> ut_sz a = ut_sz b -> ibytes (lane_ity (ut_el a)) = ibytes (lane_ity (ut_el b)) ->
     exists r, In r unknown_casts /\ uc_from r = ut_name a /\ uc_to r = ut_name b).
Proof.
  split.
  - intros r Hr. pose proof (proj1 (forallb_forall _ _) cast_rows_ok r Hr) as K. unfold cast_row_ok in K. destruct (utype_of (uc_from r)) as [a|]; [|discriminate K]. destruct (utype_of (uc_to r)) as [b|]; [|discriminate K]. rewrite !andb_true_iff in K. destruct K as [ [ [ [K1 K2] K3] K4] K5]. apply el_eqb_eq in K3. apply Z.eqb_eq in K1. apply Nat.eqb_eq in K2. apply String.eqb_eq in K5. split; [exact K5|]. exists a, b. auto.
  - intros a b Ha Hb. apply pair_found. exact (forallb2 _ _ _ _ _ pairs_once a b Ha Hb).
Qed.

Definition from_ok (to : utype) (n : string) : bool :=
  match utype_of n with
  | Some a => (ut_sz a * Z.of_nat (ibytes (lane_ity (ut_el a))) =? ut_sz to * Z.of_nat (ibytes (lane_ity (ut_el to)))) && int_el (ut_el a)
  | None => false end.

Definition from_row_ok (r : ufrom) : bool :=
  match utype_of (uf_to r) with Some b => int_el (ut_el b) && forallb (from_ok b) (uf_from r) | None => false end.

Lemma from_rows_ok : forallb from_row_ok unknown_froms = true.
Proof. vm_compute. reflexivity. Qed.

Lemma c62_bytes : forall (r : ufrom) (n : string) (a b : utype) (v : list Z), In r unknown_froms -> In n (uf_from r) -> utype_of n = Some a -> utype_of (uf_to r) = Some b ->
  int_vector (ut_sz a) (lane_ity (ut_el a)) v ->
  let w := uv_from (ut_el a) (ut_el b) v in
  int_vector (ut_sz b) (lane_ity (ut_el b)) w /\ bytes_of (lane_ity (ut_el b)) w = bytes_of (lane_ity (ut_el a)) v /\ uv_from (ut_el b) (ut_el a) w = v.
Proof.
  intros r n a b v Hr Hn Ha Hb [Hv1 Hv2]. pose proof (proj1 (forallb_forall _ _) from_rows_ok r Hr) as K. unfold from_row_ok in K. rewrite Hb in K. apply andb_prop in K. destruct K as [_ K]. pose proof (proj1 (forallb_forall _ _) K n Hn) as K'. unfold from_ok in K'. rewrite Ha in K'. apply andb_prop in K'. destruct K' as [K1 _]. apply Z.eqb_eq in K1.
  destruct (utype_in _ _ Ha) as [Hai _]. destruct (utype_in _ _ Hb) as [Hbi _]. destruct (type_facts a Hai) as (A1 & _ & A3). destruct (type_facts b Hbi) as (B1 & _ & B3).
  cbv zeta. unfold uv_from, bitcast. set (ta := lane_ity (ut_el a)) in *. set (tb := lane_ity (ut_el b)) in *. set (bs := bytes_of ta v).
  assert (Lb : length bs = (Z.to_nat (ut_sz b) * ibytes tb)%nat) by (subst bs; rewrite bytes_of_len; unfold zlen in Hv1; nia).
  assert (By : bytes_of tb (lanes_of tb bs) = bs) by (apply (bytes_of_lanes_of tb bs (Z.to_nat (ut_sz b))); [exact B3|apply bytes_of_byte|exact Lb]).
  split; [|split; [exact By|rewrite By; apply lanes_of_bytes_of; assumption] ]. split.
  - assert (X : (length (lanes_of tb bs) * ibytes tb = length bs)%nat) by (rewrite <- By at 2; rewrite bytes_of_len; reflexivity). unfold zlen. rewrite Lb in X. nia.
  - unfold lanes_of. apply Forall_forall. intros z Hz. apply in_map_iff in Hz. destruct Hz as (x & <- & _). apply wrap_in. exact B3.
Qed.

Definition from_exists (a b : utype) : bool :=
  if negb (String.eqb (ut_name a) (ut_name b)) && int_el (ut_el a) && int_el (ut_el b) && (ut_sz a * Z.of_nat (ibytes (lane_ity (ut_el a))) =? ut_sz b * Z.of_nat (ibytes (lane_ity (ut_el b))))
  then existsb (fun r => String.eqb (uf_to r) (ut_name b) && existsb (String.eqb (ut_name a)) (uf_from r)) unknown_froms
  else true.

Lemma froms_exist : forallb (fun a => forallb (from_exists a) unknown_types) unknown_types = true.
Proof. vm_compute. reflexivity. Qed.

Lemma c62_complete : forall a b, In a unknown_types -> In b unknown_types -> ut_name a <> ut_name b ->
  ((exists r, In r unknown_froms /\ uf_to r = ut_name b /\ In (ut_name a) (uf_from r)) <->
   (exists t1 t2, ut_el a = EInt t1 /\ ut_el b = EInt t2 /\ ut_sz a * Z.of_nat (ibytes t1) = ut_sz b * Z.of_nat (ibytes t2))).
Proof.
  assert (U : forall u, In u unknown_types -> utype_of (ut_name u) = Some u).
  { intros u Hu. assert (C : forallb (fun u => match utype_of (ut_name u) with Some w => String.eqb (ut_name w) (ut_name u) && el_eqb (ut_el w) (ut_el u) && (ut_sz w =? ut_sz u) && Nat.eqb (ut_params w) (ut_params u) | None => false end) unknown_types = true) by (vm_compute; reflexivity). pose proof (proj1 (forallb_forall _ _) C u Hu) as K. cbv beta in K. destruct (utype_of (ut_name u)) as [w|]; [|discriminate K]. rewrite !andb_true_iff in K. destruct K as [ [ [K1 K2] K3] K4]. apply String.eqb_eq in K1. apply el_eqb_eq in K2. apply Z.eqb_eq in K3. apply Nat.eqb_eq in K4. destruct w, u. cbn in *. congruence. }
  intros a b Ha Hb Hne. split.
  - intros (r & Hr & E1 & E2). pose proof (proj1 (forallb_forall _ _) from_rows_ok r Hr) as K. unfold from_row_ok in K. rewrite E1, (U b Hb) in K. apply andb_prop in K. destruct K as [Kb K]. pose proof (proj1 (forallb_forall _ _) K _ E2) as K'. unfold from_ok in K'. rewrite (U a Ha) in K'. apply andb_prop in K'. destruct K' as [K1 K2]. apply Z.eqb_eq in K1. destruct (ut_el a) as [t1| |]; try discriminate K2. destruct (ut_el b) as [t2| |]; try discriminate Kb. exists t1, t2. auto.
  - intros (t1 & t2 & E1 & E2 & E3). pose proof (forallb2 _ _ _ _ _ froms_exist a b Ha Hb) as K. unfold from_exists in K. rewrite E1, E2 in K. apply String.eqb_neq in Hne. rewrite Hne in K. cbn [negb int_el andb lane_ity] in K. rewrite E3, Z.eqb_refl in K. apply existsb_exists in K. destruct K as (r & Hr & K). apply andb_prop in K. destruct K as [K1 K2]. apply String.eqb_eq in K1. apply existsb_exists in K2. destruct K2 as (n & Hn & K2). apply String.eqb_eq in K2. exists r. subst n. auto.
Qed.

Lemma eq_fold : forall (A : Type) (eq : A -> A -> bool) l acc, fold_left (fun acc ab => acc && eq (fst ab) (snd ab)) l acc = acc && forallb (fun ab => eq (fst ab) (snd ab)) l.
Proof. intros A eq l. induction l as [|[a b] l IH]; intros acc; cbn; [symmetry; apply andb_true_r|]. rewrite IH, andb_assoc. reflexivity. Qed.

Lemma combine_znth : forall (A C : Type) (v : list A) (w : list C) a b, length v = length w -> (In (a, b) (combine v w) <-> exists i, znth v i = Some a /\ znth w i = Some b).
Proof.
  intros A C v. induction v as [|x v IH]; intros [|y w] a b Hl; try discriminate Hl.
  - cbn. split; [intros []|]. intros (i & H & _). apply znth_Some_lt in H. cbn in H. lia.
  - cbn [combine In]. rewrite IH by (cbn in Hl; lia). split.
    + intros [H|(i & H1 & H2)]; [injection H as <- <-; exists 0; auto|]. exists (i + 1). pose proof (znth_Some_lt _ _ _ H1). change (x :: v) with ([x] ++ v). change (y :: w) with ([y] ++ w). rewrite !znth_app by lia. change (zlen [x]) with 1. change (zlen [y]) with 1. replace (i + 1 <? 1) with false by lia. replace (i + 1 - 1) with i by lia. auto.
    + intros (i & H1 & H2). pose proof (znth_Some_lt _ _ _ H1). destruct (Z.eq_dec i 0) as [->|Hi]; [left; cbn in H1, H2; congruence|]. right. exists (i - 1). change (x :: v) with ([x] ++ v) in H1. change (y :: w) with ([y] ++ w) in H2. rewrite znth_app in H1, H2 by lia. change (zlen [x]) with 1 in H1. change (zlen [y]) with 1 in H2. replace (i <? 1) with false in H1, H2 by lia. auto.
Qed.

Lemma c63_eq : forall (u : utype) (v w : list Z), In u unknown_types -> int_vector (ut_sz u) (lane_ity (ut_el u)) v -> int_vector (ut_sz u) (lane_ity (ut_el u)) w ->
  (uv_eq (rust_eq (ut_el u)) v w = true <-> forall i x y, znth v i = Some x -> znth w i = Some y -> equal_lanes (ut_el u) x y).
Proof.
  intros u v w Hu [Hv1 Hv2] [Hw1 Hw2]. assert (Hl : length v = length w) by (unfold zlen in *; lia). unfold uv_eq. rewrite eq_fold. cbn [andb]. rewrite forallb_forall.
  assert (In1 : forall l x i, Forall (in_ity (lane_ity (ut_el u))) l -> znth l i = Some x -> in_ity (lane_ity (ut_el u)) x) by (intros l x i Hf Hx; apply (proj1 (Forall_forall _ _) Hf); apply (znth_In _ _ _ _ Hx)).
  split.
  - intros H i x y Hx Hy. apply rust_eq_spec; [apply (In1 v x i Hv2 Hx)|apply (In1 w y i Hw2 Hy)|]. apply (H (x, y)). apply combine_znth; [exact Hl|]. exists i. auto.
  - intros H (x, y) Hxy. apply combine_znth in Hxy; [|exact Hl]. destruct Hxy as (i & Hx & Hy). cbn [fst snd]. apply rust_eq_spec; [apply (In1 v x i Hv2 Hx)|apply (In1 w y i Hw2 Hy)|]. apply (H i); assumption.
Qed.

Lemma c63_relation : forall (u : utype) (v w x : list Z), In u unknown_types ->
  int_vector (ut_sz u) (lane_ity (ut_el u)) v -> int_vector (ut_sz u) (lane_ity (ut_el u)) w -> int_vector (ut_sz u) (lane_ity (ut_el u)) x ->
  uv_eq (rust_eq (ut_el u)) v w = uv_eq (rust_eq (ut_el u)) w v /\
  (uv_eq (rust_eq (ut_el u)) v w = true -> uv_eq (rust_eq (ut_el u)) w x = true -> uv_eq (rust_eq (ut_el u)) v x = true) /\
  (uv_eq (rust_eq (ut_el u)) v v = true <-> ((forall t, ut_el u <> EInt t) -> forall i a, znth v i = Some a -> ~ is_nan (fmt_of (ut_el u)) a)).
Proof.
  intros u v w x Hu Hv Hw Hx.
  assert (Sy : forall e a b, equal_lanes e a b -> equal_lanes e b a) by (intros [t| |] a b; unfold equal_lanes, float_eq; intuition congruence).
  assert (Sym : forall v w, int_vector (ut_sz u) (lane_ity (ut_el u)) v -> int_vector (ut_sz u) (lane_ity (ut_el u)) w -> uv_eq (rust_eq (ut_el u)) v w = true -> uv_eq (rust_eq (ut_el u)) w v = true).
  { intros v' w' Hv' Hw' H. apply c63_eq; [assumption..|]. intros i a b Ha Hb. apply Sy. apply (proj1 (c63_eq u v' w' Hu Hv' Hw') H i); assumption. }
  split; [|split].
  - destruct (uv_eq (rust_eq (ut_el u)) v w) eqn:E1, (uv_eq (rust_eq (ut_el u)) w v) eqn:E2; try reflexivity; [rewrite (Sym v w Hv Hw E1) in E2|rewrite (Sym w v Hw Hv E2) in E1]; discriminate.
  - intros H1 H2. apply c63_eq; [assumption..|]. intros i a b Ha Hb. pose proof (znth_Some_lt _ _ _ Ha) as Hi. destruct (znth_exists w i) as (m & Hm); [destruct Hv as [L1 _], Hw as [L2 _]; lia|].
    pose proof (proj1 (c63_eq u v w Hu Hv Hw) H1 i a m Ha Hm) as K1. pose proof (proj1 (c63_eq u w x Hu Hw Hx) H2 i m b Hm Hb) as K2. destruct (ut_el u) as [t| |]; unfold equal_lanes, float_eq in *; intuition congruence.
  - rewrite (c63_eq u v v Hu Hv Hv). split.
    + intros H Ht i a Ha. pose proof (H i a a Ha Ha) as K. destruct (ut_el u) as [t'| |]; [exfalso; apply (Ht t'); reflexivity|..]; unfold equal_lanes, float_eq in K; tauto.
    + intros H i a b Ha Hb. rewrite Ha in Hb. injection Hb as <-. destruct (ut_el u) as [t'| |]; unfold equal_lanes, float_eq; [reflexivity|..]; pose proof (H ltac:(discriminate) i a Ha); auto.
Qed.

Lemma c64_construct : forall (A : Type) (u : utype) (args : list A) (x : A), In u unknown_types -> length args = ut_params u ->
  uv_len u = ut_sz u /\ zlen (uv_new args) = uv_len u /\ (forall i, 0 <= i < uv_len u -> exists a, znth args i = Some a /\ uv_extract (uv_new args) i = Ok a) /\
  zlen (uv_splat (ut_sz u) x) = uv_len u /\ (forall i, 0 <= i < uv_len u -> uv_extract (uv_splat (ut_sz u) x) i = Ok x).
Proof.
  intros A u args x Hu Hl. destruct (type_facts u Hu) as (H1 & H2 & _). assert (La : zlen args = ut_sz u) by (unfold zlen; lia). unfold uv_len, uv_new, uv_extract, index. split; [reflexivity|]. split; [exact La|]. split.
  - intros i Hi. destruct (znth_exists args i) as (a & Ha); [lia|]. exists a. rewrite Ha. auto.
  - unfold uv_splat. split; [rewrite zlen_repeat; lia|]. intros i Hi. destruct (znth_exists (repeat x (Z.to_nat (ut_sz u))) i) as (a & Ha); [rewrite zlen_repeat; lia|]. rewrite Ha. f_equal. apply (repeat_spec (Z.to_nat (ut_sz u))). apply (znth_In _ _ _ _ Ha).
Qed.

Lemma c64_lanes : forall (A : Type) (u : utype) (v : list A) (i : Z) (x : A), In u unknown_types -> zlen v = ut_sz u -> 0 <= i ->
  (i < ut_sz u -> exists a w, uv_extract v i = Ok a /\ znth v i = Some a /\ uv_replace v i x = Ok w /\ zlen w = ut_sz u /\
     uv_extract w i = Ok x /\ forall j, 0 <= j -> j <> i -> znth w j = znth v j) /\
  (ut_sz u <= i -> uv_extract v i = Panic /\ uv_replace v i x = Panic) /\
  uv_extract_unchecked v i = uv_extract v i /\ uv_replace_unchecked v i x = uv_replace v i x.
Proof.
  intros A u v i x Hu Hv Hi. unfold uv_extract, uv_replace, index, set_index. split; [|split; [|split; reflexivity] ].
  - intros Hlt. destruct (znth_exists v i) as (a & Ha); [lia|]. exists a, (upd v i [x]). rewrite Ha. replace ((0 <=? i) && (i <? zlen v)) with true by lia. split; [reflexivity|]. split; [reflexivity|]. split; [reflexivity|]. split; [rewrite zlen_upd by (cbn; lia); exact Hv|].
    assert (Z1 : zlen [x] = 1) by reflexivity. split.
    + rewrite znth_upd by lia. rewrite Z1. replace ((i <=? i) && (i <? i + 1)) with true by lia. rewrite Z.sub_diag. reflexivity.
    + intros j Hj Hne. rewrite znth_upd by lia. rewrite Z1. replace ((i <=? j) && (j <? i + 1)) with false by lia. reflexivity.
  - intros Hge. rewrite znth_None by lia. replace ((0 <=? i) && (i <? zlen v)) with false by lia. auto.
Qed.
