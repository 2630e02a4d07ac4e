(** Proofs of the properties: comparison masks, min/max and saturating arithmetic (C38, C39, C40). *)
From Coq Require Import String.
From Verif Require Import Base Spec VecSpec Vecs Lanes Floats FloatSpec X86 OpTables OpSpec Ops.
Open Scope list_scope.
Open Scope Z_scope.
From Coq Require Import Lia ZifyBool ZifyNat.
From Verif Require Import ListFacts VecFacts FloatFacts VecProofs PatternProofs ShuffleProofs.
Ltac Zify.zify_post_hook ::= Z.div_mod_to_equations.

Lemma lanes_of_cast : forall t1 t2 v, ibytes t1 = ibytes t2 -> (0 < ibytes t1)%nat -> lanes_of t2 (bytes_of t1 v) = map (wrap t2) v.
Proof.
  intros t1 t2 v H Hp. unfold lanes_of, bytes_of. rewrite flat_map_concat_map, <- H. rewrite regroup_concat; [|exact Hp|].
  - rewrite map_map. apply map_ext. intros x. rewrite of_to_bytes, H. fold (imod t2). pose proof (imod_pos t2). apply wrap_eq; [lia|]. apply Z.mod_mod. lia.
  - apply Forall_forall. intros b Hb. apply in_map_iff in Hb. destruct Hb as (x & <- & _). apply to_bytes_len.
Qed.

Lemma zipw_map : forall (A B C A' B' : Type) (g : A -> B -> C) (p : A' -> A) (q : B' -> B) a b,
  zipw g (map p a) (map q b) = zipw (fun x y => g (p x) (q y)) a b.
Proof. intros A B C A' B' g p q. induction a as [|x a IH]; intros [|y b]; cbn; try reflexivity. f_equal. apply IH. Qed.

Lemma map_zipw : forall (A B C D : Type) (g : A -> B -> C) (h : C -> D) a b, map h (zipw g a b) = zipw (fun x y => h (g x y)) a b.
Proof. intros A B C D g h. induction a as [|x a IH]; intros [|y b]; cbn; try reflexivity. f_equal. apply IH. Qed.

Lemma zipw_ext_in : forall (A B C : Type) (P : A -> Prop) (Q : B -> Prop) (g h : A -> B -> C) a b,
  Forall P a -> Forall Q b -> (forall x y, P x -> Q y -> g x y = h x y) -> zipw g a b = zipw h a b.
Proof.
  intros A B C P Q g h a b Ha. revert b. induction Ha as [|x a Hx Ha IH]; intros b Hb E; [reflexivity|].
  destruct Hb as [|y b Hy Hb]; [reflexivity|]. cbn. rewrite E by assumption. f_equal. apply IH; assumption.
Qed.

Lemma zipw_ext2 : forall (A B C : Type) (R : A -> B -> Prop) (g h : A -> B -> C) a b,
  Forall2 R a b -> (forall x y, R x y -> g x y = h x y) -> zipw g a b = zipw h a b.
Proof. intros A B C R g h a b H E. induction H as [|x y a b Hxy H IH]; [reflexivity|]. cbn. rewrite E by exact Hxy. f_equal. exact IH. Qed.

Lemma zipw_len : forall (A B C : Type) (g : A -> B -> C) a b, length a = length b -> length (zipw g a b) = length a.
Proof. intros A B C g. induction a as [|x a IH]; intros [|y b] H; cbn in *; try lia. f_equal. apply IH. lia. Qed.

Lemma zipw_znth : forall (A B C : Type) (g : A -> B -> C) a b i x y, znth a i = Some x -> znth b i = Some y -> znth (zipw g a b) i = Some (g x y).
Proof.
  intros A B C g a b i x y. unfold znth. destruct (i <? 0); [discriminate|]. generalize (Z.to_nat i) as k. revert b.
  induction a as [|u a IH]; intros [|v b] [|k] Ha Hb; cbn in *; try discriminate; [congruence|]. apply IH; assumption.
Qed.

Lemma zipw_lanewise : forall g a b, zlen a = zlen b -> lanewise g a b (zipw g a b).
Proof. intros g a b H. split; [unfold zlen in *; rewrite zipw_len by lia; reflexivity|]. intros i x y. apply zipw_znth. Qed.

Lemma lanes2_seq : forall W g a b n pa pb ra rb, a = pa ++ ra -> b = pb ++ rb -> length pa = length pb -> length ra = n -> length rb = n -> zlen a <= W -> zlen b <= W ->
  lanes2 W g a b (map Z.of_nat (seq (length pa) n)) = Ok (zipw g ra rb).
Proof.
  intros W g a b. induction n as [|n IH]; intros pa pb ra rb Ha Hb Hp H1 H2 Hwa Hwb; [destruct ra; [reflexivity|discriminate]|].
  destruct ra as [|x ra]; [discriminate|]. destruct rb as [|y rb]; [discriminate|]. cbn [seq map lanes2 zipw].
  assert (E1 : extract W a (Z.of_nat (length pa)) = Ok x) by (subst a; apply extract_prefix; exact Hwa).
  assert (E2 : extract W b (Z.of_nat (length pa)) = Ok y) by (rewrite Hp; subst b; apply extract_prefix; exact Hwb).
  rewrite E1. cbn [bind]. rewrite E2. cbn [bind]. specialize (IH (pa ++ [x]) (pb ++ [y]) ra rb). rewrite !app_length in IH. cbn [length] in IH.
  replace (length pa + 1)%nat with (S (length pa)) in IH by lia.
  rewrite IH; [reflexivity|subst a; rewrite <- app_assoc; reflexivity|subst b; rewrite <- app_assoc; reflexivity|lia|cbn in H1; lia|cbn in H2; lia|exact Hwa|exact Hwb].
Qed.

Definition idx_check (o : op_impl) : bool :=
  (0 <? WIDTH (op_ty o)) && (if list_eq_dec Z.eq_dec (op_idx o) (map Z.of_nat (seq 0 (Z.to_nat (WIDTH (op_ty o))))) then true else false).

Lemma portable2_ok : forall tie o g a b, idx_check o = true -> rust_binary tie o = Some g -> zlen a = WIDTH (op_ty o) -> zlen b = WIDTH (op_ty o) ->
  portable2 tie o a b = Some (Ok (zipw g a b)).
Proof.
  intros tie o g a b Hi Hg Ha Hb. unfold idx_check in Hi. apply andb_true_iff in Hi. destruct Hi as [Hw Hi]. apply list_dec_true in Hi.
  unfold portable2. rewrite Hg. cbn [option_map]. rewrite Hi. f_equal. unfold zlen in *.
  apply (lanes2_seq (WIDTH (op_ty o)) g a b _ [] [] a b); try reflexivity; unfold zlen; lia.
Qed.

(** An optimized entry: its instruction, and that the instruction's lanes are the
    vector's lanes. *)
Definition instr_of (o : op_impl) : option instr2 :=
  find (fun i => String.eqb (i2_name i) (op_mm o) && strings_eqb (i2_args i) (op_args o)) binary_instrs.

Definition lanes_match (o : op_impl) (i : instr2) : bool :=
  Nat.eqb (ibytes (i2_ty i)) (ibytes (lane_ity (op_el o))) && Nat.eqb (ibytes (i2_ty i)) (ibytes (lane_ity (op_out o))) &&
  Nat.ltb 0 (ibytes (i2_ty i)) && (Z.of_nat (i2_reg i) =? WIDTH (op_ty o) * SIZE (op_ty o)).

Lemma optimized2_lanes : forall o i a b, instr_of o = Some i -> lanes_match o i = true ->
  optimized2 o a b = Some (zipw (fun x y => wrap (lane_ity (op_out o)) (i2_op i (wrap (i2_ty i) x) (wrap (i2_ty i) y))) a b).
Proof.
  intros o i a b Hi Hm. unfold lanes_match in Hm. rewrite !andb_true_iff in Hm. destruct Hm as (((H1 & H2) & H3) & _).
  apply Nat.eqb_eq in H1, H2. apply Nat.ltb_lt in H3. unfold optimized2. unfold instr_of in Hi. rewrite Hi. f_equal. unfold exec2.
  rewrite lanes_of_cast by lia. rewrite !lanes_of_cast by lia. rewrite zipw_map, map_zipw. reflexivity.
Qed.

(** What a table must satisfy: the indices are in order, the instruction exists when
    the feature does, and does [g] on lanes in range. *)
Definition entry_ok (P : elty -> Z -> Z -> Prop) (g : op_impl -> Z -> Z -> Z) (o : op_impl) : Prop :=
  idx_check o = true /\
  (forall i, instr_of o = Some i -> lanes_match o i = true /\
     forall x y, in_ity (lane_ity (op_el o)) x -> in_ity (lane_ity (op_el o)) y -> P (op_el o) x y ->
       wrap (lane_ity (op_out o)) (i2_op i (wrap (i2_ty i) x) (wrap (i2_ty i) y)) = g o x y).

Lemma Forall2_of : forall (A B : Type) (P : A -> Prop) (Q : B -> Prop) (R : A -> B -> Prop) a b, Forall P a -> Forall Q b -> Forall2 R a b ->
  Forall2 (fun x y => P x /\ Q y /\ R x y) a b.
Proof. intros A B P Q R a b Ha Hb H. induction H as [|x y a b Hxy H IH]; [constructor|]. inversion Ha; inversion Hb; subst. constructor; [tauto|]. apply IH; assumption. Qed.

Lemma entry_result : forall P g o a b r, entry_ok P g o -> int_vector (WIDTH (op_ty o)) (lane_ity (op_el o)) a -> int_vector (WIDTH (op_ty o)) (lane_ity (op_el o)) b ->
  Forall2 (P (op_el o)) a b -> optimized2 o a b = Some r -> r = zipw (g o) a b.
Proof.
  intros P g o a b r [Hi Ho] [Ha1 Ha2] [Hb1 Hb2] HP Hr. unfold optimized2 in Hr.
  destruct (find (fun i => String.eqb (i2_name i) (op_mm o) && strings_eqb (i2_args i) (op_args o)) binary_instrs) as [i|] eqn:E; [|discriminate].
  destruct (Ho i E) as [Hm Hg]. pose proof (optimized2_lanes o i a b E Hm) as Hl. unfold optimized2 in Hl. rewrite E in Hl. rewrite Hl in Hr. inversion Hr as [Hr'].
  apply (zipw_ext2 _ _ _ _ _ _ a b (Forall2_of _ _ _ _ _ a b Ha2 Hb2 HP)). intros x y (H1 & H2 & H3). apply Hg; assumption.
Qed.

Lemma Forall2_any : forall (A B : Type) (a : list A) (b : list B), length a = length b -> Forall2 (fun _ _ => True) a b.
Proof. intros A B. induction a as [|x a IH]; intros [|y b] H; cbn in H; try lia; constructor; [exact I|apply IH; lia]. Qed.

Lemma in_min : forall t x y, in_ity t x -> in_ity t y -> in_ity t (Z.min x y).
Proof. unfold in_ity. lia. Qed.

Lemma in_max : forall t x y, in_ity t x -> in_ity t y -> in_ity t (Z.max x y).
Proof. unfold in_ity. lia. Qed.

Lemma imod_even : forall t, (0 < ibytes t)%nat -> 2 <= imod t /\ imod t mod 2 = 0.
Proof.
  intros t H. unfold imod. destruct (ibytes t) as [|n]; [lia|]. replace (8 * Z.of_nat (S n)) with (1 + (7 + 8 * Z.of_nat n)) by lia.
  rewrite Z.pow_add_r by lia. change (2 ^ 1) with 2. assert (0 < 2 ^ (7 + 8 * Z.of_nat n)) by (apply Z.pow_pos_nonneg; lia). lia.
Qed.

Lemma imin_le_imax : forall t, (0 < ibytes t)%nat -> imin t <= 0 <= imax t.
Proof. intros t H. pose proof (imod_even t H). unfold imin, imax. destruct (isigned t); lia. Qed.

Lemma in_clamp : forall t x, (0 < ibytes t)%nat -> in_ity t (clamp t x).
Proof. intros t x H. pose proof (imin_le_imax t H). unfold in_ity, clamp. lia. Qed.

Lemma wrap_in : forall t x, (0 < ibytes t)%nat -> in_ity t (wrap t x).
Proof.
  intros t x H. pose proof (imod_even t H). unfold in_ity, wrap. pose proof (Z.mod_pos_bound (x - imin t) (imod t) ltac:(lia)).
  unfold imax, imin in *. destruct (isigned t); lia.
Qed.

Lemma wrap_closed : forall t (g : Z -> Z -> Z) x y, (forall x y, in_ity t x -> in_ity t y -> in_ity t (g x y)) -> in_ity t x -> in_ity t y -> wrap t (g (wrap t x) (wrap t y)) = g x y.
Proof. intros t g x y H Hx Hy. rewrite !(wrap_id t x), !(wrap_id t y) by assumption. apply wrap_id. apply H; assumption. Qed.

Lemma wrap_inj : forall t1 t2 x y, ibytes t1 = ibytes t2 -> in_ity t1 x -> in_ity t1 y -> (wrap t2 x =? wrap t2 y) = (x =? y).
Proof.
  intros t1 t2 x y Hb Hx Hy. destruct (x =? y) eqn:E; [apply Z.eqb_eq in E; subst; apply Z.eqb_refl|].
  apply Z.eqb_neq. intros H. apply Z.eqb_neq in E. apply E. rewrite <- (wrap_id t1 x Hx), <- (wrap_id t1 y Hy). pose proof (imod_pos t1).
  apply wrap_eq; [lia|]. assert (imod t1 = imod t2) as -> by (unfold imod; rewrite Hb; reflexivity). pose proof (imod_pos t2).
  rewrite <- (wrap_mod t2 x), <- (wrap_mod t2 y) by lia. rewrite H. reflexivity.
Qed.

Lemma wrap_mask : forall t1 t2 x y, isigned t2 = false -> (0 < ibytes t2)%nat -> ibytes t1 = ibytes t2 -> in_ity t1 x -> in_ity t1 y ->
  wrap t2 (if wrap t2 x =? wrap t2 y then imax t2 else 0) = if x =? y then imax t2 else imin t2.
Proof.
  intros t1 t2 x y Hs Hp Hb Hx Hy. rewrite (wrap_inj t1 t2) by assumption. pose proof (imin_le_imax t2 Hp). pose proof (imod_pos t2).
  assert (imin t2 = 0) by (unfold imin; rewrite Hs; reflexivity).
  destruct (x =? y); rewrite wrap_id; try reflexivity; unfold in_ity; lia.
Qed.

Lemma wrap_fmask : forall (q : Z -> Z -> bool) t x y, isigned t = false -> (0 < ibytes t)%nat -> in_ity t x -> in_ity t y ->
  wrap t (if q (wrap t x) (wrap t y) then imax t else 0) = if q x y then imax t else imin t.
Proof.
  intros q t x y Hs Hp Hx Hy. rewrite !(wrap_id t x), !(wrap_id t y) by assumption. pose proof (imin_le_imax t Hp). assert (imin t = 0) by (unfold imin; rewrite Hs; reflexivity).
  destruct (q x y); rewrite wrap_id; try reflexivity; unfold in_ity; lia.
Qed.

Lemma wrap_pick : forall (q : Z -> Z -> bool) t x y, in_ity t x -> in_ity t y -> wrap t (if q (wrap t x) (wrap t y) then wrap t x else wrap t y) = if q x y then x else y.
Proof. intros q t x y Hx Hy. rewrite !(wrap_id t x), !(wrap_id t y) by assumption. destruct (q x y); apply wrap_id; assumption. Qed.

Lemma instr_of_cases : forall o (K : instr2 -> Prop), (match instr_of o with Some i => K i | None => True end) -> forall i, instr_of o = Some i -> K i.
Proof. intros o K H i E. rewrite E in H. exact H. Qed.

Ltac split_table := repeat match goal with |- Forall _ (_ :: _) => constructor | |- Forall _ [] => constructor end.
Ltac entry tac := split; [vm_compute; reflexivity|]; apply instr_of_cases;
  cbv [instr_of find binary_instrs String.eqb Ascii.eqb Bool.eqb strings_eqb i2_name i2_args op_mm op_args andb];
  try exact I; (split; [vm_compute; reflexivity|]; intros x y Hx Hy HP; cbv [lane_ity op_el] in Hx, Hy, HP; tac).

Definition eq_spec (o : op_impl) (x y : Z) : Z := if rust_eq (op_el o) x y then imax (lane_ity (op_out o)) else imin (lane_ity (op_out o)).

Lemma eq_entries : Forall (entry_ok (fun _ _ _ => True) eq_spec) (x86_eq ++ unknown_eq).
Proof.
  unfold x86_eq, unknown_eq. cbn [app].
  split_table; entry ltac:(idtac; match type of Hx with in_ity ?t _ =>
      first [apply (wrap_mask t) | apply (wrap_fmask (f_eq fmt32) t) | apply (wrap_fmask (f_eq fmt64) t)] end;
    try reflexivity; try (apply Nat.ltb_lt; reflexivity); assumption).
Qed.

Definition has_instr (o : op_impl) : bool := match instr_of o with Some _ => true | None => false end.

Lemma has_instr_some : forall o a b, has_instr o = true -> optimized2 o a b <> None.
Proof. intros o a b H. unfold has_instr, instr_of in H. unfold optimized2. destruct (find _ binary_instrs); [discriminate|discriminate]. Qed.

Lemma fn_named : forall tab n, forallb (fun o => String.eqb (op_fn o) n) tab = true -> forall o, In o tab -> op_fn o = n.
Proof. intros tab n H o Hin. rewrite forallb_forall in H. apply String.eqb_eq. apply H. exact Hin. Qed.

Lemma vector_pairs : forall (A B : Type) (w : Z) (a : list A) (b : list B), zlen a = w -> zlen b = w -> Forall2 (fun _ _ => True) a b.
Proof. intros A B w a b Ha Hb. apply Forall2_any. unfold zlen in *. lia. Qed.

Lemma float_pattern : forall e x, e = EF32 \/ e = EF64 -> in_ity (lane_ity e) x -> f_pattern (fmt_of e) x.
Proof.
  intros e x [-> | ->] H; unfold in_ity in H; unfold f_pattern; cbn [lane_ity fmt_of] in *.
  - change (imin u32) with 0 in H. change (imax u32) with 4294967295 in H. change (2 ^ (1 + f_e fmt32 + f_m fmt32)) with 4294967296. lia.
  - change (imin u64) with 0 in H. change (imax u64) with 18446744073709551615 in H. change (2 ^ (1 + f_e fmt64 + f_m fmt64)) with 18446744073709551616. lia.
Qed.

Lemma znth_In : forall (A : Type) (l : list A) i x, znth l i = Some x -> In x l.
Proof. intros A l i x H. unfold znth in H. destruct (i <? 0); [discriminate|]. apply nth_error_In in H. exact H. Qed.

Lemma fmt_of_ok : forall e, fmt_ok (fmt_of e).
Proof. intros e. destruct e; cbn [fmt_of]; first [apply fmt32_ok|apply fmt64_ok]. Qed.

Lemma rust_eq_spec : forall e x y, in_ity (lane_ity e) x -> in_ity (lane_ity e) y -> (rust_eq e x y = true <-> equal_lanes e x y).
Proof.
  intros e x y Hx Hy. destruct e as [t| |]; cbn [rust_eq equal_lanes].
  - apply Z.eqb_eq.
  - apply (eq_value fmt32 fmt32_ok); apply (float_pattern EF32); auto.
  - apply (eq_value fmt64 fmt64_ok); apply (float_pattern EF64); auto.
Qed.

Lemma masks_of : forall e bits w a b r, int_vector w (lane_ity e) a -> int_vector w (lane_ity e) b -> forall u v, u = 2 ^ bits - 1 -> v = 0 ->
  lanewise (fun x y => if rust_eq e x y then u else v) a b r -> masks (equal_lanes e) bits a b r.
Proof.
  intros e bits w a b r [_ Ha] [_ Hb] u v -> -> [H1 H2]. split; [exact H1|]. intros i x y Hx Hy. specialize (H2 i x y Hx Hy). rewrite Forall_forall in Ha, Hb.
  pose proof (rust_eq_spec e x y (Ha x (znth_In _ _ _ _ Hx)) (Hb y (znth_In _ _ _ _ Hy))) as G. destruct (rust_eq e x y); split; intros K; try exact H2; exfalso.
  - apply K, G. reflexivity.
  - destruct G as [_ G]. specialize (G K). discriminate.
Qed.

Lemma masks_not : forall e bits w a b r, int_vector w (lane_ity e) a -> int_vector w (lane_ity e) b -> forall u v, u = 0 -> v = 2 ^ bits - 1 ->
  lanewise (fun x y => if rust_eq e x y then u else v) a b r -> masks (fun x y => ~ equal_lanes e x y) bits a b r.
Proof.
  intros e bits w a b r [_ Ha] [_ Hb] u v -> -> [H1 H2]. split; [exact H1|]. intros i x y Hx Hy. specialize (H2 i x y Hx Hy). rewrite Forall_forall in Ha, Hb.
  pose proof (rust_eq_spec e x y (Ha x (znth_In _ _ _ _ Hx)) (Hb y (znth_In _ _ _ _ Hy))) as G. destruct (rust_eq e x y); split; intros K; try exact H2; exfalso.
  - apply K, G. reflexivity.
  - apply K. intros L. destruct G as [_ G]. specialize (G L). discriminate.
Qed.

(** The mask of a vector has lanes of the same size. *)
Lemma mask_size : forall o, In o (x86_eq ++ unknown_eq) -> imod (lane_ity (op_out o)) = 2 ^ (8 * SIZE (op_ty o)).
Proof.
  assert (G : forallb (fun o => imod (lane_ity (op_out o)) =? 2 ^ (8 * SIZE (op_ty o))) (x86_eq ++ unknown_eq) = true) by (vm_compute; reflexivity).
  intros o Hin. rewrite forallb_forall in G. specialize (G o Hin). apply Z.eqb_eq in G. exact G.
Qed.

Lemma eq_mask_lanes : forall (tie : bool) (o : op_impl) (a b : list Z), In o (x86_eq ++ unknown_eq) ->
  int_vector (WIDTH (op_ty o)) (lane_ity (op_el o)) a -> int_vector (WIDTH (op_ty o)) (lane_ity (op_el o)) b ->
  exists m, portable2 tie o a b = Some (Ok m) /\ (forall r, optimized2 o a b = Some r -> r = m) /\ (In o x86_eq -> optimized2 o a b <> None) /\
    lanewise (fun x y => if rust_eq (op_el o) x y then imod (lane_ity (op_out o)) - 1 else 0) a b m.
Proof.
  intros tie o a b Hin Ha Hb. pose proof eq_entries as He. rewrite Forall_forall in He. specialize (He o Hin).
  assert (Hu : forall o, In o (x86_eq ++ unknown_eq) -> isigned (lane_ity (op_out o)) = false).
  { assert (G : forallb (fun o => negb (isigned (lane_ity (op_out o)))) (x86_eq ++ unknown_eq) = true) by (vm_compute; reflexivity).
    intros o' H'. rewrite forallb_forall in G. specialize (G o' H'). destruct (isigned (lane_ity (op_out o'))); [discriminate|reflexivity]. }
  specialize (Hu o Hin). assert (Hf : op_fn o = "eq_mask"%string) by (apply (fn_named (x86_eq ++ unknown_eq)); [vm_compute; reflexivity|exact Hin]).
  exists (zipw (eq_spec o) a b). destruct Ha as [Ha1 Ha2]. destruct Hb as [Hb1 Hb2]. split; [|split; [|split]].
  - apply portable2_ok; [apply He| |assumption|assumption]. unfold rust_binary. rewrite Hf. reflexivity.
  - intros r Hr. apply (entry_result _ _ o a b r He); [split; assumption|split; assumption|apply (vector_pairs _ _ (WIDTH (op_ty o))); assumption|exact Hr].
  - intros Hx. apply has_instr_some. assert (G : forallb has_instr x86_eq = true) by (vm_compute; reflexivity). rewrite forallb_forall in G. apply G. exact Hx.
  - assert (E : zipw (eq_spec o) a b = zipw (fun x y => if rust_eq (op_el o) x y then imod (lane_ity (op_out o)) - 1 else 0) a b).
    { apply (zipw_ext_in _ _ _ _ _ _ _ a b Ha2 Hb2). intros x y _ _. unfold eq_spec, imax, imin. rewrite Hu. reflexivity. }
    rewrite E. apply zipw_lanewise. lia.
Qed.

Lemma lxor_ones : forall n, 0 <= n -> Z.lxor (2 ^ n - 1) (2 ^ n - 1) = 0 /\ Z.lxor 0 (2 ^ n - 1) = 2 ^ n - 1.
Proof. intros n H. split; [apply Z.lxor_nilpotent|apply Z.lxor_0_l]. Qed.

Lemma ne_mask_lanes : forall (tie : bool) (o : op_impl) (a b m : list Z), In o (x86_eq ++ unknown_eq) ->
  int_vector (WIDTH (op_ty o)) (lane_ity (op_el o)) a -> int_vector (WIDTH (op_ty o)) (lane_ity (op_el o)) b ->
  portable2 tie o a b = Some (Ok m) \/ optimized2 o a b = Some m ->
  lanewise (fun x y => if rust_eq (op_el o) x y then 0 else imod (lane_ity (op_out o)) - 1) a b (ne_mask_of o m).
Proof.
  intros tie o a b m Hin Ha Hb Hm. destruct (eq_mask_lanes tie o a b Hin Ha Hb) as (m' & H1 & H2 & _ & H4).
  assert (m = m') as -> by (destruct Hm as [Hm|Hm]; [rewrite Hm in H1; congruence|apply H2; exact Hm]).
  assert (Hu : isigned (lane_ity (op_out o)) = false).
  { assert (G : forallb (fun o => negb (isigned (lane_ity (op_out o)))) (x86_eq ++ unknown_eq) = true) by (vm_compute; reflexivity).
    rewrite forallb_forall in G. specialize (G o Hin). destruct (isigned (lane_ity (op_out o))); [discriminate|reflexivity]. }
  destruct H4 as [L1 L2]. destruct Ha as [Ha1 _]. destruct Hb as [Hb1 _].
  assert (Hx : zlen (splat (WIDTH (op_ty o)) (imax (lane_ity (op_out o)))) = zlen m').
  { unfold splat, zlen in *. rewrite repeat_length. lia. }
  unfold ne_mask_of. split; [unfold zlen in *; rewrite zipw_len by lia; lia|].
  intros i x y Hi Hj. rewrite (zipw_znth _ _ _ _ _ _ i (if rust_eq (op_el o) x y then imod (lane_ity (op_out o)) - 1 else 0) (imax (lane_ity (op_out o)))).
  - f_equal. unfold imax. rewrite Hu. destruct (rust_eq (op_el o) x y); [apply Z.lxor_nilpotent|apply Z.lxor_0_l].
  - apply L2; assumption.
  - assert (0 <= i < WIDTH (op_ty o)). { unfold znth in Hi. destruct (i <? 0) eqn:E; [discriminate|]. assert (Z.to_nat i < length a)%nat by (apply nth_error_Some; congruence). unfold zlen in *. lia. }
    unfold splat, znth. replace (i <? 0) with false by lia. rewrite nth_error_repeat by lia. reflexivity.
Qed.

Lemma c38_eq_mask : forall (tie : bool) (o : op_impl) (a b : list Z), In o (x86_eq ++ unknown_eq) ->
  int_vector (WIDTH (op_ty o)) (lane_ity (op_el o)) a -> int_vector (WIDTH (op_ty o)) (lane_ity (op_el o)) b ->
  exists m, portable2 tie o a b = Some (Ok m) /\ (forall r, optimized2 o a b = Some r -> r = m) /\ (In o x86_eq -> optimized2 o a b <> None) /\
    masks (equal_lanes (op_el o)) (8 * SIZE (op_ty o)) a b m.
Proof.
  intros tie o a b Hin Ha Hb. destruct (eq_mask_lanes tie o a b Hin Ha Hb) as (m & H1 & H2 & H3 & H4). exists m. split; [exact H1|]. split; [exact H2|]. split; [exact H3|].
  refine (masks_of _ _ _ a b m Ha Hb _ _ _ _ H4); [rewrite (mask_size o Hin)|]; reflexivity.
Qed.

Lemma c38_ne_mask : forall (tie : bool) (o : op_impl) (a b m : list Z), In o (x86_eq ++ unknown_eq) ->
  int_vector (WIDTH (op_ty o)) (lane_ity (op_el o)) a -> int_vector (WIDTH (op_ty o)) (lane_ity (op_el o)) b ->
  portable2 tie o a b = Some (Ok m) \/ optimized2 o a b = Some m ->
  masks (fun x y => ~ equal_lanes (op_el o) x y) (8 * SIZE (op_ty o)) a b (ne_mask_of o m).
Proof.
  intros tie o a b m Hin Ha Hb Hm. pose proof (ne_mask_lanes tie o a b m Hin Ha Hb Hm) as H.
  refine (masks_not _ _ _ a b _ Ha Hb _ _ _ _ H); [|rewrite (mask_size o Hin)]; reflexivity.
Qed.

(** [f_key]-based choice, the specification of float min/max away from NaN. *)
Definition cmp_spec (o : op_impl) (x y : Z) : Z :=
  match op_el o with
  | EInt _ => if String.eqb (op_fn o) "min" then Z.min x y else Z.max x y
  | e => let f := match e with EF32 => fmt32 | _ => fmt64 end in
         if String.eqb (op_fn o) "min" then (if f_lt f x y then x else y) else (if f_lt f y x then x else y)
  end.

Lemma cmp_entries : Forall (entry_ok (fun _ _ _ => True) cmp_spec) (x86_cmp ++ unknown_cmp).
Proof.
  unfold x86_cmp, unknown_cmp. cbn [app].
  split_table; entry ltac:(idtac; match type of Hx with in_ity ?t _ =>
      first [apply (wrap_closed t Z.min); [apply in_min|assumption|assumption] | apply (wrap_closed t Z.max); [apply in_max|assumption|assumption]
            | apply (wrap_pick (f_lt fmt32) t); assumption | apply (wrap_pick (f_lt fmt64) t); assumption
            | apply (wrap_pick (fun x y => f_lt fmt32 y x) t); assumption | apply (wrap_pick (fun x y => f_lt fmt64 y x) t); assumption] end).
Qed.

Lemma cmp_named : forall o, In o (x86_cmp ++ unknown_cmp) -> op_fn o = "min"%string \/ op_fn o = "max"%string.
Proof.
  assert (G : forallb (fun o => String.eqb (op_fn o) "min" || String.eqb (op_fn o) "max") (x86_cmp ++ unknown_cmp) = true) by (vm_compute; reflexivity).
  intros o Hin. rewrite forallb_forall in G. specialize (G o Hin). apply orb_true_iff in G. rewrite !String.eqb_eq in G. exact G.
Qed.

Lemma c39_int : forall (tie : bool) (o : op_impl) (t : ity) (a b : list Z), In o (x86_cmp ++ unknown_cmp) -> op_el o = EInt t ->
  int_vector (WIDTH (op_ty o)) t a -> int_vector (WIDTH (op_ty o)) t b ->
  exists m, portable2 tie o a b = Some (Ok m) /\ (forall r, optimized2 o a b = Some r -> r = m) /\ (In o x86_cmp -> optimized2 o a b <> None) /\
    lanewise (if String.eqb (op_fn o) "min" then Z.min else Z.max) a b m.
Proof.
  intros tie o t a b Hin Ht Ha Hb. pose proof cmp_entries as He. rewrite Forall_forall in He. specialize (He o Hin).
  exists (zipw (if String.eqb (op_fn o) "min" then Z.min else Z.max) a b). destruct Ha as [Ha1 Ha2]. destruct Hb as [Hb1 Hb2].
  assert (E : zipw (cmp_spec o) a b = zipw (if String.eqb (op_fn o) "min" then Z.min else Z.max) a b).
  { apply (zipw_ext_in _ _ _ _ _ _ _ a b Ha2 Hb2). intros x y _ _. unfold cmp_spec. rewrite Ht. destruct (String.eqb (op_fn o) "min"); reflexivity. }
  split; [|split; [|split]].
  - apply portable2_ok; [apply He| |assumption|assumption]. unfold rust_binary. rewrite Ht. destruct (cmp_named o Hin) as [->| ->]; reflexivity.
  - intros r Hr. rewrite <- E. apply (entry_result _ _ o a b r He); [rewrite Ht; split; assumption|rewrite Ht; split; assumption|apply (vector_pairs _ _ (WIDTH (op_ty o))); assumption|exact Hr].
  - intros Hx. apply has_instr_some. assert (G : forallb has_instr x86_cmp = true) by (vm_compute; reflexivity). rewrite forallb_forall in G. apply G. exact Hx.
  - apply zipw_lanewise. lia.
Qed.

Lemma f_cmp_agree : forall f tie x y, 0 <= f_e f + f_m f -> f_pattern f x -> f_pattern f y -> f_nan f x = false -> f_nan f y = false -> (f_key f x = f_key f y -> x = y) ->
  rust_fmin f tie x y = (if f_key f x <=? f_key f y then x else y) /\ (if f_lt f x y then x else y) = (if f_key f x <=? f_key f y then x else y) /\
  rust_fmax f tie x y = (if f_key f y <=? f_key f x then x else y) /\ (if f_lt f y x then x else y) = (if f_key f y <=? f_key f x then x else y).
Proof.
  intros f tie x y He Hx Hy Nx Ny Heq. unfold rust_fmin, rust_fmax, f_lt. rewrite Nx, Ny. cbn [negb andb].
  destruct (Z.lt_trichotomy (f_key f x) (f_key f y)) as [H|[H|H]].
  - replace (f_key f x <? f_key f y) with true by lia. replace (f_key f y <? f_key f x) with false by lia. replace (f_key f x <=? f_key f y) with true by lia. replace (f_key f y <=? f_key f x) with false by lia. auto.
  - specialize (Heq H). subst y. rewrite Z.ltb_irrefl, Z.leb_refl. destruct tie; auto.
  - replace (f_key f x <? f_key f y) with false by lia. replace (f_key f y <? f_key f x) with true by lia. replace (f_key f x <=? f_key f y) with false by lia. replace (f_key f y <=? f_key f x) with true by lia. auto.
Qed.

Lemma cmp_float : forall (tie : bool) (o : op_impl) (a b : list Z), In o (x86_cmp ++ unknown_cmp) -> op_el o = EF32 \/ op_el o = EF64 ->
  int_vector (WIDTH (op_ty o)) (lane_ity (op_el o)) a -> int_vector (WIDTH (op_ty o)) (lane_ity (op_el o)) b ->
  (let f := match op_el o with EF64 => fmt64 | _ => fmt32 end in
   Forall2 (fun x y => f_nan f x = false /\ f_nan f y = false /\ (f_key f x = f_key f y -> x = y)) a b ->
   exists m, portable2 tie o a b = Some (Ok m) /\ (forall r, optimized2 o a b = Some r -> r = m) /\ (In o x86_cmp -> optimized2 o a b <> None) /\
     lanewise (if String.eqb (op_fn o) "min" then (fun x y => if f_key f x <=? f_key f y then x else y) else (fun x y => if f_key f y <=? f_key f x then x else y)) a b m).
Proof.
  intros tie o a b Hin He Ha Hb f HP. change f with (fmt_of (op_el o)) in *. clear f. pose proof cmp_entries as Hent. rewrite Forall_forall in Hent. specialize (Hent o Hin).
  assert (Hf0 : 0 <= f_e (fmt_of (op_el o)) + f_m (fmt_of (op_el o))) by (destruct He as [-> | ->]; cbn; lia).
  destruct Ha as [Ha1 Ha2]. destruct Hb as [Hb1 Hb2]. pose proof (Forall2_of _ _ _ _ _ a b Ha2 Hb2 HP) as HR.
  set (g := if String.eqb (op_fn o) "min" then (fun x y => if f_key (fmt_of (op_el o)) x <=? f_key (fmt_of (op_el o)) y then x else y)
            else (fun x y => if f_key (fmt_of (op_el o)) y <=? f_key (fmt_of (op_el o)) x then x else y)).
  exists (zipw g a b). split; [|split; [|split]].
  - destruct (cmp_named o Hin) as [Hn|Hn].
    + assert (Hr : rust_binary tie o = Some (rust_fmin (fmt_of (op_el o)) tie)) by (unfold rust_binary; rewrite Hn; destruct He as [-> | ->]; reflexivity).
      rewrite (portable2_ok tie o _ a b (proj1 Hent) Hr Ha1 Hb1). do 2 f_equal. apply (zipw_ext2 _ _ _ _ _ _ a b HR). intros x y (H1 & H2 & H3 & H4 & H5).
      subst g. cbv beta. rewrite Hn. change (String.eqb "min" "min") with true. cbv iota beta. apply f_cmp_agree; try assumption; apply float_pattern; assumption.
    + assert (Hr : rust_binary tie o = Some (rust_fmax (fmt_of (op_el o)) tie)) by (unfold rust_binary; rewrite Hn; destruct He as [-> | ->]; reflexivity).
      rewrite (portable2_ok tie o _ a b (proj1 Hent) Hr Ha1 Hb1). do 2 f_equal. apply (zipw_ext2 _ _ _ _ _ _ a b HR). intros x y (H1 & H2 & H3 & H4 & H5).
      subst g. cbv beta. rewrite Hn. change (String.eqb "max" "min") with false. cbv iota beta. apply f_cmp_agree; try assumption; apply float_pattern; assumption.
  - intros r Hr. rewrite (entry_result _ _ o a b r Hent (conj Ha1 Ha2) (conj Hb1 Hb2) (vector_pairs _ _ (WIDTH (op_ty o)) a b Ha1 Hb1) Hr).
    apply (zipw_ext2 _ _ _ _ _ _ a b HR). intros x y (H1 & H2 & H3 & H4 & H5).
    assert (Hs : cmp_spec o x y = if String.eqb (op_fn o) "min" then (if f_lt (fmt_of (op_el o)) x y then x else y) else (if f_lt (fmt_of (op_el o)) y x then x else y)).
    { unfold cmp_spec. destruct He as [-> | ->]; reflexivity. }
    rewrite Hs. destruct (f_cmp_agree (fmt_of (op_el o)) true x y Hf0 (float_pattern _ x He H1) (float_pattern _ y He H2) H3 H4 H5) as (_ & A1 & _ & A2).
    subst g. destruct (String.eqb (op_fn o) "min"); assumption.
  - intros Hx. apply has_instr_some. assert (G : forallb has_instr x86_cmp = true) by (vm_compute; reflexivity). rewrite forallb_forall in G. apply G. exact Hx.
  - apply zipw_lanewise. lia.
Qed.

Lemma least_key : forall f x y, fmt_ok f -> f_pattern f x -> f_pattern f y -> least f x y (if f_key f x <=? f_key f y then x else y) /\ greatest f x y (if f_key f y <=? f_key f x then x else y).
Proof.
  intros f x y Hok Hx Hy. pose proof (key_value f Hok x y Hx Hy) as K. unfold least, greatest.
  destruct (Z.compare_spec (fvalue f x) (fvalue f y)) as [C|C|C]; destruct (Z.compare_spec (f_key f x) (f_key f y)) as [D|D|D]; try discriminate.
  - rewrite D, Z.leb_refl. split; (split; [tauto|lia]).
  - replace (f_key f x <=? f_key f y) with true by lia. replace (f_key f y <=? f_key f x) with false by lia. split; (split; [tauto|lia]).
  - replace (f_key f x <=? f_key f y) with false by lia. replace (f_key f y <=? f_key f x) with true by lia. split; (split; [tauto|lia]).
Qed.

Lemma c39_float : forall (tie : bool) (o : op_impl) (a b : list Z), In o (x86_cmp ++ unknown_cmp) -> op_el o = EF32 \/ op_el o = EF64 ->
  int_vector (WIDTH (op_ty o)) (lane_ity (op_el o)) a -> int_vector (WIDTH (op_ty o)) (lane_ity (op_el o)) b ->
  Forall2 (fun x y => ~ is_nan (fmt_of (op_el o)) x /\ ~ is_nan (fmt_of (op_el o)) y /\ (fvalue (fmt_of (op_el o)) x = fvalue (fmt_of (op_el o)) y -> x = y)) a b ->
  exists m, portable2 tie o a b = Some (Ok m) /\ (forall r, optimized2 o a b = Some r -> r = m) /\ (In o x86_cmp -> optimized2 o a b <> None) /\
    each_lane (if String.eqb (op_fn o) "min" then least (fmt_of (op_el o)) else greatest (fmt_of (op_el o))) a b m.
Proof.
  intros tie o a b Hin He Ha Hb HP. pose proof (fmt_of_ok (op_el o)) as Hok. pose proof Ha as [Ha1 Ha2]. pose proof Hb as [Hb1 Hb2].
  destruct (cmp_float tie o a b Hin He Ha Hb) as (m & H1 & H2 & H3 & H4).
  { change (match op_el o with EF64 => fmt64 | _ => fmt32 end) with (fmt_of (op_el o)). clear Ha1 Hb1 Ha Hb. induction HP as [|x y a' b' (P1 & P2 & P3) HP IH]; [constructor|]. inversion Ha2; inversion Hb2; subst. constructor; [|apply IH; assumption].
    assert (Px : f_pattern (fmt_of (op_el o)) x) by (apply float_pattern; assumption). assert (Py : f_pattern (fmt_of (op_el o)) y) by (apply float_pattern; assumption).
    destruct (nan_iff _ Hok x Px) as (N1 & _). destruct (nan_iff _ Hok y Py) as (N2 & _). split; [destruct (f_nan (fmt_of (op_el o)) x); tauto|]. split; [destruct (f_nan (fmt_of (op_el o)) y); tauto|].
    intros K. apply P3. apply Z.compare_eq_iff. rewrite (key_value _ Hok x y Px Py). apply Z.compare_eq_iff. exact K. }
  exists m. split; [exact H1|]. split; [exact H2|]. split; [exact H3|]. destruct H4 as [L1 L2]. split; [exact L1|]. intros i x y Hx Hy. eexists. split; [apply L2; eassumption|].
  rewrite Forall_forall in Ha2, Hb2. assert (Px : f_pattern (fmt_of (op_el o)) x) by (apply float_pattern; [exact He|apply Ha2; apply (znth_In _ _ _ _ Hx)]).
  assert (Py : f_pattern (fmt_of (op_el o)) y) by (apply float_pattern; [exact He|apply Hb2; apply (znth_In _ _ _ _ Hy)]).
  change (match op_el o with EF64 => fmt64 | _ => fmt32 end) with (fmt_of (op_el o)). destruct (String.eqb (op_fn o) "min"); apply least_key; assumption.
Qed.

Lemma c39_nan_differs : forall (tie : bool) (o : op_impl) (x nan : Z), In o x86_cmp -> op_el o = EF32 \/ op_el o = EF64 ->
  in_ity (lane_ity (op_el o)) x -> in_ity (lane_ity (op_el o)) nan -> is_nan (fmt_of (op_el o)) nan -> ~ is_nan (fmt_of (op_el o)) x ->
  portable2 tie o (splat (WIDTH (op_ty o)) x) (splat (WIDTH (op_ty o)) nan) = Some (Ok (splat (WIDTH (op_ty o)) x)) /\
  optimized2 o (splat (WIDTH (op_ty o)) x) (splat (WIDTH (op_ty o)) nan) = Some (splat (WIDTH (op_ty o)) nan) /\ x <> nan.
Proof.
  intros tie o x nan Hin He Hx Hn Nn0 Nx0. pose proof (fmt_of_ok (op_el o)) as Hok.
  assert (Nn : f_nan (fmt_of (op_el o)) nan = true) by (apply (nan_iff _ Hok nan (float_pattern _ _ He Hn)); exact Nn0).
  assert (Nx : f_nan (fmt_of (op_el o)) x = false) by (apply not_true_iff_false; intros G; apply Nx0; apply (nan_iff _ Hok x (float_pattern _ _ He Hx)); exact G).
  assert (Hin' : In o (x86_cmp ++ unknown_cmp)) by (apply in_or_app; left; exact Hin).
  pose proof cmp_entries as Hent. rewrite Forall_forall in Hent. specialize (Hent o Hin').
  assert (Hw : 0 < WIDTH (op_ty o)) by (destruct Hent as [Hi _]; unfold idx_check in Hi; apply andb_true_iff in Hi; lia).
  assert (Hz : forall (g : Z -> Z -> Z) z u v, g u v = z -> zipw g (splat (WIDTH (op_ty o)) u) (splat (WIDTH (op_ty o)) v) = splat (WIDTH (op_ty o)) z).
  { intros g z u v E. unfold splat. induction (Z.to_nat (WIDTH (op_ty o))) as [|n IH]; [reflexivity|]. cbn. rewrite E, IH. reflexivity. }
  assert (Hl : forall z : Z, zlen (splat (WIDTH (op_ty o)) z) = WIDTH (op_ty o)) by (intros z; unfold zlen, splat; rewrite repeat_length; lia).
  assert (Hr : forall z, in_ity (lane_ity (op_el o)) z -> int_vector (WIDTH (op_ty o)) (lane_ity (op_el o)) (splat (WIDTH (op_ty o)) z)).
  { intros z Hzz. split; [apply Hl|]. unfold splat. apply Forall_forall. intros u Hu. apply repeat_spec in Hu. subst u. exact Hzz. }
  split; [|split; [|congruence]].
  - destruct (cmp_named o Hin') as [Hm|Hm].
    + assert (Hb : rust_binary tie o = Some (rust_fmin (fmt_of (op_el o)) tie)) by (unfold rust_binary; rewrite Hm; destruct He as [-> | ->]; reflexivity).
      rewrite (portable2_ok tie o _ _ _ (proj1 Hent) Hb (Hl _) (Hl _)). do 2 f_equal. apply Hz. unfold rust_fmin. rewrite Nx, Nn. reflexivity.
    + assert (Hb : rust_binary tie o = Some (rust_fmax (fmt_of (op_el o)) tie)) by (unfold rust_binary; rewrite Hm; destruct He as [-> | ->]; reflexivity).
      rewrite (portable2_ok tie o _ _ _ (proj1 Hent) Hb (Hl _) (Hl _)). do 2 f_equal. apply Hz. unfold rust_fmax. rewrite Nx, Nn. reflexivity.
  - assert (Hi : has_instr o = true) by (assert (G : forallb has_instr x86_cmp = true) by (vm_compute; reflexivity); rewrite forallb_forall in G; apply G; exact Hin).
    destruct (optimized2 o (splat (WIDTH (op_ty o)) x) (splat (WIDTH (op_ty o)) nan)) as [r|] eqn:Er; [|exfalso; exact (has_instr_some o _ _ Hi Er)].
    f_equal. rewrite (entry_result _ _ o _ _ r Hent (Hr x Hx) (Hr nan Hn) (vector_pairs _ _ _ _ _ (Hl x) (Hl nan)) Er).
    apply Hz. unfold cmp_spec. assert (Hlt : f_lt (fmt_of (op_el o)) x nan = false /\ f_lt (fmt_of (op_el o)) nan x = false) by (unfold f_lt; rewrite Nx, Nn; split; reflexivity).
    destruct Hlt as [L1 L2]. destruct He as [E | E]; rewrite E in *; cbn [fmt_of] in *; rewrite L1, L2; destruct (String.eqb (op_fn o) "min"); reflexivity.
Qed.

Definition sat_spec (o : op_impl) (x y : Z) : Z :=
  match op_el o with EInt t => clamp t (if String.eqb (op_fn o) "saturating_add" then x + y else x - y) | _ => 0 end.

Lemma wrap_sat : forall t h x y, (0 < ibytes t)%nat -> in_ity t x -> in_ity t y -> wrap t (clamp t (h (wrap t x) (wrap t y))) = clamp t (h x y).
Proof. intros t h x y Hp Hx Hy. rewrite !(wrap_id t x), !(wrap_id t y) by assumption. apply wrap_id. apply in_clamp. exact Hp. Qed.

Lemma sat_entries : Forall (entry_ok (fun _ _ _ => True) sat_spec) ((x86_saturating_add ++ unknown_saturating_add) ++ x86_saturating_sub ++ unknown_saturating_sub).
Proof.
  unfold x86_saturating_add, unknown_saturating_add, x86_saturating_sub, unknown_saturating_sub. cbn [app].
  split_table; entry ltac:(idtac; match type of Hx with in_ity ?t _ =>
      first [apply (wrap_sat t Z.add) | apply (wrap_sat t Z.sub)] end; try assumption; apply Nat.ltb_lt; reflexivity).
Qed.

Lemma sat_int : forall o, In o ((x86_saturating_add ++ unknown_saturating_add) ++ x86_saturating_sub ++ unknown_saturating_sub) -> exists t, op_el o = EInt t.
Proof.
  assert (G : forallb (fun o => match op_el o with EInt _ => true | _ => false end) ((x86_saturating_add ++ unknown_saturating_add) ++ x86_saturating_sub ++ unknown_saturating_sub) = true) by (vm_compute; reflexivity).
  intros o Hin. rewrite forallb_forall in G. specialize (G o Hin). destruct (op_el o); try discriminate. eexists. reflexivity.
Qed.

Lemma c40_saturating_add : forall (tie : bool) (o : op_impl) (a b : list Z), In o (x86_saturating_add ++ unknown_saturating_add) ->
  int_vector (WIDTH (op_ty o)) (lane_ity (op_el o)) a -> int_vector (WIDTH (op_ty o)) (lane_ity (op_el o)) b ->
  exists m, portable2 tie o a b = Some (Ok m) /\ (forall r, optimized2 o a b = Some r -> r = m) /\ (In o x86_saturating_add -> optimized2 o a b <> None) /\
    lanewise (fun x y => Z.max (imin (lane_ity (op_el o))) (Z.min (imax (lane_ity (op_el o))) (x + y))) a b m.
Proof.
  intros tie o a b Hin Ha Hb. assert (Hin' : In o ((x86_saturating_add ++ unknown_saturating_add) ++ x86_saturating_sub ++ unknown_saturating_sub)) by (apply in_or_app; left; exact Hin).
  pose proof sat_entries as He. rewrite Forall_forall in He. specialize (He o Hin'). destruct (sat_int o Hin') as [t Ht].
  assert (Hf : op_fn o = "saturating_add"%string) by (apply (fn_named (x86_saturating_add ++ unknown_saturating_add)); [vm_compute; reflexivity|exact Hin]).
  exists (zipw (sat_spec o) a b). destruct Ha as [Ha1 Ha2]. destruct Hb as [Hb1 Hb2]. split; [|split; [|split]].
  - apply portable2_ok; [apply He| |assumption|assumption]. unfold rust_binary, sat_spec. rewrite Hf, Ht. reflexivity.
  - intros r Hr. apply (entry_result _ _ o a b r He); [split; assumption|split; assumption|apply (vector_pairs _ _ (WIDTH (op_ty o))); assumption|exact Hr].
  - intros Hx. apply has_instr_some. assert (G : forallb has_instr x86_saturating_add = true) by (vm_compute; reflexivity). rewrite forallb_forall in G. apply G. exact Hx.
  - unfold sat_spec. rewrite Hf, Ht. apply zipw_lanewise. lia.
Qed.

Lemma c40_saturating_sub : forall (tie : bool) (o : op_impl) (a b : list Z), In o (x86_saturating_sub ++ unknown_saturating_sub) ->
  int_vector (WIDTH (op_ty o)) (lane_ity (op_el o)) a -> int_vector (WIDTH (op_ty o)) (lane_ity (op_el o)) b ->
  exists m, portable2 tie o a b = Some (Ok m) /\ (forall r, optimized2 o a b = Some r -> r = m) /\ (In o x86_saturating_sub -> optimized2 o a b <> None) /\
    lanewise (fun x y => Z.max (imin (lane_ity (op_el o))) (Z.min (imax (lane_ity (op_el o))) (x - y))) a b m.
Proof.
  intros tie o a b Hin Ha Hb. assert (Hin' : In o ((x86_saturating_add ++ unknown_saturating_add) ++ x86_saturating_sub ++ unknown_saturating_sub)) by (apply in_or_app; right; exact Hin).
  pose proof sat_entries as He. rewrite Forall_forall in He. specialize (He o Hin'). destruct (sat_int o Hin') as [t Ht].
  assert (Hf : op_fn o = "saturating_sub"%string) by (apply (fn_named (x86_saturating_sub ++ unknown_saturating_sub)); [vm_compute; reflexivity|exact Hin]).
  exists (zipw (sat_spec o) a b). destruct Ha as [Ha1 Ha2]. destruct Hb as [Hb1 Hb2]. split; [|split; [|split]].
  - apply portable2_ok; [apply He| |assumption|assumption]. unfold rust_binary, sat_spec. rewrite Hf, Ht. reflexivity.
  - intros r Hr. apply (entry_result _ _ o a b r He); [split; assumption|split; assumption|apply (vector_pairs _ _ (WIDTH (op_ty o))); assumption|exact Hr].
  - intros Hx. apply has_instr_some. assert (G : forallb has_instr x86_saturating_sub = true) by (vm_compute; reflexivity). rewrite forallb_forall in G. apply G. exact Hx.
  - unfold sat_spec. rewrite Hf, Ht. apply zipw_lanewise. lia.
Qed.
