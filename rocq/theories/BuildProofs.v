(** Proofs of the properties: what an operation returns in every build (C78). *)
From Coq Require Import String.
From Verif Require Import Base Spec VecSpec GateTables GateSpec Vecs Lanes Floats FloatSpec X86 X86Reg Tables Patterns Merge Shuffles OpTables OpSpec Ops PortTables Ports PortSpec Hops SumTables Sums SumSpec Builds.
Open Scope list_scope.
Open Scope Z_scope.
From Coq Require Import Lia ZifyBool ZifyNat.
From Verif Require Import ListFacts VecFacts VecProofs PatternProofs ShuffleProofs OpProofs RoundProofs HopProofs PortProofs SumProofs.

(** ** Which definition is present *)

Definition ity_eqb (s t : ity) : bool := Bool.eqb (isigned s) (isigned t) && Nat.eqb (ibytes s) (ibytes t).

Definition elty_eqb (d e : elty) : bool := match d, e with EInt s, EInt t => ity_eqb s t | EF32, EF32 => true | EF64, EF64 => true | _, _ => false end.

Definition vty_eqb (s t : vty) : bool := (WIDTH s =? WIDTH t) && (SIZE s =? SIZE t).

Lemma elty_eqb_eq : forall d e, elty_eqb d e = true -> d = e.
Proof.
  intros [[s n]| |] [[t m]| |] H; cbn in H; try discriminate H; try reflexivity. unfold ity_eqb in H. cbn [isigned ibytes] in H.
  rewrite andb_true_iff in H. destruct H as [H1 H2]. apply Bool.eqb_prop in H1. apply Nat.eqb_eq in H2. subst. reflexivity.
Qed.

Lemma vty_eqb_eq : forall s t, vty_eqb s t = true -> s = t.
Proof. intros [w s] [v t] H. unfold vty_eqb in H. cbn [WIDTH SIZE] in H. rewrite andb_true_iff, !Z.eqb_eq in H. destruct H as [-> ->]. reflexivity. Qed.

Lemma key_eqb_eq : forall k l, key_eqb k l = true <-> k = l.
Proof. intros [a b] [c d]. unfold key_eqb. cbn [fst snd]. rewrite andb_true_iff, !String.eqb_eq. split; [intros [-> ->]; reflexivity|intros H; injection H as -> ->; split; reflexivity]. Qed.

Fixpoint distinct (l : list key) : bool := match l with [] => true | k :: l' => negb (existsb (key_eqb k) l') && distinct l' end.

Lemma filter_none : forall (A : Type) (f : A -> key) (q : A -> bool) (l : list A) (k : key), existsb (key_eqb k) (map f l) = false -> filter (fun x => key_eqb (f x) k && q x) l = [].
Proof.
  intros A f q l k. induction l as [|x l IH]; cbn [map existsb filter]; [reflexivity|]. intros H. rewrite orb_false_iff in H. destruct H as [H1 H2].
  replace (key_eqb (f x) k) with false; [exact (IH H2)|]. symmetry. destruct (key_eqb (f x) k) eqn:E; [|reflexivity]. apply key_eqb_eq in E. subst k.
  rewrite (proj2 (key_eqb_eq (f x) (f x)) eq_refl) in H1. discriminate.
Qed.

Lemma filter_single : forall (A : Type) (f : A -> key) (q : A -> bool) (l : list A) (x : A), distinct (map f l) = true -> In x l ->
  filter (fun y => key_eqb (f y) (f x) && q y) l = (if q x then [x] else []).
Proof.
  intros A f q l x. induction l as [|y l IH]; cbn [map distinct]; [intros _ []|]. intros D Hx. rewrite andb_true_iff, negb_true_iff in D. destruct D as [D1 D2]. cbn [filter].
  destruct Hx as [->|Hx].
  - rewrite (proj2 (key_eqb_eq (f x) (f x)) eq_refl), (filter_none A f q l (f x) D1). cbn [andb]. destruct (q x); reflexivity.
  - destruct (key_eqb (f y) (f x)) eqn:E; [|exact (IH D2 Hx)]. exfalso. apply key_eqb_eq in E. rewrite E in D1.
    assert (T : existsb (key_eqb (f x)) (map f l) = true) by (apply existsb_exists; exists (f x); split; [apply in_map; exact Hx|apply key_eqb_eq; reflexivity]). congruence.
Qed.

(** Every portable definition either has no optimised counterpart and no attribute, or
    excludes exactly the feature of its counterpart, which is for the same type. *)
Definition coherent {X P : Type} (kx : X -> key) (feat : X -> string) (sx : X -> vty * elty) (kp : P -> key) (excluded : P -> string) (sp : P -> vty * elty) (xs : list X) (ps : list P) : bool :=
  distinct (map kx xs) && distinct (map kp ps) &&
  forallb (fun p => match find (fun x => key_eqb (kx x) (kp p)) xs with
    | Some x => String.eqb (excluded p) (feat x) && negb (String.eqb (feat x) "") && vty_eqb (fst (sx x)) (fst (sp p)) && elty_eqb (snd (sx x)) (snd (sp p))
    | None => String.eqb (excluded p) ""
    end) ps.

Lemma present_one : forall (X P : Type) (kx : X -> key) feat sx (kp : P -> key) excluded sp xs ps fs p, coherent kx feat sx kp excluded sp xs ps = true -> In p ps ->
  present kx feat kp excluded fs xs ps (kp p) = [inr p] \/
  exists x, In x xs /\ kx x = kp p /\ sx x = sp p /\ fs (feat x) = true /\ present kx feat kp excluded fs xs ps (kp p) = [inl x].
Proof.
  intros X P kx feat sx kp excluded sp xs ps fs p C Hp. unfold coherent in C. rewrite !andb_true_iff in C. destruct C as ((D1 & D2) & C). rewrite forallb_forall in C. specialize (C p Hp).
  unfold present. rewrite (filter_single P kp (fun p => without fs (excluded p)) ps p D2 Hp). unfold without.
  destruct (find (fun x => key_eqb (kx x) (kp p)) xs) as [x|] eqn:F.
  - apply find_some in F. destruct F as [Hx E]. apply key_eqb_eq in E. rewrite !andb_true_iff, negb_true_iff in C. destruct C as (((C1 & C2) & C3) & C4).
    apply String.eqb_eq in C1. rewrite C1, C2. rewrite <- E, (filter_single X kx (fun x => fs (feat x)) xs x D1 Hx). cbn [orb].
    destruct (fs (feat x)) eqn:Hf; cbn [negb map app]; [right|left; reflexivity]. exists x. repeat (split; [first [assumption|reflexivity]|]).
    split; [|split; [exact Hf|reflexivity]]. apply vty_eqb_eq in C3. apply elty_eqb_eq in C4. destruct (sx x), (sp p); cbn [fst snd] in *; subst; reflexivity.
  - left. rewrite C. cbn [orb]. rewrite filter_none; [reflexivity|]. destruct (existsb (key_eqb (kp p)) (map kx xs)) eqn:E; [|reflexivity]. exfalso.
    apply existsb_exists in E. destruct E as (k & Hk & E). apply key_eqb_eq in E. subst k. apply in_map_iff in Hk. destruct Hk as (x & E & Hx).
    pose proof (find_none _ _ F x Hx) as N. cbv beta in N. rewrite (proj2 (key_eqb_eq (kx x) (kp p)) E) in N. discriminate.
Qed.

(** ** Operations from [rust_fallback] macros *)

Definition fits2 (o : op_impl) : bool :=
  match find (fun i => String.eqb (i2_name i) (op_mm o) && strings_eqb (i2_args i) (op_args o)) binary_instrs with Some i => Z.of_nat (i2_reg i) =? bytes (op_ty o) | None => false end.

Lemma fits2_tables : forallb fits2 (x86_eq ++ x86_cmp ++ x86_saturating_add ++ x86_saturating_sub) = true.
Proof. vm_compute. reflexivity. Qed.

Lemma op2_cases : forall fs tie o a b, In o (x86_eq ++ x86_cmp ++ x86_saturating_add ++ x86_saturating_sub) ->
  op2_in fs tie o a b = if fs (op_feat o) then option_map (@Ok (list Z)) (optimized2 o a b) else portable2 tie o a b.
Proof.
  intros fs tie o a b Ho. pose proof (proj1 (forallb_forall _ _) fits2_tables o Ho) as F. unfold fits2 in F. unfold op2_in. destruct (fs (op_feat o)); [|reflexivity].
  destruct (find _ binary_instrs) as [i|]; [|discriminate]. rewrite F. reflexivity.
Qed.

Lemma op2_done : forall fs tie o a b m, In o (x86_eq ++ x86_cmp ++ x86_saturating_add ++ x86_saturating_sub) ->
  portable2 tie o a b = Some (Ok m) -> (forall r, optimized2 o a b = Some r -> r = m) -> optimized2 o a b <> None -> op2_in fs tie o a b = Some (Ok m).
Proof.
  intros fs tie o a b m Ho Hp Hx Hn. rewrite op2_cases by exact Ho. destruct (fs (op_feat o)); [|exact Hp]. destruct (optimized2 o a b) as [r|]; [|congruence]. rewrite (Hx r eq_refl). reflexivity.
Qed.

Lemma c78_eq_mask : forall (fs : features) (tie : bool) (o : op_impl) (a b : list Z), In o x86_eq ->
  int_vector (WIDTH (op_ty o)) (lane_ity (op_el o)) a -> int_vector (WIDTH (op_ty o)) (lane_ity (op_el o)) b ->
  exists m, op2_in fs tie o a b = Some (Ok m) /\ masks (equal_lanes (op_el o)) (8 * SIZE (op_ty o)) a b m.
Proof.
  intros fs tie o a b Ho Ha Hb. destruct (c38_eq_mask tie o a b) as (m & H1 & H2 & H3 & H4); [apply in_or_app; left; exact Ho|exact Ha|exact Hb|].
  exists m. split; [|exact H4]. apply op2_done; [apply in_or_app; left; exact Ho|exact H1|exact H2|exact (H3 Ho)].
Qed.

Lemma c78_min_max : forall (fs : features) (tie : bool) (o : op_impl) (t : ity) (a b : list Z), In o x86_cmp -> op_el o = EInt t ->
  int_vector (WIDTH (op_ty o)) t a -> int_vector (WIDTH (op_ty o)) t b ->
  exists m, op2_in fs tie o a b = Some (Ok m) /\ lanewise (if String.eqb (op_fn o) "min" then Z.min else Z.max) a b m.
Proof.
  intros fs tie o t a b Ho He Ha Hb. destruct (c39_int tie o t a b) as (m & H1 & H2 & H3 & H4); [apply in_or_app; left; exact Ho|exact He|exact Ha|exact Hb|].
  exists m. split; [|exact H4]. apply op2_done; [apply in_or_app; right; apply in_or_app; left; exact Ho|exact H1|exact H2|exact (H3 Ho)].
Qed.

Lemma c78_min_max_float : forall (fs : features) (tie : bool) (o : op_impl) (a b : list Z), In o x86_cmp -> op_el o = EF32 \/ op_el o = EF64 ->
  int_vector (WIDTH (op_ty o)) (lane_ity (op_el o)) a -> int_vector (WIDTH (op_ty o)) (lane_ity (op_el o)) b ->
  Forall2 (fun x y => ~ is_nan (fmt_of (op_el o)) x /\ ~ is_nan (fmt_of (op_el o)) y /\ (fvalue (fmt_of (op_el o)) x = fvalue (fmt_of (op_el o)) y -> x = y)) a b ->
  exists m, op2_in fs tie o a b = Some (Ok m) /\ each_lane (if String.eqb (op_fn o) "min" then least (fmt_of (op_el o)) else greatest (fmt_of (op_el o))) a b m.
Proof.
  intros fs tie o a b Ho He Ha Hb Hn. destruct (c39_float tie o a b) as (m & H1 & H2 & H3 & H4); [apply in_or_app; left; exact Ho|exact He|exact Ha|exact Hb|exact Hn|].
  exists m. split; [|exact H4]. apply op2_done; [apply in_or_app; right; apply in_or_app; left; exact Ho|exact H1|exact H2|exact (H3 Ho)].
Qed.

Lemma c78_saturating : forall (fs : features) (tie : bool) (o : op_impl) (a b : list Z),
  int_vector (WIDTH (op_ty o)) (lane_ity (op_el o)) a -> int_vector (WIDTH (op_ty o)) (lane_ity (op_el o)) b ->
  (In o x86_saturating_add -> exists m, op2_in fs tie o a b = Some (Ok m) /\ lanewise (fun x y => Z.max (imin (lane_ity (op_el o))) (Z.min (imax (lane_ity (op_el o))) (x + y))) a b m) /\
  (In o x86_saturating_sub -> exists m, op2_in fs tie o a b = Some (Ok m) /\ lanewise (fun x y => Z.max (imin (lane_ity (op_el o))) (Z.min (imax (lane_ity (op_el o))) (x - y))) a b m).
Proof.
  intros fs tie o a b Ha Hb. split; intros Ho.
  - destruct (c40_saturating_add tie o a b) as (m & H1 & H2 & H3 & H4); [apply in_or_app; left; exact Ho|exact Ha|exact Hb|].
    exists m. split; [|exact H4]. apply op2_done; [do 2 (apply in_or_app; right); apply in_or_app; left; exact Ho|exact H1|exact H2|exact (H3 Ho)].
  - destruct (c40_saturating_sub tie o a b) as (m & H1 & H2 & H3 & H4); [apply in_or_app; left; exact Ho|exact Ha|exact Hb|].
    exists m. split; [|exact H4]. apply op2_done; [do 3 (apply in_or_app; right); exact Ho|exact H1|exact H2|exact (H3 Ho)].
Qed.

Definition fits1 (o : op_impl) : bool :=
  match find (fun i => String.eqb (i1_name i) (op_mm o) && strings_eqb (i1_args i) (op_args o)) (unary_instrs (fun x => x) (fun x => x)) with Some i => Z.of_nat (i1_reg i) =? bytes (op_ty o) | None => false end.

Lemma fits1_tables : forallb fits1 (x86_round ++ x86_sqrt) = true.
Proof. vm_compute. reflexivity. Qed.

Lemma find_columns : forall (A : Type) (q : A -> bool) (r : A -> nat) (l l' : list A) (n : nat), Forall2 (fun x y => q x = q y /\ r x = r y) l l' ->
  match find q l with Some i => Some (r i) | None => None end = match find q l' with Some i => Some (r i) | None => None end.
Proof. intros A q r l l' n H. induction H as [|x y l l' [Hq Hr] H IH]; cbn [find]; [reflexivity|]. rewrite <- Hq. destruct (q x); [rewrite Hr; reflexivity|exact IH]. Qed.

Lemma op1_cases : forall fs fsqrt o a, In o (x86_round ++ x86_sqrt) ->
  op1_in fs fsqrt o a = if fs (op_feat o) then option_map (@Ok (list Z)) (optimized1 fsqrt o a) else portable1 fsqrt o a.
Proof.
  intros fs fsqrt o a Ho. pose proof (proj1 (forallb_forall _ _) fits1_tables o Ho) as F. unfold fits1 in F. unfold op1_in. destruct (fs (op_feat o)); [|reflexivity].
  pose proof (find_columns instr1 (fun i => String.eqb (i1_name i) (op_mm o) && strings_eqb (i1_args i) (op_args o)) i1_reg (unary_instrs (fsqrt EF32) (fsqrt EF64)) (unary_instrs (fun x => x) (fun x => x)) 0) as G.
  assert (A : Forall2 (fun x y => String.eqb (i1_name x) (op_mm o) && strings_eqb (i1_args x) (op_args o) = String.eqb (i1_name y) (op_mm o) && strings_eqb (i1_args y) (op_args o) /\ i1_reg x = i1_reg y)
    (unary_instrs (fsqrt EF32) (fsqrt EF64)) (unary_instrs (fun x => x) (fun x => x))) by (unfold unary_instrs; repeat (constructor; [split; reflexivity|]); constructor).
  specialize (G A). destruct (find _ (unary_instrs (fsqrt EF32) _)) as [i|], (find _ (unary_instrs (fun x => x) _)) as [j|]; try discriminate.
  injection G as G. rewrite G, F. reflexivity.
Qed.

Lemma c78_directed : forall (fs : features) (fsqrt : elty -> Z -> Z) (o : op_impl) (a : list Z), In o x86_round -> op_fn o <> "round"%string ->
  int_vector (WIDTH (op_ty o)) (lane_ity (op_el o)) a ->
  let f := match op_el o with EF64 => fmt64 | _ => fmt32 end in
  exists r, op1_in fs fsqrt o a = Some (Ok r) /\ Forall2 (rounds f (if String.eqb (op_fn o) "ceil" then ceil_of f else if String.eqb (op_fn o) "floor" then floor_of f else trunc_of f)) a r.
Proof.
  intros fs fsqrt o a Ho Hn Ha f. destruct (c50_directed fsqrt o a) as (r & H1 & H2 & H3 & H4); [apply in_or_app; left; exact Ho|exact Hn|exact Ha|].
  exists r. split; [|exact H4]. rewrite op1_cases by (apply in_or_app; left; exact Ho). destruct (fs (op_feat o)); [|exact H1].
  destruct (optimized1 fsqrt o a) as [q|] eqn:E; [rewrite (H2 q eq_refl); reflexivity|destruct (H3 Ho eq_refl)].
Qed.

Lemma c78_sqrt : forall (fs : features) (fsqrt : elty -> Z -> Z) (o : op_impl) (a : list Z), In o x86_sqrt ->
  (forall e x, e = EF32 \/ e = EF64 -> in_ity (lane_ity e) x -> in_ity (lane_ity e) (fsqrt e x)) -> int_vector (WIDTH (op_ty o)) (lane_ity (op_el o)) a ->
  op1_in fs fsqrt o a = Some (Ok (map (fsqrt (op_el o)) a)).
Proof.
  intros fs fsqrt o a Ho Hq Ha. destruct (c56_sqrt fsqrt o a) as (H1 & H2 & H3); [apply in_or_app; left; exact Ho|exact Hq|exact Ha|].
  rewrite op1_cases by (apply in_or_app; right; exact Ho). destruct (fs (op_feat o)); [|exact H1].
  destruct (optimized1 fsqrt o a) as [q|] eqn:E; [rewrite (H2 q eq_refl); reflexivity|destruct (H3 Ho eq_refl)].
Qed.

(** ** Merges and shuffles *)

Lemma blend_gates : forallb (fun m => if can_blend m then blend_fits m else existsb (String.eqb (mi_feat m)) unknown_names) x86_merges = true.
Proof. vm_compute. reflexivity. Qed.

Lemma c78_merge : forall (fs : features) (c : config) (m : merge_impl) (self other : list (list Z)), target fs ->
  In m x86_merges -> vector_of (mi_ty m) self -> vector_of (mi_ty m) other ->
  merge_halves_in fs c m self other = Some (Ok (firstn (Z.to_nat (WIDTH (mi_ty m) / 2)) self ++ skipn (Z.to_nat (WIDTH (mi_ty m) / 2)) other)) /\
  (exists r, merge_interleaved_in fs c m self other = Some (Ok r) /\ picks (WIDTH (mi_ty m)) (fun i => i mod 2 =? 0) self other r) /\
  (forall off, 0 <= off < WIDTH (mi_ty m) -> merge_partitioned_in fs c m self other off = Some (Ok (firstn (Z.to_nat off) self ++ skipn (Z.to_nat off) other))).
Proof.
  intros fs c m self other Hfs Hm Hs Ho. pose proof (proj1 (forallb_forall _ _) blend_gates m Hm) as G. cbv beta in G. unfold merge_halves_in, merge_interleaved_in, merge_partitioned_in, merge_in.
  destruct (c37_merge_portable c m self other (in_or_app _ _ _ (or_introl Hm)) Hs Ho) as (P1 & (r & P2 & P3) & P4).
  destruct (fs (mi_feat m)) eqn:Hf.
  - destruct (can_blend m) eqn:B.
    + rewrite G. destruct (c37_merge_blend c m self other Hm B Hs Ho) as (B1 & (q & B2 & B3) & B4). rewrite B1, B2. split; [reflexivity|]. split; [exists q; split; [reflexivity|exact B3]|].
      intros off Hoff. rewrite B4 by lia. reflexivity.
    + exfalso. apply existsb_exists in G. destruct G as (f & Hin & E). apply String.eqb_eq in E. destruct Hfs as [_ Hu]. specialize (Hu f Hin). congruence.
  - rewrite P1, P2. split; [reflexivity|]. split; [exists r; split; [reflexivity|exact P3]|]. intros off Hoff. rewrite P4 by exact Hoff. reflexivity.
Qed.

Lemma shuffle_gates : forallb (fun s => if String.eqb (sh_fn s) "_mm_shuffle_epi8" || String.eqb (sh_fn s) "_mm256_shuffle_epi8" then control_fits s else existsb (String.eqb (sh_feat s)) unknown_names) (x86_swizzles ++ x86_swap_bytes) = true.
Proof. vm_compute. reflexivity. Qed.

Lemma shuffle_done : forall fs s portable v r, target fs -> In s (x86_swizzles ++ x86_swap_bytes) -> portable v = Ok r -> (forall q, byte_shuffle s v = Some q -> q = r) -> shuffle_in fs s portable v = Some (Ok r).
Proof.
  intros fs s portable v r Hfs Hs Hp Hq. pose proof (proj1 (forallb_forall _ _) shuffle_gates s Hs) as G. cbv beta in G. unfold shuffle_in. destruct (fs (sh_feat s)) eqn:Hf; [|rewrite Hp; reflexivity].
  destruct (String.eqb (sh_fn s) "_mm_shuffle_epi8" || String.eqb (sh_fn s) "_mm256_shuffle_epi8") eqn:B.
  - rewrite G. destruct (byte_shuffle s v) as [q|] eqn:E; [rewrite (Hq q eq_refl); reflexivity|]. exfalso. unfold byte_shuffle in E.
    destruct (String.eqb (sh_fn s) "_mm_shuffle_epi8"); [discriminate|]. cbn [orb] in B. rewrite B in E. discriminate.
  - exfalso. apply existsb_exists in G. destruct G as (f & Hin & E). apply String.eqb_eq in E. destruct Hfs as [_ Hu]. specialize (Hu f Hin). congruence.
Qed.

Lemma c78_shuffle : forall (fs : features) (s : shuffle_impl) (v : list (list Z)), target fs -> vector_of (sh_ty s) v ->
  (In s x86_swizzles -> flip_in fs s v = Some (Ok (swap_adjacent v))) /\ (In s x86_swap_bytes -> swap_bytes_in fs s v = Some (Ok (map (@rev Z) v))).
Proof.
  intros fs s v Hfs Hv. split; intros Hs.
  - destruct (c53_flip s v Hs Hv) as [H1 H2]. apply shuffle_done; [exact Hfs|apply in_or_app; left; exact Hs|exact H1|exact H2].
  - destruct (c44_swap_bytes s v (in_or_app _ _ _ (or_introl Hs)) Hv) as [H1 H2]. apply shuffle_done; [exact Hfs|apply in_or_app; right; exact Hs|exact H1|exact H2].
Qed.

(** ** Definitions written out *)

Lemma hop_coherent : forall fadd fsub,
  coherent (fun x => (xh_vec x, xh_trait x)) xh_feat (fun x => (xh_ty x, xh_el x)) (fun p => (h_vec p, h_trait p)) h_not (fun p => (h_ty p, h_el p)) (x86_hadd_optimized fadd) x86_hadd = true /\
  coherent (fun x => (xh_vec x, xh_trait x)) xh_feat (fun x => (xh_ty x, xh_el x)) (fun p => (h_vec p, h_trait p)) h_not (fun p => (h_ty p, h_el p)) (x86_hsub_optimized fsub) x86_hsub = true /\
  coherent (fun x => (xh_vec x, xh_trait x)) xh_feat (fun x => (xh_ty x, xh_el x)) (fun p => (h_vec p, h_trait p)) h_not (fun p => (h_ty p, h_el p)) x86_saturating_hadd_optimized x86_saturating_hadd = true /\
  coherent (fun x => (xh_vec x, xh_trait x)) xh_feat (fun x => (xh_ty x, xh_el x)) (fun p => (h_vec p, h_trait p)) h_not (fun p => (h_ty p, h_el p)) x86_saturating_hsub_optimized x86_saturating_hsub = true.
Proof. intros fadd fsub. repeat split; vm_compute; reflexivity. Qed.

Lemma hop_traits : forallb (fun p => String.eqb (h_trait p) "HAdd") x86_hadd && forallb (fun p => String.eqb (h_trait p) "HSub") x86_hsub &&
  forallb (fun p => String.eqb (h_trait p) "SaturatingHAdd") x86_saturating_hadd && forallb (fun p => String.eqb (h_trait p) "SaturatingHSub") x86_saturating_hsub = true.
Proof. vm_compute. reflexivity. Qed.

Lemma hop_cases : forall fs fadd fsub trait xs ps c p a b (Q : list Z -> Prop),
  coherent (fun x => (xh_vec x, xh_trait x)) xh_feat (fun x => (xh_ty x, xh_el x)) (fun p => (h_vec p, h_trait p)) h_not (fun p => (h_ty p, h_el p)) xs ps = true -> In p ps -> h_trait p = trait ->
  (exists r, hop_portable fadd fsub c p a b = Ok r /\ Q r) -> (forall x, In x xs -> xh_ty x = h_ty p -> xh_el x = h_el p -> Q (hop_optimized x a b)) ->
  exists r, hop_in fs fadd fsub trait xs ps c (h_vec p) a b = Some (Ok r) /\ Q r.
Proof.
  intros fs fadd fsub trait xs ps c p a b Q C Hp Ht (r & Hr & HQ) Hx. unfold hop_in. rewrite <- Ht.
  destruct (present_one _ _ _ _ _ _ _ _ xs ps fs p C Hp) as [E|(x & Hin & _ & S & _ & E)]; cbv beta in E; rewrite E; cbn [run_one].
  - exists r. rewrite Hr. split; [reflexivity|exact HQ].
  - injection S as S1 S2. exists (hop_optimized x a b). split; [reflexivity|exact (Hx x Hin S1 S2)].
Qed.

Lemma c78_hadd : forall (fs : features) (fadd fsub : elty -> Z -> Z -> Z) (c : config) (o : hop_impl) (a b : list Z), In o x86_hadd ->
  (forall e u v, e = EF32 \/ e = EF64 -> in_ity (lane_ity e) u -> in_ity (lane_ity e) v -> in_ity (lane_ity e) (fadd e u v)) ->
  int_vector (WIDTH (h_ty o)) (lane_ity (h_el o)) a -> int_vector (WIDTH (h_ty o)) (lane_ity (h_el o)) b ->
  (forall t, h_el o = EInt t -> build c = Debug -> each_pair (fun x y => in_ity t (x + y)) a /\ each_pair (fun x y => in_ity t (x + y)) b) ->
  exists r, hadd_in fs fadd fsub c (h_vec o) a b = Some (Ok r) /\ horizontal (fun x y => match h_el o with EInt t => wrap t (x + y) | e => fadd e x y end) a b r.
Proof.
  intros fs fadd fsub c o a b Ho Hf Ha Hb Hov. pose proof hop_traits as T. rewrite !andb_true_iff, !forallb_forall in T. destruct T as (((T & _) & _) & _). apply hop_cases.
  - apply (hop_coherent fadd fsub).
  - exact Ho.
  - apply String.eqb_eq. exact (T o Ho).
  - apply c41_hadd; [apply in_or_app; left; exact Ho|exact (proj1 Ha)|exact (proj1 Hb)|exact Hov].
  - intros x Hx E1 E2. rewrite <- E2. apply (c41_hadd_optimized fadd x a b Hx Hf); rewrite E1, E2; assumption.
Qed.

Lemma c78_hsub : forall (fs : features) (fadd fsub : elty -> Z -> Z -> Z) (c : config) (o : hop_impl) (a b : list Z), In o x86_hsub ->
  (forall e u v, e = EF32 \/ e = EF64 -> in_ity (lane_ity e) u -> in_ity (lane_ity e) v -> in_ity (lane_ity e) (fsub e u v)) ->
  int_vector (WIDTH (h_ty o)) (lane_ity (h_el o)) a -> int_vector (WIDTH (h_ty o)) (lane_ity (h_el o)) b ->
  (forall t, h_el o = EInt t -> build c = Debug -> each_pair (fun x y => in_ity t (x - y)) a /\ each_pair (fun x y => in_ity t (x - y)) b) ->
  exists r, hsub_in fs fadd fsub c (h_vec o) a b = Some (Ok r) /\ horizontal (fun x y => match h_el o with EInt t => wrap t (x - y) | e => fsub e x y end) a b r.
Proof.
  intros fs fadd fsub c o a b Ho Hf Ha Hb Hov. pose proof hop_traits as T. rewrite !andb_true_iff, !forallb_forall in T. destruct T as (((_ & T) & _) & _). apply hop_cases.
  - apply (hop_coherent fadd fsub).
  - exact Ho.
  - apply String.eqb_eq. exact (T o Ho).
  - apply c41_hsub; [apply in_or_app; left; exact Ho|exact (proj1 Ha)|exact (proj1 Hb)|exact Hov].
  - intros x Hx E1 E2. rewrite <- E2. apply (c41_hsub_optimized fsub x a b Hx Hf); rewrite E1, E2; assumption.
Qed.

Lemma c78_saturating_h : forall (fs : features) (fadd fsub : elty -> Z -> Z -> Z) (c : config) (o : hop_impl) (a b : list Z),
  int_vector (WIDTH (h_ty o)) (lane_ity (h_el o)) a -> int_vector (WIDTH (h_ty o)) (lane_ity (h_el o)) b ->
  (In o x86_saturating_hadd -> exists r, saturating_hadd_in fs fadd fsub c (h_vec o) a b = Some (Ok r) /\ horizontal (fun x y => clamp (lane_ity (h_el o)) (x + y)) a b r) /\
  (In o x86_saturating_hsub -> exists r, saturating_hsub_in fs fadd fsub c (h_vec o) a b = Some (Ok r) /\ horizontal (fun x y => clamp (lane_ity (h_el o)) (x - y)) a b r).
Proof.
  intros fs fadd fsub c o a b Ha Hb. pose proof hop_traits as T. rewrite !andb_true_iff, !forallb_forall in T. destruct T as ((_ & T1) & T2). split; intros Ho; apply hop_cases.
  - apply (hop_coherent fadd fsub).
  - exact Ho.
  - apply String.eqb_eq. exact (T1 o Ho).
  - destruct (c40_saturating_hadd fadd fsub c o a b (in_or_app _ _ _ (or_introl Ho)) (proj1 Ha) (proj1 Hb)) as (t & r & E & H1 & H2). exists r. split; [exact H1|]. rewrite E. exact H2.
  - intros x Hx E1 E2. rewrite <- E2. apply (c40_saturating_h_optimized x a b); [rewrite E1, E2; assumption|rewrite E1, E2; assumption|exact Hx].
  - apply (hop_coherent fadd fsub).
  - exact Ho.
  - apply String.eqb_eq. exact (T2 o Ho).
  - destruct (c40_saturating_hsub fadd fsub c o a b (in_or_app _ _ _ (or_introl Ho)) (proj1 Ha) (proj1 Hb)) as (t & r & E & H1 & H2). exists r. split; [exact H1|]. rewrite E. exact H2.
  - intros x Hx E1 E2. rewrite <- E2. apply (c40_saturating_h_optimized x a b); [rewrite E1, E2; assumption|rewrite E1, E2; assumption|exact Hx].
Qed.

(** Same shape, with the type of the results. *)
Definition port_shape_ok (xs : list xport) (ps : list port_impl) : bool :=
  forallb (fun x => forallb (fun p => implb (key_eqb (xp_vec x, xp_outvec x) (pt_vec p, pt_outvec p)) (vty_eqb (xp_outty x) (pt_outty p) && elty_eqb (xp_out x) (pt_out p))) ps) xs.

Lemma port_coherent :
  coherent (fun x => (xp_vec x, xp_outvec x)) xp_feat (fun x => (xp_ty x, xp_el x)) (fun p => (pt_vec p, pt_outvec p)) pt_not (fun p => (pt_ty p, pt_el p)) x86_abs_optimized x86_abs &&
  coherent (fun x => (xp_vec x, xp_outvec x)) xp_feat (fun x => (xp_ty x, xp_el x)) (fun p => (pt_vec p, pt_outvec p)) pt_not (fun p => (pt_ty p, pt_el p)) x86_upcast_optimized x86_upcast &&
  coherent (fun x => (xp_vec x, xp_outvec x)) xp_feat (fun x => (xp_ty x, xp_el x)) (fun p => (pt_vec p, pt_outvec p)) pt_not (fun p => (pt_ty p, pt_el p)) x86_downcast_optimized x86_downcast &&
  port_shape_ok x86_abs_optimized x86_abs && port_shape_ok x86_upcast_optimized x86_upcast && port_shape_ok x86_downcast_optimized x86_downcast = true.
Proof. vm_compute. reflexivity. Qed.

Lemma port_cases : forall fs narrow xs ps p args (Q : list (list Z) -> Prop),
  coherent (fun x => (xp_vec x, xp_outvec x)) xp_feat (fun x => (xp_ty x, xp_el x)) (fun p => (pt_vec p, pt_outvec p)) pt_not (fun p => (pt_ty p, pt_el p)) xs ps = true -> port_shape_ok xs ps = true -> In p ps ->
  (exists r, port_portable narrow p args = Ok r /\ Q r) ->
  (forall x, In x xs -> xp_ty x = pt_ty p -> xp_el x = pt_el p -> xp_outty x = pt_outty p -> xp_out x = pt_out p -> Q (port_optimized x args)) ->
  exists r, port_in fs narrow xs ps (pt_vec p) (pt_outvec p) args = Some (Ok r) /\ Q r.
Proof.
  intros fs narrow xs ps p args Q C C2 Hp (r & Hr & HQ) Hx. unfold port_in.
  destruct (present_one _ _ _ _ _ _ _ _ xs ps fs p C Hp) as [E|(x & Hin & K & S & _ & E)]; cbv beta in E; rewrite E; cbn [run_one].
  - exists r. rewrite Hr. split; [reflexivity|exact HQ].
  - unfold port_shape_ok in C2. rewrite forallb_forall in C2. specialize (C2 x Hin). cbv beta in C2. rewrite forallb_forall in C2. specialize (C2 p Hp). cbv beta in C2.
    rewrite (proj2 (key_eqb_eq _ _) K) in C2. cbn [implb] in C2. rewrite andb_true_iff in C2. destruct C2 as [C2 C3].
    injection S as S1 S2. exists (port_optimized x args). split; [reflexivity|]. apply (Hx x Hin S1 S2); [apply vty_eqb_eq; exact C2|apply elty_eqb_eq; exact C3].
Qed.

Lemma c78_abs : forall (fs : features) (narrow : Z -> Z) (p : port_impl) (v : list Z), In p x86_abs -> int_vector (WIDTH (pt_ty p)) (lane_ity (pt_el p)) v ->
  exists r, vector_abs_in fs narrow (pt_vec p) (pt_outvec p) [v] = Some (Ok [r]) /\ Forall2 (absolute (pt_el p)) v r /\ Forall (in_ity (lane_ity (pt_out p))) r.
Proof.
  intros fs narrow p v Hp Hv. pose proof port_coherent as C. rewrite !andb_true_iff in C. destruct C as (((((C1 & _) & _) & C2) & _) & _).
  destruct (port_cases fs narrow x86_abs_optimized x86_abs p [v] (fun rs => exists r, rs = [r] /\ Forall2 (absolute (pt_el p)) v r /\ Forall (in_ity (lane_ity (pt_out p))) r) C1 C2 Hp) as (rs & E & r & -> & H).
  - destruct (c49_abs_portable narrow p v (in_or_app _ _ _ (or_introl Hp)) Hv) as (r & H1 & H2). exists [r]. split; [exact H1|]. exists r. split; [reflexivity|exact H2].
  - intros x Hx E1 E2 E3 E4. rewrite <- E2, <- E4. apply c49_abs_optimized; [exact Hx|]. rewrite E1, E2. exact Hv.
  - exists r. split; [exact E|exact H].
Qed.

Lemma c78_upcast : forall (fs : features) (narrow : Z -> Z) (p : port_impl) (v : list Z), In p x86_upcast -> int_vector (WIDTH (pt_ty p)) (lane_ity (pt_el p)) v ->
  exists r, upcast_in fs narrow (pt_vec p) (pt_outvec p) [v] = Some (Ok r) /\ upcasts (pt_el p) (pt_out p) (WIDTH (pt_outty p)) v r.
Proof.
  intros fs narrow p v Hp Hv. pose proof port_coherent as C. rewrite !andb_true_iff in C. destruct C as (((((_ & C1) & _) & _) & C2) & _).
  apply (port_cases fs narrow x86_upcast_optimized x86_upcast p [v]); [exact C1|exact C2|exact Hp| |].
  - exact (c46_upcast_portable narrow p v (in_or_app _ _ _ (or_introl Hp)) Hv).
  - intros x Hx E1 E2 E3 E4. rewrite <- E2, <- E3, <- E4. apply c46_upcast_optimized; [exact Hx|]. rewrite E1, E2. exact Hv.
Qed.

Lemma narrow_128 : forallb (fun x => implb (bytes (xp_ty x) =? 16) (negb (String.eqb (xp_feat x) "avx2") && match xp_out x with EInt _ => true | _ => false end)) x86_downcast_optimized = true.
Proof. vm_compute. reflexivity. Qed.

Lemma c78_downcast : forall (fs : features) (narrow : Z -> Z) (p : port_impl) (a b : list Z), In p x86_downcast -> bytes (pt_ty p) = 16 ->
  match pt_el p with EInt t => isigned t = true | _ => True end ->
  int_vector (WIDTH (pt_ty p)) (lane_ity (pt_el p)) a -> int_vector (WIDTH (pt_ty p)) (lane_ity (pt_el p)) b ->
  downcast_in fs narrow (pt_vec p) (pt_outvec p) [a; b] = Some (Ok [map (match pt_out p with EInt t => clamp t | _ => narrow end) (a ++ b)]).
Proof.
  intros fs narrow p a b Hp H16 Hs Ha Hb. pose proof port_coherent as C. rewrite !andb_true_iff in C. destruct C as (((((_ & _) & C1) & _) & _) & C2).
  destruct (port_cases fs narrow x86_downcast_optimized x86_downcast p [a; b] (fun r => r = [map (match pt_out p with EInt t => clamp t | _ => narrow end) (a ++ b)]) C1 C2 Hp) as (r & E & ->); [| |exact E].
  - eexists. split; [|reflexivity]. apply c47_downcast_portable_partial; [apply in_or_app; left; exact Hp| |exact Ha|exact Hb]. destruct (pt_el p) as [[[] n]| |]; cbn in *; try reflexivity; try discriminate.
  - intros x Hx E1 E2 E3 E4. pose proof (proj1 (forallb_forall _ _) narrow_128 x Hx) as N. cbv beta in N. rewrite E1, H16 in N. change (16 =? 16) with true in N. cbn [implb] in N. rewrite andb_true_iff, negb_true_iff in N. destruct N as [N1 N2].
    rewrite c47_downcast_optimized_partial; [|exact Hx|apply String.eqb_neq; exact N1|rewrite E1, E2; exact Ha|rewrite E1, E2; exact Hb|].
    + rewrite <- E4. destruct (xp_out x) as [t| |]; [reflexivity|discriminate|discriminate].
    + rewrite E2. intros Hu. exfalso. destruct (pt_el p) as [t| |] eqn:Ep; cbn [lane_ity] in Hu; [congruence| |].
      * clear - Hx E2 Ep. revert E2. unfold x86_downcast_optimized in Hx. cbn [In] in Hx. repeat (destruct Hx as [<-|Hx]; [cbn [xp_el]; congruence|]). destruct Hx.
      * clear - Hx E2 Ep. revert E2. unfold x86_downcast_optimized in Hx. cbn [In] in Hx. repeat (destruct Hx as [<-|Hx]; [cbn [xp_el]; congruence|]). destruct Hx.
Qed.

Lemma destride_coherent :
  coherent (fun x => (xd_vec x, ""%string)) xd_feat (fun x => (xd_ty x, EInt (xd_el x))) (fun d => (d_vec d, ""%string)) d_not (fun d => (d_ty d, d_el d)) (x86_destride_128 ++ x86_destride_256) x86_destride &&
  forallb (fun x => negb (bytes (xd_ty x) =? 16)) x86_destride_256 = true.
Proof. vm_compute. reflexivity. Qed.

Lemma c78_destride : forall (fs : features) (c : config) (d : destride_impl) (a b : list Z), In d x86_destride -> bytes (d_ty d) = 16 \/ SIZE (d_ty d) <> 1 ->
  int_vector (WIDTH (d_ty d)) (lane_ity (d_el d)) a -> int_vector (WIDTH (d_ty d)) (lane_ity (d_el d)) b ->
  exists r0 r1, destride_two_in fs c (d_vec d) a b = Some (Ok [r0; r1]) /\ every_nth 2 0 (a ++ b) r0 /\ every_nth 2 1 (a ++ b) r1.
Proof.
  intros fs c d a b Hd H16 Ha Hb. pose proof destride_coherent as C. rewrite andb_true_iff in C. destruct C as [C N]. unfold destride_two_in.
  destruct (present_one _ _ _ _ _ _ _ _ (x86_destride_128 ++ x86_destride_256) x86_destride fs d C Hd) as [E|(x & Hin & K & S & _ & E)]; cbv beta in E; rewrite E; cbn [run_one].
  - destruct (c48_destride_two_portable d a b (in_or_app _ _ _ (or_introl Hd)) (proj1 Ha) (proj1 Hb)) as (r0 & r1 & H1 & H2). exists r0, r1. rewrite H1. split; [reflexivity|exact H2].
  - injection S as S1 S2. assert (Hx : In x x86_destride_128).
    { apply in_app_or in Hin. destruct Hin as [Hin|Hin]; [exact Hin|]. exfalso. pose proof (proj1 (forallb_forall _ _) N x Hin) as M. cbv beta in M. rewrite S1 in M. rewrite negb_true_iff, Z.eqb_neq in M.
      destruct H16 as [H16|H16]; [exact (M H16)|]. rewrite <- S1 in H16. clear - Hin H16. cbn [x86_destride_256 In] in Hin. destruct Hin as [<-|[<-|[]]]; cbn in H16; lia. }
    destruct (c48_destride_two_128 c x a b Hx) as (r0 & r1 & H1 & H2); [rewrite S1; rewrite <- S2 in Ha; exact Ha|rewrite S1; rewrite <- S2 in Hb; exact Hb|]. exists r0, r1. rewrite H1. split; [reflexivity|exact H2].
Qed.

Lemma sum_coherent : forall fadd,
  coherent (fun x => (xs_vec x, ""%string)) xs_feat (fun x => (xs_ty x, xs_el x)) (fun s => (s_vec s, ""%string)) s_not (fun s => (s_ty s, s_el s)) (x86_sum_optimized ++ x86_sum_float fadd) x86_sum = true /\
  coherent (fun x => (xs_vec x, ""%string)) xs_feat (fun x => (xs_ty x, xs_el x)) (fun s => (s_vec s, ""%string)) s_not (fun s => (s_ty s, s_el s)) x86_sum_upcast_optimized x86_upcast_sum = true.
Proof. intros fadd. split; vm_compute; reflexivity. Qed.

Lemma c78_sum : forall (fs : features) (fadd : elty -> Z -> Z -> Z) (c : config) (s : fold_impl) (t : ity) (v : list Z), In s x86_sum -> s_el s = EInt t -> int_vector (WIDTH (s_ty s)) t v -> build c = Release ->
  exists r, sum_in fs fadd c (s_vec s) v = Some (Ok r) /\ sum_mod t v r.
Proof.
  intros fs fadd c s t v Hs He Hv Hc. destruct (sum_coherent fadd) as [C _]. unfold sum_in, fold_in.
  destruct (present_one _ _ _ _ _ _ _ _ (x86_sum_optimized ++ x86_sum_float fadd) x86_sum fs s C Hs) as [E|(x & Hin & K & S & _ & E)]; cbv beta in E; rewrite E; cbn [run_one].
  - destruct (c42_sum_portable fadd c s t v (in_or_app _ _ _ (or_introl Hs)) He Hv (or_introl Hc)) as (r & H1 & H2). exists r. rewrite H1. split; [reflexivity|exact H2].
  - injection S as S1 S2. apply in_app_or in Hin. destruct Hin as [Hin|Hin].
    + destruct (c42_sum_optimized_partial c x t v Hin) as (r & H1 & H2); [congruence|rewrite S1; exact Hv|right; left; exact Hc|]. exists r. rewrite H1. split; [reflexivity|exact H2].
    + exfalso. rewrite He in S2. clear - Hin S2. cbn [x86_sum_float In] in Hin. destruct Hin as [<-|[<-|[<-|[<-|[]]]]]; discriminate.
Qed.

Lemma c78_sum_upcast : forall (fs : features) (c : config) (s : fold_impl) (t : ity) (v : list Z), In s x86_upcast_sum -> s_el s = EInt t -> (ibytes t <= 4)%nat -> t <> i8 -> int_vector (WIDTH (s_ty s)) t v ->
  sum_upcast_in fs c (s_vec s) v = Some (Ok (total v)).
Proof.
  intros fs c s t v Hs He H4 H8 Hv. destruct (sum_coherent (fun _ x _ => x)) as [_ C]. unfold sum_upcast_in, fold_in.
  destruct (present_one _ _ _ _ _ _ _ _ x86_sum_upcast_optimized x86_upcast_sum fs s C Hs) as [E|(x & Hin & K & S & _ & E)]; cbv beta in E; rewrite E; cbn [run_one].
  - rewrite (c42_sum_upcast_exact c s t v (in_or_app _ _ _ (or_introl Hs)) He H4 Hv). reflexivity.
  - injection S as S1 S2. rewrite (c42_sum_upcast_optimized c x t v Hin); [reflexivity|congruence|exact H8|rewrite S1; exact Hv].
Qed.

Definition strings_same (a b : list string) : bool := if list_eq_dec string_dec a b then true else false.

Definition has_attributes (trait vec fn : string) (pos neg : list string) : bool :=
  existsb (fun g => String.eqb (g_trait g) trait && String.eqb (g_vec g) vec && String.eqb (g_fn g) fn && strings_same (g_pos g) pos && strings_same (g_neg g) neg) x86_gated.

Lemma has_attributes_ok : forall trait vec fn pos neg, has_attributes trait vec fn pos neg = true -> attributes trait vec fn pos neg.
Proof.
  intros trait vec fn pos neg H. unfold has_attributes in H. apply existsb_exists in H. destruct H as (g & Hg & H). rewrite !andb_true_iff, !String.eqb_eq in H. destruct H as ((((<- & <-) & <-) & H1) & H2).
  unfold strings_same in *. destruct (list_eq_dec string_dec (g_pos g) pos) as [<-|]; [|discriminate]. destruct (list_eq_dec string_dec (g_neg g) neg) as [<-|]; [|discriminate].
  exists (g_mm g). destruct g. exact Hg.
Qed.

Lemma op_attributes : forallb (fun o => has_attributes (op_trait o) (op_vec o) (op_fn o) [op_feat o] [] && has_attributes (op_trait o) (op_vec o) (op_fn o) [] [op_feat o])
  (x86_eq ++ x86_cmp ++ x86_saturating_add ++ x86_saturating_sub ++ x86_round ++ x86_sqrt ++ x86_recip ++ x86_rsqrt) = true.
Proof. vm_compute. reflexivity. Qed.

Lemma merge_attributes : forallb (fun m => forallb (fun fn => has_attributes "Merge" (mi_name m) fn [mi_feat m] [] && has_attributes "Merge" (mi_name m) fn [] [mi_feat m]) ["merge_halves"; "merge_interleaved"; "merge_partitioned"]%string) x86_merges &&
  forallb (fun s => has_attributes "Swizzle" (sh_name s) "flip" [sh_feat s] [] && has_attributes "Swizzle" (sh_name s) "flip" [] [sh_feat s]) x86_swizzles &&
  forallb (fun s => has_attributes "Reendianize" (sh_name s) "swap_bytes" [sh_feat s] [] && has_attributes "Reendianize" (sh_name s) "swap_bytes" [] [sh_feat s]) x86_swap_bytes = true.
Proof. vm_compute. reflexivity. Qed.

Lemma other_attributes : forall fadd,
  forallb (fun x => has_attributes "Abs" (xp_vec x) "abs" [xp_feat x] []) x86_abs_optimized && forallb (fun p => has_attributes "Abs" (pt_vec p) "abs" [] (at_most_one (pt_not p))) x86_abs &&
  forallb (fun x => has_attributes "Destride" (xd_vec x) "destride_two" [xd_feat x] []) (x86_destride_128 ++ x86_destride_256) && forallb (fun d => has_attributes "Destride" (d_vec d) "destride_two" [] (at_most_one (d_not d))) x86_destride &&
  forallb (fun x => has_attributes "Sum" (xs_vec x) "sum" [xs_feat x] []) (x86_sum_optimized ++ x86_sum_float fadd) && forallb (fun s => has_attributes "Sum" (s_vec s) "sum" [] (at_most_one (s_not s))) x86_sum &&
  forallb (fun x => has_attributes "UpcastSum" (xs_vec x) "sum_upcast" [xs_feat x] []) x86_sum_upcast_optimized && forallb (fun s => has_attributes "UpcastSum" (s_vec s) "sum_upcast" [] (at_most_one (s_not s))) x86_upcast_sum = true.
Proof. intros. vm_compute. reflexivity. Qed.

Lemma c78_attributes : (forall o, In o (x86_eq ++ x86_cmp ++ x86_saturating_add ++ x86_saturating_sub ++ x86_round ++ x86_sqrt ++ x86_recip ++ x86_rsqrt) ->
    attributes (op_trait o) (op_vec o) (op_fn o) [op_feat o] [] /\ attributes (op_trait o) (op_vec o) (op_fn o) [] [op_feat o]) /\
  (forall m fn, In m x86_merges -> In fn ["merge_halves"; "merge_interleaved"; "merge_partitioned"]%string -> attributes "Merge" (mi_name m) fn [mi_feat m] [] /\ attributes "Merge" (mi_name m) fn [] [mi_feat m]) /\
  (forall s, In s x86_swizzles -> attributes "Swizzle" (sh_name s) "flip" [sh_feat s] [] /\ attributes "Swizzle" (sh_name s) "flip" [] [sh_feat s]) /\
  (forall s, In s x86_swap_bytes -> attributes "Reendianize" (sh_name s) "swap_bytes" [sh_feat s] [] /\ attributes "Reendianize" (sh_name s) "swap_bytes" [] [sh_feat s]).
Proof.
  pose proof op_attributes as H1. pose proof merge_attributes as H2. rewrite !andb_true_iff in H2. destruct H2 as ((H2 & H3) & H4). rewrite forallb_forall in H1, H2, H3, H4. split; [|split; [|split]].
  - intros o Ho. specialize (H1 o Ho). cbv beta in H1. rewrite andb_true_iff in H1. destruct H1 as [A B]. split; apply has_attributes_ok; assumption.
  - intros m fn Hm Hfn. specialize (H2 m Hm). cbv beta in H2. rewrite forallb_forall in H2. specialize (H2 fn Hfn). cbv beta in H2. rewrite andb_true_iff in H2. destruct H2 as [A B]. split; apply has_attributes_ok; assumption.
  - intros s Hs. specialize (H3 s Hs). cbv beta in H3. rewrite andb_true_iff in H3. destruct H3 as [A B]. split; apply has_attributes_ok; assumption.
  - intros s Hs. specialize (H4 s Hs). cbv beta in H4. rewrite andb_true_iff in H4. destruct H4 as [A B]. split; apply has_attributes_ok; assumption.
Qed.

Lemma c78_attributes_written : forall (fadd fsub : elty -> Z -> Z -> Z),
  (forall x, In x (x86_hadd_optimized fadd) -> attributes "HAdd" (xh_vec x) "hadd" [xh_feat x] []) /\ (forall p, In p x86_hadd -> attributes "HAdd" (h_vec p) "hadd" [] (at_most_one (h_not p))) /\
  (forall x, In x (x86_hsub_optimized fsub) -> attributes "HSub" (xh_vec x) "hsub" [xh_feat x] []) /\ (forall p, In p x86_hsub -> attributes "HSub" (h_vec p) "hsub" [] (at_most_one (h_not p))) /\
  (forall x, In x x86_saturating_hadd_optimized -> attributes "SaturatingHAdd" (xh_vec x) "saturating_hadd" [xh_feat x] []) /\ (forall p, In p x86_saturating_hadd -> attributes "SaturatingHAdd" (h_vec p) "saturating_hadd" [] (at_most_one (h_not p))) /\
  (forall x, In x x86_saturating_hsub_optimized -> attributes "SaturatingHSub" (xh_vec x) "saturating_hsub" [xh_feat x] []) /\ (forall p, In p x86_saturating_hsub -> attributes "SaturatingHSub" (h_vec p) "saturating_hsub" [] (at_most_one (h_not p))) /\
  (forall x, In x x86_abs_optimized -> attributes "Abs" (xp_vec x) "abs" [xp_feat x] []) /\ (forall p, In p x86_abs -> attributes "Abs" (pt_vec p) "abs" [] (at_most_one (pt_not p))) /\
  (forall x, In x (x86_destride_128 ++ x86_destride_256) -> attributes "Destride" (xd_vec x) "destride_two" [xd_feat x] []) /\ (forall d, In d x86_destride -> attributes "Destride" (d_vec d) "destride_two" [] (at_most_one (d_not d))) /\
  (forall x, In x (x86_sum_optimized ++ x86_sum_float fadd) -> attributes "Sum" (xs_vec x) "sum" [xs_feat x] []) /\ (forall s, In s x86_sum -> attributes "Sum" (s_vec s) "sum" [] (at_most_one (s_not s))) /\
  (forall x, In x x86_sum_upcast_optimized -> attributes "UpcastSum" (xs_vec x) "sum_upcast" [xs_feat x] []) /\ (forall s, In s x86_upcast_sum -> attributes "UpcastSum" (s_vec s) "sum_upcast" [] (at_most_one (s_not s))).
Proof.
  intros fadd fsub. pose proof (other_attributes fadd) as O. rewrite !andb_true_iff, !forallb_forall in O. destruct O as (((((((O1 & O2) & O3) & O4) & O5) & O6) & O7) & O8).
  assert (A1 : forallb (fun x => has_attributes "HAdd" (xh_vec x) "hadd" [xh_feat x] []) (x86_hadd_optimized fadd) && forallb (fun p => has_attributes "HAdd" (h_vec p) "hadd" [] (at_most_one (h_not p))) x86_hadd &&
    forallb (fun x => has_attributes "HSub" (xh_vec x) "hsub" [xh_feat x] []) (x86_hsub_optimized fsub) && forallb (fun p => has_attributes "HSub" (h_vec p) "hsub" [] (at_most_one (h_not p))) x86_hsub &&
    forallb (fun x => has_attributes "SaturatingHAdd" (xh_vec x) "saturating_hadd" [xh_feat x] []) x86_saturating_hadd_optimized && forallb (fun p => has_attributes "SaturatingHAdd" (h_vec p) "saturating_hadd" [] (at_most_one (h_not p))) x86_saturating_hadd &&
    forallb (fun x => has_attributes "SaturatingHSub" (xh_vec x) "saturating_hsub" [xh_feat x] []) x86_saturating_hsub_optimized && forallb (fun p => has_attributes "SaturatingHSub" (h_vec p) "saturating_hsub" [] (at_most_one (h_not p))) x86_saturating_hsub = true) by (vm_compute; reflexivity).
  rewrite !andb_true_iff, !forallb_forall in A1. destruct A1 as (((((((A1 & A2) & A3) & A4) & A5) & A6) & A7) & A8).
  repeat split; intros y Hy; apply has_attributes_ok; auto.
Qed.
