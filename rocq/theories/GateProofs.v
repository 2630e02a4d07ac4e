(** Proofs of the properties: feature gates (C55, C57, C58). *)
From Coq Require Import String.
From Verif Require Import Base GateTables GateSpec Gates.
Open Scope Z_scope.

(** The features a level includes, itself first. *)
Definition ladder : list string := ["avx2"; "avx"; "sse4.2"; "sse4.1"; "ssse3"; "sse3"; "sse2"; "sse"]%string.

Fixpoint from (f : string) (l : list string) : list string :=
  match l with [] => [] | x :: l' => if String.eqb x f then l else from f l' end.

Lemma target_ladder : forall fs f, target fs -> fs f = true -> forall g, In g (from f ladder) -> fs g = true.
Proof.
  intros fs f [T _]. assert (S : forall hi lo, In (hi, lo) levels -> fs hi = true -> fs lo = true) by exact T.
  assert (A : (fs "avx2"%string = true -> fs "avx"%string = true) /\ (fs "avx"%string = true -> fs "sse4.2"%string = true) /\ (fs "sse4.2"%string = true -> fs "sse4.1"%string = true) /\ (fs "sse4.1"%string = true -> fs "ssse3"%string = true) /\ (fs "ssse3"%string = true -> fs "sse3"%string = true) /\ (fs "sse3"%string = true -> fs "sse2"%string = true) /\ (fs "sse2"%string = true -> fs "sse"%string = true)).
  { repeat split; apply S; unfold levels; cbn [In]; tauto. }
  clear S T. destruct A as (A1 & A2 & A3 & A4 & A5 & A6 & A7). intros Hf g Hg. unfold ladder in Hg. cbn [from] in Hg.
  repeat match goal with H : In _ (if String.eqb ?a ?b then _ else _) |- _ => let E := fresh in destruct (String.eqb a b) eqn:E; [apply String.eqb_eq in E; subst f; cbn [In] in H; repeat (destruct H as [<-|H]; [tauto|]); destruct H|] end. destruct Hg.
Qed.

Definition one_ok (g : gated) (m : string) : bool :=
  existsb (fun e => existsb (String.eqb m) (snd e) && existsb (fun p => existsb (String.eqb (fst e)) (from p ladder)) (g_pos g)) feature_sets.

Definition gate_ok (g : gated) : bool :=
  underpowered g || existsb (fun p => existsb (String.eqb p) unknown_names) (g_pos g) || forallb (one_ok g) (g_mm g).

Lemma gates_ok : forallb gate_ok x86_gated = true.
Proof. vm_compute. reflexivity. Qed.

Lemma existsb_eq : forall m l, existsb (String.eqb m) l = true -> In m l.
Proof. intros m l H. apply existsb_exists in H. destruct H as (x & Hx & E). apply String.eqb_eq in E. subst x. exact Hx. Qed.

Lemma compiled_pos : forall fs g f, compiled fs g = true -> In f (g_pos g) -> fs f = true.
Proof. intros fs g f H Hf. unfold compiled, active in H. apply andb_prop in H. destruct H as [H _]. exact (proj1 (forallb_forall _ _) H f Hf). Qed.

Lemma c55_provided_partial : forall (fs : features) (g : gated) (m : string), target fs -> In g x86_gated -> compiled fs g = true -> underpowered g = false -> In m (g_mm g) -> provides fs m.
Proof.
  intros fs g m T Hg Hc Hu Hm. pose proof (proj1 (forallb_forall _ _) gates_ok g Hg) as K. unfold gate_ok in K. rewrite Hu in K. cbn [orb] in K. apply orb_prop in K. destruct K as [K|K].
  - exfalso. apply existsb_exists in K. destruct K as (p & Hp & K). apply existsb_eq in K. pose proof (compiled_pos fs g p Hc Hp) as E. rewrite (proj2 T p K) in E. discriminate E.
  - pose proof (proj1 (forallb_forall _ _) K m Hm) as O. unfold one_ok in O. apply existsb_exists in O. destruct O as ((f & set) & He & O). cbn [fst snd] in O. apply andb_prop in O. destruct O as [O1 O2]. apply existsb_eq in O1. apply existsb_exists in O2. destruct O2 as (p & Hp & O2). apply existsb_eq in O2.
    exists f, set. split; [exact He|split; [exact O1|]]. exact (target_ladder fs p T (compiled_pos fs g p Hc Hp) f O2).
Qed.

Definition weak_ok (g : gated) : bool :=
  if underpowered g then
    match g_mm g with
    | [] => true
    | _ => forallb (String.eqb (has_gate g)) (g_pos g) && match g_neg g with [] => true | _ => false end && forallb (fun m => forallb (fun e => negb (existsb (String.eqb m) (snd e)) || String.eqb (fst e) (needs g)) feature_sets) (g_mm g)
    end
  else true.

Lemma weak_gates_ok : forallb weak_ok x86_gated = true.
Proof. vm_compute. reflexivity. Qed.

Lemma c55_provided_refuted : forall (fs : features) (g : gated), In g x86_gated -> underpowered g = true -> g_mm g <> [] -> fs (has_gate g) = true -> fs (needs g) = false ->
  compiled fs g = true /\ forall m, In m (g_mm g) -> ~ provides fs m.
Proof.
  intros fs g Hg Hu Hm H1 H2. pose proof (proj1 (forallb_forall _ _) weak_gates_ok g Hg) as K. unfold weak_ok in K. rewrite Hu in K. destruct (g_mm g) as [|m0 ms] eqn:Em; [congruence|]. apply andb_prop in K. destruct K as [K K3]. apply andb_prop in K. destruct K as [K1 K2]. split.
  - unfold compiled, active. destruct (g_neg g); [|discriminate K2]. cbn [forallb]. rewrite Bool.andb_true_r. apply forallb_forall. intros f Hf. apply (proj1 (forallb_forall _ _) K1) in Hf. apply String.eqb_eq in Hf. rewrite <- Hf. exact H1.
  - intros m Hin (f & set & Hs & Hi & Hf). pose proof (proj1 (forallb_forall _ _) K3 m Hin) as E. pose proof (proj1 (forallb_forall _ _) E (f, set) Hs) as E'. cbn [fst snd] in E'. apply orb_prop in E'. destruct E' as [E'|E'].
    + apply Bool.negb_true_iff in E'. assert (X : existsb (String.eqb m) set = true) by (apply existsb_exists; exists m; split; [exact Hi|apply String.eqb_refl]). congruence.
    + apply String.eqb_eq in E'. congruence.
Qed.

Definition feature_pair (d e : gated) : bool :=
  match g_pos d, g_neg d, g_pos e, g_neg e with
  | [f], [], [], [h] => String.eqb f h
  | [], [f], [h], [] => String.eqb f h
  | _, _, _, _ => false
  end.

Definition method_ok (l : list gated) (g : gated) : bool :=
  match filter (same_method g) l with
  | [d] => match g_pos d, g_neg d with [], [] => true | _, _ => false end
  | [d; e] => feature_pair d e
  | _ => false
  end.

Lemma methods_ok : forallb (method_ok x86_gated) x86_gated = true.
Proof. vm_compute. reflexivity. Qed.

Lemma filter_and : forall (A : Type) (p q : A -> bool) l, filter (fun x => p x && q x) l = filter q (filter p l).
Proof. intros A p q l. induction l as [|x l IH]; cbn [filter]; [reflexivity|]. destruct (p x); cbn [andb filter]; rewrite IH; reflexivity. Qed.

Lemma one_definition : forall fs l g, method_ok l g = true -> exists d, filter (fun h => same_method g h && compiled fs h) l = [d] /\ same_method g d = true /\ compiled fs d = true.
Proof.
  intros fs l g K. assert (O : exists d, filter (fun h => same_method g h && compiled fs h) l = [d]).
  { unfold method_ok in K. rewrite filter_and.
    destruct (filter (same_method g) l) as [|d [|e [|? ?] ] ]; try discriminate K.
    - exists d. unfold compiled, active. cbn [filter]. destruct (g_pos d), (g_neg d); try discriminate K. reflexivity.
    - unfold feature_pair in K. unfold compiled, active. cbn [filter]. destruct (g_pos d) as [|f [|? ?] ], (g_neg d) as [|f' [|? ?] ], (g_pos e) as [|h [|? ?] ], (g_neg e) as [|h' [|? ?] ]; try discriminate K; apply String.eqb_eq in K; subst; cbn [forallb]; rewrite !Bool.andb_true_r; cbn [andb].
      + destruct (fs h); cbn [negb]; eexists; reflexivity.
      + destruct (fs h'); cbn [negb]; eexists; reflexivity. }
  destruct O as [d O]. exists d. split; [exact O|]. assert (Hd : In d (filter (fun h => same_method g h && compiled fs h) l)) by (rewrite O; left; reflexivity). apply filter_In in Hd. destruct Hd as [_ Hd]. apply andb_prop in Hd. exact Hd.
Qed.

Lemma c57_one_definition : forall (fs : features) (g : gated), In g x86_gated -> exists d, definitions fs g = [d] /\ same_method g d = true /\ compiled fs d = true.
Proof. intros fs g Hg. exact (one_definition fs x86_gated g (proj1 (forallb_forall _ _) methods_ok g Hg)). Qed.

Definition natural_ok (ls : list packed_line) (alias : string) : bool :=
  match filter (fun l => String.eqb (p_alias l) alias) ls with
  | [a; b; c] =>
    match p_pos a, p_neg a, p_pos b, p_neg b, p_pos c, p_neg c with
    | [f1], [f2], [f3], [f4], [], [f5] => String.eqb f1 "avx512" && String.eqb f2 "avx1024" && String.eqb f3 "avx2" && String.eqb f4 "avx512" && String.eqb f5 "avx2"
    | _, _, _, _, _, _ => false
    end && (p_size a * p_width a =? 64) && (p_size b * p_width b =? 32) && (p_size c * p_width c =? 16) && (p_size a =? p_size b) && (p_size b =? p_size c)
  | _ => false
  end.

Lemma naturals_ok : forallb (fun l => natural_ok x86_packed (p_alias l)) x86_packed = true.
Proof. vm_compute. reflexivity. Qed.

Lemma natural_one : forall fs ls l, target fs -> In l ls -> natural_ok ls (p_alias l) = true ->
  exists n, filter (fun x => String.eqb (p_alias x) (p_alias l) && active fs (p_pos x) (p_neg x)) ls = [n] /\ p_size n * p_width n = (if fs "avx2"%string then 32 else 16) /\ p_size n = p_size l.
Proof.
  intros fs ls l T Hl K. unfold natural_ok in K. rewrite filter_and.
  assert (In l (filter (fun x => String.eqb (p_alias x) (p_alias l)) ls)) as Hin by (apply filter_In; split; [exact Hl|apply String.eqb_refl]).
  destruct (filter (fun x => String.eqb (p_alias x) (p_alias l)) ls) as [|a [|b [|c [|? ?] ] ] ]; try discriminate K. unfold active. cbn [filter].
  repeat (apply andb_prop in K; let K' := fresh "K" in destruct K as [K K']).
  destruct (p_pos a) as [|f1 [|? ?] ], (p_neg a) as [|f2 [|? ?] ], (p_pos b) as [|f3 [|? ?] ], (p_neg b) as [|f4 [|? ?] ], (p_pos c) as [|? ?], (p_neg c) as [|f5 [|? ?] ]; try discriminate K.
  repeat (apply andb_prop in K; let K' := fresh "K" in destruct K as [K K']). repeat match goal with H : String.eqb _ _ = true |- _ => apply String.eqb_eq in H; subst end. repeat match goal with H : (_ =? _) = true |- _ => apply Z.eqb_eq in H end.
  assert (N : fs "avx512"%string = false) by (apply (proj2 T); cbn; tauto). cbn [forallb]. rewrite N. cbn [andb negb]. destruct (fs "avx2"%string); cbn [andb negb].
  - exists b. split; [reflexivity|split; [assumption|]]. cbn [In] in Hin. destruct Hin as [<-|[<-|[<-|[] ] ] ]; congruence.
  - exists c. split; [reflexivity|split; [assumption|]]. cbn [In] in Hin. destruct Hin as [<-|[<-|[<-|[] ] ] ]; congruence.
Qed.

Lemma c58_natural_vector : forall (fs : features) (l : packed_line), target fs -> In l x86_packed ->
  exists n, natural fs (p_alias l) = [n] /\ p_size n * p_width n = (if fs "avx2"%string then 32 else 16) /\ p_size n = p_size l.
Proof. intros fs l T Hl. exact (natural_one fs x86_packed l T Hl (proj1 (forallb_forall _ _) naturals_ok l Hl)). Qed.

Lemma scalar_columns : forallb (fun l => forallb (fun m => Bool.eqb (String.eqb (p_el m) (p_el l)) (String.eqb (p_alias m) (p_alias l))) x86_packed) x86_packed &&
  forallb (fun l => existsb (fun q => String.eqb (fst q) (p_el l) && (snd q =? p_size l)) primitive_sizes) x86_packed &&
  forallb (fun l => (length (filter (fun m => String.eqb (p_vec m) (p_vec l)) x86_packed) =? 1)%nat) x86_packed &&
  forallb (fun q => existsb (fun l => String.eqb (p_el l) (fst q)) x86_packed) primitive_sizes = true.
Proof. vm_compute. reflexivity. Qed.

Lemma c58_scalar : forall (fs : features) (l : packed_line), In l x86_packed ->
  packable fs (p_el l) = natural fs (p_alias l) /\ In (p_el l, p_size l) primitive_sizes /\
  (forall m, In m x86_packed -> p_vec m = p_vec l -> p_el m = p_el l) /\ (forall q, In q primitive_sizes -> exists m, In m x86_packed /\ p_el m = fst q).
Proof.
  intros fs l Hl. pose proof scalar_columns as C. rewrite !andb_true_iff, !forallb_forall in C. destruct C as (((C1 & C2) & C3) & C4). split; [|split; [|split]].
  - specialize (C1 l Hl). cbv beta in C1. rewrite forallb_forall in C1. unfold packable, natural. clear - C1. revert C1. generalize x86_packed as L. induction L as [|m L IH]; intros C; [reflexivity|]. cbn [filter].
    rewrite (Bool.eqb_prop _ _ (C m (or_introl eq_refl))), IH by (intros x Hx; apply C; right; exact Hx). reflexivity.
  - specialize (C2 l Hl). cbv beta in C2. apply existsb_exists in C2. destruct C2 as ([e n] & Hq & E). cbn [fst snd] in E. rewrite andb_true_iff, String.eqb_eq, Z.eqb_eq in E. destruct E as [<- <-]. exact Hq.
  - intros m Hm E. specialize (C3 l Hl). cbv beta in C3. apply Nat.eqb_eq in C3.
    assert (Hm' : In m (filter (fun m => String.eqb (p_vec m) (p_vec l)) x86_packed)) by (apply filter_In; split; [exact Hm|apply String.eqb_eq; exact E]).
    assert (Hl' : In l (filter (fun m => String.eqb (p_vec m) (p_vec l)) x86_packed)) by (apply filter_In; split; [exact Hl|apply String.eqb_refl]).
    destruct (filter _ x86_packed) as [|u [|v r]]; cbn [length] in C3; try discriminate C3. destruct Hm' as [<-|[]], Hl' as [<-|[]]. reflexivity.
  - intros q Hq. specialize (C4 q Hq). cbv beta in C4. apply existsb_exists in C4. destruct C4 as (m & Hm & E). apply String.eqb_eq in E. exists m. split; [exact Hm|exact E].
Qed.
