(** Proofs of the properties: which operations exist for which vectors (C45, C57, C65, C66). *)
From Coq Require Import String.
From Verif Require Import Base TransTables GateTables GateSpec Gates AvailSpec Avail.
From Verif Require Import GateProofs.
Open Scope Z_scope.

Definition meth_eqb (a b : meth) : bool :=
  String.eqb (fst (fst a)) (fst (fst b)) && String.eqb (snd (fst a)) (snd (fst b)) && String.eqb (snd a) (snd b).

Lemma meth_eqb_eq : forall a b, meth_eqb a b = true <-> a = b.
Proof.
  intros [ [a1 a2] a3] [ [b1 b2] b3]. unfold meth_eqb. cbn [fst snd]. rewrite !Bool.andb_true_iff, !String.eqb_eq. split; [intros [ [-> ->] ->]; reflexivity|intros H; injection H as -> -> ->; repeat split].
Qed.

Definition has (l : list meth) (m : meth) : bool := existsb (meth_eqb m) l.

Lemma has_In : forall l m, has l m = true <-> In m l.
Proof.
  intros l m. unfold has. rewrite existsb_exists. split; [intros (x & Hx & E); apply meth_eqb_eq in E; subst x; exact Hx|intros H; exists m; split; [exact H|apply meth_eqb_eq; reflexivity]].
Qed.

Lemma has_not_In : forall l m, has l m = false -> ~ In m l.
Proof. intros l m H K. apply has_In in K. congruence. Qed.

Fixpoint distinct (l : list meth) : bool :=
  match l with [] => true | m :: l' => negb (has l' m) && distinct l' end.

Lemma distinct_NoDup : forall l, distinct l = true -> NoDup l.
Proof.
  induction l as [|m l IH]; intros H; [constructor|]. cbn [distinct] in H. apply andb_prop in H. destruct H as [H1 H2]. apply Bool.negb_true_iff in H1. constructor; [apply has_not_In; exact H1|apply IH; exact H2].
Qed.

Lemma c57_methods_once : NoDup x86_methods /\ NoDup unknown_methods.
Proof. split; apply distinct_NoDup; vm_compute; reflexivity. Qed.

Definition gated_meth (g : gated) : meth := (g_trait g, g_fn g, g_vec g).

Definition gated_has (m : meth) : bool := existsb (fun g => meth_eqb m (gated_meth g)) x86_gated.

Lemma gated_has_iff : forall m, gated_has m = true <-> exists g, In g x86_gated /\ gated_meth g = m.
Proof.
  intros m. unfold gated_has. rewrite existsb_exists. split; intros (g & Hg & E); exists g; (split; [exact Hg|]).
  - apply meth_eqb_eq in E. symmetry. exact E.
  - apply meth_eqb_eq. symmetry. exact E.
Qed.

Definition sizes : list Z := [16; 32; 64].

Definition check (p : scalar -> Z -> string -> string -> (scalar -> bool) -> bool) : bool :=
  forallb (fun s => forallb (fun b => forallb (fun o => p s b (fst (fst o)) (snd (fst o)) (snd o)) operations) sizes) scalars.

Lemma checked : forall p, check p = true -> forall s b tr fn dom, In s scalars -> In b sizes -> In (tr, fn, dom) operations -> p s b tr fn dom = true.
Proof.
  intros p H s b tr fn dom Hs Hb Ho. unfold check in H. pose proof (proj1 (forallb_forall _ _) H s Hs) as H1. pose proof (proj1 (forallb_forall _ _) H1 b Hb) as H2. exact (proj1 (forallb_forall _ _) H2 (tr, fn, dom) Ho).
Qed.

Lemma same_tables : check (fun s b tr fn _ => Bool.eqb (has x86_methods (tr, fn, vector_name s b)) (gated_has (tr, fn, vector_name s b))) = true.
Proof. vm_compute. reflexivity. Qed.

Lemma domain_tables : check (fun s b tr fn dom => (b =? 64) || Bool.eqb (has x86_methods (tr, fn, vector_name s b)) (dom s && negb (missing tr s))) = true.
Proof. vm_compute. reflexivity. Qed.

Lemma c57_same_methods : forall (s : scalar) (bytes : Z) (trait method : string) (dom : scalar -> bool), In s scalars -> bytes = 16 \/ bytes = 32 \/ bytes = 64 -> In (trait, method, dom) operations ->
  (In (trait, method, vector_name s bytes) x86_methods <-> exists g, In g x86_gated /\ g_trait g = trait /\ g_fn g = method /\ g_vec g = vector_name s bytes).
Proof.
  intros s b tr fn dom Hs Hb Ho. assert (B : In b sizes) by (unfold sizes; cbn [In]; intuition congruence). pose proof (checked _ same_tables s b tr fn dom Hs B Ho) as K. cbv beta in K. apply Bool.eqb_prop in K. rewrite <- has_In, K, gated_has_iff. unfold gated_meth. split; intros (g & Hg & E); exists g; (split; [exact Hg|]).
  - injection E as -> -> ->. repeat split.
  - destruct E as (-> & -> & ->). reflexivity.
Qed.

Lemma one_definition_in : forall fs l g, method_ok l g = true -> exists d, In d l /\ same_method g d = true /\ compiled fs d = true.
Proof.
  intros fs l g K. destruct (one_definition fs l g K) as (d & D1 & D2 & D3). exists d. split; [|split; assumption].
  assert (Hd : In d (filter (fun h => same_method g h && compiled fs h) l)) by (rewrite D1; left; reflexivity). apply filter_In in Hd. exact (proj1 Hd).
Qed.

Definition natural_names : bool :=
  forallb (fun s =>
    match filter (fun l => String.eqb (p_alias l) (alias s)) x86_packed with
    | [a; b; c] =>
      match p_pos a, p_neg a, p_pos b, p_neg b, p_pos c, p_neg c with
      | [f1], [f2], [f3], [f4], [], [f5] => String.eqb f1 "avx512" && String.eqb f2 "avx1024" && String.eqb f3 "avx2" && String.eqb f4 "avx512" && String.eqb f5 "avx2"
      | _, _, _, _, _, _ => false
      end && String.eqb (p_vec b) (vector_name s 32) && String.eqb (p_vec c) (vector_name s 16)
    | _ => false
    end) scalars.

Lemma natural_names_ok : natural_names = true.
Proof. vm_compute. reflexivity. Qed.

Lemma natural_name : forall fs s, target fs -> In s scalars -> exists n, natural fs (alias s) = [n] /\ p_vec n = vector_name s (if fs "avx2"%string then 32 else 16).
Proof.
  intros fs s T Hs. pose proof (proj1 (forallb_forall _ _) natural_names_ok s Hs) as K. cbv beta in K. unfold natural. rewrite filter_and.
  destruct (filter _ x86_packed) as [|a [|b [|c [|? ?] ] ] ]; try discriminate K. unfold active. cbn [filter].
  apply andb_prop in K. destruct K as [K K3]. apply andb_prop in K. destruct K as [K K2]. apply String.eqb_eq in K2, K3.
  destruct (p_pos a) as [|f1 [|? ?] ]; try discriminate K. destruct (p_neg a) as [|f2 [|? ?] ]; try discriminate K. destruct (p_pos b) as [|f3 [|? ?] ]; try discriminate K. destruct (p_neg b) as [|f4 [|? ?] ]; try discriminate K. destruct (p_pos c) as [|? ?]; try discriminate K. destruct (p_neg c) as [|f5 [|? ?] ]; try discriminate K.
  rewrite !Bool.andb_true_iff, !String.eqb_eq in K. destruct K as [ [ [ [-> ->] ->] ->] ->]. cbn [forallb]. rewrite (proj2 T "avx512"%string) by (left; reflexivity). cbn [andb negb]. rewrite !Bool.andb_true_r.
  destruct (fs "avx2"%string); cbn [negb]; [exists b|exists c]; (split; [reflexivity|assumption]).
Qed.

Lemma c65_natural_partial : forall (fs : features) (s : scalar) (trait method : string) (dom : scalar -> bool), target fs -> In s scalars -> In (trait, method, dom) operations -> dom s = true -> missing trait s = false ->
  exists n d, natural fs (alias s) = [n] /\ In d x86_gated /\ g_trait d = trait /\ g_fn d = method /\ g_vec d = p_vec n /\ compiled fs d = true /\ In (trait, method, p_vec n) x86_methods.
Proof.
  intros fs s tr fn dom T Hs Ho Hd Hm. destruct (natural_name fs s T Hs) as (n & En & Ep). exists n. set (b := if fs "avx2"%string then 32 else 16) in *.
  assert (B : In b sizes) by (unfold b, sizes; cbn [In]; destruct (fs "avx2"%string); tauto). assert (N : (b =? 64) = false) by (unfold b; destruct (fs "avx2"%string); reflexivity).
  pose proof (checked _ domain_tables s b tr fn dom Hs B Ho) as K. cbv beta in K. rewrite N, Hd, Hm in K. cbn [orb andb negb] in K. apply Bool.eqb_prop in K. assert (I := K). apply has_In in I.
  pose proof (checked _ same_tables s b tr fn dom Hs B Ho) as G. cbv beta in G. apply Bool.eqb_prop in G. rewrite K in G. symmetry in G. apply gated_has_iff in G. destruct G as (g & Hg & Eg). unfold gated_meth in Eg. injection Eg as <- <- Ev.
  destruct (one_definition_in fs x86_gated g (proj1 (forallb_forall _ _) methods_ok g Hg)) as (d & D1 & D2 & D3). exists d. unfold same_method in D2. rewrite !Bool.andb_true_iff, !String.eqb_eq in D2. destruct D2 as [ [D4 D5] D6]. rewrite Ep.
  split; [exact En|]. split; [exact D1|]. split; [symmetry; exact D4|]. split; [symmetry; exact D6|]. split; [rewrite <- D5; exact Ev|]. split; [exact D3|exact I].
Qed.

Lemma c65_natural_refuted : forall (fs : features) (s : scalar) (trait method : string) (dom : scalar -> bool), target fs -> In s scalars -> In (trait, method, dom) operations -> missing trait s = true ->
  exists n, natural fs (alias s) = [n] /\ ~ In (trait, method, p_vec n) x86_methods /\ forall d, In d x86_gated -> ~ (g_trait d = trait /\ g_fn d = method /\ g_vec d = p_vec n).
Proof.
  intros fs s tr fn dom T Hs Ho Hm. destruct (natural_name fs s T Hs) as (n & En & Ep). exists n. set (b := if fs "avx2"%string then 32 else 16) in *.
  assert (B : In b sizes) by (unfold b, sizes; cbn [In]; destruct (fs "avx2"%string); tauto). assert (N : (b =? 64) = false) by (unfold b; destruct (fs "avx2"%string); reflexivity).
  pose proof (checked _ domain_tables s b tr fn dom Hs B Ho) as K. cbv beta in K. rewrite N, Hm in K. cbn [orb andb negb] in K. rewrite Bool.andb_false_r in K. apply Bool.eqb_prop in K.
  pose proof (checked _ same_tables s b tr fn dom Hs B Ho) as G. cbv beta in G. apply Bool.eqb_prop in G. rewrite K in G. symmetry in G. rewrite Ep. split; [exact En|]. split; [apply has_not_In; exact K|].
  intros d Hd (E1 & E2 & E3). assert (X : gated_has (tr, fn, vector_name s b) = true) by (apply gated_has_iff; exists d; split; [exact Hd|]; unfold gated_meth; congruence). congruence.
Qed.

Lemma c65_nothing_else : forall (fs : features) (s : scalar) (trait method : string) (dom : scalar -> bool), target fs -> In s scalars -> In (trait, method, dom) operations -> dom s = false ->
  exists n, natural fs (alias s) = [n] /\ ~ In (trait, method, p_vec n) x86_methods.
Proof.
  intros fs s tr fn dom T Hs Ho Hd. destruct (natural_name fs s T Hs) as (n & En & Ep). exists n. set (b := if fs "avx2"%string then 32 else 16) in *.
  assert (B : In b sizes) by (unfold b, sizes; cbn [In]; destruct (fs "avx2"%string); tauto). assert (N : (b =? 64) = false) by (unfold b; destruct (fs "avx2"%string); reflexivity).
  pose proof (checked _ domain_tables s b tr fn dom Hs B Ho) as K. cbv beta in K. rewrite N, Hd in K. cbn [orb andb] in K. apply Bool.eqb_prop in K. rewrite Ep. split; [exact En|]. apply has_not_In. exact K.
Qed.

Lemma portable_tables : forallb (fun s => forallb (fun o => let m := (fst (fst o), snd (fst o), vector_name s 16) in Bool.eqb (negb (one_sided (fst (fst o)) s)) (Bool.eqb (has x86_methods m) (has unknown_methods m))) operations) scalars = true.
Proof. vm_compute. reflexivity. Qed.

Lemma c66_portable_partial : forall (s : scalar) (trait method : string) (dom : scalar -> bool), In s scalars -> In (trait, method, dom) operations -> one_sided trait s = false ->
  (In (trait, method, vector_name s 16) x86_methods <-> In (trait, method, vector_name s 16) unknown_methods).
Proof.
  intros s tr fn dom Hs Ho Hn. pose proof (proj1 (forallb_forall _ _) (proj1 (forallb_forall _ _) portable_tables s Hs) (tr, fn, dom) Ho) as K. cbv beta zeta in K. cbn [fst snd] in K. rewrite Hn in K. cbn [negb] in K. apply Bool.eqb_prop in K. symmetry in K. apply Bool.eqb_prop in K. rewrite <- !has_In, K. reflexivity.
Qed.

Lemma c66_portable_refuted : forall (s : scalar) (trait method : string) (dom : scalar -> bool), In s scalars -> In (trait, method, dom) operations -> one_sided trait s = true ->
  ~ (In (trait, method, vector_name s 16) x86_methods <-> In (trait, method, vector_name s 16) unknown_methods).
Proof.
  intros s tr fn dom Hs Ho Hn. pose proof (proj1 (forallb_forall _ _) (proj1 (forallb_forall _ _) portable_tables s Hs) (tr, fn, dom) Ho) as K. cbv beta zeta in K. cbn [fst snd] in K. rewrite Hn in K. cbn [negb] in K. apply Bool.eqb_prop in K. rewrite <- !has_In.
  destruct (has x86_methods _), (has unknown_methods _); try discriminate K; intros [H1 H2]; [specialize (H1 eq_refl)|specialize (H2 eq_refl)]; congruence.
Qed.

Definition trans_ok (t : trans_impl) : bool :=
  existsb (fun b => existsb (fun s => String.eqb (tr_vec t) (vector_name s b)) scalars &&
    (length (tr_types t) =? length scalars)%nat &&
    forallb (fun s => existsb (fun p => String.eqb (fst p) (alias s) && String.eqb (snd p) (vector_name s b)) (tr_types t)) scalars) sizes.

Lemma transmutes_ok : forallb trans_ok (x86_transmute ++ unknown_transmute) = true.
Proof. vm_compute. reflexivity. Qed.

Lemma transmutes_all : forallb (fun s => forallb (fun b => (length (filter (fun t => String.eqb (tr_vec t) (vector_name s b)) x86_transmute) =? 1)%nat) sizes && (length (filter (fun t => String.eqb (tr_vec t) (vector_name s 16)) unknown_transmute) =? 1)%nat) scalars = true.
Proof. vm_compute. reflexivity. Qed.

Lemma c45_result_types : forall t : trans_impl, In t (x86_transmute ++ unknown_transmute) ->
  exists s0 bytes, In s0 scalars /\ (bytes = 16 \/ bytes = 32 \/ bytes = 64) /\ tr_vec t = vector_name s0 bytes /\
    length (tr_types t) = length scalars /\ forall s, In s scalars -> In (alias s, vector_name s bytes) (tr_types t).
Proof.
  intros t Ht. pose proof (proj1 (forallb_forall _ _) transmutes_ok t Ht) as K. unfold trans_ok in K. apply existsb_exists in K. destruct K as (b & Hb & K). apply andb_prop in K. destruct K as [K K3]. apply andb_prop in K. destruct K as [K1 K2]. apply existsb_exists in K1. destruct K1 as (s0 & Hs0 & E). apply String.eqb_eq in E. exists s0, b.
  split; [exact Hs0|]. split; [unfold sizes in Hb; cbn [In] in Hb; intuition congruence|]. split; [exact E|]. split; [apply Nat.eqb_eq; exact K2|]. intros s Hs. pose proof (proj1 (forallb_forall _ _) K3 s Hs) as X. cbv beta in X. apply existsb_exists in X. destruct X as ((p & q) & Hp & X). cbn [fst snd] in X. apply andb_prop in X. destruct X as [X1 X2]. apply String.eqb_eq in X1, X2. subst p q. exact Hp.
Qed.

Lemma c45_every_vector : forall s : scalar, In s scalars ->
  (forall bytes, bytes = 16 \/ bytes = 32 \/ bytes = 64 -> exists t, filter (fun t => String.eqb (tr_vec t) (vector_name s bytes)) x86_transmute = [t]) /\
  exists t, filter (fun t => String.eqb (tr_vec t) (vector_name s 16)) unknown_transmute = [t].
Proof.
  assert (O : forall (A : Type) (l : list A), (length l =? 1)%nat = true -> exists t, l = [t]) by (intros A [|x [|? ?] ] H; try discriminate H; exists x; reflexivity).
  intros s Hs. pose proof (proj1 (forallb_forall _ _) transmutes_all s Hs) as K. cbv beta in K. apply andb_prop in K. destruct K as [K1 K2]. split; [|apply O; exact K2]. intros b Hb. assert (B : In b sizes) by (unfold sizes; cbn [In]; intuition congruence). apply O. exact (proj1 (forallb_forall _ _) K1 b B).
Qed.
