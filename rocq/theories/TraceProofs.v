(** Proofs of the properties: messages of a traced build (C87). *)
From Coq Require Import String.
From Verif Require Import Base Trace TraceSpec.
Open Scope list_scope.
From Coq Require Import Lia ZifyBool ZifyNat.

Definition has (m : string) (l : list string) : bool := existsb (String.eqb m) l.

Lemma has_in : forall m l, has m l = true <-> In m l.
Proof. intros m l. unfold has. rewrite existsb_exists. split; [intros (x & H & E); apply String.eqb_eq in E; subst; exact H|intros H; exists m; split; [exact H|apply String.eqb_refl]]. Qed.

Lemma has_not : forall m l, has m l = false <-> ~ In m l.
Proof. intros m l. rewrite <- has_in. destruct (has m l); split; intros H; congruence. Qed.

Lemma first_in : forall l m, In m (first_occurrences l) <-> In m l.
Proof.
  induction l as [|x l IH]; intros m; [reflexivity|]. cbn [first_occurrences In]. rewrite filter_In, IH. destruct (String.eqb_spec m x) as [E|N]; [subst; tauto|cbn [negb]; tauto].
Qed.

Lemma filter_snoc : forall (A : Type) (p : A -> bool) l x, filter p (l ++ [x]) = filter p l ++ (if p x then [x] else []).
Proof. intros A p l x. rewrite filter_app. cbn [filter]. destruct (p x); reflexivity. Qed.

Lemma first_snoc : forall l m, first_occurrences (l ++ [m]) = if has m l then first_occurrences l else first_occurrences l ++ [m].
Proof.
  induction l as [|x l IH]; intros m; [reflexivity|]. cbn [app first_occurrences]. rewrite IH. unfold has in *. cbn [existsb]. destruct (existsb (String.eqb m) l) eqn:E.
  - rewrite orb_true_r. reflexivity.
  - rewrite orb_false_r, filter_snoc. destruct (String.eqb m x); cbn [negb]; [rewrite app_nil_r|]; reflexivity.
Qed.

Lemma lines_snoc : forall t o u m, lines t (o ++ [(u, m)]) = lines t o ++ (if Nat.eqb u t then [m] else []).
Proof. intros t o u m. unfold lines. rewrite filter_snoc, map_app. cbn [fst]. destruct (Nat.eqb u t); reflexivity. Qed.

Lemma calls_snoc : forall t s a, calls t (s ++ [a]) = calls t s ++ match a with Call u m _ => if Nat.eqb u t then [m] else [] | Print _ _ => [] end.
Proof. intros t s a. unfold calls. rewrite flat_map_app. cbn [flat_map]. rewrite app_nil_r. reflexivity. Qed.

Lemma steps_snoc : forall s w a v, steps w (s ++ [a]) = Some v -> exists u, steps w s = Some u /\ step u a = Some v.
Proof.
  induction s as [|b s IH]; intros w a v H; cbn [app steps] in *.
  - exists w. split; [reflexivity|]. destruct (step w a); exact H.
  - destruct (step w b) as [x|]; [|discriminate]. apply IH. exact H.
Qed.

(** What thread [t] still has to print. *)

Definition pending (w : tracing) (t : nat) : list string := match doing w t with Ready => [] | Logged m => [m] end.

Lemma at_same : forall (A : Type) (f : nat -> A) t x, at_thread f t x t = x.
Proof. intros A f t x. unfold at_thread. rewrite Nat.eqb_refl. reflexivity. Qed.

Lemma at_other : forall (A : Type) (f : nat -> A) t x u, Nat.eqb t u = false -> at_thread f t x u = f u.
Proof. intros A f t x u H. unfold at_thread. rewrite Nat.eqb_sym, H. reflexivity. Qed.

(** Every schedule: what a thread has printed is what its guard holds, once each. *)

Definition guarded (w : tracing) : Prop := forall t, (forall m, In m (lines t (printed w)) <-> In m (seen w t)) /\ NoDup (lines t (printed w)) /\ (forall m, doing w t = Logged m -> ~ In m (seen w t)).

Lemma nodup_snoc : forall (A : Type) (l : list A) x, NoDup l -> ~ In x l -> NoDup (l ++ [x]).
Proof. intros A l x H N. apply NoDup_rev in H. rewrite <- (rev_involutive (l ++ [x])), rev_app_distr. apply NoDup_rev. cbn. constructor; [rewrite <- in_rev; exact N|exact H]. Qed.

Lemma guarded_step : forall w a v, guarded w -> step w a = Some v -> guarded v.
Proof.
  intros w a v G H t. destruct (G t) as (G1 & G2 & G3). destruct a as [u m ok|u ok]; cbn [step] in H; destruct (doing w u) as [|k] eqn:Du; try discriminate H.
  - destruct (existsb (String.eqb m) (seen w u)) eqn:E; injection H as <-; [exact (G t)|]. cbn [seen doing printed]. split; [exact G1|]. split; [exact G2|]. intros n Hn. destruct (Nat.eqb u t) eqn:Eu.
    + apply Nat.eqb_eq in Eu. subst u. rewrite at_same in Hn. injection Hn as <-. apply has_not. exact E.
    + rewrite at_other in Hn by exact Eu. apply G3. exact Hn.
  - destruct ok; injection H as <-; cbn [seen doing printed].
    + rewrite lines_snoc. destruct (Nat.eqb u t) eqn:Eu.
      * apply Nat.eqb_eq in Eu. subst u. rewrite !at_same. split; [intros n; rewrite in_app_iff, G1; cbn [In]; tauto|]. split; [apply nodup_snoc; [exact G2|rewrite G1; apply G3; exact Du]|discriminate].
      * rewrite !at_other by exact Eu. rewrite app_nil_r. exact (G t).
    + split; [exact G1|]. split; [exact G2|]. intros n Hn. destruct (Nat.eqb u t) eqn:Eu; [apply Nat.eqb_eq in Eu; subst u; rewrite at_same in Hn; discriminate|rewrite at_other in Hn by exact Eu; apply G3; exact Hn].
Qed.

Lemma guarded_steps : forall s w v, guarded w -> steps w s = Some v -> guarded v.
Proof. induction s as [|a s IH]; intros w v G H; cbn [steps] in H; [injection H as <-; exact G|]. destruct (step w a) as [x|] eqn:E; [|discriminate]. apply (IH x); [apply (guarded_step w a); assumption|exact H]. Qed.

Lemma guarded_start : guarded start.
Proof. intros t. split; [intros m; reflexivity|]. split; [constructor|discriminate]. Qed.

Lemma c87_printed : forall (s : list action) (w : tracing) (t : nat), steps start s = Some w -> output_works t s -> doing w t = Ready -> lines t (printed w) = first_occurrences (calls t s).
Proof.
  intros s w t H Hw Hd. assert (G : first_occurrences (calls t s) = lines t (printed w) ++ pending w t); [|rewrite G; unfold pending; rewrite Hd, app_nil_r; reflexivity].
  clear Hd. revert w H. induction s as [|a s IH] using rev_ind; intros w H; [injection H as <-; reflexivity|].
  apply steps_snoc in H. destruct H as (x & H1 & H2). assert (Hw' : output_works t s) by (intros I; apply Hw; apply in_or_app; left; exact I). specialize (IH Hw' x H1). rewrite calls_snoc.
  pose proof (guarded_steps s start x guarded_start H1 t) as (G1 & _ & _).
  destruct a as [u m ok|u ok]; cbn [step] in H2; destruct (doing x u) as [|k] eqn:Du; try discriminate H2.
  - destruct (Nat.eqb u t) eqn:Eu.
    + apply Nat.eqb_eq in Eu. subst u. unfold pending in IH. rewrite Du, app_nil_r in IH. rewrite first_snoc. assert (Eq : has m (calls t s) = existsb (String.eqb m) (seen x t)).
      { change (existsb (String.eqb m) (seen x t)) with (has m (seen x t)). apply eq_true_iff_eq. rewrite !has_in, <- G1, <- IH, first_in. reflexivity. }
      rewrite Eq. destruct (existsb (String.eqb m) (seen x t)); injection H2 as <-; unfold pending; cbn [doing printed]; [rewrite Du, app_nil_r; exact IH|rewrite at_same, IH; reflexivity].
    + rewrite app_nil_r, IH. destruct (existsb (String.eqb m) (seen x u)); injection H2 as <-; [reflexivity|]. unfold pending. cbn [doing printed]. rewrite at_other by exact Eu. reflexivity.
  - rewrite app_nil_r, IH. destruct ok.
    + injection H2 as <-. unfold pending. cbn [doing printed]. rewrite lines_snoc. destruct (Nat.eqb u t) eqn:Eu; [apply Nat.eqb_eq in Eu; subst u; rewrite Du, at_same, app_nil_r; reflexivity|rewrite at_other, app_nil_r by exact Eu; reflexivity].
    + destruct (Nat.eqb u t) eqn:Eu; [exfalso; apply Hw; apply Nat.eqb_eq in Eu; subst u; apply in_or_app; right; left; reflexivity|]. injection H2 as <-. unfold pending. cbn [doing printed]. rewrite at_other by exact Eu. reflexivity.
Qed.

Lemma c87_logged : forall (s : list action) (w : tracing) (t : nat), steps start s = Some w -> output_works t s -> file_works t s -> lines t (log w) = first_occurrences (calls t s).
Proof.
  induction s as [|a s IH] using rev_ind; intros w t H Hw Hf; [injection H as <-; reflexivity|].
  apply steps_snoc in H. destruct H as (x & H1 & H2). assert (Hw' : output_works t s) by (intros I; apply Hw; apply in_or_app; left; exact I). assert (Hf' : file_works t s) by (intros n I; apply (Hf n); apply in_or_app; left; exact I).
  specialize (IH x t H1 Hw' Hf'). rewrite calls_snoc. pose proof (guarded_steps s start x guarded_start H1 t) as (G1 & _ & _).
  destruct a as [u m ok|u ok]; cbn [step] in H2; destruct (doing x u) as [|k] eqn:Du; try discriminate H2.
  - destruct (Nat.eqb u t) eqn:Eu.
    + apply Nat.eqb_eq in Eu. subst u. pose proof (c87_printed s x t H1 Hw' Du) as Pr. rewrite first_snoc. assert (Eq : has m (calls t s) = existsb (String.eqb m) (seen x t)).
      { change (existsb (String.eqb m) (seen x t)) with (has m (seen x t)). apply eq_true_iff_eq. rewrite !has_in, <- G1, Pr, first_in. reflexivity. }
      rewrite Eq. destruct (existsb (String.eqb m) (seen x t)); injection H2 as <-; [exact IH|]. cbn [log]. destruct ok; [rewrite lines_snoc, Nat.eqb_refl, IH; reflexivity|exfalso; apply (Hf m); apply in_or_app; right; left; reflexivity].
    + rewrite app_nil_r. destruct (existsb (String.eqb m) (seen x u)); injection H2 as <-; [exact IH|]. cbn [log]. destruct ok; [rewrite lines_snoc, Eu, app_nil_r|]; exact IH.
  - rewrite app_nil_r. destruct ok; injection H2 as <-; exact IH.
Qed.

Lemma lines_one : forall o t m, In m (lines t o) <-> In (t, m) o.
Proof.
  intros o t m. unfold lines. rewrite in_map_iff. split.
  - intros ((u, n) & E & H). apply filter_In in H. destruct H as [H1 H2]. cbn in *. apply Nat.eqb_eq in H2. subst. exact H1.
  - intros H. exists (t, m). split; [reflexivity|]. apply filter_In. split; [exact H|apply Nat.eqb_refl].
Qed.

Lemma nodup_pairs : forall o, (forall t, NoDup (lines t o)) -> NoDup o.
Proof.
  induction o as [|(t, m) o IH]; intros H; constructor.
  - specialize (H t). unfold lines in H. cbn [filter fst] in H. rewrite Nat.eqb_refl in H. cbn [map snd] in H. apply NoDup_cons_iff in H. destruct H as [H _]. rewrite <- lines_one. exact H.
  - apply IH. intros u. specialize (H u). unfold lines in *. cbn [filter fst] in H. destruct (Nat.eqb t u); [cbn [map] in H; apply NoDup_cons_iff in H; apply H|exact H].
Qed.

Lemma count_threads : forall o (ts : list nat) m, NoDup o -> (forall t n, In (t, n) o -> In t ts) -> (count_occ string_dec (map snd o) m <= length ts)%nat.
Proof.
  intros o ts m N I. assert (E : count_occ string_dec (map snd o) m = length (map fst (filter (fun p => String.eqb (snd p) m) o))).
  { clear. induction o as [|(t, n) o IH]; [reflexivity|]. cbn [map snd count_occ filter]. destruct (string_dec n m) as [E|E]; [subst n; rewrite String.eqb_refl; cbn [map length]; f_equal; exact IH|]. apply String.eqb_neq in E. rewrite E. exact IH. }
  rewrite E. apply NoDup_incl_length.
  - clear -N. induction N as [|(t, n) o Hn N IH]; [constructor|]. cbn [filter snd]. destruct (String.eqb n m) eqn:E; [|exact IH]. apply String.eqb_eq in E. subst n. cbn [map fst]. constructor; [|exact IH]. rewrite in_map_iff. intros ((u, n) & E & H). apply filter_In in H. destruct H as [H1 H2]. cbn in *. apply String.eqb_eq in H2. subst. contradiction.
  - intros t H. apply in_map_iff in H. destruct H as ((u, n) & E2 & H). apply filter_In in H. cbn in E2. subst u. apply (I t n). apply H.
Qed.

Lemma c87_once : forall (s : list action) (w : tracing) (ts : list nat), steps start s = Some w -> (forall t m ok, In (Call t m ok) s -> In t ts) ->
  (forall t, NoDup (lines t (printed w))) /\ (forall t m, In m (lines t (printed w)) -> In m (calls t s)) /\
  forall m, (count_occ string_dec (map snd (printed w)) m <= length ts)%nat.
Proof.
  intros s w ts H I. pose proof (guarded_steps s start w guarded_start H) as G. split; [intros t; apply (G t)|].
  assert (C : forall t m, In m (lines t (printed w)) \/ In m (pending w t) -> In m (calls t s)).
  { clear I G. revert w H. induction s as [|a s IH] using rev_ind; intros w H t m Hm; [injection H as <-; destruct Hm as [Hm|Hm]; destruct Hm|].
    apply steps_snoc in H. destruct H as (x & H1 & H2). specialize (IH x H1 t m). rewrite calls_snoc, in_app_iff. destruct a as [u n ok|u ok]; cbn [step] in H2; destruct (doing x u) as [|k] eqn:Du; try discriminate H2.
    - destruct (existsb (String.eqb n) (seen x u)); injection H2 as <-; [left; apply IH; exact Hm|]. unfold pending in *. cbn [doing printed] in Hm. destruct (Nat.eqb u t) eqn:Eu; [apply Nat.eqb_eq in Eu; subst u; rewrite at_same in Hm; rewrite Du in IH|rewrite at_other in Hm by exact Eu]; tauto.
    - left. apply IH. unfold pending in *. destruct ok; injection H2 as <-; cbn [doing printed] in Hm; [rewrite lines_snoc, in_app_iff in Hm|]; destruct (Nat.eqb u t) eqn:Eu; first [apply Nat.eqb_eq in Eu; subst u; rewrite at_same in Hm; rewrite Du|rewrite at_other in Hm by exact Eu]; cbn [In] in *; tauto. }
  split; [intros t m Hm; apply C; left; exact Hm|]. intros m. apply count_threads; [apply nodup_pairs; intros t; apply (G t)|].
  intros t n Hn. apply lines_one in Hn. specialize (C t n (or_introl Hn)). unfold calls in C. apply in_flat_map in C. destruct C as (a & A1 & A2). destruct a as [u k ok|u ok]; [|destruct A2]. destruct (Nat.eqb u t) eqn:Eu; [|destruct A2]. apply Nat.eqb_eq in Eu. subst u. apply (I t k ok). exact A1.
Qed.

Lemma c87_log_after_failure : forall (t : nat) (m : string), let s := [Call t m true; Print t false; Call t m true; Print t true] in
  exists w, steps start s = Some w /\ lines t (log w) = [m; m] /\ lines t (printed w) = [m].
Proof.
  intros t m s. eexists. split; [unfold s; cbn [steps step start doing seen existsb log printed app]; rewrite at_same; cbn [doing seen existsb log printed app]; rewrite at_same; cbn [doing seen existsb log printed app]; rewrite at_same; reflexivity|]. unfold lines. cbn [log printed app filter fst]. rewrite Nat.eqb_refl. split; reflexivity.
Qed.
