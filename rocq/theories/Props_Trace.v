(** Properties: messages of a traced build (C87). *)
From Coq Require Import String.
From Verif Require Import Base Trace TraceSpec.
Open Scope list_scope.
From Verif Require Import TraceProofs.

(** C87: once its last message is out, the lines a thread printed are the messages of the code it
    ran, without repetitions, in the order of their first execution, for every schedule of
    the threads and whatever happens to the debug file. *)
Theorem C87_printed : forall (s : list action) (w : tracing) (t : nat), steps start s = Some w -> output_works t s -> doing w t = Ready -> lines t (printed w) = first_occurrences (calls t s).
Proof. exact c87_printed. Qed.
Print Assumptions C87_printed.

(** C87: the same lines are in the debug file, where they are before they are printed. *)
Theorem C87_logged : forall (s : list action) (w : tracing) (t : nat), steps start s = Some w -> output_works t s -> file_works t s -> lines t (log w) = first_occurrences (calls t s).
Proof. exact c87_logged. Qed.
Print Assumptions C87_logged.

(** C87: no thread prints a line twice, even when files or outputs fail; so a message is on
    the output at most once for every thread that runs traced code, and only if that
    thread ran the code the message names. *)
Theorem C87_once : forall (s : list action) (w : tracing) (ts : list nat), steps start s = Some w -> (forall t m ok, In (Call t m ok) s -> In t ts) ->
  (forall t, NoDup (lines t (printed w))) /\ (forall t m, In m (lines t (printed w)) -> In m (calls t s)) /\
  forall m, (count_occ string_dec (map snd (printed w)) m <= length ts)%nat.
Proof. exact c87_once. Qed.
Print Assumptions C87_once.

(** C87: a message whose [println!] failed is written to the file again the next time, so the
    file can hold it twice. *)
Theorem C87_log_after_failure : forall (t : nat) (m : string), let s := [Call t m true; Print t false; Call t m true; Print t true] in
  exists w, steps start s = Some w /\ lines t (log w) = [m; m] /\ lines t (printed w) = [m].
Proof. exact c87_log_after_failure. Qed.
Print Assumptions C87_log_after_failure.

Example C87_printed_case : let s := [Call 1 "a"%string true; Call 2 "a"%string true; Print 2 true; Print 1 true; Call 1 "b"%string false; Print 1 true; Call 1 "a"%string true; Call 2 "a"%string true; Call 1 "c"%string true; Print 1 true] in
  match steps start s with
  | Some w => lines 1 (printed w) = ["a"; "b"; "c"]%string /\ lines 2 (printed w) = ["a"]%string /\ map snd (log w) = ["a"; "a"; "c"]%string /\ first_occurrences (calls 1 s) = ["a"; "b"; "c"]%string /\ doing w 1%nat = Ready
  | None => False
  end.
Proof. vm_compute. repeat split; reflexivity. Qed.

(** Two threads with the same message: each line is in the file once per thread; a failed
    [println!] of thread 2 leaves the lines of thread 1 alone. *)
Example C87_logged_case : let s := [Call 1 "a"%string true; Call 2 "a"%string true; Print 2 false; Print 1 true; Call 1 "b"%string true; Call 2 "a"%string true; Print 2 true] in
  output_works 1 s /\ file_works 1 s /\ ~ output_works 2 s /\ (forall t m ok, In (Call t m ok) s -> In t [1; 2]%nat) /\
  match steps start s with
  | Some w => lines 1 (log w) = ["a"; "b"]%string /\ lines 1 (printed w) = ["a"]%string /\ lines 2 (log w) = ["a"; "a"]%string /\ lines 2 (printed w) = ["a"]%string
  | None => False
  end.
Proof.
  cbv zeta. split; [intros H; simpl in H; intuition discriminate|]. split; [intros m H; simpl in H; intuition discriminate|]. split; [intros H; apply H; right; right; left; reflexivity|].
  split; [intros t m ok H; repeat (destruct H as [H|H]; [try discriminate; injection H as <- _ _; first [left; reflexivity|right; left; reflexivity]|]); contradiction|]. vm_compute. repeat split; reflexivity.
Qed.
