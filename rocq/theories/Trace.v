(** Model of src/debug.rs: the messages a build with the feature [trace] prints. *)
From Coq Require Import String.
From Verif Require Import Base.
Open Scope list_scope.

(** A thread that runs the macro is [Ready] before and after it, and [Logged m] between the
    line of the log file (debug.rs:47) and the [println!] (48). *)
Inductive phase := Ready | Logged (m : string).

(** [seen t] is [OUTPUT_GUARD] of thread [t] (debug.rs:6-11), a set; [log] the lines of the
    debug file and [printed] those of the standard output, each with the thread that wrote
    it, which the text does not show. *)
Record tracing := mkTracing { seen : nat -> list string; doing : nat -> phase; log : list (nat * string); printed : list (nat * string) }.
(** Before any traced code runs: an empty set in every thread (debug.rs:10). *)
Definition start : tracing := mkTracing (fun _ => []) (fun _ => Ready) [] [].

(** What one thread does between two switches.  [Call t m ok]: debug.rs:37-47, where [ok]
    says whether the file can be opened and written (14-30; errors are dropped by [ok()] in
    line 28).  [Print t ok]: debug.rs:48-51, where [println!] panics when the output is
    closed; the borrow of the guard ends then, without the [insert] of line 50.
    Simplified: a line is written as a whole or not at all. *)
Inductive action := Call (t : nat) (m : string) (ok : bool) | Print (t : nat) (ok : bool).

(** Writing the thread-local variable of thread [t] (debug.rs:39). *)
Definition at_thread {A : Type} (f : nat -> A) (t : nat) (x : A) : nat -> A := fun u => if Nat.eqb u t then x else f u.

(** debug.rs:35-53 [debug_output_once!]; [None] when the thread is not at that point. *)
Definition step (w : tracing) (a : action) : option tracing :=
  match a with
  | Call t m ok =>
      match doing w t with
      | Ready => if existsb (String.eqb m) (seen w t) then Some w
                 else Some (mkTracing (seen w) (at_thread (doing w) t (Logged m)) (if ok then log w ++ [(t, m)] else log w) (printed w))
      | Logged _ => None
      end
  | Print t ok =>
      match doing w t with
      | Logged m => if ok then Some (mkTracing (at_thread (seen w) t (m :: seen w t)) (at_thread (doing w) t Ready) (log w) (printed w ++ [(t, m)]))
                    else Some (mkTracing (seen w) (at_thread (doing w) t Ready) (log w) (printed w))
      | Ready => None
      end
  end.

(** A schedule of all threads.
    debug.rs:35-53, run by several threads. *)
Fixpoint steps (w : tracing) (s : list action) : option tracing :=
  match s with
  | [] => Some w
  | a :: s' => match step w a with Some w' => steps w' s' | None => None end
  end.
