(** Specification of the trace messages, independent of the model's steps. *)
From Coq Require Import String.
From Verif Require Import Base Trace.
Open Scope list_scope.

(** The list without the repetitions of earlier entries. *)
Fixpoint first_occurrences (l : list string) : list string :=
  match l with
  | [] => []
  | m :: r => m :: filter (fun x => negb (String.eqb x m)) (first_occurrences r)
  end.

(** The messages of the code thread [t] runs, in order, and the lines it wrote. *)
Definition calls (t : nat) (s : list action) : list string := flat_map (fun a => match a with Call u m _ => if Nat.eqb u t then [m] else [] | Print _ _ => [] end) s.
Definition lines (t : nat) (o : list (nat * string)) : list string := map snd (filter (fun p => Nat.eqb (fst p) t) o).

(** No [println!] of thread [t] fails; no line of it fails to get into the file. *)
Definition output_works (t : nat) (s : list action) : Prop := ~ In (Print t false) s.
Definition file_works (t : nat) (s : list action) : Prop := forall m, ~ In (Call t m false) s.
