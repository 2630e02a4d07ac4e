(** Model of closures that compute on vectors of the slices' type, widen the results to
    [f64], compute, narrow to [f32] and compute again. *)
From Coq Require Import String.
From Verif Require Import Base GateTables GateSpec Gates Vecs Lanes OpTables PortTables Ports Builds ExprSpec Exprs Widens Portables WidePorts Doubles.
Open Scope list_scope.
Open Scope Z_scope.

Section Stages.
Variable fs : features.
Variable tie : bool.
Variable fop : arith -> elty -> Z -> Z -> Z.
Variable fsqrt : elty -> Z -> Z.
Variable narrow : Z -> Z.

(** The vectors before [upcast], one after the other: [(v * f32s(1.20))] in
    benches/usage.rs:75. *)
Fixpoint run_each (e0 : elty) (n : nat) (ps : list expr) (args : list (list Z)) : option (outcome (list (list Z))) :=
  match ps with
  | [] => Some (Ok [])
  | p :: ps => andthen (run fs tie fop fsqrt narrow e0 n p args) (fun v => andthen (run_each e0 n ps args) (fun vs => Some (Ok (v :: vs))))
  end.

(** benches/usage.rs:74-78 [high_latency]: [let (a, b) = (v * f32s(1.20)).upcast();
    (a.sqrt() * f64s(3.14..)).saturating_downcast(b.sqrt() * f64s(3.14..))].
    [ps] are the operations before [upcast], [x] those on the halves, [q] those on the
    narrowed vector (none in the benchmark). *)
Definition mixed_in (e0 e : elty) (ps : list expr) (x q : expr) (args : list (list Z)) : option (outcome (list Z)) :=
  andthen (run_each e0 (length args) ps args) (fun vs =>
  andthen (doubled_in fs tie fop fsqrt narrow e x vs) (fun v =>
  run fs tie fop fsqrt narrow EF32 1 q [v])).

(** The same on the portable back-end. src/arch/unknown/intrin, benches/usage.rs:74-78. *)
Fixpoint portable_run_each (c : config) (e0 : elty) (n : nat) (ps : list expr) (args : list (list Z)) : option (outcome (list (list Z))) :=
  match ps with
  | [] => Some (Ok [])
  | p :: ps => andthen (portable_run fs c tie fop fsqrt narrow e0 n p args) (fun v => andthen (portable_run_each c e0 n ps args) (fun vs => Some (Ok (v :: vs))))
  end.
(** benches/usage.rs:74-78 on the portable back-end. *)
Definition portable_mixed (c : config) (e0 e : elty) (ps : list expr) (x q : expr) (args : list (list Z)) : option (outcome (list Z)) :=
  andthen (portable_run_each c e0 (length args) ps args) (fun vs =>
  andthen (portable_doubled fs tie fop fsqrt narrow c e x vs) (fun v =>
  portable_run fs c tie fop fsqrt narrow EF32 1 q [v])).
End Stages.
