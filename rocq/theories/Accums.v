(** Model of reductions whose accumulator has wider lanes than the slice: the closure
    widens the vector of the slice and folds both halves into the accumulator. *)
From Coq Require Import String.
From Verif Require Import Base GateTables GateSpec Gates Vecs Lanes OpTables PortTables Ports Builds ExprSpec Exprs WidenSpec Widens Portables WidePorts.
Open Scope list_scope.
Open Scope Z_scope.

Section Accums.
Variable fs : features.
Variable tie : bool.
Variable fop : arith -> elty -> Z -> Z -> Z.
Variable fsqrt : elty -> Z -> Z.
Variable narrow : Z -> Z.

(** The closure [|acc, v| { let (a, b) = v.upcast(); x(acc, a, b) }] of a [simd_reduce]
    (src/iters.rs:157-167) whose accumulator has the wider type; [upcast] is
    src/arch/x86/intrin/upcast.rs:16-618, and [e] is the element type of the slice. *)
Definition accumulate_in (e : elty) (x : expr) (acc v : list Z) : option (outcome (list Z)) :=
  match natural_of fs e, natural_of fs (wide e) with
  | Some l, Some lw =>
    andthen (upcast_all fs narrow (p_vec l) (p_vec lw) [v]) (fun h =>
    run fs tie fop fsqrt narrow (wide e) 3 x (acc :: fst h ++ snd h))
  | _, _ => None
  end.

(** The same closure on the portable back-end: src/arch/unknown/intrin/upcast.rs:11-386. *)
Definition portable_accumulate (c : config) (e : elty) (x : expr) (acc v : list Z) : option (outcome (list Z)) :=
  match portable_of fs e, portable_of fs (wide e) with
  | Some l, Some lw =>
    andthen (portable_upcast_all narrow (p_vec l) (p_vec lw) [v]) (fun h =>
    portable_run fs c tie fop fsqrt narrow (wide e) 3 x (acc :: fst h ++ snd h))
  | _, _ => None
  end.
End Accums.

(** [acc + a + b] and [acc + a * a + b * b], as programs that call [simd_reduce]
    (src/iters.rs:157-167) write them. *)
Definition add_halves : expr := Arith Add (Arith Add (Arg 0) (Arg 1)) (Arg 2).
Definition add_squares : expr := Arith Add (Arith Add (Arg 0) (Arith Mul (Arg 1) (Arg 1))) (Arith Mul (Arg 2) (Arg 2)).
