(** Model of closures that widen vectors of [f32] or [i32] to [f64], compute and narrow the
    result to [f32]. *)
From Coq Require Import String.
From Verif Require Import Base GateTables GateSpec Gates Vecs Lanes OpTables PortTables Ports Builds ExprSpec Exprs Widens Portables WidePorts.
Open Scope list_scope.
Open Scope Z_scope.

Section Doubles.
Variable fs : features.
Variable tie : bool.
Variable fop : arith -> elty -> Z -> Z -> Z.
Variable fsqrt : elty -> Z -> Z.
Variable narrow : Z -> Z.

(** benches/usage.rs:257-261 with [f64] as the wide type: [x(aa, ba, ..).saturating_downcast(x(ab, bb, ..))]
    for a closure [x] of the language of ExprSpec.v.  [e] is the element type of the slices:
    src/arch/x86/intrin/upcast.rs:321-358,403-470 [Upcast<f64x2>], [Upcast<f64x4>];
    src/arch/x86/intrin/downcast.rs:61-70,343-356 [Downcast<f32x4> for f64x2], [Downcast<f32x8> for f64x4]. *)
Definition doubled_in (e : elty) (x : expr) (args : list (list Z)) : option (outcome (list Z)) :=
  match natural_of fs e, natural_of fs EF64, natural_of fs EF32 with
  | Some l, Some lw, Some lo =>
    andthen (upcast_all fs narrow (p_vec l) (p_vec lw) args) (fun h =>
    andthen (run fs tie fop fsqrt narrow EF64 (length args) x (fst h)) (fun a =>
    andthen (run fs tie fop fsqrt narrow EF64 (length args) x (snd h)) (fun b =>
    andthen (downcast_in fs narrow (p_vec lw) (p_vec lo) [a; b]) (fun r =>
    match r with [v] => Some (Ok v) | _ => None end))))
  | _, _, _ => None
  end.

(** The same on the portable back-end: src/arch/unknown/intrin/upcast.rs:204-223,244-271,
    src/arch/unknown/intrin/downcast.rs:45-53,261-273. *)
Definition portable_doubled (c : config) (e : elty) (x : expr) (args : list (list Z)) : option (outcome (list Z)) :=
  match portable_of fs e, portable_of fs EF64, portable_of fs EF32 with
  | Some l, Some lw, Some lo =>
    andthen (portable_upcast_all narrow (p_vec l) (p_vec lw) args) (fun h =>
    andthen (portable_run fs c tie fop fsqrt narrow EF64 (length args) x (fst h)) (fun a =>
    andthen (portable_run fs c tie fop fsqrt narrow EF64 (length args) x (snd h)) (fun b =>
    andthen (portable_port narrow unknown_downcast (p_vec lw) (p_vec lo) [a; b]) (fun r =>
    match r with [v] => Some (Ok v) | _ => None end))))
  | _, _, _ => None
  end.
End Doubles.
