(** Model of closures that widen their arguments, compute and narrow the result, on the
    portable back-end (src/arch/unknown, every target that is not x86). *)
From Coq Require Import String.
From Verif Require Import Base GateTables GateSpec Gates Vecs Lanes OpTables PortTables Ports ExprSpec Exprs WidenSpec Portables.
Open Scope list_scope.
Open Scope Z_scope.

Section WidePorts.
Variable fs : features.
Variable c : config.
Variable tie : bool.
Variable fop : arith -> elty -> Z -> Z -> Z.
Variable fsqrt : elty -> Z -> Z.
Variable narrow : Z -> Z.

(** The method of the vector [vec] with the result [outvec]: the impls in
    src/arch/unknown/intrin/upcast.rs and src/arch/unknown/intrin/downcast.rs. *)
Definition portable_port (table : list port_impl) (vec outvec : string) (args : list (list Z)) : option (outcome (list (list Z))) :=
  option_map (fun p => port_portable narrow p args) (find (fun p => String.eqb (pt_vec p) vec && String.eqb (pt_outvec p) outvec) table).

(** benches/usage.rs:258-259: [let (aa, ab) = a.upcast()] for every vector of the argument;
    the first and the second results. *)
Fixpoint portable_upcast_all (vec outvec : string) (args : list (list Z)) : option (outcome (list (list Z) * list (list Z))) :=
  match args with
  | [] => Some (Ok ([], []))
  | v :: args' =>
    andthen (portable_port unknown_upcast vec outvec [v]) (fun ab =>
    match ab with
    | [a; b] => andthen (portable_upcast_all vec outvec args') (fun r => Some (Ok (a :: fst r, b :: snd r)))
    | _ => None
    end)
  end.

(** benches/usage.rs:257-261: [x(aa, ba, ..).saturating_downcast(x(ab, bb, ..))] for a closure
    [x] of the language of ExprSpec.v.  [e] is the element type of the slices. *)
Definition portable_widened (e : elty) (x : expr) (args : list (list Z)) : option (outcome (list Z)) :=
  match type_of (wide e) (length args) x with
  | Some (EInt t) =>
    match portable_of fs e, portable_of fs (wide e), portable_of fs (EInt t), portable_of fs (EInt (half t)) with
    | Some l, Some lw, Some lr, Some lo =>
      andthen (portable_upcast_all (p_vec l) (p_vec lw) args) (fun h =>
      andthen (portable_run fs c tie fop fsqrt narrow (wide e) (length args) x (fst h)) (fun a =>
      andthen (portable_run fs c tie fop fsqrt narrow (wide e) (length args) x (snd h)) (fun b =>
      andthen (portable_port unknown_downcast (p_vec lr) (p_vec lo) [a; b]) (fun r =>
      match r with [v] => Some (Ok v) | _ => None end))))
    | _, _, _, _ => None
    end
  | _ => None
  end.
End WidePorts.
