(** Model of closures that widen their arguments, compute and narrow the result, as the
    benchmark [zip_simd] does. *)
From Coq Require Import String.
From Verif Require Import Base GateTables GateSpec Gates Vecs Lanes OpTables PortTables Ports Builds ExprSpec Exprs WidenSpec.
Open Scope list_scope.
Open Scope Z_scope.

Section Widens.
Variable fs : features.
Variable tie : bool.
Variable fop : arith -> elty -> Z -> Z -> Z.
Variable fsqrt : elty -> Z -> Z.
Variable narrow : Z -> Z.

(** benches/usage.rs:258-259: [let (aa, ab) = a.upcast()] for every vector of the argument;
    the first and the second results. *)
Fixpoint upcast_all (vec outvec : string) (args : list (list Z)) : option (outcome (list (list Z) * list (list Z))) :=
  match args with
  | [] => Some (Ok ([], []))
  | v :: args' =>
    andthen (upcast_in fs narrow vec outvec [v]) (fun ab =>
    match ab with
    | [a; b] => andthen (upcast_all vec outvec args') (fun r => Some (Ok (a :: fst r, b :: snd r)))
    | _ => None
    end)
  end.

(** benches/usage.rs:257-261: [x(aa, ba, ..).saturating_downcast(x(ab, bb, ..))] for a closure
    [x] of the language of ExprSpec.v.  [e] is the element type of the slices. *)
Definition widened_in (e : elty) (x : expr) (args : list (list Z)) : option (outcome (list Z)) :=
  match type_of (wide e) (length args) x with
  | Some (EInt t) =>
    match natural_of fs e, natural_of fs (wide e), natural_of fs (EInt t), natural_of fs (EInt (half t)) with
    | Some l, Some lw, Some lr, Some lo =>
      andthen (upcast_all (p_vec l) (p_vec lw) args) (fun h =>
      andthen (run fs tie fop fsqrt narrow (wide e) (length args) x (fst h)) (fun a =>
      andthen (run fs tie fop fsqrt narrow (wide e) (length args) x (snd h)) (fun b =>
      andthen (downcast_in fs narrow (p_vec lr) (p_vec lo) [a; b]) (fun r =>
      match r with [v] => Some (Ok v) | _ => None end))))
    | _, _, _, _ => None
    end
  | _ => None
  end.
End Widens.

(** benches/usage.rs:260: the sum of the absolute values of two vectors of [i64]. *)
Definition add_magnitudes : expr := Arith Add (Abs (Arg 0)) (Abs (Arg 1)).
