(** When the scalar program of a closure (ExprSpec.v) overflows: one of its integer
    additions, subtractions or multiplications has a result outside its type. *)
From Verif Require Import Base Lanes OpTables ExprSpec.
Open Scope Z_scope.

Section Overflow.
Variable e0 : elty.
Variable n : nat.
Variable fop : arith -> elty -> Z -> Z -> Z.
Variable fsqrt : elty -> Z -> Z.
Definition outside (t : ity) (x : Z) : bool := (x <? imin t) || (imax t <? x).
Fixpoint overflows (x : expr) (env : list Z) : bool :=
  match x with
  | Arg _ | Splat _ _ => false
  | Arith o a b =>
    overflows a env || overflows b env ||
    match o, type_of e0 n a with
    | (Add | Sub | Mul), Some (EInt t) => outside t (exact o (meaning e0 n fop fsqrt a env) (meaning e0 n fop fsqrt b env))
    | _, _ => false
    end
  | Call _ a b => overflows a env || overflows b env
  | Abs a | Sqrt a | Rounded _ a | SwapBytes a | Be _ a => overflows a env
  end.
End Overflow.
