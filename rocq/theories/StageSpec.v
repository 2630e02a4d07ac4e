(** Kernels in three stages: the operations of the slices' type, then operations in [f64],
    then operations in [f32].  Vocabulary. *)
From Coq Require Import String.
From Verif Require Import Base Lanes OpTables ExprSpec OverflowSpec DoubleSpec.
Open Scope list_scope.
Open Scope Z_scope.

Section Stage.
Variable fop : arith -> elty -> Z -> Z -> Z.
Variable fsqrt : elty -> Z -> Z.
Variable narrow : Z -> Z.
(** The element type of the slices, that of the values widened, and the number of slices. *)
Variables e0 e : elty.
Variable n : nat.

(** [q(x(p0(row) as f64, p1(row) as f64, ..) as f32)]. *)
Definition widened_stage (ps : list expr) (row : list Z) : list Z := map (fun p => as_f64 e (meaning e0 n fop fsqrt p row)) ps.
Definition narrowed_stage (ps : list expr) (x : expr) (row : list Z) : Z := narrow (meaning EF64 (length ps) fop fsqrt x (widened_stage ps row)).
Definition staged (ps : list expr) (x q : expr) (row : list Z) : Z := meaning EF32 1 fop fsqrt q [narrowed_stage ps x row].
(** An integer operation of one of the stages overflows. *)
Definition staged_overflows (ps : list expr) (x q : expr) (row : list Z) : bool :=
  (existsb (fun p => overflows e0 n fop fsqrt p row) ps || overflows EF64 (length ps) fop fsqrt x (widened_stage ps row) ||
   overflows EF32 1 fop fsqrt q [narrowed_stage ps x row])%bool.
End Stage.
