(** Model of the float pipelines of examples/main.rs: closures with [rsqrt], which builds
    compute differently, between closures of the language of Exprs.v. *)
From Coq Require Import String.
From Verif Require Import Base GateTables GateSpec Gates Vecs Lanes Floats Arith X86 Tables Shuffles OpTables Ops PortTables Ports Builds Estimates ExprSpec Exprs.
Open Scope list_scope.
Open Scope Z_scope.

(** src/intrin/macros.rs:14-27: the definition of [recip] or [rsqrt] a build contains. *)
Definition estimate_in (fs : features) (rcp rsq : Z -> Z) (o : op_impl) (a : list Z) : option (outcome (list Z)) :=
  if fs (op_feat o) then option_map (@Ok (list Z)) (estimate_optimized rcp rsq o a) else estimate_portable o a.

(** [+], [-] and [*] on floats; the other operators are for integers.
    The operators of examples/main.rs:19-27. *)
Definition ieee_arith (o : arith) (e : elty) (x y : Z) : Z :=
  match o with Add => f_add (el_fmt e) x y | Sub => f_sub (el_fmt e) x y | Mul => f_mul (el_fmt e) x y | _ => x end.

(** examples/main.rs:20-21: [f32s(9.0) * v.abs().sqrt().rsqrt().ceil().sqrt() - f32s(4.0) -
    f32s(2.0)], up to the call of [rsqrt] and from there on. *)
Definition before_rsqrt : expr := Sqrt (Abs (Arg 0)).
(** examples/main.rs:19-22, the part of the closure after [rsqrt]. *)
Definition after_rsqrt : expr :=
  Arith Sub (Arith Sub (Arith Mul (Splat EF32 1091567616) (Sqrt (Rounded Ceil (Arg 0)))) (Splat EF32 1082130432)) (Splat EF32 1073741824).
(** examples/main.rs:19-22 on one vector, in a build. *)
Definition threes_in (fs : features) (tie : bool) (rcp rsq narrow : Z -> Z) (v : list Z) : option (outcome (list Z)) :=
  match natural_of fs EF32 with
  | Some l =>
    match lookup x86_rsqrt (p_vec l) "rsqrt" with
    | Some o =>
      andthen (run fs tie ieee_arith ieee_sqrt narrow EF32 1 before_rsqrt [v]) (fun u =>
      andthen (estimate_in fs rcp rsq o u) (fun w =>
      run fs tie ieee_arith ieee_sqrt narrow EF32 1 after_rsqrt [w]))
    | None => None
    end
  | None => None
  end.

(** examples/main.rs:25-26: [9.0 * v.abs().sqrt().sqrt().recip().ceil().sqrt() - 4.0 - 2.0] on
    a scalar; [f32::abs] clears the sign bit. *)
Definition threes_scalar (x : Z) : Z :=
  let f := fmt32 in
  f_sub f (f_sub f (f_mul f 1091567616 (f_sqrt f (f_ceil f (f_recip f (f_sqrt f (f_sqrt f (x mod 2 ^ 31))))))) 1082130432) 1073741824.

(** examples/main.rs:35: [a + v.abs().sqrt().sqrt().floor()]. *)
Definition add_fourth_root : expr := Arith Add (Arg 0) (Rounded Floor (Sqrt (Sqrt (Abs (Arg 1))))).
