(** Model of the lane-wise operations written with [rust_fallback_impl!],
    [rust_fallback_impl_binary!] (src/intrin/macros.rs:9-55) and [rust_fallback_eq!]
    (src/intrin/eq.rs:46-78).  A vector is the list of its lanes; a float lane is its
    bit pattern. *)
From Coq Require Import String.
From Verif Require Import Base Vecs Lanes Floats X86 OpTables.
Open Scope Z_scope.

(** The integer type with the bits of a lane.
    src/intrin/eq.rs:46-76. *)
Definition lane_ity (e : elty) : ity :=
  match e with EInt t => t | EF32 => u32 | EF64 => u64 end.

(** [$maskel::max_value()], [$maskel::min_value()]; the masks are unsigned.
    src/intrin/eq.rs:46-76. *)
Definition mask_of (e : elty) (b : bool) : Z :=
  if b then imax (lane_ity e) else imin (lane_ity e).

(** Rust's [==] on an element.
    src/intrin/eq.rs:46-76. *)
Definition rust_eq (e : elty) (x y : Z) : bool :=
  match e with EInt _ => x =? y | EF32 => f_eq fmt32 x y | EF64 => f_eq fmt64 x y end.

(** The scalar method a binary operation falls back to, by name.
    src/intrin/macros.rs:32-54, src/intrin/eq.rs:46-76. *)
Definition rust_binary (tie : bool) (o : op_impl) : option (Z -> Z -> Z) :=
  if String.eqb (op_fn o) "eq_mask" then
    Some (fun x y => mask_of (op_out o) (rust_eq (op_el o) x y))
  else if String.eqb (op_fn o) "min" then
    Some (match op_el o with EInt _ => Z.min | EF32 => rust_fmin fmt32 tie | EF64 => rust_fmin fmt64 tie end)
  else if String.eqb (op_fn o) "max" then
    Some (match op_el o with EInt _ => Z.max | EF32 => rust_fmax fmt32 tie | EF64 => rust_fmax fmt64 tie end)
  else if String.eqb (op_fn o) "saturating_add" then
    match op_el o with EInt t => Some (fun x y => clamp t (x + y)) | _ => None end
  else if String.eqb (op_fn o) "saturating_sub" then
    match op_el o with EInt t => Some (fun x y => clamp t (x - y)) | _ => None end
  else None.

(** The scalar method a unary operation falls back to, by name.  The IEEE-exact
    [sqrt] is a parameter, the same one as the square-root instructions use.
    src/intrin/macros.rs:9-30. *)
Definition rust_unary (fsqrt : elty -> Z -> Z) (o : op_impl) : option (Z -> Z) :=
  match op_el o with
  | EInt _ => None
  | e =>
    let f := match e with EF32 => fmt32 | _ => fmt64 end in
    if String.eqb (op_fn o) "round" then Some (f_nearest_away f)
    else if String.eqb (op_fn o) "ceil" then Some (f_ceil f)
    else if String.eqb (op_fn o) "floor" then Some (f_floor f)
    else if String.eqb (op_fn o) "trunc" then Some (f_trunc f)
    else if String.eqb (op_fn o) "sqrt" then Some (fsqrt e)
    else None
  end.

(** src/intrin/macros.rs:32-54: the arguments of [new], left to right. *)
Fixpoint lanes2 (W : Z) (g : Z -> Z -> Z) (a b : list Z) (idx : list Z) : outcome (list Z) :=
  match idx with
  | [] => Ok []
  | n :: idx' =>
    let! x := extract W a n in
    let! y := extract W b n in
    let! r := lanes2 W g a b idx' in Ok (g x y :: r)
  end.
(** src/intrin/macros.rs:9-30: the arguments of [new], left to right. *)
Fixpoint lanes1 (W : Z) (g : Z -> Z) (a : list Z) (idx : list Z) : outcome (list Z) :=
  match idx with
  | [] => Ok []
  | n :: idx' => let! x := extract W a n in let! r := lanes1 W g a idx' in Ok (g x :: r)
  end.

(** src/intrin/macros.rs:46-51, src/intrin/eq.rs:63-75: the portable versions. *)
Definition portable2 (tie : bool) (o : op_impl) (a b : list Z) : option (outcome (list Z)) :=
  option_map (fun g => lanes2 (WIDTH (op_ty o)) g a b (op_idx o)) (rust_binary tie o).
(** src/intrin/macros.rs:22-27. *)
Definition portable1 (fsqrt : elty -> Z -> Z) (o : op_impl) (a : list Z) : option (outcome (list Z)) :=
  option_map (fun g => lanes1 (WIDTH (op_ty o)) g a (op_idx o)) (rust_unary fsqrt o).

(** src/intrin/macros.rs:37-43, src/intrin/eq.rs:54-60: one instruction on the
    transmuted operands, result transmuted back. *)
Definition optimized2 (o : op_impl) (a b : list Z) : option (list Z) :=
  match find (fun i => String.eqb (i2_name i) (op_mm o) && strings_eqb (i2_args i) (op_args o)) binary_instrs with
  | Some i => Some (lanes_of (lane_ity (op_out o))
                     (exec2 i (bytes_of (lane_ity (op_el o)) a) (bytes_of (lane_ity (op_el o)) b)))
  | None => None
  end.
(** src/intrin/macros.rs:14-20 (no transmute: the intrinsic takes the vector type). *)
Definition optimized1 (fsqrt : elty -> Z -> Z) (o : op_impl) (a : list Z) : option (list Z) :=
  match find (fun i => String.eqb (i1_name i) (op_mm o) && strings_eqb (i1_args i) (op_args o))
          (unary_instrs (fsqrt EF32) (fsqrt EF64)) with
  | Some i => Some (lanes_of (lane_ity (op_el o)) (exec1 i (bytes_of (lane_ity (op_el o)) a)))
  | None => None
  end.

(** src/intrin/eq.rs:43 [ne_mask]: [eq_mask ^ ones]. *)
Definition ne_mask_of (o : op_impl) (eq : list Z) : list Z :=
  zipw Z.lxor eq (splat (WIDTH (op_ty o)) (imax (lane_ity (op_out o)))).
