(** Model of [recip] and [rsqrt] of vectors.  A vector is the list of the bit patterns
    of its lanes. *)
From Coq Require Import String.
From Verif Require Import Base Vecs Lanes Floats X86 OpTables Ops Arith.
Open Scope list_scope.
Open Scope string_scope.
Open Scope Z_scope.

(** The scalar method the fallback calls: core [f32::recip] or [Rsqrt::rsqrt] of
    src/arch/x86/intrin/rsqrt.rs:28-40, src/arch/unknown/intrin/rsqrt.rs:32-44. *)
Definition rust_estimate (o : op_impl) : option (Z -> Z) :=
  if String.eqb (op_fn o) "recip" then Some (f_recip (el_fmt (op_el o)))
  else if String.eqb (op_fn o) "rsqrt" then Some (f_rsqrt (el_fmt (op_el o)))
  else None.
(** src/intrin/macros.rs:22-27: the portable version. *)
Definition estimate_portable (o : op_impl) (a : list Z) : option (outcome (list Z)) :=
  option_map (fun g => lanes1 (WIDTH (op_ty o)) g a (op_idx o)) (rust_estimate o).

Section Instructions.
(** RCPPS and RSQRTPS on one lane.  Intel specifies a bound on the error only, so these
    are parameters. *)
Variables rcp rsq : Z -> Z.
(** [_mm_rcp_ps], [_mm256_rcp_ps], [_mm_rsqrt_ps], [_mm256_rsqrt_ps] of src/arch/x86/intrin/recip.rs:16-22 and src/arch/x86/intrin/rsqrt.rs:18-24. *)
Definition estimate_instrs : list instr1 := [
  mkI1 "_mm_rcp_ps" [] 16 u32 rcp;
  mkI1 "_mm256_rcp_ps" [] 32 u32 rcp;
  mkI1 "_mm_rsqrt_ps" [] 16 u32 rsq;
  mkI1 "_mm256_rsqrt_ps" [] 32 u32 rsq].
(** src/intrin/macros.rs:14-20: the instruction. *)
Definition estimate_optimized (o : op_impl) (a : list Z) : option (list Z) :=
  match find (fun i => String.eqb (i1_name i) (op_mm o) && strings_eqb (i1_args i) (op_args o)) estimate_instrs with
  | Some i =>
      if Z.of_nat (i1_reg i) =? WIDTH (op_ty o) * SIZE (op_ty o)
      then Some (lanes_of (lane_ity (op_el o)) (exec1 i (bytes_of (lane_ity (op_el o)) a)))
      else None
  | None => None
  end.
End Instructions.
