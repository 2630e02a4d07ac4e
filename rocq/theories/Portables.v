(** Model of closures over the portable vectors (src/arch/unknown, every target that is
    not x86): every operator and method call runs the definition of that back-end for the
    natural vector of the operands' type.  [None] is a program the compiler rejects. *)
From Coq Require Import String.
From Verif Require Import Base GateTables GateSpec Gates Vecs Lanes Tables Shuffles OpTables Ops PortTables Ports UnknownTables Unknown ExprSpec Exprs.
Open Scope list_scope.
Open Scope Z_scope.

(** src/arch/unknown/vecs.rs:231-240 [impl_packed!].  "undefined" is no feature of any
    target (the comment in line 230). *)
Definition unknown_packed : list packed_line := [
  (* src/arch/unknown/vecs.rs:231 *) mkPacked "u8" "u8s" "u8x16" 1 16 [] ["undefined"];
  (* src/arch/unknown/vecs.rs:232 *) mkPacked "i8" "i8s" "i8x16" 1 16 [] ["undefined"];
  (* src/arch/unknown/vecs.rs:233 *) mkPacked "u16" "u16s" "u16x8" 2 8 [] ["undefined"];
  (* src/arch/unknown/vecs.rs:234 *) mkPacked "i16" "i16s" "i16x8" 2 8 [] ["undefined"];
  (* src/arch/unknown/vecs.rs:235 *) mkPacked "u32" "u32s" "u32x4" 4 4 [] ["undefined"];
  (* src/arch/unknown/vecs.rs:236 *) mkPacked "i32" "i32s" "i32x4" 4 4 [] ["undefined"];
  (* src/arch/unknown/vecs.rs:237 *) mkPacked "f32" "f32s" "f32x4" 4 4 [] ["undefined"];
  (* src/arch/unknown/vecs.rs:238 *) mkPacked "u64" "u64s" "u64x2" 8 2 [] ["undefined"];
  (* src/arch/unknown/vecs.rs:239 *) mkPacked "i64" "i64s" "i64x2" 8 2 [] ["undefined"];
  (* src/arch/unknown/vecs.rs:240 *) mkPacked "f64" "f64s" "f64x2" 8 2 [] ["undefined"]].
(** The lines that define the natural vector [alias]; [fs] are the target features.
    src/vecs.rs:90-107. *)
Definition portable_natural (fs : features) (alias : string) : list packed_line :=
  filter (fun l => String.eqb (p_alias l) alias && active fs (p_pos l) (p_neg l)) unknown_packed.

(** The impls of a method in src/arch/unknown/intrin (cmp.rs, eq.rs, saturating_add.rs,
    saturating_sub.rs). *)
Definition portable_table (m : method) : list op_impl :=
  match m with Min | Max => unknown_cmp | SaturatingAdd => unknown_saturating_add | SaturatingSub => unknown_saturating_sub | EqMask | NeMask => unknown_eq end.
(** The operator traits: src/arch/unknown/vecs.rs:300-380. *)
Definition trait_of (o : arith) : string :=
  match o with Add => "Add" | Sub => "Sub" | Mul => "Mul" | And => "BitAnd" | Or => "BitOr" | Xor => "BitXor" end.

Section Portables.
Variable fs : features.
Variable c : config.
(** Parameters as in Exprs.v. *)
Variable tie : bool.
Variable fop : arith -> elty -> Z -> Z -> Z.
Variable fsqrt : elty -> Z -> Z.
Variable narrow : Z -> Z.
Variable e0 : elty.
Variable n : nat.

(** The natural vector of an element type: src/vecs.rs:90-107. *)
Definition portable_of (e : elty) : option packed_line :=
  match portable_natural fs (el_name e ++ "s") with [l] => Some l | _ => None end.
(** The scalar operators of floats by symbol: src/arch/unknown/vecs.rs:191. *)
Definition float_symbol (sym : string) : elty -> Z -> Z -> Z :=
  if String.eqb sym "+" then fop Add else if String.eqb sym "-" then fop Sub else if String.eqb sym "*" then fop Mul else fun _ x _ => x.
(** [u op v]: the impl of the operator trait for the vector, among
    src/arch/unknown/vecs.rs:300-380; it runs the loop of lines 182-198. *)
Definition portable_operator (o : arith) (l : packed_line) (u v : list Z) : option (outcome (list Z)) :=
  match find (fun r => String.eqb (uo_vec r) (p_vec l)) unknown_ops, utype_of (p_vec l) with
  | Some r, Some t =>
    match find (fun a => String.eqb (fst a) (trait_of o)) (uo_ops r) with
    | Some (_, sym) => Some (uv_op float_symbol c (uo_el r) (ut_sz t) sym u v)
    | None => None
    end
  | _, _ => None
  end.
(** [i8s(9)]: src/vecs.rs:97-99 and src/arch/unknown/vecs.rs:58-60. *)
Definition portable_constant (e : elty) (k : Z) : option (outcome (list Z)) :=
  match portable_of e with
  | Some l => match utype_of (p_vec l) with Some t => Some (Ok (uv_splat (ut_sz t) k)) | None => None end
  | None => None
  end.

(** The closure in a portable build: [args] are the vectors it is called with.
    As the closures of examples/main.rs:19-27 and of the tests in src/iters.rs:796-833. *)
Fixpoint portable_run (x : expr) (args : list (list Z)) : option (outcome (list Z)) :=
  match x with
  | Arg i => option_map (@Ok _) (nth_error args i)
  | Splat e k => portable_constant e k
  | Arith o a b =>
    match type_of e0 n a with
    | Some e =>
      match portable_of e with
      | Some l => andthen (portable_run a args) (fun u => andthen (portable_run b args) (fun v => portable_operator o l u v))
      | None => None
      end
    | None => None
    end
  | Call m a b =>
    match type_of e0 n a with
    | Some e =>
      match portable_of e with
      | Some l =>
        match lookup (portable_table m) (p_vec l) (method_name m) with
        | Some o => andthen (portable_run a args) (fun u => andthen (portable_run b args) (fun v => andthen (portable2 tie o u v) (fun r => Some (Ok (finish m o r)))))
        | None => None
        end
      | None => None
      end
    | None => None
    end
  | Abs a =>
    (** src/arch/unknown/intrin/abs.rs. *)
    match type_of e0 n a, type_of e0 n (Abs a) with
    | Some d, Some e =>
      match portable_of d, portable_of e with
      | Some l, Some r =>
        match find (fun p => String.eqb (pt_vec p) (p_vec l) && String.eqb (pt_outvec p) (p_vec r)) unknown_abs with
        | Some p => andthen (portable_run a args) (fun u => andthen (Some (port_portable narrow p [u])) (fun vs => match vs with [v] => Some (Ok v) | _ => None end))
        | None => None
        end
      | _, _ => None
      end
    | _, _ => None
    end
  | Sqrt a =>
    (** src/arch/unknown/intrin/sqrt.rs. *)
    match type_of e0 n a with
    | Some e =>
      match portable_of e with
      | Some l => match lookup unknown_sqrt (p_vec l) "sqrt" with Some o => andthen (portable_run a args) (portable1 fsqrt o) | None => None end
      | None => None
      end
    | None => None
    end
  | Rounded d a =>
    (** src/arch/unknown/intrin/round.rs. *)
    match type_of e0 n a with
    | Some e =>
      match portable_of e with
      | Some l => match lookup unknown_round (p_vec l) (direction_name d) with Some o => andthen (portable_run a args) (portable1 fsqrt o) | None => None end
      | None => None
      end
    | None => None
    end
  | SwapBytes a =>
    (** src/arch/unknown/intrin/endian.rs. *)
    match type_of e0 n a with
    | Some e =>
      match portable_of e with
      | Some l =>
        match find (fun s => String.eqb (sh_name s) (p_vec l)) unknown_swap_bytes with
        | Some s => andthen (portable_run a args) (fun u => andthen (Some (swap_bytes_portable s (map (to_bytes (ibytes (lane_ity e))) u))) (fun r => Some (Ok (map (fun b => wrap (lane_ity e) (of_bytes b)) r))))
        | None => None
        end
      | None => None
      end
    | None => None
    end
  | Be e a =>
    (** src/intrin/transmute.rs:51-99: a transmute of the vector. *)
    match type_of e0 n a with
    | Some d => andthen (portable_run a args) (fun u => Some (Ok (bitcast (lane_ity d) (lane_ity e) u)))
    | None => None
    end
  end.
End Portables.
