(** Model of closures over vectors: every operator and method call runs the definition
    that the build contains for the natural vector of the operands' type.  [None] is a
    program the compiler rejects. *)
From Coq Require Import String.
From Verif Require Import Base GateTables GateSpec Gates Vecs Lanes X86 Tables Shuffles OpTables Ops PortTables Ports Builds ExprSpec.
Open Scope list_scope.
Open Scope Z_scope.

(** src/vecs.rs:90-107: the natural vector of an element type ([i8s], [u8s], ...). *)
Definition natural_of (fs : features) (e : elty) : option packed_line :=
  match natural fs (el_name e ++ "s") with [n] => Some n | _ => None end.
(** The vector of a line of src/arch/x86/vecs.rs:4-33. *)
Definition vty_of (n : packed_line) : vty := mkVty (p_width n) (p_size n).

(** Sequencing: a rejected or panicking argument stops the evaluation.
    Nested method calls in a closure handed to [simd_map], as in examples/main.rs:19-27. *)
Definition andthen {X Y : Type} (x : option (outcome X)) (f : X -> option (outcome Y)) : option (outcome Y) :=
  match x with
  | Some (Ok v) => f v
  | Some Panic => Some Panic
  | Some UB => Some UB
  | Some Fuel => Some Fuel
  | None => None
  end.

(** The method of a vector type among the invocations of the macros in
    src/arch/x86/intrin (cmp.rs, eq.rs, saturating_add.rs, saturating_sub.rs, sqrt.rs). *)
Definition method_name (m : method) : string :=
  match m with Min => "min" | Max => "max" | SaturatingAdd => "saturating_add" | SaturatingSub => "saturating_sub" | EqMask | NeMask => "eq_mask" end.
(** The file of src/arch/x86/intrin with the impls of a method (eq.rs, cmp.rs, saturating_add.rs, saturating_sub.rs, round.rs, sqrt.rs). *)
Definition method_table (m : method) : list op_impl :=
  match m with Min | Max => x86_cmp | SaturatingAdd => x86_saturating_add | SaturatingSub => x86_saturating_sub | EqMask | NeMask => x86_eq end.
(** src/intrin/eq.rs:43: [ne_mask] is [eq_mask] with all bits flipped. *)
Definition finish (m : method) (o : op_impl) (r : list Z) : list Z := match m with NeMask => ne_mask_of o r | _ => r end.
(** src/intrin/round.rs [Round]. *)
Definition direction_name (d : direction) : string := match d with Floor => "floor" | Ceil => "ceil" | Trunc => "trunc" end.
(** Resolution of a method call: the impl in src/arch/x86/intrin/*.rs for this vector. *)
Definition lookup (table : list op_impl) (vec fn : string) : option op_impl :=
  find (fun o => String.eqb (op_vec o) vec && String.eqb (op_fn o) fn) table.

Section Exprs.
Variable fs : features.
(** Parameters as in Builds.v: [tie] of float [min] and [max], IEEE arithmetic. *)
Variable tie : bool.
Variable fop : arith -> elty -> Z -> Z -> Z.
Variable fsqrt : elty -> Z -> Z.
Variable narrow : Z -> Z.
Variable e0 : elty.
Variable n : nat.

(** The operators of packed_simd (a dependency): lane by lane, wrapping on integers in
    every build.
    Re-exported by src/arch/x86/vecs.rs and used as in examples/main.rs:19-27. *)
Definition operator (o : arith) (e : elty) (a b : list Z) : list Z :=
  zipw (fun x y => match e with EInt t => wrap t (exact o x y) | _ => fop o e x y end) a b.

(** [i8s(9)]: src/vecs.rs:93-99 and packed_simd's [splat]. *)
Definition constant (e : elty) (k : Z) : option (outcome (list Z)) :=
  match natural_of fs e with Some l => Some (Ok (splat (p_width l) k)) | None => None end.

(** The closure in a build: [args] are the vectors it is called with.
    As the closures of examples/main.rs:19-27 and of the tests in src/iters.rs:796-833. *)
Fixpoint run (x : expr) (args : list (list Z)) : option (outcome (list Z)) :=
  match x with
  | Arg i => option_map (@Ok _) (nth_error args i)
  | Splat e k => constant e k
  | Arith o a b =>
    match type_of e0 n a with
    | Some e => andthen (run a args) (fun u => andthen (run b args) (fun v => Some (Ok (operator o e u v))))
    | None => None
    end
  | Call m a b =>
    match type_of e0 n a with
    | Some e =>
      match natural_of fs e with
      | Some l =>
        match lookup (method_table m) (p_vec l) (method_name m) with
        | Some o => andthen (run a args) (fun u => andthen (run b args) (fun v => andthen (op2_in fs tie o u v) (fun r => Some (Ok (finish m o r)))))
        | None => None
        end
      | None => None
      end
    | None => None
    end
  | Abs a =>
    match type_of e0 n a, type_of e0 n (Abs a) with
    | Some d, Some e =>
      match natural_of fs d, natural_of fs e with
      | Some l, Some r =>
        andthen (run a args) (fun u => andthen (vector_abs_in fs narrow (p_vec l) (p_vec r) [u]) (fun vs => match vs with [v] => Some (Ok v) | _ => None end))
      | _, _ => None
      end
    | _, _ => None
    end
  | Sqrt a =>
    match type_of e0 n a with
    | Some e =>
      match natural_of fs e with
      | Some l => match lookup x86_sqrt (p_vec l) "sqrt" with Some o => andthen (run a args) (op1_in fs fsqrt o) | None => None end
      | None => None
      end
    | None => None
    end
  | Rounded d a =>
    match type_of e0 n a with
    | Some e =>
      match natural_of fs e with
      | Some l => match lookup x86_round (p_vec l) (direction_name d) with Some o => andthen (run a args) (op1_in fs fsqrt o) | None => None end
      | None => None
      end
    | None => None
    end
  | SwapBytes a =>
    match type_of e0 n a with
    | Some e =>
      match natural_of fs e with
      | Some l =>
        match find (fun s => String.eqb (sh_name s) (p_vec l)) x86_swap_bytes with
        | Some s => andthen (run a args) (fun u => andthen (swap_bytes_in fs s (map (to_bytes (ibytes (lane_ity e))) u)) (fun r => Some (Ok (map (fun b => wrap (lane_ity e) (of_bytes b)) r))))
        | None => None
        end
      | None => None
      end
    | None => None
    end
  | Be e a =>
    (** src/intrin/transmute.rs:51-99: a transmute of the register. *)
    match type_of e0 n a with
    | Some d => andthen (run a args) (fun u => Some (Ok (bitcast (lane_ity d) (lane_ity e) u)))
    | None => None
    end
  end.
End Exprs.
