(** Model of the code a build of the crate contains: for every operation, the
    definition that the enabled target features select, and what calling it returns.
    [None] stands for a program the compiler rejects: a method without a definition,
    with two, or with an instruction whose register does not fit the vector. *)
From Coq Require Import String.
From Verif Require Import Base GateTables GateSpec Vecs Lanes Floats X86 X86Reg Tables Patterns Merge Shuffles OpTables Ops PortTables Ports Hops SumTables Sums.
Open Scope list_scope.
Open Scope Z_scope.

(** [#[cfg(not(target_feature = "f"))]]; no attribute is written as the empty name.
    E.g. src/arch/x86/intrin/abs.rs:27. *)
Definition without (fs : features) (f : string) : bool := String.eqb f "" || negb (fs f).

(** Bytes of a vector.
    Not in the source: checks that an intrinsic fits the vector (src/intrin/macros.rs:9-54). *)
Definition bytes (t : vty) : Z := WIDTH t * SIZE t.

(** ** Macros that write both definitions *)

(** src/intrin/macros.rs:9-55 [rust_fallback_impl!] and [rust_fallback_impl_binary!],
    src/intrin/eq.rs:46-78 [rust_fallback_eq!]: the instruction if the feature is
    enabled, the scalar loop if not. *)
Definition op2_in (fs : features) (tie : bool) (o : op_impl) (a b : list Z) : option (outcome (list Z)) :=
  if fs (op_feat o) then
    match find (fun i => String.eqb (i2_name i) (op_mm o) && strings_eqb (i2_args i) (op_args o)) binary_instrs with
    | Some i => if Z.of_nat (i2_reg i) =? bytes (op_ty o) then option_map (@Ok (list Z)) (optimized2 o a b) else None
    | None => None
    end
  else portable2 tie o a b.
(** src/intrin/macros.rs:9-30 [rust_fallback_impl!]. *)
Definition op1_in (fs : features) (fsqrt : elty -> Z -> Z) (o : op_impl) (a : list Z) : option (outcome (list Z)) :=
  if fs (op_feat o) then
    match find (fun i => String.eqb (i1_name i) (op_mm o) && strings_eqb (i1_args i) (op_args o)) (unary_instrs (fsqrt EF32) (fsqrt EF64)) with
    | Some i => if Z.of_nat (i1_reg i) =? bytes (op_ty o) then option_map (@Ok (list Z)) (optimized1 fsqrt o a) else None
    | None => None
    end
  else portable1 fsqrt o a.

(** src/intrin/merge.rs:49-116 [impl_packed_merge!]. *)
Definition blend_fits (m : merge_impl) : bool :=
  String.eqb (mi_fn m) "_mm_blendv_epi8" && (bytes (mi_ty m) =? 16) || String.eqb (mi_fn m) "_mm256_blendv_epi8" && (bytes (mi_ty m) =? 32).
(** src/intrin/merge.rs:49-116 [impl_packed_merge!]: the blend if the feature is enabled, the lane by lane version if not. *)
Definition merge_in (fs : features) (m : merge_impl) (blend portable : option (outcome (list (list Z)))) : option (outcome (list (list Z))) :=
  if fs (mi_feat m) then (if blend_fits m then blend else None) else portable.
(** src/intrin/merge.rs:49-116 [merge_halves]. *)
Definition merge_halves_in (fs : features) (c : config) (m : merge_impl) (self other : list (list Z)) : option (outcome (list (list Z))) :=
  merge_in fs m (option_map (@Ok _) (merge_halves_blend m x86_patterns self other)) (Some (merge_halves_portable c m self other)).
(** src/intrin/merge.rs:49-116 [merge_interleaved]. *)
Definition merge_interleaved_in (fs : features) (c : config) (m : merge_impl) (self other : list (list Z)) : option (outcome (list (list Z))) :=
  merge_in fs m (option_map (@Ok _) (merge_interleaved_blend m x86_patterns self other)) (Some (merge_interleaved_portable c m self other)).
(** src/intrin/merge.rs:49-116 [merge_partitioned]. *)
Definition merge_partitioned_in (fs : features) (c : config) (m : merge_impl) (self other : list (list Z)) (offset : Z) : option (outcome (list (list Z))) :=
  merge_in fs m (Some (merge_partitioned_blend c m x86_part_mask self other offset)) (Some (merge_partitioned_portable c m self other offset)).

(** src/intrin/swizzle.rs:25-46 [impl_packed_swizzle!], src/intrin/endian.rs:70-91
    [impl_packed_swap_bytes!]; the control is a [$uvec], which must be as long as the
    vector. *)
Definition control_fits (s : shuffle_impl) : bool :=
  String.eqb (sh_uvec s) "u8x16" && (bytes (sh_ty s) =? 16) && String.eqb (sh_fn s) "_mm_shuffle_epi8" ||
  String.eqb (sh_uvec s) "u8x32" && (bytes (sh_ty s) =? 32) && String.eqb (sh_fn s) "_mm256_shuffle_epi8".
(** src/intrin/swizzle.rs:25-45, src/intrin/endian.rs:70-91: the byte shuffle if the feature is enabled. *)
Definition shuffle_in (fs : features) (s : shuffle_impl) (portable : list (list Z) -> outcome (list (list Z))) (v : list (list Z)) : option (outcome (list (list Z))) :=
  if fs (sh_feat s) then (if control_fits s then option_map (@Ok _) (byte_shuffle s v) else None) else Some (portable v).
(** src/intrin/swizzle.rs:25-45 [flip]. *)
Definition flip_in (fs : features) (s : shuffle_impl) (v : list (list Z)) := shuffle_in fs s (flip_portable s) v.
(** src/intrin/endian.rs:70-91 [swap_bytes]. *)
Definition swap_bytes_in (fs : features) (s : shuffle_impl) (v : list (list Z)) := shuffle_in fs s (swap_bytes_portable s) v.

(** ** Definitions written out, each with its own attribute *)

(** The type a method belongs to, and the type argument of its trait.
    E.g. [impl Upcast<i16x8> for i8x16], src/arch/x86/intrin/upcast.rs. *)
Definition key := (string * string)%type.
(** Equality of such keys; not in the source (src/arch/x86/intrin/upcast.rs). *)
Definition key_eqb (k l : key) : bool := String.eqb (fst k) (fst l) && String.eqb (snd k) (snd l).

Section Choice.
Context {X P R : Type}.
(** Optimised definitions: key and required feature.  Portable ones: key and excluded
    feature. *)
Variable kx : X -> key.
Variable feat : X -> string.
Variable kp : P -> key.
Variable excluded : P -> string.
(** The definitions for [k] that a build contains.
    By the attributes in src/arch/x86/intrin/*.rs. *)
Definition present (fs : features) (xs : list X) (ps : list P) (k : key) : list (X + P) :=
  map inl (filter (fun x => key_eqb (kx x) k && fs (feat x)) xs) ++
  map inr (filter (fun p => key_eqb (kp p) k && without fs (excluded p)) ps).
(** Calling the method.
    No or two definitions in src/arch/x86/intrin/*.rs do not compile. *)
Definition run_one (ds : list (X + P)) (fx : X -> R) (fp : P -> R) : option R :=
  match ds with
  | [inl x] => Some (fx x)
  | [inr p] => Some (fp p)
  | _ => None
  end.
End Choice.

Section Builds.
Variable fs : features.
Variable fadd fsub : elty -> Z -> Z -> Z.

(** src/arch/x86/intrin/hadd.rs, hsub.rs. *)
Definition hop_in (trait : string) (xs : list xhop) (ps : list hop_impl) (c : config) (vec : string) (a b : list Z) : option (outcome (list Z)) :=
  run_one (present (fun x => (xh_vec x, xh_trait x)) xh_feat (fun p => (h_vec p, h_trait p)) h_not fs xs ps (vec, trait))
    (fun x => Ok (hop_optimized x a b)) (fun p => hop_portable fadd fsub c p a b).
(** src/arch/x86/intrin/hadd.rs. *)
Definition hadd_in := hop_in "HAdd" (x86_hadd_optimized fadd) x86_hadd.
(** src/arch/x86/intrin/hsub.rs. *)
Definition hsub_in := hop_in "HSub" (x86_hsub_optimized fsub) x86_hsub.
(** src/arch/x86/intrin/saturating_hadd.rs. *)
Definition saturating_hadd_in := hop_in "SaturatingHAdd" x86_saturating_hadd_optimized x86_saturating_hadd.
(** src/arch/x86/intrin/saturating_hsub.rs. *)
Definition saturating_hsub_in := hop_in "SaturatingHSub" x86_saturating_hsub_optimized x86_saturating_hsub.

(** src/arch/x86/intrin/abs.rs, upcast.rs, downcast.rs. *)
Definition port_in (narrow : Z -> Z) (xs : list xport) (ps : list port_impl) (vec outvec : string) (args : list (list Z)) : option (outcome (list (list Z))) :=
  run_one (present (fun x => (xp_vec x, xp_outvec x)) xp_feat (fun p => (pt_vec p, pt_outvec p)) pt_not fs xs ps (vec, outvec))
    (fun x => Ok (port_optimized x args)) (fun p => port_portable narrow p args).
(** src/arch/x86/intrin/abs.rs. *)
Definition vector_abs_in (narrow : Z -> Z) := port_in narrow x86_abs_optimized x86_abs.
(** src/arch/x86/intrin/upcast.rs. *)
Definition upcast_in (narrow : Z -> Z) := port_in narrow x86_upcast_optimized x86_upcast.
(** src/arch/x86/intrin/downcast.rs. *)
Definition downcast_in (narrow : Z -> Z) := port_in narrow x86_downcast_optimized x86_downcast.

(** src/arch/x86/intrin/destride.rs. *)
Definition destride_two_in (c : config) (vec : string) (a b : list Z) : option (outcome (list (list Z))) :=
  run_one (present (fun x => (xd_vec x, ""%string)) xd_feat (fun d => (d_vec d, ""%string)) d_not fs (x86_destride_128 ++ x86_destride_256) x86_destride (vec, ""%string))
    (fun x => destride_two_optimized c x a b) (fun d => destride_two_portable d a b).

(** src/arch/x86/intrin/sum.rs. *)
Definition fold_in (xs : list xsum) (ps : list fold_impl) (c : config) (portable : fold_impl -> outcome Z) (vec : string) (v : list Z) : option (outcome Z) :=
  run_one (present (fun x => (xs_vec x, ""%string)) xs_feat (fun s => (s_vec s, ""%string)) s_not fs xs ps (vec, ""%string))
    (fun x => sum_optimized c x v) portable.
(** src/arch/x86/intrin/sum.rs:33-281 [Sum]. *)
Definition sum_in (c : config) (vec : string) (v : list Z) : option (outcome Z) :=
  fold_in (x86_sum_optimized ++ x86_sum_float fadd) x86_sum c (fun s => sum_portable fadd c s v) vec v.
(** src/arch/x86/intrin/sum.rs:33-281 [UpcastSum]. *)
Definition sum_upcast_in (c : config) (vec : string) (v : list Z) : option (outcome Z) :=
  fold_in x86_sum_upcast_optimized x86_upcast_sum c (fun s => sum_upcast_portable c s v) vec v.
End Builds.

(** Some definition of [fn] of [trait] for [vec] has exactly these required and excluded
    features in the source (src/arch/x86, by the separately transcribed list).
    src/arch/x86/intrin/*.rs. *)
Definition attributes (trait vec fn : string) (pos neg : list string) : Prop :=
  exists mm, In (mkGated trait vec fn pos neg mm) x86_gated.
(** The excluded features of a definition with at most one.
    As the attributes of src/arch/x86/intrin/*.rs. *)
Definition at_most_one (f : string) : list string := if String.eqb f "" then [] else [f].
