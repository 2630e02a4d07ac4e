(** Model of conditional compilation: which definitions a build contains. *)
From Coq Require Import String.
From Verif Require Import Base GateTables GateSpec.
Open Scope Z_scope.

(** A definition is compiled when every required feature is enabled and no excluded
    one is ([#[cfg(target_feature = ..)]] and [#[cfg(not(target_feature = ..))]];
    src/intrin/macros.rs:15,22,36,44 and the attributes in src/arch/x86). *)
Definition active (fs : features) (pos neg : list string) : bool :=
  forallb fs pos && forallb (fun f => negb (fs f)) neg.
(** The attributes in src/arch/x86/intrin/*.rs. *)
Definition compiled (fs : features) (g : gated) : bool := active fs (g_pos g) (g_neg g).
(** Two definitions of the same method of the same trait for the same type.
    The attributes in src/arch/x86/intrin/*.rs. *)
Definition same_method (g h : gated) : bool :=
  String.eqb (g_trait g) (g_trait h) && String.eqb (g_vec g) (g_vec h) && String.eqb (g_fn g) (g_fn h).
(** The definitions of the method of [g] that a build contains.
    The attributes in src/arch/x86/intrin/*.rs. *)
Definition definitions (fs : features) (g : gated) : list gated :=
  filter (fun h => same_method g h && compiled fs h) x86_gated.
(** src/vecs.rs:90-107: the [impl_packed!] lines that define the natural vector
    [alias] (and [Packable::Vector] of its scalar) in a build. *)
Definition natural (fs : features) (alias : string) : list packed_line :=
  filter (fun l => String.eqb (p_alias l) alias && active fs (p_pos l) (p_neg l)) x86_packed.
(** The lines that define [Packable::Vector] of the scalar [el] in a build.
    src/vecs.rs:90-107. *)
Definition packable (fs : features) (el : string) : list packed_line :=
  filter (fun l => String.eqb (p_el l) el && active fs (p_pos l) (p_neg l)) x86_packed.
