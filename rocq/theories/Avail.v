(** Which methods each back-end implements for which vectors, read off the transcribed
    tables. *)
From Coq Require Import String.
From Verif Require Import Base Tables OpTables PortTables SumTables TransTables GateTables.
Open Scope string_scope.

(** trait, method, vector.
    Names of the impls in src/arch/x86/intrin and src/arch/unknown/intrin (all .rs files). *)
Definition meth := (string * string * string)%type.
(** The lines of [rust_fallback_impl!] and its relatives (src/intrin/macros.rs:9-54, src/intrin/eq.rs:46-76). *)
Definition of_ops (l : list op_impl) : list meth := map (fun o => (op_trait o, op_fn o, op_vec o)) l.
(** The impls of src/arch/x86/intrin/abs.rs and src/arch/unknown/intrin/abs.rs. *)
Definition of_ports (l : list port_impl) : list meth := map (fun p => (pt_trait p, pt_fn p, pt_vec p)) l.
(** The invocations of [hop!] (src/intrin/macros.rs:56-65). *)
Definition of_hops (l : list hop_impl) : list meth := map (fun h => (h_trait h, h_fn h, h_vec h)) l.
(** Every method of a trait, for impls whose table has no column for it (src/arch/x86/intrin/*.rs). *)
Definition each {A : Type} (name : A -> string) (tr : string) (fns : list string) (l : list A) : list meth :=
  flat_map (fun x => map (fun fn => (tr, fn, name x)) fns) l.
(** src/vec_patterns.rs [Pattern]. *)
Definition pattern_fns := ["halfs"; "interleave"; "partition"; "partition_mask"; "ones"; "zeroes"].
(** src/intrin/merge.rs [Merge]. *)
Definition merge_fns := ["merge_halves"; "merge_interleaved"; "merge_partitioned"].
(** src/intrin/destride.rs [Destride]. *)
Definition destride_fns := ["destride_two"; "destride_four"].

(** src/arch/x86/vec_patterns.rs and the modules of src/arch/x86/intrin/mod.rs:10-31.
    Left out: conversions ([Upcast], [Downcast], [Transmute]), whose traits or results
    name further types. *)
Definition x86_methods : list meth :=
  of_ops (x86_eq ++ x86_cmp ++ x86_saturating_add ++ x86_saturating_sub ++ x86_round ++ x86_sqrt ++ x86_recip ++ x86_rsqrt) ++ of_ports x86_abs ++
  of_hops (x86_hadd ++ x86_hsub ++ x86_saturating_hadd ++ x86_saturating_hsub) ++ each d_vec "Destride" destride_fns x86_destride ++
  each s_vec "Sum" ["sum"] x86_sum ++ each s_vec "UpcastSum" ["sum_upcast"] x86_upcast_sum ++ each c_vec "Popcnt" ["count_ones"] x86_popcnt ++
  each pi_name "Pattern" pattern_fns x86_patterns ++ each mi_name "Merge" merge_fns x86_merges ++ each sh_name "Reendianize" ["swap_bytes"] x86_swap_bytes.
(** src/arch/unknown/vec_patterns.rs and the modules of src/arch/unknown/intrin/mod.rs:8-27. *)
Definition unknown_methods : list meth :=
  of_ops (unknown_eq ++ unknown_cmp ++ unknown_saturating_add ++ unknown_saturating_sub ++ unknown_round ++ unknown_sqrt ++ unknown_recip ++ unknown_rsqrt) ++ of_ports unknown_abs ++
  of_hops (unknown_hadd ++ unknown_hsub ++ unknown_saturating_hadd ++ unknown_saturating_hsub) ++ each d_vec "Destride" destride_fns unknown_destride ++
  each s_vec "Sum" ["sum"] unknown_sum ++ each s_vec "UpcastSum" ["sum_upcast"] unknown_upcast_sum ++
  each pi_name "Pattern" pattern_fns unknown_patterns ++ each mi_name "Merge" merge_fns unknown_merges ++ each sh_name "Reendianize" ["swap_bytes"] unknown_swap_bytes.
