(** Properties: which operations exist for which vectors (C45, C57, C65, C66). *)
From Coq Require Import String.
From Verif Require Import Base TransTables GateTables GateSpec Gates AvailSpec Avail.
Open Scope Z_scope.
From Verif Require Import AvailProofs.

(** C57: each back-end implements a method of a vector at most once. *)
Theorem C57_methods_once : NoDup x86_methods /\ NoDup unknown_methods.
Proof. exact c57_methods_once. Qed.
Print Assumptions C57_methods_once.

Example C57_methods_once_case : In ("Cmp", "min", "u32x8")%string x86_methods /\ In ("Merge", "merge_halves", "f64x2")%string unknown_methods.
Proof. split; apply has_In; vm_compute; reflexivity. Qed.

(** C57: the definitions behind feature gates are those of the operations, for every
    vector of every size: a method is defined in the crate exactly when it has an
    implementation in the tables the other properties are about. *)
Theorem C57_same_methods : forall (s : scalar) (bytes : Z) (trait method : string) (dom : scalar -> bool), In s scalars -> bytes = 16 \/ bytes = 32 \/ bytes = 64 -> In (trait, method, dom) operations ->
  (In (trait, method, vector_name s bytes) x86_methods <-> exists g, In g x86_gated /\ g_trait g = trait /\ g_fn g = method /\ g_vec g = vector_name s bytes).
Proof. exact c57_same_methods. Qed.
Print Assumptions C57_same_methods.

(** C65: in every build, every scalar type has a natural vector, and it has every
    operation that is meaningful for the type -- except the combinations listed in
    [missing]. *)
Theorem C65_natural_partial : forall (fs : features) (s : scalar) (trait method : string) (dom : scalar -> bool), target fs -> In s scalars -> In (trait, method, dom) operations -> dom s = true -> missing trait s = false ->
  exists n d, natural fs (alias s) = [n] /\ In d x86_gated /\ g_trait d = trait /\ g_fn d = method /\ g_vec d = p_vec n /\ compiled fs d = true /\ In (trait, method, p_vec n) x86_methods.
Proof. exact c65_natural_partial. Qed.
Print Assumptions C65_natural_partial.

Example C65_natural_case : exists n, natural sandy_bridge "u32s" = [n] /\ p_vec n = "u32x4"%string /\ In ("Cmp", "max", "u32x4")%string x86_methods.
Proof. eexists. split; [vm_compute; reflexivity|]. split; [reflexivity|]. apply has_In. vm_compute. reflexivity. Qed.

(** C65 fails for those: in no build does the natural vector have the operation. *)
Theorem C65_natural_refuted : forall (fs : features) (s : scalar) (trait method : string) (dom : scalar -> bool), target fs -> In s scalars -> In (trait, method, dom) operations -> missing trait s = true ->
  exists n, natural fs (alias s) = [n] /\ ~ In (trait, method, p_vec n) x86_methods /\ forall d, In d x86_gated -> ~ (g_trait d = trait /\ g_fn d = method /\ g_vec d = p_vec n).
Proof. exact c65_natural_refuted. Qed.
Print Assumptions C65_natural_refuted.

Example C65_natural_refuted_case : exists s dom, In s scalars /\ sc_name s = "u64"%string /\ In ("Cmp", "min", dom)%string operations /\ dom s = true /\ missing "Cmp" s = true.
Proof. exists (mkScalar "u64" Unsigned 8). eexists. split; [vm_compute; tauto|]. split; [reflexivity|]. split; [apply (nth_error_In _ 14); reflexivity|]. split; reflexivity. Qed.

(** C65: operations that are not meaningful for a scalar type do not exist for its
    natural vector. *)
Theorem C65_nothing_else : forall (fs : features) (s : scalar) (trait method : string) (dom : scalar -> bool), target fs -> In s scalars -> In (trait, method, dom) operations -> dom s = false ->
  exists n, natural fs (alias s) = [n] /\ ~ In (trait, method, p_vec n) x86_methods.
Proof. exact c65_nothing_else. Qed.
Print Assumptions C65_nothing_else.

Example C65_nothing_else_case : exists s dom, In s scalars /\ In ("Abs", "abs", dom)%string operations /\ dom s = false /\ ~ In ("Abs", "abs", "u16x8")%string x86_methods.
Proof. exists (mkScalar "u16" Unsigned 2). eexists. split; [vm_compute; tauto|]. split; [apply (nth_error_In _ 16); reflexivity|]. split; [reflexivity|]. apply has_not_In. vm_compute. reflexivity. Qed.

(** C66: the two back-ends implement the same operations of the 128-bit vectors, except
    the combinations listed in [one_sided]. *)
Theorem C66_portable_partial : forall (s : scalar) (trait method : string) (dom : scalar -> bool), In s scalars -> In (trait, method, dom) operations -> one_sided trait s = false ->
  (In (trait, method, vector_name s 16) x86_methods <-> In (trait, method, vector_name s 16) unknown_methods).
Proof. exact c66_portable_partial. Qed.
Print Assumptions C66_portable_partial.

Example C66_portable_case : one_sided "Sum" (mkScalar "i16" Signed 2) = false /\ In ("Sum", "sum", "i16x8")%string x86_methods /\ In ("Sum", "sum", "i16x8")%string unknown_methods.
Proof. split; [reflexivity|]. split; apply has_In; vm_compute; reflexivity. Qed.

(** C66 fails for those: exactly one of the back-ends has the operation, so a program that
    uses it compiles only there. *)
Theorem C66_portable_refuted : forall (s : scalar) (trait method : string) (dom : scalar -> bool), In s scalars -> In (trait, method, dom) operations -> one_sided trait s = true ->
  ~ (In (trait, method, vector_name s 16) x86_methods <-> In (trait, method, vector_name s 16) unknown_methods).
Proof. exact c66_portable_refuted. Qed.
Print Assumptions C66_portable_refuted.

Example C66_portable_refuted_case : In ("SaturatingAdd", "saturating_add", "u32x4")%string unknown_methods /\ ~ In ("SaturatingAdd", "saturating_add", "u32x4")%string x86_methods /\
  In ("Popcnt", "count_ones", "u32x4")%string x86_methods /\ ~ In ("Popcnt", "count_ones", "u32x4")%string unknown_methods.
Proof. split; [apply has_In; vm_compute; reflexivity|]. split; [apply has_not_In; vm_compute; reflexivity|]. split; [apply has_In; vm_compute; reflexivity|apply has_not_In; vm_compute; reflexivity]. Qed.

(** C45: every [be_] method of a vector returns the vector of the scalar type it names
    that has the same size in bytes: there are ten methods, one per scalar type. *)
Theorem C45_result_types : forall t : trans_impl, In t (x86_transmute ++ unknown_transmute) ->
  exists s0 bytes, In s0 scalars /\ (bytes = 16 \/ bytes = 32 \/ bytes = 64) /\ tr_vec t = vector_name s0 bytes /\
    length (tr_types t) = length scalars /\ forall s, In s scalars -> In (alias s, vector_name s bytes) (tr_types t).
Proof. exact c45_result_types. Qed.
Print Assumptions C45_result_types.

Example C45_result_types_case : exists t, In t x86_transmute /\ tr_vec t = "u16x16"%string /\ In ("f64s", "f64x4")%string (tr_types t).
Proof. eexists. split; [apply (nth_error_In _ 2); reflexivity|]. split; [reflexivity|]. apply (nth_error_In _ 9); reflexivity. Qed.

(** C45: the methods exist, once, for every vector of every size (for the 128-bit ones in
    the portable back-end). *)
Theorem C45_every_vector : forall s : scalar, In s scalars ->
  (forall bytes, bytes = 16 \/ bytes = 32 \/ bytes = 64 -> exists t, filter (fun t => String.eqb (tr_vec t) (vector_name s bytes)) x86_transmute = [t]) /\
  exists t, filter (fun t => String.eqb (tr_vec t) (vector_name s 16)) unknown_transmute = [t].
Proof. exact c45_every_vector. Qed.
Print Assumptions C45_every_vector.

Example C45_every_vector_case : exists t, filter (fun t => String.eqb (tr_vec t) "i64x8") x86_transmute = [t] /\ In ("u8s", "u8x64")%string (tr_types t).
Proof. eexists. split; [vm_compute; reflexivity|]. apply (nth_error_In _ 0); reflexivity. Qed.

Example C57_same_methods_case : In ("Cmp", "min", "u32x8")%string x86_methods /\ (exists g, In g x86_gated /\ g_trait g = "Cmp"%string /\ g_fn g = "min"%string /\ g_vec g = "u32x8"%string) /\
  ~ In ("Cmp", "min", "u64x4")%string x86_methods.
Proof.
  split; [|split].
  - apply has_In; vm_compute; reflexivity.
  - destruct (find (fun g => String.eqb (g_trait g) "Cmp" && String.eqb (g_fn g) "min" && String.eqb (g_vec g) "u32x8") x86_gated) as [g|] eqn:F; [|vm_compute in F; discriminate]. exists g. apply find_some in F. destruct F as [F1 F2]. split; [exact F1|]. apply andb_prop in F2. destruct F2 as [F2 F4]. apply andb_prop in F2. destruct F2 as [F2 F3]. repeat split; apply String.eqb_eq; assumption.
  - intros H. assert (K : existsb (fun q => String.eqb (fst (fst q)) "Cmp" && String.eqb (snd (fst q)) "min" && String.eqb (snd q) "u64x4") x86_methods = true) by (apply existsb_exists; eexists; split; [exact H|reflexivity]). vm_compute in K. discriminate.
Qed.
