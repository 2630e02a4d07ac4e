(** Properties: feature gates (C55, C57, C58). *)
From Coq Require Import String.
From Verif Require Import Base GateTables GateSpec Gates.
Open Scope Z_scope.
From Verif Require Import GateProofs.

(** C55: in every build, every compiled definition uses only instructions the enabled
    features provide, except [min] and [max] of u32x8 and i32x8 and the four rounding
    functions of f64x4. *)
Theorem C55_provided_partial : forall (fs : features) (g : gated) (m : string), target fs -> In g x86_gated -> compiled fs g = true -> underpowered g = false -> In m (g_mm g) -> provides fs m.
Proof. exact c55_provided_partial. Qed.
Print Assumptions C55_provided_partial.

Example C55_provided_case :
  let g := mkGated "HSub" "i16x8" "hsub" ["ssse3"] [] ["_mm_hsub_epi16"; "_mm_unpacklo_epi32"; "_mm_unpackhi_epi32"]%string in
  In g x86_gated /\ underpowered g = false /\ compiled sandy_bridge g = true /\ provides sandy_bridge "_mm_unpackhi_epi32".
Proof. cbv zeta. split; [apply (nth_error_In _ 477); vm_compute; reflexivity|split; [reflexivity|split; [vm_compute; reflexivity|]]].
  exists "sse2"%string, sse2_set. split; [right; left; reflexivity|]. split; [|reflexivity]. vm_compute; tauto. Qed.

(** C55 fails for those: on every machine with the gate's feature but without the next
    one (AVX without AVX2, SSE4.1 without AVX), the build contains the optimised
    definition and the machine has none of its instructions. *)
Theorem C55_provided_refuted : forall (fs : features) (g : gated), In g x86_gated -> underpowered g = true -> g_mm g <> [] -> fs (has_gate g) = true -> fs (needs g) = false ->
  compiled fs g = true /\ forall m, In m (g_mm g) -> ~ provides fs m.
Proof. exact c55_provided_refuted. Qed.
Print Assumptions C55_provided_refuted.

Example C55_provided_refuted_case :
  let g := mkGated "Cmp" "i32x8" "max" ["avx"] [] ["_mm256_max_epi32"]%string in
  In g x86_gated /\ underpowered g = true /\ compiled sandy_bridge g = true.
Proof. cbv zeta. split; [apply (nth_error_In _ 287); vm_compute; reflexivity|split; vm_compute; reflexivity]. Qed.

(** C57: whatever features are enabled, every method of every operation has exactly one
    definition: no combination of features leaves one undefined or defined twice. *)
Theorem C57_one_definition : forall (fs : features) (g : gated), In g x86_gated -> exists d, definitions fs g = [d] /\ same_method g d = true /\ compiled fs d = true.
Proof. exact c57_one_definition. Qed.
Print Assumptions C57_one_definition.

Example C57_one_definition_case :
  let g := mkGated "Cmp" "u32x8" "min" ["avx"] [] ["_mm256_min_epu32"]%string in
  In g x86_gated /\ definitions sandy_bridge g = [g] /\ definitions (fun _ => false) g = [mkGated "Cmp" "u32x8" "min" [] ["avx"] []]%string.
Proof. cbv zeta. split; [apply (nth_error_In _ 281); vm_compute; reflexivity|split; vm_compute; reflexivity]. Qed.

(** C58: in every build, every scalar type has exactly one natural vector, and all of
    them have the same size in bytes: 32 with AVX2, 16 without. *)
Theorem C58_natural_vector : forall (fs : features) (l : packed_line), target fs -> In l x86_packed ->
  exists n, natural fs (p_alias l) = [n] /\ p_size n * p_width n = (if fs "avx2"%string then 32 else 16) /\ p_size n = p_size l.
Proof. exact c58_natural_vector. Qed.
Print Assumptions C58_natural_vector.

(** C58: the natural vector of a scalar ([Packable::Vector]) and the type alias (u8s,
    ...) are the same type in every build; the scalar's declared size is its size; every
    vector belongs to one scalar; and every primitive number type has natural vectors. *)
Theorem C58_scalar : forall (fs : features) (l : packed_line), In l x86_packed ->
  packable fs (p_el l) = natural fs (p_alias l) /\ In (p_el l, p_size l) primitive_sizes /\
  (forall m, In m x86_packed -> p_vec m = p_vec l -> p_el m = p_el l) /\ (forall q, In q primitive_sizes -> exists m, In m x86_packed /\ p_el m = fst q).
Proof. exact c58_scalar. Qed.
Print Assumptions C58_scalar.

Example C58_scalar_case : packable sandy_bridge "f32" = [mkPacked "f32" "f32s" "f32x4" 4 4 [] ["avx2"]%string].
Proof. vm_compute. reflexivity. Qed.

Example a_real_target : target sandy_bridge.
Proof. split; [intros hi lo H|intros f H]; repeat (destruct H as [H|H]; [try injection H as <- <-; subst; vm_compute; intros; first [reflexivity|assumption|discriminate]|]); destruct H. Qed.

Example gate_nontrivial :
  let g := mkGated "HSub" "i16x8" "hsub" ["ssse3"] [] ["_mm_hsub_epi16"; "_mm_unpacklo_epi32"; "_mm_unpackhi_epi32"] in
  In g x86_gated /\ underpowered g = false /\ compiled sandy_bridge g = true /\ length (definitions sandy_bridge g) = 1%nat.
Proof. cbv zeta. split; [apply (nth_error_In _ 477); vm_compute; reflexivity|split; [reflexivity|split; vm_compute; reflexivity]]. Qed.

Example weak_gate_nontrivial :
  let g := mkGated "Cmp" "u32x8" "min" ["avx"] [] ["_mm256_min_epu32"] in
  In g x86_gated /\ underpowered g = true /\ g_mm g <> [] /\ sandy_bridge (has_gate g) = true /\ sandy_bridge (needs g) = false.
Proof. cbv zeta. split; [apply (nth_error_In _ 281); vm_compute; reflexivity|split; [reflexivity|split; [discriminate|split; reflexivity]]]. Qed.

Example natural_nontrivial : natural sandy_bridge "u16s" = [mkPacked "u16" "u16s" "u16x8" 2 8 [] ["avx2"]%string].
Proof. vm_compute. reflexivity. Qed.
