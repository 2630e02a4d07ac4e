(** Which instructions a machine has, independent of the crate: the x86 feature levels
    and the level every intrinsic needs (Intel intrinsics guide). *)
From Coq Require Import String.
From Verif Require Import Base GateTables.
Open Scope string_scope.

(** The features a build enables. *)
Definition features := string -> bool.

(** Every level includes the one below it. *)
Definition levels : list (string * string) :=
  [("avx2", "avx"); ("avx", "sse4.2"); ("sse4.2", "sse4.1"); ("sse4.1", "ssse3"); ("ssse3", "sse3"); ("sse3", "sse2"); ("sse2", "sse")].
(** Names the compiler does not know, so that no build enables them. *)
Definition unknown_names : list string := ["avx512"; "avx1024"; "avx512-notyet"; "avx512-butnotyet"].
(** The feature sets a real build can have. *)
Definition target (fs : features) : Prop :=
  (forall hi lo, In (hi, lo) levels -> fs hi = true -> fs lo = true) /\
  (forall f, In f unknown_names -> fs f = false).

Definition sse_set : list string := ["_mm_and_ps"; "_mm_cmpeq_ps"; "_mm_max_ps"; "_mm_min_ps"; "_mm_rcp_ps"; "_mm_rsqrt_ps"; "_mm_sqrt_ps"; "_mm_shuffle_ps"].
Definition sse2_set : list string :=
  ["_mm_adds_epi16"; "_mm_adds_epi8"; "_mm_adds_epu16"; "_mm_adds_epu8"; "_mm_subs_epi16"; "_mm_subs_epi8"; "_mm_subs_epu16"; "_mm_subs_epu8";
   "_mm_and_pd"; "_mm_cmpeq_epi8"; "_mm_cmpeq_epi16"; "_mm_cmpeq_epi32"; "_mm_cmpeq_pd"; "_mm_cvtepi32_pd"; "_mm_cvtps_pd";
   "_mm_max_epi16"; "_mm_max_epu8"; "_mm_min_epi16"; "_mm_min_epu8"; "_mm_max_pd"; "_mm_min_pd"; "_mm_packs_epi16"; "_mm_packs_epi32"; "_mm_packus_epi16";
   "_mm_sad_epu8"; "_mm_shuffle_epi32"; "_mm_sqrt_pd"; "_mm_unpackhi_epi32"; "_mm_unpackhi_epi64"; "_mm_unpacklo_epi32"; "_mm_unpacklo_epi64"].
Definition sse3_set : list string := ["_mm_hadd_ps"; "_mm_hadd_pd"; "_mm_hsub_ps"; "_mm_hsub_pd"].
Definition ssse3_set : list string :=
  ["_mm_abs_epi8"; "_mm_abs_epi16"; "_mm_abs_epi32"; "_mm_hadd_epi16"; "_mm_hadd_epi32"; "_mm_hadds_epi16"; "_mm_hsub_epi16"; "_mm_hsub_epi32"; "_mm_hsubs_epi16"; "_mm_shuffle_epi8"].
Definition sse41_set : list string :=
  ["_mm_blendv_epi8"; "_mm_ceil_pd"; "_mm_ceil_ps"; "_mm_floor_pd"; "_mm_floor_ps"; "_mm_round_pd"; "_mm_round_ps"; "_mm_cmpeq_epi64";
   "_mm_cvtepi8_epi16"; "_mm_cvtepi16_epi32"; "_mm_cvtepi32_epi64"; "_mm_cvtepu8_epi16"; "_mm_cvtepu16_epi32"; "_mm_cvtepu32_epi64";
   "_mm_max_epi8"; "_mm_max_epi32"; "_mm_max_epu16"; "_mm_max_epu32"; "_mm_min_epi8"; "_mm_min_epi32"; "_mm_min_epu16"; "_mm_min_epu32"; "_mm_packus_epi32"].
Definition avx_set : list string :=
  ["_mm256_and_pd"; "_mm256_and_ps"; "_mm256_castsi256_si128"; "_mm256_ceil_pd"; "_mm256_ceil_ps"; "_mm256_floor_pd"; "_mm256_floor_ps"; "_mm256_round_pd"; "_mm256_round_ps";
   "_mm256_cmp_pd"; "_mm256_cmp_ps"; "_mm256_cvtepi32_pd"; "_mm256_cvtps_pd"; "_mm256_hadd_pd"; "_mm256_hadd_ps"; "_mm256_hsub_pd"; "_mm256_hsub_ps";
   "_mm256_max_pd"; "_mm256_max_ps"; "_mm256_min_pd"; "_mm256_min_ps"; "_mm256_rcp_ps"; "_mm256_rsqrt_ps"; "_mm256_sqrt_pd"; "_mm256_sqrt_ps"].
Definition avx2_set : list string :=
  ["_mm256_abs_epi16"; "_mm256_abs_epi32"; "_mm256_abs_epi8"; "_mm256_adds_epi16"; "_mm256_adds_epi8"; "_mm256_adds_epu16"; "_mm256_adds_epu8"; "_mm256_blendv_epi8";
   "_mm256_cmpeq_epi16"; "_mm256_cmpeq_epi32"; "_mm256_cmpeq_epi64"; "_mm256_cmpeq_epi8"; "_mm256_cvtepi16_epi32"; "_mm256_cvtepi32_epi64"; "_mm256_cvtepi8_epi16";
   "_mm256_cvtepu16_epi32"; "_mm256_cvtepu32_epi64"; "_mm256_cvtepu8_epi16"; "_mm256_hadd_epi16"; "_mm256_hadd_epi32"; "_mm256_hadds_epi16"; "_mm256_hsub_epi16"; "_mm256_hsub_epi32";
   "_mm256_hsubs_epi16"; "_mm256_max_epi16"; "_mm256_max_epi32"; "_mm256_max_epi8"; "_mm256_max_epu16"; "_mm256_max_epu32"; "_mm256_max_epu8"; "_mm256_min_epi16"; "_mm256_min_epi32";
   "_mm256_min_epi8"; "_mm256_min_epu16"; "_mm256_min_epu32"; "_mm256_min_epu8"; "_mm256_packs_epi16"; "_mm256_packs_epi32"; "_mm256_packus_epi16"; "_mm256_packus_epi32";
   "_mm256_permute4x64_epi64"; "_mm256_sad_epu8"; "_mm256_shuffle_epi8"; "_mm256_subs_epi16"; "_mm256_subs_epi8"; "_mm256_subs_epu16"; "_mm256_subs_epu8"; "_mm256_unpackhi_epi32";
   "_mm256_unpackhi_epi64"; "_mm256_unpacklo_epi32"; "_mm256_unpacklo_epi64"].
(** The feature an intrinsic needs. *)
Definition feature_sets : list (string * list string) :=
  [("sse", sse_set); ("sse2", sse2_set); ("sse3", sse3_set); ("ssse3", ssse3_set); ("sse4.1", sse41_set); ("avx", avx_set); ("avx2", avx2_set);
   ("avx512bw", ["_mm512_mask_mov_epi8"]); ("avx512vbmi", ["_mm512_permutexvar_epi8"])].
(** The machine has the instructions of [intrinsic]. *)
Definition provides (fs : features) (intrinsic : string) : Prop :=
  exists f set, In (f, set) feature_sets /\ In intrinsic set /\ fs f = true.

(** The methods whose gate is weaker than the instruction they use: [min] and [max] of
    u32x8 and i32x8 (gated on AVX, the instructions are AVX2) and rounding of f64x4
    (gated on SSE4.1, the instructions are AVX). *)
Definition underpowered (g : gated) : bool :=
  (String.eqb (g_trait g) "Cmp" && (String.eqb (g_vec g) "u32x8" || String.eqb (g_vec g) "i32x8")) || (String.eqb (g_trait g) "Round" && String.eqb (g_vec g) "f64x4").
Definition has_gate (g : gated) : string := if String.eqb (g_trait g) "Cmp" then "avx" else "sse4.1".
Definition needs (g : gated) : string := if String.eqb (g_trait g) "Cmp" then "avx2" else "avx".
(** A concrete build: AVX without AVX2. *)
Definition sandy_bridge (f : string) : bool := existsb (String.eqb f) ["avx"; "sse4.2"; "sse4.1"; "ssse3"; "sse3"; "sse2"; "sse"]%string.

(** Rust's primitive types and their sizes in bytes. *)
Definition primitive_sizes : list (string * Z) :=
  [("u8", 1); ("i8", 1); ("u16", 2); ("i16", 2); ("u32", 4); ("i32", 4); ("f32", 4); ("u64", 8); ("i64", 8); ("f64", 8)]%Z.
