(** Lane-wise operation tables of /repo/src/arch, transcribed by tools/gen_ops.py.
    Each entry cites the file and line it was copied from; nothing is computed here. *)
From Coq Require Import String.
From Verif Require Import Base Lanes.
Open Scope string_scope.
Open Scope Z_scope.

(** The element type of a vector.
    src/arch/x86/vecs.rs:4-33. *)
Inductive elty := EInt (t : ity) | EF32 | EF64.

(** One line [fn => intrinsic(args), [indices]] of a [rust_fallback_impl!],
    [rust_fallback_impl_binary!] or [rust_fallback_eq!]: trait, vector, element type,
    element type of the result, function, target feature, intrinsic, its extra
    arguments, and the lane indices of the portable version.
    src/intrin/macros.rs:9-54, src/intrin/eq.rs:46-76. *)
Record op_impl := mkOp {
  op_trait : string; op_vec : string; op_ty : vty; op_el : elty; op_out : elty; op_fn : string;
  op_feat : string; op_mm : string; op_args : list string; op_idx : list Z }.

(** src/arch/x86/intrin/eq.rs *)
Definition x86_eq : list op_impl := [
  (* src/arch/x86/intrin/eq.rs:17 *)
  mkOp "Eq" "u8x16" (mkVty 16 1) (EInt u8) (EInt u8) "eq_mask" "sse2" "_mm_cmpeq_epi8" []
    [0; 1; 2; 3; 4; 5; 6; 7; 8; 9; 10; 11; 12; 13; 14; 15];
  (* src/arch/x86/intrin/eq.rs:23 *)
  mkOp "Eq" "i8x16" (mkVty 16 1) (EInt i8) (EInt u8) "eq_mask" "sse4.1" "_mm_cmpeq_epi8" []
    [0; 1; 2; 3; 4; 5; 6; 7; 8; 9; 10; 11; 12; 13; 14; 15];
  (* src/arch/x86/intrin/eq.rs:29 *)
  mkOp "Eq" "u16x8" (mkVty 8 2) (EInt u16) (EInt u16) "eq_mask" "sse4.1" "_mm_cmpeq_epi16" []
    [0; 1; 2; 3; 4; 5; 6; 7];
  (* src/arch/x86/intrin/eq.rs:35 *)
  mkOp "Eq" "i16x8" (mkVty 8 2) (EInt i16) (EInt u16) "eq_mask" "sse4.1" "_mm_cmpeq_epi16" []
    [0; 1; 2; 3; 4; 5; 6; 7];
  (* src/arch/x86/intrin/eq.rs:41 *)
  mkOp "Eq" "u32x4" (mkVty 4 4) (EInt u32) (EInt u32) "eq_mask" "sse4.1" "_mm_cmpeq_epi32" []
    [0; 1; 2; 3];
  (* src/arch/x86/intrin/eq.rs:47 *)
  mkOp "Eq" "i32x4" (mkVty 4 4) (EInt i32) (EInt u32) "eq_mask" "sse4.1" "_mm_cmpeq_epi32" []
    [0; 1; 2; 3];
  (* src/arch/x86/intrin/eq.rs:53 *)
  mkOp "Eq" "f32x4" (mkVty 4 4) EF32 (EInt u32) "eq_mask" "sse" "_mm_cmpeq_ps" []
    [0; 1; 2; 3];
  (* src/arch/x86/intrin/eq.rs:59 *)
  mkOp "Eq" "f64x2" (mkVty 2 8) EF64 (EInt u64) "eq_mask" "sse2" "_mm_cmpeq_pd" []
    [0; 1];
  (* src/arch/x86/intrin/eq.rs:65 *)
  mkOp "Eq" "u64x2" (mkVty 2 8) (EInt u64) (EInt u64) "eq_mask" "sse4.1" "_mm_cmpeq_epi64" []
    [0; 1];
  (* src/arch/x86/intrin/eq.rs:71 *)
  mkOp "Eq" "i64x2" (mkVty 2 8) (EInt i64) (EInt u64) "eq_mask" "sse4.1" "_mm_cmpeq_epi64" []
    [0; 1];
  (* src/arch/x86/intrin/eq.rs:77 *)
  mkOp "Eq" "u8x32" (mkVty 32 1) (EInt u8) (EInt u8) "eq_mask" "avx2" "_mm256_cmpeq_epi8" []
    [0; 1; 2; 3; 4; 5; 6; 7; 8; 9; 10; 11; 12; 13; 14; 15; 16; 17; 18; 19; 20; 21; 22; 23; 24; 25; 26; 27; 28; 29; 30; 31];
  (* src/arch/x86/intrin/eq.rs:84 *)
  mkOp "Eq" "i8x32" (mkVty 32 1) (EInt i8) (EInt u8) "eq_mask" "avx2" "_mm256_cmpeq_epi8" []
    [0; 1; 2; 3; 4; 5; 6; 7; 8; 9; 10; 11; 12; 13; 14; 15; 16; 17; 18; 19; 20; 21; 22; 23; 24; 25; 26; 27; 28; 29; 30; 31];
  (* src/arch/x86/intrin/eq.rs:91 *)
  mkOp "Eq" "u16x16" (mkVty 16 2) (EInt u16) (EInt u16) "eq_mask" "avx2" "_mm256_cmpeq_epi16" []
    [0; 1; 2; 3; 4; 5; 6; 7; 8; 9; 10; 11; 12; 13; 14; 15];
  (* src/arch/x86/intrin/eq.rs:97 *)
  mkOp "Eq" "i16x16" (mkVty 16 2) (EInt i16) (EInt u16) "eq_mask" "avx2" "_mm256_cmpeq_epi16" []
    [0; 1; 2; 3; 4; 5; 6; 7; 8; 9; 10; 11; 12; 13; 14; 15];
  (* src/arch/x86/intrin/eq.rs:103 *)
  mkOp "Eq" "u32x8" (mkVty 8 4) (EInt u32) (EInt u32) "eq_mask" "avx2" "_mm256_cmpeq_epi32" []
    [0; 1; 2; 3; 4; 5; 6; 7];
  (* src/arch/x86/intrin/eq.rs:109 *)
  mkOp "Eq" "i32x8" (mkVty 8 4) (EInt i32) (EInt u32) "eq_mask" "avx2" "_mm256_cmpeq_epi32" []
    [0; 1; 2; 3; 4; 5; 6; 7];
  (* src/arch/x86/intrin/eq.rs:115 *)
  mkOp "Eq" "f32x8" (mkVty 8 4) EF32 (EInt u32) "eq_mask" "avx" "_mm256_cmp_ps" ["0x00"]
    [0; 1; 2; 3; 4; 5; 6; 7];
  (* src/arch/x86/intrin/eq.rs:121 *)
  mkOp "Eq" "f64x4" (mkVty 4 8) EF64 (EInt u64) "eq_mask" "avx" "_mm256_cmp_pd" ["0x00"]
    [0; 1; 2; 3];
  (* src/arch/x86/intrin/eq.rs:127 *)
  mkOp "Eq" "u64x4" (mkVty 4 8) (EInt u64) (EInt u64) "eq_mask" "avx2" "_mm256_cmpeq_epi64" []
    [0; 1; 2; 3];
  (* src/arch/x86/intrin/eq.rs:133 *)
  mkOp "Eq" "i64x4" (mkVty 4 8) (EInt i64) (EInt u64) "eq_mask" "avx2" "_mm256_cmpeq_epi64" []
    [0; 1; 2; 3]].

(** src/arch/x86/intrin/cmp.rs *)
Definition x86_cmp : list op_impl := [
  (* src/arch/x86/intrin/cmp.rs:16 *)
  mkOp "Cmp" "u8x16" (mkVty 16 1) (EInt u8) (EInt u8) "min" "sse2" "_mm_min_epu8" []
    [0; 1; 2; 3; 4; 5; 6; 7; 8; 9; 10; 11; 12; 13; 14; 15];
  (* src/arch/x86/intrin/cmp.rs:17 *)
  mkOp "Cmp" "u8x16" (mkVty 16 1) (EInt u8) (EInt u8) "max" "sse2" "_mm_max_epu8" []
    [0; 1; 2; 3; 4; 5; 6; 7; 8; 9; 10; 11; 12; 13; 14; 15];
  (* src/arch/x86/intrin/cmp.rs:23 *)
  mkOp "Cmp" "i8x16" (mkVty 16 1) (EInt i8) (EInt i8) "min" "sse4.1" "_mm_min_epi8" []
    [0; 1; 2; 3; 4; 5; 6; 7; 8; 9; 10; 11; 12; 13; 14; 15];
  (* src/arch/x86/intrin/cmp.rs:24 *)
  mkOp "Cmp" "i8x16" (mkVty 16 1) (EInt i8) (EInt i8) "max" "sse4.1" "_mm_max_epi8" []
    [0; 1; 2; 3; 4; 5; 6; 7; 8; 9; 10; 11; 12; 13; 14; 15];
  (* src/arch/x86/intrin/cmp.rs:30 *)
  mkOp "Cmp" "u16x8" (mkVty 8 2) (EInt u16) (EInt u16) "min" "sse4.1" "_mm_min_epu16" []
    [0; 1; 2; 3; 4; 5; 6; 7];
  (* src/arch/x86/intrin/cmp.rs:31 *)
  mkOp "Cmp" "u16x8" (mkVty 8 2) (EInt u16) (EInt u16) "max" "sse4.1" "_mm_max_epu16" []
    [0; 1; 2; 3; 4; 5; 6; 7];
  (* src/arch/x86/intrin/cmp.rs:37 *)
  mkOp "Cmp" "i16x8" (mkVty 8 2) (EInt i16) (EInt i16) "min" "sse4.1" "_mm_min_epi16" []
    [0; 1; 2; 3; 4; 5; 6; 7];
  (* src/arch/x86/intrin/cmp.rs:38 *)
  mkOp "Cmp" "i16x8" (mkVty 8 2) (EInt i16) (EInt i16) "max" "sse4.1" "_mm_max_epi16" []
    [0; 1; 2; 3; 4; 5; 6; 7];
  (* src/arch/x86/intrin/cmp.rs:44 *)
  mkOp "Cmp" "u32x4" (mkVty 4 4) (EInt u32) (EInt u32) "min" "sse4.1" "_mm_min_epu32" []
    [0; 1; 2; 3];
  (* src/arch/x86/intrin/cmp.rs:45 *)
  mkOp "Cmp" "u32x4" (mkVty 4 4) (EInt u32) (EInt u32) "max" "sse4.1" "_mm_max_epu32" []
    [0; 1; 2; 3];
  (* src/arch/x86/intrin/cmp.rs:51 *)
  mkOp "Cmp" "i32x4" (mkVty 4 4) (EInt i32) (EInt i32) "min" "sse4.1" "_mm_min_epi32" []
    [0; 1; 2; 3];
  (* src/arch/x86/intrin/cmp.rs:52 *)
  mkOp "Cmp" "i32x4" (mkVty 4 4) (EInt i32) (EInt i32) "max" "sse4.1" "_mm_max_epi32" []
    [0; 1; 2; 3];
  (* src/arch/x86/intrin/cmp.rs:58 *)
  mkOp "Cmp" "f32x4" (mkVty 4 4) EF32 EF32 "min" "sse" "_mm_min_ps" []
    [0; 1; 2; 3];
  (* src/arch/x86/intrin/cmp.rs:59 *)
  mkOp "Cmp" "f32x4" (mkVty 4 4) EF32 EF32 "max" "sse" "_mm_max_ps" []
    [0; 1; 2; 3];
  (* src/arch/x86/intrin/cmp.rs:65 *)
  mkOp "Cmp" "f64x2" (mkVty 2 8) EF64 EF64 "min" "sse2" "_mm_min_pd" []
    [0; 1];
  (* src/arch/x86/intrin/cmp.rs:66 *)
  mkOp "Cmp" "f64x2" (mkVty 2 8) EF64 EF64 "max" "sse2" "_mm_max_pd" []
    [0; 1];
  (* src/arch/x86/intrin/cmp.rs:72 *)
  mkOp "Cmp" "u8x32" (mkVty 32 1) (EInt u8) (EInt u8) "min" "avx2" "_mm256_min_epu8" []
    [0; 1; 2; 3; 4; 5; 6; 7; 8; 9; 10; 11; 12; 13; 14; 15; 16; 17; 18; 19; 20; 21; 22; 23; 24; 25; 26; 27; 28; 29; 30; 31];
  (* src/arch/x86/intrin/cmp.rs:74 *)
  mkOp "Cmp" "u8x32" (mkVty 32 1) (EInt u8) (EInt u8) "max" "avx2" "_mm256_max_epu8" []
    [0; 1; 2; 3; 4; 5; 6; 7; 8; 9; 10; 11; 12; 13; 14; 15; 16; 17; 18; 19; 20; 21; 22; 23; 24; 25; 26; 27; 28; 29; 30; 31];
  (* src/arch/x86/intrin/cmp.rs:81 *)
  mkOp "Cmp" "i8x32" (mkVty 32 1) (EInt i8) (EInt i8) "min" "avx2" "_mm256_min_epi8" []
    [0; 1; 2; 3; 4; 5; 6; 7; 8; 9; 10; 11; 12; 13; 14; 15; 16; 17; 18; 19; 20; 21; 22; 23; 24; 25; 26; 27; 28; 29; 30; 31];
  (* src/arch/x86/intrin/cmp.rs:83 *)
  mkOp "Cmp" "i8x32" (mkVty 32 1) (EInt i8) (EInt i8) "max" "avx2" "_mm256_max_epi8" []
    [0; 1; 2; 3; 4; 5; 6; 7; 8; 9; 10; 11; 12; 13; 14; 15; 16; 17; 18; 19; 20; 21; 22; 23; 24; 25; 26; 27; 28; 29; 30; 31];
  (* src/arch/x86/intrin/cmp.rs:90 *)
  mkOp "Cmp" "u16x16" (mkVty 16 2) (EInt u16) (EInt u16) "min" "avx2" "_mm256_min_epu16" []
    [0; 1; 2; 3; 4; 5; 6; 7; 8; 9; 10; 11; 12; 13; 14; 15];
  (* src/arch/x86/intrin/cmp.rs:91 *)
  mkOp "Cmp" "u16x16" (mkVty 16 2) (EInt u16) (EInt u16) "max" "avx2" "_mm256_max_epu16" []
    [0; 1; 2; 3; 4; 5; 6; 7; 8; 9; 10; 11; 12; 13; 14; 15];
  (* src/arch/x86/intrin/cmp.rs:97 *)
  mkOp "Cmp" "i16x16" (mkVty 16 2) (EInt i16) (EInt i16) "min" "avx2" "_mm256_min_epi16" []
    [0; 1; 2; 3; 4; 5; 6; 7; 8; 9; 10; 11; 12; 13; 14; 15];
  (* src/arch/x86/intrin/cmp.rs:98 *)
  mkOp "Cmp" "i16x16" (mkVty 16 2) (EInt i16) (EInt i16) "max" "avx2" "_mm256_max_epi16" []
    [0; 1; 2; 3; 4; 5; 6; 7; 8; 9; 10; 11; 12; 13; 14; 15];
  (* src/arch/x86/intrin/cmp.rs:104 *)
  mkOp "Cmp" "u32x8" (mkVty 8 4) (EInt u32) (EInt u32) "min" "avx" "_mm256_min_epu32" []
    [0; 1; 2; 3; 4; 5; 6; 7];
  (* src/arch/x86/intrin/cmp.rs:105 *)
  mkOp "Cmp" "u32x8" (mkVty 8 4) (EInt u32) (EInt u32) "max" "avx" "_mm256_max_epu32" []
    [0; 1; 2; 3; 4; 5; 6; 7];
  (* src/arch/x86/intrin/cmp.rs:111 *)
  mkOp "Cmp" "i32x8" (mkVty 8 4) (EInt i32) (EInt i32) "min" "avx" "_mm256_min_epi32" []
    [0; 1; 2; 3; 4; 5; 6; 7];
  (* src/arch/x86/intrin/cmp.rs:112 *)
  mkOp "Cmp" "i32x8" (mkVty 8 4) (EInt i32) (EInt i32) "max" "avx" "_mm256_max_epi32" []
    [0; 1; 2; 3; 4; 5; 6; 7];
  (* src/arch/x86/intrin/cmp.rs:118 *)
  mkOp "Cmp" "f32x8" (mkVty 8 4) EF32 EF32 "min" "avx" "_mm256_min_ps" []
    [0; 1; 2; 3; 4; 5; 6; 7];
  (* src/arch/x86/intrin/cmp.rs:119 *)
  mkOp "Cmp" "f32x8" (mkVty 8 4) EF32 EF32 "max" "avx" "_mm256_max_ps" []
    [0; 1; 2; 3; 4; 5; 6; 7];
  (* src/arch/x86/intrin/cmp.rs:125 *)
  mkOp "Cmp" "f64x4" (mkVty 4 8) EF64 EF64 "min" "avx" "_mm256_min_pd" []
    [0; 1; 2; 3];
  (* src/arch/x86/intrin/cmp.rs:126 *)
  mkOp "Cmp" "f64x4" (mkVty 4 8) EF64 EF64 "max" "avx" "_mm256_max_pd" []
    [0; 1; 2; 3]].

(** src/arch/x86/intrin/saturating_add.rs *)
Definition x86_saturating_add : list op_impl := [
  (* src/arch/x86/intrin/saturating_add.rs:16 *)
  mkOp "SaturatingAdd" "u8x16" (mkVty 16 1) (EInt u8) (EInt u8) "saturating_add" "sse2" "_mm_adds_epu8" []
    [0; 1; 2; 3; 4; 5; 6; 7; 8; 9; 10; 11; 12; 13; 14; 15];
  (* src/arch/x86/intrin/saturating_add.rs:22 *)
  mkOp "SaturatingAdd" "i8x16" (mkVty 16 1) (EInt i8) (EInt i8) "saturating_add" "sse2" "_mm_adds_epi8" []
    [0; 1; 2; 3; 4; 5; 6; 7; 8; 9; 10; 11; 12; 13; 14; 15];
  (* src/arch/x86/intrin/saturating_add.rs:28 *)
  mkOp "SaturatingAdd" "u16x8" (mkVty 8 2) (EInt u16) (EInt u16) "saturating_add" "sse2" "_mm_adds_epu16" []
    [0; 1; 2; 3; 4; 5; 6; 7];
  (* src/arch/x86/intrin/saturating_add.rs:34 *)
  mkOp "SaturatingAdd" "i16x8" (mkVty 8 2) (EInt i16) (EInt i16) "saturating_add" "sse2" "_mm_adds_epi16" []
    [0; 1; 2; 3; 4; 5; 6; 7];
  (* src/arch/x86/intrin/saturating_add.rs:40 *)
  mkOp "SaturatingAdd" "u8x32" (mkVty 32 1) (EInt u8) (EInt u8) "saturating_add" "avx2" "_mm256_adds_epu8" []
    [0; 1; 2; 3; 4; 5; 6; 7; 8; 9; 10; 11; 12; 13; 14; 15; 16; 17; 18; 19; 20; 21; 22; 23; 24; 25; 26; 27; 28; 29; 30; 31];
  (* src/arch/x86/intrin/saturating_add.rs:48 *)
  mkOp "SaturatingAdd" "i8x32" (mkVty 32 1) (EInt i8) (EInt i8) "saturating_add" "avx2" "_mm256_adds_epi8" []
    [0; 1; 2; 3; 4; 5; 6; 7; 8; 9; 10; 11; 12; 13; 14; 15; 16; 17; 18; 19; 20; 21; 22; 23; 24; 25; 26; 27; 28; 29; 30; 31];
  (* src/arch/x86/intrin/saturating_add.rs:55 *)
  mkOp "SaturatingAdd" "u16x16" (mkVty 16 2) (EInt u16) (EInt u16) "saturating_add" "avx2" "_mm256_adds_epu16" []
    [0; 1; 2; 3; 4; 5; 6; 7; 8; 9; 10; 11; 12; 13; 14; 15];
  (* src/arch/x86/intrin/saturating_add.rs:61 *)
  mkOp "SaturatingAdd" "i16x16" (mkVty 16 2) (EInt i16) (EInt i16) "saturating_add" "avx2" "_mm256_adds_epi16" []
    [0; 1; 2; 3; 4; 5; 6; 7; 8; 9; 10; 11; 12; 13; 14; 15]].

(** src/arch/x86/intrin/saturating_sub.rs *)
Definition x86_saturating_sub : list op_impl := [
  (* src/arch/x86/intrin/saturating_sub.rs:16 *)
  mkOp "SaturatingSub" "u8x16" (mkVty 16 1) (EInt u8) (EInt u8) "saturating_sub" "sse2" "_mm_subs_epu8" []
    [0; 1; 2; 3; 4; 5; 6; 7; 8; 9; 10; 11; 12; 13; 14; 15];
  (* src/arch/x86/intrin/saturating_sub.rs:22 *)
  mkOp "SaturatingSub" "i8x16" (mkVty 16 1) (EInt i8) (EInt i8) "saturating_sub" "sse2" "_mm_subs_epi8" []
    [0; 1; 2; 3; 4; 5; 6; 7; 8; 9; 10; 11; 12; 13; 14; 15];
  (* src/arch/x86/intrin/saturating_sub.rs:28 *)
  mkOp "SaturatingSub" "u16x8" (mkVty 8 2) (EInt u16) (EInt u16) "saturating_sub" "sse2" "_mm_subs_epu16" []
    [0; 1; 2; 3; 4; 5; 6; 7];
  (* src/arch/x86/intrin/saturating_sub.rs:34 *)
  mkOp "SaturatingSub" "i16x8" (mkVty 8 2) (EInt i16) (EInt i16) "saturating_sub" "sse2" "_mm_subs_epi16" []
    [0; 1; 2; 3; 4; 5; 6; 7];
  (* src/arch/x86/intrin/saturating_sub.rs:40 *)
  mkOp "SaturatingSub" "u8x32" (mkVty 32 1) (EInt u8) (EInt u8) "saturating_sub" "avx2" "_mm256_subs_epu8" []
    [0; 1; 2; 3; 4; 5; 6; 7; 8; 9; 10; 11; 12; 13; 14; 15; 16; 17; 18; 19; 20; 21; 22; 23; 24; 25; 26; 27; 28; 29; 30; 31];
  (* src/arch/x86/intrin/saturating_sub.rs:47 *)
  mkOp "SaturatingSub" "i8x32" (mkVty 32 1) (EInt i8) (EInt i8) "saturating_sub" "avx2" "_mm256_subs_epi8" []
    [0; 1; 2; 3; 4; 5; 6; 7; 8; 9; 10; 11; 12; 13; 14; 15; 16; 17; 18; 19; 20; 21; 22; 23; 24; 25; 26; 27; 28; 29; 30; 31];
  (* src/arch/x86/intrin/saturating_sub.rs:54 *)
  mkOp "SaturatingSub" "u16x16" (mkVty 16 2) (EInt u16) (EInt u16) "saturating_sub" "avx2" "_mm256_subs_epu16" []
    [0; 1; 2; 3; 4; 5; 6; 7; 8; 9; 10; 11; 12; 13; 14; 15];
  (* src/arch/x86/intrin/saturating_sub.rs:60 *)
  mkOp "SaturatingSub" "i16x16" (mkVty 16 2) (EInt i16) (EInt i16) "saturating_sub" "avx2" "_mm256_subs_epi16" []
    [0; 1; 2; 3; 4; 5; 6; 7; 8; 9; 10; 11; 12; 13; 14; 15]].

(** src/arch/x86/intrin/round.rs *)
Definition x86_round : list op_impl := [
  (* src/arch/x86/intrin/round.rs:17 *)
  mkOp "Round" "f32x4" (mkVty 4 4) EF32 EF32 "round" "sse4.1" "_mm_round_ps" ["_MM_FROUND_TO_NEAREST_INT"]
    [0; 1; 2; 3];
  (* src/arch/x86/intrin/round.rs:18 *)
  mkOp "Round" "f32x4" (mkVty 4 4) EF32 EF32 "ceil" "sse4.1" "_mm_ceil_ps" []
    [0; 1; 2; 3];
  (* src/arch/x86/intrin/round.rs:19 *)
  mkOp "Round" "f32x4" (mkVty 4 4) EF32 EF32 "floor" "sse4.1" "_mm_floor_ps" []
    [0; 1; 2; 3];
  (* src/arch/x86/intrin/round.rs:20 *)
  mkOp "Round" "f32x4" (mkVty 4 4) EF32 EF32 "trunc" "sse4.1" "_mm_round_ps" ["_MM_FROUND_TRUNC"]
    [0; 1; 2; 3];
  (* src/arch/x86/intrin/round.rs:26 *)
  mkOp "Round" "f64x2" (mkVty 2 8) EF64 EF64 "round" "sse4.1" "_mm_round_pd" ["_MM_FROUND_TO_NEAREST_INT"]
    [0; 1];
  (* src/arch/x86/intrin/round.rs:27 *)
  mkOp "Round" "f64x2" (mkVty 2 8) EF64 EF64 "ceil" "sse4.1" "_mm_ceil_pd" []
    [0; 1];
  (* src/arch/x86/intrin/round.rs:28 *)
  mkOp "Round" "f64x2" (mkVty 2 8) EF64 EF64 "floor" "sse4.1" "_mm_floor_pd" []
    [0; 1];
  (* src/arch/x86/intrin/round.rs:29 *)
  mkOp "Round" "f64x2" (mkVty 2 8) EF64 EF64 "trunc" "sse4.1" "_mm_round_pd" ["_MM_FROUND_TRUNC"]
    [0; 1];
  (* src/arch/x86/intrin/round.rs:35 *)
  mkOp "Round" "f32x8" (mkVty 8 4) EF32 EF32 "round" "avx" "_mm256_round_ps" ["_MM_FROUND_TO_NEAREST_INT"]
    [0; 1; 2; 3; 4; 5; 6; 7];
  (* src/arch/x86/intrin/round.rs:36 *)
  mkOp "Round" "f32x8" (mkVty 8 4) EF32 EF32 "ceil" "avx" "_mm256_ceil_ps" []
    [0; 1; 2; 3; 4; 5; 6; 7];
  (* src/arch/x86/intrin/round.rs:37 *)
  mkOp "Round" "f32x8" (mkVty 8 4) EF32 EF32 "floor" "avx" "_mm256_floor_ps" []
    [0; 1; 2; 3; 4; 5; 6; 7];
  (* src/arch/x86/intrin/round.rs:38 *)
  mkOp "Round" "f32x8" (mkVty 8 4) EF32 EF32 "trunc" "avx" "_mm256_round_ps" ["_MM_FROUND_TRUNC"]
    [0; 1; 2; 3; 4; 5; 6; 7];
  (* src/arch/x86/intrin/round.rs:44 *)
  mkOp "Round" "f64x4" (mkVty 4 8) EF64 EF64 "round" "sse4.1" "_mm256_round_pd" ["_MM_FROUND_TO_NEAREST_INT"]
    [0; 1; 2; 3];
  (* src/arch/x86/intrin/round.rs:45 *)
  mkOp "Round" "f64x4" (mkVty 4 8) EF64 EF64 "ceil" "sse4.1" "_mm256_ceil_pd" []
    [0; 1; 2; 3];
  (* src/arch/x86/intrin/round.rs:46 *)
  mkOp "Round" "f64x4" (mkVty 4 8) EF64 EF64 "floor" "sse4.1" "_mm256_floor_pd" []
    [0; 1; 2; 3];
  (* src/arch/x86/intrin/round.rs:47 *)
  mkOp "Round" "f64x4" (mkVty 4 8) EF64 EF64 "trunc" "sse4.1" "_mm256_round_pd" ["_MM_FROUND_TRUNC"]
    [0; 1; 2; 3]].

(** src/arch/x86/intrin/sqrt.rs *)
Definition x86_sqrt : list op_impl := [
  (* src/arch/x86/intrin/sqrt.rs:16 *)
  mkOp "Sqrt" "f32x8" (mkVty 8 4) EF32 EF32 "sqrt" "avx" "_mm256_sqrt_ps" []
    [0; 1; 2; 3; 4; 5; 6; 7];
  (* src/arch/x86/intrin/sqrt.rs:22 *)
  mkOp "Sqrt" "f64x4" (mkVty 4 8) EF64 EF64 "sqrt" "avx" "_mm256_sqrt_pd" []
    [0; 1; 2; 3];
  (* src/arch/x86/intrin/sqrt.rs:28 *)
  mkOp "Sqrt" "f32x4" (mkVty 4 4) EF32 EF32 "sqrt" "sse" "_mm_sqrt_ps" []
    [0; 1; 2; 3];
  (* src/arch/x86/intrin/sqrt.rs:34 *)
  mkOp "Sqrt" "f64x2" (mkVty 2 8) EF64 EF64 "sqrt" "sse2" "_mm_sqrt_pd" []
    [0; 1]].

(** src/arch/x86/intrin/recip.rs *)
Definition x86_recip : list op_impl := [
  (* src/arch/x86/intrin/recip.rs:16 *)
  mkOp "Recip" "f32x8" (mkVty 8 4) EF32 EF32 "recip" "avx" "_mm256_rcp_ps" []
    [0; 1; 2; 3; 4; 5; 6; 7];
  (* src/arch/x86/intrin/recip.rs:22 *)
  mkOp "Recip" "f32x4" (mkVty 4 4) EF32 EF32 "recip" "sse" "_mm_rcp_ps" []
    [0; 1; 2; 3]].

(** src/arch/x86/intrin/rsqrt.rs *)
Definition x86_rsqrt : list op_impl := [
  (* src/arch/x86/intrin/rsqrt.rs:18 *)
  mkOp "Rsqrt" "f32x8" (mkVty 8 4) EF32 EF32 "rsqrt" "avx" "_mm256_rsqrt_ps" []
    [0; 1; 2; 3; 4; 5; 6; 7];
  (* src/arch/x86/intrin/rsqrt.rs:24 *)
  mkOp "Rsqrt" "f32x4" (mkVty 4 4) EF32 EF32 "rsqrt" "sse" "_mm_rsqrt_ps" []
    [0; 1; 2; 3]].

(** src/arch/unknown/intrin/eq.rs *)
Definition unknown_eq : list op_impl := [
  (* src/arch/unknown/intrin/eq.rs:14 *)
  mkOp "Eq" "u8x16" (mkVty 16 1) (EInt u8) (EInt u8) "eq_mask" "__undefined" "__undefined" []
    [0; 1; 2; 3; 4; 5; 6; 7; 8; 9; 10; 11; 12; 13; 14; 15];
  (* src/arch/unknown/intrin/eq.rs:20 *)
  mkOp "Eq" "i8x16" (mkVty 16 1) (EInt i8) (EInt u8) "eq_mask" "__undefined" "__undefined" []
    [0; 1; 2; 3; 4; 5; 6; 7; 8; 9; 10; 11; 12; 13; 14; 15];
  (* src/arch/unknown/intrin/eq.rs:26 *)
  mkOp "Eq" "u16x8" (mkVty 8 2) (EInt u16) (EInt u16) "eq_mask" "__undefined" "__undefined" []
    [0; 1; 2; 3; 4; 5; 6; 7];
  (* src/arch/unknown/intrin/eq.rs:32 *)
  mkOp "Eq" "i16x8" (mkVty 8 2) (EInt i16) (EInt u16) "eq_mask" "__undefined" "__undefined" []
    [0; 1; 2; 3; 4; 5; 6; 7];
  (* src/arch/unknown/intrin/eq.rs:38 *)
  mkOp "Eq" "u32x4" (mkVty 4 4) (EInt u32) (EInt u32) "eq_mask" "__undefined" "__undefined" []
    [0; 1; 2; 3];
  (* src/arch/unknown/intrin/eq.rs:44 *)
  mkOp "Eq" "i32x4" (mkVty 4 4) (EInt i32) (EInt u32) "eq_mask" "__undefined" "__undefined" []
    [0; 1; 2; 3];
  (* src/arch/unknown/intrin/eq.rs:50 *)
  mkOp "Eq" "f32x4" (mkVty 4 4) EF32 (EInt u32) "eq_mask" "__undefined" "__undefined" []
    [0; 1; 2; 3];
  (* src/arch/unknown/intrin/eq.rs:56 *)
  mkOp "Eq" "f64x2" (mkVty 2 8) EF64 (EInt u64) "eq_mask" "__undefined" "__undefined" []
    [0; 1];
  (* src/arch/unknown/intrin/eq.rs:62 *)
  mkOp "Eq" "u64x2" (mkVty 2 8) (EInt u64) (EInt u64) "eq_mask" "__undefined" "__undefined" []
    [0; 1];
  (* src/arch/unknown/intrin/eq.rs:68 *)
  mkOp "Eq" "i64x2" (mkVty 2 8) (EInt i64) (EInt u64) "eq_mask" "__undefined" "__undefined" []
    [0; 1]].

(** src/arch/unknown/intrin/cmp.rs *)
Definition unknown_cmp : list op_impl := [
  (* src/arch/unknown/intrin/cmp.rs:14 *)
  mkOp "Cmp" "u8x16" (mkVty 16 1) (EInt u8) (EInt u8) "min" "__undefined" "__undefined" []
    [0; 1; 2; 3; 4; 5; 6; 7; 8; 9; 10; 11; 12; 13; 14; 15];
  (* src/arch/unknown/intrin/cmp.rs:15 *)
  mkOp "Cmp" "u8x16" (mkVty 16 1) (EInt u8) (EInt u8) "max" "__undefined" "__undefined" []
    [0; 1; 2; 3; 4; 5; 6; 7; 8; 9; 10; 11; 12; 13; 14; 15];
  (* src/arch/unknown/intrin/cmp.rs:21 *)
  mkOp "Cmp" "i8x16" (mkVty 16 1) (EInt i8) (EInt i8) "min" "__undefined" "__undefined" []
    [0; 1; 2; 3; 4; 5; 6; 7; 8; 9; 10; 11; 12; 13; 14; 15];
  (* src/arch/unknown/intrin/cmp.rs:22 *)
  mkOp "Cmp" "i8x16" (mkVty 16 1) (EInt i8) (EInt i8) "max" "__undefined" "__undefined" []
    [0; 1; 2; 3; 4; 5; 6; 7; 8; 9; 10; 11; 12; 13; 14; 15];
  (* src/arch/unknown/intrin/cmp.rs:28 *)
  mkOp "Cmp" "u16x8" (mkVty 8 2) (EInt u16) (EInt u16) "min" "__undefined" "__undefined" []
    [0; 1; 2; 3; 4; 5; 6; 7];
  (* src/arch/unknown/intrin/cmp.rs:29 *)
  mkOp "Cmp" "u16x8" (mkVty 8 2) (EInt u16) (EInt u16) "max" "__undefined" "__undefined" []
    [0; 1; 2; 3; 4; 5; 6; 7];
  (* src/arch/unknown/intrin/cmp.rs:35 *)
  mkOp "Cmp" "i16x8" (mkVty 8 2) (EInt i16) (EInt i16) "min" "__undefined" "__undefined" []
    [0; 1; 2; 3; 4; 5; 6; 7];
  (* src/arch/unknown/intrin/cmp.rs:36 *)
  mkOp "Cmp" "i16x8" (mkVty 8 2) (EInt i16) (EInt i16) "max" "__undefined" "__undefined" []
    [0; 1; 2; 3; 4; 5; 6; 7];
  (* src/arch/unknown/intrin/cmp.rs:42 *)
  mkOp "Cmp" "u32x4" (mkVty 4 4) (EInt u32) (EInt u32) "min" "__undefined" "__undefined" []
    [0; 1; 2; 3];
  (* src/arch/unknown/intrin/cmp.rs:43 *)
  mkOp "Cmp" "u32x4" (mkVty 4 4) (EInt u32) (EInt u32) "max" "__undefined" "__undefined" []
    [0; 1; 2; 3];
  (* src/arch/unknown/intrin/cmp.rs:49 *)
  mkOp "Cmp" "i32x4" (mkVty 4 4) (EInt i32) (EInt i32) "min" "__undefined" "__undefined" []
    [0; 1; 2; 3];
  (* src/arch/unknown/intrin/cmp.rs:50 *)
  mkOp "Cmp" "i32x4" (mkVty 4 4) (EInt i32) (EInt i32) "max" "__undefined" "__undefined" []
    [0; 1; 2; 3];
  (* src/arch/unknown/intrin/cmp.rs:56 *)
  mkOp "Cmp" "f32x4" (mkVty 4 4) EF32 EF32 "min" "__undefined" "__undefined" []
    [0; 1; 2; 3];
  (* src/arch/unknown/intrin/cmp.rs:57 *)
  mkOp "Cmp" "f32x4" (mkVty 4 4) EF32 EF32 "max" "__undefined" "__undefined" []
    [0; 1; 2; 3];
  (* src/arch/unknown/intrin/cmp.rs:63 *)
  mkOp "Cmp" "f64x2" (mkVty 2 8) EF64 EF64 "min" "__undefined" "__undefined" []
    [0; 1];
  (* src/arch/unknown/intrin/cmp.rs:64 *)
  mkOp "Cmp" "f64x2" (mkVty 2 8) EF64 EF64 "max" "__undefined" "__undefined" []
    [0; 1];
  (* src/arch/unknown/intrin/cmp.rs:70 *)
  mkOp "Cmp" "u8x32" (mkVty 32 1) (EInt u8) (EInt u8) "min" "__undefined" "__undefined" []
    [0; 1; 2; 3; 4; 5; 6; 7; 8; 9; 10; 11; 12; 13; 14; 15; 16; 17; 18; 19; 20; 21; 22; 23; 24; 25; 26; 27; 28; 29; 30; 31];
  (* src/arch/unknown/intrin/cmp.rs:72 *)
  mkOp "Cmp" "u8x32" (mkVty 32 1) (EInt u8) (EInt u8) "max" "__undefined" "__undefined" []
    [0; 1; 2; 3; 4; 5; 6; 7; 8; 9; 10; 11; 12; 13; 14; 15; 16; 17; 18; 19; 20; 21; 22; 23; 24; 25; 26; 27; 28; 29; 30; 31];
  (* src/arch/unknown/intrin/cmp.rs:79 *)
  mkOp "Cmp" "i8x32" (mkVty 32 1) (EInt i8) (EInt i8) "min" "__undefined" "__undefined" []
    [0; 1; 2; 3; 4; 5; 6; 7; 8; 9; 10; 11; 12; 13; 14; 15; 16; 17; 18; 19; 20; 21; 22; 23; 24; 25; 26; 27; 28; 29; 30; 31];
  (* src/arch/unknown/intrin/cmp.rs:81 *)
  mkOp "Cmp" "i8x32" (mkVty 32 1) (EInt i8) (EInt i8) "max" "__undefined" "__undefined" []
    [0; 1; 2; 3; 4; 5; 6; 7; 8; 9; 10; 11; 12; 13; 14; 15; 16; 17; 18; 19; 20; 21; 22; 23; 24; 25; 26; 27; 28; 29; 30; 31];
  (* src/arch/unknown/intrin/cmp.rs:88 *)
  mkOp "Cmp" "u16x16" (mkVty 16 2) (EInt u16) (EInt u16) "min" "__undefined" "__undefined" []
    [0; 1; 2; 3; 4; 5; 6; 7; 8; 9; 10; 11; 12; 13; 14; 15];
  (* src/arch/unknown/intrin/cmp.rs:89 *)
  mkOp "Cmp" "u16x16" (mkVty 16 2) (EInt u16) (EInt u16) "max" "__undefined" "__undefined" []
    [0; 1; 2; 3; 4; 5; 6; 7; 8; 9; 10; 11; 12; 13; 14; 15];
  (* src/arch/unknown/intrin/cmp.rs:95 *)
  mkOp "Cmp" "i16x16" (mkVty 16 2) (EInt i16) (EInt i16) "min" "__undefined" "__undefined" []
    [0; 1; 2; 3; 4; 5; 6; 7; 8; 9; 10; 11; 12; 13; 14; 15];
  (* src/arch/unknown/intrin/cmp.rs:96 *)
  mkOp "Cmp" "i16x16" (mkVty 16 2) (EInt i16) (EInt i16) "max" "__undefined" "__undefined" []
    [0; 1; 2; 3; 4; 5; 6; 7; 8; 9; 10; 11; 12; 13; 14; 15];
  (* src/arch/unknown/intrin/cmp.rs:102 *)
  mkOp "Cmp" "u32x8" (mkVty 8 4) (EInt u32) (EInt u32) "min" "__undefined" "__undefined" []
    [0; 1; 2; 3; 4; 5; 6; 7];
  (* src/arch/unknown/intrin/cmp.rs:103 *)
  mkOp "Cmp" "u32x8" (mkVty 8 4) (EInt u32) (EInt u32) "max" "__undefined" "__undefined" []
    [0; 1; 2; 3; 4; 5; 6; 7];
  (* src/arch/unknown/intrin/cmp.rs:109 *)
  mkOp "Cmp" "i32x8" (mkVty 8 4) (EInt i32) (EInt i32) "min" "__undefined" "__undefined" []
    [0; 1; 2; 3; 4; 5; 6; 7];
  (* src/arch/unknown/intrin/cmp.rs:110 *)
  mkOp "Cmp" "i32x8" (mkVty 8 4) (EInt i32) (EInt i32) "max" "__undefined" "__undefined" []
    [0; 1; 2; 3; 4; 5; 6; 7];
  (* src/arch/unknown/intrin/cmp.rs:116 *)
  mkOp "Cmp" "f32x8" (mkVty 8 4) EF32 EF32 "min" "__undefined" "__undefined" []
    [0; 1; 2; 3; 4; 5; 6; 7];
  (* src/arch/unknown/intrin/cmp.rs:117 *)
  mkOp "Cmp" "f32x8" (mkVty 8 4) EF32 EF32 "max" "__undefined" "__undefined" []
    [0; 1; 2; 3; 4; 5; 6; 7];
  (* src/arch/unknown/intrin/cmp.rs:123 *)
  mkOp "Cmp" "f64x4" (mkVty 4 8) EF64 EF64 "min" "__undefined" "__undefined" []
    [0; 1; 2; 3];
  (* src/arch/unknown/intrin/cmp.rs:124 *)
  mkOp "Cmp" "f64x4" (mkVty 4 8) EF64 EF64 "max" "__undefined" "__undefined" []
    [0; 1; 2; 3]].

(** src/arch/unknown/intrin/saturating_add.rs *)
Definition unknown_saturating_add : list op_impl := [
  (* src/arch/unknown/intrin/saturating_add.rs:14 *)
  mkOp "SaturatingAdd" "u8x16" (mkVty 16 1) (EInt u8) (EInt u8) "saturating_add" "__undefined" "__undefined" []
    [0; 1; 2; 3; 4; 5; 6; 7; 8; 9; 10; 11; 12; 13; 14; 15];
  (* src/arch/unknown/intrin/saturating_add.rs:20 *)
  mkOp "SaturatingAdd" "i8x16" (mkVty 16 1) (EInt i8) (EInt i8) "saturating_add" "__undefined" "__undefined" []
    [0; 1; 2; 3; 4; 5; 6; 7; 8; 9; 10; 11; 12; 13; 14; 15];
  (* src/arch/unknown/intrin/saturating_add.rs:26 *)
  mkOp "SaturatingAdd" "u16x8" (mkVty 8 2) (EInt u16) (EInt u16) "saturating_add" "__undefined" "__undefined" []
    [0; 1; 2; 3; 4; 5; 6; 7];
  (* src/arch/unknown/intrin/saturating_add.rs:32 *)
  mkOp "SaturatingAdd" "i16x8" (mkVty 8 2) (EInt i16) (EInt i16) "saturating_add" "__undefined" "__undefined" []
    [0; 1; 2; 3; 4; 5; 6; 7];
  (* src/arch/unknown/intrin/saturating_add.rs:38 *)
  mkOp "SaturatingAdd" "u32x4" (mkVty 4 4) (EInt u32) (EInt u32) "saturating_add" "__undefined" "__undefined" []
    [0; 1; 2; 3];
  (* src/arch/unknown/intrin/saturating_add.rs:44 *)
  mkOp "SaturatingAdd" "i32x4" (mkVty 4 4) (EInt i32) (EInt i32) "saturating_add" "__undefined" "__undefined" []
    [0; 1; 2; 3];
  (* src/arch/unknown/intrin/saturating_add.rs:50 *)
  mkOp "SaturatingAdd" "u64x2" (mkVty 2 8) (EInt u64) (EInt u64) "saturating_add" "__undefined" "__undefined" []
    [0; 1];
  (* src/arch/unknown/intrin/saturating_add.rs:56 *)
  mkOp "SaturatingAdd" "i64x2" (mkVty 2 8) (EInt i64) (EInt i64) "saturating_add" "__undefined" "__undefined" []
    [0; 1]].

(** src/arch/unknown/intrin/saturating_sub.rs *)
Definition unknown_saturating_sub : list op_impl := [
  (* src/arch/unknown/intrin/saturating_sub.rs:14 *)
  mkOp "SaturatingSub" "u8x16" (mkVty 16 1) (EInt u8) (EInt u8) "saturating_sub" "__undefined" "__undefined" []
    [0; 1; 2; 3; 4; 5; 6; 7; 8; 9; 10; 11; 12; 13; 14; 15];
  (* src/arch/unknown/intrin/saturating_sub.rs:20 *)
  mkOp "SaturatingSub" "i8x16" (mkVty 16 1) (EInt i8) (EInt i8) "saturating_sub" "__undefined" "__undefined" []
    [0; 1; 2; 3; 4; 5; 6; 7; 8; 9; 10; 11; 12; 13; 14; 15];
  (* src/arch/unknown/intrin/saturating_sub.rs:26 *)
  mkOp "SaturatingSub" "u16x8" (mkVty 8 2) (EInt u16) (EInt u16) "saturating_sub" "__undefined" "__undefined" []
    [0; 1; 2; 3; 4; 5; 6; 7];
  (* src/arch/unknown/intrin/saturating_sub.rs:32 *)
  mkOp "SaturatingSub" "i16x8" (mkVty 8 2) (EInt i16) (EInt i16) "saturating_sub" "__undefined" "__undefined" []
    [0; 1; 2; 3; 4; 5; 6; 7]].

(** src/arch/unknown/intrin/round.rs *)
Definition unknown_round : list op_impl := [
  (* src/arch/unknown/intrin/round.rs:14 *)
  mkOp "Round" "f32x4" (mkVty 4 4) EF32 EF32 "round" "__undefined" "__undefined" ["_MM_FROUND_TO_NEAREST_INT"]
    [0; 1; 2; 3];
  (* src/arch/unknown/intrin/round.rs:15 *)
  mkOp "Round" "f32x4" (mkVty 4 4) EF32 EF32 "ceil" "__undefined" "__undefined" []
    [0; 1; 2; 3];
  (* src/arch/unknown/intrin/round.rs:16 *)
  mkOp "Round" "f32x4" (mkVty 4 4) EF32 EF32 "floor" "__undefined" "__undefined" []
    [0; 1; 2; 3];
  (* src/arch/unknown/intrin/round.rs:17 *)
  mkOp "Round" "f32x4" (mkVty 4 4) EF32 EF32 "trunc" "__undefined" "__undefined" ["_MM_FROUND_TRUNC"]
    [0; 1; 2; 3];
  (* src/arch/unknown/intrin/round.rs:23 *)
  mkOp "Round" "f64x2" (mkVty 2 8) EF64 EF64 "round" "__undefined" "__undefined" ["_MM_FROUND_TO_NEAREST_INT"]
    [0; 1];
  (* src/arch/unknown/intrin/round.rs:24 *)
  mkOp "Round" "f64x2" (mkVty 2 8) EF64 EF64 "ceil" "__undefined" "__undefined" []
    [0; 1];
  (* src/arch/unknown/intrin/round.rs:25 *)
  mkOp "Round" "f64x2" (mkVty 2 8) EF64 EF64 "floor" "__undefined" "__undefined" []
    [0; 1];
  (* src/arch/unknown/intrin/round.rs:26 *)
  mkOp "Round" "f64x2" (mkVty 2 8) EF64 EF64 "trunc" "__undefined" "__undefined" ["_MM_FROUND_TRUNC"]
    [0; 1];
  (* src/arch/unknown/intrin/round.rs:32 *)
  mkOp "Round" "f32x8" (mkVty 8 4) EF32 EF32 "round" "__undefined" "__undefined" ["_MM_FROUND_TO_NEAREST_INT"]
    [0; 1; 2; 3; 4; 5; 6; 7];
  (* src/arch/unknown/intrin/round.rs:33 *)
  mkOp "Round" "f32x8" (mkVty 8 4) EF32 EF32 "ceil" "__undefined" "__undefined" []
    [0; 1; 2; 3; 4; 5; 6; 7];
  (* src/arch/unknown/intrin/round.rs:34 *)
  mkOp "Round" "f32x8" (mkVty 8 4) EF32 EF32 "floor" "__undefined" "__undefined" []
    [0; 1; 2; 3; 4; 5; 6; 7];
  (* src/arch/unknown/intrin/round.rs:35 *)
  mkOp "Round" "f32x8" (mkVty 8 4) EF32 EF32 "trunc" "__undefined" "__undefined" ["_MM_FROUND_TRUNC"]
    [0; 1; 2; 3; 4; 5; 6; 7];
  (* src/arch/unknown/intrin/round.rs:41 *)
  mkOp "Round" "f64x4" (mkVty 4 8) EF64 EF64 "round" "__undefined" "__undefined" ["_MM_FROUND_TO_NEAREST_INT"]
    [0; 1; 2; 3];
  (* src/arch/unknown/intrin/round.rs:42 *)
  mkOp "Round" "f64x4" (mkVty 4 8) EF64 EF64 "ceil" "__undefined" "__undefined" []
    [0; 1; 2; 3];
  (* src/arch/unknown/intrin/round.rs:43 *)
  mkOp "Round" "f64x4" (mkVty 4 8) EF64 EF64 "floor" "__undefined" "__undefined" []
    [0; 1; 2; 3];
  (* src/arch/unknown/intrin/round.rs:44 *)
  mkOp "Round" "f64x4" (mkVty 4 8) EF64 EF64 "trunc" "__undefined" "__undefined" ["_MM_FROUND_TRUNC"]
    [0; 1; 2; 3]].

(** src/arch/unknown/intrin/sqrt.rs *)
Definition unknown_sqrt : list op_impl := [
  (* src/arch/unknown/intrin/sqrt.rs:14 *)
  mkOp "Sqrt" "f32x4" (mkVty 4 4) EF32 EF32 "sqrt" "__undefined" "__undefined" []
    [0; 1; 2; 3];
  (* src/arch/unknown/intrin/sqrt.rs:20 *)
  mkOp "Sqrt" "f64x2" (mkVty 2 8) EF64 EF64 "sqrt" "__undefined" "__undefined" []
    [0; 1]].

(** src/arch/unknown/intrin/recip.rs *)
Definition unknown_recip : list op_impl := [
  (* src/arch/unknown/intrin/recip.rs:14 *)
  mkOp "Recip" "f32x4" (mkVty 4 4) EF32 EF32 "recip" "__undefined" "__undefined" []
    [0; 1; 2; 3]].

(** src/arch/unknown/intrin/rsqrt.rs *)
Definition unknown_rsqrt : list op_impl := [
  (* src/arch/unknown/intrin/rsqrt.rs:22 *)
  mkOp "Rsqrt" "f32x4" (mkVty 4 4) EF32 EF32 "rsqrt" "__undefined" "__undefined" []
    [0; 1; 2; 3];
  (* src/arch/unknown/intrin/rsqrt.rs:28 *)
  mkOp "Rsqrt" "f64x2" (mkVty 2 8) EF64 EF64 "rsqrt" "__undefined" "__undefined" []
    [0; 1]].

