(** Feature gates of /repo/src/arch/x86, transcribed by tools/gen_gate.py.
    Each entry cites the file and line it was copied from; nothing is computed here. *)
From Coq Require Import String.
From Verif Require Import Base.
Open Scope string_scope.
Open Scope Z_scope.

(** One method definition: trait, vector (both empty for a free function), method,
    features required and excluded by its cfg attributes, intrinsics in its body.
    The attributes and bodies of src/arch/x86/intrin/*.rs and src/arch/x86/vec_patterns.rs. *)
Record gated := mkGated { g_trait : string; g_vec : string; g_fn : string; g_pos : list string; g_neg : list string; g_mm : list string }.

(** One [impl_packed!] line: scalar, natural vector alias, vector, bytes per lane,
    lanes, features required and excluded (src/vecs.rs:85-112). *)
Record packed_line := mkPacked { p_el : string; p_alias : string; p_vec : string; p_size : Z; p_width : Z; p_pos : list string; p_neg : list string }.

(** All of them, from src/arch/x86/intrin/*.rs and src/arch/x86/vec_patterns.rs. *)
Definition x86_gated : list gated := [
  (* src/arch/x86/vec_patterns.rs:39 *)
  mkGated "Pattern" "u8x64" "halfs" [] [] [];
  (* src/arch/x86/vec_patterns.rs:44 *)
  mkGated "Pattern" "u8x64" "interleave" [] [] [];
  (* src/arch/x86/vec_patterns.rs:49 *)
  mkGated "Pattern" "u8x64" "partition_mask" [] [] [];
  (* src/arch/x86/vec_patterns.rs:57 *)
  mkGated "Pattern" "u8x64" "partition" ["avx512-notyet"] [] ["_mm512_mask_mov_epi8"];
  (* src/arch/x86/vec_patterns.rs:64 *)
  mkGated "Pattern" "u8x64" "partition" [] ["avx512-notyet"] [];
  (* src/arch/x86/vec_patterns.rs:139 *)
  mkGated "Pattern" "u8x64" "ones" [] [] [];
  (* src/arch/x86/vec_patterns.rs:145 *)
  mkGated "Pattern" "u8x64" "zeroes" [] [] [];
  (* src/arch/x86/vec_patterns.rs:152 *)
  mkGated "Pattern" "u8x32" "halfs" [] [] [];
  (* src/arch/x86/vec_patterns.rs:157 *)
  mkGated "Pattern" "u8x32" "interleave" [] [] [];
  (* src/arch/x86/vec_patterns.rs:162 *)
  mkGated "Pattern" "u8x32" "partition_mask" [] [] [];
  (* src/arch/x86/vec_patterns.rs:170 *)
  mkGated "Pattern" "u8x32" "partition" ["avx2"] [] ["_mm256_blendv_epi8"];
  (* src/arch/x86/vec_patterns.rs:177 *)
  mkGated "Pattern" "u8x32" "partition" [] ["avx2"] [];
  (* src/arch/x86/vec_patterns.rs:220 *)
  mkGated "Pattern" "u8x32" "ones" [] [] [];
  (* src/arch/x86/vec_patterns.rs:226 *)
  mkGated "Pattern" "u8x32" "zeroes" [] [] [];
  (* src/arch/x86/vec_patterns.rs:233 *)
  mkGated "Pattern" "u8x16" "halfs" [] [] [];
  (* src/arch/x86/vec_patterns.rs:238 *)
  mkGated "Pattern" "u8x16" "interleave" [] [] [];
  (* src/arch/x86/vec_patterns.rs:243 *)
  mkGated "Pattern" "u8x16" "partition_mask" [] [] [];
  (* src/arch/x86/vec_patterns.rs:251 *)
  mkGated "Pattern" "u8x16" "partition" ["sse4.1"] [] ["_mm_blendv_epi8"];
  (* src/arch/x86/vec_patterns.rs:258 *)
  mkGated "Pattern" "u8x16" "partition" [] ["sse4.1"] [];
  (* src/arch/x86/vec_patterns.rs:285 *)
  mkGated "Pattern" "u8x16" "ones" [] [] [];
  (* src/arch/x86/vec_patterns.rs:291 *)
  mkGated "Pattern" "u8x16" "zeroes" [] [] [];
  (* src/arch/x86/vec_patterns.rs:298 *)
  mkGated "Pattern" "i8x64" "halfs" [] [] [];
  (* src/arch/x86/vec_patterns.rs:303 *)
  mkGated "Pattern" "i8x64" "interleave" [] [] [];
  (* src/arch/x86/vec_patterns.rs:308 *)
  mkGated "Pattern" "i8x64" "partition_mask" [] [] [];
  (* src/arch/x86/vec_patterns.rs:316 *)
  mkGated "Pattern" "i8x64" "partition" ["avx512-notyet"] [] ["_mm512_mask_mov_epi8"];
  (* src/arch/x86/vec_patterns.rs:323 *)
  mkGated "Pattern" "i8x64" "partition" [] ["avx512-notyet"] [];
  (* src/arch/x86/vec_patterns.rs:398 *)
  mkGated "Pattern" "i8x64" "ones" [] [] [];
  (* src/arch/x86/vec_patterns.rs:404 *)
  mkGated "Pattern" "i8x64" "zeroes" [] [] [];
  (* src/arch/x86/vec_patterns.rs:411 *)
  mkGated "Pattern" "i8x32" "halfs" [] [] [];
  (* src/arch/x86/vec_patterns.rs:416 *)
  mkGated "Pattern" "i8x32" "interleave" [] [] [];
  (* src/arch/x86/vec_patterns.rs:421 *)
  mkGated "Pattern" "i8x32" "partition_mask" [] [] [];
  (* src/arch/x86/vec_patterns.rs:429 *)
  mkGated "Pattern" "i8x32" "partition" ["avx2"] [] ["_mm256_blendv_epi8"];
  (* src/arch/x86/vec_patterns.rs:436 *)
  mkGated "Pattern" "i8x32" "partition" [] ["avx2"] [];
  (* src/arch/x86/vec_patterns.rs:479 *)
  mkGated "Pattern" "i8x32" "ones" [] [] [];
  (* src/arch/x86/vec_patterns.rs:485 *)
  mkGated "Pattern" "i8x32" "zeroes" [] [] [];
  (* src/arch/x86/vec_patterns.rs:492 *)
  mkGated "Pattern" "i8x16" "halfs" [] [] [];
  (* src/arch/x86/vec_patterns.rs:497 *)
  mkGated "Pattern" "i8x16" "interleave" [] [] [];
  (* src/arch/x86/vec_patterns.rs:502 *)
  mkGated "Pattern" "i8x16" "partition_mask" [] [] [];
  (* src/arch/x86/vec_patterns.rs:510 *)
  mkGated "Pattern" "i8x16" "partition" ["sse4.1"] [] ["_mm_blendv_epi8"];
  (* src/arch/x86/vec_patterns.rs:517 *)
  mkGated "Pattern" "i8x16" "partition" [] ["sse4.1"] [];
  (* src/arch/x86/vec_patterns.rs:544 *)
  mkGated "Pattern" "i8x16" "ones" [] [] [];
  (* src/arch/x86/vec_patterns.rs:550 *)
  mkGated "Pattern" "i8x16" "zeroes" [] [] [];
  (* src/arch/x86/vec_patterns.rs:557 *)
  mkGated "Pattern" "u16x32" "halfs" [] [] [];
  (* src/arch/x86/vec_patterns.rs:562 *)
  mkGated "Pattern" "u16x32" "interleave" [] [] [];
  (* src/arch/x86/vec_patterns.rs:567 *)
  mkGated "Pattern" "u16x32" "partition_mask" [] [] [];
  (* src/arch/x86/vec_patterns.rs:575 *)
  mkGated "Pattern" "u16x32" "partition" ["avx512-notyet"] [] ["_mm512_mask_mov_epi8"];
  (* src/arch/x86/vec_patterns.rs:582 *)
  mkGated "Pattern" "u16x32" "partition" [] ["avx512-notyet"] [];
  (* src/arch/x86/vec_patterns.rs:625 *)
  mkGated "Pattern" "u16x32" "ones" [] [] [];
  (* src/arch/x86/vec_patterns.rs:631 *)
  mkGated "Pattern" "u16x32" "zeroes" [] [] [];
  (* src/arch/x86/vec_patterns.rs:638 *)
  mkGated "Pattern" "u16x16" "halfs" [] [] [];
  (* src/arch/x86/vec_patterns.rs:643 *)
  mkGated "Pattern" "u16x16" "interleave" [] [] [];
  (* src/arch/x86/vec_patterns.rs:648 *)
  mkGated "Pattern" "u16x16" "partition_mask" [] [] [];
  (* src/arch/x86/vec_patterns.rs:656 *)
  mkGated "Pattern" "u16x16" "partition" ["avx2"] [] ["_mm256_blendv_epi8"];
  (* src/arch/x86/vec_patterns.rs:663 *)
  mkGated "Pattern" "u16x16" "partition" [] ["avx2"] [];
  (* src/arch/x86/vec_patterns.rs:690 *)
  mkGated "Pattern" "u16x16" "ones" [] [] [];
  (* src/arch/x86/vec_patterns.rs:696 *)
  mkGated "Pattern" "u16x16" "zeroes" [] [] [];
  (* src/arch/x86/vec_patterns.rs:703 *)
  mkGated "Pattern" "u16x8" "halfs" [] [] [];
  (* src/arch/x86/vec_patterns.rs:708 *)
  mkGated "Pattern" "u16x8" "interleave" [] [] [];
  (* src/arch/x86/vec_patterns.rs:713 *)
  mkGated "Pattern" "u16x8" "partition_mask" [] [] [];
  (* src/arch/x86/vec_patterns.rs:721 *)
  mkGated "Pattern" "u16x8" "partition" ["sse4.1"] [] ["_mm_blendv_epi8"];
  (* src/arch/x86/vec_patterns.rs:728 *)
  mkGated "Pattern" "u16x8" "partition" [] ["sse4.1"] [];
  (* src/arch/x86/vec_patterns.rs:747 *)
  mkGated "Pattern" "u16x8" "ones" [] [] [];
  (* src/arch/x86/vec_patterns.rs:753 *)
  mkGated "Pattern" "u16x8" "zeroes" [] [] [];
  (* src/arch/x86/vec_patterns.rs:760 *)
  mkGated "Pattern" "i16x32" "halfs" [] [] [];
  (* src/arch/x86/vec_patterns.rs:765 *)
  mkGated "Pattern" "i16x32" "interleave" [] [] [];
  (* src/arch/x86/vec_patterns.rs:770 *)
  mkGated "Pattern" "i16x32" "partition_mask" [] [] [];
  (* src/arch/x86/vec_patterns.rs:778 *)
  mkGated "Pattern" "i16x32" "partition" ["avx512-notyet"] [] ["_mm512_mask_mov_epi8"];
  (* src/arch/x86/vec_patterns.rs:785 *)
  mkGated "Pattern" "i16x32" "partition" [] ["avx512-notyet"] [];
  (* src/arch/x86/vec_patterns.rs:828 *)
  mkGated "Pattern" "i16x32" "ones" [] [] [];
  (* src/arch/x86/vec_patterns.rs:834 *)
  mkGated "Pattern" "i16x32" "zeroes" [] [] [];
  (* src/arch/x86/vec_patterns.rs:841 *)
  mkGated "Pattern" "i16x16" "halfs" [] [] [];
  (* src/arch/x86/vec_patterns.rs:846 *)
  mkGated "Pattern" "i16x16" "interleave" [] [] [];
  (* src/arch/x86/vec_patterns.rs:851 *)
  mkGated "Pattern" "i16x16" "partition_mask" [] [] [];
  (* src/arch/x86/vec_patterns.rs:859 *)
  mkGated "Pattern" "i16x16" "partition" ["avx2"] [] ["_mm256_blendv_epi8"];
  (* src/arch/x86/vec_patterns.rs:866 *)
  mkGated "Pattern" "i16x16" "partition" [] ["avx2"] [];
  (* src/arch/x86/vec_patterns.rs:893 *)
  mkGated "Pattern" "i16x16" "ones" [] [] [];
  (* src/arch/x86/vec_patterns.rs:899 *)
  mkGated "Pattern" "i16x16" "zeroes" [] [] [];
  (* src/arch/x86/vec_patterns.rs:906 *)
  mkGated "Pattern" "i16x8" "halfs" [] [] [];
  (* src/arch/x86/vec_patterns.rs:911 *)
  mkGated "Pattern" "i16x8" "interleave" [] [] [];
  (* src/arch/x86/vec_patterns.rs:916 *)
  mkGated "Pattern" "i16x8" "partition_mask" [] [] [];
  (* src/arch/x86/vec_patterns.rs:924 *)
  mkGated "Pattern" "i16x8" "partition" ["sse4.1"] [] ["_mm_blendv_epi8"];
  (* src/arch/x86/vec_patterns.rs:931 *)
  mkGated "Pattern" "i16x8" "partition" [] ["sse4.1"] [];
  (* src/arch/x86/vec_patterns.rs:950 *)
  mkGated "Pattern" "i16x8" "ones" [] [] [];
  (* src/arch/x86/vec_patterns.rs:956 *)
  mkGated "Pattern" "i16x8" "zeroes" [] [] [];
  (* src/arch/x86/vec_patterns.rs:963 *)
  mkGated "Pattern" "u32x16" "halfs" [] [] [];
  (* src/arch/x86/vec_patterns.rs:968 *)
  mkGated "Pattern" "u32x16" "interleave" [] [] [];
  (* src/arch/x86/vec_patterns.rs:973 *)
  mkGated "Pattern" "u32x16" "partition_mask" [] [] [];
  (* src/arch/x86/vec_patterns.rs:981 *)
  mkGated "Pattern" "u32x16" "partition" ["avx512-notyet"] [] ["_mm512_mask_mov_epi8"];
  (* src/arch/x86/vec_patterns.rs:988 *)
  mkGated "Pattern" "u32x16" "partition" [] ["avx512-notyet"] [];
  (* src/arch/x86/vec_patterns.rs:1015 *)
  mkGated "Pattern" "u32x16" "ones" [] [] [];
  (* src/arch/x86/vec_patterns.rs:1021 *)
  mkGated "Pattern" "u32x16" "zeroes" [] [] [];
  (* src/arch/x86/vec_patterns.rs:1028 *)
  mkGated "Pattern" "u32x8" "halfs" [] [] [];
  (* src/arch/x86/vec_patterns.rs:1033 *)
  mkGated "Pattern" "u32x8" "interleave" [] [] [];
  (* src/arch/x86/vec_patterns.rs:1038 *)
  mkGated "Pattern" "u32x8" "partition_mask" [] [] [];
  (* src/arch/x86/vec_patterns.rs:1046 *)
  mkGated "Pattern" "u32x8" "partition" ["avx2"] [] ["_mm256_blendv_epi8"];
  (* src/arch/x86/vec_patterns.rs:1053 *)
  mkGated "Pattern" "u32x8" "partition" [] ["avx2"] [];
  (* src/arch/x86/vec_patterns.rs:1072 *)
  mkGated "Pattern" "u32x8" "ones" [] [] [];
  (* src/arch/x86/vec_patterns.rs:1078 *)
  mkGated "Pattern" "u32x8" "zeroes" [] [] [];
  (* src/arch/x86/vec_patterns.rs:1085 *)
  mkGated "Pattern" "u32x4" "halfs" [] [] [];
  (* src/arch/x86/vec_patterns.rs:1090 *)
  mkGated "Pattern" "u32x4" "interleave" [] [] [];
  (* src/arch/x86/vec_patterns.rs:1095 *)
  mkGated "Pattern" "u32x4" "partition_mask" [] [] [];
  (* src/arch/x86/vec_patterns.rs:1103 *)
  mkGated "Pattern" "u32x4" "partition" ["sse4.1"] [] ["_mm_blendv_epi8"];
  (* src/arch/x86/vec_patterns.rs:1110 *)
  mkGated "Pattern" "u32x4" "partition" [] ["sse4.1"] [];
  (* src/arch/x86/vec_patterns.rs:1125 *)
  mkGated "Pattern" "u32x4" "ones" [] [] [];
  (* src/arch/x86/vec_patterns.rs:1131 *)
  mkGated "Pattern" "u32x4" "zeroes" [] [] [];
  (* src/arch/x86/vec_patterns.rs:1138 *)
  mkGated "Pattern" "i32x16" "halfs" [] [] [];
  (* src/arch/x86/vec_patterns.rs:1143 *)
  mkGated "Pattern" "i32x16" "interleave" [] [] [];
  (* src/arch/x86/vec_patterns.rs:1148 *)
  mkGated "Pattern" "i32x16" "partition_mask" [] [] [];
  (* src/arch/x86/vec_patterns.rs:1156 *)
  mkGated "Pattern" "i32x16" "partition" ["avx512-notyet"] [] ["_mm512_mask_mov_epi8"];
  (* src/arch/x86/vec_patterns.rs:1163 *)
  mkGated "Pattern" "i32x16" "partition" [] ["avx512-notyet"] [];
  (* src/arch/x86/vec_patterns.rs:1190 *)
  mkGated "Pattern" "i32x16" "ones" [] [] [];
  (* src/arch/x86/vec_patterns.rs:1196 *)
  mkGated "Pattern" "i32x16" "zeroes" [] [] [];
  (* src/arch/x86/vec_patterns.rs:1203 *)
  mkGated "Pattern" "i32x8" "halfs" [] [] [];
  (* src/arch/x86/vec_patterns.rs:1208 *)
  mkGated "Pattern" "i32x8" "interleave" [] [] [];
  (* src/arch/x86/vec_patterns.rs:1213 *)
  mkGated "Pattern" "i32x8" "partition_mask" [] [] [];
  (* src/arch/x86/vec_patterns.rs:1221 *)
  mkGated "Pattern" "i32x8" "partition" ["avx2"] [] ["_mm256_blendv_epi8"];
  (* src/arch/x86/vec_patterns.rs:1228 *)
  mkGated "Pattern" "i32x8" "partition" [] ["avx2"] [];
  (* src/arch/x86/vec_patterns.rs:1247 *)
  mkGated "Pattern" "i32x8" "ones" [] [] [];
  (* src/arch/x86/vec_patterns.rs:1253 *)
  mkGated "Pattern" "i32x8" "zeroes" [] [] [];
  (* src/arch/x86/vec_patterns.rs:1260 *)
  mkGated "Pattern" "i32x4" "halfs" [] [] [];
  (* src/arch/x86/vec_patterns.rs:1265 *)
  mkGated "Pattern" "i32x4" "interleave" [] [] [];
  (* src/arch/x86/vec_patterns.rs:1270 *)
  mkGated "Pattern" "i32x4" "partition_mask" [] [] [];
  (* src/arch/x86/vec_patterns.rs:1278 *)
  mkGated "Pattern" "i32x4" "partition" ["sse4.1"] [] ["_mm_blendv_epi8"];
  (* src/arch/x86/vec_patterns.rs:1285 *)
  mkGated "Pattern" "i32x4" "partition" [] ["sse4.1"] [];
  (* src/arch/x86/vec_patterns.rs:1300 *)
  mkGated "Pattern" "i32x4" "ones" [] [] [];
  (* src/arch/x86/vec_patterns.rs:1306 *)
  mkGated "Pattern" "i32x4" "zeroes" [] [] [];
  (* src/arch/x86/vec_patterns.rs:1313 *)
  mkGated "Pattern" "f32x16" "halfs" [] [] [];
  (* src/arch/x86/vec_patterns.rs:1318 *)
  mkGated "Pattern" "f32x16" "interleave" [] [] [];
  (* src/arch/x86/vec_patterns.rs:1323 *)
  mkGated "Pattern" "f32x16" "partition_mask" [] [] [];
  (* src/arch/x86/vec_patterns.rs:1331 *)
  mkGated "Pattern" "f32x16" "partition" ["avx512-notyet"] [] ["_mm512_mask_mov_epi8"];
  (* src/arch/x86/vec_patterns.rs:1338 *)
  mkGated "Pattern" "f32x16" "partition" [] ["avx512-notyet"] [];
  (* src/arch/x86/vec_patterns.rs:1365 *)
  mkGated "Pattern" "f32x16" "ones" [] [] [];
  (* src/arch/x86/vec_patterns.rs:1371 *)
  mkGated "Pattern" "f32x16" "zeroes" [] [] [];
  (* src/arch/x86/vec_patterns.rs:1378 *)
  mkGated "Pattern" "f32x8" "halfs" [] [] [];
  (* src/arch/x86/vec_patterns.rs:1383 *)
  mkGated "Pattern" "f32x8" "interleave" [] [] [];
  (* src/arch/x86/vec_patterns.rs:1388 *)
  mkGated "Pattern" "f32x8" "partition_mask" [] [] [];
  (* src/arch/x86/vec_patterns.rs:1396 *)
  mkGated "Pattern" "f32x8" "partition" ["avx2"] [] ["_mm256_blendv_epi8"];
  (* src/arch/x86/vec_patterns.rs:1403 *)
  mkGated "Pattern" "f32x8" "partition" [] ["avx2"] [];
  (* src/arch/x86/vec_patterns.rs:1422 *)
  mkGated "Pattern" "f32x8" "ones" [] [] [];
  (* src/arch/x86/vec_patterns.rs:1428 *)
  mkGated "Pattern" "f32x8" "zeroes" [] [] [];
  (* src/arch/x86/vec_patterns.rs:1435 *)
  mkGated "Pattern" "f32x4" "halfs" [] [] [];
  (* src/arch/x86/vec_patterns.rs:1440 *)
  mkGated "Pattern" "f32x4" "interleave" [] [] [];
  (* src/arch/x86/vec_patterns.rs:1445 *)
  mkGated "Pattern" "f32x4" "partition_mask" [] [] [];
  (* src/arch/x86/vec_patterns.rs:1453 *)
  mkGated "Pattern" "f32x4" "partition" ["sse4.1"] [] ["_mm_blendv_epi8"];
  (* src/arch/x86/vec_patterns.rs:1460 *)
  mkGated "Pattern" "f32x4" "partition" [] ["sse4.1"] [];
  (* src/arch/x86/vec_patterns.rs:1475 *)
  mkGated "Pattern" "f32x4" "ones" [] [] [];
  (* src/arch/x86/vec_patterns.rs:1481 *)
  mkGated "Pattern" "f32x4" "zeroes" [] [] [];
  (* src/arch/x86/vec_patterns.rs:1488 *)
  mkGated "Pattern" "u64x8" "halfs" [] [] [];
  (* src/arch/x86/vec_patterns.rs:1493 *)
  mkGated "Pattern" "u64x8" "interleave" [] [] [];
  (* src/arch/x86/vec_patterns.rs:1498 *)
  mkGated "Pattern" "u64x8" "partition_mask" [] [] [];
  (* src/arch/x86/vec_patterns.rs:1506 *)
  mkGated "Pattern" "u64x8" "partition" ["avx512-notyet"] [] ["_mm512_mask_mov_epi8"];
  (* src/arch/x86/vec_patterns.rs:1513 *)
  mkGated "Pattern" "u64x8" "partition" [] ["avx512-notyet"] [];
  (* src/arch/x86/vec_patterns.rs:1532 *)
  mkGated "Pattern" "u64x8" "ones" [] [] [];
  (* src/arch/x86/vec_patterns.rs:1538 *)
  mkGated "Pattern" "u64x8" "zeroes" [] [] [];
  (* src/arch/x86/vec_patterns.rs:1545 *)
  mkGated "Pattern" "u64x4" "halfs" [] [] [];
  (* src/arch/x86/vec_patterns.rs:1550 *)
  mkGated "Pattern" "u64x4" "interleave" [] [] [];
  (* src/arch/x86/vec_patterns.rs:1555 *)
  mkGated "Pattern" "u64x4" "partition_mask" [] [] [];
  (* src/arch/x86/vec_patterns.rs:1563 *)
  mkGated "Pattern" "u64x4" "partition" ["avx2"] [] ["_mm256_blendv_epi8"];
  (* src/arch/x86/vec_patterns.rs:1570 *)
  mkGated "Pattern" "u64x4" "partition" [] ["avx2"] [];
  (* src/arch/x86/vec_patterns.rs:1585 *)
  mkGated "Pattern" "u64x4" "ones" [] [] [];
  (* src/arch/x86/vec_patterns.rs:1591 *)
  mkGated "Pattern" "u64x4" "zeroes" [] [] [];
  (* src/arch/x86/vec_patterns.rs:1598 *)
  mkGated "Pattern" "u64x2" "halfs" [] [] [];
  (* src/arch/x86/vec_patterns.rs:1603 *)
  mkGated "Pattern" "u64x2" "interleave" [] [] [];
  (* src/arch/x86/vec_patterns.rs:1608 *)
  mkGated "Pattern" "u64x2" "partition_mask" [] [] [];
  (* src/arch/x86/vec_patterns.rs:1616 *)
  mkGated "Pattern" "u64x2" "partition" ["sse4.1"] [] ["_mm_blendv_epi8"];
  (* src/arch/x86/vec_patterns.rs:1623 *)
  mkGated "Pattern" "u64x2" "partition" [] ["sse4.1"] [];
  (* src/arch/x86/vec_patterns.rs:1636 *)
  mkGated "Pattern" "u64x2" "ones" [] [] [];
  (* src/arch/x86/vec_patterns.rs:1642 *)
  mkGated "Pattern" "u64x2" "zeroes" [] [] [];
  (* src/arch/x86/vec_patterns.rs:1649 *)
  mkGated "Pattern" "i64x8" "halfs" [] [] [];
  (* src/arch/x86/vec_patterns.rs:1654 *)
  mkGated "Pattern" "i64x8" "interleave" [] [] [];
  (* src/arch/x86/vec_patterns.rs:1659 *)
  mkGated "Pattern" "i64x8" "partition_mask" [] [] [];
  (* src/arch/x86/vec_patterns.rs:1667 *)
  mkGated "Pattern" "i64x8" "partition" ["avx512-notyet"] [] ["_mm512_mask_mov_epi8"];
  (* src/arch/x86/vec_patterns.rs:1674 *)
  mkGated "Pattern" "i64x8" "partition" [] ["avx512-notyet"] [];
  (* src/arch/x86/vec_patterns.rs:1693 *)
  mkGated "Pattern" "i64x8" "ones" [] [] [];
  (* src/arch/x86/vec_patterns.rs:1699 *)
  mkGated "Pattern" "i64x8" "zeroes" [] [] [];
  (* src/arch/x86/vec_patterns.rs:1706 *)
  mkGated "Pattern" "i64x4" "halfs" [] [] [];
  (* src/arch/x86/vec_patterns.rs:1711 *)
  mkGated "Pattern" "i64x4" "interleave" [] [] [];
  (* src/arch/x86/vec_patterns.rs:1716 *)
  mkGated "Pattern" "i64x4" "partition_mask" [] [] [];
  (* src/arch/x86/vec_patterns.rs:1724 *)
  mkGated "Pattern" "i64x4" "partition" ["avx2"] [] ["_mm256_blendv_epi8"];
  (* src/arch/x86/vec_patterns.rs:1731 *)
  mkGated "Pattern" "i64x4" "partition" [] ["avx2"] [];
  (* src/arch/x86/vec_patterns.rs:1746 *)
  mkGated "Pattern" "i64x4" "ones" [] [] [];
  (* src/arch/x86/vec_patterns.rs:1752 *)
  mkGated "Pattern" "i64x4" "zeroes" [] [] [];
  (* src/arch/x86/vec_patterns.rs:1759 *)
  mkGated "Pattern" "i64x2" "halfs" [] [] [];
  (* src/arch/x86/vec_patterns.rs:1764 *)
  mkGated "Pattern" "i64x2" "interleave" [] [] [];
  (* src/arch/x86/vec_patterns.rs:1769 *)
  mkGated "Pattern" "i64x2" "partition_mask" [] [] [];
  (* src/arch/x86/vec_patterns.rs:1777 *)
  mkGated "Pattern" "i64x2" "partition" ["sse4.1"] [] ["_mm_blendv_epi8"];
  (* src/arch/x86/vec_patterns.rs:1784 *)
  mkGated "Pattern" "i64x2" "partition" [] ["sse4.1"] [];
  (* src/arch/x86/vec_patterns.rs:1797 *)
  mkGated "Pattern" "i64x2" "ones" [] [] [];
  (* src/arch/x86/vec_patterns.rs:1803 *)
  mkGated "Pattern" "i64x2" "zeroes" [] [] [];
  (* src/arch/x86/vec_patterns.rs:1810 *)
  mkGated "Pattern" "f64x8" "halfs" [] [] [];
  (* src/arch/x86/vec_patterns.rs:1815 *)
  mkGated "Pattern" "f64x8" "interleave" [] [] [];
  (* src/arch/x86/vec_patterns.rs:1820 *)
  mkGated "Pattern" "f64x8" "partition_mask" [] [] [];
  (* src/arch/x86/vec_patterns.rs:1828 *)
  mkGated "Pattern" "f64x8" "partition" ["avx512-notyet"] [] ["_mm512_mask_mov_epi8"];
  (* src/arch/x86/vec_patterns.rs:1835 *)
  mkGated "Pattern" "f64x8" "partition" [] ["avx512-notyet"] [];
  (* src/arch/x86/vec_patterns.rs:1854 *)
  mkGated "Pattern" "f64x8" "ones" [] [] [];
  (* src/arch/x86/vec_patterns.rs:1860 *)
  mkGated "Pattern" "f64x8" "zeroes" [] [] [];
  (* src/arch/x86/vec_patterns.rs:1867 *)
  mkGated "Pattern" "f64x4" "halfs" [] [] [];
  (* src/arch/x86/vec_patterns.rs:1872 *)
  mkGated "Pattern" "f64x4" "interleave" [] [] [];
  (* src/arch/x86/vec_patterns.rs:1877 *)
  mkGated "Pattern" "f64x4" "partition_mask" [] [] [];
  (* src/arch/x86/vec_patterns.rs:1885 *)
  mkGated "Pattern" "f64x4" "partition" ["avx2"] [] ["_mm256_blendv_epi8"];
  (* src/arch/x86/vec_patterns.rs:1892 *)
  mkGated "Pattern" "f64x4" "partition" [] ["avx2"] [];
  (* src/arch/x86/vec_patterns.rs:1907 *)
  mkGated "Pattern" "f64x4" "ones" [] [] [];
  (* src/arch/x86/vec_patterns.rs:1913 *)
  mkGated "Pattern" "f64x4" "zeroes" [] [] [];
  (* src/arch/x86/vec_patterns.rs:1920 *)
  mkGated "Pattern" "f64x2" "halfs" [] [] [];
  (* src/arch/x86/vec_patterns.rs:1925 *)
  mkGated "Pattern" "f64x2" "interleave" [] [] [];
  (* src/arch/x86/vec_patterns.rs:1930 *)
  mkGated "Pattern" "f64x2" "partition_mask" [] [] [];
  (* src/arch/x86/vec_patterns.rs:1938 *)
  mkGated "Pattern" "f64x2" "partition" ["sse4.1"] [] ["_mm_blendv_epi8"];
  (* src/arch/x86/vec_patterns.rs:1945 *)
  mkGated "Pattern" "f64x2" "partition" [] ["sse4.1"] [];
  (* src/arch/x86/vec_patterns.rs:1958 *)
  mkGated "Pattern" "f64x2" "ones" [] [] [];
  (* src/arch/x86/vec_patterns.rs:1964 *)
  mkGated "Pattern" "f64x2" "zeroes" [] [] [];
  (* src/arch/x86/intrin/abs.rs:21 *)
  mkGated "Abs" "f32x4" "abs" ["sse"] [] ["_mm_and_ps"];
  (* src/arch/x86/intrin/abs.rs:28 *)
  mkGated "Abs" "f32x4" "abs" [] ["sse"] [];
  (* src/arch/x86/intrin/abs.rs:42 *)
  mkGated "Abs" "f64x2" "abs" ["sse2"] [] ["_mm_and_pd"];
  (* src/arch/x86/intrin/abs.rs:49 *)
  mkGated "Abs" "f64x2" "abs" [] ["sse2"] [];
  (* src/arch/x86/intrin/abs.rs:61 *)
  mkGated "Abs" "f32x8" "abs" ["avx"] [] ["_mm256_and_ps"];
  (* src/arch/x86/intrin/abs.rs:68 *)
  mkGated "Abs" "f32x8" "abs" [] ["avx"] [];
  (* src/arch/x86/intrin/abs.rs:86 *)
  mkGated "Abs" "f64x4" "abs" ["avx"] [] ["_mm256_and_pd"];
  (* src/arch/x86/intrin/abs.rs:93 *)
  mkGated "Abs" "f64x4" "abs" [] ["avx"] [];
  (* src/arch/x86/intrin/abs.rs:107 *)
  mkGated "Abs" "i8x16" "abs" ["ssse3"] [] ["_mm_abs_epi8"];
  (* src/arch/x86/intrin/abs.rs:114 *)
  mkGated "Abs" "i8x16" "abs" [] ["ssse3"] [];
  (* src/arch/x86/intrin/abs.rs:140 *)
  mkGated "Abs" "i16x8" "abs" ["ssse3"] [] ["_mm_abs_epi16"];
  (* src/arch/x86/intrin/abs.rs:147 *)
  mkGated "Abs" "i16x8" "abs" [] ["ssse3"] [];
  (* src/arch/x86/intrin/abs.rs:165 *)
  mkGated "Abs" "i32x4" "abs" ["ssse3"] [] ["_mm_abs_epi32"];
  (* src/arch/x86/intrin/abs.rs:172 *)
  mkGated "Abs" "i32x4" "abs" [] ["ssse3"] [];
  (* src/arch/x86/intrin/abs.rs:186 *)
  mkGated "Abs" "i8x32" "abs" ["avx2"] [] ["_mm256_abs_epi8"];
  (* src/arch/x86/intrin/abs.rs:193 *)
  mkGated "Abs" "i8x32" "abs" [] ["avx2"] [];
  (* src/arch/x86/intrin/abs.rs:234 *)
  mkGated "Abs" "i16x16" "abs" ["avx2"] [] ["_mm256_abs_epi16"];
  (* src/arch/x86/intrin/abs.rs:241 *)
  mkGated "Abs" "i16x16" "abs" [] ["avx2"] [];
  (* src/arch/x86/intrin/abs.rs:266 *)
  mkGated "Abs" "i32x8" "abs" ["avx2"] [] ["_mm256_abs_epi32"];
  (* src/arch/x86/intrin/abs.rs:273 *)
  mkGated "Abs" "i32x8" "abs" [] ["avx2"] [];
  (* src/arch/x86/intrin/abs.rs:290 *)
  mkGated "Abs" "i64x2" "abs" [] [] [];
  (* src/arch/x86/intrin/abs.rs:301 *)
  mkGated "Abs" "i64x4" "abs" [] [] [];
  (* src/arch/x86/intrin/abs.rs:314 *)
  mkGated "Abs" "i64x8" "abs" [] [] [];
  (* src/arch/x86/intrin/cmp.rs:16 *)
  mkGated "Cmp" "u8x16" "min" ["sse2"] [] ["_mm_min_epu8"];
  (* src/arch/x86/intrin/cmp.rs:16 *)
  mkGated "Cmp" "u8x16" "min" [] ["sse2"] [];
  (* src/arch/x86/intrin/cmp.rs:17 *)
  mkGated "Cmp" "u8x16" "max" ["sse2"] [] ["_mm_max_epu8"];
  (* src/arch/x86/intrin/cmp.rs:17 *)
  mkGated "Cmp" "u8x16" "max" [] ["sse2"] [];
  (* src/arch/x86/intrin/cmp.rs:23 *)
  mkGated "Cmp" "i8x16" "min" ["sse4.1"] [] ["_mm_min_epi8"];
  (* src/arch/x86/intrin/cmp.rs:23 *)
  mkGated "Cmp" "i8x16" "min" [] ["sse4.1"] [];
  (* src/arch/x86/intrin/cmp.rs:24 *)
  mkGated "Cmp" "i8x16" "max" ["sse4.1"] [] ["_mm_max_epi8"];
  (* src/arch/x86/intrin/cmp.rs:24 *)
  mkGated "Cmp" "i8x16" "max" [] ["sse4.1"] [];
  (* src/arch/x86/intrin/cmp.rs:30 *)
  mkGated "Cmp" "u16x8" "min" ["sse4.1"] [] ["_mm_min_epu16"];
  (* src/arch/x86/intrin/cmp.rs:30 *)
  mkGated "Cmp" "u16x8" "min" [] ["sse4.1"] [];
  (* src/arch/x86/intrin/cmp.rs:31 *)
  mkGated "Cmp" "u16x8" "max" ["sse4.1"] [] ["_mm_max_epu16"];
  (* src/arch/x86/intrin/cmp.rs:31 *)
  mkGated "Cmp" "u16x8" "max" [] ["sse4.1"] [];
  (* src/arch/x86/intrin/cmp.rs:37 *)
  mkGated "Cmp" "i16x8" "min" ["sse4.1"] [] ["_mm_min_epi16"];
  (* src/arch/x86/intrin/cmp.rs:37 *)
  mkGated "Cmp" "i16x8" "min" [] ["sse4.1"] [];
  (* src/arch/x86/intrin/cmp.rs:38 *)
  mkGated "Cmp" "i16x8" "max" ["sse4.1"] [] ["_mm_max_epi16"];
  (* src/arch/x86/intrin/cmp.rs:38 *)
  mkGated "Cmp" "i16x8" "max" [] ["sse4.1"] [];
  (* src/arch/x86/intrin/cmp.rs:44 *)
  mkGated "Cmp" "u32x4" "min" ["sse4.1"] [] ["_mm_min_epu32"];
  (* src/arch/x86/intrin/cmp.rs:44 *)
  mkGated "Cmp" "u32x4" "min" [] ["sse4.1"] [];
  (* src/arch/x86/intrin/cmp.rs:45 *)
  mkGated "Cmp" "u32x4" "max" ["sse4.1"] [] ["_mm_max_epu32"];
  (* src/arch/x86/intrin/cmp.rs:45 *)
  mkGated "Cmp" "u32x4" "max" [] ["sse4.1"] [];
  (* src/arch/x86/intrin/cmp.rs:51 *)
  mkGated "Cmp" "i32x4" "min" ["sse4.1"] [] ["_mm_min_epi32"];
  (* src/arch/x86/intrin/cmp.rs:51 *)
  mkGated "Cmp" "i32x4" "min" [] ["sse4.1"] [];
  (* src/arch/x86/intrin/cmp.rs:52 *)
  mkGated "Cmp" "i32x4" "max" ["sse4.1"] [] ["_mm_max_epi32"];
  (* src/arch/x86/intrin/cmp.rs:52 *)
  mkGated "Cmp" "i32x4" "max" [] ["sse4.1"] [];
  (* src/arch/x86/intrin/cmp.rs:58 *)
  mkGated "Cmp" "f32x4" "min" ["sse"] [] ["_mm_min_ps"];
  (* src/arch/x86/intrin/cmp.rs:58 *)
  mkGated "Cmp" "f32x4" "min" [] ["sse"] [];
  (* src/arch/x86/intrin/cmp.rs:59 *)
  mkGated "Cmp" "f32x4" "max" ["sse"] [] ["_mm_max_ps"];
  (* src/arch/x86/intrin/cmp.rs:59 *)
  mkGated "Cmp" "f32x4" "max" [] ["sse"] [];
  (* src/arch/x86/intrin/cmp.rs:65 *)
  mkGated "Cmp" "f64x2" "min" ["sse2"] [] ["_mm_min_pd"];
  (* src/arch/x86/intrin/cmp.rs:65 *)
  mkGated "Cmp" "f64x2" "min" [] ["sse2"] [];
  (* src/arch/x86/intrin/cmp.rs:66 *)
  mkGated "Cmp" "f64x2" "max" ["sse2"] [] ["_mm_max_pd"];
  (* src/arch/x86/intrin/cmp.rs:66 *)
  mkGated "Cmp" "f64x2" "max" [] ["sse2"] [];
  (* src/arch/x86/intrin/cmp.rs:72 *)
  mkGated "Cmp" "u8x32" "min" ["avx2"] [] ["_mm256_min_epu8"];
  (* src/arch/x86/intrin/cmp.rs:72 *)
  mkGated "Cmp" "u8x32" "min" [] ["avx2"] [];
  (* src/arch/x86/intrin/cmp.rs:74 *)
  mkGated "Cmp" "u8x32" "max" ["avx2"] [] ["_mm256_max_epu8"];
  (* src/arch/x86/intrin/cmp.rs:74 *)
  mkGated "Cmp" "u8x32" "max" [] ["avx2"] [];
  (* src/arch/x86/intrin/cmp.rs:81 *)
  mkGated "Cmp" "i8x32" "min" ["avx2"] [] ["_mm256_min_epi8"];
  (* src/arch/x86/intrin/cmp.rs:81 *)
  mkGated "Cmp" "i8x32" "min" [] ["avx2"] [];
  (* src/arch/x86/intrin/cmp.rs:83 *)
  mkGated "Cmp" "i8x32" "max" ["avx2"] [] ["_mm256_max_epi8"];
  (* src/arch/x86/intrin/cmp.rs:83 *)
  mkGated "Cmp" "i8x32" "max" [] ["avx2"] [];
  (* src/arch/x86/intrin/cmp.rs:90 *)
  mkGated "Cmp" "u16x16" "min" ["avx2"] [] ["_mm256_min_epu16"];
  (* src/arch/x86/intrin/cmp.rs:90 *)
  mkGated "Cmp" "u16x16" "min" [] ["avx2"] [];
  (* src/arch/x86/intrin/cmp.rs:91 *)
  mkGated "Cmp" "u16x16" "max" ["avx2"] [] ["_mm256_max_epu16"];
  (* src/arch/x86/intrin/cmp.rs:91 *)
  mkGated "Cmp" "u16x16" "max" [] ["avx2"] [];
  (* src/arch/x86/intrin/cmp.rs:97 *)
  mkGated "Cmp" "i16x16" "min" ["avx2"] [] ["_mm256_min_epi16"];
  (* src/arch/x86/intrin/cmp.rs:97 *)
  mkGated "Cmp" "i16x16" "min" [] ["avx2"] [];
  (* src/arch/x86/intrin/cmp.rs:98 *)
  mkGated "Cmp" "i16x16" "max" ["avx2"] [] ["_mm256_max_epi16"];
  (* src/arch/x86/intrin/cmp.rs:98 *)
  mkGated "Cmp" "i16x16" "max" [] ["avx2"] [];
  (* src/arch/x86/intrin/cmp.rs:104 *)
  mkGated "Cmp" "u32x8" "min" ["avx"] [] ["_mm256_min_epu32"];
  (* src/arch/x86/intrin/cmp.rs:104 *)
  mkGated "Cmp" "u32x8" "min" [] ["avx"] [];
  (* src/arch/x86/intrin/cmp.rs:105 *)
  mkGated "Cmp" "u32x8" "max" ["avx"] [] ["_mm256_max_epu32"];
  (* src/arch/x86/intrin/cmp.rs:105 *)
  mkGated "Cmp" "u32x8" "max" [] ["avx"] [];
  (* src/arch/x86/intrin/cmp.rs:111 *)
  mkGated "Cmp" "i32x8" "min" ["avx"] [] ["_mm256_min_epi32"];
  (* src/arch/x86/intrin/cmp.rs:111 *)
  mkGated "Cmp" "i32x8" "min" [] ["avx"] [];
  (* src/arch/x86/intrin/cmp.rs:112 *)
  mkGated "Cmp" "i32x8" "max" ["avx"] [] ["_mm256_max_epi32"];
  (* src/arch/x86/intrin/cmp.rs:112 *)
  mkGated "Cmp" "i32x8" "max" [] ["avx"] [];
  (* src/arch/x86/intrin/cmp.rs:118 *)
  mkGated "Cmp" "f32x8" "min" ["avx"] [] ["_mm256_min_ps"];
  (* src/arch/x86/intrin/cmp.rs:118 *)
  mkGated "Cmp" "f32x8" "min" [] ["avx"] [];
  (* src/arch/x86/intrin/cmp.rs:119 *)
  mkGated "Cmp" "f32x8" "max" ["avx"] [] ["_mm256_max_ps"];
  (* src/arch/x86/intrin/cmp.rs:119 *)
  mkGated "Cmp" "f32x8" "max" [] ["avx"] [];
  (* src/arch/x86/intrin/cmp.rs:125 *)
  mkGated "Cmp" "f64x4" "min" ["avx"] [] ["_mm256_min_pd"];
  (* src/arch/x86/intrin/cmp.rs:125 *)
  mkGated "Cmp" "f64x4" "min" [] ["avx"] [];
  (* src/arch/x86/intrin/cmp.rs:126 *)
  mkGated "Cmp" "f64x4" "max" ["avx"] [] ["_mm256_max_pd"];
  (* src/arch/x86/intrin/cmp.rs:126 *)
  mkGated "Cmp" "f64x4" "max" [] ["avx"] [];
  (* src/arch/x86/intrin/destride.rs:13 *)
  mkGated "Destride" "u8x16" "destride_two" ["ssse3"] [] ["_mm_shuffle_epi8"];
  (* src/arch/x86/intrin/destride.rs:26 *)
  mkGated "Destride" "u8x16" "destride_two" [] ["ssse3"] [];
  (* src/arch/x86/intrin/destride.rs:32 *)
  mkGated "Destride" "u8x16" "destride_four" [] [] [];
  (* src/arch/x86/intrin/destride.rs:41 *)
  mkGated "Destride" "u8x32" "destride_two" ["avx2"] [] ["_mm256_shuffle_epi8"; "_mm256_permute4x64_epi64"];
  (* src/arch/x86/intrin/destride.rs:58 *)
  mkGated "Destride" "u8x32" "destride_two" [] ["avx2"] [];
  (* src/arch/x86/intrin/destride.rs:64 *)
  mkGated "Destride" "u8x32" "destride_four" [] [] [];
  (* src/arch/x86/intrin/destride.rs:73 *)
  mkGated "Destride" "i8x16" "destride_two" ["ssse3"] [] ["_mm_shuffle_epi8"];
  (* src/arch/x86/intrin/destride.rs:86 *)
  mkGated "Destride" "i8x16" "destride_two" [] ["ssse3"] [];
  (* src/arch/x86/intrin/destride.rs:92 *)
  mkGated "Destride" "i8x16" "destride_four" [] [] [];
  (* src/arch/x86/intrin/destride.rs:101 *)
  mkGated "Destride" "i8x32" "destride_two" ["avx2"] [] ["_mm256_shuffle_epi8"; "_mm256_permute4x64_epi64"];
  (* src/arch/x86/intrin/destride.rs:118 *)
  mkGated "Destride" "i8x32" "destride_two" [] ["avx2"] [];
  (* src/arch/x86/intrin/destride.rs:124 *)
  mkGated "Destride" "i8x32" "destride_four" [] [] [];
  (* src/arch/x86/intrin/destride.rs:148 *)
  mkGated "Destride" "u16x16" "destride_two" [] [] [];
  (* src/arch/x86/intrin/destride.rs:148 *)
  mkGated "Destride" "u16x16" "destride_four" [] [] [];
  (* src/arch/x86/intrin/destride.rs:149 *)
  mkGated "Destride" "u16x8" "destride_two" [] [] [];
  (* src/arch/x86/intrin/destride.rs:149 *)
  mkGated "Destride" "u16x8" "destride_four" [] [] [];
  (* src/arch/x86/intrin/destride.rs:150 *)
  mkGated "Destride" "i16x16" "destride_two" [] [] [];
  (* src/arch/x86/intrin/destride.rs:150 *)
  mkGated "Destride" "i16x16" "destride_four" [] [] [];
  (* src/arch/x86/intrin/destride.rs:151 *)
  mkGated "Destride" "i16x8" "destride_two" [] [] [];
  (* src/arch/x86/intrin/destride.rs:151 *)
  mkGated "Destride" "i16x8" "destride_four" [] [] [];
  (* src/arch/x86/intrin/destride.rs:153 *)
  mkGated "Destride" "u32x8" "destride_two" [] [] [];
  (* src/arch/x86/intrin/destride.rs:153 *)
  mkGated "Destride" "u32x8" "destride_four" [] [] [];
  (* src/arch/x86/intrin/destride.rs:154 *)
  mkGated "Destride" "u32x4" "destride_two" [] [] [];
  (* src/arch/x86/intrin/destride.rs:154 *)
  mkGated "Destride" "u32x4" "destride_four" [] [] [];
  (* src/arch/x86/intrin/destride.rs:155 *)
  mkGated "Destride" "i32x8" "destride_two" [] [] [];
  (* src/arch/x86/intrin/destride.rs:155 *)
  mkGated "Destride" "i32x8" "destride_four" [] [] [];
  (* src/arch/x86/intrin/destride.rs:156 *)
  mkGated "Destride" "i32x4" "destride_two" [] [] [];
  (* src/arch/x86/intrin/destride.rs:156 *)
  mkGated "Destride" "i32x4" "destride_four" [] [] [];
  (* src/arch/x86/intrin/downcast.rs:19 *)
  mkGated "Downcast<i16x8>" "i32x4" "saturating_downcast" ["sse2"] [] ["_mm_packs_epi32"];
  (* src/arch/x86/intrin/downcast.rs:26 *)
  mkGated "Downcast<i16x8>" "i32x4" "saturating_downcast" [] ["sse2"] [];
  (* src/arch/x86/intrin/downcast.rs:41 *)
  mkGated "Downcast<i32x4>" "i64x2" "saturating_downcast" [] [] [];
  (* src/arch/x86/intrin/downcast.rs:52 *)
  mkGated "Downcast<u32x4>" "u64x2" "saturating_downcast" [] [] [];
  (* src/arch/x86/intrin/downcast.rs:63 *)
  mkGated "Downcast<f32x4>" "f64x2" "saturating_downcast" [] [] [];
  (* src/arch/x86/intrin/downcast.rs:75 *)
  mkGated "Downcast<i8x16>" "i16x8" "saturating_downcast" ["sse2"] [] ["_mm_packs_epi16"];
  (* src/arch/x86/intrin/downcast.rs:82 *)
  mkGated "Downcast<i8x16>" "i16x8" "saturating_downcast" [] ["sse2"] [];
  (* src/arch/x86/intrin/downcast.rs:106 *)
  mkGated "Downcast<u16x8>" "u32x4" "saturating_downcast" ["sse4.1"] [] ["_mm_packus_epi32"];
  (* src/arch/x86/intrin/downcast.rs:113 *)
  mkGated "Downcast<u16x8>" "u32x4" "saturating_downcast" [] ["sse4.1"] [];
  (* src/arch/x86/intrin/downcast.rs:129 *)
  mkGated "Downcast<u8x16>" "u16x8" "saturating_downcast" ["sse2"] [] ["_mm_packus_epi16"];
  (* src/arch/x86/intrin/downcast.rs:136 *)
  mkGated "Downcast<u8x16>" "u16x8" "saturating_downcast" [] ["sse2"] [];
  (* src/arch/x86/intrin/downcast.rs:160 *)
  mkGated "Downcast<i16x16>" "i32x8" "saturating_downcast" ["avx2"] [] ["_mm256_packs_epi32"];
  (* src/arch/x86/intrin/downcast.rs:167 *)
  mkGated "Downcast<i16x16>" "i32x8" "saturating_downcast" [] ["avx2"] [];
  (* src/arch/x86/intrin/downcast.rs:191 *)
  mkGated "Downcast<i8x32>" "i16x16" "saturating_downcast" ["avx2"] [] ["_mm256_packs_epi16"];
  (* src/arch/x86/intrin/downcast.rs:198 *)
  mkGated "Downcast<i8x32>" "i16x16" "saturating_downcast" [] ["avx2"] [];
  (* src/arch/x86/intrin/downcast.rs:238 *)
  mkGated "Downcast<u16x16>" "u32x8" "saturating_downcast" ["avx2"] [] ["_mm256_packus_epi32"];
  (* src/arch/x86/intrin/downcast.rs:245 *)
  mkGated "Downcast<u16x16>" "u32x8" "saturating_downcast" [] ["avx2"] [];
  (* src/arch/x86/intrin/downcast.rs:269 *)
  mkGated "Downcast<u8x32>" "u16x16" "saturating_downcast" ["avx2"] [] ["_mm256_packus_epi16"];
  (* src/arch/x86/intrin/downcast.rs:276 *)
  mkGated "Downcast<u8x32>" "u16x16" "saturating_downcast" [] ["avx2"] [];
  (* src/arch/x86/intrin/downcast.rs:315 *)
  mkGated "Downcast<i32x8>" "i64x4" "saturating_downcast" [] [] [];
  (* src/arch/x86/intrin/downcast.rs:330 *)
  mkGated "Downcast<u32x8>" "u64x4" "saturating_downcast" [] [] [];
  (* src/arch/x86/intrin/downcast.rs:345 *)
  mkGated "Downcast<f32x8>" "f64x4" "saturating_downcast" [] [] [];
  (* src/arch/x86/intrin/endian.rs:9 *)
  mkGated "Reendianize" "u8x64" "swap_bytes" ["avx512-butnotyet"] [] ["_mm512_permutexvar_epi8"];
  (* src/arch/x86/intrin/endian.rs:9 *)
  mkGated "Reendianize" "u8x64" "swap_bytes" [] ["avx512-butnotyet"] [];
  (* src/arch/x86/intrin/endian.rs:12 *)
  mkGated "Reendianize" "u8x32" "swap_bytes" ["avx2"] [] ["_mm256_shuffle_epi8"];
  (* src/arch/x86/intrin/endian.rs:12 *)
  mkGated "Reendianize" "u8x32" "swap_bytes" [] ["avx2"] [];
  (* src/arch/x86/intrin/endian.rs:15 *)
  mkGated "Reendianize" "u8x16" "swap_bytes" ["ssse3"] [] ["_mm_shuffle_epi8"];
  (* src/arch/x86/intrin/endian.rs:15 *)
  mkGated "Reendianize" "u8x16" "swap_bytes" [] ["ssse3"] [];
  (* src/arch/x86/intrin/endian.rs:18 *)
  mkGated "Reendianize" "i8x64" "swap_bytes" ["avx512-butnotyet"] [] ["_mm512_permutexvar_epi8"];
  (* src/arch/x86/intrin/endian.rs:18 *)
  mkGated "Reendianize" "i8x64" "swap_bytes" [] ["avx512-butnotyet"] [];
  (* src/arch/x86/intrin/endian.rs:21 *)
  mkGated "Reendianize" "i8x32" "swap_bytes" ["avx2"] [] ["_mm256_shuffle_epi8"];
  (* src/arch/x86/intrin/endian.rs:21 *)
  mkGated "Reendianize" "i8x32" "swap_bytes" [] ["avx2"] [];
  (* src/arch/x86/intrin/endian.rs:24 *)
  mkGated "Reendianize" "i8x16" "swap_bytes" ["ssse3"] [] ["_mm_shuffle_epi8"];
  (* src/arch/x86/intrin/endian.rs:24 *)
  mkGated "Reendianize" "i8x16" "swap_bytes" [] ["ssse3"] [];
  (* src/arch/x86/intrin/endian.rs:27 *)
  mkGated "Reendianize" "u16x32" "swap_bytes" ["avx512-butnotyet"] [] ["_mm512_permutexvar_epi8"];
  (* src/arch/x86/intrin/endian.rs:27 *)
  mkGated "Reendianize" "u16x32" "swap_bytes" [] ["avx512-butnotyet"] [];
  (* src/arch/x86/intrin/endian.rs:30 *)
  mkGated "Reendianize" "u16x16" "swap_bytes" ["avx2"] [] ["_mm256_shuffle_epi8"];
  (* src/arch/x86/intrin/endian.rs:30 *)
  mkGated "Reendianize" "u16x16" "swap_bytes" [] ["avx2"] [];
  (* src/arch/x86/intrin/endian.rs:33 *)
  mkGated "Reendianize" "u16x8" "swap_bytes" ["ssse3"] [] ["_mm_shuffle_epi8"];
  (* src/arch/x86/intrin/endian.rs:33 *)
  mkGated "Reendianize" "u16x8" "swap_bytes" [] ["ssse3"] [];
  (* src/arch/x86/intrin/endian.rs:36 *)
  mkGated "Reendianize" "i16x32" "swap_bytes" ["avx512-butnotyet"] [] ["_mm512_permutexvar_epi8"];
  (* src/arch/x86/intrin/endian.rs:36 *)
  mkGated "Reendianize" "i16x32" "swap_bytes" [] ["avx512-butnotyet"] [];
  (* src/arch/x86/intrin/endian.rs:39 *)
  mkGated "Reendianize" "i16x16" "swap_bytes" ["avx2"] [] ["_mm256_shuffle_epi8"];
  (* src/arch/x86/intrin/endian.rs:39 *)
  mkGated "Reendianize" "i16x16" "swap_bytes" [] ["avx2"] [];
  (* src/arch/x86/intrin/endian.rs:42 *)
  mkGated "Reendianize" "i16x8" "swap_bytes" ["ssse3"] [] ["_mm_shuffle_epi8"];
  (* src/arch/x86/intrin/endian.rs:42 *)
  mkGated "Reendianize" "i16x8" "swap_bytes" [] ["ssse3"] [];
  (* src/arch/x86/intrin/endian.rs:45 *)
  mkGated "Reendianize" "u32x16" "swap_bytes" ["avx512-butnotyet"] [] ["_mm512_permutexvar_epi8"];
  (* src/arch/x86/intrin/endian.rs:45 *)
  mkGated "Reendianize" "u32x16" "swap_bytes" [] ["avx512-butnotyet"] [];
  (* src/arch/x86/intrin/endian.rs:48 *)
  mkGated "Reendianize" "u32x8" "swap_bytes" ["avx2"] [] ["_mm256_shuffle_epi8"];
  (* src/arch/x86/intrin/endian.rs:48 *)
  mkGated "Reendianize" "u32x8" "swap_bytes" [] ["avx2"] [];
  (* src/arch/x86/intrin/endian.rs:51 *)
  mkGated "Reendianize" "u32x4" "swap_bytes" ["ssse3"] [] ["_mm_shuffle_epi8"];
  (* src/arch/x86/intrin/endian.rs:51 *)
  mkGated "Reendianize" "u32x4" "swap_bytes" [] ["ssse3"] [];
  (* src/arch/x86/intrin/endian.rs:54 *)
  mkGated "Reendianize" "i32x16" "swap_bytes" ["avx512-butnotyet"] [] ["_mm512_permutexvar_epi8"];
  (* src/arch/x86/intrin/endian.rs:54 *)
  mkGated "Reendianize" "i32x16" "swap_bytes" [] ["avx512-butnotyet"] [];
  (* src/arch/x86/intrin/endian.rs:57 *)
  mkGated "Reendianize" "i32x8" "swap_bytes" ["avx2"] [] ["_mm256_shuffle_epi8"];
  (* src/arch/x86/intrin/endian.rs:57 *)
  mkGated "Reendianize" "i32x8" "swap_bytes" [] ["avx2"] [];
  (* src/arch/x86/intrin/endian.rs:60 *)
  mkGated "Reendianize" "i32x4" "swap_bytes" ["ssse3"] [] ["_mm_shuffle_epi8"];
  (* src/arch/x86/intrin/endian.rs:60 *)
  mkGated "Reendianize" "i32x4" "swap_bytes" [] ["ssse3"] [];
  (* src/arch/x86/intrin/endian.rs:63 *)
  mkGated "Reendianize" "u64x8" "swap_bytes" ["avx512-butnotyet"] [] ["_mm512_permutexvar_epi8"];
  (* src/arch/x86/intrin/endian.rs:63 *)
  mkGated "Reendianize" "u64x8" "swap_bytes" [] ["avx512-butnotyet"] [];
  (* src/arch/x86/intrin/endian.rs:66 *)
  mkGated "Reendianize" "u64x4" "swap_bytes" ["avx2"] [] ["_mm256_shuffle_epi8"];
  (* src/arch/x86/intrin/endian.rs:66 *)
  mkGated "Reendianize" "u64x4" "swap_bytes" [] ["avx2"] [];
  (* src/arch/x86/intrin/endian.rs:69 *)
  mkGated "Reendianize" "u64x2" "swap_bytes" ["ssse3"] [] ["_mm_shuffle_epi8"];
  (* src/arch/x86/intrin/endian.rs:69 *)
  mkGated "Reendianize" "u64x2" "swap_bytes" [] ["ssse3"] [];
  (* src/arch/x86/intrin/endian.rs:72 *)
  mkGated "Reendianize" "i64x8" "swap_bytes" ["avx512-butnotyet"] [] ["_mm512_permutexvar_epi8"];
  (* src/arch/x86/intrin/endian.rs:72 *)
  mkGated "Reendianize" "i64x8" "swap_bytes" [] ["avx512-butnotyet"] [];
  (* src/arch/x86/intrin/endian.rs:75 *)
  mkGated "Reendianize" "i64x4" "swap_bytes" ["avx2"] [] ["_mm256_shuffle_epi8"];
  (* src/arch/x86/intrin/endian.rs:75 *)
  mkGated "Reendianize" "i64x4" "swap_bytes" [] ["avx2"] [];
  (* src/arch/x86/intrin/endian.rs:78 *)
  mkGated "Reendianize" "i64x2" "swap_bytes" ["ssse3"] [] ["_mm_shuffle_epi8"];
  (* src/arch/x86/intrin/endian.rs:78 *)
  mkGated "Reendianize" "i64x2" "swap_bytes" [] ["ssse3"] [];
  (* src/arch/x86/intrin/eq.rs:17 *)
  mkGated "Eq" "u8x16" "eq_mask" ["sse2"] [] ["_mm_cmpeq_epi8"];
  (* src/arch/x86/intrin/eq.rs:17 *)
  mkGated "Eq" "u8x16" "eq_mask" [] ["sse2"] [];
  (* src/arch/x86/intrin/eq.rs:23 *)
  mkGated "Eq" "i8x16" "eq_mask" ["sse4.1"] [] ["_mm_cmpeq_epi8"];
  (* src/arch/x86/intrin/eq.rs:23 *)
  mkGated "Eq" "i8x16" "eq_mask" [] ["sse4.1"] [];
  (* src/arch/x86/intrin/eq.rs:29 *)
  mkGated "Eq" "u16x8" "eq_mask" ["sse4.1"] [] ["_mm_cmpeq_epi16"];
  (* src/arch/x86/intrin/eq.rs:29 *)
  mkGated "Eq" "u16x8" "eq_mask" [] ["sse4.1"] [];
  (* src/arch/x86/intrin/eq.rs:35 *)
  mkGated "Eq" "i16x8" "eq_mask" ["sse4.1"] [] ["_mm_cmpeq_epi16"];
  (* src/arch/x86/intrin/eq.rs:35 *)
  mkGated "Eq" "i16x8" "eq_mask" [] ["sse4.1"] [];
  (* src/arch/x86/intrin/eq.rs:41 *)
  mkGated "Eq" "u32x4" "eq_mask" ["sse4.1"] [] ["_mm_cmpeq_epi32"];
  (* src/arch/x86/intrin/eq.rs:41 *)
  mkGated "Eq" "u32x4" "eq_mask" [] ["sse4.1"] [];
  (* src/arch/x86/intrin/eq.rs:47 *)
  mkGated "Eq" "i32x4" "eq_mask" ["sse4.1"] [] ["_mm_cmpeq_epi32"];
  (* src/arch/x86/intrin/eq.rs:47 *)
  mkGated "Eq" "i32x4" "eq_mask" [] ["sse4.1"] [];
  (* src/arch/x86/intrin/eq.rs:53 *)
  mkGated "Eq" "f32x4" "eq_mask" ["sse"] [] ["_mm_cmpeq_ps"];
  (* src/arch/x86/intrin/eq.rs:53 *)
  mkGated "Eq" "f32x4" "eq_mask" [] ["sse"] [];
  (* src/arch/x86/intrin/eq.rs:59 *)
  mkGated "Eq" "f64x2" "eq_mask" ["sse2"] [] ["_mm_cmpeq_pd"];
  (* src/arch/x86/intrin/eq.rs:59 *)
  mkGated "Eq" "f64x2" "eq_mask" [] ["sse2"] [];
  (* src/arch/x86/intrin/eq.rs:65 *)
  mkGated "Eq" "u64x2" "eq_mask" ["sse4.1"] [] ["_mm_cmpeq_epi64"];
  (* src/arch/x86/intrin/eq.rs:65 *)
  mkGated "Eq" "u64x2" "eq_mask" [] ["sse4.1"] [];
  (* src/arch/x86/intrin/eq.rs:71 *)
  mkGated "Eq" "i64x2" "eq_mask" ["sse4.1"] [] ["_mm_cmpeq_epi64"];
  (* src/arch/x86/intrin/eq.rs:71 *)
  mkGated "Eq" "i64x2" "eq_mask" [] ["sse4.1"] [];
  (* src/arch/x86/intrin/eq.rs:77 *)
  mkGated "Eq" "u8x32" "eq_mask" ["avx2"] [] ["_mm256_cmpeq_epi8"];
  (* src/arch/x86/intrin/eq.rs:77 *)
  mkGated "Eq" "u8x32" "eq_mask" [] ["avx2"] [];
  (* src/arch/x86/intrin/eq.rs:84 *)
  mkGated "Eq" "i8x32" "eq_mask" ["avx2"] [] ["_mm256_cmpeq_epi8"];
  (* src/arch/x86/intrin/eq.rs:84 *)
  mkGated "Eq" "i8x32" "eq_mask" [] ["avx2"] [];
  (* src/arch/x86/intrin/eq.rs:91 *)
  mkGated "Eq" "u16x16" "eq_mask" ["avx2"] [] ["_mm256_cmpeq_epi16"];
  (* src/arch/x86/intrin/eq.rs:91 *)
  mkGated "Eq" "u16x16" "eq_mask" [] ["avx2"] [];
  (* src/arch/x86/intrin/eq.rs:97 *)
  mkGated "Eq" "i16x16" "eq_mask" ["avx2"] [] ["_mm256_cmpeq_epi16"];
  (* src/arch/x86/intrin/eq.rs:97 *)
  mkGated "Eq" "i16x16" "eq_mask" [] ["avx2"] [];
  (* src/arch/x86/intrin/eq.rs:103 *)
  mkGated "Eq" "u32x8" "eq_mask" ["avx2"] [] ["_mm256_cmpeq_epi32"];
  (* src/arch/x86/intrin/eq.rs:103 *)
  mkGated "Eq" "u32x8" "eq_mask" [] ["avx2"] [];
  (* src/arch/x86/intrin/eq.rs:109 *)
  mkGated "Eq" "i32x8" "eq_mask" ["avx2"] [] ["_mm256_cmpeq_epi32"];
  (* src/arch/x86/intrin/eq.rs:109 *)
  mkGated "Eq" "i32x8" "eq_mask" [] ["avx2"] [];
  (* src/arch/x86/intrin/eq.rs:115 *)
  mkGated "Eq" "f32x8" "eq_mask" ["avx"] [] ["_mm256_cmp_ps"];
  (* src/arch/x86/intrin/eq.rs:115 *)
  mkGated "Eq" "f32x8" "eq_mask" [] ["avx"] [];
  (* src/arch/x86/intrin/eq.rs:121 *)
  mkGated "Eq" "f64x4" "eq_mask" ["avx"] [] ["_mm256_cmp_pd"];
  (* src/arch/x86/intrin/eq.rs:121 *)
  mkGated "Eq" "f64x4" "eq_mask" [] ["avx"] [];
  (* src/arch/x86/intrin/eq.rs:127 *)
  mkGated "Eq" "u64x4" "eq_mask" ["avx2"] [] ["_mm256_cmpeq_epi64"];
  (* src/arch/x86/intrin/eq.rs:127 *)
  mkGated "Eq" "u64x4" "eq_mask" [] ["avx2"] [];
  (* src/arch/x86/intrin/eq.rs:133 *)
  mkGated "Eq" "i64x4" "eq_mask" ["avx2"] [] ["_mm256_cmpeq_epi64"];
  (* src/arch/x86/intrin/eq.rs:133 *)
  mkGated "Eq" "i64x4" "eq_mask" [] ["avx2"] [];
  (* src/arch/x86/intrin/hadd.rs:19 *)
  mkGated "HAdd" "f32x4" "hadd" ["sse3"] [] ["_mm_hadd_ps"; "_mm_shuffle_ps"];
  (* src/arch/x86/intrin/hadd.rs:30 *)
  mkGated "HAdd" "f64x2" "hadd" ["sse3"] [] ["_mm_hadd_pd"];
  (* src/arch/x86/intrin/hadd.rs:39 *)
  mkGated "HAdd" "f32x8" "hadd" ["avx2"] [] ["_mm256_hadd_ps"; "_mm256_unpacklo_epi64"; "_mm256_unpackhi_epi64"];
  (* src/arch/x86/intrin/hadd.rs:49 *)
  mkGated "HAdd" "f64x4" "hadd" ["avx"] [] ["_mm256_hadd_pd"];
  (* src/arch/x86/intrin/hadd.rs:58 *)
  mkGated "HAdd" "i16x8" "hadd" ["ssse3"] [] ["_mm_hadd_epi16"; "_mm_unpacklo_epi32"; "_mm_unpackhi_epi32"];
  (* src/arch/x86/intrin/hadd.rs:68 *)
  mkGated "HAdd" "i32x4" "hadd" ["ssse3"] [] ["_mm_hadd_epi32"; "_mm_unpacklo_epi64"; "_mm_unpackhi_epi64"];
  (* src/arch/x86/intrin/hadd.rs:78 *)
  mkGated "HAdd" "i16x16" "hadd" ["avx2"] [] ["_mm256_hadd_epi16"; "_mm256_unpacklo_epi32"; "_mm256_unpackhi_epi32"];
  (* src/arch/x86/intrin/hadd.rs:88 *)
  mkGated "HAdd" "i32x8" "hadd" ["avx2"] [] ["_mm256_hadd_epi32"; "_mm256_unpacklo_epi64"; "_mm256_unpackhi_epi64"];
  (* src/arch/x86/intrin/hadd.rs:95 *)
  mkGated "HAdd" "u64x2" "hadd" [] [] [];
  (* src/arch/x86/intrin/hadd.rs:96 *)
  mkGated "HAdd" "u64x4" "hadd" [] [] [];
  (* src/arch/x86/intrin/hadd.rs:97 *)
  mkGated "HAdd" "u64x8" "hadd" [] [] [];
  (* src/arch/x86/intrin/hadd.rs:98 *)
  mkGated "HAdd" "u32x4" "hadd" [] [] [];
  (* src/arch/x86/intrin/hadd.rs:99 *)
  mkGated "HAdd" "u32x8" "hadd" [] [] [];
  (* src/arch/x86/intrin/hadd.rs:100 *)
  mkGated "HAdd" "u32x16" "hadd" [] [] [];
  (* src/arch/x86/intrin/hadd.rs:101 *)
  mkGated "HAdd" "u16x8" "hadd" [] [] [];
  (* src/arch/x86/intrin/hadd.rs:102 *)
  mkGated "HAdd" "u16x16" "hadd" [] [] [];
  (* src/arch/x86/intrin/hadd.rs:103 *)
  mkGated "HAdd" "u16x32" "hadd" [] [] [];
  (* src/arch/x86/intrin/hadd.rs:104 *)
  mkGated "HAdd" "u8x16" "hadd" [] [] [];
  (* src/arch/x86/intrin/hadd.rs:105 *)
  mkGated "HAdd" "u8x32" "hadd" [] [] [];
  (* src/arch/x86/intrin/hadd.rs:106 *)
  mkGated "HAdd" "u8x64" "hadd" [] [] [];
  (* src/arch/x86/intrin/hadd.rs:107 *)
  mkGated "HAdd" "i64x2" "hadd" [] [] [];
  (* src/arch/x86/intrin/hadd.rs:108 *)
  mkGated "HAdd" "i64x4" "hadd" [] [] [];
  (* src/arch/x86/intrin/hadd.rs:109 *)
  mkGated "HAdd" "i64x8" "hadd" [] [] [];
  (* src/arch/x86/intrin/hadd.rs:111 *)
  mkGated "HAdd" "i32x4" "hadd" [] ["ssse3"] [];
  (* src/arch/x86/intrin/hadd.rs:113 *)
  mkGated "HAdd" "i32x8" "hadd" [] ["avx2"] [];
  (* src/arch/x86/intrin/hadd.rs:114 *)
  mkGated "HAdd" "i32x16" "hadd" [] [] [];
  (* src/arch/x86/intrin/hadd.rs:116 *)
  mkGated "HAdd" "i16x8" "hadd" [] ["ssse3"] [];
  (* src/arch/x86/intrin/hadd.rs:118 *)
  mkGated "HAdd" "i16x16" "hadd" [] ["avx2"] [];
  (* src/arch/x86/intrin/hadd.rs:119 *)
  mkGated "HAdd" "i16x32" "hadd" [] [] [];
  (* src/arch/x86/intrin/hadd.rs:120 *)
  mkGated "HAdd" "i8x16" "hadd" [] [] [];
  (* src/arch/x86/intrin/hadd.rs:121 *)
  mkGated "HAdd" "i8x32" "hadd" [] [] [];
  (* src/arch/x86/intrin/hadd.rs:122 *)
  mkGated "HAdd" "i8x64" "hadd" [] [] [];
  (* src/arch/x86/intrin/hadd.rs:124 *)
  mkGated "HAdd" "f64x2" "hadd" [] ["sse3"] [];
  (* src/arch/x86/intrin/hadd.rs:126 *)
  mkGated "HAdd" "f64x4" "hadd" [] ["avx"] [];
  (* src/arch/x86/intrin/hadd.rs:127 *)
  mkGated "HAdd" "f64x8" "hadd" [] [] [];
  (* src/arch/x86/intrin/hadd.rs:129 *)
  mkGated "HAdd" "f32x4" "hadd" [] ["sse3"] [];
  (* src/arch/x86/intrin/hadd.rs:131 *)
  mkGated "HAdd" "f32x8" "hadd" [] ["avx2"] [];
  (* src/arch/x86/intrin/hadd.rs:132 *)
  mkGated "HAdd" "f32x16" "hadd" [] [] [];
  (* src/arch/x86/intrin/hsub.rs:19 *)
  mkGated "HSub" "f32x4" "hsub" ["sse3"] [] ["_mm_hsub_ps"; "_mm_shuffle_ps"];
  (* src/arch/x86/intrin/hsub.rs:29 *)
  mkGated "HSub" "f64x2" "hsub" ["sse3"] [] ["_mm_hsub_pd"];
  (* src/arch/x86/intrin/hsub.rs:38 *)
  mkGated "HSub" "f32x8" "hsub" ["avx2"] [] ["_mm256_hsub_ps"; "_mm256_unpacklo_epi64"; "_mm256_unpackhi_epi64"];
  (* src/arch/x86/intrin/hsub.rs:48 *)
  mkGated "HSub" "f64x4" "hsub" ["avx"] [] ["_mm256_hsub_pd"];
  (* src/arch/x86/intrin/hsub.rs:57 *)
  mkGated "HSub" "i16x8" "hsub" ["ssse3"] [] ["_mm_hsub_epi16"; "_mm_unpacklo_epi32"; "_mm_unpackhi_epi32"];
  (* src/arch/x86/intrin/hsub.rs:67 *)
  mkGated "HSub" "i32x4" "hsub" ["ssse3"] [] ["_mm_hsub_epi32"; "_mm_unpacklo_epi64"; "_mm_unpackhi_epi64"];
  (* src/arch/x86/intrin/hsub.rs:77 *)
  mkGated "HSub" "i16x16" "hsub" ["avx2"] [] ["_mm256_hsub_epi16"; "_mm256_unpacklo_epi32"; "_mm256_unpackhi_epi32"];
  (* src/arch/x86/intrin/hsub.rs:87 *)
  mkGated "HSub" "i32x8" "hsub" ["avx2"] [] ["_mm256_hsub_epi32"; "_mm256_unpacklo_epi64"; "_mm256_unpackhi_epi64"];
  (* src/arch/x86/intrin/hsub.rs:94 *)
  mkGated "HSub" "u64x2" "hsub" [] [] [];
  (* src/arch/x86/intrin/hsub.rs:95 *)
  mkGated "HSub" "u64x4" "hsub" [] [] [];
  (* src/arch/x86/intrin/hsub.rs:96 *)
  mkGated "HSub" "u64x8" "hsub" [] [] [];
  (* src/arch/x86/intrin/hsub.rs:97 *)
  mkGated "HSub" "u32x4" "hsub" [] [] [];
  (* src/arch/x86/intrin/hsub.rs:98 *)
  mkGated "HSub" "u32x8" "hsub" [] [] [];
  (* src/arch/x86/intrin/hsub.rs:99 *)
  mkGated "HSub" "u32x16" "hsub" [] [] [];
  (* src/arch/x86/intrin/hsub.rs:100 *)
  mkGated "HSub" "u16x8" "hsub" [] [] [];
  (* src/arch/x86/intrin/hsub.rs:101 *)
  mkGated "HSub" "u16x16" "hsub" [] [] [];
  (* src/arch/x86/intrin/hsub.rs:102 *)
  mkGated "HSub" "u16x32" "hsub" [] [] [];
  (* src/arch/x86/intrin/hsub.rs:103 *)
  mkGated "HSub" "u8x16" "hsub" [] [] [];
  (* src/arch/x86/intrin/hsub.rs:104 *)
  mkGated "HSub" "u8x32" "hsub" [] [] [];
  (* src/arch/x86/intrin/hsub.rs:105 *)
  mkGated "HSub" "u8x64" "hsub" [] [] [];
  (* src/arch/x86/intrin/hsub.rs:106 *)
  mkGated "HSub" "i64x2" "hsub" [] [] [];
  (* src/arch/x86/intrin/hsub.rs:107 *)
  mkGated "HSub" "i64x4" "hsub" [] [] [];
  (* src/arch/x86/intrin/hsub.rs:108 *)
  mkGated "HSub" "i64x8" "hsub" [] [] [];
  (* src/arch/x86/intrin/hsub.rs:110 *)
  mkGated "HSub" "i32x4" "hsub" [] ["ssse3"] [];
  (* src/arch/x86/intrin/hsub.rs:112 *)
  mkGated "HSub" "i32x8" "hsub" [] ["avx2"] [];
  (* src/arch/x86/intrin/hsub.rs:113 *)
  mkGated "HSub" "i32x16" "hsub" [] [] [];
  (* src/arch/x86/intrin/hsub.rs:115 *)
  mkGated "HSub" "i16x8" "hsub" [] ["ssse3"] [];
  (* src/arch/x86/intrin/hsub.rs:117 *)
  mkGated "HSub" "i16x16" "hsub" [] ["avx2"] [];
  (* src/arch/x86/intrin/hsub.rs:118 *)
  mkGated "HSub" "i16x32" "hsub" [] [] [];
  (* src/arch/x86/intrin/hsub.rs:119 *)
  mkGated "HSub" "i8x16" "hsub" [] [] [];
  (* src/arch/x86/intrin/hsub.rs:120 *)
  mkGated "HSub" "i8x32" "hsub" [] [] [];
  (* src/arch/x86/intrin/hsub.rs:121 *)
  mkGated "HSub" "i8x64" "hsub" [] [] [];
  (* src/arch/x86/intrin/hsub.rs:123 *)
  mkGated "HSub" "f64x2" "hsub" [] ["sse3"] [];
  (* src/arch/x86/intrin/hsub.rs:125 *)
  mkGated "HSub" "f64x4" "hsub" [] ["avx"] [];
  (* src/arch/x86/intrin/hsub.rs:126 *)
  mkGated "HSub" "f64x8" "hsub" [] [] [];
  (* src/arch/x86/intrin/hsub.rs:128 *)
  mkGated "HSub" "f32x4" "hsub" [] ["sse3"] [];
  (* src/arch/x86/intrin/hsub.rs:130 *)
  mkGated "HSub" "f32x8" "hsub" [] ["avx2"] [];
  (* src/arch/x86/intrin/hsub.rs:131 *)
  mkGated "HSub" "f32x16" "hsub" [] [] [];
  (* src/arch/x86/intrin/merge.rs:12 *)
  mkGated "Merge" "u8x16" "merge_halves" ["sse4.1"] [] ["_mm_blendv_epi8"];
  (* src/arch/x86/intrin/merge.rs:12 *)
  mkGated "Merge" "u8x16" "merge_halves" [] ["sse4.1"] [];
  (* src/arch/x86/intrin/merge.rs:12 *)
  mkGated "Merge" "u8x16" "merge_interleaved" ["sse4.1"] [] ["_mm_blendv_epi8"];
  (* src/arch/x86/intrin/merge.rs:12 *)
  mkGated "Merge" "u8x16" "merge_interleaved" [] ["sse4.1"] [];
  (* src/arch/x86/intrin/merge.rs:12 *)
  mkGated "Merge" "u8x16" "merge_partitioned" ["sse4.1"] [] ["_mm_blendv_epi8"];
  (* src/arch/x86/intrin/merge.rs:12 *)
  mkGated "Merge" "u8x16" "merge_partitioned" [] ["sse4.1"] [];
  (* src/arch/x86/intrin/merge.rs:13 *)
  mkGated "Merge" "u8x32" "merge_halves" ["avx2"] [] ["_mm256_blendv_epi8"];
  (* src/arch/x86/intrin/merge.rs:13 *)
  mkGated "Merge" "u8x32" "merge_halves" [] ["avx2"] [];
  (* src/arch/x86/intrin/merge.rs:13 *)
  mkGated "Merge" "u8x32" "merge_interleaved" ["avx2"] [] ["_mm256_blendv_epi8"];
  (* src/arch/x86/intrin/merge.rs:13 *)
  mkGated "Merge" "u8x32" "merge_interleaved" [] ["avx2"] [];
  (* src/arch/x86/intrin/merge.rs:13 *)
  mkGated "Merge" "u8x32" "merge_partitioned" ["avx2"] [] ["_mm256_blendv_epi8"];
  (* src/arch/x86/intrin/merge.rs:13 *)
  mkGated "Merge" "u8x32" "merge_partitioned" [] ["avx2"] [];
  (* src/arch/x86/intrin/merge.rs:14 *)
  mkGated "Merge" "u8x64" "merge_halves" ["avx512-butnotyet"] [] ["_mm512_mask_mov_epi8"];
  (* src/arch/x86/intrin/merge.rs:14 *)
  mkGated "Merge" "u8x64" "merge_halves" [] ["avx512-butnotyet"] [];
  (* src/arch/x86/intrin/merge.rs:14 *)
  mkGated "Merge" "u8x64" "merge_interleaved" ["avx512-butnotyet"] [] ["_mm512_mask_mov_epi8"];
  (* src/arch/x86/intrin/merge.rs:14 *)
  mkGated "Merge" "u8x64" "merge_interleaved" [] ["avx512-butnotyet"] [];
  (* src/arch/x86/intrin/merge.rs:14 *)
  mkGated "Merge" "u8x64" "merge_partitioned" ["avx512-butnotyet"] [] ["_mm512_mask_mov_epi8"];
  (* src/arch/x86/intrin/merge.rs:14 *)
  mkGated "Merge" "u8x64" "merge_partitioned" [] ["avx512-butnotyet"] [];
  (* src/arch/x86/intrin/merge.rs:16 *)
  mkGated "Merge" "u16x8" "merge_halves" ["sse4.1"] [] ["_mm_blendv_epi8"];
  (* src/arch/x86/intrin/merge.rs:16 *)
  mkGated "Merge" "u16x8" "merge_halves" [] ["sse4.1"] [];
  (* src/arch/x86/intrin/merge.rs:16 *)
  mkGated "Merge" "u16x8" "merge_interleaved" ["sse4.1"] [] ["_mm_blendv_epi8"];
  (* src/arch/x86/intrin/merge.rs:16 *)
  mkGated "Merge" "u16x8" "merge_interleaved" [] ["sse4.1"] [];
  (* src/arch/x86/intrin/merge.rs:16 *)
  mkGated "Merge" "u16x8" "merge_partitioned" ["sse4.1"] [] ["_mm_blendv_epi8"];
  (* src/arch/x86/intrin/merge.rs:16 *)
  mkGated "Merge" "u16x8" "merge_partitioned" [] ["sse4.1"] [];
  (* src/arch/x86/intrin/merge.rs:17 *)
  mkGated "Merge" "u16x16" "merge_halves" ["avx2"] [] ["_mm256_blendv_epi8"];
  (* src/arch/x86/intrin/merge.rs:17 *)
  mkGated "Merge" "u16x16" "merge_halves" [] ["avx2"] [];
  (* src/arch/x86/intrin/merge.rs:17 *)
  mkGated "Merge" "u16x16" "merge_interleaved" ["avx2"] [] ["_mm256_blendv_epi8"];
  (* src/arch/x86/intrin/merge.rs:17 *)
  mkGated "Merge" "u16x16" "merge_interleaved" [] ["avx2"] [];
  (* src/arch/x86/intrin/merge.rs:17 *)
  mkGated "Merge" "u16x16" "merge_partitioned" ["avx2"] [] ["_mm256_blendv_epi8"];
  (* src/arch/x86/intrin/merge.rs:17 *)
  mkGated "Merge" "u16x16" "merge_partitioned" [] ["avx2"] [];
  (* src/arch/x86/intrin/merge.rs:18 *)
  mkGated "Merge" "u16x32" "merge_halves" ["avx512-butnotyet"] [] ["_mm512_mask_mov_epi8"];
  (* src/arch/x86/intrin/merge.rs:18 *)
  mkGated "Merge" "u16x32" "merge_halves" [] ["avx512-butnotyet"] [];
  (* src/arch/x86/intrin/merge.rs:18 *)
  mkGated "Merge" "u16x32" "merge_interleaved" ["avx512-butnotyet"] [] ["_mm512_mask_mov_epi8"];
  (* src/arch/x86/intrin/merge.rs:18 *)
  mkGated "Merge" "u16x32" "merge_interleaved" [] ["avx512-butnotyet"] [];
  (* src/arch/x86/intrin/merge.rs:18 *)
  mkGated "Merge" "u16x32" "merge_partitioned" ["avx512-butnotyet"] [] ["_mm512_mask_mov_epi8"];
  (* src/arch/x86/intrin/merge.rs:18 *)
  mkGated "Merge" "u16x32" "merge_partitioned" [] ["avx512-butnotyet"] [];
  (* src/arch/x86/intrin/merge.rs:20 *)
  mkGated "Merge" "u32x4" "merge_halves" ["sse4.1"] [] ["_mm_blendv_epi8"];
  (* src/arch/x86/intrin/merge.rs:20 *)
  mkGated "Merge" "u32x4" "merge_halves" [] ["sse4.1"] [];
  (* src/arch/x86/intrin/merge.rs:20 *)
  mkGated "Merge" "u32x4" "merge_interleaved" ["sse4.1"] [] ["_mm_blendv_epi8"];
  (* src/arch/x86/intrin/merge.rs:20 *)
  mkGated "Merge" "u32x4" "merge_interleaved" [] ["sse4.1"] [];
  (* src/arch/x86/intrin/merge.rs:20 *)
  mkGated "Merge" "u32x4" "merge_partitioned" ["sse4.1"] [] ["_mm_blendv_epi8"];
  (* src/arch/x86/intrin/merge.rs:20 *)
  mkGated "Merge" "u32x4" "merge_partitioned" [] ["sse4.1"] [];
  (* src/arch/x86/intrin/merge.rs:21 *)
  mkGated "Merge" "u32x8" "merge_halves" ["avx2"] [] ["_mm256_blendv_epi8"];
  (* src/arch/x86/intrin/merge.rs:21 *)
  mkGated "Merge" "u32x8" "merge_halves" [] ["avx2"] [];
  (* src/arch/x86/intrin/merge.rs:21 *)
  mkGated "Merge" "u32x8" "merge_interleaved" ["avx2"] [] ["_mm256_blendv_epi8"];
  (* src/arch/x86/intrin/merge.rs:21 *)
  mkGated "Merge" "u32x8" "merge_interleaved" [] ["avx2"] [];
  (* src/arch/x86/intrin/merge.rs:21 *)
  mkGated "Merge" "u32x8" "merge_partitioned" ["avx2"] [] ["_mm256_blendv_epi8"];
  (* src/arch/x86/intrin/merge.rs:21 *)
  mkGated "Merge" "u32x8" "merge_partitioned" [] ["avx2"] [];
  (* src/arch/x86/intrin/merge.rs:22 *)
  mkGated "Merge" "u32x16" "merge_halves" ["avx512-butnotyet"] [] ["_mm512_mask_mov_epi8"];
  (* src/arch/x86/intrin/merge.rs:22 *)
  mkGated "Merge" "u32x16" "merge_halves" [] ["avx512-butnotyet"] [];
  (* src/arch/x86/intrin/merge.rs:22 *)
  mkGated "Merge" "u32x16" "merge_interleaved" ["avx512-butnotyet"] [] ["_mm512_mask_mov_epi8"];
  (* src/arch/x86/intrin/merge.rs:22 *)
  mkGated "Merge" "u32x16" "merge_interleaved" [] ["avx512-butnotyet"] [];
  (* src/arch/x86/intrin/merge.rs:22 *)
  mkGated "Merge" "u32x16" "merge_partitioned" ["avx512-butnotyet"] [] ["_mm512_mask_mov_epi8"];
  (* src/arch/x86/intrin/merge.rs:22 *)
  mkGated "Merge" "u32x16" "merge_partitioned" [] ["avx512-butnotyet"] [];
  (* src/arch/x86/intrin/merge.rs:24 *)
  mkGated "Merge" "u64x2" "merge_halves" ["sse4.1"] [] ["_mm_blendv_epi8"];
  (* src/arch/x86/intrin/merge.rs:24 *)
  mkGated "Merge" "u64x2" "merge_halves" [] ["sse4.1"] [];
  (* src/arch/x86/intrin/merge.rs:24 *)
  mkGated "Merge" "u64x2" "merge_interleaved" ["sse4.1"] [] ["_mm_blendv_epi8"];
  (* src/arch/x86/intrin/merge.rs:24 *)
  mkGated "Merge" "u64x2" "merge_interleaved" [] ["sse4.1"] [];
  (* src/arch/x86/intrin/merge.rs:24 *)
  mkGated "Merge" "u64x2" "merge_partitioned" ["sse4.1"] [] ["_mm_blendv_epi8"];
  (* src/arch/x86/intrin/merge.rs:24 *)
  mkGated "Merge" "u64x2" "merge_partitioned" [] ["sse4.1"] [];
  (* src/arch/x86/intrin/merge.rs:25 *)
  mkGated "Merge" "u64x4" "merge_halves" ["avx2"] [] ["_mm256_blendv_epi8"];
  (* src/arch/x86/intrin/merge.rs:25 *)
  mkGated "Merge" "u64x4" "merge_halves" [] ["avx2"] [];
  (* src/arch/x86/intrin/merge.rs:25 *)
  mkGated "Merge" "u64x4" "merge_interleaved" ["avx2"] [] ["_mm256_blendv_epi8"];
  (* src/arch/x86/intrin/merge.rs:25 *)
  mkGated "Merge" "u64x4" "merge_interleaved" [] ["avx2"] [];
  (* src/arch/x86/intrin/merge.rs:25 *)
  mkGated "Merge" "u64x4" "merge_partitioned" ["avx2"] [] ["_mm256_blendv_epi8"];
  (* src/arch/x86/intrin/merge.rs:25 *)
  mkGated "Merge" "u64x4" "merge_partitioned" [] ["avx2"] [];
  (* src/arch/x86/intrin/merge.rs:26 *)
  mkGated "Merge" "u64x8" "merge_halves" ["avx512-butnotyet"] [] ["_mm512_mask_mov_epi8"];
  (* src/arch/x86/intrin/merge.rs:26 *)
  mkGated "Merge" "u64x8" "merge_halves" [] ["avx512-butnotyet"] [];
  (* src/arch/x86/intrin/merge.rs:26 *)
  mkGated "Merge" "u64x8" "merge_interleaved" ["avx512-butnotyet"] [] ["_mm512_mask_mov_epi8"];
  (* src/arch/x86/intrin/merge.rs:26 *)
  mkGated "Merge" "u64x8" "merge_interleaved" [] ["avx512-butnotyet"] [];
  (* src/arch/x86/intrin/merge.rs:26 *)
  mkGated "Merge" "u64x8" "merge_partitioned" ["avx512-butnotyet"] [] ["_mm512_mask_mov_epi8"];
  (* src/arch/x86/intrin/merge.rs:26 *)
  mkGated "Merge" "u64x8" "merge_partitioned" [] ["avx512-butnotyet"] [];
  (* src/arch/x86/intrin/merge.rs:28 *)
  mkGated "Merge" "i8x16" "merge_halves" ["sse4.1"] [] ["_mm_blendv_epi8"];
  (* src/arch/x86/intrin/merge.rs:28 *)
  mkGated "Merge" "i8x16" "merge_halves" [] ["sse4.1"] [];
  (* src/arch/x86/intrin/merge.rs:28 *)
  mkGated "Merge" "i8x16" "merge_interleaved" ["sse4.1"] [] ["_mm_blendv_epi8"];
  (* src/arch/x86/intrin/merge.rs:28 *)
  mkGated "Merge" "i8x16" "merge_interleaved" [] ["sse4.1"] [];
  (* src/arch/x86/intrin/merge.rs:28 *)
  mkGated "Merge" "i8x16" "merge_partitioned" ["sse4.1"] [] ["_mm_blendv_epi8"];
  (* src/arch/x86/intrin/merge.rs:28 *)
  mkGated "Merge" "i8x16" "merge_partitioned" [] ["sse4.1"] [];
  (* src/arch/x86/intrin/merge.rs:29 *)
  mkGated "Merge" "i8x32" "merge_halves" ["avx2"] [] ["_mm256_blendv_epi8"];
  (* src/arch/x86/intrin/merge.rs:29 *)
  mkGated "Merge" "i8x32" "merge_halves" [] ["avx2"] [];
  (* src/arch/x86/intrin/merge.rs:29 *)
  mkGated "Merge" "i8x32" "merge_interleaved" ["avx2"] [] ["_mm256_blendv_epi8"];
  (* src/arch/x86/intrin/merge.rs:29 *)
  mkGated "Merge" "i8x32" "merge_interleaved" [] ["avx2"] [];
  (* src/arch/x86/intrin/merge.rs:29 *)
  mkGated "Merge" "i8x32" "merge_partitioned" ["avx2"] [] ["_mm256_blendv_epi8"];
  (* src/arch/x86/intrin/merge.rs:29 *)
  mkGated "Merge" "i8x32" "merge_partitioned" [] ["avx2"] [];
  (* src/arch/x86/intrin/merge.rs:30 *)
  mkGated "Merge" "i8x64" "merge_halves" ["avx512-butnotyet"] [] ["_mm512_mask_mov_epi8"];
  (* src/arch/x86/intrin/merge.rs:30 *)
  mkGated "Merge" "i8x64" "merge_halves" [] ["avx512-butnotyet"] [];
  (* src/arch/x86/intrin/merge.rs:30 *)
  mkGated "Merge" "i8x64" "merge_interleaved" ["avx512-butnotyet"] [] ["_mm512_mask_mov_epi8"];
  (* src/arch/x86/intrin/merge.rs:30 *)
  mkGated "Merge" "i8x64" "merge_interleaved" [] ["avx512-butnotyet"] [];
  (* src/arch/x86/intrin/merge.rs:30 *)
  mkGated "Merge" "i8x64" "merge_partitioned" ["avx512-butnotyet"] [] ["_mm512_mask_mov_epi8"];
  (* src/arch/x86/intrin/merge.rs:30 *)
  mkGated "Merge" "i8x64" "merge_partitioned" [] ["avx512-butnotyet"] [];
  (* src/arch/x86/intrin/merge.rs:32 *)
  mkGated "Merge" "i16x8" "merge_halves" ["sse4.1"] [] ["_mm_blendv_epi8"];
  (* src/arch/x86/intrin/merge.rs:32 *)
  mkGated "Merge" "i16x8" "merge_halves" [] ["sse4.1"] [];
  (* src/arch/x86/intrin/merge.rs:32 *)
  mkGated "Merge" "i16x8" "merge_interleaved" ["sse4.1"] [] ["_mm_blendv_epi8"];
  (* src/arch/x86/intrin/merge.rs:32 *)
  mkGated "Merge" "i16x8" "merge_interleaved" [] ["sse4.1"] [];
  (* src/arch/x86/intrin/merge.rs:32 *)
  mkGated "Merge" "i16x8" "merge_partitioned" ["sse4.1"] [] ["_mm_blendv_epi8"];
  (* src/arch/x86/intrin/merge.rs:32 *)
  mkGated "Merge" "i16x8" "merge_partitioned" [] ["sse4.1"] [];
  (* src/arch/x86/intrin/merge.rs:33 *)
  mkGated "Merge" "i16x16" "merge_halves" ["avx2"] [] ["_mm256_blendv_epi8"];
  (* src/arch/x86/intrin/merge.rs:33 *)
  mkGated "Merge" "i16x16" "merge_halves" [] ["avx2"] [];
  (* src/arch/x86/intrin/merge.rs:33 *)
  mkGated "Merge" "i16x16" "merge_interleaved" ["avx2"] [] ["_mm256_blendv_epi8"];
  (* src/arch/x86/intrin/merge.rs:33 *)
  mkGated "Merge" "i16x16" "merge_interleaved" [] ["avx2"] [];
  (* src/arch/x86/intrin/merge.rs:33 *)
  mkGated "Merge" "i16x16" "merge_partitioned" ["avx2"] [] ["_mm256_blendv_epi8"];
  (* src/arch/x86/intrin/merge.rs:33 *)
  mkGated "Merge" "i16x16" "merge_partitioned" [] ["avx2"] [];
  (* src/arch/x86/intrin/merge.rs:34 *)
  mkGated "Merge" "i16x32" "merge_halves" ["avx512-butnotyet"] [] ["_mm512_mask_mov_epi8"];
  (* src/arch/x86/intrin/merge.rs:34 *)
  mkGated "Merge" "i16x32" "merge_halves" [] ["avx512-butnotyet"] [];
  (* src/arch/x86/intrin/merge.rs:34 *)
  mkGated "Merge" "i16x32" "merge_interleaved" ["avx512-butnotyet"] [] ["_mm512_mask_mov_epi8"];
  (* src/arch/x86/intrin/merge.rs:34 *)
  mkGated "Merge" "i16x32" "merge_interleaved" [] ["avx512-butnotyet"] [];
  (* src/arch/x86/intrin/merge.rs:34 *)
  mkGated "Merge" "i16x32" "merge_partitioned" ["avx512-butnotyet"] [] ["_mm512_mask_mov_epi8"];
  (* src/arch/x86/intrin/merge.rs:34 *)
  mkGated "Merge" "i16x32" "merge_partitioned" [] ["avx512-butnotyet"] [];
  (* src/arch/x86/intrin/merge.rs:36 *)
  mkGated "Merge" "i32x4" "merge_halves" ["sse4.1"] [] ["_mm_blendv_epi8"];
  (* src/arch/x86/intrin/merge.rs:36 *)
  mkGated "Merge" "i32x4" "merge_halves" [] ["sse4.1"] [];
  (* src/arch/x86/intrin/merge.rs:36 *)
  mkGated "Merge" "i32x4" "merge_interleaved" ["sse4.1"] [] ["_mm_blendv_epi8"];
  (* src/arch/x86/intrin/merge.rs:36 *)
  mkGated "Merge" "i32x4" "merge_interleaved" [] ["sse4.1"] [];
  (* src/arch/x86/intrin/merge.rs:36 *)
  mkGated "Merge" "i32x4" "merge_partitioned" ["sse4.1"] [] ["_mm_blendv_epi8"];
  (* src/arch/x86/intrin/merge.rs:36 *)
  mkGated "Merge" "i32x4" "merge_partitioned" [] ["sse4.1"] [];
  (* src/arch/x86/intrin/merge.rs:37 *)
  mkGated "Merge" "i32x8" "merge_halves" ["avx2"] [] ["_mm256_blendv_epi8"];
  (* src/arch/x86/intrin/merge.rs:37 *)
  mkGated "Merge" "i32x8" "merge_halves" [] ["avx2"] [];
  (* src/arch/x86/intrin/merge.rs:37 *)
  mkGated "Merge" "i32x8" "merge_interleaved" ["avx2"] [] ["_mm256_blendv_epi8"];
  (* src/arch/x86/intrin/merge.rs:37 *)
  mkGated "Merge" "i32x8" "merge_interleaved" [] ["avx2"] [];
  (* src/arch/x86/intrin/merge.rs:37 *)
  mkGated "Merge" "i32x8" "merge_partitioned" ["avx2"] [] ["_mm256_blendv_epi8"];
  (* src/arch/x86/intrin/merge.rs:37 *)
  mkGated "Merge" "i32x8" "merge_partitioned" [] ["avx2"] [];
  (* src/arch/x86/intrin/merge.rs:38 *)
  mkGated "Merge" "i32x16" "merge_halves" ["avx512-butnotyet"] [] ["_mm512_mask_mov_epi8"];
  (* src/arch/x86/intrin/merge.rs:38 *)
  mkGated "Merge" "i32x16" "merge_halves" [] ["avx512-butnotyet"] [];
  (* src/arch/x86/intrin/merge.rs:38 *)
  mkGated "Merge" "i32x16" "merge_interleaved" ["avx512-butnotyet"] [] ["_mm512_mask_mov_epi8"];
  (* src/arch/x86/intrin/merge.rs:38 *)
  mkGated "Merge" "i32x16" "merge_interleaved" [] ["avx512-butnotyet"] [];
  (* src/arch/x86/intrin/merge.rs:38 *)
  mkGated "Merge" "i32x16" "merge_partitioned" ["avx512-butnotyet"] [] ["_mm512_mask_mov_epi8"];
  (* src/arch/x86/intrin/merge.rs:38 *)
  mkGated "Merge" "i32x16" "merge_partitioned" [] ["avx512-butnotyet"] [];
  (* src/arch/x86/intrin/merge.rs:40 *)
  mkGated "Merge" "i64x2" "merge_halves" ["sse4.1"] [] ["_mm_blendv_epi8"];
  (* src/arch/x86/intrin/merge.rs:40 *)
  mkGated "Merge" "i64x2" "merge_halves" [] ["sse4.1"] [];
  (* src/arch/x86/intrin/merge.rs:40 *)
  mkGated "Merge" "i64x2" "merge_interleaved" ["sse4.1"] [] ["_mm_blendv_epi8"];
  (* src/arch/x86/intrin/merge.rs:40 *)
  mkGated "Merge" "i64x2" "merge_interleaved" [] ["sse4.1"] [];
  (* src/arch/x86/intrin/merge.rs:40 *)
  mkGated "Merge" "i64x2" "merge_partitioned" ["sse4.1"] [] ["_mm_blendv_epi8"];
  (* src/arch/x86/intrin/merge.rs:40 *)
  mkGated "Merge" "i64x2" "merge_partitioned" [] ["sse4.1"] [];
  (* src/arch/x86/intrin/merge.rs:41 *)
  mkGated "Merge" "i64x4" "merge_halves" ["avx2"] [] ["_mm256_blendv_epi8"];
  (* src/arch/x86/intrin/merge.rs:41 *)
  mkGated "Merge" "i64x4" "merge_halves" [] ["avx2"] [];
  (* src/arch/x86/intrin/merge.rs:41 *)
  mkGated "Merge" "i64x4" "merge_interleaved" ["avx2"] [] ["_mm256_blendv_epi8"];
  (* src/arch/x86/intrin/merge.rs:41 *)
  mkGated "Merge" "i64x4" "merge_interleaved" [] ["avx2"] [];
  (* src/arch/x86/intrin/merge.rs:41 *)
  mkGated "Merge" "i64x4" "merge_partitioned" ["avx2"] [] ["_mm256_blendv_epi8"];
  (* src/arch/x86/intrin/merge.rs:41 *)
  mkGated "Merge" "i64x4" "merge_partitioned" [] ["avx2"] [];
  (* src/arch/x86/intrin/merge.rs:42 *)
  mkGated "Merge" "i64x8" "merge_halves" ["avx512-butnotyet"] [] ["_mm512_mask_mov_epi8"];
  (* src/arch/x86/intrin/merge.rs:42 *)
  mkGated "Merge" "i64x8" "merge_halves" [] ["avx512-butnotyet"] [];
  (* src/arch/x86/intrin/merge.rs:42 *)
  mkGated "Merge" "i64x8" "merge_interleaved" ["avx512-butnotyet"] [] ["_mm512_mask_mov_epi8"];
  (* src/arch/x86/intrin/merge.rs:42 *)
  mkGated "Merge" "i64x8" "merge_interleaved" [] ["avx512-butnotyet"] [];
  (* src/arch/x86/intrin/merge.rs:42 *)
  mkGated "Merge" "i64x8" "merge_partitioned" ["avx512-butnotyet"] [] ["_mm512_mask_mov_epi8"];
  (* src/arch/x86/intrin/merge.rs:42 *)
  mkGated "Merge" "i64x8" "merge_partitioned" [] ["avx512-butnotyet"] [];
  (* src/arch/x86/intrin/merge.rs:44 *)
  mkGated "Merge" "f32x4" "merge_halves" ["sse4.1"] [] ["_mm_blendv_epi8"];
  (* src/arch/x86/intrin/merge.rs:44 *)
  mkGated "Merge" "f32x4" "merge_halves" [] ["sse4.1"] [];
  (* src/arch/x86/intrin/merge.rs:44 *)
  mkGated "Merge" "f32x4" "merge_interleaved" ["sse4.1"] [] ["_mm_blendv_epi8"];
  (* src/arch/x86/intrin/merge.rs:44 *)
  mkGated "Merge" "f32x4" "merge_interleaved" [] ["sse4.1"] [];
  (* src/arch/x86/intrin/merge.rs:44 *)
  mkGated "Merge" "f32x4" "merge_partitioned" ["sse4.1"] [] ["_mm_blendv_epi8"];
  (* src/arch/x86/intrin/merge.rs:44 *)
  mkGated "Merge" "f32x4" "merge_partitioned" [] ["sse4.1"] [];
  (* src/arch/x86/intrin/merge.rs:45 *)
  mkGated "Merge" "f32x8" "merge_halves" ["avx2"] [] ["_mm256_blendv_epi8"];
  (* src/arch/x86/intrin/merge.rs:45 *)
  mkGated "Merge" "f32x8" "merge_halves" [] ["avx2"] [];
  (* src/arch/x86/intrin/merge.rs:45 *)
  mkGated "Merge" "f32x8" "merge_interleaved" ["avx2"] [] ["_mm256_blendv_epi8"];
  (* src/arch/x86/intrin/merge.rs:45 *)
  mkGated "Merge" "f32x8" "merge_interleaved" [] ["avx2"] [];
  (* src/arch/x86/intrin/merge.rs:45 *)
  mkGated "Merge" "f32x8" "merge_partitioned" ["avx2"] [] ["_mm256_blendv_epi8"];
  (* src/arch/x86/intrin/merge.rs:45 *)
  mkGated "Merge" "f32x8" "merge_partitioned" [] ["avx2"] [];
  (* src/arch/x86/intrin/merge.rs:46 *)
  mkGated "Merge" "f32x16" "merge_halves" ["avx512-butnotyet"] [] ["_mm512_mask_mov_epi8"];
  (* src/arch/x86/intrin/merge.rs:46 *)
  mkGated "Merge" "f32x16" "merge_halves" [] ["avx512-butnotyet"] [];
  (* src/arch/x86/intrin/merge.rs:46 *)
  mkGated "Merge" "f32x16" "merge_interleaved" ["avx512-butnotyet"] [] ["_mm512_mask_mov_epi8"];
  (* src/arch/x86/intrin/merge.rs:46 *)
  mkGated "Merge" "f32x16" "merge_interleaved" [] ["avx512-butnotyet"] [];
  (* src/arch/x86/intrin/merge.rs:46 *)
  mkGated "Merge" "f32x16" "merge_partitioned" ["avx512-butnotyet"] [] ["_mm512_mask_mov_epi8"];
  (* src/arch/x86/intrin/merge.rs:46 *)
  mkGated "Merge" "f32x16" "merge_partitioned" [] ["avx512-butnotyet"] [];
  (* src/arch/x86/intrin/merge.rs:48 *)
  mkGated "Merge" "f64x2" "merge_halves" ["sse4.1"] [] ["_mm_blendv_epi8"];
  (* src/arch/x86/intrin/merge.rs:48 *)
  mkGated "Merge" "f64x2" "merge_halves" [] ["sse4.1"] [];
  (* src/arch/x86/intrin/merge.rs:48 *)
  mkGated "Merge" "f64x2" "merge_interleaved" ["sse4.1"] [] ["_mm_blendv_epi8"];
  (* src/arch/x86/intrin/merge.rs:48 *)
  mkGated "Merge" "f64x2" "merge_interleaved" [] ["sse4.1"] [];
  (* src/arch/x86/intrin/merge.rs:48 *)
  mkGated "Merge" "f64x2" "merge_partitioned" ["sse4.1"] [] ["_mm_blendv_epi8"];
  (* src/arch/x86/intrin/merge.rs:48 *)
  mkGated "Merge" "f64x2" "merge_partitioned" [] ["sse4.1"] [];
  (* src/arch/x86/intrin/merge.rs:49 *)
  mkGated "Merge" "f64x4" "merge_halves" ["avx2"] [] ["_mm256_blendv_epi8"];
  (* src/arch/x86/intrin/merge.rs:49 *)
  mkGated "Merge" "f64x4" "merge_halves" [] ["avx2"] [];
  (* src/arch/x86/intrin/merge.rs:49 *)
  mkGated "Merge" "f64x4" "merge_interleaved" ["avx2"] [] ["_mm256_blendv_epi8"];
  (* src/arch/x86/intrin/merge.rs:49 *)
  mkGated "Merge" "f64x4" "merge_interleaved" [] ["avx2"] [];
  (* src/arch/x86/intrin/merge.rs:49 *)
  mkGated "Merge" "f64x4" "merge_partitioned" ["avx2"] [] ["_mm256_blendv_epi8"];
  (* src/arch/x86/intrin/merge.rs:49 *)
  mkGated "Merge" "f64x4" "merge_partitioned" [] ["avx2"] [];
  (* src/arch/x86/intrin/merge.rs:50 *)
  mkGated "Merge" "f64x8" "merge_halves" ["avx512-butnotyet"] [] ["_mm512_mask_mov_epi8"];
  (* src/arch/x86/intrin/merge.rs:50 *)
  mkGated "Merge" "f64x8" "merge_halves" [] ["avx512-butnotyet"] [];
  (* src/arch/x86/intrin/merge.rs:50 *)
  mkGated "Merge" "f64x8" "merge_interleaved" ["avx512-butnotyet"] [] ["_mm512_mask_mov_epi8"];
  (* src/arch/x86/intrin/merge.rs:50 *)
  mkGated "Merge" "f64x8" "merge_interleaved" [] ["avx512-butnotyet"] [];
  (* src/arch/x86/intrin/merge.rs:50 *)
  mkGated "Merge" "f64x8" "merge_partitioned" ["avx512-butnotyet"] [] ["_mm512_mask_mov_epi8"];
  (* src/arch/x86/intrin/merge.rs:50 *)
  mkGated "Merge" "f64x8" "merge_partitioned" [] ["avx512-butnotyet"] [];
  (* src/arch/x86/intrin/popcnt.rs:21 *)
  mkGated "" "" "popcnt128" ["ssse3"] [] ["_mm_shuffle_epi8"];
  (* src/arch/x86/intrin/popcnt.rs:36 *)
  mkGated "" "" "popcnt128" [] ["ssse3"] [];
  (* src/arch/x86/intrin/popcnt.rs:43 *)
  mkGated "" "" "popcnt256" ["avx2"] [] ["_mm256_shuffle_epi8"];
  (* src/arch/x86/intrin/popcnt.rs:59 *)
  mkGated "" "" "popcnt256" [] ["avx2"] [];
  (* src/arch/x86/intrin/popcnt.rs:66 *)
  mkGated "" "" "popcnt512" [] [] [];
  (* src/arch/x86/intrin/popcnt.rs:71 *)
  mkGated "Popcnt" "u8x64" "count_ones" [] [] [];
  (* src/arch/x86/intrin/popcnt.rs:71 *)
  mkGated "Popcnt" "u8x32" "count_ones" [] [] [];
  (* src/arch/x86/intrin/popcnt.rs:71 *)
  mkGated "Popcnt" "u8x16" "count_ones" [] [] [];
  (* src/arch/x86/intrin/popcnt.rs:72 *)
  mkGated "Popcnt" "i8x64" "count_ones" [] [] [];
  (* src/arch/x86/intrin/popcnt.rs:72 *)
  mkGated "Popcnt" "i8x32" "count_ones" [] [] [];
  (* src/arch/x86/intrin/popcnt.rs:72 *)
  mkGated "Popcnt" "i8x16" "count_ones" [] [] [];
  (* src/arch/x86/intrin/popcnt.rs:73 *)
  mkGated "Popcnt" "u16x32" "count_ones" [] [] [];
  (* src/arch/x86/intrin/popcnt.rs:73 *)
  mkGated "Popcnt" "u16x16" "count_ones" [] [] [];
  (* src/arch/x86/intrin/popcnt.rs:73 *)
  mkGated "Popcnt" "u16x8" "count_ones" [] [] [];
  (* src/arch/x86/intrin/popcnt.rs:74 *)
  mkGated "Popcnt" "i16x32" "count_ones" [] [] [];
  (* src/arch/x86/intrin/popcnt.rs:74 *)
  mkGated "Popcnt" "i16x16" "count_ones" [] [] [];
  (* src/arch/x86/intrin/popcnt.rs:74 *)
  mkGated "Popcnt" "i16x8" "count_ones" [] [] [];
  (* src/arch/x86/intrin/popcnt.rs:75 *)
  mkGated "Popcnt" "u32x16" "count_ones" [] [] [];
  (* src/arch/x86/intrin/popcnt.rs:75 *)
  mkGated "Popcnt" "u32x8" "count_ones" [] [] [];
  (* src/arch/x86/intrin/popcnt.rs:75 *)
  mkGated "Popcnt" "u32x4" "count_ones" [] [] [];
  (* src/arch/x86/intrin/popcnt.rs:76 *)
  mkGated "Popcnt" "i32x16" "count_ones" [] [] [];
  (* src/arch/x86/intrin/popcnt.rs:76 *)
  mkGated "Popcnt" "i32x8" "count_ones" [] [] [];
  (* src/arch/x86/intrin/popcnt.rs:76 *)
  mkGated "Popcnt" "i32x4" "count_ones" [] [] [];
  (* src/arch/x86/intrin/popcnt.rs:77 *)
  mkGated "Popcnt" "u64x8" "count_ones" [] [] [];
  (* src/arch/x86/intrin/popcnt.rs:77 *)
  mkGated "Popcnt" "u64x4" "count_ones" [] [] [];
  (* src/arch/x86/intrin/popcnt.rs:77 *)
  mkGated "Popcnt" "u64x2" "count_ones" [] [] [];
  (* src/arch/x86/intrin/popcnt.rs:78 *)
  mkGated "Popcnt" "i64x8" "count_ones" [] [] [];
  (* src/arch/x86/intrin/popcnt.rs:78 *)
  mkGated "Popcnt" "i64x4" "count_ones" [] [] [];
  (* src/arch/x86/intrin/popcnt.rs:78 *)
  mkGated "Popcnt" "i64x2" "count_ones" [] [] [];
  (* src/arch/x86/intrin/recip.rs:16 *)
  mkGated "Recip" "f32x8" "recip" ["avx"] [] ["_mm256_rcp_ps"];
  (* src/arch/x86/intrin/recip.rs:16 *)
  mkGated "Recip" "f32x8" "recip" [] ["avx"] [];
  (* src/arch/x86/intrin/recip.rs:22 *)
  mkGated "Recip" "f32x4" "recip" ["sse"] [] ["_mm_rcp_ps"];
  (* src/arch/x86/intrin/recip.rs:22 *)
  mkGated "Recip" "f32x4" "recip" [] ["sse"] [];
  (* src/arch/x86/intrin/round.rs:17 *)
  mkGated "Round" "f32x4" "round" ["sse4.1"] [] ["_mm_round_ps"];
  (* src/arch/x86/intrin/round.rs:17 *)
  mkGated "Round" "f32x4" "round" [] ["sse4.1"] [];
  (* src/arch/x86/intrin/round.rs:18 *)
  mkGated "Round" "f32x4" "ceil" ["sse4.1"] [] ["_mm_ceil_ps"];
  (* src/arch/x86/intrin/round.rs:18 *)
  mkGated "Round" "f32x4" "ceil" [] ["sse4.1"] [];
  (* src/arch/x86/intrin/round.rs:19 *)
  mkGated "Round" "f32x4" "floor" ["sse4.1"] [] ["_mm_floor_ps"];
  (* src/arch/x86/intrin/round.rs:19 *)
  mkGated "Round" "f32x4" "floor" [] ["sse4.1"] [];
  (* src/arch/x86/intrin/round.rs:20 *)
  mkGated "Round" "f32x4" "trunc" ["sse4.1"] [] ["_mm_round_ps"];
  (* src/arch/x86/intrin/round.rs:20 *)
  mkGated "Round" "f32x4" "trunc" [] ["sse4.1"] [];
  (* src/arch/x86/intrin/round.rs:26 *)
  mkGated "Round" "f64x2" "round" ["sse4.1"] [] ["_mm_round_pd"];
  (* src/arch/x86/intrin/round.rs:26 *)
  mkGated "Round" "f64x2" "round" [] ["sse4.1"] [];
  (* src/arch/x86/intrin/round.rs:27 *)
  mkGated "Round" "f64x2" "ceil" ["sse4.1"] [] ["_mm_ceil_pd"];
  (* src/arch/x86/intrin/round.rs:27 *)
  mkGated "Round" "f64x2" "ceil" [] ["sse4.1"] [];
  (* src/arch/x86/intrin/round.rs:28 *)
  mkGated "Round" "f64x2" "floor" ["sse4.1"] [] ["_mm_floor_pd"];
  (* src/arch/x86/intrin/round.rs:28 *)
  mkGated "Round" "f64x2" "floor" [] ["sse4.1"] [];
  (* src/arch/x86/intrin/round.rs:29 *)
  mkGated "Round" "f64x2" "trunc" ["sse4.1"] [] ["_mm_round_pd"];
  (* src/arch/x86/intrin/round.rs:29 *)
  mkGated "Round" "f64x2" "trunc" [] ["sse4.1"] [];
  (* src/arch/x86/intrin/round.rs:35 *)
  mkGated "Round" "f32x8" "round" ["avx"] [] ["_mm256_round_ps"];
  (* src/arch/x86/intrin/round.rs:35 *)
  mkGated "Round" "f32x8" "round" [] ["avx"] [];
  (* src/arch/x86/intrin/round.rs:36 *)
  mkGated "Round" "f32x8" "ceil" ["avx"] [] ["_mm256_ceil_ps"];
  (* src/arch/x86/intrin/round.rs:36 *)
  mkGated "Round" "f32x8" "ceil" [] ["avx"] [];
  (* src/arch/x86/intrin/round.rs:37 *)
  mkGated "Round" "f32x8" "floor" ["avx"] [] ["_mm256_floor_ps"];
  (* src/arch/x86/intrin/round.rs:37 *)
  mkGated "Round" "f32x8" "floor" [] ["avx"] [];
  (* src/arch/x86/intrin/round.rs:38 *)
  mkGated "Round" "f32x8" "trunc" ["avx"] [] ["_mm256_round_ps"];
  (* src/arch/x86/intrin/round.rs:38 *)
  mkGated "Round" "f32x8" "trunc" [] ["avx"] [];
  (* src/arch/x86/intrin/round.rs:44 *)
  mkGated "Round" "f64x4" "round" ["sse4.1"] [] ["_mm256_round_pd"];
  (* src/arch/x86/intrin/round.rs:44 *)
  mkGated "Round" "f64x4" "round" [] ["sse4.1"] [];
  (* src/arch/x86/intrin/round.rs:45 *)
  mkGated "Round" "f64x4" "ceil" ["sse4.1"] [] ["_mm256_ceil_pd"];
  (* src/arch/x86/intrin/round.rs:45 *)
  mkGated "Round" "f64x4" "ceil" [] ["sse4.1"] [];
  (* src/arch/x86/intrin/round.rs:46 *)
  mkGated "Round" "f64x4" "floor" ["sse4.1"] [] ["_mm256_floor_pd"];
  (* src/arch/x86/intrin/round.rs:46 *)
  mkGated "Round" "f64x4" "floor" [] ["sse4.1"] [];
  (* src/arch/x86/intrin/round.rs:47 *)
  mkGated "Round" "f64x4" "trunc" ["sse4.1"] [] ["_mm256_round_pd"];
  (* src/arch/x86/intrin/round.rs:47 *)
  mkGated "Round" "f64x4" "trunc" [] ["sse4.1"] [];
  (* src/arch/x86/intrin/rsqrt.rs:18 *)
  mkGated "Rsqrt" "f32x8" "rsqrt" ["avx"] [] ["_mm256_rsqrt_ps"];
  (* src/arch/x86/intrin/rsqrt.rs:18 *)
  mkGated "Rsqrt" "f32x8" "rsqrt" [] ["avx"] [];
  (* src/arch/x86/intrin/rsqrt.rs:24 *)
  mkGated "Rsqrt" "f32x4" "rsqrt" ["sse"] [] ["_mm_rsqrt_ps"];
  (* src/arch/x86/intrin/rsqrt.rs:24 *)
  mkGated "Rsqrt" "f32x4" "rsqrt" [] ["sse"] [];
  (* src/arch/x86/intrin/rsqrt.rs:30 *)
  mkGated "Rsqrt" "f32" "rsqrt" [] [] [];
  (* src/arch/x86/intrin/rsqrt.rs:37 *)
  mkGated "Rsqrt" "f64" "rsqrt" [] [] [];
  (* src/arch/x86/intrin/saturating_add.rs:16 *)
  mkGated "SaturatingAdd" "u8x16" "saturating_add" ["sse2"] [] ["_mm_adds_epu8"];
  (* src/arch/x86/intrin/saturating_add.rs:16 *)
  mkGated "SaturatingAdd" "u8x16" "saturating_add" [] ["sse2"] [];
  (* src/arch/x86/intrin/saturating_add.rs:22 *)
  mkGated "SaturatingAdd" "i8x16" "saturating_add" ["sse2"] [] ["_mm_adds_epi8"];
  (* src/arch/x86/intrin/saturating_add.rs:22 *)
  mkGated "SaturatingAdd" "i8x16" "saturating_add" [] ["sse2"] [];
  (* src/arch/x86/intrin/saturating_add.rs:28 *)
  mkGated "SaturatingAdd" "u16x8" "saturating_add" ["sse2"] [] ["_mm_adds_epu16"];
  (* src/arch/x86/intrin/saturating_add.rs:28 *)
  mkGated "SaturatingAdd" "u16x8" "saturating_add" [] ["sse2"] [];
  (* src/arch/x86/intrin/saturating_add.rs:34 *)
  mkGated "SaturatingAdd" "i16x8" "saturating_add" ["sse2"] [] ["_mm_adds_epi16"];
  (* src/arch/x86/intrin/saturating_add.rs:34 *)
  mkGated "SaturatingAdd" "i16x8" "saturating_add" [] ["sse2"] [];
  (* src/arch/x86/intrin/saturating_add.rs:40 *)
  mkGated "SaturatingAdd" "u8x32" "saturating_add" ["avx2"] [] ["_mm256_adds_epu8"];
  (* src/arch/x86/intrin/saturating_add.rs:40 *)
  mkGated "SaturatingAdd" "u8x32" "saturating_add" [] ["avx2"] [];
  (* src/arch/x86/intrin/saturating_add.rs:48 *)
  mkGated "SaturatingAdd" "i8x32" "saturating_add" ["avx2"] [] ["_mm256_adds_epi8"];
  (* src/arch/x86/intrin/saturating_add.rs:48 *)
  mkGated "SaturatingAdd" "i8x32" "saturating_add" [] ["avx2"] [];
  (* src/arch/x86/intrin/saturating_add.rs:55 *)
  mkGated "SaturatingAdd" "u16x16" "saturating_add" ["avx2"] [] ["_mm256_adds_epu16"];
  (* src/arch/x86/intrin/saturating_add.rs:55 *)
  mkGated "SaturatingAdd" "u16x16" "saturating_add" [] ["avx2"] [];
  (* src/arch/x86/intrin/saturating_add.rs:61 *)
  mkGated "SaturatingAdd" "i16x16" "saturating_add" ["avx2"] [] ["_mm256_adds_epi16"];
  (* src/arch/x86/intrin/saturating_add.rs:61 *)
  mkGated "SaturatingAdd" "i16x16" "saturating_add" [] ["avx2"] [];
  (* src/arch/x86/intrin/saturating_hadd.rs:18 *)
  mkGated "SaturatingHAdd" "i16x8" "saturating_hadd" ["ssse3"] [] ["_mm_hadds_epi16"; "_mm_unpacklo_epi32"; "_mm_unpackhi_epi32"];
  (* src/arch/x86/intrin/saturating_hadd.rs:28 *)
  mkGated "SaturatingHAdd" "i16x16" "saturating_hadd" ["avx2"] [] ["_mm256_hadds_epi16"; "_mm256_unpacklo_epi32"; "_mm256_unpackhi_epi32"];
  (* src/arch/x86/intrin/saturating_hadd.rs:35 *)
  mkGated "SaturatingHAdd" "u64x2" "saturating_hadd" [] [] [];
  (* src/arch/x86/intrin/saturating_hadd.rs:36 *)
  mkGated "SaturatingHAdd" "u64x4" "saturating_hadd" [] [] [];
  (* src/arch/x86/intrin/saturating_hadd.rs:37 *)
  mkGated "SaturatingHAdd" "u64x8" "saturating_hadd" [] [] [];
  (* src/arch/x86/intrin/saturating_hadd.rs:38 *)
  mkGated "SaturatingHAdd" "u32x4" "saturating_hadd" [] [] [];
  (* src/arch/x86/intrin/saturating_hadd.rs:39 *)
  mkGated "SaturatingHAdd" "u32x8" "saturating_hadd" [] [] [];
  (* src/arch/x86/intrin/saturating_hadd.rs:40 *)
  mkGated "SaturatingHAdd" "u32x16" "saturating_hadd" [] [] [];
  (* src/arch/x86/intrin/saturating_hadd.rs:41 *)
  mkGated "SaturatingHAdd" "u16x8" "saturating_hadd" [] [] [];
  (* src/arch/x86/intrin/saturating_hadd.rs:42 *)
  mkGated "SaturatingHAdd" "u16x16" "saturating_hadd" [] [] [];
  (* src/arch/x86/intrin/saturating_hadd.rs:43 *)
  mkGated "SaturatingHAdd" "u16x32" "saturating_hadd" [] [] [];
  (* src/arch/x86/intrin/saturating_hadd.rs:44 *)
  mkGated "SaturatingHAdd" "u8x16" "saturating_hadd" [] [] [];
  (* src/arch/x86/intrin/saturating_hadd.rs:45 *)
  mkGated "SaturatingHAdd" "u8x32" "saturating_hadd" [] [] [];
  (* src/arch/x86/intrin/saturating_hadd.rs:46 *)
  mkGated "SaturatingHAdd" "u8x64" "saturating_hadd" [] [] [];
  (* src/arch/x86/intrin/saturating_hadd.rs:47 *)
  mkGated "SaturatingHAdd" "i64x2" "saturating_hadd" [] [] [];
  (* src/arch/x86/intrin/saturating_hadd.rs:48 *)
  mkGated "SaturatingHAdd" "i64x4" "saturating_hadd" [] [] [];
  (* src/arch/x86/intrin/saturating_hadd.rs:49 *)
  mkGated "SaturatingHAdd" "i64x8" "saturating_hadd" [] [] [];
  (* src/arch/x86/intrin/saturating_hadd.rs:50 *)
  mkGated "SaturatingHAdd" "i32x4" "saturating_hadd" [] [] [];
  (* src/arch/x86/intrin/saturating_hadd.rs:51 *)
  mkGated "SaturatingHAdd" "i32x8" "saturating_hadd" [] [] [];
  (* src/arch/x86/intrin/saturating_hadd.rs:52 *)
  mkGated "SaturatingHAdd" "i32x16" "saturating_hadd" [] [] [];
  (* src/arch/x86/intrin/saturating_hadd.rs:54 *)
  mkGated "SaturatingHAdd" "i16x8" "saturating_hadd" [] ["ssse3"] [];
  (* src/arch/x86/intrin/saturating_hadd.rs:56 *)
  mkGated "SaturatingHAdd" "i16x16" "saturating_hadd" [] ["avx2"] [];
  (* src/arch/x86/intrin/saturating_hadd.rs:57 *)
  mkGated "SaturatingHAdd" "i16x32" "saturating_hadd" [] [] [];
  (* src/arch/x86/intrin/saturating_hadd.rs:58 *)
  mkGated "SaturatingHAdd" "i8x16" "saturating_hadd" [] [] [];
  (* src/arch/x86/intrin/saturating_hadd.rs:59 *)
  mkGated "SaturatingHAdd" "i8x32" "saturating_hadd" [] [] [];
  (* src/arch/x86/intrin/saturating_hadd.rs:60 *)
  mkGated "SaturatingHAdd" "i8x64" "saturating_hadd" [] [] [];
  (* src/arch/x86/intrin/saturating_hsub.rs:18 *)
  mkGated "SaturatingHSub" "i16x8" "saturating_hsub" ["ssse3"] [] ["_mm_hsubs_epi16"; "_mm_unpacklo_epi32"; "_mm_unpackhi_epi32"];
  (* src/arch/x86/intrin/saturating_hsub.rs:28 *)
  mkGated "SaturatingHSub" "i16x16" "saturating_hsub" ["avx2"] [] ["_mm256_hsubs_epi16"; "_mm256_unpacklo_epi32"; "_mm256_unpackhi_epi32"];
  (* src/arch/x86/intrin/saturating_hsub.rs:35 *)
  mkGated "SaturatingHSub" "u64x2" "saturating_hsub" [] [] [];
  (* src/arch/x86/intrin/saturating_hsub.rs:36 *)
  mkGated "SaturatingHSub" "u64x4" "saturating_hsub" [] [] [];
  (* src/arch/x86/intrin/saturating_hsub.rs:37 *)
  mkGated "SaturatingHSub" "u64x8" "saturating_hsub" [] [] [];
  (* src/arch/x86/intrin/saturating_hsub.rs:38 *)
  mkGated "SaturatingHSub" "u32x4" "saturating_hsub" [] [] [];
  (* src/arch/x86/intrin/saturating_hsub.rs:39 *)
  mkGated "SaturatingHSub" "u32x8" "saturating_hsub" [] [] [];
  (* src/arch/x86/intrin/saturating_hsub.rs:40 *)
  mkGated "SaturatingHSub" "u32x16" "saturating_hsub" [] [] [];
  (* src/arch/x86/intrin/saturating_hsub.rs:41 *)
  mkGated "SaturatingHSub" "u16x8" "saturating_hsub" [] [] [];
  (* src/arch/x86/intrin/saturating_hsub.rs:42 *)
  mkGated "SaturatingHSub" "u16x16" "saturating_hsub" [] [] [];
  (* src/arch/x86/intrin/saturating_hsub.rs:43 *)
  mkGated "SaturatingHSub" "u16x32" "saturating_hsub" [] [] [];
  (* src/arch/x86/intrin/saturating_hsub.rs:44 *)
  mkGated "SaturatingHSub" "u8x16" "saturating_hsub" [] [] [];
  (* src/arch/x86/intrin/saturating_hsub.rs:45 *)
  mkGated "SaturatingHSub" "u8x32" "saturating_hsub" [] [] [];
  (* src/arch/x86/intrin/saturating_hsub.rs:46 *)
  mkGated "SaturatingHSub" "u8x64" "saturating_hsub" [] [] [];
  (* src/arch/x86/intrin/saturating_hsub.rs:47 *)
  mkGated "SaturatingHSub" "i64x2" "saturating_hsub" [] [] [];
  (* src/arch/x86/intrin/saturating_hsub.rs:48 *)
  mkGated "SaturatingHSub" "i64x4" "saturating_hsub" [] [] [];
  (* src/arch/x86/intrin/saturating_hsub.rs:49 *)
  mkGated "SaturatingHSub" "i64x8" "saturating_hsub" [] [] [];
  (* src/arch/x86/intrin/saturating_hsub.rs:50 *)
  mkGated "SaturatingHSub" "i32x4" "saturating_hsub" [] [] [];
  (* src/arch/x86/intrin/saturating_hsub.rs:51 *)
  mkGated "SaturatingHSub" "i32x8" "saturating_hsub" [] [] [];
  (* src/arch/x86/intrin/saturating_hsub.rs:52 *)
  mkGated "SaturatingHSub" "i32x16" "saturating_hsub" [] [] [];
  (* src/arch/x86/intrin/saturating_hsub.rs:54 *)
  mkGated "SaturatingHSub" "i16x8" "saturating_hsub" [] ["ssse3"] [];
  (* src/arch/x86/intrin/saturating_hsub.rs:56 *)
  mkGated "SaturatingHSub" "i16x16" "saturating_hsub" [] ["avx2"] [];
  (* src/arch/x86/intrin/saturating_hsub.rs:57 *)
  mkGated "SaturatingHSub" "i16x32" "saturating_hsub" [] [] [];
  (* src/arch/x86/intrin/saturating_hsub.rs:58 *)
  mkGated "SaturatingHSub" "i8x16" "saturating_hsub" [] [] [];
  (* src/arch/x86/intrin/saturating_hsub.rs:59 *)
  mkGated "SaturatingHSub" "i8x32" "saturating_hsub" [] [] [];
  (* src/arch/x86/intrin/saturating_hsub.rs:60 *)
  mkGated "SaturatingHSub" "i8x64" "saturating_hsub" [] [] [];
  (* src/arch/x86/intrin/saturating_sub.rs:16 *)
  mkGated "SaturatingSub" "u8x16" "saturating_sub" ["sse2"] [] ["_mm_subs_epu8"];
  (* src/arch/x86/intrin/saturating_sub.rs:16 *)
  mkGated "SaturatingSub" "u8x16" "saturating_sub" [] ["sse2"] [];
  (* src/arch/x86/intrin/saturating_sub.rs:22 *)
  mkGated "SaturatingSub" "i8x16" "saturating_sub" ["sse2"] [] ["_mm_subs_epi8"];
  (* src/arch/x86/intrin/saturating_sub.rs:22 *)
  mkGated "SaturatingSub" "i8x16" "saturating_sub" [] ["sse2"] [];
  (* src/arch/x86/intrin/saturating_sub.rs:28 *)
  mkGated "SaturatingSub" "u16x8" "saturating_sub" ["sse2"] [] ["_mm_subs_epu16"];
  (* src/arch/x86/intrin/saturating_sub.rs:28 *)
  mkGated "SaturatingSub" "u16x8" "saturating_sub" [] ["sse2"] [];
  (* src/arch/x86/intrin/saturating_sub.rs:34 *)
  mkGated "SaturatingSub" "i16x8" "saturating_sub" ["sse2"] [] ["_mm_subs_epi16"];
  (* src/arch/x86/intrin/saturating_sub.rs:34 *)
  mkGated "SaturatingSub" "i16x8" "saturating_sub" [] ["sse2"] [];
  (* src/arch/x86/intrin/saturating_sub.rs:40 *)
  mkGated "SaturatingSub" "u8x32" "saturating_sub" ["avx2"] [] ["_mm256_subs_epu8"];
  (* src/arch/x86/intrin/saturating_sub.rs:40 *)
  mkGated "SaturatingSub" "u8x32" "saturating_sub" [] ["avx2"] [];
  (* src/arch/x86/intrin/saturating_sub.rs:47 *)
  mkGated "SaturatingSub" "i8x32" "saturating_sub" ["avx2"] [] ["_mm256_subs_epi8"];
  (* src/arch/x86/intrin/saturating_sub.rs:47 *)
  mkGated "SaturatingSub" "i8x32" "saturating_sub" [] ["avx2"] [];
  (* src/arch/x86/intrin/saturating_sub.rs:54 *)
  mkGated "SaturatingSub" "u16x16" "saturating_sub" ["avx2"] [] ["_mm256_subs_epu16"];
  (* src/arch/x86/intrin/saturating_sub.rs:54 *)
  mkGated "SaturatingSub" "u16x16" "saturating_sub" [] ["avx2"] [];
  (* src/arch/x86/intrin/saturating_sub.rs:60 *)
  mkGated "SaturatingSub" "i16x16" "saturating_sub" ["avx2"] [] ["_mm256_subs_epi16"];
  (* src/arch/x86/intrin/saturating_sub.rs:60 *)
  mkGated "SaturatingSub" "i16x16" "saturating_sub" [] ["avx2"] [];
  (* src/arch/x86/intrin/sqrt.rs:16 *)
  mkGated "Sqrt" "f32x8" "sqrt" ["avx"] [] ["_mm256_sqrt_ps"];
  (* src/arch/x86/intrin/sqrt.rs:16 *)
  mkGated "Sqrt" "f32x8" "sqrt" [] ["avx"] [];
  (* src/arch/x86/intrin/sqrt.rs:22 *)
  mkGated "Sqrt" "f64x4" "sqrt" ["avx"] [] ["_mm256_sqrt_pd"];
  (* src/arch/x86/intrin/sqrt.rs:22 *)
  mkGated "Sqrt" "f64x4" "sqrt" [] ["avx"] [];
  (* src/arch/x86/intrin/sqrt.rs:28 *)
  mkGated "Sqrt" "f32x4" "sqrt" ["sse"] [] ["_mm_sqrt_ps"];
  (* src/arch/x86/intrin/sqrt.rs:28 *)
  mkGated "Sqrt" "f32x4" "sqrt" [] ["sse"] [];
  (* src/arch/x86/intrin/sqrt.rs:34 *)
  mkGated "Sqrt" "f64x2" "sqrt" ["sse2"] [] ["_mm_sqrt_pd"];
  (* src/arch/x86/intrin/sqrt.rs:34 *)
  mkGated "Sqrt" "f64x2" "sqrt" [] ["sse2"] [];
  (* src/arch/x86/intrin/sum.rs:31 *)
  mkGated "Sum" "i8x16" "sum" ["sse2"] [] ["_mm_sad_epu8"];
  (* src/arch/x86/intrin/sum.rs:43 *)
  mkGated "UpcastSum" "i8x16" "sum_upcast" ["sse2"] [] ["_mm_sad_epu8"];
  (* src/arch/x86/intrin/sum.rs:55 *)
  mkGated "Sum" "i8x32" "sum" ["avx2"] [] ["_mm256_sad_epu8"];
  (* src/arch/x86/intrin/sum.rs:69 *)
  mkGated "UpcastSum" "i8x32" "sum_upcast" ["avx2"] [] ["_mm256_sad_epu8"];
  (* src/arch/x86/intrin/sum.rs:83 *)
  mkGated "Sum" "u8x16" "sum" ["sse2"] [] ["_mm_sad_epu8"];
  (* src/arch/x86/intrin/sum.rs:93 *)
  mkGated "UpcastSum" "u8x16" "sum_upcast" ["sse2"] [] ["_mm_sad_epu8"];
  (* src/arch/x86/intrin/sum.rs:103 *)
  mkGated "Sum" "u8x32" "sum" ["avx2"] [] ["_mm256_sad_epu8"];
  (* src/arch/x86/intrin/sum.rs:113 *)
  mkGated "UpcastSum" "u8x32" "sum_upcast" ["avx2"] [] ["_mm256_sad_epu8"];
  (* src/arch/x86/intrin/sum.rs:123 *)
  mkGated "Sum" "i16x8" "sum" ["ssse3"] [] ["_mm_hadd_epi16"];
  (* src/arch/x86/intrin/sum.rs:137 *)
  mkGated "Sum" "i16x16" "sum" ["avx2"] [] ["_mm256_hadd_epi16"];
  (* src/arch/x86/intrin/sum.rs:151 *)
  mkGated "UpcastSum" "i16x16" "sum_upcast" ["avx2"] [] ["_mm256_hadd_epi32"];
  (* src/arch/x86/intrin/sum.rs:167 *)
  mkGated "Sum" "u16x16" "sum" ["avx2"] [] ["_mm256_hadd_epi32"];
  (* src/arch/x86/intrin/sum.rs:183 *)
  mkGated "UpcastSum" "u16x16" "sum_upcast" ["avx2"] [] ["_mm256_hadd_epi32"];
  (* src/arch/x86/intrin/sum.rs:199 *)
  mkGated "Sum" "i32x8" "sum" ["avx2"] [] ["_mm256_hadd_epi32"];
  (* src/arch/x86/intrin/sum.rs:212 *)
  mkGated "Sum" "f32x4" "sum" ["sse3"] [] ["_mm_hadd_ps"];
  (* src/arch/x86/intrin/sum.rs:225 *)
  mkGated "Sum" "f64x2" "sum" ["sse3"] [] ["_mm_hadd_pd"];
  (* src/arch/x86/intrin/sum.rs:237 *)
  mkGated "Sum" "f32x8" "sum" ["avx"] [] ["_mm256_hadd_ps"];
  (* src/arch/x86/intrin/sum.rs:250 *)
  mkGated "Sum" "f64x4" "sum" ["avx"] [] ["_mm256_hadd_pd"];
  (* src/arch/x86/intrin/sum.rs:259 *)
  mkGated "Sum" "u8x64" "sum" [] [] [];
  (* src/arch/x86/intrin/sum.rs:259 *)
  mkGated "Sum" "i8x64" "sum" [] [] [];
  (* src/arch/x86/intrin/sum.rs:259 *)
  mkGated "Sum" "u16x32" "sum" [] [] [];
  (* src/arch/x86/intrin/sum.rs:259 *)
  mkGated "Sum" "u16x8" "sum" [] [] [];
  (* src/arch/x86/intrin/sum.rs:259 *)
  mkGated "Sum" "i16x32" "sum" [] [] [];
  (* src/arch/x86/intrin/sum.rs:259 *)
  mkGated "Sum" "u32x16" "sum" [] [] [];
  (* src/arch/x86/intrin/sum.rs:259 *)
  mkGated "Sum" "u32x8" "sum" [] [] [];
  (* src/arch/x86/intrin/sum.rs:259 *)
  mkGated "Sum" "u32x4" "sum" [] [] [];
  (* src/arch/x86/intrin/sum.rs:259 *)
  mkGated "Sum" "i32x16" "sum" [] [] [];
  (* src/arch/x86/intrin/sum.rs:259 *)
  mkGated "Sum" "i32x4" "sum" [] [] [];
  (* src/arch/x86/intrin/sum.rs:259 *)
  mkGated "Sum" "f32x16" "sum" [] [] [];
  (* src/arch/x86/intrin/sum.rs:259 *)
  mkGated "Sum" "u64x8" "sum" [] [] [];
  (* src/arch/x86/intrin/sum.rs:259 *)
  mkGated "Sum" "u64x4" "sum" [] [] [];
  (* src/arch/x86/intrin/sum.rs:259 *)
  mkGated "Sum" "u64x2" "sum" [] [] [];
  (* src/arch/x86/intrin/sum.rs:259 *)
  mkGated "Sum" "i64x8" "sum" [] [] [];
  (* src/arch/x86/intrin/sum.rs:259 *)
  mkGated "Sum" "i64x4" "sum" [] [] [];
  (* src/arch/x86/intrin/sum.rs:259 *)
  mkGated "Sum" "i64x2" "sum" [] [] [];
  (* src/arch/x86/intrin/sum.rs:259 *)
  mkGated "Sum" "f64x8" "sum" [] [] [];
  (* src/arch/x86/intrin/sum.rs:260 *)
  mkGated "UpcastSum" "u8x64" "sum_upcast" [] [] [];
  (* src/arch/x86/intrin/sum.rs:260 *)
  mkGated "UpcastSum" "i8x64" "sum_upcast" [] [] [];
  (* src/arch/x86/intrin/sum.rs:260 *)
  mkGated "UpcastSum" "u16x32" "sum_upcast" [] [] [];
  (* src/arch/x86/intrin/sum.rs:260 *)
  mkGated "UpcastSum" "u16x8" "sum_upcast" [] [] [];
  (* src/arch/x86/intrin/sum.rs:260 *)
  mkGated "UpcastSum" "i16x32" "sum_upcast" [] [] [];
  (* src/arch/x86/intrin/sum.rs:260 *)
  mkGated "UpcastSum" "i16x8" "sum_upcast" [] [] [];
  (* src/arch/x86/intrin/sum.rs:260 *)
  mkGated "UpcastSum" "u32x16" "sum_upcast" [] [] [];
  (* src/arch/x86/intrin/sum.rs:260 *)
  mkGated "UpcastSum" "u32x8" "sum_upcast" [] [] [];
  (* src/arch/x86/intrin/sum.rs:260 *)
  mkGated "UpcastSum" "u32x4" "sum_upcast" [] [] [];
  (* src/arch/x86/intrin/sum.rs:260 *)
  mkGated "UpcastSum" "i32x16" "sum_upcast" [] [] [];
  (* src/arch/x86/intrin/sum.rs:260 *)
  mkGated "UpcastSum" "i32x8" "sum_upcast" [] [] [];
  (* src/arch/x86/intrin/sum.rs:260 *)
  mkGated "UpcastSum" "i32x4" "sum_upcast" [] [] [];
  (* src/arch/x86/intrin/sum.rs:260 *)
  mkGated "UpcastSum" "f32x16" "sum_upcast" [] [] [];
  (* src/arch/x86/intrin/sum.rs:260 *)
  mkGated "UpcastSum" "f32x8" "sum_upcast" [] [] [];
  (* src/arch/x86/intrin/sum.rs:260 *)
  mkGated "UpcastSum" "f32x4" "sum_upcast" [] [] [];
  (* src/arch/x86/intrin/sum.rs:260 *)
  mkGated "UpcastSum" "u64x8" "sum_upcast" [] [] [];
  (* src/arch/x86/intrin/sum.rs:260 *)
  mkGated "UpcastSum" "u64x4" "sum_upcast" [] [] [];
  (* src/arch/x86/intrin/sum.rs:260 *)
  mkGated "UpcastSum" "u64x2" "sum_upcast" [] [] [];
  (* src/arch/x86/intrin/sum.rs:260 *)
  mkGated "UpcastSum" "i64x8" "sum_upcast" [] [] [];
  (* src/arch/x86/intrin/sum.rs:260 *)
  mkGated "UpcastSum" "i64x4" "sum_upcast" [] [] [];
  (* src/arch/x86/intrin/sum.rs:260 *)
  mkGated "UpcastSum" "i64x2" "sum_upcast" [] [] [];
  (* src/arch/x86/intrin/sum.rs:260 *)
  mkGated "UpcastSum" "f64x8" "sum_upcast" [] [] [];
  (* src/arch/x86/intrin/sum.rs:260 *)
  mkGated "UpcastSum" "f64x4" "sum_upcast" [] [] [];
  (* src/arch/x86/intrin/sum.rs:260 *)
  mkGated "UpcastSum" "f64x2" "sum_upcast" [] [] [];
  (* src/arch/x86/intrin/sum.rs:263 *)
  mkGated "Sum" "i8x32" "sum" [] ["avx2"] [];
  (* src/arch/x86/intrin/sum.rs:263 *)
  mkGated "Sum" "u8x32" "sum" [] ["avx2"] [];
  (* src/arch/x86/intrin/sum.rs:263 *)
  mkGated "Sum" "i16x16" "sum" [] ["avx2"] [];
  (* src/arch/x86/intrin/sum.rs:263 *)
  mkGated "Sum" "u16x16" "sum" [] ["avx2"] [];
  (* src/arch/x86/intrin/sum.rs:263 *)
  mkGated "Sum" "i32x8" "sum" [] ["avx2"] [];
  (* src/arch/x86/intrin/sum.rs:265 *)
  mkGated "UpcastSum" "i8x32" "sum_upcast" [] ["avx2"] [];
  (* src/arch/x86/intrin/sum.rs:265 *)
  mkGated "UpcastSum" "u8x32" "sum_upcast" [] ["avx2"] [];
  (* src/arch/x86/intrin/sum.rs:265 *)
  mkGated "UpcastSum" "i16x16" "sum_upcast" [] ["avx2"] [];
  (* src/arch/x86/intrin/sum.rs:265 *)
  mkGated "UpcastSum" "u16x16" "sum_upcast" [] ["avx2"] [];
  (* src/arch/x86/intrin/sum.rs:268 *)
  mkGated "Sum" "f32x8" "sum" [] ["avx"] [];
  (* src/arch/x86/intrin/sum.rs:268 *)
  mkGated "Sum" "f64x4" "sum" [] ["avx"] [];
  (* src/arch/x86/intrin/sum.rs:271 *)
  mkGated "Sum" "f32x4" "sum" [] ["sse3"] [];
  (* src/arch/x86/intrin/sum.rs:271 *)
  mkGated "Sum" "f64x2" "sum" [] ["sse3"] [];
  (* src/arch/x86/intrin/sum.rs:274 *)
  mkGated "Sum" "i8x16" "sum" [] ["sse2"] [];
  (* src/arch/x86/intrin/sum.rs:274 *)
  mkGated "Sum" "u8x16" "sum" [] ["sse2"] [];
  (* src/arch/x86/intrin/sum.rs:276 *)
  mkGated "UpcastSum" "i8x16" "sum_upcast" [] ["sse2"] [];
  (* src/arch/x86/intrin/sum.rs:276 *)
  mkGated "UpcastSum" "u8x16" "sum_upcast" [] ["sse2"] [];
  (* src/arch/x86/intrin/sum.rs:279 *)
  mkGated "Sum" "i16x8" "sum" [] ["ssse3"] [];
  (* src/arch/x86/intrin/swizzle.rs:8 *)
  mkGated "Swizzle" "u8x64" "flip" ["avx512-butnotyet"] [] ["_mm512_permutexvar_epi8"];
  (* src/arch/x86/intrin/swizzle.rs:8 *)
  mkGated "Swizzle" "u8x64" "flip" [] ["avx512-butnotyet"] [];
  (* src/arch/x86/intrin/swizzle.rs:11 *)
  mkGated "Swizzle" "u8x32" "flip" ["avx2"] [] ["_mm256_shuffle_epi8"];
  (* src/arch/x86/intrin/swizzle.rs:11 *)
  mkGated "Swizzle" "u8x32" "flip" [] ["avx2"] [];
  (* src/arch/x86/intrin/swizzle.rs:14 *)
  mkGated "Swizzle" "u8x16" "flip" ["ssse3"] [] ["_mm_shuffle_epi8"];
  (* src/arch/x86/intrin/swizzle.rs:14 *)
  mkGated "Swizzle" "u8x16" "flip" [] ["ssse3"] [];
  (* src/arch/x86/intrin/swizzle.rs:17 *)
  mkGated "Swizzle" "i8x64" "flip" ["avx512-butnotyet"] [] ["_mm512_permutexvar_epi8"];
  (* src/arch/x86/intrin/swizzle.rs:17 *)
  mkGated "Swizzle" "i8x64" "flip" [] ["avx512-butnotyet"] [];
  (* src/arch/x86/intrin/swizzle.rs:20 *)
  mkGated "Swizzle" "i8x32" "flip" ["avx2"] [] ["_mm256_shuffle_epi8"];
  (* src/arch/x86/intrin/swizzle.rs:20 *)
  mkGated "Swizzle" "i8x32" "flip" [] ["avx2"] [];
  (* src/arch/x86/intrin/swizzle.rs:23 *)
  mkGated "Swizzle" "i8x16" "flip" ["ssse3"] [] ["_mm_shuffle_epi8"];
  (* src/arch/x86/intrin/swizzle.rs:23 *)
  mkGated "Swizzle" "i8x16" "flip" [] ["ssse3"] [];
  (* src/arch/x86/intrin/swizzle.rs:26 *)
  mkGated "Swizzle" "u16x32" "flip" ["avx512-butnotyet"] [] ["_mm512_permutexvar_epi8"];
  (* src/arch/x86/intrin/swizzle.rs:26 *)
  mkGated "Swizzle" "u16x32" "flip" [] ["avx512-butnotyet"] [];
  (* src/arch/x86/intrin/swizzle.rs:29 *)
  mkGated "Swizzle" "u16x16" "flip" ["avx2"] [] ["_mm256_shuffle_epi8"];
  (* src/arch/x86/intrin/swizzle.rs:29 *)
  mkGated "Swizzle" "u16x16" "flip" [] ["avx2"] [];
  (* src/arch/x86/intrin/swizzle.rs:32 *)
  mkGated "Swizzle" "u16x8" "flip" ["ssse3"] [] ["_mm_shuffle_epi8"];
  (* src/arch/x86/intrin/swizzle.rs:32 *)
  mkGated "Swizzle" "u16x8" "flip" [] ["ssse3"] [];
  (* src/arch/x86/intrin/swizzle.rs:35 *)
  mkGated "Swizzle" "i16x32" "flip" ["avx512-butnotyet"] [] ["_mm512_permutexvar_epi8"];
  (* src/arch/x86/intrin/swizzle.rs:35 *)
  mkGated "Swizzle" "i16x32" "flip" [] ["avx512-butnotyet"] [];
  (* src/arch/x86/intrin/swizzle.rs:38 *)
  mkGated "Swizzle" "i16x16" "flip" ["avx2"] [] ["_mm256_shuffle_epi8"];
  (* src/arch/x86/intrin/swizzle.rs:38 *)
  mkGated "Swizzle" "i16x16" "flip" [] ["avx2"] [];
  (* src/arch/x86/intrin/swizzle.rs:41 *)
  mkGated "Swizzle" "i16x8" "flip" ["ssse3"] [] ["_mm_shuffle_epi8"];
  (* src/arch/x86/intrin/swizzle.rs:41 *)
  mkGated "Swizzle" "i16x8" "flip" [] ["ssse3"] [];
  (* src/arch/x86/intrin/swizzle.rs:44 *)
  mkGated "Swizzle" "u32x16" "flip" ["avx512-butnotyet"] [] ["_mm512_permutexvar_epi8"];
  (* src/arch/x86/intrin/swizzle.rs:44 *)
  mkGated "Swizzle" "u32x16" "flip" [] ["avx512-butnotyet"] [];
  (* src/arch/x86/intrin/swizzle.rs:47 *)
  mkGated "Swizzle" "u32x8" "flip" ["avx2"] [] ["_mm256_shuffle_epi8"];
  (* src/arch/x86/intrin/swizzle.rs:47 *)
  mkGated "Swizzle" "u32x8" "flip" [] ["avx2"] [];
  (* src/arch/x86/intrin/swizzle.rs:50 *)
  mkGated "Swizzle" "u32x4" "flip" ["ssse3"] [] ["_mm_shuffle_epi8"];
  (* src/arch/x86/intrin/swizzle.rs:50 *)
  mkGated "Swizzle" "u32x4" "flip" [] ["ssse3"] [];
  (* src/arch/x86/intrin/swizzle.rs:53 *)
  mkGated "Swizzle" "i32x16" "flip" ["avx512-butnotyet"] [] ["_mm512_permutexvar_epi8"];
  (* src/arch/x86/intrin/swizzle.rs:53 *)
  mkGated "Swizzle" "i32x16" "flip" [] ["avx512-butnotyet"] [];
  (* src/arch/x86/intrin/swizzle.rs:56 *)
  mkGated "Swizzle" "i32x8" "flip" ["avx2"] [] ["_mm256_shuffle_epi8"];
  (* src/arch/x86/intrin/swizzle.rs:56 *)
  mkGated "Swizzle" "i32x8" "flip" [] ["avx2"] [];
  (* src/arch/x86/intrin/swizzle.rs:59 *)
  mkGated "Swizzle" "i32x4" "flip" ["ssse3"] [] ["_mm_shuffle_epi8"];
  (* src/arch/x86/intrin/swizzle.rs:59 *)
  mkGated "Swizzle" "i32x4" "flip" [] ["ssse3"] [];
  (* src/arch/x86/intrin/swizzle.rs:62 *)
  mkGated "Swizzle" "f32x16" "flip" ["avx512-butnotyet"] [] ["_mm512_permutexvar_epi8"];
  (* src/arch/x86/intrin/swizzle.rs:62 *)
  mkGated "Swizzle" "f32x16" "flip" [] ["avx512-butnotyet"] [];
  (* src/arch/x86/intrin/swizzle.rs:65 *)
  mkGated "Swizzle" "f32x8" "flip" ["avx2"] [] ["_mm256_shuffle_epi8"];
  (* src/arch/x86/intrin/swizzle.rs:65 *)
  mkGated "Swizzle" "f32x8" "flip" [] ["avx2"] [];
  (* src/arch/x86/intrin/swizzle.rs:68 *)
  mkGated "Swizzle" "f32x4" "flip" ["ssse3"] [] ["_mm_shuffle_epi8"];
  (* src/arch/x86/intrin/swizzle.rs:68 *)
  mkGated "Swizzle" "f32x4" "flip" [] ["ssse3"] [];
  (* src/arch/x86/intrin/swizzle.rs:71 *)
  mkGated "Swizzle" "u64x8" "flip" ["avx512-butnotyet"] [] ["_mm512_permutexvar_epi8"];
  (* src/arch/x86/intrin/swizzle.rs:71 *)
  mkGated "Swizzle" "u64x8" "flip" [] ["avx512-butnotyet"] [];
  (* src/arch/x86/intrin/swizzle.rs:74 *)
  mkGated "Swizzle" "u64x4" "flip" ["avx2"] [] ["_mm256_shuffle_epi8"];
  (* src/arch/x86/intrin/swizzle.rs:74 *)
  mkGated "Swizzle" "u64x4" "flip" [] ["avx2"] [];
  (* src/arch/x86/intrin/swizzle.rs:77 *)
  mkGated "Swizzle" "u64x2" "flip" ["ssse3"] [] ["_mm_shuffle_epi8"];
  (* src/arch/x86/intrin/swizzle.rs:77 *)
  mkGated "Swizzle" "u64x2" "flip" [] ["ssse3"] [];
  (* src/arch/x86/intrin/swizzle.rs:80 *)
  mkGated "Swizzle" "i64x8" "flip" ["avx512-butnotyet"] [] ["_mm512_permutexvar_epi8"];
  (* src/arch/x86/intrin/swizzle.rs:80 *)
  mkGated "Swizzle" "i64x8" "flip" [] ["avx512-butnotyet"] [];
  (* src/arch/x86/intrin/swizzle.rs:83 *)
  mkGated "Swizzle" "i64x4" "flip" ["avx2"] [] ["_mm256_shuffle_epi8"];
  (* src/arch/x86/intrin/swizzle.rs:83 *)
  mkGated "Swizzle" "i64x4" "flip" [] ["avx2"] [];
  (* src/arch/x86/intrin/swizzle.rs:86 *)
  mkGated "Swizzle" "i64x2" "flip" ["ssse3"] [] ["_mm_shuffle_epi8"];
  (* src/arch/x86/intrin/swizzle.rs:86 *)
  mkGated "Swizzle" "i64x2" "flip" [] ["ssse3"] [];
  (* src/arch/x86/intrin/swizzle.rs:89 *)
  mkGated "Swizzle" "f64x8" "flip" ["avx512-butnotyet"] [] ["_mm512_permutexvar_epi8"];
  (* src/arch/x86/intrin/swizzle.rs:89 *)
  mkGated "Swizzle" "f64x8" "flip" [] ["avx512-butnotyet"] [];
  (* src/arch/x86/intrin/swizzle.rs:92 *)
  mkGated "Swizzle" "f64x4" "flip" ["avx2"] [] ["_mm256_shuffle_epi8"];
  (* src/arch/x86/intrin/swizzle.rs:92 *)
  mkGated "Swizzle" "f64x4" "flip" [] ["avx2"] [];
  (* src/arch/x86/intrin/swizzle.rs:95 *)
  mkGated "Swizzle" "f64x2" "flip" ["ssse3"] [] ["_mm_shuffle_epi8"];
  (* src/arch/x86/intrin/swizzle.rs:95 *)
  mkGated "Swizzle" "f64x2" "flip" [] ["ssse3"] [];
  (* src/arch/x86/intrin/transmute.rs:15 *)
  mkGated "Transmute" "u8x32" "be_" [] [] [];
  (* src/arch/x86/intrin/transmute.rs:15 *)
  mkGated "Transmute" "i8x32" "be_" [] [] [];
  (* src/arch/x86/intrin/transmute.rs:15 *)
  mkGated "Transmute" "u16x16" "be_" [] [] [];
  (* src/arch/x86/intrin/transmute.rs:15 *)
  mkGated "Transmute" "i16x16" "be_" [] [] [];
  (* src/arch/x86/intrin/transmute.rs:15 *)
  mkGated "Transmute" "u32x8" "be_" [] [] [];
  (* src/arch/x86/intrin/transmute.rs:15 *)
  mkGated "Transmute" "i32x8" "be_" [] [] [];
  (* src/arch/x86/intrin/transmute.rs:15 *)
  mkGated "Transmute" "f32x8" "be_" [] [] [];
  (* src/arch/x86/intrin/transmute.rs:15 *)
  mkGated "Transmute" "u64x4" "be_" [] [] [];
  (* src/arch/x86/intrin/transmute.rs:15 *)
  mkGated "Transmute" "i64x4" "be_" [] [] [];
  (* src/arch/x86/intrin/transmute.rs:15 *)
  mkGated "Transmute" "f64x4" "be_" [] [] [];
  (* src/arch/x86/intrin/transmute.rs:20 *)
  mkGated "Transmute" "u8x64" "be_" [] [] [];
  (* src/arch/x86/intrin/transmute.rs:20 *)
  mkGated "Transmute" "i8x64" "be_" [] [] [];
  (* src/arch/x86/intrin/transmute.rs:20 *)
  mkGated "Transmute" "u16x32" "be_" [] [] [];
  (* src/arch/x86/intrin/transmute.rs:20 *)
  mkGated "Transmute" "i16x32" "be_" [] [] [];
  (* src/arch/x86/intrin/transmute.rs:20 *)
  mkGated "Transmute" "u32x16" "be_" [] [] [];
  (* src/arch/x86/intrin/transmute.rs:20 *)
  mkGated "Transmute" "i32x16" "be_" [] [] [];
  (* src/arch/x86/intrin/transmute.rs:20 *)
  mkGated "Transmute" "f32x16" "be_" [] [] [];
  (* src/arch/x86/intrin/transmute.rs:20 *)
  mkGated "Transmute" "u64x8" "be_" [] [] [];
  (* src/arch/x86/intrin/transmute.rs:20 *)
  mkGated "Transmute" "i64x8" "be_" [] [] [];
  (* src/arch/x86/intrin/transmute.rs:20 *)
  mkGated "Transmute" "f64x8" "be_" [] [] [];
  (* src/arch/x86/intrin/transmute.rs:25 *)
  mkGated "Transmute" "u8x16" "be_" [] [] [];
  (* src/arch/x86/intrin/transmute.rs:25 *)
  mkGated "Transmute" "i8x16" "be_" [] [] [];
  (* src/arch/x86/intrin/transmute.rs:25 *)
  mkGated "Transmute" "u16x8" "be_" [] [] [];
  (* src/arch/x86/intrin/transmute.rs:25 *)
  mkGated "Transmute" "i16x8" "be_" [] [] [];
  (* src/arch/x86/intrin/transmute.rs:25 *)
  mkGated "Transmute" "u32x4" "be_" [] [] [];
  (* src/arch/x86/intrin/transmute.rs:25 *)
  mkGated "Transmute" "i32x4" "be_" [] [] [];
  (* src/arch/x86/intrin/transmute.rs:25 *)
  mkGated "Transmute" "f32x4" "be_" [] [] [];
  (* src/arch/x86/intrin/transmute.rs:25 *)
  mkGated "Transmute" "u64x2" "be_" [] [] [];
  (* src/arch/x86/intrin/transmute.rs:25 *)
  mkGated "Transmute" "i64x2" "be_" [] [] [];
  (* src/arch/x86/intrin/transmute.rs:25 *)
  mkGated "Transmute" "f64x2" "be_" [] [] [];
  (* src/arch/x86/intrin/upcast.rs:19 *)
  mkGated "Upcast<u16x8>" "u8x16" "upcast" ["sse4.1"] [] ["_mm_cvtepu8_epi16"; "_mm_shuffle_epi32"];
  (* src/arch/x86/intrin/upcast.rs:30 *)
  mkGated "Upcast<u16x8>" "u8x16" "upcast" [] ["sse4.1"] [];
  (* src/arch/x86/intrin/upcast.rs:54 *)
  mkGated "Upcast<i16x8>" "i8x16" "upcast" ["sse4.1"] [] ["_mm_cvtepi8_epi16"; "_mm_shuffle_epi32"];
  (* src/arch/x86/intrin/upcast.rs:65 *)
  mkGated "Upcast<i16x8>" "i8x16" "upcast" [] ["sse4.1"] [];
  (* src/arch/x86/intrin/upcast.rs:89 *)
  mkGated "Upcast<u32x4>" "u16x8" "upcast" ["sse4.1"] [] ["_mm_cvtepu16_epi32"; "_mm_shuffle_epi32"];
  (* src/arch/x86/intrin/upcast.rs:99 *)
  mkGated "Upcast<u32x4>" "u16x8" "upcast" [] ["sse4.1"] [];
  (* src/arch/x86/intrin/upcast.rs:115 *)
  mkGated "Upcast<i32x4>" "i16x8" "upcast" ["sse4.1"] [] ["_mm_cvtepi16_epi32"; "_mm_shuffle_epi32"];
  (* src/arch/x86/intrin/upcast.rs:125 *)
  mkGated "Upcast<i32x4>" "i16x8" "upcast" [] ["sse4.1"] [];
  (* src/arch/x86/intrin/upcast.rs:141 *)
  mkGated "Upcast<u16x16>" "u8x32" "upcast" ["avx2"] [] ["_mm256_cvtepu8_epi16"; "_mm256_castsi256_si128"; "_mm256_permute4x64_epi64"];
  (* src/arch/x86/intrin/upcast.rs:151 *)
  mkGated "Upcast<u16x16>" "u8x32" "upcast" [] ["avx2"] [];
  (* src/arch/x86/intrin/upcast.rs:191 *)
  mkGated "Upcast<i16x16>" "i8x32" "upcast" ["avx2"] [] ["_mm256_cvtepi8_epi16"; "_mm256_castsi256_si128"; "_mm256_permute4x64_epi64"];
  (* src/arch/x86/intrin/upcast.rs:208 *)
  mkGated "Upcast<i16x16>" "i8x32" "upcast" [] ["avx2"] [];
  (* src/arch/x86/intrin/upcast.rs:248 *)
  mkGated "Upcast<u32x8>" "u16x16" "upcast" ["avx2"] [] ["_mm256_cvtepu16_epi32"; "_mm256_castsi256_si128"; "_mm256_permute4x64_epi64"];
  (* src/arch/x86/intrin/upcast.rs:258 *)
  mkGated "Upcast<u32x8>" "u16x16" "upcast" [] ["avx2"] [];
  (* src/arch/x86/intrin/upcast.rs:283 *)
  mkGated "Upcast<i32x8>" "i16x16" "upcast" ["avx2"] [] ["_mm256_cvtepi16_epi32"; "_mm256_castsi256_si128"; "_mm256_permute4x64_epi64"];
  (* src/arch/x86/intrin/upcast.rs:300 *)
  mkGated "Upcast<i32x8>" "i16x16" "upcast" [] ["avx2"] [];
  (* src/arch/x86/intrin/upcast.rs:324 *)
  mkGated "Upcast<f64x2>" "f32x4" "upcast" ["sse2"] [] ["_mm_cvtps_pd"; "_mm_shuffle_epi32"];
  (* src/arch/x86/intrin/upcast.rs:332 *)
  mkGated "Upcast<f64x2>" "f32x4" "upcast" [] ["sse2"] [];
  (* src/arch/x86/intrin/upcast.rs:344 *)
  mkGated "Upcast<f64x2>" "i32x4" "upcast" ["sse2"] [] ["_mm_cvtepi32_pd"; "_mm_shuffle_epi32"];
  (* src/arch/x86/intrin/upcast.rs:351 *)
  mkGated "Upcast<f64x2>" "i32x4" "upcast" [] ["sse2"] [];
  (* src/arch/x86/intrin/upcast.rs:363 *)
  mkGated "Upcast<i64x2>" "i32x4" "upcast" ["sse4.1"] [] ["_mm_cvtepi32_epi64"; "_mm_shuffle_epi32"];
  (* src/arch/x86/intrin/upcast.rs:373 *)
  mkGated "Upcast<i64x2>" "i32x4" "upcast" [] ["sse4.1"] [];
  (* src/arch/x86/intrin/upcast.rs:385 *)
  mkGated "Upcast<u64x2>" "u32x4" "upcast" ["sse4.1"] [] ["_mm_cvtepu32_epi64"; "_mm_shuffle_epi32"];
  (* src/arch/x86/intrin/upcast.rs:394 *)
  mkGated "Upcast<u64x2>" "u32x4" "upcast" [] ["sse4.1"] [];
  (* src/arch/x86/intrin/upcast.rs:406 *)
  mkGated "Upcast<f64x4>" "f32x8" "upcast" ["avx2"] [] ["_mm256_cvtps_pd"; "_mm256_castsi256_si128"; "_mm256_permute4x64_epi64"];
  (* src/arch/x86/intrin/upcast.rs:424 *)
  mkGated "Upcast<f64x4>" "f32x8" "upcast" [] ["avx2"] [];
  (* src/arch/x86/intrin/upcast.rs:440 *)
  mkGated "Upcast<f64x4>" "i32x8" "upcast" ["avx2"] [] ["_mm256_cvtepi32_pd"; "_mm256_castsi256_si128"; "_mm256_permute4x64_epi64"];
  (* src/arch/x86/intrin/upcast.rs:457 *)
  mkGated "Upcast<f64x4>" "i32x8" "upcast" [] ["avx2"] [];
  (* src/arch/x86/intrin/upcast.rs:473 *)
  mkGated "Upcast<i64x4>" "i32x8" "upcast" ["avx2"] [] ["_mm256_cvtepi32_epi64"; "_mm256_castsi256_si128"; "_mm256_permute4x64_epi64"];
  (* src/arch/x86/intrin/upcast.rs:490 *)
  mkGated "Upcast<i64x4>" "i32x8" "upcast" [] ["avx2"] [];
  (* src/arch/x86/intrin/upcast.rs:506 *)
  mkGated "Upcast<u64x4>" "u32x8" "upcast" ["avx2"] [] ["_mm256_cvtepu32_epi64"; "_mm256_castsi256_si128"; "_mm256_permute4x64_epi64"];
  (* src/arch/x86/intrin/upcast.rs:515 *)
  mkGated "Upcast<u64x4>" "u32x8" "upcast" [] ["avx2"] [];
  (* src/arch/x86/intrin/upcast.rs:530 *)
  mkGated "Upcast<f64x8>" "f32x16" "upcast" [] [] [];
  (* src/arch/x86/intrin/upcast.rs:553 *)
  mkGated "Upcast<f64x8>" "i32x16" "upcast" [] [] [];
  (* src/arch/x86/intrin/upcast.rs:576 *)
  mkGated "Upcast<i64x8>" "i32x16" "upcast" [] [] [];
  (* src/arch/x86/intrin/upcast.rs:599 *)
  mkGated "Upcast<u64x8>" "u32x16" "upcast" [] [] []].

(** src/arch/x86/vecs.rs:4-33 [impl_packed!]. *)
Definition x86_packed : list packed_line := [
  (* src/arch/x86/vecs.rs:4 *)
  mkPacked "u8" "u8s" "u8x64" 1 64 ["avx512"] ["avx1024"];
  (* src/arch/x86/vecs.rs:5 *)
  mkPacked "u8" "u8s" "u8x32" 1 32 ["avx2"] ["avx512"];
  (* src/arch/x86/vecs.rs:6 *)
  mkPacked "u8" "u8s" "u8x16" 1 16 [] ["avx2"];
  (* src/arch/x86/vecs.rs:7 *)
  mkPacked "i8" "i8s" "i8x64" 1 64 ["avx512"] ["avx1024"];
  (* src/arch/x86/vecs.rs:8 *)
  mkPacked "i8" "i8s" "i8x32" 1 32 ["avx2"] ["avx512"];
  (* src/arch/x86/vecs.rs:9 *)
  mkPacked "i8" "i8s" "i8x16" 1 16 [] ["avx2"];
  (* src/arch/x86/vecs.rs:10 *)
  mkPacked "u16" "u16s" "u16x32" 2 32 ["avx512"] ["avx1024"];
  (* src/arch/x86/vecs.rs:11 *)
  mkPacked "u16" "u16s" "u16x16" 2 16 ["avx2"] ["avx512"];
  (* src/arch/x86/vecs.rs:12 *)
  mkPacked "u16" "u16s" "u16x8" 2 8 [] ["avx2"];
  (* src/arch/x86/vecs.rs:13 *)
  mkPacked "i16" "i16s" "i16x32" 2 32 ["avx512"] ["avx1024"];
  (* src/arch/x86/vecs.rs:14 *)
  mkPacked "i16" "i16s" "i16x16" 2 16 ["avx2"] ["avx512"];
  (* src/arch/x86/vecs.rs:15 *)
  mkPacked "i16" "i16s" "i16x8" 2 8 [] ["avx2"];
  (* src/arch/x86/vecs.rs:16 *)
  mkPacked "u32" "u32s" "u32x16" 4 16 ["avx512"] ["avx1024"];
  (* src/arch/x86/vecs.rs:17 *)
  mkPacked "u32" "u32s" "u32x8" 4 8 ["avx2"] ["avx512"];
  (* src/arch/x86/vecs.rs:18 *)
  mkPacked "u32" "u32s" "u32x4" 4 4 [] ["avx2"];
  (* src/arch/x86/vecs.rs:19 *)
  mkPacked "i32" "i32s" "i32x16" 4 16 ["avx512"] ["avx1024"];
  (* src/arch/x86/vecs.rs:20 *)
  mkPacked "i32" "i32s" "i32x8" 4 8 ["avx2"] ["avx512"];
  (* src/arch/x86/vecs.rs:21 *)
  mkPacked "i32" "i32s" "i32x4" 4 4 [] ["avx2"];
  (* src/arch/x86/vecs.rs:22 *)
  mkPacked "f32" "f32s" "f32x16" 4 16 ["avx512"] ["avx1024"];
  (* src/arch/x86/vecs.rs:23 *)
  mkPacked "f32" "f32s" "f32x8" 4 8 ["avx2"] ["avx512"];
  (* src/arch/x86/vecs.rs:24 *)
  mkPacked "f32" "f32s" "f32x4" 4 4 [] ["avx2"];
  (* src/arch/x86/vecs.rs:25 *)
  mkPacked "u64" "u64s" "u64x8" 8 8 ["avx512"] ["avx1024"];
  (* src/arch/x86/vecs.rs:26 *)
  mkPacked "u64" "u64s" "u64x4" 8 4 ["avx2"] ["avx512"];
  (* src/arch/x86/vecs.rs:27 *)
  mkPacked "u64" "u64s" "u64x2" 8 2 [] ["avx2"];
  (* src/arch/x86/vecs.rs:28 *)
  mkPacked "i64" "i64s" "i64x8" 8 8 ["avx512"] ["avx1024"];
  (* src/arch/x86/vecs.rs:29 *)
  mkPacked "i64" "i64s" "i64x4" 8 4 ["avx2"] ["avx512"];
  (* src/arch/x86/vecs.rs:30 *)
  mkPacked "i64" "i64s" "i64x2" 8 2 [] ["avx2"];
  (* src/arch/x86/vecs.rs:31 *)
  mkPacked "f64" "f64s" "f64x8" 8 8 ["avx512"] ["avx1024"];
  (* src/arch/x86/vecs.rs:32 *)
  mkPacked "f64" "f64s" "f64x4" 8 4 ["avx2"] ["avx512"];
  (* src/arch/x86/vecs.rs:33 *)
  mkPacked "f64" "f64s" "f64x2" 8 2 [] ["avx2"]].

