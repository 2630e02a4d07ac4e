(** Literal tables of /repo/src/arch, transcribed by tools/gen_tables.py.  Each entry
    cites the file and line it was copied from; nothing is computed here. *)
From Coq Require Import String.
From Verif Require Import Base.
Open Scope string_scope.
Open Scope Z_scope.

(** One [impl Pattern for ..] of vec_patterns.rs: the argument lists of the
    [Self::new] calls ("h" for [hi], "l" for [lo]) of [halfs], [interleave] and of
    every arm of the [match off] in [partition], and the literals of [ones]/[zeroes]. *)
Record pattern_impl := mkPattern {
  pi_name : string; pi_ty : vty; pi_halfs : string; pi_interleave : string;
  pi_arms : list (Z * string); pi_ones : Z; pi_zeroes : Z }.

(** One [impl_packed_merge!] invocation: vector, mask vector, mask scalar size,
    intrinsic, target feature, and the three index lists.
    src/intrin/merge.rs:49-116. *)
Record merge_impl := mkMerge {
  mi_name : string; mi_ty : vty; mi_uvec : string; mi_usize : nat; mi_fn : string; mi_feat : string;
  mi_a : list Z; mi_b : list Z; mi_n : list Z }.

(** One [impl_packed_swizzle!] or [impl_packed_swap_bytes!] invocation: vector, byte
    vector, intrinsic, target feature, the byte shuffle control and the lane indices.
    src/intrin/swizzle.rs:25-45, src/intrin/endian.rs:70-91. *)
Record shuffle_impl := mkShuffle {
  sh_name : string; sh_ty : vty; sh_uvec : string; sh_fn : string; sh_feat : string;
  sh_c : list Z; sh_ab : list Z }.

(** src/arch/x86/vec_patterns.rs:20-35 [PART_MASK]. *)
Definition x86_part_mask : list Z := [0; 0; 0; 0; 0; 0; 0; 0; 0; 0; 0; 0; 0; 0; 0; 0; 0; 0; 0; 0; 0; 0; 0; 0; 0; 0; 0; 0; 0; 0; 0; 0; 0; 0; 0; 0; 0; 0; 0; 0; 0; 0; 0; 0; 0; 0; 0; 0; 0; 0; 0; 0; 0; 0; 0; 0; 0; 0; 0; 0; 0; 0; 0; 0; 255; 255; 255; 255; 255; 255; 255; 255; 255; 255; 255; 255; 255; 255; 255; 255; 255; 255; 255; 255; 255; 255; 255; 255; 255; 255; 255; 255; 255; 255; 255; 255; 255; 255; 255; 255; 255; 255; 255; 255; 255; 255; 255; 255; 255; 255; 255; 255; 255; 255; 255; 255; 255; 255; 255; 255; 255; 255; 255; 255; 255; 255; 255; 255].

(** src/arch/x86/vec_patterns.rs:62-1968. *)
Definition x86_patterns : list pattern_impl := [
  (* src/arch/x86/vec_patterns.rs:37 *)
  mkPattern "u8x64" (mkVty 64 1) "hhhhhhhhhhhhhhhhhhhhhhhhhhhhhhhhllllllllllllllllllllllllllllllll" "hlhlhlhlhlhlhlhlhlhlhlhlhlhlhlhlhlhlhlhlhlhlhlhlhlhlhlhlhlhlhlhl"
      [(0, "llllllllllllllllllllllllllllllllllllllllllllllllllllllllllllllll");
       (1, "hlllllllllllllllllllllllllllllllllllllllllllllllllllllllllllllll");
       (2, "hhllllllllllllllllllllllllllllllllllllllllllllllllllllllllllllll");
       (3, "hhhlllllllllllllllllllllllllllllllllllllllllllllllllllllllllllll");
       (4, "hhhhllllllllllllllllllllllllllllllllllllllllllllllllllllllllllll");
       (5, "hhhhhlllllllllllllllllllllllllllllllllllllllllllllllllllllllllll");
       (6, "hhhhhhllllllllllllllllllllllllllllllllllllllllllllllllllllllllll");
       (7, "hhhhhhhlllllllllllllllllllllllllllllllllllllllllllllllllllllllll");
       (8, "hhhhhhhhllllllllllllllllllllllllllllllllllllllllllllllllllllllll");
       (9, "hhhhhhhhhlllllllllllllllllllllllllllllllllllllllllllllllllllllll");
       (10, "hhhhhhhhhhllllllllllllllllllllllllllllllllllllllllllllllllllllll");
       (11, "hhhhhhhhhhhlllllllllllllllllllllllllllllllllllllllllllllllllllll");
       (12, "hhhhhhhhhhhhllllllllllllllllllllllllllllllllllllllllllllllllllll");
       (13, "hhhhhhhhhhhhhlllllllllllllllllllllllllllllllllllllllllllllllllll");
       (14, "hhhhhhhhhhhhhhllllllllllllllllllllllllllllllllllllllllllllllllll");
       (15, "hhhhhhhhhhhhhhhlllllllllllllllllllllllllllllllllllllllllllllllll");
       (16, "hhhhhhhhhhhhhhhhllllllllllllllllllllllllllllllllllllllllllllllll");
       (17, "hhhhhhhhhhhhhhhhhlllllllllllllllllllllllllllllllllllllllllllllll");
       (18, "hhhhhhhhhhhhhhhhhhllllllllllllllllllllllllllllllllllllllllllllll");
       (19, "hhhhhhhhhhhhhhhhhhhlllllllllllllllllllllllllllllllllllllllllllll");
       (20, "hhhhhhhhhhhhhhhhhhhhllllllllllllllllllllllllllllllllllllllllllll");
       (21, "hhhhhhhhhhhhhhhhhhhhhlllllllllllllllllllllllllllllllllllllllllll");
       (22, "hhhhhhhhhhhhhhhhhhhhhhllllllllllllllllllllllllllllllllllllllllll");
       (23, "hhhhhhhhhhhhhhhhhhhhhhhlllllllllllllllllllllllllllllllllllllllll");
       (24, "hhhhhhhhhhhhhhhhhhhhhhhhllllllllllllllllllllllllllllllllllllllll");
       (25, "hhhhhhhhhhhhhhhhhhhhhhhhhlllllllllllllllllllllllllllllllllllllll");
       (26, "hhhhhhhhhhhhhhhhhhhhhhhhhhllllllllllllllllllllllllllllllllllllll");
       (27, "hhhhhhhhhhhhhhhhhhhhhhhhhhhlllllllllllllllllllllllllllllllllllll");
       (28, "hhhhhhhhhhhhhhhhhhhhhhhhhhhhllllllllllllllllllllllllllllllllllll");
       (29, "hhhhhhhhhhhhhhhhhhhhhhhhhhhhhlllllllllllllllllllllllllllllllllll");
       (30, "hhhhhhhhhhhhhhhhhhhhhhhhhhhhhhllllllllllllllllllllllllllllllllll");
       (31, "hhhhhhhhhhhhhhhhhhhhhhhhhhhhhhhlllllllllllllllllllllllllllllllll");
       (32, "hhhhhhhhhhhhhhhhhhhhhhhhhhhhhhhhllllllllllllllllllllllllllllllll");
       (33, "hhhhhhhhhhhhhhhhhhhhhhhhhhhhhhhhhlllllllllllllllllllllllllllllll");
       (34, "hhhhhhhhhhhhhhhhhhhhhhhhhhhhhhhhhhllllllllllllllllllllllllllllll");
       (35, "hhhhhhhhhhhhhhhhhhhhhhhhhhhhhhhhhhhlllllllllllllllllllllllllllll");
       (36, "hhhhhhhhhhhhhhhhhhhhhhhhhhhhhhhhhhhhllllllllllllllllllllllllllll");
       (37, "hhhhhhhhhhhhhhhhhhhhhhhhhhhhhhhhhhhhhlllllllllllllllllllllllllll");
       (38, "hhhhhhhhhhhhhhhhhhhhhhhhhhhhhhhhhhhhhhllllllllllllllllllllllllll");
       (39, "hhhhhhhhhhhhhhhhhhhhhhhhhhhhhhhhhhhhhhhlllllllllllllllllllllllll");
       (40, "hhhhhhhhhhhhhhhhhhhhhhhhhhhhhhhhhhhhhhhhllllllllllllllllllllllll");
       (41, "hhhhhhhhhhhhhhhhhhhhhhhhhhhhhhhhhhhhhhhhhlllllllllllllllllllllll");
       (42, "hhhhhhhhhhhhhhhhhhhhhhhhhhhhhhhhhhhhhhhhhhllllllllllllllllllllll");
       (43, "hhhhhhhhhhhhhhhhhhhhhhhhhhhhhhhhhhhhhhhhhhhlllllllllllllllllllll");
       (44, "hhhhhhhhhhhhhhhhhhhhhhhhhhhhhhhhhhhhhhhhhhhhllllllllllllllllllll");
       (45, "hhhhhhhhhhhhhhhhhhhhhhhhhhhhhhhhhhhhhhhhhhhhhlllllllllllllllllll");
       (46, "hhhhhhhhhhhhhhhhhhhhhhhhhhhhhhhhhhhhhhhhhhhhhhllllllllllllllllll");
       (47, "hhhhhhhhhhhhhhhhhhhhhhhhhhhhhhhhhhhhhhhhhhhhhhhlllllllllllllllll");
       (48, "hhhhhhhhhhhhhhhhhhhhhhhhhhhhhhhhhhhhhhhhhhhhhhhhllllllllllllllll");
       (49, "hhhhhhhhhhhhhhhhhhhhhhhhhhhhhhhhhhhhhhhhhhhhhhhhhlllllllllllllll");
       (50, "hhhhhhhhhhhhhhhhhhhhhhhhhhhhhhhhhhhhhhhhhhhhhhhhhhllllllllllllll");
       (51, "hhhhhhhhhhhhhhhhhhhhhhhhhhhhhhhhhhhhhhhhhhhhhhhhhhhlllllllllllll");
       (52, "hhhhhhhhhhhhhhhhhhhhhhhhhhhhhhhhhhhhhhhhhhhhhhhhhhhhllllllllllll");
       (53, "hhhhhhhhhhhhhhhhhhhhhhhhhhhhhhhhhhhhhhhhhhhhhhhhhhhhhlllllllllll");
       (54, "hhhhhhhhhhhhhhhhhhhhhhhhhhhhhhhhhhhhhhhhhhhhhhhhhhhhhhllllllllll");
       (55, "hhhhhhhhhhhhhhhhhhhhhhhhhhhhhhhhhhhhhhhhhhhhhhhhhhhhhhhlllllllll");
       (56, "hhhhhhhhhhhhhhhhhhhhhhhhhhhhhhhhhhhhhhhhhhhhhhhhhhhhhhhhllllllll");
       (57, "hhhhhhhhhhhhhhhhhhhhhhhhhhhhhhhhhhhhhhhhhhhhhhhhhhhhhhhhhlllllll");
       (58, "hhhhhhhhhhhhhhhhhhhhhhhhhhhhhhhhhhhhhhhhhhhhhhhhhhhhhhhhhhllllll");
       (59, "hhhhhhhhhhhhhhhhhhhhhhhhhhhhhhhhhhhhhhhhhhhhhhhhhhhhhhhhhhhlllll");
       (60, "hhhhhhhhhhhhhhhhhhhhhhhhhhhhhhhhhhhhhhhhhhhhhhhhhhhhhhhhhhhhllll");
       (61, "hhhhhhhhhhhhhhhhhhhhhhhhhhhhhhhhhhhhhhhhhhhhhhhhhhhhhhhhhhhhhlll");
       (62, "hhhhhhhhhhhhhhhhhhhhhhhhhhhhhhhhhhhhhhhhhhhhhhhhhhhhhhhhhhhhhhll");
       (63, "hhhhhhhhhhhhhhhhhhhhhhhhhhhhhhhhhhhhhhhhhhhhhhhhhhhhhhhhhhhhhhhl");
       (64, "hhhhhhhhhhhhhhhhhhhhhhhhhhhhhhhhhhhhhhhhhhhhhhhhhhhhhhhhhhhhhhhh")]
      255 0;
  (* src/arch/x86/vec_patterns.rs:150 *)
  mkPattern "u8x32" (mkVty 32 1) "hhhhhhhhhhhhhhhhllllllllllllllll" "hlhlhlhlhlhlhlhlhlhlhlhlhlhlhlhl"
      [(0, "llllllllllllllllllllllllllllllll");
       (1, "hlllllllllllllllllllllllllllllll");
       (2, "hhllllllllllllllllllllllllllllll");
       (3, "hhhlllllllllllllllllllllllllllll");
       (4, "hhhhllllllllllllllllllllllllllll");
       (5, "hhhhhlllllllllllllllllllllllllll");
       (6, "hhhhhhllllllllllllllllllllllllll");
       (7, "hhhhhhhlllllllllllllllllllllllll");
       (8, "hhhhhhhhllllllllllllllllllllllll");
       (9, "hhhhhhhhhlllllllllllllllllllllll");
       (10, "hhhhhhhhhhllllllllllllllllllllll");
       (11, "hhhhhhhhhhhlllllllllllllllllllll");
       (12, "hhhhhhhhhhhhllllllllllllllllllll");
       (13, "hhhhhhhhhhhhhlllllllllllllllllll");
       (14, "hhhhhhhhhhhhhhllllllllllllllllll");
       (15, "hhhhhhhhhhhhhhhlllllllllllllllll");
       (16, "hhhhhhhhhhhhhhhhllllllllllllllll");
       (17, "hhhhhhhhhhhhhhhhhlllllllllllllll");
       (18, "hhhhhhhhhhhhhhhhhhllllllllllllll");
       (19, "hhhhhhhhhhhhhhhhhhhlllllllllllll");
       (20, "hhhhhhhhhhhhhhhhhhhhllllllllllll");
       (21, "hhhhhhhhhhhhhhhhhhhhhlllllllllll");
       (22, "hhhhhhhhhhhhhhhhhhhhhhllllllllll");
       (23, "hhhhhhhhhhhhhhhhhhhhhhhlllllllll");
       (24, "hhhhhhhhhhhhhhhhhhhhhhhhllllllll");
       (25, "hhhhhhhhhhhhhhhhhhhhhhhhhlllllll");
       (26, "hhhhhhhhhhhhhhhhhhhhhhhhhhllllll");
       (27, "hhhhhhhhhhhhhhhhhhhhhhhhhhhlllll");
       (28, "hhhhhhhhhhhhhhhhhhhhhhhhhhhhllll");
       (29, "hhhhhhhhhhhhhhhhhhhhhhhhhhhhhlll");
       (30, "hhhhhhhhhhhhhhhhhhhhhhhhhhhhhhll");
       (31, "hhhhhhhhhhhhhhhhhhhhhhhhhhhhhhhl");
       (32, "hhhhhhhhhhhhhhhhhhhhhhhhhhhhhhhh")]
      255 0;
  (* src/arch/x86/vec_patterns.rs:231 *)
  mkPattern "u8x16" (mkVty 16 1) "hhhhhhhhllllllll" "hlhlhlhlhlhlhlhl"
      [(0, "llllllllllllllll");
       (1, "hlllllllllllllll");
       (2, "hhllllllllllllll");
       (3, "hhhlllllllllllll");
       (4, "hhhhllllllllllll");
       (5, "hhhhhlllllllllll");
       (6, "hhhhhhllllllllll");
       (7, "hhhhhhhlllllllll");
       (8, "hhhhhhhhllllllll");
       (9, "hhhhhhhhhlllllll");
       (10, "hhhhhhhhhhllllll");
       (11, "hhhhhhhhhhhlllll");
       (12, "hhhhhhhhhhhhllll");
       (13, "hhhhhhhhhhhhhlll");
       (14, "hhhhhhhhhhhhhhll");
       (15, "hhhhhhhhhhhhhhhl");
       (16, "hhhhhhhhhhhhhhhh")]
      255 0;
  (* src/arch/x86/vec_patterns.rs:296 *)
  mkPattern "i8x64" (mkVty 64 1) "hhhhhhhhhhhhhhhhhhhhhhhhhhhhhhhhllllllllllllllllllllllllllllllll" "hlhlhlhlhlhlhlhlhlhlhlhlhlhlhlhlhlhlhlhlhlhlhlhlhlhlhlhlhlhlhlhl"
      [(0, "llllllllllllllllllllllllllllllllllllllllllllllllllllllllllllllll");
       (1, "hlllllllllllllllllllllllllllllllllllllllllllllllllllllllllllllll");
       (2, "hhllllllllllllllllllllllllllllllllllllllllllllllllllllllllllllll");
       (3, "hhhlllllllllllllllllllllllllllllllllllllllllllllllllllllllllllll");
       (4, "hhhhllllllllllllllllllllllllllllllllllllllllllllllllllllllllllll");
       (5, "hhhhhlllllllllllllllllllllllllllllllllllllllllllllllllllllllllll");
       (6, "hhhhhhllllllllllllllllllllllllllllllllllllllllllllllllllllllllll");
       (7, "hhhhhhhlllllllllllllllllllllllllllllllllllllllllllllllllllllllll");
       (8, "hhhhhhhhllllllllllllllllllllllllllllllllllllllllllllllllllllllll");
       (9, "hhhhhhhhhlllllllllllllllllllllllllllllllllllllllllllllllllllllll");
       (10, "hhhhhhhhhhllllllllllllllllllllllllllllllllllllllllllllllllllllll");
       (11, "hhhhhhhhhhhlllllllllllllllllllllllllllllllllllllllllllllllllllll");
       (12, "hhhhhhhhhhhhllllllllllllllllllllllllllllllllllllllllllllllllllll");
       (13, "hhhhhhhhhhhhhlllllllllllllllllllllllllllllllllllllllllllllllllll");
       (14, "hhhhhhhhhhhhhhllllllllllllllllllllllllllllllllllllllllllllllllll");
       (15, "hhhhhhhhhhhhhhhlllllllllllllllllllllllllllllllllllllllllllllllll");
       (16, "hhhhhhhhhhhhhhhhllllllllllllllllllllllllllllllllllllllllllllllll");
       (17, "hhhhhhhhhhhhhhhhhlllllllllllllllllllllllllllllllllllllllllllllll");
       (18, "hhhhhhhhhhhhhhhhhhllllllllllllllllllllllllllllllllllllllllllllll");
       (19, "hhhhhhhhhhhhhhhhhhhlllllllllllllllllllllllllllllllllllllllllllll");
       (20, "hhhhhhhhhhhhhhhhhhhhllllllllllllllllllllllllllllllllllllllllllll");
       (21, "hhhhhhhhhhhhhhhhhhhhhlllllllllllllllllllllllllllllllllllllllllll");
       (22, "hhhhhhhhhhhhhhhhhhhhhhllllllllllllllllllllllllllllllllllllllllll");
       (23, "hhhhhhhhhhhhhhhhhhhhhhhlllllllllllllllllllllllllllllllllllllllll");
       (24, "hhhhhhhhhhhhhhhhhhhhhhhhllllllllllllllllllllllllllllllllllllllll");
       (25, "hhhhhhhhhhhhhhhhhhhhhhhhhlllllllllllllllllllllllllllllllllllllll");
       (26, "hhhhhhhhhhhhhhhhhhhhhhhhhhllllllllllllllllllllllllllllllllllllll");
       (27, "hhhhhhhhhhhhhhhhhhhhhhhhhhhlllllllllllllllllllllllllllllllllllll");
       (28, "hhhhhhhhhhhhhhhhhhhhhhhhhhhhllllllllllllllllllllllllllllllllllll");
       (29, "hhhhhhhhhhhhhhhhhhhhhhhhhhhhhlllllllllllllllllllllllllllllllllll");
       (30, "hhhhhhhhhhhhhhhhhhhhhhhhhhhhhhllllllllllllllllllllllllllllllllll");
       (31, "hhhhhhhhhhhhhhhhhhhhhhhhhhhhhhhlllllllllllllllllllllllllllllllll");
       (32, "hhhhhhhhhhhhhhhhhhhhhhhhhhhhhhhhllllllllllllllllllllllllllllllll");
       (33, "hhhhhhhhhhhhhhhhhhhhhhhhhhhhhhhhhlllllllllllllllllllllllllllllll");
       (34, "hhhhhhhhhhhhhhhhhhhhhhhhhhhhhhhhhhllllllllllllllllllllllllllllll");
       (35, "hhhhhhhhhhhhhhhhhhhhhhhhhhhhhhhhhhhlllllllllllllllllllllllllllll");
       (36, "hhhhhhhhhhhhhhhhhhhhhhhhhhhhhhhhhhhhllllllllllllllllllllllllllll");
       (37, "hhhhhhhhhhhhhhhhhhhhhhhhhhhhhhhhhhhhhlllllllllllllllllllllllllll");
       (38, "hhhhhhhhhhhhhhhhhhhhhhhhhhhhhhhhhhhhhhllllllllllllllllllllllllll");
       (39, "hhhhhhhhhhhhhhhhhhhhhhhhhhhhhhhhhhhhhhhlllllllllllllllllllllllll");
       (40, "hhhhhhhhhhhhhhhhhhhhhhhhhhhhhhhhhhhhhhhhllllllllllllllllllllllll");
       (41, "hhhhhhhhhhhhhhhhhhhhhhhhhhhhhhhhhhhhhhhhhlllllllllllllllllllllll");
       (42, "hhhhhhhhhhhhhhhhhhhhhhhhhhhhhhhhhhhhhhhhhhllllllllllllllllllllll");
       (43, "hhhhhhhhhhhhhhhhhhhhhhhhhhhhhhhhhhhhhhhhhhhlllllllllllllllllllll");
       (44, "hhhhhhhhhhhhhhhhhhhhhhhhhhhhhhhhhhhhhhhhhhhhllllllllllllllllllll");
       (45, "hhhhhhhhhhhhhhhhhhhhhhhhhhhhhhhhhhhhhhhhhhhhhlllllllllllllllllll");
       (46, "hhhhhhhhhhhhhhhhhhhhhhhhhhhhhhhhhhhhhhhhhhhhhhllllllllllllllllll");
       (47, "hhhhhhhhhhhhhhhhhhhhhhhhhhhhhhhhhhhhhhhhhhhhhhhlllllllllllllllll");
       (48, "hhhhhhhhhhhhhhhhhhhhhhhhhhhhhhhhhhhhhhhhhhhhhhhhllllllllllllllll");
       (49, "hhhhhhhhhhhhhhhhhhhhhhhhhhhhhhhhhhhhhhhhhhhhhhhhhlllllllllllllll");
       (50, "hhhhhhhhhhhhhhhhhhhhhhhhhhhhhhhhhhhhhhhhhhhhhhhhhhllllllllllllll");
       (51, "hhhhhhhhhhhhhhhhhhhhhhhhhhhhhhhhhhhhhhhhhhhhhhhhhhhlllllllllllll");
       (52, "hhhhhhhhhhhhhhhhhhhhhhhhhhhhhhhhhhhhhhhhhhhhhhhhhhhhllllllllllll");
       (53, "hhhhhhhhhhhhhhhhhhhhhhhhhhhhhhhhhhhhhhhhhhhhhhhhhhhhhlllllllllll");
       (54, "hhhhhhhhhhhhhhhhhhhhhhhhhhhhhhhhhhhhhhhhhhhhhhhhhhhhhhllllllllll");
       (55, "hhhhhhhhhhhhhhhhhhhhhhhhhhhhhhhhhhhhhhhhhhhhhhhhhhhhhhhlllllllll");
       (56, "hhhhhhhhhhhhhhhhhhhhhhhhhhhhhhhhhhhhhhhhhhhhhhhhhhhhhhhhllllllll");
       (57, "hhhhhhhhhhhhhhhhhhhhhhhhhhhhhhhhhhhhhhhhhhhhhhhhhhhhhhhhhlllllll");
       (58, "hhhhhhhhhhhhhhhhhhhhhhhhhhhhhhhhhhhhhhhhhhhhhhhhhhhhhhhhhhllllll");
       (59, "hhhhhhhhhhhhhhhhhhhhhhhhhhhhhhhhhhhhhhhhhhhhhhhhhhhhhhhhhhhlllll");
       (60, "hhhhhhhhhhhhhhhhhhhhhhhhhhhhhhhhhhhhhhhhhhhhhhhhhhhhhhhhhhhhllll");
       (61, "hhhhhhhhhhhhhhhhhhhhhhhhhhhhhhhhhhhhhhhhhhhhhhhhhhhhhhhhhhhhhlll");
       (62, "hhhhhhhhhhhhhhhhhhhhhhhhhhhhhhhhhhhhhhhhhhhhhhhhhhhhhhhhhhhhhhll");
       (63, "hhhhhhhhhhhhhhhhhhhhhhhhhhhhhhhhhhhhhhhhhhhhhhhhhhhhhhhhhhhhhhhl");
       (64, "hhhhhhhhhhhhhhhhhhhhhhhhhhhhhhhhhhhhhhhhhhhhhhhhhhhhhhhhhhhhhhhh")]
      255 0;
  (* src/arch/x86/vec_patterns.rs:409 *)
  mkPattern "i8x32" (mkVty 32 1) "hhhhhhhhhhhhhhhhllllllllllllllll" "hlhlhlhlhlhlhlhlhlhlhlhlhlhlhlhl"
      [(0, "llllllllllllllllllllllllllllllll");
       (1, "hlllllllllllllllllllllllllllllll");
       (2, "hhllllllllllllllllllllllllllllll");
       (3, "hhhlllllllllllllllllllllllllllll");
       (4, "hhhhllllllllllllllllllllllllllll");
       (5, "hhhhhlllllllllllllllllllllllllll");
       (6, "hhhhhhllllllllllllllllllllllllll");
       (7, "hhhhhhhlllllllllllllllllllllllll");
       (8, "hhhhhhhhllllllllllllllllllllllll");
       (9, "hhhhhhhhhlllllllllllllllllllllll");
       (10, "hhhhhhhhhhllllllllllllllllllllll");
       (11, "hhhhhhhhhhhlllllllllllllllllllll");
       (12, "hhhhhhhhhhhhllllllllllllllllllll");
       (13, "hhhhhhhhhhhhhlllllllllllllllllll");
       (14, "hhhhhhhhhhhhhhllllllllllllllllll");
       (15, "hhhhhhhhhhhhhhhlllllllllllllllll");
       (16, "hhhhhhhhhhhhhhhhllllllllllllllll");
       (17, "hhhhhhhhhhhhhhhhhlllllllllllllll");
       (18, "hhhhhhhhhhhhhhhhhhllllllllllllll");
       (19, "hhhhhhhhhhhhhhhhhhhlllllllllllll");
       (20, "hhhhhhhhhhhhhhhhhhhhllllllllllll");
       (21, "hhhhhhhhhhhhhhhhhhhhhlllllllllll");
       (22, "hhhhhhhhhhhhhhhhhhhhhhllllllllll");
       (23, "hhhhhhhhhhhhhhhhhhhhhhhlllllllll");
       (24, "hhhhhhhhhhhhhhhhhhhhhhhhllllllll");
       (25, "hhhhhhhhhhhhhhhhhhhhhhhhhlllllll");
       (26, "hhhhhhhhhhhhhhhhhhhhhhhhhhllllll");
       (27, "hhhhhhhhhhhhhhhhhhhhhhhhhhhlllll");
       (28, "hhhhhhhhhhhhhhhhhhhhhhhhhhhhllll");
       (29, "hhhhhhhhhhhhhhhhhhhhhhhhhhhhhlll");
       (30, "hhhhhhhhhhhhhhhhhhhhhhhhhhhhhhll");
       (31, "hhhhhhhhhhhhhhhhhhhhhhhhhhhhhhhl");
       (32, "hhhhhhhhhhhhhhhhhhhhhhhhhhhhhhhh")]
      255 0;
  (* src/arch/x86/vec_patterns.rs:490 *)
  mkPattern "i8x16" (mkVty 16 1) "hhhhhhhhllllllll" "hlhlhlhlhlhlhlhl"
      [(0, "llllllllllllllll");
       (1, "hlllllllllllllll");
       (2, "hhllllllllllllll");
       (3, "hhhlllllllllllll");
       (4, "hhhhllllllllllll");
       (5, "hhhhhlllllllllll");
       (6, "hhhhhhllllllllll");
       (7, "hhhhhhhlllllllll");
       (8, "hhhhhhhhllllllll");
       (9, "hhhhhhhhhlllllll");
       (10, "hhhhhhhhhhllllll");
       (11, "hhhhhhhhhhhlllll");
       (12, "hhhhhhhhhhhhllll");
       (13, "hhhhhhhhhhhhhlll");
       (14, "hhhhhhhhhhhhhhll");
       (15, "hhhhhhhhhhhhhhhl");
       (16, "hhhhhhhhhhhhhhhh")]
      255 0;
  (* src/arch/x86/vec_patterns.rs:555 *)
  mkPattern "u16x32" (mkVty 32 2) "hhhhhhhhhhhhhhhhllllllllllllllll" "hlhlhlhlhlhlhlhlhlhlhlhlhlhlhlhl"
      [(0, "llllllllllllllllllllllllllllllll");
       (1, "hlllllllllllllllllllllllllllllll");
       (2, "hhllllllllllllllllllllllllllllll");
       (3, "hhhlllllllllllllllllllllllllllll");
       (4, "hhhhllllllllllllllllllllllllllll");
       (5, "hhhhhlllllllllllllllllllllllllll");
       (6, "hhhhhhllllllllllllllllllllllllll");
       (7, "hhhhhhhlllllllllllllllllllllllll");
       (8, "hhhhhhhhllllllllllllllllllllllll");
       (9, "hhhhhhhhhlllllllllllllllllllllll");
       (10, "hhhhhhhhhhllllllllllllllllllllll");
       (11, "hhhhhhhhhhhlllllllllllllllllllll");
       (12, "hhhhhhhhhhhhllllllllllllllllllll");
       (13, "hhhhhhhhhhhhhlllllllllllllllllll");
       (14, "hhhhhhhhhhhhhhllllllllllllllllll");
       (15, "hhhhhhhhhhhhhhhlllllllllllllllll");
       (16, "hhhhhhhhhhhhhhhhllllllllllllllll");
       (17, "hhhhhhhhhhhhhhhhhlllllllllllllll");
       (18, "hhhhhhhhhhhhhhhhhhllllllllllllll");
       (19, "hhhhhhhhhhhhhhhhhhhlllllllllllll");
       (20, "hhhhhhhhhhhhhhhhhhhhllllllllllll");
       (21, "hhhhhhhhhhhhhhhhhhhhhlllllllllll");
       (22, "hhhhhhhhhhhhhhhhhhhhhhllllllllll");
       (23, "hhhhhhhhhhhhhhhhhhhhhhhlllllllll");
       (24, "hhhhhhhhhhhhhhhhhhhhhhhhllllllll");
       (25, "hhhhhhhhhhhhhhhhhhhhhhhhhlllllll");
       (26, "hhhhhhhhhhhhhhhhhhhhhhhhhhllllll");
       (27, "hhhhhhhhhhhhhhhhhhhhhhhhhhhlllll");
       (28, "hhhhhhhhhhhhhhhhhhhhhhhhhhhhllll");
       (29, "hhhhhhhhhhhhhhhhhhhhhhhhhhhhhlll");
       (30, "hhhhhhhhhhhhhhhhhhhhhhhhhhhhhhll");
       (31, "hhhhhhhhhhhhhhhhhhhhhhhhhhhhhhhl");
       (32, "hhhhhhhhhhhhhhhhhhhhhhhhhhhhhhhh")]
      65535 0;
  (* src/arch/x86/vec_patterns.rs:636 *)
  mkPattern "u16x16" (mkVty 16 2) "hhhhhhhhllllllll" "hlhlhlhlhlhlhlhl"
      [(0, "llllllllllllllll");
       (1, "hlllllllllllllll");
       (2, "hhllllllllllllll");
       (3, "hhhlllllllllllll");
       (4, "hhhhllllllllllll");
       (5, "hhhhhlllllllllll");
       (6, "hhhhhhllllllllll");
       (7, "hhhhhhhlllllllll");
       (8, "hhhhhhhhllllllll");
       (9, "hhhhhhhhhlllllll");
       (10, "hhhhhhhhhhllllll");
       (11, "hhhhhhhhhhhlllll");
       (12, "hhhhhhhhhhhhllll");
       (13, "hhhhhhhhhhhhhlll");
       (14, "hhhhhhhhhhhhhhll");
       (15, "hhhhhhhhhhhhhhhl");
       (16, "hhhhhhhhhhhhhhhh")]
      65535 0;
  (* src/arch/x86/vec_patterns.rs:701 *)
  mkPattern "u16x8" (mkVty 8 2) "hhhhllll" "hlhlhlhl"
      [(0, "llllllll");
       (1, "hlllllll");
       (2, "hhllllll");
       (3, "hhhlllll");
       (4, "hhhhllll");
       (5, "hhhhhlll");
       (6, "hhhhhhll");
       (7, "hhhhhhhl");
       (8, "hhhhhhhh")]
      65535 0;
  (* src/arch/x86/vec_patterns.rs:758 *)
  mkPattern "i16x32" (mkVty 32 2) "hhhhhhhhhhhhhhhhllllllllllllllll" "hlhlhlhlhlhlhlhlhlhlhlhlhlhlhlhl"
      [(0, "llllllllllllllllllllllllllllllll");
       (1, "hlllllllllllllllllllllllllllllll");
       (2, "hhllllllllllllllllllllllllllllll");
       (3, "hhhlllllllllllllllllllllllllllll");
       (4, "hhhhllllllllllllllllllllllllllll");
       (5, "hhhhhlllllllllllllllllllllllllll");
       (6, "hhhhhhllllllllllllllllllllllllll");
       (7, "hhhhhhhlllllllllllllllllllllllll");
       (8, "hhhhhhhhllllllllllllllllllllllll");
       (9, "hhhhhhhhhlllllllllllllllllllllll");
       (10, "hhhhhhhhhhllllllllllllllllllllll");
       (11, "hhhhhhhhhhhlllllllllllllllllllll");
       (12, "hhhhhhhhhhhhllllllllllllllllllll");
       (13, "hhhhhhhhhhhhhlllllllllllllllllll");
       (14, "hhhhhhhhhhhhhhllllllllllllllllll");
       (15, "hhhhhhhhhhhhhhhlllllllllllllllll");
       (16, "hhhhhhhhhhhhhhhhllllllllllllllll");
       (17, "hhhhhhhhhhhhhhhhhlllllllllllllll");
       (18, "hhhhhhhhhhhhhhhhhhllllllllllllll");
       (19, "hhhhhhhhhhhhhhhhhhhlllllllllllll");
       (20, "hhhhhhhhhhhhhhhhhhhhllllllllllll");
       (21, "hhhhhhhhhhhhhhhhhhhhhlllllllllll");
       (22, "hhhhhhhhhhhhhhhhhhhhhhllllllllll");
       (23, "hhhhhhhhhhhhhhhhhhhhhhhlllllllll");
       (24, "hhhhhhhhhhhhhhhhhhhhhhhhllllllll");
       (25, "hhhhhhhhhhhhhhhhhhhhhhhhhlllllll");
       (26, "hhhhhhhhhhhhhhhhhhhhhhhhhhllllll");
       (27, "hhhhhhhhhhhhhhhhhhhhhhhhhhhlllll");
       (28, "hhhhhhhhhhhhhhhhhhhhhhhhhhhhllll");
       (29, "hhhhhhhhhhhhhhhhhhhhhhhhhhhhhlll");
       (30, "hhhhhhhhhhhhhhhhhhhhhhhhhhhhhhll");
       (31, "hhhhhhhhhhhhhhhhhhhhhhhhhhhhhhhl");
       (32, "hhhhhhhhhhhhhhhhhhhhhhhhhhhhhhhh")]
      65535 0;
  (* src/arch/x86/vec_patterns.rs:839 *)
  mkPattern "i16x16" (mkVty 16 2) "hhhhhhhhllllllll" "hlhlhlhlhlhlhlhl"
      [(0, "llllllllllllllll");
       (1, "hlllllllllllllll");
       (2, "hhllllllllllllll");
       (3, "hhhlllllllllllll");
       (4, "hhhhllllllllllll");
       (5, "hhhhhlllllllllll");
       (6, "hhhhhhllllllllll");
       (7, "hhhhhhhlllllllll");
       (8, "hhhhhhhhllllllll");
       (9, "hhhhhhhhhlllllll");
       (10, "hhhhhhhhhhllllll");
       (11, "hhhhhhhhhhhlllll");
       (12, "hhhhhhhhhhhhllll");
       (13, "hhhhhhhhhhhhhlll");
       (14, "hhhhhhhhhhhhhhll");
       (15, "hhhhhhhhhhhhhhhl");
       (16, "hhhhhhhhhhhhhhhh")]
      65535 0;
  (* src/arch/x86/vec_patterns.rs:904 *)
  mkPattern "i16x8" (mkVty 8 2) "hhhhllll" "hlhlhlhl"
      [(0, "llllllll");
       (1, "hlllllll");
       (2, "hhllllll");
       (3, "hhhlllll");
       (4, "hhhhllll");
       (5, "hhhhhlll");
       (6, "hhhhhhll");
       (7, "hhhhhhhl");
       (8, "hhhhhhhh")]
      65535 0;
  (* src/arch/x86/vec_patterns.rs:961 *)
  mkPattern "u32x16" (mkVty 16 4) "hhhhhhhhllllllll" "hlhlhlhlhlhlhlhl"
      [(0, "llllllllllllllll");
       (1, "hlllllllllllllll");
       (2, "hhllllllllllllll");
       (3, "hhhlllllllllllll");
       (4, "hhhhllllllllllll");
       (5, "hhhhhlllllllllll");
       (6, "hhhhhhllllllllll");
       (7, "hhhhhhhlllllllll");
       (8, "hhhhhhhhllllllll");
       (9, "hhhhhhhhhlllllll");
       (10, "hhhhhhhhhhllllll");
       (11, "hhhhhhhhhhhlllll");
       (12, "hhhhhhhhhhhhllll");
       (13, "hhhhhhhhhhhhhlll");
       (14, "hhhhhhhhhhhhhhll");
       (15, "hhhhhhhhhhhhhhhl");
       (16, "hhhhhhhhhhhhhhhh")]
      4294967295 0;
  (* src/arch/x86/vec_patterns.rs:1026 *)
  mkPattern "u32x8" (mkVty 8 4) "hhhhllll" "hlhlhlhl"
      [(0, "llllllll");
       (1, "hlllllll");
       (2, "hhllllll");
       (3, "hhhlllll");
       (4, "hhhhllll");
       (5, "hhhhhlll");
       (6, "hhhhhhll");
       (7, "hhhhhhhl");
       (8, "hhhhhhhh")]
      4294967295 0;
  (* src/arch/x86/vec_patterns.rs:1083 *)
  mkPattern "u32x4" (mkVty 4 4) "hhll" "hlhl"
      [(0, "llll");
       (1, "hlll");
       (2, "hhll");
       (3, "hhhl");
       (4, "hhhh")]
      4294967295 0;
  (* src/arch/x86/vec_patterns.rs:1136 *)
  mkPattern "i32x16" (mkVty 16 4) "hhhhhhhhllllllll" "hlhlhlhlhlhlhlhl"
      [(0, "llllllllllllllll");
       (1, "hlllllllllllllll");
       (2, "hhllllllllllllll");
       (3, "hhhlllllllllllll");
       (4, "hhhhllllllllllll");
       (5, "hhhhhlllllllllll");
       (6, "hhhhhhllllllllll");
       (7, "hhhhhhhlllllllll");
       (8, "hhhhhhhhllllllll");
       (9, "hhhhhhhhhlllllll");
       (10, "hhhhhhhhhhllllll");
       (11, "hhhhhhhhhhhlllll");
       (12, "hhhhhhhhhhhhllll");
       (13, "hhhhhhhhhhhhhlll");
       (14, "hhhhhhhhhhhhhhll");
       (15, "hhhhhhhhhhhhhhhl");
       (16, "hhhhhhhhhhhhhhhh")]
      4294967295 0;
  (* src/arch/x86/vec_patterns.rs:1201 *)
  mkPattern "i32x8" (mkVty 8 4) "hhhhllll" "hlhlhlhl"
      [(0, "llllllll");
       (1, "hlllllll");
       (2, "hhllllll");
       (3, "hhhlllll");
       (4, "hhhhllll");
       (5, "hhhhhlll");
       (6, "hhhhhhll");
       (7, "hhhhhhhl");
       (8, "hhhhhhhh")]
      4294967295 0;
  (* src/arch/x86/vec_patterns.rs:1258 *)
  mkPattern "i32x4" (mkVty 4 4) "hhll" "hlhl"
      [(0, "llll");
       (1, "hlll");
       (2, "hhll");
       (3, "hhhl");
       (4, "hhhh")]
      4294967295 0;
  (* src/arch/x86/vec_patterns.rs:1311 *)
  mkPattern "f32x16" (mkVty 16 4) "hhhhhhhhllllllll" "hlhlhlhlhlhlhlhl"
      [(0, "llllllllllllllll");
       (1, "hlllllllllllllll");
       (2, "hhllllllllllllll");
       (3, "hhhlllllllllllll");
       (4, "hhhhllllllllllll");
       (5, "hhhhhlllllllllll");
       (6, "hhhhhhllllllllll");
       (7, "hhhhhhhlllllllll");
       (8, "hhhhhhhhllllllll");
       (9, "hhhhhhhhhlllllll");
       (10, "hhhhhhhhhhllllll");
       (11, "hhhhhhhhhhhlllll");
       (12, "hhhhhhhhhhhhllll");
       (13, "hhhhhhhhhhhhhlll");
       (14, "hhhhhhhhhhhhhhll");
       (15, "hhhhhhhhhhhhhhhl");
       (16, "hhhhhhhhhhhhhhhh")]
      4294967295 0;
  (* src/arch/x86/vec_patterns.rs:1376 *)
  mkPattern "f32x8" (mkVty 8 4) "hhhhllll" "hlhlhlhl"
      [(0, "llllllll");
       (1, "hlllllll");
       (2, "hhllllll");
       (3, "hhhlllll");
       (4, "hhhhllll");
       (5, "hhhhhlll");
       (6, "hhhhhhll");
       (7, "hhhhhhhl");
       (8, "hhhhhhhh")]
      4294967295 0;
  (* src/arch/x86/vec_patterns.rs:1433 *)
  mkPattern "f32x4" (mkVty 4 4) "hhll" "hlhl"
      [(0, "llll");
       (1, "hlll");
       (2, "hhll");
       (3, "hhhl");
       (4, "hhhh")]
      4294967295 0;
  (* src/arch/x86/vec_patterns.rs:1486 *)
  mkPattern "u64x8" (mkVty 8 8) "hhhhllll" "hlhlhlhl"
      [(0, "llllllll");
       (1, "hlllllll");
       (2, "hhllllll");
       (3, "hhhlllll");
       (4, "hhhhllll");
       (5, "hhhhhlll");
       (6, "hhhhhhll");
       (7, "hhhhhhhl");
       (8, "hhhhhhhh")]
      18446744073709551615 0;
  (* src/arch/x86/vec_patterns.rs:1543 *)
  mkPattern "u64x4" (mkVty 4 8) "hhll" "hlhl"
      [(0, "llll");
       (1, "hlll");
       (2, "hhll");
       (3, "hhhl");
       (4, "hhhh")]
      18446744073709551615 0;
  (* src/arch/x86/vec_patterns.rs:1596 *)
  mkPattern "u64x2" (mkVty 2 8) "hl" "hl"
      [(0, "ll");
       (1, "hl");
       (2, "hh")]
      18446744073709551615 0;
  (* src/arch/x86/vec_patterns.rs:1647 *)
  mkPattern "i64x8" (mkVty 8 8) "hhhhllll" "hlhlhlhl"
      [(0, "llllllll");
       (1, "hlllllll");
       (2, "hhllllll");
       (3, "hhhlllll");
       (4, "hhhhllll");
       (5, "hhhhhlll");
       (6, "hhhhhhll");
       (7, "hhhhhhhl");
       (8, "hhhhhhhh")]
      18446744073709551615 0;
  (* src/arch/x86/vec_patterns.rs:1704 *)
  mkPattern "i64x4" (mkVty 4 8) "hhll" "hlhl"
      [(0, "llll");
       (1, "hlll");
       (2, "hhll");
       (3, "hhhl");
       (4, "hhhh")]
      18446744073709551615 0;
  (* src/arch/x86/vec_patterns.rs:1757 *)
  mkPattern "i64x2" (mkVty 2 8) "hl" "hl"
      [(0, "ll");
       (1, "hl");
       (2, "hh")]
      18446744073709551615 0;
  (* src/arch/x86/vec_patterns.rs:1808 *)
  mkPattern "f64x8" (mkVty 8 8) "hhhhllll" "hlhlhlhl"
      [(0, "llllllll");
       (1, "hlllllll");
       (2, "hhllllll");
       (3, "hhhlllll");
       (4, "hhhhllll");
       (5, "hhhhhlll");
       (6, "hhhhhhll");
       (7, "hhhhhhhl");
       (8, "hhhhhhhh")]
      18446744073709551615 0;
  (* src/arch/x86/vec_patterns.rs:1865 *)
  mkPattern "f64x4" (mkVty 4 8) "hhll" "hlhl"
      [(0, "llll");
       (1, "hlll");
       (2, "hhll");
       (3, "hhhl");
       (4, "hhhh")]
      18446744073709551615 0;
  (* src/arch/x86/vec_patterns.rs:1918 *)
  mkPattern "f64x2" (mkVty 2 8) "hl" "hl"
      [(0, "ll");
       (1, "hl");
       (2, "hh")]
      18446744073709551615 0].

(** src/arch/unknown/vec_patterns.rs:20-35 [PART_MASK]. *)
Definition unknown_part_mask : list Z := [0; 0; 0; 0; 0; 0; 0; 0; 0; 0; 0; 0; 0; 0; 0; 0; 0; 0; 0; 0; 0; 0; 0; 0; 0; 0; 0; 0; 0; 0; 0; 0; 0; 0; 0; 0; 0; 0; 0; 0; 0; 0; 0; 0; 0; 0; 0; 0; 0; 0; 0; 0; 0; 0; 0; 0; 0; 0; 0; 0; 0; 0; 0; 0; 255; 255; 255; 255; 255; 255; 255; 255; 255; 255; 255; 255; 255; 255; 255; 255; 255; 255; 255; 255; 255; 255; 255; 255; 255; 255; 255; 255; 255; 255; 255; 255; 255; 255; 255; 255; 255; 255; 255; 255; 255; 255; 255; 255; 255; 255; 255; 255; 255; 255; 255; 255; 255; 255; 255; 255; 255; 255; 255; 255; 255; 255; 255; 255].

(** src/arch/unknown/vec_patterns.rs. *)
Definition unknown_patterns : list pattern_impl := [
  (* src/arch/unknown/vec_patterns.rs:37 *)
  mkPattern "u8x16" (mkVty 16 1) "hhhhhhhhllllllll" "hlhlhlhlhlhlhlhl"
      [(0, "llllllllllllllll");
       (1, "hlllllllllllllll");
       (2, "hhllllllllllllll");
       (3, "hhhlllllllllllll");
       (4, "hhhhllllllllllll");
       (5, "hhhhhlllllllllll");
       (6, "hhhhhhllllllllll");
       (7, "hhhhhhhlllllllll");
       (8, "hhhhhhhhllllllll");
       (9, "hhhhhhhhhlllllll");
       (10, "hhhhhhhhhhllllll");
       (11, "hhhhhhhhhhhlllll");
       (12, "hhhhhhhhhhhhllll");
       (13, "hhhhhhhhhhhhhlll");
       (14, "hhhhhhhhhhhhhhll");
       (15, "hhhhhhhhhhhhhhhl");
       (16, "hhhhhhhhhhhhhhhh")]
      255 0;
  (* src/arch/unknown/vec_patterns.rs:102 *)
  mkPattern "i8x16" (mkVty 16 1) "hhhhhhhhllllllll" "hlhlhlhlhlhlhlhl"
      [(0, "llllllllllllllll");
       (1, "hlllllllllllllll");
       (2, "hhllllllllllllll");
       (3, "hhhlllllllllllll");
       (4, "hhhhllllllllllll");
       (5, "hhhhhlllllllllll");
       (6, "hhhhhhllllllllll");
       (7, "hhhhhhhlllllllll");
       (8, "hhhhhhhhllllllll");
       (9, "hhhhhhhhhlllllll");
       (10, "hhhhhhhhhhllllll");
       (11, "hhhhhhhhhhhlllll");
       (12, "hhhhhhhhhhhhllll");
       (13, "hhhhhhhhhhhhhlll");
       (14, "hhhhhhhhhhhhhhll");
       (15, "hhhhhhhhhhhhhhhl");
       (16, "hhhhhhhhhhhhhhhh")]
      255 0;
  (* src/arch/unknown/vec_patterns.rs:167 *)
  mkPattern "u16x8" (mkVty 8 2) "hhhhllll" "hlhlhlhl"
      [(0, "llllllll");
       (1, "hlllllll");
       (2, "hhllllll");
       (3, "hhhlllll");
       (4, "hhhhllll");
       (5, "hhhhhlll");
       (6, "hhhhhhll");
       (7, "hhhhhhhl");
       (8, "hhhhhhhh")]
      65535 0;
  (* src/arch/unknown/vec_patterns.rs:224 *)
  mkPattern "i16x8" (mkVty 8 2) "hhhhllll" "hlhlhlhl"
      [(0, "llllllll");
       (1, "hlllllll");
       (2, "hhllllll");
       (3, "hhhlllll");
       (4, "hhhhllll");
       (5, "hhhhhlll");
       (6, "hhhhhhll");
       (7, "hhhhhhhl");
       (8, "hhhhhhhh")]
      65535 0;
  (* src/arch/unknown/vec_patterns.rs:281 *)
  mkPattern "u32x4" (mkVty 4 4) "hhll" "hlhl"
      [(0, "llll");
       (1, "hlll");
       (2, "hhll");
       (3, "hhhl");
       (4, "hhhh")]
      4294967295 0;
  (* src/arch/unknown/vec_patterns.rs:334 *)
  mkPattern "i32x4" (mkVty 4 4) "hhll" "hlhl"
      [(0, "llll");
       (1, "hlll");
       (2, "hhll");
       (3, "hhhl");
       (4, "hhhh")]
      4294967295 0;
  (* src/arch/unknown/vec_patterns.rs:387 *)
  mkPattern "f32x4" (mkVty 4 4) "hhll" "hlhl"
      [(0, "llll");
       (1, "hlll");
       (2, "hhll");
       (3, "hhhl");
       (4, "hhhh")]
      4294967295 0;
  (* src/arch/unknown/vec_patterns.rs:440 *)
  mkPattern "u64x2" (mkVty 2 8) "hl" "hl"
      [(0, "ll");
       (1, "hl");
       (2, "hh")]
      18446744073709551615 0;
  (* src/arch/unknown/vec_patterns.rs:491 *)
  mkPattern "i64x2" (mkVty 2 8) "hl" "hl"
      [(0, "ll");
       (1, "hl");
       (2, "hh")]
      18446744073709551615 0;
  (* src/arch/unknown/vec_patterns.rs:542 *)
  mkPattern "f64x2" (mkVty 2 8) "hl" "hl"
      [(0, "ll");
       (1, "hl");
       (2, "hh")]
      18446744073709551615 0].

(** src/arch/x86/intrin/merge.rs:12-59. *)
Definition x86_merges : list merge_impl := [
  (* src/arch/x86/intrin/merge.rs:12 *)
  mkMerge "u8x16" (mkVty 16 1) "u8x16" 1 "_mm_blendv_epi8" "sse4.1"
    [0; 1; 2; 3; 4; 5; 6; 7] [8; 9; 10; 11; 12; 13; 14; 15]
    [0; 1; 2; 3; 4; 5; 6; 7; 8; 9; 10; 11; 12; 13; 14; 15];
  (* src/arch/x86/intrin/merge.rs:13 *)
  mkMerge "u8x32" (mkVty 32 1) "u8x32" 1 "_mm256_blendv_epi8" "avx2"
    [0; 1; 2; 3; 4; 5; 6; 7; 8; 9; 10; 11; 12; 13; 14; 15] [16; 17; 18; 19; 20; 21; 22; 23; 24; 25; 26; 27; 28; 29; 30; 31]
    [0; 1; 2; 3; 4; 5; 6; 7; 8; 9; 10; 11; 12; 13; 14; 15; 16; 17; 18; 19; 20; 21; 22; 23; 24; 25; 26; 27; 28; 29; 30; 31];
  (* src/arch/x86/intrin/merge.rs:14 *)
  mkMerge "u8x64" (mkVty 64 1) "u8x64" 1 "_mm512_mask_mov_epi8" "avx512-butnotyet"
    [0; 1; 2; 3; 4; 5; 6; 7; 8; 9; 10; 11; 12; 13; 14; 15; 16; 17; 18; 19; 20; 21; 22; 23; 24; 25; 26; 27; 28; 29; 30; 31] [32; 33; 34; 35; 36; 37; 38; 39; 40; 41; 42; 43; 44; 45; 46; 47; 48; 49; 50; 51; 52; 53; 54; 55; 56; 57; 58; 59; 60; 61; 62; 63]
    [0; 1; 2; 3; 4; 5; 6; 7; 8; 9; 10; 11; 12; 13; 14; 15; 16; 17; 18; 19; 20; 21; 22; 23; 24; 25; 26; 27; 28; 29; 30; 31; 32; 33; 34; 35; 36; 37; 38; 39; 40; 41; 42; 43; 44; 45; 46; 47; 48; 49; 50; 51; 52; 53; 54; 55; 56; 57; 58; 59; 60; 61; 62; 63];
  (* src/arch/x86/intrin/merge.rs:16 *)
  mkMerge "u16x8" (mkVty 8 2) "u16x8" 2 "_mm_blendv_epi8" "sse4.1"
    [0; 1; 2; 3] [4; 5; 6; 7]
    [0; 1; 2; 3; 4; 5; 6; 7];
  (* src/arch/x86/intrin/merge.rs:17 *)
  mkMerge "u16x16" (mkVty 16 2) "u16x16" 2 "_mm256_blendv_epi8" "avx2"
    [0; 1; 2; 3; 4; 5; 6; 7] [8; 9; 10; 11; 12; 13; 14; 15]
    [0; 1; 2; 3; 4; 5; 6; 7; 8; 9; 10; 11; 12; 13; 14; 15];
  (* src/arch/x86/intrin/merge.rs:18 *)
  mkMerge "u16x32" (mkVty 32 2) "u16x32" 2 "_mm512_mask_mov_epi8" "avx512-butnotyet"
    [0; 1; 2; 3; 4; 5; 6; 7; 8; 9; 10; 11; 12; 13; 14; 15] [16; 17; 18; 19; 20; 21; 22; 23; 24; 25; 26; 27; 28; 29; 30; 31]
    [0; 1; 2; 3; 4; 5; 6; 7; 8; 9; 10; 11; 12; 13; 14; 15; 16; 17; 18; 19; 20; 21; 22; 23; 24; 25; 26; 27; 28; 29; 30; 31];
  (* src/arch/x86/intrin/merge.rs:20 *)
  mkMerge "u32x4" (mkVty 4 4) "u32x4" 4 "_mm_blendv_epi8" "sse4.1"
    [0; 1] [2; 3]
    [0; 1; 2; 3];
  (* src/arch/x86/intrin/merge.rs:21 *)
  mkMerge "u32x8" (mkVty 8 4) "u32x8" 4 "_mm256_blendv_epi8" "avx2"
    [0; 1; 2; 3] [4; 5; 6; 7]
    [0; 1; 2; 3; 4; 5; 6; 7];
  (* src/arch/x86/intrin/merge.rs:22 *)
  mkMerge "u32x16" (mkVty 16 4) "u32x16" 4 "_mm512_mask_mov_epi8" "avx512-butnotyet"
    [0; 1; 2; 3; 4; 5; 6; 7] [8; 9; 10; 11; 12; 13; 14; 15]
    [0; 1; 2; 3; 4; 5; 6; 7; 8; 9; 10; 11; 12; 13; 14; 15];
  (* src/arch/x86/intrin/merge.rs:24 *)
  mkMerge "u64x2" (mkVty 2 8) "u64x2" 8 "_mm_blendv_epi8" "sse4.1"
    [0] [1]
    [0; 1];
  (* src/arch/x86/intrin/merge.rs:25 *)
  mkMerge "u64x4" (mkVty 4 8) "u64x4" 8 "_mm256_blendv_epi8" "avx2"
    [0; 1] [2; 3]
    [0; 1; 2; 3];
  (* src/arch/x86/intrin/merge.rs:26 *)
  mkMerge "u64x8" (mkVty 8 8) "u64x8" 8 "_mm512_mask_mov_epi8" "avx512-butnotyet"
    [0; 1; 2; 3] [4; 5; 6; 7]
    [0; 1; 2; 3; 4; 5; 6; 7];
  (* src/arch/x86/intrin/merge.rs:28 *)
  mkMerge "i8x16" (mkVty 16 1) "u8x16" 1 "_mm_blendv_epi8" "sse4.1"
    [0; 1; 2; 3; 4; 5; 6; 7] [8; 9; 10; 11; 12; 13; 14; 15]
    [0; 1; 2; 3; 4; 5; 6; 7; 8; 9; 10; 11; 12; 13; 14; 15];
  (* src/arch/x86/intrin/merge.rs:29 *)
  mkMerge "i8x32" (mkVty 32 1) "u8x32" 1 "_mm256_blendv_epi8" "avx2"
    [0; 1; 2; 3; 4; 5; 6; 7; 8; 9; 10; 11; 12; 13; 14; 15] [16; 17; 18; 19; 20; 21; 22; 23; 24; 25; 26; 27; 28; 29; 30; 31]
    [0; 1; 2; 3; 4; 5; 6; 7; 8; 9; 10; 11; 12; 13; 14; 15; 16; 17; 18; 19; 20; 21; 22; 23; 24; 25; 26; 27; 28; 29; 30; 31];
  (* src/arch/x86/intrin/merge.rs:30 *)
  mkMerge "i8x64" (mkVty 64 1) "u8x64" 1 "_mm512_mask_mov_epi8" "avx512-butnotyet"
    [0; 1; 2; 3; 4; 5; 6; 7; 8; 9; 10; 11; 12; 13; 14; 15; 16; 17; 18; 19; 20; 21; 22; 23; 24; 25; 26; 27; 28; 29; 30; 31] [32; 33; 34; 35; 36; 37; 38; 39; 40; 41; 42; 43; 44; 45; 46; 47; 48; 49; 50; 51; 52; 53; 54; 55; 56; 57; 58; 59; 60; 61; 62; 63]
    [0; 1; 2; 3; 4; 5; 6; 7; 8; 9; 10; 11; 12; 13; 14; 15; 16; 17; 18; 19; 20; 21; 22; 23; 24; 25; 26; 27; 28; 29; 30; 31; 32; 33; 34; 35; 36; 37; 38; 39; 40; 41; 42; 43; 44; 45; 46; 47; 48; 49; 50; 51; 52; 53; 54; 55; 56; 57; 58; 59; 60; 61; 62; 63];
  (* src/arch/x86/intrin/merge.rs:32 *)
  mkMerge "i16x8" (mkVty 8 2) "u16x8" 2 "_mm_blendv_epi8" "sse4.1"
    [0; 1; 2; 3] [4; 5; 6; 7]
    [0; 1; 2; 3; 4; 5; 6; 7];
  (* src/arch/x86/intrin/merge.rs:33 *)
  mkMerge "i16x16" (mkVty 16 2) "u16x16" 2 "_mm256_blendv_epi8" "avx2"
    [0; 1; 2; 3; 4; 5; 6; 7] [8; 9; 10; 11; 12; 13; 14; 15]
    [0; 1; 2; 3; 4; 5; 6; 7; 8; 9; 10; 11; 12; 13; 14; 15];
  (* src/arch/x86/intrin/merge.rs:34 *)
  mkMerge "i16x32" (mkVty 32 2) "u16x32" 2 "_mm512_mask_mov_epi8" "avx512-butnotyet"
    [0; 1; 2; 3; 4; 5; 6; 7; 8; 9; 10; 11; 12; 13; 14; 15] [16; 17; 18; 19; 20; 21; 22; 23; 24; 25; 26; 27; 28; 29; 30; 31]
    [0; 1; 2; 3; 4; 5; 6; 7; 8; 9; 10; 11; 12; 13; 14; 15; 16; 17; 18; 19; 20; 21; 22; 23; 24; 25; 26; 27; 28; 29; 30; 31];
  (* src/arch/x86/intrin/merge.rs:36 *)
  mkMerge "i32x4" (mkVty 4 4) "u32x4" 4 "_mm_blendv_epi8" "sse4.1"
    [0; 1] [2; 3]
    [0; 1; 2; 3];
  (* src/arch/x86/intrin/merge.rs:37 *)
  mkMerge "i32x8" (mkVty 8 4) "u32x8" 4 "_mm256_blendv_epi8" "avx2"
    [0; 1; 2; 3] [4; 5; 6; 7]
    [0; 1; 2; 3; 4; 5; 6; 7];
  (* src/arch/x86/intrin/merge.rs:38 *)
  mkMerge "i32x16" (mkVty 16 4) "u32x16" 4 "_mm512_mask_mov_epi8" "avx512-butnotyet"
    [0; 1; 2; 3; 4; 5; 6; 7] [8; 9; 10; 11; 12; 13; 14; 15]
    [0; 1; 2; 3; 4; 5; 6; 7; 8; 9; 10; 11; 12; 13; 14; 15];
  (* src/arch/x86/intrin/merge.rs:40 *)
  mkMerge "i64x2" (mkVty 2 8) "u64x2" 8 "_mm_blendv_epi8" "sse4.1"
    [0] [1]
    [0; 1];
  (* src/arch/x86/intrin/merge.rs:41 *)
  mkMerge "i64x4" (mkVty 4 8) "u64x4" 8 "_mm256_blendv_epi8" "avx2"
    [0; 1] [2; 3]
    [0; 1; 2; 3];
  (* src/arch/x86/intrin/merge.rs:42 *)
  mkMerge "i64x8" (mkVty 8 8) "u64x8" 8 "_mm512_mask_mov_epi8" "avx512-butnotyet"
    [0; 1; 2; 3] [4; 5; 6; 7]
    [0; 1; 2; 3; 4; 5; 6; 7];
  (* src/arch/x86/intrin/merge.rs:44 *)
  mkMerge "f32x4" (mkVty 4 4) "u32x4" 4 "_mm_blendv_epi8" "sse4.1"
    [0; 1] [2; 3]
    [0; 1; 2; 3];
  (* src/arch/x86/intrin/merge.rs:45 *)
  mkMerge "f32x8" (mkVty 8 4) "u32x8" 4 "_mm256_blendv_epi8" "avx2"
    [0; 1; 2; 3] [4; 5; 6; 7]
    [0; 1; 2; 3; 4; 5; 6; 7];
  (* src/arch/x86/intrin/merge.rs:46 *)
  mkMerge "f32x16" (mkVty 16 4) "u32x16" 4 "_mm512_mask_mov_epi8" "avx512-butnotyet"
    [0; 1; 2; 3; 4; 5; 6; 7] [8; 9; 10; 11; 12; 13; 14; 15]
    [0; 1; 2; 3; 4; 5; 6; 7; 8; 9; 10; 11; 12; 13; 14; 15];
  (* src/arch/x86/intrin/merge.rs:48 *)
  mkMerge "f64x2" (mkVty 2 8) "u64x2" 8 "_mm_blendv_epi8" "sse4.1"
    [0] [1]
    [0; 1];
  (* src/arch/x86/intrin/merge.rs:49 *)
  mkMerge "f64x4" (mkVty 4 8) "u64x4" 8 "_mm256_blendv_epi8" "avx2"
    [0; 1] [2; 3]
    [0; 1; 2; 3];
  (* src/arch/x86/intrin/merge.rs:50 *)
  mkMerge "f64x8" (mkVty 8 8) "u64x8" 8 "_mm512_mask_mov_epi8" "avx512-butnotyet"
    [0; 1; 2; 3] [4; 5; 6; 7]
    [0; 1; 2; 3; 4; 5; 6; 7]].

(** src/arch/unknown/intrin/merge.rs:13-35. *)
Definition unknown_merges : list merge_impl := [
  (* src/arch/unknown/intrin/merge.rs:13 *)
  mkMerge "u8x16" (mkVty 16 1) "u8x16" 1 "__undefined" "__undefined"
    [0; 1; 2; 3; 4; 5; 6; 7] [8; 9; 10; 11; 12; 13; 14; 15]
    [0; 1; 2; 3; 4; 5; 6; 7; 8; 9; 10; 11; 12; 13; 14; 15];
  (* src/arch/unknown/intrin/merge.rs:14 *)
  mkMerge "u16x8" (mkVty 8 2) "u16x8" 2 "__undefined" "__undefined"
    [0; 1; 2; 3] [4; 5; 6; 7]
    [0; 1; 2; 3; 4; 5; 6; 7];
  (* src/arch/unknown/intrin/merge.rs:15 *)
  mkMerge "u32x4" (mkVty 4 4) "u32x4" 4 "__undefined" "__undefined"
    [0; 1] [2; 3]
    [0; 1; 2; 3];
  (* src/arch/unknown/intrin/merge.rs:16 *)
  mkMerge "u64x2" (mkVty 2 8) "u64x2" 8 "__undefined" "__undefined"
    [0] [1]
    [0; 1];
  (* src/arch/unknown/intrin/merge.rs:17 *)
  mkMerge "i8x16" (mkVty 16 1) "u8x16" 1 "__undefined" "__undefined"
    [0; 1; 2; 3; 4; 5; 6; 7] [8; 9; 10; 11; 12; 13; 14; 15]
    [0; 1; 2; 3; 4; 5; 6; 7; 8; 9; 10; 11; 12; 13; 14; 15];
  (* src/arch/unknown/intrin/merge.rs:18 *)
  mkMerge "i16x8" (mkVty 8 2) "u16x8" 2 "__undefined" "__undefined"
    [0; 1; 2; 3] [4; 5; 6; 7]
    [0; 1; 2; 3; 4; 5; 6; 7];
  (* src/arch/unknown/intrin/merge.rs:19 *)
  mkMerge "i32x4" (mkVty 4 4) "u32x4" 4 "__undefined" "__undefined"
    [0; 1] [2; 3]
    [0; 1; 2; 3];
  (* src/arch/unknown/intrin/merge.rs:20 *)
  mkMerge "i64x2" (mkVty 2 8) "u64x2" 8 "__undefined" "__undefined"
    [0] [1]
    [0; 1];
  (* src/arch/unknown/intrin/merge.rs:21 *)
  mkMerge "f32x4" (mkVty 4 4) "u32x4" 4 "__undefined" "__undefined"
    [0; 1] [2; 3]
    [0; 1; 2; 3];
  (* src/arch/unknown/intrin/merge.rs:22 *)
  mkMerge "f64x2" (mkVty 2 8) "u64x2" 8 "__undefined" "__undefined"
    [0] [1]
    [0; 1]].

(** src/arch/x86/intrin/swizzle.rs:8-120. *)
Definition x86_swizzles : list shuffle_impl := [
  (* src/arch/x86/intrin/swizzle.rs:8 *)
  mkShuffle "u8x64" (mkVty 64 1) "u8x64" "_mm512_permutexvar_epi8" "avx512-butnotyet"
    [1; 0; 3; 2; 5; 4; 7; 6; 9; 8; 11; 10; 13; 12; 15; 14; 17; 16; 19; 18; 21; 20; 23; 22; 25; 24; 27; 26; 29; 28; 31; 30; 33; 32; 35; 34; 37; 36; 39; 38; 41; 40; 43; 42; 45; 44; 47; 46; 49; 48; 51; 50; 53; 52; 55; 54; 57; 56; 59; 58; 61; 60; 63; 62]
    [0; 1; 2; 3; 4; 5; 6; 7; 8; 9; 10; 11; 12; 13; 14; 15; 16; 17; 18; 19; 20; 21; 22; 23; 24; 25; 26; 27; 28; 29; 30; 31; 32; 33; 34; 35; 36; 37; 38; 39; 40; 41; 42; 43; 44; 45; 46; 47; 48; 49; 50; 51; 52; 53; 54; 55; 56; 57; 58; 59; 60; 61; 62; 63];
  (* src/arch/x86/intrin/swizzle.rs:11 *)
  mkShuffle "u8x32" (mkVty 32 1) "u8x32" "_mm256_shuffle_epi8" "avx2"
    [1; 0; 3; 2; 5; 4; 7; 6; 9; 8; 11; 10; 13; 12; 15; 14; 17; 16; 19; 18; 21; 20; 23; 22; 25; 24; 27; 26; 29; 28; 31; 30]
    [0; 1; 2; 3; 4; 5; 6; 7; 8; 9; 10; 11; 12; 13; 14; 15; 16; 17; 18; 19; 20; 21; 22; 23; 24; 25; 26; 27; 28; 29; 30; 31];
  (* src/arch/x86/intrin/swizzle.rs:14 *)
  mkShuffle "u8x16" (mkVty 16 1) "u8x16" "_mm_shuffle_epi8" "ssse3"
    [1; 0; 3; 2; 5; 4; 7; 6; 9; 8; 11; 10; 13; 12; 15; 14]
    [0; 1; 2; 3; 4; 5; 6; 7; 8; 9; 10; 11; 12; 13; 14; 15];
  (* src/arch/x86/intrin/swizzle.rs:17 *)
  mkShuffle "i8x64" (mkVty 64 1) "u8x64" "_mm512_permutexvar_epi8" "avx512-butnotyet"
    [1; 0; 3; 2; 5; 4; 7; 6; 9; 8; 11; 10; 13; 12; 15; 14; 17; 16; 19; 18; 21; 20; 23; 22; 25; 24; 27; 26; 29; 28; 31; 30; 33; 32; 35; 34; 37; 36; 39; 38; 41; 40; 43; 42; 45; 44; 47; 46; 49; 48; 51; 50; 53; 52; 55; 54; 57; 56; 59; 58; 61; 60; 63; 62]
    [0; 1; 2; 3; 4; 5; 6; 7; 8; 9; 10; 11; 12; 13; 14; 15; 16; 17; 18; 19; 20; 21; 22; 23; 24; 25; 26; 27; 28; 29; 30; 31; 32; 33; 34; 35; 36; 37; 38; 39; 40; 41; 42; 43; 44; 45; 46; 47; 48; 49; 50; 51; 52; 53; 54; 55; 56; 57; 58; 59; 60; 61; 62; 63];
  (* src/arch/x86/intrin/swizzle.rs:20 *)
  mkShuffle "i8x32" (mkVty 32 1) "u8x32" "_mm256_shuffle_epi8" "avx2"
    [1; 0; 3; 2; 5; 4; 7; 6; 9; 8; 11; 10; 13; 12; 15; 14; 17; 16; 19; 18; 21; 20; 23; 22; 25; 24; 27; 26; 29; 28; 31; 30]
    [0; 1; 2; 3; 4; 5; 6; 7; 8; 9; 10; 11; 12; 13; 14; 15; 16; 17; 18; 19; 20; 21; 22; 23; 24; 25; 26; 27; 28; 29; 30; 31];
  (* src/arch/x86/intrin/swizzle.rs:23 *)
  mkShuffle "i8x16" (mkVty 16 1) "u8x16" "_mm_shuffle_epi8" "ssse3"
    [1; 0; 3; 2; 5; 4; 7; 6; 9; 8; 11; 10; 13; 12; 15; 14]
    [0; 1; 2; 3; 4; 5; 6; 7; 8; 9; 10; 11; 12; 13; 14; 15];
  (* src/arch/x86/intrin/swizzle.rs:26 *)
  mkShuffle "u16x32" (mkVty 32 2) "u8x64" "_mm512_permutexvar_epi8" "avx512-butnotyet"
    [2; 3; 0; 1; 6; 7; 4; 5; 10; 11; 8; 9; 14; 15; 12; 13; 18; 19; 16; 17; 22; 23; 20; 21; 26; 27; 24; 25; 30; 31; 28; 29; 34; 35; 32; 33; 38; 39; 36; 37; 42; 43; 40; 41; 46; 47; 44; 45; 50; 51; 48; 49; 54; 55; 52; 53; 58; 59; 56; 57; 62; 63; 60; 61]
    [0; 1; 2; 3; 4; 5; 6; 7; 8; 9; 10; 11; 12; 13; 14; 15; 16; 17; 18; 19; 20; 21; 22; 23; 24; 25; 26; 27; 28; 29; 30; 31];
  (* src/arch/x86/intrin/swizzle.rs:29 *)
  mkShuffle "u16x16" (mkVty 16 2) "u8x32" "_mm256_shuffle_epi8" "avx2"
    [2; 3; 0; 1; 6; 7; 4; 5; 10; 11; 8; 9; 14; 15; 12; 13; 18; 19; 16; 17; 22; 23; 20; 21; 26; 27; 24; 25; 30; 31; 28; 29]
    [0; 1; 2; 3; 4; 5; 6; 7; 8; 9; 10; 11; 12; 13; 14; 15];
  (* src/arch/x86/intrin/swizzle.rs:32 *)
  mkShuffle "u16x8" (mkVty 8 2) "u8x16" "_mm_shuffle_epi8" "ssse3"
    [2; 3; 0; 1; 6; 7; 4; 5; 10; 11; 8; 9; 14; 15; 12; 13]
    [0; 1; 2; 3; 4; 5; 6; 7];
  (* src/arch/x86/intrin/swizzle.rs:35 *)
  mkShuffle "i16x32" (mkVty 32 2) "u8x64" "_mm512_permutexvar_epi8" "avx512-butnotyet"
    [2; 3; 0; 1; 6; 7; 4; 5; 10; 11; 8; 9; 14; 15; 12; 13; 18; 19; 16; 17; 22; 23; 20; 21; 26; 27; 24; 25; 30; 31; 28; 29; 34; 35; 32; 33; 38; 39; 36; 37; 42; 43; 40; 41; 46; 47; 44; 45; 50; 51; 48; 49; 54; 55; 52; 53; 58; 59; 56; 57; 62; 63; 60; 61]
    [0; 1; 2; 3; 4; 5; 6; 7; 8; 9; 10; 11; 12; 13; 14; 15; 16; 17; 18; 19; 20; 21; 22; 23; 24; 25; 26; 27; 28; 29; 30; 31];
  (* src/arch/x86/intrin/swizzle.rs:38 *)
  mkShuffle "i16x16" (mkVty 16 2) "u8x32" "_mm256_shuffle_epi8" "avx2"
    [2; 3; 0; 1; 6; 7; 4; 5; 10; 11; 8; 9; 14; 15; 12; 13; 18; 19; 16; 17; 22; 23; 20; 21; 26; 27; 24; 25; 30; 31; 28; 29]
    [0; 1; 2; 3; 4; 5; 6; 7; 8; 9; 10; 11; 12; 13; 14; 15];
  (* src/arch/x86/intrin/swizzle.rs:41 *)
  mkShuffle "i16x8" (mkVty 8 2) "u8x16" "_mm_shuffle_epi8" "ssse3"
    [2; 3; 0; 1; 6; 7; 4; 5; 10; 11; 8; 9; 14; 15; 12; 13]
    [0; 1; 2; 3; 4; 5; 6; 7];
  (* src/arch/x86/intrin/swizzle.rs:44 *)
  mkShuffle "u32x16" (mkVty 16 4) "u8x64" "_mm512_permutexvar_epi8" "avx512-butnotyet"
    [4; 5; 6; 7; 0; 1; 2; 3; 12; 13; 14; 15; 8; 9; 10; 11; 20; 21; 22; 23; 16; 17; 18; 19; 28; 29; 30; 31; 24; 25; 26; 27; 36; 37; 38; 39; 32; 33; 34; 35; 44; 45; 46; 47; 40; 41; 42; 43; 52; 53; 54; 55; 48; 49; 50; 51; 60; 61; 62; 63; 56; 57; 58; 59]
    [0; 1; 2; 3; 4; 5; 6; 7; 8; 9; 10; 11; 12; 13; 14; 15];
  (* src/arch/x86/intrin/swizzle.rs:47 *)
  mkShuffle "u32x8" (mkVty 8 4) "u8x32" "_mm256_shuffle_epi8" "avx2"
    [4; 5; 6; 7; 0; 1; 2; 3; 12; 13; 14; 15; 8; 9; 10; 11; 20; 21; 22; 23; 16; 17; 18; 19; 28; 29; 30; 31; 24; 25; 26; 27]
    [0; 1; 2; 3; 4; 5; 6; 7];
  (* src/arch/x86/intrin/swizzle.rs:50 *)
  mkShuffle "u32x4" (mkVty 4 4) "u8x16" "_mm_shuffle_epi8" "ssse3"
    [4; 5; 6; 7; 0; 1; 2; 3; 12; 13; 14; 15; 8; 9; 10; 11]
    [0; 1; 2; 3];
  (* src/arch/x86/intrin/swizzle.rs:53 *)
  mkShuffle "i32x16" (mkVty 16 4) "u8x64" "_mm512_permutexvar_epi8" "avx512-butnotyet"
    [4; 5; 6; 7; 0; 1; 2; 3; 12; 13; 14; 15; 8; 9; 10; 11; 20; 21; 22; 23; 16; 17; 18; 19; 28; 29; 30; 31; 24; 25; 26; 27; 36; 37; 38; 39; 32; 33; 34; 35; 44; 45; 46; 47; 40; 41; 42; 43; 52; 53; 54; 55; 48; 49; 50; 51; 60; 61; 62; 63; 56; 57; 58; 59]
    [0; 1; 2; 3; 4; 5; 6; 7; 8; 9; 10; 11; 12; 13; 14; 15];
  (* src/arch/x86/intrin/swizzle.rs:56 *)
  mkShuffle "i32x8" (mkVty 8 4) "u8x32" "_mm256_shuffle_epi8" "avx2"
    [4; 5; 6; 7; 0; 1; 2; 3; 12; 13; 14; 15; 8; 9; 10; 11; 20; 21; 22; 23; 16; 17; 18; 19; 28; 29; 30; 31; 24; 25; 26; 27]
    [0; 1; 2; 3; 4; 5; 6; 7];
  (* src/arch/x86/intrin/swizzle.rs:59 *)
  mkShuffle "i32x4" (mkVty 4 4) "u8x16" "_mm_shuffle_epi8" "ssse3"
    [4; 5; 6; 7; 0; 1; 2; 3; 12; 13; 14; 15; 8; 9; 10; 11]
    [0; 1; 2; 3];
  (* src/arch/x86/intrin/swizzle.rs:62 *)
  mkShuffle "f32x16" (mkVty 16 4) "u8x64" "_mm512_permutexvar_epi8" "avx512-butnotyet"
    [4; 5; 6; 7; 0; 1; 2; 3; 12; 13; 14; 15; 8; 9; 10; 11; 20; 21; 22; 23; 16; 17; 18; 19; 28; 29; 30; 31; 24; 25; 26; 27; 36; 37; 38; 39; 32; 33; 34; 35; 44; 45; 46; 47; 40; 41; 42; 43; 52; 53; 54; 55; 48; 49; 50; 51; 60; 61; 62; 63; 56; 57; 58; 59]
    [0; 1; 2; 3; 4; 5; 6; 7; 8; 9; 10; 11; 12; 13; 14; 15];
  (* src/arch/x86/intrin/swizzle.rs:65 *)
  mkShuffle "f32x8" (mkVty 8 4) "u8x32" "_mm256_shuffle_epi8" "avx2"
    [4; 5; 6; 7; 0; 1; 2; 3; 12; 13; 14; 15; 8; 9; 10; 11; 20; 21; 22; 23; 16; 17; 18; 19; 28; 29; 30; 31; 24; 25; 26; 27]
    [0; 1; 2; 3; 4; 5; 6; 7];
  (* src/arch/x86/intrin/swizzle.rs:68 *)
  mkShuffle "f32x4" (mkVty 4 4) "u8x16" "_mm_shuffle_epi8" "ssse3"
    [4; 5; 6; 7; 0; 1; 2; 3; 12; 13; 14; 15; 8; 9; 10; 11]
    [0; 1; 2; 3];
  (* src/arch/x86/intrin/swizzle.rs:71 *)
  mkShuffle "u64x8" (mkVty 8 8) "u8x64" "_mm512_permutexvar_epi8" "avx512-butnotyet"
    [8; 9; 10; 11; 12; 13; 14; 15; 0; 1; 2; 3; 4; 5; 6; 7; 24; 25; 26; 27; 28; 29; 30; 31; 16; 17; 18; 19; 20; 21; 22; 23; 40; 41; 42; 43; 44; 45; 46; 47; 32; 33; 34; 35; 36; 37; 38; 39; 56; 57; 58; 59; 60; 61; 62; 63; 48; 49; 50; 51; 52; 53; 54; 55]
    [0; 1; 2; 3; 4; 5; 6; 7];
  (* src/arch/x86/intrin/swizzle.rs:74 *)
  mkShuffle "u64x4" (mkVty 4 8) "u8x32" "_mm256_shuffle_epi8" "avx2"
    [8; 9; 10; 11; 12; 13; 14; 15; 0; 1; 2; 3; 4; 5; 6; 7; 24; 25; 26; 27; 28; 29; 30; 31; 16; 17; 18; 19; 20; 21; 22; 23]
    [0; 1; 2; 3];
  (* src/arch/x86/intrin/swizzle.rs:77 *)
  mkShuffle "u64x2" (mkVty 2 8) "u8x16" "_mm_shuffle_epi8" "ssse3"
    [8; 9; 10; 11; 12; 13; 14; 15; 0; 1; 2; 3; 4; 5; 6; 7]
    [0; 1];
  (* src/arch/x86/intrin/swizzle.rs:80 *)
  mkShuffle "i64x8" (mkVty 8 8) "u8x64" "_mm512_permutexvar_epi8" "avx512-butnotyet"
    [8; 9; 10; 11; 12; 13; 14; 15; 0; 1; 2; 3; 4; 5; 6; 7; 24; 25; 26; 27; 28; 29; 30; 31; 16; 17; 18; 19; 20; 21; 22; 23; 40; 41; 42; 43; 44; 45; 46; 47; 32; 33; 34; 35; 36; 37; 38; 39; 56; 57; 58; 59; 60; 61; 62; 63; 48; 49; 50; 51; 52; 53; 54; 55]
    [0; 1; 2; 3; 4; 5; 6; 7];
  (* src/arch/x86/intrin/swizzle.rs:83 *)
  mkShuffle "i64x4" (mkVty 4 8) "u8x32" "_mm256_shuffle_epi8" "avx2"
    [8; 9; 10; 11; 12; 13; 14; 15; 0; 1; 2; 3; 4; 5; 6; 7; 24; 25; 26; 27; 28; 29; 30; 31; 16; 17; 18; 19; 20; 21; 22; 23]
    [0; 1; 2; 3];
  (* src/arch/x86/intrin/swizzle.rs:86 *)
  mkShuffle "i64x2" (mkVty 2 8) "u8x16" "_mm_shuffle_epi8" "ssse3"
    [8; 9; 10; 11; 12; 13; 14; 15; 0; 1; 2; 3; 4; 5; 6; 7]
    [0; 1];
  (* src/arch/x86/intrin/swizzle.rs:89 *)
  mkShuffle "f64x8" (mkVty 8 8) "u8x64" "_mm512_permutexvar_epi8" "avx512-butnotyet"
    [8; 9; 10; 11; 12; 13; 14; 15; 0; 1; 2; 3; 4; 5; 6; 7; 24; 25; 26; 27; 28; 29; 30; 31; 16; 17; 18; 19; 20; 21; 22; 23; 40; 41; 42; 43; 44; 45; 46; 47; 32; 33; 34; 35; 36; 37; 38; 39; 56; 57; 58; 59; 60; 61; 62; 63; 48; 49; 50; 51; 52; 53; 54; 55]
    [0; 1; 2; 3; 4; 5; 6; 7];
  (* src/arch/x86/intrin/swizzle.rs:92 *)
  mkShuffle "f64x4" (mkVty 4 8) "u8x32" "_mm256_shuffle_epi8" "avx2"
    [8; 9; 10; 11; 12; 13; 14; 15; 0; 1; 2; 3; 4; 5; 6; 7; 24; 25; 26; 27; 28; 29; 30; 31; 16; 17; 18; 19; 20; 21; 22; 23]
    [0; 1; 2; 3];
  (* src/arch/x86/intrin/swizzle.rs:95 *)
  mkShuffle "f64x2" (mkVty 2 8) "u8x16" "_mm_shuffle_epi8" "ssse3"
    [8; 9; 10; 11; 12; 13; 14; 15; 0; 1; 2; 3; 4; 5; 6; 7]
    [0; 1]].

(** src/arch/x86/intrin/endian.rs:9-88. *)
Definition x86_swap_bytes : list shuffle_impl := [
  (* src/arch/x86/intrin/endian.rs:9 *)
  mkShuffle "u8x64" (mkVty 64 1) "u8x64" "_mm512_permutexvar_epi8" "avx512-butnotyet"
    [0; 1; 2; 3; 4; 5; 6; 7; 8; 9; 10; 11; 12; 13; 14; 15; 16; 17; 18; 19; 20; 21; 22; 23; 24; 25; 26; 27; 28; 29; 30; 31; 32; 33; 34; 35; 36; 37; 38; 39; 40; 41; 42; 43; 44; 45; 46; 47; 48; 49; 50; 51; 52; 53; 54; 55; 56; 57; 58; 59; 60; 61; 62; 63]
    [0; 1; 2; 3; 4; 5; 6; 7; 8; 9; 10; 11; 12; 13; 14; 15; 16; 17; 18; 19; 20; 21; 22; 23; 24; 25; 26; 27; 28; 29; 30; 31; 32; 33; 34; 35; 36; 37; 38; 39; 40; 41; 42; 43; 44; 45; 46; 47; 48; 49; 50; 51; 52; 53; 54; 55; 56; 57; 58; 59; 60; 61; 62; 63];
  (* src/arch/x86/intrin/endian.rs:12 *)
  mkShuffle "u8x32" (mkVty 32 1) "u8x32" "_mm256_shuffle_epi8" "avx2"
    [0; 1; 2; 3; 4; 5; 6; 7; 8; 9; 10; 11; 12; 13; 14; 15; 16; 17; 18; 19; 20; 21; 22; 23; 24; 25; 26; 27; 28; 29; 30; 31]
    [0; 1; 2; 3; 4; 5; 6; 7; 8; 9; 10; 11; 12; 13; 14; 15; 16; 17; 18; 19; 20; 21; 22; 23; 24; 25; 26; 27; 28; 29; 30; 31];
  (* src/arch/x86/intrin/endian.rs:15 *)
  mkShuffle "u8x16" (mkVty 16 1) "u8x16" "_mm_shuffle_epi8" "ssse3"
    [0; 1; 2; 3; 4; 5; 6; 7; 8; 9; 10; 11; 12; 13; 14; 15]
    [0; 1; 2; 3; 4; 5; 6; 7; 8; 9; 10; 11; 12; 13; 14; 15];
  (* src/arch/x86/intrin/endian.rs:18 *)
  mkShuffle "i8x64" (mkVty 64 1) "u8x64" "_mm512_permutexvar_epi8" "avx512-butnotyet"
    [0; 1; 2; 3; 4; 5; 6; 7; 8; 9; 10; 11; 12; 13; 14; 15; 16; 17; 18; 19; 20; 21; 22; 23; 24; 25; 26; 27; 28; 29; 30; 31; 32; 33; 34; 35; 36; 37; 38; 39; 40; 41; 42; 43; 44; 45; 46; 47; 48; 49; 50; 51; 52; 53; 54; 55; 56; 57; 58; 59; 60; 61; 62; 63]
    [0; 1; 2; 3; 4; 5; 6; 7; 8; 9; 10; 11; 12; 13; 14; 15; 16; 17; 18; 19; 20; 21; 22; 23; 24; 25; 26; 27; 28; 29; 30; 31; 32; 33; 34; 35; 36; 37; 38; 39; 40; 41; 42; 43; 44; 45; 46; 47; 48; 49; 50; 51; 52; 53; 54; 55; 56; 57; 58; 59; 60; 61; 62; 63];
  (* src/arch/x86/intrin/endian.rs:21 *)
  mkShuffle "i8x32" (mkVty 32 1) "u8x32" "_mm256_shuffle_epi8" "avx2"
    [0; 1; 2; 3; 4; 5; 6; 7; 8; 9; 10; 11; 12; 13; 14; 15; 16; 17; 18; 19; 20; 21; 22; 23; 24; 25; 26; 27; 28; 29; 30; 31]
    [0; 1; 2; 3; 4; 5; 6; 7; 8; 9; 10; 11; 12; 13; 14; 15; 16; 17; 18; 19; 20; 21; 22; 23; 24; 25; 26; 27; 28; 29; 30; 31];
  (* src/arch/x86/intrin/endian.rs:24 *)
  mkShuffle "i8x16" (mkVty 16 1) "u8x16" "_mm_shuffle_epi8" "ssse3"
    [0; 1; 2; 3; 4; 5; 6; 7; 8; 9; 10; 11; 12; 13; 14; 15]
    [0; 1; 2; 3; 4; 5; 6; 7; 8; 9; 10; 11; 12; 13; 14; 15];
  (* src/arch/x86/intrin/endian.rs:27 *)
  mkShuffle "u16x32" (mkVty 32 2) "u8x64" "_mm512_permutexvar_epi8" "avx512-butnotyet"
    [1; 0; 3; 2; 5; 4; 7; 6; 9; 8; 11; 10; 13; 12; 15; 14; 17; 16; 19; 18; 21; 20; 23; 22; 25; 24; 27; 26; 29; 28; 31; 30; 33; 32; 35; 34; 37; 36; 39; 38; 41; 40; 43; 42; 45; 44; 47; 46; 49; 48; 51; 50; 53; 52; 55; 54; 57; 56; 59; 58; 61; 60; 63; 62]
    [0; 1; 2; 3; 4; 5; 6; 7; 8; 9; 10; 11; 12; 13; 14; 15; 16; 17; 18; 19; 20; 21; 22; 23; 24; 25; 26; 27; 28; 29; 30; 31];
  (* src/arch/x86/intrin/endian.rs:30 *)
  mkShuffle "u16x16" (mkVty 16 2) "u8x32" "_mm256_shuffle_epi8" "avx2"
    [1; 0; 3; 2; 5; 4; 7; 6; 9; 8; 11; 10; 13; 12; 15; 14; 17; 16; 19; 18; 21; 20; 23; 22; 25; 24; 27; 26; 29; 28; 31; 30]
    [0; 1; 2; 3; 4; 5; 6; 7; 8; 9; 10; 11; 12; 13; 14; 15];
  (* src/arch/x86/intrin/endian.rs:33 *)
  mkShuffle "u16x8" (mkVty 8 2) "u8x16" "_mm_shuffle_epi8" "ssse3"
    [1; 0; 3; 2; 5; 4; 7; 6; 9; 8; 11; 10; 13; 12; 15; 14]
    [0; 1; 2; 3; 4; 5; 6; 7];
  (* src/arch/x86/intrin/endian.rs:36 *)
  mkShuffle "i16x32" (mkVty 32 2) "u8x64" "_mm512_permutexvar_epi8" "avx512-butnotyet"
    [1; 0; 3; 2; 5; 4; 7; 6; 9; 8; 11; 10; 13; 12; 15; 14; 17; 16; 19; 18; 21; 20; 23; 22; 25; 24; 27; 26; 29; 28; 31; 30; 33; 32; 35; 34; 37; 36; 39; 38; 41; 40; 43; 42; 45; 44; 47; 46; 49; 48; 51; 50; 53; 52; 55; 54; 57; 56; 59; 58; 61; 60; 63; 62]
    [0; 1; 2; 3; 4; 5; 6; 7; 8; 9; 10; 11; 12; 13; 14; 15; 16; 17; 18; 19; 20; 21; 22; 23; 24; 25; 26; 27; 28; 29; 30; 31];
  (* src/arch/x86/intrin/endian.rs:39 *)
  mkShuffle "i16x16" (mkVty 16 2) "u8x32" "_mm256_shuffle_epi8" "avx2"
    [1; 0; 3; 2; 5; 4; 7; 6; 9; 8; 11; 10; 13; 12; 15; 14; 17; 16; 19; 18; 21; 20; 23; 22; 25; 24; 27; 26; 29; 28; 31; 30]
    [0; 1; 2; 3; 4; 5; 6; 7; 8; 9; 10; 11; 12; 13; 14; 15];
  (* src/arch/x86/intrin/endian.rs:42 *)
  mkShuffle "i16x8" (mkVty 8 2) "u8x16" "_mm_shuffle_epi8" "ssse3"
    [1; 0; 3; 2; 5; 4; 7; 6; 9; 8; 11; 10; 13; 12; 15; 14]
    [0; 1; 2; 3; 4; 5; 6; 7];
  (* src/arch/x86/intrin/endian.rs:45 *)
  mkShuffle "u32x16" (mkVty 16 4) "u8x64" "_mm512_permutexvar_epi8" "avx512-butnotyet"
    [3; 2; 1; 0; 7; 6; 5; 4; 11; 10; 9; 8; 15; 14; 13; 12; 19; 18; 17; 16; 23; 22; 21; 20; 27; 26; 25; 24; 31; 30; 29; 28; 35; 34; 33; 32; 39; 38; 37; 36; 43; 42; 41; 40; 47; 46; 45; 44; 51; 50; 49; 48; 55; 54; 53; 52; 59; 58; 57; 56; 63; 62; 61; 60]
    [0; 1; 2; 3; 4; 5; 6; 7; 8; 9; 10; 11; 12; 13; 14; 15];
  (* src/arch/x86/intrin/endian.rs:48 *)
  mkShuffle "u32x8" (mkVty 8 4) "u8x32" "_mm256_shuffle_epi8" "avx2"
    [3; 2; 1; 0; 7; 6; 5; 4; 11; 10; 9; 8; 15; 14; 13; 12; 19; 18; 17; 16; 23; 22; 21; 20; 27; 26; 25; 24; 31; 30; 29; 28]
    [0; 1; 2; 3; 4; 5; 6; 7];
  (* src/arch/x86/intrin/endian.rs:51 *)
  mkShuffle "u32x4" (mkVty 4 4) "u8x16" "_mm_shuffle_epi8" "ssse3"
    [3; 2; 1; 0; 7; 6; 5; 4; 11; 10; 9; 8; 15; 14; 13; 12]
    [0; 1; 2; 3];
  (* src/arch/x86/intrin/endian.rs:54 *)
  mkShuffle "i32x16" (mkVty 16 4) "u8x64" "_mm512_permutexvar_epi8" "avx512-butnotyet"
    [3; 2; 1; 0; 7; 6; 5; 4; 11; 10; 9; 8; 15; 14; 13; 12; 19; 18; 17; 16; 23; 22; 21; 20; 27; 26; 25; 24; 31; 30; 29; 28; 35; 34; 33; 32; 39; 38; 37; 36; 43; 42; 41; 40; 47; 46; 45; 44; 51; 50; 49; 48; 55; 54; 53; 52; 59; 58; 57; 56; 63; 62; 61; 60]
    [0; 1; 2; 3; 4; 5; 6; 7; 8; 9; 10; 11; 12; 13; 14; 15];
  (* src/arch/x86/intrin/endian.rs:57 *)
  mkShuffle "i32x8" (mkVty 8 4) "u8x32" "_mm256_shuffle_epi8" "avx2"
    [3; 2; 1; 0; 7; 6; 5; 4; 11; 10; 9; 8; 15; 14; 13; 12; 19; 18; 17; 16; 23; 22; 21; 20; 27; 26; 25; 24; 31; 30; 29; 28]
    [0; 1; 2; 3; 4; 5; 6; 7];
  (* src/arch/x86/intrin/endian.rs:60 *)
  mkShuffle "i32x4" (mkVty 4 4) "u8x16" "_mm_shuffle_epi8" "ssse3"
    [3; 2; 1; 0; 7; 6; 5; 4; 11; 10; 9; 8; 15; 14; 13; 12]
    [0; 1; 2; 3];
  (* src/arch/x86/intrin/endian.rs:63 *)
  mkShuffle "u64x8" (mkVty 8 8) "u8x64" "_mm512_permutexvar_epi8" "avx512-butnotyet"
    [7; 6; 5; 4; 3; 2; 1; 0; 15; 14; 13; 12; 11; 10; 9; 8; 23; 22; 21; 20; 19; 18; 17; 16; 31; 30; 29; 28; 27; 26; 25; 24; 39; 38; 37; 36; 35; 34; 33; 32; 47; 46; 45; 44; 43; 42; 41; 40; 55; 54; 53; 52; 51; 50; 49; 48; 63; 62; 61; 60; 59; 58; 57; 56]
    [0; 1; 2; 3; 4; 5; 6; 7];
  (* src/arch/x86/intrin/endian.rs:66 *)
  mkShuffle "u64x4" (mkVty 4 8) "u8x32" "_mm256_shuffle_epi8" "avx2"
    [7; 6; 5; 4; 3; 2; 1; 0; 15; 14; 13; 12; 11; 10; 9; 8; 23; 22; 21; 20; 19; 18; 17; 16; 31; 30; 29; 28; 27; 26; 25; 24]
    [0; 1; 2; 3];
  (* src/arch/x86/intrin/endian.rs:69 *)
  mkShuffle "u64x2" (mkVty 2 8) "u8x16" "_mm_shuffle_epi8" "ssse3"
    [7; 6; 5; 4; 3; 2; 1; 0; 15; 14; 13; 12; 11; 10; 9; 8]
    [0; 1];
  (* src/arch/x86/intrin/endian.rs:72 *)
  mkShuffle "i64x8" (mkVty 8 8) "u8x64" "_mm512_permutexvar_epi8" "avx512-butnotyet"
    [7; 6; 5; 4; 3; 2; 1; 0; 15; 14; 13; 12; 11; 10; 9; 8; 23; 22; 21; 20; 19; 18; 17; 16; 31; 30; 29; 28; 27; 26; 25; 24; 39; 38; 37; 36; 35; 34; 33; 32; 47; 46; 45; 44; 43; 42; 41; 40; 55; 54; 53; 52; 51; 50; 49; 48; 63; 62; 61; 60; 59; 58; 57; 56]
    [0; 1; 2; 3; 4; 5; 6; 7];
  (* src/arch/x86/intrin/endian.rs:75 *)
  mkShuffle "i64x4" (mkVty 4 8) "u8x32" "_mm256_shuffle_epi8" "avx2"
    [7; 6; 5; 4; 3; 2; 1; 0; 15; 14; 13; 12; 11; 10; 9; 8; 23; 22; 21; 20; 19; 18; 17; 16; 31; 30; 29; 28; 27; 26; 25; 24]
    [0; 1; 2; 3];
  (* src/arch/x86/intrin/endian.rs:78 *)
  mkShuffle "i64x2" (mkVty 2 8) "u8x16" "_mm_shuffle_epi8" "ssse3"
    [7; 6; 5; 4; 3; 2; 1; 0; 15; 14; 13; 12; 11; 10; 9; 8]
    [0; 1]].

(** src/arch/unknown/intrin/endian.rs:12-45. *)
Definition unknown_swap_bytes : list shuffle_impl := [
  (* src/arch/unknown/intrin/endian.rs:12 *)
  mkShuffle "u8x16" (mkVty 16 1) "u8x16" "__undefined" "__undefined"
    [0; 1; 2; 3; 4; 5; 6; 7; 8; 9; 10; 11; 12; 13; 14; 15]
    [0; 1; 2; 3; 4; 5; 6; 7; 8; 9; 10; 11; 12; 13; 14; 15];
  (* src/arch/unknown/intrin/endian.rs:15 *)
  mkShuffle "i8x16" (mkVty 16 1) "u8x16" "__undefined" "__undefined"
    [0; 1; 2; 3; 4; 5; 6; 7; 8; 9; 10; 11; 12; 13; 14; 15]
    [0; 1; 2; 3; 4; 5; 6; 7; 8; 9; 10; 11; 12; 13; 14; 15];
  (* src/arch/unknown/intrin/endian.rs:18 *)
  mkShuffle "u16x8" (mkVty 8 2) "u8x16" "__undefined" "__undefined"
    [1; 0; 3; 2; 5; 4; 7; 6; 9; 8; 11; 10; 13; 12; 15; 14]
    [0; 1; 2; 3; 4; 5; 6; 7];
  (* src/arch/unknown/intrin/endian.rs:21 *)
  mkShuffle "i16x8" (mkVty 8 2) "u8x16" "__undefined" "__undefined"
    [1; 0; 3; 2; 5; 4; 7; 6; 9; 8; 11; 10; 13; 12; 15; 14]
    [0; 1; 2; 3; 4; 5; 6; 7];
  (* src/arch/unknown/intrin/endian.rs:24 *)
  mkShuffle "u32x4" (mkVty 4 4) "u8x16" "__undefined" "__undefined"
    [3; 2; 1; 0; 7; 6; 5; 4; 11; 10; 9; 8; 15; 14; 13; 12]
    [0; 1; 2; 3];
  (* src/arch/unknown/intrin/endian.rs:27 *)
  mkShuffle "i32x4" (mkVty 4 4) "u8x16" "__undefined" "__undefined"
    [3; 2; 1; 0; 7; 6; 5; 4; 11; 10; 9; 8; 15; 14; 13; 12]
    [0; 1; 2; 3];
  (* src/arch/unknown/intrin/endian.rs:30 *)
  mkShuffle "u64x2" (mkVty 2 8) "u8x16" "__undefined" "__undefined"
    [7; 6; 5; 4; 3; 2; 1; 0; 15; 14; 13; 12; 11; 10; 9; 8]
    [0; 1];
  (* src/arch/unknown/intrin/endian.rs:33 *)
  mkShuffle "i64x2" (mkVty 2 8) "u8x16" "__undefined" "__undefined"
    [7; 6; 5; 4; 3; 2; 1; 0; 15; 14; 13; 12; 11; 10; 9; 8]
    [0; 1]].

