(** Portable lane-by-lane functions of /repo/src/arch, transcribed by
    tools/gen_port.py.  Each entry cites the file and line it was copied from. *)
From Coq Require Import String.
From Verif Require Import Base Lanes OpTables.
Open Scope string_scope.
Open Scope Z_scope.

(** What is applied to a lane, first to last: [.min(n)], [.max(n)], [as T], float
    [.abs()], [.overflowing_abs().0] and [transmute::<A, B>].
    src/arch/x86/intrin/abs.rs, upcast.rs, downcast.rs and the same files of src/arch/unknown/intrin. *)
Inductive pop :=
| PMin (n : Z) | PMax (n : Z) | PAs (e : elty) | PFAbs | POverflowingAbs | PTransmute (a b : ity).

(** A portable function: trait, function, vector it is for, its result vector type, the
    target feature whose absence selects it (empty: always), and for every result
    vector the arguments of its [new]: which operand, which lane, what is applied.
    src/arch/x86/intrin/abs.rs, upcast.rs, downcast.rs and the same files of src/arch/unknown/intrin. *)
Record port_impl := mkPort {
  pt_trait : string; pt_fn : string; pt_vec : string; pt_ty : vty; pt_el : elty;
  pt_outvec : string; pt_outty : vty; pt_out : elty; pt_not : string;
  pt_body : list (list (nat * Z * list pop)) }.

(** One [hop!] invocation: trait, function, vector, the scalar function, the feature
    whose absence selects it, and the index list.
    src/intrin/macros.rs:56-65, src/arch/x86/intrin/hadd.rs:95-132, hsub.rs:94-131, saturating_hadd.rs:35-60, saturating_hsub.rs:35-60. *)
Record hop_impl := mkHop {
  h_trait : string; h_fn : string; h_vec : string; h_ty : vty; h_el : elty;
  h_op : string; h_not : string; h_idx : list Z }.

(** A [Destride] impl: the indices given to [destride_two_polyfill!] (used when the
    feature is absent) and to [destride_four_polyfill!].
    src/intrin/destride.rs:16-44, src/arch/x86/intrin/destride.rs:13-156. *)
Record destride_impl := mkDestride {
  d_vec : string; d_ty : vty; d_el : elty; d_not : string; d_two : list Z; d_four : list Z }.

(** The [impl_destride!] macro (src/arch/x86/intrin/destride.rs:130-146): its
    arguments are read in pairs [$two, $four]; all of them go to the first polyfill,
    the [$two]s to the second. *)
Fixpoint firsts (l : list Z) : list Z :=
  match l with x :: _ :: l' => x :: firsts l' | _ => [] end.
(** src/arch/x86/intrin/destride.rs:130-146, src/arch/unknown/intrin/destride.rs:59-73 [impl_destride!]. *)
Definition destride_macro (v : string) (t : vty) (e : elty) (l : list Z) : destride_impl :=
  mkDestride v t e "" l (firsts l).

(** src/arch/x86/intrin/abs.rs *)
Definition x86_abs : list port_impl := [
  (* src/arch/x86/intrin/abs.rs:28 *)
  mkPort "Abs" "abs" "f32x4" (mkVty 4 4) EF32 "f32x4" (mkVty 4 4) EF32 "sse"
    [[(0%nat, 0, [PFAbs]); (0%nat, 1, [PFAbs]); (0%nat, 2, [PFAbs]); (0%nat, 3, [PFAbs])]];
  (* src/arch/x86/intrin/abs.rs:49 *)
  mkPort "Abs" "abs" "f64x2" (mkVty 2 8) EF64 "f64x2" (mkVty 2 8) EF64 "sse2"
    [[(0%nat, 0, [PFAbs]); (0%nat, 1, [PFAbs])]];
  (* src/arch/x86/intrin/abs.rs:68 *)
  mkPort "Abs" "abs" "f32x8" (mkVty 8 4) EF32 "f32x8" (mkVty 8 4) EF32 "avx"
    [[(0%nat, 0, [PFAbs]); (0%nat, 1, [PFAbs]); (0%nat, 2, [PFAbs]); (0%nat, 3, [PFAbs]); (0%nat, 4, [PFAbs]); (0%nat, 5, [PFAbs]); (0%nat, 6, [PFAbs]); (0%nat, 7, [PFAbs])]];
  (* src/arch/x86/intrin/abs.rs:93 *)
  mkPort "Abs" "abs" "f64x4" (mkVty 4 8) EF64 "f64x4" (mkVty 4 8) EF64 "avx"
    [[(0%nat, 0, [PFAbs]); (0%nat, 1, [PFAbs]); (0%nat, 2, [PFAbs]); (0%nat, 3, [PFAbs])]];
  (* src/arch/x86/intrin/abs.rs:114 *)
  mkPort "Abs" "abs" "i8x16" (mkVty 16 1) (EInt i8) "u8x16" (mkVty 16 1) (EInt u8) "ssse3"
    [[(0%nat, 0, [POverflowingAbs; PTransmute i8 u8]); (0%nat, 1, [POverflowingAbs; PTransmute i8 u8]); (0%nat, 2, [POverflowingAbs; PTransmute i8 u8]); (0%nat, 3, [POverflowingAbs; PTransmute i8 u8]); (0%nat, 4, [POverflowingAbs; PTransmute i8 u8]); (0%nat, 5, [POverflowingAbs; PTransmute i8 u8]); (0%nat, 6, [POverflowingAbs; PTransmute i8 u8]); (0%nat, 7, [POverflowingAbs; PTransmute i8 u8]); (0%nat, 8, [POverflowingAbs; PTransmute i8 u8]); (0%nat, 9, [POverflowingAbs; PTransmute i8 u8]); (0%nat, 10, [POverflowingAbs; PTransmute i8 u8]); (0%nat, 11, [POverflowingAbs; PTransmute i8 u8]); (0%nat, 12, [POverflowingAbs; PTransmute i8 u8]); (0%nat, 13, [POverflowingAbs; PTransmute i8 u8]); (0%nat, 14, [POverflowingAbs; PTransmute i8 u8]); (0%nat, 15, [POverflowingAbs; PTransmute i8 u8])]];
  (* src/arch/x86/intrin/abs.rs:147 *)
  mkPort "Abs" "abs" "i16x8" (mkVty 8 2) (EInt i16) "u16x8" (mkVty 8 2) (EInt u16) "ssse3"
    [[(0%nat, 0, [POverflowingAbs; PTransmute i16 u16]); (0%nat, 1, [POverflowingAbs; PTransmute i16 u16]); (0%nat, 2, [POverflowingAbs; PTransmute i16 u16]); (0%nat, 3, [POverflowingAbs; PTransmute i16 u16]); (0%nat, 4, [POverflowingAbs; PTransmute i16 u16]); (0%nat, 5, [POverflowingAbs; PTransmute i16 u16]); (0%nat, 6, [POverflowingAbs; PTransmute i16 u16]); (0%nat, 7, [POverflowingAbs; PTransmute i16 u16])]];
  (* src/arch/x86/intrin/abs.rs:172 *)
  mkPort "Abs" "abs" "i32x4" (mkVty 4 4) (EInt i32) "u32x4" (mkVty 4 4) (EInt u32) "ssse3"
    [[(0%nat, 0, [POverflowingAbs; PTransmute i32 u32]); (0%nat, 1, [POverflowingAbs; PTransmute i32 u32]); (0%nat, 2, [POverflowingAbs; PTransmute i32 u32]); (0%nat, 3, [POverflowingAbs; PTransmute i32 u32])]];
  (* src/arch/x86/intrin/abs.rs:193 *)
  mkPort "Abs" "abs" "i8x32" (mkVty 32 1) (EInt i8) "u8x32" (mkVty 32 1) (EInt u8) "avx2"
    [[(0%nat, 0, [POverflowingAbs; PTransmute i8 u8]); (0%nat, 1, [POverflowingAbs; PTransmute i8 u8]); (0%nat, 2, [POverflowingAbs; PTransmute i8 u8]); (0%nat, 3, [POverflowingAbs; PTransmute i8 u8]); (0%nat, 4, [POverflowingAbs; PTransmute i8 u8]); (0%nat, 5, [POverflowingAbs; PTransmute i8 u8]); (0%nat, 6, [POverflowingAbs; PTransmute i8 u8]); (0%nat, 7, [POverflowingAbs; PTransmute i8 u8]); (0%nat, 8, [POverflowingAbs; PTransmute i8 u8]); (0%nat, 9, [POverflowingAbs; PTransmute i8 u8]); (0%nat, 10, [POverflowingAbs; PTransmute i8 u8]); (0%nat, 11, [POverflowingAbs; PTransmute i8 u8]); (0%nat, 12, [POverflowingAbs; PTransmute i8 u8]); (0%nat, 13, [POverflowingAbs; PTransmute i8 u8]); (0%nat, 14, [POverflowingAbs; PTransmute i8 u8]); (0%nat, 15, [POverflowingAbs; PTransmute i8 u8]); (0%nat, 16, [POverflowingAbs; PTransmute i8 u8]); (0%nat, 17, [POverflowingAbs; PTransmute i8 u8]); (0%nat, 18, [POverflowingAbs; PTransmute i8 u8]); (0%nat, 19, [POverflowingAbs; PTransmute i8 u8]); (0%nat, 20, [POverflowingAbs; PTransmute i8 u8]); (0%nat, 21, [POverflowingAbs; PTransmute i8 u8]); (0%nat, 22, [POverflowingAbs; PTransmute i8 u8]); (0%nat, 23, [POverflowingAbs; PTransmute i8 u8]); (0%nat, 24, [POverflowingAbs; PTransmute i8 u8]); (0%nat, 25, [POverflowingAbs; PTransmute i8 u8]); (0%nat, 26, [POverflowingAbs; PTransmute i8 u8]); (0%nat, 27, [POverflowingAbs; PTransmute i8 u8]); (0%nat, 28, [POverflowingAbs; PTransmute i8 u8]); (0%nat, 29, [POverflowingAbs; PTransmute i8 u8]); (0%nat, 30, [POverflowingAbs; PTransmute i8 u8]); (0%nat, 31, [POverflowingAbs; PTransmute i8 u8])]];
  (* src/arch/x86/intrin/abs.rs:241 *)
  mkPort "Abs" "abs" "i16x16" (mkVty 16 2) (EInt i16) "u16x16" (mkVty 16 2) (EInt u16) "avx2"
    [[(0%nat, 0, [POverflowingAbs; PTransmute i16 u16]); (0%nat, 1, [POverflowingAbs; PTransmute i16 u16]); (0%nat, 2, [POverflowingAbs; PTransmute i16 u16]); (0%nat, 3, [POverflowingAbs; PTransmute i16 u16]); (0%nat, 4, [POverflowingAbs; PTransmute i16 u16]); (0%nat, 5, [POverflowingAbs; PTransmute i16 u16]); (0%nat, 6, [POverflowingAbs; PTransmute i16 u16]); (0%nat, 7, [POverflowingAbs; PTransmute i16 u16]); (0%nat, 8, [POverflowingAbs; PTransmute i16 u16]); (0%nat, 9, [POverflowingAbs; PTransmute i16 u16]); (0%nat, 10, [POverflowingAbs; PTransmute i16 u16]); (0%nat, 11, [POverflowingAbs; PTransmute i16 u16]); (0%nat, 12, [POverflowingAbs; PTransmute i16 u16]); (0%nat, 13, [POverflowingAbs; PTransmute i16 u16]); (0%nat, 14, [POverflowingAbs; PTransmute i16 u16]); (0%nat, 15, [POverflowingAbs; PTransmute i16 u16])]];
  (* src/arch/x86/intrin/abs.rs:273 *)
  mkPort "Abs" "abs" "i32x8" (mkVty 8 4) (EInt i32) "u32x8" (mkVty 8 4) (EInt u32) "avx2"
    [[(0%nat, 0, [POverflowingAbs; PTransmute i32 u32]); (0%nat, 1, [POverflowingAbs; PTransmute i32 u32]); (0%nat, 2, [POverflowingAbs; PTransmute i32 u32]); (0%nat, 3, [POverflowingAbs; PTransmute i32 u32]); (0%nat, 4, [POverflowingAbs; PTransmute i32 u32]); (0%nat, 5, [POverflowingAbs; PTransmute i32 u32]); (0%nat, 6, [POverflowingAbs; PTransmute i32 u32]); (0%nat, 7, [POverflowingAbs; PTransmute i32 u32])]];
  (* src/arch/x86/intrin/abs.rs:290 *)
  mkPort "Abs" "abs" "i64x2" (mkVty 2 8) (EInt i64) "u64x2" (mkVty 2 8) (EInt u64) ""
    [[(0%nat, 0, [POverflowingAbs; PTransmute i64 u64]); (0%nat, 1, [POverflowingAbs; PTransmute i64 u64])]];
  (* src/arch/x86/intrin/abs.rs:301 *)
  mkPort "Abs" "abs" "i64x4" (mkVty 4 8) (EInt i64) "u64x4" (mkVty 4 8) (EInt u64) ""
    [[(0%nat, 0, [POverflowingAbs; PTransmute i64 u64]); (0%nat, 1, [POverflowingAbs; PTransmute i64 u64]); (0%nat, 2, [POverflowingAbs; PTransmute i64 u64]); (0%nat, 3, [POverflowingAbs; PTransmute i64 u64])]];
  (* src/arch/x86/intrin/abs.rs:314 *)
  mkPort "Abs" "abs" "i64x8" (mkVty 8 8) (EInt i64) "u64x8" (mkVty 8 8) (EInt u64) ""
    [[(0%nat, 0, [POverflowingAbs; PTransmute i64 u64]); (0%nat, 1, [POverflowingAbs; PTransmute i64 u64]); (0%nat, 2, [POverflowingAbs; PTransmute i64 u64]); (0%nat, 3, [POverflowingAbs; PTransmute i64 u64]); (0%nat, 4, [POverflowingAbs; PTransmute i64 u64]); (0%nat, 5, [POverflowingAbs; PTransmute i64 u64]); (0%nat, 6, [POverflowingAbs; PTransmute i64 u64]); (0%nat, 7, [POverflowingAbs; PTransmute i64 u64])]]].

(** src/arch/x86/intrin/upcast.rs *)
Definition x86_upcast : list port_impl := [
  (* src/arch/x86/intrin/upcast.rs:30 *)
  mkPort "Upcast" "upcast" "u8x16" (mkVty 16 1) (EInt u8) "u16x8" (mkVty 8 2) (EInt u16) "sse4.1"
    [[(0%nat, 0, [PAs (EInt u16)]); (0%nat, 1, [PAs (EInt u16)]); (0%nat, 2, [PAs (EInt u16)]); (0%nat, 3, [PAs (EInt u16)]); (0%nat, 4, [PAs (EInt u16)]); (0%nat, 5, [PAs (EInt u16)]); (0%nat, 6, [PAs (EInt u16)]); (0%nat, 7, [PAs (EInt u16)])];
     [(0%nat, 8, [PAs (EInt u16)]); (0%nat, 9, [PAs (EInt u16)]); (0%nat, 10, [PAs (EInt u16)]); (0%nat, 11, [PAs (EInt u16)]); (0%nat, 12, [PAs (EInt u16)]); (0%nat, 13, [PAs (EInt u16)]); (0%nat, 14, [PAs (EInt u16)]); (0%nat, 15, [PAs (EInt u16)])]];
  (* src/arch/x86/intrin/upcast.rs:65 *)
  mkPort "Upcast" "upcast" "i8x16" (mkVty 16 1) (EInt i8) "i16x8" (mkVty 8 2) (EInt i16) "sse4.1"
    [[(0%nat, 0, [PAs (EInt i16)]); (0%nat, 1, [PAs (EInt i16)]); (0%nat, 2, [PAs (EInt i16)]); (0%nat, 3, [PAs (EInt i16)]); (0%nat, 4, [PAs (EInt i16)]); (0%nat, 5, [PAs (EInt i16)]); (0%nat, 6, [PAs (EInt i16)]); (0%nat, 7, [PAs (EInt i16)])];
     [(0%nat, 8, [PAs (EInt i16)]); (0%nat, 9, [PAs (EInt i16)]); (0%nat, 10, [PAs (EInt i16)]); (0%nat, 11, [PAs (EInt i16)]); (0%nat, 12, [PAs (EInt i16)]); (0%nat, 13, [PAs (EInt i16)]); (0%nat, 14, [PAs (EInt i16)]); (0%nat, 15, [PAs (EInt i16)])]];
  (* src/arch/x86/intrin/upcast.rs:99 *)
  mkPort "Upcast" "upcast" "u16x8" (mkVty 8 2) (EInt u16) "u32x4" (mkVty 4 4) (EInt u32) "sse4.1"
    [[(0%nat, 0, [PAs (EInt u32)]); (0%nat, 1, [PAs (EInt u32)]); (0%nat, 2, [PAs (EInt u32)]); (0%nat, 3, [PAs (EInt u32)])];
     [(0%nat, 4, [PAs (EInt u32)]); (0%nat, 5, [PAs (EInt u32)]); (0%nat, 6, [PAs (EInt u32)]); (0%nat, 7, [PAs (EInt u32)])]];
  (* src/arch/x86/intrin/upcast.rs:125 *)
  mkPort "Upcast" "upcast" "i16x8" (mkVty 8 2) (EInt i16) "i32x4" (mkVty 4 4) (EInt i32) "sse4.1"
    [[(0%nat, 0, [PAs (EInt i32)]); (0%nat, 1, [PAs (EInt i32)]); (0%nat, 2, [PAs (EInt i32)]); (0%nat, 3, [PAs (EInt i32)])];
     [(0%nat, 4, [PAs (EInt i32)]); (0%nat, 5, [PAs (EInt i32)]); (0%nat, 6, [PAs (EInt i32)]); (0%nat, 7, [PAs (EInt i32)])]];
  (* src/arch/x86/intrin/upcast.rs:151 *)
  mkPort "Upcast" "upcast" "u8x32" (mkVty 32 1) (EInt u8) "u16x16" (mkVty 16 2) (EInt u16) "avx2"
    [[(0%nat, 0, [PAs (EInt u16)]); (0%nat, 1, [PAs (EInt u16)]); (0%nat, 2, [PAs (EInt u16)]); (0%nat, 3, [PAs (EInt u16)]); (0%nat, 4, [PAs (EInt u16)]); (0%nat, 5, [PAs (EInt u16)]); (0%nat, 6, [PAs (EInt u16)]); (0%nat, 7, [PAs (EInt u16)]); (0%nat, 8, [PAs (EInt u16)]); (0%nat, 9, [PAs (EInt u16)]); (0%nat, 10, [PAs (EInt u16)]); (0%nat, 11, [PAs (EInt u16)]); (0%nat, 12, [PAs (EInt u16)]); (0%nat, 13, [PAs (EInt u16)]); (0%nat, 14, [PAs (EInt u16)]); (0%nat, 15, [PAs (EInt u16)])];
     [(0%nat, 16, [PAs (EInt u16)]); (0%nat, 17, [PAs (EInt u16)]); (0%nat, 18, [PAs (EInt u16)]); (0%nat, 19, [PAs (EInt u16)]); (0%nat, 20, [PAs (EInt u16)]); (0%nat, 21, [PAs (EInt u16)]); (0%nat, 22, [PAs (EInt u16)]); (0%nat, 23, [PAs (EInt u16)]); (0%nat, 24, [PAs (EInt u16)]); (0%nat, 25, [PAs (EInt u16)]); (0%nat, 26, [PAs (EInt u16)]); (0%nat, 27, [PAs (EInt u16)]); (0%nat, 28, [PAs (EInt u16)]); (0%nat, 29, [PAs (EInt u16)]); (0%nat, 30, [PAs (EInt u16)]); (0%nat, 31, [PAs (EInt u16)])]];
  (* src/arch/x86/intrin/upcast.rs:208 *)
  mkPort "Upcast" "upcast" "i8x32" (mkVty 32 1) (EInt i8) "i16x16" (mkVty 16 2) (EInt i16) "avx2"
    [[(0%nat, 0, [PAs (EInt i16)]); (0%nat, 1, [PAs (EInt i16)]); (0%nat, 2, [PAs (EInt i16)]); (0%nat, 3, [PAs (EInt i16)]); (0%nat, 4, [PAs (EInt i16)]); (0%nat, 5, [PAs (EInt i16)]); (0%nat, 6, [PAs (EInt i16)]); (0%nat, 7, [PAs (EInt i16)]); (0%nat, 8, [PAs (EInt i16)]); (0%nat, 9, [PAs (EInt i16)]); (0%nat, 10, [PAs (EInt i16)]); (0%nat, 11, [PAs (EInt i16)]); (0%nat, 12, [PAs (EInt i16)]); (0%nat, 13, [PAs (EInt i16)]); (0%nat, 14, [PAs (EInt i16)]); (0%nat, 15, [PAs (EInt i16)])];
     [(0%nat, 16, [PAs (EInt i16)]); (0%nat, 17, [PAs (EInt i16)]); (0%nat, 18, [PAs (EInt i16)]); (0%nat, 19, [PAs (EInt i16)]); (0%nat, 20, [PAs (EInt i16)]); (0%nat, 21, [PAs (EInt i16)]); (0%nat, 22, [PAs (EInt i16)]); (0%nat, 23, [PAs (EInt i16)]); (0%nat, 24, [PAs (EInt i16)]); (0%nat, 25, [PAs (EInt i16)]); (0%nat, 26, [PAs (EInt i16)]); (0%nat, 27, [PAs (EInt i16)]); (0%nat, 28, [PAs (EInt i16)]); (0%nat, 29, [PAs (EInt i16)]); (0%nat, 30, [PAs (EInt i16)]); (0%nat, 31, [PAs (EInt i16)])]];
  (* src/arch/x86/intrin/upcast.rs:258 *)
  mkPort "Upcast" "upcast" "u16x16" (mkVty 16 2) (EInt u16) "u32x8" (mkVty 8 4) (EInt u32) "avx2"
    [[(0%nat, 0, [PAs (EInt u32)]); (0%nat, 1, [PAs (EInt u32)]); (0%nat, 2, [PAs (EInt u32)]); (0%nat, 3, [PAs (EInt u32)]); (0%nat, 4, [PAs (EInt u32)]); (0%nat, 5, [PAs (EInt u32)]); (0%nat, 6, [PAs (EInt u32)]); (0%nat, 7, [PAs (EInt u32)])];
     [(0%nat, 8, [PAs (EInt u32)]); (0%nat, 9, [PAs (EInt u32)]); (0%nat, 10, [PAs (EInt u32)]); (0%nat, 11, [PAs (EInt u32)]); (0%nat, 12, [PAs (EInt u32)]); (0%nat, 13, [PAs (EInt u32)]); (0%nat, 14, [PAs (EInt u32)]); (0%nat, 15, [PAs (EInt u32)])]];
  (* src/arch/x86/intrin/upcast.rs:300 *)
  mkPort "Upcast" "upcast" "i16x16" (mkVty 16 2) (EInt i16) "i32x8" (mkVty 8 4) (EInt i32) "avx2"
    [[(0%nat, 0, [PAs (EInt i32)]); (0%nat, 1, [PAs (EInt i32)]); (0%nat, 2, [PAs (EInt i32)]); (0%nat, 3, [PAs (EInt i32)]); (0%nat, 4, [PAs (EInt i32)]); (0%nat, 5, [PAs (EInt i32)]); (0%nat, 6, [PAs (EInt i32)]); (0%nat, 7, [PAs (EInt i32)])];
     [(0%nat, 8, [PAs (EInt i32)]); (0%nat, 9, [PAs (EInt i32)]); (0%nat, 10, [PAs (EInt i32)]); (0%nat, 11, [PAs (EInt i32)]); (0%nat, 12, [PAs (EInt i32)]); (0%nat, 13, [PAs (EInt i32)]); (0%nat, 14, [PAs (EInt i32)]); (0%nat, 15, [PAs (EInt i32)])]];
  (* src/arch/x86/intrin/upcast.rs:332 *)
  mkPort "Upcast" "upcast" "f32x4" (mkVty 4 4) EF32 "f64x2" (mkVty 2 8) EF64 "sse2"
    [[(0%nat, 0, [PAs EF64]); (0%nat, 1, [PAs EF64])];
     [(0%nat, 2, [PAs EF64]); (0%nat, 3, [PAs EF64])]];
  (* src/arch/x86/intrin/upcast.rs:351 *)
  mkPort "Upcast" "upcast" "i32x4" (mkVty 4 4) (EInt i32) "f64x2" (mkVty 2 8) EF64 "sse2"
    [[(0%nat, 0, [PAs EF64]); (0%nat, 1, [PAs EF64])];
     [(0%nat, 2, [PAs EF64]); (0%nat, 3, [PAs EF64])]];
  (* src/arch/x86/intrin/upcast.rs:373 *)
  mkPort "Upcast" "upcast" "i32x4" (mkVty 4 4) (EInt i32) "i64x2" (mkVty 2 8) (EInt i64) "sse4.1"
    [[(0%nat, 0, [PAs (EInt i64)]); (0%nat, 1, [PAs (EInt i64)])];
     [(0%nat, 2, [PAs (EInt i64)]); (0%nat, 3, [PAs (EInt i64)])]];
  (* src/arch/x86/intrin/upcast.rs:394 *)
  mkPort "Upcast" "upcast" "u32x4" (mkVty 4 4) (EInt u32) "u64x2" (mkVty 2 8) (EInt u64) "sse4.1"
    [[(0%nat, 0, [PAs (EInt u64)]); (0%nat, 1, [PAs (EInt u64)])];
     [(0%nat, 2, [PAs (EInt u64)]); (0%nat, 3, [PAs (EInt u64)])]];
  (* src/arch/x86/intrin/upcast.rs:424 *)
  mkPort "Upcast" "upcast" "f32x8" (mkVty 8 4) EF32 "f64x4" (mkVty 4 8) EF64 "avx2"
    [[(0%nat, 0, [PAs EF64]); (0%nat, 1, [PAs EF64]); (0%nat, 2, [PAs EF64]); (0%nat, 3, [PAs EF64])];
     [(0%nat, 4, [PAs EF64]); (0%nat, 5, [PAs EF64]); (0%nat, 6, [PAs EF64]); (0%nat, 7, [PAs EF64])]];
  (* src/arch/x86/intrin/upcast.rs:457 *)
  mkPort "Upcast" "upcast" "i32x8" (mkVty 8 4) (EInt i32) "f64x4" (mkVty 4 8) EF64 "avx2"
    [[(0%nat, 0, [PAs EF64]); (0%nat, 1, [PAs EF64]); (0%nat, 2, [PAs EF64]); (0%nat, 3, [PAs EF64])];
     [(0%nat, 4, [PAs EF64]); (0%nat, 5, [PAs EF64]); (0%nat, 6, [PAs EF64]); (0%nat, 7, [PAs EF64])]];
  (* src/arch/x86/intrin/upcast.rs:490 *)
  mkPort "Upcast" "upcast" "i32x8" (mkVty 8 4) (EInt i32) "i64x4" (mkVty 4 8) (EInt i64) "avx2"
    [[(0%nat, 0, [PAs (EInt i64)]); (0%nat, 1, [PAs (EInt i64)]); (0%nat, 2, [PAs (EInt i64)]); (0%nat, 3, [PAs (EInt i64)])];
     [(0%nat, 4, [PAs (EInt i64)]); (0%nat, 5, [PAs (EInt i64)]); (0%nat, 6, [PAs (EInt i64)]); (0%nat, 7, [PAs (EInt i64)])]];
  (* src/arch/x86/intrin/upcast.rs:515 *)
  mkPort "Upcast" "upcast" "u32x8" (mkVty 8 4) (EInt u32) "u64x4" (mkVty 4 8) (EInt u64) "avx2"
    [[(0%nat, 0, [PAs (EInt u64)]); (0%nat, 1, [PAs (EInt u64)]); (0%nat, 2, [PAs (EInt u64)]); (0%nat, 3, [PAs (EInt u64)])];
     [(0%nat, 4, [PAs (EInt u64)]); (0%nat, 5, [PAs (EInt u64)]); (0%nat, 6, [PAs (EInt u64)]); (0%nat, 7, [PAs (EInt u64)])]];
  (* src/arch/x86/intrin/upcast.rs:530 *)
  mkPort "Upcast" "upcast" "f32x16" (mkVty 16 4) EF32 "f64x8" (mkVty 8 8) EF64 ""
    [[(0%nat, 0, [PAs EF64]); (0%nat, 1, [PAs EF64]); (0%nat, 2, [PAs EF64]); (0%nat, 3, [PAs EF64]); (0%nat, 4, [PAs EF64]); (0%nat, 5, [PAs EF64]); (0%nat, 6, [PAs EF64]); (0%nat, 7, [PAs EF64])];
     [(0%nat, 8, [PAs EF64]); (0%nat, 9, [PAs EF64]); (0%nat, 10, [PAs EF64]); (0%nat, 11, [PAs EF64]); (0%nat, 12, [PAs EF64]); (0%nat, 13, [PAs EF64]); (0%nat, 14, [PAs EF64]); (0%nat, 15, [PAs EF64])]];
  (* src/arch/x86/intrin/upcast.rs:553 *)
  mkPort "Upcast" "upcast" "i32x16" (mkVty 16 4) (EInt i32) "f64x8" (mkVty 8 8) EF64 ""
    [[(0%nat, 0, [PAs EF64]); (0%nat, 1, [PAs EF64]); (0%nat, 2, [PAs EF64]); (0%nat, 3, [PAs EF64]); (0%nat, 4, [PAs EF64]); (0%nat, 5, [PAs EF64]); (0%nat, 6, [PAs EF64]); (0%nat, 7, [PAs EF64])];
     [(0%nat, 8, [PAs EF64]); (0%nat, 9, [PAs EF64]); (0%nat, 10, [PAs EF64]); (0%nat, 11, [PAs EF64]); (0%nat, 12, [PAs EF64]); (0%nat, 13, [PAs EF64]); (0%nat, 14, [PAs EF64]); (0%nat, 15, [PAs EF64])]];
  (* src/arch/x86/intrin/upcast.rs:576 *)
  mkPort "Upcast" "upcast" "i32x16" (mkVty 16 4) (EInt i32) "i64x8" (mkVty 8 8) (EInt i64) ""
    [[(0%nat, 0, [PAs (EInt i64)]); (0%nat, 1, [PAs (EInt i64)]); (0%nat, 2, [PAs (EInt i64)]); (0%nat, 3, [PAs (EInt i64)]); (0%nat, 4, [PAs (EInt i64)]); (0%nat, 5, [PAs (EInt i64)]); (0%nat, 6, [PAs (EInt i64)]); (0%nat, 7, [PAs (EInt i64)])];
     [(0%nat, 8, [PAs (EInt i64)]); (0%nat, 9, [PAs (EInt i64)]); (0%nat, 10, [PAs (EInt i64)]); (0%nat, 11, [PAs (EInt i64)]); (0%nat, 12, [PAs (EInt i64)]); (0%nat, 13, [PAs (EInt i64)]); (0%nat, 14, [PAs (EInt i64)]); (0%nat, 15, [PAs (EInt i64)])]];
  (* src/arch/x86/intrin/upcast.rs:599 *)
  mkPort "Upcast" "upcast" "u32x16" (mkVty 16 4) (EInt u32) "u64x8" (mkVty 8 8) (EInt u64) ""
    [[(0%nat, 0, [PAs (EInt u64)]); (0%nat, 1, [PAs (EInt u64)]); (0%nat, 2, [PAs (EInt u64)]); (0%nat, 3, [PAs (EInt u64)]); (0%nat, 4, [PAs (EInt u64)]); (0%nat, 5, [PAs (EInt u64)]); (0%nat, 6, [PAs (EInt u64)]); (0%nat, 7, [PAs (EInt u64)])];
     [(0%nat, 8, [PAs (EInt u64)]); (0%nat, 9, [PAs (EInt u64)]); (0%nat, 10, [PAs (EInt u64)]); (0%nat, 11, [PAs (EInt u64)]); (0%nat, 12, [PAs (EInt u64)]); (0%nat, 13, [PAs (EInt u64)]); (0%nat, 14, [PAs (EInt u64)]); (0%nat, 15, [PAs (EInt u64)])]]].

(** src/arch/x86/intrin/downcast.rs *)
Definition x86_downcast : list port_impl := [
  (* src/arch/x86/intrin/downcast.rs:26 *)
  mkPort "Downcast" "saturating_downcast" "i32x4" (mkVty 4 4) (EInt i32) "i16x8" (mkVty 8 2) (EInt i16) "sse2"
    [[(0%nat, 0, [PMin 32767; PMax (-32768); PAs (EInt i16)]); (0%nat, 1, [PMin 32767; PMax (-32768); PAs (EInt i16)]); (0%nat, 2, [PMin 32767; PMax (-32768); PAs (EInt i16)]); (0%nat, 3, [PMin 32767; PMax (-32768); PAs (EInt i16)]); (1%nat, 0, [PMin 32767; PMax (-32768); PAs (EInt i16)]); (1%nat, 1, [PMin 32767; PMax (-32768); PAs (EInt i16)]); (1%nat, 2, [PMin 32767; PMax (-32768); PAs (EInt i16)]); (1%nat, 3, [PMin 32767; PMax (-32768); PAs (EInt i16)])]];
  (* src/arch/x86/intrin/downcast.rs:41 *)
  mkPort "Downcast" "saturating_downcast" "i64x2" (mkVty 2 8) (EInt i64) "i32x4" (mkVty 4 4) (EInt i32) ""
    [[(0%nat, 0, [PMin 2147483647; PMax (-2147483648); PAs (EInt i32)]); (0%nat, 1, [PMin 2147483647; PMax (-2147483648); PAs (EInt i32)]); (1%nat, 0, [PMin 2147483647; PMax (-2147483648); PAs (EInt i32)]); (1%nat, 1, [PMin 2147483647; PMax (-2147483648); PAs (EInt i32)])]];
  (* src/arch/x86/intrin/downcast.rs:52 *)
  mkPort "Downcast" "saturating_downcast" "u64x2" (mkVty 2 8) (EInt u64) "u32x4" (mkVty 4 4) (EInt u32) ""
    [[(0%nat, 0, [PMin 4294967295; PAs (EInt u32)]); (0%nat, 1, [PMin 2147483647; PAs (EInt u32)]); (1%nat, 0, [PMin 2147483647; PAs (EInt u32)]); (1%nat, 1, [PMin 2147483647; PAs (EInt u32)])]];
  (* src/arch/x86/intrin/downcast.rs:63 *)
  mkPort "Downcast" "saturating_downcast" "f64x2" (mkVty 2 8) EF64 "f32x4" (mkVty 4 4) EF32 ""
    [[(0%nat, 0, [PAs EF32]); (0%nat, 1, [PAs EF32]); (1%nat, 0, [PAs EF32]); (1%nat, 1, [PAs EF32])]];
  (* src/arch/x86/intrin/downcast.rs:82 *)
  mkPort "Downcast" "saturating_downcast" "i16x8" (mkVty 8 2) (EInt i16) "i8x16" (mkVty 16 1) (EInt i8) "sse2"
    [[(0%nat, 0, [PMin 127; PMax (-128); PAs (EInt i8)]); (0%nat, 1, [PMin 127; PMax (-128); PAs (EInt i8)]); (0%nat, 2, [PMin 127; PMax (-128); PAs (EInt i8)]); (0%nat, 3, [PMin 127; PMax (-128); PAs (EInt i8)]); (0%nat, 4, [PMin 127; PMax (-128); PAs (EInt i8)]); (0%nat, 5, [PMin 127; PMax (-128); PAs (EInt i8)]); (0%nat, 6, [PMin 127; PMax (-128); PAs (EInt i8)]); (0%nat, 7, [PMin 127; PMax (-128); PAs (EInt i8)]); (1%nat, 0, [PMin 127; PMax (-128); PAs (EInt i8)]); (1%nat, 1, [PMin 127; PMax (-128); PAs (EInt i8)]); (1%nat, 2, [PMin 127; PMax (-128); PAs (EInt i8)]); (1%nat, 3, [PMin 127; PMax (-128); PAs (EInt i8)]); (1%nat, 4, [PMin 127; PMax (-128); PAs (EInt i8)]); (1%nat, 5, [PMin 127; PMax (-128); PAs (EInt i8)]); (1%nat, 6, [PMin 127; PMax (-128); PAs (EInt i8)]); (1%nat, 7, [PMin 127; PMax (-128); PAs (EInt i8)])]];
  (* src/arch/x86/intrin/downcast.rs:113 *)
  mkPort "Downcast" "saturating_downcast" "u32x4" (mkVty 4 4) (EInt u32) "u16x8" (mkVty 8 2) (EInt u16) "sse4.1"
    [[(0%nat, 0, [PMin 65535; PAs (EInt u16)]); (0%nat, 1, [PMin 65535; PAs (EInt u16)]); (0%nat, 2, [PMin 65535; PAs (EInt u16)]); (0%nat, 3, [PMin 65535; PAs (EInt u16)]); (1%nat, 0, [PMin 65535; PAs (EInt u16)]); (1%nat, 1, [PMin 65535; PAs (EInt u16)]); (1%nat, 2, [PMin 65535; PAs (EInt u16)]); (1%nat, 3, [PMin 65535; PAs (EInt u16)])]];
  (* src/arch/x86/intrin/downcast.rs:136 *)
  mkPort "Downcast" "saturating_downcast" "u16x8" (mkVty 8 2) (EInt u16) "u8x16" (mkVty 16 1) (EInt u8) "sse2"
    [[(0%nat, 0, [PMin 255; PAs (EInt u8)]); (0%nat, 1, [PMin 255; PAs (EInt u8)]); (0%nat, 2, [PMin 255; PAs (EInt u8)]); (0%nat, 3, [PMin 255; PAs (EInt u8)]); (0%nat, 4, [PMin 255; PAs (EInt u8)]); (0%nat, 5, [PMin 255; PAs (EInt u8)]); (0%nat, 6, [PMin 255; PAs (EInt u8)]); (0%nat, 7, [PMin 255; PAs (EInt u8)]); (1%nat, 0, [PMin 255; PAs (EInt u8)]); (1%nat, 1, [PMin 255; PAs (EInt u8)]); (1%nat, 2, [PMin 255; PAs (EInt u8)]); (1%nat, 3, [PMin 255; PAs (EInt u8)]); (1%nat, 4, [PMin 255; PAs (EInt u8)]); (1%nat, 5, [PMin 255; PAs (EInt u8)]); (1%nat, 6, [PMin 255; PAs (EInt u8)]); (1%nat, 7, [PMin 255; PAs (EInt u8)])]];
  (* src/arch/x86/intrin/downcast.rs:167 *)
  mkPort "Downcast" "saturating_downcast" "i32x8" (mkVty 8 4) (EInt i32) "i16x16" (mkVty 16 2) (EInt i16) "avx2"
    [[(0%nat, 0, [PMin 32767; PMax (-32768); PAs (EInt i16)]); (0%nat, 1, [PMin 32767; PMax (-32768); PAs (EInt i16)]); (0%nat, 2, [PMin 32767; PMax (-32768); PAs (EInt i16)]); (0%nat, 3, [PMin 32767; PMax (-32768); PAs (EInt i16)]); (0%nat, 4, [PMin 32767; PMax (-32768); PAs (EInt i16)]); (0%nat, 5, [PMin 32767; PMax (-32768); PAs (EInt i16)]); (0%nat, 6, [PMin 32767; PMax (-32768); PAs (EInt i16)]); (0%nat, 7, [PMin 32767; PMax (-32768); PAs (EInt i16)]); (1%nat, 0, [PMin 32767; PMax (-32768); PAs (EInt i16)]); (1%nat, 1, [PMin 32767; PMax (-32768); PAs (EInt i16)]); (1%nat, 2, [PMin 32767; PMax (-32768); PAs (EInt i16)]); (1%nat, 3, [PMin 32767; PMax (-32768); PAs (EInt i16)]); (1%nat, 4, [PMin 32767; PMax (-32768); PAs (EInt i16)]); (1%nat, 5, [PMin 32767; PMax (-32768); PAs (EInt i16)]); (1%nat, 6, [PMin 32767; PMax (-32768); PAs (EInt i16)]); (1%nat, 7, [PMin 32767; PMax (-32768); PAs (EInt i16)])]];
  (* src/arch/x86/intrin/downcast.rs:198 *)
  mkPort "Downcast" "saturating_downcast" "i16x16" (mkVty 16 2) (EInt i16) "i8x32" (mkVty 32 1) (EInt i8) "avx2"
    [[(0%nat, 0, [PMin 127; PMax (-128); PAs (EInt i8)]); (0%nat, 1, [PMin 127; PMax (-128); PAs (EInt i8)]); (0%nat, 2, [PMin 127; PMax (-128); PAs (EInt i8)]); (0%nat, 3, [PMin 127; PMax (-128); PAs (EInt i8)]); (0%nat, 4, [PMin 127; PMax (-128); PAs (EInt i8)]); (0%nat, 5, [PMin 127; PMax (-128); PAs (EInt i8)]); (0%nat, 6, [PMin 127; PMax (-128); PAs (EInt i8)]); (0%nat, 7, [PMin 127; PMax (-128); PAs (EInt i8)]); (0%nat, 8, [PMin 127; PMax (-128); PAs (EInt i8)]); (0%nat, 9, [PMin 127; PMax (-128); PAs (EInt i8)]); (0%nat, 10, [PMin 127; PMax (-128); PAs (EInt i8)]); (0%nat, 11, [PMin 127; PMax (-128); PAs (EInt i8)]); (0%nat, 12, [PMin 127; PMax (-128); PAs (EInt i8)]); (0%nat, 13, [PMin 127; PMax (-128); PAs (EInt i8)]); (0%nat, 14, [PMin 127; PMax (-128); PAs (EInt i8)]); (0%nat, 15, [PMin 127; PMax (-128); PAs (EInt i8)]); (1%nat, 0, [PMin 127; PMax (-128); PAs (EInt i8)]); (1%nat, 1, [PMin 127; PMax (-128); PAs (EInt i8)]); (1%nat, 2, [PMin 127; PMax (-128); PAs (EInt i8)]); (1%nat, 3, [PMin 127; PMax (-128); PAs (EInt i8)]); (1%nat, 4, [PMin 127; PMax (-128); PAs (EInt i8)]); (1%nat, 5, [PMin 127; PMax (-128); PAs (EInt i8)]); (1%nat, 6, [PMin 127; PMax (-128); PAs (EInt i8)]); (1%nat, 7, [PMin 127; PMax (-128); PAs (EInt i8)]); (1%nat, 8, [PMin 127; PMax (-128); PAs (EInt i8)]); (1%nat, 9, [PMin 127; PMax (-128); PAs (EInt i8)]); (1%nat, 10, [PMin 127; PMax (-128); PAs (EInt i8)]); (1%nat, 11, [PMin 127; PMax (-128); PAs (EInt i8)]); (1%nat, 12, [PMin 127; PMax (-128); PAs (EInt i8)]); (1%nat, 13, [PMin 127; PMax (-128); PAs (EInt i8)]); (1%nat, 14, [PMin 127; PMax (-128); PAs (EInt i8)]); (1%nat, 15, [PMin 127; PMax (-128); PAs (EInt i8)])]];
  (* src/arch/x86/intrin/downcast.rs:245 *)
  mkPort "Downcast" "saturating_downcast" "u32x8" (mkVty 8 4) (EInt u32) "u16x16" (mkVty 16 2) (EInt u16) "avx2"
    [[(0%nat, 0, [PMin 65535; PAs (EInt u16)]); (0%nat, 1, [PMin 65535; PAs (EInt u16)]); (0%nat, 2, [PMin 65535; PAs (EInt u16)]); (0%nat, 3, [PMin 65535; PAs (EInt u16)]); (0%nat, 4, [PMin 65535; PAs (EInt u16)]); (0%nat, 5, [PMin 65535; PAs (EInt u16)]); (0%nat, 6, [PMin 65535; PAs (EInt u16)]); (0%nat, 7, [PMin 65535; PAs (EInt u16)]); (1%nat, 0, [PMin 65535; PAs (EInt u16)]); (1%nat, 1, [PMin 65535; PAs (EInt u16)]); (1%nat, 2, [PMin 65535; PAs (EInt u16)]); (1%nat, 3, [PMin 65535; PAs (EInt u16)]); (1%nat, 4, [PMin 65535; PAs (EInt u16)]); (1%nat, 5, [PMin 65535; PAs (EInt u16)]); (1%nat, 6, [PMin 65535; PAs (EInt u16)]); (1%nat, 7, [PMin 65535; PAs (EInt u16)])]];
  (* src/arch/x86/intrin/downcast.rs:276 *)
  mkPort "Downcast" "saturating_downcast" "u16x16" (mkVty 16 2) (EInt u16) "u8x32" (mkVty 32 1) (EInt u8) "avx2"
    [[(0%nat, 0, [PMin 255; PAs (EInt u8)]); (0%nat, 1, [PMin 255; PAs (EInt u8)]); (0%nat, 2, [PMin 255; PAs (EInt u8)]); (0%nat, 3, [PMin 255; PAs (EInt u8)]); (0%nat, 4, [PMin 255; PAs (EInt u8)]); (0%nat, 5, [PMin 255; PAs (EInt u8)]); (0%nat, 6, [PMin 255; PAs (EInt u8)]); (0%nat, 7, [PMin 255; PAs (EInt u8)]); (0%nat, 8, [PMin 255; PAs (EInt u8)]); (0%nat, 9, [PMin 255; PAs (EInt u8)]); (0%nat, 10, [PMin 255; PAs (EInt u8)]); (0%nat, 11, [PMin 255; PAs (EInt u8)]); (0%nat, 12, [PMin 255; PAs (EInt u8)]); (0%nat, 13, [PMin 255; PAs (EInt u8)]); (0%nat, 14, [PMin 255; PAs (EInt u8)]); (0%nat, 15, [PMin 255; PAs (EInt u8)]); (1%nat, 0, [PMin 255; PAs (EInt u8)]); (1%nat, 1, [PMin 255; PAs (EInt u8)]); (1%nat, 2, [PMin 255; PAs (EInt u8)]); (1%nat, 3, [PMin 255; PAs (EInt u8)]); (1%nat, 4, [PMin 255; PAs (EInt u8)]); (1%nat, 5, [PMin 255; PAs (EInt u8)]); (1%nat, 6, [PMin 255; PAs (EInt u8)]); (1%nat, 7, [PMin 255; PAs (EInt u8)]); (1%nat, 8, [PMin 255; PAs (EInt u8)]); (1%nat, 9, [PMin 255; PAs (EInt u8)]); (1%nat, 10, [PMin 255; PAs (EInt u8)]); (1%nat, 11, [PMin 255; PAs (EInt u8)]); (1%nat, 12, [PMin 255; PAs (EInt u8)]); (1%nat, 13, [PMin 255; PAs (EInt u8)]); (1%nat, 14, [PMin 255; PAs (EInt u8)]); (1%nat, 15, [PMin 255; PAs (EInt u8)])]];
  (* src/arch/x86/intrin/downcast.rs:315 *)
  mkPort "Downcast" "saturating_downcast" "i64x4" (mkVty 4 8) (EInt i64) "i32x8" (mkVty 8 4) (EInt i32) ""
    [[(0%nat, 0, [PMin 2147483647; PMax (-2147483648); PAs (EInt i32)]); (0%nat, 1, [PMin 2147483647; PMax (-2147483648); PAs (EInt i32)]); (0%nat, 2, [PMin 2147483647; PMax (-2147483648); PAs (EInt i32)]); (0%nat, 3, [PMin 2147483647; PMax (-2147483648); PAs (EInt i32)]); (1%nat, 0, [PMin 2147483647; PMax (-2147483648); PAs (EInt i32)]); (1%nat, 1, [PMin 2147483647; PMax (-2147483648); PAs (EInt i32)]); (1%nat, 2, [PMin 2147483647; PMax (-2147483648); PAs (EInt i32)]); (1%nat, 3, [PMin 2147483647; PMax (-2147483648); PAs (EInt i32)])]];
  (* src/arch/x86/intrin/downcast.rs:330 *)
  mkPort "Downcast" "saturating_downcast" "u64x4" (mkVty 4 8) (EInt u64) "u32x8" (mkVty 8 4) (EInt u32) ""
    [[(0%nat, 0, [PMin 4294967295; PAs (EInt u32)]); (0%nat, 1, [PMin 2147483647; PAs (EInt u32)]); (0%nat, 2, [PMin 4294967295; PAs (EInt u32)]); (0%nat, 3, [PMin 2147483647; PAs (EInt u32)]); (1%nat, 0, [PMin 2147483647; PAs (EInt u32)]); (1%nat, 1, [PMin 2147483647; PAs (EInt u32)]); (1%nat, 2, [PMin 2147483647; PAs (EInt u32)]); (1%nat, 3, [PMin 2147483647; PAs (EInt u32)])]];
  (* src/arch/x86/intrin/downcast.rs:345 *)
  mkPort "Downcast" "saturating_downcast" "f64x4" (mkVty 4 8) EF64 "f32x8" (mkVty 8 4) EF32 ""
    [[(0%nat, 0, [PAs EF32]); (0%nat, 1, [PAs EF32]); (0%nat, 2, [PAs EF32]); (0%nat, 3, [PAs EF32]); (1%nat, 0, [PAs EF32]); (1%nat, 1, [PAs EF32]); (1%nat, 2, [PAs EF32]); (1%nat, 3, [PAs EF32])]]].

(** src/arch/x86/intrin/hadd.rs *)
Definition x86_hadd : list hop_impl := [
  (* src/arch/x86/intrin/hadd.rs:95 *)
  mkHop "HAdd" "hadd" "u64x2" (mkVty 2 8) (EInt u64) "Add::add" ""
    [0; 1];
  (* src/arch/x86/intrin/hadd.rs:96 *)
  mkHop "HAdd" "hadd" "u64x4" (mkVty 4 8) (EInt u64) "Add::add" ""
    [0; 1; 2; 3];
  (* src/arch/x86/intrin/hadd.rs:97 *)
  mkHop "HAdd" "hadd" "u64x8" (mkVty 8 8) (EInt u64) "Add::add" ""
    [0; 1; 2; 3; 4; 5; 6; 7];
  (* src/arch/x86/intrin/hadd.rs:98 *)
  mkHop "HAdd" "hadd" "u32x4" (mkVty 4 4) (EInt u32) "Add::add" ""
    [0; 1; 2; 3];
  (* src/arch/x86/intrin/hadd.rs:99 *)
  mkHop "HAdd" "hadd" "u32x8" (mkVty 8 4) (EInt u32) "Add::add" ""
    [0; 1; 2; 3; 4; 5; 6; 7];
  (* src/arch/x86/intrin/hadd.rs:100 *)
  mkHop "HAdd" "hadd" "u32x16" (mkVty 16 4) (EInt u32) "Add::add" ""
    [0; 1; 2; 3; 4; 5; 6; 7; 8; 9; 10; 11; 12; 13; 14; 15];
  (* src/arch/x86/intrin/hadd.rs:101 *)
  mkHop "HAdd" "hadd" "u16x8" (mkVty 8 2) (EInt u16) "Add::add" ""
    [0; 1; 2; 3; 4; 5; 6; 7];
  (* src/arch/x86/intrin/hadd.rs:102 *)
  mkHop "HAdd" "hadd" "u16x16" (mkVty 16 2) (EInt u16) "Add::add" ""
    [0; 1; 2; 3; 4; 5; 6; 7; 8; 9; 10; 11; 12; 13; 14; 15];
  (* src/arch/x86/intrin/hadd.rs:103 *)
  mkHop "HAdd" "hadd" "u16x32" (mkVty 32 2) (EInt u16) "Add::add" ""
    [0; 1; 2; 3; 4; 5; 6; 7; 8; 9; 10; 11; 12; 13; 14; 15; 16; 17; 18; 19; 20; 21; 22; 23; 24; 25; 26; 27; 28; 29; 30; 31];
  (* src/arch/x86/intrin/hadd.rs:104 *)
  mkHop "HAdd" "hadd" "u8x16" (mkVty 16 1) (EInt u8) "Add::add" ""
    [0; 1; 2; 3; 4; 5; 6; 7; 8; 9; 10; 11; 12; 13; 14; 15];
  (* src/arch/x86/intrin/hadd.rs:105 *)
  mkHop "HAdd" "hadd" "u8x32" (mkVty 32 1) (EInt u8) "Add::add" ""
    [0; 1; 2; 3; 4; 5; 6; 7; 8; 9; 10; 11; 12; 13; 14; 15; 16; 17; 18; 19; 20; 21; 22; 23; 24; 25; 26; 27; 28; 29; 30; 31];
  (* src/arch/x86/intrin/hadd.rs:106 *)
  mkHop "HAdd" "hadd" "u8x64" (mkVty 64 1) (EInt u8) "Add::add" ""
    [0; 1; 2; 3; 4; 5; 6; 7; 8; 9; 10; 11; 12; 13; 14; 15; 16; 17; 18; 19; 20; 21; 22; 23; 24; 25; 26; 27; 28; 29; 30; 31; 32; 33; 34; 35; 36; 37; 38; 39; 40; 41; 42; 43; 44; 45; 46; 47; 48; 49; 50; 51; 52; 53; 54; 55; 56; 57; 58; 59; 60; 61; 62; 63];
  (* src/arch/x86/intrin/hadd.rs:107 *)
  mkHop "HAdd" "hadd" "i64x2" (mkVty 2 8) (EInt i64) "Add::add" ""
    [0; 1];
  (* src/arch/x86/intrin/hadd.rs:108 *)
  mkHop "HAdd" "hadd" "i64x4" (mkVty 4 8) (EInt i64) "Add::add" ""
    [0; 1; 2; 3];
  (* src/arch/x86/intrin/hadd.rs:109 *)
  mkHop "HAdd" "hadd" "i64x8" (mkVty 8 8) (EInt i64) "Add::add" ""
    [0; 1; 2; 3; 4; 5; 6; 7];
  (* src/arch/x86/intrin/hadd.rs:111 *)
  mkHop "HAdd" "hadd" "i32x4" (mkVty 4 4) (EInt i32) "Add::add" "ssse3"
    [0; 1; 2; 3];
  (* src/arch/x86/intrin/hadd.rs:113 *)
  mkHop "HAdd" "hadd" "i32x8" (mkVty 8 4) (EInt i32) "Add::add" "avx2"
    [0; 1; 2; 3; 4; 5; 6; 7];
  (* src/arch/x86/intrin/hadd.rs:114 *)
  mkHop "HAdd" "hadd" "i32x16" (mkVty 16 4) (EInt i32) "Add::add" ""
    [0; 1; 2; 3; 4; 5; 6; 7; 8; 9; 10; 11; 12; 13; 14; 15];
  (* src/arch/x86/intrin/hadd.rs:116 *)
  mkHop "HAdd" "hadd" "i16x8" (mkVty 8 2) (EInt i16) "Add::add" "ssse3"
    [0; 1; 2; 3; 4; 5; 6; 7];
  (* src/arch/x86/intrin/hadd.rs:118 *)
  mkHop "HAdd" "hadd" "i16x16" (mkVty 16 2) (EInt i16) "Add::add" "avx2"
    [0; 1; 2; 3; 4; 5; 6; 7; 8; 9; 10; 11; 12; 13; 14; 15];
  (* src/arch/x86/intrin/hadd.rs:119 *)
  mkHop "HAdd" "hadd" "i16x32" (mkVty 32 2) (EInt i16) "Add::add" ""
    [0; 1; 2; 3; 4; 5; 6; 7; 8; 9; 10; 11; 12; 13; 14; 15; 16; 17; 18; 19; 20; 21; 22; 23; 24; 25; 26; 27; 28; 29; 30; 31];
  (* src/arch/x86/intrin/hadd.rs:120 *)
  mkHop "HAdd" "hadd" "i8x16" (mkVty 16 1) (EInt i8) "Add::add" ""
    [0; 1; 2; 3; 4; 5; 6; 7; 8; 9; 10; 11; 12; 13; 14; 15];
  (* src/arch/x86/intrin/hadd.rs:121 *)
  mkHop "HAdd" "hadd" "i8x32" (mkVty 32 1) (EInt i8) "Add::add" ""
    [0; 1; 2; 3; 4; 5; 6; 7; 8; 9; 10; 11; 12; 13; 14; 15; 16; 17; 18; 19; 20; 21; 22; 23; 24; 25; 26; 27; 28; 29; 30; 31];
  (* src/arch/x86/intrin/hadd.rs:122 *)
  mkHop "HAdd" "hadd" "i8x64" (mkVty 64 1) (EInt i8) "Add::add" ""
    [0; 1; 2; 3; 4; 5; 6; 7; 8; 9; 10; 11; 12; 13; 14; 15; 16; 17; 18; 19; 20; 21; 22; 23; 24; 25; 26; 27; 28; 29; 30; 31; 32; 33; 34; 35; 36; 37; 38; 39; 40; 41; 42; 43; 44; 45; 46; 47; 48; 49; 50; 51; 52; 53; 54; 55; 56; 57; 58; 59; 60; 61; 62; 63];
  (* src/arch/x86/intrin/hadd.rs:124 *)
  mkHop "HAdd" "hadd" "f64x2" (mkVty 2 8) EF64 "Add::add" "sse3"
    [0; 1];
  (* src/arch/x86/intrin/hadd.rs:126 *)
  mkHop "HAdd" "hadd" "f64x4" (mkVty 4 8) EF64 "Add::add" "avx"
    [0; 1; 2; 3];
  (* src/arch/x86/intrin/hadd.rs:127 *)
  mkHop "HAdd" "hadd" "f64x8" (mkVty 8 8) EF64 "Add::add" ""
    [0; 1; 2; 3; 4; 5; 6; 7];
  (* src/arch/x86/intrin/hadd.rs:129 *)
  mkHop "HAdd" "hadd" "f32x4" (mkVty 4 4) EF32 "Add::add" "sse3"
    [0; 1; 2; 3];
  (* src/arch/x86/intrin/hadd.rs:131 *)
  mkHop "HAdd" "hadd" "f32x8" (mkVty 8 4) EF32 "Add::add" "avx2"
    [0; 1; 2; 3; 4; 5; 6; 7];
  (* src/arch/x86/intrin/hadd.rs:132 *)
  mkHop "HAdd" "hadd" "f32x16" (mkVty 16 4) EF32 "Add::add" ""
    [0; 1; 2; 3; 4; 5; 6; 7; 8; 9; 10; 11; 12; 13; 14; 15]].

(** src/arch/x86/intrin/hsub.rs *)
Definition x86_hsub : list hop_impl := [
  (* src/arch/x86/intrin/hsub.rs:94 *)
  mkHop "HSub" "hsub" "u64x2" (mkVty 2 8) (EInt u64) "Sub::sub" ""
    [0; 1];
  (* src/arch/x86/intrin/hsub.rs:95 *)
  mkHop "HSub" "hsub" "u64x4" (mkVty 4 8) (EInt u64) "Sub::sub" ""
    [0; 1; 2; 3];
  (* src/arch/x86/intrin/hsub.rs:96 *)
  mkHop "HSub" "hsub" "u64x8" (mkVty 8 8) (EInt u64) "Sub::sub" ""
    [0; 1; 2; 3; 4; 5; 6; 7];
  (* src/arch/x86/intrin/hsub.rs:97 *)
  mkHop "HSub" "hsub" "u32x4" (mkVty 4 4) (EInt u32) "Sub::sub" ""
    [0; 1; 2; 3];
  (* src/arch/x86/intrin/hsub.rs:98 *)
  mkHop "HSub" "hsub" "u32x8" (mkVty 8 4) (EInt u32) "Sub::sub" ""
    [0; 1; 2; 3; 4; 5; 6; 7];
  (* src/arch/x86/intrin/hsub.rs:99 *)
  mkHop "HSub" "hsub" "u32x16" (mkVty 16 4) (EInt u32) "Sub::sub" ""
    [0; 1; 2; 3; 4; 5; 6; 7; 8; 9; 10; 11; 12; 13; 14; 15];
  (* src/arch/x86/intrin/hsub.rs:100 *)
  mkHop "HSub" "hsub" "u16x8" (mkVty 8 2) (EInt u16) "Sub::sub" ""
    [0; 1; 2; 3; 4; 5; 6; 7];
  (* src/arch/x86/intrin/hsub.rs:101 *)
  mkHop "HSub" "hsub" "u16x16" (mkVty 16 2) (EInt u16) "Sub::sub" ""
    [0; 1; 2; 3; 4; 5; 6; 7; 8; 9; 10; 11; 12; 13; 14; 15];
  (* src/arch/x86/intrin/hsub.rs:102 *)
  mkHop "HSub" "hsub" "u16x32" (mkVty 32 2) (EInt u16) "Sub::sub" ""
    [0; 1; 2; 3; 4; 5; 6; 7; 8; 9; 10; 11; 12; 13; 14; 15; 16; 17; 18; 19; 20; 21; 22; 23; 24; 25; 26; 27; 28; 29; 30; 31];
  (* src/arch/x86/intrin/hsub.rs:103 *)
  mkHop "HSub" "hsub" "u8x16" (mkVty 16 1) (EInt u8) "Sub::sub" ""
    [0; 1; 2; 3; 4; 5; 6; 7; 8; 9; 10; 11; 12; 13; 14; 15];
  (* src/arch/x86/intrin/hsub.rs:104 *)
  mkHop "HSub" "hsub" "u8x32" (mkVty 32 1) (EInt u8) "Sub::sub" ""
    [0; 1; 2; 3; 4; 5; 6; 7; 8; 9; 10; 11; 12; 13; 14; 15; 16; 17; 18; 19; 20; 21; 22; 23; 24; 25; 26; 27; 28; 29; 30; 31];
  (* src/arch/x86/intrin/hsub.rs:105 *)
  mkHop "HSub" "hsub" "u8x64" (mkVty 64 1) (EInt u8) "Sub::sub" ""
    [0; 1; 2; 3; 4; 5; 6; 7; 8; 9; 10; 11; 12; 13; 14; 15; 16; 17; 18; 19; 20; 21; 22; 23; 24; 25; 26; 27; 28; 29; 30; 31; 32; 33; 34; 35; 36; 37; 38; 39; 40; 41; 42; 43; 44; 45; 46; 47; 48; 49; 50; 51; 52; 53; 54; 55; 56; 57; 58; 59; 60; 61; 62; 63];
  (* src/arch/x86/intrin/hsub.rs:106 *)
  mkHop "HSub" "hsub" "i64x2" (mkVty 2 8) (EInt i64) "Sub::sub" ""
    [0; 1];
  (* src/arch/x86/intrin/hsub.rs:107 *)
  mkHop "HSub" "hsub" "i64x4" (mkVty 4 8) (EInt i64) "Sub::sub" ""
    [0; 1; 2; 3];
  (* src/arch/x86/intrin/hsub.rs:108 *)
  mkHop "HSub" "hsub" "i64x8" (mkVty 8 8) (EInt i64) "Sub::sub" ""
    [0; 1; 2; 3; 4; 5; 6; 7];
  (* src/arch/x86/intrin/hsub.rs:110 *)
  mkHop "HSub" "hsub" "i32x4" (mkVty 4 4) (EInt i32) "Sub::sub" "ssse3"
    [0; 1; 2; 3];
  (* src/arch/x86/intrin/hsub.rs:112 *)
  mkHop "HSub" "hsub" "i32x8" (mkVty 8 4) (EInt i32) "Sub::sub" "avx2"
    [0; 1; 2; 3; 4; 5; 6; 7];
  (* src/arch/x86/intrin/hsub.rs:113 *)
  mkHop "HSub" "hsub" "i32x16" (mkVty 16 4) (EInt i32) "Sub::sub" ""
    [0; 1; 2; 3; 4; 5; 6; 7; 8; 9; 10; 11; 12; 13; 14; 15];
  (* src/arch/x86/intrin/hsub.rs:115 *)
  mkHop "HSub" "hsub" "i16x8" (mkVty 8 2) (EInt i16) "Sub::sub" "ssse3"
    [0; 1; 2; 3; 4; 5; 6; 7];
  (* src/arch/x86/intrin/hsub.rs:117 *)
  mkHop "HSub" "hsub" "i16x16" (mkVty 16 2) (EInt i16) "Sub::sub" "avx2"
    [0; 1; 2; 3; 4; 5; 6; 7; 8; 9; 10; 11; 12; 13; 14; 15];
  (* src/arch/x86/intrin/hsub.rs:118 *)
  mkHop "HSub" "hsub" "i16x32" (mkVty 32 2) (EInt i16) "Sub::sub" ""
    [0; 1; 2; 3; 4; 5; 6; 7; 8; 9; 10; 11; 12; 13; 14; 15; 16; 17; 18; 19; 20; 21; 22; 23; 24; 25; 26; 27; 28; 29; 30; 31];
  (* src/arch/x86/intrin/hsub.rs:119 *)
  mkHop "HSub" "hsub" "i8x16" (mkVty 16 1) (EInt i8) "Sub::sub" ""
    [0; 1; 2; 3; 4; 5; 6; 7; 8; 9; 10; 11; 12; 13; 14; 15];
  (* src/arch/x86/intrin/hsub.rs:120 *)
  mkHop "HSub" "hsub" "i8x32" (mkVty 32 1) (EInt i8) "Sub::sub" ""
    [0; 1; 2; 3; 4; 5; 6; 7; 8; 9; 10; 11; 12; 13; 14; 15; 16; 17; 18; 19; 20; 21; 22; 23; 24; 25; 26; 27; 28; 29; 30; 31];
  (* src/arch/x86/intrin/hsub.rs:121 *)
  mkHop "HSub" "hsub" "i8x64" (mkVty 64 1) (EInt i8) "Sub::sub" ""
    [0; 1; 2; 3; 4; 5; 6; 7; 8; 9; 10; 11; 12; 13; 14; 15; 16; 17; 18; 19; 20; 21; 22; 23; 24; 25; 26; 27; 28; 29; 30; 31; 32; 33; 34; 35; 36; 37; 38; 39; 40; 41; 42; 43; 44; 45; 46; 47; 48; 49; 50; 51; 52; 53; 54; 55; 56; 57; 58; 59; 60; 61; 62; 63];
  (* src/arch/x86/intrin/hsub.rs:123 *)
  mkHop "HSub" "hsub" "f64x2" (mkVty 2 8) EF64 "Sub::sub" "sse3"
    [0; 1];
  (* src/arch/x86/intrin/hsub.rs:125 *)
  mkHop "HSub" "hsub" "f64x4" (mkVty 4 8) EF64 "Sub::sub" "avx"
    [0; 1; 2; 3];
  (* src/arch/x86/intrin/hsub.rs:126 *)
  mkHop "HSub" "hsub" "f64x8" (mkVty 8 8) EF64 "Sub::sub" ""
    [0; 1; 2; 3; 4; 5; 6; 7];
  (* src/arch/x86/intrin/hsub.rs:128 *)
  mkHop "HSub" "hsub" "f32x4" (mkVty 4 4) EF32 "Sub::sub" "sse3"
    [0; 1; 2; 3];
  (* src/arch/x86/intrin/hsub.rs:130 *)
  mkHop "HSub" "hsub" "f32x8" (mkVty 8 4) EF32 "Sub::sub" "avx2"
    [0; 1; 2; 3; 4; 5; 6; 7];
  (* src/arch/x86/intrin/hsub.rs:131 *)
  mkHop "HSub" "hsub" "f32x16" (mkVty 16 4) EF32 "Sub::sub" ""
    [0; 1; 2; 3; 4; 5; 6; 7; 8; 9; 10; 11; 12; 13; 14; 15]].

(** src/arch/x86/intrin/saturating_hadd.rs *)
Definition x86_saturating_hadd : list hop_impl := [
  (* src/arch/x86/intrin/saturating_hadd.rs:35 *)
  mkHop "SaturatingHAdd" "saturating_hadd" "u64x2" (mkVty 2 8) (EInt u64) "u64::saturating_add" ""
    [0; 1];
  (* src/arch/x86/intrin/saturating_hadd.rs:36 *)
  mkHop "SaturatingHAdd" "saturating_hadd" "u64x4" (mkVty 4 8) (EInt u64) "u64::saturating_add" ""
    [0; 1; 2; 3];
  (* src/arch/x86/intrin/saturating_hadd.rs:37 *)
  mkHop "SaturatingHAdd" "saturating_hadd" "u64x8" (mkVty 8 8) (EInt u64) "u64::saturating_add" ""
    [0; 1; 2; 3; 4; 5; 6; 7];
  (* src/arch/x86/intrin/saturating_hadd.rs:38 *)
  mkHop "SaturatingHAdd" "saturating_hadd" "u32x4" (mkVty 4 4) (EInt u32) "u32::saturating_add" ""
    [0; 1; 2; 3];
  (* src/arch/x86/intrin/saturating_hadd.rs:39 *)
  mkHop "SaturatingHAdd" "saturating_hadd" "u32x8" (mkVty 8 4) (EInt u32) "u32::saturating_add" ""
    [0; 1; 2; 3; 4; 5; 6; 7];
  (* src/arch/x86/intrin/saturating_hadd.rs:40 *)
  mkHop "SaturatingHAdd" "saturating_hadd" "u32x16" (mkVty 16 4) (EInt u32) "u32::saturating_add" ""
    [0; 1; 2; 3; 4; 5; 6; 7; 8; 9; 10; 11; 12; 13; 14; 15];
  (* src/arch/x86/intrin/saturating_hadd.rs:41 *)
  mkHop "SaturatingHAdd" "saturating_hadd" "u16x8" (mkVty 8 2) (EInt u16) "u16::saturating_add" ""
    [0; 1; 2; 3; 4; 5; 6; 7];
  (* src/arch/x86/intrin/saturating_hadd.rs:42 *)
  mkHop "SaturatingHAdd" "saturating_hadd" "u16x16" (mkVty 16 2) (EInt u16) "u16::saturating_add" ""
    [0; 1; 2; 3; 4; 5; 6; 7; 8; 9; 10; 11; 12; 13; 14; 15];
  (* src/arch/x86/intrin/saturating_hadd.rs:43 *)
  mkHop "SaturatingHAdd" "saturating_hadd" "u16x32" (mkVty 32 2) (EInt u16) "u16::saturating_add" ""
    [0; 1; 2; 3; 4; 5; 6; 7; 8; 9; 10; 11; 12; 13; 14; 15; 16; 17; 18; 19; 20; 21; 22; 23; 24; 25; 26; 27; 28; 29; 30; 31];
  (* src/arch/x86/intrin/saturating_hadd.rs:44 *)
  mkHop "SaturatingHAdd" "saturating_hadd" "u8x16" (mkVty 16 1) (EInt u8) "u8::saturating_add" ""
    [0; 1; 2; 3; 4; 5; 6; 7; 8; 9; 10; 11; 12; 13; 14; 15];
  (* src/arch/x86/intrin/saturating_hadd.rs:45 *)
  mkHop "SaturatingHAdd" "saturating_hadd" "u8x32" (mkVty 32 1) (EInt u8) "u8::saturating_add" ""
    [0; 1; 2; 3; 4; 5; 6; 7; 8; 9; 10; 11; 12; 13; 14; 15; 16; 17; 18; 19; 20; 21; 22; 23; 24; 25; 26; 27; 28; 29; 30; 31];
  (* src/arch/x86/intrin/saturating_hadd.rs:46 *)
  mkHop "SaturatingHAdd" "saturating_hadd" "u8x64" (mkVty 64 1) (EInt u8) "u8::saturating_add" ""
    [0; 1; 2; 3; 4; 5; 6; 7; 8; 9; 10; 11; 12; 13; 14; 15; 16; 17; 18; 19; 20; 21; 22; 23; 24; 25; 26; 27; 28; 29; 30; 31; 32; 33; 34; 35; 36; 37; 38; 39; 40; 41; 42; 43; 44; 45; 46; 47; 48; 49; 50; 51; 52; 53; 54; 55; 56; 57; 58; 59; 60; 61; 62; 63];
  (* src/arch/x86/intrin/saturating_hadd.rs:47 *)
  mkHop "SaturatingHAdd" "saturating_hadd" "i64x2" (mkVty 2 8) (EInt i64) "i64::saturating_add" ""
    [0; 1];
  (* src/arch/x86/intrin/saturating_hadd.rs:48 *)
  mkHop "SaturatingHAdd" "saturating_hadd" "i64x4" (mkVty 4 8) (EInt i64) "i64::saturating_add" ""
    [0; 1; 2; 3];
  (* src/arch/x86/intrin/saturating_hadd.rs:49 *)
  mkHop "SaturatingHAdd" "saturating_hadd" "i64x8" (mkVty 8 8) (EInt i64) "i64::saturating_add" ""
    [0; 1; 2; 3; 4; 5; 6; 7];
  (* src/arch/x86/intrin/saturating_hadd.rs:50 *)
  mkHop "SaturatingHAdd" "saturating_hadd" "i32x4" (mkVty 4 4) (EInt i32) "i32::saturating_add" ""
    [0; 1; 2; 3];
  (* src/arch/x86/intrin/saturating_hadd.rs:51 *)
  mkHop "SaturatingHAdd" "saturating_hadd" "i32x8" (mkVty 8 4) (EInt i32) "i32::saturating_add" ""
    [0; 1; 2; 3; 4; 5; 6; 7];
  (* src/arch/x86/intrin/saturating_hadd.rs:52 *)
  mkHop "SaturatingHAdd" "saturating_hadd" "i32x16" (mkVty 16 4) (EInt i32) "i32::saturating_add" ""
    [0; 1; 2; 3; 4; 5; 6; 7; 8; 9; 10; 11; 12; 13; 14; 15];
  (* src/arch/x86/intrin/saturating_hadd.rs:54 *)
  mkHop "SaturatingHAdd" "saturating_hadd" "i16x8" (mkVty 8 2) (EInt i16) "i16::saturating_add" "ssse3"
    [0; 1; 2; 3; 4; 5; 6; 7];
  (* src/arch/x86/intrin/saturating_hadd.rs:56 *)
  mkHop "SaturatingHAdd" "saturating_hadd" "i16x16" (mkVty 16 2) (EInt i16) "i16::saturating_add" "avx2"
    [0; 1; 2; 3; 4; 5; 6; 7; 8; 9; 10; 11; 12; 13; 14; 15];
  (* src/arch/x86/intrin/saturating_hadd.rs:57 *)
  mkHop "SaturatingHAdd" "saturating_hadd" "i16x32" (mkVty 32 2) (EInt i16) "i16::saturating_add" ""
    [0; 1; 2; 3; 4; 5; 6; 7; 8; 9; 10; 11; 12; 13; 14; 15; 16; 17; 18; 19; 20; 21; 22; 23; 24; 25; 26; 27; 28; 29; 30; 31];
  (* src/arch/x86/intrin/saturating_hadd.rs:58 *)
  mkHop "SaturatingHAdd" "saturating_hadd" "i8x16" (mkVty 16 1) (EInt i8) "i8::saturating_add" ""
    [0; 1; 2; 3; 4; 5; 6; 7; 8; 9; 10; 11; 12; 13; 14; 15];
  (* src/arch/x86/intrin/saturating_hadd.rs:59 *)
  mkHop "SaturatingHAdd" "saturating_hadd" "i8x32" (mkVty 32 1) (EInt i8) "i8::saturating_add" ""
    [0; 1; 2; 3; 4; 5; 6; 7; 8; 9; 10; 11; 12; 13; 14; 15; 16; 17; 18; 19; 20; 21; 22; 23; 24; 25; 26; 27; 28; 29; 30; 31];
  (* src/arch/x86/intrin/saturating_hadd.rs:60 *)
  mkHop "SaturatingHAdd" "saturating_hadd" "i8x64" (mkVty 64 1) (EInt i8) "i8::saturating_add" ""
    [0; 1; 2; 3; 4; 5; 6; 7; 8; 9; 10; 11; 12; 13; 14; 15; 16; 17; 18; 19; 20; 21; 22; 23; 24; 25; 26; 27; 28; 29; 30; 31; 32; 33; 34; 35; 36; 37; 38; 39; 40; 41; 42; 43; 44; 45; 46; 47; 48; 49; 50; 51; 52; 53; 54; 55; 56; 57; 58; 59; 60; 61; 62; 63]].

(** src/arch/x86/intrin/saturating_hsub.rs *)
Definition x86_saturating_hsub : list hop_impl := [
  (* src/arch/x86/intrin/saturating_hsub.rs:35 *)
  mkHop "SaturatingHSub" "saturating_hsub" "u64x2" (mkVty 2 8) (EInt u64) "u64::saturating_sub" ""
    [0; 1];
  (* src/arch/x86/intrin/saturating_hsub.rs:36 *)
  mkHop "SaturatingHSub" "saturating_hsub" "u64x4" (mkVty 4 8) (EInt u64) "u64::saturating_sub" ""
    [0; 1; 2; 3];
  (* src/arch/x86/intrin/saturating_hsub.rs:37 *)
  mkHop "SaturatingHSub" "saturating_hsub" "u64x8" (mkVty 8 8) (EInt u64) "u64::saturating_sub" ""
    [0; 1; 2; 3; 4; 5; 6; 7];
  (* src/arch/x86/intrin/saturating_hsub.rs:38 *)
  mkHop "SaturatingHSub" "saturating_hsub" "u32x4" (mkVty 4 4) (EInt u32) "u32::saturating_sub" ""
    [0; 1; 2; 3];
  (* src/arch/x86/intrin/saturating_hsub.rs:39 *)
  mkHop "SaturatingHSub" "saturating_hsub" "u32x8" (mkVty 8 4) (EInt u32) "u32::saturating_sub" ""
    [0; 1; 2; 3; 4; 5; 6; 7];
  (* src/arch/x86/intrin/saturating_hsub.rs:40 *)
  mkHop "SaturatingHSub" "saturating_hsub" "u32x16" (mkVty 16 4) (EInt u32) "u32::saturating_sub" ""
    [0; 1; 2; 3; 4; 5; 6; 7; 8; 9; 10; 11; 12; 13; 14; 15];
  (* src/arch/x86/intrin/saturating_hsub.rs:41 *)
  mkHop "SaturatingHSub" "saturating_hsub" "u16x8" (mkVty 8 2) (EInt u16) "u16::saturating_sub" ""
    [0; 1; 2; 3; 4; 5; 6; 7];
  (* src/arch/x86/intrin/saturating_hsub.rs:42 *)
  mkHop "SaturatingHSub" "saturating_hsub" "u16x16" (mkVty 16 2) (EInt u16) "u16::saturating_sub" ""
    [0; 1; 2; 3; 4; 5; 6; 7; 8; 9; 10; 11; 12; 13; 14; 15];
  (* src/arch/x86/intrin/saturating_hsub.rs:43 *)
  mkHop "SaturatingHSub" "saturating_hsub" "u16x32" (mkVty 32 2) (EInt u16) "u16::saturating_sub" ""
    [0; 1; 2; 3; 4; 5; 6; 7; 8; 9; 10; 11; 12; 13; 14; 15; 16; 17; 18; 19; 20; 21; 22; 23; 24; 25; 26; 27; 28; 29; 30; 31];
  (* src/arch/x86/intrin/saturating_hsub.rs:44 *)
  mkHop "SaturatingHSub" "saturating_hsub" "u8x16" (mkVty 16 1) (EInt u8) "u8::saturating_sub" ""
    [0; 1; 2; 3; 4; 5; 6; 7; 8; 9; 10; 11; 12; 13; 14; 15];
  (* src/arch/x86/intrin/saturating_hsub.rs:45 *)
  mkHop "SaturatingHSub" "saturating_hsub" "u8x32" (mkVty 32 1) (EInt u8) "u8::saturating_sub" ""
    [0; 1; 2; 3; 4; 5; 6; 7; 8; 9; 10; 11; 12; 13; 14; 15; 16; 17; 18; 19; 20; 21; 22; 23; 24; 25; 26; 27; 28; 29; 30; 31];
  (* src/arch/x86/intrin/saturating_hsub.rs:46 *)
  mkHop "SaturatingHSub" "saturating_hsub" "u8x64" (mkVty 64 1) (EInt u8) "u8::saturating_sub" ""
    [0; 1; 2; 3; 4; 5; 6; 7; 8; 9; 10; 11; 12; 13; 14; 15; 16; 17; 18; 19; 20; 21; 22; 23; 24; 25; 26; 27; 28; 29; 30; 31; 32; 33; 34; 35; 36; 37; 38; 39; 40; 41; 42; 43; 44; 45; 46; 47; 48; 49; 50; 51; 52; 53; 54; 55; 56; 57; 58; 59; 60; 61; 62; 63];
  (* src/arch/x86/intrin/saturating_hsub.rs:47 *)
  mkHop "SaturatingHSub" "saturating_hsub" "i64x2" (mkVty 2 8) (EInt i64) "i64::saturating_sub" ""
    [0; 1];
  (* src/arch/x86/intrin/saturating_hsub.rs:48 *)
  mkHop "SaturatingHSub" "saturating_hsub" "i64x4" (mkVty 4 8) (EInt i64) "i64::saturating_sub" ""
    [0; 1; 2; 3];
  (* src/arch/x86/intrin/saturating_hsub.rs:49 *)
  mkHop "SaturatingHSub" "saturating_hsub" "i64x8" (mkVty 8 8) (EInt i64) "i64::saturating_sub" ""
    [0; 1; 2; 3; 4; 5; 6; 7];
  (* src/arch/x86/intrin/saturating_hsub.rs:50 *)
  mkHop "SaturatingHSub" "saturating_hsub" "i32x4" (mkVty 4 4) (EInt i32) "i32::saturating_sub" ""
    [0; 1; 2; 3];
  (* src/arch/x86/intrin/saturating_hsub.rs:51 *)
  mkHop "SaturatingHSub" "saturating_hsub" "i32x8" (mkVty 8 4) (EInt i32) "i32::saturating_sub" ""
    [0; 1; 2; 3; 4; 5; 6; 7];
  (* src/arch/x86/intrin/saturating_hsub.rs:52 *)
  mkHop "SaturatingHSub" "saturating_hsub" "i32x16" (mkVty 16 4) (EInt i32) "i32::saturating_sub" ""
    [0; 1; 2; 3; 4; 5; 6; 7; 8; 9; 10; 11; 12; 13; 14; 15];
  (* src/arch/x86/intrin/saturating_hsub.rs:54 *)
  mkHop "SaturatingHSub" "saturating_hsub" "i16x8" (mkVty 8 2) (EInt i16) "i16::saturating_sub" "ssse3"
    [0; 1; 2; 3; 4; 5; 6; 7];
  (* src/arch/x86/intrin/saturating_hsub.rs:56 *)
  mkHop "SaturatingHSub" "saturating_hsub" "i16x16" (mkVty 16 2) (EInt i16) "i16::saturating_sub" "avx2"
    [0; 1; 2; 3; 4; 5; 6; 7; 8; 9; 10; 11; 12; 13; 14; 15];
  (* src/arch/x86/intrin/saturating_hsub.rs:57 *)
  mkHop "SaturatingHSub" "saturating_hsub" "i16x32" (mkVty 32 2) (EInt i16) "i16::saturating_sub" ""
    [0; 1; 2; 3; 4; 5; 6; 7; 8; 9; 10; 11; 12; 13; 14; 15; 16; 17; 18; 19; 20; 21; 22; 23; 24; 25; 26; 27; 28; 29; 30; 31];
  (* src/arch/x86/intrin/saturating_hsub.rs:58 *)
  mkHop "SaturatingHSub" "saturating_hsub" "i8x16" (mkVty 16 1) (EInt i8) "i8::saturating_sub" ""
    [0; 1; 2; 3; 4; 5; 6; 7; 8; 9; 10; 11; 12; 13; 14; 15];
  (* src/arch/x86/intrin/saturating_hsub.rs:59 *)
  mkHop "SaturatingHSub" "saturating_hsub" "i8x32" (mkVty 32 1) (EInt i8) "i8::saturating_sub" ""
    [0; 1; 2; 3; 4; 5; 6; 7; 8; 9; 10; 11; 12; 13; 14; 15; 16; 17; 18; 19; 20; 21; 22; 23; 24; 25; 26; 27; 28; 29; 30; 31];
  (* src/arch/x86/intrin/saturating_hsub.rs:60 *)
  mkHop "SaturatingHSub" "saturating_hsub" "i8x64" (mkVty 64 1) (EInt i8) "i8::saturating_sub" ""
    [0; 1; 2; 3; 4; 5; 6; 7; 8; 9; 10; 11; 12; 13; 14; 15; 16; 17; 18; 19; 20; 21; 22; 23; 24; 25; 26; 27; 28; 29; 30; 31; 32; 33; 34; 35; 36; 37; 38; 39; 40; 41; 42; 43; 44; 45; 46; 47; 48; 49; 50; 51; 52; 53; 54; 55; 56; 57; 58; 59; 60; 61; 62; 63]].

(** src/arch/x86/intrin/destride.rs *)
Definition x86_destride : list destride_impl := [
  (* src/arch/x86/intrin/destride.rs:10 *)
  mkDestride "u8x16" (mkVty 16 1) (EInt u8) "ssse3"
    [0; 2; 4; 6; 8; 10; 12; 14]
    [0; 4; 8; 12];
  (* src/arch/x86/intrin/destride.rs:38 *)
  mkDestride "u8x32" (mkVty 32 1) (EInt u8) "avx2"
    [0; 2; 4; 6; 8; 10; 12; 14; 16; 18; 20; 22; 24; 26; 28; 30]
    [0; 4; 8; 12; 16; 20; 24; 28];
  (* src/arch/x86/intrin/destride.rs:70 *)
  mkDestride "i8x16" (mkVty 16 1) (EInt i8) "ssse3"
    [0; 2; 4; 6; 8; 10; 12; 14]
    [0; 4; 8; 12];
  (* src/arch/x86/intrin/destride.rs:98 *)
  mkDestride "i8x32" (mkVty 32 1) (EInt i8) "avx2"
    [0; 2; 4; 6; 8; 10; 12; 14; 16; 18; 20; 22; 24; 26; 28; 30]
    [0; 4; 8; 12; 16; 20; 24; 28];
  (* src/arch/x86/intrin/destride.rs:148 *)
  destride_macro "u16x16" (mkVty 16 2) (EInt u16)
    [0; 2; 4; 6; 8; 10; 12; 14];
  (* src/arch/x86/intrin/destride.rs:149 *)
  destride_macro "u16x8" (mkVty 8 2) (EInt u16)
    [0; 2; 4; 6];
  (* src/arch/x86/intrin/destride.rs:150 *)
  destride_macro "i16x16" (mkVty 16 2) (EInt i16)
    [0; 2; 4; 6; 8; 10; 12; 14];
  (* src/arch/x86/intrin/destride.rs:151 *)
  destride_macro "i16x8" (mkVty 8 2) (EInt i16)
    [0; 2; 4; 6];
  (* src/arch/x86/intrin/destride.rs:153 *)
  destride_macro "u32x8" (mkVty 8 4) (EInt u32)
    [0; 2; 4; 6];
  (* src/arch/x86/intrin/destride.rs:154 *)
  destride_macro "u32x4" (mkVty 4 4) (EInt u32)
    [0; 2];
  (* src/arch/x86/intrin/destride.rs:155 *)
  destride_macro "i32x8" (mkVty 8 4) (EInt i32)
    [0; 2; 4; 6];
  (* src/arch/x86/intrin/destride.rs:156 *)
  destride_macro "i32x4" (mkVty 4 4) (EInt i32)
    [0; 2]].

(** src/arch/unknown/intrin/abs.rs *)
Definition unknown_abs : list port_impl := [
  (* src/arch/unknown/intrin/abs.rs:16 *)
  mkPort "Abs" "abs" "f32x4" (mkVty 4 4) EF32 "f32x4" (mkVty 4 4) EF32 ""
    [[(0%nat, 0, [PFAbs]); (0%nat, 1, [PFAbs]); (0%nat, 2, [PFAbs]); (0%nat, 3, [PFAbs])]];
  (* src/arch/unknown/intrin/abs.rs:28 *)
  mkPort "Abs" "abs" "f64x2" (mkVty 2 8) EF64 "f64x2" (mkVty 2 8) EF64 ""
    [[(0%nat, 0, [PFAbs]); (0%nat, 1, [PFAbs])]];
  (* src/arch/unknown/intrin/abs.rs:38 *)
  mkPort "Abs" "abs" "f32x8" (mkVty 8 4) EF32 "f32x8" (mkVty 8 4) EF32 ""
    [[(0%nat, 0, [PFAbs]); (0%nat, 1, [PFAbs]); (0%nat, 2, [PFAbs]); (0%nat, 3, [PFAbs]); (0%nat, 4, [PFAbs]); (0%nat, 5, [PFAbs]); (0%nat, 6, [PFAbs]); (0%nat, 7, [PFAbs])]];
  (* src/arch/unknown/intrin/abs.rs:54 *)
  mkPort "Abs" "abs" "f64x4" (mkVty 4 8) EF64 "f64x4" (mkVty 4 8) EF64 ""
    [[(0%nat, 0, [PFAbs]); (0%nat, 1, [PFAbs]); (0%nat, 2, [PFAbs]); (0%nat, 3, [PFAbs])]];
  (* src/arch/unknown/intrin/abs.rs:66 *)
  mkPort "Abs" "abs" "i8x16" (mkVty 16 1) (EInt i8) "u8x16" (mkVty 16 1) (EInt u8) ""
    [[(0%nat, 0, [POverflowingAbs; PTransmute i8 u8]); (0%nat, 1, [POverflowingAbs; PTransmute i8 u8]); (0%nat, 2, [POverflowingAbs; PTransmute i8 u8]); (0%nat, 3, [POverflowingAbs; PTransmute i8 u8]); (0%nat, 4, [POverflowingAbs; PTransmute i8 u8]); (0%nat, 5, [POverflowingAbs; PTransmute i8 u8]); (0%nat, 6, [POverflowingAbs; PTransmute i8 u8]); (0%nat, 7, [POverflowingAbs; PTransmute i8 u8]); (0%nat, 8, [POverflowingAbs; PTransmute i8 u8]); (0%nat, 9, [POverflowingAbs; PTransmute i8 u8]); (0%nat, 10, [POverflowingAbs; PTransmute i8 u8]); (0%nat, 11, [POverflowingAbs; PTransmute i8 u8]); (0%nat, 12, [POverflowingAbs; PTransmute i8 u8]); (0%nat, 13, [POverflowingAbs; PTransmute i8 u8]); (0%nat, 14, [POverflowingAbs; PTransmute i8 u8]); (0%nat, 15, [POverflowingAbs; PTransmute i8 u8])]];
  (* src/arch/unknown/intrin/abs.rs:90 *)
  mkPort "Abs" "abs" "i16x8" (mkVty 8 2) (EInt i16) "u16x8" (mkVty 8 2) (EInt u16) ""
    [[(0%nat, 0, [POverflowingAbs; PTransmute i16 u16]); (0%nat, 1, [POverflowingAbs; PTransmute i16 u16]); (0%nat, 2, [POverflowingAbs; PTransmute i16 u16]); (0%nat, 3, [POverflowingAbs; PTransmute i16 u16]); (0%nat, 4, [POverflowingAbs; PTransmute i16 u16]); (0%nat, 5, [POverflowingAbs; PTransmute i16 u16]); (0%nat, 6, [POverflowingAbs; PTransmute i16 u16]); (0%nat, 7, [POverflowingAbs; PTransmute i16 u16])]];
  (* src/arch/unknown/intrin/abs.rs:106 *)
  mkPort "Abs" "abs" "i32x4" (mkVty 4 4) (EInt i32) "u32x4" (mkVty 4 4) (EInt u32) ""
    [[(0%nat, 0, [POverflowingAbs; PTransmute i32 u32]); (0%nat, 1, [POverflowingAbs; PTransmute i32 u32]); (0%nat, 2, [POverflowingAbs; PTransmute i32 u32]); (0%nat, 3, [POverflowingAbs; PTransmute i32 u32])]];
  (* src/arch/unknown/intrin/abs.rs:118 *)
  mkPort "Abs" "abs" "i8x32" (mkVty 32 1) (EInt i8) "u8x32" (mkVty 32 1) (EInt u8) ""
    [[(0%nat, 0, [POverflowingAbs; PTransmute i8 u8]); (0%nat, 1, [POverflowingAbs; PTransmute i8 u8]); (0%nat, 2, [POverflowingAbs; PTransmute i8 u8]); (0%nat, 3, [POverflowingAbs; PTransmute i8 u8]); (0%nat, 4, [POverflowingAbs; PTransmute i8 u8]); (0%nat, 5, [POverflowingAbs; PTransmute i8 u8]); (0%nat, 6, [POverflowingAbs; PTransmute i8 u8]); (0%nat, 7, [POverflowingAbs; PTransmute i8 u8]); (0%nat, 8, [POverflowingAbs; PTransmute i8 u8]); (0%nat, 9, [POverflowingAbs; PTransmute i8 u8]); (0%nat, 10, [POverflowingAbs; PTransmute i8 u8]); (0%nat, 11, [POverflowingAbs; PTransmute i8 u8]); (0%nat, 12, [POverflowingAbs; PTransmute i8 u8]); (0%nat, 13, [POverflowingAbs; PTransmute i8 u8]); (0%nat, 14, [POverflowingAbs; PTransmute i8 u8]); (0%nat, 15, [POverflowingAbs; PTransmute i8 u8]); (0%nat, 16, [POverflowingAbs; PTransmute i8 u8]); (0%nat, 17, [POverflowingAbs; PTransmute i8 u8]); (0%nat, 18, [POverflowingAbs; PTransmute i8 u8]); (0%nat, 19, [POverflowingAbs; PTransmute i8 u8]); (0%nat, 20, [POverflowingAbs; PTransmute i8 u8]); (0%nat, 21, [POverflowingAbs; PTransmute i8 u8]); (0%nat, 22, [POverflowingAbs; PTransmute i8 u8]); (0%nat, 23, [POverflowingAbs; PTransmute i8 u8]); (0%nat, 24, [POverflowingAbs; PTransmute i8 u8]); (0%nat, 25, [POverflowingAbs; PTransmute i8 u8]); (0%nat, 26, [POverflowingAbs; PTransmute i8 u8]); (0%nat, 27, [POverflowingAbs; PTransmute i8 u8]); (0%nat, 28, [POverflowingAbs; PTransmute i8 u8]); (0%nat, 29, [POverflowingAbs; PTransmute i8 u8]); (0%nat, 30, [POverflowingAbs; PTransmute i8 u8]); (0%nat, 31, [POverflowingAbs; PTransmute i8 u8])]];
  (* src/arch/unknown/intrin/abs.rs:158 *)
  mkPort "Abs" "abs" "i16x16" (mkVty 16 2) (EInt i16) "u16x16" (mkVty 16 2) (EInt u16) ""
    [[(0%nat, 0, [POverflowingAbs; PTransmute i16 u16]); (0%nat, 1, [POverflowingAbs; PTransmute i16 u16]); (0%nat, 2, [POverflowingAbs; PTransmute i16 u16]); (0%nat, 3, [POverflowingAbs; PTransmute i16 u16]); (0%nat, 4, [POverflowingAbs; PTransmute i16 u16]); (0%nat, 5, [POverflowingAbs; PTransmute i16 u16]); (0%nat, 6, [POverflowingAbs; PTransmute i16 u16]); (0%nat, 7, [POverflowingAbs; PTransmute i16 u16]); (0%nat, 8, [POverflowingAbs; PTransmute i16 u16]); (0%nat, 9, [POverflowingAbs; PTransmute i16 u16]); (0%nat, 10, [POverflowingAbs; PTransmute i16 u16]); (0%nat, 11, [POverflowingAbs; PTransmute i16 u16]); (0%nat, 12, [POverflowingAbs; PTransmute i16 u16]); (0%nat, 13, [POverflowingAbs; PTransmute i16 u16]); (0%nat, 14, [POverflowingAbs; PTransmute i16 u16]); (0%nat, 15, [POverflowingAbs; PTransmute i16 u16])]];
  (* src/arch/unknown/intrin/abs.rs:182 *)
  mkPort "Abs" "abs" "i32x8" (mkVty 8 4) (EInt i32) "u32x8" (mkVty 8 4) (EInt u32) ""
    [[(0%nat, 0, [POverflowingAbs; PTransmute i32 u32]); (0%nat, 1, [POverflowingAbs; PTransmute i32 u32]); (0%nat, 2, [POverflowingAbs; PTransmute i32 u32]); (0%nat, 3, [POverflowingAbs; PTransmute i32 u32]); (0%nat, 4, [POverflowingAbs; PTransmute i32 u32]); (0%nat, 5, [POverflowingAbs; PTransmute i32 u32]); (0%nat, 6, [POverflowingAbs; PTransmute i32 u32]); (0%nat, 7, [POverflowingAbs; PTransmute i32 u32])]];
  (* src/arch/unknown/intrin/abs.rs:198 *)
  mkPort "Abs" "abs" "i64x2" (mkVty 2 8) (EInt i64) "u64x2" (mkVty 2 8) (EInt u64) ""
    [[(0%nat, 0, [POverflowingAbs; PTransmute i64 u64]); (0%nat, 1, [POverflowingAbs; PTransmute i64 u64])]];
  (* src/arch/unknown/intrin/abs.rs:208 *)
  mkPort "Abs" "abs" "i64x4" (mkVty 4 8) (EInt i64) "u64x4" (mkVty 4 8) (EInt u64) ""
    [[(0%nat, 0, [POverflowingAbs; PTransmute i64 u64]); (0%nat, 1, [POverflowingAbs; PTransmute i64 u64]); (0%nat, 2, [POverflowingAbs; PTransmute i64 u64]); (0%nat, 3, [POverflowingAbs; PTransmute i64 u64])]];
  (* src/arch/unknown/intrin/abs.rs:220 *)
  mkPort "Abs" "abs" "i64x8" (mkVty 8 8) (EInt i64) "u64x8" (mkVty 8 8) (EInt u64) ""
    [[(0%nat, 0, [POverflowingAbs; PTransmute i64 u64]); (0%nat, 1, [POverflowingAbs; PTransmute i64 u64]); (0%nat, 2, [POverflowingAbs; PTransmute i64 u64]); (0%nat, 3, [POverflowingAbs; PTransmute i64 u64]); (0%nat, 4, [POverflowingAbs; PTransmute i64 u64]); (0%nat, 5, [POverflowingAbs; PTransmute i64 u64]); (0%nat, 6, [POverflowingAbs; PTransmute i64 u64]); (0%nat, 7, [POverflowingAbs; PTransmute i64 u64])]]].

(** src/arch/unknown/intrin/upcast.rs *)
Definition unknown_upcast : list port_impl := [
  (* src/arch/unknown/intrin/upcast.rs:13 *)
  mkPort "Upcast" "upcast" "u8x16" (mkVty 16 1) (EInt u8) "u16x8" (mkVty 8 2) (EInt u16) ""
    [[(0%nat, 0, [PAs (EInt u16)]); (0%nat, 1, [PAs (EInt u16)]); (0%nat, 2, [PAs (EInt u16)]); (0%nat, 3, [PAs (EInt u16)]); (0%nat, 4, [PAs (EInt u16)]); (0%nat, 5, [PAs (EInt u16)]); (0%nat, 6, [PAs (EInt u16)]); (0%nat, 7, [PAs (EInt u16)])];
     [(0%nat, 8, [PAs (EInt u16)]); (0%nat, 9, [PAs (EInt u16)]); (0%nat, 10, [PAs (EInt u16)]); (0%nat, 11, [PAs (EInt u16)]); (0%nat, 12, [PAs (EInt u16)]); (0%nat, 13, [PAs (EInt u16)]); (0%nat, 14, [PAs (EInt u16)]); (0%nat, 15, [PAs (EInt u16)])]];
  (* src/arch/unknown/intrin/upcast.rs:35 *)
  mkPort "Upcast" "upcast" "i8x16" (mkVty 16 1) (EInt i8) "i16x8" (mkVty 8 2) (EInt i16) ""
    [[(0%nat, 0, [PAs (EInt i16)]); (0%nat, 1, [PAs (EInt i16)]); (0%nat, 2, [PAs (EInt i16)]); (0%nat, 3, [PAs (EInt i16)]); (0%nat, 4, [PAs (EInt i16)]); (0%nat, 5, [PAs (EInt i16)]); (0%nat, 6, [PAs (EInt i16)]); (0%nat, 7, [PAs (EInt i16)])];
     [(0%nat, 8, [PAs (EInt i16)]); (0%nat, 9, [PAs (EInt i16)]); (0%nat, 10, [PAs (EInt i16)]); (0%nat, 11, [PAs (EInt i16)]); (0%nat, 12, [PAs (EInt i16)]); (0%nat, 13, [PAs (EInt i16)]); (0%nat, 14, [PAs (EInt i16)]); (0%nat, 15, [PAs (EInt i16)])]];
  (* src/arch/unknown/intrin/upcast.rs:57 *)
  mkPort "Upcast" "upcast" "u16x8" (mkVty 8 2) (EInt u16) "u32x4" (mkVty 4 4) (EInt u32) ""
    [[(0%nat, 0, [PAs (EInt u32)]); (0%nat, 1, [PAs (EInt u32)]); (0%nat, 2, [PAs (EInt u32)]); (0%nat, 3, [PAs (EInt u32)])];
     [(0%nat, 4, [PAs (EInt u32)]); (0%nat, 5, [PAs (EInt u32)]); (0%nat, 6, [PAs (EInt u32)]); (0%nat, 7, [PAs (EInt u32)])]];
  (* src/arch/unknown/intrin/upcast.rs:71 *)
  mkPort "Upcast" "upcast" "i16x8" (mkVty 8 2) (EInt i16) "i32x4" (mkVty 4 4) (EInt i32) ""
    [[(0%nat, 0, [PAs (EInt i32)]); (0%nat, 1, [PAs (EInt i32)]); (0%nat, 2, [PAs (EInt i32)]); (0%nat, 3, [PAs (EInt i32)])];
     [(0%nat, 4, [PAs (EInt i32)]); (0%nat, 5, [PAs (EInt i32)]); (0%nat, 6, [PAs (EInt i32)]); (0%nat, 7, [PAs (EInt i32)])]];
  (* src/arch/unknown/intrin/upcast.rs:85 *)
  mkPort "Upcast" "upcast" "u8x32" (mkVty 32 1) (EInt u8) "u16x16" (mkVty 16 2) (EInt u16) ""
    [[(0%nat, 0, [PAs (EInt u16)]); (0%nat, 1, [PAs (EInt u16)]); (0%nat, 2, [PAs (EInt u16)]); (0%nat, 3, [PAs (EInt u16)]); (0%nat, 4, [PAs (EInt u16)]); (0%nat, 5, [PAs (EInt u16)]); (0%nat, 6, [PAs (EInt u16)]); (0%nat, 7, [PAs (EInt u16)]); (0%nat, 8, [PAs (EInt u16)]); (0%nat, 9, [PAs (EInt u16)]); (0%nat, 10, [PAs (EInt u16)]); (0%nat, 11, [PAs (EInt u16)]); (0%nat, 12, [PAs (EInt u16)]); (0%nat, 13, [PAs (EInt u16)]); (0%nat, 14, [PAs (EInt u16)]); (0%nat, 15, [PAs (EInt u16)])];
     [(0%nat, 16, [PAs (EInt u16)]); (0%nat, 17, [PAs (EInt u16)]); (0%nat, 18, [PAs (EInt u16)]); (0%nat, 19, [PAs (EInt u16)]); (0%nat, 20, [PAs (EInt u16)]); (0%nat, 21, [PAs (EInt u16)]); (0%nat, 22, [PAs (EInt u16)]); (0%nat, 23, [PAs (EInt u16)]); (0%nat, 24, [PAs (EInt u16)]); (0%nat, 25, [PAs (EInt u16)]); (0%nat, 26, [PAs (EInt u16)]); (0%nat, 27, [PAs (EInt u16)]); (0%nat, 28, [PAs (EInt u16)]); (0%nat, 29, [PAs (EInt u16)]); (0%nat, 30, [PAs (EInt u16)]); (0%nat, 31, [PAs (EInt u16)])]];
  (* src/arch/unknown/intrin/upcast.rs:123 *)
  mkPort "Upcast" "upcast" "i8x32" (mkVty 32 1) (EInt i8) "i16x16" (mkVty 16 2) (EInt i16) ""
    [[(0%nat, 0, [PAs (EInt i16)]); (0%nat, 1, [PAs (EInt i16)]); (0%nat, 2, [PAs (EInt i16)]); (0%nat, 3, [PAs (EInt i16)]); (0%nat, 4, [PAs (EInt i16)]); (0%nat, 5, [PAs (EInt i16)]); (0%nat, 6, [PAs (EInt i16)]); (0%nat, 7, [PAs (EInt i16)]); (0%nat, 8, [PAs (EInt i16)]); (0%nat, 9, [PAs (EInt i16)]); (0%nat, 10, [PAs (EInt i16)]); (0%nat, 11, [PAs (EInt i16)]); (0%nat, 12, [PAs (EInt i16)]); (0%nat, 13, [PAs (EInt i16)]); (0%nat, 14, [PAs (EInt i16)]); (0%nat, 15, [PAs (EInt i16)])];
     [(0%nat, 16, [PAs (EInt i16)]); (0%nat, 17, [PAs (EInt i16)]); (0%nat, 18, [PAs (EInt i16)]); (0%nat, 19, [PAs (EInt i16)]); (0%nat, 20, [PAs (EInt i16)]); (0%nat, 21, [PAs (EInt i16)]); (0%nat, 22, [PAs (EInt i16)]); (0%nat, 23, [PAs (EInt i16)]); (0%nat, 24, [PAs (EInt i16)]); (0%nat, 25, [PAs (EInt i16)]); (0%nat, 26, [PAs (EInt i16)]); (0%nat, 27, [PAs (EInt i16)]); (0%nat, 28, [PAs (EInt i16)]); (0%nat, 29, [PAs (EInt i16)]); (0%nat, 30, [PAs (EInt i16)]); (0%nat, 31, [PAs (EInt i16)])]];
  (* src/arch/unknown/intrin/upcast.rs:161 *)
  mkPort "Upcast" "upcast" "u16x16" (mkVty 16 2) (EInt u16) "u32x8" (mkVty 8 4) (EInt u32) ""
    [[(0%nat, 0, [PAs (EInt u32)]); (0%nat, 1, [PAs (EInt u32)]); (0%nat, 2, [PAs (EInt u32)]); (0%nat, 3, [PAs (EInt u32)]); (0%nat, 4, [PAs (EInt u32)]); (0%nat, 5, [PAs (EInt u32)]); (0%nat, 6, [PAs (EInt u32)]); (0%nat, 7, [PAs (EInt u32)])];
     [(0%nat, 8, [PAs (EInt u32)]); (0%nat, 9, [PAs (EInt u32)]); (0%nat, 10, [PAs (EInt u32)]); (0%nat, 11, [PAs (EInt u32)]); (0%nat, 12, [PAs (EInt u32)]); (0%nat, 13, [PAs (EInt u32)]); (0%nat, 14, [PAs (EInt u32)]); (0%nat, 15, [PAs (EInt u32)])]];
  (* src/arch/unknown/intrin/upcast.rs:184 *)
  mkPort "Upcast" "upcast" "i16x16" (mkVty 16 2) (EInt i16) "i32x8" (mkVty 8 4) (EInt i32) ""
    [[(0%nat, 0, [PAs (EInt i32)]); (0%nat, 1, [PAs (EInt i32)]); (0%nat, 2, [PAs (EInt i32)]); (0%nat, 3, [PAs (EInt i32)]); (0%nat, 4, [PAs (EInt i32)]); (0%nat, 5, [PAs (EInt i32)]); (0%nat, 6, [PAs (EInt i32)]); (0%nat, 7, [PAs (EInt i32)])];
     [(0%nat, 8, [PAs (EInt i32)]); (0%nat, 9, [PAs (EInt i32)]); (0%nat, 10, [PAs (EInt i32)]); (0%nat, 11, [PAs (EInt i32)]); (0%nat, 12, [PAs (EInt i32)]); (0%nat, 13, [PAs (EInt i32)]); (0%nat, 14, [PAs (EInt i32)]); (0%nat, 15, [PAs (EInt i32)])]];
  (* src/arch/unknown/intrin/upcast.rs:206 *)
  mkPort "Upcast" "upcast" "f32x4" (mkVty 4 4) EF32 "f64x2" (mkVty 2 8) EF64 ""
    [[(0%nat, 0, [PAs EF64]); (0%nat, 1, [PAs EF64])];
     [(0%nat, 2, [PAs EF64]); (0%nat, 3, [PAs EF64])]];
  (* src/arch/unknown/intrin/upcast.rs:216 *)
  mkPort "Upcast" "upcast" "i32x4" (mkVty 4 4) (EInt i32) "f64x2" (mkVty 2 8) EF64 ""
    [[(0%nat, 0, [PAs EF64]); (0%nat, 1, [PAs EF64])];
     [(0%nat, 2, [PAs EF64]); (0%nat, 3, [PAs EF64])]];
  (* src/arch/unknown/intrin/upcast.rs:226 *)
  mkPort "Upcast" "upcast" "i32x4" (mkVty 4 4) (EInt i32) "i64x2" (mkVty 2 8) (EInt i64) ""
    [[(0%nat, 0, [PAs (EInt i64)]); (0%nat, 1, [PAs (EInt i64)])];
     [(0%nat, 2, [PAs (EInt i64)]); (0%nat, 3, [PAs (EInt i64)])]];
  (* src/arch/unknown/intrin/upcast.rs:236 *)
  mkPort "Upcast" "upcast" "u32x4" (mkVty 4 4) (EInt u32) "u64x2" (mkVty 2 8) (EInt u64) ""
    [[(0%nat, 0, [PAs (EInt u64)]); (0%nat, 1, [PAs (EInt u64)])];
     [(0%nat, 2, [PAs (EInt u64)]); (0%nat, 3, [PAs (EInt u64)])]];
  (* src/arch/unknown/intrin/upcast.rs:246 *)
  mkPort "Upcast" "upcast" "f32x8" (mkVty 8 4) EF32 "f64x4" (mkVty 4 8) EF64 ""
    [[(0%nat, 0, [PAs EF64]); (0%nat, 1, [PAs EF64]); (0%nat, 2, [PAs EF64]); (0%nat, 3, [PAs EF64])];
     [(0%nat, 4, [PAs EF64]); (0%nat, 5, [PAs EF64]); (0%nat, 6, [PAs EF64]); (0%nat, 7, [PAs EF64])]];
  (* src/arch/unknown/intrin/upcast.rs:260 *)
  mkPort "Upcast" "upcast" "i32x8" (mkVty 8 4) (EInt i32) "f64x4" (mkVty 4 8) EF64 ""
    [[(0%nat, 0, [PAs EF64]); (0%nat, 1, [PAs EF64]); (0%nat, 2, [PAs EF64]); (0%nat, 3, [PAs EF64])];
     [(0%nat, 4, [PAs EF64]); (0%nat, 5, [PAs EF64]); (0%nat, 6, [PAs EF64]); (0%nat, 7, [PAs EF64])]];
  (* src/arch/unknown/intrin/upcast.rs:274 *)
  mkPort "Upcast" "upcast" "i32x8" (mkVty 8 4) (EInt i32) "i64x4" (mkVty 4 8) (EInt i64) ""
    [[(0%nat, 0, [PAs (EInt i64)]); (0%nat, 1, [PAs (EInt i64)]); (0%nat, 2, [PAs (EInt i64)]); (0%nat, 3, [PAs (EInt i64)])];
     [(0%nat, 4, [PAs (EInt i64)]); (0%nat, 5, [PAs (EInt i64)]); (0%nat, 6, [PAs (EInt i64)]); (0%nat, 7, [PAs (EInt i64)])]];
  (* src/arch/unknown/intrin/upcast.rs:288 *)
  mkPort "Upcast" "upcast" "u32x8" (mkVty 8 4) (EInt u32) "u64x4" (mkVty 4 8) (EInt u64) ""
    [[(0%nat, 0, [PAs (EInt u64)]); (0%nat, 1, [PAs (EInt u64)]); (0%nat, 2, [PAs (EInt u64)]); (0%nat, 3, [PAs (EInt u64)])];
     [(0%nat, 4, [PAs (EInt u64)]); (0%nat, 5, [PAs (EInt u64)]); (0%nat, 6, [PAs (EInt u64)]); (0%nat, 7, [PAs (EInt u64)])]];
  (* src/arch/unknown/intrin/upcast.rs:302 *)
  mkPort "Upcast" "upcast" "f32x16" (mkVty 16 4) EF32 "f64x8" (mkVty 8 8) EF64 ""
    [[(0%nat, 0, [PAs EF64]); (0%nat, 1, [PAs EF64]); (0%nat, 2, [PAs EF64]); (0%nat, 3, [PAs EF64]); (0%nat, 4, [PAs EF64]); (0%nat, 5, [PAs EF64]); (0%nat, 6, [PAs EF64]); (0%nat, 7, [PAs EF64])];
     [(0%nat, 8, [PAs EF64]); (0%nat, 9, [PAs EF64]); (0%nat, 10, [PAs EF64]); (0%nat, 11, [PAs EF64]); (0%nat, 12, [PAs EF64]); (0%nat, 13, [PAs EF64]); (0%nat, 14, [PAs EF64]); (0%nat, 15, [PAs EF64])]];
  (* src/arch/unknown/intrin/upcast.rs:324 *)
  mkPort "Upcast" "upcast" "i32x16" (mkVty 16 4) (EInt i32) "f64x8" (mkVty 8 8) EF64 ""
    [[(0%nat, 0, [PAs EF64]); (0%nat, 1, [PAs EF64]); (0%nat, 2, [PAs EF64]); (0%nat, 3, [PAs EF64]); (0%nat, 4, [PAs EF64]); (0%nat, 5, [PAs EF64]); (0%nat, 6, [PAs EF64]); (0%nat, 7, [PAs EF64])];
     [(0%nat, 8, [PAs EF64]); (0%nat, 9, [PAs EF64]); (0%nat, 10, [PAs EF64]); (0%nat, 11, [PAs EF64]); (0%nat, 12, [PAs EF64]); (0%nat, 13, [PAs EF64]); (0%nat, 14, [PAs EF64]); (0%nat, 15, [PAs EF64])]];
  (* src/arch/unknown/intrin/upcast.rs:346 *)
  mkPort "Upcast" "upcast" "i32x16" (mkVty 16 4) (EInt i32) "i64x8" (mkVty 8 8) (EInt i64) ""
    [[(0%nat, 0, [PAs (EInt i64)]); (0%nat, 1, [PAs (EInt i64)]); (0%nat, 2, [PAs (EInt i64)]); (0%nat, 3, [PAs (EInt i64)]); (0%nat, 4, [PAs (EInt i64)]); (0%nat, 5, [PAs (EInt i64)]); (0%nat, 6, [PAs (EInt i64)]); (0%nat, 7, [PAs (EInt i64)])];
     [(0%nat, 8, [PAs (EInt i64)]); (0%nat, 9, [PAs (EInt i64)]); (0%nat, 10, [PAs (EInt i64)]); (0%nat, 11, [PAs (EInt i64)]); (0%nat, 12, [PAs (EInt i64)]); (0%nat, 13, [PAs (EInt i64)]); (0%nat, 14, [PAs (EInt i64)]); (0%nat, 15, [PAs (EInt i64)])]];
  (* src/arch/unknown/intrin/upcast.rs:368 *)
  mkPort "Upcast" "upcast" "u32x16" (mkVty 16 4) (EInt u32) "u64x8" (mkVty 8 8) (EInt u64) ""
    [[(0%nat, 0, [PAs (EInt u64)]); (0%nat, 1, [PAs (EInt u64)]); (0%nat, 2, [PAs (EInt u64)]); (0%nat, 3, [PAs (EInt u64)]); (0%nat, 4, [PAs (EInt u64)]); (0%nat, 5, [PAs (EInt u64)]); (0%nat, 6, [PAs (EInt u64)]); (0%nat, 7, [PAs (EInt u64)])];
     [(0%nat, 8, [PAs (EInt u64)]); (0%nat, 9, [PAs (EInt u64)]); (0%nat, 10, [PAs (EInt u64)]); (0%nat, 11, [PAs (EInt u64)]); (0%nat, 12, [PAs (EInt u64)]); (0%nat, 13, [PAs (EInt u64)]); (0%nat, 14, [PAs (EInt u64)]); (0%nat, 15, [PAs (EInt u64)])]]].

(** src/arch/unknown/intrin/downcast.rs *)
Definition unknown_downcast : list port_impl := [
  (* src/arch/unknown/intrin/downcast.rs:13 *)
  mkPort "Downcast" "saturating_downcast" "i32x4" (mkVty 4 4) (EInt i32) "i16x8" (mkVty 8 2) (EInt i16) ""
    [[(0%nat, 0, [PMin 32767; PMax (-32768); PAs (EInt i16)]); (0%nat, 1, [PMin 32767; PMax (-32768); PAs (EInt i16)]); (0%nat, 2, [PMin 32767; PMax (-32768); PAs (EInt i16)]); (0%nat, 3, [PMin 32767; PMax (-32768); PAs (EInt i16)]); (1%nat, 0, [PMin 32767; PMax (-32768); PAs (EInt i16)]); (1%nat, 1, [PMin 32767; PMax (-32768); PAs (EInt i16)]); (1%nat, 2, [PMin 32767; PMax (-32768); PAs (EInt i16)]); (1%nat, 3, [PMin 32767; PMax (-32768); PAs (EInt i16)])]];
  (* src/arch/unknown/intrin/downcast.rs:27 *)
  mkPort "Downcast" "saturating_downcast" "i64x2" (mkVty 2 8) (EInt i64) "i32x4" (mkVty 4 4) (EInt i32) ""
    [[(0%nat, 0, [PMin 2147483647; PMax (-2147483648); PAs (EInt i32)]); (0%nat, 1, [PMin 2147483647; PMax (-2147483648); PAs (EInt i32)]); (1%nat, 0, [PMin 2147483647; PMax (-2147483648); PAs (EInt i32)]); (1%nat, 1, [PMin 2147483647; PMax (-2147483648); PAs (EInt i32)])]];
  (* src/arch/unknown/intrin/downcast.rs:37 *)
  mkPort "Downcast" "saturating_downcast" "u64x2" (mkVty 2 8) (EInt u64) "u32x4" (mkVty 4 4) (EInt u32) ""
    [[(0%nat, 0, [PMin 4294967295; PAs (EInt u32)]); (0%nat, 1, [PMin 2147483647; PAs (EInt u32)]); (1%nat, 0, [PMin 2147483647; PAs (EInt u32)]); (1%nat, 1, [PMin 2147483647; PAs (EInt u32)])]];
  (* src/arch/unknown/intrin/downcast.rs:47 *)
  mkPort "Downcast" "saturating_downcast" "f64x2" (mkVty 2 8) EF64 "f32x4" (mkVty 4 4) EF32 ""
    [[(0%nat, 0, [PAs EF32]); (0%nat, 1, [PAs EF32]); (1%nat, 0, [PAs EF32]); (1%nat, 1, [PAs EF32])]];
  (* src/arch/unknown/intrin/downcast.rs:57 *)
  mkPort "Downcast" "saturating_downcast" "i16x8" (mkVty 8 2) (EInt i16) "i8x16" (mkVty 16 1) (EInt i8) ""
    [[(0%nat, 0, [PMin 127; PMax (-128); PAs (EInt i8)]); (0%nat, 1, [PMin 127; PMax (-128); PAs (EInt i8)]); (0%nat, 2, [PMin 127; PMax (-128); PAs (EInt i8)]); (0%nat, 3, [PMin 127; PMax (-128); PAs (EInt i8)]); (0%nat, 4, [PMin 127; PMax (-128); PAs (EInt i8)]); (0%nat, 5, [PMin 127; PMax (-128); PAs (EInt i8)]); (0%nat, 6, [PMin 127; PMax (-128); PAs (EInt i8)]); (0%nat, 7, [PMin 127; PMax (-128); PAs (EInt i8)]); (1%nat, 0, [PMin 127; PMax (-128); PAs (EInt i8)]); (1%nat, 1, [PMin 127; PMax (-128); PAs (EInt i8)]); (1%nat, 2, [PMin 127; PMax (-128); PAs (EInt i8)]); (1%nat, 3, [PMin 127; PMax (-128); PAs (EInt i8)]); (1%nat, 4, [PMin 127; PMax (-128); PAs (EInt i8)]); (1%nat, 5, [PMin 127; PMax (-128); PAs (EInt i8)]); (1%nat, 6, [PMin 127; PMax (-128); PAs (EInt i8)]); (1%nat, 7, [PMin 127; PMax (-128); PAs (EInt i8)])]];
  (* src/arch/unknown/intrin/downcast.rs:79 *)
  mkPort "Downcast" "saturating_downcast" "u32x4" (mkVty 4 4) (EInt u32) "u16x8" (mkVty 8 2) (EInt u16) ""
    [[(0%nat, 0, [PMin 65535; PAs (EInt u16)]); (0%nat, 1, [PMin 65535; PAs (EInt u16)]); (0%nat, 2, [PMin 65535; PAs (EInt u16)]); (0%nat, 3, [PMin 65535; PAs (EInt u16)]); (1%nat, 0, [PMin 65535; PAs (EInt u16)]); (1%nat, 1, [PMin 65535; PAs (EInt u16)]); (1%nat, 2, [PMin 65535; PAs (EInt u16)]); (1%nat, 3, [PMin 65535; PAs (EInt u16)])]];
  (* src/arch/unknown/intrin/downcast.rs:93 *)
  mkPort "Downcast" "saturating_downcast" "u16x8" (mkVty 8 2) (EInt u16) "u8x16" (mkVty 16 1) (EInt u8) ""
    [[(0%nat, 0, [PMin 255; PAs (EInt u8)]); (0%nat, 1, [PMin 255; PAs (EInt u8)]); (0%nat, 2, [PMin 255; PAs (EInt u8)]); (0%nat, 3, [PMin 255; PAs (EInt u8)]); (0%nat, 4, [PMin 255; PAs (EInt u8)]); (0%nat, 5, [PMin 255; PAs (EInt u8)]); (0%nat, 6, [PMin 255; PAs (EInt u8)]); (0%nat, 7, [PMin 255; PAs (EInt u8)]); (1%nat, 0, [PMin 255; PAs (EInt u8)]); (1%nat, 1, [PMin 255; PAs (EInt u8)]); (1%nat, 2, [PMin 255; PAs (EInt u8)]); (1%nat, 3, [PMin 255; PAs (EInt u8)]); (1%nat, 4, [PMin 255; PAs (EInt u8)]); (1%nat, 5, [PMin 255; PAs (EInt u8)]); (1%nat, 6, [PMin 255; PAs (EInt u8)]); (1%nat, 7, [PMin 255; PAs (EInt u8)])]];
  (* src/arch/unknown/intrin/downcast.rs:115 *)
  mkPort "Downcast" "saturating_downcast" "i32x8" (mkVty 8 4) (EInt i32) "i16x16" (mkVty 16 2) (EInt i16) ""
    [[(0%nat, 0, [PMin 32767; PMax (-32768); PAs (EInt i16)]); (0%nat, 1, [PMin 32767; PMax (-32768); PAs (EInt i16)]); (0%nat, 2, [PMin 32767; PMax (-32768); PAs (EInt i16)]); (0%nat, 3, [PMin 32767; PMax (-32768); PAs (EInt i16)]); (0%nat, 4, [PMin 32767; PMax (-32768); PAs (EInt i16)]); (0%nat, 5, [PMin 32767; PMax (-32768); PAs (EInt i16)]); (0%nat, 6, [PMin 32767; PMax (-32768); PAs (EInt i16)]); (0%nat, 7, [PMin 32767; PMax (-32768); PAs (EInt i16)]); (1%nat, 0, [PMin 32767; PMax (-32768); PAs (EInt i16)]); (1%nat, 1, [PMin 32767; PMax (-32768); PAs (EInt i16)]); (1%nat, 2, [PMin 32767; PMax (-32768); PAs (EInt i16)]); (1%nat, 3, [PMin 32767; PMax (-32768); PAs (EInt i16)]); (1%nat, 4, [PMin 32767; PMax (-32768); PAs (EInt i16)]); (1%nat, 5, [PMin 32767; PMax (-32768); PAs (EInt i16)]); (1%nat, 6, [PMin 32767; PMax (-32768); PAs (EInt i16)]); (1%nat, 7, [PMin 32767; PMax (-32768); PAs (EInt i16)])]];
  (* src/arch/unknown/intrin/downcast.rs:137 *)
  mkPort "Downcast" "saturating_downcast" "i16x16" (mkVty 16 2) (EInt i16) "i8x32" (mkVty 32 1) (EInt i8) ""
    [[(0%nat, 0, [PMin 127; PMax (-128); PAs (EInt i8)]); (0%nat, 1, [PMin 127; PMax (-128); PAs (EInt i8)]); (0%nat, 2, [PMin 127; PMax (-128); PAs (EInt i8)]); (0%nat, 3, [PMin 127; PMax (-128); PAs (EInt i8)]); (0%nat, 4, [PMin 127; PMax (-128); PAs (EInt i8)]); (0%nat, 5, [PMin 127; PMax (-128); PAs (EInt i8)]); (0%nat, 6, [PMin 127; PMax (-128); PAs (EInt i8)]); (0%nat, 7, [PMin 127; PMax (-128); PAs (EInt i8)]); (0%nat, 8, [PMin 127; PMax (-128); PAs (EInt i8)]); (0%nat, 9, [PMin 127; PMax (-128); PAs (EInt i8)]); (0%nat, 10, [PMin 127; PMax (-128); PAs (EInt i8)]); (0%nat, 11, [PMin 127; PMax (-128); PAs (EInt i8)]); (0%nat, 12, [PMin 127; PMax (-128); PAs (EInt i8)]); (0%nat, 13, [PMin 127; PMax (-128); PAs (EInt i8)]); (0%nat, 14, [PMin 127; PMax (-128); PAs (EInt i8)]); (0%nat, 15, [PMin 127; PMax (-128); PAs (EInt i8)]); (1%nat, 0, [PMin 127; PMax (-128); PAs (EInt i8)]); (1%nat, 1, [PMin 127; PMax (-128); PAs (EInt i8)]); (1%nat, 2, [PMin 127; PMax (-128); PAs (EInt i8)]); (1%nat, 3, [PMin 127; PMax (-128); PAs (EInt i8)]); (1%nat, 4, [PMin 127; PMax (-128); PAs (EInt i8)]); (1%nat, 5, [PMin 127; PMax (-128); PAs (EInt i8)]); (1%nat, 6, [PMin 127; PMax (-128); PAs (EInt i8)]); (1%nat, 7, [PMin 127; PMax (-128); PAs (EInt i8)]); (1%nat, 8, [PMin 127; PMax (-128); PAs (EInt i8)]); (1%nat, 9, [PMin 127; PMax (-128); PAs (EInt i8)]); (1%nat, 10, [PMin 127; PMax (-128); PAs (EInt i8)]); (1%nat, 11, [PMin 127; PMax (-128); PAs (EInt i8)]); (1%nat, 12, [PMin 127; PMax (-128); PAs (EInt i8)]); (1%nat, 13, [PMin 127; PMax (-128); PAs (EInt i8)]); (1%nat, 14, [PMin 127; PMax (-128); PAs (EInt i8)]); (1%nat, 15, [PMin 127; PMax (-128); PAs (EInt i8)])]];
  (* src/arch/unknown/intrin/downcast.rs:175 *)
  mkPort "Downcast" "saturating_downcast" "u32x8" (mkVty 8 4) (EInt u32) "u16x16" (mkVty 16 2) (EInt u16) ""
    [[(0%nat, 0, [PMin 65535; PAs (EInt u16)]); (0%nat, 1, [PMin 65535; PAs (EInt u16)]); (0%nat, 2, [PMin 65535; PAs (EInt u16)]); (0%nat, 3, [PMin 65535; PAs (EInt u16)]); (0%nat, 4, [PMin 65535; PAs (EInt u16)]); (0%nat, 5, [PMin 65535; PAs (EInt u16)]); (0%nat, 6, [PMin 65535; PAs (EInt u16)]); (0%nat, 7, [PMin 65535; PAs (EInt u16)]); (1%nat, 0, [PMin 65535; PAs (EInt u16)]); (1%nat, 1, [PMin 65535; PAs (EInt u16)]); (1%nat, 2, [PMin 65535; PAs (EInt u16)]); (1%nat, 3, [PMin 65535; PAs (EInt u16)]); (1%nat, 4, [PMin 65535; PAs (EInt u16)]); (1%nat, 5, [PMin 65535; PAs (EInt u16)]); (1%nat, 6, [PMin 65535; PAs (EInt u16)]); (1%nat, 7, [PMin 65535; PAs (EInt u16)])]];
  (* src/arch/unknown/intrin/downcast.rs:197 *)
  mkPort "Downcast" "saturating_downcast" "u16x16" (mkVty 16 2) (EInt u16) "u8x32" (mkVty 32 1) (EInt u8) ""
    [[(0%nat, 0, [PMin 255; PAs (EInt u8)]); (0%nat, 1, [PMin 255; PAs (EInt u8)]); (0%nat, 2, [PMin 255; PAs (EInt u8)]); (0%nat, 3, [PMin 255; PAs (EInt u8)]); (0%nat, 4, [PMin 255; PAs (EInt u8)]); (0%nat, 5, [PMin 255; PAs (EInt u8)]); (0%nat, 6, [PMin 255; PAs (EInt u8)]); (0%nat, 7, [PMin 255; PAs (EInt u8)]); (0%nat, 8, [PMin 255; PAs (EInt u8)]); (0%nat, 9, [PMin 255; PAs (EInt u8)]); (0%nat, 10, [PMin 255; PAs (EInt u8)]); (0%nat, 11, [PMin 255; PAs (EInt u8)]); (0%nat, 12, [PMin 255; PAs (EInt u8)]); (0%nat, 13, [PMin 255; PAs (EInt u8)]); (0%nat, 14, [PMin 255; PAs (EInt u8)]); (0%nat, 15, [PMin 255; PAs (EInt u8)]); (1%nat, 0, [PMin 255; PAs (EInt u8)]); (1%nat, 1, [PMin 255; PAs (EInt u8)]); (1%nat, 2, [PMin 255; PAs (EInt u8)]); (1%nat, 3, [PMin 255; PAs (EInt u8)]); (1%nat, 4, [PMin 255; PAs (EInt u8)]); (1%nat, 5, [PMin 255; PAs (EInt u8)]); (1%nat, 6, [PMin 255; PAs (EInt u8)]); (1%nat, 7, [PMin 255; PAs (EInt u8)]); (1%nat, 8, [PMin 255; PAs (EInt u8)]); (1%nat, 9, [PMin 255; PAs (EInt u8)]); (1%nat, 10, [PMin 255; PAs (EInt u8)]); (1%nat, 11, [PMin 255; PAs (EInt u8)]); (1%nat, 12, [PMin 255; PAs (EInt u8)]); (1%nat, 13, [PMin 255; PAs (EInt u8)]); (1%nat, 14, [PMin 255; PAs (EInt u8)]); (1%nat, 15, [PMin 255; PAs (EInt u8)])]];
  (* src/arch/unknown/intrin/downcast.rs:235 *)
  mkPort "Downcast" "saturating_downcast" "i64x4" (mkVty 4 8) (EInt i64) "i32x8" (mkVty 8 4) (EInt i32) ""
    [[(0%nat, 0, [PMin 2147483647; PMax (-2147483648); PAs (EInt i32)]); (0%nat, 1, [PMin 2147483647; PMax (-2147483648); PAs (EInt i32)]); (0%nat, 2, [PMin 2147483647; PMax (-2147483648); PAs (EInt i32)]); (0%nat, 3, [PMin 2147483647; PMax (-2147483648); PAs (EInt i32)]); (1%nat, 0, [PMin 2147483647; PMax (-2147483648); PAs (EInt i32)]); (1%nat, 1, [PMin 2147483647; PMax (-2147483648); PAs (EInt i32)]); (1%nat, 2, [PMin 2147483647; PMax (-2147483648); PAs (EInt i32)]); (1%nat, 3, [PMin 2147483647; PMax (-2147483648); PAs (EInt i32)])]];
  (* src/arch/unknown/intrin/downcast.rs:249 *)
  mkPort "Downcast" "saturating_downcast" "u64x4" (mkVty 4 8) (EInt u64) "u32x8" (mkVty 8 4) (EInt u32) ""
    [[(0%nat, 0, [PMin 4294967295; PAs (EInt u32)]); (0%nat, 1, [PMin 2147483647; PAs (EInt u32)]); (0%nat, 2, [PMin 4294967295; PAs (EInt u32)]); (0%nat, 3, [PMin 2147483647; PAs (EInt u32)]); (1%nat, 0, [PMin 2147483647; PAs (EInt u32)]); (1%nat, 1, [PMin 2147483647; PAs (EInt u32)]); (1%nat, 2, [PMin 2147483647; PAs (EInt u32)]); (1%nat, 3, [PMin 2147483647; PAs (EInt u32)])]];
  (* src/arch/unknown/intrin/downcast.rs:263 *)
  mkPort "Downcast" "saturating_downcast" "f64x4" (mkVty 4 8) EF64 "f32x8" (mkVty 8 4) EF32 ""
    [[(0%nat, 0, [PAs EF32]); (0%nat, 1, [PAs EF32]); (0%nat, 2, [PAs EF32]); (0%nat, 3, [PAs EF32]); (1%nat, 0, [PAs EF32]); (1%nat, 1, [PAs EF32]); (1%nat, 2, [PAs EF32]); (1%nat, 3, [PAs EF32])]]].

(** src/arch/unknown/intrin/hadd.rs *)
Definition unknown_hadd : list hop_impl := [
  (* src/arch/unknown/intrin/hadd.rs:13 *)
  mkHop "HAdd" "hadd" "u64x2" (mkVty 2 8) (EInt u64) "Add::add" ""
    [0; 1];
  (* src/arch/unknown/intrin/hadd.rs:14 *)
  mkHop "HAdd" "hadd" "u32x4" (mkVty 4 4) (EInt u32) "Add::add" ""
    [0; 1; 2; 3];
  (* src/arch/unknown/intrin/hadd.rs:15 *)
  mkHop "HAdd" "hadd" "u16x8" (mkVty 8 2) (EInt u16) "Add::add" ""
    [0; 1; 2; 3; 4; 5; 6; 7];
  (* src/arch/unknown/intrin/hadd.rs:16 *)
  mkHop "HAdd" "hadd" "u8x16" (mkVty 16 1) (EInt u8) "Add::add" ""
    [0; 1; 2; 3; 4; 5; 6; 7; 8; 9; 10; 11; 12; 13; 14; 15];
  (* src/arch/unknown/intrin/hadd.rs:17 *)
  mkHop "HAdd" "hadd" "i64x2" (mkVty 2 8) (EInt i64) "Add::add" ""
    [0; 1];
  (* src/arch/unknown/intrin/hadd.rs:18 *)
  mkHop "HAdd" "hadd" "i32x4" (mkVty 4 4) (EInt i32) "Add::add" ""
    [0; 1; 2; 3];
  (* src/arch/unknown/intrin/hadd.rs:19 *)
  mkHop "HAdd" "hadd" "i16x8" (mkVty 8 2) (EInt i16) "Add::add" ""
    [0; 1; 2; 3; 4; 5; 6; 7];
  (* src/arch/unknown/intrin/hadd.rs:20 *)
  mkHop "HAdd" "hadd" "i8x16" (mkVty 16 1) (EInt i8) "Add::add" ""
    [0; 1; 2; 3; 4; 5; 6; 7; 8; 9; 10; 11; 12; 13; 14; 15];
  (* src/arch/unknown/intrin/hadd.rs:21 *)
  mkHop "HAdd" "hadd" "f64x2" (mkVty 2 8) EF64 "Add::add" ""
    [0; 1];
  (* src/arch/unknown/intrin/hadd.rs:22 *)
  mkHop "HAdd" "hadd" "f32x4" (mkVty 4 4) EF32 "Add::add" ""
    [0; 1; 2; 3]].

(** src/arch/unknown/intrin/hsub.rs *)
Definition unknown_hsub : list hop_impl := [
  (* src/arch/unknown/intrin/hsub.rs:13 *)
  mkHop "HSub" "hsub" "u64x2" (mkVty 2 8) (EInt u64) "Sub::sub" ""
    [0; 1];
  (* src/arch/unknown/intrin/hsub.rs:14 *)
  mkHop "HSub" "hsub" "u32x4" (mkVty 4 4) (EInt u32) "Sub::sub" ""
    [0; 1; 2; 3];
  (* src/arch/unknown/intrin/hsub.rs:15 *)
  mkHop "HSub" "hsub" "u16x8" (mkVty 8 2) (EInt u16) "Sub::sub" ""
    [0; 1; 2; 3; 4; 5; 6; 7];
  (* src/arch/unknown/intrin/hsub.rs:16 *)
  mkHop "HSub" "hsub" "u8x16" (mkVty 16 1) (EInt u8) "Sub::sub" ""
    [0; 1; 2; 3; 4; 5; 6; 7; 8; 9; 10; 11; 12; 13; 14; 15];
  (* src/arch/unknown/intrin/hsub.rs:17 *)
  mkHop "HSub" "hsub" "i64x2" (mkVty 2 8) (EInt i64) "Sub::sub" ""
    [0; 1];
  (* src/arch/unknown/intrin/hsub.rs:18 *)
  mkHop "HSub" "hsub" "i32x4" (mkVty 4 4) (EInt i32) "Sub::sub" ""
    [0; 1; 2; 3];
  (* src/arch/unknown/intrin/hsub.rs:19 *)
  mkHop "HSub" "hsub" "i16x8" (mkVty 8 2) (EInt i16) "Sub::sub" ""
    [0; 1; 2; 3; 4; 5; 6; 7];
  (* src/arch/unknown/intrin/hsub.rs:20 *)
  mkHop "HSub" "hsub" "i8x16" (mkVty 16 1) (EInt i8) "Sub::sub" ""
    [0; 1; 2; 3; 4; 5; 6; 7; 8; 9; 10; 11; 12; 13; 14; 15];
  (* src/arch/unknown/intrin/hsub.rs:21 *)
  mkHop "HSub" "hsub" "f64x2" (mkVty 2 8) EF64 "Sub::sub" ""
    [0; 1];
  (* src/arch/unknown/intrin/hsub.rs:22 *)
  mkHop "HSub" "hsub" "f32x4" (mkVty 4 4) EF32 "Sub::sub" ""
    [0; 1; 2; 3]].

(** src/arch/unknown/intrin/saturating_hadd.rs *)
Definition unknown_saturating_hadd : list hop_impl := [
  (* src/arch/unknown/intrin/saturating_hadd.rs:12 *)
  mkHop "SaturatingHAdd" "saturating_hadd" "u64x2" (mkVty 2 8) (EInt u64) "u64::saturating_add" ""
    [0; 1];
  (* src/arch/unknown/intrin/saturating_hadd.rs:13 *)
  mkHop "SaturatingHAdd" "saturating_hadd" "u32x4" (mkVty 4 4) (EInt u32) "u32::saturating_add" ""
    [0; 1; 2; 3];
  (* src/arch/unknown/intrin/saturating_hadd.rs:14 *)
  mkHop "SaturatingHAdd" "saturating_hadd" "u16x8" (mkVty 8 2) (EInt u16) "u16::saturating_add" ""
    [0; 1; 2; 3; 4; 5; 6; 7];
  (* src/arch/unknown/intrin/saturating_hadd.rs:15 *)
  mkHop "SaturatingHAdd" "saturating_hadd" "u8x16" (mkVty 16 1) (EInt u8) "u8::saturating_add" ""
    [0; 1; 2; 3; 4; 5; 6; 7; 8; 9; 10; 11; 12; 13; 14; 15];
  (* src/arch/unknown/intrin/saturating_hadd.rs:16 *)
  mkHop "SaturatingHAdd" "saturating_hadd" "i64x2" (mkVty 2 8) (EInt i64) "i64::saturating_add" ""
    [0; 1];
  (* src/arch/unknown/intrin/saturating_hadd.rs:17 *)
  mkHop "SaturatingHAdd" "saturating_hadd" "i32x4" (mkVty 4 4) (EInt i32) "i32::saturating_add" ""
    [0; 1; 2; 3];
  (* src/arch/unknown/intrin/saturating_hadd.rs:18 *)
  mkHop "SaturatingHAdd" "saturating_hadd" "i16x8" (mkVty 8 2) (EInt i16) "i16::saturating_add" ""
    [0; 1; 2; 3; 4; 5; 6; 7];
  (* src/arch/unknown/intrin/saturating_hadd.rs:19 *)
  mkHop "SaturatingHAdd" "saturating_hadd" "i8x16" (mkVty 16 1) (EInt i8) "i8::saturating_add" ""
    [0; 1; 2; 3; 4; 5; 6; 7; 8; 9; 10; 11; 12; 13; 14; 15]].

(** src/arch/unknown/intrin/saturating_hsub.rs *)
Definition unknown_saturating_hsub : list hop_impl := [
  (* src/arch/unknown/intrin/saturating_hsub.rs:12 *)
  mkHop "SaturatingHSub" "saturating_hsub" "u64x2" (mkVty 2 8) (EInt u64) "u64::saturating_sub" ""
    [0; 1];
  (* src/arch/unknown/intrin/saturating_hsub.rs:13 *)
  mkHop "SaturatingHSub" "saturating_hsub" "u32x4" (mkVty 4 4) (EInt u32) "u32::saturating_sub" ""
    [0; 1; 2; 3];
  (* src/arch/unknown/intrin/saturating_hsub.rs:14 *)
  mkHop "SaturatingHSub" "saturating_hsub" "u16x8" (mkVty 8 2) (EInt u16) "u16::saturating_sub" ""
    [0; 1; 2; 3; 4; 5; 6; 7];
  (* src/arch/unknown/intrin/saturating_hsub.rs:15 *)
  mkHop "SaturatingHSub" "saturating_hsub" "u8x16" (mkVty 16 1) (EInt u8) "u8::saturating_sub" ""
    [0; 1; 2; 3; 4; 5; 6; 7; 8; 9; 10; 11; 12; 13; 14; 15];
  (* src/arch/unknown/intrin/saturating_hsub.rs:16 *)
  mkHop "SaturatingHSub" "saturating_hsub" "i64x2" (mkVty 2 8) (EInt i64) "i64::saturating_sub" ""
    [0; 1];
  (* src/arch/unknown/intrin/saturating_hsub.rs:17 *)
  mkHop "SaturatingHSub" "saturating_hsub" "i32x4" (mkVty 4 4) (EInt i32) "i32::saturating_sub" ""
    [0; 1; 2; 3];
  (* src/arch/unknown/intrin/saturating_hsub.rs:18 *)
  mkHop "SaturatingHSub" "saturating_hsub" "i16x8" (mkVty 8 2) (EInt i16) "i16::saturating_sub" ""
    [0; 1; 2; 3; 4; 5; 6; 7];
  (* src/arch/unknown/intrin/saturating_hsub.rs:19 *)
  mkHop "SaturatingHSub" "saturating_hsub" "i8x16" (mkVty 16 1) (EInt i8) "i8::saturating_sub" ""
    [0; 1; 2; 3; 4; 5; 6; 7; 8; 9; 10; 11; 12; 13; 14; 15]].

(** src/arch/unknown/intrin/destride.rs *)
Definition unknown_destride : list destride_impl := [
  (* src/arch/unknown/intrin/destride.rs:11 *)
  mkDestride "u8x16" (mkVty 16 1) (EInt u8) ""
    [0; 2; 4; 6; 8; 10; 12; 14]
    [0; 4; 8; 12];
  (* src/arch/unknown/intrin/destride.rs:23 *)
  mkDestride "u8x32" (mkVty 32 1) (EInt u8) ""
    [0; 2; 4; 6; 8; 10; 12; 14; 16; 18; 20; 22; 24; 26; 28; 30]
    [0; 4; 8; 12; 16; 20; 24; 28];
  (* src/arch/unknown/intrin/destride.rs:35 *)
  mkDestride "i8x16" (mkVty 16 1) (EInt i8) ""
    [0; 2; 4; 6; 8; 10; 12; 14]
    [0; 4; 8; 12];
  (* src/arch/unknown/intrin/destride.rs:47 *)
  mkDestride "i8x32" (mkVty 32 1) (EInt i8) ""
    [0; 2; 4; 6; 8; 10; 12; 14; 16; 18; 20; 22; 24; 26; 28; 30]
    [0; 4; 8; 12; 16; 20; 24; 28];
  (* src/arch/unknown/intrin/destride.rs:75 *)
  destride_macro "u16x16" (mkVty 16 2) (EInt u16)
    [0; 2; 4; 6; 8; 10; 12; 14];
  (* src/arch/unknown/intrin/destride.rs:76 *)
  destride_macro "u16x8" (mkVty 8 2) (EInt u16)
    [0; 2; 4; 6];
  (* src/arch/unknown/intrin/destride.rs:77 *)
  destride_macro "i16x16" (mkVty 16 2) (EInt i16)
    [0; 2; 4; 6; 8; 10; 12; 14];
  (* src/arch/unknown/intrin/destride.rs:78 *)
  destride_macro "i16x8" (mkVty 8 2) (EInt i16)
    [0; 2; 4; 6];
  (* src/arch/unknown/intrin/destride.rs:80 *)
  destride_macro "u32x8" (mkVty 8 4) (EInt u32)
    [0; 2; 4; 6];
  (* src/arch/unknown/intrin/destride.rs:81 *)
  destride_macro "u32x4" (mkVty 4 4) (EInt u32)
    [0; 2];
  (* src/arch/unknown/intrin/destride.rs:82 *)
  destride_macro "i32x8" (mkVty 8 4) (EInt i32)
    [0; 2; 4; 6];
  (* src/arch/unknown/intrin/destride.rs:83 *)
  destride_macro "i32x4" (mkVty 4 4) (EInt i32)
    [0; 2]].

