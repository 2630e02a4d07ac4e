(** Invocations of [impl_packed_sum!], [impl_packed_upcast_sum!] and [impl_popcnt!] in
    /repo/src/arch, transcribed by tools/gen_sum.py.  Each group cites the file and
    line it was copied from. *)
From Coq Require Import String.
From Verif Require Import Base Lanes OpTables.
Open Scope string_scope.
Open Scope Z_scope.

(** A vector type and the target feature whose absence selects the portable
    implementation (empty: always).
    src/intrin/sum.rs:21-47. *)
Record fold_impl := mkFold { s_vec : string; s_ty : vty; s_el : elty; s_not : string }.
(** A vector type and the function that counts its bits.
    src/arch/x86/intrin/popcnt.rs:71-78. *)
Record popcnt_impl := mkPopcnt { c_vec : string; c_ty : vty; c_el : ity; c_fn : string }.

(** src/arch/x86/intrin/sum.rs:33-281 [Sum]. *)
Definition x86_sum : list fold_impl := [
  (* src/arch/x86/intrin/sum.rs:259 *)
  mkFold "u8x64" (mkVty 64 1) (EInt u8) "";
  mkFold "i8x64" (mkVty 64 1) (EInt i8) "";
  mkFold "u16x32" (mkVty 32 2) (EInt u16) "";
  mkFold "u16x8" (mkVty 8 2) (EInt u16) "";
  mkFold "i16x32" (mkVty 32 2) (EInt i16) "";
  mkFold "u32x16" (mkVty 16 4) (EInt u32) "";
  mkFold "u32x8" (mkVty 8 4) (EInt u32) "";
  mkFold "u32x4" (mkVty 4 4) (EInt u32) "";
  mkFold "i32x16" (mkVty 16 4) (EInt i32) "";
  mkFold "i32x4" (mkVty 4 4) (EInt i32) "";
  mkFold "f32x16" (mkVty 16 4) EF32 "";
  mkFold "u64x8" (mkVty 8 8) (EInt u64) "";
  mkFold "u64x4" (mkVty 4 8) (EInt u64) "";
  mkFold "u64x2" (mkVty 2 8) (EInt u64) "";
  mkFold "i64x8" (mkVty 8 8) (EInt i64) "";
  mkFold "i64x4" (mkVty 4 8) (EInt i64) "";
  mkFold "i64x2" (mkVty 2 8) (EInt i64) "";
  mkFold "f64x8" (mkVty 8 8) EF64 "";
  (* src/arch/x86/intrin/sum.rs:263 *)
  mkFold "i8x32" (mkVty 32 1) (EInt i8) "avx2";
  mkFold "u8x32" (mkVty 32 1) (EInt u8) "avx2";
  mkFold "i16x16" (mkVty 16 2) (EInt i16) "avx2";
  mkFold "u16x16" (mkVty 16 2) (EInt u16) "avx2";
  mkFold "i32x8" (mkVty 8 4) (EInt i32) "avx2";
  (* src/arch/x86/intrin/sum.rs:268 *)
  mkFold "f32x8" (mkVty 8 4) EF32 "avx";
  mkFold "f64x4" (mkVty 4 8) EF64 "avx";
  (* src/arch/x86/intrin/sum.rs:271 *)
  mkFold "f32x4" (mkVty 4 4) EF32 "sse3";
  mkFold "f64x2" (mkVty 2 8) EF64 "sse3";
  (* src/arch/x86/intrin/sum.rs:274 *)
  mkFold "i8x16" (mkVty 16 1) (EInt i8) "sse2";
  mkFold "u8x16" (mkVty 16 1) (EInt u8) "sse2";
  (* src/arch/x86/intrin/sum.rs:279 *)
  mkFold "i16x8" (mkVty 8 2) (EInt i16) "ssse3"].

(** src/arch/x86/intrin/sum.rs:33-281 [UpcastSum]. *)
Definition x86_upcast_sum : list fold_impl := [
  (* src/arch/x86/intrin/sum.rs:260 *)
  mkFold "u8x64" (mkVty 64 1) (EInt u8) "";
  mkFold "i8x64" (mkVty 64 1) (EInt i8) "";
  mkFold "u16x32" (mkVty 32 2) (EInt u16) "";
  mkFold "u16x8" (mkVty 8 2) (EInt u16) "";
  mkFold "i16x32" (mkVty 32 2) (EInt i16) "";
  mkFold "i16x8" (mkVty 8 2) (EInt i16) "";
  mkFold "u32x16" (mkVty 16 4) (EInt u32) "";
  mkFold "u32x8" (mkVty 8 4) (EInt u32) "";
  mkFold "u32x4" (mkVty 4 4) (EInt u32) "";
  mkFold "i32x16" (mkVty 16 4) (EInt i32) "";
  mkFold "i32x8" (mkVty 8 4) (EInt i32) "";
  mkFold "i32x4" (mkVty 4 4) (EInt i32) "";
  mkFold "f32x16" (mkVty 16 4) EF32 "";
  mkFold "f32x8" (mkVty 8 4) EF32 "";
  mkFold "f32x4" (mkVty 4 4) EF32 "";
  mkFold "u64x8" (mkVty 8 8) (EInt u64) "";
  mkFold "u64x4" (mkVty 4 8) (EInt u64) "";
  mkFold "u64x2" (mkVty 2 8) (EInt u64) "";
  mkFold "i64x8" (mkVty 8 8) (EInt i64) "";
  mkFold "i64x4" (mkVty 4 8) (EInt i64) "";
  mkFold "i64x2" (mkVty 2 8) (EInt i64) "";
  mkFold "f64x8" (mkVty 8 8) EF64 "";
  mkFold "f64x4" (mkVty 4 8) EF64 "";
  mkFold "f64x2" (mkVty 2 8) EF64 "";
  (* src/arch/x86/intrin/sum.rs:265 *)
  mkFold "i8x32" (mkVty 32 1) (EInt i8) "avx2";
  mkFold "u8x32" (mkVty 32 1) (EInt u8) "avx2";
  mkFold "i16x16" (mkVty 16 2) (EInt i16) "avx2";
  mkFold "u16x16" (mkVty 16 2) (EInt u16) "avx2";
  (* src/arch/x86/intrin/sum.rs:276 *)
  mkFold "i8x16" (mkVty 16 1) (EInt i8) "sse2";
  mkFold "u8x16" (mkVty 16 1) (EInt u8) "sse2"].

(** src/arch/unknown/intrin/sum.rs:12 [Sum]. *)
Definition unknown_sum : list fold_impl := [
  (* src/arch/unknown/intrin/sum.rs:12 *)
  mkFold "u8x16" (mkVty 16 1) (EInt u8) "";
  mkFold "i8x16" (mkVty 16 1) (EInt i8) "";
  mkFold "u16x8" (mkVty 8 2) (EInt u16) "";
  mkFold "i16x8" (mkVty 8 2) (EInt i16) "";
  mkFold "u32x4" (mkVty 4 4) (EInt u32) "";
  mkFold "i32x4" (mkVty 4 4) (EInt i32) "";
  mkFold "u64x2" (mkVty 2 8) (EInt u64) "";
  mkFold "i64x2" (mkVty 2 8) (EInt i64) "";
  mkFold "f32x4" (mkVty 4 4) EF32 "";
  mkFold "f64x2" (mkVty 2 8) EF64 ""].

(** src/arch/unknown/intrin/sum.rs:13 [UpcastSum]. *)
Definition unknown_upcast_sum : list fold_impl := [
  (* src/arch/unknown/intrin/sum.rs:13 *)
  mkFold "u8x16" (mkVty 16 1) (EInt u8) "";
  mkFold "i8x16" (mkVty 16 1) (EInt i8) "";
  mkFold "u16x8" (mkVty 8 2) (EInt u16) "";
  mkFold "i16x8" (mkVty 8 2) (EInt i16) "";
  mkFold "u32x4" (mkVty 4 4) (EInt u32) "";
  mkFold "i32x4" (mkVty 4 4) (EInt i32) "";
  mkFold "u64x2" (mkVty 2 8) (EInt u64) "";
  mkFold "i64x2" (mkVty 2 8) (EInt i64) "";
  mkFold "f32x4" (mkVty 4 4) EF32 "";
  mkFold "f64x2" (mkVty 2 8) EF64 ""].

(** src/arch/x86/intrin/popcnt.rs:71-78 [impl_popcnt!]. *)
Definition x86_popcnt : list popcnt_impl := [
  (* src/arch/x86/intrin/popcnt.rs:71 *)
  mkPopcnt "u8x64" (mkVty 64 1) u8 "popcnt512";
  mkPopcnt "u8x32" (mkVty 32 1) u8 "popcnt256";
  mkPopcnt "u8x16" (mkVty 16 1) u8 "popcnt128";
  (* src/arch/x86/intrin/popcnt.rs:72 *)
  mkPopcnt "i8x64" (mkVty 64 1) i8 "popcnt512";
  mkPopcnt "i8x32" (mkVty 32 1) i8 "popcnt256";
  mkPopcnt "i8x16" (mkVty 16 1) i8 "popcnt128";
  (* src/arch/x86/intrin/popcnt.rs:73 *)
  mkPopcnt "u16x32" (mkVty 32 2) u16 "popcnt512";
  mkPopcnt "u16x16" (mkVty 16 2) u16 "popcnt256";
  mkPopcnt "u16x8" (mkVty 8 2) u16 "popcnt128";
  (* src/arch/x86/intrin/popcnt.rs:74 *)
  mkPopcnt "i16x32" (mkVty 32 2) i16 "popcnt512";
  mkPopcnt "i16x16" (mkVty 16 2) i16 "popcnt256";
  mkPopcnt "i16x8" (mkVty 8 2) i16 "popcnt128";
  (* src/arch/x86/intrin/popcnt.rs:75 *)
  mkPopcnt "u32x16" (mkVty 16 4) u32 "popcnt512";
  mkPopcnt "u32x8" (mkVty 8 4) u32 "popcnt256";
  mkPopcnt "u32x4" (mkVty 4 4) u32 "popcnt128";
  (* src/arch/x86/intrin/popcnt.rs:76 *)
  mkPopcnt "i32x16" (mkVty 16 4) i32 "popcnt512";
  mkPopcnt "i32x8" (mkVty 8 4) i32 "popcnt256";
  mkPopcnt "i32x4" (mkVty 4 4) i32 "popcnt128";
  (* src/arch/x86/intrin/popcnt.rs:77 *)
  mkPopcnt "u64x8" (mkVty 8 8) u64 "popcnt512";
  mkPopcnt "u64x4" (mkVty 4 8) u64 "popcnt256";
  mkPopcnt "u64x2" (mkVty 2 8) u64 "popcnt128";
  (* src/arch/x86/intrin/popcnt.rs:78 *)
  mkPopcnt "i64x8" (mkVty 8 8) i64 "popcnt512";
  mkPopcnt "i64x4" (mkVty 4 8) i64 "popcnt256";
  mkPopcnt "i64x2" (mkVty 2 8) i64 "popcnt128"].
