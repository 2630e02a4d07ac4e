(** Invocations of [impl_packed_transmute!] in /repo/src/arch, transcribed by
    tools/gen_trans.py.  Each group cites the file and line it was copied from. *)
From Coq Require Import String.
From Verif Require Import Base.
Open Scope string_scope.

(** One [impl Transmute for ..] (src/intrin/transmute.rs:34-102): the vector, and for each
    of the methods [be_u8s] ... [be_f64s_unchecked] the name of the associated type it
    returns and the vector that type stands for. *)
Record trans_impl := mkTrans { tr_vec : string; tr_types : list (string * string) }.

(** src/arch/x86/intrin/transmute.rs:15-29. *)
Definition x86_transmute : list trans_impl := [
  (* src/arch/x86/intrin/transmute.rs:15 *)
  mkTrans "u8x32" [("u8s", "u8x32"); ("i8s", "i8x32"); ("u16s", "u16x16"); ("i16s", "i16x16"); ("u32s", "u32x8"); ("i32s", "i32x8"); ("f32s", "f32x8"); ("u64s", "u64x4"); ("i64s", "i64x4"); ("f64s", "f64x4")];
  mkTrans "i8x32" [("u8s", "u8x32"); ("i8s", "i8x32"); ("u16s", "u16x16"); ("i16s", "i16x16"); ("u32s", "u32x8"); ("i32s", "i32x8"); ("f32s", "f32x8"); ("u64s", "u64x4"); ("i64s", "i64x4"); ("f64s", "f64x4")];
  mkTrans "u16x16" [("u8s", "u8x32"); ("i8s", "i8x32"); ("u16s", "u16x16"); ("i16s", "i16x16"); ("u32s", "u32x8"); ("i32s", "i32x8"); ("f32s", "f32x8"); ("u64s", "u64x4"); ("i64s", "i64x4"); ("f64s", "f64x4")];
  mkTrans "i16x16" [("u8s", "u8x32"); ("i8s", "i8x32"); ("u16s", "u16x16"); ("i16s", "i16x16"); ("u32s", "u32x8"); ("i32s", "i32x8"); ("f32s", "f32x8"); ("u64s", "u64x4"); ("i64s", "i64x4"); ("f64s", "f64x4")];
  mkTrans "u32x8" [("u8s", "u8x32"); ("i8s", "i8x32"); ("u16s", "u16x16"); ("i16s", "i16x16"); ("u32s", "u32x8"); ("i32s", "i32x8"); ("f32s", "f32x8"); ("u64s", "u64x4"); ("i64s", "i64x4"); ("f64s", "f64x4")];
  mkTrans "i32x8" [("u8s", "u8x32"); ("i8s", "i8x32"); ("u16s", "u16x16"); ("i16s", "i16x16"); ("u32s", "u32x8"); ("i32s", "i32x8"); ("f32s", "f32x8"); ("u64s", "u64x4"); ("i64s", "i64x4"); ("f64s", "f64x4")];
  mkTrans "f32x8" [("u8s", "u8x32"); ("i8s", "i8x32"); ("u16s", "u16x16"); ("i16s", "i16x16"); ("u32s", "u32x8"); ("i32s", "i32x8"); ("f32s", "f32x8"); ("u64s", "u64x4"); ("i64s", "i64x4"); ("f64s", "f64x4")];
  mkTrans "u64x4" [("u8s", "u8x32"); ("i8s", "i8x32"); ("u16s", "u16x16"); ("i16s", "i16x16"); ("u32s", "u32x8"); ("i32s", "i32x8"); ("f32s", "f32x8"); ("u64s", "u64x4"); ("i64s", "i64x4"); ("f64s", "f64x4")];
  mkTrans "i64x4" [("u8s", "u8x32"); ("i8s", "i8x32"); ("u16s", "u16x16"); ("i16s", "i16x16"); ("u32s", "u32x8"); ("i32s", "i32x8"); ("f32s", "f32x8"); ("u64s", "u64x4"); ("i64s", "i64x4"); ("f64s", "f64x4")];
  mkTrans "f64x4" [("u8s", "u8x32"); ("i8s", "i8x32"); ("u16s", "u16x16"); ("i16s", "i16x16"); ("u32s", "u32x8"); ("i32s", "i32x8"); ("f32s", "f32x8"); ("u64s", "u64x4"); ("i64s", "i64x4"); ("f64s", "f64x4")];
  (* src/arch/x86/intrin/transmute.rs:20 *)
  mkTrans "u8x64" [("u8s", "u8x64"); ("i8s", "i8x64"); ("u16s", "u16x32"); ("i16s", "i16x32"); ("u32s", "u32x16"); ("i32s", "i32x16"); ("f32s", "f32x16"); ("u64s", "u64x8"); ("i64s", "i64x8"); ("f64s", "f64x8")];
  mkTrans "i8x64" [("u8s", "u8x64"); ("i8s", "i8x64"); ("u16s", "u16x32"); ("i16s", "i16x32"); ("u32s", "u32x16"); ("i32s", "i32x16"); ("f32s", "f32x16"); ("u64s", "u64x8"); ("i64s", "i64x8"); ("f64s", "f64x8")];
  mkTrans "u16x32" [("u8s", "u8x64"); ("i8s", "i8x64"); ("u16s", "u16x32"); ("i16s", "i16x32"); ("u32s", "u32x16"); ("i32s", "i32x16"); ("f32s", "f32x16"); ("u64s", "u64x8"); ("i64s", "i64x8"); ("f64s", "f64x8")];
  mkTrans "i16x32" [("u8s", "u8x64"); ("i8s", "i8x64"); ("u16s", "u16x32"); ("i16s", "i16x32"); ("u32s", "u32x16"); ("i32s", "i32x16"); ("f32s", "f32x16"); ("u64s", "u64x8"); ("i64s", "i64x8"); ("f64s", "f64x8")];
  mkTrans "u32x16" [("u8s", "u8x64"); ("i8s", "i8x64"); ("u16s", "u16x32"); ("i16s", "i16x32"); ("u32s", "u32x16"); ("i32s", "i32x16"); ("f32s", "f32x16"); ("u64s", "u64x8"); ("i64s", "i64x8"); ("f64s", "f64x8")];
  mkTrans "i32x16" [("u8s", "u8x64"); ("i8s", "i8x64"); ("u16s", "u16x32"); ("i16s", "i16x32"); ("u32s", "u32x16"); ("i32s", "i32x16"); ("f32s", "f32x16"); ("u64s", "u64x8"); ("i64s", "i64x8"); ("f64s", "f64x8")];
  mkTrans "f32x16" [("u8s", "u8x64"); ("i8s", "i8x64"); ("u16s", "u16x32"); ("i16s", "i16x32"); ("u32s", "u32x16"); ("i32s", "i32x16"); ("f32s", "f32x16"); ("u64s", "u64x8"); ("i64s", "i64x8"); ("f64s", "f64x8")];
  mkTrans "u64x8" [("u8s", "u8x64"); ("i8s", "i8x64"); ("u16s", "u16x32"); ("i16s", "i16x32"); ("u32s", "u32x16"); ("i32s", "i32x16"); ("f32s", "f32x16"); ("u64s", "u64x8"); ("i64s", "i64x8"); ("f64s", "f64x8")];
  mkTrans "i64x8" [("u8s", "u8x64"); ("i8s", "i8x64"); ("u16s", "u16x32"); ("i16s", "i16x32"); ("u32s", "u32x16"); ("i32s", "i32x16"); ("f32s", "f32x16"); ("u64s", "u64x8"); ("i64s", "i64x8"); ("f64s", "f64x8")];
  mkTrans "f64x8" [("u8s", "u8x64"); ("i8s", "i8x64"); ("u16s", "u16x32"); ("i16s", "i16x32"); ("u32s", "u32x16"); ("i32s", "i32x16"); ("f32s", "f32x16"); ("u64s", "u64x8"); ("i64s", "i64x8"); ("f64s", "f64x8")];
  (* src/arch/x86/intrin/transmute.rs:25 *)
  mkTrans "u8x16" [("u8s", "u8x16"); ("i8s", "i8x16"); ("u16s", "u16x8"); ("i16s", "i16x8"); ("u32s", "u32x4"); ("i32s", "i32x4"); ("f32s", "f32x4"); ("u64s", "u64x2"); ("i64s", "i64x2"); ("f64s", "f64x2")];
  mkTrans "i8x16" [("u8s", "u8x16"); ("i8s", "i8x16"); ("u16s", "u16x8"); ("i16s", "i16x8"); ("u32s", "u32x4"); ("i32s", "i32x4"); ("f32s", "f32x4"); ("u64s", "u64x2"); ("i64s", "i64x2"); ("f64s", "f64x2")];
  mkTrans "u16x8" [("u8s", "u8x16"); ("i8s", "i8x16"); ("u16s", "u16x8"); ("i16s", "i16x8"); ("u32s", "u32x4"); ("i32s", "i32x4"); ("f32s", "f32x4"); ("u64s", "u64x2"); ("i64s", "i64x2"); ("f64s", "f64x2")];
  mkTrans "i16x8" [("u8s", "u8x16"); ("i8s", "i8x16"); ("u16s", "u16x8"); ("i16s", "i16x8"); ("u32s", "u32x4"); ("i32s", "i32x4"); ("f32s", "f32x4"); ("u64s", "u64x2"); ("i64s", "i64x2"); ("f64s", "f64x2")];
  mkTrans "u32x4" [("u8s", "u8x16"); ("i8s", "i8x16"); ("u16s", "u16x8"); ("i16s", "i16x8"); ("u32s", "u32x4"); ("i32s", "i32x4"); ("f32s", "f32x4"); ("u64s", "u64x2"); ("i64s", "i64x2"); ("f64s", "f64x2")];
  mkTrans "i32x4" [("u8s", "u8x16"); ("i8s", "i8x16"); ("u16s", "u16x8"); ("i16s", "i16x8"); ("u32s", "u32x4"); ("i32s", "i32x4"); ("f32s", "f32x4"); ("u64s", "u64x2"); ("i64s", "i64x2"); ("f64s", "f64x2")];
  mkTrans "f32x4" [("u8s", "u8x16"); ("i8s", "i8x16"); ("u16s", "u16x8"); ("i16s", "i16x8"); ("u32s", "u32x4"); ("i32s", "i32x4"); ("f32s", "f32x4"); ("u64s", "u64x2"); ("i64s", "i64x2"); ("f64s", "f64x2")];
  mkTrans "u64x2" [("u8s", "u8x16"); ("i8s", "i8x16"); ("u16s", "u16x8"); ("i16s", "i16x8"); ("u32s", "u32x4"); ("i32s", "i32x4"); ("f32s", "f32x4"); ("u64s", "u64x2"); ("i64s", "i64x2"); ("f64s", "f64x2")];
  mkTrans "i64x2" [("u8s", "u8x16"); ("i8s", "i8x16"); ("u16s", "u16x8"); ("i16s", "i16x8"); ("u32s", "u32x4"); ("i32s", "i32x4"); ("f32s", "f32x4"); ("u64s", "u64x2"); ("i64s", "i64x2"); ("f64s", "f64x2")];
  mkTrans "f64x2" [("u8s", "u8x16"); ("i8s", "i8x16"); ("u16s", "u16x8"); ("i16s", "i16x8"); ("u32s", "u32x4"); ("i32s", "i32x4"); ("f32s", "f32x4"); ("u64s", "u64x2"); ("i64s", "i64x2"); ("f64s", "f64x2")]].

(** src/arch/unknown/intrin/transmute.rs:12-16. *)
Definition unknown_transmute : list trans_impl := [
  (* src/arch/unknown/intrin/transmute.rs:12 *)
  mkTrans "u8x16" [("u8s", "u8x16"); ("i8s", "i8x16"); ("u16s", "u16x8"); ("i16s", "i16x8"); ("u32s", "u32x4"); ("i32s", "i32x4"); ("f32s", "f32x4"); ("u64s", "u64x2"); ("i64s", "i64x2"); ("f64s", "f64x2")];
  mkTrans "i8x16" [("u8s", "u8x16"); ("i8s", "i8x16"); ("u16s", "u16x8"); ("i16s", "i16x8"); ("u32s", "u32x4"); ("i32s", "i32x4"); ("f32s", "f32x4"); ("u64s", "u64x2"); ("i64s", "i64x2"); ("f64s", "f64x2")];
  mkTrans "u16x8" [("u8s", "u8x16"); ("i8s", "i8x16"); ("u16s", "u16x8"); ("i16s", "i16x8"); ("u32s", "u32x4"); ("i32s", "i32x4"); ("f32s", "f32x4"); ("u64s", "u64x2"); ("i64s", "i64x2"); ("f64s", "f64x2")];
  mkTrans "i16x8" [("u8s", "u8x16"); ("i8s", "i8x16"); ("u16s", "u16x8"); ("i16s", "i16x8"); ("u32s", "u32x4"); ("i32s", "i32x4"); ("f32s", "f32x4"); ("u64s", "u64x2"); ("i64s", "i64x2"); ("f64s", "f64x2")];
  mkTrans "u32x4" [("u8s", "u8x16"); ("i8s", "i8x16"); ("u16s", "u16x8"); ("i16s", "i16x8"); ("u32s", "u32x4"); ("i32s", "i32x4"); ("f32s", "f32x4"); ("u64s", "u64x2"); ("i64s", "i64x2"); ("f64s", "f64x2")];
  mkTrans "i32x4" [("u8s", "u8x16"); ("i8s", "i8x16"); ("u16s", "u16x8"); ("i16s", "i16x8"); ("u32s", "u32x4"); ("i32s", "i32x4"); ("f32s", "f32x4"); ("u64s", "u64x2"); ("i64s", "i64x2"); ("f64s", "f64x2")];
  mkTrans "f32x4" [("u8s", "u8x16"); ("i8s", "i8x16"); ("u16s", "u16x8"); ("i16s", "i16x8"); ("u32s", "u32x4"); ("i32s", "i32x4"); ("f32s", "f32x4"); ("u64s", "u64x2"); ("i64s", "i64x2"); ("f64s", "f64x2")];
  mkTrans "u64x2" [("u8s", "u8x16"); ("i8s", "i8x16"); ("u16s", "u16x8"); ("i16s", "i16x8"); ("u32s", "u32x4"); ("i32s", "i32x4"); ("f32s", "f32x4"); ("u64s", "u64x2"); ("i64s", "i64x2"); ("f64s", "f64x2")];
  mkTrans "i64x2" [("u8s", "u8x16"); ("i8s", "i8x16"); ("u16s", "u16x8"); ("i16s", "i16x8"); ("u32s", "u32x4"); ("i32s", "i32x4"); ("f32s", "f32x4"); ("u64s", "u64x2"); ("i64s", "i64x2"); ("f64s", "f64x2")];
  mkTrans "f64x2" [("u8s", "u8x16"); ("i8s", "i8x16"); ("u16s", "u16x8"); ("i16s", "i16x8"); ("u32s", "u32x4"); ("i32s", "i32x4"); ("f32s", "f32x4"); ("u64s", "u64x2"); ("i64s", "i64x2"); ("f64s", "f64x2")]].

