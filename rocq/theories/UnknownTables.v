(** The invocations that define the portable vector types in /repo/src/arch/unknown/vecs.rs,
    transcribed by tools/gen_unknown.py.  Each row cites the line it was copied from. *)
From Coq Require Import String.
From Verif Require Import Base Lanes OpTables.
Open Scope string_scope.
Open Scope Z_scope.

(** [impl_packed_type!]: name, element, number of lanes, number of constructor
    parameters.
    src/arch/unknown/vecs.rs:18-167, 242-271. *)
Record utype := mkUType { ut_name : string; ut_el : elty; ut_sz : Z; ut_params : nat }.
(** [impl_ops!] / [impl_assignops!]: vector, element named in the invocation, trait and
    operator.
    src/arch/unknown/vecs.rs:182-213. *)
Record uop := mkUOp { uo_vec : string; uo_el : elty; uo_ops : list (string * string) }.
(** [impl_cast!]: source, target, element cast to, method.
    src/arch/unknown/vecs.rs:215-229. *)
Record ucast := mkUCast { uc_from : string; uc_to : string; uc_el : elty; uc_name : string }.
(** [impl_from!]: target and sources.
    src/arch/unknown/vecs.rs:169-180. *)
Record ufrom := mkUFrom { uf_to : string; uf_from : list string }.

(** src/arch/unknown/vecs.rs:242-271. *)
Definition unknown_types : list utype := [
  (* src/arch/unknown/vecs.rs:242 *) mkUType "f64x2" EF64 2 2;
  (* src/arch/unknown/vecs.rs:243 *) mkUType "f64x4" EF64 4 4;
  (* src/arch/unknown/vecs.rs:244 *) mkUType "f64x8" EF64 8 8;
  (* src/arch/unknown/vecs.rs:245 *) mkUType "u64x2" (EInt u64) 2 2;
  (* src/arch/unknown/vecs.rs:246 *) mkUType "u64x4" (EInt u64) 4 4;
  (* src/arch/unknown/vecs.rs:247 *) mkUType "u64x8" (EInt u64) 8 8;
  (* src/arch/unknown/vecs.rs:248 *) mkUType "i64x2" (EInt i64) 2 2;
  (* src/arch/unknown/vecs.rs:249 *) mkUType "i64x4" (EInt i64) 4 4;
  (* src/arch/unknown/vecs.rs:250 *) mkUType "i64x8" (EInt i64) 8 8;
  (* src/arch/unknown/vecs.rs:251 *) mkUType "f32x4" EF32 4 4;
  (* src/arch/unknown/vecs.rs:252 *) mkUType "f32x8" EF32 8 8;
  (* src/arch/unknown/vecs.rs:253 *) mkUType "f32x16" EF32 16 16;
  (* src/arch/unknown/vecs.rs:254 *) mkUType "u32x4" (EInt u32) 4 4;
  (* src/arch/unknown/vecs.rs:255 *) mkUType "u32x8" (EInt u32) 8 8;
  (* src/arch/unknown/vecs.rs:256 *) mkUType "u32x16" (EInt u32) 16 16;
  (* src/arch/unknown/vecs.rs:257 *) mkUType "i32x4" (EInt i32) 4 4;
  (* src/arch/unknown/vecs.rs:258 *) mkUType "i32x8" (EInt i32) 8 8;
  (* src/arch/unknown/vecs.rs:259 *) mkUType "i32x16" (EInt i32) 16 16;
  (* src/arch/unknown/vecs.rs:260 *) mkUType "u16x8" (EInt u16) 8 8;
  (* src/arch/unknown/vecs.rs:261 *) mkUType "u16x16" (EInt u16) 16 16;
  (* src/arch/unknown/vecs.rs:262 *) mkUType "u16x32" (EInt u16) 32 32;
  (* src/arch/unknown/vecs.rs:263 *) mkUType "i16x8" (EInt i16) 8 8;
  (* src/arch/unknown/vecs.rs:264 *) mkUType "i16x16" (EInt i16) 16 16;
  (* src/arch/unknown/vecs.rs:265 *) mkUType "i16x32" (EInt i16) 32 32;
  (* src/arch/unknown/vecs.rs:266 *) mkUType "u8x16" (EInt u8) 16 16;
  (* src/arch/unknown/vecs.rs:267 *) mkUType "u8x32" (EInt u8) 32 32;
  (* src/arch/unknown/vecs.rs:268 *) mkUType "u8x64" (EInt u8) 64 64;
  (* src/arch/unknown/vecs.rs:269 *) mkUType "i8x16" (EInt i8) 16 16;
  (* src/arch/unknown/vecs.rs:270 *) mkUType "i8x32" (EInt i8) 32 32;
  (* src/arch/unknown/vecs.rs:271 *) mkUType "i8x64" (EInt i8) 64 64].

(** src/arch/unknown/vecs.rs:300-380. *)
Definition unknown_ops : list uop := [
  (* src/arch/unknown/vecs.rs:300 *) mkUOp "i8x16" (EInt i8)
    [("Mul", "*"); ("Div", "/"); ("Add", "+"); ("Sub", "-"); ("Shl", "<<"); ("Shr", ">>"); ("Rem", "%"); ("BitAnd", "&"); ("BitOr", "|"); ("BitXor", "^")];
  (* src/arch/unknown/vecs.rs:303 *) mkUOp "u8x16" (EInt u8)
    [("Mul", "*"); ("Div", "/"); ("Add", "+"); ("Sub", "-"); ("Shl", "<<"); ("Shr", ">>"); ("Rem", "%"); ("BitAnd", "&"); ("BitOr", "|"); ("BitXor", "^")];
  (* src/arch/unknown/vecs.rs:306 *) mkUOp "i16x8" (EInt i16)
    [("Mul", "*"); ("Div", "/"); ("Add", "+"); ("Sub", "-"); ("Shl", "<<"); ("Shr", ">>"); ("Rem", "%"); ("BitAnd", "&"); ("BitOr", "|"); ("BitXor", "^")];
  (* src/arch/unknown/vecs.rs:309 *) mkUOp "u16x8" (EInt u16)
    [("Mul", "*"); ("Div", "/"); ("Add", "+"); ("Sub", "-"); ("Shl", "<<"); ("Shr", ">>"); ("Rem", "%"); ("BitAnd", "&"); ("BitOr", "|"); ("BitXor", "^")];
  (* src/arch/unknown/vecs.rs:312 *) mkUOp "i32x4" (EInt i32)
    [("Mul", "*"); ("Div", "/"); ("Add", "+"); ("Sub", "-"); ("Shl", "<<"); ("Shr", ">>"); ("Rem", "%"); ("BitAnd", "&"); ("BitOr", "|"); ("BitXor", "^")];
  (* src/arch/unknown/vecs.rs:315 *) mkUOp "u32x4" (EInt u32)
    [("Mul", "*"); ("Div", "/"); ("Add", "+"); ("Sub", "-"); ("Shl", "<<"); ("Shr", ">>"); ("Rem", "%"); ("BitAnd", "&"); ("BitOr", "|"); ("BitXor", "^")];
  (* src/arch/unknown/vecs.rs:318 *) mkUOp "f32x4" EF32
    [("Mul", "*"); ("Div", "/"); ("Add", "+"); ("Sub", "-")];
  (* src/arch/unknown/vecs.rs:319 *) mkUOp "i64x2" (EInt i64)
    [("Mul", "*"); ("Div", "/"); ("Add", "+"); ("Sub", "-"); ("Shl", "<<"); ("Shr", ">>"); ("Rem", "%"); ("BitAnd", "&"); ("BitOr", "|"); ("BitXor", "^")];
  (* src/arch/unknown/vecs.rs:322 *) mkUOp "u64x2" (EInt u64)
    [("Mul", "*"); ("Div", "/"); ("Add", "+"); ("Sub", "-"); ("Shl", "<<"); ("Shr", ">>"); ("Rem", "%"); ("BitAnd", "&"); ("BitOr", "|"); ("BitXor", "^")];
  (* src/arch/unknown/vecs.rs:325 *) mkUOp "f64x2" EF64
    [("Mul", "*"); ("Div", "/"); ("Add", "+"); ("Sub", "-")];
  (* src/arch/unknown/vecs.rs:327 *) mkUOp "i8x32" (EInt i8)
    [("Mul", "*"); ("Div", "/"); ("Add", "+"); ("Sub", "-"); ("Shl", "<<"); ("Shr", ">>"); ("Rem", "%"); ("BitAnd", "&"); ("BitOr", "|"); ("BitXor", "^")];
  (* src/arch/unknown/vecs.rs:330 *) mkUOp "u8x32" (EInt u8)
    [("Mul", "*"); ("Div", "/"); ("Add", "+"); ("Sub", "-"); ("Shl", "<<"); ("Shr", ">>"); ("Rem", "%"); ("BitAnd", "&"); ("BitOr", "|"); ("BitXor", "^")];
  (* src/arch/unknown/vecs.rs:333 *) mkUOp "i16x16" (EInt i16)
    [("Mul", "*"); ("Div", "/"); ("Add", "+"); ("Sub", "-"); ("Shl", "<<"); ("Shr", ">>"); ("Rem", "%"); ("BitAnd", "&"); ("BitOr", "|"); ("BitXor", "^")];
  (* src/arch/unknown/vecs.rs:336 *) mkUOp "u16x16" (EInt u16)
    [("Mul", "*"); ("Div", "/"); ("Add", "+"); ("Sub", "-"); ("Shl", "<<"); ("Shr", ">>"); ("Rem", "%"); ("BitAnd", "&"); ("BitOr", "|"); ("BitXor", "^")];
  (* src/arch/unknown/vecs.rs:339 *) mkUOp "i32x8" (EInt i32)
    [("Mul", "*"); ("Div", "/"); ("Add", "+"); ("Sub", "-"); ("Shl", "<<"); ("Shr", ">>"); ("Rem", "%"); ("BitAnd", "&"); ("BitOr", "|"); ("BitXor", "^")];
  (* src/arch/unknown/vecs.rs:342 *) mkUOp "u32x8" (EInt u32)
    [("Mul", "*"); ("Div", "/"); ("Add", "+"); ("Sub", "-"); ("Shl", "<<"); ("Shr", ">>"); ("Rem", "%"); ("BitAnd", "&"); ("BitOr", "|"); ("BitXor", "^")];
  (* src/arch/unknown/vecs.rs:345 *) mkUOp "f32x8" EF32
    [("Mul", "*"); ("Div", "/"); ("Add", "+"); ("Sub", "-")];
  (* src/arch/unknown/vecs.rs:346 *) mkUOp "i64x4" (EInt i64)
    [("Mul", "*"); ("Div", "/"); ("Add", "+"); ("Sub", "-"); ("Shl", "<<"); ("Shr", ">>"); ("Rem", "%"); ("BitAnd", "&"); ("BitOr", "|"); ("BitXor", "^")];
  (* src/arch/unknown/vecs.rs:349 *) mkUOp "u64x4" (EInt u64)
    [("Mul", "*"); ("Div", "/"); ("Add", "+"); ("Sub", "-"); ("Shl", "<<"); ("Shr", ">>"); ("Rem", "%"); ("BitAnd", "&"); ("BitOr", "|"); ("BitXor", "^")];
  (* src/arch/unknown/vecs.rs:352 *) mkUOp "f64x4" EF64
    [("Mul", "*"); ("Div", "/"); ("Add", "+"); ("Sub", "-")];
  (* src/arch/unknown/vecs.rs:354 *) mkUOp "i8x64" (EInt i8)
    [("Mul", "*"); ("Div", "/"); ("Add", "+"); ("Sub", "-"); ("Shl", "<<"); ("Shr", ">>"); ("Rem", "%"); ("BitAnd", "&"); ("BitOr", "|"); ("BitXor", "^")];
  (* src/arch/unknown/vecs.rs:357 *) mkUOp "u8x64" (EInt u8)
    [("Mul", "*"); ("Div", "/"); ("Add", "+"); ("Sub", "-"); ("Shl", "<<"); ("Shr", ">>"); ("Rem", "%"); ("BitAnd", "&"); ("BitOr", "|"); ("BitXor", "^")];
  (* src/arch/unknown/vecs.rs:360 *) mkUOp "i16x32" (EInt i16)
    [("Mul", "*"); ("Div", "/"); ("Add", "+"); ("Sub", "-"); ("Shl", "<<"); ("Shr", ">>"); ("Rem", "%"); ("BitAnd", "&"); ("BitOr", "|"); ("BitXor", "^")];
  (* src/arch/unknown/vecs.rs:363 *) mkUOp "u16x32" (EInt u16)
    [("Mul", "*"); ("Div", "/"); ("Add", "+"); ("Sub", "-"); ("Shl", "<<"); ("Shr", ">>"); ("Rem", "%"); ("BitAnd", "&"); ("BitOr", "|"); ("BitXor", "^")];
  (* src/arch/unknown/vecs.rs:366 *) mkUOp "i32x16" (EInt i32)
    [("Mul", "*"); ("Div", "/"); ("Add", "+"); ("Sub", "-"); ("Shl", "<<"); ("Shr", ">>"); ("Rem", "%"); ("BitAnd", "&"); ("BitOr", "|"); ("BitXor", "^")];
  (* src/arch/unknown/vecs.rs:369 *) mkUOp "u32x16" (EInt u32)
    [("Mul", "*"); ("Div", "/"); ("Add", "+"); ("Sub", "-"); ("Shl", "<<"); ("Shr", ">>"); ("Rem", "%"); ("BitAnd", "&"); ("BitOr", "|"); ("BitXor", "^")];
  (* src/arch/unknown/vecs.rs:372 *) mkUOp "f32x16" EF32
    [("Mul", "*"); ("Div", "/"); ("Add", "+"); ("Sub", "-")];
  (* src/arch/unknown/vecs.rs:373 *) mkUOp "i64x8" (EInt i64)
    [("Mul", "*"); ("Div", "/"); ("Add", "+"); ("Sub", "-"); ("Shl", "<<"); ("Shr", ">>"); ("Rem", "%"); ("BitAnd", "&"); ("BitOr", "|"); ("BitXor", "^")];
  (* src/arch/unknown/vecs.rs:376 *) mkUOp "u64x8" (EInt u64)
    [("Mul", "*"); ("Div", "/"); ("Add", "+"); ("Sub", "-"); ("Shl", "<<"); ("Shr", ">>"); ("Rem", "%"); ("BitAnd", "&"); ("BitOr", "|"); ("BitXor", "^")];
  (* src/arch/unknown/vecs.rs:379 *) mkUOp "f64x8" EF64
    [("Mul", "*"); ("Div", "/"); ("Add", "+"); ("Sub", "-")]].

(** src/arch/unknown/vecs.rs:381-461. *)
Definition unknown_assignops : list uop := [
  (* src/arch/unknown/vecs.rs:381 *) mkUOp "i8x16" (EInt i8)
    [("MulAssign", "*="); ("DivAssign", "/="); ("AddAssign", "+="); ("SubAssign", "-="); ("ShlAssign", "<<="); ("ShrAssign", ">>="); ("RemAssign", "%="); ("BitAndAssign", "&="); ("BitOrAssign", "|="); ("BitXorAssign", "^=")];
  (* src/arch/unknown/vecs.rs:384 *) mkUOp "u8x16" (EInt u8)
    [("MulAssign", "*="); ("DivAssign", "/="); ("AddAssign", "+="); ("SubAssign", "-="); ("ShlAssign", "<<="); ("ShrAssign", ">>="); ("RemAssign", "%="); ("BitAndAssign", "&="); ("BitOrAssign", "|="); ("BitXorAssign", "^=")];
  (* src/arch/unknown/vecs.rs:387 *) mkUOp "i16x8" (EInt i16)
    [("MulAssign", "*="); ("DivAssign", "/="); ("AddAssign", "+="); ("SubAssign", "-="); ("ShlAssign", "<<="); ("ShrAssign", ">>="); ("RemAssign", "%="); ("BitAndAssign", "&="); ("BitOrAssign", "|="); ("BitXorAssign", "^=")];
  (* src/arch/unknown/vecs.rs:390 *) mkUOp "u16x8" (EInt u16)
    [("MulAssign", "*="); ("DivAssign", "/="); ("AddAssign", "+="); ("SubAssign", "-="); ("ShlAssign", "<<="); ("ShrAssign", ">>="); ("RemAssign", "%="); ("BitAndAssign", "&="); ("BitOrAssign", "|="); ("BitXorAssign", "^=")];
  (* src/arch/unknown/vecs.rs:393 *) mkUOp "i32x4" (EInt i32)
    [("MulAssign", "*="); ("DivAssign", "/="); ("AddAssign", "+="); ("SubAssign", "-="); ("ShlAssign", "<<="); ("ShrAssign", ">>="); ("RemAssign", "%="); ("BitAndAssign", "&="); ("BitOrAssign", "|="); ("BitXorAssign", "^=")];
  (* src/arch/unknown/vecs.rs:396 *) mkUOp "u32x4" (EInt u32)
    [("MulAssign", "*="); ("DivAssign", "/="); ("AddAssign", "+="); ("SubAssign", "-="); ("ShlAssign", "<<="); ("ShrAssign", ">>="); ("RemAssign", "%="); ("BitAndAssign", "&="); ("BitOrAssign", "|="); ("BitXorAssign", "^=")];
  (* src/arch/unknown/vecs.rs:399 *) mkUOp "f32x4" EF32
    [("MulAssign", "*="); ("DivAssign", "/="); ("AddAssign", "+="); ("SubAssign", "-=")];
  (* src/arch/unknown/vecs.rs:400 *) mkUOp "i64x2" (EInt i64)
    [("MulAssign", "*="); ("DivAssign", "/="); ("AddAssign", "+="); ("SubAssign", "-="); ("ShlAssign", "<<="); ("ShrAssign", ">>="); ("RemAssign", "%="); ("BitAndAssign", "&="); ("BitOrAssign", "|="); ("BitXorAssign", "^=")];
  (* src/arch/unknown/vecs.rs:403 *) mkUOp "u64x2" (EInt u64)
    [("MulAssign", "*="); ("DivAssign", "/="); ("AddAssign", "+="); ("SubAssign", "-="); ("ShlAssign", "<<="); ("ShrAssign", ">>="); ("RemAssign", "%="); ("BitAndAssign", "&="); ("BitOrAssign", "|="); ("BitXorAssign", "^=")];
  (* src/arch/unknown/vecs.rs:406 *) mkUOp "f64x2" EF64
    [("MulAssign", "*="); ("DivAssign", "/="); ("AddAssign", "+="); ("SubAssign", "-=")];
  (* src/arch/unknown/vecs.rs:408 *) mkUOp "i8x32" (EInt i8)
    [("MulAssign", "*="); ("DivAssign", "/="); ("AddAssign", "+="); ("SubAssign", "-="); ("ShlAssign", "<<="); ("ShrAssign", ">>="); ("RemAssign", "%="); ("BitAndAssign", "&="); ("BitOrAssign", "|="); ("BitXorAssign", "^=")];
  (* src/arch/unknown/vecs.rs:411 *) mkUOp "u8x32" (EInt u8)
    [("MulAssign", "*="); ("DivAssign", "/="); ("AddAssign", "+="); ("SubAssign", "-="); ("ShlAssign", "<<="); ("ShrAssign", ">>="); ("RemAssign", "%="); ("BitAndAssign", "&="); ("BitOrAssign", "|="); ("BitXorAssign", "^=")];
  (* src/arch/unknown/vecs.rs:414 *) mkUOp "i16x16" (EInt i16)
    [("MulAssign", "*="); ("DivAssign", "/="); ("AddAssign", "+="); ("SubAssign", "-="); ("ShlAssign", "<<="); ("ShrAssign", ">>="); ("RemAssign", "%="); ("BitAndAssign", "&="); ("BitOrAssign", "|="); ("BitXorAssign", "^=")];
  (* src/arch/unknown/vecs.rs:417 *) mkUOp "u16x16" (EInt u16)
    [("MulAssign", "*="); ("DivAssign", "/="); ("AddAssign", "+="); ("SubAssign", "-="); ("ShlAssign", "<<="); ("ShrAssign", ">>="); ("RemAssign", "%="); ("BitAndAssign", "&="); ("BitOrAssign", "|="); ("BitXorAssign", "^=")];
  (* src/arch/unknown/vecs.rs:420 *) mkUOp "i32x8" (EInt i32)
    [("MulAssign", "*="); ("DivAssign", "/="); ("AddAssign", "+="); ("SubAssign", "-="); ("ShlAssign", "<<="); ("ShrAssign", ">>="); ("RemAssign", "%="); ("BitAndAssign", "&="); ("BitOrAssign", "|="); ("BitXorAssign", "^=")];
  (* src/arch/unknown/vecs.rs:423 *) mkUOp "u32x8" (EInt u32)
    [("MulAssign", "*="); ("DivAssign", "/="); ("AddAssign", "+="); ("SubAssign", "-="); ("ShlAssign", "<<="); ("ShrAssign", ">>="); ("RemAssign", "%="); ("BitAndAssign", "&="); ("BitOrAssign", "|="); ("BitXorAssign", "^=")];
  (* src/arch/unknown/vecs.rs:426 *) mkUOp "f32x8" EF32
    [("MulAssign", "*="); ("DivAssign", "/="); ("AddAssign", "+="); ("SubAssign", "-=")];
  (* src/arch/unknown/vecs.rs:427 *) mkUOp "i64x4" (EInt i64)
    [("MulAssign", "*="); ("DivAssign", "/="); ("AddAssign", "+="); ("SubAssign", "-="); ("ShlAssign", "<<="); ("ShrAssign", ">>="); ("RemAssign", "%="); ("BitAndAssign", "&="); ("BitOrAssign", "|="); ("BitXorAssign", "^=")];
  (* src/arch/unknown/vecs.rs:430 *) mkUOp "u64x4" (EInt u64)
    [("MulAssign", "*="); ("DivAssign", "/="); ("AddAssign", "+="); ("SubAssign", "-="); ("ShlAssign", "<<="); ("ShrAssign", ">>="); ("RemAssign", "%="); ("BitAndAssign", "&="); ("BitOrAssign", "|="); ("BitXorAssign", "^=")];
  (* src/arch/unknown/vecs.rs:433 *) mkUOp "f64x4" EF64
    [("MulAssign", "*="); ("DivAssign", "/="); ("AddAssign", "+="); ("SubAssign", "-=")];
  (* src/arch/unknown/vecs.rs:435 *) mkUOp "i8x64" (EInt i8)
    [("MulAssign", "*="); ("DivAssign", "/="); ("AddAssign", "+="); ("SubAssign", "-="); ("ShlAssign", "<<="); ("ShrAssign", ">>="); ("RemAssign", "%="); ("BitAndAssign", "&="); ("BitOrAssign", "|="); ("BitXorAssign", "^=")];
  (* src/arch/unknown/vecs.rs:438 *) mkUOp "u8x64" (EInt u8)
    [("MulAssign", "*="); ("DivAssign", "/="); ("AddAssign", "+="); ("SubAssign", "-="); ("ShlAssign", "<<="); ("ShrAssign", ">>="); ("RemAssign", "%="); ("BitAndAssign", "&="); ("BitOrAssign", "|="); ("BitXorAssign", "^=")];
  (* src/arch/unknown/vecs.rs:441 *) mkUOp "i16x32" (EInt i16)
    [("MulAssign", "*="); ("DivAssign", "/="); ("AddAssign", "+="); ("SubAssign", "-="); ("ShlAssign", "<<="); ("ShrAssign", ">>="); ("RemAssign", "%="); ("BitAndAssign", "&="); ("BitOrAssign", "|="); ("BitXorAssign", "^=")];
  (* src/arch/unknown/vecs.rs:444 *) mkUOp "u16x32" (EInt u16)
    [("MulAssign", "*="); ("DivAssign", "/="); ("AddAssign", "+="); ("SubAssign", "-="); ("ShlAssign", "<<="); ("ShrAssign", ">>="); ("RemAssign", "%="); ("BitAndAssign", "&="); ("BitOrAssign", "|="); ("BitXorAssign", "^=")];
  (* src/arch/unknown/vecs.rs:447 *) mkUOp "i32x16" (EInt i32)
    [("MulAssign", "*="); ("DivAssign", "/="); ("AddAssign", "+="); ("SubAssign", "-="); ("ShlAssign", "<<="); ("ShrAssign", ">>="); ("RemAssign", "%="); ("BitAndAssign", "&="); ("BitOrAssign", "|="); ("BitXorAssign", "^=")];
  (* src/arch/unknown/vecs.rs:450 *) mkUOp "u32x16" (EInt u32)
    [("MulAssign", "*="); ("DivAssign", "/="); ("AddAssign", "+="); ("SubAssign", "-="); ("ShlAssign", "<<="); ("ShrAssign", ">>="); ("RemAssign", "%="); ("BitAndAssign", "&="); ("BitOrAssign", "|="); ("BitXorAssign", "^=")];
  (* src/arch/unknown/vecs.rs:453 *) mkUOp "f32x16" EF32
    [("MulAssign", "*="); ("DivAssign", "/="); ("AddAssign", "+="); ("SubAssign", "-=")];
  (* src/arch/unknown/vecs.rs:454 *) mkUOp "i64x8" (EInt i64)
    [("MulAssign", "*="); ("DivAssign", "/="); ("AddAssign", "+="); ("SubAssign", "-="); ("ShlAssign", "<<="); ("ShrAssign", ">>="); ("RemAssign", "%="); ("BitAndAssign", "&="); ("BitOrAssign", "|="); ("BitXorAssign", "^=")];
  (* src/arch/unknown/vecs.rs:457 *) mkUOp "u64x8" (EInt u64)
    [("MulAssign", "*="); ("DivAssign", "/="); ("AddAssign", "+="); ("SubAssign", "-="); ("ShlAssign", "<<="); ("ShrAssign", ">>="); ("RemAssign", "%="); ("BitAndAssign", "&="); ("BitOrAssign", "|="); ("BitXorAssign", "^=")];
  (* src/arch/unknown/vecs.rs:460 *) mkUOp "f64x8" EF64
    [("MulAssign", "*="); ("DivAssign", "/="); ("AddAssign", "+="); ("SubAssign", "-=")]].

(** src/arch/unknown/vecs.rs:462-520. *)
Definition unknown_casts : list ucast := [
  (* src/arch/unknown/vecs.rs:462 *) mkUCast "i8x16" "u8x16" (EInt u8) "as_u8x16";
  (* src/arch/unknown/vecs.rs:463 *) mkUCast "u8x16" "i8x16" (EInt i8) "as_i8x16";
  (* src/arch/unknown/vecs.rs:465 *) mkUCast "i8x32" "u8x32" (EInt u8) "as_u8x32";
  (* src/arch/unknown/vecs.rs:466 *) mkUCast "u8x32" "i8x32" (EInt i8) "as_i8x32";
  (* src/arch/unknown/vecs.rs:468 *) mkUCast "i8x64" "u8x64" (EInt u8) "as_u8x64";
  (* src/arch/unknown/vecs.rs:469 *) mkUCast "u8x64" "i8x64" (EInt i8) "as_i8x64";
  (* src/arch/unknown/vecs.rs:471 *) mkUCast "i16x8" "u16x8" (EInt u16) "as_u16x8";
  (* src/arch/unknown/vecs.rs:472 *) mkUCast "u16x8" "i16x8" (EInt i16) "as_i16x8";
  (* src/arch/unknown/vecs.rs:474 *) mkUCast "i16x16" "u16x16" (EInt u16) "as_u16x16";
  (* src/arch/unknown/vecs.rs:475 *) mkUCast "u16x16" "i16x16" (EInt i16) "as_i16x16";
  (* src/arch/unknown/vecs.rs:477 *) mkUCast "i16x32" "u16x32" (EInt u16) "as_u16x32";
  (* src/arch/unknown/vecs.rs:478 *) mkUCast "u16x32" "i16x32" (EInt i16) "as_i16x32";
  (* src/arch/unknown/vecs.rs:480 *) mkUCast "i32x4" "u32x4" (EInt u32) "as_u32x4";
  (* src/arch/unknown/vecs.rs:481 *) mkUCast "f32x4" "u32x4" (EInt u32) "as_u32x4";
  (* src/arch/unknown/vecs.rs:482 *) mkUCast "f32x4" "i32x4" (EInt i32) "as_i32x4";
  (* src/arch/unknown/vecs.rs:483 *) mkUCast "u32x4" "i32x4" (EInt i32) "as_i32x4";
  (* src/arch/unknown/vecs.rs:484 *) mkUCast "u32x4" "f32x4" EF32 "as_f32x4";
  (* src/arch/unknown/vecs.rs:485 *) mkUCast "i32x4" "f32x4" EF32 "as_f32x4";
  (* src/arch/unknown/vecs.rs:487 *) mkUCast "i32x8" "u32x8" (EInt u32) "as_u32x8";
  (* src/arch/unknown/vecs.rs:488 *) mkUCast "f32x8" "u32x8" (EInt u32) "as_u32x8";
  (* src/arch/unknown/vecs.rs:489 *) mkUCast "f32x8" "i32x8" (EInt i32) "as_i32x8";
  (* src/arch/unknown/vecs.rs:490 *) mkUCast "u32x8" "i32x8" (EInt i32) "as_i32x8";
  (* src/arch/unknown/vecs.rs:491 *) mkUCast "u32x8" "f32x8" EF32 "as_f32x8";
  (* src/arch/unknown/vecs.rs:492 *) mkUCast "i32x8" "f32x8" EF32 "as_f32x8";
  (* src/arch/unknown/vecs.rs:494 *) mkUCast "i32x16" "u32x16" (EInt u32) "as_u32x16";
  (* src/arch/unknown/vecs.rs:495 *) mkUCast "f32x16" "u32x16" (EInt u32) "as_u32x16";
  (* src/arch/unknown/vecs.rs:496 *) mkUCast "f32x16" "i32x16" (EInt i32) "as_i32x16";
  (* src/arch/unknown/vecs.rs:497 *) mkUCast "u32x16" "i32x16" (EInt i32) "as_i32x16";
  (* src/arch/unknown/vecs.rs:498 *) mkUCast "u32x16" "f32x16" EF32 "as_f32x16";
  (* src/arch/unknown/vecs.rs:499 *) mkUCast "i32x16" "f32x16" EF32 "as_f32x16";
  (* src/arch/unknown/vecs.rs:501 *) mkUCast "i64x2" "u64x2" (EInt u64) "as_u64x2";
  (* src/arch/unknown/vecs.rs:502 *) mkUCast "f64x2" "u64x2" (EInt u64) "as_u64x2";
  (* src/arch/unknown/vecs.rs:503 *) mkUCast "f64x2" "i64x2" (EInt i64) "as_i64x2";
  (* src/arch/unknown/vecs.rs:504 *) mkUCast "u64x2" "i64x2" (EInt i64) "as_i64x2";
  (* src/arch/unknown/vecs.rs:505 *) mkUCast "u64x2" "f64x2" EF64 "as_f64x2";
  (* src/arch/unknown/vecs.rs:506 *) mkUCast "i64x2" "f64x2" EF64 "as_f64x2";
  (* src/arch/unknown/vecs.rs:508 *) mkUCast "i64x4" "u64x4" (EInt u64) "as_u64x4";
  (* src/arch/unknown/vecs.rs:509 *) mkUCast "f64x4" "u64x4" (EInt u64) "as_u64x4";
  (* src/arch/unknown/vecs.rs:510 *) mkUCast "f64x4" "i64x4" (EInt i64) "as_i64x4";
  (* src/arch/unknown/vecs.rs:511 *) mkUCast "u64x4" "i64x4" (EInt i64) "as_i64x4";
  (* src/arch/unknown/vecs.rs:512 *) mkUCast "u64x4" "f64x4" EF64 "as_f64x4";
  (* src/arch/unknown/vecs.rs:513 *) mkUCast "i64x4" "f64x4" EF64 "as_f64x4";
  (* src/arch/unknown/vecs.rs:515 *) mkUCast "i64x8" "u64x8" (EInt u64) "as_u64x8";
  (* src/arch/unknown/vecs.rs:516 *) mkUCast "f64x8" "u64x8" (EInt u64) "as_u64x8";
  (* src/arch/unknown/vecs.rs:517 *) mkUCast "f64x8" "i64x8" (EInt i64) "as_i64x8";
  (* src/arch/unknown/vecs.rs:518 *) mkUCast "u64x8" "i64x8" (EInt i64) "as_i64x8";
  (* src/arch/unknown/vecs.rs:519 *) mkUCast "u64x8" "f64x8" EF64 "as_f64x8";
  (* src/arch/unknown/vecs.rs:520 *) mkUCast "i64x8" "f64x8" EF64 "as_f64x8"].

(** src/arch/unknown/vecs.rs:273-298. *)
Definition unknown_froms : list ufrom := [
  (* src/arch/unknown/vecs.rs:273 *) mkUFrom "u64x2" ["i64x2"; "u32x4"; "i32x4"; "u16x8"; "i16x8"; "u8x16"; "i8x16"];
  (* src/arch/unknown/vecs.rs:274 *) mkUFrom "i64x2" ["u64x2"; "u32x4"; "i32x4"; "u16x8"; "i16x8"; "u8x16"; "i8x16"];
  (* src/arch/unknown/vecs.rs:275 *) mkUFrom "u32x4" ["u64x2"; "i64x2"; "i32x4"; "u16x8"; "i16x8"; "u8x16"; "i8x16"];
  (* src/arch/unknown/vecs.rs:276 *) mkUFrom "i32x4" ["u64x2"; "i64x2"; "u32x4"; "u16x8"; "i16x8"; "u8x16"; "i8x16"];
  (* src/arch/unknown/vecs.rs:277 *) mkUFrom "u16x8" ["u64x2"; "i64x2"; "u32x4"; "i32x4"; "i16x8"; "u8x16"; "i8x16"];
  (* src/arch/unknown/vecs.rs:278 *) mkUFrom "i16x8" ["u64x2"; "i64x2"; "u32x4"; "i32x4"; "u16x8"; "u8x16"; "i8x16"];
  (* src/arch/unknown/vecs.rs:279 *) mkUFrom "u8x16" ["u64x2"; "i64x2"; "u32x4"; "i32x4"; "u16x8"; "i16x8"; "i8x16"];
  (* src/arch/unknown/vecs.rs:280 *) mkUFrom "i8x16" ["u64x2"; "i64x2"; "u32x4"; "i32x4"; "u16x8"; "i16x8"; "u8x16"];
  (* src/arch/unknown/vecs.rs:282 *) mkUFrom "u64x4" ["i64x4"; "u32x8"; "i32x8"; "u16x16"; "i16x16"; "u8x32"; "i8x32"];
  (* src/arch/unknown/vecs.rs:283 *) mkUFrom "i64x4" ["u64x4"; "u32x8"; "i32x8"; "u16x16"; "i16x16"; "u8x32"; "i8x32"];
  (* src/arch/unknown/vecs.rs:284 *) mkUFrom "u32x8" ["u64x4"; "i64x4"; "i32x8"; "u16x16"; "i16x16"; "u8x32"; "i8x32"];
  (* src/arch/unknown/vecs.rs:285 *) mkUFrom "i32x8" ["u64x4"; "i64x4"; "u32x8"; "u16x16"; "i16x16"; "u8x32"; "i8x32"];
  (* src/arch/unknown/vecs.rs:286 *) mkUFrom "u16x16" ["u64x4"; "i64x4"; "u32x8"; "i32x8"; "i16x16"; "u8x32"; "i8x32"];
  (* src/arch/unknown/vecs.rs:287 *) mkUFrom "i16x16" ["u64x4"; "i64x4"; "u32x8"; "i32x8"; "u16x16"; "u8x32"; "i8x32"];
  (* src/arch/unknown/vecs.rs:288 *) mkUFrom "u8x32" ["u64x4"; "i64x4"; "u32x8"; "i32x8"; "u16x16"; "i16x16"; "i8x32"];
  (* src/arch/unknown/vecs.rs:289 *) mkUFrom "i8x32" ["u64x4"; "i64x4"; "u32x8"; "i32x8"; "u16x16"; "i16x16"; "u8x32"];
  (* src/arch/unknown/vecs.rs:291 *) mkUFrom "u64x8" ["i64x8"; "u32x16"; "i32x16"; "u16x32"; "i16x32"; "u8x64"; "i8x64"];
  (* src/arch/unknown/vecs.rs:292 *) mkUFrom "i64x8" ["u64x8"; "u32x16"; "i32x16"; "u16x32"; "i16x32"; "u8x64"; "i8x64"];
  (* src/arch/unknown/vecs.rs:293 *) mkUFrom "u32x16" ["u64x8"; "i64x8"; "i32x16"; "u16x32"; "i16x32"; "u8x64"; "i8x64"];
  (* src/arch/unknown/vecs.rs:294 *) mkUFrom "i32x16" ["u64x8"; "i64x8"; "u32x16"; "u16x32"; "i16x32"; "u8x64"; "i8x64"];
  (* src/arch/unknown/vecs.rs:295 *) mkUFrom "u16x32" ["u64x8"; "i64x8"; "u32x16"; "i32x16"; "i16x32"; "u8x64"; "i8x64"];
  (* src/arch/unknown/vecs.rs:296 *) mkUFrom "i16x32" ["u64x8"; "i64x8"; "u32x16"; "i32x16"; "u16x32"; "u8x64"; "i8x64"];
  (* src/arch/unknown/vecs.rs:297 *) mkUFrom "u8x64" ["u64x8"; "i64x8"; "u32x16"; "i32x16"; "u16x32"; "i16x32"; "i8x64"];
  (* src/arch/unknown/vecs.rs:298 *) mkUFrom "i8x64" ["u64x8"; "i64x8"; "u32x16"; "i32x16"; "u16x32"; "i16x32"; "u8x64"]].

