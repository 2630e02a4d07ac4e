(** The x86 vector instructions the library calls, on bytes or integer lanes.
    These definitions are the manufacturer's documented semantics and belong to the
    trusted base; each is named after the intrinsic(s) it models. *)
From Coq Require Import String.
From Verif Require Import Base Lanes Floats.
Open Scope list_scope.
Open Scope Z_scope.

(** Not in the source: lane-wise instructions (src/intrin/macros.rs:32-54). *)
Fixpoint zipw {A B C : Type} (f : A -> B -> C) (a : list A) (b : list B) : list C :=
  match a, b with
  | x :: a', y :: b' => f x y :: zipw f a' b'
  | _, _ => []
  end.

(** Apply a 128-bit instruction to each 16-byte (or n-element) half of a wider
    register.
    E.g. [_mm256_shuffle_epi8], src/arch/x86/intrin/swizzle.rs:11-92. *)
Definition per_half2 {A B : Type} (n : nat) (f : list A -> list A -> list B) (a b : list A) : list B :=
  f (firstn n a) (firstn n b) ++ f (skipn n a) (skipn n b).

(** [_mm_blendv_epi8], [_mm256_blendv_epi8]: the top bit of each mask byte selects
    the byte of [b].
    Used by src/arch/x86/intrin/merge.rs:12-49 and src/arch/x86/vec_patterns.rs:172-1940. *)
Fixpoint blendv_epi8 (a b m : list Z) : list Z :=
  match a, b, m with
  | x :: a', y :: b', k :: m' => (if 128 <=? k then y else x) :: blendv_epi8 a' b' m'
  | _, _, _ => []
  end.

(** [_mm_shuffle_epi8]: a control byte with its top bit set gives 0, otherwise its
    low four bits index the 16 source bytes.
    Used by src/arch/x86/intrin/destride.rs:16-79, endian.rs:15-78, swizzle.rs:14-95 and popcnt.rs:28-29. *)
Definition pshufb (a ctrl : list Z) : list Z :=
  map (fun k => if 128 <=? k then 0 else nth (Z.to_nat (k mod 16)) a 0) ctrl.
(** [_mm256_shuffle_epi8]: each 128-bit half on its own.
    Used by src/arch/x86/intrin/destride.rs:45-106, endian.rs:12-75, swizzle.rs:11-92 and popcnt.rs:51-52. *)
Definition pshufb256 (a ctrl : list Z) : list Z := per_half2 16 pshufb a ctrl.

(** Equality of argument lists as written in src/arch/x86/intrin/*.rs. *)
Fixpoint strings_eqb (a b : list string) : bool :=
  match a, b with
  | [], [] => true
  | x :: a', y :: b' => String.eqb x y && strings_eqb a' b'
  | _, _ => false
  end.

(** Instructions that work lane by lane on two registers: name, immediate
    arguments, register size in bytes, lane type and the operation on a lane (float
    lanes are bit patterns).  [exec2] reads the registers as such lanes.
    Used through src/intrin/macros.rs:32-54 and src/intrin/eq.rs:46-76. *)
Record instr2 := mkI2 {
  i2_name : string; i2_args : list string; i2_reg : nat; i2_ty : ity; i2_op : Z -> Z -> Z }.
(** Running one (src/intrin/macros.rs:32-54, src/intrin/eq.rs:46-76). *)
Definition exec2 (i : instr2) (a b : list Z) : list Z :=
  bytes_of (i2_ty i) (zipw (i2_op i) (lanes_of (i2_ty i) a) (lanes_of (i2_ty i) b)).
(** The instructions named in src/arch/x86/intrin/eq.rs, cmp.rs, saturating_add.rs and saturating_sub.rs. *)
Definition binary_instrs : list instr2 :=
  [
    mkI2 "_mm_min_epu8"%string [] 16 u8 Z.min;
    mkI2 "_mm_max_epu8"%string [] 16 u8 Z.max;
    mkI2 "_mm_min_epi8"%string [] 16 i8 Z.min;
    mkI2 "_mm_max_epi8"%string [] 16 i8 Z.max;
    mkI2 "_mm_min_epu16"%string [] 16 u16 Z.min;
    mkI2 "_mm_max_epu16"%string [] 16 u16 Z.max;
    mkI2 "_mm_min_epi16"%string [] 16 i16 Z.min;
    mkI2 "_mm_max_epi16"%string [] 16 i16 Z.max;
    mkI2 "_mm_min_epu32"%string [] 16 u32 Z.min;
    mkI2 "_mm_max_epu32"%string [] 16 u32 Z.max;
    mkI2 "_mm_min_epi32"%string [] 16 i32 Z.min;
    mkI2 "_mm_max_epi32"%string [] 16 i32 Z.max;
    mkI2 "_mm_adds_epu8"%string [] 16 u8 (fun x y => clamp u8 (x + y));
    mkI2 "_mm_subs_epu8"%string [] 16 u8 (fun x y => clamp u8 (x - y));
    mkI2 "_mm_adds_epi8"%string [] 16 i8 (fun x y => clamp i8 (x + y));
    mkI2 "_mm_subs_epi8"%string [] 16 i8 (fun x y => clamp i8 (x - y));
    mkI2 "_mm_adds_epu16"%string [] 16 u16 (fun x y => clamp u16 (x + y));
    mkI2 "_mm_subs_epu16"%string [] 16 u16 (fun x y => clamp u16 (x - y));
    mkI2 "_mm_adds_epi16"%string [] 16 i16 (fun x y => clamp i16 (x + y));
    mkI2 "_mm_subs_epi16"%string [] 16 i16 (fun x y => clamp i16 (x - y));
    mkI2 "_mm_cmpeq_epi8"%string [] 16 u8 (fun x y => if x =? y then imax u8 else 0);
    mkI2 "_mm_cmpeq_epi16"%string [] 16 u16 (fun x y => if x =? y then imax u16 else 0);
    mkI2 "_mm_cmpeq_epi32"%string [] 16 u32 (fun x y => if x =? y then imax u32 else 0);
    mkI2 "_mm_cmpeq_epi64"%string [] 16 u64 (fun x y => if x =? y then imax u64 else 0);
    mkI2 "_mm_min_ps"%string [] 16 u32 (fun x y => if f_lt fmt32 x y then x else y);
    mkI2 "_mm_max_ps"%string [] 16 u32 (fun x y => if f_lt fmt32 y x then x else y);
    mkI2 "_mm_cmpeq_ps"%string [] 16 u32 (fun x y => if f_eq fmt32 x y then imax u32 else 0);
    mkI2 "_mm_min_pd"%string [] 16 u64 (fun x y => if f_lt fmt64 x y then x else y);
    mkI2 "_mm_max_pd"%string [] 16 u64 (fun x y => if f_lt fmt64 y x then x else y);
    mkI2 "_mm_cmpeq_pd"%string [] 16 u64 (fun x y => if f_eq fmt64 x y then imax u64 else 0);
    mkI2 "_mm256_min_epu8"%string [] 32 u8 Z.min;
    mkI2 "_mm256_max_epu8"%string [] 32 u8 Z.max;
    mkI2 "_mm256_min_epi8"%string [] 32 i8 Z.min;
    mkI2 "_mm256_max_epi8"%string [] 32 i8 Z.max;
    mkI2 "_mm256_min_epu16"%string [] 32 u16 Z.min;
    mkI2 "_mm256_max_epu16"%string [] 32 u16 Z.max;
    mkI2 "_mm256_min_epi16"%string [] 32 i16 Z.min;
    mkI2 "_mm256_max_epi16"%string [] 32 i16 Z.max;
    mkI2 "_mm256_min_epu32"%string [] 32 u32 Z.min;
    mkI2 "_mm256_max_epu32"%string [] 32 u32 Z.max;
    mkI2 "_mm256_min_epi32"%string [] 32 i32 Z.min;
    mkI2 "_mm256_max_epi32"%string [] 32 i32 Z.max;
    mkI2 "_mm256_adds_epu8"%string [] 32 u8 (fun x y => clamp u8 (x + y));
    mkI2 "_mm256_subs_epu8"%string [] 32 u8 (fun x y => clamp u8 (x - y));
    mkI2 "_mm256_adds_epi8"%string [] 32 i8 (fun x y => clamp i8 (x + y));
    mkI2 "_mm256_subs_epi8"%string [] 32 i8 (fun x y => clamp i8 (x - y));
    mkI2 "_mm256_adds_epu16"%string [] 32 u16 (fun x y => clamp u16 (x + y));
    mkI2 "_mm256_subs_epu16"%string [] 32 u16 (fun x y => clamp u16 (x - y));
    mkI2 "_mm256_adds_epi16"%string [] 32 i16 (fun x y => clamp i16 (x + y));
    mkI2 "_mm256_subs_epi16"%string [] 32 i16 (fun x y => clamp i16 (x - y));
    mkI2 "_mm256_cmpeq_epi8"%string [] 32 u8 (fun x y => if x =? y then imax u8 else 0);
    mkI2 "_mm256_cmpeq_epi16"%string [] 32 u16 (fun x y => if x =? y then imax u16 else 0);
    mkI2 "_mm256_cmpeq_epi32"%string [] 32 u32 (fun x y => if x =? y then imax u32 else 0);
    mkI2 "_mm256_cmpeq_epi64"%string [] 32 u64 (fun x y => if x =? y then imax u64 else 0);
    mkI2 "_mm256_min_ps"%string [] 32 u32 (fun x y => if f_lt fmt32 x y then x else y);
    mkI2 "_mm256_max_ps"%string [] 32 u32 (fun x y => if f_lt fmt32 y x then x else y);
    mkI2 "_mm256_cmp_ps"%string ["0x00"%string] 32 u32 (fun x y => if f_eq fmt32 x y then imax u32 else 0);
    mkI2 "_mm256_min_pd"%string [] 32 u64 (fun x y => if f_lt fmt64 x y then x else y);
    mkI2 "_mm256_max_pd"%string [] 32 u64 (fun x y => if f_lt fmt64 y x then x else y);
    mkI2 "_mm256_cmp_pd"%string ["0x00"%string] 32 u64 (fun x y => if f_eq fmt64 x y then imax u64 else 0)
  ].

(** The same for one register; [fsqrt32] and [fsqrt64] are the correctly rounded
    square roots.
    Used through src/intrin/macros.rs:9-30. *)
Record instr1 := mkI1 {
  i1_name : string; i1_args : list string; i1_reg : nat; i1_ty : ity; i1_op : Z -> Z }.
(** Running one (src/intrin/macros.rs:9-30). *)
Definition exec1 (i : instr1) (a : list Z) : list Z :=
  bytes_of (i1_ty i) (map (i1_op i) (lanes_of (i1_ty i) a)).
(** The instructions named in src/arch/x86/intrin/round.rs and sqrt.rs. *)
Definition unary_instrs (fsqrt32 fsqrt64 : Z -> Z) : list instr1 :=
  [
    mkI1 "_mm_round_ps"%string ["_MM_FROUND_TO_NEAREST_INT"%string] 16 u32 (f_nearest_even fmt32);
    mkI1 "_mm_round_ps"%string ["_MM_FROUND_TRUNC"%string] 16 u32 (f_trunc fmt32);
    mkI1 "_mm_ceil_ps"%string [] 16 u32 (f_ceil fmt32);
    mkI1 "_mm_floor_ps"%string [] 16 u32 (f_floor fmt32);
    mkI1 "_mm_sqrt_ps"%string [] 16 u32 fsqrt32;
    mkI1 "_mm_round_pd"%string ["_MM_FROUND_TO_NEAREST_INT"%string] 16 u64 (f_nearest_even fmt64);
    mkI1 "_mm_round_pd"%string ["_MM_FROUND_TRUNC"%string] 16 u64 (f_trunc fmt64);
    mkI1 "_mm_ceil_pd"%string [] 16 u64 (f_ceil fmt64);
    mkI1 "_mm_floor_pd"%string [] 16 u64 (f_floor fmt64);
    mkI1 "_mm_sqrt_pd"%string [] 16 u64 fsqrt64;
    mkI1 "_mm256_round_ps"%string ["_MM_FROUND_TO_NEAREST_INT"%string] 32 u32 (f_nearest_even fmt32);
    mkI1 "_mm256_round_ps"%string ["_MM_FROUND_TRUNC"%string] 32 u32 (f_trunc fmt32);
    mkI1 "_mm256_ceil_ps"%string [] 32 u32 (f_ceil fmt32);
    mkI1 "_mm256_floor_ps"%string [] 32 u32 (f_floor fmt32);
    mkI1 "_mm256_sqrt_ps"%string [] 32 u32 fsqrt32;
    mkI1 "_mm256_round_pd"%string ["_MM_FROUND_TO_NEAREST_INT"%string] 32 u64 (f_nearest_even fmt64);
    mkI1 "_mm256_round_pd"%string ["_MM_FROUND_TRUNC"%string] 32 u64 (f_trunc fmt64);
    mkI1 "_mm256_ceil_pd"%string [] 32 u64 (f_ceil fmt64);
    mkI1 "_mm256_floor_pd"%string [] 32 u64 (f_floor fmt64);
    mkI1 "_mm256_sqrt_pd"%string [] 32 u64 fsqrt64
  ].
