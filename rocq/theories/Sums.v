(** Model of [sum], [sum_upcast], [count_ones] and [count_zeroes].  A vector is the
    list of its lanes; a float lane is its bit pattern. *)
From Coq Require Import String.
From Verif Require Import Base Vecs Lanes Floats X86 X86Reg OpTables Ops Ports SumTables.
Open Scope list_scope.
Open Scope Z_scope.

Section Sums.
(** Float addition on bit patterns: the same for the scalar operator and the
    instructions, otherwise unspecified. *)
Variable fadd : elty -> Z -> Z -> Z.

(** Scalar [+].
    src/intrin/sum.rs:21-33. *)
Definition scalar_add (c : config) (e : elty) (x y : Z) : outcome Z :=
  match e with EInt t => iarith c t (x + y) | _ => Ok (fadd e x y) end.

(** src/intrin/sum.rs:21-33 [impl_packed_sum!]; [0 as Self::Scalar] is the pattern 0
    for floats as well. *)
Definition sum_portable (c : config) (s : fold_impl) (v : list Z) : outcome Z :=
  let! r := scalar_reduce (WIDTH (s_ty s)) v (Ok 0)
    (fun acc x => let! a := acc in scalar_add c (s_el s) a x) in r.

(** [x as i64] of a float: towards zero.  NaN, infinities and values out of range are
    undefined behaviour in the compiler the crate is written for.
    src/intrin/sum.rs:35-47. *)
Definition f_as_i64 (f : ffmt) (x : Z) : outcome Z :=
  let m := if 0 <=? f_pow f x then f_sig f x * 2 ^ f_pow f x else f_sig f x / 2 ^ (- f_pow f x) in
  let r := if f_sign f x then - m else m in
  if f_finite f x && (imin i64 <=? r) && (r <=? imax i64) then Ok r else UB.
(** [x as i64], src/intrin/sum.rs:35-47. *)
Definition as_i64 (e : elty) (x : Z) : outcome Z :=
  match e with
  | EInt _ => Ok (wrap i64 x)
  | EF32 => f_as_i64 fmt32 x
  | EF64 => f_as_i64 fmt64 x
  end.
(** src/intrin/sum.rs:35-47 [impl_packed_upcast_sum!]. *)
Definition sum_upcast_portable (c : config) (s : fold_impl) (v : list Z) : outcome Z :=
  let! r := scalar_reduce (WIDTH (s_ty s)) v (Ok 0)
    (fun acc x => let! a := acc in let! y := as_i64 (s_el s) x in iarith c i64 (a + y)) in r.

(** An optimised implementation, on the bytes of the register.
    src/arch/x86/intrin/sum.rs:33-253. *)
Record xsum := mkXSum {
  xs_vec : string; xs_ty : vty; xs_el : elty; xs_feat : string;
  xs_run : config -> list Z -> outcome Z }.
(** Such an implementation applied to a vector (src/arch/x86/intrin/sum.rs:33-253). *)
Definition sum_optimized (c : config) (x : xsum) (v : list Z) : outcome Z :=
  xs_run x c (bytes_of (lane_ity (xs_el x)) v).

(** [_mm_sad_epu8(v, splat(0)).be_u16s()]
    src/arch/x86/intrin/sum.rs:33-115. *)
Definition sad_u16s (v : list Z) : list Z := lanes_of u16 (psad v (repeat 0 (length v))).
(** [self.max(splat(0)).be_u8s()] and [self.min(splat(0)).abs().be_u8s()] of an i8
    vector.  Simplification: the lane-wise maximum, minimum and absolute value are
    written directly instead of through their implementations (which C38 and C49 show
    to be these functions).
    src/arch/x86/intrin/sum.rs:33-115. *)
Definition positives (self : list Z) : list Z := bytes_of i8 (map (fun x => Z.max x 0) (lanes_of i8 self)).
(** src/arch/x86/intrin/sum.rs:33-115. *)
Definition negatives (self : list Z) : list Z := bytes_of u8 (map (fun x => Z.abs (Z.min x 0)) (lanes_of i8 self)).
(** [pos.extract(i).overflowing_sub(neg.extract(i)).0]
    src/arch/x86/intrin/sum.rs:33-115. *)
Definition sad_difference (W : Z) (pos neg : list Z) (i : Z) : outcome Z :=
  let! p := extract W pos i in let! n := extract W neg i in Ok (wrap u16 (p - n)).
(** The common part of src/arch/x86/intrin/sum.rs:33-36 and :45-48. *)
Definition sum_i8x16 (self : list Z) : outcome Z :=
  let pos := sad_u16s (positives self) in
  let neg := sad_u16s (negatives self) in
  let! a := sad_difference 8 pos neg 0 in
  let! b := sad_difference 8 pos neg 4 in
  Ok (wrap u16 (a + b)).
(** The common part of src/arch/x86/intrin/sum.rs:57-62 and :71-76. *)
Definition sum_i8x32 (self : list Z) : outcome Z :=
  let pos := sad_u16s (positives self) in
  let neg := sad_u16s (negatives self) in
  let! a := sad_difference 16 pos neg 0 in
  let! b := sad_difference 16 pos neg 4 in
  let! d := sad_difference 16 pos neg 8 in
  let! e := sad_difference 16 pos neg 12 in
  Ok (wrap u16 (wrap u16 (wrap u16 (a + b) + d) + e)).
(** The common part of src/arch/x86/intrin/sum.rs:85-86 and :95-96. *)
Definition sum_u8x16 (c : config) (self : list Z) : outcome Z :=
  let x := sad_u16s self in
  let! a := extract 8 x 0 in let! b := extract 8 x 4 in iarith c u16 (a + b).
(** The common part of src/arch/x86/intrin/sum.rs:105-106 and :115-116. *)
Definition sum_u8x32 (c : config) (self : list Z) : outcome Z :=
  let x := sad_u16s self in
  let! a := extract 16 x 0 in let! b := extract 16 x 4 in
  let! s := iarith c u16 (a + b) in
  let! d := extract 16 x 8 in let! s := iarith c u16 (s + d) in
  let! e := extract 16 x 12 in iarith c u16 (s + e).
(** [self.upcast()] of a 256-bit vector (feature avx2).
    src/arch/x86/intrin/sum.rs:126-253. *)
Definition upcast_register (vec : string) (self : list Z) : list (list Z) :=
  match find (fun x => String.eqb (xp_vec x) vec) x86_upcast_optimized with
  | Some x => xp_run x [self]
  | None => []
  end.
(** [splat(0)] of a register of [n] bytes.
    src/arch/x86/intrin/sum.rs:126-253. *)
Definition zeroes (n : nat) : list Z := repeat 0 n.
(** [_mm256_hadd_epi32(_mm256_hadd_epi32(v, splat(0)), splat(0))]
    src/arch/x86/intrin/sum.rs:126-253. *)
Definition hadd_twice (v : list Z) : list Z :=
  lanes_of i32 (hadd256_epi i32 (hadd256_epi i32 v (zeroes 32)) (zeroes 32)).
(** The common part of src/arch/x86/intrin/sum.rs:154-159, :170-175 and :186-191. *)
Definition sum_x16 (c : config) (vec : string) (self : list Z) : outcome Z :=
  let ab := upcast_register vec self in
  let x := hadd_twice (nth 0 ab []) in
  let y := hadd_twice (nth 1 ab []) in
  let! x0 := extract 8 x 0 in let! x4 := extract 8 x 4 in
  let! s := iarith c i32 (x0 + x4) in
  let! y0 := extract 8 y 0 in let! s := iarith c i32 (s + y0) in
  let! y4 := extract 8 y 4 in iarith c i32 (s + y4).

(** src/arch/x86/intrin/sum.rs:33-253 [Sum], integer vectors. *)
Definition x86_sum_optimized : list xsum := [
  (* src/arch/x86/intrin/sum.rs:28-38 *)
  mkXSum "i8x16" (mkVty 16 1) (EInt i8) "sse2" (fun c self => let! s := sum_i8x16 self in Ok (wrap i8 s));
  (* src/arch/x86/intrin/sum.rs:52-64 *)
  mkXSum "i8x32" (mkVty 32 1) (EInt i8) "avx2" (fun c self => let! s := sum_i8x32 self in Ok (wrap i8 s));
  (* src/arch/x86/intrin/sum.rs:80-88 *)
  mkXSum "u8x16" (mkVty 16 1) (EInt u8) "sse2" (fun c self => let! s := sum_u8x16 c self in Ok (wrap u8 s));
  (* src/arch/x86/intrin/sum.rs:100-108 *)
  mkXSum "u8x32" (mkVty 32 1) (EInt u8) "avx2" (fun c self => let! s := sum_u8x32 c self in Ok (wrap u8 s));
  (* src/arch/x86/intrin/sum.rs:120-132 *)
  mkXSum "i16x8" (mkVty 8 2) (EInt i16) "ssse3" (fun c self =>
    extract 8 (lanes_of i16 (hadd_epi i16 (hadd_epi i16 (hadd_epi i16 self (zeroes 16)) (zeroes 16)) (zeroes 16))) 0);
  (* src/arch/x86/intrin/sum.rs:134-146 *)
  mkXSum "i16x16" (mkVty 16 2) (EInt i16) "avx2" (fun c self =>
    let x := lanes_of i16 (hadd256_epi i16 (hadd256_epi i16 (hadd256_epi i16 self (zeroes 32)) (zeroes 32)) (zeroes 32)) in
    let! a := extract 16 x 0 in let! b := extract 16 x 8 in iarith c i16 (a + b));
  (* src/arch/x86/intrin/sum.rs:164-178 *)
  mkXSum "u16x16" (mkVty 16 2) (EInt u16) "avx2" (fun c self => let! s := sum_x16 c "u16x16" self in Ok (wrap u16 s));
  (* src/arch/x86/intrin/sum.rs:196-207 *)
  mkXSum "i32x8" (mkVty 8 4) (EInt i32) "avx2" (fun c self =>
    let x := hadd_twice self in
    let! a := extract 8 x 0 in let! b := extract 8 x 4 in iarith c i32 (a + b))].

(** src/arch/x86/intrin/sum.rs:33-253 [Sum], float vectors. *)
Definition x86_sum_float : list xsum := [
  (* src/arch/x86/intrin/sum.rs:209-220 *)
  mkXSum "f32x4" (mkVty 4 4) EF32 "sse3" (fun c self =>
    let x := hop128 u32 (fadd EF32) self self in
    let x := hop128 u32 (fadd EF32) x x in extract 4 (lanes_of u32 x) 0);
  (* src/arch/x86/intrin/sum.rs:222-232 *)
  mkXSum "f64x2" (mkVty 2 8) EF64 "sse3" (fun c self =>
    let x := hop128 u64 (fadd EF64) self self in extract 2 (lanes_of u64 x) 0);
  (* src/arch/x86/intrin/sum.rs:234-245 *)
  mkXSum "f32x8" (mkVty 8 4) EF32 "avx" (fun c self =>
    let x := hop256 u32 (fadd EF32) self self in
    let x := hop256 u32 (fadd EF32) x x in
    let! a := extract 8 (lanes_of u32 x) 0 in let! b := extract 8 (lanes_of u32 x) 4 in Ok (fadd EF32 a b));
  (* src/arch/x86/intrin/sum.rs:247-257 *)
  mkXSum "f64x4" (mkVty 4 8) EF64 "avx" (fun c self =>
    let x := hop256 u64 (fadd EF64) self self in
    let! a := extract 4 (lanes_of u64 x) 0 in let! b := extract 4 (lanes_of u64 x) 2 in Ok (fadd EF64 a b))].

(** src/arch/x86/intrin/sum.rs:33-253 [UpcastSum]. *)
Definition x86_sum_upcast_optimized : list xsum := [
  (* src/arch/x86/intrin/sum.rs:40-50 *)
  mkXSum "i8x16" (mkVty 16 1) (EInt i8) "sse2" (fun c self => let! s := sum_i8x16 self in Ok (wrap i64 (wrap i8 s)));
  (* src/arch/x86/intrin/sum.rs:66-78 *)
  mkXSum "i8x32" (mkVty 32 1) (EInt i8) "avx2" (fun c self => let! s := sum_i8x32 self in Ok (wrap i64 (wrap i8 s)));
  (* src/arch/x86/intrin/sum.rs:90-98 *)
  mkXSum "u8x16" (mkVty 16 1) (EInt u8) "sse2" (fun c self => let! s := sum_u8x16 c self in Ok (wrap i64 s));
  (* src/arch/x86/intrin/sum.rs:110-118 *)
  mkXSum "u8x32" (mkVty 32 1) (EInt u8) "avx2" (fun c self => let! s := sum_u8x32 c self in Ok (wrap i64 s));
  (* src/arch/x86/intrin/sum.rs:148-162 *)
  mkXSum "i16x16" (mkVty 16 2) (EInt i16) "avx2" (fun c self => let! s := sum_x16 c "i16x16" self in Ok (wrap i64 s));
  (* src/arch/x86/intrin/sum.rs:180-194 *)
  mkXSum "u16x16" (mkVty 16 2) (EInt u16) "avx2" (fun c self => let! s := sum_x16 c "u16x16" self in Ok (wrap i64 s))].
End Sums.

(** * Bit counts *)

(** core [u64::count_ones].
    src/arch/x86/intrin/popcnt.rs:33-39, 56-69. *)
Fixpoint ones (n : nat) (x : Z) : Z :=
  match n with
  | O => 0
  | S m => x mod 2 + ones m (x / 2)
  end.
(** src/arch/x86/intrin/popcnt.rs:33-39, :56-62 and :64-69: the portable [popcnt128],
    [popcnt256] and [popcnt512]; [W] is the number of u64 lanes. *)
Definition popcnt_portable (c : config) (W : Z) (v : list Z) : outcome Z :=
  let! r := scalar_reduce W (lanes_of u64 v) (Ok 0)
    (fun acc s => let! a := acc in uadd c a (ones 64 s)) in r.
(** The lookup table of src/arch/x86/intrin/popcnt.rs:19-54. *)
Definition nibbles : list Z := [0; 1; 1; 2; 1; 2; 2; 3; 1; 2; 2; 3; 2; 3; 3; 4].
(** src/arch/x86/intrin/popcnt.rs:19-31 [popcnt128] (feature ssse3; [sum_upcast] of
    u8x16 is then the optimised one); [+] on u8 lanes wraps. *)
Definition popcnt128 (c : config) (v : list Z) : outcome Z :=
  let lo := map (fun x => Z.land x 15) v in
  let hi := map (fun x => Z.shiftr x 4) v in
  let! s := sum_u8x16 c (zipw (fun x y => wrap u8 (x + y)) (pshufb nibbles hi) (pshufb nibbles lo)) in
  Ok (wrap u64 (wrap i64 s)).
(** src/arch/x86/intrin/popcnt.rs:41-54 [popcnt256] (feature avx2). *)
Definition popcnt256 (c : config) (v : list Z) : outcome Z :=
  let lo := map (fun x => Z.land x 15) v in
  let hi := map (fun x => Z.shiftr x 4) v in
  let! s := sum_u8x32 c (zipw (fun x y => wrap u8 (x + y)) (pshufb256 (nibbles ++ nibbles) hi) (pshufb256 (nibbles ++ nibbles) lo)) in
  Ok (wrap u64 (wrap i64 s)).

(** src/intrin/popcnt.rs:21-34 [impl_popcnt!]: [$fn(self.be_u8s())]; [optimized] says
    whether the feature of the optimised function is enabled. *)
Definition count_ones (c : config) (optimized : bool) (p : popcnt_impl) (v : list Z) : outcome Z :=
  let bs := bytes_of (c_el p) v in
  if String.eqb (c_fn p) "popcnt128" then (if optimized then popcnt128 c bs else popcnt_portable c 2 bs)
  else if String.eqb (c_fn p) "popcnt256" then (if optimized then popcnt256 c bs else popcnt_portable c 4 bs)
  else if String.eqb (c_fn p) "popcnt512" then popcnt_portable c 8 bs
  else UB.
(** src/intrin/popcnt.rs:13-16 *)
Definition count_zeroes (c : config) (optimized : bool) (p : popcnt_impl) (v : list Z) : outcome Z :=
  let! n := umul c (WIDTH (c_ty p)) (SIZE (c_ty p)) in
  let! n := umul c n 8 in
  let! k := count_ones c optimized p v in usub c n k.
