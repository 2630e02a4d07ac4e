(** IEEE-754 arithmetic on bit patterns: what Rust's [+], [-], [*], [/], [sqrt()],
    [recip()] and [as f32] compute on f32 and f64, and what the corresponding x86
    instructions compute.  Part of the trusted base in the same way as Floats.v;
    ArithFacts.v proves that every operation rounds correctly. *)
From Coq Require Import String.
From Verif Require Import Base Floats OpTables.
Open Scope Z_scope.

Section Arith.
Variable f : ffmt.

(** The number [num / den >= 0], counted in units of the smallest positive float, rounded
    to nearest, ties to even, with sign [s]; too large a number becomes an infinity.
    [2 ^ k] is the spacing of the floats around it; adding to the pattern may carry into
    the exponent, which is then the right pattern.
    IEEE-754 rounding behind the float arithmetic of src/arch/unknown/vecs.rs:300-461, examples/main.rs:19-27 and the operators of packed_simd. *)
Definition f_round (s : bool) (num den : Z) : Z :=
  let k := Z.max 0 (Z.log2 (num / den) - f_m f) in
  let d := den * 2 ^ k in
  let n := num / d in
  let r := num mod d in
  let up := (d <? 2 * r) || ((d =? 2 * r) && Z.odd n) in
  f_with_sign f s (Z.min (f_inf f) (k * 2 ^ f_m f + n + (if up then 1 else 0))).

(** The magnitude of a finite number and the number 1.0, in the same units.
    Not in the source: part of the float arithmetic of src/arch/unknown/vecs.rs:300-461, examples/main.rs:19-27 and the operators of packed_simd. *)
Definition f_abs_units (x : Z) : Z := f_sig f x * 2 ^ (f_exp f x - 1).
(** Not in the source: part of the float arithmetic of src/arch/unknown/vecs.rs:300-461, examples/main.rs:19-27 and the operators of packed_simd. *)
Definition f_units (x : Z) : Z := if f_sign f x then - f_abs_units x else f_abs_units x.
(** Not in the source: part of the float arithmetic of src/arch/unknown/vecs.rs:300-461, examples/main.rs:19-27 and the operators of packed_simd. *)
Definition f_unit : Z := 2 ^ (f_bias f + f_m f - 1).
(** Not in the source: part of the float arithmetic of src/arch/unknown/vecs.rs:300-461, examples/main.rs:19-27 and the operators of packed_simd. *)
Definition f_infinite (x : Z) : bool := f_mag f x =? f_inf f.
(** The NaN made from a NaN operand, and the one made from numbers.
    Not in the source: part of the float arithmetic of src/arch/unknown/vecs.rs:300-461, examples/main.rs:19-27 and the operators of packed_simd. *)
Definition f_quiet (x : Z) : Z := if Z.testbit x (f_m f - 1) then x else x + 2 ^ (f_m f - 1).
(** The NaN of an invalid operation in the float arithmetic of src/arch/unknown/vecs.rs:300-461, examples/main.rs:19-27 and the operators of packed_simd. *)
Definition f_default_nan : Z := f_with_sign f true (f_inf f + 2 ^ (f_m f - 1)).
(** Float negation, used by [-] of src/arch/unknown/vecs.rs:300-461. *)
Definition f_neg (x : Z) : Z := if f_sign f x then x - 2 ^ (f_e f + f_m f) else x + 2 ^ (f_e f + f_m f).

(** Float [+]: src/arch/unknown/vecs.rs:300-461, examples/main.rs:19-27. *)
Definition f_add (x y : Z) : Z :=
  if f_nan f x then f_quiet x
  else if f_nan f y then f_quiet y
  else if f_infinite x then (if f_infinite y && xorb (f_sign f x) (f_sign f y) then f_default_nan else x)
  else if f_infinite y then y
  else
    let v := f_units x + f_units y in
    if v =? 0 then f_with_sign f (f_sign f x && f_sign f y) 0
    else f_round (v <? 0) (Z.abs v) 1.
(** Float [-]: src/arch/unknown/vecs.rs:300-461, examples/main.rs:19-27. *)
Definition f_sub (x y : Z) : Z := if f_nan f x then f_quiet x else if f_nan f y then f_quiet y else f_add x (f_neg y).
(** Float [*]: src/arch/unknown/vecs.rs:300-461, examples/main.rs:19-27. *)
Definition f_mul (x y : Z) : Z :=
  let s := xorb (f_sign f x) (f_sign f y) in
  if f_nan f x then f_quiet x
  else if f_nan f y then f_quiet y
  else if f_infinite x then (if f_zero f y then f_default_nan else f_with_sign f s (f_inf f))
  else if f_infinite y then (if f_zero f x then f_default_nan else f_with_sign f s (f_inf f))
  else f_round s (f_abs_units x * f_abs_units y) f_unit.
(** Float [/]: src/arch/unknown/vecs.rs:300-461. *)
Definition f_div (x y : Z) : Z :=
  let s := xorb (f_sign f x) (f_sign f y) in
  if f_nan f x then f_quiet x
  else if f_nan f y then f_quiet y
  else if f_infinite x then (if f_infinite y then f_default_nan else f_with_sign f s (f_inf f))
  else if f_infinite y then f_with_sign f s 0
  else if f_zero f y then (if f_zero f x then f_default_nan else f_with_sign f s (f_inf f))
  else f_round s (f_abs_units x * f_unit) (f_abs_units y).
(** The root of [n] units is the root of [n * f_unit] in units; if that is not an integer,
    it is rounded like any other number between the same two integers.
    core [sqrt] and SQRTPS/SQRTPD: src/arch/x86/intrin/sqrt.rs, src/arch/unknown/intrin/sqrt.rs. *)
Definition f_sqrt (x : Z) : Z :=
  if f_nan f x then f_quiet x
  else if f_zero f x then x
  else if f_sign f x then f_default_nan
  else if f_infinite x then x
  else
    let n := f_abs_units x * f_unit in
    let r := Z.sqrt n in
    f_round false (if r * r =? n then 2 * r else 2 * r + 1) 2.

(** core [f32::recip], [f64::recip]: [1.0 / self].
    The fallback of src/arch/x86/intrin/recip.rs:16-22 and src/arch/unknown/intrin/recip.rs. *)
Definition f_one : Z := f_bias f * 2 ^ f_m f.
(** [recip]: the fallback of src/arch/x86/intrin/recip.rs:16-22 and src/arch/unknown/intrin/recip.rs. *)
Definition f_recip (x : Z) : Z := f_div f_one x.
(** src/arch/x86/intrin/rsqrt.rs:28-40, src/arch/unknown/intrin/rsqrt.rs:32-44 [Rsqrt::rsqrt]
    of a scalar: [self.sqrt().recip()]. *)
Definition f_rsqrt (x : Z) : Z := f_recip (f_sqrt x).
End Arith.

(** [x as f32] of an f64; one f32 unit is [2 ^ 925] f64 units.
    src/arch/x86/intrin/downcast.rs, src/arch/unknown/intrin/downcast.rs. *)
Definition f_narrow (x : Z) : Z :=
  if f_nan fmt64 x then f_with_sign fmt32 (f_sign fmt64 x) (f_inf fmt32 + 2 ^ 22 + (x mod 2 ^ 51) / 2 ^ 29)
  else if f_infinite fmt64 x then f_with_sign fmt32 (f_sign fmt64 x) (f_inf fmt32)
  else f_round fmt32 (f_sign fmt64 x) (f_abs_units fmt64 x) (2 ^ 925).

(** The format of a float element of src/arch/x86/vecs.rs:4-33. *)
Definition el_fmt (e : elty) : ffmt := match e with EF64 => fmt64 | _ => fmt32 end.
(** Float [+] by element: src/arch/unknown/vecs.rs:300-461, src/intrin/sum.rs:21-33. *)
Definition ieee_add (e : elty) : Z -> Z -> Z := f_add (el_fmt e).
(** Float [-] by element: src/arch/unknown/vecs.rs:300-461. *)
Definition ieee_sub (e : elty) : Z -> Z -> Z := f_sub (el_fmt e).
(** core [sqrt] by element: src/arch/x86/intrin/sqrt.rs. *)
Definition ieee_sqrt (e : elty) : Z -> Z := f_sqrt (el_fmt e).
(** The operators by symbol.
    src/arch/unknown/vecs.rs:300-461. *)
Definition ieee_op (op : string) (e : elty) (x y : Z) : Z :=
  if String.eqb op "+" then f_add (el_fmt e) x y
  else if String.eqb op "-" then f_sub (el_fmt e) x y
  else if String.eqb op "*" then f_mul (el_fmt e) x y
  else if String.eqb op "/" then f_div (el_fmt e) x y
  else 0.
