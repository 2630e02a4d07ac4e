(** IEEE-754 binary floats as bit patterns: the scalar operations the library
    calls, on the bits.  Definitions only. *)
From Verif Require Import Base Lanes.

(** A format: exponent and mantissa width.
    The f32 and f64 elements of src/arch/x86/vecs.rs:4-33. *)
Record ffmt := mkFmt { f_e : Z; f_m : Z }.
(** [f32], src/arch/x86/vecs.rs:4-33. *)
Definition fmt32 := mkFmt 8 23.
(** [f64], src/arch/x86/vecs.rs:4-33. *)
Definition fmt64 := mkFmt 11 52.

Section Float.
Variable f : ffmt.

(** The fields of a pattern [x] of [1 + f_e + f_m] bits.
    Sign bit of an IEEE-754 number; not in the source, which uses core f32/f64 (src/arch/x86/vecs.rs:4-33). *)
Definition f_sign (x : Z) : bool := 2 ^ (f_e f + f_m f) <=? x.
(** All bits but the sign of an IEEE-754 number; not in the source, which uses core f32/f64 (src/arch/x86/vecs.rs:4-33). *)
Definition f_mag (x : Z) : Z := x mod 2 ^ (f_e f + f_m f).
(** Pattern of +infinity of an IEEE-754 number; not in the source, which uses core f32/f64 (src/arch/x86/vecs.rs:4-33). *)
Definition f_inf : Z := (2 ^ f_e f - 1) * 2 ^ f_m f.
(** NaN patterns of an IEEE-754 number; not in the source, which uses core f32/f64 (src/arch/x86/vecs.rs:4-33). *)
Definition f_nan (x : Z) : bool := f_inf <? f_mag x.
(** Zeros of both signs of an IEEE-754 number; not in the source, which uses core f32/f64 (src/arch/x86/vecs.rs:4-33). *)
Definition f_zero (x : Z) : bool := f_mag x =? 0.
(** Finite numbers of an IEEE-754 number; not in the source, which uses core f32/f64 (src/arch/x86/vecs.rs:4-33). *)
Definition f_finite (x : Z) : bool := f_mag x <? f_inf.
(** Patterns of the right size of an IEEE-754 number; not in the source, which uses core f32/f64 (src/arch/x86/vecs.rs:4-33). *)
Definition f_pattern (x : Z) : Prop := 0 <= x < 2 ^ (1 + f_e f + f_m f).

(** Sign-magnitude order of the patterns, which is the order of the values.
    Not in the source: core f32/f64 (src/intrin/eq.rs:46-76, src/arch/x86/intrin/cmp.rs). *)
Definition f_key (x : Z) : Z := if f_sign x then - f_mag x else f_mag x.
(** [==] and [<] of Rust and of the [cmpeq], [min], [max] instructions: false on NaN.
    Used by src/intrin/eq.rs:46-76. *)
Definition f_eq (x y : Z) : bool := negb (f_nan x) && negb (f_nan y) && (f_key x =? f_key y).
(** [<], used by the min and max instructions of src/arch/x86/intrin/cmp.rs. *)
Definition f_lt (x y : Z) : bool := negb (f_nan x) && negb (f_nan y) && (f_key x <? f_key y).

(** core::f32/f64 [min] and [max]: a NaN argument loses, otherwise the smaller
    (larger) argument; which zero is returned for zeros of opposite sign is not
    specified, so it is the parameter [tie].
    The fallbacks of src/arch/x86/intrin/cmp.rs and src/arch/unknown/intrin/cmp.rs. *)
Definition rust_fmin (tie : bool) (x y : Z) : Z :=
  if f_nan x then y else if f_nan y then x
  else if f_lt x y then x else if f_lt y x then y else if tie then x else y.
(** core [max]: the fallbacks of src/arch/x86/intrin/cmp.rs and src/arch/unknown/intrin/cmp.rs. *)
Definition rust_fmax (tie : bool) (x y : Z) : Z :=
  if f_nan x then y else if f_nan y then x
  else if f_lt y x then x else if f_lt x y then y else if tie then x else y.

(** Exponent field, significand with the hidden bit, and the integral part /
    remainder split of a finite number with a negative exponent.
    Not in the source: the IEEE-754 encoding behind core f32/f64 (src/arch/x86/intrin/round.rs, sqrt.rs). *)
Definition f_bias : Z := 2 ^ (f_e f - 1) - 1.
(** Not in the source: the IEEE-754 encoding behind core f32/f64 (src/arch/x86/intrin/round.rs, sqrt.rs). *)
Definition f_exp (x : Z) : Z := Z.max 1 (f_mag x / 2 ^ f_m f).
(** Not in the source: the IEEE-754 encoding behind core f32/f64 (src/arch/x86/intrin/round.rs, sqrt.rs). *)
Definition f_sig (x : Z) : Z :=
  if f_mag x / 2 ^ f_m f =? 0 then f_mag x else f_mag x mod 2 ^ f_m f + 2 ^ f_m f.
(** The value is [f_sig x * 2 ^ f_pow x], with the sign.
    Not in the source: the IEEE-754 encoding behind core f32/f64 (src/arch/x86/intrin/round.rs, sqrt.rs). *)
Definition f_pow (x : Z) : Z := f_exp x - f_bias - f_m f.

(** The pattern of the non-negative integer [n < 2 ^ (f_m + 1)].
    Not in the source: the IEEE-754 encoding behind core f32/f64 (src/arch/x86/intrin/round.rs, sqrt.rs). *)
Definition f_of_int (n : Z) : Z :=
  if n =? 0 then 0
  else (Z.log2 n + f_bias) * 2 ^ f_m f + (n * 2 ^ (f_m f - Z.log2 n) - 2 ^ f_m f).
(** The same number with its sign bit set or clear.
    Not in the source: the IEEE-754 encoding behind core f32/f64 (src/arch/x86/intrin/round.rs, sqrt.rs). *)
Definition f_with_sign (s : bool) (x : Z) : Z := if s then x + 2 ^ (f_e f + f_m f) else x.

(** Round to an integral value; [up s n r q] says whether the integral part [n] of the
    magnitude [n + r/q] is incremented.  Integral values, infinities are unchanged; a
    NaN gets its quiet bit set.
    Behind core floor, ceil, trunc and round and the ROUND instructions of src/arch/x86/intrin/round.rs:13-49. *)
Definition f_integral (up : bool -> Z -> Z -> Z -> bool) (x : Z) : Z :=
  if f_nan x then (if Z.testbit x (f_m f - 1) then x else x + 2 ^ (f_m f - 1))
  else if 0 <=? f_pow x then x
  else
    let q := 2 ^ (- f_pow x) in
    let n := f_sig x / q in
    let r := f_sig x mod q in
    f_with_sign (f_sign x) (f_of_int (if up (f_sign x) n r q then n + 1 else n)).

(** core [floor] and the ROUND instruction of src/arch/x86/intrin/round.rs:13-49. *)
Definition f_floor : Z -> Z := f_integral (fun s n r q => s && (0 <? r)).
(** core [ceil] and the ROUND instruction of src/arch/x86/intrin/round.rs:13-49. *)
Definition f_ceil : Z -> Z := f_integral (fun s n r q => negb s && (0 <? r)).
(** core [trunc] and the ROUND instruction of src/arch/x86/intrin/round.rs:13-49. *)
Definition f_trunc : Z -> Z := f_integral (fun s n r q => false).
(** Nearest, ties to even: the rounding of [ROUNDPS] with immediate 0.
    src/arch/x86/intrin/round.rs:13-49. *)
Definition f_nearest_even : Z -> Z :=
  f_integral (fun s n r q => (q <? 2 * r) || ((q =? 2 * r) && Z.odd n)).
(** Nearest, ties away from zero: Rust's [f32::round].
    The fallback of src/arch/x86/intrin/round.rs:13-49 and src/arch/unknown/intrin/round.rs. *)
Definition f_nearest_away : Z -> Z := f_integral (fun s n r q => q <=? 2 * r).
End Float.
