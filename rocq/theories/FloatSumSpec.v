(** Specification of float sums, independent of the model.  Values are integers in units
    of the smallest positive float ([fvalue]). *)
From Verif Require Import Base Floats FloatSpec SumSpec.
Open Scope Z_scope.

Section FloatSum.
Variable f : ffmt.

(** The exact sum of the numbers, and the sum of their magnitudes. *)
Definition exact_sum (v : list Z) : Z := total (map (fvalue f) v).
Definition magnitudes (v : list Z) : Z := total (map (fun x => Z.abs (fvalue f x)) v).

(** One rounding changes a number by at most 1 part in [parts]: 2^24 in f32, 2^53 in f64. *)
Definition parts : Z := 2 ^ (f_m f + 1).
(** The first power of two that is not a finite float: 2^128 in f32, 2^1024 in f64. *)
Definition too_large : Z := 2 ^ (f_m f + (2 ^ f_e f - 2)).

(** The error of [r] as the sum of [v] is at most that of [n] roundings:
    [|r - sum| <= ((1 + 1 / parts) ^ n - 1) * magnitudes], multiplied by [parts ^ n]. *)
Definition rounded_sum (n : Z) (v : list Z) (r : Z) : Prop :=
  parts ^ n * Z.abs (fvalue f r - exact_sum v) <= ((parts + 1) ^ n - parts ^ n) * magnitudes v.
(** [n] roundings cannot make the sum overflow: [(1 + 1 / parts) ^ n * magnitudes < too_large]. *)
Definition no_float_overflow (n : Z) (v : list Z) : Prop :=
  (parts + 1) ^ n * magnitudes v < parts ^ n * too_large.
End FloatSum.
