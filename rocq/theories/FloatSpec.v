(** Specification of floating-point numbers and of rounding to an integer,
    independent of the model.  Only the encoding of IEEE-754 is used: one sign bit,
    [f_e] exponent bits, [f_m] fraction bits. *)
From Verif Require Import Base Floats.

Section FloatSpec.
Variable f : ffmt.

Definition exponent_field (x : Z) : Z := (x / 2 ^ f_m f) mod 2 ^ f_e f.
Definition fraction_field (x : Z) : Z := x mod 2 ^ f_m f.
Definition sign_bit (x : Z) : Z := x / 2 ^ (f_m f + f_e f).

(** The classes of patterns. *)
Definition is_nan (x : Z) : Prop := exponent_field x = 2 ^ f_e f - 1 /\ fraction_field x <> 0.
Definition is_infinite (x : Z) : Prop := exponent_field x = 2 ^ f_e f - 1 /\ fraction_field x = 0.
Definition is_finite (x : Z) : Prop := exponent_field x <> 2 ^ f_e f - 1.

(** The value of a finite pattern in units of the smallest positive float, and the
    number 1.0 in the same units.  Every finite float is an integer in these units. *)
Definition fvalue (x : Z) : Z :=
  (if sign_bit x =? 0 then 1 else -1) *
  (if exponent_field x =? 0 then fraction_field x
   else (2 ^ f_m f + fraction_field x) * 2 ^ (exponent_field x - 1)).
Definition fone : Z := 2 ^ (2 ^ (f_e f - 1) - 1 + f_m f - 1).

(** IEEE comparisons: false when an operand is NaN, -0.0 equal to 0.0.  By the formula
    the value of an infinity is beyond every finite one, as it should be. *)
Definition float_eq (x y : Z) : Prop := ~ is_nan x /\ ~ is_nan y /\ fvalue x = fvalue y.
Definition float_lt (x y : Z) : Prop := ~ is_nan x /\ ~ is_nan y /\ fvalue x < fvalue y.

(** [r] is the greatest integral number below [x], the least above, the one next to
    it towards zero, one of the nearest. *)
Definition floor_of (x r : Z) : Prop := fvalue r = fone * (fvalue x / fone).
Definition ceil_of (x r : Z) : Prop := fvalue r = - (fone * (- fvalue x / fone)).
Definition trunc_of (x r : Z) : Prop := fvalue r = fone * Z.quot (fvalue x) fone.
Definition nearest_of (x r : Z) : Prop :=
  (exists n, fvalue r = fone * n) /\ 2 * Z.abs (fvalue r - fvalue x) <= fone.

(** Half way between two integral numbers. *)
Definition tie (x : Z) : Prop := is_finite x /\ exists n, 2 * fvalue x = fone * (2 * n + 1).

(** The nearest integral number, a half-way case going away from zero, resp. to the even
    neighbour.  Either determines the value of [r]. *)
Definition nearest_away_of (x r : Z) : Prop := nearest_of x r /\ (tie x -> Z.abs (fvalue x) < Z.abs (fvalue r)).
Definition nearest_even_of (x r : Z) : Prop := nearest_of x r /\ (tie x -> exists n, fvalue r = fone * (2 * n)).

(** A correct rounding of one lane: [how] on finite numbers, where the sign bit is
    kept (so a negative number rounds to -0.0); infinities are unchanged and a NaN
    stays a NaN. *)
Definition rounds (how : Z -> Z -> Prop) (x r : Z) : Prop :=
  (is_finite x -> is_finite r /\ sign_bit r = sign_bit x /\ how x r) /\
  (is_infinite x -> r = x) /\ (is_nan x -> is_nan r).
End FloatSpec.
