(** Specification of float inner products, independent of the model.  Values are integers
    in units of the smallest positive float ([fvalue]); 1.0 is [fone] units, so the product
    of [x] and [y] is [fvalue x * fvalue y / fone] units. *)
From Verif Require Import Base Spec Floats FloatSpec SumSpec FloatSumSpec.
Open Scope Z_scope.

Section Dot.
Variable f : ffmt.

(** The exact inner product and the sum of the magnitudes of the exact products, both
    multiplied by [fone]. *)
Definition exact_dot (a b : list Z) : Z := total (map2 (fun x y => fvalue f x * fvalue f y) a b).
Definition dot_magnitudes (a b : list Z) : Z := total (map2 (fun x y => Z.abs (fvalue f x * fvalue f y)) a b).

(** With [u = 1 / parts] and [N] elements, the error of [r] as the inner product is at most
    [((1 + u) ^ (n + 1) - 1) * magnitudes + N * (1 + u) ^ n / 2] units: one rounding of each
    product, [n] roundings in the sum, and half a unit for each product that is too small
    for a full fraction.  Multiplied by [2 * parts ^ (n + 1) * fone]. *)
Definition rounded_dot (n : Z) (a b : list Z) (r : Z) : Prop :=
  2 * parts f ^ (n + 1) * Z.abs (fvalue f r * fone f - exact_dot a b) <=
  2 * ((parts f + 1) ^ (n + 1) - parts f ^ (n + 1)) * dot_magnitudes a b + zlen a * (parts f + 1) ^ n * parts f * fone f.
(** These roundings cannot make it overflow:
    [(1 + u) ^ (n + 1) * magnitudes + N * (1 + u) ^ n / 2 < too_large]. *)
Definition no_dot_overflow (n : Z) (a b : list Z) : Prop :=
  2 * (parts f + 1) ^ (n + 1) * dot_magnitudes a b + zlen a * (parts f + 1) ^ n * parts f * fone f <
  2 * parts f ^ (n + 1) * too_large f * fone f.
End Dot.
