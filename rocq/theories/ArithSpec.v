(** Specification of correctly rounded arithmetic, independent of the model.  Values are
    integers in units of the smallest positive float ([fvalue]); 1.0 is [fone] units. *)
From Coq Require Import String.
From Verif Require Import Base Spec Floats FloatSpec OpTables OpSpec.
Open Scope string_scope.
Open Scope Z_scope.

Section ArithSpec.
Variable f : ffmt.

(** [z] is the float nearest to the number [num / den] ([den > 0]), with an even fraction
    if another one is as near.  The infinities take part as the next numbers beyond the
    largest finite ones (which is what [fvalue] says of them): that is the overflow
    threshold of IEEE-754. *)
Definition nearest_to (num den z : Z) : Prop :=
  f_pattern f z /\ ~ is_nan f z /\
  forall y, f_pattern f y -> ~ is_nan f y ->
    let dz := Z.abs (fvalue f z * den - num) in
    let dy := Z.abs (fvalue f y * den - num) in
    dz <= dy /\ (dz = dy -> fvalue f y <> fvalue f z -> Z.even (fraction_field f z) = true).

(** [z] is the float nearest to the root of [num] ([num >= 0]): for [y > z >= 0], [z] is at
    least as near as [y] if the root is at most [(z + y) / 2], and so on. *)
Definition nearest_to_root (num z : Z) : Prop :=
  f_pattern f z /\ ~ is_nan f z /\ 0 <= fvalue f z /\
  forall y, f_pattern f y -> ~ is_nan f y -> 0 <= fvalue f y ->
    let m := fvalue f z + fvalue f y in
    (fvalue f z < fvalue f y -> 4 * num <= m * m) /\ (fvalue f y < fvalue f z -> m * m <= 4 * num) /\
    (m * m = 4 * num -> fvalue f y <> fvalue f z -> Z.even (fraction_field f z) = true).

Definition zero_of_sign (s z : Z) : Prop := f_pattern f z /\ is_finite f z /\ fvalue f z = 0 /\ sign_bit f z = s.
Definition infinity_of_sign (s z : Z) : Prop := f_pattern f z /\ is_infinite f z /\ sign_bit f z = s.

(** [z] is [x + y]. *)
Definition sum_result (x y z : Z) : Prop :=
  (is_nan f x \/ is_nan f y -> is_nan f z) /\
  (is_infinite f x -> is_infinite f y -> if sign_bit f x =? sign_bit f y then z = x else is_nan f z) /\
  (is_infinite f x -> is_finite f y -> z = x) /\
  (is_finite f x -> is_infinite f y -> z = y) /\
  (is_finite f x -> is_finite f y -> nearest_to (fvalue f x + fvalue f y) 1 z /\
     (fvalue f x + fvalue f y = 0 -> sign_bit f z = Z.min (sign_bit f x) (sign_bit f y))).
(** [z] is [x - y]. *)
Definition difference_result (x y z : Z) : Prop :=
  (is_nan f x \/ is_nan f y -> is_nan f z) /\
  (is_infinite f x -> is_infinite f y -> if sign_bit f x =? sign_bit f y then is_nan f z else z = x) /\
  (is_infinite f x -> is_finite f y -> z = x) /\
  (is_finite f x -> is_infinite f y -> infinity_of_sign (1 - sign_bit f y) z) /\
  (is_finite f x -> is_finite f y -> nearest_to (fvalue f x - fvalue f y) 1 z /\
     (fvalue f x - fvalue f y = 0 -> sign_bit f z = Z.min (sign_bit f x) (1 - sign_bit f y))).
(** The sign of a product or quotient. *)
Definition sign_product (x y : Z) : Z := (sign_bit f x + sign_bit f y) mod 2.
(** [z] is [x * y]. *)
Definition product_result (x y z : Z) : Prop :=
  (is_nan f x \/ is_nan f y -> is_nan f z) /\
  (is_infinite f x -> is_finite f y -> if fvalue f y =? 0 then is_nan f z else infinity_of_sign (sign_product x y) z) /\
  (is_finite f x -> is_infinite f y -> if fvalue f x =? 0 then is_nan f z else infinity_of_sign (sign_product x y) z) /\
  (is_infinite f x -> is_infinite f y -> infinity_of_sign (sign_product x y) z) /\
  (is_finite f x -> is_finite f y -> nearest_to (fvalue f x * fvalue f y) (fone f) z /\ sign_bit f z = sign_product x y).
(** [z] is [x / y]; the exact quotient is [fvalue x * fone / fvalue y] units. *)
Definition quotient_result (x y z : Z) : Prop :=
  (is_nan f x \/ is_nan f y -> is_nan f z) /\
  (is_infinite f x -> is_infinite f y -> is_nan f z) /\
  (is_infinite f x -> is_finite f y -> infinity_of_sign (sign_product x y) z) /\
  (is_finite f x -> is_infinite f y -> zero_of_sign (sign_product x y) z) /\
  (is_finite f x -> is_finite f y -> fvalue f y = 0 ->
     if fvalue f x =? 0 then is_nan f z else infinity_of_sign (sign_product x y) z) /\
  (is_finite f x -> is_finite f y -> fvalue f y <> 0 ->
     nearest_to (fvalue f x * fone f * Z.sgn (fvalue f y)) (Z.abs (fvalue f y)) z /\ sign_bit f z = sign_product x y).
(** [z] is the square root of [x]; the exact root is that of [fvalue x * fone] units. *)
Definition root_result (x z : Z) : Prop :=
  (is_nan f x -> is_nan f z) /\
  (~ is_nan f x -> fvalue f x < 0 -> is_nan f z) /\
  (is_finite f x -> fvalue f x = 0 -> z = x) /\
  (is_infinite f x -> 0 < fvalue f x -> z = x) /\
  (is_finite f x -> 0 < fvalue f x -> nearest_to_root (fvalue f x * fone f) z).

(** [z] is an estimate of [1 / x]: the relative error is at most 1.5 * 2^-12 = 3 / 8192 if
    [x] is a normal number and at most [2 ^ 125] ([f32]; in general, such that twice
    the smallest normal number does not exceed [1 / x]).  [2 ^ f_m] units are the smallest
    normal number. *)
Definition recip_estimate (x z : Z) : Prop :=
  (is_nan f x -> is_nan f z) /\
  (is_finite f x -> fvalue f x = 0 -> infinity_of_sign (sign_bit f x) z) /\
  (is_infinite f x -> zero_of_sign (sign_bit f x) z) /\
  (is_finite f x -> 2 ^ f_m f <= Z.abs (fvalue f x) -> Z.abs (fvalue f x) * (2 * 2 ^ f_m f) <= fone f * fone f ->
     is_finite f z /\ 8192 * Z.abs (fvalue f z * fvalue f x - fone f * fone f) <= 3 * (fone f * fone f)).
(** [z] is an estimate of [1 / sqrt(x)], with the same relative error [e = 3 / 8192] for
    positive normal [x]: [(1 - e)^2 <= z^2 * x <= (1 + e)^2]. *)
Definition rsqrt_estimate (x z : Z) : Prop :=
  (is_nan f x -> is_nan f z) /\
  (~ is_nan f x -> fvalue f x < 0 -> is_nan f z) /\
  (is_finite f x -> fvalue f x = 0 -> infinity_of_sign (sign_bit f x) z) /\
  (is_infinite f x -> 0 < fvalue f x -> zero_of_sign 0 z) /\
  (is_finite f x -> 2 ^ f_m f <= fvalue f x -> is_finite f z /\ 0 < fvalue f z /\
     let cube := fone f * fone f * fone f in
     let q := fvalue f z * fvalue f z * fvalue f x in
     (8192 - 3) * (8192 - 3) * cube <= 8192 * 8192 * q <= (8192 + 3) * (8192 + 3) * cube).
End ArithSpec.

(** [z] is the f32 nearest to the f64 [x]; [fone] counts the units of 1.0 in each format. *)
Definition narrowing_result (x z : Z) : Prop :=
  (is_nan fmt64 x -> is_nan fmt32 z) /\
  (is_infinite fmt64 x -> infinity_of_sign fmt32 (sign_bit fmt64 x) z) /\
  (is_finite fmt64 x -> nearest_to fmt32 (fvalue fmt64 x) (fone fmt64 / fone fmt32) z /\ sign_bit fmt32 z = sign_bit fmt64 x).

(** Like [horizontal], for a relation between two lanes and their result. *)
Definition horizontal_result (R : Z -> Z -> Z -> Prop) (a b r : list Z) : Prop :=
  zlen r = zlen a /\
  forall i x y u v, 0 <= i -> znth a (2 * i) = Some x -> znth a (2 * i + 1) = Some y ->
    znth b (2 * i) = Some u -> znth b (2 * i + 1) = Some v ->
    exists p q, znth r (2 * i) = Some p /\ znth r (2 * i + 1) = Some q /\ R x y p /\ R u v q.

(** [z] is what the operator of [trait] gives for [x] and [y]. *)
Definition operator_result (f : ffmt) (trait : string) (x y z : Z) : Prop :=
  (trait = "Add" /\ sum_result f x y z) \/ (trait = "Sub" /\ difference_result f x y z) \/
  (trait = "Mul" /\ product_result f x y z) \/ (trait = "Div" /\ quotient_result f x y z).
