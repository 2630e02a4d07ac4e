(** Specification of conversions and of de-interleaving, independent of the model. *)
From Verif Require Import Base Lanes Floats FloatSpec OpTables.
Open Scope Z_scope.

(** [r], a lane of type [e'], has the same numeric value as [x], a lane of type [e].
    The value of a float pattern is [fvalue] divided by the representation of 1.0 in
    the same units. *)
Definition same_value (e e' : elty) (x r : Z) : Prop :=
  match e, e' with
  | EInt _, EInt _ => r = x
  | EInt _, EF64 => is_finite fmt64 r /\ fvalue fmt64 r = x * fone fmt64
  | EF32, EF64 =>
    sign_bit fmt64 r = sign_bit fmt32 x /\
    (is_finite fmt32 x -> is_finite fmt64 r /\ fvalue fmt64 r * fone fmt32 = fvalue fmt32 x * fone fmt64) /\
    (is_infinite fmt32 x -> is_infinite fmt64 r) /\ (is_nan fmt32 x -> is_nan fmt64 r)
  | _, _ => False
  end.

(** [r] is a correct result of [upcast] on [v]: two vectors of [W] lanes each, which
    one after the other are the lanes of [v] in order. *)
Definition upcasts (e e' : elty) (W : Z) (v : list Z) (r : list (list Z)) : Prop :=
  exists r0 r1, r = [r0; r1] /\ zlen r0 = W /\ zlen r1 = W /\ Forall2 (same_value e e') v (r0 ++ r1).

(** [r] holds every [n]-th element of [l], starting with number [k]. *)
Definition every_nth (n k : Z) (l r : list Z) : Prop :=
  n * zlen r = zlen l /\ forall i x, 0 <= i -> znth l (n * i + k) = Some x -> znth r i = Some x.

(** [r] is a correct result of [abs] on one lane: the exact absolute value for an
    integer; for a float the sign bit is cleared and the other fields are kept. *)
Definition absolute (e : elty) (x r : Z) : Prop :=
  match e with
  | EInt _ => r = Z.abs x
  | EF32 => sign_bit fmt32 r = 0 /\ exponent_field fmt32 r = exponent_field fmt32 x /\ fraction_field fmt32 r = fraction_field fmt32 x
  | EF64 => sign_bit fmt64 r = 0 /\ exponent_field fmt64 r = exponent_field fmt64 x /\ fraction_field fmt64 r = fraction_field fmt64 x
  end.

(** The unsigned 64-bit integers. *)
Definition is_u64 (e : elty) : bool := match e with EInt t => negb (isigned t) && (ibytes t =? 8)%nat | _ => false end.
