(** Which operations exist for which scalar types, written from the documentation and
    independent of the model. *)
From Coq Require Import String.
From Verif Require Import Base.
Open Scope string_scope.
Open Scope Z_scope.

(** The scalar types a vector can hold. *)
Inductive kind := Unsigned | Signed | Float.
Record scalar := mkScalar { sc_name : string; sc_kind : kind; sc_size : Z }.
Definition scalars : list scalar :=
  [mkScalar "u8" Unsigned 1; mkScalar "i8" Signed 1; mkScalar "u16" Unsigned 2; mkScalar "i16" Signed 2; mkScalar "u32" Unsigned 4;
   mkScalar "i32" Signed 4; mkScalar "f32" Float 4; mkScalar "u64" Unsigned 8; mkScalar "i64" Signed 8; mkScalar "f64" Float 8].
Definition is_float (s : scalar) : bool := match sc_kind s with Float => true | _ => false end.
Definition is_int (s : scalar) : bool := negb (is_float s).

(** The names of vectors: ["u8x16"] has 16 lanes of u8. *)
Definition decimal (n : Z) : string :=
  if n =? 2 then "2" else if n =? 4 then "4" else if n =? 8 then "8" else if n =? 16 then "16" else if n =? 32 then "32" else if n =? 64 then "64" else "?".
Definition vector_name (s : scalar) (bytes : Z) : string := sc_name s ++ "x" ++ decimal (bytes / sc_size s).
(** The natural vector of a scalar: ["u8s"]. *)
Definition alias (s : scalar) : string := sc_name s ++ "s".

(** The operations: trait, method, and the scalars for which it is meaningful. *)
Definition operations : list (string * string * (scalar -> bool)) :=
  let every := fun _ : scalar => true in
  [("Eq", "eq_mask", every);
   ("Pattern", "ones", every); ("Pattern", "zeroes", every); ("Pattern", "halfs", every); ("Pattern", "interleave", every);
   ("Pattern", "partition", every); ("Pattern", "partition_mask", every);
   ("Merge", "merge_halves", every); ("Merge", "merge_interleaved", every); ("Merge", "merge_partitioned", every);
   ("HAdd", "hadd", every); ("HSub", "hsub", every); ("Sum", "sum", every); ("UpcastSum", "sum_upcast", every);
   ("Cmp", "min", every); ("Cmp", "max", every);
   ("Abs", "abs", fun s => match sc_kind s with Unsigned => false | _ => true end);
   ("SaturatingAdd", "saturating_add", is_int); ("SaturatingSub", "saturating_sub", is_int);
   ("SaturatingHAdd", "saturating_hadd", is_int); ("SaturatingHSub", "saturating_hsub", is_int);
   ("Reendianize", "swap_bytes", is_int); ("Popcnt", "count_ones", is_int);
   ("Round", "round", is_float); ("Round", "ceil", is_float); ("Round", "floor", is_float); ("Round", "trunc", is_float);
   ("Sqrt", "sqrt", is_float); ("Recip", "recip", is_float); ("Rsqrt", "rsqrt", is_float);
   ("Destride", "destride_two", every); ("Destride", "destride_four", every)].

(** The meaningful ones the x86 back-end leaves out: [min]/[max] of 64-bit integers,
    saturating addition and subtraction of 32- and 64-bit integers, reciprocals of f64,
    de-interleaving of floats and of 64-bit integers. *)
Definition missing (trait : string) (s : scalar) : bool :=
  (String.eqb trait "Cmp" && is_int s && (sc_size s =? 8))
  || ((String.eqb trait "SaturatingAdd" || String.eqb trait "SaturatingSub") && (4 <=? sc_size s))
  || ((String.eqb trait "Recip" || String.eqb trait "Rsqrt") && (sc_size s =? 8))
  || (String.eqb trait "Destride" && (is_float s || (sc_size s =? 8))).
(** 128-bit methods only one of the back-ends has. *)
Definition one_sided (trait : string) (s : scalar) : bool :=
  (String.eqb trait "Popcnt" && is_int s)
  || (String.eqb trait "SaturatingAdd" && is_int s && (4 <=? sc_size s))
  || (String.eqb trait "Rsqrt" && is_float s && (sc_size s =? 8)).
