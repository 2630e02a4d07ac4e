(** Model of [Swizzle::flip] (src/intrin/swizzle.rs) and [Reendianize]
    (src/intrin/endian.rs).  A lane is a string of SIZE bytes. *)
From Coq Require Import String.
From Verif Require Import Base Vecs Lanes X86 Tables.
Open Scope Z_scope.

Section Shuffles.
Variable s : shuffle_impl.

(** The lane index list is read in pairs [$a, $b];
    src/intrin/swizzle.rs:28-33 [flip], portable: [$b] before [$a]. *)
Fixpoint flip_pairs (v : list (list Z)) (ab : list Z) : outcome (list (list Z)) :=
  match ab with
  | a :: b :: ab' =>
    let! y := extract (WIDTH (sh_ty s)) v b in
    let! x := extract (WIDTH (sh_ty s)) v a in
    let! r := flip_pairs v ab' in Ok (y :: x :: r)
  | _ => Ok []
  end.
(** src/intrin/swizzle.rs:25-45, without the feature. *)
Definition flip_portable (v : list (list Z)) : outcome (list (list Z)) := flip_pairs v (sh_ab s).

(** src/intrin/endian.rs:73-79 [swap_bytes], portable; the scalar [swap_bytes]
    reverses the bytes of a lane. *)
Fixpoint swap_pairs (v : list (list Z)) (ab : list Z) : outcome (list (list Z)) :=
  match ab with
  | a :: b :: ab' =>
    let! x := extract (WIDTH (sh_ty s)) v a in
    let! y := extract (WIDTH (sh_ty s)) v b in
    let! r := swap_pairs v ab' in Ok (rev x :: rev y :: r)
  | _ => Ok []
  end.
(** src/intrin/endian.rs:70-91, without the feature. *)
Definition swap_bytes_portable (v : list (list Z)) : outcome (list (list Z)) :=
  swap_pairs v (sh_ab s).

(** src/intrin/swizzle.rs:35-42, src/intrin/endian.rs:81-88, with a byte shuffle:
    the 128-bit or the 256-bit instruction, according to the macro argument. *)
Definition byte_shuffle (v : list (list Z)) : option (list (list Z)) :=
  if String.eqb (sh_fn s) "_mm_shuffle_epi8"
  then Some (regroup (Z.to_nat (SIZE (sh_ty s))) (pshufb (concat v) (sh_c s)))
  else if String.eqb (sh_fn s) "_mm256_shuffle_epi8"
  then Some (regroup (Z.to_nat (SIZE (sh_ty s))) (pshufb256 (concat v) (sh_c s)))
  else None.

(** src/intrin/endian.rs:21-67: [to_be], [to_le], [from_be], [from_le] of a target whose
    endianness is [big]; [swap] is the [swap_bytes] in use. *)
Definition to_be {V : Type} (big : bool) (swap : V -> V) (v : V) : V := if big then v else swap v.
(** src/intrin/endian.rs:21-67 [to_le]. *)
Definition to_le {V : Type} (big : bool) (swap : V -> V) (v : V) : V := if big then swap v else v.
(** src/intrin/endian.rs:21-67 [from_be]. *)
Definition from_be {V : Type} (big : bool) (swap : V -> V) (v : V) : V := if big then v else swap v.
(** src/intrin/endian.rs:21-67 [from_le]. *)
Definition from_le {V : Type} (big : bool) (swap : V -> V) (v : V) : V := if big then swap v else v.
End Shuffles.

(** src/arch/x86/intrin/transmute.rs:15-29, src/arch/unknown/intrin/transmute.rs:14-16:
    the types that [impl_packed_transmute!] relates, one list per register size; each
    line of the list has the signed, unsigned (and float) types of one lane size. *)
Definition transmute_groups : list (list vty) :=
  [ [mkVty 32 1; mkVty 16 2; mkVty 8 4; mkVty 4 8];
    [mkVty 64 1; mkVty 32 2; mkVty 16 4; mkVty 8 8];
    [mkVty 16 1; mkVty 8 2; mkVty 4 4; mkVty 2 8] ].
(** src/intrin/transmute.rs:51-99 [be_u8s] ... [be_f64s_unchecked]: a transmute, lanes
    seen as byte strings. *)
Definition be_as (target : vty) (v : list (list Z)) : list (list Z) :=
  retype (Z.to_nat (SIZE target)) v.
