(** More x86 instructions, on whole registers.  A register is the list of its bytes.
    Like X86.v these are the manufacturer's documented semantics and belong to the
    trusted base; each definition names the intrinsics it models. *)
From Verif Require Import Base Lanes X86.
Open Scope list_scope.
Open Scope Z_scope.

(** Elements of two lists in turn: a0 b0 a1 b1 ...
    Not in the source: used to state the unpack instructions of src/arch/x86/intrin/hadd.rs:41-91. *)
Fixpoint riffle {A : Type} (a b : list A) : list A :=
  match a, b with
  | x :: a', y :: b' => x :: y :: riffle a' b'
  | _, _ => []
  end.

(** [g] of neighbouring elements: g l0 l1, g l2 l3, ...
    Not in the source: used to state the horizontal instructions of src/arch/x86/intrin/hadd.rs:21-90. *)
Fixpoint pairs (g : Z -> Z -> Z) (l : list Z) : list Z :=
  match l with
  | x :: y :: l' => g x y :: pairs g l'
  | _ => []
  end.

(** PUNPCKL*, PUNPCKH* ([_mm_unpacklo_epi32] and so on): the low (high) halves of two
    16-byte registers interleaved in pieces of [n] bytes.
    Used by src/arch/x86/intrin/hadd.rs:41-91, hsub.rs:40-90, saturating_hadd.rs:20-31, saturating_hsub.rs:20-31. *)
Definition unpacklo (n : nat) (a b : list Z) : list Z :=
  concat (riffle (regroup n (firstn 8 a)) (regroup n (firstn 8 b))).
(** Used by src/arch/x86/intrin/hadd.rs:41-91, hsub.rs:40-90, saturating_hadd.rs:20-31, saturating_hsub.rs:20-31. *)
Definition unpackhi (n : nat) (a b : list Z) : list Z :=
  concat (riffle (regroup n (skipn 8 a)) (regroup n (skipn 8 b))).
(** [_mm256_unpacklo_epi32], ...: each 128-bit half on its own.
    Used by src/arch/x86/intrin/hadd.rs:41-91, hsub.rs:40-90, saturating_hadd.rs:20-31, saturating_hsub.rs:20-31. *)
Definition unpacklo256 (n : nat) (a b : list Z) : list Z := per_half2 16 (unpacklo n) a b.
(** Used by src/arch/x86/intrin/hadd.rs:41-91, hsub.rs:40-90, saturating_hadd.rs:20-31, saturating_hsub.rs:20-31. *)
Definition unpackhi256 (n : nat) (a b : list Z) : list Z := per_half2 16 (unpackhi n) a b.

(** The [k]-th two-bit field of an immediate.
    Of the shuffles of src/arch/x86/intrin/hadd.rs:21-22 and upcast.rs:24-389. *)
Definition field2 (imm : Z) (k : Z) : nat := Z.to_nat (imm / 4 ^ k mod 4).
(** [_mm_shuffle_ps]: two 4-byte lanes picked from [a], then two from [b].
    Used by src/arch/x86/intrin/hadd.rs:21-22 and hsub.rs:21-22. *)
Definition shuffle_ps (a b : list Z) (imm : Z) : list Z :=
  nth (field2 imm 0) (regroup 4 a) [] ++ nth (field2 imm 1) (regroup 4 a) [] ++
  nth (field2 imm 2) (regroup 4 b) [] ++ nth (field2 imm 3) (regroup 4 b) [].
(** [_mm_shuffle_epi32].
    Used by src/arch/x86/intrin/upcast.rs:24-389. *)
Definition shuffle_epi32 (a : list Z) (imm : Z) : list Z := shuffle_ps a a imm.
(** [_mm256_permute4x64_epi64]: four 8-byte lanes picked from a 32-byte register.
    Used by src/arch/x86/intrin/upcast.rs:144-510 and destride.rs:48-111. *)
Definition permute4x64 (a : list Z) (imm : Z) : list Z :=
  nth (field2 imm 0) (regroup 8 a) [] ++ nth (field2 imm 1) (regroup 8 a) [] ++
  nth (field2 imm 2) (regroup 8 a) [] ++ nth (field2 imm 3) (regroup 8 a) [].
(** [_mm256_castsi256_si128]: the low half.
    Used by src/arch/x86/intrin/upcast.rs:144-510. *)
Definition low128 (a : list Z) : list Z := firstn 16 a.

(** PHADD*, PHSUB*, HADDP*, HSUBP*: the operation on neighbouring lanes of [a], then of
    [b]; the results are stored in the lane's bytes, so integer sums wrap.
    Used by src/arch/x86/intrin/hadd.rs:21-90, hsub.rs:21-89, saturating_hadd.rs:20-31, saturating_hsub.rs:20-31 and sum.rs:126-253. *)
Definition hop128 (t : ity) (g : Z -> Z -> Z) (a b : list Z) : list Z :=
  bytes_of t (pairs g (lanes_of t a) ++ pairs g (lanes_of t b)).
(** Used by src/arch/x86/intrin/hadd.rs:21-90, hsub.rs:21-89, saturating_hadd.rs:20-31, saturating_hsub.rs:20-31 and sum.rs:126-253. *)
Definition hop256 (t : ity) (g : Z -> Z -> Z) (a b : list Z) : list Z :=
  per_half2 16 (hop128 t g) a b.
(** [_mm_hadd_epi16], [_mm_hadd_epi32], [_mm_hsub_epi16], [_mm_hsub_epi32] and the
    saturating [_mm_hadds_epi16], [_mm_hsubs_epi16].
    Used by src/arch/x86/intrin/hadd.rs:60-90 and sum.rs:126-253. *)
Definition hadd_epi (t : ity) : list Z -> list Z -> list Z := hop128 t Z.add.
(** Used by src/arch/x86/intrin/hsub.rs:59-89. *)
Definition hsub_epi (t : ity) : list Z -> list Z -> list Z := hop128 t Z.sub.
(** Used by src/arch/x86/intrin/saturating_hadd.rs:20-31. *)
Definition hadds_epi (t : ity) : list Z -> list Z -> list Z := hop128 t (fun x y => clamp t (x + y)).
(** Used by src/arch/x86/intrin/saturating_hsub.rs:20-31. *)
Definition hsubs_epi (t : ity) : list Z -> list Z -> list Z := hop128 t (fun x y => clamp t (x - y)).
(** Used by src/arch/x86/intrin/hadd.rs:60-90 and sum.rs:126-253. *)
Definition hadd256_epi (t : ity) : list Z -> list Z -> list Z := hop256 t Z.add.
(** Used by src/arch/x86/intrin/hsub.rs:59-89. *)
Definition hsub256_epi (t : ity) : list Z -> list Z -> list Z := hop256 t Z.sub.
(** Used by src/arch/x86/intrin/saturating_hadd.rs:20-31. *)
Definition hadds256_epi (t : ity) : list Z -> list Z -> list Z := hop256 t (fun x y => clamp t (x + y)).
(** Used by src/arch/x86/intrin/saturating_hsub.rs:20-31. *)
Definition hsubs256_epi (t : ity) : list Z -> list Z -> list Z := hop256 t (fun x y => clamp t (x - y)).

(** PACKSS*, PACKUS*: lanes of [a] then of [b] (lane type [t1], signed), clamped to
    [t2]; the 256-bit versions work on each 128-bit half.
    Used by src/arch/x86/intrin/downcast.rs. *)
Definition pack (t1 t2 : ity) (a b : list Z) : list Z :=
  bytes_of t2 (map (clamp t2) (lanes_of t1 a ++ lanes_of t1 b)).
(** Used by src/arch/x86/intrin/downcast.rs:162-271. *)
Definition pack256 (t1 t2 : ity) (a b : list Z) : list Z := per_half2 16 (pack t1 t2) a b.

(** PMOVSX*, PMOVZX* ([_mm_cvtepu8_epi16] and so on), CVTPS2PD, CVTDQ2PD: the low
    [n] lanes of type [t1], converted by [g] and stored as lanes of type [t2].
    Used by src/arch/x86/intrin/upcast.rs:23-510. *)
Definition cvt (t1 t2 : ity) (n : nat) (g : Z -> Z) (a : list Z) : list Z :=
  bytes_of t2 (map g (firstn n (lanes_of t1 a))).

(** PABS*.
    Used by src/arch/x86/intrin/abs.rs. *)
Definition pabs (t : ity) (a : list Z) : list Z := bytes_of t (map Z.abs (lanes_of t a)).
(** ANDPS, ANDPD, PAND.
    Used by src/arch/x86/intrin/abs.rs:23 and popcnt.rs:19-54. *)
Definition pand (a b : list Z) : list Z := zipw Z.land a b.

(** PSADBW ([_mm_sad_epu8]): for every 8 bytes the sum of absolute differences, in a
    64-bit lane (its upper 48 bits are zero).
    Used by src/arch/x86/intrin/sum.rs:33-115. *)
Definition psad (a b : list Z) : list Z :=
  bytes_of u64 (map (fold_right Z.add 0) (regroup 8 (zipw (fun x y => Z.abs (x - y)) a b))).
