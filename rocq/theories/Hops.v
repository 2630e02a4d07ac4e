(** Model of the horizontal operations: [hadd], [hsub], [saturating_hadd] and
    [saturating_hsub].  A vector is the list of its lanes; a float lane is its bit
    pattern. *)
From Coq Require Import String.
From Verif Require Import Base Vecs Lanes X86 X86Reg OpTables Ops PortTables.
Open Scope list_scope.
Open Scope Z_scope.

Section Hops.
(** Float addition and subtraction on bit patterns: the same for the scalar operators
    and the instructions, otherwise unspecified. *)
Variable fadd fsub : elty -> Z -> Z -> Z.

(** The scalar function handed to [hop!], by path.  [Add::add] and [Sub::sub] on
    integers panic on overflow in a debug build and wrap in release.
    src/intrin/macros.rs:56-65 [$scalarfn]. *)
Definition scalar_hop (c : config) (o : hop_impl) (x y : Z) : option (outcome Z) :=
  match h_el o with
  | EInt t =>
    if String.eqb (h_op o) "Add::add" then Some (iarith c t (x + y))
    else if String.eqb (h_op o) "Sub::sub" then Some (iarith c t (x - y))
    else if String.eqb (h_op o) "u8::saturating_add" || String.eqb (h_op o) "u16::saturating_add" ||
            String.eqb (h_op o) "u32::saturating_add" || String.eqb (h_op o) "u64::saturating_add" ||
            String.eqb (h_op o) "i8::saturating_add" || String.eqb (h_op o) "i16::saturating_add" ||
            String.eqb (h_op o) "i32::saturating_add" || String.eqb (h_op o) "i64::saturating_add"
    then Some (Ok (clamp t (x + y)))
    else if String.eqb (h_op o) "u8::saturating_sub" || String.eqb (h_op o) "u16::saturating_sub" ||
            String.eqb (h_op o) "u32::saturating_sub" || String.eqb (h_op o) "u64::saturating_sub" ||
            String.eqb (h_op o) "i8::saturating_sub" || String.eqb (h_op o) "i16::saturating_sub" ||
            String.eqb (h_op o) "i32::saturating_sub" || String.eqb (h_op o) "i64::saturating_sub"
    then Some (Ok (clamp t (x - y)))
    else None
  | e =>
    if String.eqb (h_op o) "Add::add" then Some (Ok (fadd e x y))
    else if String.eqb (h_op o) "Sub::sub" then Some (Ok (fsub e x y))
    else None
  end.

(** src/intrin/macros.rs:56-66 [hop!]: the indices are read in pairs [$a, $b]; each
    pair gives one lane from [self] and one from [other]. *)
Fixpoint hop_pairs (c : config) (o : hop_impl) (f : Z -> Z -> option (outcome Z))
    (self other : list Z) (idx : list Z) : outcome (list Z) :=
  match idx with
  | a :: b :: idx' =>
    let! s0 := extract (WIDTH (h_ty o)) self a in
    let! s1 := extract (WIDTH (h_ty o)) self b in
    let! x := match f s0 s1 with Some r => r | None => UB end in
    let! o0 := extract (WIDTH (h_ty o)) other a in
    let! o1 := extract (WIDTH (h_ty o)) other b in
    let! y := match f o0 o1 with Some r => r | None => UB end in
    let! r := hop_pairs c o f self other idx' in Ok (x :: y :: r)
  | _ => Ok []
  end.
(** src/intrin/macros.rs:56-65 [hop!]. *)
Definition hop_portable (c : config) (o : hop_impl) (self other : list Z) : outcome (list Z) :=
  hop_pairs c o (scalar_hop c o) self other (h_idx o).

(** The optimised implementations, on registers.
    src/arch/x86/intrin/hadd.rs:13-91, hsub.rs:13-90, saturating_hadd.rs:13-31, saturating_hsub.rs:13-31. *)
Record xhop := mkXHop {
  xh_trait : string; xh_vec : string; xh_ty : vty; xh_el : elty; xh_feat : string;
  xh_run : list Z -> list Z -> list Z }.

(** src/arch/x86/intrin/hadd.rs:16-93 *)
Definition x86_hadd_optimized : list xhop := [
  mkXHop "HAdd" "f32x4" (mkVty 4 4) EF32 "sse3" (fun self other =>
    hop128 u32 (fadd EF32) (shuffle_ps self other 68) (shuffle_ps self other 238));
  mkXHop "HAdd" "f64x2" (mkVty 2 8) EF64 "sse3" (fun self other =>
    hop128 u64 (fadd EF64) self other);
  mkXHop "HAdd" "f32x8" (mkVty 8 4) EF32 "avx2" (fun self other =>
    hop256 u32 (fadd EF32) (unpacklo256 8 self other) (unpackhi256 8 self other));
  mkXHop "HAdd" "f64x4" (mkVty 4 8) EF64 "avx" (fun self other =>
    hop256 u64 (fadd EF64) self other);
  mkXHop "HAdd" "i16x8" (mkVty 8 2) (EInt i16) "ssse3" (fun self other =>
    hadd_epi i16 (unpacklo 4 self other) (unpackhi 4 self other));
  mkXHop "HAdd" "i32x4" (mkVty 4 4) (EInt i32) "ssse3" (fun self other =>
    hadd_epi i32 (unpacklo 8 self other) (unpackhi 8 self other));
  mkXHop "HAdd" "i16x16" (mkVty 16 2) (EInt i16) "avx2" (fun self other =>
    hadd256_epi i16 (unpacklo256 4 self other) (unpackhi256 4 self other));
  mkXHop "HAdd" "i32x8" (mkVty 8 4) (EInt i32) "avx2" (fun self other =>
    hadd256_epi i32 (unpacklo256 8 self other) (unpackhi256 8 self other))].

(** src/arch/x86/intrin/hsub.rs:16-93 *)
Definition x86_hsub_optimized : list xhop := [
  mkXHop "HSub" "f32x4" (mkVty 4 4) EF32 "sse3" (fun self other =>
    hop128 u32 (fsub EF32) (shuffle_ps self other 68) (shuffle_ps self other 238));
  mkXHop "HSub" "f64x2" (mkVty 2 8) EF64 "sse3" (fun self other =>
    hop128 u64 (fsub EF64) self other);
  mkXHop "HSub" "f32x8" (mkVty 8 4) EF32 "avx2" (fun self other =>
    hop256 u32 (fsub EF32) (unpacklo256 8 self other) (unpackhi256 8 self other));
  mkXHop "HSub" "f64x4" (mkVty 4 8) EF64 "avx" (fun self other =>
    hop256 u64 (fsub EF64) self other);
  mkXHop "HSub" "i16x8" (mkVty 8 2) (EInt i16) "ssse3" (fun self other =>
    hsub_epi i16 (unpacklo 4 self other) (unpackhi 4 self other));
  mkXHop "HSub" "i32x4" (mkVty 4 4) (EInt i32) "ssse3" (fun self other =>
    hsub_epi i32 (unpacklo 8 self other) (unpackhi 8 self other));
  mkXHop "HSub" "i16x16" (mkVty 16 2) (EInt i16) "avx2" (fun self other =>
    hsub256_epi i16 (unpacklo256 4 self other) (unpackhi256 4 self other));
  mkXHop "HSub" "i32x8" (mkVty 8 4) (EInt i32) "avx2" (fun self other =>
    hsub256_epi i32 (unpacklo256 8 self other) (unpackhi256 8 self other))].

(** src/arch/x86/intrin/saturating_hadd.rs:15-33 *)
Definition x86_saturating_hadd_optimized : list xhop := [
  mkXHop "SaturatingHAdd" "i16x8" (mkVty 8 2) (EInt i16) "ssse3" (fun self other =>
    hadds_epi i16 (unpacklo 4 self other) (unpackhi 4 self other));
  mkXHop "SaturatingHAdd" "i16x16" (mkVty 16 2) (EInt i16) "avx2" (fun self other =>
    hadds256_epi i16 (unpacklo256 4 self other) (unpackhi256 4 self other))].

(** src/arch/x86/intrin/saturating_hsub.rs:15-33 *)
Definition x86_saturating_hsub_optimized : list xhop := [
  mkXHop "SaturatingHSub" "i16x8" (mkVty 8 2) (EInt i16) "ssse3" (fun self other =>
    hsubs_epi i16 (unpacklo 4 self other) (unpackhi 4 self other));
  mkXHop "SaturatingHSub" "i16x16" (mkVty 16 2) (EInt i16) "avx2" (fun self other =>
    hsubs256_epi i16 (unpacklo256 4 self other) (unpackhi256 4 self other))].

(** An optimised implementation applied to vectors; the [be_*s] casts and intrinsic
    calls reinterpret the same bytes.
    src/arch/x86/intrin/hadd.rs:13-91, hsub.rs:13-90, saturating_hadd.rs:13-31, saturating_hsub.rs:13-31. *)
Definition hop_optimized (x : xhop) (self other : list Z) : list Z :=
  lanes_of (lane_ity (xh_el x)) (xh_run x (bytes_of (lane_ity (xh_el x)) self) (bytes_of (lane_ity (xh_el x)) other)).
End Hops.
