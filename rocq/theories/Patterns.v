(** Model of the [Pattern] constructors (src/vec_patterns.rs, generated code in
    src/arch/{x86,unknown}/vec_patterns.rs), on the transcribed tables. *)
From Coq Require Import String Ascii.
From Verif Require Import Base Vecs Lanes X86 Tables.
Open Scope Z_scope.

(** [Self::new(..)] with the arguments spelled by a string of "h" and "l".
    src/arch/x86/vec_patterns.rs:38-46. *)
Fixpoint spell {A : Type} (hi lo : A) (s : string) : list A :=
  match s with
  | EmptyString => []
  | String ch s' => (if Ascii.eqb ch "h" then hi else lo) :: spell hi lo s'
  end.

(** src/arch/x86/vec_patterns.rs:38-41 [halfs] (and every other impl). *)
Definition halfs {A : Type} (p : pattern_impl) (hi lo : A) : list A := spell hi lo (pi_halfs p).

(** src/arch/x86/vec_patterns.rs:43-46 [interleave]. *)
Definition interleave {A : Type} (p : pattern_impl) (hi lo : A) : list A :=
  spell hi lo (pi_interleave p).

(** src/arch/x86/vec_patterns.rs:62-133 [partition], portable: the arms of the match,
    [unreachable!] (a panic) otherwise. *)
Definition partition_portable {A : Type} (p : pattern_impl) (hi lo : A) (off : Z)
  : outcome (list A) :=
  let! _ := rassert (off <=? WIDTH (pi_ty p)) in
  match find (fun a => fst a =? off) (pi_arms p) with
  | Some a => Ok (spell hi lo (snd a))
  | None => Panic
  end.

(** src/arch/x86/vec_patterns.rs:48-53 [partition_mask], on bytes: the table really
    has 128 bytes, but [transmute(&PART_MASK[..])] keeps its length field, so the
    checks of [Packed::load] compare with 128 lanes of SIZE bytes each; reading past
    the 128 bytes is [UB]. *)
Definition partition_mask_bytes (c : config) (table : list Z) (ty : vty) (off : Z)
  : outcome (list Z) :=
  let! _ := debug_assert c (off <=? WIDTH ty) in
  let! _ := (match build c with
             | Debug => let! m := umul c off (SIZE ty) in rassert (m <=? 64)
             | Release => Ok tt
             end) in
  let! start := usub c (64 / SIZE ty) off in
  if 128 <? start then Panic
  else if negb (WIDTH ty <=? 128 - start) then Panic
  else if (start + WIDTH ty) * SIZE ty <=? zlen table
  then Ok (sub table (start * SIZE ty) (WIDTH ty * SIZE ty))
  else UB.

(** src/arch/x86/vec_patterns.rs:168-173 [partition], with blendv: byte blend of
    [splat(hi)] and [splat(lo)]; lanes are strings of SIZE bytes. *)
Definition partition_blend (c : config) (table : list Z) (ty : vty) (hi lo : list Z) (off : Z)
  : outcome (list (list Z)) :=
  let! m := partition_mask_bytes c table ty off in
  Ok (regroup (Z.to_nat (SIZE ty))
        (blendv_epi8 (concat (splat (WIDTH ty) hi)) (concat (splat (WIDTH ty) lo)) m)).

(** src/arch/x86/vec_patterns.rs:137-147 [ones], [zeroes]: the lane is the byte string
    of the literal. *)
Definition ones (p : pattern_impl) : list (list Z) :=
  splat (WIDTH (pi_ty p)) (to_bytes (Z.to_nat (SIZE (pi_ty p))) (pi_ones p)).
(** src/arch/x86/vec_patterns.rs:135-147 [zeroes]. *)
Definition zeroes (p : pattern_impl) : list (list Z) :=
  splat (WIDTH (pi_ty p)) (to_bytes (Z.to_nat (SIZE (pi_ty p))) (pi_zeroes p)).

(** Look up an implementation by type name.
    Not in the source: the impl of [Pattern] for a type (src/arch/x86/vec_patterns.rs). *)
Definition pattern_of (ps : list pattern_impl) (name : string) : option pattern_impl :=
  find (fun p => String.eqb (pi_name p) name) ps.
