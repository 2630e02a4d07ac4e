(** Model of the [Merge] trait (src/intrin/merge.rs), portable and byte-blend
    versions.  A vector is a list of WIDTH lanes, a lane a string of SIZE bytes. *)
From Coq Require Import String.
From Verif Require Import Base Vecs Lanes X86 Tables Patterns.
Open Scope Z_scope.

Section Merge.
Variable c : config.
Variable m : merge_impl.

(** [self.extract_unchecked(i)] for every literal index of a list.
    src/intrin/merge.rs:55-61 [merge_halves]. *)
Fixpoint extract_all (v : list (list Z)) (idx : list Z) : outcome (list (list Z)) :=
  match idx with
  | [] => Ok []
  | i :: idx' =>
    let! x := extract_unchecked c (WIDTH (mi_ty m)) v i in
    let! xs := extract_all v idx' in Ok (x :: xs)
  end.

(** src/intrin/merge.rs:54-61 [merge_halves], portable. *)
Definition merge_halves_portable (self other : list (list Z)) : outcome (list (list Z)) :=
  let! a := extract_all self (mi_a m) in
  let! b := extract_all other (mi_b m) in
  Ok (a ++ b)%list.

(** The index list of merge_interleaved is read in pairs [$na, $nb].
    src/intrin/merge.rs:63-70 [merge_interleaved]. *)
Fixpoint extract_pairs (self other : list (list Z)) (idx : list Z) : outcome (list (list Z)) :=
  match idx with
  | na :: nb :: idx' =>
    let! x := extract_unchecked c (WIDTH (mi_ty m)) self na in
    let! y := extract_unchecked c (WIDTH (mi_ty m)) other nb in
    let! xs := extract_pairs self other idx' in Ok (x :: y :: xs)
  | _ => Ok []
  end.

(** src/intrin/merge.rs:63-70 [merge_interleaved], portable. *)
Definition merge_interleaved_portable (self other : list (list Z)) : outcome (list (list Z)) :=
  extract_pairs self other (mi_n m).

(** [$uscl::min_value()] and [$uscl::max_value()] of an unsigned scalar, as bytes.
    src/intrin/merge.rs:86-113. *)
Definition uscl_min : list Z := to_bytes (mi_usize m) 0.
(** src/intrin/merge.rs:86-113. *)
Definition uscl_max : list Z := to_bytes (mi_usize m) (2 ^ (8 * Z.of_nat (mi_usize m)) - 1).

(** [transmute($mmfn(self.be_i8s(), other.be_i8s(), mask))].
    src/intrin/merge.rs:86-113. *)
Definition blend_with (self other : list (list Z)) (mask : list Z) : list (list Z) :=
  regroup (Z.to_nat (SIZE (mi_ty m))) (blendv_epi8 (concat self) (concat other) mask).

(** src/intrin/merge.rs:88-95 [merge_halves], blend; [None] if the mask vector has no
    [Pattern] impl. *)
Definition merge_halves_blend (ps : list pattern_impl) (self other : list (list Z))
  : option (list (list Z)) :=
  match pattern_of ps (mi_uvec m) with
  | Some p => Some (blend_with self other (concat (halfs p uscl_min uscl_max)))
  | None => None
  end.

(** src/intrin/merge.rs:97-104 [merge_interleaved], blend. *)
Definition merge_interleaved_blend (ps : list pattern_impl) (self other : list (list Z))
  : option (list (list Z)) :=
  match pattern_of ps (mi_uvec m) with
  | Some p => Some (blend_with self other (concat (interleave p uscl_min uscl_max)))
  | None => None
  end.

(** src/intrin/merge.rs:72-82 [merge_partitioned], portable. *)
Definition merge_partitioned_portable (self other : list (list Z)) (offset : Z)
  : outcome (list (list Z)) :=
  let! _ := rassert (offset <? WIDTH (mi_ty m)) in
  for_range (Z.to_nat (WIDTH (mi_ty m) - offset)) offset
    (fun i ret => let! x := extract_unchecked c (WIDTH (mi_ty m)) other i in
                  replace_unchecked c (WIDTH (mi_ty m)) ret i x) self.

(** src/intrin/merge.rs:106-113 [merge_partitioned], blend. *)
Definition merge_partitioned_blend (table : list Z) (self other : list (list Z)) (offset : Z)
  : outcome (list (list Z)) :=
  let! mask := partition_mask_bytes c table (mi_ty m) offset in
  Ok (blend_with self other mask).
End Merge.

(** An [impl_packed_merge!] whose target feature exists uses blendv, the others can
    only be compiled to the portable code: src/intrin/merge.rs:52, 85. *)
Definition can_blend (m : merge_impl) : bool :=
  String.eqb (mi_feat m) "sse4.1" || String.eqb (mi_feat m) "avx2".
