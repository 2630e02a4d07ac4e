(** Properties: pattern constructors and merges (C35, C36, C37). *)
From Coq Require Import String Ascii.
From Verif Require Import Base Spec VecSpec Vecs Lanes X86 Tables Patterns Merge.
Open Scope list_scope.
Open Scope Z_scope.
From Verif Require Import PatternProofs.

(** C35/C36: [partition_mask(off)] for off <= WIDTH is [off] lanes of zero bytes then
    WIDTH - off lanes of 0xFF bytes, in both build modes and on both back-ends. *)
Theorem C35_partition_mask : forall (c : config) (table : list Z) (ty : vty) (off : Z),
  In table [x86_part_mask; unknown_part_mask] -> vty_ok ty -> 0 <= off <= WIDTH ty ->
  partition_mask_bytes c table ty off =
    Ok (repeat 0 (Z.to_nat (off * SIZE ty)) ++ repeat 255 (Z.to_nat ((WIDTH ty - off) * SIZE ty))).
Proof. exact c35_partition_mask. Qed.
Print Assumptions C35_partition_mask.

Example C35_partition_mask_case : partition_mask_bytes (mkConfig Debug true) x86_part_mask (mkVty 4 4) 3 =
  Ok [0;0;0;0; 0;0;0;0; 0;0;0;0; 255;255;255;255].
Proof. vm_compute. reflexivity. Qed.

(** C36: [partition_mask] never reads outside its table in debug builds, for one-byte
    elements, or for arguments up to 64/SIZE: it returns WIDTH lanes or panics. *)
Theorem C36_mask_in_table_partial : forall (c : config) (table : list Z) (ty : vty) (off : Z),
  In table [x86_part_mask; unknown_part_mask] -> vty_ok ty -> 0 <= off < usize_mod ->
  build c = Debug \/ SIZE ty = 1 \/ off <= 64 / SIZE ty ->
  partition_mask_bytes c table ty off = Panic \/
  exists m, partition_mask_bytes c table ty off = Ok m /\ zlen m = WIDTH ty * SIZE ty.
Proof. exact c36_mask_in_table_partial. Qed.
Print Assumptions C36_mask_in_table_partial.

(** The two outcomes both occur for arguments above WIDTH: a release build returns an
    all-zero mask between WIDTH and 64/SIZE and usually panics beyond. *)
Example C36_mask_case : partition_mask_bytes (mkConfig Release true) x86_part_mask (mkVty 4 4) 16 = Ok (repeat 0 16) /\
  partition_mask_bytes (mkConfig Release true) x86_part_mask (mkVty 4 4) 17 = Panic /\
  partition_mask_bytes (mkConfig Debug true) x86_part_mask (mkVty 4 4) 5 = Panic.
Proof. split; [vm_compute; reflexivity|split; [vm_compute; reflexivity|vm_compute; reflexivity]]. Qed.

(** C36 is false in release builds: for every type with elements wider than a byte
    some argument makes the safe function read past the end of the table (the
    subtraction wraps, and the length check uses a slice that claims 128 lanes). *)
Theorem C36_mask_overread_refuted : forall (table : list Z) (ty : vty) (b : bool),
  In table [x86_part_mask; unknown_part_mask] -> vty_ok ty -> 1 < SIZE ty ->
  exists off, 0 <= off < usize_mod /\ partition_mask_bytes (mkConfig Release b) table ty off = UB.
Proof. exact c36_mask_overread_refuted. Qed.
Print Assumptions C36_mask_overread_refuted.

Example C36_mask_overread_case : partition_mask_bytes (mkConfig Release true) x86_part_mask (mkVty 4 4) (usize_mod - 61) = UB.
Proof. vm_compute. reflexivity. Qed.

(** C35: the mask the iterators use (lane by lane) is the byte mask read from the
    table: a lane is all 0xFF when its flag is set and all 0x00 otherwise. *)
Theorem C35_mask_lanes : forall (c : config) (ty : vty) (off : Z), vty_ok ty -> 0 <= off <= WIDTH ty ->
  exists m, partition_mask c ty off = Ok m /\
    partition_mask_bytes c x86_part_mask ty off = Ok (flat_map (fun k : bool => repeat (if k then 255 else 0) (Z.to_nat (SIZE ty))) m).
Proof. exact c35_mask_lanes. Qed.
Print Assumptions C35_mask_lanes.

Example C35_mask_lanes_case : partition_mask (mkConfig Debug true) (mkVty 4 4) 1 = Ok [false;true;true;true] /\
  partition_mask_bytes (mkConfig Debug true) x86_part_mask (mkVty 4 4) 1 = Ok [0;0;0;0; 255;255;255;255; 255;255;255;255; 255;255;255;255].
Proof. split; vm_compute; reflexivity. Qed.

(** C35: [halfs(hi, lo)] is WIDTH/2 lanes of [hi] then WIDTH/2 lanes of [lo], and
    [interleave(hi, lo)] has [hi] at even and [lo] at odd indices, for every vector
    type of both back-ends. *)
Theorem C35_halfs_interleave : forall (A : Type) (p : pattern_impl) (hi lo : A),
  In p (x86_patterns ++ unknown_patterns) ->
  halfs p hi lo = repeat hi (Z.to_nat (WIDTH (pi_ty p) / 2)) ++ repeat lo (Z.to_nat (WIDTH (pi_ty p) / 2)) /\
  WIDTH (pi_ty p) mod 2 = 0 /\ zlen (interleave p hi lo) = WIDTH (pi_ty p) /\
  forall i, 0 <= i < WIDTH (pi_ty p) -> znth (interleave p hi lo) i = Some (if i mod 2 =? 0 then hi else lo).
Proof. exact c35_halfs_interleave. Qed.
Print Assumptions C35_halfs_interleave.

Example C35_halfs_case : exists p, In p x86_patterns /\ pi_ty p = mkVty 4 8 /\ halfs p 1 2 = [1;1;2;2] /\ interleave p 1 2 = [1;2;1;2].
Proof. exists (nth 22 x86_patterns (nth 0 x86_patterns (mkPattern "" (mkVty 0 0) "" "" [] 0 0))). split; [vm_compute; tauto|]. repeat split. Qed.

(** C35: the portable [partition(hi, lo, off)] is [off] lanes of [hi] then
    WIDTH - off lanes of [lo] for every off <= WIDTH, and panics for larger ones. *)
Theorem C35_partition : forall (A : Type) (p : pattern_impl) (hi lo : A) (off : Z),
  In p (x86_patterns ++ unknown_patterns) -> 0 <= off ->
  partition_portable p hi lo off =
    if off <=? WIDTH (pi_ty p) then Ok (repeat hi (Z.to_nat off) ++ repeat lo (Z.to_nat (WIDTH (pi_ty p) - off))) else Panic.
Proof. exact c35_partition. Qed.
Print Assumptions C35_partition.

Example C35_partition_case : exists p, In p x86_patterns /\ pi_ty p = mkVty 8 2 /\
  partition_portable p 1 2 3 = Ok [1;1;1;2;2;2;2;2] /\ partition_portable p 1 2 8 = Ok [1;1;1;1;1;1;1;1] /\ partition_portable p 1 2 9 = Panic.
Proof. eexists. split; [apply (nth_error_In _ 8); reflexivity|]. repeat split; vm_compute; reflexivity. Qed.

(** C35: the byte-blend [partition] gives the same lanes as the portable one, for every
    off <= WIDTH. *)
Theorem C35_partition_blend : forall (c : config) (p : pattern_impl) (hi lo : list Z) (off : Z),
  In p x86_patterns -> vty_ok (pi_ty p) -> zlen hi = SIZE (pi_ty p) -> zlen lo = SIZE (pi_ty p) -> 0 <= off <= WIDTH (pi_ty p) ->
  partition_blend c x86_part_mask (pi_ty p) hi lo off = partition_portable p hi lo off.
Proof. exact c35_partition_blend. Qed.
Print Assumptions C35_partition_blend.

Example C35_partition_blend_case : exists p, In p x86_patterns /\ vty_ok (pi_ty p) /\ pi_ty p = mkVty 8 2 /\
  partition_blend (mkConfig Debug true) x86_part_mask (pi_ty p) [1;2] [3;4] 3 = Ok [[1;2];[1;2];[1;2];[3;4];[3;4];[3;4];[3;4];[3;4]].
Proof. eexists. split; [apply (nth_error_In _ 8); reflexivity|]. split; [vm_compute; tauto|]. split; vm_compute; reflexivity. Qed.

(** C35: [ones] has every bit set and [zeroes] none. *)
Theorem C35_ones_zeroes : forall (p : pattern_impl), In p (x86_patterns ++ unknown_patterns) ->
  concat (ones p) = repeat 255 (Z.to_nat (WIDTH (pi_ty p) * SIZE (pi_ty p))) /\
  concat (zeroes p) = repeat 0 (Z.to_nat (WIDTH (pi_ty p) * SIZE (pi_ty p))).
Proof. exact c35_ones_zeroes. Qed.
Print Assumptions C35_ones_zeroes.

Example C35_ones_case : exists p, In p x86_patterns /\ pi_ty p = mkVty 2 8 /\ ones p = repeat (repeat 255 8) 2 /\ zeroes p = repeat (repeat 0 8) 2.
Proof. eexists. split; [apply (nth_error_In _ 29); reflexivity|]. repeat split; vm_compute; reflexivity. Qed.

(** C37, portable code: [merge_halves] is the first half of self and the second half
    of other; [merge_interleaved] takes even lanes from self and odd lanes from other;
    [merge_partitioned(other, off)] is the first off lanes of self and the rest of
    other, for every off < WIDTH.  Every vector type of both back-ends. *)
Theorem C37_merge_portable : forall (c : config) (m : merge_impl) (self other : list (list Z)),
  In m (x86_merges ++ unknown_merges) -> vector_of (mi_ty m) self -> vector_of (mi_ty m) other ->
  merge_halves_portable c m self other =
    Ok (firstn (Z.to_nat (WIDTH (mi_ty m) / 2)) self ++ skipn (Z.to_nat (WIDTH (mi_ty m) / 2)) other)%list /\
  (exists r, merge_interleaved_portable c m self other = Ok r /\ picks (WIDTH (mi_ty m)) (fun i => i mod 2 =? 0) self other r) /\
  (forall off, 0 <= off < WIDTH (mi_ty m) ->
     merge_partitioned_portable c m self other off = Ok (firstn (Z.to_nat off) self ++ skipn (Z.to_nat off) other)%list).
Proof. exact c37_merge_portable. Qed.
Print Assumptions C37_merge_portable.

Example C37_merge_portable_case : exists m, In m unknown_merges /\ mi_ty m = mkVty 4 4 /\
  let a := [[1;1;1;1];[2;2;2;2];[3;3;3;3];[4;4;4;4]] in let b := [[5;5;5;5];[6;6;6;6];[7;7;7;7];[8;8;8;8]] in
  vector_of (mi_ty m) a /\ vector_of (mi_ty m) b /\
  merge_halves_portable (mkConfig Debug true) m a b = Ok [[1;1;1;1];[2;2;2;2];[7;7;7;7];[8;8;8;8]] /\
  merge_interleaved_portable (mkConfig Debug true) m a b = Ok [[1;1;1;1];[6;6;6;6];[3;3;3;3];[8;8;8;8]] /\
  merge_partitioned_portable (mkConfig Debug true) m a b 3 = Ok [[1;1;1;1];[2;2;2;2];[3;3;3;3];[8;8;8;8]].
Proof. eexists. split; [apply (nth_error_In _ 2); reflexivity|]. split; [reflexivity|]. cbv zeta. split; [split; repeat constructor|]. split; [split; repeat constructor|]. repeat split; vm_compute; reflexivity. Qed.

(** C37, byte-blend code: the same lanes as the portable code, for every vector type
    whose target feature exists, and every off <= WIDTH. *)
Theorem C37_merge_blend : forall (c : config) (m : merge_impl) (self other : list (list Z)),
  In m x86_merges -> can_blend m = true -> vector_of (mi_ty m) self -> vector_of (mi_ty m) other ->
  merge_halves_blend m x86_patterns self other =
    Some (firstn (Z.to_nat (WIDTH (mi_ty m) / 2)) self ++ skipn (Z.to_nat (WIDTH (mi_ty m) / 2)) other)%list /\
  (exists r, merge_interleaved_blend m x86_patterns self other = Some r /\ picks (WIDTH (mi_ty m)) (fun i => i mod 2 =? 0) self other r) /\
  (forall off, 0 <= off <= WIDTH (mi_ty m) ->
     merge_partitioned_blend c m x86_part_mask self other off = Ok (firstn (Z.to_nat off) self ++ skipn (Z.to_nat off) other)%list).
Proof. exact c37_merge_blend. Qed.
Print Assumptions C37_merge_blend.

Example C37_merge_case : exists m, In m x86_merges /\ can_blend m = true /\ mi_ty m = mkVty 8 2 /\
  merge_partitioned_blend (mkConfig Release true) m x86_part_mask
    [[1;1];[2;2];[3;3];[4;4];[5;5];[6;6];[7;7];[8;8]] [[11;9];[12;9];[13;9];[14;9];[15;9];[16;9];[17;9];[18;9]] 5 =
    Ok [[1;1];[2;2];[3;3];[4;4];[5;5];[16;9];[17;9];[18;9]].
Proof. exists (nth 3 x86_merges (mkMerge "" (mkVty 0 0) "" 0 "" "" [] [] [])). split; [vm_compute; tauto|]. repeat split. Qed.

(** C54, refuted: at off = WIDTH the two
    back-ends differ, the portable one panics where the blend returns self. *)
Theorem C54_offset_width_refuted : forall (c : config) (m : merge_impl) (self other : list (list Z)),
  In m x86_merges -> can_blend m = true -> vector_of (mi_ty m) self -> vector_of (mi_ty m) other ->
  merge_partitioned_blend c m x86_part_mask self other (WIDTH (mi_ty m)) = Ok self /\
  merge_partitioned_portable c m self other (WIDTH (mi_ty m)) = Panic.
Proof. exact c54_offset_width_refuted. Qed.
Print Assumptions C54_offset_width_refuted.

Example C54_offset_width_case : exists m, In m x86_merges /\ can_blend m = true /\ mi_ty m = mkVty 4 4 /\
  let a := [[1;1;1;1];[2;2;2;2];[3;3;3;3];[4;4;4;4]] in let b := [[5;5;5;5];[6;6;6;6];[7;7;7;7];[8;8;8;8]] in
  merge_partitioned_blend (mkConfig Release true) m x86_part_mask a b 4 = Ok a /\ merge_partitioned_portable (mkConfig Release true) m a b 4 = Panic.
Proof. eexists. split; [apply (nth_error_In _ 6); reflexivity|]. repeat split; vm_compute; reflexivity. Qed.
