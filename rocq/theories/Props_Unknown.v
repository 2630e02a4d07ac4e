(** Properties: the portable vector types (C59-C64). *)
From Coq Require Import String.
From Verif Require Import Base Lanes VecSpec Floats FloatSpec OpTables OpSpec Ops UnknownTables UnknownSpec Unknown.
Open Scope list_scope.
Open Scope Z_scope.
From Verif Require Import UnknownProofs.

(** C59: the safe [load(slice, offset)] of every portable vector type reads outside the
    slice whenever the slice has room for a vector but not at [offset]. *)
Theorem C59_load_refuted : forall (A : Type) (zero : A) (u : utype) (slice : list A) (offset : Z), In u unknown_types ->
  ut_sz u <= zlen slice -> zlen slice - ut_sz u < offset <= zlen slice ->
  uv_load (ut_sz u) zero slice offset = UB.
Proof. exact c59_load_refuted. Qed.
Print Assumptions C59_load_refuted.

Example C59_load_refuted_case : let u := mkUType "u32x4" (EInt u32) 4 4 in In u unknown_types /\ uv_load (ut_sz u) 0 [1; 2; 3; 4] 1 = UB.
Proof. split; [apply (nth_error_In _ 12); reflexivity|vm_compute; reflexivity]. Qed.

(** C59: the safe [store(slice, offset)] writes outside the slice in the same cases. *)
Theorem C59_store_refuted : forall (A : Type) (u : utype) (v slice : list A) (offset : Z), In u unknown_types ->
  ut_sz u <= zlen slice -> zlen slice - ut_sz u < offset <= zlen slice ->
  uv_store (ut_sz u) v slice offset = UB.
Proof. exact c59_store_refuted. Qed.
Print Assumptions C59_store_refuted.

Example C59_store_refuted_case : uv_store 4 [9; 9; 9; 9] [1; 2; 3; 4; 5] 3 = UB.
Proof. vm_compute. reflexivity. Qed.

(** C59: in all other cases [load] is right: it returns the lanes at [offset] when they
    are there, and panics when the slice is too short or [offset] is beyond its end. *)
Theorem C59_load_partial : forall (A : Type) (zero : A) (u : utype) (slice : list A) (offset : Z), In u unknown_types -> 0 <= offset ->
  (offset + ut_sz u <= zlen slice -> exists v, uv_load (ut_sz u) zero slice offset = Ok v /\ zlen v = ut_sz u /\
     forall i, 0 <= i < ut_sz u -> znth v i = znth slice (offset + i)) /\
  (zlen slice < ut_sz u \/ zlen slice < offset -> uv_load (ut_sz u) zero slice offset = Panic).
Proof. exact c59_load_partial. Qed.
Print Assumptions C59_load_partial.

Example C59_load_case : uv_load 2 0 [1; 2; 3; 4; 5] 3 = Ok [4; 5] /\ uv_load 2 0 [1] 0 = Panic /\ uv_load 2 0 [1; 2; 3] 4 = Panic.
Proof. vm_compute. auto. Qed.

(** C59: in all other cases [store] is right: it writes the lanes at [offset] and
    nothing else, or panics. *)
Theorem C59_store_partial : forall (A : Type) (u : utype) (v slice : list A) (offset : Z), In u unknown_types -> zlen v = ut_sz u -> 0 <= offset ->
  (offset + ut_sz u <= zlen slice -> exists s, uv_store (ut_sz u) v slice offset = Ok s /\ zlen s = zlen slice /\
     forall i, 0 <= i -> znth s i = if (offset <=? i) && (i <? offset + ut_sz u) then znth v (i - offset) else znth slice i) /\
  (zlen slice < ut_sz u \/ zlen slice < offset -> uv_store (ut_sz u) v slice offset = Panic).
Proof. exact c59_store_partial. Qed.
Print Assumptions C59_store_partial.

Example C59_store_case : uv_store 2 [8; 9] [1; 2; 3; 4; 5] 3 = Ok [1; 2; 3; 8; 9] /\ uv_store 2 [8; 9] [1] 0 = Panic.
Proof. vm_compute. auto. Qed.

(** C59: [load_unaligned] and [store_unaligned] are safe on every slice: they read and
    write the first lanes of the slice, and panic exactly when it is too short. *)
Theorem C59_unaligned : forall (A : Type) (zero : A) (u : utype) (v slice : list A), In u unknown_types -> zlen v = ut_sz u ->
  (zlen slice < ut_sz u -> uv_load_unaligned (ut_sz u) zero slice = Panic /\ uv_store_unaligned (ut_sz u) v slice = Panic) /\
  (ut_sz u <= zlen slice ->
     uv_load_unaligned (ut_sz u) zero slice = Ok (firstn (Z.to_nat (ut_sz u)) slice) /\
     uv_store_unaligned (ut_sz u) v slice = Ok (v ++ skipn (Z.to_nat (ut_sz u)) slice)).
Proof. exact c59_unaligned. Qed.
Print Assumptions C59_unaligned.

Example C59_unaligned_case : uv_load_unaligned 2 0 [1; 2; 3] = Ok [1; 2] /\ uv_store_unaligned 2 [8; 9] [1; 2; 3] = Ok [8; 9; 3] /\ uv_load_unaligned 2 0 [1] = Panic.
Proof. vm_compute. auto. Qed.

(** C59: the unsafe variants do the same when the caller keeps their contract, that the
    lanes are there. *)
Theorem C59_unchecked : forall (A : Type) (zero : A) (u : utype) (v slice : list A) (offset : Z), In u unknown_types -> zlen v = ut_sz u -> 0 <= offset ->
  offset + ut_sz u <= zlen slice ->
  uv_load_unchecked (ut_sz u) zero slice offset = Ok (sub slice offset (ut_sz u)) /\
  uv_store_unchecked (ut_sz u) v slice offset = Ok (upd slice offset v) /\
  uv_load_unaligned_unchecked (ut_sz u) zero slice = Ok (firstn (Z.to_nat (ut_sz u)) slice) /\
  uv_store_unaligned_unchecked (ut_sz u) v slice = Ok (v ++ skipn (Z.to_nat (ut_sz u)) slice) /\
  (let! s := uv_store_unchecked (ut_sz u) v slice offset in uv_load_unchecked (ut_sz u) zero s offset) = Ok v.
Proof. exact c59_unchecked. Qed.
Print Assumptions C59_unchecked.

Example C59_unchecked_case : (let! s := uv_store_unchecked 2 [8; 9] [1; 2; 3; 4] 1 in uv_load_unchecked 2 0 s 1) = Ok [8; 9].
Proof. vm_compute. reflexivity. Qed.

(** C60: every operator of every portable vector type is the operator its trait names,
    applied lane by lane; it panics only if some lane panics. *)
Theorem C60_operators : forall (arith : string -> elty -> Z -> Z -> Z) (c : config) (r : uop) (u : utype) (trait sym : string) (v w : list Z),
  In r unknown_ops -> utype_of (uo_vec r) = Some u -> In (trait, sym) (uo_ops r) ->
  int_vector (ut_sz u) (lane_ity (ut_el u)) v -> int_vector (ut_sz u) (lane_ity (ut_el u)) w ->
  lanes_result (op_result arith c (ut_el u) trait) v w (uv_op arith c (uo_el r) (ut_sz u) sym v w).
Proof. exact c60_operators. Qed.
Print Assumptions C60_operators.

Example C60_operators_case : let c := mkConfig Debug false in let arith := fun _ _ _ _ => 0 in
  uv_op arith c (EInt i32) 4 "-" [10; 20; 30; 40] [1; 2; 3; 4] = Ok [9; 18; 27; 36] /\
  uv_op arith c (EInt u8) 2 "+" [200; 1] [100; 1] = Panic /\
  uv_op arith (mkConfig Release false) (EInt u8) 2 "+" [200; 1] [100; 1] = Ok [44; 2] /\
  uv_op arith c (EInt i32) 4 "/" [-7; 7; 7; 7] [2; 2; 2; 0] = Panic /\
  uv_op arith c (EInt i32) 4 "%" [-7; 7; -8; 8] [2; 4; 5; -3] = Ok [-1; 3; -3; 2].
Proof. vm_compute. auto 10. Qed.

(** C60: every assigning operator leaves in its left operand what the operator of the
    same name returns. *)
Theorem C60_assigning : forall (arith : string -> elty -> Z -> Z -> Z) (c : config) (r : uop) (u : utype) (name sym : string) (v w : list Z),
  In r unknown_assignops -> utype_of (uo_vec r) = Some u -> In (name, sym) (uo_ops r) ->
  int_vector (ut_sz u) (lane_ity (ut_el u)) v -> int_vector (ut_sz u) (lane_ity (ut_el u)) w ->
  exists trait, name = (trait ++ "Assign")%string /\ lanes_result (op_result arith c (ut_el u) trait) v w (uv_assign arith c (uo_el r) sym v w).
Proof. exact c60_assigning. Qed.
Print Assumptions C60_assigning.

Example C60_assigning_case : let c := mkConfig Release false in let arith := fun _ _ _ _ => 0 in
  uv_assign arith c (EInt i16) "<<=" [1; 2; 3; -4] [1; 2; 17; 15] = Ok [2; 8; 6; 0] /\
  uv_assign arith (mkConfig Debug false) (EInt i16) "<<=" [1; 2; 3; -4] [1; 2; 17; 15] = Panic /\
  uv_assign arith c (EInt i16) ">>=" [1; 2; 3; -4] [0; 1; 1; 15] = Ok [1; 1; 1; -1].
Proof. vm_compute. auto. Qed.

(** C60: every portable vector type implements every operator its element has, and its
    assigning form, exactly once. *)
Theorem C60_complete : forall u, In u unknown_types ->
  (exists r, In r unknown_ops /\ uo_vec r = ut_name u /\ (forall r', In r' unknown_ops -> uo_vec r' = ut_name u -> r' = r) /\
     NoDup (map fst (uo_ops r)) /\ forall t, In t (map fst (uo_ops r)) <-> In t (required_traits (ut_el u))) /\
  (exists r, In r unknown_assignops /\ uo_vec r = ut_name u /\ (forall r', In r' unknown_assignops -> uo_vec r' = ut_name u -> r' = r) /\
     NoDup (map fst (uo_ops r)) /\ forall t, In t (map fst (uo_ops r)) <-> exists t', In t' (required_traits (ut_el u)) /\ t = (t' ++ "Assign")%string).
Proof. exact c60_complete. Qed.
Print Assumptions C60_complete.

Example C60_complete_case : In (mkUType "i16x32" (EInt i16) 32 32) unknown_types /\ In (mkUType "f64x8" EF64 8 8) unknown_types.
Proof. split; [apply (nth_error_In _ 23)|apply (nth_error_In _ 2)]; reflexivity. Qed.

(** C61: every cast of a portable vector converts every lane to the element type of its
    target: integers keep their low bits, floats are truncated and saturate, and
    integers go to the nearest float. *)
Theorem C61_casts : forall (r : ucast) (a b : utype) (v : list Z), In r unknown_casts -> utype_of (uc_from r) = Some a -> utype_of (uc_to r) = Some b ->
  int_vector (ut_sz a) (lane_ity (ut_el a)) v ->
  exists w, uv_cast (ut_el a) (uc_el r) (ut_sz b) v = Ok w /\ int_vector (ut_sz b) (lane_ity (ut_el b)) w /\ each_lane1 (cast_result (ut_el a) (ut_el b)) v w.
Proof. exact c61_casts. Qed.
Print Assumptions C61_casts.

Example C61_casts_case : uv_cast (EInt i8) (EInt u8) 4 [-1; 0; 127; -128] = Ok [255; 0; 127; 128] /\
  uv_cast EF32 (EInt i32) 4 [1073741824 (* 2.0 *); 3221225472 (* -2.0 *); 2143289344 (* NaN *); 2139095040 (* inf *)] = Ok [2; -2; 0; 2147483647] /\
  uv_cast (EInt i32) EF32 4 [1; -3; 0; 16777217] = Ok [1065353216; 3225419776; 0; 1266679808].
Proof. vm_compute. auto. Qed.

(** C61: the casts are named after their target, go between vectors of the same shape,
    and exist between any two of those. *)
Theorem C61_complete :
  (forall r, In r unknown_casts -> uc_name r = ("as_" ++ uc_to r)%string /\ exists a b, utype_of (uc_from r) = Some a /\ utype_of (uc_to r) = Some b /\
     ut_sz a = ut_sz b /\ ibytes (lane_ity (ut_el a)) = ibytes (lane_ity (ut_el b)) /\ uc_el r = ut_el b) /\
  (forall a b, In a unknown_types -> In b unknown_types -> ut_name a <> ut_name b -> ut_sz a = ut_sz b -> ibytes (lane_ity (ut_el a)) = ibytes (lane_ity (ut_el b)) ->
     exists r, In r unknown_casts /\ uc_from r = ut_name a /\ uc_to r = ut_name b).
Proof. exact c61_complete. Qed.
Print Assumptions C61_complete.

Example C61_complete_case : In (mkUCast "u64x4" "f64x4" EF64 "as_f64x4") unknown_casts /\ utype_of "u64x4" = Some (mkUType "u64x4" (EInt u64) 4 4).
Proof. split; [apply (nth_error_In _ 40); reflexivity|reflexivity]. Qed.

(** C62: [From] between portable integer vectors keeps every byte, and converting back
    gives the original vector. *)
Theorem C62_bytes : forall (r : ufrom) (n : string) (a b : utype) (v : list Z), In r unknown_froms -> In n (uf_from r) -> utype_of n = Some a -> utype_of (uf_to r) = Some b ->
  int_vector (ut_sz a) (lane_ity (ut_el a)) v ->
  let w := uv_from (ut_el a) (ut_el b) v in
  int_vector (ut_sz b) (lane_ity (ut_el b)) w /\ bytes_of (lane_ity (ut_el b)) w = bytes_of (lane_ity (ut_el a)) v /\ uv_from (ut_el b) (ut_el a) w = v.
Proof. exact c62_bytes. Qed.
Print Assumptions C62_bytes.

Example C62_bytes_case : uv_from (EInt u64) (EInt i16) [1 + 65536 * 65535; 18446744073709551615] = [1; -1; 0; 0; -1; -1; -1; -1] /\ utype_of "i16x8" = Some (mkUType "i16x8" (EInt i16) 8 8).
Proof. vm_compute. auto. Qed.

(** C62: [From] exists between any two different portable integer vectors with the same
    number of bytes, and only there. *)
Theorem C62_complete : forall a b, In a unknown_types -> In b unknown_types -> ut_name a <> ut_name b ->
  ((exists r, In r unknown_froms /\ uf_to r = ut_name b /\ In (ut_name a) (uf_from r)) <->
   (exists t1 t2, ut_el a = EInt t1 /\ ut_el b = EInt t2 /\ ut_sz a * Z.of_nat (ibytes t1) = ut_sz b * Z.of_nat (ibytes t2))).
Proof. exact c62_complete. Qed.
Print Assumptions C62_complete.

Example C62_complete_case : In (mkUFrom "u64x2" ["i64x2"; "u32x4"; "i32x4"; "u16x8"; "i16x8"; "u8x16"; "i8x16"]%string) unknown_froms.
Proof. left. reflexivity. Qed.

(** C63: two portable vectors compare equal exactly when all their lanes do (for floats
    in the IEEE sense). *)
Theorem C63_eq : forall (u : utype) (v w : list Z), In u unknown_types -> int_vector (ut_sz u) (lane_ity (ut_el u)) v -> int_vector (ut_sz u) (lane_ity (ut_el u)) w ->
  (uv_eq (rust_eq (ut_el u)) v w = true <-> forall i x y, znth v i = Some x -> znth w i = Some y -> equal_lanes (ut_el u) x y).
Proof. exact c63_eq. Qed.
Print Assumptions C63_eq.

Example C63_eq_case : uv_eq (rust_eq (EInt i8)) [1; -2] [1; -2] = true /\ uv_eq (rust_eq (EInt i8)) [1; -2] [1; 2] = false /\ uv_eq (rust_eq EF32) [0; 1065353216] [2147483648; 1065353216] = true /\ uv_eq (rust_eq EF32) [2143289344; 0] [2143289344; 0] = false.
Proof. vm_compute. auto. Qed.

(** C63: equality of portable vectors is symmetric and transitive; it is reflexive
    exactly on the vectors without a NaN. *)
Theorem C63_relation : forall (u : utype) (v w x : list Z), In u unknown_types ->
  int_vector (ut_sz u) (lane_ity (ut_el u)) v -> int_vector (ut_sz u) (lane_ity (ut_el u)) w -> int_vector (ut_sz u) (lane_ity (ut_el u)) x ->
  uv_eq (rust_eq (ut_el u)) v w = uv_eq (rust_eq (ut_el u)) w v /\
  (uv_eq (rust_eq (ut_el u)) v w = true -> uv_eq (rust_eq (ut_el u)) w x = true -> uv_eq (rust_eq (ut_el u)) v x = true) /\
  (uv_eq (rust_eq (ut_el u)) v v = true <-> ((forall t, ut_el u <> EInt t) -> forall i a, znth v i = Some a -> ~ is_nan (fmt_of (ut_el u)) a)).
Proof. exact c63_relation. Qed.
Print Assumptions C63_relation.

Example C63_relation_case : exists v, int_vector 4 (lane_ity EF32) v /\ uv_eq (rust_eq EF32) v v = false.
Proof. exists [2143289344; 0; 0; 0]. split; [split; [reflexivity|repeat constructor; vm_compute; congruence]|vm_compute; reflexivity]. Qed.

(** C64: [len] is the number of lanes; [new] puts its arguments into the lanes in order,
    and takes one for each lane; [splat] fills every lane. *)
Theorem C64_construct : forall (A : Type) (u : utype) (args : list A) (x : A), In u unknown_types -> length args = ut_params u ->
  uv_len u = ut_sz u /\ zlen (uv_new args) = uv_len u /\ (forall i, 0 <= i < uv_len u -> exists a, znth args i = Some a /\ uv_extract (uv_new args) i = Ok a) /\
  zlen (uv_splat (ut_sz u) x) = uv_len u /\ (forall i, 0 <= i < uv_len u -> uv_extract (uv_splat (ut_sz u) x) i = Ok x).
Proof. exact c64_construct. Qed.
Print Assumptions C64_construct.

Example C64_construct_case : uv_extract (uv_new [5; 6; 7; 8]) 2 = Ok 7 /\ uv_extract (uv_splat 4 9) 3 = Ok 9.
Proof. vm_compute. auto. Qed.

(** C64: [extract] returns the lane and [replace] changes that lane only; both panic on
    an index that is not a lane.  So do the [_unchecked] forms, although unsafe. *)
Theorem C64_lanes : forall (A : Type) (u : utype) (v : list A) (i : Z) (x : A), In u unknown_types -> zlen v = ut_sz u -> 0 <= i ->
  (i < ut_sz u -> exists a w, uv_extract v i = Ok a /\ znth v i = Some a /\ uv_replace v i x = Ok w /\ zlen w = ut_sz u /\
     uv_extract w i = Ok x /\ forall j, 0 <= j -> j <> i -> znth w j = znth v j) /\
  (ut_sz u <= i -> uv_extract v i = Panic /\ uv_replace v i x = Panic) /\
  uv_extract_unchecked v i = uv_extract v i /\ uv_replace_unchecked v i x = uv_replace v i x.
Proof. exact c64_lanes. Qed.
Print Assumptions C64_lanes.

Example C64_lanes_case : uv_replace [1; 2; 3; 4] 1 9 = Ok [1; 9; 3; 4] /\ uv_replace [1; 2; 3; 4] 4 9 = Panic /\ uv_extract [1; 2; 3; 4] 3 = Ok 4.
Proof. vm_compute. auto. Qed.
