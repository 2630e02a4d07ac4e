(** Properties: comparison masks, min/max and saturating arithmetic (C38, C39, C40). *)
From Coq Require Import String.
From Verif Require Import Base Spec VecSpec Vecs Lanes Floats FloatSpec X86 OpTables OpSpec Ops.
Open Scope list_scope.
Open Scope Z_scope.
From Verif Require Import OpProofs.

(** C38: [eq_mask] is, lane by lane, all ones where the lanes are equal (IEEE equality
    for floats) and zero elsewhere: portable code and compare instruction, every type
    of both back-ends. *)
Theorem C38_eq_mask : forall (tie : bool) (o : op_impl) (a b : list Z), In o (x86_eq ++ unknown_eq) ->
  int_vector (WIDTH (op_ty o)) (lane_ity (op_el o)) a -> int_vector (WIDTH (op_ty o)) (lane_ity (op_el o)) b ->
  exists m, portable2 tie o a b = Some (Ok m) /\ (forall r, optimized2 o a b = Some r -> r = m) /\ (In o x86_eq -> optimized2 o a b <> None) /\
    masks (equal_lanes (op_el o)) (8 * SIZE (op_ty o)) a b m.
Proof. exact c38_eq_mask. Qed.
Print Assumptions C38_eq_mask.

Example C38_eq_float_case : exists o, In o unknown_eq /\ op_el o = EF32 /\ WIDTH (op_ty o) = 4 /\
  (* 0.0 = -0.0, NaN <> NaN, 1.0 = 1.0, 1.0 <> 2.0 *)
  portable2 true o [0; 2143289344; 1065353216; 1065353216] [2147483648; 2143289344; 1065353216; 1073741824] = Some (Ok [4294967295; 0; 4294967295; 0]).
Proof. eexists. split; [apply (nth_error_In _ 6); reflexivity|]. repeat split; vm_compute; reflexivity. Qed.

(** C38: [ne_mask] is the complement: zero where the lanes are equal, all ones where
    they differ. *)
Theorem C38_ne_mask : forall (tie : bool) (o : op_impl) (a b m : list Z), In o (x86_eq ++ unknown_eq) ->
  int_vector (WIDTH (op_ty o)) (lane_ity (op_el o)) a -> int_vector (WIDTH (op_ty o)) (lane_ity (op_el o)) b ->
  portable2 tie o a b = Some (Ok m) \/ optimized2 o a b = Some m ->
  masks (fun x y => ~ equal_lanes (op_el o) x y) (8 * SIZE (op_ty o)) a b (ne_mask_of o m).
Proof. exact c38_ne_mask. Qed.
Print Assumptions C38_ne_mask.

Example C38_eq_case : exists o, In o x86_eq /\ op_el o = EInt i16 /\ WIDTH (op_ty o) = 8 /\
  optimized2 o [1;-1;3;4;5;6;7;-32768] [1;1;3;0;5;0;7;-32768] = Some [65535;0;65535;0;65535;0;65535;65535] /\
  ne_mask_of o [65535;0;65535;0;65535;0;65535;65535] = [0;65535;0;65535;0;65535;0;0].
Proof. exists (nth 3 x86_eq (mkOp "" "" (mkVty 0 0) EF32 EF32 "" "" "" [] [])). split; [vm_compute; tauto|]. repeat split; vm_compute; reflexivity. Qed.

(** C39, integers: [min] and [max] are the lane-wise minimum and maximum, in the
    portable code and with the instruction, for every integer type of both back-ends. *)
Theorem C39_int : forall (tie : bool) (o : op_impl) (t : ity) (a b : list Z), In o (x86_cmp ++ unknown_cmp) -> op_el o = EInt t ->
  int_vector (WIDTH (op_ty o)) t a -> int_vector (WIDTH (op_ty o)) t b ->
  exists m, portable2 tie o a b = Some (Ok m) /\ (forall r, optimized2 o a b = Some r -> r = m) /\ (In o x86_cmp -> optimized2 o a b <> None) /\
    lanewise (if String.eqb (op_fn o) "min" then Z.min else Z.max) a b m.
Proof. exact c39_int. Qed.
Print Assumptions C39_int.

Example C39_int_case : exists o, In o x86_cmp /\ op_el o = EInt i16 /\ op_fn o = "min"%string /\ WIDTH (op_ty o) = 8 /\
  optimized2 o [1;-1;3;4;5;6;7;-32768] [1;1;3;0;5;0;7;32767] = Some [1;-1;3;0;5;0;7;-32768].
Proof. exists (nth 6 x86_cmp (mkOp "" "" (mkVty 0 0) EF32 EF32 "" "" "" [] [])). split; [vm_compute; tauto|]. repeat split; vm_compute; reflexivity. Qed.

(** C39, floats: where no lane is NaN and no zeros of opposite sign meet, [min] and
    [max] return, bit for bit, the argument that is smaller (larger) in the order of
    the reals, in the portable code and with the instruction. *)
Theorem C39_float : forall (tie : bool) (o : op_impl) (a b : list Z), In o (x86_cmp ++ unknown_cmp) -> op_el o = EF32 \/ op_el o = EF64 ->
  int_vector (WIDTH (op_ty o)) (lane_ity (op_el o)) a -> int_vector (WIDTH (op_ty o)) (lane_ity (op_el o)) b ->
  Forall2 (fun x y => ~ is_nan (fmt_of (op_el o)) x /\ ~ is_nan (fmt_of (op_el o)) y /\ (fvalue (fmt_of (op_el o)) x = fvalue (fmt_of (op_el o)) y -> x = y)) a b ->
  exists m, portable2 tie o a b = Some (Ok m) /\ (forall r, optimized2 o a b = Some r -> r = m) /\ (In o x86_cmp -> optimized2 o a b <> None) /\
    each_lane (if String.eqb (op_fn o) "min" then least (fmt_of (op_el o)) else greatest (fmt_of (op_el o))) a b m.
Proof. exact c39_float. Qed.
Print Assumptions C39_float.

Example C39_float_case : exists o, In o x86_cmp /\ op_el o = EF32 /\ op_fn o = "min"%string /\
  optimized2 o [1065353216;3221225472;0;2139095040] [1073741824;3212836864;1;4286578688] = Some [1065353216;3221225472;0;4286578688].
Proof. exists (nth 12 x86_cmp (mkOp "" "" (mkVty 0 0) EF32 EF32 "" "" "" [] [])). split; [vm_compute; tauto|]. repeat split; vm_compute; reflexivity. Qed.

(** On NaN they differ: for every float type, if the second vector is NaN in every lane
    the instruction returns the NaNs and the portable code the other vector. *)
Theorem C39_nan_differs : forall (tie : bool) (o : op_impl) (x nan : Z), In o x86_cmp -> op_el o = EF32 \/ op_el o = EF64 ->
  in_ity (lane_ity (op_el o)) x -> in_ity (lane_ity (op_el o)) nan -> is_nan (fmt_of (op_el o)) nan -> ~ is_nan (fmt_of (op_el o)) x ->
  portable2 tie o (splat (WIDTH (op_ty o)) x) (splat (WIDTH (op_ty o)) nan) = Some (Ok (splat (WIDTH (op_ty o)) x)) /\
  optimized2 o (splat (WIDTH (op_ty o)) x) (splat (WIDTH (op_ty o)) nan) = Some (splat (WIDTH (op_ty o)) nan) /\ x <> nan.
Proof. exact c39_nan_differs. Qed.
Print Assumptions C39_nan_differs.

Example C39_nan_differs_case : is_nan fmt32 2143289344 /\ ~ is_nan fmt32 1065353216 /\ in_ity (lane_ity EF32) 2143289344.
Proof. split; [split; vm_compute; congruence|]. split; [intros [H _]; vm_compute in H; congruence|]. split; vm_compute; congruence. Qed.

(** C40: [saturating_add] is the exact sum of each pair of lanes clamped to the lane
    type, in the portable code and with the instruction, every type of both back-ends. *)
Theorem C40_saturating_add : forall (tie : bool) (o : op_impl) (a b : list Z), In o (x86_saturating_add ++ unknown_saturating_add) ->
  int_vector (WIDTH (op_ty o)) (lane_ity (op_el o)) a -> int_vector (WIDTH (op_ty o)) (lane_ity (op_el o)) b ->
  exists m, portable2 tie o a b = Some (Ok m) /\ (forall r, optimized2 o a b = Some r -> r = m) /\ (In o x86_saturating_add -> optimized2 o a b <> None) /\
    lanewise (fun x y => Z.max (imin (lane_ity (op_el o))) (Z.min (imax (lane_ity (op_el o))) (x + y))) a b m.
Proof. exact c40_saturating_add. Qed.
Print Assumptions C40_saturating_add.

Example C40_add_case : exists o, In o x86_saturating_add /\ op_el o = EInt u8 /\ WIDTH (op_ty o) = 16 /\
  optimized2 o [1;255;200;0;128;127;3;4;5;6;7;8;9;10;11;12] [1;1;100;0;128;128;3;4;5;6;7;8;9;10;11;12] = Some [2;255;255;0;255;255;6;8;10;12;14;16;18;20;22;24] /\
  portable2 false o [1;255;200;0;128;127;3;4;5;6;7;8;9;10;11;12] [1;1;100;0;128;128;3;4;5;6;7;8;9;10;11;12] = Some (Ok [2;255;255;0;255;255;6;8;10;12;14;16;18;20;22;24]).
Proof. eexists. split; [apply (nth_error_In _ 0); reflexivity|]. repeat split; vm_compute; reflexivity. Qed.

(** C40: [saturating_sub] likewise, with the exact difference. *)
Theorem C40_saturating_sub : forall (tie : bool) (o : op_impl) (a b : list Z), In o (x86_saturating_sub ++ unknown_saturating_sub) ->
  int_vector (WIDTH (op_ty o)) (lane_ity (op_el o)) a -> int_vector (WIDTH (op_ty o)) (lane_ity (op_el o)) b ->
  exists m, portable2 tie o a b = Some (Ok m) /\ (forall r, optimized2 o a b = Some r -> r = m) /\ (In o x86_saturating_sub -> optimized2 o a b <> None) /\
    lanewise (fun x y => Z.max (imin (lane_ity (op_el o))) (Z.min (imax (lane_ity (op_el o))) (x - y))) a b m.
Proof. exact c40_saturating_sub. Qed.
Print Assumptions C40_saturating_sub.

Example C40_case : exists o, In o x86_saturating_sub /\ op_el o = EInt i16 /\ WIDTH (op_ty o) = 8 /\
  optimized2 o [1;-1;3;4;5;6;7;-32768] [1;1;3;0;5;0;7;32767] = Some [0;-2;0;4;0;6;0;-32768].
Proof. exists (nth 3 x86_saturating_sub (mkOp "" "" (mkVty 0 0) EF32 EF32 "" "" "" [] [])). split; [vm_compute; tauto|]. repeat split; vm_compute; reflexivity. Qed.
