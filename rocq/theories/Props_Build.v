(** Properties: what an operation returns in every build (C78). *)
From Coq Require Import String.
From Verif Require Import Base Spec VecSpec GateTables GateSpec Vecs Lanes Floats FloatSpec X86 X86Reg Tables Patterns Merge Shuffles OpTables OpSpec Ops PortTables Ports PortSpec Hops SumTables Sums SumSpec Builds.
Open Scope list_scope.
Open Scope Z_scope.
From Verif Require Import BuildProofs.

(** C78: [eq_mask] in every build. *)
Theorem C78_eq_mask : forall (fs : features) (tie : bool) (o : op_impl) (a b : list Z), In o x86_eq ->
  int_vector (WIDTH (op_ty o)) (lane_ity (op_el o)) a -> int_vector (WIDTH (op_ty o)) (lane_ity (op_el o)) b ->
  exists m, op2_in fs tie o a b = Some (Ok m) /\ masks (equal_lanes (op_el o)) (8 * SIZE (op_ty o)) a b m.
Proof. exact c78_eq_mask. Qed.
Print Assumptions C78_eq_mask.

(** C78: [min] and [max] of integers in every build. *)
Theorem C78_min_max : forall (fs : features) (tie : bool) (o : op_impl) (t : ity) (a b : list Z), In o x86_cmp -> op_el o = EInt t ->
  int_vector (WIDTH (op_ty o)) t a -> int_vector (WIDTH (op_ty o)) t b ->
  exists m, op2_in fs tie o a b = Some (Ok m) /\ lanewise (if String.eqb (op_fn o) "min" then Z.min else Z.max) a b m.
Proof. exact c78_min_max. Qed.
Print Assumptions C78_min_max.

(** C78: [min] and [max] of floats in every build, where no lane is NaN and no zeros
    of opposite sign meet (on those the builds differ, C39). *)
Theorem C78_min_max_float : forall (fs : features) (tie : bool) (o : op_impl) (a b : list Z), In o x86_cmp -> op_el o = EF32 \/ op_el o = EF64 ->
  int_vector (WIDTH (op_ty o)) (lane_ity (op_el o)) a -> int_vector (WIDTH (op_ty o)) (lane_ity (op_el o)) b ->
  Forall2 (fun x y => ~ is_nan (fmt_of (op_el o)) x /\ ~ is_nan (fmt_of (op_el o)) y /\ (fvalue (fmt_of (op_el o)) x = fvalue (fmt_of (op_el o)) y -> x = y)) a b ->
  exists m, op2_in fs tie o a b = Some (Ok m) /\ each_lane (if String.eqb (op_fn o) "min" then least (fmt_of (op_el o)) else greatest (fmt_of (op_el o))) a b m.
Proof. exact c78_min_max_float. Qed.
Print Assumptions C78_min_max_float.

(** C78: [saturating_add] and [saturating_sub] in every build. *)
Theorem C78_saturating : forall (fs : features) (tie : bool) (o : op_impl) (a b : list Z),
  int_vector (WIDTH (op_ty o)) (lane_ity (op_el o)) a -> int_vector (WIDTH (op_ty o)) (lane_ity (op_el o)) b ->
  (In o x86_saturating_add -> exists m, op2_in fs tie o a b = Some (Ok m) /\ lanewise (fun x y => Z.max (imin (lane_ity (op_el o))) (Z.min (imax (lane_ity (op_el o))) (x + y))) a b m) /\
  (In o x86_saturating_sub -> exists m, op2_in fs tie o a b = Some (Ok m) /\ lanewise (fun x y => Z.max (imin (lane_ity (op_el o))) (Z.min (imax (lane_ity (op_el o))) (x - y))) a b m).
Proof. exact c78_saturating. Qed.
Print Assumptions C78_saturating.

(** [min] of i16 lanes without any feature and with SSE2. *)
Example C78_min_case : exists o, In o x86_cmp /\ op_vec o = "i16x8"%string /\ op_fn o = "min"%string /\
  let a := [1;-1;3;4;5;6;7;-32768] in let b := [1;1;3;0;5;0;7;32767] in
  op2_in (fun _ => false) true o a b = Some (Ok [1;-1;3;0;5;0;7;-32768]) /\ op2_in sandy_bridge true o a b = Some (Ok [1;-1;3;0;5;0;7;-32768]).
Proof. exists (nth 6 x86_cmp (mkOp "" "" (mkVty 0 0) EF32 EF32 "" "" "" [] [])). split; [vm_compute; tauto|]. repeat split; vm_compute; reflexivity. Qed.

(** C78: [ceil], [floor] and [trunc] in every build. *)
Theorem C78_directed : forall (fs : features) (fsqrt : elty -> Z -> Z) (o : op_impl) (a : list Z), In o x86_round -> op_fn o <> "round"%string ->
  int_vector (WIDTH (op_ty o)) (lane_ity (op_el o)) a ->
  let f := match op_el o with EF64 => fmt64 | _ => fmt32 end in
  exists r, op1_in fs fsqrt o a = Some (Ok r) /\ Forall2 (rounds f (if String.eqb (op_fn o) "ceil" then ceil_of f else if String.eqb (op_fn o) "floor" then floor_of f else trunc_of f)) a r.
Proof. exact c78_directed. Qed.
Print Assumptions C78_directed.

(** C78: [sqrt] in every build. *)
Theorem C78_sqrt : forall (fs : features) (fsqrt : elty -> Z -> Z) (o : op_impl) (a : list Z), In o x86_sqrt ->
  (forall e x, e = EF32 \/ e = EF64 -> in_ity (lane_ity e) x -> in_ity (lane_ity e) (fsqrt e x)) -> int_vector (WIDTH (op_ty o)) (lane_ity (op_el o)) a ->
  op1_in fs fsqrt o a = Some (Ok (map (fsqrt (op_el o)) a)).
Proof. exact c78_sqrt. Qed.
Print Assumptions C78_sqrt.

(** [ceil] of 1.5, -1.5, 0.0 and NaN, without any feature and with SSE4.1. *)
Example C78_ceil_case : exists o, In o x86_round /\ op_vec o = "f32x4"%string /\ op_fn o = "ceil"%string /\
  let a := [1069547520; 3217031168; 0; 2143289344] in
  op1_in (fun _ => false) (fun _ x => x) o a = Some (Ok [1073741824; 3212836864; 0; 2143289344]) /\ op1_in sandy_bridge (fun _ x => x) o a = Some (Ok [1073741824; 3212836864; 0; 2143289344]).
Proof. destruct (find (fun o => String.eqb (op_vec o) "f32x4" && String.eqb (op_fn o) "ceil") x86_round) as [o|] eqn:F; [|vm_compute in F; discriminate]. pose proof (find_some _ _ F) as [Ho _].
  exists o. split; [exact Ho|]. vm_compute in F. injection F as <-. repeat split; vm_compute; reflexivity. Qed.

(** C78: the merges in every build: [merge_halves], [merge_interleaved], and
    [merge_partitioned] for offsets below the number of lanes. *)
Theorem C78_merge : forall (fs : features) (c : config) (m : merge_impl) (self other : list (list Z)), target fs ->
  In m x86_merges -> vector_of (mi_ty m) self -> vector_of (mi_ty m) other ->
  merge_halves_in fs c m self other = Some (Ok (firstn (Z.to_nat (WIDTH (mi_ty m) / 2)) self ++ skipn (Z.to_nat (WIDTH (mi_ty m) / 2)) other)) /\
  (exists r, merge_interleaved_in fs c m self other = Some (Ok r) /\ picks (WIDTH (mi_ty m)) (fun i => i mod 2 =? 0) self other r) /\
  (forall off, 0 <= off < WIDTH (mi_ty m) -> merge_partitioned_in fs c m self other off = Some (Ok (firstn (Z.to_nat off) self ++ skipn (Z.to_nat off) other))).
Proof. exact c78_merge. Qed.
Print Assumptions C78_merge.

(** C78: [flip] and [swap_bytes] in every build. *)
Theorem C78_shuffle : forall (fs : features) (s : shuffle_impl) (v : list (list Z)), target fs -> vector_of (sh_ty s) v ->
  (In s x86_swizzles -> flip_in fs s v = Some (Ok (swap_adjacent v))) /\ (In s x86_swap_bytes -> swap_bytes_in fs s v = Some (Ok (map (@rev Z) v))).
Proof. exact c78_shuffle. Qed.
Print Assumptions C78_shuffle.

(** [merge_interleaved] and [flip] of u64x2 on a machine without SSSE3 and with AVX. *)
Example C78_merge_case : exists m s, In m x86_merges /\ mi_name m = "u64x2"%string /\ In s x86_swizzles /\ sh_name s = "u64x2"%string /\
  let a := [[1;2;3;4;5;6;7;8];[9;10;11;12;13;14;15;16]] in let b := [[0;0;0;0;0;0;0;0];[1;1;1;1;1;1;1;1]] in
  merge_interleaved_in (fun _ => false) (mkConfig Release true) m a b = Some (Ok [[1;2;3;4;5;6;7;8];[1;1;1;1;1;1;1;1]]) /\
  merge_interleaved_in sandy_bridge (mkConfig Release true) m a b = Some (Ok [[1;2;3;4;5;6;7;8];[1;1;1;1;1;1;1;1]]) /\
  flip_in (fun _ => false) s a = Some (Ok [[9;10;11;12;13;14;15;16];[1;2;3;4;5;6;7;8]]) /\ flip_in sandy_bridge s a = Some (Ok [[9;10;11;12;13;14;15;16];[1;2;3;4;5;6;7;8]]).
Proof. destruct (find (fun m => String.eqb (mi_name m) "u64x2") x86_merges) as [m|] eqn:F; [|vm_compute in F; discriminate]. pose proof (find_some _ _ F) as [Hm _].
  destruct (find (fun m => String.eqb (sh_name m) "u64x2") x86_swizzles) as [s|] eqn:G; [|vm_compute in G; discriminate]. pose proof (find_some _ _ G) as [Hs _].
  exists m, s. split; [exact Hm|]. vm_compute in F. injection F as <-. split; [reflexivity|]. split; [exact Hs|]. vm_compute in G. injection G as <-. repeat split; vm_compute; reflexivity. Qed.

(** C78: [hadd] in every build: unless a debug build meets an overflowing integer pair
    (where the portable code panics and the instruction wraps), the documented layout. *)
Theorem C78_hadd : forall (fs : features) (fadd fsub : elty -> Z -> Z -> Z) (c : config) (o : hop_impl) (a b : list Z), In o x86_hadd ->
  (forall e u v, e = EF32 \/ e = EF64 -> in_ity (lane_ity e) u -> in_ity (lane_ity e) v -> in_ity (lane_ity e) (fadd e u v)) ->
  int_vector (WIDTH (h_ty o)) (lane_ity (h_el o)) a -> int_vector (WIDTH (h_ty o)) (lane_ity (h_el o)) b ->
  (forall t, h_el o = EInt t -> build c = Debug -> each_pair (fun x y => in_ity t (x + y)) a /\ each_pair (fun x y => in_ity t (x + y)) b) ->
  exists r, hadd_in fs fadd fsub c (h_vec o) a b = Some (Ok r) /\ horizontal (fun x y => match h_el o with EInt t => wrap t (x + y) | e => fadd e x y end) a b r.
Proof. exact c78_hadd. Qed.
Print Assumptions C78_hadd.

(** C78: the same for [hsub]. *)
Theorem C78_hsub : forall (fs : features) (fadd fsub : elty -> Z -> Z -> Z) (c : config) (o : hop_impl) (a b : list Z), In o x86_hsub ->
  (forall e u v, e = EF32 \/ e = EF64 -> in_ity (lane_ity e) u -> in_ity (lane_ity e) v -> in_ity (lane_ity e) (fsub e u v)) ->
  int_vector (WIDTH (h_ty o)) (lane_ity (h_el o)) a -> int_vector (WIDTH (h_ty o)) (lane_ity (h_el o)) b ->
  (forall t, h_el o = EInt t -> build c = Debug -> each_pair (fun x y => in_ity t (x - y)) a /\ each_pair (fun x y => in_ity t (x - y)) b) ->
  exists r, hsub_in fs fadd fsub c (h_vec o) a b = Some (Ok r) /\ horizontal (fun x y => match h_el o with EInt t => wrap t (x - y) | e => fsub e x y end) a b r.
Proof. exact c78_hsub. Qed.
Print Assumptions C78_hsub.

(** C78: [saturating_hadd] and [saturating_hsub] in every build. *)
Theorem C78_saturating_h : forall (fs : features) (fadd fsub : elty -> Z -> Z -> Z) (c : config) (o : hop_impl) (a b : list Z),
  int_vector (WIDTH (h_ty o)) (lane_ity (h_el o)) a -> int_vector (WIDTH (h_ty o)) (lane_ity (h_el o)) b ->
  (In o x86_saturating_hadd -> exists r, saturating_hadd_in fs fadd fsub c (h_vec o) a b = Some (Ok r) /\ horizontal (fun x y => clamp (lane_ity (h_el o)) (x + y)) a b r) /\
  (In o x86_saturating_hsub -> exists r, saturating_hsub_in fs fadd fsub c (h_vec o) a b = Some (Ok r) /\ horizontal (fun x y => clamp (lane_ity (h_el o)) (x - y)) a b r).
Proof. exact c78_saturating_h. Qed.
Print Assumptions C78_saturating_h.

(** [hadd] of i32x4: scalar code without SSSE3, shuffles and PHADDD with it. *)
Example C78_hadd_case : let run fs := hadd_in fs (fun _ u _ => u) (fun _ u _ => u) (mkConfig Debug true) "i32x4" [1;2;3;4] [10;20;30;40] in
  run (fun _ => false) = Some (Ok [3;30;7;70]) /\ run sandy_bridge = Some (Ok [3;30;7;70]) /\
  map (fun d => match d with inl x => xh_feat x | inr p => h_not p end) (present (fun x => (xh_vec x, xh_trait x)) xh_feat (fun p => (h_vec p, h_trait p)) h_not sandy_bridge (x86_hadd_optimized (fun _ u _ => u)) x86_hadd ("i32x4", "HAdd")%string) = ["ssse3"%string].
Proof. repeat split; vm_compute; reflexivity. Qed.

(** C78: [abs] in every build. *)
Theorem C78_abs : forall (fs : features) (narrow : Z -> Z) (p : port_impl) (v : list Z), In p x86_abs -> int_vector (WIDTH (pt_ty p)) (lane_ity (pt_el p)) v ->
  exists r, vector_abs_in fs narrow (pt_vec p) (pt_outvec p) [v] = Some (Ok [r]) /\ Forall2 (absolute (pt_el p)) v r /\ Forall (in_ity (lane_ity (pt_out p))) r.
Proof. exact c78_abs. Qed.
Print Assumptions C78_abs.

(** C78: [upcast] in every build. *)
Theorem C78_upcast : forall (fs : features) (narrow : Z -> Z) (p : port_impl) (v : list Z), In p x86_upcast -> int_vector (WIDTH (pt_ty p)) (lane_ity (pt_el p)) v ->
  exists r, upcast_in fs narrow (pt_vec p) (pt_outvec p) [v] = Some (Ok r) /\ upcasts (pt_el p) (pt_out p) (WIDTH (pt_outty p)) v r.
Proof. exact c78_upcast. Qed.
Print Assumptions C78_upcast.

(** C78: [saturating_downcast] of 128-bit vectors of signed or float lanes in every
    build (the others differ, C47). *)
Theorem C78_downcast : forall (fs : features) (narrow : Z -> Z) (p : port_impl) (a b : list Z), In p x86_downcast -> bytes (pt_ty p) = 16 ->
  match pt_el p with EInt t => isigned t = true | _ => True end ->
  int_vector (WIDTH (pt_ty p)) (lane_ity (pt_el p)) a -> int_vector (WIDTH (pt_ty p)) (lane_ity (pt_el p)) b ->
  downcast_in fs narrow (pt_vec p) (pt_outvec p) [a; b] = Some (Ok [map (match pt_out p with EInt t => clamp t | _ => narrow end) (a ++ b)]).
Proof. exact c78_downcast. Qed.
Print Assumptions C78_downcast.

(** [abs] of i8x16 and [upcast] of i16x8 in two builds. *)
Example C78_abs_case : let v := [-128;127;-1;0;1;2;3;4;5;6;7;8;9;10;-11;-12] in let r := [128;127;1;0;1;2;3;4;5;6;7;8;9;10;11;12] in
  vector_abs_in (fun _ => false) (fun x => x) "i8x16" "u8x16" [v] = Some (Ok [r]) /\ vector_abs_in sandy_bridge (fun x => x) "i8x16" "u8x16" [v] = Some (Ok [r]) /\
  upcast_in (fun _ => false) (fun x => x) "i16x8" "i32x4" [[-1;2;-3;4;5;6;7;-8]] = Some (Ok [[-1;2;-3;4];[5;6;7;-8]]) /\ upcast_in sandy_bridge (fun x => x) "i16x8" "i32x4" [[-1;2;-3;4;5;6;7;-8]] = Some (Ok [[-1;2;-3;4];[5;6;7;-8]]) /\
  downcast_in sandy_bridge (fun x => x) "i32x4" "i16x8" [[-1;40000;-3;4]; [5;6;7;-40000]] = Some (Ok [[-1;32767;-3;4;5;6;7;-32768]]) /\ downcast_in (fun _ => false) (fun x => x) "i32x4" "i16x8" [[-1;40000;-3;4]; [5;6;7;-40000]] = Some (Ok [[-1;32767;-3;4;5;6;7;-32768]]).
Proof. cbv zeta. repeat split; vm_compute; reflexivity. Qed.

(** C78: [destride_two] in every build, except for the 256-bit vectors of bytes (there
    the AVX2 code is wrong, C48). *)
Theorem C78_destride : forall (fs : features) (c : config) (d : destride_impl) (a b : list Z), In d x86_destride -> bytes (d_ty d) = 16 \/ SIZE (d_ty d) <> 1 ->
  int_vector (WIDTH (d_ty d)) (lane_ity (d_el d)) a -> int_vector (WIDTH (d_ty d)) (lane_ity (d_el d)) b ->
  exists r0 r1, destride_two_in fs c (d_vec d) a b = Some (Ok [r0; r1]) /\ every_nth 2 0 (a ++ b) r0 /\ every_nth 2 1 (a ++ b) r1.
Proof. exact c78_destride. Qed.
Print Assumptions C78_destride.

(** C78: [sum] of integers in every release build. *)
Theorem C78_sum : forall (fs : features) (fadd : elty -> Z -> Z -> Z) (c : config) (s : fold_impl) (t : ity) (v : list Z), In s x86_sum -> s_el s = EInt t -> int_vector (WIDTH (s_ty s)) t v -> build c = Release ->
  exists r, sum_in fs fadd c (s_vec s) v = Some (Ok r) /\ sum_mod t v r.
Proof. exact c78_sum. Qed.
Print Assumptions C78_sum.

(** C78: [sum_upcast] of lanes of up to 32 bits in every build, except i8 (there the
    optimised code truncates, C42). *)
Theorem C78_sum_upcast : forall (fs : features) (c : config) (s : fold_impl) (t : ity) (v : list Z), In s x86_upcast_sum -> s_el s = EInt t -> (ibytes t <= 4)%nat -> t <> i8 -> int_vector (WIDTH (s_ty s)) t v ->
  sum_upcast_in fs c (s_vec s) v = Some (Ok (total v)).
Proof. exact c78_sum_upcast. Qed.
Print Assumptions C78_sum_upcast.

(** [destride_two], [sum] and [sum_upcast] in two builds. *)
Example C78_sum_case : let v := [200;100;1;2;3;4;5;6;7;8;9;10;11;12;13;255] in let r := mkConfig Release true in
  sum_in (fun _ => false) (fun _ x _ => x) r "u8x16" v = Some (Ok 134) /\ sum_in sandy_bridge (fun _ x _ => x) r "u8x16" v = Some (Ok 134) /\
  sum_upcast_in (fun _ => false) r "u8x16" v = Some (Ok 646) /\ sum_upcast_in sandy_bridge r "u8x16" v = Some (Ok 646) /\
  destride_two_in (fun _ => false) r "u8x16" v v = destride_two_in sandy_bridge r "u8x16" v v.
Proof. cbv zeta. repeat split; vm_compute; reflexivity. Qed.

(** C78: the features by which the code above is selected are those of the attributes
    in the source: operations whose macro writes both definitions. *)
Theorem C78_attributes : (forall o, In o (x86_eq ++ x86_cmp ++ x86_saturating_add ++ x86_saturating_sub ++ x86_round ++ x86_sqrt ++ x86_recip ++ x86_rsqrt) ->
    attributes (op_trait o) (op_vec o) (op_fn o) [op_feat o] [] /\ attributes (op_trait o) (op_vec o) (op_fn o) [] [op_feat o]) /\
  (forall m fn, In m x86_merges -> In fn ["merge_halves"; "merge_interleaved"; "merge_partitioned"]%string -> attributes "Merge" (mi_name m) fn [mi_feat m] [] /\ attributes "Merge" (mi_name m) fn [] [mi_feat m]) /\
  (forall s, In s x86_swizzles -> attributes "Swizzle" (sh_name s) "flip" [sh_feat s] [] /\ attributes "Swizzle" (sh_name s) "flip" [] [sh_feat s]) /\
  (forall s, In s x86_swap_bytes -> attributes "Reendianize" (sh_name s) "swap_bytes" [sh_feat s] [] /\ attributes "Reendianize" (sh_name s) "swap_bytes" [] [sh_feat s]).
Proof. exact c78_attributes. Qed.
Print Assumptions C78_attributes.

(** C78: the same for the operations whose definitions are written out: [hadd], [hsub]
    and their saturating versions, [abs], [destride_two], [sum] and [sum_upcast]. *)
Theorem C78_attributes_written : forall (fadd fsub : elty -> Z -> Z -> Z),
  (forall x, In x (x86_hadd_optimized fadd) -> attributes "HAdd" (xh_vec x) "hadd" [xh_feat x] []) /\ (forall p, In p x86_hadd -> attributes "HAdd" (h_vec p) "hadd" [] (at_most_one (h_not p))) /\
  (forall x, In x (x86_hsub_optimized fsub) -> attributes "HSub" (xh_vec x) "hsub" [xh_feat x] []) /\ (forall p, In p x86_hsub -> attributes "HSub" (h_vec p) "hsub" [] (at_most_one (h_not p))) /\
  (forall x, In x x86_saturating_hadd_optimized -> attributes "SaturatingHAdd" (xh_vec x) "saturating_hadd" [xh_feat x] []) /\ (forall p, In p x86_saturating_hadd -> attributes "SaturatingHAdd" (h_vec p) "saturating_hadd" [] (at_most_one (h_not p))) /\
  (forall x, In x x86_saturating_hsub_optimized -> attributes "SaturatingHSub" (xh_vec x) "saturating_hsub" [xh_feat x] []) /\ (forall p, In p x86_saturating_hsub -> attributes "SaturatingHSub" (h_vec p) "saturating_hsub" [] (at_most_one (h_not p))) /\
  (forall x, In x x86_abs_optimized -> attributes "Abs" (xp_vec x) "abs" [xp_feat x] []) /\ (forall p, In p x86_abs -> attributes "Abs" (pt_vec p) "abs" [] (at_most_one (pt_not p))) /\
  (forall x, In x (x86_destride_128 ++ x86_destride_256) -> attributes "Destride" (xd_vec x) "destride_two" [xd_feat x] []) /\ (forall d, In d x86_destride -> attributes "Destride" (d_vec d) "destride_two" [] (at_most_one (d_not d))) /\
  (forall x, In x (x86_sum_optimized ++ x86_sum_float fadd) -> attributes "Sum" (xs_vec x) "sum" [xs_feat x] []) /\ (forall s, In s x86_sum -> attributes "Sum" (s_vec s) "sum" [] (at_most_one (s_not s))) /\
  (forall x, In x x86_sum_upcast_optimized -> attributes "UpcastSum" (xs_vec x) "sum_upcast" [xs_feat x] []) /\ (forall s, In s x86_upcast_sum -> attributes "UpcastSum" (s_vec s) "sum_upcast" [] (at_most_one (s_not s))).
Proof. exact c78_attributes_written. Qed.
Print Assumptions C78_attributes_written.

Example C78_attributes_case : attributes "HAdd" "i32x4" "hadd" ["ssse3"]%string [] /\ attributes "HAdd" "i32x4" "hadd" [] ["ssse3"]%string /\ at_most_one "ssse3" = ["ssse3"]%string /\ at_most_one "" = [].
Proof. split; [|split; [|split; reflexivity]]; apply has_attributes_ok; vm_compute; reflexivity. Qed.

(** [eq_mask], [saturating_add], [sqrt], [hsub], [saturating_hadd] and [destride_two] in two builds. *)
Example C78_more_cases : let none : features := fun _ => false in let c := mkConfig Debug true in let k := fun (_ : elty) (u _ : Z) => u in
  (exists o, In o x86_eq /\ op_vec o = "i16x8"%string /\ forall fs, In fs [none; sandy_bridge] -> op2_in fs true o [1;-1;3;4;5;6;7;-32768] [1;1;3;0;5;0;7;-32768] = Some (Ok [65535;0;65535;0;65535;0;65535;65535])) /\
  (exists o, In o x86_saturating_add /\ op_vec o = "i16x8"%string /\ forall fs, In fs [none; sandy_bridge] -> op2_in fs true o [32767;-32768;3;4;5;6;7;8] [1;-1;3;4;5;6;7;8] = Some (Ok [32767;-32768;6;8;10;12;14;16])) /\
  (forall fs, In fs [none; sandy_bridge] -> hsub_in fs k k c "i32x4" [1;2;3;4] [10;20;30;40] = Some (Ok [-1;-10;-1;-10])) /\
  (forall fs, In fs [none; sandy_bridge] -> saturating_hadd_in fs k k c "i16x8" [32767;1;2;3;4;5;6;7] [1;2;3;4;5;6;7;8] = Some (Ok [32767;3;5;7;9;11;13;15])) /\
  (forall fs, In fs [none; sandy_bridge] -> destride_two_in fs c "i32x4" [1;2;3;4] [5;6;7;8] = Some (Ok [[1;3;5;7];[2;4;6;8]])).
Proof.
  cbv zeta. split; [|split; [|split; [|split]]].
  - destruct (find (fun o => String.eqb (op_vec o) "i16x8") x86_eq) as [o|] eqn:F; [|vm_compute in F; discriminate]. exists o. pose proof (find_some _ _ F) as [F1 F2]. split; [exact F1|]. split; [apply String.eqb_eq; exact F2|]. clear F1 F2. vm_compute in F. injection F as <-. intros fs [<-|[<-|[]]]; vm_compute; reflexivity.
  - destruct (find (fun o => String.eqb (op_vec o) "i16x8") x86_saturating_add) as [o|] eqn:F; [|vm_compute in F; discriminate]. exists o. pose proof (find_some _ _ F) as [F1 F2]. split; [exact F1|]. split; [apply String.eqb_eq; exact F2|]. clear F1 F2. vm_compute in F. injection F as <-. intros fs [<-|[<-|[]]]; vm_compute; reflexivity.
  - intros fs [<-|[<-|[]]]; vm_compute; reflexivity.
  - intros fs [<-|[<-|[]]]; vm_compute; reflexivity.
  - intros fs [<-|[<-|[]]]; vm_compute; reflexivity.
Qed.
