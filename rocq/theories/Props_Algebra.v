(** Properties: laws between operations, in every build (C84, C85). *)
From Coq Require Import String.
From Verif Require Import Base GateTables GateSpec VecSpec Vecs Lanes Floats Tables Patterns Merge Shuffles OpTables Ops OpSpec PortTables Ports PortSpec Hops SumTables Sums SumSpec Builds.
Open Scope list_scope.
Open Scope Z_scope.
From Verif Require Import AlgebraProofs.

(** C84: merging two constant vectors gives the pattern vectors, as the documentation of
    [merge_halves], [merge_interleaved] and [merge_partitioned] says:
    [splat(hi).merge_halves(splat(lo))] is [halfs(hi, lo)], and so on, for every pair of
    scalars in every build. *)
Theorem C84_merge_patterns : forall (fs : features) (c : config) (m : merge_impl) (p : pattern_impl) (hi lo : list Z), target fs ->
  In m x86_merges -> In p x86_patterns -> pi_ty p = mi_ty m -> zlen hi = SIZE (mi_ty m) -> zlen lo = SIZE (mi_ty m) ->
  let a := splat (WIDTH (mi_ty m)) hi in let b := splat (WIDTH (mi_ty m)) lo in
  merge_halves_in fs c m a b = Some (Ok (halfs p hi lo)) /\ merge_interleaved_in fs c m a b = Some (Ok (interleave p hi lo)) /\
  forall off, 0 <= off < WIDTH (mi_ty m) -> merge_partitioned_in fs c m a b off = Some (partition_portable p hi lo off).
Proof. exact c84_merge_patterns. Qed.
Print Assumptions C84_merge_patterns.

Example C84_merge_patterns_case : exists m p, In m x86_merges /\ In p x86_patterns /\ pi_ty p = mi_ty m /\ mi_name m = "i32x4"%string /\
  let hi := [1;2;3;4] in let lo := [9;9;9;9] in let a := splat 4 hi in let b := splat 4 lo in
  merge_halves_in sandy_bridge (mkConfig Debug true) m a b = Some (Ok [hi; hi; lo; lo]) /\ merge_interleaved_in sandy_bridge (mkConfig Debug true) m a b = Some (Ok [hi; lo; hi; lo]) /\
  merge_partitioned_in (fun _ => false) (mkConfig Debug true) m a b 1 = Some (Ok [hi; lo; lo; lo]).
Proof. destruct (find (fun m => String.eqb (mi_name m) "i32x4") x86_merges) as [m|] eqn:F; [|vm_compute in F; discriminate]. pose proof (find_some _ _ F) as [Hm _].
  destruct (find (fun p => String.eqb (pi_name p) "i32x4") x86_patterns) as [p|] eqn:G; [|vm_compute in G; discriminate]. pose proof (find_some _ _ G) as [Hp _].
  exists m, p. split; [exact Hm|]. split; [exact Hp|]. vm_compute in F. injection F as <-. vm_compute in G. injection G as <-. repeat split; vm_compute; reflexivity. Qed.

(** C84: [flip] twice is the identity, and so is [swap_bytes] twice; [flip] of
    [interleave(hi, lo)] is [interleave(lo, hi)]. *)
Theorem C84_shuffle : forall (fs : features) (s : shuffle_impl), target fs ->
  (forall v, In s x86_swizzles -> vector_of (sh_ty s) v -> exists r, flip_in fs s v = Some (Ok r) /\ flip_in fs s r = Some (Ok v)) /\
  (forall v, In s x86_swap_bytes -> vector_of (sh_ty s) v -> exists r, swap_bytes_in fs s v = Some (Ok r) /\ swap_bytes_in fs s r = Some (Ok v)) /\
  (forall p hi lo, In s x86_swizzles -> In p x86_patterns -> pi_ty p = sh_ty s -> zlen hi = SIZE (sh_ty s) -> zlen lo = SIZE (sh_ty s) ->
    flip_in fs s (interleave p hi lo) = Some (Ok (interleave p lo hi))).
Proof. exact c84_shuffle. Qed.
Print Assumptions C84_shuffle.

Example C84_shuffle_case : exists s, In s x86_swizzles /\ sh_name s = "u16x8"%string /\
  flip_in sandy_bridge s [[1;1];[2;2];[3;3];[4;4];[5;5];[6;6];[7;7];[8;8]] = Some (Ok [[2;2];[1;1];[4;4];[3;3];[6;6];[5;5];[8;8];[7;7]]).
Proof. destruct (find (fun m => String.eqb (sh_name m) "u16x8") x86_swizzles) as [s|] eqn:G; [|vm_compute in G; discriminate]. pose proof (find_some _ _ G) as [Hs _].
  exists s. split; [exact Hs|]. vm_compute in G. injection G as <-. repeat split; vm_compute; reflexivity. Qed.

(** C84: identities between lane operations on integers, in every build: [min] and [max]
    of two vectors hold, lane by lane, the two lanes in order; for unsigned lanes the two
    saturating differences add up to the distance, which is also the difference of [max]
    and [min]; and [eq_mask] is all ones exactly when the vectors are equal. *)
Theorem C84_lanes : forall (fs : features) (tie : bool) (t : ity) (ty : vty) (omin omax osub oeq : op_impl) (a b : list Z),
  In omin x86_cmp -> op_fn omin = "min"%string -> op_el omin = EInt t -> op_ty omin = ty ->
  In omax x86_cmp -> op_fn omax = "max"%string -> op_el omax = EInt t -> op_ty omax = ty ->
  In osub x86_saturating_sub -> op_el osub = EInt t -> op_ty osub = ty -> In oeq x86_eq -> op_el oeq = EInt t -> op_ty oeq = ty ->
  int_vector (WIDTH ty) t a -> int_vector (WIDTH ty) t b ->
  exists lo hi d1 d2 q, op2_in fs tie omin a b = Some (Ok lo) /\ op2_in fs tie omax a b = Some (Ok hi) /\
    op2_in fs tie osub a b = Some (Ok d1) /\ op2_in fs tie osub b a = Some (Ok d2) /\ op2_in fs tie oeq a b = Some (Ok q) /\
    (forall i x y, znth a i = Some x -> znth b i = Some y -> exists l h, znth lo i = Some l /\ znth hi i = Some h /\ l <= h /\ (l = x /\ h = y \/ l = y /\ h = x)) /\
    (isigned t = false -> forall i x y, znth a i = Some x -> znth b i = Some y -> exists l h u v, znth lo i = Some l /\ znth hi i = Some h /\ znth d1 i = Some u /\ znth d2 i = Some v /\ u + v = Z.abs (x - y) /\ h - l = u + v /\ (u = 0 \/ v = 0)) /\
    (q = splat (WIDTH ty) (2 ^ (8 * SIZE ty) - 1) <-> a = b).
Proof. exact c84_lanes. Qed.
Print Assumptions C84_lanes.

Example C84_lanes_case : exists omin omax osub oeq, In omin x86_cmp /\ op_fn omin = "min"%string /\ In omax x86_cmp /\ op_fn omax = "max"%string /\ In osub x86_saturating_sub /\ In oeq x86_eq /\
  map op_vec [omin; omax; osub; oeq] = ["u16x8"; "u16x8"; "u16x8"; "u16x8"]%string /\
  let a := [1;65535;3;4;5;6;7;8] in let b := [2;0;3;9;5;6;7;40000] in
  op2_in sandy_bridge true omin a b = Some (Ok [1;0;3;4;5;6;7;8]) /\ op2_in sandy_bridge true omax a b = Some (Ok [2;65535;3;9;5;6;7;40000]) /\
  op2_in sandy_bridge true osub a b = Some (Ok [0;65535;0;0;0;0;0;0]) /\ op2_in sandy_bridge true osub b a = Some (Ok [1;0;0;5;0;0;0;39992]).
Proof.
  destruct (find (fun o => String.eqb (op_vec o) "u16x8" && String.eqb (op_fn o) "min") x86_cmp) as [o1|] eqn:F1; [|vm_compute in F1; discriminate]. pose proof (find_some _ _ F1) as [H1 _].
  destruct (find (fun o => String.eqb (op_vec o) "u16x8" && String.eqb (op_fn o) "max") x86_cmp) as [o2|] eqn:F2; [|vm_compute in F2; discriminate]. pose proof (find_some _ _ F2) as [H2 _].
  destruct (find (fun o => String.eqb (op_vec o) "u16x8") x86_saturating_sub) as [o3|] eqn:F3; [|vm_compute in F3; discriminate]. pose proof (find_some _ _ F3) as [H3 _].
  destruct (find (fun o => String.eqb (op_vec o) "u16x8") x86_eq) as [o4|] eqn:F4; [|vm_compute in F4; discriminate]. pose proof (find_some _ _ F4) as [H4 _].
  exists o1, o2, o3, o4. vm_compute in F1, F2, F3, F4. injection F1 as <-. injection F2 as <-. injection F3 as <-. injection F4 as <-.
  split; [exact H1|]. split; [reflexivity|]. split; [exact H2|]. split; [reflexivity|]. split; [exact H3|]. split; [exact H4|]. repeat split; vm_compute; reflexivity.
Qed.

(** C85: [upcast] followed by [saturating_downcast] gives the vector back, in every build:
    for all integer vectors of 128 bits, and for the 256-bit ones unless the build
    enables AVX2 and the wider lanes have less than 64 bits; u32 lanes must not exceed
    2^31 - 1.  Missing: the excluded cases, which are refuted below. *)
Theorem C85_roundtrip_partial : forall (fs : features) (narrow : Z -> Z) (p q : port_impl) (t t' : ity) (v : list Z), In p x86_upcast -> In q x86_downcast ->
  pt_outvec p = pt_vec q -> pt_vec p = pt_outvec q -> pt_el p = EInt t -> pt_out p = EInt t' -> int_vector (WIDTH (pt_ty p)) t v ->
  bytes (pt_ty q) = 16 \/ SIZE (pt_ty q) = 8 \/ fs "avx2"%string = false -> (t = u32 -> Forall (fun x => x <= 2147483647) v) ->
  exists a b, upcast_in fs narrow (pt_vec p) (pt_outvec p) [v] = Some (Ok [a; b]) /\ downcast_in fs narrow (pt_vec q) (pt_outvec q) [a; b] = Some (Ok [v]).
Proof. exact c85_roundtrip_partial. Qed.
Print Assumptions C85_roundtrip_partial.

Example C85_roundtrip_case : exists p q, In p x86_upcast /\ In q x86_downcast /\ pt_vec p = "i8x16"%string /\ pt_outvec p = pt_vec q /\ pt_vec p = pt_outvec q /\ bytes (pt_ty q) = 16 /\
  let v := [-128;127;0;1;2;3;4;5;6;7;8;9;10;11;12;-1] in
  upcast_in sandy_bridge (fun x => x) "i8x16" "i16x8" [v] = Some (Ok [[-128;127;0;1;2;3;4;5]; [6;7;8;9;10;11;12;-1]]) /\
  downcast_in sandy_bridge (fun x => x) "i16x8" "i8x16" [[-128;127;0;1;2;3;4;5]; [6;7;8;9;10;11;12;-1]] = Some (Ok [v]).
Proof.
  destruct (find (fun p => String.eqb (pt_vec p) "i8x16") x86_upcast) as [p|] eqn:F; [|vm_compute in F; discriminate]. pose proof (find_some _ _ F) as [Hp _].
  destruct (find (fun p => String.eqb (pt_vec p) "i16x8") x86_downcast) as [q|] eqn:G; [|vm_compute in G; discriminate]. pose proof (find_some _ _ G) as [Hq _].
  exists p, q. split; [exact Hp|]. split; [exact Hq|]. vm_compute in F. injection F as <-. vm_compute in G. injection G as <-. repeat split; vm_compute; reflexivity.
Qed.

(** C85, refuted with AVX2: for every 256-bit vector of 8- or 16-bit lanes the round trip
    exchanges the second and the third quarter of the vector, so it does not give the
    vector back unless these are equal. *)
Theorem C85_roundtrip_256_refuted : forall (fs : features) (narrow : Z -> Z) (p q : port_impl) (t t' : ity) (v1 v2 v3 v4 : list Z), In p x86_upcast -> In q x86_downcast ->
  pt_outvec p = pt_vec q -> pt_vec p = pt_outvec q -> pt_el p = EInt t -> pt_out p = EInt t' -> int_vector (WIDTH (pt_ty p)) t (v1 ++ v2 ++ v3 ++ v4) ->
  bytes (pt_ty q) <> 16 -> SIZE (pt_ty q) <> 8 -> fs "avx2"%string = true ->
  zlen v1 = WIDTH (pt_ty p) / 4 -> zlen v2 = WIDTH (pt_ty p) / 4 -> zlen v3 = WIDTH (pt_ty p) / 4 -> v2 <> v3 ->
  exists a b, upcast_in fs narrow (pt_vec p) (pt_outvec p) [v1 ++ v2 ++ v3 ++ v4] = Some (Ok [a; b]) /\
    downcast_in fs narrow (pt_vec q) (pt_outvec q) [a; b] = Some (Ok [v1 ++ v3 ++ v2 ++ v4]) /\ v1 ++ v3 ++ v2 ++ v4 <> v1 ++ v2 ++ v3 ++ v4.
Proof. exact c85_roundtrip_256_refuted. Qed.
Print Assumptions C85_roundtrip_256_refuted.

Example C85_roundtrip_256_case : let v := [1;2;3;4;5;6;7;8; 11;12;13;14;15;16;17;18; 21;22;23;24;25;26;27;28; 31;32;33;34;35;36;37;38] in
  existsb (fun p => String.eqb (pt_vec p) "u8x32" && String.eqb (pt_outvec p) "u16x16") x86_upcast = true /\ existsb (fun p => String.eqb (pt_vec p) "u16x16" && negb (bytes (pt_ty p) =? 16)) x86_downcast = true /\
  upcast_in with_avx2 (fun x => x) "u8x32" "u16x16" [v] = Some (Ok [firstn 16 v; skipn 16 v]) /\
  downcast_in with_avx2 (fun x => x) "u16x16" "u8x32" [firstn 16 v; skipn 16 v] = Some (Ok [[1;2;3;4;5;6;7;8; 21;22;23;24;25;26;27;28; 11;12;13;14;15;16;17;18; 31;32;33;34;35;36;37;38]]).
Proof. repeat split; vm_compute; reflexivity. Qed.

(** C85, refuted for u32: in every build, a lane above 2^31 - 1 in the upper half of the
    vector comes back as 2^31 - 1. *)
Theorem C85_roundtrip_u32_refuted : forall (fs : features) (narrow : Z -> Z) (p q : port_impl) (v : list Z) (i x : Z), In p x86_upcast -> In q x86_downcast ->
  pt_outvec p = pt_vec q -> pt_vec p = pt_outvec q -> pt_el p = EInt u32 -> pt_out p = EInt u64 -> int_vector (WIDTH (pt_ty p)) u32 v ->
  WIDTH (pt_ty p) / 2 <= i -> znth v i = Some x -> 2147483647 < x ->
  exists a b r, upcast_in fs narrow (pt_vec p) (pt_outvec p) [v] = Some (Ok [a; b]) /\ downcast_in fs narrow (pt_vec q) (pt_outvec q) [a; b] = Some (Ok [r]) /\ znth r i = Some 2147483647 /\ r <> v.
Proof. exact c85_roundtrip_u32_refuted. Qed.
Print Assumptions C85_roundtrip_u32_refuted.

Example C85_roundtrip_u32_case : let v := [1;2;3000000000;4] in
  existsb (fun p => String.eqb (pt_vec p) "u32x4" && String.eqb (pt_outvec p) "u64x2") x86_upcast = true /\
  upcast_in sandy_bridge (fun x => x) "u32x4" "u64x2" [v] = Some (Ok [[1;2]; [3000000000;4]]) /\
  downcast_in sandy_bridge (fun x => x) "u64x2" "u32x4" [[1;2]; [3000000000;4]] = Some (Ok [[1;2;2147483647;4]]).
Proof. repeat split; vm_compute; reflexivity. Qed.

(** C84: adding the lanes of [a.hadd(b)] gives the sum of all lanes of [a] and [b], in every
    release build (in debug builds the additions may panic, C41 and C42). *)
Theorem C84_sum_hadd : forall (fs : features) (fadd fsub : elty -> Z -> Z -> Z) (c : config) (o : hop_impl) (s : fold_impl) (t : ity) (a b : list Z), In o x86_hadd -> In s x86_sum -> h_vec o = s_vec s -> h_el o = EInt t -> build c = Release ->
  (forall e u v, e = EF32 \/ e = EF64 -> in_ity (lane_ity e) u -> in_ity (lane_ity e) v -> in_ity (lane_ity e) (fadd e u v)) ->
  int_vector (WIDTH (h_ty o)) t a -> int_vector (WIDTH (h_ty o)) t b ->
  exists r x, hadd_in fs fadd fsub c (h_vec o) a b = Some (Ok r) /\ sum_in fs fadd c (s_vec s) r = Some (Ok x) /\ sum_mod t (a ++ b) x.
Proof. exact c84_sum_hadd. Qed.
Print Assumptions C84_sum_hadd.

Example C84_sum_hadd_case : existsb (fun o => String.eqb (h_vec o) "i16x8") x86_hadd = true /\ existsb (fun s => String.eqb (s_vec s) "i16x8") x86_sum = true /\
  let a := [1;2;3;4;5;6;7;32767] in let b := [10;20;30;40;50;60;70;80] in let c := mkConfig Release true in
  hadd_in sandy_bridge (fun _ u _ => u) (fun _ u _ => u) c "i16x8" a b = Some (Ok [3;30;7;70;11;110;-32762;150]) /\
  sum_in sandy_bridge (fun _ u _ => u) c "i16x8" [3;30;7;70;11;110;-32762;150] = Some (Ok (-32381)) /\ total (a ++ b) - 2 ^ 16 = -32381.
Proof. repeat split; vm_compute; reflexivity. Qed.
