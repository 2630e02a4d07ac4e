(** Properties: the exact result where an operation is not what it should be (C47, C48,
    C85). *)
From Coq Require Import String.
From Verif Require Import Base Spec GateTables GateSpec VecSpec Vecs Lanes Floats FloatSpec OpTables Ops OpSpec PortTables Ports PortSpec Builds.
Open Scope list_scope.
Open Scope Z_scope.
From Verif Require Import ExactProofs.

(** C47, what the portable u64 code returns for all vectors: lane [k] of [a ++ b] limited
    to 2^32 - 1 in the even lanes of [a], and to 2^31 - 1 in all other lanes. *)
Theorem C47_downcast_u64_lanes : forall (narrow : Z -> Z) (p : port_impl) (a b : list Z), In p (x86_downcast ++ unknown_downcast) -> is_u64 (pt_el p) = true ->
  int_vector (WIDTH (pt_ty p)) (lane_ity (pt_el p)) a -> int_vector (WIDTH (pt_ty p)) (lane_ity (pt_el p)) b ->
  exists r, port_portable narrow p [a; b] = Ok [r] /\ zlen r = 2 * WIDTH (pt_ty p) /\
    forall k x, znth (a ++ b) k = Some x -> znth r k = Some (Z.min x (if (k <? WIDTH (pt_ty p)) && Z.even k then 4294967295 else 2147483647)).
Proof. exact c47_downcast_u64_lanes. Qed.
Print Assumptions C47_downcast_u64_lanes.

Example C47_downcast_u64_lanes_case : exists p, In p unknown_downcast /\ is_u64 (pt_el p) = true /\
  port_portable (fun x => x) p [[3000000000;3000000000]; [3000000000;4]] = Ok [[3000000000;2147483647;2147483647;4]].
Proof. eexists. split; [apply (nth_error_In _ 2); reflexivity|]. split; vm_compute; reflexivity. Qed.

(** C47, what every optimised version returns for all vectors: it reads the lanes as
    signed numbers, clamps them to the narrower type, and puts the lanes of [a] before
    those of [b] within 128 bits: a 256-bit instruction treats the low halves of [a] and
    [b] and then the high ones. *)
Theorem C47_downcast_instruction : forall (x : xport) (a b : list Z), In x x86_downcast_optimized ->
  let t := lane_ity (xp_el x) in let h := Z.to_nat (WIDTH (xp_ty x) / 2) in
  let signed y := if y <? imod t / 2 then y else y - imod t in
  int_vector (WIDTH (xp_ty x)) t a -> int_vector (WIDTH (xp_ty x)) t b ->
  port_optimized x [a; b] = [map (fun y => clamp (lane_ity (xp_out x)) (signed y))
    (if String.eqb (xp_feat x) "avx2" then (firstn h a ++ firstn h b) ++ skipn h a ++ skipn h b else a ++ b)].
Proof. exact c47_downcast_instruction. Qed.
Print Assumptions C47_downcast_instruction.

Example C47_downcast_instruction_case : exists x, In x x86_downcast_optimized /\ xp_feat x = "avx2"%string /\ isigned (lane_ity (xp_el x)) = false /\
  port_optimized x [[1;2;3;4;5;6;7;70000]; [9;10;3000000000;12;13;14;15;16]] = [[1;2;3;4;9;10;0;12;5;6;7;65535;13;14;15;16]].
Proof. eexists. split; [apply (nth_error_In _ 6); reflexivity|]. repeat split; vm_compute; reflexivity. Qed.

(** C48, what the 256-bit [destride_two] returns for all vectors: the even elements, and
    the even elements of [b] followed by those of [a]. *)
Theorem C48_destride_two_256 : forall (c : config) (x : xdestride) (a b : list Z), In x x86_destride_256 -> int_vector (WIDTH (xd_ty x)) (xd_el x) a -> int_vector (WIDTH (xd_ty x)) (xd_el x) b ->
  exists r0 r1, destride_two_optimized c x a b = Ok [r0; r1] /\ every_nth 2 0 (a ++ b) r0 /\ every_nth 2 0 (b ++ a) r1.
Proof. exact c48_destride_two_256. Qed.
Print Assumptions C48_destride_two_256.

Example C48_destride_two_256_lanes_case : exists x, In x x86_destride_256 /\ xd_el x = i8 /\
  let a := map Z.of_nat (seq 0 32) in let b := map (fun i => Z.of_nat i - 100) (seq 0 32) in
  exists r0 r1, destride_two_optimized (mkConfig Debug true) x a b = Ok [r0; r1] /\ firstn 3 r0 = [0;2;4] /\ skipn 29 r0 = [-74;-72;-70] /\ firstn 3 r1 = [-100;-98;-96] /\ skipn 29 r1 = [26;28;30].
Proof. eexists. split; [apply (nth_error_In _ 1); reflexivity|]. split; [reflexivity|]. cbv zeta. do 2 eexists. split; [vm_compute; reflexivity|]. repeat split; vm_compute; reflexivity. Qed.

(** C85, what the round trip of a vector of u32 returns in every build: lane [k] limited
    to 2^31 - 1, except that the even lanes of the first half come back unchanged. *)
Theorem C85_roundtrip_u32 : forall (fs : features) (narrow : Z -> Z) (p q : port_impl) (v : list Z), In p x86_upcast -> In q x86_downcast ->
  pt_outvec p = pt_vec q -> pt_vec p = pt_outvec q -> pt_el p = EInt u32 -> pt_out p = EInt u64 -> int_vector (WIDTH (pt_ty p)) u32 v ->
  exists a b r, upcast_in fs narrow (pt_vec p) (pt_outvec p) [v] = Some (Ok [a; b]) /\ downcast_in fs narrow (pt_vec q) (pt_outvec q) [a; b] = Some (Ok [r]) /\ zlen r = zlen v /\
    forall k x, znth v k = Some x -> znth r k = Some (if (k <? WIDTH (pt_ty p) / 2) && Z.even k then x else Z.min x 2147483647).
Proof. exact c85_roundtrip_u32. Qed.
Print Assumptions C85_roundtrip_u32.

Example C85_roundtrip_u32_lanes_case : let v := [4294967295;4294967295;4294967295;4] in
  upcast_in sandy_bridge (fun x => x) "u32x4" "u64x2" [v] = Some (Ok [[4294967295;4294967295]; [4294967295;4]]) /\
  downcast_in sandy_bridge (fun x => x) "u64x2" "u32x4" [[4294967295;4294967295]; [4294967295;4]] = Some (Ok [[4294967295;2147483647;2147483647;4]]).
Proof. repeat split; vm_compute; reflexivity. Qed.
