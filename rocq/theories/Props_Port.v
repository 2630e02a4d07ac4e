(** Properties: conversions, absolute value and de-interleaving (C46, C47, C48, C49). *)
From Coq Require Import String.
From Verif Require Import Base Spec VecSpec Vecs Lanes Floats FloatSpec X86 X86Reg OpTables OpSpec Ops Tables PortTables Ports PortSpec.
Open Scope list_scope.
Open Scope Z_scope.
From Verif Require Import PortProofs.

(** C46: [upcast], portable version, every type of both back-ends: two vectors which
    one after the other are the lanes of [v] in order with the same numeric value
    (for floats also: infinities and NaNs stay what they are, and the sign is kept). *)
Theorem C46_upcast_portable : forall (narrow : Z -> Z) (p : port_impl) (v : list Z), In p (x86_upcast ++ unknown_upcast) ->
  int_vector (WIDTH (pt_ty p)) (lane_ity (pt_el p)) v ->
  exists r, port_portable narrow p [v] = Ok r /\ upcasts (pt_el p) (pt_out p) (WIDTH (pt_outty p)) v r.
Proof. exact c46_upcast_portable. Qed.
Print Assumptions C46_upcast_portable.

Example C46_upcast_portable_case : exists p, In p unknown_upcast /\ pt_vec p = "u8x16"%string /\
  port_portable (fun x => x) p [[0;1;2;3;4;5;6;255;128;9;10;11;12;13;14;15]] = Ok [[0;1;2;3;4;5;6;255]; [128;9;10;11;12;13;14;15]].
Proof. eexists. split; [apply (nth_error_In _ 0); reflexivity|]. split; vm_compute; reflexivity. Qed.

(** C46: the optimised versions (zero/sign extension after a shuffle) give the same
    result, including the 256-bit ones, whose second half crosses 128-bit lanes. *)
Theorem C46_upcast_optimized : forall (x : xport) (v : list Z), In x x86_upcast_optimized ->
  int_vector (WIDTH (xp_ty x)) (lane_ity (xp_el x)) v ->
  upcasts (xp_el x) (xp_out x) (WIDTH (xp_outty x)) v (port_optimized x [v]).
Proof. exact c46_upcast_optimized. Qed.
Print Assumptions C46_upcast_optimized.

Example C46_upcast_optimized_case : exists x, In x x86_upcast_optimized /\ xp_vec x = "i32x8"%string /\
  port_optimized x [[-1;2;-3;4;5;-2147483648;7;2147483647]] = [[-1;2;-3;4]; [5;-2147483648;7;2147483647]].
Proof. eexists. split; [apply (nth_error_In _ 14); reflexivity|]. split; vm_compute; reflexivity. Qed.

(** C49: [abs], portable version, every type of both back-ends: each lane becomes its
    absolute value, an exact one for integers (the minimum included, since the result
    type is unsigned); a float loses its sign bit and nothing else. *)
Theorem C49_abs_portable : forall (narrow : Z -> Z) (p : port_impl) (v : list Z), In p (x86_abs ++ unknown_abs) ->
  int_vector (WIDTH (pt_ty p)) (lane_ity (pt_el p)) v ->
  exists r, port_portable narrow p [v] = Ok [r] /\ Forall2 (absolute (pt_el p)) v r /\ Forall (in_ity (lane_ity (pt_out p))) r.
Proof. exact c49_abs_portable. Qed.
Print Assumptions C49_abs_portable.

Example C49_abs_portable_case : exists p, In p x86_abs /\ pt_vec p = "i64x2"%string /\
  port_portable (fun z => z) p [[-9223372036854775808; -5]] = Ok [[9223372036854775808; 5]].
Proof. eexists. split; [apply (nth_error_In _ 10); reflexivity|]. split; vm_compute; reflexivity. Qed.

(** C49: the same for the optimised versions. *)
Theorem C49_abs_optimized : forall (x : xport) (v : list Z), In x x86_abs_optimized ->
  int_vector (WIDTH (xp_ty x)) (lane_ity (xp_el x)) v ->
  exists r, port_optimized x [v] = [r] /\ Forall2 (absolute (xp_el x)) v r /\ Forall (in_ity (lane_ity (xp_out x))) r.
Proof. exact c49_abs_optimized. Qed.
Print Assumptions C49_abs_optimized.

Example C49_abs_optimized_case : exists x, In x x86_abs_optimized /\ xp_vec x = "i16x8"%string /\
  port_optimized x [[-32768;32767;-1;0;5;-5;6;-6]] = [[32768;32767;1;0;5;5;6;6]].
Proof. eexists. split; [apply (nth_error_In _ 5); reflexivity|]. split; vm_compute; reflexivity. Qed.

(** C47: portable [saturating_downcast], every type of both back-ends except u64: the
    lanes of [a] followed by those of [b], each clamped to the narrower type (f64 lanes
    are converted with [as f32]).  The u64 types are treated below. *)
Theorem C47_downcast_portable_partial : forall (narrow : Z -> Z) (p : port_impl) (a b : list Z), In p (x86_downcast ++ unknown_downcast) -> is_u64 (pt_el p) = false ->
  int_vector (WIDTH (pt_ty p)) (lane_ity (pt_el p)) a -> int_vector (WIDTH (pt_ty p)) (lane_ity (pt_el p)) b ->
  port_portable narrow p [a; b] = Ok [map (match pt_out p with EInt t => clamp t | _ => narrow end) (a ++ b)].
Proof. exact c47_downcast_portable_partial. Qed.
Print Assumptions C47_downcast_portable_partial.

Example C47_downcast_portable_case : exists p, In p unknown_downcast /\ pt_vec p = "u32x4"%string /\ is_u64 (pt_el p) = false /\
  port_portable (fun x => x) p [[1;70000;65535;65536]; [4294967295;0;5;6]] = Ok [[1;65535;65535;65535;65535;0;5;6]].
Proof. eexists. split; [apply (nth_error_In _ 5); reflexivity|]. repeat split; vm_compute; reflexivity. Qed.

(** C47: the u64 versions of the portable code are right as long as no lane exceeds
    2^31 - 1. *)
Theorem C47_downcast_u64_partial : forall (narrow : Z -> Z) (p : port_impl) (a b : list Z), In p (x86_downcast ++ unknown_downcast) -> is_u64 (pt_el p) = true ->
  int_vector (WIDTH (pt_ty p)) (lane_ity (pt_el p)) a -> int_vector (WIDTH (pt_ty p)) (lane_ity (pt_el p)) b ->
  Forall (fun x => x <= 2147483647) (a ++ b) -> port_portable narrow p [a; b] = Ok [map (clamp u32) (a ++ b)].
Proof. exact c47_downcast_u64_partial. Qed.
Print Assumptions C47_downcast_u64_partial.

Example C47_downcast_u64_case : exists p, In p x86_downcast /\ pt_vec p = "u64x2"%string /\ is_u64 (pt_el p) = true /\
  port_portable (fun x => x) p [[1;2147483647]; [7;2147483646]] = Ok [[1;2147483647;7;2147483646]].
Proof. eexists. split; [apply (nth_error_In _ 2); reflexivity|]. repeat split; vm_compute; reflexivity. Qed.

(** C47, refuted for u64: every lane of the second operand above 2^31 - 1 comes out as
    2^31 - 1, on both back-ends, although the clamped value is larger. *)
Theorem C47_downcast_u64_refuted : forall (narrow : Z -> Z) (p : port_impl) (a b : list Z) (i x : Z), In p (x86_downcast ++ unknown_downcast) -> is_u64 (pt_el p) = true ->
  int_vector (WIDTH (pt_ty p)) (lane_ity (pt_el p)) a -> int_vector (WIDTH (pt_ty p)) (lane_ity (pt_el p)) b ->
  znth b i = Some x -> 2147483647 < x ->
  exists r, port_portable narrow p [a; b] = Ok [r] /\ znth r (zlen a + i) = Some 2147483647 /\ 2147483647 < clamp u32 x.
Proof. exact c47_downcast_u64_refuted. Qed.
Print Assumptions C47_downcast_u64_refuted.

Example C47_downcast_u64_refuted_case : exists p, In p x86_downcast /\ is_u64 (pt_el p) = true /\
  port_portable (fun x => x) p [[1;2]; [3000000000;4]] = Ok [[1;2;2147483647;4]] /\ clamp u32 3000000000 = 3000000000.
Proof. eexists. split; [apply (nth_error_In _ 2); reflexivity|]. repeat split; vm_compute; reflexivity. Qed.

(** C47: the 128-bit instructions on lanes whose top bit the type does not use as an
    unsigned digit: all signed lanes, and unsigned ones below half their range. *)
Theorem C47_downcast_optimized_partial : forall (x : xport) (a b : list Z), In x x86_downcast_optimized -> xp_feat x <> "avx2"%string ->
  int_vector (WIDTH (xp_ty x)) (lane_ity (xp_el x)) a -> int_vector (WIDTH (xp_ty x)) (lane_ity (xp_el x)) b ->
  (isigned (lane_ity (xp_el x)) = false -> Forall (fun y => y < imod (lane_ity (xp_el x)) / 2) (a ++ b)) ->
  port_optimized x [a; b] = [map (clamp (lane_ity (xp_out x))) (a ++ b)].
Proof. exact c47_downcast_optimized_partial. Qed.
Print Assumptions C47_downcast_optimized_partial.

Example C47_downcast_optimized_case : exists x, In x x86_downcast_optimized /\ xp_feat x <> "avx2"%string /\ xp_vec x = "i16x8"%string /\
  port_optimized x [[1;-200;200;127;128;-128;-129;0]; [1;2;3;4;5;6;7;32767]] = [[1;-128;127;127;127;-128;-128;0;1;2;3;4;5;6;7;127]].
Proof. eexists. split; [apply (nth_error_In _ 1); reflexivity|]. split; [discriminate|]. split; vm_compute; reflexivity. Qed.

(** C47, refuted for the 128-bit unsigned instructions: a lane in the upper half of its
    range is taken for a negative number, so it comes out as 0 instead of the maximum. *)
Theorem C47_downcast_unsigned_refuted : forall (x : xport) (a b : list Z) (i y : Z), In x x86_downcast_optimized -> xp_feat x <> "avx2"%string ->
  isigned (lane_ity (xp_el x)) = false -> int_vector (WIDTH (xp_ty x)) (lane_ity (xp_el x)) a -> int_vector (WIDTH (xp_ty x)) (lane_ity (xp_el x)) b ->
  znth (a ++ b) i = Some y -> imod (lane_ity (xp_el x)) / 2 <= y ->
  exists r, port_optimized x [a; b] = [r] /\ znth r i = Some 0 /\ clamp (lane_ity (xp_out x)) y = imax (lane_ity (xp_out x)) /\ 0 < imax (lane_ity (xp_out x)).
Proof. exact c47_downcast_unsigned_refuted. Qed.
Print Assumptions C47_downcast_unsigned_refuted.

Example C47_downcast_unsigned_case : exists x, In x x86_downcast_optimized /\ xp_feat x <> "avx2"%string /\ isigned (lane_ity (xp_el x)) = false /\
  port_optimized x [[1;2147483648;3;4]; [5;6;7;4294967295]] = [[1;0;3;4;5;6;7;0]].
Proof. eexists. split; [apply (nth_error_In _ 2); reflexivity|]. split; [discriminate|]. split; vm_compute; reflexivity. Qed.

(** C47, refuted for every 256-bit instruction: it works on 128-bit halves, so the
    result is the low halves of [a] and [b] followed by their high halves.  Even when
    no lane needs saturating the order is wrong as soon as the high half of [a] differs
    from the low half of [b]. *)
Theorem C47_downcast_256_refuted : forall (x : xport) (a b : list Z), In x x86_downcast_optimized -> xp_feat x = "avx2"%string ->
  let h := Z.to_nat (WIDTH (xp_ty x) / 2) in
  int_vector (WIDTH (xp_ty x)) (lane_ity (xp_out x)) a -> int_vector (WIDTH (xp_ty x)) (lane_ity (xp_out x)) b -> skipn h a <> firstn h b ->
  port_optimized x [a; b] = [(firstn h a ++ firstn h b) ++ skipn h a ++ skipn h b] /\
  map (clamp (lane_ity (xp_out x))) (a ++ b) = a ++ b /\ port_optimized x [a; b] <> [a ++ b].
Proof. exact c47_downcast_256_refuted. Qed.
Print Assumptions C47_downcast_256_refuted.

Example C47_downcast_256_case : exists x, In x x86_downcast_optimized /\ xp_feat x = "avx2"%string /\
  port_optimized x [[1;2;3;4;5;6;7;8]; [9;10;11;12;13;14;15;16]] = [[1;2;3;4;9;10;11;12;5;6;7;8;13;14;15;16]].
Proof. eexists. split; [apply (nth_error_In _ 4); reflexivity|]. split; vm_compute; reflexivity. Qed.

(** C48: [destride_two], portable version, every type of both back-ends: the even and
    the odd elements of [a ++ b]. *)
Theorem C48_destride_two_portable : forall (d : destride_impl) (a b : list Z), In d (x86_destride ++ unknown_destride) -> zlen a = WIDTH (d_ty d) -> zlen b = WIDTH (d_ty d) ->
  exists r0 r1, destride_two_portable d a b = Ok [r0; r1] /\ every_nth 2 0 (a ++ b) r0 /\ every_nth 2 1 (a ++ b) r1.
Proof. exact c48_destride_two_portable. Qed.
Print Assumptions C48_destride_two_portable.

Example C48_destride_two_portable_case : exists d, In d unknown_destride /\ d_vec d = "i32x4"%string /\
  destride_two_portable d [1;2;3;4] [5;6;7;8] = Ok [[1;3;5;7]; [2;4;6;8]].
Proof. eexists. split; [apply (nth_error_In _ 11); reflexivity|]. split; vm_compute; reflexivity. Qed.

(** C48: [destride_four]: the elements of [a ++ b ++ e ++ f] at index 0, 1, 2, 3 modulo
    4.  There is no optimised version of it. *)
Theorem C48_destride_four : forall (d : destride_impl) (a b e f : list Z), In d (x86_destride ++ unknown_destride) ->
  zlen a = WIDTH (d_ty d) -> zlen b = WIDTH (d_ty d) -> zlen e = WIDTH (d_ty d) -> zlen f = WIDTH (d_ty d) ->
  exists r0 r1 r2 r3, destride_four_portable d a b e f = Ok [r0; r1; r2; r3] /\ every_nth 4 0 (a ++ b ++ e ++ f) r0 /\ every_nth 4 1 (a ++ b ++ e ++ f) r1 /\
    every_nth 4 2 (a ++ b ++ e ++ f) r2 /\ every_nth 4 3 (a ++ b ++ e ++ f) r3.
Proof. exact c48_destride_four. Qed.
Print Assumptions C48_destride_four.

Example C48_destride_four_case : exists d, In d x86_destride /\ d_vec d = "u32x4"%string /\
  destride_four_portable d [1;2;3;4] [5;6;7;8] [9;10;11;12] [13;14;15;16] = Ok [[1;5;9;13]; [2;6;10;14]; [3;7;11;15]; [4;8;12;16]].
Proof. eexists. split; [apply (nth_error_In _ 9); reflexivity|]. split; vm_compute; reflexivity. Qed.

(** C48: the 128-bit optimised [destride_two] (u8x16, i8x16), with either
    implementation of [merge_halves] and in both build modes. *)
Theorem C48_destride_two_128 : forall (c : config) (x : xdestride) (a b : list Z), In x x86_destride_128 -> int_vector (WIDTH (xd_ty x)) (xd_el x) a -> int_vector (WIDTH (xd_ty x)) (xd_el x) b ->
  exists r0 r1, destride_two_optimized c x a b = Ok [r0; r1] /\ every_nth 2 0 (a ++ b) r0 /\ every_nth 2 1 (a ++ b) r1.
Proof. exact c48_destride_two_128. Qed.
Print Assumptions C48_destride_two_128.

Example C48_destride_two_128_case : exists x, In x x86_destride_128 /\ xd_el x = i8 /\
  let a := map (fun i => Z.of_nat i - 16) (seq 0 16) in let b := map Z.of_nat (seq 0 16) in
  destride_two_optimized (mkConfig Debug false) x a b =
    Ok [map (fun i => 2 * Z.of_nat i - 16) (seq 0 16); map (fun i => 2 * Z.of_nat i - 15) (seq 0 16)].
Proof. eexists. split; [apply (nth_error_In _ 1); reflexivity|]. split; vm_compute; reflexivity. Qed.

(** C48, refuted for the 256-bit versions (u8x32, i8x32): the first output is right, but
    the second is the first with its halves exchanged instead of the odd elements, so
    it is wrong whenever the second element of [a] is not the first of [b]. *)
Theorem C48_destride_two_256_refuted : forall (c : config) (x : xdestride) (a b : list Z) (u v : Z), In x x86_destride_256 -> int_vector (WIDTH (xd_ty x)) (xd_el x) a -> int_vector (WIDTH (xd_ty x)) (xd_el x) b ->
  znth a 1 = Some u -> znth b 0 = Some v -> u <> v ->
  exists r0 r1, destride_two_optimized c x a b = Ok [r0; r1] /\ every_nth 2 0 (a ++ b) r0 /\ r1 = skipn 16 r0 ++ firstn 16 r0 /\ ~ every_nth 2 1 (a ++ b) r1.
Proof. exact c48_destride_two_256_refuted. Qed.
Print Assumptions C48_destride_two_256_refuted.

Example C48_destride_two_256_case : exists x, In x x86_destride_256 /\ xd_el x = u8 /\
  let a := map Z.of_nat (seq 0 32) in let b := map Z.of_nat (seq 32 32) in
  exists r0 r1, destride_two_optimized (mkConfig Release true) x a b = Ok [r0; r1] /\
    r0 = map (fun i => 2 * Z.of_nat i) (seq 0 32) /\ firstn 4 r1 = [32;34;36;38].
Proof. eexists. split; [apply (nth_error_In _ 0); reflexivity|]. split; [reflexivity|]. cbv zeta. do 2 eexists. split; [vm_compute; reflexivity|]. split; vm_compute; reflexivity. Qed.

(** Concrete cases. *)
Example upcast_nontrivial :
  exists x, nth_error x86_upcast_optimized 3 = Some x /\ port_optimized x [[-1; 2; -3; 4; 5; -32768; 7; 32767]] = [[-1; 2; -3; 4]; [5; -32768; 7; 32767]].
Proof. eexists. split; [reflexivity|vm_compute; reflexivity]. Qed.

Example upcast_f32_nontrivial :
  exists p, nth_error x86_upcast 8 = Some p /\ pt_el p = EF32 /\
    (* 1.0, -2.0, the smallest subnormal, infinity *)
    port_portable (fun x => x) p [[1065353216; 3221225472; 1; 2139095040]] = Ok [[4607182418800017408; 13835058055282163712]; [3936146074321813504; 9218868437227405312]].
Proof. eexists. split; [reflexivity|]. split; [reflexivity|vm_compute; reflexivity]. Qed.

Example downcast_nontrivial :
  exists p, nth_error x86_downcast 0 = Some p /\ is_u64 (pt_el p) = false /\ port_portable (fun x => x) p [[1; -70000; 70000; 32767]; [-32768; -32769; 5; 6]] = Ok [[1; -32768; 32767; 32767; -32768; -32768; 5; 6]].
Proof. eexists. split; [reflexivity|]. split; [reflexivity|vm_compute; reflexivity]. Qed.

Example downcast_wrong_nontrivial :
  exists x y, nth_error x86_downcast_optimized 3 = Some x /\ nth_error x86_downcast_optimized 4 = Some y /\
    port_optimized x [[1; 2; 3; 4; 5; 6; 7; 40000]; [9; 10; 11; 12; 13; 14; 15; 300]] = [[1; 2; 3; 4; 5; 6; 7; 0; 9; 10; 11; 12; 13; 14; 15; 255]] /\
    port_optimized y [[1; 2; 3; 4; 5; 6; 7; 8]; [9; 10; 11; 12; 13; 14; 15; 16]] = [[1; 2; 3; 4; 9; 10; 11; 12; 5; 6; 7; 8; 13; 14; 15; 16]].
Proof. do 2 eexists. split; [reflexivity|split; [reflexivity|split; vm_compute; reflexivity]]. Qed.

Example destride_nontrivial :
  exists d x, nth_error x86_destride 0 = Some d /\ nth_error x86_destride_128 0 = Some x /\
    let a := map Z.of_nat (seq 0 16) in let b := map Z.of_nat (seq 16 16) in
    let r := [map (fun i => 2 * Z.of_nat i) (seq 0 16); map (fun i => 2 * Z.of_nat i + 1) (seq 0 16)] in
    destride_two_portable d a b = Ok r /\ destride_two_optimized (mkConfig Release true) x a b = Ok r.
Proof. do 2 eexists. split; [reflexivity|split; [reflexivity|split; vm_compute; reflexivity]]. Qed.

Example abs_nontrivial :
  exists p x, nth_error x86_abs 4 = Some p /\ nth_error x86_abs_optimized 0 = Some x /\
    port_portable (fun z => z) p [[-128; 127; -1; 0; 5; -5; 6; -6; -128; 127; -1; 0; 5; -5; 6; -6]] = Ok [[128; 127; 1; 0; 5; 5; 6; 6; 128; 127; 1; 0; 5; 5; 6; 6]] /\
    (* -1.0, 1.0, a negative NaN with a payload, -0.0 *)
    port_optimized x [[3212836864; 1065353216; 4290772993; 2147483648]] = [[1065353216; 1065353216; 2143289345; 0]].
Proof. do 2 eexists. split; [reflexivity|split; [reflexivity|split; vm_compute; reflexivity]]. Qed.
