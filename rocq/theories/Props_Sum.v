(** Properties: sums and bit counts (C42, C43). *)
From Coq Require Import String.
From Verif Require Import Base Spec VecSpec Vecs Lanes Floats FloatSpec X86 X86Reg OpTables OpSpec Ops Ports SumTables Sums SumSpec.
Open Scope list_scope.
Open Scope Z_scope.
From Verif Require Import SumProofs.

(** C42: the portable [sum] of integer lanes: in a release build the exact sum reduced
    to the lane type; the same in a debug build as long as no partial sum overflows. *)
Theorem C42_sum_portable : forall (fadd : elty -> Z -> Z -> Z) (c : config) (s : fold_impl) (t : ity) (v : list Z), In s (x86_sum ++ unknown_sum) -> s_el s = EInt t ->
  int_vector (WIDTH (s_ty s)) t v -> build c = Release \/ no_overflow t v ->
  exists r, sum_portable fadd c s v = Ok r /\ sum_mod t v r.
Proof. exact c42_sum_portable. Qed.
Print Assumptions C42_sum_portable.

Example C42_sum_portable_case : exists s, In s x86_sum /\ s_el s = EInt u16 /\
  sum_portable (fun _ a b => a + b) (mkConfig Release true) s [65535;2;3;4;5;6;7;8] = Ok 34 /\
  sum_portable (fun _ a b => a + b) (mkConfig Debug true) s [6553;2;3;4;5;6;7;8] = Ok 6588.
Proof. eexists. split; [apply (nth_error_In _ 3); reflexivity|]. repeat split; vm_compute; reflexivity. Qed.

(** C42: in a debug build the portable [sum] panics exactly when a partial sum leaves
    the lane type. *)
Theorem C42_sum_overflow_panics : forall (fadd : elty -> Z -> Z -> Z) (c : config) (s : fold_impl) (t : ity) (v : list Z), In s (x86_sum ++ unknown_sum) -> s_el s = EInt t ->
  int_vector (WIDTH (s_ty s)) t v -> build c = Debug ->
  (sum_portable fadd c s v = Panic <-> exists n : nat, ~ in_ity t (total (firstn n v))).
Proof. exact c42_sum_overflow_panics. Qed.
Print Assumptions C42_sum_overflow_panics.

Example C42_sum_overflow_case : exists s, In s x86_sum /\ s_el s = EInt i32 /\
  sum_portable (fun _ a b => a + b) (mkConfig Debug true) s [2147483647;1;-5;0] = Panic /\
  sum_portable (fun _ a b => a + b) (mkConfig Debug true) s [2147483647;-5;1;0] = Ok 2147483643.
Proof. eexists. split; [apply (nth_error_In _ 9); reflexivity|]. repeat split; vm_compute; reflexivity. Qed.

(** C42: the portable [sum_upcast] of integer lanes: in a release build the exact sum
    reduced to i64; in a debug build the same as long as no partial sum leaves i64. *)
Theorem C42_sum_upcast_portable : forall (c : config) (s : fold_impl) (t : ity) (v : list Z), In s (x86_upcast_sum ++ unknown_upcast_sum) -> s_el s = EInt t ->
  int_vector (WIDTH (s_ty s)) t v -> build c = Release \/ no_overflow i64 v ->
  exists r, sum_upcast_portable c s v = Ok r /\ sum_mod i64 v r.
Proof. exact c42_sum_upcast_portable. Qed.
Print Assumptions C42_sum_upcast_portable.

Example C42_sum_upcast_portable_case : exists s, In s x86_upcast_sum /\ s_el s = EInt i64 /\
  sum_upcast_portable (mkConfig Release true) s [9223372036854775807; 2] = Ok (-9223372036854775807) /\
  sum_upcast_portable (mkConfig Debug true) s [9223372036854775807; -2] = Ok 9223372036854775805.
Proof. eexists. split; [apply (nth_error_In _ 20); reflexivity|]. repeat split; vm_compute; reflexivity. Qed.

(** C42: lanes of up to 32 bits: [sum_upcast] is the exact sum in both build modes. *)
Theorem C42_sum_upcast_exact : forall (c : config) (s : fold_impl) (t : ity) (v : list Z), In s (x86_upcast_sum ++ unknown_upcast_sum) -> s_el s = EInt t -> (ibytes t <= 4)%nat ->
  int_vector (WIDTH (s_ty s)) t v -> sum_upcast_portable c s v = Ok (total v).
Proof. exact c42_sum_upcast_exact. Qed.
Print Assumptions C42_sum_upcast_exact.

Example C42_sum_upcast_exact_case : exists s, In s unknown_upcast_sum /\ s_el s = EInt u32 /\
  sum_upcast_portable (mkConfig Debug true) s [4294967295;4294967295;1;2] = Ok 8589934593.
Proof. eexists. split; [apply (nth_error_In _ 4); reflexivity|]. repeat split; vm_compute; reflexivity. Qed.

(** C42: in a debug build the portable [sum_upcast] panics exactly when a partial sum
    of the lanes, each converted to i64, leaves i64. *)
Theorem C42_sum_upcast_panics : forall (c : config) (s : fold_impl) (t : ity) (v : list Z), In s (x86_upcast_sum ++ unknown_upcast_sum) -> s_el s = EInt t ->
  int_vector (WIDTH (s_ty s)) t v -> build c = Debug ->
  (sum_upcast_portable c s v = Panic <-> exists n : nat, ~ in_ity i64 (total (firstn n (map (wrap i64) v)))).
Proof. exact c42_sum_upcast_panics. Qed.
Print Assumptions C42_sum_upcast_panics.

Example C42_sum_upcast_panics_case : exists s, In s x86_upcast_sum /\ s_el s = EInt i64 /\
  sum_upcast_portable (mkConfig Debug true) s [9223372036854775807; 2] = Panic.
Proof. eexists. split; [apply (nth_error_In _ 20); reflexivity|]. repeat split; vm_compute; reflexivity. Qed.

(** C42: every optimised [sum] of integer lanes is the exact sum reduced to the lane
    type.  The i16x16 and i32x8 versions end with a scalar addition of two half sums; in a
    debug build this is shown here if the sum and both half sums are representable. *)
Theorem C42_sum_optimized_partial : forall (c : config) (x : xsum) (t : ity) (v : list Z), In x x86_sum_optimized -> xs_el x = EInt t -> int_vector (WIDTH (xs_ty x)) t v ->
  (two_scalar_adds (xs_vec x) = false \/ build c = Release \/ in_ity t (total v) /\ in_ity t (total (firstn (length v / 2) v)) /\ in_ity t (total (skipn (length v / 2) v))) ->
  exists r, sum_optimized c x v = Ok r /\ sum_mod t v r.
Proof. exact c42_sum_optimized_partial. Qed.
Print Assumptions C42_sum_optimized_partial.

Example C42_sum_optimized_case : exists x, In x x86_sum_optimized /\ xs_el x = EInt i16 /\ two_scalar_adds (xs_vec x) = false /\
  sum_optimized (mkConfig Debug true) x [32767;1;-5;7;8;9;10;11] = Ok (-32728) /\ total [32767;1;-5;7;8;9;10;11] = 65536 - 32728.
Proof. eexists. split; [apply (nth_error_In _ 4); reflexivity|]. repeat split; vm_compute; reflexivity. Qed.

(** C42: exactly when those two versions panic.  Each half is summed in the lane type
    (the half sums wrap); a debug build then returns their sum if it is representable and
    panics if it is not. *)
Theorem C42_sum_optimized_debug : forall (c : config) (x : xsum) (t : ity) (v : list Z), In x x86_sum_optimized -> two_scalar_adds (xs_vec x) = true -> xs_el x = EInt t -> int_vector (WIDTH (xs_ty x)) t v ->
  exists y z, sum_mod t (firstn (length v / 2) v) y /\ sum_mod t (skipn (length v / 2) v) z /\
    (in_ity t (y + z) -> sum_optimized c x v = Ok (y + z)) /\ (~ in_ity t (y + z) -> build c = Debug -> sum_optimized c x v = Panic).
Proof. exact c42_sum_optimized_debug. Qed.
Print Assumptions C42_sum_optimized_debug.

Example C42_sum_optimized_debug_case : exists x, In x x86_sum_optimized /\ two_scalar_adds (xs_vec x) = true /\ xs_el x = EInt i32 /\
  sum_optimized (mkConfig Debug true) x [2147483647;1;0;0;5;6;7;8] = Ok (-2147483622) /\ sum_optimized (mkConfig Debug true) x [2147483647;0;0;0;5;6;7;8] = Panic.
Proof. eexists. split; [apply (nth_error_In _ 7); reflexivity|]. repeat split; vm_compute; reflexivity. Qed.

(** C42, refuted for the optimised i16x16 and i32x8 sums in a debug build: although no
    partial sum overflows (so the portable version returns the sum), the half sums wrap
    and their scalar addition panics. *)
Theorem C42_sum_optimized_refuted : forall (c : config) (x : xsum) (t : ity), build c = Debug -> In x x86_sum_optimized -> two_scalar_adds (xs_vec x) = true -> xs_el x = EInt t ->
  exists v, int_vector (WIDTH (xs_ty x)) t v /\ no_overflow t v /\ sum_optimized c x v = Panic.
Proof. exact c42_sum_optimized_refuted. Qed.
Print Assumptions C42_sum_optimized_refuted.

Example C42_sum_optimized_refuted_case : exists x s, In x x86_sum_optimized /\ two_scalar_adds (xs_vec x) = true /\ In s x86_sum /\ s_vec s = xs_vec x /\
  let v := [2147483647;0;0;0;-2000000000;-1000000000;0;0] in
  sum_optimized (mkConfig Debug true) x v = Panic /\ sum_portable (fun _ a b => a + b) (mkConfig Debug true) s v = Ok (-852516353).
Proof. do 2 eexists. split; [apply (nth_error_In _ 7); reflexivity|]. split; [reflexivity|]. split; [apply (nth_error_In _ 22); reflexivity|]. repeat split; vm_compute; reflexivity. Qed.

(** C42: the optimised [sum_upcast]s except the i8 ones return the exact sum, in both
    build modes. *)
Theorem C42_sum_upcast_optimized : forall (c : config) (x : xsum) (t : ity) (v : list Z), In x x86_sum_upcast_optimized -> xs_el x = EInt t -> t <> i8 -> int_vector (WIDTH (xs_ty x)) t v ->
  sum_optimized c x v = Ok (total v).
Proof. exact c42_sum_upcast_optimized. Qed.
Print Assumptions C42_sum_upcast_optimized.

Example C42_sum_upcast_optimized_case : exists x, In x x86_sum_upcast_optimized /\ xs_el x = EInt u8 /\
  sum_optimized (mkConfig Debug true) x (repeat 255 16) = Ok 4080.
Proof. eexists. split; [apply (nth_error_In _ 2); reflexivity|]. repeat split; vm_compute; reflexivity. Qed.

(** C42: the optimised i8 [sum_upcast]s are right when the sum fits in an i8. *)
Theorem C42_sum_upcast_i8_partial : forall (c : config) (x : xsum) (v : list Z), In x x86_sum_upcast_optimized -> xs_el x = EInt i8 -> int_vector (WIDTH (xs_ty x)) i8 v ->
  in_ity i8 (total v) -> sum_optimized c x v = Ok (total v).
Proof. exact c42_sum_upcast_i8_partial. Qed.
Print Assumptions C42_sum_upcast_i8_partial.

Example C42_sum_upcast_i8_case : exists x, In x x86_sum_upcast_optimized /\ xs_el x = EInt i8 /\
  sum_optimized (mkConfig Debug true) x [100;-128;-100;50;1;2;3;4;5;6;7;8;9;10;11;12] = Ok 0 /\ total [100;-128;-100;50;1;2;3;4;5;6;7;8;9;10;11;12] = 0.
Proof. eexists. split; [apply (nth_error_In _ 0); reflexivity|]. repeat split; vm_compute; reflexivity. Qed.

(** C42, refuted for the optimised i8 [sum_upcast]s whenever the sum does not fit in an
    i8: the result is truncated to 8 bits before it is widened. *)
Theorem C42_sum_upcast_i8_refuted : forall (c : config) (x : xsum) (v : list Z), In x x86_sum_upcast_optimized -> xs_el x = EInt i8 -> int_vector (WIDTH (xs_ty x)) i8 v ->
  ~ in_ity i8 (total v) -> exists r, sum_optimized c x v = Ok r /\ r <> total v /\ in_ity i8 r.
Proof. exact c42_sum_upcast_i8_refuted. Qed.
Print Assumptions C42_sum_upcast_i8_refuted.

(** C42: the portable [sum_upcast] of float lanes adds the lanes rounded towards zero,
    provided they are finite and no lane and no partial sum leaves i64. *)
Theorem C42_sum_upcast_float : forall (c : config) (s : fold_impl) (v : list Z), In s (x86_upcast_sum ++ unknown_upcast_sum) -> s_el s = EF32 \/ s_el s = EF64 ->
  zlen v = WIDTH (s_ty s) -> Forall (finite_lane (s_el s)) v -> Forall (in_ity i64) (map (integer_part (s_el s)) v) -> no_overflow i64 (map (integer_part (s_el s)) v) ->
  sum_upcast_portable c s v = Ok (total (map (integer_part (s_el s)) v)).
Proof. exact c42_sum_upcast_float. Qed.
Print Assumptions C42_sum_upcast_float.

(** C69: the order of float additions.  The portable sum adds the lanes from left to
    right, starting with 0.0; the optimised ones add the sum of the right half to
    the sum of the left half, recursively. *)
Theorem C69_sum_float_order : forall (fadd : elty -> Z -> Z -> Z) (c : config) (x : xsum) (s : fold_impl) (v : list Z),
  In x (x86_sum_float fadd) -> In s (x86_sum ++ unknown_sum) -> s_vec s = xs_vec x -> int_vector (WIDTH (xs_ty x)) (lane_ity (xs_el x)) v ->
  (forall e a b, e = EF32 \/ e = EF64 -> in_ity (lane_ity e) a -> in_ity (lane_ity e) b -> in_ity (lane_ity e) (fadd e a b)) ->
  sum_portable fadd c s v = Ok (fold_left (fadd (xs_el x)) v 0) /\ sum_optimized c x v = Ok (sum_of_halves (fadd (xs_el x)) (Z.to_nat (Z.log2 (WIDTH (xs_ty x)))) v) /\
  s_el s = xs_el x /\ (xs_el x = EF32 \/ xs_el x = EF64) /\ In (WIDTH (xs_ty x)) [2; 4; 8].
Proof. exact c69_sum_float_order. Qed.
Print Assumptions C69_sum_float_order.

(** With an "addition" that records the order: (1 . 2) . (3 . 4) is 112134 if [a . b] is
    [10 a + b + 100], and the portable version computes (((0 . 1) . 2) . 3) . 4. *)
Example C69_sum_float_order_case : forall c, exists x s, In x (x86_sum_float (fun _ a b => 10 * a + b + 100)) /\ In s (x86_sum ++ unknown_sum) /\ s_vec s = xs_vec x /\ xs_vec x = "f32x4"%string /\
  sum_optimized c x [1; 2; 3; 4] = Ok (10 * (10 * 1 + 2 + 100) + (10 * 3 + 4 + 100) + 100) /\
  sum_portable (fun _ a b => 10 * a + b + 100) c s [1; 2; 3; 4] = Ok (10 * (10 * (10 * (10 * 0 + 1 + 100) + 2 + 100) + 3 + 100) + 4 + 100).
Proof.
  intros c. exists (nth 0 (x86_sum_float (fun _ a b => 10 * a + b + 100)) (mkXSum "" (mkVty 0 0) EF32 "" (fun _ _ => UB))). eexists. split; [cbn; tauto|]. split; [apply (nth_error_In _ 25); vm_compute; reflexivity|]. split; [vm_compute; reflexivity|]. split; [reflexivity|]. split; vm_compute; reflexivity.
Qed.

(** C43: [count_ones] is the number of set bits, for every integer vector type, with
    the nibble table and with the portable code, in both build modes. *)
Theorem C43_count_ones : forall (c : config) (optimized : bool) (p : popcnt_impl) (v : list Z), In p x86_popcnt -> int_vector (WIDTH (c_ty p)) (c_el p) v ->
  count_ones c optimized p v = Ok (set_bits (c_el p) v).
Proof. exact c43_count_ones. Qed.
Print Assumptions C43_count_ones.

Example C43_count_ones_case : exists p, In p x86_popcnt /\ c_vec p = "u64x2"%string /\
  count_ones (mkConfig Release true) true p [18446744073709551615; 5] = Ok 66 /\ count_ones (mkConfig Release true) false p [18446744073709551615; 5] = Ok 66.
Proof. eexists. split; [apply (nth_error_In _ 20); reflexivity|]. repeat split; vm_compute; reflexivity. Qed.

(** C43: [count_zeroes] is the number of clear bits, and the two add up to the size of
    the vector in bits. *)
Theorem C43_count_zeroes : forall (c : config) (optimized : bool) (p : popcnt_impl) (v : list Z), In p x86_popcnt -> int_vector (WIDTH (c_ty p)) (c_el p) v ->
  count_zeroes c optimized p v = Ok (clear_bits (c_el p) v) /\ set_bits (c_el p) v + clear_bits (c_el p) v = WIDTH (c_ty p) * SIZE (c_ty p) * 8.
Proof. exact c43_count_zeroes. Qed.
Print Assumptions C43_count_zeroes.

(** Concrete cases. *)
Example sum_nontrivial :
  exists x s, nth_error x86_sum_optimized 0 = Some x /\ nth_error unknown_sum 1 = Some s /\
    let v := [100; 100; -128; -128; -128; 7; 1; 2; 3; 4; 5; 6; 7; 8; 9; 10] in
    sum_optimized (mkConfig Debug true) x v = Ok (-122) /\ total v = -122 /\ sum_portable (fun _ a b => a + b) (mkConfig Debug true) s v = Panic /\ sum_portable (fun _ a b => a + b) (mkConfig Release true) s v = Ok (-122).
Proof. do 2 eexists. split; [reflexivity|split; [reflexivity|split; [vm_compute; reflexivity|split; [reflexivity|split; vm_compute; reflexivity]]]]. Qed.

Example sum_upcast_i8_nontrivial :
  exists x, nth_error x86_sum_upcast_optimized 0 = Some x /\ xs_el x = EInt i8 /\ sum_optimized (mkConfig Debug true) x (repeat 100 16) = Ok 64 /\ total (repeat 100 16) = 1600.
Proof. eexists. split; [reflexivity|split; [reflexivity|split; vm_compute; reflexivity]]. Qed.

Example sum_i16x16_nontrivial :
  exists x, nth_error x86_sum_optimized 5 = Some x /\ two_scalar_adds (xs_vec x) = true /\ sum_optimized (mkConfig Debug true) x [1; 2; 3; 4; 5; 6; 7; 8; 9; 10; 11; 12; 13; 14; 15; -30000] = Ok (-29880).
Proof. eexists. split; [reflexivity|split; [reflexivity|vm_compute; reflexivity]]. Qed.

Example sum_upcast_float_nontrivial :
  exists s, nth_error unknown_upcast_sum 8 = Some s /\ s_el s = EF32 /\
    (* 1.5, -2.75, 1000.0, 0.5 *)
    sum_upcast_portable (mkConfig Debug true) s [1069547520; 3224371200; 1148846080; 1056964608] = Ok (1 - 2 + 1000 + 0).
Proof. eexists. split; [reflexivity|split; [reflexivity|vm_compute; reflexivity]]. Qed.

Example sum_float_nontrivial :
  exists x s, nth_error (x86_sum_float (fun _ a b => (a + b) mod 2 ^ 32)) 0 = Some x /\ nth_error unknown_sum 8 = Some s /\ s_vec s = xs_vec x /\
    (forall a b d, in_ity u32 a -> in_ity u32 b -> in_ity u32 d -> ((a + b) mod 2 ^ 32 + d) mod 2 ^ 32 = (a + (b + d) mod 2 ^ 32) mod 2 ^ 32).
Proof. do 2 eexists. split; [reflexivity|split; [reflexivity|split; [reflexivity|]]]. intros a b d _ _ _. rewrite Zplus_mod_idemp_l, Zplus_mod_idemp_r, Zplus_assoc. reflexivity. Qed.

Example count_ones_nontrivial :
  exists p, nth_error x86_popcnt 5 = Some p /\ c_vec p = "i8x16"%string /\
    let v := [-1; 1; 2; 3; 127; -128; 0; 0; 85; -86; 15; -16; 0; 0; 0; 0] in
    count_ones (mkConfig Debug true) true p v = Ok 36 /\ count_ones (mkConfig Debug true) false p v = Ok 36 /\ count_zeroes (mkConfig Debug true) true p v = Ok 92.
Proof. eexists. split; [reflexivity|split; [reflexivity|split; [vm_compute; reflexivity|split; vm_compute; reflexivity]]]. Qed.

Example C43_count_zeroes_case : exists p, In p x86_popcnt /\ c_vec p = "u64x2"%string /\
  count_zeroes (mkConfig Debug true) true p [18446744073709551615; 5] = Ok 62 /\ count_zeroes (mkConfig Release true) false p [18446744073709551615; 5] = Ok 62.
Proof. eexists. split; [apply (nth_error_In _ 20); reflexivity|]. repeat split; vm_compute; reflexivity. Qed.
