(** Properties: correctly rounded float arithmetic (C41, C47, C56, C60, C69) and the estimates [recip] and [rsqrt] (C67, C68). *)
From Coq Require Import String.
From Verif Require Import Base Spec VecSpec Vecs Lanes Floats FloatSpec X86 OpTables OpSpec Ops PortTables Hops Ports SumTables SumSpec Sums UnknownTables Unknown Arith ArithSpec Estimates.
Open Scope list_scope.
Open Scope Z_scope.
From Verif Require Import ArithProofs.

(** C41: lane [2i] of a float [hadd] is the correctly rounded sum of lanes [2i] and
    [2i + 1] of [a], the next one that of [b]; portable version, both build modes. *)
Theorem C41_hadd_float : forall (c : config) (o : hop_impl) (a b : list Z), In o (x86_hadd ++ unknown_hadd) -> h_el o = EF32 \/ h_el o = EF64 ->
  int_vector (WIDTH (h_ty o)) (lane_ity (h_el o)) a -> int_vector (WIDTH (h_ty o)) (lane_ity (h_el o)) b ->
  exists r, hop_portable ieee_add ieee_sub c o a b = Ok r /\ horizontal_result (sum_result (fmt_of (h_el o))) a b r.
Proof. exact c41_hadd_float. Qed.
Print Assumptions C41_hadd_float.

(** C41: [hsub]. *)
Theorem C41_hsub_float : forall (c : config) (o : hop_impl) (a b : list Z), In o (x86_hsub ++ unknown_hsub) -> h_el o = EF32 \/ h_el o = EF64 ->
  int_vector (WIDTH (h_ty o)) (lane_ity (h_el o)) a -> int_vector (WIDTH (h_ty o)) (lane_ity (h_el o)) b ->
  exists r, hop_portable ieee_add ieee_sub c o a b = Ok r /\ horizontal_result (difference_result (fmt_of (h_el o))) a b r.
Proof. exact c41_hsub_float. Qed.
Print Assumptions C41_hsub_float.

(** C41: the optimised [hadd] and [hsub] of floats. *)
Theorem C41_float_optimized : forall (x : xhop) (a b : list Z), xh_el x = EF32 \/ xh_el x = EF64 ->
  int_vector (WIDTH (xh_ty x)) (lane_ity (xh_el x)) a -> int_vector (WIDTH (xh_ty x)) (lane_ity (xh_el x)) b ->
  (In x (x86_hadd_optimized ieee_add) -> horizontal_result (sum_result (fmt_of (xh_el x))) a b (hop_optimized x a b)) /\
  (In x (x86_hsub_optimized ieee_sub) -> horizontal_result (difference_result (fmt_of (xh_el x))) a b (hop_optimized x a b)).
Proof. exact c41_float_optimized. Qed.
Print Assumptions C41_float_optimized.

(** 1.5 + 2.25 = 3.75 and 0.1 + 0.2, in f64: the portable [hadd] and [hsub] of f64x2 and
    the optimised ones. *)
Example C41_float_case : let a := [4609434218613702656; 4612248968380809216] in let b := [4591870180066957722; 4596373779694328218] in
  (exists o, In o (x86_hadd ++ unknown_hadd) /\ h_vec o = "f64x2"%string /\ h_el o = EF64 /\
    hop_portable ieee_add ieee_sub (mkConfig Debug false) o a b = Ok [4615626668101337088; 4599075939470750516]) /\
  (exists x, In x (x86_hadd_optimized ieee_add) /\ xh_vec x = "f64x2"%string /\ xh_el x = EF64 /\
    hop_optimized x a b = [4615626668101337088; 4599075939470750516]) /\
  (exists o, In o (x86_hsub ++ unknown_hsub) /\ h_vec o = "f64x2"%string /\ h_el o = EF64 /\
    hop_portable ieee_add ieee_sub (mkConfig Debug false) o a b = Ok [13828302655841107968; 13815242216921733530]).
Proof.
  split; [|split].
  - eexists. split; [apply (nth_error_In _ 24); vm_compute; reflexivity|]. repeat split; vm_compute; reflexivity.
  - eexists. split; [apply (nth_error_In _ 1); reflexivity|]. repeat split; vm_compute; reflexivity.
  - eexists. split; [apply (nth_error_In _ 24); vm_compute; reflexivity|]. repeat split; vm_compute; reflexivity.
Qed.

(** C56: every lane of [sqrt] is the correctly rounded root, with the instruction and in
    the portable code. *)
Theorem C56_sqrt_rounded : forall (o : op_impl) (a : list Z), In o (x86_sqrt ++ unknown_sqrt) -> int_vector (WIDTH (op_ty o)) (lane_ity (op_el o)) a ->
  exists r, portable1 ieee_sqrt o a = Some (Ok r) /\ Forall2 (root_result (fmt_of (op_el o))) a r /\
    (forall q, optimized1 ieee_sqrt o a = Some q -> q = r) /\ (In o x86_sqrt -> optimized1 ieee_sqrt o a = Some r).
Proof. exact c56_sqrt_rounded. Qed.
Print Assumptions C56_sqrt_rounded.

(** The roots of 2.0, 9.0, -0.0 and +inf, in f32. *)
Example C56_sqrt_rounded_case : exists o, In o x86_sqrt /\ op_vec o = "f32x4"%string /\
  optimized1 ieee_sqrt o [1073741824; 1091567616; 2147483648; 2139095040] = Some [1068827891; 1077936128; 2147483648; 2139095040].
Proof. eexists. split; [apply (nth_error_In _ 2); vm_compute; reflexivity|]. split; vm_compute; reflexivity. Qed.

(** C60: the operators of portable float vectors are IEEE addition, subtraction,
    multiplication and division, lane by lane, and never panic. *)
Theorem C60_float_operators : forall (c : config) (r : uop) (u : utype) (trait sym : string) (v w : list Z),
  In r unknown_ops -> utype_of (uo_vec r) = Some u -> In (trait, sym) (uo_ops r) -> ut_el u = EF32 \/ ut_el u = EF64 ->
  int_vector (ut_sz u) (lane_ity (ut_el u)) v -> int_vector (ut_sz u) (lane_ity (ut_el u)) w ->
  exists q, uv_op ieee_op c (uo_el r) (ut_sz u) sym v w = Ok q /\ each_lane (operator_result (fmt_of (ut_el u)) trait) v w q.
Proof. exact c60_float_operators. Qed.
Print Assumptions C60_float_operators.

(** 1.0 / 3.0 and 0.1 * 3.0, in f64. *)
Example C60_float_operators_case : exists r u, In r unknown_ops /\ utype_of (uo_vec r) = Some u /\ uo_vec r = "f64x2"%string /\ In ("Div"%string, "/"%string) (uo_ops r) /\
  uv_op ieee_op (mkConfig Debug false) (uo_el r) (ut_sz u) "/" [4607182418800017408; 4591870180066957722] [4613937818241073152; 4599676419421066581] = Ok [4599676419421066581; 4599075939470750516].
Proof. eexists. eexists. split; [apply (nth_error_In _ 9); vm_compute; reflexivity|]. split; [vm_compute; reflexivity|]. split; [vm_compute; reflexivity|]. split; [vm_compute; tauto|]. vm_compute; reflexivity. Qed.

(** C47: [saturating_downcast] of f64 vectors gives the nearest f32 of every lane. *)
Theorem C47_downcast_float : forall (p : port_impl) (a b : list Z), In p (x86_downcast ++ unknown_downcast) -> pt_el p = EF64 ->
  int_vector (WIDTH (pt_ty p)) (lane_ity (pt_el p)) a -> int_vector (WIDTH (pt_ty p)) (lane_ity (pt_el p)) b ->
  exists r, port_portable f_narrow p [a; b] = Ok [r] /\ Forall2 narrowing_result (a ++ b) r.
Proof. exact c47_downcast_float. Qed.
Print Assumptions C47_downcast_float.

(** 0.1, 1e300 (too large), -1e-300 (too small) and 1.5. *)
Example C47_downcast_float_case : exists p, In p (x86_downcast ++ unknown_downcast) /\ pt_vec p = "f64x2"%string /\ pt_el p = EF64 /\
  port_portable f_narrow p [[4591870180066957722; 9094988921128908188]; [9342386823867664730; 4609434218613702656]] = Ok [[1036831949; 2139095040; 2147483648; 1069547520]].
Proof. eexists. split; [apply (nth_error_In _ 3); vm_compute; reflexivity|]. repeat split; vm_compute; reflexivity. Qed.

(** C69: if the lanes are multiples of a power of two [2 ^ j] (in units of the smallest
    positive float) and their magnitudes add up to less than [2 ^ (f_m + 1)] times that
    (for instance integers whose magnitudes add up to less than 2^24 in f32, 2^53 in
    f64), then the portable and the optimised float sums are both exact, hence equal
    numbers. *)
Theorem C69_sum_float_exact_partial : forall (c : config) (x : xsum) (s : fold_impl) (v : list Z) (j : Z),
  In x (x86_sum_float ieee_add) -> In s (x86_sum ++ unknown_sum) -> s_vec s = xs_vec x -> zlen v = WIDTH (xs_ty x) -> Forall (finite_lane (xs_el x)) v ->
  let value := fvalue (fmt_of (xs_el x)) in
  0 <= j <= 2 ^ f_e (fmt_of (xs_el x)) - 3 -> Forall (fun y => Z.divide (2 ^ j) (value y)) v ->
  total (map (fun y => Z.abs (value y)) v) < 2 ^ (f_m (fmt_of (xs_el x)) + 1) * 2 ^ j ->
  exists p q, sum_portable ieee_add c s v = Ok p /\ sum_optimized c x v = Ok q /\ finite_lane (xs_el x) p /\ finite_lane (xs_el x) q /\ value p = total (map value v) /\ value q = total (map value v).
Proof. exact c69_sum_float_exact_partial. Qed.
Print Assumptions C69_sum_float_exact_partial.

(** 1.0 + 2.0 + 3.0 - 4.5 in f32; [2 ^ 148] units are 0.5. *)
Example C69_sum_float_exact_case : exists x s, let v := [1065353216; 1073741824; 1077936128; 3230662656] in
  In x (x86_sum_float ieee_add) /\ In s (x86_sum ++ unknown_sum) /\ s_vec s = xs_vec x /\ zlen v = WIDTH (xs_ty x) /\ Forall (finite_lane (xs_el x)) v /\
  0 <= 148 <= 2 ^ f_e (fmt_of (xs_el x)) - 3 /\ Forall (fun y => Z.divide (2 ^ 148) (fvalue (fmt_of (xs_el x)) y)) v /\
  total (map (fun y => Z.abs (fvalue (fmt_of (xs_el x)) y)) v) < 2 ^ (f_m (fmt_of (xs_el x)) + 1) * 2 ^ 148 /\
  sum_optimized (mkConfig Debug false) x v = Ok 1069547520 /\ sum_portable ieee_add (mkConfig Debug false) s v = Ok 1069547520.
Proof.
  exists (nth 0 (x86_sum_float ieee_add) (mkXSum "" (mkVty 0 0) EF32 "" (fun _ _ => UB))). eexists. cbv zeta. split; [cbn; tauto|]. split; [apply (nth_error_In _ 25); vm_compute; reflexivity|]. split; [vm_compute; reflexivity|]. split; [vm_compute; reflexivity|].
  split; [repeat constructor; vm_compute; congruence|]. split; [split; vm_compute; discriminate|].
  split; [apply Forall_cons; [exists 2; vm_compute; reflexivity|]; apply Forall_cons; [exists 4; vm_compute; reflexivity|]; apply Forall_cons; [exists 6; vm_compute; reflexivity|]; apply Forall_cons; [exists (-9); vm_compute; reflexivity|]; apply Forall_nil|]. repeat split; vm_compute; reflexivity.
Qed.

(** C69: float sums depend on the instructions available.  Of a vector of -0.0 the
    portable sum is +0.0 (it starts with +0.0), the optimised one -0.0. *)
Theorem C69_sum_negative_zero_refuted : forall (c : config) (x : xsum) (s : fold_impl), In x (x86_sum_float ieee_add) -> In s (x86_sum ++ unknown_sum) -> s_vec s = xs_vec x ->
  let f := fmt_of (xs_el x) in let v := splat (WIDTH (xs_ty x)) (2 ^ (f_e f + f_m f)) in
  Forall (fun y => sign_bit f y = 1 /\ fvalue f y = 0) v /\
  sum_portable ieee_add c s v = Ok 0 /\ sum_optimized c x v = Ok (2 ^ (f_e f + f_m f)).
Proof. exact c69_sum_negative_zero_refuted. Qed.
Print Assumptions C69_sum_negative_zero_refuted.

(** C69: with rounding, the two orders give different numbers.  For every type of four or
    more lanes: 2^24 (2^53), 0, 1, 1 and zeros. *)
Theorem C69_sum_rounding_refuted : forall (c : config) (x : xsum) (s : fold_impl), In x (x86_sum_float ieee_add) -> In s (x86_sum ++ unknown_sum) -> s_vec s = xs_vec x -> 4 <= WIDTH (xs_ty x) ->
  exists v p q, int_vector (WIDTH (xs_ty x)) (lane_ity (xs_el x)) v /\ Forall (finite_lane (xs_el x)) v /\
    sum_portable ieee_add c s v = Ok p /\ sum_optimized c x v = Ok q /\ finite_lane (xs_el x) p /\ finite_lane (xs_el x) q /\
    fvalue (fmt_of (xs_el x)) p < fvalue (fmt_of (xs_el x)) q /\ fvalue (fmt_of (xs_el x)) q = total (map (fvalue (fmt_of (xs_el x))) v).
Proof. exact c69_sum_rounding_refuted. Qed.
Print Assumptions C69_sum_rounding_refuted.

Example C69_sum_refuted_case : forall c, exists x s, In x (x86_sum_float ieee_add) /\ In s (x86_sum ++ unknown_sum) /\ s_vec s = xs_vec x /\ 4 <= WIDTH (xs_ty x) /\
  sum_portable ieee_add c s [1266679808; 0; 1065353216; 1065353216] = Ok 1266679808 /\ sum_optimized c x [1266679808; 0; 1065353216; 1065353216] = Ok 1266679809.
Proof.
  intros c. exists (nth 0 (x86_sum_float ieee_add) (mkXSum "" (mkVty 0 0) EF32 "" (fun _ _ => UB))). eexists. split; [cbn; tauto|]. split; [apply (nth_error_In _ 25); vm_compute; reflexivity|]. split; [vm_compute; reflexivity|]. split; [vm_compute; discriminate|]. split; vm_compute; reflexivity.
Qed.

(** C67: portable [recip]: every lane is 1.0 divided by it, correctly rounded, and
    in particular an estimate within 1.5 * 2^-12. *)
Theorem C67_recip_portable : forall (o : op_impl) (a : list Z), In o (x86_recip ++ unknown_recip) -> int_vector (WIDTH (op_ty o)) (lane_ity (op_el o)) a ->
  let f := fmt_of (op_el o) in
  exists r, estimate_portable o a = Some (Ok r) /\ Forall2 (recip_estimate f) a r /\
    exists one, fvalue f one = fone f /\ Forall2 (quotient_result f one) a r.
Proof. exact c67_recip_portable. Qed.
Print Assumptions C67_recip_portable.

(** C67: [recip] with the instruction, as accurate as the instruction: Intel's
    specification of RCPPS is the hypothesis. *)
Theorem C67_recip_optimized : forall (rcp rsq : Z -> Z) (o : op_impl) (a : list Z), In o x86_recip ->
  (forall x, f_pattern fmt32 x -> f_pattern fmt32 (rcp x) /\ recip_estimate fmt32 x (rcp x)) ->
  int_vector (WIDTH (op_ty o)) (lane_ity (op_el o)) a ->
  exists r, estimate_optimized rcp rsq o a = Some r /\ op_el o = EF32 /\ Forall2 (recip_estimate fmt32) a r.
Proof. exact c67_recip_optimized. Qed.
Print Assumptions C67_recip_optimized.

(** C67: so the two versions differ by at most 2 * 1.5 * 2^-12, relatively, on every
    normal lane that is not too large. *)
Theorem C67_recip_agree : forall (rcp rsq : Z -> Z) (o : op_impl) (a p q : list Z), In o x86_recip ->
  (forall x, f_pattern fmt32 x -> f_pattern fmt32 (rcp x) /\ recip_estimate fmt32 x (rcp x)) ->
  int_vector (WIDTH (op_ty o)) (lane_ity (op_el o)) a -> estimate_portable o a = Some (Ok p) -> estimate_optimized rcp rsq o a = Some q ->
  forall i x y z, znth a i = Some x -> znth p i = Some y -> znth q i = Some z ->
    is_finite fmt32 x -> 2 ^ f_m fmt32 <= Z.abs (fvalue fmt32 x) -> Z.abs (fvalue fmt32 x) * (2 * 2 ^ f_m fmt32) <= fone fmt32 * fone fmt32 ->
    8192 * Z.abs (fvalue fmt32 y - fvalue fmt32 z) * Z.abs (fvalue fmt32 x) <= 6 * (fone fmt32 * fone fmt32).
Proof. exact c67_recip_agree. Qed.
Print Assumptions C67_recip_agree.

(** The reciprocals of 4.0, -0.0, +inf and 3.0; rounding itself is an estimate, so the
    hypotheses on the instruction are satisfiable. *)
Example C67_recip_case : exists o, In o x86_recip /\ op_vec o = "f32x4"%string /\
  estimate_portable o [1082130432; 2147483648; 2139095040; 1077936128] = Some (Ok [1048576000; 4286578688; 0; 1051372203]) /\
  estimate_optimized (f_recip fmt32) (f_rsqrt fmt32) o [1082130432; 2147483648; 2139095040; 1077936128] = Some [1048576000; 4286578688; 0; 1051372203].
Proof. eexists. split; [apply (nth_error_In _ 1); vm_compute; reflexivity|]. repeat split; vm_compute; reflexivity. Qed.

Example C67_recip_satisfiable : forall x, f_pattern fmt32 x -> f_pattern fmt32 (f_recip fmt32 x) /\ recip_estimate fmt32 x (f_recip fmt32 x).
Proof. exact rcp_satisfiable. Qed.

(** C68: [rsqrt] of a scalar (f32, f64): within 1.5 * 2^-12 (in fact much closer). *)
Theorem C68_rsqrt_scalar : forall (e : elty) (x : Z), e = EF32 \/ e = EF64 -> in_ity (lane_ity e) x -> rsqrt_estimate (fmt_of e) x (f_rsqrt (fmt_of e) x).
Proof. exact c68_rsqrt_scalar. Qed.
Print Assumptions C68_rsqrt_scalar.

(** 1 / sqrt(4.0) in f64 and f32. *)
Example C68_rsqrt_scalar_case : f_rsqrt fmt64 4616189618054758400 = 4602678819172646912 /\ f_rsqrt fmt32 1082130432 = 1056964608.
Proof. split; vm_compute; reflexivity. Qed.

(** C68: portable [rsqrt] of a vector: the lanes are estimates. *)
Theorem C68_rsqrt_portable : forall (o : op_impl) (a : list Z), In o (x86_rsqrt ++ unknown_rsqrt) -> int_vector (WIDTH (op_ty o)) (lane_ity (op_el o)) a ->
  exists r, estimate_portable o a = Some (Ok r) /\ Forall2 (rsqrt_estimate (fmt_of (op_el o))) a r.
Proof. exact c68_rsqrt_portable. Qed.
Print Assumptions C68_rsqrt_portable.

(** C68: [rsqrt] with the instruction; Intel's specification of RSQRTPS is the
    hypothesis. *)
Theorem C68_rsqrt_optimized : forall (rcp rsq : Z -> Z) (o : op_impl) (a : list Z), In o x86_rsqrt ->
  (forall x, f_pattern fmt32 x -> f_pattern fmt32 (rsq x) /\ rsqrt_estimate fmt32 x (rsq x)) ->
  int_vector (WIDTH (op_ty o)) (lane_ity (op_el o)) a ->
  exists r, estimate_optimized rcp rsq o a = Some r /\ op_el o = EF32 /\ Forall2 (rsqrt_estimate fmt32) a r.
Proof. exact c68_rsqrt_optimized. Qed.
Print Assumptions C68_rsqrt_optimized.

(** 1 / sqrt of 4.0, -1.0, +inf and -0.0: 0.5, NaN, 0.0 and -inf. *)
Example C68_rsqrt_case : exists o, In o x86_rsqrt /\ op_vec o = "f32x4"%string /\
  estimate_portable o [1082130432; 3212836864; 2139095040; 2147483648] = Some (Ok [1056964608; 4290772992; 0; 4286578688]) /\
  estimate_optimized (f_recip fmt32) (f_rsqrt fmt32) o [1082130432; 3212836864; 2139095040; 2147483648] = Some [1056964608; 4290772992; 0; 4286578688].
Proof. eexists. split; [apply (nth_error_In _ 1); vm_compute; reflexivity|]. repeat split; vm_compute; reflexivity. Qed.

Example C68_rsqrt_satisfiable : forall x, f_pattern fmt32 x -> f_pattern fmt32 (f_rsqrt fmt32 x) /\ rsqrt_estimate fmt32 x (f_rsqrt fmt32 x).
Proof. exact rsq_satisfiable. Qed.
