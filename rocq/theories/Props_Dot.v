(** Properties: inner products of slices of floats on every target (C89). *)
From Coq Require Import String.
From Verif Require Import Base Spec VecSpec Vecs Iters Zip GateTables GateSpec Gates Lanes Floats FloatSpec Arith ArithSpec OpTables Ops OpSpec PortTables Ports PortSpec SumTables Sums SumSpec Builds AvailSpec ExprSpec Exprs FloatSumSpec DotSpec.
Open Scope list_scope.
Open Scope Z_scope.
From Verif Require Import DotProofs.

(** Reducing two zipped slices of equal length with a closure that first combines the two
    vectors lane by lane gives what reducing the slice of the combined elements gives, with
    the combined default, whatever the closure does with the result. *)
Theorem C89_fused : forall (A B C R : Type) (c : config) (t1 t2 t3 : vty) (l1 d1 : list A) (l2 d2 : list B) (g : A -> B -> C) (start : R) (f : R -> list C -> R) (fuel : nat),
  vty_ok t1 -> vty_ok t2 -> vty_ok t3 -> WIDTH t2 = WIDTH t1 -> WIDTH t3 = WIDTH t1 -> slice_ok t1 l1 -> slice_ok t2 l2 -> zlen l1 * SIZE t3 <= isize_max ->
  zlen d1 = WIDTH t1 -> zlen d2 = WIDTH t1 -> zlen l1 = zlen l2 -> (length l1 < fuel)%nat ->
  let rest := rest_one (blanket_unsafe c (si_array (slice_array c t2)) (si_iterable c (slice_array c t2))) in
  let st := (simd_iter l1 d1, simd_iter l2 d2) in
  zip (slice_iterator c t1) rest st = Ok st /\
  exists acc s s', simd_reduce (zip_iterator (slice_iterator c t1) rest) fuel st start (fun r p => f r (map2 g (fst p) (snd p))) = Ok (acc, s) /\
    simd_reduce (slice_iterator c t3) fuel (simd_iter (map2 g l1 l2) (map2 g d1 d2)) start f = Ok (acc, s').
Proof. exact c89_fused. Qed.
Print Assumptions C89_fused.

(** In every build, debug or release, zipping two slices of finite floats and reducing with
    [|acc, (x, y)| acc + x * y], then [sum()], returns a finite float whose error as the inner
    product is at most that of one rounding in each product and [n] roundings in the sum, for any
    [n] from the number of vectors plus the number of lanes on, unless the magnitudes come close
    to overflowing. *)
Theorem C89_dot_error : forall (fs : features) (c : config) (e : elty) (a b : list Z) (l0 : packed_line) (fuel : nat) (n : Z),
  let f := fmt_of e in let zero := splat (p_width l0) 0 in
  target fs -> e = EF32 \/ e = EF64 -> natural fs (el_name e ++ "s") = [l0] -> zlen a = zlen b -> zlen a * p_size l0 <= isize_max -> (length a < fuel)%nat ->
  Forall (finite_lane e) a -> Forall (finite_lane e) b -> (zlen a + p_width l0 - 1) / p_width l0 + p_width l0 <= n -> no_dot_overflow f n a b ->
  let rest := rest_one (blanket_unsafe c (si_array (slice_array c (vty_of l0))) (si_iterable c (slice_array c (vty_of l0)))) in
  let st := (simd_iter a zero, simd_iter b zero) in
  zip (slice_iterator c (vty_of l0)) rest st = Ok st /\
  exists acc s' r, simd_reduce (zip_iterator (slice_iterator c (vty_of l0)) rest) fuel st zero (fun acc p => map2 (ieee_add e) acc (map2 (f_mul f) (fst p) (snd p))) = Ok (acc, s') /\
    sum_in fs ieee_add c (p_vec l0) acc = Some (Ok r) /\ finite_lane e r /\ rounded_dot f n a b r.
Proof. exact c89_dot_error. Qed.
Print Assumptions C89_dot_error.

(** When the exact products are multiples of 2^j units and their magnitudes add up to less
    than 2^(m+1) times that, the inner product has no rounding error: every build returns the
    same value. *)
Theorem C89_dot_exact : forall (fs : features) (c : config) (e : elty) (a b : list Z) (l0 : packed_line) (fuel : nat) (j : Z),
  let f := fmt_of e in let zero := splat (p_width l0) 0 in
  target fs -> e = EF32 \/ e = EF64 -> natural fs (el_name e ++ "s") = [l0] -> zlen a * p_size l0 <= isize_max -> (length a < fuel)%nat ->
  Forall (finite_lane e) a -> Forall (finite_lane e) b -> 0 <= j <= 2 ^ f_e f - 3 ->
  Forall2 (fun x y => (2 ^ j * fone f | fvalue f x * fvalue f y)) a b -> dot_magnitudes f a b < 2 ^ (f_m f + 1 + j) * fone f ->
  let rest := rest_one (blanket_unsafe c (si_array (slice_array c (vty_of l0))) (si_iterable c (slice_array c (vty_of l0)))) in
  let st := (simd_iter a zero, simd_iter b zero) in
  zip (slice_iterator c (vty_of l0)) rest st = Ok st /\
  exists acc s' r, simd_reduce (zip_iterator (slice_iterator c (vty_of l0)) rest) fuel st zero (fun acc p => map2 (ieee_add e) acc (map2 (f_mul f) (fst p) (snd p))) = Ok (acc, s') /\
    sum_in fs ieee_add c (p_vec l0) acc = Some (Ok r) /\ finite_lane e r /\ fvalue f r * fone f = exact_dot f a b.
Proof. exact c89_dot_exact. Qed.
Print Assumptions C89_dot_exact.

(** Inner products of whole numbers whose magnitudes add up to less than 2^24 (f32) or 2^53
    (f64) are exact in every build. *)
Theorem C89_dot_whole : forall (fs : features) (c : config) (e : elty) (a b : list Z) (l0 : packed_line) (fuel : nat),
  let f := fmt_of e in let zero := splat (p_width l0) 0 in
  target fs -> e = EF32 \/ e = EF64 -> natural fs (el_name e ++ "s") = [l0] -> zlen a = zlen b -> zlen a * p_size l0 <= isize_max -> (length a < fuel)%nat ->
  Forall (finite_lane e) a -> Forall (finite_lane e) b -> Forall (fun x => (fone f | fvalue f x)) (a ++ b) -> dot_magnitudes f a b < parts f * (fone f * fone f) ->
  let rest := rest_one (blanket_unsafe c (si_array (slice_array c (vty_of l0))) (si_iterable c (slice_array c (vty_of l0)))) in
  let st := (simd_iter a zero, simd_iter b zero) in
  zip (slice_iterator c (vty_of l0)) rest st = Ok st /\
  exists acc s' r, simd_reduce (zip_iterator (slice_iterator c (vty_of l0)) rest) fuel st zero (fun acc p => map2 (ieee_add e) acc (map2 (f_mul f) (fst p) (snd p))) = Ok (acc, s') /\
    sum_in fs ieee_add c (p_vec l0) acc = Some (Ok r) /\ finite_lane e r /\ fvalue f r * fone f = exact_dot f a b.
Proof. exact c89_dot_whole. Qed.
Print Assumptions C89_dot_whole.

(** A NaN in either slice, or a zero beside an infinity, makes the inner product NaN in every
    build. *)
Theorem C89_dot_nan : forall (fs : features) (c : config) (e : elty) (a b : list Z) (l0 : packed_line) (fuel : nat) (k x y : Z),
  let f := fmt_of e in let zero := splat (p_width l0) 0 in
  target fs -> e = EF32 \/ e = EF64 -> natural fs (el_name e ++ "s") = [l0] -> zlen a = zlen b -> zlen a * p_size l0 <= isize_max -> (length a < fuel)%nat ->
  Forall (lane e) a -> Forall (lane e) b -> znth a k = Some x -> znth b k = Some y ->
  is_nan f x \/ is_nan f y \/ (is_infinite f x /\ is_finite f y /\ fvalue f y = 0) \/ (is_finite f x /\ fvalue f x = 0 /\ is_infinite f y) ->
  let rest := rest_one (blanket_unsafe c (si_array (slice_array c (vty_of l0))) (si_iterable c (slice_array c (vty_of l0)))) in
  let st := (simd_iter a zero, simd_iter b zero) in
  zip (slice_iterator c (vty_of l0)) rest st = Ok st /\
  exists acc s' r, simd_reduce (zip_iterator (slice_iterator c (vty_of l0)) rest) fuel st zero (fun acc p => map2 (ieee_add e) acc (map2 (f_mul f) (fst p) (snd p))) = Ok (acc, s') /\
    sum_in fs ieee_add c (p_vec l0) acc = Some (Ok r) /\ is_nan f r.
Proof. exact c89_dot_nan. Qed.
Print Assumptions C89_dot_nan.

(** A target with AVX2. *)
Definition haswell : features := fun s => existsb (String.eqb s) ["sse"; "sse2"; "sse3"; "ssse3"; "sse4.1"; "sse4.2"; "avx"; "avx2"]%string.

(** The inner product of [a] and [b] in the natural vector of the target. *)
Definition dot_on (fs : features) (c : config) (e : elty) (a b : list Z) : option (outcome Z) :=
  match natural_of fs e with
  | Some n =>
    let ty := vty_of n in let zero := splat (p_width n) 0 in
    let rest := rest_one (blanket_unsafe c (si_array (slice_array c ty)) (si_iterable c (slice_array c ty))) in
    match simd_reduce (zip_iterator (slice_iterator c ty) rest) 30 (simd_iter a zero, simd_iter b zero) zero (fun acc p => map2 (ieee_add e) acc (map2 (f_mul (fmt_of e)) (fst p) (snd p))) with
    | Ok (acc, _) => sum_in fs ieee_add c (p_vec n) acc
    | _ => None
    end
  | None => None
  end.

(** [1.5, -2.5, 4, 0.25, 8] times [2, 4, 0.5, 8, 1]. *)
Example C89_dot_exact_case : let c := mkConfig Debug true in let a := [1069547520; 3223322624; 1082130432; 1048576000; 1090519040] in let b := [1073741824; 1082130432; 1056964608; 1090519040; 1065353216] in
  dot_on (fun _ => false) c EF32 a b = Some (Ok 1084227584) /\ dot_on haswell c EF32 a b = Some (Ok 1084227584) /\
  Forall (finite_lane EF32) a /\ Forall (finite_lane EF32) b /\ Forall2 (fun x y => (2 ^ 149 * fone fmt32 | fvalue fmt32 x * fvalue fmt32 y)) a b /\ 149 <= 2 ^ f_e fmt32 - 3 /\
  dot_magnitudes fmt32 a b < 2 ^ (f_m fmt32 + 1 + 149) * fone fmt32 /\ fvalue fmt32 1084227584 * fone fmt32 = exact_dot fmt32 a b.
Proof.
  cbv zeta. split; [vm_compute; reflexivity|]. split; [vm_compute; reflexivity|]. split; [repeat constructor; vm_compute; congruence|]. split; [repeat constructor; vm_compute; congruence|].
  split; [constructor; [exists 3|constructor; [exists (-10)|constructor; [exists 2|constructor; [exists 2|constructor; [exists 8|constructor]]]]]; vm_compute; reflexivity|]. split; [vm_compute; congruence|]. split; vm_compute; reflexivity.
Qed.

(** [2^24, 1, 1, 1, 1.1] times [1, 1, 1, 1, 1.1] in f32: two builds round differently, both
    within the bound. *)
Example C89_dot_error_case : let c := mkConfig Release true in let a := [1266679808; 1065353216; 1065353216; 1065353216; 1066192077] in let b := [1065353216; 1065353216; 1065353216; 1065353216; 1066192077] in
  dot_on (fun _ => false) c EF32 a b = Some (Ok 1266679809) /\ dot_on haswell c EF32 a b = Some (Ok 1266679810) /\
  Forall (finite_lane EF32) a /\ Forall (finite_lane EF32) b /\ no_dot_overflow fmt32 9 a b /\ rounded_dot fmt32 9 a b 1266679810 /\ rounded_dot fmt32 9 a b 1266679809 /\ ~ rounded_dot fmt32 9 a b 1266679840.
Proof.
  cbv zeta. split; [vm_compute; reflexivity|]. split; [vm_compute; reflexivity|]. split; [repeat constructor; vm_compute; congruence|]. split; [repeat constructor; vm_compute; congruence|]. repeat split; vm_compute; congruence.
Qed.

(** [1, 0, 2] times [3, infinity, 1]. *)
Example C89_dot_nan_case : let c := mkConfig Release true in let a := [1065353216; 0; 1073741824] in let b := [1077936128; 2139095040; 1065353216] in
  let isnan r := match r with Some (Ok z) => f_nan fmt32 z | _ => false end in
  isnan (dot_on (fun _ => false) c EF32 a b) = true /\ isnan (dot_on haswell c EF32 a b) = true /\ is_finite fmt32 0 /\ fvalue fmt32 0 = 0 /\ is_infinite fmt32 2139095040.
Proof. cbv zeta. split; [vm_compute; reflexivity|]. split; [vm_compute; reflexivity|]. repeat split; vm_compute; congruence. Qed.

(** A fused reduction over two slices of 5 and the same one over the slice of products. *)
Example C89_fused_case : let c := mkConfig Debug true in let ty := mkVty 4 4 in
  let rest := rest_one (blanket_unsafe c (si_array (slice_array c ty)) (si_iterable c (slice_array c ty))) in
  match simd_reduce (zip_iterator (slice_iterator c ty) rest) 9 (simd_iter [1; 2; 3; 4; 5] (splat 4 7), simd_iter [6; 7; 8; 9; 10] (splat 4 2)) [] (fun r p => r ++ map2 Z.mul (fst p) (snd p)) with
  | Ok (acc, _) => acc = [6; 14; 24; 36; 14; 14; 14; 50] | _ => False end /\
  match simd_reduce (slice_iterator c ty) 9 (simd_iter [6; 14; 24; 36; 50] (splat 4 14)) [] (fun r v => r ++ v) with
  | Ok (acc, _) => acc = [6; 14; 24; 36; 14; 14; 14; 50] | _ => False end.
Proof. split; vm_compute; reflexivity. Qed.
