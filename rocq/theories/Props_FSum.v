(** Properties: sums of slices of floats on every target (C86). *)
From Coq Require Import String.
From Verif Require Import Base Spec VecSpec Vecs Iters GateTables GateSpec Gates Lanes Floats FloatSpec Arith ArithSpec OpTables Ops OpSpec PortTables Ports PortSpec SumTables Sums SumSpec Builds AvailSpec ExprSpec Exprs FloatSumSpec.
Open Scope list_scope.
Open Scope Z_scope.
From Verif Require Import FSumProofs.

(** When the values are multiples of 2^j units and their magnitudes add up to less than
    2^(m+1) times that, the sum has no rounding error: every build returns the same value. *)
Theorem C86_sum_exact : forall (fs : features) (c : config) (e : elty) (l : list Z) (l0 : packed_line) (fuel : nat) (j : Z),
  let f := fmt_of e in let zero := splat (p_width l0) 0 in
  target fs -> e = EF32 \/ e = EF64 -> natural fs (el_name e ++ "s") = [l0] -> zlen l * p_size l0 <= isize_max -> (length l < fuel)%nat ->
  Forall (finite_lane e) l -> 0 <= j <= 2 ^ f_e f - 3 -> Forall (fun x => (2 ^ j | fvalue f x)) l -> magnitudes f l < 2 ^ (f_m f + 1 + j) ->
  exists acc s' r, simd_reduce (slice_iterator c (vty_of l0)) fuel (simd_iter l zero) zero (fun a v => map2 (ieee_add e) a v) = Ok (acc, s') /\
    sum_in fs ieee_add c (p_vec l0) acc = Some (Ok r) /\ finite_lane e r /\ fvalue f r = exact_sum f l.
Proof. exact c86_sum_exact. Qed.
Print Assumptions C86_sum_exact.

(** In every build, debug or release, the sum of finite floats whose magnitudes do not come
    close to overflowing is finite and its error is at most that of [n] roundings, for any
    [n] from the number of vectors plus the number of lanes on. *)
Theorem C86_sum_error : forall (fs : features) (c : config) (e : elty) (l : list Z) (l0 : packed_line) (fuel : nat) (n : Z),
  let f := fmt_of e in let zero := splat (p_width l0) 0 in
  target fs -> e = EF32 \/ e = EF64 -> natural fs (el_name e ++ "s") = [l0] -> zlen l * p_size l0 <= isize_max -> (length l < fuel)%nat ->
  Forall (finite_lane e) l -> (zlen l + p_width l0 - 1) / p_width l0 + p_width l0 <= n -> no_float_overflow f n l ->
  exists acc s' r, simd_reduce (slice_iterator c (vty_of l0)) fuel (simd_iter l zero) zero (fun a v => map2 (ieee_add e) a v) = Ok (acc, s') /\
    sum_in fs ieee_add c (p_vec l0) acc = Some (Ok r) /\ finite_lane e r /\ rounded_sum f n l r.
Proof. exact c86_sum_error. Qed.
Print Assumptions C86_sum_error.

(** A NaN anywhere in the slice makes the sum NaN in every build. *)
Theorem C86_sum_nan : forall (fs : features) (c : config) (e : elty) (l : list Z) (l0 : packed_line) (fuel : nat),
  let f := fmt_of e in let zero := splat (p_width l0) 0 in
  target fs -> e = EF32 \/ e = EF64 -> natural fs (el_name e ++ "s") = [l0] -> zlen l * p_size l0 <= isize_max -> (length l < fuel)%nat ->
  Forall (lane e) l -> (exists x, In x l /\ is_nan f x) ->
  exists acc s' r, simd_reduce (slice_iterator c (vty_of l0)) fuel (simd_iter l zero) zero (fun a v => map2 (ieee_add e) a v) = Ok (acc, s') /\
    sum_in fs ieee_add c (p_vec l0) acc = Some (Ok r) /\ is_nan f r.
Proof. exact c86_sum_nan. Qed.
Print Assumptions C86_sum_nan.

(** A target with AVX2. *)
Definition haswell : features := fun s => existsb (String.eqb s) ["sse"; "sse2"; "sse3"; "ssse3"; "sse4.1"; "sse4.2"; "avx"; "avx2"]%string.

Example C86_haswell : target haswell /\ map p_vec (natural haswell "f32s") = ["f32x8"%string] /\ map p_vec (natural (fun _ => false) "f32s") = ["f32x4"%string].
Proof.
  split; [|split; vm_compute; reflexivity]. split.
  - intros hi lo H. vm_compute in H. repeat (destruct H as [H|H]; [injection H as <- <-; vm_compute; congruence|]). destruct H.
  - intros f H. vm_compute in H. repeat (destruct H as [<-|H]; [vm_compute; reflexivity|]). destruct H.
Qed.

Example C86_sum_exact_case : let c := mkConfig Debug true in let l := [1069547520; 3222274048; 1082130432; 1048576000; 1090519040] in
  let reduce fs := match natural_of fs EF32 with
    | Some n => match simd_reduce (slice_iterator c (vty_of n)) 30 (simd_iter l (splat (p_width n) 0)) (splat (p_width n) 0) (fun a v => map2 (ieee_add EF32) a v) with
                | Ok (acc, _) => sum_in fs ieee_add c (p_vec n) acc | _ => None end
    | None => None end in
  reduce (fun _ => false) = Some (Ok 1094189056) /\ reduce haswell = Some (Ok 1094189056) /\
  Forall (finite_lane EF32) l /\ Forall (fun x => (2 ^ 147 | fvalue fmt32 x)) l /\ 147 <= 2 ^ f_e fmt32 - 3 /\ magnitudes fmt32 l < 2 ^ (f_m fmt32 + 1 + 147) /\ fvalue fmt32 1094189056 = exact_sum fmt32 l.
Proof.
  cbv zeta. split; [vm_compute; reflexivity|]. split; [vm_compute; reflexivity|]. split; [repeat constructor; vm_compute; congruence|].
  split; [repeat constructor; [exists 6|exists (-9)|exists 16|exists 1|exists 32]; vm_compute; reflexivity|]. split; [vm_compute; congruence|]. split; vm_compute; reflexivity.
Qed.

(** 2^24 + 1 + 1 + 1 + 1 in f32: two builds round differently, both within the bound. *)
Example C86_sum_error_case : let c := mkConfig Release true in let l := [1266679808; 1065353216; 1065353216; 1065353216; 1065353216] in
  let reduce fs := match natural_of fs EF32 with
    | Some n => match simd_reduce (slice_iterator c (vty_of n)) 30 (simd_iter l (splat (p_width n) 0)) (splat (p_width n) 0) (fun a v => map2 (ieee_add EF32) a v) with
                | Ok (acc, _) => sum_in fs ieee_add c (p_vec n) acc | _ => None end
    | None => None end in
  reduce (fun _ => false) = Some (Ok 1266679809) /\ reduce haswell = Some (Ok 1266679810) /\
  Forall (finite_lane EF32) l /\ no_float_overflow fmt32 9 l /\ rounded_sum fmt32 9 l 1266679810 /\ rounded_sum fmt32 9 l 1266679809.
Proof.
  cbv zeta. split; [vm_compute; reflexivity|]. split; [vm_compute; reflexivity|]. split; [repeat constructor; vm_compute; congruence|]. repeat split; vm_compute; congruence.
Qed.

Example C86_sum_nan_case : let c := mkConfig Release true in let l := [1266679808; 2143289344; 1065353216] in
  let reduce fs := match natural_of fs EF32 with
    | Some n => match simd_reduce (slice_iterator c (vty_of n)) 30 (simd_iter l (splat (p_width n) 0)) (splat (p_width n) 0) (fun a v => map2 (ieee_add EF32) a v) with
                | Ok (acc, _) => sum_in fs ieee_add c (p_vec n) acc | _ => None end
    | None => None end in
  reduce (fun _ => false) = Some (Ok 2143289344) /\ reduce haswell = Some (Ok 2143289344) /\ is_nan fmt32 2143289344.
Proof. cbv zeta. split; [vm_compute; reflexivity|]. split; [vm_compute; reflexivity|]. split; vm_compute; congruence. Qed.
