(** Properties: sums and extrema of slices of floats on the portable back-end (C97). *)
From Coq Require Import String.
From Verif Require Import Base Spec VecSpec Vecs Iters GateTables GateSpec Gates Lanes Floats FloatSpec Arith ArithSpec OpTables Ops OpSpec PortTables Ports PortSpec SumTables Sums SumSpec Builds AvailSpec Estimates ExprSpec Exprs FloatSumSpec Demos OverflowSpec Portables.
Open Scope list_scope.
Open Scope Z_scope.
From Verif Require Import PortSumProofs.

(** The exact case of C86 on the portable back-end.  [s] is the impl of [sum] for the vector
    the slice is iterated with; [f] adds the vectors. *)
Theorem C97_sum_exact : forall (fs : features) (c : config) (tie : bool) (narrow : Z -> Z) (e : elty) (l : list Z) (l0 : packed_line) (add : list Z -> list Z -> list Z) (fuel : nat) (j : Z),
  let f := fmt_of e in let zero := splat (p_width l0) 0 in
  fs "undefined"%string = false -> e = EF32 \/ e = EF64 -> portable_natural fs (el_name e ++ "s") = [l0] -> zlen l * p_size l0 <= isize_max -> (length l < fuel)%nat ->
  Forall (finite_lane e) l -> 0 <= j <= 2 ^ f_e f - 3 -> Forall (fun x => (2 ^ j | fvalue f x)) l -> magnitudes f l < 2 ^ (f_m f + 1 + j) ->
  (forall a v r, zlen a = p_width l0 -> zlen v = p_width l0 -> Forall (lane e) a -> Forall (lane e) v -> portable_run fs c tie ieee_arith ieee_sqrt narrow e 2 (Arith Add (Arg 0) (Arg 1)) [a; v] = Some (Ok r) -> add a v = r) ->
  exists s acc s' r, filter (fun s => String.eqb (s_vec s) (p_vec l0)) unknown_sum = [s] /\ simd_reduce (slice_iterator c (vty_of l0)) fuel (simd_iter l zero) zero add = Ok (acc, s') /\
    sum_portable ieee_add c s acc = Ok r /\ finite_lane e r /\ fvalue f r = exact_sum f l.
Proof. exact c97_sum_exact. Qed.
Print Assumptions C97_sum_exact.

(** Sums with rounding: the error is at most that of [n] roundings, for any [n] from the
    number of vectors plus the number of lanes on, in debug and in release builds. *)
Theorem C97_sum_error : forall (fs : features) (c : config) (tie : bool) (narrow : Z -> Z) (e : elty) (l : list Z) (l0 : packed_line) (add : list Z -> list Z -> list Z) (fuel : nat) (n : Z),
  let f := fmt_of e in let zero := splat (p_width l0) 0 in
  fs "undefined"%string = false -> e = EF32 \/ e = EF64 -> portable_natural fs (el_name e ++ "s") = [l0] -> zlen l * p_size l0 <= isize_max -> (length l < fuel)%nat ->
  Forall (finite_lane e) l -> (zlen l + p_width l0 - 1) / p_width l0 + p_width l0 <= n -> no_float_overflow f n l ->
  (forall a v r, zlen a = p_width l0 -> zlen v = p_width l0 -> Forall (lane e) a -> Forall (lane e) v -> portable_run fs c tie ieee_arith ieee_sqrt narrow e 2 (Arith Add (Arg 0) (Arg 1)) [a; v] = Some (Ok r) -> add a v = r) ->
  exists s acc s' r, filter (fun s => String.eqb (s_vec s) (p_vec l0)) unknown_sum = [s] /\ simd_reduce (slice_iterator c (vty_of l0)) fuel (simd_iter l zero) zero add = Ok (acc, s') /\
    sum_portable ieee_add c s acc = Ok r /\ finite_lane e r /\ rounded_sum f n l r.
Proof. exact c97_sum_error. Qed.
Print Assumptions C97_sum_error.

(** A NaN anywhere in the slice makes the sum NaN. *)
Theorem C97_sum_nan : forall (fs : features) (c : config) (tie : bool) (narrow : Z -> Z) (e : elty) (l : list Z) (l0 : packed_line) (add : list Z -> list Z -> list Z) (fuel : nat),
  let f := fmt_of e in let zero := splat (p_width l0) 0 in
  fs "undefined"%string = false -> e = EF32 \/ e = EF64 -> portable_natural fs (el_name e ++ "s") = [l0] -> zlen l * p_size l0 <= isize_max -> (length l < fuel)%nat ->
  Forall (lane e) l -> (exists x, In x l /\ is_nan f x) ->
  (forall a v r, zlen a = p_width l0 -> zlen v = p_width l0 -> Forall (lane e) a -> Forall (lane e) v -> portable_run fs c tie ieee_arith ieee_sqrt narrow e 2 (Arith Add (Arg 0) (Arg 1)) [a; v] = Some (Ok r) -> add a v = r) ->
  exists s acc s' r, filter (fun s => String.eqb (s_vec s) (p_vec l0)) unknown_sum = [s] /\ simd_reduce (slice_iterator c (vty_of l0)) fuel (simd_iter l zero) zero add = Ok (acc, s') /\
    sum_portable ieee_add c s acc = Ok r /\ is_nan f r.
Proof. exact c97_sum_nan. Qed.
Print Assumptions C97_sum_nan.

(** [l.simd_iter(u).simd_reduce(u, |a, v| a.max(v))] and [scalar_reduce(u, max)] on the portable
    back-end, with [u] the infinity in every lane: NaNs in the slice are skipped.  The result
    is [u] if the slice has no other elements, and otherwise one of them that no other is
    beyond.  Where the instruction is used this fails: C90. *)
Theorem C97_extremum : forall (fs : features) (c : config) (tie : bool) (narrow : Z -> Z) (e : elty) (l : list Z) (l0 : packed_line) (m : method) (u : Z) (f : list Z -> list Z -> list Z) (g : Z -> Z -> Z) (fuel : nat),
  let fm := fmt_of e in let number x := lane e x /\ ~ is_nan fm x in let best := match m with Min => least fm | _ => greatest fm end in
  fs "undefined"%string = false -> e = EF32 \/ e = EF64 -> m = Min \/ m = Max -> portable_natural fs (el_name e ++ "s") = [l0] ->
  infinity_of_sign fm (match m with Min => 0 | _ => 1 end) u -> Forall (lane e) l -> zlen l * p_size l0 <= isize_max -> (length l < fuel)%nat ->
  (forall a v r, zlen a = p_width l0 -> zlen v = p_width l0 -> Forall number a -> Forall (lane e) v -> portable_run fs c tie ieee_arith ieee_sqrt narrow e 2 (Call m (Arg 0) (Arg 1)) [a; v] = Some (Ok r) -> f a v = r) ->
  (forall x y, number x -> number y -> best x y (g x y)) ->
  exists acc s' r, simd_reduce (slice_iterator c (vty_of l0)) fuel (simd_iter l (splat (p_width l0) u)) (splat (p_width l0) u) f = Ok (acc, s') /\
    scalar_reduce (p_width l0) acc u g = Ok r /\ (Forall (is_nan fm) l -> r = u) /\ (~ Forall (is_nan fm) l -> In r l /\ ~ is_nan fm r) /\
    Forall (fun x => ~ is_nan fm x -> match m with Min => fvalue fm r <= fvalue fm x | _ => fvalue fm x <= fvalue fm r end) l.
Proof. exact c97_extremum. Qed.
Print Assumptions C97_extremum.

(** The sum of [1.5, -2.5, 4, 0.25, 8] ([C97_sum_exact]), and the maximum of [-1, NaN, -3, NaN,
    -0.5, NaN] ([C97_extremum]) in a debug build. *)
Example C97_case : let c := mkConfig Debug true in let fs : features := fun _ => false in let l := [1069547520; 3222274048; 1082130432; 1048576000; 1090519040] in let nan := 2143289344 in let u := 4286578688 in
  let run x a v := match portable_run fs c true ieee_arith ieee_sqrt (fun z => z) EF32 2 x [a; v] with Some (Ok r) => r | _ => [] end in
  exists l0 s, portable_natural fs "f32s" = [l0] /\ filter (fun s => String.eqb (s_vec s) (p_vec l0)) unknown_sum = [s] /\
    Forall (finite_lane EF32) l /\ Forall (fun x => (2 ^ 147 | fvalue fmt32 x)) l /\ magnitudes fmt32 l < 2 ^ (f_m fmt32 + 1 + 147) /\ fvalue fmt32 1094189056 = exact_sum fmt32 l /\
    (exists acc s', simd_reduce (slice_iterator c (vty_of l0)) 30 (simd_iter l (splat (p_width l0) 0)) (splat (p_width l0) 0) (run (Arith Add (Arg 0) (Arg 1))) = Ok (acc, s') /\ sum_portable ieee_add c s acc = Ok 1094189056) /\
    infinity_of_sign fmt32 1 u /\ is_nan fmt32 nan /\
    exists acc s', simd_reduce (slice_iterator c (vty_of l0)) 30 (simd_iter [3212836864; nan; 3225419776; nan; 3204448256; nan] (splat (p_width l0) u)) (splat (p_width l0) u) (run (Call Max (Arg 0) (Arg 1))) = Ok (acc, s') /\ scalar_reduce (p_width l0) acc u (rust_fmax fmt32 true) = Ok 3204448256.
Proof.
  cbv zeta. eexists. eexists. split; [vm_compute; reflexivity|]. split; [vm_compute; reflexivity|]. split; [repeat constructor; vm_compute; congruence|].
  split; [repeat constructor; [exists 6|exists (-9)|exists 16|exists 1|exists 32]; vm_compute; reflexivity|]. split; [vm_compute; reflexivity|]. split; [vm_compute; reflexivity|].
  split; [eexists; eexists; split; [vm_compute; reflexivity|vm_compute; reflexivity]|]. split; [split; [split; vm_compute; congruence|split; [split; vm_compute; reflexivity|vm_compute; reflexivity]]|]. split; [split; vm_compute; congruence|]. eexists. eexists. split; [vm_compute; reflexivity|vm_compute; reflexivity].
Qed.
