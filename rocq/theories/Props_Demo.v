(** Properties: the float pipelines of the example program on every target (C91). *)
From Coq Require Import String.
From Verif Require Import Base Spec VecSpec Vecs Iters GateTables GateSpec Gates Lanes Floats FloatSpec Arith ArithSpec X86 Tables Shuffles OpTables Ops OpSpec PortTables Ports PortSpec SumTables Sums SumSpec Builds AvailSpec Estimates ExprSpec Exprs FloatSumSpec Demos.
Open Scope list_scope.
Open Scope Z_scope.
From Verif Require Import DemoProofs.

(** The closure of the example compiles and does not panic in any build. *)
Theorem C91_closure : forall (fs : features) (tie : bool) (rcp rsq narrow : Z -> Z) (l0 : packed_line) (v : list Z),
  target fs -> (forall x, f_pattern fmt32 x -> f_pattern fmt32 (rsq x)) -> natural fs "f32s" = [l0] -> zlen v = p_width l0 -> Forall (lane EF32) v ->
  exists r, threes_in fs tie rcp rsq narrow v = Some (Ok r) /\ zlen r = p_width l0.
Proof. exact c91_closure. Qed.
Print Assumptions C91_closure.

(** examples/main.rs:19-22: [simd_iter(..).simd_map(|v| f32s(9.0) * v.abs().sqrt().rsqrt().ceil()
    .sqrt() - f32s(4.0) - f32s(2.0)).scalar_collect()] returns 3.0 for every element, in every
    build and for every RSQRTPS that meets Intel's specification, if the elements are finite
    and of magnitude at least 1.0015. *)
Theorem C91_threes : forall (fs : features) (c : config) (tie : bool) (rcp rsq narrow : Z -> Z) (l d : list Z) (l0 : packed_line) (E : Type) (func : E -> list Z -> list Z * E) (env : E) (fuel : nat),
  target fs -> (forall x, f_pattern fmt32 x -> f_pattern fmt32 (rsq x) /\ rsqrt_estimate fmt32 x (rsq x)) -> natural fs "f32s" = [l0] ->
  Forall (lane EF32) l -> Forall (fun x => is_finite fmt32 x /\ 10015 * fone fmt32 <= 10000 * Z.abs (fvalue fmt32 x)) l ->
  zlen d = p_width l0 -> Forall (lane EF32) d -> zlen l * p_size l0 + 32 <= isize_max -> (length l < fuel)%nat ->
  (forall e v, zlen v = p_width l0 -> Forall (lane EF32) v -> threes_in fs tie rcp rsq narrow v = Some (Ok (fst (func e v)))) ->
  exists s', scalar_collect c (map_iterator c (slice_iterator c (vty_of l0)) (vty_of l0) 0 func) 0 fuel (mkSIMDMap (simd_iter l d) env) = Ok (map (fun _ => Some 1077936128) l, s').
Proof. exact c91_threes. Qed.
Print Assumptions C91_threes.

(** The scalar version of the program, examples/main.rs:24-27, agrees. *)
Theorem C91_scalar : forall x, lane EF32 x -> is_finite fmt32 x -> 10015 * fone fmt32 <= 10000 * Z.abs (fvalue fmt32 x) -> threes_scalar x = 1077936128.
Proof. exact c91_scalar. Qed.
Print Assumptions C91_scalar.

(** The bound on the magnitudes is needed: some RSQRTPS that meets Intel's specification makes
    the builds with it return something else than 3.0 for 1.0, while the builds without it
    return 3.0. *)
Theorem C91_at_one : exists rsq : Z -> Z, (forall x, f_pattern fmt32 x -> f_pattern fmt32 (rsq x) /\ rsqrt_estimate fmt32 x (rsq x)) /\
  forall (fs : features) (tie : bool) (rcp narrow : Z -> Z) (l0 : packed_line), target fs -> natural fs "f32s" = [l0] ->
  exists y, threes_in fs tie rcp rsq narrow (splat (p_width l0) 1065353216) = Some (Ok (splat (p_width l0) y)) /\ (y = 1077936128 <-> fs "sse"%string = false).
Proof. exact c91_at_one. Qed.
Print Assumptions C91_at_one.

(** Reducing with [|a, v| a + g(v)], where [g] is any closure of the language, adds the same
    numbers in the same order as reducing the mapped slice with [|a, v| a + v], in every
    build; the default vector has to be mapped to zeros.  So C86 applies. *)
Theorem C91_sum_closure : forall (fs : features) (c : config) (tie : bool) (narrow : Z -> Z) (e : elty) (x : expr) (g : Z -> Z) (l d : list Z) (l0 : packed_line) (func : list Z -> list Z -> list Z) (fuel : nat),
  let zero := splat (p_width l0) 0 in
  target fs -> e = EF32 \/ e = EF64 -> natural fs (el_name e ++ "s") = [l0] -> type_of e 2 x = Some e ->
  (forall a v, lane e a -> lane e v -> lane e (g v) /\ meaning e 2 ieee_arith ieee_sqrt x [a; v] = ieee_add e a (g v)) ->
  Forall (lane e) l -> zlen d = p_width l0 -> Forall (fun v => lane e v /\ g v = 0) d -> zlen l * p_size l0 <= isize_max -> (length l < fuel)%nat ->
  (forall a v, zlen a = p_width l0 -> zlen v = p_width l0 -> Forall (lane e) a -> Forall (lane e) v -> run fs tie ieee_arith ieee_sqrt narrow e 2 x [a; v] = Some (Ok (func a v))) ->
  exists acc s s', simd_reduce (slice_iterator c (vty_of l0)) fuel (simd_iter l d) zero func = Ok (acc, s) /\
    simd_reduce (slice_iterator c (vty_of l0)) fuel (simd_iter (map g l) zero) zero (fun a v => map2 (ieee_add e) a v) = Ok (acc, s').
Proof. exact c91_sum_closure. Qed.
Print Assumptions C91_sum_closure.

(** If moreover the numbers [g] gives are whole and their magnitudes add up to less than 2^24
    (f32) or 2^53 (f64), the sum is exact in every build. *)
Theorem C91_whole_sum : forall (fs : features) (c : config) (tie : bool) (narrow : Z -> Z) (e : elty) (x : expr) (g : Z -> Z) (l d : list Z) (l0 : packed_line) (func : list Z -> list Z -> list Z) (fuel : nat),
  let f := fmt_of e in let zero := splat (p_width l0) 0 in
  target fs -> e = EF32 \/ e = EF64 -> natural fs (el_name e ++ "s") = [l0] -> type_of e 2 x = Some e ->
  (forall a v, lane e a -> lane e v -> lane e (g v) /\ meaning e 2 ieee_arith ieee_sqrt x [a; v] = ieee_add e a (g v)) ->
  Forall (lane e) l -> zlen d = p_width l0 -> Forall (fun v => lane e v /\ g v = 0) d -> zlen l * p_size l0 <= isize_max -> (length l < fuel)%nat ->
  (forall a v, zlen a = p_width l0 -> zlen v = p_width l0 -> Forall (lane e) a -> Forall (lane e) v -> run fs tie ieee_arith ieee_sqrt narrow e 2 x [a; v] = Some (Ok (func a v))) ->
  Forall (fun v => is_finite f (g v) /\ (fone f | fvalue f (g v))) l -> magnitudes f (map g l) < parts f * fone f ->
  exists acc s r, simd_reduce (slice_iterator c (vty_of l0)) fuel (simd_iter l d) zero func = Ok (acc, s) /\
    sum_in fs ieee_add c (p_vec l0) acc = Some (Ok r) /\ finite_lane e r /\ fvalue f r = exact_sum f (map g l).
Proof. exact c91_whole_sum. Qed.
Print Assumptions C91_whole_sum.

(** examples/main.rs:34-35: [simd_iter(0.0).simd_reduce(0.0, |a, v| a + v.abs().sqrt().sqrt()
    .floor()).sum()] on a slice of finite floats returns, in every build, exactly the sum of
    the whole parts of the rounded fourth roots, if that is less than 2^24 (f32) or 2^53 (f64). *)
Theorem C91_fourth_roots : forall (fs : features) (c : config) (tie : bool) (narrow : Z -> Z) (e : elty) (l : list Z) (l0 : packed_line) (func : list Z -> list Z -> list Z) (fuel : nat),
  let f := fmt_of e in let zero := splat (p_width l0) 0 in let whole x := fvalue f (f_sqrt f (f_sqrt f (x mod 2 ^ (bits_of e - 1)))) / fone f in
  target fs -> e = EF32 \/ e = EF64 -> natural fs (el_name e ++ "s") = [l0] -> Forall (finite_lane e) l -> zlen l * p_size l0 <= isize_max -> (length l < fuel)%nat ->
  (forall a v, zlen a = p_width l0 -> zlen v = p_width l0 -> Forall (lane e) a -> Forall (lane e) v -> run fs tie ieee_arith ieee_sqrt narrow e 2 add_fourth_root [a; v] = Some (Ok (func a v))) ->
  total (map whole l) < parts f ->
  exists acc s r, simd_reduce (slice_iterator c (vty_of l0)) fuel (simd_iter l zero) zero func = Ok (acc, s) /\
    sum_in fs ieee_add c (p_vec l0) acc = Some (Ok r) /\ finite_lane e r /\ fvalue f r = fone f * total (map whole l).
Proof. exact c91_fourth_roots. Qed.
Print Assumptions C91_fourth_roots.

(** A target with AVX2. *)
Definition haswell : features := fun s => existsb (String.eqb s) ["sse"; "sse2"; "sse3"; "ssse3"; "sse4.1"; "sse4.2"; "avx"; "avx2"]%string.

(** -123.456, 1.5 and 1e20, with 128-bit registers and no feature, and with AVX2; RSQRTPS is
    taken to be correctly rounded. *)
Example C91_threes_case : let c := mkConfig Debug true in let l := [3270961529; 1069547520; 1621981420; 3270961529; 1069547520] in
  let collect fs := match natural_of fs EF32 with
    | Some n => match scalar_collect c (map_iterator c (slice_iterator c (vty_of n)) (vty_of n) 0 (fun (u : unit) v => (match threes_in fs true (f_recip fmt32) (f_rsqrt fmt32) (fun z => z) v with Some (Ok r) => r | _ => [] end, u))) 0 30 (mkSIMDMap (simd_iter l (splat (p_width n) 0)) tt) with
                | Ok (out, _) => Some out | _ => None end
    | None => None end in
  Forall (fun x => is_finite fmt32 x /\ 10015 * fone fmt32 <= 10000 * Z.abs (fvalue fmt32 x)) l /\
  collect (fun _ => false) = Some (repeat (Some 1077936128) 5) /\ collect haswell = Some (repeat (Some 1077936128) 5) /\ map threes_scalar l = repeat 1077936128 5.
Proof. cbv zeta. split; [repeat constructor; vm_compute; discriminate|]. repeat split; vm_compute; reflexivity. Qed.

(** -1.0, 16.0, 17.0, 81.5 and 0.5: 1 + 2 + 2 + 3 + 0 = 8. *)
Example C91_fourth_roots_case : let c := mkConfig Release true in let l := [3212836864; 1098907648; 1099431936; 1117978624; 1056964608] in
  let fold fs := match natural_of fs EF32 with
    | Some n => match simd_reduce (slice_iterator c (vty_of n)) 30 (simd_iter l (splat (p_width n) 0)) (splat (p_width n) 0) (fun a v => match run fs true ieee_arith ieee_sqrt (fun z => z) EF32 2 add_fourth_root [a; v] with Some (Ok r) => r | _ => [] end) with
                | Ok (acc, _) => sum_in fs ieee_add c (p_vec n) acc | _ => None end
    | None => None end in
  map (fun x => fvalue fmt32 (f_sqrt fmt32 (f_sqrt fmt32 (x mod 2 ^ 31))) / fone fmt32) l = [1; 2; 2; 3; 0] /\ fvalue fmt32 1090519040 = fone fmt32 * 8 /\
  fold (fun _ => false) = Some (Ok 1090519040) /\ fold haswell = Some (Ok 1090519040).
Proof. cbv zeta. repeat split; vm_compute; reflexivity. Qed.
