(** Properties: kernels that compute in f64 on slices of f32 or i32 (C98). *)
From Coq Require Import String.
From Verif Require Import Base Spec VecSpec Vecs Iters Zip ZipSpec Stride GateTables GateSpec Gates Floats FloatSpec Lanes OpTables Ops OpSpec PortTables Ports PortSpec PipeSpec AvailSpec Builds ExprSpec Exprs Widens Arith ArithSpec Demos OverflowSpec Portables WidePorts DoubleSpec Doubles.
Open Scope list_scope.
Open Scope Z_scope.
From Verif Require Import DoubleProofs.

(** One call of the closure [|v| { let (a, b) = v.upcast(); f(a).saturating_downcast(f(b)) }]
    on vectors of [f32] or [i32], with [f] on vectors of [f64], on every x86 target: every
    lane of the result is the [f32] that the scalar program [f(x as f64) as f32] returns, in
    the order of the lanes. *)
Theorem C98_vector : forall (fs : features) (tie : bool) (fop : arith -> elty -> Z -> Z -> Z) (fsqrt : elty -> Z -> Z) (narrow : Z -> Z) (e : elty) (x : expr) (args : list (list Z)) (l0 : packed_line),
  target fs -> In e doubles ->
  (forall o e u v, e = EF32 \/ e = EF64 -> lane e u -> lane e v -> lane e (fop o e u v)) -> (forall e u, e = EF32 \/ e = EF64 -> lane e u -> lane e (fsqrt e u)) ->
  type_of EF64 (length args) x = Some EF64 -> natural fs (el_name e ++ "s") = [l0] ->
  args <> [] -> Forall (fun v => zlen v = p_width l0 /\ Forall (lane e) v) args ->
  exists r, doubled_in fs tie fop fsqrt narrow e x args = Some (Ok r) /\ zlen r = p_width l0 /\
    forall k env, column args k env -> znth r k = Some (narrow (meaning EF64 (length args) fop fsqrt x (map (as_f64 e) env))).
Proof. exact c98_vector. Qed.
Print Assumptions C98_vector.

(** The same on the portable back-end.  The closure may reinterpret lanes as integers; in a
    debug build it panics if an integer operation overflows. *)
Theorem C98_vector_portable : forall (fs : features) (c : config) (tie : bool) (fop : arith -> elty -> Z -> Z -> Z) (fsqrt : elty -> Z -> Z) (narrow : Z -> Z) (e : elty) (x : expr) (args : list (list Z)) (l0 : packed_line),
  fs "undefined"%string = false -> In e doubles ->
  (forall o e u v, e = EF32 \/ e = EF64 -> lane e u -> lane e v -> lane e (fop o e u v)) -> (forall e u, e = EF32 \/ e = EF64 -> lane e u -> lane e (fsqrt e u)) ->
  type_of EF64 (length args) x = Some EF64 -> portable_natural fs (el_name e ++ "s") = [l0] ->
  args <> [] -> Forall (fun v => zlen v = p_width l0 /\ Forall (lane e) v) args ->
  build c = Release \/ (forall k env, column args k env -> overflows EF64 (length args) fop fsqrt x (map (as_f64 e) env) = false) ->
  exists r, portable_doubled fs tie fop fsqrt narrow c e x args = Some (Ok r) /\ zlen r = p_width l0 /\
    forall k env, column args k env -> znth r k = Some (narrow (meaning EF64 (length args) fop fsqrt x (map (as_f64 e) env))).
Proof. exact c98_vector_portable. Qed.
Print Assumptions C98_vector_portable.

(** C98: [s.simd_iter(d).simd_map(|v| { let (a, b) = v.upcast(); f(a).saturating_downcast(f(b)) })
    .scalar_collect()] for a slice of [f32] or [i32] and [f] on vectors of [f64]: the
    collected scalars are [f(x as f64) as f32] for the elements in order. *)
Theorem C98_map : forall (fs : features) (c : config) (tie : bool) (fop : arith -> elty -> Z -> Z -> Z) (fsqrt : elty -> Z -> Z) (narrow : Z -> Z) (e : elty) (x : expr) (l d : list Z) (l0 l1 : packed_line)
    (E : Type) (func : E -> list Z -> list Z * E) (env : E) (fuel : nat),
  target fs -> In e doubles ->
  (forall o e u v, e = EF32 \/ e = EF64 -> lane e u -> lane e v -> lane e (fop o e u v)) -> (forall e u, e = EF32 \/ e = EF64 -> lane e u -> lane e (fsqrt e u)) ->
  type_of EF64 1 x = Some EF64 -> natural fs (el_name e ++ "s") = [l0] -> natural fs (el_name EF32 ++ "s") = [l1] ->
  Forall (lane e) l -> zlen d = p_width l0 -> Forall (lane e) d -> zlen l * p_size l0 + 32 <= isize_max -> (length l < fuel)%nat ->
  (forall e' v r, zlen v = p_width l0 -> Forall (lane e) v -> doubled_in fs tie fop fsqrt narrow e x [v] = Some (Ok r) -> fst (func e' v) = r) ->
  exists s', scalar_collect c (map_iterator c (slice_iterator c (vty_of l0)) (vty_of l1) 0 func) 0 fuel (mkSIMDMap (simd_iter l d) env) =
    Ok (map (fun a => Some (narrow (meaning EF64 1 fop fsqrt x [as_f64 e a]))) l, s').
Proof. exact c98_map. Qed.
Print Assumptions C98_map.

(** C98: the same for any number of zipped slices. *)
Theorem C98_zip : forall (fs : features) (c : config) (tie : bool) (fop : arith -> elty -> Z -> Z -> Z) (fsqrt : elty -> Z -> Z) (narrow : Z -> Z) (e : elty) (x : expr) (n : nat) (ls ds : list (list Z)) (N : Z) (l0 l1 : packed_line)
    (E : Type) (func : E -> tuple (list Z) (S n) -> list Z * E) (env : E) (tp : tuple (SIMDIter Z (list Z)) (S n)) (fuel : nat),
  target fs -> In e doubles ->
  (forall o e u v, e = EF32 \/ e = EF64 -> lane e u -> lane e v -> lane e (fop o e u v)) -> (forall e u, e = EF32 \/ e = EF64 -> lane e u -> lane e (fsqrt e u)) ->
  type_of EF64 (S (S n)) x = Some EF64 -> natural fs (el_name e ++ "s") = [l0] -> natural fs (el_name EF32 ++ "s") = [l1] ->
  Forall (fun l => zlen l = N /\ Forall (lane e) l) ls -> Forall (fun d => zlen d = p_width l0 /\ Forall (lane e) d) ds -> length ls = length ds ->
  PipeSpec.items (S n) tp = map2 simd_iter ls ds -> N * p_size l0 + 32 <= isize_max -> N < Z.of_nat fuel ->
  (forall e' t r, Forall (fun v => zlen v = p_width l0 /\ Forall (lane e) v) (PipeSpec.items (S n) t) -> doubled_in fs tie fop fsqrt narrow e x (PipeSpec.items (S n) t) = Some (Ok r) -> fst (func e' t) = r) ->
  let rest := rest_many (blanket_unsafe c (si_array (slice_array c (vty_of l0))) (si_iterable c (slice_array c (vty_of l0)))) n in
  let m := zipmap_iterator c (zip_iterator (slice_iterator c (vty_of l0)) rest) (vty_of l1) 0 func in
  zip (slice_iterator c (vty_of l0)) rest tp = Ok tp /\
  exists out s', scalar_collect c m 0 fuel (mkSIMDMap tp env) = Ok (map Some out, s') /\
    zlen out = N /\ forall k r, column ls k r -> znth out k = Some (narrow (meaning EF64 (S (S n)) fop fsqrt x (map (as_f64 e) r))).
Proof. exact c98_zip. Qed.
Print Assumptions C98_zip.

(** C98: the same for the strides of a slice. *)
Theorem C98_strides : forall (fs : features) (c : config) (tie : bool) (fop : arith -> elty -> Z -> Z -> Z) (fsqrt : elty -> Z -> Z) (narrow : Z -> Z) (e : elty) (x : expr) (n : nat) (l : list Z) (ds : list (list Z)) (x0 : Z) (l0 l1 : packed_line)
    (E : Type) (func : E -> tuple (list Z) (S n) -> list Z * E) (env : E) (fuel : nat),
  let count := Z.of_nat n + 2 in
  target fs -> In e doubles ->
  (forall o e u v, e = EF32 \/ e = EF64 -> lane e u -> lane e v -> lane e (fop o e u v)) -> (forall e u, e = EF32 \/ e = EF64 -> lane e u -> lane e (fsqrt e u)) ->
  type_of EF64 (S (S n)) x = Some EF64 -> natural fs (el_name e ++ "s") = [l0] -> natural fs (el_name EF32 ++ "s") = [l1] ->
  Forall (lane e) l -> zlen l * p_size l0 <= isize_max -> count * 33 <= 2 ^ 63 -> zlen ds = count -> Forall (fun d => zlen d = p_width l0 /\ Forall (lane e) d) ds -> (length l < fuel)%nat ->
  (forall e' t r, Forall (fun v => zlen v = p_width l0 /\ Forall (lane e) v) (PipeSpec.items (S n) t) -> doubled_in fs tie fop fsqrt narrow e x (PipeSpec.items (S n) t) = Some (Ok r) -> fst (func e' t) = r) ->
  let it := stride_iterator c (slice_array c (vty_of l0)) x0 in
  let rest := rest_many (blanket_unsafe c (ps_array c (slice_array c (vty_of l0)) x0) (ps_iterable c (slice_array c (vty_of l0)) x0)) n in
  let m := zipmap_iterator c (zip_iterator it rest) (vty_of l1) 0 func in
  exists tp : tuple (PackedStride Z (list Z)) (S n), stride l count ds = Ok (PipeSpec.items (S n) tp) /\ zip it rest tp = Ok tp /\
  exists out s', scalar_collect c m 0 fuel (mkSIMDMap tp env) = Ok (map Some out, s') /\
    zlen out = zlen l / count /\ forall k, 0 <= k < zlen out -> znth out k = Some (narrow (meaning EF64 (S (S n)) fop fsqrt x (map (as_f64 e) (sub l (count * k) count)))).
Proof. exact c98_strides. Qed.
Print Assumptions C98_strides.

(** C98: [s.simd_iter(d).simd_map(|v| { let (a, b) = v.upcast(); f(a).saturating_downcast(f(b)) })
    .scalar_collect()] for a slice of [f32] or [i32] and [f] on vectors of [f64], on the portable back-end: the
    collected scalars are [f(x as f64) as f32] for the elements in order. *)
Theorem C98_map_portable : forall (fs : features) (c : config) (tie : bool) (fop : arith -> elty -> Z -> Z -> Z) (fsqrt : elty -> Z -> Z) (narrow : Z -> Z) (e : elty) (x : expr) (l d : list Z) (l0 l1 : packed_line)
    (E : Type) (func : E -> list Z -> list Z * E) (env : E) (fuel : nat),
  fs "undefined"%string = false -> In e doubles ->
  (forall o e u v, e = EF32 \/ e = EF64 -> lane e u -> lane e v -> lane e (fop o e u v)) -> (forall e u, e = EF32 \/ e = EF64 -> lane e u -> lane e (fsqrt e u)) ->
  type_of EF64 1 x = Some EF64 -> build c = Release \/ (forall row, length row = 1%nat -> Forall (lane e) row -> overflows EF64 1 fop fsqrt x (map (as_f64 e) row) = false) -> portable_natural fs (el_name e ++ "s") = [l0] -> portable_natural fs (el_name EF32 ++ "s") = [l1] ->
  Forall (lane e) l -> zlen d = p_width l0 -> Forall (lane e) d -> zlen l * p_size l0 + 16 <= isize_max -> (length l < fuel)%nat ->
  (forall e' v r, zlen v = p_width l0 -> Forall (lane e) v -> portable_doubled fs tie fop fsqrt narrow c e x [v] = Some (Ok r) -> fst (func e' v) = r) ->
  exists s', scalar_collect c (map_iterator c (slice_iterator c (vty_of l0)) (vty_of l1) 0 func) 0 fuel (mkSIMDMap (simd_iter l d) env) =
    Ok (map (fun a => Some (narrow (meaning EF64 1 fop fsqrt x [as_f64 e a]))) l, s').
Proof. exact c98_map_portable. Qed.
Print Assumptions C98_map_portable.

(** C98: the same for any number of zipped slices, on the portable back-end. *)
Theorem C98_zip_portable : forall (fs : features) (c : config) (tie : bool) (fop : arith -> elty -> Z -> Z -> Z) (fsqrt : elty -> Z -> Z) (narrow : Z -> Z) (e : elty) (x : expr) (n : nat) (ls ds : list (list Z)) (N : Z) (l0 l1 : packed_line)
    (E : Type) (func : E -> tuple (list Z) (S n) -> list Z * E) (env : E) (tp : tuple (SIMDIter Z (list Z)) (S n)) (fuel : nat),
  fs "undefined"%string = false -> In e doubles ->
  (forall o e u v, e = EF32 \/ e = EF64 -> lane e u -> lane e v -> lane e (fop o e u v)) -> (forall e u, e = EF32 \/ e = EF64 -> lane e u -> lane e (fsqrt e u)) ->
  type_of EF64 (S (S n)) x = Some EF64 -> build c = Release \/ (forall row, length row = S (S n) -> Forall (lane e) row -> overflows EF64 (S (S n)) fop fsqrt x (map (as_f64 e) row) = false) -> portable_natural fs (el_name e ++ "s") = [l0] -> portable_natural fs (el_name EF32 ++ "s") = [l1] ->
  Forall (fun l => zlen l = N /\ Forall (lane e) l) ls -> Forall (fun d => zlen d = p_width l0 /\ Forall (lane e) d) ds -> length ls = length ds ->
  PipeSpec.items (S n) tp = map2 simd_iter ls ds -> N * p_size l0 + 16 <= isize_max -> N < Z.of_nat fuel ->
  (forall e' t r, Forall (fun v => zlen v = p_width l0 /\ Forall (lane e) v) (PipeSpec.items (S n) t) -> portable_doubled fs tie fop fsqrt narrow c e x (PipeSpec.items (S n) t) = Some (Ok r) -> fst (func e' t) = r) ->
  let rest := rest_many (blanket_unsafe c (si_array (slice_array c (vty_of l0))) (si_iterable c (slice_array c (vty_of l0)))) n in
  let m := zipmap_iterator c (zip_iterator (slice_iterator c (vty_of l0)) rest) (vty_of l1) 0 func in
  zip (slice_iterator c (vty_of l0)) rest tp = Ok tp /\
  exists out s', scalar_collect c m 0 fuel (mkSIMDMap tp env) = Ok (map Some out, s') /\
    zlen out = N /\ forall k r, column ls k r -> znth out k = Some (narrow (meaning EF64 (S (S n)) fop fsqrt x (map (as_f64 e) r))).
Proof. exact c98_zip_portable. Qed.
Print Assumptions C98_zip_portable.

(** C98: the same for the strides of a slice, on the portable back-end. *)
Theorem C98_strides_portable : forall (fs : features) (c : config) (tie : bool) (fop : arith -> elty -> Z -> Z -> Z) (fsqrt : elty -> Z -> Z) (narrow : Z -> Z) (e : elty) (x : expr) (n : nat) (l : list Z) (ds : list (list Z)) (x0 : Z) (l0 l1 : packed_line)
    (E : Type) (func : E -> tuple (list Z) (S n) -> list Z * E) (env : E) (fuel : nat),
  let count := Z.of_nat n + 2 in
  fs "undefined"%string = false -> In e doubles ->
  (forall o e u v, e = EF32 \/ e = EF64 -> lane e u -> lane e v -> lane e (fop o e u v)) -> (forall e u, e = EF32 \/ e = EF64 -> lane e u -> lane e (fsqrt e u)) ->
  type_of EF64 (S (S n)) x = Some EF64 -> build c = Release \/ (forall row, length row = S (S n) -> Forall (lane e) row -> overflows EF64 (S (S n)) fop fsqrt x (map (as_f64 e) row) = false) -> portable_natural fs (el_name e ++ "s") = [l0] -> portable_natural fs (el_name EF32 ++ "s") = [l1] ->
  Forall (lane e) l -> zlen l * p_size l0 <= isize_max -> count * 33 <= 2 ^ 63 -> zlen ds = count -> Forall (fun d => zlen d = p_width l0 /\ Forall (lane e) d) ds -> (length l < fuel)%nat ->
  (forall e' t r, Forall (fun v => zlen v = p_width l0 /\ Forall (lane e) v) (PipeSpec.items (S n) t) -> portable_doubled fs tie fop fsqrt narrow c e x (PipeSpec.items (S n) t) = Some (Ok r) -> fst (func e' t) = r) ->
  let it := stride_iterator c (slice_array c (vty_of l0)) x0 in
  let rest := rest_many (blanket_unsafe c (ps_array c (slice_array c (vty_of l0)) x0) (ps_iterable c (slice_array c (vty_of l0)) x0)) n in
  let m := zipmap_iterator c (zip_iterator it rest) (vty_of l1) 0 func in
  exists tp : tuple (PackedStride Z (list Z)) (S n), stride l count ds = Ok (PipeSpec.items (S n) tp) /\ zip it rest tp = Ok tp /\
  exists out s', scalar_collect c m 0 fuel (mkSIMDMap tp env) = Ok (map Some out, s') /\
    zlen out = zlen l / count /\ forall k, 0 <= k < zlen out -> znth out k = Some (narrow (meaning EF64 (S (S n)) fop fsqrt x (map (as_f64 e) (sub l (count * k) count)))).
Proof. exact c98_strides_portable. Qed.
Print Assumptions C98_strides_portable.

(** [x * y] of two [f32], computed in [f64] and narrowed, is correctly rounded: the product is
    exact in [f64], so there is no double rounding. *)
Theorem C98_product : forall a b : Z, f_pattern fmt32 a -> f_pattern fmt32 b ->
  product_result fmt32 a b (f_narrow (meaning EF64 2 ieee_arith ieee_sqrt (Arith Mul (Arg 0) (Arg 1)) (map (as_f64 EF32) [a; b]))).
Proof. exact c98_product. Qed.
Print Assumptions C98_product.

(** Sums and differences of [i32], computed in [f64] and narrowed, do not overflow and are the
    [f32] nearest to the exact result ([fone] is the number 1.0 in the units of [fvalue]). *)
Theorem C98_int_sum : forall a b : Z, in_ity i32 a -> in_ity i32 b ->
  let computed o := f_narrow (meaning EF64 2 ieee_arith ieee_sqrt (Arith o (Arg 0) (Arg 1)) (map (as_f64 (EInt i32)) [a; b])) in
  nearest_to fmt32 ((a + b) * fone fmt32) 1 (computed Add) /\ nearest_to fmt32 ((a - b) * fone fmt32) 1 (computed Sub).
Proof. exact c98_int_sum. Qed.
Print Assumptions C98_int_sum.

(** Non-vacuity: products of [f32] (1.5 * 0.1, infinity * 0) with SSE2 and a sum of [i32] on a
    portable target. *)
Example C98_vector_case : let product := Arith Mul (Arg 0) (Arg 1) in let sum := Arith Add (Arg 0) (Arg 1) in
  let sse2 : features := fun s => (String.eqb s "sse" || String.eqb s "sse2")%bool in
  type_of EF64 2 product = Some EF64 /\ type_of EF64 2 sum = Some EF64 /\
  doubled_in sse2 true ieee_arith ieee_sqrt f_narrow EF32 product [[1069547520; 2139095040; 2139095040; 2139095041]; [1036831949; 0; 1065353216; 0]] = Some (Ok [1041865114; 4290772992; 2139095040; 2143289345]) /\
  portable_doubled (fun _ => false) true (fun _ _ x y => x + y) ieee_sqrt (fun z => z / 2 ^ 29) (mkConfig Debug true) (EInt i32) sum [[1; -1; 4; 0]; [0; 0; 0; 0]] = Some (Ok [8581545984; 25761415168; 8598323200; 0]).
Proof. cbv zeta. split; [reflexivity|]. split; [reflexivity|]. split; vm_compute; reflexivity. Qed.

(** The absolute values of ten [f32] with AVX2. *)
Example C98_map_case : let x := Abs (Arg 0) in let fs : features := fun s => existsb (String.eqb s) ["avx2"; "avx"; "sse4.2"; "sse4.1"; "ssse3"; "sse3"; "sse2"; "sse"]%string in let c := mkConfig Debug true in
  let func := fun (e : unit) v => (match doubled_in fs true ieee_arith ieee_sqrt (fun z => z / 2 ^ 52 - 1023) EF32 x [v] with Some (Ok r) => r | _ => [] end, e) in
  type_of EF64 1 x = Some EF64 /\ exists l0, natural fs "f32s" = [l0] /\ exists s', scalar_collect c (map_iterator c (slice_iterator c (vty_of l0)) (vty_of l0) 0 func) 0 20
    (mkSIMDMap (simd_iter [3212836864; 1065353216; 1073741824; 1077936128; 1082130432; 1084227584; 1086324736; 1088421888; 1090519040; 3221225472] (splat 8 1065353216)) tt) =
    Ok (map Some [0; 0; 1; 1; 2; 2; 2; 2; 3; 1], s').
Proof. cbv zeta. split; [reflexivity|]. eexists. split; [vm_compute; reflexivity|]. eexists. vm_compute. reflexivity. Qed.
