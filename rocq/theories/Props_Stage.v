(** Properties: kernels in three stages, of which the middle one computes in f64 (C99). *)
From Coq Require Import String.
From Verif Require Import Base Spec VecSpec Vecs Iters Zip ZipSpec Stride GateTables GateSpec Gates Floats FloatSpec Lanes OpTables Ops OpSpec PortTables Ports PortSpec PipeSpec AvailSpec Builds ExprSpec Exprs Widens Arith ArithSpec Demos OverflowSpec Portables WidePorts DoubleSpec Doubles StageSpec Stages.
Open Scope list_scope.
Open Scope Z_scope.
From Verif Require Import StageProofs.

(** C99: a closure [q(x(p0(u, v, ..), p1(u, v, ..), ..))] on vectors, where the [p]
    compute on vectors of the slices' element type, [x] on the halves widened to [f64] and
    [q] on the vector narrowed to [f32]: it compiles, does not panic, and every lane is the
    result of the stages on the scalars of that lane. *)
Theorem C99_vector : forall (fs : features) (c : config) (tie : bool) (fop : arith -> elty -> Z -> Z -> Z) (fsqrt : elty -> Z -> Z) (narrow : Z -> Z) (e0 e e1 : elty) (ps : list expr) (x q : expr) (args : list (list Z)) (l0 l1 : packed_line),
  target fs -> In e0 primitives -> In e doubles ->
  (forall o e u v, e = EF32 \/ e = EF64 -> lane e u -> lane e v -> lane e (fop o e u v)) -> (forall e u, e = EF32 \/ e = EF64 -> lane e u -> lane e (fsqrt e u)) ->
  (forall u, lane EF64 u -> lane EF32 (narrow u)) ->
  ps <> [] -> Forall (fun p => type_of e0 (length args) p = Some e) ps -> type_of EF64 (length ps) x = Some EF64 -> type_of EF32 1 q = Some e1 ->
  natural fs (el_name e0 ++ "s") = [l0] -> natural fs (el_name e1 ++ "s") = [l1] ->
  args <> [] -> Forall (fun v => zlen v = p_width l0 /\ Forall (lane e0) v) args ->
  exists r, mixed_in fs tie fop fsqrt narrow e0 e ps x q args = Some (Ok r) /\ zlen r = p_width l1 /\ Forall (lane e1) r /\
    forall k env, column args k env -> znth r k = Some (staged fop fsqrt narrow e0 e (length args) ps x q env).
Proof. exact c99_vector. Qed.
Print Assumptions C99_vector.

(** C99: [s.simd_iter(d).simd_map(|v| ..).scalar_collect()] with such a closure: the collected scalars are the results of the stages on the
    elements in order. *)
Theorem C99_map : forall (fs : features) (c : config) (tie : bool) (fop : arith -> elty -> Z -> Z -> Z) (fsqrt : elty -> Z -> Z) (narrow : Z -> Z) (e0 e e1 : elty) (ps : list expr) (x q : expr) (l d : list Z) (l0 l1 : packed_line)
    (E : Type) (func : E -> list Z -> list Z * E) (env : E) (fuel : nat),
  target fs -> In e0 primitives -> In e doubles ->
  (forall o e u v, e = EF32 \/ e = EF64 -> lane e u -> lane e v -> lane e (fop o e u v)) -> (forall e u, e = EF32 \/ e = EF64 -> lane e u -> lane e (fsqrt e u)) ->
  (forall u, lane EF64 u -> lane EF32 (narrow u)) ->
  ps <> [] -> Forall (fun p => type_of e0 1 p = Some e) ps -> type_of EF64 (length ps) x = Some EF64 -> type_of EF32 1 q = Some e1 ->
  natural fs (el_name e0 ++ "s") = [l0] -> natural fs (el_name e1 ++ "s") = [l1] ->
  Forall (lane e0) l -> zlen d = p_width l0 -> Forall (lane e0) d -> zlen l * p_size l0 + 32 <= isize_max -> (length l < fuel)%nat ->
  (forall e' v r, zlen v = p_width l0 -> Forall (lane e0) v -> mixed_in fs tie fop fsqrt narrow e0 e ps x q [v] = Some (Ok r) -> fst (func e' v) = r) ->
  exists s', scalar_collect c (map_iterator c (slice_iterator c (vty_of l0)) (vty_of l1) 0 func) 0 fuel (mkSIMDMap (simd_iter l d) env) =
    Ok (map (fun a => Some (staged fop fsqrt narrow e0 e 1 ps x q [a])) l, s').
Proof. exact c99_map. Qed.
Print Assumptions C99_map.

(** C99: the same for [scalar_fill] into a buffer that is long enough: the results in
    order, and the rest of the buffer unchanged. *)
Theorem C99_fill : forall (fs : features) (c : config) (tie : bool) (fop : arith -> elty -> Z -> Z -> Z) (fsqrt : elty -> Z -> Z) (narrow : Z -> Z) (e0 e e1 : elty) (ps : list expr) (x q : expr) (l d : list Z) (l0 l1 : packed_line)
    (E : Type) (func : E -> list Z -> list Z * E) (env : E) (buf : list Z) (fuel : nat),
  target fs -> In e0 primitives -> In e doubles ->
  (forall o e u v, e = EF32 \/ e = EF64 -> lane e u -> lane e v -> lane e (fop o e u v)) -> (forall e u, e = EF32 \/ e = EF64 -> lane e u -> lane e (fsqrt e u)) ->
  (forall u, lane EF64 u -> lane EF32 (narrow u)) ->
  ps <> [] -> Forall (fun p => type_of e0 1 p = Some e) ps -> type_of EF64 (length ps) x = Some EF64 -> type_of EF32 1 q = Some e1 ->
  natural fs (el_name e0 ++ "s") = [l0] -> natural fs (el_name e1 ++ "s") = [l1] ->
  Forall (lane e0) l -> zlen d = p_width l0 -> Forall (lane e0) d -> zlen l * p_size l0 + 32 <= isize_max -> (length l < fuel)%nat -> zlen l <= zlen buf ->
  (forall e' v r, zlen v = p_width l0 -> Forall (lane e0) v -> mixed_in fs tie fop fsqrt narrow e0 e ps x q [v] = Some (Ok r) -> fst (func e' v) = r) ->
  exists s', scalar_fill c (map_iterator c (slice_iterator c (vty_of l0)) (vty_of l1) 0 func) 0 fuel (mkSIMDMap (simd_iter l d) env) buf =
    Ok (map (fun a => staged fop fsqrt narrow e0 e 1 ps x q [a]) l ++ skipn (length l) buf, s').
Proof. exact c99_fill. Qed.
Print Assumptions C99_fill.

(** C99: the same for any number of zipped slices. *)
Theorem C99_zip : forall (fs : features) (c : config) (tie : bool) (fop : arith -> elty -> Z -> Z -> Z) (fsqrt : elty -> Z -> Z) (narrow : Z -> Z) (e0 e e1 : elty) (ps : list expr) (x q : expr) (n : nat) (ls ds : list (list Z)) (N : Z) (l0 l1 : packed_line)
    (E : Type) (func : E -> tuple (list Z) (S n) -> list Z * E) (env : E) (tp : tuple (SIMDIter Z (list Z)) (S n)) (fuel : nat),
  target fs -> In e0 primitives -> In e doubles ->
  (forall o e u v, e = EF32 \/ e = EF64 -> lane e u -> lane e v -> lane e (fop o e u v)) -> (forall e u, e = EF32 \/ e = EF64 -> lane e u -> lane e (fsqrt e u)) ->
  (forall u, lane EF64 u -> lane EF32 (narrow u)) ->
  ps <> [] -> Forall (fun p => type_of e0 (S (S n)) p = Some e) ps -> type_of EF64 (length ps) x = Some EF64 -> type_of EF32 1 q = Some e1 ->
  natural fs (el_name e0 ++ "s") = [l0] -> natural fs (el_name e1 ++ "s") = [l1] ->
  Forall (fun l => zlen l = N /\ Forall (lane e0) l) ls -> Forall (fun d => zlen d = p_width l0 /\ Forall (lane e0) d) ds -> length ls = length ds ->
  PipeSpec.items (S n) tp = map2 simd_iter ls ds -> N * p_size l0 + 32 <= isize_max -> N < Z.of_nat fuel ->
  (forall e' t r, Forall (fun v => zlen v = p_width l0 /\ Forall (lane e0) v) (PipeSpec.items (S n) t) -> mixed_in fs tie fop fsqrt narrow e0 e ps x q (PipeSpec.items (S n) t) = Some (Ok r) -> fst (func e' t) = r) ->
  let rest := rest_many (blanket_unsafe c (si_array (slice_array c (vty_of l0))) (si_iterable c (slice_array c (vty_of l0)))) n in
  let m := zipmap_iterator c (zip_iterator (slice_iterator c (vty_of l0)) rest) (vty_of l1) 0 func in
  zip (slice_iterator c (vty_of l0)) rest tp = Ok tp /\
  exists out s', scalar_collect c m 0 fuel (mkSIMDMap tp env) = Ok (map Some out, s') /\
    zlen out = N /\ forall k r, column ls k r -> znth out k = Some (staged fop fsqrt narrow e0 e (S (S n)) ps x q r).
Proof. exact c99_zip. Qed.
Print Assumptions C99_zip.

(** C99: the same for the strides of a slice. *)
Theorem C99_strides : forall (fs : features) (c : config) (tie : bool) (fop : arith -> elty -> Z -> Z -> Z) (fsqrt : elty -> Z -> Z) (narrow : Z -> Z) (e0 e e1 : elty) (ps : list expr) (x q : expr) (n : nat) (l : list Z) (ds : list (list Z)) (x0 : Z) (l0 l1 : packed_line)
    (E : Type) (func : E -> tuple (list Z) (S n) -> list Z * E) (env : E) (fuel : nat),
  let count := Z.of_nat n + 2 in
  target fs -> In e0 primitives -> In e doubles ->
  (forall o e u v, e = EF32 \/ e = EF64 -> lane e u -> lane e v -> lane e (fop o e u v)) -> (forall e u, e = EF32 \/ e = EF64 -> lane e u -> lane e (fsqrt e u)) ->
  (forall u, lane EF64 u -> lane EF32 (narrow u)) ->
  ps <> [] -> Forall (fun p => type_of e0 (S (S n)) p = Some e) ps -> type_of EF64 (length ps) x = Some EF64 -> type_of EF32 1 q = Some e1 ->
  natural fs (el_name e0 ++ "s") = [l0] -> natural fs (el_name e1 ++ "s") = [l1] ->
  Forall (lane e0) l -> zlen l * p_size l0 <= isize_max -> count * 33 <= 2 ^ 63 -> zlen ds = count -> Forall (fun d => zlen d = p_width l0 /\ Forall (lane e0) d) ds -> (length l < fuel)%nat ->
  (forall e' t r, Forall (fun v => zlen v = p_width l0 /\ Forall (lane e0) v) (PipeSpec.items (S n) t) -> mixed_in fs tie fop fsqrt narrow e0 e ps x q (PipeSpec.items (S n) t) = Some (Ok r) -> fst (func e' t) = r) ->
  let it := stride_iterator c (slice_array c (vty_of l0)) x0 in
  let rest := rest_many (blanket_unsafe c (ps_array c (slice_array c (vty_of l0)) x0) (ps_iterable c (slice_array c (vty_of l0)) x0)) n in
  let m := zipmap_iterator c (zip_iterator it rest) (vty_of l1) 0 func in
  exists tp : tuple (PackedStride Z (list Z)) (S n), stride l count ds = Ok (PipeSpec.items (S n) tp) /\ zip it rest tp = Ok tp /\
  exists out s', scalar_collect c m 0 fuel (mkSIMDMap tp env) = Ok (map Some out, s') /\
    zlen out = zlen l / count /\ forall k, 0 <= k < zlen out -> znth out k = Some (staged fop fsqrt narrow e0 e (S (S n)) ps x q (sub l (count * k) count)).
Proof. exact c99_strides. Qed.
Print Assumptions C99_strides.

(** C99: a closure [q(x(p0(u, v, ..), p1(u, v, ..), ..))] on vectors, on the portable back-end, where the [p]
    compute on vectors of the slices' element type, [x] on the halves widened to [f64] and
    [q] on the vector narrowed to [f32]: it compiles, does not panic, and every lane is the
    result of the stages on the scalars of that lane. *)
Theorem C99_vector_portable : forall (fs : features) (c : config) (tie : bool) (fop : arith -> elty -> Z -> Z -> Z) (fsqrt : elty -> Z -> Z) (narrow : Z -> Z) (e0 e e1 : elty) (ps : list expr) (x q : expr) (args : list (list Z)) (l0 l1 : packed_line),
  fs "undefined"%string = false -> In e0 primitives -> In e doubles ->
  (forall o e u v, e = EF32 \/ e = EF64 -> lane e u -> lane e v -> lane e (fop o e u v)) -> (forall e u, e = EF32 \/ e = EF64 -> lane e u -> lane e (fsqrt e u)) ->
  (forall u, lane EF64 u -> lane EF32 (narrow u)) ->
  ps <> [] -> Forall (fun p => type_of e0 (length args) p = Some e) ps -> type_of EF64 (length ps) x = Some EF64 -> type_of EF32 1 q = Some e1 ->
  portable_natural fs (el_name e0 ++ "s") = [l0] -> portable_natural fs (el_name e1 ++ "s") = [l1] ->
  args <> [] -> Forall (fun v => zlen v = p_width l0 /\ Forall (lane e0) v) args ->
  build c = Release \/ (forall k env, column args k env -> staged_overflows fop fsqrt narrow e0 e (length args) ps x q env = false) ->
  exists r, portable_mixed fs tie fop fsqrt narrow c e0 e ps x q args = Some (Ok r) /\ zlen r = p_width l1 /\ Forall (lane e1) r /\
    forall k env, column args k env -> znth r k = Some (staged fop fsqrt narrow e0 e (length args) ps x q env).
Proof. exact c99_vector_portable. Qed.
Print Assumptions C99_vector_portable.

(** C99: [s.simd_iter(d).simd_map(|v| ..).scalar_collect()] with such a closure, on the portable back-end: the collected scalars are the results of the stages on the
    elements in order. *)
Theorem C99_map_portable : forall (fs : features) (c : config) (tie : bool) (fop : arith -> elty -> Z -> Z -> Z) (fsqrt : elty -> Z -> Z) (narrow : Z -> Z) (e0 e e1 : elty) (ps : list expr) (x q : expr) (l d : list Z) (l0 l1 : packed_line)
    (E : Type) (func : E -> list Z -> list Z * E) (env : E) (fuel : nat),
  fs "undefined"%string = false -> In e0 primitives -> In e doubles ->
  (forall o e u v, e = EF32 \/ e = EF64 -> lane e u -> lane e v -> lane e (fop o e u v)) -> (forall e u, e = EF32 \/ e = EF64 -> lane e u -> lane e (fsqrt e u)) ->
  (forall u, lane EF64 u -> lane EF32 (narrow u)) ->
  ps <> [] -> Forall (fun p => type_of e0 1 p = Some e) ps -> type_of EF64 (length ps) x = Some EF64 -> type_of EF32 1 q = Some e1 ->
  portable_natural fs (el_name e0 ++ "s") = [l0] -> portable_natural fs (el_name e1 ++ "s") = [l1] ->
  Forall (lane e0) l -> zlen d = p_width l0 -> Forall (lane e0) d -> zlen l * p_size l0 + 16 <= isize_max -> (length l < fuel)%nat ->
  build c = Release \/ (forall row, length row = 1%nat -> Forall (lane e0) row -> staged_overflows fop fsqrt narrow e0 e 1 ps x q row = false) ->
  (forall e' v r, zlen v = p_width l0 -> Forall (lane e0) v -> portable_mixed fs tie fop fsqrt narrow c e0 e ps x q [v] = Some (Ok r) -> fst (func e' v) = r) ->
  exists s', scalar_collect c (map_iterator c (slice_iterator c (vty_of l0)) (vty_of l1) 0 func) 0 fuel (mkSIMDMap (simd_iter l d) env) =
    Ok (map (fun a => Some (staged fop fsqrt narrow e0 e 1 ps x q [a])) l, s').
Proof. exact c99_map_portable. Qed.
Print Assumptions C99_map_portable.

(** C99: the same for [scalar_fill] into a buffer that is long enough, on the portable back-end: the results in
    order, and the rest of the buffer unchanged. *)
Theorem C99_fill_portable : forall (fs : features) (c : config) (tie : bool) (fop : arith -> elty -> Z -> Z -> Z) (fsqrt : elty -> Z -> Z) (narrow : Z -> Z) (e0 e e1 : elty) (ps : list expr) (x q : expr) (l d : list Z) (l0 l1 : packed_line)
    (E : Type) (func : E -> list Z -> list Z * E) (env : E) (buf : list Z) (fuel : nat),
  fs "undefined"%string = false -> In e0 primitives -> In e doubles ->
  (forall o e u v, e = EF32 \/ e = EF64 -> lane e u -> lane e v -> lane e (fop o e u v)) -> (forall e u, e = EF32 \/ e = EF64 -> lane e u -> lane e (fsqrt e u)) ->
  (forall u, lane EF64 u -> lane EF32 (narrow u)) ->
  ps <> [] -> Forall (fun p => type_of e0 1 p = Some e) ps -> type_of EF64 (length ps) x = Some EF64 -> type_of EF32 1 q = Some e1 ->
  portable_natural fs (el_name e0 ++ "s") = [l0] -> portable_natural fs (el_name e1 ++ "s") = [l1] ->
  Forall (lane e0) l -> zlen d = p_width l0 -> Forall (lane e0) d -> zlen l * p_size l0 + 16 <= isize_max -> (length l < fuel)%nat -> zlen l <= zlen buf ->
  build c = Release \/ (forall row, length row = 1%nat -> Forall (lane e0) row -> staged_overflows fop fsqrt narrow e0 e 1 ps x q row = false) ->
  (forall e' v r, zlen v = p_width l0 -> Forall (lane e0) v -> portable_mixed fs tie fop fsqrt narrow c e0 e ps x q [v] = Some (Ok r) -> fst (func e' v) = r) ->
  exists s', scalar_fill c (map_iterator c (slice_iterator c (vty_of l0)) (vty_of l1) 0 func) 0 fuel (mkSIMDMap (simd_iter l d) env) buf =
    Ok (map (fun a => staged fop fsqrt narrow e0 e 1 ps x q [a]) l ++ skipn (length l) buf, s').
Proof. exact c99_fill_portable. Qed.
Print Assumptions C99_fill_portable.

(** C99: the same for any number of zipped slices, on the portable back-end. *)
Theorem C99_zip_portable : forall (fs : features) (c : config) (tie : bool) (fop : arith -> elty -> Z -> Z -> Z) (fsqrt : elty -> Z -> Z) (narrow : Z -> Z) (e0 e e1 : elty) (ps : list expr) (x q : expr) (n : nat) (ls ds : list (list Z)) (N : Z) (l0 l1 : packed_line)
    (E : Type) (func : E -> tuple (list Z) (S n) -> list Z * E) (env : E) (tp : tuple (SIMDIter Z (list Z)) (S n)) (fuel : nat),
  fs "undefined"%string = false -> In e0 primitives -> In e doubles ->
  (forall o e u v, e = EF32 \/ e = EF64 -> lane e u -> lane e v -> lane e (fop o e u v)) -> (forall e u, e = EF32 \/ e = EF64 -> lane e u -> lane e (fsqrt e u)) ->
  (forall u, lane EF64 u -> lane EF32 (narrow u)) ->
  ps <> [] -> Forall (fun p => type_of e0 (S (S n)) p = Some e) ps -> type_of EF64 (length ps) x = Some EF64 -> type_of EF32 1 q = Some e1 ->
  portable_natural fs (el_name e0 ++ "s") = [l0] -> portable_natural fs (el_name e1 ++ "s") = [l1] ->
  Forall (fun l => zlen l = N /\ Forall (lane e0) l) ls -> Forall (fun d => zlen d = p_width l0 /\ Forall (lane e0) d) ds -> length ls = length ds ->
  PipeSpec.items (S n) tp = map2 simd_iter ls ds -> N * p_size l0 + 16 <= isize_max -> N < Z.of_nat fuel ->
  build c = Release \/ (forall row, length row = S (S n) -> Forall (lane e0) row -> staged_overflows fop fsqrt narrow e0 e (S (S n)) ps x q row = false) ->
  (forall e' t r, Forall (fun v => zlen v = p_width l0 /\ Forall (lane e0) v) (PipeSpec.items (S n) t) -> portable_mixed fs tie fop fsqrt narrow c e0 e ps x q (PipeSpec.items (S n) t) = Some (Ok r) -> fst (func e' t) = r) ->
  let rest := rest_many (blanket_unsafe c (si_array (slice_array c (vty_of l0))) (si_iterable c (slice_array c (vty_of l0)))) n in
  let m := zipmap_iterator c (zip_iterator (slice_iterator c (vty_of l0)) rest) (vty_of l1) 0 func in
  zip (slice_iterator c (vty_of l0)) rest tp = Ok tp /\
  exists out s', scalar_collect c m 0 fuel (mkSIMDMap tp env) = Ok (map Some out, s') /\
    zlen out = N /\ forall k r, column ls k r -> znth out k = Some (staged fop fsqrt narrow e0 e (S (S n)) ps x q r).
Proof. exact c99_zip_portable. Qed.
Print Assumptions C99_zip_portable.

(** C99: the same for the strides of a slice, on the portable back-end. *)
Theorem C99_strides_portable : forall (fs : features) (c : config) (tie : bool) (fop : arith -> elty -> Z -> Z -> Z) (fsqrt : elty -> Z -> Z) (narrow : Z -> Z) (e0 e e1 : elty) (ps : list expr) (x q : expr) (n : nat) (l : list Z) (ds : list (list Z)) (x0 : Z) (l0 l1 : packed_line)
    (E : Type) (func : E -> tuple (list Z) (S n) -> list Z * E) (env : E) (fuel : nat),
  let count := Z.of_nat n + 2 in
  fs "undefined"%string = false -> In e0 primitives -> In e doubles ->
  (forall o e u v, e = EF32 \/ e = EF64 -> lane e u -> lane e v -> lane e (fop o e u v)) -> (forall e u, e = EF32 \/ e = EF64 -> lane e u -> lane e (fsqrt e u)) ->
  (forall u, lane EF64 u -> lane EF32 (narrow u)) ->
  ps <> [] -> Forall (fun p => type_of e0 (S (S n)) p = Some e) ps -> type_of EF64 (length ps) x = Some EF64 -> type_of EF32 1 q = Some e1 ->
  portable_natural fs (el_name e0 ++ "s") = [l0] -> portable_natural fs (el_name e1 ++ "s") = [l1] ->
  Forall (lane e0) l -> zlen l * p_size l0 <= isize_max -> count * 33 <= 2 ^ 63 -> zlen ds = count -> Forall (fun d => zlen d = p_width l0 /\ Forall (lane e0) d) ds -> (length l < fuel)%nat ->
  build c = Release \/ (forall row, length row = S (S n) -> Forall (lane e0) row -> staged_overflows fop fsqrt narrow e0 e (S (S n)) ps x q row = false) ->
  (forall e' t r, Forall (fun v => zlen v = p_width l0 /\ Forall (lane e0) v) (PipeSpec.items (S n) t) -> portable_mixed fs tie fop fsqrt narrow c e0 e ps x q (PipeSpec.items (S n) t) = Some (Ok r) -> fst (func e' t) = r) ->
  let it := stride_iterator c (slice_array c (vty_of l0)) x0 in
  let rest := rest_many (blanket_unsafe c (ps_array c (slice_array c (vty_of l0)) x0) (ps_iterable c (slice_array c (vty_of l0)) x0)) n in
  let m := zipmap_iterator c (zip_iterator it rest) (vty_of l1) 0 func in
  exists tp : tuple (PackedStride Z (list Z)) (S n), stride l count ds = Ok (PipeSpec.items (S n) tp) /\ zip it rest tp = Ok tp /\
  exists out s', scalar_collect c m 0 fuel (mkSIMDMap tp env) = Ok (map Some out, s') /\
    zlen out = zlen l / count /\ forall k, 0 <= k < zlen out -> znth out k = Some (staged fop fsqrt narrow e0 e (S (S n)) ps x q (sub l (count * k) count)).
Proof. exact c99_strides_portable. Qed.
Print Assumptions C99_strides_portable.

(** C98: on the portable back-end, in a debug build, the closure of C98 panics if an integer
    operation of the scalar program overflows in one of the lanes. *)
Theorem C98_panic : forall (fs : features) (c : config) (tie : bool) (fop : arith -> elty -> Z -> Z -> Z) (fsqrt : elty -> Z -> Z) (narrow : Z -> Z) (e : elty) (x : expr) (args : list (list Z)) (l0 : packed_line) (k : Z) (env : list Z),
  fs "undefined"%string = false -> In e doubles ->
  (forall o e u v, e = EF32 \/ e = EF64 -> lane e u -> lane e v -> lane e (fop o e u v)) -> (forall e u, e = EF32 \/ e = EF64 -> lane e u -> lane e (fsqrt e u)) ->
  type_of EF64 (length args) x = Some EF64 -> portable_natural fs (el_name e ++ "s") = [l0] ->
  args <> [] -> Forall (fun v => zlen v = p_width l0 /\ Forall (lane e) v) args ->
  build c = Debug -> column args k env -> overflows EF64 (length args) fop fsqrt x (map (as_f64 e) env) = true ->
  portable_doubled fs tie fop fsqrt narrow c e x args = Some Panic.
Proof. exact c98_panic. Qed.
Print Assumptions C98_panic.

(** C99: on the portable back-end, in a debug build, the closure panics if an integer
    operation of one of the stages overflows in one of the lanes; so it panics exactly then. *)
Theorem C99_panic : forall (fs : features) (c : config) (tie : bool) (fop : arith -> elty -> Z -> Z -> Z) (fsqrt : elty -> Z -> Z) (narrow : Z -> Z) (e0 e e1 : elty) (ps : list expr) (x q : expr) (args : list (list Z)) (l0 l1 : packed_line) (k : Z) (env : list Z),
  fs "undefined"%string = false -> In e0 primitives -> In e doubles ->
  (forall o e u v, e = EF32 \/ e = EF64 -> lane e u -> lane e v -> lane e (fop o e u v)) -> (forall e u, e = EF32 \/ e = EF64 -> lane e u -> lane e (fsqrt e u)) ->
  (forall u, lane EF64 u -> lane EF32 (narrow u)) ->
  ps <> [] -> Forall (fun p => type_of e0 (length args) p = Some e) ps -> type_of EF64 (length ps) x = Some EF64 -> type_of EF32 1 q = Some e1 ->
  portable_natural fs (el_name e0 ++ "s") = [l0] -> portable_natural fs (el_name e1 ++ "s") = [l1] ->
  args <> [] -> Forall (fun v => zlen v = p_width l0 /\ Forall (lane e0) v) args ->
  build c = Debug -> column args k env -> staged_overflows fop fsqrt narrow e0 e (length args) ps x q env = true ->
  portable_mixed fs tie fop fsqrt narrow c e0 e ps x q args = Some Panic.
Proof. exact c99_panic. Qed.
Print Assumptions C99_panic.

(** C99: benches/usage.rs [high_latency] for every slice of [f32]: [v * 1.2], widened, square
    root, times pi, narrowed, written to the buffer by [scalar_fill].  The buffer holds the
    IEEE 754 result of these five operations for every element. *)
Theorem C99_high_latency : forall (fs : features) (c : config) (tie : bool) (l d : list Z) (l0 : packed_line) (E : Type) (func : E -> list Z -> list Z * E) (env : E) (buf : list Z) (fuel : nat),
  let p := Arith Mul (Arg 0) (Splat EF32 1067030938) in let x := Arith Mul (Sqrt (Arg 0)) (Splat EF64 4614256656552045848) in
  target fs -> natural fs "f32s" = [l0] ->
  Forall (f_pattern fmt32) l -> zlen d = p_width l0 -> Forall (f_pattern fmt32) d -> zlen l * p_size l0 + 32 <= isize_max -> (length l < fuel)%nat -> zlen l <= zlen buf ->
  (forall e' v r, zlen v = p_width l0 -> Forall (f_pattern fmt32) v -> mixed_in fs tie ieee_arith ieee_sqrt f_narrow EF32 EF32 [p] x (Arg 0) [v] = Some (Ok r) -> fst (func e' v) = r) ->
  exists s', scalar_fill c (map_iterator c (slice_iterator c (vty_of l0)) (vty_of l0) 0 func) 0 fuel (mkSIMDMap (simd_iter l d) env) buf =
    Ok (map (fun a => f_narrow (f_mul fmt64 (f_sqrt fmt64 (f_widen (f_mul fmt32 a 1067030938))) 4614256656552045848)) l ++ skipn (length l) buf, s').
Proof. exact c99_high_latency. Qed.
Print Assumptions C99_high_latency.

(** C99: the same on the portable back-end, in debug and release builds. *)
Theorem C99_high_latency_portable : forall (fs : features) (c : config) (tie : bool) (l d : list Z) (l0 : packed_line) (E : Type) (func : E -> list Z -> list Z * E) (env : E) (buf : list Z) (fuel : nat),
  let p := Arith Mul (Arg 0) (Splat EF32 1067030938) in let x := Arith Mul (Sqrt (Arg 0)) (Splat EF64 4614256656552045848) in
  fs "undefined"%string = false -> portable_natural fs "f32s" = [l0] ->
  Forall (f_pattern fmt32) l -> zlen d = p_width l0 -> Forall (f_pattern fmt32) d -> zlen l * p_size l0 + 16 <= isize_max -> (length l < fuel)%nat -> zlen l <= zlen buf ->
  (forall e' v r, zlen v = p_width l0 -> Forall (f_pattern fmt32) v -> portable_mixed fs tie ieee_arith ieee_sqrt f_narrow c EF32 EF32 [p] x (Arg 0) [v] = Some (Ok r) -> fst (func e' v) = r) ->
  exists s', scalar_fill c (map_iterator c (slice_iterator c (vty_of l0)) (vty_of l0) 0 func) 0 fuel (mkSIMDMap (simd_iter l d) env) buf =
    Ok (map (fun a => f_narrow (f_mul fmt64 (f_sqrt fmt64 (f_widen (f_mul fmt32 a 1067030938))) 4614256656552045848)) l ++ skipn (length l) buf, s').
Proof. exact c99_high_latency_portable. Qed.
Print Assumptions C99_high_latency_portable.

(** [(a + b)] of two slices of [i32], widened, negated, narrowed, and the absolute value of
    that: integer addition that wraps, [f64], [f32]; on the portable back-end a debug build
    would panic for the last lane. *)
Example C99_vector_case : let sum := Arith Add (Arg 0) (Arg 1) in let x := Arith Sub (Splat EF64 0) (Arg 0) in let q := Abs (Arg 0) in
  let sse2 : features := fun s => (String.eqb s "sse" || String.eqb s "sse2")%bool in let rows := [[3; 7; 0; 2147483647]; [4; -9; 0; 1]] in
  type_of (EInt i32) 2 sum = Some (EInt i32) /\ type_of EF64 1 x = Some EF64 /\ type_of EF32 1 q = Some EF32 /\
  mixed_in sse2 true ieee_arith ieee_sqrt f_narrow (EInt i32) (EInt i32) [sum] x q rows = Some (Ok [1088421888; 1073741824; 0; 1325400064]) /\
  staged ieee_arith ieee_sqrt f_narrow (EInt i32) (EInt i32) 2 [sum] x q [7; -9] = 1073741824 /\
  portable_mixed (fun _ => false) true (fun _ _ x y => x + y) ieee_sqrt (fun z => z / 2 ^ 29) (mkConfig Debug true) (EInt i32) (EInt i32) [sum] x q rows = Some Panic.
Proof. cbv zeta. split; [reflexivity|]. split; [reflexivity|]. split; [reflexivity|]. split; [vm_compute; reflexivity|]. split; vm_compute; reflexivity. Qed.

(** The benchmark's own input, -123.456 (twice here): the square root of a negative
    number, a NaN in every element; and 1.0, which gives 3.4414425. *)
Example C99_high_latency_case : let p := Arith Mul (Arg 0) (Splat EF32 1067030938) in let x := Arith Mul (Sqrt (Arg 0)) (Splat EF64 4614256656552045848) in
  let sse2 : features := fun s => (String.eqb s "sse" || String.eqb s "sse2")%bool in
  mixed_in sse2 true ieee_arith ieee_sqrt f_narrow EF32 EF32 [p] x (Arg 0) [[3270960505; 3270960505; 1065353216; 0]] = Some (Ok [4290772992; 4290772992; 1079787672; 0]).
Proof. cbv zeta. vm_compute. reflexivity. Qed.
