(** Properties: kernels that compute with wider lanes, on the portable back-end (C95). *)
From Coq Require Import String.
From Verif Require Import Base Spec VecSpec Vecs Iters Zip ZipSpec Stride GateTables GateSpec Gates Lanes OpTables Ops OpSpec PortTables Ports PortSpec PipeSpec AvailSpec ExprSpec Exprs WidenSpec Widens OverflowSpec Portables WidePorts.
Open Scope list_scope.
Open Scope Z_scope.
From Verif Require Import WidePortProofs.

(** One call of the closure [|v| { let (a, b) = v.upcast(); f(a).saturating_downcast(f(b)) }]
    on the portable back-end, in every build mode: what every lane of the result is, and
    when the call panics.  [u64] results are cut off at 2^31 - 1 in all lanes but the first
    (C47). *)
Theorem C95_closure : forall (fs : features) (c : config) (tie : bool) (fop : arith -> elty -> Z -> Z -> Z) (fsqrt : elty -> Z -> Z) (narrow : Z -> Z) (e : elty) (t : ity) (x : expr) (args : list (list Z)) (l0 : packed_line),
  fs "undefined"%string = false -> In e widenable ->
  (forall o e u v, e = EF32 \/ e = EF64 -> lane e u -> lane e v -> lane e (fop o e u v)) -> (forall e u, e = EF32 \/ e = EF64 -> lane e u -> lane e (fsqrt e u)) ->
  type_of (wide e) (length args) x = Some (EInt t) -> portable_natural fs (el_name e ++ "s") = [l0] ->
  args <> [] -> Forall (fun v => zlen v = p_width l0 /\ Forall (lane e) v) args ->
  let result := portable_widened fs c tie fop fsqrt narrow e x args in
  (build c = Release \/ (forall k env, column args k env -> overflows (wide e) (length args) fop fsqrt x env = false) ->
    exists r, result = Some (Ok r) /\ zlen r = p_width l0 /\
      forall k env, column args k env ->
        let y := meaning (wide e) (length args) fop fsqrt x env in
        in_ity t y /\ znth r k = Some (if same_int t u64 then Z.min y (if k =? 0 then 4294967295 else 2147483647) else clamp (half t) y)) /\
  (build c = Debug -> forall k env, column args k env -> overflows (wide e) (length args) fop fsqrt x env = true -> result = Some Panic).
Proof. exact c95_closure. Qed.
Print Assumptions C95_closure.

(** C95: [s.simd_iter(d).simd_map(|v| { let (a, b) = v.upcast(); f(a).saturating_downcast(f(b)) })
    .scalar_collect()] on the portable back-end.  [P] restricts the elements: to keep
    [u64] results small, or, in a debug build, to elements for which [f] does not overflow. *)
Theorem C95_map : forall (fs : features) (c : config) (tie : bool) (fop : arith -> elty -> Z -> Z -> Z) (fsqrt : elty -> Z -> Z) (narrow : Z -> Z) (e : elty) (t : ity) (x : expr) (P : Z -> Prop) (l d : list Z) (l0 l1 : packed_line)
    (E : Type) (func : E -> list Z -> list Z * E) (env : E) (fuel : nat),
  fs "undefined"%string = false -> In e widenable -> (forall a, P a -> lane e a) ->
  (forall o e u v, e = EF32 \/ e = EF64 -> lane e u -> lane e v -> lane e (fop o e u v)) -> (forall e u, e = EF32 \/ e = EF64 -> lane e u -> lane e (fsqrt e u)) ->
  type_of (wide e) 1 x = Some (EInt t) -> t <> u64 \/ (forall a, P a -> meaning (wide e) 1 fop fsqrt x [a] <= 2147483647) ->
  build c = Release \/ (forall a, P a -> overflows (wide e) 1 fop fsqrt x [a] = false) ->
  portable_natural fs (el_name e ++ "s") = [l0] -> portable_natural fs (el_name (EInt (half t)) ++ "s") = [l1] ->
  Forall P l -> zlen d = p_width l0 -> Forall P d -> zlen l * p_size l0 + 16 <= isize_max -> (length l < fuel)%nat ->
  (forall e' v r, zlen v = p_width l0 -> Forall P v -> portable_widened fs c tie fop fsqrt narrow e x [v] = Some (Ok r) -> fst (func e' v) = r) ->
  exists s', scalar_collect c (map_iterator c (slice_iterator c (vty_of l0)) (vty_of l1) 0 func) 0 fuel (mkSIMDMap (simd_iter l d) env) =
    Ok (map (fun a => Some (clamp (half t) (meaning (wide e) 1 fop fsqrt x [a]))) l, s').
Proof. exact c95_map. Qed.
Print Assumptions C95_map.

(** C95: the same for any number of zipped slices. *)
Theorem C95_zip : forall (fs : features) (c : config) (tie : bool) (fop : arith -> elty -> Z -> Z -> Z) (fsqrt : elty -> Z -> Z) (narrow : Z -> Z) (e : elty) (t : ity) (x : expr) (P : Z -> Prop) (n : nat) (ls ds : list (list Z)) (N : Z) (l0 l1 : packed_line)
    (E : Type) (func : E -> tuple (list Z) (S n) -> list Z * E) (env : E) (tp : tuple (SIMDIter Z (list Z)) (S n)) (fuel : nat),
  fs "undefined"%string = false -> In e widenable -> (forall a, P a -> lane e a) ->
  (forall o e u v, e = EF32 \/ e = EF64 -> lane e u -> lane e v -> lane e (fop o e u v)) -> (forall e u, e = EF32 \/ e = EF64 -> lane e u -> lane e (fsqrt e u)) ->
  type_of (wide e) (S (S n)) x = Some (EInt t) -> t <> u64 \/ (forall row, length row = S (S n) -> Forall P row -> meaning (wide e) (S (S n)) fop fsqrt x row <= 2147483647) ->
  build c = Release \/ (forall row, length row = S (S n) -> Forall P row -> overflows (wide e) (S (S n)) fop fsqrt x row = false) ->
  portable_natural fs (el_name e ++ "s") = [l0] -> portable_natural fs (el_name (EInt (half t)) ++ "s") = [l1] ->
  Forall (fun l => zlen l = N /\ Forall P l) ls -> Forall (fun d => zlen d = p_width l0 /\ Forall P d) ds -> length ls = length ds ->
  PipeSpec.items (S n) tp = map2 simd_iter ls ds -> N * p_size l0 + 16 <= isize_max -> N < Z.of_nat fuel ->
  (forall e' t r, Forall (fun v => zlen v = p_width l0 /\ Forall P v) (PipeSpec.items (S n) t) -> portable_widened fs c tie fop fsqrt narrow e x (PipeSpec.items (S n) t) = Some (Ok r) -> fst (func e' t) = r) ->
  let rest := rest_many (blanket_unsafe c (si_array (slice_array c (vty_of l0))) (si_iterable c (slice_array c (vty_of l0)))) n in
  let m := zipmap_iterator c (zip_iterator (slice_iterator c (vty_of l0)) rest) (vty_of l1) 0 func in
  zip (slice_iterator c (vty_of l0)) rest tp = Ok tp /\
  exists out s', scalar_collect c m 0 fuel (mkSIMDMap tp env) = Ok (map Some out, s') /\
    zlen out = N /\ forall k r, column ls k r -> znth out k = Some (clamp (half t) (meaning (wide e) (S (S n)) fop fsqrt x r)).
Proof. exact c95_zip. Qed.
Print Assumptions C95_zip.

(** C95: the same for the strides of a slice; with two strides this is the benchmark
    [zip_simd]. *)
Theorem C95_strides : forall (fs : features) (c : config) (tie : bool) (fop : arith -> elty -> Z -> Z -> Z) (fsqrt : elty -> Z -> Z) (narrow : Z -> Z) (e : elty) (t : ity) (x : expr) (P : Z -> Prop) (n : nat) (l : list Z) (ds : list (list Z)) (x0 : Z) (l0 l1 : packed_line)
    (E : Type) (func : E -> tuple (list Z) (S n) -> list Z * E) (env : E) (fuel : nat),
  let count := Z.of_nat n + 2 in
  fs "undefined"%string = false -> In e widenable -> (forall a, P a -> lane e a) ->
  (forall o e u v, e = EF32 \/ e = EF64 -> lane e u -> lane e v -> lane e (fop o e u v)) -> (forall e u, e = EF32 \/ e = EF64 -> lane e u -> lane e (fsqrt e u)) ->
  type_of (wide e) (S (S n)) x = Some (EInt t) -> t <> u64 \/ (forall row, length row = S (S n) -> Forall P row -> meaning (wide e) (S (S n)) fop fsqrt x row <= 2147483647) ->
  build c = Release \/ (forall row, length row = S (S n) -> Forall P row -> overflows (wide e) (S (S n)) fop fsqrt x row = false) ->
  portable_natural fs (el_name e ++ "s") = [l0] -> portable_natural fs (el_name (EInt (half t)) ++ "s") = [l1] ->
  Forall P l -> zlen l * p_size l0 <= isize_max -> count * 33 <= 2 ^ 63 -> zlen ds = count -> Forall (fun d => zlen d = p_width l0 /\ Forall P d) ds -> (length l < fuel)%nat ->
  (forall e' t r, Forall (fun v => zlen v = p_width l0 /\ Forall P v) (PipeSpec.items (S n) t) -> portable_widened fs c tie fop fsqrt narrow e x (PipeSpec.items (S n) t) = Some (Ok r) -> fst (func e' t) = r) ->
  let it := stride_iterator c (slice_array c (vty_of l0)) x0 in
  let rest := rest_many (blanket_unsafe c (ps_array c (slice_array c (vty_of l0)) x0) (ps_iterable c (slice_array c (vty_of l0)) x0)) n in
  let m := zipmap_iterator c (zip_iterator it rest) (vty_of l1) 0 func in
  exists tp : tuple (PackedStride Z (list Z)) (S n), stride l count ds = Ok (PipeSpec.items (S n) tp) /\ zip it rest tp = Ok tp /\
  exists out s', scalar_collect c m 0 fuel (mkSIMDMap tp env) = Ok (map Some out, s') /\
    zlen out = zlen l / count /\ forall k, 0 <= k < zlen out -> znth out k = Some (clamp (half t) (meaning (wide e) (S (S n)) fop fsqrt x (sub l (count * k) count))).
Proof. exact c95_strides. Qed.
Print Assumptions C95_strides.

(** The closure of the benchmark [zip_simd] on the portable back-end; and [3 * v] in 16 bits
    on 20 bytes. *)
Example C95_closure_case : let fs : features := fun _ => false in
  let closure c a b := portable_widened fs c true (fun _ _ x _ => x) (fun _ x => x) (fun z => z) (EInt i32) add_magnitudes [a; b] in
  (forall b, closure (mkConfig Debug b) [-123; 4; 2147483647; 0] [5; -6; 0; -2] = Some (Ok [128; 10; 2147483647; 2])) /\
  (forall b, closure (mkConfig Debug b) [-123; 4; 2147483647; 0] [5; -6; 1; -2] = Some (Ok [128; 10; 2147483647; 2])) /\
  (forall b, closure (mkConfig Debug b) [2147483647; 4; 5; 0] [2147483647; -6; 1; -2] = Some (Ok [4294967294; 10; 6; 2])).
Proof. cbv zeta. repeat split; intros []; vm_compute; reflexivity. Qed.

Example C95_map_case : let x := Arith Mul (Arg 0) (Splat (EInt u16) 3) in let fs : features := fun _ => false in
  let run c v := portable_widened fs c true (fun _ _ x _ => x) (fun _ x => x) (fun z => z) (EInt u8) x [v] in
  let func c := fun (e : unit) v => (match run c v with Some (Ok r) => r | _ => [] end, e) in let c := mkConfig Debug true in
  (forall a, lane (EInt u8) a -> overflows (wide (EInt u8)) 1 (fun _ _ x _ => x) (fun _ x => x) x [a] = false) /\
  exists l0, portable_natural fs "u8s" = [l0] /\ exists s', scalar_collect c (map_iterator c (slice_iterator c (vty_of l0)) (vty_of l0) 0 (func c)) 0 30 (mkSIMDMap (simd_iter (map Z.of_nat (seq 70 20)) (splat 16 0)) tt) =
    Ok (map Some (map (fun k => Z.min (3 * Z.of_nat k) 255) (seq 70 20)), s').
Proof.
  cbv zeta. split.
  - intros a Ha. change (0 <= a <= 255) in Ha. change (((a * 3 <? 0) || (65535 <? a * 3)) = false). apply Bool.orb_false_iff. split; apply Z.ltb_ge; [apply Z.mul_nonneg_nonneg; [exact (proj1 Ha)|discriminate]|]. apply Z.le_trans with (255 * 3); [apply Z.mul_le_mono_nonneg_r; [discriminate|exact (proj2 Ha)]|discriminate].
  - eexists. split; [vm_compute; reflexivity|]. eexists. vm_compute. reflexivity.
Qed.

(** In a debug build the product of two [u16] squares overflows: the call panics. *)
Example C95_panic_case : let x := Arith Mul (Arith Mul (Arg 0) (Arg 0)) (Arg 0) in let fs : features := fun _ => false in
  let run b v := portable_widened fs (mkConfig b true) true (fun _ _ x _ => x) (fun _ x => x) (fun z => z) (EInt u8) x [v] in
  overflows (wide (EInt u8)) 1 (fun _ _ x _ => x) (fun _ x => x) x [41] = true /\ overflows (wide (EInt u8)) 1 (fun _ _ x _ => x) (fun _ x => x) x [40] = false /\
  run Debug (splat 15 1 ++ [41]) = Some Panic /\ run Debug (splat 15 1 ++ [40]) = Some (Ok (splat 15 1 ++ [255])) /\ run Release (splat 15 1 ++ [41]) = Some (Ok (splat 15 1 ++ [255])).
Proof. cbv zeta. repeat split; vm_compute; reflexivity. Qed.
