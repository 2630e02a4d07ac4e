(** Properties: inner products of two slices in a wider type (C100). *)
From Coq Require Import String.
From Verif Require Import Base Spec VecSpec Vecs Iters Zip ZipSpec GateTables GateSpec Gates Floats FloatSpec Lanes OpTables Ops OpSpec PortTables Ports PortSpec SumTables Sums SumSpec PipeSpec AvailSpec Builds ExprSpec Exprs WidenSpec Widens OverflowSpec Portables WidePorts ZipAccums.
Open Scope list_scope.
Open Scope Z_scope.
From Verif Require Import ZipAccumProofs.

(** One call of the closure: each lane is the value of the expression on the lane of the
    accumulator, the two elements of the lower halves and the two elements of the upper halves. *)
Theorem C100_zip_step : forall (fs : features) (tie : bool) (fop : arith -> elty -> Z -> Z -> Z) (fsqrt : elty -> Z -> Z) (narrow : Z -> Z) (e : elty) (x : expr) (s v w : list Z) (l0 lw : packed_line),
  target fs -> In e widenable ->
  (forall o e u v, e = EF32 \/ e = EF64 -> lane e u -> lane e v -> lane e (fop o e u v)) -> (forall e u, e = EF32 \/ e = EF64 -> lane e u -> lane e (fsqrt e u)) ->
  type_of (wide e) 5 x = Some (wide e) -> natural fs (el_name e ++ "s") = [l0] -> natural fs (el_name (wide e) ++ "s") = [lw] ->
  zlen s = p_width lw -> Forall (lane (wide e)) s -> zlen v = p_width l0 -> Forall (lane e) v -> zlen w = p_width l0 -> Forall (lane e) w ->
  exists r, accumulate_zip_in fs tie fop fsqrt narrow e x s v w = Some (Ok r) /\ zlen r = p_width lw /\ Forall (lane (wide e)) r /\
    forall k y a b p q, znth s k = Some y -> znth v k = Some a -> znth w k = Some b -> znth v (k + p_width lw) = Some p -> znth w (k + p_width lw) = Some q ->
      znth r k = Some (meaning (wide e) 5 fop fsqrt x [y; a; b; p; q]).
Proof. exact c100_zip_step. Qed.
Print Assumptions C100_zip_step.

(** C100: over two slices of one length, a closure that adds [g] of the elements, in the wider
    type, to the accumulator, then [sum()]: in release builds the total of [g] over the pairs of
    elements, wrapped to the wider type, if [g] of the two defaults is 0. *)
Theorem C100_zip : forall (fs : features) (fadd : elty -> Z -> Z -> Z) (b : bool) (tie : bool) (fop : arith -> elty -> Z -> Z -> Z) (fsqrt : elty -> Z -> Z) (narrow : Z -> Z) (t : ity) (x : expr) (g : Z -> Z -> Z) (l1 l2 : list Z) (d1 d2 : Z) (l0 lw : packed_line) (f : list Z -> list Z * list Z -> list Z) (fuel : nat),
  let c := mkConfig Release b in let u := mkIty (isigned t) (2 * ibytes t) in
  target fs -> In (EInt t) widenable ->
  (forall o e u v, e = EF32 \/ e = EF64 -> lane e u -> lane e v -> lane e (fop o e u v)) -> (forall e u, e = EF32 \/ e = EF64 -> lane e u -> lane e (fsqrt e u)) ->
  type_of (EInt u) 5 x = Some (EInt u) -> natural fs (el_name (EInt t) ++ "s") = [l0] -> natural fs (el_name (EInt u) ++ "s") = [lw] ->
  (forall y a b p q, in_ity u y -> in_ity t a -> in_ity t b -> in_ity t p -> in_ity t q -> meaning (EInt u) 5 fop fsqrt x [y; a; b; p; q] = wrap u (y + g a b + g p q)) ->
  in_ity t d1 -> in_ity t d2 -> g d1 d2 = 0 -> Forall (in_ity t) l1 -> Forall (in_ity t) l2 -> zlen l1 = zlen l2 -> zlen l1 * p_size l0 <= isize_max -> (length l1 < fuel)%nat ->
  (forall s v w, zlen s = p_width lw -> zlen v = p_width l0 -> zlen w = p_width l0 -> Forall (in_ity u) s -> Forall (in_ity t) v -> Forall (in_ity t) w -> accumulate_zip_in fs tie fop fsqrt narrow (EInt t) x s v w = Some (Ok (f s (v, w)))) ->
  let rest := rest_one (blanket_unsafe c (si_array (slice_array c (vty_of l0))) (si_iterable c (slice_array c (vty_of l0)))) in
  let st := (simd_iter l1 (splat (p_width l0) d1), simd_iter l2 (splat (p_width l0) d2)) in
  zip (slice_iterator c (vty_of l0)) rest st = Ok st /\
  exists acc s', simd_reduce (zip_iterator (slice_iterator c (vty_of l0)) rest) fuel st (splat (p_width lw) 0) f = Ok (acc, s') /\
    sum_in fs fadd c (p_vec lw) acc = Some (Ok (wrap u (total (map2 g l1 l2)))) /\ (in_ity u (total (map2 g l1 l2)) -> wrap u (total (map2 g l1 l2)) = total (map2 g l1 l2)).
Proof. exact c100_zip. Qed.
Print Assumptions C100_zip.

(** The same on the portable back-end; a debug build panics exactly if a lane overflows. *)
Theorem C100_zip_step_portable : forall (fs : features) (c : config) (tie : bool) (fop : arith -> elty -> Z -> Z -> Z) (fsqrt : elty -> Z -> Z) (narrow : Z -> Z) (e : elty) (x : expr) (s v w : list Z) (l0 lw : packed_line),
  fs "undefined"%string = false -> In e widenable ->
  (forall o e u v, e = EF32 \/ e = EF64 -> lane e u -> lane e v -> lane e (fop o e u v)) -> (forall e u, e = EF32 \/ e = EF64 -> lane e u -> lane e (fsqrt e u)) ->
  type_of (wide e) 5 x = Some (wide e) -> portable_natural fs (el_name e ++ "s") = [l0] -> portable_natural fs (el_name (wide e) ++ "s") = [lw] ->
  zlen s = p_width lw -> Forall (lane (wide e)) s -> zlen v = p_width l0 -> Forall (lane e) v -> zlen w = p_width l0 -> Forall (lane e) w ->
  let result := portable_accumulate_zip fs tie fop fsqrt narrow c e x s v w in
  let lanes k y a b p q := znth s k = Some y /\ znth v k = Some a /\ znth w k = Some b /\ znth v (k + p_width lw) = Some p /\ znth w (k + p_width lw) = Some q in
  (build c = Release \/ (forall k y a b p q, lanes k y a b p q -> overflows (wide e) 5 fop fsqrt x [y; a; b; p; q] = false) ->
    exists r, result = Some (Ok r) /\ zlen r = p_width lw /\ Forall (lane (wide e)) r /\ forall k y a b p q, lanes k y a b p q -> znth r k = Some (meaning (wide e) 5 fop fsqrt x [y; a; b; p; q])) /\
  (build c = Debug -> forall k y a b p q, lanes k y a b p q -> overflows (wide e) 5 fop fsqrt x [y; a; b; p; q] = true -> result = Some Panic).
Proof. exact c100_zip_step_portable. Qed.
Print Assumptions C100_zip_step_portable.

(** C100: the same total on the portable back-end, in release builds. *)
Theorem C100_zip_portable : forall (fs : features) (b : bool) (tie : bool) (fop : arith -> elty -> Z -> Z -> Z) (fsqrt : elty -> Z -> Z) (narrow : Z -> Z) (t : ity) (x : expr) (g : Z -> Z -> Z) (l1 l2 : list Z) (d1 d2 : Z) (l0 lw : packed_line) (f : list Z -> list Z * list Z -> list Z) (fuel : nat),
  let c := mkConfig Release b in let u := mkIty (isigned t) (2 * ibytes t) in
  fs "undefined"%string = false -> In (EInt t) widenable ->
  (forall o e u v, e = EF32 \/ e = EF64 -> lane e u -> lane e v -> lane e (fop o e u v)) -> (forall e u, e = EF32 \/ e = EF64 -> lane e u -> lane e (fsqrt e u)) ->
  type_of (EInt u) 5 x = Some (EInt u) -> portable_natural fs (el_name (EInt t) ++ "s") = [l0] -> portable_natural fs (el_name (EInt u) ++ "s") = [lw] ->
  (forall y a b p q, in_ity u y -> in_ity t a -> in_ity t b -> in_ity t p -> in_ity t q -> meaning (EInt u) 5 fop fsqrt x [y; a; b; p; q] = wrap u (y + g a b + g p q)) ->
  in_ity t d1 -> in_ity t d2 -> g d1 d2 = 0 -> Forall (in_ity t) l1 -> Forall (in_ity t) l2 -> zlen l1 = zlen l2 -> zlen l1 * p_size l0 <= isize_max -> (length l1 < fuel)%nat ->
  (forall s v w, zlen s = p_width lw -> zlen v = p_width l0 -> zlen w = p_width l0 -> Forall (in_ity u) s -> Forall (in_ity t) v -> Forall (in_ity t) w -> portable_accumulate_zip fs tie fop fsqrt narrow c (EInt t) x s v w = Some (Ok (f s (v, w)))) ->
  let rest := rest_one (blanket_unsafe c (si_array (slice_array c (vty_of l0))) (si_iterable c (slice_array c (vty_of l0)))) in
  let st := (simd_iter l1 (splat (p_width l0) d1), simd_iter l2 (splat (p_width l0) d2)) in
  zip (slice_iterator c (vty_of l0)) rest st = Ok st /\
  exists m acc s', filter (fun m => String.eqb (s_vec m) (p_vec lw)) unknown_sum = [m] /\ simd_reduce (zip_iterator (slice_iterator c (vty_of l0)) rest) fuel st (splat (p_width lw) 0) f = Ok (acc, s') /\
    sum_portable (fun e => fop Add e) c m acc = Ok (wrap u (total (map2 g l1 l2))) /\ (in_ity u (total (map2 g l1 l2)) -> wrap u (total (map2 g l1 l2)) = total (map2 g l1 l2)).
Proof. exact c100_zip_portable. Qed.
Print Assumptions C100_zip_portable.

(** C100: the inner product of two slices of one length, computed in the type of twice the size
    ([acc + a * b + p * q] on the halves of both vectors, then [sum()]): the inner product, wrapped
    to the wider type, if one of the defaults is zero; it is exact if it fits. *)
Theorem C100_dot : forall (fs : features) (fadd : elty -> Z -> Z -> Z) (b : bool) (tie : bool) (fop : arith -> elty -> Z -> Z -> Z) (fsqrt : elty -> Z -> Z) (narrow : Z -> Z) (t : ity) (l1 l2 : list Z) (d1 d2 : Z) (l0 lw : packed_line) (f : list Z -> list Z * list Z -> list Z) (fuel : nat),
  let c := mkConfig Release b in let u := mkIty (isigned t) (2 * ibytes t) in
  target fs -> In (EInt t) widenable ->
  (forall o e u v, e = EF32 \/ e = EF64 -> lane e u -> lane e v -> lane e (fop o e u v)) -> (forall e u, e = EF32 \/ e = EF64 -> lane e u -> lane e (fsqrt e u)) ->
  natural fs (el_name (EInt t) ++ "s") = [l0] -> natural fs (el_name (EInt u) ++ "s") = [lw] ->
  in_ity t d1 -> in_ity t d2 -> d1 = 0 \/ d2 = 0 -> Forall (in_ity t) l1 -> Forall (in_ity t) l2 -> zlen l1 = zlen l2 -> zlen l1 * p_size l0 <= isize_max -> (length l1 < fuel)%nat ->
  (forall s v w, zlen s = p_width lw -> zlen v = p_width l0 -> zlen w = p_width l0 -> Forall (in_ity u) s -> Forall (in_ity t) v -> Forall (in_ity t) w -> accumulate_zip_in fs tie fop fsqrt narrow (EInt t) add_products s v w = Some (Ok (f s (v, w)))) ->
  let rest := rest_one (blanket_unsafe c (si_array (slice_array c (vty_of l0))) (si_iterable c (slice_array c (vty_of l0)))) in
  let st := (simd_iter l1 (splat (p_width l0) d1), simd_iter l2 (splat (p_width l0) d2)) in
  zip (slice_iterator c (vty_of l0)) rest st = Ok st /\
  exists acc s', simd_reduce (zip_iterator (slice_iterator c (vty_of l0)) rest) fuel st (splat (p_width lw) 0) f = Ok (acc, s') /\
    sum_in fs fadd c (p_vec lw) acc = Some (Ok (wrap u (total (map2 Z.mul l1 l2)))) /\ (in_ity u (total (map2 Z.mul l1 l2)) -> wrap u (total (map2 Z.mul l1 l2)) = total (map2 Z.mul l1 l2)).
Proof. exact c100_dot. Qed.
Print Assumptions C100_dot.

(** C100: the inner product of slices of integers that are not negative, if it fits the wider
    type: exact in every x86 build, and no debug build panics. *)
Theorem C100_dot_exact : forall (fs : features) (fadd : elty -> Z -> Z -> Z) (c : config) (tie : bool) (fop : arith -> elty -> Z -> Z -> Z) (fsqrt : elty -> Z -> Z) (narrow : Z -> Z) (t : ity) (l1 l2 : list Z) (d1 d2 : Z) (l0 lw : packed_line) (f : list Z -> list Z * list Z -> list Z) (fuel : nat),
  let u := mkIty (isigned t) (2 * ibytes t) in
  target fs -> In (EInt t) widenable ->
  (forall o e u v, e = EF32 \/ e = EF64 -> lane e u -> lane e v -> lane e (fop o e u v)) -> (forall e u, e = EF32 \/ e = EF64 -> lane e u -> lane e (fsqrt e u)) ->
  natural fs (el_name (EInt t) ++ "s") = [l0] -> natural fs (el_name (EInt u) ++ "s") = [lw] ->
  in_ity t d1 -> in_ity t d2 -> d1 = 0 \/ d2 = 0 -> Forall (in_ity t) l1 -> Forall (in_ity t) l2 -> Forall (Z.le 0) l1 -> Forall (Z.le 0) l2 -> total (map2 Z.mul l1 l2) <= imax u -> zlen l1 = zlen l2 -> zlen l1 * p_size l0 <= isize_max -> (length l1 < fuel)%nat ->
  (forall s v w, zlen s = p_width lw -> zlen v = p_width l0 -> zlen w = p_width l0 -> Forall (in_ity u) s -> Forall (in_ity t) v -> Forall (in_ity t) w -> accumulate_zip_in fs tie fop fsqrt narrow (EInt t) add_products s v w = Some (Ok (f s (v, w)))) ->
  let rest := rest_one (blanket_unsafe c (si_array (slice_array c (vty_of l0))) (si_iterable c (slice_array c (vty_of l0)))) in
  let st := (simd_iter l1 (splat (p_width l0) d1), simd_iter l2 (splat (p_width l0) d2)) in
  zip (slice_iterator c (vty_of l0)) rest st = Ok st /\
  exists acc s', simd_reduce (zip_iterator (slice_iterator c (vty_of l0)) rest) fuel st (splat (p_width lw) 0) f = Ok (acc, s') /\
    sum_in fs fadd c (p_vec lw) acc = Some (Ok (total (map2 Z.mul l1 l2))).
Proof. exact c100_dot_exact. Qed.
Print Assumptions C100_dot_exact.

(** C100: the same inner product on the portable back-end, in release builds. *)
Theorem C100_dot_portable : forall (fs : features) (b : bool) (tie : bool) (fop : arith -> elty -> Z -> Z -> Z) (fsqrt : elty -> Z -> Z) (narrow : Z -> Z) (t : ity) (l1 l2 : list Z) (d1 d2 : Z) (l0 lw : packed_line) (f : list Z -> list Z * list Z -> list Z) (fuel : nat),
  let c := mkConfig Release b in let u := mkIty (isigned t) (2 * ibytes t) in
  fs "undefined"%string = false -> In (EInt t) widenable ->
  (forall o e u v, e = EF32 \/ e = EF64 -> lane e u -> lane e v -> lane e (fop o e u v)) -> (forall e u, e = EF32 \/ e = EF64 -> lane e u -> lane e (fsqrt e u)) ->
  portable_natural fs (el_name (EInt t) ++ "s") = [l0] -> portable_natural fs (el_name (EInt u) ++ "s") = [lw] ->
  in_ity t d1 -> in_ity t d2 -> d1 = 0 \/ d2 = 0 -> Forall (in_ity t) l1 -> Forall (in_ity t) l2 -> zlen l1 = zlen l2 -> zlen l1 * p_size l0 <= isize_max -> (length l1 < fuel)%nat ->
  (forall s v w, zlen s = p_width lw -> zlen v = p_width l0 -> zlen w = p_width l0 -> Forall (in_ity u) s -> Forall (in_ity t) v -> Forall (in_ity t) w -> portable_accumulate_zip fs tie fop fsqrt narrow c (EInt t) add_products s v w = Some (Ok (f s (v, w)))) ->
  let rest := rest_one (blanket_unsafe c (si_array (slice_array c (vty_of l0))) (si_iterable c (slice_array c (vty_of l0)))) in
  let st := (simd_iter l1 (splat (p_width l0) d1), simd_iter l2 (splat (p_width l0) d2)) in
  zip (slice_iterator c (vty_of l0)) rest st = Ok st /\
  exists m acc s', filter (fun m => String.eqb (s_vec m) (p_vec lw)) unknown_sum = [m] /\ simd_reduce (zip_iterator (slice_iterator c (vty_of l0)) rest) fuel st (splat (p_width lw) 0) f = Ok (acc, s') /\
    sum_portable (fun e => fop Add e) c m acc = Ok (wrap u (total (map2 Z.mul l1 l2))) /\ (in_ity u (total (map2 Z.mul l1 l2)) -> wrap u (total (map2 Z.mul l1 l2)) = total (map2 Z.mul l1 l2)).
Proof. exact c100_dot_portable. Qed.
Print Assumptions C100_dot_portable.

(** Without features and with SSE2 to AVX, in a release build: 19 products of bytes in [u16], and
    products of [i16] in [i32] with a negative default on one side. *)
Example C100_dot_case :
  let fop := fun (_ : arith) (_ : elty) u (_ : Z) => u in let fsqrt := fun (_ : elty) u => u in let c := mkConfig Release true in
  let dot fs t u d l1 l2 := match natural_of fs (EInt t), natural_of fs (EInt u) with
    | Some n, Some m =>
      let rest := rest_one (blanket_unsafe c (si_array (slice_array c (vty_of n))) (si_iterable c (slice_array c (vty_of n)))) in
      match simd_reduce (zip_iterator (slice_iterator c (vty_of n)) rest) 30 (simd_iter l1 (splat (p_width n) d), simd_iter l2 (splat (p_width n) 0)) (splat (p_width m) 0)
              (fun s p => match accumulate_zip_in fs true fop fsqrt (fun z => z) (EInt t) add_products s (fst p) (snd p) with Some (Ok r) => r | _ => [] end) with
      | Ok (acc, _) => sum_in fs (fun _ x _ => x) c (p_vec m) acc | _ => None end
    | _, _ => None end in
  let l1 := repeat 200 18 ++ [220] in let l2 := repeat 10 18 ++ [7] in let m1 := [-300; 400; 5; 1; 1; 1; 1; 1; -7] in let m2 := [300; 400; 5; 1; 1; 1; 1; 1; -9] in
  dot (fun _ => false) u8 u16 3 l1 l2 = Some (Ok 37540) /\ dot sandy_bridge u8 u16 3 l1 l2 = Some (Ok 37540) /\ total (map2 Z.mul l1 l2) = 37540 /\
  dot (fun _ => false) i16 i32 (-4) m1 m2 = Some (Ok 70093) /\ dot sandy_bridge i16 i32 (-4) m1 m2 = Some (Ok 70093) /\ total (map2 Z.mul m1 m2) = 70093.
Proof. cbv zeta. repeat split; vm_compute; reflexivity. Qed.

(** The same on the portable back-end in a release build; a call of the closure in a debug build
    panics where the sum of two products of [u8] leaves [u16]. *)
Example C100_dot_portable_case :
  let fop := fun (_ : arith) (_ : elty) u (_ : Z) => u in let fsqrt := fun (_ : elty) u => u in let c := mkConfig Release true in let fs := fun _ : string => false in
  let dot t u d l1 l2 := match portable_of fs (EInt t), portable_of fs (EInt u) with
    | Some n, Some m =>
      let rest := rest_one (blanket_unsafe c (si_array (slice_array c (vty_of n))) (si_iterable c (slice_array c (vty_of n)))) in
      match simd_reduce (zip_iterator (slice_iterator c (vty_of n)) rest) 30 (simd_iter l1 (splat (p_width n) d), simd_iter l2 (splat (p_width n) 0)) (splat (p_width m) 0)
              (fun s p => match portable_accumulate_zip fs true fop fsqrt (fun z => z) c (EInt t) add_products s (fst p) (snd p) with Some (Ok r) => r | _ => [] end), filter (fun p => String.eqb (s_vec p) (p_vec m)) unknown_sum with
      | Ok (acc, _), [p] => Some (sum_portable (fun e => fop Add e) c p acc) | _, _ => None end
    | _, _ => None end in
  let l1 := repeat 200 18 ++ [220] in let l2 := repeat 10 18 ++ [7] in let m1 := [-300; 400; 5; 1; 1; 1; 1; 1; -7] in let m2 := [300; 400; 5; 1; 1; 1; 1; 1; -9] in
  dot u8 u16 3 l1 l2 = Some (Ok 37540) /\ dot i16 i32 (-4) m1 m2 = Some (Ok 70093) /\
  portable_accumulate_zip fs true fop fsqrt (fun z => z) (mkConfig Debug true) (EInt u8) add_products (splat 8 0) (splat 16 250) (splat 16 250) = Some Panic /\
  portable_accumulate_zip fs true fop fsqrt (fun z => z) (mkConfig Debug true) (EInt u8) add_products (splat 8 7) (splat 16 100) (splat 16 250) = Some (Ok (splat 8 50007)).
Proof. cbv zeta. repeat split; vm_compute; reflexivity. Qed.

(** The products of bytes of [C100_dot_case] in debug builds. *)
Example C100_dot_exact_case :
  let fop := fun (_ : arith) (_ : elty) u (_ : Z) => u in let fsqrt := fun (_ : elty) u => u in let c := mkConfig Debug true in
  let dot fs t u d l1 l2 := match natural_of fs (EInt t), natural_of fs (EInt u) with
    | Some n, Some m =>
      let rest := rest_one (blanket_unsafe c (si_array (slice_array c (vty_of n))) (si_iterable c (slice_array c (vty_of n)))) in
      match simd_reduce (zip_iterator (slice_iterator c (vty_of n)) rest) 30 (simd_iter l1 (splat (p_width n) d), simd_iter l2 (splat (p_width n) 0)) (splat (p_width m) 0)
              (fun s p => match accumulate_zip_in fs true fop fsqrt (fun z => z) (EInt t) add_products s (fst p) (snd p) with Some (Ok r) => r | _ => [] end) with
      | Ok (acc, _) => sum_in fs (fun _ x _ => x) c (p_vec m) acc | _ => None end
    | _, _ => None end in
  let l1 := repeat 200 18 ++ [220] in let l2 := repeat 10 18 ++ [7] in
  dot (fun _ => false) u8 u16 3 l1 l2 = Some (Ok 37540) /\ dot sandy_bridge u8 u16 3 l1 l2 = Some (Ok 37540) /\ total (map2 Z.mul l1 l2) = 37540 /\ Forall (Z.le 0) l1 /\ 37540 <= imax u16.
Proof. cbv zeta. repeat split; try (vm_compute; reflexivity); try (vm_compute; discriminate). cbv [repeat app]. repeat constructor; discriminate. Qed.
