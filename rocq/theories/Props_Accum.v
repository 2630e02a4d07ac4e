(** Properties: reductions whose accumulator is wider than the elements (C100). *)
From Coq Require Import String.
From Verif Require Import Base Spec VecSpec Vecs Iters Zip ZipSpec GateTables GateSpec Gates Floats FloatSpec Lanes OpTables Ops OpSpec PortTables Ports PortSpec SumTables Sums SumSpec PipeSpec AvailSpec Builds ExprSpec Exprs WidenSpec Widens OverflowSpec Portables WidePorts Accums.
Open Scope list_scope.
Open Scope Z_scope.
From Verif Require Import AccumProofs.

(** One call of the closure on the accumulator [s] and a full vector [v]: both halves of the
    widened vector are folded into the accumulator lane by lane, in every build. *)
Theorem C100_step : forall (fs : features) (tie : bool) (fop : arith -> elty -> Z -> Z -> Z) (fsqrt : elty -> Z -> Z) (narrow : Z -> Z) (e : elty) (x : expr) (s v : list Z) (l0 lw : packed_line),
  target fs -> In e widenable ->
  (forall o e u v, e = EF32 \/ e = EF64 -> lane e u -> lane e v -> lane e (fop o e u v)) -> (forall e u, e = EF32 \/ e = EF64 -> lane e u -> lane e (fsqrt e u)) ->
  type_of (wide e) 3 x = Some (wide e) -> natural fs (el_name e ++ "s") = [l0] -> natural fs (el_name (wide e) ++ "s") = [lw] ->
  zlen s = p_width lw -> Forall (lane (wide e)) s -> zlen v = p_width l0 -> Forall (lane e) v ->
  exists r, accumulate_in fs tie fop fsqrt narrow e x s v = Some (Ok r) /\ zlen r = p_width lw /\ Forall (lane (wide e)) r /\
    forall k y a b, znth s k = Some y -> znth v k = Some a -> znth v (k + p_width lw) = Some b -> znth r k = Some (meaning (wide e) 3 fop fsqrt x [y; a; b]).
Proof. exact c100_step. Qed.
Print Assumptions C100_step.

(** C100: [l.simd_iter(d).simd_reduce(i, |acc, v| { let (a, b) = v.upcast(); x(acc, a, b) })]
    where [x] folds [h(a)] and [h(b)] into the accumulator with an associative and
    commutative operation: on every x86 target folding the lanes of the accumulator gives
    the fold of [h] over the whole slice, computed in the wider type. *)
Theorem C100_reduce : forall (fs : features) (c : config) (tie : bool) (fop : arith -> elty -> Z -> Z -> Z) (fsqrt : elty -> Z -> Z) (narrow : Z -> Z) (e : elty) (x : expr) (op : Z -> Z -> Z) (h : Z -> Z) (l : list Z) (d i : Z) (l0 lw : packed_line) (f : list Z -> list Z -> list Z) (fuel : nat),
  target fs -> In e widenable ->
  (forall o e u v, e = EF32 \/ e = EF64 -> lane e u -> lane e v -> lane e (fop o e u v)) -> (forall e u, e = EF32 \/ e = EF64 -> lane e u -> lane e (fsqrt e u)) ->
  type_of (wide e) 3 x = Some (wide e) -> natural fs (el_name e ++ "s") = [l0] -> natural fs (el_name (wide e) ++ "s") = [lw] ->
  (forall y a b, lane (wide e) y -> lane e a -> lane e b -> meaning (wide e) 3 fop fsqrt x [y; a; b] = op (op y (h a)) (h b)) -> (forall a, lane e a -> lane (wide e) (h a)) -> (forall u v, lane (wide e) u -> lane (wide e) v -> lane (wide e) (op u v)) ->
  (forall u v w, lane (wide e) u -> lane (wide e) v -> lane (wide e) w -> op u (op v w) = op (op u v) w) -> (forall u v, lane (wide e) u -> lane (wide e) v -> op u v = op v u) -> (forall u, lane (wide e) u -> op i u = u) ->
  lane (wide e) i -> lane e d -> h d = i -> Forall (lane e) l -> zlen l * p_size l0 <= isize_max -> (length l < fuel)%nat ->
  (forall s v, zlen s = p_width lw -> zlen v = p_width l0 -> Forall (lane (wide e)) s -> Forall (lane e) v -> accumulate_in fs tie fop fsqrt narrow e x s v = Some (Ok (f s v))) ->
  exists acc s', simd_reduce (slice_iterator c (vty_of l0)) fuel (simd_iter l (splat (p_width l0) d)) (splat (p_width lw) i) f = Ok (acc, s') /\ zlen acc = p_width lw /\ Forall (lane (wide e)) acc /\
    scalar_reduce (p_width lw) acc i op = Ok (fold_left op (map h l) i).
Proof. exact c100_reduce. Qed.
Print Assumptions C100_reduce.

(** C100: adding [h] of every element up in the wider type, [.simd_reduce(0, |acc, v| { let (a, b)
    = v.upcast(); acc + h(a) + h(b) }).sum()]: in every x86 release build the exact total
    in the wider type, so the exact total if it fits there. *)
Theorem C100_sum : forall (fs : features) (fadd : elty -> Z -> Z -> Z) (b : bool) (tie : bool) (fop : arith -> elty -> Z -> Z -> Z) (fsqrt : elty -> Z -> Z) (narrow : Z -> Z) (t : ity) (x : expr) (h : Z -> Z) (l : list Z) (d : Z) (l0 lw : packed_line) (f : list Z -> list Z -> list Z) (fuel : nat),
  let c := mkConfig Release b in let u := mkIty (isigned t) (2 * ibytes t) in
  target fs -> In (EInt t) widenable ->
  (forall o e u v, e = EF32 \/ e = EF64 -> lane e u -> lane e v -> lane e (fop o e u v)) -> (forall e u, e = EF32 \/ e = EF64 -> lane e u -> lane e (fsqrt e u)) ->
  type_of (EInt u) 3 x = Some (EInt u) -> natural fs (el_name (EInt t) ++ "s") = [l0] -> natural fs (el_name (EInt u) ++ "s") = [lw] ->
  (forall y a b, in_ity u y -> in_ity t a -> in_ity t b -> meaning (EInt u) 3 fop fsqrt x [y; a; b] = wrap u (y + h a + h b)) ->
  in_ity t d -> h d = 0 -> Forall (in_ity t) l -> zlen l * p_size l0 <= isize_max -> (length l < fuel)%nat ->
  (forall s v, zlen s = p_width lw -> zlen v = p_width l0 -> Forall (in_ity u) s -> Forall (in_ity t) v -> accumulate_in fs tie fop fsqrt narrow (EInt t) x s v = Some (Ok (f s v))) ->
  exists acc s', simd_reduce (slice_iterator c (vty_of l0)) fuel (simd_iter l (splat (p_width l0) d)) (splat (p_width lw) 0) f = Ok (acc, s') /\
    sum_in fs fadd c (p_vec lw) acc = Some (Ok (wrap u (total (map h l)))) /\ (in_ity u (total (map h l)) -> wrap u (total (map h l)) = total (map h l)).
Proof. exact c100_sum. Qed.
Print Assumptions C100_sum.

(** C100: one call of the closure on the portable back-end.  In a debug build it panics if a
    lane overflows; otherwise both halves are folded into the accumulator. *)
Theorem C100_step_portable : forall (fs : features) (c : config) (tie : bool) (fop : arith -> elty -> Z -> Z -> Z) (fsqrt : elty -> Z -> Z) (narrow : Z -> Z) (e : elty) (x : expr) (s v : list Z) (l0 lw : packed_line),
  fs "undefined"%string = false -> In e widenable ->
  (forall o e u v, e = EF32 \/ e = EF64 -> lane e u -> lane e v -> lane e (fop o e u v)) -> (forall e u, e = EF32 \/ e = EF64 -> lane e u -> lane e (fsqrt e u)) ->
  type_of (wide e) 3 x = Some (wide e) -> portable_natural fs (el_name e ++ "s") = [l0] -> portable_natural fs (el_name (wide e) ++ "s") = [lw] ->
  zlen s = p_width lw -> Forall (lane (wide e)) s -> zlen v = p_width l0 -> Forall (lane e) v ->
  let result := portable_accumulate fs tie fop fsqrt narrow c e x s v in let lanes k y a b := znth s k = Some y /\ znth v k = Some a /\ znth v (k + p_width lw) = Some b in
  (build c = Release \/ (forall k y a b, lanes k y a b -> overflows (wide e) 3 fop fsqrt x [y; a; b] = false) ->
    exists r, result = Some (Ok r) /\ zlen r = p_width lw /\ Forall (lane (wide e)) r /\ forall k y a b, lanes k y a b -> znth r k = Some (meaning (wide e) 3 fop fsqrt x [y; a; b])) /\
  (build c = Debug -> forall k y a b, lanes k y a b -> overflows (wide e) 3 fop fsqrt x [y; a; b] = true -> result = Some Panic).
Proof. exact c100_step_portable. Qed.
Print Assumptions C100_step_portable.

(** C100: the reduction on the portable back-end, in release builds and in debug builds where
    nothing overflows.  [Q] holds of the elements and [P] of what is folded. *)
Theorem C100_reduce_portable : forall (fs : features) (c : config) (tie : bool) (fop : arith -> elty -> Z -> Z -> Z) (fsqrt : elty -> Z -> Z) (narrow : Z -> Z) (e : elty) (x : expr) (op : Z -> Z -> Z) (h : Z -> Z) (Q P : Z -> Prop) (l : list Z) (d i : Z) (l0 lw : packed_line) (f : list Z -> list Z -> list Z) (fuel : nat),
  fs "undefined"%string = false -> In e widenable ->
  (forall o e u v, e = EF32 \/ e = EF64 -> lane e u -> lane e v -> lane e (fop o e u v)) -> (forall e u, e = EF32 \/ e = EF64 -> lane e u -> lane e (fsqrt e u)) ->
  type_of (wide e) 3 x = Some (wide e) -> portable_natural fs (el_name e ++ "s") = [l0] -> portable_natural fs (el_name (wide e) ++ "s") = [lw] ->
  (forall a, Q a -> lane e a) -> (forall y, P y -> lane (wide e) y) ->
  (forall y a b, P y -> Q a -> Q b -> meaning (wide e) 3 fop fsqrt x [y; a; b] = op (op y (h a)) (h b)) -> (forall a, Q a -> P (h a)) -> (forall u v, P u -> P v -> P (op u v)) ->
  (forall u v w, P u -> P v -> P w -> op u (op v w) = op (op u v) w) -> (forall u v, P u -> P v -> op u v = op v u) -> (forall u, P u -> op i u = u) ->
  build c = Release \/ (forall y a b, P y -> Q a -> Q b -> overflows (wide e) 3 fop fsqrt x [y; a; b] = false) ->
  P i -> Q d -> h d = i -> Forall Q l -> zlen l * p_size l0 <= isize_max -> (length l < fuel)%nat ->
  (forall s v r, zlen s = p_width lw -> zlen v = p_width l0 -> Forall P s -> Forall Q v -> portable_accumulate fs tie fop fsqrt narrow c e x s v = Some (Ok r) -> f s v = r) ->
  exists acc s', simd_reduce (slice_iterator c (vty_of l0)) fuel (simd_iter l (splat (p_width l0) d)) (splat (p_width lw) i) f = Ok (acc, s') /\ zlen acc = p_width lw /\ Forall P acc /\
    scalar_reduce (p_width lw) acc i op = Ok (fold_left op (map h l) i).
Proof. exact c100_reduce_portable. Qed.
Print Assumptions C100_reduce_portable.

(** C100: on the portable back-end, in debug and in release builds: if [h] is not negative and the
    total fits the wider type, the lanes of the accumulator add up to exactly the total,
    and neither the closure nor the additions overflow. *)
Theorem C100_total : forall (fs : features) (c : config) (tie : bool) (fop : arith -> elty -> Z -> Z -> Z) (fsqrt : elty -> Z -> Z) (narrow : Z -> Z) (t : ity) (x : expr) (h : Z -> Z) (Q : Z -> Prop) (l : list Z) (d : Z) (l0 lw : packed_line) (f : list Z -> list Z -> list Z) (fuel : nat),
  let u := mkIty (isigned t) (2 * ibytes t) in
  fs "undefined"%string = false -> In (EInt t) widenable ->
  (forall o e u v, e = EF32 \/ e = EF64 -> lane e u -> lane e v -> lane e (fop o e u v)) -> (forall e u, e = EF32 \/ e = EF64 -> lane e u -> lane e (fsqrt e u)) ->
  type_of (EInt u) 3 x = Some (EInt u) -> portable_natural fs (el_name (EInt t) ++ "s") = [l0] -> portable_natural fs (el_name (EInt u) ++ "s") = [lw] ->
  (forall a, Q a -> in_ity t a /\ 0 <= h a) ->
  (forall y a b, 0 <= y -> Q a -> Q b -> y + h a + h b <= imax u -> meaning (EInt u) 3 fop fsqrt x [y; a; b] = y + h a + h b /\ overflows (EInt u) 3 fop fsqrt x [y; a; b] = false) ->
  Q d -> h d = 0 -> Forall Q l -> total (map h l) <= imax u -> zlen l * p_size l0 <= isize_max -> (length l < fuel)%nat ->
  (forall s v r, zlen s = p_width lw -> zlen v = p_width l0 -> Forall (in_ity u) s -> Forall (in_ity t) v -> portable_accumulate fs tie fop fsqrt narrow c (EInt t) x s v = Some (Ok r) -> f s v = r) ->
  exists p acc s', filter (fun p => String.eqb (s_vec p) (p_vec lw)) unknown_sum = [p] /\ simd_reduce (slice_iterator c (vty_of l0)) fuel (simd_iter l (splat (p_width l0) d)) (splat (p_width lw) 0) f = Ok (acc, s') /\
    sum_portable (fun e => fop Add e) c p acc = Ok (total (map h l)).
Proof. exact c100_total. Qed.
Print Assumptions C100_total.

(** C100: the sum of a slice and the sum of its squares in the wider type, in every x86 release
    build: [acc + a + b] and [acc + a * a + b * b] with 0 for missing lanes. *)
Theorem C100_closures : forall (fs : features) (fadd : elty -> Z -> Z -> Z) (b : bool) (tie : bool) (fop : arith -> elty -> Z -> Z -> Z) (fsqrt : elty -> Z -> Z) (narrow : Z -> Z) (t : ity) (x : expr) (h : Z -> Z) (l : list Z) (l0 lw : packed_line) (f : list Z -> list Z -> list Z) (fuel : nat),
  let c := mkConfig Release b in let u := mkIty (isigned t) (2 * ibytes t) in
  x = add_halves /\ h = (fun a => a) \/ x = add_squares /\ h = (fun a => a * a) ->
  target fs -> In (EInt t) widenable ->
  (forall o e u v, e = EF32 \/ e = EF64 -> lane e u -> lane e v -> lane e (fop o e u v)) -> (forall e u, e = EF32 \/ e = EF64 -> lane e u -> lane e (fsqrt e u)) ->
  natural fs (el_name (EInt t) ++ "s") = [l0] -> natural fs (el_name (EInt u) ++ "s") = [lw] ->
  Forall (in_ity t) l -> zlen l * p_size l0 <= isize_max -> (length l < fuel)%nat ->
  (forall s v, zlen s = p_width lw -> zlen v = p_width l0 -> Forall (in_ity u) s -> Forall (in_ity t) v -> accumulate_in fs tie fop fsqrt narrow (EInt t) x s v = Some (Ok (f s v))) ->
  exists acc s', simd_reduce (slice_iterator c (vty_of l0)) fuel (simd_iter l (splat (p_width l0) 0)) (splat (p_width lw) 0) f = Ok (acc, s') /\
    sum_in fs fadd c (p_vec lw) acc = Some (Ok (wrap u (total (map h l)))) /\ (in_ity u (total (map h l)) -> wrap u (total (map h l)) = total (map h l)).
Proof. exact c100_closures. Qed.
Print Assumptions C100_closures.

(** C100: the sum and the sum of squares on the portable back-end, exact in debug and in release
    builds if the elements are not negative (or squared) and the total fits. *)
Theorem C100_closures_portable : forall (fs : features) (c : config) (tie : bool) (fop : arith -> elty -> Z -> Z -> Z) (fsqrt : elty -> Z -> Z) (narrow : Z -> Z) (t : ity) (x : expr) (h : Z -> Z) (l : list Z) (l0 lw : packed_line) (f : list Z -> list Z -> list Z) (fuel : nat),
  let u := mkIty (isigned t) (2 * ibytes t) in
  x = add_halves /\ h = (fun a => a) /\ Forall (Z.le 0) l \/ x = add_squares /\ h = (fun a => a * a) ->
  fs "undefined"%string = false -> In (EInt t) widenable ->
  (forall o e u v, e = EF32 \/ e = EF64 -> lane e u -> lane e v -> lane e (fop o e u v)) -> (forall e u, e = EF32 \/ e = EF64 -> lane e u -> lane e (fsqrt e u)) ->
  portable_natural fs (el_name (EInt t) ++ "s") = [l0] -> portable_natural fs (el_name (EInt u) ++ "s") = [lw] ->
  Forall (in_ity t) l -> total (map h l) <= imax u -> zlen l * p_size l0 <= isize_max -> (length l < fuel)%nat ->
  (forall s v r, zlen s = p_width lw -> zlen v = p_width l0 -> Forall (in_ity u) s -> Forall (in_ity t) v -> portable_accumulate fs tie fop fsqrt narrow c (EInt t) x s v = Some (Ok r) -> f s v = r) ->
  exists p acc s', filter (fun p => String.eqb (s_vec p) (p_vec lw)) unknown_sum = [p] /\ simd_reduce (slice_iterator c (vty_of l0)) fuel (simd_iter l (splat (p_width l0) 0)) (splat (p_width lw) 0) f = Ok (acc, s') /\
    sum_portable (fun e => fop Add e) c p acc = Ok (total (map h l)).
Proof. exact c100_closures_portable. Qed.
Print Assumptions C100_closures_portable.

(** The sum of 19 bytes, with and without SSE2 and AVX: 3820 does not fit a byte.  The sum of
    the squares of words.  A closure that keeps the greatest of the widened lanes. *)
Example C100_case :
  let fop := fun (_ : arith) (_ : elty) u (_ : Z) => u in let fsqrt := fun (_ : elty) u => u in let c := mkConfig Release true in
  let l := repeat 200 18 ++ [220] in
  let greatest := Call Max (Call Max (Arg 0) (Arg 1)) (Arg 2) in
  let f fs t x := fun s v => match accumulate_in fs true fop fsqrt (fun z => z) (EInt t) x s v with Some (Ok r) => r | _ => [] end in
  let reduce fs t u x l := match natural_of fs (EInt t), natural_of fs (EInt u) with
    | Some n, Some m => match simd_reduce (slice_iterator c (vty_of n)) 30 (simd_iter l (splat (p_width n) 0)) (splat (p_width m) 0) (f fs t x) with
                | Ok (acc, _) => Some (p_vec m, p_width m, acc) | _ => None end
    | _, _ => None end in
  let sum fs t u x l := match reduce fs t u x l with Some (m, _, acc) => sum_in fs (fun _ x _ => x) c m acc | None => None end in
  sum (fun _ => false) u8 u16 add_halves l = Some (Ok 3820) /\ sum sandy_bridge u8 u16 add_halves l = Some (Ok 3820) /\ total l = 3820 /\
  sum (fun _ => false) i16 i32 add_squares [-300; 400; 5; 1; 1; 1; 1; 1; -7] = Some (Ok 250079) /\ sum sandy_bridge i16 i32 add_squares [-300; 400; 5; 1; 1; 1; 1; 1; -7] = Some (Ok 250079) /\
  type_of (EInt u16) 3 greatest = Some (EInt u16) /\
  match reduce sandy_bridge u8 u16 greatest l with Some (_, w, acc) => scalar_reduce w acc 0 Z.max = Ok 220 | None => False end.
Proof. cbv zeta. repeat split; vm_compute; reflexivity. Qed.

(** The same on the portable back-end in a debug build; one call of the closure panics where a
    lane overflows ([i8] widened to [i16] with 32767 in the accumulator). *)
Example C100_portable_case :
  let fop := fun (_ : arith) (_ : elty) u (_ : Z) => u in let fsqrt := fun (_ : elty) u => u in let c := mkConfig Debug true in let fs := fun _ : string => false in
  let l := repeat 200 18 ++ [220] in
  let f t x := fun s v => match portable_accumulate fs true fop fsqrt (fun z => z) c (EInt t) x s v with Some (Ok r) => r | _ => [] end in
  let sum t u x l := match portable_of fs (EInt t), portable_of fs (EInt u) with
    | Some n, Some m => match simd_reduce (slice_iterator c (vty_of n)) 30 (simd_iter l (splat (p_width n) 0)) (splat (p_width m) 0) (f t x), filter (fun p => String.eqb (s_vec p) (p_vec m)) unknown_sum with
                | Ok (acc, _), [p] => Some (sum_portable (fun e => fop Add e) c p acc) | _, _ => None end
    | _, _ => None end in
  sum u8 u16 add_halves l = Some (Ok 3820) /\ sum i16 i32 add_squares [-300; 400; 5; 1; 1; 1; 1; 1; -7] = Some (Ok 250079) /\
  portable_accumulate fs true fop fsqrt (fun z => z) c (EInt i8) add_halves (repeat 32767 8) (1 :: repeat 0 15) = Some Panic /\ overflows (EInt i16) 3 fop fsqrt add_halves [32767; 1; 0] = true.
Proof. cbv zeta. repeat split; vm_compute; reflexivity. Qed.
