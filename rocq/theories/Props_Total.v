(** Properties: exact totals in every x86 build, debug builds included (C78, C83, C100). *)
From Coq Require Import String.
From Verif Require Import Base Spec VecSpec Vecs Iters Zip ZipSpec GateTables GateSpec Gates Floats FloatSpec Lanes OpTables Ops OpSpec PortTables Ports PortSpec SumTables Sums SumSpec PipeSpec AvailSpec Builds ExprSpec Exprs WidenSpec Widens OverflowSpec Portables WidePorts Accums.
Open Scope list_scope.
Open Scope Z_scope.
From Verif Require Import TotalProofs.

(** C78: [sum] of integers that are not negative and whose total fits the type: exactly the total
    in every x86 build; no debug build panics. *)
Theorem C78_sum_exact : forall (fs : features) (fadd : elty -> Z -> Z -> Z) (c : config) (s : fold_impl) (t : ity) (v : list Z), In s x86_sum -> s_el s = EInt t -> zlen v = WIDTH (s_ty s) -> Forall (Z.le 0) v -> total v <= imax t ->
  sum_in fs fadd c (s_vec s) v = Some (Ok (total v)).
Proof. exact c78_sum_exact. Qed.
Print Assumptions C78_sum_exact.

(** C83: the sum of a slice of integers that are not negative and whose total fits the type,
    [l.simd_iter(zero).simd_reduce(zero, |a, v| a + v).sum()]: exactly the total in every x86
    build; no debug build panics. *)
Theorem C83_total : forall (fs : features) (fadd : elty -> Z -> Z -> Z) (c : config) (t : ity) (l : list Z) (l0 : packed_line) (fuel : nat),
  let zero := splat (p_width l0) 0 in
  target fs -> In (EInt t) primitives -> natural fs (el_name (EInt t) ++ "s") = [l0] -> Forall (Z.le 0) l -> total l <= imax t -> zlen l * p_size l0 <= isize_max -> (length l < fuel)%nat ->
  exists acc s', simd_reduce (slice_iterator c (vty_of l0)) fuel (simd_iter l zero) zero (fun a v => map2 (fun x y => wrap t (x + y)) a v) = Ok (acc, s') /\ sum_in fs fadd c (p_vec l0) acc = Some (Ok (total l)).
Proof. exact c83_total. Qed.
Print Assumptions C83_total.

(** C100: the same on x86, in debug and in release builds: if [h] is not negative and the total
    fits the wider type, [sum()] of the accumulator is exactly the total and does not panic. *)
Theorem C100_total_x86 : forall (fs : features) (fadd : elty -> Z -> Z -> Z) (c : config) (tie : bool) (fop : arith -> elty -> Z -> Z -> Z) (fsqrt : elty -> Z -> Z) (narrow : Z -> Z) (t : ity) (x : expr) (h : Z -> Z) (Q : Z -> Prop) (l : list Z) (d : Z) (l0 lw : packed_line) (f : list Z -> list Z -> list Z) (fuel : nat),
  let u := mkIty (isigned t) (2 * ibytes t) in
  target fs -> In (EInt t) widenable ->
  (forall o e u v, e = EF32 \/ e = EF64 -> lane e u -> lane e v -> lane e (fop o e u v)) -> (forall e u, e = EF32 \/ e = EF64 -> lane e u -> lane e (fsqrt e u)) ->
  type_of (EInt u) 3 x = Some (EInt u) -> natural fs (el_name (EInt t) ++ "s") = [l0] -> natural fs (el_name (EInt u) ++ "s") = [lw] ->
  (forall a, Q a -> in_ity t a /\ 0 <= h a) ->
  (forall y a b, 0 <= y -> Q a -> Q b -> y + h a + h b <= imax u -> meaning (EInt u) 3 fop fsqrt x [y; a; b] = y + h a + h b) ->
  Q d -> h d = 0 -> Forall Q l -> total (map h l) <= imax u -> zlen l * p_size l0 <= isize_max -> (length l < fuel)%nat ->
  (forall s v, zlen s = p_width lw -> zlen v = p_width l0 -> Forall (in_ity u) s -> Forall (in_ity t) v -> accumulate_in fs tie fop fsqrt narrow (EInt t) x s v = Some (Ok (f s v))) ->
  exists acc s', simd_reduce (slice_iterator c (vty_of l0)) fuel (simd_iter l (splat (p_width l0) d)) (splat (p_width lw) 0) f = Ok (acc, s') /\
    sum_in fs fadd c (p_vec lw) acc = Some (Ok (total (map h l))).
Proof. exact c100_total_x86. Qed.
Print Assumptions C100_total_x86.

(** C100: the sum and the sum of squares on x86, exact in debug and in release builds if the elements are not negative (or squared) and the total fits. *)
Theorem C100_closures_exact : forall (fs : features) (fadd : elty -> Z -> Z -> Z) (c : config) (tie : bool) (fop : arith -> elty -> Z -> Z -> Z) (fsqrt : elty -> Z -> Z) (narrow : Z -> Z) (t : ity) (x : expr) (h : Z -> Z) (l : list Z) (l0 lw : packed_line) (f : list Z -> list Z -> list Z) (fuel : nat),
  let u := mkIty (isigned t) (2 * ibytes t) in
  x = add_halves /\ h = (fun a => a) /\ Forall (Z.le 0) l \/ x = add_squares /\ h = (fun a => a * a) ->
  target fs -> In (EInt t) widenable ->
  (forall o e u v, e = EF32 \/ e = EF64 -> lane e u -> lane e v -> lane e (fop o e u v)) -> (forall e u, e = EF32 \/ e = EF64 -> lane e u -> lane e (fsqrt e u)) ->
  natural fs (el_name (EInt t) ++ "s") = [l0] -> natural fs (el_name (EInt u) ++ "s") = [lw] ->
  Forall (in_ity t) l -> total (map h l) <= imax u -> zlen l * p_size l0 <= isize_max -> (length l < fuel)%nat ->
  (forall s v, zlen s = p_width lw -> zlen v = p_width l0 -> Forall (in_ity u) s -> Forall (in_ity t) v -> accumulate_in fs tie fop fsqrt narrow (EInt t) x s v = Some (Ok (f s v))) ->
  exists acc s', simd_reduce (slice_iterator c (vty_of l0)) fuel (simd_iter l (splat (p_width l0) 0)) (splat (p_width lw) 0) f = Ok (acc, s') /\
    sum_in fs fadd c (p_vec lw) acc = Some (Ok (total (map h l))).
Proof. exact c100_closures_exact. Qed.
Print Assumptions C100_closures_exact.

(** In debug builds, without features and with SSE2 to AVX: the bytes of [C100_case] in u16, the
    same bytes as u16, and squares of i16. *)
Example C100_debug_case :
  let fop := fun (_ : arith) (_ : elty) u (_ : Z) => u in let fsqrt := fun (_ : elty) u => u in let c := mkConfig Debug true in
  let l := repeat 200 18 ++ [220] in
  let f fs t x := fun s v => match accumulate_in fs true fop fsqrt (fun z => z) (EInt t) x s v with Some (Ok r) => r | _ => [] end in
  let sum fs t u x l := match natural_of fs (EInt t), natural_of fs (EInt u) with
    | Some n, Some m => match simd_reduce (slice_iterator c (vty_of n)) 30 (simd_iter l (splat (p_width n) 0)) (splat (p_width m) 0) (f fs t x) with
                | Ok (acc, _) => sum_in fs (fun _ x _ => x) c (p_vec m) acc | _ => None end
    | _, _ => None end in
  let plain fs := match natural_of fs (EInt u16) with
    | Some n => match simd_reduce (slice_iterator c (vty_of n)) 30 (simd_iter l (splat (p_width n) 0)) (splat (p_width n) 0) (fun a v => map2 (fun x y => wrap u16 (x + y)) a v) with
                | Ok (acc, _) => sum_in fs (fun _ x _ => x) c (p_vec n) acc | _ => None end
    | None => None end in
  sum (fun _ => false) u8 u16 add_halves l = Some (Ok 3820) /\ sum sandy_bridge u8 u16 add_halves l = Some (Ok 3820) /\ plain (fun _ => false) = Some (Ok 3820) /\ plain sandy_bridge = Some (Ok 3820) /\
  sum sandy_bridge i16 i32 add_squares [-300; 400; 5; 1; 1; 1; 1; 1; -7] = Some (Ok 250079).
Proof. cbv zeta. repeat split; vm_compute; reflexivity. Qed.
