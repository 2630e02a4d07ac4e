(** Properties: exact inner products in a wider type on portable targets, debug builds included
    (C100). *)
From Coq Require Import String.
From Verif Require Import Base Spec VecSpec Vecs Iters Zip ZipSpec GateTables GateSpec Gates Floats FloatSpec Lanes OpTables Ops OpSpec PortTables Ports PortSpec SumTables Sums SumSpec PipeSpec AvailSpec Builds ExprSpec Exprs WidenSpec Widens OverflowSpec Portables WidePorts ZipAccums.
Open Scope list_scope.
Open Scope Z_scope.
From Verif Require Import ZipTotalProofs.

(** C100: the inner product of slices of integers that are not negative, if it fits the wider
    type: exact on portable targets too, in debug and in release builds; the closure does not
    panic. *)
Theorem C100_dot_total : forall (fs : features) (c : config) (tie : bool) (fop : arith -> elty -> Z -> Z -> Z) (fsqrt : elty -> Z -> Z) (narrow : Z -> Z) (t : ity) (l1 l2 : list Z) (d1 d2 : Z) (l0 lw : packed_line) (f : list Z -> list Z * list Z -> list Z) (fuel : nat),
  let u := mkIty (isigned t) (2 * ibytes t) in
  fs "undefined"%string = false -> In (EInt t) widenable ->
  (forall o e u v, e = EF32 \/ e = EF64 -> lane e u -> lane e v -> lane e (fop o e u v)) -> (forall e u, e = EF32 \/ e = EF64 -> lane e u -> lane e (fsqrt e u)) ->
  portable_natural fs (el_name (EInt t) ++ "s") = [l0] -> portable_natural fs (el_name (EInt u) ++ "s") = [lw] ->
  in_ity t d1 -> in_ity t d2 -> 0 <= d1 -> 0 <= d2 -> d1 = 0 \/ d2 = 0 -> Forall (in_ity t) l1 -> Forall (in_ity t) l2 -> Forall (Z.le 0) l1 -> Forall (Z.le 0) l2 -> total (map2 Z.mul l1 l2) <= imax u ->
  zlen l1 = zlen l2 -> zlen l1 * p_size l0 <= isize_max -> (length l1 < fuel)%nat ->
  (forall s v w r, zlen s = p_width lw -> zlen v = p_width l0 -> zlen w = p_width l0 -> Forall (in_ity u) s -> Forall (in_ity t) v -> Forall (in_ity t) w -> portable_accumulate_zip fs tie fop fsqrt narrow c (EInt t) add_products s v w = Some (Ok r) -> f s (v, w) = r) ->
  let rest := rest_one (blanket_unsafe c (si_array (slice_array c (vty_of l0))) (si_iterable c (slice_array c (vty_of l0)))) in
  let st := (simd_iter l1 (splat (p_width l0) d1), simd_iter l2 (splat (p_width l0) d2)) in
  zip (slice_iterator c (vty_of l0)) rest st = Ok st /\
  exists m acc s', filter (fun m => String.eqb (s_vec m) (p_vec lw)) unknown_sum = [m] /\ simd_reduce (zip_iterator (slice_iterator c (vty_of l0)) rest) fuel st (splat (p_width lw) 0) f = Ok (acc, s') /\
    sum_portable (fun e => fop Add e) c m acc = Ok (total (map2 Z.mul l1 l2)).
Proof. exact c100_dot_total. Qed.
Print Assumptions C100_dot_total.

(** The products of bytes of [C100_dot_case] on the portable back-end in a debug build. *)
Example C100_dot_total_case :
  let fop := fun (_ : arith) (_ : elty) u (_ : Z) => u in let fsqrt := fun (_ : elty) u => u in let c := mkConfig Debug true in let fs := fun _ : string => false in
  let dot t u d l1 l2 := match portable_of fs (EInt t), portable_of fs (EInt u) with
    | Some n, Some m =>
      let rest := rest_one (blanket_unsafe c (si_array (slice_array c (vty_of n))) (si_iterable c (slice_array c (vty_of n)))) in
      match simd_reduce (zip_iterator (slice_iterator c (vty_of n)) rest) 30 (simd_iter l1 (splat (p_width n) d), simd_iter l2 (splat (p_width n) 0)) (splat (p_width m) 0)
              (fun s p => match portable_accumulate_zip fs true fop fsqrt (fun z => z) c (EInt t) add_products s (fst p) (snd p) with Some (Ok r) => r | _ => [] end), filter (fun p => String.eqb (s_vec p) (p_vec m)) unknown_sum with
      | Ok (acc, _), [p] => Some (sum_portable (fun e => fop Add e) c p acc) | _, _ => None end
    | _, _ => None end in
  let l1 := repeat 200 18 ++ [220] in let l2 := repeat 10 18 ++ [7] in
  dot u8 u16 3 l1 l2 = Some (Ok 37540) /\ total (map2 Z.mul l1 l2) = 37540 /\ 37540 <= imax u16.
Proof. cbv zeta. split; [vm_compute; reflexivity|]. split; [vm_compute; reflexivity|vm_compute; discriminate]. Qed.
