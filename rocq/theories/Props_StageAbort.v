(** Properties: what kernels with f64 stages leave in memory when they panic (C99). *)
From Coq Require Import String.
From Verif Require Import Base Spec VecSpec Vecs Iters GateTables GateSpec Lanes OpTables PipeSpec ExprSpec Exprs OverflowSpec Arith Demos Portables Crash CrashSpec DoubleSpec Doubles StageSpec Stages.
Open Scope list_scope.
Open Scope Z_scope.
From Verif Require Import StageAbortProofs.

(** C99: [s.simd_iter(d).simd_map(|v| ..).scalar_fill(buf)] with a closure in three stages, in a
    debug build of the portable back-end, when element [i] is one for which an integer
    operation overflows, and no element of an earlier vector is: the call panics, and the
    buffer holds the results of the earlier vectors and, after them, what it held before. *)
Theorem C99_fill_panic : forall (fs : features) (c : config) (tie : bool) (fop : arith -> elty -> Z -> Z -> Z) (fsqrt : elty -> Z -> Z) (narrow : Z -> Z) (e0 e e1 : elty) (ps : list expr) (x q : expr) (l d buf : list Z) (l0 l1 : packed_line)
    (E : Type) (func : E -> list Z -> outcome (list Z * E)) (env : E) (d0 d1 : Z) (fuel : nat) (i a : Z),
  fs "undefined"%string = false -> In e0 primitives -> In e doubles ->
  (forall o e u v, e = EF32 \/ e = EF64 -> lane e u -> lane e v -> lane e (fop o e u v)) -> (forall e u, e = EF32 \/ e = EF64 -> lane e u -> lane e (fsqrt e u)) ->
  (forall u, lane EF64 u -> lane EF32 (narrow u)) ->
  ps <> [] -> Forall (fun p => type_of e0 1 p = Some e) ps -> type_of EF64 (length ps) x = Some EF64 -> type_of EF32 1 q = Some e1 ->
  portable_natural fs (el_name e0 ++ "s") = [l0] -> portable_natural fs (el_name e1 ++ "s") = [l1] ->
  Forall (lane e0) l -> zlen d = p_width l0 -> Forall (lane e0) d -> zlen l * p_size l0 <= isize_max -> (length l < fuel)%nat -> zlen l <= zlen buf ->
  (forall e' v r, zlen v = p_width l0 -> func e' v = Ok r -> zlen (fst r) = p_width l1) ->
  (forall e' v, zlen v = p_width l0 -> Forall (lane e0) v -> portable_mixed fs tie fop fsqrt narrow c e0 e ps x q [v] = Some (let! r := func e' v in Ok (fst r))) ->
  let done := p_width l0 * (i / p_width l0) in
  build c = Debug -> znth l i = Some a -> staged_overflows fop fsqrt narrow e0 e 1 ps x q [a] = true ->
  (forall j b, j < done -> znth l j = Some b -> staged_overflows fop fsqrt narrow e0 e 1 ps x q [b] = false) ->
  scalar_fill_memory c (panicking_map_iterator c (slice_iterator c (vty_of l0)) (vty_of l1) d0 func) d1 fuel (mkSIMDMap (simd_iter l d) env) buf =
    (map (fun b => staged fop fsqrt narrow e0 e 1 ps x q [b]) (firstn (Z.to_nat done) l) ++ skipn (Z.to_nat done) buf, Panic).
Proof. exact c99_fill_panic. Qed.
Print Assumptions C99_fill_panic.

(** Ten [i32], of which the one at index 6 is so large that [v * 2] overflows: the buffer holds
    the results of the first vector only. *)
Example C99_fill_panic_case : let fs : features := fun _ => false in let c := mkConfig Debug true in let i := EInt i32 in
  let p := Arith Mul (Arg 0) (Splat i 2) in let l := [1; 2; 3; 4; 5; 6; 2000000000; 8; 9; 10] in
  let fop := fun (_ : arith) (_ : elty) u (_ : Z) => u in let fsqrt := fun (_ : elty) u => u in let narrow := fun z => z / 2 ^ 32 in
  let run v := portable_mixed fs true fop fsqrt narrow c i i [p] (Abs (Arg 0)) (Arg 0) [v] in
  let func := fun (e : unit) v => match run v with Some (Ok r) => Ok (r, e) | Some Panic => Panic | _ => UB end in
  type_of i 1 p = Some i /\ staged_overflows fop fsqrt narrow i i 1 [p] (Abs (Arg 0)) (Arg 0) [2000000000] = true /\
  exists n, portable_natural fs "i32s" = [n] /\ p_width n = 4 /\
  scalar_fill_memory c (panicking_map_iterator c (slice_iterator c (vty_of n)) (vty_of n) 0 func) 0 20 (mkSIMDMap (simd_iter l [0; 0; 0; 0]) tt) (splat 12 77) = ([1073741824; 1074790400; 1075314688; 1075838976] ++ splat 8 77, Panic).
Proof. cbv zeta. split; [reflexivity|]. split; [vm_compute; reflexivity|]. eexists. split; [vm_compute; reflexivity|]. split; [reflexivity|]. vm_compute. reflexivity. Qed.
