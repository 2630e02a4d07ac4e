(** Properties: what programs on the portable back-end leave in memory when an operator overflows (C94). *)
From Coq Require Import String.
From Verif Require Import Base Spec VecSpec Vecs Iters GateTables GateSpec Lanes OpTables PipeSpec ExprSpec Exprs OverflowSpec Portables Crash CrashSpec.
Open Scope list_scope.
Open Scope Z_scope.
From Verif Require Import AbortProofs.

(** C94: [l.simd_iter_mut(d).simd_for_each(|v| *v = closure(v))] on the portable back-end,
    in a release build, or in a debug build if the scalar program overflows for no element
    of the slice and of the default vector: every element becomes what the scalar program
    returns for it. *)
Theorem C94_for_each : forall (fs : features) (c : config) (tie : bool) (fop : arith -> elty -> Z -> Z -> Z) (fsqrt : elty -> Z -> Z) (narrow : Z -> Z) (e0 : elty) (x : expr) (l d : list Z) (l0 : packed_line)
    (E : Type) (func : E -> list Z -> list Z * E) (e : E) (d0 : Z) (fuel : nat),
  fs "undefined"%string = false -> In e0 primitives ->
  (forall o e u v, e = EF32 \/ e = EF64 -> lane e u -> lane e v -> lane e (fop o e u v)) -> (forall e u, e = EF32 \/ e = EF64 -> lane e u -> lane e (fsqrt e u)) ->
  type_of e0 1 x = Some e0 -> portable_natural fs (el_name e0 ++ "s") = [l0] ->
  Forall (lane e0) l -> zlen d = p_width l0 -> Forall (lane e0) d -> zlen l * p_size l0 <= isize_max -> (length l < fuel)%nat ->
  build c = Release \/ Forall (fun a => overflows e0 1 fop fsqrt x [a] = false) (l ++ d) ->
  (forall e v, zlen v = p_width l0 -> zlen (fst (func e v)) = p_width l0) ->
  (forall e v r, zlen v = p_width l0 -> Forall (lane e0) v -> portable_run fs c tie fop fsqrt narrow e0 1 x [v] = Some (Ok r) -> fst (func e v) = r) ->
  exists e', simd_for_each c (vty_of l0) d0 func fuel (simd_iter l d) e =
    Ok (mkSIMDIter (zlen l) (map (fun a => meaning e0 1 fop fsqrt x [a]) l) d, e').
Proof. exact c94_for_each. Qed.
Print Assumptions C94_for_each.

(** C94: the same in a debug build when element [i] is one for which the scalar program
    overflows, and no element of an earlier vector is: the call panics, the elements of
    the earlier vectors have been replaced, and the rest of the slice is as it was. *)
Theorem C94_for_each_panic : forall (fs : features) (c : config) (tie : bool) (fop : arith -> elty -> Z -> Z -> Z) (fsqrt : elty -> Z -> Z) (narrow : Z -> Z) (e0 : elty) (x : expr) (l d : list Z) (l0 : packed_line)
    (E : Type) (func : E -> list Z -> outcome (list Z * E)) (e : E) (d0 : Z) (fuel : nat) (i a : Z),
  fs "undefined"%string = false -> In e0 primitives ->
  (forall o e u v, e = EF32 \/ e = EF64 -> lane e u -> lane e v -> lane e (fop o e u v)) -> (forall e u, e = EF32 \/ e = EF64 -> lane e u -> lane e (fsqrt e u)) ->
  type_of e0 1 x = Some e0 -> portable_natural fs (el_name e0 ++ "s") = [l0] ->
  Forall (lane e0) l -> zlen d = p_width l0 -> Forall (lane e0) d -> zlen l * p_size l0 <= isize_max -> (length l < fuel)%nat ->
  (forall e v r, zlen v = p_width l0 -> func e v = Ok r -> zlen (fst r) = p_width l0) ->
  (forall e v, zlen v = p_width l0 -> Forall (lane e0) v -> portable_run fs c tie fop fsqrt narrow e0 1 x [v] = Some (let! q := func e v in Ok (fst q))) ->
  let done := p_width l0 * (i / p_width l0) in
  build c = Debug -> znth l i = Some a -> overflows e0 1 fop fsqrt x [a] = true ->
  (forall j b, j < done -> znth l j = Some b -> overflows e0 1 fop fsqrt x [b] = false) ->
  simd_for_each_memory c (vty_of l0) d0 func fuel (simd_iter l d) e =
    (map (fun b => meaning e0 1 fop fsqrt x [b]) (firstn (Z.to_nat done) l) ++ skipn (Z.to_nat done) l, Panic).
Proof. exact c94_for_each_panic. Qed.
Print Assumptions C94_for_each_panic.

(** C94: [l.simd_iter(d).simd_map(closure).scalar_fill(buf)] in a debug build when element
    [i] is one for which the scalar program overflows, and no element of an earlier vector
    is: the call panics, and the buffer holds the results of the earlier vectors and, after
    them, what it held before. *)
Theorem C94_fill_panic : forall (fs : features) (c : config) (tie : bool) (fop : arith -> elty -> Z -> Z -> Z) (fsqrt : elty -> Z -> Z) (narrow : Z -> Z) (e0 e1 : elty) (x : expr) (l d buf : list Z) (l0 l1 : packed_line)
    (E : Type) (func : E -> list Z -> outcome (list Z * E)) (e : E) (d0 d1 : Z) (fuel : nat) (i a : Z),
  fs "undefined"%string = false -> In e0 primitives ->
  (forall o e u v, e = EF32 \/ e = EF64 -> lane e u -> lane e v -> lane e (fop o e u v)) -> (forall e u, e = EF32 \/ e = EF64 -> lane e u -> lane e (fsqrt e u)) ->
  type_of e0 1 x = Some e1 -> portable_natural fs (el_name e0 ++ "s") = [l0] -> portable_natural fs (el_name e1 ++ "s") = [l1] ->
  Forall (lane e0) l -> zlen d = p_width l0 -> Forall (lane e0) d -> zlen l * p_size l0 <= isize_max -> (length l < fuel)%nat -> zlen l <= zlen buf ->
  (forall e v r, zlen v = p_width l0 -> func e v = Ok r -> zlen (fst r) = p_width l1) ->
  (forall e v, zlen v = p_width l0 -> Forall (lane e0) v -> portable_run fs c tie fop fsqrt narrow e0 1 x [v] = Some (let! q := func e v in Ok (fst q))) ->
  let done := p_width l0 * (i / p_width l0) in
  build c = Debug -> znth l i = Some a -> overflows e0 1 fop fsqrt x [a] = true ->
  (forall j b, j < done -> znth l j = Some b -> overflows e0 1 fop fsqrt x [b] = false) ->
  scalar_fill_memory c (panicking_map_iterator c (slice_iterator c (vty_of l0)) (vty_of l1) d0 func) d1 fuel (mkSIMDMap (simd_iter l d) e) buf =
    (map (fun b => meaning e0 1 fop fsqrt x [b]) (firstn (Z.to_nat done) l) ++ skipn (Z.to_nat done) buf, Panic).
Proof. exact c94_fill_panic. Qed.
Print Assumptions C94_fill_panic.

(** examples/main.rs:14-17 in place, on the portable back-end: a release build replaces all
    38 elements; a debug build panics on the third vector (127 at index 34, where 9 * 127
    overflows), with the first two vectors already replaced. *)
Example C94_for_each_case :
  let x := Arith Sub (Arith Sub (Arith Mul (Splat (EInt i8) 9) (Be (EInt i8) (Abs (Arg 0)))) (Splat (EInt i8) 4)) (Splat (EInt i8) 2) in
  let fop := fun (_ : arith) (_ : elty) u (_ : Z) => u in let fsqrt := fun (_ : elty) u => u in let fs : features := fun _ => false in
  let l := splat 34 (-10) ++ [127; 3; 3; 3] in let m := splat 32 84 ++ [-10; -10; 127; 3; 3; 3] in
  let run c v := portable_run fs c true fop fsqrt (fun z => z) (EInt i8) 1 x [v] in
  let func c := fun (e : unit) v => (match run c v with Some (Ok r) => r | _ => [] end, e) in
  let func' c := fun (e : unit) v => match run c v with Some (Ok r) => Ok (r, e) | Some Panic => Panic | _ => UB end in
  exists n, portable_natural fs "i8s" = [n] /\ p_width n = 16 /\
  simd_for_each (mkConfig Release true) (vty_of n) 0 (func (mkConfig Release true)) 40 (simd_iter l (splat 16 0)) tt = Ok (mkSIMDIter 38 (splat 34 84 ++ [113; 21; 21; 21]) (splat 16 0), tt) /\
  overflows (EInt i8) 1 fop fsqrt x [127] = true /\ overflows (EInt i8) 1 fop fsqrt x [-10] = false /\
  simd_for_each_memory (mkConfig Debug true) (vty_of n) 0 (func' (mkConfig Debug true)) 40 (simd_iter l (splat 16 0)) tt = (m, Panic) /\
  scalar_fill_memory (mkConfig Debug true) (panicking_map_iterator (mkConfig Debug true) (slice_iterator (mkConfig Debug true) (vty_of n)) (vty_of n) 0 (func' (mkConfig Debug true))) 0 40 (mkSIMDMap (simd_iter l (splat 16 0)) tt) (splat 40 7) = (splat 32 84 ++ splat 8 7, Panic).
Proof. cbv zeta. eexists. split; [vm_compute; reflexivity|]. split; [reflexivity|]. repeat split; vm_compute; reflexivity. Qed.
