(** Properties: kernels that compute with wider lanes and write to a buffer, on the portable back-end (C95). *)
From Coq Require Import String.
From Verif Require Import Base Spec VecSpec Vecs Iters GateTables GateSpec Lanes OpTables Ops OpSpec Ports PortSpec PipeSpec ExprSpec Exprs WidenSpec Widens OverflowSpec Portables WidePorts Crash CrashSpec.
Open Scope list_scope.
Open Scope Z_scope.
From Verif Require Import WideFillProofs.

(** C95: [s.simd_iter(d).simd_map(|v| { let (a, b) = v.upcast(); f(a).saturating_downcast(f(b)) })
    .scalar_fill(buf)] on the portable back-end: the results in order, and the rest of the
    buffer unchanged. *)
Theorem C95_fill : forall (fs : features) (c : config) (tie : bool) (fop : arith -> elty -> Z -> Z -> Z) (fsqrt : elty -> Z -> Z) (narrow : Z -> Z) (e : elty) (t : ity) (x : expr) (P : Z -> Prop) (l d buf : list Z) (l0 l1 : packed_line)
    (E : Type) (func : E -> list Z -> list Z * E) (env : E) (fuel : nat),
  fs "undefined"%string = false -> In e widenable -> (forall a, P a -> lane e a) ->
  (forall o e u v, e = EF32 \/ e = EF64 -> lane e u -> lane e v -> lane e (fop o e u v)) -> (forall e u, e = EF32 \/ e = EF64 -> lane e u -> lane e (fsqrt e u)) ->
  type_of (wide e) 1 x = Some (EInt t) -> t <> u64 \/ (forall a, P a -> meaning (wide e) 1 fop fsqrt x [a] <= 2147483647) ->
  build c = Release \/ (forall a, P a -> overflows (wide e) 1 fop fsqrt x [a] = false) ->
  portable_natural fs (el_name e ++ "s") = [l0] -> portable_natural fs (el_name (EInt (half t)) ++ "s") = [l1] ->
  Forall P l -> zlen d = p_width l0 -> Forall P d -> zlen l * p_size l0 + 16 <= isize_max -> (length l < fuel)%nat -> zlen l <= zlen buf ->
  (forall e' v r, zlen v = p_width l0 -> Forall P v -> portable_widened fs c tie fop fsqrt narrow e x [v] = Some (Ok r) -> fst (func e' v) = r) ->
  exists s', scalar_fill c (map_iterator c (slice_iterator c (vty_of l0)) (vty_of l1) 0 func) 0 fuel (mkSIMDMap (simd_iter l d) env) buf =
    Ok (map (fun a => clamp (half t) (meaning (wide e) 1 fop fsqrt x [a])) l ++ skipn (length l) buf, s').
Proof. exact c95_fill. Qed.
Print Assumptions C95_fill.

(** C95: the same in a debug build when element [i] is one for which [f] overflows the wider
    type, and no element of an earlier vector is: the call panics, and the buffer holds the
    results of the earlier vectors and, after them, what it held before. *)
Theorem C95_fill_panic : forall (fs : features) (c : config) (tie : bool) (fop : arith -> elty -> Z -> Z -> Z) (fsqrt : elty -> Z -> Z) (narrow : Z -> Z) (e : elty) (t : ity) (x : expr) (P : Z -> Prop) (l d buf : list Z) (l0 l1 : packed_line)
    (E : Type) (func : E -> list Z -> outcome (list Z * E)) (env : E) (d0 d1 : Z) (fuel : nat) (i a : Z),
  fs "undefined"%string = false -> In e widenable -> (forall a, P a -> lane e a) ->
  (forall o e u v, e = EF32 \/ e = EF64 -> lane e u -> lane e v -> lane e (fop o e u v)) -> (forall e u, e = EF32 \/ e = EF64 -> lane e u -> lane e (fsqrt e u)) ->
  type_of (wide e) 1 x = Some (EInt t) -> t <> u64 \/ (forall a, P a -> meaning (wide e) 1 fop fsqrt x [a] <= 2147483647) ->
  portable_natural fs (el_name e ++ "s") = [l0] -> portable_natural fs (el_name (EInt (half t)) ++ "s") = [l1] ->
  Forall P l -> zlen d = p_width l0 -> Forall P d -> zlen l * p_size l0 <= isize_max -> (length l < fuel)%nat -> zlen l <= zlen buf ->
  (forall e' v r, zlen v = p_width l0 -> func e' v = Ok r -> zlen (fst r) = p_width l1) ->
  (forall e' v, zlen v = p_width l0 -> Forall P v -> portable_widened fs c tie fop fsqrt narrow e x [v] = Some (let! r := func e' v in Ok (fst r))) ->
  let done := p_width l0 * (i / p_width l0) in
  build c = Debug -> znth l i = Some a -> overflows (wide e) 1 fop fsqrt x [a] = true ->
  (forall j b, j < done -> znth l j = Some b -> overflows (wide e) 1 fop fsqrt x [b] = false) ->
  scalar_fill_memory c (panicking_map_iterator c (slice_iterator c (vty_of l0)) (vty_of l1) d0 func) d1 fuel (mkSIMDMap (simd_iter l d) env) buf =
    (map (fun b => clamp (half t) (meaning (wide e) 1 fop fsqrt x [b])) (firstn (Z.to_nat done) l) ++ skipn (Z.to_nat done) buf, Panic).
Proof. exact c95_fill_panic. Qed.
Print Assumptions C95_fill_panic.

(** [v * v * v] of ten [i16] computed in [i32] and saturated; in a debug build 30000, of which
    the cube does not fit [i32], makes the call panic after the first vector. *)
Example C95_fill_case : let fs : features := fun _ => false in let i := EInt i16 in let x := Arith Mul (Arith Mul (Arg 0) (Arg 0)) (Arg 0) in
  let l := [1; -2; 3; 32; -33; 5; 6; 7; 8; 30000] in
  let fop := fun (_ : arith) (_ : elty) u (_ : Z) => u in let fsqrt := fun (_ : elty) u => u in
  let run c v := portable_widened fs c true fop fsqrt (fun z => z) i x [v] in
  let func c := fun (e : unit) v => match run c v with Some (Ok r) => (r, e) | _ => ([], e) end in
  let func' c := fun (e : unit) v => match run c v with Some (Ok r) => Ok (r, e) | Some Panic => Panic | _ => UB end in
  type_of (wide i) 1 x = Some (EInt i32) /\ overflows (wide i) 1 fop fsqrt x [30000] = true /\
  exists n, portable_natural fs "i16s" = [n] /\ p_width n = 8 /\
  (let c := mkConfig Debug true in scalar_fill_memory c (panicking_map_iterator c (slice_iterator c (vty_of n)) (vty_of n) 0 (func' c)) 0 20 (mkSIMDMap (simd_iter l (splat 8 0)) tt) (splat 12 77) = ([1; -8; 27; 32767; -32768; 125; 216; 343] ++ splat 4 77, Panic)) /\
  (let c := mkConfig Debug true in exists s', scalar_fill c (map_iterator c (slice_iterator c (vty_of n)) (vty_of n) 0 (func c)) 0 20 (mkSIMDMap (simd_iter (firstn 9 l) (splat 8 0)) tt) (splat 12 77) = Ok ([1; -8; 27; 32767; -32768; 125; 216; 343; 512] ++ splat 3 77, s')).
Proof. cbv zeta. split; [reflexivity|]. split; [vm_compute; reflexivity|]. eexists. split; [vm_compute; reflexivity|]. split; [reflexivity|]. split; [vm_compute; reflexivity|]. eexists. vm_compute. reflexivity. Qed.
