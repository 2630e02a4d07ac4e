(** Properties: programs on the portable back-end (C94). *)
From Coq Require Import String.
From Verif Require Import Base Spec VecSpec Vecs Iters Zip ZipSpec Stride GateTables GateSpec Gates Lanes Floats FloatSpec OpTables Ops OpSpec Tables Shuffles PortTables Ports PortSpec SumTables Sums SumSpec Builds PipeSpec AvailSpec UnknownTables Unknown ExprSpec Exprs OverflowSpec Portables.
Open Scope list_scope.
Open Scope Z_scope.
From Verif Require Import PortableProofs.

(** C94: a closure called with natural vectors of the portable back-end compiles.  In a
    release build, and in a debug build if the scalar program overflows in no lane, it
    returns what the scalar program computes for each lane; in a debug build it panics if
    the scalar program overflows in some lane. *)
Theorem C94_closure : forall (fs : features) (c : config) (tie : bool) (fop : arith -> elty -> Z -> Z -> Z) (fsqrt : elty -> Z -> Z) (narrow : Z -> Z) (e0 e1 : elty) (x : expr) (args : list (list Z)) (l0 l1 : packed_line),
  fs "undefined"%string = false -> In e0 primitives ->
  (forall o e u v, e = EF32 \/ e = EF64 -> lane e u -> lane e v -> lane e (fop o e u v)) -> (forall e u, e = EF32 \/ e = EF64 -> lane e u -> lane e (fsqrt e u)) ->
  type_of e0 (length args) x = Some e1 -> portable_natural fs (el_name e0 ++ "s") = [l0] -> portable_natural fs (el_name e1 ++ "s") = [l1] ->
  args <> [] -> Forall (fun v => zlen v = p_width l0 /\ Forall (lane e0) v) args ->
  let result := portable_run fs c tie fop fsqrt narrow e0 (length args) x args in
  (build c = Release \/ (forall k env, column args k env -> overflows e0 (length args) fop fsqrt x env = false) ->
    exists v, result = Some (Ok v) /\ zlen v = p_width l1 /\ Forall (lane e1) v /\
      forall k env, column args k env -> znth v k = Some (meaning e0 (length args) fop fsqrt x env)) /\
  (build c = Debug -> forall k env, column args k env -> overflows e0 (length args) fop fsqrt x env = true -> result = Some Panic).
Proof. exact c94_closure. Qed.
Print Assumptions C94_closure.

(** C94: [l.simd_iter(d).simd_map(closure).scalar_collect()] on the portable back-end, in
    a release build, or in a debug build if the scalar program overflows for no element of
    the slice and of the default vector: the scalar program applied to every element. *)
Theorem C94_map : forall (fs : features) (c : config) (tie : bool) (fop : arith -> elty -> Z -> Z -> Z) (fsqrt : elty -> Z -> Z) (narrow : Z -> Z) (e0 e1 : elty) (x : expr) (l d : list Z) (l0 l1 : packed_line)
    (E : Type) (func : E -> list Z -> list Z * E) (e : E) (fuel : nat),
  fs "undefined"%string = false -> In e0 primitives ->
  (forall o e u v, e = EF32 \/ e = EF64 -> lane e u -> lane e v -> lane e (fop o e u v)) -> (forall e u, e = EF32 \/ e = EF64 -> lane e u -> lane e (fsqrt e u)) ->
  type_of e0 1 x = Some e1 -> portable_natural fs (el_name e0 ++ "s") = [l0] -> portable_natural fs (el_name e1 ++ "s") = [l1] ->
  Forall (lane e0) l -> zlen d = p_width l0 -> Forall (lane e0) d -> zlen l * p_size l0 + 16 <= isize_max -> (length l < fuel)%nat ->
  build c = Release \/ Forall (fun a => overflows e0 1 fop fsqrt x [a] = false) (l ++ d) ->
  (forall e v r, zlen v = p_width l0 -> Forall (lane e0) v -> portable_run fs c tie fop fsqrt narrow e0 1 x [v] = Some (Ok r) -> fst (func e v) = r) ->
  exists s', scalar_collect c (map_iterator c (slice_iterator c (vty_of l0)) (vty_of l1) 0 func) 0 fuel (mkSIMDMap (simd_iter l d) e) =
    Ok (map (fun a => Some (meaning e0 1 fop fsqrt x [a])) l, s').
Proof. exact c94_map. Qed.
Print Assumptions C94_map.

(** C94: the same for [n+2] zipped slices of equal length, in a release build or if the
    scalar program never overflows. *)
Theorem C94_zip : forall (fs : features) (c : config) (tie : bool) (fop : arith -> elty -> Z -> Z -> Z) (fsqrt : elty -> Z -> Z) (narrow : Z -> Z) (e0 e1 : elty) (x : expr) (n : nat) (ls ds : list (list Z)) (N : Z) (l0 l1 : packed_line)
    (E : Type) (func : E -> tuple (list Z) (S n) -> list Z * E) (e : E) (t : tuple (SIMDIter Z (list Z)) (S n)) (fuel : nat),
  fs "undefined"%string = false -> In e0 primitives ->
  (forall o e u v, e = EF32 \/ e = EF64 -> lane e u -> lane e v -> lane e (fop o e u v)) -> (forall e u, e = EF32 \/ e = EF64 -> lane e u -> lane e (fsqrt e u)) ->
  type_of e0 (S (S n)) x = Some e1 -> portable_natural fs (el_name e0 ++ "s") = [l0] -> portable_natural fs (el_name e1 ++ "s") = [l1] ->
  Forall (fun l => zlen l = N /\ Forall (lane e0) l) ls -> Forall (fun d => zlen d = p_width l0 /\ Forall (lane e0) d) ds -> length ls = length ds ->
  items (S n) t = map2 simd_iter ls ds -> N * p_size l0 + 16 <= isize_max -> N < Z.of_nat fuel ->
  build c = Release \/ (forall r, Forall (lane e0) r -> overflows e0 (S (S n)) fop fsqrt x r = false) ->
  (forall e t r, Forall (fun v => zlen v = p_width l0 /\ Forall (lane e0) v) (items (S n) t) -> portable_run fs c tie fop fsqrt narrow e0 (S (S n)) x (items (S n) t) = Some (Ok r) -> fst (func e t) = r) ->
  let rest := rest_many (blanket_unsafe c (si_array (slice_array c (vty_of l0))) (si_iterable c (slice_array c (vty_of l0)))) n in
  let m := zipmap_iterator c (zip_iterator (slice_iterator c (vty_of l0)) rest) (vty_of l1) 0 func in
  zip (slice_iterator c (vty_of l0)) rest t = Ok t /\
  exists out s', scalar_collect c m 0 fuel (mkSIMDMap t e) = Ok (map Some out, s') /\
    zlen out = N /\ forall k r, column ls k r -> znth out k = Some (meaning e0 (S (S n)) fop fsqrt x r).
Proof. exact c94_zip. Qed.
Print Assumptions C94_zip.

(** C94: a program that maps a closure over a slice returns the same on every x86 target
    and on every other target, in release builds (in debug builds if it overflows for no
    element). *)
Theorem C94_same : forall (fs gs : features) (c c' : config) (tie tie' : bool) (fop : arith -> elty -> Z -> Z -> Z) (fsqrt : elty -> Z -> Z) (narrow : Z -> Z) (e0 e1 : elty) (x : expr) (l d d' : list Z) (l0 l1 m0 m1 : packed_line)
    (E : Type) (func func' : E -> list Z -> list Z * E) (e : E) (fuel : nat),
  target fs -> gs "undefined"%string = false -> In e0 primitives ->
  (forall o e u v, e = EF32 \/ e = EF64 -> lane e u -> lane e v -> lane e (fop o e u v)) -> (forall e u, e = EF32 \/ e = EF64 -> lane e u -> lane e (fsqrt e u)) ->
  type_of e0 1 x = Some e1 -> natural fs (el_name e0 ++ "s") = [l0] -> natural fs (el_name e1 ++ "s") = [l1] -> portable_natural gs (el_name e0 ++ "s") = [m0] -> portable_natural gs (el_name e1 ++ "s") = [m1] ->
  Forall (lane e0) l -> zlen d = p_width l0 -> Forall (lane e0) d -> zlen d' = p_width m0 -> Forall (lane e0) d' -> zlen l * p_size l0 + 32 <= isize_max -> (length l < fuel)%nat ->
  build c' = Release \/ Forall (fun a => overflows e0 1 fop fsqrt x [a] = false) (l ++ d') ->
  (forall e v r, zlen v = p_width l0 -> Forall (lane e0) v -> run fs tie fop fsqrt narrow e0 1 x [v] = Some (Ok r) -> fst (func e v) = r) ->
  (forall e v r, zlen v = p_width m0 -> Forall (lane e0) v -> portable_run gs c' tie' fop fsqrt narrow e0 1 x [v] = Some (Ok r) -> fst (func' e v) = r) ->
  exists out s s', scalar_collect c (map_iterator c (slice_iterator c (vty_of l0)) (vty_of l1) 0 func) 0 fuel (mkSIMDMap (simd_iter l d) e) = Ok (out, s) /\
    scalar_collect c' (map_iterator c' (slice_iterator c' (vty_of m0)) (vty_of m1) 0 func') 0 fuel (mkSIMDMap (simd_iter l d') e) = Ok (out, s') /\ length out = length l.
Proof. exact c94_same. Qed.
Print Assumptions C94_same.

(** examples/main.rs:14-17, [i8s(9) * v.abs().be_i8s() - i8s(4) - i8s(2)], on the portable
    back-end: a release build returns the same as x86 ([C83_map_case]); a debug build
    panics on 127 (where 9 * 127 overflows) and returns on a vector without overflow. *)
Example C94_map_case :
  let x := Arith Sub (Arith Sub (Arith Mul (Splat (EInt i8) 9) (Be (EInt i8) (Abs (Arg 0)))) (Splat (EInt i8) 4)) (Splat (EInt i8) 2) in
  let fop := fun (_ : arith) (_ : elty) u (_ : Z) => u in let fsqrt := fun (_ : elty) u => u in let fs : features := fun _ => false in
  let l := [-10;-10;10;0;1;-128;127;-10;-10;10;0;1;-128;127;-10;-10;10;0;1;-128;127] in
  let run c v := portable_run fs c true fop fsqrt (fun z => z) (EInt i8) 1 x [v] in
  let func c := fun (e : unit) v => (match run c v with Some (Ok r) => r | _ => [] end, e) in
  exists n, portable_natural fs "i8s" = [n] /\ p_width n = 16 /\
  (forall b, exists s', scalar_collect (mkConfig Release b) (map_iterator (mkConfig Release b) (slice_iterator (mkConfig Release b) (vty_of n)) (vty_of n) 0 (func (mkConfig Release b))) 0 30 (mkSIMDMap (simd_iter l (splat (p_width n) 0)) tt) =
     Ok (map Some [84;84;84;-6;3;122;113;84;84;84;-6;3;122;113;84;84;84;-6;3;122;113], s')) /\
  overflows (EInt i8) 1 fop fsqrt x [127] = true /\ run (mkConfig Debug true) (firstn 16 l) = Some Panic /\
  overflows (EInt i8) 1 fop fsqrt x [-10] = false /\ run (mkConfig Debug true) (splat 16 (-10)) = Some (Ok (splat 16 84)).
Proof.
  cbv zeta. eexists. split; [vm_compute; reflexivity|]. split; [reflexivity|]. split; [intros b; eexists; destruct b; vm_compute; reflexivity|]. repeat split; vm_compute; reflexivity.
Qed.

(** A float closure with every method for floats, on the portable back-end in a debug
    build: [floor(sqrt(abs(v))) + 1.0], with [ne_mask] against the argument. *)
Example C94_float_case :
  let x := Call NeMask (Arith Add (Rounded Floor (Abs (Arg 0))) (Splat EF32 1065353216)) (Arg 1) in
  let fop := fun (_ : arith) (_ : elty) u (_ : Z) => u in let fsqrt := fun (_ : elty) u => u in let fs : features := fun _ => false in
  type_of EF32 2 x = Some (EInt u32) /\ (forall r, overflows EF32 2 fop fsqrt x r = false) /\
  portable_run fs (mkConfig Debug true) true fop fsqrt (fun z => z) EF32 2 x [[1069547520; 3217031168; 0; 2143289344]; [1065353216; 1065353216; 2147483648; 2143289344]] = Some (Ok [0; 0; 0; 4294967295]).
Proof. cbv zeta. split; [reflexivity|]. split; [intros r; reflexivity|vm_compute; reflexivity]. Qed.
