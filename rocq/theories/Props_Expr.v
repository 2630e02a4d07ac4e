(** Properties: programs return the same in every build (C83). *)
From Coq Require Import String.
From Verif Require Import Base Spec VecSpec Vecs Iters Zip ZipSpec Stride GateTables GateSpec Gates Lanes Floats FloatSpec OpTables Ops OpSpec Tables Shuffles PortTables Ports PortSpec SumTables Sums SumSpec Builds PipeSpec AvailSpec ExprSpec Exprs.
Open Scope list_scope.
Open Scope Z_scope.
From Verif Require Import ExprProofs.

(** C83: a closure made of operators, constants, [min], [max], [saturating_add],
    [saturating_sub], [eq_mask], [abs], [sqrt] and reinterpretations, called with natural
    vectors: in every build it compiles, does not panic, and puts into every lane what the
    scalar program computes from the scalars of that lane. *)
Theorem C83_closure : forall (fs : features) (tie : bool) (fop : arith -> elty -> Z -> Z -> Z) (fsqrt : elty -> Z -> Z) (narrow : Z -> Z) (e0 e1 : elty) (x : expr) (args : list (list Z)) (l0 l1 : packed_line),
  target fs -> In e0 primitives ->
  (forall o e u v, e = EF32 \/ e = EF64 -> lane e u -> lane e v -> lane e (fop o e u v)) -> (forall e u, e = EF32 \/ e = EF64 -> lane e u -> lane e (fsqrt e u)) ->
  type_of e0 (length args) x = Some e1 -> natural fs (el_name e0 ++ "s") = [l0] -> natural fs (el_name e1 ++ "s") = [l1] ->
  args <> [] -> Forall (fun v => zlen v = p_width l0 /\ Forall (lane e0) v) args ->
  exists v, run fs tie fop fsqrt narrow e0 (length args) x args = Some (Ok v) /\ zlen v = p_width l1 /\ Forall (lane e1) v /\
    forall k env, column args k env -> znth v k = Some (meaning e0 (length args) fop fsqrt x env).
Proof. exact c83_closure. Qed.
Print Assumptions C83_closure.

(** C83: [l.simd_iter(d).simd_map(closure).scalar_collect()] returns, in every build, the
    scalar program applied to every element of the slice. *)
Theorem C83_map : forall (fs : features) (c : config) (tie : bool) (fop : arith -> elty -> Z -> Z -> Z) (fsqrt : elty -> Z -> Z) (narrow : Z -> Z) (e0 e1 : elty) (x : expr) (l d : list Z) (l0 l1 : packed_line)
    (E : Type) (func : E -> list Z -> list Z * E) (e : E) (fuel : nat),
  target fs -> In e0 primitives ->
  (forall o e u v, e = EF32 \/ e = EF64 -> lane e u -> lane e v -> lane e (fop o e u v)) -> (forall e u, e = EF32 \/ e = EF64 -> lane e u -> lane e (fsqrt e u)) ->
  type_of e0 1 x = Some e1 -> natural fs (el_name e0 ++ "s") = [l0] -> natural fs (el_name e1 ++ "s") = [l1] ->
  Forall (lane e0) l -> zlen d = p_width l0 -> Forall (lane e0) d -> zlen l * p_size l0 + 32 <= isize_max -> (length l < fuel)%nat ->
  (forall e v, zlen v = p_width l0 -> Forall (lane e0) v -> run fs tie fop fsqrt narrow e0 1 x [v] = Some (Ok (fst (func e v)))) ->
  exists s', scalar_collect c (map_iterator c (slice_iterator c (vty_of l0)) (vty_of l1) 0 func) 0 fuel (mkSIMDMap (simd_iter l d) e) =
    Ok (map (fun a => Some (meaning e0 1 fop fsqrt x [a])) l, s').
Proof. exact c83_map. Qed.
Print Assumptions C83_map.

(** examples/main.rs:14-17, [i8s(9) * v.abs().be_i8s() - i8s(4) - i8s(2)], on a slice of i8:
    with 128-bit registers and no optional feature, and with SSE4.1, which differ in the
    code that [abs] runs. *)
Example C83_map_case :
  let x := Arith Sub (Arith Sub (Arith Mul (Splat (EInt i8) 9) (Be (EInt i8) (Abs (Arg 0)))) (Splat (EInt i8) 4)) (Splat (EInt i8) 2) in
  let fop := fun (_ : arith) (_ : elty) u (_ : Z) => u in let fsqrt := fun (_ : elty) u => u in let c := mkConfig Debug true in
  let l := [-10;-10;10;0;1;-128;127;-10;-10;10;0;1;-128;127;-10;-10;10;0;1;-128;127] in
  let func fs := fun (e : unit) v => (match run fs true fop fsqrt (fun z => z) (EInt i8) 1 x [v] with Some (Ok r) => r | _ => [] end, e) in
  let collect fs := match natural_of fs (EInt i8) with Some n => Some (scalar_collect c (map_iterator c (slice_iterator c (vty_of n)) (vty_of n) 0 (func fs)) 0 30 (mkSIMDMap (simd_iter l (splat (p_width n) 0)) tt)) | None => None end in
  type_of (EInt i8) 1 x = Some (EInt i8) /\
  (forall a, meaning (EInt i8) 1 fop fsqrt x [a] = wrap i8 (wrap i8 (wrap i8 (9 * wrap i8 (Z.abs a)) - 4) - 2)) /\
  (forall fs n, target fs -> natural fs "i8s" = [n] -> forall e v, zlen v = p_width n -> Forall (lane (EInt i8)) v -> run fs true fop fsqrt (fun z => z) (EInt i8) 1 x [v] = Some (Ok (fst (func fs e v)))) /\
  (exists s', collect (fun _ => false) = Some (Ok (map Some [84;84;84;-6;3;122;113;84;84;84;-6;3;122;113;84;84;84;-6;3;122;113], s'))) /\
  (exists s', collect sandy_bridge = Some (Ok (map Some [84;84;84;-6;3;122;113;84;84;84;-6;3;122;113;84;84;84;-6;3;122;113], s'))).
Proof.
  cbv zeta. split; [reflexivity|]. split; [intros a; reflexivity|]. split; [|split; eexists; vm_compute; reflexivity].
  intros fs n T N e v Lv Fv.
  match goal with |- run _ ?ti ?fo ?sq ?na _ _ ?x _ = _ => destruct (ExprProofs.c83_closure fs ti fo sq na (EInt i8) (EInt i8) x [v] n n T) as (r & R & _) end;
    [right; left; reflexivity|intros o e' a b _ Ha _; exact Ha|intros e' a _ Ha; exact Ha|reflexivity|exact N|exact N|discriminate|constructor; [split; assumption|constructor]|].
  cbn [length] in R. rewrite R. cbn [fst]. reflexivity.
Qed.

(** C83: the same for [n+2] zipped slices of equal length, collected: element [k] is the
    scalar program applied to the elements number [k] of the slices. *)
Theorem C83_zip : forall (fs : features) (c : config) (tie : bool) (fop : arith -> elty -> Z -> Z -> Z) (fsqrt : elty -> Z -> Z) (narrow : Z -> Z) (e0 e1 : elty) (x : expr) (n : nat) (ls ds : list (list Z)) (N : Z) (l0 l1 : packed_line)
    (E : Type) (func : E -> tuple (list Z) (S n) -> list Z * E) (e : E) (t : tuple (SIMDIter Z (list Z)) (S n)) (fuel : nat),
  target fs -> In e0 primitives ->
  (forall o e u v, e = EF32 \/ e = EF64 -> lane e u -> lane e v -> lane e (fop o e u v)) -> (forall e u, e = EF32 \/ e = EF64 -> lane e u -> lane e (fsqrt e u)) ->
  type_of e0 (S (S n)) x = Some e1 -> natural fs (el_name e0 ++ "s") = [l0] -> natural fs (el_name e1 ++ "s") = [l1] ->
  Forall (fun l => zlen l = N /\ Forall (lane e0) l) ls -> Forall (fun d => zlen d = p_width l0 /\ Forall (lane e0) d) ds -> length ls = length ds ->
  items (S n) t = map2 simd_iter ls ds -> N * p_size l0 + 32 <= isize_max -> N < Z.of_nat fuel ->
  (forall e t, Forall (fun v => zlen v = p_width l0 /\ Forall (lane e0) v) (items (S n) t) -> run fs tie fop fsqrt narrow e0 (S (S n)) x (items (S n) t) = Some (Ok (fst (func e t)))) ->
  let rest := rest_many (blanket_unsafe c (si_array (slice_array c (vty_of l0))) (si_iterable c (slice_array c (vty_of l0)))) n in
  let m := zipmap_iterator c (zip_iterator (slice_iterator c (vty_of l0)) rest) (vty_of l1) 0 func in
  zip (slice_iterator c (vty_of l0)) rest t = Ok t /\
  exists out s', scalar_collect c m 0 fuel (mkSIMDMap t e) = Ok (map Some out, s') /\
    zlen out = N /\ forall k r, column ls k r -> znth out k = Some (meaning e0 (S (S n)) fop fsqrt x r).
Proof. exact c83_zip. Qed.
Print Assumptions C83_zip.

(** C83: the same for [stride(n+2)] of one slice, zipped: element [k] is the scalar program
    applied to the [k]-th complete group of [n+2] consecutive elements. *)
Theorem C83_strides : forall (fs : features) (c : config) (tie : bool) (fop : arith -> elty -> Z -> Z -> Z) (fsqrt : elty -> Z -> Z) (narrow : Z -> Z) (e0 e1 : elty) (x : expr) (n : nat) (l : list Z) (ds : list (list Z)) (x0 : Z) (l0 l1 : packed_line)
    (E : Type) (func : E -> tuple (list Z) (S n) -> list Z * E) (e : E) (fuel : nat),
  let count := Z.of_nat n + 2 in
  target fs -> In e0 primitives ->
  (forall o e u v, e = EF32 \/ e = EF64 -> lane e u -> lane e v -> lane e (fop o e u v)) -> (forall e u, e = EF32 \/ e = EF64 -> lane e u -> lane e (fsqrt e u)) ->
  type_of e0 (S (S n)) x = Some e1 -> natural fs (el_name e0 ++ "s") = [l0] -> natural fs (el_name e1 ++ "s") = [l1] ->
  Forall (lane e0) l -> zlen l * p_size l0 <= isize_max -> count * 33 <= 2 ^ 63 -> zlen ds = count -> Forall (fun d => zlen d = p_width l0 /\ Forall (lane e0) d) ds -> (length l < fuel)%nat ->
  (forall e t, Forall (fun v => zlen v = p_width l0 /\ Forall (lane e0) v) (items (S n) t) -> run fs tie fop fsqrt narrow e0 (S (S n)) x (items (S n) t) = Some (Ok (fst (func e t)))) ->
  let it := stride_iterator c (slice_array c (vty_of l0)) x0 in
  let rest := rest_many (blanket_unsafe c (ps_array c (slice_array c (vty_of l0)) x0) (ps_iterable c (slice_array c (vty_of l0)) x0)) n in
  let m := zipmap_iterator c (zip_iterator it rest) (vty_of l1) 0 func in
  exists t : tuple (PackedStride Z (list Z)) (S n), stride l count ds = Ok (items (S n) t) /\ zip it rest t = Ok t /\
  exists out s', scalar_collect c m 0 fuel (mkSIMDMap t e) = Ok (map Some out, s') /\
    zlen out = zlen l / count /\ forall k, 0 <= k < zlen out -> znth out k = Some (meaning e0 (S (S n)) fop fsqrt x (sub l (count * k) count)).
Proof. exact c83_strides. Qed.
Print Assumptions C83_strides.

(** The determinants of the documentation, a*d - b*c over [stride_four], on i32, and
    [saturating_add] of two slices of u8, in two builds. *)
Example C83_zip_case :
  let fop := fun (_ : arith) (_ : elty) u (_ : Z) => u in let fsqrt := fun (_ : elty) u => u in let c := mkConfig Debug true in
  let det := Arith Sub (Arith Mul (Arg 0) (Arg 3)) (Arith Mul (Arg 1) (Arg 2)) in
  let sat := Call SaturatingAdd (Arg 0) (Arg 1) in
  type_of (EInt i32) 4 det = Some (EInt i32) /\ meaning (EInt i32) 4 fop fsqrt det [5; 6; 7; 8] = -2 /\
  type_of (EInt u8) 2 sat = Some (EInt u8) /\ meaning (EInt u8) 2 fop fsqrt sat [200; 100] = 255 /\
  run (fun _ => false) true fop fsqrt (fun z => z) (EInt i32) 4 det [[1;2;3;4]; [5;6;7;8]; [1;0;1;0]; [2;2;2;2]] = Some (Ok [-3;4;-1;8]) /\
  let u := [200;1;2;3;4;5;6;7;8;9;10;11;12;13;14;15] in
  run (fun _ => false) true fop fsqrt (fun z => z) (EInt u8) 2 sat [u; map (Z.add 50) u] = Some (Ok [255;52;54;56;58;60;62;64;66;68;70;72;74;76;78;80]) /\
  run sandy_bridge true fop fsqrt (fun z => z) (EInt u8) 2 sat [u; map (Z.add 50) u] = Some (Ok [255;52;54;56;58;60;62;64;66;68;70;72;74;76;78;80]).
Proof. cbv zeta. repeat split; vm_compute; reflexivity. Qed.

(** C83: [l.simd_iter(zero).simd_reduce(zero, |a, v| a + v).sum()] on integers: the sum of
    the slice in the element type, in every release build.  (In a debug build the
    portable [sum] panics where the vector code wraps, C42.) *)
Theorem C83_sum : forall (fs : features) (fadd : elty -> Z -> Z -> Z) (b : bool) (t : ity) (l : list Z) (l0 : packed_line) (fuel : nat),
  let c := mkConfig Release b in let zero := splat (p_width l0) 0 in
  target fs -> In (EInt t) primitives -> natural fs (el_name (EInt t) ++ "s") = [l0] -> zlen l * p_size l0 <= isize_max -> (length l < fuel)%nat ->
  exists acc s', simd_reduce (slice_iterator c (vty_of l0)) fuel (simd_iter l zero) zero (fun a v => map2 (fun x y => wrap t (x + y)) a v) = Ok (acc, s') /\
    sum_in fs fadd c (p_vec l0) acc = Some (Ok (wrap t (total l))).
Proof. exact c83_sum. Qed.
Print Assumptions C83_sum.

Example C83_sum_case : let c := mkConfig Release true in let l := [200;100;1;2;3;4;5;6;7;8;9;10;11;12;13;255;77;78] in
  let reduce fs := match natural_of fs (EInt u8) with
    | Some n => match simd_reduce (slice_iterator c (vty_of n)) 30 (simd_iter l (splat (p_width n) 0)) (splat (p_width n) 0) (fun a v => map2 (fun x y => wrap u8 (x + y)) a v) with
                | Ok (acc, _) => sum_in fs (fun _ x _ => x) c (p_vec n) acc | _ => None end
    | None => None end in
  reduce (fun _ => false) = Some (Ok 33) /\ reduce sandy_bridge = Some (Ok 33) /\ wrap u8 (total l) = 33.
Proof. cbv zeta. repeat split; vm_compute; reflexivity. Qed.

(** [(x & 0x00ff).swap_bytes() | x.ne_mask(y)] on words, and [x.floor() + y.ceil()] on
    floats: 2.5 and -2.5 (0x40200000 and 0xc0200000) are rounded down to 2.0 and -3.0 and
    up to 3.0 and -2.0; -0.5 (0xbf000000) is rounded up to -0.0. *)
Example C83_bits_case :
  let fop := fun (_ : arith) (_ : elty) u (_ : Z) => u in let fsqrt := fun (_ : elty) u => u in
  let bits := Arith Or (SwapBytes (Arith And (Arg 0) (Splat (EInt u16) 255))) (Call NeMask (Arg 0) (Arg 1)) in
  type_of (EInt u16) 2 bits = Some (EInt u16) /\ meaning (EInt u16) 2 fop fsqrt bits [258; 258] = 512 /\ meaning (EInt u16) 2 fop fsqrt bits [258; 259] = 65535 /\
  (forall fs, In fs [(fun _ => false); sandy_bridge] -> run fs true fop fsqrt (fun z => z) (EInt u16) 2 bits [[258;258;4660;0;1;2;3;65535]; [258;259;4660;0;1;2;3;65535]] = Some (Ok [512;65535;13312;0;256;512;768;65280])) /\
  type_of EF32 1 (Rounded Floor (Arg 0)) = Some EF32 /\
  map (fun x => meaning EF32 1 fop fsqrt (Rounded Floor (Arg 0)) [x]) [1075838976; 3223322624] = [1073741824; 3225419776] /\
  map (fun x => meaning EF32 1 fop fsqrt (Rounded Ceil (Arg 0)) [x]) [1075838976; 3223322624; 3204448256] = [1077936128; 3221225472; 2147483648] /\
  run (fun _ => false) true fop fsqrt (fun z => z) EF32 1 (Rounded Ceil (Arg 0)) [[1075838976; 3223322624; 3204448256; 0]] = Some (Ok [1077936128; 3221225472; 2147483648; 0]).
Proof. cbv zeta. split; [reflexivity|]. split; [vm_compute; reflexivity|]. split; [vm_compute; reflexivity|]. split; [intros fs [<- | [<- | []]]; vm_compute; reflexivity|]. repeat split; vm_compute; reflexivity. Qed.

(** The differences of the pairs of 11 numbers: the odd element at the end is left out. *)
Example C83_strides_case :
  let fop := fun (_ : arith) (_ : elty) u (_ : Z) => u in let fsqrt := fun (_ : elty) u => u in let c := mkConfig Debug true in
  let x := Arith Sub (Arg 0) (Arg 1) in let l := [5;1;6;1;7;1;8;1;9;1;10] in
  let collect fs := match natural_of fs (EInt i32) with
    | Some n => match stride l 2 [splat (p_width n) 0; splat (p_width n) 0] with
      | Ok [p; q] => let a := slice_array c (vty_of n) in
          let m := zipmap_iterator c (zip_iterator (stride_iterator c a 0) (rest_one (blanket_unsafe c (ps_array c a 0) (ps_iterable c a 0)))) (vty_of n) 0
            (fun (u : unit) v => (match run fs true fop fsqrt (fun z => z) (EInt i32) 2 x [fst v; snd v] with Some (Ok r) => r | _ => [] end, u)) in
          match scalar_collect c m 0 30 (mkSIMDMap (p, q) tt) with Ok (out, _) => Some out | _ => None end
      | _ => None end
    | None => None end in
  type_of (EInt i32) 2 x = Some (EInt i32) /\ collect (fun _ => false) = Some (map Some [4;5;6;7;8]) /\ collect sandy_bridge = Some (map Some [4;5;6;7;8]).
Proof. cbv zeta. repeat split; vm_compute; reflexivity. Qed.
