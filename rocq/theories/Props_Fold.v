(** Properties: reductions on every target (C88). *)
From Coq Require Import String.
From Verif Require Import Base Spec VecSpec Vecs Iters Zip ZipSpec GateTables GateSpec Gates Lanes Floats FloatSpec OpTables Ops OpSpec PortTables Ports PortSpec SumTables Sums SumSpec Builds PipeSpec AvailSpec ExprSpec Exprs.
Open Scope list_scope.
Open Scope Z_scope.
From Verif Require Import FoldProofs.

(** C88: [l.simd_iter(d).simd_map(g).simd_reduce(i, x).scalar_reduce(i, op)] for closures [g]
    and [x] of C83, where [x] means an operation [op] on the scalars that is associative
    and commutative with unit [i], and [g] sends the default [d] to [i]: in every build
    the result is [op] folded over [g] of the elements of the slice. *)
Theorem C88_reduce : forall (fs : features) (c : config) (tie : bool) (fop : arith -> elty -> Z -> Z -> Z) (fsqrt : elty -> Z -> Z) (narrow : Z -> Z) (e0 e1 : elty) (g x : expr) (l : list Z) (d i : Z) (l0 l1 : packed_line)
    (E : Type) (func : E -> list Z -> list Z * E) (env : E) (f : list Z -> list Z -> list Z) (fuel : nat),
  let op a b := meaning e1 2 fop fsqrt x [a; b] in let h a := meaning e0 1 fop fsqrt g [a] in
  target fs -> In e0 primitives ->
  (forall o e u v, e = EF32 \/ e = EF64 -> lane e u -> lane e v -> lane e (fop o e u v)) -> (forall e u, e = EF32 \/ e = EF64 -> lane e u -> lane e (fsqrt e u)) ->
  type_of e0 1 g = Some e1 -> type_of e1 2 x = Some e1 -> natural fs (el_name e0 ++ "s") = [l0] -> natural fs (el_name e1 ++ "s") = [l1] ->
  (forall u v w, lane e1 u -> lane e1 v -> lane e1 w -> op u (op v w) = op (op u v) w) -> (forall u v, lane e1 u -> lane e1 v -> op u v = op v u) -> (forall u, lane e1 u -> op i u = u) ->
  lane e1 i -> lane e0 d -> h d = i -> Forall (lane e0) l -> zlen l * p_size l0 <= isize_max -> (length l < fuel)%nat ->
  (forall e v, zlen v = p_width l0 -> Forall (lane e0) v -> run fs tie fop fsqrt narrow e0 1 g [v] = Some (Ok (fst (func e v)))) ->
  (forall a v, zlen a = p_width l1 -> zlen v = p_width l1 -> Forall (lane e1) a -> Forall (lane e1) v -> run fs tie fop fsqrt narrow e1 2 x [a; v] = Some (Ok (f a v))) ->
  exists acc s', simd_reduce (map_iterator c (slice_iterator c (vty_of l0)) (vty_of l1) 0 func) fuel (mkSIMDMap (simd_iter l (splat (p_width l0) d)) env) (splat (p_width l1) i) f = Ok (acc, s') /\
    scalar_reduce (p_width l1) acc i op = Ok (fold_left op (map h l) i).
Proof. exact c88_reduce. Qed.
Print Assumptions C88_reduce.

(** The greatest absolute value of a slice of i8: [simd_map(|v| v.abs())] gives vectors of
    u8, and 0 stands for missing lanes. *)
Example C88_reduce_case :
  let fop := fun (_ : arith) (_ : elty) u (_ : Z) => u in let fsqrt := fun (_ : elty) u => u in let c := mkConfig Debug true in
  let g := Abs (Arg 0) in let x := Call Max (Arg 0) (Arg 1) in let op a b := meaning (EInt u8) 2 fop fsqrt x [a; b] in
  let func fs := fun (e : unit) v => (match run fs true fop fsqrt (fun z => z) (EInt i8) 1 g [v] with Some (Ok r) => r | _ => [] end, e) in
  let f fs := fun a v => match run fs true fop fsqrt (fun z => z) (EInt u8) 2 x [a; v] with Some (Ok r) => r | _ => [] end in
  let l := [5;-3;77;1;2;3;4;5;6;7;-100;9;10;11;12;13;14;-128;16] in
  let fold fs := match natural_of fs (EInt i8), natural_of fs (EInt u8) with
    | Some n, Some m => match simd_reduce (map_iterator c (slice_iterator c (vty_of n)) (vty_of m) 0 (func fs)) 30 (mkSIMDMap (simd_iter l (splat (p_width n) 0)) tt) (splat (p_width m) 0) (f fs) with
                | Ok (acc, _) => Some (scalar_reduce (p_width m) acc 0 op) | _ => None end
    | _, _ => None end in
  type_of (EInt i8) 1 g = Some (EInt u8) /\ type_of (EInt u8) 2 x = Some (EInt u8) /\ meaning (EInt i8) 1 fop fsqrt g [0] = 0 /\
  (forall u v w, op u (op v w) = op (op u v) w) /\ (forall u v, op u v = op v u) /\ (forall u, lane (EInt u8) u -> op 0 u = u) /\
  fold (fun _ => false) = Some (Ok 128) /\ fold sandy_bridge = Some (Ok 128).
Proof.
  cbv zeta. split; [reflexivity|]. split; [reflexivity|]. split; [reflexivity|]. cbn [meaning nth]. split; [exact Z.max_assoc|]. split; [exact Z.max_comm|]. split; [intros u [Hu _]; exact (Z.max_r 0 u Hu)|]. split; vm_compute; reflexivity.
Qed.

(** C88: the same without the [simd_map]: [l.simd_iter(i).simd_reduce(i, x)
    .scalar_reduce(i, op)]. *)
Theorem C88_slice : forall (fs : features) (c : config) (tie : bool) (fop : arith -> elty -> Z -> Z -> Z) (fsqrt : elty -> Z -> Z) (narrow : Z -> Z) (e0 : elty) (x : expr) (l : list Z) (i : Z) (l0 : packed_line) (f : list Z -> list Z -> list Z) (fuel : nat),
  let op a b := meaning e0 2 fop fsqrt x [a; b] in let start := splat (p_width l0) i in
  target fs -> In e0 primitives ->
  (forall o e u v, e = EF32 \/ e = EF64 -> lane e u -> lane e v -> lane e (fop o e u v)) -> (forall e u, e = EF32 \/ e = EF64 -> lane e u -> lane e (fsqrt e u)) ->
  type_of e0 2 x = Some e0 -> natural fs (el_name e0 ++ "s") = [l0] ->
  (forall u v w, lane e0 u -> lane e0 v -> lane e0 w -> op u (op v w) = op (op u v) w) -> (forall u v, lane e0 u -> lane e0 v -> op u v = op v u) -> (forall u, lane e0 u -> op i u = u) ->
  lane e0 i -> Forall (lane e0) l -> zlen l * p_size l0 <= isize_max -> (length l < fuel)%nat ->
  (forall a v, zlen a = p_width l0 -> zlen v = p_width l0 -> Forall (lane e0) a -> Forall (lane e0) v -> run fs tie fop fsqrt narrow e0 2 x [a; v] = Some (Ok (f a v))) ->
  exists acc s', simd_reduce (slice_iterator c (vty_of l0)) fuel (simd_iter l start) start f = Ok (acc, s') /\
    scalar_reduce (p_width l0) acc i op = Ok (fold_left op l i).
Proof. exact c88_slice. Qed.
Print Assumptions C88_slice.

(** C88: the minimum of a slice of integers of up to 32 bits, [l.simd_iter(MAX)
    .simd_reduce(MAX, |a, v| a.min(v)).scalar_reduce(MAX, min)]: in every build it is an
    element of the slice and no element is less; for an empty slice it is [MAX]. *)
Theorem C88_minimum : forall (fs : features) (c : config) (tie : bool) (fop : arith -> elty -> Z -> Z -> Z) (fsqrt : elty -> Z -> Z) (narrow : Z -> Z) (t : ity) (l : list Z) (l0 : packed_line) (f : list Z -> list Z -> list Z) (fuel : nat),
  let start := splat (p_width l0) (imax t) in
  target fs -> In (EInt t) primitives -> (ibytes t <= 4)%nat -> natural fs (el_name (EInt t) ++ "s") = [l0] -> Forall (in_ity t) l -> zlen l * p_size l0 <= isize_max -> (length l < fuel)%nat ->
  (forall a v, zlen a = p_width l0 -> zlen v = p_width l0 -> Forall (in_ity t) a -> Forall (in_ity t) v -> run fs tie fop fsqrt narrow (EInt t) 2 (Call Min (Arg 0) (Arg 1)) [a; v] = Some (Ok (f a v))) ->
  exists acc s' r, simd_reduce (slice_iterator c (vty_of l0)) fuel (simd_iter l start) start f = Ok (acc, s') /\ scalar_reduce (p_width l0) acc (imax t) Z.min = Ok r /\
    (l = [] -> r = imax t) /\ (l <> [] -> In r l) /\ Forall (Z.le r) l.
Proof. exact c88_minimum. Qed.
Print Assumptions C88_minimum.

(** C88: the same for the maximum. *)
Theorem C88_maximum : forall (fs : features) (c : config) (tie : bool) (fop : arith -> elty -> Z -> Z -> Z) (fsqrt : elty -> Z -> Z) (narrow : Z -> Z) (t : ity) (l : list Z) (l0 : packed_line) (f : list Z -> list Z -> list Z) (fuel : nat),
  let start := splat (p_width l0) (imin t) in
  target fs -> In (EInt t) primitives -> (ibytes t <= 4)%nat -> natural fs (el_name (EInt t) ++ "s") = [l0] -> Forall (in_ity t) l -> zlen l * p_size l0 <= isize_max -> (length l < fuel)%nat ->
  (forall a v, zlen a = p_width l0 -> zlen v = p_width l0 -> Forall (in_ity t) a -> Forall (in_ity t) v -> run fs tie fop fsqrt narrow (EInt t) 2 (Call Max (Arg 0) (Arg 1)) [a; v] = Some (Ok (f a v))) ->
  exists acc s' r, simd_reduce (slice_iterator c (vty_of l0)) fuel (simd_iter l start) start f = Ok (acc, s') /\ scalar_reduce (p_width l0) acc (imin t) Z.max = Ok r /\
    (l = [] -> r = imin t) /\ (l <> [] -> In r l) /\ Forall (fun y => y <= r) l.
Proof. exact c88_maximum. Qed.
Print Assumptions C88_maximum.

(** C88: the saturating total of a slice of u8 or u16, [l.simd_iter(0).simd_reduce(0,
    |a, v| a.saturating_add(v)).scalar_reduce(0, saturating_add)]: in every build the sum
    of the slice, or the greatest number of the type if the sum is greater. *)
Theorem C88_saturating : forall (fs : features) (c : config) (tie : bool) (fop : arith -> elty -> Z -> Z -> Z) (fsqrt : elty -> Z -> Z) (narrow : Z -> Z) (t : ity) (l : list Z) (l0 : packed_line) (f : list Z -> list Z -> list Z) (fuel : nat),
  let start := splat (p_width l0) 0 in
  target fs -> In t [u8; u16] -> natural fs (el_name (EInt t) ++ "s") = [l0] -> Forall (in_ity t) l -> zlen l * p_size l0 <= isize_max -> (length l < fuel)%nat ->
  (forall a v, zlen a = p_width l0 -> zlen v = p_width l0 -> Forall (in_ity t) a -> Forall (in_ity t) v -> run fs tie fop fsqrt narrow (EInt t) 2 (Call SaturatingAdd (Arg 0) (Arg 1)) [a; v] = Some (Ok (f a v))) ->
  exists acc s', simd_reduce (slice_iterator c (vty_of l0)) fuel (simd_iter l start) start f = Ok (acc, s') /\
    scalar_reduce (p_width l0) acc 0 (fun a b => clamp t (a + b)) = Ok (Z.min (imax t) (total l)).
Proof. exact c88_saturating. Qed.
Print Assumptions C88_saturating.

(** C88: the product of a slice of integers, [l.simd_iter(1).simd_reduce(1, |a, v| a * v)
    .scalar_reduce(1, wrapping_mul)]: in every build the product in the element type. *)
Theorem C88_product : forall (fs : features) (c : config) (tie : bool) (fop : arith -> elty -> Z -> Z -> Z) (fsqrt : elty -> Z -> Z) (narrow : Z -> Z) (t : ity) (l : list Z) (l0 : packed_line) (f : list Z -> list Z -> list Z) (fuel : nat),
  let start := splat (p_width l0) 1 in
  target fs -> In (EInt t) primitives -> natural fs (el_name (EInt t) ++ "s") = [l0] -> Forall (in_ity t) l -> zlen l * p_size l0 <= isize_max -> (length l < fuel)%nat ->
  (forall a v, zlen a = p_width l0 -> zlen v = p_width l0 -> Forall (in_ity t) a -> Forall (in_ity t) v -> run fs tie fop fsqrt narrow (EInt t) 2 (Arith Mul (Arg 0) (Arg 1)) [a; v] = Some (Ok (f a v))) ->
  exists acc s', simd_reduce (slice_iterator c (vty_of l0)) fuel (simd_iter l start) start f = Ok (acc, s') /\
    scalar_reduce (p_width l0) acc 1 (fun a b => wrap t (a * b)) = Ok (wrap t (fold_left Z.mul l 1)).
Proof. exact c88_product. Qed.
Print Assumptions C88_product.

(** C88: the conjunction, the disjunction and the parity of a slice of integers, for
    example [l.simd_iter(0).simd_reduce(0, |a, v| a ^ v).scalar_reduce(0, |a, b| a ^ b)]:
    in every build the bitwise combination of all elements, starting at all ones for
    [&] and at 0 for [|] and [^]. *)
Theorem C88_bitwise : forall (fs : features) (c : config) (tie : bool) (fop : arith -> elty -> Z -> Z -> Z) (fsqrt : elty -> Z -> Z) (narrow : Z -> Z) (t : ity) (o : arith) (i : Z) (l : list Z) (l0 : packed_line) (f : list Z -> list Z -> list Z) (fuel : nat),
  let start := splat (p_width l0) i in
  target fs -> In (EInt t) primitives -> In (o, i) [(And, wrap t (-1)); (Or, 0); (Xor, 0)] -> natural fs (el_name (EInt t) ++ "s") = [l0] -> Forall (in_ity t) l -> zlen l * p_size l0 <= isize_max -> (length l < fuel)%nat ->
  (forall a v, zlen a = p_width l0 -> zlen v = p_width l0 -> Forall (in_ity t) a -> Forall (in_ity t) v -> run fs tie fop fsqrt narrow (EInt t) 2 (Arith o (Arg 0) (Arg 1)) [a; v] = Some (Ok (f a v))) ->
  exists acc s', simd_reduce (slice_iterator c (vty_of l0)) fuel (simd_iter l start) start f = Ok (acc, s') /\
    scalar_reduce (p_width l0) acc i (fun a b => wrap t (ExprSpec.exact o a b)) = Ok (fold_left (ExprSpec.exact o) l i).
Proof. exact c88_bitwise. Qed.
Print Assumptions C88_bitwise.

Example C88_bitwise_case :
  let fop := fun (_ : arith) (_ : elty) u (_ : Z) => u in let fsqrt := fun (_ : elty) u => u in let c := mkConfig Debug true in
  let fold fs t o l i := match natural_of fs (EInt t) with
    | Some n => match simd_reduce (slice_iterator c (vty_of n)) 30 (simd_iter l (splat (p_width n) i)) (splat (p_width n) i) (fun a v => match run fs true fop fsqrt (fun z => z) (EInt t) 2 (Arith o (Arg 0) (Arg 1)) [a; v] with Some (Ok r) => r | _ => [] end) with
                | Ok (acc, _) => Some (scalar_reduce (p_width n) acc i (fun a b => wrap t (ExprSpec.exact o a b))) | _ => None end
    | None => None end in
  let l := [7;15;23;-9;71;7;39;55;7] in
  forall fs, In fs [(fun _ => false); sandy_bridge] -> fold fs i32 And l (-1) = Some (Ok 7) /\ fold fs i32 Or l 0 = Some (Ok (-1)) /\ fold fs i32 Xor l 0 = Some (Ok (-65)) /\ fold fs u16 And [65535;65535;65535;65534;65535;65535;65535;65535;4095] (wrap u16 (-1)) = Some (Ok 4094).
Proof. cbv zeta. intros fs [<- | [<- | []]]; vm_compute; repeat split; reflexivity. Qed.

Example C88_case :
  let fop := fun (_ : arith) (_ : elty) u (_ : Z) => u in let fsqrt := fun (_ : elty) u => u in let c := mkConfig Debug true in
  let f fs t x := fun a v => match run fs true fop fsqrt (fun z => z) (EInt t) 2 x [a; v] with Some (Ok r) => r | _ => [] end in
  let fold fs t x l i op := match natural_of fs (EInt t) with
    | Some n => match simd_reduce (slice_iterator c (vty_of n)) 30 (simd_iter l (splat (p_width n) i)) (splat (p_width n) i) (f fs t x) with
                | Ok (acc, _) => Some (scalar_reduce (p_width n) acc i op) | _ => None end
    | None => None end in
  let l := [5;-3;77;1;2;3;4;5;6;7;-100;9;10;11;12;13;14;100;16] in let u := [100;50;1;2;3;4;5;6;7;8;9;10;11;12;13;14;15;16;17] in
  (forall fs t x n, target fs -> In (EInt t) primitives -> type_of (EInt t) 2 x = Some (EInt t) -> natural fs (el_name (EInt t) ++ "s") = [n] ->
    forall a v, zlen a = p_width n -> zlen v = p_width n -> Forall (in_ity t) a -> Forall (in_ity t) v -> run fs true fop fsqrt (fun z => z) (EInt t) 2 x [a; v] = Some (Ok (f fs t x a v))) /\
  fold (fun _ => false) i8 (Call Min (Arg 0) (Arg 1)) l 127 Z.min = Some (Ok (-100)) /\ fold sandy_bridge i8 (Call Min (Arg 0) (Arg 1)) l 127 Z.min = Some (Ok (-100)) /\
  fold (fun _ => false) i8 (Call Max (Arg 0) (Arg 1)) l (-128) Z.max = Some (Ok 100) /\ fold sandy_bridge i8 (Call Max (Arg 0) (Arg 1)) l (-128) Z.max = Some (Ok 100) /\
  fold (fun _ => false) u8 (Call SaturatingAdd (Arg 0) (Arg 1)) u 0 (fun a b => clamp u8 (a + b)) = Some (Ok 255) /\ fold sandy_bridge u16 (Call SaturatingAdd (Arg 0) (Arg 1)) u 0 (fun a b => clamp u16 (a + b)) = Some (Ok 303) /\
  fold (fun _ => false) i8 (Arith Mul (Arg 0) (Arg 1)) [3;5;-7;9;11;1;1;1;1;1;1;1;1;1;1;1;13] 1 (fun a b => wrap i8 (a * b)) = Some (Ok (wrap i8 (3*5*-7*9*11*13))).
Proof.
  cbv zeta. split; [|repeat split; vm_compute; reflexivity].
  intros fs t x n T H0 Tx N a v La Lv Fa Fv.
  match goal with |- run _ ?ti ?fo ?sq ?na _ _ _ _ = _ => destruct (ExprProofs.c83_closure fs ti fo sq na (EInt t) (EInt t) x [a; v] n n T H0) as (r & R & _) end;
    [intros o e' p q _ Hp _; exact Hp|intros e' p _ Hp; exact Hp|exact Tx|exact N|exact N|discriminate|constructor; [split; assumption|constructor; [split; assumption|constructor]]|].
  cbn [length] in R. rewrite R. reflexivity.
Qed.

(** C88: the same for [n+2] zipped slices of equal length, mapped with a closure of C83
    that sends the defaults to the unit: the fold of the results for the elements number
    0, 1, .. of the slices, in this order.  (The scalar product, for one.) *)
Theorem C88_zip : forall (fs : features) (c : config) (tie : bool) (fop : arith -> elty -> Z -> Z -> Z) (fsqrt : elty -> Z -> Z) (narrow : Z -> Z) (e0 e1 : elty) (g x : expr) (n : nat) (ls ds : list (list Z)) (N i : Z) (l0 l1 : packed_line)
    (E : Type) (func : E -> tuple (list Z) (S n) -> list Z * E) (env : E) (t : tuple (SIMDIter Z (list Z)) (S n)) (f : list Z -> list Z -> list Z) (fuel : nat),
  let op a b := meaning e1 2 fop fsqrt x [a; b] in let h row := meaning e0 (S (S n)) fop fsqrt g row in
  target fs -> In e0 primitives ->
  (forall o e u v, e = EF32 \/ e = EF64 -> lane e u -> lane e v -> lane e (fop o e u v)) -> (forall e u, e = EF32 \/ e = EF64 -> lane e u -> lane e (fsqrt e u)) ->
  type_of e0 (S (S n)) g = Some e1 -> type_of e1 2 x = Some e1 -> natural fs (el_name e0 ++ "s") = [l0] -> natural fs (el_name e1 ++ "s") = [l1] ->
  (forall u v w, lane e1 u -> lane e1 v -> lane e1 w -> op u (op v w) = op (op u v) w) -> (forall u v, lane e1 u -> lane e1 v -> op u v = op v u) -> (forall u, lane e1 u -> op i u = u) ->
  lane e1 i -> (forall k row, column ds k row -> h row = i) ->
  Forall (fun l => zlen l = N /\ Forall (lane e0) l) ls -> Forall (fun d => zlen d = p_width l0 /\ Forall (lane e0) d) ds -> length ls = length ds ->
  PipeSpec.items (S n) t = map2 simd_iter ls ds -> N * p_size l0 + 32 <= isize_max -> N < Z.of_nat fuel ->
  (forall e t, Forall (fun v => zlen v = p_width l0 /\ Forall (lane e0) v) (PipeSpec.items (S n) t) -> run fs tie fop fsqrt narrow e0 (S (S n)) g (PipeSpec.items (S n) t) = Some (Ok (fst (func e t)))) ->
  (forall a v, zlen a = p_width l1 -> zlen v = p_width l1 -> Forall (lane e1) a -> Forall (lane e1) v -> run fs tie fop fsqrt narrow e1 2 x [a; v] = Some (Ok (f a v))) ->
  let rest := rest_many (blanket_unsafe c (si_array (slice_array c (vty_of l0))) (si_iterable c (slice_array c (vty_of l0)))) n in
  let m := zipmap_iterator c (zip_iterator (slice_iterator c (vty_of l0)) rest) (vty_of l1) 0 func in
  zip (slice_iterator c (vty_of l0)) rest t = Ok t /\
  exists out acc s', zlen out = N /\ (forall k row, column ls k row -> znth out k = Some (h row)) /\
    simd_reduce m fuel (mkSIMDMap t env) (splat (p_width l1) i) f = Ok (acc, s') /\ scalar_reduce (p_width l1) acc i op = Ok (fold_left op out i).
Proof. exact c88_zip. Qed.
Print Assumptions C88_zip.

(** C88: the wrapping scalar product of two slices of integers, [(a.simd_iter(0),
    b.simd_iter(0)).zip().simd_map(|(a, b)| a * b).simd_reduce(0, |a, v| a + v)], then
    [scalar_reduce(0, wrapping_add)]: the sum of the products in the element type, in
    every build. *)
Theorem C88_product_sum : forall (fs : features) (c : config) (tie : bool) (fop : arith -> elty -> Z -> Z -> Z) (fsqrt : elty -> Z -> Z) (narrow : Z -> Z) (t : ity) (a b : list Z) (l0 : packed_line) (E : Type) (func : E -> list Z * list Z -> list Z * E) (env : E) (f : list Z -> list Z -> list Z) (fuel : nat),
  let zero := splat (p_width l0) 0 in
  target fs -> In (EInt t) primitives -> natural fs (el_name (EInt t) ++ "s") = [l0] -> Forall (in_ity t) a -> Forall (in_ity t) b -> zlen a = zlen b -> zlen a * p_size l0 + 32 <= isize_max -> zlen a < Z.of_nat fuel ->
  (forall e u v, zlen u = p_width l0 -> zlen v = p_width l0 -> Forall (in_ity t) u -> Forall (in_ity t) v -> run fs tie fop fsqrt narrow (EInt t) 2 (Arith Mul (Arg 0) (Arg 1)) [u; v] = Some (Ok (fst (func e (u, v))))) ->
  (forall u v, zlen u = p_width l0 -> zlen v = p_width l0 -> Forall (in_ity t) u -> Forall (in_ity t) v -> run fs tie fop fsqrt narrow (EInt t) 2 (Arith Add (Arg 0) (Arg 1)) [u; v] = Some (Ok (f u v))) ->
  let rest := rest_one (blanket_unsafe c (si_array (slice_array c (vty_of l0))) (si_iterable c (slice_array c (vty_of l0)))) in
  let m := zipmap_iterator c (zip_iterator (slice_iterator c (vty_of l0)) rest) (vty_of l0) 0 func in
  zip (slice_iterator c (vty_of l0)) rest (simd_iter a zero, simd_iter b zero) = Ok (simd_iter a zero, simd_iter b zero) /\
  exists acc s', simd_reduce m fuel (mkSIMDMap (simd_iter a zero, simd_iter b zero) env) zero f = Ok (acc, s') /\
    scalar_reduce (p_width l0) acc 0 (fun x y => wrap t (x + y)) = Ok (wrap t (total (map2 Z.mul a b))).
Proof. exact c88_product_sum. Qed.
Print Assumptions C88_product_sum.

Example C88_zip_case :
  let haswell : features := fun s => existsb (String.eqb s) ["sse"; "sse2"; "sse3"; "ssse3"; "sse4.1"; "sse4.2"; "avx"; "avx2"]%string in
  let fop := fun (_ : arith) (_ : elty) u (_ : Z) => u in let fsqrt := fun (_ : elty) u => u in let c := mkConfig Debug true in
  let g fs := fun (e : unit) (p : list Z * list Z) => (match run fs true fop fsqrt (fun z => z) (EInt i16) 2 (Arith Mul (Arg 0) (Arg 1)) [fst p; snd p] with Some (Ok r) => r | _ => [] end, e) in
  let f fs := fun a v => match run fs true fop fsqrt (fun z => z) (EInt i16) 2 (Arith Add (Arg 0) (Arg 1)) [a; v] with Some (Ok r) => r | _ => [] end in
  let a := [300;-3;77;1;2;3;4;5;6;7;-100;9] in let b := [200;5;1;1;1;1;1;1;1;1;3;4] in
  let dot fs := match natural_of fs (EInt i16) with
    | Some n => let zero := splat (p_width n) 0 in let rest := rest_one (blanket_unsafe c (si_array (slice_array c (vty_of n))) (si_iterable c (slice_array c (vty_of n)))) in
      match simd_reduce (zipmap_iterator c (zip_iterator (slice_iterator c (vty_of n)) rest) (vty_of n) 0 (g fs)) 30 (mkSIMDMap (simd_iter a zero, simd_iter b zero) tt) zero (f fs) with
      | Ok (acc, _) => Some (scalar_reduce (p_width n) acc 0 (fun x y => wrap i16 (x + y))) | _ => None end
    | None => None end in
  dot (fun _ => false) = Some (Ok (-5710)) /\ dot haswell = Some (Ok (-5710)) /\ wrap i16 (total (map2 Z.mul a b)) = -5710.
Proof. cbv zeta. repeat split; vm_compute; reflexivity. Qed.
