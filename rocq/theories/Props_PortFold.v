(** Properties: reductions on the portable back-end (C96). *)
From Coq Require Import String.
From Verif Require Import Base Spec VecSpec Vecs Iters Stride Zip ZipSpec GateTables GateSpec Gates Lanes OpTables Ops OpSpec PipeSpec SumSpec ExprSpec Exprs OverflowSpec Portables.
Open Scope list_scope.
Open Scope Z_scope.
From Verif Require Import PortFoldProofs.

(** C94: [l.stride(n+2, ds)], zipped, [.simd_map(x).scalar_collect()] on the portable
    back-end: the result for each group of [n+2] neighbouring elements, in order. *)
Theorem C94_strides : forall (fs : features) (c : config) (tie : bool) (fop : arith -> elty -> Z -> Z -> Z) (fsqrt : elty -> Z -> Z) (narrow : Z -> Z) (e0 e1 : elty) (x : expr) (n : nat) (P : Z -> Prop) (l : list Z) (ds : list (list Z)) (x0 : Z) (l0 l1 : packed_line)
    (E : Type) (func : E -> tuple (list Z) (S n) -> list Z * E) (e : E) (fuel : nat),
  let count := Z.of_nat n + 2 in
  fs "undefined"%string = false -> In e0 primitives ->
  (forall o e u v, e = EF32 \/ e = EF64 -> lane e u -> lane e v -> lane e (fop o e u v)) -> (forall e u, e = EF32 \/ e = EF64 -> lane e u -> lane e (fsqrt e u)) ->
  type_of e0 (S (S n)) x = Some e1 -> portable_natural fs (el_name e0 ++ "s") = [l0] -> portable_natural fs (el_name e1 ++ "s") = [l1] ->
  (forall u, P u -> lane e0 u) -> build c = Release \/ (forall row, Forall P row -> overflows e0 (S (S n)) fop fsqrt x row = false) ->
  Forall P l -> zlen l * p_size l0 <= isize_max -> count * 33 <= 2 ^ 63 -> zlen ds = count -> Forall (fun d => zlen d = p_width l0 /\ Forall P d) ds -> (length l < fuel)%nat ->
  (forall e t r, Forall (fun v => zlen v = p_width l0 /\ Forall P v) (PipeSpec.items (S n) t) -> portable_run fs c tie fop fsqrt narrow e0 (S (S n)) x (PipeSpec.items (S n) t) = Some (Ok r) -> fst (func e t) = r) ->
  let it := stride_iterator c (slice_array c (vty_of l0)) x0 in
  let rest := rest_many (blanket_unsafe c (ps_array c (slice_array c (vty_of l0)) x0) (ps_iterable c (slice_array c (vty_of l0)) x0)) n in
  let m := zipmap_iterator c (zip_iterator it rest) (vty_of l1) 0 func in
  exists t : tuple (PackedStride Z (list Z)) (S n), stride l count ds = Ok (PipeSpec.items (S n) t) /\ zip it rest t = Ok t /\
  exists out s', scalar_collect c m 0 fuel (mkSIMDMap t e) = Ok (map Some out, s') /\
    zlen out = zlen l / count /\ forall k, 0 <= k < zlen out -> znth out k = Some (meaning e0 (S (S n)) fop fsqrt x (sub l (count * k) count)).
Proof. exact c94_strides. Qed.
Print Assumptions C94_strides.

(** C96: [l.simd_iter(d).simd_map(g).simd_reduce(i, x).scalar_reduce(i, op)] on the portable
    back-end.  [Q] and [P] restrict the elements of the slice and of the mapped vectors; on
    them [op] is associative and commutative with unit [i], and in a debug build neither
    closure overflows.  The result is [op] folded over [g] of the elements of the slice. *)
Theorem C96_reduce : forall (fs : features) (c : config) (tie : bool) (fop : arith -> elty -> Z -> Z -> Z) (fsqrt : elty -> Z -> Z) (narrow : Z -> Z) (e0 e1 : elty) (g x : expr) (Q P : Z -> Prop) (l : list Z) (d i : Z) (l0 l1 : packed_line)
    (E : Type) (func : E -> list Z -> list Z * E) (env : E) (f : list Z -> list Z -> list Z) (fuel : nat),
  let op a b := meaning e1 2 fop fsqrt x [a; b] in let h a := meaning e0 1 fop fsqrt g [a] in
  fs "undefined"%string = false -> In e0 primitives ->
  (forall o e u v, e = EF32 \/ e = EF64 -> lane e u -> lane e v -> lane e (fop o e u v)) -> (forall e u, e = EF32 \/ e = EF64 -> lane e u -> lane e (fsqrt e u)) ->
  type_of e0 1 g = Some e1 -> type_of e1 2 x = Some e1 -> portable_natural fs (el_name e0 ++ "s") = [l0] -> portable_natural fs (el_name e1 ++ "s") = [l1] ->
  (forall u, Q u -> lane e0 u /\ P (h u)) -> (forall u, P u -> lane e1 u) -> (forall u v, P u -> P v -> P (op u v)) ->
  (forall u v w, P u -> P v -> P w -> op u (op v w) = op (op u v) w) -> (forall u v, P u -> P v -> op u v = op v u) -> (forall u, P u -> op i u = u) ->
  build c = Release \/ (forall u, Q u -> overflows e0 1 fop fsqrt g [u] = false) /\ (forall u v, P u -> P v -> overflows e1 2 fop fsqrt x [u; v] = false) ->
  P i -> Q d -> h d = i -> Forall Q l -> zlen l * p_size l0 <= isize_max -> (length l < fuel)%nat ->
  (forall e v r, zlen v = p_width l0 -> Forall Q v -> portable_run fs c tie fop fsqrt narrow e0 1 g [v] = Some (Ok r) -> fst (func e v) = r) ->
  (forall a v r, zlen a = p_width l1 -> zlen v = p_width l1 -> Forall P a -> Forall P v -> portable_run fs c tie fop fsqrt narrow e1 2 x [a; v] = Some (Ok r) -> f a v = r) ->
  exists acc s', simd_reduce (map_iterator c (slice_iterator c (vty_of l0)) (vty_of l1) 0 func) fuel (mkSIMDMap (simd_iter l (splat (p_width l0) d)) env) (splat (p_width l1) i) f = Ok (acc, s') /\
    scalar_reduce (p_width l1) acc i op = Ok (fold_left op (map h l) i).
Proof. exact c96_reduce. Qed.
Print Assumptions C96_reduce.

(** C96: the same without the [simd_map]: [l.simd_iter(i).simd_reduce(i, x)
    .scalar_reduce(i, op)]. *)
Theorem C96_slice : forall (fs : features) (c : config) (tie : bool) (fop : arith -> elty -> Z -> Z -> Z) (fsqrt : elty -> Z -> Z) (narrow : Z -> Z) (e0 : elty) (x : expr) (P : Z -> Prop) (l : list Z) (i : Z) (l0 : packed_line) (f : list Z -> list Z -> list Z) (fuel : nat),
  let op a b := meaning e0 2 fop fsqrt x [a; b] in let start := splat (p_width l0) i in
  fs "undefined"%string = false -> In e0 primitives ->
  (forall o e u v, e = EF32 \/ e = EF64 -> lane e u -> lane e v -> lane e (fop o e u v)) -> (forall e u, e = EF32 \/ e = EF64 -> lane e u -> lane e (fsqrt e u)) ->
  type_of e0 2 x = Some e0 -> portable_natural fs (el_name e0 ++ "s") = [l0] ->
  (forall u, P u -> lane e0 u) -> (forall u v, P u -> P v -> P (op u v)) ->
  (forall u v w, P u -> P v -> P w -> op u (op v w) = op (op u v) w) -> (forall u v, P u -> P v -> op u v = op v u) -> (forall u, P u -> op i u = u) ->
  build c = Release \/ (forall u v, P u -> P v -> overflows e0 2 fop fsqrt x [u; v] = false) ->
  P i -> Forall P l -> zlen l * p_size l0 <= isize_max -> (length l < fuel)%nat ->
  (forall a v r, zlen a = p_width l0 -> zlen v = p_width l0 -> Forall P a -> Forall P v -> portable_run fs c tie fop fsqrt narrow e0 2 x [a; v] = Some (Ok r) -> f a v = r) ->
  exists acc s', simd_reduce (slice_iterator c (vty_of l0)) fuel (simd_iter l start) start f = Ok (acc, s') /\
    scalar_reduce (p_width l0) acc i op = Ok (fold_left op l i).
Proof. exact c96_slice. Qed.
Print Assumptions C96_slice.

(** C96: the same for [n+2] zipped slices of equal length, mapped with a closure that sends
    the defaults to the unit: the fold of the results for the elements number 0, 1, .. of the
    slices, in this order. *)
Theorem C96_zip : forall (fs : features) (c : config) (tie : bool) (fop : arith -> elty -> Z -> Z -> Z) (fsqrt : elty -> Z -> Z) (narrow : Z -> Z) (e0 e1 : elty) (g x : expr) (n : nat) (Q P : Z -> Prop) (ls ds : list (list Z)) (N i : Z) (l0 l1 : packed_line)
    (E : Type) (func : E -> tuple (list Z) (S n) -> list Z * E) (env : E) (t : tuple (SIMDIter Z (list Z)) (S n)) (f : list Z -> list Z -> list Z) (fuel : nat),
  let op a b := meaning e1 2 fop fsqrt x [a; b] in let h row := meaning e0 (S (S n)) fop fsqrt g row in
  fs "undefined"%string = false -> In e0 primitives ->
  (forall o e u v, e = EF32 \/ e = EF64 -> lane e u -> lane e v -> lane e (fop o e u v)) -> (forall e u, e = EF32 \/ e = EF64 -> lane e u -> lane e (fsqrt e u)) ->
  type_of e0 (S (S n)) g = Some e1 -> type_of e1 2 x = Some e1 -> portable_natural fs (el_name e0 ++ "s") = [l0] -> portable_natural fs (el_name e1 ++ "s") = [l1] ->
  (forall u, Q u -> lane e0 u) -> (forall row, length row = S (S n) -> Forall Q row -> P (h row)) -> (forall u, P u -> lane e1 u) -> (forall u v, P u -> P v -> P (op u v)) ->
  (forall u v w, P u -> P v -> P w -> op u (op v w) = op (op u v) w) -> (forall u v, P u -> P v -> op u v = op v u) -> (forall u, P u -> op i u = u) ->
  build c = Release \/ (forall row, Forall Q row -> overflows e0 (S (S n)) fop fsqrt g row = false) /\ (forall u v, P u -> P v -> overflows e1 2 fop fsqrt x [u; v] = false) ->
  P i -> (forall k row, column ds k row -> h row = i) ->
  Forall (fun l => zlen l = N /\ Forall Q l) ls -> Forall (fun d => zlen d = p_width l0 /\ Forall Q d) ds -> length ls = length ds ->
  PipeSpec.items (S n) t = map2 simd_iter ls ds -> N * p_size l0 + 16 <= isize_max -> N < Z.of_nat fuel ->
  (forall e t r, Forall (fun v => zlen v = p_width l0 /\ Forall Q v) (PipeSpec.items (S n) t) -> portable_run fs c tie fop fsqrt narrow e0 (S (S n)) g (PipeSpec.items (S n) t) = Some (Ok r) -> fst (func e t) = r) ->
  (forall a v r, zlen a = p_width l1 -> zlen v = p_width l1 -> Forall P a -> Forall P v -> portable_run fs c tie fop fsqrt narrow e1 2 x [a; v] = Some (Ok r) -> f a v = r) ->
  let rest := rest_many (blanket_unsafe c (si_array (slice_array c (vty_of l0))) (si_iterable c (slice_array c (vty_of l0)))) n in
  let m := zipmap_iterator c (zip_iterator (slice_iterator c (vty_of l0)) rest) (vty_of l1) 0 func in
  zip (slice_iterator c (vty_of l0)) rest t = Ok t /\
  exists out acc s', zlen out = N /\ (forall k row, column ls k row -> znth out k = Some (h row)) /\
    simd_reduce m fuel (mkSIMDMap t env) (splat (p_width l1) i) f = Ok (acc, s') /\ scalar_reduce (p_width l1) acc i op = Ok (fold_left op out i).
Proof. exact c96_zip. Qed.
Print Assumptions C96_zip.

(** C96: the minimum of a slice of integers of at most 32 bits; the greatest value for the
    empty slice. *)
Theorem C96_minimum : forall (fs : features) (c : config) (tie : bool) (fop : arith -> elty -> Z -> Z -> Z) (fsqrt : elty -> Z -> Z) (narrow : Z -> Z) (t : ity) (l : list Z) (l0 : packed_line) (f : list Z -> list Z -> list Z) (fuel : nat),
  let start := splat (p_width l0) (imax t) in
  fs "undefined"%string = false -> In (EInt t) primitives -> (ibytes t <= 4)%nat -> portable_natural fs (el_name (EInt t) ++ "s") = [l0] -> Forall (in_ity t) l -> zlen l * p_size l0 <= isize_max -> (length l < fuel)%nat ->
  (forall a v r, zlen a = p_width l0 -> zlen v = p_width l0 -> Forall (in_ity t) a -> Forall (in_ity t) v -> portable_run fs c tie fop fsqrt narrow (EInt t) 2 (Call Min (Arg 0) (Arg 1)) [a; v] = Some (Ok r) -> f a v = r) ->
  exists acc s' r, simd_reduce (slice_iterator c (vty_of l0)) fuel (simd_iter l start) start f = Ok (acc, s') /\ scalar_reduce (p_width l0) acc (imax t) Z.min = Ok r /\
    (l = [] -> r = imax t) /\ (l <> [] -> In r l) /\ Forall (Z.le r) l.
Proof. exact c96_minimum. Qed.
Print Assumptions C96_minimum.

(** C96: the maximum of a slice of integers of at most 32 bits; the least value for the empty
    slice. *)
Theorem C96_maximum : forall (fs : features) (c : config) (tie : bool) (fop : arith -> elty -> Z -> Z -> Z) (fsqrt : elty -> Z -> Z) (narrow : Z -> Z) (t : ity) (l : list Z) (l0 : packed_line) (f : list Z -> list Z -> list Z) (fuel : nat),
  let start := splat (p_width l0) (imin t) in
  fs "undefined"%string = false -> In (EInt t) primitives -> (ibytes t <= 4)%nat -> portable_natural fs (el_name (EInt t) ++ "s") = [l0] -> Forall (in_ity t) l -> zlen l * p_size l0 <= isize_max -> (length l < fuel)%nat ->
  (forall a v r, zlen a = p_width l0 -> zlen v = p_width l0 -> Forall (in_ity t) a -> Forall (in_ity t) v -> portable_run fs c tie fop fsqrt narrow (EInt t) 2 (Call Max (Arg 0) (Arg 1)) [a; v] = Some (Ok r) -> f a v = r) ->
  exists acc s' r, simd_reduce (slice_iterator c (vty_of l0)) fuel (simd_iter l start) start f = Ok (acc, s') /\ scalar_reduce (p_width l0) acc (imin t) Z.max = Ok r /\
    (l = [] -> r = imin t) /\ (l <> [] -> In r l) /\ Forall (fun y => y <= r) l.
Proof. exact c96_maximum. Qed.
Print Assumptions C96_maximum.

(** C96: the bitwise and, or, exclusive or of a slice of integers. *)
Theorem C96_bitwise : forall (fs : features) (c : config) (tie : bool) (fop : arith -> elty -> Z -> Z -> Z) (fsqrt : elty -> Z -> Z) (narrow : Z -> Z) (t : ity) (o : arith) (i : Z) (l : list Z) (l0 : packed_line) (f : list Z -> list Z -> list Z) (fuel : nat),
  let start := splat (p_width l0) i in
  fs "undefined"%string = false -> In (EInt t) primitives ->
  (forall o e u v, e = EF32 \/ e = EF64 -> lane e u -> lane e v -> lane e (fop o e u v)) -> (forall e u, e = EF32 \/ e = EF64 -> lane e u -> lane e (fsqrt e u)) ->
  In (o, i) [(And, wrap t (-1)); (Or, 0); (Xor, 0)] -> portable_natural fs (el_name (EInt t) ++ "s") = [l0] -> Forall (in_ity t) l -> zlen l * p_size l0 <= isize_max -> (length l < fuel)%nat ->
  (forall a v r, zlen a = p_width l0 -> zlen v = p_width l0 -> Forall (in_ity t) a -> Forall (in_ity t) v -> portable_run fs c tie fop fsqrt narrow (EInt t) 2 (Arith o (Arg 0) (Arg 1)) [a; v] = Some (Ok r) -> f a v = r) ->
  exists acc s', simd_reduce (slice_iterator c (vty_of l0)) fuel (simd_iter l start) start f = Ok (acc, s') /\
    scalar_reduce (p_width l0) acc i (fun a b => wrap t (ExprSpec.exact o a b)) = Ok (fold_left (ExprSpec.exact o) l i).
Proof. exact c96_bitwise. Qed.
Print Assumptions C96_bitwise.

(** C96: the sum of non-negative integers whose total fits the type,
    [l.simd_iter(zero).simd_reduce(zero, |a, v| a + v).scalar_reduce(0, |a, x| a + x)]: in
    debug and in release builds it is the total, and no addition overflows. *)
Theorem C96_sum : forall (fs : features) (c : config) (tie : bool) (fop : arith -> elty -> Z -> Z -> Z) (fsqrt : elty -> Z -> Z) (narrow : Z -> Z) (t : ity) (l : list Z) (l0 : packed_line) (f : list Z -> list Z -> list Z) (fuel : nat),
  let zero := splat (p_width l0) 0 in
  fs "undefined"%string = false -> In (EInt t) primitives ->
  (forall o e u v, e = EF32 \/ e = EF64 -> lane e u -> lane e v -> lane e (fop o e u v)) -> (forall e u, e = EF32 \/ e = EF64 -> lane e u -> lane e (fsqrt e u)) ->
  portable_natural fs (el_name (EInt t) ++ "s") = [l0] ->
  Forall (Z.le 0) l -> total l <= imax t -> zlen l * p_size l0 <= isize_max -> (length l < fuel)%nat ->
  (forall a v r, zlen a = p_width l0 -> zlen v = p_width l0 -> Forall (in_ity t) a -> Forall (in_ity t) v -> portable_run fs c tie fop fsqrt narrow (EInt t) 2 (Arith Add (Arg 0) (Arg 1)) [a; v] = Some (Ok r) -> f a v = r) ->
  exists acc s', simd_reduce (slice_iterator c (vty_of l0)) fuel (simd_iter l zero) zero f = Ok (acc, s') /\ Forall (in_ity t) acc /\
    scalar_reduce (p_width l0) acc 0 Z.add = Ok (total l).
Proof. exact c96_sum. Qed.
Print Assumptions C96_sum.

(** The greatest absolute value of a slice of i8 in a debug build ([C88_reduce_case]), and the
    sum of bytes whose total fits; where it does not fit, a debug build panics. *)
Example C96_case :
  let fop := fun (_ : arith) (_ : elty) u (_ : Z) => u in let fsqrt := fun (_ : elty) u => u in let c := mkConfig Debug true in let fs : features := fun _ => false in
  let g := Abs (Arg 0) in let x := Call Max (Arg 0) (Arg 1) in let op a b := meaning (EInt u8) 2 fop fsqrt x [a; b] in let add := Arith Add (Arg 0) (Arg 1) in
  let func := fun (e : unit) v => (match portable_run fs c true fop fsqrt (fun z => z) (EInt i8) 1 g [v] with Some (Ok r) => r | _ => [] end, e) in
  let f x := fun a v => match portable_run fs c true fop fsqrt (fun z => z) (EInt u8) 2 x [a; v] with Some (Ok r) => r | _ => [] end in
  let l := [5;-3;77;1;2;3;4;5;6;7;-100;9;10;11;12;13;14;-128;16] in let bytes := [5;3;77;1;2;3;4;5;6;7;10;9;10;11;12;13;14;12;16] in
  (forall u, overflows (EInt i8) 1 fop fsqrt g u = false) /\ (forall u, overflows (EInt u8) 2 fop fsqrt x u = false) /\ overflows (EInt u8) 2 fop fsqrt add [200; 56] = true /\ total bytes = 220 /\
  exists n m, portable_natural fs "i8s" = [n] /\ portable_natural fs "u8s" = [m] /\ (exists acc s', simd_reduce (map_iterator c (slice_iterator c (vty_of n)) (vty_of m) 0 func) 30 (mkSIMDMap (simd_iter l (splat (p_width n) 0)) tt) (splat (p_width m) 0) (f x) = Ok (acc, s') /\ scalar_reduce (p_width m) acc 0 op = Ok 128) /\
    (exists acc s', simd_reduce (slice_iterator c (vty_of m)) 30 (simd_iter bytes (splat 16 0)) (splat 16 0) (f add) = Ok (acc, s') /\ scalar_reduce 16 acc 0 Z.add = Ok 220) /\
    portable_run fs c true fop fsqrt (fun z => z) (EInt u8) 2 add [splat 16 200; splat 15 0 ++ [56]] = Some Panic.
Proof.
  cbv zeta. split; [reflexivity|]. split; [reflexivity|]. split; [reflexivity|]. split; [reflexivity|]. eexists. eexists. split; [vm_compute; reflexivity|]. split; [vm_compute; reflexivity|].
  split; [eexists; eexists; split; vm_compute; reflexivity|]. split; [eexists; eexists; split; vm_compute; reflexivity|]. vm_compute. reflexivity.
Qed.

(** The differences of neighbouring pairs of a slice of i32 in a debug build
    ([C94_strides]), and the least element of a slice of i16 ([C96_minimum]). *)
Example C94_strides_case :
  let fop := fun (_ : arith) (_ : elty) u (_ : Z) => u in let fsqrt := fun (_ : elty) u => u in let c := mkConfig Debug true in let fs : features := fun _ => false in
  let x := Arith Sub (Arg 1) (Arg 0) in let P := fun u => 0 <= u <= 1000 in
  let func := fun (e : unit) (t : tuple (list Z) 1) => (match portable_run fs c true fop fsqrt (fun z => z) (EInt i32) 2 x (PipeSpec.items 1 t) with Some (Ok r) => r | _ => [] end, e) in
  let f := fun a v => match portable_run fs c true fop fsqrt (fun z => z) (EInt i16) 2 (Call Min (Arg 0) (Arg 1)) [a; v] with Some (Ok r) => r | _ => [] end in
  let l := [1;3;10;15;100;108;7;7;20;1000;5] in let ty := mkVty 4 4 in let ds := [splat 4 0; splat 4 0] in
  let it := stride_iterator c (slice_array c ty) 0 in let rest := rest_many (blanket_unsafe c (ps_array c (slice_array c ty) 0) (ps_iterable c (slice_array c ty) 0)) 0 in
  (forall row, Forall P row -> overflows (EInt i32) 2 fop fsqrt x row = false) /\ Forall P l /\
  (exists t s', stride l 2 ds = Ok (PipeSpec.items 1 t) /\ scalar_collect c (zipmap_iterator c (zip_iterator it rest) ty 0 func) 0 20 (mkSIMDMap t tt) = Ok (map Some [2;5;8;0;980], s')) /\
  exists acc s', simd_reduce (slice_iterator c (mkVty 8 2)) 20 (simd_iter [5;-3;77;1;2;3;4;-300;6;7] (splat 8 32767)) (splat 8 32767) f = Ok (acc, s') /\ scalar_reduce 8 acc 32767 Z.min = Ok (-300).
Proof.
  cbv zeta. split; [|split; [repeat constructor; discriminate|split]].
  - intros row H. assert (B : forall k, 0 <= nth k row 0 <= 1000) by (intros k; revert k; induction H as [|u row Hu _ IH]; intros [|k]; cbn [nth]; try exact Hu; try apply IH; split; discriminate).
    pose proof (B 0%nat) as B0. pose proof (B 1%nat) as B1. cbn [overflows meaning type_of ExprSpec.exact Nat.ltb Nat.leb orb]. unfold outside. change (imin i32) with (-2147483648). change (imax i32) with 2147483647.
    apply Bool.orb_false_iff. split; apply Z.ltb_ge.
    + apply Z.le_trans with (0 - 1000); [discriminate|]. apply Z.sub_le_mono; [apply B1|apply B0].
    + apply Z.le_trans with (1000 - 0); [|discriminate]. apply Z.sub_le_mono; [apply B1|apply B0].
  - exists (mkPackedStride [1;3;10;15;100;108;7;7;20;1000;5] 0 0 2 (splat 4 0), mkPackedStride [1;3;10;15;100;108;7;7;20;1000;5] 1 1 2 (splat 4 0)). eexists. split; [vm_compute; reflexivity|]. vm_compute. reflexivity.
  - eexists. eexists. split; vm_compute; reflexivity.
Qed.
