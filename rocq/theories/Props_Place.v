(** Properties: programs that write to memory leave the same in it in every build (C93). *)
From Coq Require Import String.
From Verif Require Import Base Spec VecSpec Vecs Iters Zip ZipSpec Stride GateTables GateSpec Gates Lanes Floats FloatSpec OpTables Ops OpSpec Tables Shuffles PortTables Ports PortSpec SumTables Sums SumSpec Builds PipeSpec AvailSpec ExprSpec Exprs.
Open Scope list_scope.
Open Scope Z_scope.
From Verif Require Import PlaceProofs.

(** C93: [l.simd_iter_mut(d).simd_for_each(|v| *v = closure(v))] replaces, in every build, every
    element of the slice by the scalar program applied to it. *)
Theorem C93_for_each : forall (fs : features) (c : config) (tie : bool) (fop : arith -> elty -> Z -> Z -> Z) (fsqrt : elty -> Z -> Z) (narrow : Z -> Z) (e0 : elty) (x : expr) (l d : list Z) (l0 : packed_line)
    (E : Type) (func : E -> list Z -> list Z * E) (e : E) (d0 : Z) (fuel : nat),
  target fs -> In e0 primitives ->
  (forall o e u v, e = EF32 \/ e = EF64 -> lane e u -> lane e v -> lane e (fop o e u v)) -> (forall e u, e = EF32 \/ e = EF64 -> lane e u -> lane e (fsqrt e u)) ->
  type_of e0 1 x = Some e0 -> natural fs (el_name e0 ++ "s") = [l0] ->
  Forall (lane e0) l -> zlen d = p_width l0 -> Forall (lane e0) d -> zlen l * p_size l0 <= isize_max -> (length l < fuel)%nat ->
  (forall e v, zlen v = p_width l0 -> zlen (fst (func e v)) = p_width l0) ->
  (forall e v, zlen v = p_width l0 -> Forall (lane e0) v -> run fs tie fop fsqrt narrow e0 1 x [v] = Some (Ok (fst (func e v)))) ->
  exists e', simd_for_each c (vty_of l0) d0 func fuel (simd_iter l d) e =
    Ok (mkSIMDIter (zlen l) (map (fun a => meaning e0 1 fop fsqrt x [a]) l) d, e').
Proof. exact c93_for_each. Qed.
Print Assumptions C93_for_each.

(** C93: [l.simd_iter(d).simd_map(closure).scalar_fill(&mut buf)] writes, in every build, the
    scalar program applied to every element of the slice to the start of the buffer, and
    leaves the rest of it alone. *)
Theorem C93_fill : forall (fs : features) (c : config) (tie : bool) (fop : arith -> elty -> Z -> Z -> Z) (fsqrt : elty -> Z -> Z) (narrow : Z -> Z) (e0 e1 : elty) (x : expr) (l d : list Z) (l0 l1 : packed_line)
    (E : Type) (func : E -> list Z -> list Z * E) (e : E) (buf : list Z) (fuel : nat),
  target fs -> In e0 primitives ->
  (forall o e u v, e = EF32 \/ e = EF64 -> lane e u -> lane e v -> lane e (fop o e u v)) -> (forall e u, e = EF32 \/ e = EF64 -> lane e u -> lane e (fsqrt e u)) ->
  type_of e0 1 x = Some e1 -> natural fs (el_name e0 ++ "s") = [l0] -> natural fs (el_name e1 ++ "s") = [l1] ->
  Forall (lane e0) l -> zlen d = p_width l0 -> Forall (lane e0) d -> zlen l * p_size l0 + 32 <= isize_max -> (length l < fuel)%nat -> zlen l <= zlen buf ->
  (forall e v, zlen v = p_width l0 -> Forall (lane e0) v -> run fs tie fop fsqrt narrow e0 1 x [v] = Some (Ok (fst (func e v)))) ->
  exists s', scalar_fill c (map_iterator c (slice_iterator c (vty_of l0)) (vty_of l1) 0 func) 0 fuel (mkSIMDMap (simd_iter l d) e) buf =
    Ok (map (fun a => meaning e0 1 fop fsqrt x [a]) l ++ skipn (length l) buf, s').
Proof. exact c93_fill. Qed.
Print Assumptions C93_fill.

(** C93: the same for [n+2] zipped slices of equal length. *)
Theorem C93_zip_fill : forall (fs : features) (c : config) (tie : bool) (fop : arith -> elty -> Z -> Z -> Z) (fsqrt : elty -> Z -> Z) (narrow : Z -> Z) (e0 e1 : elty) (x : expr) (n : nat) (ls ds : list (list Z)) (N : Z) (l0 l1 : packed_line)
    (E : Type) (func : E -> tuple (list Z) (S n) -> list Z * E) (e : E) (t : tuple (SIMDIter Z (list Z)) (S n)) (fuel : nat) (buf : list Z),
  target fs -> In e0 primitives ->
  (forall o e u v, e = EF32 \/ e = EF64 -> lane e u -> lane e v -> lane e (fop o e u v)) -> (forall e u, e = EF32 \/ e = EF64 -> lane e u -> lane e (fsqrt e u)) ->
  type_of e0 (S (S n)) x = Some e1 -> natural fs (el_name e0 ++ "s") = [l0] -> natural fs (el_name e1 ++ "s") = [l1] ->
  Forall (fun l => zlen l = N /\ Forall (lane e0) l) ls -> Forall (fun d => zlen d = p_width l0 /\ Forall (lane e0) d) ds -> length ls = length ds ->
  PipeSpec.items (S n) t = map2 simd_iter ls ds -> N * p_size l0 + 32 <= isize_max -> N < Z.of_nat fuel -> N <= zlen buf ->
  (forall e t, Forall (fun v => zlen v = p_width l0 /\ Forall (lane e0) v) (PipeSpec.items (S n) t) -> run fs tie fop fsqrt narrow e0 (S (S n)) x (PipeSpec.items (S n) t) = Some (Ok (fst (func e t)))) ->
  let rest := rest_many (blanket_unsafe c (si_array (slice_array c (vty_of l0))) (si_iterable c (slice_array c (vty_of l0)))) n in
  let m := zipmap_iterator c (zip_iterator (slice_iterator c (vty_of l0)) rest) (vty_of l1) 0 func in
  zip (slice_iterator c (vty_of l0)) rest t = Ok t /\
  exists buf' s', scalar_fill c m 0 fuel (mkSIMDMap t e) buf = Ok (buf', s') /\ zlen buf' = zlen buf /\
    (forall k r, column ls k r -> znth buf' k = Some (meaning e0 (S (S n)) fop fsqrt x r)) /\ (forall k, N <= k -> znth buf' k = znth buf k).
Proof. exact c93_zip_fill. Qed.
Print Assumptions C93_zip_fill.

(** [i32s(9) * v.abs().be_i32s() - i32s(4)], in place, written to a buffer with room to
    spare, and [saturating_add] of two slices of u16 written to a buffer; with 128-bit
    registers and no optional feature, and with SSE4.1, which differ in the code that runs.
    The closures that call the crate's operations meet the hypotheses in every build. *)
Example C93_case :
  let x := Arith Sub (Arith Mul (Splat (EInt i32) 9) (Be (EInt i32) (Abs (Arg 0)))) (Splat (EInt i32) 4) in
  let y := Call SaturatingAdd (Arg 0) (Arg 1) in
  let fop := fun (_ : arith) (_ : elty) u (_ : Z) => u in let fsqrt := fun (_ : elty) u => u in let c := mkConfig Debug true in
  let l := [-10;-10;10;0;1;-2147483648;2147483647;-10;7] in
  let func fs n := fun (e : unit) v => (match run fs true fop fsqrt (fun z => z) (EInt i32) 1 x [v] with Some (Ok r) => if zlen r =? p_width n then r else v | _ => v end, e) in
  let func2 fs := fun (e : unit) (p : list Z * list Z) => (match run fs true fop fsqrt (fun z => z) (EInt u16) 2 y [fst p; snd p] with Some (Ok r) => r | _ => [] end, e) in
  let in_place fs := match natural_of fs (EInt i32) with Some n => Some (simd_for_each c (vty_of n) 0 (func fs n) 30 (simd_iter l (splat (p_width n) 0)) tt) | None => None end in
  let fill fs := match natural_of fs (EInt i32) with Some n => Some (scalar_fill c (map_iterator c (slice_iterator c (vty_of n)) (vty_of n) 0 (func fs n)) 0 30 (mkSIMDMap (simd_iter l (splat (p_width n) 0)) tt) (repeat 5 11)) | None => None end in
  let zip_fill fs := match natural_of fs (EInt u16) with
    | Some n => let rest := rest_many (blanket_unsafe c (si_array (slice_array c (vty_of n))) (si_iterable c (slice_array c (vty_of n)))) 0 in
        Some (scalar_fill c (zipmap_iterator c (zip_iterator (slice_iterator c (vty_of n)) rest) (vty_of n) 0 (func2 fs)) 0 30
          (mkSIMDMap (simd_iter [1;2;3;65535;5;6;7;8;9;10] (splat (p_width n) 0), simd_iter [9;8;7;6;5;4;3;2;1;65530] (splat (p_width n) 0)) tt) (repeat 5 11))
    | None => None end in
  let out := [86;86;86;-4;5;2147483644;2147483635;86;59] in
  type_of (EInt i32) 1 x = Some (EInt i32) /\ map (fun a => meaning (EInt i32) 1 fop fsqrt x [a]) l = out /\
  (forall fs n, target fs -> natural fs "i32s" = [n] -> forall e v, zlen v = p_width n ->
    zlen (fst (func fs n e v)) = p_width n /\ (Forall (lane (EInt i32)) v -> run fs true fop fsqrt (fun z => z) (EInt i32) 1 x [v] = Some (Ok (fst (func fs n e v))))) /\
  (forall fs, fs = (fun _ => false) \/ fs = sandy_bridge ->
    (exists p d, in_place fs = Some (Ok (mkSIMDIter p out d, tt))) /\ (exists s', fill fs = Some (Ok (out ++ [5;5], s'))) /\ (exists s', zip_fill fs = Some (Ok ([10;10;10;65535;10;10;10;10;10;65535;5], s')))).
Proof.
  cbv zeta. split; [reflexivity|]. split; [vm_compute; reflexivity|]. split.
  - intros fs n T N e v Lv. cbn [fst]. split.
    + match goal with |- context [run ?a ?b ?c ?d ?e ?f ?g ?h ?i] => destruct (run a b c d e f g h i) as [ [r| | |]|] end; try exact Lv. destruct (zlen r =? p_width n) eqn:K; [apply Z.eqb_eq; exact K|exact Lv].
    + intros Fv. match goal with |- run _ ?ti ?fo ?sq ?na _ _ ?x _ = _ => destruct (ExprProofs.c83_closure fs ti fo sq na (EInt i32) (EInt i32) x [v] n n T) as (r & R & Lr & _) end;
        [vm_compute; tauto|intros o e' a b _ Ha _; exact Ha|intros e' a _ Ha; exact Ha|reflexivity|exact N|exact N|discriminate|constructor; [split; assumption|constructor]|].
      cbn [length] in R. rewrite R. rewrite (proj2 (Z.eqb_eq _ _) Lr). reflexivity.
  - intros fs [-> | ->]; (split; [eexists; eexists; vm_compute; reflexivity|split; eexists; vm_compute; reflexivity]).
Qed.
