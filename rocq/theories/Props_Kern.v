(** Properties: kernels over zipped slices (C82). *)
From Coq Require Import String.
From Verif Require Import Base Spec VecSpec Vecs Iters Zip ZipSpec Lanes OpTables Ops SumTables Sums SumSpec PipeSpec.
Open Scope list_scope.
Open Scope Z_scope.
From Verif Require Import KernProofs.

(** C82: [n+2] slices of equal length N, zipped, mapped with a closure that works lane by lane
    and written to a buffer with [scalar_fill]: element [k] of the buffer is [f] of the
    elements number [k] of the slices for every k < N, and the rest of the buffer is
    unchanged.  For all closures, defaults, lengths, vector types and builds. *)
Theorem C82_zip_fill : forall (A B E : Type) (c : config) (ty out_ty : vty) (n : nat) (ls ds : list (list A)) (N : Z) (d0 : B)
    (f : list A -> B) (func : E -> tuple (list A) (S n) -> list B * E) (e : E) (P : A -> Prop) (t : tuple (SIMDIter A (list A)) (S n)) (fuel : nat) (buf : list B),
  vty_ok ty -> vty_ok out_ty -> WIDTH out_ty = WIDTH ty -> SIZE out_ty = SIZE ty ->
  Forall (fun l => zlen l = N /\ Forall P l) ls -> Forall (fun d => zlen d = WIDTH ty /\ Forall P d) ds -> length ls = length ds ->
  PipeSpec.items (S n) t = map2 simd_iter ls ds ->
  (N + WIDTH ty) * SIZE ty <= isize_max -> N < Z.of_nat fuel -> lane_by_lane (WIDTH ty) P (S n) f func -> N <= zlen buf ->
  let rest := rest_many (blanket_unsafe c (si_array (slice_array c ty)) (si_iterable c (slice_array c ty))) n in
  let m := zipmap_iterator c (zip_iterator (slice_iterator c ty) rest) out_ty d0 func in
  zip (slice_iterator c ty) rest t = Ok t /\
  exists buf' s', scalar_fill c m d0 fuel (mkSIMDMap t e) buf = Ok (buf', s') /\ zlen buf' = zlen buf /\
    (forall k r, column ls k r -> znth buf' k = Some (f r)) /\ (forall k, N <= k -> znth buf' k = znth buf k).
Proof. exact c82_zip_fill. Qed.
Print Assumptions C82_zip_fill.

Example C82_zip_fill_case :
  let c := mkConfig Debug false in let ty := mkVty 4 4 in let d := splat 4 0 in
  let rest := rest_many (blanket_unsafe c (si_array (slice_array c ty)) (si_iterable c (slice_array c ty))) 0 in
  let func := fun (k : Z) (t : tuple (list Z) 1) => (map2 (fun x y => (x - y) * (x - y)) (fst t) (snd t), k) in
  let f := fun r => match r with [x; y] => (x - y) * (x - y) | _ => 0 end in
  lane_by_lane (WIDTH ty) (fun _ => True) 1 f func /\
  exists s', scalar_fill c (zipmap_iterator c (zip_iterator (slice_iterator c ty) rest) ty 0 func) 0 9
    (mkSIMDMap (simd_iter [3;4;5;6;7;8] d, simd_iter [1;1;1;2;2;2] d) 0) (repeat 99 8) = Ok ([4;9;16;16;25;36;99;99], s').
Proof.
  split; [|eexists; vm_compute; reflexivity].
  intros e [x y] H. cbn [PipeSpec.items fst snd] in *. destruct (Forall_inv H) as [Hx _]. destruct (Forall_inv (Forall_inv_tail H)) as [Hy _].
  split; [rewrite PipeProofs.zlen_map2; congruence|].
  intros i r Hr. repeat match goal with H : column _ _ _ |- _ => inversion H; clear H; subst | H : Forall2 _ _ _ |- _ => inversion H; clear H; subst end.
  erewrite PipeProofs.znth_map2; eauto.
Qed.

(** C82: the same zip and map, reduced with [simd_reduce(splat(0), |a, v| a + v)] and [sum()]:
    the result is the sum in the lane type of [f] over the elements, plus [f] of the
    defaults for every lane of padding in the last vector.  (Lane additions wrap: a
    release build.) *)
Theorem C82_zip_sum : forall (fadd : elty -> Z -> Z -> Z) (b : bool) (A E : Type) (i : ity) (ty out_ty : vty) (n : nat) (ls ds : list (list A)) (N : Z) (d0 : Z)
    (f : list A -> Z) (func : E -> tuple (list A) (S n) -> list Z * E) (e : E) (P : A -> Prop) (t : tuple (SIMDIter A (list A)) (S n)) (fuel : nat),
  let c := mkConfig Release b in
  (0 < ibytes i)%nat -> vty_ok ty -> vty_ok out_ty -> WIDTH out_ty = WIDTH ty -> SIZE out_ty = SIZE ty ->
  Forall (fun l => zlen l = N /\ Forall P l) ls -> Forall (fun d => zlen d = WIDTH ty /\ Forall P d) ds -> length ls = length ds ->
  PipeSpec.items (S n) t = map2 simd_iter ls ds ->
  (N + WIDTH ty) * SIZE ty <= isize_max -> N < Z.of_nat fuel -> lane_by_lane (WIDTH ty) P (S n) f func ->
  let rest := rest_many (blanket_unsafe c (si_array (slice_array c ty)) (si_iterable c (slice_array c ty))) n in
  let m := zipmap_iterator c (zip_iterator (slice_iterator c ty) rest) out_ty d0 func in
  let reduce := simd_reduce m fuel (mkSIMDMap t e) (splat (WIDTH out_ty) 0) (fun a v => map2 (fun x y => wrap i (x + y)) a v) in
  zip (slice_iterator c ty) rest t = Ok t /\
  exists acc s' out pad r, reduce = Ok (acc, s') /\
    zlen out = N /\ (forall k row, column ls k row -> znth out k = Some (f row)) /\
    zlen pad = WIDTH ty * ((N + WIDTH ty - 1) / WIDTH ty) - N /\ (forall k row, 0 <= k < zlen pad -> column ds k row -> znth pad k = Some (f row)) /\
    in_ity i r /\ (exists q, r = total out + total pad + q * imod i) /\
    (forall s, In s (x86_sum ++ unknown_sum) -> s_el s = EInt i -> s_ty s = out_ty -> sum_portable fadd c s acc = Ok r) /\
    (forall x, In x x86_sum_optimized -> xs_el x = EInt i -> xs_ty x = out_ty -> sum_optimized c x acc = Ok r).
Proof. exact c82_zip_sum. Qed.
Print Assumptions C82_zip_sum.

(** C82, for the kernel of tests/kernel.rs: [(a - b) * (a - b)] over two slices with the same
    default [d] in every lane, reduced and summed, is the sum of the squares of the
    differences in the lane type: the padding contributes nothing.  For every integer lane
    type, slices of any contents and equal length, and every summing vector type of both
    back-ends. *)
Theorem C82_squares : forall (fadd : elty -> Z -> Z -> Z) (b : bool) (i : ity) (l1 l2 : list Z) (d : Z) (fuel : nat),
  let c := mkConfig Release b in
  let sub_sq x y := let z := wrap i (x - y) in wrap i (z * z) in
  let rest ty := rest_one (blanket_unsafe c (si_array (slice_array c ty)) (si_iterable c (slice_array c ty))) in
  let m ty := zipmap_iterator c (zip_iterator (slice_iterator c ty) (rest ty)) ty 0
                (fun (u : unit) p => (map2 sub_sq (fst p) (snd p), u)) in
  let run ty := bind (zip (slice_iterator c ty) (rest ty) (simd_iter l1 (splat (WIDTH ty) d), simd_iter l2 (splat (WIDTH ty) d)))
                  (fun st => simd_reduce (m ty) fuel (mkSIMDMap st tt) (splat (WIDTH ty) 0) (fun a v => map2 (fun x y => wrap i (x + y)) a v)) in
  let squares := total (map (fun p => (fst p - snd p) * (fst p - snd p)) (combine l1 l2)) in
  (0 < ibytes i)%nat -> zlen l1 = zlen l2 -> zlen l1 < Z.of_nat fuel ->
  exists r, in_ity i r /\ (exists q, r = squares + q * imod i) /\
  (forall s, In s (x86_sum ++ unknown_sum) -> s_el s = EInt i -> (zlen l1 + WIDTH (s_ty s)) * SIZE (s_ty s) <= isize_max ->
    exists acc s', run (s_ty s) = Ok (acc, s') /\ sum_portable fadd c s acc = Ok r) /\
  (forall x, In x x86_sum_optimized -> xs_el x = EInt i -> (zlen l1 + WIDTH (xs_ty x)) * SIZE (xs_ty x) <= isize_max ->
    exists acc s', run (xs_ty x) = Ok (acc, s') /\ sum_optimized c x acc = Ok r).
Proof. exact c82_squares. Qed.
Print Assumptions C82_squares.

Example C82_squares_case :
  let c := mkConfig Release true in let ty := mkVty 4 4 in let i := mkIty true 4 in
  let sub_sq x y := let z := wrap i (x - y) in wrap i (z * z) in
  let rest := rest_one (blanket_unsafe c (si_array (slice_array c ty)) (si_iterable c (slice_array c ty))) in
  let m := zipmap_iterator c (zip_iterator (slice_iterator c ty) rest) ty 0 (fun (u : unit) p => (map2 sub_sq (fst p) (snd p), u)) in
  existsb (fun s => match s_el s with EInt t => isigned t && Nat.eqb (ibytes t) 4 && (WIDTH (s_ty s) =? 4) && (SIZE (s_ty s) =? 4) | _ => false end) (x86_sum ++ unknown_sum) = true /\
  match simd_reduce m 20 (mkSIMDMap (simd_iter [3;3;3;3;3;9] (splat 4 5), simd_iter [1;1;1;1;1;2] (splat 4 5)) tt) (splat 4 0) (fun a v => map2 (fun x y => wrap i (x + y)) a v) with
  | Ok (acc, _) => total acc = 5 * 4 + 49 | _ => False end.
Proof. cbv zeta. split; vm_compute; reflexivity. Qed.

(** Two slices of 5 and defaults 5: the products 1*2, ..., 5*6 add up to 70 and each of the
    three lanes of padding adds 25. *)
Example C82_zip_sum_case :
  let c := mkConfig Release true in let ty := mkVty 4 4 in let i := mkIty true 4 in
  let rest := rest_one (blanket_unsafe c (si_array (slice_array c ty)) (si_iterable c (slice_array c ty))) in
  let m := zipmap_iterator c (zip_iterator (slice_iterator c ty) rest) ty 0 (fun (u : unit) p => (map2 (fun x y => wrap i (x * y)) (fst p) (snd p), u)) in
  match simd_reduce m 20 (mkSIMDMap (simd_iter [1;2;3;4;5] (splat 4 5), simd_iter [2;3;4;5;6] (splat 4 5)) tt) (splat 4 0) (fun a v => map2 (fun x y => wrap i (x + y)) a v) with
  | Ok (acc, _) => total acc = 70 + 3 * 25 | _ => False end.
Proof. cbv zeta. vm_compute; reflexivity. Qed.
