(** Properties: what the documentation says about portability: closures with a state
    (C73) and reductions with constants (C74); inner products (C72). *)
From Coq Require Import String.
From Verif Require Import Base Spec VecSpec Vecs Iters Zip Lanes OpTables Ops SumTables Sums SumSpec.
Open Scope list_scope.
Open Scope Z_scope.
From Verif Require Import DocProofs.

(** C73: a closure with a captured state is called once per vector, in order, the padded
    tail included.  So the scalar at index k is mapped with the state after k / WIDTH calls,
    for every length and every vector type. *)
Theorem C73_state_per_vector : forall (A B E : Type) (c : config) (ty out_ty : vty) (l d : list A) (g : E -> A -> B) (next : E -> E)
    (func : E -> list A -> list B * E) (e : E) (d0 : B) (fuel : nat),
  vty_ok ty -> vty_ok out_ty -> WIDTH out_ty = WIDTH ty -> SIZE out_ty = SIZE ty ->
  zlen d = WIDTH ty -> (zlen l + WIDTH ty) * SIZE ty <= isize_max -> (length l < fuel)%nat ->
  (forall e v, zlen v = WIDTH ty -> func e v = (map (g e) v, next e)) ->
  exists out s',
    scalar_collect c (map_iterator c (slice_iterator c ty) out_ty d0 func) d0 fuel (mkSIMDMap (simd_iter l d) e) =
      Ok (map Some out, s') /\
    zlen out = zlen l /\ (forall k x, znth l k = Some x -> znth out k = Some (g (Nat.iter (Z.to_nat (k / WIDTH ty)) next e) x)) /\
    sm_env s' = Nat.iter (Z.to_nat ((zlen l + WIDTH ty - 1) / WIDTH ty)) next e.
Proof. exact c73_state_per_vector. Qed.
Print Assumptions C73_state_per_vector.

(** The impure closure of the documentation, on ten scalars in vectors of four and of eight. *)
Example C73_state_per_vector_case :
  let func := fun (flip : bool) v => (map (fun x => if negb flip then x + 1 else x) v, negb flip) in
  let run ty n := match scalar_collect (mkConfig Release true) (map_iterator (mkConfig Release true) (slice_iterator (mkConfig Release true) ty) ty 0 func) 0 20
             (mkSIMDMap (simd_iter (repeat 1 10) (splat n 0)) true) with Ok (out, _) => out | _ => [] end in
  vty_ok (mkVty 4 4) /\ vty_ok (mkVty 8 4) /\
  run (mkVty 4 4) 4 = map Some [1; 1; 1; 1; 2; 2; 2; 2; 1; 1] /\ run (mkVty 8 4) 8 = map Some [1; 1; 1; 1; 1; 1; 1; 1; 2; 2].
Proof. cbv zeta. repeat split; try (vm_compute; reflexivity); vm_compute; auto 10. Qed.

(** C74: summing with [simd_reduce(splat(a), |acc, v| acc + v + splat(k)).sum()] over [l] with default
    vector [splat(d)] gives, in the lane type, the sum of [l], plus [a] per lane, plus [d] per
    lane of the padding, plus [k] per lane of every vector visited: with [a], [d] or [k] not zero,
    the result depends on the vector width in just this way, whichever back-end
    computes it.  (Release builds.) *)
Theorem C74_constants : forall (fadd : elty -> Z -> Z -> Z) (b : bool) (t : ity) (l : list Z) (a d k : Z) (fuel : nat),
  let c := mkConfig Release b in
  let reduce ty := simd_reduce (slice_iterator c ty) fuel (simd_iter l (splat (WIDTH ty) d)) (splat (WIDTH ty) a)
                     (fun acc v => map2 (fun x y => wrap t (x + y)) (map2 (fun x y => wrap t (x + y)) acc v) (splat (WIDTH ty) k)) in
  let lanes ty := WIDTH ty * ((zlen l + WIDTH ty - 1) / WIDTH ty) in
  let result ty r := in_ity t r /\ exists m, r = total l + a * WIDTH ty + d * (lanes ty - zlen l) + k * lanes ty + m * imod t in
  (0 < ibytes t)%nat -> (length l < fuel)%nat -> in_ity t a ->
  (forall s, In s (x86_sum ++ unknown_sum) -> s_el s = EInt t -> slice_ok (s_ty s) l ->
   exists acc s' r, reduce (s_ty s) = Ok (acc, s') /\ sum_portable fadd c s acc = Ok r /\ result (s_ty s) r) /\
  (forall x, In x x86_sum_optimized -> xs_el x = EInt t -> slice_ok (xs_ty x) l ->
   exists acc s' r, reduce (xs_ty x) = Ok (acc, s') /\ sum_optimized c x acc = Ok r /\ result (xs_ty x) r).
Proof. exact c74_constants. Qed.
Print Assumptions C74_constants.

(** The example of the documentation: ten zeros, one added per lane: 16, 32 or 64. *)
Example C74_constants_case :
  let sum_in W := match simd_reduce (slice_iterator (mkConfig Release true) (mkVty W 1)) 20 (simd_iter (repeat 0 10) (splat W 0)) (splat W 0)
        (fun acc v => map2 (fun x y => wrap i8 (x + y)) (map2 (fun x y => wrap i8 (x + y)) acc v) (splat W 1)) with Ok (acc, _) => total acc | _ => -1 end in
  (exists s, In s x86_sum /\ s_el s = EInt i8 /\ s_ty s = mkVty 32 1) /\ sum_in 16 = 16 /\ sum_in 32 = 32 /\ sum_in 64 = 64.
Proof.
  cbv zeta. split; [|repeat split; vm_compute; reflexivity].
  assert (H : existsb (fun s => match s_el s with EInt t => andb (Nat.eqb (ibytes t) 1) (isigned t) | _ => false end && Z.eqb (WIDTH (s_ty s)) 32 && Z.eqb (SIZE (s_ty s)) 1) x86_sum = true) by (vm_compute; reflexivity).
  apply existsb_exists in H. destruct H as (s & Hs & H). exists s. split; [exact Hs|]. apply andb_prop in H. destruct H as [H H3]. apply andb_prop in H. destruct H as [H1 H2].
  apply Z.eqb_eq in H2, H3. destruct (s_ty s) as [w z]. cbn [WIDTH SIZE] in H2, H3. subst. split; [|reflexivity].
  destruct (s_el s) as [t| |]; try discriminate. destruct t as [sg nb]. cbn in H1. apply andb_prop in H1. destruct H1 as [H1 H1']. apply Nat.eqb_eq in H1. subst nb.
  destruct sg; [reflexivity|discriminate].
Qed.

(** C72 for an inner product, as tests/zip.rs zip_simd_reduce writes it: zipping two slices of
    equal length with defaults [splat(d1)] and [splat(d2)] and reducing with
    [|acc, (x, y)| acc + x * y] from [splat(0)], then [sum()], gives the sum of the products of
    corresponding elements in the lane type, plus [d1 * d2] per lane of padding: with either default
    zero it is the inner product, whatever the width and the back-end.  (Release builds.) *)
Theorem C72_inner_product : forall (fadd : elty -> Z -> Z -> Z) (b : bool) (t : ity) (l1 l2 : list Z) (d1 d2 : Z) (fuel : nat),
  let c := mkConfig Release b in
  let rest ty := rest_one (blanket_unsafe c (si_array (slice_array c ty)) (si_iterable c (slice_array c ty))) in
  let reduce ty := bind (zip (slice_iterator c ty) (rest ty) (simd_iter l1 (splat (WIDTH ty) d1), simd_iter l2 (splat (WIDTH ty) d2)))
                     (fun st => simd_reduce (zip_iterator (slice_iterator c ty) (rest ty)) fuel st (splat (WIDTH ty) 0)
                       (fun acc p => map2 (fun x y => wrap t (x + y)) acc (map2 (fun x y => wrap t (x * y)) (fst p) (snd p)))) in
  let lanes ty := WIDTH ty * ((zlen l1 + WIDTH ty - 1) / WIDTH ty) in
  let inner := total (map (fun p => fst p * snd p) (combine l1 l2)) in
  let result ty r := in_ity t r /\ exists m, r = inner + d1 * d2 * (lanes ty - zlen l1) + m * imod t in
  (0 < ibytes t)%nat -> (length l1 < fuel)%nat -> zlen l1 = zlen l2 ->
  (forall s, In s (x86_sum ++ unknown_sum) -> s_el s = EInt t -> slice_ok (s_ty s) l1 -> slice_ok (s_ty s) l2 ->
   exists acc s' r, reduce (s_ty s) = Ok (acc, s') /\ sum_portable fadd c s acc = Ok r /\ result (s_ty s) r) /\
  (forall x, In x x86_sum_optimized -> xs_el x = EInt t -> slice_ok (xs_ty x) l1 -> slice_ok (xs_ty x) l2 ->
   exists acc s' r, reduce (xs_ty x) = Ok (acc, s') /\ sum_optimized c x acc = Ok r /\ result (xs_ty x) r).
Proof. exact c72_inner_product. Qed.
Print Assumptions C72_inner_product.

Example C72_inner_product_case :
  let c := mkConfig Release true in let ty := mkVty 4 4 in
  let rest := rest_one (blanket_unsafe c (si_array (slice_array c ty)) (si_iterable c (slice_array c ty))) in
  vty_ok ty /\ slice_ok ty [1; 2; 3; 4; 5] /\
  match bind (zip (slice_iterator c ty) rest (simd_iter [1; 2; 3; 4; 5] (splat 4 0), simd_iter [10; 20; 30; 40; 50] (splat 4 7)))
          (fun st => simd_reduce (zip_iterator (slice_iterator c ty) rest) 20 st (splat 4 0)
            (fun acc p => map2 (fun x y => wrap i32 (x + y)) acc (map2 (fun x y => wrap i32 (x * y)) (fst p) (snd p)))) with
  | Ok (acc, _) => total acc = 550 | _ => False end.
Proof. cbv zeta. split; [vm_compute; auto 10|]. split; [unfold slice_ok; vm_compute; repeat split; congruence|]. vm_compute. reflexivity. Qed.
