(** Properties: zipping iterators of different kinds (C28). *)
From Verif Require Import Base Spec Vecs Iters Stride Zip ZipSpec.
From Coq Require Import Lia ZifyBool ZifyNat.
From Verif Require Import MixProofs.

(** C28 for two iterators of different kinds, as in the crate's test
    [zipped_heterogeneous_iters]: each is over a slice or over one stream of a strided
    slice.  Mapping a lane-wise closure over the zip and collecting (or filling a long
    enough slice) gives the element-wise combination of what the two iterate over, and
    leaves the rest of the filled slice alone. *)
Theorem C28_mixed : forall (A B C E I J : Type) (c : config) (arr1 : SIMDArray A I) (it1 : SIMDIterable (list A) I) (s1 : I) (l1 d1 : list A)
    (arr2 : SIMDArray B J) (it2 : SIMDIterable (list B) J) (s2 : J) (l2 d2 : list B) (out_ty : vty) (d0 : C) (g : A -> B -> C)
    (func : E -> list A * list B -> list C * E) (e : E) (fill : list C) (fuel : nat),
  source c A I arr1 it1 s1 l1 d1 0 -> source c B J arr2 it2 s2 l2 d2 0 -> WIDTH (it_ty it2) = WIDTH (it_ty it1) -> zlen l2 = zlen l1 ->
  vty_ok out_ty -> WIDTH out_ty = WIDTH (it_ty it1) -> SIZE out_ty = SIZE (it_ty it1) ->
  (zlen l1 + WIDTH (it_ty it1)) * SIZE (it_ty it1) <= isize_max -> (length l1 < fuel)%nat ->
  (forall e v, fst (func e v) = map2 g (fst v) (snd v)) ->
  let z := zip_iterator (blanket_iterator c arr1 it1) (rest_one (blanket_unsafe c arr2 it2)) in
  let m := zipmap_iterator c z out_ty d0 func in
  zip (blanket_iterator c arr1 it1) (rest_one (blanket_unsafe c arr2 it2)) (s1, s2) = Ok (s1, s2) /\
  (exists s', scalar_collect c m d0 fuel (mkSIMDMap (s1, s2) e) = Ok (map Some (map2 g l1 l2), s')) /\
  (zlen l1 <= zlen fill -> exists s', scalar_fill c m d0 fuel (mkSIMDMap (s1, s2) e) fill = Ok (map2 g l1 l2 ++ skipn (length l1) fill, s')).
Proof. exact c28_mixed. Qed.
Print Assumptions C28_mixed.

Example C28_mixed_case :
  let c := mkConfig Debug true in let ty := mkVty 4 4 in let arr := slice_array c ty in let data := [1; 2; 3; 4; 5; 6; 7; 8; 9; 10; 11; 12] in let d := [0; 0; 0; 0] in
  let b := mkPackedStride data 1 1 2 d in
  source c Z _ (ps_array c arr 0) (ps_iterable c arr 0) b [2; 4; 6; 8; 10; 12] d 0 /\ source c Z _ (si_array arr) (si_iterable c arr) (simd_iter [7; 7; 7; 7; 7; 8] d) [7; 7; 7; 7; 7; 8] d 0 /\
  stride_two data (d, d) = (mkPackedStride data 0 0 2 d, b) /\
  exists s', scalar_collect c (zipmap_iterator c (zip_iterator (stride_iterator c arr 0) (rest_one (blanket_unsafe c (si_array arr) (si_iterable c arr)))) ty 0 (fun (u : unit) v => (map2 Z.mul (fst v) (snd v), u))) 0 10
    (mkSIMDMap (b, simd_iter [7; 7; 7; 7; 7; 8] d) tt) = Ok (map Some [14; 28; 42; 56; 70; 96], s').
Proof.
  cbv zeta. split; [|split; [|split; [reflexivity|eexists; vm_compute; reflexivity]]].
  - apply (source_stride _ Z (mkVty 4 4) _ [0; 0; 0; 0] 0 1 2 [2; 4; 6; 8; 10; 12] 0).
    + split; cbn; lia.
    + vm_compute. discriminate.
    + reflexivity.
    + lia.
    + cbn. lia.
    + split; [reflexivity|]. intros i Hi. unfold zlen in Hi. cbn in Hi. assert (Hc : i = 0 \/ i = 1 \/ i = 2 \/ i = 3 \/ i = 4 \/ i = 5) by lia. repeat (destruct Hc as [-> | Hc]; [reflexivity|]). subst i. reflexivity.
    + unfold zlen. cbn. lia.
  - apply source_slice; [split; cbn; lia|vm_compute; discriminate|reflexivity|unfold zlen; cbn; lia].
Qed.
