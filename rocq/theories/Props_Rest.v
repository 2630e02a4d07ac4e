(** Properties: collecting what is left of an iterator (C71). *)
From Verif Require Import Base Spec Vecs Iters CollectSpec.
From Coq Require Import Lia ZifyBool ZifyNat.
From Verif Require Import RestProofs.

(** C71, proved part.  After [k] scalars were consumed, collecting a chain of lane-wise
    maps yields the element-wise map of exactly the remaining scalars, provided the
    remainder ends in a partial vector or less than one vector was consumed.  (Slices
    of at most one vector: see C51.)  Missing: the case of [C71_collect_rest_refuted]. *)
Theorem C71_collect_rest_partial : forall (A B : Type) (c : config) (ty : vty) (l d : list A) (k : Z)
    (I : Type) (it : SIMDIterator (list B) I) (s : I) (f : A -> B) (d0 : B) (fuel : nat),
  vty_ok ty -> zlen d = WIDTH ty -> (zlen l + WIDTH ty) * SIZE ty <= isize_max ->
  0 <= k <= zlen l -> (k = 0 \/ WIDTH ty < zlen l \/ k = zlen l) ->
  map_chain c (slice_iterator c ty) (mkSIMDIter k l d) B I it s f ->
  (length l < fuel)%nat ->
  (zlen l - k) mod WIDTH ty <> 0 \/ k < WIDTH ty ->
  exists s', scalar_collect c it d0 fuel s = Ok (map Some (map f (skipn (Z.to_nat k) l)), s').
Proof. exact c71_collect_rest_partial. Qed.
Print Assumptions C71_collect_rest_partial.

(** C71, refuted: whenever at least one vector was consumed and a whole number of
    vectors is left (in particular when nothing is left), the result has one cell too
    many for every scalar in the vectors consumed, and those cells are uninitialised
    memory; in every build. *)
Theorem C71_collect_rest_refuted : forall (A B : Type) (c : config) (ty : vty) (l d : list A) (k : Z)
    (I : Type) (it : SIMDIterator (list B) I) (s : I) (f : A -> B) (d0 : B) (fuel : nat),
  vty_ok ty -> zlen d = WIDTH ty -> (zlen l + WIDTH ty) * SIZE ty <= isize_max ->
  WIDTH ty <= k <= zlen l -> (zlen l - k) mod WIDTH ty = 0 ->
  map_chain c (slice_iterator c ty) (mkSIMDIter k l d) B I it s f ->
  (length l < fuel)%nat ->
  exists s' uninit, scalar_collect c it d0 fuel s =
      Ok (map Some (map f (skipn (Z.to_nat k) l)) ++ repeat None uninit, s') /\
    (0 < uninit)%nat /\ Z.of_nat uninit = k / WIDTH ty * WIDTH ty.
Proof. exact c71_collect_rest_refuted. Qed.
Print Assumptions C71_collect_rest_refuted.

Example C71_collect_rest_partial_case :
  let c := mkConfig Release true in let ty := mkVty 4 4 in
  let m := map_iterator c (slice_iterator c ty) ty 0 (fun (n : Z) v => (map (Z.mul 10) v, n + 1)) in
  map_chain c (slice_iterator c ty) (mkSIMDIter 4 [1;2;3;4;5;6;7;8;9] [0;0;0;0]) Z _ m
            (mkSIMDMap (mkSIMDIter 4 [1;2;3;4;5;6;7;8;9] [0;0;0;0]) 0) (fun x => 10 * x) /\
  exists s', scalar_collect c m 0 12 (mkSIMDMap (mkSIMDIter 4 [1;2;3;4;5;6;7;8;9] [0;0;0;0]) 0) =
             Ok (map Some [50;60;70;80;90], s').
Proof.
  split; [|eexists; vm_compute; reflexivity].
  apply (chain_map _ _ _ Z _ _ _ (fun x => x) Z Z (mkVty 4 4) 0
             (fun (n : Z) v => (map (Z.mul 10) v, n + 1)) 0 (Z.mul 10)); try reflexivity.
  2: vm_compute; tauto.
  apply chain_start.
Qed.

Example C71_collect_rest_refuted_case :
  let c := mkConfig Debug false in let ty := mkVty 4 4 in
  exists s', scalar_collect c (slice_iterator c ty) 0 12 (mkSIMDIter 4 [1;2;3;4;5;6;7;8] [0;0;0;0]) =
             Ok ([Some 5; Some 6; Some 7; Some 8; None; None; None; None], s').
Proof. eexists. vm_compute. reflexivity. Qed.
