(** Properties: vectors as stored data and lanes (C33, C34). *)
From Verif Require Import Base Spec Vecs Lanes.
From Verif Require Import VecProofs.

(** C33: a vector stored at an offset that fits is read back by [load]; every lane
    lands in the slot [off + i], all other slots and the length are unchanged; the
    unchecked variants do the same. *)
Theorem C33_store_load : forall (A : Type) (c : config) (ty : vty) (v data : list A) (off : Z),
  0 <= off -> zlen v = WIDTH ty -> off + WIDTH ty <= zlen data ->
  exists data', store (WIDTH ty) v data off = Ok data' /\ store_unchecked c (WIDTH ty) v data off = Ok data' /\
    load (WIDTH ty) data' off = Ok v /\ load_unchecked c (WIDTH ty) data' off = Ok v /\
    zlen data' = zlen data /\
    (forall i, 0 <= i < WIDTH ty -> znth data' (off + i) = znth v i) /\
    (forall i, 0 <= i < off \/ off + WIDTH ty <= i -> znth data' i = znth data i).
Proof. exact c33_store_load. Qed.
Print Assumptions C33_store_load.

Example C33_store_load_case : store 2 [7;8] [1;2;3;4;5] 2 = Ok [1;2;7;8;5] /\ load 2 [1;2;7;8;5] 2 = Ok [7;8] /\
  load 2 [1;2;7;8;5] 4 = Panic /\ load 2 [1;2;7;8;5] 9 = Panic.
Proof. repeat split. Qed.

(** C33: [load] returns the WIDTH elements starting at [off], exactly when they exist,
    and panics otherwise; the unchecked variant returns the same whenever [load] does
    not panic, and panics as well in debug builds or if the offset is past the end. *)
Theorem C33_load : forall (A : Type) (c : config) (ty : vty) (data : list A) (off : Z),
  0 <= off -> 0 <= WIDTH ty ->
  (off + WIDTH ty <= zlen data -> exists v, load (WIDTH ty) data off = Ok v /\ load_unchecked c (WIDTH ty) data off = Ok v /\
      zlen v = WIDTH ty /\ forall i, 0 <= i < WIDTH ty -> znth v i = znth data (off + i)) /\
  (zlen data < off + WIDTH ty -> load (WIDTH ty) data off = Panic /\
      (build c = Debug \/ zlen data < off -> load_unchecked c (WIDTH ty) data off = Panic)).
Proof. exact c33_load. Qed.
Print Assumptions C33_load.

Example C33_load_case : load 2 [1;2;3;4;5] 3 = Ok [4;5] /\ load_unchecked (mkConfig Debug true) 2 [1;2;3;4;5] 3 = Ok [4;5] /\ load 2 [1;2;3;4;5] 4 = Panic.
Proof. repeat split. Qed.

(** C33: [store] panics exactly when the vector does not fit; the unchecked variant then
    panics in debug builds, or if the offset is past the end. *)
Theorem C33_store_panics : forall (A : Type) (c : config) (ty : vty) (v data : list A) (off : Z),
  0 <= off -> 0 <= WIDTH ty -> (store (WIDTH ty) v data off = Panic <-> zlen data < off + WIDTH ty) /\
  (zlen data < off + WIDTH ty -> build c = Debug \/ zlen data < off -> store_unchecked c (WIDTH ty) v data off = Panic).
Proof. exact c33_store_panics. Qed.
Print Assumptions C33_store_panics.

Example C33_store_panics_case : store 2 [7;8] [1;2;3;4;5] 4 = Panic /\ store 2 [7;8] [1;2;3;4;5] 3 = Ok [1;2;3;7;8].
Proof. split; reflexivity. Qed.

(** C34: [replace] then [extract] gives the new value at the index and the old values
    elsewhere; indices past the end panic, in the unchecked variants only in debug
    builds. *)
Theorem C34_extract_replace : forall (A : Type) (c : config) (ty : vty) (v : list A) (i : Z) (x : A),
  zlen v = WIDTH ty -> 0 <= i ->
  (i < WIDTH ty -> exists v', replace (WIDTH ty) v i x = Ok v' /\ replace_unchecked c (WIDTH ty) v i x = Ok v' /\
      zlen v' = WIDTH ty /\ extract (WIDTH ty) v' i = Ok x /\
      (forall j, 0 <= j -> j <> i -> extract (WIDTH ty) v' j = extract (WIDTH ty) v j) /\
      (forall j, 0 <= j < WIDTH ty -> extract_unchecked c (WIDTH ty) v' j = extract (WIDTH ty) v' j)) /\
  (WIDTH ty <= i -> replace (WIDTH ty) v i x = Panic /\ extract (WIDTH ty) v i = Panic /\
      (build c = Debug -> replace_unchecked c (WIDTH ty) v i x = Panic /\ extract_unchecked c (WIDTH ty) v i = Panic)).
Proof. exact c34_extract_replace. Qed.
Print Assumptions C34_extract_replace.

Example C34_extract_replace_case : replace 4 [1;2;3;4] 2 9 = Ok [1;2;9;4] /\ extract 4 [1;2;9;4] 2 = Ok 9 /\ extract 4 [1;2;9;4] 4 = Panic /\
  extract_unchecked (mkConfig Debug true) 4 [1;2;9;4] 4 = Panic.
Proof. repeat split. Qed.

(** C34: [scalar_reduce] folds the closure over the lanes in index order. *)
Theorem C34_scalar_reduce : forall (A T : Type) (ty : vty) (v : list A) (acc : T) (f : T -> A -> T),
  zlen v = WIDTH ty -> scalar_reduce (WIDTH ty) v acc f = Ok (fold_left f v acc).
Proof. exact c34_scalar_reduce. Qed.
Print Assumptions C34_scalar_reduce.

Example C34_scalar_reduce_case : scalar_reduce 4 [1;2;3;4] [] (fun acc x => acc ++ [10 * x]) = Ok [10;20;30;40].
Proof. reflexivity. Qed.

(** C34: [product] in a release build is the product of the lanes modulo the lane type. *)
Theorem C34_product_release : forall (c : config) (t : ity) (ty : vty) (v : list Z),
  build c = Release -> (0 < ibytes t)%nat -> zlen v = WIDTH ty ->
  product (fun a b => iarith c t (a * b)) 1 (WIDTH ty) v = Ok (wrap t (fold_left Z.mul v 1)).
Proof. exact c34_product_release. Qed.
Print Assumptions C34_product_release.

Example C34_product_release_case : product (fun a b => iarith (mkConfig Release true) i8 (a * b)) 1 4 [-5;7;9;3] = Ok 79 /\ -5 * 7 * 9 * 3 = 79 - 4 * 256.
Proof. split; reflexivity. Qed.

(** C34: [product] in a debug build is the exact product if no partial product
    overflows, and a panic otherwise. *)
Theorem C34_product_debug : forall (c : config) (t : ity) (ty : vty) (v : list Z),
  build c = Debug -> zlen v = WIDTH ty ->
  ((forall k, (0 < k <= length v)%nat -> in_ity t (fold_left Z.mul (firstn k v) 1)) ->
     product (fun a b => iarith c t (a * b)) 1 (WIDTH ty) v = Ok (fold_left Z.mul v 1)) /\
  ((exists k, (0 < k <= length v)%nat /\ ~ in_ity t (fold_left Z.mul (firstn k v) 1)) ->
     product (fun a b => iarith c t (a * b)) 1 (WIDTH ty) v = Panic).
Proof. exact c34_product_debug. Qed.
Print Assumptions C34_product_debug.

Example C34_product_case : product (fun a b => iarith (mkConfig Release true) u8 (a * b)) 1 4 [10;10;10;3] = Ok (wrap u8 3000) /\
  product (fun a b => iarith (mkConfig Debug true) u8 (a * b)) 1 4 [10;10;10;3] = Panic /\
  product (fun a b => iarith (mkConfig Debug true) u8 (a * b)) 1 4 [5;5;5;2] = Ok 250.
Proof. repeat split. Qed.

(** C34: [splat] has the value in every lane; [coalesce] of equal lanes returns the
    common value. *)
Theorem C34_splat_coalesce : forall (A : Type) (c : config) (eqb : A -> A -> bool) (ty : vty) (x : A),
  0 < WIDTH ty -> eqb x x = true ->
  zlen (splat (WIDTH ty) x) = WIDTH ty /\
  (forall i, 0 <= i < WIDTH ty -> extract (WIDTH ty) (splat (WIDTH ty) x) i = Ok x) /\
  coalesce c eqb (WIDTH ty) (splat (WIDTH ty) x) = Ok x.
Proof. exact c34_splat_coalesce. Qed.
Print Assumptions C34_splat_coalesce.

Example C34_splat_coalesce_case : splat 4 7 = [7;7;7;7] /\ coalesce (mkConfig Debug true) Z.eqb 4 (splat 4 7) = Ok 7.
Proof. split; reflexivity. Qed.

(** C34: [coalesce] of a vector with two different neighbouring lanes. *)
Theorem C34_coalesce_unequal : forall (A : Type) (c : config) (eqb : A -> A -> bool) (ty : vty) (v : list A),
  zlen v = WIDTH ty -> (exists i x y, 0 <= i /\ znth v i = Some x /\ znth v (i + 1) = Some y /\ eqb x y = false) ->
  coalesce c eqb (WIDTH ty) v = match build c with Debug => Panic | Release => extract (WIDTH ty) v 0 end.
Proof. exact c34_coalesce_unequal. Qed.
Print Assumptions C34_coalesce_unequal.

Example C34_coalesce_case : coalesce (mkConfig Debug true) Z.eqb 4 [3;3;5;3] = Panic /\ coalesce (mkConfig Release true) Z.eqb 4 [3;3;5;3] = Ok 3.
Proof. split; reflexivity. Qed.
