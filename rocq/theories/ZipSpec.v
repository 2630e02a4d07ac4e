(** Vocabulary for the statements about zipped iterators. *)
From Verif Require Import Base Spec Vecs Iters Stride Zip.

(** [source c A I arr it s l d k]: [s] is an iterator over the scalars [l] with default
    vector [d], [k] scalars of which have been passed; it iterates over a slice or over
    one stream of a strided slice. *)
Inductive source (c : config)
  : forall (A I : Type), SIMDArray A I -> SIMDIterable (list A) I -> I -> list A -> list A -> Z -> Prop :=
| source_slice (A : Type) (ty : vty) (l d : list A) (k : Z) :
    vty_ok ty -> slice_ok ty l -> zlen d = WIDTH ty -> 0 <= k <= zlen l ->
    source c A (SIMDIter A (list A)) (si_array (slice_array c ty)) (si_iterable c (slice_array c ty))
           (mkSIMDIter k l d) l d k
| source_stride (A : Type) (ty : vty) (data d : list A) (d0 : A) (base str : Z) (l : list A) (k : Z) :
    vty_ok ty -> slice_ok ty data -> zlen d = WIDTH ty ->
    0 <= base < str -> str * (WIDTH ty + 1) <= 2 ^ 63 -> is_stream data base str l -> 0 <= k <= zlen l ->
    source c A (PackedStride A (list A)) (ps_array c (slice_array c ty) d0)
           (ps_iterable c (slice_array c ty) d0) (mkPackedStride data (base + str * k) base str d) l d k.

(** [zipped c W n k VR R rest r chunk tail]: [r] are one or more iterators, each over [n]
    scalars in vectors of [W] lanes and at position [k], as they follow the first
    component of a zip.  [chunk p] is the tuple of their vectors at scalars
    [p .. p+W], and [tail p] the tuple of their padded tails from scalar [p] on. *)
Inductive zipped (c : config) (W n k : Z)
  : forall (VR R : Type), ZipRest VR R -> R -> (Z -> VR) -> (Z -> VR) -> Prop :=
| zipped_one (A I : Type) (arr : SIMDArray A I) (it : SIMDIterable (list A) I) (s : I) (l d : list A) :
    source c A I arr it s l d k -> WIDTH (it_ty it) = W -> zlen l = n ->
    zipped c W n k (list A) I (rest_one (blanket_unsafe c arr it)) s
      (fun p => sub l p W) (fun p => right_aligned d (skipn (Z.to_nat p) l))
| zipped_more (A I : Type) (arr : SIMDArray A I) (it : SIMDIterable (list A) I) (s : I) (l d : list A)
    (VR R : Type) (rest : ZipRest VR R) (r : R) (chunk tail : Z -> VR) :
    source c A I arr it s l d k -> WIDTH (it_ty it) = W -> zlen l = n ->
    zipped c W n k VR R rest r chunk tail ->
    zipped c W n k (list A * VR) (I * R) (rest_cons (blanket_unsafe c arr it) rest) (s, r)
      (fun p => (sub l p W, chunk p)) (fun p => (right_aligned d (skipn (Z.to_nat p) l), tail p)).

(** Scalar positions [k, k+w, k+2w, ..] of [m] consecutive vectors. *)
Definition vector_starts (k w : Z) (m : nat) : list Z := map (fun i => k + w * Z.of_nat i) (seq 0 m).
