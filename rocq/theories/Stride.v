(** Model of src/stride.rs: strided views of an array. *)
From Verif Require Import Base Vecs Iters.

(** src/stride.rs:22-28 [PackedStride]; [iter] is a shared reference to the array. *)
Record PackedStride (A T : Type) := mkPackedStride {
  ps_iter : T;
  ps_pos : Z;
  ps_base : Z;
  ps_stride : Z;
  ps_default : list A
}.
Arguments mkPackedStride {A T} _ _ _ _ _.
Arguments ps_iter {A T} _.
Arguments ps_pos {A T} _.
Arguments ps_base {A T} _.
Arguments ps_stride {A T} _.
Arguments ps_default {A T} _.

Section Stride.
Context {A T : Type}.
Variable c : config.
Variable arr : SIMDArray A T.
(** The scalar default, for [Vector::default()]. *)
Variable d0 : A.
Let W := WIDTH (arr_ty arr).

(** src/stride.rs:341-343 [advance]. *)
Definition ps_advance (s : PackedStride A T) (amount : Z) : outcome (PackedStride A T) :=
  let! d := umul c amount (ps_stride s) in
  let! p := uadd c (ps_pos s) d in
  Ok {| ps_iter := ps_iter s; ps_pos := p; ps_base := ps_base s;
        ps_stride := ps_stride s; ps_default := ps_default s |}.

(** src/stride.rs:34-48 [next]. *)
Definition ps_next (s : PackedStride A T) : outcome (option (list A) * PackedStride A T) :=
  let! d := umul c (ps_stride s) W in
  let! p := uadd c (ps_pos s) d in
  let! len := arr_scalar_len arr (ps_iter s) in
  if p <? len then
    let! ret := for_range (Z.to_nat W) 0 (fun i ret =>
                  let! si := umul c (ps_stride s) i in
                  let! k := uadd c (ps_pos s) si in
                  let! x := arr_load_scalar_unchecked arr (ps_iter s) k in
                  replace W ret i x) (splat W d0) in
    let! s' := ps_advance s W in
    Ok (Some ret, s')
  else Ok (None, s).

(** src/stride.rs:324-326 [scalar_len]. *)
Definition ps_scalar_len (s : PackedStride A T) : outcome Z :=
  let! len := arr_scalar_len arr (ps_iter s) in udiv len (ps_stride s).

(** src/stride.rs:312-314 [load_scalar]. *)
Definition ps_load_scalar (s : PackedStride A T) (offset : Z) : outcome A :=
  let! d := umul c offset (ps_stride s) in
  let! k := uadd c (ps_base s) d in
  arr_load_scalar arr (ps_iter s) k.

(** src/stride.rs:317-319 [load_scalar_unchecked]. *)
Definition ps_load_scalar_unchecked (s : PackedStride A T) (offset : Z) : outcome A :=
  let! d := umul c offset (ps_stride s) in
  let! k := uadd c (ps_base s) d in
  arr_load_scalar_unchecked arr (ps_iter s) k.

(** src/stride.rs:301-309 [load_unchecked]; note the debug assertion bounds
    [offset + stride * (width - 1)], not [stride * (offset + width - 1)]. *)
Definition ps_load_unchecked (s : PackedStride A T) (offset : Z) : outcome (list A) :=
  let! _ := (match build c with
             | Debug =>
               let! w1 := usub c W 1 in
               let! d := umul c (ps_stride s) w1 in
               let! e := uadd c offset d in
               let! len := arr_scalar_len arr (ps_iter s) in
               rassert (e <? len)
             | Release => Ok tt
             end) in
  for_range (Z.to_nat W) 0 (fun i ret =>
    let! oi := uadd c offset i in
    let! si := umul c (ps_stride s) oi in
    let! k := uadd c (ps_base s) si in
    let! x := arr_load_scalar_unchecked arr (ps_iter s) k in
    replace W ret i x) (splat W d0).

(** src/stride.rs:295-298 [load]. *)
Definition ps_load (s : PackedStride A T) (offset : Z) : outcome (list A) :=
  let! w1 := usub c W 1 in
  let! o := uadd c offset w1 in
  let! d := umul c (ps_stride s) o in
  let! e := uadd c (ps_base s) d in
  let! len := arr_scalar_len arr (ps_iter s) in
  let! _ := rassert (e <? len) in
  ps_load_unchecked s offset.

(** src/stride.rs:283-290 [SIMDObject], 293-320 [SIMDArray], 322-327 [SIMDSized]. *)
Definition ps_array : SIMDArray A (PackedStride A T) := {|
  arr_ty := arr_ty arr;
  arr_scalar_len := ps_scalar_len;
  arr_load := ps_load;
  arr_load_unchecked := ps_load_unchecked;
  arr_load_scalar := ps_load_scalar;
  arr_load_scalar_unchecked := ps_load_scalar_unchecked
|}.

(** src/stride.rs:53-55 [len]: the array's [vector_len] (src/iters.rs:184-186)
    divided by the stride. *)
Definition ps_len (s : PackedStride A T) : outcome Z :=
  let! len := arr_scalar_len arr (ps_iter s) in
  let! vl := udiv len W in
  udiv vl (ps_stride s).

(** src/stride.rs:331-333 [scalar_pos]. *)
Definition ps_scalar_pos (s : PackedStride A T) : outcome Z :=
  let! d := usub c (ps_pos s) (ps_base s) in udiv d (ps_stride s).

(** src/stride.rs:336-338 [vector_pos]. *)
Definition ps_vector_pos (s : PackedStride A T) : outcome Z :=
  let! d := usub c (ps_pos s) (ps_base s) in
  let! m := umul c (ps_stride s) W in
  udiv d m.

(** src/stride.rs:329-349 [SIMDIterable]; [vector_len] is src/iters.rs:184-186. *)
Definition ps_iterable : SIMDIterable (list A) (PackedStride A T) := {|
  it_ty := arr_ty arr;
  it_next := ps_next;
  it_len := ps_len;
  it_scalar_len := ps_scalar_len;
  it_vector_len := fun s => let! l := ps_scalar_len s in udiv l W;
  it_scalar_pos := ps_scalar_pos;
  it_vector_pos := ps_vector_pos;
  it_advance := ps_advance;
  it_default := ps_default
|}.

(** The blanket [end] (src/iters.rs:525-549) at PackedStride. *)
Definition stride_iterator : SIMDIterator (list A) (PackedStride A T) :=
  blanket_iterator c ps_array ps_iterable.

(** src/stride.rs:115-130 [stride_into] (and 69-71 [stride]): the collection is
    the list of streams.  [default.get_unchecked(offset)] is in range because of
    the assertion. *)
Definition stride (data : T) (count : Z) (default : list (list A))
  : outcome (list (PackedStride A T)) :=
  let! _ := rassert (zlen default =? count) in
  Ok (map (fun kd => {| ps_iter := data; ps_pos := Z.of_nat (fst kd);
                        ps_base := Z.of_nat (fst kd); ps_stride := count;
                        ps_default := snd kd |})
          (combine (seq 0 (length default)) default)).

(** src/stride.rs:133-150 [stride_two]. *)
Definition stride_two (data : T) (default : list A * list A)
  : PackedStride A T * PackedStride A T :=
  let '(a, b) := default in
  (mkPackedStride data 0 0 2 a, mkPackedStride data 1 1 2 b).

(** src/stride.rs:153-177 [stride_three]. *)
Definition stride_three (data : T) (default : list A * list A * list A)
  : PackedStride A T * PackedStride A T * PackedStride A T :=
  let '(a, b, d) := default in
  (mkPackedStride data 0 0 3 a, mkPackedStride data 1 1 3 b, mkPackedStride data 2 2 3 d).

(** src/stride.rs:180-211 [stride_four]. *)
Definition stride_four (data : T) (default : list A * list A * list A * list A)
  : PackedStride A T * PackedStride A T * PackedStride A T * PackedStride A T :=
  let '(a, b, d, e) := default in
  (mkPackedStride data 0 0 4 a, mkPackedStride data 1 1 4 b,
   mkPackedStride data 2 2 4 d, mkPackedStride data 3 3 4 e).

(** src/stride.rs:214-280 [stride_nine]. *)
Definition stride_nine (data : T)
  (default : list A * list A * list A * list A * list A * list A * list A * list A * list A) :=
  let '(a, b, d, e, f, g, h, i, j) := default in
  (mkPackedStride data 0 0 9 a, mkPackedStride data 1 1 9 b, mkPackedStride data 2 2 9 d,
   mkPackedStride data 3 3 9 e, mkPackedStride data 4 4 9 f, mkPackedStride data 5 5 9 g,
   mkPackedStride data 6 6 9 h, mkPackedStride data 7 7 9 i, mkPackedStride data 8 8 9 j).

End Stride.
