(** Model of src/iters.rs: the array / iterator traits as dictionaries, the
    slice-backed iterator, the lazy map, unpacking, unrolling, the scalar
    adapter and the collecting functions. *)
From Verif Require Import Base Vecs.

(** ** Traits as dictionaries *)

(** src/iters.rs:11-26 [SIMDObject] (width, size), 179-187 [SIMDSized]
    ([scalar_len]) and 190-195 [SIMDArray].  [T] is the type of the array. *)
Record SIMDArray (A T : Type) := mkSIMDArray {
  arr_ty : vty;
  arr_scalar_len : T -> outcome Z;
  arr_load : T -> Z -> outcome (list A);
  arr_load_unchecked : T -> Z -> outcome (list A);
  arr_load_scalar : T -> Z -> outcome A;
  arr_load_scalar_unchecked : T -> Z -> outcome A
}.
Arguments arr_ty {A T} _.
Arguments arr_scalar_len {A T} _ _.
Arguments arr_load {A T} _ _ _.
Arguments arr_load_unchecked {A T} _ _ _.
Arguments arr_load_scalar {A T} _ _ _.
Arguments arr_load_scalar_unchecked {A T} _ _ _.

(** src/iters.rs:30-71 [SIMDIterable] with its super-traits [SIMDSized] and
    [ExactSizeIterator] ([it_len]), and src/zip.rs:72-126 [SIMDZippedIterable],
    whose items are tuples.  [V] is the item type, [I] the iterator state. *)
Record SIMDIterable (V I : Type) := mkSIMDIterable {
  it_ty : vty;
  it_next : I -> outcome (option V * I);
  it_len : I -> outcome Z;
  it_scalar_len : I -> outcome Z;
  it_vector_len : I -> outcome Z;
  it_scalar_pos : I -> outcome Z;
  it_vector_pos : I -> outcome Z;
  it_advance : I -> Z -> outcome I;
  it_default : I -> V
}.
Arguments it_ty {V I} _.
Arguments it_next {V I} _ _.
Arguments it_len {V I} _ _.
Arguments it_scalar_len {V I} _ _.
Arguments it_vector_len {V I} _ _.
Arguments it_scalar_pos {V I} _ _.
Arguments it_vector_pos {V I} _ _.
Arguments it_advance {V I} _ _ _.
Arguments it_default {V I} _ _.

(** src/iters.rs:76-168 [SIMDIterator] and src/zip.rs:130-221
    [SIMDZippedIterator]: an iterable with [end]. *)
Record SIMDIterator (V I : Type) := mkSIMDIterator {
  itb : SIMDIterable V I;
  it_end : I -> outcome (option (V * Z) * I)
}.
Arguments itb {V I} _.
Arguments it_end {V I} _ _.

(** src/iters.rs:582-586 [UnsafeIterator] (with [len] and [default], which zips
    also use): positioned reads that do not advance the iterator. *)
Record UnsafeIterator (V I : Type) := mkUnsafeIterator {
  un_len : I -> outcome Z;
  un_next : I -> Z -> outcome V;
  un_end : I -> Z -> Z -> outcome V;
  un_default : I -> V
}.
Arguments un_len {V I} _ _.
Arguments un_next {V I} _ _ _.
Arguments un_end {V I} _ _ _ _.
Arguments un_default {V I} _ _.

(** src/iters.rs:44-48 (and src/zip.rs:98-102) [finalize]. *)
Definition finalize {V I : Type} (c : config) (it : SIMDIterable V I) (s : I) : outcome I :=
  let! len := it_scalar_len it s in
  let! pos := it_scalar_pos it s in
  let! e := usub c len pos in
  it_advance it s e.

(** ** Slices as arrays *)

(** src/iters.rs:406-449 [impl_iter!] for [Vec<S>], [&[S]] and [&mut [S]]. *)
Definition slice_array {A : Type} (c : config) (ty : vty) : SIMDArray A (list A) := {|
  arr_ty := ty;
  arr_scalar_len := fun data => Ok (zlen data);
  arr_load := fun data offset => load (WIDTH ty) data offset;
  arr_load_unchecked := fun data offset =>
    (* the extra debug_assert slices, so it panics when offset > len as well *)
    let! _ := debug_assert c ((offset <=? zlen data) && (WIDTH ty <=? zlen data - offset)) in
    load_unchecked c (WIDTH ty) data offset;
  arr_load_scalar := fun data offset =>
    match znth data offset with Some x => Ok x | None => Panic end;
  arr_load_scalar_unchecked := fun data offset =>
    let! _ := debug_assert c (offset <? zlen data) in
    match znth data offset with Some x => Ok x | None => UB end
|}.

(** src/iters.rs:328-331 [store_scalar_unchecked] for [&mut [S]];
    311-320 [store_unchecked] is [Packed::store_unchecked]. *)
Definition store_scalar_unchecked {A : Type} (c : config) (data : list A) (x : A) (offset : Z)
  : outcome (list A) :=
  let! _ := debug_assert c (offset <? zlen data) in
  if offset <? zlen data then Ok (upd data offset [x]) else UB.

(** ** SIMDIter *)

(** src/iters.rs:208-214 [SIMDIter]. *)
Record SIMDIter (A T : Type) := mkSIMDIter {
  si_position : Z;
  si_data : T;
  si_default : list A
}.
Arguments mkSIMDIter {A T} _ _ _.
Arguments si_position {A T} _.
Arguments si_data {A T} _.
Arguments si_default {A T} _.

(** src/into_iters.rs:49-127: every constructor starts at position 0. *)
Definition simd_iter {A T : Type} (data : T) (default : list A) : SIMDIter A T :=
  {| si_position := 0; si_data := data; si_default := default |}.

Section SIMDIter.
Context {A T : Type}.
Variable c : config.
Variable arr : SIMDArray A T.
Let W := WIDTH (arr_ty arr).

(** src/iters.rs:513-516 [advance]. *)
Definition si_advance (s : SIMDIter A T) (amount : Z) : outcome (SIMDIter A T) :=
  let! p := uadd c (si_position s) amount in
  Ok {| si_position := p; si_data := si_data s; si_default := si_default s |}.

(** src/iters.rs:463-477 [next]. *)
Definition si_next (s : SIMDIter A T) : outcome (option (list A) * SIMDIter A T) :=
  let! p := uadd c (si_position s) W in
  let! len := arr_scalar_len arr (si_data s) in
  if p <=? len then
    let! ret := arr_load_unchecked arr (si_data s) (si_position s) in
    let! s' := si_advance s W in
    Ok (Some ret, s')
  else Ok (None, s).

(** src/iters.rs:479-499 [SIMDArray for SIMDIter] and 501-506 [SIMDSized]: all
    delegate to [data]. *)
Definition si_array : SIMDArray A (SIMDIter A T) := {|
  arr_ty := arr_ty arr;
  arr_scalar_len := fun s => arr_scalar_len arr (si_data s);
  arr_load := fun s => arr_load arr (si_data s);
  arr_load_unchecked := fun s => arr_load_unchecked arr (si_data s);
  arr_load_scalar := fun s => arr_load_scalar arr (si_data s);
  arr_load_scalar_unchecked := fun s => arr_load_scalar_unchecked arr (si_data s)
|}.

(** src/iters.rs:456-461 [len], 463-477 [Iterator], 501-506 [SIMDSized],
    184-186 [vector_len], 508-523 [SIMDIterable], 36-38 [vector_pos]. *)
Definition si_iterable : SIMDIterable (list A) (SIMDIter A T) := {|
  it_ty := arr_ty arr;
  it_next := si_next;
  it_len := fun s => let! len := arr_scalar_len arr (si_data s) in udiv len W;
  it_scalar_len := fun s => arr_scalar_len arr (si_data s);
  it_vector_len := fun s => let! len := arr_scalar_len arr (si_data s) in udiv len W;
  it_scalar_pos := fun s => Ok (si_position s);
  it_vector_pos := fun s => udiv (si_position s) W;
  it_advance := si_advance;
  it_default := si_default
|}.
End SIMDIter.

(** ** Blanket implementations for array-backed iterators *)

Section Blanket.
Context {A I : Type}.
Variable c : config.
Variable arr : SIMDArray A I.
Variable it : SIMDIterable (list A) I.
Let W := WIDTH (it_ty it).

(** src/iters.rs:533-541 and 601-609: the partial vector, shared by [end] and
    [end_unchecked]; [from] is the first scalar index of the tail. *)
Definition partial_vector (s : I) (from len empty_amt : Z) : outcome (list A) :=
  if W <? len then
    let! off := usub c len W in
    let! v := arr_load_unchecked arr s off in
    merge_partitioned c (it_ty it) (it_default it s) v empty_amt
  else
    for_range (Z.to_nat (len - from)) from (fun i ret =>
      let! idx := uadd c i empty_amt in
      let! x := arr_load_scalar_unchecked arr s i in
      replace_unchecked c W ret idx x) (it_default it s).

(** src/iters.rs:525-549 [end]. *)
Definition blanket_end (s : I) : outcome (option (list A * Z) * I) :=
  let! pos := it_scalar_pos it s in
  let! len := it_scalar_len it s in
  if pos <? len then
    let! rem := usub c len pos in
    let! empty_amt := usub c W rem in
    let! ret := partial_vector s pos len empty_amt in
    let! s' := finalize c it s in
    Ok (Some (ret, empty_amt), s')
  else Ok (None, s).

(** src/iters.rs:525-549 [impl SIMDIterator for T]. *)
Definition blanket_iterator : SIMDIterator (list A) I :=
  {| itb := it; it_end := blanket_end |}.

(** src/iters.rs:588-593 [next_unchecked]. *)
Definition next_unchecked (s : I) (offset : Z) : outcome (list A) :=
  let! _ := (match build c with
             | Debug => let! e := uadd c offset W in
                        let! len := it_scalar_len it s in rassert (e <=? len)
             | Release => Ok tt
             end) in
  arr_load_unchecked arr s offset.

(** src/iters.rs:595-610 [end_unchecked]. *)
Definition end_unchecked (s : I) (offset empty_amt : Z) : outcome (list A) :=
  let! len := it_scalar_len it s in
  let! _ := debug_assert c (offset <? len) in
  let! _ := (match build c with
             | Debug => let! rem := usub c len offset in
                        let! e := usub c W rem in rassert (empty_amt =? e)
             | Release => Ok tt
             end) in
  partial_vector s offset len empty_amt.

(** src/iters.rs:588-610 [impl UnsafeIterator for T]. *)
Definition blanket_unsafe : UnsafeIterator (list A) I := {|
  un_len := it_len it;
  un_next := next_unchecked;
  un_end := end_unchecked;
  un_default := it_default it
|}.

(** src/iters.rs:340-353 [Unpacked::next]; 55-59 [unpack] and 355-360 [pack] wrap
    and unwrap the same iterator state. *)
Definition unpacked_next (s : I) : outcome (option A * I) :=
  let! pos := it_scalar_pos it s in
  let! len := it_scalar_len it s in
  if pos <? len then
    let! ret := arr_load_scalar_unchecked arr s pos in
    let! s' := it_advance it s 1 in
    Ok (Some ret, s')
  else Ok (None, s).
End Blanket.

(** The iterator returned by [simd_iter] on a slice.
    src/into_iters.rs [simd_iter], src/iters.rs:209-215, 451-549. *)
Definition slice_iterator {A : Type} (c : config) (ty : vty)
  : SIMDIterator (list A) (SIMDIter A (list A)) :=
  blanket_iterator c (si_array (slice_array c ty)) (si_iterable c (slice_array c ty)).

(** ** Consuming an iterator *)

Section Consume.
Context {V I : Type}.
Variable it : SIMDIterator V I.

(** The traversal [while let Some(v) = self.next() {..}; if let Some(..) =
    self.end() {..}] common to 96-104, 157-167 and 704-793, recording every
    item.
    src/iters.rs:96-104, 157-167, 704-793. *)
Fixpoint drain_next (fuel : nat) (s : I) : outcome (list V * I) :=
  match fuel with
  | O => Fuel
  | S fuel' =>
    let! r := it_next (itb it) s in
    match r with
    | (Some v, s') => let! q := drain_next fuel' s' in Ok (v :: fst q, snd q)
    | (None, s') => Ok ([], s')
    end
  end.

(** src/iters.rs:96-104, 157-167: the loop, then [end]. *)
Definition drain (fuel : nat) (s : I) : outcome (list V * option (V * Z) * I) :=
  let! q := drain_next fuel s in
  let! r := it_end it (snd q) in
  Ok (fst q, fst r, snd r).

(** src/iters.rs:157-167 and src/zip.rs:209-221 [simd_reduce].  Returns the
    accumulator and the final iterator state. *)
Fixpoint reduce_loop {B : Type} (fuel : nat) (s : I) (start : B) (func : B -> V -> B)
  : outcome (B * I) :=
  match fuel with
  | O => Fuel
  | S fuel' =>
    let! r := it_next (itb it) s in
    match r with
    | (Some v, s') => reduce_loop fuel' s' (func start v) func
    | (None, s') => Ok (start, s')
    end
  end.

(** src/iters.rs:157-167 [simd_reduce]. *)
Definition simd_reduce {B : Type} (fuel : nat) (s : I) (start : B) (func : B -> V -> B)
  : outcome (B * I) :=
  let! q := reduce_loop fuel s start func in
  let! r := it_end it (snd q) in
  match r with
  | (Some (v, _), s') => Ok (func (fst q) v, s')
  | (None, s') => Ok (fst q, s')
  end.

(** src/iters.rs:96-104 and src/zip.rs:148-158 [simd_do_each]; the closure is a
    state transformer, its captured state is returned. *)
Fixpoint do_each_loop {E : Type} (fuel : nat) (s : I) (env : E) (func : E -> V -> E)
  : outcome (E * I) :=
  match fuel with
  | O => Fuel
  | S fuel' =>
    let! r := it_next (itb it) s in
    match r with
    | (Some v, s') => do_each_loop fuel' s' (func env v) func
    | (None, s') => Ok (env, s')
    end
  end.

(** src/iters.rs:96-104 [simd_do_each]; the closure writes to an environment. *)
Definition simd_do_each {E : Type} (fuel : nat) (s : I) (env : E) (func : E -> V -> E)
  : outcome (E * I) :=
  let! q := do_each_loop fuel s env func in
  let! r := it_end it (snd q) in
  match r with
  | (Some (v, _), s') => Ok (func (fst q) v, s')
  | (None, s') => Ok (fst q, s')
  end.
End Consume.

(** ** SIMDMap *)

(** src/iters.rs:216-220 [SIMDMap]: the inner iterator and the closure's captured
    state. *)
Record SIMDMap (I E : Type) := mkSIMDMap { sm_iter : I; sm_env : E }.
Arguments mkSIMDMap {I E} _ _.
Arguments sm_iter {I E} _.
Arguments sm_env {I E} _.

Section SIMDMap.
Context {V B I E : Type}.
Variable c : config.
Variable it : SIMDIterator V I.
(** Type of the vectors returned by the closure, and their scalar default. *)
Variable out_ty : vty.
Variable d0 : B.
Variable func : E -> V -> list B * E.

(** src/iters.rs:614-622 and src/zip.rs:305-313 [next]. *)
Definition sm_next (s : SIMDMap I E) : outcome (option (list B) * SIMDMap I E) :=
  let! r := it_next (itb it) (sm_iter s) in
  match r with
  | (Some v, i') => let (y, e') := func (sm_env s) v in
                    Ok (Some y, {| sm_iter := i'; sm_env := e' |})
  | (None, i') => Ok (None, {| sm_iter := i'; sm_env := sm_env s |})
  end.

(** src/iters.rs:669-677 and src/zip.rs:363-371 [end]:
    [n * I::Scalar::SIZE / Self::Scalar::SIZE]. *)
Definition sm_end (s : SIMDMap I E) : outcome (option (list B * Z) * SIMDMap I E) :=
  let! r := it_end it (sm_iter s) in
  match r with
  | (Some (v, n), i') =>
    let! m := umul c n (SIZE (it_ty (itb it))) in
    let! nr := udiv m (SIZE out_ty) in
    let (y, e') := func (sm_env s) v in
    Ok (Some (y, nr), {| sm_iter := i'; sm_env := e' |})
  | (None, i') => Ok (None, {| sm_iter := i'; sm_env := sm_env s |})
  end.

(** src/iters.rs:657-660 [advance] (and src/zip.rs:351-354). *)
Definition sm_advance (s : SIMDMap I E) (amount : Z) : outcome (SIMDMap I E) :=
  let! i' := it_advance (itb it) (sm_iter s) amount in
  Ok {| sm_iter := i'; sm_env := sm_env s |}.

(** src/iters.rs:624-667: [len] and [scalar_len] are both the inner [len];
    [vector_len] (184-186) divides it by the output width; positions are those
    of the inner iterator; [vector_pos] (36-38) divides by the output width;
    [default] is [Packed::default]. *)
Definition sm_iterable : SIMDIterable (list B) (SIMDMap I E) := {|
  it_ty := out_ty;
  it_next := sm_next;
  it_len := fun s => it_len (itb it) (sm_iter s);
  it_scalar_len := fun s => it_len (itb it) (sm_iter s);
  it_vector_len := fun s => let! l := it_len (itb it) (sm_iter s) in udiv l (WIDTH out_ty);
  it_scalar_pos := fun s => it_scalar_pos (itb it) (sm_iter s);
  it_vector_pos := fun s => let! p := it_scalar_pos (itb it) (sm_iter s) in udiv p (WIDTH out_ty);
  it_advance := sm_advance;
  it_default := fun _ => splat (WIDTH out_ty) d0
|}.

(** [simd_map] (src/iters.rs:85-91) as an iterator. *)
Definition map_iterator : SIMDIterator (list B) (SIMDMap I E) :=
  {| itb := sm_iterable; it_end := sm_end |}.
End SIMDMap.

(** ** Collecting scalars *)

Section Collect.
Context {A I : Type}.
Variable c : config.
Variable it : SIMDIterator (list A) I.
(** The scalar default, for [Self::Vector::default()]. *)
Variable d0 : A.
Let W := WIDTH (it_ty (itb it)).

(** The while-let loop of scalar_collect (711-715) and scalar_fill (741-745):
    store, bump the offset, remember the vector.  [inj] injects scalars into
    buffer cells: [Some] for a possibly uninitialised Vec, the identity for a
    caller's slice.
    src/iters.rs:711-715, 741-745. *)
Fixpoint store_loop {X : Type} (inj : A -> X) (fuel : nat)
         (s : I) (buf : list X) (offset : Z) (lastvec : list A)
  : outcome (I * list X * Z * list A) :=
  match fuel with
  | O => Fuel
  | S fuel' =>
    let! r := it_next (itb it) s in
    match r with
    | (Some vec, s') =>
      let! buf' := store_unchecked c W (map inj vec) buf offset in
      let! offset' := uadd c offset W in
      store_loop inj fuel' s' buf' offset' vec
    | (None, s') => Ok (s', buf, offset, lastvec)
    end
  end.

(** The tail of scalar_collect (717-728) and scalar_fill (747-761).
    src/iters.rs:717-728, 747-761. *)
Definition store_tail {X : Type} (inj : A -> X) (buf : list X) (offset : Z)
           (lastvec p : list A) (n : Z) : outcome (list X) :=
  if 0 <? offset then
    let! o1 := usub c offset n in
    let! buf1 := store_unchecked c W (map inj p) buf o1 in
    let! o2 := usub c offset W in
    store_unchecked c W (map inj lastvec) buf1 o2
  else
    let! cnt := usub c W n in
    for_range (Z.to_nat cnt) 0 (fun i buf =>
      let! o := uadd c offset i in
      let! k := uadd c i n in
      let! x := extract_unchecked c W p k in
      if o <? zlen buf then Ok (upd buf o [inj x]) else Panic) buf.

(** [Vec::with_capacity(cap)] followed by [set_len(cap)]: [cap] uninitialised
    cells; more than isize::MAX bytes panics with "capacity overflow".
    src/iters.rs:704-709, 769-771. *)
Definition with_capacity (cap : Z) : outcome (list (option A)) :=
  if cap * SIZE (it_ty (itb it)) <=? isize_max then Ok (repeat None (Z.to_nat cap)) else Panic.

(** [Vec::set_len]: exceeding the capacity violates its safety contract.
    src/iters.rs:704-734, 769-777. *)
Definition set_len (buf : list (option A)) (n : Z) : outcome (list (option A)) :=
  if n <=? zlen buf then Ok (firstn (Z.to_nat n) buf) else UB.

(** src/iters.rs:704-734 [scalar_collect].  Cells that are still [None] in the
    result are uninitialised memory handed to the caller. *)
Definition scalar_collect (fuel : nat) (s : I) : outcome (list (option A) * I) :=
  let! l := it_len (itb it) s in
  let! l1 := uadd c l 1 in
  let! cap := umul c l1 W in
  let! buf := with_capacity cap in
  let! q := store_loop Some fuel s buf 0 (splat W d0) in
  match q with
  | (s1, buf1, offset, lastvec) =>
    let! r := it_end it s1 in
    match r with
    | (Some (p, n), s2) =>
      let! buf2 := store_tail Some buf1 offset lastvec p n in
      let! a := uadd c W offset in
      let! newlen := usub c a n in
      let! out := set_len buf2 newlen in
      Ok (out, s2)
    | (None, s2) =>
      let! l2 := it_len (itb it) s2 in
      let! newlen := umul c l2 W in
      let! out := set_len buf1 newlen in
      Ok (out, s2)
    end
  end.

(** src/iters.rs:737-765 [scalar_fill]; returns the buffer after the call. *)
Definition scalar_fill (fuel : nat) (s : I) (fill : list A) : outcome (list A * I) :=
  let! q := store_loop (fun x => x) fuel s fill 0 (splat W d0) in
  match q with
  | (s1, buf1, offset, lastvec) =>
    let! r := it_end it s1 in
    match r with
    | (Some (p, n), s2) =>
      let! buf2 := store_tail (fun x => x) buf1 offset lastvec p n in Ok (buf2, s2)
    | (None, s2) => Ok (buf1, s2)
    end
  end.

(** src/iters.rs:780-793 [scalar_fill_all] over buffer cells [X]. *)
Definition fill_all {X : Type} (inj : A -> X) (fuel : nat) (s : I) (fill : list X)
  : outcome (list X * I) :=
  let! q := store_loop inj fuel s fill 0 (splat W d0) in
  match q with
  | (s1, buf1, offset, _) =>
    let! r := it_end it s1 in
    match r with
    | (Some (vec, _), s2) =>
      let! buf2 := store_unchecked c W (map inj vec) buf1 offset in Ok (buf2, s2)
    | (None, s2) => Ok (buf1, s2)
    end
  end.

(** src/iters.rs:780-793 [scalar_fill_all]. *)
Definition scalar_fill_all (fuel : nat) (s : I) (fill : list A) : outcome (list A * I) :=
  fill_all (fun x => x) fuel s fill.

(** src/iters.rs:769-777 [scalar_collect_all]: the Vec's length is set to
    [self.len()], i.e. a number of vectors, before it is filled.  In release
    builds stores beyond that length but within the capacity hit allocated
    memory; the model conservatively calls every store past the length of the
    slice [UB], as the slice handed to [scalar_fill_all] ends there. *)
Definition scalar_collect_all (fuel : nat) (s : I) : outcome (list (option A) * I) :=
  let! l := it_len (itb it) s in
  let! l1 := uadd c l 1 in
  let! cap := umul c l1 W in
  let! buf := with_capacity cap in
  let! ret := set_len buf l in
  fill_all Some fuel s ret.

End Collect.

(** ** In-place mutation *)

Section ForEach.
Context {A E : Type}.
Variable c : config.
Variable ty : vty.
Variable d0 : A.
(** [FnMut(&mut Vector)]: returns the modified vector and the captured state. *)
Variable func : E -> list A -> list A * E.
Let W := WIDTH ty.
Let it := slice_iterator (A := A) c ty.

(** Not in the source: the iterator of src/iters.rs:209-215 over other data, as after a store by [SIMDIteratorMut] (551-586). *)
Definition si_set_data (s : SIMDIter A (list A)) (d : list A) : SIMDIter A (list A) :=
  {| si_position := si_position s; si_data := d; si_default := si_default s |}.

(** src/iters.rs:554-560, the loop of [simd_for_each] for [SIMDIter<&mut [S]>]. *)
Fixpoint for_each_loop (fuel : nat) (s : SIMDIter A (list A)) (lastvec : list A) (env : E)
  : outcome (SIMDIter A (list A) * list A * E) :=
  match fuel with
  | O => Fuel
  | S fuel' =>
    let! r := it_next (itb it) s in
    match r with
    | (Some v, s') =>
      let (v', env') := func env v in
      let! pos := it_scalar_pos (itb it) s' in
      let! offset := usub c pos W in
      let! d := store_unchecked c W v' (si_data s') offset in
      for_each_loop fuel' (si_set_data s' d) v' env'
    | (None, s') => Ok (s', lastvec, env)
    end
  end.

(** src/iters.rs:551-580 [simd_for_each]. *)
Definition simd_for_each (fuel : nat) (s : SIMDIter A (list A)) (env : E)
  : outcome (SIMDIter A (list A) * E) :=
  let! q := for_each_loop fuel s (splat W d0) env in
  match q with
  | (s1, lastvec, env1) =>
    let! offset := it_scalar_pos (itb it) s1 in
    let! r := it_end it s1 in
    match r with
    | (Some (p, n), s2) =>
      let (p', env2) := func env1 p in
      let! len := it_scalar_len (itb it) s2 in
      if W <? len then
        let! o1 := usub c offset n in
        let! d1 := store_unchecked c W p' (si_data s2) o1 in
        let! o2 := usub c offset W in
        let! d2 := store_unchecked c W lastvec d1 o2 in
        Ok (si_set_data s2 d2, env2)
      else
        let! cnt := usub c W n in
        let! d := for_range (Z.to_nat cnt) 0 (fun i d =>
                    let! k := uadd c i n in
                    let! x := extract_unchecked c W p' k in
                    let! o := uadd c offset i in
                    store_scalar_unchecked c d x o) (si_data s2) in
        Ok (si_set_data s2 d, env2)
    | (None, s2) => Ok (s2, env1)
    end
  end.
End ForEach.

(** ** Unrolled *)

(** src/iters.rs:364-369 [Unrolled]: the borrowed iterator is part of the state. *)
Record Unrolled (V I : Type) := mkUnrolled {
  ur_iter : I;
  ur_amt : Z;
  ur_scratch : list V
}.
Arguments mkUnrolled {V I} _ _ _.
Arguments ur_iter {V I} _.
Arguments ur_amt {V I} _.
Arguments ur_scratch {V I} _.

Section Unrolled.
Context {V I : Type}.
Variable it : SIMDIterable V I.

(** src/iters.rs:63-70 [unroll]; [vdef] is [Vector::default()]. *)
Definition unroll (vdef : V) (s : I) (amt : Z) : outcome (Unrolled V I) :=
  let! _ := rassert (amt <=? 8) in
  Ok {| ur_iter := s; ur_amt := amt; ur_scratch := repeat vdef 8 |}.

(** src/iters.rs:388-396: [n] is [amt - i]; [scratch[i] = vec] is a checked
    array store. *)
Fixpoint unrolled_loop (n : nat) (i : Z) (s : I) (scratch : list V)
  : outcome (Z * I * list V) :=
  match n with
  | O => Ok (i, s, scratch)
  | S n' =>
    let! r := it_next it s in
    match r with
    | (Some vec, s') =>
      if i <? zlen scratch then unrolled_loop n' (i + 1) s' (upd scratch i [vec])
      else Panic
    | (None, s') => Ok (i, s', scratch)
    end
  end.

(** src/iters.rs:384-404 [Unrolled::next]: the contents of the returned slice at the
    time of the call ([group_view] is what it reads later). *)
Definition unrolled_next (u : Unrolled V I) : outcome (option (list V) * Unrolled V I) :=
  let! q := unrolled_loop (Z.to_nat (ur_amt u)) 0 (ur_iter u) (ur_scratch u) in
  match q with
  | (i, s', scratch') =>
    let u' := {| ur_iter := s'; ur_amt := ur_amt u; ur_scratch := scratch' |} in
    if 0 <? i then Ok (Some (firstn (Z.to_nat i) scratch'), u') else Ok (None, u')
  end.

(** src/iters.rs:399-401: the slice returned by [next] is [from_raw_parts] of the
    scratch array, so a slice of [n] vectors returned earlier reads this once the
    iterator is in state [u]. *)
Definition group_view (u : Unrolled V I) (n : Z) : list V := firstn (Z.to_nat n) (ur_scratch u).

(** src/iters.rs:372-380 [chunk_len], [chunk_pos]. *)
Definition chunk_len (u : Unrolled V I) : Z := ur_amt u.
(** src/iters.rs:377-380 [chunk_pos]. *)
Definition chunk_pos (u : Unrolled V I) : outcome Z :=
  let! p := it_vector_pos it (ur_iter u) in udiv p (chunk_len u).

(** Draining an unrolled iterator: [for group in it.unroll(k)].
    src/iters.rs:382-404. *)
Fixpoint unrolled_drain (fuel : nat) (u : Unrolled V I) : outcome (list (list V) * Unrolled V I) :=
  match fuel with
  | O => Fuel
  | S fuel' =>
    let! r := unrolled_next u in
    match r with
    | (Some g, u') => let! q := unrolled_drain fuel' u' in Ok (g :: fst q, snd q)
    | (None, u') => Ok ([], u')
    end
  end.
End Unrolled.

(** ** SIMDAdapter *)

(** src/iters.rs:225-230 [SIMDAdapter]; the scalar iterator is the list of the
    scalars it has not yet returned. *)
Record SIMDAdapter (A : Type) := mkSIMDAdapter {
  ad_iter : list A;
  ad_scratch : list A;
  ad_default : list A;
  ad_position : Z
}.
Arguments mkSIMDAdapter {A} _ _ _ _.
Arguments ad_iter {A} _.
Arguments ad_scratch {A} _.
Arguments ad_default {A} _.
Arguments ad_position {A} _.

Section Adapter.
Context {A : Type}.
Variable c : config.
Variable ty : vty.
Let W := WIDTH ty.

(** src/iters.rs:300-303 [advance]. *)
Definition ad_advance (s : SIMDAdapter A) (amount : Z) : outcome (SIMDAdapter A) :=
  let! p := uadd c (ad_position s) amount in
  Ok {| ad_iter := ad_iter s; ad_scratch := ad_scratch s;
        ad_default := ad_default s; ad_position := p |}.

(** src/iters.rs:240-256 [next]; [scalar_len] (287-292) is the number of scalars
    the wrapped iterator still has. *)
Definition ad_next (s : SIMDAdapter A) : outcome (option (list A) * SIMDAdapter A) :=
  let! e := uadd c (ad_position s) W in
  if e <=? zlen (ad_iter s) then
    let! q := for_range (Z.to_nat W) 0 (fun offset (st : list A * list A) =>
                match snd st with
                | [] => Panic                          (* Option::unwrap on None *)
                | x :: rest =>
                  let! v := replace_unchecked c W (fst st) offset x in Ok (v, rest)
                end) (ad_scratch s, ad_iter s) in
    let! s' := ad_advance {| ad_iter := snd q; ad_scratch := fst q;
                             ad_default := ad_default s; ad_position := ad_position s |} W in
    Ok (Some (ad_scratch s'), s')
  else Ok (None, s).

(** src/iters.rs:266-272: the loop filling the scratch vector from the back. *)
Fixpoint ad_end_loop (items : list A) (offset : Z) (scratch : list A) : outcome (Z * list A) :=
  match items with
  | [] => Ok (offset, scratch)
  | x :: rest =>
    let! v := replace_unchecked c W scratch offset x in
    let! offset' := usub c offset 1 in
    ad_end_loop rest offset' v
  end.

(** src/iters.rs:294-303 [impl SIMDIterable for SIMDAdapter]. *)
Definition ad_iterable : SIMDIterable (list A) (SIMDAdapter A) := {|
  it_ty := ty;
  it_next := ad_next;
  it_len := fun s => udiv (zlen (ad_iter s)) W;
  it_scalar_len := fun s => Ok (zlen (ad_iter s));
  it_vector_len := fun s => udiv (zlen (ad_iter s)) W;
  it_scalar_pos := fun s => Ok (ad_position s);
  it_vector_pos := fun s => udiv (ad_position s) W;
  it_advance := ad_advance;
  it_default := ad_default
|}.

(** src/iters.rs:259-278 [end]; [finalize] runs after the scalar iterator has
    been emptied, so it computes [0 - position]. *)
Definition ad_end (s : SIMDAdapter A) : outcome (option (list A * Z) * SIMDAdapter A) :=
  if ad_position s <? zlen (ad_iter s) then
    let! o := usub c W 1 in
    let! q := ad_end_loop (ad_iter s) o (ad_default s) in
    let! s' := finalize c ad_iterable
                 {| ad_iter := []; ad_scratch := snd q;
                    ad_default := ad_default s; ad_position := ad_position s |} in
    Ok (Some (snd q, fst q), s')
  else Ok (None, s).

(** src/iters.rs:237-278 [impl SIMDIterator for SIMDAdapter]. *)
Definition adapter_iterator : SIMDIterator (list A) (SIMDAdapter A) :=
  {| itb := ad_iterable; it_end := ad_end |}.
End Adapter.
