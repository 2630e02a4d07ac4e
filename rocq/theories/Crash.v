(** What a caller can still see after a panic: the consumers of src/iters.rs that write
    into a caller's slice, with user closures that may panic.  Every function returns the
    contents of that slice when the call ends, however it ends, next to its outcome; with
    closures that do not panic they are the functions of Iters.v (CrashProofs.v). *)
From Verif Require Import Base Vecs Iters.

(** Run [e]; if it does not return, the call ends here with memory [m].
    Sequencing in src/iters.rs:704-793, keeping the memory at the point of a panic. *)
Definition step {X R M : Type} (m : M) (e : outcome X) (k : X -> M * outcome R) : M * outcome R :=
  match e with
  | Ok x => k x
  | Panic => (m, Panic)
  | UB => (m, UB)
  | Fuel => (m, Fuel)
  end.

Notation "'try' m 'do' x ':=' e 'in' k" := (step m e (fun x => k))
  (at level 200, m at level 99, x pattern, e at level 200, k at level 200, right associativity).

(** ** SIMDMap with a closure that may panic *)

Section PanickingMap.
Context {V B I E : Type}.
Variable c : config.
Variable it : SIMDIterator V I.
Variable out_ty : vty.
Variable d0 : B.
Variable func : E -> V -> outcome (list B * E).

(** src/iters.rs:614-622 [next], as [sm_next]: the inner iterator has advanced when the
    closure is called. *)
Definition pm_next (s : SIMDMap I E) : outcome (option (list B) * SIMDMap I E) :=
  let! r := it_next (itb it) (sm_iter s) in
  match r with
  | (Some v, i') => let! q := func (sm_env s) v in
                    Ok (Some (fst q), {| sm_iter := i'; sm_env := snd q |})
  | (None, i') => Ok (None, {| sm_iter := i'; sm_env := sm_env s |})
  end.

(** src/iters.rs:669-677 [end], as [sm_end]. *)
Definition pm_end (s : SIMDMap I E) : outcome (option (list B * Z) * SIMDMap I E) :=
  let! r := it_end it (sm_iter s) in
  match r with
  | (Some (v, n), i') =>
    let! m := umul c n (SIZE (it_ty (itb it))) in
    let! nr := udiv m (SIZE out_ty) in
    let! q := func (sm_env s) v in
    Ok (Some (fst q, nr), {| sm_iter := i'; sm_env := snd q |})
  | (None, i') => Ok (None, {| sm_iter := i'; sm_env := sm_env s |})
  end.

(** src/iters.rs:624-677: everything else is [sm_iterable]. *)
Definition panicking_map_iterator : SIMDIterator (list B) (SIMDMap I E) :=
  {| itb := {| it_ty := out_ty;
               it_next := pm_next;
               it_len := fun s => it_len (itb it) (sm_iter s);
               it_scalar_len := fun s => it_len (itb it) (sm_iter s);
               it_vector_len := fun s => let! l := it_len (itb it) (sm_iter s) in udiv l (WIDTH out_ty);
               it_scalar_pos := fun s => it_scalar_pos (itb it) (sm_iter s);
               it_vector_pos := fun s => let! p := it_scalar_pos (itb it) (sm_iter s) in udiv p (WIDTH out_ty);
               it_advance := fun s amount => let! i' := it_advance (itb it) (sm_iter s) amount in
                                             Ok {| sm_iter := i'; sm_env := sm_env s |};
               it_default := fun _ => splat (WIDTH out_ty) d0 |};
     it_end := pm_end |}.
End PanickingMap.

(** ** scalar_fill *)

Section FillMemory.
Context {A I : Type}.
Variable c : config.
Variable it : SIMDIterator (list A) I.
Variable d0 : A.
Let W := WIDTH (it_ty (itb it)).

(** src/iters.rs:741-745, the loop. *)
Fixpoint fill_loop_memory (fuel : nat) (s : I) (buf : list A) (offset : Z) (lastvec : list A)
  : list A * outcome (I * Z * list A) :=
  match fuel with
  | O => (buf, Fuel)
  | S fuel' =>
    try buf do r := it_next (itb it) s in
    match r with
    | (Some vec, s') =>
      try buf do buf' := store_unchecked c W vec buf offset in
      try buf' do offset' := uadd c offset W in
      fill_loop_memory fuel' s' buf' offset' vec
    | (None, s') => (buf, Ok (s', offset, lastvec))
    end
  end.

(** src/iters.rs:756-760, [for i in i .. i+n] of the element-wise tail. *)
Fixpoint fill_elements_memory (n : nat) (i : Z) (offset : Z) (p : list A) (skip : Z) (buf : list A)
  : list A * outcome unit :=
  match n with
  | O => (buf, Ok tt)
  | S n' =>
    try buf do o := uadd c offset i in
    try buf do k := uadd c i skip in
    try buf do x := extract_unchecked c W p k in
    try buf do buf' := (if o <? zlen buf then Ok (upd buf o [x]) else Panic) in
    fill_elements_memory n' (i + 1) offset p skip buf'
  end.

(** src/iters.rs:747-761, the tail. *)
Definition fill_tail_memory (buf : list A) (offset : Z) (lastvec p : list A) (n : Z) : list A * outcome unit :=
  if 0 <? offset then
    try buf do o1 := usub c offset n in
    try buf do buf1 := store_unchecked c W p buf o1 in
    try buf1 do o2 := usub c offset W in
    try buf1 do buf2 := store_unchecked c W lastvec buf1 o2 in
    (buf2, Ok tt)
  else
    try buf do cnt := usub c W n in
    fill_elements_memory (Z.to_nat cnt) 0 offset p n buf.

(** src/iters.rs:737-765 [scalar_fill]: the contents of [fill] afterwards. *)
Definition scalar_fill_memory (fuel : nat) (s : I) (fill : list A) : list A * outcome I :=
  match fill_loop_memory fuel s fill 0 (splat W d0) with
  | (buf1, q) =>
    try buf1 do (s1, offset, lastvec) := q in
    try buf1 do r := it_end it s1 in
    match r with
    | (Some (p, n), s2) =>
      match fill_tail_memory buf1 offset lastvec p n with
      | (buf2, q2) => try buf2 do _ := q2 in (buf2, Ok s2)
      end
    | (None, s2) => (buf1, Ok s2)
    end
  end.

(** src/iters.rs:780-793 [scalar_fill_all]: the contents of [fill] afterwards. *)
Definition scalar_fill_all_memory (fuel : nat) (s : I) (fill : list A) : list A * outcome I :=
  match fill_loop_memory fuel s fill 0 (splat W d0) with
  | (buf1, q) =>
    try buf1 do (s1, offset, _) := q in
    try buf1 do r := it_end it s1 in
    match r with
    | (Some (vec, _), s2) => try buf1 do buf2 := store_unchecked c W vec buf1 offset in (buf2, Ok s2)
    | (None, s2) => (buf1, Ok s2)
    end
  end.
End FillMemory.

(** ** simd_for_each *)

Section ForEachMemory.
Context {A E : Type}.
Variable c : config.
Variable ty : vty.
Variable d0 : A.
(** [FnMut(&mut Vector)] is given a copy of the vector (src/iters.rs:556-559). *)
Variable func : E -> list A -> outcome (list A * E).
Let W := WIDTH ty.
Let it := slice_iterator (A := A) c ty.

(** src/iters.rs:554-560, the loop. *)
Fixpoint for_each_loop_memory (fuel : nat) (s : SIMDIter A (list A)) (lastvec : list A) (env : E)
  : list A * outcome (SIMDIter A (list A) * list A * E) :=
  match fuel with
  | O => (si_data s, Fuel)
  | S fuel' =>
    try si_data s do r := it_next (itb it) s in
    match r with
    | (Some v, s') =>
      try si_data s' do (v', env') := func env v in
      try si_data s' do pos := it_scalar_pos (itb it) s' in
      try si_data s' do offset := usub c pos W in
      try si_data s' do d := store_unchecked c W v' (si_data s') offset in
      for_each_loop_memory fuel' (si_set_data s' d) v' env'
    | (None, s') => (si_data s', Ok (s', lastvec, env))
    end
  end.

(** src/iters.rs:574-576, [for i in i .. i+n] of the element-wise tail. *)
Fixpoint for_each_elements_memory (n : nat) (i : Z) (offset : Z) (p : list A) (skip : Z) (d : list A)
  : list A * outcome unit :=
  match n with
  | O => (d, Ok tt)
  | S n' =>
    try d do k := uadd c i skip in
    try d do x := extract_unchecked c W p k in
    try d do o := uadd c offset i in
    try d do d' := store_scalar_unchecked c d x o in
    for_each_elements_memory n' (i + 1) offset p skip d'
  end.

(** src/iters.rs:551-580 [simd_for_each]: the contents of the slice afterwards. *)
Definition simd_for_each_memory (fuel : nat) (s : SIMDIter A (list A)) (env : E)
  : list A * outcome (SIMDIter A (list A) * E) :=
  match for_each_loop_memory fuel s (splat W d0) env with
  | (m, q) =>
    try m do (s1, lastvec, env1) := q in
    try m do offset := it_scalar_pos (itb it) s1 in
    try m do r := it_end it s1 in
    match r with
    | (Some (p, n), s2) =>
      try m do (p', env2) := func env1 p in
      try m do len := it_scalar_len (itb it) s2 in
      if W <? len then
        try m do o1 := usub c offset n in
        try m do d1 := store_unchecked c W p' (si_data s2) o1 in
        try d1 do o2 := usub c offset W in
        try d1 do d2 := store_unchecked c W lastvec d1 o2 in
        (d2, Ok (si_set_data s2 d2, env2))
      else
        try m do cnt := usub c W n in
        match for_each_elements_memory (Z.to_nat cnt) 0 offset p' n (si_data s2) with
        | (d, q2) => try d do _ := q2 in (d, Ok (si_set_data s2 d, env2))
        end
    | (None, s2) => (m, Ok (s2, env1))
    end
  end.
End ForEachMemory.

(** ** Storing in a for loop *)

Section StoreLoop.
Context {V A I : Type}.
Variable it : SIMDIterable V I.
Variable w : Z.
Variable f : V -> list A.

(** benches/usage.rs:41-50: [for (i, v) in it.enumerate() { f(v).store(&mut out, i * width) }],
    with [i] the number of the next vector; a for loop never calls [end].  [i * width] is
    taken to fit a usize, which it does as long as the iterator ranges over a slice. *)
Fixpoint for_store_memory (fuel : nat) (s : I) (i : Z) (out : list A) : list A * outcome I :=
  match fuel with
  | O => (out, Fuel)
  | S fuel' =>
    try out do r := it_next it s in
    match r with
    | (Some v, s') =>
      try out do out' := store w (f v) out (i * w) in
      for_store_memory fuel' s' (i + 1) out'
    | (None, s') => (out, Ok s')
    end
  end.
End StoreLoop.
