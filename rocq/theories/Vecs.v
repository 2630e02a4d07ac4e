(** Model of the [Packed] trait (src/vecs.rs) and of the mask/merge helpers the
    iterators rely on, at the level of lanes of an arbitrary scalar type. *)
From Verif Require Import Base.

Section Packed.
Context {A : Type}.
Variable c : config.

(** src/vecs.rs:113-115 [Packed::load]: [from_slice_unaligned(&data[offset..])];
    slicing panics if [offset > len], packed_simd asserts the slice length. *)
Definition load (W : Z) (data : list A) (offset : Z) : outcome (list A) :=
  if zlen data <? offset then Panic
  else if W <=? zlen data - offset then Ok (sub data offset W) else Panic.

(** src/vecs.rs:118-121 [Packed::load_unchecked]: the slicing is still checked in
    release builds, the length of the slice only in debug builds. *)
Definition load_unchecked (W : Z) (data : list A) (offset : Z) : outcome (list A) :=
  if zlen data <? offset then Panic
  else if W <=? zlen data - offset then Ok (sub data offset W)
  else match build c with Debug => Panic | Release => UB end.

(** src/vecs.rs:124-126 [Packed::store]. *)
Definition store (W : Z) (v : list A) (data : list A) (offset : Z) : outcome (list A) :=
  if zlen data <? offset then Panic
  else if W <=? zlen data - offset then Ok (upd data offset v) else Panic.

(** src/vecs.rs:129-132 [Packed::store_unchecked]. *)
Definition store_unchecked (W : Z) (v : list A) (data : list A) (offset : Z)
  : outcome (list A) :=
  if zlen data <? offset then Panic
  else if W <=? zlen data - offset then Ok (upd data offset v)
  else match build c with Debug => Panic | Release => UB end.

(** src/vecs.rs:143-145 [extract]: packed_simd asserts the index. *)
Definition extract (W : Z) (v : list A) (idx : Z) : outcome A :=
  if idx <? W then match znth v idx with Some x => Ok x | None => UB end else Panic.

(** src/vecs.rs:148-151 [extract_unchecked]. *)
Definition extract_unchecked (W : Z) (v : list A) (idx : Z) : outcome A :=
  if idx <? W then match znth v idx with Some x => Ok x | None => UB end
  else match build c with Debug => Panic | Release => UB end.

(** src/vecs.rs:154-156 [replace]: returns the new vector. *)
Definition replace (W : Z) (v : list A) (idx : Z) (x : A) : outcome (list A) :=
  if idx <? W then Ok (upd v idx [x]) else Panic.

(** src/vecs.rs:159-162 [replace_unchecked]. *)
Definition replace_unchecked (W : Z) (v : list A) (idx : Z) (x : A) : outcome (list A) :=
  if idx <? W then Ok (upd v idx [x])
  else match build c with Debug => Panic | Release => UB end.

(** src/vecs.rs:165-167 [splat]; src/vecs.rs:170-172 [default] is [splat] of the
    scalar default. *)
Definition splat (W : Z) (x : A) : list A := repeat x (Z.to_nat W).

(** src/vecs.rs:135-140 [coalesce]; [eqb] is the scalar [==]. *)
Definition coalesce (eqb : A -> A -> bool) (W : Z) (v : list A) : outcome A :=
  let! _ := for_range (Z.to_nat (W - 1)) 1 (fun i _ =>
              let! a := extract W v (i - 1) in
              let! b := extract W v i in
              debug_assert c (eqb a b)) tt in
  extract W v 0.

(** src/vecs.rs:184-190 [scalar_reduce]; the closure is a pure function. *)
Definition scalar_reduce {T : Type} (W : Z) (v : list A) (acc : T) (func : T -> A -> T)
  : outcome T :=
  for_range (Z.to_nat W) 0 (fun i acc => let! x := extract W v i in Ok (func acc x)) acc.

(** src/vecs.rs:175-181 [product]; [mul] is the scalar [*=] (panicking on
    overflow in debug builds for integers), [one] is [1 as $el]. *)
Definition product (mul : A -> A -> outcome A) (one : A) (W : Z) (v : list A) : outcome A :=
  for_range (Z.to_nat W) 0 (fun i acc => let! x := extract W v i in mul acc x) one.

(** src/arch/x86/vec_patterns.rs:20-36 [PART_MASK] and 49-53 [partition_mask]
    seen lane-wise: 64/SIZE lanes of 0x00 bytes, then 64/SIZE lanes of 0xFF bytes.
    The result is the list of lanes, [true] for 0xFF.  [transmute(&PART_MASK[..])]
    turns a 128-byte slice into a slice that still claims 128 elements of SIZE
    bytes, so the length check of [Packed::load] compares with 128 although only
    128/SIZE lanes exist: reading past them is [UB]. *)
Definition partition_mask (ty : vty) (off : Z) : outcome (list bool) :=
  let! _ := debug_assert c (off <=? WIDTH ty) in
  let! _ := (match build c with
             | Debug => let! m := umul c off (SIZE ty) in rassert (m <=? 64)
             | Release => Ok tt
             end) in
  let! start := usub c (64 / SIZE ty) off in
  if 128 <? start then Panic
  else if negb (WIDTH ty <=? 128 - start) then Panic
  else if start + WIDTH ty <=? 2 * (64 / SIZE ty) then
    Ok (map (fun i => 64 / SIZE ty <=? start + Z.of_nat i) (seq 0 (Z.to_nat (WIDTH ty))))
  else UB.

(** Lane-wise effect of [blendv] under a lane mask (the byte-level instruction is
    in Merge.v and proved to be this): a set mask lane selects [b].
    src/intrin/merge.rs:106-113, used by src/iters.rs:525-549. *)
Fixpoint lane_select (m : list bool) (a b : list A) : list A :=
  match m, a, b with
  | mi :: m', ai :: a', bi :: b' => (if mi then bi else ai) :: lane_select m' a' b'
  | _, _, _ => []
  end.

(** src/intrin/merge.rs:72-82 (portable) and 107-113 (blend) [merge_partitioned]. *)
Definition merge_partitioned (ty : vty) (self other : list A) (offset : Z)
  : outcome (list A) :=
  if blend c then
    let! m := partition_mask ty offset in
    Ok (lane_select m self other)
  else
    let! _ := rassert (offset <? WIDTH ty) in
    for_range (Z.to_nat (WIDTH ty - offset)) offset
      (fun i ret => let! x := extract_unchecked (WIDTH ty) other i in
                    replace_unchecked (WIDTH ty) ret i x) self.

End Packed.
