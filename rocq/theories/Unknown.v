(** Model of src/arch/unknown/vecs.rs: the portable vector types.  A vector is the list
    of its lanes, a float lane is its bit pattern.  Everything is parametrised by the
    element type [e] and the number of lanes [sz] of the type. *)
From Coq Require Import String.
From Verif Require Import Base Lanes Floats OpTables Ops UnknownTables.
Open Scope list_scope.
Open Scope Z_scope.

(** ** Lanes *)

(** [data[idx]] of an array: checked in every build.
    src/arch/unknown/vecs.rs:63-71. *)
Definition index {A : Type} (data : list A) (idx : Z) : outcome A :=
  match znth data idx with Some x => Ok x | None => Panic end.
(** [data[idx] = val].
    src/arch/unknown/vecs.rs:74-84. *)
Definition set_index {A : Type} (data : list A) (idx : Z) (val : A) : outcome (list A) :=
  if (0 <=? idx) && (idx <? zlen data) then Ok (upd data idx [val]) else Panic.

(** src/arch/unknown/vecs.rs:48-50 [new]: the parameters in order. *)
Definition uv_new {A : Type} (args : list A) : list A := args.
(** src/arch/unknown/vecs.rs:53-55 [len]. *)
Definition uv_len (u : utype) : Z := ut_sz u.
(** src/arch/unknown/vecs.rs:58-60 [splat]. *)
Definition uv_splat {A : Type} (sz : Z) (x : A) : list A := repeat x (Z.to_nat sz).
(** src/arch/unknown/vecs.rs:63-65 [extract] and 68-71 [extract_unchecked]: both
    index the array with its bounds check. *)
Definition uv_extract {A : Type} (v : list A) (idx : Z) : outcome A := index v idx.
(** src/arch/unknown/vecs.rs:68-71. *)
Definition uv_extract_unchecked {A : Type} (v : list A) (idx : Z) : outcome A := index v idx.
(** src/arch/unknown/vecs.rs:74-77 [replace] and 80-84 [replace_unchecked]. *)
Definition uv_replace {A : Type} (v : list A) (idx : Z) (x : A) : outcome (list A) := set_index v idx x.
(** src/arch/unknown/vecs.rs:80-84. *)
Definition uv_replace_unchecked {A : Type} (v : list A) (idx : Z) (x : A) : outcome (list A) := set_index v idx x.

(** src/arch/unknown/vecs.rs:26-31 [PartialEq::eq]: [fold(true, |acc, (a, b)| acc && a == b)]
    over the zipped lanes. *)
Definition uv_eq {A : Type} (eq : A -> A -> bool) (v w : list A) : bool :=
  fold_left (fun acc ab => acc && eq (fst ab) (snd ab)) (combine v w) true.

(** ** Memory *)

(** src/arch/unknown/vecs.rs:99-104 [store_unchecked]: [slice[offset..]] is checked, the
    copy of [size_of::<$vec>()] bytes is not.  Copying past the end of the slice is
    [UB]. *)
Definition uv_store_unchecked {A : Type} (sz : Z) (v slice : list A) (offset : Z) : outcome (list A) :=
  if zlen slice <? offset then Panic
  else if sz <=? zlen slice - offset then Ok (upd slice offset v) else UB.
(** src/arch/unknown/vecs.rs:87-90 [store]. *)
Definition uv_store {A : Type} (sz : Z) (v slice : list A) (offset : Z) : outcome (list A) :=
  let! _ := rassert (sz <=? zlen slice) in uv_store_unchecked sz v slice offset.
(** src/arch/unknown/vecs.rs:93-96 [store_unaligned]. *)
Definition uv_store_unaligned {A : Type} (sz : Z) (v slice : list A) : outcome (list A) :=
  let! _ := rassert (sz <=? zlen slice) in uv_store_unchecked sz v slice 0.
(** src/arch/unknown/vecs.rs:108-113 [store_aligned_unchecked] and 116-121
    [store_unaligned_unchecked]: the same copy to the start of the slice. *)
Definition uv_store_unaligned_unchecked {A : Type} (sz : Z) (v slice : list A) : outcome (list A) :=
  if sz <=? zlen slice then Ok (upd slice 0 v) else UB.

(** src/arch/unknown/vecs.rs:136-143 [load_unchecked]: copies over [splat(0)]. *)
Definition uv_load_unchecked {A : Type} (sz : Z) (zero : A) (slice : list A) (offset : Z) : outcome (list A) :=
  let x := uv_splat sz zero in
  if zlen slice <? offset then Panic
  else if sz <=? zlen slice - offset then Ok (upd x 0 (sub slice offset sz)) else UB.
(** src/arch/unknown/vecs.rs:124-127 [load]. *)
Definition uv_load {A : Type} (sz : Z) (zero : A) (slice : list A) (offset : Z) : outcome (list A) :=
  let! _ := rassert (sz <=? zlen slice) in uv_load_unchecked sz zero slice offset.
(** src/arch/unknown/vecs.rs:130-133 [load_unaligned]. *)
Definition uv_load_unaligned {A : Type} (sz : Z) (zero : A) (slice : list A) : outcome (list A) :=
  let! _ := rassert (sz <=? zlen slice) in uv_load_unchecked sz zero slice 0.
(** src/arch/unknown/vecs.rs:147-154 [load_aligned_unchecked] and 157-164
    [load_unaligned_unchecked]. *)
Definition uv_load_unaligned_unchecked {A : Type} (sz : Z) (zero : A) (slice : list A) : outcome (list A) :=
  if sz <=? zlen slice then Ok (upd (uv_splat sz zero) 0 (sub slice 0 sz)) else UB.

(** ** Operators *)

(** The scalar operators of Rust on integers of type [t].  Overflow of [+], [-], [*] and
    an out-of-range shift amount panic in a debug build; in release [+], [-], [*] wrap
    and the shift amount is masked.  Division by zero and [MIN / -1] panic in every
    build.
    src/arch/unknown/vecs.rs:182-213. *)
Definition int_op (c : config) (t : ity) (op : string) (x y : Z) : option (outcome Z) :=
  let bits := 8 * Z.of_nat (ibytes t) in
  let amount k := if (0 <=? y) && (y <? bits) then k y
                  else match build c with Debug => Panic | Release => k (y mod bits) end in
  if String.eqb op "+" then Some (iarith c t (x + y))
  else if String.eqb op "-" then Some (iarith c t (x - y))
  else if String.eqb op "*" then Some (iarith c t (x * y))
  else if String.eqb op "/" then
    Some (if (y =? 0) || ((x =? imin t) && isigned t && (y =? -1)) then Panic else Ok (Z.quot x y))
  else if String.eqb op "%" then
    Some (if (y =? 0) || ((x =? imin t) && isigned t && (y =? -1)) then Panic else Ok (Z.rem x y))
  else if String.eqb op "<<" then Some (amount (fun k => Ok (wrap t (Z.shiftl x k))))
  else if String.eqb op ">>" then Some (amount (fun k => Ok (Z.shiftr x k)))
  else if String.eqb op "&" then Some (Ok (Z.land x y))
  else if String.eqb op "|" then Some (Ok (Z.lor x y))
  else if String.eqb op "^" then Some (Ok (Z.lxor x y))
  else None.

Section Operators.
(** Float arithmetic on bit patterns, by operator; otherwise unspecified. *)
Variable farith : string -> elty -> Z -> Z -> Z.

(** The scalar operator by symbol; floats have the four arithmetic ones.
    src/arch/unknown/vecs.rs:182-213. *)
Definition scalar_op (c : config) (e : elty) (op : string) (x y : Z) : option (outcome Z) :=
  match e with
  | EInt t => int_op c t op x y
  | _ => if String.eqb op "+" || String.eqb op "-" || String.eqb op "*" || String.eqb op "/"
         then Some (Ok (farith op e x y)) else None
  end.
(** An operator that does not exist does not compile; the model calls it [UB].
    src/arch/unknown/vecs.rs:182-213. *)
Definition run_op (c : config) (e : elty) (op : string) (x y : Z) : outcome Z :=
  match scalar_op c e op x y with Some r => r | None => UB end.

(** src/arch/unknown/vecs.rs:190-192: the loop of [impl_ops!];
    [ret.data[i] = x op y] evaluates the operator first. *)
Fixpoint op_loop (f : Z -> Z -> outcome Z) (i : Z) (xs ys ret : list Z) : outcome (list Z) :=
  match xs, ys with
  | x :: xs', y :: ys' =>
    let! r := f x y in
    let! ret' := set_index ret i r in
    op_loop f (i + 1) xs' ys' ret'
  | _, _ => Ok ret
  end.
(** src/arch/unknown/vecs.rs:182-198 [impl_ops!]. *)
Definition uv_op (c : config) (e : elty) (sz : Z) (op : string) (self rhs : list Z) : outcome (list Z) :=
  op_loop (run_op c e op) 0 self rhs (uv_splat sz 0).

(** src/arch/unknown/vecs.rs:206-208: the loop of [impl_assignops!]; the compound
    assignment [op=] applies the operator [op] in place. *)
Fixpoint assign_loop (f : Z -> Z -> outcome Z) (i : Z) (ys self : list Z) : outcome (list Z) :=
  match ys with
  | y :: ys' =>
    let! x := index self i in
    let! r := f x y in
    let! self' := set_index self i r in
    assign_loop f (i + 1) ys' self'
  | [] => Ok self
  end.
(** [+=] and so on stand for the operator without the final [=].
    src/arch/unknown/vecs.rs:200-213, 381-461. *)
Definition base_op (op : string) : string := String.substring 0 (String.length op - 1) op.
(** src/arch/unknown/vecs.rs:200-213 [impl_assignops!]: [self] after the call. *)
Definition uv_assign (c : config) (e : elty) (op : string) (self rhs : list Z) : outcome (list Z) :=
  assign_loop (run_op c e (base_op op)) 0 rhs self.
End Operators.

(** ** Casts *)

(** Float to integer [as]: NaN gives 0, everything else is truncated and saturates.
    (Before Rust 1.45 an out-of-range value was undefined.)
    src/arch/unknown/vecs.rs:215-229. *)
Definition f_to_int (f : ffmt) (t : ity) (x : Z) : Z :=
  if f_nan f x then 0
  else
    let n := if f_finite f x
             then (if 0 <=? f_pow f x then f_sig f x * 2 ^ f_pow f x else f_sig f x / 2 ^ (- f_pow f x))
             else imod t in
    clamp t (if f_sign f x then - n else n).
(** Integer to float [as]: nearest, ties to even.  [q + up] may carry into the
    exponent, which is then the right pattern.
    src/arch/unknown/vecs.rs:215-229. *)
Definition f_from_int (f : ffmt) (n : Z) : Z :=
  let m := Z.abs n in
  f_with_sign f (n <? 0)
    (if Z.log2 m <=? f_m f then f_of_int f m
     else
       let d := 2 ^ (Z.log2 m - f_m f) in
       let q := m / d in
       let r := m mod d in
       let up := (d <? 2 * r) || ((d =? 2 * r) && Z.odd q) in
       (Z.log2 m + f_bias f) * 2 ^ f_m f + (q - 2 ^ f_m f) + (if up then 1 else 0)).
(** [*x as $el] between the element types that occur in [impl_cast!].
    src/arch/unknown/vecs.rs:215-229. *)
Definition cast_lane (from to : elty) (x : Z) : option Z :=
  match from, to with
  | EInt _, EInt t => Some (wrap t x)
  | EF32, EInt t => Some (f_to_int fmt32 t x)
  | EF64, EInt t => Some (f_to_int fmt64 t x)
  | EInt _, EF32 => Some (f_from_int fmt32 x)
  | EInt _, EF64 => Some (f_from_int fmt64 x)
  | _, _ => None
  end.
(** src/arch/unknown/vecs.rs:215-228 [impl_cast!]. *)
Fixpoint cast_loop (f : Z -> outcome Z) (i : Z) (xs ret : list Z) : outcome (list Z) :=
  match xs with
  | x :: xs' =>
    let! r := f x in
    let! ret' := set_index ret i r in
    cast_loop f (i + 1) xs' ret'
  | [] => Ok ret
  end.
(** src/arch/unknown/vecs.rs:215-229 [impl_cast!]. *)
Definition uv_cast (from to : elty) (sz : Z) (v : list Z) : outcome (list Z) :=
  cast_loop (fun x => match cast_lane from to x with Some r => Ok r | None => UB end) 0 v (uv_splat sz 0).

(** src/arch/unknown/vecs.rs:169-180 [impl_from!]: a transmute. *)
Definition uv_from (from to : elty) (v : list Z) : list Z := bitcast (lane_ity from) (lane_ity to) v.

(** The type with a given name.
    src/arch/unknown/vecs.rs:242-271. *)
Definition utype_of (name : string) : option utype :=
  find (fun u => String.eqb (ut_name u) name) unknown_types.
