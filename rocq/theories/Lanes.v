(** Machine integers as bytes, and reinterpretation of vectors (little-endian).
    Definitions only. *)
From Verif Require Import Base.

(** An integer lane type: signedness and size in bytes.
    The elements of the vectors of src/arch/x86/vecs.rs:4-33 and src/arch/unknown/vecs.rs:242-271. *)
Record ity := mkIty { isigned : bool; ibytes : nat }.
(** [u8], src/arch/x86/vecs.rs:4-33. *)
Definition u8 := mkIty false 1.
(** [i8], src/arch/x86/vecs.rs:4-33. *)
Definition i8 := mkIty true 1.
(** [u16], src/arch/x86/vecs.rs:4-33. *)
Definition u16 := mkIty false 2.
(** [i16], src/arch/x86/vecs.rs:4-33. *)
Definition i16 := mkIty true 2.
(** [u32], src/arch/x86/vecs.rs:4-33. *)
Definition u32 := mkIty false 4.
(** [i32], src/arch/x86/vecs.rs:4-33. *)
Definition i32 := mkIty true 4.
(** [u64], src/arch/x86/vecs.rs:4-33. *)
Definition u64 := mkIty false 8.
(** [i64], src/arch/x86/vecs.rs:4-33. *)
Definition i64 := mkIty true 8.

(** Number of values of a lane, smallest and largest value.
    Range of the element types of src/arch/x86/vecs.rs:4-33. *)
Definition imod (t : ity) : Z := 2 ^ (8 * Z.of_nat (ibytes t)).
(** core [min_value], e.g. src/intrin/merge.rs:86-116. *)
Definition imin (t : ity) : Z := if isigned t then - (imod t / 2) else 0.
(** core [max_value], e.g. src/intrin/merge.rs:86-116. *)
Definition imax (t : ity) : Z := if isigned t then imod t / 2 - 1 else imod t - 1.
(** Not in the source: the values of a Rust integer type (src/arch/x86/vecs.rs:4-33). *)
Definition in_ity (t : ity) (x : Z) : Prop := imin t <= x <= imax t.

(** The value of type [t] with the same low bits as [x] (Rust's [as]).
    Casts in src/arch/x86/intrin/downcast.rs, src/arch/unknown/intrin/upcast.rs and src/arch/unknown/vecs.rs:215-229. *)
Definition wrap (t : ity) (x : Z) : Z := (x - imin t) mod imod t + imin t.
(** [x] clamped to [t].
    The saturation of src/arch/x86/intrin/saturating_add.rs, saturating_sub.rs and downcast.rs. *)
Definition clamp (t : ity) (x : Z) : Z := Z.max (imin t) (Z.min (imax t) x).

(** Memory representation: [n] bytes, least significant first.
    Read by the transmutes of src/intrin/transmute.rs:51-99. *)
Fixpoint to_bytes (n : nat) (x : Z) : list Z :=
  match n with
  | O => []
  | S m => x mod 256 :: to_bytes m (x / 256)
  end.
(** The inverse (src/intrin/transmute.rs:51-99). *)
Definition of_bytes (bs : list Z) : Z := fold_right (fun b acc => b + 256 * acc) 0 bs.
(** Not in the source: the range of [u8], src/arch/x86/vecs.rs:4-33. *)
Definition is_byte (b : Z) : Prop := 0 <= b < 256.

(** [l] cut into pieces of [n] elements.
    Not in the source: used to state the transmutes of src/intrin/transmute.rs:51-99. *)
Fixpoint regroup_fuel {A : Type} (fuel n : nat) (l : list A) : list (list A) :=
  match fuel, l with
  | S f, _ :: _ => firstn n l :: regroup_fuel f n (skipn n l)
  | _, _ => []
  end.
(** As above (src/intrin/transmute.rs:51-99), without the bound. *)
Definition regroup {A : Type} (n : nat) (l : list A) : list (list A) :=
  regroup_fuel (length l) n l.

(** [core::mem::transmute] between vectors, with lanes seen as byte strings
    ([retype]), and with integer lanes ([bitcast]).
    src/intrin/transmute.rs:51-99, src/intrin/merge.rs:86-116. *)
Definition retype (n : nat) (v : list (list Z)) : list (list Z) := regroup n (concat v).
(** Integer lanes as bytes (src/intrin/transmute.rs:51-99). *)
Definition bytes_of (t : ity) (v : list Z) : list Z := flat_map (to_bytes (ibytes t)) v.
(** Bytes as integer lanes (src/intrin/transmute.rs:51-99). *)
Definition lanes_of (t : ity) (bs : list Z) : list Z :=
  map (fun b => wrap t (of_bytes b)) (regroup (ibytes t) bs).
(** src/intrin/transmute.rs:51-99 on integer lanes. *)
Definition bitcast (t1 t2 : ity) (v : list Z) : list Z := lanes_of t2 (bytes_of t1 v).

(** Scalar [+], [-], [*] on integers: overflow panics in a debug build and wraps in
    release.
    E.g. src/intrin/sum.rs:21-47, src/intrin/macros.rs:56-65, src/arch/unknown/vecs.rs:182-213. *)
Definition iarith (c : config) (t : ity) (r : Z) : outcome Z :=
  if (imin t <=? r) && (r <=? imax t) then Ok r
  else match build c with Debug => Panic | Release => Ok (wrap t r) end.
