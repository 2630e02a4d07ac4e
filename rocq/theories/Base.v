(** Outcomes, build configuration, machine integers and list helpers shared by
    the whole model.  Definitions only. *)
From Coq Require Export List ZArith Bool.
Export ListNotations.
Open Scope Z_scope.

(** Result of running a piece of Rust code.  [Panic] is a Rust panic; [UB] is an
    out-of-bounds access or any other violated [unsafe] precondition; [Fuel] is
    returned only by a fuelled loop that ran out of fuel.
    Not in the source; every modelled function (src/iters.rs, src/stride.rs, src/zip.rs, ...) returns one. *)
Inductive outcome (A : Type) : Type :=
| Ok (a : A)
| Panic
| UB
| Fuel.
Arguments Ok {A} a.
Arguments Panic {A}.
Arguments UB {A}.
Arguments Fuel {A}.

(** Sequencing of Rust statements, e.g. src/iters.rs:525-549: what follows a panic does not run. *)
Definition bind {A B : Type} (o : outcome A) (f : A -> outcome B) : outcome B :=
  match o with
  | Ok a => f a
  | Panic => Panic
  | UB => UB
  | Fuel => Fuel
  end.

Notation "'let!' x ':=' e 'in' k" := (bind e (fun x => k))
  (at level 200, x pattern, e at level 200, k at level 200, right associativity).

(** Build mode: [Debug] has overflow checks and [debug_assert!], [Release] has
    neither.
    Matters for the arithmetic of src/iters.rs:240-303, 364-404, 451-549 and src/stride.rs:30-58. *)
Inductive mode := Debug | Release.

(** [blend] is true when [merge_partitioned] is the SSE4.1/AVX2 byte blend of
    src/intrin/merge.rs:85-115, false for the portable one (53-83). *)
Record config := mkConfig { build : mode; blend : bool }.

(** A packed vector type: lanes per vector and bytes per lane
    (src/vecs.rs:19 [Packed::WIDTH] and src/vecs.rs:79 [Packable::SIZE]). *)
Record vty := mkVty { WIDTH : Z; SIZE : Z }.

(** [usize] on a 64-bit target.
    The type of the positions in src/iters.rs:209-215 and src/stride.rs:20-28. *)
Definition usize_mod : Z := 2 ^ 64.
(** The limit of [Vec::with_capacity] (src/iters.rs:704-709, 769-771). *)
Definition isize_max : Z := 2 ^ 63 - 1.

(** usize [+], [-], [*]: overflow panics in a debug build and wraps in release.
    Used by src/iters.rs:240-303, 377-404, 456-549 and src/stride.rs:30-58. *)
Definition uarith (c : config) (r : Z) : outcome Z :=
  if (0 <=? r) && (r <? usize_mod) then Ok r
  else match build c with Debug => Panic | Release => Ok (r mod usize_mod) end.
(** usize [+], e.g. src/iters.rs:468. *)
Definition uadd (c : config) (a b : Z) : outcome Z := uarith c (a + b).
(** usize [-], e.g. src/iters.rs:265. *)
Definition usub (c : config) (a b : Z) : outcome Z := uarith c (a - b).
(** usize [*], e.g. src/stride.rs:301-320. *)
Definition umul (c : config) (a b : Z) : outcome Z := uarith c (a * b).
(** usize [/]: division by zero panics in both modes.
    Used by src/iters.rs:459 and src/stride.rs:54, 325. *)
Definition udiv (a b : Z) : outcome Z := if b =? 0 then Panic else Ok (a / b).

(** [assert!] and [debug_assert!].
    E.g. src/iters.rs:64, src/intrin/merge.rs:74, src/arch/unknown/vecs.rs:88. *)
Definition rassert (b : bool) : outcome unit := if b then Ok tt else Panic.
(** [debug_assert!], e.g. src/iters.rs:421, 432, 591, 597. *)
Definition debug_assert (c : config) (b : bool) : outcome unit :=
  match build c with Debug => rassert b | Release => Ok tt end.

(** Lists indexed by usize values.
    [slice.len()], src/into_iters.rs. *)
Definition zlen {A : Type} (l : list A) : Z := Z.of_nat (length l).

(** [l[off .. off+len]]
    Slicing as in src/vecs.rs:85-190 and src/iters.rs:717-728. *)
Definition sub {A : Type} (l : list A) (off len : Z) : list A :=
  firstn (Z.to_nat len) (skipn (Z.to_nat off) l).

(** [l] with [v] written over the elements starting at [off].
    A vector store, src/iters.rs:711-728, 741-761. *)
Definition upd {A : Type} (l : list A) (off : Z) (v : list A) : list A :=
  firstn (Z.to_nat off) l ++ v ++ skipn (Z.to_nat off + length v) l.

(** Indexing, e.g. src/iters.rs:479-499. *)
Definition znth {A : Type} (l : list A) (i : Z) : option A :=
  if i <? 0 then None else nth_error l (Z.to_nat i).

(** [for i in i0 .. i0+n] with a loop-carried state.
    E.g. src/stride.rs:37-41. *)
Fixpoint for_range {S : Type} (n : nat) (i : Z) (f : Z -> S -> outcome S) (s : S)
  : outcome S :=
  match n with
  | O => Ok s
  | Datatypes.S n' => let! s' := f i s in for_range n' (i + 1) f s'
  end.
