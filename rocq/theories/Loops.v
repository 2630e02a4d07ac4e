(** For loops over an unrolled iterator that store what they compute. *)
From Verif Require Import Base Vecs Iters Crash.

Section StoreUnrolled.
Context {V A I : Type}.
Variable it : SIMDIterable V I.
Variable w : Z.
Variable f : V -> list A.
Variable k : nat.
Variable place : Z -> Z -> Z.

(** benches/usage.rs:58-66, the body of the loop: for [idx] in 0..k, in order,
    [let a = f(v[idx]); a.store(&mut out, place(i, idx) * a.width())], where [v] is the group
    number [i].  [v[idx]] is a checked index.  [n] statements are left.  The statement
    [place] is a parameter: the benchmarks write [i + idx].  As in [for_store_memory] the
    index is taken to fit a usize. *)
Fixpoint store_group_memory (n : nat) (idx : Z) (g : list V) (i : Z) (out : list A) : list A * outcome unit :=
  match n with
  | O => (out, Ok tt)
  | S n' =>
    match znth g idx with
    | None => (out, Panic)
    | Some v =>
      try out do out' := store w (f v) out (place i idx * w) in
      store_group_memory n' (idx + 1) g i out'
    end
  end.

(** benches/usage.rs:53-69, 98-117: [for (i, v) in it.unroll(k).enumerate() { .. }], with
    [i] the number of the next group. *)
Fixpoint for_unrolled_memory (fuel : nat) (u : Unrolled V I) (i : Z) (out : list A) : list A * outcome (Unrolled V I) :=
  match fuel with
  | O => (out, Fuel)
  | S fuel' =>
    try out do r := unrolled_next it u in
    match r with
    | (Some g, u') =>
      let m := store_group_memory k 0 g i out in
      try fst m do _ := snd m in
      for_unrolled_memory fuel' u' (i + 1) (fst m)
    | (None, u') => (out, Ok u')
    end
  end.
End StoreUnrolled.
