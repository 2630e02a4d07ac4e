(** Properties: loops over an unrolled iterator (C80, C81). *)
From Verif Require Import Base Spec Vecs Iters Crash Loops.
From Verif Require Import LoopProofs.

(** C80.  [for (i, v) in slice.simd_iter(d).unroll(k).enumerate()] whose body computes [f] of
    [v[0]], .., [v[k-1]] and stores the result for [v[idx]] at vector number [i*k + idx]
    of [out]: for every slice, vector function, [k] from 1 to 8 and [out], the whole
    vectors are computed and stored in order and nothing else is written.  But unless
    their number is a multiple of [k] the loop ends in a panic, at the first missing
    vector of the last group; and it panics at the first vector that does not fit in
    [out]. *)
Theorem C80_unrolled_store : forall (A B : Type) (c : config) (ty : vty) (l d vdef : list A) (f : list A -> list B) (out : list B) (amt : nat) (fuel : nat),
  vty_ok ty -> slice_ok ty l -> zlen d = WIDTH ty -> (forall v, zlen v = WIDTH ty -> zlen (f v) = WIDTH ty) -> (1 <= amt <= 8)%nat -> (length l < fuel)%nat ->
  let W := WIDTH ty in
  exists u vs rest memory r, unroll vdef (simd_iter l d) (Z.of_nat amt) = Ok u /\ chunked W l vs rest /\ zlen rest < W /\
  for_unrolled_memory (itb (slice_iterator c ty)) W f amt (fun i idx => i * Z.of_nat amt + idx) fuel u 0 out = (memory, r) /\
  (zlen vs * W <= zlen out -> memory = concat (map f vs) ++ skipn (Z.to_nat (zlen vs * W)) out /\
     (zlen vs mod Z.of_nat amt = 0 -> exists u', r = Ok u') /\ (zlen vs mod Z.of_nat amt <> 0 -> r = Panic)) /\
  (zlen out < zlen vs * W -> r = Panic /\
     memory = concat (map f (firstn (Z.to_nat (zlen out / W)) vs)) ++ skipn (Z.to_nat (W * (zlen out / W))) out).
Proof. exact c80_unrolled_store. Qed.
Print Assumptions C80_unrolled_store.

Example C80_unrolled_store_case :
  let c := mkConfig Debug true in let ty := mkVty 2 8 in
  let run k l out := match unroll [0;0] (simd_iter l [0;0]) (Z.of_nat k) with
    | Ok u => let r := for_unrolled_memory (itb (slice_iterator c ty)) 2 (map (Z.mul 10)) k (fun i idx => i * Z.of_nat k + idx) 20 u 0 out in
              (fst r, match snd r with Ok _ => true | _ => false end)
    | _ => ([], false) end in
  run 2%nat [1;2;3;4;5;6;7;8;9] (repeat 7 10) = ([10;20;30;40;50;60;70;80;7;7], true) /\
  run 3%nat [1;2;3;4;5;6;7;8;9] (repeat 7 10) = ([10;20;30;40;50;60;70;80;7;7], false) /\
  run 2%nat [1;2;3;4;5;6;7;8;9] (repeat 7 7) = ([10;20;30;40;50;60;7], false).
Proof. cbv zeta. repeat split; vm_compute; reflexivity. Qed.

(** C81, refuted: as the benchmarks for_unrolled_simd and high_latency_unrolled write it: with
    the result for [v[idx]] stored at vector number [i + idx], the groups overwrite one
    another.  With [n] full groups the output holds f of the first vector of each group,
    then the rest of the last group: vector number 1 of the output is f of vector number
    [k] of the input (for n > 1), and nothing from vector number [n + k - 1] on is written. *)
Theorem C81_benchmark_refuted : forall (A B : Type) (c : config) (ty : vty) (l d vdef : list A) (f : list A -> list B) (out : list B) (amt : nat) (n : Z) (fuel : nat),
  vty_ok ty -> slice_ok ty l -> zlen d = WIDTH ty -> (forall v, zlen v = WIDTH ty -> zlen (f v) = WIDTH ty) -> (1 <= amt <= 8)%nat -> (length l < fuel)%nat ->
  let W := WIDTH ty in
  1 <= n -> W * (Z.of_nat amt * n) <= zlen l < W * (Z.of_nat amt * n + 1) -> zlen l <= zlen out ->
  exists u vs rest memory u', unroll vdef (simd_iter l d) (Z.of_nat amt) = Ok u /\ chunked W l vs rest /\ zlen rest < W /\
  for_unrolled_memory (itb (slice_iterator c ty)) W f amt (fun i idx => i + idx) fuel u 0 out = (memory, Ok u') /\
  zlen memory = zlen out /\
  (forall p v, 0 <= p < n -> znth vs (Z.of_nat amt * p) = Some v -> sub memory (p * W) W = f v) /\
  (forall j v, 0 <= j < Z.of_nat amt -> znth vs (Z.of_nat amt * (n - 1) + j) = Some v -> sub memory ((n - 1 + j) * W) W = f v) /\
  (forall k, (n + Z.of_nat amt - 1) * W <= k -> znth memory k = znth out k) /\
  (2 <= n -> 2 <= Z.of_nat amt -> n + Z.of_nat amt - 1 < zlen vs).
Proof. exact c81_benchmark_refuted. Qed.
Print Assumptions C81_benchmark_refuted.

Example C81_benchmark_case :
  let c := mkConfig Release true in let ty := mkVty 2 8 in
  match unroll [0;0] (simd_iter [1;2;3;4;5;6;7;8;9;10;11;12] [0;0]) 2 with
  | Ok u => fst (for_unrolled_memory (itb (slice_iterator c ty)) 2 (map (Z.mul 10)) 2 (fun i idx => i + idx) 20 u 0 (repeat 7 12)) = [10;20;50;60;90;100;110;120;7;7;7;7]
  | _ => False end.
Proof. vm_compute. reflexivity. Qed.
