(** Properties: panicking closures and short buffers (C76), vectors stored in a for loop (C77). *)
From Verif Require Import Base Spec Vecs Iters CollectSpec Crash CrashSpec.
From Coq Require Import Lia ZifyBool ZifyNat.
From Verif Require Import CrashProofs.

(** A closure that does not panic: the memory-observing functions are the functions of the
    main model, for every iterator, state, buffer and build. *)
Theorem C76_no_panic : forall (V A B E I : Type) (c : config) (it : SIMDIterator V I) (ty out_ty : vty) (d0 d1 : B) (a0 : A)
    (func : E -> V -> list B * E) (g : E -> list A -> list A * E) (fuel : nat) (s : SIMDMap I E) (buf : list B) (sl : SIMDIter A (list A)) (e : E),
  scalar_fill c (map_iterator c it out_ty d0 func) d1 fuel s buf =
    (let (memory, end_) := scalar_fill_memory c (panicking_map_iterator c it out_ty d0 (fun e v => Ok (func e v))) d1 fuel s buf in
     let! s' := end_ in Ok (memory, s')) /\
  scalar_fill_all c (map_iterator c it out_ty d0 func) d1 fuel s buf =
    (let (memory, end_) := scalar_fill_all_memory c (panicking_map_iterator c it out_ty d0 (fun e v => Ok (func e v))) d1 fuel s buf in
     let! s' := end_ in Ok (memory, s')) /\
  simd_for_each c ty a0 g fuel sl e =
    (let (memory, end_) := simd_for_each_memory c ty a0 (fun e v => Ok (g e v)) fuel sl e in
     let! q := end_ in Ok q) /\
  (forall memory s' e', simd_for_each_memory c ty a0 (fun e v => Ok (g e v)) fuel sl e = (memory, Ok (s', e')) -> memory = si_data s').
Proof. exact c76_no_panic. Qed.
Print Assumptions C76_no_panic.

(** [scalar_fill] with a closure that panics: the results of the calls that returned are in
    the buffer, whole vectors from the start, and nothing else was written.  This covers every
    crash point, the call on the padded last vector included. *)
Theorem C76_fill_panic : forall (A B E : Type) (c : config) (ty out_ty : vty) (l d : list A) (func : E -> list A -> outcome (list B * E)) (e : E)
    (d0 d1 : B) (buf : list B) (fuel : nat) (vs : list (list A)) (rest : list A) (ys : list (list B)),
  vty_ok ty -> vty_ok out_ty -> WIDTH ty * SIZE ty = WIDTH out_ty * SIZE out_ty -> slice_ok ty l -> zlen d = WIDTH ty ->
  (forall e v r, zlen v = WIDTH ty -> func e v = Ok r -> zlen (fst r) = WIDTH out_ty) ->
  chunked (WIDTH ty) l vs rest -> zlen rest < WIDTH ty ->
  panics_after func e (visited vs (tail_of d rest)) ys ->
  zlen (concat ys) <= zlen buf -> (length l < fuel)%nat ->
  scalar_fill_memory c (panicking_map_iterator c (slice_iterator c ty) out_ty d0 func) d1 fuel (mkSIMDMap (simd_iter l d) e) buf =
    (overwritten (concat ys) buf, Panic).
Proof. exact c76_fill_panic. Qed.
Print Assumptions C76_fill_panic.

(** The same for [scalar_fill_all]. *)
Theorem C76_fill_all_panic : forall (A B E : Type) (c : config) (ty out_ty : vty) (l d : list A) (func : E -> list A -> outcome (list B * E)) (e : E)
    (d0 d1 : B) (buf : list B) (fuel : nat) (vs : list (list A)) (rest : list A) (ys : list (list B)),
  vty_ok ty -> vty_ok out_ty -> WIDTH ty * SIZE ty = WIDTH out_ty * SIZE out_ty -> slice_ok ty l -> zlen d = WIDTH ty ->
  (forall e v r, zlen v = WIDTH ty -> func e v = Ok r -> zlen (fst r) = WIDTH out_ty) ->
  chunked (WIDTH ty) l vs rest -> zlen rest < WIDTH ty ->
  panics_after func e (visited vs (tail_of d rest)) ys ->
  zlen (concat ys) <= zlen buf -> (length l < fuel)%nat ->
  scalar_fill_all_memory c (panicking_map_iterator c (slice_iterator c ty) out_ty d0 func) d1 fuel (mkSIMDMap (simd_iter l d) e) buf =
    (overwritten (concat ys) buf, Panic).
Proof. exact c76_fill_all_panic. Qed.
Print Assumptions C76_fill_all_panic.

(** [simd_for_each] with a closure that panics: the vectors whose call returned are
    modified, the rest of the slice is as it was. *)
Theorem C76_for_each_panic : forall (A E : Type) (c : config) (ty : vty) (l d : list A) (func : E -> list A -> outcome (list A * E)) (e : E)
    (d0 : A) (fuel : nat) (vs : list (list A)) (rest : list A) (ys : list (list A)),
  vty_ok ty -> slice_ok ty l -> zlen d = WIDTH ty ->
  (forall e v r, zlen v = WIDTH ty -> func e v = Ok r -> zlen (fst r) = WIDTH ty) ->
  chunked (WIDTH ty) l vs rest -> zlen rest < WIDTH ty ->
  panics_after func e (visited vs (tail_of d rest)) ys -> (length l < fuel)%nat ->
  simd_for_each_memory c ty d0 func fuel (simd_iter l d) e = (overwritten (concat ys) l, Panic) /\ zlen (concat ys) <= zlen l.
Proof. exact c76_for_each_panic. Qed.
Print Assumptions C76_for_each_panic.

(** [scalar_fill] into a buffer that is too short, in a debug build (or for a slice shorter
    than a vector): it panics after the whole vectors that fit have been written; if
    the slice is shorter than a vector, after as many scalars as fit. *)
Theorem C76_fill_short : forall (A B : Type) (c : config) (ty : vty) (l d : list A)
    (I : Type) (it : SIMDIterator (list B) I) (s : I) (f : A -> B) (d0 : B) (buf : list B) (fuel : nat),
  vty_ok ty -> zlen d = WIDTH ty -> (zlen l + WIDTH ty) * SIZE ty <= isize_max ->
  map_chain c (slice_iterator c ty) (simd_iter l d) B I it s f ->
  zlen buf < zlen l -> (length l < fuel)%nat -> build c = Debug \/ zlen l < WIDTH ty ->
  let fit := if zlen l <? WIDTH ty then zlen buf else WIDTH ty * (zlen buf / WIDTH ty) in
  scalar_fill_memory c it d0 fuel s buf = (overwritten (firstn (Z.to_nat fit) (map f l)) buf, Panic).
Proof. exact c76_fill_short. Qed.
Print Assumptions C76_fill_short.

(** [scalar_fill_all] into a buffer without room for whole vectors up to the end of the slice,
    in a debug build: it panics after the vectors that fit have been written. *)
Theorem C76_fill_all_short : forall (A B : Type) (c : config) (ty : vty) (l d : list A)
    (I : Type) (it : SIMDIterator (list B) I) (s : I) (f : A -> B) (d0 : B) (buf : list B) (fuel : nat),
  vty_ok ty -> zlen d = WIDTH ty -> (zlen l + WIDTH ty) * SIZE ty <= isize_max ->
  map_chain c (slice_iterator c ty) (simd_iter l d) B I it s f ->
  zlen buf < (zlen l + WIDTH ty - 1) / WIDTH ty * WIDTH ty -> (length l < fuel)%nat -> build c = Debug ->
  scalar_fill_all_memory c it d0 fuel s buf = (overwritten (firstn (Z.to_nat (WIDTH ty * (zlen buf / WIDTH ty))) (map f l)) buf, Panic).
Proof. exact c76_fill_all_short. Qed.
Print Assumptions C76_fill_all_short.

(** Storing the vectors of an iterator in a [for] loop, for every slice, vector function and
    output buffer, in both builds: vector number i is written at i*WIDTH; the scalars after the last
    whole vector are not processed, as the loop does not call [end], and their place in the
    buffer keeps its contents; if the whole vectors do not fit the loop panics at the first
    that does not, and never writes outside the buffer. *)
Theorem C77_for_store : forall (A B : Type) (c : config) (ty : vty) (l d : list A) (f : list A -> list B) (out : list B) (fuel : nat),
  vty_ok ty -> slice_ok ty l -> zlen d = WIDTH ty -> (forall v, zlen v = WIDTH ty -> zlen (f v) = WIDTH ty) -> (length l < fuel)%nat ->
  exists vs rest memory r, chunked (WIDTH ty) l vs rest /\ zlen rest < WIDTH ty /\
  for_store_memory (itb (slice_iterator c ty)) (WIDTH ty) f fuel (simd_iter l d) 0 out = (memory, r) /\
  (zlen l - zlen rest <= zlen out -> memory = concat (map f vs) ++ skipn (Z.to_nat (zlen l - zlen rest)) out /\ exists s', r = Ok s') /\
  (zlen out < zlen l - zlen rest -> r = Panic /\
     memory = concat (map f (firstn (Z.to_nat (zlen out / WIDTH ty)) vs)) ++ skipn (Z.to_nat (WIDTH ty * (zlen out / WIDTH ty))) out).
Proof. exact c77_for_store. Qed.
Print Assumptions C77_for_store.

(** The closure doubles lanes and panics when a lane is 6 (second vector) or 9 (the padded last vector). *)
Example C76_crash_case :
  let c := mkConfig Release true in let ty := mkVty 4 4 in
  let func := fun (x : Z) (n : Z) v => if existsb (Z.eqb x) v then Panic else Ok (map (Z.mul 2) v, n + 1) in
  let l := [1;2;3;4;5;6;7;8;9;10] in let d := [0;0;0;0] in
  let fill x := scalar_fill_memory c (panicking_map_iterator c (slice_iterator c ty) ty 0 (func x)) 0 20 (mkSIMDMap (simd_iter l d) 0) (repeat 99 12) in
  let each x := simd_for_each_memory c ty 0 (func x) 20 (simd_iter l d) 0 in
  fill 6 = ([2;4;6;8;99;99;99;99;99;99;99;99], Panic) /\ fill 9 = ([2;4;6;8;10;12;14;16;99;99;99;99], Panic) /\
  each 6 = ([2;4;6;8;5;6;7;8;9;10], Panic) /\ each 9 = ([2;4;6;8;10;12;14;16;9;10], Panic) /\
  fst (fill 77) = [2;4;6;8;10;12;14;16;18;20;99;99] /\
  panics_after (func 6) 0 (visited [[1;2;3;4];[5;6;7;8]] (tail_of d [9;10])) [[2;4;6;8]] /\
  panics_after (func 9) 0 (visited [[1;2;3;4];[5;6;7;8]] (tail_of d [9;10])) [[2;4;6;8];[10;12;14;16]].
Proof.
  cbv zeta. repeat (split; [vm_compute; reflexivity|]). split.
  - exists [[1;2;3;4]], [5;6;7;8], [[0;0;9;10]], 1. split; [reflexivity|]. split; [|reflexivity]. repeat econstructor.
  - exists [[1;2;3;4];[5;6;7;8]], [0;0;9;10], [], 2. split; [reflexivity|]. split; [|reflexivity]. repeat econstructor.
Qed.

Example C76_fill_short_case :
  let c := mkConfig Debug false in let ty := mkVty 4 4 in
  let fill l buf := scalar_fill_memory c (slice_iterator c ty) 0 20 (simd_iter l [0;0;0;0]) buf in
  fill [1;2;3;4;5;6;7;8;9;10] [71;72;73;74;75;76;77] = ([1;2;3;4;75;76;77], Panic) /\
  fill [1;2;3;4;5;6;7;8;9;10] (repeat 7 9) = ([1;2;3;4;5;6;7;8;7], Panic) /\ fill [1;2;3] [7;7] = ([1;2], Panic).
Proof. cbv zeta. repeat split; vm_compute; reflexivity. Qed.

Example C76_fill_all_case :
  let c := mkConfig Debug false in let ty := mkVty 4 4 in
  let func := fun (x : Z) (n : Z) v => if existsb (Z.eqb x) v then Panic else Ok (map (Z.mul 2) v, n + 1) in
  let fill l buf := scalar_fill_all_memory c (slice_iterator c ty) 0 20 (simd_iter l [0;0;0;0]) buf in
  let l := [1;2;3;4;5;6;7;8;9;10] in
  fill l (repeat 7 11) = ([1;2;3;4;5;6;7;8;7;7;7], Panic) /\ fst (fill l (repeat 7 13)) = [1;2;3;4;5;6;7;8;0;0;9;10;7] /\
  scalar_fill_all_memory c (panicking_map_iterator c (slice_iterator c ty) ty 0 (func 9)) 0 20 (mkSIMDMap (simd_iter l [0;0;0;0]) 0) (repeat 99 12) = ([2;4;6;8;10;12;14;16;99;99;99;99], Panic).
Proof. cbv zeta. repeat split; vm_compute; reflexivity. Qed.

Example C77_for_store_case :
  let c := mkConfig Release true in let ty := mkVty 4 4 in
  let run l out := for_store_memory (itb (slice_iterator c ty)) 4 (map (Z.mul 3)) 20 (simd_iter l [0;0;0;0]) 0 out in
  fst (run [1;2;3;4;5;6;7;8;9;10] (repeat 7 10)) = [3;6;9;12;15;18;21;24;7;7] /\
  run [1;2;3;4;5;6;7;8;9;10] (repeat 7 7) = ([3;6;9;12;7;7;7], Panic).
Proof. cbv zeta. split; vm_compute; reflexivity. Qed.
