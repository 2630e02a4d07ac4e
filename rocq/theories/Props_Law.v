(** Properties: laws of chained maps (C79). *)
From Verif Require Import Base Spec Vecs Iters Zip CollectSpec LawSpec.
From Coq Require Import Lia ZifyBool ZifyNat.
From Verif Require Import LawProofs.

(** C79: mapping twice is mapping once with the composed closure.  For every iterator, in
    every state, all closures and captures: every consumer gives the same outcome, be it a
    result, a panic or undefined behaviour, and leaves the corresponding state behind.
    Partial: the middle vectors' scalars must not be larger than both the scalars that go
    in and the scalars that come out. *)
Theorem C79_fusion_partial : forall (V B C I E1 E2 : Type) (c : config) (it : SIMDIterator V I) (mid_ty out_ty : vty) (b0 : B) (d0 : C)
    (f : E1 -> V -> list B * E1) (g : E2 -> list B -> list C * E2) (s : I) (e1 : E1) (e2 : E2) (fuel : nat),
  In (SIZE (it_ty (itb it))) [1; 2; 4; 8] -> In (SIZE mid_ty) [1; 2; 4; 8] -> In (SIZE out_ty) [1; 2; 4; 8] ->
  SIZE mid_ty <= SIZE (it_ty (itb it)) \/ SIZE mid_ty <= SIZE out_ty ->
  let chain := map_iterator c (map_iterator c it mid_ty b0 f) out_ty d0 g in
  let once := map_iterator c it out_ty d0 (composed f g) in
  let st := mkSIMDMap (mkSIMDMap s e1) e2 in
  let st1 := mkSIMDMap s (e1, e2) in
  scalar_collect c chain d0 fuel st = with_state twice_mapped (scalar_collect c once d0 fuel st1) /\
  scalar_collect_all c chain d0 fuel st = with_state twice_mapped (scalar_collect_all c once d0 fuel st1) /\
  (forall buf, scalar_fill c chain d0 fuel st buf = with_state twice_mapped (scalar_fill c once d0 fuel st1 buf)) /\
  (forall buf, scalar_fill_all c chain d0 fuel st buf = with_state twice_mapped (scalar_fill_all c once d0 fuel st1 buf)) /\
  (forall (R : Type) (start : R) func, simd_reduce chain fuel st start func = with_state twice_mapped (simd_reduce once fuel st1 start func)) /\
  (forall (R : Type) (env : R) func, simd_do_each chain fuel st env func = with_state twice_mapped (simd_do_each once fuel st1 env func)) /\
  (forall h, run_ops chain st h = with_state twice_mapped (run_ops once st1 h)).
Proof. exact c79_fusion_partial. Qed.
Print Assumptions C79_fusion_partial.

Example C79_fusion_case :
  (* 1-byte lanes, widened to 2 bytes, then 4 bytes: 19 of them *)
  let c := mkConfig Debug true in
  let pairs := fix pairs (v : list Z) := match v with x :: y :: v' => x + 256 * y :: pairs v' | _ => [] end in
  let pairs2 := fix pairs2 (v : list Z) := match v with x :: y :: v' => x + 65536 * y :: pairs2 v' | _ => [] end in
  let it := slice_iterator c (mkVty 16 1) in
  let f := fun (n : nat) v => (pairs v, S n) in let g := fun (n : nat) v => (pairs2 v, S n) in
  let s := simd_iter [1;0;0;0; 2;0;0;0; 3;0;0;0; 4;0;0;1; 9;8;7;6] (repeat 0 16) in
  let chain := map_iterator c (map_iterator c it (mkVty 8 2) 0 f) (mkVty 4 4) 0 g in
  (SIZE (mkVty 8 2) <= SIZE (it_ty (itb it)) \/ SIZE (mkVty 8 2) <= SIZE (mkVty 4 4)) /\
  exists st, scalar_collect c chain 0 9 (mkSIMDMap (mkSIMDMap s 0%nat) 0%nat) =
    Ok (map Some [1; 2; 3; 4 + 16777216; 9 + 8 * 256 + 7 * 65536 + 6 * 16777216], st) /\
    scalar_collect c (map_iterator c it (mkVty 4 4) 0 (composed f g)) 0 9 (mkSIMDMap s (0%nat, 0%nat)) =
    Ok (map Some [1; 2; 3; 4 + 16777216; 9 + 8 * 256 + 7 * 65536 + 6 * 16777216], mkSIMDMap (mkSIMDIter 20 (si_data s) (si_default s)) (2%nat, 2%nat)) /\
    st = twice_mapped (mkSIMDMap (mkSIMDIter 20 (si_data s) (si_default s)) (2%nat, 2%nat)).
Proof. cbv zeta. split; [cbn; lia|]. eexists. split; [vm_compute; reflexivity|]. split; vm_compute; reflexivity. Qed.

(** C79: the same after a zip: mapping the result of [zip().simd_map(f)] with [g] is
    mapping the zip with the composed closure. *)
Theorem C79_zip_fusion_partial : forall (V B C I E1 E2 : Type) (c : config) (it : SIMDIterator V I) (mid_ty out_ty : vty) (b0 : B) (d0 : C)
    (f : E1 -> V -> list B * E1) (g : E2 -> list B -> list C * E2) (s : I) (e1 : E1) (e2 : E2) (fuel : nat),
  In (SIZE (it_ty (itb it))) [1; 2; 4; 8] -> In (SIZE mid_ty) [1; 2; 4; 8] -> In (SIZE out_ty) [1; 2; 4; 8] ->
  SIZE mid_ty <= SIZE (it_ty (itb it)) \/ SIZE mid_ty <= SIZE out_ty ->
  let chain := map_iterator c (zipmap_iterator c it mid_ty b0 f) out_ty d0 g in
  let once := zipmap_iterator c it out_ty d0 (composed f g) in
  let st := mkSIMDMap (mkSIMDMap s e1) e2 in
  let st1 := mkSIMDMap s (e1, e2) in
  scalar_collect c chain d0 fuel st = with_state twice_mapped (scalar_collect c once d0 fuel st1) /\
  scalar_collect_all c chain d0 fuel st = with_state twice_mapped (scalar_collect_all c once d0 fuel st1) /\
  (forall buf, scalar_fill c chain d0 fuel st buf = with_state twice_mapped (scalar_fill c once d0 fuel st1 buf)) /\
  (forall buf, scalar_fill_all c chain d0 fuel st buf = with_state twice_mapped (scalar_fill_all c once d0 fuel st1 buf)) /\
  (forall (R : Type) (start : R) func, simd_reduce chain fuel st start func = with_state twice_mapped (simd_reduce once fuel st1 start func)) /\
  (forall (R : Type) (env : R) func, simd_do_each chain fuel st env func = with_state twice_mapped (simd_do_each once fuel st1 env func)).
Proof. exact c79_zip_fusion_partial. Qed.
Print Assumptions C79_zip_fusion_partial.

Example C79_zip_fusion_case :
  let c := mkConfig Release false in let ty := mkVty 4 4 in let d := [0;0;0;0] in
  let it := zip_iterator (slice_iterator c ty) (rest_one (blanket_unsafe c (si_array (slice_array c ty)) (si_iterable c (slice_array c ty)))) in
  let f := fun (n : unit) (v : list Z * list Z) => (map2 Z.add (fst v) (snd v), n) in let g := fun (k : Z) v => (map (Z.mul k) v, k + 1) in
  let s := (simd_iter [1;2;3;4;5;6] d, simd_iter [10;20;30;40;50;60] d) in
  exists st1 st2, scalar_collect c (map_iterator c (zipmap_iterator c it ty 0 f) ty 0 g) 0 9 (mkSIMDMap (mkSIMDMap s tt) 2) = Ok (map Some [22; 44; 66; 88; 165; 198], st1) /\
    scalar_collect c (zipmap_iterator c it ty 0 (composed f g)) 0 9 (mkSIMDMap s (tt, 2)) = Ok (map Some [22; 44; 66; 88; 165; 198], st2).
Proof. do 2 eexists. split; vm_compute; reflexivity. Qed.

(** C79: mapping with a closure that returns its argument changes nothing: the consumers
    that hand out scalars give the same result as without the map (and the closure has
    been called on every vector of the traversal, in order).  The premise about the
    traversal holds for every slice, see [C79_identity_case]. *)
Theorem C79_identity : forall (A I E : Type) (c : config) (it : SIMDIterator (list A) I) (d0 : A) (f : E -> list A -> list A * E) (s s' : I) (e : E)
    (fuel : nat) (vs : list (list A)) (t : option (list A * Z)),
  let ty := it_ty (itb it) in
  (forall e v, fst (f e v) = v) -> 0 < SIZE ty ->
  drain it fuel s = Ok (vs, t, s') -> (forall p n, t = Some (p, n) -> 0 <= n * SIZE ty < 2 ^ 64) ->
  let m := map_iterator c it ty d0 f in
  let final := fun s' => mkSIMDMap s' (snd (run_closure f e (visited vs t))) in
  scalar_collect c m d0 fuel (mkSIMDMap s e) = with_state final (scalar_collect c it d0 fuel s) /\
  scalar_collect_all c m d0 fuel (mkSIMDMap s e) = with_state final (scalar_collect_all c it d0 fuel s) /\
  (forall buf, scalar_fill c m d0 fuel (mkSIMDMap s e) buf = with_state final (scalar_fill c it d0 fuel s buf)) /\
  (forall buf, scalar_fill_all c m d0 fuel (mkSIMDMap s e) buf = with_state final (scalar_fill_all c it d0 fuel s buf)).
Proof. exact c79_identity. Qed.
Print Assumptions C79_identity.

Example C79_identity_case :
  (* every traversal of a slice meets the premise *)
  (forall (A : Type) (c : config) (ty : vty) (l d : list A), vty_ok ty -> slice_ok ty l -> zlen d = WIDTH ty ->
   exists vs t s', drain (slice_iterator c ty) (S (length l)) (simd_iter l d) = Ok (vs, t, s') /\ 0 < SIZE ty /\
     forall p n, t = Some (p, n) -> 0 <= n * SIZE ty < 2 ^ 64) /\
  exists st, scalar_collect (mkConfig Debug true) (map_iterator (mkConfig Debug true) (slice_iterator (mkConfig Debug true) (mkVty 4 4)) (mkVty 4 4) 0 (fun n v => (v, S n))) 0 9
    (mkSIMDMap (simd_iter [1;2;3;4;5;6] [0;0;0;0]) 0%nat) = Ok (map Some [1;2;3;4;5;6], st).
Proof.
  split; [|eexists; vm_compute; reflexivity].
  intros A c ty l d Hty Hl Hd. pose proof (VecFacts.vty_ok_facts _ Hty) as (H1 & H2 & H3 & H4 & H5 & H6).
  pose proof (Zle_0_nat (length l)) as Hl0.
  destruct (MapFacts.slice_emits c ty l d Hty Hl Hd 0 ltac:(unfold zlen; lia) (or_introl eq_refl)) as (vs & rest & Hem & Hch & Hr).
  cbn [skipn Z.to_nat] in Hch. pose proof (MapFacts.chunked_length ty l Hty vs rest Hch).
  exists vs, (tail_of d rest), (mkSIMDIter (zlen l) l d). split; [apply IterFacts.emits_drain; [exact Hem|lia]|]. split; [lia|].
  intros p n Hp. destruct (MapFacts.tail_of_fields ty d Hd rest p n Hr Hp) as (Hp1 & Hn & H7 & H8). subst n. nia.
Qed.

(** C79: reducing over a map is reducing with the map's closure inlined into the
    reduction; likewise [simd_do_each]. *)
Theorem C79_reduce_map : forall (V B I E R : Type) (c : config) (it : SIMDIterator V I) (out_ty : vty) (d0 : B) (f : E -> V -> list B * E) (s s' : I) (e : E)
    (fuel : nat) (vs : list V) (t : option (V * Z)) (start : R) (func : R -> list B -> R),
  SIZE out_ty <> 0 -> drain it fuel s = Ok (vs, t, s') -> (forall p n, t = Some (p, n) -> 0 <= n * SIZE (it_ty (itb it)) < 2 ^ 64) ->
  let m := map_iterator c it out_ty d0 f in
  let inlined := fun (a : R * E) v => (func (fst a) (fst (f (snd a) v)), snd (f (snd a) v)) in
  simd_reduce m fuel (mkSIMDMap s e) start func =
    (let! r := simd_reduce it fuel s (start, e) inlined in Ok (fst (fst r), mkSIMDMap (snd r) (snd (fst r)))) /\
  simd_do_each m fuel (mkSIMDMap s e) start func =
    (let! r := simd_do_each it fuel s (start, e) inlined in Ok (fst (fst r), mkSIMDMap (snd r) (snd (fst r)))).
Proof. exact c79_reduce_map. Qed.
Print Assumptions C79_reduce_map.

Example C79_reduce_map_case :
  let c := mkConfig Debug true in let ty := mkVty 4 4 in let it := slice_iterator c ty in let d := [0;0;0;0] in
  let f := fun (k : Z) v => (map (Z.mul k) v, k + 1) in let func := fun a v => map2 Z.add a v in
  let s := simd_iter [1;2;3;4;5;6] d in
  (exists vs t s', drain it 9 s = Ok (vs, t, s') /\ forall p n, t = Some (p, n) -> 0 <= n * 4 < 2 ^ 64) /\
  exists st, simd_reduce (map_iterator c it ty 0 f) 9 (mkSIMDMap s 10) d func = Ok ([10;20;30 + 55;40 + 66], st).
Proof.
  cbv zeta. split; [|eexists; vm_compute; reflexivity]. do 3 eexists. split; [vm_compute; reflexivity|].
  intros p n H. injection H as _ <-. lia.
Qed.

(** C79 does not hold when the middle vectors' scalars are the largest.  Take closures
    that widen [k] scalars into one and back (say, [be_u16s] and [be_u8s] of bytes), so
    that the composed closure returns its argument.  Whenever the number of scalars left
    for [end] is not a multiple of [k], mapping once gives back the slice, but mapping
    twice gives the slice with [k - (r mod k)] lanes of the default vector inserted in
    front of the tail. *)
Theorem C79_widen_narrow_refuted : forall (A B E1 E2 : Type) (c : config) (ty mid_ty : vty) (k : Z) (l d : list A) (b0 : B) (d0 : A)
    (f : E1 -> list A -> list B * E1) (g : E2 -> list B -> list A * E2) (e1 : E1) (e2 : E2) (fuel : nat),
  vty_ok ty -> vty_ok mid_ty -> SIZE mid_ty = k * SIZE ty -> WIDTH ty = k * WIDTH mid_ty -> 1 < k ->
  zlen d = WIDTH ty -> (zlen l + WIDTH ty) * SIZE ty <= isize_max -> (length l < fuel)%nat ->
  (forall e v, zlen v = WIDTH ty -> zlen (fst (f e v)) = WIDTH mid_ty) ->
  (forall e1 e2 v, zlen v = WIDTH ty -> fst (g e2 (fst (f e1 v))) = v) ->
  let r := zlen l mod WIDTH ty in
  let extra := k - r mod k in
  r mod k <> 0 ->
  let chain := map_iterator c (map_iterator c (slice_iterator c ty) mid_ty b0 f) ty d0 g in
  let once := map_iterator c (slice_iterator c ty) ty d0 (composed f g) in
  exists s1 s2,
    scalar_collect c once d0 fuel (mkSIMDMap (simd_iter l d) (e1, e2)) = Ok (map Some l, s1) /\
    scalar_collect c chain d0 fuel (mkSIMDMap (mkSIMDMap (simd_iter l d) e1) e2) =
      Ok (map Some (firstn (Z.to_nat (zlen l - r)) l ++ sub d (WIDTH ty - r - extra) extra ++ skipn (Z.to_nat (zlen l - r)) l), s2) /\
    zlen (sub d (WIDTH ty - r - extra) extra) = extra.
Proof. exact c79_widen_narrow_refuted. Qed.
Print Assumptions C79_widen_narrow_refuted.

Example C79_widen_narrow_case :
  let c := mkConfig Release true in let ty := mkVty 16 1 in let mid_ty := mkVty 8 2 in
  let pairs := fix pairs (v : list Z) := match v with x :: y :: v' => (x, y) :: pairs v' | _ => [] end in
  let split := fix split (v : list (Z * Z)) := match v with (x, y) :: v' => x :: y :: split v' | _ => [] end in
  let f := fun (n : unit) v => (pairs v, n) in let g := fun (n : unit) v => (split v, n) in
  let l := [1;2;3;4;5;6;7;8;9;10;11;12;13;14;15;16;17;18;19] in let d := repeat 77 16 in
  (zlen l mod WIDTH ty) mod 2 <> 0 /\
  exists s2, scalar_collect c (map_iterator c (map_iterator c (slice_iterator c ty) mid_ty (0, 0) f) ty 0 g) 0 30 (mkSIMDMap (mkSIMDMap (simd_iter l d) tt) tt) =
    Ok (map Some [1;2;3;4;5;6;7;8;9;10;11;12;13;14;15;16;77;17;18;19], s2).
Proof. cbv zeta. split; [discriminate|]. eexists. vm_compute. reflexivity. Qed.
