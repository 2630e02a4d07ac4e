(** Proofs of the properties: programs that write to memory leave the same in it in every build (C93). *)
From Coq Require Import String.
From Verif Require Import Base Spec VecSpec Vecs Iters Zip ZipSpec Stride GateTables GateSpec Gates Lanes Floats FloatSpec OpTables Ops OpSpec Tables Shuffles PortTables Ports PortSpec SumTables Sums SumSpec Builds PipeSpec AvailSpec ExprSpec Exprs.
Open Scope list_scope.
Open Scope Z_scope.
From Coq Require Import Lia ZifyBool ZifyNat.
From Verif Require Import ListFacts VecFacts IterFacts CollectFacts MapFacts StrideFacts ZipFacts VecProofs IterProofs CollectProofs ZipProofs PipeProofs LoopProofs KernProofs ExprProofs.
Ltac Zify.zify_post_hook ::= Z.div_mod_to_equations.

Lemma run_lanes {A B E : Type} (w : Z) (P : A -> Prop) (f : A -> B) (func : E -> list A -> list B * E) vs e :
  (forall e v, zlen v = w -> Forall P v -> fst (func e v) = map f v) -> Forall (fun v => zlen v = w) vs -> Forall P (concat vs) -> concat (fst (run_closure func e vs)) = map f (concat vs).
Proof.
  intros Hf Hw. revert e. induction Hw as [|v vs Hv Hw IH]; intros e HP; [reflexivity|]. cbn [concat] in HP. apply Forall_app in HP. destruct HP as [HP1 HP2].
  cbn [concat run_closure]. pose proof (Hf e v Hv HP1) as Hx. destruct (func e v) as [y e']. cbn [fst] in Hx. specialize (IH e' HP2). destruct (run_closure func e' vs) as [ys e'']. cbn [fst concat] in *.
  rewrite map_app, Hx, IH. reflexivity.
Qed.

Lemma aligned_lanes {A B : Type} (w : Z) (f : A -> B) (d rest : list A) : zlen d = w -> zlen rest <= w -> skipn (Z.to_nat (w - zlen rest)) (map f (right_aligned d rest)) = map f rest.
Proof. intros Hd Hr. rewrite skipn_map. f_equal. rewrite <- Hd. apply right_aligned_skipn. unfold zlen in *. lia. Qed.

Lemma closure_map : forall (fs : features) (tie : bool) fop fsqrt narrow (e0 e1 : elty) (x : expr) (l0 l1 : packed_line) (E : Type) (func : E -> list Z -> list Z * E), target fs -> In e0 primitives ->
  (forall o e u v, e = EF32 \/ e = EF64 -> lane e u -> lane e v -> lane e (fop o e u v)) -> (forall e u, e = EF32 \/ e = EF64 -> lane e u -> lane e (fsqrt e u)) ->
  type_of e0 1 x = Some e1 -> natural fs (el_name e0 ++ "s") = [l0] -> natural fs (el_name e1 ++ "s") = [l1] ->
  (forall e v, zlen v = p_width l0 -> Forall (lane e0) v -> run fs tie fop fsqrt narrow e0 1 x [v] = Some (Ok (fst (func e v)))) ->
  forall e v, zlen v = p_width l0 -> Forall (lane e0) v -> fst (func e v) = map (fun a => meaning e0 1 fop fsqrt x [a]) v.
Proof.
  intros fs tie fop fsqrt narrow e0 e1 x l0 l1 E func T H0 Hf Hs Ht N0 N1 Hrun e' v Lv Fv.
  destruct (type_prim e0 1 H0 x e1 Ht) as [P1 B1]. destruct (natural_vty fs e0 l0 T H0 N0) as (V0 & W0 & S0 & C0). destruct (natural_vty fs e1 l1 T P1 N1) as (V1 & W1 & S1 & _).
  destruct (c83_closure fs tie fop fsqrt narrow e0 e1 x [v] l0 l1 T H0 Hf Hs Ht N0 N1 ltac:(discriminate)) as (r & Rr & Lr & _ & M); [constructor; [split; assumption|constructor]|].
  cbn [length] in Rr. rewrite (Hrun e' v Lv Fv) in Rr. injection Rr as Rr. rewrite Rr. cbn [length] in M.
  assert (Lvr : length v = length r). { assert (Z.of_nat (length v) = Z.of_nat (length r)); [|lia]. change (zlen v = zlen r). rewrite Lr. change (p_width l1) with (WIDTH (vty_of l1)). rewrite W1, B1, <- W0. exact Lv. }
  assert (K : forall k a, znth v k = Some a -> znth r k = Some (meaning e0 1 fop fsqrt x [a])) by (intros k a Ha; apply M; constructor; [exact Ha|constructor]).
  clear -K Lvr. revert r Lvr K. induction v as [|a v IH]; intros [|y r] Lvr K; try discriminate; [reflexivity|]. cbn [map]. f_equal; [specialize (K 0 a eq_refl); injection K as ->; reflexivity|].
  apply IH; [cbn [length] in Lvr; lia|]. intros k b Hb. pose proof (znth_Some_lt _ _ _ Hb) as Hk. specialize (K (k + 1) b).
  rewrite !znth_cons_shift in K by lia. replace (k + 1 - 1) with k in K by lia. apply K. exact Hb.
Qed.

Lemma c93_for_each : forall (fs : features) (c : config) (tie : bool) (fop : arith -> elty -> Z -> Z -> Z) (fsqrt : elty -> Z -> Z) (narrow : Z -> Z) (e0 : elty) (x : expr) (l d : list Z) (l0 : packed_line)
    (E : Type) (func : E -> list Z -> list Z * E) (e : E) (d0 : Z) (fuel : nat),
  target fs -> In e0 primitives ->
  (forall o e u v, e = EF32 \/ e = EF64 -> lane e u -> lane e v -> lane e (fop o e u v)) -> (forall e u, e = EF32 \/ e = EF64 -> lane e u -> lane e (fsqrt e u)) ->
  type_of e0 1 x = Some e0 -> natural fs (el_name e0 ++ "s") = [l0] ->
  Forall (lane e0) l -> zlen d = p_width l0 -> Forall (lane e0) d -> zlen l * p_size l0 <= isize_max -> (length l < fuel)%nat ->
  (forall e v, zlen v = p_width l0 -> zlen (fst (func e v)) = p_width l0) ->
  (forall e v, zlen v = p_width l0 -> Forall (lane e0) v -> run fs tie fop fsqrt narrow e0 1 x [v] = Some (Ok (fst (func e v)))) ->
  exists e', simd_for_each c (vty_of l0) d0 func fuel (simd_iter l d) e =
    Ok (mkSIMDIter (zlen l) (map (fun a => meaning e0 1 fop fsqrt x [a]) l) d, e').
Proof.
  intros fs c tie fop fsqrt narrow e0 x l d l0 E func e d0 fuel T H0 Hf Hs Ht N0 Fl Ld Fd Cap Hfu Hlen Hrun.
  destruct (natural_vty fs e0 l0 T H0 N0) as (V0 & W0 & S0 & C0).
  pose proof (closure_map fs tie fop fsqrt narrow e0 e0 x l0 l0 E func T H0 Hf Hs Ht N0 N0 Hrun) as K.
  destruct (c13_for_each Z E c (vty_of l0) l d func e d0 fuel V0 Cap Ld Hlen Hfu) as (vs & rest & Hc & Hr & H). destruct Hc as [Hc1 Hc2].
  assert (HP : Forall (lane e0) (concat vs) /\ Forall (lane e0) rest) by (apply Forall_app; rewrite Hc2; exact Fl). destruct HP as [HP1 HP2].
  pose proof (run_lanes (p_width l0) (lane e0) (fun a => meaning e0 1 fop fsqrt x [a]) func vs e K Hc1 HP1) as Hys.
  destruct (run_closure func e vs) as [ys e1]. cbn [fst] in Hys. cbv zeta in H. destruct H as [H _]. eexists. rewrite H. do 3 f_equal.
  rewrite Hys, <- Hc2, map_app. f_equal. destruct rest as [|y r]; [reflexivity|]. change (WIDTH (vty_of l0)) with (p_width l0) in *.
  rewrite K; [apply aligned_lanes; lia|rewrite right_aligned_len; lia|apply Forall_aligned; assumption].
Qed.

Lemma c93_fill : forall (fs : features) (c : config) (tie : bool) (fop : arith -> elty -> Z -> Z -> Z) (fsqrt : elty -> Z -> Z) (narrow : Z -> Z) (e0 e1 : elty) (x : expr) (l d : list Z) (l0 l1 : packed_line)
    (E : Type) (func : E -> list Z -> list Z * E) (e : E) (buf : list Z) (fuel : nat),
  target fs -> In e0 primitives ->
  (forall o e u v, e = EF32 \/ e = EF64 -> lane e u -> lane e v -> lane e (fop o e u v)) -> (forall e u, e = EF32 \/ e = EF64 -> lane e u -> lane e (fsqrt e u)) ->
  type_of e0 1 x = Some e1 -> natural fs (el_name e0 ++ "s") = [l0] -> natural fs (el_name e1 ++ "s") = [l1] ->
  Forall (lane e0) l -> zlen d = p_width l0 -> Forall (lane e0) d -> zlen l * p_size l0 + 32 <= isize_max -> (length l < fuel)%nat -> zlen l <= zlen buf ->
  (forall e v, zlen v = p_width l0 -> Forall (lane e0) v -> run fs tie fop fsqrt narrow e0 1 x [v] = Some (Ok (fst (func e v)))) ->
  exists s', scalar_fill c (map_iterator c (slice_iterator c (vty_of l0)) (vty_of l1) 0 func) 0 fuel (mkSIMDMap (simd_iter l d) e) buf =
    Ok (map (fun a => meaning e0 1 fop fsqrt x [a]) l ++ skipn (length l) buf, s').
Proof.
  intros fs c tie fop fsqrt narrow e0 e1 x l d l0 l1 E func e buf fuel T H0 Hf Hs Ht N0 N1 Fl Ld Fd Cap Hfu Hbuf Hrun.
  destruct (type_prim e0 1 H0 x e1 Ht) as [P1 B1]. destruct (natural_vty fs e0 l0 T H0 N0) as (V0 & W0 & S0 & C0). destruct (natural_vty fs e1 l1 T P1 N1) as (V1 & W1 & S1 & _).
  pose proof (closure_map fs tie fop fsqrt narrow e0 e1 x l0 l1 E func T H0 Hf Hs Ht N0 N1 Hrun) as K.
  pose proof (vty_ok_facts _ V0) as (H1 & H2 & H3 & _). pose proof (zlen_nonneg l) as Hl0.
  assert (Hw : WIDTH (vty_of l1) = WIDTH (vty_of l0)) by (rewrite W1, W0, B1; reflexivity). assert (Hsz : SIZE (vty_of l1) = SIZE (vty_of l0)) by (rewrite S1, S0, B1; reflexivity).
  assert (Hcap : (zlen l + WIDTH (vty_of l0)) * SIZE (vty_of l0) <= isize_max) by (unfold vty_of in C0 |- *; cbn [WIDTH SIZE] in C0 |- *; lia).
  destruct (slice_complete c (vty_of l0) l d V0) as (vs & rest & Hc & Hch & Hr & Hszd); [unfold slice_ok; nia|exact Ld|exact Hcap|]. destruct Hch as [Hch1 Hch2].
  set (Q := fun v : list Z => zlen v = WIDTH (vty_of l0) /\ Forall (lane e0) v).
  assert (HQf : forall e v, Q v -> zlen (fst (func e v)) = WIDTH (vty_of l1)) by (intros e2 v [Hv1 Hv2]; rewrite (K e2 v Hv1 Hv2), zlen_map; lia).
  assert (HP : Forall (lane e0) (concat vs) /\ Forall (lane e0) rest) by (apply Forall_app; rewrite Hch2; exact Fl). destruct HP as [HP1 HP2].
  assert (HQvs : Forall Q vs).
  { clear -Hch1 HP1. induction Hch1 as [|v vs Hv Hch1 IH]; constructor; cbn [concat] in HP1; apply Forall_app in HP1; [split; [exact Hv|exact (proj1 HP1)]|apply IH; exact (proj2 HP1)]. }
  assert (HQt : forall p n, tail_of d rest = Some (p, n) -> Q p).
  { intros p n Hp. split; [apply (tail_of_fields (vty_of l0) d Ld rest p n Hr Hp)|]. unfold tail_of in Hp. destruct rest; [discriminate|]. injection Hp as <- _. apply Forall_aligned; assumption. }
  assert (Hbytes : WIDTH (vty_of l0) * SIZE (vty_of l0) = WIDTH (vty_of l1) * SIZE (vty_of l1)) by (rewrite Hw, Hsz; reflexivity).
  pose proof (map_complete c (slice_iterator c (vty_of l0)) (vty_of l1) 0 func V1 Hbytes _ _ _ _ e Hc) as Hm.
  assert (Hs' := map_sized (slice_iterator c (vty_of l0)) (vty_of l1) func Q vs (tail_of d rest) e HQf HQvs HQt).
  match type of Hm with complete _ _ ?ys ?tl _ => assert (HD : delivered ys tl = map (fun a => meaning e0 1 fop fsqrt x [a]) l) end.
  { unfold delivered. rewrite (run_lanes (p_width l0) (lane e0) _ func vs e K Hch1 HP1). rewrite <- Hch2, map_app. f_equal.
    unfold map_tail. destruct (tail_of d rest) as [[p n]|] eqn:Et. 2:{ unfold tail_of in Et. destruct rest; [reflexivity|discriminate]. }
    destruct (HQt p n eq_refl) as [Hp1 Hp2]. rewrite K by assumption. change (sz (@slice_iterator Z c (vty_of l0))) with (SIZE (vty_of l0)). rewrite Hsz, Z.div_mul by lia.
    unfold tail_of in Et. destruct rest as [|y r]; [discriminate|]. injection Et as <- <-. unfold unfilled. rewrite Ld. apply aligned_lanes; [exact Ld|]. change (WIDTH (vty_of l0)) with (p_width l0) in Hr. lia. }
  eexists. rewrite (fill_complete c _ 0 _ _ _ _ fuel buf Hm Hs').
  - rewrite HD, map_length. reflexivity.
  - rewrite run_closure_length. pose proof (chunked_length (vty_of l0) l V0 vs rest (conj Hch1 Hch2)). lia.
  - rewrite HD, zlen_map. exact Hbuf.
Qed.

Lemma c93_zip_fill : forall (fs : features) (c : config) (tie : bool) (fop : arith -> elty -> Z -> Z -> Z) (fsqrt : elty -> Z -> Z) (narrow : Z -> Z) (e0 e1 : elty) (x : expr) (n : nat) (ls ds : list (list Z)) (N : Z) (l0 l1 : packed_line)
    (E : Type) (func : E -> tuple (list Z) (S n) -> list Z * E) (e : E) (t : tuple (SIMDIter Z (list Z)) (S n)) (fuel : nat) (buf : list Z),
  target fs -> In e0 primitives ->
  (forall o e u v, e = EF32 \/ e = EF64 -> lane e u -> lane e v -> lane e (fop o e u v)) -> (forall e u, e = EF32 \/ e = EF64 -> lane e u -> lane e (fsqrt e u)) ->
  type_of e0 (S (S n)) x = Some e1 -> natural fs (el_name e0 ++ "s") = [l0] -> natural fs (el_name e1 ++ "s") = [l1] ->
  Forall (fun l => zlen l = N /\ Forall (lane e0) l) ls -> Forall (fun d => zlen d = p_width l0 /\ Forall (lane e0) d) ds -> length ls = length ds ->
  PipeSpec.items (S n) t = map2 simd_iter ls ds -> N * p_size l0 + 32 <= isize_max -> N < Z.of_nat fuel -> N <= zlen buf ->
  (forall e t, Forall (fun v => zlen v = p_width l0 /\ Forall (lane e0) v) (PipeSpec.items (S n) t) -> run fs tie fop fsqrt narrow e0 (S (S n)) x (PipeSpec.items (S n) t) = Some (Ok (fst (func e t)))) ->
  let rest := rest_many (blanket_unsafe c (si_array (slice_array c (vty_of l0))) (si_iterable c (slice_array c (vty_of l0)))) n in
  let m := zipmap_iterator c (zip_iterator (slice_iterator c (vty_of l0)) rest) (vty_of l1) 0 func in
  zip (slice_iterator c (vty_of l0)) rest t = Ok t /\
  exists buf' s', scalar_fill c m 0 fuel (mkSIMDMap t e) buf = Ok (buf', s') /\ zlen buf' = zlen buf /\
    (forall k r, column ls k r -> znth buf' k = Some (meaning e0 (S (S n)) fop fsqrt x r)) /\ (forall k, N <= k -> znth buf' k = znth buf k).
Proof.
  intros fs c tie fop fsqrt narrow e0 e1 x n ls ds N l0 l1 E func e t fuel buf T H0 Hf Hs Ht N0 N1 Hls Hds Hlen Hit Cap Hfu Hbuf Hrun.
  destruct (type_prim e0 _ H0 x e1 Ht) as [P1 B1]. destruct (natural_vty fs e0 l0 T H0 N0) as (V0 & W0 & S0 & C0). destruct (natural_vty fs e1 l1 T P1 N1) as (V1 & W1 & S1 & _).
  apply (c82_zip_fill Z Z E c (vty_of l0) (vty_of l1) n ls ds N 0 (meaning e0 (S (S n)) fop fsqrt x) func e (lane e0) t fuel buf V0 V1); try assumption.
  - rewrite W1, W0, B1. reflexivity.
  - rewrite S1, S0, B1. reflexivity.
  - unfold vty_of in C0 |- *. cbn [WIDTH SIZE] in C0 |- *. lia.
  - exact (closure_lanes fs tie fop fsqrt narrow e0 e1 x l0 l1 n E func T H0 Hf Hs Ht N0 N1 Hrun).
Qed.
