(** Reductions with a commutative monoid. *)
From Coq Require Import Lia ZifyBool ZifyNat.
From Verif Require Import Base Spec ListFacts Vecs VecFacts Iters IterFacts CollectFacts MapFacts.

Section Monoid.
Context {A B : Type}.
Variable op : B -> B -> B.
Variable e : B.
Hypothesis op_assoc : forall x y z, op x (op y z) = op (op x y) z.
Hypothesis op_comm : forall x y, op x y = op y x.
Hypothesis op_unit : forall x, op e x = x.

Lemma fold_left_start l : forall x, fold_left op l x = op x (fold_left op l e).
Proof.
  induction l as [|y l IH]; intros x; cbn [fold_left].
  - rewrite op_comm, op_unit. reflexivity.
  - rewrite (IH (op x y)), (IH (op e y)), op_unit. symmetry. apply op_assoc.
Qed.

Lemma fold_left_split a b : fold_left op (a ++ b) e = op (fold_left op a e) (fold_left op b e).
Proof. rewrite fold_left_app. apply fold_left_start. Qed.

Lemma fold_left_map2 : forall a b, length a = length b ->
  fold_left op (map2 op a b) e = op (fold_left op a e) (fold_left op b e).
Proof.
  induction a as [|x a IH]; intros [|y b] H; try discriminate; cbn [map2 fold_left].
  - rewrite op_unit. reflexivity.
  - injection H as H. rewrite !op_unit.
    rewrite (fold_left_start (map2 op a b)), (fold_left_start a), (fold_left_start b), IH by exact H.
    rewrite <- !op_assoc. f_equal. rewrite !op_assoc. f_equal. apply op_comm.
Qed.

Lemma fold_left_units l : Forall (fun x => x = e) l -> fold_left op l e = e.
Proof.
  induction 1 as [|x l -> _ IH]; cbn [fold_left]; [reflexivity|]. rewrite op_unit. exact IH.
Qed.

Lemma map2_length {X Y Z'} (f : X -> Y -> Z') : forall a b, length a = length b ->
  length (map2 f a b) = length a.
Proof.
  induction a as [|x a IH]; intros [|y b] H; try discriminate; [reflexivity|].
  cbn. rewrite IH; [reflexivity|]. injection H as H; exact H.
Qed.

(** [g v] are the lanes contributed by the vector [v]. *)
Lemma reduce_vectors {V} (g : V -> list B) w vs : forall acc,
  length acc = w -> Forall (fun v => length (g v) = w) vs ->
  let r := fold_left (fun a v => map2 op a (g v)) vs acc in
  length r = w /\ fold_left op r e = op (fold_left op acc e) (fold_left op (concat (map g vs)) e).
Proof.
  induction vs as [|v vs IH]; intros acc Ha Hv; cbn [fold_left map concat].
  - split; [exact Ha|]. cbn [fold_left]. rewrite op_comm, op_unit. reflexivity.
  - inversion Hv as [|? ? Hv1 Hv2]; subst.
    destruct (IH (map2 op acc (g v))) as [H1 H2]; [rewrite map2_length; lia|exact Hv2|].
    split; [exact H1|]. rewrite H2, fold_left_map2 by lia. rewrite fold_left_split. symmetry. apply op_assoc.
Qed.
End Monoid.
