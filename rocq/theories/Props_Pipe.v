(** Properties: whole programs (C72). *)
From Coq Require Import String.
From Verif Require Import Base Spec VecSpec Vecs Iters Stride Zip ZipSpec Lanes OpTables Ops PortTables Ports PortSpec SumTables Sums SumSpec PipeSpec.
Open Scope list_scope.
Open Scope Z_scope.
From Verif Require Import PipeProofs.

(** C72: [n+2] slices of equal length, zipped and mapped with a closure that works lane
    by lane, collect to exactly the scalar result: element [k] is [f] of the elements
    number [k] of the slices. *)
Theorem C72_zip_slices : forall (A B E : Type) (c : config) (ty out_ty : vty) (n : nat) (ls ds : list (list A)) (N : Z) (d0 : B)
    (f : list A -> B) (func : E -> tuple (list A) (S n) -> list B * E) (e : E) (P : A -> Prop) (t : tuple (SIMDIter A (list A)) (S n)) (fuel : nat),
  vty_ok ty -> vty_ok out_ty -> WIDTH out_ty = WIDTH ty -> SIZE out_ty = SIZE ty ->
  Forall (fun l => zlen l = N /\ Forall P l) ls -> Forall (fun d => zlen d = WIDTH ty /\ Forall P d) ds -> length ls = length ds ->
  items (S n) t = map2 simd_iter ls ds ->
  (N + WIDTH ty) * SIZE ty <= isize_max -> N < Z.of_nat fuel -> lane_by_lane (WIDTH ty) P (S n) f func ->
  let rest := rest_many (blanket_unsafe c (si_array (slice_array c ty)) (si_iterable c (slice_array c ty))) n in
  let m := zipmap_iterator c (zip_iterator (slice_iterator c ty) rest) out_ty d0 func in
  zip (slice_iterator c ty) rest t = Ok t /\
  exists out s', scalar_collect c m d0 fuel (mkSIMDMap t e) = Ok (map Some out, s') /\
    zlen out = N /\ forall k r, column ls k r -> znth out k = Some (f r).
Proof. exact c72_zip_slices. Qed.
Print Assumptions C72_zip_slices.

Example C72_zip_slices_case :
  let c := mkConfig Release true in let ty := mkVty 4 4 in
  let func := fun (k : Z) (t : tuple (list Z) 2) => (map2 Z.sub (map2 Z.mul (fst t) (fst (snd t))) (snd (snd t)), k + 1) in
  let f := fun r => match r with [x; y; z] => x * y - z | _ => 0 end in
  let rest := rest_many (blanket_unsafe c (si_array (slice_array c ty)) (si_iterable c (slice_array c ty))) 1 in
  let d := [0;0;0;0] in
  lane_by_lane (WIDTH ty) (fun _ => True) 2 f func /\
  exists s', scalar_collect c (zipmap_iterator c (zip_iterator (slice_iterator c ty) rest) ty 0 func) 0 9
    (mkSIMDMap (simd_iter [1;2;3;4;5;6] d, (simd_iter [10;20;30;40;50;60] d, simd_iter [1;1;1;2;2;2] d)) 0) =
    Ok (map Some [9; 39; 89; 158; 248; 358], s').
Proof.
  split; [|eexists; vm_compute; reflexivity].
  intros e [x [y z]] H. cbn [items fst snd] in *.
  destruct (Forall_inv H) as [Hx _]. destruct (Forall_inv (Forall_inv_tail H)) as [Hy _]. destruct (Forall_inv (Forall_inv_tail (Forall_inv_tail H))) as [Hz _].
  split; [rewrite !zlen_map2; rewrite ?zlen_map2; congruence|].
  intros i r Hr. repeat match goal with H : column _ _ _ |- _ => inversion H; clear H; subst | H : Forall2 _ _ _ |- _ => inversion H; clear H; subst end.
  repeat (erewrite znth_map2; [|try eassumption|try eassumption]); try reflexivity; erewrite znth_map2; eauto.
Qed.

(** C72: [stride(n+2)] of one slice, zipped and mapped with a closure that works lane by
    lane, collects to [f] of every complete group of [n+2] consecutive elements; the
    elements of an incomplete last group are not looked at. *)
Theorem C72_zip_strides : forall (A B E : Type) (c : config) (ty out_ty : vty) (n : nat) (l : list A) (ds : list (list A)) (x0 : A) (d0 : B)
    (f : list A -> B) (func : E -> tuple (list A) (S n) -> list B * E) (e : E) (P : A -> Prop) (fuel : nat),
  let count := Z.of_nat n + 2 in
  vty_ok ty -> vty_ok out_ty -> WIDTH out_ty = WIDTH ty -> SIZE out_ty = SIZE ty ->
  slice_ok ty l -> Forall P l -> count * (WIDTH ty + 1) <= 2 ^ 63 ->
  zlen ds = count -> Forall (fun d => zlen d = WIDTH ty /\ Forall P d) ds ->
  (length l < fuel)%nat -> lane_by_lane (WIDTH ty) P (S n) f func ->
  let it := stride_iterator c (slice_array c ty) x0 in
  let rest := rest_many (blanket_unsafe c (ps_array c (slice_array c ty) x0) (ps_iterable c (slice_array c ty) x0)) n in
  let m := zipmap_iterator c (zip_iterator it rest) out_ty d0 func in
  exists t : tuple (PackedStride A (list A)) (S n), stride l count ds = Ok (items (S n) t) /\
  zip it rest t = Ok t /\
  exists out s', scalar_collect c m d0 fuel (mkSIMDMap t e) = Ok (map Some out, s') /\
    zlen out = zlen l / count /\ forall k, 0 <= k < zlen out -> znth out k = Some (f (sub l (count * k) count)).
Proof. exact c72_zip_strides. Qed.
Print Assumptions C72_zip_strides.

Example C72_zip_strides_case :
  (* the determinants of the crate's documentation: stride_four, then a*d - b*c *)
  let c := mkConfig Debug true in let ty := mkVty 2 8 in
  let func := fun (_ : unit) (t : tuple (list Z) 3) => let '(x, (y, (z, w))) := t in (map2 Z.sub (map2 Z.mul x w) (map2 Z.mul y z), tt) in
  let f := fun r => match r with [x; y; z; w] => x * w - y * z | _ => 0 end in
  let rest := rest_many (blanket_unsafe c (ps_array c (slice_array c ty) 0) (ps_iterable c (slice_array c ty) 0)) 2 in
  let d := [7;7] in
  lane_by_lane (WIDTH ty) (fun _ => True) 3 f func /\
  let '(s1, s2, s3, s4) := stride_four [1;2;3;4; 5;0;0;5; 2;1;1;2; 9;9] (d, d, d, d) in
  exists s', scalar_collect c (zipmap_iterator c (zip_iterator (stride_iterator c (slice_array c ty) 0) rest) ty 0 func) 0 20
    (mkSIMDMap (s1, (s2, (s3, s4))) tt) = Ok (map Some [-2; 25; 3], s').
Proof.
  split; [|eexists; vm_compute; reflexivity].
  intros e [x [y [z w]]] H. cbn [items fst snd] in *.
  destruct (Forall_inv H) as [Hx _]. destruct (Forall_inv (Forall_inv_tail H)) as [Hy _]. destruct (Forall_inv (Forall_inv_tail (Forall_inv_tail H))) as [Hz _].
  destruct (Forall_inv (Forall_inv_tail (Forall_inv_tail (Forall_inv_tail H)))) as [Hw _].
  split; [rewrite !zlen_map2; rewrite ?zlen_map2; congruence|].
  intros i r Hr. repeat match goal with H : column _ _ _ |- _ => inversion H; clear H; subst | H : Forall2 _ _ _ |- _ => inversion H; clear H; subst end.
  erewrite znth_map2; [|erewrite znth_map2; eauto|erewrite znth_map2; eauto]. reflexivity.
Qed.

(** C72: a map whose closure, on vectors of scalars from [P], gives lanes related by [R]
    to its input lanes, collects to a list related by [R], element by element, to the
    slice; whatever state the closure keeps. *)
Theorem C72_map : forall (A B E : Type) (c : config) (ty out_ty : vty) (l d : list A) (P : A -> Prop) (R : A -> B -> Prop)
    (func : E -> list A -> list B * E) (e : E) (d0 : B) (fuel : nat),
  vty_ok ty -> vty_ok out_ty -> WIDTH out_ty = WIDTH ty -> SIZE out_ty = SIZE ty ->
  zlen d = WIDTH ty -> Forall P l -> Forall P d -> (zlen l + WIDTH ty) * SIZE ty <= isize_max -> (length l < fuel)%nat ->
  (forall e v, zlen v = WIDTH ty -> Forall P v -> Forall2 R v (fst (func e v))) ->
  exists out s',
    scalar_collect c (map_iterator c (slice_iterator c ty) out_ty d0 func) d0 fuel (mkSIMDMap (simd_iter l d) e) =
      Ok (map Some out, s') /\ Forall2 R l out.
Proof. exact c72_map. Qed.
Print Assumptions C72_map.

Example C72_map_case :
  (* the impure closure of the documentation: it adds one to every other vector *)
  let c := mkConfig Release true in let ty := mkVty 4 4 in
  let func := fun (flip : bool) v => if negb flip then (map (Z.add 1) v, negb flip) else (v, negb flip) in
  (forall e v, zlen v = WIDTH ty -> Forall (fun _ => True) v -> Forall2 (fun x y => y = x \/ y = 1 + x) v (fst (func e v))) /\
  exists s', scalar_collect c (map_iterator c (slice_iterator c ty) ty 0 func) 0 20
    (mkSIMDMap (simd_iter [1;1;1;1;1;1;1;1;1;1] [0;0;0;0]) true) = Ok (map Some [1;1;1;1;2;2;2;2;1;1], s').
Proof.
  split; [|eexists; vm_compute; reflexivity].
  intros [] v _ _; cbn; induction v; constructor; auto.
Qed.

(** C72: the program [l.simd_iter(d).simd_map(|v| v.abs()).scalar_collect()] of the crate's
    documentation, for every type with a portable [abs]: the result holds the absolute
    value of every scalar of the slice, in order. *)
Theorem C72_abs : forall (E : Type) (c : config) (narrow : Z -> Z) (p : port_impl) (l d : list Z) (func : E -> list Z -> list Z * E) (e : E) (fuel : nat),
  let ty := pt_ty p in
  In p (x86_abs ++ unknown_abs) -> Forall (in_ity (lane_ity (pt_el p))) l -> int_vector (WIDTH ty) (lane_ity (pt_el p)) d ->
  (zlen l + WIDTH ty) * SIZE ty <= isize_max -> (length l < fuel)%nat ->
  (forall e v, int_vector (WIDTH ty) (lane_ity (pt_el p)) v -> port_portable narrow p [v] = Ok [fst (func e v)]) ->
  exists out s',
    scalar_collect c (map_iterator c (slice_iterator c ty) (pt_outty p) 0 func) 0 fuel (mkSIMDMap (simd_iter l d) e) =
      Ok (map Some out, s') /\ Forall2 (absolute (pt_el p)) l out.
Proof. exact c72_abs. Qed.
Print Assumptions C72_abs.

Example C72_abs_case : exists p, In p (x86_abs ++ unknown_abs) /\ pt_vec p = "i64x2"%string /\
  let func := fun (e : unit) v => (match port_portable (fun z => z) p [v] with Ok [r] => r | _ => [] end, e) in
  (forall e v, int_vector (WIDTH (pt_ty p)) (lane_ity (pt_el p)) v -> port_portable (fun z => z) p [v] = Ok [fst (func e v)]) /\
  exists s', scalar_collect (mkConfig Debug true) (map_iterator (mkConfig Debug true) (slice_iterator (mkConfig Debug true) (pt_ty p)) (pt_outty p) 0 func) 0 9
    (mkSIMDMap (simd_iter [-9223372036854775808; -5; 6] [0; 0]) tt) = Ok (map Some [9223372036854775808; 5; 6], s').
Proof.
  eexists. split; [apply (nth_error_In _ 10); reflexivity|]. split; [reflexivity|]. split; [|eexists; vm_compute; reflexivity].
  intros e v Hv. cbn [fst]. match type of Hv with int_vector (WIDTH (pt_ty ?p)) _ _ => assert (Hp : In p (x86_abs ++ unknown_abs)) by (apply (nth_error_In _ 10); reflexivity);
    destruct (PortProofs.c49_abs_portable (fun z => z) p v Hp Hv) as (r & Hr & _) end.
  rewrite Hr. reflexivity.
Qed.

(** C72: the documentation's [simd_reduce(splat(0), |acc, v| acc + v).sum()] on integers,
    with the wrapping lane addition of a release build: the sum of the slice, reduced to
    the lane type, for the portable and for every optimised [sum], and so the same
    number on every target. *)
Theorem C72_sum : forall (fadd : elty -> Z -> Z -> Z) (b : bool) (t : ity) (l : list Z) (fuel : nat),
  let c := mkConfig Release b in
  let reduce ty := simd_reduce (slice_iterator c ty) fuel (simd_iter l (splat (WIDTH ty) 0)) (splat (WIDTH ty) 0)
                     (fun a v => map2 (fun x y => wrap t (x + y)) a v) in
  (0 < ibytes t)%nat -> (length l < fuel)%nat ->
  exists total_of_l, sum_mod t l total_of_l /\
  (forall s, In s (x86_sum ++ unknown_sum) -> s_el s = EInt t -> slice_ok (s_ty s) l ->
   exists acc s', reduce (s_ty s) = Ok (acc, s') /\ sum_portable fadd c s acc = Ok total_of_l) /\
  (forall x, In x x86_sum_optimized -> xs_el x = EInt t -> slice_ok (xs_ty x) l ->
   exists acc s', reduce (xs_ty x) = Ok (acc, s') /\ sum_optimized c x acc = Ok total_of_l).
Proof. exact c72_sum. Qed.
Print Assumptions C72_sum.

Example C72_sum_case :
  let c := mkConfig Release true in let l := [100; 100; 100; -3; -4; 5; 6; 7; 8; 120; 11; 12; 13; 14; 15; 16; 17; 18; 19] in
  let reduce ty := simd_reduce (slice_iterator c ty) 20 (simd_iter l (splat (WIDTH ty) 0)) (splat (WIDTH ty) 0)
                     (fun a v => map2 (fun x y => wrap i8 (x + y)) a v) in
  total l = 574 /\ (exists s, In s (x86_sum ++ unknown_sum) /\ s_el s = EInt i8 /\ exists acc s', reduce (s_ty s) = Ok (acc, s') /\ sum_portable (fun _ a _ => a) c s acc = Ok 62) /\
  exists x, In x x86_sum_optimized /\ xs_el x = EInt i8 /\ exists acc s', reduce (xs_ty x) = Ok (acc, s') /\ sum_optimized c x acc = Ok 62.
Proof.
  split; [reflexivity|]. split.
  - eexists. split; [apply (nth_error_In _ 27); reflexivity|]. split; [reflexivity|]. do 2 eexists. split; vm_compute; reflexivity.
  - eexists. split; [apply (nth_error_In _ 0); reflexivity|]. split; [reflexivity|]. do 2 eexists. split; [vm_compute; reflexivity|lazy; reflexivity].
Qed.
