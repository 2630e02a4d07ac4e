(** Proofs of the properties: kernels over zipped slices (C82). *)
From Coq Require Import String.
From Verif Require Import Base Spec VecSpec Vecs Iters Zip ZipSpec Lanes OpTables Ops SumTables Sums SumSpec PipeSpec.
Open Scope list_scope.
Open Scope Z_scope.
From Coq Require Import Lia ZifyBool ZifyNat.
From Verif Require Import ListFacts VecFacts IterFacts CollectFacts MapFacts StrideFacts ZipFacts ReduceFacts VecProofs OpProofs PortProofs SumProofs IterProofs CollectProofs StrideProofs ZipProofs PipeProofs DocProofs.
Ltac Zify.zify_post_hook ::= Z.div_mod_to_equations.

Lemma slices_run {A B E : Type} (c : config) (ty out_ty : vty) (n : nat) (ls ds : list (list A)) (N : Z) (d0 : B)
    (f : list A -> B) (func : E -> tuple (list A) (S n) -> list B * E) (e : E) (P : A -> Prop) (t : tuple (SIMDIter A (list A)) (S n)) (fuel : nat) :
  vty_ok ty -> vty_ok out_ty -> WIDTH out_ty = WIDTH ty -> SIZE out_ty = SIZE ty ->
  Forall (fun l => zlen l = N /\ Forall P l) ls -> Forall (fun d => zlen d = WIDTH ty /\ Forall P d) ds -> length ls = length ds ->
  PipeSpec.items (S n) t = map2 simd_iter ls ds ->
  (N + WIDTH ty) * SIZE ty <= isize_max -> N < Z.of_nat fuel -> lane_by_lane (WIDTH ty) P (S n) f func ->
  let rest := rest_many (blanket_unsafe c (si_array (slice_array c ty)) (si_iterable c (slice_array c ty))) n in
  let m := zipmap_iterator c (zip_iterator (slice_iterator c ty) rest) out_ty d0 func in
  zip (slice_iterator c ty) rest t = Ok t /\ exists G ys tl s', complete m (mkSIMDMap t e) ys tl s' /\ sized (WIDTH ty) ys tl /\ delivered ys tl = G /\ (length ys < fuel)%nat /\
    zlen G = N /\ (forall k r, column ls k r -> znth G k = Some (f r)) /\
    exists pad, concat (visited ys tl) = concat ys ++ pad ++ skipn (Z.to_nat (WIDTH ty * zlen ys)) G /\ firstn (Z.to_nat (WIDTH ty * zlen ys)) G = concat ys /\
      zlen pad = WIDTH ty * ((N + WIDTH ty - 1) / WIDTH ty) - N /\
      forall i r, 0 <= i < zlen pad -> column ds i r -> znth pad i = Some (f r).
Proof.
  intros Hty Hout Hw Hsz Hls Hds Hlen Ht Hcap Hf Hfn rest m.
  assert (HN : 0 <= N /\ ls <> []).
  { pose proof (items_length (S n) t) as Hil. rewrite Ht in Hil. destruct Hls as [|l ls [Hl HPl] Hls]; [discriminate|].
    subst N. split; [apply zlen_nonneg|discriminate]. }
  destruct HN as [HN Hne]. pose proof (vty_ok_facts _ Hty) as (H1 & H2 & H3 & _).
  set (G := map (fun i => f (col ls (Z.of_nat i))) (seq 0 (Z.to_nat N))).
  assert (Hsrc : sources c (si_array (slice_array c ty)) (si_iterable c (slice_array c ty)) P N (PipeSpec.items (S n) t) ls ds).
  { rewrite Ht. clear -Hls Hds Hlen Hty HN Hcap H1 H3. revert ds Hds Hlen. induction Hls as [|l ls [Hl HPl] Hls IH]; intros [|d ds] Hds Hlen; try discriminate; cbn [map2]; constructor.
    - apply source_slice; [exact Hty|unfold slice_ok; nia|exact (proj1 (Forall_inv Hds))|lia].
    - split; assumption.
    - exact (Forall_inv Hds).
    - apply IH; [exact (Forall_inv_tail Hds)|]. cbn in Hlen. lia. }
  assert (HGl : zlen G = N) by (apply (zlen_tabulate (fun i => f (col ls i))); exact HN).
  destruct (lanewise_zip_run c _ _ out_ty P n t ls ds N d0 f func e fuel G Hsrc Hout Hw Hsz) as (Hz & ys & tl & s' & R1 & R2 & R3 & R4 & R5).
  - rewrite Hw. exact Hfn.
  - exact Hcap.
  - exact Hf.
  - exact HGl.
  - intros j Hj. exists (col ls j). split; [eapply col_column; [eapply Forall_and_l; exact Hls|exact Hj]|]. apply (znth_tabulate (fun i => f (col ls i))). exact Hj.
  - split; [exact Hz|]. rewrite Hw in R2, R5. exists G, ys, tl, s'. do 4 (split; [assumption|]). split; [exact HGl|]. split; [|exact R5].
    intros k r Hr. assert (Hk : 0 <= k < N).
    { destruct Hls as [|l ls [Hl HPl] Hls]; [contradiction|]. inversion Hr as [|? x ? ? Hx]; subst. apply (znth_Some_lt _ _ _ Hx). }
    rewrite (column_unique ls k r (col ls k) Hr (col_column ls N k (Forall_and_l _ _ _ Hls) Hk)).
    apply (znth_tabulate (fun i => f (col ls i))). exact Hk.
Qed.

Lemma c82_zip_fill : forall (A B E : Type) (c : config) (ty out_ty : vty) (n : nat) (ls ds : list (list A)) (N : Z) (d0 : B)
    (f : list A -> B) (func : E -> tuple (list A) (S n) -> list B * E) (e : E) (P : A -> Prop) (t : tuple (SIMDIter A (list A)) (S n)) (fuel : nat) (buf : list B),
  vty_ok ty -> vty_ok out_ty -> WIDTH out_ty = WIDTH ty -> SIZE out_ty = SIZE ty ->
  Forall (fun l => zlen l = N /\ Forall P l) ls -> Forall (fun d => zlen d = WIDTH ty /\ Forall P d) ds -> length ls = length ds ->
  PipeSpec.items (S n) t = map2 simd_iter ls ds ->
  (N + WIDTH ty) * SIZE ty <= isize_max -> N < Z.of_nat fuel -> lane_by_lane (WIDTH ty) P (S n) f func -> N <= zlen buf ->
  let rest := rest_many (blanket_unsafe c (si_array (slice_array c ty)) (si_iterable c (slice_array c ty))) n in
  let m := zipmap_iterator c (zip_iterator (slice_iterator c ty) rest) out_ty d0 func in
  zip (slice_iterator c ty) rest t = Ok t /\
  exists buf' s', scalar_fill c m d0 fuel (mkSIMDMap t e) buf = Ok (buf', s') /\ zlen buf' = zlen buf /\
    (forall k r, column ls k r -> znth buf' k = Some (f r)) /\ (forall k, N <= k -> znth buf' k = znth buf k).
Proof.
  intros A B E c ty out_ty n ls ds N d0 f func e P t fuel buf Hty Hout Hw Hsz Hls Hds Hlen Ht Hcap Hf Hfn Hbuf rest m.
  destruct (slices_run c ty out_ty n ls ds N d0 f func e P t fuel Hty Hout Hw Hsz Hls Hds Hlen Ht Hcap Hf Hfn) as (Hz & G & ys & tl & s' & R1 & R2 & R3 & R4 & R5 & R6 & _).
  fold rest in Hz, R1. fold m in R1. split; [exact Hz|]. exists (G ++ skipn (length G) buf), s'. pose proof (zlen_nonneg G).
  split; [rewrite <- R3; apply (fill_complete c m d0 _ ys tl s' fuel buf R1); [change (wd m) with (WIDTH out_ty); rewrite Hw; exact R2|exact R4|rewrite R3; lia]|].
  split; [rewrite zlen_app, zlen_skipn; unfold zlen in *; lia|]. split.
  - intros k r Hr. pose proof (R6 k r Hr) as Hk. pose proof (znth_Some_lt _ _ _ Hk). rewrite znth_app by lia. replace (k <? zlen G) with true by lia. exact Hk.
  - intros k Hk. rewrite znth_app by lia. replace (k <? zlen G) with false by lia. replace (length G) with (Z.to_nat N) by (unfold zlen in R5; lia). rewrite znth_skipn_at by lia. f_equal. lia.
Qed.

Lemma visited_sized {A : Type} (w : Z) (vs : list (list A)) t : sized w vs t -> Forall (fun v => zlen v = w) (visited vs t).
Proof. intros [H1 H2]. unfold visited. apply Forall_app. split; [exact H1|]. destruct t as [[p n]|]; constructor; [apply (H2 p n eq_refl)|constructor]. Qed.

Lemma c82_zip_sum : forall (fadd : elty -> Z -> Z -> Z) (b : bool) (A E : Type) (i : ity) (ty out_ty : vty) (n : nat) (ls ds : list (list A)) (N : Z) (d0 : Z)
    (f : list A -> Z) (func : E -> tuple (list A) (S n) -> list Z * E) (e : E) (P : A -> Prop) (t : tuple (SIMDIter A (list A)) (S n)) (fuel : nat),
  let c := mkConfig Release b in
  (0 < ibytes i)%nat -> vty_ok ty -> vty_ok out_ty -> WIDTH out_ty = WIDTH ty -> SIZE out_ty = SIZE ty ->
  Forall (fun l => zlen l = N /\ Forall P l) ls -> Forall (fun d => zlen d = WIDTH ty /\ Forall P d) ds -> length ls = length ds ->
  PipeSpec.items (S n) t = map2 simd_iter ls ds ->
  (N + WIDTH ty) * SIZE ty <= isize_max -> N < Z.of_nat fuel -> lane_by_lane (WIDTH ty) P (S n) f func ->
  let rest := rest_many (blanket_unsafe c (si_array (slice_array c ty)) (si_iterable c (slice_array c ty))) n in
  let m := zipmap_iterator c (zip_iterator (slice_iterator c ty) rest) out_ty d0 func in
  let reduce := simd_reduce m fuel (mkSIMDMap t e) (splat (WIDTH out_ty) 0) (fun a v => map2 (fun x y => wrap i (x + y)) a v) in
  zip (slice_iterator c ty) rest t = Ok t /\
  exists acc s' out pad r, reduce = Ok (acc, s') /\
    zlen out = N /\ (forall k row, column ls k row -> znth out k = Some (f row)) /\
    zlen pad = WIDTH ty * ((N + WIDTH ty - 1) / WIDTH ty) - N /\ (forall k row, 0 <= k < zlen pad -> column ds k row -> znth pad k = Some (f row)) /\
    in_ity i r /\ (exists q, r = total out + total pad + q * imod i) /\
    (forall s, In s (x86_sum ++ unknown_sum) -> s_el s = EInt i -> s_ty s = out_ty -> sum_portable fadd c s acc = Ok r) /\
    (forall x, In x x86_sum_optimized -> xs_el x = EInt i -> xs_ty x = out_ty -> sum_optimized c x acc = Ok r).
Proof.
  intros fadd b A E i ty out_ty n ls ds N d0 f func e P t fuel c Hi Hty Hout Hw Hsz Hls Hds Hlen Ht Hcap Hf Hfn rest m reduce.
  destruct (slices_run c ty out_ty n ls ds N d0 f func e P t fuel Hty Hout Hw Hsz Hls Hds Hlen Ht Hcap Hf Hfn) as (Hz & G & ys & tl & s' & R1 & R2 & R3 & R4 & R5 & R6 & pad & R7 & R8 & R9 & R10).
  fold rest in Hz, R1. fold m in R1. split; [exact Hz|]. pose proof (vty_ok_facts _ Hty) as (H1 & _).
  pose proof (emits_reduce m _ _ _ _ (cp_emits _ _ _ _ _ R1) fuel (splat (WIDTH out_ty) 0) (fun a v => map2 (fun x y => wrap i (x + y)) a v) R4) as Hred. fold reduce in Hred.
  destruct (splat_in i (WIDTH out_ty) 0 ltac:(lia) (zero_in i Hi)) as [Hz1 Hz2].
  destruct (fold_total i (WIDTH out_ty) Hi (visited ys tl) (splat (WIDTH out_ty) 0) Hz1 Hz2) as [Hacc Hcong]; [rewrite Hw; apply visited_sized; exact R2|].
  set (acc := fold_left (map2 (fun x y => wrap i (x + y))) (visited ys tl) (splat (WIDTH out_ty) 0)) in *.
  assert (Ht0 : total (splat (WIDTH out_ty) 0) = 0) by (unfold splat; apply total_repeat0). rewrite Ht0, Z.add_0_l in Hcong.
  assert (HtG : total (concat (visited ys tl)) = total G + total pad).
  { rewrite R7, !total_app, <- R8. assert (HG2 : total G = total (firstn (Z.to_nat (WIDTH ty * zlen ys)) G) + total (skipn (Z.to_nat (WIDTH ty * zlen ys)) G)) by (rewrite <- total_app, firstn_skipn; reflexivity). rewrite HG2. ring. }
  rewrite HtG in Hcong. destruct (sums_of i fadd b (total G + total pad) Hi) as [S1 S2]. fold c in S1, S2.
  exists acc, s', G, pad, (wrap i (total G + total pad)). split; [exact Hred|]. split; [exact R5|]. split; [exact R6|]. split; [exact R9|]. split; [exact R10|].
  split; [apply wrap_in; exact Hi|]. split; [exact (wrap_cong i (total G + total pad))|]. split.
  - intros s Hs He Hst. apply S1; [exact Hs|exact He|rewrite Hst; exact Hacc|exact Hcong].
  - intros x Hx He Hst. apply S2; [exact Hx|exact He|rewrite Hst; exact Hacc|exact Hcong].
Qed.

Lemma total_ext : forall (a b : list Z), zlen a = zlen b -> (forall k x, znth a k = Some x -> znth b k = Some x) -> total a = total b.
Proof.
  intros a b Hl H. f_equal. apply znth_ext; [exact Hl|]. intros k Hk. destruct (znth_exists a k ltac:(lia)) as [x Hx]. rewrite Hx. symmetry. apply H. exact Hx.
Qed.

Lemma total_zero : forall (a : list Z), (forall k x, znth a k = Some x -> x = 0) -> total a = 0.
Proof.
  induction a as [|x a IH]; intros H; [reflexivity|]. cbn [total fold_right]. fold (total a). rewrite (H 0 x eq_refl), IH; [reflexivity|].
  intros k y Hy. pose proof (znth_Some_lt _ _ _ Hy). apply (H (k + 1) y). unfold znth in *. replace (k <? 0) with false in Hy by lia. replace (k + 1 <? 0) with false by lia.
  replace (Z.to_nat (k + 1)) with (S (Z.to_nat k)) by lia. exact Hy.
Qed.

Lemma znth_splat {X : Type} (x : X) n k : 0 <= k < n -> znth (splat n x) k = Some x.
Proof.
  intros H. unfold znth, splat. replace (k <? 0) with false by lia. rewrite (nth_error_nth' _ x) by (rewrite repeat_length; lia). f_equal. apply nth_repeat.
Qed.

Lemma cong_product (M a b x y : Z) : cong M a x -> cong M b y -> cong M (a * b) (x * y).
Proof. intros [p ->] [q ->]. exists (x * q + p * y + p * q * M). ring. Qed.

Lemma c82_squares : forall (fadd : elty -> Z -> Z -> Z) (b : bool) (i : ity) (l1 l2 : list Z) (d : Z) (fuel : nat),
  let c := mkConfig Release b in
  let sub_sq x y := let z := wrap i (x - y) in wrap i (z * z) in
  let rest ty := rest_one (blanket_unsafe c (si_array (slice_array c ty)) (si_iterable c (slice_array c ty))) in
  let m ty := zipmap_iterator c (zip_iterator (slice_iterator c ty) (rest ty)) ty 0
                (fun (u : unit) p => (map2 sub_sq (fst p) (snd p), u)) in
  let run ty := bind (zip (slice_iterator c ty) (rest ty) (simd_iter l1 (splat (WIDTH ty) d), simd_iter l2 (splat (WIDTH ty) d)))
                  (fun st => simd_reduce (m ty) fuel (mkSIMDMap st tt) (splat (WIDTH ty) 0) (fun a v => map2 (fun x y => wrap i (x + y)) a v)) in
  let squares := total (map (fun p => (fst p - snd p) * (fst p - snd p)) (combine l1 l2)) in
  (0 < ibytes i)%nat -> zlen l1 = zlen l2 -> zlen l1 < Z.of_nat fuel ->
  exists r, in_ity i r /\ (exists q, r = squares + q * imod i) /\
  (forall s, In s (x86_sum ++ unknown_sum) -> s_el s = EInt i -> (zlen l1 + WIDTH (s_ty s)) * SIZE (s_ty s) <= isize_max ->
    exists acc s', run (s_ty s) = Ok (acc, s') /\ sum_portable fadd c s acc = Ok r) /\
  (forall x, In x x86_sum_optimized -> xs_el x = EInt i -> (zlen l1 + WIDTH (xs_ty x)) * SIZE (xs_ty x) <= isize_max ->
    exists acc s', run (xs_ty x) = Ok (acc, s') /\ sum_optimized c x acc = Ok r).
Proof.
  intros fadd b i l1 l2 d fuel c sub_sq rest m run squares Hi Hl Hfu. exists (wrap i squares). split; [apply wrap_in; exact Hi|]. split; [apply wrap_cong|].
  assert (Hlane : forall w, lane_by_lane w (fun _ => True) 1 (fun r => match r with [x; y] => sub_sq x y | _ => 0 end) (fun (u : unit) p => (map2 sub_sq (fst p) (snd p), u))).
  { intros w e [x y] H. cbn [PipeSpec.items fst snd] in *. destruct (Forall_inv H) as [Hx _]. destruct (Forall_inv (Forall_inv_tail H)) as [Hy _].
    split; [rewrite zlen_map2; congruence|]. intros k r Hr.
    repeat match goal with H : column _ _ _ |- _ => inversion H; clear H; subst | H : Forall2 _ _ _ |- _ => inversion H; clear H; subst end. erewrite znth_map2; eauto. }
  assert (Hrun : forall ty, vty_ok ty -> (zlen l1 + WIDTH ty) * SIZE ty <= isize_max -> exists acc s', run ty = Ok (acc, s') /\
     (forall s, In s (x86_sum ++ unknown_sum) -> s_el s = EInt i -> s_ty s = ty -> sum_portable fadd c s acc = Ok (wrap i squares)) /\
     (forall x, In x x86_sum_optimized -> xs_el x = EInt i -> xs_ty x = ty -> sum_optimized c x acc = Ok (wrap i squares))).
  { intros ty Hty Hcap. pose proof (vty_ok_facts _ Hty) as (H1 & _).
    assert (Hsp : zlen (splat (WIDTH ty) d) = WIDTH ty) by (unfold splat; rewrite zlen_repeat; lia).
    destruct (c82_zip_sum fadd b Z unit i ty ty 0 [l1; l2] [splat (WIDTH ty) d; splat (WIDTH ty) d] (zlen l1) 0 (fun r => match r with [x; y] => sub_sq x y | _ => 0 end)
      (fun (u : unit) p => (map2 sub_sq (fst p) (snd p), u)) tt (fun _ => True) (simd_iter l1 (splat (WIDTH ty) d), simd_iter l2 (splat (WIDTH ty) d)) fuel Hi Hty Hty eq_refl eq_refl)
      as (Hz & acc & s' & out & pad & r & Hred & Ho1 & Ho2 & Hp1 & Hp2 & Hr1 & [q Hr2] & S1 & S2).
    - repeat constructor; try lia; apply Forall_forall; trivial.
    - repeat constructor; try assumption; apply Forall_forall; trivial.
    - reflexivity.
    - reflexivity.
    - exact Hcap.
    - exact Hfu.
    - apply Hlane.
    - cbn [rest_many] in Hz, Hred. fold c in Hz, Hred, S1, S2. fold (rest ty) in Hz, Hred. exists acc, s'.
      assert (Hpad : total pad = 0).
      { apply total_zero. intros k x Hx. pose proof (znth_Some_lt _ _ _ Hx) as Hk.
        assert (Hs : znth (splat (WIDTH ty) d) k = Some d).
        { apply znth_splat. pose proof (zlen_nonneg l1). clear -Hk Hp1 H1 H. set (W := WIDTH ty) in *. clearbody W. nia. }
        rewrite (Hp2 k [d; d] Hk) in Hx by (repeat constructor; exact Hs). injection Hx as <-. unfold sub_sq. rewrite Z.sub_diag. cbv zeta.
        rewrite (wrap_id i 0 (zero_in i Hi)). apply (wrap_id i 0 (zero_in i Hi)). }
      assert (Hout : cong (imod i) (total out) squares).
      { rewrite (total_ext out (map2 sub_sq l1 l2)).
        - unfold squares. clear. revert l2. induction l1 as [|x l1 IH]; intros [|y l2]; cbn [map2 combine map total fold_right fst snd]; try apply cong_refl.
          fold (total (map2 sub_sq l1 l2)). fold (total (map (fun p => (fst p - snd p) * (fst p - snd p)) (combine l1 l2))). apply cong_add; [|apply IH].
          unfold sub_sq. eapply cong_trans; [apply wrap_cong|]. apply cong_product; apply wrap_cong.
        - rewrite zlen_map2 by exact Hl. exact Ho1.
        - intros k x Hx. pose proof (znth_Some_lt _ _ _ Hx) as Hk. destruct (znth_exists l1 k ltac:(lia)) as [x1 Hx1]. destruct (znth_exists l2 k ltac:(lia)) as [x2 Hx2].
          rewrite (Ho2 k [x1; x2]) in Hx by (repeat constructor; assumption). injection Hx as <-. apply znth_map2; assumption. }
      assert (Hr : r = wrap i squares).
      { rewrite <- (wrap_id i r Hr1). apply wrap_wraps. eapply cong_trans; [exists q; exact Hr2|]. rewrite Hpad, Z.add_0_r. exact Hout. }
      rewrite Hr in S1, S2. split; [unfold run; exact (eq_trans (f_equal (fun o => bind o (fun st => simd_reduce (m ty) fuel (mkSIMDMap st tt) (splat (WIDTH ty) 0) (fun a v => map2 (fun x y => wrap i (x + y)) a v))) Hz) Hred)|]. split; [exact S1|exact S2]. }
  destruct sum_types as [T1 T2]. split; intros s Hs He Hcap.
  - destruct (Hrun (s_ty s) (T1 s Hs) Hcap) as (acc & s' & R & S1 & _). exists acc, s'. split; [exact R|]. apply S1; [exact Hs|exact He|reflexivity].
  - destruct (Hrun (xs_ty s) (T2 s Hs) Hcap) as (acc & s' & R & _ & S2). exists acc, s'. split; [exact R|]. apply S2; [exact Hs|exact He|reflexivity].
Qed.
