(** Properties: horizontal operations (C41, C40). *)
From Coq Require Import String.
From Verif Require Import Base Spec VecSpec Vecs Lanes X86 X86Reg OpTables OpSpec Ops PortTables Hops.
Open Scope list_scope.
Open Scope Z_scope.
From Verif Require Import HopProofs.

(** C41: [hadd], portable version, every type of both back-ends: unless a debug build
    meets an overflowing pair, the result is [a0+a1, b0+b1, a2+a3, b2+b3, ...], sums
    taken modulo the lane type (hence exact when they fit). *)
Theorem C41_hadd : forall (fadd fsub : elty -> Z -> Z -> Z) (c : config) (o : hop_impl) (a b : list Z), In o (x86_hadd ++ unknown_hadd) ->
  zlen a = WIDTH (h_ty o) -> zlen b = WIDTH (h_ty o) ->
  (forall t, h_el o = EInt t -> build c = Debug -> each_pair (fun x y => in_ity t (x + y)) a /\ each_pair (fun x y => in_ity t (x + y)) b) ->
  exists r, hop_portable fadd fsub c o a b = Ok r /\
    horizontal (fun x y => match h_el o with EInt t => wrap t (x + y) | e => fadd e x y end) a b r.
Proof. exact c41_hadd. Qed.
Print Assumptions C41_hadd.

Example C41_hadd_case : exists o, In o unknown_hadd /\ h_vec o = "u8x16"%string /\
  let a := [1;2;3;4;5;6;7;8;9;10;11;12;13;14;200;100] in let b := [0;255;1;1;1;1;1;1;1;1;1;1;1;1;1;1] in
  hop_portable (fun _ u _ => u) (fun _ u _ => u) (mkConfig Release false) o a b = Ok [3;255;7;2;11;2;15;2;19;2;23;2;27;2;44;2].
Proof. eexists. split; [apply (nth_error_In _ 3); reflexivity|]. split; vm_compute; reflexivity. Qed.

(** C41: the same for [hsub], with differences. *)
Theorem C41_hsub : forall (fadd fsub : elty -> Z -> Z -> Z) (c : config) (o : hop_impl) (a b : list Z), In o (x86_hsub ++ unknown_hsub) ->
  zlen a = WIDTH (h_ty o) -> zlen b = WIDTH (h_ty o) ->
  (forall t, h_el o = EInt t -> build c = Debug -> each_pair (fun x y => in_ity t (x - y)) a /\ each_pair (fun x y => in_ity t (x - y)) b) ->
  exists r, hop_portable fadd fsub c o a b = Ok r /\
    horizontal (fun x y => match h_el o with EInt t => wrap t (x - y) | e => fsub e x y end) a b r.
Proof. exact c41_hsub. Qed.
Print Assumptions C41_hsub.

Example C41_hsub_case : exists o, In o x86_hsub /\ h_vec o = "i32x4"%string /\
  hop_portable (fun _ u _ => u) (fun _ u _ => u) (mkConfig Debug false) o [1;2;-3;4] [50;20;30;40] = Ok [-1;30;-7;-10].
Proof. eexists. split; [apply (nth_error_In _ 15); reflexivity|]. split; vm_compute; reflexivity. Qed.

(** C41: in a debug build an integer pair whose sum (difference) leaves the lane type
    makes the portable version panic. *)
Theorem C41_overflow_panics : forall (fadd fsub : elty -> Z -> Z -> Z) (c : config) (o : hop_impl) (t : ity) (a b : list Z), build c = Debug -> h_el o = EInt t ->
  zlen a = WIDTH (h_ty o) -> zlen b = WIDTH (h_ty o) ->
  (In o (x86_hadd ++ unknown_hadd) -> ~ (each_pair (fun x y => in_ity t (x + y)) a /\ each_pair (fun x y => in_ity t (x + y)) b) -> hop_portable fadd fsub c o a b = Panic) /\
  (In o (x86_hsub ++ unknown_hsub) -> ~ (each_pair (fun x y => in_ity t (x - y)) a /\ each_pair (fun x y => in_ity t (x - y)) b) -> hop_portable fadd fsub c o a b = Panic).
Proof. exact c41_overflow_panics. Qed.
Print Assumptions C41_overflow_panics.

Example C41_overflow_case : exists o, In o x86_hsub /\ h_el o = EInt u32 /\
  hop_portable (fun _ u _ => u) (fun _ u _ => u) (mkConfig Debug false) o [1;2;4;3] [50;20;40;30] = Panic /\
  hop_portable (fun _ u _ => u) (fun _ u _ => u) (mkConfig Release false) o [1;2;4;3] [50;20;40;30] = Ok [4294967295;30;1;10].
Proof. eexists. split; [apply (nth_error_In _ 3); reflexivity|]. split; [reflexivity|]. split; vm_compute; reflexivity. Qed.

(** C41: the shuffle + horizontal-add implementations of [hadd] (f32x4, f64x2, f32x8,
    f64x4, i16x8, i32x4, i16x16, i32x8) produce exactly the layout of the portable
    code, with integer sums modulo the lane type. *)
Theorem C41_hadd_optimized : forall (fadd : elty -> Z -> Z -> Z) (x : xhop) (a b : list Z), In x (x86_hadd_optimized fadd) ->
  (forall e u v, e = EF32 \/ e = EF64 -> in_ity (lane_ity e) u -> in_ity (lane_ity e) v -> in_ity (lane_ity e) (fadd e u v)) ->
  int_vector (WIDTH (xh_ty x)) (lane_ity (xh_el x)) a -> int_vector (WIDTH (xh_ty x)) (lane_ity (xh_el x)) b ->
  horizontal (fun u v => match xh_el x with EInt t => wrap t (u + v) | e => fadd e u v end) a b (hop_optimized x a b).
Proof. exact c41_hadd_optimized. Qed.
Print Assumptions C41_hadd_optimized.

(** C41: the same for [hsub]. *)
Theorem C41_hsub_optimized : forall (fsub : elty -> Z -> Z -> Z) (x : xhop) (a b : list Z), In x (x86_hsub_optimized fsub) ->
  (forall e u v, e = EF32 \/ e = EF64 -> in_ity (lane_ity e) u -> in_ity (lane_ity e) v -> in_ity (lane_ity e) (fsub e u v)) ->
  int_vector (WIDTH (xh_ty x)) (lane_ity (xh_el x)) a -> int_vector (WIDTH (xh_ty x)) (lane_ity (xh_el x)) b ->
  horizontal (fun u v => match xh_el x with EInt t => wrap t (u - v) | e => fsub e u v end) a b (hop_optimized x a b).
Proof. exact c41_hsub_optimized. Qed.
Print Assumptions C41_hsub_optimized.

Example C41_hsub_optimized_case :
  exists x, In x (x86_hsub_optimized (fun _ u _ => u)) /\ xh_vec x = "i32x8"%string /\
    hop_optimized x [9;1;8;2;7;3;6;4] [90;10;80;20;70;30;60;40] = [8;80;6;60;4;40;2;20].
Proof. eexists. split; [apply (nth_error_In _ 7); reflexivity|]. split; vm_compute; reflexivity. Qed.

(** C40: [saturating_hadd] clamps the exact sum of each pair: portable version, every
    type of both back-ends, both build modes. *)
Theorem C40_saturating_hadd : forall (fadd fsub : elty -> Z -> Z -> Z) (c : config) (o : hop_impl) (a b : list Z), In o (x86_saturating_hadd ++ unknown_saturating_hadd) ->
  zlen a = WIDTH (h_ty o) -> zlen b = WIDTH (h_ty o) ->
  exists t r, h_el o = EInt t /\ hop_portable fadd fsub c o a b = Ok r /\ horizontal (fun x y => clamp t (x + y)) a b r.
Proof. exact c40_saturating_hadd. Qed.
Print Assumptions C40_saturating_hadd.

Example C40_saturating_hadd_case : exists o, In o unknown_saturating_hadd /\ h_el o = EInt u16 /\
  hop_portable (fun _ u _ => u) (fun _ u _ => u) (mkConfig Debug false) o [1;2;65535;1;3;4;5;6] [10;20;30;40;50;60;40000;30000] = Ok [3;30;65535;70;7;110;11;65535].
Proof. eexists. split; [apply (nth_error_In _ 2); reflexivity|]. split; vm_compute; reflexivity. Qed.

(** C40: [saturating_hsub] clamps the exact difference of each pair. *)
Theorem C40_saturating_hsub : forall (fadd fsub : elty -> Z -> Z -> Z) (c : config) (o : hop_impl) (a b : list Z), In o (x86_saturating_hsub ++ unknown_saturating_hsub) ->
  zlen a = WIDTH (h_ty o) -> zlen b = WIDTH (h_ty o) ->
  exists t r, h_el o = EInt t /\ hop_portable fadd fsub c o a b = Ok r /\ horizontal (fun x y => clamp t (x - y)) a b r.
Proof. exact c40_saturating_hsub. Qed.
Print Assumptions C40_saturating_hsub.

Example C40_saturating_hsub_case : exists o, In o x86_saturating_hsub /\ h_el o = EInt i16 /\
  hop_portable (fun _ u _ => u) (fun _ u _ => u) (mkConfig Debug false) o [1;2;-32768;1;3;4;5;6] [10;20;32767;-1;50;60;7;7] = Ok [-1;-10;-32768;32767;-1;-10;-1;0].
Proof. eexists. split; [apply (nth_error_In _ 18); reflexivity|]. split; vm_compute; reflexivity. Qed.

(** C40: the optimised [saturating_hadd] and [saturating_hsub] (i16x8, i16x16) give the
    same result. *)
Theorem C40_saturating_h_optimized : forall (x : xhop) (a b : list Z),
  int_vector (WIDTH (xh_ty x)) (lane_ity (xh_el x)) a -> int_vector (WIDTH (xh_ty x)) (lane_ity (xh_el x)) b ->
  (In x x86_saturating_hadd_optimized -> horizontal (fun u v => clamp (lane_ity (xh_el x)) (u + v)) a b (hop_optimized x a b)) /\
  (In x x86_saturating_hsub_optimized -> horizontal (fun u v => clamp (lane_ity (xh_el x)) (u - v)) a b (hop_optimized x a b)).
Proof. exact c40_saturating_h_optimized. Qed.
Print Assumptions C40_saturating_h_optimized.

(** Concrete cases. *)
Example hadd_i16x8_nontrivial :
  exists x, nth_error (x86_hadd_optimized (fun _ u _ => u)) 4 = Some x /\
    hop_optimized x [1; 2; 3; 4; 5; 6; 32767; 1] [10; 20; 30; 40; 50; 60; 70; 80] = [3; 30; 7; 70; 11; 110; -32768; 150].
Proof. eexists. split; [reflexivity|vm_compute; reflexivity]. Qed.

Example hadd_portable_nontrivial : forall o, nth_error x86_hadd 15 = Some o ->
  h_vec o = "i32x4"%string /\
  hop_portable (fun _ u _ => u) (fun _ u _ => u) (mkConfig Debug false) o [1; 2; 3; 4] [10; 20; 30; 40] = Ok [3; 30; 7; 70] /\
  hop_portable (fun _ u _ => u) (fun _ u _ => u) (mkConfig Debug false) o [1; 2; 2147483647; 4] [10; 20; 30; 40] = Panic /\
  hop_portable (fun _ u _ => u) (fun _ u _ => u) (mkConfig Release false) o [1; 2; 2147483647; 4] [10; 20; 30; 40] = Ok [3; 30; -2147483645; 70].
Proof. intros o H. inversion H; subst o. repeat split; vm_compute; reflexivity. Qed.

Example saturating_hadd_nontrivial :
  exists x, nth_error x86_saturating_hadd_optimized 0 = Some x /\
    hop_optimized x [1; 2; 3; 4; -32768; -1; 32767; 1] [10; 20; 30; 40; 50; 60; 70; 80] = [3; 30; 7; 70; -32768; 110; 32767; 150].
Proof. eexists. split; [reflexivity|vm_compute; reflexivity]. Qed.
