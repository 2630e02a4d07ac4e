(** Properties: minimum and maximum of slices of floats on every target (C90). *)
From Coq Require Import String.
From Verif Require Import Base Spec VecSpec Vecs Iters GateTables GateSpec Gates Lanes Floats FloatSpec ArithSpec OpTables Ops OpSpec Builds AvailSpec ExprSpec Exprs.
Open Scope list_scope.
Open Scope Z_scope.
From Verif Require Import PeakProofs.

(** Rust's [min] and [max] of two scalars that are not NaN return one of them. *)
Theorem C90_scalar : forall (e : elty) (tie : bool) (x y : Z), e = EF32 \/ e = EF64 -> lane e x -> lane e y -> ~ is_nan (fmt_of e) x -> ~ is_nan (fmt_of e) y ->
  least (fmt_of e) x y (rust_fmin (fmt_of e) tie x y) /\ greatest (fmt_of e) x y (rust_fmax (fmt_of e) tie x y).
Proof. exact c90_scalar. Qed.
Print Assumptions C90_scalar.

(** [min] and [max] in every build, zeros of both signs included: in every lane without NaN
    one of the two arguments, and none is smaller (larger).  C78 has the stronger statement
    that builds agree bit for bit, which excludes zeros of opposite sign. *)
Theorem C90_lanes : forall (fs : features) (tie : bool) (o : op_impl) (a b : list Z), In o x86_cmp -> op_el o = EF32 \/ op_el o = EF64 ->
  zlen a = WIDTH (op_ty o) -> zlen b = WIDTH (op_ty o) -> Forall (fun x => lane (op_el o) x /\ ~ is_nan (fmt_of (op_el o)) x) a -> Forall (fun x => lane (op_el o) x /\ ~ is_nan (fmt_of (op_el o)) x) b ->
  exists m, op2_in fs tie o a b = Some (Ok m) /\ each_lane (if String.eqb (op_fn o) "min" then least (fmt_of (op_el o)) else greatest (fmt_of (op_el o))) a b m.
Proof. exact c90_lanes. Qed.
Print Assumptions C90_lanes.

(** The minimum (maximum) of a slice of floats without NaN, in every build:
    [l.simd_iter(u).simd_reduce(u, |a, v| a.max(v))] and [scalar_reduce(u, max)], with [u] the
    infinity in every lane, is an element of the slice and no element is beyond it. *)
Theorem C90_extremum : forall (fs : features) (c : config) (tie : bool) (e : elty) (l : list Z) (l0 : packed_line) (o : op_impl) (u : Z) (f : list Z -> list Z -> list Z) (g : Z -> Z -> Z) (fuel : nat),
  let fm := fmt_of e in let number x := lane e x /\ ~ is_nan fm x in let best := if String.eqb (op_fn o) "min" then least fm else greatest fm in
  target fs -> e = EF32 \/ e = EF64 -> natural fs (el_name e ++ "s") = [l0] -> In o x86_cmp -> op_vec o = p_vec l0 ->
  infinity_of_sign fm (if String.eqb (op_fn o) "min" then 0 else 1) u -> Forall number l -> zlen l * p_size l0 <= isize_max -> (length l < fuel)%nat ->
  (forall a v, zlen a = p_width l0 -> zlen v = p_width l0 -> Forall number a -> Forall number v -> op2_in fs tie o a v = Some (Ok (f a v))) ->
  (forall x y, number x -> number y -> best x y (g x y)) ->
  exists acc s' r, simd_reduce (slice_iterator c (vty_of l0)) fuel (simd_iter l (splat (p_width l0) u)) (splat (p_width l0) u) f = Ok (acc, s') /\
    scalar_reduce (p_width l0) acc u g = Ok r /\ (l = [] -> r = u) /\ (l <> [] -> In r l) /\
    Forall (fun x => if String.eqb (op_fn o) "min" then fvalue fm r <= fvalue fm x else fvalue fm x <= fvalue fm r) l.
Proof. exact c90_extremum. Qed.
Print Assumptions C90_extremum.

(** With a NaN in the slice builds disagree: for a vector of [x] followed by a vector of NaN
    the same expression is [x] where the instruction is missing, and where it is present the
    infinity, as if the slice had no numbers at all. *)
Theorem C90_nan_lost : forall (fs : features) (c : config) (tie : bool) (e : elty) (l0 : packed_line) (o : op_impl) (u x nan : Z) (f : list Z -> list Z -> list Z) (g : Z -> Z -> Z) (fuel : nat),
  let fm := fmt_of e in let w := Z.to_nat (p_width l0) in let l := repeat x w ++ repeat nan w in
  target fs -> e = EF32 \/ e = EF64 -> natural fs (el_name e ++ "s") = [l0] -> In o x86_cmp -> op_vec o = p_vec l0 ->
  infinity_of_sign fm (if String.eqb (op_fn o) "min" then 0 else 1) u -> lane e x -> ~ is_nan fm x -> lane e nan -> is_nan fm nan -> (length l < fuel)%nat ->
  (forall a v, zlen a = p_width l0 -> zlen v = p_width l0 -> Forall (lane e) a -> Forall (lane e) v -> op2_in fs tie o a v = Some (Ok (f a v))) ->
  g = (if String.eqb (op_fn o) "min" then rust_fmin fm tie else rust_fmax fm tie) ->
  exists acc s' r, simd_reduce (slice_iterator c (vty_of l0)) fuel (simd_iter l (splat (p_width l0) u)) (splat (p_width l0) u) f = Ok (acc, s') /\
    scalar_reduce (p_width l0) acc u g = Ok r /\ r = if fs (op_feat o) then u else x.
Proof. exact c90_nan_lost. Qed.
Print Assumptions C90_nan_lost.

Definition haswell : features := fun s => existsb (String.eqb s) ["sse"; "sse2"; "sse3"; "ssse3"; "sse4.1"; "sse4.2"; "avx"; "avx2"]%string.

(** The maximum of [l] in the natural vector of the target, from minus infinity. *)
Definition max_on (fs : features) (c : config) (l : list Z) : option (outcome Z) :=
  match natural_of fs EF32 with
  | Some n =>
    match find (fun o => String.eqb (op_vec o) (p_vec n) && String.eqb (op_fn o) "max") x86_cmp with
    | Some o =>
      let u := 4286578688 in
      match simd_reduce (slice_iterator c (vty_of n)) 30 (simd_iter l (splat (p_width n) u)) (splat (p_width n) u) (fun a v => match op2_in fs true o a v with Some (Ok r) => r | _ => [] end) with
      | Ok (acc, _) => Some (scalar_reduce (p_width n) acc u (rust_fmax fmt32 true))
      | _ => None
      end
    | None => None
    end
  | None => None
  end.

(** The maximum of [-1, -0.5, -3, -0.5, -8] is -0.5 in two builds. *)
Example C90_extremum_case : let c := mkConfig Debug true in let l := [3212836864; 3204448256; 3225419776; 3204448256; 3238002688] in
  max_on (fun _ => false) c l = Some (Ok 3204448256) /\ max_on haswell c l = Some (Ok 3204448256) /\
  Forall (fun x => lane EF32 x /\ ~ is_nan fmt32 x) l /\ infinity_of_sign fmt32 1 4286578688 /\ In 3204448256 l.
Proof.
  cbv zeta. split; [vm_compute; reflexivity|]. split; [vm_compute; reflexivity|]. split; [repeat constructor; try (vm_compute; congruence); intros [H _]; vm_compute in H; congruence|]. split; [repeat split; vm_compute; congruence|right; left; reflexivity].
Qed.

(** [1, 1, 1, 1, 1, 1, 1, 1] followed by NaN: minus infinity with AVX, 1 without. *)
Example C90_nan_lost_case : let c := mkConfig Debug true in let nan := 2143289344 in
  max_on (fun _ => false) c (repeat 1065353216 4 ++ repeat nan 4) = Some (Ok 1065353216) /\
  max_on haswell c (repeat 1065353216 8 ++ repeat nan 8) = Some (Ok 4286578688) /\ is_nan fmt32 nan /\ ~ is_nan fmt32 1065353216.
Proof. cbv zeta. split; [vm_compute; reflexivity|]. split; [vm_compute; reflexivity|]. split; [split; vm_compute; congruence|intros [H _]; vm_compute in H; congruence]. Qed.

(** Zeros of opposite sign: either is returned. *)
Example C90_lanes_case : exists o, nth_error x86_cmp 13 = Some o /\ op_el o = EF32 /\ greatest fmt32 0 2147483648 0 /\ greatest fmt32 0 2147483648 2147483648 /\
  Forall (fun x => lane (op_el o) x /\ ~ is_nan (fmt_of (op_el o)) x) [0; 2147483648; 1065353216; 3212836864].
Proof. eexists. split; [reflexivity|]. split; [reflexivity|]. split; [repeat split; try tauto; vm_compute; congruence|]. split; [repeat split; try tauto; vm_compute; congruence|]. repeat constructor; try (vm_compute; congruence); intros [H _]; vm_compute in H; congruence. Qed.

Example C90_scalar_case : rust_fmax fmt32 true 1065353216 3212836864 = 1065353216 /\ rust_fmin fmt32 true 1065353216 3212836864 = 3212836864 /\ lane EF32 3212836864 /\ ~ is_nan fmt32 3212836864.
Proof. split; [vm_compute; reflexivity|]. split; [vm_compute; reflexivity|]. split; [split; vm_compute; congruence|intros [H _]; vm_compute in H; congruence]. Qed.
