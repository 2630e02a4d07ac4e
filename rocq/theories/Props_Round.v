(** Properties: rounding and square root (C50, C56). *)
From Coq Require Import String.
From Verif Require Import Base Spec VecSpec Vecs Lanes Floats FloatSpec X86 OpTables OpSpec Ops.
Open Scope list_scope.
Open Scope Z_scope.
From Verif Require Import RoundProofs.

(** C50, directed rounding: [ceil], [floor] and [trunc] round every lane correctly
    (sign of zero, infinities and NaN included), and the instruction gives the same
    bits as the portable code, for every type of both back-ends. *)
Theorem C50_directed : forall (fsqrt : elty -> Z -> Z) (o : op_impl) (a : list Z), In o (x86_round ++ unknown_round) -> op_fn o <> "round"%string ->
  int_vector (WIDTH (op_ty o)) (lane_ity (op_el o)) a ->
  let f := match op_el o with EF64 => fmt64 | _ => fmt32 end in
  exists r, portable1 fsqrt o a = Some (Ok r) /\ (forall r', optimized1 fsqrt o a = Some r' -> r' = r) /\ (In o x86_round -> optimized1 fsqrt o a <> None) /\
    Forall2 (rounds f (if String.eqb (op_fn o) "ceil" then ceil_of f else if String.eqb (op_fn o) "floor" then floor_of f else trunc_of f)) a r.
Proof. exact c50_directed. Qed.
Print Assumptions C50_directed.

Example C50_directed_case : exists o, In o x86_round /\ op_fn o = "ceil"%string /\
  optimized1 (fun _ x => x) o [1075838976; 3191878451; 2139095040; 2143289345] = Some [1077936128; 2147483648; 2139095040; 2143289345].
Proof. exists (nth 1 x86_round (mkOp "" "" (mkVty 0 0) EF32 EF32 "" "" "" [] [])). split; [vm_compute; tauto|]. repeat split; vm_compute; reflexivity. Qed.

(** C50, [round]: both implementations return a nearest integral number in every
    lane, and the same bits unless some lane is half way between two integers.  There the
    portable code goes away from zero, as documented, and the instruction to the even
    neighbour, which is all that is missing; see the refutation. *)
Theorem C50_round_partial : forall (fsqrt : elty -> Z -> Z) (o : op_impl) (a : list Z), In o (x86_round ++ unknown_round) -> op_fn o = "round"%string ->
  int_vector (WIDTH (op_ty o)) (lane_ity (op_el o)) a ->
  let f := match op_el o with EF64 => fmt64 | _ => fmt32 end in
  exists r, portable1 fsqrt o a = Some (Ok r) /\ Forall2 (rounds f (nearest_away_of f)) a r /\ (In o x86_round -> optimized1 fsqrt o a <> None) /\
    (forall r', optimized1 fsqrt o a = Some r' -> Forall2 (rounds f (nearest_even_of f)) a r' /\ (Forall (fun x => ~ tie f x) a -> r' = r)).
Proof. exact c50_round_partial. Qed.
Print Assumptions C50_round_partial.

Example C50_round_case : exists o, In o x86_round /\ op_fn o = "round"%string /\
  optimized1 (fun _ x => x) o [1076677837; 3222691021; 2139095040; 1] = Some [1077936128; 3221225472; 2139095040; 0].
Proof. exists (nth 0 x86_round (mkOp "" "" (mkVty 0 0) EF32 EF32 "" "" "" [] [])). split; [vm_compute; tauto|]. repeat split; vm_compute; reflexivity. Qed.

(** C50, refuted: on every float type, a vector of half-way numbers [2n + 1/2] rounds
    to [2n] with the instruction and to [2n + 1] in the portable code. *)
Theorem C50_round_ties_refuted : forall (fsqrt : elty -> Z -> Z) (o : op_impl) (x n : Z), In o x86_round -> op_fn o = "round"%string ->
  let f := match op_el o with EF64 => fmt64 | _ => fmt32 end in
  in_ity (lane_ity (op_el o)) x -> is_finite f x -> 0 <= n -> 2 * Z.abs (fvalue f x) = fone f * (2 * (2 * n) + 1) ->
  exists p r, portable1 fsqrt o (splat (WIDTH (op_ty o)) x) = Some (Ok (splat (WIDTH (op_ty o)) p)) /\
    optimized1 fsqrt o (splat (WIDTH (op_ty o)) x) = Some (splat (WIDTH (op_ty o)) r) /\
    Z.abs (fvalue f p) = fone f * (2 * n + 1) /\ Z.abs (fvalue f r) = fone f * (2 * n) /\ p <> r.
Proof. exact c50_round_ties_refuted. Qed.
Print Assumptions C50_round_ties_refuted.

(** The hypotheses are met by 2.5f32, and by -0.5f64. *)
Example C50_ties_case : in_ity (lane_ity EF32) 1075838976 /\ is_finite fmt32 1075838976 /\ 2 * Z.abs (fvalue fmt32 1075838976) = fone fmt32 * (2 * (2 * 1) + 1) /\
  is_finite fmt64 13826050856027422720 /\ 2 * Z.abs (fvalue fmt64 13826050856027422720) = fone fmt64 * (2 * (2 * 0) + 1).
Proof. repeat split; vm_compute; congruence. Qed.

(** C56: [sqrt] applies the (IEEE) square root to every lane, with the instruction and in
    the portable code, for every type of both back-ends.  The correctly rounded square
    root itself is a parameter. *)
Theorem C56_sqrt : forall (fsqrt : elty -> Z -> Z) (o : op_impl) (a : list Z), In o (x86_sqrt ++ unknown_sqrt) ->
  (forall e x, e = EF32 \/ e = EF64 -> in_ity (lane_ity e) x -> in_ity (lane_ity e) (fsqrt e x)) -> int_vector (WIDTH (op_ty o)) (lane_ity (op_el o)) a ->
  portable1 fsqrt o a = Some (Ok (map (fsqrt (op_el o)) a)) /\ (forall r, optimized1 fsqrt o a = Some r -> r = map (fsqrt (op_el o)) a) /\
  (In o x86_sqrt -> optimized1 fsqrt o a <> None).
Proof. exact c56_sqrt. Qed.
Print Assumptions C56_sqrt.

Example C56_case : exists o, In o x86_sqrt /\ optimized1 (fun _ x => x / 2) o [4;6;8;10;12;14;16;18] = Some [2;3;4;5;6;7;8;9].
Proof. exists (nth 0 x86_sqrt (mkOp "" "" (mkVty 0 0) EF32 EF32 "" "" "" [] [])). split; [vm_compute; tauto|]. vm_compute; reflexivity. Qed.
