(** The crate's own tests, run on the model.  This file is validation, not proof: it checks
    that the model computes what the authors of the crate expect of their code, in builds
    without optional features, with SSE4.2 and AVX, and with AVX2, in debug and release mode.
    Left out: [recip_f32s] with the RCPPS instruction, of which the model knows only the
    error bound (C67), and the tests of the unknown back-end, which are the same macros.
    The tests are evaluated when the file is compiled ([run_...] is the result), so that the
    proof checker need not repeat them. *)
From Coq Require Import String.
From Verif Require Import Base Vecs Lanes Iters Stride Zip GateTables GateSpec Gates Floats X86 X86Reg Tables Patterns Merge Shuffles OpTables Ops PortTables Ports Hops SumTables Sums Arith Builds ExprSpec Exprs.
Open Scope list_scope.
Open Scope Z_scope.

Definition haswell : features := fun s => existsb (String.eqb s) ["sse"; "sse2"; "sse3"; "ssse3"; "sse4.1"; "sse4.2"; "avx"; "avx2"]%string.
Definition targets : list features := [(fun _ => false); sandy_bridge; haswell].
Definition configs : list config := [mkConfig Debug true; mkConfig Release true; mkConfig Debug false; mkConfig Release false].
Definition integers : list elty := [EInt i8; EInt i16; EInt i32; EInt i64; EInt u8; EInt u16; EInt u32; EInt u64].
Definition numbers : list elty := integers ++ [EF32; EF64].
Definition is_signed (e : elty) : bool := match e with EInt t => isigned t | _ => true end.

(** A small whole number as a literal of an element type. *)
Definition lit (e : elty) (z : Z) : Z :=
  match e with EInt t => wrap t z | _ => let f := el_fmt e in f_with_sign f (z <? 0) (f_of_int f (Z.abs z)) end.
(** The integers from [a], [n] of them. *)
Definition ints (a : Z) (n : nat) : list Z := map (fun i => a + Z.of_nat i) (seq 0 n).

(** [assert_eq!] on vectors of an element type, scalars and lists. *)
Fixpoint eq_by {A : Type} (eq : A -> A -> bool) (a b : list A) : bool :=
  match a, b with
  | [], [] => true
  | x :: a', y :: b' => eq x y && eq_by eq a' b'
  | _, _ => false
  end.
Definition returns {A : Type} (eq : A -> A -> bool) (r : option (outcome A)) (a : A) : bool :=
  match r with Some (Ok x) => eq x a | _ => false end.
Definition vec_eq (e : elty) : list Z -> list Z -> bool := eq_by (rust_eq e).

(** The natural vector of an element type in a build, and the [interleave] and [halfs] of a
    vector. *)
Definition with_natural (fs : features) (e : elty) (k : string -> Z -> bool) : bool :=
  match natural_of fs e with Some n => k (p_vec n) (p_width n) | None => false end.
Definition inter (vec : string) {A : Type} (x y : A) : list A := match pattern_of x86_patterns vec with Some p => Patterns.interleave p x y | None => [] end.
Definition halves (vec : string) {A : Type} (x y : A) : list A := match pattern_of x86_patterns vec with Some p => halfs p x y | None => [] end.

(** src/intrin/hadd.rs:12-75 (10 tests), src/intrin/hsub.rs:12-75 (10 tests). *)
Definition hadd_test (fs : features) (c : config) (e : elty) : bool :=
  with_natural fs e (fun v w =>
    let run := hadd_in fs ieee_add ieee_sub c v in let k := lit e in
    returns (vec_eq e) (run (splat w (k 1)) (splat w (k 2))) (inter v (k 2) (k 4)) &&
    returns (vec_eq e) (run (inter v (k 1) (k 2)) (inter v (k 3) (k 4))) (inter v (k 3) (k 7))).
Definition hsub_test (fs : features) (c : config) (e : elty) : bool :=
  with_natural fs e (fun v w =>
    let run := hsub_in fs ieee_add ieee_sub c v in let k := lit e in
    returns (vec_eq e) (run (splat w (k 1)) (splat w (k 2))) (inter v (k 0) (k 0)) &&
    if is_signed e then returns (vec_eq e) (run (inter v (k 1) (k 2)) (inter v (k 3) (k 4))) (inter v (k (-1)) (k (-1)))
    else returns (vec_eq e) (run (inter v (k 2) (k 1)) (inter v (k 4) (k 3))) (inter v (k 1) (k 1))).
Definition run_hadd : bool := Eval vm_compute in
  forallb (fun fs => forallb (fun c => forallb (hadd_test fs c) numbers) configs) targets.
Example suite_hadd : run_hadd = true.
Proof. reflexivity. Qed.
Definition run_hsub : bool := Eval vm_compute in
  forallb (fun fs => forallb (fun c => forallb (hsub_test fs c) numbers) configs) targets.
Example suite_hsub : run_hsub = true.
Proof. reflexivity. Qed.

(** src/intrin/saturating_hadd.rs, src/intrin/saturating_hsub.rs (8 tests each); the large
    numbers of the tests are about 9/10 of the largest one. *)
Definition big (t : ity) : Z := match ibytes t, isigned t with
  | 1%nat, true => 100 | 2%nat, true => 30000 | 4%nat, true => 2000000000 | _, true => 9000000000000000000
  | 1%nat, false => 200 | 2%nat, false => 60000 | 4%nat, false => 4000000000 | _, false => 18000000000000000000 end.
Definition saturating_hadd_test (fs : features) (c : config) (e : elty) : bool :=
  match e with
  | EInt t => with_natural fs e (fun v w =>
    let run := saturating_hadd_in fs ieee_add ieee_sub c v in let ok := returns (vec_eq e) in
    ok (run (splat w 1) (splat w 2)) (inter v 2 4) && ok (run (inter v 1 2) (inter v 3 4)) (inter v 3 7) &&
    if isigned t then ok (run (inter v (- big t) (- big t)) (inter v (big t) (big t))) (inter v (imin t) (imax t))
    else ok (run (splat w (big t)) (splat w (big t))) (splat w (imax t)))
  | _ => false
  end.
Definition saturating_hsub_test (fs : features) (c : config) (e : elty) : bool :=
  match e with
  | EInt t => with_natural fs e (fun v w =>
    let run := saturating_hsub_in fs ieee_add ieee_sub c v in let ok := returns (vec_eq e) in
    ok (run (splat w 1) (splat w 2)) (inter v 0 0) &&
    if isigned t then ok (run (inter v 1 2) (inter v 3 4)) (inter v (-1) (-1)) &&
                      ok (run (inter v (- big t) (big t)) (inter v (big t) (- big t))) (inter v (imin t) (imax t))
    else ok (run (inter v 1 2) (inter v 3 4)) (inter v 0 0) && ok (run (inter v 2 1) (inter v 4 3)) (inter v 1 1))
  | _ => false
  end.
Definition run_saturating_hadd : bool := Eval vm_compute in
  forallb (fun fs => forallb (fun c => forallb (saturating_hadd_test fs c) integers) configs) targets.
Example suite_saturating_hadd : run_saturating_hadd = true.
Proof. reflexivity. Qed.
Definition run_saturating_hsub : bool := Eval vm_compute in
  forallb (fun fs => forallb (fun c => forallb (saturating_hsub_test fs c) integers) configs) targets.
Example suite_saturating_hsub : run_saturating_hsub = true.
Proof. reflexivity. Qed.

(** src/intrin/abs.rs:24-71 (6 tests), all of i8, every 997th (17th for floats) number of the others' ranges. *)
Definition abs_test (fs : features) (e : elty) (out : elty) (zs : list Z) : bool :=
  with_natural fs e (fun v w => with_natural fs out (fun v' _ =>
    forallb (fun z => returns (eq_by (eq_by (rust_eq out))) (vector_abs_in fs f_narrow v v' [splat w (lit e z)]) [splat w (lit out (Z.abs z))]) zs)).
Definition every (k a : Z) (n : nat) : list Z := map (fun i => a + k * Z.of_nat i) (seq 0 n).
Definition run_abs : bool := Eval vm_compute in
  forallb (fun fs =>
  abs_test fs (EInt i8) (EInt u8) (ints (-128) 255) && abs_test fs (EInt i16) (EInt u16) (every 997 (-32768) 66) && abs_test fs (EInt i32) (EInt u32) (every 997 (-65536) 132) &&
  abs_test fs (EInt i64) (EInt u64) (every 997 (-65536) 132) && abs_test fs EF32 EF32 (every 17 (-1024) 121) && abs_test fs EF64 EF64 (every 17 (-1024) 121)) targets.
Example suite_abs : run_abs = true.
Proof. reflexivity. Qed.

(** src/intrin/round.rs:36-226 (8 tests): [i], [i + 0.4], [i + 0.8] and the negative
    numbers, 9.8, 9.1 and 9.0. *)
Definition d04 (e : elty) : Z := match e with | EF32 => 1053609165 | _ => 4600877379321698714 end.
Definition d08 (e : elty) : Z := match e with | EF32 => 1061997773 | _ => 4605380978949069210 end.
Definition d98 (e : elty) : Z := match e with | EF32 => 1092406477 | _ => 4621706527598287258 end.
Definition d91 (e : elty) : Z := match e with | EF32 => 1091672474 | _ => 4621312462630892339 end.
(** Each input with its expected results of [round], [trunc], [ceil] and [floor]. *)
Definition round_inputs (e : elty) : list (Z * (Z * Z * Z * Z)) :=
  flat_map (fun i => [(lit e i, (i, i, i, i)); (ieee_add e (lit e i) (d04 e), (i, i, i + 1, i)); (ieee_add e (lit e i) (d08 e), (i + 1, i, i + 1, i))]) (ints 0 32) ++
  flat_map (fun i => [(lit e i, (i, i, i, i)); (ieee_sub e (lit e i) (d04 e), (i, i, i, i - 1)); (ieee_sub e (lit e i) (d08 e), (i - 1, i, i, i - 1))]) (ints (-31) 32) ++
  [(d98 e, (10, 9, 10, 9)); (d91 e, (9, 9, 10, 9)); (lit e 9, (9, 9, 9, 9))].
Definition round_test (fs : features) (e : elty) (inputs : list (Z * (Z * Z * Z * Z))) : bool :=
  with_natural fs e (fun v w =>
    let ok fn x r := match lookup x86_round v fn with Some o => returns (vec_eq e) (op1_in fs ieee_sqrt o (splat w x)) (splat w (lit e r)) | None => false end in
    forallb (fun q => let '(x, (r, t, c, f)) := q in ok "round" x r && ok "trunc" x t && ok "ceil" x c && ok "floor" x f)%string inputs).
Definition run_round : bool := Eval vm_compute in
  forallb (fun e => let inputs := round_inputs e in forallb (fun fs => round_test fs e inputs) targets) [EF32; EF64].
Example suite_round : run_round = true.
Proof. reflexivity. Qed.

(** src/intrin/sqrt.rs:21-37 (2 tests). *)
Definition d2999 (e : elty) : Z := match e with | EF32 => 1077931934 | _ => 4613935566441259467 end.
Definition d3001 (e : elty) : Z := match e with | EF32 => 1077940322 | _ => 4613940070040886837 end.
Definition sqrt_test (fs : features) (tie : bool) (e : elty) : bool :=
  with_natural fs e (fun v w =>
    match lookup x86_sqrt v "sqrt", lookup x86_cmp v "max", lookup x86_cmp v "min" with
    | Some o, Some mx, Some mn =>
      returns (vec_eq e) (op1_in fs ieee_sqrt o (splat w (lit e 1))) (splat w (lit e 1)) &&
      match op1_in fs ieee_sqrt o (splat w (lit e 9)) with
      | Some (Ok s) => returns (vec_eq e) (op2_in fs tie mx s (splat w (d2999 e))) s && returns (vec_eq e) (op2_in fs tie mn s (splat w (d3001 e))) s
      | _ => false
      end
    | _, _, _ => false
    end).
Definition run_sqrt : bool := Eval vm_compute in
  forallb (fun fs => forallb (fun tie => forallb (sqrt_test fs tie) [EF32; EF64]) [true; false]) targets.
Example suite_sqrt : run_sqrt = true.
Proof. reflexivity. Qed.

(** src/intrin/upcast.rs:33-83 (8 tests). *)
Definition upcast_test (fs : features) (e out : elty) : bool :=
  with_natural fs e (fun v _ => with_natural fs out (fun v' _ =>
    returns (eq_by (vec_eq out)) (upcast_in fs f_narrow v v' [inter v (lit e 1) (lit e 2)]) [inter v' (lit out 1) (lit out 2); inter v' (lit out 1) (lit out 2)])).
Definition run_upcast : bool := Eval vm_compute in
  forallb (fun fs => forallb (fun q => upcast_test fs (fst q) (snd q))
  [(EInt i8, EInt i16); (EInt u8, EInt u16); (EInt i16, EInt i32); (EInt u16, EInt u32); (EInt i32, EInt i64); (EInt i32, EF64); (EInt u32, EInt u64); (EF32, EF64)]) targets.
Example suite_upcast : run_upcast = true.
Proof. reflexivity. Qed.

(** src/intrin/eq.rs:78-95, src/arch/x86/intrin/eq.rs:136-171: every vector with an [eq_mask]. *)
Definition eq_test (fs : features) (o : op_impl) : bool :=
  let e := op_el o in let v := op_vec o in let w := WIDTH (op_ty o) in let m := imax (lane_ity (op_out o)) in let mvec := match pattern_of x86_patterns v with Some _ => v | None => v end in
  let eq a b := op2_in fs true o a b in let ne a b := option_map (fun r => let! x := r in Ok (ne_mask_of o x)) (op2_in fs true o a b) in
  returns (eq_by Z.eqb) (eq (halves v (lit e 1) (lit e 0)) (splat w (lit e 0))) (halves mvec 0 m) && returns (eq_by Z.eqb) (eq (inter v (lit e 1) (lit e 0)) (splat w (lit e 1))) (inter mvec m 0) &&
  returns (eq_by Z.eqb) (ne (halves v (lit e 1) (lit e 0)) (splat w (lit e 0))) (halves mvec m 0) && returns (eq_by Z.eqb) (ne (inter v (lit e 1) (lit e 0)) (splat w (lit e 1))) (inter mvec 0 m).
Definition run_eq : bool := Eval vm_compute in
  forallb (fun fs => forallb (eq_test fs) x86_eq) targets.
Example suite_eq : run_eq = true.
Proof. reflexivity. Qed.

(** The element type of a vector type. *)
Definition el_of (vec : string) : elty :=
  match find (fun l => String.eqb (p_vec l) vec) x86_packed with
  | Some l => match find (fun e => String.eqb (el_name e) (p_el l)) numbers with Some e => e | None => EF64 end
  | None => EF64
  end.
Definition lane_bytes (e : elty) (x : Z) : list Z := to_bytes (ibytes (lane_ity e)) x.
Definition bytes_eq : list (list Z) -> list (list Z) -> bool := eq_by (eq_by Z.eqb).

(** src/intrin/merge.rs:118-140, src/arch/x86/intrin/merge.rs:53-: every vector. *)
Definition merge_test (fs : features) (c : config) (m : merge_impl) : bool :=
  let v := mi_name m in let w := WIDTH (mi_ty m) in let e := el_of v in let x := lane_bytes e (lit e 30) in let y := lane_bytes e (lit e 5) in
  let a := splat w x in let b := splat w y in let ok := returns bytes_eq in
  ok (merge_interleaved_in fs c m a b) (inter v x y) && ok (merge_interleaved_in fs c m b a) (inter v y x) && ok (merge_halves_in fs c m a b) (halves v x y) && ok (merge_halves_in fs c m b a) (halves v y x) &&
  forallb (fun i => match pattern_of x86_patterns v with
    | Some p => match partition_portable p x y i, partition_portable p y x i with
      | Ok r, Ok r' => ok (merge_partitioned_in fs c m a b i) r && ok (merge_partitioned_in fs c m b a i) r'
      | _, _ => false end
    | None => false end) (ints 0 (Z.to_nat w)).
Definition run_merge : bool := Eval vm_compute in
  forallb (fun fs => forallb (fun c => forallb (merge_test fs c) x86_merges) configs) targets.
Example suite_merge : run_merge = true.
Proof. reflexivity. Qed.

(** src/arch/x86/intrin/swizzle.rs:84-: [flip] of every vector;
    src/intrin/endian.rs:93-106, src/arch/x86/intrin/endian.rs:83-: [swap_bytes]. *)
Definition flip_test (fs : features) (s : shuffle_impl) : bool :=
  let v := sh_name s in let e := el_of v in let x := lane_bytes e (lit e 0) in let y := lane_bytes e (lit e 1) in
  returns bytes_eq (flip_in fs s (inter v x y)) (inter v y x).
Definition swap_bytes_test (fs : features) (s : shuffle_impl) : bool :=
  let v := sh_name s in let e := el_of v in let x := lane_bytes e (lit e 33) in let y := lane_bytes e (lit e 92) in
  returns bytes_eq (swap_bytes_in fs s (inter v x y)) (inter v (rev x) (rev y)).
Definition run_flip : bool := Eval vm_compute in
  forallb (fun fs => forallb (flip_test fs) x86_swizzles) targets.
Example suite_flip : run_flip = true.
Proof. reflexivity. Qed.
Definition run_swap_bytes : bool := Eval vm_compute in
  forallb (fun fs => forallb (swap_bytes_test fs) x86_swap_bytes) targets.
Example suite_swap_bytes : run_swap_bytes = true.
Proof. reflexivity. Qed.

(** src/intrin/popcnt.rs:38-53, src/arch/x86/intrin/popcnt.rs:80-: every vector. *)
(** Floats are summed in one configuration only. *)
Definition is_debug (c : config) : bool := match c with mkConfig Release false => false | _ => true end.
Definition ok_eq (r : outcome Z) (z : Z) : bool := match r with Ok x => x =? z | _ => false end.
Definition popcnt_test (c : config) (optimized : bool) (p : popcnt_impl) : bool :=
  let w := WIDTH (c_ty p) in let bits := w * SIZE (c_ty p) * 8 in let ones := splat w (wrap (c_el p) 1) in let all := splat w (wrap (c_el p) (-1)) in
  ok_eq (count_ones c optimized p ones) w && ok_eq (let! z := count_zeroes c optimized p ones in let! o := count_ones c optimized p ones in uadd c z o) bits &&
  ok_eq (count_ones c optimized p all) bits && ok_eq (count_zeroes c optimized p all) 0.
Definition run_popcnt : bool := Eval vm_compute in
  forallb (fun c => forallb (fun o => forallb (popcnt_test c o) x86_popcnt) [true; false]) configs.
Example suite_popcnt : run_popcnt = true.
Proof. reflexivity. Qed.

(** src/intrin/sum.rs:49-81, src/arch/x86/intrin/sum.rs:284-318: every vector.  For integers
    the loop of the test makes one round, with [min / 64 + 1] in every lane;
    for floats three of its 200 rounds, in one configuration. *)
Definition sum_test (fs : features) (c : config) (s : fold_impl) : bool :=
  let w := WIDTH (s_ty s) in let e := s_el s in
  match e with
  | EInt t => let i := Z.quot (imin t) 64 + 1 in
    returns Z.eqb (sum_in fs ieee_add c (s_vec s) (splat w i)) (w * i) && returns Z.eqb (sum_upcast_in fs c (s_vec s) (splat w i)) (w * i)
  | _ => forallb (fun i =>
      match scalar_reduce w (splat w (lit e i)) (lit e 0) (ieee_add e) with
      | Ok r => returns (rust_eq e) (sum_in fs ieee_add c (s_vec s) (splat w (lit e i))) r
      | _ => false
      end && returns Z.eqb (sum_upcast_in fs c (s_vec s) (splat w (lit e i))) (w * i)) [-100; 7; 99]
  end.
Definition run_sum : bool := Eval vm_compute in
  forallb (fun fs => forallb (fun c => forallb (sum_test fs c) (filter (fun s => match s_el s with EInt _ => true | _ => negb (is_debug c) end) x86_sum)) configs) targets.
Example suite_sum : run_sum = true.
Proof. reflexivity. Qed.

(** src/arch/x86/vecs.rs:40-56: [product] of ones. *)
Definition run_product : bool := Eval vm_compute in
  forallb (fun l => let e := el_of (p_vec l) in
  match product (fun x y => match e with EInt t => if (imin t <=? x * y) && (x * y <=? imax t) then Ok (x * y) else Panic | _ => Ok (ieee_op "*" e x y) end) (lit e 1) (p_width l) (splat (p_width l) (lit e 1)) with
  | Ok r => rust_eq e r (lit e 1) | _ => false end) x86_packed.
Example suite_product : run_product = true.
Proof. reflexivity. Qed.

(** src/intrin/transmute.rs:103-133 (10 tests). *)
Definition run_transmute : bool := Eval vm_compute in
  forallb (fun fs => forallb (fun e => with_natural fs e (fun v w => let a := splat w (lane_bytes e (lit e 1)) in
  forallb (fun k => with_natural fs k (fun v' w' => bytes_eq (be_as (mkVty w (Z.of_nat (ibytes (lane_ity e)))) (be_as (mkVty w' (Z.of_nat (ibytes (lane_ity k)))) a)) a)) integers)) numbers) targets.
Example suite_transmute : run_transmute = true.
Proof. reflexivity. Qed.

(** src/iters.rs:800-833 [bitcast_map_width_doubles], [_quadruples], [_octuples], on a
    little-endian target. *)
(** Every element of a collected vector is written, and they are these. *)
Definition is_list (out : list (option Z)) (l : list Z) : bool := eq_by (fun x y => match x, y with Some p, Some q => p =? q | _, _ => false end) out (map Some l).
Definition bitcast_test (fs : features) (c : config) (t : ity) : bool :=
  match natural_of fs (EInt i64), natural_of fs (EInt t) with
  | Some n, Some m =>
    let it := map_iterator c (slice_iterator c (vty_of n)) (vty_of m) 0 (fun (u : unit) v => (lanes_of t (bytes_of i64 v), u)) in
    match scalar_collect c it 0 30 (mkSIMDMap (simd_iter [1; 2; 3; 4; 5] (splat (p_width n) 0)) tt) with
    | Ok (out, _) => is_list out (flat_map (fun x => x :: repeat 0 (8 / ibytes t - 1)) [1; 2; 3; 4; 5])
    | _ => false
    end
  | _, _ => false
  end.
Definition run_bitcast : bool := Eval vm_compute in
  forallb (fun fs => forallb (fun c => forallb (bitcast_test fs c) [u32; u16; u8]) configs) targets.
Example suite_bitcast : run_bitcast = true.
Proof. reflexivity. Qed.

(** src/stride.rs:287-327: [scalar_load], [vector_load], [vector_iter]. *)
Definition extract0 (r : outcome (list Z)) : outcome Z := let! v := r in extract (zlen v) v 0.
Definition stride_test (fs : features) (c : config) : bool :=
  match natural_of fs (EInt u8), natural_of fs (EInt u64) with
  | Some n8, Some n =>
    let arr8 := slice_array c (vty_of n8) in let z8 := splat (p_width n8) 0 in let '(a8, b8) := stride_two [1; 2; 3; 4] (z8, z8) in
    let arr := slice_array c (vty_of n) in let x := ints 1 16 in let z := splat (p_width n) 0 in let '(a, b) := stride_two x (z, z) in
    let '(a', b') := stride_two x (splat (p_width n) 1, splat (p_width n) 2) in
    ok_eq (ps_load_scalar c arr8 a8 0) 1 && ok_eq (ps_load_scalar c arr8 a8 1) 3 && ok_eq (ps_load_scalar c arr8 b8 0) 2 && ok_eq (ps_load_scalar c arr8 b8 1) 4 &&
    ok_eq (extract0 (ps_load c arr 0 a 0)) 1 && ok_eq (extract0 (ps_load c arr 0 a 1)) 3 && ok_eq (extract0 (ps_load c arr 0 b 0)) 2 && ok_eq (extract0 (ps_load c arr 0 b 1)) 4 &&
    match drain_next (stride_iterator c arr 0) 30 a', drain_next (stride_iterator c arr 0) 30 b' with
    | Ok (va, _), Ok (vb, _) => negb (Nat.eqb (length va) 0) && negb (Nat.eqb (length vb) 0) && forallb (forallb (fun s => s mod 2 =? 1)) va && forallb (forallb (fun s => s mod 2 =? 0)) vb
    | _, _ => false
    end
  | _, _ => false
  end.
Definition run_stride : bool := Eval vm_compute in
  forallb (fun fs => forallb (stride_test fs) configs) targets.
Example suite_stride : run_stride = true.
Proof. reflexivity. Qed.

(** tests/iters.rs: [in_place_mutation], [simd_reduce]. *)
Definition in_place_test (fs : features) (c : config) : bool :=
  match natural_of fs EF32 with
  | Some n => forallb (fun len =>
      let l := map (lit EF32) (ints 0 (Z.to_nat len)) in let half x := ieee_op "/" EF32 x (lit EF32 2) in
      match simd_for_each c (vty_of n) 0 (fun (u : unit) v => (map half v, u)) 30 (simd_iter l (splat (p_width n) (lit EF32 0))) tt with
      | Ok (s, _) => vec_eq EF32 (si_data s) (map half l) | _ => false
      end) [p_width n - 1; p_width n; p_width n + 1]
  | None => false
  end.
Definition add_vec (e : elty) (a b : list Z) : list Z := zipw (fun x y => match e with EInt t => wrap t (x + y) | _ => ieee_add e x y end) a b.
Definition mul_vec (e : elty) (a b : list Z) : list Z := zipw (fun x y => match e with EInt t => wrap t (x * y) | _ => ieee_op "*" e x y end) a b.
Definition sub_vec (e : elty) (a b : list Z) : list Z := zipw (fun x y => match e with EInt t => wrap t (x - y) | _ => ieee_sub e x y end) a b.
Definition reduce_test (fs : features) (c : config) : bool :=
  match natural_of fs (EInt u32) with
  | Some n => let z := splat (p_width n) 0 in
    match simd_reduce (slice_iterator c (vty_of n)) 200 (simd_iter (repeat 2 129) z) z (add_vec (EInt u32)) with
    | Ok (acc, _) => returns Z.eqb (sum_in fs ieee_add c (p_vec n) acc) (2 * 129) | _ => false
    end
  | None => false
  end.
Definition run_iters : bool := Eval vm_compute in
  forallb (fun fs => forallb (fun c => in_place_test fs c && reduce_test fs c) configs) targets.
Example suite_iters : run_iters = true.
Proof. reflexivity. Qed.

(** tests/kernel.rs: 8 integer types, 2 float types, slices of 0 to 15 elements (0 and 5 floats, in one
    configuration). *)
Definition kernel_test (fs : features) (c : config) (e : elty) (len : nat) : bool :=
  match natural_of fs e with
  | Some n =>
    let ty := vty_of n in let z := splat (p_width n) (lit e 0) in
    let rest := rest_one (blanket_unsafe c (si_array (slice_array c ty)) (si_iterable c (slice_array c ty))) in
    let it := zipmap_iterator c (zip_iterator (slice_iterator c ty) rest) ty (lit e 0) (fun (u : unit) p => (mul_vec e (sub_vec e (fst p) (snd p)) (sub_vec e (fst p) (snd p)), u)) in
    let s := (simd_iter (repeat (lit e 3) len) z, simd_iter (repeat (lit e 1) len) z) in
    match zip (slice_iterator c ty) rest s with
    | Ok t =>
      match scalar_fill c it (lit e 0) 30 (mkSIMDMap t tt) (repeat (lit e 0) len) with
      | Ok (out, _) => vec_eq e out (repeat (lit e 4) len) | _ => false
      end &&
      match simd_reduce it 30 (mkSIMDMap t tt) z (add_vec e) with
      | Ok (acc, _) => returns (rust_eq e) (sum_in fs ieee_add c (p_vec n) acc) (lit e (Z.of_nat len * 4)) | _ => false
      end
    | _ => false
    end
  | None => false
  end.
Definition run_kernel : bool := Eval vm_compute in
  forallb (fun fs => forallb (fun c => forallb (fun e => forallb (kernel_test fs c e) (seq 0 16)) integers) configs && forallb (fun e => forallb (kernel_test fs (mkConfig Release false) e) [0; 5]%nat) [EF32; EF64]) targets.
Example suite_kernel : run_kernel = true.
Proof. reflexivity. Qed.

(** tests/zip.rs: [zipped_stride_iters], with the assertions of its closure on the last lanes,
    on 9 * 20 numbers. *)
Fixpoint cycle (n : nat) (l : list Z) : list Z := match n with O => [] | S n' => l ++ cycle n' l end.
Definition last_lane (v : list Z) (z : Z) : bool := ok_eq (extract (zlen v) v (zlen v - 1)) z.
Definition determinants (fs : features) (c : config) (t : ity) (matrix : list Z) (det : Z) : bool :=
  match natural_of fs (EInt t) with
  | Some n =>
    let ty := vty_of n in let z := splat (p_width n) 0 in let e := EInt t in let arr := slice_array c ty in
    let un := blanket_unsafe c (ps_array c arr 0) (ps_iterable c arr 0) in
    let rest := rest_cons un (rest_cons un (rest_cons un (rest_cons un (rest_cons un (rest_cons un (rest_cons un (rest_one un))))))) in
    let '(s0, s1, s2, s3, s4, s5, s6, s7, s8) := stride_nine (cycle 20 matrix) (z, z, z, z, z, z, z, z, z) in
    let mul3 x y w := mul_vec e (mul_vec e x y) w in
    let f := fun (ok : bool) q => let '(a, (b, (cc, (d, (ee, (ff, (g, (h, i)))))))) := q in
      (sub_vec e (sub_vec e (sub_vec e (add_vec e (add_vec e (mul3 a ee i) (mul3 b ff g)) (mul3 cc d h)) (mul3 cc ee g)) (mul3 b d i)) (mul3 a ff h),
       ok && forallb (fun q => last_lane (fst q) (snd q)) (combine [a; b; cc; d; ee; ff; g; h; i] matrix)) in
    let it := zipmap_iterator c (zip_iterator (stride_iterator c arr 0) rest) ty 0 f in
    match zip (stride_iterator c arr 0) rest (s0, (s1, (s2, (s3, (s4, (s5, (s6, (s7, s8)))))))) with
    | Ok s => match scalar_collect c it 0 60 (mkSIMDMap s true) with
      | Ok (out, s') => sm_env s' && Nat.eqb (length out) 20 && forallb (fun x => match x with Some y => y =? det | None => false end) out | _ => false end
    | _ => false
    end
  | None => false
  end.
Definition run_zipped_strides : bool := Eval vm_compute in
  forallb (fun fs => forallb (fun c => determinants fs c i16 [1; 2; 3; 4; 5; 6; 7; 8; 9] 0 && determinants fs c i64 [1; 0; 0; 0; 5; 4; 2; 3; 0] (-12)) configs) targets.
Example suite_zipped_strides : run_zipped_strides = true.
Proof. reflexivity. Qed.

(** tests/zip.rs: [zipped_heterogeneous_iters], a stride zipped with a slice, 128 numbers,
    and [zip_simd_reduce]. *)
Definition heterogeneous_test (fs : features) (c : config) : bool :=
  match natural_of fs (EInt i8) with
  | Some n =>
    let ty := vty_of n in let z := splat (p_width n) 0 in let e := EInt i8 in let arr := slice_array c ty in
    let data := cycle 16 [1; 2; 3; 4; 5; 6; 7; 8] in let '(a, b) := stride_two data (z, z) in
    let rest := rest_one (blanket_unsafe c (si_array arr) (si_iterable c arr)) in
    let it := zipmap_iterator c (zip_iterator (stride_iterator c arr 0) rest) ty 0 (fun (u : unit) p => (mul_vec e (fst p) (snd p), u)) in
    let run s k := match zip (stride_iterator c arr 0) rest (s, simd_iter (repeat k 64) z) with
      | Ok t => match scalar_collect c it 0 200 (mkSIMDMap t tt) with Ok (out, _) => out | _ => [] end | _ => [] end in
    is_list (run a 3) (cycle 16 [3; 9; 15; 21]) && is_list (run b 7) (cycle 16 [14; 28; 42; 56])
  | None => false
  end.
Definition zip_reduce_test (fs : features) (c : config) : bool :=
  match natural_of fs (EInt u32) with
  | Some n =>
    let ty := vty_of n in let z := splat (p_width n) 0 in let e := EInt u32 in
    let rest := rest_one (blanket_unsafe c (si_array (slice_array c ty)) (si_iterable c (slice_array c ty))) in
    match simd_reduce (zip_iterator (slice_iterator c ty) rest) 200 (simd_iter (repeat 2 129) z, simd_iter (repeat 3 129) z) z (fun acc p => add_vec e acc (mul_vec e (fst p) (snd p))) with
    | Ok (acc, _) => returns Z.eqb (sum_in fs ieee_add c (p_vec n) acc) (2 * 3 * 129) | _ => false
    end
  | None => false
  end.
Definition run_zip : bool := Eval vm_compute in
  forallb (fun fs => forallb (fun c => heterogeneous_test fs c && zip_reduce_test fs c) configs) targets.
Example suite_zip : run_zip = true.
Proof. reflexivity. Qed.
