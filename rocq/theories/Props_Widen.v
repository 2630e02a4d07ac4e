(** Properties: kernels that compute with wider lanes, on every target (C92). *)
From Coq Require Import String.
From Verif Require Import Base Spec VecSpec Vecs Iters Zip ZipSpec Stride GateTables GateSpec Gates Lanes OpTables Ops OpSpec PortTables Ports PortSpec Builds PipeSpec AvailSpec ExprSpec Exprs WidenSpec Widens.
Open Scope list_scope.
Open Scope Z_scope.
From Verif Require Import WidenProofs.

(** One call of the closure on full vectors: what every lane of the result is, in every
    build.  With AVX2 the second and third quarter of vectors of 8- and 16-bit lanes are
    exchanged; [u64] results are cut off at 2^31 - 1 in most lanes. *)
Theorem C92_vector : forall (fs : features) (tie : bool) (fop : arith -> elty -> Z -> Z -> Z) (fsqrt : elty -> Z -> Z) (narrow : Z -> Z) (e : elty) (t : ity) (x : expr) (args : list (list Z)) (l0 : packed_line),
  target fs -> In e widenable ->
  (forall o e u v, e = EF32 \/ e = EF64 -> lane e u -> lane e v -> lane e (fop o e u v)) -> (forall e u, e = EF32 \/ e = EF64 -> lane e u -> lane e (fsqrt e u)) ->
  type_of (wide e) (length args) x = Some (EInt t) -> natural fs (el_name e ++ "s") = [l0] ->
  args <> [] -> Forall (fun v => zlen v = p_width l0 /\ Forall (lane e) v) args ->
  exists r, widened_in fs tie fop fsqrt narrow e x args = Some (Ok r) /\ zlen r = p_width l0 /\
    forall k env, 0 <= k -> column args (if fs "avx2"%string && (bits_of e <=? 16) then quarter_swap (p_width l0) k else k) env ->
      let y := meaning (wide e) (length args) fop fsqrt x env in
      in_ity t y /\ znth r k = Some (if same_int t u64 then Z.min y (if (k <? p_width l0 / 2) && Z.even k then 4294967295 else 2147483647) else narrowed fs t y).
Proof. exact c92_vector. Qed.
Print Assumptions C92_vector.

(** [s.simd_iter(d).simd_map(|v| { let (a, b) = v.upcast(); f(a).saturating_downcast(f(b)) })
    .scalar_collect()] in the builds that keep the order: the collected scalars are the
    narrowed results of the scalar program.  [P] restricts the elements; it is needed only
    to keep [u64] results small. *)
Theorem C92_map_partial : forall (fs : features) (c : config) (tie : bool) (fop : arith -> elty -> Z -> Z -> Z) (fsqrt : elty -> Z -> Z) (narrow : Z -> Z) (e : elty) (t : ity) (x : expr) (P : Z -> Prop) (l d : list Z) (l0 l1 : packed_line)
    (E : Type) (func : E -> list Z -> list Z * E) (env : E) (fuel : nat),
  target fs -> In e widenable -> (forall a, P a -> lane e a) -> fs "avx2"%string = false \/ bits_of e = 32 ->
  (forall o e u v, e = EF32 \/ e = EF64 -> lane e u -> lane e v -> lane e (fop o e u v)) -> (forall e u, e = EF32 \/ e = EF64 -> lane e u -> lane e (fsqrt e u)) ->
  type_of (wide e) 1 x = Some (EInt t) -> (t = u64 -> forall a, P a -> meaning (wide e) 1 fop fsqrt x [a] <= 2147483647) ->
  natural fs (el_name e ++ "s") = [l0] -> natural fs (el_name (EInt (half t)) ++ "s") = [l1] ->
  Forall P l -> zlen d = p_width l0 -> Forall P d -> zlen l * p_size l0 + 32 <= isize_max -> (length l < fuel)%nat ->
  (forall e' v, zlen v = p_width l0 -> Forall P v -> widened_in fs tie fop fsqrt narrow e x [v] = Some (Ok (fst (func e' v)))) ->
  exists s', scalar_collect c (map_iterator c (slice_iterator c (vty_of l0)) (vty_of l1) 0 func) 0 fuel (mkSIMDMap (simd_iter l d) env) =
    Ok (map (fun a => Some (narrowed fs t (meaning (wide e) 1 fop fsqrt x [a]))) l, s').
Proof. exact c92_map_partial. Qed.
Print Assumptions C92_map_partial.

(** The same for any number of zipped slices. *)
Theorem C92_zip_partial : forall (fs : features) (c : config) (tie : bool) (fop : arith -> elty -> Z -> Z -> Z) (fsqrt : elty -> Z -> Z) (narrow : Z -> Z) (e : elty) (t : ity) (x : expr) (P : Z -> Prop) (n : nat) (ls ds : list (list Z)) (N : Z) (l0 l1 : packed_line)
    (E : Type) (func : E -> tuple (list Z) (S n) -> list Z * E) (env : E) (tp : tuple (SIMDIter Z (list Z)) (S n)) (fuel : nat),
  target fs -> In e widenable -> (forall a, P a -> lane e a) -> fs "avx2"%string = false \/ bits_of e = 32 ->
  (forall o e u v, e = EF32 \/ e = EF64 -> lane e u -> lane e v -> lane e (fop o e u v)) -> (forall e u, e = EF32 \/ e = EF64 -> lane e u -> lane e (fsqrt e u)) ->
  type_of (wide e) (S (S n)) x = Some (EInt t) -> (t = u64 -> forall row, length row = S (S n) -> Forall P row -> meaning (wide e) (S (S n)) fop fsqrt x row <= 2147483647) ->
  natural fs (el_name e ++ "s") = [l0] -> natural fs (el_name (EInt (half t)) ++ "s") = [l1] ->
  Forall (fun l => zlen l = N /\ Forall P l) ls -> Forall (fun d => zlen d = p_width l0 /\ Forall P d) ds -> length ls = length ds ->
  PipeSpec.items (S n) tp = map2 simd_iter ls ds -> N * p_size l0 + 32 <= isize_max -> N < Z.of_nat fuel ->
  (forall e' t, Forall (fun v => zlen v = p_width l0 /\ Forall P v) (PipeSpec.items (S n) t) -> widened_in fs tie fop fsqrt narrow e x (PipeSpec.items (S n) t) = Some (Ok (fst (func e' t)))) ->
  let rest := rest_many (blanket_unsafe c (si_array (slice_array c (vty_of l0))) (si_iterable c (slice_array c (vty_of l0)))) n in
  let m := zipmap_iterator c (zip_iterator (slice_iterator c (vty_of l0)) rest) (vty_of l1) 0 func in
  zip (slice_iterator c (vty_of l0)) rest tp = Ok tp /\
  exists out s', scalar_collect c m 0 fuel (mkSIMDMap tp env) = Ok (map Some out, s') /\
    zlen out = N /\ forall k r, column ls k r -> znth out k = Some (narrowed fs t (meaning (wide e) (S (S n)) fop fsqrt x r)).
Proof. exact c92_zip_partial. Qed.
Print Assumptions C92_zip_partial.

(** The same for the strides of a slice; with two strides and the closure
    [(aa.abs() + ba.abs()).saturating_downcast(ab.abs() + bb.abs())] this is the benchmark
    [zip_simd]. *)
Theorem C92_strides_partial : forall (fs : features) (c : config) (tie : bool) (fop : arith -> elty -> Z -> Z -> Z) (fsqrt : elty -> Z -> Z) (narrow : Z -> Z) (e : elty) (t : ity) (x : expr) (P : Z -> Prop) (n : nat) (l : list Z) (ds : list (list Z)) (x0 : Z) (l0 l1 : packed_line)
    (E : Type) (func : E -> tuple (list Z) (S n) -> list Z * E) (env : E) (fuel : nat),
  let count := Z.of_nat n + 2 in
  target fs -> In e widenable -> (forall a, P a -> lane e a) -> fs "avx2"%string = false \/ bits_of e = 32 ->
  (forall o e u v, e = EF32 \/ e = EF64 -> lane e u -> lane e v -> lane e (fop o e u v)) -> (forall e u, e = EF32 \/ e = EF64 -> lane e u -> lane e (fsqrt e u)) ->
  type_of (wide e) (S (S n)) x = Some (EInt t) -> (t = u64 -> forall row, length row = S (S n) -> Forall P row -> meaning (wide e) (S (S n)) fop fsqrt x row <= 2147483647) ->
  natural fs (el_name e ++ "s") = [l0] -> natural fs (el_name (EInt (half t)) ++ "s") = [l1] ->
  Forall P l -> zlen l * p_size l0 <= isize_max -> count * 33 <= 2 ^ 63 -> zlen ds = count -> Forall (fun d => zlen d = p_width l0 /\ Forall P d) ds -> (length l < fuel)%nat ->
  (forall e' t, Forall (fun v => zlen v = p_width l0 /\ Forall P v) (PipeSpec.items (S n) t) -> widened_in fs tie fop fsqrt narrow e x (PipeSpec.items (S n) t) = Some (Ok (fst (func e' t)))) ->
  let it := stride_iterator c (slice_array c (vty_of l0)) x0 in
  let rest := rest_many (blanket_unsafe c (ps_array c (slice_array c (vty_of l0)) x0) (ps_iterable c (slice_array c (vty_of l0)) x0)) n in
  let m := zipmap_iterator c (zip_iterator it rest) (vty_of l1) 0 func in
  exists tp : tuple (PackedStride Z (list Z)) (S n), stride l count ds = Ok (PipeSpec.items (S n) tp) /\ zip it rest tp = Ok tp /\
  exists out s', scalar_collect c m 0 fuel (mkSIMDMap tp env) = Ok (map Some out, s') /\
    zlen out = zlen l / count /\ forall k, 0 <= k < zlen out -> znth out k = Some (narrowed fs t (meaning (wide e) (S (S n)) fop fsqrt x (sub l (count * k) count))).
Proof. exact c92_strides_partial. Qed.
Print Assumptions C92_strides_partial.

(** With AVX2 the program exchanges the second and third quarter of every vector of 8- or
    16-bit results: wherever the results of the two elements differ the collected scalar is
    the wrong one. *)
Theorem C92_map_avx2_refuted : forall (fs : features) (c : config) (tie : bool) (fop : arith -> elty -> Z -> Z -> Z) (fsqrt : elty -> Z -> Z) (narrow : Z -> Z) (e : elty) (t : ity) (x : expr) (l d : list Z) (l0 l1 : packed_line)
    (E : Type) (func : E -> list Z -> list Z * E) (env : E) (fuel : nat),
  let g a := narrowed fs t (meaning (wide e) 1 fop fsqrt x [a]) in let w := p_width l0 in
  target fs -> In e widenable -> fs "avx2"%string = true -> bits_of e <= 16 ->
  (forall o e u v, e = EF32 \/ e = EF64 -> lane e u -> lane e v -> lane e (fop o e u v)) -> (forall e u, e = EF32 \/ e = EF64 -> lane e u -> lane e (fsqrt e u)) ->
  type_of (wide e) 1 x = Some (EInt t) -> natural fs (el_name e ++ "s") = [l0] -> natural fs (el_name (EInt (half t)) ++ "s") = [l1] ->
  Forall (lane e) l -> zlen d = w -> Forall (lane e) d -> zlen l * p_size l0 + 32 <= isize_max -> (length l < fuel)%nat ->
  (forall e' v, zlen v = w -> zlen (fst (func e' v)) = w) ->
  (forall e' v, zlen v = w -> Forall (lane e) v -> widened_in fs tie fop fsqrt narrow e x [v] = Some (Ok (fst (func e' v)))) ->
  exists out s', scalar_collect c (map_iterator c (slice_iterator c (vty_of l0)) (vty_of l1) 0 func) 0 fuel (mkSIMDMap (simd_iter l d) env) = Ok (map Some out, s') /\ zlen out = zlen l /\
    forall j k a b, 0 <= j -> w * (j + 1) <= zlen l -> 0 <= k < w -> znth l (w * j + k) = Some a -> znth l (w * j + quarter_swap w k) = Some b ->
      znth out (w * j + k) = Some (g b) /\ (g a <> g b -> znth out (w * j + k) <> Some (g a)).
Proof. exact c92_map_avx2_refuted. Qed.
Print Assumptions C92_map_avx2_refuted.

(** In builds with PACKUSWB (SSE2) or PACKUSDW (SSE4.1) unsigned 16- or 32-bit results of
    at least half the range become 0 instead of the largest value. *)
Theorem C92_unsigned_refuted : forall (fs : features) (c : config) (tie : bool) (fop : arith -> elty -> Z -> Z -> Z) (fsqrt : elty -> Z -> Z) (narrow : Z -> Z) (e : elty) (t : ity) (x : expr) (l d : list Z) (l0 l1 : packed_line)
    (E : Type) (func : E -> list Z -> list Z * E) (env : E) (fuel : nat),
  target fs -> In e widenable -> fs "avx2"%string = false -> t = u16 /\ fs "sse2"%string = true \/ t = u32 /\ fs "sse4.1"%string = true ->
  (forall o e u v, e = EF32 \/ e = EF64 -> lane e u -> lane e v -> lane e (fop o e u v)) -> (forall e u, e = EF32 \/ e = EF64 -> lane e u -> lane e (fsqrt e u)) ->
  type_of (wide e) 1 x = Some (EInt t) -> natural fs (el_name e ++ "s") = [l0] -> natural fs (el_name (EInt (half t)) ++ "s") = [l1] ->
  Forall (lane e) l -> zlen d = p_width l0 -> Forall (lane e) d -> zlen l * p_size l0 + 32 <= isize_max -> (length l < fuel)%nat ->
  (forall e' v, zlen v = p_width l0 -> Forall (lane e) v -> widened_in fs tie fop fsqrt narrow e x [v] = Some (Ok (fst (func e' v)))) ->
  exists out s', scalar_collect c (map_iterator c (slice_iterator c (vty_of l0)) (vty_of l1) 0 func) 0 fuel (mkSIMDMap (simd_iter l d) env) = Ok (map Some out, s') /\ zlen out = zlen l /\
    forall k a, znth l k = Some a -> let y := meaning (wide e) 1 fop fsqrt x [a] in imod t / 2 <= y <= imax t -> znth out k = Some 0 /\ clamp (half t) y = imax (half t) /\ 0 < imax (half t).
Proof. exact c92_unsigned_refuted. Qed.
Print Assumptions C92_unsigned_refuted.

(** The program [s.simd_iter(0).simd_map(..).scalar_collect()] in a build. *)
Definition collect_widened (fs : features) (e o : elty) (x : expr) (l : list Z) : option (list (option Z)) :=
  let c := mkConfig Debug true in
  match natural_of fs e, natural_of fs o with
  | Some n, Some n' =>
    match scalar_collect c (map_iterator c (slice_iterator c (vty_of n)) (vty_of n') 0
            (fun (u : unit) v => (match widened_in fs true (fun _ _ x _ => x) (fun _ x => x) (fun z => z) e x [v] with Some (Ok r) => r | _ => [] end, u)))
            0 60 (mkSIMDMap (simd_iter l (splat (p_width n) 0)) tt) with
    | Ok (out, _) => Some out
    | _ => None
    end
  | _, _ => None
  end.

(** Feature sets: none, up to SSE2 and up to AVX2. *)
Definition plain : features := fun _ => false.
Definition with_sse2 : features := fun s => existsb (String.eqb s) ["sse"; "sse2"]%string.
Definition haswell : features := fun s => existsb (String.eqb s) ["sse"; "sse2"; "sse3"; "ssse3"; "sse4.1"; "sse4.2"; "avx"; "avx2"]%string.

(** [v * 3] in 16 bits, saturated to 8: 85 and 86 are the last element that does not and the
    first that does saturate. *)
Example C92_map_case : let x := Arith Mul (Arg 0) (Splat (EInt u16) 3) in
  let l := [0; 1; 84; 85; 86; 100; 200; 255; 7; 8; 9; 10; 11; 12; 13; 14; 15; 99] in
  type_of (wide (EInt u8)) 1 x = Some (EInt u16) /\
  collect_widened plain (EInt u8) (EInt u8) x l = Some (map (fun a => Some (Z.min 255 (3 * a))) l) /\
  collect_widened with_sse2 (EInt u8) (EInt u8) x l = Some (map (fun a => Some (Z.min 255 (3 * a))) l).
Proof. cbv zeta. repeat split; vm_compute; reflexivity. Qed.

(** [v * v] of [i32] in 64 bits, saturated to 32, with 256-bit registers. *)
Example C92_map_avx2_case : let x := Arith Mul (Arg 0) (Arg 0) in let l := [0; -1; 46340; 46341; -2147483648; 2147483647; 3; -4; 5; 6] in
  collect_widened haswell (EInt i32) (EInt i32) x l = Some (map (fun a => Some (Z.min 2147483647 (a * a))) l).
Proof. cbv zeta. vm_compute. reflexivity. Qed.

(** 32 bytes times 3 with AVX2: the second and third quarter change places. *)
Example C92_map_avx2_refuted_case : let x := Arith Mul (Arg 0) (Splat (EInt u16) 3) in let l := map Z.of_nat (seq 0 32) in
  let tripled from := map (fun a => Some (3 * Z.of_nat a)) (seq from 8) in
  collect_widened haswell (EInt u8) (EInt u8) x l = Some (tripled 0 ++ tripled 16 ++ tripled 8 ++ tripled 24)%nat.
Proof. cbv zeta. vm_compute. reflexivity. Qed.

(** 255 * 200 = 51000 becomes 0 with SSE2 and 255 without. *)
Example C92_unsigned_refuted_case : let x := Arith Mul (Arg 0) (Splat (EInt u16) 200) in let l := [1; 2; 163; 164; 255] in
  collect_widened plain (EInt u8) (EInt u8) x l = Some [Some 200; Some 255; Some 255; Some 255; Some 255] /\
  collect_widened with_sse2 (EInt u8) (EInt u8) x l = Some [Some 200; Some 255; Some 255; Some 0; Some 0].
Proof. cbv zeta. repeat split; vm_compute; reflexivity. Qed.

(** The closure of [zip_simd] on two vectors, in three builds. *)
Example C92_zip_case : let closure fs a b := widened_in fs true (fun _ _ x _ => x) (fun _ x => x) (fun z => z) (EInt i32) add_magnitudes [a; b] in
  type_of (wide (EInt i32)) 2 add_magnitudes = Some (EInt u64) /\
  closure plain [-123; 7; 0; 1] [-123; -8; 9; 2147483646] = Some (Ok [246; 15; 9; 2147483647]) /\
  closure with_sse2 [-123; 7; 0; 1] [-123; -8; 9; 2147483646] = Some (Ok [246; 15; 9; 2147483647]) /\
  closure haswell [-123; 7; 0; 1; 2; 3; 4; 5] [-123; -8; 9; -10; 11; 12; 13; -2147483642] = Some (Ok [246; 15; 9; 11; 13; 15; 17; 2147483647]).
Proof. cbv zeta. repeat split; vm_compute; reflexivity. Qed.

(** A [u64] lane above 2^31 - 1 is kept in an even lane of the lower half only. *)
Example C92_vector_case : let closure fs a b := widened_in fs true (fun _ _ x _ => x) (fun _ x => x) (fun z => z) (EInt i32) add_magnitudes [a; b] in
  closure plain [-2147483648; -2147483648; -2147483648; -2147483648] [5; 5; 5; 5] = Some (Ok [2147483653; 2147483647; 2147483647; 2147483647]).
Proof. cbv zeta. vm_compute. reflexivity. Qed.

(** The benchmark [zip_simd] on 11 numbers: the odd element at the end is left out. *)
Example C92_strides_case : let c := mkConfig Debug true in let l := [-123; 5; 6; -1; 7; 0; 1073741823; -1073741824; 9; 1; 10] in
  let collect fs := match natural_of fs (EInt i32) with
    | Some n => match stride l 2 [splat (p_width n) 0; splat (p_width n) 0] with
      | Ok [p; q] => let a := slice_array c (vty_of n) in
          let m := zipmap_iterator c (zip_iterator (stride_iterator c a 0) (rest_one (blanket_unsafe c (ps_array c a 0) (ps_iterable c a 0)))) (vty_of n) 0
            (fun (u : unit) v => (match widened_in fs true (fun _ _ x _ => x) (fun _ x => x) (fun z => z) (EInt i32) add_magnitudes [fst v; snd v] with Some (Ok r) => r | _ => [] end, u)) in
          match scalar_collect c m 0 30 (mkSIMDMap (p, q) tt) with Ok (out, _) => Some out | _ => None end
      | _ => None end
    | None => None end in
  collect plain = Some (map Some [128; 7; 7; 2147483647; 10]) /\ collect haswell = Some (map Some [128; 7; 7; 2147483647; 10]).
Proof. cbv zeta. repeat split; vm_compute; reflexivity. Qed.
