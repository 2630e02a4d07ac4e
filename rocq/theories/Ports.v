(** Model of [abs], [upcast], [saturating_downcast] and [destride]: the portable
    versions (lane tables of PortTables.v) and the optimised ones (register
    programs).  A vector is the list of its lanes; a float lane is its bit pattern. *)
From Coq Require Import String.
From Verif Require Import Base Vecs Lanes Floats X86 X86Reg OpTables Ops Tables Patterns Merge PortTables.
Open Scope list_scope.
Open Scope Z_scope.

(** [x as f64] of an f32 bit pattern, and CVTPS2PD: same sign; infinities and NaNs map
    to infinities and (quieted) NaNs, every other number is represented exactly.
    src/arch/x86/intrin/upcast.rs [Upcast<f64x2> for f32x4]. *)
Definition f_widen (x : Z) : Z :=
  let s := x / 2 ^ 31 in
  let e := (x / 2 ^ 23) mod 2 ^ 8 in
  let m := x mod 2 ^ 23 in
  s * 2 ^ 63 +
  (if e =? 255 then 2047 * 2 ^ 52 + (if m =? 0 then 0 else Z.lor (m * 2 ^ 29) (2 ^ 51))
   else if e =? 0 then
     (if m =? 0 then 0
      else (Z.log2 m - 149 + 1023) * 2 ^ 52 + (m * 2 ^ (52 - Z.log2 m) - 2 ^ 52))
   else (e - 127 + 1023) * 2 ^ 52 + m * 2 ^ 29).
(** [x as f64] of an i32, and CVTDQ2PD.
    src/arch/x86/intrin/upcast.rs [Upcast<f64x2> for i32x4]. *)
Definition f64_of_int (x : Z) : Z :=
  f_with_sign fmt64 (x <? 0) (f_of_int fmt64 (Z.abs x)).
(** Float [.abs()]: the sign bit is cleared.
    src/arch/x86/intrin/abs.rs:26-34. *)
Definition f_abs (e : elty) (x : Z) : Z := x mod 2 ^ (8 * Z.of_nat (ibytes (lane_ity e)) - 1).

Section Ports.
(** [x as f32] of an f64 (rounding to nearest): unspecified. *)
Variable narrow : Z -> Z.

(** [x as T].  Conversions that the modelled code does not use are [None].
    src/arch/x86/intrin/upcast.rs, downcast.rs. *)
Definition cast (e e' : elty) (x : Z) : option Z :=
  match e, e' with
  | EInt _, EInt t' => Some (wrap t' x)
  | EF32, EF64 => Some (f_widen x)
  | EInt t, EF64 => if (ibytes t <=? 4)%nat then Some (f64_of_int x) else None
  | EF64, EF32 => Some (narrow x)
  | _, _ => None
  end.

(** The operations of PortTables.v on one lane.  The type of the lane is tracked;
    [None] if an operation does not apply to it (the code would not compile).
    src/arch/x86/intrin/abs.rs, upcast.rs, downcast.rs. *)
Fixpoint apply_pops (e : elty) (x : Z) (ops : list pop) : option (elty * Z) :=
  match ops with
  | [] => Some (e, x)
  | op :: ops' =>
    match op, e with
    | PMin n, EInt _ => apply_pops e (Z.min x n) ops'
    | PMax n, EInt _ => apply_pops e (Z.max x n) ops'
    | PAs e', _ => match cast e e' x with Some y => apply_pops e' y ops' | None => None end
    | PFAbs, EF32 => apply_pops e (f_abs e x) ops'
    | PFAbs, EF64 => apply_pops e (f_abs e x) ops'
    | POverflowingAbs, EInt t => apply_pops e (wrap t (Z.abs x)) ops'
    | PTransmute _ b, EInt _ => apply_pops (EInt b) (wrap b x) ops'
    | _, _ => None
    end
  end.

(** One argument of a [new].
    src/arch/x86/intrin/abs.rs, upcast.rs, downcast.rs. *)
Definition port_lane (p : port_impl) (args : list (list Z)) (l : nat * Z * list pop) : outcome Z :=
  let '(k, i, ops) := l in
  let! x := extract (WIDTH (pt_ty p)) (nth k args []) i in
  match apply_pops (pt_el p) x ops with Some (_, y) => Ok y | None => UB end.

(** Arguments are evaluated from left to right.
    E.g. src/arch/x86/intrin/abs.rs:30-33. *)
Fixpoint in_order {A B : Type} (f : A -> outcome B) (l : list A) : outcome (list B) :=
  match l with
  | [] => Ok []
  | x :: l' => let! y := f x in let! ys := in_order f l' in Ok (y :: ys)
  end.

(** A portable [abs], [upcast] or [saturating_downcast].
    src/arch/x86/intrin/abs.rs, upcast.rs, downcast.rs. *)
Definition port_portable (p : port_impl) (args : list (list Z)) : outcome (list (list Z)) :=
  in_order (in_order (port_lane p args)) (pt_body p).
End Ports.

(** An optimised implementation: source and result vectors, target feature and the
    instructions, on byte registers.
    src/arch/x86/intrin/abs.rs, upcast.rs, downcast.rs. *)
Record xport := mkXPort {
  xp_vec : string; xp_ty : vty; xp_el : elty;
  xp_outvec : string; xp_outty : vty; xp_out : elty; xp_feat : string;
  xp_run : list (list Z) -> list (list Z) }.
(** Such an implementation applied to vectors (src/arch/x86/intrin/abs.rs, upcast.rs, downcast.rs). *)
Definition port_optimized (x : xport) (args : list (list Z)) : list (list Z) :=
  map (lanes_of (lane_ity (xp_out x)))
    (xp_run x (map (bytes_of (lane_ity (xp_el x))) args)).

(** [Self::splat(transmute(0x7FFF...))]: all bits but the sign, [n] lanes.
    src/arch/x86/intrin/abs.rs:23. *)
Definition abs_mask (t : ity) (n : nat) : list Z := bytes_of t (repeat (imod t / 2 - 1) n).
(** Not in the source: a method with one vector (src/arch/x86/intrin/abs.rs, upcast.rs). *)
Definition on1 (f : list Z -> list (list Z)) (args : list (list Z)) : list (list Z) :=
  f (nth 0 args []).
(** Not in the source: a method with two vectors (src/arch/x86/intrin/downcast.rs). *)
Definition on2 (f : list Z -> list Z -> list Z) (args : list (list Z)) : list (list Z) :=
  [f (nth 0 args []) (nth 1 args [])].

(** src/arch/x86/intrin/abs.rs. *)
Definition x86_abs_optimized : list xport := [
  (* src/arch/x86/intrin/abs.rs:21-24 *)
  mkXPort "f32x4" (mkVty 4 4) EF32 "f32x4" (mkVty 4 4) EF32 "sse" (on1 (fun a => [pand a (abs_mask u32 4)]));
  (* src/arch/x86/intrin/abs.rs:42-45 *)
  mkXPort "f64x2" (mkVty 2 8) EF64 "f64x2" (mkVty 2 8) EF64 "sse2" (on1 (fun a => [pand a (abs_mask u64 2)]));
  (* src/arch/x86/intrin/abs.rs:61-64 *)
  mkXPort "f32x8" (mkVty 8 4) EF32 "f32x8" (mkVty 8 4) EF32 "avx" (on1 (fun a => [pand a (abs_mask u32 8)]));
  (* src/arch/x86/intrin/abs.rs:86-89 *)
  mkXPort "f64x4" (mkVty 4 8) EF64 "f64x4" (mkVty 4 8) EF64 "avx" (on1 (fun a => [pand a (abs_mask u64 4)]));
  (* src/arch/x86/intrin/abs.rs:107-110 *)
  mkXPort "i8x16" (mkVty 16 1) (EInt i8) "u8x16" (mkVty 16 1) (EInt u8) "ssse3" (on1 (fun a => [pabs i8 a]));
  (* src/arch/x86/intrin/abs.rs:140-143 *)
  mkXPort "i16x8" (mkVty 8 2) (EInt i16) "u16x8" (mkVty 8 2) (EInt u16) "ssse3" (on1 (fun a => [pabs i16 a]));
  (* src/arch/x86/intrin/abs.rs:165-168 *)
  mkXPort "i32x4" (mkVty 4 4) (EInt i32) "u32x4" (mkVty 4 4) (EInt u32) "ssse3" (on1 (fun a => [pabs i32 a]));
  (* src/arch/x86/intrin/abs.rs:186-189 *)
  mkXPort "i8x32" (mkVty 32 1) (EInt i8) "u8x32" (mkVty 32 1) (EInt u8) "avx2" (on1 (fun a => [pabs i8 a]));
  (* src/arch/x86/intrin/abs.rs:234-237 *)
  mkXPort "i16x16" (mkVty 16 2) (EInt i16) "u16x16" (mkVty 16 2) (EInt u16) "avx2" (on1 (fun a => [pabs i16 a]));
  (* src/arch/x86/intrin/abs.rs:266-269 *)
  mkXPort "i32x8" (mkVty 8 4) (EInt i32) "u32x8" (mkVty 8 4) (EInt u32) "avx2" (on1 (fun a => [pabs i32 a]))].

(** [(cvt(self), cvt(_mm_shuffle_epi32(self, 0x0E)))]
    src/arch/x86/intrin/upcast.rs:23-389. *)
Definition up128 (t1 t2 : ity) (n : nat) (g : Z -> Z) : list (list Z) -> list (list Z) :=
  on1 (fun a => [cvt t1 t2 n g a; cvt t1 t2 n g (shuffle_epi32 a 14)]).
(** [(cvt(_mm256_castsi256_si128(self)), cvt(_mm256_castsi256_si128(_mm256_permute4x64_epi64(self, 0x0E))))]
    src/arch/x86/intrin/upcast.rs:144-510. *)
Definition up256 (t1 t2 : ity) (n : nat) (g : Z -> Z) : list (list Z) -> list (list Z) :=
  on1 (fun a => [cvt t1 t2 n g (low128 a); cvt t1 t2 n g (low128 (permute4x64 a 14))]).
(** Integer widening keeps the value (src/arch/x86/intrin/upcast.rs:23-510). *)
Definition same (x : Z) : Z := x.

(** src/arch/x86/intrin/upcast.rs. *)
Definition x86_upcast_optimized : list xport := [
  (* src/arch/x86/intrin/upcast.rs:19-26 *)
  mkXPort "u8x16" (mkVty 16 1) (EInt u8) "u16x8" (mkVty 8 2) (EInt u16) "sse4.1" (up128 u8 u16 8 same);
  (* src/arch/x86/intrin/upcast.rs:54-61 *)
  mkXPort "i8x16" (mkVty 16 1) (EInt i8) "i16x8" (mkVty 8 2) (EInt i16) "sse4.1" (up128 i8 i16 8 same);
  (* src/arch/x86/intrin/upcast.rs:89-95 *)
  mkXPort "u16x8" (mkVty 8 2) (EInt u16) "u32x4" (mkVty 4 4) (EInt u32) "sse4.1" (up128 u16 u32 4 same);
  (* src/arch/x86/intrin/upcast.rs:115-121 *)
  mkXPort "i16x8" (mkVty 8 2) (EInt i16) "i32x4" (mkVty 4 4) (EInt i32) "sse4.1" (up128 i16 i32 4 same);
  (* src/arch/x86/intrin/upcast.rs:141-147 *)
  mkXPort "u8x32" (mkVty 32 1) (EInt u8) "u16x16" (mkVty 16 2) (EInt u16) "avx2" (up256 u8 u16 16 same);
  (* src/arch/x86/intrin/upcast.rs:191-206 *)
  mkXPort "i8x32" (mkVty 32 1) (EInt i8) "i16x16" (mkVty 16 2) (EInt i16) "avx2" (up256 i8 i16 16 same);
  (* src/arch/x86/intrin/upcast.rs:248-254 *)
  mkXPort "u16x16" (mkVty 16 2) (EInt u16) "u32x8" (mkVty 8 4) (EInt u32) "avx2" (up256 u16 u32 8 same);
  (* src/arch/x86/intrin/upcast.rs:283-298 *)
  mkXPort "i16x16" (mkVty 16 2) (EInt i16) "i32x8" (mkVty 8 4) (EInt i32) "avx2" (up256 i16 i32 8 same);
  (* src/arch/x86/intrin/upcast.rs:324-328 *)
  mkXPort "f32x4" (mkVty 4 4) EF32 "f64x2" (mkVty 2 8) EF64 "sse2" (up128 u32 u64 2 f_widen);
  (* src/arch/x86/intrin/upcast.rs:344-347 *)
  mkXPort "i32x4" (mkVty 4 4) (EInt i32) "f64x2" (mkVty 2 8) EF64 "sse2" (up128 i32 u64 2 f64_of_int);
  (* src/arch/x86/intrin/upcast.rs:363-369 *)
  mkXPort "i32x4" (mkVty 4 4) (EInt i32) "i64x2" (mkVty 2 8) (EInt i64) "sse4.1" (up128 i32 i64 2 same);
  (* src/arch/x86/intrin/upcast.rs:385-390 *)
  mkXPort "u32x4" (mkVty 4 4) (EInt u32) "u64x2" (mkVty 2 8) (EInt u64) "sse4.1" (up128 u32 u64 2 same);
  (* src/arch/x86/intrin/upcast.rs:406-422 *)
  mkXPort "f32x8" (mkVty 8 4) EF32 "f64x4" (mkVty 4 8) EF64 "avx2" (up256 u32 u64 4 f_widen);
  (* src/arch/x86/intrin/upcast.rs:440-455 *)
  mkXPort "i32x8" (mkVty 8 4) (EInt i32) "f64x4" (mkVty 4 8) EF64 "avx2" (up256 i32 u64 4 f64_of_int);
  (* src/arch/x86/intrin/upcast.rs:473-488 *)
  mkXPort "i32x8" (mkVty 8 4) (EInt i32) "i64x4" (mkVty 4 8) (EInt i64) "avx2" (up256 i32 i64 4 same);
  (* src/arch/x86/intrin/upcast.rs:506-511 *)
  mkXPort "u32x8" (mkVty 8 4) (EInt u32) "u64x4" (mkVty 4 8) (EInt u64) "avx2" (up256 u32 u64 4 same)].

(** The pack instructions read their operands as signed lanes; they saturate to signed
    ([packs]) or unsigned ([packus]) lanes.
    src/arch/x86/intrin/downcast.rs. *)
Definition x86_downcast_optimized : list xport := [
  (* src/arch/x86/intrin/downcast.rs:19-22 *)
  mkXPort "i32x4" (mkVty 4 4) (EInt i32) "i16x8" (mkVty 8 2) (EInt i16) "sse2" (on2 (pack i32 i16));
  (* src/arch/x86/intrin/downcast.rs:75-78 *)
  mkXPort "i16x8" (mkVty 8 2) (EInt i16) "i8x16" (mkVty 16 1) (EInt i8) "sse2" (on2 (pack i16 i8));
  (* src/arch/x86/intrin/downcast.rs:106-109 *)
  mkXPort "u32x4" (mkVty 4 4) (EInt u32) "u16x8" (mkVty 8 2) (EInt u16) "sse4.1" (on2 (pack i32 u16));
  (* src/arch/x86/intrin/downcast.rs:129-132 *)
  mkXPort "u16x8" (mkVty 8 2) (EInt u16) "u8x16" (mkVty 16 1) (EInt u8) "sse2" (on2 (pack i16 u8));
  (* src/arch/x86/intrin/downcast.rs:160-163 *)
  mkXPort "i32x8" (mkVty 8 4) (EInt i32) "i16x16" (mkVty 16 2) (EInt i16) "avx2" (on2 (pack256 i32 i16));
  (* src/arch/x86/intrin/downcast.rs:191-194 *)
  mkXPort "i16x16" (mkVty 16 2) (EInt i16) "i8x32" (mkVty 32 1) (EInt i8) "avx2" (on2 (pack256 i16 i8));
  (* src/arch/x86/intrin/downcast.rs:238-241 *)
  mkXPort "u32x8" (mkVty 8 4) (EInt u32) "u16x16" (mkVty 16 2) (EInt u16) "avx2" (on2 (pack256 i32 u16));
  (* src/arch/x86/intrin/downcast.rs:269-272 *)
  mkXPort "u16x16" (mkVty 16 2) (EInt u16) "u8x32" (mkVty 32 1) (EInt u8) "avx2" (on2 (pack256 i16 u8))].

(** * Destride *)

(** [self.extract(n + k)] for every index [n] of a list.
    src/intrin/destride.rs:16-44. *)
Definition extract_every (W : Z) (k : Z) (idx : list Z) (v : list Z) : outcome (list Z) :=
  in_order (fun n => extract W v (n + k)) idx.
(** src/intrin/destride.rs:16-23 [destride_two_polyfill!], :25-44
    [destride_four_polyfill!]: output number [k] takes the lanes [n + k] of each
    operand in turn. *)
Fixpoint gather (W : Z) (k : Z) (idx : list Z) (vs : list (list Z)) : outcome (list Z) :=
  match vs with
  | [] => Ok []
  | v :: vs' =>
    let! x := extract_every W k idx v in let! r := gather W k idx vs' in Ok (x ++ r)
  end.
(** src/intrin/destride.rs:16-23 [destride_two_polyfill!]. *)
Definition destride_two_portable (d : destride_impl) (a b : list Z) : outcome (list (list Z)) :=
  in_order (fun k => gather (WIDTH (d_ty d)) k (d_two d) [a; b]) [0; 1].
(** src/intrin/destride.rs:25-44 [destride_four_polyfill!]. *)
Definition destride_four_portable (d : destride_impl) (a b e f : list Z) : outcome (list (list Z)) :=
  in_order (fun k => gather (WIDTH (d_ty d)) k (d_four d) [a; b; e; f]) [0; 1; 2; 3].

(** [merge_halves] of the 8-bit vector [vec], on bytes, by either implementation of
    src/intrin/merge.rs ([UB] stands for a missing impl). *)
Definition merge_halves_bytes (c : config) (vec : string) (a b : list Z) : outcome (list Z) :=
  match find (fun m => String.eqb (mi_name m) vec) x86_merges with
  | Some m =>
    let a' := map (fun x => [x]) a in
    let b' := map (fun x => [x]) b in
    if blend c then
      match merge_halves_blend m x86_patterns a' b' with
      | Some r => Ok (concat r)
      | None => UB
      end
    else let! r := merge_halves_portable c m a' b' in Ok (concat r)
  | None => UB
  end.

(** A shuffle control of src/arch/x86/intrin/destride.rs:16-106. *)
Definition evens_odds : list Z := [0; 2; 4; 6; 8; 10; 12; 14; 1; 3; 5; 7; 9; 11; 13; 15].
(** A shuffle control of src/arch/x86/intrin/destride.rs:16-106. *)
Definition odds_evens : list Z := [1; 3; 5; 7; 9; 11; 13; 15; 0; 2; 4; 6; 8; 10; 12; 14].
(** A shuffle control of src/arch/x86/intrin/destride.rs:16-106. *)
Definition halves_swapped : list Z := [8; 9; 10; 11; 12; 13; 14; 15; 0; 1; 2; 3; 4; 5; 6; 7].

(** src/arch/x86/intrin/destride.rs:13-22 (u8x16) and :73-82 (i8x16), feature ssse3;
    [merge] is the vector type whose [merge_halves] is called. *)
Definition destride_two_128 (c : config) (merge : string) (self other : list Z) : outcome (list (list Z)) :=
  let a := pshufb self evens_odds in
  let b := pshufb other odds_evens in
  let! ba := merge_halves_bytes c merge b a in
  let c' := pshufb ba halves_swapped in
  let! ab := merge_halves_bytes c merge a b in
  Ok [ab; c'].
(** src/arch/x86/intrin/destride.rs:41-54 (u8x32) and :101-114 (i8x32), feature avx2. *)
Definition destride_two_256 (c : config) (merge : string) (self other : list Z) : outcome (list (list Z)) :=
  let a := pshufb256 self (evens_odds ++ evens_odds) in
  let b := pshufb256 other (odds_evens ++ odds_evens) in
  let aa := permute4x64 a 216 in
  let bb := permute4x64 b 216 in
  let! m := merge_halves_bytes c merge aa bb in
  let c' := permute4x64 m 78 in
  let! ab := merge_halves_bytes c merge aa bb in
  Ok [ab; c'].

(** The optimised [destride_two]s.
    src/arch/x86/intrin/destride.rs:13-111. *)
Record xdestride := mkXDestride {
  xd_vec : string; xd_ty : vty; xd_el : ity; xd_feat : string;
  xd_run : config -> list Z -> list Z -> outcome (list (list Z)) }.
(** src/arch/x86/intrin/destride.rs:13-79 [128-bit vectors]. *)
Definition x86_destride_128 : list xdestride := [
  (* src/arch/x86/intrin/destride.rs:13-22 *)
  mkXDestride "u8x16" (mkVty 16 1) u8 "ssse3" (fun c => destride_two_128 c "i8x16");
  (* src/arch/x86/intrin/destride.rs:73-82 *)
  mkXDestride "i8x16" (mkVty 16 1) i8 "ssse3" (fun c => destride_two_128 c "i8x16")].
(** src/arch/x86/intrin/destride.rs:41-111 [256-bit vectors]. *)
Definition x86_destride_256 : list xdestride := [
  (* src/arch/x86/intrin/destride.rs:41-54 *)
  mkXDestride "u8x32" (mkVty 32 1) u8 "avx2" (fun c => destride_two_256 c "u8x32");
  (* src/arch/x86/intrin/destride.rs:101-114 *)
  mkXDestride "i8x32" (mkVty 32 1) i8 "avx2" (fun c => destride_two_256 c "i8x32")].
(** src/arch/x86/intrin/destride.rs:13-111. *)
Definition destride_two_optimized (c : config) (x : xdestride) (a b : list Z) : outcome (list (list Z)) :=
  let! r := xd_run x c (bytes_of (xd_el x) a) (bytes_of (xd_el x) b) in
  Ok (map (lanes_of (xd_el x)) r).
