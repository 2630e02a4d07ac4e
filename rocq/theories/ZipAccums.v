(** Model of reductions over two zipped slices whose accumulator has wider lanes than the slices. *)
From Coq Require Import String.
From Verif Require Import Base GateTables GateSpec Gates Vecs Lanes OpTables PortTables Ports Builds ExprSpec Exprs WidenSpec Widens Portables WidePorts.
Open Scope list_scope.
Open Scope Z_scope.

Section ZipAccums.
Variable fs : features.
Variable tie : bool.
Variable fop : arith -> elty -> Z -> Z -> Z.
Variable fsqrt : elty -> Z -> Z.
Variable narrow : Z -> Z.

(** The closure [|acc, (v, w)| { let (a, p) = v.upcast(); let (b, q) = w.upcast();
    x(acc, a, b, p, q) }] of a [simd_reduce] (src/zip.rs:210-220) over [(l1.simd_iter(..),
    l2.simd_iter(..)).zip()] (src/zip.rs:223-233) whose accumulator has the wider type; [upcast] is
    src/arch/x86/intrin/upcast.rs:16-618, and [e] is the element type of both slices. *)
Definition accumulate_zip_in (e : elty) (x : expr) (acc v w : list Z) : option (outcome (list Z)) :=
  match natural_of fs e, natural_of fs (wide e) with
  | Some l, Some lw =>
    andthen (upcast_all fs narrow (p_vec l) (p_vec lw) [v; w]) (fun h =>
    run fs tie fop fsqrt narrow (wide e) 5 x (acc :: fst h ++ snd h))
  | _, _ => None
  end.

(** The same closure on the portable back-end: src/arch/unknown/intrin/upcast.rs:11-386. *)
Definition portable_accumulate_zip (c : config) (e : elty) (x : expr) (acc v w : list Z) : option (outcome (list Z)) :=
  match portable_of fs e, portable_of fs (wide e) with
  | Some l, Some lw =>
    andthen (portable_upcast_all narrow (p_vec l) (p_vec lw) [v; w]) (fun h =>
    portable_run fs c tie fop fsqrt narrow (wide e) 5 x (acc :: fst h ++ snd h))
  | _, _ => None
  end.
End ZipAccums.

(** [acc + a * b + p * q], as a program that calls [simd_reduce] (src/zip.rs:210-220) for the
    inner product of two slices writes it. *)
Definition add_products : expr := Arith Add (Arith Add (Arg 0) (Arith Mul (Arg 1) (Arg 2))) (Arith Mul (Arg 3) (Arg 4)).
