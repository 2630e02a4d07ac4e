(** Properties: sums and roots of f32 computed in f64 (C98). *)
From Coq Require Import String.
From Verif Require Import Base Floats FloatSpec OpTables ExprSpec Arith ArithSpec Demos Ports DoubleSpec.
Open Scope list_scope.
Open Scope Z_scope.
From Verif Require Import DoubleSumProofs.

(** [x + y] of two [f32], computed in [f64] and narrowed, is correctly rounded although it is
    rounded twice: it is the [f32] sum, for all numbers, infinities and NaNs, with the sign of
    a zero and the threshold of overflow. *)
Theorem C98_sum : forall a b : Z, f_pattern fmt32 a -> f_pattern fmt32 b ->
  sum_result fmt32 a b (f_narrow (meaning EF64 2 ieee_arith ieee_sqrt (Arith Add (Arg 0) (Arg 1)) (map (as_f64 EF32) [a; b]))).
Proof. exact c98_sum. Qed.
Print Assumptions C98_sum.

(** The same for [x - y]. *)
Theorem C98_difference : forall a b : Z, f_pattern fmt32 a -> f_pattern fmt32 b ->
  difference_result fmt32 a b (f_narrow (meaning EF64 2 ieee_arith ieee_sqrt (Arith Sub (Arg 0) (Arg 1)) (map (as_f64 EF32) [a; b]))).
Proof. exact c98_difference. Qed.
Print Assumptions C98_difference.

(** The square root of an [f32], computed in [f64] and narrowed, is correctly rounded although
    it is rounded twice. *)
Theorem C98_root : forall a : Z, f_pattern fmt32 a ->
  root_result fmt32 a (f_narrow (meaning EF64 1 ieee_arith ieee_sqrt (Sqrt (Arg 0)) (map (as_f64 EF32) [a]))).
Proof. exact c98_root. Qed.
Print Assumptions C98_root.

(** A sum whose [f64] value is itself rounded, half a unit of [f32] plus a little: 16777216.0 +
    1.0000001 is above the tie and must round up (to 16777218.0). *)
Example C98_sum_case : f_pattern fmt32 1266679808 /\ f_pattern fmt32 1065353217 /\
  f_narrow (meaning EF64 2 ieee_arith ieee_sqrt (Arith Add (Arg 0) (Arg 1)) (map (as_f64 EF32) [1266679808; 1065353217])) = 1266679809.
Proof. split; [split; vm_compute; [discriminate|reflexivity]|]. split; [split; vm_compute; [discriminate|reflexivity]|]. vm_compute. reflexivity. Qed.

(** The root of 2.0. *)
Example C98_root_case : f_pattern fmt32 1073741824 /\ f_narrow (meaning EF64 1 ieee_arith ieee_sqrt (Sqrt (Arg 0)) (map (as_f64 EF32) [1073741824])) = 1068827891.
Proof. split; [split; vm_compute; [discriminate|reflexivity]|]. vm_compute. reflexivity. Qed.
