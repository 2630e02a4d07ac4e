(** Kernels that compute in [f64] on slices of narrower numbers: vocabulary. *)
From Coq Require Import String.
From Verif Require Import Base Lanes OpTables Ports.
Open Scope list_scope.
Open Scope Z_scope.

(** The element types whose vectors can be widened to vectors of [f64]. *)
Definition doubles : list elty := [EF32; EInt i32].
(** [x as f64]. *)
Definition as_f64 (e : elty) (x : Z) : Z := match e with EF32 => f_widen x | _ => f64_of_int x end.
