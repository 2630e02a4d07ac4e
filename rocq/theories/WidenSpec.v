(** Kernels that compute with wider lanes: vocabulary. *)
From Coq Require Import String.
From Verif Require Import Base Lanes OpTables GateTables GateSpec ExprSpec.
Open Scope list_scope.
Open Scope Z_scope.

(** The integer types with a type of twice the size. *)
Definition widenable : list elty := [EInt u8; EInt i8; EInt u16; EInt i16; EInt u32; EInt i32].
Definition wide (e : elty) : elty := match e with EInt t => EInt (mkIty (isigned t) (2 * ibytes t)) | _ => EF64 end.
Definition half (t : ity) : ity := mkIty (isigned t) (Nat.div2 (ibytes t)).

(** [saturating_downcast] should clamp every lane.  Builds that have PACKUSWB (SSE2) or
    PACKUSDW (SSE4.1) first read the unsigned lanes as signed (C47). *)
Definition reads_signed (fs : features) (t : ity) : bool :=
  negb (isigned t) && (if (ibytes t =? 2)%nat then fs "sse2"%string else if (ibytes t =? 4)%nat then fs "sse4.1"%string else false).
Definition narrowed (fs : features) (t : ity) (y : Z) : Z :=
  clamp (half t) (if reads_signed fs t && (imod t / 2 <=? y) then y - imod t else y).

(** Lane [k] of a vector of [w] lanes whose second and third quarter are exchanged. *)
Definition quarter_swap (w k : Z) : Z :=
  if (w / 4 <=? k) && (k <? w / 2) then k + w / 4 else if (w / 2 <=? k) && (k <? 3 * (w / 4)) then k - w / 4 else k.
