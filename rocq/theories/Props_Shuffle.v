(** Properties: flip, byte order and reinterpretation (C44, C45, C53). *)
From Coq Require Import String Ascii.
From Verif Require Import Base Spec VecSpec Vecs Lanes X86 Tables Shuffles.
Open Scope list_scope.
Open Scope Z_scope.
From Verif Require Import ShuffleProofs.

(** C53: [flip] exchanges neighbouring lanes and nothing else, for every vector type,
    with and without the byte-shuffle instruction. *)
Theorem C53_flip : forall (s : shuffle_impl) (v : list (list Z)), In s x86_swizzles -> vector_of (sh_ty s) v ->
  flip_portable s v = Ok (swap_adjacent v) /\ (forall r, byte_shuffle s v = Some r -> r = swap_adjacent v).
Proof. exact c53_flip. Qed.
Print Assumptions C53_flip.

Example C53_flip_portable_case : exists s, In s x86_swizzles /\ sh_ty s = mkVty 2 8 /\
  flip_portable s [[1;2;3;4;5;6;7;8];[9;10;11;12;13;14;15;16]] = Ok [[9;10;11;12;13;14;15;16];[1;2;3;4;5;6;7;8]].
Proof. eexists. split; [apply (nth_error_In _ 23); reflexivity|]. split; vm_compute; reflexivity. Qed.

(** C53: the lanes of the result by index, and flipping twice gives the vector back. *)
Theorem C53_flip_index : forall (A : Type) (v : list A), zlen v mod 2 = 0 ->
  zlen (swap_adjacent v) = zlen v /\ swap_adjacent (swap_adjacent v) = v /\
  forall i, 0 <= i < zlen v -> znth (swap_adjacent v) i = znth v (if i mod 2 =? 0 then i + 1 else i - 1).
Proof. exact c53_flip_index. Qed.
Print Assumptions C53_flip_index.

Example C53_flip_case : exists s, In s x86_swizzles /\ sh_ty s = mkVty 4 4 /\ byte_shuffle s [[1;2;3;4];[5;6;7;8];[9;10;11;12];[13;14;15;16]] = Some [[5;6;7;8];[1;2;3;4];[13;14;15;16];[9;10;11;12]].
Proof. exists (nth 14 x86_swizzles (nth 0 x86_swizzles (mkShuffle "" (mkVty 0 0) "" "" "" [] []))). split; [vm_compute; tauto|]. split; vm_compute; reflexivity. Qed.

(** C44: [swap_bytes] reverses the bytes of every lane and leaves the lanes in place,
    for every integer vector type of both back-ends, with and without the byte shuffle. *)
Theorem C44_swap_bytes : forall (s : shuffle_impl) (v : list (list Z)), In s (x86_swap_bytes ++ unknown_swap_bytes) -> vector_of (sh_ty s) v ->
  swap_bytes_portable s v = Ok (map (@rev Z) v) /\ (forall r, byte_shuffle s v = Some r -> r = map (@rev Z) v).
Proof. exact c44_swap_bytes. Qed.
Print Assumptions C44_swap_bytes.

Example C44_swap_case : exists s, In s x86_swap_bytes /\ sh_ty s = mkVty 4 4 /\ byte_shuffle s [[1;2;3;4];[5;6;7;8];[9;10;11;12];[13;14;15;16]] = Some [[4;3;2;1];[8;7;6;5];[12;11;10;9];[16;15;14;13]].
Proof. exists (nth 14 x86_swap_bytes (nth 0 x86_swap_bytes (mkShuffle "" (mkVty 0 0) "" "" "" [] []))). split; [vm_compute; tauto|]. split; vm_compute; reflexivity. Qed.

(** C44: [from_be] undoes [to_be] and [from_le] undoes [to_le] (and the other way
    round) on a target of either endianness. *)
Theorem C44_round_trip : forall (big : bool) (v : list (list Z)),
  from_be big (map (@rev Z)) (to_be big (map (@rev Z)) v) = v /\ to_be big (map (@rev Z)) (from_be big (map (@rev Z)) v) = v /\
  from_le big (map (@rev Z)) (to_le big (map (@rev Z)) v) = v /\ to_le big (map (@rev Z)) (from_le big (map (@rev Z)) v) = v.
Proof. exact c44_round_trip. Qed.
Print Assumptions C44_round_trip.

Example C44_round_trip_case : to_be false (map (@rev Z)) [[1;2];[3;4]] = [[2;1];[4;3]] /\ from_be false (map (@rev Z)) [[2;1];[4;3]] = [[1;2];[3;4]] /\
  to_le false (map (@rev Z)) [[1;2];[3;4]] = [[1;2];[3;4]] /\ to_le true (map (@rev Z)) [[1;2];[3;4]] = [[2;1];[4;3]].
Proof. repeat split. Qed.

(** C44: in memory, a lane of value [x] of [to_be] has its most significant byte first
    and a lane of [to_le] its least significant byte first, whatever the target stores. *)
Theorem C44_memory_order : forall (big : bool) (n : nat) (xs : list Z),
  let stored x := if big then rev (to_bytes n x) else to_bytes n x in
  to_be big (map (@rev Z)) (map stored xs) = map (fun x => rev (to_bytes n x)) xs /\
  to_le big (map (@rev Z)) (map stored xs) = map (to_bytes n) xs.
Proof. exact c44_memory_order. Qed.
Print Assumptions C44_memory_order.

Example C44_memory_order_case : to_be false (map (@rev Z)) (map (to_bytes 4) [258; 16909060]) = [[0;0;1;2];[1;2;3;4]].
Proof. vm_compute. reflexivity. Qed.

(** C45, integer lanes: reinterpreting a vector as another integer type of the same
    total size keeps its bytes, and reinterpreting back gives the same lanes. *)
Theorem C45_bitcast : forall (t1 t2 : ity) (v : list Z) (k : nat), (0 < ibytes t1)%nat -> (0 < ibytes t2)%nat ->
  Forall (in_ity t1) v -> (length v * ibytes t1 = k * ibytes t2)%nat ->
  bytes_of t2 (bitcast t1 t2 v) = bytes_of t1 v /\ bitcast t2 t1 (bitcast t1 t2 v) = v.
Proof. exact c45_bitcast. Qed.
Print Assumptions C45_bitcast.

Example C45_bitcast_case : bitcast u32 u16 [65537; 4294967295] = [1;1;65535;65535] /\ bitcast u16 u32 [1;1;65535;65535] = [65537; 4294967295].
Proof. split; vm_compute; reflexivity. Qed.

(** C45: [be_u8s] ... [be_f64s_unchecked] reinterpret the bytes of a vector as WIDTH'
    lanes of SIZE' bytes: same bytes in the same order, and converting back gives the
    same vector.  All three register sizes, every pair of lane types. *)
Theorem C45_be_as : forall (g : list vty) (a b : vty) (v : list (list Z)), In g transmute_groups -> In a g -> In b g -> vector_of a v ->
  vector_of b (be_as b v) /\ concat (be_as b v) = concat v /\ be_as a (be_as b v) = v.
Proof. exact c45_be_as. Qed.
Print Assumptions C45_be_as.

Example C45_case : bitcast u8 i16 [1;255;0;128] = [-255;-32768] /\ bitcast i16 u8 [-255;-32768] = [1;255;0;128] /\
  be_as (mkVty 4 4) [[1;2;3;4;5;6;7;8];[9;10;11;12;13;14;15;16]] = [[1;2;3;4];[5;6;7;8];[9;10;11;12];[13;14;15;16]].
Proof. repeat split; vm_compute; reflexivity. Qed.
