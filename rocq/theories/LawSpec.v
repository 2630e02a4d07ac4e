(** Vocabulary for the laws about chained maps. *)
From Verif Require Import Base Iters.

(** First the closure [f] and then, on its result, the closure [g]; each keeps its own
    captured state. *)
Definition composed {E1 E2 V X Y : Type} (f : E1 -> V -> X * E1) (g : E2 -> X -> Y * E2)
    (e : E1 * E2) (v : V) : Y * (E1 * E2) :=
  let (x, e1) := f (fst e) v in let (y, e2) := g (snd e) x in (y, (e1, e2)).

(** The state of [it.simd_map(f).simd_map(g)] and the state of
    [it.simd_map(g after f)] with the same inner iterator and the same captures. *)
Definition twice_mapped {I E1 E2 : Type} (s : SIMDMap I (E1 * E2)) : SIMDMap (SIMDMap I E1) E2 :=
  mkSIMDMap (mkSIMDMap (sm_iter s) (fst (sm_env s))) (snd (sm_env s)).

(** The same result, left in the state that corresponds under [phi]. *)
Definition with_state {X I J : Type} (phi : I -> J) (o : outcome (X * I)) : outcome (X * J) :=
  let! r := o in Ok (fst r, phi (snd r)).
