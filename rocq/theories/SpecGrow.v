(** Vocabulary for Properties_Grow.v: the nodes whose sub keys a key consists of. *)
From Verif Require Import Base SpecTime.

(** The right siblings of the left turns on the path from [pre] along [v], deepest first. *)
Fixpoint right_sibs (pre v : path) : list path :=
  match v with
  | [] => []
  | x :: v' => right_sibs (pre ++ [x]) v' ++ (if (x =? 1)%N then [pre ++ [2%N]] else [])
  end.
(** The number of left turns on a path. *)
Definition lefts (v : path) : nat := length (filter (N.eqb 1) v).

(** Bytes of the largest key of depth [d]: 66 for ciphersuite, number of sub keys and prng,
    149 for each of d sub keys without its vector, and 1 + d(d-1)/2 points of 96 bytes. *)
Definition largest (d : nat) : nat := 66 + 149 * d + 48 * (2 + d * (d - 1)).
