(** What the memory of reading a key may still hold, for the properties of [sk_deserialize_m]. *)
From Verif Require Import Base Env SpecTime SubKey SecretKey SpecKey SpecHyg VecMem SpecVec ReadMem.
Local Open Scope N_scope.

(** [b] is what lay in a block of [n] slots, out of which [l] has grown by pushes. *)
Definition outgrown {A} (P : policy) (b l : list A) : Prop :=
  exists k, (0 < caps P 0 k < length l)%nat /\ moved P (caps P 0 k) = true /\ b = firstn (caps P 0 k) l.

(** A sub key from the beginning [b] of its h-vector and from the current key, whose first sub key was made
    from it by the turns [w]; [t] is its time stamp. *)
Definition undo {E} (t : N) (w : path) (b : list (G1 E)) (sk : seckey E) : subkey E :=
  match sec_ssk sk with
  | s :: _ => SubKey t (sk_g2r s) (g1_minus (sk_hpoly s) (lincomb w b)) (firstn (length w) b ++ sk_hvec s)
  | [] => SubKey 0 g2_zero g1_zero []
  end.

(** Growth of a Vec as in std: the first block has 4 slots, then it is doubled. *)
Definition std4 (mv : nat -> bool) : policy := Policy (fun n => Nat.max 4 (2 * n)) mv true.
