(** What reading a secret key leaves on the stack, for the properties of [sk_deserialize_h]. *)
From Coq Require Import String.
From Verif Require Import Base Env Prng SubKey SecretKey IO Hygiene SpecHyg VecMem SpecHv ReadStack.
Local Open Scope N_scope.

(** Of a sub key: its first two entries, twice, and the last entry of its h-vector. *)
Definition sub_cells {E} (s : subkey E) : list (cell E) :=
  [Cell "SubSecretKey::new" "g2r" (VG2 (sk_g2r s)); Cell "SubSecretKey::new" "hpoly" (VG1 (sk_hpoly s))]
  ++ (if (List.length (sk_hvec s) =? 0)%nat then [] else [Cell "SubSecretKey::deserialize" "tmp" (VG1 (last_entry s))])
  ++ [Cell "SubSecretKey::deserialize" "hpoly" (VG1 (sk_hpoly s)); Cell "SubSecretKey::deserialize" "g2r" (VG2 (sk_g2r s))].
(** Of a key: that of all sub keys, and the seed of the prng, twice. *)
Definition seed_cell {E} (fn : string) (g : bytes) : cell E := Cell fn "rngseed" (VBytes g).
Definition read_cells {E} (sk : seckey E) : list (cell E) :=
  flat_map sub_cells (sec_ssk sk) ++ [seed_cell "PRNG::new" (sec_prng sk); seed_cell "SecretKey::deserialize" (sec_prng sk)].

(** A call with the reader [r] in a frame. *)
Definition reads {E A} (h : rm E A) (r : reader) (o : res A) (r' : reader) (d : list (cell E)) : Prop :=
  forall f dead, h (r, (f, dead)) = (o, (r', (f, dead ++ d))).
