(** Vocabulary for the properties about parameters of different depth. *)
From Verif Require Import Base Env SubKey SecretKey Keys.
Local Open Scope N_scope.

(** The first generators of [pp], for a tree of depth [d]. *)
Definition shallower {E} (d : nat) (pp : pubparam E) : pubparam E :=
  PubParam d (pp_cs pp) (pp_g2 pp) (pp_h pp) (firstn (d + 1) (pp_hlist pp)).

(** A sub key for a tree that has [k] levels less: the last [k] entries of the h-vector are left out, and
    the node has another time stamp [t]. *)
Definition recut {E} (k : nat) (t : N) (s : subkey E) : subkey E :=
  SubKey t (sk_g2r s) (sk_hpoly s) (firstn (length (sk_hvec s) - k) (sk_hvec s)).

(** A secret key with one sub key only. *)
Definition lone_key {E} (cs : N) (s : subkey E) (g : bytes) : seckey E := SecKey cs (sk_t s) [s] g.

(** Parameters that differ in the generators and the depth only. *)
Definition akin {E} (pp pp' : pubparam E) : Prop := pp_cs pp' = pp_cs pp /\ pp_g2 pp' = pp_g2 pp /\ pp_h pp' = pp_h pp.
