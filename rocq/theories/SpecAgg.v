(** Vocabulary for the properties of aggregates and of changed signatures. *)
From Verif Require Import Base Env SpecTime SubKey SecretKey Keys Sig SpecKey SpecUpdate.
Local Open Scope N_scope.

(** The sum of the public keys in a list. *)
Definition key_sum {E : env} (pks : list (pubkey E)) : G2 E :=
  fold_right (fun k acc => g2_add (pk_pk k) acc) g2_zero pks.

(** A signature with something added to its components. *)
Definition shift_sig {E} (s : signature E) (p : G2 E) (q : G1 E) : signature E :=
  Signature (sig_cs s) (sig_time s) (g2_add (sig_1 s) p) (g1_add (sig_2 s) q).

(** Re-randomization with public values only: [k]*g2 and [k] times the public value of
    node [v] and message scalar [M]. *)
Definition rerandomized {E} (pp : pubparam E) (v : path) (M k : N) (s : signature E) : signature E :=
  shift_sig s (g2_mul k (pp_g2 pp)) (g1_mul k (sig_val pp v M)).

(** The key that cancels the others: y*g2 minus their sum. *)
Definition rogue {E} (pp : pubparam E) (y : N) (pks : list (pubkey E)) : pubkey E :=
  PubKey (pp_cs pp) (g2_add (g2_mul y (pp_g2 pp)) (g2_neg (key_sum pks))).

(** The public keys can be aggregated under the parameters. *)
Definition usable {E} (pp : pubparam E) (pk : pubkey E) : Prop :=
  pk_cs pk = pp_cs pp /\ g2_insub (pk_pk pk) = true.
