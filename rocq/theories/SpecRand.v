(** Specification vocabulary for Properties_Rand.v: the complete check of a secret key,
    byte strings in order, counting. *)
From Verif Require Import Base Env SpecTime SubKey SecretKey Keys Sig SpecKey SpecSig.
Local Open Scope N_scope.

(** The vector of a sub key belongs to its first component:
    e(g2, hv_i) = e(g2r, h_{|v|+1+i}), one entry per level below the node. *)
Definition vec_equation {E} (pp : pubparam E) (s : subkey E) : Prop :=
  exists v, node_at (pp_depth pp) (sk_t s) v
    /\ length (sk_hvec s) = (pp_depth pp - length v)%nat
    /\ forall i, (i < pp_depth pp - length v)%nat ->
         pairing (pp_g2 pp) (nth i (sk_hvec s) g1_zero)
         = pairing (sk_g2r s) (nth (length v + 1 + i) (pp_hlist pp) g1_zero).

(** All points of the key are in the prime order subgroups, and its seed has 64 bytes:
    what deserialization establishes. *)
Definition points_ok {E} (sk : seckey E) : Prop :=
  Forall (fun s => g2_insub (sk_g2r s) = true /\ g1_insub (sk_hpoly s) = true
                   /\ Forall (fun h => g1_insub h = true) (sk_hvec s)) (sec_ssk sk)
  /\ length (sec_prng sk) = 64%nat /\ are_bytes (sec_prng sk).

(** The complete check of a secret key against a public key. *)
Record complete_sk {E} (pp : pubparam E) (pk : pubkey E) (sk : seckey E) : Prop := CompleteSk {
  cmp_cs : sec_cs sk = pp_cs pp /\ pk_cs pk = pp_cs pp;
  cmp_time : 1 <= sec_time sk <= last_time (pp_depth pp);
  cmp_til : tiling (pp_depth pp) (sec_time sk) (map sk_t (sec_ssk sk));
  cmp_eq : Forall (ssk_equation pp pk) (sec_ssk sk);
  cmp_vec : Forall (vec_equation pp) (sec_ssk sk);
  cmp_pts : points_ok sk }.

(** 0, 1, .., n-1. *)
Definition below (n : N) : list N := map N.of_nat (seq 0 (N.to_nat n)).
(** All strings of [n] bytes. *)
Fixpoint all_strings (n : nat) : list bytes :=
  match n with
  | O => [[]]
  | S n' => flat_map (fun b => map (cons b) (all_strings n')) (below 256)
  end.
(** How many elements of [l] satisfy [f]. *)
Definition count {A} (f : A -> bool) (l : list A) : N := N.of_nat (length (filter f l)).
