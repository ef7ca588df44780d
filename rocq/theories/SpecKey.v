(** Specification of parameters, keys and signatures: closed forms, as in the Pixel
    paper and spec.md (written additively). *)
From Verif Require Import Base Env SpecTime SubKey SecretKey Keys Sig.
Local Open Scope N_scope.

(** Well-formed public parameters (what pixel_param generates): h_0 .. h_d, all
    points in the prime order subgroup. *)
Record pp_ok {E} (pp : pubparam E) : Prop := PpOk {
  ppo_depth : (1 <= pp_depth pp < 64)%nat;
  ppo_len : (pp_depth pp < length (pp_hlist pp))%nat;
  ppo_hlist : Forall (fun h => g1_insub h = true) (pp_hlist pp);
  ppo_h : g1_insub (pp_h pp) = true;
  ppo_g2 : g2_insub (pp_g2 pp) = true }.

(** [lincomb v hs] = v_1 * hs_1 + v_2 * hs_2 + ... *)
Fixpoint lincomb {E : env} (v : list N) (hs : list (G1 E)) : G1 E :=
  match v, hs with
  | x :: v', h :: hs' => g1_add (g1_mul x h) (lincomb v' hs')
  | _, _ => g1_zero
  end.

(** h_0 + sum v_i * h_i, the public value of a node. *)
Definition node_val {E} (pp : pubparam E) (v : path) : G1 E :=
  g1_add (nth 0 (pp_hlist pp) g1_zero) (lincomb v (skipn 1 (pp_hlist pp))).

(** The sub key for node [v] with time stamp [t], master secret [x], randomness [r]:
    (r*g2, x*h + r*(h_0 + sum v_i h_i), r*h_{|v|+1}, ..., r*h_d). *)
Definition honest_ssk {E} (pp : pubparam E) (x : N) (t : N) (v : path) (r : N) : subkey E :=
  SubKey t (g2_mul r (pp_g2 pp))
    (g1_add (g1_mul x (pp_h pp)) (g1_mul r (node_val pp v)))
    (map (g1_mul r) (firstn (pp_depth pp - length v) (skipn (length v + 1) (pp_hlist pp)))).

(** Some honest sub key for a time stamp of the tree. *)
Definition honest {E} (pp : pubparam E) (x : N) (s : subkey E) : Prop :=
  exists v r, node_at (pp_depth pp) (sk_t s) v /\ s = honest_ssk pp x (sk_t s) v r.

(** A good secret key for master secret [x]: its sub keys are honest and tile the
    time stamps from the key's time to the last one. *)
Record good_sk {E} (pp : pubparam E) (x : N) (sk : seckey E) : Prop := GoodSk {
  gsk_cs : sec_cs sk = pp_cs pp;
  gsk_time : 1 <= sec_time sk <= last_time (pp_depth pp);
  gsk_til : tiling (pp_depth pp) (sec_time sk) (map sk_t (sec_ssk sk));
  gsk_honest : Forall (honest pp x) (sec_ssk sk);
  gsk_prng : length (sec_prng sk) = 64%nat /\ are_bytes (sec_prng sk) }.

(** Sub keys and keys of the right shape (time stamps and vector lengths), whatever their
    group elements: the vector has one entry per level below the node. *)
Definition shape_ssk {E} (pp : pubparam E) (s : subkey E) : Prop :=
  exists v, node_at (pp_depth pp) (sk_t s) v /\ length (sk_hvec s) = (pp_depth pp - length v)%nat.

Record shape_sk {E} (pp : pubparam E) (sk : seckey E) : Prop := ShapeSk {
  shs_cs : sec_cs sk = pp_cs pp;
  shs_time : 1 <= sec_time sk <= last_time (pp_depth pp);
  shs_til : tiling (pp_depth pp) (sec_time sk) (map sk_t (sec_ssk sk));
  shs_ssk : Forall (shape_ssk pp) (sec_ssk sk) }.

(** Public value signed: h_0 + sum v_i h_i + M * h_d. *)
Definition sig_val {E} (pp : pubparam E) (v : path) (M : N) : G1 E :=
  g1_add (node_val pp v) (g1_mul M (nth (pp_depth pp) (pp_hlist pp) g1_zero)).

(** Signature with randomness [s]: (s*g2, x*h + s*sig_val). *)
Definition honest_sig {E} (pp : pubparam E) (x t : N) (v : path) (M s : N) : signature E :=
  Signature (pp_cs pp) t (g2_mul s (pp_g2 pp))
    (g1_add (g1_mul x (pp_h pp)) (g1_mul s (sig_val pp v M))).
