(** Linear attacks: an attacker who computes a signature as a fixed linear combination
    of all the group elements in view. *)
From Verif Require Import Base Env SpecTime Prng SpecPrng SubKey SecretKey Keys Sig SpecKey SpecUpdate.
Local Open Scope N_scope.

Fixpoint lincomb2 {E : env} (v : list N) (hs : list (G2 E)) : G2 E :=
  match v, hs with
  | x :: v', h :: hs' => g2_add (g2_mul x h) (lincomb2 v' hs')
  | _, _ => g2_zero
  end.

(** Group elements in view: those of the public parameters, of the public key, of some
    sub keys and of some signatures. *)
Definition view1 {E} (pp : pubparam E) (ks : list (subkey E)) (sigs : list (signature E)) : list (G1 E) :=
  pp_h pp :: pp_hlist pp ++ map sk_hpoly ks ++ concat (map sk_hvec ks) ++ map sig_2 sigs.
Definition view2 {E} (pp : pubparam E) (pk : pubkey E) (ks : list (subkey E)) (sigs : list (signature E)) : list (G2 E) :=
  pp_g2 pp :: pk_pk pk :: map sk_g2r ks ++ map sig_1 sigs.

(** The signature for time [t] that the strategy (A, B) computes. *)
Definition forged {E} (A B : list N) (t : N) (pp : pubparam E) (pk : pubkey E) ks sigs : signature E :=
  Signature (pp_cs pp) t (lincomb2 A (view2 pp pk ks sigs)) (lincomb B (view1 pp ks sigs)).

(** Parameters without degenerate points. *)
Record generic {E} (d : nat) (cs : N) (pp : pubparam E) : Prop := Generic {
  gen_ok : pp_ok pp;
  gen_depth : pp_depth pp = d;
  gen_cs : pp_cs pp = cs;
  gen_g2 : pp_g2 pp = g2_one;
  gen_len : length (pp_hlist pp) = (d + 1)%nat;
  gen_h : pp_h pp <> g1_zero;
  gen_hlist : Forall (fun h => h <> g1_zero) (pp_hlist pp) }.

(** Honest sub keys for the time stamps [ts], honest signatures on the times and messages
    [qs], for master secret [x]; none with trivial randomness. *)
Definition held_keys {E} (pp : pubparam E) (x : N) (ts : list N) (ks : list (subkey E)) : Prop :=
  map sk_t ks = ts /\ Forall (fun s => honest pp x s /\ sk_g2r s <> g2_zero) ks.
Definition held_sigs {E} (pp : pubparam E) (x : N) (qs : list (N * bytes)) (sigs : list (signature E)) : Prop :=
  Forall2 (fun q s => exists v k, node_at (pp_depth pp) (fst q) v
                                  /\ s = honest_sig pp x (fst q) v (msg_scalar pp (snd q)) k
                                  /\ sig_1 s <> g2_zero) qs sigs.

(** The strategy works whatever the parameters, the master secret and the randomness of
    the keys and signatures in view. *)
Definition works {E : env} (m : mode) (d : nat) (cs : N) (ts : list N) (qs : list (N * bytes))
    (A B : list N) (t : N) (msg : bytes) : Prop :=
  forall (pp : pubparam E) pk x ks sigs,
    generic d cs pp -> pk = PubKey cs (g2_mul x (pp_g2 pp)) -> pk_pk pk <> g2_zero ->
    held_keys pp x ts ks -> held_sigs pp x qs sigs ->
    verify m (forged A B t pp pk ks sigs) pk pp msg = Ok true.

(** The scalar of a message under ciphersuite [cs]. *)
Definition scalar_of (E : env) (cs : N) (msg : bytes) : N := spec_msg (sha512 E) DOM_SEP_HASH_TO_MSG cs msg.

(** The same with every exponent drawn at random. Exponent 0 is the master secret, 1 that
    of h, 2+i that of h_i, then the randomness of the sub keys and of the signatures. *)
Definition exp_pp {E : env} (g : G1 E) (d : nat) (cs : N) (p : nat -> N) : pubparam E :=
  PubParam d cs g2_one (g1_mul (p 1%nat) g) (map (fun i => g1_mul (p (2 + i)%nat) g) (seq 0 (d + 1))).
Definition exp_pk {E : env} (cs : N) (p : nat -> N) : pubkey E := PubKey cs (g2_mul (p 0%nat) g2_one).
Definition exp_keys {E : env} (g : G1 E) (d : nat) (cs : N) (p : nat -> N) (ts : list N) (ks : list (subkey E)) : Prop :=
  length ks = length ts /\
  forall j t, nth_error ts j = Some t ->
    exists v, node_at d t v
              /\ nth_error ks j = Some (honest_ssk (exp_pp g d cs p) (p 0%nat) t v (p (3 + d + j)%nat)).
Definition exp_sigs {E : env} (g : G1 E) (d : nat) (cs : N) (p : nat -> N) (k : nat) (qs : list (N * bytes)) (sigs : list (signature E)) : Prop :=
  length sigs = length qs /\
  forall j q, nth_error qs j = Some q ->
    exists v, node_at d (fst q) v
              /\ nth_error sigs j = Some (honest_sig (exp_pp g d cs p) (p 0%nat) (fst q) v
                                            (scalar_of E cs (snd q)) (p (3 + d + k + j)%nat)).

(** Of the [n] exponents drawn one after the other, some one hits the single value that
    the earlier ones leave to it. *)
Definition unlucky (n : nat) (bad : nat -> (nat -> N) -> N) (p : nat -> N) : Prop :=
  exists i, (i < n)%nat /\ p i = bad i p.
Definition from_earlier (bad : nat -> (nat -> N) -> N) : Prop :=
  forall i p p', (forall j, (j < i)%nat -> p j = p' j) -> bad i p = bad i p'.
