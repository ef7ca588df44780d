(** Model of src/public_key.rs, src/pop.rs and src/key_pair.rs. *)
From Verif Require Import Base Env Time Hkdf Prng SubKey SecretKey.
Local Open Scope N_scope.

(** src/pop.rs 6-11: struct ProofOfPossession. *)
Record proof (E : env) := Pop { pop_cs : N; pop_pop : G1 E }.
Arguments Pop {E}. Arguments pop_cs {E}. Arguments pop_pop {E}.

(** src/public_key.rs 20-31: PublicKey::init. *)
Definition pk_init {E} (pp : pubparam E) (pk : G2 E) : res (pubkey E) :=
  if negb (valid_cs (pp_cs pp)) then Err E_CIPHERSUITE else Ok (PubKey (pp_cs pp) pk).

(** src/public_key.rs 68-74, src/key_pair.rs 151-154: buf = DOM_SEP_POP | serial(pk).
    Serializing into a Vec does not fail. *)
Definition pop_msg {E : env} (pk : G2 E) : bytes := DOM_SEP_POP ++ g2_enc true pk.

(** src/public_key.rs 55-77: PublicKey::validate. *)
Definition pk_validate {E} (pk : pubkey E) (pop : proof E) : bool :=
  if negb (valid_cs (pk_cs pk)) then false
  else if negb (pk_cs pk =? pop_cs pop) then false
  else bls_verify (pk_pk pk) (pop_pop pop) (pop_msg (pk_pk pk)) [pk_cs pk].

(** src/public_key.rs 80-85: PartialEq for PublicKey. *)
Definition pk_eqb {E} (a b : pubkey E) : bool :=
  (pk_cs a =? pk_cs b) && g2_eqb (pk_pk a) (pk_pk b).

(** src/key_pair.rs 149-158: proof_of_possession. *)
Definition proof_of_possession {E : env} (msk : N) (pk : G2 E) (cs : N) : G1 E :=
  bls_sign msk (pop_msg pk) [cs].

(** src/key_pair.rs 88-143: master_key_gen; returns (pk, sk, pop, prng). *)
Definition master_key_gen {E} (seed : bytes) (pp : pubparam E)
  : res (G2 E * G1 E * G1 E * prng) :=
  if (length seed <? 32)%nat then Err E_SEED_TOO_SHORT
  else
    let cs := pp_cs pp in
    if negb (valid_cs cs) then Err E_CIPHERSUITE
    else
      let salt := DOM_SEP_MASTER_KEY ++ [cs] in
      let g := prng_init (sha512 E) seed salt in
      let! (x, g') := sample_then_update (sha512 E) g KEY_INIT_INFO in
      let pk := g2_mul x (pp_g2 pp) in
      let pop := proof_of_possession x pk (pp_cs pp) in
      let sk := g1_mul x (pp_h pp) in
      Ok (pk, sk, pop, g').

(** src/key_pair.rs 24-73: KeyPair::keygen (= key_gen, src/lib.rs 110-117). *)
Definition key_gen {E} (seed : bytes) (pp : pubparam E)
  : res (pubkey E * seckey E * proof E) :=
  if (length seed <? 32)%nat then Err E_SEED_TOO_SHORT
  else
    let! (pk, msk, pop, g) := master_key_gen seed pp in
    let! pk := pk_init pp pk in
    let! sk := sk_init pp msk g in
    Ok (pk, sk, Pop (pp_cs pp) pop).

(** src/key_pair.rs 163-184: validate_master_key (test only). *)
Definition validate_master_key {E} (pk : G2 E) (sk : G1 E) (pp : pubparam E) : bool :=
  pairing_check [ (g2_neg (pp_g2 pp), sk); (pk, pp_h pp) ].
