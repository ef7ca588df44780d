(** Vocabulary for Properties_CAny.v: what the C functions do with any bytes. *)
From Verif Require Import Base Env SpecTime Prng SpecPrng SubKey SecretKey Keys Sig IO Serdes Ffi SpecKey SpecSer SpecUpdate SpecSig SpecAny.
Local Open Scope N_scope.

(** The bytes hold this object, perhaps followed by something else. *)
Definition holds_sk {E} (b : bytes) (sk : seckey E) : Prop := from_slice (sk_deserialize true) b = Ok sk.
Definition holds_pk {E} (b : bytes) (pk : pubkey E) : Prop := from_slice (pk_deserialize true) b = Ok pk.
Definition holds_pop {E} (b : bytes) (p : proof E) : Prop := from_slice (pop_deserialize true) b = Ok p.
Definition holds_sig {E} (b : bytes) (s : signature E) : Prop := from_slice (sig_deserialize true) b = Ok s.

(** The result of c_sk_update on any bytes: the update of the key that they hold. *)
Inductive c_update_result {E} (pp : pubparam E) (t : N) (seed b : bytes) : res bytes -> Prop :=
| CU_bytes : (forall sk : seckey E, ~ holds_sk b sk) -> c_update_result pp t seed b (Panic P_FFI)
| CU_ok : forall sk sk', holds_sk b sk -> update_result pp t seed sk (Ok tt, sk') ->
    c_update_result pp t seed b (Ok (sk_blob true sk'))
| CU_err : forall sk e sk', holds_sk b sk -> update_result pp t seed sk (Err e, sk') ->
    c_update_result pp t seed b (Panic P_FFI)
| CU_panic : forall sk p sk', holds_sk b sk -> update_result pp t seed sk (Panic p, sk') ->
    c_update_result pp t seed b (Panic p).

(** The result of c_sign_present on any bytes. *)
Inductive c_sign_result {E} (pp : pubparam E) (msg : bytes) (t : N) (b : bytes) : res bytes -> Prop :=
| CS_bytes : (forall sk : seckey E, ~ holds_sk b sk) -> c_sign_result pp msg t b (Panic P_FFI)
| CS_refused : forall sk : seckey E, holds_sk b sk ->
    sec_cs sk <> pp_cs pp \/ sec_time sk <> t \/ ~ stamp (pp_depth pp) t \/ map sk_hvec (firstn 1 (sec_ssk sk)) = [[]] ->
    c_sign_result pp msg t b (Panic P_FFI)
| CS_ok : forall (sk : seckey E) s rest v init last, holds_sk b sk ->
    sec_cs sk = pp_cs pp -> sec_time sk = t -> node_at (pp_depth pp) t v ->
    sec_ssk sk = s :: rest -> sk_hvec s = init ++ [last] ->
    let k := spec_scalar (sha512 E) (sec_prng sk) (sign_info msg t) in
    let M := msg_scalar pp msg in
    c_sign_result pp msg t b (Ok (sig_blob true (Signature (pp_cs pp) t
      (g2_add (sk_g2r s) (g2_mul k (pp_g2 pp)))
      (g1_add (g1_add (sk_hpoly s) (g1_mul M last)) (g1_mul k (sig_val pp v M)))))).

(** What the number of sub keys is after it went through a byte, and the key with as many. *)
Definition cut {E} (sk : seckey E) : seckey E :=
  SecKey (sec_cs sk) (sec_time sk) (firstn (length (sec_ssk sk) mod 256) (sec_ssk sk)) (sec_prng sk).

(** A key that the format can represent but for the number of its sub keys. *)
Definition wf_but_number {E} (sk : seckey E) : Prop :=
  supported (sec_cs sk) /\ length (sec_prng sk) = 64%nat
  /\ map sk_t (firstn 1 (sec_ssk sk)) = [sec_time sk] /\ Forall wf_ssk (sec_ssk sk).
