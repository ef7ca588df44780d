(** Specification vocabulary for the comparison with pixel-python. *)
From Verif Require Import Base Env SubKey SecretKey Keys Sig IO Serdes Python.
Local Open Scope N_scope.

(** The parameters pixel-python is written for: ciphersuite 0, h_0 .. h_d, and time
    stamps that fit into 4 bytes (there d = 32). *)
Record py_params {E} (pp : pubparam E) : Prop := PyParams {
  pyp_cs : pp_cs pp = 0;
  pyp_len : length (pp_hlist pp) = S (pp_depth pp);
  pyp_depth : (pp_depth pp <= 32)%nat }.

(** A secret key as pixel-python has it. *)
Definition py_view {E} (sk : seckey E) : pysk E := (sec_prng sk, sec_ssk sk).

(** A sequence of updates, in both implementations; all have to succeed. *)
Fixpoint py_updates {E} (pp : pubparam E) (l : list (N * bytes)) (sk : pysk E) : option (pysk E) :=
  match l with
  | [] => Some sk
  | (t, seed) :: l' => let? sk := py_update pp sk t seed in py_updates pp l' sk
  end.
Fixpoint rust_updates {E} (m : mode) (pp : pubparam E) (l : list (N * bytes)) (sk : seckey E) : res (seckey E) :=
  match l with
  | [] => Ok sk
  | (t, seed) :: l' =>
    match update m pp t seed sk with
    | (Ok tt, sk') => rust_updates m pp l' sk'
    | (Err e, _) => Err e
    | (Panic p, _) => Panic p
    end
  end.

(** Both programs: make a key, update it along [l], sign [msg] for the time reached;
    the bytes of the public key, the secret key and the signature (compressed). *)
Definition py_vector {E} (pp : pubparam E) (seed : bytes) (l : list (N * bytes)) (msg : bytes)
  : option (bytes * bytes * bytes) :=
  let? (pk, sk) := py_key_gen pp seed in
  let? sk := py_updates pp l sk in
  let? s := hd_error (snd sk) in
  let? sig := py_sign_present pp sk (sk_t s) msg in
  let? b := py_serialize_sk sk in
  let? c := py_serialize_sig sig in
  Some (py_serialize_pk pk, b, c).
Definition rust_vector {E} (m : mode) (pp : pubparam E) (seed : bytes) (l : list (N * bytes)) (msg : bytes)
  : res (bytes * bytes * bytes) :=
  let! (pk, sk, _) := key_gen seed pp in
  let! sk := rust_updates m pp l sk in
  let! sig := fst (sign_present m (sec_time sk) pp msg sk) in
  let! a := to_vec (pk_serialize pk true) in
  let! b := to_vec (sk_serialize sk true) in
  let! c := to_vec (sig_serialize sig true) in
  Ok (a, b, c).
