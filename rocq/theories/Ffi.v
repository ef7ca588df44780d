(** Model of src/ffi.rs.  A C buffer (pointer and length) is the byte string it
    points to; memory management is not modelled.  [pp] stands for PubParam::default(). *)
From Verif Require Import Base Env Time Hkdf Prng SubKey SecretKey Keys Sig IO Serdes.
Local Open Scope N_scope.

(** src/lib.rs 67, 72, 76. *)
Definition PK_LEN : nat := 49.
Definition SIG_LEN : nat := 149.
Definition POP_LEN : nat := 97.
(** pixel_param::CONST_D. *)
Definition CONST_D : nat := 32.

(** [match e { Ok(p) => p, Err(_) => panic!(..) }] and [assert!(e.is_ok(), ..)]. *)
Definition or_panic {A} (r : res A) : res A :=
  match r with Ok a => Ok a | Err _ => Panic P_FFI | Panic p => Panic p end.

(** [array.copy_from_slice(&buf)]: panics when the lengths differ. *)
Definition copy_from_slice (n : nat) (buf : bytes) : res bytes :=
  if (length buf =? n)%nat then Ok buf else Panic P_COPY.

(** src/ffi.rs 86-142: c_keygen; returns (pk, sk, pop) as bytes. *)
Definition c_keygen {E} (pp : pubparam E) (seed : bytes) : res (bytes * bytes * bytes) :=
  let! (pk, sk, pop) := or_panic (key_gen seed pp) in
  let! pk_buf := or_panic (to_vec (pk_serialize pk true)) in
  let! sk_buf := or_panic (to_vec (sk_serialize sk true)) in
  let! pop_buf := or_panic (to_vec (pop_serialize pop true)) in
  let! pk_array := copy_from_slice PK_LEN pk_buf in
  let! pop_array := copy_from_slice POP_LEN pop_buf in
  Ok (pk_array, sk_buf, pop_array).

(** src/ffi.rs 149-183: c_sign_present. *)
Definition c_sign_present {E} (m : mode) (pp : pubparam E) (sk msg : bytes) (tar_time : N) : res bytes :=
  let! k := or_panic (from_slice (sk_deserialize true) sk) in
  let! sig := or_panic (fst (sign_present m tar_time pp msg k)) in
  let! sig_buf := or_panic (to_vec (sig_serialize sig true)) in
  copy_from_slice SIG_LEN sig_buf.

(** src/ffi.rs 188-220: c_verify. *)
Definition c_verify {E} (m : mode) (pp : pubparam E) (pk msg sig : bytes) : res bool :=
  let! k := or_panic (from_slice (pk_deserialize true) pk) in
  let! s := or_panic (from_slice (sig_deserialize true) sig) in
  verify m s k pp msg.

(** src/ffi.rs 227-275: c_sk_update. *)
Definition c_sk_update {E} (m : mode) (pp : pubparam E) (sk seed : bytes) (tar_time : N) : res bytes :=
  let! k := or_panic (from_slice (sk_deserialize true) sk) in
  let! k' := or_panic (run_mut (update m pp tar_time seed) k) in
  or_panic (to_vec (sk_serialize k' true)).

(** src/ffi.rs 289-300: the loop that reads the signatures. *)
Fixpoint read_sigs {E : env} (l : list bytes) : res (list (signature E)) :=
  match l with
  | [] => Ok []
  | b :: l' =>
    let! s := or_panic (from_slice (sig_deserialize true) b) in
    let! r := read_sigs l' in
    Ok (s :: r)
  end.

(** src/ffi.rs 281-319: c_aggregation. *)
Definition c_aggregation {E : env} (sigs : list bytes) : res bytes :=
  let! v := @read_sigs E sigs in
  let! agg := or_panic (aggregate v) in
  let! buf := or_panic (to_vec (sig_serialize agg true)) in
  copy_from_slice SIG_LEN buf.

(** src/ffi.rs 334-345: the loop that reads the public keys. *)
Fixpoint read_pks {E : env} (l : list bytes) : res (list (pubkey E)) :=
  match l with
  | [] => Ok []
  | b :: l' =>
    let! s := or_panic (from_slice (pk_deserialize true) b) in
    let! r := read_pks l' in
    Ok (s :: r)
  end.

(** src/ffi.rs 323-360: c_verify_agg. *)
Definition c_verify_agg {E} (m : mode) (pp : pubparam E) (pks : list bytes) (msg agg_sig : bytes)
  : res bool :=
  let! v := read_pks pks in
  let! s := or_panic (from_slice (sig_deserialize true) agg_sig) in
  verify_aggregated m s v pp msg.

(** src/ffi.rs 364-388: c_verify_pop. *)
Definition c_verify_pop {E : env} (pk pop : bytes) : res bool :=
  let! k := or_panic (from_slice (@pk_deserialize E true) pk) in
  let! p := or_panic (from_slice (@pop_deserialize E true) pop) in
  Ok (pk_validate k p).

(** src/ffi.rs 393-398: c_estimate_sk_size. *)
Definition c_estimate_sk_size (m : mode) (time : N) (depth : nat) : res nat :=
  or_panic (estimate_size m time depth).

(** src/ffi.rs 402-404: c_get_depth. *)
Definition c_get_depth : nat := CONST_D.
