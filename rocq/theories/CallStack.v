(** c_keygen, c_sign_present and c_sk_update (src/ffi.rs 86-183 and 227-275) once more, with what the functions they call leave on the stack
    (Hygiene.v, ReadStack.v).  The C functions have no secret variables of their own besides the key, which has a destructor,
    and the Vec that is handed out (its memory is in CallMem.v and SessionMem.v).  The conventions are those of Hygiene.v: all cells left by
    any call are collected, also those a later call may overwrite.  Not modelled: the caller's seed, which is the caller's memory,
    and unwinding. *)
From Coq Require Import String.
From Verif Require Import Base Env Prng SubKey SecretKey Keys Sig IO Serdes Ffi Hygiene ReadStack.
Local Open Scope N_scope.

(** [match r { Ok(p) => p, Err(_) => panic!() }] and [assert!(r.is_ok())]. *)
Definition or_panic_h {E A} (h : hm E A) : hm E A := fun s => let (r, s') := h s in (or_panic r, s').
(** A deserializer called on the bytes [b]. *)
Definition read_h {E A} (h : rm E A) (b : bytes) : hm E A := fun s => let '(r, (_, s')) := h (rpush b [], s) in (r, s').
(** A secret key serialized into an empty Vec (ffi.rs 106-109 and 251-254). *)
Definition sk_to_vec_h {E} (k : seckey E) : hm E bytes :=
  do! w <- or_panic_h (sk_serialize_h k true (vec_writer []));
  sret (w_out w).

(** src/ffi.rs 86-142: c_keygen. *)
Definition c_keygen_h {E} (pp : pubparam E) (seed : bytes) : hm E (bytes * bytes * bytes) :=
  do! (pk, sk, pop) <- or_panic_h (key_gen_h seed pp);
  do! pk_buf <- slift (or_panic (to_vec (pk_serialize pk true)));
  do! sk_buf <- sk_to_vec_h sk;
  do! pop_buf <- slift (or_panic (to_vec (pop_serialize pop true)));
  do! pk_array <- slift (copy_from_slice PK_LEN pk_buf);
  do! pop_array <- slift (copy_from_slice POP_LEN pop_buf);
  sret (pk_array, sk_buf, pop_array).

(** src/ffi.rs 149-183: c_sign_present. *)
Definition c_sign_present_h {E} (m : mode) (pp : pubparam E) (sk msg : bytes) (tar_time : N) : hm E bytes :=
  do! k <- or_panic_h (read_h (sk_deserialize_h true) sk);
  do! sig <- or_panic_h (sign_present_h m tar_time pp msg k);
  do! sig_buf <- slift (or_panic (to_vec (sig_serialize sig true)));
  slift (copy_from_slice SIG_LEN sig_buf).

(** src/ffi.rs 227-275: c_sk_update. *)
Definition c_sk_update_h {E} (m : mode) (pp : pubparam E) (sk seed : bytes) (tar_time : N) : hm E bytes :=
  do! k <- or_panic_h (read_h (sk_deserialize_h true) sk);
  do! k <- or_panic_h (update_h m pp tar_time seed k);
  sk_to_vec_h k.
