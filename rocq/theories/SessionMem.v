(** What a C caller's calls of c_keygen, c_sign_present and c_sk_update leave in freed heap blocks (src/ffi.rs 86-183 and 227-275;
    c_sk_update is in CallMem.v).

    c_keygen: the h-vector of the first sub key has its capacity from the start (src/subkeys.rs 113), the list of sub keys is vec![ssk]
    (src/secret_key.rs 72), and the Vecs of the PRNG are overwritten before they are freed (src/prng.rs 116 and 142); the key is dropped at the end.
    So only the buffers of FfiBuf.v are freed with something in them.
    c_sign_present: the key is read (ReadMem.v), signing works on the stack (Hygiene.v), and the key is dropped.
    The buffers of public keys, proofs and signatures are public and are left out. *)
From Verif Require Import Base Env Prng SubKey SecretKey Keys Sig IO Serdes Ffi VecMem ReadMem BufMem FfiBuf CallMem.
Local Open Scope N_scope.

(** src/ffi.rs 86-142: c_keygen. *)
Definition c_keygen_mem {E} (C : cpolicy) (pp : pubparam E) (seed : bytes) : st (cheap E) (bytes * bytes * bytes) := fun h =>
  let (r, b) := c_keygen_b (cp_buf C) (cp_fit C) pp seed (ch_buf h) in (r, CHeap (ch_read h) (ch_vec h) (ch_hv h) b).

(** src/ffi.rs 149-183: c_sign_present. *)
Definition c_sign_present_mem {E} (C : cpolicy) (m : mode) (pp : pubparam E) (sk msg : bytes) (tar_time : N) : st (cheap E) bytes := fun h =>
  let (k, s) := sk_deserialize_m (cp_hv C) (cp_ssk C) true (rpush sk [], ch_read h) in
  let h' := CHeap (snd s) (ch_vec h) (ch_hv h) (ch_buf h) in
  match k with
  | Ok k =>
    (let! sig := or_panic (fst (sign_present m tar_time pp msg k)) in
     let! sig_buf := or_panic (to_vec (sig_serialize sig true)) in
     copy_from_slice SIG_LEN sig_buf, h')
  | Err _ => (Panic P_FFI, h')
  | Panic p => (Panic p, h')
  end.
