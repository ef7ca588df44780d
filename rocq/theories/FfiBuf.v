(** c_keygen and c_sk_update once more (src/ffi.rs 86-142 and 227-275), now with the memory blocks of the Vec<u8>
    with the secret key that is handed to C, and with the assertion on its capacity (125, 263).

    The Vec starts empty, with no block; serialize appends all bytes of the key at once (serdes.rs 231).
    shrink_to_fit: std::vec says that the capacity gets as close as possible to the length, but the allocator
    may still leave some ([sfit]), and it may do this by giving out another block and freeing the old one as it is ([smoved]).
    A panic drops the Vec, whose block is freed as it is.  The state is the list of freed blocks, as in BufMem.v;
    mem::forget takes the block out of Rust's hands.  Not modelled here: the blocks freed by the reading (ReadMem.v) and
    the update (VecMem.v, HvMem.v) of the key, and the buffers of the public key and the proof of possession. *)
From Verif Require Import Base Env SubKey SecretKey Keys Sig IO Serdes Ffi BufMem.
Local Open Scope N_scope.

Record spolicy := SPolicy { sfit : nat -> nat -> nat; smoved : nat -> nat -> bool }.

(** src/ffi.rs 105-109 and 254-258: let mut k_buf = vec![]; assert!(k.serialize(&mut k_buf, true).is_ok()). *)
Definition sk_to_vec_b {E} (P : bpolicy) (k : seckey E) : st (list bytes) vbuf := fun fr =>
  match sk_serialize_b P k true (vec_writer [], fr) with
  | (Ok _, (w, fr')) => let n := length (w_out w) in (Ok (VBuf (w_out w) (Nat.max n (bgrow P 0 n))), fr')
  | (Err _, (_, fr')) => (Panic P_FFI, fr')
  | (Panic p, (_, fr')) => (Panic p, fr')
  end.

(** src/ffi.rs 124 and 262. *)
Definition shrink_to_fit (S : spolicy) (b : vbuf) : st (list bytes) vbuf := fun fr =>
  let n := length (vb_data b) in
  if (vb_cap b <=? n)%nat then (Ok b, fr)
  else (Ok (VBuf (vb_data b) (Nat.min (vb_cap b) (Nat.max n (sfit S (vb_cap b) n)))),
        if smoved S (vb_cap b) n then vb_data b :: fr else fr).

(** src/ffi.rs 124-131 and 262-269: shrink_to_fit, the assertion, as_mut_ptr and forget. *)
Definition give_out (S : spolicy) (b : vbuf) : st (list bytes) bytes :=
  do! b <- shrink_to_fit S b;
  fun fr => if (length (vb_data b) =? vb_cap b)%nat then (Ok (vb_data b), fr) else (Panic P_FFI, vb_data b :: fr).

(** src/ffi.rs 86-142: c_keygen. *)
Definition c_keygen_b {E} (P : bpolicy) (S : spolicy) (pp : pubparam E) (seed : bytes) : st (list bytes) (bytes * bytes * bytes) :=
  do! k <- slift (or_panic (key_gen seed pp));
  let '(pk, sk, pop) := k in
  do! pk_buf <- slift (or_panic (to_vec (pk_serialize pk true)));
  do! b <- sk_to_vec_b P sk;
  fun fr =>
    match (let! pop_buf := or_panic (to_vec (pop_serialize pop true)) in
           let! pk_array := copy_from_slice PK_LEN pk_buf in
           let! pop_array := copy_from_slice POP_LEN pop_buf in
           Ok (pk_array, pop_array)) with
    | Ok (pk_array, pop_array) => (do! skb <- give_out S b; sret (pk_array, skb, pop_array)) fr
    | Err e => (Err e, vb_data b :: fr)
    | Panic p => (Panic p, vb_data b :: fr)
    end.

(** src/ffi.rs 227-275: c_sk_update. *)
Definition c_sk_update_b {E} (P : bpolicy) (S : spolicy) (m : mode) (pp : pubparam E) (sk seed : bytes) (tar_time : N)
  : st (list bytes) bytes :=
  do! k <- slift (or_panic (from_slice (sk_deserialize true) sk));
  do! k' <- slift (or_panic (run_mut (update m pp tar_time seed) k));
  do! b <- sk_to_vec_b P k';
  give_out S b.
