(** c_sk_update as a whole (src/ffi.rs 227-275), with all heap blocks it frees: those of reading the old key
    (ReadMem.v), of the Vec of sub keys and of the h-vectors in the update (VecMem.v, HvMem.v), of the buffers of the serialization and
    of the Vec handed out (FfiBuf.v).  At the end, or when a panic unwinds, the key is dropped.
    The spare slots of the Vecs of a key that was just read were never written; they are left out.  The stack is in Hygiene.v. *)
From Verif Require Import Base Env Prng SubKey SecretKey IO Serdes Ffi VecMem HvMem ReadMem BufMem FfiBuf.
Local Open Scope N_scope.

(** How the Vecs grow and what the allocator does: for the h-vectors and the sub keys while reading, for the update, for the buffers,
    and for shrink_to_fit. *)
Record cpolicy := CPolicy { cp_hv : policy; cp_ssk : policy; cp_up : policy; cp_buf : bpolicy; cp_fit : spolicy }.
(** The blocks freed. *)
Record cheap (E : env) := CHeap { ch_read : list (old_block E); ch_vec : list (slots E); ch_hv : hfreed E; ch_buf : list bytes }.
Arguments CHeap {E}. Arguments ch_read {E}. Arguments ch_vec {E}. Arguments ch_hv {E}. Arguments ch_buf {E}.

Definition c_sk_update_mem {E} (C : cpolicy) (m : mode) (pp : pubparam E) (sk seed : bytes) (tar_time : N) : st (cheap E) bytes := fun h =>
  match sk_deserialize_m (cp_hv C) (cp_ssk C) true (rpush sk [], ch_read h) with
  | (Ok k, (_, rd)) =>
    let k_hv := HKey (sec_cs k) (sec_time k) (map (fun s => (s, [])) (sec_ssk k)) (sec_prng k) in
    let '(o, (k', v)) := update_v (cp_up C) m pp tar_time seed (k, Heap [] (ch_vec h)) in
    let '(_, (k_hv', hv)) := update_hv (cp_up C) m pp tar_time seed (k_hv, ch_hv h) in
    let '(r, b) := (do! _ <- slift (or_panic o); do! x <- sk_to_vec_b (cp_buf C) k'; give_out (cp_fit C) x) (ch_buf h) in
    (r, CHeap rd (give_up (cp_up C) (spare v) (freed v)) (drop_subs (cp_up C) (hk_ssk k_hv') hv) b)
  | (Err _, (_, rd)) => (Panic P_FFI, CHeap rd (ch_vec h) (ch_hv h) (ch_buf h))
  | (Panic p, (_, rd)) => (Panic p, CHeap rd (ch_vec h) (ch_hv h) (ch_buf h))
  end.
