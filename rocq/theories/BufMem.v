(** SecretKey::serialize and SubSecretKey::serialize once more (src/serdes.rs 211-236 and 291-329), now
    with the memory blocks of the Vec<u8> they collect the bytes in.

    A Vec<u8> has a block of some capacity, of which the first bytes are in use.  std::vec
    says: vec![..] makes a block of exactly the bytes given; push, extend and write_all append, and if
    the bytes do not fit the block is first enlarged, to at least the size needed ([bgrow]).
    The allocator may do this by giving out another block and freeing the old one as it
    is ([bmoved]).  zeroize (serdes.rs 233 and 325) overwrites the block the Vec has at that time; an
    early return by [?] drops the Vec, whose block is freed as it is.
    Simplification: a point is appended at once.  Not modelled: the stack, the block of the
    Vec that is given as the writer, and what the allocator writes into freed blocks. *)
From Verif Require Import Base Env SubKey SecretKey IO Serdes.
Local Open Scope N_scope.

Record bpolicy := BPolicy { bgrow : nat -> nat -> nat; bmoved : nat -> bool }.
(** The bytes in use and the capacity. *)
Record vbuf := VBuf { vb_data : bytes; vb_cap : nat }.
Definition vbuf_of (b : bytes) : vbuf := VBuf b (length b).

(** Vec::push, extend, write_all on a Vec; the state is the list of freed blocks. *)
Definition vb_append (P : bpolicy) (x : bytes) (b : vbuf) : st (list bytes) vbuf := fun fr =>
  let need := (length (vb_data b) + length x)%nat in
  if (need <=? vb_cap b)%nat then (Ok (VBuf (vb_data b ++ x) (vb_cap b)), fr)
  else (Ok (VBuf (vb_data b ++ x) (Nat.max need (bgrow P (vb_cap b) need))),
        if bmoved P (vb_cap b) then vb_data b :: fr else fr).
(** src/serdes.rs 319-321: the loop over the h-vector. *)
Fixpoint vb_appends (P : bpolicy) (l : list bytes) (b : vbuf) : st (list bytes) vbuf :=
  match l with
  | [] => sret b
  | x :: l' => do! b <- vb_append P x b; vb_appends P l' b
  end.

(** src/serdes.rs 291-329: SubSecretKey::serialize into the Vec [out] of the caller (227). *)
Definition ssk_serialize_b {E} (P : bpolicy) (x : subkey E) (c : bool) (out : vbuf) : st (list bytes) vbuf :=
  let hvlen := length (sk_hvec x) in
  let time := sk_t x in
  if pow2 32 <? time then slift (Err E_SERIAL)
  else
    let buf := vbuf_of (time_bytes time) in
    do! buf <- vb_append P [as_u8 (N.of_nat hvlen)] buf;
    do! buf <- vb_append P (g2_enc c (sk_g2r x)) buf;
    do! buf <- vb_append P (g1_enc c (sk_hpoly x)) buf;
    do! buf <- vb_appends P (map (g1_enc c) (sk_hvec x)) buf;
    vb_append P (vb_data buf) out.

(** src/serdes.rs 226-228: the loop over the sub keys.  An error drops the Vec. *)
Fixpoint ssks_serialize_b {E} (P : bpolicy) (l : list (subkey E)) (c : bool) (out : vbuf) : st (list bytes) vbuf :=
  match l with
  | [] => sret out
  | e :: l' => fun fr =>
    match ssk_serialize_b P e c out fr with
    | (Ok out', fr') => ssks_serialize_b P l' c out' fr'
    | (Err e, fr') => (Err e, vb_data out :: fr')
    | (Panic p, fr') => (Panic p, vb_data out :: fr')
    end
  end.

(** src/serdes.rs 211-236: SecretKey::serialize. *)
Definition sk_serialize_b {E} (P : bpolicy) (x : seckey E) (c : bool) : st (writer * list bytes) unit := fun s =>
  let (w, fr) := s in
  if negb (valid_cs (sec_cs x)) then (Err E_CIPHERSUITE, s)
  else
    let collect :=
      let buf := vbuf_of [sec_cs x] in
      do! buf <- vb_append P [as_u8 (N.of_nat (length (sec_ssk x)))] buf;
      do! buf <- vb_append P (sec_prng x) buf;
      ssks_serialize_b P (sec_ssk x) c buf in
    match collect fr with
    | (Ok buf, fr') =>
      match write_all (vb_data buf) w with
      | (Ok _, w') => (Ok tt, (w', fr'))
      | (Err e, w') => (Err e, (w', vb_data buf :: fr'))
      | (Panic p, w') => (Panic p, (w', vb_data buf :: fr'))
      end
    | (Err e, fr') => (Err e, (w, fr'))
    | (Panic p, fr') => (Panic p, (w, fr'))
    end.
