(** Model of src/serdes.rs, and of SecretKey::digest (src/secret_key.rs). *)
From Verif Require Import Base Env Time Hkdf Prng SubKey SecretKey Keys Sig IO.
Local Open Scope N_scope.

(** pixel_param: [PixelG1::deserialize(reader, compressed)] reads the 96 (192) bytes of
    the encoding and decodes them; [serialize] into a Vec appends the encoding. *)
Definition g1_read {E : env} (c : bool) : st reader (G1 E) :=
  do! b <- read_exact (g1_size c);
  slift (match g1_dec c b with Some x => Ok x | None => Err E_POINT end).
Definition g2_read {E : env} (c : bool) : st reader (G2 E) :=
  do! b <- read_exact (g2_size c);
  slift (match g2_dec c b with Some x => Ok x | None => Err E_POINT end).

(** src/serdes.rs 24-35: ProofOfPossession::serialize. *)
Definition pop_serialize {E} (x : proof E) (c : bool) : st writer unit :=
  if negb (valid_cs (pop_cs x)) then slift (Err E_CIPHERSUITE)
  else
    let buf := [pop_cs x] in
    let buf := buf ++ g1_enc c (pop_pop x) in
    write_all buf.

(** src/serdes.rs 46-62: ProofOfPossession::deserialize. *)
Definition pop_deserialize {E : env} (c : bool) : st reader (proof E) :=
  do! constants <- read_exact 1;
  let cs := nth 0 constants 0 in
  if negb (valid_cs cs) then slift (Err E_CIPHERSUITE)
  else
    do! pop <- g1_read c;
    sret (Pop cs pop).

(** src/serdes.rs 72-102: Signature::serialize. *)
Definition sig_serialize {E} (x : signature E) (c : bool) : st writer unit :=
  if negb (valid_cs (sig_cs x)) then slift (Err E_CIPHERSUITE)
  else
    let time := sig_time x in
    if pow2 32 <=? time then slift (Err E_SERIAL)
    else
      let buf := sig_cs x :: time_bytes time in
      let buf := buf ++ g2_enc c (sig_1 x) in
      let buf := buf ++ g1_enc c (sig_2 x) in
      write_all buf.

(** src/serdes.rs 113-152: Signature::deserialize. *)
Definition sig_deserialize {E : env} (c : bool) : st reader (signature E) :=
  do! constants <- read_exact 1;
  let cs := nth 0 constants 0 in
  do! tb <- read_exact 4;
  let time := from_be4 tb in
  if time =? 0 then slift (Err E_TIME_STAMP)
  else if negb (valid_cs cs) then slift (Err E_CIPHERSUITE)
  else
    do! sigma1 <- g2_read c;
    if negb c then slift (Err E_COMPRESS)
    else
      do! sigma2 <- g1_read c;
      if negb c then slift (Err E_COMPRESS)
      else sret (Signature cs time sigma1 sigma2).

(** src/serdes.rs 161-173: PublicKey::serialize. *)
Definition pk_serialize {E} (x : pubkey E) (c : bool) : st writer unit :=
  if negb (valid_cs (pk_cs x)) then slift (Err E_CIPHERSUITE)
  else
    let buf := [pk_cs x] in
    let buf := buf ++ g2_enc c (pk_pk x) in
    write_all buf.

(** src/serdes.rs 179-194: PublicKey::deserialize. *)
Definition pk_deserialize {E : env} (c : bool) : st reader (pubkey E) :=
  do! constants <- read_exact 1;
  let cs := nth 0 constants 0 in
  if negb (valid_cs cs) then slift (Err E_CIPHERSUITE)
  else
    do! pk <- g2_read c;
    sret (PubKey cs pk).

(** src/serdes.rs 291-329: SubSecretKey::serialize; note [>] in the time check and
    [hvlen as u8]. *)
Definition ssk_serialize {E} (x : subkey E) (c : bool) : st writer unit :=
  let hvlen := length (sk_hvec x) in
  let time := sk_t x in
  if pow2 32 <? time then slift (Err E_SERIAL)
  else
    let buf := time_bytes time in
    let buf := buf ++ [as_u8 (N.of_nat hvlen)] in
    let buf := buf ++ g2_enc c (sk_g2r x) in
    let buf := buf ++ g1_enc c (sk_hpoly x) in
    let buf := fold_left (fun b e => b ++ g1_enc c e) (sk_hvec x) buf in
    write_all buf.

(** src/serdes.rs 359-362: the loop that reads hvector. *)
Fixpoint hv_read {E : env} (c : bool) (n : nat) : st reader (list (G1 E)) :=
  match n with
  | O => sret []
  | S n' =>
    do! x <- g1_read c;
    do! l <- hv_read c n';
    sret (x :: l)
  end.

(** src/serdes.rs 334-365: SubSecretKey::deserialize; the length byte is read with
    [read], not [read_exact], into a zero-initialized buffer. *)
Definition ssk_deserialize {E : env} (c : bool) : st reader (subkey E) :=
  do! tb <- read_exact 4;
  let time := from_be4 tb in
  if time =? 0 then slift (Err E_TIME_STAMP)
  else
    do! hvlen <- (fun r => match read1 r with
                           | (Ok (Some b), r') => (Ok b, r')
                           | (Ok None, r') => (Ok 0, r')
                           | (_, r') => (Err E_DESERIAL, r')
                           end);
    do! g2r <- g2_read c;
    do! hpoly <- g1_read c;
    do! hv <- hv_read c (N.to_nat hvlen);
    sret (SubKey time g2r hpoly hv).

(** src/serdes.rs 226-228: the loop that serializes the sub keys into the Vec. *)
Fixpoint ssks_serialize {E} (l : list (subkey E)) (c : bool) : st writer unit :=
  match l with
  | [] => sret tt
  | e :: l' => do! _ <- ssk_serialize e c; ssks_serialize l' c
  end.

(** src/serdes.rs 211-236: SecretKey::serialize; everything is first collected in a
    local Vec. *)
Definition sk_serialize {E} (x : seckey E) (c : bool) : st writer unit :=
  if negb (valid_cs (sec_cs x)) then slift (Err E_CIPHERSUITE)
  else
    let buf := [sec_cs x] in
    let buf := buf ++ [as_u8 (N.of_nat (length (sec_ssk x)))] in
    let buf := buf ++ sec_prng x in
    do! buf <- slift (match ssks_serialize (sec_ssk x) c (vec_writer buf) with
                      | (Ok _, w) => Ok (w_out w)
                      | (Err e, _) => Err e
                      | (Panic p, _) => Panic p
                      end);
    write_all buf.

(** src/serdes.rs 271-275: the remaining sub keys. *)
Fixpoint ssks_read {E : env} (c : bool) (n : nat) : st reader (list (subkey E)) :=
  match n with
  | O => sret []
  | S n' =>
    do! x <- ssk_deserialize c;
    do! l <- ssks_read c n';
    sret (x :: l)
  end.

(** src/serdes.rs 250-284: SecretKey::deserialize. *)
Definition sk_deserialize {E : env} (c : bool) : st reader (seckey E) :=
  do! constants <- read_exact 2;
  do! rngseed <- read_exact 64;
  let cs := nth 0 constants 0 in
  let num := nth 1 constants 0 in
  if negb (valid_cs cs) then slift (Err E_CIPHERSUITE)
  else if num =? 0 then slift (Err E_DESERIAL)
  else
    do! ssk <- ssk_deserialize c;
    do! rest <- ssks_read c (N.to_nat num - 1);
    sret (SecKey cs (sk_t ssk) (ssk :: rest) rngseed).

(** Serialization into an empty Vec, deserialization from a byte slice. *)
Definition to_vec (f : st writer unit) : res bytes :=
  match f (vec_writer []) with
  | (Ok _, w) => Ok (w_out w)
  | (Err e, _) => Err e
  | (Panic p, _) => Panic p
  end.
Definition from_slice {A} (f : st reader A) (b : bytes) : res A := fst (f (rpush b [])).

(** src/secret_key.rs 131-141: digest.  The Vec handed to serialize already has
    size() zero bytes, and serialize appends. *)
Definition sk_digest {E} (x : seckey E) : res bytes :=
  let hashinput := repeat 0 (sk_size x) in
  match sk_serialize x true (vec_writer hashinput) with
  | (Ok _, w) => Ok (sha512 E (w_out w))
  | (Err _, _) => Err E_SERIAL
  | (Panic p, _) => Panic p
  end.
