(** The calls once more, with the strings they hash.

    [ask H x] is one use of SHA-512: [H x], and [x] is recorded.  The functions are those of Hkdf.v, Prng.v,
    SecretKey.v, Keys.v, Sig.v and Api.v with this one change; whatever hashes nothing is taken from there.
    Recorded are whole inputs, in the order in which they are complete; the hmac crate hashes the two key blocks
    once per key and copies the state, which is not visible here.  Not recorded: what the BLS dependency hashes
    (core_sign and core_verify of the proof of possession). *)
From Verif Require Import Base Env Time Hkdf Prng SubKey SecretKey Keys Sig Api.
Local Open Scope N_scope.

Notation hlog := (list bytes).
Definition ask (H : bytes -> bytes) (x : bytes) : st hlog bytes := fun l => (Ok (H x), l ++ [x]).

(** crate hmac (Hkdf.v). *)
Definition hmac_q (H : bytes -> bytes) (key msg : bytes) : st hlog bytes :=
  do! k0 <- (if (128 <? length key)%nat then ask H key else sret key);
  let k := pad_to 128 k0 in
  do! i <- ask H (xor_bytes 0x36 k ++ msg);
  ask H (xor_bytes 0x5c k ++ i).

(** crate hkdf, expand. *)
Fixpoint hkdf_blocks_q (H : bytes -> bytes) (prk info prev : bytes) (blocknum n : nat) : st hlog bytes :=
  match n with
  | O => sret []
  | S n' =>
    do! out <- hmac_q H prk (prev ++ info ++ [as_u8 (N.of_nat blocknum) + 1]);
    do! rest <- hkdf_blocks_q H prk info out (S blocknum) n';
    sret (out ++ rest)
  end.
Definition expand_or_panic_q (H : bytes -> bytes) (prk info : bytes) (len : nat) : st hlog bytes :=
  if (64 * 255 <? len)%nat then slift (Panic P_HKDF)
  else do! out <- hkdf_blocks_q H prk info [] 0 ((len + 63) / 64); sret (firstn len out).

(** src/prng.rs 71-79: PRNG::init. *)
Definition prng_init_q (H : bytes -> bytes) (seed salt : bytes) : st hlog prng :=
  do! k <- hmac_q H salt seed; sret (firstn 64 k).
(** src/prng.rs 83-119: sample_then_update. *)
Definition sample_then_update_q (H : bytes -> bytes) (self : prng) (info : bytes) : st hlog (N * prng) :=
  do! out <- expand_or_panic_q H self info 128;
  do! r <- slift (os2ip_mod_p (firstn 64 out));
  sret (r, firstn 64 (skipn 64 out)).
(** src/prng.rs 123-145: sample. *)
Definition sample_q (H : bytes -> bytes) (self : prng) (info : bytes) : st hlog N :=
  do! out <- expand_or_panic_q H self info 64;
  slift (os2ip_mod_p out).
(** src/prng.rs 148-175: rerandomize. *)
Definition rerandomize_q (H : bytes -> bytes) (self : prng) (seed info : bytes) : st hlog prng :=
  do! m <- expand_or_panic_q H self info 128;
  do! k <- hmac_q H (firstn 64 (skipn 64 m)) (firstn 64 m ++ seed);
  sret (firstn 64 k).
(** src/sig.rs 469-480: hash_msg_into_fr. *)
Definition hash_msg_q (H : bytes -> bytes) (msg : bytes) (cs : N) : st hlog N :=
  do! h <- ask H (DOM_SEP_HASH_TO_MSG ++ [cs] ++ msg);
  slift (os2ip_mod_p h).

(** src/secret_key.rs 46-75: init. *)
Definition sk_init_q {E} (H : bytes -> bytes) (pp : pubparam E) (alpha : G1 E) (g : prng) : st hlog (seckey E) :=
  if negb (valid_cs (pp_cs pp)) then slift (Err E_CIPHERSUITE)
  else
    do! (r, g') <- sample_then_update_q H g (DOM_SEP_SK_INIT ++ [0; 0; 0; 1]);
    do! ssk <- slift (ssk_init pp alpha r);
    sret (SecKey (pp_cs pp) 1 [ssk] g').
(** src/key_pair.rs 88-143: master_key_gen. *)
Definition master_key_gen_q {E} (H : bytes -> bytes) (seed : bytes) (pp : pubparam E) : st hlog (G2 E * G1 E * G1 E * prng) :=
  if (length seed <? 32)%nat then slift (Err E_SEED_TOO_SHORT)
  else if negb (valid_cs (pp_cs pp)) then slift (Err E_CIPHERSUITE)
  else
    do! g <- prng_init_q H seed (DOM_SEP_MASTER_KEY ++ [pp_cs pp]);
    do! (x, g') <- sample_then_update_q H g KEY_INIT_INFO;
    let pk := g2_mul x (pp_g2 pp) in
    sret (pk, g1_mul x (pp_h pp), proof_of_possession x pk (pp_cs pp), g').
(** src/key_pair.rs 24-73: KeyPair::keygen. *)
Definition key_gen_q {E} (H : bytes -> bytes) (seed : bytes) (pp : pubparam E) : st hlog (pubkey E * seckey E * proof E) :=
  if (length seed <? 32)%nat then slift (Err E_SEED_TOO_SHORT)
  else
    do! (pk, msk, pop, g) <- master_key_gen_q H seed pp;
    do! pk <- slift (pk_init pp pk);
    do! sk <- sk_init_q H pp msk g;
    sret (pk, sk, Pop (pp_cs pp) pop).

(** src/secret_key.rs 381-403. *)
Definition rerand_new_q {E} (H : bytes -> bytes) (m : mode) (pp : pubparam E) (old : prng) (i : nat)
    (s : subkey E) (g : prng) : st hlog (subkey E * prng) :=
  if (i =? 0)%nat then sret (s, g)
  else
    do! (r, g') <- sample_then_update_q H g DOM_SEP_SK_UPDATE;
    if prng_eqb g' old then slift (Panic P_PRNG)
    else
      do! s' <- slift (run_mut (randomization m pp r) s);
      sret (s', g').
(** src/secret_key.rs 337-411. *)
Fixpoint update_loop_q {E} (H : bytes -> bytes) (m : mode) (pp : pubparam E) (old : prng) (i : nat)
    (gl : list timevec) (ssk : list (subkey E)) (g : prng) : st hlog (list (subkey E) * prng) :=
  match gl with
  | [] => sret (ssk, g)
  | tmptime :: gl' =>
    do! found <- slift (dup_loop m (pp_depth pp) tmptime (skipn (i + 1) ssk));
    if found : bool then sret (ssk, g)
    else
      do! s0 <- slift (nth_res ssk 0);
      do! s1 <- slift (run_mut (delegate m (tv_time tmptime) (pp_depth pp)) s0);
      do! (s2, g') <- rerand_new_q H m pp old i s1 g;
      do! ssk' <- slift (insert_at (i + 1) s2 ssk);
      update_loop_q H m pp old (S i) gl' ssk' g'
  end.
(** src/secret_key.rs 151-430: update; returns the new key (the old one stays on failure). *)
Definition update_q {E} (H : bytes -> bytes) (m : mode) (pp : pubparam E) (tar_time : N) (seed : bytes) (self : seckey E) : st hlog (seckey E) :=
  if negb (sec_cs self =? pp_cs pp) then slift (Err E_CIPHERSUITE)
  else
    let depth := pp_depth pp in
    do! p <- slift (shl64 m depth);
    do! max_time <- slift (sub64 m p 1);
    let cur_time := sec_time self in
    if (tar_time <=? cur_time) || (max_time <? tar_time) then slift (Err E_TIME_STAMP)
    else
      do! delegator_time <- slift (find_ancestor self tar_time);
      do! g <- rerandomize_q H (sec_prng self) seed (DOM_SEP_SK_RERANDOMIZE_INFO ++ time_bytes cur_time);
      do! ssk <- slift (drop_until delegator_time (sec_ssk self));
      match ssk with
      | [] => slift (Err E_SSK_EMPTY)
      | _ :: _ =>
        if delegator_time =? tar_time then sret (SecKey (sec_cs self) delegator_time ssk g)
        else
          do! tv <- slift (tv_init m tar_time depth);
          do! gl <- slift (gamma_list m tv depth);
          do! (ssk', g') <- update_loop_q H m pp (sec_prng self) 0 gl ssk g;
          do! ssk'' <- slift (remove_at 0 ssk');
          do! s0 <- slift (nth_res ssk'' 0);
          sret (SecKey (sec_cs self) (sk_t s0) ssk'' g')
      end.

(** src/sig.rs 164-216: sign_bytes. *)
Definition sign_bytes_q {E} (H : bytes -> bytes) (m : mode) (sk : seckey E) (tar_time : N) (pp : pubparam E) (msg : bytes) : st hlog (signature E) :=
  let cs := pp_cs pp in
  if negb (valid_cs cs) then slift (Err E_CIPHERSUITE)
  else if negb (sec_cs sk =? cs) then slift (Err E_CIPHERSUITE)
  else if negb (sec_time sk =? tar_time) then slift (Panic P_TIME)
  else
    do! r <- sample_q H (sec_prng sk) (DOM_SEP_SIG ++ msg ++ time_bytes tar_time);
    do! hm <- hash_msg_q H msg (pp_cs pp);
    slift (sign_fr m sk tar_time pp hm r).

(** The state of the calls on a key: the key and the log. *)
Definition qlift {E A} (f : st hlog A) : st (seckey E * hlog) A := fun s =>
  let (r, l) := f (snd s) in (r, (fst s, l)).
Definition qkey {E} : st (seckey E * hlog) (seckey E) := fun s => (Ok (fst s), s).
Definition qset {E} (sk : seckey E) : st (seckey E * hlog) unit := fun s => (Ok tt, (sk, snd s)).
Definition sk_update_q {E} (H : bytes -> bytes) (m : mode) (pp : pubparam E) (tar_time : N) (seed : bytes) : st (seckey E * hlog) unit :=
  do! sk <- qkey;
  do! sk' <- qlift (update_q H m pp tar_time seed sk);
  qset sk'.
(** src/sig.rs 70-96: sign. *)
Definition sign_q {E} (H : bytes -> bytes) (m : mode) (tar_time : N) (pp : pubparam E) (msg seed : bytes) : st (seckey E * hlog) (signature E) :=
  do! sk <- qkey;
  let cur_time := sec_time sk in
  if tar_time <? cur_time then slift (Err E_TIME_STAMP)
  else
    do! _ <- (if cur_time <? tar_time then sk_update_q H m pp tar_time seed else sret tt);
    do! sk <- qkey;
    qlift (sign_bytes_q H m sk tar_time pp msg).
(** src/sig.rs 102-123: sign_present. *)
Definition sign_present_q {E} (H : bytes -> bytes) (m : mode) (tar_time : N) (pp : pubparam E) (msg : bytes) : st (seckey E * hlog) (signature E) :=
  do! sk <- qkey;
  if negb (sec_time sk =? tar_time) then slift (Err E_TIME_STAMP)
  else qlift (sign_bytes_q H m sk tar_time pp msg).
(** src/sig.rs 130-160: sign_then_update. *)
Definition sign_then_update_q {E} (H : bytes -> bytes) (m : mode) (tar_time : N) (pp : pubparam E) (msg seed : bytes) : st (seckey E * hlog) (signature E) :=
  do! sk <- qkey;
  if negb (sec_time sk =? tar_time) then slift (Err E_TIME_STAMP)
  else
    do! p <- qlift (sign_bytes_q H m sk tar_time pp msg);
    do! t1 <- slift (add64 m tar_time 1);
    do! _ <- sk_update_q H m pp t1 seed;
    sret p.

(** src/sig.rs 306-324: verify_bytes. *)
Definition verify_q {E} (H : bytes -> bytes) (m : mode) (s : signature E) (pk : pubkey E) (pp : pubparam E) (msg : bytes) : st hlog bool :=
  if negb (valid_cs (pp_cs pp)) then sret false
  else if negb (sig_cs s =? pp_cs pp) then sret false
  else
    do! hm <- hash_msg_q H msg (pp_cs pp);
    slift (verify_fr m s pk pp hm).
(** src/sig.rs 437-464: verify_bytes_aggregated. *)
Definition verify_aggregated_q {E} (H : bytes -> bytes) (m : mode) (s : signature E) (pks : list (pubkey E)) (pp : pubparam E) (msg : bytes) : st hlog bool :=
  let cs := pp_cs pp in
  if negb (forallb (fun e => cs =? pk_cs e) pks) then sret false
  else if negb (sig_cs s =? cs) then sret false
  else
    match pks with
    | [] => slift (Panic P_INDEX)
    | k :: pks' => verify_q H m s (PubKey cs (fold_left (fun a e => g2_add a (pk_pk e)) pks' (pk_pk k))) pp msg
    end.

(** Histories (Api.v); saving and loading hashes nothing. *)
Definition step_q {E} (H : bytes -> bytes) (m : mode) (pp : pubparam E) (o : op) : st (seckey E * hlog) (option (signature E)) :=
  match o with
  | OpUpdate t seed => do! _ <- sk_update_q H m pp t seed; sret None
  | OpSign t msg seed => do! s <- sign_q H m t pp msg seed; sret (Some s)
  | OpSignPresent t msg => do! s <- sign_present_q H m t pp msg; sret (Some s)
  | OpSignThenUpdate t msg seed => do! s <- sign_then_update_q H m t pp msg seed; sret (Some s)
  | OpReload c => fun s => let (r, sk) := reload c (fst s) in (match r with Ok _ => Ok None | Err e => Err e | Panic p => Panic p end, (sk, snd s))
  end.
Fixpoint run_q {E} (H : bytes -> bytes) (m : mode) (pp : pubparam E) (ops : list op) (s : seckey E * hlog)
  : list (res (option (signature E))) * (seckey E * hlog) :=
  match ops with
  | [] => ([], s)
  | o :: ops' =>
    let (r, s1) := step_q H m pp o s in
    let (rs, s2) := run_q H m pp ops' s1 in
    (r :: rs, s2)
  end.
