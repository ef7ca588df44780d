(** The calls once more, with the sequence of group operations they perform.

    [tick o] records one operation of the dependencies: add_assign, double, mul_assign, negate, in_subgroup, one
    multi-pairing with its number of pairs, core_sign and core_verify, a draw from the prng, its re-randomization,
    and the hash of a message.  Scalars and points are not recorded.
    Not recorded: arithmetic on time stamps, comparisons, copies, into_affine, what happens inside one operation,
    and the operations println! makes in debug builds (sig.rs 334-341). *)
From Verif Require Import Base Env Time Hkdf Prng SubKey SecretKey Keys Sig Api.
Local Open Scope N_scope.

Inductive gop := Add1 | Dbl1 | Mul1 | In1 | Add2 | Neg2 | Mul2 | In2 | Pairing (n : nat) | BlsSign | BlsVerify | Draw | Reseed | HashMsg.
Notation trace := (list gop).
Definition tick (o : gop) : st trace unit := fun l => (Ok tt, l ++ [o]).

(** src/subkeys.rs 147-155, src/sig.rs 259-267 and 368-374. *)
Fixpoint poly_loop_t {E} (hlist : list (G1 E)) (i : nat) (tv : list N) (acc : G1 E) : st trace (G1 E) :=
  match tv with
  | [] => sret acc
  | x :: tv' =>
    do! tmp2 <- slift (nth_res hlist (i + 1));
    do! tmp2 <- (if x =? 2 then do! _ <- tick Dbl1; sret (g1_dbl tmp2) else sret tmp2);
    do! _ <- tick Add1;
    poly_loop_t hlist (S i) tv' (g1_add acc tmp2)
  end.

(** src/subkeys.rs 165-170. *)
Fixpoint hv_loop_t {E} (hlist : list (G1 E)) (base : nat) (r : N) (hv : list (G1 E)) : st trace (list (G1 E)) :=
  match hv with
  | [] => sret []
  | x :: hv' =>
    do! h <- slift (nth_res hlist base);
    do! _ <- tick Mul1;
    do! _ <- tick Add1;
    do! l <- hv_loop_t hlist (S base) r hv';
    sret (g1_add x (g1_mul r h) :: l)
  end.

(** src/subkeys.rs 133-172: randomization of a local sub key (a failure drops it). *)
Definition randomization_t {E} (m : mode) (pp : pubparam E) (r : N) (s : subkey E) : st trace (subkey E) :=
  do! _ <- tick Mul2;
  do! _ <- tick Add2;
  let g2r := g2_add (sk_g2r s) (g2_mul r (pp_g2 pp)) in
  do! timevec <- slift (ssk_time_vec m s (pp_depth pp));
  let tv := tv_vec timevec in
  do! h0 <- slift (nth_res (pp_hlist pp) 0);
  do! tmp3 <- poly_loop_t (pp_hlist pp) 0 tv h0;
  do! _ <- tick Mul1;
  do! _ <- tick Add1;
  do! hv <- hv_loop_t (pp_hlist pp) (length tv + 1) r (sk_hvec s);
  sret (SubKey (sk_t s) g2r (g1_add (sk_hpoly s) (g1_mul r tmp3)) hv).

(** src/subkeys.rs 200-211. *)
Fixpoint del_loop_t {E} (hv : list (G1 E)) (ts : list N) (hp : G1 E) {struct ts} : st trace (G1 E) :=
  match ts with
  | [] => sret hp
  | t :: ts' =>
    match hv with
    | [] => slift (Panic P_INDEX)
    | h :: hv' =>
      do! h <- (if t =? 2 then do! _ <- tick Dbl1; sret (g1_dbl h) else sret h);
      do! _ <- tick Add1;
      del_loop_t hv' ts' (g1_add hp h)
    end
  end.

(** src/subkeys.rs 181-223: delegate of a local sub key. *)
Definition delegate_t {E} (m : mode) (tar_time : N) (depth : nat) (s : subkey E) : st trace (subkey E) :=
  do! cur_tv <- slift (tv_init m (sk_t s) depth);
  do! tar_tv <- slift (tv_init m tar_time depth);
  if negb (tv_is_prefix cur_tv tar_tv) then slift (Err E_TIME_NONE_PREFIX)
  else
    let cur_len := length (tv_vec cur_tv) in
    let tar_len := length (tv_vec tar_tv) in
    do! hp <- del_loop_t (sk_hvec s) (skipn cur_len (tv_vec tar_tv)) (sk_hpoly s);
    sret (SubKey tar_time (sk_g2r s) hp (skipn (tar_len - cur_len) (sk_hvec s))).

(** src/subkeys.rs 96-126: init. *)
Fixpoint muls_t {E : env} (r : N) (l : list (G1 E)) : st trace (list (G1 E)) :=
  match l with
  | [] => sret []
  | h :: l' => do! _ <- tick Mul1; do! hs <- muls_t r l'; sret (g1_mul r h :: hs)
  end.
Definition ssk_init_t {E} (pp : pubparam E) (alpha : G1 E) (r : N) : st trace (subkey E) :=
  do! _ <- tick Mul2;
  do! h0 <- slift (nth_res (pp_hlist pp) 0);
  do! _ <- tick Mul1;
  do! _ <- tick Add1;
  do! hv <- muls_t r (skipn 1 (firstn (pp_depth pp + 1) (pp_hlist pp)));
  sret (SubKey 1 (g2_mul r (pp_g2 pp)) (g1_add (g1_mul r h0) alpha) hv).

(** src/secret_key.rs 46-75: init. *)
Definition sk_init_t {E} (pp : pubparam E) (alpha : G1 E) (g : prng) : st trace (seckey E) :=
  if negb (valid_cs (pp_cs pp)) then slift (Err E_CIPHERSUITE)
  else
    do! _ <- tick Draw;
    do! (r, g') <- slift (sample_then_update (sha512 E) g (DOM_SEP_SK_INIT ++ [0; 0; 0; 1]));
    do! ssk <- ssk_init_t pp alpha r;
    sret (SecKey (pp_cs pp) 1 [ssk] g').

(** src/key_pair.rs 88-143: master_key_gen. *)
Definition master_key_gen_t {E} (seed : bytes) (pp : pubparam E) : st trace (G2 E * G1 E * G1 E * prng) :=
  if (length seed <? 32)%nat then slift (Err E_SEED_TOO_SHORT)
  else if negb (valid_cs (pp_cs pp)) then slift (Err E_CIPHERSUITE)
  else
    let g := prng_init (sha512 E) seed (DOM_SEP_MASTER_KEY ++ [pp_cs pp]) in
    do! _ <- tick Draw;
    do! (x, g') <- slift (sample_then_update (sha512 E) g KEY_INIT_INFO);
    do! _ <- tick Mul2;
    let pk := g2_mul x (pp_g2 pp) in
    do! _ <- tick BlsSign;
    let pop := proof_of_possession x pk (pp_cs pp) in
    do! _ <- tick Mul1;
    sret (pk, g1_mul x (pp_h pp), pop, g').

(** src/key_pair.rs 24-73: KeyPair::keygen. *)
Definition key_gen_t {E} (seed : bytes) (pp : pubparam E) : st trace (pubkey E * seckey E * proof E) :=
  if (length seed <? 32)%nat then slift (Err E_SEED_TOO_SHORT)
  else
    do! (pk, msk, pop, g) <- master_key_gen_t seed pp;
    do! pk <- slift (pk_init pp pk);
    do! sk <- sk_init_t pp msk g;
    sret (pk, sk, Pop (pp_cs pp) pop).

(** src/secret_key.rs 381-403. *)
Definition rerand_new_t {E} (m : mode) (pp : pubparam E) (old : prng) (i : nat)
    (s : subkey E) (g : prng) : st trace (subkey E * prng) :=
  if (i =? 0)%nat then sret (s, g)
  else
    do! _ <- tick Draw;
    do! (r, g') <- slift (sample_then_update (sha512 E) g DOM_SEP_SK_UPDATE);
    if prng_eqb g' old then slift (Panic P_PRNG)
    else
      do! s' <- randomization_t m pp r s;
      sret (s', g').

(** src/secret_key.rs 337-411. *)
Fixpoint update_loop_t {E} (m : mode) (pp : pubparam E) (old : prng) (i : nat)
    (gl : list timevec) (ssk : list (subkey E)) (g : prng) : st trace (list (subkey E) * prng) :=
  match gl with
  | [] => sret (ssk, g)
  | tmptime :: gl' =>
    do! found <- slift (dup_loop m (pp_depth pp) tmptime (skipn (i + 1) ssk));
    if found : bool then sret (ssk, g)
    else
      do! s0 <- slift (nth_res ssk 0);
      do! s1 <- delegate_t m (tv_time tmptime) (pp_depth pp) s0;
      do! (s2, g') <- rerand_new_t m pp old i s1 g;
      do! ssk' <- slift (insert_at (i + 1) s2 ssk);
      update_loop_t m pp old (S i) gl' ssk' g'
  end.

(** src/secret_key.rs 151-430: update; returns the new key (the old one stays on failure). *)
Definition update_t {E} (m : mode) (pp : pubparam E) (tar_time : N) (seed : bytes) (self : seckey E) : st trace (seckey E) :=
  if negb (sec_cs self =? pp_cs pp) then slift (Err E_CIPHERSUITE)
  else
    let depth := pp_depth pp in
    do! p <- slift (shl64 m depth);
    do! max_time <- slift (sub64 m p 1);
    let cur_time := sec_time self in
    if (tar_time <=? cur_time) || (max_time <? tar_time) then slift (Err E_TIME_STAMP)
    else
      do! delegator_time <- slift (find_ancestor self tar_time);
      let info := DOM_SEP_SK_RERANDOMIZE_INFO ++ time_bytes cur_time in
      do! _ <- tick Reseed;
      do! g <- slift (rerandomize (sha512 E) (sec_prng self) seed info);
      do! ssk <- slift (drop_until delegator_time (sec_ssk self));
      match ssk with
      | [] => slift (Err E_SSK_EMPTY)
      | _ :: _ =>
        if delegator_time =? tar_time then sret (SecKey (sec_cs self) delegator_time ssk g)
        else
          do! tv <- slift (tv_init m tar_time depth);
          do! gl <- slift (gamma_list m tv depth);
          do! (ssk', g') <- update_loop_t m pp (sec_prng self) 0 gl ssk g;
          do! ssk'' <- slift (remove_at 0 ssk');
          do! s0 <- slift (nth_res ssk'' 0);
          sret (SecKey (sec_cs self) (sk_t s0) ssk'' g')
      end.

(** src/sig.rs 220-300: sign_fr. *)
Definition sign_fr_t {E} (m : mode) (sk : seckey E) (tar_time : N) (pp : pubparam E) (msg r : N) : st trace (signature E) :=
  if negb (sec_time sk =? tar_time) then slift (Panic P_TIME)
  else
    do! ssk <- slift (first_ssk sk);
    let depth := pp_depth pp in
    let hlist := pp_hlist pp in
    do! timevec <- slift (ssk_time_vec m ssk depth);
    do! _ <- tick Mul2;
    do! _ <- tick Add2;
    let sig1 := g2_add (sk_g2r ssk) (g2_mul r (pp_g2 pp)) in
    do! h0 <- slift (nth_res hlist 0);
    do! tmp3 <- poly_loop_t hlist 0 (tv_vec timevec) h0;
    do! hd <- slift (nth_res hlist depth);
    do! _ <- tick Mul1;
    do! _ <- tick Add1;
    let tmp3 := g1_add tmp3 (g1_mul msg hd) in
    do! _ <- tick Mul1;
    let tmp3 := g1_mul r tmp3 in
    do! hv_last <- slift (last_hvector_coeff ssk);
    do! _ <- tick Mul1;
    do! _ <- tick Add1;
    do! _ <- tick Add1;
    sret (Signature (pp_cs pp) tar_time sig1 (g1_add (g1_add (sk_hpoly ssk) (g1_mul msg hv_last)) tmp3)).

(** src/sig.rs 164-216: sign_bytes. *)
Definition sign_bytes_t {E} (m : mode) (sk : seckey E) (tar_time : N) (pp : pubparam E) (msg : bytes) : st trace (signature E) :=
  let cs := pp_cs pp in
  if negb (valid_cs cs) then slift (Err E_CIPHERSUITE)
  else if negb (sec_cs sk =? cs) then slift (Err E_CIPHERSUITE)
  else if negb (sec_time sk =? tar_time) then slift (Panic P_TIME)
  else
    do! _ <- tick Draw;
    do! r <- slift (sample (sha512 E) (sec_prng sk) (DOM_SEP_SIG ++ msg ++ time_bytes tar_time));
    do! _ <- tick HashMsg;
    do! hm <- slift (hash_msg_into_fr (sha512 E) msg (pp_cs pp));
    sign_fr_t m sk tar_time pp hm r.

(** The state of the calls on a key: the key and the operations so far. *)
Definition tlift {E A} (f : st trace A) : st (seckey E * trace) A := fun s =>
  let (r, l) := f (snd s) in (r, (fst s, l)).
Definition tkey {E} : st (seckey E * trace) (seckey E) := fun s => (Ok (fst s), s).
Definition tset {E} (sk : seckey E) : st (seckey E * trace) unit := fun s => (Ok tt, (sk, snd s)).
Definition sk_update_t {E} (m : mode) (pp : pubparam E) (tar_time : N) (seed : bytes) : st (seckey E * trace) unit :=
  do! sk <- tkey;
  do! sk' <- tlift (update_t m pp tar_time seed sk);
  tset sk'.

(** src/sig.rs 70-96: sign. *)
Definition sign_t {E} (m : mode) (tar_time : N) (pp : pubparam E) (msg seed : bytes) : st (seckey E * trace) (signature E) :=
  do! sk <- tkey;
  let cur_time := sec_time sk in
  if tar_time <? cur_time then slift (Err E_TIME_STAMP)
  else
    do! _ <- (if cur_time <? tar_time then sk_update_t m pp tar_time seed else sret tt);
    do! sk <- tkey;
    tlift (sign_bytes_t m sk tar_time pp msg).

(** src/sig.rs 102-123: sign_present. *)
Definition sign_present_t {E} (m : mode) (tar_time : N) (pp : pubparam E) (msg : bytes) : st (seckey E * trace) (signature E) :=
  do! sk <- tkey;
  if negb (sec_time sk =? tar_time) then slift (Err E_TIME_STAMP)
  else tlift (sign_bytes_t m sk tar_time pp msg).

(** src/sig.rs 130-160: sign_then_update. *)
Definition sign_then_update_t {E} (m : mode) (tar_time : N) (pp : pubparam E) (msg seed : bytes) : st (seckey E * trace) (signature E) :=
  do! sk <- tkey;
  if negb (sec_time sk =? tar_time) then slift (Err E_TIME_STAMP)
  else
    do! p <- tlift (sign_bytes_t m sk tar_time pp msg);
    do! t1 <- slift (add64 m tar_time 1);
    do! _ <- sk_update_t m pp t1 seed;
    sret p.

(** src/sig.rs 330-403: verify_fr; [||] does not look at sigma2 if sigma1 is rejected. *)
Definition verify_fr_t {E} (m : mode) (s : signature E) (pk : pubkey E) (pp : pubparam E) (msg : N) : st trace bool :=
  do! _ <- tick In2;
  do! bad <- (if negb (g2_insub (sig_1 s)) then sret true else do! _ <- tick In1; sret (negb (g1_insub (sig_2 s))));
  if bad : bool then sret false
  else
    let depth := pp_depth pp in
    let list := pp_hlist pp in
    do! h0 <- slift (nth_res list 0);
    match tv_init m (sig_time s) depth with
    | Err _ => sret false
    | Panic p => slift (Panic p)
    | Ok tv =>
      do! hfx <- poly_loop_t list 0 (tv_vec tv) h0;
      do! hd <- slift (nth_res list depth);
      do! _ <- tick Mul1;
      do! _ <- tick Add1;
      let hfx := g1_add hfx (g1_mul msg hd) in
      do! _ <- tick Neg2;
      do! _ <- tick (Pairing 3);
      sret (pairing_check [ (g2_neg (pp_g2 pp), sig_2 s); (sig_1 s, hfx); (pk_pk pk, pp_h pp) ])
    end.

(** src/sig.rs 306-324: verify_bytes. *)
Definition verify_t {E} (m : mode) (s : signature E) (pk : pubkey E) (pp : pubparam E) (msg : bytes) : st trace bool :=
  if negb (valid_cs (pp_cs pp)) then sret false
  else if negb (sig_cs s =? pp_cs pp) then sret false
  else
    do! _ <- tick HashMsg;
    do! hm <- slift (hash_msg_into_fr (sha512 E) msg (pp_cs pp));
    verify_fr_t m s pk pp hm.

(** src/sig.rs 408-430: aggregate_without_validate. *)
Fixpoint agg_loop_t {E} (r : signature E) (l : list (signature E)) : st trace (signature E) :=
  match l with
  | [] => sret r
  | e :: l' =>
    do! _ <- tick Add2;
    do! _ <- tick Add1;
    agg_loop_t (Signature (sig_cs r) (sig_time r) (g2_add (sig_1 r) (sig_1 e)) (g1_add (sig_2 r) (sig_2 e))) l'
  end.
Definition aggregate_t {E} (l : list (signature E)) : st trace (signature E) :=
  match l with
  | [] => slift (Panic P_INDEX)
  | s :: l' => do! _ <- slift (agg_check s l'); agg_loop_t s l'
  end.

(** src/sig.rs 437-464: verify_bytes_aggregated. *)
Fixpoint pk_loop_t {E : env} (a : G2 E) (l : list (pubkey E)) : st trace (G2 E) :=
  match l with
  | [] => sret a
  | e :: l' => do! _ <- tick Add2; pk_loop_t (g2_add a (pk_pk e)) l'
  end.
Definition verify_aggregated_t {E} (m : mode) (s : signature E) (pks : list (pubkey E)) (pp : pubparam E) (msg : bytes) : st trace bool :=
  let cs := pp_cs pp in
  if negb (forallb (fun e => cs =? pk_cs e) pks) then sret false
  else if negb (sig_cs s =? cs) then sret false
  else
    match pks with
    | [] => slift (Panic P_INDEX)
    | k :: pks' =>
      do! agg <- pk_loop_t (pk_pk k) pks';
      verify_t m s (PubKey cs agg) pp msg
    end.

(** src/subkeys.rs 246-250 and 227-281: validate. *)
Fixpoint poly_loop_mul_t {E} (hlist : list (G1 E)) (i : nat) (tv : list N) (acc : G1 E) : st trace (G1 E) :=
  match tv with
  | [] => sret acc
  | x :: tv' =>
    do! tmp <- slift (nth_res hlist (i + 1));
    do! _ <- tick Mul1;
    do! _ <- tick Add1;
    poly_loop_mul_t hlist (S i) tv' (g1_add acc (g1_mul x tmp))
  end.
Definition ssk_validate_t {E} (m : mode) (s : subkey E) (pk : pubkey E) (pp : pubparam E) : st trace bool :=
  match tv_init m (sk_t s) (pp_depth pp) with
  | Err _ => sret false
  | Panic p => slift (Panic p)
  | Ok t =>
    do! h0 <- slift (nth_res (pp_hlist pp) 0);
    do! h2fx <- poly_loop_mul_t (pp_hlist pp) 0 (tv_vec t) h0;
    do! _ <- tick Neg2;
    do! _ <- tick (Pairing 3);
    sret (pairing_check [ (g2_neg (pp_g2 pp), sk_hpoly s); (sk_g2r s, h2fx); (pk_pk pk, pp_h pp) ])
  end.

(** src/secret_key.rs 524-546 and 484-549: validate. *)
Fixpoint validate_loop_t {E} (m : mode) (pk : pubkey E) (pp : pubparam E) (l : list (subkey E)) (gl : list timevec) : st trace bool :=
  match l with
  | [] => sret true
  | s :: l' =>
    do! ok <- ssk_validate_t m s pk pp;
    if negb ok then sret false
    else
      match gl with
      | [] => slift (Panic P_INDEX)
      | t :: gl' => if negb (sk_t s =? tv_time t) then sret false else validate_loop_t m pk pp l' gl'
      end
  end.
Definition sk_validate_t {E} (m : mode) (sk : seckey E) (pk : pubkey E) (pp : pubparam E) : st trace bool :=
  if negb (sec_cs sk =? pk_cs pk) || negb (sec_cs sk =? pp_cs pp) then sret false
  else
    match tv_init m (sec_time sk) (pp_depth pp) with
    | Err _ => sret false
    | Panic p => slift (Panic p)
    | Ok tv =>
      match gamma_list m tv (pp_depth pp) with
      | Err _ => sret false
      | Panic p => slift (Panic p)
      | Ok gl => validate_loop_t m pk pp (sec_ssk sk) gl
      end
    end.

(** Histories (Api.v).  Writing and reading a key does no group operation of the list. *)
Definition step_t {E} (m : mode) (pp : pubparam E) (o : op) : st (seckey E * trace) (option (signature E)) :=
  match o with
  | OpUpdate t seed => do! _ <- sk_update_t m pp t seed; sret None
  | OpSign t msg seed => do! s <- sign_t m t pp msg seed; sret (Some s)
  | OpSignPresent t msg => do! s <- sign_present_t m t pp msg; sret (Some s)
  | OpSignThenUpdate t msg seed => do! s <- sign_then_update_t m t pp msg seed; sret (Some s)
  | OpReload c => fun s => let (r, sk) := reload c (fst s) in (match r with Ok _ => Ok None | Err e => Err e | Panic p => Panic p end, (sk, snd s))
  end.
Fixpoint run_t {E} (m : mode) (pp : pubparam E) (ops : list op) (s : seckey E * trace)
  : list (res (option (signature E))) * (seckey E * trace) :=
  match ops with
  | [] => ([], s)
  | o :: ops' =>
    let (r, s1) := step_t m pp o s in
    let (rs, s2) := run_t m pp ops' s1 in
    (r :: rs, s2)
  end.
