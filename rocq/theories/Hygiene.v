(** The functions of the library once more, now with their local variables, to see what
    secret data they leave in memory.  README.MD 71-74 asks that variables of primitive
    type with secret data are cleared with zeroize or passed to the caller.

    A frame holds the variables of a function (arguments included) that contain secret
    data of primitive type: scalars, points, byte arrays, Vecs of these.  [zeroize] empties
    one; reading an empty variable gives the default value.  When a function returns, with
    Ok, Err or a panic, what its frame still holds is added to the list of left cells.  A
    value returned is in the caller's hands and not in the list.  SecretKey, SubSecretKey
    and PRNG have destructors that clear them (secret_key.rs 18-19, subkeys.rs 19-20,
    prng.rs 20-21) and are no cells.  Passing a scalar, a point or an array by value leaves
    the caller's variable and makes a copy in the callee's frame, and so does putting it in a
    struct (the comment at prng.rs 107-111 says the same); scalars and points are used after
    having been passed (key_pair.rs 124-139, subkeys.rs 108-112), so they are Copy and can
    not have a destructor.  A Vec is moved.  Not modelled: deserialization, what the compiler makes of the copies,
    copies made by moving a value or by a Vec that grows (see VecMem.v), and the dependencies. *)
From Coq Require Import String.
From Verif Require Import Base Env Time Hkdf Prng SubKey SecretKey Keys Sig IO Serdes.
Local Open Scope N_scope.

(** [VInt]: U512 and Fr; [VRepr]: the limbs of FrRepr; [VBytes]: arrays of bytes, Vec<u8>
    and Hkdf; [VPoints]: Vec<PixelG1>. *)
Inductive value (E : env) :=
| VInt (x : N) | VRepr (l : list N) | VG1 (p : G1 E) | VG2 (p : G2 E)
| VBytes (b : bytes) | VPoints (l : list (G1 E)).
Arguments VInt {E}. Arguments VRepr {E}. Arguments VG1 {E}. Arguments VG2 {E}.
Arguments VBytes {E}. Arguments VPoints {E}.

Notation frame E := (list (string * value E)).
(** A cell left in memory: the function, the variable, the contents. *)
Record cell (E : env) := Cell { c_fun : string; c_var : string; c_val : value E }.
Arguments Cell {E}. Arguments c_fun {E}. Arguments c_var {E}. Arguments c_val {E}.

(** A computation in a frame. *)
Definition hm (E : env) (A : Type) := st (frame E * list (cell E)) A.

Definition unset {E} (x : string) (f : frame E) : frame E :=
  filter (fun v => negb (String.eqb (fst v) x)) f.
Definition lookup {E} (x : string) (f : frame E) : option (value E) :=
  match find (fun v => String.eqb (fst v) x) f with Some v => Some (snd v) | None => None end.

(** [let x = v], [x = v]. *)
Definition var {E} (x : string) (v : value E) : hm E unit :=
  fun s => (Ok tt, ((x, v) :: unset x (fst s), snd s)).
(** [x.zeroize()]. *)
Definition zeroize {E} (x : string) : hm E unit := fun s => (Ok tt, (unset x (fst s), snd s)).
(** The value of a variable. *)
Definition get_int {E} (x : string) : hm E N :=
  fun s => (Ok (match lookup x (fst s) with Some (VInt n) => n | _ => 0 end), s).
Definition get_repr {E} (x : string) : hm E (list N) :=
  fun s => (Ok (match lookup x (fst s) with Some (VRepr l) => l | _ => [] end), s).
Definition get_g1 {E} (x : string) : hm E (G1 E) :=
  fun s => (Ok (match lookup x (fst s) with Some (VG1 p) => p | _ => g1_zero end), s).
Definition get_g2 {E} (x : string) : hm E (G2 E) :=
  fun s => (Ok (match lookup x (fst s) with Some (VG2 p) => p | _ => g2_zero end), s).
Definition get_bytes {E} (x : string) : hm E bytes :=
  fun s => (Ok (match lookup x (fst s) with Some (VBytes b) => b | _ => [] end), s).
Definition get_points {E} (x : string) : hm E (list (G1 E)) :=
  fun s => (Ok (match lookup x (fst s) with Some (VPoints l) => l | _ => [] end), s).

(** A call of [fn] with the arguments [args]. *)
Definition call {E A} (fn : string) (args : frame E) (body : hm E A) : hm E A :=
  fun s =>
    let '(r, (f, dead)) := body (args, snd s) in
    (r, (fst s, dead ++ map (fun v => Cell fn (fst v) (snd v)) f)).

(** [match e { Err(x) => { h; return Err(x) }, Ok(p) => p }]. *)
Definition on_err {E A} (e : hm E A) (h : hm E unit) : hm E A :=
  fun s => match e s with
           | (Err x, s') => (Err x, snd (h s'))
           | r => r
           end.

(** src/prng.rs 182-251: os2ip_mod_p.  The array [tslide] is overwritten at 242-245. *)
Definition os2ip_mod_p_h {E} (oct_str : bytes) : hm E N :=
  call "os2ip_mod_p" []
  (do! r <- slift (u512_from oct_str);
   do! _ <- var "r_sec" (VInt r);
   do! p <- slift (u512_from p_bytes);
   do! r <- get_int "r_sec";
   do! _ <- var "t_sec" (VInt (r mod p));
   do! t <- get_int "t_sec";
   do! _ <- var "tslide" (VBytes (u512_to_be t));
   do! b <- get_bytes "tslide";
   if bytes_eqb (firstn 32 b) (repeat 0 32) then
     do! _ <- var "s" (VRepr [limb b 56; limb b 48; limb b 40; limb b 32]);
     do! _ <- zeroize "r_sec";
     do! _ <- zeroize "t_sec";
     do! _ <- zeroize "tslide";
     do! s <- get_repr "s";
     match fr_from_repr s with
     | Some x => sret x
     | None => slift (Panic P_OS2IP)
     end
   else slift (Panic P_OS2IP)).

(** src/prng.rs 71-79: PRNG::init. *)
Definition prng_init_h {E} (seed salt : bytes) : hm E prng :=
  call "PRNG::init" []
  (do! _ <- var "hk_sec" (VBytes (hkdf_extract (sha512 E) salt seed));
   do! hk <- get_bytes "hk_sec";
   do! _ <- var "rng_seed" (VBytes (firstn 64 hk));
   do! _ <- zeroize "hk_sec";
   do! s <- get_bytes "rng_seed";
   sret s).

(** src/prng.rs 83-119: sample_then_update. *)
Definition sample_then_update_h {E} (self : prng) (info : bytes) : hm E (N * prng) :=
  call "sample_then_update" []
  (do! _ <- var "hk_sec" (VBytes self);
   do! hk <- get_bytes "hk_sec";
   do! out <- slift (expand_or_panic (sha512 E) hk info 128);
   do! _ <- var "output_sec" (VBytes out);
   do! o <- get_bytes "output_sec";
   do! r <- os2ip_mod_p_h (firstn 64 o);
   do! o <- get_bytes "output_sec";
   do! _ <- var "new_seed" (VBytes (firstn 64 (skipn 64 o)));
   do! self <- get_bytes "new_seed";
   do! _ <- zeroize "new_seed";
   do! _ <- zeroize "hk_sec";
   do! _ <- zeroize "output_sec";
   sret (r, self)).

(** src/prng.rs 123-145: sample. *)
Definition sample_h {E} (self : prng) (info : bytes) : hm E N :=
  call "sample" []
  (do! _ <- var "hk_sec" (VBytes self);
   do! hk <- get_bytes "hk_sec";
   do! out <- slift (expand_or_panic (sha512 E) hk info 64);
   do! _ <- var "output_sec" (VBytes out);
   do! o <- get_bytes "output_sec";
   do! t <- os2ip_mod_p_h o;
   do! _ <- zeroize "hk_sec";
   do! _ <- zeroize "output_sec";
   sret t).

(** src/prng.rs 148-175: rerandomize. *)
Definition rerandomize_h {E} (self : prng) (seed info : bytes) : hm E prng :=
  call "rerandomize" []
  (do! _ <- var "hk1_sec" (VBytes self);
   do! hk1 <- get_bytes "hk1_sec";
   do! m <- slift (expand_or_panic (sha512 E) hk1 info 128);
   do! _ <- var "m_sec" (VBytes m);
   do! m <- get_bytes "m_sec";
   do! _ <- var "tmp_sec" (VBytes (firstn 64 m ++ seed));
   do! tmp <- get_bytes "tmp_sec";
   do! _ <- var "hk2_sec" (VBytes (hkdf_extract (sha512 E) (firstn 64 (skipn 64 m)) tmp));
   do! hk2 <- get_bytes "hk2_sec";
   let self := firstn 64 hk2 in
   do! _ <- zeroize "m_sec";
   do! _ <- zeroize "hk1_sec";
   do! _ <- zeroize "tmp_sec";
   do! _ <- zeroize "hk2_sec";
   sret self).

(** src/subkeys.rs 96-126: init; the entries 1..=depth of the local [hlist] are
    multiplied in place. *)
Definition ssk_init_h {E} (pp : pubparam E) (alpha : G1 E) (r : N) : hm E (subkey E) :=
  call "SubSecretKey::init" [("alpha"%string, VG1 alpha); ("r"%string, VInt r)]
  (let hlist := pp_hlist pp in
   let depth := pp_depth pp in
   do! r <- get_int "r";
   do! _ <- var "g2r" (VG2 (g2_mul r (pp_g2 pp)));
   do! h0 <- slift (nth_res hlist 0);
   do! alpha <- get_g1 "alpha";
   do! _ <- var "hpoly" (VG1 (g1_add (g1_mul r h0) alpha));
   do! _ <- var "hlist" (VPoints (firstn 1 hlist ++ map (g1_mul r) (skipn 1 (firstn (depth + 1) hlist))
                                  ++ skipn (depth + 1) hlist));
   do! l <- get_points "hlist";
   let hvector := skipn 1 (firstn (depth + 1) l) in
   do! g2r <- get_g2 "g2r";
   do! hpoly <- get_g1 "hpoly";
   sret (SubKey 1 g2r hpoly hvector)).

(** src/subkeys.rs 165-170. *)
Fixpoint hv_loop_h {E} (hlist : list (G1 E)) (base : nat) (hv : list (G1 E)) : hm E (list (G1 E)) :=
  match hv with
  | [] => sret []
  | x :: hv' =>
    do! h <- slift (nth_res hlist base);
    do! r <- get_int "r";
    do! _ <- var "tmp_sec" (VG1 (g1_mul r h));
    do! t <- get_g1 "tmp_sec";
    do! _ <- zeroize "tmp_sec";
    do! l <- hv_loop_h hlist (S base) hv';
    sret (g1_add x t :: l)
  end.

(** src/subkeys.rs 133-172: randomization; returns the new [self].  The second [tmp_sec]
    of the code shadows the first, which has been cleared by then. *)
Definition randomization_h {E} (m : mode) (pp : pubparam E) (r : N) (self : subkey E) : hm E (subkey E) :=
  call "randomization" [("r"%string, VInt r)]
  (let depth := pp_depth pp in
   do! r <- get_int "r";
   do! _ <- var "tmp_sec" (VG2 (g2_mul r (pp_g2 pp)));
   do! tmp <- get_g2 "tmp_sec";
   let g2r := g2_add (sk_g2r self) tmp in
   let hlist := pp_hlist pp in
   do! timevec <- slift (ssk_time_vec m self depth);
   let tv := tv_vec timevec in
   let tlen := length tv in
   do! h0 <- slift (nth_res hlist 0);
   do! tmp3 <- slift (poly_loop hlist 0 tv h0);
   do! r <- get_int "r";
   do! _ <- var "tmp3_sec" (VG1 (g1_mul r tmp3));
   do! tmp3 <- get_g1 "tmp3_sec";
   let hpoly := g1_add (sk_hpoly self) tmp3 in
   do! _ <- zeroize "tmp_sec";
   do! _ <- zeroize "tmp3_sec";
   do! hv <- hv_loop_h hlist (tlen + 1) (sk_hvec self);
   sret (SubKey (sk_t self) g2r hpoly hv)).

(** src/subkeys.rs 200-211. *)
Fixpoint del_loop_h {E} (hv : list (G1 E)) (ts : list N) (hp : G1 E) {struct ts} : hm E (G1 E) :=
  match ts with
  | [] => sret hp
  | t :: ts' =>
    match hv with
    | [] => slift (Panic P_INDEX)
    | h :: hv' =>
      do! _ <- var "tmp_sec" (VG1 (if t =? 2 then g1_dbl h else h));
      do! tmp <- get_g1 "tmp_sec";
      let hp := g1_add hp tmp in
      do! _ <- zeroize "tmp_sec";
      del_loop_h hv' ts' hp
    end
  end.

(** src/subkeys.rs 181-223: delegate. *)
Definition delegate_h {E} (m : mode) (tar_time : N) (depth : nat) (self : subkey E) : hm E (subkey E) :=
  call "delegate" []
  (do! cur_tv <- slift (tv_init m (sk_t self) depth);
   do! tar_tv <- slift (tv_init m tar_time depth);
   if negb (tv_is_prefix cur_tv tar_tv) then slift (Err E_TIME_NONE_PREFIX)
   else
     let tv := tv_vec tar_tv in
     let cur_len := length (tv_vec cur_tv) in
     let tar_len := length (tv_vec tar_tv) in
     do! hp <- del_loop_h (sk_hvec self) (skipn cur_len tv) (sk_hpoly self);
     sret (SubKey tar_time (sk_g2r self) hp (skipn (tar_len - cur_len) (sk_hvec self)))).

(** src/secret_key.rs 46-75: init. *)
Definition sk_init_h {E} (pp : pubparam E) (alpha : G1 E) (g : prng) : hm E (seckey E) :=
  call "SecretKey::init" [("alpha"%string, VG1 alpha)]
  (if negb (valid_cs (pp_cs pp)) then slift (Err E_CIPHERSUITE)
   else
     let info := DOM_SEP_SK_INIT ++ [0; 0; 0; 1] in
     do! (r, g') <- sample_then_update_h g info;
     do! _ <- var "r_sec" (VInt r);
     do! alpha <- get_g1 "alpha";
     do! r <- get_int "r_sec";
     do! ssk <- ssk_init_h pp alpha r;
     do! _ <- zeroize "r_sec";
     sret (SecKey (pp_cs pp) 1 [ssk] g')).

(** src/key_pair.rs 149-158: proof_of_possession. *)
Definition proof_of_possession_h {E : env} (msk : N) (pk : G2 E) (cs : N) : hm E (G1 E) :=
  call "proof_of_possession" [("msk"%string, VInt msk)]
  (do! msk <- get_int "msk";
   sret (bls_sign msk (pop_msg pk) [cs])).

(** src/key_pair.rs 88-143: master_key_gen. *)
Definition master_key_gen_h {E} (seed : bytes) (pp : pubparam E) : hm E (G2 E * G1 E * G1 E * prng) :=
  call "master_key_gen" []
  (if (List.length seed <? 32)%nat then slift (Err E_SEED_TOO_SHORT)
   else
     let cs := pp_cs pp in
     if negb (valid_cs cs) then slift (Err E_CIPHERSUITE)
     else
       let salt := DOM_SEP_MASTER_KEY ++ [cs] in
       do! g <- prng_init_h seed salt;
       do! (x, g') <- sample_then_update_h g KEY_INIT_INFO;
       do! _ <- var "x_sec" (VInt x);
       do! x <- get_int "x_sec";
       let pk := g2_mul x (pp_g2 pp) in
       do! pop <- proof_of_possession_h x pk (pp_cs pp);
       do! x <- get_int "x_sec";
       let sk := g1_mul x (pp_h pp) in
       sret (pk, sk, pop, g')).

(** src/key_pair.rs 24-73: KeyPair::keygen. *)
Definition key_gen_h {E} (seed : bytes) (pp : pubparam E) : hm E (pubkey E * seckey E * proof E) :=
  call "keygen" []
  (if (List.length seed <? 32)%nat then slift (Err E_SEED_TOO_SHORT)
   else
     do! (pk, msk, pop, g) <- master_key_gen_h seed pp;
     do! _ <- var "msk_sec" (VG1 msk);
     do! pk <- slift (pk_init pp pk);
     do! msk <- get_g1 "msk_sec";
     do! sk <- sk_init_h pp msk g;
     sret (pk, sk, Pop (pp_cs pp) pop)).

(** src/secret_key.rs 381-403. *)
Definition rerand_new_h {E} (m : mode) (pp : pubparam E) (old : prng) (i : nat)
    (s : subkey E) (g : prng) : hm E (subkey E * prng) :=
  if (i =? 0)%nat then sret (s, g)
  else
    do! (r, g') <- sample_then_update_h g DOM_SEP_SK_UPDATE;
    do! _ <- var "r_sec" (VInt r);
    if prng_eqb g' old then slift (Panic P_PRNG)
    else
      do! r <- get_int "r_sec";
      do! s' <- on_err (randomization_h m pp r s) (zeroize "r_sec");
      do! _ <- zeroize "r_sec";
      sret (s', g').

(** src/secret_key.rs 337-411. *)
Fixpoint update_loop_h {E} (m : mode) (pp : pubparam E) (old : prng) (i : nat)
    (gl : list timevec) (ssk : list (subkey E)) (g : prng) : hm E (list (subkey E) * prng) :=
  match gl with
  | [] => sret (ssk, g)
  | tmptime :: gl' =>
    do! found <- slift (dup_loop m (pp_depth pp) tmptime (skipn (i + 1) ssk));
    if found then sret (ssk, g)
    else
      do! s0 <- slift (nth_res ssk 0);
      do! s1 <- delegate_h m (tv_time tmptime) (pp_depth pp) s0;
      do! (s2, g') <- rerand_new_h m pp old i s1 g;
      do! ssk' <- slift (insert_at (i + 1) s2 ssk);
      update_loop_h m pp old (S i) gl' ssk' g'
  end.

(** src/secret_key.rs 151-430: update; returns the new [self]. *)
Definition update_h {E} (m : mode) (pp : pubparam E) (tar_time : N) (seed : bytes) (self : seckey E)
  : hm E (seckey E) :=
  call "update" []
  (if negb (sec_cs self =? pp_cs pp) then slift (Err E_CIPHERSUITE)
   else
     let depth := pp_depth pp in
     do! p <- slift (shl64 m depth);
     do! max_time <- slift (sub64 m p 1);
     let cur_time := sec_time self in
     if (tar_time <=? cur_time) || (max_time <? tar_time) then slift (Err E_TIME_STAMP)
     else
       do! delegator_time <- slift (find_ancestor self tar_time);
       let info := DOM_SEP_SK_RERANDOMIZE_INFO ++ time_bytes cur_time in
       do! g <- rerandomize_h (sec_prng self) seed info;
       do! ssk <- slift (drop_until delegator_time (sec_ssk self));
       match ssk with
       | [] => slift (Err E_SSK_EMPTY)
       | _ :: _ =>
         if delegator_time =? tar_time then
           sret (SecKey (sec_cs self) delegator_time ssk g)
         else
           do! tv <- slift (tv_init m tar_time depth);
           do! gl <- slift (gamma_list m tv depth);
           do! (ssk', g') <- update_loop_h m pp (sec_prng self) 0 gl ssk g;
           do! ssk'' <- slift (remove_at 0 ssk');
           do! s0 <- slift (nth_res ssk'' 0);
           sret (SecKey (sec_cs self) (sk_t s0) ssk'' g')
       end).

(** src/sig.rs 220-300: sign_fr; the scalar of the message is not secret. *)
Definition sign_fr_h {E} (m : mode) (sk : seckey E) (tar_time : N) (pp : pubparam E) (msg r : N)
  : hm E (signature E) :=
  call "sign_fr" [("r"%string, VInt r)]
  (if negb (sec_time sk =? tar_time) then slift (Panic P_TIME)
   else
     do! ssk <- slift (first_ssk sk);
     let depth := pp_depth pp in
     let hlist := pp_hlist pp in
     do! timevec <- slift (ssk_time_vec m ssk depth);
     let tv := tv_vec timevec in
     do! r <- get_int "r";
     do! _ <- var "tmp_sec" (VG2 (g2_mul r (pp_g2 pp)));
     do! tmp <- get_g2 "tmp_sec";
     let sig1 := g2_add (sk_g2r ssk) tmp in
     do! _ <- zeroize "tmp_sec";
     do! h0 <- slift (nth_res hlist 0);
     do! tmp3 <- slift (poly_loop hlist 0 tv h0);
     do! hd <- slift (nth_res hlist depth);
     let tmp3 := g1_add tmp3 (g1_mul msg hd) in
     do! r <- get_int "r";
     do! _ <- var "tmp3_sec" (VG1 (g1_mul r tmp3));
     do! hv_last <- on_err (slift (last_hvector_coeff ssk)) (zeroize "tmp3_sec");
     do! _ <- var "hv_last_sec" (VG1 (g1_mul msg hv_last));
     do! hv_last <- get_g1 "hv_last_sec";
     do! tmp3 <- get_g1 "tmp3_sec";
     let sig2 := g1_add (g1_add (sk_hpoly ssk) hv_last) tmp3 in
     do! _ <- zeroize "hv_last_sec";
     do! _ <- zeroize "tmp3_sec";
     sret (Signature (pp_cs pp) tar_time sig1 sig2)).

(** src/sig.rs 469-480: hash_msg_into_fr. *)
Definition hash_msg_into_fr_h {E} (msg : bytes) (cs : N) : hm E N :=
  call "hash_msg_into_fr" [] (os2ip_mod_p_h (sha512 E (DOM_SEP_HASH_TO_MSG ++ [cs] ++ msg))).

(** src/sig.rs 164-216: sign_bytes. *)
Definition sign_bytes_h {E} (m : mode) (sk : seckey E) (tar_time : N) (pp : pubparam E) (msg : bytes)
  : hm E (signature E) :=
  call "sign_bytes" []
  (let cs := pp_cs pp in
   if negb (valid_cs cs) then slift (Err E_CIPHERSUITE)
   else if negb (sec_cs sk =? cs) then slift (Err E_CIPHERSUITE)
   else if negb (sec_time sk =? tar_time) then slift (Panic P_TIME)
   else
     let info := DOM_SEP_SIG ++ msg ++ time_bytes tar_time in
     do! r <- sample_h (sec_prng sk) info;
     do! _ <- var "r_sec" (VInt r);
     do! hm <- hash_msg_into_fr_h msg (pp_cs pp);
     do! r <- get_int "r_sec";
     do! sig <- on_err (sign_fr_h m sk tar_time pp hm r) (zeroize "r_sec");
     do! _ <- zeroize "r_sec";
     sret sig).

(** src/sig.rs 102-123: sign_present. *)
Definition sign_present_h {E} (m : mode) (tar_time : N) (pp : pubparam E) (msg : bytes) (sk : seckey E)
  : hm E (signature E) :=
  call "sign_present" []
  (if negb (sec_time sk =? tar_time) then slift (Err E_TIME_STAMP)
   else sign_bytes_h m sk tar_time pp msg).

(** src/serdes.rs 291-329: SubSecretKey::serialize into the local Vec of
    SecretKey::serialize, whose contents so far are [out]; [hvector()] makes a copy. *)
Definition ssk_serialize_h {E} (x : subkey E) (c : bool) (out : bytes) : hm E bytes :=
  call "SubSecretKey::serialize" [("hvector"%string, VPoints (sk_hvec x))]
  (do! hv <- get_points "hvector";
   let hvlen := List.length hv in
   let time := sk_t x in
   if pow2 32 <? time then slift (Err E_SERIAL)
   else
     do! _ <- var "buf" (VBytes (fold_left (fun b e => b ++ g1_enc c e) hv
                  (time_bytes time ++ [as_u8 (N.of_nat hvlen)] ++ g2_enc c (sk_g2r x) ++ g1_enc c (sk_hpoly x))));
     do! buf <- get_bytes "buf";
     do! _ <- zeroize "buf";
     sret (out ++ buf)).

(** src/serdes.rs 226-228; [buf] is the local of SecretKey::serialize. *)
Fixpoint ssks_serialize_h {E} (l : list (subkey E)) (c : bool) : hm E unit :=
  match l with
  | [] => sret tt
  | e :: l' =>
    do! out <- get_bytes "buf";
    do! out <- ssk_serialize_h e c out;
    do! _ <- var "buf" (VBytes out);
    ssks_serialize_h l' c
  end.

(** src/serdes.rs 211-236: SecretKey::serialize to the writer [w]; returns the writer. *)
Definition sk_serialize_h {E} (x : seckey E) (c : bool) (w : writer) : hm E writer :=
  call "SecretKey::serialize" []
  (if negb (valid_cs (sec_cs x)) then slift (Err E_CIPHERSUITE)
   else
     do! _ <- var "buf" (VBytes ([sec_cs x] ++ [as_u8 (N.of_nat (List.length (sec_ssk x)))] ++ sec_prng x));
     do! _ <- ssks_serialize_h (sec_ssk x) c;
     do! buf <- get_bytes "buf";
     do! w <- slift (run_mut (write_all buf) w);
     do! _ <- zeroize "buf";
     sret w).

(** src/secret_key.rs 131-141: digest; [input] consumes the Vec and drops it. *)
Definition digest_h {E} (x : seckey E) : hm E bytes :=
  call "digest" []
  (do! _ <- var "hashinput" (VBytes (repeat 0 (sk_size x)));
   do! h <- get_bytes "hashinput";
   do! w <- (fun s => match sk_serialize_h x true (vec_writer h) s with
                      | (Err _, s') => (Err E_SERIAL, s')
                      | r => r
                      end);
   do! _ <- var "hashinput" (VBytes (w_out w));
   do! h <- get_bytes "hashinput";
   sret (sha512 E h)).
