(** Vocabulary for Properties_Many.v: the game of SpecIface.v with any number of signers, all of whom
    run the code, and the forger that turns it into the game with one of them by running the
    others itself. *)
From Verif Require Import Base Env Time Hkdf Prng SubKey SecretKey Keys Sig Api
  SpecKey SpecUpdate SpecAgg SpecRed SpecMulti SpecRom SpecPop SpecFwd SpecClean SpecIface SpecCost SpecAdv.
Local Open Scope N_scope.

(** * The game *)
(** The forger calls any of the signers, and may break in at any of them, at any time and more
    than once; the signer goes on afterwards. *)
Inductive cforger (E : env) : Type :=
| CForge (msg : bytes) (s : signature E) (l : list (pubkey E * proof E))
| CBreak (i : nat) (k : seckey E -> cforger E)
| CCall (i : nat) (o : op) (k : res (option (signature E)) -> cforger E)
| CAskHash (b : bytes) (k : bytes -> cforger E)
| CAskPoint (msg cs : bytes) (k : G1 E -> cforger E).
Arguments CForge {E}. Arguments CBreak {E}. Arguments CCall {E}. Arguments CAskHash {E}. Arguments CAskPoint {E}.
Definition cforger_for (E : env) := pubparam E -> list (pubkey E * proof E) -> cforger E.

(** What happened, and with which signer. *)
Definition cnote {A} (i : nat) (e : list event) (o : option (A * list (nat * event))) : option (A * list (nat * event)) :=
  match o with None => None | Some (a, es) => Some (a, map (pair i) e ++ es) end.
Definition put_at {A} (l : list A) (i : nat) (a : A) : list A := firstn i l ++ a :: skipn (S i) l.
(** The run; it ends without forgery if the forger calls a signer that is not there. *)
Fixpoint many_run {E} (H : bytes -> bytes) (Q : bytes -> bytes -> G1 E) (m : mode) (pp : pubparam E)
    (sks : list (seckey (code_env E H Q))) (f : cforger E)
  : option (bytes * signature E * list (pubkey E * proof E) * list (nat * event)) :=
  match f with
  | CForge msg s l => Some (msg, s, l, [])
  | CBreak i k =>
    match nth_error sks i with
    | None => None
    | Some sk => cnote i [Broke (sec_time sk)] (many_run H Q m pp sks (k (uv_sk sk)))
    end
  | CCall i o k =>
    match nth_error sks i with
    | None => None
    | Some sk =>
      let (r, sk') := step m (cv_pp pp) o sk in
      cnote i (given o r) (many_run H Q m pp (put_at sks i sk') (k (res_map (option_map uv_sig) r)))
    end
  | CAskHash b k => many_run H Q m pp sks (k (H b))
  | CAskPoint msg cs k => many_run H Q m pp sks (k (Q msg cs))
  end.

(** The signers have the seeds [l1 ++ seed :: l2].  The forger wins against the one with [seed]: its
    key is among those of the forgery, it has not signed the message for the time stamp, and every
    break-in at it came later; [tb] is the time stamp of the first one, 0 if there was none.  The
    others may have signed the message, or the forger may have their keys. *)
Definition first_break (i : nat) (ev : list (nat * event)) : N :=
  fold_right (fun e acc => match e with (j, Broke t) => if (j =? i)%nat then t else acc | _ => acc end) 0 ev.
Definition cwins {E} (H : bytes -> bytes) (Q : bytes -> bytes -> G1 E) (m : mode) (pp : pubparam E)
    (l1 : list bytes) (seed : bytes) (l2 : list bytes) (tb : N) (adv : cforger_for E) : Prop :=
  let i := length l1 in
  exists ks pk sk pop msg s l ev,
    map (fun sd => @key_gen (code_env E H Q) sd (cv_pp pp)) (l1 ++ seed :: l2) = map Ok ks
    /\ nth_error ks i = Some (pk, sk, pop)
    /\ many_run H Q m pp (map (fun k => snd (fst k)) ks) (adv pp (map (fun k => (uv_pk (fst (fst k)), uv_pop (snd k))) ks))
       = Some (msg, s, l, ev)
    /\ In (uv_pk pk) (map fst l) /\ N.of_nat (length l) < fr_modulus
    /\ ~ In (i, Signed (sig_time s) msg) ev
    /\ (forall t, In (i, Broke t) ev -> sig_time s < t) /\ tb = first_break i ev
    /\ forallb (fun kp => @pk_validate (code_env E H Q) (cv_pk (fst kp)) (cv_pop (snd kp))) l = true
    /\ @verify_aggregated (code_env E H Q) m (cv_sig s) (map cv_pk (map fst l)) (cv_pp pp) msg = Ok true.

(** The forger speaks at most [n] times and ends with at most [l] keys. *)
Fixpoint cspeaks {E} (n l : nat) (f : cforger E) : Prop :=
  match n with
  | O => False
  | S n' =>
    match f with
    | CForge _ _ ks => (length ks <= l)%nat
    | CBreak _ k => forall sk, cspeaks n' l (k sk)
    | CCall _ _ k => forall r, cspeaks n' l (k r)
    | CAskHash _ k => forall h, cspeaks n' l (k h)
    | CAskPoint _ _ k => forall p, cspeaks n' l (k p)
    end
  end.

(** * The code with the hash functions asked for *)
Inductive asks (E : env) (A : Type) : Type :=
| Done (a : A)
| AskH (b : bytes) (k : bytes -> asks E A)
| AskQ (msg cs : bytes) (k : G1 E -> asks E A).
Arguments Done {E A}. Arguments AskH {E A}. Arguments AskQ {E A}.
Fixpoint answered {E A} (H : bytes -> bytes) (Q : bytes -> bytes -> G1 E) (p : asks E A) : A :=
  match p with
  | Done a => a
  | AskH b k => answered H Q (k (H b))
  | AskQ msg cs k => answered H Q (k (Q msg cs))
  end.
Fixpoint abind {E A B} (p : asks E A) (k : A -> asks E B) : asks E B :=
  match p with
  | Done a => k a
  | AskH b j => AskH b (fun h => abind (j h) k)
  | AskQ msg cs j => AskQ msg cs (fun h => abind (j h) k)
  end.
(** A result that may be an error. *)
Definition rbind {E A B} (p : asks E (res A)) (k : A -> asks E (res B)) : asks E (res B) :=
  abind p (fun r => match r with Ok a => k a | Err e => Done (Err e) | Panic p => Done (Panic p) end).
Notation "'ask!' x <- e ; k" := (rbind e (fun x => k))
  (at level 200, x pattern, e at level 100, k at level 200, right associativity).

Section Asking.
Context {E : env}.
(** Hkdf.v. *)
Definition hmac_q (key msg : bytes) : asks E bytes :=
  let go key := let k := pad_to 128 key in
                AskH (xor_bytes 0x36 k ++ msg) (fun u => AskH (xor_bytes 0x5c k ++ u) Done) in
  if (128 <? length key)%nat then AskH key go else go key.
Fixpoint blocks_q (prk info prev : bytes) (blocknum n : nat) : asks E bytes :=
  match n with
  | O => Done []
  | S n' =>
    abind (hmac_q prk (prev ++ info ++ [as_u8 (N.of_nat blocknum) + 1])) (fun out =>
      abind (blocks_q prk info out (S blocknum) n') (fun rest => Done (out ++ rest)))
  end.
(** Prng.v. *)
Definition expand_q (prk info : bytes) (len : nat) : asks E (res bytes) :=
  if (64 * 255 <? len)%nat then Done (Panic P_HKDF)
  else abind (blocks_q prk info [] 0 ((len + 63) / 64)) (fun o => Done (Ok (firstn len o))).
Definition init_q (seed salt : bytes) : asks E prng := abind (hmac_q salt seed) (fun o => Done (firstn 64 o)).
Definition draw_q (g : prng) (info : bytes) : asks E (res (N * prng)) :=
  ask! out <- expand_q g info 128;
  Done (let! r := os2ip_mod_p (firstn 64 out) in Ok (r, firstn 64 (skipn 64 out))).
Definition sample_q (g : prng) (info : bytes) : asks E (res N) :=
  ask! out <- expand_q g info 64; Done (os2ip_mod_p out).
Definition rerandomize_q (g : prng) (seed info : bytes) : asks E (res prng) :=
  ask! o <- expand_q g info 128;
  abind (hmac_q (firstn 64 (skipn 64 o)) (firstn 64 o ++ seed)) (fun o => Done (Ok (firstn 64 o))).

(** SecretKey.v. *)
Definition rerand_new_q (m : mode) (pp : pubparam E) (old : prng) (i : nat) (s : subkey E) (g : prng)
  : asks E (res (subkey E * prng)) :=
  if (i =? 0)%nat then Done (Ok (s, g))
  else
    ask! (r, g') <- draw_q g DOM_SEP_SK_UPDATE;
    Done (if prng_eqb g' old then Panic P_PRNG
          else let! s' := run_mut (randomization m pp r) s in Ok (s', g')).
Fixpoint update_loop_q (m : mode) (pp : pubparam E) (old : prng) (i : nat)
    (gl : list timevec) (ssk : list (subkey E)) (g : prng) : asks E (res (list (subkey E) * prng)) :=
  match gl with
  | [] => Done (Ok (ssk, g))
  | tmptime :: gl' =>
    ask! found <- Done (dup_loop m (pp_depth pp) tmptime (skipn (i + 1) ssk));
    if found : bool then Done (Ok (ssk, g))
    else
      ask! s0 <- Done (nth_res ssk 0);
      ask! s1 <- Done (run_mut (delegate m (tv_time tmptime) (pp_depth pp)) s0);
      ask! (s2, g') <- rerand_new_q m pp old i s1 g;
      ask! ssk' <- Done (insert_at (i + 1) s2 ssk);
      update_loop_q m pp old (S i) gl' ssk' g'
  end.
(** update: the new key. *)
Definition update_q (m : mode) (pp : pubparam E) (t : N) (seed : bytes) (sk : seckey E) : asks E (res (seckey E)) :=
  if negb (sec_cs sk =? pp_cs pp) then Done (Err E_CIPHERSUITE)
  else
    ask! p <- Done (shl64 m (pp_depth pp));
    ask! max_time <- Done (sub64 m p 1);
    if (t <=? sec_time sk) || (max_time <? t) then Done (Err E_TIME_STAMP)
    else
      ask! dt <- Done (find_ancestor sk t);
      ask! g <- rerandomize_q (sec_prng sk) seed (DOM_SEP_SK_RERANDOMIZE_INFO ++ time_bytes (sec_time sk));
      ask! ssk <- Done (drop_until dt (sec_ssk sk));
      match ssk with
      | [] => Done (Err E_SSK_EMPTY)
      | _ :: _ =>
        if dt =? t then Done (Ok (SecKey (sec_cs sk) dt ssk g))
        else
          ask! tv <- Done (tv_init m t (pp_depth pp));
          ask! gl <- Done (gamma_list m tv (pp_depth pp));
          ask! (ssk', g') <- update_loop_q m pp (sec_prng sk) 0 gl ssk g;
          Done (let! ssk'' := remove_at 0 ssk' in
                let! s0 := nth_res ssk'' 0 in
                Ok (SecKey (sec_cs sk) (sk_t s0) ssk'' g'))
      end.
(** Sig.v. *)
Definition sign_bytes_q (m : mode) (sk : seckey E) (t : N) (pp : pubparam E) (msg : bytes) : asks E (res (signature E)) :=
  if negb (valid_cs (pp_cs pp)) then Done (Err E_CIPHERSUITE)
  else if negb (sec_cs sk =? pp_cs pp) then Done (Err E_CIPHERSUITE)
  else if negb (sec_time sk =? t) then Done (Panic P_TIME)
  else
    ask! r <- sample_q (sec_prng sk) (DOM_SEP_SIG ++ msg ++ time_bytes t);
    AskH (hash_input (pp_cs pp) msg) (fun h =>
      Done (let! hm := os2ip_mod_p h in sign_fr m sk t pp hm r)).
(** The calls: the result and the key left behind. *)
Definition then_key {A} (sk : seckey E) (p : asks E (res (seckey E))) (k : seckey E -> asks E (res A * seckey E)) : asks E (res A * seckey E) :=
  abind p (fun r => match r with Ok sk' => k sk' | Err e => Done (Err e, sk) | Panic p => Done (Panic p, sk) end).
Definition signed_q (m : mode) (pp : pubparam E) (t : N) (msg : bytes) (sk : seckey E) : asks E (res (option (signature E)) * seckey E) :=
  abind (sign_bytes_q m sk t pp msg) (fun r => Done (res_map Some r, sk)).
Definition step_q (m : mode) (pp : pubparam E) (o : op) (sk : seckey E) : asks E (res (option (signature E)) * seckey E) :=
  match o with
  | OpUpdate t seed => then_key sk (update_q m pp t seed sk) (fun sk' => Done (Ok None, sk'))
  | OpSign t msg seed =>
    if t <? sec_time sk then Done (Err E_TIME_STAMP, sk)
    else if sec_time sk <? t then then_key sk (update_q m pp t seed sk) (signed_q m pp t msg)
    else signed_q m pp t msg sk
  | OpSignPresent t msg => if negb (sec_time sk =? t) then Done (Err E_TIME_STAMP, sk) else signed_q m pp t msg sk
  | OpSignThenUpdate t msg seed =>
    if negb (sec_time sk =? t) then Done (Err E_TIME_STAMP, sk)
    else
      abind (sign_bytes_q m sk t pp msg) (fun r =>
        match r with
        | Err e => Done (Err e, sk)
        | Panic p => Done (Panic p, sk)
        | Ok s =>
          match add64 m t 1 with
          | Err e => Done (Err e, sk)
          | Panic p => Done (Panic p, sk)
          | Ok t1 => then_key sk (update_q m pp t1 seed sk) (fun sk' => Done (Ok (Some s), sk'))
          end
        end)
  | OpReload c => let (r, sk') := reload c sk in Done (res_map (fun _ => None) r, sk')
  end.
(** Keys.v. *)
Definition key_gen_q (seed : bytes) (pp : pubparam E) : asks E (res (pubkey E * seckey E * proof E)) :=
  if (length seed <? 32)%nat then Done (Err E_SEED_TOO_SHORT)
  else if negb (valid_cs (pp_cs pp)) then Done (Err E_CIPHERSUITE)
  else
    abind (init_q seed (DOM_SEP_MASTER_KEY ++ [pp_cs pp])) (fun g =>
    ask! (x, g) <- draw_q g KEY_INIT_INFO;
    let pk := g2_mul x (pp_g2 pp) in
    AskQ (pop_msg pk) [pp_cs pp] (fun q =>
    ask! (r, g) <- draw_q g (DOM_SEP_SK_INIT ++ [0; 0; 0; 1]);
    Done (let! ssk := ssk_init pp (g1_mul x (pp_h pp)) r in
          Ok (PubKey (pp_cs pp) pk, SecKey (pp_cs pp) 1 [ssk] g, Pop (pp_cs pp) (g1_mul x q))))).
Fixpoint key_gens_q (seeds : list bytes) (pp : pubparam E) : asks E (res (list (pubkey E * seckey E * proof E))) :=
  match seeds with
  | [] => Done (Ok [])
  | sd :: seeds' =>
    ask! k <- key_gen_q sd pp;
    ask! ks <- key_gens_q seeds' pp;
    Done (Ok (k :: ks))
  end.

(** * The forger against one signer *)
Fixpoint asking_i {A} (p : asks E A) (k : A -> iforger E) : iforger E :=
  match p with
  | Done a => k a
  | AskH b j => IAskHash b (fun h => asking_i (j h) k)
  | AskQ msg cs j => IAskPoint msg cs (fun h => asking_i (j h) k)
  end.
Fixpoint asking_p {A} (p : asks E A) (k : A -> pforger E) : pforger E :=
  match p with
  | Done a => k a
  | AskH b j => PAskHash b (fun h => asking_p (j h) k)
  | AskQ msg cs j => PAskPoint msg cs (fun h => asking_p (j h) k)
  end.
Definition no_forgery : iforger E := IForge [] (Signature 0 0 g2_zero g1_zero) [].

Context (m : mode) (pp : pubparam E).
(** After the break-in it has all secret keys. *)
Fixpoint all_own (sks : list (seckey E)) (f : cforger E) : pforger E :=
  match f with
  | CForge msg s l => PForge msg s l
  | CBreak i k => match nth_error sks i with None => give_up | Some sk => all_own sks (k sk) end
  | CCall i o k =>
    match nth_error sks i with
    | None => give_up
    | Some sk => asking_p (step_q m pp o sk) (fun x => all_own (put_at sks i (snd x)) (k (fst x)))
    end
  | CAskHash b k => PAskHash b (fun h => all_own sks (k h))
  | CAskPoint msg cs k => PAskPoint msg cs (fun p => all_own sks (k p))
  end.
(** Before, it has all but the [j]-th; at that place in the list is any key. *)
Fixpoint others_own (j : nat) (sks : list (seckey E)) (f : cforger E) : iforger E :=
  match f with
  | CForge msg s l => IForge msg s l
  | CBreak i k =>
    if (i =? j)%nat then IBreak (fun sk => all_own (put_at sks j sk) (k sk))
    else match nth_error sks i with None => no_forgery | Some sk => others_own j sks (k sk) end
  | CCall i o k =>
    if (i =? j)%nat then ICall o (fun r => others_own j sks (k r))
    else match nth_error sks i with
         | None => no_forgery
         | Some sk => asking_i (step_q m pp o sk) (fun x => others_own j (put_at sks i (snd x)) (k (fst x)))
         end
  | CAskHash b k => IAskHash b (fun h => others_own j sks (k h))
  | CAskPoint msg cs k => IAskPoint msg cs (fun p => others_own j sks (k p))
  end.
End Asking.

(** The signers with the seeds [l1] and [l2] are run by the forger.  (It gives up when the parameters
    have another depth than [d].) *)
Definition alone {E} (m : mode) (d : nat) (l1 l2 : list bytes) (adv : cforger_for E) : iforger_for E :=
  fun pp pk pop =>
    if (pp_depth pp =? d)%nat then
      asking_i (key_gens_q (l1 ++ l2) pp) (fun r =>
        match r with
        | Ok ks =>
          let ks' := firstn (length l1) ks ++ (pk, SecKey 0 0 [] [], pop) :: skipn (length l1) ks in
          others_own m pp (length l1) (map (fun k => snd (fst k)) ks') (adv pp (map (fun k => (fst (fst k), snd k)) ks'))
        | _ => no_forgery
        end)
    else no_forgery.

(** How often it speaks, for a forger that speaks [n] times to [k] other signers: at most 16 questions for
    each of their keys, at most [6 d + 13] instead of each call. *)
Definition alone_speaks (d k n : nat) : nat := 16 * k + (6 * d + 13) * n.
(** The game of SpecAdv.v for this one: with these coins the forger wins, or they do not make up a hash function. *)
Definition cgwins {E} (m : mode) (g : G1 E) (d : nat) (cs : N) (l1 l2 : list bytes) (adv : cforger_for E) (w : gcoins) : Prop :=
  let '(bx, _, tb, (y, ys, hs, zs, (seed, A, B, ks, us))) := w in
  exists o, sampled g d cs tb bx (two_calls d (alone m d l1 l2 adv)) (y, ys, hs, zs, (seed, A, B, ks, us)) = Some o
    /\ (clean (y, ys, hs, zs, (seed, A, B, ks, us)) o ->
        cwins (sampled_hash hs (o_tbl o) (o_calls o)) (points (o_ptbl o) (map (fun e => g1_mul e g) zs)) m (exp_params g d cs y ys)
          l1 seed l2 tb adv).
