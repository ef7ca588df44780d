(** Vocabulary for Properties_Fwd.v: the security game played with the code itself.  The forger
    talks to a signer who runs key_gen, update and sign_present, may break in once and gets the
    whole secret key, and ends with an aggregate as in SpecPop.v.  All randomness of the signer
    comes from the hash function, which is a random oracle. *)
From Verif Require Import Base Env Time SpecTime Hkdf Prng SpecPrng SubKey SecretKey Keys Sig
  SpecKey SpecUpdate SpecAgg SpecRed SpecMulti SpecRom SpecPop.
Local Open Scope N_scope.

(** * The game *)
(** The same groups with the hash functions [H] (to bytes) and [Q] (to the curve). *)
Definition code_env (E : env) (H : bytes -> bytes) (Q : bytes -> bytes -> G1 E) : env := with_hash (with_points E Q) H.
Section Views.
Context {E : env} {H : bytes -> bytes} {Q : bytes -> bytes -> G1 E}.
(** The same objects, seen there and back. *)
Definition cv_pp (pp : pubparam E) : pubparam (code_env E H Q) :=
  @PubParam (code_env E H Q) (pp_depth pp) (pp_cs pp) (pp_g2 pp) (pp_h pp) (pp_hlist pp).
Definition cv_pk (k : pubkey E) : pubkey (code_env E H Q) := @PubKey (code_env E H Q) (pk_cs k) (pk_pk k).
Definition cv_pop (p : proof E) : proof (code_env E H Q) := @Pop (code_env E H Q) (pop_cs p) (pop_pop p).
Definition cv_sig (s : signature E) : signature (code_env E H Q) :=
  @Signature (code_env E H Q) (sig_cs s) (sig_time s) (sig_1 s) (sig_2 s).
Definition uv_pk (k : pubkey (code_env E H Q)) : pubkey E := @PubKey E (pk_cs k) (pk_pk k).
Definition uv_pop (p : proof (code_env E H Q)) : proof E := @Pop E (pop_cs p) (pop_pop p).
Definition uv_sig (s : signature (code_env E H Q)) : signature E :=
  @Signature E (sig_cs s) (sig_time s) (sig_1 s) (sig_2 s).
Definition uv_ssk (k : subkey (code_env E H Q)) : subkey E :=
  @SubKey E (sk_t k) (sk_g2r k) (sk_hpoly k) (sk_hvec k).
Definition uv_sk (k : seckey (code_env E H Q)) : seckey E :=
  @SecKey E (sec_cs k) (sec_time k) (map uv_ssk (sec_ssk k)) (sec_prng k).
End Views.
Definition res_map {A B} (f : A -> B) (r : res A) : res B :=
  match r with Ok a => Ok (f a) | Err e => Err e | Panic p => Panic p end.

(** The forger sees every result of update and sign_present; the seeds of the updates are its
    own.  After the break-in it goes on alone, with the hash functions. *)
Inductive aforger (E : env) : Type :=
| AForge (msg : bytes) (s : signature E) (l : list (pubkey E * proof E))
| ABreak (k : seckey E -> pforger E)
| AUpdate (t : N) (seed : bytes) (k : res unit -> aforger E)
| ASign (t : N) (msg : bytes) (k : res (signature E) -> aforger E)
| AAskHash (b : bytes) (k : bytes -> aforger E)
| AAskPoint (msg cs : bytes) (k : G1 E -> aforger E).
Arguments AForge {E}. Arguments ABreak {E}. Arguments AUpdate {E}. Arguments ASign {E}.
Arguments AAskHash {E}. Arguments AAskPoint {E}.
Definition aforger_for (E : env) := pubparam E -> pubkey E -> proof E -> aforger E.

(** What happened: a signature was given, the secret key of a time was given. *)
Inductive event := Signed (t : N) (msg : bytes) | Broke (t : N).
Definition enote {A} (e : list event) (o : option (A * list event)) : option (A * list event) :=
  match o with None => None | Some (a, es) => Some (a, e ++ es) end.

Fixpoint tail_run {E} (H : bytes -> bytes) (Q : bytes -> bytes -> G1 E) (f : pforger E)
  : option (bytes * signature E * list (pubkey E * proof E)) :=
  match f with
  | PForge msg s l => Some (msg, s, l)
  | PAskHash b k => tail_run H Q (k (H b))
  | PAskPoint msg cs k => tail_run H Q (k (Q msg cs))
  | PAskKey _ _ | PAskSig _ _ _ => None
  end.
Fixpoint code_run {E} (H : bytes -> bytes) (Q : bytes -> bytes -> G1 E) (m : mode) (pp : pubparam E)
    (sk : seckey (code_env E H Q)) (f : aforger E)
  : option (bytes * signature E * list (pubkey E * proof E) * list event) :=
  match f with
  | AForge msg s l => Some (msg, s, l, [])
  | ABreak k => match tail_run H Q (k (uv_sk sk)) with
                | None => None
                | Some o => Some (o, [Broke (sec_time sk)])
                end
  | AUpdate t seed k => let (r, sk') := update m (cv_pp pp) t seed sk in code_run H Q m pp sk' (k r)
  | ASign t msg k =>
    let (r, sk') := sign_present m t (cv_pp pp) msg sk in
    enote (if is_ok r then [Signed t msg] else []) (code_run H Q m pp sk' (k (res_map uv_sig r)))
  | AAskHash b k => code_run H Q m pp sk (k (H b))
  | AAskPoint msg cs k => code_run H Q m pp sk (k (Q msg cs))
  end.

(** The forger wins: the aggregate and all proofs are accepted, the signer under attack is
    among the signers and has not signed the message for the time stamp; the break-in was at
    [tb], after the time stamp, or there was none ([tb = 0]). *)
Definition awins {E} (H : bytes -> bytes) (Q : bytes -> bytes -> G1 E) (m : mode) (pp : pubparam E) (seed : bytes) (tb : N)
    (adv : aforger_for E) : Prop :=
  exists pk sk pop msg s l ev,
    @key_gen (code_env E H Q) seed (cv_pp pp) = Ok (pk, sk, pop)
    /\ code_run H Q m pp sk (adv pp (uv_pk pk) (uv_pop pop)) = Some (msg, s, l, ev)
    /\ In (uv_pk pk) (map fst l) /\ N.of_nat (length l) < fr_modulus
    /\ ~ In (Signed (sig_time s) msg) ev
    /\ (if tb =? 0 then forall t, ~ In (Broke t) ev else In (Broke tb) ev /\ sig_time s < tb)
    /\ forallb (fun kp => @pk_validate (code_env E H Q) (cv_pk (fst kp)) (cv_pop (snd kp))) l = true
    /\ @verify_aggregated (code_env E H Q) m (cv_sig s) (map cv_pk (map fst l)) (cv_pp pp) msg = Ok true.

(** * Drawing the values of the hash function *)
(** The two calls in HMAC(key, text), answered by [u] and [out]. *)
Definition padded (p : N) (key : bytes) : bytes := map (fun i => N.lxor (nth i key 0) p) (seq 0 128).
Definition calls (key text u out : bytes) : list (bytes * bytes) :=
  [(padded 0x36 key ++ text, u); (padded 0x5c key ++ u, out)].

(** The time stamps of the sub keys at time [t], and those made by an update. *)
Definition cover (d : nat) (t : N) : list N :=
  match tv_init Debug t d with
  | Ok tv => match gamma_list Debug tv d with Ok gl => map tv_time gl | _ => [] end
  | _ => []
  end.
Definition made (d : nat) (from t : N) : list N :=
  firstn (length (cover d t) - length (filter (fun s => t <=? s) (cover d from))) (cover d t).

(** The hash values are drawn from five lists: [hs] for the forger's questions and for the
    messages, [A] for the scalars drawn before the break-in at time [tb], [B] for those drawn
    at that time, [ks] for HMAC keys (states of the prng), [us] for all others. *)
Record world (E : env) := World {
  w_time : N; w_rho : list (N * N); w_g : bytes; w_cache : list (bytes * signature E);
  w_A : list bytes; w_B : list bytes; w_ks : list bytes; w_us : list bytes; w_trash : list N;
  w_tbl : list bytes; w_ptbl : list bytes; w_own : list (bytes * bytes) }.
Arguments World {E}. Arguments w_time {E}. Arguments w_rho {E}. Arguments w_g {E}. Arguments w_cache {E}. Arguments w_A {E}.
Arguments w_B {E}. Arguments w_ks {E}. Arguments w_us {E}. Arguments w_trash {E}. Arguments w_tbl {E}. Arguments w_ptbl {E}. Arguments w_own {E}.

(** The end: the forgery, the tables of the questions, the events, the calls made by the signer
    with their values, and the scalars of the answers in the game of SpecPop.v. *)
Record outcome (E : env) := Outcome {
  o_msg : bytes; o_sig : signature E; o_list : list (pubkey E * proof E);
  o_tbl : list bytes; o_ptbl : list bytes; o_ev : list event; o_calls : list (bytes * bytes); o_rs : list N }.
Arguments Outcome {E}. Arguments o_msg {E}. Arguments o_sig {E}. Arguments o_list {E}. Arguments o_tbl {E}. Arguments o_ptbl {E}.
Arguments o_ev {E}. Arguments o_calls {E}. Arguments o_rs {E}.
Definition add {E} (ev : list event) (cl : list (bytes * bytes)) (rs : list N) (o : option (outcome E)) : option (outcome E) :=
  match o with
  | None => None
  | Some o => Some (Outcome (o_msg o) (o_sig o) (o_list o) (o_tbl o) (o_ptbl o) (ev ++ o_ev o) (cl ++ o_calls o) (rs ++ o_rs o))
  end.
Definition lookup {V} (l : list (bytes * V)) (b : bytes) : option V :=
  match find (fun p => bytes_eqb (fst p) b) l with Some p => Some (snd p) | None => None end.

(** The draws of an update, for the sub keys of the time stamps [ts]. *)
Fixpoint draw_keys (rho : N) (ts : list N) (g : bytes) (A ks us : list bytes)
  : option (list (N * N) * bytes * list bytes * list bytes * list bytes * list (bytes * bytes)) :=
  match ts with
  | [] => Some ([], g, A, ks, us, [])
  | t :: ts' =>
    match A, ks, us with
    | b :: A', g' :: ks', u1 :: u2 :: us' =>
      match draw_keys rho ts' g' A' ks' us' with
      | Some (l, g2, A2, ks2, us2, cl) =>
        Some ((t, (rho + scalar_of b) mod fr_modulus) :: l, g2, A2, ks2, us2,
              calls g (DOM_SEP_SK_UPDATE ++ [1]) u1 b ++ calls g (b ++ DOM_SEP_SK_UPDATE ++ [2]) u2 g' ++ cl)
      | None => None
      end
    | _, _, _ => None
    end
  end.

Section Sampling.
Context {E : env} (pp : pubparam E) (x tb : N) (hs : list bytes) (pts : list (G1 E)).
Definition s_ssks (rho : list (N * N)) : list (subkey E) :=
  map (fun p => honest_ssk pp x (fst p) (path_of (pp_depth pp) (fst p)) (snd p)) rho.

(** An update to [t]: the sub keys that stay, the randomness of the delegator, what is dropped. *)
Definition s_update (w : world E) (t : N) (seed : bytes) : option (world E * list (bytes * bytes)) :=
  let old := filter (fun p => fst p <=? t) (w_rho w) in
  let keep := filter (fun p => t <=? fst p) (w_rho w) in
  let r := snd (last old (0, 0)) in
  let trash := map snd (removelast old) ++ w_trash w in
  let info := DOM_SEP_SK_RERANDOMIZE_INFO ++ time_bytes (w_time w) in
  match w_ks w, w_us w with
  | k2 :: g0 :: ks, u1 :: v :: u2 :: u3 :: us =>
    let cl := calls (w_g w) (info ++ [1]) u1 v ++ calls (w_g w) (v ++ info ++ [2]) u2 k2 ++ calls k2 (v ++ seed) u3 g0 in
    match made (pp_depth pp) (w_time w) t with
    | [] => Some (World t keep g0 [] (w_A w) (w_B w) ks us trash (w_tbl w) (w_ptbl w) [], cl)
    | t0 :: ts =>
      match draw_keys r ts g0 (w_A w) ks us with
      | None => None
      | Some (l, g', A', ks', us', cl') =>
        Some (World t ((t0, r) :: l ++ keep) g' [] A' (w_B w) ks' us' trash (w_tbl w) (w_ptbl w) [], cl ++ cl')
      end
    end
  | _, _ => None
  end.
(** What is left of the scalars when no more are drawn for the signer. *)
Definition s_rest (w : world E) : list N := map snd (w_rho w) ++ w_trash w ++ map scalar_of (w_A w).

Definition s_end (w : world E) (msg : bytes) (s : signature E) (l : list (pubkey E * proof E)) : option (outcome E) :=
  let b := hash_input (pp_cs pp) msg in
  match nth_error hs (position (w_tbl w) b) with
  | None => None
  | Some _ => if (length (enter_all (w_ptbl w) l) <=? length pts)%nat
              then Some (Outcome msg s l (enter (w_tbl w) b) (enter_all (w_ptbl w) l) [] [] []) else None
  end.
Definition set_tbl (w : world E) (tbl : list bytes) : world E :=
  World (w_time w) (w_rho w) (w_g w) (w_cache w) (w_A w) (w_B w) (w_ks w) (w_us w) (w_trash w) tbl (w_ptbl w) (w_own w).
Definition set_ptbl (w : world E) (tbl : list bytes) : world E :=
  World (w_time w) (w_rho w) (w_g w) (w_cache w) (w_A w) (w_B w) (w_ks w) (w_us w) (w_trash w) (w_tbl w) tbl (w_own w).

(** After the break-in: the calls made with the last state are known. *)
Fixpoint s_tail (w : world E) (f : pforger E) : option (outcome E) :=
  match f with
  | PForge msg s l => s_end w msg s l
  | PAskHash b k =>
    match lookup (w_own w) b with
    | Some v => s_tail w (k v)
    | None => match nth_error hs (position (w_tbl w) b) with
              | None => None
              | Some h => s_tail (set_tbl w (enter (w_tbl w) b)) (k h)
              end
    end
  | PAskPoint msg cs k =>
    let b := point_input msg cs in
    match nth_error pts (position (w_ptbl w) b) with
    | None => None
    | Some p => s_tail (set_ptbl w (enter (w_ptbl w) b)) (k p)
    end
  | PAskKey _ _ | PAskSig _ _ _ => None
  end.

(** The game with values drawn one after the other. *)
Fixpoint s_run (w : world E) (f : aforger E) : option (outcome E) :=
  match f with
  | AForge msg s l => if tb =? 0 then add [] [] (s_rest w) (s_end w msg s l) else None
  | ABreak k => if negb (tb =? 0) && (w_time w =? tb)
                then add [Broke tb] [] [] (s_tail w (k (SecKey (pp_cs pp) (w_time w) (s_ssks (w_rho w)) (w_g w))))
                else None
  | AUpdate t seed k =>
    if (w_time w <? t) && (t <=? last_time (pp_depth pp)) then
      if (tb =? 0) || (t <=? tb) then
        match s_update w t seed with
        | None => None
        | Some (w', cl) => add [] cl (if t =? tb then s_rest w' else []) (s_run w' (k (Ok tt)))
        end
      else None
    else s_run w (k (Err E_TIME_STAMP))
  | ASign t msg k =>
    if negb (w_time w =? t) then s_run w (k (Err E_TIME_STAMP))
    else match lookup (w_cache w) msg with
         | Some s => add [Signed t msg] [] [] (s_run w (k (Ok s)))
         | None =>
           let b := hash_input (pp_cs pp) msg in
           match nth_error hs (position (w_tbl w) b), w_us w, (if t =? tb then w_B w else w_A w) with
           | Some h, u :: us, blk :: rest =>
             let r := (snd (hd (0, 0) (w_rho w)) + scalar_of blk) mod fr_modulus in
             let s := honest_sig pp x t (path_of (pp_depth pp) t) (scalar_of h) r in
             let cl := calls (w_g w) (sign_info msg t ++ [1]) u blk in
             add [Signed t msg] cl (if t =? tb then [] else [r])
               (s_run (World t (w_rho w) (w_g w) ((msg, s) :: w_cache w)
                         (if t =? tb then w_A w else rest) (if t =? tb then rest else w_B w)
                         (w_ks w) us (w_trash w) (enter (w_tbl w) b) (w_ptbl w) (cl ++ w_own w)) (k (Ok s)))
           | _, _, _ => None
           end
         end
  | AAskHash b k =>
    match nth_error hs (position (w_tbl w) b) with
    | None => None
    | Some h => s_run (set_tbl w (enter (w_tbl w) b)) (k h)
    end
  | AAskPoint msg cs k =>
    let b := point_input msg cs in
    match nth_error pts (position (w_ptbl w) b) with
    | None => None
    | Some p => s_run (set_ptbl w (enter (w_ptbl w) b)) (k p)
    end
  end.
End Sampling.

(** The coins: exponents of the parameters, hash values, exponents of the points; the seed and
    the other lists.  [bx] is the hash value that gives the master secret. *)
Definition fcoins := (N * list N * list bytes * list N * (bytes * list bytes * list bytes * list bytes * list bytes))%type.
(** Key generation. *)
Definition s_init {E} (cs : N) (pk : pubkey E) (seed bx : bytes) (A B ks us : list bytes) : option (world E * list (bytes * bytes)) :=
  match A, ks, us with
  | b :: A', s0 :: s1 :: s2 :: ks', u0 :: u1 :: u2 :: u3 :: u4 :: us' =>
    Some (World 1 [(1, scalar_of b)] s2 [] A' B ks' us' [] [] [pop_input pk] [],
          calls (DOM_SEP_MASTER_KEY ++ [cs]) seed u0 s0
          ++ calls s0 (KEY_INIT_INFO ++ [1]) u1 bx ++ calls s0 (bx ++ KEY_INIT_INFO ++ [2]) u2 s1
          ++ calls s1 (DOM_SEP_SK_INIT ++ time_bytes 1 ++ [1]) u3 b ++ calls s1 (b ++ DOM_SEP_SK_INIT ++ time_bytes 1 ++ [2]) u4 s2)
  | _, _, _ => None
  end.
Definition sampled {E} (g : G1 E) (d : nat) (cs tb : N) (bx : bytes) (adv : aforger_for E) (z : fcoins) : option (outcome E) :=
  let '(y, ys, hs, zs, (seed, A, B, ks, us)) := z in
  let pp := exp_params g d cs y ys in
  let x := scalar_of bx in
  let pk := PubKey cs (g2_mul x g2_one) in
  let pts := map (fun e => g1_mul e g) zs in
  match s_init cs pk seed bx A B ks us with
  | None => None
  | Some (w, cl) => add [] cl [] (s_run pp x tb hs pts w (adv pp pk (Pop cs (g1_mul x (nth 0 pts g1_zero)))))
  end.

(** The hash functions with these values. *)
Definition sampled_hash (hs : list bytes) (tbl : list bytes) (cl : list (bytes * bytes)) (b : bytes) : bytes :=
  match lookup cl b with Some v => v | None => table tbl hs b end.
(** The values make up a hash function: the signer's calls are at different places, at none of
    which the forger has asked (but for the calls it knows after the break-in); and no state of the
    prng repeats. *)
Definition clean {E} (z : fcoins) (o : outcome E) : Prop :=
  let '(_, _, _, _, (_, _, _, ks, _)) := z in
  NoDup (map fst (o_calls o)) /\ (forall b, In b (map fst (o_calls o)) -> ~ In b (o_tbl o)) /\ NoDup ks.
(** The forger wins against the code that runs with the hash functions drawn. *)
Definition fwins {E} (m : mode) (g : G1 E) (d : nat) (cs tb : N) (bx : bytes) (adv : aforger_for E) (z : fcoins) : Prop :=
  let '(y, ys, hs, zs, (seed, _, _, _, _)) := z in
  exists o, sampled g d cs tb bx adv z = Some o /\ clean z o
    /\ awins (sampled_hash hs (o_tbl o) (o_calls o)) (points (o_ptbl o) (map (fun e => g1_mul e g) zs)) m (exp_params g d cs y ys) seed tb adv.

(** * The forger for the game of SpecPop.v *)
(** It asks for signatures before the time [tb] of the break-in, for the sub keys when it comes
    to that time, and signs by itself from then on. *)
Record copy (E : env) := Copy {
  c_time : N; c_cache : list (bytes * signature E); c_keys : list (subkey E); c_g : bytes;
  c_B : list bytes; c_ks : list bytes; c_us : list bytes; c_own : list (bytes * bytes) }.
Arguments Copy {E}. Arguments c_time {E}. Arguments c_cache {E}. Arguments c_keys {E}. Arguments c_g {E}.
Arguments c_B {E}. Arguments c_ks {E}. Arguments c_us {E}. Arguments c_own {E}.
Definition give_up {E : env} : pforger E := PForge [] (Signature 0 0 g2_zero g1_zero) [].
Fixpoint ask_keys {E} (ts : list N) (acc : list (subkey E)) (k : list (subkey E) -> pforger E) : pforger E :=
  match ts with
  | [] => k acc
  | t :: ts' => PAskKey t (fun a => ask_keys ts' (acc ++ [a]) k)
  end.
Section Simulated.
Context {E : env} (pp : pubparam E) (tb : N).
Fixpoint b_tail (own : list (bytes * bytes)) (f : pforger E) : pforger E :=
  match f with
  | PForge msg s l => PForge msg s l
  | PAskHash b k => match lookup own b with Some v => b_tail own (k v) | None => PAskHash b (fun h => b_tail own (k h)) end
  | PAskPoint msg cs k => PAskPoint msg cs (fun p => b_tail own (k p))
  | PAskKey _ _ | PAskSig _ _ _ => give_up
  end.
Fixpoint simulated (w : copy E) (f : aforger E) : pforger E :=
  match f with
  | AForge msg s l => if tb =? 0 then PForge msg s l else give_up
  | ABreak k => if negb (tb =? 0) && (c_time w =? tb)
                then b_tail (c_own w) (k (SecKey (pp_cs pp) (c_time w) (c_keys w) (c_g w)))
                else give_up
  | AUpdate t seed k =>
    if (c_time w <? t) && (t <=? last_time (pp_depth pp)) then
      if (tb =? 0) || (t <=? tb) then
        match c_ks w, c_us w with
        | _ :: g0 :: ks, _ :: _ :: _ :: _ :: us =>
          let n := pred (length (made (pp_depth pp) (c_time w) t)) in
          let next keys := simulated (Copy t [] keys (nth n (g0 :: ks) []) (c_B w) (skipn n ks) (skipn (2 * n) us) []) (k (Ok tt)) in
          if t =? tb then ask_keys (cover (pp_depth pp) t) [] next else next []
        | _, _ => give_up
        end
      else give_up
    else simulated w (k (Err E_TIME_STAMP))
  | ASign t msg k =>
    if negb (c_time w =? t) then simulated w (k (Err E_TIME_STAMP))
    else match lookup (c_cache w) msg with
         | Some s => simulated w (k (Ok s))
         | None =>
           match c_us w with
           | [] => give_up
           | u :: us =>
             if t =? tb then
               match c_B w with
               | [] => give_up
               | blk :: rest =>
                 PAskHash (hash_input (pp_cs pp) msg) (fun h =>
                   match sign_fr Debug (SecKey (pp_cs pp) t (c_keys w) (c_g w)) t pp (scalar_of h) (scalar_of blk) with
                   | Ok s => simulated (Copy t ((msg, s) :: c_cache w) (c_keys w) (c_g w) rest (c_ks w) us
                                          (calls (c_g w) (sign_info msg t ++ [1]) u blk ++ c_own w)) (k (Ok s))
                   | _ => give_up
                   end)
               end
             else PAskSig t msg (fun s =>
                    simulated (Copy t ((msg, s) :: c_cache w) (c_keys w) (c_g w) (c_B w) (c_ks w) us []) (k (Ok s)))
           end
         end
  | AAskHash b k => PAskHash b (fun h => simulated w (k h))
  | AAskPoint msg cs k => PAskPoint msg cs (fun p => simulated w (k p))
  end.
End Simulated.
(** It is given some of the values drawn: those for the scalars at the time of the break-in, the
    HMAC keys, the others. *)
Definition seen := (list bytes * list bytes * list bytes)%type.
Definition reduced {E} (tb : N) (u : seen) (adv : aforger_for E) : pforger_for E :=
  let '(B, ks, us) := u in
  fun pp pk pop => simulated pp tb (Copy 1 [] [] (nth 2 ks []) B (skipn 3 ks) (skipn 5 us) []) (adv pp pk pop).

(** * Coins *)
(** Hash values and their number. *)
Definition blocks (n : nat) (l : list bytes) : Prop := length l = n /\ Forall (fun b => length b = 64%nat /\ are_bytes b) l.
Definition fcoins_ok (d n nb nk nu ls q p : nat) (z : fcoins) : Prop :=
  let '(y, ys, hs, zs, (seed, A, B, ks, us)) := z in
  0 < y < fr_modulus /\ scalars (d + 1) ys
  /\ (blocks q hs /\ NoDup (map scalar_of hs))
  /\ (length zs = p /\ Forall (fun e => 0 < e < fr_modulus) zs)
  /\ (length seed = ls /\ are_bytes seed)
  /\ blocks n A /\ blocks nb B /\ blocks nk ks /\ blocks nu us.
(** Those of the solver: those of the solver in SpecPop.v, the values the forger above is given,
    and two kinds of coins it does not use: a seed, and the quotients by [fr_modulus] of the values
    whose scalars it has. *)
Definition scoins := (pcoins * (bytes * seen * list N))%type.
Definition scoins_ok (d n nb nk nu ls q p : nat) (z : scoins) : Prop :=
  let '(c, (seed, (B, ks, us), ds)) := z in
  pcoins_ok d n q p c /\ (length seed = ls /\ are_bytes seed)
  /\ blocks nb B /\ blocks nk ks /\ blocks nu us
  /\ length ds = n /\ Forall (fun k => k < 256 ^ 64 / fr_modulus + 1) ds.
Definition fsolve {E} (ch : challenge E) (d : nat) (cs tx : N) (i : nat) (tb : N) (adv : aforger_for E) (z : scoins) : option (GT E) :=
  let '(c, (_, u, _)) := z in psolve ch d cs tx i (reduced tb u adv) c.
