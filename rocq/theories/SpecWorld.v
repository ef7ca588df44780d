(** Vocabulary for Properties_World.v: a bookkeeper who only writes down each signer's time stamp and, for each
    signature, its time stamp and who signed what; and what the objects of a program are worth. *)
From Verif Require Import Base Env SpecTime SubKey SecretKey Keys Sig Api SpecKey SpecUpdate World.
Local Open Scope N_scope.

(** * The bookkeeper *)
(** Who signed what. *)
Definition entry : Type := nat * bytes.
Record book := Book { b_times : list N; b_sigs : list (N * list entry) }.

(** The bookkeeper's answer: nothing to say; a claim about a signature (its number, the signers, the message); a
    claim that signer [k] has the key of signer [i]; that the proof of [k] is one for the key of [i]. *)
Inductive say := Nothing | Claims (j : nat) (ks : list nat) (msg : bytes) | SameKey (i k : nat) | Possesses (i k : nat).

(** A call at time [t] of signer [i], in a tree of depth [d]: the signature, if any, and the new time. *)
Definition b_call (d i : nat) (t : N) (o : op) : res (option (N * list entry)) * N :=
  let later t' := (t <? t') && (t' <=? last_time d) in
  match o with
  | OpUpdate t' _ => if later t' then (Ok None, t') else (Err E_TIME_STAMP, t)
  | OpSign t' msg _ => if (t' =? t) || later t' then (Ok (Some (t', [(i, msg)])), t') else (Err E_TIME_STAMP, t)
  | OpSignPresent t' msg => if t' =? t then (Ok (Some (t', [(i, msg)])), t) else (Err E_TIME_STAMP, t)
  | OpSignThenUpdate t' msg _ =>
      if (t' =? t) && later (t + 1) then (Ok (Some (t', [(i, msg)])), t + 1) else (Err E_TIME_STAMP, t)
  | OpReload _ => (Ok None, t)
  end.

Definition b_exec (d : nat) (c : cmd) (b : book) : res say * book :=
  match c with
  | KeyGen seed =>
      if (length seed <? 32)%nat then (Err E_SEED_TOO_SHORT, b) else (Ok Nothing, Book (b_times b ++ [1]) (b_sigs b))
  | Call i o =>
      match nth_error (b_times b) i with
      | None => (Ok Nothing, b)
      | Some t =>
        let (r, t') := b_call d i t o in
        let ts := set_nth i t' (b_times b) in
        match r with
        | Ok None => (Ok Nothing, Book ts (b_sigs b))
        | Ok (Some s) => (Ok Nothing, Book ts (b_sigs b ++ [s]))
        | Err e => (Err e, Book ts (b_sigs b))
        | Panic p => (Panic p, Book ts (b_sigs b))
        end
      end
  | Aggregate js =>
      match pick (b_sigs b) js with
      | None => (Ok Nothing, b)
      | Some [] => (Panic P_INDEX, b)
      | Some (s :: l) =>
        if forallb (fun e => fst e =? fst s) l then (Ok Nothing, Book (b_times b) (b_sigs b ++ [(fst s, concat (map snd (s :: l)))]))
        else (Err E_TIME_STAMP, b)
      end
  | Verify j i msg =>
      match nth_error (b_sigs b) j, nth_error (b_times b) i with
      | Some _, Some _ => (Ok (Claims j [i] msg), b)
      | _, _ => (Ok Nothing, b)
      end
  | VerifyAggregated j ks msg =>
      match nth_error (b_sigs b) j, pick (b_times b) ks with
      | Some _, Some [] => (Panic P_INDEX, b)
      | Some _, Some _ => (Ok (Claims j ks msg), b)
      | _, _ => (Ok Nothing, b)
      end
  | VerifyPop i k =>
      match nth_error (b_times b) i, nth_error (b_times b) k with
      | Some _, Some _ => (Ok (Possesses i k), b)
      | _, _ => (Ok Nothing, b)
      end
  | Validate i k =>
      match nth_error (b_times b) i, nth_error (b_times b) k with
      | Some _, Some _ => (Ok (SameKey i k), b)
      | _, _ => (Ok Nothing, b)
      end
  | ReloadSig _ | ReloadPk _ _ => (Ok Nothing, b)
  end.

(** The bookkeeper over a program, of which the results are [rs]: calls that panicked because a hash repeated
    the prng seed are not booked. *)
Fixpoint b_run (d : nat) (p : list cmd) (rs : list (res (option bool))) (b : book) : book :=
  match p, rs with
  | c :: p', r :: rs' =>
      b_run d p' rs' match r with Panic P_PRNG => b | _ => snd (b_exec d c b) end
  | _, _ => b
  end.

(** * What the objects are worth *)
(** Signer, message, and the exponent of the randomness used. *)
Definition part : Type := nat * bytes * N.
Definition booked (a : N * list part) : N * list entry := (fst a, map fst (snd a)).

Fixpoint total (l : list N) : N := match l with [] => 0 | x :: l' => x + total l' end.
Definition secret_of (xs : list N) (ks : list nat) : N := total (map (fun i => nth i xs 0) ks).
Definition signers (ps : list part) : list nat := map (fun q => fst (fst q)) ps.
Definition randomness (ps : list part) : N := total (map snd ps).
Definition signed {E} (pp : pubparam E) (ps : list part) : N :=
  total (map (fun q => snd q * msg_scalar pp (snd (fst q))) ps).
Definition last_h {E} (pp : pubparam E) : G1 E := nth (pp_depth pp) (pp_hlist pp) g1_zero.

(** Secrets x, randomness r, node v: (r*g2, x*h + r*node_val v + (sum r_i*M_i)*h_d). *)
Definition worth {E} (pp : pubparam E) (xs : list N) (a : N * list part) (s : signature E) : Prop :=
  snd a <> [] /\ Forall (fun i => (i < length xs)%nat) (signers (snd a)) /\
  exists v, node_at (pp_depth pp) (fst a) v /\
    s = Signature (pp_cs pp) (fst a) (g2_mul (randomness (snd a)) (pp_g2 pp))
          (g1_add (g1_mul (secret_of xs (signers (snd a))) (pp_h pp))
             (g1_add (g1_mul (randomness (snd a)) (node_val pp v)) (g1_mul (signed pp (snd a)) (last_h pp)))).

Definition party_of {E} (pp : pubparam E) (x : N) (p : pubkey E * seckey E * proof E) : Prop :=
  x < fr_modulus /\ fst (fst p) = PubKey (pp_cs pp) (g2_mul x (pp_g2 pp)) /\ good_sk pp x (snd (fst p))
  /\ pk_validate (fst (fst p)) (snd p) = true.

Record world_is {E} (pp : pubparam E) (xs : list N) (ann : list (N * list part)) (b : book) (w : world E) : Prop := WorldIs {
  wi_party : Forall2 (party_of pp) xs (w_party w);
  wi_times : b_times b = map (fun p => sec_time (snd (fst p))) (w_party w);
  wi_sigs : Forall2 (worth pp xs) ann (w_sigs w);
  wi_book : b_sigs b = map booked ann }.

(** The equation of numbers and two generators that decides a verification: the secrets and the products
    randomness*message of the signature on one side, the secrets of the claimed signers and the whole randomness times
    the claimed message on the other. *)
Definition balances {E} (pp : pubparam E) (xs : list N) (ps : list part) (ks : list nat) (msg : bytes) : Prop :=
  g1_add (g1_mul (secret_of xs (signers ps)) (pp_h pp)) (g1_mul (signed pp ps) (last_h pp))
  = g1_add (g1_mul (secret_of xs ks) (pp_h pp)) (g1_mul (randomness ps * msg_scalar pp msg) (last_h pp)).

(** The program's result against the bookkeeper's answer. *)
Definition agrees {E} (pp : pubparam E) (xs : list N) (ann : list (N * list part)) (a : res say) (r : res (option bool)) : Prop :=
  match a, r with
  | Ok Nothing, Ok None => True
  | Ok (Claims j ks msg), Ok (Some b) =>
      exists t ps, nth_error ann j = Some (t, ps) /\ (b = true <-> balances pp xs ps ks msg)
  | Ok (SameKey i k), Ok (Some b) =>
      b = true <-> g1_mul (nth i xs 0) (pp_h pp) = g1_mul (nth k xs 0) (pp_h pp)
  | Ok (Possesses i k), Ok (Some b) => i = k -> b = true
  | Err e, Err e' => e = e'
  | Panic p, Panic p' => p = p'
  | _, _ => False
  end.

(** * Programs from nothing *)
Definition start {E} : world E := World [] [].
Definition results {E} (m : mode) (pp : pubparam E) (p : list cmd) : list (res (option bool)) := fst (execs m pp p start).
Definition after {E} (m : mode) (pp : pubparam E) (p : list cmd) : world E := snd (execs m pp p start).
Definition books {E} (m : mode) (pp : pubparam E) (p : list cmd) : book := b_run (pp_depth pp) p (results m pp p) (Book [] []).
(** The public keys of the named signers. *)
Definition keys_of {E} (w : world E) (ks : list nat) : list (pubkey E) :=
  match pick (map (fun p => fst (fst p)) (w_party w)) ks with Some l => l | None => [] end.
