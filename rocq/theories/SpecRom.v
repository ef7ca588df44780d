(** Vocabulary for Properties_Rom.v: the game of SpecMulti.v for a forger who also chooses the
    message of the forgery at the end, with the hash function of the message answered by
    the game (a random oracle). *)
From Verif Require Import Base Env SpecTime Prng SpecPrng SubKey SecretKey Keys Sig SpecKey SpecUpdate SpecRed SpecMulti.
Local Open Scope N_scope.

(** The same groups with another hash function. *)
Definition with_hash (E : env) (H : bytes -> bytes) : env :=
  Env (G1 E) (G2 E) (GT E) g1_zero g1_add g1_dbl g1_mul g1_eqb g1_insub
    g2_zero g2_add g2_neg g2_mul g2_eqb g2_insub g2_one gt_one gt_mul gt_eqb pairing pairing_prod
    g1_enc g1_dec g2_enc g2_dec H bls_sign bls_verify.
(** The same objects, seen there and back. *)
Definition re_sig {E H} (s : signature E) : signature (with_hash E H) :=
  @Signature (with_hash E H) (sig_cs s) (sig_time s) (sig_1 s) (sig_2 s).
Definition re_pk {E H} (k : pubkey E) : pubkey (with_hash E H) := @PubKey (with_hash E H) (pk_cs k) (pk_pk k).
Definition re_pp {E H} (pp : pubparam E) : pubparam (with_hash E H) :=
  @PubParam (with_hash E H) (pp_depth pp) (pp_cs pp) (pp_g2 pp) (pp_h pp) (pp_hlist pp).
Definition re_ch {E H} (ch : challenge E) : challenge (with_hash E H) :=
  @Challenge (with_hash E H) (ch_1 ch) (ch_2 ch) (ch_b1 ch) (ch_b2 ch).
Definition un_sig {E H} (s : signature (with_hash E H)) : signature E :=
  @Signature E (sig_cs s) (sig_time s) (sig_1 s) (sig_2 s).
Definition un_ssk {E H} (k : subkey (with_hash E H)) : subkey E :=
  @SubKey E (sk_t k) (sk_g2r k) (sk_hpoly k) (sk_hvec k).
Definition un_pk {E H} (k : pubkey (with_hash E H)) : pubkey E := @PubKey E (pk_cs k) (pk_pk k).
Definition un_pp {E H} (pp : pubparam (with_hash E H)) : pubparam E :=
  @PubParam E (pp_depth pp) (pp_cs pp) (pp_g2 pp) (pp_h pp) (pp_hlist pp).

(** A forger that may also ask for values of the hash function. *)
Inductive hforger (E : env) : Type :=
| HForge (msg : bytes) (s : signature E) (l : list (option N))
| HAskKey (t : N) (k : subkey E -> hforger E)
| HAskSig (t : N) (msg : bytes) (k : signature E -> hforger E)
| HAskHash (b : bytes) (k : bytes -> hforger E).
Arguments HForge {E}. Arguments HAskKey {E}. Arguments HAskSig {E}. Arguments HAskHash {E}.

(** What is hashed for a message, and the scalar of a hash value. *)
Definition hash_input (cs : N) (msg : bytes) : bytes := DOM_SEP_HASH_TO_MSG ++ cs :: msg.
Definition scalar_of (h : bytes) : N := os2ip h mod fr_modulus.

(** The inputs asked for so far; the i-th different one is answered by the i-th of a list of
    hash values. *)
Fixpoint position (tbl : list bytes) (b : bytes) : nat :=
  match tbl with [] => 0 | c :: tbl' => if bytes_eqb c b then 0 else S (position tbl' b) end.
Definition enter (tbl : list bytes) (b : bytes) : list bytes :=
  if (position tbl b <? length tbl)%nat then tbl else tbl ++ [b].

Inductive hquestion := HKey (t : N) | HSig (t : N) (msg : bytes).
Definition hnote {A} (q : hquestion) (o : option (A * list hquestion)) : option (A * list hquestion) :=
  match o with None => None | Some (a, qs) => Some (a, q :: qs) end.

(** The game ends with the message, the aggregate, its signers, the inputs that were hashed
    and the questions; it ends without forgery when scalars or hash values are used up. *)
Fixpoint hplay {E} (pp : pubparam E) (x : N) (hs : list bytes) (tbl : list bytes) (rs : list N) (f : hforger E)
  : option (bytes * signature E * list (option N) * list bytes * list hquestion) :=
  match f with
  | HForge msg s l =>
    let b := hash_input (pp_cs pp) msg in
    match nth_error hs (position tbl b) with
    | None => None
    | Some _ => Some (msg, s, l, enter tbl b, [])
    end
  | HAskKey t k =>
    match rs with
    | [] => None
    | r :: rs' => if in_tree (pp_depth pp) t
                  then hnote (HKey t) (hplay pp x hs tbl rs' (k (honest_ssk pp x t (path_of (pp_depth pp) t) r)))
                  else None
    end
  | HAskSig t msg k =>
    let b := hash_input (pp_cs pp) msg in
    match rs with
    | [] => None
    | r :: rs' =>
      if in_tree (pp_depth pp) t then
        match nth_error hs (position tbl b) with
        | None => None
        | Some h => hnote (HSig t msg)
                      (hplay pp x hs (enter tbl b) rs' (k (honest_sig pp x t (path_of (pp_depth pp) t) (scalar_of h) r)))
        end
      else None
    end
  | HAskHash b k =>
    match nth_error hs (position tbl b) with
    | None => None
    | Some h => hplay pp x hs (enter tbl b) rs (k h)
    end
  end.

(** No sub key of a node above (or at) the time stamp [tx] was asked for, and no signature
    for [tx] on [msg]. *)
Definition hfresh (d : nat) (tx : N) (msg : bytes) (q : hquestion) : bool :=
  match q with
  | HKey t => negb (prefixb (path_of d t) (path_of d tx))
  | HSig t m => negb ((t =? tx) && bytes_eqb m msg)
  end.

(** The hash function the game has answered with. *)
Definition table (tbl hs : list bytes) (b : bytes) : bytes := nth (position tbl b) hs (repeat 0 64).

(** The coins: as before, and the hash values. *)
Definition hcoins := (N * list N * list N * list bytes)%type.
Definition hwins {E} (m : mode) (g : G1 E) (d : nat) (cs x : N) (adv : pubparam E -> pubkey E -> hforger E) (z : hcoins) : Prop :=
  let '(y, ys, rs, hs) := z in
  let pp := exp_params g d cs y ys in
  let pk := PubKey cs (g2_mul x g2_one) in
  exists msg s l tbl q, hplay pp x hs [] rs (adv pp pk) = Some (msg, s, l, tbl, q)
    /\ In None l /\ N.of_nat (length l) < fr_modulus
    /\ forallb (hfresh d (sig_time s) msg) q = true
    /\ @verify_aggregated (with_hash E (table tbl hs)) m (re_sig s) (signers (re_pp pp) (re_pk pk) l) (re_pp pp) msg = Ok true.
(** [n] scalars for the answers and [q] hash values whose scalars are different. *)
Definition hcoins_ok (d n q : nat) (z : hcoins) : Prop :=
  let '(y, ys, rs, hs) := z in
  coins_ok d n (y, ys, rs) /\ length hs = q /\ Forall (fun h => length h = 64%nat /\ are_bytes h) hs
  /\ NoDup (map scalar_of hs).

(** The solver guesses the time stamp and which of the different hash inputs belongs to the
    message of the forgery.  Messages are replaced by numbers: the i-th hash input is that of
    i zero bytes under the hash function [answer]. *)
Definition number (i : nat) : bytes := repeat 0 i.
Definition answer (cs : N) (hs : list bytes) (b : bytes) : bytes :=
  nth (length b - length (hash_input cs [])) hs (repeat 0 64).
Fixpoint relabel {E} (cs : N) (hs tbl : list bytes) (f : hforger E) : mforger (with_hash E (answer cs hs)) :=
  match f with
  | HForge _ s l => MForge (re_sig s) l
  | HAskKey t k => MAskKey t (fun a => relabel cs hs tbl (k (un_ssk a)))
  | HAskSig t msg k =>
    let b := hash_input cs msg in
    MAskSig t (number (position tbl b)) (fun a => relabel cs hs (enter tbl b) (k (un_sig a)))
  | HAskHash b k => relabel cs hs (enter tbl b) (k (nth (position tbl b) hs []))
  end.
Definition hsolve {E} (ch : challenge E) (d : nat) (cs tx : N) (i : nat) (adv : pubparam E -> pubkey E -> hforger E)
    (z : hcoins) : option (GT E) :=
  let '(c, cl, rs, hs) := z in
  @solve (with_hash E (answer cs hs)) (re_ch ch) d cs tx (number i)
    (one_signer (fun pp pk => relabel cs hs [] (adv (un_pp pp) (un_pk pk)))) (c, cl, rs).

(** The same game with a fixed hash function. *)
Fixpoint eplay {E} (pp : pubparam E) (x : N) (H : bytes -> bytes) (rs : list N) (f : hforger E)
  : option (bytes * signature E * list (option N) * list hquestion) :=
  match f with
  | HForge msg s l => Some (msg, s, l, [])
  | HAskKey t k =>
    match rs with
    | [] => None
    | r :: rs' => if in_tree (pp_depth pp) t
                  then hnote (HKey t) (eplay pp x H rs' (k (honest_ssk pp x t (path_of (pp_depth pp) t) r)))
                  else None
    end
  | HAskSig t msg k =>
    match rs with
    | [] => None
    | r :: rs' =>
      if in_tree (pp_depth pp) t
      then hnote (HSig t msg)
             (eplay pp x H rs' (k (honest_sig pp x t (path_of (pp_depth pp) t) (scalar_of (H (hash_input (pp_cs pp) msg))) r)))
      else None
    end
  | HAskHash b k => eplay pp x H rs (k (H b))
  end.
Definition ewins {E} (m : mode) (g : G1 E) (d : nat) (cs x : N) (H : bytes -> bytes)
    (adv : pubparam E -> pubkey E -> hforger E) (z : N * list N * list N) : Prop :=
  let '(y, ys, rs) := z in
  let pp := exp_params g d cs y ys in
  let pk := PubKey cs (g2_mul x g2_one) in
  exists msg s l q, eplay pp x H rs (adv pp pk) = Some (msg, s, l, q)
    /\ In None l /\ N.of_nat (length l) < fr_modulus
    /\ forallb (hfresh d (sig_time s) msg) q = true
    /\ @verify_aggregated (with_hash E H) m (re_sig s) (signers (re_pp pp) (re_pk pk) l) (re_pp pp) msg = Ok true.
(** Coins whose hash values may have equal scalars, and how many of them do at most: with
    [K = 256^64] hash values of which at most [K / fr_modulus + 1] have the same scalar. *)
Definition hcoins_any (d n q : nat) (z : hcoins) : Prop :=
  let '(y, ys, rs, hs) := z in
  coins_ok d n (y, ys, rs) /\ length hs = q /\ Forall (fun h => length h = 64%nat /\ are_bytes h) hs.
Definition repeats_bound (d n q : nat) : N :=
  fr_modulus ^ N.of_nat (d + 2 + n)
  * (N.of_nat (q * (q - 1) / 2) * (256 ^ 64 / fr_modulus + 1) * (256 ^ 64) ^ N.of_nat (q - 1)).
