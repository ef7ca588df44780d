(** Vocabulary for Properties_Pop.v: the game of SpecRom.v in which the forger need not know the
    secrets of the other signers; it gives proofs of possession for all keys instead.  The
    hash function to the curve of the BLS signatures is answered by the game, too. *)
From Verif Require Import Base Env SpecTime Prng SpecPrng SubKey SecretKey Keys Sig SpecKey SpecUpdate SpecAgg SpecRed SpecMulti SpecRom.
Local Open Scope N_scope.

(** The same groups with the BLS signatures of a hash function [Q] to the curve (bls_sigs_ref:
    core_sign multiplies the hash by the secret, core_verify compares two pairings). *)
Definition with_points (E : env) (Q : bytes -> bytes -> G1 E) : env :=
  Env (G1 E) (G2 E) (GT E) g1_zero g1_add g1_dbl g1_mul g1_eqb g1_insub
    g2_zero g2_add g2_neg g2_mul g2_eqb g2_insub g2_one gt_one gt_mul gt_eqb pairing pairing_prod
    g1_enc g1_dec g2_enc g2_dec (sha512 E)
    (fun x msg cs => g1_mul x (Q msg cs))
    (fun pk s msg cs => g2_insub pk && g1_insub s && gt_eqb (pairing g2_one s) (pairing pk (Q msg cs))).
Definition pt_pk {E Q} (k : pubkey E) : pubkey (with_points E Q) := @PubKey (with_points E Q) (pk_cs k) (pk_pk k).
Definition pt_pop {E Q} (p : proof E) : proof (with_points E Q) := @Pop (with_points E Q) (pop_cs p) (pop_pop p).

(** What is hashed to the curve: a message and a ciphersuite (encoded as one list); here for
    the proof of possession of a key. *)
Definition point_input (msg cs : bytes) : bytes := N.of_nat (length cs) :: cs ++ msg.
Definition pop_input {E} (k : pubkey E) : bytes := point_input (pop_msg (pk_pk k)) [pk_cs k].
(** The hash function the game has answered with. *)
Definition points {E} (tbl : list bytes) (pts : list (G1 E)) (msg cs : bytes) : G1 E :=
  nth (position tbl (point_input msg cs)) pts g1_zero.
(** PublicKey::validate with these answers. *)
Definition proved {E} (tbl : list bytes) (pts : list (G1 E)) (kp : pubkey E * proof E) : bool :=
  @pk_validate (with_points E (points tbl pts)) (pt_pk (fst kp)) (pt_pop (snd kp)).

(** A forger that ends with a message, an aggregate, and keys with proofs. *)
Inductive pforger (E : env) : Type :=
| PForge (msg : bytes) (s : signature E) (l : list (pubkey E * proof E))
| PAskKey (t : N) (k : subkey E -> pforger E)
| PAskSig (t : N) (msg : bytes) (k : signature E -> pforger E)
| PAskHash (b : bytes) (k : bytes -> pforger E)
| PAskPoint (msg cs : bytes) (k : G1 E -> pforger E).
Arguments PForge {E}. Arguments PAskKey {E}. Arguments PAskSig {E}. Arguments PAskHash {E}. Arguments PAskPoint {E}.

(** The inputs for the proofs of a list of keys. *)
Definition enter_all {E} (tbl : list bytes) (l : list (pubkey E * proof E)) : list bytes :=
  fold_left (fun t kp => enter t (pop_input (fst kp))) l tbl.

(** As [hplay]; also ends without forgery when the points are used up. *)
Fixpoint pplay {E} (pp : pubparam E) (x : N) (hs : list bytes) (tbl : list bytes) (pts : list (G1 E)) (ptbl : list bytes)
    (rs : list N) (f : pforger E)
  : option (bytes * signature E * list (pubkey E * proof E) * list bytes * list bytes * list hquestion) :=
  match f with
  | PForge msg s l =>
    let b := hash_input (pp_cs pp) msg in
    match nth_error hs (position tbl b) with
    | None => None
    | Some _ => if (length (enter_all ptbl l) <=? length pts)%nat
                then Some (msg, s, l, enter tbl b, enter_all ptbl l, []) else None
    end
  | PAskKey t k =>
    match rs with
    | [] => None
    | r :: rs' => if in_tree (pp_depth pp) t
                  then hnote (HKey t) (pplay pp x hs tbl pts ptbl rs' (k (honest_ssk pp x t (path_of (pp_depth pp) t) r)))
                  else None
    end
  | PAskSig t msg k =>
    let b := hash_input (pp_cs pp) msg in
    match rs with
    | [] => None
    | r :: rs' =>
      if in_tree (pp_depth pp) t then
        match nth_error hs (position tbl b) with
        | None => None
        | Some h => hnote (HSig t msg)
                      (pplay pp x hs (enter tbl b) pts ptbl rs' (k (honest_sig pp x t (path_of (pp_depth pp) t) (scalar_of h) r)))
        end
      else None
    end
  | PAskHash b k =>
    match nth_error hs (position tbl b) with
    | None => None
    | Some h => pplay pp x hs (enter tbl b) pts ptbl rs (k h)
    end
  | PAskPoint msg cs k =>
    let b := point_input msg cs in
    match nth_error pts (position ptbl b) with
    | None => None
    | Some p => pplay pp x hs tbl pts (enter ptbl b) rs (k p)
    end
  end.

(** The coins: as before, and the exponents of the points.  The first point is the one for
    the key under attack; the forger gets its proof of possession. *)
Definition pcoins := (hcoins * list N)%type.
Definition pforger_for (E : env) := pubparam E -> pubkey E -> proof E -> pforger E.
(** What the verifier checks: all proofs, and the aggregate. *)
Definition pwins_if {E} (check : bool) (m : mode) (g : G1 E) (d : nat) (cs x : N) (adv : pforger_for E) (z : pcoins) : Prop :=
  let '(y, ys, rs, hs, zs) := z in
  let pp := exp_params g d cs y ys in
  let pk := PubKey cs (g2_mul x g2_one) in
  let pts := map (fun e => g1_mul e g) zs in
  exists msg s l tbl ptbl q,
    pplay pp x hs [] pts [pop_input pk] rs (adv pp pk (Pop cs (g1_mul x (nth 0 pts g1_zero)))) = Some (msg, s, l, tbl, ptbl, q)
    /\ In pk (map fst l) /\ N.of_nat (length l) < fr_modulus
    /\ forallb (hfresh d (sig_time s) msg) q = true
    /\ (check = true -> forallb (proved ptbl pts) l = true)
    /\ @verify_aggregated (with_hash E (table tbl hs)) m (re_sig s) (map re_pk (map fst l)) (re_pp pp) msg = Ok true.
Definition pwins {E} := @pwins_if E true.

Definition pcoins_ok (d n q p : nat) (z : pcoins) : Prop :=
  hcoins_ok d n q (fst z) /\ length (snd z) = p /\ Forall (fun e => 0 < e < fr_modulus) (snd z).
(** h is not the zero point. *)
Definition h_nonzero (z : pcoins) : Prop := let '(y, _, _, _, _) := z in y <> 0.

(** * The solver *)
(** All points but the first are known multiples of h. *)
Definition sim_points {E} (g h : G1 E) (rho : list N) : list (G1 E) :=
  match rho with [] => [] | e :: rho' => g1_mul e g :: map (fun e => g1_mul e h) rho' end.
(** h to the secret of another signer is its proof divided by the multiple. *)
Definition others {E} (pk : pubkey E) (tbl : list bytes) (rho : list N) (l : list (pubkey E * proof E)) : G1 E :=
  fold_right (fun kp acc => if pk_eqb (fst kp) pk then acc
      else g1_add (g1_mul (fr_inv (nth (position tbl (pop_input (fst kp))) rho 0)) (pop_pop (snd kp))) acc) g1_zero l.
Definition occurs {E} (pk : pubkey E) (l : list (pubkey E * proof E)) : N :=
  fold_right (fun kp n => if pk_eqb (fst kp) pk then n + 1 else n) 0 l.
(** The part of the signer under attack. *)
Definition pisolate {E} (pk : pubkey E) (tbl : list bytes) (rho : list N) (l : list (pubkey E * proof E)) (s : signature E) : signature E :=
  Signature (sig_cs s) (sig_time s)
    (g2_mul (fr_inv (occurs pk l)) (sig_1 s))
    (g1_mul (fr_inv (occurs pk l)) (g1_add (sig_2 s) (g1_mul (minus 1) (others pk tbl rho l)))).
(** The forger for one signer, as in SpecRom.v and SpecMulti.v. *)
Definition usable_list {E} (pts : list (G1 E)) (ptbl : list bytes) (l : list (pubkey E * proof E)) : list (pubkey E * proof E) :=
  if (length ptbl <=? length pts)%nat && forallb (proved ptbl pts) l then l else [].
Fixpoint psingle {E} (cs : N) (hs tbl : list bytes) (pts : list (G1 E)) (ptbl : list bytes) (rho : list N) (pk : pubkey E)
    (f : pforger E) : forger (with_hash E (answer cs hs)) :=
  match f with
  | PForge msg s l =>
    let ptbl' := enter_all ptbl l in Forge (re_sig (pisolate pk ptbl' rho (usable_list pts ptbl' l) s))
  | PAskKey t k => AskKey t (fun a => psingle cs hs tbl pts ptbl rho pk (k (un_ssk a)))
  | PAskSig t msg k =>
    let b := hash_input cs msg in
    AskSig t (number (position tbl b)) (fun a => psingle cs hs (enter tbl b) pts ptbl rho pk (k (un_sig a)))
  | PAskHash b k => psingle cs hs (enter tbl b) pts ptbl rho pk (k (nth (position tbl b) hs []))
  | PAskPoint msg c k =>
    let b := point_input msg c in
    psingle cs hs tbl pts (enter ptbl b) rho pk (k (nth (position ptbl b) pts g1_zero))
  end.
Definition psolve {E} (ch : challenge E) (d : nat) (cs tx : N) (i : nat) (adv : pforger_for E) (z : pcoins) : option (GT E) :=
  let '(c, cl, rs, hs, rho) := z in
  @solve (with_hash E (answer cs hs)) (re_ch ch) d cs tx (number i)
    (fun pp pk => psingle cs hs [] (sim_points (pw ch 0) (pp_h (un_pp pp)) rho) [pop_input (un_pk pk)] rho (un_pk pk)
                    (adv (un_pp pp) (un_pk pk) (Pop cs (g1_mul (nth 0 rho 0) (pw ch 1)))))
    (c, cl, rs).

(** Without the proofs: a forger that asks for one hash value and adds the key [rogue]. *)
Definition rogue_forger {E : env} (y tx k : N) (msg : bytes) : pforger_for E :=
  fun pp pk pop =>
    PAskHash (hash_input (pp_cs pp) msg) (fun h =>
      PForge msg (honest_sig pp y tx (path_of (pp_depth pp) tx) (scalar_of h) k) [(rogue pp y [pk], pop); (pk, pop)]).

(** Any coins, and how many of them are lost at most: equal scalars of hash values, h zero, or
    one of the points zero. *)
Definition pcoins_any (d n q p : nat) (z : pcoins) : Prop := hcoins_any d n q (fst z) /\ scalars p (snd z).
Definition lost_bound (d n q p : nat) : N :=
  repeats_bound d n q * fr_modulus ^ N.of_nat p
  + N.of_nat (p + 1) * (fr_modulus ^ N.of_nat (d + 1 + n + p) * (256 ^ 64) ^ N.of_nat q).
