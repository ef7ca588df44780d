(** Vocabulary for Properties_Multi.v: the game of SpecRed.v against a forger who ends with an
    aggregate in which it knows the secrets of the other signers, and who chooses the time
    stamp of the forgery at the end. *)
From Verif Require Import Base Env SpecTime Prng SpecPrng SubKey SecretKey Keys Sig SpecKey SpecUpdate SpecRed.
Local Open Scope N_scope.

(** The signers of an aggregate: [None] is the signer under attack, who may occur several
    times; [Some x] a signer with the secret [x]. *)
Definition signers {E} (pp : pubparam E) (pk : pubkey E) (l : list (option N)) : list (pubkey E) :=
  map (fun o => match o with None => pk | Some x => PubKey (pp_cs pp) (g2_mul x (pp_g2 pp)) end) l.
Definition occurrences (l : list (option N)) : N :=
  fold_right (fun o n => match o with None => n + 1 | Some _ => n end) 0 l.
Definition known (l : list (option N)) : N :=
  fold_right (fun o n => match o with None => n | Some x => n + x end) 0 l.

(** The part of the signer under attack: take the others out and divide. *)
Definition isolate {E} (pp : pubparam E) (l : list (option N)) (s : signature E) : signature E :=
  Signature (sig_cs s) (sig_time s)
    (g2_mul (fr_inv (occurrences l)) (sig_1 s))
    (g1_mul (fr_inv (occurrences l)) (g1_add (sig_2 s) (g1_mul (minus (known l)) (pp_h pp)))).

Inductive mforger (E : env) : Type :=
| MForge (s : signature E) (l : list (option N))
| MAskKey (t : N) (k : subkey E -> mforger E)
| MAskSig (t : N) (msg : bytes) (k : signature E -> mforger E).
Arguments MForge {E}. Arguments MAskKey {E}. Arguments MAskSig {E}.

(** A question: the sub key of a time stamp, or a signature for a time stamp on a message
    with a scalar. *)
Inductive question := QKey (t : N) | QSig (t M : N).

(** Every question for a time stamp of the tree is answered; the game keeps a list of them. *)
Definition in_tree (d : nat) (t : N) : bool := (1 <=? t) && (t <=? last_time d).
Definition note {A} (q : question) (o : option (A * list question)) : option (A * list question) :=
  match o with None => None | Some (a, qs) => Some (a, q :: qs) end.
Fixpoint mplay {E} (pp : pubparam E) (x : N) (rs : list N) (f : mforger E)
  : option (signature E * list (option N) * list question) :=
  match f with
  | MForge s l => Some (s, l, [])
  | MAskKey t k =>
    match rs with
    | [] => None
    | r :: rs' => if in_tree (pp_depth pp) t
                  then note (QKey t) (mplay pp x rs' (k (honest_ssk pp x t (path_of (pp_depth pp) t) r)))
                  else None
    end
  | MAskSig t msg k =>
    match rs with
    | [] => None
    | r :: rs' => if in_tree (pp_depth pp) t
                  then note (QSig t (msg_scalar pp msg))
                         (mplay pp x rs' (k (honest_sig pp x t (path_of (pp_depth pp) t) (msg_scalar pp msg) r)))
                  else None
    end
  end.

(** No sub key of a node above (or at) the time stamp [tx] was asked for, and no signature
    for [tx] and the scalar [mx]. *)
Definition fresh (d : nat) (tx mx : N) (q : question) : bool :=
  match q with
  | QKey t => negb (prefixb (path_of d t) (path_of d tx))
  | QSig t M => negb ((t =? tx) && (M =? mx))
  end.

(** The forger wins: the aggregate is accepted on the message, for a time stamp about which
    nothing was asked, and the signer under attack is among the signers. *)
Definition mwins {E} (m : mode) (g : G1 E) (d : nat) (cs x : N) (msg : bytes) (adv : pubparam E -> pubkey E -> mforger E)
    (coins : N * list N * list N) : Prop :=
  let '(y, ys, rs) := coins in
  let pp := exp_params g d cs y ys in
  let pk := PubKey cs (g2_mul x g2_one) in
  exists s l q, mplay pp x rs (adv pp pk) = Some (s, l, q)
    /\ In None l /\ N.of_nat (length l) < fr_modulus
    /\ forallb (fresh d (sig_time s) (msg_scalar pp msg)) q = true
    /\ verify_aggregated m s (signers pp pk l) pp msg = Ok true.

(** The forger for one signer made of it. *)
Fixpoint single {E} (pp : pubparam E) (f : mforger E) : forger E :=
  match f with
  | MForge s l => Forge (isolate pp l s)
  | MAskKey t k => AskKey t (fun a => single pp (k a))
  | MAskSig t msg k => AskSig t msg (fun a => single pp (k a))
  end.
Definition one_signer {E} (adv : pubparam E -> pubkey E -> mforger E) : pubparam E -> pubkey E -> forger E :=
  fun pp pk => single pp (adv pp pk).
