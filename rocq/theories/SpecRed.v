(** Vocabulary for Properties_Red.v: the security game for one signer, played by a forger
    who sees sub keys and signatures, and a solver that plays it against the forger without
    the master secret, from a challenge of the wBDHI problem. *)
From Coq Require Import ZArith.
From Verif Require Import Base Env SpecTime Prng SpecPrng SubKey SecretKey Keys Sig SpecKey SpecUpdate.
Local Open Scope N_scope.

(** * The game *)
Definition path_of (d : nat) (t : N) : path := nth (N.to_nat (t - 1)) (preorder d) [].
Fixpoint prefixb (u v : path) : bool :=
  match u, v with
  | [], _ => true
  | a :: u', b :: v' => (a =? b) && prefixb u' v'
  | _, _ => false
  end.

(** A forger: asks for the sub key of a time stamp, asks for a signature, ends with a
    forgery.  What it does next may depend on every answer. *)
Inductive forger (E : env) : Type :=
| Forge (s : signature E)
| AskKey (t : N) (k : subkey E -> forger E)
| AskSig (t : N) (msg : bytes) (k : signature E -> forger E).
Arguments Forge {E}. Arguments AskKey {E}. Arguments AskSig {E}.

(** The forgery is for time stamp [tx] and the message with scalar [mx].  Allowed are the
    sub keys of nodes that are not above (or at) [tx], and the signatures on anything else. *)
Definition key_allowed (d : nat) (tx t : N) : bool :=
  (1 <=? t) && (t <=? last_time d) && negb (prefixb (path_of d t) (path_of d tx)).
Definition sig_allowed (d : nat) (tx mx t M : N) : bool :=
  (1 <=? t) && (t <=? last_time d) && negb ((t =? tx) && (M =? mx)).

(** Each answer takes one scalar; the game ends without forgery ([None]) at a question that
    is not allowed and when the scalars are used up. *)
Fixpoint play {E} (key : N -> N -> option (subkey E)) (sgn : N -> bytes -> N -> option (signature E))
    (rs : list N) (f : forger E) : option (signature E) :=
  match f with
  | Forge s => Some s
  | AskKey t k =>
    match rs with
    | [] => None
    | r :: rs' => match key t r with None => None | Some a => play key sgn rs' (k a) end
    end
  | AskSig t msg k =>
    match rs with
    | [] => None
    | r :: rs' => match sgn t msg r with None => None | Some a => play key sgn rs' (k a) end
    end
  end.

(** The signer, with master secret [x]. *)
Definition real_key {E} (pp : pubparam E) (x tx t r : N) : option (subkey E) :=
  if key_allowed (pp_depth pp) tx t then Some (honest_ssk pp x t (path_of (pp_depth pp) t) r) else None.
Definition real_sig {E} (pp : pubparam E) (x tx mx t : N) (msg : bytes) (r : N) : option (signature E) :=
  if sig_allowed (pp_depth pp) tx mx t (msg_scalar pp msg)
  then Some (honest_sig pp x t (path_of (pp_depth pp) t) (msg_scalar pp msg) r) else None.
Definition real_play {E} (pp : pubparam E) (x tx mx : N) : list N -> forger E -> option (signature E) :=
  play (real_key pp x tx) (real_sig pp x tx mx).

(** * The problem *)
(** g, a*g, .., a^d*g in both groups, and b*g in both groups. *)
Record challenge (E : env) := Challenge { ch_1 : list (G1 E); ch_2 : list (G2 E); ch_b1 : G1 E; ch_b2 : G2 E }.
Arguments Challenge {E}. Arguments ch_1 {E}. Arguments ch_2 {E}. Arguments ch_b1 {E}. Arguments ch_b2 {E}.
Definition challenge_for {E} (g : G1 E) (d : nat) (a b : N) : challenge E :=
  Challenge (map (fun i => g1_mul (a ^ N.of_nat i) g) (seq 0 (d + 1)))
            (map (fun i => g2_mul (a ^ N.of_nat i) g2_one) (seq 0 (d + 1)))
            (g1_mul b g) (g2_mul b g2_one).
(** e(g, g)^(b * a^(d+1)) is wanted. *)
Definition solution {E} (g : G1 E) (d : nat) (a b : N) : GT E :=
  pairing g2_one (g1_mul (b * a ^ N.of_nat (d + 1)) g).

(** * The solver *)
(** Arithmetic modulo the group order. *)
Definition minus (a : N) : N := fr_modulus - a mod fr_modulus.
Fixpoint egcd (fuel : nat) (a b : Z) : Z * Z :=
  match fuel with
  | O => (1, 0)%Z
  | S f => if (b =? 0)%Z then (1, 0)%Z else let '(u, v) := egcd f b (a mod b)%Z in (v, u - a / b * v)%Z
  end.
Definition fr_inv (a : N) : N :=
  Z.to_N (snd (egcd 512 (Z.of_N fr_modulus) (Z.of_N (a mod fr_modulus))) mod Z.of_N fr_modulus).
Fixpoint dotp (u v : list N) : N :=
  match u, v with a :: u', b :: v' => a * b + dotp u' v' | _, _ => 0 end.
Fixpoint zip_with {A B C} (f : A -> B -> C) (l : list A) (l' : list B) : list C :=
  match l, l' with a :: k, b :: k' => f a b :: zip_with f k k' | _, _ => [] end.

(** All d coordinates of a node and a message. *)
Definition coords (d : nat) (v : path) (M : N) : list N := v ++ repeat 0 (d - 1 - length v) ++ [M].
Fixpoint first_diff (w u : list N) : option nat :=
  match w, u with
  | a :: w', b :: u' => if a =? b then option_map S (first_diff w' u') else Some 0%nat
  | _, _ => None
  end.
(** w_i - u_i; missing u_i are 0. *)
Fixpoint diffs (w u : list N) : list N :=
  match w with
  | [] => []
  | a :: w' => match u with [] => a :: diffs w' [] | b :: u' => (a + minus b) :: diffs w' u' end
  end.

Section Solver.
Context {E : env} (ch : challenge E) (d : nat) (cs : N).
(** coordinates of the forgery; the solver's random scalars for h and for h_0 .. h_d *)
Context (w : list N) (co_h : N) (co_hs : list N).

Definition pw (i : nat) : G1 E := nth i (ch_1 ch) g1_zero.
(** a^d*g, .., a*g *)
Definition down : list (G1 E) := rev (tl (ch_1 ch)).

(** h = a^d*g + co_h*g; h_0 = c_0*g + sum w_i*a^(d+1-i)*g; h_i = c_i*g - a^(d+1-i)*g. *)
Definition sim_pp : pubparam E :=
  PubParam d cs g2_one (g1_add (pw d) (g1_mul co_h (pw 0)))
    (g1_add (g1_mul (nth 0 co_hs 0) (pw 0)) (lincomb w down)
     :: zip_with (fun c p => g1_add (g1_mul c (pw 0)) (g1_mul (minus 1) p)) (tl co_hs) down).
Definition sim_pk : pubkey E := PubKey cs (nth 1 (ch_2 ch) g2_zero).

(** The components for the coordinates [u] with randomness r + c*a^(k+1), where [k] is the
    first coordinate in which [u] and [w] differ. *)
Definition sim_c (k : nat) (u : list N) : N := fr_inv (nth k u 0 + minus (nth k w 0)).
Definition sim_1 (k : nat) (u : list N) (r : N) : G2 E :=
  g2_add (g2_mul r g2_one) (g2_mul (sim_c k u) (nth (S k) (ch_2 ch) g2_zero)).
Definition sim_2 (k : nat) (u : list N) (r : N) : G1 E :=
  g1_add (g1_mul co_h (pw 1))
    (g1_add (g1_mul r (node_val sim_pp u))
      (g1_mul (sim_c k u)
        (g1_add (g1_mul (nth 0 co_hs 0 + dotp u (tl co_hs)) (pw (S k)))
                (lincomb (diffs (skipn (S k) w) (skipn (S k) u)) down)))).
Definition sim_vec (k : nat) (u : list N) (r : N) : list (G1 E) :=
  zip_with (fun h cp => g1_add (g1_mul r h)
                          (g1_mul (sim_c k u) (g1_add (g1_mul (fst cp) (pw (S k))) (g1_mul (minus 1) (snd cp)))))
    (skipn (length u + 1) (pp_hlist sim_pp))
    (zip_with pair (skipn (length u + 1) co_hs) (skipn (length u - S k) down)).

Definition sim_key (tx t r : N) : option (subkey E) :=
  if key_allowed d tx t then
    match first_diff w (path_of d t) with
    | None => None
    | Some k => Some (SubKey t (sim_1 k (path_of d t) r) (sim_2 k (path_of d t) r) (sim_vec k (path_of d t) r))
    end
  else None.
Definition sim_sig (tx mx t : N) (msg : bytes) (r : N) : option (signature E) :=
  let M := msg_scalar sim_pp msg in
  if sig_allowed d tx mx t M then
    let u := coords d (path_of d t) M in
    match first_diff w u with
    | None => None
    | Some k => Some (Signature cs t (sim_1 k u r) (sim_2 k u r))
    end
  else None.
Definition sim_play (tx mx : N) : list N -> forger E -> option (signature E) := play (sim_key tx) (sim_sig tx mx).

(** From a forgery to the solution. *)
Definition extract (s : signature E) : GT E :=
  gt_mul (pairing (ch_b2 ch) (sig_2 s))
    (gt_mul (pairing (g2_neg (ch_b2 ch)) (g1_mul co_h (pw 1)))
            (pairing (g2_neg (sig_1 s)) (g1_mul (nth 0 co_hs 0 + dotp w (tl co_hs)) (ch_b1 ch)))).
End Solver.

(** The solver: plays with the forger and extracts.  [msg] is the message of the forgery. *)
Definition target {E : env} (cs : N) (msg : bytes) : N := spec_msg (sha512 E) DOM_SEP_HASH_TO_MSG cs msg.
Definition solve {E} (ch : challenge E) (d : nat) (cs tx : N) (msg : bytes) (adv : pubparam E -> pubkey E -> forger E)
    (coins : N * list N * list N) : option (GT E) :=
  let '(c, cl, rs) := coins in
  let mx := @target E cs msg in
  let w := coords d (path_of d tx) mx in
  let pp := sim_pp ch d cs w c cl in
  match sim_play ch d cs w c cl tx mx rs (adv pp (sim_pk ch cs)) with
  | None => None
  | Some s => Some (extract ch w c cl s)
  end.

(** The parameters with the exponents [y] (for h) and [ys] (for h_0, .., h_d). *)
Definition exp_params {E} (g : G1 E) (d : nat) (cs y : N) (ys : list N) : pubparam E :=
  PubParam d cs g2_one (g1_mul y g) (map (fun e => g1_mul e g) ys).

(** The forger wins against a signer with master secret [x] whose public parameters have
    the exponents [y], [ys] and whose answers use the scalars [rs]. *)
Definition wins {E} (m : mode) (g : G1 E) (d : nat) (cs x tx : N) (msg : bytes) (adv : pubparam E -> pubkey E -> forger E)
    (coins : N * list N * list N) : Prop :=
  let '(y, ys, rs) := coins in
  let pp := exp_params g d cs y ys in
  let pk := PubKey cs (g2_mul x g2_one) in
  exists s, real_play pp x tx (msg_scalar pp msg) rs (adv pp pk) = Some s
            /\ sig_time s = tx /\ verify m s pk pp msg = Ok true.

(** All coins of a game of at most [n] questions: one scalar for h, d + 1 for the list,
    n for the answers. *)
Definition scalars (n : nat) (l : list N) : Prop := length l = n /\ Forall (fun a => a < fr_modulus) l.
Definition coins_ok (d n : nat) (coins : N * list N * list N) : Prop :=
  let '(c, cl, rs) := coins in c < fr_modulus /\ scalars (d + 1) cl /\ scalars n rs.
