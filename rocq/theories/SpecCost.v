(** Vocabulary for Properties_Cost.v: the solver of SpecFwd.v as a program for a machine that knows the
    elements of the groups only by names, and what such a program costs. *)
From Verif Require Import Base Env Time SpecTime Prng SpecPrng SubKey SecretKey Keys Sig
  SpecKey SpecUpdate SpecAgg SpecRed SpecMulti SpecRom SpecPop SpecFwd SpecIface.
Local Open Scope N_scope.

(** * The machine *)
(** Names for the elements of the three groups and for inputs of the hash function to the curve.
    A program is written for any four types of names, so all it can do with a name is to
    use it in one of the steps below. *)
Section Machine.
Context {V1 V2 VT VB : Type}.
(** ciphersuite, time stamp, elements *)
Definition nsig := (N * N * V2 * V1)%type.
(** time stamp, g2r, hpoly, hvector *)
Definition nssk := (N * V2 * V1 * list V1)%type.
(** a public key and a proof of possession, each with its ciphersuite *)
Definition nkey := ((N * V2) * (N * V1))%type.

(** What the program tells the forger: the parameters (depth, ciphersuite, h, h_0 .. h_d) with the key
    under attack and its proof; the secret key (ciphersuite, time stamp, sub keys, state of the prng);
    results of update and sign_present; values of the hash functions. *)
Inductive told :=
| TStart (d : nat) (cs : N) (g2 : V2) (h : V1) (hl : list V1) (pk : V2) (pop : V1)
| TKey (cs t : N) (l : list nssk) (g : bytes)
| TUpdate (r : res unit)
| TSign (r : res nsig)
| THash (h : bytes)
| TPoint (p : V1).
(** What the forger says next. *)
Inductive said :=
| SForge (msg : bytes) (s : nsig) (l : list nkey)
| SBreak
| SUpdate (t : N) (seed : bytes)
| SSign (t : N) (msg : bytes)
| SHash (b : bytes)
| SPoint (b : VB)
| SOther.

Inductive prog (A : Type) : Type :=
| Ret (a : A)
| Zero1 (k : V1 -> prog A)
| Add1 (x y : V1) (k : V1 -> prog A)
| Dbl1 (x : V1) (k : V1 -> prog A)
| Mul1 (n : N) (x : V1) (k : V1 -> prog A)
| In1 (x : V1) (k : bool -> prog A)
| Zero2 (k : V2 -> prog A)
| One2 (k : V2 -> prog A)
| Add2 (x y : V2) (k : V2 -> prog A)
| Neg2 (x : V2) (k : V2 -> prog A)
| Mul2 (n : N) (x : V2) (k : V2 -> prog A)
| In2 (x : V2) (k : bool -> prog A)
| Eq2 (x y : V2) (k : bool -> prog A)
| Pair (x : V2) (y : V1) (k : VT -> prog A)
| MulT (x y : VT) (k : VT -> prog A)
| EqT (x y : VT) (k : bool -> prog A)
| Input (cs : N) (x : V2) (k : VB -> prog A)        (* the input for the proof of a key *)
| Same (b c : VB) (k : bool -> prog A)
| Tell (a : told) (k : said -> prog A).
End Machine.
Arguments told : clear implicits. Arguments said : clear implicits. Arguments prog : clear implicits.
Arguments nsig : clear implicits. Arguments nssk : clear implicits. Arguments nkey : clear implicits.
Arguments Ret {V1 V2 VT VB A}. Arguments Zero1 {V1 V2 VT VB A}. Arguments Add1 {V1 V2 VT VB A}. Arguments Dbl1 {V1 V2 VT VB A}.
Arguments Mul1 {V1 V2 VT VB A}. Arguments In1 {V1 V2 VT VB A}. Arguments Zero2 {V1 V2 VT VB A}. Arguments One2 {V1 V2 VT VB A}.
Arguments Add2 {V1 V2 VT VB A}. Arguments Neg2 {V1 V2 VT VB A}. Arguments Mul2 {V1 V2 VT VB A}. Arguments In2 {V1 V2 VT VB A}.
Arguments Eq2 {V1 V2 VT VB A}. Arguments Pair {V1 V2 VT VB A}. Arguments MulT {V1 V2 VT VB A}. Arguments EqT {V1 V2 VT VB A}.
Arguments Input {V1 V2 VT VB A}. Arguments Same {V1 V2 VT VB A}. Arguments Tell {V1 V2 VT VB A}.

Fixpoint pbind {V1 V2 VT VB A B} (p : prog V1 V2 VT VB A) (f : A -> prog V1 V2 VT VB B) : prog V1 V2 VT VB B :=
  match p with
  | Ret a => f a
  | Zero1 k => Zero1 (fun x => pbind (k x) f)
  | Add1 x y k => Add1 x y (fun x => pbind (k x) f)
  | Dbl1 x k => Dbl1 x (fun x => pbind (k x) f)
  | Mul1 n x k => Mul1 n x (fun x => pbind (k x) f)
  | In1 x k => In1 x (fun x => pbind (k x) f)
  | Zero2 k => Zero2 (fun x => pbind (k x) f)
  | One2 k => One2 (fun x => pbind (k x) f)
  | Add2 x y k => Add2 x y (fun x => pbind (k x) f)
  | Neg2 x k => Neg2 x (fun x => pbind (k x) f)
  | Mul2 n x k => Mul2 n x (fun x => pbind (k x) f)
  | In2 x k => In2 x (fun x => pbind (k x) f)
  | Eq2 x y k => Eq2 x y (fun x => pbind (k x) f)
  | Pair x y k => Pair x y (fun x => pbind (k x) f)
  | MulT x y k => MulT x y (fun x => pbind (k x) f)
  | EqT x y k => EqT x y (fun x => pbind (k x) f)
  | Input cs x k => Input cs x (fun x => pbind (k x) f)
  | Same b c k => Same b c (fun x => pbind (k x) f)
  | Tell a k => Tell a (fun x => pbind (k x) f)
  end.
Notation "x <- p ;; q" := (pbind p (fun x => q)) (at level 61, p at next level, right associativity).

(** * Running a program *)
(** The forger of SpecFwd.v, waiting for what the program tells it. *)
Inductive waiting (E : env) : Type :=
| WStart (adv : aforger_for E)
| WFirst (f : aforger E)        (* before the break-in *)
| WThen (f : pforger E)         (* after the break-in *)
| WLost.                        (* it was told something it has not asked for *)
Arguments WStart {E}. Arguments WFirst {E}. Arguments WThen {E}. Arguments WLost {E}.
Section Run.
Context {E : env}.
Definition of_nsig (s : nsig (G1 E) (G2 E)) : signature E := let '(cs, t, a, b) := s in Signature cs t a b.
Definition of_nssk (k : nssk (G1 E) (G2 E)) : subkey E := let '(t, a, b, l) := k in SubKey t a b l.
Definition to_nsig (s : signature E) : nsig (G1 E) (G2 E) := (sig_cs s, sig_time s, sig_1 s, sig_2 s).
Definition to_nkey (kp : pubkey E * proof E) : nkey (G1 E) (G2 E) :=
  ((pk_cs (fst kp), pk_pk (fst kp)), (pop_cs (snd kp), pop_pop (snd kp))).
Definition hears (w : waiting E) (a : told (G1 E) (G2 E)) : waiting E :=
  match w, a with
  | WStart adv, TStart d cs g2 h hl pk pop => WFirst (adv (PubParam d cs g2 h hl) (PubKey cs pk) (Pop cs pop))
  | WFirst (ABreak k), TKey cs t l g => WThen (k (SecKey cs t (map of_nssk l) g))
  | WFirst (AUpdate _ _ k), TUpdate r => WFirst (k r)
  | WFirst (ASign _ _ k), TSign r => WFirst (k (res_map of_nsig r))
  | WFirst (AAskHash _ k), THash h => WFirst (k h)
  | WFirst (AAskPoint _ _ k), TPoint p => WFirst (k p)
  | WThen (PAskHash _ k), THash h => WThen (k h)
  | WThen (PAskPoint _ _ k), TPoint p => WThen (k p)
  | _, _ => WLost
  end.
Definition says (w : waiting E) : said (G1 E) (G2 E) bytes :=
  match w with
  | WFirst (AForge msg s l) | WThen (PForge msg s l) => SForge msg (to_nsig s) (map to_nkey l)
  | WFirst (ABreak _) => SBreak
  | WFirst (AUpdate t seed _) => SUpdate t seed
  | WFirst (ASign t msg _) => SSign t msg
  | WFirst (AAskHash b _) | WThen (PAskHash b _) => SHash b
  | WFirst (AAskPoint msg cs _) | WThen (PAskPoint msg cs _) => SPoint (point_input msg cs)
  | _ => SOther
  end.

(** The names are the elements themselves.  The result, the forger at the end, and the costs: one for
    each step, and two for each bit of a scalar. *)
Definition scalar_cost (n : N) : N := 2 * N.size n.
Definition pay {A B : Type} (c : N) (r : A * B * N) : A * B * N := let '(a, w, c') := r in (a, w, c + c').
Fixpoint run {A} (p : prog (G1 E) (G2 E) (GT E) bytes A) (w : waiting E) : A * waiting E * N :=
  match p with
  | Ret a => (a, w, 0)
  | Zero1 k => pay 1 (run (k g1_zero) w)
  | Add1 x y k => pay 1 (run (k (g1_add x y)) w)
  | Dbl1 x k => pay 1 (run (k (g1_dbl x)) w)
  | Mul1 n x k => pay (1 + scalar_cost n) (run (k (g1_mul n x)) w)
  | In1 x k => pay 1 (run (k (g1_insub x)) w)
  | Zero2 k => pay 1 (run (k g2_zero) w)
  | One2 k => pay 1 (run (k g2_one) w)
  | Add2 x y k => pay 1 (run (k (g2_add x y)) w)
  | Neg2 x k => pay 1 (run (k (g2_neg x)) w)
  | Mul2 n x k => pay (1 + scalar_cost n) (run (k (g2_mul n x)) w)
  | In2 x k => pay 1 (run (k (g2_insub x)) w)
  | Eq2 x y k => pay 1 (run (k (g2_eqb x y)) w)
  | Pair x y k => pay 1 (run (k (pairing x y)) w)
  | MulT x y k => pay 1 (run (k (gt_mul x y)) w)
  | EqT x y k => pay 1 (run (k (gt_eqb x y)) w)
  | Input cs x k => pay 1 (run (k (point_input (pop_msg x) [cs])) w)
  | Same b c k => pay 1 (run (k (bytes_eqb b c)) w)
  | Tell a k => pay 1 (run (k (says (hears w a))) (hears w a))
  end.
End Run.

(** * The solver as a program *)
Section Program.
Context {V1 V2 VT VB : Type}.
Local Notation P := (prog V1 V2 VT VB).
Definition zero1 : P V1 := Zero1 Ret.
Definition add1 (x y : V1) : P V1 := Add1 x y Ret.
Definition dbl1 (x : V1) : P V1 := Dbl1 x Ret.
Definition mul1 (n : N) (x : V1) : P V1 := Mul1 n x Ret.
Definition add2 (x y : V2) : P V2 := Add2 x y Ret.
Definition neg2 (x : V2) : P V2 := Neg2 x Ret.
Definition mul2 (n : N) (x : V2) : P V2 := Mul2 n x Ret.
Definition mpair (x : V2) (y : V1) : P VT := Pair x y Ret.
Definition mulT (x y : VT) : P VT := MulT x y Ret.
Definition tell (a : told V1 V2) : P (said V1 V2 VB) := Tell a Ret.

Fixpoint each {A B} (f : A -> P B) (l : list A) : P (list B) :=
  match l with
  | [] => Ret []
  | a :: l' => b <- f a;; r <- each f l';; Ret (b :: r)
  end.
Fixpoint zip_each {A B C} (f : A -> B -> P C) (l : list A) (l' : list B) : P (list C) :=
  match l, l' with
  | a :: k, b :: k' => c <- f a b;; r <- zip_each f k k';; Ret (c :: r)
  | _, _ => Ret []
  end.

(** Places in the table of the inputs asked for. *)
Fixpoint find_place (tbl : list VB) (b : VB) : P nat :=
  match tbl with
  | [] => Ret 0%nat
  | c :: tbl' => Same c b (fun e => if e then Ret 0%nat else n <- find_place tbl' b;; Ret (S n))
  end.
Definition put (tbl : list VB) (b : VB) : P (list VB) :=
  n <- find_place tbl b;; Ret (if (n <? length tbl)%nat then tbl else tbl ++ [b]).
Fixpoint put_all (tbl : list VB) (l : list VB) : P (list VB) :=
  match l with [] => Ret tbl | b :: l' => t <- put tbl b;; put_all t l' end.

(** The challenge, and the solver's guesses and coins, as for [fsolve]. *)
Context (ch1 : list V1) (ch2 : list V2) (chb1 : V1) (chb2 : V2).
Context (d : nat) (cs tx : N) (i : nat) (tb : N).
Context (co_h : N) (co_hs : list N) (hs : list bytes) (rho : list N).
(** the neutral elements and the generator *)
Context (z1 : V1) (z2 : V2) (o2 : V2).
Definition m_scalar (j : nat) : N := spec_msg (answer cs hs) DOM_SEP_HASH_TO_MSG cs (number j).
Definition m_mx : N := m_scalar i.
Definition m_w : list N := coords d (path_of d tx) m_mx.
Definition m_pw (i : nat) : V1 := nth i ch1 z1.
Definition m_down : list V1 := rev (tl ch1).

Fixpoint m_lincomb (v : list N) (l : list V1) : P V1 :=
  match v, l with
  | x :: v', h :: l' => a <- mul1 x h;; b <- m_lincomb v' l';; add1 a b
  | _, _ => Ret z1
  end.
Definition m_params : P (V1 * list V1) :=
  a <- mul1 co_h (m_pw 0);; h <- add1 (m_pw d) a;;
  b <- mul1 (nth 0 co_hs 0) (m_pw 0);; c <- m_lincomb m_w m_down;; h0 <- add1 b c;;
  l <- zip_each (fun c p => a <- mul1 c (m_pw 0);; b <- mul1 (minus 1) p;; add1 a b) (tl co_hs) m_down;;
  Ret (h, h0 :: l).
Definition m_points (h : V1) : P (list V1) :=
  match rho with
  | [] => Ret []
  | e :: rho' => a <- mul1 e (m_pw 0);; l <- each (fun e => mul1 e h) rho';; Ret (a :: l)
  end.

Section Game.
(** the parameters, the points, the key under attack *)
Context (hl : list V1) (pts : list V1) (pk : V2).
Definition m_1 (k : nat) (u : list N) (r : N) : P V2 :=
  a <- mul2 r o2;; b <- mul2 (sim_c m_w k u) (nth (S k) ch2 z2);; add2 a b.
Definition m_2 (k : nat) (u : list N) (r : N) : P V1 :=
  a <- mul1 co_h (m_pw 1);;
  b <- m_lincomb u (skipn 1 hl);; b <- add1 (nth 0 hl z1) b;; b <- mul1 r b;;
  c <- mul1 (nth 0 co_hs 0 + dotp u (tl co_hs)) (m_pw (S k));;
  e <- m_lincomb (diffs (skipn (S k) m_w) (skipn (S k) u)) m_down;;
  c <- add1 c e;; c <- mul1 (sim_c m_w k u) c;;
  b <- add1 b c;; add1 a b.
Definition m_vec (k : nat) (u : list N) (r : N) : P (list V1) :=
  zip_each (fun h cp => a <- mul1 r h;; b <- mul1 (fst cp) (m_pw (S k));; c <- mul1 (minus 1) (snd cp);;
                        b <- add1 b c;; b <- mul1 (sim_c m_w k u) b;; add1 a b)
    (skipn (length u + 1) hl)
    (zip_with pair (skipn (length u + 1) co_hs) (skipn (length u - S k) m_down)).
Definition m_key (t r : N) : P (option (nssk V1 V2)) :=
  if key_allowed d tx t then
    let u := path_of d t in
    match first_diff m_w u with
    | None => Ret None
    | Some k => a <- m_1 k u r;; b <- m_2 k u r;; l <- m_vec k u r;; Ret (Some (t, a, b, l))
    end
  else Ret None.
Definition m_sig (t : N) (j : nat) (r : N) : P (option (nsig V1 V2)) :=
  if sig_allowed d tx m_mx t (m_scalar j) then
    let u := coords d (path_of d t) (m_scalar j) in
    match first_diff m_w u with
    | None => Ret None
    | Some k => a <- m_1 k u r;; b <- m_2 k u r;; Ret (Some (cs, t, a, b))
    end
  else Ret None.

(** The end of the game. *)
Definition m_input (kp : nkey V1 V2) : P (nkey V1 V2 * VB) := Input (fst (fst kp)) (snd (fst kp)) (fun b => Ret (kp, b)).
(** PublicKey::validate *)
Definition m_proved (tbl : list VB) (x : nkey V1 V2 * VB) : P bool :=
  let '(((c, k), (c', s)), b) := x in
  if negb (valid_cs c) then Ret false
  else if negb (c =? c') then Ret false
  else In2 k (fun e => In1 s (fun e' => n <- find_place tbl b;;
         l <- mpair o2 s;; r <- mpair k (nth n pts z1);; EqT l r (fun q => Ret (e && e' && q)))).
Fixpoint m_others (tbl : list VB) (l : list (nkey V1 V2 * VB)) : P (N * V1) :=
  match l with
  | [] => Ret (0, z1)
  | (((c, k), (_, s)), b) :: l' =>
    nx <- m_others tbl l';;
    Eq2 k pk (fun e =>
      if (c =? cs) && e then Ret (fst nx + 1, snd nx)
      else n <- find_place tbl b;; a <- mul1 (fr_inv (nth n rho 0)) s;; a <- add1 a (snd nx);; Ret (fst nx, a))
  end.
Definition m_end (ptbl : list VB) (s : nsig V1 V2) (l : list (nkey V1 V2)) : P (option VT) :=
  l <- each m_input l;; tbl <- put_all ptbl (map snd l);; ok <- each (m_proved tbl) l;;
  let l := if (length tbl <=? length pts)%nat && forallb (fun b => b) ok then l else [] in
  nx <- m_others tbl l;;
  let '(_, _, s1, s2) := s in
  s1 <- mul2 (fr_inv (fst nx)) s1;;
  a <- mul1 (minus 1) (snd nx);; a <- add1 s2 a;; s2 <- mul1 (fr_inv (fst nx)) a;;
  n <- neg2 chb2;; x <- mul1 co_h (m_pw 1);;
  m <- neg2 s1;; y <- mul1 (nth 0 co_hs 0 + dotp m_w (tl co_hs)) chb1;;
  p1 <- mpair chb2 s2;; p2 <- mpair n x;; p3 <- mpair m y;;
  p2 <- mulT p2 p3;; p1 <- mulT p1 p2;; Ret (Some p1).
Definition m_give_up (ptbl : list VB) : P (option VT) := m_end ptbl (0, 0, z2, z1) [].

(** sign_fr with a sub key *)
Fixpoint m_poly (j : nat) (tv : list N) (acc : V1) : P (option V1) :=
  match tv with
  | [] => Ret (Some acc)
  | x :: tv' =>
    match nth_error hl (j + 1) with
    | None => Ret None
    | Some h => h <- (if x =? 2 then dbl1 h else Ret h);; acc <- add1 acc h;; m_poly (S j) tv' acc
    end
  end.
Definition m_sign (keys : list (nssk V1 V2)) (t M r : N) : P (option (nsig V1 V2)) :=
  match keys with
  | [] => Ret None
  | (t0, g2r, hp, hv) :: _ =>
    match tv_init Debug t0 d, nth_error hl 0, nth_error hl d, rev hv with
    | Ok tv, Some h0, Some hd, last :: _ =>
      o <- m_poly 0 (tv_vec tv) h0;;
      match o with
      | None => Ret None
      | Some x =>
        a <- mul2 r o2;; a <- add2 g2r a;;
        y <- mul1 M hd;; x <- add1 x y;; x <- mul1 r x;;
        b <- mul1 M last;; b <- add1 hp b;; b <- add1 b x;;
        Ret (Some (cs, t, a, b))
      end
    | _, _, _, _ => Ret None
    end
  end.

(** After the break-in.  [n] bounds how often the forger speaks. *)
Fixpoint m_tail (n : nat) (own : list (bytes * bytes)) (tbl : list bytes) (ptbl : list VB) (q : said V1 V2 VB) : P (option VT) :=
  match n with
  | O => Ret None
  | S n' =>
    match q with
    | SForge _ s l => m_end ptbl s l
    | SHash b =>
      match lookup own b with
      | Some v => q <- tell (THash v);; m_tail n' own tbl ptbl q
      | None => q <- tell (THash (nth (position tbl b) hs []));; m_tail n' own (enter tbl b) ptbl q
      end
    | SPoint b =>
      j <- find_place ptbl b;; ptbl <- put ptbl b;;
      q <- tell (TPoint (nth j pts z1));; m_tail n' own tbl ptbl q
    | _ => m_give_up ptbl
    end
  end.

(** The sub keys for the break-in. *)
Fixpoint m_keys (ts rs : list N) : P (option (list (nssk V1 V2) * list N)) :=
  match ts with
  | [] => Ret (Some ([], rs))
  | t :: ts' =>
    match rs with
    | [] => Ret None
    | r :: rs' =>
      o <- m_key t r;;
      match o with
      | None => Ret None
      | Some a => o <- m_keys ts' rs';; Ret (match o with None => None | Some (l, rs2) => Some (a :: l, rs2) end)
      end
    end
  end.

(** Before the break-in: [copy] of SpecFwd.v, the scalars that are left, the tables. *)
Record mstate := MState {
  s_time : N; s_cache : list (bytes * nsig V1 V2); s_keys : list (nssk V1 V2); s_g : bytes;
  s_B : list bytes; s_ks : list bytes; s_us : list bytes; s_own : list (bytes * bytes);
  s_rs : list N; s_tbl : list bytes; s_ptbl : list VB }.
Fixpoint m_loop (n : nat) (s : mstate) (q : said V1 V2 VB) : P (option VT) :=
  match n with
  | O => Ret None
  | S n' =>
    match q with
    | SForge _ sg l => if tb =? 0 then m_end (s_ptbl s) sg l else m_give_up (s_ptbl s)
    | SBreak =>
      if negb (tb =? 0) && (s_time s =? tb) then
        q <- tell (TKey cs (s_time s) (s_keys s) (s_g s));; m_tail n' (s_own s) (s_tbl s) (s_ptbl s) q
      else m_give_up (s_ptbl s)
    | SUpdate t _ =>
      if (s_time s <? t) && (t <=? last_time d) then
        if (tb =? 0) || (t <=? tb) then
          match s_ks s, s_us s with
          | _ :: g0 :: ks, _ :: _ :: _ :: _ :: us =>
            let m := pred (length (made d (s_time s) t)) in
            o <- (if t =? tb then m_keys (cover d t) (s_rs s) else Ret (Some ([], s_rs s)));;
            match o with
            | None => Ret None
            | Some (keys, rs) =>
              q <- tell (TUpdate (Ok tt));;
              m_loop n' (MState t [] keys (nth m (g0 :: ks) []) (s_B s) (skipn m ks) (skipn (2 * m) us) [] rs (s_tbl s) (s_ptbl s)) q
            end
          | _, _ => m_give_up (s_ptbl s)
          end
        else m_give_up (s_ptbl s)
      else q <- tell (TUpdate (Err E_TIME_STAMP));; m_loop n' s q
    | SSign t msg =>
      if negb (s_time s =? t) then q <- tell (TSign (Err E_TIME_STAMP));; m_loop n' s q
      else
        match lookup (s_cache s) msg with
        | Some a => q <- tell (TSign (Ok a));; m_loop n' s q
        | None =>
          let b := hash_input cs msg in
          let j := position (s_tbl s) b in
          match s_us s with
          | [] => m_give_up (s_ptbl s)
          | u :: us =>
            if t =? tb then
              match s_B s with
              | [] => m_give_up (s_ptbl s)
              | blk :: rest =>
                o <- m_sign (s_keys s) t (scalar_of (nth j hs [])) (scalar_of blk);;
                match o with
                | None => m_give_up (s_ptbl s)
                | Some a =>
                  q <- tell (TSign (Ok a));;
                  m_loop n' (MState t ((msg, a) :: s_cache s) (s_keys s) (s_g s) rest (s_ks s) us
                               (calls (s_g s) (sign_info msg t ++ [1]) u blk ++ s_own s) (s_rs s) (enter (s_tbl s) b) (s_ptbl s)) q
                end
              end
            else
              match s_rs s with
              | [] => Ret None
              | r :: rs =>
                o <- m_sig t j r;;
                match o with
                | None => Ret None
                | Some a =>
                  q <- tell (TSign (Ok a));;
                  m_loop n' (MState t ((msg, a) :: s_cache s) (s_keys s) (s_g s) (s_B s) (s_ks s) us [] rs
                               (enter (s_tbl s) b) (s_ptbl s)) q
                end
              end
          end
        end
    | SHash b =>
      q <- tell (THash (nth (position (s_tbl s) b) hs []));;
      m_loop n' (MState (s_time s) (s_cache s) (s_keys s) (s_g s) (s_B s) (s_ks s) (s_us s) (s_own s) (s_rs s) (enter (s_tbl s) b) (s_ptbl s)) q
    | SPoint b =>
      j <- find_place (s_ptbl s) b;; ptbl <- put (s_ptbl s) b;;
      q <- tell (TPoint (nth j pts z1));;
      m_loop n' (MState (s_time s) (s_cache s) (s_keys s) (s_g s) (s_B s) (s_ks s) (s_us s) (s_own s) (s_rs s) (s_tbl s) ptbl) q
    | SOther => Ret None
    end
  end.
End Game.
End Program.

(** The program; [n] bounds how often the forger speaks. *)
Definition solver {V1 V2 VT VB : Type} (n : nat) (ch : list V1 * list V2 * V1 * V2) (d : nat) (cs tx : N) (i : nat) (tb : N)
    (z : scoins) : prog V1 V2 VT VB (option VT) :=
  let '(ch1, ch2, chb1, chb2) := ch in
  let '((co_h, co_hs, rs, hs, rho), (_, (B, ks, us), _)) := z in
  Zero1 (fun z1 => Zero2 (fun z2 => One2 (fun o2 =>
    hl <- m_params ch1 d cs tx i co_h co_hs hs z1;;
    pts <- m_points ch1 rho z1 (fst hl);;
    let pk := nth 1 ch2 z2 in
    pop <- mul1 (nth 0 rho 0) (m_pw ch1 z1 1);;
    Input cs pk (fun b =>
      q <- tell (TStart d cs o2 (fst hl) (snd hl) pk pop);;
      m_loop ch1 ch2 chb1 chb2 d cs tx i tb co_h co_hs hs rho z1 z2 o2 (snd hl) pts pk n
        (MState 1 [] [] (nth 2 ks []) B (skipn 3 ks) (skipn 5 us) [] rs [] [b]) q)))).
Definition named {E} (ch : challenge E) : list (G1 E) * list (G2 E) * G1 E * G2 E := (ch_1 ch, ch_2 ch, ch_b1 ch, ch_b2 ch).
(** What the solver finds, and at which costs. *)
Definition program_solves {E} (n : nat) (ch : challenge E) (d : nat) (cs tx : N) (i : nat) (tb : N) (adv : aforger_for E) (z : scoins)
  : option (GT E) := fst (fst (run (solver n (named ch) d cs tx i tb z) (WStart adv))).
Definition program_costs {E} (n : nat) (ch : challenge E) (d : nat) (cs tx : N) (i : nat) (tb : N) (adv : aforger_for E) (z : scoins)
  : N := snd (run (solver n (named ch) d cs tx i tb z) (WStart adv)).

(** The forger speaks at most [n] times and ends with at most [l] keys. *)
Fixpoint pspeaks {E} (n l : nat) (f : pforger E) : Prop :=
  match n with
  | O => False
  | S n' =>
    match f with
    | PForge _ _ ks => (length ks <= l)%nat
    | PAskHash _ k => forall h, pspeaks n' l (k h)
    | PAskPoint _ _ k => forall p, pspeaks n' l (k p)
    | PAskKey _ _ | PAskSig _ _ _ => True
    end
  end.
Fixpoint speaks {E} (n l : nat) (f : aforger E) : Prop :=
  match n with
  | O => False
  | S n' =>
    match f with
    | AForge _ _ ks => (length ks <= l)%nat
    | ABreak k => forall sk, pspeaks n' l (k sk)
    | AUpdate _ _ k => forall r, speaks n' l (k r)
    | ASign _ _ k => forall r, speaks n' l (k r)
    | AAskHash _ k => forall h, speaks n' l (k h)
    | AAskPoint _ _ k => forall p, speaks n' l (k p)
    end
  end.
(** The same for a forger that uses every call (SpecIface.v). *)
Fixpoint ispeaks {E} (n l : nat) (f : iforger E) : Prop :=
  match n with
  | O => False
  | S n' =>
    match f with
    | IForge _ _ ks => (length ks <= l)%nat
    | IBreak k => forall sk, pspeaks n' l (k sk)
    | ICall _ k => forall r, ispeaks n' l (k r)
    | IAskHash _ k => forall h, ispeaks n' l (k h)
    | IAskPoint _ _ k => forall p, ispeaks n' l (k p)
    end
  end.

(** A bound for the costs, for depth [d], [p] points, and such a forger: to begin with, whenever the
    forger speaks, at the end.  1201 is a step with a scalar of 600 bits. *)
Definition cost_bound (d p n l : nat) : N :=
  1201 * N.of_nat ((5 * d + p + 12)
                   + n * ((d + 1) * (10 * d + 11) + 2 * (n + 1) + 1)
                   + (l * (3 * (n + 1 + l) + 9) + 14)).
