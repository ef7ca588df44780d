(** Model of the parameters (dependency pixel_param) and of src/subkeys.rs. *)
From Verif Require Import Base Env Time.
Local Open Scope N_scope.

(** pixel_param::PubParam: the accessors depth(), ciphersuite(), g2(), h(), hlist()
    used by the crate. *)
Record pubparam (E : env) := PubParam {
  pp_depth : nat; pp_cs : N; pp_g2 : G2 E; pp_h : G1 E; pp_hlist : list (G1 E) }.
Arguments PubParam {E}. Arguments pp_depth {E}. Arguments pp_cs {E}.
Arguments pp_g2 {E}. Arguments pp_h {E}. Arguments pp_hlist {E}.

(** pixel_param::VALID_CIPHERSUITE = [0, 1]; [.contains(&x)]. *)
Definition VALID_CIPHERSUITE : list N := [0; 1].
Definition valid_cs (x : N) : bool := existsb (N.eqb x) VALID_CIPHERSUITE.

(** src/public_key.rs 10-15: struct PublicKey. *)
Record pubkey (E : env) := PubKey { pk_cs : N; pk_pk : G2 E }.
Arguments PubKey {E}. Arguments pk_cs {E}. Arguments pk_pk {E}.

(** src/subkeys.rs 21-32: struct SubSecretKey. *)
Record subkey (E : env) := SubKey {
  sk_t : N; sk_g2r : G2 E; sk_hpoly : G1 E; sk_hvec : list (G1 E) }.
Arguments SubKey {E}. Arguments sk_t {E}. Arguments sk_g2r {E}.
Arguments sk_hpoly {E}. Arguments sk_hvec {E}.

(** src/subkeys.rs 54-56: time_vec. *)
Definition ssk_time_vec {E} (m : mode) (s : subkey E) (depth : nat) : res timevec :=
  tv_init m (sk_t s) depth.

(** src/subkeys.rs 85-90: last_hvector_coeff. *)
Definition last_hvector_coeff {E} (s : subkey E) : res (G1 E) :=
  match sk_hvec s with
  | [] => Err E_SSK_EMPTY
  | _ => nth_res (sk_hvec s) (length (sk_hvec s) - 1)
  end.

(** src/subkeys.rs 96-126: init.  [hlist[0]] on an empty list would panic.
    The loop runs over hlist[1..=depth]. *)
Definition ssk_init {E} (pp : pubparam E) (alpha : G1 E) (r : N) : res (subkey E) :=
  let hlist := pp_hlist pp in
  let depth := pp_depth pp in
  let g2r := g2_mul r (pp_g2 pp) in
  let! h0 := nth_res hlist 0 in
  let hpoly := g1_add (g1_mul r h0) alpha in
  let hvector := map (g1_mul r) (skipn 1 (firstn (depth + 1) hlist)) in
  Ok (SubKey 1 g2r hpoly hvector).

(** The loop [for i in 0..tlen { tmp2 = hlist[i+1]; if tv[i] == 2 {double}; acc += tmp2 }]
    of src/subkeys.rs 147-155, src/sig.rs 259-267 and src/sig.rs 368-374. *)
Fixpoint poly_loop {E} (hlist : list (G1 E)) (i : nat) (tv : list N) (acc : G1 E) : res (G1 E) :=
  match tv with
  | [] => Ok acc
  | x :: tv' =>
    let! tmp2 := nth_res hlist (i + 1) in
    let tmp2 := if x =? 2 then g1_dbl tmp2 else tmp2 in
    poly_loop hlist (S i) tv' (g1_add acc tmp2)
  end.

(** src/subkeys.rs 165-170: the loop over hvector; [base] is [tlen + i + 1].
    On a panic the entries before are already changed. *)
Fixpoint hv_loop {E} (hlist : list (G1 E)) (base : nat) (r : N) (hv : list (G1 E))
  : res unit * list (G1 E) :=
  match hv with
  | [] => (Ok tt, [])
  | x :: hv' =>
    match nth_res hlist base with
    | Ok h => let (o, l) := hv_loop hlist (S base) r hv' in (o, g1_add x (g1_mul r h) :: l)
    | Err e => (Err e, hv)
    | Panic p => (Panic p, hv)
    end
  end.

(** src/subkeys.rs 133-172: randomization (statement order as in the code: g2r is
    updated before the time stamp is looked at). *)
Definition randomization {E} (m : mode) (pp : pubparam E) (r : N) : st (subkey E) unit :=
  do! self <- sget;
  let depth := pp_depth pp in
  let tmp := g2_mul r (pp_g2 pp) in
  do! _ <- sput (SubKey (sk_t self) (g2_add (sk_g2r self) tmp) (sk_hpoly self) (sk_hvec self));
  let hlist := pp_hlist pp in
  do! self <- sget;
  do! timevec <- slift (ssk_time_vec m self depth);
  let tv := tv_vec timevec in
  let tlen := length tv in
  do! h0 <- slift (nth_res hlist 0);
  do! tmp3 <- slift (poly_loop hlist 0 tv h0);
  let tmp3 := g1_mul r tmp3 in
  do! _ <- sput (SubKey (sk_t self) (sk_g2r self) (g1_add (sk_hpoly self) tmp3) (sk_hvec self));
  do! self <- sget;
  let (o, hv) := hv_loop hlist (tlen + 1) r (sk_hvec self) in
  do! _ <- sput (SubKey (sk_t self) (sk_g2r self) (sk_hpoly self) hv);
  slift o.

(** src/subkeys.rs 200-211: the loop that moves hpoly; [ts] is
    [tv[cur_vec_length..tar_vec_length]] and [hv] is [self.hvector[i..]]. *)
Fixpoint del_loop {E} (hv : list (G1 E)) (ts : list N) (hp : G1 E) {struct ts} : res unit * G1 E :=
  match ts with
  | [] => (Ok tt, hp)
  | t :: ts' =>
    match hv with
    | [] => (Panic P_INDEX, hp)
    | h :: hv' => del_loop hv' ts' (g1_add hp (if t =? 2 then g1_dbl h else h))
    end
  end.

(** src/subkeys.rs 181-223: delegate.  The second loop removes the first
    [tar_vec_length - cur_vec_length] entries of hvector one at a time; they exist,
    since the first loop has indexed them. *)
Definition delegate {E} (m : mode) (tar_time : N) (depth : nat) : st (subkey E) unit :=
  do! self <- sget;
  do! cur_tv <- slift (tv_init m (sk_t self) depth);
  do! tar_tv <- slift (tv_init m tar_time depth);
  if negb (tv_is_prefix cur_tv tar_tv) then slift (Err E_TIME_NONE_PREFIX)
  else
    let tv := tv_vec tar_tv in
    let cur_len := length (tv_vec cur_tv) in
    let tar_len := length (tv_vec tar_tv) in
    let (o, hp) := del_loop (sk_hvec self) (skipn cur_len tv) (sk_hpoly self) in
    do! _ <- sput (SubKey (sk_t self) (sk_g2r self) hp (sk_hvec self));
    do! _ <- slift o;
    do! self <- sget;
    do! _ <- sput (SubKey (sk_t self) (sk_g2r self) (sk_hpoly self)
                     (skipn (tar_len - cur_len) (sk_hvec self)));
    do! self <- sget;
    sput (SubKey tar_time (sk_g2r self) (sk_hpoly self) (sk_hvec self)).

(** src/subkeys.rs 246-250: like [poly_loop] but with mul_assign(timevec[i]). *)
Fixpoint poly_loop_mul {E} (hlist : list (G1 E)) (i : nat) (tv : list N) (acc : G1 E) : res (G1 E) :=
  match tv with
  | [] => Ok acc
  | x :: tv' =>
    let! tmp := nth_res hlist (i + 1) in
    poly_loop_mul hlist (S i) tv' (g1_add acc (g1_mul x tmp))
  end.

(** The [match final_exponentiation(miller_loop l) { None => false, Some(x) => x == one }]
    of src/subkeys.rs 259-280 and src/sig.rs 387-402. *)
Definition pairing_check {E : env} (l : list (G2 E * G1 E)) : bool :=
  match pairing_prod l with
  | None => false
  | Some x => gt_eqb x gt_one
  end.

(** src/subkeys.rs 227-281: validate. *)
Definition ssk_validate {E} (m : mode) (s : subkey E) (pk : pubkey E) (pp : pubparam E) : res bool :=
  match tv_init m (sk_t s) (pp_depth pp) with
  | Err _ => Ok false
  | Panic p => Panic p
  | Ok t =>
    let! h0 := nth_res (pp_hlist pp) 0 in
    let! h2fx := poly_loop_mul (pp_hlist pp) 0 (tv_vec t) h0 in
    Ok (pairing_check [ (g2_neg (pp_g2 pp), sk_hpoly s);
                        (sk_g2r s, h2fx);
                        (pk_pk pk, pp_h pp) ])
  end.

(** src/subkeys.rs 290-303: size. *)
Definition ssk_size {E} (s : subkey E) : nat := 5 + 144 + length (sk_hvec s) * 96.

(** src/subkeys.rs 19: derived PartialEq. *)
Fixpoint g1list_eqb {E : env} (a b : list (G1 E)) : bool :=
  match a, b with
  | [], [] => true
  | x :: a', y :: b' => g1_eqb x y && g1list_eqb a' b'
  | _, _ => false
  end.
Definition ssk_eqb {E} (a b : subkey E) : bool :=
  (sk_t a =? sk_t b) && g2_eqb (sk_g2r a) (sk_g2r b) && g1_eqb (sk_hpoly a) (sk_hpoly b)
  && g1list_eqb (sk_hvec a) (sk_hvec b).

(** src/subkeys.rs 334-346: init_from_randomization (test only). *)
Definition ssk_init_from_randomization {E} (m : mode) (pp : pubparam E) (alpha : G1 E) (r : N)
  : res (subkey E) :=
  run_mut (randomization m pp r) (SubKey 1 g2_zero alpha (repeat g1_zero (pp_depth pp))).
