(** Model of src/sig.rs. *)
From Verif Require Import Base Env Time Hkdf Prng SubKey SecretKey.
Local Open Scope N_scope.

(** src/sig.rs 23-28: struct Signature. *)
Record signature (E : env) := Signature {
  sig_cs : N; sig_time : N; sig_1 : G2 E; sig_2 : G1 E }.
Arguments Signature {E}. Arguments sig_cs {E}. Arguments sig_time {E}.
Arguments sig_1 {E}. Arguments sig_2 {E}.

(** src/sig.rs 469-480: hash_msg_into_fr. *)
Definition hash_msg_into_fr (H : bytes -> bytes) (msg : bytes) (cs : N) : res N :=
  os2ip_mod_p (H (DOM_SEP_HASH_TO_MSG ++ [cs] ++ msg)).

(** src/sig.rs 220-300: sign_fr. *)
Definition sign_fr {E} (m : mode) (sk : seckey E) (tar_time : N) (pp : pubparam E) (msg r : N)
  : res (signature E) :=
  if negb (sec_time sk =? tar_time) then Panic P_TIME
  else
    let! ssk := first_ssk sk in
    let depth := pp_depth pp in
    let hlist := pp_hlist pp in
    let! timevec := ssk_time_vec m ssk depth in
    let tv := tv_vec timevec in
    let sig1 := g2_add (sk_g2r ssk) (g2_mul r (pp_g2 pp)) in
    let! h0 := nth_res hlist 0 in
    let! tmp3 := poly_loop hlist 0 tv h0 in
    let! hd := nth_res hlist depth in
    let tmp3 := g1_add tmp3 (g1_mul msg hd) in
    let tmp3 := g1_mul r tmp3 in
    let! hv_last := last_hvector_coeff ssk in
    let sig2 := g1_add (g1_add (sk_hpoly ssk) (g1_mul msg hv_last)) tmp3 in
    Ok (Signature (pp_cs pp) tar_time sig1 sig2).

(** src/sig.rs 164-216: sign_bytes.  [sk.prng()] is a clone, so the key's prng is
    not touched. *)
Definition sign_bytes {E} (m : mode) (sk : seckey E) (tar_time : N) (pp : pubparam E) (msg : bytes)
  : res (signature E) :=
  let cs := pp_cs pp in
  if negb (valid_cs cs) then Err E_CIPHERSUITE
  else if negb (sec_cs sk =? cs) then Err E_CIPHERSUITE
  else if negb (sec_time sk =? tar_time) then Panic P_TIME
  else
    let info := DOM_SEP_SIG ++ msg ++ time_bytes tar_time in
    let! r := sample (sha512 E) (sec_prng sk) info in
    let! hm := hash_msg_into_fr (sha512 E) msg (pp_cs pp) in
    sign_fr m sk tar_time pp hm r.

(** src/sig.rs 70-96: sign. *)
Definition sign {E} (m : mode) (tar_time : N) (pp : pubparam E) (msg seed : bytes)
  : st (seckey E) (signature E) :=
  do! sk <- sget;
  let cur_time := sec_time sk in
  if tar_time <? cur_time then slift (Err E_TIME_STAMP)
  else
    do! _ <- (if cur_time <? tar_time then update m pp tar_time seed else sret tt);
    do! sk <- sget;
    slift (sign_bytes m sk tar_time pp msg).

(** src/sig.rs 102-123: sign_present. *)
Definition sign_present {E} (m : mode) (tar_time : N) (pp : pubparam E) (msg : bytes)
  : st (seckey E) (signature E) :=
  do! sk <- sget;
  if negb (sec_time sk =? tar_time) then slift (Err E_TIME_STAMP)
  else slift (sign_bytes m sk tar_time pp msg).

(** src/sig.rs 130-160: sign_then_update. *)
Definition sign_then_update {E} (m : mode) (tar_time : N) (pp : pubparam E) (msg seed : bytes)
  : st (seckey E) (signature E) :=
  do! sk <- sget;
  if negb (sec_time sk =? tar_time) then slift (Err E_TIME_STAMP)
  else
    do! p <- slift (sign_bytes m sk tar_time pp msg);
    do! t1 <- slift (add64 m tar_time 1);
    do! _ <- update m pp t1 seed;
    sret p.

(** src/sig.rs 330-403: verify_fr. *)
Definition verify_fr {E} (m : mode) (s : signature E) (pk : pubkey E) (pp : pubparam E) (msg : N)
  : res bool :=
  if negb (g2_insub (sig_1 s)) || negb (g1_insub (sig_2 s)) then Ok false
  else
    let depth := pp_depth pp in
    let list := pp_hlist pp in
    let! h0 := nth_res list 0 in
    match tv_init m (sig_time s) depth with
    | Err _ => Ok false
    | Panic p => Panic p
    | Ok tv =>
      let! hfx := poly_loop list 0 (tv_vec tv) h0 in
      let! hd := nth_res list depth in
      let hfx := g1_add hfx (g1_mul msg hd) in
      Ok (pairing_check [ (g2_neg (pp_g2 pp), sig_2 s);
                          (sig_1 s, hfx);
                          (pk_pk pk, pp_h pp) ])
    end.

(** src/sig.rs 306-324: verify_bytes (= verify, src/lib.rs 180-187). *)
Definition verify {E} (m : mode) (s : signature E) (pk : pubkey E) (pp : pubparam E) (msg : bytes)
  : res bool :=
  if negb (valid_cs (pp_cs pp)) then Ok false
  else if negb (sig_cs s =? pp_cs pp) then Ok false
  else
    let! hm := hash_msg_into_fr (sha512 E) msg (pp_cs pp) in
    verify_fr m s pk pp hm.

(** src/sig.rs 411-422: the checks of aggregate_without_validate. *)
Fixpoint agg_check {E} (r : signature E) (l : list (signature E)) : res unit :=
  match l with
  | [] => Ok tt
  | e :: l' =>
    if negb (sig_cs r =? sig_cs e) then Err E_CIPHERSUITE
    else if negb (sig_time r =? sig_time e) then Err E_TIME_STAMP
    else agg_check r l'
  end.

(** src/sig.rs 408-430: aggregate_without_validate; [sig_list[0]] panics on []. *)
Definition aggregate {E} (l : list (signature E)) : res (signature E) :=
  match l with
  | [] => Panic P_INDEX
  | s :: l' =>
    let! _ := agg_check s l' in
    Ok (fold_left (fun r e => Signature (sig_cs r) (sig_time r)
                                (g2_add (sig_1 r) (sig_1 e)) (g1_add (sig_2 r) (sig_2 e))) l' s)
  end.

(** src/sig.rs 437-464: verify_bytes_aggregated. *)
Definition verify_aggregated {E} (m : mode) (s : signature E) (pks : list (pubkey E))
    (pp : pubparam E) (msg : bytes) : res bool :=
  let cs := pp_cs pp in
  if negb (forallb (fun e => cs =? pk_cs e) pks) then Ok false
  else if negb (sig_cs s =? cs) then Ok false
  else
    match pks with
    | [] => Panic P_INDEX
    | k :: pks' =>
      let agg := fold_left (fun a e => g2_add a (pk_pk e)) pks' (pk_pk k) in
      verify m s (PubKey cs agg) pp msg
    end.

(** src/sig.rs 498-502: PartialEq for Signature. *)
Definition sig_eqb {E} (a b : signature E) : bool :=
  g2_eqb (sig_1 a) (sig_1 b) && g1_eqb (sig_2 a) (sig_2 b).
