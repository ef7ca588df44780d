(** Model of src/secret_key.rs (digest is in Serdes.v, it needs serialization). *)
From Verif Require Import Base Env Time Hkdf Prng SubKey.
Local Open Scope N_scope.

(** src/secret_key.rs 20-29: struct SecretKey. *)
Record seckey (E : env) := SecKey {
  sec_cs : N; sec_time : N; sec_ssk : list (subkey E); sec_prng : prng }.
Arguments SecKey {E}. Arguments sec_cs {E}. Arguments sec_time {E}.
Arguments sec_ssk {E}. Arguments sec_prng {E}.

(** src/secret_key.rs 46-75: init. *)
Definition sk_init {E} (pp : pubparam E) (alpha : G1 E) (g : prng) : res (seckey E) :=
  if negb (valid_cs (pp_cs pp)) then Err E_CIPHERSUITE
  else
    let info := DOM_SEP_SK_INIT ++ [0; 0; 0; 1] in
    let! (r, g') := sample_then_update (sha512 E) g info in
    let! ssk := ssk_init pp alpha r in
    Ok (SecKey (pp_cs pp) 1 [ssk] g').

(** src/secret_key.rs 103-111: first_ssk. *)
Definition first_ssk {E} (sk : seckey E) : res (subkey E) :=
  match sec_ssk sk with
  | [] => Err E_SSK_EMPTY
  | s :: _ => Ok s
  end.

(** src/secret_key.rs 471-475: the loop of find_ancestor over ssk[1..]; [res] is the
    time of the best sub key so far. *)
Fixpoint ancestor_loop {E} (tar_time : N) (best : N) (l : list (subkey E)) : N :=
  match l with
  | [] => best
  | s :: l' => ancestor_loop tar_time (if sk_t s <=? tar_time then sk_t s else best) l'
  end.

(** src/secret_key.rs 449-477: find_ancestor. *)
Definition find_ancestor {E} (sk : seckey E) (tar_time : N) : res N :=
  match sec_ssk sk with
  | [] => Err E_SSK_EMPTY
  | s :: l =>
    if tar_time <=? sk_t s then Err E_TIME_STAMP
    else Ok (ancestor_loop tar_time (sk_t s) l)
  end.

(** src/secret_key.rs 262-266: [while new_sk.ssk[0].time() != delegator_time { remove(0) }]. *)
Fixpoint drop_until {E} (dt : N) (l : list (subkey E)) : res (list (subkey E)) :=
  match l with
  | [] => Panic P_INDEX
  | s :: l' => if sk_t s =? dt then Ok l else drop_until dt l'
  end.

(** src/secret_key.rs 347-360: the loop over [j in i+1..ssk.len()] that looks for
    [tmptime] among the sub keys [l = ssk[i+1..]]; [true] is [break 'out]. *)
Fixpoint dup_loop {E} (m : mode) (depth : nat) (tmptime : timevec) (l : list (subkey E)) : res bool :=
  match l with
  | [] => Ok false
  | s :: l' =>
    let! tv := ssk_time_vec m s depth in
    if tv_eqb tmptime tv then Ok true else dup_loop m depth tmptime l'
  end.

(** src/secret_key.rs 381-403: re-randomization of the i-th new sub key; [old] is
    [self.prng]. *)
Definition rerand_new {E} (m : mode) (pp : pubparam E) (old : prng) (i : nat)
    (s : subkey E) (g : prng) : res (subkey E * prng) :=
  if (i =? 0)%nat then Ok (s, g)
  else
    let! (r, g') := sample_then_update (sha512 E) g DOM_SEP_SK_UPDATE in
    if prng_eqb g' old then Panic P_PRNG
    else
      let! s' := run_mut (randomization m pp r) s in
      Ok (s', g').

(** src/secret_key.rs 337-411: the loop ['out] over the gamma list from index [i];
    [ssk] and [g] are new_sk.ssk and new_sk.prng. *)
Fixpoint update_loop {E} (m : mode) (pp : pubparam E) (old : prng) (i : nat)
    (gl : list timevec) (ssk : list (subkey E)) (g : prng) : res (list (subkey E) * prng) :=
  match gl with
  | [] => Ok (ssk, g)
  | tmptime :: gl' =>
    let! found := dup_loop m (pp_depth pp) tmptime (skipn (i + 1) ssk) in
    if found then Ok (ssk, g)
    else
      let! s0 := nth_res ssk 0 in
      let! s1 := run_mut (delegate m (tv_time tmptime) (pp_depth pp)) s0 in
      let! (s2, g') := rerand_new m pp old i s1 g in
      let! ssk' := insert_at (i + 1) s2 ssk in
      update_loop m pp old (S i) gl' ssk' g'
  end.

(** src/secret_key.rs 151-430: update.  [new_sk] is a clone of [self]; [self] is
    written at lines 287 and 428 only. *)
Definition update {E} (m : mode) (pp : pubparam E) (tar_time : N) (seed : bytes)
  : st (seckey E) unit :=
  do! self <- sget;
  if negb (sec_cs self =? pp_cs pp) then slift (Err E_CIPHERSUITE)
  else
    let depth := pp_depth pp in
    do! p <- slift (shl64 m depth);
    do! max_time <- slift (sub64 m p 1);
    let cur_time := sec_time self in
    if (tar_time <=? cur_time) || (max_time <? tar_time) then slift (Err E_TIME_STAMP)
    else
      do! delegator_time <- slift (find_ancestor self tar_time);
      let info := DOM_SEP_SK_RERANDOMIZE_INFO ++ time_bytes cur_time in
      do! g <- slift (rerandomize (sha512 E) (sec_prng self) seed info);
      do! ssk <- slift (drop_until delegator_time (sec_ssk self));
      match ssk with
      | [] => slift (Err E_SSK_EMPTY)
      | _ :: _ =>
        if delegator_time =? tar_time then
          sput (SecKey (sec_cs self) delegator_time ssk g)
        else
          do! tv <- slift (tv_init m tar_time depth);
          do! gl <- slift (gamma_list m tv depth);
          do! (ssk', g') <- slift (update_loop m pp (sec_prng self) 0 gl ssk g);
          do! ssk'' <- slift (remove_at 0 ssk');
          do! s0 <- slift (nth_res ssk'' 0);
          sput (SecKey (sec_cs self) (sk_t s0) ssk'' g')
      end.

(** src/secret_key.rs 524-546: the loop of validate. *)
Fixpoint validate_loop {E} (m : mode) (pk : pubkey E) (pp : pubparam E)
    (l : list (subkey E)) (gl : list timevec) : res bool :=
  match l with
  | [] => Ok true
  | s :: l' =>
    let! ok := ssk_validate m s pk pp in
    if negb ok then Ok false
    else
      match gl with
      | [] => Panic P_INDEX
      | t :: gl' => if negb (sk_t s =? tv_time t) then Ok false else validate_loop m pk pp l' gl'
      end
  end.

(** src/secret_key.rs 484-549: validate. *)
Definition sk_validate {E} (m : mode) (sk : seckey E) (pk : pubkey E) (pp : pubparam E) : res bool :=
  if negb (sec_cs sk =? pk_cs pk) || negb (sec_cs sk =? pp_cs pp) then Ok false
  else
    match tv_init m (sec_time sk) (pp_depth pp) with
    | Err _ => Ok false
    | Panic p => Panic p
    | Ok tv =>
      match gamma_list m tv (pp_depth pp) with
      | Err _ => Ok false
      | Panic p => Panic p
      | Ok gl => validate_loop m pk pp (sec_ssk sk) gl
      end
    end.

(** src/secret_key.rs 565-572: size. *)
Definition sk_size {E} (sk : seckey E) : nat :=
  fold_left (fun len e => len + ssk_size e)%nat (sec_ssk sk) 66%nat.

(** [depth - e.vector_len()] on usize. *)
Definition usub (m : mode) (a b : nat) : res nat :=
  if (b <=? a)%nat then Ok (a - b)%nat
  else match m with Debug => Panic P_ARITH | Release => Ok (N.to_nat (two64 + N.of_nat a - N.of_nat b)) end.

(** src/secret_key.rs 595-606: the loop of estimate_size.  (The sum itself can not
    reach 2^64 for depths below 2^32, so its additions are plain.) *)
Fixpoint estimate_loop (m : mode) (depth : nat) (gl : list timevec) (acc : nat) : res nat :=
  match gl with
  | [] => Ok acc
  | e :: gl' =>
    let! k := usub m depth (length (tv_vec e)) in
    estimate_loop m depth gl' (acc + 149 + k * 96)%nat
  end.

(** src/secret_key.rs 588-608: estimate_size. *)
Definition estimate_size (m : mode) (time : N) (depth : nat) : res nat :=
  let! tv := tv_init m time depth in
  let! gl := gamma_list m tv depth in
  estimate_loop m depth gl 66.

(** src/secret_key.rs 633-637: comparison of the sub keys, same length. *)
Fixpoint ssks_eqb {E} (a b : list (subkey E)) : bool :=
  match a, b with
  | [], [] => true
  | x :: a', y :: b' => ssk_eqb x y && ssks_eqb a' b'
  | _, _ => false
  end.

(** src/secret_key.rs 628-642: PartialEq for SecretKey. *)
Definition sk_eqb {E} (a b : seckey E) : bool :=
  if negb (length (sec_ssk a) =? length (sec_ssk b))%nat then false
  else if negb (ssks_eqb (sec_ssk a) (sec_ssk b)) then false
  else (sec_cs a =? sec_cs b) && (sec_time a =? sec_time b) && prng_eqb (sec_prng a) (sec_prng b).
