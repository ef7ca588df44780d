(** The stack in a history of a key in a Rust program: sign and sign_then_update (src/sig.rs 70-160) once more, and the steps of Api.v, with the cells
    of Hygiene.v and ReadStack.v.  The state is the key and the memory.  sign and sign_then_update have no secret variables of their own.
    The reload is the caller's: the Vec with the blob is the caller's memory and not counted. *)
From Coq Require Import String.
From Verif Require Import Base Env Prng SubKey SecretKey Keys Sig IO Serdes Api Hygiene ReadStack CallStack.
Local Open Scope N_scope.

Definition km (E : env) (A : Type) := st (seckey E * (frame E * list (cell E))) A.
(** A function that does not change the key. *)
Definition no_change {E A} (h : seckey E -> hm E A) : km E A := fun s => let (r, s') := h (fst s) (snd s) in (r, (fst s, s')).
(** A function that replaces it if it succeeds. *)
Definition change {E} (h : seckey E -> hm E (seckey E)) : km E unit := fun s =>
  match h (fst s) (snd s) with
  | (Ok sk', s') => (Ok tt, (sk', s'))
  | (Err e, s') => (Err e, (fst s, s'))
  | (Panic p, s') => (Panic p, (fst s, s'))
  end.

(** src/sig.rs 70-96: sign. *)
Definition sign_h {E} (m : mode) (tar_time : N) (pp : pubparam E) (msg seed : bytes) : km E (signature E) :=
  do! s <- sget;
  let cur_time := sec_time (fst s) in
  if tar_time <? cur_time then slift (Err E_TIME_STAMP)
  else
    do! _ <- (if cur_time <? tar_time then change (update_h m pp tar_time seed) else sret tt);
    no_change (fun sk => sign_bytes_h m sk tar_time pp msg).

(** src/sig.rs 130-160: sign_then_update. *)
Definition sign_then_update_h {E} (m : mode) (tar_time : N) (pp : pubparam E) (msg seed : bytes) : km E (signature E) :=
  do! s <- sget;
  if negb (sec_time (fst s) =? tar_time) then slift (Err E_TIME_STAMP)
  else
    do! p <- no_change (fun sk => sign_bytes_h m sk tar_time pp msg);
    do! t1 <- slift (add64 m tar_time 1);
    do! _ <- change (update_h m pp t1 seed);
    sret p.

(** Serialize and deserialize, as in Api.v. *)
Definition reload_h {E} (c : bool) : km E unit :=
  change (fun sk => do! w <- sk_serialize_h sk c (vec_writer []); read_h (sk_deserialize_h c) (w_out w)).

(** The steps and histories of Api.v. *)
Definition step_h {E} (m : mode) (pp : pubparam E) (o : op) : km E (option (signature E)) :=
  match o with
  | OpUpdate t seed => do! _ <- change (update_h m pp t seed); sret None
  | OpSign t msg seed => do! s <- sign_h m t pp msg seed; sret (Some s)
  | OpSignPresent t msg => do! s <- no_change (sign_present_h m t pp msg); sret (Some s)
  | OpSignThenUpdate t msg seed => do! s <- sign_then_update_h m t pp msg seed; sret (Some s)
  | OpReload c => do! _ <- reload_h c; sret None
  end.
Fixpoint run_h {E} (m : mode) (pp : pubparam E) (ops : list op) (s : seckey E * (frame E * list (cell E)))
  : list (res (option (signature E))) * (seckey E * (frame E * list (cell E))) :=
  match ops with
  | [] => ([], s)
  | o :: ops' =>
    let (r, s1) := step_h m pp o s in
    let (rs, s2) := run_h m pp ops' s1 in
    (r :: rs, s2)
  end.
