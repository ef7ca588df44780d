(** SubSecretKey::delegate (src/subkeys.rs 181-223) and SecretKey::update (src/secret_key.rs 151-430) once more,
    now with the memory blocks of the h-vectors.

    The h-vector of a sub key is a Vec<PixelG1> with a block of its own: a slot for each entry and some spare
    slots.  std::vec says: clone makes a block without spare slots; remove(0) copies the
    entries after the first one slot down and leaves the last slot as it is.  Points are
    without destructor, but a sub key that is dropped overwrites its h-vector (src/subkeys.rs 19-20);
    whether the spare slots are overwritten too depends on the version of the crate zeroize ([clears] of
    VecMem.v).
    Not modelled here: the block of the Vec of sub keys (VecMem.v has it), the stack, what the allocator
    writes into freed blocks. *)
From Verif Require Import Base Env Time Hkdf Prng SubKey SecretKey VecMem.
Local Open Scope N_scope.

(** The spare slots of an h-vector ([None]: never written, or overwritten), a sub key with them,
    and the spare slots in freed blocks. *)
Notation hslots E := (list (option (G1 E))).
Notation hsub E := (subkey E * list (option (G1 E)))%type.
Notation hfreed E := (list (list (option (G1 E)))).

(** src/subkeys.rs 217-218: [self.hvector[0].zeroize(); self.hvector.remove(0)]. *)
Definition wipe_remove0 {E : env} (hv : list (G1 E)) (sp : hslots E) : res unit * (list (G1 E) * hslots E) :=
  match hv with
  | [] => (Panic P_INDEX, (hv, sp))
  | _ :: hv' => (Ok tt, (hv', last (None :: map Some hv') None :: sp))
  end.
(** src/subkeys.rs 214-219: the loop. *)
Fixpoint remove_loop {E : env} (k : nat) (hv : list (G1 E)) (sp : hslots E) : res unit * (list (G1 E) * hslots E) :=
  match k with
  | O => (Ok tt, (hv, sp))
  | S k' =>
    match wipe_remove0 hv sp with
    | (Ok _, (hv', sp')) => remove_loop k' hv' sp'
    | r => r
    end
  end.

(** src/subkeys.rs 181-223: delegate. *)
Definition delegate_hv {E} (m : mode) (tar_time : N) (depth : nat) : st (hsub E) unit :=
  do! s <- sget;
  let (self, sp) := s : hsub E in
  do! cur_tv <- slift (tv_init m (sk_t self) depth);
  do! tar_tv <- slift (tv_init m tar_time depth);
  if negb (tv_is_prefix cur_tv tar_tv) then slift (Err E_TIME_NONE_PREFIX)
  else
    let tv := tv_vec tar_tv in
    let cur_len := length (tv_vec cur_tv) in
    let tar_len := length (tv_vec tar_tv) in
    let (o, hp) := del_loop (sk_hvec self) (skipn cur_len tv) (sk_hpoly self) in
    do! _ <- sput (SubKey (sk_t self) (sk_g2r self) hp (sk_hvec self), sp);
    do! _ <- slift o;
    let '(o, (hv, sp')) := remove_loop (tar_len - cur_len) (sk_hvec self) sp in
    do! _ <- sput (SubKey (sk_t self) (sk_g2r self) hp hv, sp');
    do! _ <- slift o;
    sput (SubKey tar_time (sk_g2r self) hp hv, sp').

(** src/secret_key.rs 381-403: randomization changes the entries where they lie. *)
Definition on_sub {E A} (f : st (subkey E) A) : st (hsub E) A := fun s =>
  match f (fst s) with (r, x) => (r, (x, snd s)) end.
Definition rerand_hv {E} (m : mode) (pp : pubparam E) (old : prng) (i : nat) (g : prng) : st (hsub E) prng :=
  if (i =? 0)%nat then sret g
  else
    do! (r, g') <- slift (sample_then_update (sha512 E) g DOM_SEP_SK_UPDATE);
    if prng_eqb g' old then slift (Panic P_PRNG)
    else do! _ <- on_sub (randomization m pp r); sret g'.

(** What is left of the block of an h-vector when its sub key is dropped. *)
Definition drop_sub {E} (P : policy) (s : hsub E) (fr : hfreed E) : hfreed E :=
  if clears P then fr else snd s :: fr.
Definition drop_subs {E} (P : policy) (l : list (hsub E)) (fr : hfreed E) : hfreed E := fold_right (drop_sub P) fr l.
(** Work on a sub key of its own, which is dropped on an error or a panic. *)
Definition owned {E A} (P : policy) (f : st (hsub E) A) (s : hsub E) : st (list (hsub E) * hfreed E) (A * hsub E) :=
  fun '(l, fr) =>
  match f s with
  | (Ok a, s') => (Ok (a, s'), (l, fr))
  | (Err e, s') => (Err e, (l, drop_sub P s' fr))
  | (Panic p, s') => (Panic p, (l, drop_sub P s' fr))
  end.

(** src/secret_key.rs 262-266. *)
Fixpoint drop_until_hv {E} (P : policy) (dt : N) (l : list (hsub E)) (fr : hfreed E) : res unit * (list (hsub E) * hfreed E) :=
  match l with
  | [] => (Panic P_INDEX, (l, fr))
  | s :: l' => if sk_t (fst s) =? dt then (Ok tt, (l, fr)) else drop_until_hv P dt l' (drop_sub P s fr)
  end.

(** src/secret_key.rs 337-411: the loop ['out]; the state is new_sk.ssk and the memory. *)
Fixpoint update_loop_hv {E} (P : policy) (m : mode) (pp : pubparam E) (old : prng) (i : nat)
    (gl : list timevec) (g : prng) : st (list (hsub E) * hfreed E) prng :=
  match gl with
  | [] => sret g
  | tmptime :: gl' =>
    do! s <- sget;
    let ssk : list (hsub E) := fst s in
    do! found <- slift (dup_loop m (pp_depth pp) tmptime (map fst (skipn (i + 1) ssk)));
    if found : bool then sret g
    else
      do! s0 <- slift (nth_res ssk 0);
      do! (_, s1) <- owned P (delegate_hv m (tv_time tmptime) (pp_depth pp)) (fst s0, []);
      do! (g', s2) <- owned P (rerand_hv m pp old i g) s1;
      do! ssk' <- slift (insert_at (i + 1) s2 ssk);
      do! _ <- (fun s => (Ok tt, (ssk', snd s)));
      update_loop_hv P m pp old (S i) gl' g'
  end.

(** A secret key with the spare slots of its h-vectors. *)
Record hkey (E : env) := HKey { hk_cs : N; hk_time : N; hk_ssk : list (hsub E); hk_prng : prng }.
Arguments HKey {E}. Arguments hk_cs {E}. Arguments hk_time {E}. Arguments hk_ssk {E}. Arguments hk_prng {E}.
Definition plain {E} (k : hkey E) : seckey E := SecKey (hk_cs k) (hk_time k) (map fst (hk_ssk k)) (hk_prng k).
(** The derived Clone. *)
Definition clone_subs {E} (l : list (hsub E)) : list (hsub E) := map (fun s => (fst s, [])) l.

(** src/secret_key.rs 223-426: from the clone to the new key. *)
Definition new_key_hv {E} (P : policy) (m : mode) (pp : pubparam E) (tar_time : N) (seed : bytes) (self : hkey E)
    (delegator_time : N) : st (list (hsub E) * hfreed E) (N * prng) :=
  let depth := pp_depth pp in
  let info := DOM_SEP_SK_RERANDOMIZE_INFO ++ time_bytes (hk_time self) in
  do! g <- slift (rerandomize (sha512 E) (hk_prng self) seed info);
  do! _ <- (fun s => drop_until_hv P delegator_time (fst s) (snd s));
  do! s <- sget;
  match fst s with
  | [] => slift (Err E_SSK_EMPTY)
  | _ :: _ =>
    if delegator_time =? tar_time then sret (delegator_time, g)
    else
      do! tv <- slift (tv_init m tar_time depth);
      do! gl <- slift (gamma_list m tv depth);
      do! g' <- update_loop_hv P m pp (hk_prng self) 0 gl g;
      do! _ <- (fun s => match fst s with
                         | [] => (Panic P_INDEX, s)
                         | x :: l => (Ok tt, (l, drop_sub P x (snd s)))
                         end);
      do! s <- sget;
      do! s0 <- slift (nth_res (fst s) 0);
      sret (sk_t (fst s0), g')
  end.

(** src/secret_key.rs 151-430: update; at the end the old key is dropped, on an error or a
    panic the clone. *)
Definition update_hv {E} (P : policy) (m : mode) (pp : pubparam E) (tar_time : N) (seed : bytes)
  : st (hkey E * hfreed E) unit := fun '(self, fr) =>
  if negb (hk_cs self =? pp_cs pp) then (Err E_CIPHERSUITE, (self, fr))
  else
    match (let! p := shl64 m (pp_depth pp) in sub64 m p 1) with
    | Ok max_time =>
      if (tar_time <=? hk_time self) || (max_time <? tar_time) then (Err E_TIME_STAMP, (self, fr))
      else
        match find_ancestor (plain self) tar_time with
        | Ok delegator_time =>
          match new_key_hv P m pp tar_time seed self delegator_time (clone_subs (hk_ssk self), fr) with
          | (Ok (t, g), (l, fr')) => (Ok tt, (HKey (hk_cs self) t l g, drop_subs P (hk_ssk self) fr'))
          | (Err e, (l, fr')) => (Err e, (self, drop_subs P l fr'))
          | (Panic p, (l, fr')) => (Panic p, (self, drop_subs P l fr'))
          end
        | Err e => (Err e, (self, fr))
        | Panic p => (Panic p, (self, fr))
        end
    | Err e => (Err e, (self, fr))
    | Panic p => (Panic p, (self, fr))
    end.
