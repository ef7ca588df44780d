(** SecretKey::update once more (src/secret_key.rs 151-430), now with the memory block of
    the Vec<SubSecretKey> it works on.

    A Vec has a block with a slot for each element and some spare slots.  What lies in a
    slot is the struct SubSecretKey (src/subkeys.rs 21-32): time, g2r, hpoly and the place of the
    h-vector, which has a block of its own.  std::vec says:
    - clone makes a block without spare slots;
    - remove(0) copies the elements after the first one slot down and leaves the last slot as it is;
    - insert(i, _) copies the elements from i on one slot up.  If there is no spare slot the
      block is first enlarged ([grow]); the allocator may do this by giving out another block and
      freeing the old one as it is ([moved]).
    A SubSecretKey that is dropped is overwritten in the slot where it lies, and so is the block of its
    h-vector (src/subkeys.rs 19-20).  Whether dropping a Vec also overwrites its spare slots
    depends on the version of the crate zeroize ([clears]).
    Not modelled: the blocks of the h-vectors, copies on the stack, what the allocator
    writes into freed blocks. *)
From Verif Require Import Base Env Time Hkdf Prng SubKey SecretKey.
Local Open Scope N_scope.

Record policy := Policy { grow : nat -> nat; moved : nat -> bool; clears : bool }.

(** The contents of a slot, without the place of the h-vector. *)
Record head (E : env) := Head { hd_t : N; hd_g2r : G2 E; hd_hpoly : G1 E }.
Arguments Head {E}. Arguments hd_t {E}. Arguments hd_g2r {E}. Arguments hd_hpoly {E}.
Definition head_of {E} (s : subkey E) : head E := Head (sk_t s) (sk_g2r s) (sk_hpoly s).

(** The spare slots of a Vec ([None]: never written), and the contents of the freed blocks. *)
Notation slots E := (list (option (head E))).
Record heap (E : env) := Heap { spare : slots E; freed : list (slots E) }.
Arguments Heap {E}. Arguments spare {E}. Arguments freed {E}.
Definition as_slots {E} (l : list (subkey E)) : slots E := map (fun s => Some (head_of s)) l.

(** Vec::remove(0). *)
Definition vec_remove0 {E} (l : list (subkey E)) : st (heap E) (list (subkey E)) := fun h =>
  match l with
  | [] => (Panic P_INDEX, h)
  | s :: l' => (Ok l', Heap (Some (head_of (last l s)) :: spare h) (freed h))
  end.
(** Vec::insert(i, x). *)
Definition vec_insert {E} (P : policy) (i : nat) (x : subkey E) (l : list (subkey E)) : st (heap E) (list (subkey E)) := fun h =>
  match insert_at i x l with
  | Ok l' =>
    match spare h with
    | _ :: sp => (Ok l', Heap sp (freed h))
    | [] => (Ok l', Heap (repeat None (grow P (length l) - length l'))
                      (if moved P (length l) then as_slots l :: freed h else freed h))
    end
  | r => (r, h)
  end.
(** The block of a Vec that is dropped. *)
Definition give_up {E} (P : policy) (sp : slots E) (l : list (slots E)) : list (slots E) := if clears P then l else sp :: l.

(** src/secret_key.rs 262-266: [while new_sk.ssk[0].time() != delegator_time { remove(0) }]. *)
Fixpoint drop_until_v {E} (dt : N) (l : list (subkey E)) : st (heap E) (list (subkey E)) :=
  match l with
  | [] => slift (Panic P_INDEX)
  | s :: l' => if sk_t s =? dt then sret l else do! _ <- vec_remove0 l; drop_until_v dt l'
  end.

(** src/secret_key.rs 337-411: the loop ['out]. *)
Fixpoint update_loop_v {E} (P : policy) (m : mode) (pp : pubparam E) (old : prng) (i : nat)
    (gl : list timevec) (ssk : list (subkey E)) (g : prng) : st (heap E) (list (subkey E) * prng) :=
  match gl with
  | [] => sret (ssk, g)
  | tmptime :: gl' =>
    do! found <- slift (dup_loop m (pp_depth pp) tmptime (skipn (i + 1) ssk));
    if found : bool then sret (ssk, g)
    else
      do! s0 <- slift (nth_res ssk 0);
      do! s1 <- slift (run_mut (delegate m (tv_time tmptime) (pp_depth pp)) s0);
      do! (s2, g') <- slift (rerand_new m pp old i s1 g);
      do! ssk' <- vec_insert P (i + 1) s2 ssk;
      update_loop_v P m pp old (S i) gl' ssk' g'
  end.

(** src/secret_key.rs 223-428: from the clone to the new key. *)
Definition new_key_v {E} (P : policy) (m : mode) (pp : pubparam E) (tar_time : N) (seed : bytes) (self : seckey E)
    (delegator_time : N) : st (heap E) (seckey E) :=
  let depth := pp_depth pp in
  let info := DOM_SEP_SK_RERANDOMIZE_INFO ++ time_bytes (sec_time self) in
  do! g <- slift (rerandomize (sha512 E) (sec_prng self) seed info);
  do! ssk <- drop_until_v delegator_time (sec_ssk self);
  match ssk with
  | [] => slift (Err E_SSK_EMPTY)
  | _ :: _ =>
    if delegator_time =? tar_time then sret (SecKey (sec_cs self) delegator_time ssk g)
    else
      do! tv <- slift (tv_init m tar_time depth);
      do! gl <- slift (gamma_list m tv depth);
      do! (ssk', g') <- update_loop_v P m pp (sec_prng self) 0 gl ssk g;
      do! ssk'' <- vec_remove0 ssk';
      do! s0 <- slift (nth_res ssk'' 0);
      sret (SecKey (sec_cs self) (sk_t s0) ssk'' g')
  end.

(** src/secret_key.rs 151-430: update.  The state is the key and the memory: the spare slots
    of its Vec and the blocks freed so far.  The clone has no spare slots.  At the end the old
    key is dropped, on an error or a panic the clone. *)
Definition update_v {E} (P : policy) (m : mode) (pp : pubparam E) (tar_time : N) (seed : bytes)
  : st (seckey E * heap E) unit := fun '(self, h) =>
  if negb (sec_cs self =? pp_cs pp) then (Err E_CIPHERSUITE, (self, h))
  else
    match (let! p := shl64 m (pp_depth pp) in sub64 m p 1) with
    | Ok max_time =>
      if (tar_time <=? sec_time self) || (max_time <? tar_time) then (Err E_TIME_STAMP, (self, h))
      else
        match find_ancestor self tar_time with
        | Ok delegator_time =>
          match new_key_v P m pp tar_time seed self delegator_time (Heap [] (freed h)) with
          | (Ok sk', h') => (Ok tt, (sk', Heap (spare h') (give_up P (spare h) (freed h'))))
          | (Err e, h') => (Err e, (self, Heap (spare h) (give_up P (spare h') (freed h'))))
          | (Panic p, h') => (Panic p, (self, Heap (spare h) (give_up P (spare h') (freed h'))))
          end
        | Err e => (Err e, (self, h))
        | Panic p => (Panic p, (self, h))
        end
    | Err e => (Err e, (self, h))
    | Panic p => (Panic p, (self, h))
    end.
