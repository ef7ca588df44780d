(** Specification of key update (spec.md, "Secret key update"): the new sub keys made
    from one delegator. *)
From Verif Require Import Base Env Time Prng SpecPrng SpecTime SubKey SecretKey SpecKey.
Local Open Scope N_scope.

(** State of the prng after the re-randomization at the start of an update. *)
Definition spec_reseed {E} (sk : seckey E) (seed : bytes) : prng :=
  spec_rerandomize (sha512 E) (sec_prng sk) seed
    (DOM_SEP_SK_RERANDOMIZE_INFO ++ time_bytes (sec_time sk)).

(** The new sub keys for the nodes [l]: the first one reuses the delegator's randomness
    [r], every further one adds a fresh scalar drawn from the prng.  [None]: a drawn prng
    state equals [old], the state before the update. *)
Fixpoint spec_fresh {E} (pp : pubparam E) (x r : N) (old : prng) (first : bool)
    (l : list timevec) (g : prng) : option (list (subkey E) * prng) :=
  match l with
  | [] => Some ([], g)
  | tv :: l' =>
    if first then
      match spec_fresh pp x r old false l' g with
      | Some (ks, g') => Some (honest_ssk pp x (tv_time tv) (tv_vec tv) r :: ks, g')
      | None => None
      end
    else
      let k := spec_scalar (sha512 E) g DOM_SEP_SK_UPDATE in
      let g1 := spec_next (sha512 E) g DOM_SEP_SK_UPDATE in
      if prng_eqb g1 old then None
      else match spec_fresh pp x r old false l' g1 with
           | Some (ks, g') => Some (honest_ssk pp x (tv_time tv) (tv_vec tv) (r + k) :: ks, g')
           | None => None
           end
  end.

(** State of the prng after [i] draws during an update. *)
Definition draws (H : bytes -> bytes) (i : nat) (g : prng) : prng :=
  Nat.iter i (fun g => spec_next H g DOM_SEP_SK_UPDATE) g.

(** The prng never comes back to the state it had before the update, in the draws an
    update can make. *)
Definition no_repeat {E} (d : nat) (sk : seckey E) (seed : bytes) : Prop :=
  forall i, (1 <= i < d)%nat -> draws (sha512 E) i (spec_reseed sk seed) <> sec_prng sk.

(** Randomness added to the [i]-th new sub key of an update: none to the first one, the
    [i]-th drawn scalar to the others. *)
Definition added (H : bytes -> bytes) (g : prng) (i : nat) : N :=
  match i with
  | O => 0
  | S j => spec_scalar H (draws H j g) DOM_SEP_SK_UPDATE
  end.

(** The scalar a message is hashed to, and the info string from which the randomness of
    a signature is drawn (spec.md, "Signing"). *)
Definition msg_scalar {E} (pp : pubparam E) (msg : bytes) : N :=
  spec_msg (sha512 E) DOM_SEP_HASH_TO_MSG (pp_cs pp) msg.
Definition sign_info (msg : bytes) (t : N) : bytes := DOM_SEP_SIG ++ msg ++ time_bytes t.
