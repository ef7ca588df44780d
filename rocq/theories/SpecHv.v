(** What the blocks of the h-vectors may still hold, for the properties of [update_hv]. *)
From Verif Require Import Base Env SubKey SecretKey Sig SpecUpdate SpecHyg VecMem HvMem.
Local Open Scope N_scope.

(** The last entry of an h-vector. *)
Definition last_entry {E} (s : subkey E) : G1 E := last (sk_hvec s) g1_zero.

(** The block of the h-vector of [s] was as large as that of [s0], and its spare slots hold nothing
    but copies of the last entry there. *)
Record cut_from {E} (s0 s : subkey E) (sp : hslots E) : Prop := CutFrom {
  cf_size : (length (sk_hvec s) + length sp = length (sk_hvec s0))%nat;
  cf_only : forall x, In (Some x) sp -> x = last_entry s0;
  cf_all : sk_hvec s <> [] -> sp = repeat (Some (last_entry s0)) (length sp) }.

(** The contents of slots, of a list of blocks. *)
Definition in_blocks {E} (x : G1 E) (bl : list (hslots E)) : Prop := exists b, In b bl /\ In (Some x) b.
(** A key without spare slots. *)
Definition fresh_key {E} (sk : seckey E) : hkey E :=
  HKey (sec_cs sk) (sec_time sk) (map (fun s => (s, [])) (sec_ssk sk)) (sec_prng sk).
(** All blocks there are: those of the key and the freed ones. *)
Definition all_blocks {E} (s : hkey E * hfreed E) : list (hslots E) := map snd (hk_ssk (fst s)) ++ snd s.

(** One update after the other, to the given time stamps with the given seeds. *)
Definition updates_hv {E} (P : policy) (m : mode) (pp : pubparam E) (l : list (N * bytes)) (s : hkey E * hfreed E) : hkey E * hfreed E :=
  fold_left (fun s ts => snd (update_hv P m pp (fst ts) (snd ts) s)) l s.
Definition updates {E} (m : mode) (pp : pubparam E) (l : list (N * bytes)) (sk : seckey E) : seckey E :=
  fold_left (fun sk ts => snd (update m pp (fst ts) (snd ts) sk)) l sk.

(** A signature from the time stamp and the first two entries of a sub key and some point. *)
Definition forge_with {E} (pp : pubparam E) (hd : head E) (x : G1 E) (msg : bytes) : signature E :=
  Signature (pp_cs pp) (hd_t hd) (hd_g2r hd) (g1_add (hd_hpoly hd) (g1_mul (msg_scalar pp msg) x)).

(** Drops that do not overwrite spare slots, and drops that do. *)
Definition keeps_spare : policy := Policy (fun n => (2 * n)%nat) (fun _ => true) false.
Definition wipes_spare : policy := Policy (fun n => (2 * n)%nat) (fun _ => true) true.
