(** What the files of the test vectors should be. *)
From Verif Require Import Base Env SubKey SecretKey Keys Sig IO Serdes Api Programs SpecUpdate.
Local Open Scope N_scope.

(** File names: times 1 .. 63, and the jumps i(i-1)/2 -> i(i+1)/2 for i = 2 .. 63. *)
Definition jump_names (i : N) : list fname :=
  [SkFf (i * (i - 1) / 2) (i * (i + 1) / 2); SigFf (i * (i - 1) / 2) (i * (i + 1) / 2)].
Definition vector_names : list fname :=
  [PkBin; PopBin; SkBin 1; SigBin 1]
  ++ flat_map (fun i => [SkBin i; SigBin i]) (range 2 64)
  ++ flat_map jump_names (range 2 64).

(** What a reader of a file finds: a key or signature for the time in its name, valid
    for the public key. *)
Definition file_ok {E} (m : mode) (pp : pubparam E) (pk : pubkey E) (pop : proof E) (f : file) : Prop :=
  match fst f with
  | PkBin => from_slice (pk_deserialize true) (snd f) = Ok pk
  | PopBin => from_slice (pop_deserialize true) (snd f) = Ok pop
  | SkBin t | SkFf _ t => exists sk : seckey E,
      from_slice (sk_deserialize true) (snd f) = Ok sk /\ sec_time sk = t /\ sk_validate m sk pk pp = Ok true
  | SigBin t | SigFf _ t => exists s : signature E,
      from_slice (sig_deserialize true) (snd f) = Ok s /\ sig_time s = t /\ verify m s pk pp MSG = Ok true
  end.

Definition is_pop (f : file) : bool := match fst f with PopBin => true | _ => false end.

(** The two histories of the generator: the times 2 .. 63, and the jumps. *)
Definition seq_ops : list op := map (fun t => OpUpdate t RNGSEED) (range 2 64).
Definition jump_ops : list op := map (fun i => OpUpdate (i * (i + 1) / 2) RNGSEED) (range 2 64).
