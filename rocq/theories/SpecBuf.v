(** What the memory of a serialization may still hold, for the properties of [sk_serialize_b]. *)
From Verif Require Import Base Env SubKey SecretKey Sig BufMem.
Local Open Scope N_scope.

(** A Vec that is enlarged is at most doubled (but to 8 bytes at least) if that is enough, and gets
    what is needed else; std's growth is the largest such. *)
Definition thrifty (P : bpolicy) : Prop := forall c n, (bgrow P c n <= Nat.max 8 (Nat.max (2 * c) n))%nat.
Definition std_growth (mv : nat -> bool) : bpolicy := BPolicy (fun c n => Nat.max 8 (Nat.max (2 * c) n)) mv.
(** [a] is the beginning of [b], and shorter. *)
Definition begins (a b : bytes) : Prop := exists c, b = a ++ c /\ c <> [].
(** The key with the first sub key only. *)
Definition first_only {E} (sk : seckey E) : seckey E := SecKey (sec_cs sk) (sec_time sk) (firstn 1 (sec_ssk sk)) (sec_prng sk).
(** A block with the beginning of a serialized key, as the blob of a key with one sub key. *)
Definition as_one (b : bytes) : bytes := match b with cs :: _ :: b' => cs :: 1 :: b' | _ => b end.
