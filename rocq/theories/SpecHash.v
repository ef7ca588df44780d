(** The lengths of the strings that are hashed (HashTrace.v), in terms of public data. *)
From Verif Require Import Base Env SpecTime Api OpTrace SpecOps.
Local Open Scope N_scope.

(** HMAC of a message of [n] bytes under a key of at most 128 bytes. *)
Definition hmac_lens (n : nat) : list nat := [128 + n; 128 + 64]%nat.
(** HKDF expand to 128 bytes, with [n] bytes of info. *)
Definition draw_lens (n : nat) : list nat := hmac_lens (n + 1) ++ hmac_lens (64 + n + 1).
(** "key initialization" has 18 bytes; "Pixel secret key init" and a four byte number 25. *)
Definition keygen_lens (seed : nat) : list nat := hmac_lens seed ++ draw_lens 18 ++ draw_lens 25.
(** "Pixel randomness for signing" and four bytes of time: 32; "Pixel hash to message" and the ciphersuite: 22. *)
Definition verify_lens (msg : nat) : list nat := [22 + msg]%nat.
Definition sign_lens (msg : nat) : list nat := hmac_lens (32 + msg + 1) ++ verify_lens msg.
(** "Pixel secret key rerandomize expand" and four bytes of time: 39; "Pixel secret key update": 23.
    Every new sub key but the first is re-randomized. *)
Definition reseed_lens (seed : nat) : list nat := draw_lens 39 ++ hmac_lens (64 + seed).
Definition move_lens (seed : nat) (v v' : path) : list nat :=
  reseed_lens seed ++ times (length (new_paths v v') - 1) (draw_lens 23).

(** A call on a key of time [t] in a tree of depth [d], and a sequence of calls ([later], [node], [next_time]: SpecOps.v). *)
Definition call_lens (d : nat) (t : N) (o : op) : list nat :=
  match o with
  | OpUpdate t' seed => if later d t t' then move_lens (length seed) (node d t) (node d t') else []
  | OpSign t' msg seed =>
      if t =? t' then sign_lens (length msg)
      else if later d t t' then move_lens (length seed) (node d t) (node d t') ++ sign_lens (length msg) else []
  | OpSignPresent t' msg => if t =? t' then sign_lens (length msg) else []
  | OpSignThenUpdate t' msg seed =>
      if t =? t' then sign_lens (length msg) ++ (if later d t (t + 1) then move_lens (length seed) (node d t) (node d (t + 1)) else []) else []
  | OpReload _ => []
  end.
Fixpoint history_lens (d : nat) (t : N) (ops : list op) : list nat :=
  match ops with
  | [] => []
  | o :: ops' => call_lens d t o ++ history_lens d (next_time d t o) ops'
  end.

(** Calls of the same kind, time stamp and lengths; the contents of messages and seeds are free. *)
Definition same_size (a b : op) : Prop :=
  match a, b with
  | OpUpdate t s, OpUpdate t' s' => t = t' /\ length s = length s'
  | OpSign t x s, OpSign t' x' s' => t = t' /\ length x = length x' /\ length s = length s'
  | OpSignPresent t x, OpSignPresent t' x' => t = t' /\ length x = length x'
  | OpSignThenUpdate t x s, OpSignThenUpdate t' x' s' => t = t' /\ length x = length x' /\ length s = length s'
  | OpReload _, OpReload _ => True
  | _, _ => False
  end.
