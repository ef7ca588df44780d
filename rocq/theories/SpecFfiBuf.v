(** Specification vocabulary of C128: buffers handed to C. *)
From Verif Require Import Base Env SubKey SecretKey Keys Sig Ffi SpecSer BufMem SpecBuf FfiBuf.
Local Open Scope N_scope.

(** A Vec that got [n] bytes has no spare capacity after shrink_to_fit: it had none, or all of it was taken away. *)
Definition no_spare (P : bpolicy) (S : spolicy) (n : nat) : Prop :=
  (bgrow P 0 n <= n)%nat \/ (sfit S (bgrow P 0 n) n <= n)%nat.
(** shrink_to_fit has something to take away and does it by moving. *)
Definition moved_out (P : bpolicy) (S : spolicy) (n : nat) : Prop :=
  (n < bgrow P 0 n)%nat /\ smoved S (bgrow P 0 n) n = true.

(** A caller who keeps a key up to date: the buffers they get, the first one included. *)
Fixpoint c_updates_b {E} (P : bpolicy) (S : spolicy) (m : mode) (pp : pubparam E) (l : list (N * bytes)) (skb : bytes)
  : st (list bytes) (list bytes) :=
  match l with
  | [] => sret [skb]
  | (t, seed) :: l' =>
    do! b <- c_sk_update_b P S m pp skb seed t;
    do! r <- c_updates_b P S m pp l' b;
    sret (skb :: r)
  end.

(** The bytes [b] of the key [k] were to be handed to C: the result [r] of the call and the blocks [new] it freed. *)
Definition handed {E} (P : bpolicy) (S : spolicy) (k : seckey E) (b : bytes) (r : res bytes) (new : list bytes) : Prop :=
  (* the call returns them if no spare capacity is left, and panics else, with the whole key in a freed block; *)
  (no_spare P S (length b) -> r = Ok b) /\ (~ no_spare P S (length b) -> r = Panic P_FFI /\ In b new)
  (* the whole key is also in a freed block if shrink_to_fit moved it, *)
  /\ (moved_out P S (length b) -> In b new)
  (* and else there are only parts of the key; *)
  /\ (forall x, In x new -> x = b \/ begins x b \/ exists s, In s (sec_ssk k) /\ begins x (ssk_blob true s))
  /\ (In b new -> moved_out P S (length b) \/ ~ no_spare P S (length b) \/ exists s, In s (sec_ssk k) /\ begins b (ssk_blob true s))
  (* nothing is left if blocks are not moved. *)
  /\ ((forall n, bmoved P n = false) -> ~ moved_out P S (length b) -> no_spare P S (length b) -> new = []).

(** Whoever finds the block [x] signs at time [t] as the owner of the key [b] does, and is believed. *)
Definition signs_as {E} (pp : pubparam E) (pkb b : bytes) (t : N) (x : bytes) : Prop :=
  forall m msg, exists sigb,
    c_sign_present m pp (as_one x) msg t = Ok sigb /\ c_sign_present m pp b msg t = Ok sigb /\ c_verify m pp pkb msg sigb = Ok true.
