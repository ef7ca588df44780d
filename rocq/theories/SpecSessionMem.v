(** Specification vocabulary of C131: sessions of a C caller and what they leave in freed memory. *)
From Verif Require Import Base Env SubKey SecretKey Keys Sig IO Serdes Ffi SpecSer VecMem HvMem ReadMem SpecRead BufMem FfiBuf CallMem SpecCallMem SessionMem.
Local Open Scope N_scope.

(** The calls with the current key; the result is the last key and the signatures. *)
Inductive caction := CSign (msg : bytes) (t : N) | CUpdate (t : N) (seed : bytes).
Fixpoint c_session_mem {E} (C : cpolicy) (m : mode) (pp : pubparam E) (l : list caction) (skb : bytes) : st (cheap E) (bytes * list bytes) :=
  match l with
  | [] => sret (skb, [])
  | CSign msg t :: l' =>
    do! s <- c_sign_present_mem C m pp skb msg t;
    do! r <- c_session_mem C m pp l' skb;
    sret (fst r, s :: snd r)
  | CUpdate t seed :: l' => do! b <- c_sk_update_mem C m pp skb seed t; c_session_mem C m pp l' b
  end.

(** The same without memory. *)
Fixpoint c_session {E} (m : mode) (pp : pubparam E) (l : list caction) (skb : bytes) : res (bytes * list bytes) :=
  match l with
  | [] => Ok (skb, [])
  | CSign msg t :: l' =>
    let! s := c_sign_present m pp skb msg t in
    let! r := c_session m pp l' skb in
    Ok (fst r, s :: snd r)
  | CUpdate t seed :: l' => let! b := c_sk_update m pp skb seed t in c_session m pp l' b
  end.

(** The blocks left by reading [k]: exactly the beginnings of its vectors that were outgrown in a block that was moved. *)
Definition read_left {E} (C : cpolicy) (k : seckey E) (new : list (old_block E)) : Prop :=
  forall b, In b new <->
    (exists s l, In s (sec_ssk k) /\ b = OldPoints l /\ outgrown (cp_hv C) l (sk_hvec s))
    \/ (exists l, b = OldKeys (map head_of l) /\ outgrown (cp_ssk C) l (sec_ssk k)).

(** The session [l] leads from the key [k] to the key [k'] and leaves [new], call by call. *)
Inductive accounts {E} (C : cpolicy) (m : mode) (pp : pubparam E) : seckey E -> list caction -> seckey E -> cheap E -> Prop :=
| acc_end k : accounts C m pp k [] k (CHeap [] [] [] [])
| acc_sign k msg t l k' nr n : read_left C k nr -> accounts C m pp k l k' n ->
    accounts C m pp k (CSign msg t :: l) k' (more n (CHeap nr [] [] []))
| acc_update k t seed l k1 k' n1 n : update m pp t seed k = (Ok tt, k1) -> left_by C k k1 n1 -> accounts C m pp k1 l k' n ->
    accounts C m pp k (CUpdate t seed :: l) k' (more n n1).
