(** Specification vocabulary of C133: sessions of a C caller and what they leave on the stack. *)
From Coq Require Import String.
From Verif Require Import Base Env Prng SubKey SecretKey Keys Sig IO Serdes Ffi Hygiene SpecHyg SpecReadStack SessionMem SpecSessionMem CallStack.
Local Open Scope N_scope.

(** The session of SpecSessionMem.v, on the stack. *)
Fixpoint c_session_h {E} (m : mode) (pp : pubparam E) (l : list caction) (skb : bytes) : hm E (bytes * list bytes) :=
  match l with
  | [] => sret (skb, [])
  | CSign msg t :: l' =>
    do! s <- c_sign_present_h m pp skb msg t;
    do! r <- c_session_h m pp l' skb;
    sret (fst r, s :: snd r)
  | CUpdate t seed :: l' => do! b <- c_sk_update_h m pp skb seed t; c_session_h m pp l' b
  end.

(** The session [l] leads from the key [k] to the key [k'] and leaves the cells [d], call by call. *)
Inductive stacks {E} (m : mode) (pp : pubparam E) : seckey E -> list caction -> seckey E -> list (cell E) -> Prop :=
| st_end k : stacks m pp k [] k []
| st_sign k msg t l k' d : stacks m pp k l k' d ->
    stacks m pp k (CSign msg t :: l) k' ((read_cells k ++ sign_cells pp k t msg) ++ d)
| st_update k t seed l k1 k' d : update m pp t seed k = (Ok tt, k1) -> stacks m pp k1 l k' d ->
    stacks m pp k (CUpdate t seed :: l) k' ((read_cells k ++ update_cells k k1 seed ++ map hv_cell (sec_ssk k1)) ++ d).
