(** Histories of calls of the C interface. *)
From Verif Require Import Base Env SubKey SecretKey Keys Sig IO Serdes Ffi.
Local Open Scope N_scope.

(** A sequence of c_sk_update calls, each on the buffer returned by the previous one. *)
Fixpoint c_updates {E} (m : mode) (pp : pubparam E) (l : list (N * bytes)) (sk : bytes) : res bytes :=
  match l with
  | [] => Ok sk
  | (t, seed) :: l' => let! sk' := c_sk_update m pp sk seed t in c_updates m pp l' sk'
  end.

(** Time of the last call. *)
Definition c_time (l : list (N * bytes)) : N := last (map fst l) 1.

(** The targets increase and are in range. *)
Fixpoint increasing (t last_t : N) (l : list (N * bytes)) : Prop :=
  match l with
  | [] => True
  | (t', _) :: l' => t < t' <= last_t /\ increasing t' last_t l'
  end.
