(** Vocabulary for the properties about parameters with too few or too many generators. *)
From Verif Require Import Base Env SpecTime SubKey SecretKey Keys.
Local Open Scope N_scope.

(** Parameters that agree in everything but the generators after the first [pp_depth pp + 1]. *)
Definition same_used {E} (pp pp' : pubparam E) : Prop :=
  pp_depth pp' = pp_depth pp /\ pp_cs pp' = pp_cs pp /\ pp_g2 pp' = pp_g2 pp /\ pp_h pp' = pp_h pp
  /\ firstn (pp_depth pp + 1) (pp_hlist pp') = firstn (pp_depth pp + 1) (pp_hlist pp).

(** Parameters without the generator for the message. *)
Definition too_few {E} (pp : pubparam E) : Prop := (length (pp_hlist pp) <= pp_depth pp)%nat.

(** No sub key has more h-values than levels are left below its node. *)
Definition fits {E} (d : nat) (s : subkey E) : Prop :=
  forall v, node_at d (sk_t s) v -> (length v + length (sk_hvec s) <= d)%nat.
