(** Specification: what a holder of sub keys can compute with the sub key operations. *)
From Verif Require Import Base Env SubKey.
Local Open Scope N_scope.

(** Sub keys obtained from the list [held] by any sequence of successful delegate and
    randomization calls. *)
Inductive derivable {E} (m : mode) (pp : pubparam E) (held : list (subkey E)) : subkey E -> Prop :=
| der_held : forall s, In s held -> derivable m pp held s
| der_delegate : forall s t s', derivable m pp held s ->
    delegate m t (pp_depth pp) s = (Ok tt, s') -> derivable m pp held s'
| der_randomize : forall s r s', derivable m pp held s ->
    randomization m pp r s = (Ok tt, s') -> derivable m pp held s'.

(** Serialized size of a sub key / key from the length of the vectors (spec.md,
    "Serialization"; compressed points: 48 and 96 bytes). *)
Definition spec_size (lens : list nat) : nat :=
  66 + fold_right (fun n acc => (4 + 1 + 48 + 96 + n * 96) + acc)%nat 0%nat lens.
