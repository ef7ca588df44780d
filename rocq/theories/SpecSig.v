(** Specification vocabulary for signing histories. *)
From Verif Require Import Base Env SpecTime SubKey SecretKey Sig Api SpecKey.
Local Open Scope N_scope.

(** The time stamp and message an operation is asked to sign. *)
Definition signs (o : op) : option (N * bytes) :=
  match o with
  | OpSign t msg _ => Some (t, msg)
  | OpSignPresent t msg => Some (t, msg)
  | OpSignThenUpdate t msg _ => Some (t, msg)
  | OpUpdate _ _ | OpReload _ => None
  end.

(** The operation is not one of the two that can sign twice for a time stamp. *)
Definition one_time (o : op) : Prop :=
  match o with OpSign _ _ _ | OpSignPresent _ _ => False | _ => True end.

(** Time stamps of the signatures returned in a history, in order. *)
Definition sig_times {E} (rs : list (res (option (signature E)))) : list N :=
  flat_map (fun r => match r with Ok (Some s) => [sig_time s] | _ => [] end) rs.

(** The relation between a sub key and the public key:
    e(g2, hpoly) = e(g2r, h_0 + sum v_i h_i) * e(pk, h). *)
Definition ssk_equation {E} (pp : pubparam E) (pk : pubkey E) (s : subkey E) : Prop :=
  exists v, node_at (pp_depth pp) (sk_t s) v
    /\ pairing (pp_g2 pp) (sk_hpoly s)
       = gt_mul (pairing (sk_g2r s) (node_val pp v)) (pairing (pk_pk pk) (pp_h pp)).
