(** Specification vocabulary of C134: what the steps of a history leave on the stack. *)
From Coq Require Import String.
From Verif Require Import Base Env Prng SubKey SecretKey Keys Sig Api Hygiene SpecHyg SpecReadStack HistStack.
Local Open Scope N_scope.

(** A step with the key [sk] returns [r], makes the key [sk'] and leaves the cells [d]. *)
Definition moves {E A} (h : km E A) (sk : seckey E) (r : res A) (sk' : seckey E) (d : list (cell E)) : Prop :=
  forall s, h (sk, s) = (r, (sk', (fst s, snd s ++ d))).

(** The cells of a step that succeeds. *)
Definition op_cells {E} (pp : pubparam E) (o : op) (sk sk' : seckey E) : list (cell E) :=
  match o with
  | OpUpdate t seed => update_cells sk sk' seed
  | OpSign t msg seed => (if sec_time sk <? t then update_cells sk sk' seed else []) ++ sign_cells pp sk' t msg
  | OpSignPresent t msg => sign_cells pp sk t msg
  | OpSignThenUpdate t msg seed => sign_cells pp sk t msg ++ update_cells sk sk' seed
  | OpReload _ => map hv_cell (sec_ssk sk) ++ read_cells sk
  end.
(** The cells of a step that is refused.  sign_then_update has signed before it finds that the key is at its last time. *)
Definition refused_cells {E} (pp : pubparam E) (o : op) (sk : seckey E) : list (cell E) :=
  match o with
  | OpSignThenUpdate t msg _ => if sec_time sk =? t then sign_cells pp sk t msg else []
  | _ => []
  end.
(** A history without panics from [sk] to [sk'] leaves the cells of its steps. *)
Inductive hist_leaves {E} (m : mode) (pp : pubparam E) : list op -> seckey E -> seckey E -> list (cell E) -> Prop :=
| hl_end sk : hist_leaves m pp [] sk sk []
| hl_step o l sk sk1 sk' x d : step m pp o sk = (Ok x, sk1) -> hist_leaves m pp l sk1 sk' d ->
    hist_leaves m pp (o :: l) sk sk' (op_cells pp o sk sk1 ++ d)
| hl_refused o l sk sk1 sk' e d : step m pp o sk = (Err e, sk1) -> hist_leaves m pp l sk1 sk' d ->
    hist_leaves m pp (o :: l) sk sk' (refused_cells pp o sk ++ d).
