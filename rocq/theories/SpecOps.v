(** The sequences of group operations of OpTrace.v in terms of public data: the depth and nodes of the time tree. *)
From Verif Require Import Base Env SpecTime SubKey SecretKey Keys Sig Api SpecGrow OpTrace.
Local Open Scope N_scope.

(** Adding up the points of a path: one addition per step, a doubling before if the step goes right. *)
Definition path_ops (v : path) : trace := flat_map (fun x => if x =? 2 then [Dbl1; Add1] else [Add1]) v.
(** [n] times the same. *)
Definition times {A} (n : nat) (l : list A) : list A := concat (repeat l n).

Definition keygen_ops (d : nat) : trace :=
  [Draw; Mul2; BlsSign; Mul1; Draw; Mul2; Mul1; Add1] ++ times d [Mul1].
Definition sign_ops (v : path) : trace :=
  [Draw; HashMsg; Mul2; Add2] ++ path_ops v ++ [Mul1; Add1; Mul1; Mul1; Add1; Add1].
Definition verify_ops (v : path) : trace :=
  [HashMsg; In2; In1] ++ path_ops v ++ [Mul1; Add1; Neg2; Pairing 3].
Definition validate_ops (v : path) : trace := times (length v) [Mul1; Add1] ++ [Neg2; Pairing 3].
(** Re-randomizing the sub key of node [v]. *)
Definition rerand_ops (d : nat) (v : path) : trace :=
  [Draw; Mul2; Add2] ++ path_ops v ++ [Mul1; Add1] ++ times (d - length v) [Mul1; Add1].
(** An update that makes the sub keys of the nodes [vs] from that of the node [va]. *)
Definition update_ops (d : nat) (va : path) (vs : list path) : trace :=
  Reseed :: match vs with
            | [] => []
            | v :: vs' => path_ops (skipn (length va) v)
                          ++ flat_map (fun w => path_ops (skipn (length va) w) ++ rerand_ops d w) vs'
            end.

(** The nodes whose sub keys the key at node [v] has, and those that are new after a move to [v']. *)
Definition key_paths (v : path) : list path := v :: right_sibs [] v.
Definition path_eqb (u w : path) : bool := if list_eq_dec N.eq_dec u w then true else false.
Definition new_paths (v v' : path) : list path := filter (fun w => negb (existsb (path_eqb w) (key_paths v))) (key_paths v').
(** The one they are made from: it is above [v']. *)
Definition source (v v' : path) : path :=
  match find (fun u => path_eqb u (firstn (length u) v')) (key_paths v) with Some u => u | None => [] end.
(** Moving the key from node [v] to node [v']. *)
Definition move_ops (d : nat) (v v' : path) : trace := update_ops d (source v v') (new_paths v v').

(** The node of a time stamp. *)
Definition node (d : nat) (t : N) : path := nth (N.to_nat (t - 1)) (preorder d) [].
(** A call on a key of time [t]: the operations and the time of the key afterwards. *)
Definition later (d : nat) (t t' : N) : bool := (t <? t') && (t' <=? last_time d).
Definition call_ops (d : nat) (t : N) (o : op) : trace :=
  match o with
  | OpUpdate t' _ => if later d t t' then move_ops d (node d t) (node d t') else []
  | OpSign t' _ _ =>
      if t =? t' then sign_ops (node d t)
      else if later d t t' then move_ops d (node d t) (node d t') ++ sign_ops (node d t') else []
  | OpSignPresent t' _ => if t =? t' then sign_ops (node d t) else []
  | OpSignThenUpdate t' _ _ =>
      if t =? t' then sign_ops (node d t) ++ (if later d t (t + 1) then move_ops d (node d t) (node d (t + 1)) else []) else []
  | OpReload _ => []
  end.
Definition next_time (d : nat) (t : N) (o : op) : N :=
  match o with
  | OpUpdate t' _ | OpSign t' _ _ => if later d t t' then t' else t
  | OpSignThenUpdate t' _ _ => if (t =? t') && later d t (t + 1) then t + 1 else t
  | _ => t
  end.
Fixpoint history_ops (d : nat) (t : N) (ops : list op) : trace :=
  match ops with
  | [] => []
  | o :: ops' => call_ops d t o ++ history_ops d (next_time d t o) ops'
  end.
Definition no_panic {A} (r : res A) : bool := match r with Panic _ => false | _ => true end.

(** How often an operation occurs. *)
Definition is_mul1 (o : gop) : bool := match o with Mul1 => true | _ => false end.
Definition is_mul2 (o : gop) : bool := match o with Mul2 => true | _ => false end.
Definition is_pair (o : gop) : bool := match o with Pairing _ => true | _ => false end.
Definition count (f : gop -> bool) (l : trace) : nat := length (filter f l).

(** Calls that look the same from outside: same kind and time stamp; messages and seeds are free. *)
Definition alike (a b : op) : Prop :=
  match a, b with
  | OpUpdate t _, OpUpdate t' _ => t = t'
  | OpSign t _ _, OpSign t' _ _ => t = t'
  | OpSignPresent t _, OpSignPresent t' _ => t = t'
  | OpSignThenUpdate t _ _, OpSignThenUpdate t' _ _ => t = t'
  | OpReload _, OpReload _ => True
  | _, _ => False
  end.

(** A left child, and what entering its subtree costs: its right sibling is made and re-randomized. *)
Definition left_child (v : path) : bool := last v 0 =? 1.
Definition entry_cost (d : nat) (v : path) : nat := if left_child v then (1 + (d - length v))%nat else 0%nat.
(** The calls that sign. *)
Definition signs (o : op) : bool := match o with OpUpdate _ _ | OpReload _ => false | _ => true end.
(** Updates through the time stamps after [t], one by one. *)
Fixpoint one_by_one (t : N) (seeds : list bytes) : list op :=
  match seeds with
  | [] => []
  | s :: seeds' => OpUpdate (t + 1) s :: one_by_one (t + 1) seeds'
  end.
