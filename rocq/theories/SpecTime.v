(** Specification of the time tree, independent of the code in src/time.rs.

    The tree of depth [d] is the complete binary tree with [d] levels.  A node is
    named by the path from the root, 1 = left, 2 = right.  Time stamps number the
    nodes from 1 in pre-order. *)
From Verif Require Import Base.
Local Open Scope N_scope.

Notation path := (list N).

(** All nodes of the tree with [d] levels, in pre-order. *)
Fixpoint preorder (d : nat) : list path :=
  match d with
  | O => []
  | S d1 => [] :: map (cons 1) (preorder d1) ++ map (cons 2) (preorder d1)
  end.

(** [node_at d t v]: time stamp [t] is the node [v] of the tree of depth [d]. *)
Definition node_at (d : nat) (t : N) (v : path) : Prop :=
  1 <= t /\ nth_error (preorder d) (N.to_nat (t - 1)) = Some v.

(** [below d a t]: [t] is [a] or a descendant of [a]. *)
Definition below (d : nat) (a t : N) : Prop :=
  exists va w, node_at d a va /\ node_at d t (va ++ w).

(** Proper descendant. *)
Definition strictly_below (d : nat) (a t : N) : Prop :=
  exists va w, w <> [] /\ node_at d a va /\ node_at d t (va ++ w).

(** The last time stamp of depth [d]. *)
Definition last_time (d : nat) : N := pow2 d - 1.

(** [tiling d t l]: the subtrees rooted at the stamps in [l], in this order, are
    consecutive intervals that make up exactly [t .. last_time d]. *)
Inductive tiling (d : nat) : N -> list N -> Prop :=
| tile_end : tiling d (pow2 d) []
| tile_cons : forall t v l,
    node_at d t v ->
    tiling d (t + (pow2 (d - length v) - 1)) l ->
    tiling d t (t :: l).
