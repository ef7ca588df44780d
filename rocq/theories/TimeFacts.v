(** Proofs about the time tree and the model of src/time.rs. *)
From Coq Require Import Sorting.Sorted.
From Verif Require Import Base Time SpecTime.
From Coq Require Import ZifyBool ZifyNat ZifyN.
Local Open Scope N_scope.
Local Arguments N.add : simpl never.
Local Arguments N.mul : simpl never.
Local Arguments N.sub : simpl never.
Local Arguments pow2 : simpl never.

(** * Powers of two *)
Lemma pow2_S d : pow2 (S d) = 2 * pow2 d.
Proof. unfold pow2. rewrite Nat2N.inj_succ, N.pow_succ_r'. reflexivity. Qed.
Lemma pow2_0 : pow2 0 = 1. Proof. reflexivity. Qed.
Lemma pow2_pos d : 1 <= pow2 d.
Proof. induction d; [rewrite pow2_0; lia | rewrite pow2_S; lia]. Qed.
Lemma pow2_add a b : pow2 (a + b) = pow2 a * pow2 b.
Proof. unfold pow2. rewrite Nat2N.inj_add, N.pow_add_r. reflexivity. Qed.
Lemma pow2_le a b : (a <= b)%nat -> pow2 a <= pow2 b.
Proof. intros. unfold pow2. apply N.pow_le_mono_r; lia. Qed.
Lemma pow2_lt a b : (a < b)%nat -> pow2 a < pow2 b.
Proof. intros. unfold pow2. apply N.pow_lt_mono_r; lia. Qed.
Lemma pow2_64 : pow2 64 = two64. Proof. reflexivity. Qed.
Lemma pow2_lt64 d : (d < 64)%nat -> pow2 d < two64.
Proof. intros. rewrite <- pow2_64. apply pow2_lt; lia. Qed.
Lemma two64_half : two64 = 2 * pow2 63. Proof. reflexivity. Qed.

(** * Paths *)

Definition turn (x : N) : Prop := x = 1 \/ x = 2.
Definition valid_path (d : nat) (v : path) : Prop := Forall turn v /\ (length v < d)%nat.

(** Number of a node. *)
Fixpoint ptime (d : nat) (v : path) : N :=
  match d, v with
  | _, [] => 1
  | O, _ => 1
  | S d1, x :: v' => if x =? 2 then pow2 d1 + ptime d1 v' else 1 + ptime d1 v'
  end.

Definition psize (d : nat) (v : path) : N := pow2 (d - length v) - 1.

Lemma ptime_ge1 d v : 1 <= ptime d v.
Proof.
  revert v; induction d; intros [|x v]; simpl; try lia.
  pose proof (pow2_pos d). specialize (IHd v). destruct (x =? 2); lia.
Qed.

Lemma valid_nil d : (0 < d)%nat -> valid_path d [].
Proof. split; [constructor | simpl; lia]. Qed.

Lemma valid_cons_inv d x v : valid_path (S d) (x :: v) -> turn x /\ valid_path d v.
Proof. intros [Hf Hl]. inversion Hf; subst. simpl in Hl. split; [auto|split; [auto|lia]]. Qed.

Lemma valid_cons d x v : turn x -> valid_path d v -> valid_path (S d) (x :: v).
Proof. intros Hx [Hf Hl]. split; [constructor; auto | simpl; lia]. Qed.

Lemma valid_not0 v : ~ valid_path 0 v.
Proof. intros [_ H]. simpl in H. lia. Qed.

Lemma ptime_le d v : valid_path d v -> ptime d v <= pow2 d - 1.
Proof.
  revert v; induction d; intros v Hv; [destruct (valid_not0 _ Hv)|].
  destruct v as [|x v]; rewrite pow2_S; pose proof (pow2_pos d).
  - simpl. lia.
  - apply valid_cons_inv in Hv as [Hx Hv]. specialize (IHd _ Hv). simpl.
    destruct (x =? 2); lia.
Qed.

Lemma psize_cons d x v : psize (S d) (x :: v) = psize d v.
Proof. reflexivity. Qed.

Lemma psize_ge1 d v : valid_path d v -> 1 <= psize d v.
Proof.
  intros [_ Hl]. unfold psize.
  assert (pow2 1 <= pow2 (d - length v)) by (apply pow2_le; lia).
  change (pow2 1) with 2 in *. lia.
Qed.

(** A node and its subtree stay within the tree. *)
Lemma ptime_psize_le d v : valid_path d v -> ptime d v + psize d v <= pow2 d.
Proof.
  revert v; induction d; intros v Hv; [destruct (valid_not0 _ Hv)|].
  destruct v as [|x v].
  - unfold psize. simpl length. rewrite Nat.sub_0_r. simpl ptime.
    pose proof (pow2_pos (S d)). lia.
  - apply valid_cons_inv in Hv as [Hx Hv]. specialize (IHd _ Hv).
    rewrite psize_cons. rewrite pow2_S. pose proof (pow2_pos d). simpl ptime.
    destruct (x =? 2); lia.
Qed.

(** Injectivity. *)
Lemma ptime_inj d u v :
  valid_path d u -> valid_path d v -> ptime d u = ptime d v -> u = v.
Proof.
  revert u v; induction d; intros u v Hu Hv He; [destruct (valid_not0 _ Hu)|].
  pose proof (pow2_pos d).
  destruct u as [|x u], v as [|y v]; auto.
  - apply valid_cons_inv in Hv as [Hy Hv].
    simpl in He. pose proof (ptime_ge1 d v). destruct (y =? 2); lia.
  - apply valid_cons_inv in Hu as [Hx Hu].
    simpl in He. pose proof (ptime_ge1 d u). destruct (x =? 2); lia.
  - apply valid_cons_inv in Hu as [Hx Hu]. apply valid_cons_inv in Hv as [Hy Hv].
    pose proof (ptime_le _ _ Hu). pose proof (ptime_le _ _ Hv).
    pose proof (ptime_ge1 d u). pose proof (ptime_ge1 d v).
    simpl in He.
    destruct Hx as [-> | ->], Hy as [-> | ->]; simpl in He; try lia;
      (f_equal; apply IHd; auto; lia).
Qed.

(** Surjectivity. *)
Lemma ptime_surj d t : 1 <= t <= pow2 d - 1 -> exists v, valid_path d v /\ ptime d v = t.
Proof.
  revert t; induction d; intros t Ht.
  - rewrite pow2_0 in Ht. lia.
  - rewrite pow2_S in Ht.
    destruct (N.eq_dec t 1) as [->|H1].
    + exists []. split; [apply valid_nil; lia | reflexivity].
    + destruct (N.le_gt_cases t (pow2 d)) as [Hle|Hgt].
      * destruct (IHd (t - 1)) as [v [Hv He]]; [lia|].
        exists (1 :: v). split; [apply valid_cons; [left; auto|auto]|].
        simpl. lia.
      * destruct (IHd (t - pow2 d)) as [v [Hv He]]; [lia|].
        exists (2 :: v). split; [apply valid_cons; [right; auto|auto]|].
        simpl. lia.
Qed.

(** Concatenation of paths. *)
Lemma ptime_app d u w :
  valid_path d (u ++ w) -> ptime d (u ++ w) = ptime d u + ptime (d - length u) w - 1.
Proof.
  revert u; induction d; intros u Hv; [destruct (valid_not0 _ Hv)|].
  destruct u as [|x u].
  - simpl app. simpl length. rewrite Nat.sub_0_r. pose proof (ptime_ge1 (S d) w).
    change (ptime (S d) []) with 1. lia.
  - simpl app in *. apply valid_cons_inv in Hv as [Hx Hv].
    specialize (IHd _ Hv). simpl length. rewrite Nat.sub_succ.
    change (ptime (S d) (x :: u ++ w)) with (if x =? 2 then pow2 d + ptime d (u ++ w) else 1 + ptime d (u ++ w)).
    change (ptime (S d) (x :: u)) with (if x =? 2 then pow2 d + ptime d u else 1 + ptime d u).
    rewrite IHd. pose proof (ptime_ge1 d u). pose proof (ptime_ge1 (d - length u) w).
    destruct (x =? 2); lia.
Qed.

Lemma valid_app_l d u w : valid_path d (u ++ w) -> valid_path d u.
Proof.
  intros [Hf Hl]. apply Forall_app in Hf as [Hf _]. rewrite app_length in Hl.
  split; [auto | lia].
Qed.
Lemma valid_app_r d u w : valid_path d (u ++ w) -> valid_path (d - length u) w.
Proof.
  intros [Hf Hl]. apply Forall_app in Hf as [_ Hf]. rewrite app_length in Hl.
  split; [auto | lia].
Qed.
Lemma valid_app d u w : valid_path d u -> valid_path (d - length u) w -> valid_path d (u ++ w).
Proof.
  intros [Hf Hl] [Hf' Hl']. split; [apply Forall_app; auto | rewrite app_length; lia].
Qed.

(** A descendant's number lies in the interval of the ancestor. *)
Lemma ptime_app_interval d u w :
  valid_path d (u ++ w) ->
  ptime d u <= ptime d (u ++ w) /\
  ptime d (u ++ w) + psize d (u ++ w) <= ptime d u + psize d u.
Proof.
  intros Hv. rewrite ptime_app by auto.
  pose proof (valid_app_r _ _ _ Hv) as Hw.
  pose proof (ptime_ge1 (d - length u) w). pose proof (ptime_ge1 d u).
  pose proof (ptime_psize_le _ _ Hw).
  unfold psize in *. rewrite app_length. rewrite Nat.sub_add_distr.
  pose proof (pow2_pos (d - length u)). pose proof (pow2_pos (d - length u - length w)).
  lia.
Qed.

(** Conversely a number in the interval of [u] is that of a descendant. *)
Lemma interval_prefix d u v :
  valid_path d u -> valid_path d v ->
  ptime d u <= ptime d v < ptime d u + psize d u -> exists w, v = u ++ w.
Proof.
  intros Hu Hv Hi.
  destruct (ptime_surj (d - length u) (ptime d v - ptime d u + 1)) as [w [Hw He]].
  { unfold psize in Hi. pose proof (pow2_pos (d - length u)). lia. }
  exists w. apply (ptime_inj d); auto.
  - apply valid_app; auto.
  - rewrite ptime_app by (apply valid_app; auto). rewrite He.
    pose proof (ptime_ge1 d u). lia.
Qed.

(** * preorder *)

Lemma preorder_length d : N.of_nat (length (preorder d)) = pow2 d - 1.
Proof.
  induction d; [reflexivity|].
  rewrite pow2_S. cbn [preorder length]. rewrite app_length, !map_length.
  pose proof (pow2_pos d). lia.
Qed.

Lemma node_at_ptime d t v : node_at d t v <-> valid_path d v /\ t = ptime d v.
Proof.
  unfold node_at. revert t v; induction d; intros t v.
  - simpl. split.
    + intros [_ H]. destruct (N.to_nat (t - 1)); discriminate.
    + intros [H _]. destruct (valid_not0 _ H).
  - pose proof (preorder_length d) as Hlen. pose proof (pow2_pos d) as Hp.
    simpl preorder. split.
    + intros [H1 H].
      destruct (N.to_nat (t - 1)) as [|k] eqn:Ek.
      * simpl in H. inversion H; subst. split; [apply valid_nil; lia|]. simpl. lia.
      * simpl in H. destruct (Nat.lt_ge_cases k (length (preorder d))) as [Hk|Hk].
        -- rewrite nth_error_app1 in H by (rewrite map_length; auto).
           rewrite nth_error_map in H. destruct (nth_error (preorder d) k) as [w|] eqn:Ew; [|discriminate].
           simpl in H. inversion H; subst v.
           destruct (IHd (N.of_nat k + 1) w) as [IH _].
           destruct IH as [Hv He].
           { split; [lia|]. replace (N.to_nat (N.of_nat k + 1 - 1)) with k by lia. auto. }
           split; [apply valid_cons; [left; auto | auto]|]. simpl. lia.
        -- rewrite nth_error_app2 in H by (rewrite map_length; auto).
           rewrite nth_error_map, map_length in H.
           destruct (nth_error (preorder d) (k - length (preorder d))) as [w|] eqn:Ew; [|discriminate].
           simpl in H. inversion H; subst v.
           destruct (IHd (N.of_nat (k - length (preorder d)) + 1) w) as [IH _].
           destruct IH as [Hv He].
           { split; [lia|].
             replace (N.to_nat (N.of_nat (k - length (preorder d)) + 1 - 1))
               with (k - length (preorder d))%nat by lia. auto. }
           split; [apply valid_cons; [right; auto | auto]|]. simpl. lia.
    + intros [Hv ->]. split; [apply ptime_ge1|].
      destruct v as [|x v]; [reflexivity|].
      apply valid_cons_inv in Hv as [Hx Hv].
      destruct (IHd (ptime d v) v) as [_ IH].
      destruct IH as [_ IH]; [auto|].
      pose proof (ptime_ge1 d v). pose proof (ptime_le _ _ Hv).
      destruct Hx as [-> | ->].
      * replace (N.to_nat (ptime (S d) (1 :: v) - 1)) with (S (N.to_nat (ptime d v - 1)))
          by (simpl; lia).
        simpl. rewrite nth_error_app1 by (rewrite map_length; lia).
        rewrite nth_error_map, IH. reflexivity.
      * replace (N.to_nat (ptime (S d) (2 :: v) - 1))
          with (S (length (preorder d) + N.to_nat (ptime d v - 1)))%nat by (simpl; lia).
        simpl. rewrite nth_error_app2 by (rewrite map_length; lia).
        rewrite map_length.
        replace (length (preorder d) + N.to_nat (ptime d v - 1) - length (preorder d))%nat
          with (N.to_nat (ptime d v - 1)) by lia.
        rewrite nth_error_map, IH. reflexivity.
Qed.

Lemma node_at_fun d t u v : node_at d t u -> node_at d t v -> u = v.
Proof. intros [_ H] [_ H']. congruence. Qed.

Lemma node_at_inj d t s v : node_at d t v -> node_at d s v -> t = s.
Proof. rewrite !node_at_ptime. intros [_ ->] [_ ->]. reflexivity. Qed.

Lemma node_at_range d t v : node_at d t v -> 1 <= t <= last_time d.
Proof.
  rewrite node_at_ptime. intros [Hv ->]. split; [apply ptime_ge1 | apply ptime_le; auto].
Qed.

Lemma node_at_ex d t : 1 <= t <= last_time d -> exists v, node_at d t v.
Proof.
  intros H. destruct (ptime_surj d t H) as [v [Hv He]]. exists v.
  apply node_at_ptime. auto.
Qed.

(** * time_to_vec *)

Lemma shl64_ok m d : (d < 64)%nat -> shl64 m d = Ok (pow2 d).
Proof. intros. unfold shl64. destruct (Nat.ltb_spec d 64); [auto|lia]. Qed.
Lemma sub64_ok m a b : b <= a -> sub64 m a b = Ok (a - b).
Proof. intros. unfold sub64. destruct (N.leb_spec b a); [auto|lia]. Qed.
Lemma add64_ok m a b : a + b < two64 -> add64 m a b = Ok (a + b).
Proof. intros. unfold add64. destruct (N.ltb_spec (a + b) two64); [auto|lia]. Qed.
Lemma mul64_ok m a b : a * b < two64 -> mul64 m a b = Ok (a * b).
Proof. intros. unfold mul64. destruct (N.ltb_spec (a * b) two64); [auto|lia]. Qed.

Lemma time_to_vec_ptime m d v :
  (d < 64)%nat -> valid_path d v -> time_to_vec m (ptime d v) d = Ok v.
Proof.
  revert v; induction d; intros v Hd Hv; [destruct (valid_not0 _ Hv)|].
  pose proof (ptime_le _ _ Hv). pose proof (ptime_ge1 (S d) v). pose proof (pow2_pos d).
  cbn [time_to_vec]. rewrite ?shl64_ok by lia. cbn [bind].
  destruct (N.ltb_spec (pow2 (S d)) (ptime (S d) v)); [lia|].
  destruct (N.eqb_spec (ptime (S d) v) 0); [lia|].
  cbn [orb].
  destruct v as [|x v]; [reflexivity|].
  apply valid_cons_inv in Hv as [Hx Hv].
  pose proof (ptime_le _ _ Hv). pose proof (ptime_ge1 d v).
  rewrite ?shl64_ok by lia. cbn [bind].
  destruct Hx as [-> | ->]; cbn [ptime] in *; cbn [N.eqb Pos.eqb] in *.
  - destruct (N.eqb_spec (1 + ptime d v) 1); [lia|].
    destruct (N.ltb_spec (pow2 d) (1 + ptime d v)); [lia|].
    rewrite sub64_ok by lia. cbn [bind].
    replace (1 + ptime d v - 1) with (ptime d v) by lia.
    rewrite IHd by (auto; lia). reflexivity.
  - destruct (N.eqb_spec (pow2 d + ptime d v) 1); [lia|].
    destruct (N.ltb_spec (pow2 d) (pow2 d + ptime d v)); [|lia].
    rewrite sub64_ok by lia. cbn [bind].
    replace (pow2 d + ptime d v - pow2 d) with (ptime d v) by lia.
    rewrite IHd by (auto; lia). reflexivity.
Qed.

Lemma time_to_vec_spec m d t v :
  (d < 64)%nat -> (time_to_vec m t d = Ok v <-> node_at d t v).
Proof.
  intros Hd. split.
  - intros H. apply node_at_ptime. revert t v Hd H.
    induction d; intros t v Hd H; [discriminate|].
    pose proof (pow2_pos d).
    cbn [time_to_vec] in H. rewrite ?shl64_ok in H by lia. cbn [bind] in H.
    destruct (N.ltb_spec (pow2 (S d)) t); [discriminate|].
    destruct (N.eqb_spec t 0); [discriminate|]. cbn [orb] in H.
    destruct (N.eqb_spec t 1).
    { inversion H; subst. split; [apply valid_nil; lia | reflexivity]. }
    rewrite ?shl64_ok in H by lia. cbn [bind] in H.
    destruct (N.ltb_spec (pow2 d) t).
    + rewrite sub64_ok in H by lia. cbn [bind] in H.
      destruct (time_to_vec m (t - pow2 d) d) as [w| |] eqn:Ew; try discriminate.
      cbn [bind] in H. inversion H; subst.
      apply IHd in Ew as [Hw He]; [|lia].
      split; [apply valid_cons; [right; auto|auto]|]. simpl. lia.
    + rewrite sub64_ok in H by lia. cbn [bind] in H.
      destruct (time_to_vec m (t - 1) d) as [w| |] eqn:Ew; try discriminate.
      cbn [bind] in H. inversion H; subst.
      apply IHd in Ew as [Hw He]; [|lia].
      split; [apply valid_cons; [left; auto|auto]|]. simpl. lia.
  - intros H. apply node_at_ptime in H as [Hv ->]. apply time_to_vec_ptime; auto.
Qed.

Lemma time_to_vec_no_panic m d t p : (d < 64)%nat -> time_to_vec m t d <> Panic p.
Proof.
  revert t; induction d; intros t Hd; [discriminate|].
  cbn [time_to_vec]. rewrite ?shl64_ok by lia. cbn [bind].
  destruct ((pow2 (S d) <? t) || (t =? 0)) eqn:Eg; [discriminate|].
  destruct (t =? 1) eqn:E1; [discriminate|].
  rewrite ?shl64_ok by lia. cbn [bind].
  destruct (N.ltb_spec (pow2 d) t); rewrite sub64_ok by lia; cbn [bind].
  - specialize (IHd (t - pow2 d)). destruct (time_to_vec m (t - pow2 d) d); cbn; try discriminate.
    intros E; inversion E; subst. apply IHd; [lia|auto].
  - specialize (IHd (t - 1)). destruct (time_to_vec m (t - 1) d); cbn; try discriminate.
    intros E; inversion E; subst. apply IHd; [lia|auto].
Qed.

Lemma time_to_vec_mode m m' d t : (d < 64)%nat -> time_to_vec m t d = time_to_vec m' t d.
Proof.
  revert t; induction d; intros t Hd; [reflexivity|].
  cbn [time_to_vec]. rewrite ?shl64_ok by lia. cbn [bind].
  destruct ((pow2 (S d) <? t) || (t =? 0)) eqn:Eg; [reflexivity|].
  destruct (t =? 1) eqn:E1; [reflexivity|].
  rewrite ?shl64_ok by lia. cbn [bind].
  destruct (N.ltb_spec (pow2 d) t); rewrite !sub64_ok by lia; cbn [bind];
    rewrite IHd by lia; reflexivity.
Qed.

(** Which error: exact behaviour on bad stamps. *)
Lemma time_to_vec_err m d t :
  (d < 64)%nat -> ~ (1 <= t <= last_time d) ->
  time_to_vec m t d = Err (if (d =? 0)%nat || (t =? pow2 d) then E_TIME_DEPTH else E_TIME_STAMP).
Proof.
  unfold last_time. revert t; induction d; intros t Hd Ht; [reflexivity|].
  pose proof (pow2_pos d). pose proof (pow2_S d).
  cbn [time_to_vec]. rewrite ?shl64_ok by lia. cbn [bind].
  cbn [Nat.eqb orb].
  destruct (N.ltb_spec (pow2 (S d)) t).
  { cbn [orb]. destruct (N.eqb_spec t (pow2 (S d))); [lia|reflexivity]. }
  destruct (N.eqb_spec t 0).
  { cbn [orb]. destruct (N.eqb_spec t (pow2 (S d))); [lia|reflexivity]. }
  cbn [orb].
  destruct (N.eqb_spec t 1); [lia|].
  assert (t = pow2 (S d)) by lia. subst t.
  rewrite N.eqb_refl.
  rewrite ?shl64_ok by lia. cbn [bind].
  destruct (N.ltb_spec (pow2 d) (pow2 (S d))); [|lia].
  rewrite sub64_ok by lia. cbn [bind].
  replace (pow2 (S d) - pow2 d) with (pow2 d) by lia.
  rewrite IHd by lia. rewrite N.eqb_refl, orb_true_r. reflexivity.
Qed.

Lemma tv_init_ok m d t v :
  (d < 64)%nat -> (tv_init m t d = Ok (TimeVec t v) <-> node_at d t v).
Proof.
  intros Hd. rewrite <- (time_to_vec_spec m) by auto. unfold tv_init.
  destruct (time_to_vec m t d); cbn; split; intros E; inversion E; reflexivity.
Qed.

Lemma tv_init_time m d t tv : tv_init m t d = Ok tv -> tv_time tv = t.
Proof.
  unfold tv_init. destruct (time_to_vec m t d); cbn; intros E; inversion E; reflexivity.
Qed.

Lemma tv_init_node m d t tv :
  (d < 64)%nat -> tv_init m t d = Ok tv -> tv_time tv = t /\ node_at d t (tv_vec tv).
Proof.
  intros Hd H. pose proof (tv_init_time _ _ _ _ H) as Ht. split; [auto|].
  apply (tv_init_ok m); auto. destruct tv; simpl in *; subst; auto.
Qed.

Lemma tv_init_err m d t :
  (d < 64)%nat -> ~ (1 <= t <= last_time d) ->
  tv_init m t d = Err (if (d =? 0)%nat || (t =? pow2 d) then E_TIME_DEPTH else E_TIME_STAMP).
Proof. intros Hd Ht. unfold tv_init. rewrite time_to_vec_err by auto. reflexivity. Qed.

Lemma tv_init_ex m d t :
  (d < 64)%nat -> 1 <= t <= last_time d ->
  exists v, node_at d t v /\ tv_init m t d = Ok (TimeVec t v).
Proof.
  intros Hd Ht. destruct (node_at_ex _ _ Ht) as [v Hv]. exists v. split; auto.
  apply tv_init_ok; auto.
Qed.

(** * vec_to_time *)

Lemma vec_to_time_ptime m d v :
  (d < 64)%nat -> valid_path d v -> vec_to_time m v d = Ok (ptime d v).
Proof.
  revert v; induction d; intros v Hd Hv; [destruct (valid_not0 _ Hv)|].
  destruct v as [|x v]; [reflexivity|].
  apply valid_cons_inv in Hv as [Hx Hv].
  pose proof (ptime_le _ _ Hv). pose proof (ptime_ge1 d v). pose proof (pow2_pos d).
  pose proof (pow2_lt64 (S d) Hd). rewrite pow2_S in *.
  cbn [vec_to_time].
  destruct Hx as [-> | ->];
    repeat first [ progress cbn [bind] | rewrite shl64_ok by lia | rewrite sub64_ok by lia
                 | rewrite mul64_ok by lia | rewrite IHd by (auto; lia)
                 | rewrite add64_ok by lia ];
    f_equal; simpl; lia.
Qed.

(** * is_prefix *)

Lemma starts_with_spec l p : starts_with l p = true <-> exists w, l = p ++ w.
Proof.
  revert l; induction p as [|x p IH]; intros l; simpl.
  - split; [intros _; exists l; reflexivity | reflexivity].
  - destruct l as [|y l].
    + split; [discriminate | intros [w H]; discriminate].
    + rewrite andb_true_iff, IH, N.eqb_eq. split.
      * intros [-> [w ->]]. exists w. reflexivity.
      * intros [w H]. inversion H; subst. eauto.
Qed.

Lemma is_prefix_spec d ta va tb vb :
  node_at d ta va -> node_at d tb vb ->
  (tv_is_prefix (TimeVec ta va) (TimeVec tb vb) = true <-> strictly_below d ta tb).
Proof.
  intros Ha Hb. unfold tv_is_prefix. cbn [tv_time tv_vec].
  split.
  - destruct (N.leb_spec tb ta); [discriminate|]. intros Hs.
    apply starts_with_spec in Hs as [w ->].
    exists va, w. split; [|split; [exact Ha|exact Hb]].
    intros ->. rewrite app_nil_r in Hb. pose proof (node_at_inj _ _ _ _ Ha Hb). lia.
  - intros (va' & w & Hw & Ha' & Hb').
    pose proof (node_at_fun _ _ _ _ Ha Ha'). subst va'.
    pose proof (node_at_fun _ _ _ _ Hb Hb'). subst vb.
    destruct (N.leb_spec tb ta) as [Hle|Hlt].
    + apply node_at_ptime in Ha as [Ha ->]. apply node_at_ptime in Hb as [Hb ->].
      pose proof (ptime_app_interval _ _ _ Hb) as [H1 H2].
      assert (ptime d va = ptime d (va ++ w)) as He by lia.
      apply ptime_inj in He; auto. exfalso. apply Hw.
      rewrite <- (app_nil_r va) in He at 1. apply app_inv_head in He. auto.
    + apply starts_with_spec. eauto.
Qed.

(** Subtrees are intervals. *)
Lemma below_interval d a va t :
  node_at d a va ->
  (below d a t <-> a <= t < a + (pow2 (d - length va) - 1)).
Proof.
  intros Ha. split.
  - intros (va' & w & Ha' & Ht). pose proof (node_at_fun _ _ _ _ Ha Ha'); subst va'.
    apply node_at_ptime in Ha as [Ha ->]. apply node_at_ptime in Ht as [Ht ->].
    pose proof (ptime_app_interval _ _ _ Ht) as [H1 H2].
    pose proof (psize_ge1 _ _ Ht). unfold psize in *. lia.
  - intros Hi. pose proof Ha as Ha0. apply node_at_ptime in Ha as [Ha ->].
    pose proof (ptime_psize_le _ _ Ha). unfold psize in *.
    pose proof (ptime_ge1 d va).
    destruct (node_at_ex d t) as [v Hv]; [unfold last_time; lia|].
    pose proof Hv as Hv0. apply node_at_ptime in Hv as [Hv He]. subst t.
    destruct (interval_prefix d va v) as [w ->]; auto.
    exists va, w. auto.
Qed.

Lemma strictly_below_interval d a va t :
  node_at d a va ->
  (strictly_below d a t <-> a < t < a + (pow2 (d - length va) - 1)).
Proof.
  intros Ha. split.
  - intros (va' & w & Hw & Ha' & Ht). pose proof (node_at_fun _ _ _ _ Ha Ha'); subst va'.
    assert (below d a t) as Hb by (exists va, w; auto).
    apply (below_interval _ _ _ _ Ha) in Hb.
    assert (a <> t); [|lia]. intros ->.
    pose proof (node_at_fun _ _ _ _ Ha Ht) as He.
    rewrite <- (app_nil_r va) in He at 1. apply app_inv_head in He. auto.
  - intros Hi. assert (below d a t) as Hb by (apply (below_interval _ _ _ _ Ha); lia).
    destruct Hb as (va' & w & Ha' & Ht). exists va', w. split; [|split; [exact Ha'|exact Ht]].
    intros ->. rewrite app_nil_r in Ht. pose proof (node_at_inj _ _ _ _ Ha' Ht). lia.
Qed.

Lemma below_refl d t : 1 <= t <= last_time d -> below d t t.
Proof.
  intros H. destruct (node_at_ex _ _ H) as [v Hv]. exists v, []. rewrite app_nil_r. auto.
Qed.

(** * Tilings *)

Lemma tiling_fun d t l l' : tiling d t l -> tiling d t l' -> l = l'.
Proof.
  intros H; revert l'. induction H; intros l' H'; inversion H'; subst; auto.
  - apply node_at_range in H. unfold last_time in H. pose proof (pow2_pos d). lia.
  - apply node_at_range in H. unfold last_time in H. pose proof (pow2_pos d). lia.
  - pose proof (node_at_fun _ _ _ _ H H1); subst. f_equal. auto.
Qed.

Lemma tiling_range d t l : (0 < d)%nat -> tiling d t l -> 1 <= t <= pow2 d.
Proof.
  intros Hd H. inversion H; subst.
  - pose proof (pow2_pos d). lia.
  - apply node_at_range in H0. unfold last_time in H0. lia.
Qed.

Lemma tiling_ge d t l : tiling d t l -> Forall (fun s => t <= s) l.
Proof.
  induction 1; constructor; [lia|].
  eapply Forall_impl; [|exact IHtiling]. simpl. intros a Ha. lia.
Qed.

Lemma node_size_pos d t v : node_at d t v -> 1 <= pow2 (d - length v) - 1.
Proof. rewrite node_at_ptime. intros [Hv _]. apply psize_ge1 in Hv. auto. Qed.

Lemma tiling_sorted d t l : tiling d t l -> StronglySorted N.lt l.
Proof.
  induction 1; constructor; auto.
  apply tiling_ge in H0. pose proof (node_size_pos _ _ _ H).
  eapply Forall_impl; [|exact H0]. simpl. intros a Ha. lia.
Qed.

Lemma tiling_nodes d t l : tiling d t l -> Forall (fun s => 1 <= s <= last_time d) l.
Proof. induction 1; constructor; auto. eapply node_at_range; eauto. Qed.

(** Every future stamp is below exactly one entry, no past stamp is below any. *)
Lemma tiling_cover d t l s :
  tiling d t l -> t <= s <= last_time d ->
  exists a, In a l /\ below d a s /\ forall a', In a' l -> below d a' s -> a' = a.
Proof.
  intros H. induction H as [|t v l Hn Ht IH]; intros Hs.
  - unfold last_time in Hs. pose proof (pow2_pos d). lia.
  - destruct (N.lt_ge_cases s (t + (pow2 (d - length v) - 1))) as [Hlt|Hge].
    + exists t. split; [left; auto|]. split; [apply (below_interval _ _ _ _ Hn); lia|].
      intros a' [<-|Hin] Hb; auto.
      apply tiling_ge in Ht. rewrite Forall_forall in Ht. specialize (Ht _ Hin).
      destruct Hb as (va & w & Ha & Hb).
      assert (below d a' s) as Hb' by (exists va, w; auto).
      apply (below_interval _ _ _ _ Ha) in Hb'. lia.
    + destruct IH as (a & Ha & Hb & Hu); [lia|].
      exists a. split; [right; auto|]. split; [auto|].
      intros a' [<-|Hin] Hb'; auto.
      apply (below_interval _ _ _ _ Hn) in Hb'. lia.
Qed.

Lemma tiling_no_past d t l a s : tiling d t l -> In a l -> below d a s -> t <= s.
Proof.
  intros H Hin Hb. apply tiling_ge in H. rewrite Forall_forall in H.
  specialize (H _ Hin). destruct Hb as (va & w & Ha & Hs).
  assert (below d a s) as Hb by (exists va, w; auto).
  apply (below_interval _ _ _ _ Ha) in Hb. lia.
Qed.

(** * gamma_list *)

(** Right siblings still to come, nearest first. *)
Fixpoint sibs (pre rest : path) (acc : list path) : list path :=
  match rest with
  | [] => acc
  | x :: rest' => sibs (pre ++ [x]) rest' (if x =? 1 then (pre ++ [2]) :: acc else acc)
  end.

Definition mk_tv (d : nat) (v : path) : timevec := TimeVec (ptime d v) v.

Lemma gamma_loop_sibs m d hd pre rest acc :
  (d < 64)%nat -> valid_path d (pre ++ rest) ->
  gamma_loop m d pre rest (hd :: map (mk_tv d) acc)
  = Ok (hd :: map (mk_tv d) (sibs pre rest acc)).
Proof.
  revert pre acc; induction rest as [|x rest IH]; intros pre acc Hd Hv; [reflexivity|].
  cbn [gamma_loop sibs].
  assert (valid_path d ((pre ++ [x]) ++ rest)) as Hv' by (rewrite <- app_assoc; exact Hv).
  destruct (x =? 1) eqn:Ex.
  - assert (valid_path d (pre ++ [2])) as Hv2.
    { apply valid_app_l in Hv'. destruct Hv' as [Hf Hl]. apply Forall_app in Hf as [Hf _].
      split; [apply Forall_app; split; [auto|constructor; [right; auto|constructor]]|].
      rewrite app_length in *. simpl in *. lia. }
    rewrite vec_to_time_ptime by auto. cbn [bind].
    unfold insert_at. cbn [length Nat.leb firstn skipn app bind].
    change (TimeVec (ptime d (pre ++ [2])) (pre ++ [2]) :: map (mk_tv d) acc)
      with (map (mk_tv d) ((pre ++ [2]) :: acc)).
    apply IH; auto.
  - cbn [bind]. apply IH; auto.
Qed.

(** Tiling by paths. *)
Inductive ptiling (d : nat) : N -> list path -> Prop :=
| ptile_end : ptiling d (pow2 d) []
| ptile_cons : forall v l,
    valid_path d v -> ptiling d (ptime d v + psize d v) l -> ptiling d (ptime d v) (v :: l).

Lemma ptiling_tiling d t l : ptiling d t l -> tiling d t (map (ptime d) l).
Proof.
  induction 1; [constructor|]. simpl. apply tile_cons with v.
  - apply node_at_ptime. auto.
  - exact IHptiling.
Qed.

Lemma ptime_snoc d v x :
  turn x -> valid_path d (v ++ [x]) ->
  ptime d (v ++ [x]) = if x =? 2 then ptime d v + pow2 (d - length v - 1) else ptime d v + 1.
Proof.
  intros Hx Hv. rewrite ptime_app by auto. apply valid_app_r in Hv.
  destruct (d - length v)%nat as [|k] eqn:E; [destruct (valid_not0 _ Hv)|].
  pose proof (ptime_ge1 d v).
  replace (S k - 1)%nat with k by lia.
  cbn [ptime]. destruct (x =? 2); destruct k; cbn [ptime]; lia.
Qed.

Lemma sibs_tiling d pre rest acc :
  valid_path d (pre ++ rest) ->
  ptiling d (ptime d pre + psize d pre) acc ->
  ptiling d (ptime d (pre ++ rest)) ((pre ++ rest) :: sibs pre rest acc).
Proof.
  revert pre acc; induction rest as [|x rest IH]; intros pre acc Hv Ht.
  - cbn [sibs]. rewrite app_nil_r in *. constructor; auto.
  - cbn [sibs].
    assert (valid_path d ((pre ++ [x]) ++ rest)) as Hv' by (rewrite <- app_assoc; exact Hv).
    pose proof (valid_app_l _ _ _ Hv') as Hvx.
    assert (turn x) as Hx.
    { destruct Hvx as [Hf _]. apply Forall_app in Hf as [_ Hf]. inversion Hf; auto. }
    replace (pre ++ x :: rest) with ((pre ++ [x]) ++ rest) by (rewrite <- app_assoc; reflexivity).
    apply IH; auto.
    assert (psize d pre = 1 + 2 * psize d (pre ++ [x])) as Hsz.
    { unfold psize. rewrite app_length. simpl length.
      destruct Hvx as [_ Hl]. rewrite app_length in Hl. simpl in Hl.
      replace (d - length pre)%nat with (S (d - (length pre + 1))) by lia.
      rewrite pow2_S. pose proof (pow2_pos (d - (length pre + 1))). lia. }
    assert (psize d (pre ++ [x]) = pow2 (d - length pre - 1) - 1) as Hsz'.
    { unfold psize. rewrite app_length. simpl length. f_equal. f_equal. lia. }
    pose proof (pow2_pos (d - length pre - 1)).
    rewrite (ptime_snoc d pre x) by auto.
    destruct Hx as [-> | ->]; cbn [N.eqb Pos.eqb].
    + assert (valid_path d (pre ++ [2])) as Hv2.
      { destruct Hvx as [Hf Hl]. apply Forall_app in Hf as [Hf _].
        split; [apply Forall_app; split; [auto|constructor; [right; auto|constructor]]|].
        rewrite app_length in *. simpl in *. lia. }
      replace (ptime d pre + 1 + psize d (pre ++ [1])) with (ptime d (pre ++ [2])).
      2:{ rewrite ptime_snoc by (auto; right; auto). cbn [N.eqb Pos.eqb]. lia. }
      constructor; auto.
      replace (ptime d (pre ++ [2]) + psize d (pre ++ [2])) with (ptime d pre + psize d pre); auto.
      rewrite ptime_snoc by (auto; right; auto). cbn [N.eqb Pos.eqb].
      assert (psize d (pre ++ [2]) = psize d (pre ++ [1])) as ->.
      { unfold psize. rewrite !app_length. reflexivity. }
      lia.
    + replace (ptime d pre + pow2 (d - length pre - 1) + psize d (pre ++ [2]))
        with (ptime d pre + psize d pre); auto.
      lia.
Qed.

Lemma sibs_valid d pre rest acc :
  valid_path d (pre ++ rest) -> Forall (valid_path d) acc -> Forall (valid_path d) (sibs pre rest acc).
Proof.
  revert pre acc; induction rest as [|x rest IH]; intros pre acc Hv Ha; [auto|].
  cbn [sibs].
  assert (valid_path d ((pre ++ [x]) ++ rest)) as Hv' by (rewrite <- app_assoc; exact Hv).
  apply IH; auto.
  destruct (x =? 1); auto. constructor; auto.
  pose proof (valid_app_l _ _ _ Hv') as [Hf Hl]. apply Forall_app in Hf as [Hf _].
  split; [apply Forall_app; split; [auto|constructor; [right; auto|constructor]]|].
  rewrite app_length in *. simpl in *. lia.
Qed.

Lemma sibs_length pre rest acc : (length (sibs pre rest acc) <= length rest + length acc)%nat.
Proof.
  revert pre acc; induction rest as [|x rest IH]; intros pre acc; cbn [sibs]; [simpl; lia|].
  etransitivity; [apply IH|]. destruct (x =? 1); simpl; lia.
Qed.

Lemma gamma_list_spec m d t v :
  (d < 64)%nat -> node_at d t v ->
  exists l, gamma_list m (TimeVec t v) d = Ok (map (mk_tv d) l)
            /\ Forall (valid_path d) l /\ tiling d t (map (ptime d) l)
            /\ (length l <= d)%nat /\ exists l', l = v :: l'.
Proof.
  intros Hd Hn. apply node_at_ptime in Hn as [Hv ->].
  exists (v :: sibs [] v []). unfold gamma_list. cbn [tv_vec].
  change [TimeVec (ptime d v) v] with (TimeVec (ptime d v) v :: map (mk_tv d) []).
  rewrite gamma_loop_sibs by auto. split; [reflexivity|]. split; [|split; [|split]].
  - constructor; auto. apply sibs_valid; auto.
  - apply ptiling_tiling. apply (sibs_tiling d [] v []); auto.
    unfold psize. simpl length. rewrite Nat.sub_0_r.
    replace (ptime d [] + (pow2 d - 1)) with (pow2 d); [constructor|].
    pose proof (pow2_pos d). destruct d; cbn [ptime]; lia.
  - simpl. pose proof (sibs_length [] v []). destruct Hv as [_ Hl]. simpl in *. lia.
  - eauto.
Qed.

(** Every stamp in range has a tiling, and it is the gamma list. *)
Lemma tiling_ex d t : 1 <= t <= last_time d -> exists l, tiling d t (t :: l).
Proof.
  intros Ht. destruct (node_at_ex _ _ Ht) as [v Hn].
  apply node_at_ptime in Hn as [Hv ->].
  exists (map (ptime d) (sibs [] v [])).
  apply (ptiling_tiling d (ptime d v) (v :: sibs [] v [])).
  apply (sibs_tiling d [] v []); auto.
  unfold psize. simpl length. rewrite Nat.sub_0_r.
  replace (ptime d [] + (pow2 d - 1)) with (pow2 d); [constructor|].
  pose proof (pow2_pos d). destruct d; cbn [ptime]; lia.
Qed.

(** A tiling started inside a subtree reaches the end of that subtree. *)
Lemma tiling_through d a va t l :
  node_at d a va -> a <= t < a + (pow2 (d - length va) - 1) -> tiling d t l ->
  exists pre post, l = pre ++ post /\ pre <> [] /\ Forall (below d a) pre
                   /\ tiling d (a + (pow2 (d - length va) - 1)) post.
Proof.
  intros Ha Hi Ht. revert Hi. induction Ht as [|t v l Hn Ht IH]; intros Hi.
  - apply node_at_ptime in Ha as [Ha ->]. pose proof (ptime_psize_le _ _ Ha).
    unfold psize in *. lia.
  - assert (below d a t) as Hb by (apply (below_interval _ _ _ _ Ha); auto).
    destruct Hb as (va' & w & Ha' & Hb). pose proof (node_at_fun _ _ _ _ Ha Ha'); subst va'.
    pose proof (node_at_fun _ _ _ _ Hn Hb); subst v.
    assert (below d a t) as Hbel by (exists va, w; auto).
    apply node_at_ptime in Ha as [Hva Hae]. apply node_at_ptime in Hn as [Hvw Hte].
    pose proof (ptime_app_interval _ _ _ Hvw) as [H1 H2]. unfold psize in *.
    destruct (N.lt_ge_cases (t + (pow2 (d - length (va ++ w)) - 1)) (a + (pow2 (d - length va) - 1)))
      as [Hlt|Hge].
    + destruct IH as (pre & post & -> & Hne & Hf & Hpost).
      { subst. pose proof (psize_ge1 _ _ Hvw). lia. }
      exists (t :: pre), post. split; [reflexivity|]. split; [discriminate|].
      split; [constructor; auto|auto].
    + exists [t], l. split; [reflexivity|]. split; [discriminate|].
      split; [constructor; auto|].
      replace (a + (pow2 (d - length va) - 1)) with (t + (pow2 (d - length (va ++ w)) - 1)); auto.
      subst; lia.
Qed.
