(** Lemmas for C112: how many group operations there are. *)
From Coq Require Import ZifyBool ZifyN ZifyNat.
From Verif Require Import Base Env SpecTime Time TimeFacts SubKey SecretKey Keys Sig Api SpecKey SpecGrow KeyFacts HistoryFacts GrowProps OpTrace SpecOps OpsProps.
Local Open Scope N_scope.
Local Arguments N.add : simpl never.
Local Arguments N.sub : simpl never.
Local Arguments pow2 : simpl never.

Lemma count_app f a b : count f (a ++ b) = (count f a + count f b)%nat.
Proof. unfold count. rewrite filter_app, app_length. reflexivity. Qed.
Lemma count_times f n l : count f (times n l) = (n * count f l)%nat.
Proof. induction n as [|n IH]; [reflexivity|]. unfold times in *. cbn [repeat concat]. rewrite count_app, IH. reflexivity. Qed.
Lemma count_cons f o l : count f (o :: l) = ((if f o then 1 else 0) + count f l)%nat.
Proof. unfold count. cbn [filter]. destruct (f o); reflexivity. Qed.
Lemma count_path f v : f Add1 = false -> f Dbl1 = false -> count f (path_ops v) = 0%nat.
Proof.
  intros H1 H2. induction v as [|x v IH]; [reflexivity|]. unfold path_ops in *. cbn [flat_map]. rewrite count_app, IH.
  destruct (x =? 2); rewrite !count_cons, ?H1, ?H2; reflexivity.
Qed.
Definition cost1 (d : nat) (w : path) : nat := (1 + (d - length w))%nat.
Lemma count_rerand1 d w : count is_mul1 (rerand_ops d w) = cost1 d w.
Proof. unfold rerand_ops, cost1. rewrite !count_app, count_path, count_times by reflexivity. cbn. lia. Qed.
Lemma count_rerand2 d w : count is_mul2 (rerand_ops d w) = 1%nat.
Proof. unfold rerand_ops. rewrite !count_app, count_path, count_times by reflexivity. cbn. lia. Qed.
Lemma count_rerandp d w : count is_pair (rerand_ops d w) = 0%nat.
Proof. unfold rerand_ops. rewrite !count_app, count_path, count_times by reflexivity. cbn. lia. Qed.
Lemma count_flat f (g : path -> trace) l : count f (flat_map g l) = list_sum (map (fun w => count f (g w)) l).
Proof. induction l as [|w l IH]; [reflexivity|]. cbn [flat_map map list_sum fold_right]. rewrite count_app, IH. reflexivity. Qed.
Lemma count_update f d va vs : f Add1 = false -> f Dbl1 = false -> f Reseed = false ->
  count f (update_ops d va vs) = list_sum (map (fun w => count f (rerand_ops d w)) (tl vs)).
Proof.
  intros H1 H2 H3. unfold update_ops. rewrite count_cons, H3. destruct vs as [|v vs]; [reflexivity|]. cbn [tl]. rewrite count_app, count_path, count_flat by assumption.
  cbn [Nat.add]. f_equal. apply map_ext. intros w. rewrite count_app, count_path by assumption. reflexivity.
Qed.

(** * The left turns on the way and their right siblings *)
Fixpoint left_pre (pre v : path) : list path :=
  match v with
  | [] => []
  | x :: v' => left_pre (pre ++ [x]) v' ++ (if x =? 1 then [pre ++ [1]] else [])
  end.
Definition sib (u : path) : path := removelast u ++ [2].
Lemma sib_snoc pre : sib (pre ++ [1]) = pre ++ [2].
Proof. unfold sib. rewrite removelast_last. reflexivity. Qed.
Lemma sibs_left : forall v pre, right_sibs pre v = map sib (left_pre pre v).
Proof.
  induction v as [|x v IH]; intros pre; [reflexivity|]. cbn [right_sibs left_pre]. rewrite map_app, IH. f_equal.
  destruct (x =? 1); [cbn [map]; rewrite sib_snoc|]; reflexivity.
Qed.
Lemma in_left_pre : forall v pre u, In u (left_pre pre v) <-> exists a s, v = a ++ 1 :: s /\ u = pre ++ a ++ [1].
Proof.
  induction v as [|x v IH]; intros pre u; cbn [left_pre].
  - split; [intros []|]. intros (a & s & H & _). destruct a; discriminate H.
  - rewrite in_app_iff, IH. split.
    + intros [(a & s & -> & ->)|H].
      * exists (x :: a), s. split; [reflexivity|]. rewrite <- app_assoc. reflexivity.
      * destruct (N.eqb_spec x 1) as [->|]; [|destruct H]. destruct H as [<-|[]]. exists [], v. auto.
    + intros (a & s & H & ->). destruct a as [|y a]; cbn [app] in H; injection H as -> ->.
      * right. left. reflexivity.
      * left. exists a, s. split; [reflexivity|]. rewrite <- app_assoc. reflexivity.
Qed.
Lemma left_pre_len : forall v pre u, In u (left_pre pre v) -> (length pre < length u)%nat.
Proof. intros v pre u H. apply in_left_pre in H as (a & s & _ & ->). rewrite !app_length. cbn [length]. lia. Qed.
Lemma left_pre_nodup : forall v pre, NoDup (left_pre pre v).
Proof.
  induction v as [|x v IH]; intros pre; cbn [left_pre]; [constructor|]. destruct (x =? 1); [|rewrite app_nil_r; apply IH].
  apply NoDup_Add with (a := pre ++ [1]) (l := left_pre (pre ++ [x]) v); [rewrite <- (app_nil_r (left_pre (pre ++ [x]) v)) at 1; apply Add_app|].
  split; [apply IH|]. intros H. apply left_pre_len in H. rewrite !app_length in H. cbn [length] in H. lia.
Qed.
Lemma in_sibs v w : In w (right_sibs [] v) <-> exists a s, v = a ++ 1 :: s /\ w = a ++ [2].
Proof.
  rewrite sibs_left, in_map_iff. split.
  - intros (u & <- & H). apply in_left_pre in H as (a & s & H & ->). exists a, s. split; [exact H|]. cbn [app]. apply sib_snoc.
  - intros (a & s & H & ->). exists (a ++ [1]). split; [apply sib_snoc|]. apply in_left_pre. exists a, s. auto.
Qed.
Lemma existsb_path w l : existsb (path_eqb w) l = true <-> In w l.
Proof.
  rewrite existsb_exists. split.
  - intros (u & H & He). apply path_eqb_spec in He as ->. exact H.
  - intros H. exists w. split; [exact H|]. apply path_eqb_spec. reflexivity.
Qed.
Lemma filter_none {A} (f : A -> bool) l : (forall x, In x l -> f x = false) -> filter f l = [].
Proof.
  induction l as [|x l IH]; intros H; [reflexivity|]. cbn [filter]. rewrite (H x (or_introl eq_refl)). apply IH. intros y Hy. apply H. right. exact Hy.
Qed.
Definition fresh (v w : path) : bool := negb (existsb (path_eqb w) (key_paths v)).
Lemma tl_new v v' : tl (new_paths v v') = filter (fresh v) (right_sibs [] v').
Proof.
  unfold new_paths. fold (fresh v). cbn [key_paths filter]. destruct (fresh v v') eqn:Hf; [reflexivity|].
  assert (Hnone : filter (fresh v) (right_sibs [] v') = []); [|rewrite Hnone; reflexivity].
  unfold fresh in Hf. apply negb_false_iff, existsb_path in Hf. apply filter_none. intros w Hw. unfold fresh. apply negb_false_iff, existsb_path.
  apply in_sibs in Hw as (a & s & Hv' & ->). destruct Hf as [->|Hf]; [right; apply in_sibs; eauto|]. right.
  apply in_sibs in Hf as (b & s' & -> & Hv2). apply in_sibs.
  assert (Hab : exists c, b = a ++ 1 :: c).
  { rewrite Hv' in Hv2. destruct s as [|y s _] using rev_ind.
    - apply app_inj_tail in Hv2 as [_ Hx]. discriminate Hx.
    - exists s. change (a ++ 1 :: s ++ [y]) with (a ++ (1 :: s) ++ [y]) in Hv2. rewrite app_assoc in Hv2. apply app_inj_tail in Hv2 as [<- _]. reflexivity. }
  destruct Hab as [c ->]. exists a, (c ++ 1 :: s'). split; [|reflexivity]. rewrite <- app_assoc. reflexivity.
Qed.
Lemma filter_map {A B} (f : B -> bool) (g : A -> B) l : filter f (map g l) = map g (filter (fun x => f (g x)) l).
Proof. induction l as [|x l IH]; [reflexivity|]. cbn [map filter]. rewrite IH. destruct (f (g x)); reflexivity. Qed.
Lemma sib_len u : u <> [] -> length (sib u) = length u.
Proof. intros H. destruct u as [|x u _] using rev_ind; [contradiction|]. unfold sib. rewrite removelast_last, !app_length. reflexivity. Qed.
Lemma count_move1 d v v' : count is_mul1 (move_ops d v v') = list_sum (map (cost1 d) (filter (fun u => fresh v (sib u)) (left_pre [] v'))).
Proof.
  unfold move_ops. rewrite count_update, tl_new, sibs_left, filter_map, map_map by reflexivity. f_equal. apply map_ext_in.
  intros u Hu. apply filter_In in Hu as [Hu _]. rewrite count_rerand1. unfold cost1. rewrite sib_len; [reflexivity|]. intros ->. apply left_pre_len in Hu. cbn in Hu. lia.
Qed.
Lemma list_sum_ones {A} (l : list A) : list_sum (map (fun _ => 1%nat) l) = length l.
Proof. induction l as [|x l IH]; [reflexivity|]. cbn [map list_sum fold_right length]. unfold list_sum in IH. rewrite IH. reflexivity. Qed.
Lemma count_move2 d v v' : count is_mul2 (move_ops d v v') = length (filter (fun u => fresh v (sib u)) (left_pre [] v')).
Proof.
  unfold move_ops. rewrite count_update, tl_new, sibs_left, filter_map, map_map by reflexivity. rewrite <- list_sum_ones. f_equal. apply map_ext.
  intros u. apply count_rerand2.
Qed.
Lemma count_movep d v v' : count is_pair (move_ops d v v') = 0%nat.
Proof.
  unfold move_ops. rewrite count_update by reflexivity. induction (tl (new_paths v v')) as [|w l IH]; [reflexivity|]. cbn [map list_sum fold_right]. rewrite count_rerandp. exact IH.
Qed.

(** * One update *)
Lemma sum_filter {A} (g : A -> nat) (f : A -> bool) l : (list_sum (map g (filter f l)) <= list_sum (map g l))%nat.
Proof. unfold list_sum. induction l as [|x l IH]; [reflexivity|]. cbn [filter map fold_right]. destruct (f x); cbn [map fold_right]; lia. Qed.
Lemma sum_left d : forall v pre, (length pre + length v < d)%nat ->
  (2 * list_sum (map (cost1 d) (left_pre pre v)) <= (d - length pre - 1) * (d - length pre + 2))%nat.
Proof.
  induction v as [|x v IH]; intros pre H; cbn [left_pre]; [apply Nat.le_0_l|]. cbn [length] in H. specialize (IH (pre ++ [x])). rewrite app_length in IH. cbn [length] in IH.
  specialize (IH ltac:(lia)). rewrite map_app, list_sum_app.
  assert (Hx : (list_sum (map (cost1 d) (if (x =? 1)%N then [pre ++ [1%N]] else [])) <= d - length pre)%nat).
  { destruct (x =? 1); [|cbn; lia]. cbn [map list_sum fold_right]. unfold cost1. rewrite app_length. cbn [length]. lia. }
  set (n := (d - length pre)%nat) in *. replace (d - (length pre + 1))%nat with (n - 1)%nat in IH by lia.
  assert (2 <= n)%nat by lia. destruct n as [|[|n]]; [lia|lia|]. replace (S (S n) - 1 - 1)%nat with n in IH by lia. replace (S (S n) - 1)%nat with (S n) in * by lia. nia.
Qed.
Lemma left_pre_count : forall v pre, (length (left_pre pre v) <= length v)%nat.
Proof. induction v as [|x v IH]; intros pre; [reflexivity|]. cbn [left_pre length]. rewrite app_length. specialize (IH (pre ++ [x])). destruct (x =? 1); cbn [length]; lia. Qed.
Lemma filter_len {A} (f : A -> bool) l : (length (filter f l) <= length l)%nat.
Proof. induction l as [|x l IH]; [reflexivity|]. cbn [filter length]. destruct (f x); cbn [length]; lia. Qed.
Lemma move_bound d v v' : (length v' < d)%nat ->
  (2 * count is_mul1 (move_ops d v v') <= (d - 1) * (d + 2) /\ count is_mul2 (move_ops d v v') <= d - 1)%nat.
Proof.
  intros H. rewrite count_move1, count_move2. split.
  - pose proof (sum_left d v' [] H) as H1. cbn [length] in H1. rewrite Nat.sub_0_r in H1.
    pose proof (sum_filter (cost1 d) (fun u => fresh v (sib u)) (left_pre [] v')). lia.
  - pose proof (filter_len (fun u => fresh v (sib u)) (left_pre [] v')). pose proof (left_pre_count v' []). lia.
Qed.
Lemma filter_all {A} (f : A -> bool) l : (forall x, In x l -> f x = true) -> filter f l = l.
Proof.
  induction l as [|x l IH]; intros H; [reflexivity|]. cbn [filter]. rewrite (H x (or_introl eq_refl)). f_equal. apply IH. intros y Hy. apply H. right. exact Hy.
Qed.
Lemma left_all d : forall n pre, (length pre + n + 1 = d)%nat -> (2 * list_sum (map (cost1 d) (left_pre pre (repeat 1%N n))) = n * (n + 3))%nat.
Proof.
  induction n as [|n IH]; intros pre H; [reflexivity|]. cbn [repeat left_pre N.eqb Pos.eqb]. rewrite map_app, list_sum_app. specialize (IH (pre ++ [1])).
  rewrite app_length in IH. cbn [length] in IH. specialize (IH ltac:(lia)). cbn [map list_sum fold_right]. unfold cost1 at 2. rewrite app_length. cbn [length].
  replace (1 + (d - (length pre + 1)))%nat with (n + 2)%nat by lia. nia.
Qed.
Lemma move_reached d : (1 <= d)%nat -> (2 * count is_mul1 (move_ops d [] (repeat 1%N (d - 1))) = (d - 1) * (d + 2))%nat.
Proof.
  intros Hd. rewrite count_move1, filter_all.
  - pose proof (left_all d (d - 1) [] ltac:(cbn [length]; lia)) as H. rewrite H. f_equal. lia.
  - intros u _. unfold fresh. apply negb_true_iff. destruct (existsb _ _) eqn:He; [|reflexivity]. apply existsb_path in He. destruct He as [He|[]].
    unfold sib in He. symmetry in He. apply app_eq_nil in He as [_ He]. discriminate He.
Qed.

(** * Many updates *)
(** What the nodes after [t] cost. *)
Definition rest (f : path -> nat) (d : nat) (t : N) : nat := list_sum (map f (skipn (N.to_nat t) (preorder d))).
Lemma sum_incl {A} (g : A -> nat) : forall F l, NoDup F -> incl F l -> (list_sum (map g F) <= list_sum (map g l))%nat.
Proof.
  induction F as [|x F IH]; intros l Hn Hi; [apply Nat.le_0_l|]. inversion Hn as [|? ? Hx HF]; subst.
  destruct (in_split x l (Hi x (or_introl eq_refl))) as (l1 & l2 & ->).
  assert (H : incl F (l1 ++ l2)).
  { intros y Hy. assert (In y (l1 ++ x :: l2)) as Hy' by (apply Hi; right; exact Hy). apply in_app_or in Hy'. apply in_or_app.
    destruct Hy' as [H|[<-|H]]; [left; exact H|contradiction|right; exact H]. }
  specialize (IH (l1 ++ l2) HF H). rewrite map_app, list_sum_app in *. cbn [map]. change (list_sum (?a :: ?b)) with (a + list_sum b)%nat. lia.
Qed.
Lemma in_slice {A} : forall (l : list A) i x a b, nth_error l i = Some x -> (a <= i < b)%nat -> In x (firstn (b - a) (skipn a l)).
Proof.
  intros l i x a b H Hi. assert (Hs : nth_error (skipn a l) (i - a) = Some x).
  { revert l i H Hi. induction a as [|a IH]; intros l i H Hi; [rewrite Nat.sub_0_r; exact H|].
    destruct l as [|y l]; [destruct i; discriminate H|]. destruct i as [|i]; [lia|]. cbn [skipn]. cbn [nth_error] in H.
    replace (S i - S a)%nat with (i - a)%nat by lia. revert H. intros H.
    clear - H Hi. revert l i b H Hi. induction a as [|a IH]; intros l i b H Hi; [rewrite Nat.sub_0_r; exact H|].
    destruct l as [|y l]; [destruct i; discriminate H|]. destruct i as [|i]; [lia|]. cbn [skipn nth_error] in *. apply (IH l i (b - 1)%nat H). lia. }
  revert Hs. set (n := (b - a)%nat). assert (Hk : (i - a < n)%nat) by (unfold n; lia). revert Hk. generalize (i - a)%nat as k. generalize (skipn a l) as q.
  clear. induction n as [|n IH]; intros q k Hk Hq; [lia|]. destruct q as [|y q]; [destruct k; discriminate Hq|]. cbn [firstn].
  destruct k as [|k]; [injection Hq as ->; left; reflexivity|]. right. apply (IH q k); [lia|exact Hq].
Qed.
Lemma skip_skip {A} : forall a b (l : list A), skipn b (skipn a l) = skipn (a + b) l.
Proof. induction a as [|a IH]; intros b l; [reflexivity|]. destruct l as [|x l]; [destruct b; reflexivity|]. apply IH. Qed.
Lemma rest_split f d t t' : t <= t' ->
  rest f d t = (list_sum (map f (firstn (N.to_nat t' - N.to_nat t) (skipn (N.to_nat t) (preorder d)))) + rest f d t')%nat.
Proof.
  intros H. unfold rest. rewrite <- list_sum_app, <- map_app. do 2 f_equal.
  rewrite <- (firstn_skipn (N.to_nat t' - N.to_nat t) (skipn (N.to_nat t) (preorder d))) at 1. f_equal. rewrite skip_skip. f_equal. lia.
Qed.
(** The siblings made by a move are those of the left children entered. *)
Lemma fresh_entered d v v' u : valid_path d v -> valid_path d v' -> ptime d v < ptime d v' -> In u (left_pre [] v') -> fresh v (sib u) = true ->
  valid_path d u /\ ptime d v < ptime d u <= ptime d v' /\ left_child u = true.
Proof.
  intros Hv Hv' Hlt Hu Hf. apply in_left_pre in Hu as (a & s & He & ->). cbn [app] in *.
  assert (Hau : v' = (a ++ [1]) ++ s) by (rewrite <- app_assoc; exact He). rewrite Hau in Hv'. pose proof (valid_app_l _ _ _ Hv') as Hu.
  pose proof (ptime_app_interval _ _ _ Hv') as [H1 H2]. pose proof (psize_ge1 _ _ Hv') as H3. rewrite <- Hau in *. split; [exact Hu|]. split.
  - split; [|exact H1]. destruct (N.ltb_spec (ptime d v) (ptime d (a ++ [1]))) as [|Hge]; [assumption|]. exfalso.
    destruct (interval_prefix d (a ++ [1]) v Hu Hv ltac:(lia)) as [w Hw]. unfold fresh in Hf. apply negb_true_iff in Hf. rewrite sib_snoc in Hf.
    assert (Hin : existsb (path_eqb (a ++ [2])) (key_paths v) = true); [|congruence].
    apply existsb_path. right. apply in_sibs. exists a, w. rewrite Hw, <- app_assoc. auto.
  - unfold left_child. rewrite last_last. reflexivity.
Qed.
Lemma move_rest (f g : path -> nat) d t t' v v' : node_at d t v -> node_at d t' v' -> t < t' -> (forall u, left_child u = true -> g u = f u) ->
  (list_sum (map g (filter (fun u => fresh v (sib u)) (left_pre [] v'))) + rest f d t' <= rest f d t)%nat.
Proof.
  intros Hn Hn' Hlt Hfg. rewrite (rest_split f d t t') by lia. apply Nat.add_le_mono_r. apply node_at_ptime in Hn as [Hv ->]. apply node_at_ptime in Hn' as [Hv' ->].
  assert (Hall : forall u, In u (filter (fun u => fresh v (sib u)) (left_pre [] v')) -> valid_path d u /\ ptime d v < ptime d u <= ptime d v' /\ left_child u = true).
  { intros u Hu. apply filter_In in Hu as [Hu Hf]. exact (fresh_entered d v v' u Hv Hv' Hlt Hu Hf). }
  rewrite (map_ext_in g f) by (intros u Hu; apply Hfg, Hall, Hu). apply sum_incl; [apply NoDup_filter, left_pre_nodup|].
  intros u Hu. destruct (Hall u Hu) as (Hvu & Hr & _). assert (Hu' : node_at d (ptime d u) u) by (apply node_at_ptime; auto). destruct Hu' as [_ Hu'].
  eapply in_slice; [exact Hu'|]. lia.
Qed.
Lemma nth_slice {A} : forall (l : list A) i x, nth_error l i = Some x -> firstn 1 (skipn i l) = [x].
Proof.
  induction l as [|y l IH]; intros i x H; [destruct i; discriminate H|]. destruct i as [|i]; [injection H as ->; reflexivity|]. exact (IH i x H).
Qed.
Lemma move_one (f g : path -> nat) d t v v' : node_at d t v -> node_at d (t + 1) v' -> (forall u, left_child u = true -> g u = f u) -> (forall u, left_child u = false -> f u = 0%nat) ->
  list_sum (map g (filter (fun u => fresh v (sib u)) (left_pre [] v'))) = f v'.
Proof.
  intros Hn Hn' Hfg Hf0. pose proof (move_rest f g d t (t + 1) v v' Hn Hn' ltac:(lia) Hfg) as Hle. rewrite (rest_split f d t (t + 1)) in Hle by lia.
  destruct Hn' as [_ Hnth]. pose proof (proj1 (node_at_ptime d t v) Hn) as [Hv Ht].
  assert (Hn' : node_at d (t + 1) v') by (split; [lia|exact Hnth]). pose proof (proj1 (node_at_ptime d (t + 1) v') Hn') as [Hv' Ht'].
  replace (N.to_nat (t + 1) - N.to_nat t)%nat with 1%nat in Hle by lia. replace (N.to_nat (t + 1 - 1)) with (N.to_nat t) in Hnth by lia.
  rewrite (nth_slice _ _ _ Hnth) in Hle. cbn [map] in Hle. change (list_sum [f v']) with (f v' + 0)%nat in Hle.
  destruct (left_child v') eqn:Hl; [|specialize (Hf0 v' Hl); lia]. apply Nat.le_antisymm; [lia|].
  unfold left_child in Hl. destruct v' as [|y p _] using rev_ind; [discriminate Hl|]. rewrite last_last in Hl. apply N.eqb_eq in Hl. subst y.
  assert (Hin : In (p ++ [1]) (filter (fun u => fresh v (sib u)) (left_pre [] (p ++ [1])))).
  { apply filter_In. split; [apply in_left_pre; exists p, []; auto|]. rewrite sib_snoc. unfold fresh. apply negb_true_iff.
    destruct (existsb (path_eqb (p ++ [2])) (key_paths v)) eqn:He; [|reflexivity]. exfalso. apply existsb_path in He.
    destruct He as [He|He].
    - subst v. pose proof (ptime_snoc d p 1 (or_introl eq_refl) Hv') as H1. pose proof (ptime_snoc d p 2 (or_intror eq_refl) Hv) as H2.
      cbn [N.eqb Pos.eqb] in H1, H2. pose proof (pow2_pos (d - length p - 1)). lia.
    - apply in_sibs in He as (a & s & Hvs & He). apply app_inj_tail in He as [<- _]. subst v.
      assert (Hvs : p ++ 1 :: s = (p ++ [1]) ++ s) by (rewrite <- app_assoc; reflexivity). rewrite Hvs in *.
      pose proof (ptime_app_interval _ _ _ Hv) as [H1 _]. lia. }
  apply in_split in Hin as (l1 & l2 & ->). rewrite map_app, list_sum_app. cbn [map]. change (list_sum (?a :: ?b)) with (a + list_sum b)%nat.
  rewrite (Hfg (p ++ [1])) by (unfold left_child; rewrite last_last; reflexivity). lia.
Qed.
Definition entry2 (v : path) : nat := if left_child v then 1%nat else 0%nat.
Lemma later_inv d t t' : later d t t' = true -> t < t' <= last_time d.
Proof. unfold later. lia. Qed.
Lemma move_total d t t' : 1 <= t -> later d t t' = true ->
  (count is_mul1 (move_ops d (node d t) (node d t')) + rest (entry_cost d) d t' <= rest (entry_cost d) d t
   /\ count is_mul2 (move_ops d (node d t) (node d t')) + rest entry2 d t' <= rest entry2 d t)%nat.
Proof.
  intros H1 H. apply later_inv in H. destruct (node_at_ex d t ltac:(lia)) as [v Hv]. destruct (node_at_ex d t' ltac:(lia)) as [v' Hv'].
  rewrite (node_ok _ _ _ Hv), (node_ok _ _ _ Hv'). rewrite count_move1, count_move2. split.
  - apply (move_rest (entry_cost d) (cost1 d) d t t' v v' Hv Hv'); [lia|]. intros u Hu. unfold entry_cost. rewrite Hu. reflexivity.
  - rewrite <- list_sum_ones. apply (move_rest entry2 (fun _ => 1%nat) d t t' v v' Hv Hv'); [lia|]. intros u Hu. unfold entry2. rewrite Hu. reflexivity.
Qed.
Lemma step_cost d t : 1 <= t -> t < last_time d ->
  count is_mul1 (move_ops d (node d t) (node d (t + 1))) = entry_cost d (node d (t + 1))
  /\ count is_mul2 (move_ops d (node d t) (node d (t + 1))) = (if left_child (node d (t + 1)) then 1 else 0)%nat.
Proof.
  intros H1 H. destruct (node_at_ex d t ltac:(lia)) as [v Hv]. destruct (node_at_ex d (t + 1) ltac:(lia)) as [v' Hv'].
  rewrite (node_ok _ _ _ Hv), (node_ok _ _ _ Hv'). rewrite count_move1, count_move2. split.
  - apply (move_one (entry_cost d) (cost1 d) d t v v' Hv Hv'); intros u Hu; unfold entry_cost; rewrite Hu; reflexivity.
  - rewrite <- list_sum_ones. apply (move_one entry2 (fun _ => 1%nat) d t v v' Hv Hv'); intros u Hu; unfold entry2; rewrite Hu; reflexivity.
Qed.
Lemma count_sign v : count is_mul1 (sign_ops v) = 3%nat /\ count is_mul2 (sign_ops v) = 1%nat /\ count is_pair (sign_ops v) = 0%nat.
Proof. unfold sign_ops. rewrite !count_app, !count_path by reflexivity. auto. Qed.
Lemma next_range d t o : 1 <= t <= last_time d -> 1 <= next_time d t o <= last_time d.
Proof. intros H. unfold next_time, later. destruct o as [t' s|t' msg s|t' msg|t' msg s|c]; try lia; match goal with |- context [if ?b then _ else _] => destruct b eqn:Hb end; lia. Qed.
Lemma call_total d t o : 1 <= t <= last_time d ->
  (count is_mul1 (call_ops d t o) + rest (entry_cost d) d (next_time d t o) <= rest (entry_cost d) d t + (if signs o then 3 else 0)
   /\ count is_mul2 (call_ops d t o) + rest entry2 d (next_time d t o) <= rest entry2 d t + (if signs o then 1 else 0))%nat.
Proof.
  intros Ht. pose proof (count_sign (node d t)) as (S1 & S2 & _).
  destruct o as [t' s|t' msg s|t' msg|t' msg s|c]; cbn [call_ops next_time signs].
  - destruct (later d t t') eqn:Hl; [|cbn [count filter length]; lia]. pose proof (move_total d t t' ltac:(lia) Hl). lia.
  - destruct (N.eqb_spec t t') as [<-|Hne].
    + unfold later. rewrite N.ltb_irrefl. cbn [andb]. lia.
    + destruct (later d t t') eqn:Hl; [|cbn [count filter length]; lia]. pose proof (move_total d t t' ltac:(lia) Hl).
      pose proof (count_sign (node d t')) as (S3 & S4 & _). rewrite !count_app. lia.
  - destruct (t =? t'); cbn [count filter length]; unfold count in *; cbn [filter length] in *; lia.
  - destruct (t =? t'); cbn [andb]; [|cbn [count filter length]; lia]. rewrite !count_app. destruct (later d t (t + 1)) eqn:Hl.
    + pose proof (move_total d t (t + 1) ltac:(lia) Hl). lia.
    + cbn [count filter length]. lia.
  - cbn [count filter length]. lia.
Qed.
Lemma history_total d : forall ops t, 1 <= t <= last_time d ->
  (count is_mul1 (history_ops d t ops) <= rest (entry_cost d) d t + 3 * length (filter signs ops)
   /\ count is_mul2 (history_ops d t ops) <= rest entry2 d t + length (filter signs ops))%nat.
Proof.
  induction ops as [|o ops IH]; intros t Ht; [cbn; lia|]. cbn [history_ops filter]. rewrite !count_app. pose proof (call_total d t o Ht) as [H1 H2].
  destruct (IH (next_time d t o) (next_range d t o Ht)) as [H3 H4]. destruct (signs o); cbn [length]; lia.
Qed.
Lemma left_cons x v : left_child (x :: v) = match v with [] => x =? 1 | _ => left_child v end.
Proof. destruct v; reflexivity. Qed.
Lemma sum_cons2 (f g : path -> nat) x P : (forall v, f (x :: v) = g v) -> list_sum (map f (map (cons x) P)) = list_sum (map g P).
Proof. intros H. rewrite map_map. f_equal. apply map_ext. exact H. Qed.
Lemma entry_cons d x v : v <> [] -> entry_cost (S d) (x :: v) = entry_cost d v.
Proof. intros H. unfold entry_cost. rewrite left_cons. destruct v; [contradiction|]. cbn [length]. rewrite Nat.sub_succ. reflexivity. Qed.
Lemma preorder_tail_ne d : forall v, In v (tl (preorder d)) -> v <> [].
Proof. destruct d as [|d]; [intros v []|]. intros v H ->. cbn [preorder tl] in H. apply in_app_or in H. rewrite !in_map_iff in H. destruct H as [(u & H & _)|(u & H & _)]; discriminate H. Qed.
Lemma sum_entry d : (1 <= d)%nat -> (list_sum (map (entry_cost d) (preorder d)) + d + 2 = 3 * 2 ^ (d - 1))%nat.
Proof.
  induction d as [|d IH]; [lia|]. intros _. destruct d as [|d]; [reflexivity|]. specialize (IH ltac:(lia)). remember (S d) as d1 eqn:Hd1.
  cbn [preorder map]. change (list_sum (?a :: ?b)) with (a + list_sum b)%nat. rewrite map_app, list_sum_app.
  assert (Hp : preorder d1 = [] :: tl (preorder d1)) by (subst d1; reflexivity).
  assert (Hx : forall x, list_sum (map (entry_cost (S d1)) (map (cons x) (preorder d1))) = ((if (x =? 1)%N then S d1 else 0) + list_sum (map (entry_cost d1) (preorder d1)))%nat).
  { intros x. rewrite Hp. cbn [map]. change (list_sum (?a :: ?b)) with (a + list_sum b)%nat. rewrite map_map.
    rewrite (map_ext_in (fun v => entry_cost (S d1) (x :: v)) (entry_cost d1)) by (intros v Hv; apply entry_cons, (preorder_tail_ne _ v Hv)).
    change (entry_cost d1 []) with 0%nat. unfold entry_cost at 1. rewrite left_cons. cbn [length]. destruct (x =? 1); lia. }
  rewrite !Hx. change (entry_cost (S d1) []) with 0%nat. cbn [N.eqb Pos.eqb].
  replace (S d1 - 1)%nat with (S (d1 - 1)) by lia. rewrite Nat.pow_succ_r'. lia.
Qed.
Lemma sum_entry2 d : (1 <= d)%nat -> (list_sum (map entry2 (preorder d)) + 1 = 2 ^ (d - 1))%nat.
Proof.
  induction d as [|d IH]; [lia|]. intros _. destruct d as [|d]; [reflexivity|]. specialize (IH ltac:(lia)). remember (S d) as d1 eqn:Hd1.
  cbn [preorder map]. change (list_sum (?a :: ?b)) with (a + list_sum b)%nat. rewrite map_app, list_sum_app.
  assert (Hp : preorder d1 = [] :: tl (preorder d1)) by (subst d1; reflexivity).
  assert (Hx : forall x, list_sum (map entry2 (map (cons x) (preorder d1))) = ((if (x =? 1)%N then 1 else 0) + list_sum (map entry2 (preorder d1)))%nat).
  { intros x. rewrite Hp. cbn [map]. change (list_sum (?a :: ?b)) with (a + list_sum b)%nat. rewrite map_map.
    rewrite (map_ext_in (fun v => entry2 (x :: v)) entry2).
    2:{ intros v Hv. apply preorder_tail_ne in Hv. unfold entry2. rewrite left_cons. destruct v; [contradiction|reflexivity]. }
    change (entry2 []) with 0%nat. unfold entry2 at 1. rewrite left_cons. destruct (x =? 1); lia. }
  rewrite !Hx. change (entry2 []) with 0%nat. cbn [N.eqb Pos.eqb].
  replace (S d1 - 1)%nat with (S (d1 - 1)) by lia. rewrite Nat.pow_succ_r'. lia.
Qed.
Lemma rest_all f d t : f [] = 0%nat -> (rest f d t <= list_sum (map f (preorder d)))%nat.
Proof.
  intros _. unfold rest. rewrite <- (firstn_skipn (N.to_nat t) (preorder d)) at 2. rewrite map_app, list_sum_app. lia.
Qed.
Lemma rest_1 f d : (1 <= d)%nat -> f [] = 0%nat -> rest f d 1 = list_sum (map f (preorder d)).
Proof. intros Hd Hf. destruct d as [|d]; [lia|]. unfold rest. cbn [preorder skipn N.to_nat Pos.to_nat Pos.iter_op Nat.add map]. change (list_sum (?a :: ?b)) with (a + list_sum b)%nat. rewrite Hf. reflexivity. Qed.
Lemma steps_total d : forall seeds t, 1 <= t -> t + N.of_nat (length seeds) <= last_time d ->
  (count is_mul1 (history_ops d t (one_by_one t seeds)) + rest (entry_cost d) d (t + N.of_nat (length seeds)) = rest (entry_cost d) d t
   /\ count is_mul2 (history_ops d t (one_by_one t seeds)) + rest entry2 d (t + N.of_nat (length seeds)) = rest entry2 d t)%nat.
Proof.
  induction seeds as [|s seeds IH]; intros t Ht Hl; cbn [one_by_one length history_ops].
  - rewrite N.add_0_r. auto.
  - cbn [length] in Hl. cbn [call_ops next_time]. replace (later d t (t + 1)) with true by (unfold later; lia).
    destruct (IH (t + 1) ltac:(lia) ltac:(lia)) as [H1 H2]. replace (t + 1 + N.of_nat (length seeds)) with (t + N.of_nat (S (length seeds))) in H1, H2 by lia.
    destruct (step_cost d t Ht ltac:(lia)) as [H3 H4]. rewrite !count_app.
    destruct (node_at_ex d (t + 1) ltac:(lia)) as [v' Hv']. rewrite (node_ok _ _ _ Hv') in *.
    pose proof (rest_split (entry_cost d) d t (t + 1) ltac:(lia)) as R1. pose proof (rest_split entry2 d t (t + 1) ltac:(lia)) as R2.
    replace (N.to_nat (t + 1) - N.to_nat t)%nat with 1%nat in R1, R2 by lia. destruct Hv' as [_ Hnth].
    replace (N.to_nat (t + 1 - 1)) with (N.to_nat t) in Hnth by lia. rewrite (nth_slice _ _ _ Hnth) in R1, R2. cbn [map] in R1, R2.
    change (list_sum [entry_cost d v']) with (entry_cost d v' + 0)%nat in R1. change (list_sum [entry2 v']) with (entry2 v' + 0)%nat in R2. unfold entry2 at 2 in R2. lia.
Qed.
Lemma rest_last f d : rest f d (last_time d) = 0%nat.
Proof. unfold rest, last_time. rewrite skipn_all2; [reflexivity|]. pose proof (preorder_length d). lia. Qed.

(** * The properties *)
Lemma traced_results : forall (E : env) m (pp : pubparam E) seed s (l : list (signature E)) pk pks msg sk ops,
  fst (key_gen_t seed pp []) = key_gen seed pp
  /\ fst (verify_t m s pk pp msg []) = verify m s pk pp msg
  /\ fst (aggregate_t l []) = aggregate l
  /\ fst (verify_aggregated_t m s pks pp msg []) = verify_aggregated m s pks pp msg
  /\ fst (sk_validate_t m sk pk pp []) = sk_validate m sk pk pp
  /\ fst (run_t m pp ops (sk, [])) = fst (run m pp ops sk)
  /\ fst (snd (run_t m pp ops (sk, []))) = snd (run m pp ops sk).
Proof.
  intros E m pp seed s l pk pks msg sk ops.
  destruct (key_gen_em seed pp) as (o1 & H1 & _). destruct (verify_em m s pk pp msg) as (o2 & H2 & _). destruct (aggregate_em l) as (o3 & H3 & _).
  destruct (verify_aggregated_em m s pks pp msg) as (o4 & H4 & _). destruct (sk_validate_em m sk pk pp) as (o5 & H5 & _).
  rewrite H1, H2, H3, H4, H5. destruct (run_res m pp ops sk []) as [H6 H7]. auto 10.
Qed.
Lemma keygen_trace : forall (E : env) (pp : pubparam E) seed pk sk pop,
  pp_ok pp -> key_gen seed pp = Ok (pk, sk, pop) -> snd (key_gen_t seed pp []) = keygen_ops (pp_depth pp).
Proof.
  intros E pp seed pk sk pop Hpp H. destruct (key_gen_em seed pp) as (o & H1 & HQ). rewrite H1. exact (HQ _ H (ppo_len pp Hpp)).
Qed.
Lemma verify_trace : forall (E : env) m (pp : pubparam E) s pk pks msg,
  pp_ok pp ->
  (verify m s pk pp msg = Ok true -> snd (verify_t m s pk pp msg []) = verify_ops (node (pp_depth pp) (sig_time s)))
  /\ (verify_aggregated m s pks pp msg = Ok true ->
      snd (verify_aggregated_t m s pks pp msg []) = times (length pks - 1) [Add2] ++ verify_ops (node (pp_depth pp) (sig_time s))).
Proof.
  intros E m pp s pk pks msg Hpp. pose proof (ppo_depth pp Hpp) as Hd.
  assert (Hnode : forall t tv, tv_init m t (pp_depth pp) = Ok tv -> tv_vec tv = node (pp_depth pp) t).
  { intros t tv Ht. apply tv_init_node in Ht as [_ Hn]; [|lia]. symmetry. apply node_ok, Hn. }
  split; intros H.
  - destruct (verify_em m s pk pp msg) as (o & H1 & HQ). rewrite H1. destruct (HQ _ H eq_refl) as (tv & Ht & ->). cbn [snd app]. rewrite (Hnode _ _ Ht). reflexivity.
  - destruct (verify_aggregated_em m s pks pp msg) as (o & H1 & HQ). rewrite H1. destruct (HQ _ H eq_refl) as (tv & Ht & ->). cbn [snd app]. rewrite (Hnode _ _ Ht). reflexivity.
Qed.
Lemma aggregate_trace : forall (E : env) (l : list (signature E)) s,
  aggregate l = Ok s -> snd (aggregate_t l []) = times (length l - 1) [Add2; Add1].
Proof. intros E l s H. destruct (aggregate_em l) as (o & H1 & HQ). rewrite H1. exact (HQ _ H). Qed.
Lemma validate_trace : forall (E : env) (L : env_laws E) m (pp : pubparam E) pk pk' sk,
  pp_ok pp -> reachable m pp pk sk -> sk_validate m sk pk' pp = Ok true ->
  snd (sk_validate_t m sk pk' pp []) = flat_map validate_ops (key_paths (node (pp_depth pp) (sec_time sk))).
Proof.
  intros E L m pp pk pk' sk Hpp Hr H. pose proof (ppo_depth pp Hpp) as Hd. destruct (reachable_good L m pp pk sk Hpp Hr) as (x & _ & _ & Hg & _).
  destruct (sk_validate_em m sk pk' pp) as (o & H1 & HQ). rewrite H1. destruct (HQ _ H eq_refl) as (vs & Hvs & ->). cbn [snd app].
  destruct (good_sk_head pp x sk Hg) as (v & _ & _ & Hn & _). rewrite (node_ok _ _ _ Hn).
  destruct (key_nodes E L m pp pk sk v Hpp Hr Hn) as [Hk _]. fold (key_paths v) in Hk. clear H H1 HQ.
  revert vs Hvs. induction Hk as [|s w l ws [Hw _] _ IH]; intros vs Hvs; inversion Hvs as [|? tv ? tvs Ht Hts]; subst; [reflexivity|].
  cbn [flat_map]. rewrite (IH _ Hts). f_equal. apply tv_init_node in Ht as [_ Ht]; [|lia]. rewrite (node_at_fun _ _ _ _ Ht Hw). reflexivity.
Qed.
Lemma history_trace : forall (E : env) (L : env_laws E) m (pp : pubparam E) pk sk ops,
  pp_ok pp -> reachable m pp pk sk -> forallb no_panic (fst (run m pp ops sk)) = true ->
  snd (snd (run_t m pp ops (sk, []))) = history_ops (pp_depth pp) (sec_time sk) ops.
Proof.
  intros E L m pp pk sk ops Hpp Hr Hn. destruct (reachable_good L m pp pk sk Hpp Hr) as (x & _ & _ & Hg & Hcs).
  exact (run_ops L m pp x ops sk [] Hpp Hcs Hg Hn).
Qed.
Lemma alike_ops d : forall ops ops' t, Forall2 alike ops ops' -> history_ops d t ops = history_ops d t ops'.
Proof.
  intros ops ops' t H. revert t. induction H as [|a b ops ops' Hab _ IH]; intros t; [reflexivity|]. cbn [history_ops].
  assert (Hc : call_ops d t a = call_ops d t b /\ next_time d t a = next_time d t b); [|destruct Hc as [-> ->]; rewrite IH; reflexivity].
  destruct a, b; cbn [alike] in Hab; try contradiction; subst; split; reflexivity.
Qed.
Lemma history_public : forall (E E' : env) (L : env_laws E) (L' : env_laws E') m m' (pp : pubparam E) (pp' : pubparam E') pk pk' sk sk' ops ops',
  pp_ok pp -> pp_ok pp' -> pp_depth pp = pp_depth pp' -> reachable m pp pk sk -> reachable m' pp' pk' sk' -> sec_time sk = sec_time sk' ->
  Forall2 alike ops ops' -> forallb no_panic (fst (run m pp ops sk)) = true -> forallb no_panic (fst (run m' pp' ops' sk')) = true ->
  snd (snd (run_t m pp ops (sk, []))) = snd (snd (run_t m' pp' ops' (sk', []))).
Proof.
  intros E E' L L' m m' pp pp' pk pk' sk sk' ops ops' Hpp Hpp' Hd Hr Hr' Ht Ho Hn Hn'.
  rewrite (history_trace E L m pp pk sk ops Hpp Hr Hn), (history_trace E' L' m' pp' pk' sk' ops' Hpp' Hr' Hn'). rewrite <- Hd, <- Ht. apply alike_ops, Ho.
Qed.
Lemma op_counts : forall d v,
  count is_mul1 (keygen_ops d) = (d + 2)%nat /\ count is_mul2 (keygen_ops d) = 2%nat
  /\ count is_mul1 (sign_ops v) = 3%nat /\ count is_mul2 (sign_ops v) = 1%nat /\ count is_pair (sign_ops v) = 0%nat
  /\ count is_mul1 (verify_ops v) = 1%nat /\ count is_mul2 (verify_ops v) = 0%nat /\ count is_pair (verify_ops v) = 1%nat
  /\ count is_pair (flat_map validate_ops (key_paths v)) = (1 + lefts v)%nat.
Proof.
  intros d v. destruct (count_sign v) as (S1 & S2 & S3). unfold keygen_ops. rewrite !count_app, !count_times.
  unfold verify_ops. rewrite !count_app, !count_path by reflexivity.
  assert (Hp : count is_pair (flat_map validate_ops (key_paths v)) = (1 + lefts v)%nat).
  { rewrite <- (right_sibs_length v []). change (1 + length (right_sibs [] v))%nat with (length (key_paths v)). rewrite count_flat, <- list_sum_ones.
    f_equal. apply map_ext. intros w. unfold validate_ops. rewrite count_app, count_times. cbn. lia. }
  split; [cbn; lia|]. split; [cbn; lia|]. auto 10.
Qed.
Lemma update_cost : forall d t t',
  (1 <= t -> later d t t' = true ->
   (2 * count is_mul1 (move_ops d (node d t) (node d t')) <= (d - 1) * (d + 2)
    /\ count is_mul2 (move_ops d (node d t) (node d t')) <= d - 1
    /\ count is_pair (move_ops d (node d t) (node d t')) = 0)%nat)
  /\ (1 <= t -> t < last_time d ->
      count is_mul1 (move_ops d (node d t) (node d (t + 1))) = entry_cost d (node d (t + 1))
      /\ count is_mul2 (move_ops d (node d t) (node d (t + 1))) = (if left_child (node d (t + 1)) then 1 else 0)%nat).
Proof.
  intros d t t'. split.
  - intros Ht Hl. apply later_inv in Hl. destruct (node_at_ex d t' ltac:(lia)) as [v' Hv']. rewrite (node_ok _ _ _ Hv'). pose proof (node_len _ _ _ Hv') as Hlen.
    destruct (move_bound d (node d t) v' Hlen) as [H1 H2]. split; [exact H1|]. split; [exact H2|]. apply count_movep.
  - apply step_cost.
Qed.
Lemma update_cost_reached : forall d, (1 <= d)%nat ->
  node_at d (N.of_nat d) (repeat 1 (d - 1)) /\ (2 * count is_mul1 (move_ops d (node d 1) (repeat 1%N (d - 1))) = (d - 1) * (d + 2))%nat.
Proof.
  intros d Hd. split.
  - apply node_at_ptime. split.
    + split; [apply Forall_forall; intros x Hx; apply repeat_spec in Hx; left; exact Hx|rewrite repeat_length; lia].
    + assert (H : forall n, ptime (S n) (repeat 1 n) = N.of_nat (S n)).
      { induction n as [|n IH]; [reflexivity|]. cbn [repeat]. change (ptime (S (S n)) (1 :: repeat 1 n)) with (1 + ptime (S n) (repeat 1 n)). rewrite IH. lia. }
      destruct d as [|d]; [lia|]. rewrite Nat.sub_succ, Nat.sub_0_r, H. reflexivity.
  - replace (node d 1) with (@nil N); [apply move_reached, Hd|]. destruct d as [|d]; [lia|reflexivity].
Qed.
Lemma history_cost : forall (E : env) (L : env_laws E) m (pp : pubparam E) pk sk ops,
  pp_ok pp -> reachable m pp pk sk -> forallb no_panic (fst (run m pp ops sk)) = true ->
  (count is_mul1 (snd (snd (run_t m pp ops (sk, [])))) + pp_depth pp + 2 <= 3 * 2 ^ (pp_depth pp - 1) + 3 * length (filter signs ops)
   /\ count is_mul2 (snd (snd (run_t m pp ops (sk, [])))) + 1 <= 2 ^ (pp_depth pp - 1) + length (filter signs ops))%nat.
Proof.
  intros E L m pp pk sk ops Hpp Hr Hn. rewrite (history_trace E L m pp pk sk ops Hpp Hr Hn). destruct (reachable_good L m pp pk sk Hpp Hr) as (x & _ & _ & Hg & _).
  destruct (good_sk_head pp x sk Hg) as (v & _ & _ & Hv & _). apply node_at_range in Hv. pose proof (ppo_depth pp Hpp) as Hd.
  destruct (history_total (pp_depth pp) ops (sec_time sk) Hv) as [H1 H2].
  pose proof (sum_entry (pp_depth pp) ltac:(lia)). pose proof (sum_entry2 (pp_depth pp) ltac:(lia)).
  pose proof (rest_all (entry_cost (pp_depth pp)) (pp_depth pp) (sec_time sk) eq_refl). pose proof (rest_all entry2 (pp_depth pp) (sec_time sk) eq_refl). lia.
Qed.
Lemma history_cost_reached : forall (E : env) (L : env_laws E) m (pp : pubparam E) pk sk seeds,
  pp_ok pp -> reachable m pp pk sk -> sec_time sk = 1 -> 1 + N.of_nat (length seeds) = last_time (pp_depth pp) ->
  forallb no_panic (fst (run m pp (one_by_one 1 seeds) sk)) = true ->
  (count is_mul1 (snd (snd (run_t m pp (one_by_one 1 seeds) (sk, [])))) + pp_depth pp + 2 = 3 * 2 ^ (pp_depth pp - 1)
   /\ count is_mul2 (snd (snd (run_t m pp (one_by_one 1 seeds) (sk, [])))) + 1 = 2 ^ (pp_depth pp - 1))%nat.
Proof.
  intros E L m pp pk sk seeds Hpp Hr Ht Hs Hn. rewrite (history_trace E L m pp pk sk _ Hpp Hr Hn), Ht. pose proof (ppo_depth pp Hpp) as Hd.
  destruct (steps_total (pp_depth pp) seeds 1 ltac:(lia) ltac:(lia)) as [H1 H2]. rewrite Hs, rest_last, rest_1 in H1 by (try reflexivity; lia). rewrite Hs, rest_last, rest_1 in H2 by (try reflexivity; lia).
  pose proof (sum_entry (pp_depth pp) ltac:(lia)). pose proof (sum_entry2 (pp_depth pp) ltac:(lia)). lia.
Qed.
