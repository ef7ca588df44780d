(** Lemmas for Properties_Time.v. *)
From Coq Require Import Sorting.Sorted.
From Verif Require Import Base Time SpecTime TimeFacts.
From Coq Require Import ZifyBool ZifyNat ZifyN.
Local Open Scope N_scope.
Local Arguments N.add : simpl never.
Local Arguments N.mul : simpl never.
Local Arguments N.sub : simpl never.
Local Arguments pow2 : simpl never.

Lemma tv_init_iff m d t tv :
  (1 <= d < 64)%nat ->
  (tv_init m t d = Ok tv <-> tv_time tv = t /\ node_at d t (tv_vec tv)).
Proof.
  intros Hd. split.
  - intros H. apply tv_init_node in H; [exact H|lia].
  - intros [Ht Hn]. destruct tv as [t0 v]; simpl in *; subst t0. apply tv_init_ok; [lia|exact Hn].
Qed.

Lemma tv_init_is_ok m d t :
  (1 <= d < 64)%nat -> (is_ok (tv_init m t d) = true <-> 1 <= t <= last_time d).
Proof.
  intros Hd. split.
  - destruct (tv_init m t d) eqn:E; simpl; try discriminate. intros _.
    apply tv_init_node in E as [_ Hn]; [|lia]. apply (node_at_range _ _ _ Hn).
  - intros H. destruct (tv_init_ex m d t) as (v & _ & ->); [lia|exact H|reflexivity].
Qed.

Lemma tv_init_out m d t :
  (1 <= d < 64)%nat -> t = 0 \/ last_time d < t ->
  tv_init m t d = Err (if t =? last_time d + 1 then E_TIME_DEPTH else E_TIME_STAMP).
Proof.
  intros Hd H. rewrite tv_init_err by lia.
  unfold last_time in *. pose proof (pow2_pos d).
  replace (pow2 d - 1 + 1) with (pow2 d) by lia.
  replace (d =? 0)%nat with false by lia. reflexivity.
Qed.

Lemma numbering_bijective d :
  (forall t, 1 <= t <= last_time d -> exists! v, node_at d t v) /\
  (forall v, Forall (fun x => x = 1 \/ x = 2) v -> (length v < d)%nat ->
             exists! t, node_at d t v).
Proof.
  split.
  - intros t Ht. destruct (node_at_ex d t Ht) as [v Hv]. exists v. split; [exact Hv|].
    intros v' Hv'. apply (node_at_fun d t); assumption.
  - intros v Hv Hl. exists (ptime d v).
    assert (Hn : node_at d (ptime d v) v) by (apply node_at_ptime; split; [split; assumption|reflexivity]).
    split; [exact Hn|]. intros t' Ht'. apply (node_at_inj d _ _ v); assumption.
Qed.

Lemma time_vec_round_trip m d t tv :
  (1 <= d < 64)%nat -> tv_init m t d = Ok tv -> vec_to_time m (tv_vec tv) d = Ok t.
Proof.
  intros Hd H. apply tv_init_node in H as [Ht Hn]; [|lia].
  apply node_at_ptime in Hn as [Hv He]. rewrite vec_to_time_ptime by (auto; lia). congruence.
Qed.

Lemma vec_time_round_trip m d v :
  (1 <= d < 64)%nat -> Forall (fun x => x = 1 \/ x = 2) v -> (length v < d)%nat ->
  exists t, vec_to_time m v d = Ok t /\ tv_init m t d = Ok (TimeVec t v).
Proof.
  intros Hd Hv Hl. exists (ptime d v). split.
  - apply vec_to_time_ptime; [lia|split; assumption].
  - apply tv_init_ok; [lia|]. apply node_at_ptime. split; [split; assumption|reflexivity].
Qed.

Lemma tv_init_injective m d t t' tv tv' :
  (1 <= d < 64)%nat -> tv_init m t d = Ok tv -> tv_init m t' d = Ok tv' ->
  tv_vec tv = tv_vec tv' -> t = t'.
Proof.
  intros Hd H H' He. apply tv_init_node in H as [_ Hn]; [|lia].
  apply tv_init_node in H' as [_ Hn']; [|lia]. rewrite <- He in Hn'.
  apply (node_at_inj d _ _ (tv_vec tv)); assumption.
Qed.

Lemma mk_tv_time d l : map tv_time (map (mk_tv d) l) = map (ptime d) l.
Proof. rewrite map_map. reflexivity. Qed.

Lemma gamma_entries_consistent m d t tv l e :
  (1 <= d < 64)%nat -> tv_init m t d = Ok tv -> gamma_list m tv d = Ok l -> In e l ->
  tv_init m (tv_time e) d = Ok e /\ vec_to_time m (tv_vec e) d = Ok (tv_time e).
Proof.
  intros Hd H Hg Hin. apply tv_init_node in H as [Ht Hn]; [|lia].
  destruct tv as [t0 v]; simpl in *; subst t0.
  destruct (gamma_list_spec m d t v) as (pl & Hg' & Hval & _); [lia|exact Hn|].
  rewrite Hg' in Hg. injection Hg as <-.
  apply in_map_iff in Hin as (p & <- & Hp). rewrite Forall_forall in Hval. specialize (Hval p Hp).
  simpl. split.
  - apply tv_init_ok; [lia|]. apply node_at_ptime. split; [exact Hval|reflexivity].
  - apply vec_to_time_ptime; [lia|exact Hval].
Qed.

Lemma gamma_list_covers m d t tv :
  (1 <= d < 64)%nat -> tv_init m t d = Ok tv ->
  exists l, gamma_list m tv d = Ok l
    /\ StronglySorted N.lt (map tv_time l)
    /\ (exists l', l = tv :: l')
    /\ (length l <= d)%nat
    /\ (forall s, t <= s <= last_time d ->
          exists e, In e l /\ below d (tv_time e) s
                    /\ forall e', In e' l -> below d (tv_time e') s -> e' = e)
    /\ (forall s e, In e l -> below d (tv_time e) s -> t <= s).
Proof.
  intros Hd H. pose proof H as H0. apply tv_init_node in H as [Ht Hn]; [|lia].
  destruct tv as [t0 v]; simpl in *; subst t0.
  destruct (gamma_list_spec m d t v) as (pl & Hg & Hval & Htil & Hlen & pl' & Hpl); [lia|exact Hn|].
  exists (map (mk_tv d) pl). split; [exact Hg|].
  rewrite mk_tv_time. split; [apply (tiling_sorted d t); exact Htil|].
  split. { exists (map (mk_tv d) pl'). rewrite Hpl. simpl. f_equal. unfold mk_tv. f_equal.
           apply node_at_ptime in Hn as [_ ->]. reflexivity. }
  split; [rewrite map_length; exact Hlen|].
  split.
  - intros s Hs. destruct (tiling_cover d t _ s Htil Hs) as (a & Ha & Hb & Hu).
    apply in_map_iff in Ha as (p & <- & Hp). exists (mk_tv d p).
    split; [apply in_map; exact Hp|]. split; [exact Hb|].
    intros e' He' Hb'. apply in_map_iff in He' as (p' & <- & Hp'). simpl in Hb'.
    assert (Heq : ptime d p' = ptime d p) by (apply Hu; [apply in_map; exact Hp'|exact Hb']).
    rewrite Forall_forall in Hval.
    apply ptime_inj in Heq; [subst; reflexivity|apply Hval; assumption|apply Hval; assumption].
  - intros s e He Hb. apply in_map_iff in He as (p & <- & Hp). simpl in Hb.
    apply (tiling_no_past d t _ _ s Htil (in_map _ _ _ Hp) Hb).
Qed.

Lemma is_prefix_ancestry m d a b ta tb :
  (1 <= d < 64)%nat -> tv_init m a d = Ok ta -> tv_init m b d = Ok tb ->
  (tv_is_prefix ta tb = true <-> strictly_below d a b) /\
  (tv_is_prefix ta tb = true <-> a < b < a + (pow2 (d - length (tv_vec ta)) - 1)).
Proof.
  intros Hd Ha Hb. apply tv_init_node in Ha as [Hta Hna]; [|lia].
  apply tv_init_node in Hb as [Htb Hnb]; [|lia].
  destruct ta as [? va], tb as [? vb]; simpl in *; subst.
  pose proof (is_prefix_spec d _ _ _ _ Hna Hnb) as H1.
  pose proof (strictly_below_interval d _ _ b Hna) as H2.
  split; [exact H1|]. rewrite H1. exact H2.
Qed.

Lemma tv_init_depth_zero m t : tv_init m t 0 = Err E_TIME_DEPTH.
Proof. reflexivity. Qed.

Lemma tv_init_debug_large d t : (64 <= d)%nat -> tv_init Debug t d = Panic P_ARITH.
Proof.
  intros Hd. unfold tv_init. destruct d; [lia|]. cbn [time_to_vec]. unfold shl64.
  replace (S d <? 64)%nat with false by lia. reflexivity.
Qed.

Lemma tv_init_release_rejects d :
  (64 <= d)%nat ->
  exists t, 1 <= t <= last_time d /\ t < two64 /\ tv_init Release t d = Err E_TIME_STAMP.
Proof.
  intros Hd. pose proof (Nat.mod_upper_bound d 64 ltac:(lia)) as Hm.
  pose proof (pow2_lt64 _ Hm) as H64. pose proof (pow2_pos (d mod 64)).
  pose proof (pow2_le 64 d Hd) as Hle. rewrite pow2_64 in Hle.
  assert (Hh : pow2 (d mod 64) <= pow2 63) by (apply pow2_le; lia).
  pose proof two64_half as Htw. assert (1 < pow2 63) by reflexivity.
  exists (pow2 (d mod 64) + 1). unfold last_time.
  split; [lia|]. split; [lia|].
  unfold tv_init. destruct d as [|d1]; [lia|]. cbn [time_to_vec].
  unfold shl64 at 1. replace (S d1 <? 64)%nat with false by lia. cbn [ovf bind].
  replace (pow2 (S d1 mod 64) <? pow2 (S d1 mod 64) + 1) with true by lia. reflexivity.
Qed.

Lemma tv_init_release_wrong :
  exists d t tv, (64 <= d)%nat /\ tv_init Release t d = Ok tv /\ ~ node_at d t (tv_vec tv).
Proof.
  exists 65%nat, 2, (TimeVec 2 [2]). split; [lia|]. split; [reflexivity|].
  intros H. apply node_at_ptime in H as [_ H]. revert H. vm_compute. discriminate.
Qed.
