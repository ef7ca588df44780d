(** Sub keys: init, delegate, randomization, validate. *)
From Verif Require Import Base Env NMod GroupFacts Time SpecTime TimeFacts SubKey SecretKey Keys Sig SpecKey.
From Coq Require Import ZifyBool ZifyNat ZifyN.
Local Open Scope N_scope.
Local Arguments N.add : simpl never.
Local Arguments N.mul : simpl never.
Local Arguments N.sub : simpl never.
Local Arguments pow2 : simpl never.

Lemma nth_res_ok {A} (l : list A) i d : (i < length l)%nat -> nth_res l i = Ok (nth i l d).
Proof.
  intros H. unfold nth_res. rewrite (nth_error_nth' l d H). reflexivity.
Qed.

Lemma skipn_nth {A} (l : list A) i d : (i < length l)%nat -> skipn i l = nth i l d :: skipn (S i) l.
Proof.
  revert i; induction l as [|a l IH]; intros i H; simpl in H; [lia|].
  destruct i; [reflexivity|]. simpl. rewrite (IH i) by lia. reflexivity.
Qed.

Lemma skipn_skipn {A} : forall x y (l : list A), skipn x (skipn y l) = skipn (x + y) l.
Proof.
  intros x y; revert x; induction y as [|y IH]; intros x l.
  - rewrite Nat.add_0_r. reflexivity.
  - destruct l as [|a l]; [rewrite !skipn_nil; reflexivity|].
    rewrite Nat.add_succ_r. cbn [skipn]. apply IH.
Qed.

Lemma node_at_turn d t v : node_at d t v -> Forall turn v /\ (length v < d)%nat.
Proof. intros H. apply node_at_ptime in H as [H _]. exact H. Qed.

Lemma lincomb_insub {E} (L : env_laws E) v : forall (hs : list (G1 E)),
  Forall (fun h => g1_insub h = true) hs -> g1_insub (lincomb v hs) = true.
Proof.
  induction v as [|x v IH]; intros [|h hs] H; simpl; try apply (l1_sub0 E L).
  inversion H; subst. apply (l1_sub_add E L); [apply (g1_mul_insub L); assumption|apply IH; assumption].
Qed.

Lemma Forall_nth_insub {E} (L : env_laws E) (hs : list (G1 E)) i :
  Forall (fun h => g1_insub h = true) hs -> g1_insub (nth i hs g1_zero) = true.
Proof.
  intros H. destruct (Nat.lt_ge_cases i (length hs)) as [Hi|Hi].
  - rewrite Forall_forall in H. apply H, nth_In, Hi.
  - rewrite nth_overflow by exact Hi. apply (l1_sub0 E L).
Qed.

Lemma Forall_skipn {A} (P : A -> Prop) n l : Forall P l -> Forall P (skipn n l).
Proof. intros H. rewrite <- (firstn_skipn n l) in H. apply Forall_app in H. tauto. Qed.
Lemma Forall_firstn {A} (P : A -> Prop) n l : Forall P l -> Forall P (firstn n l).
Proof. intros H. rewrite <- (firstn_skipn n l) in H. apply Forall_app in H. tauto. Qed.

Lemma node_val_insub {E} (L : env_laws E) (pp : pubparam E) v :
  pp_ok pp -> g1_insub (node_val pp v) = true.
Proof.
  intros Hpp. unfold node_val. apply (l1_sub_add E L).
  - apply (Forall_nth_insub L), Hpp.
  - apply (lincomb_insub L), Forall_skipn, Hpp.
Qed.

Lemma sig_val_insub {E} (L : env_laws E) (pp : pubparam E) v M :
  pp_ok pp -> g1_insub (sig_val pp v M) = true.
Proof.
  intros Hpp. unfold sig_val. apply (l1_sub_add E L); [apply (node_val_insub L), Hpp|].
  apply (g1_mul_insub L), (Forall_nth_insub L), Hpp.
Qed.

(** * The loops *)
Lemma poly_loop_lin {E} (L : env_laws E) (hlist : list (G1 E)) : forall tv i acc,
  Forall turn tv -> (i + length tv < length hlist)%nat ->
  poly_loop hlist i tv acc = Ok (g1_add acc (lincomb tv (skipn (i + 1) hlist))).
Proof.
  induction tv as [|x tv IH]; intros i acc Ht Hl; cbn [poly_loop lincomb].
  - f_equal. g1_solve L.
  - inversion Ht; subst. cbn [length] in Hl.
    rewrite (nth_res_ok _ _ g1_zero) by lia. cbn [bind].
    rewrite IH by (auto; lia). f_equal.
    rewrite (skipn_nth hlist (i + 1) g1_zero) by lia. cbn [lincomb].
    replace (S (i + 1)) with (S i + 1)%nat by lia.
    destruct H1 as [-> | ->]; cbn [N.eqb Pos.eqb]; rewrite ?(g1_dbl_mul L); g1_solve L.
Qed.

Lemma poly_loop_mul_lin {E} (L : env_laws E) (hlist : list (G1 E)) : forall tv i acc,
  (i + length tv < length hlist)%nat ->
  poly_loop_mul hlist i tv acc = Ok (g1_add acc (lincomb tv (skipn (i + 1) hlist))).
Proof.
  induction tv as [|x tv IH]; intros i acc Hl; cbn [poly_loop_mul lincomb].
  - f_equal. g1_solve L.
  - cbn [length] in Hl.
    rewrite (nth_res_ok _ _ g1_zero) by lia. cbn [bind].
    rewrite IH by lia. f_equal.
    rewrite (skipn_nth hlist (i + 1) g1_zero) by lia. cbn [lincomb].
    replace (S (i + 1)) with (S i + 1)%nat by lia. g1_solve L.
Qed.

Lemma poly_loop_node {E} (L : env_laws E) (pp : pubparam E) v :
  pp_ok pp -> Forall turn v -> (length v < pp_depth pp)%nat ->
  poly_loop (pp_hlist pp) 0 v (nth 0 (pp_hlist pp) g1_zero) = Ok (node_val pp v).
Proof.
  intros Hpp Ht Hl. pose proof (ppo_len pp Hpp).
  rewrite (poly_loop_lin L) by (auto; lia). reflexivity.
Qed.

Lemma hv_loop_ok {E} (hlist : list (G1 E)) r : forall hv base,
  (base + length hv <= length hlist)%nat ->
  hv_loop hlist base r hv
  = (Ok tt, map (fun xh => g1_add (fst xh) (g1_mul r (snd xh))) (combine hv (skipn base hlist))).
Proof.
  induction hv as [|x hv IH]; intros base Hl; cbn [hv_loop length] in *.
  - reflexivity.
  - rewrite (nth_res_ok _ _ g1_zero) by lia. rewrite IH by lia.
    rewrite (skipn_nth hlist base g1_zero) by lia. reflexivity.
Qed.

Lemma del_loop_lin {E} (L : env_laws E) : forall ts (hv : list (G1 E)) hp,
  Forall turn ts -> (length ts <= length hv)%nat ->
  del_loop hv ts hp = (Ok tt, g1_add hp (lincomb ts hv)).
Proof.
  induction ts as [|t ts IH]; intros hv hp Ht Hl; cbn [del_loop lincomb].
  - f_equal. g1_solve L.
  - destruct hv as [|h hv]; cbn [length] in Hl; [lia|]. inversion Ht; subst.
    rewrite IH by (auto; lia). f_equal.
    destruct H1 as [-> | ->]; cbn [N.eqb Pos.eqb]; rewrite ?(g1_dbl_mul L); g1_solve L.
Qed.

(** * Lists of scaled parameters *)
Lemma lincomb_scale {E} (L : env_laws E) r : forall v (hs : list (G1 E)),
  lincomb v (map (g1_mul r) hs) = g1_mul r (lincomb v hs).
Proof.
  induction v as [|x v IH]; intros [|h hs]; cbn [lincomb map];
    try (g1_solve L; fail).
  rewrite IH. g1_solve L.
Qed.

Lemma lincomb_app {E} (L : env_laws E) : forall u w (hs : list (G1 E)),
  (length u <= length hs)%nat ->
  lincomb (u ++ w) hs = g1_add (lincomb u hs) (lincomb w (skipn (length u) hs)).
Proof.
  induction u as [|x u IH]; intros w hs Hl; cbn [lincomb app length skipn].
  - g1_solve L.
  - destruct hs as [|h hs]; cbn [length] in Hl; [lia|]. cbn [lincomb skipn].
    rewrite IH by lia. g1_solve L.
Qed.

Lemma lincomb_firstn {E} : forall n v (hs : list (G1 E)),
  (length v <= n)%nat -> lincomb v (firstn n hs) = lincomb v hs.
Proof.
  induction n; intros v hs Hl.
  - destruct v; simpl in *; [reflexivity|lia].
  - destruct v as [|x v]; [reflexivity|]. destruct hs as [|h hs]; [reflexivity|].
    simpl in *. rewrite IHn by lia. reflexivity.
Qed.

Lemma node_val_app {E} (L : env_laws E) (pp : pubparam E) v w :
  pp_ok pp -> (length v < pp_depth pp)%nat ->
  node_val pp (v ++ w) = g1_add (node_val pp v) (lincomb w (skipn (length v + 1) (pp_hlist pp))).
Proof.
  intros Hpp Hl. pose proof (ppo_len pp Hpp). unfold node_val.
  rewrite (lincomb_app L) by (rewrite skipn_length; lia).
  rewrite skipn_skipn. g1_solve L.
Qed.

Definition hv_seg {E} (pp : pubparam E) (k : nat) : list (G1 E) :=
  firstn (pp_depth pp - k) (skipn (k + 1) (pp_hlist pp)).
Lemma hv_seg_len {E} (pp : pubparam E) k : pp_ok pp -> length (hv_seg pp k) = (pp_depth pp - k)%nat.
Proof.
  intros Hpp. pose proof (ppo_len pp Hpp). unfold hv_seg. rewrite firstn_length, skipn_length. lia.
Qed.

Lemma honest_hvec_len {E} (pp : pubparam E) x t v r :
  pp_ok pp -> length (sk_hvec (honest_ssk pp x t v r)) = (pp_depth pp - length v)%nat.
Proof. intros Hpp. cbn [honest_ssk sk_hvec]. rewrite map_length. apply hv_seg_len, Hpp. Qed.

Lemma ssk_init_honest {E} (L : env_laws E) (pp : pubparam E) x r :
  pp_ok pp -> ssk_init pp (g1_mul x (pp_h pp)) r = Ok (honest_ssk pp x 1 [] r).
Proof.
  intros Hpp. pose proof (ppo_len pp Hpp). unfold ssk_init.
  rewrite (nth_res_ok _ _ g1_zero) by lia. cbn [bind]. unfold honest_ssk.
  f_equal. f_equal.
  - unfold node_val. cbn [lincomb]. g1_solve L.
  - cbn [length]. rewrite Nat.sub_0_r. rewrite firstn_skipn_comm.
    replace (0 + 1 + pp_depth pp)%nat with (pp_depth pp + 1)%nat by lia. reflexivity.
Qed.

(** * delegate *)
Lemma delegate_honest {E} (L : env_laws E) m (pp : pubparam E) x t v t' w r :
  pp_ok pp -> node_at (pp_depth pp) t v -> node_at (pp_depth pp) t' (v ++ w) -> w <> [] ->
  delegate m t' (pp_depth pp) (honest_ssk pp x t v r) = (Ok tt, honest_ssk pp x t' (v ++ w) r).
Proof.
  intros Hpp Hn Hn' Hw. set (d := pp_depth pp) in *.
  pose proof (ppo_depth pp Hpp) as Hd. fold d in Hd.
  pose proof (ppo_len pp Hpp) as Hlen. fold d in Hlen.
  unfold delegate, sbind, sget, slift, sput.
  cbn [honest_ssk sk_t sk_g2r sk_hpoly sk_hvec].
  rewrite (proj2 (tv_init_ok m d t v ltac:(lia)) Hn), (proj2 (tv_init_ok m d t' _ ltac:(lia)) Hn').
  assert (Hpre : tv_is_prefix (TimeVec t v) (TimeVec t' (v ++ w)) = true).
  { apply (is_prefix_spec d); auto. exists v, w. auto. }
  rewrite Hpre. cbn [negb tv_vec].
  destruct (node_at_turn _ _ _ Hn) as [Ht Hl]. destruct (node_at_turn _ _ _ Hn') as [Ht' Hl'].
  rewrite app_length in Hl'. apply Forall_app in Ht' as [_ Htw].
  rewrite skipn_app, skipn_all, Nat.sub_diag. cbn [skipn app].
  fold (hv_seg pp (length v)).
  rewrite (del_loop_lin L) by (auto; rewrite map_length, hv_seg_len by auto; lia).
  f_equal. rewrite !app_length. unfold honest_ssk. f_equal.
  - rewrite (lincomb_scale L). unfold hv_seg. rewrite lincomb_firstn by lia.
    rewrite (node_val_app L) by (auto; lia). g1_solve L.
  - rewrite skipn_map. f_equal. unfold hv_seg.
    rewrite skipn_firstn_comm, skipn_skipn.
    fold d. replace (d - length v - (length v + length w - length v))%nat with (d - (length v + length w))%nat by lia.
    rewrite app_length. f_equal. f_equal. lia.
Qed.

(** * randomization *)
Lemma combine_map_same {A B} (f : A -> B) (l : list A) l' : (length l <= length l')%nat ->
  firstn (length l) l' = l -> combine (map f l) l' = map (fun a => (f a, a)) l.
Proof.
  revert l'; induction l as [|a l IH]; intros [|b l'] Hl Hf; simpl in *; try lia; try reflexivity.
  injection Hf as -> Hf. rewrite IH; auto; lia.
Qed.

Lemma randomization_honest {E} (L : env_laws E) m (pp : pubparam E) x t v r r' :
  pp_ok pp -> node_at (pp_depth pp) t v ->
  randomization m pp r' (honest_ssk pp x t v r) = (Ok tt, honest_ssk pp x t v (r + r')).
Proof.
  intros Hpp Hn. set (d := pp_depth pp) in *.
  pose proof (ppo_depth pp Hpp) as Hd. fold d in Hd.
  pose proof (ppo_len pp Hpp) as Hlen. fold d in Hlen.
  destruct (node_at_turn _ _ _ Hn) as [Ht Hl].
  unfold randomization, sbind, sget, slift, sput, ssk_time_vec.
  cbn [honest_ssk sk_t sk_g2r sk_hpoly sk_hvec]. fold d.
  rewrite (proj2 (tv_init_ok m d t v ltac:(lia)) Hn). cbn [tv_vec].
  rewrite (nth_res_ok _ _ g1_zero) by lia.
  rewrite (poly_loop_node L) by auto.
  subst d. fold (hv_seg pp (length v)). rewrite hv_loop_ok.
  2:{ rewrite map_length, hv_seg_len by auto. lia. }
  f_equal. unfold honest_ssk. f_equal.
  - g2_solve L.
  - g1_solve L.
  - fold (hv_seg pp (length v)).
    rewrite combine_map_same.
    + rewrite map_map. apply map_ext. intros a. cbn [fst snd]. g1_solve L.
    + rewrite hv_seg_len, skipn_length by auto. lia.
    + rewrite hv_seg_len by auto. reflexivity.
Qed.

(** * validate *)
Lemma pairing_check_spec {E : env} (l : list (G2 E * G1 E)) :
  pairing_check l = match pairing_prod l with None => false | Some x => gt_eqb x gt_one end.
Proof. reflexivity. Qed.

Lemma ssk_validate_honest {E} (L : env_laws E) m (pp : pubparam E) x t v r cs :
  pp_ok pp -> node_at (pp_depth pp) t v ->
  ssk_validate m (honest_ssk pp x t v r) (PubKey cs (g2_mul x (pp_g2 pp))) pp = Ok true.
Proof.
  intros Hpp Hn. pose proof (ppo_depth pp Hpp) as Hd. pose proof (ppo_len pp Hpp) as Hlen.
  destruct (node_at_turn _ _ _ Hn) as [Ht Hl].
  unfold ssk_validate. cbn [honest_ssk sk_t sk_g2r sk_hpoly pk_pk].
  rewrite (proj2 (tv_init_ok m (pp_depth pp) t v ltac:(lia)) Hn). cbn [tv_vec].
  rewrite (nth_res_ok _ _ g1_zero) by lia. cbn [bind].
  rewrite (poly_loop_mul_lin L) by lia. cbn [bind].
  change (skipn (0 + 1)) with (@skipn (G1 E) 1). fold (node_val pp v). f_equal.
  pose proof (node_val_insub L pp v Hpp). pose proof (ppo_h pp Hpp). pose proof (ppo_g2 pp Hpp).
  apply (pairing_check3 L); auto using pairing_check_spec, (g2_mul_insub L), (g1_mul_insub L), (l1_sub_add E L).
  apply (pairing_honest L); auto.
Qed.
