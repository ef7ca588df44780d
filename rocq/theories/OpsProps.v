(** Lemmas for C112: the group operations of the calls. *)
From Coq Require Import ZifyBool ZifyN ZifyNat Sorting.Sorted.
From Verif Require Import Base Env SpecTime Time TimeFacts Hkdf Prng SpecPrng SubKey SecretKey Keys Sig IO Serdes Api SpecKey SpecUpdate SpecHyg SpecGrow
  SubKeyFacts KeyFacts UpdateFacts HistoryFacts GrowProps HygProps OpTrace SpecOps.
Local Open Scope N_scope.
Local Arguments N.add : simpl never.
Local Arguments N.sub : simpl never.
Local Arguments pow2 : simpl never.

(** [x] has the result [r], and if this is a value the operations it adds are as in [Q]. *)
Definition em {A} (x : st trace A) (r : res A) (Q : A -> trace -> Prop) : Prop :=
  exists o, (forall l, x l = (r, l ++ o)) /\ forall a, r = Ok a -> Q a o.
Lemma em_ret {A} (a : A) (Q : A -> trace -> Prop) : Q a [] -> em (sret a) (Ok a) Q.
Proof. intros H. exists []. split; [intros l; rewrite app_nil_r; reflexivity|]. intros b Hb. injection Hb as <-. exact H. Qed.
Lemma em_lift {A} (r : res A) (Q : A -> trace -> Prop) : (forall a, r = Ok a -> Q a []) -> em (slift r) r Q.
Proof. intros H. exists []. split; [intros l; rewrite app_nil_r; reflexivity|exact H]. Qed.
Lemma em_fail {A B} (x : st trace A) e (Q : A -> trace -> Prop) : em x (Err e) Q -> forall (k : A -> st trace B) R, em (sbind x k) (Err e) R.
Proof. intros (o & H & _) k R. exists o. split; [intros l; unfold sbind; rewrite H; reflexivity|discriminate]. Qed.
Lemma em_bind {A B} (x : st trace A) (r : res A) k (f : A -> res B) (P : A -> trace -> Prop) (Q : B -> trace -> Prop) :
  em x r P -> (forall a, r = Ok a -> em (k a) (f a) (fun b o2 => forall o1, P a o1 -> Q b (o1 ++ o2))) ->
  em (sbind x k) (bind r f) Q.
Proof.
  intros (o1 & Hx & HP) Hk. destruct r as [a|e|p]; cbn [bind].
  - destruct (Hk a eq_refl) as (o2 & H2 & HQ). exists (o1 ++ o2). split.
    + intros l. unfold sbind. rewrite Hx, H2, app_assoc. reflexivity.
    + intros b Hb. apply HQ; [exact Hb|apply HP; reflexivity].
  - exists o1. split; [intros l; unfold sbind; rewrite Hx; reflexivity|discriminate].
  - exists o1. split; [intros l; unfold sbind; rewrite Hx; reflexivity|discriminate].
Qed.
Lemma em_tick {B} o (k : unit -> st trace B) r (Q : B -> trace -> Prop) : em (k tt) r (fun b o2 => Q b (o :: o2)) -> em (sbind (tick o) k) r Q.
Proof.
  intros (o2 & H2 & HQ). exists (o :: o2). split; [|exact HQ]. intros l. unfold sbind, tick. rewrite H2, <- app_assoc. reflexivity.
Qed.
Lemma em_do {A B} (r : res A) (k : A -> st trace B) f (Q : B -> trace -> Prop) : (forall a, r = Ok a -> em (k a) (f a) Q) -> em (sbind (slift r) k) (bind r f) Q.
Proof.
  intros H. apply (em_bind (slift r) r k f (fun _ o => o = [])); [apply em_lift; reflexivity|]. intros a Ha.
  destruct (H a Ha) as (o & Ho & HQ). exists o. split; [exact Ho|]. intros b Hb o1 ->. apply HQ, Hb.
Qed.
Lemma em_weak {A} (x : st trace A) r (P Q : A -> trace -> Prop) : em x r P -> (forall a o, P a o -> Q a o) -> em x r Q.
Proof. intros (o & H & HP) HQ. exists o. split; [exact H|]. intros a Ha. apply HQ, HP, Ha. Qed.
Lemma em_err {A} e (Q : A -> trace -> Prop) : em (slift (Err e)) (Err e) Q. Proof. apply em_lift. discriminate. Qed.
Lemma em_panic {A} p (Q : A -> trace -> Prop) : em (slift (Panic p)) (Panic p) Q. Proof. apply em_lift. discriminate. Qed.

Lemma em_dbl {B C} (c : bool) o (a b : C) (k : C -> st trace B) r (Q : B -> trace -> Prop) :
  em (k (if c then a else b)) r (fun x o2 => Q x ((if c then [o] else []) ++ o2)) ->
  em (sbind (if c then do! _ <- tick o; sret a else sret b) k) r Q.
Proof.
  intros (o2 & H2 & HQ). exists ((if c then [o] else []) ++ o2). split; [|exact HQ]. intros l. unfold sbind, tick, sret.
  destruct c; cbn [app]; rewrite H2; [rewrite <- app_assoc|]; reflexivity.
Qed.
Lemma poly_em {E} (hs : list (G1 E)) : forall tv i acc,
  em (poly_loop_t hs i tv acc) (poly_loop hs i tv acc) (fun _ o => o = path_ops tv).
Proof.
  induction tv as [|x tv IH]; intros i acc; cbn [poly_loop_t poly_loop]; [apply em_ret; reflexivity|].
  apply em_do. intros h _. apply em_dbl. apply em_tick. eapply em_weak; [apply IH|]. intros _ o ->.
  unfold path_ops. cbn [flat_map]. destruct (x =? 2); reflexivity.
Qed.
Lemma poly_mul_em {E} (hs : list (G1 E)) : forall tv i acc,
  em (poly_loop_mul_t hs i tv acc) (poly_loop_mul hs i tv acc) (fun _ o => o = times (length tv) [Mul1; Add1]).
Proof.
  induction tv as [|x tv IH]; intros i acc; cbn [poly_loop_mul_t poly_loop_mul]; [apply em_ret; reflexivity|].
  apply em_do. intros h _. apply em_tick, em_tick. eapply em_weak; [apply IH|]. intros _ o ->. reflexivity.
Qed.
Definition hv_res {E} (x : res unit * list (G1 E)) : res (list (G1 E)) :=
  match x with (Ok _, l) => Ok l | (Err e, _) => Err e | (Panic p, _) => Panic p end.
Lemma hv_em {E} (hs : list (G1 E)) r : forall hv base,
  em (hv_loop_t hs base r hv) (hv_res (hv_loop hs base r hv)) (fun _ o => o = times (length hv) [Mul1; Add1]).
Proof.
  induction hv as [|x hv IH]; intros base; cbn [hv_loop_t hv_loop]; [apply em_ret; reflexivity|].
  replace (hv_res _) with (bind (nth_res hs base) (fun h => bind (hv_res (hv_loop hs (S base) r hv)) (fun l => Ok (g1_add x (g1_mul r h) :: l)))).
  2:{ destruct (nth_res hs base); [|reflexivity|reflexivity]. cbn [bind]. destruct (hv_loop hs (S base) r hv) as [[] l]; reflexivity. }
  apply em_do. intros h _. apply em_tick, em_tick. eapply em_bind; [apply IH|]. intros l _. apply em_ret. intros o1 ->.
  rewrite app_nil_r. reflexivity.
Qed.
Lemma del_em {E} : forall ts (hv : list (G1 E)) hp,
  em (del_loop_t hv ts hp) (match del_loop hv ts hp with (Ok _, h) => Ok h | (Err e, _) => Err e | (Panic p, _) => Panic p end) (fun _ o => o = path_ops ts).
Proof.
  induction ts as [|t ts IH]; intros hv hp; cbn [del_loop_t del_loop]; [apply em_ret; reflexivity|].
  destruct hv as [|h hv]; [apply em_panic|]. apply em_dbl, em_tick. eapply em_weak; [apply IH|]. intros _ o ->.
  unfold path_ops. cbn [flat_map]. destruct (t =? 2); reflexivity.
Qed.

(** randomization and delegate on a local sub key, without the intermediate states. *)
Lemma rand_pure {E} m (pp : pubparam E) r s : run_mut (randomization m pp r) s =
  let! timevec := ssk_time_vec m s (pp_depth pp) in
  let! h0 := nth_res (pp_hlist pp) 0 in
  let! tmp3 := poly_loop (pp_hlist pp) 0 (tv_vec timevec) h0 in
  let! hv := hv_res (hv_loop (pp_hlist pp) (length (tv_vec timevec) + 1) r (sk_hvec s)) in
  Ok (SubKey (sk_t s) (g2_add (sk_g2r s) (g2_mul r (pp_g2 pp))) (g1_add (sk_hpoly s) (g1_mul r tmp3)) hv).
Proof.
  unfold run_mut, randomization, sbind, sget, sput, slift, ssk_time_vec. cbn [sk_t sk_g2r sk_hpoly sk_hvec].
  destruct (tv_init m (sk_t s) (pp_depth pp)) as [tv| |]; [|reflexivity|reflexivity]. cbn [bind].
  destruct (nth_res (pp_hlist pp) 0) as [h0| |]; [|reflexivity|reflexivity]. cbn [bind].
  destruct (poly_loop (pp_hlist pp) 0 (tv_vec tv) h0) as [p| |]; [|reflexivity|reflexivity]. cbn [bind].
  destruct (hv_loop (pp_hlist pp) (length (tv_vec tv) + 1) r (sk_hvec s)) as [[[]| |] hv]; reflexivity.
Qed.
Lemma rand_em {E} m (pp : pubparam E) r s :
  em (randomization_t m pp r s) (run_mut (randomization m pp r) s)
     (fun _ o => exists tv, ssk_time_vec m s (pp_depth pp) = Ok tv
        /\ o = [Mul2; Add2] ++ path_ops (tv_vec tv) ++ [Mul1; Add1] ++ times (length (sk_hvec s)) [Mul1; Add1]).
Proof.
  rewrite rand_pure. unfold randomization_t. apply em_tick, em_tick, em_do. intros tv Htv. apply em_do. intros h0 _.
  eapply em_bind; [apply poly_em|]. intros p _. apply em_tick, em_tick. eapply em_bind; [apply hv_em|]. intros hv _. apply em_ret.
  intros o1 -> o2 ->. exists tv. split; [exact Htv|]. rewrite app_nil_r. reflexivity.
Qed.
Lemma del_pure {E} m tar d (s : subkey E) : run_mut (delegate m tar d) s =
  let! cur := tv_init m (sk_t s) d in
  let! tv := tv_init m tar d in
  if negb (tv_is_prefix cur tv) then Err E_TIME_NONE_PREFIX
  else
    let! hp := match del_loop (sk_hvec s) (skipn (length (tv_vec cur)) (tv_vec tv)) (sk_hpoly s) with (Ok _, h) => Ok h | (Err e, _) => Err e | (Panic p, _) => Panic p end in
    Ok (SubKey tar (sk_g2r s) hp (skipn (length (tv_vec tv) - length (tv_vec cur)) (sk_hvec s))).
Proof.
  unfold run_mut, delegate, sbind, sget, sput, slift.
  destruct (tv_init m (sk_t s) d) as [cur| |]; [|reflexivity|reflexivity]. cbn [bind].
  destruct (tv_init m tar d) as [tv| |]; [|reflexivity|reflexivity]. cbn [bind].
  destruct (negb (tv_is_prefix cur tv)); [reflexivity|].
  destruct (del_loop (sk_hvec s) (skipn (length (tv_vec cur)) (tv_vec tv)) (sk_hpoly s)) as [[[]| |] hp]; reflexivity.
Qed.
Lemma delegate_em {E} m tar d (s : subkey E) :
  em (delegate_t m tar d s) (run_mut (delegate m tar d) s)
     (fun s' o => sk_t s' = tar /\ exists cur tv, tv_init m (sk_t s) d = Ok cur /\ tv_init m tar d = Ok tv
        /\ o = path_ops (skipn (length (tv_vec cur)) (tv_vec tv))
        /\ length (sk_hvec s') = (length (sk_hvec s) - (length (tv_vec tv) - length (tv_vec cur)))%nat).
Proof.
  rewrite del_pure. unfold delegate_t. apply em_do. intros cur Hc. apply em_do. intros tv Ht. destruct (negb _); [apply em_err|].
  eapply em_bind; [apply del_em|]. intros hp _. apply em_ret. intros o1 ->. cbn [sk_t sk_hvec]. split; [reflexivity|]. exists cur, tv.
  rewrite app_nil_r, skipn_length. auto.
Qed.

(** * update *)
Lemma rerand_em {E} m (pp : pubparam E) old i s g :
  em (rerand_new_t m pp old i s g) (rerand_new m pp old i s g)
     (fun _ o => if (i =? 0)%nat then o = [] else exists tv, ssk_time_vec m s (pp_depth pp) = Ok tv
        /\ o = [Draw; Mul2; Add2] ++ path_ops (tv_vec tv) ++ [Mul1; Add1] ++ times (length (sk_hvec s)) [Mul1; Add1]).
Proof.
  unfold rerand_new_t, rerand_new. destruct (i =? 0)%nat; [apply em_ret; reflexivity|].
  apply em_tick, em_do. intros [r g'] _. destruct (prng_eqb g' old); [apply em_panic|].
  eapply em_bind; [apply rand_em|]. intros s' _. apply em_ret. intros o1 (tv & Ht & ->). exists tv. split; [exact Ht|].
  rewrite app_nil_r. reflexivity.
Qed.
Fixpoint loop_ops (k h : nat) (first : bool) (l : list timevec) : trace :=
  match l with
  | [] => []
  | tv :: l' => path_ops (skipn k (tv_vec tv))
      ++ (if first then [] else [Draw; Mul2; Add2] ++ path_ops (tv_vec tv) ++ [Mul1; Add1] ++ times (h - (length (tv_vec tv) - k)) [Mul1; Add1])
      ++ loop_ops k h false l'
  end.
Lemma insert_facts {A} i (x : A) l l' : insert_at (i + 1) x l = Ok l' -> length l' = S (length l) /\ nth_error l' 0 = nth_error l 0.
Proof.
  unfold insert_at. destruct (i + 1 <=? length l)%nat eqn:Hi; [|discriminate]. intros H. injection H as <-.
  apply Nat.leb_le in Hi. split.
  - rewrite app_length. cbn [length]. rewrite firstn_length, skipn_length. lia.
  - destruct l as [|a l]; [cbn in Hi; lia|]. rewrite Nat.add_1_r. reflexivity.
Qed.
Lemma loop_em {E} m (pp : pubparam E) old s0 cur : tv_init m (sk_t s0) (pp_depth pp) = Ok cur -> forall gl i l g,
  Forall (fun tv => tv_init m (tv_time tv) (pp_depth pp) = Ok tv) gl -> nth_error l 0 = Some s0 ->
  em (update_loop_t m pp old i gl l g) (update_loop m pp old i gl l g)
     (fun x o => exists n, length (fst x) = (length l + n)%nat /\ (n <= length gl)%nat
        /\ o = loop_ops (length (tv_vec cur)) (length (sk_hvec s0)) (i =? 0)%nat (firstn n gl)).
Proof.
  intros Hcur. induction gl as [|tv gl IH]; intros i l g Hgl H0; cbn [update_loop_t update_loop].
  - apply em_ret. exists 0%nat. cbn [fst firstn loop_ops length]. split; [lia|]. split; [lia|reflexivity].
  - apply em_do. intros found _. destruct found.
    { apply em_ret. exists 0%nat. cbn [fst firstn loop_ops length]. split; [lia|]. split; [lia|reflexivity]. }
    apply em_do. intros s Hs. assert (s = s0) as ->.
    { unfold nth_res in Hs. rewrite H0 in Hs. injection Hs as <-. reflexivity. }
    eapply em_bind; [apply delegate_em|]. intros s1 _. eapply em_bind; [apply rerand_em|]. intros [s2 g'] _.
    apply em_do. intros l' Hl'. destruct (insert_facts _ _ _ _ Hl') as [Hlen Hh].
    eapply em_weak; [apply IH; [exact (Forall_inv_tail Hgl)|rewrite Hh; exact H0]|].
    intros [l2 g2] o (n & Hn & Hle & ->) o1 Ho1 o2 (Ht & cur' & tv' & Hc & Htv & -> & Hhv).
    rewrite Hcur in Hc. injection Hc as <-. rewrite (Forall_inv Hgl) in Htv. injection Htv as <-.
    exists (S n). cbn [fst length firstn loop_ops] in *. split; [lia|]. split; [lia|].
    change (S i =? 0)%nat with false. f_equal. destruct (i =? 0)%nat; [rewrite Ho1; reflexivity|].
    destruct Ho1 as (tv2 & Ht2 & ->). unfold ssk_time_vec in Ht2. rewrite Ht, (Forall_inv Hgl) in Ht2. injection Ht2 as <-.
    rewrite Hhv. rewrite <- !app_assoc. reflexivity.
Qed.
(** The results, for any key. *)
Definition em0 {A} (x : st trace A) (r : res A) : Prop := em x r (fun _ _ => True).
Lemma em0_of {A} (x : st trace A) r (Q : A -> trace -> Prop) : em x r Q -> em0 x r.
Proof. intros H. eapply em_weak; [exact H|]. auto. Qed.
Lemma em0_bind {A B} (x : st trace A) (r : res A) k (f : A -> res B) : em0 x r -> (forall a, r = Ok a -> em0 (k a) (f a)) -> em0 (sbind x k) (bind r f).
Proof. intros H Hk. eapply em_bind; [exact H|]. intros a Ha. eapply em_weak; [apply Hk, Ha|]. auto. Qed.
Lemma loop_em0 {E} m (pp : pubparam E) old : forall gl i l g, em0 (update_loop_t m pp old i gl l g) (update_loop m pp old i gl l g).
Proof.
  induction gl as [|tv gl IH]; intros i l g; cbn [update_loop_t update_loop]; [apply em_ret; exact I|].
  apply em_do. intros [] _; [apply em_ret; exact I|]. apply em_do. intros s _.
  apply em0_bind; [eapply em0_of, delegate_em|]. intros s1 _. apply em0_bind; [eapply em0_of, rerand_em|]. intros [s2 g'] _.
  apply em_do. intros l' _. apply IH.
Qed.
Lemma update_pure {E} m (pp : pubparam E) tar seed self : run_mut (update m pp tar seed) self =
  if negb (sec_cs self =? pp_cs pp) then Err E_CIPHERSUITE
  else
    let! p := shl64 m (pp_depth pp) in
    let! max_time := sub64 m p 1 in
    if (tar <=? sec_time self) || (max_time <? tar) then Err E_TIME_STAMP
    else
      let! dt := find_ancestor self tar in
      let! g := rerandomize (sha512 E) (sec_prng self) seed (DOM_SEP_SK_RERANDOMIZE_INFO ++ time_bytes (sec_time self)) in
      let! ssk := drop_until dt (sec_ssk self) in
      match ssk with
      | [] => Err E_SSK_EMPTY
      | _ :: _ =>
        if dt =? tar then Ok (SecKey (sec_cs self) dt ssk g)
        else
          let! tv := tv_init m tar (pp_depth pp) in
          let! gl := gamma_list m tv (pp_depth pp) in
          let! (ssk', g') := update_loop m pp (sec_prng self) 0 gl ssk g in
          let! ssk'' := remove_at 0 ssk' in
          let! s0 := nth_res ssk'' 0 in
          Ok (SecKey (sec_cs self) (sk_t s0) ssk'' g')
      end.
Proof.
  unfold run_mut, update, sbind, sget, sput, slift. destruct (negb _); [reflexivity|].
  destruct (shl64 m (pp_depth pp)) as [p| |]; [|reflexivity|reflexivity]. cbn [bind].
  destruct (sub64 m p 1) as [mt| |]; [|reflexivity|reflexivity]. cbn [bind].
  destruct (_ || _); [reflexivity|]. destruct (find_ancestor self tar) as [dt| |]; [|reflexivity|reflexivity]. cbn [bind].
  destruct (rerandomize _ _ _ _) as [g| |]; [|reflexivity|reflexivity]. cbn [bind].
  destruct (drop_until dt (sec_ssk self)) as [ssk| |]; [|reflexivity|reflexivity]. cbn [bind].
  destruct ssk as [|s ssk]; [reflexivity|]. destruct (dt =? tar); [reflexivity|].
  destruct (tv_init m tar (pp_depth pp)) as [tv| |]; [|reflexivity|reflexivity]. cbn [bind].
  destruct (gamma_list m tv (pp_depth pp)) as [gl| |]; [|reflexivity|reflexivity]. cbn [bind].
  destruct (update_loop m pp (sec_prng self) 0 gl (s :: ssk) g) as [[ssk' g']| |]; [|reflexivity|reflexivity]. cbn [bind].
  destruct (remove_at 0 ssk') as [ssk2| |]; [|reflexivity|reflexivity]. cbn [bind].
  destruct (nth_res ssk2 0) as [s0| |]; reflexivity.
Qed.
Lemma update_em0 {E} m (pp : pubparam E) tar seed sk : em0 (update_t m pp tar seed sk) (run_mut (update m pp tar seed) sk).
Proof.
  rewrite update_pure. unfold update_t. destruct (negb _); [apply em_err|]. apply em_do. intros p _. apply em_do. intros mt _.
  destruct (_ || _); [apply em_err|]. apply em_do. intros dt _. apply em_tick, em_do. intros g _. apply em_do. intros ssk _.
  destruct ssk as [|s ssk]; [apply em_err|]. destruct (dt =? tar); [apply em_ret; exact I|].
  apply em_do. intros tv _. apply em_do. intros gl _. apply em0_bind; [apply loop_em0|]. intros [ssk' g'] _.
  apply em_do. intros ssk2 _. apply em_do. intros s0 _. apply em_ret. exact I.
Qed.
Lemma update_t_fst {E} m (pp : pubparam E) tar seed sk l : fst (update_t m pp tar seed sk l) = run_mut (update m pp tar seed) sk.
Proof. destruct (update_em0 m pp tar seed sk) as (o & H & _). rewrite H. reflexivity. Qed.

(** The delegator is unique. *)
Lemma split_fun {E} tar : forall (p p' : list (subkey E)) a a' q q', p ++ a :: q = p' ++ a' :: q' -> sk_t a <= tar -> sk_t a' <= tar ->
  Forall (fun s => tar < sk_t s) q -> Forall (fun s => tar < sk_t s) q' -> q' = q /\ a' = a.
Proof.
  induction p as [|b p IH]; intros p' a a' q q' He Ha Ha' Hq Hq'; destruct p' as [|b' p']; cbn [app] in He.
  - injection He as -> ->. auto.
  - injection He as <- ->. exfalso. rewrite Forall_app in Hq. destruct Hq as [_ Hq]. apply Forall_inv in Hq. lia.
  - injection He as <- <-. exfalso. rewrite Forall_app in Hq'. destruct Hq' as [_ Hq']. apply Forall_inv in Hq'. lia.
  - injection He as -> He. eapply IH; eassumption.
Qed.
Lemma loop_ops_flat d k : forall l, Forall (fun tv => (k <= length (tv_vec tv) <= d)%nat) l ->
  loop_ops k (d - k) false l = flat_map (fun w => path_ops (skipn k w) ++ rerand_ops d w) (map tv_vec l).
Proof.
  induction l as [|tv l IH]; intros H; cbn [loop_ops map flat_map]; [reflexivity|]. rewrite IH by exact (Forall_inv_tail H).
  apply Forall_inv in H. unfold rerand_ops. replace (d - k - (length (tv_vec tv) - k))%nat with (d - length (tv_vec tv))%nat by lia.
  rewrite <- !app_assoc. reflexivity.
Qed.
Lemma tv_ok m d t v : (d < 64)%nat -> node_at d t v -> tv_init m t d = Ok (TimeVec t v).
Proof. intros Hd. apply (proj2 (tv_init_ok m d t v Hd)). Qed.
Lemma node_len d t v : node_at d t v -> (length v < d)%nat.
Proof. intros H. apply node_at_ptime in H as [H _]. apply H. Qed.

Lemma update_ops_good {E} (L : env_laws E) m (pp : pubparam E) x tar seed sk l sk' l' :
  pp_ok pp -> good_sk pp x sk -> update_t m pp tar seed sk l = (Ok sk', l') ->
  exists s va vs, In s (sec_ssk sk) /\ (exists w, node_at (pp_depth pp) tar (va ++ w))
    /\ node_at (pp_depth pp) (sk_t s) va /\ Forall2 (node_at (pp_depth pp)) (new_times sk sk') vs
    /\ l' = l ++ update_ops (pp_depth pp) va vs.
Proof.
  intros Hpp Hg Hu. pose proof (update_t_fst m pp tar seed sk l) as Hr. rewrite Hu in Hr. cbn [fst] in Hr. symmetry in Hr.
  pose proof (ppo_depth pp Hpp) as Hd.
  destruct (update_shape L m pp x sk tar seed sk' Hpp Hg Hr) as (pre & ta & va & r & post & Hsp & Hcase).
  assert (Ht : sec_time sk < tar <= last_time (pp_depth pp)).
  { revert Hr. rewrite update_pure. destruct (negb _); [discriminate|].
    pose proof (max_time_ok m (pp_depth pp) Hd) as Hmax. destruct (shl64 m (pp_depth pp)) as [p| |]; try discriminate.
    cbn [bind] in Hmax |- *. rewrite Hmax. cbn [bind].
    destruct ((tar <=? sec_time sk) || (last_time (pp_depth pp) <? tar)) eqn:Hb; [discriminate|]. intros _. lia. }
  destruct (find_ancestor_good pp x sk tar Hpp Hg Ht) as (pre' & ta' & va' & r' & post' & Hsp' & Hfa & Hdu).
  destruct Hsp as [Hl Hn Hc Hpre Htil Hpost]. destruct Hsp' as [Hl' _ Hc' _ _ Hpost'].
  assert (Hsame : post' = post /\ honest_ssk pp x ta' va' r' = honest_ssk pp x ta va r).
  { rewrite Hl in Hl'. refine (split_fun tar _ _ _ _ _ _ Hl' _ _ Hpost Hpost'); cbn [honest_ssk sk_t]; lia. }
  destruct Hsame as [-> Hsame]. assert (Hta : ta' = ta) by (exact (f_equal sk_t Hsame)). subst ta'. rewrite Hsame in Hdu. clear Hl' Hc' Hpost' Hsame va' r' pre'.
  set (s0 := honest_ssk pp x ta va r) in *. assert (Hs0 : sk_t s0 = ta) by reflexivity.
  exists s0, va. revert Hu. unfold update_t. rewrite (gsk_cs pp x sk Hg), N.eqb_refl. cbn [negb].
  pose proof (max_time_ok m (pp_depth pp) Hd) as Hmax. unfold sbind, slift, sret, tick.
  destruct (shl64 m (pp_depth pp)) as [p| |]; try discriminate Hmax. cbn [bind] in Hmax. rewrite Hmax.
  replace (tar <=? sec_time sk) with false by lia. replace (last_time (pp_depth pp) <? tar) with false by lia. cbn [orb]. rewrite Hfa.
  destruct (rerandomize _ _ _ _) as [g| |]; try discriminate. rewrite Hdu.
  assert (Hfirst : In s0 (sec_ssk sk)) by (rewrite Hl; apply in_or_app; right; left; reflexivity).
  destruct Hcase as [(He & Hsk' & Hnew)|(Hlt & v & gpre & gpost & Hnv & Hgl & [w Hw] & Hnodes & Hsk' & Hnew)].
  - rewrite He, N.eqb_refl. intros H. injection H as _ <-. exists []. rewrite Hnew. split; [apply Hfirst|]. split; [exists []; rewrite app_nil_r, <- He; exact Hn|].
    split; [exact Hn|]. split; [constructor|]. reflexivity.
  - replace (ta =? tar) with false by lia.
    rewrite (tv_ok m (pp_depth pp) tar v ltac:(lia) Hnv), Hgl.
    destruct (gamma_split m pp ta va tar (TimeVec tar v) post Hpp Hn ltac:(lia) Htil (tv_ok m (pp_depth pp) tar v ltac:(lia) Hnv))
      as (gp & gq & Hgl2 & _ & _ & _ & Hq & Hp & _).
    assert (Hall : Forall (fun tv => tv_init m (tv_time tv) (pp_depth pp) = Ok tv) (TimeVec tar v :: gpre ++ gpost)).
    { rewrite Hgl in Hgl2. injection Hgl2 as ->. apply Forall_app. split; [|exact Hq]. eapply Forall_impl; [|exact Hp].
      intros [t u] [H _]. apply tv_ok; [lia|exact H]. }
    destruct (loop_em m pp (sec_prng sk) s0 (TimeVec ta va) (tv_ok m (pp_depth pp) ta va ltac:(lia) Hn)
                (TimeVec tar v :: gpre ++ gpost) 0 (s0 :: post) g Hall eq_refl) as (o & Ho & HQ).
    rewrite Ho. destruct (update_loop m pp (sec_prng sk) 0 (TimeVec tar v :: gpre ++ gpost) (s0 :: post) g) as [[ssk' g']| |] eqn:Eloop; try discriminate.
    destruct (HQ _ eq_refl) as (n & Hn1 & Hn2 & ->). cbn [fst] in Hn1.
    unfold remove_at. destruct (0 <? length ssk')%nat eqn:Hlen; [|discriminate]. cbn [firstn app]. destruct ssk' as [|s1 ssk']; [discriminate Hlen|].
    cbn [skipn]. destruct (nth_res ssk' 0) as [s2| |]; try discriminate. intros H. injection H as <- <-. cbn [sec_ssk] in Hsk'.
    assert (Hn3 : n = S (length gpre)).
    { rewrite Hsk' in Hn1. cbn [length] in Hn1. rewrite app_length, map_length, combine_length, seq_length in Hn1. cbn [length] in Hn1. lia. }
    exists (v :: map tv_vec gpre). rewrite Hnew. split; [apply Hfirst|]. split; [exists w; rewrite <- Hw; exact Hnv|]. split; [exact Hn|].
    split. { constructor; [exact Hnv|]. clear - Hnodes. induction Hnodes as [|tv l [H _] _ IH]; cbn [map]; constructor; assumption. }
    subst n. cbn [firstn tv_vec Nat.eqb loop_ops]. rewrite firstn_app, Nat.sub_diag, firstn_all. cbn [firstn app]. rewrite app_nil_r.
    assert (Hh : length (sk_hvec s0) = (pp_depth pp - length va)%nat) by (apply hvec_len, Hpp). cbn [sk_hvec s0 honest_ssk] in Hh. rewrite Hh, loop_ops_flat.
    + unfold update_ops. rewrite <- app_assoc. reflexivity.
    + eapply Forall_impl; [|exact Hnodes]. intros tv [H1 (u & _ & Hu1)]. pose proof (node_len _ _ _ H1) as Hx. assert (length va <= length (tv_vec tv))%nat by (rewrite Hu1, app_length; lia). lia.
Qed.

(** * From times to paths *)
Lemma path_eqb_spec u w : path_eqb u w = true <-> u = w.
Proof. unfold path_eqb. destruct (list_eq_dec N.eq_dec u w); split; intros; congruence. Qed.
Lemma node_ok d t v : node_at d t v -> node d t = v.
Proof. intros [_ H]. unfold node. apply nth_error_nth, H. Qed.
Lemma tiling_one d : forall l t a b s, tiling d t l -> In a l -> In b l -> below d a s -> below d b s -> a = b.
Proof.
  induction l as [|c l IH]; intros t a b s Ht Ha Hb Has Hbs; [destruct Ha|]. inversion Ht as [|? v ? Hn Hl]; subst.
  assert (Hc : below d c s -> forall e, In e l -> below d e s -> False).
  { intros H1 e He H2. apply (below_interval _ _ _ _ Hn) in H1. pose proof (tiling_no_past _ _ _ _ _ Hl He H2). lia. }
  destruct Ha as [<-|Ha], Hb as [<-|Hb]; [reflexivity|exfalso; eapply Hc; eauto|exfalso; eapply Hc; eauto|]. eapply IH; eassumption.
Qed.
Lemma find_one {A} (f : A -> bool) x : forall l, In x l -> f x = true -> (forall y, In y l -> f y = true -> y = x) -> find f l = Some x.
Proof.
  induction l as [|y l IH]; intros Hi Hx Hu; [destruct Hi|]. cbn [find]. destruct (f y) eqn:Hy; [rewrite (Hu y (or_introl eq_refl) Hy); reflexivity|].
  apply IH; [destruct Hi as [<-|Hi]; [congruence|exact Hi]|exact Hx|]. intros z Hz. apply Hu. right. exact Hz.
Qed.
Lemma mem_times d l w : Forall (valid_path d) l -> valid_path d w -> existsb (N.eqb (ptime d w)) (map (ptime d) l) = existsb (path_eqb w) l.
Proof.
  intros Hl Hw. induction Hl as [|u l Hu Hl IH]; [reflexivity|]. cbn [map existsb]. rewrite IH. f_equal.
  destruct (path_eqb w u) eqn:He; [apply path_eqb_spec in He as ->; apply N.eqb_refl|]. apply N.eqb_neq. intros H.
  apply (ptime_inj d w u Hw Hu) in H. apply path_eqb_spec in H. congruence.
Qed.
Lemma filter_times d l : Forall (valid_path d) l -> forall l', Forall (valid_path d) l' ->
  Forall2 (node_at d) (filter (fun t => negb (existsb (N.eqb t) (map (ptime d) l))) (map (ptime d) l')) (filter (fun w => negb (existsb (path_eqb w) l)) l').
Proof.
  intros Hl l' H. induction H as [|w l' Hw _ IH]; [constructor|]. cbn [map filter]. rewrite (mem_times d l w Hl Hw).
  destruct (negb _); [constructor; [apply node_at_ptime; auto|exact IH]|exact IH].
Qed.
Lemma nodes_fun d : forall ts vs ws, Forall2 (node_at d) ts vs -> Forall2 (node_at d) ts ws -> vs = ws.
Proof.
  induction ts as [|t ts IH]; intros vs ws Hv Hw; inversion Hv; inversion Hw; subst; [reflexivity|].
  f_equal; [eapply node_at_fun; eassumption|]. apply IH; assumption.
Qed.
Lemma update_ops_move {E} (L : env_laws E) m (pp : pubparam E) x tar seed sk l sk' l' :
  pp_ok pp -> good_sk pp x sk -> update_t m pp tar seed sk l = (Ok sk', l') ->
  l' = l ++ move_ops (pp_depth pp) (node (pp_depth pp) (sec_time sk)) (node (pp_depth pp) tar).
Proof.
  intros Hpp Hg Hu. pose proof (update_t_fst m pp tar seed sk l) as Hr. rewrite Hu in Hr. cbn [fst] in Hr. symmetry in Hr.
  destruct (update_ops_good L m pp x tar seed sk l sk' l' Hpp Hg Hu) as (s & va & vs & Hs & [w Hw] & Hn & Hvs & ->). f_equal.
  pose proof (update_cases L m pp x sk tar seed Hpp Hg) as Hc. unfold run_mut in Hr.
  assert (Hg' : good_sk pp x sk' /\ sec_time sk' = tar).
  { destruct (in_range pp sk tar); [destruct Hc as [(sk2 & Hc & Hg2 & Ht2)|[Hc _]]|]; rewrite Hc in Hr; try discriminate Hr. injection Hr as <-. auto. }
  destruct Hg' as [Hg' Htar]. set (d := pp_depth pp) in *.
  destruct (good_sk_head pp x sk Hg) as (v & r & ssks & Hv & _). fold d in Hv.
  destruct (good_sk_head pp x sk' Hg') as (v' & r' & ssks' & Hv' & _). fold d in Hv'. rewrite Htar in Hv'.
  pose proof (node_at_fun _ _ _ _ Hv' Hw) as He. rewrite (node_ok d _ _ Hv), (node_ok d _ _ Hv').
  destruct (key_times pp x sk v Hpp Hg Hv) as [Hkt Hkv]. rewrite <- Htar in Hv'. destruct (key_times pp x sk' v' Hpp Hg' Hv') as [Hkt' Hkv']. rewrite Htar in Hv'.
  fold d in Hkt, Hkv, Hkt', Hkv'. unfold move_ops. f_equal.
  - unfold source. fold (key_paths v) in Hkt, Hkv.
    assert (Hin : forall u, In u (key_paths v) -> path_eqb u (firstn (length u) v') = true -> In (ptime d u) (map sk_t (sec_ssk sk)) /\ below d (ptime d u) tar /\ valid_path d u).
    { intros u Hu' Hp. rewrite Forall_forall in Hkv. specialize (Hkv u Hu'). split; [rewrite Hkt; apply in_map, Hu'|]. split; [|exact Hkv].
      apply path_eqb_spec in Hp. exists u, (skipn (length u) v'). split; [apply node_at_ptime; auto|].
      replace (u ++ skipn (length u) v') with v'; [exact Hv'|]. rewrite Hp at 1. symmetry. rewrite <- (firstn_skipn (length u) v') at 3. reflexivity. }
    assert (Hva : In va (key_paths v)).
    { assert (H : In (sk_t s) (map (ptime d) (key_paths v))) by (rewrite <- Hkt; apply in_map, Hs). apply in_map_iff in H as (u & H1 & H2).
      rewrite Forall_forall in Hkv. assert (node_at d (sk_t s) u) by (apply node_at_ptime; auto). rewrite (node_at_fun _ _ _ _ Hn H). exact H2. }
    assert (Hpa : path_eqb va (firstn (length va) v') = true).
    { apply path_eqb_spec. rewrite He, firstn_app, Nat.sub_diag, firstn_all, app_nil_r. reflexivity. }
    rewrite (find_one _ va (key_paths v) Hva Hpa); [reflexivity|]. intros u Hu' Hp.
    destruct (Hin u Hu' Hp) as (H1 & H2 & H3). destruct (Hin va Hva Hpa) as (H4 & H5 & H6).
    apply (ptime_inj d); [exact H3|exact H6|]. exact (tiling_one d _ _ _ _ _ (gsk_til pp x sk Hg) H1 H4 H2 H5).
  - eapply nodes_fun; [exact Hvs|]. unfold new_times, new_paths. rewrite Hkt, Hkt'. apply filter_times; assumption.
Qed.

(** * The other calls *)
Lemma muls_em {E : env} r : forall l : list (G1 E), em (muls_t r l) (Ok (map (g1_mul r) l)) (fun _ o => o = times (length l) [Mul1]).
Proof.
  induction l as [|h l IH]; cbn [muls_t map]; [apply em_ret; reflexivity|].
  apply em_tick. change (Ok (g1_mul r h :: map (g1_mul r) l)) with (bind (Ok (map (g1_mul r) l)) (fun hs => Ok (g1_mul r h :: hs))).
  eapply em_bind; [exact IH|]. intros hs _. apply em_ret. intros o ->. rewrite app_nil_r. reflexivity.
Qed.
Lemma ssk_init_em {E} (pp : pubparam E) alpha r : em (ssk_init_t pp alpha r) (ssk_init pp alpha r)
  (fun _ o => o = [Mul2; Mul1; Add1] ++ times (length (skipn 1 (firstn (pp_depth pp + 1) (pp_hlist pp)))) [Mul1]).
Proof.
  unfold ssk_init_t, ssk_init. apply em_tick, em_do. intros h0 _. apply em_tick, em_tick.
  match goal with |- em (sbind (muls_t r ?l) _) _ _ => 
    change (em (sbind (muls_t r l) (fun hv => sret (SubKey 1 (g2_mul r (pp_g2 pp)) (g1_add (g1_mul r h0) alpha) hv)))
      (bind (Ok (map (g1_mul r) l)) (fun hv => Ok (SubKey 1 (g2_mul r (pp_g2 pp)) (g1_add (g1_mul r h0) alpha) hv)))
      (fun (_ : subkey E) o => Mul2 :: Mul1 :: Add1 :: o = [Mul2; Mul1; Add1] ++ times (length l) [Mul1])) end.
  eapply em_bind; [apply muls_em|]. intros hv _. apply em_ret. intros o ->. rewrite app_nil_r. reflexivity.
Qed.
Lemma key_gen_em {E} seed (pp : pubparam E) : em (key_gen_t seed pp) (key_gen seed pp)
  (fun _ o => (pp_depth pp < length (pp_hlist pp))%nat -> o = keygen_ops (pp_depth pp)).
Proof.
  unfold key_gen_t, key_gen. destruct (length seed <? 32)%nat eqn:Hs; [apply em_err|].
  apply em_bind with (P := fun _ o => o = [Draw; Mul2; BlsSign; Mul1]).
  { unfold master_key_gen_t, master_key_gen. rewrite Hs. destruct (negb _); [apply em_err|]. apply em_tick, em_do. intros [x g'] _.
    apply em_tick, em_tick, em_tick, em_ret. reflexivity. }
  intros [[[pk msk] pop] g] _. apply em_do. intros pk' _.
  apply em_bind with (P := fun _ o => o = [Draw; Mul2; Mul1; Add1] ++ times (length (skipn 1 (firstn (pp_depth pp + 1) (pp_hlist pp)))) [Mul1]).
  { unfold sk_init_t, sk_init. destruct (negb _); [apply em_err|]. apply em_tick, em_do. intros [r g'] _.
    eapply em_bind; [apply ssk_init_em|]. intros s _. apply em_ret. intros o ->. rewrite app_nil_r. reflexivity. }
  intros sk _. apply em_ret. intros o1 -> o2 -> Hl. rewrite skipn_length, firstn_length, app_nil_r.
  replace (Nat.min (pp_depth pp + 1) (length (pp_hlist pp)) - 1)%nat with (pp_depth pp) by lia. reflexivity.
Qed.
Lemma sign_em {E} m (sk : seckey E) t (pp : pubparam E) msg : em (sign_bytes_t m sk t pp msg) (sign_bytes m sk t pp msg)
  (fun _ o => exists s tv, first_ssk sk = Ok s /\ tv_init m (sk_t s) (pp_depth pp) = Ok tv /\ o = sign_ops (tv_vec tv)).
Proof.
  unfold sign_bytes_t, sign_bytes. destruct (negb _); [apply em_err|]. destruct (negb _); [apply em_err|].
  destruct (negb (sec_time sk =? t)) eqn:Ht; [apply em_panic|]. apply em_tick, em_do. intros r _. apply em_tick, em_do. intros hm _.
  unfold sign_fr_t, sign_fr. rewrite Ht. apply em_do. intros s Hs. apply em_do. intros tv Htv. apply em_tick, em_tick, em_do. intros h0 _.
  eapply em_bind; [apply poly_em|]. intros p _. apply em_do. intros hd _. apply em_tick, em_tick, em_tick, em_do. intros hl _.
  apply em_tick, em_tick, em_tick, em_ret. intros o ->. exists s, tv. auto.
Qed.
Lemma verify_em {E} m (s : signature E) pk (pp : pubparam E) msg : em (verify_t m s pk pp msg) (verify m s pk pp msg)
  (fun b o => b = true -> exists tv, tv_init m (sig_time s) (pp_depth pp) = Ok tv /\ o = verify_ops (tv_vec tv)).
Proof.
  unfold verify_t, verify. destruct (negb _); [apply em_ret; discriminate|]. destruct (negb _); [apply em_ret; discriminate|].
  apply em_tick, em_do. intros hm _. unfold verify_fr_t, verify_fr. apply em_tick.
  destruct (g2_insub (sig_1 s)); cbn [negb orb].
  2:{ exists []. split; [intros l; rewrite app_nil_r; reflexivity|]. intros a Ha. injection Ha as <-. discriminate. }
  assert (Hassoc : forall k : bool -> st trace bool, forall r Q, em (k (negb (g1_insub (sig_2 s)))) r (fun b o => Q b (In1 :: o)) ->
    em (sbind (do! _ <- tick In1; sret (negb (g1_insub (sig_2 s)))) k) r Q).
  { intros k r Q (o & Ho & HQ). exists (In1 :: o). split; [|exact HQ]. intros l. unfold sbind, tick, sret. rewrite Ho, <- app_assoc. reflexivity. }
  apply Hassoc. clear Hassoc. destruct (g1_insub (sig_2 s)); cbn [negb]; [|apply em_ret; discriminate].
  apply em_do. intros h0 _. destruct (tv_init m (sig_time s) (pp_depth pp)) as [tv|e|p] eqn:Et; [|apply em_ret; discriminate|apply em_panic].
  eapply em_bind; [apply poly_em|]. intros q _. apply em_do. intros hd _. apply em_tick, em_tick, em_tick, em_tick, em_ret. intros o -> _. exists tv. auto.
Qed.
Lemma agg_loop_em {E} : forall l (r : signature E), em (agg_loop_t r l)
  (Ok (fold_left (fun r e => Signature (sig_cs r) (sig_time r) (g2_add (sig_1 r) (sig_1 e)) (g1_add (sig_2 r) (sig_2 e))) l r))
  (fun _ o => o = times (length l) [Add2; Add1]).
Proof.
  induction l as [|e l IH]; intros r; cbn [agg_loop_t fold_left]; [apply em_ret; reflexivity|].
  apply em_tick, em_tick. eapply em_weak; [apply IH|]. intros _ o ->. reflexivity.
Qed.
Lemma aggregate_em {E} (l : list (signature E)) : em (aggregate_t l) (aggregate l) (fun _ o => o = times (length l - 1) [Add2; Add1]).
Proof.
  destruct l as [|s l]; cbn [aggregate_t aggregate]; [apply em_panic|]. apply em_do. intros _ _. cbn [length]. rewrite Nat.sub_succ, Nat.sub_0_r. apply agg_loop_em.
Qed.
Lemma pk_loop_em {E : env} : forall (l : list (pubkey E)) a, em (pk_loop_t a l) (Ok (fold_left (fun a e => g2_add a (pk_pk e)) l a)) (fun _ o => o = times (length l) [Add2]).
Proof.
  induction l as [|e l IH]; intros a; cbn [pk_loop_t fold_left]; [apply em_ret; reflexivity|].
  apply em_tick. eapply em_weak; [apply IH|]. intros _ o ->. reflexivity.
Qed.
Lemma verify_aggregated_em {E} m (s : signature E) pks (pp : pubparam E) msg : em (verify_aggregated_t m s pks pp msg) (verify_aggregated m s pks pp msg)
  (fun b o => b = true -> exists tv, tv_init m (sig_time s) (pp_depth pp) = Ok tv /\ o = times (length pks - 1) [Add2] ++ verify_ops (tv_vec tv)).
Proof.
  unfold verify_aggregated_t, verify_aggregated. destruct (negb _); [apply em_ret; discriminate|]. destruct (negb _); [apply em_ret; discriminate|].
  destruct pks as [|k pks]; [apply em_panic|]. cbn [length]. rewrite Nat.sub_succ, Nat.sub_0_r.
  match goal with |- em (sbind (pk_loop_t ?p ?l) ?kk) _ ?Q =>
    change (em (sbind (pk_loop_t p l) kk) (bind (Ok (fold_left (fun a e => g2_add a (pk_pk e)) l p)) (fun agg => verify m s (PubKey (pp_cs pp) agg) pp msg)) Q) end.
  eapply em_bind; [apply pk_loop_em|]. intros a _. eapply em_weak; [apply verify_em|]. intros b o Hb o1 -> Hb'. destruct (Hb Hb') as (tv & Ht & ->). exists tv. auto.
Qed.
Lemma ssk_validate_em {E} m (s : subkey E) pk pp : em (ssk_validate_t m s pk pp) (ssk_validate m s pk pp)
  (fun b o => b = true -> exists tv, tv_init m (sk_t s) (pp_depth pp) = Ok tv /\ o = validate_ops (tv_vec tv)).
Proof.
  unfold ssk_validate_t, ssk_validate. destruct (tv_init m (sk_t s) (pp_depth pp)) as [tv|e|p] eqn:Et; [|apply em_ret; discriminate|apply em_panic].
  apply em_do. intros h0 _. eapply em_bind; [apply poly_mul_em|]. intros q _. apply em_tick, em_tick, em_ret. intros o -> _. exists tv. auto.
Qed.
Lemma validate_loop_em {E} m pk (pp : pubparam E) : forall l gl, em (validate_loop_t m pk pp l gl) (validate_loop m pk pp l gl)
  (fun b o => b = true -> exists vs, Forall2 (fun s v => tv_init m (sk_t s) (pp_depth pp) = Ok v) l vs /\ o = flat_map (fun v => validate_ops (tv_vec v)) vs).
Proof.
  induction l as [|s l IH]; intros gl; cbn [validate_loop_t validate_loop]; [apply em_ret; intros _; exists []; split; [constructor|reflexivity]|].
  eapply em_bind; [apply ssk_validate_em|]. intros [] _; cbn [negb]; [|apply em_ret; discriminate].
  destruct gl as [|t gl]; [apply em_panic|]. destruct (negb _); [apply em_ret; discriminate|].
  eapply em_weak; [apply IH|]. intros b o Hb o1 Ho1 Hb'. destruct (Ho1 eq_refl) as (v & Hv & ->). destruct (Hb Hb') as (vs & Hvs & ->).
  exists (v :: vs). split; [constructor; assumption|reflexivity].
Qed.
Lemma sk_validate_em {E} m (sk : seckey E) pk pp : em (sk_validate_t m sk pk pp) (sk_validate m sk pk pp)
  (fun b o => b = true -> exists vs, Forall2 (fun s v => tv_init m (sk_t s) (pp_depth pp) = Ok v) (sec_ssk sk) vs /\ o = flat_map (fun v => validate_ops (tv_vec v)) vs).
Proof.
  unfold sk_validate_t, sk_validate. destruct (_ || _); [apply em_ret; discriminate|].
  destruct (tv_init m (sec_time sk) (pp_depth pp)) as [tv|e|p]; [|apply em_ret; discriminate|apply em_panic].
  destruct (gamma_list m tv (pp_depth pp)) as [gl|e|p]; [|apply em_ret; discriminate|apply em_panic]. apply validate_loop_em.
Qed.

(** * Histories: results, keys and operations *)
(** The state [x] of a call on key and trace has the results and keys of [y]; [l'] is what is added. *)
Definition em2 {E A} (x : st (seckey E * trace) A) (y : st (seckey E) A) (sk : seckey E) (Q : trace -> Prop) : Prop :=
  exists o, (forall l, x (sk, l) = (fst (y sk), (snd (y sk), l ++ o))) /\ (forall a, fst (y sk) = Ok a -> Q o).
Lemma upd_em2 {E} m (pp : pubparam E) t seed sk :
  exists o, (forall l, sk_update_t m pp t seed (sk, l) = (fst (update m pp t seed sk), (snd (update m pp t seed sk), l ++ o)))
    /\ (forall l, update_t m pp t seed sk l = (run_mut (update m pp t seed) sk, l ++ o)).
Proof.
  destruct (update_em0 m pp t seed sk) as (o & H & _). exists o. split; [|exact H]. intros l.
  unfold sk_update_t, sbind, tkey, tlift, tset. cbn [fst snd]. rewrite H. pose proof (update_atomic m pp sk t seed) as Ha.
  unfold run_mut. destruct (update m pp t seed sk) as [[[]|e|p] sk']; cbn [fst snd]; [reflexivity|rewrite Ha; reflexivity..].
Qed.
Lemma sign_em2 {E} m (pp : pubparam E) t msg sk :
  exists o, (forall l, @tlift E _ (sign_bytes_t m sk t pp msg) (sk, l) = (sign_bytes m sk t pp msg, (sk, l ++ o)))
    /\ (forall s, sign_bytes m sk t pp msg = Ok s -> exists s tv, first_ssk sk = Ok s /\ tv_init m (sk_t s) (pp_depth pp) = Ok tv /\ o = sign_ops (tv_vec tv)).
Proof.
  destruct (sign_em m sk t pp msg) as (o & H & HQ). exists o. split; [|exact HQ]. intros l. unfold tlift. cbn [fst snd]. rewrite H. reflexivity.
Qed.
Lemma step_res {E} m (pp : pubparam E) o sk l :
  fst (step_t m pp o (sk, l)) = fst (step m pp o sk) /\ fst (snd (step_t m pp o (sk, l))) = snd (step m pp o sk).
Proof.
  destruct o as [t seed|t msg seed|t msg|t msg seed|c]; cbn [step_t step]; unfold sbind, sret.
  - destruct (upd_em2 m pp t seed sk) as (o & H & _). rewrite H. destruct (update m pp t seed sk) as [[[]|e|p] sk']; split; reflexivity.
  - unfold sign_t, sign, sbind, tkey, sget, slift, sret. cbn [fst]. destruct (t <? sec_time sk); [split; reflexivity|]. destruct (sec_time sk <? t).
    + destruct (upd_em2 m pp t seed sk) as (o & H & _). rewrite H. destruct (update m pp t seed sk) as [[[]|e|p] sk']; cbn [fst snd]; [|split; reflexivity..].
      destruct (sign_em2 m pp t msg sk') as (o2 & H2 & _). rewrite H2. destruct (sign_bytes m sk' t pp msg); split; reflexivity.
    + destruct (sign_em2 m pp t msg sk) as (o2 & H2 & _). cbn [fst]. rewrite H2. destruct (sign_bytes m sk t pp msg); split; reflexivity.
  - unfold sign_present_t, sign_present, sbind, tkey, sget, slift. cbn [fst]. destruct (negb _); [split; reflexivity|].
    destruct (sign_em2 m pp t msg sk) as (o2 & H2 & _). rewrite H2. destruct (sign_bytes m sk t pp msg); split; reflexivity.
  - unfold sign_then_update_t, sign_then_update, sbind, tkey, sget, slift, sret. cbn [fst]. destruct (negb _); [split; reflexivity|].
    destruct (sign_em2 m pp t msg sk) as (o2 & H2 & _). rewrite H2. destruct (sign_bytes m sk t pp msg) as [s|e|p]; [|split; reflexivity..].
    destruct (add64 m t 1) as [t1|e|p]; [|split; reflexivity..].
    destruct (upd_em2 m pp t1 seed sk) as (o & H & _). rewrite H. destruct (update m pp t1 seed sk) as [[[]|e|p] sk']; split; reflexivity.
  - cbn [fst snd]. destruct (reload c sk) as [[[]|e|p] sk']; split; reflexivity.
Qed.
Lemma run_res {E} m (pp : pubparam E) : forall ops sk l,
  fst (run_t m pp ops (sk, l)) = fst (run m pp ops sk) /\ fst (snd (run_t m pp ops (sk, l))) = snd (run m pp ops sk).
Proof.
  induction ops as [|o ops IH]; intros sk l; [split; reflexivity|]. cbn [run_t run]. destruct (step_res m pp o sk l) as [H1 H2].
  destruct (step_t m pp o (sk, l)) as [r [sk1 l1]]. destruct (step m pp o sk) as [r' sk1']. cbn [fst snd] in H1, H2. subst r' sk1'.
  destruct (IH sk1 l1) as [H3 H4]. destruct (run_t m pp ops (sk1, l1)) as [rs s2]. destruct (run m pp ops sk1) as [rs' sk2]. cbn [fst snd] in *.
  split; congruence.
Qed.

(** The operations, for keys that exist. *)
Lemma upd_call {E} (L : env_laws E) m (pp : pubparam E) x t seed sk :
  pp_ok pp -> good_sk pp x sk -> no_panic (fst (update m pp t seed sk)) = true ->
  (if later (pp_depth pp) (sec_time sk) t
   then exists sk', update m pp t seed sk = (Ok tt, sk') /\ good_sk pp x sk' /\ sec_time sk' = t
        /\ forall l, sk_update_t m pp t seed (sk, l) = (Ok tt, (sk', l ++ move_ops (pp_depth pp) (node (pp_depth pp) (sec_time sk)) (node (pp_depth pp) t)))
   else update m pp t seed sk = (Err E_TIME_STAMP, sk) /\ forall l, sk_update_t m pp t seed (sk, l) = (Err E_TIME_STAMP, (sk, l))).
Proof.
  intros Hpp Hg Hp. pose proof (update_cases L m pp x sk t seed Hpp Hg) as Hc. destruct (upd_em2 m pp t seed sk) as (o & H & Ho).
  change (later (pp_depth pp) (sec_time sk) t) with (in_range pp sk t). destruct (in_range pp sk t).
  - destruct Hc as [(sk' & Hc & Hg' & Ht)|[Hc _]]; [|rewrite Hc in Hp; discriminate Hp]. exists sk'. split; [exact Hc|]. split; [exact Hg'|]. split; [exact Ht|].
    intros l. rewrite H, Hc. cbn [fst snd]. do 2 f_equal. unfold run_mut in Ho. rewrite Hc in Ho.
    exact (update_ops_move L m pp x t seed sk l sk' (l ++ o) Hpp Hg (Ho l)).
  - split; [exact Hc|]. intros l. rewrite H, Hc. cbn [fst snd]. do 2 f_equal.
    assert (Hnil : update_t m pp t seed sk [] = (Err E_TIME_STAMP, [])).
    { assert (Hr : (t <=? sec_time sk) || (last_time (pp_depth pp) <? t) = true).
      { destruct ((t <=? sec_time sk) || (last_time (pp_depth pp) <? t)) eqn:Hr; [reflexivity|]. exfalso.
        pose proof (update_cases L m pp x sk t seed Hpp Hg) as Hc'. unfold in_range in Hc'.
        replace (sec_time sk <? t) with true in Hc' by lia. replace (t <=? last_time (pp_depth pp)) with true in Hc' by lia. cbn [andb] in Hc'.
        destruct Hc' as [(sk' & Hc' & _)|[Hc' _]]; rewrite Hc in Hc'; discriminate Hc'. }
      unfold update_t. rewrite (gsk_cs pp x sk Hg), N.eqb_refl. cbn [negb].
      pose proof (max_time_ok m (pp_depth pp) (ppo_depth pp Hpp)) as Hmax. unfold sbind, slift.
      destruct (shl64 m (pp_depth pp)) as [q|e|q]; [|discriminate Hmax..]. cbn [bind] in Hmax. rewrite Hmax, Hr. reflexivity. }
    rewrite Ho in Hnil. injection Hnil as _ Hnil. cbn [app] in Hnil. rewrite Hnil, app_nil_r. reflexivity.
Qed.
Lemma sign_call {E} (L : env_laws E) m (pp : pubparam E) x msg sk :
  pp_ok pp -> valid_cs (pp_cs pp) = true -> good_sk pp x sk ->
  exists s, sign_bytes m sk (sec_time sk) pp msg = Ok s
    /\ forall l, @tlift E _ (sign_bytes_t m sk (sec_time sk) pp msg) (sk, l) = (Ok s, (sk, l ++ sign_ops (node (pp_depth pp) (sec_time sk)))).
Proof.
  intros Hpp Hcs Hg. destruct (sign_bytes_ok L m pp x sk msg Hpp Hcs Hg) as (s & Hs & _). exists s. split; [exact Hs|]. intros l.
  destruct (sign_em2 m pp (sec_time sk) msg sk) as (o & H & Ho). rewrite H, Hs. destruct (Ho s Hs) as (s0 & tv & Hf & Ht & ->).
  destruct (good_sk_head pp x sk Hg) as (v & r & ssks & Hn & Hk). unfold first_ssk in Hf. rewrite Hk in Hf. injection Hf as <-. cbn [honest_ssk sk_t] in Ht.
  pose proof (ppo_depth pp Hpp) as Hd. rewrite (tv_ok m (pp_depth pp) _ v ltac:(lia) Hn) in Ht. injection Ht as <-.
  rewrite (node_ok _ _ _ Hn). reflexivity.
Qed.
Lemma step_ops {E} (L : env_laws E) m (pp : pubparam E) x o sk l :
  pp_ok pp -> valid_cs (pp_cs pp) = true -> good_sk pp x sk -> no_panic (fst (step m pp o sk)) = true ->
  snd (snd (step_t m pp o (sk, l))) = l ++ call_ops (pp_depth pp) (sec_time sk) o
  /\ sec_time (snd (step m pp o sk)) = next_time (pp_depth pp) (sec_time sk) o.
Proof.
  intros Hpp Hcs Hg. set (d := pp_depth pp).
  destruct o as [t seed|t msg seed|t msg|t msg seed|c]; cbn [step_t step call_ops next_time]; unfold sbind, sret.
  - intros Hp. assert (Hp' : no_panic (fst (update m pp t seed sk)) = true) by (destruct (update m pp t seed sk) as [[[]|e|p] sk']; exact Hp).
    pose proof (upd_call L m pp x t seed sk Hpp Hg Hp') as H. fold d in H. destruct (later d (sec_time sk) t).
    + destruct H as (sk' & Hu & _ & Ht & H). rewrite H, Hu. split; [reflexivity|exact Ht].
    + destruct H as [Hu H]. rewrite H, Hu. rewrite app_nil_r. split; reflexivity.
  - unfold sign_t, sign, sbind, tkey, sget, slift, sret. cbn [fst]. unfold later. destruct (N.eqb_spec (sec_time sk) t) as [<-|Hne].
    + rewrite N.ltb_irrefl. cbn [fst andb]. destruct (sign_call L m pp x msg sk Hpp Hcs Hg) as (s & Hs & H). rewrite H, Hs. intros _. split; reflexivity.
    + destruct (N.ltb_spec t (sec_time sk)) as [Hlt|Hge].
      * replace (sec_time sk <? t) with false by lia. cbn [andb]. intros _. rewrite app_nil_r. split; reflexivity.
      * replace (sec_time sk <? t) with true by lia. intros Hp.
        assert (Hp' : no_panic (fst (update m pp t seed sk)) = true) by (destruct (update m pp t seed sk) as [[[]|e|p] sk']; [reflexivity|exact Hp..]).
        pose proof (upd_call L m pp x t seed sk Hpp Hg Hp') as H. fold d in H. unfold later in H. replace (sec_time sk <? t) with true in H by lia.
        cbn [andb] in H |- *. destruct (t <=? last_time d).
        -- destruct H as (sk' & Hu & Hg' & Ht & H). rewrite H, Hu. cbn [fst].
           destruct (sign_call L m pp x msg sk' Hpp Hcs Hg') as (s & Hs & H2). rewrite Ht in Hs, H2. rewrite H2, Hs. cbn [fst snd].
           rewrite <- app_assoc. split; [reflexivity|exact Ht].
        -- destruct H as [Hu H]. rewrite H, Hu. rewrite app_nil_r. split; reflexivity.
  - unfold sign_present_t, sign_present, sbind, tkey, sget, slift. cbn [fst]. destruct (N.eqb_spec (sec_time sk) t) as [<-|Hne]; cbn [negb].
    + destruct (sign_call L m pp x msg sk Hpp Hcs Hg) as (s & Hs & H). rewrite H, Hs. intros _. split; reflexivity.
    + intros _. rewrite app_nil_r. split; reflexivity.
  - unfold sign_then_update_t, sign_then_update, sbind, tkey, sget, slift, sret. cbn [fst]. destruct (N.eqb_spec (sec_time sk) t) as [<-|Hne]; cbn [negb andb].
    2:{ intros _. rewrite app_nil_r. split; reflexivity. }
    destruct (sign_call L m pp x msg sk Hpp Hcs Hg) as (s & Hs & H). rewrite H, Hs.
    assert (Hr : sec_time sk + 1 < two64).
    { destruct (good_sk_head pp x sk Hg) as (v & _ & _ & Hn & _). apply node_at_range in Hn. unfold last_time in Hn.
      pose proof (ppo_depth pp Hpp). pose proof (pow2_lt64 (pp_depth pp) ltac:(lia)). lia. }
    rewrite (add64_ok m _ 1 Hr). intros Hp.
    assert (Hp' : no_panic (fst (update m pp (sec_time sk + 1) seed sk)) = true) by (destruct (update m pp (sec_time sk + 1) seed sk) as [[[]|e|p] sk']; [reflexivity|exact Hp..]).
    pose proof (upd_call L m pp x (sec_time sk + 1) seed sk Hpp Hg Hp') as Hu. fold d in Hu. destruct (later d (sec_time sk) (sec_time sk + 1)).
    + destruct Hu as (sk' & Hu & _ & Ht & H2). rewrite H2, Hu. cbn [fst snd]. rewrite <- app_assoc. split; [reflexivity|exact Ht].
    + destruct Hu as [Hu H2]. rewrite H2, Hu. cbn [fst snd]. rewrite app_nil_r. split; reflexivity.
  - intros _. cbn [fst snd]. rewrite app_nil_r. destruct (reload_cases L c pp x sk Hpp Hcs Hg) as [Hc|[e Hc]]; rewrite Hc; split; reflexivity.
Qed.
Lemma run_ops {E} (L : env_laws E) m (pp : pubparam E) x : forall ops sk l,
  pp_ok pp -> valid_cs (pp_cs pp) = true -> good_sk pp x sk -> forallb no_panic (fst (run m pp ops sk)) = true ->
  snd (snd (run_t m pp ops (sk, l))) = l ++ history_ops (pp_depth pp) (sec_time sk) ops.
Proof.
  induction ops as [|o ops IH]; intros sk l Hpp Hcs Hg Hn; [cbn; rewrite app_nil_r; reflexivity|]. cbn [run_t run history_ops] in *.
  pose proof (step_good L m pp x o sk Hpp Hcs Hg) as [Hg' _]. pose proof (step_res m pp o sk l) as [H1 H2]. pose proof (step_ops L m pp x o sk l Hpp Hcs Hg) as H3.
  destruct (step_t m pp o (sk, l)) as [r [sk1 l1]]. destruct (step m pp o sk) as [r' sk1']. cbn [fst snd] in *. subst r' sk1'.
  destruct (run m pp ops sk1) as [rs sk2] eqn:Er. cbn [fst forallb] in Hn. apply andb_prop in Hn as [Hn1 Hn2]. destruct (H3 Hn1) as [-> <-].
  specialize (IH sk1 (l ++ call_ops (pp_depth pp) (sec_time sk) o) Hpp Hcs Hg'). rewrite Er in IH. specialize (IH Hn2).
  destruct (run_t m pp ops (sk1, l ++ call_ops (pp_depth pp) (sec_time sk) o)) as [rs' [sk3 l3]]. cbn [snd] in *. rewrite IH, app_assoc. reflexivity.
Qed.
