(** Lemmas behind Properties_Any.v: update on a key of any shape. *)
From Coq Require Import Sorting.Sorted.
From Verif Require Import Base Env NMod GroupFacts Time SpecTime TimeFacts Hkdf Prng SpecPrng PrngFacts
  SubKey SecretKey Keys SpecKey SubKeyFacts SpecUpdate UpdateFacts KeyFacts ShapeFacts SpecSig ValProps SpecAny.
From Coq Require Import ZifyBool ZifyNat ZifyN.
Local Open Scope N_scope.
Local Arguments N.add : simpl never.
Local Arguments N.mul : simpl never.
Local Arguments N.sub : simpl never.
Local Arguments pow2 : simpl never.

(** * The gamma list *)
Lemma sibs_short n : forall rest pre acc, (length pre + length rest <= n)%nat -> Forall (fun p : path => (length p <= n)%nat) acc ->
  Forall (fun p : path => (length p <= n)%nat) (sibs pre rest acc).
Proof.
  induction rest as [|x rest IH]; intros pre acc Hl Ha; cbn [sibs]; [exact Ha|].
  cbn [length] in Hl. apply IH; [rewrite app_length; cbn [length]; lia|].
  destruct (x =? 1); [|exact Ha]. constructor; [rewrite app_length; cbn [length]; lia|exact Ha].
Qed.

(** The nodes of the gamma list of [t], as time vectors, none deeper than [t] itself. *)
Lemma gamma_nodes m d t v gl : (d < 64)%nat -> node_at d t v -> tiling d t gl ->
  exists tvs, gamma_list m (TimeVec t v) d = Ok tvs /\ map tv_time tvs = gl
  /\ Forall (fun tv => node_at d (tv_time tv) (tv_vec tv) /\ (length (tv_vec tv) <= length v)%nat) tvs.
Proof.
  intros Hd Hn Hgl. apply node_at_ptime in Hn as [Hv ->].
  exists (map (mk_tv d) (v :: sibs [] v [])).
  assert (Ht : tiling d (ptime d v) (map (ptime d) (v :: sibs [] v []))).
  { apply ptiling_tiling. apply (sibs_tiling d [] v []); auto.
    unfold psize. simpl length. rewrite Nat.sub_0_r.
    replace (ptime d [] + (pow2 d - 1)) with (pow2 d); [constructor|].
    pose proof (pow2_pos d). destruct d; cbn [ptime]; lia. }
  split; [|split].
  - unfold gamma_list. cbn [tv_vec]. change [TimeVec (ptime d v) v] with (TimeVec (ptime d v) v :: map (mk_tv d) []).
    rewrite gamma_loop_sibs by auto. reflexivity.
  - rewrite map_map. cbn [mk_tv tv_time]. apply (tiling_fun _ _ _ _ Ht Hgl).
  - rewrite Forall_map. apply Forall_forall. intros p Hp. cbn [mk_tv tv_time tv_vec].
    assert (Hval : Forall (valid_path d) (v :: sibs [] v [])) by (constructor; [exact Hv|apply sibs_valid; auto]).
    assert (Hsh : Forall (fun p : path => (length p <= length v)%nat) (v :: sibs [] v [])).
    { constructor; [lia|]. apply sibs_short; [cbn [length]; lia|constructor]. }
    rewrite Forall_forall in Hval, Hsh. split; [apply node_at_ptime; auto|apply Hsh, Hp].
Qed.

(** * Looking among the sub keys *)
Lemma tv_bad m d t : (1 <= d < 64)%nat -> ~ stamp d t -> tv_init m t d = Err (stamp_error d t).
Proof. intros Hd Ht. rewrite tv_init_err by (auto; lia). unfold stamp_error. destruct d; [lia|]. reflexivity. Qed.

Lemma tv_neq u v t v' : u <> t -> tv_eqb (TimeVec u v) (TimeVec t v') = false.
Proof. intros H. unfold tv_eqb. cbn [tv_time]. replace (u =? t) with false by lia. reflexivity. Qed.

Section Look.
Context {E : env} (m : mode) (d : nat) (Hd : (1 <= d < 64)%nat) (u : N) (v : path) (Hn : node_at d u v).

Lemma dup_skip (p : list (subkey E)) : Forall (fun x => stamp d (sk_t x) /\ sk_t x <> u) p ->
  forall q, dup_loop m d (TimeVec u v) (p ++ q) = dup_loop m d (TimeVec u v) q.
Proof.
  induction 1 as [|s p [Hs Hne] _ IH]; intros q; [reflexivity|]. cbn [app dup_loop]. unfold ssk_time_vec.
  destruct (tv_init_ex m d (sk_t s) ltac:(lia) Hs) as (v' & _ & ->). cbn [bind].
  rewrite tv_neq by congruence. apply IH.
Qed.
Lemma dup_clear (l : list (subkey E)) : clear d u l -> dup_loop m d (TimeVec u v) l = Ok false.
Proof. intros H. rewrite <- (app_nil_r l), dup_skip by exact H. reflexivity. Qed.
Lemma dup_broken (l : list (subkey E)) s : broken d u l s -> dup_loop m d (TimeVec u v) l = Err (stamp_error d (sk_t s)).
Proof.
  intros (p & q & -> & Hp & Hs). rewrite dup_skip by exact Hp. cbn [dup_loop]. unfold ssk_time_vec.
  rewrite tv_bad by (auto; lia). reflexivity.
Qed.
Lemma dup_found (l : list (subkey E)) : found d u l -> dup_loop m d (TimeVec u v) l = Ok true.
Proof.
  intros (p & s & q & -> & Hp & Hs). induction Hp as [|x p Hx _ IH].
  - cbn [app dup_loop]. unfold ssk_time_vec. rewrite Hs, (proj2 (tv_init_ok m d u v ltac:(lia)) Hn). cbn [bind].
    rewrite tv_eqb_refl. reflexivity.
  - cbn [app dup_loop]. unfold ssk_time_vec. destruct (tv_init_ex m d (sk_t x) ltac:(lia) Hx) as (v' & _ & ->). cbn [bind].
    destruct (tv_eqb _ _); [reflexivity|exact IH].
Qed.
End Look.

Lemma look_cases {E} d u (l : list (subkey E)) : found d u l \/ (exists s, broken d u l s) \/ clear d u l.
Proof.
  induction l as [|s l IH]; [right; right; constructor|].
  destruct (N.eq_dec (sk_t s) u) as [He|He].
  { left. exists [], s, l. auto. }
  assert (Hdec : stamp d (sk_t s) \/ ~ stamp d (sk_t s)) by (unfold stamp; lia).
  destruct Hdec as [Hs|Hs].
  2:{ right; left. exists s, [], l. auto. }
  destruct IH as [(p & x & q & -> & Hp & Hx)|[(x & p & q & -> & Hp & Hx)|Hc]].
  - left. exists (s :: p), x, q. split; [reflexivity|]. split; [constructor; assumption|exact Hx].
  - right; left. exists x, (s :: p), q. split; [reflexivity|]. split; [constructor; auto|exact Hx].
  - right; right. constructor; auto.
Qed.

(** * The delegator *)
Lemma ancestor_last {E} t (b : subkey E) q : sk_t b <= t -> Forall (fun s => t < sk_t s) q ->
  forall p x, ancestor_loop t x (p ++ b :: q) = sk_t b.
Proof.
  intros Hb Hq. induction p as [|s p IH]; intros x; cbn [app ancestor_loop]; [|apply IH].
  replace (sk_t b <=? t) with true by lia.
  induction Hq as [|s q Hs _ IHq]; cbn [ancestor_loop]; [reflexivity|].
  replace (sk_t s <=? t) with false by lia. exact IHq.
Qed.

Lemma ancestor_none {E} t : forall (q : list (subkey E)) x, Forall (fun s => t < sk_t s) q -> ancestor_loop t x q = x.
Proof.
  induction q as [|s q IH]; intros x Hq; cbn [ancestor_loop]; [reflexivity|]. inversion Hq; subst.
  replace (sk_t s <=? t) with false by lia. apply IH; assumption.
Qed.

Lemma drop_first {E} (a : subkey E) post : forall pre, Forall (fun s => sk_t s <> sk_t a) pre ->
  drop_until (sk_t a) (pre ++ a :: post) = Ok (a :: post).
Proof.
  induction pre as [|s pre IH]; intros Hp; cbn [app drop_until]; [rewrite N.eqb_refl; reflexivity|].
  inversion Hp; subst. replace (sk_t s =? sk_t a) with false by lia. apply IH; assumption.
Qed.

Lemma delegates_code {E} t (sk : seckey E) s l pre a post :
  sec_ssk sk = s :: l -> sk_t s < t -> delegates t (sec_ssk sk) pre a post ->
  find_ancestor sk t = Ok (sk_t a) /\ drop_until (sk_t a) (sec_ssk sk) = Ok (a :: post).
Proof.
  intros Hl Hs (He & Hp & p & b & q & Hb & Hab & Hbt & Hq). split.
  - unfold find_ancestor. rewrite Hl in *. replace (t <=? sk_t s) with false by lia. rewrite <- Hab.
    destruct p as [|x p]; cbn [app] in Hb; injection Hb as -> ->.
    + f_equal. apply ancestor_none, Hq.
    + f_equal. apply ancestor_last; assumption.
  - rewrite He. apply drop_first, Hp.
Qed.

Lemma split_first {E} (b : subkey E) : forall l, In b l ->
  exists pre a post, l = pre ++ a :: post /\ sk_t a = sk_t b /\ Forall (fun s => sk_t s <> sk_t a) pre.
Proof.
  induction l as [|s l IH]; intros Hin; [destruct Hin|].
  destruct (N.eq_dec (sk_t s) (sk_t b)) as [He|He].
  { exists [], s, l. auto. }
  destruct Hin as [->|Hin]; [congruence|]. destruct (IH Hin) as (pre & a & post & -> & Ha & Hf).
  exists (s :: pre), a, post. split; [reflexivity|]. split; [exact Ha|]. constructor; [congruence|exact Hf].
Qed.

Lemma split_last {E} t : forall l : list (subkey E), (exists s, In s l /\ sk_t s <= t) ->
  exists p b q, l = p ++ b :: q /\ sk_t b <= t /\ Forall (fun s => t < sk_t s) q.
Proof.
  induction l as [|s l IH]; intros (x & Hin & Hx); [destruct Hin|].
  assert (Hdec : (exists y, In y l /\ sk_t y <= t) \/ Forall (fun y => t < sk_t y) l).
  { clear. induction l as [|y l IH]; [right; constructor|]. destruct IH as [(z & Hz & Hzt)|Hf].
    - left. exists z. split; [right; exact Hz|exact Hzt].
    - destruct (N.le_gt_cases (sk_t y) t); [left; exists y; split; [left; reflexivity|assumption]|right; constructor; assumption]. }
  destruct Hdec as [Hex|Hf].
  - destruct (IH Hex) as (p & b & q & -> & Hb & Hq). exists (s :: p), b, q. auto.
  - exists [], s, l. split; [reflexivity|]. split; [|exact Hf].
    destruct Hin as [->|Hin]; [exact Hx|]. rewrite Forall_forall in Hf. specialize (Hf _ Hin). lia.
Qed.

Lemma delegates_ex {E} t (l : list (subkey E)) s : In s l -> sk_t s < t ->
  exists pre a post, delegates t l pre a post.
Proof.
  intros Hin Hs. destruct (split_last t l) as (p & b & q & Hl & Hb & Hq); [exists s; split; [exact Hin|lia]|].
  destruct (split_first b l) as (pre & a & post & He & Ha & Hf); [rewrite Hl; apply in_or_app; right; left; reflexivity|].
  exists pre, a, post. split; [exact He|]. split; [exact Hf|]. exists p, b, q. auto.
Qed.

(** * One step of the loop *)
Lemma delegate_short {E} m d (s : subkey E) t' v w :
  (d < 64)%nat -> node_at d (sk_t s) v -> node_at d t' (v ++ w) -> w <> [] -> (length (sk_hvec s) < length w)%nat ->
  fst (delegate m t' d s) = Panic P_INDEX.
Proof.
  intros Hd Hn Hn' Hw Hl. unfold delegate, sbind, sget, slift, sput.
  rewrite (proj2 (tv_init_ok m d _ v ltac:(lia)) Hn), (proj2 (tv_init_ok m d t' _ ltac:(lia)) Hn').
  assert (Hpre : tv_is_prefix (TimeVec (sk_t s) v) (TimeVec t' (v ++ w)) = true).
  { apply (is_prefix_spec d); auto. exists v, w. auto. }
  rewrite Hpre. cbn [negb tv_vec]. rewrite skipn_app, skipn_all, Nat.sub_diag. cbn [skipn app].
  assert (Hdl : forall ts (hv : list (G1 E)) hp, (length hv < length ts)%nat -> fst (del_loop hv ts hp) = Panic P_INDEX).
  { induction ts as [|y ts IH]; intros hv hp H; cbn [length] in H; [lia|]. cbn [del_loop].
    destruct hv as [|h hv]; [reflexivity|]. cbn [length] in H. apply IH. lia. }
  specialize (Hdl w (sk_hvec s) (sk_hpoly s) Hl). destruct (del_loop _ _ _) as [o hp]. cbn [fst] in Hdl. subst o. reflexivity.
Qed.

Lemma hv_loop_long {E} (hlist : list (G1 E)) r : forall hv base,
  (length hlist < base + length hv)%nat -> (base <= length hlist)%nat -> fst (hv_loop hlist base r hv) = Panic P_INDEX.
Proof.
  induction hv as [|x hv IH]; intros base H Hb; cbn [length] in H; [lia|]. cbn [hv_loop]. unfold nth_res.
  destruct (nth_error hlist base) as [h|] eqn:Eh; [|reflexivity].
  assert (base < length hlist)%nat by (apply nth_error_Some; congruence).
  specialize (IH (S base) ltac:(lia) ltac:(lia)). destruct (hv_loop hlist (S base) r hv) as [o l]. exact IH.
Qed.

Lemma randomization_long {E} (L : env_laws E) m (pp : pubparam E) (s : subkey E) v r :
  pp_ok pp -> node_at (pp_depth pp) (sk_t s) v -> (length (pp_hlist pp) <= length v + length (sk_hvec s))%nat ->
  fst (randomization m pp r s) = Panic P_INDEX.
Proof.
  intros Hpp Hn Hl. pose proof (ppo_depth pp Hpp) as Hd. pose proof (ppo_len pp Hpp) as Hlen.
  destruct (node_at_turn _ _ _ Hn) as [Ht Hlv].
  unfold randomization, sbind, sget, slift, sput, ssk_time_vec. cbn [sk_t sk_g2r sk_hpoly sk_hvec].
  rewrite (proj2 (tv_init_ok m (pp_depth pp) (sk_t s) v ltac:(lia)) Hn). cbn [tv_vec].
  rewrite (nth_res_ok _ _ g1_zero) by lia. rewrite (poly_loop_node L) by auto.
  cbn [sk_t sk_g2r sk_hpoly sk_hvec].
  pose proof (hv_loop_long (pp_hlist pp) r (sk_hvec s) (length v + 1) ltac:(lia) ltac:(lia)) as Hh.
  destruct (hv_loop _ _ _ _) as [o l]. cbn [fst] in Hh. subst o. reflexivity.
Qed.

Lemma run_mut_panic {S} (f : st S unit) s p : fst (f s) = Panic p -> run_mut f s = Panic p.
Proof. unfold run_mut. destruct (f s) as [o s']. intros H. cbn [fst] in H. subst o. reflexivity. Qed.

Lemma draws_S H i g : draws H (S i) g = spec_next H (draws H i g) DOM_SEP_SK_UPDATE.
Proof. reflexivity. Qed.

Section Loop.
Context {E : env} (L : env_laws E) (m : mode) (pp : pubparam E) (Hpp : pp_ok pp)
  (a : subkey E) (va : path) (Hna : node_at (pp_depth pp) (sk_t a) va)
  (old g : prng) (post : list (subkey E)).
Let d := pp_depth pp.

(** The [i]-th new sub key. *)
Definition the_new (i : nat) (tv : timevec) : subkey E :=
  let w := skipn (length va) (tv_vec tv) in
  match i with
  | O => moved_down a w (tv_time tv)
  | S _ => added_to pp (moved_down a w (tv_time tv)) (va ++ w) (added (sha512 E) g i)
  end.
Fixpoint the_news (i : nat) (gs : list timevec) : list (subkey E) :=
  match gs with [] => [] | tv :: gs' => the_new i tv :: the_news (S i) gs' end.

(** A node that can be made. *)
Definition can_make (tv : timevec) : Prop :=
  clear d (tv_time tv) post /\ exists w, w <> [] /\ tv_vec tv = va ++ w /\ node_at d (tv_time tv) (va ++ w)
  /\ (length w <= length (sk_hvec a))%nat.

Lemma moved_len w t : (length w <= length (sk_hvec a))%nat ->
  (length (va ++ w) + length (sk_hvec (moved_down a w t)) = length va + length (sk_hvec a))%nat.
Proof. intros H. cbn [moved_down sk_hvec]. rewrite app_length, skipn_length. lia. Qed.

Lemma long_dec : too_long pp a \/ (length va + length (sk_hvec a) < length (pp_hlist pp))%nat.
Proof.
  destruct (Nat.lt_ge_cases (length va + length (sk_hvec a)) (length (pp_hlist pp))); [right; assumption|].
  left. exists va. auto.
Qed.

(** What happens at a node that can be made. *)
Lemma step_make i done gs tv : length done = i -> can_make tv ->
  update_loop m pp old i (tv :: gs) (a :: done ++ post) (draws (sha512 E) (i - 1) g)
  = if (i =? 0)%nat then update_loop m pp old 1 gs (a :: (done ++ [the_new 0 tv]) ++ post) g
    else if prng_eqb (draws (sha512 E) i g) old then Panic P_PRNG
    else if (length (pp_hlist pp) <=? length va + length (sk_hvec a))%nat then Panic P_INDEX
    else update_loop m pp old (S i) gs (a :: (done ++ [the_new i tv]) ++ post) (draws (sha512 E) i g).
Proof.
  intros Hi (Hc & w & Hw & Hv & Hn & Hl). pose proof (ppo_depth pp Hpp) as Hd.
  destruct tv as [u vec]. cbn [tv_time tv_vec] in *. subst vec. cbn [update_loop].
  rewrite (skipn_cons_app a done post i Hi). fold d. rewrite (dup_clear m d Hd u (va ++ w) post Hc). cbn [bind].
  change (nth_res (a :: done ++ post) 0) with (Ok a). cbn [bind tv_time].
  rewrite (run_mut_ok _ _ _ (delegate_general L m d a u va w ltac:(unfold d; lia) Hna Hn Hw Hl)). cbn [bind].
  change (SubKey u (sk_g2r a) (g1_add (sk_hpoly a) (lincomb w (sk_hvec a))) (skipn (length w) (sk_hvec a))) with (moved_down a w u).
  unfold the_new. cbn [tv_time tv_vec]. rewrite skipn_app, skipn_all, Nat.sub_diag. cbn [skipn app].
  unfold rerand_new. destruct (Nat.eqb_spec i 0) as [Hz|Hz].
  - cbn [bind]. rewrite (insert_at_spec a _ done post i Hi). cbn [bind]. subst i. rewrite Hz. reflexivity.
  - rewrite sample_then_update_spec by (apply (hash_len_env L)). cbn [bind].
    destruct i as [|i]; [lia|]. replace (S i - 1)%nat with i by lia. rewrite <- draws_S.
    destruct (prng_eqb _ old); [reflexivity|].
    destruct (Nat.leb_spec (length (pp_hlist pp)) (length va + length (sk_hvec a))) as [Hlong|Hlong].
    + rewrite (run_mut_panic _ _ P_INDEX); [reflexivity|]. apply (randomization_long L m pp _ (va ++ w)); [exact Hpp|exact Hn|].
      rewrite moved_len by exact Hl. exact Hlong.
    + rewrite (run_mut_ok _ _ _ (randomization_general L m pp (moved_down a w u) (va ++ w) _ Hpp Hn
                 ltac:(rewrite moved_len by exact Hl; exact Hlong))). cbn [bind].
      rewrite (insert_at_spec a _ done post (S i) Hi). reflexivity.
Qed.

Lemma prng_neq x : x <> old -> prng_eqb x old = false.
Proof. intros H. destruct (prng_eqb x old) eqn:Eq; [|reflexivity]. apply bytes_eqb_eq in Eq. contradiction. Qed.

(** Making a run of nodes. *)
Lemma run_make : forall gs i done rest, length done = i -> Forall can_make gs ->
  ((i + length gs <= 1)%nat \/ ~ too_long pp a) ->
  (forall j, (i <= j < i + length gs)%nat -> (1 <= j)%nat -> draws (sha512 E) j g <> old) ->
  update_loop m pp old i (gs ++ rest) (a :: done ++ post) (draws (sha512 E) (i - 1) g)
  = update_loop m pp old (i + length gs) rest (a :: (done ++ the_news i gs) ++ post) (draws (sha512 E) (i + length gs - 1) g).
Proof.
  induction gs as [|tv gs IH]; intros i done rest Hi Hm Hl Hd.
  - cbn [app the_news length]. rewrite app_nil_r, Nat.add_0_r. reflexivity.
  - inversion Hm as [|? ? Ht Hm']; subst x l. cbn [app]. rewrite (step_make i done (gs ++ rest) tv Hi Ht).
    cbn [the_news length] in *.
    assert (Hstep : update_loop m pp old (S i) (gs ++ rest) (a :: (done ++ [the_new i tv]) ++ post) (draws (sha512 E) (S i - 1) g)
      = update_loop m pp old (i + S (length gs)) rest (a :: (done ++ the_new i tv :: the_news (S i) gs) ++ post)
          (draws (sha512 E) (i + S (length gs) - 1) g)).
    { rewrite (IH (S i) (done ++ [the_new i tv]) rest); [|rewrite app_length; cbn [length]; lia|exact Hm'| |].
      - replace (S i + length gs)%nat with (i + S (length gs))%nat by lia. rewrite <- !app_assoc. reflexivity.
      - destruct Hl as [Hl|Hl]; [left; lia|right; exact Hl].
      - intros j Hj Hj1. apply Hd; lia. }
    replace (S i - 1)%nat with i in Hstep by lia. destruct (Nat.eqb_spec i 0) as [Hz|Hz].
    + subst i. rewrite Hz in *. exact Hstep.
    + rewrite prng_neq by (apply Hd; lia).
      destruct (Nat.leb_spec (length (pp_hlist pp)) (length va + length (sk_hvec a))) as [Hlong|Hlong]; [|exact Hstep].
      exfalso. destruct Hl as [Hl|Hl]; [lia|]. apply Hl. exists va. auto.
Qed.
End Loop.

(** * The end of the loop *)
Lemma delegate_not_below {E} m d (a : subkey E) u v : (1 <= d < 64)%nat -> node_at d u v -> sk_t a <= last_time d ->
  ~ strictly_below d (sk_t a) u ->
  run_mut (delegate m u d) a = Err (if sk_t a =? 0 then E_TIME_STAMP else E_TIME_NONE_PREFIX).
Proof.
  intros Hd Hn Ha Hb. destruct (N.eqb_spec (sk_t a) 0) as [Hz|Hz].
  - unfold run_mut, delegate, sbind, sget, slift. rewrite tv_bad by (auto; unfold stamp; lia).
    cbn [fst snd]. unfold stamp_error. pose proof (pow2_pos d). replace (sk_t a =? pow2 d) with false by lia. reflexivity.
  - destruct (delegate_err m d a u Hd Hb) as (e & He & Hp). unfold run_mut. rewrite He.
    rewrite Hp by (try lia; apply (node_at_range _ _ _ Hn)). reflexivity.
Qed.

Lemma end_well {E} m (pp : pubparam E) old (a : subkey E) done post gl tvs n g :
  pp_ok pp -> length done = n -> map tv_time tvs = gl -> Forall (fun tv => node_at (pp_depth pp) (tv_time tv) (tv_vec tv)) tvs ->
  ends_well (pp_depth pp) post gl n ->
  update_loop m pp old n (skipn n tvs) (a :: done ++ post) g = Ok (a :: done ++ post, g).
Proof.
  intros Hpp Hn Hgl Hf [He|(u & Hu & Hfo)]; pose proof (ppo_depth pp Hpp) as Hd.
  - rewrite <- Hgl, map_length in He. rewrite He, skipn_all. reflexivity.
  - rewrite <- Hgl in Hu. rewrite nth_error_map in Hu. destruct (nth_error tvs n) as [[u' v]|] eqn:Et; [|discriminate].
    injection Hu as ->. rewrite (skipn_nth tvs n (TimeVec u v)) by (apply nth_error_Some; congruence).
    rewrite (nth_error_nth tvs n _ Et). cbn [update_loop]. rewrite (skipn_cons_app a done post n Hn).
    rewrite Forall_forall in Hf. specialize (Hf _ (nth_error_In _ _ Et)). cbn [tv_time tv_vec] in *.
    rewrite (dup_found m (pp_depth pp) Hd u v Hf post Hfo). reflexivity.
Qed.

Lemma end_badly {E} m (pp : pubparam E) old (a : subkey E) done post gl tvs n g e :
  pp_ok pp -> sk_t a <= last_time (pp_depth pp) -> length done = n -> map tv_time tvs = gl ->
  Forall (fun tv => node_at (pp_depth pp) (tv_time tv) (tv_vec tv)) tvs ->
  ends_badly (pp_depth pp) a post gl n e ->
  update_loop m pp old n (skipn n tvs) (a :: done ++ post) g = Err e.
Proof.
  intros Hpp Ha Hn Hgl Hf (u & Hu & Hc); pose proof (ppo_depth pp Hpp) as Hd.
  rewrite <- Hgl in Hu. rewrite nth_error_map in Hu. destruct (nth_error tvs n) as [[u' v]|] eqn:Et; [|discriminate].
  injection Hu as ->. rewrite (skipn_nth tvs n (TimeVec u v)) by (apply nth_error_Some; congruence).
  rewrite (nth_error_nth tvs n _ Et). cbn [update_loop]. rewrite (skipn_cons_app a done post n Hn).
  rewrite Forall_forall in Hf. specialize (Hf _ (nth_error_In _ _ Et)). cbn [tv_time tv_vec] in *.
  destruct Hc as [(s & Hb & ->)|(Hc & Hnb & ->)].
  - rewrite (dup_broken m (pp_depth pp) Hd u v post s Hb). reflexivity.
  - rewrite (dup_clear m (pp_depth pp) Hd u v post Hc). cbn [bind].
    change (nth_res (a :: done ++ post) 0) with (Ok a). cbn [bind tv_time].
    rewrite (delegate_not_below m (pp_depth pp) a u v Hd Hf Ha Hnb). reflexivity.
Qed.

(** * update *)
Lemma update_to_loop {E} (L : env_laws E) m (pp : pubparam E) t seed (sk : seckey E) s l pre a post gl v :
  pp_ok pp -> sec_cs sk = pp_cs pp -> sec_time sk < t <= last_time (pp_depth pp) ->
  sec_ssk sk = s :: l -> sk_t s < t -> delegates t (sec_ssk sk) pre a post -> sk_t a <> t ->
  node_at (pp_depth pp) t v -> tiling (pp_depth pp) t gl ->
  exists tvs, map tv_time tvs = gl
  /\ Forall (fun tv => node_at (pp_depth pp) (tv_time tv) (tv_vec tv) /\ (length (tv_vec tv) <= length v)%nat) tvs
  /\ update m pp t seed sk
     = match update_loop m pp (sec_prng sk) 0 tvs (a :: post) (spec_reseed sk seed) with
       | Ok (ssk', g') =>
         match remove_at 0 ssk' with
         | Ok ssk'' => match nth_res ssk'' 0 with
                       | Ok s0 => (Ok tt, SecKey (sec_cs sk) (sk_t s0) ssk'' g')
                       | Err e => (Err e, sk) | Panic p => (Panic p, sk)
                       end
         | Err e => (Err e, sk) | Panic p => (Panic p, sk)
         end
       | Err e => (Err e, sk) | Panic p => (Panic p, sk)
       end.
Proof.
  intros Hpp Hcs Ht Hl Hs Hdel Hne Hn Hgl. pose proof (ppo_depth pp Hpp) as Hd.
  destruct (gamma_nodes m (pp_depth pp) t v gl ltac:(lia) Hn Hgl) as (tvs & Hg & Hm & Hf).
  destruct (delegates_code t sk s l pre a post Hl Hs Hdel) as [Hfa Hdu].
  exists tvs. split; [exact Hm|]. split; [exact Hf|].
  unfold update, sbind, sget, slift, sput. rewrite Hcs, N.eqb_refl. cbn [negb].
  pose proof (max_time_ok m (pp_depth pp) Hd) as Hmax. destruct (shl64 m (pp_depth pp)) as [p| |]; try discriminate.
  cbn [bind] in Hmax. rewrite Hmax.
  replace (t <=? sec_time sk) with false by lia.
  replace (last_time (pp_depth pp) <? t) with false by lia. cbn [orb].
  rewrite Hfa, rerandomize_spec by (apply (hash_len_env L)). rewrite Hdu.
  fold (spec_reseed sk seed). replace (sk_t a =? t) with false by lia.
  rewrite (proj2 (tv_init_ok m (pp_depth pp) t v ltac:(lia)) Hn), Hg.
  destruct (update_loop _ _ _ _ _ _ _) as [[ssk' g']| |]; [|reflexivity|reflexivity].
  destruct (remove_at 0 ssk') as [ssk''| |]; [|reflexivity|reflexivity].
  destruct (nth_res ssk'' 0); reflexivity.
Qed.

Lemma makes_first {E} (d : nat) (a : subkey E) post gl tvs (v : path) n :
  map tv_time tvs = gl -> Forall (fun tv => node_at d (tv_time tv) (tv_vec tv) /\ (length (tv_vec tv) <= length v)%nat) tvs ->
  makes d a post gl n -> forall va, node_at d (sk_t a) va ->
  length (firstn n tvs) = n
  /\ Forall (fun tv => clear d (tv_time tv) post /\ exists w, w <> [] /\ tv_vec tv = va ++ w /\ node_at d (tv_time tv) (va ++ w)
                      /\ (length va + length w <= length v)%nat) (firstn n tvs).
Proof.
  intros Hgl Hf [Hle Hm] va Hna. rewrite <- Hgl, map_length in Hle. split; [rewrite firstn_length; lia|].
  rewrite <- Hgl in Hm. rewrite firstn_map, Forall_map in Hm. apply Forall_forall. intros tv Hin.
  rewrite Forall_forall in Hm. destruct (Hm tv Hin) as [Hc (va' & w & Hw & Ha' & Hw')]. split; [exact Hc|].
  pose proof (node_at_fun _ _ _ _ Hna Ha') as <-. exists w. split; [exact Hw|].
  apply (Forall_firstn _ n) in Hf. rewrite Forall_forall in Hf. destruct (Hf tv Hin) as [Hnt Hlt].
  pose proof (node_at_fun _ _ _ _ Hnt Hw') as He. split; [exact He|]. split; [exact Hw'|].
  rewrite He, app_length in Hlt. exact Hlt.
Qed.

Lemma the_news_length {E} (pp : pubparam E) a va g : forall gs i, length (the_news pp a va g i gs) = length gs.
Proof. induction gs as [|tv gs IH]; intros i; cbn [the_news length]; [reflexivity|rewrite IH; reflexivity]. Qed.

Lemma the_news_nth {E} (pp : pubparam E) a va g : forall gs i j tv, nth_error gs j = Some tv ->
  nth_error (the_news pp a va g i gs) j = Some (the_new pp a va g (i + j) tv).
Proof.
  induction gs as [|x gs IH]; intros i [|j] tv H; cbn [nth_error the_news] in *; try discriminate.
  - injection H as ->. rewrite Nat.add_0_r. reflexivity.
  - rewrite (IH (S i) j tv H). do 2 f_equal. lia.
Qed.

Lemma nth_error_firstn {A} (l : list A) : forall n i, (i < n)%nat -> nth_error (firstn n l) i = nth_error l i.
Proof.
  induction l as [|x l IH]; intros [|n] [|i] H; cbn [firstn nth_error]; try lia; try reflexivity.
  apply IH. lia.
Qed.

Lemma app_eq_ext {A} (l l' : list A) : length l = length l' ->
  (forall i x y, nth_error l i = Some x -> nth_error l' i = Some y -> x = y) -> l = l'.
Proof.
  revert l'; induction l as [|x l IH]; intros [|y l'] Hl H; cbn [length] in Hl; try discriminate; [reflexivity|].
  f_equal; [apply (H 0%nat); reflexivity|]. apply IH; [lia|]. intros i. apply (H (S i)).
Qed.

(** Every case of the specification is what the code does. *)
Lemma from_delegator_sound {E} (L : env_laws E) m (pp : pubparam E) t seed (sk : seckey E) s l pre a post gl n o :
  pp_ok pp -> sec_cs sk = pp_cs pp -> sec_time sk < t <= last_time (pp_depth pp) ->
  sec_ssk sk = s :: l -> sk_t s < t -> delegates t (sec_ssk sk) pre a post -> sk_t a <> t ->
  tiling (pp_depth pp) t gl -> makes (pp_depth pp) a post gl n ->
  from_delegator pp t sk (spec_reseed sk seed) a post gl n o -> update m pp t seed sk = o.
Proof.
  intros Hpp Hcs Ht Hl Hs Hdel Hne Hgl Hmk Ho. pose proof (ppo_depth pp Hpp) as Hd.
  assert (Hat : sk_t a <= t). { destruct Hdel as (_ & _ & p & b & q & _ & Hab & Hb & _). lia. }
  destruct (node_at_ex (pp_depth pp) t ltac:(lia)) as (v & Hv).
  destruct (update_to_loop L m pp t seed sk s l pre a post gl v Hpp Hcs Ht Hl Hs Hdel Hne Hv Hgl) as (tvs & Hm & Hf & Hup).
  assert (Hf1 : Forall (fun tv => node_at (pp_depth pp) (tv_time tv) (tv_vec tv)) tvs).
  { eapply Forall_impl; [|exact Hf]. cbn beta. tauto. }
  rewrite Hup. clear Hup. set (g := spec_reseed sk seed) in *. set (old := sec_prng sk) in *.
  assert (Hva : (0 < n)%nat -> exists va, node_at (pp_depth pp) (sk_t a) va).
  { intros Hn. destruct Hmk as [Hle Hmk]. destruct gl as [|u gl]; [cbn [length] in Hle; lia|]. destruct n as [|n]; [lia|].
    cbn [firstn] in Hmk. apply Forall_inv in Hmk. destruct Hmk as [_ (va & w & _ & Ha & _)]. exists va. exact Ha. }
  assert (Hrun : forall k, (k <= n)%nat -> smooth pp t old g a k ->
    exists news, length news = k
    /\ (forall i u x, (i < k)%nat -> nth_error gl i = Some u -> nth_error news i = Some x -> new_sub pp g a i u x)
    /\ update_loop m pp old 0 tvs (a :: post) g = update_loop m pp old k (skipn k tvs) (a :: news ++ post) (draws (sha512 E) (k - 1) g)).
  { intros k Hk (Hsh & Hlo & Hdr). destruct (Nat.eq_dec k 0) as [->|Hk0].
    { exists []. split; [reflexivity|]. split; [intros i u x Hi; lia|]. reflexivity. }
    destruct (Hva ltac:(lia)) as (va & Hna).
    assert (Hmk' : makes (pp_depth pp) a post gl k).
    { destruct Hmk as [Hle Hmk]. split; [lia|]. replace k with (Nat.min k n) by lia. rewrite <- firstn_firstn.
      apply Forall_firstn, Hmk. }
    destruct (makes_first (pp_depth pp) a post gl tvs v k Hm Hf Hmk' va Hna) as [Hlen Hcan].
    exists (the_news pp a va g 0 (firstn k tvs)). split; [rewrite the_news_length; exact Hlen|]. split.
    - intros i u x Hi Hu Hx. rewrite <- Hm, nth_error_map in Hu. destruct (nth_error tvs i) as [tv|] eqn:Et; [|discriminate].
      injection Hu as <-. assert (Et' : nth_error (firstn k tvs) i = Some tv) by (rewrite nth_error_firstn by exact Hi; exact Et).
      rewrite (the_news_nth pp a va g _ 0 i tv Et') in Hx. injection Hx as <-.
      rewrite Forall_forall in Hcan. destruct (Hcan tv (nth_error_In _ _ Et')) as (_ & w & _ & Hw & Hnw & _).
      exists va, w. split; [exact Hna|]. split; [exact Hnw|]. unfold the_new. rewrite Hw, skipn_app, skipn_all, Nat.sub_diag.
      cbn [skipn app Nat.add]. destruct i; reflexivity.
    - rewrite <- (firstn_skipn k tvs) at 1.
      pose proof (run_make L m pp Hpp a va Hna old g post (firstn k tvs) 0 [] (skipn k tvs) eq_refl) as Hr.
      cbn [app Nat.add] in Hr. rewrite Hlen in Hr. change (draws (sha512 E) (0 - 1) g) with g in Hr. apply Hr.
      + eapply Forall_impl; [|exact Hcan]. cbn beta. intros tv (Hc & w & Hw & Hvec & Hnw & Hlw). split; [exact Hc|].
        exists w. split; [exact Hw|]. split; [exact Hvec|]. split; [exact Hnw|].
        destruct (Nat.le_gt_cases (length w) (length (sk_hvec a))) as [Hok|Hbad]; [exact Hok|]. exfalso.
        destruct Hsh as [Hsh|Hsh]; [lia|]. apply Hsh. exists va, v. split; [exact Hna|]. split; [exact Hv|]. lia.
      + exact Hlo.
      + intros j Hj Hj1. apply Hdr. lia. }
  destruct Ho as [Hn Hsh|i Hi Hsm Hdr|Hn Hsm Hdr Hlo|e Hsm He|news Hsm He Hln Hnew].
  - (* too short *)
    destruct (Hva Hn) as (va & Hna). destruct (makes_first (pp_depth pp) a post gl tvs v n Hm Hf Hmk va Hna) as [Hlen Hcan].
    destruct gl as [|u gl]; [destruct Hmk as [Hle _]; cbn [length] in Hle; lia|].
    destruct tvs as [|[u' vu] tvs]; [discriminate|]. cbn [map tv_time] in Hm. injection Hm as -> Hm.
    apply tiling_inv in Hgl as [Hu _]. subst u.
    destruct n as [|n]; [lia|]. cbn [firstn] in Hcan. apply Forall_inv in Hcan. destruct Hcan as (Hc & w & Hw & Hvec & Hnw & _).
    cbn [tv_time tv_vec] in *. subst vu. cbn [update_loop].
    change (skipn (0 + 1) (a :: post)) with post. rewrite (dup_clear m (pp_depth pp) Hd t (va ++ w) post Hc). cbn [bind].
    change (nth_res (a :: post) 0) with (Ok a). cbn [bind tv_time].
    rewrite (run_mut_panic _ _ P_INDEX); [reflexivity|].
    destruct Hsh as (va' & v' & Ha' & Hv' & Hlt). rewrite (node_at_fun _ _ _ _ Ha' Hna), (node_at_fun _ _ _ _ Hv' Hnw), app_length in Hlt.
    apply (delegate_short m (pp_depth pp) a t va w); auto; lia.
  - (* a state comes back *)
    destruct (Hrun i ltac:(lia) Hsm) as (news & Hln & _ & ->). destruct (Hva ltac:(lia)) as (va & Hna).
    destruct (makes_first (pp_depth pp) a post gl tvs v n Hm Hf Hmk va Hna) as [Hlen Hcan].
    assert (Hit : (i < length tvs)%nat) by (rewrite firstn_length in Hlen; lia).
    rewrite (skipn_nth tvs i (TimeVec 0 [])) by exact Hit.
    assert (Hci : can_make pp a va post (nth i tvs (TimeVec 0 []))).
    { rewrite Forall_forall in Hcan. destruct (Hcan (nth i tvs (TimeVec 0 []))) as (Hc & w & Hw & Hvec & Hnw & Hlw).
      { apply (nth_error_In _ i). rewrite nth_error_firstn by lia. apply nth_error_nth'. exact Hit. }
      split; [exact Hc|]. exists w. split; [exact Hw|]. split; [exact Hvec|]. split; [exact Hnw|].
      destruct (Nat.le_gt_cases (length w) (length (sk_hvec a))) as [Hok|Hbad]; [exact Hok|]. exfalso.
      destruct Hsm as ([Hsh|Hsh] & _ & _); [lia|]. apply Hsh. exists va, v. split; [exact Hna|]. split; [exact Hv|]. lia. }
    rewrite (step_make L m pp Hpp a va Hna old g post i news _ _ Hln Hci).
    replace (i =? 0)%nat with false by lia. fold old in Hdr. rewrite Hdr.
    replace (prng_eqb old old) with true by (symmetry; apply bytes_eqb_eq; reflexivity). reflexivity.
  - (* too long *)
    destruct (Hrun 1%nat ltac:(lia) Hsm) as (news & Hln & _ & ->). destruct (Hva ltac:(lia)) as (va & Hna).
    destruct (makes_first (pp_depth pp) a post gl tvs v n Hm Hf Hmk va Hna) as [Hlen Hcan].
    assert (Hit : (1 < length tvs)%nat) by (rewrite firstn_length in Hlen; lia).
    rewrite (skipn_nth tvs 1 (TimeVec 0 [])) by exact Hit.
    assert (Hci : can_make pp a va post (nth 1 tvs (TimeVec 0 []))).
    { rewrite Forall_forall in Hcan. destruct (Hcan (nth 1 tvs (TimeVec 0 []))) as (Hc & w & Hw & Hvec & Hnw & Hlw).
      { apply (nth_error_In _ 1). rewrite nth_error_firstn by lia. apply nth_error_nth'. exact Hit. }
      split; [exact Hc|]. exists w. split; [exact Hw|]. split; [exact Hvec|]. split; [exact Hnw|].
      destruct (Nat.le_gt_cases (length w) (length (sk_hvec a))) as [Hok|Hbad]; [exact Hok|]. exfalso.
      destruct Hsm as ([Hsh|Hsh] & _ & _); [lia|]. apply Hsh. exists va, v. split; [exact Hna|]. split; [exact Hv|]. lia. }
    rewrite (step_make L m pp Hpp a va Hna old g post 1 news _ _ Hln Hci).
    change (1 =? 0)%nat with false. cbn [app]. rewrite prng_neq by exact Hdr.
    destruct Hlo as (va' & Ha' & Hlo). rewrite (node_at_fun _ _ _ _ Ha' Hna) in Hlo.
    replace (_ <=? _)%nat with true by (symmetry; apply Nat.leb_le; exact Hlo). reflexivity.
  - (* an error *)
    destruct (Hrun n ltac:(lia) Hsm) as (news & Hln & _ & ->).
    rewrite (end_badly m pp old a news post gl tvs n _ e Hpp ltac:(lia) Hln Hm Hf1 He). reflexivity.
  - (* success *)
    destruct (Hrun n ltac:(lia) Hsm) as (news' & Hln' & Hnew' & ->).
    rewrite (end_well m pp old a news' post gl tvs n _ Hpp Hln' Hm Hf1 He).
    assert (Heq : news' = news).
    { apply app_eq_ext; [congruence|]. intros i x y Hx Hy.
      assert (Hi : (i < n)%nat) by (rewrite <- Hln; apply nth_error_Some; congruence).
      destruct Hmk as [Hle _]. destruct (nth_error gl i) as [u|] eqn:Eu; [|apply nth_error_None in Eu; lia].
      destruct (Hnew' i u x Hi Eu Hx) as (va & w & Ha & Hw & ->).
      destruct (Hnew i u y Eu Hy) as (va' & w' & Ha' & Hw' & ->).
      pose proof (node_at_fun _ _ _ _ Ha Ha') as <-. pose proof (node_at_fun _ _ _ _ Hw Hw') as Hww.
      apply app_inv_head in Hww as <-. reflexivity. }
    subst news'. rewrite remove_at_0.
    assert (Hcons : exists s0 r, news ++ post = s0 :: r).
    { destruct news as [|s0 news]; [|cbn [app]; eauto]. cbn [length] in Hln. subst n. cbn [app].
      destruct He as [He|(u & _ & p & x & q & -> & _)]; [|destruct p; cbn [app]; eauto].
      destruct gl; [|discriminate]. apply tiling_nil_inv in Hgl. unfold last_time in Ht. pose proof (pow2_pos (pp_depth pp)). lia. }
    destruct Hcons as (s0 & r & Hc). rewrite Hc. reflexivity.
Qed.

Lemma update_exact {E} (L : env_laws E) m (pp : pubparam E) t seed (sk : seckey E) s l pre a post :
  pp_ok pp -> sec_cs sk = pp_cs pp -> sec_time sk < t <= last_time (pp_depth pp) ->
  sec_ssk sk = s :: l -> sk_t s < t -> delegates t (sec_ssk sk) pre a post -> sk_t a = t ->
  update m pp t seed sk = (Ok tt, SecKey (sec_cs sk) t (a :: post) (spec_reseed sk seed)).
Proof.
  intros Hpp Hcs Ht Hl Hs Hdel He. pose proof (ppo_depth pp Hpp) as Hd.
  destruct (delegates_code t sk s l pre a post Hl Hs Hdel) as [Hfa Hdu].
  unfold update, sbind, sget, slift, sput. rewrite Hcs, N.eqb_refl. cbn [negb].
  pose proof (max_time_ok m (pp_depth pp) Hd) as Hmax. destruct (shl64 m (pp_depth pp)) as [p| |]; try discriminate.
  cbn [bind] in Hmax. rewrite Hmax.
  replace (t <=? sec_time sk) with false by lia.
  replace (last_time (pp_depth pp) <? t) with false by lia. cbn [orb].
  rewrite Hfa, rerandomize_spec by (apply (hash_len_env L)). rewrite Hdu.
  fold (spec_reseed sk seed). rewrite He, N.eqb_refl. reflexivity.
Qed.

Lemma update_no_delegator {E} m (pp : pubparam E) t seed (sk : seckey E) e :
  pp_ok pp -> sec_cs sk = pp_cs pp -> sec_time sk < t <= last_time (pp_depth pp) ->
  find_ancestor sk t = Err e -> update m pp t seed sk = (Err e, sk).
Proof.
  intros Hpp Hcs Ht Hfa. pose proof (ppo_depth pp Hpp) as Hd.
  unfold update, sbind, sget, slift, sput. rewrite Hcs, N.eqb_refl. cbn [negb].
  pose proof (max_time_ok m (pp_depth pp) Hd) as Hmax. destruct (shl64 m (pp_depth pp)) as [p| |]; try discriminate.
  cbn [bind] in Hmax. rewrite Hmax.
  replace (t <=? sec_time sk) with false by lia.
  replace (last_time (pp_depth pp) <? t) with false by lia. cbn [orb]. rewrite Hfa. reflexivity.
Qed.

Lemma update_result_sound {E} (L : env_laws E) m (pp : pubparam E) t seed (sk : seckey E) o :
  pp_ok pp -> update_result pp t seed sk o -> update m pp t seed sk = o.
Proof.
  intros Hpp Ho. pose proof (ppo_depth pp Hpp) as Hd. destruct Ho.
  - apply update_cs_err. assumption.
  - apply update_time_err; [exact Hd|assumption|lia].
  - apply update_no_delegator; auto. unfold find_ancestor. rewrite H1. reflexivity.
  - apply update_no_delegator; auto. unfold find_ancestor. rewrite H1. replace (t <=? sk_t s) with true by lia. reflexivity.
  - eapply update_exact; eauto.
  - eapply from_delegator_sound; eauto.
Qed.

(** Some case always applies. *)
Lemma below_dec d a u : (1 <= d < 64)%nat -> 1 <= u <= last_time d -> strictly_below d a u \/ ~ strictly_below d a u.
Proof.
  intros Hd Hu. destruct (N.le_gt_cases 1 a) as [H1|H1].
  2:{ right. intros (va & w & _ & Ha & _). apply node_at_range in Ha. lia. }
  destruct (N.le_gt_cases a (last_time d)) as [H2|H2].
  2:{ right. intros (va & w & _ & Ha & _). apply node_at_range in Ha. lia. }
  destruct (node_at_ex d a ltac:(lia)) as (va & Ha). destruct (node_at_ex d u Hu) as (vu & Hvu).
  destruct (tv_is_prefix (TimeVec a va) (TimeVec u vu)) eqn:Ep; [left|right].
  - apply (is_prefix_spec d a va u vu); auto.
  - intros Hb. apply (is_prefix_spec d a va u vu) in Hb; auto. congruence.
Qed.

Lemma makes_ex {E} d (a : subkey E) post : (1 <= d < 64)%nat -> forall gl, Forall (fun u => 1 <= u <= last_time d) gl ->
  exists n, makes d a post gl n /\ (ends_well d post gl n \/ exists e, ends_badly d a post gl n e).
Proof.
  intros Hd. induction gl as [|u gl IH]; intros Hgl.
  { exists 0%nat. split; [split; [cbn [length]; lia|constructor]|]. left. left. reflexivity. }
  inversion Hgl as [|? ? Hu Hgl']; subst.
  destruct (look_cases d u post) as [Hf|[(s & Hb)|Hc]].
  - exists 0%nat. split; [split; [lia|constructor]|]. left. right. exists u. auto.
  - exists 0%nat. split; [split; [lia|constructor]|]. right. eexists. exists u. split; [reflexivity|]. left. exists s. split; [exact Hb|reflexivity].
  - destruct (below_dec d (sk_t a) u Hd Hu) as [Hbl|Hbl].
    + destruct (IH Hgl') as (n & [Hn Hm] & He). exists (S n). split.
      { split; [cbn [length]; lia|]. cbn [firstn]. constructor; [split; assumption|exact Hm]. }
      destruct He as [[He|He]|(e & He)].
      * left. left. cbn [length]. lia.
      * left. right. exact He.
      * right. exists e. exact He.
    + exists 0%nat. split; [split; [lia|constructor]|]. right. eexists. exists u. split; [reflexivity|]. right. auto.
Qed.

Lemma new_sub_ex {E} d (pp : pubparam E) g a post gl : d = pp_depth pp -> forall n, makes d a post gl n ->
  exists news, length news = n /\ forall i u s, nth_error gl i = Some u -> nth_error news i = Some s -> new_sub pp g a i u s.
Proof.
  intros ->. induction n as [|n IH]; intros [Hn Hm].
  { exists []. split; [reflexivity|]. intros i u s _ H. destruct i; discriminate. }
  destruct IH as (news & Hl & Hnew).
  { split; [lia|]. replace n with (Nat.min n (S n)) by lia. rewrite <- firstn_firstn. apply Forall_firstn, Hm. }
  destruct (nth_error gl n) as [u|] eqn:Eu; [|apply nth_error_None in Eu; lia].
  rewrite Forall_forall in Hm. destruct (Hm u) as [_ (va & w & _ & Ha & Hw)].
  { apply (nth_error_In _ n). rewrite nth_error_firstn by lia. exact Eu. }
  exists (news ++ [match n with O => moved_down a w u | S _ => added_to pp (moved_down a w u) (va ++ w) (added (sha512 E) g n) end]).
  split; [rewrite app_length; cbn [length]; lia|]. intros i u' s Hu' Hs.
  destruct (Nat.lt_ge_cases i n) as [Hi|Hi].
  - rewrite nth_error_app1 in Hs by lia. apply (Hnew i u' s Hu' Hs).
  - rewrite nth_error_app2 in Hs by lia. rewrite Hl in Hs. destruct (i - n)%nat as [|k] eqn:Ek; [|destruct k; discriminate].
    assert (i = n) by lia. subst i. cbn [nth_error] in Hs. injection Hs as <-. rewrite Eu in Hu'. injection Hu' as <-.
    exists va, w. split; [exact Ha|]. split; [exact Hw|]. reflexivity.
Qed.

Lemma draws_first H old g : forall n, (forall i, (1 <= i < n)%nat -> draws H i g <> old)
  \/ exists i, (1 <= i < n)%nat /\ draws H i g = old /\ forall j, (1 <= j < i)%nat -> draws H j g <> old.
Proof.
  induction n as [|n IH]; [left; intros; lia|]. destruct IH as [IH|(i & Hi & Hd & Hj)].
  2:{ right. exists i. split; [lia|]. auto. }
  destruct (Nat.eq_dec n 0) as [->|Hn]; [left; intros; lia|].
  destruct (prng_eqb (draws H n g) old) eqn:Eq.
  - apply bytes_eqb_eq in Eq. right. exists n. split; [lia|]. auto.
  - left. intros i Hi. destruct (Nat.eq_dec i n) as [->|Hin]; [|apply IH; lia].
    intros He. rewrite He in Eq. unfold prng_eqb in Eq. rewrite (proj2 (bytes_eqb_eq old old) eq_refl) in Eq. discriminate.
Qed.

Lemma short_dec {E} d (a : subkey E) t : (1 <= d < 64)%nat -> 1 <= t <= last_time d -> too_short d a t \/ ~ too_short d a t.
Proof.
  intros Hd Ht. destruct (node_at_ex d t Ht) as (v & Hv).
  assert (Hdec : (exists va, node_at d (sk_t a) va) \/ ~ exists va, node_at d (sk_t a) va).
  { destruct (N.le_gt_cases 1 (sk_t a)) as [H1|H1].
    2:{ right. intros (va & Ha). apply node_at_range in Ha. lia. }
    destruct (N.le_gt_cases (sk_t a) (last_time d)) as [H2|H2].
    2:{ right. intros (va & Ha). apply node_at_range in Ha. lia. }
    left. apply node_at_ex. lia. }
  destruct Hdec as [(va & Ha)|Hno].
  - destruct (Nat.lt_ge_cases (length va + length (sk_hvec a)) (length v)) as [Hl|Hl].
    + left. exists va, v. auto.
    + right. intros (va' & v' & Ha' & Hv' & Hlt). rewrite (node_at_fun _ _ _ _ Ha' Ha), (node_at_fun _ _ _ _ Hv' Hv) in Hlt. lia.
  - right. intros (va & _ & Ha & _). apply Hno. exists va. exact Ha.
Qed.
Lemma long_dec' {E} (pp : pubparam E) (a : subkey E) : (1 <= pp_depth pp < 64)%nat -> too_long pp a \/ ~ too_long pp a.
Proof.
  intros Hd. destruct (N.le_gt_cases 1 (sk_t a)) as [H1|H1].
  2:{ right. intros (va & Ha & _). apply node_at_range in Ha. lia. }
  destruct (N.le_gt_cases (sk_t a) (last_time (pp_depth pp))) as [H2|H2].
  2:{ right. intros (va & Ha & _). apply node_at_range in Ha. lia. }
  destruct (node_at_ex (pp_depth pp) (sk_t a) ltac:(lia)) as (va & Ha).
  destruct (Nat.lt_ge_cases (length va + length (sk_hvec a)) (length (pp_hlist pp))) as [Hl|Hl].
  - right. intros (va' & Ha' & Hlt). rewrite (node_at_fun _ _ _ _ Ha' Ha) in Hlt. lia.
  - left. exists va. auto.
Qed.

Lemma update_result_total {E} (pp : pubparam E) t seed (sk : seckey E) :
  pp_ok pp -> exists o, update_result pp t seed sk o.
Proof.
  intros Hpp. pose proof (ppo_depth pp Hpp) as Hd.
  destruct (N.eq_dec (sec_cs sk) (pp_cs pp)) as [Hcs|Hcs]; [|eexists; apply U_cs; exact Hcs].
  assert (Hdec : sec_time sk < t <= last_time (pp_depth pp) \/ ~ (sec_time sk < t <= last_time (pp_depth pp))) by lia.
  destruct Hdec as [Ht|Ht]; [|eexists; apply U_time; assumption].
  destruct (sec_ssk sk) as [|s l] eqn:El; [eexists; apply U_empty; assumption|].
  destruct (N.le_gt_cases t (sk_t s)) as [Hs|Hs]; [eexists; eapply U_late; eassumption|].
  destruct (delegates_ex t (sec_ssk sk) s) as (pre & a & post & Hdel); [rewrite El; left; reflexivity|exact Hs|].
  destruct (N.eq_dec (sk_t a) t) as [He|He]; [eexists; eapply U_exact; eassumption|].
  destruct (tiling_ex (pp_depth pp) t ltac:(lia)) as (gl & Hgl). set (gl' := t :: gl) in *.
  destruct (makes_ex (pp_depth pp) a post Hd gl' (tiling_nodes _ _ _ Hgl)) as (n & Hmk & Hend).
  assert (Hex : exists o, from_delegator pp t sk (spec_reseed sk seed) a post gl' n o).
  { destruct (Nat.eq_dec n 0) as [Hn0|Hn0].
    - assert (Hsm : smooth pp t (sec_prng sk) (spec_reseed sk seed) a n)
        by (split; [left; exact Hn0|split; [left; lia|intros; lia]]).
      destruct Hend as [Hw|(e & Hb)]; [|eexists; eapply D_err; eassumption].
      destruct (new_sub_ex (pp_depth pp) pp (spec_reseed sk seed) a post gl' eq_refl n Hmk) as (news & Hl & Hnew).
      eexists. eapply D_ok; eassumption.
    - destruct (short_dec (pp_depth pp) a t Hd ltac:(lia)) as [Hsh|Hsh]; [eexists; apply D_short; [lia|exact Hsh]|].
      destruct (draws_first (sha512 E) (sec_prng sk) (spec_reseed sk seed) n) as [Hdr|(i & Hi & Hdi & Hj)].
      + destruct (long_dec' pp a Hd) as [Hlo|Hlo].
        * destruct (Nat.eq_dec n 1) as [Hn1|Hn1].
          -- assert (Hsm : smooth pp t (sec_prng sk) (spec_reseed sk seed) a n)
               by (split; [right; exact Hsh|split; [left; lia|exact Hdr]]).
             destruct Hend as [Hw|(e & Hb)]; [|eexists; eapply D_err; eassumption].
             destruct (new_sub_ex (pp_depth pp) pp (spec_reseed sk seed) a post gl' eq_refl n Hmk) as (news & Hl & Hnew).
             eexists. eapply D_ok; eassumption.
          -- eexists. apply D_long; [lia| |apply Hdr; lia|exact Hlo].
             split; [right; exact Hsh|split; [left; lia|intros; lia]].
        * assert (Hsm : smooth pp t (sec_prng sk) (spec_reseed sk seed) a n)
            by (split; [right; exact Hsh|split; [right; exact Hlo|exact Hdr]]).
          destruct Hend as [Hw|(e & Hb)]; [|eexists; eapply D_err; eassumption].
          destruct (new_sub_ex (pp_depth pp) pp (spec_reseed sk seed) a post gl' eq_refl n Hmk) as (news & Hl & Hnew).
          eexists. eapply D_ok; eassumption.
      + destruct (long_dec' pp a Hd) as [Hlo|Hlo].
        * destruct (Nat.eq_dec i 1) as [Hi1|Hi1].
          -- subst i. eexists. eapply D_draw; [exact Hi| |exact Hdi].
             split; [right; exact Hsh|split; [left; lia|intros; lia]].
          -- eexists. apply D_long; [lia| |apply Hj; lia|exact Hlo].
             split; [right; exact Hsh|split; [left; lia|intros; lia]].
        * eexists. eapply D_draw; [exact Hi| |exact Hdi].
          split; [right; exact Hsh|split; [right; exact Hlo|exact Hj]]. }
  destruct Hex as (o & Ho). exists o. eapply U_from; eassumption.
Qed.

Lemma update_any : forall (E : env) (L : env_laws E) m (pp : pubparam E) t seed sk o,
  pp_ok pp -> (update m pp t seed sk = o <-> update_result pp t seed sk o).
Proof.
  intros E L m pp t seed sk o Hpp. split; [|apply (update_result_sound L); exact Hpp].
  intros <-. destruct (update_result_total pp t seed sk Hpp) as (o & Ho).
  rewrite (update_result_sound L m pp t seed sk o Hpp Ho). exact Ho.
Qed.

(** * delegate and randomization *)
Lemma delegate_any : forall (E : env) (L : env_laws E) m d t (s : subkey E) o,
  (1 <= d < 64)%nat -> (delegate m t d s = o <-> delegate_result d t s o).
Proof.
  intros E L m d t s o Hd.
  assert (Hsound : forall o, delegate_result d t s o -> delegate m t d s = o).
  { clear o. intros o [Hs|Hs Ht|Hs Ht Hb|v w Hn Hn' Hw Hl|v w Hn Hn' Hw Hl].
    - unfold delegate, sbind, sget, slift. rewrite tv_bad by auto. reflexivity.
    - unfold delegate, sbind, sget, slift. destruct (tv_init_ex m d (sk_t s) ltac:(lia) Hs) as (v & _ & ->).
      rewrite tv_bad by auto. reflexivity.
    - destruct (delegate_err m d s t Hd Hb) as (e & He & Hp). rewrite He, Hp by (exact Hs || exact Ht). reflexivity.
    - unfold delegate, sbind, sget, slift, sput.
      rewrite (proj2 (tv_init_ok m d _ v ltac:(lia)) Hn), (proj2 (tv_init_ok m d t _ ltac:(lia)) Hn').
      assert (Hpre : tv_is_prefix (TimeVec (sk_t s) v) (TimeVec t (v ++ w)) = true).
      { apply (is_prefix_spec d); auto. exists v, w. auto. }
      rewrite Hpre. cbn [negb tv_vec]. rewrite skipn_app, skipn_all, Nat.sub_diag. cbn [skipn app].
      destruct (node_at_turn _ _ _ Hn') as [Ht' _]. apply Forall_app in Ht' as [_ Htw].
      assert (Hdl : forall ts (hv : list (G1 E)) hp, Forall turn ts -> (length hv < length ts)%nat ->
                del_loop hv ts hp = (Panic P_INDEX, g1_add hp (lincomb ts hv))).
      { induction ts as [|y ts IH]; intros hv hp Hf H; cbn [length] in H; [lia|]. cbn [del_loop lincomb].
        destruct hv as [|h hv]; [f_equal; g1_solve L|]. inversion Hf as [|? ? Hy Hf']; subst. cbn [length] in H.
        rewrite IH by (auto; lia). f_equal.
        destruct Hy as [-> | ->]; cbn [N.eqb Pos.eqb]; rewrite ?(g1_dbl_mul L); g1_solve L. }
      rewrite (Hdl w (sk_hvec s) (sk_hpoly s) Htw Hl). reflexivity.
    - apply (delegate_general L m d s t v w); auto; lia. }
  split; [|apply Hsound]. intros <-.
  assert (Hex : exists o, delegate_result d t s o).
  { assert (D1 : stamp d (sk_t s) \/ ~ stamp d (sk_t s)) by (unfold stamp; lia).
    destruct D1 as [Hs|Hs]; [|eexists; apply L_bad; exact Hs].
    assert (D2 : stamp d t \/ ~ stamp d t) by (unfold stamp; lia).
    destruct D2 as [Ht|Ht]; [|eexists; apply L_target; assumption].
    destruct (below_dec d (sk_t s) t Hd Ht) as [Hb|Hb]; [|eexists; apply L_prefix; assumption].
    destruct Hb as (v & w & Hw & Hn & Hn').
    destruct (Nat.le_gt_cases (length w) (length (sk_hvec s))) as [Hl|Hl].
    - eexists. eapply L_ok; eassumption.
    - eexists. eapply L_short; eassumption. }
  destruct Hex as (o & Ho). rewrite (Hsound o Ho). exact Ho.
Qed.

Lemma hv_loop_all {E} (hlist : list (G1 E)) r : forall hv base,
  (length hlist < base + length hv)%nat -> (base <= length hlist)%nat ->
  hv_loop hlist base r hv = (Panic P_INDEX, map (fun xh => g1_add (fst xh) (g1_mul r (snd xh))) (combine hv (skipn base hlist))
                                            ++ skipn (length hlist - base) hv).
Proof.
  induction hv as [|x hv IH]; intros base H Hb; cbn [length] in H; [lia|]. cbn [hv_loop].
  destruct (Nat.eq_dec base (length hlist)) as [He|He].
  - unfold nth_res. rewrite (proj2 (nth_error_None hlist base)) by lia. rewrite (skipn_all2 hlist) by lia.
    replace (length hlist - base)%nat with 0%nat by lia. reflexivity.
  - rewrite (nth_res_ok _ _ g1_zero) by lia. rewrite (IH (S base)) by lia. rewrite (skipn_nth hlist base g1_zero) by lia.
    cbn [combine map fst snd app]. replace (length hlist - base)%nat with (S (length hlist - S base)) by lia. reflexivity.
Qed.

Lemma randomization_any : forall (E : env) (L : env_laws E) m (pp : pubparam E) k (s : subkey E) o,
  pp_ok pp -> (randomization m pp k s = o <-> randomization_result pp k s o).
Proof.
  intros E L m pp k s o Hpp. pose proof (ppo_depth pp Hpp) as Hd. pose proof (ppo_len pp Hpp) as Hlen.
  assert (Hsound : forall o, randomization_result pp k s o -> randomization m pp k s = o).
  { clear o. intros o [Hs|v Hn Hl s'|v Hn Hl].
    - unfold randomization, sbind, sget, slift, sput, ssk_time_vec. cbn [sk_t]. rewrite tv_bad by auto. reflexivity.
    - destruct (node_at_turn _ _ _ Hn) as [Ht Hlv].
      unfold randomization, sbind, sget, slift, sput, ssk_time_vec. cbn [sk_t sk_g2r sk_hpoly sk_hvec].
      rewrite (proj2 (tv_init_ok m (pp_depth pp) (sk_t s) v ltac:(lia)) Hn). cbn [tv_vec].
      rewrite (nth_res_ok _ _ g1_zero) by lia. rewrite (poly_loop_node L) by auto.
      cbn [sk_t sk_g2r sk_hpoly sk_hvec]. rewrite hv_loop_all by lia. reflexivity.
    - apply (randomization_general L); assumption. }
  split; [|apply Hsound]. intros <-.
  assert (Hex : exists o, randomization_result pp k s o).
  { assert (D1 : stamp (pp_depth pp) (sk_t s) \/ ~ stamp (pp_depth pp) (sk_t s)) by (unfold stamp; lia).
    destruct D1 as [Hs|Hs]; [|eexists; apply R_bad; exact Hs].
    destruct (node_at_ex _ _ Hs) as (v & Hn).
    destruct (Nat.lt_ge_cases (length v + length (sk_hvec s)) (length (pp_hlist pp))) as [Hl|Hl].
    - eexists. eapply R_ok; eassumption.
    - eexists. eapply R_long; eassumption. }
  destruct Hex as (o & Ho). rewrite (Hsound o Ho). exact Ho.
Qed.

(** * Keys in order *)
(** If the time stamps of the sub keys increase, a successful update gives the time asked for. *)
Lemma update_any_sorted : forall (E : env) (L : env_laws E) m (pp : pubparam E) t seed sk sk',
  pp_ok pp -> StronglySorted N.lt (map sk_t (sec_ssk sk)) -> update m pp t seed sk = (Ok tt, sk') -> sec_time sk' = t.
Proof.
  intros E L m pp t seed sk sk' Hpp Hso Hu. apply (update_any E L m pp t seed sk _ Hpp) in Hu.
  inversion Hu as [| | | | |s l pre a post gl n o Hcs Ht Hl Hs Hdel Hne Hgl Hmk Ho Heq]; subst; [reflexivity|].
  inversion Ho as [| | | |news Hsm He Hln Hnew]; subst. cbn [sec_time].
  destruct news as [|s0 news].
  - cbn [app length map] in *. exfalso. destruct Hdel as (He1 & Hp & p & b & q & He2 & Hab & Hb & Hq).
    assert (Hpost : Forall (fun x => t < sk_t x) post).
    { assert (b = a /\ q = post) as [-> ->]; [|exact Hq]. clear - He1 He2 Hab Hso.
      rewrite He1 in He2. rewrite He1 in Hso. clear He1. revert p He2. induction pre as [|x pre IH]; intros p He2.
      - destruct p as [|y p]; cbn [app] in *; [injection He2 as -> ->; auto|].
        injection He2 as -> ->. cbn [map] in Hso. inversion Hso as [|? ? _ Hf]; subst.
        rewrite map_app, Forall_app in Hf. destruct Hf as [_ Hf]. cbn [map] in Hf. apply Forall_inv in Hf. lia.
      - destruct p as [|y p]; cbn [app] in *.
        + injection He2 as -> <-. cbn [map] in Hso. inversion Hso as [|? ? _ Hf]; subst.
          rewrite map_app, Forall_app in Hf. destruct Hf as [_ Hf]. cbn [map] in Hf. apply Forall_inv in Hf. lia.
        + injection He2 as -> He2. cbn [map] in Hso. inversion Hso; subst. eapply IH; eassumption. }
    destruct gl as [|u gl]; [apply tiling_nil_inv in Hgl; unfold last_time in Ht; pose proof (pow2_pos (pp_depth pp)); lia|].
    apply tiling_inv in Hgl as [Hu0 _]. subst u.
    destruct He as [He|(u & Hnth & p' & x & q' & Hx & _ & Hxt)]; [discriminate|].
    cbn [nth_error] in Hnth. injection Hnth as <-. rewrite Forall_forall in Hpost.
    assert (Hin : In x post) by (rewrite Hx; apply in_or_app; right; left; reflexivity).
    specialize (Hpost x Hin). cbn beta in Hpost. lia.
  - cbn [app map hd]. destruct gl as [|u gl]; [destruct Hmk as [Hle _]; cbn [length] in Hle; lia|].
    apply tiling_inv in Hgl as [Hu0 _]. subst u.
    destruct (Hnew 0%nat t s0 eq_refl eq_refl) as (va & w & _ & _ & ->). reflexivity.
Qed.

(** * validate *)
Lemma validate_loop_panics {E} (L : env_laws E) m (pp : pubparam E) pk : pp_ok pp -> g2_insub (pk_pk pk) = true ->
  forall l gl, Forall (fun s => g2_insub (sk_g2r s) = true /\ g1_insub (sk_hpoly s) = true) l ->
  (forall e, validate_loop m pk pp l gl <> Err e)
  /\ forall p, (validate_loop m pk pp l gl = Panic p <->
     p = P_INDEX /\ exists l1 s l2, l = l1 ++ s :: l2 /\ map sk_t l1 = map tv_time gl
                    /\ Forall (ssk_equation pp pk) (l1 ++ [s])).
Proof.
  intros Hpp Hpk. induction l as [|s l IH]; intros gl Hf; cbn [validate_loop].
  - split; [discriminate|]. intros p. split; [discriminate|]. intros (_ & l1 & s & l2 & He & _). destruct l1; discriminate.
  - inversion Hf as [|? ? [H1 H2] Hf']; subst.
    destruct (ssk_validate_spec L m pp s pk Hpp Hpk H1 H2) as (b & -> & Hb). cbn [bind].
    destruct b; cbn [negb].
    2:{ split; [discriminate|]. intros p. split; [discriminate|]. intros (_ & l1 & x & l2 & He & _ & Heq). exfalso.
        assert (Hs : ssk_equation pp pk s).
        { destruct l1 as [|y l1]; cbn [app] in *; injection He as -> ->; apply Forall_inv in Heq; exact Heq. }
        apply Hb in Hs. discriminate. }
    destruct gl as [|tv gl].
    + split; [discriminate|]. intros p. split.
      * intros [= <-]. split; [reflexivity|]. exists [], s, l. split; [reflexivity|]. split; [reflexivity|].
        constructor; [apply Hb; reflexivity|constructor].
      * intros (-> & _). reflexivity.
    + destruct (N.eqb_spec (sk_t s) (tv_time tv)) as [He|Hne]; cbn [negb].
      * destruct (IH gl Hf') as [Hne IHp]. split; [exact Hne|]. intros p. rewrite IHp. split.
        -- intros (-> & l1 & x & l2 & -> & Hm & Heq). split; [reflexivity|]. exists (s :: l1), x, l2. split; [reflexivity|].
           cbn [map app]. split; [congruence|]. constructor; [apply Hb; reflexivity|exact Heq].
        -- intros (-> & l1 & x & l2 & Hl & Hm & Heq). split; [reflexivity|]. destruct l1 as [|y l1]; [discriminate|].
           cbn [app map] in *. injection Hl as -> ->. exists l1, x, l2. split; [reflexivity|].
           split; [congruence|]. inversion Heq; assumption.
      * split; [discriminate|]. intros p. split; [discriminate|]. intros (_ & l1 & x & l2 & Hl & Hm & _).
        destruct l1 as [|y l1]; [discriminate|]. cbn [app map] in *. injection Hl as -> _. congruence.
Qed.

Lemma validate_any : forall (E : env) (L : env_laws E) m (pp : pubparam E) sk pk,
  pp_ok pp -> g2_insub (pk_pk pk) = true ->
  Forall (fun s => g2_insub (sk_g2r s) = true /\ g1_insub (sk_hpoly s) = true) (sec_ssk sk) ->
  (forall e, sk_validate m sk pk pp <> Err e)
  /\ forall p, (sk_validate m sk pk pp = Panic p <->
     p = P_INDEX /\ sec_cs sk = pp_cs pp /\ pk_cs pk = pp_cs pp
     /\ exists l1 s l2, sec_ssk sk = l1 ++ s :: l2 /\ stamp (pp_depth pp) (sec_time sk)
        /\ tiling (pp_depth pp) (sec_time sk) (map sk_t l1) /\ Forall (ssk_equation pp pk) (l1 ++ [s])).
Proof.
  intros E L m pp sk pk Hpp Hpk Hf. pose proof (ppo_depth pp Hpp) as Hd. unfold sk_validate.
  destruct (N.eqb_spec (sec_cs sk) (pk_cs pk)) as [Hc1|Hc1]; cbn [negb orb].
  2:{ split; [discriminate|]. intros p. split; [discriminate|]. intros (_ & H1 & H2 & _). congruence. }
  destruct (N.eqb_spec (sec_cs sk) (pp_cs pp)) as [Hc2|Hc2]; cbn [negb].
  2:{ split; [discriminate|]. intros p. split; [discriminate|]. intros (_ & H1 & H2 & _). congruence. }
  destruct (tv_init_total m (pp_depth pp) (sec_time sk) ltac:(lia)) as [(v & Hn & ->)|(Hno & e & ->)].
  - destruct (gamma_list_spec m (pp_depth pp) _ v ltac:(lia) Hn) as (pl & -> & _ & Htil & _).
    destruct (validate_loop_panics L m pp pk Hpp Hpk _ (map (mk_tv (pp_depth pp)) pl) Hf) as [Hne Hp].
    split; [exact Hne|]. intros p. rewrite Hp. rewrite map_map.
    change (map (fun x => tv_time (mk_tv (pp_depth pp) x)) pl) with (map (ptime (pp_depth pp)) pl). split.
    + intros (-> & l1 & s & l2 & Hl & Hm & Heq). split; [reflexivity|]. split; [exact Hc2|]. split; [congruence|].
      exists l1, s, l2. split; [exact Hl|]. split; [apply (node_at_range _ _ _ Hn)|]. rewrite Hm. auto.
    + intros (-> & _ & _ & l1 & s & l2 & Hl & _ & Ht & Heq). split; [reflexivity|]. exists l1, s, l2.
      split; [exact Hl|]. split; [apply (tiling_fun _ _ _ _ Ht Htil)|exact Heq].
  - split; [discriminate|]. intros p. split; [discriminate|]. intros (_ & _ & _ & l1 & s & l2 & _ & Hst & _).
    destruct (node_at_ex _ _ Hst) as (v & Hn). destruct (Hno v Hn).
Qed.
