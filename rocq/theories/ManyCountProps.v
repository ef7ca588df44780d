(** Lemmas behind Properties_Many.v: how often the forger speaks, and probabilities. *)
From Coq Require Import QArith.
From Verif Require Import Base Env Time SpecTime Hkdf Prng SubKey SecretKey Keys Sig IO Serdes Api
  SpecKey SpecUpdate SpecAgg SpecRed SpecMulti SpecRom SpecPop SpecFwd SpecClean AdvProps AdvCountProps ManyProps SpecIface SpecCost SpecAdv SpecMany.
Local Open Scope N_scope.

(** The number of questions. *)
Fixpoint at_most {E A} (p : asks E A) (n : nat) : Prop :=
  match p with
  | Done _ => True
  | AskH _ k => match n with O => False | S n' => forall h, at_most (k h) n' end
  | AskQ _ _ k => match n with O => False | S n' => forall h, at_most (k h) n' end
  end.
Section Count.
Context {E : env}.
Lemma at_most_le {A} (p : asks E A) : forall a b, at_most p a -> (a <= b)%nat -> at_most p b.
Proof.
  induction p as [x|b0 k IH|msg cs k IH]; intros a b Ha Hab; [exact I| |].
  - destruct a as [|a]; [destruct Ha|]. destruct b as [|b]; [lia|]. intros h. apply (IH h a); [apply Ha|lia].
  - destruct a as [|a]; [destruct Ha|]. destruct b as [|b]; [lia|]. intros h. apply (IH h a); [apply Ha|lia].
Qed.
Lemma at_most_bind {A B} (p : asks E A) (k : A -> asks E B) b : forall a, at_most p a -> (forall x, at_most (k x) b) -> at_most (abind p k) (a + b).
Proof.
  induction p as [x|b0 j IH|msg cs j IH]; intros a Ha Hk; cbn [abind].
  - apply at_most_le with b; [apply Hk|lia].
  - destruct a as [|a]; [destruct Ha|]. intros h. apply IH; [apply Ha|exact Hk].
  - destruct a as [|a]; [destruct Ha|]. intros h. apply IH; [apply Ha|exact Hk].
Qed.
Lemma at_most_rbind {A B} (p : asks E (res A)) (k : A -> asks E (res B)) a b : at_most p a -> (forall x, at_most (k x) b) -> at_most (rbind p k) (a + b).
Proof. intros Ha Hk. apply at_most_bind; [exact Ha|]. intros [x|e|q]; [apply Hk|exact I|exact I]. Qed.
Lemma at_most_pure {A B} (r : res A) (k : A -> asks E (res B)) b : (forall x, r = Ok x -> at_most (k x) b) -> at_most (rbind (Done r) k) b.
Proof. intros Hk. destruct r as [x|e|q]; [apply Hk; reflexivity|exact I|exact I]. Qed.

Lemma hmac_count key msg : at_most (E := E) (hmac_q key msg) 3.
Proof. unfold hmac_q. destruct (128 <? length key)%nat; cbn; intros; exact I. Qed.
Lemma blocks_count prk info : forall n prev b, at_most (E := E) (blocks_q prk info prev b n) (3 * n).
Proof.
  induction n as [|n IH]; intros prev b; [exact I|]. cbn [blocks_q]. replace (3 * S n)%nat with (3 + (3 * n + 0))%nat by lia.
  apply at_most_bind; [apply hmac_count|]. intros out. apply at_most_bind; [apply IH|]. intros rest. exact I.
Qed.
Lemma expand_count prk info : at_most (E := E) (expand_q prk info 128) 6 /\ at_most (E := E) (expand_q prk info 64) 3.
Proof.
  split; unfold expand_q; destruct (64 * 255 <? _)%nat; try exact I.
  - apply (at_most_bind _ _ 0 6); [exact (blocks_count prk info 2 [] 0)|]. intros; exact I.
  - apply (at_most_bind _ _ 0 3); [exact (blocks_count prk info 1 [] 0)|]. intros; exact I.
Qed.
Lemma draw_count g info : at_most (E := E) (draw_q g info) 6.
Proof.
  unfold draw_q. apply at_most_le with (6 + 0)%nat; [|lia]. apply at_most_rbind; [apply (proj1 (expand_count _ _))|]. intros; exact I.
Qed.
Lemma sample_count g info : at_most (E := E) (sample_q g info) 3.
Proof.
  unfold sample_q. apply at_most_le with (3 + 0)%nat; [|lia]. apply at_most_rbind; [apply (proj2 (expand_count _ _))|]. intros; exact I.
Qed.
Lemma rerandomize_count g seed info : at_most (E := E) (rerandomize_q g seed info) 9.
Proof.
  unfold rerandomize_q. apply at_most_le with (6 + 3)%nat; [|lia]. apply at_most_rbind; [apply (proj1 (expand_count _ _))|]. intros o. apply (at_most_bind _ _ 0 3); [apply hmac_count|]. intros; exact I.
Qed.
Lemma rerand_count m pp old i s g : at_most (E := E) (rerand_new_q m pp old i s g) (if (i =? 0)%nat then 0 else 6).
Proof.
  unfold rerand_new_q. destruct (i =? 0)%nat; [exact I|]. apply (at_most_rbind _ _ 6 0); [apply draw_count|]. intros [r g']. exact I.
Qed.
Lemma loop_count m pp old : forall gl i l g, at_most (E := E) (update_loop_q m pp old i gl l g) (6 * (length gl - (if (i =? 0)%nat then 1 else 0))).
Proof.
  induction gl as [|tv gl IH]; intros i l g; [exact I|]. cbn [update_loop_q]. apply at_most_pure. intros [|] _; [exact I|].
  apply at_most_pure. intros s0 _. apply at_most_pure. intros s1 _.
  apply at_most_le with ((if (i =? 0)%nat then 0 else 6) + 6 * length gl)%nat; [|cbn [length]; destruct (i =? 0)%nat; lia].
  apply at_most_rbind; [apply rerand_count|]. intros [s2 g']. apply at_most_pure. intros l' _.
  specialize (IH (S i) l' g'). cbn [Nat.eqb] in IH. rewrite Nat.sub_0_r in IH. exact IH.
Qed.
Lemma path_len m : forall d t v, time_to_vec m t d = Ok v -> (length v < d)%nat.
Proof.
  induction d as [|d IH]; intros t v Hv; [discriminate|]. cbn [time_to_vec] in Hv.
  destruct (shl64 m (S d)) as [mt|e|p]; [|discriminate|discriminate]. cbn [bind] in Hv.
  destruct ((mt <? t) || (t =? 0)); [discriminate|]. destruct (t =? 1); [injection Hv as <-; cbn; lia|].
  destruct (shl64 m d) as [th|e|p]; [|discriminate|discriminate]. cbn [bind] in Hv. destruct (th <? t).
  - destruct (sub64 m t th) as [t1|e|p]; [|discriminate|discriminate]. cbn [bind] in Hv.
    destruct (time_to_vec m t1 d) as [w|e|p] eqn:Hw; [|discriminate|discriminate]. injection Hv as <-. apply IH in Hw. cbn [length]. lia.
  - destruct (sub64 m t 1) as [t1|e|p]; [|discriminate|discriminate]. cbn [bind] in Hv.
    destruct (time_to_vec m t1 d) as [w|e|p] eqn:Hw; [|discriminate|discriminate]. injection Hv as <-. apply IH in Hw. cbn [length]. lia.
Qed.
Lemma gamma_len m d : forall rest pre acc gl, gamma_loop m d pre rest acc = Ok gl -> (length gl <= length acc + length rest)%nat.
Proof.
  induction rest as [|x rest IH]; intros pre acc gl Hg; cbn [gamma_loop] in Hg; [injection Hg as <-; lia|].
  destruct (x =? 1).
  - destruct (vec_to_time m (pre ++ [2]) d) as [t|e|p]; [|discriminate|discriminate]. cbn [bind] in Hg. unfold insert_at in Hg.
    destruct (1 <=? length acc)%nat eqn:Hl; [|discriminate]. cbn [bind] in Hg. apply IH in Hg. revert Hg.
    rewrite app_length. cbn [length]. rewrite firstn_length, skipn_length. apply Nat.leb_le in Hl. lia.
  - cbn [bind] in Hg. apply IH in Hg. cbn [length]. lia.
Qed.
Lemma cover_len m d t tv gl : tv_init m t d = Ok tv -> gamma_list m tv d = Ok gl -> (length gl <= d)%nat.
Proof.
  unfold tv_init. destruct (time_to_vec m t d) as [v|e|p] eqn:Hv; [|discriminate|discriminate]. intros Ht. injection Ht as <-.
  unfold gamma_list. cbn [tv_vec]. intros Hg. apply gamma_len in Hg. apply path_len in Hv. cbn [length] in Hg. lia.
Qed.
Lemma update_count m pp t seed sk : at_most (E := E) (update_q m pp t seed sk) (9 + 6 * pp_depth pp).
Proof.
  unfold update_q. destruct (negb (sec_cs sk =? pp_cs pp)); [exact I|]. apply at_most_pure. intros p _. apply at_most_pure. intros mt _.
  destruct ((t <=? sec_time sk) || (mt <? t)); [exact I|]. apply at_most_pure. intros dt _.
  apply at_most_rbind; [apply rerandomize_count|]. intros g. apply at_most_pure. intros [|s l] _; [exact I|]. destruct (dt =? t); [exact I|].
  apply at_most_pure. intros tv Ht. apply at_most_pure. intros gl Hg. apply (cover_len _ _ _ _ _ Ht) in Hg.
  apply at_most_le with (6 * pp_depth pp + 0)%nat; [|lia]. apply at_most_rbind; [|intros [l' g']; exact I].
  refine (at_most_le _ _ _ (loop_count m pp (sec_prng sk) gl 0 (s :: l) g) _). cbn [Nat.eqb]. lia.
Qed.
Lemma sign_count m sk t pp msg : at_most (E := E) (sign_bytes_q m sk t pp msg) 4.
Proof.
  unfold sign_bytes_q. destruct (negb (valid_cs (pp_cs pp))); [exact I|]. destruct (negb (sec_cs sk =? pp_cs pp)); [exact I|].
  destruct (negb (sec_time sk =? t)); [exact I|]. apply (at_most_rbind _ _ 3 1); [apply sample_count|]. intros r h. exact I.
Qed.
Lemma signed_count m sk t pp msg : at_most (E := E) (signed_q m pp t msg sk) 4.
Proof. unfold signed_q. apply (at_most_bind _ _ 0 4); [apply sign_count|]. intros r. exact I. Qed.
Lemma step_count m pp o sk : at_most (E := E) (step_q m pp o sk) (13 + 6 * pp_depth pp).
Proof.
  destruct o as [t seed|t msg seed|t msg|t msg seed|c]; cbn [step_q].
  - apply at_most_le with (9 + 6 * pp_depth pp + 0)%nat; [|lia]. apply at_most_bind; [apply update_count|]. intros [k|e|p]; exact I.
  - destruct (t <? sec_time sk); [exact I|]. destruct (sec_time sk <? t).
    + apply at_most_le with (9 + 6 * pp_depth pp + 4)%nat; [|lia]. apply at_most_bind; [apply update_count|].
      intros [k|e|p]; [apply signed_count|exact I|exact I].
    + apply at_most_le with 4%nat; [apply signed_count|lia].
  - destruct (negb (sec_time sk =? t)); [exact I|]. apply at_most_le with 4%nat; [apply signed_count|lia].
  - destruct (negb (sec_time sk =? t)); [exact I|]. apply at_most_le with (4 + (9 + 6 * pp_depth pp + 0))%nat; [|lia].
    apply at_most_bind; [apply sign_count|]. intros [s|e|p]; [|exact I|exact I]. destruct (add64 m t 1) as [t1|e|p]; [|exact I|exact I].
    apply at_most_bind; [apply update_count|]. intros [k|e|p]; exact I.
  - destruct (reload c sk) as [r k]. exact I.
Qed.
Lemma key_count pp seed : at_most (E := E) (key_gen_q seed pp) 16.
Proof.
  unfold key_gen_q. destruct (length seed <? 32)%nat; [exact I|]. destruct (negb (valid_cs (pp_cs pp))); [exact I|].
  apply (at_most_bind _ _ 13 3); [apply (at_most_bind _ _ 0 3); [apply hmac_count|intros; exact I]|]. intros g.
  apply (at_most_rbind _ _ 6 7); [apply draw_count|]. intros [x g'] q. apply (at_most_rbind _ _ 6 0); [apply draw_count|]. intros [r g2]. exact I.
Qed.
Lemma keys_count pp : forall seeds, at_most (E := E) (key_gens_q seeds pp) (16 * length seeds).
Proof.
  induction seeds as [|sd seeds IH]; [exact I|]. cbn [key_gens_q length]. replace (16 * S (length seeds))%nat with (16 + (16 * length seeds + 0))%nat by lia.
  apply at_most_rbind; [apply key_count|]. intros k. apply at_most_rbind; [exact IH|]. intros ks. exact I.
Qed.

(** The forgers. *)
Lemma pspeaks_le l : forall n (f : pforger E) n', pspeaks n l f -> (n <= n')%nat -> pspeaks n' l f.
Proof.
  induction n as [|n IH]; intros f n' Hf Hn; [destruct Hf|]. destruct n' as [|n']; [lia|].
  destruct f; cbn [pspeaks] in *; try exact Hf; intros h; (eapply IH; [apply Hf|lia]).
Qed.
Lemma ispeaks_le l : forall n (f : iforger E) n', ispeaks n l f -> (n <= n')%nat -> ispeaks n' l f.
Proof.
  induction n as [|n IH]; intros f n' Hf Hn; [destruct Hf|]. destruct n' as [|n']; [lia|].
  destruct f; cbn [ispeaks] in *; try exact Hf; intros h; [eapply pspeaks_le; [apply Hf|lia]|..]; (eapply IH; [apply Hf|lia]).
Qed.
Lemma asking_p_speaks {A} l n (k : A -> pforger E) : forall (p : asks E A) c, at_most p c -> (forall a, pspeaks n l (k a)) -> pspeaks (c + n) l (asking_p p k).
Proof.
  induction p as [a|b j IH|msg cs j IH]; intros c Hc Hk; cbn [asking_p].
  - apply pspeaks_le with n; [apply Hk|lia].
  - destruct c as [|c]; [destruct Hc|]. intros h. apply IH; [apply Hc|exact Hk].
  - destruct c as [|c]; [destruct Hc|]. intros h. apply IH; [apply Hc|exact Hk].
Qed.
Lemma asking_i_speaks {A} l n (k : A -> iforger E) : forall (p : asks E A) c, at_most p c -> (forall a, ispeaks n l (k a)) -> ispeaks (c + n) l (asking_i p k).
Proof.
  induction p as [a|b j IH|msg cs j IH]; intros c Hc Hk; cbn [asking_i].
  - apply ispeaks_le with n; [apply Hk|lia].
  - destruct c as [|c]; [destruct Hc|]. intros h. apply IH; [apply Hc|exact Hk].
  - destruct c as [|c]; [destruct Hc|]. intros h. apply IH; [apply Hc|exact Hk].
Qed.
Lemma all_own_speaks m pp l : forall n f sks, cspeaks n l f -> pspeaks ((6 * pp_depth pp + 13) * n) l (all_own (E := E) m pp sks f).
Proof.
  induction n as [|n IH]; intros f sks Hf; [destruct Hf|].
  assert (Hu : forall g, pspeaks ((6 * pp_depth pp + 13) * n) l g -> pspeaks ((6 * pp_depth pp + 13) * S n) l g)
    by (intros g Hg; apply (pspeaks_le _ _ _ _ Hg); nia).
  assert (Hs : exists c, ((6 * pp_depth pp + 13) * S n)%nat = S c /\ ((6 * pp_depth pp + 13) * n <= c)%nat)
    by (exists ((6 * pp_depth pp + 12) + (6 * pp_depth pp + 13) * n)%nat; split; nia).
  destruct Hs as (c & Hc & Hcn).
  destruct f as [msg s ks|i k|i o k|b k|msg cs k]; cbn [all_own cspeaks] in *.
  - rewrite Hc. exact Hf.
  - destruct (nth_error sks i) as [sk|]; [apply Hu, IH, Hf|]. rewrite Hc. cbn. lia.
  - destruct (nth_error sks i) as [sk|]; [|rewrite Hc; cbn; lia].
    replace ((6 * pp_depth pp + 13) * S n)%nat with ((13 + 6 * pp_depth pp) + (6 * pp_depth pp + 13) * n)%nat by nia.
    apply asking_p_speaks; [apply step_count|]. intros x. apply IH, Hf.
  - rewrite Hc. intros h. apply pspeaks_le with (1 := IH _ sks (Hf h)). exact Hcn.
  - rewrite Hc. intros h. apply pspeaks_le with (1 := IH _ sks (Hf h)). exact Hcn.
Qed.
Lemma others_own_speaks m pp l j : forall n f sks, cspeaks n l f -> ispeaks ((6 * pp_depth pp + 13) * n) l (others_own (E := E) m pp j sks f).
Proof.
  induction n as [|n IH]; intros f sks Hf; [destruct Hf|].
  assert (Hu : forall g, ispeaks ((6 * pp_depth pp + 13) * n) l g -> ispeaks ((6 * pp_depth pp + 13) * S n) l g)
    by (intros g Hg; apply (ispeaks_le _ _ _ _ Hg); nia).
  assert (Hs : exists c, ((6 * pp_depth pp + 13) * S n)%nat = S c /\ ((6 * pp_depth pp + 13) * n <= c)%nat)
    by (exists ((6 * pp_depth pp + 12) + (6 * pp_depth pp + 13) * n)%nat; split; nia).
  destruct Hs as (c & Hc & Hcn).
  destruct f as [msg s ks|i k|i o k|b k|msg cs k]; cbn [others_own cspeaks] in *.
  - rewrite Hc. exact Hf.
  - destruct (i =? j)%nat.
    + rewrite Hc. intros sk. apply pspeaks_le with (1 := all_own_speaks m pp l n _ _ (Hf sk)). exact Hcn.
    + destruct (nth_error sks i) as [sk|]; [apply Hu, IH, Hf|]. rewrite Hc. cbn. lia.
  - destruct (i =? j)%nat; [rewrite Hc; intros r; apply ispeaks_le with (1 := IH _ sks (Hf r)); exact Hcn|].
    destruct (nth_error sks i) as [sk|]; [|rewrite Hc; cbn; lia].
    replace ((6 * pp_depth pp + 13) * S n)%nat with ((13 + 6 * pp_depth pp) + (6 * pp_depth pp + 13) * n)%nat by nia.
    apply asking_i_speaks; [apply step_count|]. intros x. apply IH, Hf.
  - rewrite Hc. intros h. apply ispeaks_le with (1 := IH _ sks (Hf h)). exact Hcn.
  - rewrite Hc. intros h. apply ispeaks_le with (1 := IH _ sks (Hf h)). exact Hcn.
Qed.
End Count.

Lemma one_signer_speaks : forall (E : env) m d l1 l2 (adv : cforger_for E) n l,
  (forall pp keys, cspeaks n l (adv pp keys)) ->
  forall pp pk pop, ispeaks (alone_speaks d (length l1 + length l2) n) l (alone m d l1 l2 adv pp pk pop).
Proof.
  intros E m d l1 l2 adv n l Ha pp pk pop. unfold alone, alone_speaks.
  assert (H0 : forall c, ispeaks (S c) l (no_forgery (E := E))) by (intros c; cbn; lia).
  assert (Hn : n <> 0%nat) by (intros ->; exact (Ha pp [])).
  assert (Hs : exists c, ((6 * d + 13) * n)%nat = S c) by (exists (pred ((6 * d + 13) * n)); nia).
  destruct (Nat.eqb_spec (pp_depth pp) d) as [<-|_].
  - rewrite <- app_length. apply asking_i_speaks; [apply keys_count|]. intros [ks|e|p].
    + apply others_own_speaks, Ha.
    + destruct Hs as (c & ->). apply H0.
    + destruct Hs as (c & ->). apply H0.
  - destruct Hs as (c & ->). rewrite Nat.add_succ_r. apply H0.
Qed.

Lemma cgwins_gwins {E} m (g : G1 E) d cs l1 l2 adv w : cgwins m g d cs l1 l2 adv w -> gwins m g d cs (alone m d l1 l2 adv) w.
Proof.
  destruct w as [[[bx b] tb] [[[[y ys] hs] zs] [[[[seed A] B] ks] us]]]. unfold cgwins, gwins, iwins_or.
  intros (o & Ho & Hw). exists o. split; [exact Ho|]. intros Hc. specialize (Hw Hc). exact (one_signer _ _ _ _ _ _ _ _ _ _ Hw).
Qed.

Lemma many_advantage : forall (E : env) (L : env_laws E) m (g : G1 E) d cs l1 l2 adv n nb nk nu ls q p s l eps,
  g1_insub g = true -> (1 <= d <= 32)%nat -> (cs = 0 \/ cs = 1) -> (32 <= ls)%nat -> (1 <= nu)%nat -> (1 <= q)%nat -> N.of_nat n <= 2 ^ 255 ->
  (forall pp keys, cspeaks s l (adv pp keys)) ->
  let s' := alone_speaks d (length l1 + length l2) s in
  solver_at_most s' (cost_bound d p (2 * s') l) g d cs (alone m d l1 l2 adv) n nb nk nu ls q p eps ->
  forall ws, NoDup ws -> Forall (fun w => gcoins_any d n nb nk nu ls q p w /\ cgwins m g d cs l1 l2 adv w) ws ->
  (share (N.of_nat (length ws)) (game_count d n nb nk nu ls q p)
   <= inject_Z (Z.of_N (2 * (last_time d + 1) * last_time d * N.of_nat q)) * eps
      + inject_Z (Z.of_N (last_time d + 1))
        * (share (N.of_nat (q * (q - 1) + p + 1)) fr_modulus + share (N.of_nat (nk * (nk + q + 2) + nu * nu + 2 * q)) (256 ^ 22)))%Q.
Proof.
  intros E L m g d cs l1 l2 adv n nb nk nu ls q p s l eps Hg Hd Hcs Hls Hnu Hq Hn Hsp s' Hsol ws Hnd Hws.
  refine (game_advantage E L m g d cs (alone m d l1 l2 adv) n nb nk nu ls q p s' l eps Hg Hd Hcs Hls Hnu Hq Hn _ Hsol ws Hnd _).
  - exact (one_signer_speaks E m d l1 l2 adv s l Hsp).
  - revert Hws. apply Forall_impl. intros w [Hw Hc]. split; [exact Hw|]. apply cgwins_gwins, Hc.
Qed.
