(** Proofs for C130. *)
From Verif Require Import Base Env Time SpecTime Prng SubKey SecretKey Keys Sig IO Serdes Api Ffi VecMem HvMem ReadMem BufMem FfiBuf CallMem
  SpecKey SpecUpdate SpecSer SpecVec SpecRead SpecHv SpecBuf SpecFfiBuf SpecCallMem SerProps FfiProps VecProps ReadProps HvProps BufProps FfiBufProps ProgProps ModeProps.
Local Open Scope N_scope.

(** An update that moves no block. *)
Section still.
Context {E : env} (P : policy) (Hm : forall n, moved P n = false).
Lemma drop_until_still dt : forall (l : list (subkey E)) h, freed (snd (drop_until_v dt l h)) = freed h.
Proof.
  induction l as [|s l IH]; intros h; cbn [drop_until_v]; [reflexivity|].
  destruct (sk_t s =? dt); [reflexivity|]. unfold sbind, vec_remove0. rewrite IH. reflexivity.
Qed.
Lemma insert_still i x (l : list (subkey E)) h : freed (snd (vec_insert P i x l h)) = freed h.
Proof.
  unfold vec_insert. destruct (insert_at i x l); [|reflexivity..]. destruct (spare h); [|reflexivity]. rewrite Hm. reflexivity.
Qed.
Lemma update_loop_still m (pp : pubparam E) old : forall gl i l g h, freed (snd (update_loop_v P m pp old i gl l g h)) = freed h.
Proof.
  induction gl as [|tv gl IH]; intros i l g h; cbn [update_loop_v]; [reflexivity|].
  unfold sbind, slift. destruct (dup_loop m (pp_depth pp) tv (skipn (i + 1) l)) as [[]| |]; try reflexivity.
  destruct (nth_res l 0) as [s0| |]; try reflexivity. destruct (run_mut _ s0) as [s1| |]; try reflexivity.
  destruct (rerand_new m pp old i s1 g) as [[s2 g']| |]; try reflexivity.
  pose proof (insert_still (i + 1) s2 l h) as Hi. destruct (vec_insert P (i + 1) s2 l h) as [[l'| |] h']; try exact Hi.
  rewrite IH. exact Hi.
Qed.
Lemma new_key_still m (pp : pubparam E) tar seed sk dt h : freed (snd (new_key_v P m pp tar seed sk dt h)) = freed h.
Proof.
  unfold new_key_v, sbind, slift, sret. destruct (rerandomize _ _ _ _) as [g| |]; try reflexivity.
  pose proof (drop_until_still dt (sec_ssk sk) h) as Hd. destruct (drop_until_v dt (sec_ssk sk) h) as [[l| |] h1]; try exact Hd.
  destruct l as [|s l]; [exact Hd|]. destruct (dt =? tar); [exact Hd|].
  destruct (tv_init m tar (pp_depth pp)) as [tv| |]; try exact Hd. destruct (gamma_list m tv (pp_depth pp)) as [gl| |]; try exact Hd.
  pose proof (update_loop_still m pp (sec_prng sk) gl 0 (s :: l) g h1) as Hl. cbn [snd] in Hd. rewrite Hd in Hl.
  destruct (update_loop_v P m pp (sec_prng sk) 0 gl (s :: l) g h1) as [[[l' g']| |] h2]; try exact Hl.
  unfold vec_remove0. destruct l' as [|a l']; [exact Hl|]. destruct (nth_res l' 0); exact Hl.
Qed.
Lemma update_still m (pp : pubparam E) tar seed sk h : clears P = true -> freed (snd (snd (update_v P m pp tar seed (sk, h)))) = freed h.
Proof.
  intros Hc. unfold update_v. destruct (negb _); [reflexivity|]. destruct (bind _ _); try reflexivity. destruct (_ || _); [reflexivity|].
  destruct (find_ancestor sk tar) as [dt| |]; try reflexivity.
  pose proof (new_key_still m pp tar seed sk dt (Heap [] (freed h))) as Hn.
  destruct (new_key_v P m pp tar seed sk dt (Heap [] (freed h))) as [[k|e|p] h1]; cbn [snd freed] in *; unfold give_up; rewrite Hc; exact Hn.
Qed.
End still.

Lemma fresh_key_eq {E} (k : seckey E) : HKey (sec_cs k) (sec_time k) (map (fun s => (s, [])) (sec_ssk k)) (sec_prng k) = fresh_key k.
Proof. reflexivity. Qed.

(** The call, with what is known of its parts. *)
Lemma call_parts {E} C m (pp : pubparam E) skb seed t (h : cheap E) :
  match from_slice (sk_deserialize true) skb with
  | Ok k => exists rd v hk hv, sk_deserialize_m (cp_hv C) (cp_ssk C) true (rpush skb [], ch_read h) = (Ok k, (snd (sk_deserialize (E := E) true (rpush skb [])), rd))
    /\ update_v (cp_up C) m pp t seed (k, Heap [] (ch_vec h)) = (fst (update m pp t seed k), (snd (update m pp t seed k), v))
    /\ update_hv (cp_up C) m pp t seed (fresh_key k, ch_hv h) = (fst (update m pp t seed k), (hk, hv))
    /\ c_sk_update_mem C m pp skb seed t h
       = (fst (c_sk_update_b (cp_buf C) (cp_fit C) m pp skb seed t (ch_buf h)),
          CHeap rd (give_up (cp_up C) (spare v) (freed v)) (drop_subs (cp_up C) (hk_ssk hk) hv) (snd (c_sk_update_b (cp_buf C) (cp_fit C) m pp skb seed t (ch_buf h))))
  | _ => exists rd, c_sk_update_mem C m pp skb seed t h
       = (fst (c_sk_update_b (cp_buf C) (cp_fit C) m pp skb seed t (ch_buf h)), CHeap rd (ch_vec h) (ch_hv h) (ch_buf h))
       /\ snd (c_sk_update_b (cp_buf C) (cp_fit C) m pp skb seed t (ch_buf h)) = ch_buf h
  end.
Proof.
  destruct (read_same_result E (cp_hv C) (cp_ssk C) true (rpush skb []) (ch_read h)) as (rd & Hrd).
  unfold c_sk_update_mem. rewrite Hrd, update_b_eq. unfold from_slice in *.
  destruct (fst (sk_deserialize true (rpush skb []))) as [k|e|p]; cbn [or_panic bind].
  2,3: exists rd; split; reflexivity.
  destruct (update_v_update E (cp_up C) m pp t seed k (Heap [] (ch_vec h))) as (v & Hv).
  destruct (update_hv_same E (cp_up C) m pp t seed (fresh_key k) (ch_hv h)) as (hk & hv & Hh & _). rewrite plain_fresh in Hh.
  exists rd, v, hk, hv. split; [reflexivity|]. split; [exact Hv|]. split; [exact Hh|].
  rewrite fresh_key_eq, Hv, Hh. unfold run_mut. destruct (update m pp t seed k) as [[[]|e|p] k']; cbn [fst snd or_panic]; [|reflexivity..].
  unfold sbind at 1, slift. destruct ((do! x <- sk_to_vec_b (cp_buf C) k'; give_out (cp_fit C) x) (ch_buf h)) as [r b]. reflexivity.
Qed.
Lemma call_same : forall (E : env) C m (pp : pubparam E) skb seed t (h : cheap E),
  let b := c_sk_update_b (cp_buf C) (cp_fit C) m pp skb seed t (ch_buf h) in
  fst (c_sk_update_mem C m pp skb seed t h) = fst b /\ ch_buf (snd (c_sk_update_mem C m pp skb seed t h)) = snd b.
Proof.
  intros E C m pp skb seed t h b. pose proof (call_parts C m pp skb seed t h) as H. fold b in H.
  destruct (from_slice (sk_deserialize true) skb) as [k|e|p].
  - destruct H as (rd & v & hk & hv & _ & _ & _ & ->). split; reflexivity.
  - destruct H as (rd & -> & H). split; [reflexivity|]. symmetry. exact H.
  - destruct H as (rd & -> & H). split; [reflexivity|]. symmetry. exact H.
Qed.

Lemma never_outgrown {A} P (b l : list A) : (forall n, moved P n = false) -> ~ outgrown P b l.
Proof. intros Hm (k & _ & H & _). rewrite Hm in H. discriminate. Qed.
Lemma nil_of {A} (l : list A) : (forall x, ~ In x l) -> l = [].
Proof. destruct l as [|a l]; [reflexivity|]. intros H. destruct (H a). left. reflexivity. Qed.

Lemma tidy_leaves_nothing : forall (E : env) C m (pp : pubparam E) skb seed t (h : cheap E),
  tidy C ->
  (exists b, fst (c_sk_update_mem C m pp skb seed t h) = Ok b)
  \/ (exists k : seckey E, from_slice (sk_deserialize true) skb = Ok k /\ fst (update m pp t seed k) <> Ok tt) ->
  snd (c_sk_update_mem C m pp skb seed t h) = h.
Proof.
  intros E C m pp skb seed t h [Hhv Hssk Hup Hcl Hbuf Hfit] Hres. pose proof (call_parts C m pp skb seed t h) as H.
  pose proof (update_b_eq (cp_buf C) (cp_fit C) m pp skb seed t (ch_buf h)) as Hb.
  destruct (from_slice (sk_deserialize true) skb) as [k|e|p] eqn:Hk.
  2,3: exfalso; destruct H as (rd & H & _); rewrite H in Hres; cbn [fst] in Hres; rewrite Hb in Hres; cbn [or_panic bind fst] in Hres;
       destruct Hres as [(b & Hr)|(k & Hr & _)]; discriminate Hr.
  destruct H as (rd & v & hk & hv & H1 & H2 & H3 & H4). rewrite H4 in *. cbn [fst snd] in *. clear H4.
  assert (Er : rd = ch_read h).
  { destruct (read_leaves E (cp_hv C) (cp_ssk C) true (rpush skb []) (snd (sk_deserialize (E := E) true (rpush skb []))) (ch_read h) k) as (nw & Hn & Hin).
    { unfold from_slice in Hk. rewrite <- Hk. destruct (sk_deserialize true (rpush skb [])); reflexivity. }
    rewrite H1 in Hn. injection Hn as ->. rewrite (nil_of nw); [reflexivity|]. intros x Hx.
    apply Hin in Hx as [(s & l & _ & _ & Ho)|(l & _ & Ho)]; revert Ho; apply never_outgrown; assumption. }
  assert (Ev : give_up (cp_up C) (spare v) (freed v) = ch_vec h).
  { unfold give_up. rewrite Hcl. pose proof (update_still (cp_up C) Hup m pp t seed k (Heap [] (ch_vec h)) Hcl) as Hs. rewrite H2 in Hs. exact Hs. }
  assert (Ehv : drop_subs (cp_up C) (hk_ssk hk) hv = ch_hv h).
  { destruct (drop_subs_freed (cp_up C) (hk_ssk hk) hv) as (n1 & -> & _ & Hn1 & _). rewrite (Hn1 Hcl).
    destruct (update_hv_freed E (cp_up C) m pp t seed _ _ _ _ _ H3) as (n2 & -> & _ & Hn2 & _). rewrite (Hn2 Hcl). reflexivity. }
  rewrite Er, Ev, Ehv. clear Er Ev Ehv.
  assert (Eb : snd (c_sk_update_b (cp_buf C) (cp_fit C) m pp skb seed t (ch_buf h)) = ch_buf h).
  { rewrite Hb. cbn [or_panic bind]. unfold run_mut.
    destruct Hres as [(b & Hr)|(k1 & Hk1 & Hne)].
    - rewrite Hb in Hr. cbn [or_panic bind] in Hr. unfold run_mut in Hr.
      destruct (update m pp t seed k) as [[[]|e|p] k']; cbn [or_panic bind fst] in *; [|discriminate Hr..].
      destruct (to_vec (sk_serialize k' true)) as [b1|e|p] eqn:Hv.
      + destruct (hand_over (cp_buf C) (cp_fit C) k' (ch_buf h) b1 Hv) as (new & n1 & Hh & Hs & _). rewrite Hs.
        destruct Hh as (Hh1 & Hh2 & _ & _ & _ & Hh6). rewrite Hh6; [reflexivity|exact Hbuf| |].
        * intros [_ Hmv]. rewrite Hfit in Hmv. discriminate.
        * destruct (no_spare_dec (cp_buf C) (cp_fit C) (length b1)) as [Hns|Hns]; [exact Hns|]. destruct (Hh2 Hns) as [Hp _]. rewrite Hr in Hp. discriminate.
      + destruct (hand_over_fails (cp_buf C) (cp_fit C) k' (ch_buf h)) as (new & Hf); [congruence|]. rewrite Hv in Hf. rewrite Hf in Hr. discriminate.
      + destruct (hand_over_fails (cp_buf C) (cp_fit C) k' (ch_buf h)) as (new & Hf); [congruence|]. rewrite Hv in Hf. rewrite Hf in Hr. discriminate.
    - injection Hk1 as <-. destruct (update m pp t seed k) as [[[]|e|p] k']; cbn [or_panic bind fst snd] in *; [congruence|reflexivity..]. }
  rewrite Eb. destruct h; reflexivity.
Qed.
Lemma tidy_life : forall (E : env) C m (pp : pubparam E) l skb b (h h' : cheap E),
  tidy C -> c_updates_mem C m pp l skb h = (Ok b, h') -> h' = h.
Proof.
  intros E C m pp l. induction l as [|[t seed] l IH]; intros skb b h h' HC He; cbn [c_updates_mem] in He.
  - injection He as _ <-. reflexivity.
  - unfold sbind in He. pose proof (tidy_leaves_nothing E C m pp skb seed t h HC) as Hn.
    destruct (c_sk_update_mem C m pp skb seed t h) as [[b1|e|p] h1]; [|discriminate..]. cbn [fst snd] in Hn.
    rewrite Hn in He by eauto. exact (IH _ _ _ _ HC He).
Qed.

Lemma call_leaves : forall (E : env) (L : env_laws E) C m m' (pp : pubparam E) pk k seed t b (h h' : cheap E),
  pp_ok pp -> (pp_depth pp <= 32)%nat -> reachable m pp pk k ->
  c_sk_update_mem C m' pp (sk_blob true k) seed t h = (Ok b, h') ->
  exists k' new, update m' pp t seed k = (Ok tt, k') /\ b = sk_blob true k' /\ h' = more new h /\ left_by C k k' new.
Proof.
  intros E L C m m' pp pk k seed t b h h' Hpp Hd Hr He.
  pose proof (reachable_sk_representable E L m pp pk k Hpp Hd Hr) as Hw.
  pose proof (call_parts C m' pp (sk_blob true k) seed t h) as H.
  rewrite (slice_sk L) in H by exact Hw. destruct H as (rd & v & hk & hv & H1 & H2 & H3 & H4).
  pose proof (update_b_eq (cp_buf C) (cp_fit C) m' pp (sk_blob true k) seed t (ch_buf h)) as Hb. rewrite (slice_sk L) in Hb by exact Hw.
  cbn [or_panic bind] in Hb. unfold run_mut in Hb.
  rewrite H4 in He. assert (Eh : h' = CHeap rd (give_up (cp_up C) (spare v) (freed v)) (drop_subs (cp_up C) (hk_ssk hk) hv) (snd (c_sk_update_b (cp_buf C) (cp_fit C) m' pp (sk_blob true k) seed t (ch_buf h)))) by congruence.
  assert (Er : fst (c_sk_update_b (cp_buf C) (cp_fit C) m' pp (sk_blob true k) seed t (ch_buf h)) = Ok b) by congruence. clear He H4. rewrite Hb in Eh, Er. clear Hb.
  destruct (update m' pp t seed k) as [[[]|e|p] k'] eqn:Hu; cbn [or_panic bind fst snd] in *; [|discriminate Er..].
  assert (Hr' : reachable m' pp pk k') by (eapply reachable_update; [apply (reachable_mode E L m m'); eassumption|exact Hu]).
  destruct (sk_roundtrip E L true k' (reachable_sk_representable E L m' pp pk k' Hpp Hd Hr')) as (Hv & _ & _).
  destruct (hand_over (cp_buf C) (cp_fit C) k' (ch_buf h) _ Hv) as (nb & n1 & Hh & Hs & _). rewrite Hs in Eh. rewrite Er in Hh.
  destruct Hh as (Hh1 & Hh2 & _ & Hh4 & _).
  assert (Eb : b = sk_blob true k').
  { destruct (no_spare_dec (cp_buf C) (cp_fit C) (length (sk_blob true k'))) as [Hns|Hns]; [specialize (Hh1 Hns); congruence|]. destruct (Hh2 Hns) as [Hp _]. discriminate. }
  destruct (read_leaves E (cp_hv C) (cp_ssk C) true (rpush (sk_blob true k) []) (snd (sk_deserialize (E := E) true (rpush (sk_blob true k) []))) (ch_read h) k) as (nr & Hn & Hin).
  { pose proof (slice_sk L true k Hw) as Hk. unfold from_slice in Hk. rewrite <- Hk. destruct (sk_deserialize true (rpush (sk_blob true k) [])); reflexivity. }
  rewrite H1 in Hn. injection Hn as Hn. subst rd.
  destruct (update_v_leaves E L (cp_up C) m m' pp pk t seed k k' (Heap [] (ch_vec h)) v Hpp Hr H2) as (pre & s0 & post & new & mv & Hk1 & Hk2 & _ & _ & Hf & Hc & _).
  cbn [spare freed] in Hf.
  destruct (update_hv_freed E (cp_up C) m' pp t seed _ _ _ _ _ H3) as (n2 & -> & N2 & _).
  destruct (drop_subs_freed (cp_up C) (hk_ssk hk) (n2 ++ ch_hv h)) as (n3 & En3 & N3 & _). rewrite En3 in Eh.
  destruct (update_hv_live E (cp_up C) m' pp t seed _ _ _ _ H3) as (pre1 & s1 & post1 & new1 & K1 & K2 & _ & K3 & _).
  set (nv := (if clears (cp_up C) then mv else [spare v; []] ++ mv)).
  exists k', (CHeap nr nv (n3 ++ n2) nb). split; [reflexivity|]. split; [exact Eb|]. split.
  - rewrite Eh. unfold more. cbn [ch_read ch_vec ch_hv ch_buf]. f_equal; [|rewrite <- app_assoc; reflexivity].
    unfold nv. rewrite Hf. unfold give_up. destruct (clears (cp_up C)); reflexivity.
  - constructor; cbn [ch_read ch_vec ch_hv ch_buf].
    + exact Hin.
    + intros blk hd Hblk Hhd. assert (Hi : In blk (spare v :: mv)).
      { unfold nv in Hblk. destruct (clears (cp_up C)); [right; exact Hblk|]. destruct Hblk as [<-|[<-|Hblk]]; [left; reflexivity|destruct Hhd|right; exact Hblk]. }
      destruct (Hc blk hd Hi Hhd) as [->|(s & Hs' & ->)].
      * exists s0. split; [|reflexivity]. rewrite Hk1. apply in_or_app. left. apply in_or_app. right. left. reflexivity.
      * exists s. split; [apply in_or_app; right; exact Hs'|reflexivity].
    + intros blk x Hblk Hx. apply in_app_or in Hblk as [Hblk|Hblk].
      * destruct (N3 blk Hblk) as ((s & sp) & Hi & ->). cbn [snd] in Hx. rewrite K2 in Hi. apply in_app_or in Hi as [Hi|Hi].
        -- pose proof (cf_only _ _ _ (K3 _ _ Hi) x Hx) as ->. exists (fst s1). split; [|reflexivity].
           assert (Hm : In (fst s1) (map fst (hk_ssk (fresh_key k)))) by (apply in_map; rewrite K1; apply in_or_app; right; left; reflexivity).
           unfold fresh_key in Hm. cbn [hk_ssk] in Hm. rewrite map_map in Hm. cbn [fst] in Hm. rewrite map_id in Hm. exact Hm.
        -- apply in_map_iff in Hi as (z & Hz & _). injection Hz as _ Hz. subst sp. destruct Hx.
      * destruct (N2 blk Hblk) as [(s & Hi & ->)|(s & Hi & Hl)]; unfold fresh_key in Hi; cbn [hk_ssk] in Hi; apply in_map_iff in Hi as (z & <- & Hz).
        -- destruct Hx.
        -- exists z. split; [exact Hz|apply Hl, Hx].
    + exact Hh4.
Qed.
