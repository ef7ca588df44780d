(** Proofs about programs over the C interface ([CWorld], [SpecCWorld]). *)
From Verif Require Import Base Env GroupFacts Time SpecTime TimeFacts TimeProps SubKey SecretKey Keys Sig IO Serdes SpecSer Api Ffi SpecKey SubKeyFacts
  SpecUpdate KeyFacts HistoryFacts SpecDerive ShapeFacts SubProps SerFacts SerProps IOFacts UpdateFacts FfiProps KeyProps VerProps TestProps World SpecWorld WorldProps CWorld SpecCWorld.
From Coq Require Import Lia ZifyBool ZifyNat ZifyN Permutation.
Local Open Scope N_scope.
Local Opaque fr_modulus.

Section Step.
Context {E : env} (L : env_laws E) (m : mode) (pp : pubparam E) (Hpp : pp_ok pp) (Hcs : valid_cs (pp_cs pp) = true)
  (Hg2 : pp_g2 pp = g2_one) (Hd : (pp_depth pp <= 32)%nat).

Definition pops (w : world E) : Prop := Forall (fun p => wf_pop (snd p)) (w_party w).

Lemma set_Forall {A} (P : A -> Prop) a : forall l i, Forall P l -> P a -> Forall P (set_nth i a l).
Proof. induction l as [|b l IH]; intros [|i] H Ha; cbn; auto; inversion H; subst; constructor; auto. Qed.

Lemma exec_pops c w : pops w -> pops (snd (exec m pp c w)).
Proof.
  intros H. unfold pops in *. destruct c as [seed|i o|js|j i msg|j ks msg|i k|i k|j|i c]; cbn [exec].
  - destruct (key_gen seed pp) as [[[pk sk] pop]|e|p] eqn:Hk; cbn [snd w_party]; auto.
    apply Forall_app. split; [exact H|]. constructor; [|constructor]. apply (keygen_representable E L pp seed pk sk pop Hpp Hk).
  - destruct (nth_error (w_party w) i) as [[[pk sk] pop]|] eqn:Ei; [|exact H].
    assert (Hp : wf_pop pop) by (rewrite Forall_forall in H; exact (H _ (nth_error_In _ _ Ei))).
    destruct (step m pp o sk) as [r sk']. assert (Hs : Forall (fun p => wf_pop (snd p)) (set_nth i (pk, sk', pop) (w_party w))) by (apply set_Forall; auto).
    destruct r as [[s|]|e|p]; exact Hs.
  - destruct (pick (w_sigs w) js); [|exact H]. destruct (aggregate l); exact H.
  - destruct (nth_error (w_sigs w) j); [|exact H]. destruct (nth_error (w_party w) i); exact H.
  - destruct (nth_error (w_sigs w) j); [|exact H]. destruct (pick (w_party w) ks); exact H.
  - destruct (nth_error (w_party w) i); [|exact H]. destruct (nth_error (w_party w) k); exact H.
  - destruct (nth_error (w_party w) i); [|exact H]. destruct (nth_error (w_party w) k); exact H.
  - destruct (nth_error (w_sigs w) j) as [s|]; [|exact H]. destruct (let! b := to_vec (sig_serialize s true) in from_slice (sig_deserialize true) b); exact H.
  - destruct (nth_error (w_party w) i) as [[[pk sk] pop]|] eqn:Ei; [|exact H].
    assert (Hp : wf_pop pop) by (rewrite Forall_forall in H; exact (H _ (nth_error_In _ _ Ei))).
    destruct (let! b := to_vec (pk_serialize pk c) in from_slice (pk_deserialize c) b); try exact H. cbn. apply set_Forall; auto.
Qed.

Lemma party_wf xs ps i p : Forall2 (party_of pp) xs ps -> nth_error ps i = Some p -> wf_pk (fst (fst p)) /\ wf_sk (snd (fst p)).
Proof.
  intros H Hi. destruct (F2_nth _ 0 _ _ H i p Hi) as (_ & _ & -> & Hg & _). split.
  - constructor; cbn [pk_cs pk_pk]; [apply valid_cs_supported, Hcs|apply (g2_mul_insub L), Hpp].
  - apply (good_wf L pp _ _ Hpp Hd Hcs Hg).
Qed.
Lemma sigs_wf xs ann sl : Forall2 (worth pp xs) ann sl -> Forall wf_sig sl.
Proof. induction 1; constructor; auto. eapply (worth_wf L pp Hpp Hcs Hd); eassumption. Qed.

Lemma pick_sub {A} (l : list A) : forall js r, pick l js = Some r -> forall x, In x r -> In x l.
Proof.
  induction js as [|j js IH]; intros r H x Hx; cbn [pick] in H; [injection H as <-; destruct Hx|].
  destruct (nth_error l j) as [a|] eqn:Ej; [|discriminate]. destruct (pick l js) as [q|]; [|discriminate]. injection H as <-.
  destruct Hx as [<-|Hx]; [exact (nth_error_In _ _ Ej)|eauto].
Qed.

Lemma read_sig_blobs : forall l : list (signature E), Forall wf_sig l -> read_sigs (map (sig_blob true) l) = Ok l.
Proof.
  induction 1 as [|s l Hs _ IH]; [reflexivity|]. cbn [map read_sigs]. rewrite (slice_sig L s Hs). cbn [or_panic bind]. rewrite IH. reflexivity.
Qed.
Lemma read_pk_blobs : forall l : list (pubkey E), Forall wf_pk l -> read_pks (map (pk_blob true) l) = Ok l.
Proof.
  induction 1 as [|s l Hs _ IH]; [reflexivity|]. cbn [map read_pks]. rewrite (slice_pk L true s Hs). cbn [or_panic bind]. rewrite IH. reflexivity.
Qed.

Lemma or_panic_answer (r : res bool) : (forall e, r <> Err e) -> answer r = no_errors (answer r).
Proof. destruct r as [b|e|p]; intros H; try reflexivity. destruct (H e eq_refl). Qed.

Lemma cexec_ok c xs ann b w : world_is pp xs ann b w -> pops w ->
  cexec m pp c (world_bytes w) = (no_errors (fst (exec m pp (rust_call c) w)), world_bytes (snd (exec m pp (rust_call c) w))).
Proof.
  intros H Hpop. pose proof H as [H1 H2 H3 H4]. pose proof (sigs_wf _ _ _ H3) as Hsw.
  destruct c as [seed|i t seed|i t msg|js|j i msg|j ks msg|i k]; cbn [cexec rust_call exec world_bytes cw_party cw_sigs].
  - pose proof (c_keygen_blobs E L pp seed Hpp Hd) as Hk. destruct (key_gen seed pp) as [[[pk sk] pop]|e|p] eqn:Eg.
    + rewrite Hk. cbn [fst snd no_errors]. unfold world_bytes. cbn [w_party w_sigs]. rewrite map_app. reflexivity.
    + destruct Hk as [-> _]. reflexivity.
    + exfalso. destruct (Nat.lt_ge_cases (length seed) 32) as [Hs|Hs]; [rewrite key_gen_short in Eg by exact Hs; discriminate|].
      rewrite (key_gen_spec L) in Eg by auto. discriminate.
  - rewrite nth_error_map. destruct (nth_error (w_party w) i) as [[[pk sk] pop]|] eqn:Ei; [|reflexivity].
    destruct (party_wf _ _ _ _ H1 Ei) as [_ Hws]. cbn [fst snd] in Hws. cbn [option_map party_bytes fst snd].
    destruct (party_key pp xs _ i _ H1 Ei) as (_ & _ & Hg & _). cbn [fst snd] in Hg.
    unfold c_sk_update. rewrite (slice_sk L true sk Hws). cbn [or_panic bind]. unfold run_mut. cbn [step]. unfold sbind, sret.
    pose proof (update_cases L m pp (nth i xs 0) sk t seed Hpp Hg) as Hu. destruct (in_range pp sk t).
    + destruct Hu as [(sk' & -> & Hg' & _)|[-> _]]; cbn [or_panic bind fst snd no_errors].
      * destruct (sk_roundtrip E L true sk' (good_wf L pp _ _ Hpp Hd Hcs Hg')) as (-> & _). cbn [or_panic].
        unfold world_bytes, with_party. cbn [w_party w_sigs]. rewrite set_map. reflexivity.
      * unfold with_party. rewrite (set_same i _ _ Ei). destruct w; reflexivity.
    + rewrite Hu. cbn [or_panic bind fst snd no_errors]. unfold with_party. rewrite (set_same i _ _ Ei). destruct w; reflexivity.
  - rewrite nth_error_map. destruct (nth_error (w_party w) i) as [[[pk sk] pop]|] eqn:Ei; [|reflexivity].
    destruct (party_wf _ _ _ _ H1 Ei) as [_ Hws]. cbn [fst snd] in Hws. cbn [option_map party_bytes fst snd].
    destruct (party_key pp xs _ i _ H1 Ei) as (Hi & _ & Hg & _). cbn [fst snd] in Hg.
    unfold c_sign_present. rewrite (slice_sk L true sk Hws). cbn [or_panic bind]. cbn [step]. unfold sbind, sret.
    pose proof (sign_present_cases L m pp (nth i xs 0) sk t msg Hpp Hcs Hg) as Hu. destruct (sec_time sk =? t).
    + destruct Hu as (s & -> & Hs). cbn [or_panic bind fst snd no_errors].
      destruct (worth_signed L pp xs i t msg s Hi Hs) as [k Hk]. pose proof (worth_wf L pp Hpp Hcs Hd xs _ s Hk) as Hwf.
      destruct (sig_roundtrip E L s Hwf) as (-> & Hl & _). cbn [or_panic bind]. rewrite (copy_ok SIG_LEN) by exact Hl.
      unfold world_bytes, with_sig, with_party. cbn [w_party w_sigs]. rewrite (set_same i _ _ Ei), map_app. reflexivity.
    + rewrite Hu. cbn [or_panic bind fst snd no_errors]. unfold with_party. rewrite (set_same i _ _ Ei). destruct w; reflexivity.
  - rewrite pick_map. destruct (pick (w_sigs w) js) as [l|] eqn:El; [|reflexivity]. cbn [option_map].
    assert (Hl : Forall wf_sig l).
    { apply Forall_forall. intros x Hx. rewrite Forall_forall in Hsw. apply Hsw. eapply pick_sub; eassumption. }
    unfold c_aggregation. rewrite (read_sig_blobs l Hl). cbn [bind].
    destruct (exec_ok L m pp Hpp Hcs Hg2 Hd (Aggregate js) xs ann b w H) as [[Hx _]|(_ & _ & ys & zs & Hw)].
    + exfalso. cbn [exec] in Hx. rewrite El in Hx. unfold aggregate in Hx. destruct l as [|s l]; [discriminate Hx|].
      destruct (agg_check s l) as [[]|e|p] eqn:Ea; try discriminate Hx. clear - Ea. induction l as [|e l IH]; [discriminate|].
      cbn [agg_check] in Ea. destruct (negb _); [discriminate|]. destruct (negb _); [discriminate|auto].
    + cbn [exec] in Hw. rewrite El in Hw. destruct (aggregate l) as [s|e|p]; try reflexivity.
      cbn [or_panic bind fst snd no_errors] in *.
      assert (Hwf : wf_sig s).
      { pose proof (sigs_wf _ _ _ (wi_sigs _ _ _ _ _ Hw)) as Hf. cbn [with_sig w_sigs] in Hf. apply Forall_app in Hf as [_ Hf]. inversion Hf; assumption. }
      destruct (sig_roundtrip E L s Hwf) as (-> & Hlen & _). cbn [or_panic bind]. rewrite (copy_ok SIG_LEN) by exact Hlen.
      unfold world_bytes, with_sig. cbn [w_party w_sigs]. rewrite map_app. reflexivity.
  - rewrite !nth_error_map. destruct (nth_error (w_sigs w) j) as [s|] eqn:Ej; [|reflexivity].
    destruct (nth_error (w_party w) i) as [p|] eqn:Ei; [|reflexivity]. cbn [option_map party_bytes fst snd].
    destruct (party_wf _ _ _ _ H1 Ei) as [Hk _]. assert (Hs : wf_sig s) by (rewrite Forall_forall in Hsw; exact (Hsw _ (nth_error_In _ _ Ej))).
    rewrite (c_verify_blobs E L) by assumption.
    destruct (verify_total E L m pp s (fst (fst p)) msg Hpp) as [bb ->]. reflexivity.
  - rewrite nth_error_map, pick_map. destruct (nth_error (w_sigs w) j) as [s|] eqn:Ej; [|reflexivity].
    destruct (pick (w_party w) ks) as [l|] eqn:El; [|reflexivity]. cbn [option_map fst snd].
    assert (Hs : wf_sig s) by (rewrite Forall_forall in Hsw; exact (Hsw _ (nth_error_In _ _ Ej))).
    assert (Hl : Forall wf_pk (map (fun p => fst (fst p)) l)).
    { apply Forall_map, Forall_forall. intros x Hx. apply (pick_sub _ _ _ El) in Hx. apply In_nth_error in Hx as [n Hn].
      apply (party_wf _ _ _ _ H1 Hn). }
    unfold c_verify_agg. rewrite map_map. cbn [party_bytes fst snd].
    rewrite <- (map_map (fun p => fst (fst p)) (pk_blob true)), (read_pk_blobs _ Hl). cbn [bind]. rewrite (slice_sig L s Hs). cbn [or_panic bind].
    destruct (F2_nth_r _ _ _ H3 j s Ej) as ([t ps] & _ & Hw).
    destruct l as [|p l].
    + cbn [map]. unfold verify_aggregated. cbn [forallb negb]. destruct (negb _); reflexivity.
    + destruct (verify_agg_worth L pp Hpp Hcs Hg2 m xs (w_party w) t ps s ks (p :: l) msg H1 El ltac:(discriminate) Hw) as (bb & -> & _). reflexivity.
  - rewrite !nth_error_map. destruct (nth_error (w_party w) i) as [p|] eqn:Ei; [|reflexivity].
    destruct (nth_error (w_party w) k) as [q|] eqn:Ek; [|reflexivity]. cbn [option_map party_bytes fst snd].
    destruct (party_wf _ _ _ _ H1 Ei) as [Hk _].
    rewrite (c_verify_pop_blobs E L); [reflexivity|exact Hk|]. unfold pops in Hpop. rewrite Forall_forall in Hpop. exact (Hpop _ (nth_error_In _ _ Ek)).
Qed.
End Step.

Lemma size_good {E} (pp : pubparam E) (Hpp : pp_ok pp) m' x sk : good_sk pp x sk -> estimate_size m' (sec_time sk) (pp_depth pp) = Ok (sk_size sk).
Proof.
  intros Hg. apply (good_shape pp x) in Hg as [_ Ht Htil Hs]; [|exact Hpp].
  pose proof (ppo_depth pp Hpp) as Hd'. unfold estimate_size.
  destruct (tv_init_ex m' (pp_depth pp) (sec_time sk) ltac:(lia) Ht) as (v & Hn & ->). cbn [bind].
  destruct (gamma_list_spec m' (pp_depth pp) _ v ltac:(lia) Hn) as (pl & Hgl & _).
  rewrite Hgl. cbn [bind]. destruct (gamma_entries m' (pp_depth pp) _ v _ ltac:(lia) Hn Hgl) as (Htil' & _ & Hnode & Hin).
  rewrite estimate_loop_spec.
  - rewrite sk_size_spec. rewrite (shape_lens m' pp _ _ Hpp Hs (tiling_fun _ _ _ _ Htil Htil') Hin). reflexivity.
  - eapply Forall_impl; [|exact Hnode]. cbn. intros tv Htv. destruct (node_at_turn _ _ _ Htv). lia.
Qed.

Section Programs.
Context {E : env} (L : env_laws E) (m : mode) (pp : pubparam E) (Hpp : pp_ok pp) (Hcs : valid_cs (pp_cs pp) = true)
  (Hg2 : pp_g2 pp = g2_one) (Hd : (pp_depth pp <= 32)%nat).

Lemma execs_pops : forall p w, pops w -> pops (snd (execs m pp p w)).
Proof.
  induction p as [|c p IH]; intros w H; [exact H|]. cbn [execs]. pose proof (exec_pops L m pp Hpp c w H) as H1.
  destruct (exec m pp c w) as [r w1]. cbn [snd] in H1. specialize (IH w1 H1). destruct (execs m pp p w1). exact IH.
Qed.

Lemma cexecs_ok : forall p xs ann b w, world_is pp xs ann b w -> pops w ->
  cexecs m pp p (world_bytes w)
  = (map no_errors (fst (execs m pp (map rust_call p) w)), world_bytes (snd (execs m pp (map rust_call p) w))).
Proof.
  induction p as [|c p IH]; intros xs ann b w H Hp; [reflexivity|]. cbn [cexecs map execs].
  rewrite (cexec_ok L m pp Hpp Hcs Hg2 Hd c xs ann b w H Hp).
  pose proof (exec_ok L m pp Hpp Hcs Hg2 Hd (rust_call c) xs ann b w H) as Hx. pose proof (exec_pops L m pp Hpp (rust_call c) w Hp) as Hp'.
  destruct (exec m pp (rust_call c) w) as [r w1]. cbn [fst snd] in *.
  assert (Hw : exists xs' ann' b', world_is pp xs' ann' b' w1).
  { destruct Hx as [[_ ->]|(_ & _ & ys & zs & Hw)]; eauto. }
  destruct Hw as (xs' & ann' & b' & Hw). rewrite (IH xs' ann' b' w1 Hw Hp'). destruct (execs m pp (map rust_call p) w1). reflexivity.
Qed.

Lemma b_run_c d : forall p rs b, b_run d p (map (@no_errors (option bool)) rs) b = b_run d p rs b.
Proof. induction p as [|c p IH]; intros [|r rs] b; cbn [b_run map]; try reflexivity. rewrite IH. destruct r; reflexivity. Qed.

End Programs.

Lemma start_bytes {E} : cstart = world_bytes (@start E).
Proof. reflexivity. Qed.

Lemma c_call_after : forall (E : env) (L : env_laws E) m (pp : pubparam E) p c,
  pp_ok pp -> supported (pp_cs pp) -> (pp_depth pp <= 32)%nat -> pp_g2 pp = g2_one ->
  cexec m pp c (world_bytes (after m pp p))
  = (no_errors (fst (exec m pp (rust_call c) (after m pp p))), world_bytes (snd (exec m pp (rust_call c) (after m pp p)))).
Proof.
  intros E L m pp p c Hpp Hc Hd Hg. destruct (world_simulated E L m pp p Hpp Hc Hd Hg) as (xs & ann & Hw & _).
  apply valid_cs_iff in Hc. apply (cexec_ok L m pp Hpp Hc Hg Hd c xs ann _ _ Hw). apply (execs_pops L m pp Hpp p start). constructor.
Qed.

Lemma c_program : forall (E : env) (L : env_laws E) m (pp : pubparam E) p,
  pp_ok pp -> supported (pp_cs pp) -> (pp_depth pp <= 32)%nat -> pp_g2 pp = g2_one ->
  cresults m pp p = map no_errors (results m pp (map rust_call p))
  /\ cafter m pp p = world_bytes (after m pp (map rust_call p))
  /\ cbooks m pp p = books m pp (map rust_call p).
Proof.
  intros E L m pp p Hpp Hc Hd Hg. apply valid_cs_iff in Hc.
  pose proof (cexecs_ok L m pp Hpp Hc Hg Hd p [] [] (Book [] []) start (start_is pp) (Forall_nil _)) as H.
  unfold cbooks, cresults, cafter. rewrite (@start_bytes E), H. cbn [fst snd]. split; [reflexivity|]. split; [reflexivity|].
  rewrite b_run_c. reflexivity.
Qed.

Lemma c_sizes : forall (E : env) (L : env_laws E) m (pp : pubparam E) p,
  pp_ok pp -> supported (pp_cs pp) -> (pp_depth pp <= 32)%nat -> pp_g2 pp = g2_one ->
  Forall2 (fun t b => length (fst (fst b)) = 49%nat /\ length (snd b) = 97%nat
                      /\ c_estimate_sk_size m t (pp_depth pp) = Ok (length (snd (fst b))))
    (b_times (cbooks m pp p)) (cw_party (cafter m pp p))
  /\ Forall (fun b => length b = 149%nat) (cw_sigs (cafter m pp p))
  /\ length (cw_sigs (cafter m pp p)) = length (b_sigs (cbooks m pp p)).
Proof.
  intros E L m pp p Hpp Hc Hd Hg. destruct (c_program E L m pp p Hpp Hc Hd Hg) as (_ & -> & ->).
  destruct (world_simulated E L m pp (map rust_call p) Hpp Hc Hd Hg) as (xs & ann & [H1 H2 H3 H4] & _).
  assert (Hpops : pops (after m pp (map rust_call p))) by (apply (execs_pops L m pp Hpp _ start); constructor).
  apply valid_cs_iff in Hc. rewrite H2, H4. cbn [world_bytes cw_party cw_sigs]. split; [|split].
  - unfold pops in Hpops. clear - L Hpp Hc Hd H1 Hpops. revert Hpops. induction H1 as [|x q xs ps Hq H1 IH]; intros Hpops; [constructor|].
    inversion Hpops as [|? ? Hpop Hpops']; subst. cbn [map]. constructor; [|exact (IH Hpops')].
    destruct Hq as (_ & Hk & Hgd & _). cbn [party_bytes fst snd].
    assert (Hwk : wf_pk (fst (fst q))).
    { rewrite Hk. constructor; cbn [pk_cs pk_pk]; [apply valid_cs_supported, Hc|apply (g2_mul_insub L), Hpp]. }
    destruct (pk_roundtrip E L true _ Hwk) as (_ & Hl & _). destruct (pop_roundtrip E L true _ Hpop) as (_ & Hl' & _).
    destruct (sk_roundtrip E L true _ (good_wf L pp _ _ Hpp Hd Hc Hgd)) as (_ & Hl'' & _).
    split; [exact Hl|]. split; [exact Hl'|]. unfold c_estimate_sk_size. rewrite (size_good pp Hpp m _ _ Hgd), Hl''. reflexivity.
  - apply Forall_map. eapply Forall_impl; [|exact (sigs_wf L pp Hpp Hc Hd _ _ _ H3)]. intros s Hs. cbn beta. apply (sig_roundtrip E L s Hs).
  - rewrite !map_length. symmetry. exact (F2_length _ _ _ H3).
Qed.

Lemma c_panics : forall (E : env) (L : env_laws E) m (pp : pubparam E) p c r,
  pp_ok pp -> supported (pp_cs pp) -> (pp_depth pp <= 32)%nat -> pp_g2 pp = g2_one ->
  fst (cexec m pp c (cafter m pp p)) = r ->
  match r with
  | Ok _ => True
  | Err _ => False
  | Panic P_INDEX => c = CAggregate [] \/ exists j msg, c = CVerifyAgg j [] msg
  | Panic P_PRNG => exists i t seed, c = CUpdate i t seed
  | Panic q => q = P_FFI /\ exists e, fst (b_exec (pp_depth pp) (rust_call c) (cbooks m pp p)) = Err e
  end.
Proof.
  intros E L m pp p c r Hpp Hc Hd Hg <-. destruct (c_program E L m pp p Hpp Hc Hd Hg) as (_ & -> & ->).
  rewrite (c_call_after E L m pp (map rust_call p) c Hpp Hc Hd Hg). cbn [fst].
  destruct (world_simulated E L m pp (map rust_call p) Hpp Hc Hd Hg) as (xs & ann & Hw & Hx). specialize (Hx (rust_call c)).
  destruct (fst (exec m pp (rust_call c) (after m pp (map rust_call p)))) as [a|e|q] eqn:Er; cbn [no_errors].
  - exact I.
  - split; [reflexivity|]. destruct Hx as [[Hx _]|[_ Hx]]; [discriminate|].
    destruct (fst (b_exec (pp_depth pp) (rust_call c) (books m pp (map rust_call p)))) as [[]|e'|]; cbn [agrees] in Hx; try contradiction. eauto.
  - destruct (program_panics E L m pp (map rust_call p) (rust_call c) q Hpp Hc Hd Hg Er) as [->|[-> Hq]].
    + destruct c as [seed|i t seed|i t msg|js|j i msg|j ks msg|i k]; eauto; exfalso; cbn [rust_call exec] in Er.
      * apply valid_cs_iff in Hc. destruct (Nat.lt_ge_cases (length seed) 32) as [Hs|Hs]; [rewrite key_gen_short in Er by exact Hs; discriminate|].
        rewrite (key_gen_spec L) in Er by auto. discriminate.
      * apply valid_cs_iff in Hc. destruct (nth_error _ i) as [[[pk sk] pop]|] eqn:Ei in Er; [|discriminate].
        destruct (party_key pp xs _ i _ (wi_party _ _ _ _ _ Hw) Ei) as (_ & _ & Hgd & _). cbn [fst snd] in Hgd.
        cbn [step] in Er. unfold sbind, sret in Er.
        pose proof (sign_present_cases L m pp (nth i xs 0) sk t msg Hpp Hc Hgd) as Hu. destruct (sec_time sk =? t).
        -- destruct Hu as (s & Hu & _). rewrite Hu in Er. discriminate.
        -- rewrite Hu in Er. discriminate.
      * destruct (pick _ js) as [l|] in Er; [|discriminate]. unfold aggregate in Er. destruct l as [|s l]; [discriminate|].
        destruct (agg_check s l) as [[]|e|p0] eqn:Ea; try discriminate Er. clear - Ea. induction l as [|e l IH]; [discriminate|].
        cbn [agg_check] in Ea. destruct (negb _); [discriminate|]. destruct (negb _); [discriminate|auto].
      * destruct (nth_error _ j) as [s|] in Er; [|discriminate]. destruct (nth_error _ i) as [pq|] in Er; [|discriminate].
        destruct (verify_total E L m pp s (fst (fst pq)) msg Hpp) as [bb Hb]. cbn [fst] in Er. rewrite Hb in Er. discriminate.
      * destruct (nth_error _ j) as [s|] eqn:Ej in Er; [|discriminate]. destruct (pick _ ks) as [l|] eqn:El in Er; [|discriminate].
        cbn [fst] in Er. destruct l as [|q0 l].
        -- cbn [map] in Er. unfold verify_aggregated in Er. cbn [forallb negb] in Er. destruct (negb _) in Er; discriminate Er.
        -- apply valid_cs_iff in Hc. destruct (F2_nth_r _ _ _ (wi_sigs _ _ _ _ _ Hw) j s Ej) as ([t ps] & _ & Hws).
           destruct (verify_agg_worth L pp Hpp Hc Hg m xs _ t ps s ks (q0 :: l) msg (wi_party _ _ _ _ _ Hw) El ltac:(discriminate) Hws) as (bb & Hb & _).
           rewrite Hb in Er. discriminate.
      * destruct (nth_error _ i) in Er; [|discriminate]. destruct (nth_error _ k) in Er; discriminate.
    + destruct c as [seed|i t seed|i t msg|js|j i msg|j ks msg|i k]; cbn [rust_call] in Hq;
        destruct Hq as [Hq|(j' & msg' & Hq)]; try discriminate Hq; injection Hq; intros; subst; eauto.
Qed.

Lemma c_complete : forall (E : env) (L : env_laws E) m (pp : pubparam E) p j t es ks msg,
  pp_ok pp -> supported (pp_cs pp) -> (pp_depth pp <= 32)%nat -> pp_g2 pp = g2_one ->
  nth_error (b_sigs (cbooks m pp p)) j = Some (t, es) -> Forall (fun e => snd e = msg) es -> Permutation (map fst es) ks ->
  fst (cexec m pp (CVerifyAgg j ks msg) (cafter m pp p)) = Ok (Some true)
  /\ forall i, ks = [i] -> fst (cexec m pp (CVerify j i msg) (cafter m pp p)) = Ok (Some true).
Proof.
  intros E L m pp p j t es ks msg Hpp Hc Hd Hg Hj Hm Hp. destruct (c_program E L m pp p Hpp Hc Hd Hg) as (_ & -> & Hb).
  rewrite Hb in Hj. destruct (program_complete E L m pp (map rust_call p) j t es ks msg Hpp Hc Hd Hg Hj Hm Hp) as [H1 H2].
  rewrite (c_call_after E L m pp (map rust_call p) (CVerifyAgg j ks msg) Hpp Hc Hd Hg). cbn [fst rust_call]. rewrite H1. split; [reflexivity|].
  intros i Hi. rewrite (c_call_after E L m pp (map rust_call p) (CVerify j i msg) Hpp Hc Hd Hg). cbn [fst rust_call]. rewrite (H2 i Hi). reflexivity.
Qed.

Lemma c_refused : forall (E : env) (L : env_laws E) m (pp : pubparam E) p c e,
  pp_ok pp -> supported (pp_cs pp) -> (pp_depth pp <= 32)%nat -> pp_g2 pp = g2_one ->
  (forall i t seed, c <> CUpdate i t seed) ->
  fst (b_exec (pp_depth pp) (rust_call c) (cbooks m pp p)) = Err e -> fst (cexec m pp c (cafter m pp p)) = Panic P_FFI.
Proof.
  intros E L m pp p c e Hpp Hc Hd Hg Hn Hb.
  pose proof (c_panics E L m pp p c _ Hpp Hc Hd Hg eq_refl) as Hp.
  destruct (c_program E L m pp p Hpp Hc Hd Hg) as (_ & Ha & Hbk). rewrite Ha in Hp |- *. rewrite Hbk in Hb, Hp.
  rewrite (c_call_after E L m pp (map rust_call p) c Hpp Hc Hd Hg) in Hp |- *. cbn [fst] in Hp |- *.
  destruct (world_simulated E L m pp (map rust_call p) Hpp Hc Hd Hg) as (xs & ann & _ & Hs). specialize (Hs (rust_call c)).
  destruct Hs as [[Hs _]|[_ Hs]].
  - rewrite Hs in Hp. cbn [no_errors] in Hp. destruct Hp as (i & t & seed & ->). destruct (Hn i t seed eq_refl).
  - rewrite Hb in Hs. destruct (fst (exec m pp (rust_call c) _)) as [[]|e'|q]; cbn [agrees] in Hs; try contradiction. reflexivity.
Qed.

Lemma c_two_signers : forall (E : env) (L : env_laws E) m (pp : pubparam E) seed1 seed2 msg,
  pp_ok pp -> supported (pp_cs pp) -> (pp_depth pp <= 32)%nat -> pp_g2 pp = g2_one ->
  (32 <= length seed1)%nat -> (32 <= length seed2)%nat ->
  let p := [CKeyGen seed1; CKeyGen seed2; CSign 0 1 msg; CSign 1 1 msg; CAggregate [0; 1]%nat] in
  cresults m pp p = [Ok None; Ok None; Ok None; Ok None; Ok None]
  /\ cbooks m pp p = Book [1; 1] [(1, [(0%nat, msg)]); (1, [(1%nat, msg)]); (1, [(0%nat, msg); (1%nat, msg)])]
  /\ fst (cexec m pp (CVerifyAgg 2 [1; 0]%nat msg) (cafter m pp p)) = Ok (Some true)
  /\ forall t, t <> 1 -> fst (cexec m pp (CSign 0 t msg) (cafter m pp p)) = Panic P_FFI.
Proof.
  intros E L m pp seed1 seed2 msg Hpp Hc Hd Hg H1 H2 p.
  destruct (two_signers E L m pp seed1 seed2 msg Hpp Hc Hd Hg H1 H2) as [Hr Hb].
  destruct (c_program E L m pp p Hpp Hc Hd Hg) as (Kr & _ & Kb).
  change (map rust_call p) with [KeyGen seed1; KeyGen seed2; Call 0 (OpSignPresent 1 msg); Call 1 (OpSignPresent 1 msg); Aggregate [0; 1]%nat] in *.
  rewrite Hr in Kr. rewrite Hb in Kb. split; [exact Kr|]. split; [exact Kb|]. split.
  - refine (proj1 (c_complete E L m pp p 2 1 [(0%nat, msg); (1%nat, msg)] [1; 0]%nat msg Hpp Hc Hd Hg _ _ _)).
    + rewrite Kb. reflexivity.
    + repeat constructor.
    + apply perm_swap.
  - intros t Ht. apply (c_refused E L m pp p _ E_TIME_STAMP Hpp Hc Hd Hg); [discriminate|].
    rewrite Kb. cbn [rust_call b_exec b_times nth_error b_call]. destruct (N.eqb_spec t 1); [contradiction|]. reflexivity.
Qed.
