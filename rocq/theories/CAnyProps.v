(** Lemmas behind Properties_CAny.v. *)
From Verif Require Import Base Env NMod GroupFacts Time SpecTime TimeFacts TimeProps Hkdf Prng SpecPrng PrngFacts
  SubKey SecretKey Keys Sig IO Serdes Api Ffi SpecKey SubKeyFacts SpecUpdate UpdateFacts KeyFacts SpecSer IOFacts SerFacts
  HistoryFacts SpecSig SpecFfi KeyProps SubProps SigProps VerProps SerProps FfiProps SpecAny AnyProps SpecCAny.
From Verif Require SpecAgg AggProps.
From Coq Require Import ZifyBool ZifyNat ZifyN.
Local Open Scope N_scope.
Local Arguments N.add : simpl never.
Local Arguments N.mul : simpl never.
Local Arguments N.sub : simpl never.
Local Arguments pow2 : simpl never.

(** * What was read *)
Definition fits {E} (s : subkey E) : Prop := 1 <= sk_t s < 2^32 /\ (length (sk_hvec s) < 256)%nat.

Lemma p_ssk_fits {E} (L : env_laws E) b (x : subkey E) rest : are_bytes b -> p_ssk true b = Ok (x, rest) ->
  fits x /\ are_bytes rest.
Proof.
  intros Hb H. split; [|apply (p_ssk_canon L) in H; tauto].
  apply p_bind_inv in H as (tb & b' & H1 & H). apply p_take_inv in H1 as [-> Hl].
  apply are_bytes_app in Hb as [Htb Hb]. cbv zeta in H. destruct (N.eqb_spec (from_be4 tb) 0) as [|Hz]; [discriminate|].
  apply p_bind_inv in H as (n & b'' & H1 & H).
  apply p_bind_inv in H as (s1 & b1 & H2 & H).
  destruct b' as [|n' b0].
  { injection H1 as <- <-. apply p_g2_inv in H2 as (e & He & Hle & _).
    symmetry in He. apply app_eq_nil in He as [-> _]. discriminate. }
  injection H1 as <- <-. inversion Hb as [|? ? Hn Hb0]; subst.
  apply (p_g2_canon L) in H2 as [-> Hb1]; [|exact Hb0].
  apply p_bind_inv in H as (s2 & b2 & H1 & H). apply (p_g1_canon L) in H1 as [-> Hb2]; [|exact Hb1].
  apply p_bind_inv in H as (hv & b3 & H1 & H). apply (p_hv_canon L) in H1 as (-> & Hb3 & Hlen); [|exact Hb2].
  injection H as <- <-. unfold fits. cbn [sk_t sk_hvec]. pose proof (proj2 (be4_from_be4 tb Htb Hl)).
  unfold is_byte in Hn. lia.
Qed.
Lemma p_ssks_fits {E} (L : env_laws E) : forall n b (l : list (subkey E)) rest, are_bytes b ->
  p_ssks true n b = Ok (l, rest) -> Forall fits l.
Proof.
  induction n as [|n IH]; intros b l rest Hb H; cbn [p_ssks] in H.
  - injection H as <- <-. constructor.
  - apply p_bind_inv in H as (x & b1 & H1 & H). apply (p_ssk_fits L) in H1 as [Hx Hb1]; [|exact Hb].
    apply p_bind_inv in H as (l' & b2 & H1 & H). apply IH in H1; [|exact Hb1].
    injection H as <- <-. constructor; assumption.
Qed.

Definition shaped {E} (sk : seckey E) : Prop :=
  supported (sec_cs sk) /\ (1 <= length (sec_ssk sk) < 256)%nat /\ length (sec_prng sk) = 64%nat
  /\ map sk_t (firstn 1 (sec_ssk sk)) = [sec_time sk] /\ Forall fits (sec_ssk sk).

Lemma p_sk_shaped {E} (L : env_laws E) b (x : seckey E) rest : are_bytes b -> p_sk true b = Ok (x, rest) -> shaped x.
Proof.
  intros Hb H. apply p_bind_inv in H as (k & b' & H1 & H). apply p_take_inv in H1 as [-> Hl].
  apply are_bytes_app in Hb as [Hk Hb].
  apply p_bind_inv in H as (g & b'' & H1 & H). apply p_take_inv in H1 as [-> Hl'].
  apply are_bytes_app in Hb as [Hg Hb]. cbv zeta in H. destruct (valid_cs _) eqn:Hcs; [|discriminate]. cbn [negb] in H.
  destruct (_ =? 0) eqn:En; [discriminate|].
  apply p_bind_inv in H as (s1 & b1 & H1 & H). apply (p_ssk_fits L) in H1 as [Hs1 Hb1]; [|exact Hb].
  apply p_bind_inv in H as (l & b2 & H1 & H). pose proof (p_ssks_fits L _ _ _ _ Hb1 H1) as Hf.
  apply (p_ssks_canon L) in H1 as (-> & _ & Hlen); [|exact Hb1].
  injection H as <- <-.
  destruct k as [|cs [|num [|]]]; try discriminate. cbn [nth] in *.
  inversion Hk as [|? ? _ Hk1]; subst. inversion Hk1 as [|? ? Hnum _]; subst. unfold is_byte in Hnum.
  unfold shaped. cbn [sec_cs sec_time sec_ssk sec_prng length firstn map].
  split; [apply valid_cs_supported, Hcs|]. split; [lia|]. split; [exact Hl'|]. split; [reflexivity|constructor; assumption].
Qed.

Lemma wf_shaped {E} (sk : seckey E) : wf_sk sk -> shaped sk.
Proof.
  intros [H1 H2 H3 H4 H5]. unfold shaped. repeat (split; [assumption|]). eapply Forall_impl; [|exact H5].
  intros s [F1 F2 _ _ _]. split; assumption.
Qed.

Lemma slice_parses {E : env} b : from_slice (@sk_deserialize E true) b =
  match p_sk true b with Ok (x, _) => Ok x | Err e => Err e | Panic p => Panic p end.
Proof.
  unfold from_slice. pose proof (@parses_sk E true (rpush b []) (calm_slice b)) as H. rewrite content_slice in H.
  destruct (p_sk true b) as [[x rest]|e|p].
  - destruct H as (r' & -> & _). reflexivity.
  - destruct H as (r' & ->). reflexivity.
  - destruct H as (r' & ->). reflexivity.
Qed.

Lemma held_shape {E} (L : env_laws E) b (sk : seckey E) : are_bytes b -> holds_sk b sk ->
  shaped sk /\ exists rest, b = sk_blob true sk ++ rest.
Proof.
  intros Hb H. unfold holds_sk in H. rewrite slice_parses in H. destruct (p_sk true b) as [[x rest]| |] eqn:Hp; try discriminate.
  injection H as ->. split; [exact (p_sk_shaped L b sk rest Hb Hp)|]. exists rest. exact (p_sk_canon L b sk rest Hb Hp).
Qed.

Lemma slice_sk_no_panic {E : env} b p : from_slice (@sk_deserialize E true) b <> Panic p.
Proof.
  unfold from_slice. pose proof (proj1 (sk_deserialize_checked E true (rpush b []))) as Hn.
  intros H. rewrite H in Hn. discriminate Hn.
Qed.

Lemma sk_held_dec {E : env} b : (exists sk : seckey E, holds_sk b sk)
  \/ ((forall sk : seckey E, ~ holds_sk b sk) /\ or_panic (from_slice (@sk_deserialize E true) b) = Panic P_FFI).
Proof.
  unfold holds_sk. destruct (from_slice (@sk_deserialize E true) b) as [sk|e|p] eqn:H; [left; eauto|right; split; [discriminate|reflexivity]|].
  destruct (slice_sk_no_panic b p H).
Qed.

(** * Update *)
Lemma new_sub_fits {E} (pp : pubparam E) g (a : subkey E) i u s : fits a -> (pp_depth pp <= 32)%nat -> new_sub pp g a i u s -> fits s.
Proof.
  intros [Ht Hl] Hd (va & w & _ & Hn & ->). apply node_at_range in Hn. unfold last_time in Hn.
  pose proof (pow2_le _ _ Hd). change (pow2 32) with (2^32) in *.
  assert (Hm : fits (moved_down a w u)) by (unfold fits, moved_down; cbn [sk_t sk_hvec]; rewrite skipn_length; lia).
  destruct i; [exact Hm|]. destruct Hm as [H1 H2]. unfold fits, added_to. cbn [sk_t sk_hvec] in *.
  rewrite map_length, combine_length. split; [exact H1|lia].
Qed.

Lemma Forall_nth_error {A} (P : A -> Prop) l : (forall i x, nth_error l i = Some x -> P x) -> Forall P l.
Proof. intros H. apply Forall_forall. intros x Hx. apply In_nth_error in Hx as (i & Hi). eauto. Qed.

(** The sub keys of an updated key, each old or made from the delegator. *)
Lemma updated_subs {E} (pp : pubparam E) t seed sk sk' (P : subkey E -> Prop) :
  pp_ok pp -> update_result pp t seed sk (Ok tt, sk') -> Forall P (sec_ssk sk) ->
  (forall a i u s, In a (sec_ssk sk) -> new_sub pp (spec_reseed sk seed) a i u s -> P s) ->
  Forall P (sec_ssk sk') /\ sec_cs sk' = sec_cs sk /\ (1 <= length (sec_ssk sk') <= length (sec_ssk sk) - 1 + pp_depth pp)%nat
  /\ map sk_t (firstn 1 (sec_ssk sk')) = [sec_time sk']
  /\ exists n, sec_prng sk' = draws (sha512 E) n (spec_reseed sk seed).
Proof.
  intros Hpp H HP Hnew. pose proof (ppo_depth pp Hpp) as Hd. inversion H; subst.
  - match goal with H : delegates _ _ _ _ _ |- _ => destruct H as (Heq & _) end.
    cbn [sec_ssk sec_cs sec_time sec_prng firstn map length]. split; [|split; [reflexivity|split]].
    + rewrite Heq in HP. apply Forall_app in HP as [_ HP]. exact HP.
    + rewrite Heq, app_length. cbn [length]. lia.
    + split; [congruence|]. exists 0%nat. reflexivity.
  - match goal with H : delegates _ _ _ _ _ |- _ => destruct H as (Heq & _) end.
    match goal with H : from_delegator _ _ _ _ _ _ _ _ _ |- _ => inversion H; subst end.
    cbn [sec_ssk sec_cs sec_time sec_prng].
    match goal with H : tiling _ _ gl |- _ => pose proof (tiling_length _ _ _ Hd H ltac:(lia)) as Hgl end.
    match goal with H : makes _ _ _ _ _ |- _ => destruct H as [Hn _] end.
    split; [|split; [reflexivity|split; [|split]]].
    + apply Forall_app. split.
      * apply Forall_nth_error. intros i x Hx.
        assert (Hi : (i < length gl)%nat) by (pose proof (nth_error_Some news i); rewrite Hx in *; assert (i < length news)%nat by (apply nth_error_Some; congruence); lia).
        destruct (nth_error gl i) as [u|] eqn:Hu; [|apply nth_error_None in Hu; lia].
        match goal with Hw : forall i u s, nth_error gl i = _ -> _ |- _ => specialize (Hw i u x Hu Hx) as Hns end.
        eapply Hnew; [|exact Hns]. rewrite Heq. apply in_elt.
      * rewrite Heq in HP. apply Forall_app in HP as [_ HP]. inversion HP; assumption.
    + rewrite app_length, Heq, app_length. cbn [length].
      split; [|lia].
      match goal with H : ends_well _ _ _ _ |- _ => destruct H as [He|(u & _ & p & s0 & q & -> & _)] end;
        [lia|rewrite app_length; cbn [length]; lia].
    + assert (Hne : news ++ post <> []).
      { match goal with H : ends_well _ _ _ _ |- _ => destruct H as [He|(u & _ & p & s0 & q & -> & _)] end;
          [intros He'; apply app_eq_nil in He' as [-> _]; cbn [length] in *; lia|intros He'; apply app_eq_nil in He' as [_ He'];
           apply app_eq_nil in He' as [_ He']; discriminate]. }
      destruct (news ++ post); [congruence|reflexivity].
    + eauto.
Qed.

Lemma to_vec_fits {E} (sk : seckey E) : supported (sec_cs sk) -> Forall fits (sec_ssk sk) ->
  to_vec (sk_serialize sk true) = Ok (sk_blob true sk).
Proof.
  intros Hcs Hf. apply aon_to_vec. pose proof (sk_aon sk true) as H.
  apply valid_cs_supported in Hcs. rewrite Hcs in H.
  replace (forallb (fun s => sk_t s <=? 2 ^ 32) (sec_ssk sk)) with true in H; [exact H|].
  symmetry. apply forallb_forall. intros s Hs. rewrite Forall_forall in Hf. destruct (Hf s Hs). lia.
Qed.

Lemma c_update_of {E} (L : env_laws E) m (pp : pubparam E) b seed t sk : pp_ok pp -> (pp_depth pp <= 32)%nat ->
  shaped sk -> holds_sk b sk ->
  c_sk_update m pp b seed t = match update m pp t seed sk with
    | (Ok _, sk') => Ok (sk_blob true sk')
    | (Err _, _) => Panic P_FFI
    | (Panic p, _) => Panic p
    end.
Proof.
  intros Hpp Hd (Hcs & Hn & Hg & Ht & Hf) Hh.
  unfold c_sk_update. rewrite Hh. cbn [or_panic bind]. unfold run_mut.
  destruct (update m pp t seed sk) as [[[]|e|p] sk'] eqn:Hu; try reflexivity. cbn [or_panic bind].
  apply (update_any E L m pp t seed sk _ Hpp) in Hu.
  destruct (updated_subs pp t seed sk sk' fits Hpp Hu Hf) as (Hf' & Hcs' & _).
  { intros a i u s Ha Hs. rewrite Forall_forall in Hf. eapply new_sub_fits; [apply Hf; exact Ha|exact Hd|exact Hs]. }
  rewrite to_vec_fits by (rewrite ?Hcs'; assumption). reflexivity.
Qed.

Lemma c_update_any : forall (E : env) (L : env_laws E) m (pp : pubparam E) t seed b o,
  pp_ok pp -> (pp_depth pp <= 32)%nat -> are_bytes b ->
  (c_sk_update m pp b seed t = o <-> c_update_result pp t seed b o).
Proof.
  intros E L m pp t seed b o Hpp Hd Hb.
  assert (Hsh : forall sk : seckey E, holds_sk b sk -> shaped sk) by (intros sk Hh; apply (held_shape L b sk Hb Hh)). split.
  - intros <-. destruct (@sk_held_dec E b) as [[sk Hh]|[Hno He]].
    + rewrite (c_update_of L m pp b seed t sk) by auto.
      destruct (update m pp t seed sk) as [[[]|e|p] sk'] eqn:Hu; apply (update_any E L m pp t seed sk _ Hpp) in Hu;
        [eapply CU_ok|eapply CU_err|eapply CU_panic]; eassumption.
    + unfold c_sk_update. rewrite He. apply CU_bytes, Hno.
  - intros H. inversion H as [Hno|sk sk' Hh Hu|sk e sk' Hh Hu|sk p sk' Hh Hu]; subst.
    + destruct (@sk_held_dec E b) as [[sk Hh]|[_ He]]; [destruct (Hno sk Hh)|]. unfold c_sk_update. rewrite He. reflexivity.
    + apply (update_any E L m pp t seed sk _ Hpp) in Hu. rewrite (c_update_of L m pp b seed t sk), Hu by auto. reflexivity.
    + apply (update_any E L m pp t seed sk _ Hpp) in Hu. rewrite (c_update_of L m pp b seed t sk), Hu by auto. reflexivity.
    + apply (update_any E L m pp t seed sk _ Hpp) in Hu. rewrite (c_update_of L m pp b seed t sk), Hu by auto. reflexivity.
Qed.

(** * Reading the result back *)
Lemma mod256 n : N.of_nat n mod 256 = N.of_nat (n mod 256).
Proof. symmetry. apply (Nat2N.inj_mod n 256). Qed.

Lemma blob_cut {E} (sk : seckey E) : exists rest, sk_blob true sk = sk_blob true (cut sk) ++ rest.
Proof.
  exists (concat (map (ssk_blob true) (skipn (length (sec_ssk sk) mod 256) (sec_ssk sk)))).
  unfold sk_blob, cut. cbn [sec_cs sec_ssk sec_prng].
  rewrite firstn_length, Nat.min_l by (apply Nat.mod_le; discriminate).
  rewrite !mod256, Nat.mod_mod by discriminate.
  rewrite <- !app_assoc. rewrite <- concat_app, <- map_app, firstn_skipn. reflexivity.
Qed.

Lemma cut_wf {E} (sk : seckey E) : wf_but_number sk -> (length (sec_ssk sk) mod 256 <> 0)%nat -> wf_sk (cut sk).
Proof.
  intros (Hcs & Hg & Ht & Hf) Hn. pose proof (Nat.mod_upper_bound (length (sec_ssk sk)) 256 ltac:(discriminate)).
  pose proof (Nat.mod_le (length (sec_ssk sk)) 256 ltac:(discriminate)).
  constructor; unfold cut; cbn [sec_cs sec_ssk sec_prng sec_time]; auto.
  - rewrite firstn_length. lia.
  - rewrite firstn_firstn, Nat.min_l by lia. exact Ht.
  - apply Forall_firstn, Hf.
Qed.

Lemma read_back : forall (E : env) (L : env_laws E) (sk : seckey E),
  wf_but_number sk ->
  from_slice (sk_deserialize true) (sk_blob true sk)
  = if (length (sec_ssk sk) mod 256 =? 0)%nat then Err E_DESERIAL else Ok (cut sk).
Proof.
  intros E L sk Hw. destruct (Nat.eqb_spec (length (sec_ssk sk) mod 256) 0) as [Hz|Hz].
  - rewrite slice_parses. unfold p_sk, p_bind, sk_blob. destruct Hw as (Hcs & Hg & _ & _).
    rewrite p_take_app by reflexivity. cbn [bind]. rewrite p_take_app by exact Hg. cbn [bind nth].
    rewrite (proj2 (valid_cs_supported _) Hcs). cbn [negb]. rewrite mod256, Hz. reflexivity.
  - destruct (blob_cut sk) as (rest & ->). rewrite slice_parses, (p_sk_blob L) by (apply cut_wf; assumption). reflexivity.
Qed.

Lemma new_sub_wf {E} (L : env_laws E) (pp : pubparam E) g (a : subkey E) i u s :
  pp_ok pp -> wf_ssk a -> (pp_depth pp <= 32)%nat -> new_sub pp g a i u s -> wf_ssk s.
Proof.
  intros Hpp [Ht Hl H1 H2 H3] Hd Hs.
  assert (Hfit : fits s) by (apply (new_sub_fits pp g a i u s); [split; assumption|exact Hd|exact Hs]).
  destruct Hs as (va & w & _ & _ & ->).
  assert (Hm2 : g1_insub (sk_hpoly (moved_down a w u)) = true).
  { apply (l1_sub_add E L); [exact H2|]. apply (lincomb_insub L), H3. }
  assert (Hm3 : Forall (fun h => g1_insub h = true) (sk_hvec (moved_down a w u))) by (apply Forall_skipn, H3).
  destruct Hfit as [F1 F2]. destruct i.
  - constructor; auto.
  - constructor; auto.
    + apply (l2_sub_add E L); [exact H1|]. apply (g2_mul_insub L), Hpp.
    + apply (l1_sub_add E L); [exact Hm2|]. apply (g1_mul_insub L), (node_val_insub L), Hpp.
    + cbn [added_to sk_hvec]. apply Forall_forall. intros x Hx. apply in_map_iff in Hx as ([y z] & <- & Hyz).
      cbn [fst snd]. rewrite Forall_forall in Hm3.
      apply (l1_sub_add E L); [apply Hm3; eapply in_combine_l; exact Hyz|]. apply (g1_mul_insub L).
      pose proof (Forall_skipn _ (length (va ++ w) + 1) _ (ppo_hlist pp Hpp)) as Hh. rewrite Forall_forall in Hh.
      apply Hh. eapply in_combine_r; exact Hyz.
Qed.

Lemma draws_len {E} (L : env_laws E) n g : length g = 64%nat -> length (draws (sha512 E) n g) = 64%nat.
Proof.
  intros Hg. assert (Hh : hash_len (sha512 E)) by exact (lh_len E L). destruct n; [exact Hg|]. rewrite draws_S. unfold spec_next, hkdf_T2. apply rfc_hmac_len, Hh.
Qed.

Lemma updated_wf {E} (L : env_laws E) (pp : pubparam E) t seed sk sk' : pp_ok pp -> (pp_depth pp <= 32)%nat ->
  wf_sk sk -> update_result pp t seed sk (Ok tt, sk') ->
  wf_but_number sk' /\ (1 <= length (sec_ssk sk') <= length (sec_ssk sk) - 1 + pp_depth pp)%nat.
Proof.
  intros Hpp Hd Hw Hu.
  destruct (updated_subs pp t seed sk sk' wf_ssk Hpp Hu (wsk_ssk sk Hw)) as (Hf & Hcs & Hn & Ht & n & Hg).
  { intros a i u s Ha Hs. pose proof (wsk_ssk sk Hw) as Hf. rewrite Forall_forall in Hf.
    eapply (new_sub_wf L); [exact Hpp|apply Hf, Ha|exact Hd|exact Hs]. }
  split; [|exact Hn]. split; [rewrite Hcs; apply Hw|]. split; [|split; assumption].
  rewrite Hg. apply (draws_len L). unfold spec_reseed, spec_rerandomize. apply rfc_hmac_len. exact (lh_len E L).
Qed.

Lemma c_update_back : forall (E : env) (L : env_laws E) m (pp : pubparam E) t seed b sk b',
  pp_ok pp -> (pp_depth pp <= 32)%nat -> holds_sk b sk -> wf_sk sk ->
  c_sk_update m pp b seed t = Ok b' ->
  exists sk', update m pp t seed sk = (Ok tt, sk')
  /\ (length (sec_ssk sk') <= length (sec_ssk sk) - 1 + pp_depth pp)%nat
  /\ (holds_sk b' sk' <-> (length (sec_ssk sk') <= 255)%nat)
  /\ from_slice (sk_deserialize true) b'
     = if (length (sec_ssk sk') mod 256 =? 0)%nat then Err E_DESERIAL else Ok (cut sk').
Proof.
  intros E L m pp t seed b sk b' Hpp Hd Hh Hw Hc.
  rewrite (c_update_of L m pp b seed t sk) in Hc by auto using wf_shaped.
  destruct (update m pp t seed sk) as [[[]|e|p] sk'] eqn:Hu; try discriminate. injection Hc as <-.
  apply (update_any E L m pp t seed sk _ Hpp) in Hu.
  destruct (updated_wf L pp t seed sk sk' Hpp Hd Hw Hu) as [Hw' Hn].
  exists sk'. split; [reflexivity|]. split; [lia|]. pose proof (read_back E L sk' Hw') as Hr. split; [|exact Hr].
  unfold holds_sk. rewrite Hr. split.
  - destruct (Nat.eqb_spec (length (sec_ssk sk') mod 256) 0) as [|Hz]; [discriminate|]. intros [= He].
    pose proof (Nat.mod_upper_bound (length (sec_ssk sk')) 256 ltac:(discriminate)).
    assert (Hl : length (sec_ssk (cut sk')) = length (sec_ssk sk')) by (rewrite He; reflexivity).
    unfold cut in Hl. cbn [sec_ssk] in Hl. rewrite firstn_length in Hl. lia.
  - intros Hle. rewrite (Nat.mod_small (length (sec_ssk sk')) 256) by lia.
    destruct (Nat.eqb_spec (length (sec_ssk sk')) 0) as [|]; [lia|]. f_equal. unfold cut.
    rewrite Nat.mod_small by lia. rewrite firstn_all. destruct sk'; reflexivity.
Qed.

(** * Signing *)
Lemma snoc_cases {A} (l : list A) : l = [] \/ exists init last, l = init ++ [last].
Proof. destruct l as [|a l]; [left; reflexivity|right]. destruct (@exists_last A (a :: l)) as (i & x & H); [discriminate|eauto]. Qed.

Lemma c_sign_any : forall (E : env) (L : env_laws E) m (pp : pubparam E) msg t b o,
  pp_ok pp -> (pp_depth pp <= 32)%nat -> are_bytes b ->
  (c_sign_present m pp b msg t = o <-> c_sign_result pp msg t b o).
Proof.
  intros E L m pp msg t b o Hpp Hd Hb. destruct (@sk_held_dec E b) as [[sk Hh]|[Hno He]].
  - destruct (held_shape L b sk Hb Hh) as [(Hcs & Hn & Hg & Ht & Hf) _].
    assert (Hc : c_sign_present m pp b msg t
      = let! sig := or_panic (fst (sign_present m t pp msg sk)) in
        let! sig_buf := or_panic (to_vec (sig_serialize sig true)) in copy_from_slice SIG_LEN sig_buf).
    { unfold c_sign_present. rewrite Hh. reflexivity. }
    rewrite Hc. clear Hc. destruct (AggProps.sign_any_key E L m pp sk t msg Hpp) as [_ Hs].
    assert (Hok : forall s rest v init last, sec_cs sk = pp_cs pp -> sec_time sk = t -> node_at (pp_depth pp) t v ->
      sec_ssk sk = s :: rest -> sk_hvec s = init ++ [last] ->
      (let! sig := or_panic (fst (sign_present m t pp msg sk)) in
       let! sig_buf := or_panic (to_vec (sig_serialize sig true)) in copy_from_slice SIG_LEN sig_buf)
      = Ok (sig_blob true (Signature (pp_cs pp) t
          (g2_add (sk_g2r s) (g2_mul (spec_scalar (sha512 E) (sec_prng sk) (sign_info msg t)) (pp_g2 pp)))
          (g1_add (g1_add (sk_hpoly s) (g1_mul (msg_scalar pp msg) last))
            (g1_mul (spec_scalar (sha512 E) (sec_prng sk) (sign_info msg t)) (sig_val pp v (msg_scalar pp msg))))))).
    { intros s rest v init last E1 E2 E3 E4 E5. pose proof (node_at_range _ _ _ E3) as Hst.
      rewrite E4 in Ht. cbn [firstn map] in Ht. injection Ht as Ht. 
      destruct (fst (sign_present m t pp msg sk)) as [sig|e|p]; [|exfalso|contradiction].
      - destruct Hs as (_ & _ & _ & s' & rest' & v' & init' & last' & F1 & F2 & F3 & F4).
        rewrite E4 in F1. injection F1 as <- <-. rewrite Ht, E2 in F2. rewrite (node_at_fun _ _ _ _ F2 E3) in F4.
        rewrite E5 in F3. apply app_inj_tail in F3 as [<- <-]. cbn [or_panic bind]. cbv zeta in F4. subst sig.
        assert (Hv : to_vec (sig_serialize (Signature (pp_cs pp) t
          (g2_add (sk_g2r s) (g2_mul (spec_scalar (sha512 E) (sec_prng sk) (sign_info msg t)) (pp_g2 pp)))
          (g1_add (g1_add (sk_hpoly s) (g1_mul (msg_scalar pp msg) last))
            (g1_mul (spec_scalar (sha512 E) (sec_prng sk) (sign_info msg t)) (sig_val pp v (msg_scalar pp msg))))) true)
          = Ok (sig_blob true (Signature (pp_cs pp) t
          (g2_add (sk_g2r s) (g2_mul (spec_scalar (sha512 E) (sec_prng sk) (sign_info msg t)) (pp_g2 pp)))
          (g1_add (g1_add (sk_hpoly s) (g1_mul (msg_scalar pp msg) last))
            (g1_mul (spec_scalar (sha512 E) (sec_prng sk) (sign_info msg t)) (sig_val pp v (msg_scalar pp msg))))))).
        { apply aon_to_vec. match goal with |- all_or_nothing (sig_serialize ?x _) _ _ => pose proof (sig_aon x true) as Ha end.
          cbn [sig_cs sig_time] in Ha. rewrite E1 in Hcs. rewrite (proj2 (valid_cs_supported _) Hcs) in Ha.
          unfold last_time in Hst. pose proof (pow2_le _ _ Hd). change (pow2 32) with (2^32) in *.
          replace (t <? 2^32) with true in Ha by lia. exact Ha. }
        rewrite Hv. cbn [or_panic bind]. apply copy_ok. unfold sig_blob. cbn [length]. rewrite !app_length.
        cbn [sig_1 sig_2]. rewrite (lc2_len E L), (lc1_len E L). reflexivity.
      - destruct Hs as [[_ Hs]|[[_ Hs]|[[_ Hs]|(s' & rest' & F1 & Hs)]]].
        + congruence.
        + rewrite E1 in Hcs. destruct Hs as [Hs|Hs]; [apply Hs, Hcs|congruence].
        + congruence.
        + rewrite E4 in F1. injection F1 as <- <-. destruct Hs as [[_ Hs]|[_ Hs]].
          * rewrite E5 in Hs. apply app_eq_nil in Hs as [_ Hs]. discriminate.
          * apply Hs. rewrite Ht, E2. exact Hst. }
    assert (Hbad : sec_cs sk <> pp_cs pp \/ sec_time sk <> t \/ ~ stamp (pp_depth pp) t \/ map sk_hvec (firstn 1 (sec_ssk sk)) = [[]] ->
      (let! sig := or_panic (fst (sign_present m t pp msg sk)) in
       let! sig_buf := or_panic (to_vec (sig_serialize sig true)) in copy_from_slice SIG_LEN sig_buf) = Panic P_FFI).
    { intros Hr. destruct (fst (sign_present m t pp msg sk)) as [sig|e|p]; [exfalso|reflexivity|contradiction].
      destruct Hs as (_ & G1 & G2 & s' & rest' & v' & init' & last' & F1 & F2 & F3 & _).
      rewrite F1 in Ht. cbn [firstn map] in Ht. injection Ht as Ht. rewrite Ht, G2 in F2. apply node_at_range in F2.
      destruct Hr as [Hr|[Hr|[Hr|Hr]]]; [contradiction|contradiction|apply Hr; exact F2|].
      rewrite F1 in Hr. cbn [firstn map] in Hr. rewrite F3 in Hr. injection Hr as Hr. apply app_eq_nil in Hr as [_ Hr]. discriminate. }
    split.
    + intros <-. destruct (N.eq_dec (sec_cs sk) (pp_cs pp)) as [E1|E1]; [|rewrite Hbad by tauto; eapply CS_refused; [exact Hh|tauto]].
      destruct (N.eq_dec (sec_time sk) t) as [E2|E2]; [|rewrite Hbad by tauto; eapply CS_refused; [exact Hh|tauto]].
      destruct (N.le_gt_cases 1 t) as [T1|T1]; [|rewrite Hbad by (unfold stamp; lia); eapply CS_refused; [exact Hh|unfold stamp; lia]].
      destruct (N.le_gt_cases t (last_time (pp_depth pp))) as [T2|T2]; [|rewrite Hbad by (unfold stamp; lia); eapply CS_refused; [exact Hh|unfold stamp; lia]].
      destruct (sec_ssk sk) as [|s rest] eqn:E4; [cbn [length] in Hn; lia|].
      destruct (snoc_cases (sk_hvec s)) as [E5|(init & last & E5)].
      * rewrite Hbad by (cbn [firstn map]; rewrite E5; tauto). eapply CS_refused; [exact Hh|rewrite E4; cbn [firstn map]; rewrite E5; tauto].
      * destruct (node_at_ex (pp_depth pp) t) as (v & Hv); [lia|].
        rewrite (Hok s rest v init last) by auto. eapply CS_ok; eassumption.
    + intros H. inversion H as [Hno|sk1 Hh1 Hr|sk1 s rest v init last Hh1]; subst.
      * destruct (Hno sk Hh).
      * unfold holds_sk in *. rewrite Hh in Hh1. injection Hh1 as <-. apply Hbad, Hr.
      * unfold holds_sk in *. rewrite Hh in Hh1. injection Hh1 as <-. eapply Hok; eauto.
  - assert (Hc : c_sign_present m pp b msg t = Panic P_FFI) by (unfold c_sign_present; rewrite He; reflexivity).
    rewrite Hc. split; [intros <-; apply CS_bytes, Hno|]. intros H. inversion H as [_|sk1 Hh1|sk1 s rest v init last Hh1]; subst; try reflexivity; destruct (Hno sk1 Hh1).
Qed.

(** * Verification *)
Lemma c_verify_any : forall (E : env) (L : env_laws E) m (pp : pubparam E) pkb msg sigb,
  pp_ok pp ->
  (forall pk s, holds_pk pkb pk -> holds_sig sigb s ->
     exists r, verify m s pk pp msg = Ok r /\ c_verify m pp pkb msg sigb = Ok r)
  /\ ((forall pk : pubkey E, ~ holds_pk pkb pk) \/ (forall s : signature E, ~ holds_sig sigb s) ->
      c_verify m pp pkb msg sigb = Panic P_FFI).
Proof.
  intros E L m pp pkb msg sigb Hpp. destruct (@from_slice_no_panic E pkb) as (Hk & _ & _). destruct (@from_slice_no_panic E sigb) as (_ & _ & Hs).
  unfold holds_pk, holds_sig. split.
  - intros pk s H1 H2. destruct (verify_total E L m pp s pk msg Hpp) as (r & Hr). exists r. split; [exact Hr|].
    unfold c_verify. rewrite H1, H2. exact Hr.
  - intros H. unfold c_verify. destruct (from_slice (@pk_deserialize E true) pkb) as [pk|e|p]; [|reflexivity|destruct (Hk p eq_refl)].
    cbn [or_panic bind]. destruct (from_slice (@sig_deserialize E true) sigb) as [s|e|p]; [|reflexivity|destruct (Hs p eq_refl)].
    destruct H as [H|H]; [destruct (H pk eq_refl)|destruct (H s eq_refl)].
Qed.

(** * Bytes after the key *)
Definition grows {A} (p : bytes -> res (A * bytes)) : Prop :=
  forall b x rest junk, p b = Ok (x, rest) -> p (b ++ junk) = Ok (x, rest ++ junk).
Lemma grows_take n : grows (p_take n).
Proof.
  intros b x rest junk H. apply p_take_inv in H as [-> Hl]. rewrite <- app_assoc. apply p_take_app, Hl.
Qed.
Lemma grows_bind {A B} (p : bytes -> res (A * bytes)) (q : A -> bytes -> res (B * bytes)) :
  grows p -> (forall a, grows (q a)) -> grows (p_bind p q).
Proof.
  intros Hp Hq b x rest junk H. apply p_bind_inv in H as (a & b' & H1 & H). unfold p_bind.
  rewrite (Hp _ _ _ junk H1). cbn [bind]. apply Hq, H.
Qed.
Lemma grows_ret {A} (a : A) : grows (p_ret a).
Proof. intros b x rest junk H. injection H as <- <-. reflexivity. Qed.
Lemma grows_lift {A} (x : res A) : grows (p_lift x).
Proof. intros b y rest junk H. unfold p_lift in *. destruct x; try discriminate. cbn [bind] in *. injection H as <- <-. reflexivity. Qed.
Lemma grows_g1 {E : env} c : grows (@p_g1 E c).
Proof. apply grows_bind; [apply grows_take|]. intros; apply grows_lift. Qed.
Lemma grows_g2 {E : env} c : grows (@p_g2 E c).
Proof. apply grows_bind; [apply grows_take|]. intros; apply grows_lift. Qed.
Lemma grows_hv {E : env} c n : grows (@p_hv E c n).
Proof.
  induction n; cbn [p_hv]; [apply grows_ret|]. apply grows_bind; [apply grows_g1|]. intros x.
  apply grows_bind; [exact IHn|]. intros; apply grows_ret.
Qed.
Lemma grows_ssk {E : env} c : grows (@p_ssk E c).
Proof.
  intros b x rest junk H. apply p_bind_inv in H as (tb & b' & H1 & H). unfold p_ssk, p_bind at 1.
  rewrite (grows_take 4 _ _ _ junk H1). cbn [bind]. cbv zeta in *. destruct (_ =? 0); [discriminate|].
  apply p_bind_inv in H as (n & b'' & H2 & H).
  destruct b' as [|n' b0].
  { apply p_bind_inv in H as (s1 & b1 & H3 & H). injection H2 as <- <-. apply p_g2_inv in H3 as (e & He & Hle & _).
    symmetry in He. apply app_eq_nil in He as [-> _]. destruct c; discriminate. }
  injection H2 as <- <-. unfold p_bind at 1. cbn [p_hvlen app bind].
  revert H. apply grows_bind; [apply grows_g2|]. intros g. apply grows_bind; [apply grows_g1|]. intros hp.
  apply grows_bind; [apply grows_hv|]. intros; apply grows_ret.
Qed.
Lemma grows_ssks {E : env} c n : grows (@p_ssks E c n).
Proof.
  induction n; cbn [p_ssks]; [apply grows_ret|]. apply grows_bind; [apply grows_ssk|]. intros x.
  apply grows_bind; [exact IHn|]. intros; apply grows_ret.
Qed.
Lemma grows_sk {E : env} c : grows (@p_sk E c).
Proof.
  apply grows_bind; [apply grows_take|]. intros k. apply grows_bind; [apply grows_take|]. intros g. cbv zeta.
  intros b x rest junk H. destruct (negb _); [discriminate|]. destruct (_ =? 0); [discriminate|]. revert H.
  apply grows_bind; [apply grows_ssk|]. intros s. apply grows_bind; [apply grows_ssks|]. intros; apply grows_ret.
Qed.

Lemma c_appended : forall (E : env) m (pp : pubparam E) b junk (sk : seckey E),
  holds_sk b sk ->
  holds_sk (b ++ junk) sk
  /\ (forall t seed, c_sk_update m pp (b ++ junk) seed t = c_sk_update m pp b seed t)
  /\ forall t msg, c_sign_present m pp (b ++ junk) msg t = c_sign_present m pp b msg t.
Proof.
  intros E m pp b junk sk H.
  assert (H' : holds_sk (b ++ junk) sk).
  { unfold holds_sk in *. rewrite slice_parses in *. destruct (p_sk true b) as [[x rest]| |] eqn:Hp; try discriminate.
    rewrite (grows_sk true b x rest junk Hp). exact H. }
  split; [exact H'|]. unfold holds_sk in *. split; intros; [unfold c_sk_update|unfold c_sign_present]; rewrite H, H'; reflexivity.
Qed.

(** * A key with very many sub keys loses most of them *)
Lemma node4 t v : (existsb (fun tv => (fst tv =? t) && (if list_eq_dec N.eq_dec (snd tv) v then true else false))
    [(1, []); (2, [1]); (3, [1; 1]); (6, [1; 2]); (9, [2]); (15, [2; 2; 2])])%list = true -> node_at 4 t v.
Proof.
  cbn [existsb fst snd]. rewrite !orb_true_iff, !andb_true_iff.
  intros H. repeat (destruct H as [H|H]; [destruct H as [H1 H2]; apply N.eqb_eq in H1; subst t;
    destruct (list_eq_dec N.eq_dec _ v) as [<-|]; [|discriminate]; split; [lia|reflexivity]|]). discriminate.
Qed.

Lemma below4 {E} (a : subkey E) (post : list (subkey E)) u : sk_t a = 1 -> Forall (fun s => sk_t s = 15) post ->
  In u [3; 6; 9] -> clear 4 u post /\ strictly_below 4 (sk_t a) u.
Proof.
  intros Ha Hf Hu. split.
  - eapply Forall_impl; [|exact Hf]. intros s ->. split; [unfold stamp; vm_compute; split; discriminate|].
    destruct Hu as [<-|[<-|[<-|[]]]]; discriminate.
  - rewrite Ha. destruct Hu as [<-|[<-|[<-|[]]]]; [exists [], [1; 1]|exists [], [1; 2]|exists [], [2]];
      (split; [discriminate|split; apply node4; reflexivity]).
Qed.
Lemma tiling4 t l : (t, l) = (3, [3; 6; 9]) \/ (t, l) = (9, [9]) -> tiling 4 t l.
Proof.
  assert (H9 : tiling 4 9 [9]) by (apply (tile_cons 4 9 [2]); [apply node4; reflexivity|exact (tile_end 4)]).
  intros [[= -> ->]|[= -> ->]]; [|exact H9].
  apply (tile_cons 4 3 [1; 1]); [apply node4; reflexivity|]. apply (tile_cons 4 6 [1; 2]); [apply node4; reflexivity|exact H9].
Qed.

Lemma sub_keys_lost {E} (L : env_laws E) m (pp : pubparam E) (a f : subkey E) g seed1 seed2 :
  let sk := SecKey (pp_cs pp) 1 (a :: repeat f 254) g in
  pp_ok pp -> pp_depth pp = 4%nat -> supported (pp_cs pp) -> wf_ssk a -> sk_t a = 1 -> wf_ssk f -> sk_t f = 15 ->
  (2 <= length (sk_hvec a) < length (pp_hlist pp))%nat -> length g = 64%nat ->
  (forall i, (1 <= i < 3)%nat -> draws (sha512 E) i (spec_reseed sk seed1) <> g) ->
  wf_sk sk /\ holds_sk (sk_blob true sk) sk
  /\ exists sk1 sk2 b, update m pp 3 seed1 sk = (Ok tt, sk1) /\ update m pp 9 seed2 sk1 = (Ok tt, sk2)
     /\ c_sk_update m pp (sk_blob true sk) seed1 3 = Ok b /\ c_sk_update m pp b seed2 9 = Panic P_FFI.
Proof.
  intros sk Hpp Hd Hcs Ha Hta Hf Htf Hlen Hg Hdr.
  assert (Hpost : Forall (fun s : subkey E => sk_t s = 15) (repeat f 254)) by (apply Forall_forall; intros s Hs; apply repeat_spec in Hs; congruence).
  assert (Hw : wf_sk sk).
  { constructor; cbn [sk sec_cs sec_ssk sec_prng sec_time firstn map].
    - exact Hcs.
    - cbn [length]. rewrite repeat_length. lia.
    - exact Hg.
    - rewrite Hta. reflexivity.
    - constructor; [exact Ha|]. apply Forall_forall. intros s Hs. apply repeat_spec in Hs. subst s. exact Hf. }
  assert (Hh : holds_sk (sk_blob true sk) sk) by (apply (slice_sk L), Hw).
  split; [exact Hw|]. split; [exact Hh|].
  assert (Hm : makes (pp_depth pp) a (repeat f 254) [3; 6; 9] 3).
  { rewrite Hd. split; [apply le_n|]. cbn [firstn]. apply Forall_forall. intros u Hu. apply below4; auto. }
  destruct (new_sub_ex (pp_depth pp) pp (spec_reseed sk seed1) a (repeat f 254) [3; 6; 9] eq_refl 3 Hm) as (news & Hn & Hnew).
  assert (Hu : update_result pp 3 seed1 sk
    (Ok tt, SecKey (pp_cs pp) (hd 0 (map sk_t (news ++ repeat f 254))) (news ++ repeat f 254) (draws (sha512 E) (3 - 1) (spec_reseed sk seed1)))).
  { eapply (U_from pp 3 seed1 sk a (repeat f 254) [] a (repeat f 254) [3; 6; 9] 3); cbn [sk sec_cs sec_time sec_ssk].
    - reflexivity.
    - rewrite Hd. vm_compute. split; [reflexivity|discriminate].
    - reflexivity.
    - rewrite Hta. reflexivity.
    - split; [reflexivity|]. split; [constructor|]. exists [], a, (repeat f 254). split; [reflexivity|]. split; [reflexivity|].
      split; [rewrite Hta; discriminate|]. eapply Forall_impl; [|exact Hpost]. cbn beta. intros s ->. reflexivity.
    - rewrite Hta. discriminate.
    - rewrite Hd. apply tiling4. left. reflexivity.
    - exact Hm.
    - apply D_ok; [|left; reflexivity|exact Hn|exact Hnew].
      split; [right|split; [right|exact Hdr]].
      + intros (va & v & H1 & H2 & H3). rewrite Hta, Hd in *.
        rewrite (node_at_fun 4 1 va [] H1), (node_at_fun 4 3 v [1; 1] H2) in H3 by (apply node4; reflexivity). cbn [length] in H3. lia.
      + intros (va & H1 & H2). rewrite Hta, Hd in *.
        rewrite (node_at_fun 4 1 va [] H1) in H2 by (apply node4; reflexivity). cbn [length] in H2. lia. }
  destruct news as [|n1 [|n2 [|n3 [|]]]]; try discriminate Hn. clear Hn.
  assert (Ht1 : sk_t n1 = 3) by (destruct (Hnew 0%nat 3 n1 eq_refl eq_refl) as (va & w & _ & _ & ->); reflexivity).
  assert (Ht2 : sk_t n2 = 6) by (destruct (Hnew 1%nat 6 n2 eq_refl eq_refl) as (va & w & _ & _ & ->); reflexivity).
  assert (Ht3 : sk_t n3 = 9) by (destruct (Hnew 2%nat 9 n3 eq_refl eq_refl) as (va & w & _ & _ & ->); reflexivity).
  cbn [app map hd] in Hu. rewrite Ht1 in Hu.
  set (sk1 := SecKey (pp_cs pp) 3 (n1 :: n2 :: n3 :: repeat f 254) (draws (sha512 E) (3 - 1) (spec_reseed sk seed1))) in *.
  assert (Hd32 : (pp_depth pp <= 32)%nat) by lia.
  destruct (updated_wf L pp 3 seed1 sk sk1 Hpp Hd32 Hw Hu) as [Hw1 _].
  assert (Hl1 : (length (sec_ssk sk1) mod 256 = 1)%nat).
  { cbn [sk1 sec_ssk length]. rewrite repeat_length. reflexivity. }
  pose proof (read_back E L sk1 Hw1) as Hr. rewrite Hl1 in Hr. cbn [Nat.eqb] in Hr.
  assert (Hwc : wf_sk (cut sk1)) by (apply cut_wf; [exact Hw1|rewrite Hl1; discriminate]).
  pose proof (proj2 (update_any E L m pp 3 seed1 sk _ Hpp) Hu) as Hu1.
  exists sk1, (SecKey (pp_cs pp) 9 (n3 :: repeat f 254) (spec_reseed sk1 seed2)), (sk_blob true sk1).
  split; [exact Hu1|]. split; [|split].
  - apply (update_any E L m pp 9 seed2 sk1 _ Hpp).
    apply (U_exact pp 9 seed2 sk1 n1 (n2 :: n3 :: repeat f 254) [n1; n2] n3 (repeat f 254)); cbn [sk1 sec_cs sec_time sec_ssk].
    + reflexivity.
    + rewrite Hd. vm_compute. split; [reflexivity|discriminate].
    + reflexivity.
    + rewrite Ht1. reflexivity.
    + split; [reflexivity|]. split; [repeat constructor; rewrite ?Ht1, ?Ht2, Ht3; discriminate|].
      exists [n1; n2], n3, (repeat f 254). split; [reflexivity|]. split; [reflexivity|]. split; [rewrite Ht3; discriminate|].
      eapply Forall_impl; [|exact Hpost]. cbn beta. intros s ->. reflexivity.
    + exact Ht3.
  - rewrite (c_update_of L m pp _ seed1 3 sk), Hu1 by auto using wf_shaped. reflexivity.
  - rewrite (c_update_of L m pp _ seed2 9 (cut sk1)) by auto using wf_shaped.
    assert (Hc : cut sk1 = SecKey (pp_cs pp) 3 [n1] (sec_prng sk1)).
    { unfold cut. rewrite Hl1. reflexivity. }
    rewrite Hc.
    assert (Hb : update_result pp 9 seed2 (SecKey (pp_cs pp) 3 [n1] (sec_prng sk1))
      (Err E_TIME_NONE_PREFIX, SecKey (pp_cs pp) 3 [n1] (sec_prng sk1))).
    { eapply (U_from pp 9 seed2 _ n1 [] [] n1 [] [9] 0); cbn [sec_cs sec_time sec_ssk].
      - reflexivity.
      - rewrite Hd. vm_compute. split; [reflexivity|discriminate].
      - reflexivity.
      - rewrite Ht1. reflexivity.
      - split; [reflexivity|]. split; [constructor|]. exists [], n1, []. split; [reflexivity|]. split; [reflexivity|].
        split; [rewrite Ht1; discriminate|constructor].
      - rewrite Ht1. discriminate.
      - rewrite Hd. apply tiling4. right. reflexivity.
      - split; [apply Nat.le_0_l|constructor].
      - apply D_err; [split; [left; reflexivity|split; [left; apply Nat.le_0_l|intros i Hi; lia]]|].
        exists 9. split; [reflexivity|]. right. split; [constructor|]. rewrite Ht1. split; [|reflexivity].
        rewrite Hd. intros (va & w & _ & H1 & H2).
        rewrite (node_at_fun 4 3 va [1; 1] H1) in H2 by (apply node4; reflexivity).
        assert (He := node_at_fun 4 9 _ [2] H2 ltac:(apply node4; reflexivity)). discriminate He. }
    rewrite (proj2 (update_any E L m pp 9 seed2 _ _ Hpp) Hb). reflexivity.
Qed.
