(** Proofs for C128. *)
From Verif Require Import Base Env Time SpecTime SubKey SecretKey Keys Sig IO Serdes Api Ffi BufMem FfiBuf
  SpecKey SpecUpdate SpecSer SpecBuf SpecFfi SpecFfiBuf IOFacts SerFacts SerProps KeyFacts KeyProps SigProps FfiProps TimeFacts PrngFacts HistoryFacts SpecGrow GrowProps BufProps ProgProps ModeProps.
Local Open Scope N_scope.

Section buf.
Context {E : env}.
Implicit Types (P : bpolicy) (S : spolicy) (fr : list bytes) (k : seckey E).

Lemma to_vec_blob k b : to_vec (sk_serialize k true) = Ok b -> b = sk_blob true k.
Proof.
  unfold to_vec. rewrite sk_serialize_blob. destruct (valid_cs _); [|discriminate]. destruct (forallb _ _); [|discriminate].
  unfold sbind, sret. rewrite write_all_vec. cbn. intros [= <-]. reflexivity.
Qed.

(** The blocks a serialization of [k] may leave. *)
Definition pieces_of k (new : list bytes) : Prop :=
  forall x, In x new -> begins x (sk_blob true k) \/ exists s, In s (sec_ssk k) /\ begins x (ssk_blob true s).

Lemma sk_to_vec_spec P k fr :
  exists new, match to_vec (sk_serialize k true) with
  | Ok b => sk_to_vec_b P k fr = (Ok (VBuf b (Nat.max (length b) (bgrow P 0 (length b)))), new ++ fr)
      /\ pieces_of k new /\ ((forall n, bmoved P n = false) -> new = [])
      /\ sk_serialize_b P k true (vec_writer [], fr) = (Ok tt, (vec_writer b, new ++ fr))
  | Err _ => sk_to_vec_b P k fr = (Panic P_FFI, new ++ fr)
  | Panic p => sk_to_vec_b P k fr = (Panic p, new ++ fr)
  end.
Proof.
  destruct (serialize_b_result E P k true (vec_writer []) fr) as (new & H). exists new.
  pose proof (to_vec_blob k) as Hb. unfold to_vec in *. unfold sk_to_vec_b. rewrite H.
  destruct (sk_serialize k true (vec_writer [])) as [[[]|e|p] w] eqn:Hs; cbn [fst snd] in *; [|reflexivity..].
  split; [reflexivity|]. destruct (serialize_b_begins E P k true (vec_writer []) fr w (new ++ fr) H) as (new' & He & Hp & Hn).
  apply app_inv_tail in He. subst new'. split; [exact Hp|]. split; [exact Hn|]. f_equal. f_equal.
  pose proof (sk_serialize_blob k true) as Hq. rewrite Hq in Hs. destruct (valid_cs _); [|discriminate]. destruct (forallb _ _); [|discriminate].
  unfold sbind, sret in Hs. rewrite write_all_vec in Hs. injection Hs as <-. reflexivity.
Qed.

Lemma give_out_spec P S b fr : let n := length b in let v := VBuf b (Nat.max n (bgrow P 0 n)) in
  exists new, (moved_out P S n -> new = [b]) /\ (~ moved_out P S n -> new = [])
    /\ (no_spare P S n -> give_out S v fr = (Ok b, new ++ fr))
    /\ (~ no_spare P S n -> give_out S v fr = (Panic P_FFI, b :: new ++ fr)).
Proof.
  intros n v. unfold give_out, sbind, shrink_to_fit. subst v. cbn [vb_data vb_cap]. fold n. unfold moved_out, no_spare.
  destruct (Nat.max n (bgrow P 0 n) <=? n)%nat eqn:Hc.
  - apply Nat.leb_le in Hc. exists []. cbn [vb_data vb_cap]. fold n. replace (Nat.max n (bgrow P 0 n)) with n by lia. rewrite Nat.eqb_refl.
    repeat split; auto; intros H; try (exfalso; apply H; left; lia). lia.
  - apply Nat.leb_gt in Hc. replace (Nat.max n (bgrow P 0 n)) with (bgrow P 0 n) by lia. cbn [vb_data vb_cap]. fold n.
    exists (if smoved S (bgrow P 0 n) n then [b] else []). split; [intros [_ ->]; reflexivity|].
    split; [intros H; destruct (smoved _ _ _); [destruct H; split; [lia|reflexivity]|reflexivity]|].
    split; intros H.
    + replace (Nat.min (bgrow P 0 n) (Nat.max n (sfit S (bgrow P 0 n) n))) with n by lia. rewrite Nat.eqb_refl.
      destruct (smoved _ _ _); reflexivity.
    + destruct (n =? _)%nat eqn:He; [apply Nat.eqb_eq in He; destruct H; lia|]. destruct (smoved _ _ _); reflexivity.
Qed.

Lemma no_spare_dec P S n : no_spare P S n \/ ~ no_spare P S n.
Proof. unfold no_spare. lia. Qed.
Lemma moved_out_dec P S n : moved_out P S n \/ ~ moved_out P S n.
Proof. unfold moved_out. destruct (smoved S (bgrow P 0 n) n); [destruct (Nat.lt_ge_cases n (bgrow P 0 n)); [left; auto|right; lia]|right; intros [_ H]; discriminate]. Qed.
Lemma not_begins_self (b : bytes) : ~ begins b b.
Proof. intros (c & Hc & Hn). apply Hn. apply (app_inv_head b). rewrite app_nil_r. symmetry. exact Hc. Qed.

Lemma hand_over P S k fr b : to_vec (sk_serialize k true) = Ok b ->
  exists new n1, handed P S k b (fst ((do! v <- sk_to_vec_b P k; give_out S v) fr)) new
    /\ snd ((do! v <- sk_to_vec_b P k; give_out S v) fr) = new ++ fr
    /\ sk_serialize_b P k true (vec_writer [], fr) = (Ok tt, (vec_writer b, n1 ++ fr)) /\ (forall x, In x n1 -> In x new).
Proof.
  intros Hb. pose proof (to_vec_blob k b Hb) as Eb. destruct (sk_to_vec_spec P k fr) as (n1 & H). rewrite Hb in H. destruct H as (H & Hp & Hn & Hser).
  unfold sbind. rewrite H. destruct (give_out_spec P S b (n1 ++ fr)) as (n2 & M1 & M2 & G1 & G2).
  unfold pieces_of in Hp. rewrite <- Eb in Hp. unfold handed.
  destruct (no_spare_dec P S (length b)) as [Hs|Hs].
  - rewrite (G1 Hs). cbn [fst snd]. exists (n2 ++ n1), n1. rewrite <- app_assoc. split; [|split; [reflexivity|]; split; [exact Hser|]; intros x Hx; apply in_or_app; auto].
    split; [auto|]. split; [intros Hc; destruct (Hc Hs)|]. split; [intros Hm; rewrite (M1 Hm); left; reflexivity|].
    split; [|split].
    + intros x Hx. apply in_app_or in Hx as [Hx|Hx]; [|right; apply Hp, Hx]. left. destruct (moved_out_dec P S (length b)) as [Hm|Hm].
      * rewrite (M1 Hm) in Hx. destruct Hx as [<-|[]]. reflexivity.
      * rewrite (M2 Hm) in Hx. destruct Hx.
    + intros Hx. apply in_app_or in Hx as [Hx|Hx].
      * destruct (moved_out_dec P S (length b)) as [Hm|Hm]; [left; exact Hm|]. rewrite (M2 Hm) in Hx. destruct Hx.
      * destruct (Hp b Hx) as [Hb'|Hb']; [destruct (not_begins_self b Hb')|auto].
    + intros Hm Hm' _. rewrite (Hn Hm), (M2 Hm'). reflexivity.
  - rewrite (G2 Hs). cbn [fst snd]. exists (b :: n2 ++ n1), n1. cbn [app]. rewrite <- app_assoc.
    split; [|split; [reflexivity|]; split; [exact Hser|]; intros x Hx; right; apply in_or_app; auto].
    split; [intros Hc; destruct (Hs Hc)|]. split; [intros _; split; [reflexivity|left; reflexivity]|]. split; [intros _; left; reflexivity|].
    split; [|split].
    + intros x [<-|Hx]; [auto|]. apply in_app_or in Hx as [Hx|Hx]; [|right; apply Hp, Hx]. left. destruct (moved_out_dec P S (length b)) as [Hm|Hm].
      * rewrite (M1 Hm) in Hx. destruct Hx as [<-|[]]. reflexivity.
      * rewrite (M2 Hm) in Hx. destruct Hx.
    + auto.
    + intros _ _ Hc. destruct (Hs Hc).
Qed.
Lemma hand_over_fails P S k fr : (forall b, to_vec (sk_serialize k true) <> Ok b) ->
  exists new, (do! v <- sk_to_vec_b P k; give_out S v) fr
    = (match to_vec (sk_serialize k true) with Panic p => Panic p | _ => Panic P_FFI end, new ++ fr).
Proof.
  intros Hb. destruct (sk_to_vec_spec P k fr) as (n1 & H). exists n1. unfold sbind.
  destruct (to_vec (sk_serialize k true)) as [b|e|p]; [destruct (Hb b eq_refl)|rewrite H; reflexivity..].
Qed.
End buf.

(** * The calls *)
Lemma update_b_eq {E} P S m (pp : pubparam E) skb seed t fr :
  c_sk_update_b P S m pp skb seed t fr
  = match (let! k := or_panic (from_slice (sk_deserialize true) skb) in or_panic (run_mut (update m pp t seed) k)) with
    | Ok k' => (do! v <- sk_to_vec_b P k'; give_out S v) fr
    | Err e => (Err e, fr)
    | Panic p => (Panic p, fr)
    end.
Proof.
  unfold c_sk_update_b. destruct (or_panic (from_slice (sk_deserialize true) skb)) as [k|e|p]; [|reflexivity..]. cbn [bind].
  unfold sbind at 1. unfold slift at 1. unfold sbind at 1, slift. destruct (or_panic (run_mut (update m pp t seed) k)); reflexivity.
Qed.
Lemma update_outcome : forall (E : env) P S m (pp : pubparam E) skb seed t fr,
  exists new, snd (c_sk_update_b P S m pp skb seed t fr) = new ++ fr
  /\ match c_sk_update m pp skb seed t with
     | Ok b => exists k : seckey E, b = sk_blob true k /\ handed P S k b (fst (c_sk_update_b P S m pp skb seed t fr)) new
     | r => fst (c_sk_update_b P S m pp skb seed t fr) = r
     end.
Proof.
  intros E P S m pp skb seed t fr. rewrite update_b_eq. unfold c_sk_update.
  destruct (or_panic (from_slice (sk_deserialize true) skb)) as [k|e|p]; cbn [bind]; [|exists []; cbn; auto..].
  destruct (or_panic (run_mut (update m pp t seed) k)) as [k'|e|p]; cbn [bind]; [|exists []; cbn; auto..].
  destruct (to_vec (sk_serialize k' true)) as [b|e|p] eqn:Hb; cbn [or_panic].
  - destruct (hand_over P S k' fr b Hb) as (new & _ & H1 & H2 & _). exists new. split; [exact H2|]. exists k'. split; [apply to_vec_blob, Hb|exact H1].
  - destruct (hand_over_fails P S k' fr) as (new & H); [congruence|]. rewrite Hb in H. rewrite H. exists new. auto.
  - destruct (hand_over_fails P S k' fr) as (new & H); [congruence|]. rewrite Hb in H. rewrite H. exists new. auto.
Qed.

(** [key_gen] with what is known of its results. *)
Lemma keygen_b_eq {E} (L : env_laws E) P S (pp : pubparam E) seed fr : pp_ok pp -> (pp_depth pp <= 32)%nat ->
  c_keygen_b P S pp seed fr
  = match key_gen seed pp with
    | Ok (pk, sk, pop) =>
      let (r, fr') := (do! v <- sk_to_vec_b P sk; give_out S v) fr in (let! skb := r in Ok (pk_blob true pk, skb, pop_blob true pop), fr')
    | _ => (Panic P_FFI, fr)
    end.
Proof.
  intros Hpp Hd. unfold c_keygen_b. destruct (key_gen seed pp) as [[[pk sk] pop]|e|p] eqn:Hk; cbn [or_panic]; [|reflexivity|].
  2:{ exfalso. destruct (Nat.lt_ge_cases (length seed) 32) as [Hs|Hs]; [rewrite key_gen_short in Hk by exact Hs; discriminate|].
      destruct (valid_cs (pp_cs pp)) eqn:Hcs; [rewrite (key_gen_spec L) in Hk by auto|rewrite key_gen_bad_cs in Hk by auto]; discriminate. }
  destruct (keygen_representable E L pp seed pk sk pop Hpp Hk) as [Hwk Hwp].
  destruct (pk_roundtrip E L true pk Hwk) as (H1 & Hl1 & _). destruct (pop_roundtrip E L true pop Hwp) as (H2 & Hl2 & _).
  unfold sbind at 1, slift at 1. rewrite H1. cbn [or_panic]. unfold sbind at 1, slift. rewrite H2. cbn [or_panic bind].
  rewrite (copy_ok PK_LEN) by exact Hl1. cbn [bind]. rewrite (copy_ok POP_LEN) by exact Hl2. cbn [bind].
  unfold sbind. destruct (sk_to_vec_b P sk fr) as [[v|e|p] fr']; [|reflexivity..].
  destruct (give_out S v fr') as [[b|e|p] fr'']; reflexivity.
Qed.
Lemma keygen_outcome : forall (E : env) (L : env_laws E) P S (pp : pubparam E) seed fr,
  pp_ok pp -> (pp_depth pp <= 32)%nat ->
  match key_gen seed pp with
  | Ok (pk, sk, pop) => exists r new, handed P S sk (sk_blob true sk) r new
      /\ c_keygen_b P S pp seed fr = (let! skb := r in Ok (pk_blob true pk, skb, pop_blob true pop), new ++ fr)
  | _ => c_keygen_b P S pp seed fr = (Panic P_FFI, fr)
  end.
Proof.
  intros E L P S pp seed fr Hpp Hd. rewrite (keygen_b_eq L) by assumption.
  destruct (key_gen seed pp) as [[[pk sk] pop]|e|p] eqn:Hk; [|reflexivity..].
  assert (Hr : reachable Debug pp pk sk) by (exists seed, sk, pop, []; auto).
  destruct (sk_roundtrip E L true sk (reachable_sk_representable E L Debug pp pk sk Hpp Hd Hr)) as (Hb & _ & _).
  destruct (hand_over P S sk fr _ Hb) as (new & _ & H1 & H2 & _).
  destruct ((do! v <- sk_to_vec_b P sk; give_out S v) fr) as [r fr'] eqn:He. cbn [fst snd] in *.
  exists r, new. split; [exact H1|]. rewrite H2. reflexivity.
Qed.

(** With the growth of std there is never spare capacity. *)
Lemma thrifty_exact P S n : thrifty P -> (8 <= n)%nat -> no_spare P S n /\ ~ moved_out P S n.
Proof. intros HP Hn. pose proof (HP 0%nat n). unfold no_spare, moved_out. lia. Qed.
Lemma reachable_blob_long {E} (L : env_laws E) m (pp : pubparam E) pk sk : pp_ok pp -> (pp_depth pp <= 32)%nat -> reachable m pp pk sk ->
  (66 <= length (sk_blob true sk))%nat.
Proof.
  intros Hpp Hd Hr. pose proof (wsk_prng _ (reachable_sk_representable E L m pp pk sk Hpp Hd Hr)) as Hl.
  unfold sk_blob. rewrite !app_length. cbn [length]. unfold Prng.prng, bytes in *. rewrite Hl. lia.
Qed.
Lemma std_same : forall (E : env) (L : env_laws E) P S m m' (pp : pubparam E) pk sk kseed seed t fr,
  pp_ok pp -> (pp_depth pp <= 32)%nat -> thrifty P -> reachable m pp pk sk ->
  fst (c_keygen_b P S pp kseed fr) = c_keygen pp kseed
  /\ fst (c_sk_update_b P S m' pp (sk_blob true sk) seed t fr) = c_sk_update m' pp (sk_blob true sk) seed t.
Proof.
  intros E L P S m m' pp pk sk kseed seed t fr Hpp Hd HP Hr. split.
  - pose proof (keygen_outcome E L P S pp kseed fr Hpp Hd) as H. pose proof (c_keygen_blobs E L pp kseed Hpp Hd) as Hc.
    destruct (key_gen kseed pp) as [[[pk1 sk1] pop]|e|p] eqn:Hk; [|rewrite H; symmetry; apply Hc..].
    assert (Hr1 : reachable Debug pp pk1 sk1) by (exists kseed, sk1, pop, []; auto).
    pose proof (reachable_blob_long L Debug pp pk1 sk1 Hpp Hd Hr1) as Hl.
    destruct H as (r & new & (Hn & _) & ->). rewrite Hn by (apply thrifty_exact; [exact HP|lia]). cbn [bind fst]. symmetry. exact Hc.
  - destruct (update_outcome E P S m' pp (sk_blob true sk) seed t fr) as (new & _ & H).
    rewrite (c_update_blobs E L m m' pp pk sk t seed Hpp Hd Hr) in *.
    destruct (update m' pp t seed sk) as [[[]|e|p] sk1] eqn:Hu; [|exact H..].
    destruct H as (k & Hb & Hn & _). apply Hn. apply thrifty_exact; [exact HP|].
    assert (Hr1 : reachable m' pp pk sk1).
    { eapply reachable_update; [|exact Hu]. apply (reachable_mode E L m m'); assumption. }
    pose proof (reachable_blob_long L m' pp pk sk1 Hpp Hd Hr1). lia.
Qed.

(** What the freed blocks are good for. *)
Lemma reachable_pk_wf {E} (L : env_laws E) m (pp : pubparam E) pk sk : pp_ok pp -> reachable m pp pk sk -> wf_pk pk.
Proof. intros Hpp (seed & sk0 & pop & ops & Hk & _). apply (keygen_representable E L pp seed pk sk0 pop Hpp Hk). Qed.
Lemma block_signs {E} (L : env_laws E) P S m (pp : pubparam E) pk sk v fr b fr' :
  pp_ok pp -> (pp_depth pp <= 32)%nat -> reachable m pp pk sk -> node_at (pp_depth pp) (sec_time sk) v -> In 1 v ->
  thrifty P -> (forall n, bmoved P n = true) -> (do! x <- sk_to_vec_b P sk; give_out S x) fr = (Ok b, fr') ->
  exists x, In x fr' /\ signs_as pp (pk_blob true pk) (sk_blob true sk) (sec_time sk) x.
Proof.
  intros Hpp Hd Hr Hn H1 HP Hm He.
  pose proof (reachable_sk_representable E L m pp pk sk Hpp Hd Hr) as Hw.
  destruct (sk_roundtrip E L true sk Hw) as (Hb & _ & _).
  destruct (hand_over P S sk fr _ Hb) as (new & n1 & _ & H2 & H3 & H4). rewrite He in H2. cbn [snd] in H2. subst fr'.
  destruct (key_nodes E L m pp pk sk v Hpp Hr Hn) as [_ Hlen].
  assert (Hl : (1 <= lefts v)%nat).
  { unfold lefts. assert (Hin : In 1 (filter (N.eqb 1) v)) by (apply filter_In; split; [exact H1|reflexivity]). destruct (filter (N.eqb 1) v); [destruct Hin|cbn; lia]. }
  destruct (sec_ssk sk) as [|s l] eqn:Es; [cbn in Hlen; lia|].
  assert (Hne : l <> []) by (intros ->; cbn in Hlen; lia).
  destruct (serialize_leaves_blocks E L P sk true _ fr _ _ s l HP (wsk_prng _ Hw) Es H3) as [_ Hx].
  exists (firstn (66 + length (ssk_blob true s)) (sk_blob true sk)). split.
  { specialize (Hx Hne (Hm _)). apply in_app_or in Hx as [Hx|Hx]; apply in_or_app; [left; apply H4, Hx|right; exact Hx]. }
  intros m' msg. rewrite (first_block true sk s l (wsk_prng _ Hw) Es).
  assert (Heq : c_sign_present m' pp (sk_blob true (first_only sk)) msg (sec_time sk) = c_sign_present m' pp (sk_blob true sk) msg (sec_time sk)).
  { unfold c_sign_present. rewrite (slice_sk L), (slice_sk L) by (try apply first_only_wf; exact Hw). cbn [or_panic bind]. rewrite first_only_signs. reflexivity. }
  rewrite Heq. rewrite (c_sign_blobs E L m m' pp pk sk (sec_time sk) msg Hpp Hd Hr).
  destruct (reachable_good L m pp pk sk Hpp Hr) as (x & _ & Hpk & Hg & Hcs).
  pose proof (sign_present_cases L m' pp x sk (sec_time sk) msg Hpp Hcs Hg) as Hs. rewrite N.eqb_refl in Hs.
  destruct Hs as (sg & Hs & Hgs). rewrite Hs. cbn [fst]. exists (sig_blob true sg). split; [reflexivity|]. split; [reflexivity|].
  assert (Hst : step m' pp (OpSignPresent (sec_time sk) msg) sk = (Ok (Some sg), sk)) by (cbn [step]; unfold sbind; rewrite Hs; reflexivity).
  pose proof (reachable_sig_representable E L m' pp pk sk _ sg sk Hpp Hd (reachable_mode E L m m' pp pk sk Hpp Hr) Hst) as Hws.
  rewrite (c_verify_blobs E L m' pp pk sg msg (reachable_pk_wf L m pp pk sk Hpp Hr) Hws), Hpk.
  apply (good_sig_verifies L m' pp x (sec_time sk) msg sg); auto.
Qed.

Lemma updates_grow {E} P S m (pp : pubparam E) : forall l b fr r fr', c_updates_b P S m pp l b fr = (r, fr') -> exists new, fr' = new ++ fr.
Proof.
  induction l as [|[t seed] l IH]; intros b fr r fr'; cbn [c_updates_b].
  - intros [= _ <-]. exists []. reflexivity.
  - unfold sbind. destruct (update_outcome E P S m pp b seed t fr) as (n1 & H1 & _).
    destruct (c_sk_update_b P S m pp b seed t fr) as [[b1|e|p] fr1]; cbn [snd] in H1; subst fr1.
    2,3: intros [= _ <-]; eauto.
    destruct (c_updates_b P S m pp l b1 (n1 ++ fr)) as [r2 fr2] eqn:H2. apply IH in H2 as (n2 & ->).
    destruct r2; unfold sret; intros [= _ <-]; exists (n2 ++ n1); apply app_assoc.
Qed.

Definition all_sign {E} (pp : pubparam E) pkb (bs fr : list bytes) : Prop :=
  forall b, In b bs -> exists k : seckey E, from_slice (sk_deserialize true) b = Ok k
    /\ forall v, node_at (pp_depth pp) (sec_time k) v -> In 1 v -> exists x, In x fr /\ signs_as pp pkb b (sec_time k) x.
Lemma updates_sign {E} (L : env_laws E) P S m (pp : pubparam E) pk : pp_ok pp -> (pp_depth pp <= 32)%nat -> thrifty P -> (forall n, bmoved P n = true) ->
  forall l sk fr bs fr', reachable m pp pk sk -> c_updates_b P S m pp l (sk_blob true sk) fr = (Ok bs, fr') ->
  (forall v, node_at (pp_depth pp) (sec_time sk) v -> In 1 v -> exists x, In x fr /\ signs_as pp (pk_blob true pk) (sk_blob true sk) (sec_time sk) x) ->
  all_sign pp (pk_blob true pk) bs fr'.
Proof.
  intros Hpp Hd HP Hm. induction l as [|[t seed] l IH]; intros sk fr bs fr' Hr He Hx b Hb; pose proof (updates_grow P S m pp _ _ _ _ _ He) as (gr & Hgr); cbn [c_updates_b] in He.
  - injection He as He _. subst bs. destruct Hb as [<-|[]]. exists sk. split; [apply (slice_sk L), (reachable_sk_representable E L m pp pk sk Hpp Hd Hr)|].
    intros v Hv H1. destruct (Hx v Hv H1) as (x & Hi & Hs). exists x. split; [|exact Hs]. rewrite Hgr. apply in_or_app. right. exact Hi.
  - unfold sbind in He. destruct (c_sk_update_b P S m pp (sk_blob true sk) seed t fr) as [[b1|e|p] fr1] eqn:Hu; [|discriminate..].
    destruct (c_updates_b P S m pp l b1 fr1) as [[r2|e|p] fr2] eqn:H2; [|discriminate..]. unfold sret in He.
    assert (E1 : bs = sk_blob true sk :: r2) by congruence. assert (E2 : fr2 = fr') by congruence. subst fr2. clear He. subst bs.
    destruct Hb as [<-|Hb].
    { exists sk. split; [apply (slice_sk L), (reachable_sk_representable E L m pp pk sk Hpp Hd Hr)|].
      intros v Hv H1. destruct (Hx v Hv H1) as (x & Hi & Hs). exists x. split; [|exact Hs]. rewrite Hgr. apply in_or_app. right. exact Hi. }
    rewrite update_b_eq in Hu. rewrite (slice_sk L) in Hu by (apply (reachable_sk_representable E L m pp pk sk Hpp Hd Hr)).
    cbn [or_panic bind] in Hu. unfold run_mut in Hu. destruct (update m pp t seed sk) as [[[]|e|p] sk1] eqn:Hup; cbn [bind or_panic] in Hu; [|discriminate..].
    pose proof (reachable_update m pp pk sk t seed sk1 Hr Hup) as Hr1.
    destruct (sk_roundtrip E L true sk1 (reachable_sk_representable E L m pp pk sk1 Hpp Hd Hr1)) as (Hb1 & _ & _).
    destruct (hand_over P S sk1 fr _ Hb1) as (new & n1 & (Hok & _) & _).
    rewrite Hu in Hok. cbn [fst] in Hok.
    specialize (Hok (proj1 (thrifty_exact P S (length (sk_blob true sk1)) HP ltac:(pose proof (reachable_blob_long L m pp pk sk1 Hpp Hd Hr1); lia)))).
    injection Hok as Hok. subst b1.
    apply (IH sk1 fr1 r2 fr' Hr1 H2); [|exact Hb].
    intros v Hv H1. exact (block_signs L P S m pp pk sk1 v fr _ fr1 Hpp Hd Hr1 Hv H1 HP Hm Hu).
Qed.
Lemma wiping_no_help : forall (E : env) (L : env_laws E) P S m (pp : pubparam E) seed pkb skb popb l bs fr fr1 fr',
  pp_ok pp -> (pp_depth pp <= 32)%nat -> thrifty P -> (forall n, bmoved P n = true) ->
  c_keygen_b P S pp seed fr = (Ok (pkb, skb, popb), fr1) -> c_updates_b P S m pp l skb fr1 = (Ok bs, fr') ->
  forall b, In b bs -> exists k : seckey E, from_slice (sk_deserialize true) b = Ok k
    /\ forall v, node_at (pp_depth pp) (sec_time k) v -> In 1 v -> exists x, In x fr' /\ signs_as pp pkb b (sec_time k) x.
Proof.
  intros E L P S m pp seed pkb skb popb l bs fr fr1 fr' Hpp Hd HP Hm Hk Hu.
  rewrite (keygen_b_eq L) in Hk by assumption. destruct (key_gen seed pp) as [[[pk sk] pop]|e|p] eqn:Hg; [|discriminate..].
  assert (Hr : reachable m pp pk sk) by (exists seed, sk, pop, []; auto).
  destruct (sk_roundtrip E L true sk (reachable_sk_representable E L m pp pk sk Hpp Hd Hr)) as (Hb1 & _ & _).
  destruct (hand_over P S sk fr _ Hb1) as (new & n1 & (Hok & _) & _).
  destruct ((do! v <- sk_to_vec_b P sk; give_out S v) fr) as [r0 f0] eqn:He. cbn [fst] in Hok.
  specialize (Hok (proj1 (thrifty_exact P S (length (sk_blob true sk)) HP ltac:(pose proof (reachable_blob_long L m pp pk sk Hpp Hd Hr); lia)))). subst r0.
  cbn [bind] in Hk. injection Hk as K1 K2 K3 K4. subst pkb skb popb f0.
  apply (updates_sign L P S m pp pk Hpp Hd HP Hm l sk fr1 bs fr' Hr Hu).
  intros v Hv H1. exact (block_signs L P S m pp pk sk v fr _ fr1 Hpp Hd Hr Hv H1 HP Hm He).
Qed.
