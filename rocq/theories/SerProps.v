(** Lemmas behind Properties_Ser.v: serialization. *)
From Verif Require Import Base Env NMod GroupFacts Time SpecTime TimeFacts TimeProps Hkdf Prng SpecPrng PrngFacts
  SubKey SecretKey Keys Sig IO Serdes Api SpecKey SubKeyFacts SpecUpdate UpdateFacts KeyFacts SpecSer IOFacts SerFacts
  HistoryFacts SpecSig SpecDerive SubProps SigProps.
From Coq Require Import ZifyBool ZifyNat ZifyN.
Local Open Scope N_scope.
Local Arguments N.add : simpl never.
Local Arguments N.mul : simpl never.
Local Arguments N.sub : simpl never.
Local Arguments pow2 : simpl never.

(** * Reading a blob back *)
Lemma parses_read {A} (P : reader -> Prop) (f : st reader A) p r blob rest x :
  P r -> parses P f p -> content r = blob ++ rest -> p (blob ++ rest) = Ok (x, rest) ->
  exists r', f r = (Ok x, r') /\ content r' = rest.
Proof.
  intros Hr Hf Hc Hp. specialize (Hf r Hr). rewrite Hc, Hp in Hf. destruct Hf as (r' & Hf & _ & Hc'). eauto.
Qed.

(** C29 *)
Lemma sig_roundtrip : forall (E : env) (L : env_laws E) (s : signature E),
  wf_sig s ->
  to_vec (sig_serialize s true) = Ok (sig_blob true s) /\ length (sig_blob true s) = 149%nat
  /\ forall r rest, content r = sig_blob true s ++ rest ->
     exists r', sig_deserialize true r = (Ok s, r') /\ content r' = rest.
Proof.
  intros E L s Hw. split; [|split].
  - apply aon_to_vec. pose proof (sig_aon s true) as H.
    rewrite (proj2 (valid_cs_supported _) (wsig_cs _ Hw)) in H. pose proof (wsig_time _ Hw).
    replace (sig_time s <? 2^32) with true in H by lia. exact H.
  - unfold sig_blob. cbn [length]. rewrite !app_length, (lc1_len E L), (lc2_len E L), be4_len. reflexivity.
  - intros r rest Hc. apply (parses_read (fun _ => True) _ (p_sig true) r (sig_blob true s) rest s I);
      [apply parses_sig, rclass_any|exact Hc|]. apply (p_sig_blob L), Hw.
Qed.

Lemma reachable_sig_representable : forall (E : env) (L : env_laws E) m (pp : pubparam E) pk sk o s sk',
  pp_ok pp -> (pp_depth pp <= 32)%nat -> reachable m pp pk sk -> step m pp o sk = (Ok (Some s), sk') -> wf_sig s.
Proof.
  intros E L m pp pk sk o s sk' Hpp Hd Hr H.
  destruct (reachable_good L m pp pk sk Hpp Hr) as (x & _ & _ & Hg & Hcs).
  destruct (step_signature L m m pp x o sk s sk' 0 Hpp Hcs Hg H) as (t & msg & _ & Hv & _ & _).
  apply (verify_spec L) in Hv as (Hc & Hc' & H1 & H2 & v & Hn & _); [|exact Hpp|apply (g2_mul_insub L), Hpp].
  apply node_at_range in Hn. unfold last_time in Hn. pose proof (pow2_le _ _ Hd). change (pow2 32) with (2^32) in *.
  constructor; auto; [|lia]. rewrite Hc'. apply valid_cs_supported, Hc.
Qed.

(** C30 *)
Lemma ssk_blob_len {E} (L : env_laws E) c (s : subkey E) :
  length (ssk_blob c s) = (5 + g2_size c + g1_size c + length (sk_hvec s) * g1_size c)%nat.
Proof.
  unfold ssk_blob. rewrite !app_length, be4_len, (lc1_len E L), (lc2_len E L). cbn [length].
  assert (H : forall l : list (G1 E), length (concat (map (g1_enc c) l)) = (length l * g1_size c)%nat).
  { induction l as [|a l IH]; cbn [map concat length]; [reflexivity|]. rewrite app_length, IH, (lc1_len E L). lia. }
  rewrite H. lia.
Qed.
Lemma sk_blob_len {E} (L : env_laws E) c (sk : seckey E) :
  length (sec_prng sk) = 64%nat -> length (sk_blob c sk) = sk_bytes c (map (fun s => length (sk_hvec s)) (sec_ssk sk)).
Proof.
  intros Hp. unfold sk_blob, sk_bytes. rewrite !app_length, Hp. cbn [length].
  assert (H : forall l : list (subkey E), length (concat (map (ssk_blob c) l))
     = fold_right (fun n acc => 5 + g2_size c + g1_size c + n * g1_size c + acc)%nat 0%nat (map (fun s => length (sk_hvec s)) l)).
  { induction l as [|a l IH]; cbn [map concat fold_right length]; [reflexivity|]. rewrite app_length, IH, (ssk_blob_len L). lia. }
  rewrite H. lia.
Qed.
Lemma sk_size_bytes {E} (sk : seckey E) : sk_size sk = sk_bytes true (map (fun s => length (sk_hvec s)) (sec_ssk sk)).
Proof.
  rewrite sk_size_spec. reflexivity.
Qed.

Lemma sk_ok_bool {E} (sk : seckey E) : wf_sk sk ->
  valid_cs (sec_cs sk) && forallb (fun s => sk_t s <=? 2^32) (sec_ssk sk) = true.
Proof.
  intros Hw. rewrite (proj2 (valid_cs_supported _) (wsk_cs _ Hw)). apply forallb_forall. intros s Hs.
  pose proof (proj1 (Forall_forall _ _) (wsk_ssk _ Hw) s Hs) as [Ht _ _ _ _]. lia.
Qed.

Lemma sk_roundtrip : forall (E : env) (L : env_laws E) c (sk : seckey E),
  wf_sk sk ->
  to_vec (sk_serialize sk c) = Ok (sk_blob c sk)
  /\ length (sk_blob true sk) = sk_size sk
  /\ forall r rest, calm r -> content r = sk_blob c sk ++ rest ->
     exists r', sk_deserialize c r = (Ok sk, r') /\ content r' = rest.
Proof.
  intros E L c sk Hw. split; [|split].
  - apply aon_to_vec. pose proof (sk_aon sk c) as H. rewrite (sk_ok_bool sk Hw) in H. exact H.
  - rewrite (sk_blob_len L) by apply Hw. symmetry. apply sk_size_bytes.
  - intros r rest Hr Hc. apply (parses_read calm _ (p_sk c) r (sk_blob c sk) rest sk Hr);
      [apply parses_sk|exact Hc|]. apply (p_sk_blob L), Hw.
Qed.

Lemma reachable_sk_representable : forall (E : env) (L : env_laws E) m (pp : pubparam E) pk sk,
  pp_ok pp -> (pp_depth pp <= 32)%nat -> reachable m pp pk sk -> wf_sk sk.
Proof.
  intros E L m pp pk sk Hpp Hd Hr. destruct (reachable_good L m pp pk sk Hpp Hr) as (x & _ & _ & Hg & Hcs).
  apply (good_wf L pp x); auto.
Qed.

(** C31 *)
Lemma pk_roundtrip : forall (E : env) (L : env_laws E) c (pk : pubkey E),
  wf_pk pk ->
  to_vec (pk_serialize pk c) = Ok (pk_blob c pk) /\ length (pk_blob true pk) = 49%nat
  /\ forall r rest, content r = pk_blob c pk ++ rest ->
     exists r', pk_deserialize c r = (Ok pk, r') /\ content r' = rest.
Proof.
  intros E L c pk Hw. split; [|split].
  - apply aon_to_vec. pose proof (pk_aon pk c) as H. rewrite (proj2 (valid_cs_supported _) (wpk_cs _ Hw)) in H. exact H.
  - unfold pk_blob. cbn [length]. rewrite (lc2_len E L). reflexivity.
  - intros r rest Hc. apply (parses_read (fun _ => True) _ (p_pk c) r (pk_blob c pk) rest pk I);
      [apply parses_pk, rclass_any|exact Hc|]. apply (p_pk_blob L), Hw.
Qed.
Lemma pop_roundtrip : forall (E : env) (L : env_laws E) c (x : proof E),
  wf_pop x ->
  to_vec (pop_serialize x c) = Ok (pop_blob c x) /\ length (pop_blob true x) = 97%nat
  /\ forall r rest, content r = pop_blob c x ++ rest ->
     exists r', pop_deserialize c r = (Ok x, r') /\ content r' = rest.
Proof.
  intros E L c x Hw. split; [|split].
  - apply aon_to_vec. pose proof (pop_aon x c) as H. rewrite (proj2 (valid_cs_supported _) (wpop_cs _ Hw)) in H. exact H.
  - unfold pop_blob. cbn [length]. rewrite (lc1_len E L). reflexivity.
  - intros r rest Hc. apply (parses_read (fun _ => True) _ (p_pop c) r (pop_blob c x) rest x I);
      [apply parses_pop, rclass_any|exact Hc|]. apply (p_pop_blob L), Hw.
Qed.
Lemma keygen_representable : forall (E : env) (L : env_laws E) (pp : pubparam E) seed pk sk pop,
  pp_ok pp -> key_gen seed pp = Ok (pk, sk, pop) -> wf_pk pk /\ wf_pop pop.
Proof.
  intros E L pp seed pk sk pop Hpp H. destruct (Nat.lt_ge_cases (length seed) 32) as [Hs|Hs].
  { rewrite key_gen_short in H by exact Hs. discriminate. }
  destruct (valid_cs (pp_cs pp)) eqn:Hcs.
  2:{ rewrite key_gen_bad_cs in H by auto. discriminate. }
  rewrite (key_gen_spec L) in H by auto. injection H as <- <- <-.
  split; constructor; cbn [pk_cs pk_pk pop_cs pop_pop]; try (apply valid_cs_supported, Hcs).
  - apply (g2_mul_insub L), Hpp.
  - apply (lb_sub E L).
Qed.

(** C32 *)
Lemma sbind_inv {S A B} (f : st S A) (k : A -> st S B) s y s' :
  sbind f k s = (Ok y, s') -> exists x s1, f s = (Ok x, s1) /\ k x s1 = (Ok y, s').
Proof. unfold sbind. destruct (f s) as [[a| |] s1]; try discriminate. eauto. Qed.
Lemma read_exact_inv n r b r' : read_exact n r = (Ok b, r') ->
  length b = n /\ (length (content r') + n = length (content r))%nat.
Proof.
  intros H. destruct (Nat.le_gt_cases n (length (content r))) as [Hn|Hn].
  - destruct (read_exact_ok _ rclass_any r n I Hn) as (r1 & H1 & _ & Hc). rewrite H in H1. injection H1 as -> <-.
    rewrite firstn_length, Hc, skipn_length. lia.
  - destruct (read_exact_err r n Hn) as (r1 & H1). congruence.
Qed.
Lemma g1_read_inv {E : env} c r (x : G1 E) r' : g1_read c r = (Ok x, r') ->
  (length (content r') + g1_size c = length (content r))%nat.
Proof.
  intros H. apply sbind_inv in H as (b & r1 & H1 & H). apply read_exact_inv in H1 as [_ H1].
  unfold slift in H. injection H as _ <-. exact H1.
Qed.
Lemma g2_read_inv {E : env} c r (x : G2 E) r' : g2_read c r = (Ok x, r') ->
  (length (content r') + g2_size c = length (content r))%nat.
Proof.
  intros H. apply sbind_inv in H as (b & r1 & H1 & H). apply read_exact_inv in H1 as [_ H1].
  unfold slift in H. injection H as _ <-. exact H1.
Qed.

Lemma sig_deserialize_checked : forall (E : env) (c : bool) r,
  is_panic (fst (@sig_deserialize E c r)) = false
  /\ forall s r', @sig_deserialize E c r = (Ok s, r') ->
     supported (sig_cs s) /\ 1 <= sig_time s /\ (length (content r') + 149 = length (content r))%nat.
Proof.
  intros E c r. split; [apply np_sig|]. intros s r' H. unfold sig_deserialize in H.
  apply sbind_inv in H as (k & r1 & H1 & H). apply read_exact_inv in H1 as [_ H1].
  apply sbind_inv in H as (tb & r2 & H2 & H). apply read_exact_inv in H2 as [_ H2]. cbv zeta in H.
  destruct (N.eqb_spec (from_be4 tb) 0) as [Ht|Ht]; [discriminate|].
  destruct (valid_cs (nth 0 k 0)) eqn:Hcs; cbn [negb] in H; [|discriminate].
  apply sbind_inv in H as (s1 & r3 & H3 & H). apply g2_read_inv in H3.
  destruct c; cbn [negb] in H; [|discriminate].
  apply sbind_inv in H as (s2 & r4 & H4 & H). apply g1_read_inv in H4. injection H as <- <-.
  cbn [sig_cs sig_time]. split; [apply valid_cs_supported, Hcs|]. unfold g1_size, g2_size in *. lia.
Qed.

Lemma pk_deserialize_checked : forall (E : env) (c : bool) r,
  is_panic (fst (@pk_deserialize E c r)) = false
  /\ forall x r', @pk_deserialize E c r = (Ok x, r') ->
     supported (pk_cs x) /\ (length (content r') + (1 + g2_size c) = length (content r))%nat.
Proof.
  intros E c r. split; [apply np_pk|]. intros x r' H. unfold pk_deserialize in H.
  apply sbind_inv in H as (k & r1 & H1 & H). apply read_exact_inv in H1 as [_ H1]. cbv zeta in H.
  destruct (valid_cs (nth 0 k 0)) eqn:Hcs; cbn [negb] in H; [|discriminate].
  apply sbind_inv in H as (s1 & r3 & H3 & H). apply g2_read_inv in H3. injection H as <- <-.
  cbn [pk_cs]. split; [apply valid_cs_supported, Hcs|]. lia.
Qed.
Lemma pop_deserialize_checked : forall (E : env) (c : bool) r,
  is_panic (fst (@pop_deserialize E c r)) = false
  /\ forall x r', @pop_deserialize E c r = (Ok x, r') ->
     supported (pop_cs x) /\ (length (content r') + (1 + g1_size c) = length (content r))%nat.
Proof.
  intros E c r. split; [apply np_pop|]. intros x r' H. unfold pop_deserialize in H.
  apply sbind_inv in H as (k & r1 & H1 & H). apply read_exact_inv in H1 as [_ H1]. cbv zeta in H.
  destruct (valid_cs (nth 0 k 0)) eqn:Hcs; cbn [negb] in H; [|discriminate].
  apply sbind_inv in H as (s1 & r3 & H3 & H). apply g1_read_inv in H3. injection H as <- <-.
  cbn [pop_cs]. split; [apply valid_cs_supported, Hcs|]. lia.
Qed.

Lemma hv_read_len {E : env} c : forall n r (l : list (G1 E)) r', hv_read c n r = (Ok l, r') ->
  length l = n /\ (length (content r') + n * g1_size c = length (content r))%nat.
Proof.
  induction n as [|n IH]; intros r l r' H; cbn [hv_read] in H; [injection H as <- <-; cbn; lia|].
  apply sbind_inv in H as (x & r1 & H1 & H). apply g1_read_inv in H1.
  apply sbind_inv in H as (l1 & r2 & H2 & H). apply IH in H2 as [Hl H2]. injection H as <- <-. cbn [length]. lia.
Qed.
Lemma hvlen_len r b r' :
  match read1 r with (Ok (Some b), r') => (Ok b, r') | (Ok None, r') => (Ok 0, r') | (_, r') => (Err E_DESERIAL, r') end = (Ok b, r') ->
  calm r -> (0 < length (content r'))%nat -> (length (content r') + 1 = length (content r))%nat /\ calm r'.
Proof.
  intros H Hr Hpos. destruct r as [|e r]; [injection H as _ <-; cbn in Hpos; lia|].
  inversion Hr as [|? ? (bs & Hb & ->) Hr']; subst. destruct bs as [|x bs]; [contradiction|]. cbn in H. injection H as <- <-.
  cbn [content]. rewrite content_rpush. split; [rewrite !app_length; cbn; lia|apply calm_rpush, Hr'].
Qed.
Lemma read_exact_calm n r b r' : read_exact n r = (Ok b, r') -> calm r -> calm r'.
Proof.
  intros H Hr. destruct (Nat.le_gt_cases n (length (content r))) as [Hn|Hn].
  - destruct (read_exact_ok _ rclass_calm r n Hr Hn) as (r1 & H1 & Hr1 & _). rewrite H in H1. injection H1 as _ <-. exact Hr1.
  - destruct (read_exact_err r n Hn) as (r1 & H1). congruence.
Qed.
Lemma g1_read_calm {E : env} c r (x : G1 E) r' : g1_read c r = (Ok x, r') -> calm r -> calm r'.
Proof.
  intros H. apply sbind_inv in H as (b & r1 & H1 & H). unfold slift in H. injection H as _ <-. exact (read_exact_calm _ _ _ _ H1).
Qed.
Lemma g2_read_calm {E : env} c r (x : G2 E) r' : g2_read c r = (Ok x, r') -> calm r -> calm r'.
Proof.
  intros H. apply sbind_inv in H as (b & r1 & H1 & H). unfold slift in H. injection H as _ <-. exact (read_exact_calm _ _ _ _ H1).
Qed.
Lemma hv_read_calm {E : env} c : forall n r (l : list (G1 E)) r', hv_read c n r = (Ok l, r') -> calm r -> calm r'.
Proof.
  induction n as [|n IH]; intros r l r' H Hr; cbn [hv_read] in H; [injection H as <- <-; exact Hr|].
  apply sbind_inv in H as (x & r1 & H1 & H). apply g1_read_calm in H1; [|exact Hr].
  apply sbind_inv in H as (l1 & r2 & H2 & H). injection H as <- <-. apply (IH _ _ _ H2 H1).
Qed.

Lemma ssk_deserialize_inv {E : env} c r (s : subkey E) r' : ssk_deserialize c r = (Ok s, r') ->
  1 <= sk_t s
  /\ (calm r -> calm r' /\ (length (content r') + (5 + g2_size c + g1_size c + length (sk_hvec s) * g1_size c) = length (content r))%nat).
Proof.
  intros H. unfold ssk_deserialize in H. apply sbind_inv in H as (tb & r1 & H1 & H). cbv zeta in H.
  destruct (N.eqb_spec (from_be4 tb) 0) as [Ht|Ht]; [discriminate|].
  apply sbind_inv in H as (n & r2 & H2 & H). apply sbind_inv in H as (g & r3 & H3 & H).
  apply sbind_inv in H as (hp & r4 & H4 & H). apply sbind_inv in H as (hv & r5 & H5 & H). injection H as <- <-.
  cbn [sk_t sk_hvec]. split; [lia|]. intros Hr.
  pose proof (read_exact_calm _ _ _ _ H1 Hr) as Hr1. apply read_exact_inv in H1 as [_ H1].
  assert (Hpos : (0 < length (content r2))%nat).
  { pose proof (g2_read_inv _ _ _ _ H3). destruct c; cbn in *; lia. }
  destruct (hvlen_len _ _ _ H2 Hr1 Hpos) as [Hl2 Hr2].
  pose proof (g2_read_calm _ _ _ _ H3 Hr2) as Hr3. pose proof (g1_read_calm _ _ _ _ H4 Hr3) as Hr4.
  pose proof (hv_read_calm _ _ _ _ _ H5 Hr4) as Hr5.
  apply g2_read_inv in H3. apply g1_read_inv in H4. apply hv_read_len in H5 as [Hl H5]. rewrite Hl. split; [exact Hr5|lia].
Qed.

Lemma ssks_read_inv {E : env} c : forall n r (l : list (subkey E)) r', ssks_read c n r = (Ok l, r') ->
  length l = n /\ Forall (fun s => 1 <= sk_t s) l
  /\ (calm r -> calm r' /\ (length (content r') + fold_right (fun n acc => 5 + g2_size c + g1_size c + n * g1_size c + acc)%nat 0%nat
         (map (fun s => length (sk_hvec s)) l) = length (content r))%nat).
Proof.
  induction n as [|n IH]; intros r l r' H; cbn [ssks_read] in H.
  - injection H as <- <-. cbn. split; [reflexivity|]. split; [constructor|]. intros; split; [assumption|lia].
  - apply sbind_inv in H as (x & r1 & H1 & H). apply ssk_deserialize_inv in H1 as [Ht H1].
    apply sbind_inv in H as (l1 & r2 & H2 & H). apply IH in H2 as (Hl & Hf & H2). injection H as <- <-.
    cbn [length map fold_right]. split; [lia|]. split; [constructor; auto|]. intros Hr.
    destruct (H1 Hr) as [Hr1 Hc1]. destruct (H2 Hr1) as [Hr2 Hc2]. split; [exact Hr2|]. lia.
Qed.

Lemma sk_deserialize_checked : forall (E : env) (c : bool) r,
  is_panic (fst (@sk_deserialize E c r)) = false
  /\ forall x r', @sk_deserialize E c r = (Ok x, r') ->
     supported (sec_cs x) /\ sec_ssk x <> [] /\ Forall (fun s => 1 <= sk_t s) (sec_ssk x)
     /\ length (sec_prng x) = 64%nat
     /\ (calm r -> (length (content r') + sk_bytes c (map (fun s => length (sk_hvec s)) (sec_ssk x)) = length (content r))%nat).
Proof.
  intros E c r. split; [apply np_sk|]. intros x r' H. unfold sk_deserialize in H.
  apply sbind_inv in H as (k & r1 & H1 & H). apply sbind_inv in H as (g & r2 & H2 & H). cbv zeta in H.
  destruct (valid_cs (nth 0 k 0)) eqn:Hcs; cbn [negb] in H; [|discriminate].
  destruct (N.eqb_spec (nth 1 k 0) 0) as [Hn|Hn]; [discriminate|].
  apply sbind_inv in H as (s & r3 & H3 & H). apply sbind_inv in H as (l & r4 & H4 & H). injection H as <- <-.
  cbn [sec_cs sec_ssk sec_prng]. apply ssk_deserialize_inv in H3 as [Ht H3]. apply ssks_read_inv in H4 as (Hl & Hf & H4).
  split; [apply valid_cs_supported, Hcs|]. split; [discriminate|]. split; [constructor; auto|].
  split; [apply read_exact_inv in H2; tauto|]. intros Hr.
  pose proof (read_exact_calm _ _ _ _ H1 Hr) as Hr1. pose proof (read_exact_calm _ _ _ _ H2 Hr1) as Hr2.
  destruct (H3 Hr2) as [Hr3 Hc3]. destruct (H4 Hr3) as [Hr4 Hc4].
  apply read_exact_inv in H1 as [_ H1]. apply read_exact_inv in H2 as [_ H2]. unfold sk_bytes. cbn [map fold_right]. lia.
Qed.

(** C33 *)
Lemma canonical_of {A} (P : reader -> Prop) (f : st reader A) p (blob : A -> bytes) :
  parses P f p -> (forall b x rest, are_bytes b -> p b = Ok (x, rest) -> b = blob x ++ rest) ->
  forall r x r', P r -> are_bytes (content r) -> f r = (Ok x, r') -> content r = blob x ++ content r'.
Proof.
  intros Hp Hc r x r' Hr Hb H. specialize (Hp r Hr). destruct (p (content r)) as [[y rest]|e|q] eqn:Ep.
  - destruct Hp as (r1 & H1 & _ & Hrest). rewrite H in H1. injection H1 as <- <-. subst rest. apply Hc; auto.
  - destruct Hp as (r1 & H1). congruence.
  - destruct Hp as (r1 & H1). congruence.
Qed.
Lemma sig_canonical : forall (E : env) (L : env_laws E) r (x : signature E) r',
  are_bytes (content r) -> sig_deserialize true r = (Ok x, r') -> content r = sig_blob true x ++ content r'.
Proof.
  intros E L r x r'. apply (canonical_of (fun _ => True) _ _ _ (parses_sig _ rclass_any true)); [|exact I].
  intros b y rest. apply (p_sig_canon L).
Qed.
Lemma pk_canonical : forall (E : env) (L : env_laws E) r (x : pubkey E) r',
  are_bytes (content r) -> pk_deserialize true r = (Ok x, r') -> content r = pk_blob true x ++ content r'.
Proof.
  intros E L r x r'. apply (canonical_of (fun _ => True) _ _ _ (parses_pk _ rclass_any true)); [|exact I].
  intros b y rest. apply (p_pk_canon L).
Qed.
Lemma pop_canonical : forall (E : env) (L : env_laws E) r (x : proof E) r',
  are_bytes (content r) -> pop_deserialize true r = (Ok x, r') -> content r = pop_blob true x ++ content r'.
Proof.
  intros E L r x r'. apply (canonical_of (fun _ => True) _ _ _ (parses_pop _ rclass_any true)); [|exact I].
  intros b y rest. apply (p_pop_canon L).
Qed.
Lemma sk_canonical : forall (E : env) (L : env_laws E) r (x : seckey E) r',
  calm r -> are_bytes (content r) -> sk_deserialize true r = (Ok x, r') -> content r = sk_blob true x ++ content r'.
Proof. intros E L. apply (canonical_of calm _ _ _ (parses_sk true)). intros b x rest. apply (p_sk_canon L). Qed.

(** C34 *)
Lemma uncompressed_sig_rejected : forall (E : env) r, is_ok (fst (@sig_deserialize E false r)) = false.
Proof.
  intros E r. destruct (@sig_deserialize E false r) as [[s|e|p] r'] eqn:H; try reflexivity. exfalso.
  unfold sig_deserialize in H. apply sbind_inv in H as (k & r1 & H1 & H). apply sbind_inv in H as (tb & r2 & H2 & H). cbv zeta in H.
  destruct (_ =? 0); [discriminate|]. destruct (negb _); [discriminate|].
  apply sbind_inv in H as (s1 & r3 & H3 & H). discriminate.
Qed.
Lemma uncompressed_pop_accepted : forall (E : env) (L : env_laws E) (x : proof E),
  wf_pop x -> to_vec (pop_serialize x false) = Ok (pop_blob false x)
              /\ from_slice (pop_deserialize false) (pop_blob false x) = Ok x.
Proof.
  intros E L x Hw. destruct (pop_roundtrip E L false x Hw) as (H1 & _ & H2). split; [exact H1|].
  destruct (H2 (rpush (pop_blob false x) []) []) as (r' & Hr & _).
  - rewrite content_slice, app_nil_r. reflexivity.
  - unfold from_slice. rewrite Hr. reflexivity.
Qed.

(** C35 *)
Lemma ssk_time_bound : forall (E : env) (L : env_laws E) c (x : subkey E) w,
  (2^32 < sk_t x -> ssk_serialize x c w = (Err E_SERIAL, w))
  /\ (sk_t x = 2^32 ->
      to_vec (ssk_serialize x c) = Ok (ssk_blob c x) /\ firstn 4 (ssk_blob c x) = [0; 0; 0; 0]
      /\ @from_slice (subkey E) (ssk_deserialize c) (ssk_blob c x) = Err E_TIME_STAMP).
Proof.
  intros E L c x w. split.
  - intros H. rewrite ssk_serialize_blob. replace (sk_t x <=? 2^32) with false by lia. reflexivity.
  - intros H. split.
    + apply aon_to_vec. pose proof (ssk_aon x c) as Ha. replace (sk_t x <=? 2^32) with true in Ha by lia. exact Ha.
    + assert (Hb : be4 (sk_t x) = [0; 0; 0; 0]) by (rewrite H; reflexivity).
      split; [unfold ssk_blob; rewrite Hb; reflexivity|].
      rewrite (parses_slice calm _ _ _ (calm_slice _) (parses_ssk c)).
      unfold p_ssk, p_bind at 1, ssk_blob. rewrite p_take_app by apply be4_len. cbn [bind]. rewrite Hb. reflexivity.
Qed.

(** C36 *)
Lemma same_content_same_result {A} (P : reader -> Prop) (f : st reader A) p r1 r2 :
  parses P f p -> P r1 -> P r2 -> content r1 = content r2 -> fst (f r1) = fst (f r2).
Proof.
  intros Hp H1 H2 Hc. pose proof (Hp r1 H1) as P1. pose proof (Hp r2 H2) as P2. rewrite Hc in P1.
  destruct (p (content r2)) as [[a rest]|e|q].
  - destruct P1 as (? & -> & _), P2 as (? & -> & _). reflexivity.
  - destruct P1 as (? & ->), P2 as (? & ->). reflexivity.
  - destruct P1 as (? & ->), P2 as (? & ->). reflexivity.
Qed.
Lemma chunks_irrelevant : forall (E : env) c r1 r2,
  calm r1 -> calm r2 -> content r1 = content r2 ->
  fst (@sig_deserialize E c r1) = fst (@sig_deserialize E c r2)
  /\ fst (@pk_deserialize E c r1) = fst (@pk_deserialize E c r2)
  /\ fst (@pop_deserialize E c r1) = fst (@pop_deserialize E c r2)
  /\ fst (@sk_deserialize E c r1) = fst (@sk_deserialize E c r2).
Proof.
  intros E c r1 r2 H1 H2 Hc.
  split; [apply (same_content_same_result calm _ _ _ _ (parses_sig calm rclass_calm c)); auto|].
  split; [apply (same_content_same_result calm _ _ _ _ (parses_pk calm rclass_calm c)); auto|].
  split; [apply (same_content_same_result calm _ _ _ _ (parses_pop calm rclass_calm c)); auto|].
  apply (same_content_same_result calm _ _ _ _ (parses_sk c)); auto.
Qed.
Lemma interruptions_irrelevant : forall (E : env) c r1 r2,
  content r1 = content r2 ->
  fst (@sig_deserialize E c r1) = fst (@sig_deserialize E c r2)
  /\ fst (@pk_deserialize E c r1) = fst (@pk_deserialize E c r2)
  /\ fst (@pop_deserialize E c r1) = fst (@pop_deserialize E c r2).
Proof.
  intros E c r1 r2 Hc.
  split; [apply (same_content_same_result (fun _ => True) _ _ _ _ (parses_sig _ rclass_any c)); auto|].
  split; [apply (same_content_same_result (fun _ => True) _ _ _ _ (parses_pk _ rclass_any c)); auto|].
  apply (same_content_same_result (fun _ => True) _ _ _ _ (parses_pop _ rclass_any c)); auto.
Qed.

(** C37 *)
Lemma aon_split f ok blob : all_or_nothing f ok blob ->
  (ok = true -> appends f blob /\ forall w, willing w -> fst (f w) = Ok tt) /\ (ok = false -> refuses f).
Proof.
  intros H. split.
  - intros ->. split.
    + intros w. rewrite (H w). destruct (write_all_cases blob (w_script w) (w_out w)) as [Hw|Hw]; [left|right]; exact Hw.
    + intros w Hw. rewrite (H w). unfold write_all. destruct w as [out script]. unfold willing in Hw. cbn [w_script w_out] in *.
      clear H. revert out blob. induction Hw as [|e script [H1 H2] _ IH]; intros out [|b blob]; cbn [write_all_loop]; try reflexivity.
      destruct e as [n| |]; [|apply IH|contradiction]. destruct n as [|n]; [contradiction|]. apply IH.
  - intros ->. intros w. destruct (H w) as (e & He & Hf). eauto.
Qed.
Lemma sig_write : forall (E : env) c (s : signature E),
  (supported (sig_cs s) /\ sig_time s < 2^32 ->
     appends (sig_serialize s c) (sig_blob c s) /\ forall w, willing w -> fst (sig_serialize s c w) = Ok tt)
  /\ (~ (supported (sig_cs s) /\ sig_time s < 2^32) -> refuses (sig_serialize s c)).
Proof.
  intros E c s. destruct (aon_split _ _ _ (sig_aon s c)) as [H1 H2]. rewrite <- valid_cs_supported.
  split; intros H; [apply H1|apply H2]; destruct (valid_cs (sig_cs s)); cbn [andb]; lia || (destruct H; congruence).
Qed.
Lemma pk_write : forall (E : env) c (x : pubkey E),
  (supported (pk_cs x) ->
     appends (pk_serialize x c) (pk_blob c x) /\ forall w, willing w -> fst (pk_serialize x c w) = Ok tt)
  /\ (~ supported (pk_cs x) -> refuses (pk_serialize x c)).
Proof.
  intros E c x. destruct (aon_split _ _ _ (pk_aon x c)) as [H1 H2]. rewrite <- valid_cs_supported.
  split; intros H; [apply H1; exact H|apply H2]. destruct (valid_cs (pk_cs x)); congruence.
Qed.
Lemma pop_write : forall (E : env) c (x : proof E),
  (supported (pop_cs x) ->
     appends (pop_serialize x c) (pop_blob c x) /\ forall w, willing w -> fst (pop_serialize x c w) = Ok tt)
  /\ (~ supported (pop_cs x) -> refuses (pop_serialize x c)).
Proof.
  intros E c x. destruct (aon_split _ _ _ (pop_aon x c)) as [H1 H2]. rewrite <- valid_cs_supported.
  split; intros H; [apply H1; exact H|apply H2]. destruct (valid_cs (pop_cs x)); congruence.
Qed.
Lemma sk_write : forall (E : env) c (x : seckey E),
  (supported (sec_cs x) /\ Forall (fun s => sk_t s <= 2^32) (sec_ssk x) ->
     appends (sk_serialize x c) (sk_blob c x) /\ forall w, willing w -> fst (sk_serialize x c w) = Ok tt)
  /\ (~ (supported (sec_cs x) /\ Forall (fun s => sk_t s <= 2^32) (sec_ssk x)) -> refuses (sk_serialize x c)).
Proof.
  intros E c x. destruct (aon_split _ _ _ (sk_aon x c)) as [H1 H2]. rewrite <- valid_cs_supported.
  assert (Hf : forallb (fun s => sk_t s <=? 2^32) (sec_ssk x) = true <-> Forall (fun s => sk_t s <= 2^32) (sec_ssk x)).
  { rewrite forallb_forall, Forall_forall. split; intros H s Hs; specialize (H s Hs); lia. }
  rewrite <- Hf. split; intros H; [apply H1|apply H2].
  - destruct H as [-> ->]. reflexivity.
  - destruct (valid_cs (sec_cs x)), (forallb _ (sec_ssk x)); try reflexivity. destruct H; auto.
Qed.

(** C38 *)
Lemma reload_anywhere : forall (E : env) (L : env_laws E) m (pp : pubparam E) pk sk c ops1 ops2,
  pp_ok pp -> (pp_depth pp <= 32)%nat -> reachable m pp pk sk ->
  let r := run m pp (ops1 ++ OpReload c :: ops2) sk in
  let r0 := run m pp (ops1 ++ ops2) sk in
  snd r = snd r0 /\ nth_error (fst r) (length ops1) = Some (Ok None)
  /\ fst r0 = firstn (length ops1) (fst r) ++ skipn (length ops1 + 1) (fst r).
Proof.
  intros E L m pp pk sk c ops1 ops2 Hpp Hd Hr. cbv zeta. rewrite !run_app. cbn [fst snd].
  assert (Hl : length (fst (run m pp ops1 sk)) = length ops1).
  { clear. revert sk. induction ops1 as [|o l IH]; intros sk; [reflexivity|]. cbn [run].
    destruct (step m pp o sk) as [r s]. specialize (IH s). destruct (run m pp l s). cbn in *. lia. }
  pose proof (reachable_run m pp pk sk ops1 Hr) as Hr1.
  pose proof (reachable_sk_representable E L m pp pk _ Hpp Hd Hr1) as Hw.
  cbn [run step]. unfold sbind. rewrite (reload_wf L c _ Hw). unfold sret.
  destruct (run m pp ops2 (snd (run m pp ops1 sk))) as [rs sk2]. cbn [fst snd]. split; [reflexivity|]. split.
  - rewrite nth_error_app2 by lia. rewrite Hl, Nat.sub_diag. reflexivity.
  - rewrite <- Hl, firstn_app, firstn_all, Nat.sub_diag. cbn [firstn]. rewrite app_nil_r, skipn_app.
    replace (length (fst (run m pp ops1 sk)) + 1 - length (fst (run m pp ops1 sk)))%nat with 1%nat by lia.
    rewrite (skipn_all2 (n := length (fst (run m pp ops1 sk)) + 1)) by lia. reflexivity.
Qed.

(** Erasing every reload of a history. *)
Lemma reloads_invisible : forall (E : env) (L : env_laws E) m (pp : pubparam E) pk sk ops,
  pp_ok pp -> (pp_depth pp <= 32)%nat -> reachable m pp pk sk ->
  let r := run m pp ops sk in
  let r0 := run m pp (filter keeps ops) sk in
  snd r = snd r0
  /\ fst r0 = map snd (filter (fun x => keeps (fst x)) (combine ops (fst r)))
  /\ forall i c, nth_error ops i = Some (OpReload c) -> nth_error (fst r) i = Some (Ok None).
Proof.
  intros E L m pp pk sk ops Hpp Hd. cbv zeta. revert sk. induction ops as [|o ops IH]; intros sk Hr.
  - split; [reflexivity|]. split; [reflexivity|]. intros [|i] c H; discriminate H.
  - pose proof (reachable_run m pp pk sk [o] Hr) as Hr1. cbn [run] in Hr1.
    destruct (step m pp o sk) as [a sk1] eqn:Es. cbn [snd] in Hr1. specialize (IH sk1 Hr1). destruct IH as (IH1 & IH2 & IH3).
    destruct (keeps o) eqn:Hk.
    + cbn [filter run]. rewrite Hk. cbn [run]. rewrite Es.
      destruct (run m pp ops sk1) as [ra ka], (run m pp (filter keeps ops) sk1) as [rb kb]. cbn [fst snd] in *.
      cbn [combine filter fst]. rewrite Hk. cbn [map snd]. split; [exact IH1|]. split; [f_equal; exact IH2|].
      intros [|i] c H; cbn [nth_error] in *; [injection H as ->; discriminate Hk|apply (IH3 i c H)].
    + destruct o as [| | | |c0]; try discriminate Hk.
      pose proof (reachable_sk_representable E L m pp pk _ Hpp Hd Hr) as Hw.
      cbn [step] in Es. unfold sbind in Es. rewrite (reload_wf L c0 _ Hw) in Es. injection Es as <- <-.
      cbn [filter run step]. unfold sbind. rewrite Hk, (reload_wf L c0 _ Hw). unfold sret.
      destruct (run m pp ops sk) as [ra ka], (run m pp (filter keeps ops) sk) as [rb kb]. cbn [fst snd] in *.
      cbn [combine filter fst]. rewrite Hk. split; [exact IH1|]. split; [exact IH2|].
      intros [|i] c H; cbn [nth_error] in *; [reflexivity|apply (IH3 i c H)].
Qed.

(** C39 *)
Lemma digest_value : forall (E : env) (L : env_laws E) (sk : seckey E),
  wf_sk sk -> sk_digest sk = Ok (sha512 E (repeat 0 (length (sk_blob true sk)) ++ sk_blob true sk)).
Proof.
  intros E L sk Hw. unfold sk_digest. pose proof (sk_aon sk true) as Ha. rewrite (sk_ok_bool sk Hw) in Ha.
  rewrite (aon_vec _ _ _ Ha). cbn [w_out vec_writer].
  destruct (sk_roundtrip E L true sk Hw) as (_ & -> & _). reflexivity.
Qed.
Lemma pad_inj (b1 b2 : bytes) : repeat 0 (length b1) ++ b1 = repeat 0 (length b2) ++ b2 -> b1 = b2.
Proof.
  intros Eb. assert (Hl : length b1 = length b2).
  { apply (f_equal (@length N)) in Eb. rewrite !app_length, !repeat_length in Eb. lia. }
  rewrite Hl in Eb. apply app_inv_head in Eb. exact Eb.
Qed.
Lemma digest_binds_key : forall (E : env) (L : env_laws E) (sk1 sk2 : seckey E),
  wf_sk sk1 -> wf_sk sk2 -> sk_digest sk1 = sk_digest sk2 ->
  sk1 = sk2 \/ exists a b, a <> b /\ sha512 E a = sha512 E b.
Proof.
  intros E L sk1 sk2 H1 H2 H. rewrite (digest_value E L sk1 H1), (digest_value E L sk2 H2) in H. injection H as H.
  destruct (list_eq_dec N.eq_dec (sk_blob true sk1) (sk_blob true sk2)) as [Eb|Eb].
  - left. pose proof (p_sk_blob L true sk1 [] H1) as P1. pose proof (p_sk_blob L true sk2 [] H2) as P2.
    rewrite Eb in P1. rewrite P1 in P2. injection P2 as ->. reflexivity.
  - right. eexists _, _. split; [|exact H]. intros Hc. apply Eb, pad_inj, Hc.
Qed.
Lemma reachable_digest : forall (E : env) (L : env_laws E) m (pp : pubparam E) pk sk,
  pp_ok pp -> (pp_depth pp <= 32)%nat -> reachable m pp pk sk ->
  sk_digest sk = Ok (sha512 E (repeat 0 (length (sk_blob true sk)) ++ sk_blob true sk)).
Proof. intros E L m pp pk sk Hpp Hd Hr. apply (digest_value E L). apply (reachable_sk_representable E L m pp pk); auto. Qed.
