(** Lemmas for C111: the blocks a serialization frees. *)
From Verif Require Import Base Env Time SpecTime Hkdf Prng SpecPrng SubKey SecretKey Keys Sig IO Serdes Api
  SpecKey SpecUpdate SpecSer SerFacts IOFacts SerProps FfiProps TimeFacts PrngFacts KeyFacts HistoryFacts SigProps SpecGrow GrowProps
  SpecHyg HygProps BufMem SpecBuf.
From Coq Require Import ZifyBool ZifyNat ZifyN.
Local Open Scope N_scope.
Local Arguments N.add : simpl never.
Local Arguments N.mul : simpl never.
Local Arguments N.sub : simpl never.
Local Arguments pow2 : simpl never.

Definition fits (b : vbuf) : Prop := (length (vb_data b) <= vb_cap b)%nat.
Lemma fits_of b : fits (vbuf_of b). Proof. apply Nat.le_refl. Qed.
Lemma append_spec P x b fr : fits b -> exists b' new,
  vb_append P x b fr = (Ok b', new ++ fr) /\ vb_data b' = vb_data b ++ x /\ fits b'
  /\ (forall y, In y new -> y = vb_data b /\ x <> []) /\ ((forall n, bmoved P n = false) -> new = []).
Proof.
  unfold fits. intros Hf. unfold vb_append. cbv zeta. destruct (Nat.leb_spec (length (vb_data b) + length x) (vb_cap b)) as [H|H].
  - exists (VBuf (vb_data b ++ x) (vb_cap b)), []. cbn [vb_data vb_cap app]. rewrite app_length.
    split; [reflexivity|]. split; [reflexivity|]. split; [exact H|]. split; [intros y []|reflexivity].
  - eexists (VBuf (vb_data b ++ x) _), (if bmoved P (vb_cap b) then [vb_data b] else []). cbn [vb_data vb_cap]. rewrite app_length.
    split; [destruct (bmoved P (vb_cap b)); reflexivity|]. split; [reflexivity|]. split; [lia|]. split.
    + intros y Hy. destruct (bmoved P (vb_cap b)); [|destruct Hy]. destruct Hy as [<-|[]]. split; [reflexivity|]. intros ->. cbn in H. lia.
    + intros Hm. rewrite Hm. reflexivity.
Qed.
Lemma begins_app a b : b <> [] -> begins a (a ++ b). Proof. exists b. auto. Qed.
Lemma begins_more a b c : begins a b -> begins a (b ++ c).
Proof.
  intros (x & -> & Hx). exists (x ++ c). split; [symmetry; apply app_assoc|]. intros H. apply app_eq_nil in H as [H _]. exact (Hx H).
Qed.
Lemma appends_spec P : forall l b fr, fits b -> exists b' new,
  vb_appends P l b fr = (Ok b', new ++ fr) /\ vb_data b' = vb_data b ++ concat l /\ fits b'
  /\ (forall y, In y new -> begins y (vb_data b')) /\ ((forall n, bmoved P n = false) -> new = []).
Proof.
  induction l as [|x l IH]; intros b fr Hf; cbn [vb_appends concat].
  - exists b, []. rewrite app_nil_r. split; [reflexivity|]. split; [reflexivity|]. split; [exact Hf|]. split; [intros y []|reflexivity].
  - unfold sbind. destruct (append_spec P x b fr Hf) as (b1 & n1 & -> & D1 & F1 & N1 & S1).
    destruct (IH b1 (n1 ++ fr) F1) as (b2 & n2 & -> & D2 & F2 & N2 & S2).
    exists b2, (n2 ++ n1). rewrite D2, D1, <- !app_assoc. split; [reflexivity|]. split; [reflexivity|]. split; [exact F2|]. split.
    + intros y Hy. apply in_app_or in Hy as [Hy|Hy]; [specialize (N2 y Hy); rewrite D2, D1, <- app_assoc in N2; exact N2|].
      destruct (N1 y Hy) as [-> Hx]. apply begins_app. intros H. apply app_eq_nil in H as [H _]. exact (Hx H).
    + intros Hm. rewrite (S1 Hm), (S2 Hm). reflexivity.
Qed.

Definition savable {E} (s : subkey E) : bool := sk_t s <=? 2 ^ 32.
Lemma ssk_b_spec {E} P (s : subkey E) c out fr : fits out ->
  if savable s then exists b inner,
    vb_data b = ssk_blob c s
    /\ ssk_serialize_b P s c out fr = vb_append P (ssk_blob c s) out (inner ++ fr)
    /\ (forall y, In y inner -> begins y (ssk_blob c s)) /\ ((forall n, bmoved P n = false) -> inner = [])
  else ssk_serialize_b P s c out fr = (Err E_SERIAL, fr).
Proof.
  intros Hf. unfold savable, ssk_serialize_b. cbv zeta. change (pow2 32) with (2 ^ 32). destruct (N.leb_spec (sk_t s) (2 ^ 32)) as [Ht|Ht].
  2:{ replace (2 ^ 32 <? sk_t s) with true by lia. reflexivity. }
  replace (2 ^ 32 <? sk_t s) with false by lia. unfold sbind.
  destruct (append_spec P [as_u8 (N.of_nat (length (sk_hvec s)))] (vbuf_of (time_bytes (sk_t s))) fr (fits_of _)) as (b1 & n1 & -> & D1 & F1 & N1 & S1).
  destruct (append_spec P (g2_enc c (sk_g2r s)) b1 (n1 ++ fr) F1) as (b2 & n2 & -> & D2 & F2 & N2 & S2).
  destruct (append_spec P (g1_enc c (sk_hpoly s)) b2 (n2 ++ n1 ++ fr) F2) as (b3 & n3 & -> & D3 & F3 & N3 & S3).
  destruct (appends_spec P (map (g1_enc c) (sk_hvec s)) b3 (n3 ++ n2 ++ n1 ++ fr) F3) as (b4 & n4 & -> & D4 & F4 & N4 & S4).
  assert (D : vb_data b4 = ssk_blob c s).
  { rewrite D4, D3, D2, D1. unfold vbuf_of. cbn [vb_data]. rewrite time_bytes_be4. unfold ssk_blob, as_u8. rewrite <- !app_assoc. reflexivity. }
  exists b4, (n4 ++ n3 ++ n2 ++ n1). split; [exact D|]. rewrite <- !app_assoc, <- D. split; [reflexivity|]. split.
  - intros y Hy. apply in_app_or in Hy as [Hy|Hy]; [exact (N4 y Hy)|]. rewrite D4. apply begins_more. rewrite D3.
    apply in_app_or in Hy as [Hy|Hy]; [destruct (N3 y Hy) as [-> Hx]; apply begins_app, Hx|]. apply begins_more. rewrite D2.
    apply in_app_or in Hy as [Hy|Hy]; [destruct (N2 y Hy) as [-> Hx]; apply begins_app, Hx|]. apply begins_more. rewrite D1.
    destruct (N1 y Hy) as [-> Hx]. apply begins_app, Hx.
  - intros Hm. rewrite (S1 Hm), (S2 Hm), (S3 Hm), (S4 Hm). reflexivity.
Qed.
Lemma ssks_b_spec {E} P c : forall (l : list (subkey E)) out fr, fits out ->
  if forallb savable l then exists out' new,
    ssks_serialize_b P l c out fr = (Ok out', new ++ fr) /\ vb_data out' = vb_data out ++ concat (map (ssk_blob c) l)
    /\ (forall y, In y new -> begins y (vb_data out') \/ exists s, In s l /\ begins y (ssk_blob c s))
    /\ ((forall n, bmoved P n = false) -> new = [])
  else exists new, ssks_serialize_b P l c out fr = (Err E_SERIAL, new ++ fr).
Proof.
  induction l as [|s l IH]; intros out fr Hf; cbn [forallb ssks_serialize_b map concat].
  - exists out, []. rewrite app_nil_r. split; [reflexivity|]. split; [reflexivity|]. split; [intros y []|reflexivity].
  - pose proof (ssk_b_spec P s c out fr Hf) as Hs. destruct (savable s); cbn [andb].
    2:{ exists [vb_data out]. rewrite Hs. reflexivity. }
    destruct Hs as (b & inner & D & -> & NI & SI). destruct (append_spec P (ssk_blob c s) out (inner ++ fr) Hf) as (o1 & n1 & -> & D1 & F1 & N1 & S1).
    specialize (IH o1 (n1 ++ inner ++ fr) F1). destruct (forallb savable l).
    + destruct IH as (o2 & n2 & -> & D2 & N2 & S2). exists o2, (n2 ++ n1 ++ inner). rewrite D2, D1, <- !app_assoc.
      split; [reflexivity|]. split; [reflexivity|]. split.
      * intros y Hy. apply in_app_or in Hy as [Hy|Hy]; [|apply in_app_or in Hy as [Hy|Hy]].
        -- destruct (N2 y Hy) as [H|(s' & Hin & H)]; [left; rewrite D2, D1, <- app_assoc in H; exact H|right; exists s'; split; [right; exact Hin|exact H]].
        -- left. destruct (N1 y Hy) as [-> Hx]. apply begins_app. intros H. apply app_eq_nil in H as [H _]. exact (Hx H).
        -- right. exists s. split; [left; reflexivity|exact (NI y Hy)].
      * intros Hm. rewrite (SI Hm), (S1 Hm), (S2 Hm). reflexivity.
    + destruct IH as (n2 & ->). exists (n2 ++ n1 ++ inner). rewrite <- !app_assoc. reflexivity.
Qed.

(** The result does not depend on the memory. *)
Lemma serialize_b_result : forall (E : env) P (sk : seckey E) c w fr,
  exists new, sk_serialize_b P sk c (w, fr) = (fst (sk_serialize sk c w), (snd (sk_serialize sk c w), new ++ fr)).
Proof.
  intros E P sk c w fr. unfold sk_serialize_b. rewrite sk_serialize_blob. destruct (valid_cs (sec_cs sk)); cbn [negb].
  2:{ exists []. reflexivity. }
  unfold sbind at 1 2.
  destruct (append_spec P [as_u8 (N.of_nat (length (sec_ssk sk)))] (vbuf_of [sec_cs sk]) fr (fits_of _)) as (b1 & n1 & -> & D1 & F1 & _).
  destruct (append_spec P (sec_prng sk) b1 (n1 ++ fr) F1) as (b2 & n2 & -> & D2 & F2 & _).
  pose proof (ssks_b_spec P c (sec_ssk sk) b2 (n2 ++ n1 ++ fr) F2) as H. change (fun s => sk_t s <=? 2 ^ 32) with (@savable E).
  destruct (forallb savable (sec_ssk sk)).
  - destruct H as (o & n3 & -> & D3 & _). rewrite D3, D2, D1. unfold vbuf_of. cbn [vb_data].
    change (([sec_cs sk] ++ [as_u8 (N.of_nat (length (sec_ssk sk)))]) ++ sec_prng sk) with ([sec_cs sk; as_u8 (N.of_nat (length (sec_ssk sk)))] ++ sec_prng sk).
    rewrite <- app_assoc. change ([sec_cs sk; as_u8 (N.of_nat (length (sec_ssk sk)))] ++ sec_prng sk ++ concat (map (ssk_blob c) (sec_ssk sk))) with (sk_blob c sk).
    unfold sbind, sret. destruct (write_all (sk_blob c sk) w) as [[[]|e|p] w'].
    + exists (n3 ++ n2 ++ n1). rewrite <- !app_assoc. reflexivity.
    + exists (sk_blob c sk :: n3 ++ n2 ++ n1). cbn [app]. rewrite <- !app_assoc. reflexivity.
    + exists (sk_blob c sk :: n3 ++ n2 ++ n1). cbn [app]. rewrite <- !app_assoc. reflexivity.
  - destruct H as (n3 & ->). exists (n3 ++ n2 ++ n1). rewrite <- !app_assoc. reflexivity.
Qed.
(** What the freed blocks hold. *)
Lemma serialize_b_begins : forall (E : env) P (sk : seckey E) c w fr w' fr',
  sk_serialize_b P sk c (w, fr) = (Ok tt, (w', fr')) ->
  exists new, fr' = new ++ fr
    /\ (forall b, In b new -> begins b (sk_blob c sk) \/ exists s, In s (sec_ssk sk) /\ begins b (ssk_blob c s))
    /\ ((forall n, bmoved P n = false) -> new = []).
Proof.
  intros E P sk c w fr w' fr'. unfold sk_serialize_b. destruct (valid_cs (sec_cs sk)); cbn [negb]; [|intros H; discriminate H].
  unfold sbind at 1 2.
  destruct (append_spec P [as_u8 (N.of_nat (length (sec_ssk sk)))] (vbuf_of [sec_cs sk]) fr (fits_of _)) as (b1 & n1 & -> & D1 & F1 & N1 & S1).
  destruct (append_spec P (sec_prng sk) b1 (n1 ++ fr) F1) as (b2 & n2 & -> & D2 & F2 & N2 & S2).
  pose proof (ssks_b_spec P c (sec_ssk sk) b2 (n2 ++ n1 ++ fr) F2) as H.
  destruct (forallb savable (sec_ssk sk)).
  2:{ destruct H as (n3 & ->). intros H; discriminate H. }
  destruct H as (o & n3 & -> & D3 & N3 & S3).
  assert (D : vb_data o = sk_blob c sk).
  { rewrite D3, D2, D1. unfold vbuf_of, sk_blob, as_u8. cbn [vb_data]. rewrite <- !app_assoc. reflexivity. }
  destruct (write_all (vb_data o) w) as [[[]|e|p] w1]; intros H; try discriminate H. injection H as <- <-.
  exists (n3 ++ n2 ++ n1). rewrite <- !app_assoc. split; [reflexivity|]. split.
  - intros y Hy. apply in_app_or in Hy as [Hy|Hy]; [destruct (N3 y Hy) as [H|H]; [left; rewrite <- D; exact H|right; exact H]|].
    left. rewrite <- D, D3. apply begins_more. rewrite D2.
    apply in_app_or in Hy as [Hy|Hy]; [destruct (N2 y Hy) as [-> Hx]; apply begins_app, Hx|]. apply begins_more. rewrite D1.
    destruct (N1 y Hy) as [-> Hx]. apply begins_app, Hx.
  - intros Hm. rewrite (S1 Hm), (S2 Hm), (S3 Hm). reflexivity.
Qed.

(** Growth *)
Lemma append_exact P x data cap fr : thrifty P -> (cap < length data + length x)%nat -> (8 <= length data + length x)%nat -> (2 * cap <= length data + length x)%nat ->
  vb_append P x (VBuf data cap) fr = (Ok (VBuf (data ++ x) (length data + length x)), if bmoved P cap then data :: fr else fr).
Proof.
  intros HP H1 H2 H3. unfold vb_append. cbv zeta. cbn [vb_data vb_cap]. replace (length data + length x <=? cap)%nat with false by lia.
  specialize (HP cap (length data + length x)%nat). rewrite Nat.max_l by lia. reflexivity.
Qed.
Lemma ssk_blob_long {E} (L : env_laws E) c (s : subkey E) : (149 <= length (ssk_blob c s))%nat.
Proof.
  unfold ssk_blob. rewrite !app_length, (lc1_len E L), (lc2_len E L). cbn [length be4 g1_size g2_size]. destruct c; cbn [g1_size g2_size]; lia.
Qed.
Lemma ssks_b_keeps {E} P c (l : list (subkey E)) out fr r fr' : fits out -> ssks_serialize_b P l c out fr = (r, fr') -> forall b, In b fr -> In b fr'.
Proof.
  intros Hf He b Hb. pose proof (ssks_b_spec P c l out fr Hf) as H. destruct (forallb savable l).
  - destruct H as (o & new & H & _). rewrite H in He. injection He as _ <-. apply in_or_app. right. exact Hb.
  - destruct H as (new & H). rewrite H in He. injection He as _ <-. apply in_or_app. right. exact Hb.
Qed.
Lemma serialize_leaves_blocks : forall (E : env) (L : env_laws E) P (sk : seckey E) c w fr w' fr' s l,
  thrifty P -> length (sec_prng sk) = 64%nat -> sec_ssk sk = s :: l ->
  sk_serialize_b P sk c (w, fr) = (Ok tt, (w', fr')) ->
  (bmoved P 66 = true -> In (firstn 66 (sk_blob c sk)) fr')
  /\ (l <> [] -> bmoved P (66 + length (ssk_blob c s)) = true -> In (firstn (66 + length (ssk_blob c s)) (sk_blob c sk)) fr').
Proof.
  intros E L P sk c w fr w' fr' s l HP Hg Hl.
  assert (Hb : sk_blob c sk = ([sec_cs sk; as_u8 (N.of_nat (length (sec_ssk sk)))] ++ sec_prng sk) ++ ssk_blob c s ++ concat (map (ssk_blob c) l)).
  { unfold sk_blob, as_u8. rewrite Hl. cbn [map concat]. rewrite <- app_assoc. reflexivity. }
  unfold sk_serialize_b. destruct (valid_cs (sec_cs sk)); cbn [negb]; [|intros H; discriminate H].
  unfold sbind at 1 2. unfold vbuf_of. cbn [length].
  set (n := as_u8 (N.of_nat (length (sec_ssk sk)))) in *.
  assert (H1 : exists c1 f1, (c1 <= 8)%nat /\ vb_append P [n] (VBuf [sec_cs sk] 1) fr = (Ok (VBuf [sec_cs sk; n] c1), f1)).
  { unfold vb_append. cbn [vb_data vb_cap length Nat.add Nat.leb app]. eexists _, _. split; [|reflexivity]. specialize (HP 1%nat 2%nat). lia. }
  destruct H1 as (c1 & f1 & Hc1 & ->).
  rewrite append_exact by (cbn [length]; unfold bytes, prng in *; lia || exact HP). cbn [length]. unfold bytes, prng in *. rewrite Hg. change (2 + 64)%nat with 66%nat.
  set (hdr := [sec_cs sk; n] ++ sec_prng sk) in *.
  assert (Hh : length hdr = 66%nat) by (unfold hdr; rewrite app_length; cbn [length]; unfold prng, bytes in *; lia).
  set (f2 := if bmoved P c1 then [sec_cs sk; n] :: f1 else f1). rewrite Hl. cbn [ssks_serialize_b].
  pose proof (ssk_b_spec P s c (VBuf hdr 66) f2) as Hs. unfold fits in Hs. cbn [vb_data vb_cap] in Hs. specialize (Hs ltac:(unfold bytes in *; lia)).
  destruct (savable s); [|rewrite Hs; intros H; discriminate H]. destruct Hs as (b & inner & D & -> & _).
  pose proof (ssk_blob_long L c s) as HL1. rewrite append_exact by (unfold bytes in *; lia || exact HP).
  set (f3 := if bmoved P 66 then hdr :: inner ++ f2 else inner ++ f2).
  destruct (ssks_serialize_b P l c _ f3) as [[o|e|p] f4] eqn:H4; intros H; try discriminate H.
  destruct (write_all (vb_data o) w) as [[[]|e|p] w1]; try discriminate H. injection H as <- <-.
  assert (Fo : fits (VBuf (hdr ++ ssk_blob c s) (length hdr + length (ssk_blob c s)))).
  { unfold fits. cbn [vb_data vb_cap]. rewrite app_length. apply Nat.le_refl. }
  rewrite Hb. fold hdr. split.
  - intros Hm. rewrite <- Hh, firstn_app, Nat.sub_diag, firstn_all. cbn [firstn]. rewrite app_nil_r.
    apply (ssks_b_keeps P c l _ f3 _ _ Fo H4). unfold f3. rewrite Hm. left. reflexivity.
  - intros Hne Hm. rewrite <- Hh, app_assoc, <- app_length, firstn_app, Nat.sub_diag, firstn_all. cbn [firstn]. rewrite app_nil_r.
    destruct l as [|s2 l2]; [contradiction|]. cbn [ssks_serialize_b] in H4.
    pose proof (ssk_b_spec P s2 c (VBuf (hdr ++ ssk_blob c s) (length hdr + length (ssk_blob c s))) f3 Fo) as Hs.
    destruct (savable s2); [|rewrite Hs in H4; discriminate H4]. destruct Hs as (b' & inner' & D' & Hs & _). rewrite Hs in H4.
    pose proof (ssk_blob_long L c s2) as HL2.
    unfold vb_append in H4. cbv zeta in H4. cbn [vb_data vb_cap] in H4.
    replace (_ <=? length hdr + length (ssk_blob c s))%nat with false in H4 by (rewrite app_length; unfold bytes in *; lia).
    replace (length hdr + length (ssk_blob c s))%nat with (66 + length (ssk_blob c s))%nat in H4 by (unfold bytes in *; lia). rewrite Hm in H4.
    refine (ssks_b_keeps P c l2 _ _ _ _ _ H4 _ _).
    + unfold fits. cbn [vb_data vb_cap]. rewrite !app_length. unfold bytes in *. lia.
    + left. reflexivity.
Qed.

(** The block with the first sub key is as good as the key for its time stamp. *)
Lemma firstn_exact {A} n (a b : list A) : n = length a -> firstn n (a ++ b) = a.
Proof. intros ->. induction a as [|x a IH]; [reflexivity|]. cbn [length app firstn]. rewrite IH. reflexivity. Qed.
Lemma first_block {E} c (sk : seckey E) s l : length (sec_prng sk) = 64%nat -> sec_ssk sk = s :: l ->
  as_one (firstn (66 + length (ssk_blob c s)) (sk_blob c sk)) = sk_blob c (first_only sk).
Proof.
  intros Hg Hl.
  assert (Hb : sk_blob c sk = ([sec_cs sk; N.of_nat (length (sec_ssk sk)) mod 256] ++ sec_prng sk ++ ssk_blob c s) ++ concat (map (ssk_blob c) l)).
  { unfold sk_blob. rewrite Hl. cbn [map concat]. rewrite <- !app_assoc. reflexivity. }
  rewrite Hb, firstn_exact.
  - unfold sk_blob, first_only. rewrite Hl. cbn [app as_one sec_cs sec_ssk sec_prng firstn length map concat]. rewrite app_nil_r. reflexivity.
  - rewrite !app_length. unfold prng, bytes in *. rewrite Hg. reflexivity.
Qed.
Lemma first_only_wf {E} (sk : seckey E) : wf_sk sk -> wf_sk (first_only sk).
Proof.
  intros [Hc Hn Hp Ht Hs]. unfold first_only. constructor; cbn [sec_cs sec_ssk sec_prng sec_time].
  - exact Hc.
  - destruct (sec_ssk sk) as [|s l]; cbn [firstn length] in *; lia.
  - exact Hp.
  - destruct (sec_ssk sk) as [|s l]; [exact Ht|exact Ht].
  - destruct Hs; [constructor|]. cbn [firstn]. constructor; [assumption|constructor].
Qed.
Lemma first_only_signs {E} m t (pp : pubparam E) msg (sk : seckey E) :
  fst (sign_present m t pp msg (first_only sk)) = fst (sign_present m t pp msg sk).
Proof.
  unfold sign_present, sbind, sget, first_only, sign_bytes, sign_fr, first_ssk. cbn [sec_time sec_cs sec_prng sec_ssk].
  destruct (sec_time sk =? t); [|reflexivity]. cbn [negb]. unfold slift. cbn [fst]. destruct (sec_ssk sk); reflexivity.
Qed.
Lemma reachable_signs {E} (L : env_laws E) m m' (pp : pubparam E) pk sk msg : pp_ok pp -> reachable m pp pk sk ->
  exists s, fst (sign_present m' (sec_time sk) pp msg sk) = Ok s /\ forall m'', verify m'' s pk pp msg = Ok true.
Proof.
  intros Hpp Hr. destruct (reachable_good L m pp pk sk Hpp Hr) as (x & _ & Epk & Hg & Hcs).
  pose proof (sign_cases L m' pp x sk (sec_time sk) msg [] Hpp Hcs Hg) as H. rewrite N.eqb_refl in H. destruct H as (s & H & Hs).
  exists s. split.
  - unfold sign, sign_present, sbind, sget in *. rewrite N.ltb_irrefl in H. cbn [sret] in H. rewrite N.eqb_refl. cbn [negb]. unfold slift, sret in *. cbn [fst].
    injection H as H. exact H.
  - intros m''. rewrite Epk. apply (good_sig_verifies L m'' pp x (sec_time sk) msg s); auto.
Qed.
Lemma saved_key_signs : forall (E : env) (L : env_laws E) P m (pp : pubparam E) pk sk v w fr w' fr',
  pp_ok pp -> (pp_depth pp <= 32)%nat -> reachable m pp pk sk -> node_at (pp_depth pp) (sec_time sk) v -> In 1 v ->
  thrifty P -> (forall n, bmoved P n = true) -> sk_serialize_b P sk true (w, fr) = (Ok tt, (w', fr')) ->
  exists b k, In b fr' /\ from_slice (sk_deserialize true) (as_one b) = Ok k
    /\ forall m' msg, exists s, fst (sign_present m' (sec_time sk) pp msg k) = Ok s /\ verify m' s pk pp msg = Ok true.
Proof.
  intros E L P m pp pk sk v w fr w' fr' Hpp Hd Hr Hn H1 HP Hm Hs.
  pose proof (reachable_sk_representable E L m pp pk sk Hpp Hd Hr) as Hw.
  destruct (key_nodes E L m pp pk sk v Hpp Hr Hn) as [_ Hlen].
  assert (Hl : (1 <= lefts v)%nat).
  { unfold lefts. assert (Hin : In 1 (filter (N.eqb 1) v)) by (apply filter_In; split; [exact H1|reflexivity]). destruct (filter (N.eqb 1) v); [destruct Hin|cbn; lia]. }
  destruct (sec_ssk sk) as [|s l] eqn:Es; [cbn in Hlen; lia|].
  assert (Hne : l <> []) by (intros ->; cbn in Hlen; lia).
  destruct (serialize_leaves_blocks E L P sk true w fr w' fr' s l HP (wsk_prng _ Hw) Es Hs) as [_ Hb].
  exists (firstn (66 + length (ssk_blob true s)) (sk_blob true sk)), (first_only sk).
  split; [apply Hb; [exact Hne|apply Hm]|]. rewrite (first_block true sk s l (wsk_prng _ Hw) Es).
  split; [apply (slice_sk L), first_only_wf, Hw|]. intros m' msg. rewrite first_only_signs.
  destruct (reachable_signs L m m' pp pk sk msg Hpp Hr) as (sg & H & Hv). exists sg. split; [exact H|apply Hv].
Qed.
(** The block with the prng state, and two signatures. *)
Lemma saved_state_forges : forall (E : env) (L : env_laws E) P m m' (pp : pubparam E) pk sk t msg1 msg2 s1 s2 w fr w' fr',
  pp_ok pp -> (pp_depth pp <= 32)%nat -> reachable m pp pk sk -> thrifty P -> bmoved P 66 = true ->
  sk_serialize_b P sk true (w, fr) = (Ok tt, (w', fr')) ->
  sign_present m' t pp msg1 sk = (Ok s1, sk) -> sign_present m' t pp msg2 sk = (Ok s2, sk) ->
  msg_scalar pp msg1 <> msg_scalar pp msg2 ->
  exists b v c,
    In b fr' /\ length b = 66%nat /\ node_at (pp_depth pp) t v
    /\ let k msg := spec_scalar (sha512 E) (skipn 2 b) (sign_info msg t) in
       forall m'' msg,
         verify m'' (combine_sigs pp t v s1 s2 (k msg1) (k msg2) (msg_scalar pp msg1) (msg_scalar pp msg2) c (msg_scalar pp msg)) pk pp msg = Ok true.
Proof.
  intros E L P m m' pp pk sk t msg1 msg2 s1 s2 w fr w' fr' Hpp Hd Hr HP Hm Hs Hs1 Hs2 Hne.
  pose proof (reachable_sk_representable E L m pp pk sk Hpp Hd Hr) as Hw.
  destruct (sec_ssk sk) as [|s l] eqn:Es; [pose proof (wsk_num _ Hw) as Hc; rewrite Es in Hc; cbn in Hc; lia|].
  destruct (serialize_leaves_blocks E L P sk true w fr w' fr' s l HP (wsk_prng _ Hw) Es Hs) as [Hb _].
  destruct (nonces_forge E L m m' pp pk sk t msg1 msg2 s1 s2 Hpp Hr Hs1 Hs2 Hne) as (v & c & _ & Hn & H).
  exists (firstn 66 (sk_blob true sk)), v, c. pose proof (wsk_prng _ Hw) as Hp.
  assert (Hf : firstn 66 (sk_blob true sk) = [sec_cs sk; N.of_nat (length (sec_ssk sk)) mod 256] ++ sec_prng sk).
  { unfold sk_blob. rewrite app_assoc. apply firstn_exact. rewrite app_length. unfold prng, bytes in *. rewrite Hp. reflexivity. }
  split; [apply Hb, Hm|]. rewrite Hf. cbn [app skipn length]. unfold prng, bytes in *. split; [rewrite Hp; reflexivity|]. split; [exact Hn|]. exact H.
Qed.
(** A writer that fails. *)
Lemma failed_write_leaves_key : forall (E : env) (L : env_laws E) P m (pp : pubparam E) pk sk w fr e w' fr',
  pp_ok pp -> (pp_depth pp <= 32)%nat -> reachable m pp pk sk ->
  sk_serialize_b P sk true (w, fr) = (Err e, (w', fr')) ->
  exists b, In b fr' /\ from_slice (sk_deserialize true) b = Ok sk.
Proof.
  intros E L P m pp pk sk w fr e w' fr' Hpp Hd Hr Hs.
  pose proof (reachable_sk_representable E L m pp pk sk Hpp Hd Hr) as Hw.
  exists (sk_blob true sk). split; [|apply (slice_sk L), Hw]. revert Hs. unfold sk_serialize_b.
  assert (Hv : valid_cs (sec_cs sk) = true) by (destruct (wsk_cs _ Hw) as [->| ->]; reflexivity). rewrite Hv. cbn [negb].
  unfold sbind at 1 2.
  destruct (append_spec P [as_u8 (N.of_nat (length (sec_ssk sk)))] (vbuf_of [sec_cs sk]) fr (fits_of _)) as (b1 & n1 & -> & D1 & F1 & _).
  destruct (append_spec P (sec_prng sk) b1 (n1 ++ fr) F1) as (b2 & n2 & -> & D2 & F2 & _).
  pose proof (ssks_b_spec P true (sec_ssk sk) b2 (n2 ++ n1 ++ fr) F2) as H.
  assert (Ha : forallb savable (sec_ssk sk) = true).
  { apply forallb_forall. intros s Hi. pose proof (wsk_ssk _ Hw) as Hf. rewrite Forall_forall in Hf. pose proof (wssk_time _ (Hf s Hi)) as Ht.
    unfold savable. apply N.leb_le. lia. }
  rewrite Ha in H. destruct H as (o & n3 & -> & D3 & _). rewrite D3, D2, D1. unfold vbuf_of. cbn [vb_data].
  change (([sec_cs sk] ++ [as_u8 (N.of_nat (length (sec_ssk sk)))]) ++ sec_prng sk) with ([sec_cs sk; as_u8 (N.of_nat (length (sec_ssk sk)))] ++ sec_prng sk).
  rewrite <- app_assoc. change ([sec_cs sk; as_u8 (N.of_nat (length (sec_ssk sk)))] ++ sec_prng sk ++ concat (map (ssk_blob true) (sec_ssk sk))) with (sk_blob true sk).
  destruct (write_all (sk_blob true sk) w) as [[[]|x|p] w2]; intros H; try discriminate H. injection H as <- <- <-. left. reflexivity.
Qed.
