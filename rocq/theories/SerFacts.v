(** Serialization: layouts, round trips, canonicity, absence of panics. *)
From Verif Require Import Base Env Time Hkdf Prng SubKey SecretKey Keys Sig IO Serdes SpecSer PrngFacts
  IOFacts TimeFacts SpecTime SpecKey SubKeyFacts GroupFacts Api.
From Coq Require Import ZifyBool ZifyNat ZifyN.
Local Open Scope N_scope.
Local Arguments N.add : simpl never.
Local Arguments N.mul : simpl never.
Local Arguments N.sub : simpl never.
Local Arguments pow2 : simpl never.

(** * Serializers write the blob *)
Lemma pop_serialize_blob {E} (x : proof E) c :
  pop_serialize x c = if valid_cs (pop_cs x) then write_all (pop_blob c x) else slift (Err E_CIPHERSUITE).
Proof. unfold pop_serialize. destruct (valid_cs (pop_cs x)); reflexivity. Qed.
Lemma pk_serialize_blob {E} (x : pubkey E) c :
  pk_serialize x c = if valid_cs (pk_cs x) then write_all (pk_blob c x) else slift (Err E_CIPHERSUITE).
Proof. unfold pk_serialize. destruct (valid_cs (pk_cs x)); reflexivity. Qed.
Lemma sig_serialize_blob {E} (x : signature E) c :
  sig_serialize x c = if valid_cs (sig_cs x) then
                        if sig_time x <? 2^32 then write_all (sig_blob c x) else slift (Err E_SERIAL)
                      else slift (Err E_CIPHERSUITE).
Proof.
  unfold sig_serialize. destruct (valid_cs (sig_cs x)); [|reflexivity]. cbn [negb].
  change (pow2 32) with (2^32). destruct (N.ltb_spec (sig_time x) (2^32)).
  - replace (2^32 <=? sig_time x) with false by lia. rewrite time_bytes_be4.
    unfold sig_blob. rewrite <- app_assoc. reflexivity.
  - replace (2^32 <=? sig_time x) with true by lia. reflexivity.
Qed.

Lemma fold_app_concat {A} (f : A -> bytes) l : forall b,
  fold_left (fun b e => b ++ f e) l b = b ++ concat (map f l).
Proof.
  induction l as [|a l IH]; intros b; cbn; [symmetry; apply app_nil_r|].
  rewrite IH, <- app_assoc. reflexivity.
Qed.

Lemma ssk_serialize_blob {E} (x : subkey E) c :
  ssk_serialize x c = if sk_t x <=? 2^32 then write_all (ssk_blob c x) else slift (Err E_SERIAL).
Proof.
  unfold ssk_serialize. change (pow2 32) with (2^32). destruct (N.leb_spec (sk_t x) (2^32)).
  - replace (2^32 <? sk_t x) with false by lia. rewrite time_bytes_be4, fold_app_concat.
    unfold ssk_blob, as_u8. rewrite <- !app_assoc. reflexivity.
  - replace (2^32 <? sk_t x) with true by lia. reflexivity.
Qed.

Lemma ssks_serialize_blob {E} (l : list (subkey E)) c : forall out,
  if forallb (fun s => sk_t s <=? 2^32) l
  then ssks_serialize l c (vec_writer out) = (Ok tt, vec_writer (out ++ concat (map (ssk_blob c) l)))
  else exists w, ssks_serialize l c (vec_writer out) = (Err E_SERIAL, w).
Proof.
  induction l as [|s l IH]; intros out; cbn [forallb ssks_serialize map concat].
  - rewrite app_nil_r. reflexivity.
  - unfold sbind. rewrite ssk_serialize_blob. destruct (sk_t s <=? 2^32); cbn [andb].
    + rewrite write_all_vec. specialize (IH (out ++ ssk_blob c s)).
      destruct (forallb _ l); [rewrite IH, <- app_assoc; reflexivity|exact IH].
    + cbn. eauto.
Qed.

Lemma sk_serialize_blob {E} (x : seckey E) c :
  sk_serialize x c = if valid_cs (sec_cs x) then
      if forallb (fun s => sk_t s <=? 2^32) (sec_ssk x)
      then sbind (sret tt) (fun _ => write_all (sk_blob c x)) else sbind (slift (Err E_SERIAL)) (fun b => write_all b)
    else slift (Err E_CIPHERSUITE).
Proof.
  unfold sk_serialize. destruct (valid_cs (sec_cs x)); [|reflexivity]. cbn [negb].
  pose proof (ssks_serialize_blob (sec_ssk x) c (([sec_cs x] ++ [as_u8 (N.of_nat (length (sec_ssk x)))]) ++ sec_prng x)) as H.
  destruct (forallb _ (sec_ssk x)).
  - rewrite H. cbn [w_out vec_writer]. unfold sk_blob, as_u8. rewrite <- !app_assoc. reflexivity.
  - destruct H as (w & ->). reflexivity.
Qed.

(** Every serializer either refuses without touching the writer, or is [write_all] of
    the blob. *)
Definition all_or_nothing (f : st writer unit) (ok : bool) (blob : bytes) : Prop :=
  forall w, if ok then f w = write_all blob w
            else exists e, e <> E_IO /\ f w = (Err e, w).
Lemma pop_aon {E} (x : proof E) c : all_or_nothing (pop_serialize x c) (valid_cs (pop_cs x)) (pop_blob c x).
Proof.
  intros w. rewrite pop_serialize_blob. destruct (valid_cs _); [reflexivity|].
  eexists. split; [|reflexivity]. discriminate.
Qed.
Lemma pk_aon {E} (x : pubkey E) c : all_or_nothing (pk_serialize x c) (valid_cs (pk_cs x)) (pk_blob c x).
Proof.
  intros w. rewrite pk_serialize_blob. destruct (valid_cs _); [reflexivity|].
  eexists. split; [|reflexivity]. discriminate.
Qed.
Lemma sig_aon {E} (x : signature E) c :
  all_or_nothing (sig_serialize x c) (valid_cs (sig_cs x) && (sig_time x <? 2^32)) (sig_blob c x).
Proof.
  intros w. rewrite sig_serialize_blob. destruct (valid_cs _); [destruct (_ <? _); [reflexivity|]|];
  (eexists; split; [|reflexivity]; discriminate).
Qed.
Lemma ssk_aon {E} (x : subkey E) c :
  all_or_nothing (ssk_serialize x c) (sk_t x <=? 2^32) (ssk_blob c x).
Proof.
  intros w. rewrite ssk_serialize_blob. destruct (_ <=? _); [reflexivity|].
  eexists; split; [|reflexivity]; discriminate.
Qed.
Lemma sk_aon {E} (x : seckey E) c :
  all_or_nothing (sk_serialize x c)
    (valid_cs (sec_cs x) && forallb (fun s => sk_t s <=? 2^32) (sec_ssk x)) (sk_blob c x).
Proof.
  intros w. rewrite sk_serialize_blob. destruct (valid_cs _); [destruct (forallb _ _); [reflexivity|]|];
  (eexists; split; [|reflexivity]; discriminate).
Qed.

Lemma aon_write f ok blob : all_or_nothing f ok blob -> forall w,
  (exists e, ok = false /\ e <> E_IO /\ f w = (Err e, w))
  \/ (ok = true /\ exists s, f w = (Ok tt, Writer (w_out w ++ blob) s))
  \/ (ok = true /\ exists k s, f w = (Err E_IO, Writer (w_out w ++ firstn k blob) s)).
Proof.
  intros H w. specialize (H w). destruct ok.
  - right. rewrite H. unfold write_all. destruct (write_all_cases blob (w_script w) (w_out w)) as [(s & ->)|(k & s & ->)]; eauto 10.
  - left. destruct H as (e & He & ->). eauto.
Qed.

Lemma aon_vec f blob out : all_or_nothing f true blob -> f (vec_writer out) = (Ok tt, vec_writer (out ++ blob)).
Proof. intros H. rewrite (H (vec_writer out)). apply write_all_vec. Qed.
Lemma aon_to_vec f blob : all_or_nothing f true blob -> to_vec f = Ok blob.
Proof. intros H. unfold to_vec. rewrite (aon_vec f blob []) by exact H. reflexivity. Qed.
Lemma aon_to_vec_err f blob : all_or_nothing f false blob -> exists e, to_vec f = Err e.
Proof. intros H. unfold to_vec. destruct (H (vec_writer [])) as (e & _ & ->). eauto. Qed.

(** * Parsing a blob *)
Lemma p_take_app n b rest : length b = n -> p_take n (b ++ rest) = Ok (b, rest).
Proof.
  intros H. unfold p_take. rewrite app_length. replace (n <=? length b + length rest)%nat with true by lia.
  rewrite firstn_app_len, skipn_app_len by exact H. reflexivity.
Qed.
Lemma p_g1_app {E} (L : env_laws E) c (x : G1 E) rest : g1_insub x = true ->
  p_g1 c (g1_enc c x ++ rest) = Ok (x, rest).
Proof.
  intros H. unfold p_g1, p_bind. rewrite p_take_app by apply (lc1_len E L). cbn [bind].
  rewrite (lc1_rt E L) by exact H. reflexivity.
Qed.
Lemma p_g2_app {E} (L : env_laws E) c (x : G2 E) rest : g2_insub x = true ->
  p_g2 c (g2_enc c x ++ rest) = Ok (x, rest).
Proof.
  intros H. unfold p_g2, p_bind. rewrite p_take_app by apply (lc2_len E L). cbn [bind].
  rewrite (lc2_rt E L) by exact H. reflexivity.
Qed.

Lemma p_pop_blob {E} (L : env_laws E) c (x : proof E) rest : wf_pop x ->
  p_pop c (pop_blob c x ++ rest) = Ok (x, rest).
Proof.
  intros [Hcs Hin]. unfold p_pop, p_bind, pop_blob. cbn [app].
  change (pop_cs x :: g1_enc c (pop_pop x) ++ rest) with ([pop_cs x] ++ g1_enc c (pop_pop x) ++ rest).
  rewrite p_take_app by reflexivity. cbn [bind nth]. rewrite (proj2 (valid_cs_supported _) Hcs). cbn [negb].
  rewrite (p_g1_app L) by exact Hin. destruct x; reflexivity.
Qed.
Lemma p_pk_blob {E} (L : env_laws E) c (x : pubkey E) rest : wf_pk x ->
  p_pk c (pk_blob c x ++ rest) = Ok (x, rest).
Proof.
  intros [Hcs Hin]. unfold p_pk, p_bind, pk_blob. cbn [app].
  change (pk_cs x :: g2_enc c (pk_pk x) ++ rest) with ([pk_cs x] ++ g2_enc c (pk_pk x) ++ rest).
  rewrite p_take_app by reflexivity. cbn [bind nth]. rewrite (proj2 (valid_cs_supported _) Hcs). cbn [negb].
  rewrite (p_g2_app L) by exact Hin. destruct x; reflexivity.
Qed.
Lemma p_sig_blob {E} (L : env_laws E) (x : signature E) rest : wf_sig x ->
  p_sig true (sig_blob true x ++ rest) = Ok (x, rest).
Proof.
  intros [Hcs Ht H1 H2]. unfold p_sig, p_bind, sig_blob. cbn [app].
  match goal with |- context [p_take 1 (?a :: ?l)] => change (a :: l) with ([a] ++ l) end.
  rewrite p_take_app by reflexivity. cbn [bind nth]. rewrite <- !app_assoc.
  rewrite p_take_app by reflexivity. cbn [bind]. rewrite from_be4_be4 by lia.
  replace (sig_time x =? 0) with false by lia. rewrite (proj2 (valid_cs_supported _) Hcs). cbn [negb].
  rewrite (p_g2_app L) by exact H1. cbn [bind]. rewrite (p_g1_app L) by exact H2. destruct x; reflexivity.
Qed.
Lemma p_hv_blob {E} (L : env_laws E) c : forall (l : list (G1 E)) rest,
  Forall (fun h => g1_insub h = true) l ->
  p_hv c (length l) (concat (map (g1_enc c) l) ++ rest) = Ok (l, rest).
Proof.
  induction l as [|a l IH]; intros rest H; [reflexivity|]. inversion H; subst.
  cbn [length p_hv map concat]. unfold p_bind. rewrite <- app_assoc, (p_g1_app L) by assumption. cbn [bind].
  rewrite IH by assumption. reflexivity.
Qed.
Lemma p_ssk_blob {E} (L : env_laws E) c (x : subkey E) rest : wf_ssk x ->
  p_ssk c (ssk_blob c x ++ rest) = Ok (x, rest).
Proof.
  intros [Ht Hl H1 H2 Hhv]. unfold p_ssk, p_bind, ssk_blob. rewrite <- !app_assoc.
  rewrite p_take_app by reflexivity. cbn [bind]. rewrite from_be4_be4 by lia.
  replace (sk_t x =? 0) with false by lia. cbn [app p_hvlen bind].
  rewrite (p_g2_app L) by exact H1. cbn [bind]. rewrite (p_g1_app L) by exact H2. cbn [bind].
  rewrite N.mod_small by lia. rewrite Nat2N.id, (p_hv_blob L) by exact Hhv. destruct x; reflexivity.
Qed.
Lemma p_ssks_blob {E} (L : env_laws E) c : forall (l : list (subkey E)) rest,
  Forall wf_ssk l -> p_ssks c (length l) (concat (map (ssk_blob c) l) ++ rest) = Ok (l, rest).
Proof.
  induction l as [|a l IH]; intros rest H; [reflexivity|]. inversion H; subst.
  cbn [length p_ssks map concat]. unfold p_bind. rewrite <- app_assoc, (p_ssk_blob L) by assumption. cbn [bind].
  rewrite IH by assumption. reflexivity.
Qed.
Lemma p_sk_blob {E} (L : env_laws E) c (x : seckey E) rest : wf_sk x ->
  p_sk c (sk_blob c x ++ rest) = Ok (x, rest).
Proof.
  intros [Hcs Hn Hp Ht Hs]. unfold p_sk, p_bind, sk_blob. rewrite <- !app_assoc.
  rewrite p_take_app by reflexivity. cbn [bind]. rewrite p_take_app by exact Hp. cbn [bind nth].
  rewrite (proj2 (valid_cs_supported _) Hcs). cbn [negb]. rewrite N.mod_small by lia.
  replace (N.of_nat (length (sec_ssk x)) =? 0) with false by lia. rewrite Nat2N.id.
  destruct x as [cs t l g]. cbn [sec_cs sec_time sec_ssk sec_prng] in *.
  destruct l as [|s l]; [cbn in Hn; lia|]. cbn [firstn map] in Ht. injection Ht as Ht.
  inversion Hs; subst. cbn [map concat length]. rewrite <- app_assoc, (p_ssk_blob L) by assumption. cbn [bind].
  replace (S (length l) - 1)%nat with (length l) by lia.
  rewrite (p_ssks_blob L) by assumption. reflexivity.
Qed.

(** * Canonicity *)
Lemma p_take_inv n b x rest : p_take n b = Ok (x, rest) -> b = x ++ rest /\ length x = n.
Proof.
  unfold p_take. destruct (Nat.leb_spec n (length b)); [|discriminate]. intros [= <- <-].
  split; [symmetry; apply firstn_skipn|rewrite firstn_length; lia].
Qed.
Lemma p_bind_inv {A B} (p : bytes -> res (A * bytes)) (q : A -> bytes -> res (B * bytes)) b y rest :
  p_bind p q b = Ok (y, rest) -> exists x b', p b = Ok (x, b') /\ q x b' = Ok (y, rest).
Proof.
  unfold p_bind. destruct (p b) as [[x b']| |]; cbn [bind]; try discriminate. eauto.
Qed.
Lemma p_g1_inv {E} c b (x : G1 E) rest : p_g1 c b = Ok (x, rest) ->
  exists e, b = e ++ rest /\ length e = g1_size c /\ g1_dec c e = Some x.
Proof.
  intros H. apply p_bind_inv in H as (e & b' & H1 & H2). apply p_take_inv in H1 as [-> Hl].
  unfold p_lift in H2. destruct (g1_dec c e) eqn:Ed; [|discriminate]. injection H2 as <- <-. eauto.
Qed.
Lemma p_g2_inv {E} c b (x : G2 E) rest : p_g2 c b = Ok (x, rest) ->
  exists e, b = e ++ rest /\ length e = g2_size c /\ g2_dec c e = Some x.
Proof.
  intros H. apply p_bind_inv in H as (e & b' & H1 & H2). apply p_take_inv in H1 as [-> Hl].
  unfold p_lift in H2. destruct (g2_dec c e) eqn:Ed; [|discriminate]. injection H2 as <- <-. eauto.
Qed.
Lemma are_bytes_app a b : are_bytes (a ++ b) <-> are_bytes a /\ are_bytes b.
Proof. apply Forall_app. Qed.
Lemma p_g1_canon {E} (L : env_laws E) b (x : G1 E) rest : are_bytes b -> p_g1 true b = Ok (x, rest) ->
  b = g1_enc true x ++ rest /\ are_bytes rest.
Proof.
  intros Hb H. apply p_g1_inv in H as (e & -> & Hl & Hd). apply are_bytes_app in Hb as [He Hr].
  split; [|exact Hr]. f_equal. symmetry. eapply (lc1_canon E L); eauto.
Qed.
Lemma p_g2_canon {E} (L : env_laws E) b (x : G2 E) rest : are_bytes b -> p_g2 true b = Ok (x, rest) ->
  b = g2_enc true x ++ rest /\ are_bytes rest.
Proof.
  intros Hb H. apply p_g2_inv in H as (e & -> & Hl & Hd). apply are_bytes_app in Hb as [He Hr].
  split; [|exact Hr]. f_equal. symmetry. eapply (lc2_canon E L); eauto.
Qed.
Lemma len1 {A} (l : list A) d : length l = 1%nat -> l = [nth 0 l d].
Proof. destruct l as [|a [|]]; try discriminate. reflexivity. Qed.

Lemma p_pop_canon {E} (L : env_laws E) b (x : proof E) rest : are_bytes b -> p_pop true b = Ok (x, rest) ->
  b = pop_blob true x ++ rest.
Proof.
  intros Hb H. apply p_bind_inv in H as (k & b' & H1 & H2). apply p_take_inv in H1 as [-> Hl].
  apply are_bytes_app in Hb as [Hk Hb']. cbv zeta in H2. destruct (negb _); [discriminate|].
  apply p_bind_inv in H2 as (y & b'' & H2 & H3). injection H3 as <- <-.
  apply (p_g1_canon L) in H2 as [-> _]; [|exact Hb']. rewrite (len1 k 0 Hl) at 1. reflexivity.
Qed.
Lemma p_pk_canon {E} (L : env_laws E) b (x : pubkey E) rest : are_bytes b -> p_pk true b = Ok (x, rest) ->
  b = pk_blob true x ++ rest.
Proof.
  intros Hb H. apply p_bind_inv in H as (k & b' & H1 & H2). apply p_take_inv in H1 as [-> Hl].
  apply are_bytes_app in Hb as [Hk Hb']. cbv zeta in H2. destruct (negb _); [discriminate|].
  apply p_bind_inv in H2 as (y & b'' & H2 & H3). injection H3 as <- <-.
  apply (p_g2_canon L) in H2 as [-> _]; [|exact Hb']. rewrite (len1 k 0 Hl) at 1. reflexivity.
Qed.
Lemma p_sig_canon {E} (L : env_laws E) b (x : signature E) rest : are_bytes b -> p_sig true b = Ok (x, rest) ->
  b = sig_blob true x ++ rest.
Proof.
  intros Hb H. apply p_bind_inv in H as (k & b' & H1 & H). apply p_take_inv in H1 as [-> Hl].
  apply are_bytes_app in Hb as [Hk Hb].
  apply p_bind_inv in H as (tb & b'' & H1 & H). apply p_take_inv in H1 as [-> Hl'].
  apply are_bytes_app in Hb as [Htb Hb]. cbv zeta in H. destruct (_ =? 0); [discriminate|].
  destruct (negb _); [discriminate|].
  apply p_bind_inv in H as (s1 & b1 & H1 & H). apply (p_g2_canon L) in H1 as [-> Hb1]; [|exact Hb].
  cbn [negb] in H. apply p_bind_inv in H as (s2 & b2 & H1 & H). apply (p_g1_canon L) in H1 as [-> _]; [|exact Hb1].
  injection H as <- <-. unfold sig_blob. cbn [sig_cs sig_time sig_1 sig_2 app].
  rewrite (proj1 (be4_from_be4 tb Htb Hl')). rewrite (len1 k 0 Hl) at 1. rewrite <- !app_assoc. reflexivity.
Qed.
Lemma p_hv_canon {E} (L : env_laws E) : forall n b (l : list (G1 E)) rest, are_bytes b ->
  p_hv true n b = Ok (l, rest) ->
  b = concat (map (g1_enc true) l) ++ rest /\ are_bytes rest /\ length l = n.
Proof.
  induction n as [|n IH]; intros b l rest Hb H; cbn [p_hv] in H.
  - injection H as <- <-. auto.
  - apply p_bind_inv in H as (x & b1 & H1 & H). apply (p_g1_canon L) in H1 as [-> Hb1]; [|exact Hb].
    apply p_bind_inv in H as (l' & b2 & H1 & H). apply IH in H1 as (-> & Hr & <-); [|exact Hb1].
    injection H as <- <-. cbn [map concat length]. rewrite <- app_assoc. auto.
Qed.
Lemma p_ssk_canon {E} (L : env_laws E) b (x : subkey E) rest : are_bytes b -> p_ssk true b = Ok (x, rest) ->
  b = ssk_blob true x ++ rest /\ are_bytes rest.
Proof.
  intros Hb H. apply p_bind_inv in H as (tb & b' & H1 & H). apply p_take_inv in H1 as [-> Hl].
  apply are_bytes_app in Hb as [Htb Hb]. cbv zeta in H. destruct (_ =? 0); [discriminate|].
  apply p_bind_inv in H as (n & b'' & H1 & H).
  apply p_bind_inv in H as (s1 & b1 & H2 & H).
  destruct b' as [|n' b0].
  { injection H1 as <- <-. apply p_g2_inv in H2 as (e & He & Hle & _).
    symmetry in He. apply app_eq_nil in He as [-> _]. discriminate. }
  injection H1 as <- <-. inversion Hb as [|? ? Hn Hb0]; subst.
  apply (p_g2_canon L) in H2 as [-> Hb1]; [|exact Hb0].
  apply p_bind_inv in H as (s2 & b2 & H1 & H). apply (p_g1_canon L) in H1 as [-> Hb2]; [|exact Hb1].
  apply p_bind_inv in H as (hv & b3 & H1 & H). apply (p_hv_canon L) in H1 as (-> & Hb3 & Hlen); [|exact Hb2].
  injection H as <- <-. split; [|exact Hb3].
  unfold ssk_blob. cbn [sk_t sk_hvec sk_g2r sk_hpoly]. rewrite (proj1 (be4_from_be4 tb Htb Hl)).
  rewrite Hlen, N2Nat.id, N.mod_small by exact Hn. rewrite <- !app_assoc. reflexivity.
Qed.
Lemma p_ssks_canon {E} (L : env_laws E) : forall n b (l : list (subkey E)) rest, are_bytes b ->
  p_ssks true n b = Ok (l, rest) ->
  b = concat (map (ssk_blob true) l) ++ rest /\ are_bytes rest /\ length l = n.
Proof.
  induction n as [|n IH]; intros b l rest Hb H; cbn [p_ssks] in H.
  - injection H as <- <-. auto.
  - apply p_bind_inv in H as (x & b1 & H1 & H). apply (p_ssk_canon L) in H1 as [-> Hb1]; [|exact Hb].
    apply p_bind_inv in H as (l' & b2 & H1 & H). apply IH in H1 as (-> & Hr & <-); [|exact Hb1].
    injection H as <- <-. cbn [map concat length]. rewrite <- app_assoc. auto.
Qed.
Lemma p_sk_canon {E} (L : env_laws E) b (x : seckey E) rest : are_bytes b -> p_sk true b = Ok (x, rest) ->
  b = sk_blob true x ++ rest.
Proof.
  intros Hb H. apply p_bind_inv in H as (k & b' & H1 & H). apply p_take_inv in H1 as [-> Hl].
  apply are_bytes_app in Hb as [Hk Hb].
  apply p_bind_inv in H as (g & b'' & H1 & H). apply p_take_inv in H1 as [-> Hl'].
  apply are_bytes_app in Hb as [Hg Hb]. cbv zeta in H. destruct (negb _); [discriminate|].
  destruct (_ =? 0) eqn:En; [discriminate|].
  apply p_bind_inv in H as (s1 & b1 & H1 & H). apply (p_ssk_canon L) in H1 as [-> Hb1]; [|exact Hb].
  apply p_bind_inv in H as (l & b2 & H1 & H). apply (p_ssks_canon L) in H1 as (-> & _ & Hlen); [|exact Hb1].
  injection H as <- <-. unfold sk_blob. cbn [sec_cs sec_time sec_ssk sec_prng map concat length].
  destruct k as [|cs [|num [|]]]; try discriminate. cbn [nth] in *.
  inversion Hk as [|? ? _ Hk1]; subst. inversion Hk1 as [|? ? Hnum _]; subst. unfold is_byte in Hnum.
  rewrite Hlen. replace (N.of_nat (S (N.to_nat num - 1))) with num by lia.
  rewrite N.mod_small by exact Hnum. rewrite <- !app_assoc. reflexivity.
Qed.

(** * No panics *)
Definition no_panic {A} (f : st reader A) : Prop := forall r, is_panic (fst (f r)) = false.
Lemma np_take n : no_panic (read_exact n).
Proof.
  intros r. destruct (Nat.le_gt_cases n (length (content r))) as [H|H].
  - destruct (read_exact_ok _ rclass_any r n I H) as (r' & -> & _). reflexivity.
  - destruct (read_exact_err r n H) as (r' & ->). reflexivity.
Qed.
Lemma np_bind {A B} (f : st reader A) (k : A -> st reader B) :
  no_panic f -> (forall a, no_panic (k a)) -> no_panic (sbind f k).
Proof.
  intros Hf Hk r. unfold sbind. specialize (Hf r). destruct (f r) as [[a|e|p] r']; [apply Hk|reflexivity|exact Hf].
Qed.
Lemma np_ret {A} (a : A) : no_panic (sret a).
Proof. intros r. reflexivity. Qed.
Lemma np_err {A} e : no_panic (@slift reader A (Err e)).
Proof. intros r. reflexivity. Qed.
Lemma np_g1 {E : env} c : no_panic (@g1_read E c).
Proof. apply np_bind; [apply np_take|]. intros b r. cbn. destruct (g1_dec c b); reflexivity. Qed.
Lemma np_g2 {E : env} c : no_panic (@g2_read E c).
Proof. apply np_bind; [apply np_take|]. intros b r. cbn. destruct (g2_dec c b); reflexivity. Qed.
Lemma np_if {A} (c : bool) (f g : st reader A) : no_panic f -> no_panic g -> no_panic (if c then f else g).
Proof. destruct c; auto. Qed.
Lemma np_pop {E : env} c : no_panic (@pop_deserialize E c).
Proof.
  apply np_bind; [apply np_take|]. intros k. apply np_if; [apply np_err|].
  apply np_bind; [apply np_g1|]. intros; apply np_ret.
Qed.
Lemma np_pk {E : env} c : no_panic (@pk_deserialize E c).
Proof.
  apply np_bind; [apply np_take|]. intros k. apply np_if; [apply np_err|].
  apply np_bind; [apply np_g2|]. intros; apply np_ret.
Qed.
Lemma np_sig {E : env} c : no_panic (@sig_deserialize E c).
Proof.
  apply np_bind; [apply np_take|]. intros k. apply np_bind; [apply np_take|]. intros tb.
  apply np_if; [apply np_err|]. apply np_if; [apply np_err|].
  apply np_bind; [apply np_g2|]. intros s1. apply np_if; [apply np_err|].
  apply np_bind; [apply np_g1|]. intros s2. apply np_if; [apply np_err|]. apply np_ret.
Qed.
Lemma np_hv {E : env} c n : no_panic (@hv_read E c n).
Proof.
  induction n; cbn [hv_read]; [apply np_ret|]. apply np_bind; [apply np_g1|]. intros x.
  apply np_bind; [exact IHn|]. intros; apply np_ret.
Qed.
Lemma np_ssk {E : env} c : no_panic (@ssk_deserialize E c).
Proof.
  apply np_bind; [apply np_take|]. intros tb. apply np_if; [apply np_err|].
  apply np_bind.
  { intros r. destruct r as [|[[|b bs]| |] r]; reflexivity. }
  intros n. apply np_bind; [apply np_g2|]. intros s1. apply np_bind; [apply np_g1|]. intros s2.
  apply np_bind; [apply np_hv|]. intros; apply np_ret.
Qed.
Lemma np_ssks {E : env} c n : no_panic (@ssks_read E c n).
Proof.
  induction n; cbn [ssks_read]; [apply np_ret|]. apply np_bind; [apply np_ssk|]. intros x.
  apply np_bind; [exact IHn|]. intros; apply np_ret.
Qed.
Lemma np_sk {E : env} c : no_panic (@sk_deserialize E c).
Proof.
  apply np_bind; [apply np_take|]. intros k. apply np_bind; [apply np_take|]. intros g.
  apply np_if; [apply np_err|]. apply np_if; [apply np_err|].
  apply np_bind; [apply np_ssk|]. intros s. apply np_bind; [apply np_ssks|]. intros; apply np_ret.
Qed.

(** * Good keys are representable *)
Lemma tiling_length d t l : (1 <= d < 64)%nat -> tiling d t l -> 1 <= t <= last_time d -> (1 <= length l <= d)%nat.
Proof.
  intros Hd Ht Hr. destruct (node_at_ex _ _ Hr) as [v Hn].
  destruct (gamma_list_spec Debug d t v ltac:(lia) Hn) as (pl & _ & _ & Htil & Hlen & pl' & Hpl).
  rewrite (tiling_fun _ _ _ _ Ht Htil), map_length.
  split; [|exact Hlen]. rewrite Hpl. cbn. lia.
Qed.

Lemma honest_wf {E} (L : env_laws E) (pp : pubparam E) x s :
  pp_ok pp -> (pp_depth pp <= 32)%nat -> honest pp x s -> wf_ssk s.
Proof.
  intros Hpp Hd (v & r & Hn & Hs). pose proof (node_at_range _ _ _ Hn) as Hr.
  destruct (node_at_turn _ _ _ Hn) as [_ Hl]. rewrite Hs. constructor; cbn [honest_ssk sk_t sk_g2r sk_hpoly].
  - split; [lia|]. unfold last_time in Hr. pose proof (pow2_le _ _ Hd). change (pow2 32) with (2^32) in *. lia.
  - rewrite honest_hvec_len by exact Hpp. lia.
  - apply (g2_mul_insub L), Hpp.
  - apply (l1_sub_add E L); apply (g1_mul_insub L); [apply Hpp|apply (node_val_insub L), Hpp].
  - cbn [sk_hvec]. apply Forall_map. eapply Forall_impl; [|apply Forall_firstn, Forall_skipn, (ppo_hlist pp Hpp)].
    intros a Ha. apply (g1_mul_insub L), Ha.
Qed.

Lemma good_wf {E} (L : env_laws E) (pp : pubparam E) x sk :
  pp_ok pp -> (pp_depth pp <= 32)%nat -> valid_cs (pp_cs pp) = true -> good_sk pp x sk -> wf_sk sk.
Proof.
  intros Hpp Hd Hcs [Hc Ht Htil Hh [Hp _]]. pose proof (ppo_depth pp Hpp).
  pose proof (tiling_length (pp_depth pp) _ _ ltac:(lia) Htil Ht) as Hl. rewrite map_length in Hl.
  constructor.
  - rewrite Hc. apply valid_cs_supported, Hcs.
  - lia.
  - exact Hp.
  - destruct (sec_ssk sk) as [|s l]; [cbn in Hl; lia|]. cbn [firstn map] in *.
    f_equal. inversion Htil; subst; reflexivity.
  - eapply Forall_impl; [|exact Hh]. intros s. apply (honest_wf L); assumption.
Qed.

Lemma reload_wf {E} (L : env_laws E) c (sk : seckey E) : wf_sk sk -> reload c sk = (Ok tt, sk).
Proof.
  intros Hw. unfold reload.
  assert (Hok : valid_cs (sec_cs sk) && forallb (fun s => sk_t s <=? 2^32) (sec_ssk sk) = true).
  { rewrite (proj2 (valid_cs_supported _) (wsk_cs _ Hw)). apply forallb_forall. intros s Hs.
    pose proof (proj1 (Forall_forall _ _) (wsk_ssk _ Hw) s Hs) as [Ht _ _ _ _]. lia. }
  pose proof (sk_aon sk c) as Ha. rewrite Hok in Ha. rewrite (aon_to_vec _ _ Ha).
  rewrite (parses_slice calm _ _ _ (calm_slice _) (parses_sk c)).
  rewrite <- (app_nil_r (sk_blob c sk)), (p_sk_blob L) by exact Hw. reflexivity.
Qed.
