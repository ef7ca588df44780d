(** The test vector programs. *)
From Coq Require Import ZifyBool ZifyNat ZifyN.
From Verif Require Import Base Env Time SubKey SecretKey Keys Sig IO Serdes Api Ffi Python Programs.
From Verif Require Import SpecTime TimeFacts GroupFacts SpecPrng PrngFacts SpecKey SubKeyFacts SpecUpdate UpdateFacts KeyFacts.
From Verif Require Import SpecSer IOFacts SerFacts HistoryFacts KeyProps SerProps SpecFfi FfiProps SpecPy PyProps SpecRand RandProps SpecColl CollProps SpecProg.
Local Open Scope N_scope.

(** * One step of the generator *)
Lemma reachable_update {E} m (pp : pubparam E) pk sk t seed sk' :
  reachable m pp pk sk -> update m pp t seed sk = (Ok tt, sk') -> reachable m pp pk sk'.
Proof.
  intros Hr Hu. pose proof (reachable_run m pp pk sk [OpUpdate t seed] Hr) as H1. cbn [run step] in H1. unfold sbind in H1.
  rewrite Hu in H1. exact H1.
Qed.

Lemma sign_now {E} (L : env_laws E) m (pp : pubparam E) pk sk msg :
  pp_ok pp -> (pp_depth pp <= 32)%nat -> reachable m pp pk sk ->
  exists s, sign_present m (sec_time sk) pp msg sk = (Ok s, sk) /\ wf_sig s /\ sig_time s = sec_time sk
            /\ verify m s pk pp msg = Ok true.
Proof.
  intros Hpp Hd Hr. destruct (reachable_good L m pp pk sk Hpp Hr) as (x & _ & Hpk & Hg & Hcs).
  pose proof (sign_present_cases L m pp x sk (sec_time sk) msg Hpp Hcs Hg) as Hs. rewrite N.eqb_refl in Hs.
  destruct Hs as (s & Hs & Hgs). exists s. split; [exact Hs|]. split; [|split].
  - apply (reachable_sig_representable E L m pp pk sk (OpSignPresent (sec_time sk) msg) s sk Hpp Hd Hr).
    cbn [step]. unfold sbind. rewrite Hs. reflexivity.
  - destruct Hgs as (v & k & _ & ->). reflexivity.
  - rewrite Hpk. apply (good_sig_verifies L m pp x (sec_time sk) msg s); auto.
Qed.

Lemma rs_step_ok {E} (L : env_laws E) m (pp : pubparam E) kseed l pk sk tar nsk nsig :
  pp_ok pp -> (pp_depth pp <= 32)%nat -> reached m pp kseed l pk sk -> sec_time sk < tar <= last_time (pp_depth pp) ->
  (update m pp tar RNGSEED sk = (Panic P_PRNG, sk) /\ rs_step m pp pk sk tar nsk nsig = Panic P_PRNG
   /\ breaks_at m pp kseed l RNGSEED)
  \/ exists sk' s, update m pp tar RNGSEED sk = (Ok tt, sk') /\ reached m pp kseed (l ++ [OpUpdate tar RNGSEED]) pk sk' /\ sec_time sk' = tar
       /\ sign_present m tar pp MSG sk' = (Ok s, sk') /\ wf_sig s /\ sig_time s = tar
       /\ verify m s pk pp MSG = Ok true
       /\ rs_step m pp pk sk tar nsk nsig = Ok ([(nsk, sk_blob true sk'); (nsig, sig_blob true s)], sk').
Proof.
  intros Hpp Hd Hr0 Ht. pose proof (reached_reachable m pp kseed l pk sk Hr0) as Hr.
  destruct (reachable_good L m pp pk sk Hpp Hr) as (x & _ & _ & Hg & _).
  unfold rs_step, run_mut.
  destruct (update_good_ok L m pp x sk tar RNGSEED Hpp Hg Ht) as [(sk' & Hu & _ & Ht')|Hu]; rewrite Hu;
    [right|left; split; [reflexivity|]; split; [reflexivity|]].
  2: { apply (reached_update_panic L m pp kseed l pk sk tar RNGSEED P_PRNG sk Hpp Hd Hr0 Hu). }
  pose proof (reached_update m pp kseed l pk sk tar RNGSEED sk' Hr0 Hu) as Hr0'.
  pose proof (reached_reachable m pp kseed _ pk sk' Hr0') as Hr'.
  destruct (sign_now L m pp pk sk' MSG Hpp Hd Hr') as (s & Hs & Hws & Hst & Hv). rewrite Ht' in Hs, Hst.
  exists sk', s. cbn [unwrap bind]. rewrite Hs. cbn [fst unwrap bind]. rewrite Hv. unfold assert_true. cbn [bind].
  destruct (sk_roundtrip E L true sk' (reachable_sk_representable E L m pp pk sk' Hpp Hd Hr')) as (-> & _).
  destruct (sig_roundtrip E L s Hws) as (-> & _). cbn [bind]. auto 10.
Qed.

Lemma step_files_ok {E} (L : env_laws E) m (pp : pubparam E) pk pop sk s nsk nsig :
  pp_ok pp -> (pp_depth pp <= 32)%nat -> reachable m pp pk sk -> wf_sig s -> sig_time s = sec_time sk ->
  verify m s pk pp MSG = Ok true ->
  (nsk = SkBin (sec_time sk) \/ exists c, nsk = SkFf c (sec_time sk)) ->
  (nsig = SigBin (sec_time sk) \/ exists c, nsig = SigFf c (sec_time sk)) ->
  Forall (file_ok m pp pk pop) [(nsk, sk_blob true sk); (nsig, sig_blob true s)].
Proof.
  intros Hpp Hd Hr Hw Ht Hv H1 H2.
  assert (Ha : exists k : seckey E, from_slice (sk_deserialize true) (sk_blob true sk) = Ok k /\ sec_time k = sec_time sk
               /\ sk_validate m k pk pp = Ok true).
  { exists sk. split; [apply (slice_sk L), (reachable_sk_representable E L m pp pk sk Hpp Hd Hr)|]. split; [reflexivity|].
    destruct (reachable_good L m pp pk sk Hpp Hr) as (x & _ & -> & Hg & _). apply (validate_good L); auto. }
  assert (Hb : exists k : signature E, from_slice (sig_deserialize true) (sig_blob true s) = Ok k /\ sig_time k = sec_time sk
               /\ verify m k pk pp MSG = Ok true).
  { exists s. split; [apply (slice_sig L), Hw|]. auto. }
  constructor; [|constructor; [|constructor]]; unfold file_ok; cbn [fst snd].
  - destruct H1 as [-> |(c & ->)]; exact Ha.
  - destruct H2 as [-> |(c & ->)]; exact Hb.
Qed.

Lemma range_cons a b : (a < b)%nat -> range a b = N.of_nat a :: range (S a) b.
Proof. intros H. unfold range. replace (b - a)%nat with (S (b - S a)) by lia. reflexivity. Qed.
Lemma range_nil a b : (b <= a)%nat -> range a b = [].
Proof. intros H. unfold range. replace (b - a)%nat with 0%nat by lia. reflexivity. Qed.

Definition upd (t : N) : op := OpUpdate t RNGSEED.
Lemma rs_seq_ok {E} (L : env_laws E) m (pp : pubparam E) pk pop kseed :
  pp_ok pp -> (pp_depth pp <= 32)%nat ->
  forall n a b l sk, n = (b - a)%nat -> N.of_nat b <= 1 + last_time (pp_depth pp) ->
  reached m pp kseed l pk sk -> sec_time sk + 1 = N.of_nat a ->
  (rs_seq m pp pk sk (range a b) = Panic P_PRNG /\ breaks m pp [(kseed, l ++ map upd (range a b))])
  \/ exists fs, rs_seq m pp pk sk (range a b) = Ok fs
       /\ map fst fs = flat_map (fun i => [SkBin i; SigBin i]) (range a b)
       /\ Forall (file_ok m pp pk pop) fs.
Proof.
  intros Hpp Hd. induction n as [|n IH]; intros a b l sk Hn Hb Hr Ht.
  - right. exists []. rewrite range_nil by lia. cbn. auto.
  - rewrite range_cons by lia. cbn [rs_seq flat_map map].
    destruct (rs_step_ok L m pp kseed l pk sk (N.of_nat a) (SkBin (N.of_nat a)) (SigBin (N.of_nat a)) Hpp Hd Hr ltac:(lia))
      as [(_ & -> & Hrep)|(sk' & s & _ & Hr' & Ht' & _ & Hw & Hst & Hv & ->)];
      [left; split; [reflexivity|apply (breaks_here m pp kseed l (upd (N.of_nat a)) _ RNGSEED eq_refl Hrep)]|]. cbn [bind].
    destruct (IH (S a) b _ sk' ltac:(lia) Hb Hr' ltac:(lia)) as [[-> Hrep]|(fs & -> & Hm & Hf)];
      [left; rewrite snoc_cons in Hrep; auto|right].
    eexists. split; [reflexivity|]. split; [cbn [app map fst]; rewrite Hm; reflexivity|].
    apply Forall_app. split; [|exact Hf]. apply (step_files_ok L); auto; try congruence; try (rewrite Ht'; auto).
    apply (reached_reachable m pp kseed _ pk sk' Hr').
Qed.

Lemma tri_next a : (2 <= a)%nat -> N.of_nat (a * (a - 1) / 2) + N.of_nat a = N.of_nat (S a * (S a - 1) / 2).
Proof.
  intros H. replace (S a * (S a - 1))%nat with (a * (a - 1) + a * 2)%nat by nia.
  rewrite Nat.div_add by lia. lia.
Qed.
Lemma tri_N a : (2 <= a)%nat -> N.of_nat a * (N.of_nat a - 1) / 2 = N.of_nat (a * (a - 1) / 2)
  /\ N.of_nat a * (N.of_nat a + 1) / 2 = N.of_nat (S a * (S a - 1) / 2).
Proof.
  intros H. rewrite !Nat2N.inj_div, !Nat2N.inj_mul, !Nat2N.inj_sub. split; [reflexivity|].
  f_equal. lia.
Qed.
Lemma tri_le a b : (2 <= a <= b)%nat -> (a * (a - 1) / 2 <= b * (b - 1) / 2)%nat.
Proof. intros H. apply Nat.div_le_mono; [lia|]. nia. Qed.

Lemma add64_ok m a b : a + b < two64 -> add64 m a b = Ok (a + b).
Proof. intros H. unfold add64. replace (a + b <? two64) with true by lia. reflexivity. Qed.

Lemma rs_ff_ok {E} (L : env_laws E) m (pp : pubparam E) pk pop kseed :
  pp_ok pp -> (pp_depth pp <= 32)%nat ->
  forall n a b l sk, n = (b - a)%nat -> (2 <= a)%nat -> N.of_nat (b * (b - 1) / 2) <= last_time (pp_depth pp) ->
  reached m pp kseed l pk sk -> sec_time sk = N.of_nat (a * (a - 1) / 2) ->
  (rs_ff m pp pk sk (range a b) = Panic P_PRNG /\ breaks m pp [(kseed, l ++ map (fun i => upd (i * (i + 1) / 2)) (range a b))])
  \/ exists fs, rs_ff m pp pk sk (range a b) = Ok fs
       /\ map fst fs = flat_map jump_names (range a b)
       /\ Forall (file_ok m pp pk pop) fs.
Proof.
  intros Hpp Hd. induction n as [|n IH]; intros a b l sk Hn Ha Hb Hr Ht.
  - right. exists []. rewrite range_nil by lia. cbn. auto.
  - rewrite range_cons by lia. cbn [rs_ff flat_map map]. cbv zeta.
    pose proof (tri_next a Ha) as Hnext. pose proof (tri_le (S a) b ltac:(lia)) as Hle.
    pose proof (last_time_32 _ Hd) as H32.
    rewrite add64_ok by (rewrite Ht, Hnext; unfold two64; lia). cbn [bind].
    assert (Htar : sec_time sk + N.of_nat a = N.of_nat (S a * (S a - 1) / 2)) by (rewrite Ht; exact Hnext).
    assert (Hnames : jump_names (N.of_nat a) = [SkFf (sec_time sk) (sec_time sk + N.of_nat a); SigFf (sec_time sk) (sec_time sk + N.of_nat a)]).
    { unfold jump_names. destruct (tri_N a Ha) as [-> ->]. rewrite Htar, Ht. reflexivity. }
    rewrite Hnames. assert (Hsum : N.of_nat a * (N.of_nat a + 1) / 2 = sec_time sk + N.of_nat a) by (rewrite Htar; apply (tri_N a Ha)).
    rewrite Hsum. revert Htar. set (tar := sec_time sk + N.of_nat a). intros Htar.
    destruct (rs_step_ok L m pp kseed l pk sk tar (SkFf (sec_time sk) tar) (SigFf (sec_time sk) tar) Hpp Hd Hr ltac:(lia))
      as [(_ & -> & Hrep)|(sk' & s & _ & Hr' & Ht' & _ & Hw & Hst & Hv & ->)];
      [left; split; [reflexivity|apply (breaks_here m pp kseed l (upd tar) _ RNGSEED eq_refl Hrep)]|]. cbn [bind].
    destruct (IH (S a) b _ sk' ltac:(lia) ltac:(lia) Hb Hr' ltac:(lia)) as [[-> Hrep]|(fs & -> & Hm & Hf)];
      [left; rewrite snoc_cons in Hrep; auto|right].
    eexists. split; [reflexivity|]. split; [cbn [app map fst]; rewrite Hm; reflexivity|].
    apply Forall_app. split; [|exact Hf]. apply (step_files_ok L); auto; try congruence; try (rewrite Ht'; eauto).
    apply (reached_reachable m pp kseed _ pk sk' Hr').
Qed.

Lemma SEED_len : (32 <= length SEED)%nat.
Proof. vm_compute. lia. Qed.

Lemma keygen_ok {E} (L : env_laws E) m (pp : pubparam E) seed :
  pp_ok pp -> valid_cs (pp_cs pp) = true -> (32 <= length seed)%nat ->
  exists pk sk pop, key_gen seed pp = Ok (pk, sk, pop) /\ wf_pk pk /\ wf_pop pop /\ pk_cs pk = pp_cs pp
    /\ reachable m pp pk sk /\ sec_time sk = 1.
Proof.
  intros Hpp Hcs Hs. pose proof (key_gen_spec L pp seed Hs Hcs Hpp) as Hk.
  match type of Hk with _ = Ok (?a, ?b, ?c) => exists a, b, c; set (A := a) in *; set (B := b) in *; set (C := c) in * end.
  destruct (keygen_representable E L pp seed _ _ _ Hpp Hk) as [Hwk Hwp].
  split; [exact Hk|]. split; [exact Hwk|]. split; [exact Hwp|]. split; [reflexivity|].
  split; [|reflexivity]. exists seed, B, C, []. auto.
Qed.

Lemma rs_main_outcome : forall (E : env) (L : env_laws E) m (pp : pubparam E),
  pp_ok pp -> (pp_depth pp <= 32)%nat -> 2016 <= last_time (pp_depth pp) -> supported (pp_cs pp) -> pp_g2 pp = g2_one ->
  (rs_main m pp = Panic P_PRNG /\ breaks m pp [(SEED, seq_ops); (SEED, jump_ops)])
  \/ exists files pk pop, rs_main m pp = Ok files /\ map fst files = vector_names
       /\ pk_validate pk pop = true /\ Forall (file_ok m pp pk pop) files.
Proof.
  intros E L m pp Hpp Hd Hlast Hcs Hone. apply valid_cs_supported in Hcs.
  destruct (keygen_ok L m pp SEED Hpp Hcs SEED_len) as (pk & sk & pop & Hk & Hwk & Hwp & _ & Hr & Ht).
  unfold rs_main. rewrite Hk. cbn [unwrap bind].
  destruct (pk_roundtrip E L true pk Hwk) as (-> & _). destruct (pop_roundtrip E L true pop Hwp) as (-> & _).
  destruct (sk_roundtrip E L true sk (reachable_sk_representable E L m pp pk sk Hpp Hd Hr)) as (-> & _). cbn [bind].
  destruct (sign_now L m pp pk sk MSG Hpp Hd Hr) as (s & Hs & Hws & Hst & Hv). rewrite Ht in Hs.
  rewrite Hs. cbn [fst unwrap bind]. rewrite Hv. unfold assert_true. cbn [bind].
  destruct (sig_roundtrip E L s Hws) as (-> & _). cbn [bind].
  pose proof (reached_keygen m pp SEED pk sk pop Hk) as Hr0.
  destruct (rs_seq_ok L m pp pk pop SEED Hpp Hd 62 2 64 [] sk eq_refl ltac:(lia) Hr0 ltac:(lia)) as [[-> Hrep]|(f1 & -> & Hm1 & Hf1)];
    [left; split; [reflexivity|apply (breaks_one m pp (SEED, seq_ops)); [left; reflexivity|exact Hrep]]|].
  cbn [bind].
  destruct (rs_ff_ok L m pp pk pop SEED Hpp Hd 62 2 64 [] sk eq_refl ltac:(lia) Hlast Hr0 Ht) as [[-> Hrep]|(f2 & -> & Hm2 & Hf2)];
    [left; split; [reflexivity|apply (breaks_one m pp (SEED, jump_ops)); [right; left; reflexivity|exact Hrep]]|].
  cbn [bind]. right. eexists _, pk, pop. split; [reflexivity|]. split; [|split].
  - unfold vector_names. rewrite <- Hm1, <- Hm2. cbn [app map fst]. rewrite map_app. reflexivity.
  - apply (keygen_pop E L pp SEED pk sk pop Hpp Hone Hk).
  - apply Forall_app. split; [|apply Forall_app; auto].
    constructor; [unfold file_ok; cbn [fst snd]; apply (slice_pk L), Hwk|].
    constructor; [unfold file_ok; cbn [fst snd]; apply (slice_pop L), Hwp|].
    apply (step_files_ok L); auto; rewrite Ht; auto.
Qed.

(** * Reading back *)
Lemma fname_eqb_eq a b : fname_eqb a b = true <-> a = b.
Proof.
  destruct a, b; cbn [fname_eqb]; try (split; [discriminate|congruence]); try (split; reflexivity);
    rewrite ?Bool.andb_true_iff, ?N.eqb_eq; split; [congruence|congruence|congruence|congruence|intros []; congruence| |intros []; congruence|];
    intros H; injection H; auto.
Qed.
Lemma read_file_none dir n : ~ In n (map fst dir) -> read_file dir n = None.
Proof.
  induction dir as [|[n' b] dir IH]; intros H; [reflexivity|]. cbn [read_file map fst In] in *.
  rewrite IH by tauto. destruct (fname_eqb n' n) eqn:Ef; [|reflexivity]. apply fname_eqb_eq in Ef. tauto.
Qed.
Lemma read_file_in : forall dir n b, NoDup (map fst dir) -> In (n, b) dir -> read_file dir n = Some b.
Proof.
  induction dir as [|[n' b'] dir IH]; intros n b Hn Hi; [destruct Hi|]. cbn [read_file map fst In] in *.
  inversion Hn as [|? ? Hx Hn']; subst. destruct Hi as [Hi|Hi].
  - injection Hi as <- <-. rewrite read_file_none by exact Hx. rewrite (proj2 (fname_eqb_eq n' n') eq_refl). reflexivity.
  - rewrite (IH n b Hn' Hi). reflexivity.
Qed.
Fixpoint nodupb (l : list fname) : bool :=
  match l with [] => true | x :: l' => negb (existsb (fname_eqb x) l') && nodupb l' end.
Lemma nodupb_ok l : nodupb l = true -> NoDup l.
Proof.
  induction l as [|x l IH]; intros H; constructor; cbn [nodupb] in H; apply Bool.andb_true_iff in H as [H1 H2]; auto.
  intros Hi. apply Bool.negb_true_iff in H1.
  assert (H : existsb (fname_eqb x) l = true) by (apply existsb_exists; exists x; split; [exact Hi|apply fname_eqb_eq; reflexivity]).
  congruence.
Qed.
Lemma vector_names_nodup : NoDup vector_names.
Proof. apply nodupb_ok. vm_compute. reflexivity. Qed.

Lemma cmp_file_iff dir n b : cmp_file dir n b = Some tt <-> read_file dir n = Some b.
Proof.
  unfold cmp_file. destruct (read_file dir n) as [c|]; [|split; discriminate].
  destruct (bytes_eqb b c) eqn:Eb.
  - apply bytes_eqb_eq in Eb. subst c. split; reflexivity.
  - split; [discriminate|]. intros H. injection H as ->. rewrite (proj2 (bytes_eqb_eq b b) eq_refl) in Eb. discriminate.
Qed.
Lemma cmp_file_some dir n b u : cmp_file dir n b = Some u -> read_file dir n = Some b.
Proof. destruct u. apply cmp_file_iff. Qed.

(** * Python *)
Definition held (dir : list file) (f : file) : Prop := read_file dir (fst f) = Some (snd f).

Lemma py_sig_blob {E} (s : signature E) : sig_cs s = 0 -> wf_sig s ->
  py_serialize_sig (sig_time s, sig_1 s, sig_2 s) = Some (sig_blob true s).
Proof.
  intros Hcs [_ Ht _ _]. unfold py_serialize_sig. rewrite py_i2osp4_spec by lia. unfold sig_blob. rewrite Hcs. reflexivity.
Qed.

Lemma py_sign_now {E} (L : env_laws E) m (pp : pubparam E) pk sk s :
  pp_ok pp -> py_params pp -> reachable m pp pk sk -> sign_present m (sec_time sk) pp MSG sk = (Ok s, sk) -> wf_sig s ->
  exists g, py_sign_present pp (py_view sk) (sec_time sk) MSG = Some g /\ py_serialize_sig g = Some (sig_blob true s)
  /\ py_serialize_sk (py_view sk) = Some (sk_blob true sk).
Proof.
  intros Hpp Hp Hr Hs Hw. destruct (reachable_good L m pp pk sk Hpp Hr) as (x & _ & _ & Hg & _).
  destruct (py_sign_good L m pp x sk MSG Hpp Hp Hg) as (s' & Hs' & Hcs' & Ht' & Hps). rewrite Hs in Hs'.
  assert (Hss : s' = s) by congruence. subst s'. exists (sec_time sk, sig_1 s, sig_2 s). split; [exact Hps|]. split.
  - rewrite <- Ht'. apply py_sig_blob; auto.
  - apply py_sk_blob.
    + rewrite (gsk_cs _ _ _ Hg). apply Hp.
    + apply (reachable_sk_representable E L m pp pk sk Hpp (pyp_depth _ Hp) Hr).
Qed.

Lemma py_step_sim {E} (L : env_laws E) m (pp : pubparam E) pk dir sk tar nsk nsig fs sk' :
  pp_ok pp -> py_params pp -> reachable m pp pk sk -> sec_time sk < tar <= last_time (pp_depth pp) ->
  rs_step m pp pk sk tar nsk nsig = Ok (fs, sk') -> Forall (held dir) fs ->
  py_step pp dir (py_view sk) tar nsk nsig = Some (fs, py_view sk').
Proof.
  intros Hpp Hp Hr Ht Hrs Hh. pose proof (pyp_depth _ Hp) as Hd.
  destruct (reachable_reached m pp pk sk Hr) as (kseed & l & Hr0).
  destruct (rs_step_ok L m pp kseed l pk sk tar nsk nsig Hpp Hd Hr0 Ht) as [(_ & H & _)|(sk1 & s & Hu & Hr01 & Ht1 & Hs & Hw & _ & _ & H)];
    rewrite H in Hrs; [discriminate|]. injection Hrs as <- <-. pose proof (reached_reachable _ _ _ _ _ _ Hr01) as Hr1.
  destruct (py_update_agrees E L m pp pk sk tar RNGSEED Hpp Hp Hr Ht) as (sk2 & Hpu & [Hu2|Hu2]); rewrite Hu in Hu2; [|discriminate].
  injection Hu2 as <-. rewrite <- Ht1 in Hs at 1.
  destruct (py_sign_now L m pp pk sk1 s Hpp Hp Hr1 Hs Hw) as (g & Hps & Hsig & Hsk). rewrite Ht1 in Hps.
  unfold py_step. rewrite Hpu, Hps, Hsk. inversion Hh as [|? ? H1 Hh1]; subst. inversion Hh1 as [|? ? H2 _]; subst.
  unfold held in H1, H2. cbn [fst snd] in H1, H2.
  rewrite (proj2 (cmp_file_iff _ _ _) H1), Hsig, (proj2 (cmp_file_iff _ _ _) H2). reflexivity.
Qed.

Lemma rs_step_time {E} (L : env_laws E) m (pp : pubparam E) pk sk tar nsk nsig fs sk' :
  pp_ok pp -> (pp_depth pp <= 32)%nat -> reachable m pp pk sk -> sec_time sk < tar <= last_time (pp_depth pp) ->
  rs_step m pp pk sk tar nsk nsig = Ok (fs, sk') -> reachable m pp pk sk' /\ sec_time sk' = tar.
Proof.
  intros Hpp Hd Hr Ht Hrs.
  destruct (reachable_reached m pp pk sk Hr) as (kseed & l & Hr0).
  destruct (rs_step_ok L m pp kseed l pk sk tar nsk nsig Hpp Hd Hr0 Ht) as [(_ & H & _)|(sk1 & s & Hu & Hr01 & Ht1 & Hs & Hw & _ & _ & H)];
    rewrite H in Hrs; [discriminate|]. injection Hrs as <- <-. pose proof (reached_reachable _ _ _ _ _ _ Hr01) as Hr1. auto.
Qed.

Lemma py_seq_sim {E} (L : env_laws E) m (pp : pubparam E) pk dir :
  pp_ok pp -> py_params pp ->
  forall n a b sk fs, n = (b - a)%nat -> N.of_nat b <= 1 + last_time (pp_depth pp) ->
  reachable m pp pk sk -> sec_time sk + 1 = N.of_nat a ->
  rs_seq m pp pk sk (range a b) = Ok fs -> Forall (held dir) fs -> py_seq pp dir (py_view sk) (range a b) = Some fs.
Proof.
  intros Hpp Hp. induction n as [|n IH]; intros a b sk fs Hn Hb Hr Ht.
  - rewrite range_nil by lia. cbn [rs_seq py_seq]. congruence.
  - rewrite range_cons by lia. cbn [rs_seq py_seq]. intros H Hh.
    destruct (rs_step m pp pk sk (N.of_nat a) (SkBin (N.of_nat a)) (SigBin (N.of_nat a))) as [[f1 sk1]| |] eqn:H1; try discriminate.
    cbn [bind] in H. destruct (rs_seq m pp pk sk1 (range (S a) b)) as [f2| |] eqn:H2; try discriminate. cbn [bind] in H.
    assert (Hfs : fs = f1 ++ f2) by congruence. subst fs. apply Forall_app in Hh as [Hh1 Hh2].
    rewrite (py_step_sim L m pp pk dir sk (N.of_nat a) _ _ f1 sk1 Hpp Hp Hr ltac:(lia) H1 Hh1).
    destruct (rs_step_time L m pp pk sk (N.of_nat a) _ _ f1 sk1 Hpp (pyp_depth _ Hp) Hr ltac:(lia) H1) as [Hr1 Ht1].
    rewrite (IH (S a) b sk1 f2 ltac:(lia) Hb Hr1 ltac:(lia) H2 Hh2). reflexivity.
Qed.

Lemma py_head {E} (L : env_laws E) m (pp : pubparam E) pk sk :
  pp_ok pp -> reachable m pp pk sk -> exists s, py_nth (snd (py_view sk)) 0 = Some s /\ sk_t s = sec_time sk.
Proof.
  intros Hpp Hr. destruct (reachable_good L m pp pk sk Hpp Hr) as (x & _ & _ & Hg & _).
  destruct (good_sk_head pp x sk Hg) as (v & r & l & _ & Hs). unfold py_view, py_nth. cbn [snd]. rewrite Hs.
  eexists. split; reflexivity.
Qed.

Lemma py_ff_sim {E} (L : env_laws E) m (pp : pubparam E) pk dir :
  pp_ok pp -> py_params pp ->
  forall n a b sk fs, n = (b - a)%nat -> (2 <= a)%nat -> N.of_nat (b * (b - 1) / 2) <= last_time (pp_depth pp) ->
  reachable m pp pk sk -> sec_time sk = N.of_nat (a * (a - 1) / 2) ->
  rs_ff m pp pk sk (range a b) = Ok fs -> Forall (held dir) fs -> py_ff pp dir (py_view sk) (range a b) = Some fs.
Proof.
  intros Hpp Hp. pose proof (pyp_depth _ Hp) as Hd. induction n as [|n IH]; intros a b sk fs Hn Ha Hb Hr Ht.
  - rewrite range_nil by lia. cbn [rs_ff py_ff]. congruence.
  - rewrite range_cons by lia. cbn [rs_ff py_ff]. cbv zeta. intros H Hh.
    pose proof (tri_next a Ha) as Hnext. pose proof (tri_le (S a) b ltac:(lia)) as Hle. pose proof (last_time_32 _ Hd) as H32.
    rewrite add64_ok in H by (rewrite Ht, Hnext; unfold two64; lia). cbn [bind] in H.
    assert (Htar : sec_time sk + N.of_nat a = N.of_nat (S a * (S a - 1) / 2)) by (rewrite Ht; exact Hnext).
    destruct (py_head L m pp pk sk Hpp Hr) as (s0 & -> & ->).
    revert H Htar. set (tar := sec_time sk + N.of_nat a). intros H Htar.
    destruct (rs_step m pp pk sk tar (SkFf (sec_time sk) tar) (SigFf (sec_time sk) tar)) as [[f1 sk1]| |] eqn:H1; try discriminate.
    cbn [bind] in H. destruct (rs_ff m pp pk sk1 (range (S a) b)) as [f2| |] eqn:H2; try discriminate. cbn [bind] in H.
    assert (Hfs : fs = f1 ++ f2) by congruence. subst fs. apply Forall_app in Hh as [Hh1 Hh2].
    rewrite (py_step_sim L m pp pk dir sk tar _ _ f1 sk1 Hpp Hp Hr ltac:(lia) H1 Hh1).
    destruct (rs_step_time L m pp pk sk tar _ _ f1 sk1 Hpp Hd Hr ltac:(lia) H1) as [Hr1 Ht1].
    rewrite (IH (S a) b sk1 f2 ltac:(lia) ltac:(lia) Hb Hr1 ltac:(lia) H2 Hh2). reflexivity.
Qed.

(** What a successful run of the Python program says about the directory. *)
Lemma py_step_held {E} (pp : pubparam E) dir sk tar nsk nsig fs sk' :
  py_step pp dir sk tar nsk nsig = Some (fs, sk') -> Forall (held dir) fs.
Proof.
  unfold py_step. intros H.
  destruct (py_update pp sk tar RNGSEED) as [k|]; [|discriminate].
  destruct (py_sign_present pp k tar MSG) as [g|]; [|discriminate].
  destruct (py_serialize_sk k) as [a|]; [|discriminate].
  destruct (cmp_file dir nsk a) as [u|] eqn:Ha; [|discriminate].
  destruct (py_serialize_sig g) as [b|]; [|discriminate].
  destruct (cmp_file dir nsig b) as [u'|] eqn:Hb; [|discriminate].
  injection H as <- _. repeat constructor; unfold held; cbn [fst snd]; eapply cmp_file_some; eassumption.
Qed.
Lemma py_seq_held {E} (pp : pubparam E) dir : forall l sk fs, py_seq pp dir sk l = Some fs -> Forall (held dir) fs.
Proof.
  induction l as [|i l IH]; intros sk fs H; cbn [py_seq] in H; [injection H as <-; constructor|].
  destruct (py_step pp dir sk i (SkBin i) (SigBin i)) as [[f1 k]|] eqn:H1; [|discriminate].
  destruct (py_seq pp dir k l) as [f2|] eqn:H2; [|discriminate]. injection H as <-.
  apply Forall_app. split; [apply (py_step_held _ _ _ _ _ _ _ _ H1)|apply (IH _ _ H2)].
Qed.
Lemma py_ff_held {E} (pp : pubparam E) dir : forall l sk fs, py_ff pp dir sk l = Some fs -> Forall (held dir) fs.
Proof.
  induction l as [|i l IH]; intros sk fs H; cbn [py_ff] in H; [injection H as <-; constructor|].
  destruct (py_nth (snd sk) 0) as [s|]; [|discriminate]. cbv zeta in H.
  destruct (py_step pp dir sk (sk_t s + i) (SkFf (sk_t s) (sk_t s + i)) (SigFf (sk_t s) (sk_t s + i))) as [[f1 k]|] eqn:H1; [|discriminate].
  destruct (py_ff pp dir k l) as [f2|] eqn:H2; [|discriminate]. injection H as <-.
  apply Forall_app. split; [apply (py_step_held _ _ _ _ _ _ _ _ H1)|apply (IH _ _ H2)].
Qed.
Lemma py_main_held {E} (pp : pubparam E) dir out : py_main pp dir = Some out -> Forall (held dir) out.
Proof.
  unfold py_main. intros H. destruct (py_key_gen pp SEED) as [[pk sk]|]; [|discriminate].
  destruct (py_sign_present pp sk 1 MSG) as [g|]; [|discriminate]. cbv zeta in H.
  destruct (cmp_file dir PkBin (py_serialize_pk pk)) as [u|] eqn:Ha; [|discriminate].
  destruct (py_serialize_sk sk) as [b|]; [|discriminate].
  destruct (cmp_file dir (SkBin 1) b) as [u'|] eqn:Hb; [|discriminate].
  destruct (py_serialize_sig g) as [c|]; [|discriminate].
  destruct (cmp_file dir (SigBin 1) c) as [u2|] eqn:Hc; [|discriminate].
  destruct (py_seq pp dir sk (range 2 64)) as [f1|] eqn:H1; [|discriminate].
  destruct (py_ff pp dir sk (range 2 64)) as [f2|] eqn:H2; [|discriminate].
  assert (Ho : out = [(PkBin, py_serialize_pk pk); (SkBin 1, b); (SigBin 1, c)] ++ f1 ++ f2) by congruence. subst out.
  apply Forall_app. split; [|apply Forall_app; split; [apply (py_seq_held _ _ _ _ _ H1)|apply (py_ff_held _ _ _ _ _ H2)]].
  repeat constructor; unfold held; cbn [fst snd]; eapply cmp_file_some; eassumption.
Qed.

(** The files do not depend on the directory compared with. *)
Lemma py_step_det {E} (pp : pubparam E) dir dir' sk tar nsk nsig r r' :
  py_step pp dir sk tar nsk nsig = Some r -> py_step pp dir' sk tar nsk nsig = Some r' -> r = r'.
Proof.
  unfold py_step. intros H H'.
  destruct (py_update pp sk tar RNGSEED) as [k|]; [|discriminate].
  destruct (py_sign_present pp k tar MSG) as [g|]; [|discriminate].
  destruct (py_serialize_sk k) as [a|]; [|discriminate].
  destruct (cmp_file dir nsk a), (cmp_file dir' nsk a); try discriminate.
  destruct (py_serialize_sig g) as [b|]; [|discriminate].
  destruct (cmp_file dir nsig b), (cmp_file dir' nsig b); try discriminate. congruence.
Qed.
Lemma py_seq_det {E} (pp : pubparam E) dir dir' : forall l sk fs fs',
  py_seq pp dir sk l = Some fs -> py_seq pp dir' sk l = Some fs' -> fs = fs'.
Proof.
  induction l as [|i l IH]; intros sk fs fs' H H'; cbn [py_seq] in *; [congruence|].
  destruct (py_step pp dir sk i (SkBin i) (SigBin i)) as [[f1 k]|] eqn:H1; [|discriminate].
  destruct (py_step pp dir' sk i (SkBin i) (SigBin i)) as [[f1' k']|] eqn:H1'; [|discriminate].
  pose proof (py_step_det _ _ _ _ _ _ _ _ _ H1 H1') as He. injection He as <- <-.
  destruct (py_seq pp dir k l) as [f2|] eqn:H2; [|discriminate].
  destruct (py_seq pp dir' k l) as [f2'|] eqn:H2'; [|discriminate]. rewrite (IH _ _ _ H2 H2') in H. congruence.
Qed.
Lemma py_ff_det {E} (pp : pubparam E) dir dir' : forall l sk fs fs',
  py_ff pp dir sk l = Some fs -> py_ff pp dir' sk l = Some fs' -> fs = fs'.
Proof.
  induction l as [|i l IH]; intros sk fs fs' H H'; cbn [py_ff] in *; [congruence|].
  destruct (py_nth (snd sk) 0) as [s|]; [|discriminate]. cbv zeta in H, H'.
  destruct (py_step pp dir sk (sk_t s + i) (SkFf (sk_t s) (sk_t s + i)) (SigFf (sk_t s) (sk_t s + i))) as [[f1 k]|] eqn:H1; [|discriminate].
  destruct (py_step pp dir' sk (sk_t s + i) (SkFf (sk_t s) (sk_t s + i)) (SigFf (sk_t s) (sk_t s + i))) as [[f1' k']|] eqn:H1'; [|discriminate].
  pose proof (py_step_det _ _ _ _ _ _ _ _ _ H1 H1') as He. injection He as <- <-.
  destruct (py_ff pp dir k l) as [f2|] eqn:H2; [|discriminate].
  destruct (py_ff pp dir' k l) as [f2'|] eqn:H2'; [|discriminate]. rewrite (IH _ _ _ H2 H2') in H. congruence.
Qed.
Lemma py_main_det {E} (pp : pubparam E) dir dir' out out' :
  py_main pp dir = Some out -> py_main pp dir' = Some out' -> out = out'.
Proof.
  unfold py_main. intros H H'. destruct (py_key_gen pp SEED) as [[pk sk]|]; [|discriminate].
  destruct (py_sign_present pp sk 1 MSG) as [g|]; [|discriminate]. cbv zeta in H, H'.
  destruct (cmp_file dir PkBin (py_serialize_pk pk)), (cmp_file dir' PkBin (py_serialize_pk pk)); try discriminate.
  destruct (py_serialize_sk sk) as [b|]; [|discriminate].
  destruct (cmp_file dir (SkBin 1) b), (cmp_file dir' (SkBin 1) b); try discriminate.
  destruct (py_serialize_sig g) as [c|]; [|discriminate].
  destruct (cmp_file dir (SigBin 1) c), (cmp_file dir' (SigBin 1) c); try discriminate.
  destruct (py_seq pp dir sk (range 2 64)) as [f1|] eqn:H1; [|discriminate].
  destruct (py_seq pp dir' sk (range 2 64)) as [f1'|] eqn:H1'; [|discriminate].
  destruct (py_ff pp dir sk (range 2 64)) as [f2|] eqn:H2; [|discriminate].
  destruct (py_ff pp dir' sk (range 2 64)) as [f2'|] eqn:H2'; [|discriminate].
  rewrite (py_seq_det _ _ _ _ _ _ _ H1 H1'), (py_ff_det _ _ _ _ _ _ _ H2 H2') in H. congruence.
Qed.

Lemma no_pop_seq l : forall fs, map fst fs = flat_map (fun i => [SkBin i; SigBin i]) l ->
  filter (fun f => negb (is_pop f)) fs = fs.
Proof.
  induction l as [|i l IH]; intros fs H; cbn [flat_map app] in H.
  - destruct fs; [reflexivity|discriminate].
  - destruct fs as [|[n1 b1] [|[n2 b2] fs]]; try discriminate. cbn [map fst] in H. injection H as -> -> H.
    cbn [filter is_pop fst negb]. rewrite (IH fs H). reflexivity.
Qed.
Lemma no_pop_ff l : forall fs, map fst fs = flat_map jump_names l -> filter (fun f => negb (is_pop f)) fs = fs.
Proof.
  induction l as [|i l IH]; intros fs H; cbn [flat_map app jump_names] in H.
  - destruct fs; [reflexivity|discriminate].
  - destruct fs as [|[n1 b1] [|[n2 b2] fs]]; try discriminate. cbn [map fst] in H. injection H as -> -> H.
    cbn [filter is_pop fst negb]. rewrite (IH fs H). reflexivity.
Qed.

Lemma py_main_sim {E} (L : env_laws E) m (pp : pubparam E) files dir :
  pp_ok pp -> py_params pp -> 2016 <= last_time (pp_depth pp) ->
  rs_main m pp = Ok files -> Forall (held dir) (filter (fun f => negb (is_pop f)) files) ->
  py_main pp dir = Some (filter (fun f => negb (is_pop f)) files).
Proof.
  intros Hpp Hp Hlast H Hh. pose proof (pyp_depth _ Hp) as Hd.
  assert (Hcs : valid_cs (pp_cs pp) = true) by (rewrite (pyp_cs _ Hp); reflexivity).
  destruct (keygen_ok L m pp SEED Hpp Hcs SEED_len) as (pk & sk & pop & Hk & Hwk & Hwp & Hpcs & Hr & Ht).
  unfold rs_main in H. rewrite Hk in H. cbn [unwrap bind] in H.
  destruct (pk_roundtrip E L true pk Hwk) as (Hpk & _). destruct (pop_roundtrip E L true pop Hwp) as (Hpop & _).
  destruct (sk_roundtrip E L true sk (reachable_sk_representable E L m pp pk sk Hpp Hd Hr)) as (Hsk & _).
  rewrite Hpk, Hpop, Hsk in H. cbn [bind] in H.
  destruct (sign_now L m pp pk sk MSG Hpp Hd Hr) as (s & Hs & Hws & Hst & Hv).
  destruct (py_sign_now L m pp pk sk s Hpp Hp Hr Hs Hws) as (g & Hps & Hsig & Hpsk).
  rewrite Ht in Hs, Hps. rewrite Hs in H. cbn [fst unwrap bind] in H. rewrite Hv in H. unfold assert_true in H. cbn [bind] in H.
  destruct (sig_roundtrip E L s Hws) as (Hss & _). rewrite Hss in H. cbn [bind] in H.
  destruct (rs_seq m pp pk sk (range 2 64)) as [f1| |] eqn:H1; try discriminate. cbn [bind] in H.
  destruct (rs_ff m pp pk sk (range 2 64)) as [f2| |] eqn:H2; try discriminate. cbn [bind] in H.
  assert (Hfs : files = [(PkBin, pk_blob true pk); (PopBin, pop_blob true pop); (SkBin 1, sk_blob true sk); (SigBin 1, sig_blob true s)] ++ f1 ++ f2) by congruence.
  pose proof (reached_keygen m pp SEED pk sk pop Hk) as Hr0.
  assert (Hn1 : map fst f1 = flat_map (fun i => [SkBin i; SigBin i]) (range 2 64)).
  { destruct (rs_seq_ok L m pp pk pop SEED Hpp Hd 62 2 64 [] sk eq_refl ltac:(lia) Hr0 ltac:(lia)) as [[Hx _]|(f & Hx & Hm & _)]; rewrite H1 in Hx; [discriminate|].
    assert (f = f1) by congruence. subst f. exact Hm. }
  assert (Hn2 : map fst f2 = flat_map jump_names (range 2 64)).
  { destruct (rs_ff_ok L m pp pk pop SEED Hpp Hd 62 2 64 [] sk eq_refl ltac:(lia) Hlast Hr0 Ht) as [[Hx _]|(f & Hx & Hm & _)]; rewrite H2 in Hx; [discriminate|].
    assert (f = f2) by congruence. subst f. exact Hm. }
  clear H. assert (Hfil : filter (fun f => negb (is_pop f)) files = [(PkBin, pk_blob true pk); (SkBin 1, sk_blob true sk); (SigBin 1, sig_blob true s)] ++ f1 ++ f2).
  { rewrite Hfs, !filter_app, (no_pop_seq _ f1 Hn1), (no_pop_ff _ f2 Hn2). reflexivity. }
  rewrite Hfil in *. clear Hfil Hfs. apply Forall_app in Hh as [Hh0 Hh]. apply Forall_app in Hh as [Hh1 Hh2].
  inversion Hh0 as [|? ? Ha Hh0']; subst. inversion Hh0' as [|? ? Hb Hh0'']; subst. inversion Hh0'' as [|? ? Hc _]; subst.
  unfold held in Ha, Hb, Hc. cbn [fst snd] in Ha, Hb, Hc.
  assert (Hpb : py_serialize_pk (pk_pk pk) = pk_blob true pk).
  { unfold py_serialize_pk, pk_blob. rewrite Hpcs, (pyp_cs _ Hp). reflexivity. }
  unfold py_main. rewrite (py_key_gen_agrees E L pp SEED pk sk pop Hpp Hp Hk), Hps, Hpb. cbv zeta.
  rewrite (proj2 (cmp_file_iff _ _ _) Ha), Hpsk, (proj2 (cmp_file_iff _ _ _) Hb), Hsig, (proj2 (cmp_file_iff _ _ _) Hc).
  rewrite (py_seq_sim L m pp pk dir Hpp Hp 62 2 64 sk f1 eq_refl ltac:(lia) Hr ltac:(lia) H1 Hh1).
  rewrite (py_ff_sim L m pp pk dir Hpp Hp 62 2 64 sk f2 eq_refl ltac:(lia) Hlast Hr Ht H2 Hh2). reflexivity.
Qed.

Lemma rs_main_names {E} (L : env_laws E) m (pp : pubparam E) files :
  pp_ok pp -> (pp_depth pp <= 32)%nat -> 2016 <= last_time (pp_depth pp) ->
  rs_main m pp = Ok files -> map fst files = vector_names.
Proof.
  intros Hpp Hd Hlast H. unfold rs_main in H.
  destruct (key_gen SEED pp) as [[[pk sk] pop]| |] eqn:Hk; try discriminate. cbn [unwrap bind] in H.
  pose proof (reached_keygen m pp SEED pk sk pop Hk) as Hr0.
  destruct (keygen_fields E L pp SEED pk sk pop Hk) as [Ht _].
  destruct (to_vec (pk_serialize pk true)) as [a| |]; try discriminate. cbn [bind] in H.
  destruct (to_vec (pop_serialize pop true)) as [b| |]; try discriminate. cbn [bind] in H.
  destruct (to_vec (sk_serialize sk true)) as [c| |]; try discriminate. cbn [bind] in H.
  destruct (fst (sign_present m 1 pp MSG sk)) as [s| |]; try discriminate. cbn [unwrap bind] in H.
  destruct (assert_true (verify m s pk pp MSG)) as [u| |]; try discriminate. cbn [bind] in H.
  destruct (to_vec (sig_serialize s true)) as [d| |]; try discriminate. cbn [bind] in H.
  destruct (rs_seq_ok L m pp pk pop SEED Hpp Hd 62 2 64 [] sk eq_refl ltac:(lia) Hr0 ltac:(lia)) as [[Hx _]|(f1 & Hx & Hm1 & _)]; rewrite Hx in H; [discriminate|].
  cbn [bind] in H.
  destruct (rs_ff_ok L m pp pk pop SEED Hpp Hd 62 2 64 [] sk eq_refl ltac:(lia) Hlast Hr0 Ht) as [[Hy _]|(f2 & Hy & Hm2 & _)]; rewrite Hy in H; [discriminate|].
  cbn [bind] in H.
  assert (Hfs : files = [(PkBin, a); (PopBin, b); (SkBin 1, c); (SigBin 1, d)] ++ f1 ++ f2) by congruence.
  rewrite Hfs. unfold vector_names. rewrite <- Hm1, <- Hm2. cbn [app map fst]. rewrite map_app. reflexivity.
Qed.

Lemma py_accepts_vectors : forall (E : env) (L : env_laws E) m (pp : pubparam E) files,
  pp_ok pp -> py_params pp -> 2016 <= last_time (pp_depth pp) -> rs_main m pp = Ok files ->
  py_main pp files = Some (filter (fun f => negb (is_pop f)) files)
  /\ forall dir, (exists out, py_main pp dir = Some out)
       <-> forall n, n <> PopBin -> In n vector_names -> read_file dir n = read_file files n.
Proof.
  intros E L m pp files Hpp Hp Hlast H. pose proof (pyp_depth _ Hp) as Hd.
  pose proof (rs_main_names L m pp files Hpp Hd Hlast H) as Hn.
  assert (Hnd : NoDup (map fst files)) by (rewrite Hn; apply vector_names_nodup).
  assert (Hheld : Forall (held files) (filter (fun f => negb (is_pop f)) files)).
  { apply Forall_forall. intros [n b] Hi. apply filter_In in Hi as [Hi _]. apply read_file_in; assumption. }
  assert (Hself : py_main pp files = Some (filter (fun f => negb (is_pop f)) files)) by (apply (py_main_sim L m pp files files); auto).
  split; [exact Hself|]. intros dir. split.
  - intros (out & Ho) n Hnp Hi. pose proof (py_main_det pp _ _ _ _ Ho Hself) as ->.
    apply py_main_held in Ho. rewrite Forall_forall in Ho. rewrite <- Hn in Hi. apply in_map_iff in Hi as ([n' b] & He & Hi).
    cbn [fst] in He. subst n'. rewrite (read_file_in files n b Hnd Hi). apply (Ho (n, b)). apply filter_In. split; [exact Hi|].
    destruct n; try reflexivity. congruence.
  - intros Ha. exists (filter (fun f => negb (is_pop f)) files). apply (py_main_sim L m pp files dir); auto.
    apply Forall_forall. intros [n b] Hi. apply filter_In in Hi as [Hi Hnp]. unfold held. cbn [fst snd].
    rewrite Ha.
    + apply read_file_in; assumption.
    + intros ->. discriminate Hnp.
    + rewrite <- Hn. apply in_map_iff. exists (n, b). auto.
Qed.

(** * C *)
Lemma c_sign_now {E} (L : env_laws E) m (pp : pubparam E) pk sk msg :
  pp_ok pp -> (pp_depth pp <= 32)%nat -> wf_pk pk -> reachable m pp pk sk ->
  exists s, sign_present m (sec_time sk) pp msg sk = (Ok s, sk) /\ wf_sig s /\ sig_time s = sec_time sk
    /\ c_sign_present m pp (sk_blob true sk) msg (sec_time sk) = Ok (sig_blob true s)
    /\ c_verify m pp (pk_blob true pk) msg (sig_blob true s) = Ok true.
Proof.
  intros Hpp Hd Hwk Hr. destruct (sign_now L m pp pk sk msg Hpp Hd Hr) as (s & Hs & Hw & Ht & Hv). exists s.
  split; [exact Hs|]. split; [exact Hw|]. split; [exact Ht|].
  rewrite (c_sign_blobs E L m m pp pk sk (sec_time sk) msg Hpp Hd Hr), Hs. cbn [fst]. split; [reflexivity|].
  rewrite (c_verify_blobs E L m pp pk s msg Hwk Hw). exact Hv.
Qed.

Lemma c_keygen_now {E} (L : env_laws E) m (pp : pubparam E) seed :
  pp_ok pp -> (pp_depth pp <= 32)%nat -> valid_cs (pp_cs pp) = true -> (32 <= length seed)%nat ->
  exists pk sk pop, key_gen seed pp = Ok (pk, sk, pop) /\ wf_pk pk /\ wf_pop pop /\ pk_cs pk = pp_cs pp
    /\ reachable m pp pk sk /\ sec_time sk = 1
    /\ c_keygen pp seed = Ok (pk_blob true pk, sk_blob true sk, pop_blob true pop).
Proof.
  intros Hpp Hd Hcs Hs. destruct (keygen_ok L m pp seed Hpp Hcs Hs) as (pk & sk & pop & Hk & H).
  exists pk, sk, pop. pose proof (c_keygen_blobs E L pp seed Hpp Hd) as Hc. rewrite Hk in Hc. tauto.
Qed.

Lemma c_seq_ok {E} (L : env_laws E) m (pp : pubparam E) pk kseed :
  pp_ok pp -> (pp_depth pp <= 32)%nat ->
  forall n a b l sk, n = (b - a)%nat -> N.of_nat b <= 1 + last_time (pp_depth pp) ->
  reached m pp kseed l pk sk -> sec_time sk + 1 = N.of_nat a ->
  (c_seq m pp (sk_blob true sk) (range a b) = Panic P_PRNG /\ rs_seq m pp pk sk (range a b) = Panic P_PRNG
   /\ breaks m pp [(kseed, l ++ map upd (range a b))])
  \/ exists cf fs, c_seq m pp (sk_blob true sk) (range a b) = Ok cf /\ rs_seq m pp pk sk (range a b) = Ok fs
       /\ map fst cf = flat_map (fun i => [SigBin i; SkBin i]) (range a b) /\ (forall f, In f cf <-> In f fs).
Proof.
  intros Hpp Hd. induction n as [|n IH]; intros a b l sk Hn Hb Hr0 Ht.
  - right. exists [], []. rewrite range_nil by lia. cbn. tauto.
  - pose proof (reached_reachable _ _ _ _ _ _ Hr0) as Hr. rewrite range_cons by lia. cbn [c_seq rs_seq flat_map map].
    rewrite (c_update_blobs E L m m pp pk sk _ RNGSEED Hpp Hd Hr).
    destruct (rs_step_ok L m pp kseed l pk sk (N.of_nat a) (SkBin (N.of_nat a)) (SigBin (N.of_nat a)) Hpp Hd Hr0 ltac:(lia))
      as [(Hu & -> & Hrep)|(sk' & s & Hu & Hr0' & Ht' & Hs & Hw & Hst & Hv & ->)]; rewrite Hu;
      [left; split; [reflexivity|]; split; [reflexivity|apply (breaks_here m pp kseed l (upd (N.of_nat a)) _ RNGSEED eq_refl Hrep)]|]. cbn [bind].
    pose proof (reached_reachable _ _ _ _ _ _ Hr0') as Hr'.
    rewrite (c_sign_blobs E L m m pp pk sk' _ MSG Hpp Hd Hr'), Hs. cbn [fst bind].
    destruct (IH (S a) b _ sk' ltac:(lia) Hb Hr0' ltac:(lia)) as [(-> & -> & Hrep)|(cf & fs & -> & -> & Hm & Hi)];
      [left; rewrite snoc_cons in Hrep; auto|right].
    cbn [bind]. eexists _, _. split; [reflexivity|]. split; [reflexivity|]. split; [cbn [app map fst]; rewrite Hm; reflexivity|].
    intros f. cbn [app In]. rewrite Hi. tauto.
Qed.

Lemma sig_blob_bytes {E} (L : env_laws E) (s : signature E) : wf_sig s -> are_bytes (sig_blob true s).
Proof.
  intros [Hcs _ _ _]. unfold sig_blob. constructor; [destruct Hcs as [-> | ->]; reflexivity|]. apply are_bytes_app. split.
  - unfold be4. repeat constructor; apply N.mod_lt; lia.
  - apply are_bytes_app. split; [apply (lc2_bytes E L)|apply (lc1_bytes E L)].
Qed.

Lemma c_signers_ok {E} (L : env_laws E) m (pp : pubparam E) :
  pp_ok pp -> (pp_depth pp <= 32)%nat -> valid_cs (pp_cs pp) = true ->
  forall l, Forall (fun i => (i <= 8)%nat) l ->
  exists v, c_signers m pp l = Ok v /\ length v = length l /\ Forall are_bytes (map fst v)
    /\ Forall (fun sp => c_verify m pp (snd sp) MSG (fst sp) = Ok true
       /\ (forall pk : pubkey E, from_slice (pk_deserialize true) (snd sp) = Ok pk -> pk_cs pk = pp_cs pp /\ g2_insub (pk_pk pk) = true)
       /\ (forall s : signature E, from_slice (sig_deserialize true) (fst sp) = Ok s -> sig_time s = 1)) v.
Proof.
  intros Hpp Hd Hcs. induction l as [|i l IH]; intros Hl; [exists []; cbn; auto|].
  inversion Hl as [|? ? Hi Hl']; subst. cbn [c_signers].
  assert (Hs : (32 <= length (firstn (32 + i) SEED))%nat).
  { rewrite firstn_length. change (length SEED) with 40%nat. lia. }
  destruct (c_keygen_now L m pp _ Hpp Hd Hcs Hs) as (pk & sk & pop & _ & Hwk & _ & Hpcs & Hr & Ht & ->). cbn [bind].
  destruct (c_sign_now L m pp pk sk MSG Hpp Hd Hwk Hr) as (s & _ & Hws & Hst & Hcsig & Hcv). rewrite Ht in Hcsig, Hst.
  rewrite Hcsig. cbn [bind]. rewrite Hcv. unfold assert_true at 1. cbn [bind].
  destruct (IH Hl') as (v & -> & Hlen & Hb & Hf). cbn [bind]. eexists. split; [reflexivity|].
  split; [cbn [length]; lia|]. split; cbn [map fst]; constructor; auto.
  - apply (sig_blob_bytes L), Hws.
  - cbn [fst snd]. split; [exact Hcv|]. split.
    + intros k Hk. rewrite (slice_pk L) in Hk by exact Hwk. assert (k = pk) by congruence. subst k. split; [exact Hpcs|apply Hwk].
    + intros k Hk. rewrite (slice_sig L) in Hk by exact Hws. assert (k = s) by congruence. subst k. exact Hst.
Qed.

Lemma c_verify_pop_now {E} (L : env_laws E) (pp : pubparam E) pk sk pop :
  pp_ok pp -> pp_g2 pp = g2_one -> key_gen SEED pp = Ok (pk, sk, pop) -> wf_pk pk -> wf_pop pop ->
  @c_verify_pop E (pk_blob true pk) (pop_blob true pop) = Ok true.
Proof.
  intros Hpp Hone Hk Hwk Hwp. unfold c_verify_pop. rewrite (slice_pk L), (slice_pop L) by assumption. cbn [or_panic bind].
  rewrite (keygen_pop E L pp SEED pk sk pop Hpp Hone Hk). reflexivity.
Qed.

Lemma c_test_outcome : forall (E : env) (L : env_laws E) m (pp : pubparam E),
  pp_ok pp -> (pp_depth pp <= 32)%nat -> 63 <= last_time (pp_depth pp) -> supported (pp_cs pp) -> pp_g2 pp = g2_one ->
  c_test m pp = Ok tt \/ (c_test m pp = Panic P_PRNG /\ breaks m pp [(SEED, [OpUpdate 2 RNGSEED])]).
Proof.
  intros E L m pp Hpp Hd Hlast Hcs Hone. apply valid_cs_supported in Hcs. unfold c_test.
  destruct (c_keygen_now L m pp SEED Hpp Hd Hcs SEED_len) as (pk & sk & pop & Hk & Hwk & Hwp & _ & Hr & Ht & ->). cbn [bind].
  rewrite (c_verify_pop_now L pp pk sk pop Hpp Hone Hk Hwk Hwp). unfold assert_true at 1. cbn [bind].
  destruct (c_sign_now L m pp pk sk MSG Hpp Hd Hwk Hr) as (s & _ & _ & _ & Hsig & Hv). rewrite Ht in Hsig. rewrite Hsig. cbn [bind].
  rewrite Hv. unfold assert_true at 1. cbn [bind].
  rewrite (c_update_blobs E L m m pp pk sk 2 RNGSEED Hpp Hd Hr).
  destruct (rs_step_ok L m pp SEED [] pk sk 2 (SkBin 2) (SigBin 2) Hpp Hd (reached_keygen m pp SEED pk sk pop Hk) ltac:(lia))
    as [(-> & _ & Hrep)|(sk' & _ & -> & Hr0' & Ht' & _)];
    [right; split; [reflexivity|apply (breaks_here m pp SEED [] (upd 2) [] RNGSEED eq_refl Hrep)]|]. cbn [bind].
  pose proof (reached_reachable _ _ _ _ _ _ Hr0') as Hr'.
  destruct (c_sign_now L m pp pk sk' MSG Hpp Hd Hwk Hr') as (s' & _ & _ & _ & Hsig' & Hv'). rewrite Ht' in Hsig'. rewrite Hsig'. cbn [bind].
  rewrite Hv'. unfold assert_true at 1. cbn [bind].
  destruct (c_signers_ok L m pp Hpp Hd Hcs (seq 0 5)) as (v & Hvs & Hlen & Hb & Hf); [repeat constructor; lia|].
  rewrite Hvs. cbn [bind].
  destruct (c_aggregate_verifies E L m pp v MSG 1 Hpp) as (b & -> & _ & Hagg); auto.
  { intros ->. discriminate Hlen. }
  cbn [bind]. rewrite Hagg. left. reflexivity.
Qed.

Lemma c_test_vector_outcome : forall (E : env) (L : env_laws E) m (pp : pubparam E),
  pp_ok pp -> (pp_depth pp <= 32)%nat -> 63 <= last_time (pp_depth pp) -> supported (pp_cs pp) -> pp_g2 pp = g2_one ->
  (c_test_vector m pp = Panic P_PRNG /\ breaks m pp [(SEED, seq_ops)])
  \/ exists cf, c_test_vector m pp = Ok cf /\ map fst cf = flat_map (fun i => [SigBin i; SkBin i]) (range 1 64).
Proof.
  intros E L m pp Hpp Hd Hlast Hcs Hone. apply valid_cs_supported in Hcs. unfold c_test_vector.
  destruct (c_keygen_now L m pp SEED Hpp Hd Hcs SEED_len) as (pk & sk & pop & Hk & Hwk & Hwp & _ & Hr & Ht & ->). cbn [bind].
  destruct (c_sign_now L m pp pk sk MSG Hpp Hd Hwk Hr) as (s & _ & _ & _ & Hsig & Hv). rewrite Ht in Hsig. rewrite Hsig. cbn [bind].
  rewrite (c_verify_pop_now L pp pk sk pop Hpp Hone Hk Hwk Hwp). unfold assert_true at 1. cbn [bind].
  destruct (c_seq_ok L m pp pk SEED Hpp Hd 62 2 64 [] sk eq_refl ltac:(lia) (reached_keygen m pp SEED pk sk pop Hk) ltac:(lia)) as [(-> & _ & Hrep)|(cf & fs & -> & _ & Hm & _)]; [left; auto|].
  right. cbn [bind]. eexists. split; [reflexivity|]. cbn [app map fst]. rewrite Hm, (range_cons 1) by lia. reflexivity.
Qed.

Lemma compare_iff : forall rs c,
  compare_main rs c = Some tt <-> forall i n, 1 <= i < 64 -> n = SigBin i \/ n = SkBin i ->
    exists b, read_file rs n = Some b /\ read_file c n = Some b.
Proof.
  intros rs c. unfold compare_main.
  assert (Hcmp : forall n, (exists u, cmp_files rs c n = Some u) <-> exists b, read_file rs n = Some b /\ read_file c n = Some b).
  { intros n. unfold cmp_files. destruct (read_file rs n) as [a|].
    - split.
      + intros (u & Hu). apply cmp_file_some in Hu. eauto.
      + intros (b & Hb & Hc). exists tt. apply cmp_file_iff. congruence.
    - split; [intros (u & Hu); discriminate|intros (b & Hb & _); discriminate]. }
  assert (Hloop : forall l, compare_loop rs c l = Some tt <-> Forall (fun i => forall n, n = SigBin i \/ n = SkBin i ->
     exists b, read_file rs n = Some b /\ read_file c n = Some b) l).
  { induction l as [|i l IH]; [split; [constructor|reflexivity]|]. cbn [compare_loop]. split.
    - intros H. destruct (cmp_files rs c (SigBin i)) as [u|] eqn:H1; [|discriminate].
      destruct (cmp_files rs c (SkBin i)) as [u'|] eqn:H2; [|discriminate]. constructor; [|apply IH, H].
      intros n [-> | ->]; apply Hcmp; eauto.
    - intros H. inversion H as [|? ? Hi Hl]; subst.
      destruct (proj2 (Hcmp (SigBin i)) (Hi _ (or_introl eq_refl))) as (u & ->).
      destruct (proj2 (Hcmp (SkBin i)) (Hi _ (or_intror eq_refl))) as (u' & ->). apply IH, Hl. }
  rewrite Hloop, Forall_forall. split.
  - intros H i n Hi Hn. apply (H i); [|exact Hn]. unfold range. apply in_map_iff. exists (N.to_nat i). split; [lia|]. apply in_seq. lia.
  - intros H i Hi n Hn. apply (H i n); [|exact Hn]. unfold range in Hi. apply in_map_iff in Hi as (k & <- & Hk). apply in_seq in Hk. lia.
Qed.

Lemma c_vectors_match : forall (E : env) (L : env_laws E) m (pp : pubparam E) files,
  pp_ok pp -> (pp_depth pp <= 32)%nat -> 2016 <= last_time (pp_depth pp) -> supported (pp_cs pp) -> pp_g2 pp = g2_one ->
  rs_main m pp = Ok files ->
  exists cf, c_test_vector m pp = Ok cf /\ (forall f, In f cf -> In f files) /\ compare_main files cf = Some tt.
Proof.
  intros E L m pp files Hpp Hd Hlast Hcs Hone H. pose proof (rs_main_names L m pp files Hpp Hd Hlast H) as Hn.
  destruct (c_test_vector_outcome E L m pp Hpp Hd ltac:(lia) Hcs Hone) as [[Hp _]|(cf & Hcf & Hm)].
  - exfalso. revert H Hp. apply valid_cs_supported in Hcs. unfold rs_main, c_test_vector.
    destruct (c_keygen_now L m pp SEED Hpp Hd Hcs SEED_len) as (pk & sk & pop & Hk & Hwk & Hwp & _ & Hr & Ht & ->).
    rewrite Hk. cbn [unwrap bind].
    destruct (to_vec (pk_serialize pk true)); try discriminate. destruct (to_vec (pop_serialize pop true)); try discriminate.
    destruct (to_vec (sk_serialize sk true)); try discriminate. cbn [bind].
    destruct (c_sign_now L m pp pk sk MSG Hpp Hd Hwk Hr) as (s & Hs & _ & _ & Hsig & Hv). rewrite Ht in Hsig, Hs. rewrite Hsig, Hs. cbn [fst unwrap bind].
    rewrite (c_verify_pop_now L pp pk sk pop Hpp Hone Hk Hwk Hwp). unfold assert_true at 2. cbn [bind].
    destruct (assert_true _); try discriminate. destruct (to_vec (sig_serialize s true)); try discriminate. cbn [bind].
    destruct (c_seq_ok L m pp pk SEED Hpp Hd 62 2 64 [] sk eq_refl ltac:(lia) (reached_keygen m pp SEED pk sk pop Hk) ltac:(lia)) as [(_ & -> & _)|(cf & fs & -> & _)]; discriminate.
  - exists cf. split; [exact Hcf|].
    assert (Hin : forall f, In f cf -> In f files).
    { revert H Hcf. apply valid_cs_supported in Hcs. unfold rs_main, c_test_vector.
      destruct (c_keygen_now L m pp SEED Hpp Hd Hcs SEED_len) as (pk & sk & pop & Hk & Hwk & Hwp & _ & Hr & Ht & ->).
      rewrite Hk. cbn [unwrap bind].
      destruct (pk_roundtrip E L true pk Hwk) as (-> & _). destruct (pop_roundtrip E L true pop Hwp) as (-> & _).
      destruct (sk_roundtrip E L true sk (reachable_sk_representable E L m pp pk sk Hpp Hd Hr)) as (-> & _). cbn [bind].
      destruct (c_sign_now L m pp pk sk MSG Hpp Hd Hwk Hr) as (s & Hs & Hws & _ & Hsig & Hv). rewrite Ht in Hsig, Hs. rewrite Hsig, Hs. cbn [fst unwrap bind].
      rewrite (c_verify_pop_now L pp pk sk pop Hpp Hone Hk Hwk Hwp). unfold assert_true at 2. cbn [bind].
      destruct (assert_true _); try discriminate. destruct (sig_roundtrip E L s Hws) as (-> & _). cbn [bind].
      destruct (c_seq_ok L m pp pk SEED Hpp Hd 62 2 64 [] sk eq_refl ltac:(lia) (reached_keygen m pp SEED pk sk pop Hk) ltac:(lia)) as [(_ & -> & _)|(cf' & fs & -> & -> & _ & Hi)]; [discriminate|].
      cbn [bind]. destruct (rs_ff m pp pk sk (range 2 64)) as [f2| |]; try discriminate. cbn [bind]. intros Hf Hc f Hif.
      injection Hf as <-. injection Hc as <-. cbn [app In] in Hif. cbn [app In]. rewrite in_app_iff, <- Hi. tauto. }
    split; [exact Hin|]. apply compare_iff. intros i n Hi Hni.
    assert (Hnc : NoDup (map fst cf)) by (rewrite Hm; apply nodupb_ok; vm_compute; reflexivity).
    assert (Hnf : NoDup (map fst files)) by (rewrite Hn; apply vector_names_nodup).
    assert (Hin' : In n (map fst cf)).
    { rewrite Hm. apply in_flat_map. exists i. split.
      - unfold range. apply in_map_iff. exists (N.to_nat i). split; [lia|]. apply in_seq. lia.
      - destruct Hni as [-> | ->]; cbn; auto. }
    apply in_map_iff in Hin' as ([n' b] & He & Hib). cbn [fst] in He. subst n'. exists b.
    split; apply read_file_in; auto.
Qed.
