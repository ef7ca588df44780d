(** The scripts of pixel-python. *)
From Coq Require Import ZifyBool ZifyNat ZifyN.
From Verif Require Import Base Env Time SubKey SecretKey Keys Sig IO Serdes Api Ffi Python Programs Scripts.
From Verif Require Import SpecTime SpecKey SpecUpdate KeyProps SpecSer SerProps SpecFfi FfiProps SpecPy PyProps SpecRand RandProps SpecColl CollProps
  SpecProg ProgProps SpecScripts.
Local Open Scope N_scope.

Lemma read_last out n b : read_file (out ++ [(n, b)]) n = Some b.
Proof.
  induction out as [|[n' b'] out IH]; cbn [app read_file]; [|rewrite IH; reflexivity].
  rewrite (proj2 (fname_eqb_eq n n) eq_refl). reflexivity.
Qed.

Lemma same_file_dec dir f : {same_file dir f} + {~ same_file dir f}.
Proof. unfold same_file. decide equality. apply list_eq_dec. apply N.eq_dec. Qed.

(** Writing and comparing one file, then going on. *)
Lemma write_cmp {A} dir n b (k : scr A) out :
  (py! _ <- sc_write n b; py! _ <- sc_cmp dir n; k) out
  = if same_file_dec dir (n, b) then k (out ++ [(n, b)]) else (None, out ++ [(n, b)]).
Proof.
  unfold sc_bind, sc_write, sc_cmp. rewrite read_last.
  destruct (same_file_dec dir (n, b)) as [H|H]; unfold same_file in H; cbn [fst snd] in H.
  - rewrite (proj2 (cmp_file_iff dir n b) H). reflexivity.
  - destruct (cmp_file dir n b) as [u|] eqn:Hc; [|reflexivity]. destruct (H (cmp_file_some _ _ _ _ Hc)).
Qed.

(** [s] writes and compares [l]. *)
Definition does (dir l : list file) (s : scr unit) : Prop :=
  forall out, exists w, snd (s out) = out ++ w /\ write_compare dir l (fst (s out)) w.

Lemma does_nil dir : does dir [] (sc_ret tt).
Proof. intros out. exists []. rewrite app_nil_r. split; [reflexivity|]. left. auto. Qed.
Lemma does_lift {A} dir l (o : option A) a k : o = Some a -> does dir l (k a) -> does dir l (py! x <- sc_lift o; k x).
Proof. intros -> H out. exact (H out). Qed.
Lemma does_cons dir n b l k : does dir l k -> does dir ((n, b) :: l) (py! _ <- sc_write n b; py! _ <- sc_cmp dir n; k).
Proof.
  intros H out. rewrite write_cmp. destruct (same_file_dec dir (n, b)) as [Hs|Hs].
  - destruct (H (out ++ [(n, b)])) as (w & Hw & Ho). exists ((n, b) :: w). rewrite Hw, <- app_assoc. split; [reflexivity|].
    destruct Ho as [(-> & -> & Hf)|(-> & l1 & f & l2 & -> & -> & Hf & Hn)]; [left; auto|].
    right. split; [reflexivity|]. exists ((n, b) :: l1), f, l2. auto.
  - exists [(n, b)]. split; [reflexivity|]. right. split; [reflexivity|]. exists [], (n, b), l. auto.
Qed.
Lemma does_one dir n b : does dir [(n, b)] (py! _ <- sc_write n b; sc_cmp dir n).
Proof.
  intros out. destruct (does_cons dir n b [] (sc_ret tt) (does_nil dir) out) as (w & Hw & Ho). exists w.
  assert (He : (py! _ <- sc_write n b; py! _ <- sc_cmp dir n; sc_ret tt) out = (py! _ <- sc_write n b; sc_cmp dir n) out).
  { unfold sc_bind, sc_write. destruct (sc_cmp dir n (out ++ [(n, b)])) as [[[]|] o]; reflexivity. }
  rewrite He in Hw, Ho. auto.
Qed.
Lemma does_app dir l1 l2 s1 s2 : does dir l1 s1 -> does dir l2 s2 -> does dir (l1 ++ l2) (py! _ <- s1; s2).
Proof.
  intros H1 H2 out. destruct (H1 out) as (w & Hw & Ho). unfold sc_bind. destruct (s1 out) as [r o]. cbn [fst snd] in *. subst o.
  destruct Ho as [(-> & -> & Hf)|(-> & k1 & f & k2 & -> & -> & Hf & Hn)].
  - destruct (H2 (out ++ l1)) as (w & Hw & Ho). exists (l1 ++ w). rewrite Hw, <- app_assoc. split; [reflexivity|].
    destruct Ho as [(-> & -> & Hf2)|(-> & k1 & f & k2 & -> & -> & Hf2 & Hn)].
    + left. rewrite Forall_app. auto.
    + right. split; [reflexivity|]. exists (l1 ++ k1), f, k2. rewrite Forall_app, !app_assoc. auto.
  - exists (k1 ++ [f]). split; [reflexivity|]. right. split; [reflexivity|]. exists k1, f, (k2 ++ l2). rewrite <- app_assoc. auto.
Qed.
Lemma does_ext dir l s s' : (forall out, s out = s' out) -> does dir l s' -> does dir l s.
Proof. intros He H out. rewrite He. apply H. Qed.

Lemma does_all dir l s out : does dir l s -> Forall (same_file dir) l -> s out = (Some tt, out ++ l).
Proof.
  intros H Hf. destruct (H out) as (w & Hw & Ho). rewrite (surjective_pairing (s out)), Hw.
  destruct Ho as [(-> & -> & _)|(_ & l1 & f & l2 & -> & _ & _ & Hn)]; [reflexivity|].
  destruct Hn. apply Forall_app in Hf as [_ Hf]. inversion Hf; assumption.
Qed.
Lemma first_bad dir : forall l1 l1' f f' l2 l2', Forall (same_file dir) l1 -> Forall (same_file dir) l1' -> ~ same_file dir f -> ~ same_file dir f' ->
  l1 ++ f :: l2 = l1' ++ f' :: l2' -> l1 = l1' /\ f = f'.
Proof.
  induction l1 as [|x l1 IH]; intros [|x' l1'] f f' l2 l2' H H' Hn Hn' He; cbn [app] in He; injection He; intros Ht Hh.
  - auto.
  - subst f. inversion H'; contradiction.
  - subst f'. inversion H; contradiction.
  - subst x'. inversion H; subst. inversion H'; subst. destruct (IH l1' f f' l2 l2') as [-> ->]; auto.
Qed.
Lemma does_stop dir l1 f l2 s out : does dir (l1 ++ f :: l2) s -> Forall (same_file dir) l1 -> ~ same_file dir f ->
  s out = (None, out ++ l1 ++ [f]).
Proof.
  intros H Hf Hn. destruct (H out) as (w & Hw & Ho). rewrite (surjective_pairing (s out)), Hw.
  destruct Ho as [(_ & _ & Hx)|(-> & k1 & f' & k2 & Hl & -> & Hf' & Hn')].
  - apply Forall_app in Hx as [_ Hx]. inversion Hx; contradiction.
  - destruct (first_bad dir _ _ _ _ _ _ Hf Hf' Hn Hn' Hl) as [<- <-]. reflexivity.
Qed.

(** One step of the Rust generator, and what the Python functions give. *)
Lemma step_view {E} (L : env_laws E) m (pp : pubparam E) pk sk tar nsk nsig fs sk' :
  pp_ok pp -> py_params pp -> reachable m pp pk sk -> sec_time sk < tar <= last_time (pp_depth pp) ->
  rs_step m pp pk sk tar nsk nsig = Ok (fs, sk') ->
  exists a b g, fs = [(nsk, a); (nsig, b)] /\ reachable m pp pk sk' /\ sec_time sk' = tar
    /\ py_update pp (py_view sk) tar RNGSEED = Some (py_view sk') /\ py_serialize_sk (py_view sk') = Some a
    /\ py_sign_present pp (py_view sk') tar MSG = Some g /\ py_serialize_sig g = Some b.
Proof.
  intros Hpp Hp Hr Ht Hrs. pose proof (pyp_depth _ Hp) as Hd.
  destruct (reachable_reached m pp pk sk Hr) as (kseed & l & Hr0).
  destruct (rs_step_ok L m pp kseed l pk sk tar nsk nsig Hpp Hd Hr0 Ht) as [(_ & H & _)|(sk1 & s & Hu & Hr01 & Ht1 & Hs & Hw & _ & _ & H)];
    rewrite H in Hrs; [discriminate|]. injection Hrs as <- <-. pose proof (reached_reachable _ _ _ _ _ _ Hr01) as Hr1.
  destruct (py_update_agrees E L m pp pk sk tar RNGSEED Hpp Hp Hr Ht) as (sk2 & Hpu & [Hu2|Hu2]); rewrite Hu in Hu2; [|discriminate].
  injection Hu2 as <-. rewrite <- Ht1 in Hs at 1.
  destruct (py_sign_now L m pp pk sk1 s Hpp Hp Hr1 Hs Hw) as (g & Hps & Hsig & Hsk). rewrite Ht1 in Hps.
  eexists _, _, g. repeat (split; [first [reflexivity|eassumption]|]). exact Hsig.
Qed.

Lemma tv_step_does {E} (pp : pubparam E) dir sk tar nsk nsig l a b g sk2 k :
  py_update pp sk tar RNGSEED = Some sk2 -> py_serialize_sk sk2 = Some a ->
  py_sign_present pp sk2 tar MSG = Some g -> py_serialize_sig g = Some b -> does dir l (k sk2) ->
  does dir ([(nsk, a); (nsig, b)] ++ l) (py! x <- tv_step pp dir sk tar nsk nsig; k x).
Proof.
  intros Hu Ha Hg Hb Hk.
  apply does_ext with (s' := py! _ <- sc_write nsk a; py! _ <- sc_cmp dir nsk; py! _ <- sc_write nsig b; py! _ <- sc_cmp dir nsig; k sk2).
  - intros out. unfold tv_step, py_update_arg. rewrite Hu. unfold sc_bind at 1 2, sc_lift at 1. unfold sc_bind at 1. rewrite Hg.
    unfold sc_lift at 1. unfold sc_bind at 1. rewrite Ha. unfold sc_lift at 1.
    rewrite !write_cmp. destruct (same_file_dec dir (nsk, a)); [|reflexivity]. unfold sc_bind at 1. rewrite Hb. unfold sc_lift at 1.
    rewrite !write_cmp. destruct (same_file_dec dir (nsig, b)); reflexivity.
  - apply does_cons. apply does_cons. exact Hk.
Qed.

Definition is_sk (f : file) : bool := match fst f with SkBin _ => true | _ => false end.

Lemma filter_step (p : fname -> bool) nsk nsig a b f2 :
  filter (fun f : file => p (fst f)) ([(nsk, a); (nsig, b)] ++ f2)
  = (if p nsk then [(nsk, a)] else []) ++ (if p nsig then [(nsig, b)] else []) ++ filter (fun f => p (fst f)) f2.
Proof. cbn [app filter fst]. destruct (p nsk), (p nsig); reflexivity. Qed.

Section Loops.
Context {E : env} (L : env_laws E) (m : mode) (pp : pubparam E) (pk : pubkey E) (dir : list file).
Context (Hpp : pp_ok pp) (Hp : py_params pp).

Lemma rs_seq_cons a b sk fs :
  (a < b)%nat -> rs_seq m pp pk sk (range a b) = Ok fs ->
  exists f1 f2 sk1, rs_step m pp pk sk (N.of_nat a) (SkBin (N.of_nat a)) (SigBin (N.of_nat a)) = Ok (f1, sk1)
    /\ rs_seq m pp pk sk1 (range (S a) b) = Ok f2 /\ fs = f1 ++ f2.
Proof.
  intros Hab H. rewrite range_cons in H by exact Hab. cbn [rs_seq] in H.
  destruct (rs_step m pp pk sk (N.of_nat a) (SkBin (N.of_nat a)) (SigBin (N.of_nat a))) as [[f1 sk1]| |]; try discriminate. cbn [bind] in H.
  destruct (rs_seq m pp pk sk1 (range (S a) b)) as [f2| |] eqn:H2; try discriminate. cbn [bind] in H.
  exists f1, f2, sk1. split; [reflexivity|]. split; [exact H2|]. congruence.
Qed.

Lemma keyupdate_loop_does : forall n a b sk fs, n = (b - a)%nat -> N.of_nat b <= 1 + last_time (pp_depth pp) ->
  reachable m pp pk sk -> sec_time sk + 1 = N.of_nat a -> rs_seq m pp pk sk (range a b) = Ok fs ->
  does dir (filter is_sk fs) (keyupdate_loop pp dir (PyBytes RNGSEED) (py_view sk) (range a b)).
Proof.
  induction n as [|n IH]; intros a b sk fs Hn Hb Hr Ht H.
  - rewrite range_nil in * by lia. cbn [rs_seq] in H. injection H as <-. apply does_nil.
  - destruct (rs_seq_cons a b sk fs ltac:(lia) H) as (f1 & f2 & sk1 & H1 & H2 & ->). rewrite range_cons by lia.
    destruct (step_view L m pp pk sk (N.of_nat a) _ _ _ _ Hpp Hp Hr ltac:(lia) H1) as (ba & bb & g & -> & Hr1 & Ht1 & Hu & Ha & Hg & Hbb).
    cbn [keyupdate_loop py_update_arg]. apply does_lift with (a := py_view sk1); [exact Hu|].
    apply does_lift with (a := ba); [exact Ha|]. cbn [app filter is_sk fst]. apply does_cons.
    apply (IH (S a) b sk1 f2 ltac:(lia) Hb Hr1 ltac:(lia) H2).
Qed.

Lemma sig_loop_does : forall n a b sk fs, n = (b - a)%nat -> N.of_nat b <= 1 + last_time (pp_depth pp) ->
  reachable m pp pk sk -> sec_time sk + 1 = N.of_nat a -> rs_seq m pp pk sk (range a b) = Ok fs ->
  does dir (filter makes_sig fs) (sig_loop pp dir (py_view sk) (range a b)).
Proof.
  induction n as [|n IH]; intros a b sk fs Hn Hb Hr Ht H.
  - rewrite range_nil in * by lia. cbn [rs_seq] in H. injection H as <-. apply does_nil.
  - destruct (rs_seq_cons a b sk fs ltac:(lia) H) as (f1 & f2 & sk1 & H1 & H2 & ->). rewrite range_cons by lia.
    destruct (step_view L m pp pk sk (N.of_nat a) _ _ _ _ Hpp Hp Hr ltac:(lia) H1) as (ba & bb & g & -> & Hr1 & Ht1 & Hu & Ha & Hg & Hbb).
    cbn [sig_loop py_update_arg]. apply does_lift with (a := py_view sk1); [exact Hu|].
    apply does_lift with (a := g); [exact Hg|]. apply does_lift with (a := bb); [exact Hbb|].
    cbn [app filter makes_sig fst]. apply does_cons.
    apply (IH (S a) b sk1 f2 ltac:(lia) Hb Hr1 ltac:(lia) H2).
Qed.

Lemma tv_seq_does : forall n a b sk fs, n = (b - a)%nat -> N.of_nat b <= 1 + last_time (pp_depth pp) ->
  reachable m pp pk sk -> sec_time sk + 1 = N.of_nat a -> rs_seq m pp pk sk (range a b) = Ok fs ->
  does dir fs (tv_seq pp dir (py_view sk) (range a b)).
Proof.
  induction n as [|n IH]; intros a b sk fs Hn Hb Hr Ht H.
  - rewrite range_nil in * by lia. cbn [rs_seq] in H. injection H as <-. apply does_nil.
  - destruct (rs_seq_cons a b sk fs ltac:(lia) H) as (f1 & f2 & sk1 & H1 & H2 & ->). rewrite range_cons by lia.
    destruct (step_view L m pp pk sk (N.of_nat a) _ _ _ _ Hpp Hp Hr ltac:(lia) H1) as (ba & bb & g & -> & Hr1 & Ht1 & Hu & Ha & Hg & Hbb).
    cbn [tv_seq]. apply (tv_step_does pp dir (py_view sk) _ _ _ f2 ba bb g (py_view sk1) (fun x => tv_seq pp dir x (range (S a) b)) Hu Ha Hg Hbb).
    apply (IH (S a) b sk1 f2 ltac:(lia) Hb Hr1 ltac:(lia) H2).
Qed.

Lemma tv_ff_does : forall n a b sk fs, n = (b - a)%nat -> (2 <= a)%nat -> N.of_nat (b * (b - 1) / 2) <= last_time (pp_depth pp) ->
  reachable m pp pk sk -> sec_time sk = N.of_nat (a * (a - 1) / 2) -> rs_ff m pp pk sk (range a b) = Ok fs ->
  does dir fs (tv_ff pp dir (py_view sk) (range a b)).
Proof.
  pose proof (pyp_depth _ Hp) as Hd. induction n as [|n IH]; intros a b sk fs Hn Ha2 Hb Hr Ht H.
  - rewrite range_nil in * by lia. cbn [rs_ff] in H. injection H as <-. apply does_nil.
  - rewrite range_cons in * by lia. cbn [rs_ff tv_ff] in *. cbv zeta in H.
    pose proof (tri_next a Ha2) as Hnext. pose proof (tri_le (S a) b ltac:(lia)) as Hle. pose proof (last_time_32 _ Hd) as H32.
    rewrite add64_ok in H by (rewrite Ht, Hnext; unfold two64; lia). cbn [bind] in H.
    assert (Htar : sec_time sk + N.of_nat a = N.of_nat (S a * (S a - 1) / 2)) by (rewrite Ht; exact Hnext).
    destruct (py_head L m pp pk sk Hpp Hr) as (s0 & Hs0 & Hs1).
    apply does_lift with (a := s0); [exact Hs0|]. rewrite Hs1.
    revert H Htar. set (tar := sec_time sk + N.of_nat a). intros H Htar.
    destruct (rs_step m pp pk sk tar (SkFf (sec_time sk) tar) (SigFf (sec_time sk) tar)) as [[f1 sk1]| |] eqn:H1; try discriminate.
    cbn [bind] in H. destruct (rs_ff m pp pk sk1 (range (S a) b)) as [f2| |] eqn:H2; try discriminate. cbn [bind] in H.
    assert (Hfs : fs = f1 ++ f2) by congruence. subst fs.
    destruct (step_view L m pp pk sk tar _ _ _ _ Hpp Hp Hr ltac:(lia) H1) as (ba & bb & g & -> & Hr1 & Ht1 & Hu & Ha & Hg & Hbb).
    apply (tv_step_does pp dir (py_view sk) _ _ _ f2 ba bb g (py_view sk1) (fun x => tv_ff pp dir x (range (S a) b)) Hu Ha Hg Hbb).
    apply (IH (S a) b sk1 f2 ltac:(lia) ltac:(lia) Hb Hr1 ltac:(lia) H2).
Qed.
End Loops.

(** The generator's files and what the Python functions give at the start. *)
Lemma rs_main_view {E} (L : env_laws E) m (pp : pubparam E) files :
  pp_ok pp -> py_params pp -> 2016 <= last_time (pp_depth pp) -> rs_main m pp = Ok files ->
  exists pk sk pb pob b g c (f1 f2 : list file),
    files = @app file [(PkBin, pb); (PopBin, pob); (SkBin 1, b); (SigBin 1, c)] (@app file f1 f2)
    /\ py_key_gen pp SEED = Some (pk_pk pk, py_view sk) /\ py_serialize_pk (pk_pk pk) = pb
    /\ py_serialize_sk (py_view sk) = Some b /\ py_sign_present pp (py_view sk) 1 MSG = Some g /\ py_serialize_sig g = Some c
    /\ reachable m pp pk sk /\ sec_time sk = 1
    /\ rs_seq m pp pk sk (range 2 64) = Ok f1 /\ rs_ff m pp pk sk (range 2 64) = Ok f2
    /\ map fst f1 = flat_map (fun i => [SkBin i; SigBin i]) (range 2 64) /\ map fst f2 = flat_map jump_names (range 2 64).
Proof.
  intros Hpp Hp Hlast H. pose proof (pyp_depth _ Hp) as Hd.
  assert (Hcs : valid_cs (pp_cs pp) = true) by (rewrite (pyp_cs _ Hp); reflexivity).
  destruct (keygen_ok L m pp SEED Hpp Hcs SEED_len) as (pk & sk & pop & Hk & Hwk & Hwp & Hpcs & Hr & Ht).
  unfold rs_main in H. rewrite Hk in H. cbn [unwrap bind] in H.
  destruct (pk_roundtrip E L true pk Hwk) as (Hpk & _). destruct (pop_roundtrip E L true pop Hwp) as (Hpop & _).
  destruct (sk_roundtrip E L true sk (reachable_sk_representable E L m pp pk sk Hpp Hd Hr)) as (Hsk & _).
  rewrite Hpk, Hpop, Hsk in H. cbn [bind] in H.
  destruct (sign_now L m pp pk sk MSG Hpp Hd Hr) as (s & Hs & Hws & Hst & Hv).
  destruct (py_sign_now L m pp pk sk s Hpp Hp Hr Hs Hws) as (g & Hps & Hsig & Hpsk).
  rewrite Ht in Hs, Hps. rewrite Hs in H. cbn [fst unwrap bind] in H. rewrite Hv in H. unfold assert_true in H. cbn [bind] in H.
  destruct (sig_roundtrip E L s Hws) as (Hss & _). rewrite Hss in H. cbn [bind] in H.
  destruct (rs_seq m pp pk sk (range 2 64)) as [f1| |] eqn:H1; try discriminate. cbn [bind] in H.
  destruct (rs_ff m pp pk sk (range 2 64)) as [f2| |] eqn:H2; try discriminate. cbn [bind] in H.
  pose proof (reached_keygen m pp SEED pk sk pop Hk) as Hr0.
  exists pk, sk, (pk_blob true pk), (pop_blob true pop), (sk_blob true sk), g, (sig_blob true s), f1, f2.
  split; [injection H as <-; reflexivity|]. split; [exact (py_key_gen_agrees E L pp SEED pk sk pop Hpp Hp Hk)|].
  split; [unfold py_serialize_pk, pk_blob; rewrite Hpcs, (pyp_cs _ Hp); reflexivity|].
  repeat (split; [first [eassumption|reflexivity]|]).
  split.
  - destruct (rs_seq_ok L m pp pk pop SEED Hpp Hd 62 2 64 [] sk eq_refl ltac:(lia) Hr0 ltac:(lia)) as [[Hx _]|(f & Hx & Hm & _)]; rewrite H1 in Hx; [discriminate|].
    assert (f = f1) by congruence. subst f. exact Hm.
  - destruct (rs_ff_ok L m pp pk pop SEED Hpp Hd 62 2 64 [] sk eq_refl ltac:(lia) Hlast Hr0 Ht) as [[Hx _]|(f & Hx & Hm & _)]; rewrite H2 in Hx; [discriminate|].
    assert (f = f2) by congruence. subst f. exact Hm.
Qed.

Lemma filter_is_sk_seq l : forall fs : list file, map fst fs = flat_map (fun i => [SkBin i; SigBin i]) l -> ~ In 1 l ->
  filter makes_keyupdate fs = filter is_sk fs /\ filter makes_keygen fs = [] /\ filter makes_all fs = fs.
Proof.
  induction l as [|i l IH]; intros fs H Hn; cbn [flat_map app] in H.
  - destruct fs; [auto|discriminate].
  - destruct fs as [|[n1 b1] [|[n2 b2] fs]]; try discriminate. cbn [map fst] in H. injection H as -> -> H.
    destruct (IH fs H ltac:(intros Hi; apply Hn; right; exact Hi)) as (I1 & I2 & I3).
    assert (Hi : (i =? 1) = false) by (apply N.eqb_neq; intros ->; apply Hn; left; reflexivity).
    cbn [filter makes_keyupdate makes_keygen makes_all is_sk fst]. rewrite Hi, I1, I2, I3. auto.
Qed.
Lemma filter_ff l : forall fs : list file, map fst fs = flat_map jump_names l ->
  filter makes_keyupdate fs = [] /\ filter makes_keygen fs = [] /\ filter makes_sig fs = [] /\ filter makes_all fs = fs.
Proof.
  induction l as [|i l IH]; intros fs H; cbn [flat_map app jump_names] in H.
  - destruct fs; [auto|discriminate].
  - destruct fs as [|[n1 b1] [|[n2 b2] fs]]; try discriminate. cbn [map fst] in H. injection H as -> -> H.
    destruct (IH fs H) as (I1 & I2 & I3 & I4). cbn [filter makes_keyupdate makes_keygen makes_sig makes_all fst]. rewrite I1, I2, I3, I4. auto.
Qed.
Lemma no_one : ~ In 1 (range 2 64).
Proof. unfold range. rewrite in_map_iff. intros (x & Hx & Hi). apply in_seq in Hi. lia. Qed.

Lemma keygen_script_outcome : forall (E : env) (L : env_laws E) m (pp : pubparam E) files,
  pp_ok pp -> py_params pp -> 2016 <= last_time (pp_depth pp) -> rs_main m pp = Ok files ->
  forall dir out, snd (keygen_script pp dir out) = out ++ filter makes_keygen files
    /\ (fst (keygen_script pp dir out) = Some tt <-> Forall (same_file dir) (filter makes_keygen files)).
Proof.
  intros E L m pp files Hpp Hp Hlast H dir out.
  destruct (rs_main_view L m pp files Hpp Hp Hlast H) as (pk & sk & pb & pob & b & g & c & f1 & f2 & -> & Hk & Hpb & Hb & _ & _ & _ & _ & _ & _ & Hn1 & Hn2).
  destruct (filter_is_sk_seq _ _ Hn1 no_one) as (_ & F1 & _). destruct (filter_ff _ _ Hn2) as (_ & F2 & _).
  rewrite !filter_app, F1, F2, !app_nil_r. cbn [filter makes_keygen fst N.eqb Pos.eqb].
  unfold keygen_script, sc_bind, sc_lift, sc_write, sc_cmp. rewrite Hk. cbn [fst snd]. rewrite Hpb, Hb.
  rewrite <- app_assoc. cbn [app].
  match goal with |- context [read_file ?d PkBin] =>
    assert (R1 : read_file d PkBin = Some pb); [|assert (R2 : read_file d (SkBin 1) = Some b)] end.
  { clear. induction out as [|[n' b'] out IH]; cbn [app read_file]; [reflexivity|rewrite IH; reflexivity]. }
  { clear. induction out as [|[n' b'] out IH]; cbn [app read_file]; [reflexivity|rewrite IH; reflexivity]. }
  rewrite R1. destruct (cmp_file dir PkBin pb) as [u|] eqn:C1.
  - rewrite R2. split; [reflexivity|]. cbn [fst]. apply cmp_file_some in C1. rewrite cmp_file_iff. split.
    + intros C2. repeat constructor; [exact C1|exact C2].
    + intros Hf. inversion Hf as [|? ? _ Hf2]; subst. inversion Hf2 as [|? ? Hx _]; subst. exact Hx.
  - split; [reflexivity|]. cbn [fst]. split; [discriminate|]. intros Hf. inversion Hf as [|? ? Hx _]; subst.
    unfold same_file in Hx. cbn [fst snd] in Hx. apply cmp_file_iff in Hx. congruence.
Qed.

Lemma keyupdate_script_raises : forall (E : env) (pp : pubparam E) dir out, keyupdate_script pp dir out = (None, out).
Proof.
  intros E pp dir out. unfold keyupdate_script, keyupdate_with, sc_bind, sc_lift. destruct (py_key_gen pp SEED) as [x|]; [|reflexivity].
  rewrite range_cons by lia. reflexivity.
Qed.

Lemma keyupdate_bytes_outcome : forall (E : env) (L : env_laws E) m (pp : pubparam E) files,
  pp_ok pp -> py_params pp -> 2016 <= last_time (pp_depth pp) -> rs_main m pp = Ok files ->
  forall dir out, exists w, snd (keyupdate_with pp dir (PyBytes []) out) = out ++ w
    /\ write_compare dir (filter makes_keyupdate files) (fst (keyupdate_with pp dir (PyBytes []) out)) w.
Proof.
  intros E L m pp files Hpp Hp Hlast H dir.
  destruct (rs_main_view L m pp files Hpp Hp Hlast H) as (pk & sk & pb & pob & b & g & c & f1 & f2 & -> & Hk & Hpb & Hb & _ & _ & Hr & Ht & H1 & H2 & Hn1 & Hn2).
  destruct (filter_is_sk_seq _ _ Hn1 no_one) as (F1 & _). destruct (filter_ff _ _ Hn2) as (F2 & _).
  rewrite !filter_app, F1, F2, app_nil_r. change (filter makes_keyupdate [(PkBin, pb); (PopBin, pob); (SkBin 1, b); (SigBin 1, c)]) with (@nil file).
  change (does dir (filter is_sk f1) (keyupdate_with pp dir (PyBytes RNGSEED))).
  unfold keyupdate_with. apply does_lift with (a := (pk_pk pk, py_view sk)); [exact Hk|]. cbn [snd].
  apply (keyupdate_loop_does L m pp pk dir Hpp Hp 62 2 64 sk f1 eq_refl); [lia|exact Hr|lia|exact H1].
Qed.

Lemma sig_script_outcome : forall (E : env) (L : env_laws E) m (pp : pubparam E) files,
  pp_ok pp -> py_params pp -> 2016 <= last_time (pp_depth pp) -> rs_main m pp = Ok files ->
  forall dir out, exists w, snd (sig_script pp dir out) = out ++ w
    /\ write_compare dir (filter makes_sig files) (fst (sig_script pp dir out)) w.
Proof.
  intros E L m pp files Hpp Hp Hlast H dir.
  destruct (rs_main_view L m pp files Hpp Hp Hlast H) as (pk & sk & pb & pob & b & g & c & f1 & f2 & -> & Hk & Hpb & Hb & Hg & Hc & Hr & Ht & H1 & H2 & Hn1 & Hn2).
  destruct (filter_ff _ _ Hn2) as (_ & _ & F2 & _).
  rewrite !filter_app, F2, app_nil_r. change (filter makes_sig [(PkBin, pb); (PopBin, pob); (SkBin 1, b); (SigBin 1, c)]) with [(SigBin 1, c)].
  change (does dir ((SigBin 1, c) :: filter makes_sig f1) (sig_script pp dir)).
  unfold sig_script. apply does_lift with (a := (pk_pk pk, py_view sk)); [exact Hk|]. cbn [snd].
  apply does_lift with (a := g); [exact Hg|]. apply does_lift with (a := c); [exact Hc|]. apply does_cons.
  apply (sig_loop_does L m pp pk dir Hpp Hp 62 2 64 sk f1 eq_refl); [lia|exact Hr|lia|exact H1].
Qed.

Lemma tv_script_outcome : forall (E : env) (L : env_laws E) m (pp : pubparam E) files,
  pp_ok pp -> py_params pp -> 2016 <= last_time (pp_depth pp) -> rs_main m pp = Ok files ->
  forall dir out, exists w, snd (tv_script pp dir out) = out ++ w
    /\ write_compare dir (filter makes_all files) (fst (tv_script pp dir out)) w.
Proof.
  intros E L m pp files Hpp Hp Hlast H dir.
  destruct (rs_main_view L m pp files Hpp Hp Hlast H) as (pk & sk & pb & pob & b & g & c & f1 & f2 & -> & Hk & Hpb & Hb & Hg & Hc & Hr & Ht & H1 & H2 & Hn1 & Hn2).
  destruct (filter_is_sk_seq _ _ Hn1 no_one) as (_ & _ & F1). destruct (filter_ff _ _ Hn2) as (_ & _ & _ & F2).
  rewrite !filter_app, F1, F2. change (filter makes_all [(PkBin, pb); (PopBin, pob); (SkBin 1, b); (SigBin 1, c)]) with [(PkBin, pb); (SkBin 1, b); (SigBin 1, c)].
  change (does dir ((PkBin, pb) :: (SkBin 1, b) :: (SigBin 1, c) :: f1 ++ f2) (tv_script pp dir)).
  unfold tv_script. apply does_lift with (a := (pk_pk pk, py_view sk)); [exact Hk|]. cbn [fst snd].
  apply does_lift with (a := g); [exact Hg|]. rewrite Hpb. apply does_cons.
  apply does_lift with (a := b); [exact Hb|]. apply does_cons.
  apply does_lift with (a := c); [exact Hc|]. apply does_cons. apply does_app.
  - apply (tv_seq_does L m pp pk dir Hpp Hp 62 2 64 sk f1 eq_refl); [lia|exact Hr|lia|exact H1].
  - apply (tv_ff_does L m pp pk dir Hpp Hp 62 2 64 sk f2 eq_refl); [lia|exact Hlast|exact Hr|exact Ht|exact H2].
Qed.

(** The scripts run on the files of the generator. *)
Lemma scripts_on_vectors : forall (E : env) (L : env_laws E) m (pp : pubparam E) files out,
  pp_ok pp -> py_params pp -> 2016 <= last_time (pp_depth pp) -> rs_main m pp = Ok files ->
  keygen_script pp files out = (Some tt, out ++ filter makes_keygen files)
  /\ sig_script pp files out = (Some tt, out ++ filter makes_sig files)
  /\ tv_script pp files out = (Some tt, out ++ filter makes_all files)
  /\ keyupdate_with pp files (PyBytes []) out = (Some tt, out ++ filter makes_keyupdate files)
  /\ keyupdate_script pp files out = (None, out).
Proof.
  intros E L m pp files out Hpp Hp Hlast H.
  assert (Hnd : NoDup (map fst files)).
  { destruct (rs_main_view L m pp files Hpp Hp Hlast H) as (pk & sk & pb & pob & b & g & c & f1 & f2 & -> & _ & _ & _ & _ & _ & _ & _ & _ & _ & Hn1 & Hn2).
    replace (map fst (@app file [(PkBin, pb); (PopBin, pob); (SkBin 1, b); (SigBin 1, c)] (@app file f1 f2))) with vector_names; [exact vector_names_nodup|].
    unfold vector_names. rewrite <- Hn1, <- Hn2. symmetry. etransitivity; [apply map_app|]. apply f_equal. apply map_app. }
  assert (Hall : forall p, Forall (same_file files) (filter p files)).
  { intros p. apply Forall_forall. intros [n b] Hi. apply filter_In in Hi as [Hi _]. unfold same_file. cbn [fst snd]. apply read_file_in; assumption. }
  assert (Hg : forall p (s : scr unit), (exists w, snd (s out) = out ++ w /\ write_compare files (filter p files) (fst (s out)) w) ->
    s out = (Some tt, out ++ filter p files)).
  { intros p s (w & Hw & Ho). rewrite (surjective_pairing (s out)), Hw.
    destruct Ho as [(-> & -> & _)|(_ & l1 & f & l2 & Hl & _ & _ & Hn)]; [reflexivity|].
    destruct Hn. pose proof (Hall p) as Hx. rewrite Hl in Hx. apply Forall_app in Hx as [_ Hx]. inversion Hx; assumption. }
  split.
  { destruct (keygen_script_outcome E L m pp files Hpp Hp Hlast H files out) as [Hs Hf].
    rewrite (surjective_pairing (keygen_script pp files out)), Hs, (proj2 Hf (Hall _)). reflexivity. }
  split; [apply Hg; exact (sig_script_outcome E L m pp files Hpp Hp Hlast H files out)|].
  split; [apply Hg; exact (tv_script_outcome E L m pp files Hpp Hp Hlast H files out)|].
  split; [apply Hg; exact (keyupdate_bytes_outcome E L m pp files Hpp Hp Hlast H files out)|].
  apply keyupdate_script_raises.
Qed.
