(** The generator of the test vectors on a failing file system. *)
From Coq Require Import ZifyBool ZifyNat ZifyN.
From Verif Require Import Base Env Time SubKey SecretKey Keys Sig IO Serdes Programs GenFs.
From Verif Require Import SpecTime SpecKey SpecUpdate SpecSer IOFacts SerFacts SerProps MixProps Api Python SpecPy SpecColl SpecProg ProgProps SpecScripts ScriptProps SpecGen.
Local Open Scope N_scope.

(** A serializer: checks that do not depend on the writer, then one write_all. *)
Definition simple (f : st writer unit) : Prop :=
  exists r : res bytes, forall w, f w = match r with Ok b => write_all b w | Err e => (Err e, w) | Panic p => (Panic p, w) end.

Lemma simple_write b : simple (write_all b).
Proof. exists (Ok b). reflexivity. Qed.
Lemma simple_pk {E} (x : pubkey E) c : simple (pk_serialize x c).
Proof. unfold pk_serialize. destruct (negb _); [exists (Err E_CIPHERSUITE); reflexivity|apply simple_write]. Qed.
Lemma simple_pop {E} (x : proof E) c : simple (pop_serialize x c).
Proof. unfold pop_serialize. destruct (negb _); [exists (Err E_CIPHERSUITE); reflexivity|apply simple_write]. Qed.
Lemma simple_sig {E} (x : signature E) c : simple (sig_serialize x c).
Proof.
  unfold sig_serialize. destruct (negb _); [exists (Err E_CIPHERSUITE); reflexivity|]. cbv zeta.
  destruct (_ <=? _); [exists (Err E_SERIAL); reflexivity|apply simple_write].
Qed.
Lemma simple_sk {E} (x : seckey E) c : simple (sk_serialize x c).
Proof.
  unfold sk_serialize. destruct (negb _); [exists (Err E_CIPHERSUITE); reflexivity|]. cbv zeta.
  match goal with |- simple (sbind (slift ?r) _) => exists r end. intros w. unfold sbind, slift.
  destruct (ssks_serialize _ _ _) as [[u|e|p] v]; reflexivity.
Qed.

(** What a run does without failures, and with any. *)
Definition robust {A} (s : st disk A) : Prop :=
  exists r0 g0, (forall fs, s (Disk fs []) = (r0, Disk (fs ++ g0) []))
  /\ forall fs evs, exists evs',
     (s (Disk fs evs) = (r0, Disk (fs ++ g0) evs') /\ (no_failure evs -> no_failure evs'))
     \/ (~ no_failure evs /\ exists g, cut_short g0 g /\ s (Disk fs evs) = (Err E_IO, Disk (fs ++ g) evs')).

Lemma robust_lift {A} (r : res A) : robust (slift r).
Proof.
  exists r, []. split; [intros fs; rewrite app_nil_r; reflexivity|]. intros fs evs. exists evs. left. rewrite app_nil_r. split; [reflexivity|auto].
Qed.

Lemma robust_save n f : simple f -> robust (save n f).
Proof.
  intros (r & Hf). destruct r as [b|e|p].
  - exists (Ok tt), [(n, b)]. split.
    { intros fs. unfold save. cbn [dk_evs dk_files]. rewrite Hf. unfold write_all. cbn [w_script w_out].
      destruct b; reflexivity. }
    intros fs [|[sc|] evs]; unfold save; cbn [dk_evs dk_files].
    + exists []. left. rewrite Hf. split; [destruct b; reflexivity|auto].
    + exists evs. rewrite Hf. unfold write_all. cbn [w_script w_out].
      destruct (write_all_cases b sc []) as [(s & Hw)|(k & s & Hw)].
      * left. rewrite Hw. split; [reflexivity|]. intros H. inversion H; assumption.
      * right. split.
        { intros H. inversion H as [|? ? (sc' & He & Hwl) _]; subst. injection He as <-.
          destruct (write_all_willing sc [] b Hwl) as (s' & Hw' & _). congruence. }
        exists [(n, firstn k b)]. split; [|rewrite Hw; reflexivity]. exists [], n, b, []. split; [reflexivity|]. right. exists k. reflexivity.
    + exists evs. right. split; [intros H; inversion H as [|? ? (sc' & He & _) _]; discriminate|].
      exists []. rewrite app_nil_r. split; [|reflexivity]. exists [], n, b, []. auto.
  - exists (Err e), [(n, [])]. split; [intros fs; unfold save; cbn [dk_evs dk_files]; rewrite Hf; reflexivity|].
    intros fs [|[sc|] evs]; unfold save; cbn [dk_evs dk_files]; rewrite ?Hf.
    + exists []. left. auto.
    + exists evs. left. split; [reflexivity|]. intros H. inversion H; assumption.
    + exists evs. right. split; [intros H; inversion H as [|? ? (sc' & He & _) _]; discriminate|].
      exists []. rewrite app_nil_r. split; [|reflexivity]. exists [], n, [], []. auto.
  - exists (Panic p), [(n, [])]. split; [intros fs; unfold save; cbn [dk_evs dk_files]; rewrite Hf; reflexivity|].
    intros fs [|[sc|] evs]; unfold save; cbn [dk_evs dk_files]; rewrite ?Hf.
    + exists []. left. auto.
    + exists evs. left. split; [reflexivity|]. intros H. inversion H; assumption.
    + exists evs. right. split; [intros H; inversion H as [|? ? (sc' & He & _) _]; discriminate|].
      exists []. rewrite app_nil_r. split; [|reflexivity]. exists [], n, [], []. auto.
Qed.

Lemma cut_left g1 g2 g : cut_short g1 g -> cut_short (g1 ++ g2) g.
Proof.
  intros (l1 & n & b & l2 & -> & H). exists l1, n, b, (l2 ++ g2). rewrite <- app_assoc. auto.
Qed.
Lemma cut_right g1 g2 g : cut_short g2 g -> cut_short (g1 ++ g2) (g1 ++ g).
Proof.
  intros (l1 & n & b & l2 & -> & H). exists (g1 ++ l1), n, b, l2. rewrite <- app_assoc. split; [reflexivity|].
  destruct H as [->|(k & ->)]; [left; reflexivity|right; exists k; apply app_assoc].
Qed.

Lemma robust_bind {A B} (s : st disk A) (k : A -> st disk B) : robust s -> (forall a, robust (k a)) -> robust (sbind s k).
Proof.
  intros (r0 & g0 & H0 & H) Hk. destruct r0 as [a|e|p].
  - destruct (Hk a) as (r1 & g1 & H1 & H'). exists r1, (g0 ++ g1). split.
    { intros fs. unfold sbind. rewrite H0, H1, app_assoc. reflexivity. }
    intros fs evs. unfold sbind. destruct (H fs evs) as (e1 & [[E1 N1]|[N1 (g & Hc & E1)]]); rewrite E1.
    + destruct (H' (fs ++ g0) e1) as (e2 & [[E2 N2]|[N2 (g & Hc & E2)]]); rewrite E2; exists e2.
      * left. rewrite app_assoc. auto.
      * right. split; [auto|]. exists (g0 ++ g). rewrite app_assoc. split; [apply cut_right, Hc|reflexivity].
    + exists e1. right. split; [exact N1|]. exists g. split; [apply cut_left, Hc|reflexivity].
  - exists (Err e), g0. split; [intros fs; unfold sbind; rewrite H0; reflexivity|].
    intros fs evs. unfold sbind. destruct (H fs evs) as (e1 & [[E1 N1]|[N1 (g & Hc & E1)]]); rewrite E1; exists e1; [left; auto|right; eauto].
  - exists (Panic p), g0. split; [intros fs; unfold sbind; rewrite H0; reflexivity|].
    intros fs evs. unfold sbind. destruct (H fs evs) as (e1 & [[E1 N1]|[N1 (g & Hc & E1)]]); rewrite E1; exists e1; [left; auto|right; eauto].
Qed.

Lemma robust_step {E} show m (pp : pubparam E) pk sk tar nsk nsig : robust (gen_step show m pp pk sk tar nsk nsig).
Proof.
  unfold gen_step. repeat (apply robust_bind; [first [apply robust_lift|apply robust_save]|intros ?]).
  - apply simple_write.
  - apply simple_sk.
  - apply simple_write.
  - apply simple_sig.
  - apply (robust_lift (Ok _)).
Qed.
Lemma robust_seq {E} show m (pp : pubparam E) pk : forall l sk, robust (gen_seq show m pp pk sk l).
Proof.
  induction l as [|i l IH]; intros sk; cbn [gen_seq]; [apply (robust_lift (Ok tt))|].
  apply robust_bind; [apply robust_step|exact IH].
Qed.
Lemma robust_ff {E} show m (pp : pubparam E) pk : forall l sk, robust (gen_ff show m pp pk sk l).
Proof.
  induction l as [|i l IH]; intros sk; cbn [gen_ff]; [apply (robust_lift (Ok tt))|]. cbv zeta.
  apply robust_bind; [apply robust_lift|intros tar]. apply robust_bind; [apply robust_step|exact IH].
Qed.
Lemma robust_main {E} show ppb m (pp : pubparam E) : robust (gen_main show ppb m pp).
Proof.
  unfold gen_main.
  apply robust_bind; [apply robust_save, simple_write|intros _]. apply robust_bind; [apply robust_save, simple_write|intros _].
  apply robust_bind; [apply robust_lift|intros [[pk sk] pop]].
  apply robust_bind; [apply robust_save, simple_write|intros _]. apply robust_bind; [apply robust_save, simple_pk|intros _].
  apply robust_bind; [apply robust_save, simple_write|intros _]. apply robust_bind; [apply robust_save, simple_pop|intros _].
  apply robust_bind; [apply robust_save, simple_write|intros _]. apply robust_bind; [apply robust_save, simple_sk|intros _].
  apply robust_bind; [apply robust_lift|intros sig]. apply robust_bind; [apply robust_lift|intros _].
  apply robust_bind; [apply robust_save, simple_write|intros _]. apply robust_bind; [apply robust_save, simple_sig|intros _].
  apply robust_bind; [apply robust_seq|intros _]. apply robust_ff.
Qed.

Lemma gen_failures : forall (E : env) show ppb m (pp : pubparam E) fs evs,
  exists r0 files, gen_main show ppb m pp (Disk [] []) = (r0, Disk files [])
  /\ match gen_main show ppb m pp (Disk fs evs) with
     | (r, Disk fs' _) =>
       exists left, fs' = fs ++ left
       /\ ((r = r0 /\ left = files) \/ (~ no_failure evs /\ r = Err E_IO /\ cut_short files left))
     end.
Proof.
  intros E show ppb m pp fs evs. destruct (robust_main show ppb m pp) as (r0 & g0 & H0 & H).
  exists r0, g0. split; [exact (H0 [])|]. destruct (H fs evs) as (e1 & [[E1 N1]|[N1 (g & Hc & E1)]]); rewrite E1.
  - exists g0. auto.
  - exists g. auto.
Qed.

(** * Without failures: the generator of Programs.v *)
Lemma bins_app a b : bins (a ++ b) = bins a ++ bins b.
Proof. induction a as [|[[n| | |] c] a IH]; cbn [app bins]; rewrite ?IH; reflexivity. Qed.

(** [s] does, without failures, what [r] says, and writes the binary files [r] lists. *)
Definition follows {A B} (s : st disk A) (r : res B) (okay : A -> B -> list (gname * bytes) -> Prop) : Prop :=
  match r with
  | Ok b => exists a g, (forall fs, s (Disk fs []) = (Ok a, Disk (fs ++ g) [])) /\ okay a b g
  | Err e => forall fs, fst (s (Disk fs [])) = Err e
  | Panic p => forall fs, fst (s (Disk fs [])) = Panic p
  end.

Lemma follows_bind {A B A' B'} (s : st disk A) (r : res B) ok (k : A -> st disk A') (h : B -> res B') ok' :
  follows s r ok ->
  (forall a b g, ok a b g -> follows (k a) (h b) (fun a' b' g' => ok' a' b' (g ++ g'))) ->
  follows (sbind s k) (bind r h) ok'.
Proof.
  intros H Hk. destruct r as [b|e|p]; cbn [bind follows] in *.
  - destruct H as (a & g & Hs & Ho). specialize (Hk a b g Ho). destruct (h b) as [b'|e|p]; cbn [follows] in *.
    + destruct Hk as (a' & g' & Hk & Ho'). exists a', (g ++ g'). split; [|exact Ho'].
      intros fs. unfold sbind. rewrite Hs, Hk, app_assoc. reflexivity.
    + intros fs. unfold sbind. rewrite Hs. apply Hk.
    + intros fs. unfold sbind. rewrite Hs. apply Hk.
  - intros fs. unfold sbind. specialize (H fs). destruct (s (Disk fs [])) as [[a|e'|p] d]; cbn [fst] in *; congruence.
  - intros fs. unfold sbind. specialize (H fs). destruct (s (Disk fs [])) as [[a|e'|p'] d]; cbn [fst] in *; congruence.
Qed.
Lemma follows_lift {A} (r : res A) : follows (slift r) r (fun a b g => a = b /\ g = []).
Proof. destruct r as [a|e|p]; cbn [follows]; try reflexivity. exists a, []. split; [intros fs; rewrite app_nil_r; reflexivity|auto]. Qed.
Lemma follows_ret {A B} (a : A) (b : B) (ok : A -> B -> list (gname * bytes) -> Prop) : ok a b [] -> follows (sret a) (Ok b) ok.
Proof. intros H. exists a, []. split; [intros fs; rewrite app_nil_r; reflexivity|exact H]. Qed.
Lemma follows_save n f : simple f -> follows (save n f) (to_vec f) (fun _ b g => g = [(n, b)]).
Proof.
  intros (r & Hf). unfold to_vec. rewrite Hf. destruct r as [b|e|p]; cbn [follows].
  - destruct b as [|x b]; cbn [write_all write_all_loop w_script w_out vec_writer follows]; exists tt; eexists; (split; [|reflexivity]);
      intros fs; unfold save; cbn [dk_evs dk_files]; rewrite Hf; reflexivity.
  - intros fs. unfold save. cbn [dk_evs dk_files]. rewrite Hf. reflexivity.
  - intros fs. unfold save. cbn [dk_evs dk_files]. rewrite Hf. reflexivity.
Qed.
(** A plain file: the other program does not know of it. *)
Lemma follows_plain {A B} n b (k : unit -> st disk A) (r : res B) ok :
  follows (k tt) r (fun a b' g => ok a b' ((n, b) :: g)) -> follows (sbind (save n (write_all b)) k) r ok.
Proof.
  intros H. assert (Hs : forall fs, save n (write_all b) (Disk fs []) = (Ok tt, Disk (fs ++ [(n, b)]) [])).
  { intros fs. unfold save. cbn [dk_evs dk_files]. unfold write_all. cbn [w_script w_out]. destruct b; reflexivity. }
  destruct r as [b'|e|p]; cbn [follows] in *.
  - destruct H as (a & g & Hk & Ho). exists a, ((n, b) :: g). split; [|exact Ho].
    intros fs. unfold sbind. rewrite Hs, Hk, <- app_assoc. reflexivity.
  - intros fs. unfold sbind. rewrite Hs. apply H.
  - intros fs. unfold sbind. rewrite Hs. apply H.
Qed.
Lemma follows_impl {A B} (s : st disk A) (r : res B) (ok ok' : A -> B -> list (gname * bytes) -> Prop) :
  follows s r ok -> (forall a b g, ok a b g -> ok' a b g) -> follows s r ok'.
Proof. intros H Hi. destruct r; cbn [follows] in *; try exact H. destruct H as (a' & g & H & Ho). eauto. Qed.

(** The binary files, and a plain file before each. *)
Definition with_plain (g : list (gname * bytes)) (fl : list file) : Prop :=
  bins g = fl /\ map fst g = flat_map (fun n => [Plain n; Bin n]) (map fst fl).
Lemma with_plain_app g1 f1 g2 f2 : with_plain g1 f1 -> with_plain g2 f2 -> with_plain (g1 ++ g2) (f1 ++ f2).
Proof. intros [H1 N1] [H2 N2]. split; [rewrite bins_app; congruence|].
  etransitivity; [apply map_app|]. rewrite N1, N2, <- flat_map_app. f_equal. symmetry. apply map_app.
Qed.

Lemma step_follows {E} show m (pp : pubparam E) pk sk tar nsk nsig :
  follows (gen_step show m pp pk sk tar nsk nsig) (rs_step m pp pk sk tar nsk nsig) (fun sk' x g => snd x = sk' /\ with_plain g (fst x)).
Proof.
  unfold gen_step, rs_step.
  eapply follows_bind; [apply follows_lift|]. intros k1 ? ? [<- ->]. eapply follows_bind; [apply follows_lift|]. intros s1 ? ? [<- ->].
  eapply follows_bind; [apply follows_lift|]. intros [] [] ? [_ ->]. cbn [app].
  apply follows_plain. eapply follows_bind; [apply follows_save, simple_sk|]. intros [] a ? ->.
  apply follows_plain. eapply follows_bind; [apply follows_save, simple_sig|]. intros [] b ? ->.
  apply follows_ret. split; [reflexivity|]. split; reflexivity.
Qed.
Lemma seq_follows {E} show m (pp : pubparam E) pk : forall l sk,
  follows (gen_seq show m pp pk sk l) (rs_seq m pp pk sk l) (fun _ fl g => with_plain g fl).
Proof.
  induction l as [|i l IH]; intros sk; cbn [gen_seq rs_seq]; [apply follows_ret; split; reflexivity|].
  eapply follows_bind; [apply step_follows|]. intros sk1 [f1 sk2] g1 [H1 H2]. cbn [fst snd] in *. subst sk2.
  specialize (IH sk1). destruct (rs_seq m pp pk sk1 l) as [f2|e|p]; cbn [bind follows] in *; try exact IH.
  destruct IH as (a & g & Hg & Hw). exists a, g. split; [exact Hg|]. apply with_plain_app; assumption.
Qed.
Lemma ff_follows {E} show m (pp : pubparam E) pk : forall l sk,
  follows (gen_ff show m pp pk sk l) (rs_ff m pp pk sk l) (fun _ fl g => with_plain g fl).
Proof.
  induction l as [|i l IH]; intros sk; cbn [gen_ff rs_ff]; [apply follows_ret; split; reflexivity|]. cbv zeta.
  eapply follows_bind; [apply follows_lift|]. intros tar ? ? [<- ->]. cbn [app].
  eapply follows_bind; [apply step_follows|]. intros sk1 [f1 sk2] g1 [H1 H2]. cbn [fst snd] in *. subst sk2.
  specialize (IH sk1). destruct (rs_ff m pp pk sk1 l) as [f2|e|p]; cbn [bind follows] in *; try exact IH.
  destruct IH as (a & g & Hg & Hw). exists a, g. split; [exact Hg|]. apply with_plain_app; assumption.
Qed.

Lemma main_follows {E} show ppb m (pp : pubparam E) :
  follows (gen_main show ppb m pp) (rs_main m pp)
    (fun _ fl g => exists g', g = (ParamPlain, show (ShPp pp)) :: (ParamBin, ppb) :: g' /\ with_plain g' fl).
Proof.
  unfold gen_main, rs_main. apply follows_plain. apply follows_plain.
  eapply follows_bind; [apply follows_lift|]. intros [[pk sk] pop] ? ? [<- ->]. cbn [app].
  apply follows_plain. eapply follows_bind; [apply follows_save, simple_pk|]. intros [] a ? ->.
  apply follows_plain. eapply follows_bind; [apply follows_save, simple_pop|]. intros [] b ? ->.
  apply follows_plain. eapply follows_bind; [apply follows_save, simple_sk|]. intros [] c ? ->.
  eapply follows_bind; [apply follows_lift|]. intros sig ? ? [<- ->].
  eapply follows_bind; [apply follows_lift|]. intros [] [] ? [_ ->].
  apply follows_plain. eapply follows_bind; [apply follows_save, simple_sig|]. intros [] d ? ->.
  eapply follows_bind; [apply seq_follows|]. intros [] f1 g1 H1.
  pose proof (ff_follows show m pp pk (range 2 64) sk) as H2. destruct (rs_ff m pp pk sk (range 2 64)) as [f2|e|p]; cbn [bind follows] in *; try exact H2.
  destruct H2 as ([] & g2 & Hg & Hw). exists tt, g2. split; [exact Hg|]. cbn [app]. eexists. split; [reflexivity|].
  pose proof (with_plain_app _ _ _ _ H1 Hw) as [Hb Hn]. split.
  - cbn [bins]. rewrite Hb. reflexivity.
  - cbn [map fst flat_map app]. rewrite Hn. reflexivity.
Qed.

Lemma gen_is_rs : forall (E : env) show ppb m (pp : pubparam E),
  match gen_main show ppb m pp (Disk [] []) with
  | (r, Disk files _) => r = outcome (rs_main m pp)
    /\ forall fl, rs_main m pp = Ok fl ->
         exists rest, files = (ParamPlain, show (ShPp pp)) :: (ParamBin, ppb) :: rest
         /\ bins files = fl /\ map fst files = [ParamPlain; ParamBin] ++ flat_map (fun n => [Plain n; Bin n]) (map fst fl)
  end.
Proof.
  intros E show ppb m pp. pose proof (main_follows show ppb m pp) as H.
  destruct (robust_main show ppb m pp) as (r0 & g0 & H0 & _). specialize (H0 []). rewrite H0.
  destruct (rs_main m pp) as [fl|e|p]; cbn [follows outcome] in *.
  - destruct H as ([] & g & Hg & g' & -> & Hb & Hn). specialize (Hg []). rewrite H0 in Hg. injection Hg as -> Hg. cbn [app] in Hg |- *. subst g0.
    split; [reflexivity|]. intros fl' Hf. injection Hf as <-. exists g'. split; [reflexivity|]. split; [exact Hb|].
    cbn [map fst]. rewrite Hn. reflexivity.
  - specialize (H []). rewrite H0 in H. cbn [fst] in H. split; [exact H|discriminate].
  - specialize (H []). rewrite H0 in H. cbn [fst] in H. split; [exact H|discriminate].
Qed.

(** * With the facts on the generator *)
Lemma names_all (files : list (gname * bytes)) (fl : list file) : map fst files = [ParamPlain; ParamBin] ++ flat_map (fun n => [Plain n; Bin n]) (map fst fl) ->
  map fst fl = vector_names -> map fst files = all_names.
Proof. intros H Hn. rewrite Hn in H. exact H. Qed.

Lemma gen_main_outcome : forall (E : env) (L : env_laws E) m (pp : pubparam E) show ppb fs evs,
  pp_ok pp -> (pp_depth pp <= 32)%nat -> 2016 <= last_time (pp_depth pp) -> supported (pp_cs pp) -> pp_g2 pp = g2_one ->
  breaks m pp [(SEED, seq_ops); (SEED, jump_ops)]
  \/ exists files pk pop, map fst files = all_names /\ pk_validate pk pop = true /\ Forall (file_ok m pp pk pop) (bins files)
     /\ match gen_main show ppb m pp (Disk fs evs) with
        | (r, Disk fs' _) => exists left, fs' = fs ++ left
            /\ ((r = Ok tt /\ left = files) \/ (~ no_failure evs /\ r = Err E_IO /\ cut_short files left))
        end.
Proof.
  intros E L m pp show ppb fs evs Hpp Hd Hlast Hcs Hone.
  destruct (rs_main_outcome E L m pp Hpp Hd Hlast Hcs Hone) as [[_ Hb]|(fl & pk & pop & Hrs & Hn & Hv & Hf)]; [left; exact Hb|right].
  destruct (gen_failures E show ppb m pp fs evs) as (r0 & files & H0 & H).
  pose proof (gen_is_rs E show ppb m pp) as Hg. rewrite H0 in Hg. destruct Hg as [Hr Hg]. rewrite Hrs in Hr. cbn [outcome] in Hr. subst r0.
  destruct (Hg fl Hrs) as (rest & _ & Hbins & Hnames). exists files, pk, pop.
  split; [exact (names_all _ _ Hnames Hn)|]. split; [exact Hv|]. split; [rewrite Hbins; exact Hf|exact H].
Qed.

Lemma read_app a : forall l n, read_file (l ++ a) n = match read_file a n with Some b => Some b | None => read_file l n end.
Proof.
  induction l as [|[n' b] l IH]; intros n; cbn [app read_file].
  - destruct (read_file a n); reflexivity.
  - rewrite IH. destruct (read_file a n); reflexivity.
Qed.

(** A run that reports success leaves files that pixel-python accepts, whatever was there before. *)
Lemma gen_success_accepted : forall (E : env) (L : env_laws E) m (pp : pubparam E) show ppb fs evs d,
  pp_ok pp -> py_params pp -> 2016 <= last_time (pp_depth pp) ->
  gen_main show ppb m pp (Disk fs evs) = (Ok tt, d) ->
  exists files, rs_main m pp = Ok files /\ bins (dk_files d) = bins fs ++ files
  /\ py_main pp (bins (dk_files d)) = Some (filter (fun f => negb (is_pop f)) files).
Proof.
  intros E L m pp show ppb fs evs d Hpp Hp Hlast H.
  destruct (gen_failures E show ppb m pp fs evs) as (r0 & files & H0 & Hc). rewrite H in Hc. destruct d as [fs' evs'].
  destruct Hc as (left & -> & [[<- ->]|(_ & Hx & _)]); [|discriminate].
  pose proof (gen_is_rs E show ppb m pp) as Hg. rewrite H0 in Hg. destruct Hg as [Hr Hg].
  destruct (rs_main m pp) as [fl|e|p] eqn:Hrs; cbn [outcome] in Hr; try discriminate.
  destruct (Hg fl eq_refl) as (rest & _ & Hb & _). exists fl. split; [reflexivity|]. cbn [dk_files]. rewrite bins_app, Hb. split; [reflexivity|].
  destruct (py_accepts_vectors E L m pp fl Hpp Hp Hlast Hrs) as [Hacc Hiff].
  destruct (proj2 (Hiff (bins fs ++ fl))) as [out Hout].
  - intros n _ Hin. rewrite read_app. destruct (rs_main_view L m pp fl Hpp Hp Hlast Hrs) as (pk & sk & pb & pob & b & g & c & f1 & f2 & Hfl & _ & _ & _ & _ & _ & _ & _ & _ & _ & Hn1 & Hn2).
    assert (Hm : map fst fl = vector_names).
    { rewrite Hfl. unfold vector_names. rewrite <- Hn1, <- Hn2. etransitivity; [apply map_app|]. apply f_equal. apply map_app. }
    rewrite <- Hm in Hin. apply in_map_iff in Hin as ([n' b'] & <- & Hin). cbn [fst].
    rewrite (read_file_in fl n' b'); [reflexivity| |exact Hin]. rewrite Hm. exact vector_names_nodup.
  - rewrite Hout. f_equal. exact (py_main_det _ _ _ _ _ Hout Hacc).
Qed.
