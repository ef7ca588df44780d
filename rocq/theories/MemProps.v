(** The memory of the C interface. *)
From Coq Require Import ZifyBool ZifyNat ZifyN.
From Verif Require Import Base Env Time SubKey SecretKey Keys Sig IO Serdes Api Ffi FfiMem.
From Verif Require Import SpecTime TimeFacts GroupFacts SpecKey KeyFacts.
From Verif Require Import SpecSer IOFacts SerFacts HistoryFacts KeyProps SerProps SpecFfi FfiProps SpecProg ProgProps SpecMem.
Local Open Scope N_scope.

Lemma load_app mm new p n b : load mm p n = Some b -> load (mm ++ new) p n = Some b.
Proof.
  unfold load. destruct (nth_error mm (fst p)) as [x|] eqn:Hx; [|discriminate].
  rewrite nth_error_app1 by (apply nth_error_Some; congruence). rewrite Hx. auto.
Qed.
Lemma load_new mm b : load (mm ++ [b]) (length mm, 0%nat) (length b) = Some b.
Proof.
  unfold load. cbn [fst snd]. rewrite nth_error_app2 by lia. rewrite Nat.sub_diag. cbn [nth_error].
  replace (0 + length b <=? length b)%nat with true by lia. cbn [skipn]. rewrite firstn_all. reflexivity.
Qed.

(** Every call that is defined leaves all blocks alone; a call that returns a secret key
    adds one block, which is the key. *)
Lemma exec_frame : forall (E : env) m (pp : pubparam E) c mm r mm',
  exec m pp c mm = Some (r, mm') ->
  match new_key r with
  | Some sk => exists b, mm' = mm ++ [b] /\ sk = PixelSk (length mm, 0%nat) (length b) /\ load mm' (ps_data sk) (ps_len sk) = Some b
  | None => mm' = mm
  end.
Proof.
  intros E m pp c mm r mm' H. destruct c; cbn [exec] in H.
  - destruct (load mm seed seed_len) as [s|]; [|discriminate].
    destruct (c_keygen pp s) as [[[pk b] pop]|e|p]; cbn [leak] in H; injection H as <- <-; cbn [new_key]; auto.
    exists b. split; [reflexivity|]. split; [reflexivity|]. apply load_new.
  - destruct (load mm msg msg_len) as [ms|]; [|discriminate]. destruct (load mm _ _) as [k|]; [|discriminate].
    injection H as <- <-. destruct (c_sign_present m pp k ms t); reflexivity.
  - destruct (load mm msg msg_len) as [ms|]; [|discriminate].
    injection H as <- <-. destruct (c_verify m pp pk ms sig); reflexivity.
  - destruct (load mm seed seed_len) as [s|]; [|discriminate]. destruct (load mm (ps_data sk) _) as [k|]; [|discriminate].
    destruct (c_sk_update m pp k s t) as [b|e|p]; cbn [leak] in H; injection H as <- <-; cbn [new_key]; auto.
    exists b. split; [reflexivity|]. split; [reflexivity|]. apply load_new.
  - destruct (load mm sigs _) as [b|]; [|discriminate]. injection H as <- <-. destruct (c_aggregation _); reflexivity.
  - destruct (load mm pks _) as [b|]; [|discriminate]. destruct (load mm msg _) as [ms|]; [|discriminate].
    injection H as <- <-. destruct (c_verify_agg _ _ _ _ _); reflexivity.
  - injection H as <- <-. destruct (c_verify_pop _ _); reflexivity.
Qed.

(** A call is undefined exactly if one of its buffers is not in memory. *)
Lemma load_defined mm p n : load mm p n <> None <-> exists b, nth_error mm (fst p) = Some b /\ (snd p + n <= length b)%nat.
Proof.
  unfold load. destruct (nth_error mm (fst p)) as [b|].
  - destruct (Nat.leb_spec (snd p + n) (length b)).
    + split; [eauto|discriminate].
    + split; [congruence|]. intros (b' & Hb & Hl). injection Hb as <-. lia.
  - split; [congruence|]. intros (b & Hb & _). discriminate.
Qed.
Lemma exec_defined : forall (E : env) m (pp : pubparam E) c mm,
  exec m pp c mm <> None
  <-> Forall (fun pn => exists b, nth_error mm (fst (fst pn)) = Some b /\ (snd (fst pn) + snd pn <= length b)%nat) (buffers c).
Proof.
  intros E m pp c mm.
  assert (H1 : forall p n (A : Type) (k : bytes -> option A), (forall b, k b <> None) ->
     (match load mm p n with Some x => k x | None => None end <> None) <->
     Forall (fun pn => exists b, nth_error mm (fst (fst pn)) = Some b /\ (snd (fst pn) + snd pn <= length b)%nat) [(p, n)]).
  { intros p n A k Hk. transitivity (load mm p n <> None).
    - destruct (load mm p n) as [x|]; [split; [congruence|]; intros _; apply Hk|tauto].
    - rewrite load_defined. split; [intros H; constructor; [exact H|constructor]|intros H; inversion H; auto]. }
  assert (H2 : forall p n q l (A : Type) (k : bytes -> bytes -> option A), (forall b c, k b c <> None) ->
     (match load mm p n with Some x => match load mm q l with Some y => k x y | None => None end | None => None end <> None) <->
     Forall (fun pn => exists b, nth_error mm (fst (fst pn)) = Some b /\ (snd (fst pn) + snd pn <= length b)%nat) [(p, n); (q, l)]).
  { intros p n q l A k Hk. transitivity (load mm p n <> None /\ load mm q l <> None).
    - destruct (load mm p n) as [x|], (load mm q l) as [y|].
      + split; [split; discriminate|]. intros _. apply Hk.
      + split; [congruence|tauto].
      + split; [congruence|tauto].
      + split; [congruence|tauto].
    - rewrite !load_defined. split; [intros []; constructor; [auto|constructor; auto]|].
      intros H. inversion H as [|? ? Ha Hb]; subst. inversion Hb; subst. auto. }
  destruct c; cbn [exec buffers].
  - apply H1. intros s. destruct (c_keygen pp s) as [[[? ?] ?]| |]; discriminate.
  - apply H2. discriminate.
  - apply H1. discriminate.
  - apply H2. intros s k. destruct (c_sk_update m pp k s t); discriminate.
  - apply H1. discriminate.
  - apply H2. discriminate.
  - split; [constructor|discriminate].
Qed.

(** The block of a key changes only if the caller writes to it. *)
Lemma store_other : forall mm blk off b mm' k, store mm blk off b = Some mm' -> k <> blk -> nth_error mm' k = nth_error mm k.
Proof.
  induction mm as [|x mm IH]; intros blk off b mm' k H Hk; [discriminate|]. destruct blk as [|blk]; cbn [store] in H.
  - destruct (off + length b <=? length x)%nat; [|discriminate]. injection H as <-. destruct k; [congruence|reflexivity].
  - destruct (store mm blk off b) as [r|] eqn:Hr; [|discriminate]. injection H as <-. destruct k; [reflexivity|].
    cbn [nth_error]. apply (IH blk off b r k Hr). congruence.
Qed.
Lemma cstep_other {E} m (pp : pubparam E) s mm mm' k x : cstep_exec m pp s mm = Some mm' ->
  match s with SWrite p _ => fst p <> k | _ => True end -> nth_error mm k = Some x -> nth_error mm' k = Some x.
Proof.
  intros H Hs Hx. assert (Hlt : (k < length mm)%nat) by (apply nth_error_Some; congruence).
  destruct s as [c|b|p b]; cbn [cstep_exec] in H.
  - destruct (exec m pp c mm) as [[r mm1]|] eqn:He; [|discriminate]. injection H as <-.
    apply exec_frame in He. destruct (new_key r) as [sk|].
    + destruct He as (b & -> & _). rewrite nth_error_app1 by exact Hlt. exact Hx.
    + congruence.
  - injection H as <-. rewrite nth_error_app1 by exact Hlt. exact Hx.
  - rewrite (store_other _ _ _ _ _ k H) by congruence. exact Hx.
Qed.
Lemma crun_other {E} m (pp : pubparam E) : forall l mm mm' k x, crun m pp l mm = Some mm' -> no_write k l ->
  nth_error mm k = Some x -> nth_error mm' k = Some x.
Proof.
  induction l as [|s l IH]; intros mm mm' k x H Hw Hx; cbn [crun] in H; [congruence|].
  destruct (cstep_exec m pp s mm) as [mm1|] eqn:Hs; [|discriminate]. inversion Hw; subst.
  apply (IH mm1 mm' k x H); [assumption|]. eapply cstep_other; eauto.
Qed.

Lemma key_survives : forall (E : env) m (pp : pubparam E) l mm mm' sk,
  crun m pp l mm = Some mm' -> no_write (fst (ps_data sk)) l -> load mm (ps_data sk) (ps_len sk) <> None ->
  load mm' (ps_data sk) (ps_len sk) = load mm (ps_data sk) (ps_len sk).
Proof.
  intros E m pp l mm mm' sk H Hw Hl. unfold load in *.
  destruct (nth_error mm (fst (ps_data sk))) as [x|] eqn:Hx; [|congruence].
  rewrite (crun_other m pp l mm mm' _ x H Hw Hx). reflexivity.
Qed.

(** * Old keys *)
Lemma mem_update_step {E} (L : env_laws E) m (pp : pubparam E) pk sk k mm p n t sk' mm' :
  pp_ok pp -> (pp_depth pp <= 32)%nat -> reachable m pp pk sk ->
  load mm (ps_data k) (ps_len k) = Some (sk_blob true sk) ->
  exec m pp (CUpdate k p n t) mm = Some (Ok (RSk sk'), mm') ->
  exists s1, reachable m pp pk s1 /\ sec_time s1 = t /\ load mm' (ps_data sk') (ps_len sk') = Some (sk_blob true s1)
    /\ exists new, mm' = mm ++ new.
Proof.
  intros Hpp Hd Hr Hl He. pose proof (exec_frame E m pp _ mm _ mm' He) as Hf. cbn [new_key] in Hf.
  destruct Hf as (b & Hmm & Hsk & Hlb). cbn [exec] in He.
  destruct (load mm p n) as [seed|]; [|discriminate]. rewrite Hl in He.
  rewrite (c_update_blobs E L m m pp pk sk t seed Hpp Hd Hr) in He.
  destruct (update m pp t seed sk) as [[[]|e|q] s1] eqn:Hu; cbn [leak] in He; try discriminate.
  pose proof (reachable_update m pp pk sk t seed s1 Hr Hu) as Hr1. exists s1. split; [exact Hr1|].
  destruct (reachable_good L m pp pk sk Hpp Hr) as (x & _ & _ & Hg & _).
  split; [|split; [|eauto]].
  - pose proof (update_cases L m pp x sk t seed Hpp Hg) as Hc. rewrite Hu in Hc. destruct (in_range pp sk t).
    + destruct Hc as [(sk1 & Hu1 & _ & Ht1)|[Hc _]]; [|discriminate]. injection Hu1 as <-. exact Ht1.
    + discriminate.
  - injection He as Hsk' Hmm'. subst sk' mm'. apply load_new.
Qed.

Lemma mem_updates_keys {E} (L : env_laws E) m (pp : pubparam E) pk : pp_ok pp -> (pp_depth pp <= 32)%nat ->
  forall l k0 mm sk ks mm', reachable m pp pk sk -> load mm (ps_data k0) (ps_len k0) = Some (sk_blob true sk) ->
  mem_updates m pp l k0 mm = Some (ks, mm') ->
  (exists new, mm' = mm ++ new) /\ length ks = length l
  /\ forall k t, In (k, t) (combine (k0 :: ks) (sec_time sk :: map fst l)) ->
     exists s, reachable m pp pk s /\ sec_time s = t /\ load mm' (ps_data k) (ps_len k) = Some (sk_blob true s).
Proof.
  intros Hpp Hd. induction l as [|[t0 [p n]] l IH]; intros k0 mm sk ks mm' Hr Hl H.
  - cbn [mem_updates] in H. injection H as <- <-. split; [exists []; rewrite app_nil_r; reflexivity|]. split; [reflexivity|].
    intros k t [Hi|[]]. injection Hi as <- <-. eauto.
  - cbn [mem_updates] in H. destruct (exec m pp (CUpdate k0 p n t0) mm) as [[[[pk' k' pop'|k1|sg|b]|e|q] mm1]|] eqn:He; try discriminate.
    destruct (mem_updates m pp l k1 mm1) as [[ks1 mm2]|] eqn:Hm; [|discriminate]. injection H as <- <-.
    destruct (mem_update_step L m pp pk sk k0 mm p n t0 k1 mm1 Hpp Hd Hr Hl He) as (s1 & Hr1 & Ht1 & Hl1 & new1 & Hn1).
    destruct (IH k1 mm1 s1 ks1 mm2 Hr1 Hl1 Hm) as ((new2 & Hn2) & Hlen & Hk).
    split; [exists (new1 ++ new2); rewrite app_assoc, <- Hn1; exact Hn2|]. split; [cbn [length]; lia|].
    intros k t Hi. cbn [map fst combine In] in Hi. destruct Hi as [Hi|Hi].
    + injection Hi as <- <-. exists sk. split; [exact Hr|]. split; [reflexivity|].
      rewrite Hn2, Hn1. apply load_app, load_app, Hl.
    + apply Hk. cbn [combine]. rewrite Ht1. exact Hi.
Qed.

Lemma old_keys_sign : forall (E : env) (L : env_laws E) m (pp : pubparam E) sp sn mm pkb k0 popb mm1 l ks mm2,
  pp_ok pp -> (pp_depth pp <= 32)%nat ->
  exec m pp (CKeygen sp sn) mm = Some (Ok (RKeys pkb k0 popb), mm1) -> mem_updates m pp l k0 mm1 = Some (ks, mm2) ->
  (length ks = length l)%nat
  /\ forall k t p n msg, In (k, t) (combine (k0 :: ks) (1 :: map fst l)) -> load mm2 p n = Some msg ->
     exists sig, exec m pp (CSign k p n t) mm2 = Some (Ok (RSig sig), mm2)
              /\ exec m pp (CVerify pkb p n sig) mm2 = Some (Ok (RBool true), mm2).
Proof.
  intros E L m pp sp sn mm pkb k0 popb mm1 l ks mm2 Hpp Hd Hk Hu.
  cbn [exec] in Hk. destruct (load mm sp sn) as [seed|]; [|discriminate].
  pose proof (c_keygen_blobs E L pp seed Hpp Hd) as Hc.
  destruct (key_gen seed pp) as [[[pk sk] pop]|e|p] eqn:Hkg.
  2,3: destruct Hc as [Hc _]; rewrite Hc in Hk; discriminate.
  rewrite Hc in Hk. cbn [leak] in Hk.
  assert (Hpk : pkb = pk_blob true pk) by congruence.
  assert (Hk0 : k0 = PixelSk (length mm, 0%nat) (length (sk_blob true sk))) by congruence.
  assert (Hm1 : mm1 = mm ++ [sk_blob true sk]) by congruence. clear Hk Hc.
  assert (Hr : reachable m pp pk sk) by (exists seed, sk, pop, []; auto).
  destruct (keygen_fields E L pp seed pk sk pop Hkg) as [Ht1 _].
  destruct (keygen_representable E L pp seed pk sk pop Hpp Hkg) as [Hwk _].
  destruct (mem_updates_keys L m pp pk Hpp Hd l k0 mm1 sk ks mm2 Hr) as (_ & Hlen & Hkeys); [|exact Hu|].
  { rewrite Hk0, Hm1. apply load_new. }
  split; [exact Hlen|]. intros k t p n msg Hi Hl. rewrite Ht1 in Hkeys.
  destruct (Hkeys k t Hi) as (s & Hrs & Hts & Hls). rewrite <- Hts. clear Hts t Hi.
  destruct (c_sign_now L m pp pk s msg Hpp Hd Hwk Hrs) as (sg & _ & _ & _ & Hsig & Hv).
  exists (sig_blob true sg). cbn [exec]. rewrite Hl, Hls, Hsig, Hpk, Hv. cbn [bind]. split; reflexivity.
Qed.

(** * Overwriting a key *)
Lemma store_ok : forall mm blk off b x, nth_error mm blk = Some x -> (off + length b <= length x)%nat ->
  exists mm', store mm blk off b = Some mm' /\ nth_error mm' blk = Some (overwrite x off b).
Proof.
  induction mm as [|y mm IH]; intros blk off b x Hx Hl; [destruct blk; discriminate|].
  destruct blk as [|blk]; cbn [nth_error store] in *.
  - injection Hx as ->. replace (off + length b <=? length x)%nat with true by lia. eexists. split; reflexivity.
  - destruct (IH blk off b x Hx Hl) as (mm' & -> & Hn). eexists. split; [reflexivity|exact Hn].
Qed.

Lemma load_overwritten mm mm' p b x : nth_error mm (fst p) = Some x -> (snd p + length b <= length x)%nat ->
  nth_error mm' (fst p) = Some (overwrite x (snd p) b) -> load mm' p (length b) = Some b.
Proof.
  intros _ Hl Hx. unfold load. rewrite Hx. unfold overwrite.
  assert (Hlen : length (firstn (snd p) x ++ b ++ skipn (snd p + length b) x) = length x).
  { rewrite !app_length, firstn_length, skipn_length. lia. }
  rewrite Hlen. replace (snd p + length b <=? length x)%nat with true by lia.
  assert (Hf : length (firstn (snd p) x) = snd p) by (rewrite firstn_length; lia).
  rewrite skipn_app, Hf, Nat.sub_diag, skipn_all2 by lia. cbn [skipn app].
  rewrite firstn_app, Nat.sub_diag, firstn_all. cbn [firstn]. rewrite app_nil_r. reflexivity.
Qed.

Lemma zeros_no_key {E : env} n : exists e, from_slice (@sk_deserialize E true) (zeros n) = Err e.
Proof.
  rewrite (parses_slice calm _ _ _ (calm_slice _) (parses_sk true)). unfold p_sk, p_bind at 1, p_take at 1.
  destruct (Nat.leb_spec 2 (length (zeros n))) as [H|H]; cbn [bind]; [|eauto].
  unfold p_bind at 1, p_take at 1. destruct (64 <=? _)%nat; cbn [bind]; [|eauto].
  unfold zeros in *. rewrite repeat_length in H. destruct n as [|[|n]]; try lia. eexists. reflexivity.
Qed.

(** The caller can erase a key: after zeros are written over it, signing and updating
    with it panic; all other blocks are as before. *)
Lemma caller_erases : forall (E : env) m (pp : pubparam E) mm k,
  load mm (ps_data k) (ps_len k) <> None ->
  exists mm', cstep_exec m pp (SWrite (ps_data k) (zeros (ps_len k))) mm = Some mm'
  /\ (forall b, b <> fst (ps_data k) -> nth_error mm' b = nth_error mm b)
  /\ forall p n t, load mm' p n <> None ->
       exec m pp (CSign k p n t) mm' = Some (Panic P_FFI, mm') /\ exec m pp (CUpdate k p n t) mm' = Some (Panic P_FFI, mm').
Proof.
  intros E m pp mm k Hl. apply load_defined in Hl as (x & Hx & Hl).
  assert (Hz : length (zeros (ps_len k)) = ps_len k) by apply repeat_length.
  destruct (store_ok mm _ (snd (ps_data k)) (zeros (ps_len k)) x Hx ltac:(lia)) as (mm' & Hs & Hn).
  exists mm'. split; [exact Hs|]. split; [intros b Hb; apply (store_other _ _ _ _ _ _ Hs Hb)|].
  intros p n t Hp. destruct (load mm' p n) as [ms|] eqn:Hms; [|congruence]. cbn [exec]. rewrite Hms.
  assert (Hlz : load mm' (ps_data k) (ps_len k) = Some (zeros (ps_len k))).
  { rewrite <- Hz at 1. apply (load_overwritten mm mm' (ps_data k) _ x Hx); [lia|exact Hn]. }
  rewrite Hlz. destruct (@zeros_no_key E (ps_len k)) as (e & He). unfold c_sign_present, c_sk_update. rewrite He. split; reflexivity.
Qed.
