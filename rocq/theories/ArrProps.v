(** Keys and arrays in the memory of the C interface. *)
From Coq Require Import ZifyBool ZifyNat ZifyN.
From Verif Require Import Base Env Time SubKey SecretKey Keys Sig IO Serdes Api Ffi FfiMem.
From Verif Require Import SpecTime TimeFacts GroupFacts SpecKey KeyFacts.
From Verif Require Import SpecSer IOFacts SerFacts HistoryFacts KeyProps SerProps SpecFfi FfiProps SpecProg ProgProps SpecMem MemProps SpecArr.
Local Open Scope N_scope.

(** * Arrays *)
Lemma skipn_skipn {A} : forall a b (l : list A), skipn a (skipn b l) = skipn (a + b) l.
Proof.
  intros a b. revert a. induction b as [|b IH]; intros a l; [rewrite Nat.add_0_r; reflexivity|].
  destruct l as [|x l]; [rewrite !skipn_nil; reflexivity|]. rewrite Nat.add_succ_r. cbn [skipn]. apply IH.
Qed.
Lemma load_part mm p n b i k : load mm p n = Some b -> (i + k <= n)%nat ->
  load mm (fst p, (snd p + i)%nat) k = Some (firstn k (skipn i b)).
Proof.
  unfold load. cbn [fst snd]. destruct (nth_error mm (fst p)) as [x|]; [|discriminate].
  destruct (Nat.leb_spec (snd p + n) (length x)) as [Hl|]; [|discriminate]. intros H Hi. injection H as <-.
  replace (snd p + i + k <=? length x)%nat with true by lia.
  rewrite skipn_firstn_comm, firstn_firstn, skipn_skipn.
  replace (Nat.min k (n - i)) with k by lia. replace (i + snd p)%nat with (snd p + i)%nat by lia. reflexivity.
Qed.
Lemma chunks_length k : forall n b, length (chunks k n b) = n.
Proof. induction n as [|n IH]; intros b; cbn [chunks length]; [reflexivity|]. rewrite IH. reflexivity. Qed.
Lemma chunks_nth k : forall n b i, (i < n)%nat -> nth_error (chunks k n b) i = Some (firstn k (skipn (i * k) b)).
Proof.
  induction n as [|n IH]; intros b i Hi; [lia|]. destruct i as [|i]; cbn [chunks nth_error]; [reflexivity|].
  rewrite IH by lia. rewrite skipn_skipn. replace (i * k + k)%nat with (S i * k)%nat by lia. reflexivity.
Qed.
Lemma nth_error_eq {A} : forall (l l' : list A), (forall i, nth_error l i = nth_error l' i) -> l = l'.
Proof.
  induction l as [|a l IH]; intros [|b l'] H; [reflexivity|specialize (H 0%nat); discriminate H..|].
  pose proof (H 0%nat) as H0. cbn [nth_error] in H0. injection H0 as <-. f_equal. apply IH. intros i. exact (H (S i)).
Qed.
Lemma elements_chunks mm p k l : elements mm p k l ->
  exists b, load mm p (length l * k) = Some b /\ chunks k (length l) b = l.
Proof.
  intros [H He]. destruct (load mm p (length l * k)) as [b|] eqn:Hb; [|congruence]. exists b. split; [reflexivity|].
  apply nth_error_eq. intros i. destruct (Nat.lt_ge_cases i (length l)) as [Hi|Hi].
  - rewrite chunks_nth by exact Hi. destruct (nth_error l i) as [x|] eqn:Hx; [|apply nth_error_None in Hx; lia].
    specialize (He i x Hx). rewrite (load_part mm p _ b (i * k) k Hb) in He by nia. congruence.
  - rewrite (proj2 (nth_error_None _ _)) by (rewrite chunks_length; lia). symmetry. apply nth_error_None. exact Hi.
Qed.

Lemma array_calls : forall (E : env) m (pp : pubparam E) mm p,
  (forall l, elements mm p 149 l ->
     exec m pp (CAggregate p (length l)) mm = Some (let! s := @c_aggregation E l in Ok (RSig s), mm))
  /\ (forall l q n msg sig, elements mm p 49 l -> load mm q n = Some msg ->
     exec m pp (CVerifyAgg p (length l) q n sig) mm = Some (let! r := c_verify_agg m pp l msg sig in Ok (RBool r), mm)).
Proof.
  intros E m pp mm p. split.
  - intros l He. destruct (elements_chunks mm p 149 l He) as (b & Hb & Hc). cbn [exec]. change SIG_LEN with 149%nat.
    rewrite Hb, Hc. reflexivity.
  - intros l q n msg sig He Hm. destruct (elements_chunks mm p 49 l He) as (b & Hb & Hc). cbn [exec]. change PK_LEN with 49%nat.
    rewrite Hb, Hm, Hc. reflexivity.
Qed.

(** An array the caller has just made out of its elements. *)
Lemma array_made : forall mm k l, Forall (fun b => length b = k) l -> elements (mm ++ [concat l]) (length mm, 0%nat) k l.
Proof.
  intros mm k l H.
  assert (Hlen : length (concat l) = (length l * k)%nat).
  { clear mm. induction H as [|b l Hb _ IH]; cbn [concat length]; [reflexivity|]. rewrite app_length, IH, Hb. lia. }
  split; [pose proof (load_new mm (concat l)) as Hn; rewrite Hlen in Hn; unfold bytes in *; rewrite Hn; discriminate|]. intros i b Hi. cbn [fst snd]. unfold bytes in *.
  assert (Hl : (i < length l)%nat) by (apply nth_error_Some; rewrite Hi; discriminate).
  pose proof (load_part (mm ++ [concat l]) (length mm, 0%nat) (length (concat l)) (concat l) (i * k) k (load_new mm _)) as Hp.
  cbn [fst snd] in Hp. rewrite Hp by nia. f_equal. clear Hp Hlen mm Hl. revert i Hi.
  induction H as [|x l Hx _ IH]; intros i Hi; [destruct i; discriminate|]. destruct i as [|i]; cbn [nth_error] in Hi.
  - injection Hi as ->. cbn [concat Nat.mul skipn]. rewrite <- Hx, firstn_app, Nat.sub_diag, firstn_all. cbn [firstn]. apply app_nil_r.
  - cbn [concat]. rewrite skipn_app, skipn_all2 by lia. cbn [app]. replace (S i * k - length x)%nat with (i * k)%nat by lia. apply IH, Hi.
Qed.

(** * Keys *)
Lemma held_inv {E} (L : env_laws E) m (pp : pubparam E) pkb k t mm : pp_ok pp -> (pp_depth pp <= 32)%nat ->
  held m pp pkb k t mm ->
  exists pk s, reachable m pp pk s /\ wf_pk pk /\ pk_cs pk = pp_cs pp /\ pkb = pk_blob true pk /\ sec_time s = t
    /\ load mm (ps_data k) (ps_len k) = Some (sk_blob true s).
Proof.
  intros Hpp Hd H. induction H as [p n mm pkb k pop mm' He|pkb k t p n t' mm k' mm' _ IH He|pkb k t s mm mm' _ IH He Hw].
  - cbn [exec] in He. destruct (load mm p n) as [seed|]; [|discriminate].
    pose proof (c_keygen_blobs E L pp seed Hpp Hd) as Hc.
    destruct (key_gen seed pp) as [[[pk sk] pop']|e|q] eqn:Hkg.
    2,3: destruct Hc as [Hc _]; rewrite Hc in He; discriminate.
    rewrite Hc in He. cbn [leak] in He. injection He as <- <- <- <-. exists pk, sk.
    destruct (keygen_fields E L pp seed pk sk pop' Hkg) as (Ht1 & _ & _ & Hcs & _).
    destruct (keygen_representable E L pp seed pk sk pop' Hpp Hkg) as [Hwk _].
    split; [exists seed, sk, pop', []; auto|]. split; [exact Hwk|]. split; [exact Hcs|]. split; [reflexivity|].
    split; [exact Ht1|]. apply load_new.
  - destruct IH as (pk & s & Hr & Hwk & Hcs & -> & Ht & Hl).
    destruct (mem_update_step L m pp pk s k mm p n t' k' mm' Hpp Hd Hr Hl He) as (s1 & Hr1 & Ht1 & Hl1 & _).
    exists pk, s1. split; [exact Hr1|]. split; [exact Hwk|]. split; [exact Hcs|]. split; [reflexivity|]. split; [exact Ht1|exact Hl1].
  - destruct IH as (pk & s0 & Hr & Hwk & Hcs & -> & Ht & Hl). exists pk, s0.
    split; [exact Hr|]. split; [exact Hwk|]. split; [exact Hcs|]. split; [reflexivity|]. split; [exact Ht|].
    rewrite (key_survives E m pp [s] mm mm' k); [exact Hl| |repeat constructor; exact Hw|congruence].
    cbn [crun]. rewrite He. reflexivity.
Qed.

Lemma held_signs : forall (E : env) (L : env_laws E) m (pp : pubparam E) pkb k t mm p n msg,
  pp_ok pp -> (pp_depth pp <= 32)%nat -> held m pp pkb k t mm -> load mm p n = Some msg ->
  (exists sig, exec m pp (CSign k p n t) mm = Some (Ok (RSig sig), mm) /\ length sig = 149%nat
     /\ forall mm' p' n', load mm' p' n' = Some msg -> exec m pp (CVerify pkb p' n' sig) mm' = Some (Ok (RBool true), mm'))
  /\ forall t', t' <> t -> exec m pp (CSign k p n t') mm = Some (Panic P_FFI, mm).
Proof.
  intros E L m pp pkb k t mm p n msg Hpp Hd Hh Hl.
  destruct (held_inv L m pp pkb k t mm Hpp Hd Hh) as (pk & s & Hr & Hwk & Hcs & -> & Ht & Hls). subst t.
  split.
  - destruct (c_sign_now L m pp pk s msg Hpp Hd Hwk Hr) as (sg & _ & Hw & _ & Hsig & Hv).
    exists (sig_blob true sg). cbn [exec]. rewrite Hl, Hls, Hsig. cbn [bind]. split; [reflexivity|]. split.
    + unfold sig_blob. cbn [length]. rewrite !app_length, be4_len, (lc1_len E L), (lc2_len E L). reflexivity.
    + intros mm' p' n' Hl'. rewrite Hl', Hv. reflexivity.
  - intros t' Ht. cbn [exec]. rewrite Hl, Hls, (c_sign_blobs E L m m pp pk s t' msg Hpp Hd Hr).
    destruct (reachable_good L m pp pk s Hpp Hr) as (x & _ & _ & Hg & Hcs').
    pose proof (sign_present_cases L m pp x s t' msg Hpp Hcs' Hg) as Hs.
    destruct (N.eqb_spec (sec_time s) t') as [|_]; [congruence|]. rewrite Hs. reflexivity.
Qed.

(** * A committee *)
Lemma committee_in_memory : forall (E : env) (L : env_laws E) m (pp : pubparam E) t l msg mm' sp kp p' n',
  pp_ok pp -> (pp_depth pp <= 32)%nat -> l <> [] ->
  Forall (fun x => match x with (pkb, k, mm, p, n, sig) =>
     held m pp pkb k t mm /\ load mm p n = Some msg /\ exec m pp (CSign k p n t) mm = Some (Ok (RSig sig), mm) end) l ->
  elements mm' sp 149 (map (fun x => match x with (_, _, _, _, _, sig) => sig end) l) ->
  elements mm' kp 49 (map (fun x => match x with (pkb, _, _, _, _, _) => pkb end) l) ->
  load mm' p' n' = Some msg ->
  exists agg, exec m pp (CAggregate sp (length l)) mm' = Some (Ok (RSig agg), mm') /\ length agg = 149%nat
     /\ exec m pp (CVerifyAgg kp (length l) p' n' agg) mm' = Some (Ok (RBool true), mm').
Proof.
  intros E L m pp t l msg mm' sp kp p' n' Hpp Hd Hne H Hs Hk Hm.
  set (sigs := map _ l) in Hs. set (pks := map _ l) in Hk.
  set (pr := map (fun x : bytes * pixel_sk * mem * ptr * nat * bytes => match x with (pkb, _, _, _, _, sig) => (sig, pkb) end) l).
  assert (Hfst : map fst pr = sigs).
  { unfold pr, sigs. rewrite map_map. apply map_ext. intros [[[[[pkb k] mm] p] n] sig]. reflexivity. }
  assert (Hsnd : map snd pr = pks).
  { unfold pr, pks. rewrite map_map. apply map_ext. intros [[[[[pkb k] mm] p] n] sig]. reflexivity. }
  assert (Hall : Forall (fun sk => are_bytes (fst sk)
     /\ c_verify m pp (snd sk) msg (fst sk) = Ok true
     /\ (forall pk : pubkey E, from_slice (pk_deserialize true) (snd sk) = Ok pk -> pk_cs pk = pp_cs pp /\ g2_insub (pk_pk pk) = true)
     /\ (forall s : signature E, from_slice (sig_deserialize true) (fst sk) = Ok s -> sig_time s = t)) pr).
  { unfold pr. apply Forall_map. eapply Forall_impl; [|exact H]. intros [[[[[pkb k] mm] p] n] sig] (Hh & Hl & He). cbn [fst snd].
    destruct (held_inv L m pp pkb k t mm Hpp Hd Hh) as (pk & s & Hr & Hwk & Hcs & -> & Ht & Hls).
    destruct (c_sign_now L m pp pk s msg Hpp Hd Hwk Hr) as (sg & _ & Hw & Hst & Hsig & Hv).
    cbn [exec] in He. rewrite Hl, Hls, <- Ht, Hsig in He. cbn [bind] in He. injection He as <-.
    split; [apply (sig_blob_bytes L), Hw|]. split; [exact Hv|]. split.
    - intros pk' Hpk'. rewrite (slice_pk L) in Hpk' by exact Hwk. injection Hpk' as <-. split; [exact Hcs|apply wpk_in, Hwk].
    - intros s' Hs'. rewrite (slice_sig L) in Hs' by exact Hw. injection Hs' as <-. congruence. }
  destruct (c_aggregate_verifies E L m pp pr msg t Hpp) as (b & Hb & Hlb & Hvb).
  - unfold pr. intros Hz. apply map_eq_nil in Hz. contradiction.
  - apply Forall_map. eapply Forall_impl; [|exact Hall]. intros a Ha. apply Ha.
  - eapply Forall_impl; [|exact Hall]. intros a Ha. apply Ha.
  - rewrite Hfst in Hb. rewrite Hsnd in Hvb. exists b.
    destruct (array_calls E m pp mm' sp) as [Ha _]. destruct (array_calls E m pp mm' kp) as [_ Hv].
    specialize (Ha sigs Hs). specialize (Hv pks p' n' msg b Hk Hm). rewrite Hb in Ha. rewrite Hvb in Hv. cbn [bind] in Ha, Hv.
    unfold sigs, pks in Ha, Hv. rewrite map_length in Ha, Hv. split; [exact Ha|]. split; [exact Hlb|exact Hv].
Qed.

(** * The result depends on the buffers only *)
Lemma exec_reads : forall (E : env) m (pp : pubparam E) c mm mm' r new,
  (forall p n, In (p, n) (buffers c) -> load mm' p n = load mm p n) ->
  exec m pp c mm = Some (r, mm ++ new) ->
  exists r', exec m pp c mm' = Some (r', mm' ++ new) /\ same_ret r r'.
Proof.
  intros E m pp c mm mm' r new Hb He.
  assert (Hnil : forall (l : mem), l = l ++ new -> new = []).
  { intros l Hl. rewrite <- (app_nil_r l) in Hl at 1. apply app_inv_head in Hl. congruence. }
  assert (Hsame : forall x, same_ret x x).
  { intros [[? ? ?|?|?|?]| |]; cbn [same_ret]; auto. }
  destruct c; cbn [exec buffers In] in *; change SIG_LEN with 149%nat in *; change PK_LEN with 49%nat in *.
  - rewrite Hb by auto. destruct (load mm seed seed_len) as [s|]; [|discriminate].
    destruct (c_keygen pp s) as [[[pk b] pop]|e|q]; cbn [leak] in *.
    + injection He as <- He. apply app_inv_head in He. subst new. eexists. split; [reflexivity|]. cbn [same_ret ps_len]. auto.
    + injection He as <- He. apply Hnil in He. subst new. rewrite app_nil_r. eauto.
    + injection He as <- He. apply Hnil in He. subst new. rewrite app_nil_r. eauto.
  - rewrite !Hb by auto. destruct (load mm msg msg_len) as [s|]; [|discriminate]. destruct (load mm (ps_data sk) (ps_len sk)) as [k|]; [|discriminate].
    injection He as <- He. apply Hnil in He. subst new. rewrite app_nil_r. eauto.
  - rewrite !Hb by auto. destruct (load mm msg msg_len) as [s|]; [|discriminate].
    injection He as <- He. apply Hnil in He. subst new. rewrite app_nil_r. eauto.
  - rewrite !Hb by auto. destruct (load mm seed seed_len) as [s|]; [|discriminate]. destruct (load mm (ps_data sk) (ps_len sk)) as [k|]; [|discriminate].
    destruct (c_sk_update m pp k s t) as [b|e|q]; cbn [leak] in *.
    + injection He as <- He. apply app_inv_head in He. subst new. eexists. split; [reflexivity|]. cbn [same_ret ps_len]. auto.
    + injection He as <- He. apply Hnil in He. subst new. rewrite app_nil_r. eauto.
    + injection He as <- He. apply Hnil in He. subst new. rewrite app_nil_r. eauto.
  - rewrite !Hb by auto. destruct (load mm sigs _) as [s|]; [|discriminate].
    injection He as <- He. apply Hnil in He. subst new. rewrite app_nil_r. eauto.
  - rewrite !Hb by auto. destruct (load mm pks _) as [s|]; [|discriminate]. destruct (load mm msg msg_len) as [k|]; [|discriminate].
    injection He as <- He. apply Hnil in He. subst new. rewrite app_nil_r. eauto.
  - injection He as <- He. apply Hnil in He. subst new. rewrite app_nil_r. eauto.
Qed.
