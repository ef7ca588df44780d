(** Proofs about several objects in one stream ([SpecMix]). *)
From Verif Require Import Base Env Time SubKey SecretKey Keys Sig IO Serdes SpecSer IOFacts SerFacts SerProps SpecMix.
From Coq Require Import Lia ZifyBool ZifyNat ZifyN.
Local Open Scope N_scope.

(** * Parsers do not look ahead *)
Definition mono {A} (p : bytes -> res (A * bytes)) : Prop := forall b a rest e, p b = Ok (a, rest) -> p (b ++ e) = Ok (a, rest ++ e).
Lemma mono_take n : mono (p_take n).
Proof.
  intros b a rest e H. apply p_take_inv in H as [-> Hl]. rewrite <- app_assoc. apply p_take_app, Hl.
Qed.
Lemma mono_bind {A B} (p : bytes -> res (A * bytes)) (q : A -> bytes -> res (B * bytes)) : mono p -> (forall a, mono (q a)) -> mono (p_bind p q).
Proof.
  intros Hp Hq b y rest e H. apply p_bind_inv in H as (x & b' & H1 & H2). unfold p_bind. rewrite (Hp _ _ _ e H1). cbn [bind]. apply Hq, H2.
Qed.
Lemma mono_lift {A} (x : res A) : mono (p_lift x).
Proof. intros b a rest e. unfold p_lift. destruct x; cbn [bind]; try discriminate. intros [= <- <-]. reflexivity. Qed.
Lemma mono_ret {A} (x : A) : mono (p_ret x).
Proof. intros b a rest e [= <- <-]. reflexivity. Qed.
Lemma mono_fail {A} e : mono (@p_fail A e).
Proof. intros b a rest e'. discriminate. Qed.
Lemma mono_if {A} (c : bool) (p q : bytes -> res (A * bytes)) : mono p -> mono q -> mono (fun b => if c then p b else q b).
Proof. destruct c; auto. Qed.
Lemma mono_g1 {E : env} c : mono (@p_g1 E c).
Proof. apply mono_bind; [apply mono_take|]. intros. apply mono_lift. Qed.
Lemma mono_g2 {E : env} c : mono (@p_g2 E c).
Proof. apply mono_bind; [apply mono_take|]. intros. apply mono_lift. Qed.
Lemma mono_hv {E : env} c n : mono (@p_hv E c n).
Proof. induction n as [|n IH]; cbn [p_hv]; [apply mono_ret|]. apply mono_bind; [apply mono_g1|]. intros. apply mono_bind; [exact IH|]. intros. apply mono_ret. Qed.
Lemma mono_pop {E : env} c : mono (@p_pop E c).
Proof. apply mono_bind; [apply mono_take|]. intros k. apply mono_if; [apply mono_fail|]. apply mono_bind; [apply mono_g1|]. intros. apply mono_ret. Qed.
Lemma mono_pk {E : env} c : mono (@p_pk E c).
Proof. apply mono_bind; [apply mono_take|]. intros k. apply mono_if; [apply mono_fail|]. apply mono_bind; [apply mono_g2|]. intros. apply mono_ret. Qed.
Lemma mono_sig {E : env} c : mono (@p_sig E c).
Proof.
  apply mono_bind; [apply mono_take|]. intros k. apply mono_bind; [apply mono_take|]. intros tb. apply mono_if; [apply mono_fail|]. apply mono_if; [apply mono_fail|].
  apply mono_bind; [apply mono_g2|]. intros s1. apply mono_if; [apply mono_fail|]. apply mono_bind; [apply mono_g1|]. intros s2.
  apply mono_if; [apply mono_fail|apply mono_ret].
Qed.
(** The length byte of a vector is read as 0 at the end of the input, but then the next point is missing. *)
Lemma mono_ssk {E : env} c : mono (@p_ssk E c).
Proof.
  apply mono_bind; [apply mono_take|]. intros tb. apply mono_if; [apply mono_fail|]. intros b a rest e H.
  destruct b as [|n b].
  - apply p_bind_inv in H as (x & b' & H1 & H2). injection H1 as _ <-. apply p_bind_inv in H2 as (g & b' & H3 & _).
    apply p_g2_inv in H3 as (e' & H4 & Hl & _). destruct e'; [destruct c; discriminate Hl|discriminate H4].
  - change (p_bind (fun b => Ok (n, b)) (fun n => p_bind (@p_g2 E c) (fun g2r => p_bind (p_g1 c) (fun hp =>
           p_bind (p_hv c (N.to_nat n)) (fun hv => p_ret (SubKey (from_be4 tb) g2r hp hv))))) b = Ok (a, rest)) in H.
    change (p_bind (fun b => Ok (n, b)) (fun n => p_bind (@p_g2 E c) (fun g2r => p_bind (p_g1 c) (fun hp =>
           p_bind (p_hv c (N.to_nat n)) (fun hv => p_ret (SubKey (from_be4 tb) g2r hp hv))))) (b ++ e) = Ok (a, rest ++ e)).
    revert H. apply mono_bind; [intros b0 x0 r0 e0 [= <- <-]; reflexivity|]. intros k. apply mono_bind; [apply mono_g2|]. intros. apply mono_bind; [apply mono_g1|]. intros.
    apply mono_bind; [apply mono_hv|]. intros. apply mono_ret.
Qed.
Lemma mono_ssks {E : env} c n : mono (@p_ssks E c n).
Proof. induction n as [|n IH]; cbn [p_ssks]; [apply mono_ret|]. apply mono_bind; [apply mono_ssk|]. intros. apply mono_bind; [exact IH|]. intros. apply mono_ret. Qed.
Lemma mono_sk {E : env} c : mono (@p_sk E c).
Proof.
  apply mono_bind; [apply mono_take|]. intros k. apply mono_bind; [apply mono_take|]. intros g. apply mono_if; [apply mono_fail|]. apply mono_if; [apply mono_fail|].
  apply mono_bind; [apply mono_ssk|]. intros s. apply mono_bind; [apply mono_ssks|]. intros. apply mono_ret.
Qed.

(** * Items *)
Definition p_item {E : env} (k : kind) : bytes -> res (item E * bytes) :=
  match k with
  | KSig => p_bind (p_sig true) (fun s => p_ret (ISig s))
  | KPk c => p_bind (p_pk c) (fun x => p_ret (IPk c x))
  | KPop c => p_bind (p_pop c) (fun x => p_ret (IPop c x))
  | KSk c => p_bind (p_sk c) (fun x => p_ret (ISk c x))
  end.
Lemma parses_item {E : env} k : parses calm (@read_item E k) (p_item k).
Proof.
  pose proof rclass_calm as HP.
  destruct k; (apply parses_bind; [|intros; apply parses_ret]); [apply parses_sig|apply parses_pk|apply parses_pop|apply parses_sk]; exact HP.
Qed.
Lemma mono_item {E : env} k : mono (@p_item E k).
Proof. destruct k; (apply mono_bind; [|intros; apply mono_ret]); [apply mono_sig|apply mono_pk|apply mono_pop|apply mono_sk]. Qed.
Lemma p_item_blob {E} (L : env_laws E) (i : item E) rest : fits i -> p_item (kind_of i) (item_blob i ++ rest) = Ok (i, rest).
Proof.
  intros H. destruct i; cbn [kind_of p_item item_blob fits] in *; unfold p_bind.
  - rewrite (p_sig_blob L) by exact H. reflexivity.
  - rewrite (p_pk_blob L) by exact H. reflexivity.
  - rewrite (p_pop_blob L) by exact H. reflexivity.
  - rewrite (p_sk_blob L) by exact H. reflexivity.
Qed.
Lemma np_item {E : env} k r : is_panic (fst (@read_item E k r)) = false.
Proof.
  destruct k; cbn [read_item]; unfold sbind.
  - pose proof (proj1 (sig_deserialize_checked E true r)) as H. destruct (sig_deserialize true r) as [[]]; auto.
  - pose proof (proj1 (pk_deserialize_checked E c r)) as H. destruct (pk_deserialize c r) as [[]]; auto.
  - pose proof (proj1 (pop_deserialize_checked E c r)) as H. destruct (pop_deserialize c r) as [[]]; auto.
  - pose proof (proj1 (sk_deserialize_checked E c r)) as H. destruct (sk_deserialize c r) as [[]]; auto.
Qed.
Lemma item_read {E} (L : env_laws E) (i : item E) r rest : fits i -> calm r -> content r = item_blob i ++ rest ->
  exists r', read_item (kind_of i) r = (Ok i, r') /\ calm r' /\ content r' = rest.
Proof. intros Hi Hr Hc. pose proof (parses_item (E := E) (kind_of i) r Hr) as H. rewrite Hc, (p_item_blob L) in H by exact Hi. exact H. Qed.

Lemma self_delimiting : forall (E : env) (L : env_laws E) (x y : item E) r r',
  fits x -> fits y -> kind_of x = kind_of y -> item_blob x ++ r = item_blob y ++ r' -> x = y /\ r = r'.
Proof.
  intros E L x y r r' Hx Hy Hk He. pose proof (p_item_blob L x r Hx) as H1. rewrite Hk, He, (p_item_blob L) in H1 by exact Hy.
  injection H1 as <- <-. auto.
Qed.

Lemma read_all {E} (L : env_laws E) : forall (l : list (item E)) r rest, Forall fits l -> calm r -> content r = blobs l ++ rest ->
  exists r', read_items (map kind_of l) r = (Ok l, r') /\ calm r' /\ content r' = rest.
Proof.
  induction l as [|i l IH]; intros r rest Hl Hr Hc; cbn [map read_items].
  - exists r. auto.
  - unfold blobs in Hc. cbn [map concat] in Hc. rewrite <- app_assoc in Hc.
    destruct (item_read L i r _ (Forall_inv Hl) Hr Hc) as (r1 & H1 & Hr1 & Hc1).
    destruct (IH r1 rest (Forall_inv_tail Hl) Hr1 Hc1) as (r2 & H2 & Hr2 & Hc2).
    exists r2. unfold sbind. rewrite H1, H2. auto.
Qed.
Lemma stream_read : forall (E : env) (L : env_laws E) (l : list (item E)) r rest, Forall fits l -> calm r -> content r = blobs l ++ rest ->
  exists r', read_items (map kind_of l) r = (Ok l, r') /\ calm r' /\ content r' = rest.
Proof. intros E L. exact (read_all L). Qed.

Lemma item_cut {E} (L : env_laws E) (i : item E) n r : fits i -> calm r -> (n < length (item_blob i))%nat -> content r = firstn n (item_blob i) ->
  exists e r', @read_item E (kind_of i) r = (Err e, r').
Proof.
  intros Hi Hr Hn Hc. pose proof (np_item (E := E) (kind_of i) r) as Hp. pose proof (parses_item (E := E) (kind_of i) r Hr) as H.
  destruct (p_item (kind_of i) (content r)) as [[a rest]|e|p] eqn:Ha.
  - exfalso. pose proof (mono_item _ _ _ _ (skipn n (item_blob i)) Ha) as H1. rewrite Hc, firstn_skipn in H1.
    pose proof (p_item_blob L i [] Hi) as H2. rewrite app_nil_r, H1 in H2. injection H2 as _ H2. apply app_eq_nil in H2 as [_ H2].
    apply (f_equal (@length N)) in H2. rewrite skipn_length in H2. cbn in H2. lia.
  - destruct H as (r' & H). exists e, r'. exact H.
  - destruct H as (r' & H). rewrite H in Hp. discriminate Hp.
Qed.
Lemma stream_cut : forall (E : env) (L : env_laws E) (l : list (item E)) (i : item E) n r,
  Forall fits l -> fits i -> calm r -> (n < length (item_blob i))%nat -> content r = blobs l ++ firstn n (item_blob i) ->
  exists r' e r'', read_items (map kind_of l) r = (Ok l, r') /\ @read_item E (kind_of i) r' = (Err e, r'').
Proof.
  intros E L l i n r Hl Hi Hr Hn Hc. destruct (read_all L l r _ Hl Hr Hc) as (r' & H1 & H2 & H3).
  destruct (item_cut L i n r' Hi H2 Hn H3) as (e & r'' & H4). exists r', e, r''. auto.
Qed.

(** * Writing *)
Lemma item_write {E} (i : item E) w : fits i -> write_item i w = write_all (item_blob i) w.
Proof.
  intros H. destruct i as [s|c x|c x|c x]; cbn [fits write_item item_blob] in *.
  - rewrite sig_serialize_blob, (proj2 (valid_cs_supported _) (wsig_cs _ H)). pose proof (wsig_time _ H). replace (sig_time s <? 2 ^ 32) with true by lia. reflexivity.
  - rewrite pk_serialize_blob, (proj2 (valid_cs_supported _) (wpk_cs _ H)). reflexivity.
  - rewrite pop_serialize_blob, (proj2 (valid_cs_supported _) (wpop_cs _ H)). reflexivity.
  - pose proof (sk_ok_bool x H) as Hb. apply andb_prop in Hb as [H1 H2]. rewrite sk_serialize_blob, H1, H2. reflexivity.
Qed.
Lemma write_all_willing : forall script out buf, willing (Writer out script) -> exists s, write_all_loop script out buf = (Ok tt, Writer (out ++ buf) s) /\ willing (Writer out s).
Proof.
  induction script as [|e script IH]; intros out buf Hw; (destruct buf as [|b buf]; [eexists; cbn [write_all_loop]; rewrite app_nil_r; split; [reflexivity|exact Hw]|]).
  - exists []. split; [reflexivity|exact Hw].
  - pose proof (Forall_inv Hw) as He. pose proof (Forall_inv_tail Hw) as Hs. destruct e as [[|n]| |]; cbn [write_all_loop].
    + destruct He as [_ He]. exfalso. apply He. reflexivity.
    + destruct (IH (out ++ firstn (S n) (b :: buf)) (skipn (S n) (b :: buf)) Hs) as (s & H1 & H2). exists s. rewrite H1, <- app_assoc, firstn_skipn. auto.
    + destruct (IH out (b :: buf) Hs) as (s & H1 & H2). exists s. auto.
    + destruct He as [He _]. exfalso. apply He. reflexivity.
Qed.
Lemma stream_written : forall (E : env) (l : list (item E)), Forall fits l ->
  appends (write_items l) (blobs l) /\ forall w, willing w -> fst (write_items l w) = Ok tt.
Proof.
  intros E. induction l as [|i l IH]; intros Hl.
  - split; [|reflexivity]. intros [out script]. left. exists script. cbn. rewrite app_nil_r. reflexivity.
  - destruct (IH (Forall_inv_tail Hl)) as [H1 H2]. unfold blobs in *. cbn [map concat write_items]. split.
    + intros [out script]. unfold sbind. rewrite item_write by exact (Forall_inv Hl). unfold write_all. cbn [w_out w_script].
      destruct (write_all_cases (item_blob i) script out) as [(s & ->)|(k & s & ->)].
      * destruct (H1 (Writer (out ++ item_blob i) s)) as [(s' & ->)|(k & s' & ->)]; cbn [w_out].
        -- left. exists s'. rewrite app_assoc. reflexivity.
        -- right. exists (length (item_blob i) + k)%nat, s'. rewrite firstn_app_2, app_assoc. reflexivity.
      * right. exists (Nat.min k (length (item_blob i))), s. rewrite firstn_app.
        replace (Nat.min k (length (item_blob i)) - length (item_blob i))%nat with 0%nat by lia.
        rewrite firstn_O, app_nil_r, <- firstn_firstn, firstn_all. reflexivity.
    + intros [out script] Hw. unfold sbind. rewrite item_write by exact (Forall_inv Hl). unfold write_all. cbn [w_out w_script].
      destruct (write_all_willing script out (item_blob i) Hw) as (s & -> & Hs). apply H2, Hs.
Qed.

(** A write that fails has left something out. *)
Lemma write_all_err : forall script out buf e w, write_all_loop script out buf = (Err e, w) -> exists k, (k < length buf)%nat /\ w_out w = out ++ firstn k buf.
Proof.
  induction script as [|ev script IH]; intros out buf e w H; (destruct buf as [|b buf]; [discriminate H|]); [discriminate H|].
  destruct ev as [[|n]| |]; cbn [write_all_loop] in H.
  - injection H as _ <-. exists 0%nat. cbn [w_out firstn length]. rewrite app_nil_r. split; [lia|reflexivity].
  - apply IH in H as (k & Hk & ->). rewrite skipn_length in Hk. exists (S n + k)%nat. split; [lia|]. rewrite <- app_assoc. f_equal.
    set (l := b :: buf) in *. rewrite <- (firstn_skipn (S n) (firstn (S n + k) l)), firstn_firstn, skipn_firstn_comm. f_equal; f_equal; lia.
  - apply IH in H. exact H.
  - injection H as _ <-. exists 0%nat. cbn [w_out firstn length]. rewrite app_nil_r. split; [lia|reflexivity].
Qed.
Lemma stream_err {E} : forall (l : list (item E)) w e w', Forall fits l -> write_items l w = (Err e, w') ->
  e = E_IO /\ exists k, (k < length (blobs l))%nat /\ w_out w' = w_out w ++ firstn k (blobs l).
Proof.
  induction l as [|i l IH]; intros [out script] e w' Hl H; [discriminate H|]. unfold blobs in *. cbn [map concat write_items] in *. unfold sbind in H.
  rewrite item_write in H by exact (Forall_inv Hl). unfold write_all in H. cbn [w_out w_script] in *. rewrite app_length.
  destruct (write_all_cases (item_blob i) script out) as [(s & H1)|(k & s & H1)]; rewrite H1 in H.
  - apply IH in H as (-> & k & Hk & ->); [|exact (Forall_inv_tail Hl)]. split; [reflexivity|]. exists (length (item_blob i) + k)%nat. split; [lia|].
    cbn [w_out]. rewrite firstn_app_2, app_assoc. reflexivity.
  - injection H as <- <-. split; [reflexivity|]. apply write_all_err in H1 as (k' & Hk & H1). exists k'. split; [lia|]. rewrite H1. f_equal.
    rewrite firstn_app. replace (k' - length (item_blob i))%nat with 0%nat by lia. rewrite firstn_O, app_nil_r. reflexivity.
Qed.
Lemma cut_place {E} : forall (l : list (item E)) k, (k < length (blobs l))%nat ->
  exists l1 i l2 n, l = l1 ++ i :: l2 /\ (n < length (item_blob i))%nat /\ firstn k (blobs l) = blobs l1 ++ firstn n (item_blob i).
Proof.
  unfold blobs. induction l as [|i l IH]; intros k Hl; [cbn in Hl; lia|]. cbn [map concat] in *. rewrite app_length in Hl.
  destruct (Nat.le_gt_cases (length (item_blob i)) k) as [Hk|Hk].
  - rewrite firstn_app, (firstn_all2 (n := k)) by exact Hk. destruct (IH (k - length (item_blob i))%nat ltac:(lia)) as (l1 & j & l2 & n & -> & Hn & He).
    exists (i :: l1), j, l2, n. split; [reflexivity|]. split; [exact Hn|]. rewrite He. cbn [map concat]. rewrite app_assoc. reflexivity.
  - exists [], i, l, k. split; [reflexivity|]. split; [exact Hk|]. rewrite firstn_app.
    replace (k - length (item_blob i))%nat with 0%nat by lia. rewrite firstn_O, app_nil_r. reflexivity.
Qed.
Lemma stream_recovered : forall (E : env) (L : env_laws E) (l : list (item E)) script x w' r,
  Forall fits l -> write_items l (Writer [] script) = (x, w') -> calm r -> content r = w_out w' ->
  x = Ok tt /\ (exists r', read_items (map kind_of l) r = (Ok l, r') /\ content r' = [])
  \/ x = Err E_IO /\ (exists l1 i l2 r' e r'', l = l1 ++ i :: l2 /\ read_items (map kind_of l1) r = (Ok l1, r')
                     /\ @read_item E (kind_of i) r' = (Err e, r'')).
Proof.
  intros E L l script x w' r Hl Hw Hr Hc. destruct (proj1 (stream_written E l Hl) (Writer [] script)) as [(s & H)|(k & s & H)].
  - rewrite H in Hw; injection Hw as <- <-; cbn [w_out app] in Hc.
    left. split; [reflexivity|]. destruct (read_all L l r [] Hl Hr) as (r' & H1 & _ & H2); [rewrite app_nil_r; exact Hc|]. exists r'. auto.
  - rewrite H in Hw. assert (x = Err E_IO) as -> by congruence. rewrite Hw in H. apply stream_err in H as (_ & k' & Hk & He); [|exact Hl]. cbn [w_out app] in He. rewrite He in Hc.
    right. split; [reflexivity|]. destruct (cut_place l k' Hk) as (l1 & i & l2 & n & -> & Hn & He'). rewrite He' in Hc.
    apply Forall_app in Hl as [Hl1 Hl2]. destruct (read_all L l1 r _ Hl1 Hr Hc) as (r' & H1 & H2 & H3).
    destruct (item_cut L i n r' (Forall_inv Hl2) H2 Hn H3) as (e & r'' & H4). exists l1, i, l2, r', e, r''. auto.
Qed.
