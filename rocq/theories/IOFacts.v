(** Readers, writers and the serialization formats. *)
From Verif Require Import Base Env Time Hkdf Prng SubKey SecretKey Keys Sig IO Serdes SpecSer PrngFacts.
From Coq Require Import ZifyBool ZifyNat ZifyN.
Ltac Zify.zify_post_hook ::= Z.div_mod_to_equations.
Local Open Scope N_scope.
Local Arguments N.add : simpl never.
Local Arguments N.mul : simpl never.
Local Arguments N.sub : simpl never.
Local Arguments pow2 : simpl never.

(** * Readers *)
Lemma content_rpush b r : content (rpush b r) = b ++ content r.
Proof. destruct b; reflexivity. Qed.
Lemma calm_rpush b r : calm r -> calm (rpush b r).
Proof. destruct b; cbn [rpush]; auto. intros H. constructor; [eexists; split; [|reflexivity]; discriminate|exact H]. Qed.
Lemma patient_rpush b r : patient r -> patient (rpush b r).
Proof. destruct b; cbn [rpush]; auto. intros H. constructor; [split; discriminate|exact H]. Qed.
Lemma calm_patient r : calm r -> patient r.
Proof.
  intros H. eapply Forall_impl; [|exact H]. cbn. intros e (b & Hb & ->). split; [discriminate|].
  intros [= ->]. contradiction.
Qed.
Lemma calm_slice b : calm (rpush b []).
Proof. apply calm_rpush. constructor. Qed.
Lemma content_slice b : content (rpush b []) = b.
Proof. rewrite content_rpush. apply app_nil_r. Qed.

(** Class of readers closed under consumption. *)
Record rclass (P : reader -> Prop) : Prop := RClass {
  rc_tail : forall e r, P (e :: r) -> P r;
  rc_push : forall b r, P r -> P (rpush b r) }.
Lemma rclass_calm : rclass calm.
Proof. split; [intros e r H; inversion H; auto|intros; apply calm_rpush; auto]. Qed.
Lemma rclass_patient : rclass patient.
Proof. split; [intros e r H; inversion H; auto|intros; apply patient_rpush; auto]. Qed.
Lemma rclass_any : rclass (fun _ => True).
Proof. split; auto. Qed.

Lemma read_exact_ok P (HP : rclass P) : forall r n, P r -> (n <= length (content r))%nat ->
  exists r', read_exact n r = (Ok (firstn n (content r)), r') /\ P r' /\ content r' = skipn n (content r).
Proof.
  unfold read_exact. induction r as [|e r IH]; intros n Hr Hn.
  - cbn in Hn. assert (n = 0)%nat as -> by lia. exists []. cbn. auto.
  - destruct n as [|n]; [exists (e :: r); cbn; auto|].
    assert (HPr : P r) by (eapply rc_tail; eauto).
    destruct e as [[|b bs]| |]; cbn [content] in Hn.
    + cbn in Hn. lia.
    + cbn [read_exact_loop]. destruct (Nat.leb_spec (S n) (length (b :: bs))) as [Hle|Hlt].
      * eexists. split; [|split].
        -- cbn [content]. rewrite firstn_app. replace (S n - length (b :: bs))%nat with 0%nat by lia.
           rewrite firstn_O, app_nil_r. reflexivity.
        -- apply (rc_push P HP), HPr.
        -- rewrite content_rpush. cbn [content]. rewrite skipn_app.
           replace (S n - length (b :: bs))%nat with 0%nat by lia. reflexivity.
      * rewrite app_length in Hn.
        destruct (IH (S n - length (b :: bs))%nat HPr ltac:(lia)) as (r' & He & Hp & Hc).
        exists r'. rewrite He. split; [|split; [exact Hp|]].
        -- cbn [content]. rewrite firstn_app, (firstn_all2 (n := S n) (b :: bs)) by lia. reflexivity.
        -- rewrite Hc. cbn [content]. rewrite skipn_app.
           rewrite (skipn_all2 (n := S n) (b :: bs)) by lia. reflexivity.
    + cbn [read_exact_loop content]. apply IH; auto.
    + cbn in Hn. lia.
Qed.

Lemma read_exact_err : forall r n, (length (content r) < n)%nat ->
  exists r', read_exact n r = (Err E_IO, r').
Proof.
  unfold read_exact. induction r as [|e r IH]; intros n Hn; (destruct n as [|n]; [lia|]).
  - exists []. reflexivity.
  - destruct e as [[|b bs]| |]; cbn [content] in Hn; cbn [read_exact_loop].
    + eauto.
    + rewrite app_length in Hn. destruct (Nat.leb_spec (S n) (length (b :: bs))); [lia|].
      destruct (IH (S n - length (b :: bs))%nat ltac:(lia)) as (r' & ->). eauto.
    + apply IH; auto.
    + eauto.
Qed.

(** [parses P f p]: on readers in [P], [f] behaves as the function [p] on the content. *)
Definition parses {A} (P : reader -> Prop) (f : st reader A) (p : bytes -> res (A * bytes)) : Prop :=
  forall r, P r ->
  match p (content r) with
  | Ok (a, rest) => exists r', f r = (Ok a, r') /\ P r' /\ content r' = rest
  | Err e => exists r', f r = (Err e, r')
  | Panic q => exists r', f r = (Panic q, r')
  end.

Definition p_take (n : nat) (b : bytes) : res (bytes * bytes) :=
  if (n <=? length b)%nat then Ok (firstn n b, skipn n b) else Err E_IO.
Lemma parses_take P (HP : rclass P) n : parses P (read_exact n) (p_take n).
Proof.
  intros r Hr. unfold p_take. destruct (Nat.leb_spec n (length (content r))).
  - apply read_exact_ok; auto.
  - apply read_exact_err; auto.
Qed.

Definition p_bind {A B} (p : bytes -> res (A * bytes)) (q : A -> bytes -> res (B * bytes)) (b : bytes)
  : res (B * bytes) := let! (a, rest) := p b in q a rest.
Lemma parses_bind {A B} P f p (k : A -> st reader B) q :
  parses P f p -> (forall a, parses P (k a) (q a)) -> parses P (sbind f k) (p_bind p q).
Proof.
  intros Hf Hk r Hr. specialize (Hf r Hr). unfold p_bind, sbind.
  destruct (p (content r)) as [[a rest]|e|x]; cbn [bind].
  - destruct Hf as (r' & -> & Hr' & <-). apply Hk, Hr'.
  - destruct Hf as (r' & ->). eauto.
  - destruct Hf as (r' & ->). eauto.
Qed.
Definition p_lift {A} (x : res A) (b : bytes) : res (A * bytes) := let! a := x in Ok (a, b).
Lemma parses_lift {A} P (x : res A) : parses P (slift x) (p_lift x).
Proof. intros r Hr. unfold p_lift, slift. destruct x; cbn [bind]; eauto. Qed.
Definition p_ret {A} (a : A) (b : bytes) : res (A * bytes) := Ok (a, b).
Lemma parses_ret {A} P (a : A) : parses P (sret a) (p_ret a).
Proof. intros r Hr. cbn [p_ret]. exists r. auto. Qed.
Lemma parses_if {A} P (c : bool) (f g : st reader A) p q :
  parses P f p -> parses P g q -> parses P (if c then f else g) (fun b => if c then p b else q b).
Proof. destruct c; auto. Qed.
Lemma parses_ext {A} P (f : st reader A) p q :
  parses P f p -> (forall b, p b = q b) -> parses P f q.
Proof. intros H He r Hr. rewrite <- He. apply H, Hr. Qed.

(** The length byte, read with a single [read]. *)
Definition hvlen_read : st reader N :=
  fun r => match read1 r with
           | (Ok (Some b), r') => (Ok b, r')
           | (Ok None, r') => (Ok 0, r')
           | (_, r') => (Err E_DESERIAL, r')
           end.
Definition p_hvlen (b : bytes) : res (N * bytes) :=
  match b with [] => Ok (0, []) | x :: b' => Ok (x, b') end.
Lemma parses_hvlen : parses calm hvlen_read p_hvlen.
Proof.
  intros r Hr. destruct r as [|e r].
  - cbn. exists []. auto.
  - inversion Hr as [|? ? (b & Hb & ->) Hr']; subst. destruct b as [|x b]; [contradiction|].
    cbn [content app p_hvlen]. exists (rpush b r). split; [reflexivity|].
    split; [apply calm_rpush, Hr'|apply content_rpush].
Qed.

(** The deserializers as functions on byte strings. *)
Definition p_g1 {E : env} c := p_bind (p_take (g1_size c)) (fun b =>
  p_lift (match @g1_dec E c b with Some x => Ok x | None => Err E_POINT end)).
Definition p_g2 {E : env} c := p_bind (p_take (g2_size c)) (fun b =>
  p_lift (match @g2_dec E c b with Some x => Ok x | None => Err E_POINT end)).
Lemma parses_g1 {E : env} P (HP : rclass P) c : parses P (@g1_read E c) (p_g1 c).
Proof. apply parses_bind; [apply parses_take; auto|]. intros; apply parses_lift. Qed.
Lemma parses_g2 {E : env} P (HP : rclass P) c : parses P (@g2_read E c) (p_g2 c).
Proof. apply parses_bind; [apply parses_take; auto|]. intros; apply parses_lift. Qed.

Definition p_fail {A} (e : error) (b : bytes) : res (A * bytes) := Err e.
Lemma parses_fail {A} P e : parses P (@slift reader A (Err e)) (p_fail e).
Proof. intros r Hr. cbn [p_fail]. exists r. reflexivity. Qed.

Definition p_pop {E : env} c : bytes -> res (proof E * bytes) :=
  p_bind (p_take 1) (fun k =>
    let cs := nth 0 k 0 in
    fun b => if negb (valid_cs cs) then p_fail E_CIPHERSUITE b
    else p_bind (p_g1 c) (fun x => p_ret (Pop cs x)) b).
Lemma parses_pop {E : env} P (HP : rclass P) c : parses P (@pop_deserialize E c) (p_pop c).
Proof.
  apply parses_bind; [apply parses_take; auto|]. intros k. apply parses_if; [apply parses_fail|].
  apply parses_bind; [apply parses_g1; auto|]. intros; apply parses_ret.
Qed.

Definition p_pk {E : env} c : bytes -> res (pubkey E * bytes) :=
  p_bind (p_take 1) (fun k =>
    let cs := nth 0 k 0 in
    fun b => if negb (valid_cs cs) then p_fail E_CIPHERSUITE b
    else p_bind (p_g2 c) (fun x => p_ret (PubKey cs x)) b).
Lemma parses_pk {E : env} P (HP : rclass P) c : parses P (@pk_deserialize E c) (p_pk c).
Proof.
  apply parses_bind; [apply parses_take; auto|]. intros k. apply parses_if; [apply parses_fail|].
  apply parses_bind; [apply parses_g2; auto|]. intros; apply parses_ret.
Qed.

Definition p_sig {E : env} (c : bool) : bytes -> res (signature E * bytes) :=
  p_bind (p_take 1) (fun k => p_bind (p_take 4) (fun tb =>
    let cs := nth 0 k 0 in let time := from_be4 tb in
    fun b => if time =? 0 then p_fail E_TIME_STAMP b
    else if negb (valid_cs cs) then p_fail E_CIPHERSUITE b
    else p_bind (p_g2 c) (fun s1 b => if negb c then p_fail E_COMPRESS b else
           p_bind (p_g1 c) (fun s2 b => if negb c then p_fail E_COMPRESS b else
             p_ret (Signature cs time s1 s2) b) b) b)).
Lemma parses_sig {E : env} P (HP : rclass P) c : parses P (@sig_deserialize E c) (p_sig c).
Proof.
  apply parses_bind; [apply parses_take; auto|]. intros k.
  apply parses_bind; [apply parses_take; auto|]. intros tb.
  apply parses_if; [apply parses_fail|]. apply parses_if; [apply parses_fail|].
  apply parses_bind; [apply parses_g2; auto|]. intros s1. apply parses_if; [apply parses_fail|].
  apply parses_bind; [apply parses_g1; auto|]. intros s2. apply parses_if; [apply parses_fail|].
  apply parses_ret.
Qed.

Fixpoint p_hv {E : env} (c : bool) (n : nat) : bytes -> res (list (G1 E) * bytes) :=
  match n with
  | O => p_ret []
  | S n' => p_bind (p_g1 c) (fun x => p_bind (p_hv c n') (fun l => p_ret (x :: l)))
  end.
Lemma parses_hv {E : env} P (HP : rclass P) c n : parses P (@hv_read E c n) (p_hv c n).
Proof.
  induction n; cbn [hv_read p_hv]; [apply parses_ret|].
  apply parses_bind; [apply parses_g1; auto|]. intros x. apply parses_bind; [exact IHn|]. intros; apply parses_ret.
Qed.

Definition p_ssk {E : env} (c : bool) : bytes -> res (subkey E * bytes) :=
  p_bind (p_take 4) (fun tb =>
    let time := from_be4 tb in
    fun b => if time =? 0 then p_fail E_TIME_STAMP b
    else p_bind p_hvlen (fun n => p_bind (p_g2 c) (fun g2r => p_bind (p_g1 c) (fun hp =>
           p_bind (p_hv c (N.to_nat n)) (fun hv => p_ret (SubKey time g2r hp hv))))) b).
Lemma parses_ssk {E : env} c : parses calm (@ssk_deserialize E c) (p_ssk c).
Proof.
  pose proof rclass_calm as HP.
  apply parses_bind; [apply parses_take; auto|]. intros tb. apply parses_if; [apply parses_fail|].
  apply parses_bind; [apply parses_hvlen|]. intros n.
  apply parses_bind; [apply parses_g2; auto|]. intros g2r.
  apply parses_bind; [apply parses_g1; auto|]. intros hp.
  apply parses_bind; [apply parses_hv; auto|]. intros; apply parses_ret.
Qed.

Fixpoint p_ssks {E : env} (c : bool) (n : nat) : bytes -> res (list (subkey E) * bytes) :=
  match n with
  | O => p_ret []
  | S n' => p_bind (p_ssk c) (fun x => p_bind (p_ssks c n') (fun l => p_ret (x :: l)))
  end.
Lemma parses_ssks {E : env} c n : parses calm (@ssks_read E c n) (p_ssks c n).
Proof.
  induction n; cbn [ssks_read p_ssks]; [apply parses_ret|].
  apply parses_bind; [apply parses_ssk; auto|]. intros x. apply parses_bind; [exact IHn|]. intros; apply parses_ret.
Qed.

Definition p_sk {E : env} (c : bool) : bytes -> res (seckey E * bytes) :=
  p_bind (p_take 2) (fun k => p_bind (p_take 64) (fun rng =>
    let cs := nth 0 k 0 in let num := nth 1 k 0 in
    fun b => if negb (valid_cs cs) then p_fail E_CIPHERSUITE b
    else if num =? 0 then p_fail E_DESERIAL b
    else p_bind (p_ssk c) (fun s => p_bind (p_ssks c (N.to_nat num - 1)) (fun l =>
           p_ret (SecKey cs (sk_t s) (s :: l) rng))) b)).
Lemma parses_sk {E : env} c : parses calm (@sk_deserialize E c) (p_sk c).
Proof.
  pose proof rclass_calm as HP.
  apply parses_bind; [apply parses_take; auto|]. intros k.
  apply parses_bind; [apply parses_take; auto|]. intros rng.
  apply parses_if; [apply parses_fail|]. apply parses_if; [apply parses_fail|].
  apply parses_bind; [apply parses_ssk|]. intros s.
  apply parses_bind; [apply parses_ssks|]. intros; apply parses_ret.
Qed.

Lemma parses_slice {A} (P : reader -> Prop) (f : st reader A) p b : P (rpush b []) -> parses P f p ->
  from_slice f b = let! (a, _) := p b in Ok a.
Proof.
  intros Hb Hf. specialize (Hf _ Hb). rewrite content_slice in Hf. unfold from_slice.
  destruct (p b) as [[a rest]|e|q]; cbn [bind].
  - destruct Hf as (r' & -> & _). reflexivity.
  - destruct Hf as (r' & ->). reflexivity.
  - destruct Hf as (r' & ->). reflexivity.
Qed.

(** * Writers *)
Lemma write_all_cases buf : forall script out,
  (exists s, write_all_loop script out buf = (Ok tt, Writer (out ++ buf) s))
  \/ (exists k s, write_all_loop script out buf = (Err E_IO, Writer (out ++ firstn k buf) s)).
Proof.
  intros script; revert buf. induction script as [|e script IH]; intros buf out.
  - left. exists []. destruct buf; cbn; [rewrite app_nil_r|]; reflexivity.
  - destruct buf as [|b buf]; [left; exists (e :: script); cbn; rewrite app_nil_r; reflexivity|].
    destruct e as [[|n]| |]; cbn [write_all_loop].
    + right. exists 0%nat, script. rewrite firstn_O, app_nil_r. reflexivity.
    + destruct (IH (skipn (S n) (b :: buf)) (out ++ firstn (S n) (b :: buf))) as [(s & ->)|(k & s & ->)].
      * left. exists s. rewrite <- app_assoc, firstn_skipn. reflexivity.
      * right. exists (S n + k)%nat, s. rewrite <- app_assoc. f_equal. f_equal. f_equal.
        set (l := b :: buf). rewrite <- (firstn_skipn (S n) l) at 3.
        rewrite firstn_app. destruct (Nat.le_gt_cases (S n) (length l)).
        -- rewrite (firstn_all2 (n := S n + k) (firstn (S n) l)) by (rewrite firstn_length; lia).
           f_equal. f_equal. rewrite firstn_length. lia.
        -- rewrite (skipn_all2 (n := S n) l) by lia. rewrite !firstn_nil, !app_nil_r.
           rewrite !firstn_firstn. rewrite !firstn_all2 by lia. reflexivity.
    + apply IH.
    + right. exists 0%nat, script. rewrite firstn_O, app_nil_r. reflexivity.
Qed.

Lemma write_all_vec buf out : write_all buf (vec_writer out) = (Ok tt, vec_writer (out ++ buf)).
Proof.
  unfold write_all, vec_writer. cbn [w_script w_out]. destruct buf; cbn; [rewrite app_nil_r|]; reflexivity.
Qed.

(** * Bytes of a time stamp *)
Lemma land_255 x : N.land x 255 = x mod 256.
Proof. change 255 with (N.ones 8). rewrite N.land_ones. reflexivity. Qed.
Lemma time_bytes_be4 t : time_bytes t = be4 t.
Proof.
  unfold time_bytes, be4, as_u8. rewrite !N.shiftr_div_pow2, !land_255.
  rewrite !N.mod_mod by discriminate. reflexivity.
Qed.
Lemma from_be4_be4 t : t < 2^32 -> from_be4 (be4 t) = t.
Proof.
  intros H. unfold be4, from_be4. change (2^32) with 4294967296 in H.
  change (2^24) with 16777216. change (2^16) with 65536. change (2^8) with 256. lia.
Qed.
Lemma be4_from_be4 l : are_bytes l -> length l = 4%nat -> be4 (from_be4 l) = l /\ from_be4 l < 2^32.
Proof.
  intros Hb Hl. destruct l as [|a [|b [|c [|d [|]]]]]; try discriminate.
  inversion Hb as [|? ? Ha Hb1]; subst. inversion Hb1 as [|? ? Hbb Hb2]; subst.
  inversion Hb2 as [|? ? Hc Hb3]; subst. inversion Hb3 as [|? ? Hd _]; subst.
  unfold is_byte in *. unfold be4, from_be4.
  change (2^24) with 16777216. change (2^16) with 65536. change (2^8) with 256. change (2^32) with 4294967296.
  split; [repeat f_equal|]; lia.
Qed.
Lemma be4_len t : length (be4 t) = 4%nat.
Proof. reflexivity. Qed.

Lemma valid_cs_supported cs : valid_cs cs = true <-> supported cs.
Proof. unfold valid_cs, supported. cbn. lia. Qed.
