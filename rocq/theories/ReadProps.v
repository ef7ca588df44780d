(** Proofs about the memory of reading a key ([ReadMem], [SpecRead]). *)
From Verif Require Import Base Env Time Prng SpecTime SubKey SecretKey Keys Sig SpecKey SpecUpdate
  TimeFacts GroupFacts SubKeyFacts UpdateFacts KeyFacts Api HistoryFacts IO Serdes SpecSer IOFacts SpecHyg HygProps VecMem SpecVec VecProps ReadMem SpecRead.
From Coq Require Import Lia ZifyBool ZifyNat ZifyN Sorting.Sorted.
Local Open Scope N_scope.

(** * The same result *)
Lemma hv_read_m_fst {E : env} P c : forall n (v : list (G1 E) * nat) r fr, (exists fr',
  hv_read_m P c n v (r, fr) = (let! l := fst (hv_read c n r) in Ok (fst v ++ l), (snd (hv_read (E := E) c n r), fr'))).
Proof.
  induction n as [|n IH]; intros [l cap] r fr; cbn [hv_read_m hv_read].
  - exists fr. unfold sret. cbn [fst bind]. rewrite app_nil_r. reflexivity.
  - unfold rd, sbind. cbn [fst snd]. destruct (g1_read c r) as [[x|e|p] r1]; cbn [fst snd bind]; try (eexists; reflexivity).
    unfold mem, vec_push. cbn [snd fst].
    destruct (length l <? cap)%nat; edestruct IH as [fr' ->]; exists fr';
      (destruct (hv_read c n r1) as [[l2|e|p] r2]; cbn [fst snd bind]; [rewrite <- app_assoc|..]; reflexivity).
Qed.

Lemma ssk_m_fst {E : env} P c r fr : exists fr',
  ssk_deserialize_m (E := E) P c (r, fr) = (fst (ssk_deserialize c r), (snd (ssk_deserialize (E := E) c r), fr')).
Proof.
  unfold ssk_deserialize_m, ssk_deserialize, sbind, rd, slift. cbn [fst snd].
  destruct (read_exact 4 r) as [[tb|e|p] r1]; cbn [fst snd]; try (eexists; reflexivity).
  destruct (from_be4 tb =? 0); [eexists; reflexivity|].
  cbn [fst snd]. destruct (read1 r1) as [[o|e|p] r2]; cbn [fst snd]; [|eexists; reflexivity..].
  destruct o as [hl|]; cbn [fst snd];
  (destruct (g2_read c r2) as [[g2r|e|p] r3]; cbn [fst snd]; [|eexists; reflexivity..];
   destruct (g1_read c r3) as [[hp|e|p] r4]; cbn [fst snd]; [|eexists; reflexivity..];
   match goal with |- context [hv_read_m P c ?n _ _] => destruct (hv_read_m_fst P c n ([], 0%nat) r4 fr) as [fr' ->]; cbn [fst app];
     destruct (hv_read c n r4) as [[l|e|p] r5]; cbn [fst snd bind]; eexists; reflexivity end).
Qed.

Lemma ssks_m_fst {E : env} P Q c : forall n (v : list (subkey E) * nat) r fr, exists fr',
  ssks_read_m P Q c n v (r, fr) = (let! l := fst (ssks_read c n r) in Ok (fst v ++ l), (snd (ssks_read (E := E) c n r), fr')).
Proof.
  induction n as [|n IH]; intros [l cap] r fr; cbn [ssks_read_m ssks_read].
  - exists fr. unfold sret. cbn [fst bind]. rewrite app_nil_r. reflexivity.
  - unfold sbind at 1 3. destruct (ssk_m_fst (E := E) P c r fr) as [fr1 ->].
    destruct (ssk_deserialize c r) as [[x|e|p] r1] eqn:Hx; cbn [fst snd]; unfold sbind; rewrite ?Hx; cbn [fst snd bind]; try (eexists; reflexivity).
    unfold mem, vec_push. cbn [snd fst].
    destruct (length l <? cap)%nat; edestruct IH as [fr' ->]; exists fr';
      (destruct (ssks_read c n r1) as [[l2|e|p] r2]; cbn [fst snd bind]; [rewrite <- app_assoc|..]; reflexivity).
Qed.

Lemma read_same_result : forall (E : env) (P Q : policy) c r (fr : list (old_block E)),
  exists fr', sk_deserialize_m P Q c (r, fr) = (fst (sk_deserialize c r), (snd (sk_deserialize (E := E) c r), fr')).
Proof.
  intros. unfold sk_deserialize_m, sk_deserialize, sbind, rd, slift. cbn [fst snd].
  destruct (read_exact 2 r) as [[k|e|p] r1]; cbn [fst snd]; try (eexists; reflexivity).
  destruct (read_exact 64 r1) as [[g|e|p] r2]; cbn [fst snd]; try (eexists; reflexivity).
  destruct (negb (valid_cs _)); [eexists; reflexivity|]. destruct (_ =? 0); [eexists; reflexivity|].
  destruct (ssk_m_fst (E := E) P c r2 fr) as [fr1 ->].
  destruct (ssk_deserialize c r2) as [[x|e|p] r3]; cbn [fst snd]; try (eexists; reflexivity).
  unfold mem, vec_push. cbn [fst snd length Nat.ltb Nat.leb app].
  edestruct (ssks_m_fst (E := E) P Q c) as [fr' ->]. cbn [fst].
  destruct (ssks_read c _ r3) as [[l|e|p] r4]; cbn [fst snd bind]; eexists; reflexivity.
Qed.

(** * What a push frees *)
Definition og {A B} (P : policy) (f : list A -> B) (k : nat) (b : B) (l : list A) : Prop :=
  exists j, (k <= j)%nat /\ (0 < caps P 0 j < length l)%nat /\ moved P (caps P 0 j) = true /\ b = f (firstn (caps P 0 j) l).

Lemma push_og {A B} P (f : list A -> B) x l k fr : (length l <= caps P 0 k)%nat -> exists k' nw,
  vec_push P f x (l, caps P 0 k) fr = (Ok (l ++ [x], caps P 0 k'), nw ++ fr)
  /\ (length (l ++ [x]) <= caps P 0 k')%nat
  /\ forall l2 b, (In b nw \/ og P f k' b ((l ++ [x]) ++ l2)) <-> og P f k b ((l ++ [x]) ++ l2).
Proof.
  intros Hl. unfold vec_push. destruct (Nat.ltb_spec (length l) (caps P 0 k)) as [Hlt|Hge].
  - exists k, []. split; [reflexivity|]. rewrite app_length. cbn [length]. split; [lia|]. intros l2 b. cbn. tauto.
  - exists (S k), (left_behind P (caps P 0 k) (f l) []). split; [|split].
    + unfold left_behind. destruct (_ && _)%bool; reflexivity.
    + rewrite app_length. cbn [length]. change (caps P 0 (S k)) with (Nat.max (grow P (caps P 0 k)) (S (caps P 0 k))). lia.
    + intros l2 b. unfold left_behind.
      assert (Hf : firstn (caps P 0 k) ((l ++ [x]) ++ l2) = l).
      { rewrite <- app_assoc, firstn_app. replace (caps P 0 k - length l)%nat with 0%nat by lia.
        rewrite firstn_all2 by lia. apply app_nil_r. }
      assert (Hlen : (length l < length ((l ++ [x]) ++ l2))%nat) by (rewrite !app_length; cbn [length]; lia).
      split.
      * intros [Hb|(j & Hj & H)]; [|exists j; split; [lia|exact H]].
        destruct (Nat.eqb_spec (caps P 0 k) 0) as [H0|H0]; [destruct Hb|]. cbn [negb andb] in Hb.
        destruct (moved P (caps P 0 k)) eqn:Hm; [|destruct Hb]. destruct Hb as [<-|[]].
        exists k. rewrite Hf. split; [lia|]. split; [lia|]. split; [exact Hm|reflexivity].
      * intros (j & Hj & Hc & Hm & ->). destruct (Nat.eq_dec j k) as [->|Hne]; [left|right].
        -- rewrite Hf, Hm. replace (caps P 0 k =? 0)%nat with false by lia. left. reflexivity.
        -- exists j. split; [lia|]. auto.
Qed.

Lemma og_outgrown {A B} P (f : list A -> B) b l : og P f 0 b l <-> exists z, b = f z /\ outgrown P z l.
Proof.
  split.
  - intros (j & _ & Hc & Hm & ->). eexists. split; [reflexivity|]. exists j. auto.
  - intros (z & -> & j & Hc & Hm & ->). exists j. split; [lia|]. auto.
Qed.
Lemma og_nil {A B} P (f : list A -> B) k b l : (length l <= caps P 0 k)%nat -> ~ og P f k b l.
Proof.
  intros Hl (j & Hj & Hc & _). assert (H : (caps P 0 k <= caps P 0 j)%nat).
  { clear - Hj. induction Hj as [|j Hj IH]; [lia|]. change (caps P 0 (S j)) with (Nat.max (grow P (caps P 0 j)) (S (caps P 0 j))). lia. }
  lia.
Qed.

(** * What is left *)
Lemma hv_read_m_left {E : env} P c : forall n (l : list (G1 E)) k r fr l2 r',
  (length l <= caps P 0 k)%nat -> hv_read c n r = (Ok l2, r') ->
  exists nw, hv_read_m P c n (l, caps P 0 k) (r, fr) = (Ok (l ++ l2), (r', nw ++ fr))
    /\ forall b, In b nw <-> og P OldPoints k b (l ++ l2).
Proof.
  induction n as [|n IH]; intros l k r fr l2 r' Hl; cbn [hv_read_m hv_read].
  - unfold sret. intros H. injection H as <- <-. exists []. rewrite app_nil_r. split; [reflexivity|].
    intros b. split; [intros []|]. intros H. exfalso. revert H. apply og_nil, Hl.
  - unfold rd, sbind. cbn [fst snd]. destruct (g1_read c r) as [[x|e|p] r1]; try discriminate.
    destruct (hv_read c n r1) as [[l3|e|p] r2] eqn:Hn; try discriminate. unfold sret. intros H. injection H as <- <-.
    unfold mem. cbn [fst snd]. destruct (push_og P OldPoints x l k fr Hl) as (k' & nw & Hp & Hl' & Hnw). rewrite Hp.
    destruct (IH (l ++ [x]) k' r1 (nw ++ fr) l3 r2 Hl' Hn) as (nw2 & -> & H2).
    exists (nw2 ++ nw). rewrite <- !app_assoc. cbn [app]. split; [reflexivity|]. intros b.
    specialize (Hnw l3 b). specialize (H2 b). rewrite <- app_assoc in Hnw, H2. cbn [app] in Hnw, H2.
    rewrite in_app_iff, H2. tauto.
Qed.

Lemma ssk_m_left {E : env} P c r fr (s : subkey E) r' : ssk_deserialize c r = (Ok s, r') ->
  exists nw, ssk_deserialize_m P c (r, fr) = (Ok s, (r', nw ++ fr))
    /\ forall b, In b nw <-> og P OldPoints 0 b (sk_hvec s).
Proof.
  unfold ssk_deserialize_m, ssk_deserialize, sbind, rd, slift. cbn [fst snd].
  destruct (read_exact 4 r) as [[tb|e|p] r1]; cbn [fst snd]; try discriminate.
  destruct (from_be4 tb =? 0); [discriminate|].
  cbn [fst snd]. destruct (read1 r1) as [[o|e|p] r2]; cbn [fst snd]; [|discriminate..].
  destruct o as [hl|]; cbn [fst snd];
  (destruct (g2_read c r2) as [[g2r|e|p] r3]; cbn [fst snd]; [|discriminate..];
   destruct (g1_read c r3) as [[hp|e|p] r4]; cbn [fst snd]; [|discriminate..];
   match goal with |- context [hv_read c ?n r4] => 
     destruct (hv_read c n r4) as [[l|e|p] r5] eqn:Hl; [|discriminate..]; unfold sret; intros H; injection H as <- <-;
     destruct (hv_read_m_left P c n [] 0 r4 fr l r5 (le_n 0) Hl) as (nw & Hm & Hnw);
     change (caps P 0 0) with 0%nat in Hm; rewrite Hm; exists nw; split; [reflexivity|exact Hnw] end).
Qed.

Definition show {E} (l : list (subkey E)) : old_block E := OldKeys (map head_of l).
Lemma ssks_m_left {E : env} P Q c : forall n (l : list (subkey E)) k r fr l2 r',
  (length l <= caps Q 0 k)%nat -> ssks_read c n r = (Ok l2, r') ->
  exists nw, ssks_read_m P Q c n (l, caps Q 0 k) (r, fr) = (Ok (l ++ l2), (r', nw ++ fr))
    /\ forall b, In b nw <-> (exists s, In s l2 /\ og P OldPoints 0 b (sk_hvec s)) \/ og Q show k b (l ++ l2).
Proof.
  induction n as [|n IH]; intros l k r fr l2 r' Hl; cbn [ssks_read_m ssks_read].
  - unfold sret. intros H. injection H as <- <-. exists []. rewrite app_nil_r. split; [reflexivity|].
    intros b. split; [intros []|]. intros [(s & [] & _)|H]. exfalso. revert H. apply og_nil, Hl.
  - unfold sbind. destruct (ssk_deserialize c r) as [[x|e|p] r1] eqn:Hx; try discriminate.
    destruct (ssks_read c n r1) as [[l3|e|p] r2] eqn:Hn; try discriminate. unfold sret. intros H. injection H as <- <-.
    destruct (ssk_m_left P c r fr x r1 Hx) as (nw0 & -> & H0).
    unfold mem. cbn [fst snd]. destruct (push_og Q show x l k (nw0 ++ fr) Hl) as (k' & nw & Hp & Hl' & Hnw).
    unfold show in Hp. rewrite Hp.
    destruct (IH (l ++ [x]) k' r1 (nw ++ nw0 ++ fr) l3 r2 Hl' Hn) as (nw2 & -> & H2).
    exists (nw2 ++ nw ++ nw0). rewrite <- !app_assoc. cbn [app]. split; [reflexivity|]. intros b.
    specialize (Hnw l3 b). specialize (H2 b). specialize (H0 b). rewrite <- app_assoc in Hnw, H2. cbn [app] in Hnw, H2.
    rewrite !in_app_iff, H2, H0. split.
    + intros [[(s & Hs & Ho)|H]|[H|H]]; [left; exists s; split; [right; exact Hs|exact Ho]|tauto|tauto|].
      left. exists x. split; [left; reflexivity|exact H].
    + intros [(s & [<-|Hs] & Ho)|H]; [tauto|left; left; eauto|tauto].
Qed.

Lemma read_leaves : forall (E : env) (P Q : policy) c r r' (fr : list (old_block E)) sk,
  sk_deserialize c r = (Ok sk, r') ->
  exists nw, sk_deserialize_m P Q c (r, fr) = (Ok sk, (r', nw ++ fr))
    /\ forall b, In b nw <->
         (exists s l, In s (sec_ssk sk) /\ b = OldPoints l /\ outgrown P l (sk_hvec s))
         \/ (exists l, b = OldKeys (map head_of l) /\ outgrown Q l (sec_ssk sk)).
Proof.
  intros E P Q c r r' fr sk. unfold sk_deserialize_m, sk_deserialize, sbind, rd, slift. cbn [fst snd].
  destruct (read_exact 2 r) as [[k|e|p] r1]; cbn [fst snd]; try discriminate.
  destruct (read_exact 64 r1) as [[g|e|p] r2]; cbn [fst snd]; try discriminate.
  destruct (negb (valid_cs _)); [discriminate|]. destruct (_ =? 0); [discriminate|].
  destruct (ssk_deserialize c r2) as [[x|e|p] r3] eqn:Hx; try discriminate.
  destruct (ssks_read c _ r3) as [[l|e|p] r4] eqn:Hs; try discriminate. unfold sret. intros H. injection H as <- <-.
  destruct (ssk_m_left P c r2 fr x r3 Hx) as (nw0 & -> & H0).
  unfold mem. cbn [fst snd]. destruct (push_og Q show x [] 0 (nw0 ++ fr) (le_n 0)) as (k' & nw & Hp & Hl' & Hnw).
  change (caps Q 0 0) with 0%nat in Hp. unfold show in Hp. rewrite Hp.
  destruct (ssks_m_left P Q c _ ([] ++ [x]) k' r3 (nw ++ nw0 ++ fr) l r4 Hl' Hs) as (nw2 & -> & H2).
  exists (nw2 ++ nw ++ nw0). rewrite <- !app_assoc. cbn [app]. split; [reflexivity|]. intros b.
  specialize (Hnw l b). specialize (H2 b). specialize (H0 b). cbn [app] in Hnw, H2.
  rewrite !in_app_iff, H2, H0. cbn [sec_ssk]. rewrite (og_outgrown Q show) in Hnw. unfold show in Hnw.
  assert (Hiff : (exists s l0, In s (x :: l) /\ b = OldPoints l0 /\ outgrown P l0 (sk_hvec s))
    <-> og P OldPoints 0 b (sk_hvec x) \/ exists s, In s l /\ og P OldPoints 0 b (sk_hvec s)).
  { split.
    - intros (s & z & [<-|Hin] & Hb & Ho); [left|right; exists s; split; [exact Hin|]]; apply og_outgrown; eauto.
    - intros [H|(s & Hin & H)]; apply og_outgrown in H as (z & Hb & Ho);
        [exists x, z|exists s, z]; (split; [cbn; auto|]); auto. }
  rewrite Hiff. unfold show in *. tauto.
Qed.

(** * What it is good for *)
Lemma nth_error_firstn {A} (l : list A) : forall n i, (i < n)%nat -> nth_error (firstn n l) i = nth_error l i.
Proof.
  induction l as [|x l IH]; intros [|n] [|i] H; cbn [firstn nth_error]; try lia; try reflexivity. apply IH. lia.
Qed.
Lemma delegator_split {E} (L : env_laws E) m (pp : pubparam E) x tar seed sk sk' s :
  pp_ok pp -> good_sk pp x sk -> update m pp tar seed sk = (Ok tt, sk') ->
  In s (sec_ssk sk) -> sk_t s < tar -> (forall s', In s' (sec_ssk sk) -> ~ (sk_t s < sk_t s' <= tar)) ->
  exists va r w ks, s = honest_ssk pp x (sk_t s) va r /\ node_at (pp_depth pp) (sk_t s) va
    /\ sec_ssk sk' = honest_ssk pp x tar (va ++ w) r :: ks /\ node_at (pp_depth pp) tar (va ++ w).
Proof.
  intros Hpp Hg Hu Hs Hlt Hno.
  destruct (update_v_update E std_moves m pp tar seed sk (Heap [] [])) as [h' Hv]. rewrite Hu in Hv. cbn [fst snd] in Hv.
  pose proof (tiling_sorted _ _ _ (gsk_til _ _ _ Hg)) as Hsort.
  destruct (update_v_split L _ m pp x tar seed sk sk' _ h' Hpp Hg Hv)
    as (pre & s0 & post & new & mv & H1 & H2 & H3 & H4 & _ & _ & _ & H8 & H9 & va & r & Hs0 & Hn & Hw).
  assert (He : s = s0).
  { assert (Hle : sk_t s0 <= tar) by (destruct H4 as [[H _]|[H _]]; lia).
    assert (Hge : sk_t s0 <= sk_t s).
    { pose proof (Hno s0 ltac:(rewrite H1; apply in_or_app; right; left; reflexivity)). lia. }
    rewrite H1 in Hs. apply in_app_or in Hs as [Hs|[Hs|Hs]]; [|congruence|].
    - exfalso. rewrite H1 in Hsort. clear - Hs Hsort Hge. induction pre as [|b pre IH]; [destruct Hs|].
      cbn [app map] in Hsort. inversion Hsort as [|? ? Hsort' Hf]; subst. destruct Hs as [->|Hs]; [|exact (IH Hs Hsort')].
      rewrite map_app, Forall_app in Hf. destruct Hf as [_ Hf]. apply Forall_inv in Hf. lia.
    - exfalso. assert (In s (sec_ssk sk')) as Hin by (rewrite H2; apply in_or_app; right; exact Hs).
      specialize (H9 _ Hin). lia. }
  subst s0. destruct (Hw Hlt) as (w & ks & -> & _ & Hnt). exists va, r, w, (ks ++ post).
  split; [exact Hs0|]. split; [exact Hn|]. split; [rewrite H2; reflexivity|exact Hnt].
Qed.

Lemma forge_honest {E} (L : env_laws E) (pp : pubparam E) x t tar va w r ks sk' msg :
  pp_ok pp -> node_at (pp_depth pp) tar (va ++ w) -> sec_ssk sk' = honest_ssk pp x tar (va ++ w) r :: ks ->
  forge_from pp (head_of (honest_ssk pp x t va r)) sk' msg = honest_sig pp x t va (msg_scalar pp msg) r.
Proof.
  intros Hpp Hnt Hk. unfold forge_from. rewrite Hk. unfold honest_sig.
  pose proof (last_hv pp x tar (va ++ w) r Hpp (proj2 (node_at_turn _ _ _ Hnt))) as Hlast.
  assert (Hl : last (sk_hvec (honest_ssk pp x tar (va ++ w) r)) g1_zero = g1_mul r (nth (pp_depth pp) (pp_hlist pp) g1_zero)).
  { unfold last_hvector_coeff in Hlast. destruct (sk_hvec (honest_ssk pp x tar (va ++ w) r)) as [|a l]; [discriminate Hlast|].
    rewrite last_nth. unfold nth_res in Hlast. destruct (nth_error (a :: l) (length (a :: l) - 1)) as [y|] eqn:Hy; [|discriminate Hlast].
    injection Hlast as ->. apply nth_error_nth, Hy. }
  rewrite Hl. cbn [head_of hd_t hd_g2r hd_hpoly honest_ssk sk_t sk_g2r sk_hpoly]. f_equal. unfold sig_val. g1_solve L.
Qed.

Lemma read_then_signs : forall (E : env) (L : env_laws E) (P Q : policy) c r r' m m' (pp : pubparam E) pk tar seed sk sk' fr i s k,
  pp_ok pp -> reachable m pp pk sk -> sk_deserialize_m P Q c (r, []) = (Ok sk, (r', fr)) ->
  update m' pp tar seed sk = (Ok tt, sk') ->
  nth_error (sec_ssk sk) i = Some s -> sk_t s < tar -> (forall s', In s' (sec_ssk sk) -> ~ (sk_t s < sk_t s' <= tar)) ->
  (i < caps Q 0 k < length (sec_ssk sk))%nat -> moved Q (caps Q 0 k) = true ->
  exists l hd, In (OldKeys l) fr /\ In hd l /\ hd_t hd < tar
    /\ forall m'' msg, verify m'' (forge_from pp hd sk' msg) pk pp msg = Ok true.
Proof.
  intros E L P Q c r r' m m' pp pk tar seed sk sk' fr i s k Hpp Hr Hd Hu Hi Hlt Hno Hk Hm.
  destruct (reachable_good L m pp pk sk Hpp Hr) as (x & _ & -> & Hg & Hcs).
  pose proof (nth_error_In _ _ Hi) as Hs.
  assert (Hd' : sk_deserialize c r = (Ok sk, r')).
  { destruct (read_same_result E P Q c r []) as [fr' H]. rewrite Hd in H. destruct (sk_deserialize c r). cbn [fst snd] in H. congruence. }
  destruct (read_leaves E P Q c r r' [] sk Hd') as (nw & Hn & Hin). rewrite Hd in Hn. injection Hn as Hfr. rewrite app_nil_r in Hfr. subst nw.
  destruct (delegator_split L m' pp x tar seed sk sk' s Hpp Hg Hu Hs Hlt Hno) as (va & rr & w & ks & Hh & Hn & Hk' & Hnt).
  exists (map head_of (firstn (caps Q 0 k) (sec_ssk sk))), (head_of s). split; [|split; [|split]].
  - apply Hin. right. exists (firstn (caps Q 0 k) (sec_ssk sk)). split; [reflexivity|]. exists k. split; [lia|]. split; [exact Hm|reflexivity].
  - apply in_map. apply (nth_error_In _ i). rewrite nth_error_firstn by lia. exact Hi.
  - exact Hlt.
  - intros m'' msg. rewrite Hh, (forge_honest L pp x (sk_t s) tar va w rr ks sk' msg Hpp Hnt Hk').
    apply (verify_honest L); assumption.
Qed.

Lemma read_then_recovers : forall (E : env) (L : env_laws E) (P Q : policy) c r r' m m' (pp : pubparam E) pk tar seed sk sk' fr s k v w,
  pp_ok pp -> reachable m pp pk sk -> sk_deserialize_m P Q c (r, []) = (Ok sk, (r', fr)) ->
  update m' pp tar seed sk = (Ok tt, sk') ->
  In s (sec_ssk sk) -> sk_t s < tar -> (forall s', In s' (sec_ssk sk) -> ~ (sk_t s < sk_t s' <= tar)) ->
  node_at (pp_depth pp) (sk_t s) v -> node_at (pp_depth pp) tar (v ++ w) ->
  (length w <= caps P 0 k < length (sk_hvec s))%nat -> moved P (caps P 0 k) = true ->
  exists l, In (OldPoints l) fr /\ undo (sk_t s) w l sk' = s.
Proof.
  intros E L P Q c r r' m m' pp pk tar seed sk sk' fr s k v w Hpp Hr Hd Hu Hs Hlt Hno Hv Hvw Hk Hm.
  destruct (reachable_good L m pp pk sk Hpp Hr) as (x & _ & _ & Hg & Hcs).
  assert (Hd' : sk_deserialize c r = (Ok sk, r')).
  { destruct (read_same_result E P Q c r []) as [fr' H]. rewrite Hd in H. destruct (sk_deserialize c r). cbn [fst snd] in H. congruence. }
  destruct (read_leaves E P Q c r r' [] sk Hd') as (nw & Hn & Hin). rewrite Hd in Hn. injection Hn as Hfr. rewrite app_nil_r in Hfr. subst nw.
  destruct (delegator_split L m' pp x tar seed sk sk' s Hpp Hg Hu Hs Hlt Hno) as (va & rr & w' & ks & Hh & Hn & Hk' & Hnt).
  rewrite (node_at_fun _ _ _ _ Hn Hv) in *. clear va Hn.
  assert (w' = w) as -> by (pose proof (node_at_fun _ _ _ _ Hnt Hvw) as He; apply app_inv_head in He; exact He).
  assert (Hw0 : w <> []).
  { intros ->. rewrite app_nil_r in Hvw. pose proof (node_at_inj _ _ _ _ Hv Hvw). lia. }
  assert (Hc0 : (0 < caps P 0 k)%nat) by (destruct w; [contradiction Hw0; reflexivity|cbn [length] in Hk; lia]).
  set (n := caps P 0 k) in *.
  exists (firstn n (sk_hvec s)). split.
  - apply Hin. left. exists s, (firstn n (sk_hvec s)). split; [exact Hs|]. split; [reflexivity|]. exists k. split; [unfold n in *; lia|]. split; [exact Hm|reflexivity].
  - unfold undo. rewrite Hk'. remember (sk_t s) as t0 eqn:Ht0. clear Ht0.
    rewrite Hh in Hk |- *. unfold honest_ssk in *. cbn [sk_t sk_g2r sk_hpoly sk_hvec] in *.
    fold (hv_seg pp (length v)) in Hk |- *. fold (hv_seg pp (length (v ++ w))).
    destruct (node_at_turn _ _ _ Hvw) as [_ Hl]. rewrite app_length in Hl. pose proof (ppo_len pp Hpp) as Hlen.
    rewrite lincomb_firstn by lia. rewrite (lincomb_scale L), firstn_firstn, Nat.min_l by lia.
    assert (Hlc : lincomb w (hv_seg pp (length v)) = lincomb w (skipn (length v + 1) (pp_hlist pp))).
    { unfold hv_seg. apply lincomb_firstn. lia. }
    rewrite Hlc, (node_val_app L) by (auto; lia). f_equal.
    + apply (minus_eq L); [|g1_solve L]. apply (g1_mul_insub L).
      assert (Hf : Forall (fun h => g1_insub h = true) (skipn (length v + 1) (pp_hlist pp))).
      { pose proof (ppo_hlist pp Hpp) as Hf. rewrite <- (firstn_skipn (length v + 1) (pp_hlist pp)), Forall_app in Hf. apply Hf. }
      apply (lincomb_insub L), Hf.
    + rewrite <- (firstn_skipn (length w) (map (g1_mul rr) (hv_seg pp (length v)))) at 2. f_equal.
      rewrite skipn_map. f_equal. unfold hv_seg. rewrite skipn_firstn_comm, skipn_skipn, app_length.
      replace (pp_depth pp - length v - length w)%nat with (pp_depth pp - (length v + length w))%nat by lia. f_equal. f_equal. lia.
Qed.

(** * A read that ends too early *)
Lemma read_slice n b rest : length b = n -> (0 < n)%nat -> read_exact n (rpush (b ++ rest) []) = (Ok b, rpush rest []).
Proof.
  intros Hl Hn. unfold read_exact. destruct n as [|n]; [lia|]. destruct b as [|a b]; [discriminate Hl|].
  cbn [app rpush read_exact_loop]. change (a :: b ++ rest) with ((a :: b) ++ rest). rewrite app_length.
  replace (S n <=? length (a :: b) + length rest)%nat with true by lia.
  rewrite <- Hl, firstn_app, Nat.sub_diag, firstn_all, app_nil_r, skipn_app, Nat.sub_diag, skipn_all. reflexivity.
Qed.
Lemma read_slice_short n b : (length b < n)%nat -> read_exact n (rpush b []) = (Err E_IO, []).
Proof.
  intros Hl. unfold read_exact. destruct n as [|n]; [lia|]. destruct b as [|a b]; [reflexivity|].
  cbn [rpush read_exact_loop]. replace (S n <=? length (a :: b))%nat with false by lia.
  destruct (S n - length (a :: b))%nat eqn:He; [lia|reflexivity].
Qed.
Lemma g1_size_pos c : (0 < g1_size c)%nat.
Proof. destruct c; cbn; lia. Qed.

Lemma hv_read_m_cut {E} (L : env_laws E) P c : forall (l1 l : list (G1 E)) cap n tail fr,
  Forall (fun h => g1_insub h = true) l1 -> (length l1 < n)%nat -> (length tail < g1_size c)%nat ->
  exists fr', hv_read_m P c n (l, cap) (rpush (concat (map (g1_enc c) l1) ++ tail) [], fr)
    = (Err E_IO, ([], OldPoints (l ++ l1) :: fr')).
Proof.
  induction l1 as [|a l1 IH]; intros l cap n tail fr Hf Hn Ht; (destruct n as [|n]; [cbn [length] in Hn; lia|]);
    cbn [map concat app hv_read_m]; unfold rd; cbn [fst snd]; unfold g1_read, sbind, slift.
  - rewrite read_slice_short by exact Ht. cbn [fst snd]. rewrite app_nil_r. exists fr. reflexivity.
  - inversion Hf as [|? ? Ha Hf']; subst. rewrite <- app_assoc, read_slice by (apply (lc1_len E L) || apply g1_size_pos).
    rewrite (lc1_rt E L) by exact Ha. cbn [fst snd]. unfold mem, vec_push. cbn [fst snd length] in *.
    destruct (length l <? cap)%nat; edestruct IH as [fr' H]; try exact Hf'; try exact Ht; try (apply Nat.succ_lt_mono, Hn);
      rewrite H, <- app_assoc; exists fr'; reflexivity.
Qed.

Lemma read_cut_leaves : forall (E : env) (L : env_laws E) (P : policy) c (x : subkey E) j i fr,
  wf_ssk x -> (j < length (sk_hvec x))%nat -> (i < g1_size c)%nat ->
  exists fr', ssk_deserialize_m P c (rpush (firstn (5 + g2_size c + (1 + j) * g1_size c + i) (ssk_blob c x)) [], fr)
    = (Err E_IO, ([], OldPoints (firstn j (sk_hvec x)) :: fr')).
Proof.
  intros E L P c x j i fr [Ht Hl H1 H2 Hhv] Hj Hi.
  set (hv := sk_hvec x) in *.
  assert (Hb : firstn (5 + g2_size c + (1 + j) * g1_size c + i) (ssk_blob c x)
    = be4 (sk_t x) ++ [N.of_nat (length hv)] ++ g2_enc c (sk_g2r x) ++ g1_enc c (sk_hpoly x)
      ++ concat (map (g1_enc c) (firstn j hv)) ++ firstn i (concat (map (g1_enc c) (skipn j hv)))).
  { unfold ssk_blob. fold hv. rewrite N.mod_small by lia.
    rewrite <- (firstn_skipn j hv) at 2. rewrite map_app, concat_app.
    rewrite !app_assoc. rewrite (firstn_app _ _ (concat (map (g1_enc c) (skipn j hv)))).
    assert (Hlen : length (((((be4 (sk_t x) ++ [N.of_nat (length hv)]) ++ g2_enc c (sk_g2r x)) ++ g1_enc c (sk_hpoly x))
        ++ concat (map (g1_enc c) (firstn j hv)))) = (5 + g2_size c + (1 + j) * g1_size c)%nat).
    { rewrite !app_length, (lc1_len E L), (lc2_len E L), be4_len. cbn [length].
      assert (Hc : forall l : list (G1 E), length (concat (map (g1_enc c) l)) = (length l * g1_size c)%nat).
      { induction l as [|a l IH]; [reflexivity|]. cbn [map concat length]. rewrite app_length, IH, (lc1_len E L). lia. }
      rewrite Hc, firstn_length, Nat.min_l by lia. lia. }
    rewrite Hlen. rewrite firstn_all2 by (rewrite Hlen; lia). f_equal. f_equal. lia. }
  rewrite Hb. unfold ssk_deserialize_m, sbind, rd, slift. cbn [fst snd].
  rewrite read_slice by (apply be4_len || lia). cbn [fst snd]. rewrite from_be4_be4 by lia.
  replace (sk_t x =? 0) with false by lia. cbn [app rpush read1 fst snd].
  unfold g2_read, g1_read, sbind, slift.
  rewrite read_slice by (apply (lc2_len E L) || (destruct c; cbn; lia)). cbn [fst snd]. rewrite (lc2_rt E L) by exact H1.
  cbn [fst snd]. rewrite read_slice by (apply (lc1_len E L) || apply g1_size_pos). rewrite (lc1_rt E L) by exact H2. cbn [fst snd].
  rewrite Nat2N.id.
  destruct (hv_read_m_cut L P c (firstn j hv) [] 0 (length hv) (firstn i (concat (map (g1_enc c) (skipn j hv)))) fr) as [fr' ->].
  - apply Forall_firstn, Hhv.
  - rewrite firstn_length. lia.
  - rewrite firstn_length. lia.
  - exists fr'. reflexivity.
Qed.

Lemma read_then_child : forall (E : env) (L : env_laws E) (Q : policy) c r r' m m' (pp : pubparam E) pk tar seed sk sk' fr s v b,
  pp_ok pp -> reachable m pp pk sk -> sk_deserialize_m (std4 (fun _ => true)) Q c (r, []) = (Ok sk, (r', fr)) ->
  update m' pp tar seed sk = (Ok tt, sk') ->
  In s (sec_ssk sk) -> sk_t s < tar -> (forall s', In s' (sec_ssk sk) -> ~ (sk_t s < sk_t s' <= tar)) ->
  node_at (pp_depth pp) (sk_t s) v -> node_at (pp_depth pp) tar (v ++ [b]) -> (length v + 4 < pp_depth pp)%nat ->
  exists l, In (OldPoints l) fr /\ undo (sk_t s) [b] l sk' = s.
Proof.
  intros E L Q c r r' m m' pp pk tar seed sk sk' fr s v b Hpp Hr Hd Hu Hs Hlt Hno Hv Hvb Hl.
  eapply (read_then_recovers E L (std4 (fun _ => true)) Q c r r' m m' pp pk tar seed sk sk' fr s 1 v [b]); try eassumption; [|reflexivity].
  destruct (reachable_good L m pp pk sk Hpp Hr) as (x & _ & _ & Hg & Hcs).
  destruct (delegator_split L m' pp x tar seed sk sk' s Hpp Hg Hu Hs Hlt Hno) as (va & rr & w' & ks & Hh & Hn & _ & _).
  rewrite (node_at_fun _ _ _ _ Hn Hv) in Hh. rewrite Hh. unfold honest_ssk. cbn [sk_hvec].
  fold (hv_seg pp (length v)). rewrite map_length, hv_seg_len by exact Hpp. change (caps _ 0 1) with 4%nat. cbn [length]. lia.
Qed.
