(** Proofs for C127: what the _kat tests of serdes.rs ask of the point codec. *)
From Verif Require Import Base Env SubKey Keys Sig IO Serdes Programs Tests KatTests SpecSer SpecKat SerProps.
Local Open Scope N_scope.

(** * Reading from a slice *)
Lemma read_slice n b : (0 < n)%nat ->
  read_exact n (rpush b []) = if (n <=? length b)%nat then (Ok (firstn n b), rpush (skipn n b) []) else (Err E_IO, []).
Proof.
  intros Hn. unfold read_exact. destruct n as [|n]; [lia|]. destruct b as [|x b]; [reflexivity|]. cbn [rpush].
  cbn [read_exact_loop]. destruct (S n <=? length (x :: b))%nat eqn:Hl; [reflexivity|].
  apply Nat.leb_gt in Hl. destruct (S n - length (x :: b))%nat eqn:Hd; [lia|]. reflexivity.
Qed.
Lemma valid_cs_iff cs : valid_cs cs = true <-> supported cs.
Proof.
  unfold valid_cs, supported, VALID_CIPHERSUITE. cbn [existsb]. rewrite !Bool.orb_true_iff, !N.eqb_eq. intuition discriminate.
Qed.
Lemma skipn_skipn' {A} i j (l : list A) : skipn i (skipn j l) = skipn (j + i) l.
Proof. revert l. induction j; intros l; [reflexivity|]. destruct l; [destruct i; reflexivity|apply IHj]. Qed.
Lemma hd_firstn (b : bytes) : nth 0 (firstn 1 b) 0 = nth 0 b 0.
Proof. destruct b; reflexivity. Qed.

Section reads.
Context {E : env}.

Lemma pk_reads c b (pk : pubkey E) : from_slice (pk_deserialize c) b = Ok pk <->
  (1 + g2_size c <= length b)%nat /\ supported (pk_cs pk) /\ pk_cs pk = nth 0 b 0
  /\ g2_dec c (slice 1 (g2_size c) b) = Some (pk_pk pk).
Proof.
  assert (Hs : (0 < g2_size c)%nat) by (destruct c; cbn; lia).
  unfold from_slice, pk_deserialize, sbind. rewrite read_slice by lia.
  destruct (1 <=? length b)%nat eqn:H1; [|apply Nat.leb_gt in H1; split; [discriminate|intros (? & _); lia]].
  apply Nat.leb_le in H1. rewrite hd_firstn. unfold slift.
  destruct (valid_cs (nth 0 b 0)) eqn:Hv; cbn [negb fst].
  2:{ split; [discriminate|]. intros (_ & Hc & He & _). rewrite <- He in Hv. apply valid_cs_iff in Hc. congruence. }
  unfold g2_read, sbind. rewrite read_slice by exact Hs. rewrite skipn_length.
  destruct (g2_size c <=? length b - 1)%nat eqn:H2; [|apply Nat.leb_gt in H2; split; [discriminate|intros (? & _); lia]].
  apply Nat.leb_le in H2. unfold slift. fold (slice 1 (g2_size c) b). unfold slice.
  destruct (g2_dec c (firstn (g2_size c) (skipn 1 b))) as [x|] eqn:Hx; cbn [fst sret].
  - split.
    + intros [= <-]. cbn. rewrite <- valid_cs_iff. repeat split; auto; lia.
    + intros (_ & _ & He & Hp). destruct pk as [cs y]. cbn in *. subst cs. injection Hp as ->. reflexivity.
  - split; [discriminate|]. intros (_ & _ & _ & Hp). discriminate.
Qed.

Lemma pop_reads c b (pop : proof E) : from_slice (pop_deserialize c) b = Ok pop <->
  (1 + g1_size c <= length b)%nat /\ supported (pop_cs pop) /\ pop_cs pop = nth 0 b 0
  /\ g1_dec c (slice 1 (g1_size c) b) = Some (pop_pop pop).
Proof.
  assert (Hs : (0 < g1_size c)%nat) by (destruct c; cbn; lia).
  unfold from_slice, pop_deserialize, sbind. rewrite read_slice by lia.
  destruct (1 <=? length b)%nat eqn:H1; [|apply Nat.leb_gt in H1; split; [discriminate|intros (? & _); lia]].
  apply Nat.leb_le in H1. rewrite hd_firstn. unfold slift.
  destruct (valid_cs (nth 0 b 0)) eqn:Hv; cbn [negb fst].
  2:{ split; [discriminate|]. intros (_ & Hc & He & _). rewrite <- He in Hv. apply valid_cs_iff in Hc. congruence. }
  unfold g1_read, sbind. rewrite read_slice by exact Hs. rewrite skipn_length.
  destruct (g1_size c <=? length b - 1)%nat eqn:H2; [|apply Nat.leb_gt in H2; split; [discriminate|intros (? & _); lia]].
  apply Nat.leb_le in H2. unfold slift, slice.
  destruct (g1_dec c (firstn (g1_size c) (skipn 1 b))) as [x|] eqn:Hx; cbn [fst sret].
  - split.
    + intros [= <-]. cbn. rewrite <- valid_cs_iff. repeat split; auto; lia.
    + intros (_ & _ & He & Hp). destruct pop as [cs y]. cbn in *. subst cs. injection Hp as ->. reflexivity.
  - split; [discriminate|]. intros (_ & _ & _ & Hp). discriminate.
Qed.

Lemma sig_reads c b (s : signature E) : from_slice (sig_deserialize c) b = Ok s <->
  c = true /\ (149 <= length b)%nat /\ supported (sig_cs s) /\ sig_cs s = nth 0 b 0
  /\ sig_time s = from_be4 (slice 1 4 b) /\ sig_time s <> 0
  /\ g2_dec true (slice 5 48 b) = Some (sig_1 s) /\ g1_dec true (slice 53 96 b) = Some (sig_2 s).
Proof.
  unfold from_slice, sig_deserialize, sbind. rewrite read_slice by lia.
  destruct (1 <=? length b)%nat eqn:H1; [|apply Nat.leb_gt in H1; split; [discriminate|intros (_ & ? & _); lia]].
  apply Nat.leb_le in H1. rewrite hd_firstn. rewrite read_slice by lia. rewrite skipn_length.
  destruct (4 <=? length b - 1)%nat eqn:H4; [|apply Nat.leb_gt in H4; split; [discriminate|intros (_ & ? & _); lia]].
  apply Nat.leb_le in H4. rewrite skipn_skipn'. fold (slice 1 4 b). unfold slift.
  destruct (from_be4 (slice 1 4 b) =? 0) eqn:Ht; cbn [fst].
  { apply N.eqb_eq in Ht. split; [discriminate|]. intros (_ & _ & _ & _ & Hs & Hn & _). congruence. }
  apply N.eqb_neq in Ht.
  destruct (valid_cs (nth 0 b 0)) eqn:Hv; cbn [negb fst].
  2:{ split; [discriminate|]. intros (_ & _ & Hc & He & _). rewrite <- He in Hv. apply valid_cs_iff in Hc. congruence. }
  unfold g2_read, sbind. rewrite read_slice by (destruct c; cbn; lia). rewrite skipn_length.
  destruct (g2_size c <=? length b - (1 + 4))%nat eqn:H5.
  2:{ apply Nat.leb_gt in H5. split; [discriminate|]. intros (-> & ? & _). cbn [g2_size] in H5. lia. }
  apply Nat.leb_le in H5. rewrite skipn_skipn'. unfold slift. fold (slice (1 + 4) (g2_size c) b).
  destruct (g2_dec c (slice (1 + 4) (g2_size c) b)) as [x|] eqn:Hx; cbn [fst].
  2:{ split; [discriminate|]. intros (-> & _ & _ & _ & _ & _ & Hp & _). change (slice 5 48 b) with (slice (1 + 4) (g2_size true) b) in Hp. congruence. }
  destruct c; cbn [negb fst]; [|split; [discriminate|intros (? & _); discriminate]].
  cbn [g2_size g1_size] in *. unfold g1_read, sbind. rewrite read_slice by (cbn; lia). rewrite skipn_length.
  cbn [g1_size].
  destruct (96 <=? length b - (1 + 4 + 48))%nat eqn:H6.
  2:{ apply Nat.leb_gt in H6. split; [discriminate|]. intros (_ & ? & _). lia. }
  apply Nat.leb_le in H6. unfold slift. fold (slice (1 + 4 + 48) 96 b).
  change (slice (1 + 4) 48 b) with (slice 5 48 b) in *. change (slice (1 + 4 + 48) 96 b) with (slice 53 96 b).
  destruct (g1_dec true (slice 53 96 b)) as [y|] eqn:Hy; cbn [fst sret].
  - rewrite Hx. split.
    + intros [= <-]. cbn. rewrite <- valid_cs_iff. repeat split; auto. lia.
    + intros (_ & _ & _ & He & Ht' & _ & Hp & Hq). destruct s as [cs t p q]. cbn in *. subst cs t. injection Hp as ->. injection Hq as ->. reflexivity.
  - split; [discriminate|]. intros (_ & _ & _ & _ & _ & _ & _ & Hp). discriminate.
Qed.
End reads.

(** * The assertions *)
Lemma expect_ok_iff {A} (r : res A) : expect_ok r = Ok tt <-> exists a, r = Ok a.
Proof. destruct r; cbn; split; try discriminate; eauto; intros [? H]; discriminate. Qed.
Lemma expect_err_iff {A} (r : res A) : is_panic r = false -> (expect_err r = Ok tt <-> ~ exists a, r = Ok a).
Proof.
  destruct r; cbn; intros Hp; split; try discriminate; auto.
  - intros H. destruct H. eauto.
  - intros _ [? H]. discriminate.
Qed.
Lemma for_each_iff {A} (l : list A) f : for_each l f = Ok tt <-> forall x, In x l -> f x = Ok tt.
Proof.
  induction l as [|a l IH]; cbn [for_each]; [split; [intros _ ? []|reflexivity]|].
  destruct (f a) as [[]|e|p] eqn:Ha; cbn [bind].
  - rewrite IH. split; intros H x; [intros [<-|]; auto|]. intros Hx. apply H. right. exact Hx.
  - split; [discriminate|]. intros H. rewrite <- Ha. rewrite H by (left; reflexivity). reflexivity.
  - split; [discriminate|]. intros H. rewrite <- Ha. rewrite H by (left; reflexivity). reflexivity.
Qed.
Lemma seq_iff (r : res unit) (k : res unit) : (let! _ := r in k) = Ok tt <-> r = Ok tt /\ k = Ok tt.
Proof. destruct r as [[]|e|p]; cbn [bind]; intuition discriminate. Qed.

Lemma takes_or_refuses1 {E} c b : takes1 E c b \/ refuses1 E c b.
Proof. unfold takes1, refuses1. destruct (g1_dec c b); eauto. Qed.
Lemma takes_or_refuses2 {E} c b : takes2 E c b \/ refuses2 E c b.
Proof. unfold takes2, refuses2. destruct (g2_dec c b); eauto. Qed.
Lemma not_both1 {E} c b : takes1 E c b -> refuses1 E c b -> False.
Proof. unfold takes1, refuses1. intros [x H]. congruence. Qed.
Lemma not_both2 {E} c b : takes2 E c b -> refuses2 E c b -> False.
Proof. unfold takes2, refuses2. intros [x H]. congruence. Qed.

(** * Outcomes of the reads *)
Section outcomes.
Context {E : env}.

Lemma pk_ok c cs v : supported cs ->
  (expect_ok (from_slice (@pk_deserialize E c) (cs :: v)) = Ok tt
   <-> (g2_size c <= length v)%nat /\ takes2 E c (firstn (g2_size c) v)).
Proof.
  intros Hc. rewrite expect_ok_iff. unfold takes2. split.
  - intros [a H]. apply pk_reads in H as (H1 & _ & _ & H2). cbn [length] in H1. split; [lia|eauto].
  - intros [H1 [x H2]]. exists (PubKey cs x). apply pk_reads. cbn. repeat split; auto. lia.
Qed.
Lemma pk_err c cs v :
  (expect_err (from_slice (@pk_deserialize E c) (cs :: v)) = Ok tt
   <-> ~ supported cs \/ (length v < g2_size c)%nat \/ refuses2 E c (firstn (g2_size c) v)).
Proof.
  rewrite expect_err_iff by (unfold from_slice; apply pk_deserialize_checked). split.
  - intros H. destruct (valid_cs cs) eqn:Hv; [|left; intros Hs; apply valid_cs_iff in Hs; congruence]. apply valid_cs_iff in Hv.
    right. destruct (le_lt_dec (g2_size c) (length v)) as [Hl|]; [|left; assumption]. right.
    destruct (@takes_or_refuses2 E c (firstn (g2_size c) v)) as [Ht|]; [|assumption]. destruct H.
    apply expect_ok_iff, pk_ok; auto.
  - intros H [a Ha]. apply pk_reads in Ha as (H1 & H2 & H3 & H4). cbn in H3, H1. rewrite <- H3 in H.
    destruct H as [H|[H|H]]; [auto|lia|]. unfold refuses2 in H. unfold slice in H4. cbn [skipn] in H4. congruence.
Qed.
Lemma pop_ok c cs v : supported cs ->
  (expect_ok (from_slice (@pop_deserialize E c) (cs :: v)) = Ok tt
   <-> (g1_size c <= length v)%nat /\ takes1 E c (firstn (g1_size c) v)).
Proof.
  intros Hc. rewrite expect_ok_iff. unfold takes1. split.
  - intros [a H]. apply pop_reads in H as (H1 & _ & _ & H2). cbn [length] in H1. split; [lia|eauto].
  - intros [H1 [x H2]]. exists (Pop cs x). apply pop_reads. cbn. repeat split; auto. lia.
Qed.
Lemma pop_err c cs v :
  (expect_err (from_slice (@pop_deserialize E c) (cs :: v)) = Ok tt
   <-> ~ supported cs \/ (length v < g1_size c)%nat \/ refuses1 E c (firstn (g1_size c) v)).
Proof.
  rewrite expect_err_iff by (unfold from_slice; apply pop_deserialize_checked). split.
  - intros H. destruct (valid_cs cs) eqn:Hv; [|left; intros Hs; apply valid_cs_iff in Hs; congruence]. apply valid_cs_iff in Hv.
    right. destruct (le_lt_dec (g1_size c) (length v)) as [Hl|]; [|left; assumption]. right.
    destruct (@takes_or_refuses1 E c (firstn (g1_size c) v)) as [Ht|]; [|assumption]. destruct H.
    apply expect_ok_iff, pop_ok; auto.
  - intros H [a Ha]. apply pop_reads in Ha as (H1 & H2 & H3 & H4). cbn in H3, H1. rewrite <- H3 in H.
    destruct H as [H|[H|H]]; [auto|lia|]. unfold refuses1 in H. unfold slice in H4. cbn [skipn] in H4. congruence.
Qed.

(** The strings of the signature tests behind ciphersuite and time. *)
Definition pts (v1 v2 : bytes) : bytes := v1 ++ v2.
Lemma de_sig_slices cs t v1 v2 : length t = 4%nat ->
  slice 1 4 (cs :: t ++ v1 ++ v2) = t /\ slice 5 48 (cs :: t ++ v1 ++ v2) = slice 0 48 (pts v1 v2)
  /\ slice 53 96 (cs :: t ++ v1 ++ v2) = slice 48 96 (pts v1 v2).
Proof.
  intros Ht. unfold slice, pts. do 4 (destruct t as [|? t]; [discriminate|]). destruct t; [|discriminate].
  cbn [app skipn firstn]. repeat split; reflexivity.
Qed.
Lemma sig_ok cs t v1 v2 : supported cs -> length t = 4%nat -> from_be4 t <> 0 ->
  (expect_ok (de_sig E cs t v1 v2) = Ok tt
   <-> (144 <= length (pts v1 v2))%nat /\ takes2 E true (slice 0 48 (pts v1 v2)) /\ takes1 E true (slice 48 96 (pts v1 v2))).
Proof.
  intros Hc Ht Hz. destruct (de_sig_slices cs t v1 v2 Ht) as (S1 & S2 & S3). unfold de_sig. rewrite expect_ok_iff. unfold takes1, takes2. split.
  - intros [a H]. apply sig_reads in H as (_ & H1 & _ & _ & _ & _ & H2 & H3). rewrite S2 in H2. rewrite S3 in H3.
    unfold pts at 1. cbn [length] in H1. rewrite app_length in H1. split; [lia|eauto].
  - intros (H1 & [x H2] & [y H3]). exists (Signature cs (from_be4 t) x y). apply sig_reads. rewrite S1, S2, S3. cbn [sig_cs sig_time sig_1 sig_2 nth length].
    unfold pts in H1. rewrite app_length, Ht. repeat split; auto. lia.
Qed.
Lemma sig_err cs t v1 v2 : length t = 4%nat ->
  (expect_err (de_sig E cs t v1 v2) = Ok tt
   <-> ~ supported cs \/ from_be4 t = 0 \/ (length (pts v1 v2) < 144)%nat
       \/ refuses2 E true (slice 0 48 (pts v1 v2)) \/ refuses1 E true (slice 48 96 (pts v1 v2))).
Proof.
  intros Ht. rewrite expect_err_iff by (unfold de_sig, from_slice; apply sig_deserialize_checked). split.
  - intros H. destruct (valid_cs cs) eqn:Hv; [|left; intros Hs; apply valid_cs_iff in Hs; congruence]. apply valid_cs_iff in Hv.
    right. destruct (N.eq_dec (from_be4 t) 0) as [|Hz]; [left; assumption|right].
    destruct (le_lt_dec 144 (length (pts v1 v2))) as [Hl|]; [|left; assumption]. right.
    destruct (@takes_or_refuses2 E true (slice 0 48 (pts v1 v2))) as [H2|]; [|left; assumption]. right.
    destruct (@takes_or_refuses1 E true (slice 48 96 (pts v1 v2))) as [H1|]; [|assumption]. destruct H.
    apply expect_ok_iff, sig_ok; auto.
  - intros H [a Ha]. unfold de_sig in Ha. apply sig_reads in Ha as (_ & H1 & H2 & H3 & H4 & H5 & H6 & H7).
    destruct (de_sig_slices cs t v1 v2 Ht) as (S1 & S2 & S3). rewrite S1 in H4. rewrite S2 in H6. rewrite S3 in H7. cbn [nth] in H3.
    cbn [length] in H1. rewrite app_length in H1. unfold pts at 1 in H. unfold refuses1, refuses2 in H. rewrite <- H3, <- H4 in H.
    destruct H as [H|[H|[H|[H|H]]]]; [auto|auto|lia|congruence|congruence].
Qed.
End outcomes.

(** * The tests *)
Lemma for_each_cons {A} (x : A) l f : for_each (x :: l) f = Ok tt <-> f x = Ok tt /\ for_each l f = Ok tt.
Proof. cbn [for_each]. apply seq_iff. Qed.
Lemma for_each_nil {A} (f : A -> res unit) : for_each [] f = Ok tt <-> True.
Proof. cbn. intuition. Qed.
Lemma both_cs (f : N -> res unit) P : (forall cs, supported cs -> (f cs = Ok tt <-> P)) -> (for_each VALID_CIPHERSUITE f = Ok tt <-> P).
Proof.
  intros H. rewrite for_each_iff. split.
  - intros H1. apply (H 0); [left; reflexivity|]. apply H1. left. reflexivity.
  - intros HP x [<-|[<-|[]]]; apply H; auto; [left|right]; reflexivity.
Qed.
Lemma bad_cs (f : N -> res unit) : (forall cs, ~ supported cs -> f cs = Ok tt) -> for_each INVALID_CIPHERSUITE f = Ok tt.
Proof. intros H. apply for_each_iff. intros x [<-|[<-|[]]]; apply H; intros [H0|H0]; discriminate. Qed.

Section tests.
Context {E : env}.

Lemma pk_oks c v : for_each VALID_CIPHERSUITE (fun cs => expect_ok (from_slice (@pk_deserialize E c) (cs :: v))) = Ok tt
  <-> (g2_size c <= length v)%nat /\ takes2 E c (firstn (g2_size c) v).
Proof. apply both_cs. intros cs Hc. apply pk_ok, Hc. Qed.
Lemma pk_errs c v : for_each VALID_CIPHERSUITE (fun cs => expect_err (from_slice (@pk_deserialize E c) (cs :: v))) = Ok tt
  <-> (length v < g2_size c)%nat \/ refuses2 E c (firstn (g2_size c) v).
Proof. apply both_cs. intros cs Hc. rewrite pk_err. tauto. Qed.
Lemma pk_bads c v : for_each INVALID_CIPHERSUITE (fun cs => expect_err (from_slice (@pk_deserialize E c) (cs :: v))) = Ok tt.
Proof. apply bad_cs. intros cs Hc. rewrite pk_err. tauto. Qed.
Lemma pop_oks c v : for_each VALID_CIPHERSUITE (fun cs => expect_ok (from_slice (@pop_deserialize E c) (cs :: v))) = Ok tt
  <-> (g1_size c <= length v)%nat /\ takes1 E c (firstn (g1_size c) v).
Proof. apply both_cs. intros cs Hc. apply pop_ok, Hc. Qed.
Lemma pop_errs c v : for_each VALID_CIPHERSUITE (fun cs => expect_err (from_slice (@pop_deserialize E c) (cs :: v))) = Ok tt
  <-> (length v < g1_size c)%nat \/ refuses1 E c (firstn (g1_size c) v).
Proof. apply both_cs. intros cs Hc. rewrite pop_err. tauto. Qed.
Lemma pop_bads c v : for_each INVALID_CIPHERSUITE (fun cs => expect_err (from_slice (@pop_deserialize E c) (cs :: v))) = Ok tt.
Proof. apply bad_cs. intros cs Hc. rewrite pop_err. tauto. Qed.

(** What [sig_err] says of a pair of strings; as a function of the pair. *)
Definition pair_refused (v1 v2 : bytes) : Prop :=
  (length (pts v1 v2) < 144)%nat \/ refuses2 E true (slice 0 48 (pts v1 v2)) \/ refuses1 E true (slice 48 96 (pts v1 v2)).
Lemma time_ok : from_be4 TIME <> 0.
Proof. discriminate. Qed.
Lemma sig_oks v1 v2 : for_each VALID_CIPHERSUITE (fun cs => expect_ok (de_sig E cs TIME v1 v2)) = Ok tt
  <-> (144 <= length (pts v1 v2))%nat /\ takes2 E true (slice 0 48 (pts v1 v2)) /\ takes1 E true (slice 48 96 (pts v1 v2)).
Proof. apply both_cs. intros cs Hc. apply sig_ok; [exact Hc|reflexivity|exact time_ok]. Qed.
Lemma sig_errs v1 v2 : for_each VALID_CIPHERSUITE (fun cs => expect_err (de_sig E cs TIME v1 v2)) = Ok tt <-> pair_refused v1 v2.
Proof. apply both_cs. intros cs Hc. rewrite sig_err by reflexivity. pose proof time_ok. unfold pair_refused. tauto. Qed.

Ltac short H := exfalso; vm_compute in H; lia.
Ltac leaf :=
  first [ exact I | vm_compute; lia
        | match goal with H : ?P |- ?Q => first [ exact H | destruct H as [H|H]; [short H|exact H] ] end ].
Ltac pick := first [ right; leaf | left; vm_compute; lia | leaf ].

Lemma pk_kat : test_pk_serialization_kat E = Ok tt <-> pk_asks E.
Proof.
  unfold test_pk_serialization_kat, INVALID_G1_POINTS, VALID_G1_POINTS. cbv zeta.
  rewrite !seq_iff, !for_each_cons, !for_each_nil, !pk_oks, !pk_errs, !pk_bads. unfold pk_asks.
  split; intros H; decompose [and] H; clear H; repeat split; pick.
Qed.
Lemma pop_kat : test_pop_serialization_kat E = Ok tt <-> pop_asks E.
Proof.
  unfold test_pop_serialization_kat, INVALID_G2_POINTS, VALID_G2_POINTS. cbv zeta. cbn [firstn].
  rewrite !seq_iff, !for_each_cons, !for_each_nil, !pop_oks, !pop_errs, !pop_bads. unfold pop_asks.
  split; intros H; decompose [and] H; clear H; repeat split; pick.
Qed.
Lemma sig_valid_kat : test_sig_serialization_kat_valid E = Ok tt <->
  takes2 E true (0xc0 :: zeros 47) /\ takes2 E true VALID_G1_COM /\ takes1 E true (0xc0 :: zeros 95) /\ takes1 E true VALID_G2_COM.
Proof.
  unfold test_sig_serialization_kat_valid, VALID_G1_POINTS, VALID_G2_POINTS. cbn [firstn].
  rewrite !for_each_cons, !for_each_nil, !sig_oks.
  split; intros H; decompose [and] H; clear H; repeat split; pick.
Qed.
Lemma sig_const_kat : test_sig_serialization_kat_invalid_const E = Ok tt <->
  (refuses2 E true (0xc0 :: zeros 47) \/ refuses1 E true (0x40 :: zeros 95))
  /\ (refuses2 E true (0x40 :: zeros 47) \/ refuses1 E true (zeros 48 ++ 0xc0 :: zeros 47)).
Proof.
  unfold test_sig_serialization_kat_invalid_const. rewrite !seq_iff, !sig_errs. unfold pair_refused.
  split.
  - intros ([H|H] & [H'|H'] & _); try (vm_compute in H; lia); try (vm_compute in H'; lia). split; [exact H|exact H'].
  - intros (H & H'). split; [right; exact H|]. split; [right; exact H'|]. split; apply for_each_iff; intros v1 _; apply for_each_iff; intros v2 _.
    + apply bad_cs. intros cs Hc. apply sig_err; [reflexivity|]. left. exact Hc.
    + apply (both_cs _ True); [|exact I]. intros cs Hc. rewrite sig_err by reflexivity. split; [auto|]. intros _. right. left. reflexivity.
Qed.
Lemma all_iff l1 l2 (f : N -> bytes -> bytes -> res (signature E)) (P : bytes -> bytes -> Prop) :
  (forall v1 v2, for_each VALID_CIPHERSUITE (fun cs => expect_err (f cs v1 v2)) = Ok tt <-> P v1 v2) ->
  (for_each l1 (fun v1 => for_each l2 (fun v2 => for_each VALID_CIPHERSUITE (fun cs => expect_err (f cs v1 v2)))) = Ok tt
   <-> forall v1 v2, In v1 l1 -> In v2 l2 -> P v1 v2).
Proof.
  intros H. rewrite for_each_iff. split.
  - intros H1 v1 v2 I1 I2. apply H. exact (proj1 (for_each_iff _ _) (H1 v1 I1) v2 I2).
  - intros H1 v1 I1. apply for_each_iff. intros v2 I2. apply H, H1; assumption.
Qed.
Lemma sig_points_kat : pk_asks E -> pop_asks E ->
  (test_sig_serialization_kat_invalid_points E = Ok tt <-> sig_asks E).
Proof.
  intros Hk Hp. unfold test_sig_serialization_kat_invalid_points. cbv zeta. rewrite !seq_iff.
  rewrite !(all_iff _ _ (fun cs v1 v2 => de_sig E cs TIME v1 v2) pair_refused) by (intros; apply sig_errs).
  rewrite (all_iff _ _ (fun cs v1 v2 => de_sig E cs TIME v2 v1) (fun v1 v2 => pair_refused v2 v1)) by (intros; apply sig_errs).
  unfold pair_refused.
  destruct Hk as (K1 & _ & K2 & K3 & K4 & K5 & K6 & K7). destruct Hp as (P1 & P2 & P3 & P4 & P5 & P6 & P7 & P8).
  split.
  - intros (H1 & H2 & H3 & H4).
    pose proof (H1 INVALID_G1_ZERO_COM_LEN VALID_G2_ZERO_UNCOM ltac:(cbn [In INVALID_G1_POINTS]; tauto) ltac:(cbn [In VALID_G2_POINTS]; tauto)) as A1.
    pose proof (H3 INVALID_G1_ZERO_COM_LEN INVALID_G2_ZERO_DATA_2 ltac:(cbn [In INVALID_G1_POINTS]; tauto) ltac:(cbn [In INVALID_G2_POINTS]; tauto)) as A2.
    pose proof (H1 INVALID_G1_LEN VALID_G2_ZERO_UNCOM ltac:(cbn [In INVALID_G1_POINTS]; tauto) ltac:(cbn [In VALID_G2_POINTS]; tauto)) as B1.
    pose proof (H3 INVALID_G1_LEN INVALID_G2_ZERO_DATA_2 ltac:(cbn [In INVALID_G1_POINTS]; tauto) ltac:(cbn [In INVALID_G2_POINTS]; tauto)) as B2.
    clear H1 H2 H3. unfold VALID_G1_POINTS, VALID_G2_POINTS in H4.
    pose proof (fun v1 H => H4 v1 VALID_G2_ZERO_COM H (or_introl eq_refl)) as C.
    pose proof (fun v1 H => H4 v1 VALID_G2_COM H (or_intror (or_introl eq_refl))) as D. clear H4.
    pose proof (C _ (or_introl eq_refl)) as C1. pose proof (C _ (or_intror (or_introl eq_refl))) as C2.
    pose proof (C _ (or_intror (or_intror (or_introl eq_refl)))) as C3. clear C.
    pose proof (D _ (or_introl eq_refl)) as D1. pose proof (D _ (or_intror (or_introl eq_refl))) as D2.
    pose proof (D _ (or_intror (or_intror (or_introl eq_refl)))) as D3. clear D.
    destruct A1 as [H|A1]; [short H|]. destruct A2 as [H|A2]; [short H|]. destruct B1 as [H|B1]; [short H|]. destruct B2 as [H|B2]; [short H|].
    destruct C1 as [H|[H|C1]]; [short H|destruct (not_both2 _ _ K1 H)|].
    destruct C2 as [H|[H|C2]]; [short H|destruct (not_both2 _ _ K1 H)|].
    destruct C3 as [H|[H|C3]]; [short H|destruct (not_both2 _ _ K1 H)|].
    destruct D1 as [H|D1]; [short H|]. destruct D2 as [H|D2]; [short H|]. destruct D3 as [H|D3]; [short H|].
    split; [|split; [|split; [exact C1|split; [exact C2|split; [exact C3|]]]]].
    + destruct A1 as [A1|A1]; [left; exact A1|]. destruct A2 as [A2|A2]; [left; exact A2|]. right. split; [exact A1|exact A2].
    + destruct B1 as [B1|B1]; [left; exact B1|]. destruct B2 as [B2|B2]; [left; exact B2|]. right. split; [exact B1|exact B2].
    + destruct D1 as [D1|D1]; [left; exact D1|]. destruct D2 as [D2|D2]; [left; exact D2|]. destruct D3 as [D3|D3]; [left; exact D3|].
      right. split; [exact D1|]. split; [exact D2|exact D3].
  - intros (A & B & C1 & C2 & C3 & D).
    assert (R1 : forall v2, In v2 (VALID_G2_POINTS ++ INVALID_G2_POINTS) -> forall v1, v1 = INVALID_G1_ZERO_COM_LEN \/ v1 = INVALID_G1_LEN ->
      (length (pts v1 v2) < 144)%nat \/ refuses2 E true (slice 0 48 (pts v1 v2)) \/ refuses1 E true (slice 48 96 (pts v1 v2))).
    { intros v2 I2 v1 I1. assert (Hv1 : length v1 = 47%nat) by (destruct I1 as [->| ->]; reflexivity).
      assert (Hl : (length v2 <= 96)%nat \/ v2 = VALID_G2_ZERO_UNCOM \/ v2 = INVALID_G2_ZERO_DATA_2 \/ v2 = INVALID_G2_ZERO_COM_LEN).
      { cbn [app VALID_G2_POINTS INVALID_G2_POINTS In] in I2.
        repeat (destruct I2 as [<-|I2]; [first [left; vm_compute; lia|right; tauto]|]). destruct I2. }
      destruct Hl as [Hl|Hl]; [left; unfold pts; rewrite app_length; lia|]. right.
      destruct I1 as [->| ->]; [destruct A as [F|[F F']]|destruct B as [F|[F F']]];
        destruct Hl as [->|[->| ->]]; first [left; exact F | right; exact F | right; exact F']. }
    assert (R2 : forall v1 v2, In v1 INVALID_G1_POINTS -> In v2 (VALID_G2_POINTS ++ INVALID_G2_POINTS) ->
      (length (pts v1 v2) < 144)%nat \/ refuses2 E true (slice 0 48 (pts v1 v2)) \/ refuses1 E true (slice 48 96 (pts v1 v2))).
    { intros v1 v2 I1 I2. unfold INVALID_G1_POINTS in I1. cbn [In] in I1.
      repeat (destruct I1 as [<-|I1]; [first [right; left; exact K3|right; left; exact K4|right; left; exact K5|right; left; exact K6
        |right; left; exact K7|apply R1; tauto]|]). destruct I1. }
    split; [|split; [|split]].
    + intros v1 v2 I1 I2. apply R2; [exact I1|]. apply in_or_app. left. exact I2.
    + clear R1 R2. intros v1 v2 I1 I2. unfold VALID_G1_POINTS in I1. cbn [In] in I1.
      destruct I1 as [<-|[<-|[<-|[]]]]; [| |right; left; exact K4];
        unfold INVALID_G2_POINTS in I2; cbn [In] in I2;
        repeat (destruct I2 as [<-|I2]; [first [right; right; exact P3|right; right; exact P4|right; right; exact P5|right; right; exact P6
          |right; right; exact P7|right; right; exact P8|left; vm_compute; lia]|]); destruct I2.
    + intros v1 v2 I1 I2. apply R2; [exact I1|]. apply in_or_app. right. exact I2.
    + clear R1 R2. intros v1 v2 I1 I2. unfold VALID_G2_POINTS in I2. cbn [In] in I2. unfold VALID_G1_POINTS in I1. cbn [In] in I1. right.
      destruct I2 as [<-|[<-|[<-|[]]]]; [right| |left; exact K4].
      * destruct I1 as [<-|[<-|[<-|[]]]]; [exact C1|exact C2|exact C3].
      * destruct D as [D|(D1 & D2 & D3)]; [left; exact D|right].
        destruct I1 as [<-|[<-|[<-|[]]]]; [exact D1|exact D2|exact D3].
Qed.

Lemma kats_iff : kats_pass E <-> pk_asks E /\ pop_asks E /\ sig_asks E.
Proof.
  unfold kats_pass. rewrite pk_kat, pop_kat, sig_valid_kat, sig_const_kat. split.
  - intros (Hk & Hp & _ & _ & H). split; [exact Hk|]. split; [exact Hp|]. apply sig_points_kat; assumption.
  - intros (Hk & Hp & Hs). split; [exact Hk|]. split; [exact Hp|]. split; [|split; [|apply sig_points_kat; assumption]].
    + destruct Hk as (K1 & _ & K2 & _). destruct Hp as (P1 & P2 & _). auto.
    + destruct Hk as (_ & _ & _ & _ & K4 & _). destruct Hp as (_ & _ & _ & P4 & _). auto.
Qed.

(** A codec that looks at the first bit. *)
Lemma kats_flag : flag_checked E ->
  (kats_pass E <->
   takes2 E true (0xc0 :: zeros 47) /\ takes2 E false (0x40 :: zeros 95) /\ takes2 E true VALID_G1_COM
   /\ takes1 E true (0xc0 :: zeros 95) /\ takes1 E true VALID_G2_COM
   /\ refuses2 E true (0xc0 :: 0x10 :: zeros 46) /\ refuses2 E true INVALID_G1_DATA
   /\ refuses1 E true (0xc0 :: 0x10 :: zeros 94) /\ refuses1 E true INVALID_G2_DATA).
Proof.
  intros Hf. rewrite kats_iff. assert (F : forall b, nth 0 b 0 < 128 -> refuses1 E true b /\ refuses2 E true b) by exact Hf. clear Hf.
  split.
  - intros (Hk & Hp & _). destruct Hk as (K1 & K0 & K2 & K3 & _ & _ & K6 & _). destruct Hp as (P1 & P2 & P3 & _ & _ & _ & P7 & _). tauto.
  - intros (K1 & K0 & K2 & P1 & P2 & K3 & K6 & P3 & P7).
    split; [|split].
    + repeat (split; [first [assumption|apply F; reflexivity]|]). apply F. reflexivity.
    + repeat (split; [first [assumption|apply F; reflexivity]|]). apply F. reflexivity.
    + split; [right; split; apply F; reflexivity|]. split; [right; split; apply F; reflexivity|].
      repeat (split; [apply F; reflexivity|]). right. repeat split; apply F; reflexivity.
Qed.
End tests.

(** The uncompressed decoders are hardly tested. *)
Lemma kats_blind (E : env) d1 d2 : kats_pass E ->
  (forall b, d1 true b = @g1_dec E true b) -> (forall b, d2 true b = @g2_dec E true b) ->
  d2 false (0x40 :: zeros 95) <> None -> kats_pass (with_dec E d1 d2).
Proof.
  intros H H1 H2 H0. apply kats_iff. apply kats_iff in H as (Hk & Hp & Hs).
  assert (T1 : forall b, takes1 (with_dec E d1 d2) true b <-> takes1 E true b) by (intros b; unfold takes1; cbn; rewrite H1; reflexivity).
  assert (T2 : forall b, takes2 (with_dec E d1 d2) true b <-> takes2 E true b) by (intros b; unfold takes2; cbn; rewrite H2; reflexivity).
  assert (R1 : forall b, refuses1 (with_dec E d1 d2) true b <-> refuses1 E true b) by (intros b; unfold refuses1; cbn; rewrite H1; reflexivity).
  assert (R2 : forall b, refuses2 (with_dec E d1 d2) true b <-> refuses2 E true b) by (intros b; unfold refuses2; cbn; rewrite H2; reflexivity).
  split; [|split].
  - unfold pk_asks in *. rewrite !T2, !R2. destruct Hk as (K1 & _ & K). split; [exact K1|]. split; [|exact K].
    unfold takes2. cbn [with_dec g2_dec]. destruct (d2 false (0x40 :: zeros 95)) as [x|]; [exists x; reflexivity|destruct (H0 eq_refl)].
  - unfold pop_asks in *. rewrite !T1, !R1. exact Hp.
  - unfold sig_asks in *. rewrite !R1, !R2. exact Hs.
Qed.

(** * Statements *)
Lemma public_keys : forall (E : env) (c : bool) (b : bytes) (pk : pubkey E),
  from_slice (pk_deserialize c) b = Ok pk <->
  (1 + g2_size c <= length b)%nat /\ supported (pk_cs pk) /\ pk_cs pk = nth 0 b 0
  /\ g2_dec c (slice 1 (g2_size c) b) = Some (pk_pk pk).
Proof. intros. apply pk_reads. Qed.
Lemma proofs : forall (E : env) (c : bool) (b : bytes) (pop : proof E),
  from_slice (pop_deserialize c) b = Ok pop <->
  (1 + g1_size c <= length b)%nat /\ supported (pop_cs pop) /\ pop_cs pop = nth 0 b 0
  /\ g1_dec c (slice 1 (g1_size c) b) = Some (pop_pop pop).
Proof. intros. apply pop_reads. Qed.
Lemma signatures : forall (E : env) (c : bool) (b : bytes) (s : signature E),
  from_slice (sig_deserialize c) b = Ok s <->
  c = true /\ (149 <= length b)%nat /\ supported (sig_cs s) /\ sig_cs s = nth 0 b 0
  /\ sig_time s = from_be4 (slice 1 4 b) /\ sig_time s <> 0
  /\ g2_dec true (slice 5 48 b) = Some (sig_1 s) /\ g1_dec true (slice 53 96 b) = Some (sig_2 s).
Proof. intros. apply sig_reads. Qed.
Lemma pk_test : forall E : env, test_pk_serialization_kat E = Ok tt <-> pk_asks E.
Proof. intros. apply pk_kat. Qed.
Lemma pop_test : forall E : env, test_pop_serialization_kat E = Ok tt <-> pop_asks E.
Proof. intros. apply pop_kat. Qed.
Lemma sig_valid_test : forall E : env, test_sig_serialization_kat_valid E = Ok tt <->
  takes2 E true (0xc0 :: zeros 47) /\ takes2 E true VALID_G1_COM /\ takes1 E true (0xc0 :: zeros 95) /\ takes1 E true VALID_G2_COM.
Proof. intros. apply sig_valid_kat. Qed.
Lemma sig_const_test : forall E : env, test_sig_serialization_kat_invalid_const E = Ok tt <->
  (refuses2 E true (0xc0 :: zeros 47) \/ refuses1 E true (0x40 :: zeros 95))
  /\ (refuses2 E true (0x40 :: zeros 47) \/ refuses1 E true (zeros 48 ++ 0xc0 :: zeros 47)).
Proof. intros. apply sig_const_kat. Qed.
Lemma sig_points_test : forall E : env, pk_asks E -> pop_asks E ->
  (test_sig_serialization_kat_invalid_points E = Ok tt <-> sig_asks E).
Proof. intros. apply sig_points_kat; assumption. Qed.
Lemma all_tests : forall E : env, kats_pass E <-> pk_asks E /\ pop_asks E /\ sig_asks E.
Proof. intros. apply kats_iff. Qed.
Lemma tests_flag_checked : forall E : env, flag_checked E ->
  (kats_pass E <->
   takes2 E true (0xc0 :: zeros 47) /\ takes2 E false (0x40 :: zeros 95) /\ takes2 E true VALID_G1_COM
   /\ takes1 E true (0xc0 :: zeros 95) /\ takes1 E true VALID_G2_COM
   /\ refuses2 E true (0xc0 :: 0x10 :: zeros 46) /\ refuses2 E true INVALID_G1_DATA
   /\ refuses1 E true (0xc0 :: 0x10 :: zeros 94) /\ refuses1 E true INVALID_G2_DATA).
Proof. intros. apply kats_flag; assumption. Qed.
Lemma uncompressed_untested : forall (E : env) (d1 : bool -> bytes -> option (G1 E)) (d2 : bool -> bytes -> option (G2 E)),
  kats_pass E ->
  (forall b, d1 true b = g1_dec true b) -> (forall b, d2 true b = g2_dec true b) ->
  d2 false (0x40 :: zeros 95) <> None -> kats_pass (with_dec E d1 d2).
Proof. intros. apply kats_blind; assumption. Qed.
