(** Lemmas behind Properties_Lin.v: linear attacks. *)
From Coq Require Import ZArith Znumtheory.
From Verif Require Import Base Env NMod GroupFacts Time SpecTime TimeFacts TimeProps Hkdf Prng SpecPrng PrngFacts
  SubKey SecretKey Keys Sig SpecKey SubKeyFacts SpecUpdate UpdateFacts KeyFacts SpecLin Primality HistoryFacts Api KeyProps VerProps.
From Coq Require Import ZifyBool ZifyNat ZifyN.
Local Open Scope N_scope.
Local Arguments N.add : simpl never.
Local Arguments N.mul : simpl never.
Local Arguments N.sub : simpl never.
Local Arguments pow2 : simpl never.

(** * Exponents *)
(** Assignments: 0 is the master secret, 1 the exponent of h, 2+i that of h_i (i <= d),
    3+d+j the randomness of the j-th sub key or signature. *)
Notation asg := (nat -> N).
Definition upd (k : nat) (a : N) (p : asg) : asg := fun i => if (i =? k)%nat then a else p i.

Fixpoint wsum (v : list N) (f : nat -> N) (k : nat) : N :=
  match v with [] => 0 | x :: v' => x * f k + wsum v' f (S k) end.
Definition nodeE (v : path) (p : asg) : N := p 2%nat + wsum v p 3.
Definition sigE (d : nat) (v : path) (M : N) (p : asg) : N := nodeE v p + M * p (2 + d)%nat.
Fixpoint dot (A : list N) (es : list N) : N :=
  match A, es with a :: A', e :: es' => a * e + dot A' es' | _, _ => 0 end.
Fixpoint mapi {A B} (f : nat -> A -> B) (k : nat) (l : list A) : list B :=
  match l with [] => [] | a :: l' => f k a :: mapi f (S k) l' end.

Definition hpolyF (d j : nat) (tv : N * path) : asg -> N := fun p => p 0%nat * p 1%nat + p (3 + d + j)%nat * nodeE (snd tv) p.
Definition hvecF (d j : nat) (tv : N * path) : list (asg -> N) :=
  map (fun i p => p (3 + d + j)%nat * p (2 + i)%nat) (seq (length (snd tv) + 1) (d - length (snd tv))).
Definition sig2F (d j : nat) (q : N * path * N) : asg -> N :=
  fun p => p 0%nat * p 1%nat + p (3 + d + j)%nat * sigE d (snd (fst q)) (snd q) p.
Definition E1f (d : nat) (kv : list (N * path)) (qv : list (N * path * N)) : list (asg -> N) :=
  (fun p => p 1%nat) :: map (fun i p => p (2 + i)%nat) (seq 0 (d + 1))
  ++ mapi (hpolyF d) 0 kv ++ concat (mapi (hvecF d) 0 kv) ++ mapi (sig2F d) (length kv) qv.
Definition E2f (d n : nat) : list (asg -> N) :=
  (fun _ => 1) :: (fun p => p 0%nat) :: map (fun j p => p (3 + d + j)%nat) (seq 0 n).

Definition ev (fs : list (asg -> N)) (p : asg) : list N := map (fun f => f p) fs.

(** ** Functions affine in one variable *)
Definition af (k : nat) (f : asg -> N) : Prop := forall p a, p k = 0 -> f (upd k a p) + a * f p = f p + a * f (upd k 1 p).
Definition cn (k : nat) (f : asg -> N) : Prop := forall p a, f (upd k a p) = f p.

Lemma upd_same k a p : upd k a p k = a.
Proof. unfold upd. rewrite Nat.eqb_refl. reflexivity. Qed.
Lemma upd_other k a p i : i <> k -> upd k a p i = p i.
Proof. intros H. unfold upd. destruct (Nat.eqb_spec i k); [contradiction|reflexivity]. Qed.
Lemma cn_af k f : cn k f -> af k f.
Proof. intros H p a _. rewrite !H. lia. Qed.
Lemma af_add k f g : af k f -> af k g -> af k (fun p => f p + g p).
Proof. intros Hf Hg p a Hp. specialize (Hf p a Hp). specialize (Hg p a Hp). lia. Qed.
Lemma af_scale k f c : af k f -> af k (fun p => c * f p).
Proof. intros Hf p a Hp. specialize (Hf p a Hp). nia. Qed.
Lemma af_mul k f g : af k f -> cn k g -> af k (fun p => f p * g p).
Proof. intros Hf Hg p a Hp. specialize (Hf p a Hp). rewrite !Hg. nia. Qed.
Lemma af_mul' k f g : cn k f -> af k g -> af k (fun p => f p * g p).
Proof. intros Hf Hg p a Hp. specialize (Hg p a Hp). rewrite !Hf. nia. Qed.
Lemma cn_var k i : i <> k -> cn k (fun p => p i).
Proof. intros H p a. apply upd_other, H. Qed.
Lemma af_var k i : af k (fun p => p i).
Proof.
  intros p a Hp. destruct (Nat.eq_dec i k) as [->|H]; [rewrite !upd_same, Hp; lia|].
  rewrite !upd_other by exact H. lia.
Qed.
Lemma cn_wsum k v : forall i, (k < i \/ i + length v <= k)%nat -> cn k (fun p => wsum v p i).
Proof.
  induction v as [|x v IH]; intros i Hi p a; cbn [wsum length] in *; [reflexivity|].
  rewrite upd_other by lia. rewrite IH by lia. reflexivity.
Qed.
Lemma af_wsum k v : forall i, af k (fun p => wsum v p i).
Proof.
  induction v as [|x v IH]; intros i; cbn [wsum]; [apply cn_af; intros p a; reflexivity|].
  apply af_add; [|apply IH]. apply (af_scale k (fun p => p i)), af_var.
Qed.
Lemma cn_nodeE d k v : (length v <= d)%nat -> (k < 2 \/ 2 + d < k)%nat -> cn k (nodeE v).
Proof.
  intros Hv Hk p a. unfold nodeE. rewrite upd_other by lia. rewrite (cn_wsum k v 3) by lia. reflexivity.
Qed.
Lemma af_nodeE k v : af k (nodeE v).
Proof. apply af_add; [apply af_var|apply af_wsum]. Qed.
Lemma cn_sigE d k v M : (length v <= d)%nat -> (k < 2 \/ 2 + d < k)%nat -> cn k (sigE d v M).
Proof. intros Hv Hk p a. unfold sigE. rewrite (cn_nodeE d k v Hv Hk), upd_other by lia. reflexivity. Qed.
Lemma af_sigE d k v M : af k (sigE d v M).
Proof. apply af_add; [apply af_nodeE|]. apply (af_scale k (fun p => p (2 + d)%nat)), af_var. Qed.
Lemma af_dot k B : forall fs, Forall (af k) fs -> af k (fun p => dot B (ev fs p)).
Proof.
  induction B as [|b B IH]; intros fs H; cbn [dot]; [apply cn_af; intros p a; reflexivity|].
  destruct H as [|f fs Hf H]; cbn [ev map dot]; [apply cn_af; intros p a; reflexivity|].
  apply af_add; [apply af_scale, Hf|apply IH, H].
Qed.
Lemma cn_dot k B : forall fs, Forall (cn k) fs -> cn k (fun p => dot B (ev fs p)).
Proof.
  induction B as [|b B IH]; intros fs H p a; cbn [dot]; [reflexivity|].
  destruct H as [|f fs Hf H]; cbn [ev map dot]; [reflexivity|]. rewrite (Hf p a).
  change (map (fun f0 => f0 (upd k a p)) fs) with (ev fs (upd k a p)). rewrite (IH fs H p a). reflexivity.
Qed.

Lemma mapi_in {A B} (F : nat -> A -> B) : forall l k f, In f (mapi F k l) ->
  exists j a, f = F j a /\ (k <= j < k + length l)%nat /\ nth_error l (j - k) = Some a.
Proof.
  induction l as [|a l IH]; intros k f H; cbn in H; [contradiction|]. destruct H as [<-|H].
  - exists k, a. rewrite Nat.sub_diag. cbn. repeat split; lia.
  - destruct (IH (S k) f H) as (j & b & -> & Hj & Hn). exists j, b. cbn [length].
    replace (j - k)%nat with (S (j - S k)) by lia. repeat split; [lia|lia|exact Hn].
Qed.
Lemma E1f_in d kv qv f : In f (E1f d kv qv) ->
  f = (fun p => p 1%nat)
  \/ (exists i, (i <= d)%nat /\ f = (fun p => p (2 + i)%nat))
  \/ (exists j tv, nth_error kv j = Some tv /\ f = hpolyF d j tv)
  \/ (exists j tv i, nth_error kv j = Some tv /\ (length (snd tv) < i <= d)%nat
        /\ f = (fun p => p (3 + d + j)%nat * p (2 + i)%nat))
  \/ (exists j q, nth_error qv j = Some q /\ f = sig2F d (length kv + j) q).
Proof.
  unfold E1f. intros [<-|H]; [left; reflexivity|right]. rewrite !in_app_iff in H. destruct H as [H|[H|[H|H]]].
  - left. apply in_map_iff in H as (i & <- & Hi). apply in_seq in Hi. exists i. split; [lia|reflexivity].
  - right; left. apply mapi_in in H as (j & tv & -> & Hj & Hn). rewrite Nat.sub_0_r in Hn. eauto.
  - right; right; left. apply in_concat in H as (l & Hl & Hf). apply mapi_in in Hl as (j & tv & -> & Hj & Hn).
    rewrite Nat.sub_0_r in Hn. unfold hvecF in Hf. apply in_map_iff in Hf as (i & <- & Hi). apply in_seq in Hi.
    exists j, tv, i. split; [exact Hn|]. split; [lia|reflexivity].
  - right; right; right. apply mapi_in in H as (j & q & -> & Hj & Hn). exists (j - length kv)%nat, q.
    split; [exact Hn|]. f_equal. lia.
Qed.

Definition items_ok (d : nat) (kv : list (N * path)) (qv : list (N * path * N)) : Prop :=
  Forall (fun tv => length (snd tv) < d)%nat kv /\ Forall (fun q => length (snd (fst q)) < d)%nat qv.

Lemma af_xy k : af k (fun p => p 0%nat * p 1%nat).
Proof.
  destruct (Nat.eq_dec k 0) as [->|H].
  - apply af_mul; [apply af_var|apply cn_var; lia].
  - apply af_mul'; [apply cn_var; lia|apply af_var].
Qed.
Lemma af_E1 d kv qv k : items_ok d kv qv -> Forall (af k) (E1f d kv qv).
Proof.
  intros [Hk Hq]. apply Forall_forall. intros f Hf.
  apply E1f_in in Hf as [->|[(i & Hi & ->)|[(j & tv & Hn & ->)|[(j & tv & i & Hn & Hi & ->)|(j & q & Hn & ->)]]]].
  - apply af_var.
  - apply af_var.
  - apply nth_error_In in Hn. rewrite Forall_forall in Hk. specialize (Hk tv Hn). cbn beta in Hk.
    apply af_add; [apply af_xy|]. destruct (Nat.eq_dec k (3 + d + j)) as [->|H].
    + apply (af_mul _ (fun p => p (3 + d + j)%nat) (nodeE (snd tv))); [apply af_var|apply (cn_nodeE d); lia].
    + apply (af_mul' _ (fun p => p (3 + d + j)%nat) (nodeE (snd tv))); [apply cn_var; lia|apply af_nodeE].
  - destruct (Nat.eq_dec k (3 + d + j)) as [->|H].
    + apply (af_mul _ (fun p => p (3 + d + j)%nat) (fun p => p (2 + i)%nat)); [apply af_var|apply cn_var; lia].
    + apply (af_mul' _ (fun p => p (3 + d + j)%nat) (fun p => p (2 + i)%nat)); [apply cn_var; lia|apply af_var].
  - apply nth_error_In in Hn. rewrite Forall_forall in Hq. specialize (Hq q Hn). cbn beta in Hq.
    apply af_add; [apply af_xy|]. destruct (Nat.eq_dec k (3 + d + (length kv + j))) as [->|H].
    + apply (af_mul _ (fun p => p (3 + d + (length kv + j))%nat) (sigE d (snd (fst q)) (snd q))); [apply af_var|apply cn_sigE; lia].
    + apply (af_mul' _ (fun p => p (3 + d + (length kv + j))%nat) (sigE d (snd (fst q)) (snd q))); [apply cn_var; lia|apply af_sigE].
Qed.

Definition lhs d kv qv B (p : asg) : N := dot B (ev (E1f d kv qv) p).
Definition rhs d n A v M (p : asg) : N := p 0%nat * p 1%nat + dot A (ev (E2f d n) p) * sigE d v M p.

Lemma af_rhs d n A v M k : (length v < d)%nat -> af k (rhs d n A v M).
Proof.
  intros Hv. apply af_add; [apply af_xy|].
  destruct (Nat.lt_ge_cases k 2) as [H1|H1]; [|destruct (Nat.lt_ge_cases (2 + d) k) as [H2|H2]].
  - apply (af_mul _ (fun p => dot A (ev (E2f d n) p)) (sigE d v M)); [|apply cn_sigE; lia].
    apply af_dot. unfold E2f. constructor; [apply cn_af; intros p a; reflexivity|]. constructor; [apply af_var|].
    apply Forall_map, Forall_forall. intros j _. apply af_var.
  - apply (af_mul _ (fun p => dot A (ev (E2f d n) p)) (sigE d v M)); [|apply cn_sigE; lia].
    apply af_dot. unfold E2f. constructor; [apply cn_af; intros p a; reflexivity|]. constructor; [apply af_var|].
    apply Forall_map, Forall_forall. intros j _. apply af_var.
  - apply (af_mul' _ (fun p => dot A (ev (E2f d n) p)) (sigE d v M)); [|apply af_sigE].
    apply cn_dot. unfold E2f. constructor; [intros p a; reflexivity|]. constructor; [apply cn_var; lia|].
    apply Forall_map, Forall_forall. intros j _. apply cn_var. lia.
Qed.

(** ** A multi-affine identity that holds for the exponents 1 and 2 holds for 0, 1, 2. *)
Definition cong (a b : N) : Prop := (Z.of_N fr_modulus | Z.of_N a - Z.of_N b)%Z.
Lemma spread (f g : asg -> N) : (forall k, af k f) -> (forall k, af k g) ->
  (forall p, (forall i, 1 <= p i <= 2) -> cong (f p) (g p)) ->
  forall n p, (forall i, (i < n)%nat -> p i <= 2) -> (forall i, (n <= i)%nat -> 1 <= p i <= 2) -> cong (f p) (g p).
Proof.
  intros Hf Hg H. induction n as [|n IH]; intros p H1 H2; [apply H; intros i; apply H2; lia|].
  destruct (N.eq_dec (p n) 0) as [Hz|Hz].
  - assert (Hu : forall a, 1 <= a <= 2 -> cong (f (upd n a p)) (g (upd n a p))).
    { intros a Ha. apply IH; intros i Hi.
      - rewrite upd_other by lia. apply H1. lia.
      - destruct (Nat.eq_dec i n) as [->|Hne]; [rewrite upd_same; exact Ha|]. rewrite upd_other by lia. apply H2. lia. }
    pose proof (Hu 1 ltac:(lia)) as [q1 Hq1]. pose proof (Hu 2 ltac:(lia)) as [q2 Hq2].
    specialize (Hf n p 2 Hz). specialize (Hg n p 2 Hz). exists (2 * q1 - q2)%Z. lia.
  - apply IH.
    + intros i Hi. apply H1. lia.
    + intros i Hi. destruct (Nat.eq_dec i n) as [->|Hne]; [|apply H2; lia]. specialize (H1 n ltac:(lia)). lia.
Qed.

(** ** The assignments used to read off coefficients *)
Definition mk (d n : nat) (x y : N) (hi : option nat) (R : nat -> bool) : asg := fun i =>
  match i with
  | 0%nat => x
  | 1%nat => y
  | S (S i) => if (i <=? d)%nat then (match hi with Some k => if (i =? k)%nat then 1 else 0 | None => 0 end)
               else if (i - d - 1 <? n)%nat then (if R (i - d - 1)%nat then 1 else 0) else 1
  end.
Lemma mk_h d n x y hi R i : (i <= d)%nat ->
  mk d n x y hi R (2 + i) = match hi with Some k => if (i =? k)%nat then 1 else 0 | None => 0 end.
Proof. intros H. cbn [mk Nat.add]. destruct (Nat.leb_spec i d); [reflexivity|lia]. Qed.
Lemma mk_r d n x y hi R j : (j < n)%nat -> mk d n x y hi R (3 + d + j) = if R j then 1 else 0.
Proof.
  intros H. change (3 + d + j)%nat with (S (S (S (d + j)))). cbn [mk]. destruct (Nat.leb_spec (S (d + j)) d); [lia|].
  replace (S (d + j) - d - 1)%nat with j by lia. destruct (Nat.ltb_spec j n); [reflexivity|lia].
Qed.
Lemma mk_small d n x y hi R i : x <= 1 -> y <= 1 -> mk d n x y hi R i <= 2.
Proof.
  intros Hx Hy. destruct i as [|[|i]]; cbn [mk]; [lia|lia|].
  destruct (i <=? d)%nat; [destruct hi as [k|]; [destruct (i =? k)%nat|]; lia|].
  destruct (_ <? n)%nat; [destruct (R _)|]; lia.
Qed.
Lemma mk_far d n x y hi R i : (3 + d + n <= i)%nat -> 1 <= mk d n x y hi R i <= 2.
Proof.
  intros Hi. destruct i as [|[|i]]; [lia|lia|]. cbn [mk]. destruct (Nat.leb_spec i d); [lia|].
  destruct (Nat.ltb_spec (i - d - 1) n); lia.
Qed.
Lemma wsum_mk d n x y hi R v : forall i, (1 <= i)%nat -> (i + length v <= d + 1)%nat ->
  wsum v (mk d n x y hi R) (2 + i)
  = match hi with Some k => if ((i <=? k) && (k <? i + length v))%nat then nth (k - i) v 0 else 0 | None => 0 end.
Proof.
  induction v as [|a v IH]; intros i Hi Hl; cbn [wsum length] in *.
  - destruct hi as [k|]; [|reflexivity]. destruct (Nat.leb_spec i k), (Nat.ltb_spec k (i + 0)); cbn; try reflexivity; lia.
  - rewrite mk_h by lia. change (S (2 + i)) with (2 + S i)%nat. rewrite IH by lia. destruct hi as [k|]; [|lia].
    destruct (Nat.eqb_spec i k) as [->|Hne].
    + replace ((S k <=? k) && (k <? S k + length v))%nat with false by lia.
      replace ((k <=? k) && (k <? k + S (length v)))%nat with true by lia. rewrite Nat.sub_diag. cbn [nth]. lia.
    + destruct (Nat.leb_spec (S i) k) as [H1|H1].
      * replace (i <=? k)%nat with true by lia. cbn [andb]. replace (k <? S i + length v)%nat with (k <? i + S (length v))%nat by lia.
        destruct (k <? _)%nat; [|lia]. replace (k - i)%nat with (S (k - S i)) by lia. cbn [nth]. lia.
      * replace (i <=? k)%nat with false by lia. cbn [andb]. lia.
Qed.
Lemma nodeE_mk0 d n x y R v : (length v < d)%nat -> nodeE v (mk d n x y (Some 0%nat) R) = 1.
Proof.
  intros Hv. unfold nodeE. change 2%nat with (2 + 0)%nat at 1. rewrite mk_h by lia. cbn [Nat.eqb].
  change 3%nat with (2 + 1)%nat. rewrite wsum_mk by lia. cbn [Nat.leb andb]. lia.
Qed.
Lemma nodeE_mkN d n x y R v : (length v < d)%nat -> nodeE v (mk d n x y None R) = 0.
Proof.
  intros Hv. unfold nodeE. change 2%nat with (2 + 0)%nat at 1. rewrite mk_h by lia.
  change 3%nat with (2 + 1)%nat. rewrite wsum_mk by lia. reflexivity.
Qed.
Lemma nodeE_mk d n x y R v i : (length v < d)%nat -> (1 <= i <= d)%nat ->
  nodeE v (mk d n x y (Some i) R) = nth (i - 1) v 0.
Proof.
  intros Hv Hi. unfold nodeE. change 2%nat with (2 + 0)%nat at 1. rewrite mk_h by lia.
  destruct (Nat.eqb_spec 0 i); [lia|]. change 3%nat with (2 + 1)%nat. rewrite wsum_mk by lia.
  destruct (Nat.leb_spec 1 i); [|lia]. cbn [andb]. destruct (Nat.ltb_spec i (1 + length v)); [reflexivity|].
  rewrite nth_overflow by lia. reflexivity.
Qed.
Definition tau (d : nat) (v : path) (M : N) (i : nat) : N := nth (i - 1) v 0 + (if (i =? d)%nat then M else 0).
Lemma sigE_mk d n x y R v M i : (length v < d)%nat -> (1 <= i <= d)%nat ->
  sigE d v M (mk d n x y (Some i) R) = tau d v M i.
Proof.
  intros Hv Hi. unfold sigE, tau. rewrite nodeE_mk, mk_h by lia. rewrite (Nat.eqb_sym d i). destruct (i =? d)%nat; lia.
Qed.
Lemma sigE_mk0 d n x y R v M : (length v < d)%nat -> sigE d v M (mk d n x y (Some 0%nat) R) = 1.
Proof. intros Hv. unfold sigE. rewrite nodeE_mk0, mk_h by lia. destruct (Nat.eqb_spec d 0); lia. Qed.
Lemma sigE_mkN d n x y R v M : (length v < d)%nat -> sigE d v M (mk d n x y None R) = 0.
Proof. intros Hv. unfold sigE. rewrite nodeE_mkN, mk_h by lia. lia. Qed.

(** Linear relations between values of [dot]. *)
Lemma dot_rel B c1 c2 c3 c4 p1 p2 p3 p4 : forall fs : list (asg -> N),
  (forall f, In f fs -> c1 * f p1 + c2 * f p2 = c3 * f p3 + c4 * f p4) ->
  c1 * dot B (ev fs p1) + c2 * dot B (ev fs p2) = c3 * dot B (ev fs p3) + c4 * dot B (ev fs p4).
Proof.
  induction B as [|b B IH]; intros fs H; [cbn [dot]; lia|].
  destruct fs as [|f fs]; [cbn [dot ev map]; lia|]. cbn [ev map dot].
  pose proof (H f (or_introl eq_refl)). assert (IH' := IH fs (fun g Hg => H g (or_intror Hg))). unfold ev in IH'. nia.
Qed.

(** ** The coefficients of a strategy *)
Definition alpha d n A (R : nat -> bool) : N := dot A (ev (E2f d n) (mk d n 0 0 None R)).
Lemma alpha_any d n A R y hi : dot A (ev (E2f d n) (mk d n 0 y hi R)) = alpha d n A R.
Proof.
  unfold alpha, ev, E2f. f_equal. cbn [map mk]. f_equal. f_equal. rewrite !map_map. apply map_ext_in.
  intros j Hj. apply in_seq in Hj. rewrite !mk_r by lia. reflexivity.
Qed.
Lemma alpha_rel d n A (R1 R2 R3 R4 : nat -> bool) :
  (forall j, (j < n)%nat -> (if R1 j then 1 else 0) + (if R2 j then 1 else 0) = (if R3 j then 1 else 0) + (if R4 j then 1 else 0) :> N) ->
  alpha d n A R1 + alpha d n A R2 = alpha d n A R3 + alpha d n A R4.
Proof.
  intros H. unfold alpha.
  pose proof (dot_rel A 1 1 1 1 (mk d n 0 0 None R1) (mk d n 0 0 None R2) (mk d n 0 0 None R3) (mk d n 0 0 None R4) (E2f d n)) as Hd.
  enough (Hin : forall f, In f (E2f d n) -> 1 * f (mk d n 0 0 None R1) + 1 * f (mk d n 0 0 None R2)
                                = 1 * f (mk d n 0 0 None R3) + 1 * f (mk d n 0 0 None R4)) by (specialize (Hd Hin); lia).
  intros f Hf. unfold E2f in Hf. destruct Hf as [<-|[<-|Hf]]; [reflexivity|reflexivity|].
  apply in_map_iff in Hf as (j & <- & Hj). apply in_seq in Hj. rewrite !mk_r by lia. specialize (H j ltac:(lia)). lia.
Qed.

Lemma fr_prime : prime (Z.of_N fr_modulus).
Proof. exact r_prime. Qed.
Lemma all_or_ex (P : nat -> Prop) : (forall j, {P j} + {~ P j}) ->
  forall n, (forall j, (j < n)%nat -> P j) \/ exists j0, (j0 < n)%nat /\ ~ P j0.
Proof.
  intros Hdec. induction n as [|k IH]; [left; lia|].
  destruct IH as [IH|(j0 & Hj & Hn)]; [|right; exists j0; split; [lia|exact Hn]].
  destruct (Hdec k) as [Hy|Hn]; [left|right; exists k; split; [lia|exact Hn]].
  intros j Hj. destruct (Nat.eq_dec j k) as [->|]; [exact Hy|apply IH; lia].
Qed.

Lemma no_solution d kv qv A B v M : (1 <= d)%nat -> items_ok d kv qv -> (length v < d)%nat ->
  (forall p, (forall i, 1 <= p i <= 2) -> cong (lhs d kv qv B p) (rhs d (length kv + length qv) A v M p)) ->
  (exists tv, In tv kv /\ forall i, (1 <= i <= length (snd tv))%nat -> cong (tau d v M i) (nth (i - 1) (snd tv) 0))
  \/ (exists q, In q qv /\ forall i, (1 <= i <= d)%nat -> cong (tau d v M i) (tau d (snd (fst q)) (snd q) i)).
Proof.
  intros Hd Hok Hv H. set (n := (length kv + length qv)%nat) in *. pose proof Hok as [Hk Hq]. rewrite Forall_forall in Hk, Hq.
  assert (Hall : forall x y (hi : option nat) (R : nat -> bool), x <= 1 -> y <= 1 ->
            cong (lhs d kv qv B (mk d n x y hi R)) (rhs d n A v M (mk d n x y hi R))).
  { intros x y hi R Hx Hy. apply (spread (lhs d kv qv B) (rhs d n A v M)) with (n := (3 + d + n)%nat).
    - intros k. apply af_dot, af_E1, Hok.
    - intros k. apply af_rhs, Hv.
    - exact H.
    - intros i _. apply mk_small; assumption.
    - intros i Hi. apply mk_far, Hi. }
  set (R0 := fun _ : nat => false). set (R1 := fun _ : nat => true). set (Rj := fun j0 j : nat => (j =? j0)%nat).
  set (al := alpha d n A).
  (* sum of the differences *)
  assert (Hsum : cong (al R1) (al R0 + 1)).
  { pose proof (dot_rel B 1 1 1 1 (mk d n 1 1 None R0) (mk d n 0 0 (Some 0%nat) R0) (mk d n 0 1 None R0) (mk d n 0 0 (Some 0%nat) R1) (E1f d kv qv)) as Hr.
    assert (Hin : forall f, In f (E1f d kv qv) -> 1 * f (mk d n 1 1 None R0) + 1 * f (mk d n 0 0 (Some 0%nat) R0)
                            = 1 * f (mk d n 0 1 None R0) + 1 * f (mk d n 0 0 (Some 0%nat) R1)).
    { intros f Hf. apply E1f_in in Hf as [->|[(i & Hi & ->)|[(j & tv & Hn & ->)|[(j & tv & i & Hn & Hi & ->)|(j & q & Hn & ->)]]]].
      - reflexivity.
      - rewrite !mk_h by lia. lia.
      - pose proof (nth_error_Some kv j) as Hlt. rewrite Hn in Hlt. assert (j < length kv)%nat by (apply Hlt; discriminate).
        apply nth_error_In, Hk in Hn. unfold hpolyF. rewrite !mk_r by (unfold n; lia). rewrite !nodeE_mk0, !nodeE_mkN by exact Hn. reflexivity.
      - pose proof (nth_error_Some kv j) as Hlt. rewrite Hn in Hlt. assert (j < length kv)%nat by (apply Hlt; discriminate).
        rewrite !mk_r by (unfold n; lia). rewrite !mk_h by lia. destruct (Nat.eqb_spec i 0); [lia|]. reflexivity.
      - pose proof (nth_error_Some qv j) as Hlt. rewrite Hn in Hlt. assert (j < length qv)%nat by (apply Hlt; discriminate).
        apply nth_error_In, Hq in Hn. unfold sig2F. rewrite !mk_r by (unfold n; lia). rewrite !sigE_mk0, !sigE_mkN by exact Hn. reflexivity. }
    specialize (Hr Hin). clear Hin. unfold lhs, rhs in Hall.
    destruct (Hall 1 1 None R0 ltac:(lia) ltac:(lia)) as [q1 H1]. destruct (Hall 0 0 (Some 0%nat) R0 ltac:(lia) ltac:(lia)) as [q2 H2].
    destruct (Hall 0 1 None R0 ltac:(lia) ltac:(lia)) as [q3 H3]. destruct (Hall 0 0 (Some 0%nat) R1 ltac:(lia) ltac:(lia)) as [q4 H4].
    rewrite sigE_mkN in H1, H3 by exact Hv. rewrite sigE_mk0 in H2, H4 by exact Hv. rewrite !alpha_any in H2, H4. cbn [mk] in H1, H2, H3, H4.
    fold al in H2, H4. exists (q1 + q2 - q3 - q4)%Z. lia. }
  (* some coefficient does not vanish *)
  assert (Hex : exists j0, (j0 < n)%nat /\ ~ cong (al (Rj j0)) (al R0)).
  { assert (Hdec : (forall j, (j < n)%nat -> cong (al (Rj j)) (al R0)) \/ exists j0, (j0 < n)%nat /\ ~ cong (al (Rj j0)) (al R0)).
    { apply all_or_ex. intros j. apply Zdivide_dec. }
    destruct Hdec as [Hz|He]; [exfalso|exact He].
    assert (Hpre : forall k, (k <= n)%nat -> cong (al (fun j => j <? k)%nat) (al R0)).
    { induction k as [|k IH]; intros Hle.
      - exists 0%Z. replace (al (fun j => (j <? 0)%nat)) with (al R0); [lia|]. unfold al.
        pose proof (alpha_rel d n A R0 R0 (fun j => (j <? 0)%nat) R0) as Hr. enough (alpha d n A R0 + alpha d n A R0 = alpha d n A (fun j => (j <? 0)%nat) + alpha d n A R0) by lia.
        apply Hr. intros j _. reflexivity.
      - destruct (IH ltac:(lia)) as [q1 H1]. destruct (Hz k ltac:(lia)) as [q2 H2]. exists (q1 + q2)%Z.
        pose proof (alpha_rel d n A (fun j => (j <? S k)%nat) R0 (fun j => (j <? k)%nat) (Rj k)) as Hr. fold al in Hr.
        assert (al (fun j => (j <? S k)%nat) + al R0 = al (fun j => (j <? k)%nat) + al (Rj k)); [|lia].
        apply Hr. intros j _. unfold R0, Rj. destruct (Nat.ltb_spec j (S k)), (Nat.ltb_spec j k), (Nat.eqb_spec j k); lia. }
    destruct (Hpre n (le_n n)) as [q1 H1]. destruct Hsum as [q2 H2].
    assert (Hs : al (fun j => (j <? n)%nat) = al R1).
    { pose proof (alpha_rel d n A (fun j => (j <? n)%nat) R0 R1 R0) as Hr. fold al in Hr.
      enough (al (fun j => (j <? n)%nat) + al R0 = al R1 + al R0) by lia.
      apply Hr. intros j Hj. unfold R1. destruct (Nat.ltb_spec j n); [reflexivity|lia]. }
    rewrite Hs in H1. assert (Hone : (Z.of_N fr_modulus * (q1 - q2) = 1)%Z) by lia.
    assert (Hdv : (Z.of_N fr_modulus | 1)%Z) by (exists (q1 - q2)%Z; lia). apply Z.divide_1_r in Hdv.
    destruct fr_prime as [Hp _]. lia. }
  destruct Hex as (j0 & Hj0 & Hne).
  (* cancellation *)
  assert (Hcan : forall w tt, cong (al (Rj j0) * tt + w * al R0) (al R0 * tt + w * al (Rj j0)) -> cong tt w).
  { intros w tt [q Hq0]. assert (Hdv : (Z.of_N fr_modulus | (Z.of_N (al (Rj j0)) - Z.of_N (al R0)) * (Z.of_N tt - Z.of_N w))%Z) by (exists q; lia).
    apply prime_mult in Hdv; [|exact fr_prime]. destruct Hdv as [Hdv|Hdv]; [contradiction|exact Hdv]. }
  assert (Hrhs : forall (hi : option nat) (R : nat -> bool), rhs d n A v M (mk d n 0 0 hi R) = al R * sigE d v M (mk d n 0 0 hi R)).
  { intros hi R. unfold rhs. rewrite alpha_any. cbn [mk]. reflexivity. }
  (* the relation for an item with public polynomial w *)
  assert (Hitem : forall i w, (1 <= i <= d)%nat ->
     (forall f, In f (E1f d kv qv) -> 1 * f (mk d n 0 0 (Some i) (Rj j0)) + w * f (mk d n 0 0 (Some 0%nat) R0)
                                      = 1 * f (mk d n 0 0 (Some i) R0) + w * f (mk d n 0 0 (Some 0%nat) (Rj j0))) ->
     cong (tau d v M i) w).
  { intros i w Hi Hf. apply (dot_rel B) in Hf. apply Hcan.
    destruct (Hall 0 0 (Some i) (Rj j0) ltac:(lia) ltac:(lia)) as [q1 H1]. destruct (Hall 0 0 (Some 0%nat) R0 ltac:(lia) ltac:(lia)) as [q2 H2].
    destruct (Hall 0 0 (Some i) R0 ltac:(lia) ltac:(lia)) as [q3 H3]. destruct (Hall 0 0 (Some 0%nat) (Rj j0) ltac:(lia) ltac:(lia)) as [q4 H4].
    rewrite !Hrhs in *. rewrite sigE_mk in H1, H3 by (auto; lia). rewrite sigE_mk0 in H2, H4 by exact Hv. unfold lhs in *.
    exists (q3 + Z.of_N w * q4 - q1 - Z.of_N w * q2)%Z. nia. }
  destruct (Nat.lt_ge_cases j0 (length kv)) as [Hjk|Hjk].
  - destruct (nth_error kv j0) as [tv|] eqn:Hn0; [|apply nth_error_None in Hn0; lia].
    left. exists tv. split; [apply nth_error_In in Hn0; exact Hn0|]. intros i Hi.
    assert (Htv : (length (snd tv) < d)%nat) by (apply nth_error_In, Hk in Hn0; exact Hn0).
    apply Hitem; [lia|]. intros f Hf.
    apply E1f_in in Hf as [->|[(i' & Hi' & ->)|[(j & tv' & Hn & ->)|[(j & tv' & i' & Hn & Hi' & ->)|(j & q & Hn & ->)]]]].
    + cbn [mk]. lia.
    + rewrite !mk_h by lia. lia.
    + assert (Hj : (j < length kv)%nat) by (apply nth_error_Some; rewrite Hn; discriminate).
      unfold hpolyF. rewrite !mk_r by (unfold n; lia). cbn [mk]. unfold Rj, R0. destruct (Nat.eqb_spec j j0) as [->|]; [|lia].
      rewrite Hn0 in Hn. injection Hn as <-. rewrite !nodeE_mk, !nodeE_mk0 by lia. lia.
    + assert (Hj : (j < length kv)%nat) by (apply nth_error_Some; rewrite Hn; discriminate).
      rewrite !mk_r by (unfold n; lia). rewrite !mk_h by lia. unfold Rj, R0. destruct (Nat.eqb_spec j j0) as [->|]; [|lia].
      rewrite Hn0 in Hn. injection Hn as <-. destruct (Nat.eqb_spec i' i), (Nat.eqb_spec i' 0); lia.
    + assert (Hj : (j < length qv)%nat) by (apply nth_error_Some; rewrite Hn; discriminate).
      unfold sig2F. rewrite !mk_r by (unfold n; lia). cbn [mk]. unfold Rj, R0. destruct (Nat.eqb_spec (length kv + j) j0); lia.
  - destruct (nth_error qv (j0 - length kv)) as [q|] eqn:Hn0; [|apply nth_error_None in Hn0; unfold n in Hj0; lia].
    right. exists q. split; [apply nth_error_In in Hn0; exact Hn0|]. intros i Hi.
    assert (Htv : (length (snd (fst q)) < d)%nat) by (apply nth_error_In, Hq in Hn0; exact Hn0).
    apply Hitem; [lia|]. intros f Hf.
    apply E1f_in in Hf as [->|[(i' & Hi' & ->)|[(j & tv' & Hn & ->)|[(j & tv' & i' & Hn & Hi' & ->)|(j & q' & Hn & ->)]]]].
    + cbn [mk]. lia.
    + rewrite !mk_h by lia. lia.
    + assert (Hj : (j < length kv)%nat) by (apply nth_error_Some; rewrite Hn; discriminate).
      unfold hpolyF. rewrite !mk_r by (unfold n; lia). cbn [mk]. unfold Rj, R0. destruct (Nat.eqb_spec j j0); lia.
    + assert (Hj : (j < length kv)%nat) by (apply nth_error_Some; rewrite Hn; discriminate).
      rewrite !mk_r by (unfold n; lia). unfold Rj, R0. destruct (Nat.eqb_spec j j0); lia.
    + assert (Hj : (j < length qv)%nat) by (apply nth_error_Some; rewrite Hn; discriminate).
      unfold sig2F. rewrite !mk_r by (unfold n; lia). cbn [mk]. unfold Rj, R0. destruct (Nat.eqb_spec (length kv + j) j0) as [He|]; [|lia].
      replace (j0 - length kv)%nat with j in Hn0 by lia. rewrite Hn0 in Hn. injection Hn as <-.
      rewrite !sigE_mk, !sigE_mk0 by lia. lia.
Qed.

(** * Group elements with given exponents *)

Definition ks_of {E : env} (g : G1 E) d cs p kv : list (subkey E) :=
  mapi (fun j tv => honest_ssk (exp_pp g d cs p) (p 0%nat) (fst tv) (snd tv) (p (3 + d + j)%nat)) 0 kv.
Definition sigs_of {E : env} (g : G1 E) d cs p k qv : list (signature E) :=
  mapi (fun j q => honest_sig (exp_pp g d cs p) (p 0%nat) (fst (fst q)) (snd (fst q)) (snd q) (p (3 + d + j)%nat)) k qv.

Lemma map_mapi {A B C} (f : B -> C) (F : nat -> A -> B) : forall l k, map f (mapi F k l) = mapi (fun j a => f (F j a)) k l.
Proof. induction l as [|a l IH]; intros k; cbn; [reflexivity|]. f_equal. apply IH. Qed.
Lemma mapi_ext {A B} (F G : nat -> A -> B) : forall l k, (forall j a, In a l -> F j a = G j a) -> mapi F k l = mapi G k l.
Proof.
  induction l as [|a l IH]; intros k H; cbn; [reflexivity|]. f_equal; [apply H; left; reflexivity|].
  apply IH. intros j b Hb. apply H. right; exact Hb.
Qed.
Lemma mapi_length {A B} (F : nat -> A -> B) : forall l k, length (mapi F k l) = length l.
Proof. induction l as [|a l IH]; intros k; cbn; [reflexivity|]. f_equal. apply IH. Qed.
Lemma mapi_forall {A B} (P : B -> Prop) (F : nat -> A -> B) : forall l k, (forall j a, In a l -> P (F j a)) -> Forall P (mapi F k l).
Proof.
  induction l as [|a l IH]; intros k H; cbn; constructor; [apply H; left; reflexivity|].
  apply IH. intros j b Hb. apply H. right; exact Hb.
Qed.

Lemma lincomb_exp {E} (L : env_laws E) (g : G1 E) p : forall v i n, (length v <= n)%nat ->
  lincomb v (map (fun i => g1_mul (p (2 + i)%nat) g) (seq i n)) = g1_mul (wsum v p (2 + i)) g.
Proof.
  induction v as [|x v IH]; intros i n Hn; cbn [lincomb wsum length] in *; [rewrite (l1_mul0 E L); reflexivity|].
  destruct n as [|n]; [lia|]. cbn [seq map]. rewrite IH by lia.
  rewrite (l1_mul_add E L), (l1_mul_mul E L). reflexivity.
Qed.
Lemma node_val_exp {E} (L : env_laws E) (g : G1 E) d cs p v : (length v <= d)%nat ->
  node_val (exp_pp g d cs p) v = g1_mul (nodeE v p) g.
Proof.
  intros Hv. unfold node_val, nodeE, exp_pp. cbn [pp_hlist]. rewrite Nat.add_1_r. cbn [seq map nth skipn].
  rewrite (lincomb_exp L) by exact Hv. rewrite (l1_mul_add E L). reflexivity.
Qed.
Lemma sig_val_exp {E} (L : env_laws E) (g : G1 E) d cs p v M : (length v <= d)%nat ->
  sig_val (exp_pp g d cs p) v M = g1_mul (sigE d v M p) g.
Proof.
  intros Hv. unfold sig_val, sigE. rewrite (node_val_exp L) by exact Hv. unfold exp_pp. cbn [pp_depth pp_hlist].
  rewrite (nth_indep _ g1_zero (g1_mul (p (2 + 0)%nat) g)) by (rewrite map_length, seq_length; lia).
  rewrite (map_nth (fun i => g1_mul (p (2 + i)%nat) g)), seq_nth by lia. cbn [Nat.add].
  rewrite (l1_mul_add E L), (l1_mul_mul E L). reflexivity.
Qed.
Lemma skipn_seq n i k : skipn k (seq i n) = seq (i + k) (n - k).
Proof.
  revert i n. induction k as [|k IH]; intros i n; [rewrite Nat.add_0_r, Nat.sub_0_r; reflexivity|].
  destruct n as [|n]; [reflexivity|]. cbn [seq skipn]. rewrite IH. f_equal; lia.
Qed.
Lemma firstn_seq n i k : firstn k (seq i n) = seq i (Nat.min k n).
Proof.
  revert i n. induction k as [|k IH]; intros i n; [reflexivity|]. destruct n as [|n]; [reflexivity|].
  cbn [seq firstn Nat.min]. f_equal. apply IH.
Qed.

Lemma view1_exp {E} (L : env_laws E) (g : G1 E) d cs p kv qv : items_ok d kv qv ->
  view1 (exp_pp g d cs p) (ks_of g d cs p kv) (sigs_of g d cs p (length kv) qv)
  = map (fun e => g1_mul e g) (ev (E1f d kv qv) p).
Proof.
  intros [Hk Hq]. rewrite Forall_forall in Hk, Hq. unfold view1, ks_of, sigs_of, ev, E1f. rewrite !map_map.
  cbn [map]. rewrite !map_app, !map_map, !map_mapi, concat_map, map_mapi. cbn [exp_pp pp_h pp_hlist]. f_equal. f_equal.
  f_equal; [|f_equal].
  - apply mapi_ext. intros j tv Hin. unfold honest_ssk, hpolyF. cbn [sk_hpoly pp_h].
    fold (exp_pp g d cs p). rewrite (node_val_exp L) by (specialize (Hk tv Hin); lia).
    rewrite (l1_mul_add E L), !(l1_mul_mul E L). reflexivity.
  - f_equal. apply mapi_ext. intros j tv Hin. unfold honest_ssk, hvecF, exp_pp. cbn [sk_hvec pp_hlist pp_depth].
    rewrite skipn_map, firstn_map, skipn_seq, firstn_seq, !map_map. specialize (Hk tv Hin).
    replace (Nat.min _ _) with (d - length (snd tv))%nat by lia. cbn [Nat.add].
    apply map_ext. intros i. rewrite (l1_mul_mul E L). reflexivity.
  - apply mapi_ext. intros j q Hin. unfold honest_sig, sig2F. cbn [sig_2 pp_h].
    fold (exp_pp g d cs p). rewrite (sig_val_exp L) by (specialize (Hq q Hin); lia).
    rewrite (l1_mul_add E L), !(l1_mul_mul E L). reflexivity.
Qed.
Lemma mapi_seq {A B} (F : nat -> B) : forall (l : list A) k, mapi (fun j _ => F j) k l = map F (seq k (length l)).
Proof. induction l as [|a l IH]; intros k; cbn; [reflexivity|]. f_equal. apply IH. Qed.
Lemma view2_exp {E} (L : env_laws E) (g : G1 E) d cs p kv qv :
  view2 (exp_pp g d cs p) (PubKey cs (g2_mul (p 0%nat) g2_one)) (ks_of g d cs p kv) (sigs_of g d cs p (length kv) qv)
  = map (fun e => g2_mul e g2_one) (ev (E2f d (length kv + length qv)) p).
Proof.
  unfold view2, ks_of, sigs_of, ev, E2f. cbn [map exp_pp pp_g2 pk_pk]. f_equal; [rewrite (l2_mul1 E L); reflexivity|]. f_equal.
  rewrite !map_mapi, !map_map. cbn [honest_ssk honest_sig sk_g2r sig_1 exp_pp pp_g2].
  rewrite (mapi_seq (fun j => g2_mul (p (3 + d + j)%nat) g2_one) kv), (mapi_seq (fun j => g2_mul (p (3 + d + j)%nat) g2_one) qv).
  rewrite seq_app, map_app. reflexivity.
Qed.
Lemma lincomb_dot {E} (L : env_laws E) (g : G1 E) : forall B es, lincomb B (map (fun e => g1_mul e g) es) = g1_mul (dot B es) g.
Proof.
  induction B as [|b B IH]; intros [|e es]; cbn [lincomb map dot]; try (rewrite (l1_mul0 E L); reflexivity).
  rewrite IH, (l1_mul_add E L), (l1_mul_mul E L). reflexivity.
Qed.
Lemma lincomb2_dot {E} (L : env_laws E) (g : G2 E) : forall B es, lincomb2 B (map (fun e => g2_mul e g) es) = g2_mul (dot B es) g.
Proof.
  induction B as [|b B IH]; intros [|e es]; cbn [lincomb2 map dot]; try (rewrite (l2_mul0 E L); reflexivity).
  rewrite IH, (l2_mul_add E L), (l2_mul_mul E L). reflexivity.
Qed.

Lemma mul_mod {E} (L : env_laws E) (g : G1 E) a : g1_insub g = true -> g1_mul a g = g1_mul (a mod fr_modulus) g.
Proof.
  intros Hg. rewrite (N.div_mod a fr_modulus) at 1 by discriminate.
  rewrite N.mul_comm, (l1_mul_add E L), (l1_mul_mul E L), (l1_order E L g Hg), (nm_mulz _ _ _ (nmod_g1 L)). apply (l1_zero E L).
Qed.
Lemma mul_cong {E} (L : env_laws E) (g : G1 E) a b : g1_insub g = true -> g <> g1_zero ->
  g1_mul a g = g1_mul b g -> cong a b.
Proof.
  intros Hg Hnz H. rewrite (mul_mod L g a Hg), (mul_mod L g b Hg) in H.
  apply (mul_inj L) in H; auto; try (apply N.mod_lt; discriminate).
  unfold cong. exists (Z.of_N (a / fr_modulus) - Z.of_N (b / fr_modulus))%Z.
  pose proof (N.div_mod a fr_modulus ltac:(discriminate)). pose proof (N.div_mod b fr_modulus ltac:(discriminate)).
  assert (Z.of_N a = Z.of_N fr_modulus * Z.of_N (a / fr_modulus) + Z.of_N (a mod fr_modulus))%Z by (rewrite <- N2Z.inj_mul, <- N2Z.inj_add; f_equal; assumption).
  assert (Z.of_N b = Z.of_N fr_modulus * Z.of_N (b / fr_modulus) + Z.of_N (b mod fr_modulus))%Z by (rewrite <- N2Z.inj_mul, <- N2Z.inj_add; f_equal; assumption).
  rewrite H in *. lia.
Qed.
Lemma small_nz1 {E} (L : env_laws E) (g : G1 E) a : g1_insub g = true -> g <> g1_zero -> 1 <= a <= 2 -> g1_mul a g <> g1_zero.
Proof.
  intros Hg Hnz Ha H. rewrite <- (l1_mul0 E L g) in H. apply (mul_inj L) in H; auto; [lia| |]; apply (N.le_lt_trans _ 2); try lia; reflexivity.
Qed.
Lemma small_nz2 {E} (L : env_laws E) a : 1 <= a <= 2 -> g2_mul a (@g2_one E) <> g2_zero.
Proof.
  intros Ha H. apply (l2_one_nz E L). assert (H' := l2_order E L g2_one (l2_one_sub E L)).
  assert (a = 1 \/ a = 2) as [->| ->] by lia; [rewrite (l2_mul1 E L) in H; exact H|].
  replace fr_modulus with ((fr_modulus - 1) / 2 * 2 + 1) in H' by reflexivity.
  rewrite (l2_mul_add E L), (l2_mul_mul E L), H, (nm_mulz _ _ _ (nmod_g2 L)), (l2_mul1 E L), (l2_zero E L) in H'. exact H'.
Qed.

(** * No strategy beyond the keys and signatures in view *)
Lemma pp_of_generic {E} (L : env_laws E) (g : G1 E) d cs p : g1_insub g = true -> g <> g1_zero -> (1 <= d < 64)%nat ->
  (forall i, 1 <= p i <= 2) -> generic d cs (exp_pp g d cs p).
Proof.
  intros Hg Hnz Hd Hp. constructor; cbn [exp_pp pp_depth pp_cs pp_g2 pp_hlist pp_h]; auto.
  - constructor; cbn [exp_pp pp_depth pp_cs pp_g2 pp_hlist pp_h]; auto.
    + rewrite map_length, seq_length. lia.
    + apply Forall_map, Forall_forall. intros i _. apply (g1_mul_insub L), Hg.
    + apply (g1_mul_insub L), Hg.
    + apply (l2_one_sub E L).
  - rewrite map_length, seq_length. reflexivity.
  - apply (small_nz1 L); auto.
  - apply Forall_map, Forall_forall. intros i _. apply (small_nz1 L); auto.
Qed.

Definition nodes_of (d : nat) (ts : list N) (kv : list (N * path)) : Prop :=
  map fst kv = ts /\ Forall (fun tv => node_at d (fst tv) (snd tv)) kv.
Definition queries_of (E : env) (d : nat) (cs : N) (qs : list (N * bytes)) (qv : list (N * path * N)) : Prop :=
  Forall2 (fun q r => fst (fst r) = fst q /\ node_at d (fst q) (snd (fst r)) /\ snd r = scalar_of E cs (snd q)) qs qv.

Lemma node_short d t v : node_at d t v -> (length v < d)%nat.
Proof. intros H. apply node_at_ptime in H as [[_ H] _]. exact H. Qed.
Lemma node_turns d t v : node_at d t v -> Forall turn v.
Proof. intros H. apply node_at_ptime in H as [[H _] _]. exact H. Qed.
Lemma nodes_items E d cs ts kv qs qv : nodes_of d ts kv -> queries_of E d cs qs qv -> items_ok d kv qv.
Proof.
  intros [_ Hk] Hq. split.
  - eapply Forall_impl; [|exact Hk]. intros tv H. apply node_short in H. exact H.
  - induction Hq as [|q r qs qv (_ & H & _) _ IH]; constructor; [|exact IH]. apply node_short in H. exact H.
Qed.
Lemma nodes_ex d ts : Forall (fun t => 1 <= t <= last_time d) ts -> exists kv, nodes_of d ts kv.
Proof.
  induction 1 as [|t ts Ht _ (kv & Hm & Hk)]; [exists []; split; [reflexivity|constructor]|].
  destruct (node_at_ex d t Ht) as [v Hv]. exists ((t, v) :: kv). split; [cbn; f_equal; exact Hm|constructor; auto].
Qed.
Lemma queries_ex E d cs qs : Forall (fun q => 1 <= fst q <= last_time d) qs -> exists qv, queries_of E d cs qs qv.
Proof.
  induction 1 as [|q qs Ht _ (qv & Hq)]; [exists []; constructor|].
  destruct (node_at_ex d (fst q) Ht) as [v Hv]. exists ((fst q, v, scalar_of E cs (snd q)) :: qv). constructor; [|exact Hq].
  cbn [fst snd]. auto.
Qed.

Lemma forged_exp {E} (L : env_laws E) (g : G1 E) d cs kv qv A B t p : items_ok d kv qv ->
  forged A B t (exp_pp g d cs p) (PubKey cs (g2_mul (p 0%nat) g2_one)) (ks_of g d cs p kv) (sigs_of g d cs p (length kv) qv)
  = Signature cs t (g2_mul (dot A (ev (E2f d (length kv + length qv)) p)) g2_one) (g1_mul (lhs d kv qv B p) g).
Proof.
  intros Hok. unfold forged. rewrite (view1_exp L g d cs p kv qv Hok), (view2_exp L), (lincomb_dot L), (lincomb2_dot L). reflexivity.
Qed.
Lemma works_accepts {E} (L : env_laws E) (g : G1 E) m d cs ts qs kv qv A B t msg p :
  g1_insub g = true -> g <> g1_zero -> (1 <= d < 64)%nat ->
  nodes_of d ts kv -> queries_of E d cs qs qv ->
  @works E m d cs ts qs A B t msg -> (forall i, 1 <= p i <= 2) ->
  verify m (Signature cs t (g2_mul (dot A (ev (E2f d (length kv + length qv)) p)) g2_one)
                           (g1_mul (lhs d kv qv B p) g))
    (PubKey cs (g2_mul (p 0%nat) g2_one)) (exp_pp g d cs p) msg = Ok true.
Proof.
  intros Hg Hnz Hd Hk Hq Hw Hp. pose proof (nodes_items E d cs ts kv qs qv Hk Hq) as Hok.
  specialize (Hw (exp_pp g d cs p) (PubKey cs (g2_mul (p 0%nat) g2_one)) (p 0%nat) (ks_of g d cs p kv) (sigs_of g d cs p (length kv) qv)).
  rewrite (forged_exp L) in Hw by exact Hok. apply Hw; clear Hw.
  - apply (pp_of_generic L); auto.
  - reflexivity.
  - cbn [pk_pk]. apply (small_nz2 L), Hp.
  - destruct Hk as [Hm Hk]. split.
    + unfold ks_of. rewrite map_mapi. cbn [honest_ssk sk_t]. rewrite <- Hm. clear. generalize 0%nat.
      induction kv as [|a kv IH]; intros k; cbn; [reflexivity|]. f_equal. apply IH.
    + apply mapi_forall. intros j tv Hin. rewrite Forall_forall in Hk. split; [|apply (small_nz2 L), Hp].
      exists (snd tv), (p (3 + d + j)%nat). split; [apply Hk, Hin|reflexivity].
  - unfold held_sigs, sigs_of. clear Hk Hok. generalize (length kv). induction Hq as [|q r qs qv (Ht & Hn & Hs) _ IH]; intros k; cbn [mapi]; constructor; [|apply IH].
    exists (snd (fst r)), (p (3 + d + k)%nat). split; [exact Hn|]. split; [|apply (small_nz2 L), Hp].
    rewrite Ht, Hs. reflexivity.
Qed.

Lemma exp_pp_ok {E} (L : env_laws E) (g : G1 E) d cs p : g1_insub g = true -> (1 <= d < 64)%nat -> pp_ok (exp_pp g d cs p).
Proof.
  intros Hg Hd. constructor; cbn [exp_pp pp_depth pp_cs pp_g2 pp_hlist pp_h]; auto.
  - rewrite map_length, seq_length. lia.
  - apply Forall_map, Forall_forall. intros i _. apply (g1_mul_insub L), Hg.
  - apply (g1_mul_insub L), Hg.
  - apply (l2_one_sub E L).
Qed.
Lemma accept_cong {E} (L : env_laws E) (g : G1 E) m d cs kv qv A B t v msg p :
  g1_insub g = true -> g <> g1_zero -> (1 <= d < 64)%nat -> cs = 0 \/ cs = 1 -> node_at d t v ->
  verify m (Signature cs t (g2_mul (dot A (ev (E2f d (length kv + length qv)) p)) g2_one)
                           (g1_mul (lhs d kv qv B p) g))
    (PubKey cs (g2_mul (p 0%nat) g2_one)) (exp_pp g d cs p) msg = Ok true ->
  cong (lhs d kv qv B p) (rhs d (length kv + length qv) A v (scalar_of E cs msg) p).
Proof.
  intros Hg Hnz Hd Hcs Hv H. pose proof (exp_pp_ok L g d cs p Hg Hd) as Hpp.
  set (S := dot A (ev (E2f d (length kv + length qv)) p)) in *.
  pose proof (verify_honest L m (exp_pp g d cs p) (p 0%nat) t v S msg cs Hpp (proj2 (valid_cs_iff cs) Hcs) Hv) as H'.
  assert (Hpk : g2_insub (pk_pk (PubKey cs (g2_mul (p 0%nat) (@g2_one E)))) = true) by (apply (g2_mul_insub L), (l2_one_sub E L)).
  pose proof (second_component_unique E L m m (exp_pp g d cs p) _ _ _ msg Hpp (l2_one_nz E L) Hpk H H' eq_refl eq_refl) as Heq.
  injection Heq as Heq. clear H'; rename Heq into H'. apply (mul_cong L g _ _ Hg Hnz). rewrite H'.
  cbn [exp_pp pp_h]. fold (exp_pp g d cs p). change (msg_scalar (exp_pp g d cs p) msg) with (scalar_of E cs msg).
  rewrite (sig_val_exp L) by (apply node_short in Hv; lia). unfold rhs. fold S.
  rewrite (l1_mul_add E L), !(l1_mul_mul E L). reflexivity.
Qed.

Lemma cong_small a b : a < fr_modulus -> b < fr_modulus -> cong a b -> a = b.
Proof.
  intros Ha Hb [q Hq]. assert (q = 0)%Z by nia. subst q. lia.
Qed.
Lemma prefix_nth : forall u v : path, Forall turn u ->
  (forall i, (i < length u)%nat -> nth i v 0 = nth i u 0) -> exists w, v = u ++ w.
Proof.
  induction u as [|a u IH]; intros v Hu H; [exists v; reflexivity|]. inversion Hu as [|? ? Ha Hu']; subst.
  destruct v as [|b v].
  - specialize (H 0%nat ltac:(cbn; lia)). cbn in H. destruct Ha as [->| ->]; discriminate.
  - pose proof (H 0%nat ltac:(cbn; lia)) as H0. cbn in H0. subst b. destruct (IH v Hu') as [w ->].
    + intros i Hi. apply (H (S i)). cbn; lia.
    + exists w. reflexivity.
Qed.
Lemma path_small v i : Forall turn v -> nth i v 0 < fr_modulus.
Proof.
  intros H. apply (N.le_lt_trans _ 2); [|reflexivity]. destruct (Nat.lt_ge_cases i (length v)) as [Hi|Hi].
  - rewrite Forall_forall in H. destruct (H _ (nth_In v 0 Hi)) as [->| ->]; lia.
  - rewrite nth_overflow by exact Hi. lia.
Qed.

Lemma items_used {E} (L : env_laws E) d cs ts qs kv qv A B t v msg :
  (1 <= d)%nat -> nodes_of d ts kv -> queries_of E d cs qs qv -> node_at d t v ->
  (forall p, (forall i, 1 <= p i <= 2) ->
     cong (lhs d kv qv B p) (rhs d (length kv + length qv) A v (scalar_of E cs msg) p)) ->
  (exists a, In a ts /\ below d a t) \/ (exists msg', In (t, msg') qs /\ scalar_of E cs msg' = scalar_of E cs msg).
Proof.
  intros Hd Hk Hq Hv Hall. pose proof (node_short _ _ _ Hv) as Hlv. pose proof (node_turns _ _ _ Hv) as Htv.
  destruct (no_solution d kv qv A B v (scalar_of E cs msg)) as [(tv & Hin & Hc)|(q & Hin & Hc)].
  - lia.
  - eapply nodes_items; eauto.
  - exact Hlv.
  - exact Hall.
  - left. destruct Hk as [Hm Hk]. rewrite Forall_forall in Hk. pose proof (Hk tv Hin) as Hn. exists (fst tv).
    split; [rewrite <- Hm; apply in_map, Hin|]. pose proof (node_short _ _ _ Hn). pose proof (node_turns _ _ _ Hn) as Ht2.
    destruct (prefix_nth (snd tv) v Ht2) as [w ->].
    + intros i Hi. specialize (Hc (S i) ltac:(lia)). unfold tau in Hc. replace (S i - 1)%nat with i in Hc by lia.
      destruct (Nat.eqb_spec (S i) d); [lia|]. rewrite N.add_0_r in Hc. apply cong_small in Hc; auto using path_small.
    + exists (snd tv), w. auto.
  - right. assert (Hq' : exists msg', In (fst (fst q), msg') qs /\ node_at d (fst (fst q)) (snd (fst q)) /\ snd q = scalar_of E cs msg').
    { clear -Hq Hin. induction Hq as [|q0 r qs qv (Ht & Hn & Hs) _ IH]; [contradiction|]. destruct Hin as [->|Hin].
      - exists (snd q0). rewrite Ht. destruct q0 as [a b]. cbn [fst snd] in *. split; [left; reflexivity|]. auto.
      - destruct (IH Hin) as (m' & H1 & H2). exists m'. split; [right; exact H1|exact H2]. }
    destruct Hq' as (msg' & Hin' & Hn & Hs). pose proof (node_short _ _ _ Hn) as Hl. pose proof (node_turns _ _ _ Hn) as Ht2.
    assert (Hnth : forall i, (i < d - 1)%nat -> nth i v 0 = nth i (snd (fst q)) 0).
    { intros i Hi. specialize (Hc (S i) ltac:(lia)). unfold tau in Hc. replace (S i - 1)%nat with i in Hc by lia.
      destruct (Nat.eqb_spec (S i) d); [lia|]. rewrite !N.add_0_r in Hc. apply cong_small in Hc; auto using path_small. }
    assert (Heq : v = snd (fst q)).
    { destruct (prefix_nth (snd (fst q)) v Ht2) as [w Hw1]; [intros i Hi; apply Hnth; lia|].
      destruct (prefix_nth v (snd (fst q)) Htv) as [w' Hw2]; [intros i Hi; symmetry; apply Hnth; lia|].
      assert (Hlen : (length v = length v + length w' + length w)%nat) by (rewrite <- !app_length, <- Hw2; rewrite Hw1 at 1; reflexivity).
      destruct w; [rewrite app_nil_r in Hw1; exact Hw1|cbn in Hlen; lia]. }
    exists msg'. subst v. rewrite (node_at_inj _ _ _ _ Hv Hn). split; [exact Hin'|]. rewrite <- Hs.
    specialize (Hc d ltac:(lia)). unfold tau in Hc. rewrite Nat.eqb_refl in Hc.
    destruct Hc as [z Hz]. symmetry. apply cong_small; [apply N.mod_lt; discriminate|rewrite Hs; apply N.mod_lt; discriminate|]. exists z. lia.
Qed.
Lemma works_only {E} (L : env_laws E) (g : G1 E) m d cs ts qs A B t msg :
  g1_insub g = true -> g <> g1_zero -> (1 <= d < 64)%nat -> cs = 0 \/ cs = 1 ->
  Forall (fun s => 1 <= s <= last_time d) ts -> Forall (fun q => 1 <= fst q <= last_time d) qs ->
  @works E m d cs ts qs A B t msg ->
  (exists a, In a ts /\ below d a t) \/ (exists msg', In (t, msg') qs /\ scalar_of E cs msg' = scalar_of E cs msg).
Proof.
  intros Hg Hnz Hd Hcs Hts Hqs Hw. destruct (nodes_ex d ts Hts) as [kv Hk]. destruct (queries_ex E d cs qs Hqs) as [qv Hq].
  assert (Hv : exists v, node_at d t v).
  { pose proof (works_accepts L g m d cs ts qs kv qv A B t msg (fun _ => 1) Hg Hnz Hd Hk Hq Hw ltac:(intros; cbv beta; lia)) as H.
    apply (verify_spec L) in H as (_ & _ & _ & _ & v & Hn & _); [exists v; exact Hn| |].
    - apply (exp_pp_ok L); assumption.
    - cbn [pk_pk]. apply (g2_mul_insub L), (l2_one_sub E L). }
  destruct Hv as [v Hv]. apply (items_used L d cs ts qs kv qv A B t v msg); auto; [lia|].
  intros p Hp. apply (accept_cong L g m d cs kv qv A B t v msg); auto. eapply (works_accepts L); eauto.
Qed.

(** * Strategies that work *)
Lemma lincomb_skip {E} (L : env_laws E) B : forall n (l : list (G1 E)), (n <= length l)%nat ->
  lincomb (repeat 0 n ++ B) l = lincomb B (skipn n l).
Proof.
  induction n as [|n IH]; intros [|h l] Hl; cbn [repeat app lincomb skipn length] in *; try reflexivity; try lia.
  rewrite IH by lia. rewrite (l1_mul0 E L). g1_solve L.
Qed.
Lemma lincomb2_skip {E} (L : env_laws E) B : forall n (l : list (G2 E)), (n <= length l)%nat ->
  lincomb2 (repeat 0 n ++ B) l = lincomb2 B (skipn n l).
Proof.
  induction n as [|n IH]; intros [|h l] Hl; cbn [repeat app lincomb2 skipn length] in *; try reflexivity; try lia.
  rewrite IH by lia. rewrite (l2_mul0 E L). g2_solve L.
Qed.
Lemma skip1 {E} (L : env_laws E) n B (l1 l2 : list (G1 E)) : n = length l1 -> lincomb (repeat 0 n ++ B) (l1 ++ l2) = lincomb B l2.
Proof.
  intros ->. rewrite (lincomb_skip L) by (rewrite app_length; lia). rewrite skipn_app, skipn_all, Nat.sub_diag. reflexivity.
Qed.
Lemma skip2 {E} (L : env_laws E) n B (l1 l2 : list (G2 E)) : n = length l1 -> lincomb2 (repeat 0 n ++ B) (l1 ++ l2) = lincomb2 B l2.
Proof.
  intros ->. rewrite (lincomb2_skip L) by (rewrite app_length; lia). rewrite skipn_app, skipn_all, Nat.sub_diag. reflexivity.
Qed.
Lemma lincomb_one {E} (L : env_laws E) M : forall n (l : list (G1 E)), lincomb [M] (skipn n l) = g1_mul M (nth n l g1_zero).
Proof.
  induction n as [|n IH]; intros [|h l]; cbn [skipn nth lincomb].
  - g1_solve L.
  - g1_solve L.
  - g1_solve L.
  - rewrite <- IH. reflexivity.
Qed.
Lemma lincomb_short {E} B (l1 l2 : list (G1 E)) : length B = length l1 -> lincomb B (l1 ++ l2) = lincomb B l1.
Proof.
  intros H. rewrite <- (lincomb_firstn (length B) B (l1 ++ l2)) by lia. rewrite H, firstn_app, Nat.sub_diag, firstn_all, app_nil_r. reflexivity.
Qed.

Lemma held_app {E} (pp : pubparam E) x t1 t2 ks : held_keys pp x (t1 ++ t2) ks ->
  exists k1 k2, ks = k1 ++ k2 /\ held_keys pp x t1 k1 /\ held_keys pp x t2 k2.
Proof.
  intros [Hm Hf]. revert ks Hm Hf. induction t1 as [|t t1 IH]; intros ks Hm Hf.
  - exists [], ks. split; [reflexivity|]. split; [split; [reflexivity|constructor]|split; assumption].
  - destruct ks as [|k ks]; [discriminate Hm|]. cbn [map app] in Hm. injection Hm as Ht Hm. inversion Hf; subst.
    destruct (IH ks Hm) as (k1 & k2 & -> & [Hm1 Hf1] & Hk2); [assumption|]. exists (k :: k1), k2.
    split; [reflexivity|]. split; [|exact Hk2]. split; [cbn; f_equal; exact Hm1|constructor; assumption].
Qed.
Lemma held_hvec_len {E} (pp : pubparam E) x t1 kv k1 : length (pp_hlist pp) = (pp_depth pp + 1)%nat ->
  nodes_of (pp_depth pp) t1 kv -> held_keys pp x t1 k1 ->
  length (concat (map sk_hvec k1)) = list_sum (map (fun tv => pp_depth pp - length (snd tv))%nat kv).
Proof.
  intros Hlen [Hm Hk] [Hm' Hf]. revert t1 k1 Hm Hm' Hf. induction Hk as [|tv kv Hn _ IH]; intros t1 k1 Hm Hm' Hf.
  - destruct t1; [|discriminate Hm]. destruct k1; [reflexivity|discriminate Hm'].
  - destruct t1 as [|t t1]; [discriminate Hm|]. destruct k1 as [|k k1]; [discriminate Hm'|].
    cbn [map] in Hm, Hm'. injection Hm as Ht Hm. injection Hm' as Ht' Hm'. inversion Hf as [|? ? [(v & r & Hv & He) _] Hf']; subst.
    cbn [map concat list_sum fold_right]. rewrite app_length, (IH _ _ eq_refl Hm' Hf'). f_equal.
    rewrite Ht' in Hv. rewrite (node_at_fun _ _ _ _ Hv Hn) in *. rewrite He. cbn [honest_ssk sk_hvec].
    rewrite map_length, firstn_length, skipn_length. lia.
Qed.

Lemma key_strategy {E} (L : env_laws E) m d cs ts qs a t msg :
  (1 <= d < 64)%nat -> cs = 0 \/ cs = 1 -> Forall (fun s => 1 <= s <= last_time d) ts ->
  In a ts -> below d a t -> exists A B, @works E m d cs ts qs A B t msg.
Proof.
  intros Hd Hcs Hts Hin (va & w & Hva & Hvt). apply in_split in Hin as (t1 & t2 & ->).
  apply Forall_app in Hts as [Ht1 _]. destruct (nodes_ex d t1 Ht1) as [kv Hkv].
  pose proof (node_short _ _ _ Hvt) as Hl. rewrite app_length in Hl.
  exists ([0; 0] ++ repeat 0 (length t1) ++ [1]).
  exists (repeat 0 (1 + (d + 1) + length t1) ++ 1 :: repeat 0 (length t2 + list_sum (map (fun tv => d - length (snd tv))%nat kv))
          ++ (w ++ repeat 0 (d - length va - 1 - length w) ++ [scalar_of E cs msg])).
  intros pp pk x ks sigs Hgen -> Hnz Hks Hsigs.
  destruct Hgen as [Hpp Hdep Hcs' Hg2 Hlen _ _]. pose proof (proj2 (valid_cs_iff cs) Hcs) as Hvcs.
  apply held_app in Hks as (k1 & k2' & -> & Hk1 & Hk2').
  destruct Hk2' as [Hm2 Hf2]. destruct k2' as [|k k2]; [discriminate Hm2|]. cbn [map] in Hm2. injection Hm2 as Hkt Hm2.
  apply Forall_inv in Hf2 as [(v & r & Hv & Hk) _]. subst d cs. rewrite Hkt in Hv, Hk.
  rewrite (node_at_fun _ _ _ _ Hv Hva) in Hk. clear Hv v.
  pose proof (proj1 Hk1) as Hm1.
  match goal with |- verify _ ?s _ _ _ = _ => assert (Hs : s = honest_sig pp x t (va ++ w) (msg_scalar pp msg) r) end.
  { unfold forged, honest_sig. f_equal.
    - unfold view2. rewrite map_app, <- app_assoc. cbn [app lincomb2 map].
      rewrite (skip2 L) by (rewrite <- Hm1, !map_length; reflexivity). cbn [lincomb2]. rewrite Hk. cbn [honest_ssk sk_g2r].
      rewrite !(l2_mul0 E L). g2_solve L.
    - unfold view1. rewrite !map_app, concat_app. cbn [map concat].
      replace (pp_h pp :: pp_hlist pp ++ (map sk_hpoly k1 ++ sk_hpoly k :: map sk_hpoly k2) ++ (concat (map sk_hvec k1) ++ sk_hvec k ++ concat (map sk_hvec k2)) ++ map sig_2 sigs)
        with ((pp_h pp :: pp_hlist pp ++ map sk_hpoly k1) ++ sk_hpoly k :: (map sk_hpoly k2 ++ concat (map sk_hvec k1)) ++ sk_hvec k ++ concat (map sk_hvec k2) ++ map sig_2 sigs)
        by (cbn [app]; rewrite <- !app_assoc; reflexivity).
      assert (Hl1 : length k1 = length t1) by (rewrite <- Hm1, map_length; reflexivity).
      assert (Hl2 : length k2 = length t2) by (rewrite <- Hm2, map_length; reflexivity).
      rewrite (skip1 L) by (cbn [length]; rewrite app_length, map_length; lia).
      cbn [lincomb]. rewrite (skip1 L).
      2:{ rewrite app_length, map_length, (held_hvec_len pp x t1 kv k1 Hlen Hkv Hk1). lia. }
      assert (Hlv : length (sk_hvec k) = (pp_depth pp - length va)%nat).
      { rewrite Hk. cbn [honest_ssk sk_hvec]. rewrite map_length, firstn_length, skipn_length. lia. }
      rewrite lincomb_short by (rewrite !app_length, repeat_length, Hlv; cbn [length]; lia).
      rewrite Hk. cbn [honest_ssk sk_hvec sk_hpoly]. rewrite (lincomb_scale L).
      rewrite lincomb_firstn by (rewrite !app_length, repeat_length; cbn [length]; lia).
      rewrite (lincomb_app L) by (rewrite skipn_length; lia).
      rewrite (lincomb_skip L) by (rewrite !skipn_length; lia). rewrite !skipn_skipn, (lincomb_one L).
      match goal with |- context [g1_mul _ (nth ?n _ _)] => replace n with (pp_depth pp) by lia end.
      change (scalar_of E (pp_cs pp) msg) with (msg_scalar pp msg).
      unfold sig_val. rewrite (node_val_app L) by (assumption || lia).
      rewrite (l1_mul1 E L). g1_solve L. }
  rewrite Hs. apply (verify_honest L); auto.
Qed.

Lemma held_sigs_in {E} (pp : pubparam E) x q1 q q2 sigs : held_sigs pp x (q1 ++ q :: q2) sigs ->
  exists s1 s s2 v k, sigs = s1 ++ s :: s2 /\ length s1 = length q1 /\ node_at (pp_depth pp) (fst q) v
    /\ s = honest_sig pp x (fst q) v (msg_scalar pp (snd q)) k.
Proof.
  unfold held_sigs. revert sigs. induction q1 as [|q' q1 IH]; intros sigs H; inversion H as [|? s ? sigs' H1 H2]; subst.
  - destruct H1 as (v & k & Hv & Hs & _). exists [], s, sigs', v, k. auto.
  - destruct (IH sigs' H2) as (s1 & s' & s2 & v & k & -> & Hl & Hr). exists (s :: s1), s', s2, v, k.
    split; [reflexivity|]. split; [cbn; lia|exact Hr].
Qed.
Lemma query_strategy {E} (L : env_laws E) m d cs ts qs t msg msg' :
  (1 <= d < 64)%nat -> cs = 0 \/ cs = 1 -> Forall (fun s => 1 <= s <= last_time d) ts ->
  In (t, msg') qs -> scalar_of E cs msg' = scalar_of E cs msg -> exists A B, @works E m d cs ts qs A B t msg.
Proof.
  intros Hd Hcs Hts Hin Hsc. apply in_split in Hin as (q1 & q2 & ->). destruct (nodes_ex d ts Hts) as [kv Hkv].
  exists (repeat 0 (2 + length ts + length q1) ++ [1]).
  exists (repeat 0 (1 + (d + 1) + length ts + list_sum (map (fun tv => d - length (snd tv))%nat kv) + length q1) ++ [1]).
  intros pp pk x ks sigs Hgen -> Hnz Hks Hsigs.
  destruct Hgen as [Hpp Hdep Hcs' Hg2 Hlen _ _]. pose proof (proj2 (valid_cs_iff cs) Hcs) as Hvcs. subst d cs.
  apply held_sigs_in in Hsigs as (s1 & s & s2 & v & k & -> & Hl & Hn & Hs). cbn [fst snd] in *.
  assert (Hl1 : length ks = length ts) by (rewrite <- (proj1 Hks), map_length; reflexivity).
  match goal with |- verify _ ?s _ _ _ = _ => assert (He : s = honest_sig pp x t v (msg_scalar pp msg) k) end.
  { unfold forged, honest_sig. f_equal.
    - unfold view2. rewrite map_app. cbn [map].
      replace (pp_g2 pp :: pk_pk (PubKey (pp_cs pp) (g2_mul x (pp_g2 pp))) :: map sk_g2r ks ++ map sig_1 s1 ++ sig_1 s :: map sig_1 s2)
        with ((pp_g2 pp :: pk_pk (PubKey (pp_cs pp) (g2_mul x (pp_g2 pp))) :: map sk_g2r ks ++ map sig_1 s1) ++ sig_1 s :: map sig_1 s2)
        by (cbn [app]; rewrite <- !app_assoc; reflexivity).
      rewrite (skip2 L) by (cbn [length]; rewrite app_length, !map_length; lia). cbn [lincomb2]. rewrite Hs. cbn [honest_sig sig_1].
      g2_solve L.
    - unfold view1. rewrite map_app. cbn [map].
      replace (pp_h pp :: pp_hlist pp ++ map sk_hpoly ks ++ concat (map sk_hvec ks) ++ map sig_2 s1 ++ sig_2 s :: map sig_2 s2)
        with ((pp_h pp :: pp_hlist pp ++ map sk_hpoly ks ++ concat (map sk_hvec ks) ++ map sig_2 s1) ++ sig_2 s :: map sig_2 s2)
        by (cbn [app]; rewrite <- !app_assoc; reflexivity).
      rewrite (skip1 L) by (cbn [length]; rewrite !app_length, !map_length, (held_hvec_len pp x ts kv ks Hlen Hkv Hks); lia).
      cbn [lincomb]. rewrite Hs. cbn [honest_sig sig_2]. unfold scalar_of in Hsc. unfold msg_scalar. rewrite Hsc. g1_solve L. }
  rewrite He. apply (verify_honest L); auto.
Qed.

(** * The characterisation *)
Lemma linear_attack_iff : forall (E : env) (L : env_laws E) (g : G1 E) m d cs ts qs t msg,
  g1_insub g = true -> g <> g1_zero -> (1 <= d < 64)%nat -> cs = 0 \/ cs = 1 ->
  Forall (fun s => 1 <= s <= last_time d) ts -> Forall (fun q => 1 <= fst q <= last_time d) qs ->
  ((exists A B, @works E m d cs ts qs A B t msg) <->
   (exists a, In a ts /\ below d a t)
   \/ (exists msg', In (t, msg') qs /\ scalar_of E cs msg' = scalar_of E cs msg)).
Proof.
  intros E L g m d cs ts qs t msg Hg Hnz Hd Hcs Hts Hqs. split.
  - intros (A & B & Hw). eapply (works_only L g); eauto.
  - intros [(a & Hin & Hb)|(msg' & Hin & Hs)]; [eapply (key_strategy L)|eapply (query_strategy L)]; eauto.
Qed.

(** * How often another strategy succeeds *)
Definition needs (n : nat) (f : asg -> N) : Prop := forall p p', (forall i, (i < n)%nat -> p i = p' i) -> f p = f p'.
Lemma needs_wsum n v : forall k, (k + length v <= n)%nat -> needs n (fun p => wsum v p k).
Proof.
  induction v as [|x v IH]; intros k Hk p p' H; cbn [wsum length] in *; [reflexivity|].
  rewrite (IH (S k) ltac:(lia) p p' H), (H k) by lia. reflexivity.
Qed.
Lemma needs_nodeE n v : (3 + length v <= n)%nat -> needs n (nodeE v).
Proof. intros Hn p p' H. unfold nodeE. rewrite (H 2%nat) by lia. rewrite (needs_wsum n v 3 ltac:(lia) p p' H). reflexivity. Qed.
Lemma needs_sigE n d v M : (3 + length v <= n)%nat -> (2 + d < n)%nat -> needs n (sigE d v M).
Proof. intros Hn Hd p p' H. unfold sigE. rewrite (needs_nodeE n v Hn p p' H), (H (2 + d)%nat) by lia. reflexivity. Qed.
Lemma needs_dot n B : forall fs, Forall (needs n) fs -> needs n (fun p => dot B (ev fs p)).
Proof.
  induction B as [|b B IH]; intros fs Hfs p p' H; cbn [dot]; [reflexivity|].
  destruct Hfs as [|f fs Hf Hfs]; cbn [ev map dot]; [reflexivity|]. rewrite (Hf p p' H). f_equal. apply (IH fs Hfs p p' H).
Qed.
Lemma needs_lhs d kv qv B : items_ok d kv qv -> needs (3 + d + (length kv + length qv)) (lhs d kv qv B).
Proof.
  intros [Hk Hq]. apply needs_dot, Forall_forall. intros f Hf. rewrite Forall_forall in Hk, Hq.
  apply E1f_in in Hf as [->|[(i & Hi & ->)|[(j & tv & Hn & ->)|[(j & tv & i & Hn & Hi & ->)|(j & q & Hn & ->)]]]]; intros p p' H.
  - apply H. lia.
  - apply H. lia.
  - pose proof (Hk tv (nth_error_In _ _ Hn)) as Hl. cbn beta in Hl. assert (Hj : (j < length kv)%nat) by (apply nth_error_Some; rewrite Hn; discriminate).
    unfold hpolyF. rewrite (H 0%nat), (H 1%nat), (H (3 + d + j)%nat) by lia. f_equal. f_equal. eapply needs_nodeE; [|exact H]. lia.
  - assert (Hj : (j < length kv)%nat) by (apply nth_error_Some; rewrite Hn; discriminate).
    rewrite (H (3 + d + j)%nat), (H (2 + i)%nat) by lia. reflexivity.
  - pose proof (Hq q (nth_error_In _ _ Hn)) as Hl. cbn beta in Hl. assert (Hj : (j < length qv)%nat) by (apply nth_error_Some; rewrite Hn; discriminate).
    unfold sig2F. rewrite (H 0%nat), (H 1%nat), (H (3 + d + (length kv + j))%nat) by lia. f_equal. f_equal.
    eapply needs_sigE; [| |exact H]; lia.
Qed.
Lemma needs_rhs d n A v M : (length v < d)%nat -> needs (3 + d + n) (rhs d n A v M).
Proof.
  intros Hv p p' H. unfold rhs. rewrite (H 0%nat), (H 1%nat) by lia. f_equal. f_equal.
  - apply (needs_dot (3 + d + n) A (E2f d n)); [|exact H]. unfold E2f. constructor; [intros q q' _; reflexivity|].
    constructor; [intros q q' Hq; apply Hq; lia|]. apply Forall_map, Forall_forall. intros j Hj q q' Hq. apply in_seq in Hj. apply Hq. lia.
  - apply (needs_sigE (3 + d + n) d v M); [lia|lia|exact H].
Qed.

Lemma cong_dec a b : {cong a b} + {~ cong a b}.
Proof. apply Zdivide_dec. Qed.
Lemma point_dec f g (p0 : asg) : (forall p p' : asg, (forall i, p i = p' i) -> f p = f p' /\ g p = g p') ->
  forall n p, (forall i, 1 <= p i <= 2) ->
  (forall q, (forall i, 1 <= q i <= 2) -> (forall i, (n <= i)%nat -> q i = p i) -> cong (f q) (g q))
  \/ (exists q, (forall i, 1 <= q i <= 2) /\ ~ cong (f q) (g q)).
Proof.
  intros Hext. induction n as [|n IH]; intros p Hp.
  - destruct (cong_dec (f p) (g p)) as [Hc|Hc]; [left|right; exists p; auto].
    intros q Hq Heq. destruct (Hext q p) as [-> ->]; [intros i; apply Heq; lia|exact Hc].
  - assert (Hu : forall a, 1 <= a <= 2 -> forall i, 1 <= upd n a p i <= 2).
    { intros a Ha i. unfold upd. destruct (i =? n)%nat; auto. }
    destruct (IH (upd n 1 p) (Hu 1 ltac:(lia))) as [H1|H1]; [|right; exact H1].
    destruct (IH (upd n 2 p) (Hu 2 ltac:(lia))) as [H2|H2]; [|right; exact H2].
    left. intros q Hq Heq. assert (Hqn : q n = 1 \/ q n = 2) by (specialize (Hq n); lia).
    assert (Hcase : forall a, q n = a -> forall i, (n <= i)%nat -> q i = upd n a p i).
    { intros a Ha i Hi. unfold upd. destruct (Nat.eqb_spec i n) as [->|]; [exact Ha|apply Heq; lia]. }
    destruct Hqn as [Hqn|Hqn]; [apply H1|apply H2]; auto.
Qed.
Lemma witness n f g : needs n f -> needs n g ->
  ~ (forall p, (forall i, 1 <= p i <= 2) -> cong (f p) (g p)) ->
  exists q, (forall i, 1 <= q i <= 2) /\ ~ cong (f q) (g q).
Proof.
  intros Hf Hg H. destruct (point_dec f g (fun _ => 1)) with (n := n) (p := fun _ : nat => 1) as [Ha|Ha]; [| |contradict H|exact Ha].
  - intros p p' Hp. split; [apply Hf|apply Hg]; intros i _; apply Hp.
  - intros i. cbv beta. lia.
  - intros p Hp. set (q := fun i => if (i <? n)%nat then p i else 1).
    assert (Hq : forall i, (i < n)%nat -> p i = q i) by (intros i Hi; unfold q; rewrite (proj2 (Nat.ltb_lt i n) Hi); reflexivity).
    rewrite (Hf p q Hq), (Hg p q Hq). apply Ha.
    + intros i. unfold q. destruct (i <? n)%nat; [apply Hp|lia].
    + intros i Hi. unfold q. rewrite (proj2 (Nat.ltb_ge i n) Hi). reflexivity.
Qed.

Definition zinv (s : Z) : Z := match euclid s (Z.of_N fr_modulus) with Euclid_intro _ _ u v d _ _ => (d * u)%Z end.
Lemma zinv_ok s : ~ (Z.of_N fr_modulus | s)%Z -> (Z.of_N fr_modulus | zinv s * s - 1)%Z.
Proof.
  intros Hs. unfold zinv. destruct (euclid s (Z.of_N fr_modulus)) as [u v d He Hg].
  assert (Hd : (d = 1 \/ d = -1)%Z).
  { assert (Hrel : rel_prime s (Z.of_N fr_modulus)) by (apply rel_prime_sym, prime_rel_prime; [exact fr_prime|exact Hs]).
    destruct Hrel as [_ _ Hrel]. destruct Hg as [Hd1 Hd2 _]. specialize (Hrel d Hd1 Hd2).
    apply Z.divide_1_r in Hrel. exact Hrel. }
  exists (- d * v)%Z. assert (Hdd : (d * d = 1)%Z) by (destruct Hd as [->| ->]; reflexivity).
  transitivity (d * (u * s) - d * d)%Z; [rewrite Hdd; ring|]. rewrite <- He at 2. ring.
Qed.

Definition gap (f g : asg -> N) (p : asg) : Z := (Z.of_N (f p) - Z.of_N (g p))%Z.
Definition base (q : asg) (i : nat) (p : asg) : asg := fun j => if (j <? i)%nat then p j else if (j =? i)%nat then 0 else q j.
Definition mix (q : asg) (i : nat) (p : asg) : asg := fun j => if (j <? i)%nat then p j else q j.
Definition badv (f g : asg -> N) (q : asg) (i : nat) (p : asg) : N :=
  Z.to_N ((- gap f g (base q i p) * zinv (gap f g (upd i 1 (base q i p)) - gap f g (base q i p))) mod Z.of_N fr_modulus).

Lemma bad_step f g q n i p : needs n f -> needs n g -> af i f -> af i g -> p i < fr_modulus ->
  ~ (Z.of_N fr_modulus | gap f g (mix q i p))%Z -> p i <> badv f g q i p -> ~ (Z.of_N fr_modulus | gap f g (mix q (S i) p))%Z.
Proof.
  intros Hnf Hng Hf Hg Hp Hn Hb Hd. assert (Hext : forall p p', (forall j, p j = p' j) -> gap f g p = gap f g p').
  { intros u u' H. unfold gap. rewrite (Hnf u u'), (Hng u u') by (intros j _; apply H). reflexivity. }
  assert (Hbase : base q i p i = 0) by (unfold base; rewrite Nat.ltb_irrefl, Nat.eqb_refl; reflexivity).
  assert (Haff : forall a, gap f g (upd i a (base q i p)) = (gap f g (base q i p) + Z.of_N a * (gap f g (upd i 1 (base q i p)) - gap f g (base q i p)))%Z).
  { intros a. specialize (Hf (base q i p) a Hbase). specialize (Hg (base q i p) a Hbase). unfold gap. nia. }
  rewrite (Hext (mix q (S i) p) (upd i (p i) (base q i p))) in Hd.
  2:{ intros j. unfold mix, upd, base. destruct (Nat.eqb_spec j i) as [->|Hj]; [rewrite (proj2 (Nat.ltb_lt i (S i))) by lia; reflexivity|].
      destruct (Nat.ltb_spec j (S i)), (Nat.ltb_spec j i); try reflexivity; lia. }
  rewrite (Hext (mix q i p) (upd i (q i) (base q i p))) in Hn.
  2:{ intros j. unfold mix, upd, base. destruct (Nat.eqb_spec j i) as [->|Hj]; [rewrite Nat.ltb_irrefl; reflexivity|].
      destruct (Nat.ltb_spec j i); reflexivity. }
  rewrite Haff in Hd, Hn. unfold badv in Hb. set (D0 := gap f g (base q i p)) in *. set (s := (gap f g (upd i 1 (base q i p)) - D0)%Z) in *.
  destruct (Zdivide_dec (Z.of_N fr_modulus) s) as [Hs|Hs].
  - apply Hn. apply Z.divide_add_r; [|apply Z.divide_mul_r, Hs].
    replace D0 with (D0 + Z.of_N (p i) * s - Z.of_N (p i) * s)%Z by ring. apply Z.divide_sub_r; [exact Hd|apply Z.divide_mul_r, Hs].
  - apply Hb. pose proof (zinv_ok s Hs) as Hi. apply N2Z.inj. rewrite Z2N.id by (apply Z.mod_pos_bound; reflexivity).
    rewrite <- (Z.mod_small (Z.of_N (p i)) (Z.of_N fr_modulus)) by lia.
    assert (Hdiv : (Z.of_N fr_modulus | Z.of_N (p i) - - D0 * zinv s)%Z).
    { replace (Z.of_N (p i) - - D0 * zinv s)%Z with (zinv s * (D0 + Z.of_N (p i) * s) - Z.of_N (p i) * (zinv s * s - 1))%Z by ring.
      apply Z.divide_sub_r; apply Z.divide_mul_r; assumption. }
    destruct Hdiv as [z Hz]. replace (Z.of_N (p i)) with (- D0 * zinv s + z * Z.of_N fr_modulus)%Z by lia.
    apply Z_mod_plus_full.
Qed.

Lemma bad_all f g q n p : needs n f -> needs n g -> (forall i, af i f) -> (forall i, af i g) -> (forall i, p i < fr_modulus) ->
  ~ cong (f q) (g q) -> cong (f p) (g p) -> unlucky n (badv f g q) p.
Proof.
  intros Hnf Hng Hf Hg Hp Hq Hc. destruct (all_or_ex (fun i => p i <> badv f g q i p)) with (n := n) as [Ha|(i & Hi & He)].
  - intros i. destruct (N.eq_dec (p i) (badv f g q i p)); [right; tauto|left; assumption].
  - exfalso. assert (Hm : forall k, (k <= n)%nat -> ~ (Z.of_N fr_modulus | gap f g (mix q k p))%Z).
    { induction k as [|k IH]; intros Hk.
      - intros H. apply Hq. unfold cong. unfold gap in H.
        rewrite (Hnf (mix q 0 p) q), (Hng (mix q 0 p) q) in H by (intros; reflexivity). exact H.
      - apply (bad_step f g q n); auto. apply IH. lia. }
    apply (Hm n (le_n n)). unfold gap. rewrite (Hnf (mix q n p) p), (Hng (mix q n p) p); [exact Hc| |];
      intros j Hj; unfold mix; rewrite (proj2 (Nat.ltb_lt j n) Hj); reflexivity.
  - exists i. split; [exact Hi|]. destruct (N.eq_dec (p i) (badv f g q i p)); tauto.
Qed.
Lemma bad_earlier f g q n : needs n f -> needs n g -> from_earlier (badv f g q).
Proof.
  intros Hnf Hng i p p' H. unfold badv. assert (Hb : forall j, base q i p j = base q i p' j).
  { intros j. unfold base. destruct (Nat.ltb_spec j i); [apply H; lia|reflexivity]. }
  assert (HD : forall a, gap f g (upd i a (base q i p)) = gap f g (upd i a (base q i p'))).
  { intros a. unfold gap. rewrite (Hnf _ (upd i a (base q i p'))), (Hng _ (upd i a (base q i p'))); [reflexivity| |];
      intros j _; unfold upd; rewrite Hb; reflexivity. }
  assert (HD0 : gap f g (base q i p) = gap f g (base q i p')).
  { unfold gap. rewrite (Hnf _ (base q i p')), (Hng _ (base q i p')); [reflexivity| |]; intros j _; apply Hb. }
  rewrite HD, HD0. reflexivity.
Qed.

Lemma mapi_nth {A B} (F : nat -> A -> B) : forall l k j, nth_error (mapi F k l) j = option_map (F (k + j)%nat) (nth_error l j).
Proof.
  induction l as [|a l IH]; intros k [|j]; cbn [mapi nth_error option_map]; try reflexivity.
  - rewrite Nat.add_0_r. reflexivity.
  - rewrite IH. replace (S k + j)%nat with (k + S j)%nat by lia. reflexivity.
Qed.
Lemma nth_ext_eq {A} : forall l l' : list A, (forall j, nth_error l j = nth_error l' j) -> l = l'.
Proof.
  induction l as [|a l IH]; intros [|a' l'] H; [reflexivity|discriminate (H 0%nat)|discriminate (H 0%nat)|].
  pose proof (H 0%nat) as H0. injection H0 as ->. f_equal. apply IH. intros j. apply (H (S j)).
Qed.
Lemma exp_keys_of {E} (g : G1 E) d cs p ts ks kv : nodes_of d ts kv -> exp_keys g d cs p ts ks -> ks = ks_of g d cs p kv.
Proof.
  intros [Hm Hk] [Hl H]. apply nth_ext_eq. intros j. unfold ks_of. rewrite mapi_nth. cbn [Nat.add].
  destruct (nth_error kv j) as [tv|] eqn:Hn; cbn [option_map].
  - destruct (H j (fst tv)) as (v & Hv & ->).
    + rewrite <- Hm, nth_error_map, Hn. reflexivity.
    + rewrite Forall_forall in Hk. rewrite (node_at_fun _ _ _ _ Hv (Hk tv (nth_error_In _ _ Hn))). reflexivity.
  - apply nth_error_None in Hn. apply nth_error_None. rewrite Hl, <- Hm, map_length. exact Hn.
Qed.
Lemma queries_length E d cs qs qv : queries_of E d cs qs qv -> length qs = length qv.
Proof. induction 1; cbn; lia. Qed.
Lemma queries_nth E d cs qs qv j r : queries_of E d cs qs qv -> nth_error qv j = Some r ->
  exists q, nth_error qs j = Some q /\ fst (fst r) = fst q /\ node_at d (fst q) (snd (fst r)) /\ snd r = scalar_of E cs (snd q).
Proof.
  intros H. revert j. induction H as [|q r0 qs qv H _ IH]; intros [|j] Hj; try discriminate Hj.
  - injection Hj as <-. exists q. auto.
  - apply (IH j Hj).
Qed.
Lemma exp_sigs_of {E} (g : G1 E) d cs p k qs sigs qv : queries_of E d cs qs qv -> exp_sigs g d cs p k qs sigs -> sigs = sigs_of g d cs p k qv.
Proof.
  intros Hq [Hl H]. apply nth_ext_eq. intros j. unfold sigs_of. rewrite mapi_nth.
  destruct (nth_error qv j) as [r|] eqn:Hn; cbn [option_map].
  - destruct (queries_nth _ _ _ _ _ _ _ Hq Hn) as (q & Hj & Ht & Hv & Hs). destruct (H j q Hj) as (v & Hv' & ->).
    rewrite (node_at_fun _ _ _ _ Hv' Hv), Ht, Hs. rewrite Nat.add_assoc. reflexivity.
  - apply nth_error_None in Hn. apply nth_error_None. rewrite Hl, (queries_length _ _ _ _ _ Hq). exact Hn.
Qed.

Lemma linear_attack_rare : forall (E : env) (L : env_laws E) (g : G1 E) m d cs ts qs t msg A B,
  g1_insub g = true -> g <> g1_zero -> (1 <= d < 64)%nat -> cs = 0 \/ cs = 1 ->
  Forall (fun s => 1 <= s <= last_time d) ts -> Forall (fun q => 1 <= fst q <= last_time d) qs ->
  ~ (exists a, In a ts /\ below d a t) ->
  ~ (exists msg', In (t, msg') qs /\ scalar_of E cs msg' = scalar_of E cs msg) ->
  exists bad, from_earlier bad /\
    forall p ks sigs, (forall i, p i < fr_modulus) ->
      exp_keys g d cs p ts ks -> exp_sigs g d cs p (length ts) qs sigs ->
      verify m (forged A B t (exp_pp g d cs p) (exp_pk cs p) ks sigs) (exp_pk cs p) (exp_pp g d cs p) msg = Ok true ->
      unlucky (3 + d + (length ts + length qs)) bad p.
Proof.
  intros E L g m d cs ts qs t msg A B Hg Hnz Hd Hcs Hts Hqs Hnk Hnq.
  destruct (nodes_ex d ts Hts) as [kv Hk]. destruct (queries_ex E d cs qs Hqs) as [qv Hq].
  pose proof (nodes_items E d cs ts kv qs qv Hk Hq) as Hok.
  assert (Hl1 : length ts = length kv) by (rewrite <- (proj1 Hk), map_length; reflexivity).
  pose proof (queries_length _ _ _ _ _ Hq) as Hl2.
  assert (Hacc : forall p ks sigs, exp_keys g d cs p ts ks -> exp_sigs g d cs p (length ts) qs sigs ->
     forged A B t (exp_pp g d cs p) (exp_pk cs p) ks sigs
     = Signature cs t (g2_mul (dot A (ev (E2f d (length kv + length qv)) p)) g2_one) (g1_mul (lhs d kv qv B p) g)).
  { intros p ks sigs H1 H2. rewrite (exp_keys_of _ _ _ _ _ _ _ Hk H1). rewrite Hl1 in H2. rewrite (exp_sigs_of _ _ _ _ _ _ _ _ Hq H2).
    apply (forged_exp L), Hok. }
  destruct (N.le_gt_cases 1 t) as [Ht1|Ht1]; [destruct (N.le_gt_cases t (last_time d)) as [Ht2|Ht2]|].
  - destruct (node_at_ex d t (conj Ht1 Ht2)) as [v Hv]. pose proof (node_short _ _ _ Hv) as Hlv.
    set (n := (3 + d + (length kv + length qv))%nat). set (M := scalar_of E cs msg).
    assert (Hnf : needs n (lhs d kv qv B)) by (apply needs_lhs, Hok).
    assert (Hng : needs n (rhs d (length kv + length qv) A v M)) by (apply needs_rhs, Hlv).
    destruct (witness n _ _ Hnf Hng) as (q & Hq1 & Hq2).
    { intros Hall. destruct (items_used L d cs ts qs kv qv A B t v msg ltac:(lia) Hk Hq Hv Hall) as [H|H]; [exact (Hnk H)|exact (Hnq H)]. }
    exists (badv (lhs d kv qv B) (rhs d (length kv + length qv) A v M) q). split; [eapply bad_earlier; eauto|].
    intros p ks sigs Hp Hks Hsigs Hver. rewrite (Hacc p ks sigs Hks Hsigs) in Hver.
    apply (accept_cong L g m d cs kv qv A B t v msg p Hg Hnz Hd Hcs Hv) in Hver. rewrite Hl1, Hl2.
    apply bad_all; auto.
    + intros i. apply af_dot, af_E1, Hok.
    + intros i. apply af_rhs, Hlv.
  - exists (fun _ _ => 0). split; [intros i p p' _; reflexivity|]. intros p ks sigs Hp Hks Hsigs Hver. exfalso.
    rewrite (Hacc p ks sigs Hks Hsigs) in Hver. apply (verify_spec L) in Hver as (_ & _ & _ & _ & v & Hn & _).
    + apply node_at_range in Hn. cbn [sig_time exp_pp pp_depth] in Hn. lia.
    + apply (exp_pp_ok L); assumption.
    + apply (g2_mul_insub L), (l2_one_sub E L).
  - exists (fun _ _ => 0). split; [intros i p p' _; reflexivity|]. intros p ks sigs Hp Hks Hsigs Hver. exfalso.
    rewrite (Hacc p ks sigs Hks Hsigs) in Hver. apply (verify_spec L) in Hver as (_ & _ & _ & _ & v & Hn & _).
    + apply node_at_range in Hn. cbn [sig_time exp_pp pp_depth] in Hn. lia.
    + apply (exp_pp_ok L); assumption.
    + apply (g2_mul_insub L), (l2_one_sub E L).
Qed.

(** * Leaked keys *)
Lemma leaked_key_view : forall (E : env) (L : env_laws E) m (pp : pubparam E) pk sk,
  pp_ok pp -> reachable m pp pk sk ->
  exists x, pk = PubKey (pp_cs pp) (g2_mul x (pp_g2 pp))
    /\ (Forall (fun s => sk_g2r s <> g2_zero) (sec_ssk sk) ->
        held_keys pp x (map sk_t (sec_ssk sk)) (sec_ssk sk)).
Proof.
  intros E L m pp pk sk Hpp Hr. destruct (reachable_good L m pp pk sk Hpp Hr) as (x & _ & Hpk & Hg & _).
  exists x. split; [exact Hpk|]. intros Hnz. split; [reflexivity|].
  apply Forall_forall. intros s Hs. rewrite Forall_forall in Hnz. pose proof (gsk_honest _ _ _ Hg) as Hh. rewrite Forall_forall in Hh. auto.
Qed.

Lemma leaked_covers {E} (L : env_laws E) m (pp : pubparam E) pk sk t : pp_ok pp -> reachable m pp pk sk ->
  (pp_cs pp = 0 \/ pp_cs pp = 1)
  /\ Forall (fun s => 1 <= s <= last_time (pp_depth pp)) (map sk_t (sec_ssk sk))
  /\ ((exists a, In a (map sk_t (sec_ssk sk)) /\ below (pp_depth pp) a t) <-> sec_time sk <= t <= last_time (pp_depth pp)).
Proof.
  intros Hpp Hr. destruct (reachable_good L m pp pk sk Hpp Hr) as (x & _ & _ & Hg & Hcs).
  split; [apply valid_cs_iff, Hcs|]. pose proof (gsk_til _ _ _ Hg) as Htil. split; [eapply tiling_nodes, Htil|]. split.
  - intros (a & Hin & Hb). split; [eapply tiling_no_past; eauto|]. destruct Hb as (va & w & _ & Hn). apply node_at_range in Hn. lia.
  - intros Ht. destruct (tiling_cover _ _ _ t Htil Ht) as (a & Hin & Hb & _). eauto.
Qed.

Lemma leaked_key_iff : forall (E : env) (L : env_laws E) (g : G1 E) m (pp : pubparam E) pk sk qs t msg,
  g1_insub g = true -> g <> g1_zero -> pp_ok pp -> reachable m pp pk sk ->
  Forall (fun q => 1 <= fst q <= last_time (pp_depth pp)) qs ->
  ((exists A B, @works E m (pp_depth pp) (pp_cs pp) (map sk_t (sec_ssk sk)) qs A B t msg) <->
   sec_time sk <= t <= last_time (pp_depth pp)
   \/ (exists msg', In (t, msg') qs /\ msg_scalar pp msg' = msg_scalar pp msg)).
Proof.
  intros E L g m pp pk sk qs t msg Hg Hnz Hpp Hr Hqs. destruct (leaked_covers L m pp pk sk t Hpp Hr) as (Hcs & Hts & Hc).
  rewrite (linear_attack_iff E L g m (pp_depth pp) (pp_cs pp) (map sk_t (sec_ssk sk)) qs t msg Hg Hnz (ppo_depth pp Hpp) Hcs Hts Hqs).
  rewrite Hc. reflexivity.
Qed.

Lemma leaked_key_rare : forall (E : env) (L : env_laws E) (g : G1 E) m (pp : pubparam E) pk sk qs t msg A B,
  g1_insub g = true -> g <> g1_zero -> pp_ok pp -> reachable m pp pk sk ->
  Forall (fun q => 1 <= fst q <= last_time (pp_depth pp)) qs ->
  t < sec_time sk ->
  ~ (exists msg', In (t, msg') qs /\ msg_scalar pp msg' = msg_scalar pp msg) ->
  let d := pp_depth pp in let cs := pp_cs pp in let ts := map sk_t (sec_ssk sk) in
  exists bad, from_earlier bad /\
    forall p ks sigs, (forall i, p i < fr_modulus) ->
      exp_keys g d cs p ts ks -> exp_sigs g d cs p (length ts) qs sigs ->
      verify m (forged A B t (exp_pp g d cs p) (exp_pk cs p) ks sigs) (exp_pk cs p) (exp_pp g d cs p) msg = Ok true ->
      unlucky (3 + d + (length ts + length qs)) bad p.
Proof.
  intros E L g m pp pk sk qs t msg A B Hg Hnz Hpp Hr Hqs Ht Hnq d cs ts.
  destruct (leaked_covers L m pp pk sk t Hpp Hr) as (Hcs & Hts & Hc).
  apply (linear_attack_rare E L g m d cs ts qs t msg A B); auto; [apply (ppo_depth pp Hpp)|].
  intros H. apply Hc in H. lia.
Qed.

Lemma signatures_only_iff : forall (E : env) (L : env_laws E) (g : G1 E) m d cs qs t msg,
  g1_insub g = true -> g <> g1_zero -> (1 <= d < 64)%nat -> cs = 0 \/ cs = 1 ->
  Forall (fun q => 1 <= fst q <= last_time d) qs ->
  ((exists A B, @works E m d cs [] qs A B t msg) <->
   exists msg', In (t, msg') qs /\ scalar_of E cs msg' = scalar_of E cs msg).
Proof.
  intros E L g m d cs qs t msg Hg Hnz Hd Hcs Hqs.
  rewrite (linear_attack_iff E L g m d cs [] qs t msg Hg Hnz Hd Hcs (Forall_nil _) Hqs).
  split; [intros [(a & [] & _)|H]; exact H|intros H; right; exact H].
Qed.

Lemma one_subkey_iff : forall (E : env) (L : env_laws E) (g : G1 E) m d cs a t msg,
  g1_insub g = true -> g <> g1_zero -> (1 <= d < 64)%nat -> cs = 0 \/ cs = 1 -> 1 <= a <= last_time d ->
  ((exists A B, @works E m d cs [a] [] A B t msg) <-> below d a t).
Proof.
  intros E L g m d cs a t msg Hg Hnz Hd Hcs Ha.
  rewrite (linear_attack_iff E L g m d cs [a] [] t msg Hg Hnz Hd Hcs (Forall_cons _ Ha (Forall_nil _)) (Forall_nil _)).
  split; [intros [(a' & [->|[]] & H)|(? & [] & _)]; exact H|intros H; left; exists a; split; [left; reflexivity|exact H]].
Qed.
