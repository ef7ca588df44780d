(** Proofs for C106: the solver as a program, and its costs. *)
From Coq Require Import ZArith Lia ZifyBool ZifyNat ZifyN.
From Verif Require Import Base Env Time SpecTime Prng SpecPrng SubKey SecretKey Keys Sig
  SpecKey SpecUpdate SpecAgg SpecRed SpecMulti SpecRom SpecPop SpecFwd SpecCost TimeFacts.
Local Open Scope N_scope.

(** * Programs *)
Lemma pay_pay A B c1 c2 (r : A * B * N) : pay c1 (pay c2 r) = pay (c1 + c2) r.
Proof. destruct r as [[a w] c]. cbn. f_equal. lia. Qed.
Lemma run_bind (E : env) A B (p : prog (G1 E) (G2 E) (GT E) bytes A) (f : A -> prog (G1 E) (G2 E) (GT E) bytes B) : forall w,
  run (pbind p f) w = let '(a, w', c) := run p w in pay c (run (f a) w').
Proof.
  induction p; intros w0; cbn [pbind run];
    try (rewrite H; match goal with |- context [run ?q ?w] => destruct (run q w) as [[? ?] ?] end; cbn [pay]; apply pay_pay).
  destruct (run (f a) w0) as [[? ?] ?]. reflexivity.
Qed.

(** [runs p a k]: ends with [a] without talking, at the costs of [k] steps with scalars. *)
Definition unit_cost : N := 1201.
Definition runs {E : env} {A} (p : prog (G1 E) (G2 E) (GT E) bytes A) (a : A) (k : nat) : Prop :=
  forall w, exists c, run p w = (a, w, c) /\ c <= unit_cost * N.of_nat k.
Definition plays {E : env} {A} (p : prog (G1 E) (G2 E) (GT E) bytes A) (w : waiting E) (a : A) (k : nat) : Prop :=
  exists w' c, run p w = (a, w', c) /\ c <= unit_cost * N.of_nat k.

Section Rules.
Context {E : env}.
Local Notation P := (prog (G1 E) (G2 E) (GT E) bytes).
Lemma runs_ret A (a : A) : runs (Ret a : P A) a 0.
Proof. intros w. exists 0. split; [reflexivity|lia]. Qed.
Lemma runs_bind A B (p : P A) (f : A -> P B) a b k l : runs p a k -> runs (f a) b l -> runs (pbind p f) b (k + l).
Proof.
  intros H1 H2 w. destruct (H1 w) as (c & R & Hc). destruct (H2 w) as (c' & R' & Hc').
  exists (c + c'). rewrite run_bind, R, R'. split; [reflexivity|]. unfold unit_cost in *. lia.
Qed.
Lemma plays_bind A B (p : P A) (f : A -> P B) w a b k l : runs p a k -> plays (f a) w b l -> plays (pbind p f) w b (k + l).
Proof.
  intros H1 H2. destruct (H1 w) as (c & R & Hc). destruct H2 as (w' & c' & R' & Hc').
  exists w', (c + c'). rewrite run_bind, R, R'. split; [reflexivity|]. unfold unit_cost in *. lia.
Qed.
Lemma runs_plays A (p : P A) w a k : runs p a k -> plays p w a k.
Proof. intros H. destruct (H w) as (c & R & Hc). exists w, c. split; assumption. Qed.
Lemma runs_le A (p : P A) a k l : runs p a k -> (k <= l)%nat -> runs p a l.
Proof. intros H Hl w. destruct (H w) as (c & R & Hc). exists c. split; [exact R|]. unfold unit_cost in *. lia. Qed.
Lemma plays_le A (p : P A) w a k l : plays p w a k -> (k <= l)%nat -> plays p w a l.
Proof. intros (w' & c & R & Hc) Hl. exists w', c. split; [exact R|]. unfold unit_cost in *. lia. Qed.
Lemma runs_val A (p : P A) a b k : runs p a k -> a = b -> runs p b k.
Proof. intros H <-. exact H. Qed.
Lemma plays_tell A (a : told (G1 E) (G2 E)) (f : _ -> P A) w b k :
  plays (f (says (hears w a))) (hears w a) b k -> plays (pbind (tell a) f) w b (S k).
Proof.
  intros (w' & c & R & Hc). exists w', (1 + c). cbn [tell pbind run]. rewrite R. split; [reflexivity|]. unfold unit_cost in *. lia.
Qed.
(** one step of the machine *)
Lemma one_step A (p q : P A) a k c0 : (forall w, run p w = pay c0 (run q w)) -> c0 <= unit_cost -> runs q a k -> runs p a (S k).
Proof.
  intros H H0 Hq w. destruct (Hq w) as (c & R & Hc). exists (c0 + c). rewrite H, R. split; [reflexivity|]. unfold unit_cost in *. lia.
Qed.
Lemma one_play A (p q : P A) w a k c0 : (forall w, run p w = pay c0 (run q w)) -> c0 <= unit_cost -> plays q w a k -> plays p w a (S k).
Proof.
  intros H H0 (w' & c & R & Hc). exists w', (c0 + c). rewrite H, R. split; [reflexivity|]. unfold unit_cost in *. lia.
Qed.
Definition small (n : N) : Prop := n < 2 ^ 600.
Lemma small_cost n : small n -> 1 + scalar_cost n <= unit_cost.
Proof.
  intros H. unfold scalar_cost, unit_cost. destruct (N.eq_dec n 0) as [->|Hn]; [cbn; lia|].
  rewrite (N.size_log2 n Hn). pose proof (proj1 (N.log2_lt_pow2 n 600 ltac:(lia)) H). lia.
Qed.
Lemma runs_add1 x y : runs (add1 x y : P _) (g1_add x y) 1.
Proof. eapply one_step with (c0 := 1); [reflexivity|unfold unit_cost; lia|apply runs_ret]. Qed.
Lemma runs_dbl1 x : runs (dbl1 x : P _) (g1_dbl x) 1.
Proof. eapply one_step with (c0 := 1); [reflexivity|unfold unit_cost; lia|apply runs_ret]. Qed.
Lemma runs_mul1 n x : small n -> runs (mul1 n x : P _) (g1_mul n x) 1.
Proof. intros H. eapply one_step; [reflexivity|apply small_cost, H|apply runs_ret]. Qed.
Lemma runs_add2 x y : runs (add2 x y : P _) (g2_add x y) 1.
Proof. eapply one_step with (c0 := 1); [reflexivity|unfold unit_cost; lia|apply runs_ret]. Qed.
Lemma runs_neg2 x : runs (neg2 x : P _) (g2_neg x) 1.
Proof. eapply one_step with (c0 := 1); [reflexivity|unfold unit_cost; lia|apply runs_ret]. Qed.
Lemma runs_mul2 n x : small n -> runs (mul2 n x : P _) (g2_mul n x) 1.
Proof. intros H. eapply one_step; [reflexivity|apply small_cost, H|apply runs_ret]. Qed.
Lemma runs_pair x y : runs (mpair x y : P _) (pairing x y) 1.
Proof. eapply one_step with (c0 := 1); [reflexivity|unfold unit_cost; lia|apply runs_ret]. Qed.
Lemma runs_mulT x y : runs (mulT x y : P _) (gt_mul x y) 1.
Proof. eapply one_step with (c0 := 1); [reflexivity|unfold unit_cost; lia|apply runs_ret]. Qed.
Lemma runs_each A B (f : A -> P B) g k l : (forall a, In a l -> runs (f a) (g a) k) -> runs (each f l) (map g l) (k * length l).
Proof.
  induction l as [|a l IH]; intros H; cbn [each map length].
  - eapply runs_le; [apply runs_ret|lia].
  - eapply runs_le; [eapply runs_bind; [apply H; left; reflexivity|]; eapply runs_bind; [apply IH; intros; apply H; right; assumption|apply runs_ret]|lia].
Qed.
Lemma runs_zip_each A B C (f : A -> B -> P C) g k l : forall l', (forall a b, In a l -> In b l' -> runs (f a b) (g a b) k) ->
  runs (zip_each f l l') (zip_with g l l') (k * Nat.min (length l) (length l')).
Proof.
  induction l as [|a l IH]; intros [|b l'] H; cbn [zip_each zip_with length Nat.min]; try (eapply runs_le; [apply runs_ret|lia]).
  eapply runs_le; [eapply runs_bind; [apply H; left; reflexivity|]; eapply runs_bind; [apply IH; intros; apply H; right; assumption|apply runs_ret]|lia].
Qed.
Lemma runs_place tbl b : runs (find_place tbl b : P _) (position tbl b) (length tbl).
Proof.
  induction tbl as [|c tbl IH]; cbn [find_place position length]; [apply runs_ret|].
  eapply one_step with (c0 := 1); [reflexivity|unfold unit_cost; lia|]. destruct (bytes_eqb c b).
  - eapply runs_le; [apply runs_ret|lia].
  - eapply runs_le; [eapply runs_bind; [exact IH|apply runs_ret]|lia].
Qed.
Lemma runs_put tbl b : runs (put tbl b : P _) (enter tbl b) (length tbl).
Proof. eapply runs_le; [eapply runs_bind; [apply runs_place|apply runs_ret]|lia]. Qed.
Lemma enter_length tbl b : (length (enter tbl b) <= S (length tbl))%nat.
Proof. unfold enter. destruct (_ <? _)%nat; [lia|]. rewrite app_length. cbn. lia. Qed.
Lemma runs_put_all l : forall tbl, runs (put_all tbl l : P _) (fold_left enter l tbl) (length l * (length tbl + length l))
  /\ (length (fold_left enter l tbl) <= length tbl + length l)%nat.
Proof.
  induction l as [|b l IH]; intros tbl; cbn [put_all fold_left length].
  - split; [eapply runs_le; [apply runs_ret|lia]|lia].
  - destruct (IH (enter tbl b)) as [H1 H2]. pose proof (enter_length tbl b). split; [|lia].
    eapply runs_le; [eapply runs_bind; [apply runs_put|exact H1]|]. nia.
Qed.
End Rules.

(** * Numbers *)
Lemma fr_small : fr_modulus < 2 ^ 256. Proof. reflexivity. Qed.
Lemma below_small n : n <= 2 * fr_modulus -> small n.
Proof. intros H. unfold small. eapply N.le_lt_trans; [exact H|reflexivity]. Qed.
Lemma minus_le a : minus a <= fr_modulus.
Proof. unfold minus. lia. Qed.
Lemma inv_lt a : fr_inv a < fr_modulus.
Proof.
  unfold fr_inv. generalize (snd (egcd 512 (Z.of_N fr_modulus) (Z.of_N (a mod fr_modulus)))). intros z.
  pose proof (Z.mod_pos_bound z (Z.of_N fr_modulus) ltac:(reflexivity)). lia.
Qed.
Lemma scalar_lt b : scalar_of b < fr_modulus.
Proof. apply N.mod_lt. discriminate. Qed.
Lemma nth_below l k : Forall (fun a => a < fr_modulus) l -> nth k l 0 < fr_modulus.
Proof.
  intros H. destruct (Nat.lt_ge_cases k (length l)) as [Hk|Hk].
  - exact (proj1 (Forall_forall _ _) H _ (nth_In l 0 Hk)).
  - rewrite nth_overflow by exact Hk. reflexivity.
Qed.
Lemma dotp_le u : forall v, Forall (fun a => a < fr_modulus) u -> Forall (fun a => a < fr_modulus) v ->
  dotp u v <= N.of_nat (length u) * (fr_modulus * fr_modulus).
Proof.
  induction u as [|a u IH]; intros [|b v] Hu Hv; cbn [dotp]; try lia.
  inversion Hu as [|? ? Ha Hu']; inversion Hv as [|? ? Hb Hv']; subst. specialize (IH v Hu' Hv').
  assert (a * b <= fr_modulus * fr_modulus) by (apply N.mul_le_mono; lia).
  cbn [length]. rewrite Nat2N.inj_succ, N.mul_succ_l. lia.
Qed.
Lemma dot_small c u v : c < fr_modulus -> (length u <= 64)%nat -> Forall (fun a => a < fr_modulus) u -> Forall (fun a => a < fr_modulus) v ->
  small (c + dotp u v).
Proof.
  intros Hc Hl Hu Hv. pose proof (dotp_le u v Hu Hv) as H. unfold small.
  apply N.le_lt_trans with (fr_modulus + 64 * (fr_modulus * fr_modulus)); [|reflexivity].
  apply N.add_le_mono; [lia|]. eapply N.le_trans; [exact H|]. apply N.mul_le_mono_r. lia.
Qed.
Lemma diffs_small w : forall u, Forall (fun a => a < fr_modulus) w -> Forall small (diffs w u) /\ length (diffs w u) = length w.
Proof.
  induction w as [|a w IH]; intros u Hw; cbn [diffs]; [split; [constructor|reflexivity]|].
  inversion Hw as [|? ? Ha Hw']; subst. destruct u as [|b u]; cbn [length].
  - destruct (IH [] Hw') as [H1 H2]. split; [constructor; [apply below_small; lia|exact H1]|lia].
  - destruct (IH u Hw') as [H1 H2]. pose proof (minus_le b). split; [constructor; [apply below_small; lia|exact H1]|lia].
Qed.
Lemma preorder_in d : forall v, In v (preorder d) -> (length v < d)%nat /\ Forall (fun a => a < fr_modulus) v.
Proof.
  induction d as [|d IH]; intros v; cbn [preorder]; [intros []|].
  intros [<-|H]; [split; [cbn; lia|constructor]|].
  apply in_app_or in H. destruct H as [H|H]; apply in_map_iff in H; destruct H as (u & <- & Hu);
    destruct (IH u Hu) as [H1 H2]; (split; [cbn; lia|constructor; [reflexivity|exact H2]]).
Qed.
Lemma path_facts d t : (length (path_of d t) <= d - 1)%nat /\ Forall (fun a => a < fr_modulus) (path_of d t).
Proof.
  unfold path_of. destruct (Nat.lt_ge_cases (N.to_nat (t - 1)) (length (preorder d))) as [H|H].
  - destruct (preorder_in d _ (nth_In (preorder d) [] H)) as [H1 H2]. split; [lia|exact H2].
  - rewrite nth_overflow by exact H. split; [cbn; lia|constructor].
Qed.
Lemma coords_facts d t M : (1 <= d)%nat -> M < fr_modulus ->
  length (coords d (path_of d t) M) = d /\ Forall (fun a => a < fr_modulus) (coords d (path_of d t) M).
Proof.
  intros Hd HM. destruct (path_facts d t) as [H1 H2]. unfold coords. split.
  - rewrite !app_length, repeat_length. cbn [length]. lia.
  - apply Forall_app. split; [exact H2|]. apply Forall_app. split; [|constructor; [exact HM|constructor]].
    apply Forall_forall. intros x Hx. apply repeat_spec in Hx. subst. reflexivity.
Qed.
Lemma forall_small l : Forall (fun a => a < fr_modulus) l -> Forall small l.
Proof. apply Forall_impl. intros a H. apply below_small. lia. Qed.
Lemma forall_skipn {A} (Q : A -> Prop) k l : Forall Q l -> Forall Q (skipn k l).
Proof. intros H. apply Forall_forall. intros x Hx. apply (proj1 (Forall_forall _ _) H). rewrite <- (firstn_skipn k l). apply in_or_app. right. exact Hx. Qed.
Lemma forall_tl {A} (Q : A -> Prop) l : Forall Q l -> Forall Q (tl l).
Proof. intros H. destruct H; [constructor|assumption]. Qed.
Lemma in_zip_pair {A B} (l : list A) : forall (l' : list B) x, In x (zip_with pair l l') -> In (fst x) l.
Proof.
  induction l as [|a l IH]; intros [|b l'] x; cbn [zip_with]; try (intros []; fail).
  intros [<-|H]; [left; reflexivity|right; exact (IH l' x H)].
Qed.
Lemma zip_length {A B C} (f : A -> B -> C) l : forall l', length (zip_with f l l') = Nat.min (length l) (length l').
Proof. induction l as [|a l IH]; intros [|b l']; cbn [zip_with length Nat.min]; [reflexivity..|]. rewrite IH. reflexivity. Qed.

(** * The parts of the solver *)
Ltac rb := eapply runs_bind; cbv beta.
Section Parts.
Context {E : env} (ch : challenge E) (d : nat) (cs tx : N) (i : nat) (tb : N).
Context (co_h : N) (co_hs : list N) (hs : list bytes) (rho : list N).
Context (Hd : (1 <= d < 64)%nat).
Context (Hco : co_h < fr_modulus).
Context (Hcl : length co_hs = (d + 1)%nat).
Context (Hcs : Forall (fun a => a < fr_modulus) co_hs).
Context (Hrho : Forall (fun a => a < fr_modulus) rho).
Local Notation P := (prog (G1 E) (G2 E) (GT E) bytes).
Local Notation F := (with_hash E (answer cs hs)).
Local Notation CH := (@re_ch E (answer cs hs) ch).
Local Notation z1 := (@g1_zero E).
Local Notation z2 := (@g2_zero E).
Local Notation o2 := (@g2_one E).
Local Notation w := (m_w d cs tx i hs).
Local Notation mx := (m_mx cs i hs).
Local Notation spp := (@sim_pp F CH d cs w co_h co_hs).
Local Notation hl := (@pp_hlist F spp).
Local Notation PP := (@un_pp E (answer cs hs) spp).
Local Notation skey := (@sim_key F CH d cs w co_h co_hs tx).
Local Notation ssig := (@sim_sig F CH d cs w co_h co_hs tx mx).
Local Notation pkv := (nth 1 (ch_2 ch) z2).
Local Notation PK := (@PubKey E cs pkv).
Local Notation pts := (sim_points (pw ch 0) (@pp_h F spp) rho).

Lemma m_scalar_lt j : m_scalar cs hs j < fr_modulus.
Proof. apply N.mod_lt. discriminate. Qed.
Lemma w_facts : length w = d /\ Forall (fun a => a < fr_modulus) w.
Proof. apply coords_facts; [lia|apply m_scalar_lt]. Qed.
Lemma lincomb_runs v : forall l, Forall small v -> runs (m_lincomb z1 v l : P _) (@lincomb F v l) (2 * length v).
Proof.
  induction v as [|x v IH]; intros l H; cbn [m_lincomb lincomb length]; [eapply runs_le; [apply runs_ret|lia]|].
  inversion H as [|? ? Hx Hv]; subst. destruct l as [|h l]; [eapply runs_le; [apply runs_ret|lia]|].
  eapply runs_le; [rb; [apply runs_mul1, Hx|rb; [apply IH, Hv|apply (@runs_add1 E)]]|lia].
Qed.
Lemma small_co : small co_h. Proof. apply below_small. lia. Qed.
Lemma small_c0 : small (nth 0 co_hs 0).
Proof. apply below_small. pose proof (nth_below co_hs 0 Hcs). lia. Qed.
Lemma small_minus a : small (minus a). Proof. apply below_small. pose proof (minus_le a). lia. Qed.
Lemma small_inv a : small (fr_inv a). Proof. apply below_small. pose proof (inv_lt a). lia. Qed.
Lemma in_below l a : Forall (fun a => a < fr_modulus) l -> In a l -> small a.
Proof. intros H Ha. apply below_small. pose proof (proj1 (Forall_forall _ _) H a Ha). cbn beta in H0. lia. Qed.
Lemma params_runs : runs (m_params (ch_1 ch) d cs tx i co_h co_hs hs z1 : P _) (@pp_h F spp, hl) (5 * d + 5).
Proof.
  destruct w_facts as [Hw1 Hw2]. unfold m_params.
  eapply runs_val; [eapply runs_le; [rb; [apply runs_mul1, small_co|]; rb; [apply runs_add1|]; rb; [apply runs_mul1, small_c0|];
    rb; [apply lincomb_runs, forall_small, Hw2|]; rb; [apply runs_add1|];
    rb; [eapply (runs_zip_each _ _ _ _ (fun c (p : G1 E) => @g1_add E (@g1_mul E c (pw CH 0)) (@g1_mul E (minus 1) p)) 3)|apply runs_ret]|]|reflexivity].
  - intros c p Hc _. eapply runs_le; [rb; [apply runs_mul1|rb; [apply runs_mul1, small_minus|apply runs_add1]]|lia].
    eapply in_below; [apply forall_tl, Hcs|exact Hc].
  - pose proof (Nat.le_min_l (length (tl co_hs)) (length (m_down (ch_1 ch)))).
    rewrite Hw1. assert (length (tl co_hs) = d) by (destruct co_hs; cbn in *; lia). lia.
Qed.
Lemma points_runs h : runs (m_points (ch_1 ch) rho z1 h : P _) (sim_points (pw ch 0) h rho) (length rho).
Proof.
  unfold m_points, sim_points. destruct rho as [|e l]; [apply runs_ret|]. inversion Hrho as [|? ? He Hl]; subst.
  eapply runs_le; [rb; [apply runs_mul1, below_small; lia|]; rb; [eapply (runs_each _ _ _ (fun e => g1_mul e h) 1)|apply runs_ret]|cbn [length]; lia].
  intros a Ha. apply runs_mul1. eapply in_below; [exact Hl|exact Ha].
Qed.
Definition to_nssk (k : subkey F) : nssk (G1 E) (G2 E) := (sk_t k, sk_g2r k, sk_hpoly k, sk_hvec k).
Definition to_ns (s : signature F) : nsig (G1 E) (G2 E) := (sig_cs s, sig_time s, sig_1 s, sig_2 s).
Definition good_u (u : list N) : Prop := (length u <= 64)%nat /\ Forall (fun a => a < fr_modulus) u.
Lemma m1_runs k u r : r < fr_modulus -> runs (m_1 (ch_2 ch) d cs tx i hs z2 o2 k u r : P _) (@sim_1 F CH w k u r) 3.
Proof.
  intros Hr. unfold m_1. eapply runs_val; [eapply runs_le; [rb; [apply runs_mul2, below_small; lia|]; rb; [apply runs_mul2, small_inv|apply runs_add2]|lia]|reflexivity].
Qed.
Lemma m2_runs k u r : r < fr_modulus -> good_u u ->
  runs (m_2 (ch_1 ch) d cs tx i co_h co_hs hs z1 hl k u r : P _) (@sim_2 F CH d cs w co_h co_hs k u r) (2 * length u + 2 * d + 8).
Proof.
  intros Hr [Hu1 Hu2]. destruct w_facts as [Hw1 Hw2].
  destruct (diffs_small (skipn (S k) w) (skipn (S k) u) (forall_skipn _ _ _ Hw2)) as [Hf1 Hf2]. rewrite skipn_length in Hf2.
  unfold m_2. eapply runs_val; [eapply runs_le; [rb; [apply runs_mul1, small_co|]; rb; [apply lincomb_runs, forall_small, Hu2|]; rb; [apply runs_add1|];
    rb; [apply runs_mul1, below_small; lia|]; rb; [apply runs_mul1, dot_small; [apply nth_below, Hcs|exact Hu1|exact Hu2|apply forall_tl, Hcs]|];
    rb; [apply lincomb_runs, Hf1|]; rb; [apply runs_add1|]; rb; [apply runs_mul1, small_inv|]; rb; [apply runs_add1|apply runs_add1]|]|reflexivity].
  rewrite Hf2. lia.
Qed.
Lemma vec_runs k u r : r < fr_modulus ->
  runs (m_vec (ch_1 ch) d cs tx i co_hs hs z1 hl k u r : P _) (@sim_vec F CH d cs w co_h co_hs k u r) (6 * d).
Proof.
  intros Hr. unfold m_vec. eapply runs_val; [eapply runs_le|reflexivity].
  - eapply (runs_zip_each _ _ _ _ (fun (h : G1 E) (cp : N * G1 E) => @g1_add E (@g1_mul E r h) (@g1_mul E (sim_c w k u) (@g1_add E (@g1_mul E (fst cp) (pw CH (S k))) (@g1_mul E (minus 1) (snd cp))))) 6).
    intros h cp _ Hcp. eapply runs_le; [rb; [apply runs_mul1, below_small; lia|]; rb; [apply runs_mul1|];
      [|rb; [apply runs_mul1, small_minus|]; rb; [apply runs_add1|]; rb; [apply runs_mul1, small_inv|apply runs_add1]]|lia].
    eapply in_below; [exact (forall_skipn _ (length u + 1) _ Hcs)|]. eapply in_zip_pair. exact Hcp.
  - apply Nat.mul_le_mono_l. eapply Nat.le_trans; [apply Nat.le_min_r|]. rewrite zip_length.
    eapply Nat.le_trans; [apply Nat.le_min_l|]. rewrite skipn_length, Hcl. lia.
Qed.
Lemma path_good t : good_u (path_of d t).
Proof. destruct (path_facts d t) as [H1 H2]. split; [lia|exact H2]. Qed.
Lemma key_runs t r : r < fr_modulus ->
  runs (m_key (ch_1 ch) (ch_2 ch) d cs tx i co_h co_hs hs z1 z2 o2 hl t r : P _) (option_map to_nssk (skey t r)) (10 * d + 11).
Proof.
  intros Hr. unfold m_key, sim_key. destruct (key_allowed d tx t); [|eapply runs_le; [apply runs_ret|lia]].
  destruct (first_diff w (path_of d t)) as [k|]; [|eapply runs_le; [apply runs_ret|lia]].
  eapply runs_le; [rb; [apply m1_runs, Hr|]; rb; [apply m2_runs; [exact Hr|apply path_good]|]; rb; [apply vec_runs, Hr|apply runs_ret]|].
  destruct (path_facts d t). lia.
Qed.
Lemma sig_runs t j r : r < fr_modulus ->
  runs (m_sig (ch_1 ch) (ch_2 ch) d cs tx i co_h co_hs hs z1 z2 o2 hl t j r : P _) (option_map to_ns (ssig t (number j) r)) (4 * d + 11).
Proof.
  intros Hr. unfold m_sig, sim_sig. change (msg_scalar spp (number j)) with (m_scalar cs hs j).
  destruct (sig_allowed d tx mx t (m_scalar cs hs j)); [|eapply runs_le; [apply runs_ret|lia]].
  destruct (coords_facts d t (m_scalar cs hs j) ltac:(lia) (m_scalar_lt j)) as [H1 H2].
  destruct (first_diff w _) as [k|]; [|eapply runs_le; [apply runs_ret|lia]].
  eapply runs_le; [rb; [apply m1_runs, Hr|]; rb; [apply m2_runs; [exact Hr|split; [lia|exact H2]]|apply runs_ret]|]. lia.
Qed.

(** the end *)
Definition with_input (kp : pubkey E * proof E) : nkey (G1 E) (G2 E) * bytes := (to_nkey kp, pop_input (fst kp)).
Lemma input_runs kp : runs (m_input (to_nkey kp) : P _) (with_input kp) 1.
Proof. eapply one_step with (c0 := 1); [reflexivity|unfold unit_cost; lia|apply runs_ret]. Qed.
Lemma enter_all_eq l : forall tbl : list bytes, @enter_all E tbl l = fold_left enter (map snd (map with_input l)) tbl.
Proof. induction l as [|kp l IH]; intros tbl; [reflexivity|]. cbn [map fold_left]. rewrite <- IH. reflexivity. Qed.
Lemma proved_runs tbl kp : runs (m_proved z1 o2 pts tbl (with_input kp) : P _) (proved tbl pts kp) (length tbl + 5).
Proof.
  destruct kp as [[c k] [c' s]]. unfold m_proved, with_input, to_nkey, proved, pk_validate, pt_pk, pt_pop. cbn [fst snd pk_cs pk_pk pop_cs pop_pop].
  destruct (valid_cs c); cbn [negb]; [|eapply runs_le; [apply runs_ret|lia]].
  destruct (c =? c'); cbn [negb]; [|eapply runs_le; [apply runs_ret|lia]].
  eapply runs_le.
  - eapply one_step with (c0 := 1); [reflexivity|unfold unit_cost; lia|]. eapply one_step with (c0 := 1); [reflexivity|unfold unit_cost; lia|].
    rb; [apply runs_place|]. rb; [apply runs_pair|]. rb; [apply runs_pair|].
    eapply one_step with (c0 := 1); [reflexivity|unfold unit_cost; lia|]. apply runs_ret.
  - lia.
Qed.
Lemma each_proved tbl l :
  runs (each (m_proved z1 o2 pts tbl) (map with_input l) : P _) (map (proved tbl pts) l) ((length tbl + 5) * length l).
Proof.
  induction l as [|kp l IH]; [eapply runs_le; [apply runs_ret|lia]|]. cbn [map each length].
  eapply runs_le; [rb; [apply proved_runs|]; rb; [exact IH|apply runs_ret]|lia].
Qed.
Lemma others_runs tbl l : runs (m_others cs rho z1 pkv tbl (map with_input l) : P _) (occurs PK l, others PK tbl rho l) (length l * (length tbl + 3)).
Proof.
  induction l as [|kp l IH]; cbn [m_others map length]; [eapply runs_le; [apply runs_ret|lia]|].
  destruct kp as [[c k] [c' s]]. cbn [with_input to_nkey fst snd].
  eapply runs_le; [rb; [exact IH|]; eapply one_step with (c0 := 1) (k := (length tbl + 2)%nat); [reflexivity|unfold unit_cost; lia|]|lia].
  cbn [fst snd pk_cs pk_pk].
  assert (Hp : pk_eqb (PubKey c k) PK = (c =? cs) && g2_eqb k pkv) by reflexivity.
  unfold occurs, others. cbn [fold_right fst snd]. rewrite Hp. destruct ((c =? cs) && g2_eqb k pkv).
  - eapply runs_le; [apply runs_ret|lia].
  - eapply runs_le; [rb; [apply runs_place|]; rb; [apply runs_mul1, small_inv|]; rb; [apply runs_add1|apply runs_ret]|lia].
Qed.
Definition end_cost (T l : nat) : nat := l * (3 * (T + l) + 9) + 14.
Definition final (ptbl : list bytes) (s : signature E) (l : list (pubkey E * proof E)) : GT E :=
  @extract F CH w co_h co_hs (re_sig (pisolate PK (enter_all ptbl l) rho (usable_list pts (enter_all ptbl l) l) s)).
Lemma forallb_map {A} (f : A -> bool) l : forallb (fun b => b) (map f l) = forallb f l.
Proof. induction l as [|a l IH]; [reflexivity|]. cbn. rewrite IH. reflexivity. Qed.
Lemma usable_le (ps : list (G1 E)) tbl l : (length (usable_list ps tbl l) <= length l)%nat.
Proof. unfold usable_list. destruct (_ && _); [apply Nat.le_refl|apply Nat.le_0_l]. Qed.
Lemma end_runs ptbl s l : runs (m_end (ch_1 ch) (ch_b1 ch) (ch_b2 ch) d cs tx i co_h co_hs hs rho z1 o2 pts pkv ptbl (to_nsig s) (map to_nkey l) : P _)
  (Some (final ptbl s l)) (end_cost (length ptbl) (length l)).
Proof.
  unfold m_end.
  assert (H1 : runs (each m_input (map to_nkey l) : P _) (map with_input l) (length l)).
  { induction l as [|kp l IH]; [apply runs_ret|]. cbn [map each length].
    eapply runs_le; [rb; [apply input_runs|]; rb; [exact IH|apply runs_ret]|lia]. }
  destruct (@runs_put_all E (map snd (map with_input l)) ptbl) as [H2 H3]. rewrite <- enter_all_eq in H2, H3. rewrite !map_length in H2, H3.
  set (tbl := enter_all ptbl l) in *.
  assert (H4 : runs (each (m_proved z1 o2 pts tbl) (map with_input l) : P _) (map (proved tbl pts) l) ((length tbl + 5) * length l)).
  { apply each_proved. }
  assert (H5 : (if (length tbl <=? length pts)%nat && forallb (fun b => b) (map (proved tbl pts) l) then map with_input l else [])
               = map with_input (usable_list pts tbl l)).
  { unfold usable_list. rewrite forallb_map. destruct (_ && _); reflexivity. }
  assert (H6 : (length (usable_list pts tbl l) <= length l)%nat) by (apply usable_le).
  destruct w_facts as [Hw1 Hw2].
  unfold to_nsig. eapply runs_val; [eapply runs_le|reflexivity].
  - rb; [exact H1|]. rb; [exact H2|]. rb; [exact H4|]. rewrite H5. rb; [apply others_runs|]. cbn [fst snd].
    rb; [apply runs_mul2, small_inv|]. rb; [apply runs_mul1, small_minus|]. rb; [apply runs_add1|]. rb; [apply runs_mul1, small_inv|].
    rb; [apply runs_neg2|]. rb; [apply runs_mul1, small_co|]. rb; [apply runs_neg2|].
    rb; [apply runs_mul1, dot_small; [apply nth_below, Hcs|lia|exact Hw2|apply forall_tl, Hcs]|].
    rb; [apply runs_pair|]. rb; [apply runs_pair|]. rb; [apply runs_pair|]. rb; [apply runs_mulT|]. rb; [apply runs_mulT|]. apply runs_ret.
  - unfold end_cost. rewrite ?map_length. clearbody tbl.
    pose proof (Nat.mul_le_mono_r _ _ (length l) (proj1 (Nat.add_le_mono_r _ _ 5) H3)) as Q1.
    pose proof (Nat.mul_le_mono _ _ _ _ H6 (proj1 (Nat.add_le_mono_r _ _ 3) H3)) as Q2.
    remember ((length tbl + 5) * length l)%nat as A. remember (length (usable_list pts tbl l) * (length tbl + 3))%nat as B.
    clear - Q1 Q2. nia.
Qed.
Lemma end_le T l l' k : (k <= T)%nat -> (l' <= l)%nat -> (end_cost k l' <= end_cost T l)%nat.
Proof. intros. unfold end_cost. nia. Qed.

(** signing with a sub key *)
Lemma poly_runs (l : list (G1 E)) tv : forall j acc,
  runs (m_poly l j tv acc : P _) (match poly_loop l j tv acc with Ok x => Some x | _ => None end) (2 * length tv).
Proof.
  induction tv as [|x tv IH]; intros j acc; cbn [m_poly poly_loop length]; [eapply runs_le; [apply runs_ret|lia]|].
  unfold nth_res. destruct (nth_error l (j + 1)) as [h|]; cbn [bind]; [|eapply runs_le; [apply runs_ret|lia]].
  destruct (x =? 2).
  - eapply runs_le; [rb; [apply runs_dbl1|]; rb; [apply runs_add1|apply IH]|lia].
  - eapply runs_le; [rb; [apply runs_ret|]; rb; [apply runs_add1|apply IH]|lia].
Qed.
Lemma tv_length m t n tv : tv_init m t n = Ok tv -> (length (tv_vec tv) <= n)%nat.
Proof.
  unfold tv_init. destruct (time_to_vec m t n) as [v|e|p] eqn:Hv; cbn [bind]; try discriminate. intros H. injection H as <-. cbn [tv_vec].
  revert t v Hv. clear. induction n as [|n IH]; intros t v; cbn [time_to_vec]; [discriminate|].
  destruct (shl64 m (S n)) as [mt| |]; cbn [bind]; try discriminate.
  destruct (_ || _); [discriminate|]. destruct (t =? 1); [intros H; injection H as <-; cbn; lia|].
  destruct (shl64 m n) as [th| |]; cbn [bind]; try discriminate. destruct (th <? t).
  - destruct (sub64 m t th) as [t1| |]; cbn [bind]; try discriminate.
    destruct (time_to_vec m t1 n) as [u| |] eqn:Hu; cbn [bind]; try discriminate. intros H. injection H as <-. cbn [length]. specialize (IH _ _ Hu). lia.
  - destruct (sub64 m t 1) as [t1| |]; cbn [bind]; try discriminate.
    destruct (time_to_vec m t1 n) as [u| |] eqn:Hu; cbn [bind]; try discriminate. intros H. injection H as <-. cbn [length]. specialize (IH _ _ Hu). lia.
Qed.
Lemma last_rev {A} (l : list A) :
  match rev l with [] => None | a :: _ => Some a end = match l with [] => None | _ => nth_error l (length l - 1) end.
Proof.
  destruct l as [|a l _] using rev_ind; [reflexivity|]. rewrite rev_app_distr. cbn [rev app].
  destruct (l ++ [a]) as [|b l'] eqn:Hl; [destruct l; discriminate|]. rewrite <- Hl, app_length. cbn [length].
  rewrite nth_error_app2 by lia. replace (length l + 1 - 1 - length l)%nat with 0%nat by lia. reflexivity.
Qed.
Lemma sign_runs (keys : list (nssk (G1 E) (G2 E))) g t M r : M < fr_modulus -> r < fr_modulus ->
  runs (@m_sign (G1 E) (G2 E) (GT E) bytes d cs o2 hl keys t M r)
    (match @sign_fr E Debug (SecKey cs t (map (@of_nssk E) keys) g) t PP M r with Ok s => Some (to_nsig s) | _ => None end) (2 * d + 8).
Proof.
  intros HM Hr. unfold m_sign, sign_fr. cbn [sec_time]. rewrite N.eqb_refl. cbn [negb]. unfold first_ssk. cbn [sec_ssk].
  destruct keys as [|[[[t0 g2r] hp] hv] keys]; cbn [map bind]; [eapply runs_le; [apply runs_ret|lia]|].
  cbn [of_nssk]. unfold ssk_time_vec. cbn [sk_t sk_g2r sk_hpoly sk_hvec].
  change (pp_depth PP) with d. change (pp_hlist PP) with (hl : list (G1 E)). change (pp_g2 PP) with o2. change (pp_cs PP) with cs.
  destruct (tv_init Debug t0 d) as [tv| |] eqn:Htv; cbn [bind]; [|eapply runs_le; [apply runs_ret|lia]..].
  pose proof (tv_length _ _ _ _ Htv) as Hl. unfold last_hvector_coeff. cbn [sk_hvec]. pose proof (last_rev hv) as Hrev. unfold nth_res.
  generalize (hl : list (G1 E)). intros l.
  destruct (nth_error l 0) as [h0|]; cbn [bind]; [|eapply runs_le; [apply runs_ret|lia]].
  pose proof (poly_runs l (tv_vec tv) 0 h0) as Hp.
  destruct (nth_error l d) as [hd|]; cbn [bind].
  2:{ destruct (poly_loop l 0 (tv_vec tv) h0); eapply runs_le; try apply runs_ret; lia. }
  destruct (rev hv) as [|last rest].
  { assert (Hv : hv = []).
    { destruct hv as [|b hv]; [reflexivity|]. symmetry in Hrev. apply nth_error_None in Hrev. cbn [length] in Hrev. lia. }
    subst hv. destruct (poly_loop l 0 (tv_vec tv) h0); cbn [bind]; eapply runs_le; try apply runs_ret; lia. }
  destruct hv as [|b hv]; [discriminate|]. rewrite <- Hrev.
  eapply runs_le; [rb; [exact Hp|]|].
  { instantiate (1 := 8%nat). destruct (poly_loop l 0 (tv_vec tv) h0) as [x| |]; cbn [bind]; [|eapply runs_le; [apply runs_ret|lia]..].
    eapply runs_le; [rb; [apply runs_mul2, below_small; lia|]; rb; [apply runs_add2|]; rb; [apply runs_mul1, below_small; lia|]; rb; [apply runs_add1|];
      rb; [apply runs_mul1, below_small; lia|]; rb; [apply runs_mul1, below_small; lia|]; rb; [apply runs_add1|]; rb; [apply runs_add1|apply runs_ret]|lia]. }
  lia.
Qed.

(** the sub keys for the break-in *)
Fixpoint keys_of (ts rs : list N) : option (list (subkey F) * list N) :=
  match ts with
  | [] => Some ([], rs)
  | t :: ts' =>
    match rs with
    | [] => None
    | r :: rs' =>
      match skey t r with
      | None => None
      | Some a => match keys_of ts' rs' with None => None | Some (l, rs2) => Some (a :: l, rs2) end
      end
    end
  end.
Lemma keys_runs ts : forall rs, Forall (fun a => a < fr_modulus) rs ->
  runs (m_keys (ch_1 ch) (ch_2 ch) d cs tx i co_h co_hs hs z1 z2 o2 hl ts rs : P _)
    (option_map (fun p => (map to_nssk (fst p), snd p)) (keys_of ts rs)) (length ts * (10 * d + 11))
  /\ (forall l rs', keys_of ts rs = Some (l, rs') -> Forall (fun a => a < fr_modulus) rs').
Proof.
  induction ts as [|t ts IH]; intros rs Hrs; cbn [m_keys keys_of length].
  - split; [eapply runs_le; [apply runs_ret|lia]|]. intros l rs' H. injection H as _ <-. exact Hrs.
  - destruct rs as [|r rs]; [split; [eapply runs_le; [apply runs_ret|lia]|discriminate]|].
    inversion Hrs as [|? ? Hr Hrs']; subst. destruct (IH rs Hrs') as [H1 H2]. split.
    + eapply runs_le; [rb; [apply key_runs, Hr|]|].
      * instantiate (1 := (length ts * (10 * d + 11))%nat).
        destruct (skey t r) as [a|]; cbn [option_map]; [|eapply runs_le; [apply runs_ret|lia]].
        eapply runs_le; [rb; [exact H1|]|]; [|instantiate (1 := 0%nat); lia].
        destruct (keys_of ts rs) as [[l rs2]|]; cbn [option_map fst snd]; apply runs_ret.
      * lia.
    + intros l rs'. destruct (skey t r) as [a|]; [|discriminate]. destruct (keys_of ts rs) as [[l2 rs2]|] eqn:Hk; [|discriminate].
      intros H. injection H as _ <-. exact (H2 _ _ eq_refl).
Qed.
Lemma ask_play ts : forall rs acc k tbl ptbl,
  play skey ssig rs (psingle cs hs tbl pts ptbl rho PK (ask_keys ts acc k))
  = match keys_of ts rs with
    | None => None
    | Some (l, rs') => play skey ssig rs' (psingle cs hs tbl pts ptbl rho PK (k (acc ++ map un_ssk l)))
    end.
Proof.
  induction ts as [|t ts IH]; intros rs acc k tbl ptbl; cbn [ask_keys keys_of].
  - cbn [map]. rewrite app_nil_r. reflexivity.
  - cbn [psingle]. destruct rs as [|r rs]; [reflexivity|]. cbn [play]. destruct (skey t r) as [a|]; [|reflexivity].
    rewrite IH. destruct (keys_of ts rs) as [[l rs2]|]; [|reflexivity]. cbn [map]. rewrite <- app_assoc. reflexivity.
Qed.

(** * The game *)
Local Notation result rs tbl ptbl f :=
  (option_map (@extract F CH w co_h co_hs) (play skey ssig rs (psingle cs hs tbl pts ptbl rho PK f))).
Local Notation mend ptbl s l := (m_end (ch_1 ch) (ch_b1 ch) (ch_b2 ch) d cs tx i co_h co_hs hs rho z1 o2 pts pkv ptbl s l : P _).
Lemma end_plays wt T lmax ptbl msg s l rs tbl : (length ptbl <= T)%nat -> (length l <= lmax)%nat ->
  plays (mend ptbl (to_nsig s) (map to_nkey l)) wt (result rs tbl ptbl (PForge msg s l)) (end_cost T lmax).
Proof.
  intros HT Hl. eapply plays_le; [apply runs_plays; eapply runs_val; [apply end_runs|destruct rs; reflexivity]|]. apply end_le; assumption.
Qed.
Lemma give_up_plays wt T lmax ptbl rs tbl : (length ptbl <= T)%nat ->
  plays (m_give_up (ch_1 ch) (ch_b1 ch) (ch_b2 ch) d cs tx i co_h co_hs hs rho z1 z2 o2 pts pkv ptbl : P _) wt
    (result rs tbl ptbl give_up) (end_cost T lmax).
Proof.
  intros HT. unfold m_give_up, give_up.
  eapply (end_plays wt T lmax ptbl [] (@Signature E 0 0 z2 z1) [] rs tbl HT). cbn; lia.
Qed.
Lemma place_bound tbl b T : (S (length tbl) <= T)%nat -> (length tbl <= T)%nat /\ (length (enter tbl b) <= T)%nat.
Proof. pose proof (enter_length tbl b). lia. Qed.
Lemma tail_plays T lmax rs n : forall own tbl ptbl (f : pforger E), pspeaks n lmax f -> (length ptbl + n <= T)%nat ->
  plays (m_tail (ch_1 ch) (ch_b1 ch) (ch_b2 ch) d cs tx i co_h co_hs hs rho z1 z2 o2 pts pkv n own tbl ptbl (says (WThen f)) : P _)
    (WThen f) (result rs tbl ptbl (b_tail own f)) (n * (2 * T + 1) + end_cost T lmax).
Proof.
  induction n as [|n IH]; intros own tbl ptbl f Hs HT; [destruct Hs|].
  destruct f as [msg s l|t k|t msg k|b k|msg c k]; cbn [pspeaks] in Hs; cbn [says m_tail b_tail].
  - eapply plays_le; [apply (end_plays _ T lmax); [lia|exact Hs]|lia].
  - eapply plays_le; [apply (give_up_plays _ T lmax); lia|lia].
  - eapply plays_le; [apply (give_up_plays _ T lmax); lia|lia].
  - destruct (lookup own b) as [v|].
    + eapply plays_le; [apply plays_tell; cbn [hears]; apply IH; [apply Hs|lia]|lia].
    + eapply plays_le; [apply plays_tell; cbn [hears]; eapply IH; [apply Hs|lia]|lia].
  - destruct (place_bound ptbl (point_input msg c) T ltac:(lia)) as [B1 B2]. pose proof (enter_length ptbl (point_input msg c)) as B3.
    eapply plays_le; [eapply plays_bind; [apply runs_place|]; eapply plays_bind; [apply runs_put|]; apply plays_tell; cbn [hears];
      eapply IH; [apply Hs|lia]|lia].
Qed.

Definition copy_of (s : @mstate (G1 E) (G2 E) bytes) : copy E :=
  Copy (s_time s) (map (fun p => (fst p, of_nsig (snd p))) (s_cache s)) (map of_nssk (s_keys s)) (s_g s) (s_B s) (s_ks s) (s_us s) (s_own s).
Lemma lookup_map {A B} (f : A -> B) l b : lookup (map (fun p : bytes * A => (fst p, f (snd p))) l) b = option_map f (lookup l b).
Proof.
  unfold lookup. induction l as [|[c a] l IH]; [reflexivity|]. cbn [map find fst snd]. destruct (bytes_eqb c b); [reflexivity|exact IH].
Qed.
Lemma gamma_loop_length m n rest : forall pre acc l, gamma_loop m n pre rest acc = Ok l -> (length l <= length acc + length rest)%nat.
Proof.
  induction rest as [|x rest IH]; intros pre acc l; cbn [gamma_loop length].
  - intros H. injection H as <-. lia.
  - destruct (x =? 1).
    + destruct (vec_to_time m (pre ++ [2]) n) as [t| |]; cbn [bind]; try discriminate.
      unfold insert_at. destruct (_ <=? _)%nat eqn:Hlt; cbn [bind]; try discriminate.
      intros H. apply IH in H. rewrite app_length, firstn_length in H. cbn [length] in H. rewrite skipn_length in H. lia.
    + cbn [bind]. intros H. apply IH in H. lia.
Qed.
Lemma cover_length t : (length (cover d t) <= d + 1)%nat.
Proof.
  unfold cover. destruct (tv_init Debug t d) as [tv| |] eqn:Htv; [|cbn; lia..]. pose proof (tv_length _ _ _ _ Htv).
  destruct (gamma_list Debug tv d) as [gl| |] eqn:Hg; [|cbn; lia..]. unfold gamma_list in Hg. apply gamma_loop_length in Hg.
  rewrite map_length. cbn [length] in Hg. lia.
Qed.
Definition step_cost (T : nat) : nat := (d + 1) * (10 * d + 11) + 2 * T + 1.
Lemma loop_plays T lmax n : forall (s : @mstate (G1 E) (G2 E) bytes) (f : aforger E),
  speaks n lmax f -> (length (s_ptbl s) + n <= T)%nat -> Forall (fun a => a < fr_modulus) (s_rs s) ->
  plays (m_loop (ch_1 ch) (ch_2 ch) (ch_b1 ch) (ch_b2 ch) d cs tx i tb co_h co_hs hs rho z1 z2 o2 hl pts pkv n s (says (WFirst f)) : P _)
    (WFirst f) (result (s_rs s) (s_tbl s) (s_ptbl s) (simulated PP tb (copy_of s) f)) (n * step_cost T + end_cost T lmax).
Proof.
  induction n as [|n IH]; intros s f Hs HT Hrs; [destruct Hs|].
  assert (Hg : forall wt, plays (m_give_up (ch_1 ch) (ch_b1 ch) (ch_b2 ch) d cs tx i co_h co_hs hs rho z1 z2 o2 pts pkv (s_ptbl s) : P _) wt
                 (result (s_rs s) (s_tbl s) (s_ptbl s) give_up) (S n * step_cost T + end_cost T lmax)).
  { intros wt. eapply plays_le; [apply (give_up_plays _ T lmax); lia|nia]. }
  destruct f as [msg sg l|k|t seed k|t msg k|b k|msg c k]; cbn [speaks] in Hs; cbn [says m_loop simulated copy_of c_time c_ks c_us c_B c_own c_keys c_g c_cache].
  - destruct (tb =? 0); [|apply Hg]. eapply plays_le; [apply (end_plays _ T lmax); [lia|exact Hs]|nia].
  - destruct (negb (tb =? 0) && (s_time s =? tb)); [|apply Hg].
    eapply plays_le; [apply plays_tell; cbn [hears]; eapply (tail_plays T lmax); [apply Hs|lia]|]. unfold step_cost. nia.
  - change (pp_depth PP) with d. destruct ((s_time s <? t) && (t <=? last_time d)).
    2:{ eapply plays_le; [apply plays_tell; cbn [hears]; apply (IH s); [apply Hs|lia|exact Hrs]|unfold step_cost; nia]. }
    destruct ((tb =? 0) || (t <=? tb)); [|apply Hg].
    destruct (s_ks s) as [|k0 [|g0 ks]]; [apply Hg..|]. destruct (s_us s) as [|u1 [|u2 [|u3 [|u4 us]]]]; [apply Hg..|].
    destruct (t =? tb).
    + destruct (keys_runs (cover d t) (s_rs s) Hrs) as [H1 H2]. rewrite ask_play. pose proof (cover_length t) as Hc.
      destruct (keys_of (cover d t) (s_rs s)) as [[kl rs2]|].
      * replace ([] ++ map un_ssk kl) with (map (@of_nssk E) (map to_nssk kl)) by (rewrite map_map; reflexivity).
        eapply plays_le; [eapply plays_bind; [exact H1|]; cbn [option_map fst snd]; apply plays_tell; cbn [hears];
          apply (IH (MState t [] (map to_nssk kl) (nth (pred (length (made d (s_time s) t))) (g0 :: ks) []) (s_B s) (skipn (pred (length (made d (s_time s) t))) ks) (skipn (2 * pred (length (made d (s_time s) t))) us) [] rs2 (s_tbl s) (s_ptbl s)) (k (Ok tt))); [apply Hs|cbn [s_ptbl]; lia|exact (H2 _ _ eq_refl)]|].
        unfold step_cost. nia.
      * eapply plays_le; [eapply plays_bind; [exact H1|]; cbn [option_map]; apply runs_plays, runs_ret|]. unfold step_cost. nia.
    + eapply plays_le; [eapply plays_bind; [apply runs_ret|]; cbn beta iota; apply plays_tell; cbn [hears];
        apply (IH (MState t [] [] (nth (pred (length (made d (s_time s) t))) (g0 :: ks) []) (s_B s) (skipn (pred (length (made d (s_time s) t))) ks) (skipn (2 * pred (length (made d (s_time s) t))) us) [] (s_rs s) (s_tbl s) (s_ptbl s)) (k (Ok tt))); [apply Hs|cbn [s_ptbl]; lia|exact Hrs]|]. unfold step_cost. nia.
  - destruct (negb (s_time s =? t)).
    { eapply plays_le; [apply plays_tell; cbn [hears res_map]; apply (IH s); [apply Hs|lia|exact Hrs]|unfold step_cost; nia]. }
    rewrite lookup_map. destruct (lookup (s_cache s) msg) as [a|]; cbn [option_map].
    { eapply plays_le; [apply plays_tell; cbn [hears res_map]; apply (IH s); [apply Hs|lia|exact Hrs]|unfold step_cost; nia]. }
    destruct (s_us s) as [|u us]; [apply Hg|]. destruct (t =? tb).
    + destruct (s_B s) as [|blk rest]; [apply Hg|]. change (pp_cs PP) with cs. cbn [psingle].
      pose proof (sign_runs (s_keys s) (s_g s) t (scalar_of (nth (position (s_tbl s) (hash_input cs msg)) hs [])) (scalar_of blk) (scalar_lt _) (scalar_lt _)) as Hsg.
      destruct (sign_fr Debug _ t PP _ _) as [sg| |].
      * destruct sg as [c0 t0 x0 y0]. eapply plays_le; [eapply plays_bind; [exact Hsg|]; cbn beta iota; apply plays_tell; cbn [hears res_map];
          apply (IH (MState t ((msg, (c0, t0, x0, y0)) :: s_cache s) (s_keys s) (s_g s) rest (s_ks s) us (calls (s_g s) (sign_info msg t ++ [1]) u blk ++ s_own s) (s_rs s) (enter (s_tbl s) (hash_input cs msg)) (s_ptbl s)) (k (Ok (Signature c0 t0 x0 y0)))); [apply Hs|cbn [s_ptbl]; lia|exact Hrs]|].
        unfold step_cost. nia.
      * eapply plays_le; [eapply plays_bind; [exact Hsg|]; cbn beta iota; apply (give_up_plays _ T lmax); lia|]. unfold step_cost. nia.
      * eapply plays_le; [eapply plays_bind; [exact Hsg|]; cbn beta iota; apply (give_up_plays _ T lmax); lia|]. unfold step_cost. nia.
    + cbn [psingle play]. destruct (s_rs s) as [|r rs] eqn:Hr0.
      { eapply plays_le; [apply runs_plays, runs_ret|nia]. }
      inversion Hrs as [|? ? Hr Hrs']; subst. cbn [play].
      pose proof (sig_runs t (position (s_tbl s) (hash_input cs msg)) r Hr) as Hsg.
      change (pp_cs PP) with cs. destruct (ssig t _ r) as [sg|]; cbn [option_map] in Hsg.
      * eapply plays_le; [eapply plays_bind; [exact Hsg|]; cbn beta iota; apply plays_tell; cbn [hears res_map];
          apply (IH (MState t ((msg, to_ns sg) :: s_cache s) (s_keys s) (s_g s) (s_B s) (s_ks s) us [] rs (enter (s_tbl s) (hash_input cs msg)) (s_ptbl s)) (k (Ok (un_sig sg)))); [apply Hs|cbn [s_ptbl]; lia|exact Hrs']|].
        unfold step_cost. nia.
      * eapply plays_le; [eapply plays_bind; [exact Hsg|]; apply runs_plays, runs_ret|]. unfold step_cost. nia.
  - eapply plays_le; [apply plays_tell; cbn [hears]; apply (IH (MState (s_time s) (s_cache s) (s_keys s) (s_g s) (s_B s) (s_ks s) (s_us s) (s_own s) (s_rs s) (enter (s_tbl s) b) (s_ptbl s)) (k _)); [apply Hs|cbn [s_ptbl]; lia|exact Hrs]|unfold step_cost; nia].
  - destruct (place_bound (s_ptbl s) (point_input msg c) T ltac:(lia)) as [B1 B2]. pose proof (enter_length (s_ptbl s) (point_input msg c)) as B3.
    eapply plays_le; [eapply plays_bind; [apply runs_place|]; eapply plays_bind; [apply runs_put|]; apply plays_tell; cbn [hears];
      apply (IH (MState (s_time s) (s_cache s) (s_keys s) (s_g s) (s_B s) (s_ks s) (s_us s) (s_own s) (s_rs s) (s_tbl s) (enter (s_ptbl s) (point_input msg c))) (k _)); [apply Hs|cbn [s_ptbl]; lia|exact Hrs]|unfold step_cost; nia].
Qed.
End Parts.
