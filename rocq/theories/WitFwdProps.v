(** Helpers for the examples of Properties_Fwd.v. *)
From Verif Require Import Base Env SubKey SecretKey Keys Sig SpecKey SpecRed SpecRom SpecPop SpecFwd PrngFacts PopProps.
Local Open Scope N_scope.

Fixpoint nodupb (l : list bytes) : bool :=
  match l with [] => true | b :: l' => negb (existsb (bytes_eqb b) l') && nodupb l' end.
Lemma nodupb_ok l : nodupb l = true -> NoDup l.
Proof.
  induction l as [|b l IH]; intros H; constructor; cbn [nodupb] in H; apply andb_true_iff in H as [H1 H2]; [|exact (IH H2)].
  intros Hi. apply negb_true_iff in H1. assert (existsb (bytes_eqb b) l = true); [|congruence]. apply existsb_exists. exists b. split; [exact Hi|]. apply bytes_eqb_eq. reflexivity.
Qed.
Definition apartb (l l' : list bytes) : bool := forallb (fun b => negb (existsb (bytes_eqb b) l')) l.
Lemma apartb_ok l l' : apartb l l' = true -> forall b, In b l -> ~ In b l'.
Proof.
  intros H b Hb Hi. unfold apartb in H. rewrite forallb_forall in H. specialize (H b Hb). apply negb_true_iff in H. assert (existsb (bytes_eqb b) l' = true); [|congruence].
  apply existsb_exists. exists b. split; [exact Hi|]. apply bytes_eqb_eq. reflexivity.
Qed.
Lemma blocksb_ok n l : length l = n -> forallb (fun b => (length b =? 64)%nat && forallb (fun a => a <? 256) b) l = true -> blocks n l.
Proof.
  intros Hl H. split; [exact Hl|]. apply Forall_forall. intros b Hb. rewrite forallb_forall in H. specialize (H b Hb). apply andb_true_iff in H as [H1 H2]. apply Nat.eqb_eq in H1.
  split; [exact H1|]. rewrite forallb_forall in H2. apply Forall_forall. intros a Ha. apply N.ltb_lt, H2, Ha.
Qed.
Definition signedb (t : N) (msg : bytes) (e : event) : bool := match e with Signed t' m => (t' =? t) && bytes_eqb m msg | Broke _ => false end.
Definition brokeb (p : N -> bool) (e : event) : bool := match e with Signed _ _ => false | Broke t => p t end.
(** [awins], decided by running the code. *)
Definition awinsb {E} (H : bytes -> bytes) (Q : bytes -> bytes -> G1 E) (m : mode) (pp : pubparam E) (seed : bytes) (tb : N) (adv : aforger_for E) : bool :=
  match @key_gen (code_env E H Q) seed (cv_pp pp) with
  | Ok (pk, sk, pop) =>
    match code_run H Q m pp sk (adv pp (uv_pk pk) (uv_pop pop)) with
    | Some (msg, s, l, ev) =>
      existsb (pk_eqb (uv_pk pk)) (map fst l) && (N.of_nat (length l) <? fr_modulus) && negb (existsb (signedb (sig_time s) msg) ev)
      && (if tb =? 0 then negb (existsb (brokeb (fun _ => true)) ev) else existsb (brokeb (N.eqb tb)) ev && (sig_time s <? tb))
      && forallb (fun kp => @pk_validate (code_env E H Q) (cv_pk (fst kp)) (cv_pop (snd kp))) l
      && match @verify_aggregated (code_env E H Q) m (cv_sig s) (map cv_pk (map fst l)) (cv_pp pp) msg with Ok b => b | _ => false end
    | None => false
    end
  | _ => false
  end.
Lemma not_existsb {A} (f : A -> bool) l x : negb (existsb f l) = true -> f x = true -> ~ In x l.
Proof. intros H Hx Hi. apply negb_true_iff in H. assert (existsb f l = true); [|congruence]. apply existsb_exists. eauto. Qed.
Lemma awinsb_ok {E} (L : env_laws E) H Q m pp seed tb (adv : aforger_for E) : awinsb H Q m pp seed tb adv = true -> awins H Q m pp seed tb adv.
Proof.
  unfold awinsb. destruct (key_gen _ _) as [[[pk sk] pop]| |] eqn:Hk; [|discriminate|discriminate]. destruct (code_run _ _ _ _ _ _) as [[[[msg s] l] ev]|] eqn:Hr; [|discriminate]. intros Hb.
  apply andb_true_iff in Hb as [Hb H6]. apply andb_true_iff in Hb as [Hb H5]. apply andb_true_iff in Hb as [Hb H4]. apply andb_true_iff in Hb as [Hb H3]. apply andb_true_iff in Hb as [H1 H2].
  exists pk, sk, pop, msg, s, l, ev. split; [exact Hk|]. split; [exact Hr|]. split; [|split; [apply N.ltb_lt, H2|split; [|split; [|split; [exact H5|]]]]].
  - apply existsb_exists in H1 as (k & Hi & He). apply (pk_eqb_eq L) in He. rewrite He. exact Hi.
  - apply (not_existsb _ _ _ H3). cbn [signedb]. rewrite N.eqb_refl. apply bytes_eqb_eq. reflexivity.
  - destruct (tb =? 0); [intros t; apply (not_existsb _ _ _ H4); reflexivity|]. apply andb_true_iff in H4 as [H4 H7]. split; [|apply N.ltb_lt, H7].
    apply existsb_exists in H4 as (e & Hi & He). destruct e as [t m'|t]; [discriminate He|]. cbn [brokeb] in He. apply N.eqb_eq in He. subst t. exact Hi.
  - destruct (verify_aggregated _ _ _ _ _) as [b| |]; [|discriminate|discriminate]. rewrite H6. reflexivity.
Qed.
Lemma fwins_intro {E} m (g : G1 E) d cs tb bx adv y ys hs zs seed A B ks us o H Q pp : let z := (y, ys, hs, zs, (seed, A, B, ks, us)) in
  H = sampled_hash hs (o_tbl o) (o_calls o) -> Q = points (o_ptbl o) (map (fun e => g1_mul e g) zs) -> pp = exp_params g d cs y ys ->
  sampled g d cs tb bx adv z = Some o -> clean z o -> awins H Q m pp seed tb adv -> fwins m g d cs tb bx adv z.
Proof. cbv zeta. intros -> -> -> Hs Hc Hw. exists o. auto. Qed.
