(** Helpers for the example of Properties_Many.v. *)
From Verif Require Import Base Env SubKey SecretKey Keys Sig Api SpecKey SpecRed SpecRom SpecPop SpecFwd SpecIface SpecMany PrngFacts PopProps WitFwdProps.
Local Open Scope N_scope.

Fixpoint oks {A} (l : list (res A)) : option (list A) :=
  match l with
  | [] => Some []
  | Ok a :: l' => match oks l' with Some r => Some (a :: r) | None => None end
  | _ => None
  end.
Lemma oks_ok {A} : forall (l : list (res A)) r, oks l = Some r -> l = map Ok r.
Proof.
  induction l as [|[a|e|p] l IH]; intros r Hr; cbn [oks] in Hr; try discriminate Hr; [injection Hr as <-; reflexivity|].
  destruct (oks l) as [r'|]; [|discriminate]. injection Hr as <-. cbn [map]. rewrite (IH r' eq_refl). reflexivity.
Qed.
(** [cwins], decided by running the code. *)
Definition csignedb (i : nat) (t : N) (msg : bytes) (e : nat * event) : bool := (fst e =? i)%nat && signedb t msg (snd e).
Definition cbrokeb (i : nat) (t0 : N) (e : nat * event) : bool := (fst e =? i)%nat && brokeb (fun t => t <=? t0) (snd e).
Definition cwinsb {E} (H : bytes -> bytes) (Q : bytes -> bytes -> G1 E) (m : mode) (pp : pubparam E)
    (l1 : list bytes) (seed : bytes) (l2 : list bytes) (tb : N) (adv : cforger_for E) : bool :=
  let i := length l1 in
  match oks (map (fun sd => @key_gen (code_env E H Q) sd (cv_pp pp)) (l1 ++ seed :: l2)) with
  | None => false
  | Some ks =>
    match nth_error ks i with
    | None => false
    | Some (pk, sk, pop) =>
      match many_run H Q m pp (map (fun k => snd (fst k)) ks) (adv pp (map (fun k => (uv_pk (fst (fst k)), uv_pop (snd k))) ks)) with
      | Some (msg, s, l, ev) =>
        existsb (pk_eqb (uv_pk pk)) (map fst l) && (N.of_nat (length l) <? fr_modulus) && negb (existsb (csignedb i (sig_time s) msg) ev)
        && negb (existsb (cbrokeb i (sig_time s)) ev) && (tb =? first_break i ev)
        && forallb (fun kp => @pk_validate (code_env E H Q) (cv_pk (fst kp)) (cv_pop (snd kp))) l
        && match @verify_aggregated (code_env E H Q) m (cv_sig s) (map cv_pk (map fst l)) (cv_pp pp) msg with Ok b => b | _ => false end
      | None => false
      end
    end
  end.
Lemma cwinsb_ok {E} (L : env_laws E) H Q m pp l1 seed l2 tb (adv : cforger_for E) :
  cwinsb H Q m pp l1 seed l2 tb adv = true -> cwins H Q m pp l1 seed l2 tb adv.
Proof.
  unfold cwinsb. cbv zeta. destruct (oks _) as [ks|] eqn:Hk; [|discriminate]. destruct (nth_error ks (length l1)) as [[[pk sk] pop]|] eqn:Hi; [|discriminate].
  destruct (many_run _ _ _ _ _ _) as [[[[msg s] l] ev]|] eqn:Hr; [|discriminate]. intros Hb.
  apply andb_true_iff in Hb as [Hb H7]. apply andb_true_iff in Hb as [Hb H6]. apply andb_true_iff in Hb as [Hb H5]. apply andb_true_iff in Hb as [Hb H4].
  apply andb_true_iff in Hb as [Hb H3]. apply andb_true_iff in Hb as [H1 H2].
  exists ks, pk, sk, pop, msg, s, l, ev. split; [exact (oks_ok _ _ Hk)|]. split; [exact Hi|]. split; [exact Hr|].
  split; [|split; [apply N.ltb_lt, H2|split; [|split; [|split; [apply N.eqb_eq, H5|split; [exact H6|]]]]]].
  - apply existsb_exists in H1 as (k & Hin & He). apply (pk_eqb_eq L) in He. rewrite He. exact Hin.
  - apply (not_existsb _ _ _ H3). unfold csignedb. cbn [fst snd signedb]. rewrite Nat.eqb_refl, N.eqb_refl. apply bytes_eqb_eq. reflexivity.
  - intros t Ht. destruct (N.ltb_spec (sig_time s) t) as [Hl|Hl]; [exact Hl|]. exfalso. refine (not_existsb _ _ (length l1, Broke t) H4 _ Ht).
    unfold cbrokeb. cbn [fst snd brokeb]. rewrite Nat.eqb_refl. apply N.leb_le. exact Hl.
  - destruct (verify_aggregated _ _ _ _ _) as [b| |]; [|discriminate|discriminate]. rewrite H7. reflexivity.
Qed.
