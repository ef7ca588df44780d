(** Lemmas behind Properties_Rom.v. *)
From Coq Require Import Permutation.
From Coq Require Import ZifyBool ZifyN ZifyNat.
From Verif Require Import Base Env SpecTime Time TimeFacts Prng SpecPrng PrngFacts SubKey SecretKey Keys Sig SpecKey SpecUpdate
  SpecRed SpecMulti SpecRom RedProps MultiProps.
Local Open Scope N_scope.

Lemma with_hash_laws {E} (L : env_laws E) H : (forall b, length (H b) = 64%nat) -> (forall b, are_bytes (H b)) -> env_laws (with_hash E H).
Proof. intros Hl Hb. destruct L. constructor; assumption. Qed.

(** Verification asks for one value of the hash function. *)
Lemma signers_re {E} H (pp : pubparam E) pk l : signers (re_pp (H := H) pp) (re_pk pk) l = map re_pk (signers pp pk l).
Proof. unfold signers. rewrite map_map. apply map_ext. intros [x|]; reflexivity. Qed.
Lemma forallb_re {E} H cs (l : list (pubkey E)) : forallb (fun e => cs =? pk_cs e) (map (re_pk (H := H)) l) = forallb (fun e => cs =? pk_cs e) l.
Proof. induction l as [|k l IH]; [reflexivity|]. cbn [map forallb]. rewrite IH. reflexivity. Qed.
Lemma fold_re {E} H (l : list (pubkey E)) : forall a : G2 E,
  fold_left (fun (a : G2 (with_hash E H)) e => g2_add a (pk_pk e)) (map (re_pk (H := H)) l) a = fold_left (fun a e => g2_add a (pk_pk e)) l a.
Proof. induction l as [|k l IH]; intros a; [reflexivity|]. cbn [map fold_left]. exact (IH (g2_add a (pk_pk k))). Qed.
Lemma poly_re {E} H (hl : list (G1 E)) : forall v i (acc : G1 E), @poly_loop (with_hash E H) hl i v acc = @poly_loop E hl i v acc.
Proof. induction v as [|x v IH]; intros i acc; [reflexivity|]. cbn [poly_loop]. change (@nth_res (G1 (with_hash E H)) hl (i + 1)) with (@nth_res (G1 E) hl (i + 1)). destruct (@nth_res (G1 E) hl (i + 1)) as [h| |]; [|reflexivity|reflexivity]. cbn [bind]. exact (IH _ _). Qed.
Lemma lincomb_re {E} H : forall v (hl : list (G1 E)), @lincomb (with_hash E H) v hl = @lincomb E v hl.
Proof. induction v as [|x v IH]; intros [|h hl]; try reflexivity. cbn [lincomb]. rewrite (IH hl). reflexivity. Qed.
Lemma node_val_re {E} H (pp : pubparam E) v : @node_val (with_hash E H) (re_pp pp) v = node_val pp v.
Proof. unfold node_val. cbn [re_pp pp_hlist]. rewrite (lincomb_re H). reflexivity. Qed.
Lemma honest_ssk_re {E} H (pp : pubparam E) x t v r : un_ssk (@honest_ssk (with_hash E H) (re_pp pp) x t v r) = honest_ssk pp x t v r.
Proof. unfold honest_ssk, un_ssk. cbn [sk_t sk_g2r sk_hpoly sk_hvec]. rewrite (node_val_re H). reflexivity. Qed.
Lemma honest_sig_re {E} H (pp : pubparam E) x t v M r : un_sig (@honest_sig (with_hash E H) (re_pp pp) x t v M r) = honest_sig pp x t v M r.
Proof. unfold honest_sig, un_sig, sig_val. cbn [sig_cs sig_time sig_1 sig_2]. rewrite (node_val_re H). reflexivity. Qed.
Lemma pairing_check_re {E} H l : @pairing_check (with_hash E H) l = @pairing_check E l.
Proof. reflexivity. Qed.
Lemma verify_agg_re {E} H m (s : signature E) (pp : pubparam E) pks msg :
  @verify_aggregated (with_hash E H) m (re_sig s) (map re_pk pks) (re_pp pp) msg
  = (if negb (forallb (fun e => pp_cs pp =? pk_cs e) pks) then Ok false
     else if negb (sig_cs s =? pp_cs pp) then Ok false
     else match pks with
          | [] => Panic P_INDEX
          | k :: pks' =>
            let agg := fold_left (fun a e => g2_add a (pk_pk e)) pks' (pk_pk k) in
            if negb (valid_cs (pp_cs pp)) then Ok false
            else if negb (sig_cs s =? pp_cs pp) then Ok false
            else let! hm := os2ip_mod_p (H (hash_input (pp_cs pp) msg)) in verify_fr m s (PubKey (pp_cs pp) agg) pp hm
          end).
Proof.
  unfold verify_aggregated. cbv zeta. change (pp_cs (re_pp pp)) with (pp_cs pp). rewrite forallb_re.
  destruct (negb (forallb _ pks)); [reflexivity|]. cbn [re_sig sig_cs]. destruct (negb (sig_cs s =? pp_cs pp)) eqn:Q; [reflexivity|].
  destruct pks as [|k pks]; [reflexivity|]. cbn [map]. change (pk_pk (re_pk k)) with (pk_pk k). rewrite fold_re.
  unfold verify, hash_msg_into_fr. cbn [sha512 with_hash re_pp pp_cs re_sig sig_cs]. destruct (negb (valid_cs (pp_cs pp))); [reflexivity|]. rewrite ?Q.
  unfold hash_input. cbn [app]. destruct (os2ip_mod_p _) as [hm| |]; [|reflexivity|reflexivity]. cbn [bind].
  unfold verify_fr. cbn [re_sig re_pp sig_1 sig_2 sig_time pp_depth pp_hlist pp_g2 pp_h pk_pk g2_insub g1_insub with_hash].
  destruct (_ || _); [reflexivity|]. change (@nth_res (G1 (with_hash E H))) with (@nth_res (G1 E)). destruct (nth_res (pp_hlist pp) 0) as [h0| |]; [|reflexivity|reflexivity]. cbn [bind].
  destruct (tv_init m (sig_time s) (pp_depth pp)) as [tv| |]; [|reflexivity|reflexivity].
  rewrite (poly_re H). reflexivity.
Qed.
Lemma verify_transfer {E} H1 H2 m (s : signature E) (pp : pubparam E) pk l msg1 msg2 :
  H1 (hash_input (pp_cs pp) msg1) = H2 (hash_input (pp_cs pp) msg2) ->
  @verify_aggregated (with_hash E H1) m (re_sig s) (signers (re_pp pp) (re_pk pk) l) (re_pp pp) msg1
  = @verify_aggregated (with_hash E H2) m (re_sig s) (signers (re_pp pp) (re_pk pk) l) (re_pp pp) msg2.
Proof. intros Hh. rewrite !signers_re, !verify_agg_re, Hh. reflexivity. Qed.

(** Positions. *)
Lemma position_le tbl b : (position tbl b <= length tbl)%nat.
Proof. induction tbl as [|c tbl IH]; cbn [position length]; [lia|]. destruct (bytes_eqb c b); lia. Qed.
Lemma position_in tbl b : (position tbl b < length tbl)%nat <-> In b tbl.
Proof.
  induction tbl as [|c tbl IH]; cbn [position length In]; [split; [lia|tauto]|]. destruct (bytes_eqb c b) eqn:Q.
  - apply bytes_eqb_eq in Q. split; [auto|lia].
  - split; [intros H; right; apply IH; lia|]. intros [H|H]; [|apply IH in H; lia]. apply bytes_eqb_eq in H. congruence.
Qed.
Lemma position_app tbl e b : In b tbl -> position (tbl ++ e) b = position tbl b.
Proof.
  induction tbl as [|c tbl IH]; cbn [position In app]; [tauto|]. destruct (bytes_eqb c b) eqn:Q; [reflexivity|].
  intros [H|H]; [apply bytes_eqb_eq in H; congruence|]. rewrite (IH H). reflexivity.
Qed.
Lemma position_new tbl b e : ~ In b tbl -> position (tbl ++ b :: e) b = length tbl.
Proof.
  induction tbl as [|c tbl IH]; cbn [position app In length]; intros H.
  - replace (bytes_eqb b b) with true by (symmetry; apply bytes_eqb_eq; reflexivity). reflexivity.
  - destruct (bytes_eqb c b) eqn:Q; [apply bytes_eqb_eq in Q; tauto|]. rewrite IH by tauto. reflexivity.
Qed.
Lemma position_nth tbl b : In b tbl -> nth_error tbl (position tbl b) = Some b.
Proof.
  induction tbl as [|c tbl IH]; cbn [position In]; [tauto|]. destruct (bytes_eqb c b) eqn:Q; [apply bytes_eqb_eq in Q; subst; reflexivity|].
  intros [H|H]; [apply bytes_eqb_eq in H; congruence|]. exact (IH H).
Qed.
Lemma position_out tbl b : ~ In b tbl -> position tbl b = length tbl.
Proof. intros H. rewrite <- position_in in H. pose proof (position_le tbl b). lia. Qed.
Lemma enter_app tbl b : exists e, enter tbl b = tbl ++ e.
Proof. unfold enter. destruct (_ <? _)%nat; [exists []; symmetry; apply app_nil_r|exists [b]; reflexivity]. Qed.
Lemma enter_in tbl b : In b (enter tbl b).
Proof. unfold enter. destruct (_ <? _)%nat eqn:Q; [apply position_in; lia|apply in_or_app; right; left; reflexivity]. Qed.
Lemma enter_pos tbl b : position (enter tbl b) b = position tbl b.
Proof.
  unfold enter. destruct (_ <? _)%nat eqn:Q; [reflexivity|]. assert (~ In b tbl) as Hn by (rewrite <- position_in; lia).
  rewrite (position_new _ _ _ Hn), (position_out _ _ Hn). reflexivity.
Qed.
Lemma enter_nodup tbl b : NoDup tbl -> NoDup (enter tbl b).
Proof.
  intros H. unfold enter. destruct (_ <? _)%nat eqn:Q; [exact H|]. assert (~ In b tbl) as Hn by (rewrite <- position_in; lia).
  exact (Permutation_NoDup (Permutation_cons_append tbl b) (NoDup_cons b Hn H)).
Qed.

(** The relabelled forger plays the same game. *)
Definition requestion (cs : N) (tbl hs : list bytes) (q : hquestion) : question :=
  match q with
  | HKey t => QKey t
  | HSig t msg => QSig t (scalar_of (nth (position tbl (hash_input cs msg)) hs (repeat 0 64)))
  end.
Definition asked (cs : N) (tbl : list bytes) (q : hquestion) : Prop :=
  match q with HKey t => True | HSig t msg => In (hash_input cs msg) tbl end.

Lemma answer_number cs hs i : answer cs hs (hash_input cs (number i)) = nth i hs (repeat 0 64).
Proof.
  unfold answer, hash_input, number. f_equal. rewrite !app_length. cbn [length]. rewrite repeat_length. lia.
Qed.
Lemma hash_input_inj cs m1 m2 : hash_input cs m1 = hash_input cs m2 -> m1 = m2.
Proof. unfold hash_input. intros H. apply app_inv_head in H. injection H as ->. reflexivity. Qed.
Lemma within {A} (hs : list A) i x : nth_error hs i = Some x -> (i < length hs)%nat.
Proof. intros H. apply nth_error_Some. congruence. Qed.
Lemma asked_app cs tbl e q : asked cs tbl q -> asked cs (tbl ++ e) q.
Proof. destruct q; [trivial|]. intros H. apply in_or_app. left. exact H. Qed.

Lemma hplay_relabel {E} (pp : pubparam E) x hs : forall f tbl rs msg s l tbl' q,
  (length tbl <= length hs)%nat -> NoDup tbl ->
  hplay pp x hs tbl rs f = Some (msg, s, l, tbl', q) ->
  mplay (re_pp pp) x rs (relabel (pp_cs pp) hs tbl f) = Some (re_sig s, l, map (requestion (pp_cs pp) tbl' hs) q)
  /\ (exists e, tbl' = tbl ++ e) /\ NoDup tbl' /\ (length tbl' <= length hs)%nat
  /\ In (hash_input (pp_cs pp) msg) tbl' /\ Forall (asked (pp_cs pp) tbl') q.
Proof.
  assert (Hent : forall tbl b h, (length tbl <= length hs)%nat -> nth_error hs (position tbl b) = Some h -> (length (enter tbl b) <= length hs)%nat).
  { intros tbl b h Hl Hh. apply within in Hh. unfold enter. destruct (_ <? _)%nat eqn:Q; [exact Hl|]. pose proof (position_le tbl b). rewrite app_length. cbn [length]. lia. }
  assert (Hpre : forall tbl b e, (exists e', (enter tbl b ++ e) = tbl ++ e')).
  { intros tbl b e. destruct (enter_app tbl b) as [e' ->]. exists (e' ++ e). symmetry. apply app_assoc. }
  induction f as [msg0 s0 l0|t k IH|t msg0 k IH|b k IH]; intros tbl rs msg s l tbl' q Hlen Hnd Hp; cbn [hplay relabel] in *.
  - destruct (nth_error hs _) eqn:Hh in Hp; [|discriminate Hp]. injection Hp as <- <- <- <- <-.
    split; [destruct rs; reflexivity|]. split; [apply enter_app|]. split; [apply enter_nodup, Hnd|]. split; [exact (Hent _ _ _ Hlen Hh)|]. split; [apply enter_in|constructor].
  - destruct rs as [|r rs]; [discriminate Hp|]. cbn [mplay]. change (pp_depth (re_pp pp)) with (pp_depth pp).
    destruct (in_tree (pp_depth pp) t); [|discriminate Hp].
    destruct (hplay pp x hs tbl rs (k _)) as [[[[[msg1 s1] l1] tbl1] q1]|] eqn:Hk in Hp; [|discriminate Hp]. cbn [hnote] in Hp. injection Hp as <- <- <- <- <-.
    destruct (IH _ _ _ _ _ _ _ _ Hlen Hnd Hk) as (Hm & He & Hn & Hl & Hi & Hf).
    split; [|repeat (split; [assumption|]); constructor; [exact I|exact Hf]].
    rewrite honest_ssk_re, Hm. reflexivity.
  - destruct rs as [|r rs]; [discriminate Hp|]. cbn [mplay]. change (pp_depth (re_pp pp)) with (pp_depth pp).
    destruct (in_tree (pp_depth pp) t); [|discriminate Hp].
    destruct (nth_error hs _) as [h|] eqn:Hh in Hp; [|discriminate Hp].
    destruct (hplay pp x hs (enter tbl _) rs (k _)) as [[[[[msg1 s1] l1] tbl1] q1]|] eqn:Hk in Hp; [|discriminate Hp]. cbn [hnote] in Hp. injection Hp as <- <- <- <- <-.
    destruct (IH _ _ _ _ _ _ _ _ (Hent _ _ _ Hlen Hh) (enter_nodup _ _ Hnd) Hk) as (Hm & He & Hn & Hl & Hi & Hf).
    assert (Hin : In (hash_input (pp_cs pp) msg0) tbl1) by (destruct He as [e ->]; apply in_or_app; left; apply enter_in).
    split; [|split; [destruct He as [e ->]; apply Hpre|repeat (split; [assumption|]); constructor; [exact Hin|exact Hf]]].
    assert (Hsc : msg_scalar (re_pp (H := answer (pp_cs pp) hs) pp) (number (position tbl (hash_input (pp_cs pp) msg0))) = scalar_of h).
    { change (scalar_of (answer (pp_cs pp) hs (hash_input (pp_cs pp) (number (position tbl (hash_input (pp_cs pp) msg0))))) = scalar_of h).
      rewrite answer_number, (nth_error_nth _ _ _ Hh). reflexivity. }
    rewrite Hsc.
    rewrite honest_sig_re, Hm. cbn [note map requestion]. repeat f_equal. destruct He as [e ->]. rewrite (position_app _ e _ (enter_in _ _)), enter_pos, (nth_error_nth _ _ _ Hh). reflexivity.
  - destruct (nth_error hs _) as [h|] eqn:Hh in Hp; [|discriminate Hp].
    destruct (IH _ _ _ _ _ _ _ _ (Hent _ _ _ Hlen Hh) (enter_nodup _ _ Hnd) Hp) as (Hm & He & Hn & Hl & Hi & Hf).
    rewrite (nth_error_nth _ _ _ Hh). split; [exact Hm|]. split; [destruct He as [e ->]; apply Hpre|]. repeat (split; [assumption|]). assumption.
Qed.

Definition relabelled {E} (cs : N) (hs : list bytes) (adv : pubparam E -> pubkey E -> hforger E)
  : pubparam (with_hash E (answer cs hs)) -> pubkey (with_hash E (answer cs hs)) -> mforger (with_hash E (answer cs hs)) :=
  fun pp pk => relabel cs hs [] (adv (un_pp pp) (un_pk pk)).

Lemma nth_hash (hs : list bytes) : Forall (fun h => length h = 64%nat /\ are_bytes h) hs -> forall i,
  length (nth i hs (repeat 0 64)) = 64%nat /\ are_bytes (nth i hs (repeat 0 64)).
Proof.
  intros H i. destruct (nth_in_or_default i hs (repeat 0 64)) as [Hi| ->].
  - rewrite Forall_forall in H. exact (H _ Hi).
  - split; [apply repeat_length|]. apply Forall_forall. intros x Hx. apply repeat_spec in Hx. subst. reflexivity.
Qed.
Lemma answer_laws {E} (L : env_laws E) cs hs : Forall (fun h => length h = 64%nat /\ are_bytes h) hs -> env_laws (with_hash E (answer cs hs)).
Proof. intros H. apply with_hash_laws; [exact L| |]; intros b; apply (nth_hash hs H). Qed.

Lemma hwins_mwins {E} m (g : G1 E) d cs x adv n q y ys rs hs :
  hcoins_ok d n q (y, ys, rs, hs) -> hwins m g d cs x adv (y, ys, rs, hs) ->
  exists i, (i < q)%nat /\ @mwins (with_hash E (answer cs hs)) m g d cs x (number i) (relabelled cs hs adv) (y, ys, rs).
Proof.
  intros (_ & Hq & _ & Hnd) (msg & s & l & tbl & qs & Hp & Hin & Hlen & Hfr & Hv).
  destruct (hplay_relabel _ x hs _ [] rs msg s l tbl qs ltac:(cbn; lia) (NoDup_nil _) Hp) as (Hm & _ & Hnt & Hl & Him & Hf).
  cbn [exp_params pp_cs] in Hm, Him, Hf. set (i := position tbl (hash_input cs msg)) in *.
  assert (Hi : (i < length tbl)%nat) by (apply position_in, Him).
  exists i. split; [lia|]. unfold mwins. exists (re_sig s), l, (map (requestion cs tbl hs) qs).
  split; [exact Hm|]. split; [exact Hin|]. split; [exact Hlen|]. split.
  - change (msg_scalar _ (number i)) with (scalar_of (answer cs hs (hash_input cs (number i)))). rewrite answer_number. change (sig_time (re_sig s)) with (sig_time s).
    rewrite forallb_forall in Hfr |- *. intros u Hu. apply in_map_iff in Hu as (w & <- & Hw). specialize (Hfr w Hw).
    rewrite Forall_forall in Hf. specialize (Hf w Hw). destruct w as [t|t msg0]; [exact Hfr|]. cbn [hfresh requestion fresh asked] in *.
    destruct (t =? sig_time s) eqn:Et; [|reflexivity]. cbn [andb] in *.
    destruct (scalar_of _ =? scalar_of _) eqn:Es; [exfalso|reflexivity]. apply N.eqb_eq in Es.
    assert (Hj : (position tbl (hash_input cs msg0) < length tbl)%nat) by (apply position_in, Hf).
    assert (He : position tbl (hash_input cs msg0) = i).
    { apply (proj1 (NoDup_nth (map scalar_of hs) (scalar_of (repeat 0 64))) Hnd); rewrite ?map_length; [lia|lia|]. rewrite !map_nth. exact Es. }
    assert (Hb : Some (hash_input cs msg0) = Some (hash_input cs msg)).
    { rewrite <- (position_nth _ _ Hf), <- (position_nth _ _ Him). rewrite He. reflexivity. }
    assert (msg0 = msg) as -> by (apply (hash_input_inj cs); congruence).
    replace (bytes_eqb msg msg) with true in Hfr by (symmetry; apply bytes_eqb_eq; reflexivity). discriminate Hfr.
  - match type of Hv with ?lhs = _ => transitivity lhs; [|exact Hv] end. symmetry.
    apply (verify_transfer (table tbl hs) (answer cs hs) m s (exp_params g d cs y ys) (PubKey cs (g2_mul x g2_one)) l msg (number i)).
    cbn [exp_params pp_cs]. rewrite answer_number. reflexivity.
Qed.

Lemma rom_forger_solves : forall (E : env) (L : env_laws E) m (g : G1 E) d cs a b adv n q ws,
  g1_insub g = true -> (1 <= d < 64)%nat -> (1 <= q)%nat ->
  NoDup ws -> Forall (fun z => hcoins_ok d n q z /\ hwins m g d cs a adv z) ws ->
  exists tx i zs, 1 <= tx <= last_time d /\ (i < q)%nat
    /\ N.of_nat (length ws) <= last_time d * N.of_nat q * N.of_nat (length zs) /\ NoDup zs
    /\ Forall (fun z => hcoins_ok d n q z /\ hsolve (challenge_for g d a b) d cs tx i adv z = Some (solution g d a b)) zs.
Proof.
  intros E L m g d cs a b adv n q ws Hg Hd Hq Hn Hf.
  assert (Hlast : 1 <= last_time d).
  { unfold last_time, pow2. assert (2 ^ 1 <= 2 ^ N.of_nat d) by (apply N.pow_le_mono_r; lia). change (2 ^ 1) with 2 in H. lia. }
  set (txof := fun t : nat => N.of_nat ((t - 1) / q + 1)). set (iof := fun t : nat => ((t - 1) mod q)%nat).
  set (P := fun (t : nat) (z : hcoins) => hcoins_ok d n q z
     /\ let '(y, ys, rs, hs) := z in @wins (with_hash E (answer cs hs)) m g d cs a (txof t) (number (iof t)) (one_signer (relabelled cs hs adv)) (y, ys, rs)).
  destruct (pigeons P (N.to_nat (last_time d) * q) ws ltac:(nia) Hn) as (t & us & Ht & Hl & Nu & Fu & _).
  { eapply Forall_impl; [|exact Hf]. intros [[[y ys] rs] hs] [Hz Hw].
    destruct (hwins_mwins m g d cs a adv n q y ys rs hs Hz Hw) as (i & Hi & Hmw). pose proof Hz as (Hc & _ & Hhs & _).
    destruct (mwins_wins (answer_laws L cs hs Hhs) m g d cs a (number i) (relabelled cs hs adv) n (y, ys, rs) Hg Hd Hc Hmw) as (tx & Htx & Hw').
    exists ((N.to_nat tx - 1) * q + i + 1)%nat. split; [nia|]. split; [exact Hz|].
    assert (E1 : txof ((N.to_nat tx - 1) * q + i + 1)%nat = tx).
    { unfold txof. rewrite Nat.add_sub, (Nat.add_comm _ i). rewrite Nat.div_add, Nat.div_small by lia. lia. }
    assert (E2 : iof ((N.to_nat tx - 1) * q + i + 1)%nat = i).
    { unfold iof. rewrite Nat.add_sub, (Nat.add_comm _ i). rewrite Nat.mod_add, Nat.mod_small by lia. reflexivity. }
    rewrite E1, E2. exact Hw'. }
  assert (Htx : 1 <= txof t <= last_time d).
  { unfold txof. assert ((t - 1) / q < N.to_nat (last_time d))%nat by (apply Nat.div_lt_upper_bound; [lia|]; rewrite Nat.mul_comm; apply (Nat.lt_le_trans _ t); [|exact (proj2 Ht)]; destruct Ht as [Ht _]; clear - Ht; lia). revert H. generalize ((t - 1) / q)%nat. intros k0 Hk0. clear - Hk0. lia. }
  set (G := fun z : hcoins => let '(y, ys, rs, hs) := z in
     (@Gz (with_hash E (answer cs hs)) g d cs a b (txof t) (number (iof t)) (one_signer (relabelled cs hs adv)) (y, ys, rs), hs) : hcoins).
  assert (HG : forall y ys rs hs, hcoins_ok d n q (y, ys, rs, hs) ->
     coins_ok d n (fst (G (y, ys, rs, hs))) /\ @Fz (with_hash E (answer cs hs)) g d cs a b (txof t) (number (iof t)) (one_signer (relabelled cs hs adv)) (fst (G (y, ys, rs, hs))) = (y, ys, rs)).
  { intros y ys rs hs (Hc & _ & Hhs & _). exact (Gz_ok (answer_laws L cs hs Hhs) g Hg d cs a b (txof t) (number (iof t)) Hd Htx _ n (y, ys, rs) Hc). }
  exists (txof t), (iof t), (map G us). split; [exact Htx|]. split; [apply Nat.mod_upper_bound; lia|].
  split; [rewrite map_length; nia|]. split.
  - clear Hl. induction us as [|z us IH]; [constructor|]. inversion Nu as [|? ? Nz Nus]; subst. inversion Fu as [|? ? Fz0 Fus]; subst. cbn [map].
    constructor; [|exact (IH Nus Fus)]. intros Hin. apply in_map_iff in Hin as (z' & He & Hin). apply Nz. replace z with z'; [exact Hin|].
    rewrite Forall_forall in Fus. destruct (Fus z' Hin) as [Hz' _]. destruct Fz0 as [Hz _].
    destruct z as [[[y ys] rs] hs], z' as [[[y' ys'] rs'] hs']. assert (Hh : hs' = hs) by (injection He; auto). subst hs'.
    f_equal. rewrite <- (proj2 (HG _ _ _ _ Hz)), <- (proj2 (HG _ _ _ _ Hz')). f_equal. rewrite He. reflexivity.
  - apply Forall_forall. intros z Hz. apply in_map_iff in Hz as (z' & <- & Hin). rewrite Forall_forall in Fu. destruct (Fu z' Hin) as [Hz' Hw].
    destruct z' as [[[y ys] rs] hs]. destruct (HG _ _ _ _ Hz') as [H1 H2]. pose proof Hz' as (Hc & Hlq & Hhs & Hnd).
    unfold G in H1, H2 |- *. cbn [fst] in H1, H2. destruct (Gz _ _ _ _ _ _ _ _ _) as [[c cl] rs'] eqn:Q. cbn beta in H1, H2.
    split; [split; [exact H1|auto]|]. cbn [hsolve].
    refine (Fz_wins (answer_laws L cs hs Hhs) g Hg d cs a b (txof t) (number (iof t)) Hd Htx (one_signer (relabelled cs hs adv)) m n (c, cl, rs') H1 _).
    rewrite H2. exact Hw.
Qed.

(** A fixed hash function. *)
Lemma answered (H : bytes -> bytes) tbl b e more : nth_error (map H (enter tbl b ++ e) ++ more) (position tbl b) = Some (H b).
Proof.
  rewrite map_app, <- app_assoc. rewrite nth_error_app1; [|rewrite map_length, <- enter_pos; apply position_in, enter_in].
  apply map_nth_error. rewrite <- enter_pos. apply position_nth, enter_in.
Qed.
Lemma eplay_hplay {E} (pp : pubparam E) x H : forall f tbl rs msg s l q, NoDup tbl ->
  eplay pp x H rs f = Some (msg, s, l, q) ->
  exists e, NoDup (tbl ++ e) /\ In (hash_input (pp_cs pp) msg) (tbl ++ e)
    /\ forall more, hplay pp x (map H (tbl ++ e) ++ more) tbl rs f = Some (msg, s, l, tbl ++ e, q).
Proof.
  induction f as [msg0 s0 l0|t k IH|t msg0 k IH|b k IH]; intros tbl rs msg s l q Hnd Hp; cbn [eplay hplay] in *.
  - injection Hp as <- <- <- <-. pose proof (answered H tbl (hash_input (pp_cs pp) msg0) []) as Ha. rewrite app_nil_r in Ha.
    pose proof (enter_in tbl (hash_input (pp_cs pp) msg0)) as Hi. pose proof (enter_nodup tbl (hash_input (pp_cs pp) msg0) Hnd) as Hn.
    destruct (enter_app tbl (hash_input (pp_cs pp) msg0)) as [e He]. rewrite He in *. exists e. split; [exact Hn|]. split; [exact Hi|].
    intros more. rewrite (Ha more). reflexivity.
  - destruct rs as [|r rs]; [discriminate Hp|]. destruct (in_tree (pp_depth pp) t); [|discriminate Hp].
    destruct (eplay pp x H rs (k _)) as [[[[msg1 s1] l1] q1]|] eqn:Hk in Hp; [|discriminate Hp]. cbn [hnote] in Hp. injection Hp as <- <- <- <-.
    destruct (IH _ _ _ _ _ _ _ Hnd Hk) as (e & Hn & Hi & Hf). exists e. split; [exact Hn|]. split; [exact Hi|]. intros more. rewrite (Hf more). reflexivity.
  - destruct rs as [|r rs]; [discriminate Hp|]. destruct (in_tree (pp_depth pp) t); [|discriminate Hp].
    destruct (eplay pp x H rs (k _)) as [[[[msg1 s1] l1] q1]|] eqn:Hk in Hp; [|discriminate Hp]. cbn [hnote] in Hp. injection Hp as <- <- <- <-.
    destruct (IH _ _ _ _ _ _ _ (enter_nodup tbl (hash_input (pp_cs pp) msg0) Hnd) Hk) as (e & Hn & Hi & Hf).
    pose proof (answered H tbl (hash_input (pp_cs pp) msg0) e) as Ha.
    destruct (enter_app tbl (hash_input (pp_cs pp) msg0)) as [e' He]. exists (e' ++ e). rewrite app_assoc, <- He. split; [exact Hn|]. split; [exact Hi|].
    intros more. rewrite (Ha more), (Hf more). reflexivity.
  - destruct (IH _ _ _ _ _ _ _ (enter_nodup tbl b Hnd) Hp) as (e & Hn & Hi & Hf).
    pose proof (answered H tbl b e) as Ha.
    destruct (enter_app tbl b) as [e' He]. exists (e' ++ e). rewrite app_assoc, <- He. split; [exact Hn|]. split; [exact Hi|].
    intros more. rewrite (Ha more), (Hf more). reflexivity.
Qed.

Lemma nodup_or_twice {A} (f : A -> N) : forall l : list A, NoDup l ->
  NoDup (map f l) \/ exists u v, In u l /\ In v l /\ u <> v /\ f u = f v.
Proof.
  induction 1 as [|u l Hu Hl [IH|(v & w & Hv & Hw & Hne & He)]]; [left; constructor| |right; exists v, w; cbn; auto].
  destruct (in_dec N.eq_dec (f u) (map f l)) as [Hin|Hin]; [right|left; constructor; assumption].
  apply in_map_iff in Hin as (v & He & Hin). exists u, v. cbn. split; [auto|]. split; [auto|]. split; [intros ->; auto|auto].
Qed.

Lemma fixed_hash : forall (E : env) m (g : G1 E) d cs x H adv y ys rs,
  ewins m g d cs x H adv (y, ys, rs) ->
  exists tbl, (forall more, hwins m g d cs x adv (y, ys, rs, map H tbl ++ more))
    /\ (NoDup (map scalar_of (map H tbl))
        \/ exists u v, In u tbl /\ In v tbl /\ u <> v /\ scalar_of (H u) = scalar_of (H v)).
Proof.
  intros E m g d cs x H adv y ys rs (msg & s & l & q & Hp & Hin & Hlen & Hfr & Hv).
  destruct (eplay_hplay _ x H _ [] rs msg s l q (NoDup_nil _) Hp) as (tbl & Hn & Hi & Hf). cbn [app] in Hn, Hi, Hf.
  exists tbl. split.
  - intros more. exists msg, s, l, tbl, q. split; [exact (Hf more)|]. split; [exact Hin|]. split; [exact Hlen|]. split; [exact Hfr|].
    match type of Hv with ?lhs = _ => transitivity lhs; [|exact Hv] end. symmetry.
    apply (verify_transfer H (table tbl (map H tbl ++ more)) m s (exp_params g d cs y ys) (PubKey cs (g2_mul x g2_one)) l msg msg).
    cbn [exp_params pp_cs] in *. unfold table. rewrite app_nth1 by (rewrite map_length; apply position_in, Hi).
    symmetry. apply nth_error_nth, map_nth_error, position_nth, Hi.
  - rewrite map_map. apply nodup_or_twice, Hn.
Qed.
