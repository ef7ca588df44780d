(** The lemmas behind Properties_Adv.v. *)
From Coq Require Import Permutation ListDec.
From Coq Require Import Lia ZifyBool ZifyN ZifyNat.
From Verif Require Import KeyFacts VerProps KeyProps Base Env Time SpecTime Prng SpecPrng PrngFacts SubKey SecretKey Keys Sig Api SpecKey SpecUpdate SpecAgg
  SpecRed SpecMulti SpecRom SpecPop SpecFwd SpecClean RedProps MultiProps RomProps CountProps PopProps PopCountProps
  FwdProps FwdCodeProps FwdGameProps FwdMainProps CleanProps CleanCountProps CleanMainProps IfaceProps CostMainProps SpecIface SpecCost SpecAdv.
Local Open Scope N_scope.
#[local] Opaque hash_values numbers.

(** * One forgery *)
(** The coins of the game from those of the solver, for one forger of SpecRom.v and one guess. *)
Definition hback {E} (g : G1 E) d cs a b tx i (adv : pubparam E -> pubkey E -> hforger E) (c : hcoins) : hcoins :=
  let '(c0, cl, rs, hs) := c in
  (@Fz (with_hash E (answer cs hs)) g d cs a b tx (number i) (one_signer (relabelled cs hs adv)) (c0, cl, rs), hs).
Lemma one_solves {E} (L : env_laws E) m (g : G1 E) d cs a b adv n q z :
  g1_insub g = true -> (1 <= d < 64)%nat -> hcoins_ok d n q z -> hwins m g d cs a adv z ->
  exists tx i c, 1 <= tx <= last_time d /\ (i < q)%nat /\ hcoins_ok d n q c
    /\ hsolve (challenge_for g d a b) d cs tx i adv c = Some (solution g d a b) /\ hback g d cs a b tx i adv c = z.
Proof.
  intros Hg Hd Hz Hw. destruct z as [[[y ys] rs] hs].
  destruct (hwins_mwins m g d cs a adv n q y ys rs hs Hz Hw) as (i & Hi & Hmw). pose proof Hz as (Hc & Hlq & Hhs & Hnd).
  destruct (mwins_wins (answer_laws L cs hs Hhs) m g d cs a (number i) (relabelled cs hs adv) n (y, ys, rs) Hg Hd Hc Hmw) as (tx & Htx & Hw').
  destruct (Gz_ok (answer_laws L cs hs Hhs) g Hg d cs a b tx (number i) Hd Htx (one_signer (relabelled cs hs adv)) n (y, ys, rs) Hc) as [H1 H2].
  destruct (Gz _ _ _ _ _ _ _ _ _) as [[c cl] rs'] eqn:Q. cbn beta in H1, H2.
  exists tx, i, (c, cl, rs', hs). split; [exact Htx|]. split; [exact Hi|]. split; [split; [exact H1|auto]|]. split.
  - cbn [hsolve]. refine (Fz_wins (answer_laws L cs hs Hhs) g Hg d cs a b tx (number i) Hd Htx (one_signer (relabelled cs hs adv)) m n (c, cl, rs') H1 _).
    rewrite H2. exact Hw'.
  - unfold hback. f_equal. exact H2.
Qed.

(** * One win *)
(** The coins [k] of the solver belong to the coins [w] of the game. *)
Definition sent {E} (dl : G2 E -> N) (g : G1 E) d cs (adv : aforger_for E) (w : gcoins) (k : kcoins) : Prop :=
  let '(bx, b, tb, (y, ys, hs, zs, (seed, A, B, ks, us))) := w in
  let '(bx', b', tb', tx, i, (c, rho, (seed', u, ds))) := k in
  bx' = bx /\ b' = b /\ tb' = tb /\ rho = to_rho y zs /\ seed' = seed /\ u = (B, ks, us) /\ ds = map quotient A
  /\ hback g d cs (scalar_of bx) b tx i (family dl g cs (scalar_of bx) (reduced tb u adv) rho) c
     = (y, ys, rs_of g d cs tb bx adv (y, ys, hs, zs, (seed, A, B, ks, us)), hs).
Definition good_win {E} m (g : G1 E) d cs (adv : aforger_for E) n nb nk nu ls q p (w : gcoins) : Prop :=
  let '(bx, b, tb, z) := w in hash_value bx /\ b < fr_modulus /\ tb <= last_time d /\ fcoins_ok d n nb nk nu ls q p z /\ fwins m g d cs tb bx adv z.
Definition good_end {E} (g : G1 E) d cs (adv : aforger_for E) n nb nk nu ls q p (k : kcoins) : Prop :=
  let '(bx, b, tb, tx, i, z) := k in
  (hash_value bx /\ b < fr_modulus) /\ tb <= last_time d /\ 1 <= tx <= last_time d /\ (i < q)%nat /\ scoins_ok d n nb nk nu ls q p z
  /\ fsolve (challenge_for g d (scalar_of bx) b) d cs tx i tb adv z = Some (solution g d (scalar_of bx) b).

Section One.
Context {E : env} (L : env_laws E) (m : mode) (g : G1 E) (d : nat) (cs : N) (adv : aforger_for E) (n nb nk nu ls q p : nat).
Context (Hg : g1_insub g = true) (Hd : (1 <= d < 64)%nat) (Hcs : valid_cs cs = true) (Hls : (32 <= ls)%nat).
Context (dl : G2 E -> N) (Hdl : forall k, g2_insub k = true -> k = g2_mul (dl k) g2_one).

Lemma win_solves w : good_win m g d cs adv n nb nk nu ls q p w ->
  exists k, sent dl g d cs adv w k /\ good_end g d cs adv n nb nk nu ls q p k.
Proof.
  destruct w as [[[bx b] tb] [[[[y ys] hs] zs] [[[[seed A] B] ks] us]]]. intros (Hbx & Hb & Htb & Hok & Hw).
  pose proof (fwins_pwins L m g d cs tb bx adv n nb nk nu ls q p Hg Hd Hcs Hbx Hls _ Hok Hw) as HP. cbn beta iota in HP. destruct HP as (P & Hsc & _ & _).
  destruct Hok as (Hy & Hys & ([Hlq Hhs] & Hnd) & [Hlp Hzs] & Hse & [HlA HA] & HB & Hks & Hus).
  assert (Hy' : y mod fr_modulus <> 0) by (rewrite N.mod_small; lia).
  pose proof (pwins_family L dl m g d cs (scalar_of bx) _ y ys _ hs zs Hdl Hg Hy' P) as HW.
  assert (Hhc : hcoins_ok d n q (y, ys, rs_of g d cs tb bx adv (y, ys, hs, zs, (seed, A, B, ks, us)), hs)).
  { split; [split; [lia|split; [exact Hys|exact Hsc]]|]. split; [exact Hlq|]. split; [exact Hhs|exact Hnd]. }
  destruct (one_solves L m g d cs (scalar_of bx) b _ n q _ Hg Hd Hhc HW) as (tx & i & c & Htx & Hi & Hc & Hs & Hback).
  exists (bx, b, tb, tx, i, (c, to_rho y zs, (seed, (B, ks, us), map quotient A))). split.
  - unfold sent. do 7 (split; [reflexivity|]). exact Hback.
  - unfold good_end. pose proof (to_rho_ok y zs Hy' Hzs) as Hrho. split; [split; assumption|]. split; [exact Htb|]. split; [exact Htx|]. split; [exact Hi|]. split.
    + unfold scoins_ok. split; [split; [exact Hc|split; [cbn [snd]; rewrite to_rho_length; exact Hlp|exact Hrho]]|].
      split; [exact Hse|]. split; [exact HB|]. split; [exact Hks|]. split; [exact Hus|]. split; [rewrite map_length; exact HlA|].
      apply Forall_map. eapply Forall_impl; [|exact HA]. intros a Ha. exact (quotient_lt a Ha).
    + unfold fsolve. destruct c as [[[c cl] rs] hs']. etransitivity; [exact (psolve_family L dl g d cs (scalar_of bx) b tx i _ c cl rs hs' _ Hdl Hg Hd Hrho)|exact Hs].
Qed.
Lemma sent_inj w w' k : good_win m g d cs adv n nb nk nu ls q p w -> good_win m g d cs adv n nb nk nu ls q p w' ->
  sent dl g d cs adv w k -> sent dl g d cs adv w' k -> w = w'.
Proof.
  destruct w as [[[bx b] tb] [[[[y ys] hs] zs] [[[[seed A] B] ks] us]]], w' as [[[bx' b'] tb'] [[[[y' ys'] hs'] zs'] [[[[seed' A'] B'] ks'] us']]].
  destruct k as [[[[[kbx kb] ktb] tx] i] [[c rho] [[kseed u] ds]]].
  intros (Hbx & _ & _ & Hok & Hw) (Hbx' & _ & _ & Hok' & Hw') (-> & -> & -> & -> & -> & -> & -> & H8) (<- & <- & <- & He2 & <- & Hu & He3 & H8').
  injection Hu as <- <- <-.
  pose proof (fwins_pwins L m g d cs tb bx adv n nb nk nu ls q p Hg Hd Hcs Hbx Hls _ Hok Hw) as HP. cbn beta iota in HP. destruct HP as (_ & _ & Htb & Hs).
  pose proof (fwins_pwins L m g d cs tb bx adv n nb nk nu ls q p Hg Hd Hcs Hbx Hls _ Hok' Hw') as HP. cbn beta iota in HP. destruct HP as (_ & _ & _ & Hs').
  destruct Hok as (Hy & [Hys _] & _ & [_ Hzs] & _ & HA & _). destruct Hok' as (_ & _ & _ & [_ Hzs'] & _ & HA' & _).
  rewrite H8 in H8'. clear H8.
  remember (rs_of g d cs tb bx adv (y, ys, hs, zs, (seed, A, B, ks, us))) as R eqn:ER. remember (rs_of g d cs tb bx adv (y', ys', hs', zs', (seed, A', B, ks, us))) as R' eqn:ER'.
  remember (map quotient A) as qA eqn:EqA. remember (map quotient A') as qA' eqn:EqA'.
  injection H8' as <- <- He1 <-.
  apply to_rho_inj in He2; [|rewrite N.mod_small; lia|exact Hzs|exact Hzs']. subst zs'.
  assert (A' = A) as ->; [|reflexivity]. symmetry. apply (sampled_inj L g d cs tb bx adv n y ys hs zs seed A A' B ks us Hg Hd Hys Htb HA HA'); auto; congruence.
Qed.
End One.

Lemma chosen {A B} (P : A -> Prop) (R : A -> B -> Prop) (Q : B -> Prop) :
  (forall w, P w -> exists v, R w v /\ Q v) -> (forall w w' v, P w -> P w' -> R w v -> R w' v -> w = w') ->
  forall ws, NoDup ws -> Forall P ws -> exists vs, length vs = length ws /\ NoDup vs /\ Forall Q vs.
Proof.
  intros He Hi ws Hn Hf.
  assert (H : exists vs, length vs = length ws /\ NoDup vs /\ Forall (fun v => Q v /\ exists w, In w ws /\ R w v) vs).
  { induction Hn as [|w ws Hw Hn IH]; [exists []; split; [reflexivity|split; constructor]|]. inversion Hf as [|? ? Pw Pws]; subst.
    destruct (IH Pws) as (vs & Hl & Nv & Fv). destruct (He w Pw) as (v & Rv & Qv). exists (v :: vs). split; [cbn [length]; congruence|]. split.
    - constructor; [|exact Nv]. intros Hin. rewrite Forall_forall in Fv, Pws. destruct (Fv v Hin) as (_ & w' & Hw' & Rw'). apply Hw.
      rewrite (Hi w w' v Pw (Pws w' Hw') Rv Rw'). exact Hw'.
    - constructor; [split; [exact Qv|exists w; split; [left; reflexivity|exact Rv]]|]. eapply Forall_impl; [|exact Fv].
      intros v' (Hq & w' & Hw' & Rw'). split; [exact Hq|]. exists w'. split; [right; exact Hw'|exact Rw']. }
  destruct H as (vs & Hl & Nv & Fv). exists vs. split; [exact Hl|]. split; [exact Nv|]. eapply Forall_impl; [|exact Fv]. intros v [Hq _]. exact Hq.
Qed.

(** * All coins *)
Definition lost (d n nb nk nu ls q p : nat) : N := scalars_lost d n nb nk nu ls q p + clean_lost d n nb nk nu ls q p.
Definition bad_win {E} (g : G1 E) d cs (adv : aforger_for E) n nb nk nu ls q p (w : gcoins) : Prop :=
  let '(bx, b, tb, z) := w in hash_value bx /\ b < fr_modulus /\ tb <= last_time d
    /\ (bad_scalars d n nb nk nu ls q p z \/ unclean g d cs tb bx adv n nb nk nu ls q p z).
Lemma bytes_dec (a b : bytes) : {a = b} + {a <> b}.
Proof. apply list_eq_dec, N.eq_dec. Qed.
Lemma bad_few {E} (g : G1 E) d cs (adv : aforger_for E) n nb nk nu ls q p :
  at_most (bad_win g d cs adv n nb nk nu ls q p) (lost d n nb nk nu ls q p * (256 ^ 64 * fr_modulus * (last_time d + 1))).
Proof.
  apply (at_most_fibres (B := bytes * N * N) ltac:(intros [[a b] c] [[a' b'] c']; destruct (bytes_dec a a'), (N.eq_dec b b'), (N.eq_dec c c'); (left; congruence) || (right; congruence))
           (fun w => fst w) _ (fun t => let '(bx, b, tb) := t in hash_value bx /\ b < fr_modulus /\ tb < last_time d + 1)).
  - intros [[[bx b] tb] z] (H1 & H2 & H3 & _). cbn [fst]. split; [exact H1|]. split; [exact H2|lia].
  - intros [[bx b] tb]. apply (at_most_inj (fun w : gcoins => snd w) _ (fun z => bad_scalars d n nb nk nu ls q p z \/ unclean g d cs tb bx adv n nb nk nu ls q p z)).
    + intros [[[bx' b'] tb'] z] [(_ & _ & _ & H) He]. cbn [fst] in He. injection He as -> -> ->. exact H.
    + intros [t z] [t' z'] [_ He] [_ He'] Hz. cbn [fst snd] in *. congruence.
    + apply at_most_or; [apply scalars_count_lost|apply clean_count].
  - apply (at_most_le _ (fun t : bytes * N * N => In t (list_prod (list_prod hash_values (numbers fr_modulus)) (numbers (last_time d + 1)))) (256 ^ 64 * fr_modulus * (last_time d + 1)) _).
    + intros [[bx b] tb] (H1 & H2 & H3). apply in_prod_iff. split; [apply in_prod_iff; split; [apply hash_values_in, H1|apply numbers_in, H2]|apply numbers_in, H3].
    + reflexivity.
    + replace (256 ^ 64 * fr_modulus * (last_time d + 1)) with (N.of_nat (length (list_prod (list_prod hash_values (numbers fr_modulus)) (numbers (last_time d + 1))))).
      * apply at_most_list. auto.
      * rewrite !prod_length, !Nat2N.inj_mul, hash_values_length, !numbers_length. reflexivity.
Qed.

Lemma wins_solved {E} (L : env_laws E) m (g : G1 E) d cs adv n nb nk nu ls q p ws :
  g1_insub g = true -> (1 <= d < 64)%nat -> (cs = 0 \/ cs = 1) -> (32 <= ls)%nat ->
  NoDup ws -> Forall (fun w => gcoins_any d n nb nk nu ls q p w /\ (let '(bx, _, tb, z) := w in fwins_or m g d cs tb bx adv z)) ws ->
  exists vs, N.of_nat (length ws) <= N.of_nat (length vs) + lost d n nb nk nu ls q p * (256 ^ 64 * fr_modulus * (last_time d + 1))
    /\ NoDup vs /\ Forall (good_end g d cs adv n nb nk nu ls q p) vs.
Proof.
  intros Hg Hd Hcs0 Hls Hn Hf. assert (Hcs : valid_cs cs = true) by (apply valid_cs_iff; exact Hcs0). destruct (dlog_exists L) as [dl Hdl].
  destruct (split_list (fun w => gcoins_any d n nb nk nu ls q p w /\ (let '(bx, _, tb, z) := w in fwins_or m g d cs tb bx adv z)) (good_win m g d cs adv n nb nk nu ls q p) (bad_win g d cs adv n nb nk nu ls q p)) with (2 := Hf) as (us & vs & Hp & Hu & Hv).
  { intros [[[bx b] tb] z] [(Hbx & Hb & Htb & Hz) Hw]. destruct (scalars_or _ _ _ _ _ _ _ _ z Hz) as [Hok|Hbad].
    2:{ right. split; [exact Hbx|]. split; [exact Hb|]. split; [exact Htb|]. left. exact Hbad. }
    assert (Ho : exists o, sampled g d cs tb bx adv z = Some o) by (destruct z as [[[[y ys] hs] zs] [[[[seed A] B] ks] us]]; destruct Hw as (o & R & _); exists o; exact R).
    destruct Ho as [o R]. destruct (clean_or g d cs tb bx adv n nb nk nu ls q p z o Hz R) as [C|C].
    2:{ right. split; [exact Hbx|]. split; [exact Hb|]. split; [exact Htb|]. right. exact C. }
    left. split; [exact Hbx|]. split; [exact Hb|]. split; [exact Htb|]. split; [exact Hok|].
    destruct z as [[[[y ys] hs] zs] [[[[seed A] B] ks] us]]. destruct Hw as (o' & R' & W). rewrite R in R'. apply some_inj in R'. subst o'. exists o. auto. }
  pose proof (Permutation_NoDup Hp Hn) as Hn2. destruct (nodup_parts _ _ Hn2) as [Nu Nv].
  destruct (chosen (good_win m g d cs adv n nb nk nu ls q p) (sent dl g d cs adv) (good_end g d cs adv n nb nk nu ls q p)
              (win_solves L m g d cs adv n nb nk nu ls q p Hg Hd Hcs Hls dl Hdl) (sent_inj L m g d cs adv n nb nk nu ls q p Hg Hd Hcs Hls dl) us Nu Hu) as (ks & Hl & Nk & Fk).
  exists ks. split; [|split; [exact Nk|exact Fk]].
  rewrite (Permutation_length Hp), app_length, Nat2N.inj_add, Hl.
  apply N.add_le_mono_l. exact (bad_few g d cs adv n nb nk nu ls q p vs Nv Hv).
Qed.

(** C107 *)
Lemma game_solved : forall (E : env) (L : env_laws E) m (g : G1 E) d cs adv n nb nk nu ls q p s l ws,
  g1_insub g = true -> (1 <= d <= 32)%nat -> (cs = 0 \/ cs = 1) -> (32 <= ls)%nat ->
  (forall pp pk pop, ispeaks s l (adv pp pk pop)) ->
  NoDup ws -> Forall (fun w => gcoins_any d n nb nk nu ls q p w /\ gwins m g d cs adv w) ws ->
  exists zs, N.of_nat (length ws) <= N.of_nat (length zs)
      + (scalars_lost d n nb nk nu ls q p + clean_lost d n nb nk nu ls q p) * (256 ^ 64 * fr_modulus * (last_time d + 1))
    /\ NoDup zs
    /\ Forall (fun k => kcoins_any d n nb nk nu ls q p k /\ ksolves s g d cs adv k /\ kcosts s g d cs adv k <= cost_bound d p (2 * s) l) zs.
Proof.
  intros E L m g d cs adv n nb nk nu ls q p s l ws Hg Hd Hcs Hls Hadv Hn Hf.
  destruct (wins_solved L m g d cs (two_calls d adv) n nb nk nu ls q p ws Hg ltac:(lia) Hcs Hls Hn) as (vs & Hl & Nv & Fv).
  { eapply Forall_impl; [|exact Hf]. intros [[[bx b] tb] z] [Hw Hwin]. split; [exact Hw|]. destruct Hw as (Hbx & _ & _ & Hz).
    destruct z as [[[[y ys] hs] zs] [[[[seed A] B] ks] us]]. destruct Hwin as (o & R & W). exists o. split; [exact R|]. intros C. specialize (W C).
    pose proof Hz as (_ & [Hys _] & _). pose proof (exp_params_ok L g d cs y ys Hg ltac:(lia) Hys) as Hpp.
    apply (same_game E L (exp_params g d cs y ys) _ _ m seed tb adv Hpp ltac:(cbn [exp_params pp_depth]; lia)); [| |exact W].
    - exact (drawn_bytes g d cs tb bx (two_calls d adv) n nb nk nu ls q p y ys hs zs seed A B ks us o Hbx Hz R).
    - intros msg c. apply (points_insub L), Hg. }
  exists vs. split; [exact Hl|]. split; [exact Nv|]. eapply Forall_impl; [|exact Fv].
  intros [[[[[bx b] tb] tx] i] z] (Hbx & Htb & Htx & Hi & Hz & Hs).
  destruct (program_finds E (challenge_for g d (scalar_of bx) b) d cs tx i tb (two_calls d adv) n nb nk nu ls q p (2 * s) l z ltac:(lia) Hz) as [R1 R2].
  { intros pp pk pop. apply two_speak, Hadv. }
  split; [|split; [unfold ksolves; rewrite R1; exact Hs|exact R2]].
  destruct z as [[[[[y ys] rs] hs] rho] [[seed [[B ks] us]] ds]]. unfold kcoins_any. split; [exact Hbx|]. split; [exact Htb|]. split; [exact Htx|]. split; [exact Hi|].
  destruct Hz as ([[[Hy [Hys Hrs]] (Hlq & Hhs & _)] [Hlr Hrho]] & Hrest). cbn [fst snd] in *. split; [|exact Hrest].
  split; [exact Hy|]. split; [exact Hys|]. split; [exact Hrs|]. split; [split; [exact Hlq|exact Hhs]|]. split; [exact Hlr|].
  eapply Forall_impl; [|exact Hrho]. intros a Ha. exact (proj2 Ha).
Qed.
