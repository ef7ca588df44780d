(** Counting for Properties_Clean.v. *)
From Coq Require Import Permutation ListDec.
From Coq Require Import ZifyBool ZifyN ZifyNat.
From Verif Require Import Base Env Time SpecTime Prng SpecPrng PrngFacts SubKey SecretKey Keys Sig SpecKey SpecUpdate SpecAgg
  SpecRed SpecMulti SpecRom SpecPop SpecFwd SpecClean RedProps MultiProps RomProps CountProps PopProps PopCountProps FwdProps FwdCodeProps FwdGameProps FwdMainProps CleanProps.
Local Open Scope N_scope.
#[local] Opaque hash_values numbers.

(** * What the questions do not depend on *)
Lemma asked_same {E} (g : G1 E) d cs tb bx adv y ys hs zs seed A B ks ks' us o o' w1 k1 w1' k1' nk j :
  length ks = nk -> length ks' = nk -> (forall i, i <> j -> nth i ks [] = nth i ks' []) ->
  sampled g d cs tb bx adv (y, ys, hs, zs, (seed, A, B, ks, us)) = Some o -> stopped g d cs tb bx adv (y, ys, hs, zs, (seed, A, B, ks, us)) = Some (w1, k1) ->
  sampled g d cs tb bx adv (y, ys, hs, zs, (seed, A, B, ks', us)) = Some o' -> stopped g d cs tb bx adv (y, ys, hs, zs, (seed, A, B, ks', us)) = Some (w1', k1') ->
  asked nk j w1 o = asked nk j w1' o'.
Proof.
  intros Hl Hl' Hn H S H' S'. unfold sampled in H, H'. unfold stopped in S, S'. cbv zeta in *.
  set (pp := exp_params g d cs y ys) in *. set (pk := PubKey cs (g2_mul (scalar_of bx) g2_one)) in *. set (pts := map (fun e => g1_mul e g) zs) in *.
  destruct (s_init cs pk seed bx A B ks us) as [[w cl]|] eqn:Qi; [|discriminate H]. destruct (s_init cs pk seed bx A B ks' us) as [[w' cl']|] eqn:Qi'; [|discriminate H'].
  apply add_some in H as (p & H & ->). apply add_some in H' as (p' & H' & ->).
  assert (Hi : alike w w' /\ (exists s0 s1, ks = s0 :: s1 :: w_g w :: w_ks w) /\ (exists s0 s1, ks' = s0 :: s1 :: w_g w' :: w_ks w') /\ w_tbl w = [] /\ w_tbl w' = []).
  { destruct A as [|b0 A]; [discriminate Qi|]. destruct ks as [|s0 [|s1 [|s2 ks]]]; try discriminate Qi. destruct us as [|u0 [|u1 [|u2 [|u3 [|u4 us]]]]]; try discriminate Qi.
    destruct ks' as [|s0' [|s1' [|s2' ks']]]; try discriminate Qi'. unfold s_init in Qi, Qi'. apply some_pair in Qi as [-> _]. apply some_pair in Qi' as [-> _].
    split; [|cbn [w_g w_ks w_tbl]; eauto 8]. constructor; try reflexivity; [|exists []; auto]. cbn [w_ks]. unfold bytes in *. cbn [length] in *. lia. }
  destruct Hi as (Ha & (s0 & s1 & Eks) & (s0' & s1' & Eks') & T0 & T0').
  destruct (run_stop pp (scalar_of bx) tb hs pts _ w p H) as (v & k & p1 & R1 & R2 & R3 & _ & mid & Hm); [rewrite T0; cbn; lia|].
  destruct (run_stop pp (scalar_of bx) tb hs pts _ w' p' H') as (v' & k' & p1' & R1' & R2' & R3' & _ & mid' & Hm'); [rewrite T0'; cbn; lia|].
  rewrite S in R1. apply some_pair in R1 as [-> ->]. rewrite S' in R1'. apply some_pair in R1' as [-> ->].
  pose proof (stop_alike pp (scalar_of bx) tb hs pts (adv pp pk (Pop cs (g1_mul (scalar_of bx) (nth 0 pts g1_zero)))) w w' Ha) as Hs. rewrite S, S' in Hs. destruct Hs as [<- Hs].
  unfold asked. cbn [o_tbl]. rewrite <- (al_ks _ _ Hs). destruct (_ =? _)%nat eqn:Q; [exact (al_tbl _ _ Hs)|]. apply Nat.eqb_neq in Q. rewrite R3, R3'.
  assert (Hg : w_g w1 = w_g w1').
  { pose proof (al_ks _ _ Hs) as Hlen. assert (M : length mid = length mid').
    { apply (f_equal (@length bytes)) in Hm, Hm'. rewrite app_length in Hm, Hm'. cbn [length] in Hm, Hm'. rewrite Eks in Hl. rewrite Eks' in Hl'. unfold bytes in *. cbn [length] in *. lia. }
    assert (I1 : nth (2 + length mid) ks [] = w_g w1) by (rewrite Eks, Hm; cbn [Nat.add nth]; rewrite app_nth2 by lia; rewrite Nat.sub_diag; reflexivity).
    assert (I2 : nth (2 + length mid') ks' [] = w_g w1') by (rewrite Eks', Hm'; cbn [Nat.add nth]; rewrite app_nth2 by lia; rewrite Nat.sub_diag; reflexivity).
    rewrite <- I1, <- I2, <- M. apply Hn. intros <-. apply Q. rewrite <- Hl, Eks, Hm. cbn [length]. rewrite app_length. cbn [length]. lia. }
  assert (He : the_key pp (scalar_of bx) w1 = the_key pp (scalar_of bx) w1') by (unfold the_key; rewrite (al_time _ _ Hs), (al_rho _ _ Hs), Hg; reflexivity).
  destruct (al_own _ _ Hs) as (s & O1 & O2).
  pose proof (tail_same pp hs pts (k1 (the_key pp (scalar_of bx) w1)) w1 w1' ltac:(rewrite O1, O2, Hg; reflexivity) (al_tbl _ _ Hs) (al_ptbl _ _ Hs)) as Ht.
  rewrite R2, He, R2' in Ht. apply some_inj in Ht. rewrite Ht. reflexivity.
Qed.
Lemma table_same {E} (g : G1 E) d cs tb bx adv y ys hs zs seed seed' A B ks u u' us o o' :
  sampled g d cs tb bx adv (y, ys, hs, zs, (seed, A, B, ks, u :: us)) = Some o ->
  sampled g d cs tb bx adv (y, ys, hs, zs, (seed', A, B, ks, u' :: us)) = Some o' -> o_tbl o = o_tbl o'.
Proof.
  intros H H'. unfold sampled in H, H'. cbv zeta in *.
  destruct A as [|b0 A]; [discriminate H|]. destruct ks as [|s0 [|s1 [|s2 ks]]]; try discriminate H. destruct us as [|u1 [|u2 [|u3 [|u4 us]]]]; try discriminate H.
  unfold s_init in H, H'. apply add_some in H as (p & H & ->). apply add_some in H' as (p' & H' & ->). cbn [o_tbl]. rewrite H in H'. apply some_inj in H'. rewrite H'. reflexivity.
Qed.
Lemma table_size {E} (g : G1 E) d cs tb bx adv y ys hs zs seed A B ks us o :
  sampled g d cs tb bx adv (y, ys, hs, zs, (seed, A, B, ks, us)) = Some o ->
  (length (o_tbl o) <= length hs)%nat /\ exists w1 k1, stopped g d cs tb bx adv (y, ys, hs, zs, (seed, A, B, ks, us)) = Some (w1, k1) /\ (length (w_tbl w1) <= length hs)%nat.
Proof.
  intros H. unfold sampled in H. unfold stopped. cbv zeta in *.
  destruct (s_init _ _ seed bx A B ks us) as [[w cl]|] eqn:Qi; [|discriminate H]. apply add_some in H as (p & H & ->).
  assert (Hw : w_tbl w = []) by (clear - Qi; destruct A; [discriminate|]; destruct ks as [|? [|? [|? ?]]]; try discriminate; destruct us as [|? [|? [|? [|? [|? ?]]]]]; try discriminate; unfold s_init in Qi; apply some_pair in Qi as [-> _]; reflexivity).
  apply run_stop in H as (v & k & p1 & R1 & R2 & R3 & R4 & _); [|rewrite Hw; cbn; lia]. cbn [o_tbl]. split; [|eauto].
  rewrite R3. exact (proj1 (tail_asked _ _ _ _ _ _ R2 R4)).
Qed.

(** * Counting *)
Lemma at_most_list {A} (P : A -> Prop) (l : list A) : (forall x, P x -> In x l) -> at_most P (N.of_nat (length l)).
Proof. intros H ws Hn Hf. rewrite Forall_forall in Hf. pose proof (NoDup_incl_length Hn (fun x Hx => H x (Hf x Hx))). lia. Qed.
(** A part of the coins is among a few values given by the others. *)
Lemma hits {A B V} (dec : forall y y' : B, {y = y'} + {y <> y'}) (f : A -> B) (v : A -> V) (P : A -> Prop) (Q : B -> Prop) (C : A -> list V -> Prop) m b :
  (forall x, P x -> Q (f x)) -> (forall x y, P x -> P y -> f x = f y -> v x = v y -> x = y) ->
  (forall x, P x -> exists c, C x c /\ In (v x) c /\ (length c <= m)%nat) ->
  (forall x y c c', P x -> P y -> f x = f y -> C x c -> C y c' -> c = c') ->
  at_most Q b -> at_most P (N.of_nat m * b).
Proof.
  intros Hq Hi Hc Hs Hb. apply (at_most_fibres dec f P Q); [exact Hq| |exact Hb]. intros t ws Hn Hf. destruct ws as [|x0 ws]; [cbn; lia|].
  rewrite Forall_forall in Hf. destruct (Hf x0 (or_introl eq_refl)) as [P0 F0]. destruct (Hc x0 P0) as (c & C0 & _ & Hl).
  assert (Hmap : (length (map v (x0 :: ws)) <= length c)%nat).
  { apply NoDup_incl_length.
    - revert Hn Hf. generalize (x0 :: ws). intros l Hn Hf. induction Hn as [|x l Hx Hn IH]; [constructor|]. cbn [map]. constructor; [|apply IH; intros y Hy; apply Hf; right; exact Hy].
      intros Hin. apply in_map_iff in Hin as (y & Hy & Hin). apply Hx. destruct (Hf x (or_introl eq_refl)) as [Px Fx]. destruct (Hf y (or_intror Hin)) as [Py Fy].
      rewrite (Hi x y Px Py (eq_trans Fx (eq_sym Fy)) (eq_sym Hy)). exact Hin.
    - intros k Hk. apply in_map_iff in Hk as (x & <- & Hx). destruct (Hf x Hx) as [Px Fx]. destruct (Hc x Px) as (c' & C' & Hv & _). rewrite (Hs x0 x c c' P0 Px (eq_trans F0 (eq_sym Fx)) C0 C'). exact Hv. }
  rewrite map_length in Hmap. lia.
Qed.
Definition pair_dec {A B} (da : forall x y : A, {x = y} + {x <> y}) (db : forall x y : B, {x = y} + {x <> y}) : forall x y : A * B, {x = y} + {x <> y}.
Proof. decide equality. Defined.
Definition fcoins_dec : forall z z' : fcoins, {z = z'} + {z <> z'} :=
  let lb := list_eq_dec bytes_dec in
  pair_dec (pair_dec (pair_dec (pair_dec N.eq_dec bytes_dec) lb) bytes_dec) (pair_dec (pair_dec (pair_dec (pair_dec bytes_dec lb) lb) lb) lb).

(** All coins, with the first exponent below a bound. *)
Definition gany (Y : N) (d n nb nk nu ls q p : nat) (z : fcoins) : Prop :=
  let '(y, ys, hs, zs, (seed, A, B, ks, us)) := z in
  y < Y /\ scalars (d + 1) ys /\ blocks q hs /\ scalars p zs
  /\ (length seed = ls /\ are_bytes seed) /\ blocks n A /\ blocks nb B /\ blocks nk ks /\ blocks nu us.
Definition gall (Y : N) (d n nb nk nu ls q p : nat) : list fcoins :=
  list_prod (list_prod (list_prod (list_prod (numbers Y) (words (numbers fr_modulus) (d + 1))) (words hash_values q)) (words (numbers fr_modulus) p))
    (list_prod (list_prod (list_prod (list_prod (words (numbers 256) ls) (words hash_values n)) (words hash_values nb)) (words hash_values nk)) (words hash_values nu)).
Lemma in_numbers_words n l : In l (words (numbers fr_modulus) n) <-> scalars n l.
Proof. etransitivity; [apply words_in|]. split; intros [H1 H2]; (split; [exact H1|]); eapply Forall_impl; try exact H2; intros x; cbv beta; rewrite numbers_in; exact (fun H => H). Qed.
Lemma in_blocks n l : In l (words hash_values n) <-> blocks n l.
Proof. etransitivity; [apply words_in|]. split; intros [H1 H2]; (split; [exact H1|]); eapply Forall_impl; try exact H2; intros x Hx; apply hash_values_in, Hx. Qed.
Lemma in_bytes n l : In l (words (numbers 256) n) <-> (length l = n /\ are_bytes l).
Proof. etransitivity; [apply words_in|]. split; intros [H1 H2]; (split; [exact H1|]); eapply Forall_impl; try exact H2; intros x; cbv beta; rewrite numbers_in; exact (fun H => H). Qed.
Lemma gall_in Y d n nb nk nu ls q p z : In z (gall Y d n nb nk nu ls q p) <-> gany Y d n nb nk nu ls q p z.
Proof.
  destruct z as [[[[y ys] hs] zs] [[[[seed A] B] ks] us]]. unfold gall, gany.
  rewrite (in_prod_iff _ _ (y, ys, hs, zs) (seed, A, B, ks, us)), (in_prod_iff _ _ (y, ys, hs) zs), (in_prod_iff _ _ (y, ys) hs), (in_prod_iff _ _ y ys).
  rewrite (in_prod_iff _ _ (seed, A, B, ks) us), (in_prod_iff _ _ (seed, A, B) ks), (in_prod_iff _ _ (seed, A) B), (in_prod_iff _ _ seed A).
  rewrite numbers_in, !in_numbers_words, !in_blocks, in_bytes. tauto.
Qed.
Lemma gall_nodup Y d n nb nk nu ls q p : NoDup (gall Y d n nb nk nu ls q p).
Proof.
  assert (HH : forall n, NoDup (words hash_values n)) by (intros; apply words_nodup, hash_values_nodup).
  assert (HN : forall K n, NoDup (words (numbers K) n)) by (intros; apply words_nodup, numbers_nodup).
  unfold gall. apply prod_nodup; [apply prod_nodup; [apply prod_nodup; [apply prod_nodup; [apply numbers_nodup|apply HN]|apply HH]|apply HN]|].
  apply prod_nodup; [apply prod_nodup; [apply prod_nodup; [apply prod_nodup; [apply HN|apply HH]|apply HH]|apply HH]|apply HH].
Qed.
Definition gcount (Y : N) (d n nb nk nu ls q p : nat) : N :=
  Y * fr_modulus ^ N.of_nat (d + 1 + p) * (256 ^ 64) ^ N.of_nat (q + n + nb + nk + nu) * 256 ^ N.of_nat ls.
Lemma gall_length Y d n nb nk nu ls q p : N.of_nat (length (gall Y d n nb nk nu ls q p)) = gcount Y d n nb nk nu ls q p.
Proof.
  assert (PL : forall A B (l : list A) (l' : list B), N.of_nat (length (list_prod l l')) = N.of_nat (length l) * N.of_nat (length l')) by (intros; rewrite prod_length, Nat2N.inj_mul; reflexivity).
  assert (HW : forall n, N.of_nat (length (words hash_values n)) = (256 ^ 64) ^ N.of_nat n) by (intros k; etransitivity; [apply words_length|rewrite hash_values_length; reflexivity]).
  assert (NW : forall K n, N.of_nat (length (words (numbers K) n)) = K ^ N.of_nat n) by (intros K k; etransitivity; [apply words_length|rewrite numbers_length; reflexivity]).
  unfold gall, gcount.
  match goal with |- N.of_nat (length (list_prod ?a ?b)) = ?r => transitivity (N.of_nat (length a) * N.of_nat (length b)); [apply PL|] end.
  assert (H1 : N.of_nat (length (list_prod (list_prod (list_prod (numbers Y) (words (numbers fr_modulus) (d + 1))) (words hash_values q)) (words (numbers fr_modulus) p)))
               = Y * fr_modulus ^ N.of_nat (d + 1) * (256 ^ 64) ^ N.of_nat q * fr_modulus ^ N.of_nat p).
  { etransitivity; [apply PL|]. f_equal; [|apply NW]. etransitivity; [apply PL|]. f_equal; [|apply HW]. etransitivity; [apply PL|]. f_equal; [apply numbers_length|apply NW]. }
  assert (H2 : N.of_nat (length (list_prod (list_prod (list_prod (list_prod (words (numbers 256) ls) (words hash_values n)) (words hash_values nb)) (words hash_values nk)) (words hash_values nu)))
               = 256 ^ N.of_nat ls * (256 ^ 64) ^ N.of_nat n * (256 ^ 64) ^ N.of_nat nb * (256 ^ 64) ^ N.of_nat nk * (256 ^ 64) ^ N.of_nat nu).
  { etransitivity; [apply PL|]. f_equal; [|apply HW]. etransitivity; [apply PL|]. f_equal; [|apply HW]. etransitivity; [apply PL|]. f_equal; [|apply HW]. etransitivity; [apply PL|]. f_equal; [apply NW|apply HW]. }
  etransitivity; [apply f_equal2; [exact H1|exact H2]|].
  rewrite !Nat2N.inj_add, !N.pow_add_r. generalize (fr_modulus ^ N.of_nat p) (fr_modulus ^ N.of_nat d) (fr_modulus ^ N.of_nat 1). generalize (256 ^ 64). intros K a b c.
  generalize (K ^ N.of_nat q) (K ^ N.of_nat n) (K ^ N.of_nat nb) (K ^ N.of_nat nk) (K ^ N.of_nat nu) (256 ^ N.of_nat ls). intros. ring.
Qed.
Lemma gcount_most Y d n nb nk nu ls q p : at_most (gany Y d n nb nk nu ls q p) (gcount Y d n nb nk nu ls q p).
Proof. rewrite <- gall_length. apply at_most_list. intros x Hx. apply gall_in, Hx. Qed.
Lemma gcount_f d n nb nk nu ls q p : gcount fr_modulus d n nb nk nu ls q p = fcount d n nb nk nu ls q p.
Proof.
  unfold gcount, fcount. replace (d + 2 + p)%nat with (S (d + 1 + p)) by lia. rewrite Nat2N.inj_succ, N.pow_succ_r by lia. reflexivity.
Qed.
Lemma fcount_most d n nb nk nu ls q p : at_most (fcoins_any d n nb nk nu ls q p) (fcount d n nb nk nu ls q p).
Proof. rewrite <- gcount_f. exact (gcount_most fr_modulus d n nb nk nu ls q p). Qed.

(** Leaving out the [j]-th. *)
Definition del {A} (j : nat) (l : list A) : list A := firstn j l ++ skipn (S j) l.
Lemma del_split {A} (x : A) : forall j l, (j < length l)%nat -> l = firstn j l ++ nth j l x :: skipn (S j) l.
Proof. induction j as [|j IH]; intros [|a l] H; cbn [length] in H; try lia; [reflexivity|]. cbn [firstn nth skipn app]. f_equal. apply IH. lia. Qed.
Lemma del_forall {A} (P : A -> Prop) j l : Forall P l -> Forall P (del j l).
Proof. intros H. unfold del. apply Forall_app. split; apply Forall_forall; intros x Hx; rewrite Forall_forall in H; apply H; [rewrite <- (firstn_skipn j l)|rewrite <- (firstn_skipn (S j) l)]; apply in_or_app; [left|right]; exact Hx. Qed.
Lemma del_length {A} j (l : list A) : (j < length l)%nat -> length (del j l) = (length l - 1)%nat.
Proof. intros H. unfold del. rewrite app_length, firstn_length, skipn_length. lia. Qed.
Lemma del_blocks j n l : (j < n)%nat -> blocks n l -> blocks (n - 1) (del j l).
Proof. intros Hj [Hl Hf]. split; [|apply del_forall, Hf]. rewrite <- Hl. apply del_length. lia. Qed.
Lemma del_parts {A} j (l l' : list A) : (j < length l)%nat -> length l = length l' -> del j l = del j l' -> firstn j l = firstn j l' /\ skipn (S j) l = skipn (S j) l'.
Proof. intros Hj Hl He. apply app_inv_len in He; [exact He|]. rewrite !firstn_length. lia. Qed.
Lemma del_nth {A} (x : A) j l l' : (j < length l)%nat -> length l = length l' -> del j l = del j l' -> forall i, i <> j -> nth i l x = nth i l' x.
Proof.
  intros Hj Hl He i Hi. destruct (del_parts j l l' Hj Hl He) as [H1 H2]. rewrite (del_split x j l Hj), (del_split x j l') by lia. rewrite H1, H2.
  destruct (Nat.lt_ge_cases i j) as [Hlt|Hge].
  - rewrite !app_nth1 by (rewrite firstn_length; lia). reflexivity.
  - rewrite !app_nth2 by (rewrite firstn_length; lia). rewrite firstn_length. replace (i - Nat.min j (length l'))%nat with (S (i - j - 1)) by lia. reflexivity.
Qed.
Lemma del_same {A} (x : A) j l l' : (j < length l)%nat -> length l = length l' -> del j l = del j l' -> nth j l x = nth j l' x -> l = l'.
Proof. intros Hj Hl He Hn. destruct (del_parts j l l' Hj Hl He) as [H1 H2]. rewrite (del_split x j l Hj), (del_split x j l') by lia. rewrite H1, H2, Hn. reflexivity. Qed.

Lemma del_parts_n {A} j n (l l' : list A) : length l = n -> length l' = n -> (j < n)%nat -> del j l = del j l' -> firstn j l = firstn j l' /\ skipn (S j) l = skipn (S j) l'.
Proof. intros H H' Hj. apply del_parts; lia. Qed.
Lemma del_nth_n {A} (x : A) j n l l' : length l = n -> length l' = n -> (j < n)%nat -> del j l = del j l' -> forall i, i <> j -> nth i l x = nth i l' x.
Proof. intros H H' Hj. apply del_nth; lia. Qed.
Lemma del_same_n {A} (x : A) j n l l' : length l = n -> length l' = n -> (j < n)%nat -> del j l = del j l' -> nth j l x = nth j l' x -> l = l'.
Proof. intros H H' Hj. apply del_same; lia. Qed.

Definition z_ks (z : fcoins) : list bytes := let '(_, _, _, _, (_, _, _, ks, _)) := z in ks.
Definition z_us (z : fcoins) : list bytes := let '(_, _, _, _, (_, _, _, _, us)) := z in us.
Definition z_seed (z : fcoins) : bytes := let '(_, _, _, _, (seed, _, _, _, _)) := z in seed.
Definition z_hs (z : fcoins) : list bytes := let '(_, _, hs, _, _) := z in hs.
Definition z_zs (z : fcoins) : list N := let '(_, _, _, zs, _) := z in zs.
Definition z_y (z : fcoins) : N := let '(y, _, _, _, _) := z in y.
Definition no_key (j : nat) (z : fcoins) : fcoins := let '(y, ys, hs, zs, (seed, A, B, ks, us)) := z in (y, ys, hs, zs, (seed, A, B, del j ks, us)).
Definition no_us (j : nat) (z : fcoins) : fcoins := let '(y, ys, hs, zs, (seed, A, B, ks, us)) := z in (y, ys, hs, zs, (seed, A, B, ks, del j us)).
Definition no_seed (z : fcoins) : fcoins := let '(y, ys, hs, zs, (seed, A, B, ks, us)) := z in (y, ys, hs, zs, ([], A, B, ks, us)).
Definition no_hs (z : fcoins) : fcoins := let '(y, ys, hs, zs, (seed, A, B, ks, us)) := z in (y, ys, [], zs, (seed, A, B, ks, us)).
Definition no_zs (j : nat) (z : fcoins) : fcoins := let '(y, ys, hs, zs, (seed, A, B, ks, us)) := z in (y, ys, hs, del j zs, (seed, A, B, ks, us)).
Definition no_y (z : fcoins) : fcoins := let '(y, ys, hs, zs, (seed, A, B, ks, us)) := z in (0, ys, hs, zs, (seed, A, B, ks, us)).

Section Lost.
Context {E : env} (g : G1 E) (d : nat) (cs tb : N) (bx : bytes) (adv : aforger_for E) (n nb nk nu ls q p : nat).
Notation any := (fcoins_any d n nb nk nu ls q p).
Notation runs z := (sampled g d cs tb bx adv z).

Lemma no_key_any j z : any z -> (j < nk)%nat -> fcoins_any d n nb (nk - 1) nu ls q p (no_key j z).
Proof. destruct z as [[[[y ys] hs] zs] [[[[seed A] B] ks] us]]. intros (H1 & H2 & H3 & H4 & H5 & H6 & H7 & H8 & H9) Hj. cbn [no_key fcoins_any]. pose proof (del_blocks j nk ks Hj H8). tauto. Qed.
Lemma no_key_inj j z z' : any z -> any z' -> (j < nk)%nat -> no_key j z = no_key j z' -> nth j (z_ks z) [] = nth j (z_ks z') [] -> z = z'.
Proof.
  destruct z as [[[[y ys] hs] zs] [[[[seed A] B] ks] us]], z' as [[[[y' ys'] hs'] zs'] [[[[seed' A'] B'] ks'] us']]. cbn [no_key z_ks].
  intros (_ & _ & _ & _ & _ & _ & _ & [Hk _] & _) (_ & _ & _ & _ & _ & _ & _ & [Hk' _] & _) Hj He Hn. injection He as -> -> -> -> -> -> -> He ->.
  rewrite (del_same_n [] j nk ks ks' Hk Hk' Hj He Hn). reflexivity.
Qed.
(** A state among those before it, or the key of the first extraction. *)
Lemma lost_key_again j : at_most (fun z => any z /\ (j < nk)%nat /\ In (nth j (z_ks z) []) (zpad (first_key cs) :: firstn j (z_ks z))) (N.of_nat nk * fcount d n nb (nk - 1) nu ls q p).
Proof.
  apply (hits fcoins_dec (no_key j) (fun z => nth j (z_ks z) []) _ (fcoins_any d n nb (nk - 1) nu ls q p) (fun z c => c = zpad (first_key cs) :: firstn j (z_ks z))).
  - intros z (H1 & H2 & _). exact (no_key_any j z H1 H2).
  - intros z z' (H1 & H2 & _) (H1' & _) He Hn. exact (no_key_inj j z z' H1 H1' H2 He Hn).
  - intros z (H1 & H2 & H3). exists (zpad (first_key cs) :: firstn j (z_ks z)). split; [reflexivity|]. split; [exact H3|]. cbn [length]. rewrite firstn_length. lia.
  - intros z z' c c' (H1 & H2 & _) (H1' & _) He -> ->. f_equal.
    destruct z as [[[[y ys] hs] zs] [[[[seed A] B] ks] us]], z' as [[[[y' ys'] hs'] zs'] [[[[seed' A'] B'] ks'] us']]. cbn [no_key z_ks] in *.
    destruct H1 as (_ & _ & _ & _ & _ & _ & _ & [Hk _] & _). destruct H1' as (_ & _ & _ & _ & _ & _ & _ & [Hk' _] & _).
    assert (Hd : del j ks = del j ks') by congruence. exact (proj1 (del_parts_n j nk ks ks' Hk Hk' H2 Hd)).
  - apply fcount_most.
Qed.
(** A state asked for. *)
Lemma lost_key_asked j : at_most (fun z => any z /\ (j < nk)%nat /\ exists o w1 k1, runs z = Some o /\ stopped g d cs tb bx adv z = Some (w1, k1) /\ In (nth j (z_ks z) []) (map key_of (asked nk j w1 o)))
  (N.of_nat q * fcount d n nb (nk - 1) nu ls q p).
Proof.
  apply (hits fcoins_dec (no_key j) (fun z => nth j (z_ks z) []) _ (fcoins_any d n nb (nk - 1) nu ls q p)
           (fun z c => exists o w1 k1, runs z = Some o /\ stopped g d cs tb bx adv z = Some (w1, k1) /\ c = map key_of (asked nk j w1 o))).
  - intros z (H1 & H2 & _). exact (no_key_any j z H1 H2).
  - intros z z' (H1 & H2 & _) (H1' & _) He Hn. exact (no_key_inj j z z' H1 H1' H2 He Hn).
  - intros z (H1 & H2 & o & w1 & k1 & R & S & Hi). exists (map key_of (asked nk j w1 o)). split; [eauto 6|]. split; [exact Hi|].
    destruct z as [[[[y ys] hs] zs] [[[[seed A] B] ks] us]]. destruct H1 as (_ & _ & [Hq _] & _). destruct (table_size _ _ _ _ _ _ _ _ _ _ _ _ _ _ _ _ R) as [T1 (w & k & S' & T2)].
    rewrite S in S'. apply some_pair in S' as [-> ->]. rewrite map_length. unfold asked. destruct (_ =? _)%nat; lia.
  - intros z z' c c' (H1 & H2 & _) (H1' & _) He (o & w1 & k1 & R & S & ->) (o' & w1' & k1' & R' & S' & ->). apply f_equal.
    destruct z as [[[[y ys] hs] zs] [[[[seed A] B] ks] us]], z' as [[[[y' ys'] hs'] zs'] [[[[seed' A'] B'] ks'] us']]. cbn [no_key] in He. injection He as -> -> -> -> -> -> -> He ->.
    destruct H1 as (_ & _ & _ & _ & _ & _ & _ & [Hk _] & _). destruct H1' as (_ & _ & _ & _ & _ & _ & _ & [Hk' _] & _).
    exact (asked_same _ _ _ _ _ _ _ _ _ _ _ _ _ _ _ _ _ _ _ _ _ _ _ j Hk Hk' (del_nth_n [] j nk ks ks' Hk Hk' H2 He) R S R' S').
  - apply fcount_most.
Qed.
(** A state that begins like the input of the message hash. *)
Lemma lxor_inj a b c : N.lxor a c = N.lxor b c -> a = b.
Proof. intros H. apply (f_equal (fun x => N.lxor x c)) in H. rewrite !N.lxor_assoc, N.lxor_nilpotent, !N.lxor_0_r in H. exact H. Qed.
Lemma begin_count pd c : at_most (fun k => hash_value k /\ firstn 22 (padded pd k) = c) (256 ^ 42).
Proof.
  apply (at_most_inj (skipn 22) _ (fun l => length l = 42%nat /\ are_bytes l)).
  - intros k [[Hl Hb] _]. split; [rewrite skipn_length; lia|]. unfold are_bytes in *. rewrite <- (firstn_skipn 22 k) in Hb. apply Forall_app in Hb. exact (proj2 Hb).
  - intros k k' [[Hl _] H] [[Hl' _] H'] He. rewrite <- H' in H. rewrite <- (firstn_skipn 22 k), <- (firstn_skipn 22 k'), He. f_equal.
    apply (nth_ext _ _ 0 0); [rewrite !firstn_length; lia|]. intros i Hi. rewrite firstn_length in Hi.
    assert (Hi' : (i < 22)%nat) by lia. clear Hi. apply (f_equal (fun l => nth i l 0)) in H.
    assert (Hn : forall l : list N, nth i (firstn 22 l) 0 = nth i l 0).
    { intros l. rewrite <- (firstn_skipn 22 l) at 2. destruct (Nat.lt_ge_cases i (length (firstn 22 l))) as [Hlt|Hge]; [rewrite app_nth1 by exact Hlt; reflexivity|].
      rewrite firstn_length in Hge. rewrite !nth_overflow; [reflexivity| |rewrite firstn_length; lia]. rewrite firstn_skipn. lia. }
    rewrite !Hn in *. rewrite !padded_nth in H by lia. exact (lxor_inj _ _ _ H).
  - intros ws Hn Hf. replace (256 ^ 42) with (N.of_nat (length (words (numbers 256) 42))); [|etransitivity; [apply words_length|rewrite numbers_length; reflexivity]].
    revert ws Hn Hf. apply at_most_list. intros l Hl. apply in_bytes, Hl.
Qed.
Lemma lost_key_begins j : at_most (fun z => any z /\ (j < nk)%nat /\ begins cs (nth j (z_ks z) [])) ((2 * 256 ^ 42) * fcount d n nb (nk - 1) nu ls q p).
Proof.
  apply (at_most_fibres fcoins_dec (no_key j) _ (fcoins_any d n nb (nk - 1) nu ls q p)); [| |apply fcount_most].
  - intros z (H1 & H2 & _). exact (no_key_any j z H1 H2).
  - intros t. replace (2 * 256 ^ 42) with (256 ^ 42 + 256 ^ 42) by reflexivity.
    apply (at_most_inj (fun z => nth j (z_ks z) []) _ (fun k => (hash_value k /\ firstn 22 (padded 0x36 k) = DOM_SEP_HASH_TO_MSG ++ [cs]) \/ (hash_value k /\ firstn 22 (padded 0x5c k) = DOM_SEP_HASH_TO_MSG ++ [cs]))).
    + intros z [(H1 & H2 & H3) _]. assert (Hh : hash_value (nth j (z_ks z) [])).
      { destruct z as [[[[y ys] hs] zs] [[[[seed A] B] ks] us]]. destruct H1 as (_ & _ & _ & _ & _ & _ & _ & [Hk Fk] & _). cbn [z_ks]. rewrite Forall_forall in Fk. apply Fk, nth_In. lia. }
      destruct H3 as [H3|H3]; [left|right]; auto.
    + intros z z' [(H1 & H2 & _) F] [(H1' & _) F'] Hn. exact (no_key_inj j z z' H1 H1' H2 (eq_trans F (eq_sym F')) Hn).
    + apply at_most_or; apply begin_count.
Qed.
(** One of the other values again. *)
Lemma no_us_any j z : any z -> (j < nu)%nat -> fcoins_any d n nb nk (nu - 1) ls q p (no_us j z).
Proof. destruct z as [[[[y ys] hs] zs] [[[[seed A] B] ks] us]]. intros (H1 & H2 & H3 & H4 & H5 & H6 & H7 & H8 & H9) Hj. cbn [no_us fcoins_any]. pose proof (del_blocks j nu us Hj H9). tauto. Qed.
Lemma no_us_inj j z z' : any z -> any z' -> (j < nu)%nat -> no_us j z = no_us j z' -> nth j (z_us z) [] = nth j (z_us z') [] -> z = z'.
Proof.
  destruct z as [[[[y ys] hs] zs] [[[[seed A] B] ks] us]], z' as [[[[y' ys'] hs'] zs'] [[[[seed' A'] B'] ks'] us']]. cbn [no_us z_us].
  intros (_ & _ & _ & _ & _ & _ & _ & _ & [Hk _]) (_ & _ & _ & _ & _ & _ & _ & _ & [Hk' _]) Hj He Hn. injection He as -> -> -> -> -> -> -> -> He.
  rewrite (del_same_n [] j nu us us' Hk Hk' Hj He Hn). reflexivity.
Qed.
Lemma lost_us_again j : at_most (fun z => any z /\ (j < nu)%nat /\ In (nth j (z_us z) []) (firstn j (z_us z))) (N.of_nat nu * fcount d n nb nk (nu - 1) ls q p).
Proof.
  apply (hits fcoins_dec (no_us j) (fun z => nth j (z_us z) []) _ (fcoins_any d n nb nk (nu - 1) ls q p) (fun z c => c = firstn j (z_us z))).
  - intros z (H1 & H2 & _). exact (no_us_any j z H1 H2).
  - intros z z' (H1 & H2 & _) (H1' & _) He Hn. exact (no_us_inj j z z' H1 H1' H2 He Hn).
  - intros z (H1 & H2 & H3). exists (firstn j (z_us z)). split; [reflexivity|]. split; [exact H3|]. rewrite firstn_length. lia.
  - intros z z' c c' (H1 & H2 & _) (H1' & _) He -> ->.
    destruct z as [[[[y ys] hs] zs] [[[[seed A] B] ks] us]], z' as [[[[y' ys'] hs'] zs'] [[[[seed' A'] B'] ks'] us']]. cbn [no_us z_us] in *.
    destruct H1 as (_ & _ & _ & _ & _ & _ & _ & _ & [Hk _]). destruct H1' as (_ & _ & _ & _ & _ & _ & _ & _ & [Hk' _]).
    assert (Hd : del j us = del j us') by congruence. exact (proj1 (del_parts_n j nu us us' Hk Hk' H2 Hd)).
  - apply fcount_most.
Qed.
Lemma runs_us z o : runs z = Some o -> exists u us, z_us z = u :: us.
Proof.
  destruct z as [[[[y ys] hs] zs] [[[[seed A] B] ks] us]]. intros H. unfold sampled in H. cbv zeta in H. destruct us as [|u us]; [|cbn [z_us]; eauto].
  destruct A as [|b0 A]; [discriminate H|]. destruct ks as [|s0 [|s1 [|s2 ks]]]; discriminate H.
Qed.
(** The first inner value asked for. *)
Lemma lost_u0 : at_most (fun z => any z /\ exists o, runs z = Some o /\ In (nth 0 (z_us z) []) (map (skipn 128) (o_tbl o))) (N.of_nat q * fcount d n nb nk (nu - 1) ls q p).
Proof.
  assert (Hnu : forall z o, any z -> runs z = Some o -> (0 < nu)%nat).
  { intros z o H R. destruct (runs_us z o R) as (u & us & Hu). destruct z as [[[[y ys] hs] zs] [[[[seed A] B] ks] us0]]. cbn [z_us] in Hu. destruct H as (_ & _ & _ & _ & _ & _ & _ & _ & [Hk _]). rewrite Hu in Hk. rewrite <- Hk. cbn [length]. lia. }
  apply (hits fcoins_dec (no_us 0) (fun z => nth 0 (z_us z) []) _ (fcoins_any d n nb nk (nu - 1) ls q p) (fun z c => exists o, runs z = Some o /\ c = map (skipn 128) (o_tbl o))).
  - intros z (H1 & o & R & _). exact (no_us_any 0 z H1 (Hnu z o H1 R)).
  - intros z z' (H1 & o & R & _) (H1' & _) He Hn. exact (no_us_inj 0 z z' H1 H1' (Hnu z o H1 R) He Hn).
  - intros z (H1 & o & R & Hi). exists (map (skipn 128) (o_tbl o)). split; [eauto|]. split; [exact Hi|]. rewrite map_length.
    destruct z as [[[[y ys] hs] zs] [[[[seed A] B] ks] us]]. destruct H1 as (_ & _ & [Hq _] & _). destruct (table_size _ _ _ _ _ _ _ _ _ _ _ _ _ _ _ _ R) as [T1 _]. rewrite <- Hq. exact T1.
  - intros z z' c c' _ _ He (o & R & ->) (o' & R' & ->). destruct (runs_us z o R) as (u & us0 & Hu). destruct (runs_us z' o' R') as (u' & us0' & Hu').
    destruct z as [[[[y ys] hs] zs] [[[[seed A] B] ks] us]], z' as [[[[y' ys'] hs'] zs'] [[[[seed' A'] B'] ks'] us']]. cbn [z_us no_us] in *. subst us us'. injection He as -> -> -> -> -> -> -> -> He.
    cbn [del firstn skipn app] in He. subst us0'. f_equal. exact (table_same _ _ _ _ _ _ _ _ _ _ _ _ _ _ _ _ _ _ _ _ R R').
  - apply fcount_most.
Qed.
(** The seed asked for. *)
Lemma lost_seed : at_most (fun z => any z /\ exists o, runs z = Some o /\ In (padded 0x36 (first_key cs) ++ z_seed z) (o_tbl o)) (N.of_nat q * fcount d n nb nk nu 0 q p).
Proof.
  apply (hits fcoins_dec no_seed z_seed _ (fcoins_any d n nb nk nu 0 q p) (fun z c => exists o, runs z = Some o /\ c = map (skipn 128) (o_tbl o))).
  - intros z (H & _). destruct z as [[[[y ys] hs] zs] [[[[seed A] B] ks] us]]. destruct H as (H1 & H2 & H3 & H4 & H5 & H6 & H7 & H8 & H9). cbn [no_seed fcoins_any].
    repeat (split; [assumption|]). split; [split; [reflexivity|apply Forall_nil]|]. tauto.
  - intros z z' _ _ He Hn. destruct z as [[[[y ys] hs] zs] [[[[seed A] B] ks] us]], z' as [[[[y' ys'] hs'] zs'] [[[[seed' A'] B'] ks'] us']]. cbn [no_seed z_seed] in *. congruence.
  - intros z (H1 & o & R & Hi). exists (map (skipn 128) (o_tbl o)). split; [eauto|]. split.
    + apply in_map_iff. exists (padded 0x36 (first_key cs) ++ z_seed z). split; [apply padded_rest|exact Hi].
    + rewrite map_length. destruct z as [[[[y ys] hs] zs] [[[[seed A] B] ks] us]]. destruct H1 as (_ & _ & [Hq _] & _). destruct (table_size _ _ _ _ _ _ _ _ _ _ _ _ _ _ _ _ R) as [T1 _]. rewrite <- Hq. exact T1.
  - intros z z' c c' _ _ He (o & R & ->) (o' & R' & ->). destruct (runs_us z o R) as (u & us0 & Hu).
    destruct z as [[[[y ys] hs] zs] [[[[seed A] B] ks] us]], z' as [[[[y' ys'] hs'] zs'] [[[[seed' A'] B'] ks'] us']]. cbn [z_us no_seed] in *. subst us. injection He as -> -> -> -> -> -> -> <-.
    f_equal. exact (table_same _ _ _ _ _ _ _ _ _ _ _ _ _ _ _ _ _ _ _ _ R R').
  - apply fcount_most.
Qed.
(** Scalars. *)
Lemma lost_repeats : at_most (fun z => any z /\ ~ NoDup (map scalar_of (z_hs z))) (fcount d n nb nk nu ls 0 p * (N.of_nat (q * (q - 1) / 2) * H_EACH * H_ALL ^ N.of_nat (q - 1))).
Proof.
  apply (at_most_fibres (list_eq_dec bytes_dec) z_hs _ (fun hs => hashes q hs /\ ~ NoDup (map scalar_of hs))); [| |exact (repeated q)].
  - intros [[[[y ys] hs] zs] [[[[seed A] B] ks] us]] [(_ & _ & H & _) Hn]. split; [exact H|exact Hn].
  - intros t. apply (at_most_inj no_hs _ (fcoins_any d n nb nk nu ls 0 p)); [| |apply fcount_most].
    + intros [[[[y ys] hs] zs] [[[[seed A] B] ks] us]] [[(H1 & H2 & H3 & H4) _] _]. cbn [no_hs fcoins_any]. split; [exact H1|]. split; [exact H2|]. split; [split; [reflexivity|apply Forall_nil]|exact H4].
    + intros z z' [_ F] [_ F'] He. destruct z as [[[[y ys] hs] zs] [[[[seed A] B] ks] us]], z' as [[[[y' ys'] hs'] zs'] [[[[seed' A'] B'] ks'] us']]. cbn [no_hs z_hs] in *. congruence.
Qed.
Definition zcount : N := fr_modulus ^ N.of_nat (d + 1 + p) * (256 ^ 64) ^ N.of_nat (q + n + nb + nk + nu) * 256 ^ N.of_nat ls.
Lemma lost_y : at_most (fun z => any z /\ z_y z = 0) zcount.
Proof.
  apply (at_most_inj no_y _ (gany 1 d n nb nk nu ls q p)).
  - intros [[[[y ys] hs] zs] [[[[seed A] B] ks] us]] [(_ & H) _]. split; [reflexivity|exact H].
  - intros z z' [_ F] [_ F'] He. destruct z as [[[[y ys] hs] zs] [[[[seed A] B] ks] us]], z' as [[[[y' ys'] hs'] zs'] [[[[seed' A'] B'] ks'] us']]. cbn [no_y z_y] in *. congruence.
  - replace zcount with (gcount 1 d n nb nk nu ls q p) by (unfold gcount, zcount; rewrite N.mul_1_l; reflexivity). apply gcount_most.
Qed.
Lemma lost_point j : at_most (fun z => any z /\ (j < p)%nat /\ nth j (z_zs z) 0 = 0) zcount.
Proof.
  apply (at_most_le _ (fun z => any z /\ (j < p)%nat /\ nth j (z_zs z) 0 = 0) (if (j <? p)%nat then fcount d n nb nk nu ls q (p - 1) else 0)); [auto| |].
  - destruct (j <? p)%nat eqn:Q; [|lia]. apply N.eq_le_incl. unfold zcount, fcount. replace (d + 2 + (p - 1))%nat with (d + 1 + p)%nat by lia. reflexivity.
  - destruct (j <? p)%nat eqn:Q.
    + apply (at_most_inj (no_zs j) _ (fcoins_any d n nb nk nu ls q (p - 1))); [| |apply fcount_most].
      * intros [[[[y ys] hs] zs] [[[[seed A] B] ks] us]] [(H1 & H2 & H3 & [H4 F4] & H5) [Hj _]]. cbn [no_zs fcoins_any]. split; [exact H1|]. split; [exact H2|]. split; [exact H3|]. split; [|exact H5].
        split; [rewrite <- H4; apply del_length; lia|apply del_forall, F4].
      * intros z z' [H [Hj F]] [H' [_ F']] He. destruct z as [[[[y ys] hs] zs] [[[[seed A] B] ks] us]], z' as [[[[y' ys'] hs'] zs'] [[[[seed' A'] B'] ks'] us']]. cbn [no_zs z_zs] in *.
        injection He as -> -> -> He -> -> -> -> ->. destruct H as (_ & _ & _ & [H4 _] & _). destruct H' as (_ & _ & _ & [H4' _] & _).
        rewrite (del_same_n 0 j p zs zs' H4 H4' Hj He (eq_trans F (eq_sym F'))). reflexivity.
    + intros [|w ws] _ Hf; [cbn; lia|]. inversion Hf as [|? ? (_ & Hj & _)]. lia.
Qed.
End Lost.
