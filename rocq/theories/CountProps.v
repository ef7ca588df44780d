(** Counting lemmas behind C98_all_coins: at most K different things have a property. *)
From Coq Require Import Permutation ListDec.
From Coq Require Import ZifyBool ZifyN ZifyNat.
From Verif Require Import Base Env SpecTime Prng SpecPrng PrngFacts SubKey SecretKey Keys Sig SpecKey SpecUpdate
  SpecRed SpecMulti SpecRom RedProps MultiProps RomProps.
Local Open Scope N_scope.

Definition at_most {A} (P : A -> Prop) (K : N) : Prop :=
  forall ws, NoDup ws -> Forall P ws -> N.of_nat (length ws) <= K.

Lemma at_most_le {A} (P Q : A -> Prop) K K' : (forall x, P x -> Q x) -> K <= K' -> at_most Q K -> at_most P K'.
Proof. intros Hi Hk H ws Hn Hf. etransitivity; [apply (H ws Hn)|exact Hk]. eapply Forall_impl; [|exact Hf]. exact Hi. Qed.
Lemma at_most_numbers K : at_most (fun x => x < K) K.
Proof.
  intros ws Hn Hf.
  assert (H : (length ws <= length (map N.of_nat (seq 0 (N.to_nat K))))%nat).
  { apply NoDup_incl_length; [exact Hn|]. intros x Hx. rewrite Forall_forall in Hf. specialize (Hf x Hx). cbv beta in Hf. apply in_map_iff. exists (N.to_nat x). split; [lia|]. apply in_seq. lia. }
  rewrite map_length, seq_length in H. lia.
Qed.
Lemma at_most_inj {A B} (f : A -> B) (P : A -> Prop) (Q : B -> Prop) K :
  (forall x, P x -> Q (f x)) -> (forall x y, P x -> P y -> f x = f y -> x = y) -> at_most Q K -> at_most P K.
Proof.
  intros Hq Hi H ws Hn Hf. rewrite <- (map_length f). apply H.
  - clear H. induction Hn as [|x ws Hx Hn IH]; [constructor|]. inversion Hf as [|? ? Px Pws]; subst. cbn [map]. constructor; [|exact (IH Pws)].
    intros Hin. apply in_map_iff in Hin as (y & He & Hy). apply Hx. rewrite Forall_forall in Pws. rewrite (Hi x y Px (Pws y Hy) (eq_sym He)). exact Hy.
  - apply Forall_map. eapply Forall_impl; [|exact Hf]. exact Hq.
Qed.
Lemma at_most_or {A} (P Q : A -> Prop) a b : at_most P a -> at_most Q b -> at_most (fun x => P x \/ Q x) (a + b).
Proof.
  intros Ha Hb ws Hn Hf.
  assert (Hs : exists us vs, Permutation ws (us ++ vs) /\ Forall P us /\ Forall Q vs).
  { clear Hn. induction Hf as [|w ws [Hw|Hw] _ (us & vs & Hp & Hu & Hv)]; [exists [], []; repeat split; constructor| |].
    - exists (w :: us), vs. split; [cbn; constructor; exact Hp|]. split; [constructor; assumption|exact Hv].
    - exists us, (w :: vs). split; [apply Permutation_cons_app; exact Hp|]. split; [exact Hu|constructor; assumption]. }
  destruct Hs as (us & vs & Hp & Hu & Hv). pose proof (Permutation_NoDup Hp Hn) as Hn2. destruct (nodup_parts _ _ Hn2) as [Nu Nv].
  rewrite (Permutation_length Hp), app_length. pose proof (Ha us Nu Hu). pose proof (Hb vs Nv Hv). lia.
Qed.
(** At most [b] values of [f], at most [a] things for each value. *)
Lemma at_most_fibres {A B} (dec : forall y y' : B, {y = y'} + {y <> y'}) (f : A -> B) (P : A -> Prop) (Q : B -> Prop) a b :
  (forall x, P x -> Q (f x)) -> (forall y, at_most (fun x => P x /\ f x = y) a) -> at_most Q b -> at_most P (a * b).
Proof.
  intros Hq Ha Hb ws Hn Hf. set (ys := nodup dec (map f ws)).
  assert (Hys : N.of_nat (length ys) <= b).
  { apply Hb; [apply NoDup_nodup|]. apply Forall_forall. intros y Hy. apply nodup_In, in_map_iff in Hy as (x & <- & Hx). apply Hq. rewrite Forall_forall in Hf. exact (Hf x Hx). }
  assert (Hc : forall zs us, NoDup us -> Forall P us -> (forall x, In x us -> In (f x) zs) -> N.of_nat (length us) <= a * N.of_nat (length zs)).
  { induction zs as [|y zs IH]; intros us Nu Fu Hi.
    - destruct us as [|u us]; [cbn; lia|]. destruct (Hi u (or_introl eq_refl)).
    - set (p := fun x => if dec (f x) y then true else false).
      assert (Hl : length us = (length (filter p us) + length (filter (fun x => negb (p x)) us))%nat).
      { clear. induction us as [|u us IH]; [reflexivity|]. cbn [filter]. destruct (p u); cbn [negb length]; lia. }
      assert (H1 : N.of_nat (length (filter p us)) <= a).
      { apply (Ha y); [apply NoDup_filter, Nu|]. apply Forall_forall. intros x Hx. apply filter_In in Hx as [Hx Hp]. rewrite Forall_forall in Fu. split; [exact (Fu x Hx)|].
        unfold p in Hp. destruct (dec (f x) y); [assumption|discriminate Hp]. }
      assert (H2 : N.of_nat (length (filter (fun x => negb (p x)) us)) <= a * N.of_nat (length zs)).
      { apply IH; [apply NoDup_filter, Nu| |].
        - apply Forall_forall. intros x Hx. apply filter_In in Hx as [Hx _]. rewrite Forall_forall in Fu. exact (Fu x Hx).
        - intros x Hx. apply filter_In in Hx as [Hx Hp]. unfold p in Hp. destruct (dec (f x) y) as [Hy|Hy]; [discriminate Hp|]. destruct (Hi x Hx) as [Hz|Hz]; [congruence|exact Hz]. }
      rewrite Hl. cbn [length]. lia. }
  specialize (Hc ys ws Hn Hf ltac:(intros x Hx; apply nodup_In, in_map, Hx)). nia.
Qed.

(** Hash values. *)
Definition hash_value (h : bytes) : Prop := length h = 64%nat /\ are_bytes h.
Definition H_ALL : N := 256 ^ 64.
Definition H_EACH : N := H_ALL / fr_modulus + 1.

Lemma os2ip_bound : forall l, are_bytes l -> os2ip l < 256 ^ N.of_nat (length l).
Proof.
  induction l as [|x l IH]; intros H; [reflexivity|]. inversion H as [|? ? Hx Hl]; subst. rewrite os2ip_cons. specialize (IH Hl).
  cbn [length]. rewrite Nat2N.inj_succ, N.pow_succ_r by lia. unfold is_byte in Hx. nia.
Qed.
Lemma os2ip_inj : forall l l', length l = length l' -> are_bytes l -> are_bytes l' -> os2ip l = os2ip l' -> l = l'.
Proof.
  induction l as [|x l IH]; intros [|y l'] Hl Hb Hb' He; try discriminate Hl; [reflexivity|]. injection Hl as Hl.
  inversion Hb; inversion Hb'; subst. rewrite !os2ip_cons, <- Hl in He. pose proof (os2ip_bound l ltac:(assumption)) as B1. pose proof (os2ip_bound l' ltac:(assumption)) as B2. rewrite <- Hl in B2.
  assert (x = y) by nia. subst y. f_equal. apply IH; auto. lia.
Qed.
Lemma hash_lt h : hash_value h -> os2ip h < H_ALL.
Proof. intros [Hl Hb]. pose proof (os2ip_bound h Hb) as H. rewrite Hl in H. exact H. Qed.
Lemma hash_inj h h' : hash_value h -> hash_value h' -> os2ip h = os2ip h' -> h = h'.
Proof. intros [Hl Hb] [Hl' Hb']. apply os2ip_inj; auto. congruence. Qed.
Lemma hashes_all : at_most hash_value H_ALL.
Proof. apply (at_most_inj os2ip _ (fun x => x < H_ALL)); [exact hash_lt|exact hash_inj|apply at_most_numbers]. Qed.
Lemma hashes_each s : at_most (fun h => hash_value h /\ scalar_of h = s) H_EACH.
Proof.
  apply (at_most_inj (fun h => os2ip h / fr_modulus) _ (fun x => x < H_EACH)); [| |apply at_most_numbers].
  - intros h [Hh _]. pose proof (hash_lt h Hh). unfold H_EACH. pose proof (N.div_le_mono (os2ip h) H_ALL fr_modulus ltac:(discriminate) ltac:(lia)). lia.
  - intros h h' [Hh Hs] [Hh' Hs'] He. apply hash_inj; [exact Hh|exact Hh'|].
    rewrite (N.div_mod (os2ip h) fr_modulus), (N.div_mod (os2ip h') fr_modulus) by discriminate. unfold scalar_of in *. rewrite He, Hs, Hs'. reflexivity.
Qed.

(** Lists of hash values. *)
Definition bytes_dec : forall y y' : bytes, {y = y'} + {y <> y'} := list_eq_dec N.eq_dec.
Definition hashes (q : nat) (hs : list bytes) : Prop := length hs = q /\ Forall hash_value hs.
Lemma hashes_count : forall q, at_most (hashes q) (H_ALL ^ N.of_nat q).
Proof.
  induction q as [|q IH].
  - intros ws Hn Hf. destruct ws as [|w [|w' ws]]; [cbn; lia|reflexivity|]. inversion Hf as [|? ? [Hw _] Hf']; subst. inversion Hf' as [|? ? [Hw' _] _]; subst.
    destruct w; [|discriminate Hw]. destruct w'; [|discriminate Hw']. inversion Hn as [|? ? Hx _]; subst. destruct Hx. left. reflexivity.
  - rewrite Nat2N.inj_succ, N.pow_succ_r by lia.
    apply (at_most_fibres (list_eq_dec bytes_dec) (@tl bytes) (hashes (S q)) (hashes q)); [| |exact IH].
    + intros [|h hs] [Hl Hf]; [discriminate Hl|]. inversion Hf; subst. cbn [tl]. split; [cbn in Hl; lia|assumption].
    + intros t. apply (at_most_inj (hd []) _ hash_value); [| |exact hashes_all].
      * intros [|h hs] [[Hl Hf] _]; [discriminate Hl|]. inversion Hf; subst. assumption.
      * intros [|h hs] [|h' hs'] [[Hl _] Ht] [[Hl' _] Ht'] He; try discriminate Hl; try discriminate Hl'. cbn [tl hd] in *. congruence.
Qed.
Lemma in_scalars s hs : In s (map scalar_of hs) -> exists i, (i < length hs)%nat /\ nth i (map scalar_of hs) 0 = s.
Proof. intros H. apply (In_nth _ _ 0) in H as (i & Hi & Hn). rewrite map_length in Hi. eauto. Qed.
Lemma at_most_exists {A} (P : nat -> A -> Prop) K : (forall i, at_most (P i) K) -> forall n, at_most (fun x => exists i, (i < n)%nat /\ P i x) (N.of_nat n * K).
Proof.
  intros H. induction n as [|n IH].
  - intros [|w ws] _ Hf; [cbn; lia|]. inversion Hf as [|? ? (i & Hi & _)]. lia.
  - apply (at_most_le _ (fun x => (exists i, (i < n)%nat /\ P i x) \/ P n x) (N.of_nat n * K + K)); [|lia|apply at_most_or; auto].
    intros x (i & Hi & Hp). destruct (Nat.eq_dec i n) as [->|Hne]; [right; exact Hp|left; exists i; split; [lia|exact Hp]].
Qed.
(** Birthday bound. *)
Lemma repeated : forall q, at_most (fun hs => hashes q hs /\ ~ NoDup (map scalar_of hs)) (N.of_nat (q * (q - 1) / 2) * H_EACH * H_ALL ^ N.of_nat (q - 1)).
Proof.
  induction q as [|q IH].
  - intros [|w ws] _ Hf; [cbn; lia|]. inversion Hf as [|? ? [[Hl _] Hn]]; subst. destruct w; [|discriminate Hl]. destruct Hn. constructor.
  - replace (S q - 1)%nat with q by lia.
    assert (Htri : (S q * q / 2 = q * (q - 1) / 2 + q)%nat).
    { replace (S q * q)%nat with (q * (q - 1) + q * 2)%nat by nia. apply Nat.div_add. discriminate. }
    rewrite Htri, Nat2N.inj_add. clear Htri.
    set (T := N.of_nat (q * (q - 1) / 2)) in *.
    assert (HT : q = 0%nat -> T = 0) by (intros ->; reflexivity). clearbody T.
    apply (at_most_le _ (fun hs => (hashes (S q) hs /\ ~ NoDup (map scalar_of (tl hs)))
                                   \/ exists i, (i < q)%nat /\ hashes (S q) hs /\ scalar_of (hd [] hs) = nth i (map scalar_of (tl hs)) 0)
             (H_ALL * (T * H_EACH * H_ALL ^ N.of_nat (q - 1)) + N.of_nat q * (H_EACH * H_ALL ^ N.of_nat q))).
    + intros [|h hs] [[Hl Hf] Hn]; [discriminate Hl|]. destruct (in_dec N.eq_dec (scalar_of h) (map scalar_of hs)) as [Hin|Hin].
      * right. apply in_scalars in Hin as (i & Hi & Hnth). exists i. cbn in Hl. split; [lia|]. split; [split; assumption|]. symmetry. exact Hnth.
      * left. split; [split; assumption|]. cbn [tl]. intros Hnd. apply Hn. cbn [map]. constructor; assumption.
    + destruct q as [|q]; [rewrite (HT eq_refl); cbn; lia|]. replace (S q - 1)%nat with q by lia.
      rewrite (Nat2N.inj_succ q), N.pow_succ_r by lia. generalize (H_ALL ^ N.of_nat q). generalize H_ALL, H_EACH, (N.of_nat q). clear.
      intros HA HE Q X. apply N.eq_le_incl. rewrite <- N.add_1_l. ring.
    + apply at_most_or.
      * apply (at_most_fibres (list_eq_dec bytes_dec) (@tl bytes) _ (fun hs => hashes q hs /\ ~ NoDup (map scalar_of hs))); [| |exact IH].
        -- intros [|h hs] [[Hl Hf] Hn]; [discriminate Hl|]. inversion Hf; subst. cbn [tl] in *. split; [split; [cbn in Hl; lia|assumption]|exact Hn].
        -- intros t. apply (at_most_inj (hd []) _ hash_value); [| |exact hashes_all].
           ++ intros [|h hs] [[[Hl Hf] _] _]; [discriminate Hl|]. inversion Hf; subst. assumption.
           ++ intros [|h hs] [|h' hs'] [[[Hl _] _] Ht] [[[Hl' _] _] Ht'] He; try discriminate Hl; try discriminate Hl'. cbn [tl hd] in *. congruence.
      * apply (at_most_exists (fun i hs => hashes (S q) hs /\ scalar_of (hd [] hs) = nth i (map scalar_of (tl hs)) 0)). intros i.
        apply (at_most_fibres (list_eq_dec bytes_dec) (@tl bytes) _ (hashes q)); [| |apply hashes_count].
        -- intros [|h hs] [[Hl Hf] _]; [discriminate Hl|]. inversion Hf; subst. cbn [tl] in *. split; [cbn in Hl; lia|assumption].
        -- intros t. apply (at_most_inj (hd []) _ (fun h => hash_value h /\ scalar_of h = nth i (map scalar_of t) 0)); [| |apply hashes_each].
           ++ intros [|h hs] [[[Hl Hf] He] Ht]; [discriminate Hl|]. inversion Hf; subst. cbn [hd tl] in *. split; [assumption|exact He].
           ++ intros [|h hs] [|h' hs'] [[[Hl _] _] Ht] [[[Hl' _] _] Ht'] He; try discriminate Hl; try discriminate Hl'. cbn [tl hd] in *. congruence.
Qed.

(** Coins. *)
Lemma scalars_count : forall n, at_most (scalars n) (fr_modulus ^ N.of_nat n).
Proof.
  induction n as [|n IH].
  - intros ws Hn Hf. destruct ws as [|w [|w' ws]]; [cbn; lia|reflexivity|]. inversion Hf as [|? ? [Hw _] Hf']; subst. inversion Hf' as [|? ? [Hw' _] _]; subst.
    destruct w; [|discriminate Hw]. destruct w'; [|discriminate Hw']. inversion Hn as [|? ? Hx _]; subst. destruct Hx. left. reflexivity.
  - rewrite Nat2N.inj_succ, N.pow_succ_r by lia.
    apply (at_most_fibres bytes_dec (@tl N) (scalars (S n)) (scalars n)); [| |exact IH].
    + intros [|h hs] [Hl Hf]; [discriminate Hl|]. inversion Hf; subst. cbn [tl]. split; [cbn in Hl; lia|assumption].
    + intros t. apply (at_most_inj (hd 0) _ (fun x => x < fr_modulus)); [| |apply at_most_numbers].
      * intros [|h hs] [[Hl Hf] _]; [discriminate Hl|]. inversion Hf; subst. assumption.
      * intros [|h hs] [|h' hs'] [[Hl _] Ht] [[Hl' _] Ht'] He; try discriminate Hl; try discriminate Hl'. cbn [tl hd] in *. congruence.
Qed.
Lemma repeats_count d n q : at_most (fun z : hcoins => hcoins_any d n q z /\ ~ NoDup (map scalar_of (snd z))) (repeats_bound d n q).
Proof.
  unfold repeats_bound.
  apply (at_most_fibres (list_eq_dec bytes_dec) (fun z : hcoins => snd z) _ (fun hs => hashes q hs /\ ~ NoDup (map scalar_of hs))); [| |exact (repeated q)].
  - intros [[[y ys] rs] hs] [(_ & Hl & Hf) Hn]. split; [split; assumption|exact Hn].
  - intros t. apply (at_most_inj (fun z : hcoins => let '(y, ys, rs, _) := z in y :: ys ++ rs) _ (scalars (d + 2 + n))); [| |apply scalars_count].
    + intros [[[y ys] rs] hs] [[((Hy & [Hl1 H1] & [Hl2 H2]) & _) _] _]. split; [cbn [length]; rewrite app_length; lia|]. constructor; [exact Hy|]. apply Forall_app. auto.
    + intros [[[y ys] rs] hs] [[[y' ys'] rs'] hs'] [[((Hy & [Hl1 H1] & [Hl2 H2]) & _) _] Ht] [[((Hy' & [Hl1' H1'] & [Hl2' H2']) & _) _] Ht'] He.
      cbn [snd] in *. injection He as -> He. assert (Hys : ys = ys').
      { pose proof (f_equal (firstn (d + 1)) He) as Hc. rewrite !firstn_app, Hl1, Hl1', !Nat.sub_diag, !firstn_O, !app_nil_r in Hc.
        rewrite <- Hl1 in Hc at 1. rewrite <- Hl1' in Hc. rewrite !firstn_all in Hc. exact Hc. }
      subst ys'. apply app_inv_head in He. congruence.
Qed.
Lemma rom_all_coins : forall (E : env) (L : env_laws E) m (g : G1 E) d cs a b adv n q ws,
  g1_insub g = true -> (1 <= d < 64)%nat -> (1 <= q)%nat ->
  NoDup ws -> Forall (fun z => hcoins_any d n q z /\ hwins m g d cs a adv z) ws ->
  exists tx i zs, 1 <= tx <= last_time d /\ (i < q)%nat
    /\ N.of_nat (length ws) <= last_time d * N.of_nat q * N.of_nat (length zs) + repeats_bound d n q /\ NoDup zs
    /\ Forall (fun z => hcoins_ok d n q z /\ hsolve (challenge_for g d a b) d cs tx i adv z = Some (solution g d a b)) zs.
Proof.
  intros E L m g d cs a b adv n q ws Hg Hd Hq Hn Hf.
  assert (Hs : exists us vs, Permutation ws (us ++ vs) /\ Forall (fun z => hcoins_ok d n q z /\ hwins m g d cs a adv z) us
            /\ Forall (fun z : hcoins => hcoins_any d n q z /\ ~ NoDup (map scalar_of (snd z))) vs).
  { clear Hn. induction Hf as [|[[[y ys] rs] hs] ws [Hz Hw] _ (us & vs & Hp & Hu & Hv)]; [exists [], []; repeat split; constructor|].
    destruct (ListDec.NoDup_dec N.eq_dec (map scalar_of hs)) as [Hnd|Hnd].
    - exists ((y, ys, rs, hs) :: us), vs. split; [cbn; constructor; exact Hp|]. split; [|exact Hv]. constructor; [|exact Hu]. split; [|exact Hw].
      destruct Hz as (H1 & H2 & H3). cbn [hcoins_ok]. auto.
    - exists us, ((y, ys, rs, hs) :: vs). split; [apply Permutation_cons_app; exact Hp|]. split; [exact Hu|]. constructor; [split; [exact Hz|exact Hnd]|exact Hv]. }
  destruct Hs as (us & vs & Hp & Hu & Hv). pose proof (Permutation_NoDup Hp Hn) as Hn2. destruct (nodup_parts _ _ Hn2) as [Nu Nv].
  destruct (rom_forger_solves E L m g d cs a b adv n q us Hg Hd Hq Nu Hu) as (tx & i & zs & Htx & Hi & Hl & Nz & Fz).
  exists tx, i, zs. split; [exact Htx|]. split; [exact Hi|]. split; [|split; assumption].
  rewrite (Permutation_length Hp), app_length, Nat2N.inj_add. pose proof (repeats_count d n q vs Nv Hv). apply N.add_le_mono; assumption.
Qed.

(** All coins. *)
Fixpoint words {A} (dom : list A) (n : nat) : list (list A) :=
  match n with O => [[]] | S n' => flat_map (fun a => map (cons a) (words dom n')) dom end.
Lemma words_in {A} (dom : list A) : forall n w, In w (words dom n) <-> length w = n /\ Forall (fun a => In a dom) w.
Proof.
  induction n as [|n IH]; intros w; cbn [words].
  - split; [intros [<-|[]]; split; [reflexivity|constructor]|]. intros [Hl _]. destruct w; [left; reflexivity|discriminate Hl].
  - rewrite in_flat_map. split.
    + intros (a & Ha & Hw). apply in_map_iff in Hw as (v & <- & Hv). apply IH in Hv as [Hl Hf]. split; [cbn; congruence|constructor; assumption].
    + intros [Hl Hf]. destruct w as [|a w]; [discriminate Hl|]. inversion Hf; subst. exists a. split; [assumption|]. apply in_map, IH. split; [cbn in Hl; congruence|assumption].
Qed.
Lemma flat_map_nodup {A B} (f : A -> list B) : forall l, NoDup l -> (forall a, In a l -> NoDup (f a)) ->
  (forall a a' b, In a l -> In a' l -> In b (f a) -> In b (f a') -> a = a') -> NoDup (flat_map f l).
Proof.
  induction 1 as [|a l Ha Hl IH]; intros Hn Hd; [constructor|]. cbn [flat_map].
  assert (Hg : NoDup (flat_map f l)) by (apply IH; [intros; apply Hn; right; assumption|intros a1 a2 b H1 H2; apply Hd; right; assumption]).
  assert (Hdj : forall b, In b (f a) -> ~ In b (flat_map f l)).
  { intros b Hb Hin. apply in_flat_map in Hin as (a' & Ha' & Hb'). apply Ha. rewrite (Hd a a' b (or_introl eq_refl) (or_intror Ha') Hb Hb'). exact Ha'. }
  clear IH Hd. specialize (Hn a (or_introl eq_refl)). induction (f a) as [|b bs IHb]; [exact Hg|]. inversion Hn; subst. cbn [app]. constructor.
  - intros Hin. apply in_app_iff in Hin as [Hin|Hin]; [contradiction|]. exact (Hdj b (or_introl eq_refl) Hin).
  - apply IHb; [assumption|]. intros c Hc. apply Hdj. right. exact Hc.
Qed.
Lemma flat_map_const {A B} (f : A -> list B) k : forall l, (forall a, In a l -> length (f a) = k) -> length (flat_map f l) = (length l * k)%nat.
Proof. induction l as [|a l IH]; intros H; [reflexivity|]. cbn [flat_map length]. rewrite app_length, (H a (or_introl eq_refl)), IH; [lia|]. intros; apply H; right; assumption. Qed.
Lemma map_nodup {A B} (f : A -> B) l : (forall x y, f x = f y -> x = y) -> NoDup l -> NoDup (map f l).
Proof. intros Hf Hn. apply FinFun.Injective_map_NoDup; [exact Hf|exact Hn]. Qed.
Lemma words_nodup {A} (dom : list A) : NoDup dom -> forall n, NoDup (words dom n).
Proof.
  intros Hd. induction n as [|n IH]; cbn [words]; [constructor; [intros []|constructor]|]. apply flat_map_nodup; [exact Hd| |].
  - intros a _. apply map_nodup; [intros x y Hxy; congruence|exact IH].
  - intros a a' b _ _ Hb Hb'. apply in_map_iff in Hb as (v & <- & _). apply in_map_iff in Hb' as (v' & He & _). congruence.
Qed.
Lemma words_length {A} (dom : list A) : forall n, N.of_nat (length (words dom n)) = N.of_nat (length dom) ^ N.of_nat n.
Proof.
  induction n as [|n IH]; [reflexivity|]. cbn [words]. rewrite (flat_map_const _ (length (words dom n))) by (intros; apply map_length).
  rewrite Nat2N.inj_mul, IH, Nat2N.inj_succ, N.pow_succ_r by lia. reflexivity.
Qed.
Definition numbers (K : N) : list N := map N.of_nat (seq 0 (N.to_nat K)).
Lemma numbers_in K x : In x (numbers K) <-> x < K.
Proof. unfold numbers. rewrite in_map_iff. split; [intros (n & <- & Hn); apply in_seq in Hn; lia|]. intros H. exists (N.to_nat x). split; [lia|]. apply in_seq. lia. Qed.
Lemma numbers_nodup K : NoDup (numbers K).
Proof. apply map_nodup; [intros x y H; lia|apply seq_NoDup]. Qed.
Lemma numbers_length K : N.of_nat (length (numbers K)) = K.
Proof. unfold numbers. rewrite map_length, seq_length. lia. Qed.

Definition hash_values : list bytes := words (numbers 256) 64.
Lemma hash_values_in h : In h hash_values <-> hash_value h.
Proof. unfold hash_values, hash_value. rewrite (words_in (numbers 256) 64 h). split; intros [Hl Hf]; (split; [exact Hl|]); eapply Forall_impl; try exact Hf; intros x; cbv beta; rewrite numbers_in; exact (fun H => H). Qed.
Lemma hash_values_length : N.of_nat (length hash_values) = 256 ^ 64.
Proof. etransitivity; [exact (words_length (numbers 256) 64)|]. rewrite numbers_length. reflexivity. Qed.
Lemma hash_values_nodup : NoDup hash_values.
Proof. apply words_nodup, numbers_nodup. Qed.
#[local] Opaque hash_values numbers.
Definition split_coins (d : nat) (w : list N * list bytes) : hcoins :=
  (hd 0 (fst w), firstn (d + 1) (tl (fst w)), skipn (d + 1) (tl (fst w)), snd w).
Definition join_coins (z : hcoins) : list N * list bytes := let '(y, ys, rs, hs) := z in (y :: ys ++ rs, hs).
Definition all_coins (d n q : nat) : list hcoins :=
  map (split_coins d) (list_prod (words (numbers fr_modulus) (d + 2 + n)) (words hash_values q)).
Lemma split_join d n q z : hcoins_any d n q z -> split_coins d (join_coins z) = z.
Proof.
  destruct z as [[[y ys] rs] hs]. intros [(_ & [Hl _] & _) _]. unfold split_coins, join_coins. cbn [fst snd hd tl].
  rewrite <- Hl, firstn_app, skipn_app, Nat.sub_diag, firstn_all, skipn_all, firstn_O, skipn_O, app_nil_r. reflexivity.
Qed.
Lemma join_split d n w : length (fst w) = (d + 2 + n)%nat -> join_coins (split_coins d w) = w.
Proof. destruct w as [[|y l] hs]; cbn [fst]; intros H; [cbn in H; lia|]. unfold split_coins, join_coins. cbn [fst snd hd tl]. rewrite firstn_skipn. reflexivity. Qed.
Lemma all_coins_in d n q z : In z (all_coins d n q) <-> hcoins_any d n q z.
Proof.
  unfold all_coins. rewrite in_map_iff. split.
  - intros ([l hs] & <- & Hin). apply in_prod_iff in Hin as [Hl Hh]. apply words_in in Hl as [Hl Fl]. apply words_in in Hh as [Hh Fh].
    destruct l as [|y l]; [cbn in Hl; lia|]. cbn [length] in Hl. inversion Fl as [|? ? Fy Fl']; subst. unfold split_coins. cbn [fst snd hd tl hcoins_any coins_ok].
    assert (Fl2 : Forall (fun a => a < fr_modulus) l) by (eapply Forall_impl; [|exact Fl']; intros x Hx; apply numbers_in; exact Hx).
    rewrite <- (firstn_skipn (d + 1) l) in Fl2. apply Forall_app in Fl2 as [F1 F2].
    split; [split; [apply numbers_in; exact Fy|]; split; (split; [|assumption])|].
    + apply firstn_length_le. lia.
    + rewrite skipn_length. lia.
    + split; [reflexivity|]. eapply Forall_impl; [|exact Fh]. intros h Hh. exact (proj1 (hash_values_in h) Hh).
  - intros Hz. exists (join_coins z). split; [exact (split_join d n q z Hz)|]. destruct z as [[[y ys] rs] hs]. destruct Hz as ((Hy & [Hl1 H1] & [Hl2 H2]) & Hl & Hf).
    unfold join_coins. apply in_prod_iff. split; apply words_in.
    + split; [cbn [length]; rewrite app_length; lia|]. constructor; [apply numbers_in; exact Hy|]. apply Forall_app. split; (eapply Forall_impl; [|eassumption]); intros x Hx; apply numbers_in; exact Hx.
    + split; [exact Hl|]. eapply Forall_impl; [|exact Hf]. intros h Hh. exact (proj2 (hash_values_in h) Hh).
Qed.
Lemma prod_nodup {A B} : forall (l : list A) (l' : list B), NoDup l -> NoDup l' -> NoDup (list_prod l l').
Proof.
  intros l l' Hl Hl'. assert (He : list_prod l l' = flat_map (fun a => map (pair a) l') l) by (clear; induction l as [|a l IH]; [reflexivity|cbn; rewrite IH; reflexivity]).
  rewrite He. apply flat_map_nodup; [exact Hl| |].
  - intros a _. apply map_nodup; [intros x y Hxy; congruence|exact Hl'].
  - intros a a' b _ _ Hb Hb'. apply in_map_iff in Hb as (v & <- & _). apply in_map_iff in Hb' as (v' & He' & _). congruence.
Qed.
Lemma all_coins_nodup d n q : NoDup (all_coins d n q).
Proof.
  unfold all_coins. assert (Hn : NoDup (list_prod (words (numbers fr_modulus) (d + 2 + n)) (words hash_values q))).
  { apply prod_nodup; apply words_nodup; [apply numbers_nodup|apply hash_values_nodup]. }
  assert (Hf : Forall (fun w => length (fst w) = (d + 2 + n)%nat) (list_prod (words (numbers fr_modulus) (d + 2 + n)) (words hash_values q))).
  { apply Forall_forall. intros [l hs] Hin. apply in_prod_iff in Hin as [Hl _]. apply words_in in Hl as [Hl _]. exact Hl. }
  revert Hn Hf. generalize (list_prod (words (numbers fr_modulus) (d + 2 + n)) (words hash_values q)). intros ws Hn Hf.
  induction Hn as [|w ws Hw Hn IH]; [constructor|]. inversion Hf as [|? ? Fw Fws]; subst. cbn [map]. constructor; [|exact (IH Fws)].
  intros Hin. apply in_map_iff in Hin as (w' & He & Hin). apply Hw. rewrite Forall_forall in Fws.
  rewrite <- (join_split d n w Fw), <- He, (join_split d n w' (Fws w' Hin)). exact Hin.
Qed.
Lemma all_coins_length d n q : N.of_nat (length (all_coins d n q)) = fr_modulus ^ N.of_nat (d + 2 + n) * (256 ^ 64) ^ N.of_nat q.
Proof.
  unfold all_coins. rewrite map_length, prod_length, Nat2N.inj_mul, !words_length, numbers_length, hash_values_length. reflexivity.
Qed.
Lemma product_le A T HE X K p T2 : HE * p <= 2 * K -> 2 * T <= T2 -> A * (T * HE * X) * p <= T2 * (A * (K * X)).
Proof.
  intros H1 H2. replace (A * (T * HE * X) * p) with ((A * T * X) * (HE * p)) by ring.
  replace (T2 * (A * (K * X))) with ((A * K * X) * T2) by ring.
  transitivity ((A * T * X) * (2 * K)); [apply N.mul_le_mono_l; exact H1|].
  replace ((A * T * X) * (2 * K)) with ((A * K * X) * (2 * T)) by ring. apply N.mul_le_mono_l. exact H2.
Qed.
Lemma repeats_rare : forall d n q, exists all : list hcoins,
  NoDup all /\ (forall z, In z all <-> hcoins_any d n q z)
  /\ repeats_bound d n q * fr_modulus <= N.of_nat (q * (q - 1)) * N.of_nat (length all).
Proof.
  intros d n q. exists (all_coins d n q). split; [apply all_coins_nodup|]. split; [apply all_coins_in|].
  rewrite all_coins_length. unfold repeats_bound. destruct q as [|q]; [cbn [Nat.mul Nat.sub]; rewrite N.mul_0_l, (N.mul_comm _ 0), N.mul_0_l by lia; rewrite !N.mul_0_l; lia|].
  replace (S q - 1)%nat with q by lia. rewrite (Nat2N.inj_succ q), N.pow_succ_r by lia.
  assert (Hc : (256 ^ 64 / fr_modulus + 1) * fr_modulus <= 2 * 256 ^ 64).
  { pose proof (N.mul_div_le (256 ^ 64) fr_modulus ltac:(discriminate)) as H1. assert (H2 : fr_modulus <= 256 ^ 64) by (vm_compute; discriminate). revert H1 H2. generalize (256 ^ 64 / fr_modulus), fr_modulus, (256 ^ 64). intros; nia. }
  assert (Ht : 2 * N.of_nat (S q * q / 2) <= N.of_nat (S q * q)).
  { pose proof (Nat.mul_div_le (S q * q) 2 ltac:(discriminate)) as H1. revert H1. generalize (S q * q / 2)%nat, (S q * q)%nat. intros; lia. }
  apply product_le; assumption.
Qed.
