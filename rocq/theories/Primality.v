(** The order of the BLS12-381 scalar field is prime: 7 generates all residues. *)
From Coq Require Import ZArith Znumtheory Zpow_facts List Lia Bool.
Import ListNotations.
Local Open Scope Z_scope.

(** Powers modulo [n]. *)
Fixpoint powmod_pos (n a : Z) (e : positive) : Z :=
  match e with
  | xH => a mod n
  | xO e' => let b := powmod_pos n a e' in b * b mod n
  | xI e' => let b := powmod_pos n a e' in (b * b mod n) * a mod n
  end.
Definition powmod (n a e : Z) : Z :=
  match e with Zpos p => powmod_pos n a p | _ => 1 mod n end.

Lemma powmod_spec n a e : 0 < n -> 0 <= e -> powmod n a e = a ^ e mod n.
Proof.
  intros Hn He. destruct e as [|p|p]; [reflexivity| |lia]. cbn [powmod]. clear He.
  induction p as [p IH|p IH|]; cbn [powmod_pos].
  - rewrite IH, Pos2Z.inj_xI. rewrite Z.pow_add_r, Z.pow_1_r by lia.
    replace (2 * Z.pos p) with (Z.pos p + Z.pos p) by lia. rewrite Z.pow_add_r by lia.
    rewrite <- Z.mul_mod by lia. rewrite Z.mul_mod_idemp_l by lia. reflexivity.
  - rewrite IH, Pos2Z.inj_xO. replace (2 * Z.pos p) with (Z.pos p + Z.pos p) by lia.
    rewrite Z.pow_add_r by lia. rewrite <- Z.mul_mod by lia. reflexivity.
  - rewrite Z.pow_1_r. reflexivity.
Qed.

(** [prod fs]: product of a list. *)
Definition prod (fs : list Z) : Z := fold_right Z.mul 1 fs.

Lemma rel_prime_prod c fs : (forall f, In f fs -> rel_prime c f) -> rel_prime c (prod fs).
Proof.
  induction fs as [|f fs IH]; intros H; cbn.
  - apply rel_prime_1 || (apply rel_prime_sym, rel_prime_1).
  - apply rel_prime_mult; [apply H; left; reflexivity|apply IH; intros; apply H; right; assumption].
Qed.

(** A divisor of [prod fs] other than 1 is a multiple of one of the primes. *)
Lemma divides_prod c fs : 1 < c -> Forall prime fs -> (c | prod fs) -> exists f, In f fs /\ (f | c).
Proof.
  intros Hc Hp Hd. destruct (existsb (fun f => Z.eqb (c mod f) 0) fs) eqn:E.
  - apply existsb_exists in E as (f & Hin & Hf). exists f. split; [exact Hin|].
    rewrite Forall_forall in Hp. pose proof (prime_ge_2 f (Hp f Hin)). apply Z.eqb_eq in Hf. apply Z.mod_divide; [lia|exact Hf].
  - exfalso. assert (Hr : rel_prime c (prod fs)).
    { apply rel_prime_prod. intros f Hin. apply rel_prime_sym. apply prime_rel_prime.
      - rewrite Forall_forall in Hp. auto.
      - intros Hdf. assert (existsb (fun f => Z.eqb (c mod f) 0) fs = true); [|congruence].
        apply existsb_exists. exists f. split; [exact Hin|]. apply Z.eqb_eq.
        rewrite Forall_forall in Hp. pose proof (prime_ge_2 f (Hp f Hin)). apply Z.mod_divide; [lia|exact Hdf]. }
    destruct Hr as [_ _ Hg]. specialize (Hg c (Z.divide_refl c) Hd).
    apply Z.divide_1_r in Hg. lia.
Qed.

Section Lucas.
  Context (n a : Z) (fs : list Z) (Hn : 2 < n) (HN : prod fs = n - 1) (Hp : Forall prime fs)
    (H1 : a ^ (n - 1) mod n = 1)
    (Hf : forall f, In f fs -> a ^ ((n - 1) / f) mod n <> 1).

  Lemma pow_unit k : 0 <= k -> rel_prime (a ^ k) n.
  Proof.
    intros Hk. apply rel_prime_sym, rel_prime_Zpower_r; [exact Hk|]. apply rel_prime_sym.
    apply bezout_rel_prime.
    pose proof (Z.div_mod (a ^ (n - 1)) n ltac:(lia)) as Hd. rewrite H1 in Hd.
    apply Bezout_intro with (u := a ^ (n - 2)) (v := - (a ^ (n - 1) / n)).
    replace (a ^ (n - 2) * a) with (a ^ (n - 1)); [lia|].
    replace (n - 1) with (n - 2 + 1) by lia. rewrite Z.pow_add_r, Z.pow_1_r by lia. reflexivity.
  Qed.

  Lemma mod_unit_cancel u x y : rel_prime u n -> (u * x) mod n = (u * y) mod n -> x mod n = y mod n.
  Proof.
    intros Hu He. assert (Hd : (n | u * (x - y))).
    { apply Z.mod_divide; [lia|]. rewrite Z.mul_sub_distr_l, Zminus_mod, He, Z.sub_diag. apply Z.mod_0_l. lia. }
    apply Gauss in Hd; [|apply rel_prime_sym, Hu]. destruct Hd as [q Hq].
    replace x with (y + q * n) by lia. apply Z.mod_add. lia.
  Qed.

  Lemma pow_sub_1 i j : 0 <= i <= j -> a ^ i mod n = 1 -> a ^ j mod n = 1 -> a ^ (j - i) mod n = 1.
  Proof.
    intros Hij Hi Hj. replace 1 with (1 mod n) by (apply Z.mod_small; lia).
    apply (mod_unit_cancel (a ^ i)); [apply pow_unit; lia|].
    rewrite <- Z.pow_add_r by lia. replace (i + (j - i)) with j by lia.
    rewrite Hj, Z.mul_1_r. auto.
  Qed.

  Lemma pow_mul_1 k q : 0 <= k -> 0 <= q -> a ^ k mod n = 1 -> a ^ (k * q) mod n = 1.
  Proof.
    intros Hk Hq H. rewrite Z.pow_mul_r by lia. rewrite Zpower_mod by lia. rewrite H, Z.pow_1_l by lia.
    apply Z.mod_small. lia.
  Qed.

  Lemma pow_mod_1 i j : 0 < i -> 0 <= j -> a ^ i mod n = 1 -> a ^ j mod n = 1 -> a ^ (j mod i) mod n = 1.
  Proof.
    intros Hi Hj H H'. rewrite (Z.mod_eq j i) by lia. apply pow_sub_1; auto.
    - pose proof (Z.mul_div_le j i Hi). split; [|lia]. apply Z.mul_nonneg_nonneg; [lia|]. apply Z.div_pos; lia.
    - apply pow_mul_1; auto; [lia|]. apply Z.div_pos; lia.
  Qed.

  Lemma pow_gcd_1 : forall i j, 0 <= i -> 0 <= j -> a ^ i mod n = 1 -> a ^ j mod n = 1 -> a ^ (Z.gcd i j) mod n = 1.
  Proof.
    intros i j Hi. revert j. pattern i. apply Zlt_0_ind; [|exact Hi]. clear i Hi.
    intros i IH Hi j Hj H H'. destruct (Z.eq_dec i 0) as [->|Hne].
    - rewrite Z.gcd_0_l, Z.abs_eq by lia. exact H'.
    - rewrite <- Z.gcd_mod by lia. apply IH; auto; [apply Z.mod_pos_bound; lia|].
      apply pow_mod_1; auto; lia.
  Qed.

  Lemma order k : 0 < k < n - 1 -> a ^ k mod n <> 1.
  Proof.
    intros Hk Hk1. pose proof (pow_gcd_1 k (n - 1) ltac:(lia) ltac:(lia) Hk1 H1) as Hg.
    set (o := Z.gcd k (n - 1)) in *.
    pose proof (Z.gcd_divide_r k (n - 1)) as Ho. pose proof (Z.gcd_divide_l k (n - 1)) as Ho'.
    fold o in Ho, Ho'. assert (Hop : 0 < o).
    { pose proof (Z.gcd_nonneg k (n - 1)). destruct (Z.eq_dec o 0) as [E|]; [|unfold o in *; lia].
      unfold o in E. apply Z.gcd_eq_0 in E. lia. }
    apply Z.divide_pos_le in Ho' as Hle; [|lia].
    destruct Ho as [c Hc]. assert (Hc1 : 1 < c) by nia.
    destruct (divides_prod c fs Hc1 Hp) as (f & Hin & [q Hq]).
    { rewrite HN, Hc. exists o. lia. }
    apply (Hf f Hin). rewrite Forall_forall in Hp. pose proof (prime_ge_2 f (Hp f Hin)).
    replace ((n - 1) / f) with (o * q).
    - apply pow_mul_1; auto; nia.
    - rewrite Hc, Hq. replace (q * f * o) with (o * q * f) by ring. rewrite Z.div_mul; lia.
  Qed.

  Lemma pow_inj i j : 0 <= i < n - 1 -> 0 <= j < n - 1 -> a ^ i mod n = a ^ j mod n -> i = j.
  Proof.
    assert (Hlt : forall i j, 0 <= i < n - 1 -> 0 <= j < n - 1 -> i < j -> a ^ i mod n <> a ^ j mod n).
    { clear i j. intros i j Hi Hj Hlt He. apply (order (j - i)); [lia|].
      replace 1 with (1 mod n) by (apply Z.mod_small; lia). symmetry.
      apply (mod_unit_cancel (a ^ i)); [apply pow_unit; lia|].
      rewrite Z.mul_1_r, <- Z.pow_add_r by lia. replace (i + (j - i)) with j by lia. exact He. }
    intros Hi Hj He. destruct (Z.lt_trichotomy i j) as [H|[H|H]]; auto.
    - destruct (Hlt i j Hi Hj H He).
    - destruct (Hlt j i Hj Hi H). auto.
  Qed.

  Theorem lucas : prime n.
  Proof.
    set (M := Z.to_nat (n - 1)).
    set (powers := map (fun i => a ^ Z.of_nat i mod n) (seq 0 M)).
    set (all := map (fun i => Z.of_nat i) (seq 1 M)).
    assert (Hnd : NoDup powers).
    { unfold powers. clear all powers.
      assert (Hs : NoDup (seq 0 M)) by apply seq_NoDup.
      assert (Hb : forall i, In i (seq 0 M) -> (i < M)%nat) by (intros i Hi; apply in_seq in Hi; lia).
      induction Hs as [|i l Hi Hs IH]; [constructor|]. cbn [map]. constructor.
      - intros Hin. apply in_map_iff in Hin as (j & He & Hj). apply Hi.
        assert (Hij : Z.of_nat j = Z.of_nat i).
        { apply pow_inj; [| |exact He].
          - specialize (Hb j (or_intror Hj)). unfold M in Hb. lia.
          - specialize (Hb i (or_introl eq_refl)). unfold M in Hb. lia. }
        apply Nat2Z.inj in Hij. subst j. exact Hj.
      - apply IH. intros j Hj. apply Hb. right. exact Hj. }
    assert (Hincl : incl powers all).
    { intros y Hy. apply in_map_iff in Hy as (i & <- & Hi). apply in_map_iff.
      pose proof (Z.mod_pos_bound (a ^ Z.of_nat i) n ltac:(lia)) as Hb.
      exists (Z.to_nat (a ^ Z.of_nat i mod n)). split; [lia|]. apply in_seq.
      assert (a ^ Z.of_nat i mod n <> 0).
      { intros H0. pose proof (pow_unit (Z.of_nat i) ltac:(lia)) as Hu.
        apply Z.mod_divide in H0; [|lia]. destruct Hu as [_ _ Hu].
        specialize (Hu n H0 (Z.divide_refl n)). apply Z.divide_1_r in Hu. lia. }
      unfold M. lia. }
    assert (Hall : incl all powers).
    { apply NoDup_length_incl; auto. unfold all, powers. rewrite !map_length, !seq_length. lia. }
    apply prime_intro; [lia|]. intros k Hk.
    assert (Hin : In k powers).
    { apply Hall. apply in_map_iff. exists (Z.to_nat k). split; [lia|]. apply in_seq. unfold M. lia. }
    apply in_map_iff in Hin as (i & <- & _).
    pose proof (pow_unit (Z.of_nat i) ltac:(lia)) as Hu. apply rel_prime_mod; [lia|exact Hu].
  Qed.
End Lucas.

(** Trial division: no divisor from [2] to [2 + fuel - 1], and [fuel] is large enough. *)
Fixpoint no_div (n k : Z) (fuel : nat) : bool :=
  match fuel with
  | O => true
  | S f => negb (n mod k =? 0) && no_div n (k + 1) f
  end.
Lemma no_div_spec n : forall fuel k j, no_div n k fuel = true -> k <= j < k + Z.of_nat fuel -> n mod j <> 0.
Proof.
  induction fuel as [|f IH]; intros k j H Hj; [lia|]. cbn [no_div] in H.
  apply andb_prop in H as [H1 H2]. destruct (Z.eq_dec k j) as [->|Hne].
  - apply negb_true_iff, Z.eqb_neq in H1. exact H1.
  - apply (IH (k + 1)); [exact H2|lia].
Qed.
Definition small_prime (n : Z) : bool :=
  let s := Z.sqrt n in (1 <? n) && no_div n 2 (Z.to_nat (s - 1)).
Lemma small_prime_spec n : small_prime n = true -> prime n.
Proof.
  unfold small_prime. intros H. apply andb_prop in H as [H1 H2]. apply Z.ltb_lt in H1.
  apply prime_alt. split; [exact H1|]. intros k Hk [q Hq].
  assert (Hs : forall j, 1 < j -> j * j <= n -> n mod j <> 0).
  { intros j Hj Hjj. apply (no_div_spec n _ 2 j H2). split; [lia|].
    apply Z.sqrt_le_square in Hjj; lia. }
  destruct (Z.le_gt_cases (k * k) n) as [Hle|Hgt].
  - apply (Hs k); [lia|exact Hle|]. apply Z.mod_divide; [lia|]. exists q. exact Hq.
  - apply (Hs q); [nia|nia|]. apply Z.mod_divide; [nia|]. exists k. lia.
Qed.

(** Certificate for a small number: the factors of [n - 1] are known to be prime. *)
Definition lucas_check (n a : Z) (fs : list Z) : bool :=
  (2 <? n) && (prod fs =? n - 1) && (powmod n a (n - 1) =? 1) &&
  forallb (fun f => negb (powmod n a ((n - 1) / f) =? 1)) fs.

Lemma lucas_check_prime n a fs : Forall prime fs -> lucas_check n a fs = true -> prime n.
Proof.
  unfold lucas_check. rewrite !andb_true_iff. intros Hprime (((Hn & Hprod) & H1) & Hf).
  apply Z.ltb_lt in Hn. apply Z.eqb_eq in Hprod, H1. rewrite forallb_forall in Hf.
  rewrite powmod_spec in H1 by lia.
  apply (lucas n a fs); auto.
  intros f Hin. specialize (Hf f Hin). apply negb_true_iff, Z.eqb_neq in Hf.
  rewrite Forall_forall in Hprime. pose proof (prime_ge_2 f (Hprime f Hin)).
  rewrite powmod_spec in Hf; [exact Hf|lia|]. apply Z.div_pos; lia.
Qed.

(** * Large numbers: the quotients of the reductions are given as hints, so that checking
    takes multiplications only; powers are shared along a tree of factors. *)
Definition mulq (n x y q : Z) : option Z :=
  let c := x * y - q * n in if (0 <=? c) && (c <? n) then Some c else None.
Lemma mulq_spec n x y q c : mulq n x y q = Some c -> 0 <= c < n /\ c = x * y mod n.
Proof.
  unfold mulq. destruct (_ && _) eqn:E; [|discriminate]. intros [= <-]. apply andb_prop in E as [E1 E2].
  apply Z.leb_le in E1. apply Z.ltb_lt in E2. split; [lia|].
  apply Z.mod_unique_pos with (q := q); lia.
Qed.

Fixpoint powq (n a : Z) (e : positive) (h : list Z) : option (Z * list Z) :=
  match e with
  | xH => Some (a, h)
  | xO e' =>
    match powq n a e' h with
    | Some (b, q :: h') => match mulq n b b q with Some c => Some (c, h') | None => None end
    | _ => None
    end
  | xI e' =>
    match powq n a e' h with
    | Some (b, q :: q' :: h') =>
      match mulq n b b q with
      | Some c => match mulq n c a q' with Some c' => Some (c', h') | None => None end
      | None => None
      end
    | _ => None
    end
  end.

Lemma powq_spec n a : 0 <= a < n -> forall e h c h',
  powq n a e h = Some (c, h') -> 0 <= c < n /\ c = a ^ Z.pos e mod n.
Proof.
  intros Ha. induction e as [e IH|e IH|]; intros h c h' H; cbn [powq] in H.
  - destruct (powq n a e h) as [[b [|q [|q' h0]]]|] eqn:E; try discriminate.
    destruct (mulq n b b q) as [c0|] eqn:E1; [|discriminate].
    destruct (mulq n c0 a q') as [c1|] eqn:E2; [|discriminate]. injection H as <- <-.
    destruct (IH _ _ _ E) as [_ Hb]. apply mulq_spec in E1 as [_ E1]. apply mulq_spec in E2 as [Hc E2].
    split; [exact Hc|]. rewrite E2, E1, Hb, Pos2Z.inj_xI, Z.pow_add_r, Z.pow_1_r by lia.
    replace (2 * Z.pos e) with (Z.pos e + Z.pos e) by lia. rewrite Z.pow_add_r by lia.
    rewrite <- Z.mul_mod by lia. rewrite Z.mul_mod_idemp_l by lia. reflexivity.
  - destruct (powq n a e h) as [[b [|q h0]]|] eqn:E; try discriminate.
    destruct (mulq n b b q) as [c0|] eqn:E1; [|discriminate]. injection H as <- <-.
    destruct (IH _ _ _ E) as [_ Hb]. apply mulq_spec in E1 as [Hc E1]. split; [exact Hc|].
    rewrite E1, Hb, Pos2Z.inj_xO. replace (2 * Z.pos e) with (Z.pos e + Z.pos e) by lia.
    rewrite Z.pow_add_r by lia. rewrite <- Z.mul_mod by lia. reflexivity.
  - injection H as <- <-. split; [exact Ha|]. rewrite Z.pow_1_r, Z.mod_small; auto.
Qed.

Inductive ftree := Leaf (q : positive) | Node (l r : ftree).
Fixpoint tprod (t : ftree) : positive :=
  match t with Leaf q => q | Node l r => (tprod l * tprod r)%positive end.
Fixpoint leaves (t : ftree) : list Z :=
  match t with Leaf q => [Z.pos q] | Node l r => leaves l ++ leaves r end.

(** With [c = a ^ ((n - 1) / tprod t)], check [a ^ ((n - 1) / q) <> 1] for the leaves. *)
Fixpoint tcheck (n : Z) (t : ftree) (c : Z) (h : list Z) : option (list Z) :=
  match t with
  | Leaf q => if c =? 1 then None else Some h
  | Node l r =>
    match powq n c (tprod r) h with
    | Some (cl, h1) =>
      match tcheck n l cl h1 with
      | Some h2 =>
        match powq n c (tprod l) h2 with
        | Some (cr, h3) => tcheck n r cr h3
        | None => None
        end
      | None => None
      end
    | None => None
    end
  end.

Lemma tcheck_spec n : forall t c h h', 0 <= c < n -> tcheck n t c h = Some h' ->
  forall q, In q (leaves t) -> exists k, 0 <= k /\ k * q = Z.pos (tprod t) /\ c ^ k mod n <> 1.
Proof.
  induction t as [q|l IHl r IHr]; intros c h h' Hc H f Hf; cbn [tcheck leaves tprod] in *.
  - destruct Hf as [<-|[]]. destruct (c =? 1) eqn:E; [discriminate|]. apply Z.eqb_neq in E.
    exists 1. rewrite Z.pow_1_r, Z.mod_small by lia. repeat split; lia.
  - destruct (powq n c (tprod r) h) as [[cl h1]|] eqn:E1; [|discriminate].
    destruct (tcheck n l cl h1) as [h2|] eqn:E2; [|discriminate].
    destruct (powq n c (tprod l) h2) as [[cr h3]|] eqn:E3; [|discriminate].
    apply powq_spec in E1 as [Hl El]; [|exact Hc]. apply powq_spec in E3 as [Hr Er]; [|exact Hc].
    apply in_app_or in Hf as [Hf|Hf].
    + destruct (IHl cl h1 h2 Hl E2 f Hf) as (k & Hk & Hp & Hne). exists (Z.pos (tprod r) * k).
      split; [lia|]. split; [rewrite Pos2Z.inj_mul, <- Hp; ring|].
      rewrite Z.pow_mul_r, Zpower_mod by lia. rewrite <- El. exact Hne.
    + destruct (IHr cr h3 h' Hr H f Hf) as (k & Hk & Hp & Hne). exists (Z.pos (tprod l) * k).
      split; [lia|]. split; [rewrite Pos2Z.inj_mul, <- Hp; ring|].
      rewrite Z.pow_mul_r, Zpower_mod by lia. rewrite <- Er. exact Hne.
Qed.

Definition lucas_tree_check (n a : Z) (m : positive) (t : ftree) (fs h : list Z) : bool :=
  (2 <? n) && (0 <=? a) && (a <? n) && (prod fs =? n - 1) && (Z.pos (m * tprod t) =? n - 1)
  && forallb (fun f => existsb (Z.eqb f) (leaves t)) fs
  && match powq n a m h with
     | Some (c, h1) =>
       match tcheck n t c h1 with
       | Some h2 => match powq n c (tprod t) h2 with Some (one, _) => one =? 1 | None => false end
       | None => false
       end
     | None => false
     end.

Lemma lucas_tree_prime n a m t fs h :
  Forall prime fs -> lucas_tree_check n a m t fs h = true -> prime n.
Proof.
  unfold lucas_tree_check. rewrite !andb_true_iff. intros Hprime ((((((Hn & Ha) & Han) & Hprod) & Hm) & Hl) & H).
  apply Z.ltb_lt in Hn, Han. apply Z.leb_le in Ha. apply Z.eqb_eq in Hprod, Hm. rewrite forallb_forall in Hl.
  destruct (powq n a m h) as [[c h1]|] eqn:E1; [|discriminate].
  destruct (tcheck n t c h1) as [h2|] eqn:E2; [|discriminate].
  destruct (powq n c (tprod t) h2) as [[one h3]|] eqn:E3; [|discriminate]. apply Z.eqb_eq in H. subst one.
  apply powq_spec in E1 as [Hc E1]; [|lia]. apply powq_spec in E3 as [_ E3]; [|exact Hc].
  rewrite Pos2Z.inj_mul in Hm. apply (lucas n a fs); auto.
  - rewrite <- Hm, Z.pow_mul_r, Zpower_mod, <- E1 by lia. auto.
  - intros f Hin. specialize (Hl f Hin). apply existsb_exists in Hl as (f' & Hf & He). apply Z.eqb_eq in He. subst f'.
    destruct (tcheck_spec n t c h1 h2 Hc E2 f Hf) as (k & Hk & Hp & Hne).
    rewrite Forall_forall in Hprime. pose proof (prime_ge_2 f (Hprime f Hin)).
    replace ((n - 1) / f) with (Z.pos m * k).
    + rewrite Z.pow_mul_r, Zpower_mod, <- E1 by lia. exact Hne.
    + rewrite <- Hm, <- Hp. replace (Z.pos m * (k * f)) with (Z.pos m * k * f) by ring. rewrite Z.div_mul; lia.
Qed.

Definition r_modulus : Z := 0x73EDA753299D7D483339D80809A1D80553BDA402FFFE5BFEFFFFFFFF00000001.
Definition r_factors : list Z :=
  repeat 2 32 ++ [3; 11; 19; 10177; 125527; 859267; 906349; 906349; 2508409; 2529403; 52437899; 254760293; 254760293].
Definition r_tree : ftree :=
  (Node (Node (Node (Leaf 125527) (Leaf 859267)) (Node (Leaf 906349) (Leaf 2508409))) (Node (Node (Leaf 2529403) (Node (Node (Leaf 19) (Node (Node (Leaf 2) (Leaf 3)) (Leaf 11))) (Leaf 10177))) (Node (Leaf 52437899) (Leaf 254760293)))).
Definition r_hints : list Z :=
  [0x0;
   0x0;
   0x0;
   0x0;
   0x0;
   0x0;
   0x0;
   0x227bb42183;
   0x4;
   0x37e15287231ae36a1f4bd86afacd40cd8ab2b736ed33606528c43d598d103319;
   0x485c214a3fd5c646e7e93943cc79ad01ba22ceb7ec30c75f05971b9c7108c54e;
   0x551bdba6fd0977459374c15f9e583e478617b150c8fb3f09ca79645778a519f;
   0x31366d50e56a9eea7adf9611d63f16064f138a3238c0db62587d8f39da64aaf;
   0x58da841b84c97cab3f28701573ccebd4d4a8f2004399faf44dd807e3642c3db5;
   0xd64f4200e6d35c044da5867fc50514c6400473562387fddd911bf05950e57ae;
   0xb59a9274333784e4b49b80b56866b4aea7520ec0aa75580d9d73ec993b99f4;
   0x9d86ea7b57cf25dff6681fe6701a384be6a45ad44ef0b94c14f01df374dc7a;
   0xdc5307b332af52710036ca28797b2ceae024a8f35e7ee70ae1df12c448af6b;
   0x2;
   0x525089c7afc2ffd9d6b7f7429ad39e517cb5e94ff21ebaa8217afe8fcb1b1bf6;
   0x1f8d412897a3bcdb2aac49e93e9583808047c7515937146f0be684a80fe123d2;
   0x2d4d05bee348ef291c5f5eb740b979eaa6adaa2f35ff12db259c054a4c96d74f;
   0x85bfeaf0caff45af4cff7be9e9f2c64fc3c4aed11090a71933d31b9e4577a6d;
   0x5d4f897515e86b4cd447da6e8a5a2cda97f236b46b08180534da4c6ec46f6280;
   0x2a6d0dc800160d65d54dae05727f8822e19790b2f96e6839fbcc5847fc8ef491;
   0x51405798f9e8d8c9d77fb73ecaca7ea003f1fa053c00cf99ca544a6d7ec29b5;
   0x1546ed3f9e49f1160833e251e9367dedbeba1afb18819ce130023274d1b5f1bd;
   0x600204e0b262b3c9d67d81c93d734dd79321a81082ae4cd34ae7fd8aa2775a95;
   0x3d8290f23e1dd3c76a2af8c6409fce56aad5c8d92b5d6b473694b9c6689aa58;
   0x3c65512709fac3ec9bb3664809b18e660de61abf475a228b4693ed54a6d2bcd8;
   0x2ce12cef163aa183a42d6d04daf2acfcda9f9e81b2b2e8302dd87d5b93d010c7;
   0x2d44fc828e71ea1974b3f886d092272069009dc037d7c899668f5c5a522b9aa5;
   0x15a08323936631f4df31dab06badea088e4c391d4dec0baae82a46783dfbd08d;
   0x526d67398d8280afcc85614bc4051211017f6ac2ffffcf8c2d727f28382341ac;
   0x28f6325784c1162dd649b9380e71c606ecf0c7f0ffe30f180b220a37a37510b9;
   0x6a6b106ab3183ed470ab482bcc745a7efed18e6b66b5ad0df7cb33dc64a57126;
   0x14d82c80395992622d5e0b3eccb0efebb5d8162515ce85119a400a5610f42476;
   0x58d5901a3f812c0ca7b01d1871bc7b1154d6eaa3e06aac4dd78ceb81acbc66a;
   0x3a53aa469f51ecbf3ed5ee434ed1c11db541222dfbc9e934c154627b34e84be0;
   0x6bbca8ca03b5d632d978035f161937cabe41e85f59c871998f74d8961934f2d;
   0x898176869c3dbb2100cd3a7d28bbde7056a5a5f7898a1b84c0cc153a22b858b;
   0x1a1bee5f384936b6107d67b342e0d83e4482f6535ccf8fb424b50bf4e93ecd8b;
   0xb480769c3f42153ea3655655699257b6ecebd3c60c2665628957589d4b7b33;
   0x4028844c3262072edb8d1c52a865929308cb8a35a18e31b203b4b03441ee81e;
   0x4726896f5bfa2c6d761a94848ee1fb84f0ee4b7c66e4f555aa748326c7782e5;
   0x81afc2a5196a00e740f77f427ecbb339ec99be69dd0bc58ab89fd1003d41f1;
   0x24cace6dddb3c7173fb88835693bd990850eb8523367d5f8bdff5d26bb8b90f8;
   0x1aec082c357632758a4acbc608939069a22e6a4b1cd8999dceaf5e1f22a11a2;
   0x9d9875bcd8813be7375933f749e87472c10a5bbd5340779e348ebcc62f2c727;
   0x70786236ad9482ab5dac1b729bc0151f70534a830123eb22bf5ea3ea88d15a13;
   0x1f76c851a34ff1d3ef8f9c82c7e370cafce31acca0262662c01a2d8510608a3c;
   0x5;
   0x1144a12ceed8e55a4d5c83890e33868bf24e80111c27707dd1274749ee58c4e;
   0xa2ab4e20d5c36d5aac3070bd80ae4ba83822c8f5698d5c75b4cacf6c5f8ddf8;
   0x476b770bc4624f8b412f1b6e6511b6202233484d0e71fc9609bbf581c63efeaa;
   0x423c8f27d2b858fdd1a8048f2ab41ec7852bebdcdf9adeb15830d24a3301f88d;
   0x2f655d8bd1eea628551ba4450239b10383804232cd00856fc6ae359d029972f9;
   0x378251e17e5470aedf2ca18a784b92e5c0e0e9a2b0564407fd371fb8f2b3f438;
   0x5f3b348f2f3ddbed02224a8ab7ab12df01514e9361fd4a6e1f2e9f4af4331886;
   0x1bc9c249d1097d289a2434848a1ce4fd6eea978723dc8214e39e75c703ce325b;
   0x28c97dbe08cc635828370bad9bc03f15ddaba6c78729450a015e1722aa3b2813;
   0x5c060a86a89d14114c707bbe177a916f0d0fbb080e8ba7858dc32e8f094c6cc4;
   0x47d239c4d16dab16cff726035a56beeec643d269f8785e076f42e4ff122b6ea;
   0x543fc1732812c55184fbd57a9ef3593605d55624c651709f8305ac4b56094c98;
   0x16f828c6d97003d24dc026bb7242e406e33d210cf668ed0b259e1a53fed277b;
   0x385bfa801c9311f2872f04ec46e3808bf4de50f4e05427776ef315a5cf92cb24;
   0xb7a1f07d4e2b7f4ead0cba173837d2c88b679e815cb795ba4e548c5a44cfb89;
   0x465ee8b2e2ef354c64c821428bdd4d5dddf468f886608fbceeceaeb5c09b548f;
   0x690f7c167037c610af840924e251630e980981edf8f3221e28c2a71e026df84;
   0xb7979417bbf383df7c7a208553ed64d44d1ab7b8808e81ddb661c1524495584;
   0x4e22d781c269387aaa58d47957e2a252d7e14da24333a35186802f8fe69699;
   0xc21092637c27fd52f4516fc6cd57cd686f3bd4ddf469fb8e7c0b18bf71a211a;
   0xe89bda514df228b2d6494dd3ede6af27fde3ebef0dfe87bcd309a4e2279741;
   0x2d6a867ca17070e1ef53fe0147164bd7031168d1193682756369a67206e6ea;
   0xdaa29e4a93197eb57f41b1be7c540031260aafb1680182125e408abe00e3c5c;
   0x10e938206cc80b6faec8b3093b89acb16fa0d47aebfbd4b23601ff45f0a06c0;
   0x164cb1f1a940fe183cdac279428c93eca3eccf1afb375cf13db3ed673c96522f;
   0x6f4c4790b260ffc03d59aeaee41ca5bca937f516d5bcdd7b689b3480c0958920;
   0x549c8816553165884cc781d2ee799b497f6d0ccc37d9b17339dc1aac35ec8e40;
   0x37619c5001ac6dc41df4b8be6748795b8d484735b633b1ef5b40af6f1e908a12;
   0x3c64402ed2e72a7a64c072cfbd453db751953bd66155ba397d22f2537d34cccf;
   0x151ed7ef5609d4903fb3dab7168d108a9f9bf5c34e0b1f6ad1727f6f5ad5f35;
   0x86a25e75c0b6cf00bb6e43a4304b42a245bef36987a77192a9204afd75e6e6e;
   0x1a1370ee76fb87a88011c1434380d5674af5f4a0da45c55598476da8995cf9ca;
   0x25efb769699c6d7deaaf1a9c9af1cbeb12a36e14225f3b80e6c01d46dab39d41;
   0x1c499a1dcfba10a64f97e16a858dfd8e231b89fa7a57ec402e858002d2e502b2;
   0x46de6d7abc47dc8acb660996352e2b419218b76f36c6eb72469b260abe70db3;
   0x1f0820420d421ff9c6285ee300607bf381edba87a00c019af8aa35d7dad2ee78;
   0x76c7a4f5a5adb9c394aa32a4b182323280dac3b0534104272cac9726ceffe7c;
   0x1a6c59643021075e66a0ef2b6492b335d635f7513e530a30e05eb87bc99ab672;
   0x11cafa6266f7b8f775fd8bf380db97219c7a3395c364fa59f9d644583482af8;
   0x36a35bdc17c2485f96bbde8a724e57ba6c119a7c7bf55e97766ba50cb52bb30c;
   0xc76fe487ab0e175d57f401dc3d35395c1776c31e5eb81d67cf03061b1dfb5c8;
   0x47c14e28ed2ba5db69e7c482423d3147e5c164ac499cd27392f6492ceac89265;
   0x5faa56e1b8ae5bdee80466ba9958b611d1faefe8afef81f039004eda214ccfdc;
   0x117d2e5f8cc64ce468d80fe345d5739b8b66a472a3f303299d9e0d6290c76cae;
   0x5c2625af0ed51c9917e06eff3e06eb11ddcfec95dc3e9f48b272b55b9e6f4265;
   0x361af8d9f9f4f1409612f832c9682ed028c669ebfad89c600ca65a95664ee65b;
   0xd0995b39ffc7f479937ce5e878f230147a32dc0e9e346cc04a59d1de2f6976d;
   0x5e7f37e3439474003a69a7afae0bdff4049cbe1170275d7652b604d59ddd2416;
   0x30670b88f798d6f7a4ef13cfd2c6da2b6555fdddfaf863e76c175f045620917d;
   0x67e0076e1b5871031285b22d64a546ad4b1b274767870f19ecedd9447ce4501;
   0x31957ecf915e263666b2e1fa221abc9f9c61caa8b384078b071bdadba9a6d29c;
   0x31d4bb95ef39120b1904f7def684ca91ddfb1b113da4fe0c9583f06e19787b83;
   0x1f00a3bef6fbdc4b58a9e2678fa147ef90c377722509f1e0668bc27b3bb90751;
   0x27fdd624f90c1a40aff0490b4d4c5d71a12a238b6f9351e315bcd721d714fd7e;
   0x391225e862fc28af3bb670bc8771ef75a2dd4569a33dc84406f7f672ab5ee58;
   0x33eae17d5daa39b2c8148574d3877005c18edd09f84a5a13c13a63f3e4901589;
   0x8c98745ac79db6bcde1940b1baef640ab3c0bb384d69ce1d06fc257ab3871b0;
   0x23e64186053158a7b7b4c997939d7e02b61f52f5cdd6b871f9092dd22777bccf;
   0x378611988ac6e4d94f57a159d1ab055798ac1ebd0d5b48eaeb780e41366d7e8b;
   0x1d94c7a91bbe3745c0fcbca7fe9feb05141f35e26ef843ec7cac015948500595;
   0x2b41cb7e750a8f13a9a7a18837ef61f9299d5512a1d2a520effa747d57efa345;
   0x2a5a4216dfe9f062c8f5071b25ff75b64ff54549f6766f5a3c0f307da13bc157;
   0x49352809f907d509ae1c45b583d5344a932a100d73bbaf795de11e66385edc0;
   0xd467b7db3397c31deed26483f9de45d17798b4dc93822b4b43c635a4111f9a5;
   0x3fc0d01b55a67ef7bbfeab80dfeeb389d0b0a820f9c0e8bc4e4fd11f884efbf3;
   0x6c1a77dbba637bd2461683b586badafc8f4bd2333feb74c49b56fce6f472b8f;
   0x5c5f7345bf31118bfe60b24c05fac2c307727f0c44b3eb11afac904c569dc5f;
   0x176637c50a42003353b69f8513a6f9485d5a2364f331a4efee7810e85134e03;
   0x128017ae7e339b06c3d7033a2b5770a8578759c57e3b2fe7c274b0814ab44d10;
   0x3718c643160f2c3cb99b12443ef9f92c7164d2c6196b148af12ab8b2cf580b6b;
   0x3882e3e7042a03956e47eaecc0309c40e17d58817baf47c655690b5801bb27eb;
   0x88a61d0ac0d86d7f0031cf544727ecd42b77e5b772923b66446fb4682f17b25;
   0x411629093f9c515711fde6a1a33d134f0eabb4300ac3a07cc2d84587e9b31cee;
   0x8c4dbc524407188618f2c140c2d6c2ccf88bfeaa6344f00642eb1f25b5f284f;
   0xdd5340dc72d868471c48efdb285e77c7c12dcffa1c618f4468b33343d166ed4;
   0x300d1f341c13d4c5e40b0dfbb4b45ecf07f3017767f6fa485e91d7614b4d3e48;
   0x32d0b694277489d7592bbd81e0f3907a3208ba88f2d3b0adf9f51141c616ebae;
   0x9d670182563cf0dcee67f077b20078f0fad3d8b103a3b164298dfce6c2388;
   0x58a71f7f6901e2d0f9b56ff9cefd16b41e55f61a0d6b7e50799e239c3e18002;
   0x4a68c1731a469d7c72be66e90883a628ee527012badc850f5e98c43270bba017;
   0x35217a03c082048550ced42c5eb7ba62fd3e59d321acbfe23b635ca05c515e6a;
   0x3837e2333879bc483b391143b8595d2b1a481d9a8606bc59e6d3ca293d9074f7;
   0x5ce712477f125760a9b788677b5d7d2df42e7bef45e8979d9072046547d8aa7;
   0xaaa8648bdee465e7c55a834862bd079aa85426ac57b376f3d49d6681985168b;
   0x1b7268f7c52c090e807b618082ffd65ef8535f2b29fc35b91d415b4da0024c4d;
   0x4c8f2c6e9d3a5f1f7b08dbdab3aba81264c00a968906565a62bc174f0ba5be9;
   0x2c95d4c53e4994744f32752d7b7ae2e137d4e00567487d2b56ed4805accf82b2;
   0x1d8a63020ef52f045a4cb7fd2754ed5988be02aca1de43af34a28a411e46d4c1;
   0x3d6577fb7f87fda35855549c022d22c1016a552f755d174634a45f8cf959f46;
   0x62280c0fea8926231e9ebd36ec966a1cbbde03ef9240009d99e76cf9e08dd4de;
   0xfd0667d0b8578a80b16cf536d22974da0e666cb4e3adb5088ad1978f7fa8b5a;
   0x22aac57c8ac8e77bf99cb28eb5fb82764c83056b212eacd5b4d6036ab5c9c986;
   0x2c6e61170e2a81ceac9cc112db2a92018c6a98a4115c2d9a63642e5a6b1e090a;
   0x315bc41ee971195df7a1a88c64902f14efafa5ce9e57b54aba7e640e0d14c2de;
   0x7d54c5b3a35f49ed9abaa78dbf0f2692551f7d7e83dcd474ca7a55e0181868c;
   0x154a135eecac95d70a57006db330c92edd622723e22083defeb6d40597d35058;
   0x5201760cdcf0bb2f41321e0970268c8b272a53e5dfc631a1b2482ac0c70d5da7;
   0x1c0de63e7716ed58176989faf4fa4f03f7b29db6d02be7386f35f5bbba591cad;
   0x498e191f0d9b91e0c5ce279252da023c101a5253aa41db243d9ee6eed2ea04b9;
   0x7c758125b09b25263ce87872f2eb8b13878f01c1546ad8e156d4c6772dff7d;
   0x3da1afd1f4e1ad7de6cd1d254a61bee4635812920ff9dc43999765d2b144f265;
   0x2a69f5a24c398c322b528313d07771cd53a551f0ce3da8301cfbcc627c9d2d95;
   0xa891fd60df9830db3f4ba31065ea8ef54156dc81a78996a2c81b7fa12afaee9;
   0x2f39a4a1fd7f2c99066b13e6689b6c4820f638b240bdecdb087c54f7f3b9a5a6;
   0x1685e342a1b72389503045b44dd67642cf8b0ec60e6d8ddebda6617310e2772;
   0x1bc32f002d12db9b01b7301e84abf6538275be69a03e9ae8607fc5c2dc95495;
   0x4342070a09630a7eed9d0b1f0c627d705c18a2f571c34eb60794b56447eb6330;
   0x3839bf666a0264f7ea4587de7d940d83059c9111a6df2c04349abe8115f;
   0x58dee816e19f431de02064d35c69548112abf08890d30e17538c224731d7098;
   0x3b807c6320582540e46c14f0d42a3243235d335f953cd7a8081c5a9b26dbc22;
   0x689f59ca603bb4e14e38162fd30a66d5dd888b2c3fda93d7cc740db7cdf5d670;
   0x2240244e48a7f775ac6a8703c14cfb63213fb09b50d28252ea58c7293ca32787;
   0x96035643fe4a11af4c0ac1a3eb9c0e4fb2d25f244dc2346d91d2b01b0a88a73;
   0xb10e5232e17855364fba561390570c8a9e6756eb8ffc95fdbf3d29cb5ff2343;
   0x1132216328f6bb9297298075a8056e6533ea44ae6eecf7884c7af1467c9c5ad;
   0x729d4252b4635623fac7e6180fdaed12ee1d61e25e410264f2d1663bfd4a1966;
   0x29be164621d0547232519fc427e6663e4bdbfbeab9edd5c0955a01fe9497d908;
   0x71ca4e5cb7fedef7942e02a7cb50d9700fbc2004f4feb93621e27543cdb53afb;
   0x36058aa544253b26c3d1a9e7a59630c9f6c305fbfa5f3a900dacc8f2c40fd0c5;
   0x16fd3d31512acd6b89868687be224ec871e27f467d7e2d6dbabe4b9a1af05c5;
   0x22a21703f5b271a04675b74a9c9a2f81d20b9bb9ec73272b81fb5c6b52976bc9;
   0x167ccef52afc2f012257086fef222ac7e69c69d522a6b5038a888996d84dc76;
   0x19da6a8a763295fd2210a67d185b7b4257474fc0733e7ac1a396c793d13adcfc;
   0x8958d2e957b2d95e1652f16b0d9f17eb48a905f25ffb02b547fffa5a9baa34f;
   0x6f18c5322b2eb49edcc4bf02d3237fd0a9e7d89decf4ea57b1e73584bbc33bf;
   0x1fa7ee62c779c4fe8896f87b677f8a479f4901a3929f30cc42a71897e9e0bfe9;
   0xd8a0d0adff7b2453cb204e610998fdac8a0eeb5bca25cabba5e25c64e464c9d;
   0xd2ec7a24179e87ae506fe7819efa51809d75cb7bcbe4982b83c85ff47b713b2;
   0x2abbc5504643cfab983b1e81a3b01876e7c79ff43d87ce27a371e7a0c39e7717;
   0x19700aa37d578887b3b95d4fa0827858e559d47d12a814a2a3c80cf90022769f;
   0x241be3f1dcef84b3c52a54072d102c3528ae5cc1b878321a3a643451e9359a68;
   0x3b8161805904c266686e6d7223173262b7edbeb6cb984e1474eccce4428470a2;
   0x116f4907e673f885809f76ebcbcce143210a6b5c7b223934037ef463744445c1;
   0x2b246ee4689bccc5e06345afd11decbd082dca96c8b237e8c2ae153f5fd6dca7;
   0x1e7f2c0e435d31c6fa4de3505969f6892ea1be0b04450756ad6f779892ea34;
   0x226e7f8c38299b3c64c892289e8c3c6323fb1703b48a793c64f96e3ebc1b346c;
   0x24688495dbd0480502c81e2116de1905382b49903739a3be83df79e46bce85f8;
   0x33a5e1891b29fe14246aaf58272cb18c915cd0fce1fa9d0cd2c6843669829b63;
   0x1c8d0ef7ecbd0e0e9fbd1f6b913408b50fa2c016610e10f2ffee4a64492ae;
   0x2d20882f0543f251476da4ecf077c9dc2468a30640e845a43ccfd1a03b89b3c;
   0x57307994ad72f1a7f88a3dcb598df04fbeb3f708a93475fa9564130268c7d87d;
   0x19d38537053d684a9cca8665a7ff260b862a1a977badccc098cca5af9549c3d;
   0x11f37ad02cf2df4988cd880b16b8cb1707aa983e8a2968f036362ce167d92d00;
   0x16b764432a528273e5e89d7bb28f00901808f114dcbad5d0c1bf00289ba60d56;
   0x318f0607874912102c0ac90041fc720688e401c9cabbbe79f4ec33ac68608061;
   0x568a84863df593ba8f000f22f193647fc7e4d0b1a9ca95e28787d4ba9d3954c;
   0x2a0b5dcf72eda3960a144fb1ab47d4ef06537adc949a1ad7f8ca9f65c7ac4157;
   0x1959b1790d695fc483d7a1df4f92558cbeeedf03bb8e71d4ed6db6ae2f213c68;
   0x3891b3af3fc74a630b0abcfd52390e84905e73b14a96e051aa6a316e98e427d9;
   0x4ce58c3a7570342ef5ff79893652e875f79d3ff2d474d82c06f83409d2b45ba7;
   0x31795fddb4224cc6510f626058c8e0c49f8c2981ec3354be2e9b99b938f308a5;
   0x1cb0da7ae37e3b18d5479205623b56aa607522a7ccdad392678e559cc4b5accb;
   0x138bad904c5621bb24cf3079e8b68867f1e28edccfd72fbe184063e71791e72a;
   0x2ce4f9628925ca049d2cb2ff237b4bc271ac5d6a02a9a7974ac3cce905415a2f;
   0x1d5e3cc175d6b744b1d3ef8c0b6a93c336f57d1061a215d6e37832d362e73fb6;
   0x1e20d7fc902044d5c94f8f609508b76be752eb8718480092cc05dbacbfc03271;
   0x70272caccc554c47149f9f7e9b63788fd9569aec0b648fbaec767da5a4b499a;
   0x68928f9593383e4ced7ad298a12284f8edf70adaddc5ec9219def4306029fe73;
   0x29c82047941245570ddef6063c44f4f4eb1020d02955e8df8c12f80b5e93a15f;
   0x10ba611deb00d4d0cebea58d33b22ce6c5c12405891f7be4a1189891b250bb14;
   0x1abe1596ccca5c873f43df35b50cce53c2ae86eb5abfa3e97cf08ab8b3b1d3d9;
   0xad9298ae879e556bc10466cb9f790342f34434ae9a8f0d7343c05b9a26d594a;
   0x387b61b599f1c758566f07b3e2b6967e48109e59d8c0042456b742eedc4f08;
   0x2931705a0e7e89e4ddb3c96ec41e540c09ee152eb83b4eb362391ff44ab410c3;
   0xe949995a6083e55d8a282e2c7669acfcb5aedf0ae94d48949ff5bcef9b4ba99;
   0x9b0517cb6c81954e30394285905d45d1318ea8700cb0d10a91e3b893b0d3978;
   0x3153bd3d019471ee1e6f57a78aca60c659c456f3d2f36260c0d979f021541e1d;
   0x1fd1ce289e343d5ea280c30ad91be7694dbf3e68d20e88750f98e0695759a886;
   0x3a6fcb3b7467e3f49ce092064f9ab3aa0e54e6dbca5c9bd3d7837a2b44e2a30;
   0x73cdd24c32321580ef2580c3fda95d607b29e49dac81033f0558d5803e4198;
   0x240b1da2a08cc436900e9a320d7ee26c956f1718c62912312f5724a1c7b2edfb;
   0x66e42cc995b69aa558289f4a800ec45bb3fb525e4a42c7af7d37ab786709b51f;
   0x114ec65f915365ac17ea36f9fc216f0396bede4163a4bf2dc7ce9f7a068c386e;
   0x38cd1c43964f4aa258bc8cec6cc4751708b5da238de40549fdbeee9e4e180313;
   0x17e49cf04172801b49619acb2f6969e7a8451b0b5e4d1df47f38d569aed6ffee;
   0x21e9e3c84a992eaf6f3c59f81f837e07e254199279413506ae9c6a681775c713;
   0x573267029be6126452af41f90bcabdfe547cd710c0db9f30381cf6f0cf3348a9;
   0x11b11a301ff7bd3a3c4c9a70287117fa4e6930f3221731662f0a0bf29c6a4382;
   0x6a9045d9be06e7af3897450dfb65b05ed87903ae30cbe405a3b0f87614bef92;
   0x47d78fd13bc931af07729c7f3b3f10a96ec39732b84ffa9cab4faae40fa4b4d;
   0x344a0f4ae3caafdbd24871f5720b4dc06e12c188f133facff4fcd760decee706;
   0x3e3da9b5a860ced3c22041fdc8b5348996d6425a42dde7c256b076114bbd1cf8;
   0xc942bd7e0d0f9a3c9ff2b62852e2b9b56a20c226e28b1e6f30d8f1aac079629;
   0x3b6706db6afea2e0da7ccfd8b27411e5bb4a31f477adb7255c6dcab5091e26d;
   0xea6c701971cb9386ca7b341e16c6d4a5a6c9542c42519bb79f09c3f128dfa27;
   0xd2968582b595d591ca6ef20ad2e82450fcf7813fd9067616a3807371731f2f;
   0x3d0e33fd48b9013e9240c035fb99426863616cc125dc05049cfc4c88e6a9a42;
   0x11f144b06d3434416d815e8ae7df2898b1376d0f02bc3f33fb69119155ca7318;
   0x587408a69e4868f097c1abecba99cbfa4f24763e0351875c8fa1b67386c1e3a6;
   0x31edb7a04e837636c725e8c302a2bb3d0ed08219a8e28bc81e3a274e52c1b73;
   0x2607d6ed518c2686b1ab5dfdcb171b1c55849f79bce853143053346f0239036c;
   0x1144d837f01f6479d50b95e1b5ce5d4125d157045fa2607fafa90657f5561723;
   0x4dfff05dd1dd6c31fce6bea4c7f3938e4de92441b665004bc31eab19867119d;
   0x4c6c2c6fd0fea9376bf17996798ebd9e84a9709f9b06c2e1faafada05867c7e4;
   0x1fc859b07121327bdf5aaec422dfce1f06122f8f8062c8b5077b9031e929d16e;
   0x46f720763f1b06a731edb6bdfc0e400afb8140a38b8baea7dc355ee188dbe995;
   0x2cf9b7ea5b3ff5f97ca35dfc8819119b8a85f2a29bf2c6d9438df2c5374e01f;
   0x35c03bc31213c93e4bd1beda0468009c933eacf94bd2dabe25b7bb7308207b50;
   0x3600f1cd66c899afe756a95902ae2443ff447a0be2ec104b3477153a31328990;
   0x67dc39519946f1f07e97ce66594c38cb43c8a96f4714f62f2ed6e7d45b70fa2;
   0x2e32ed3e56c2c0d9e310f854598d46928522822814726faf5c347ebbc693acff;
   0x18cd84b52489e4a836969605be8904fd02c5b7a9fc7ad057db06c463dfe9ab;
   0x12dcbff5041181bd58e1376a0d52e48a6be19f2f4ca28146ce894660edf8e314;
   0x629098eaa62dcbe89e098d12384bc286db21567cfb26ef13a58a557f8b48500;
   0x55c6aea23ad7f06c55bf037377ef5ed40564bc64bf22af11488b0b8abd38f387;
   0x8d7f28be2cde731772769d0b946be7afbbd836c37ea03d4175c33b5a1b2bb39;
   0x9b7870c4b6210a7cf404477ffeec3f87fd401070310346a5493994dbfa8f784;
   0xf56c46ef50043eb5267f3b25f4d7f97250d2155bc183a45c2d57ed55f439284;
   0x6ed0fe77ac7f4650fe435efd11110c54362540f1aebb22a7d19878b918deaf99;
   0x9cc749bc661551d1062ffa1b7927cc1154fa1960ac29c0180c141cd97039b7;
   0x13f94e2139d244c179064188765620651a580f3f8df98aa567ee5d78b4942fe7;
   0x34c7006453ea21673ce422571f995b68dbf947a89f698d7ff94e7b655d82f767;
   0x126182ecd08a8bdfb2a9216b0433b06564015ee8c67e6515b3201961206fa1a0;
   0x55cdc9e7df6ec48e1d435d2418f873177b73ecc5997fb4688ba739c88b0f0e4;
   0xf09ef53921aacc7342e733f4f31691e45bbb3fe01b8fa12ff130ea781b5679;
   0x5b71dafd87f918fc06f50c3950f32c376b4a926457a2e3d68be66979d5af5ca5;
   0x104c1de29fda65840083849fd5d4b0ea6cd5b1fe9ad6c9884979ce057c1d15e5;
   0xeae3de1870fedfe517fe7514a978729fed2d5df95fbbf0aade257ae5587c245;
   0x11aa15a04a512473c47325399ac978690a0ed857749ae5ff623f301ea4f624f6;
   0xe845d02c1ffa4d3449e8e11117a0f4666da1751f61c25127d444eefff925210;
   0x2ed65c8ef189f371c13573a5fe8fdf9e5af8dfdd97eed1bab09a3dcd37072bf6;
   0x385e86f63b98582cc4ff4c9f678f39428a39744380017d54382fe9f738dc5d2;
   0x6375f83fe5327006721a21243acab17f72c0390715fc81a6730f6b201c7d00cb;
   0x209501aa63f7c2d381314fad1e1e46699652272b890a175ca32afeba509da414;
   0xc360159a3cd9ffaf1b7cf6d88c95e54d5ad4bc6a9cf6a27c67eab1ea2f399e;
   0x10808693c32d7c08ad45d38f1e5515861f03d3b2adab8ec00dffe6b9de35204e;
   0x41a6c70e9f7b69abe178a39b213e471ef7eb1b63da216f0835a6ac01cc6f3dce;
   0x1050400462ab6f93c86d8058fae5fc31d04a7b96cf1c5af87ba4f62f795875fc;
   0x710a8cf967b998b41cdcc50a6267591786b2409a2d2a29e36f6bf5740a5e22b2;
   0x558517f521b260fde35327a83b8ebc193732e3142a07f12058d0a3b8d9d3446;
   0x736de044320164eb15be175913ad300a9f78cb06d7a2363de61b06b848abb9b;
   0x15eb7269b61a56bf9e8939f0c7eff5619e1bbf7a1fa508a629a623311d6f9594;
   0xfc37aa8e4aa6d7532ff2520ccd0ebc30b622885639155e80bd623a3a3f3a5cf;
   0x100488749dd9c9f31b9e68d0e3181e13da2100acf4d4add5cc272da420250c9f;
   0x15b29100eb1d1cc7146ab317d96f0020fb332c87acc71b06c89043ce1bc1099f;
   0x8a17922eda471f2bd51edd05dcdf12b9d5de0e91277c586f02bad49d9bf5359;
   0xb21b9980bf1e49047da9634a446a40e0fc3994a141cda282af5e90725b3c340;
   0x74c4051a12929080f1a899d797c79061f53be141c852156abac193b0ffbb3;
   0x182fed5293a11952c7cc5d5eaad88eb365f0265a1749b5ebaa9c023dc54c1eb1;
   0x63f3edb09bd2aef66103716ba625d7ea7d5a5c7e3329a22fa07541c1a578c17f;
   0x2c44295015f51ef754c8886b78433f8c5ad5abdfcf3d5ed743227227fd3ffe9f;
   0x9b25f6ebda4bf4a5b1a6c65098666c672c193e13ad4481e9abb7f38ab31711d;
   0x3895c90ee695d6b61ba011759a3567d6d77d72c8f4e309322bacc8f91fa5717f;
   0x151d99f27b2e7b31fd79432aa88af0f981f8cfac9bc7a9ea6fd9c5c9d8c0da0;
   0x171e76d75e76df5b4086655faa64fe4f9f03f2ab33691eaae5a4a0a09e7a7f9;
   0x61406a918a80416aaf7987f8ff00917744b20dbc2ad0148a62ab2554d1d670cc;
   0x6993b46a99d7a331f61f9fb47fbec3ae64ce7d754fb4dbec04a76f2be9557ee7;
   0xc58e4ef337a00ebaca0742801e2dddeef28e08f1175de96144455a967fe5e90;
   0x39ec54ec3c41803adaacc46130a147ff380143b2e7e4b98edecffb35c29b8ff9;
   0x1f1837ab68ce49bd89248b25b004572d450784160d500a42c479233a0c99193e;
   0xd081ea05bc90c4a13695f0a4c7a369bbac0fa4948a40d2ec56087b0412e9304;
   0x2c64dfb04a6082179b320957dd183c6d5f23c573890007e13d3c0a0d0485f832;
   0x8fcbd717e5618c886ad8e9bdfad71e85ee6be9a13670208ff135439da187808;
   0x5acb7db8b12bfa711da86cff9d9909bc465e4251185555f740342d22f829a473;
   0x5c51f0bcaa25335f8783b3c03e4537b9f4298068590e6260353e39a1da77690f;
   0x10ffbcfc09f5111e32624b7586d23976cf7ae1bec6ed813611fbb168ddaa2906;
   0x43cf4abf43b3686a00f3bc3be7271c7b1c137a4e1c8fc594eef72de743a47dda;
   0x727b43d63fd5dc696437f3b464bdca098b6ac39356ca07e5554ef850bc9a558f;
   0x148d26924718d9fb05ceedabb8d11cc26f50a81225bf256cf090d85fdd041792;
   0x2105d2fab5bffc6084a7a21da4c4e4328ee2b289152ced41a6b4aeb1174d4e8;
   0x45ed6197e0c7acc09fa4451e1294c928ff1903487d4cfd526d5881d6be5555;
   0x3d7506a89a7a057bc72a324d0c0cf249611ada672dcd73251785446c5f89f9d2;
   0x40aaf917b09a8c70a952acc0f3f311e79d794a1270692181b2ef54b8c23ffb20;
   0x3300cc096d3ec3a87a8bd19da4656696550befd06ead09aeeb078f0902d6a3da;
   0xa5ad134ea88a0346deedb8b10597683b8f250f482e32f2cfec8ef5532fd1ed2;
   0x5198338168b7781d66831fe98836ce0b3e6e45b18deb6d6dfaf5f46e60b29cf;
   0xd41429496d2ea62faf4f2e9d3d163a6cf6250937259272b5a93f89cd86964a3;
   0xe546dbdbebb2626879bec02e115b3f508e8d5d6429c3a42caa08de66faceb4;
   0x6ba43a12f52abcb985bb8cd9f61d7c90cafe7853894a3c904b90e9a1c5f7e2f1;
   0x503dd91d3e5a7dbb3dc9213e4a619e68b215a3dc9999dc03185dfb4889e9721a;
   0xbb56af5db802ff06b35b65bdb36eb288a4dcc9dddca9789787d9a2070180fdb;
   0x620152890fbc2a476db67b6d7019f84fe4948440618cf9382878a7a319325998;
   0x61406a918a80416aaf7987f8ff00917744b20dbc2ad0148a62ab2554d1d670cc;
   0x6993b46a99d7a331f61f9fb47fbec3ae64ce7d754fb4dbec04a76f2be9557ee7;
   0xc58e4ef337a00ebaca0742801e2dddeef28e08f1175de96144455a967fe5e90;
   0x4b0ddb84438f01bbae58bc52a09935b1dfd1c957e21e70614488bce40eb83122;
   0x537065b64ebb509ac166587ba4b0aace8e53b049a34403fa0822fcae0320bd92;
   0x530f2ee5df84edf89629b03405729a3e2eef0a1219a6ec1de6999e857124e7ac;
   0x57e5f2413dd5c5829ae97fc563667cda90c50afaa987e4170924663ed74757d0;
   0x1ab8bbca21cbbd4f1f7dceb07e59e692449eb34d79e43b7d4101eccb24a03d29;
   0x43c91b4362bcffd3eeecb2d56b858cbd6c0315272eef00661367903a12d3071c;
   0x685bc17f7eed2d377d21ff1897934cb5de4984a7ca8335e04bb93458ec228ac;
   0xcfc95f438eae3b8deb818c0d0d9eb2b3c9cad9e09ca4ebbeb636f04ce3c0a8;
   0x55ee787c05d580a691aea4ede50a6fa05b259f3c9d96c95924a9e84b68c71684;
   0x2c8459e54c1672d056b89dcacf5fe0e3b57f3312ef41163b3e4fcb77efcb7e48;
   0x4652eaca5583df9d5c7aa7bed06baa58b4b9635d61565fa9b5c6b706376bab46;
   0x5c7ffb56af814682b914a6a27ee114585e4ebdd7a38ee4da694c023ed04bf6c;
   0x6429b533f0508aa365fda532fc3ca94c3a7dee8a331e72e62c3bd330ab992929;
   0x29f68a7a41ba9363f5d643d2ecfdb288cfb714c385562419a334ce7cff6430c8;
   0x472989cce5416096b93e3a851f3e80ffec69c56279eb8c4ffd04ffc7b069fc;
   0x13a1ebd6f120ec88296f75b264cd88346e53fd22563fb7cc97dc564172b18a08;
   0x1e89b711672cab9aabf0319d21991bd888b0b532c320381757d01f0bbd57081e;
   0x56a7647c4444cec43a774d85e6539bfc411ae0b6c425c13b584726085a0a5a74;
   0x2f6865dbd612505464dd0558e524698440e2665d06a3bae698600c392240d049;
   0x8ff71117857e5023ef85bf3b30b29fee4f460fb63b0d695b63cc7d08d5bd4f5;
   0x3a3a589b021b336d85360364694a707ccac5c8e5a25cb040d1a29b3bb2db908b;
   0x43573f80dab10ab4e68a5a2a43a2633fe26bce9701c8caced694213a78cd0a93;
   0xf7f1b5e3351309df4eac88717bb9f2b47c5dd7deb5051651edfefac85cf0db5;
   0x3d0e33fd48b9013e9240c035fb99426863616cc125dc05049cfc4c88e6a9a42;
   0x8464781ae997c83cd3842277a02ff1d74bf535c84e9def6f54830893f5b94bf;
   0x1534abbf9454cb9f3b795ee8674b7e1af9c961511ada8d8a61005d3c7fa311b7;
   0x199d6dfbb53ada4793bbdd50f8b64c836663916905836c318bafb236e48cc89c;
   0x4c9f99918a5e56803dbedabd6dfeb72edd95048acfc5843543152860941b2b9c;
   0xfb0194b9248ed0bef6ec0ad620d6f10e9ed6cfefc608279c1274a7f19332445;
   0x9b7c781745f92f274829b70a524e7cf5bbddbeb825882e8d5bc69bc93f4df9d;
   0xc94606b5ae82c1abb0b3042799660443811113cbb846fde8812bed7a1ae7e1;
   0x73b151cda8ba89739de4ece47e3af7fba3d24a2b1e36c4182c8e43cb7225349a;
   0x37bf7ecff76c62080a61eeb547b9daf72ffd2ea9e93d0d9405e4cbd0d36eb64;
   0x60e03e26f5185c7822f29f159cdf839f96a93377a036475b3526688f179d644;
   0x14e92ead1a5bbc1af53fe552daf90efbba10905c04bad01c2fb287c2a1b4ce22;
   0x1401edd129aea5463a1a8b139d2b588f7ecce50f5d86e01cb43c75a503c29d01;
   0x2d422c16ab9707e8a568a699d59a7410c71a05cd987e527aa6b2003b34353976;
   0x121a2b25444c6119d422ac9f0962382fa542781ca4589b73609c7854d08ae60d;
   0x2a5634afc503056d3ab10a3cce46db53aa2fec7042c52dba8fb52beaee6b2d4d;
   0x44ab2d95d1ef4d91fcc552937cb4b4585de543b24c10748cc6ec9e236881294d;
   0x5562b74487f049a62be7f47d7196b0475a009d8d02f67fbeba9bd7279a7aeea;
   0x194186981c8dfa0d63edf4b51d71ff69313c1d2027142d490ab0d17e33fadddc;
   0x4a553b7ced5f7897c26ac7c3547770b4942452e7ee3e6488f7339a6c8cb61803;
   0x5ef30bb16b0f875928191cbc3ac5a71dc1a2771fe7f829c3f06cc73794adbee;
   0xe80dac4a38387f6169d4927b3ac2e23ac37966f6a3b54e586b671c85fee05c8;
   0x4b0fef3244d70713025ae94341545c56b08c00f28aff6e208be80d5b3d40c672;
   0x75df32501b4ff1494ca106be645c3de0193ef6746d5b3f36ce65def284a47d;
   0x45a4a989a6cbd218952001034f9734171186d824f0e02dca8a9dddced03144d;
   0x119df7b1e496966a94f1e3f5812f92b77934f216010aba62dc150eeae050e821;
   0x7ad162fdd06d979b056eabcf68704893d67eb24b735e5bdde4b69d40015a20e;
   0x3a28bbfa2253f2fe8260b5ab65c44855ebc8d8aa64fa9f02da6bfbc3cfdd5cd0;
   0x11bb84e1ecb770e36b731303b03cdcc0bcaf422263e6a8cb99df81ed8d3c7b93;
   0x3f48bf414cd7564edca51afd1da9768fe98a6b2d2f052435ddd350c3d0d23ddb;
   0x31ecda1ed9e8b0611d6d9e2d00070c8fb860910da4b9de9a28f686e2701f2c79;
   0x7aec627dcdd9f6ffbee177fb23c6ade547fdafcea2dc1f5d8bde2e4a5c4c543;
   0x1c55f5649d2b5089b930ff6b57cbdb2862afdd6cda8af5a0776d9e41a48a5484;
   0x100710c4078eb37548310602db08bee301e9316eb1d3bff3603008f9a96e3fdb;
   0x6138ffbaf26f14088fd24e881df76c3c7a65dd27c75b79c54f62001e865cd23c;
   0x363111522f012c716ff5ef2f50cc1f5b888436254b791b9c09fbd39f1b203826;
   0x8b3e07a5fdb4f521d74cfefae0111c74bc8caf3a59389471586103291d0a537;
   0x7bb17239f5650891f31360cb1f3e6c127ba7dd9ce0bd4f9461a1c266cfe8df9;
   0xb68bc806a4e733dab8fefefd0c8e6ef0918414776ca5840c34de3776594f8fb;
   0x9b84025809ddfe46063c11c2420371a71d8bed5a5ff086e0adb435f8f085a11;
   0x7ec0145e26cdc91de3e26a5161ae7296d61f1a947dd875b0adecf8a71d651a3;
   0x3184ebb31e25f4719bf0d0f0490b81872755bf4762fe8bc56e49e7fd1ab49770;
   0x478e095b9137ece5764910733faf4a3255e7330cd92514afcff915b31875f112;
   0xf5d76cc116c0f79eaf7dd13b35bd7feceb6b43d7c7583e7cdb94a067a801b9d;
   0x8f9960441932d3f8b7127143645567210bed787495ba2566c0664eb0d27de26;
   0x45c7d086b607ba478aaf868bb5d608a01043f5d3581656445ee068c18de4c9df;
   0x43e1442462919855252b1e8cea0f9018a59fea6b2b4f6b67bcbc399cdf2cf312;
   0x1054f86e70e292bffaaf428ffccc14ce16abbb41b8d7ca3be481f20fa6c5eb39;
   0x5d24f158d7b2826206064c759fe9f9e295f46692b729c9df0fd15cafcac7f5e0;
   0x14dfdd608013b282da9932e6e33240915fc677fcedb32e6e4f18fe44c88eb999;
   0x17b05e0675c58fa9748d004bf3f61a00166433a8001f88618104dc9815974;
   0x2e67772cafa7eb7aee3abdaa58d2838fe205985a92a297bb1749b3935201e073;
   0x104542cf65129b9990552de0dfb8ae34c80ea6360f0677b2b67d530b3fe9bcec;
   0x41f0e05632a686e447a6553e3070aa8e8971c2ddeb4c757106f81dc655d7d83f;
   0x91b7bfad7bc6d1b18a65c6a7a10ecc024a4287c381e071d756fe4d0de304aa;
   0x310c7ce773bfb0f9d3eff4a8e797c1f0ceea3cd5810e20bc181b88983b949ae8;
   0x46bacf2ff4240ad0b4049a9adbbc41e3b38c2fd1af2c2df6f141877690c6312a;
   0xc01c0c12fa24c807a005a45e214840d7b0e7be53921928e113a2179166402b7;
   0x1cd5318ab9e4c57ee7a60428090d6eeb80465d368b430b172fa39e11f64f1adf;
   0x378fdbc17bfd044e58a514014405ca97068bdc54d9c1b96fa9953baf9ec24496;
   0x252024447e1d04ff471e25525845ea8fa465926491f2510a7f7d4d24f0fb5c4;
   0xde6ea03d06ef457cf08e6b1c5954e19432c90d41481ff15a138abfd0ab4345a;
   0x21fdd24c627aefb907309451877b43f6e168abdb591f97d18fa8c90fffe8c8f4;
   0x147526c9b572fc8254ccce4bff8deb03581bbc72e2d98e779022fbd3f1478b4;
   0x2c220ef51892722d16ba312965b2177b7bb2e89cff5f3e0b74603747d8db6c65;
   0x1b60d9bb011538ea273e39f0e1ce3d478a3abf17352e593811cd86fc6e6cf19e;
   0x1587dc2b5c05fabc18477ee1d1329a21ec00b8d5db80526355e4813161721f13;
   0x393cfc9f6af5f546d2efbde6c7f3b00bb29ffb7a9d024da7c47958612b7a3680;
   0xcf7688f6500e5489fd8043f1aa7580ec31d5d21f81dbcc4406c34486919ca1f;
   0x4efc076d69916b7cdaf728585e553aaac1cc7a8e2a36e37074e7ecb7b3665247;
   0x19439ae895b4a313206132f75eddb9fa20adc172145ce7590b482e7f6eef986e;
   0x9ea91b614b49bfd719b04e5311c1dc1d8014601e575d2cc1a31c2fca2fb5eef;
   0xb4dd92b87d075031053d90327071a4ac0d5166b8c3be332aa006582d5ad7125;
   0x2fbf8e533a441ddef9bc8929fa5704129e94adfcf2e1717b32ec4c673ccf1aea;
   0x22e69491d02171ae2649300c3a90e485fb036fcd885eceb92551beab1e300d0;
   0x3918c02d1aa9423ff15ad51d9206c2dd9eb76f5f919a17f24d137af2a8c924be;
   0x766780791b19d12b9f3da3db4948299fb6b7922a9b41850516f3c25bf893463;
   0x1e2e7f237f036aab72c449a5faac315d85b7e34e94180dbbd66c9133c5c64d75;
   0x164c6d3c241ffc5f86c81b6c72aab3cbefb4cd107af5ac6d42de65c68d44dd0d;
   0x3663e07df2d0f79e031cdbb3f42b48660414160af28d356a493ff6b29024cfed;
   0xdde7950654d3e4b79ae036a59526c8347266dc409e012e024eef97c7a31d195;
   0xc5bfb19433d848b1b2f23a1a51b2daedbe1ae81e1d38337c254ef5837b57bb8;
   0x445f868b0d65e8086ffe5f87222cda1fef1fa4571f0d5ba4898b8444e8cfa77b;
   0x4b69997c3db28b7959f17b01a0ab71f9d5af715ed1035be86fe5cf26189c062a;
   0x41f0e05632a686e447a6553e3070aa8e8971c2ddeb4c757106f81dc655d7d83f;
   0x620638c8fc829e4c4ec25ac9a643879261696ceb908dc5778c7f0e6fc3a3c54;
   0x216e2749f3cc520823def610d6cc7619de49134bb1342a60b5eec87c2cdaea44;
   0x1bed1b110a9f47e05c8cf88a6abe35614e2657633ec12f080d341386aa8960e6;
   0x3a2e8ecc3c1cc8417cfc9f54c969026eacc4406f4e503df36b80ae318875a23b;
   0x1e3bee96aa2bcc499449d9c2146d3a4e0b781a3157443f3c7eed3b183092dfed;
   0x3e5d7643e4b52cea5067ad4c1d22e3649d68b615397fda415166c362005b7a97;
   0x25ad2c854cba909c9b428378d8074982589a23cc61a023e2ddf6c0f08b4df20;
   0x29ebaa20bed969341d065093c004b2f40bfd4305172d687f6dd56afa4dd3fccc;
   0x3a658a693d787b731a73df6a95d6edc6c47fede0310dbd37f0c376e9d0e34079;
   0x4cab76de892c5376f62172ef6b34c7f6988fae648b421929bc31630aea69483e;
   0x292d4c7f417c6dda07092f0f16db1720d34ba1c81c9679a700d25d59c01275aa;
   0x2ffce5f63ffe2a7e32d520a06a7c4d6c6376fcea2e118ccfef9482601d0f7740;
   0x1946d1a58af6cb7d01301928345d3f7e1aaa7170972323646124e034f9badf13;
   0x392840f8fcb985b5683729e9dedfc5b253ffc705e772c953defb0cc97ebdb2ba;
   0x3145e5807b5ec705169d0f529b503f9620348cee161d2d85c8600ececb8ec1bf;
   0x5f780751d250a07e81c9921c243a00b1c43d0b089469593299c70d5ee9ffc6f9;
   0x1bbce735b7164471d2f62b002dc920b222568846f19edd26d133b1807a8a740e;
   0x4a85101b9486567e080b96be2357e50a05a7cfa970059b48806dec64d0159ef7;
   0x235b1fe08625d7288717131c458b028f5608480ec876d0c9f4feb5c9f42e3214;
   0x222f32ef5be855c7137ad54e66ddfb424a8adcbc612cdbddf2ca60ab3006c1f0;
   0x15211d7fc16f0105fc3d9e1b23cf31a29bd5c51b3e9ea616994974a61f93c24;
   0x650837486d5dd0a8e4f5198f94990a4544467c2994fed97b8d6bfcf1021375e;
   0x8f0b81c2a5209de820fd85b0c8310d58121c6764da0fef7d7453c82febf440;
   0x4abd217e3f1a8cca42147b6686a3fc2d8d96599af20bc83a99736ac675fce598;
   0x364f7ddba0647dcfe37bccd6597d27d218f13bad6078c1ccbfce5be8a1f1e6f1;
   0x72550bc4aee1a9a3b4e18bb5a1fc1f13126b78b2412edcdde4e175e29ebf198;
   0x3e9971a41bf3bac8ace4034dadaab7a0683622512fb072f6ac0c28b894b73ed5;
   0x4ba983cab94e9a29090e0356f7e549838c54fc7bb51c212141559db74ef2408e;
   0xd131f8a4b6f272c50cec2539bb345a44cf75139f3441d574f46ecce795747ce;
   0x1a1370ee76fb87a88011c1434380d5674af5f4a0da45c55598476da8995cf9ca;
   0x1f73b51609df530d542521829aa7eaf34516205f0137a759ba3aac9d9d4e8c7b;
   0x1c4ffb2b772119c4e5e870afb71e595db274c036b05c187f926d7606d9565102;
   0x2033c5ca9edf2abc7d31e6d203e6b36db25986c7f325914ffdf7f7892621706;
   0x77c322e6b1cdd5a852e4f84552cc7efc2d7cdb7880432562038c4cf36ffd03d;
   0x5dcd7cbb23648cc9fa9ebf98970db18a95ef6a9e8a2c38dfcaed0ea380dace7;
   0xfe405efae09ab9e1330fa0d7ca44754accfcadab304d679beaf460830c9fb4b;
   0x582e58318869edf851d52aa595c13b65524a3c60ff4998bd765cccc32faa010;
   0x19b1640d5aeb3242f2fd59fe18e7a8823eee5a022c63ca5a75d428e778273936;
   0x31e6889a2f67311a99bfafeb72d357e172f3b6aa45d3013e2786fca618070834;
   0x1b782f66ceaa9771a728c04392692f6432d04879a59c80ebbfb5113a82c81e80;
   0x314bcf0df9fce5bea4da5c6b5f1106a15b6418bc6ed92d8549cdee0fa2a8441e;
   0x312bda0460ee328f0575f1aed223f59e6477e18ebe5a0976f568998ca9f3d708;
   0x1127e3e88946f7df85ae62f27fc35a5c53d04e27a2776740e0aa2ec37974fb50;
   0x7025341d932e344e7f2a9a3330e0d7689972993f84976a47c7b0f35c8deeddb1;
   0x6270e9f9969634150830176e21ce0126938506d1a83459dad04702a875abf8d;
   0x2da3986d51450b94c2cee68d739e398bd5f242f94363956e6e50ea33966c573e;
   0x8932de56ba9f1f53a343260797175973f11afb9eb80b92bee18b385ef938e30;
   0x2460aded0fcd7db790d44b960a472b7660224f196477039090425d8a2883d2c7;
   0x2e4c5c03e5729ad5a8f42d96e264d3d3bb6e48a718cd4197b4aa25739b4be881;
   0x41d5ba934c1b7b6be93862dc66569446f5a35c689be9b6ab00f83e40e9b86;
   0x2090b311f5a0a5a8947e17557504667652096f51613c159e1c5ced4bf49a84b2;
   0x104cb0ab991372d18ae0410394abf94da89a8b4d14de2a06aa5bcea9b15bdaa5;
   0x3044e15da5848c920114a87138fd5ecc969ba97ebe8215ce45d74a747923106d;
   0x14477ec703eae1128ffe6318afcd79e7489bd44c0b0bf46d36c2e1155eda8f9a;
   0x161ce5e78de1f24c52e42fafb65149494f380367b839425470ade2fab4c54ff;
   0x30bf7da79bcf0b6b8779b23ce36381e3ba25612994ca87e924353c63de43638b;
   0x39b1347a89f0c711df75221646d5ef107e2f901d4e479b930057cc792e66006;
   0x4ff02913784f25b837bb4cef0fb0dc5cacdd247c8109861efce2d0e96a92c866;
   0x3751ae32a64d33786db51d31a3134cb28d4b34532ae109c3ca664cb9b0072e92;
   0x559db041c20fab88b900a9d19b9647c233ac110be38962fb7c8d8283bbf0d60d;
   0x11b2a0e2716027524eec57bd197b8dda47128310558e8e6773d79123b01f8f;
   0x23b114e37e2018b4c5318c12d9b5f62583a183b73fb466bbe543b1ca0dec8826;
   0xcee08800cddb72583ae1830beb31106b24c53db30e5675e9227e7e6dc7a171;
   0x9bfb05cc10817cc824ec8851a022a35544042b787f93b536085cd74cf8ee4be;
   0x6a768422b583d46e598955a4b1eff403a8056ab4fd743bce902ff5e897025d8a;
   0x5c91b610348a4009866f95db7873c35c6d2e00f3ec520cffa4f9592628f4757;
   0x33b188e4ad3fea6a2312b83369ca568ada63eebe15bdf0f707e465a1c4c4eda;
   0x255550a5b1727fd4754b135b29ef071fe9b239d94ef4d7555b31aa5cdad55604;
   0x109d9d47008d09dc52876d7184a0e45fbbf3195fa2b8e4919bf91caff5759a7e;
   0x1d19df416545e72c56028f65a529bb63dc0398315f58543f86fefd3ec2e672e5;
   0x29b9b6270cf5ffe4a50b7a8d322f651e65bfaa16b790972f14bf93433c5142b0;
   0x29a025557427b7d0ef00b5d17a50bcdf3dbcc865f6c9a979c5af66dfbf35cf1;
   0x3ea5305bf136902281fcc26d309e4d83678fc21986deb06df039708d39d05b9;
   0x2ad0d54111e79e25d702e835d165a156f0da3aeb48b340a2cd81e89b2a4f865e;
   0x6e7d85e6c2ce128874dc2e60573ea90e6fdf078b328e54069bf533681839acde;
   0x191ab97b3ebfbe9499540734fd5dced61f8a8e6b56324b00d33df8511a9962f4;
   0x29a4e19ca9a19734970b7d70dab25568dc1faee07010e78ebb8a7ddbbff34d22;
   0x47cf3dd9af95d243037e83bd6b8dbc62c292902fb983c4bece3f0bbfaf53d96;
   0x10f5aeae6efad4ca5853784402e1975b3e1f86d5cac078f69cd782d9f1fb252f;
   0x15a80823621fcf08bdebd7db1bf9a4ec7342fbb4b4610bdc0e16f403aa1c24bf;
   0x69b918348182f43487cd14977179016b3e7f08316250bb8c5a76a3e56628f59;
   0x4467ef655b8a2bf1754b043a14bd63850c8a1a85266ce670892e005718ed7704;
   0x74824afde226b8bd5fcd7e3402853be704d81f4ac93a3aea2c8822083457cd9;
   0xca9e3d380f4865c5cccc4b357bab36c5fa15f1719c9c7a17442eea4e115e736;
   0x281dfa2e840bc3ae36bcddf73e0f05dcb2f548352d39a176dc9979b83b2e12e2;
   0x1abad868a13ebc0a95ae0597d55373c1287b7dc54f693556a2a08a1a9aaedbde;
   0x7ef1eaaa1da43667f80ae28f96171fac88c37490eab66b6b14946784ac4d36a;
   0x912311361c0207f7f663c04eb9ad4c59010b2b4dab85a927376960b02634c6c;
   0x59a6a9c5a208f913d31e6df0be43821546d0ce7a8c71fa953d221c17c9d35d0;
   0x1d2e49b3700218e4cf5febd3ca547884ee127425e85396d3fd9530e8288b11ea;
   0x807d1fe3a3e4db49287b09ed7ec087bc0c3fc5d906f73a05accd99c013ae047;
   0x368c62a158f8d5907c1fc06ebf1f744ea539f443825e5f1e9e75dd60eb321b02;
   0x29eb8d6c18bb330267110a1d75ee49329921df7c814e334612b81fc1211dda54;
   0x28da1f724f94a47c72947c787c3a0715198c881445f086a2101494bea4b90816;
   0xcade3cd725f140e449da639cefb654dd1f6a296548b68cb9a79a3b4282504f3;
   0x1ba5ebe823f6fd420dbe0abb680f725eaf647948931bfe202eea214a26ce4aa0;
   0x2734af9c47ec33b72c864a3387ff3f746c20a9a3b552f0afb0a7e7e5e820fe94;
   0x57d62f89346ba5ca55f46dc5c383ef81cf1c12297e9ba244f250e7d2f7bef542;
   0xa8f4aaf5a973cea1b59a9bc69c4714b64b33917118ae513e4e87333898a92ba;
   0x66b07e737a2fcbb802d6c35866bb6fefe6bfc7941b4003b74ce05474d7e62f;
   0xdcbc0019e675ea495c3dcec7be6f4d1a30d17494c56d3d76a390461558bd02d;
   0x1b637e9d96028c0448f01e6399faec9555556bbd0105173773a97b4e1dff38d7;
   0x257718936f90e106f4e340d3110e651a33a071e3e0746104a411dade5d206ebb;
   0x2ca7b06d43aeba1b5f5bb42426fe4fd6bb6806e4cae82ce96a267d0e51eff6c9;
   0x228b55383a71fd4c8c78df9f1c910080daf556a1e4945dd4f84a27fd355767eb;
   0x1845b2d9cda7faa4532dc8d1174d8294d8ece4d869609714ae1d83692a1379c2;
   0x1500b44b4dc7ae2f191152a01b180502f02b0fe88d19fe3519dec86959f6c10c;
   0xb1ab73073c3a1798893185e1ec69a8cf8f5f25540780e9f3139503e8919a0;
   0x2c6fd782314e371b7c6d7b1f3ad04fce0cb5438dac2cb318402352bd3e4729a9;
   0x69677d99e7e38a139d8878ea1147893c3388083da1f6fd8bc9e574d171a8207;
   0x16cd7caf178575041a1ec42017090be3a99b021d741e402d743598d98e7aa435;
   0x1b92d0c20af2ee0c1f3025942bd993414327262488e6a05ae6fc9a8bb23a5c6;
   0x4cb5975fdfb9efdad5321676b851c873758d828fe7c079a314d3e626841e868f;
   0x2d0db1507ac0ba8d8c34ebc2537c8202f4c521a6a3f8b6cdb225aac5105d28a8;
   0xe58ff22fb3ecf35918d144fd08ff14b4232b4540704d8108fc5cdcd9b92b87;
   0x3f3ae770e4f74b0f5bbc1967e42c710b5d9cbee9ce3f86bb804adac67e8a61ba;
   0x131ac80d327d2ae4cc4baf92198e954e843d0dba7f426b13ab31f8c45c1932bc;
   0x1814d6ad2ef8039f0e3c0fbf202070d6064cbdf97caadedb9434a85ecbdbb831;
   0x37b5059821c845ff0df39b0063fb1e66b8d222fd471ac0f654e5a6786b88ea8f;
   0x1a79154052183602d0b4e121c028bfa5532d755c0dff3e9b048c2ac61efa8611;
   0x14f51cd91f630146e73e244685e36d33242c073f74396f4d99b1ab803848d6ac;
   0x1b08244deaeefb12c3d7f14c386b649112eca444bf09dbf2323bbb77a5487731;
   0x1fff038b1555aaa2389b7fded9cc648494cb60d47342dfa9bb5138ae074986fa;
   0x1bf4a68e0b7d374e705bd94853ceac9230b9086b56faf6e30c95214dc0d7b304;
   0x152924013aef76ebd65fe26d8010498cedf854eedc74f33217b1e8c4d1f9;
   0xa23327b59d8d531f1fc6e4168d470fa4dba5fa6cdb3b1578dd042fc26ef7940;
   0x7b14a50ddd652e8a7119eb8c3855a7d90fbf1891b210c9d28cd6ae1afbb6679;
   0x4644a957bbd0f04ae3895ccf59563a67b27210473da4360cca6e2bdc8dac6da0;
   0x2597052227f7d75a280f1d543dfe167371ae74457fde8150e4e43a9d57a0cb51;
   0x17d2e5f644c98e67775c073026b6132ffdc3c05bc2d1970f03d2f2559249afc5;
   0x9b9f202f0fcb09e19605acb94bb03ee6ac1d9db2f18342674092704d46ca79e;
   0x37cecd43c2c41fac123452fc02d6b82b63acc2705366b26a862d22f4edf857d5;
   0x30c164dc6b44ac335466fa39154f17a18373ed600696daeb940d84b15455a059;
   0x661d21cce3586c6bb5858c228d7f5e5091ed3be2b55f0f78be4aebfe5f7437a;
   0x1856da05de9134940438292d43123a1c4f4e747dee84edb9e0f91864ba7bfc4c;
   0x4cc90176b6f97d06b0e66dedcd74a4def8a11b9962d729660801b739e39ebc4;
   0x166da593b02c2f8aa4f91a954786d5ffbd7bc9ee43e36ce96e14a2772d452a23;
   0x29d838c6de1eba303813e510f8d94573350d616bd13b88998f264fda4381cfbe;
   0x40528e753e932272e627a3ec324f9a12d8c81690d8c70db1e22f2a31a10a6796;
   0x47aa340eb0c9bc66aa477d10fbee0d485fc3a7ebfeb33b9e9c14deb7a6c8165f;
   0x32e02f9ae92bf6080bbce93230756a5f5c73fcd97e5e1fa10d1d8a1379c46d3;
   0x66131f4f4d156212c659c9f3e3142caedd89b4e03b2d05bc4780cef37a0c12b3;
   0xb3bf50d833824e7fb355da01ca0c065cfeb3f25fb70404d0dcfe5e5969e9d5;
   0x4bf2d56f768494dabf39e9b6d7c5128c86c848ac8c1f489421c8b6b2a9f282a7;
   0x154b76f7eff627a095a787f2762246af0290c0b63454bef015260c7ef0afbb93;
   0x2fd464a31a4bbd897c17cb624a760d6c3054fae7557169c2de0922ac85f6aaae;
   0x176604ef18c88aecf305837882109dc69b09f43f306c223ad7f77b34fcd5ac6d;
   0xb8c9138d416c4a4530e35265287a9bad738c930b87a30a4ed6c2fee191a84;
   0x1d1bf3a8dedc5072773e28e8a450917c98a7711b9302ac1e09172df3167bc208;
   0x3cdf534d0ef1ce2ea45c180b85272b697f9a6715622a7ac6204bb573e2a7d5be;
   0x18f6bee779b29ed893b8ae73723a9f15ad61576f6e54f12de18e1c0c84c1761a;
   0x3ca5667f1c5f8bbdebadd0d4fb11d829c22f66addc8ebc4b16f62868fdb25fe0;
   0x3fa49e8c976168ba551762d455f59f8c31cfc0f65d18e8576906234011780adb;
   0x422d02b526fc50e6ffc28e1cfccd9f7c87847a9ebc4d62a1e61b8a9268e8253c;
   0x61aa01d2a99f12f4c87bbb890395bb2f821a2a009780087fe1e5dbb5be060ea5;
   0x1b66bb077407c39c6c45245ab7ec3913da69c599d5fa650d57e92bb8e5d0670a;
   0x11b39f939a6feb007cec298e9024866cfc22cc2c5b8599efd65e4e2fb89e5e62;
   0x1223e1bc35f670b17f813e4b99929e30970ef861c55c4735b6af68bbe5bc468d;
   0x11689f5db7a5bd23292b52c5204fe8f358a23b11ee839d565f3726b413799119;
   0x49e0ebb9f799bb28df263be4cebba7ebd2726843f8f95438ae8cae6459a8bd3b;
   0x2bafb9da92f5fbe8dd0fe4717948b870bfcd9606588064061fca73b7fa11fd8;
   0x40967656b5deb935ab0be00dd77fe6aeef5656544b30401fd6e83d9c219c6258;
   0x36156e6f38fa7af2cc39ea764de72e38cef756c6ab35bb8dad8f523c1de136fc;
   0x2c97f3eb9d50e120d4941055ec1143dc538508308feaaeb32bd193b2275b2d2e;
   0x2b5febee48c2c1da32f3e7d6b9389640386e763254ce31cf77420408c74d9b4;
   0x3f1e46e5a22b69fdb2765806da26974a2f436f349cdbe67cd90403f4d5d1c4b7;
   0x3e0a13905faccf6dfeaff4a5452bb10d89a3c93ad7edb44b60bc5362f9eb5576;
   0x1ecddd0584623f215f002e212b991ea8ab1dbfc308a6a1bfdf5686324735e242;
   0x663791aff3f327daf33196655b568083abd724e565ac727be60465f8d10dc30a;
   0x2d9e903278a5cd585e0f642b28eeff190d96e78f9b5371970a1df563c8410c44;
   0x334a46ef7f57a41517fc7c725915084d7fddc6d552e81f69c24e9f5e2a314e3e;
   0x1414640051f7f074d4ef4cb67f9ac6d87522fe47be987363969fc48f4ad981ea;
   0xce4565a19acdb37b34a118b01a8128b3fa97850d147e1a21e80acf1b5031ec3;
   0x6d87b4ac99bd7ddd0ed2abddf12b6ca2a200319e559beafe1ea346c8b1aa0fd;
   0x7849fcede9f58318e47d8d45f49b0b37e4c7cb3f5da9cc70bbdef084c63177;
   0x3468c3ea4beb727b70a19bf53d1da2229c2f2494892402109b02676e1dc53b21;
   0x6c544c96af098795eb2982b184f3d133f833ff3df84de004c7d278d232996f88;
   0x234bb782be1ebb37cee64ac4df5c97901bfb5db9bb98e08570eea243c57d2748;
   0x1ed9e0cb66803ba061657c446004ff044d521076d3c8736c85f2c83f585aba99;
   0x26868d5b194a225d251e6872a144fca0d06b7b4cdb698acdbfcf80ed6914962e;
   0x481bd274efc9dd48b29d9ad1986cd1f16416f7d5f9318eec871277836cfd1036;
   0x10fdebd87400125fec61e7d6d30b2de5b6d976a0aaa7788faddb59c11e2f1adf;
   0x8df99972da8cf9fd8183bb27ea778ade8a9362c60c6b0f1557bd6b2420669d;
   0x212c30f5d84651f129df3f3e50b62653d6e3dea84c630bdd116bb3103120d9d6;
   0x1475d8252dd5fec59b0d85fa85d542376fc1416ff5147983a5e893fc0f4bd866;
   0x6912cd1688330a0cfb568a8292a45816bec9bf408edd579cd7c59b5ea60f53c;
   0xf90337aac3d7e5a97075ee7099d0f5382308a7c29ad7e63d28e74e5adae11d5;
   0x33a35759a195b53dca5762fe7dcf9811e52bfb39bf78c08f6de990ab680a62d;
   0x3b969d3e6a220c4c227a6362b2c29bbece7de2d59bbfdda27cbbe0bdb70b7d2c;
   0x3bc274e27cbafbe046334f1c25bf809dd0c2067bc535744161a75a3e03864df7;
   0x276a31a9cd0195b2f2e55edfa1b637df71845962870d6c449179510baf33c758;
   0x615fbe9d0ebbd6811a5bce527f988b0cf042dd593b40d26c239b4d357e29ed5e;
   0xfeb1b3f53955c649be9dc8b004f66583adc3c005cbd8ad5433922b6e8563d65;
   0x5fc191ef0e4b83929fa1dbffd6a361dea772271e0b49e3d6d1f384ccedb7ef9f;
   0x3753be1cbfba10f3f86020bc05d708270c986440c8421ce23b5b5ea3adb0a276;
   0x5886a39d827567643e32bcd64db47fb6d27ee3e698c705e3f0ad1b51695f5e67;
   0x105d9e1902fc11b2fe69290ad99b34605353c447863d8bbf36941baf33d7cef9;
   0x5f06681e16007514ace8e32132df376d6d35c6de908335334907d7faa23c298d;
   0x3974aad55f7db96bd82aba1fa78d4e543c65a325226de9a4ede9249c060ee9ee;
   0x47464201733a0e3345304188b3f4e1a57754d84fc1160810605d88f513474dc7;
   0x8c1328bee4540d326339955c100461caf67f35f02661732f8e25cee3319759;
   0x1ecccea54677607af8d06cc9d408cddc55d50472fdd86f1afe45d0f34e8236b5;
   0x4a17b1a5282d9f71afcc5b4cf542d98fc2a6dce7ea8a4d33deb8004d521ece8b;
   0x1b150bade5b9131f061d2d8411be23eb86bae22c0610769411738e114fd6de6b;
   0xbf7b129119d673143ce2d31f6cf3a5fefd704cfa90643fcd8785b70a1526a2d;
   0x5a0b290be01cb77c87c2a191b4f017657d7e8bb1115ef6d7be02f497aef13eb2;
   0x80792a8692e2fd789318f09dde5b1f753cb7e90af7f414422840d6f6ff81ef5;
   0x187991f130f310a2b499f39163994efc0c405cadefb08438dac380f585a9c4ce;
   0x28f2cabf0d413ae8ba05b37f7a42130817a598bf2aecaf70cbfed0875d4a5d;
   0x179c86364619237f531b267a5bc812e2dfa674b5a3825bfcb71b78447378ee10;
   0x15ebbbdce9224e339f198fe57810f4f6158376a8e54c1cdd2805d9cc3444d47d;
   0x4c50e9747a652c9d7d21ae59df070f92d474c2912658f36e54346056862a6bc9;
   0x489a671fa12cca87ea6b43bcffa2072e434a34920038c22ac7ce1093f4dd9483;
   0x6e4ddc1bc8d0cc44495054470001f27c198e6e85ac2685c278782544f5e8a2d1;
   0x2f669a2d17e4d24f4a8e1e9156358d503190b64d2fcdb64659e06181c471bfa6;
   0x216c3bd7ccf8b44ef2740ad02aba95a4cbb584ce52bacd12b5e98907a9904f0f;
   0x1ab141c24a975a723ad3fe40a70535624b5f830a1b290ccaba8dd81d3e57901f;
   0xe048932a3826b7ebedef1372111b32a9a2dfc001d6a2de065e07332bf353212;
   0x16efd99a461e6ed408fe932f30b2b5a69f23d96bd32b7ac4ec4faacdac965bc7;
   0x56fe23fa3e7a980e822d64ecb9937b0a42dc3940704bfef4aae2a405e07097e1;
   0x2b036ec304013e336712a01083d8dd222eb6767f0e728d85248ce1252c0586c;
   0x35d93df1a0d9a1d059c31d4fd6dcc7498a79dae5730e7303efeabff818b58197;
   0x14d6939e3cbfa336dd570b042cff9d03426fadb8be936332c34f759795664141;
   0x1cd01d30f0e61d06ae9a9d3d14ae7ae4ade907b750f271d151aec45b01997c80;
   0x53aaed76b9f00683ce38abe96f6f0f2de1540be57817befb41d4c12d9c10468b;
   0x3e2a29cb301a60a1159609190a0a4e4c5a37cf06f7c481321a56aca53333f1a2;
   0xd5d48bcb8243d31e7f6396deb765392fe0d8dfa85885dd244655cbb0424836;
   0x210e187164146dfe584d4a23ba0054175d671187673970a79ec6698e509205fb;
   0x18c4539a8bb3a21c6b8d3abf736d5ce4ec6925160e6394e503b9f553f2934a33;
   0x27403d60b60ba637cfbc7ff363a8649658ad2a8c80d628184bd847adc39266b2;
   0x5c5fd0a82b486d0f1940d9e239e0a26cb469844c1153964b171d3099d69ac5;
   0x1095d7e8c68d76fabca289ca3625ea7688dabd47c7c5e7450c66241d76cf973b;
   0x6151a11e9fdbf6262d5793e6cae97ff0ebd11f5b72184def08983ecef940617c;
   0x7ff11e62f6f5c5ef39fc33c9d197e8b750e25906c978078724b91e6da14546e;
   0x32166dc789861a16f7b313d309f6156761ffaa5259a141d27de5012613319e83;
   0x1d3133c1af5536a96ad0a6efd63ee4a58fad044428adb95f7589f65816a1c883;
   0x6e1a929f73531a4fd7c5d7cc7f6718ebaf606cdaa89165272c143142bb810eb8;
   0x3e97562272f4128bbc31330bba1c2c880ac05452e2310ab6777face3276a368d;
   0x35587121b1fd817b90c405b8a57dcb3fa5fe79cb064e07d71f928a93f0e018d4;
   0x3fe59201e81ab7f65d2ee824623c98194936b598a93dfc8e3d4e2caad8ef514;
   0x152cea19bc8345d71aa065c8510cc6f880f4862e47c899993bd36e178cf1e6da;
   0x10e49043924f88e0e265c380e4592b9a3ae1c19d9868a4bc22aa6fd5320c1cf8;
   0x338735b2f898de4e902952424afeadbe0ce1061589ab7b031e6f2e3db6c3d;
   0x63486d834628d5035fdb2e1968dda212ccf36d7baa676cd3cd5ac436be4f5df;
   0xa9c1936c094bfb8414bd5d1413991dab13ee163f78ccbf6db713643112b08b6;
   0x2a45feea2813e0f073f6f12b13ca09d39a0de71fabf6f80d427e088eadadaa3e;
   0x5beef9f7354086111efc148fc72a6e09a7ff36f6adcf3adb43314e0f9e7fc9;
   0x3978989b0815857ca5b7de0e4ef9481d261f21b89bef064207a7ff8756222e31;
   0x18bd851bce87142099e84214f4efcf55c1271b57588d6ce89234fdc52d2e1a88;
   0x3b47ad87a1c67225523415b8f0031fcc09e574b7d15c009535cc4e59e5394cc;
   0x31d27b4317a45c2bdf53de950a8c2da252e3f1a14a12ceda2d1509b0a022afe1;
   0x1a503d1a63bcbfcd83cd97680e28791bcbfd2084631ed6a621e04ac6f1363d5;
   0x64a6d0719f27bd3b08b2bedca0103c0a58c678216a3308c044060ce00da727f;
   0x216fb1b9ab4335351cb46860564de90e234f25a9dcf5eba1c2c61ab7e44aa77;
   0x305642b40aad13d9b572ef93cc032c753336c8b5780415d4a8e9a695ae84d686;
   0x4099141414fb5e60eecb50c9fd99921dd7d6e6b94db8b92d7de1f0587fecd0;
   0x295a69c1186a75ec9c0cab28e53f74158434177755f5f6390402a7df6f079c96;
   0xf8bbc8ad96b9429dc6d055005b752a09304c0093a0b7ea423e14b613f9678e6;
   0x37c39ec6555c27ec6279943e2ba299dc89c310042fe26702cd81f62811e30b1;
   0x211e14dd7ad38043a635373e2e24b689331536500bf335bb077648ec6e2620a6;
   0x54baccc401bb9328b7ac687e137783dba193766c1a9eb79dea09d0c423d5cb24;
   0xbe7ab299344daf6a0ea1b5a623b1037f25e3cac17ac7c12fec7b7eb79ba9662;
   0x63c378c5e2a3d4811efe1fcb7f855ee33c1107d9c62f688d31d1be62006ca35;
   0x18c4539a8bb3a21c6b8d3abf736d5ce4ec6925160e6394e503b9f553f2934a33;
   0x3e3497e36675e8e7113a06842e040ee8e1bc7d2a9410eddac87e78899a1ee518;
   0x366edcc809510cd4999e63ec11baac28f01ceba265fee94dbc1a9af1c00806d1;
   0x120a295cda9e1a073869dba40fce543b5de3bddf8845c149fb27b1422783dea2;
   0x2312188ec075a34ce7bab95a2d9e6d8e7940a476bb4e795814f6b3910a53366;
   0x116114ebc444276a8ed848afaa5613bd156268cf4186a4a3c91b78101cd43eed;
   0x41ebe4d5307c0edd86ad67663e91f7f79cd81c9fe9c594c1c2360a2bffa98ea9;
   0x4221467efe274d94e91a6bb466c2bf0b5c01ea4ae5ba31daaac99e49ca85c0af;
   0x2c14e1b7bb2df52345ba5c31b86023cbcb4c4f996d470067d2122a4a381ee883;
   0x58c63299ff91933786abf863c7ce3b2ca53856533b15eb78f940915cb18a3188;
   0xc7ef91925a8f56922294f241ee7660de0c1e9377472e811590242092775aa54;
   0x3fec9085d9654c6e7b76cff9286a0fea707519f9e7038e8c887951ab67b4e067;
   0xdaa498f22c11926bed3821145580031ec14b4e17fe090d53180ff3c9a230f05;
   0x150fe300429eea547fb724ee52b660efde49b921e26cdcee612f09b1c86cd580;
   0x1244cb915753776b747d148309a71e4a8427c1d5bc6043bb6c80606173cd2e7b;
   0x84e849d9e1b1211f61db3ed73a6a16d9a6e7fd0f0bb7f5b1e5d78ff2d0ee71c;
   0x53d1662de4d6860a754d51ed96dbb2a47974c09fd6f882b84b8cda0b21d06c9b;
   0x5e4ef0f619df9fd0ba1c922d263782c21b5fe7a19a0e8843c73104aa758542db;
   0x5499428ae4f074402fc8a410fb049e0762c89800b13631107048be445f3e5c1;
   0xfeae0b5c6c031aca1427e58c230a65e1fef12e8828c13ea636410f3184a172e;
   0x293a02272736a4f2c674cfc793174d3f1aeda1ebe61719d613123088ffaa7ffd;
   0x64c34abff9b6345b2a3788be3dafa778fc22f45ffbd925a088e682a70022a5ba;
   0x2b0df0ff897f54bba7eca2e4ccef70befb9fed13b0d7c3fe08c4621f3da78baf;
   0x1d313a4b163410e3da44753a27c82b49fcc19228bdcfb415d1d5895a0a71e010;
   0xbffdf818271c3cd21da4464b2ee5a416f19d86b66c6faf10f375552027beca2;
   0x25e0437be520879b9b66074045dce6d81e55bf382e60d566b1156e56b25085dd;
   0x2881e50704e2cfd6f3300380d0c443bc3324c51f4b030bed2ec2280457963851;
   0xbaacba55a042b59a693525b861a34323bd33fdd8d5d02bf5cb5df192d3209bf;
   0x785ceb3c033270660b1c23da32d25291dc417a76f85c0ac66b9f24ba831af8e;
   0x139c9470870d7e907fb5080647913167d7ef88663ecb2c19471a069691ba980d;
   0x4527c41e58919de2405ac35c3f610f5d07eb8dad770445686446096a39142828;
   0x31c514dfe07734df8a13ef44330fb8bb89026caaec10b17ddc1a8d3cc37d7180;
   0x15cbde0e6d453b9ee988661974665652d3f6822d5c10218429a2195281f2b48;
   0x79c4948862bdc97afc7bceef57ae0a22d12716d35a9fdef9c001842cb0fa3e4;
   0x2a212cdd328d64ecd410e1652492d0dde8040b13cc5d087af191988f09dd7fd;
   0x806d20ba0edaaeb53e5dbcf9c2daec0695735c5b18fb6d0591ace8ec221b23f;
   0x5ff2bd6ce62653a49d5ca1f15277e2ce96a8117246f2f08d8984deec0d2fd3cb;
   0x9634a9004301718d763cdec8f3cecda79b6be4b6b3352549279e623ccaccf5c;
   0x51cea4ada88166cb6a6997e5db9ead8a1eee8ebac215a84081b5485b2a7442;
   0x75cab5218ef52a5db453aa862a7f54e8dd99422eec827ab9055b550b6050522;
   0x26da1550ba77f9adc7fd242c86a94ac716cfa25d2e26ec18b29216a913cf7a1;
   0xb20c109da1263393d93eac12c47a6cd71e654bf968ba3df04294d395649325a;
   0x14e45bedb8c0ac11d3a9bf3eb83e8cf13bc0ee8b01b3b69e40704de8a24d0267;
   0x10001bd46ccc9d9419237c62a33b187b4b1154709d18e963408e8688d1e0e3e;
   0x595fe4eefc7763213b1a07de3a72b8768087730d0ddd744c39b16facebf76b6;
   0x7070ef6a72cab5fd146923ed9af9e62b0b6115b752758e4b5fd3a84acb96cb;
   0x3c7bbcdf8c43cbfdfd99f64af55a5f73656694434edf95a2f975f4425e87c764;
   0xa51ce3f0a62adb941e80c69e6c4ddb4e6cde61f7d3063ac02c76e48d54cb9cd;
   0xc8bb70067423114c4837f7af71ac3c26610952bf77aedc49aa2efe524d7302a;
   0x5a2364fb05cdd7c96a7e3bd5871fe2ed4728bc19f1d6123961ccf7708f90f4aa;
   0x71aeca3ad91661c95c80a12fc6abe7bded8e4feaf6bb557756b95d33db6415f;
   0x9fa9add543a01543aa9f35ad117420ea8331defc2068ef9449dd127e9c3eb96;
   0x3e0566628dcdd33fe4c5f43487dfef4b4ed8eb91c56a2fdefb3974cd598ffca;
   0x1d847c4a0d6e695130b118d0d11fc1102e187075d574942b1cd75e6adce456a0;
   0x5bc5c0381b63b3752f0f2b75740c4487e3531990726767277f71802cc7cfc469;
   0x5df3d4b8525b74442219480596b938a8b88fd82d09d9effb83023f7b245761fc;
   0x13d783a33cb2096fa93aef36e3eebfc22bc29c3466c106d9f7dcae9e7a2b2bd4;
   0x18f396049add3c1a57d860ca2cca5adc909d693d6cd2db7bb679d7ed15094c32;
   0x9fa9add543a01543aa9f35ad117420ea8331defc2068ef9449dd127e9c3eb96;
   0x3e0566628dcdd33fe4c5f43487dfef4b4ed8eb91c56a2fdefb3974cd598ffca;
   0x1d847c4a0d6e695130b118d0d11fc1102e187075d574942b1cd75e6adce456a0;
   0x1e4314898715ecadd89084a1773614846f839db721a86999aa4580d13a00a8dc;
   0x1a74a09cd141c9b46d55ac79cb8b570ff526c0d392f0d4e8728e8f1bcd817;
   0xbc32b8e59d086861683828ab0d6476122b06d1df43d71a0ac65f088f4a88cc1;
   0x5d805e621a699326c7bc00587adb6260ebaf503e482e3353762037b0c5bb2a21;
   0x1cbea986363393a0b442c2cbdbc6d6e676209b0454b023aea91b0febd75042a8;
   0x823b3f5f45e369958de699a27804d83741afa38c63069cb06fddc48911a61ef;
   0x21bb04fd27a0238b626feda05d84746713ba8e9bbdf6f19525498e2b6a444638;
   0x12f00f66e4603ab9b0b84ce95e45c56fc18bb6a0ff699e33fb154305f0efd245;
   0x1;
   0x0;
   0x1;
   0x5d805e621a699326c7bc00587adb6260ebaf503e482e3353762037b0c5bb2a21;
   0x33d7c2ed4b46fbe3b8a98ad2f91ea83d844f0d146a68723526320d2444c10c08;
   0x1822507bb07a10619298e8d9f8df224d0da0d77c54eac2caab3c5a1b86b4726;
   0x15cbde0e6d453b9ee988661974665652d3f6822d5c10218429a2195281f2b48;
   0x79c4948862bdc97afc7bceef57ae0a22d12716d35a9fdef9c001842cb0fa3e4;
   0x2a212cdd328d64ecd410e1652492d0dde8040b13cc5d087af191988f09dd7fd;
   0x806d20ba0edaaeb53e5dbcf9c2daec0695735c5b18fb6d0591ace8ec221b23f;
   0x5ff2bd6ce62653a49d5ca1f15277e2ce96a8117246f2f08d8984deec0d2fd3cb;
   0x9634a9004301718d763cdec8f3cecda79b6be4b6b3352549279e623ccaccf5c;
   0x51cea4ada88166cb6a6997e5db9ead8a1eee8ebac215a84081b5485b2a7442;
   0x75cab5218ef52a5db453aa862a7f54e8dd99422eec827ab9055b550b6050522;
   0x26da1550ba77f9adc7fd242c86a94ac716cfa25d2e26ec18b29216a913cf7a1;
   0x5ae6842471f7dc96aa62f92293c7da1888ec35d715ecbd83fe2462436e9811de;
   0xd871c9e34f98a252a1e96183bc1299dc8308bb74284a3b80333d7bfca9d6f31;
   0x89e8161a6decd56fe138c85a09e566d3b8aaf614f613ffc94a61c7735afcceb;
   0x14584bc5a2c6d7d2e773e2db7d3563d5ec3151bc10a1c3945d6098bd6590f3bd;
   0x7ebbb84f3511e9f7831ca64c60f3bfa54ce687cba2b18cf750eb01017c2b3f;
   0x11c26eb9f07cf964c9fe80de5959cc3b011b411914b1f53d2e3edabab32b8c10;
   0x3ca5667f1c5f8bbdebadd0d4fb11d829c22f66addc8ebc4b16f62868fdb25fe0;
   0x3e20625e2053b63eefeb6bb9d576e186ce5a181a7befb906b9528bc47efd44a7;
   0x443378949780f6fd997071ce4b3903dfa9973637456d4f7517606b9025373389;
   0x1f8a6bc339db83a65144392ab074f55d2affd99668b655f5aea4ed9660fa3812;
   0x17adddb0cef48b35d7e70961d45b6015580c8b099e19ae531f3a1839a0d542a1;
   0x26f335cc548425e6bc51904bf094c10ca3d25d347ecf034ed6b056c41f1d884b;
   0x2cc5e3b756adc2d5732ac11b4cb51309945941a3984a2670929f902273e22f45;
   0x14eb856bc3ac4a53b5ae1b4dd6978a7213ca7e8303662c2392bb4aa3ce666f77;
   0x3234fea2a14041cf0f408bc55a03e9166fe7f9777baef44f85488ead98a84e21;
   0x3c162c64c0781ee0cced44b666cf7925fd1cef92fb0d1dcb93b02ae889c2dc85;
   0x3a46a63d2580f969bc2182b255d28dc2e516697e2dc5afbe0457dbb5518f56ec;
   0x20fd6038c48ee16dda4002861c480ef6b881a6e0e1382ab945f165e958a49d64;
   0x49cd5d5242ba1830e053c54c7eb7754c17535f7ec330de4012ec46ddc12a5c10;
   0x165ec5e1b4eb7fa8011c9aa8af67ead69f608c1256a6a7f47eedd0c109876992;
   0x3f6ae62386f8ce5117043ce2f3a939c46be61d752dd2d3dca5c36ab7c2d554ce;
   0x38e011c2a6ae008965633fbecbde4003b54f49ff42d4bbe9f61932740011cd2a;
   0x2098d4189985352243b9502ba9f52336f516c19f558e53cbd103c17ae0982219;
   0x171411960a5ef4178c06459b00a160eaf8a3772f37d4bc1628514673dd8a983a;
   0x3bd5c2542fbf6fd9dbe3433f4e269ee2d48b695f3314b7dc624bb6243f6d44e3;
   0x19090bc83b188bf1fe5ee5415d7b6290cf6c1a97f2c26dee2991181d7454f17;
   0x738d7963000e9b94949d14365c84b9fa1e74784a51fa512acbc1f7fbeb00b904;
   0x398082dec556469ed24f81a19208ff60297d3698fb6c0628459efea15ae903ae;
   0x402353aaa3c5f57dc72f0875a90d41fa50c536aff874747be86bbce4e831141f;
   0x34e7af9bfdb53e293e40a1c96a7a27a1794f6b6fce17aaf11cf97593bbaad618;
   0x871d5fc5edaddd591eedb7e5f39d34bd9ea6178c6c4c28109170d4c3be5231a;
   0x16c3c5b3ab61e33bdb2068849d05e8a1125971dd14cf1a31f6068db1568f8707;
   0x197433a2f8fe3758801704507635078b0929266a6614da570bbadc5c04a53384;
   0x303388ac51f9c86965bfd24d7d2f98d338e2e6a1764c5e85103a7102ee045600;
   0x912dc5865e86987fbbb542bd44c7e84fe03982d8844f60537a94b97eba58707;
   0x3ffdb30b8882b9fcb5a2b4ceabc02282ac04dcf22aba4e667ef7560af4b7715a;
   0x47a84fb9b533ca98c019a5545b622dc16e92cb8d10865c0a55a5793afa16325;
   0x2f68ea3a6a0e5aefa8d5fe8c1607218ea97f2b432b857998c9d800f6d0c46d49;
   0x463d3b2bee5e04b63e5bbc5538611416f57b6553fd159bd4f9e747ba50039bee;
   0x413e15da6c217cc47ae99f617393ed39817d7bc5d221f1d863e5c0a6f7cc800f;
   0x28a6068b68d27f58985e98448c26b537fa0e43f3a7ffae38574b4fc2c058088a;
   0x3d0adb4eff390499a44984fbcc94502846d02ccb62125bd2aa2935b39cb0ab77;
   0x3a9586120bc35facf178df286529c1ca062280e92c04af7e82c20841e84fb67f;
   0x102386ab529e2181da3dcddc1923b2f9a1d79aba5bd5e608b28309b509214b11;
   0x1cef3c108614085b1953886a62ae1b1780d47b80fb6d39c032f121caaf05837;
   0x13a8ec755b986d3af2b5fa85672b2a2b15f116ea0261b9f88d68811d5c1c93cc;
   0x31a7f3a377f2536d8afca43a7e7c7f3697c975221226322e24057e227876f67e;
   0x37c72584db2deaa9c405d9b726b343fd17e05b46ee51cfd3b33b7c1184b8426e;
   0x3f0d248363ff81fa9f8aa3d2cd139a27d58eeb8989d3fa46e1042b7f1d467f18;
   0x6612d96adaa8123a9587d0c8c5d98a69dfec2eecb2ee6ea23906f299400cb0b5;
   0x493af15357b1a893fb7463046fb2b5750a6a7d177f542f5759a7f0768a70d48;
   0x6eb0e066fd6d29b0af5d5f7be86ad8554a2c7dc5a286e2bbef95fe6a331ccb38;
   0x4f55b24647e4ed974fb3434a802913e83bd7ee337f791ad375bfb2fb37984870;
   0x1d78a2c614b5f3cd0c36e5854da732f76ec299859c9742e67c212be17fb0c3d2;
   0x3d1e7174094d9efeeb0e07d743ed72c0376e60192fb087e2658808d05c965d8e;
   0x99a8be2c1d65ab86193505ff80f89528f31bab45acb357b4f275e047010030;
   0x2a489ce633c6f110f279ced1baa04597ff8ca9c1710b724d7ec84a2b054fd27f;
   0x382fc84c948fc1529c22150ecec831dcde951df8f5779212bd322e56ccdcaa93;
   0x2bc092fe8589232aa3f5d4cdfd571c9d20581cb0a8c383d6de6eeb295b2b92b0;
   0x46903dfc4033e296c5e0c1ecef4cc4ae3cdca56cc4f0283a8aca6bc18fb609d9;
   0xc5ccbd28da5d020941566fd3e2f9912fd1187605fc2b268946c0ac83f18c4ca;
   0x12c6d0d14a2057b58eb5932a5f47212b851dfe85739a004db37ff00232cb54b;
   0x47a0c9a3721ccfe7402a0e5417ca5c94d5747b201b6508c5a47cb36b0505148d;
   0x593403daeec3b5f5ff4ebe74de9f7620c23a21469f1ada87c362007637b180b;
   0x40cc4d82d8bc35adad2da317ff1311c31d45cb43aab3cd8270d0c45603fdd6fe;
   0x5b8080bd5280aafec7bd17238cccd11dd16047461b5af9e1fabbb74ac80e7f54;
   0xe34b45b984dbc921ed3038ec7f44e37aaf91c3d95288fa98bd9851054cd0e2f;
   0xb6e4f44d40bf9482143f394adae594f70e7d5a1f0e2139677e539b505786062;
   0x508de3769f4913271a01304ab6898707372813213722b5cbb04361e38d38cb56;
   0x8e0ec84b78647eca99b2d3f823e8a913a69857d9902586b2a286fe5e13e1b98;
   0x61a208e926dadbb5fb410b28ccbffd07b53550f65bd02298217c6193f9b37cb5;
   0x3e80c928fa62ce69ed26560ad327647f012c077f248bfe7534fe5b72f3c6289e;
   0x1b6b5c9135de328600a9a0cac7e1b4c5da9b31e83e6f854076b05075574eb26;
   0x15b7f92b53829bdb088cd5cd797801e6ed2c824c18831807475ff7111777df5a;
   0x13709e42fff89727ec0154d723d2cafe3d9a810c8e9e0e2549a2ce7a8147146c;
   0x63aa7d87765f921eda4cf561626f7644da3b921fd7e9f9095df0fa926663c339;
   0x2b30aab52f72a1fc7d63d8424483d83526e706caaa14af833a79b1160a93ed69;
   0x786ce004060f596ce81dae36800b8b3616cf57d5055eb11d9f5abb4263141e8;
   0x2a70cf5849dfd3486876dff8b1a82ee8ad5ba494153963447d152d75ffb2766d;
   0xfa9e9771d08ebbf04d93e661348457f47554e20989305f1d677a8c3293537f;
   0x27056d7f1cf366c36fc829330b291034d158b6f79ce4cc917328cfc48e10dcad;
   0x3326bd8c99decb87cb89b8dfc516c86fb5375e6ab9770234c2927cb0ff7f265;
   0x11ee1b9c7ad5a77551e64952dc0ff6580abf629360a915fb27c87b71ea5d58ad;
   0x299e75f5b1e98b47a2beecc76390504ba44c1518ee5b58837abc6f4485e063b7;
   0x5265c7bf4da5b5c7e9fbd33cb42159fc34158f9abe779e72b5ac85e22f2cb9;
   0x297d36729fcec0e3ee1558d51b4ea940f0cbcbffc5436677acb6e86600046ee5;
   0x1f96dd587a8fd95af34823857332de618a3d7843d6fe432a1d137af79019499e;
   0x2ed784256d8242abe09900c8dd67b3daa6531e39ac1051a884806e7d9ce1e250;
   0x39c17c4f0f67e6055c6375e24febc50853a44c6afc145980fed24478b76d1a;
   0x377c934657246c42963e400cdb81a02490e24e9b5142b5c588fe1cc964a412f;
   0x22adc66e45e62108270ac9975321cc075186cf1136d010082fce0cbdfa12306f;
   0x110627df001770263f249d7d577ecaadc0e189d76914dd51c6394dbb1d21ca3;
   0x3c28b9c8ca349ad49fa2a8c14e7501b148c5059740af771327c58717590dc031;
   0x1475fadf76e7ef40a2e688cff164cb88a95693a7dc36c7600cf21e62cebf415;
   0xd495beee600dfbd3d2a18ceb73fe589f8396c6ab8031967810d2a48b0c8bdfc;
   0x30ba86e7b12d97c2192b0075e8efdf670dab5bfbb106e33073208f478755a5b7;
   0x40c0c9261e1e25d904c5713698302f223e2fceaad70381f24f9816d7f5e310e1;
   0x245afce5990d72f5d8079f58b77edbc1ad8c0ddb2a2b69634ef416632f54f01a;
   0x1f67bcaacb9c614b609ecfad9591e6ed5d20dfcbb2221346f719402fe0c11c9a;
   0x72043bfe491f56ab3336738c9edf6ffd3db1953b3e07d0b05eb2be9c770c153d;
   0x1cd2d1717a7073f814b80c65cef012dc2251ed1229ef532de2560acbd1072dff;
   0x9f6ada191fdf545498786b7f0505ed90fb0f07f767db637f62e4d7318e31744;
   0x3fe4573d2b05dc8f151e4921b21832019f643608316115ad3fa024a61403edfc;
   0x295e6db2e2bd1f477769b74138bc223ba3167ae513d944a73431e76f92d1ca66;
   0x46aaedbd3dfce5854bcc0916e4c33bd11b6399ad29afc5ab0766fdbe935fd6ea;
   0x1a0c6f9b0bc8b17a8e79bc91a04a59369353001ec931add5f175cb14d232f01;
   0x24e5877b4eba81001ed56fdd518f4b9a8b22eb7964a2f95b85ad39f9e3376bbd;
   0x5a9a6f1ce744ffe3afd25f5685b7393f4053a94dc49b069cc8876c3aa95f999e;
   0x66b6f86239882e3a56787e5ae2ac768f3e76f999e8e9d76e70cad6b42df8bcd;
   0x587bcccbb8902857e31c11d8859d00383955484da179c4c0b9b69f0e8133246e;
   0x9985e53b1078560fa8855cd4e520a8f3a1bad4b0228869b4d610c30f3ba3f29;
   0x2402a26b0d31ea8b896279b0f54934d87bb9991ee3d02c5dc2541d483532;
   0x1d809a6ef662aee3f9d0a3f8a8880eb45d8c6c8e1483c123e8c109fca5ba4bbb;
   0x3209f9fbf91559e88d1aef37bbf057559c822ce993313fd36480c5b4f9d0d7;
   0x3feb6636a8cd8f05d03beef1c60b597d480efa39176049687d642b646420f1b1;
   0x1c8f3a6d726f3f174c2a766250199c4bc3a622a106ae043931a26fc75d5cf896;
   0x15b7f92b53829bdb088cd5cd797801e6ed2c824c18831807475ff7111777df5a;
   0x13709e42fff89727ec0154d723d2cafe3d9a810c8e9e0e2549a2ce7a8147146c;
   0x63aa7d87765f921eda4cf561626f7644da3b921fd7e9f9095df0fa926663c339;
   0x55e37e86f336bc788e49df45222496b2ab919d5e6e6e5e35d7c148a238c87d46;
   0x6495e74f46c2059f8848654315b0af6ca4bbdd4d3d41ab522585a97f4959f13e;
   0x1de93fdccc60f45217561d3417ff83006479c3f68924096228f3a540b96a0b53;
   0x3968cb9589b3fbd8e5ad644c97ae66b6621be9c8b3a887bf9c16f6321d892fce;
   0x1331e9e264e603496444c9c5fec41317625de79a12a907c2534ce033d918ac5b;
   0x1605e5cc04b0186f90fc83d55e52ccb41852847470935d26c58495018a6ac59d;
   0x3861d5f01af6dda5b75493e1623e6dac698355bc46d668c72eb3c92ae2f1d75f;
   0x692a4c73c1928afcc8b3b158a9f3275b3f4f76282c310e81a289909482fa0a46;
   0x27f58a64a8b832b3f6a87d4d5450f27acd637460a9110f6bd824e1f76f69fa7d;
   0x23dd944c526a3ee7f0d44774ea041a247917d82888cac4d6c2c351946fc9108b;
   0xdbf4f06b082250b922e62d34b762a38e1e8709e7733b2569839ba3015bef114;
   0x7d3352de980fb172c9d7bb7757865dd0e48a03928ce41ecab829606daa37d8c;
   0x4994804bbc6a5745eef1ec74028dc0932e53a52c101cfd7c9c034de8c25faee0;
   0x65b02e5b09938f0f5b339c444e45c5fb621282651bb8b4ef4de4c9413479da74;
   0x4ccba6fdeeaf0ec8a49883872e5c7b11d610126cbbe5b67dcc09ce675428ee40;
   0x4d78c4048f8678b9d2ff2764eb763ad3404321c2d044ae10a0ce4d78877c54;
   0x2ec4f2c8bfbdea268a8f726b6a6344a285a38b03d943fa502c5e9a582f9a7ad5;
   0x4dbb1081047ba784f17915468362f16a1576f5787c97aa55cbbe5ce71155c08d;
   0x1cd6630163e29dbe3fb322273fcf6eaab298acf0a5060765db5d213a310b2c1;
   0x3cca6a0fb2ef9e0b0f411f372850449996699a17391cf2804ef7db4ffd997531;
   0x146f773f9db20ff733aedb4b8a9f750aa41d78127b68208db580242d4dbebe2d;
   0x1039175598370809ecbd1144d1dc9f57b92967852416c94f5ee49722f29ec321;
   0x142b5bf5887af3249e70e05c238976bad5b47c63e31ce9387fae5482d0bf3d75;
   0x5138849acea063a1426e60c3a86396d16227c8c57b1464b9bbf5adc3dc6ba368;
   0x1070824b967fac030b6701a0506641985458a8c78a8d276af7d37a318ed2a2f5;
   0x1fffdb2d338955b03e25f6b00adb8734afcd33da78fc64b81c25866e7b59328e;
   0x5a4b7982b1de038aabb85cace17528aa4b3e42d5567cfec678217dbf4a528990;
   0x1eb210dc528589701e2651b7c62a42fcb0fa1d40e6f843bd20c8b101fcbcf173;
   0x28ed6d3935b5f84f4b42d279aeef1f183d6107f76c43e887eeab78359b02521a;
   0x1bcb7c49d1b8daa741db3c28ceea82bdc97b558b8ce5901964617eb1deba8adb;
   0x1d9711676bc47c84971ec37adc26b65002ff967e4a0c435db905ca6930488167;
   0x1a1370ee76fb87a88011c1434380d5674af5f4a0da45c55598476da8995cf9ca;
   0x25efb769699c6d7deaaf1a9c9af1cbeb12a36e14225f3b80e6c01d46dab39d41;
   0x1eafc7c977ed3bcfa755fb5a707321d7b73000d994be8d053991d4dcb7208674;
   0x24c8a1720749e0626154eae7e323318b65391d6862889c40b1be82a2a068a85;
   0x1519221ed1b60e73e1bbfd03f02b842664b4db7fe38bb1b6283f2c714293bf91;
   0x6f8bb8b5152f4004a551c3044c5fb308ede484bf06794a6b54b260993159dcd3;
   0x221c0dce4cf8a55acd73cfe3ca74b2fcbab03f482a7737ef09a07cbc9c1ce1db;
   0x40681cd1f3b57a5f046a2fd4eda7a6cce5dacc2c2bc707b89cb464fe08b5774;
   0x5e317b42ac4b5e871ee355c0249f1e98672536fe2782e548c7ae4654de12e4ab;
   0x20f82ec66ae9623e75a68c1b9dc1acdcb519025de9bac973ec6e6337a051d42c;
   0x1c675f19f5709d4b992fd2b6fa7eca08c15dfd0ba29d4e057d1424e0dbbe53d0;
   0x1b332f4b3315834f4b448ae0e3b694b8dc5aeed217389f4c04246c68a61ad24;
   0x16e83f56530d598e6395db5de254c88c293647675e59c24b51b0b1015a5e927f;
   0x5dc8d5c2e89dd54f50de0608d6e4fe295a9cd4a77ead600df36906d57938e0aa;
   0x26a3156f492f3af4676bed2c302536f0b465a4e7b76b1145b5dc36a2a7d46a8;
   0x1756f7962597064fc52d5fe36aa2298df7edfc82695bd84d6ae6a674d5d641e5;
   0x2421189ac3d34694246b128a8031e000e245942c1c29c523cafbd274e62f0611;
   0x6065f43c7a140a181ecbfb96eb7ff08f1f5b6523a643a995ed6688607bcb009b;
   0x175b513afadc5c66d89443d3980acc99227d7398081fecd72cf90cd3d545a212;
   0x9c73ccfcd995a642876d1af9324e46391206a79bd91ae8fdb375611efae45a1;
   0xe35f8f2c79e7d1111f505bbf1bf63807845eb14a50af48fc2cb2aa11b865fad;
   0x3c2820ffe7c23c715d3d352504d8bc3c376019a712b9f95f6b13e61b1c9760b9;
   0x2707ee8629682da37f67a74dd28e55b740dba358a90660073be80a2949d5400f;
   0x2e46fd6846fd318ec61d8e2c88d738998cd0843da46dfbbb2aada2cfe5db435b;
   0x2a35209181596876ef699d6aafd80383a8399e082023e4eab70384c93a23e0e4;
   0x4ad921c33e4ac2fc98b34cc263c94d002e829c85925cd4bc629cb88e279ad04;
   0x14382cc834ac57aa6eb2935351703a98330b8cbc1ce66500b6924a3fa213;
   0x96a19336149ce48985b110f82ffb09f3401cb07bbd0a89140b675b804b85c6a;
   0x2143c276f87c184d2a1a594fc1a509afaa707e8625d5aa9e2daa88a8a6d94749;
   0x189d0b1f71de929021a81a1157341ddebb1a03986e12e1da30127d4ef5bd67c1;
   0x159fe341014ec0df4a08c1d6a48c402af9f86a7808ebe392e14c08315d473f74;
   0x26968c8743ee19d866ce1173a29e8e701bef6b2efffd9b3e626738a5c40b4d83;
   0x6f57ae9e03b8899d4fb5a4c91f0889157f73ba3efa4804bc6b4eb3fd8a123460;
   0x41b205a821b33c3a32846b0705a770ddd03d82150dc413ee55ba5d43d3f7d37f;
   0x8ec3dfff7fa088fe5f51b35761e415d909649973a7c7bd735a2502ac0db8158;
   0x5e4d3b0e4b27fa861a5035d9a8bf768f499509fe501a08e4748ed126fa838fbc;
   0xfd88cdd517a6f3d08fecc17c5d3b1ba50e560bb35db30244fe4e01403261a39;
   0x346c2bca409938191e6f2b29ea313824bb1186e19dad23dc0f98f7f0b52255fa;
   0x136802ab85fcbffc3cf43089a7020f098e72658fdb9c6d2a68c3069cad6b5e;
   0x3a658b23eebffc629726fdde201e2af47041f4c8c924742711506d0fc4e7add;
   0xa48ca01e491beb530ffe91be883e0be457667d35912dcfdc58bfe770aaf91d9;
   0x7283e0b8c58c4da0c81fe3014a8097e27191721cda2511c1a1af6d69ec352c12;
   0x2ffc7c3c1fe91dcd30472a21ff529592bd886490de8264061bb21ba42370d5b8;
   0xa9e96da6756c346aee251dc76d59d8b2605671bf479ddc83b8311776416295d;
   0x179dcd1453807c6d52d4e561f9e611253fbb1608e27753aafde13c024b5841e5;
   0x587b3918d9fdba59a304f7ef6665583e59e31859651e6a196d75e4b16d79706a;
   0x31658fb60b56cbea3de0af7e0a972a77bd3c901b8187e87f133b84239c9941f;
   0x150c529cc6c7ee394f9cfd1ee837cd4facd94bb66ee33ace4f394124b1d24ba9;
   0x1fb6ca7c433f56a7d274abe990206d66c38e541639930f79d87972a04ca17314;
   0x302a383ceca7e1d114528766d8c2283dc30b7084d161253ad8273b851f49ca21;
   0x3231edad400b25aad4427e7511bfa99db8ca5494759cdf0097987c819352aa0e;
   0x6b142e3dadf83c6e4c04970d02e8ad0fe690a8582810875f3b75fc195b33fe4b;
   0x2a6f2adf4ec42ca103c7bda29922e91aa6d999fc9d3384fc158f9ec33f6ea7d2;
   0x9d117fc4b6bf30f4a7d2e621676285db70e1298cfe2709e0a22ebe523b4b42f;
   0x20c0dfc5c0439cd191bfdfe73ce8753746ce19671cab5f5303d4bbe674186081;
   0xeb228f2ad678ca16dc1bd8268dcff8ea2f271560fb33292f641a4ea11164eb6;
   0x5beb01b5f397adab61b1dc907968358d18b9aee5d5459d12574fa4e8175bb136;
   0x27bb3af66d94404aabcd618d3f5d172ad1e35f448a812d4e9102c6a0ba508ed;
   0x200db5f8ce0545313b4a460011dc88dd528e2bc3e2c92dbd7436bde219fd6190;
   0x2746809efd6e82bb8aae27b3b79051d8e78d488aaec06aa1c8645fa021d4b5fa;
   0x12763bd0d2c2e61cca2adfa63167e51bed572b9dadccb835f62531500069587;
   0x566cf0c47c26cd2e1dae98e23913609880fb19b1f56f62b2d32144c2db0d88bb;
   0x39fc78f38729d7119dc85c32524c8be40296023337e46541da90f04dc14eaa0;
   0x2a4495f7368906c70f6770ec1ddd161d0e5b53f8be9af94992f0869633b81e3;
   0x43b8e6624dd296a09f702c8ceb93ecfcd9a632c81a3d32d010a8c114f9956cfc;
   0x2928a2f4af51022f43d05bf463f0f1e3343522a00a92b10df7812d13a7ec4955;
   0x310b865750c468dff5e2ffe457b6045db35c7a3a5182e45e234bee59362d3de9;
   0xbba958d8eeb05ae9beed341432d15ed15e6ab11b54c6108c5692af83fa4efff;
   0xe512eb649400766055f09f26319537000abc9b3af40b9838877a7d8d4d7d0b8;
   0x7392a66832b27dbcc80ded4994d1014ab7da2733cf44067d879dfd6409dc44;
   0x1aecd1b13eefd6bb96364c557dcd9bd1974f2d26aec614310cb5f1aa5a1cc855;
   0x519b4c205da677a6065f02510f214e20592898b795877adf1fe43a8eb48e9e51;
   0x400641d424eaa6d4b3bdf7fcbc0ea5ab10ffa5de10eb34060230f19999e52a35;
   0x26ccad31bf795b59f8f821a5bb024b151c5a8cad4f2529878d04f48818029f5a;
   0xca3f272ffd7ff6577b245a16f96924f795ceccae6aead65a5e844666b5ba148;
   0xc22980a475ff28e9f69487da2416e6cfaef4ec5fdde9a8a300761c796e2e4e6;
   0x3dfd31f1fe273663a8b0b7c5890469aac97186390f700ed96a7db0f487e59698;
   0x1eb141d502a174ec633da1c2f86bdd9c5e56a8f7f29403eeae76335ab5295bb7;
   0xeb54855ca1242395c8fc28df1467b2205911025936c209b473614b99b8fe1a7;
   0x226720a0d5edf8c6df66aab7fcc5c6091931b2d47ea6b4e970632317bf37f4ab;
   0x1374516f7959ca24e0830a1106cae44652a14440c9fd798c7d3cb8da53513c3;
   0x1de9b8fb3ad5c6be4e2372d6f837b81908bd2645ab719a4501380729428e5069;
   0x7cf018f12edbcadbc23999a0ac18837f61c01bc7def8147bc27959ece4f334;
   0x1f317000db09af9f1b4dc8d9aab8b9388f94edff5db2773b69d2c9b5bb2cb3c9;
   0x7bd1a30b2a820cb2c429a515a0c4a3ac70ad88afcc785cfe3dc0f3c60bfbf43;
   0x167a760627207304cda82bcf0f53b40042e9b945e097b7bc6598aad9ca48f456;
   0x502f57f137507d988419cb090e72dd2ec23566dd0250dc82ec2719ccdd0ec9df;
   0x228a585ba5aa4373cbfb003c9f0f912cc5b178a88122f4d9cc0897c405dce811;
   0x27c2215a5dee908dd4c710dda9e068451e060ae70ad7a30dacc236e5bf449c;
   0x3bb79bf2ba9c7030ed5f52e2d336ac3aa8cfd1fb63a34d67f60f2647ea104ebf;
   0x280781c1e04237eaf11518f850ffa4c480ed0ea41d3deba0fbad0e0a1703a213;
   0x233f96fb67ff8bafa9b26bb0beb5d8c8bc639f6f98ab50029e31e3e97000397d;
   0x25e48e1026253030faf49e9440d29cf5a0635b95d6704ee69f506818ae6ae0f1;
   0x5c97ae9caa70bcc401b16d9a7fe783ed69b0beaa17f186a45c50cabef271a7;
   0xaabcb88a7e290f7d9f6c2a663052815a0b07a655afe56053916dbc511c77957;
   0x51a43206c995736390a6471ad52040b36d78dd0bc2f846c4af0f81eb6e7e8f9;
   0x64993dc42a809eb33fee48139a7752790d6b473080bac9b3a05a47f4e7116148;
   0x2bcc906505803aeccbccb46960691b56192cfd3e19a790694cfeb973bfc56cc3;
   0x1cfa1ba4bd1953f7e9ef035c55c0d0cd0d1bd99aab0a64f8155cdee6f6f2fdf;
   0x9d4e70db44915ac4ea32169f0a2e2178f5e2dacd9bdee473439c2bfacfd1692;
   0x13fc8d67eb82e85b14579c4610be35d47b5bb91608808dd6c972c4a2c484e34f;
   0x2d4b97f8d3f23355fa13bca55187af04d8c8ff95d4253c1f63fc927f0219f9df;
   0xcfeb5b1502f86cf4d1139057c5f873aa3fe266ddf4f1c4bb8eb0cf4c845d5c0;
   0x12868730fbb10a360485571ea140d4b9fc90402f69fee5c2301e444f70d3b82;
   0x5452ffcf55d215381e79eb071e867ac9b6ecbb4b32c3f14b4e30c9b28e79ce4b;
   0x7e81b87ac4fcf4fedfa2fd6c2a9deae5784ce5c57fe1cb26d681165582a1aa9;
   0x300c54697212fd0d2bb5fa6947c66e01e7d01f0ebae2a65a486e8a16ba4e94c3;
   0x98241990909243f807c7ba1dde811f9345c4966de54e5ce11cecad35b911cf6;
   0x643ed51ca644c9b0f79f6658808f49aefa279e87f720675bdd8a0847782d87e;
   0x17493d060c391686d724b1ccb07e0cdfc29c41cfbd1761a1c78d8b5b5a58f61a;
   0x6b331035a19065009ed394178dabb0c2f3975c4840a459f2e517e5156639ad12;
   0x1cdab8a12fc3d2fc9bfabcfc3482386beca1ad280c3ee80905ed262e49abf2ae;
   0x438fe96d075488f2cb4dd1eadd554715ca64564870b25ada3a26d4adaba80be1;
   0x79bbb83aa63f77cd923863df9e3c084b4e765d7204e5234b9e994add10232b6;
   0x1710f9c3e63af2c14591bbe7e4bdca389d0963734045b9a3e25cf22a4a722944;
   0x178cdfecf3955fb93a13b4268be0c8d8708f12c95ab18488cbfdd0ac502a0a6;
   0x5ee5d102348a47246d20106c79a97b520a4ee5812bee239bcf75f109d3ae2e1;
   0x25fc5ecb4e1c98f66f91b6bf2842a21f0d67b8c041cd42bf984625a9f6969de4;
   0x3fb733d7dc5b25b10f42c96fad6d7e3a90e5bf590a1eafa72502741c9e540b0c;
   0x276bbd6ce6b2626acbab1355e78bbaca0ecf04d8a6675c58bc562d1ea42a4ae;
   0x37e8ec17da8850fc414eaee50f9c5ad71b2644fbd819182cce5b71c6b69632e;
   0x1f6b7f93f81d047f9b149af7767ac681a39f0ffdd751ae71922d21416f75c3;
   0x5b20dbaea40d48c7c138158015fff6d94a21d7d8b036722d8c769805d685cb82;
   0x1ea112e6b2cc8ca03b97f76a468d48695fa45664e647d0aa601d4c216aecec1;
   0x912a3a355394fdd6f8a5aab037e103ee54004ab709ae3257f89a07ac39d7b34;
   0x711c458130f3c73d681e082ba78f65435a4efb777218968733558a53e896ad4d;
   0x11db0fbec408795c8a5555718d72b9a83393b8c7c7b288a5dd5c8345c461d;
   0x1987d1602523f406fa483a2a13b5c6819296ac20ff6de171b13ce93fa3b4c704;
   0x327d910776080c1f248e16c650cbaff2b3f83870486807c01099415750847af8;
   0x23357245db3deca64b9ca0458f2904149f1fbbc2320fb9758ea68003d70929aa;
   0x41b3b9c02bcd4c9f9d2d17c0503de12de40edc397370e313944da6049fb29eae;
   0x10ba20faf647f16700e1f7be4f6dd8d3e3d976ffe13c25f61f0bc0d86c642f1f;
   0x1956a083df35b8080d6c978825ddbbc85bc5538391a6b1fa4abff6e0d5c47af;
   0x2684166f995026d519c43b5606ea2a533ec3172b53e27198e236a2e71f49e93b;
   0x38fa32f3a9ee383a7f2aee54a149466c006e261c36f77a51c757be9ee78a936;
   0x2991fac65fa834ed3e2ad85cf2eca005e9f339490c5d8b8bfc58b8e70dff740b;
   0x7d5b49488d40cf18b4847cf9b5546db4c104ad47dde00664a0a46effd244493;
   0x114b77fc550b5c53d5fb988782b3c09ceb72b8990577c50c632a6a24672529c9;
   0xf495be8b1c6eb1473d60846c696737b68888ad6a15b832acce3825ce090767a;
   0x29b7640ca1c6b70870db60c6c7906f7561a3c4bb9fd5ab9eb4f7fd258e54bc2c;
   0x193e7804d5b56383f9b7806537d3cb909ae729cafdbe13e6b7944df28f82c0c1;
   0x13e2999faa16d2d8830c9b85ea56b9813252deb4f65a09d61e0c1ea27123d75c;
   0x17dfd91158ab599168c589b2092838234551ebb21b4ea79b5e248673a9a75c0;
   0x1fc44e85535d5826b4cc71624a471b5b5c3152079338c390ad5b947ec668c3;
   0x12d9ac037e2ac80f9d979841247c20d6630655263b5bbcdf5984ec1daf4fb2f;
   0x2d75c0a738524a4c3759233dcb77e157df9da6c98dfd35a91b34e25bff1cbf03;
   0x8336ef3d6094729fde5a989002a4b095690956ac7c413f88492c42b42c5f2c4;
   0x4e541462aca10a232660cf750308d0ec7711298c32172f70228fd007ab690656;
   0xc1b8839959eb5b9e2ffb03f019ce6391f927e65080420b36b4218da7f06a60;
   0x12ba47b9c29beb8d6518598cbadb75f7d4ce9698cde6bd49a64ad93a6b252f8c;
   0x23582d14e471abcda93322c7825abaac0553ae8dfd65b2810ade8245b1eb6f74;
   0x95de435126d4938366ad5ca834bd0e94840491b7a71b9e803eb237ea80cbcfd;
   0x1539021e9ad653bbfbce891011d3136d041a17e6915a8cf98103a90be65b0a06;
   0x6e79b80d9bdf630464042a364d8852fe260692961afe465160cd1e0c39de4180;
   0x1205b2ab4648dfdc9feba915b85a870736e797ca28fedcf01ee4baaaaf17dc42;
   0x1d418b733a1b0aae070b5fbf64eb0ae7da7aa4e6c521ea4c1fb11eb65562b314;
   0x5f573423cc8f595db913442ef250f006d9533ac2eafd11f0c258d0efcbf8a47;
   0x5cc600dcfcf55e6a03771ff6dda66f3b29e23848242f0d2d7eb24bd9bd447f06;
   0x17001a4a1f1f91dc81a80dd005a9486a11519cd5b88a948a64f59d5528cb3947;
   0xa0f23870f07aaa979ea0533cb6fe4e7c4a0e1738e45ee755f1faa52513287e;
   0x28afbbc3cbd9fbb0969c4a9f5f8f1b16c7262f515fce02c6e0cedbebb70ca5ce;
   0x297fe8b516b20bb5d1e466ab77db525962a6c1a850c903c34076f566301bf7cb;
   0x329d517c4ade238d450ee9b58a8fb435a010639668c600fa88000ec873a55960;
   0x615312e3825e2aba55c696a45d2977fc7b423c95115093aa6c72b5e71234abd;
   0x2f3379d805921cd191e1b6eb442c92a0c76e37d4eb1705ab715fa5544405936d;
   0x4f587d17e57a77588c913fb502e6e4cabf6a7bfe4cecd9c3c586cf9100ba1083;
   0x19e2df23f679f86ec22b2497b22f467f210c485f842851093f723bfcb476c848;
   0x11b9b81ea0d93768e7d8bddbf2ca3ed651e4022f6bda5cc2518fafb6fb91428d;
   0x2c3e1cde4295051fa5594211ee5921690a27f402111185e1cb75a226b7691d61;
   0x33c8629cc170e2e37a7902d21c5d14c8e5a4a678213f7ef1e2d3d1ad4940c69;
   0x1a0415960933a64d19a1a94338f9c9742aa563385676161076863fdf8e8d9723;
   0x471057eebf3fba4bb47abe139a3966f0f31be6a4e940793cd7a099c506f7ca5a;
   0x1360c10fb127335d794b715c04d7fceaa4ac675c13b1d39ae7d0bc5803729550;
   0x358c7980e36054ffb526ebf2159a9daade932c3b9bdd959e8eba136c822f3f6f;
   0x327a6800988ffa7ea1adbcf54c31b149c3bec3a2aa405278981c8f756fec21a3;
   0x5230a571cbbaa47fd196d3ecb801cfcd1c2695de8e08876f16b944f6b1a4c8a;
   0x290f833477dcb4814254fc49f4c7c35829fc1deed41dc3b5e6b03564c411c12c;
   0x7dc998d29bf95bde525ec8510ab38d7025bf8ba2432142a486f97096d47a70;
   0x25f489be957f93e22997ae51efbb8fcb6a24977971ad0611604eff0463d40e0f;
   0x589e38d2012b9507be31993f057ea70888fb7ec4ebc8ff6d55b09a50c65dcf3;
   0x1fb2e1f4e687a5ee4e4adaf33ecfddb4c5213adf0aee65be451a0533770d58f6;
   0x8098507026bb8448565c6599848150978c97a63d276113c0f80bfdccb753487;
   0x31419a203e3f57cb81aa8d4c7987701af313cc59a0c7533c5b434e30c9afebc9;
   0x3ca7bdffef0586a88442e67a02aef36fe4eb4b726981c6dc22e954c4ac5c1d28;
   0x5643e3e16f1ba8d43d36cce924e60a29fd6ece5083508746e06477af3163b4f;
   0xd310609908c270d13a761da85534d46e19044bb8db7f2cc5bcd4b574c96e93a;
   0x302fe04ad51882e7fc1c1f49fd27a2ced45025686266f5cedbdf5d11c7a50b90;
   0x710ea8ff6cde74342d175f55590577fcb7bffff4a4a75617d3374529cbacd12e;
   0xa111ed96dfa61858f0df5dee37da2fc5e5b002d6104834ae57984138dcd0138;
   0xea70880c038c0f4ec92aa2e7f8a742d36e088b50d9f184e5b17e55471680d06;
   0x5d1bd44d0dd7177c99088bc89bedcf80a6427559a18aeee81f3808408f9840a6;
   0x83153227e806d08fc0d50a8c26e825d3faf18965605782db6c98cca3090309a;
   0x25ff2ddc9204ca3a81c17ad1e6db69c56655e01680157cb0a2a1f02123c98de1;
   0xad7134bb65103b13bf54e09878aabba0dfb74595f2f93ad660a0fbe751a356e;
   0xaabc19021fae0d936d46ca43691f58117d0c760dfa56ff34948c2239c80c688;
   0x4e64fc23a49f474eff675ac3a6416523c336e02b252525a85a95eec835c31027;
   0x1c6bc6b1d72d75360217dfed872418a88be192aa614158189efd7a574a547188;
   0x5554744cfe6ce2d3957b9496aa8ee25503350e73d8cd6f802a82fdd46d16a761;
   0x36b2bbf1761b6aa503f0bdb1860866df34668ae002e70892353e5118e131c698;
   0x3b57806782cd69cb439044cfb6ebd6a5a4aea4c8e5c8471a09980feffe7c9f43;
   0x14300b242a5e613656f67851cd7576038381ab2a698d67f31a4f166739cbff10;
   0x5bc37b246b1f6b1cd6f603ca4bba6e694f55abe32c5e81acdad74094f53dea6;
   0x242db055c1cea23e72a4f9e21140bad7690abf9b0bc2bd9fb2d59c77dcda45dc;
   0x4d9c69aed60654ec80e203cdbab60627921c1458fc9ae1385ee8e09933d1d;
   0x26c4cf3ebefd399d3363fa65144a7c87177bd4f8c394db532052d621b638adb4;
   0x50b04fb10eee76657ca34618ae6888b1791b36ad8d04e0cc4ab58dace5c81176;
   0x16259e119cfa3d7a00e1e663163056e2a265db3afbc6e674ff262a50d29129ff;
   0x102c62b2ba231d5ddaa69a4aee38076d5bc43ed0e023c807e2e1dbde4d4cf90d;
   0x2e4ebe4e08b7ec50c502ff40c602eedebce8c054ff5419b796741ed2565fdf9c;
   0x1b86166188c3bedc601cb9bebabe6402e02d67e2c8b989f5cc7c69f281c38b6;
   0x34bad73cd7d2180cb614c6c0f2ea1b4b3ee3daadffe32d2ffe6cd49eecef45d6;
   0x70ef6e2704b1eb3638f418c0962e6ce7bda7e9da245ed1c1d65a531433837e06;
   0x3570fc80493c1634f7449916788061a83e1aa1ca9b5992292e8e0e2cbc3ff2d6;
   0x3592a7d3b3e9170d155b6c44638f591a0ddd1d4e099addce81ebe336411c9d;
   0x810c0ee118915962f835ee5de58f390e618ec7965b1bea4388c0ba70463be52;
   0x44a4687229bea82098b0fca4de5de82dfc00f49c730798792c836d3462d3967d;
   0x22cbd406e84b07747b4f45d874015f0258fdfe11db1669121902ff4fdc603e32;
   0x164b936c02546e6affdac825e8af0d62ddf1c2033c56e4d9aa177205eeae971f;
   0xf7d39e8cbb29d125237d88e372042e022c5adea4a156064f69730ebccbe0ab9;
   0x259786d4841689dc216c436ff0e583543f02481e964b388d21f034f3d10b5d74;
   0x3597c75a5fbbdeb8a93aa22af200b18bde078aaf59cba1697644d59707aac526;
   0x47b7db2c6f6f86a275b6960655c23a4ea2efaceab17869c714bf101c29fc15b;
   0x311a0b40de4d6c8060f1200e0740e1c1d7a58bd23b739d15ebb85d8b5cbd35f1;
   0x63c756cde213ed4e36fb1e3c058e310becf66fdec83cf81352df54ff290d1efd;
   0x216f48811eb8af37cfd9495f0a32ca8d9032354ad8298b75b52a4a352c0f17b5;
   0x5e6206d835ed54897a241c46d60639403af8ea037f8effbdc7ef98c3f5da6222;
   0xf3f1e950f494ea5056c33009947a67552efeb34c01545b673a78360dec4e803;
   0x4fdf2092df8ce69202c9343a248fa08e285069ce71c948c0b3f679d63072749c;
   0x2b79e67e62e615d9815a023609851afb65284eefa2c976d9a527e0d2e4dc6037;
   0x8ca24fbfdfeaab0d4e47c494ee5652c06157846abcc744e4a130c62cef00db;
   0x1b43422f4b2e1b887892a49e40c35f5d805211d4b666f13122084f09515891de;
   0x2324752d99412cc0aae9fe4e49ce200094aae2d1c5b3662a71e494c66c43864d;
   0x12f6a5729ea35baa00303d719ecdc7a5d0e0722a05237dccc6348eb1ac7f24c8;
   0x1f55bd55f7fdb7d79f0b5bf3830e1dd3a901116730a197b353f7d7a79b1acc8a;
   0x107ae9ab49b15f46dcbbe8f815309240a7ed277fc23b2cc370073d39ccb2565f;
   0x2517fa960ff8ca3ad2c89341778245a62836a6817928c806bff351e47f9db206;
   0x2ba0c9133faebd2b0afb4a81f7451d5685f7ebc159270a0b2e4a23292f866467;
   0x13294a966b67d1bbcfff90d0c164540d9bfb2bd8e28a348f4ba1aa5aad40c38c;
   0xec35d00bc2a1502901f07ffa829f8201e7f860393e4d5d5337d688166596bb3;
   0x1ede68fa451a5cb161725288dcb4c9022bc4ad06cb93078ad60c36f038ea4571;
   0x2fb81d6b7719391a88b780f4ee902af7a01d751dc127a7134046613f2590e448;
   0x104e5b57e6b1c9b47cb978f2bedc494d62f2074bf774d313576a348057d80752;
   0x180c63f0de5b0453dc2411cd30459dc6d9793f251eabe55be8cd0afc1230665f;
   0x6a6eeb778e57f4acfe2603617f83160dfd483c2c861b632ec03eb351b16f19e5;
   0xf71c700fd5574e46283cecd0ed8d80912b8cbb6b7926008c70814c19308b4cc;
   0x20d7a8f776edea0784628cd7453dc2533a9d20d36bd6068d1e798c5e2df842e4;
   0x2505680d5f0884cfa3f1e29374ce2ab7b6ef581934bcc8f7cf758c309a1ae7b7;
   0x3c4e15e8e639ba946b9d42b60a3396a891bfa3cd71c949aa8255b35261cf4d3d;
   0x1af26701f5e5eb9e37a5911990183463190c840741dde63b302b96085b115189;
   0x3f07036257e3dff810e5b2a11757d6f7b35727d0946f30679e3cee8fc396cc5;
   0x2e0b6998c3a819745854b62c2d68d37e358270f6f9c6642976a6486ac9307dfd;
   0x121e6b2bd0a23d9dc0b697f44864c1ef92d103a6ab514965ad554ca8f9a1182a;
   0x1831f8473af158bfa3ea57bda321ae46dcc3be604e826d820c8f041c7385a70b;
   0x61eeb9417821c1a754af0a00d705a86884166680f72582b795f6dab0420b9923;
   0xdc3cb4fa9416407f793d8187850a181b29b9b155328d520dd66165f88f0bcf;
   0x26089f4f248d4268de4dc21140182512501cf2dc7ce8a029adc3ff004e2ac28;
   0x1fa5a6dfb257a3abef8ce33eeab6fecf72ff832a4468e95f9e323fad13b5ec0;
   0xf216a04ef1d7d4e9cb8e62befc54a4a4f5bbbb7b8ef1ef48516a0b42e7f63db;
   0x87d0730dd6ab3ad497b5e77f013d7e9cb02379530b7e1263601c1c0c04b036d;
   0x12e49978d017c43426318735059e47b577277b65badf4aa9a0692305895c352f;
   0x19a640ebfb21bce015f20c4be3f3ba9ab08c57d0458ff26d20493c1899414808;
   0x4784c525be7100910884fe8603020c2a7a43b8cdc150df9a3b1e2b25c66292ce;
   0x270815e00618ab7312cb106a95a95b28ad6b1bcd2ea91168f5e6df6fae4a0611;
   0x1dbb0ff3e98067bdd6447c65adcb5681744f6fe9c19b4a88f0313296d03c3b8;
   0xb54aeda5d4472df54b8986cc5ce15e391f547e4c62f5ea76120a11bcd61097e;
   0x5910b526c84ddd77c49097f35db4e6a62b401efd54e53967332cc7acebafaaba;
   0x28e570fa59c3f3a91e19e6f534fc27f56ee7b830ceceb1797704263e8e303994;
   0x73941d6c3a5ffddf7bb8f06e604c74c1776c5a4d66126f43c8fab754ad90f5f9;
   0xb6c7f79ca05a1a92173e0d2520d61fa4f6b21521d67ea8b4ea24ab0a12ea2ee;
   0xae43fd04d691597378aec7253710234f2c235515b6dd9a07b39b837ddf7f229;
   0x207f4ca8ceb66669628fe97328e1d5ae3a405e424ccae024c47776819d1b1c15;
   0xa0a36659968e399d98f7f3fd757e3f9fdecc728e6c51e7fca6a7302a5695768;
   0x12f55cb2a1563037d5c8bc7474bfe447191d0be01b7998d1ef8cc92d27a2a6ec;
   0x1e710c18a852572d732da59a0c696da79160caceb0b646c84764121f2e30e51e;
   0x32f6be69d72f4c5c69fd6a97b3c31953d76d5440c902a0ecdaa3c7b4bb1279cc;
   0x73eda753299d7d483339d80809a1d80553bda402fffe5bfefffffffeffffffff].

Lemma prime_52437899 : prime 52437899.
Proof.
  apply (lucas_check_prime _ 2 [2; 43; 609743]); [|vm_compute; reflexivity].
  repeat apply Forall_cons; try apply Forall_nil; apply small_prime_spec; vm_compute; reflexivity.
Qed.
Lemma prime_63690073 : prime 63690073.
Proof.
  apply (lucas_check_prime _ 7 [2; 2; 2; 3; 2653753]); [|vm_compute; reflexivity].
  repeat apply Forall_cons; try apply Forall_nil; apply small_prime_spec; vm_compute; reflexivity.
Qed.
Lemma prime_254760293 : prime 254760293.
Proof.
  apply (lucas_check_prime _ 2 [2; 2; 63690073]); [|vm_compute; reflexivity].
  repeat apply Forall_cons; [apply prime_2|apply prime_2|exact prime_63690073|apply Forall_nil].
Qed.

Lemma r_factors_prime : Forall prime r_factors.
Proof.
  unfold r_factors. apply Forall_app. split.
  - apply Forall_forall. intros f Hf. apply repeat_spec in Hf. rewrite Hf. exact prime_2.
  - repeat apply Forall_cons; first [apply Forall_nil|exact prime_52437899|exact prime_254760293|apply small_prime_spec; vm_compute; reflexivity].
Qed.

Theorem r_prime : prime r_modulus.
Proof. apply (lucas_tree_prime r_modulus 7 495857704073351749697536 r_tree r_factors r_hints r_factors_prime). vm_compute. reflexivity. Qed.
