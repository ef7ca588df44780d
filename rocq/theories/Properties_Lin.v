(** Property C55 and the ones next to it: linear attacks on leaked keys and signatures.
    Specification vocabulary: SpecLin.v ([works], [forged], [held_keys], [held_sigs],
    [exp_keys], [exp_sigs], [unlucky], [from_earlier]), SpecTime.v ([below], [last_time]).
    The attacker sees the public parameters, the public key, sub keys and signatures, but
    not the proof of possession. *)
From Coq Require Import String.
From Verif Require Import Base Env Time Hkdf SpecTime Prng SpecPrng SubKey SecretKey Keys Sig Api
  SpecKey SpecUpdate SpecLin LinProps Toy ToyRun WitSigProps.
Local Open Scope N_scope.

(** C55 *)
Theorem C55_leaked_key_iff : forall (E : env) (L : env_laws E) (g : G1 E) m (pp : pubparam E) pk sk qs t msg,
  g1_insub g = true -> g <> g1_zero -> pp_ok pp -> reachable m pp pk sk ->
  Forall (fun q => 1 <= fst q <= last_time (pp_depth pp)) qs ->
  ((exists A B, @works E m (pp_depth pp) (pp_cs pp) (map sk_t (sec_ssk sk)) qs A B t msg) <->
   sec_time sk <= t <= last_time (pp_depth pp)
   \/ (exists msg', In (t, msg') qs /\ msg_scalar pp msg' = msg_scalar pp msg)).
Proof. exact leaked_key_iff. Qed.
Print Assumptions C55_leaked_key_iff.

Theorem C55_leaked_key_rare : forall (E : env) (L : env_laws E) (g : G1 E) m (pp : pubparam E) pk sk qs t msg A B,
  g1_insub g = true -> g <> g1_zero -> pp_ok pp -> reachable m pp pk sk ->
  Forall (fun q => 1 <= fst q <= last_time (pp_depth pp)) qs ->
  t < sec_time sk ->
  ~ (exists msg', In (t, msg') qs /\ msg_scalar pp msg' = msg_scalar pp msg) ->
  let d := pp_depth pp in let cs := pp_cs pp in let ts := map sk_t (sec_ssk sk) in
  exists bad, from_earlier bad /\
    forall p ks sigs, (forall i, p i < fr_modulus) ->
      exp_keys g d cs p ts ks -> exp_sigs g d cs p (length ts) qs sigs ->
      verify m (forged A B t (exp_pp g d cs p) (exp_pk cs p) ks sigs) (exp_pk cs p) (exp_pp g d cs p) msg = Ok true ->
      unlucky (3 + d + (length ts + length qs)) bad p.
Proof. exact leaked_key_rare. Qed.
Print Assumptions C55_leaked_key_rare.

Theorem C55_leaked_key_view : forall (E : env) (L : env_laws E) m (pp : pubparam E) pk sk,
  pp_ok pp -> reachable m pp pk sk ->
  exists x, pk = PubKey (pp_cs pp) (g2_mul x (pp_g2 pp))
    /\ (Forall (fun s => sk_g2r s <> g2_zero) (sec_ssk sk) ->
        held_keys pp x (map sk_t (sec_ssk sk)) (sec_ssk sk)).
Proof. exact leaked_key_view. Qed.
Print Assumptions C55_leaked_key_view.

(** A key leaked at time 7 after a signature at time 3. *)
Definition tg : G1 toy := pp_h tpp4.
Lemma tg_ok : g1_insub tg = true /\ tg <> g1_zero.
Proof. split; [reflexivity|]. intros H. apply (f_equal zv) in H. vm_compute in H. discriminate H. Qed.
Definition tqs : list (N * bytes) := [(3, str "hi")].
Lemma tqs_ok : Forall (fun q => 1 <= fst q <= last_time 4) tqs.
Proof. constructor; [split; intros H; discriminate H|constructor]. Qed.
Example C55_example :
  (exists A B, @works toy Debug 4 0 [7; 8; 9] tqs A B 9 (str "any"))
  /\ (exists A B, @works toy Debug 4 0 [7; 8; 9] tqs A B 3 (str "hi"))
  /\ ~ (exists A B, @works toy Debug 4 0 [7; 8; 9] tqs A B 3 (str "ho"))
  /\ ~ (exists A B, @works toy Debug 4 0 [7; 8; 9] tqs A B 6 (str "hi")).
Proof.
  pose proof (fun t msg => C55_leaked_key_iff toy toy_laws tg Debug tpp4 tpk4 tsk7 tqs t msg
    (proj1 tg_ok) (proj2 tg_ok) tpp4_ok tsk7_reachable tqs_ok) as H.
  change (pp_depth tpp4) with 4%nat in H. change (pp_cs tpp4) with 0 in H.
  change (map sk_t (sec_ssk tsk7)) with [7; 8; 9] in H. change (sec_time tsk7) with 7 in H. change (last_time 4) with 15 in H.
  split; [apply H; left; split; intros H1; discriminate H1|].
  split; [apply H; right; exists (str "hi"); split; [left; reflexivity|reflexivity]|].
  split; intros H1; apply H in H1 as [[H1 _]|(msg' & [H1|[]] & H2)].
  - apply H1. reflexivity.
  - injection H1 as <-. revert H2. unfold msg_scalar. 
    assert (Hs : spec_msg (sha512 toy) DOM_SEP_HASH_TO_MSG 0 (str "hi") =? spec_msg (sha512 toy) DOM_SEP_HASH_TO_MSG 0 (str "ho") = false)
      by vm_cast_no_check (eq_refl false).
    apply N.eqb_neq in Hs. exact Hs.
  - apply H1. reflexivity.
  - discriminate H1.
Qed.

(** Exponents 2, 3, 4, ..., 17, 2, ... and the sub key for time 9: copying it works for time 9 but
    not for time 8. *)
Definition tp (i : nat) : N := N.of_nat i mod 16 + 2.
Definition tks : list (subkey toy) := [honest_ssk (exp_pp tg 4 0 tp) 2 9 [2] (tp 7)].
Example C55_example_exponents :
  (forall i, tp i < fr_modulus)
  /\ exp_keys tg 4 0 tp [9] tks /\ exp_sigs tg 4 0 tp 1 [] []
  /\ below 4 9 9 /\ ~ below 4 9 8
  /\ let A := [0; 0; 1] in
     let B := [0; 0; 0; 0; 0; 0; 1; 0; 0; scalar_of toy 0 (str "hi")] in
     verify Debug (forged A B 9 (exp_pp tg 4 0 tp) (exp_pk 0 tp) tks []) (exp_pk 0 tp) (exp_pp tg 4 0 tp) (str "hi") = Ok true
     /\ verify Debug (forged A B 8 (exp_pp tg 4 0 tp) (exp_pk 0 tp) tks []) (exp_pk 0 tp) (exp_pp tg 4 0 tp) (str "hi") = Ok false.
Proof.
  split.
  { intros i. unfold tp. apply N.lt_trans with 18; [|reflexivity]. apply (N.add_lt_mono_r _ 16 2), N.mod_lt. discriminate. }
  split.
  { split; [reflexivity|]. intros [|[|j]] t Ht; try discriminate Ht. injection Ht as <-. exists [2].
    split; [split; [discriminate|reflexivity]|]. vm_cast_no_check (eq_refl (nth_error tks 0)). }
  split; [split; [reflexivity|intros [|j] q Hq; discriminate Hq]|].
  split; [exists [2], []; split; (split; [discriminate|reflexivity])|].
  split.
  { intros (va & w & [_ H1] & [_ H2]). injection H1 as <-. discriminate H2. }
  split; [vm_cast_no_check (eq_refl (Ok true))|vm_cast_no_check (eq_refl (Ok false))].
Qed.

(** The general characterisation. *)
Theorem C55_linear_attack_iff : forall (E : env) (L : env_laws E) (g : G1 E) m d cs ts qs t msg,
  g1_insub g = true -> g <> g1_zero -> (1 <= d < 64)%nat -> cs = 0 \/ cs = 1 ->
  Forall (fun s => 1 <= s <= last_time d) ts -> Forall (fun q => 1 <= fst q <= last_time d) qs ->
  ((exists A B, @works E m d cs ts qs A B t msg) <->
   (exists a, In a ts /\ below d a t)
   \/ (exists msg', In (t, msg') qs /\ scalar_of E cs msg' = scalar_of E cs msg)).
Proof. exact linear_attack_iff. Qed.
Print Assumptions C55_linear_attack_iff.

Theorem C55_linear_attack_rare : forall (E : env) (L : env_laws E) (g : G1 E) m d cs ts qs t msg A B,
  g1_insub g = true -> g <> g1_zero -> (1 <= d < 64)%nat -> cs = 0 \/ cs = 1 ->
  Forall (fun s => 1 <= s <= last_time d) ts -> Forall (fun q => 1 <= fst q <= last_time d) qs ->
  ~ (exists a, In a ts /\ below d a t) ->
  ~ (exists msg', In (t, msg') qs /\ scalar_of E cs msg' = scalar_of E cs msg) ->
  exists bad, from_earlier bad /\
    forall p ks sigs, (forall i, p i < fr_modulus) ->
      exp_keys g d cs p ts ks -> exp_sigs g d cs p (length ts) qs sigs ->
      verify m (forged A B t (exp_pp g d cs p) (exp_pk cs p) ks sigs) (exp_pk cs p) (exp_pp g d cs p) msg = Ok true ->
      unlucky (3 + d + (length ts + length qs)) bad p.
Proof. exact linear_attack_rare. Qed.
Print Assumptions C55_linear_attack_rare.

(** C59 *)
Theorem C59_signatures_only_iff : forall (E : env) (L : env_laws E) (g : G1 E) m d cs qs t msg,
  g1_insub g = true -> g <> g1_zero -> (1 <= d < 64)%nat -> cs = 0 \/ cs = 1 ->
  Forall (fun q => 1 <= fst q <= last_time d) qs ->
  ((exists A B, @works E m d cs [] qs A B t msg) <->
   exists msg', In (t, msg') qs /\ scalar_of E cs msg' = scalar_of E cs msg).
Proof. exact signatures_only_iff. Qed.
Print Assumptions C59_signatures_only_iff.

Example C59_example : (exists A B, @works toy Debug 4 0 [] tqs A B 3 (str "hi"))
  /\ ~ (exists A B, @works toy Debug 4 0 [] tqs A B 4 (str "hi")).
Proof.
  pose proof (fun t msg => C59_signatures_only_iff toy toy_laws tg Debug 4 0 tqs t msg
    (proj1 tg_ok) (proj2 tg_ok) ltac:(lia) (or_introl eq_refl) tqs_ok) as H.
  split; [apply H; exists (str "hi"); split; [left; reflexivity|reflexivity]|].
  intros H1. apply H in H1 as (msg' & [H1|[]] & _). discriminate H1.
Qed.

(** C60 *)
Theorem C60_one_subkey_iff : forall (E : env) (L : env_laws E) (g : G1 E) m d cs a t msg,
  g1_insub g = true -> g <> g1_zero -> (1 <= d < 64)%nat -> cs = 0 \/ cs = 1 -> 1 <= a <= last_time d ->
  ((exists A B, @works E m d cs [a] [] A B t msg) <-> below d a t).
Proof. exact one_subkey_iff. Qed.
Print Assumptions C60_one_subkey_iff.

Example C60_example : (exists A B, @works toy Debug 4 0 [2] [] A B 8 (str "hi"))
  /\ ~ (exists A B, @works toy Debug 4 0 [2] [] A B 9 (str "hi"))
  /\ ~ (exists A B, @works toy Debug 4 0 [2] [] A B 1 (str "hi")).
Proof.
  pose proof (fun t msg => C60_one_subkey_iff toy toy_laws tg Debug 4 0 2 t msg
    (proj1 tg_ok) (proj2 tg_ok) ltac:(lia) (or_introl eq_refl) ltac:(split; intros H; discriminate H)) as H.
  split; [apply H; exists [1], [2; 2]; split; (split; [discriminate|reflexivity])|].
  split; intros H1; apply H in H1 as (va & w & [_ H1] & [_ H2]); injection H1 as <-; discriminate H2.
Qed.
