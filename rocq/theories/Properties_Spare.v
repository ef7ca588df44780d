(** C119: what the library does with parameters that have too few or too many generators. *)
From Verif Require Import Base Env SpecTime Time SubKey SecretKey Keys Sig Api SpecKey Toy ToyRun SpecSpare SpareProps.
From Coq Require Import Lia.
Local Open Scope N_scope.

(** Too many: the generators after the first [depth + 1] are never looked at. *)
Theorem C119_spare_unused : forall (E : env) m (pp pp' : pubparam E) s pk pks sk t msg seed, same_used pp pp' -> (pp_depth pp < 64)%nat ->
  key_gen seed pp' = key_gen seed pp
  /\ sign_present m t pp' msg sk = sign_present m t pp msg sk
  /\ verify m s pk pp' msg = verify m s pk pp msg
  /\ verify_aggregated m s pks pp' msg = verify_aggregated m s pks pp msg
  /\ sk_validate m sk pk pp' = sk_validate m sk pk pp.
Proof. exact spare_calls. Qed.
Print Assumptions C119_spare_unused.

Theorem C119_spare_unused_by_update : forall (E : env) m (pp pp' : pubparam E) o sk, same_used pp pp' -> (pp_depth pp < 64)%nat ->
  Forall (fits (pp_depth pp)) (sec_ssk sk) -> step m pp' o sk = step m pp o sk.
Proof. exact spare_steps. Qed.
Print Assumptions C119_spare_unused_by_update.

Theorem C119_spare_unused_by_histories : forall (E : env) (L : env_laws E) m m' (pp pp' : pubparam E) pk sk ops, pp_ok pp -> same_used pp pp' -> reachable m pp pk sk ->
  run m' pp' ops sk = run m' pp ops sk.
Proof. exact spare_run. Qed.
Print Assumptions C119_spare_unused_by_histories.

Theorem C119_same_keys : forall (E : env) (L : env_laws E) m (pp pp' : pubparam E) pk sk, pp_ok pp -> same_used pp pp' ->
  (reachable m pp' pk sk <-> reachable m pp pk sk).
Proof. exact spare_reachable. Qed.
Print Assumptions C119_same_keys.

(** Without [fits] the second one is false: a key with too long an h-vector. *)
Theorem C119_any_key_refuted : exists (E : env) (pp pp' : pubparam E) t seed sk, env_laws E /\ pp_ok pp /\ same_used pp pp'
  /\ fst (update Debug pp t seed sk) = Panic P_INDEX /\ fst (update Debug pp' t seed sk) = Ok tt.
Proof. exact spare_any_key_refuted. Qed.
Print Assumptions C119_any_key_refuted.

(** Too few: nothing is signed and nothing accepted, and exactly these calls panic. *)
Theorem C119_verify_panics : forall (E : env) (L : env_laws E) m s pk (pp : pubparam E) msg, (pp_depth pp < 64)%nat ->
  (forall e, verify m s pk pp msg <> Err e)
  /\ forall p, verify m s pk pp msg = Panic p <->
     p = P_INDEX /\ (pp_cs pp = 0 \/ pp_cs pp = 1) /\ sig_cs s = pp_cs pp /\ g2_insub (sig_1 s) = true /\ g1_insub (sig_2 s) = true
     /\ (pp_hlist pp = [] \/ too_few pp /\ 1 <= sig_time s <= last_time (pp_depth pp)).
Proof. exact few_verify. Qed.
Print Assumptions C119_verify_panics.

Theorem C119_nothing_accepted : forall (E : env) m s pk pks (pp : pubparam E) msg, too_few pp ->
  verify m s pk pp msg <> Ok true /\ verify_aggregated m s pks pp msg <> Ok true.
Proof. exact few_accepts. Qed.
Print Assumptions C119_nothing_accepted.

Theorem C119_nothing_signed : forall (E : env) m (pp : pubparam E) o sk s, too_few pp -> fst (step m pp o sk) <> Ok (Some s).
Proof. exact few_signs. Qed.
Print Assumptions C119_nothing_signed.

Theorem C119_sign_panics : forall (E : env) (L : env_laws E) m (pp : pubparam E) sk t msg, (pp_depth pp < 64)%nat ->
  forall p, fst (sign_present m t pp msg sk) = Panic p <->
     p = P_INDEX /\ too_few pp /\ (pp_cs pp = 0 \/ pp_cs pp = 1) /\ sec_cs sk = pp_cs pp /\ sec_time sk = t
     /\ exists ssk rest, sec_ssk sk = ssk :: rest /\ 1 <= sk_t ssk <= last_time (pp_depth pp).
Proof. exact few_sign_panics. Qed.
Print Assumptions C119_sign_panics.

Theorem C119_key_gen_panics : forall (E : env) (L : env_laws E) (pp : pubparam E) seed,
  (forall p, key_gen seed pp = Panic p <-> p = P_INDEX /\ (32 <= length seed)%nat /\ (pp_cs pp = 0 \/ pp_cs pp = 1) /\ pp_hlist pp = [])
  /\ forall pk sk pop, key_gen seed pp = Ok (pk, sk, pop) ->
     exists s, sec_ssk sk = [s] /\ length (sk_hvec s) = Nat.min (pp_depth pp) (length (pp_hlist pp) - 1).
Proof. exact few_key_gen. Qed.
Print Assumptions C119_key_gen_panics.

(** Key generation does not notice. *)
Theorem C119_key_gen_notices_refuted : forall (E : env) (L : env_laws E) (pp : pubparam E) m seed msg, (1 <= pp_depth pp < 64)%nat -> too_few pp -> pp_hlist pp <> [] ->
  (32 <= length seed)%nat -> pp_cs pp = 0 \/ pp_cs pp = 1 ->
  exists pk sk pop, key_gen seed pp = Ok (pk, sk, pop) /\ fst (sign_present m 1 pp msg sk) = Panic P_INDEX.
Proof. exact few_unnoticed. Qed.
Print Assumptions C119_key_gen_notices_refuted.

Example C119_example_spare : same_used tpp4 tpp4x /\ tpp4x <> tpp4 /\ run Debug tpp4x [OpUpdate 9 tseed] tsk4 = run Debug tpp4 [OpUpdate 9 tseed] tsk4.
Proof.
  split; [exact tpp4x_used|]. split.
  - intros H. apply (f_equal (fun p : pubparam toy => length (pp_hlist p))) in H. unfold tpp4x in H. cbn [pp_hlist] in H. rewrite app_length in H. cbn [length] in H. lia.
  - apply (C119_spare_unused_by_histories toy toy_laws Debug Debug tpp4 tpp4x tpk4 tsk4 _ tpp4_ok tpp4x_used).
    exists tseed, tsk4, tpop4, []. split; [exact tkeygen|reflexivity].
Qed.
Example C119_example_few : too_few tpp4s
  /\ exists pk sk pop, key_gen tseed tpp4s = Ok (pk, sk, pop) /\ fst (sign_present Debug 1 tpp4s [] sk) = Panic P_INDEX.
Proof.
  split; [exact tpp4s_few|]. apply (C119_key_gen_notices_refuted toy toy_laws tpp4s Debug tseed []).
  - change (pp_depth tpp4s) with 4%nat. lia.
  - exact tpp4s_few.
  - discriminate.
  - apply Nat.leb_le. reflexivity.
  - left. reflexivity.
Qed.
