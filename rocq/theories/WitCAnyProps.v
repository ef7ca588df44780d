(** Witness behind Properties_CAny.v. *)
From Verif Require Import Base Env SpecTime Prng PrngFacts SubKey SecretKey Keys IO Serdes Api Ffi SpecKey SpecSer SpecUpdate
  SerProps SpecAny SpecCAny CAnyProps Toy ToyRun.
Local Open Scope N_scope.

(** A generated key, followed by 254 sub keys for the last time stamp. *)
Definition tfirst : subkey toy := Eval cbv beta iota delta [tsk4 sec_ssk hd] in hd (SubKey 0 g2_zero g1_zero []) (sec_ssk tsk4).
Definition tfill : subkey toy := SubKey 15 (sk_g2r tfirst) (sk_hpoly tfirst) [].
Definition tmany : seckey toy := SecKey (pp_cs tpp4) 1 (tfirst :: repeat tfill 254) (sec_prng tsk4).

Lemma tfirst_wf : wf_ssk tfirst.
Proof.
  assert (H : wf_sk tsk4) by (apply (reachable_sk_representable toy toy_laws Debug tpp4 tpk4 tsk4 tpp4_ok); [cbn; repeat constructor|exact tsk4_reachable]).
  pose proof (wsk_ssk tsk4 H) as Hf. inversion Hf; assumption.
Qed.
Lemma tfill_wf : wf_ssk tfill.
Proof.
  destruct tfirst_wf as [H1 H2 H3 H4 H5]. constructor; cbn [tfill sk_t sk_hvec sk_g2r sk_hpoly length]; auto.
  - split; [discriminate|reflexivity].
  - apply Nat.lt_0_succ.
Qed.
Lemma tmany_draws : forall i, (1 <= i < 3)%nat -> draws (sha512 toy) i (spec_reseed tmany []) <> sec_prng tsk4.
Proof.
  intros i Hi H.
  assert (Hb : bytes_eqb (draws (sha512 toy) 1 (spec_reseed tmany [])) (sec_prng tsk4) = false
            /\ bytes_eqb (draws (sha512 toy) 2 (spec_reseed tmany [])) (sec_prng tsk4) = false).
  { split; vm_cast_no_check (eq_refl false). }
  destruct Hb as [H1 H2]. apply bytes_eqb_eq in H.
  destruct i as [|[|[|i]]]; [lia|rewrite H1 in H; discriminate H|rewrite H2 in H; discriminate H|lia].
Qed.

Lemma tmany_lost : forall m,
  wf_sk tmany /\ holds_sk (sk_blob true tmany) tmany
  /\ exists sk1 sk2 b, update m tpp4 3 [] tmany = (Ok tt, sk1) /\ update m tpp4 9 [] sk1 = (Ok tt, sk2)
     /\ c_sk_update m tpp4 (sk_blob true tmany) [] 3 = Ok b /\ c_sk_update m tpp4 b [] 9 = Panic P_FFI.
Proof.
  intros m. apply (sub_keys_lost toy_laws m tpp4 tfirst tfill (sec_prng tsk4) [] []).
  - exact tpp4_ok.
  - reflexivity.
  - left. reflexivity.
  - exact tfirst_wf.
  - reflexivity.
  - exact tfill_wf.
  - reflexivity.
  - split; [apply (Nat.leb_le 2); reflexivity|apply Nat.ltb_lt; reflexivity].
  - reflexivity.
  - exact tmany_draws.
Qed.

Lemma c_update_loses : exists (E : env) (pp : pubparam E) b sk sk1 sk2 b1,
  env_laws E /\ pp_ok pp /\ wf_sk sk /\ holds_sk b sk
  /\ update Debug pp 3 [] sk = (Ok tt, sk1) /\ update Debug pp 9 [] sk1 = (Ok tt, sk2)
  /\ c_sk_update Debug pp b [] 3 = Ok b1 /\ c_sk_update Debug pp b1 [] 9 = Panic P_FFI.
Proof.
  destruct (tmany_lost Debug) as (Hw & Hh & sk1 & sk2 & b1 & H1 & H2 & H3 & H4).
  exists toy, tpp4, (sk_blob true tmany), tmany, sk1, sk2, b1. repeat (split; [assumption || exact toy_laws || exact tpp4_ok|]). exact H4.
Qed.
