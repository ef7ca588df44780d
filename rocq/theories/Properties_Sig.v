(** Properties C16-C21, C54 and C57: signing (src/sig.rs sign, sign_present,
    sign_then_update).
    Specification vocabulary: SpecSig.v ([signs], [one_time], [sig_times]), SpecKey.v
    ([honest_sig]), SpecUpdate.v ([draws], [spec_reseed], [msg_scalar], [sign_info]),
    Api.v ([step], [run], [reachable]). *)
From Coq Require Import String Sorting.Sorted.
From Verif Require Import Base Env Time Hkdf SpecTime Prng SpecPrng SubKey SecretKey Keys Sig IO Serdes Api
  SpecKey SpecUpdate SpecSig SigProps VerProps SignProps Toy ToyRun WitProps WitSigProps.
Local Open Scope N_scope.

(** C16 *)
Theorem C16_signatures_verify : forall (E : env) (L : env_laws E) m m' (pp : pubparam E) seed pk sk pop ops,
  pp_ok pp -> key_gen seed pp = Ok (pk, sk, pop) ->
  Forall2 (fun o r => match r with
                      | Ok (Some s) => exists t msg, signs o = Some (t, msg) /\ verify m' s pk pp msg = Ok true
                                                     /\ sig_time s = t /\ sig_cs s = pp_cs pp
                      | _ => True
                      end) ops (fst (run m pp ops sk)).
Proof. exact history_signatures_verify. Qed.
Print Assumptions C16_signatures_verify.

(** The history of ToyRun.v returns signatures for times 6, 6 and 6. *)
Example C16_example : sig_times (fst (run Debug tpp4 thist tsk4)) = [6; 6; 6].
Proof. rewrite trun_ok. reflexivity. Qed.
Example C16_example_wrong_message : verify Debug tsig7 tpk4 tpp4 (str "hello") = Ok true
  /\ verify Debug tsig7 tpk4 tpp4 (str "hullo") = Ok false.
Proof. split; [vm_cast_no_check (eq_refl (Ok true))|vm_cast_no_check (eq_refl (Ok false))]. Qed.

(** C17.  The hypothesis excludes the assertion "prng not updated" of the update
    (see C08); without it that assertion is the only other outcome. *)
Theorem C17_sign_outcomes : forall (E : env) (L : env_laws E) m m' (pp : pubparam E) pk sk t msg seed,
  pp_ok pp -> reachable m pp pk sk ->
  (forall i, (1 <= i < pp_depth pp)%nat -> draws (sha512 E) i (spec_reseed sk seed) <> sec_prng sk) ->
  (sec_time sk <= t <= last_time (pp_depth pp) ->
     exists s sk', sign m' t pp msg seed sk = (Ok s, sk') /\ sec_time sk' = t)
  /\ (~ (sec_time sk <= t <= last_time (pp_depth pp)) -> sign m' t pp msg seed sk = (Err E_TIME_STAMP, sk)).
Proof. exact sign_outcomes. Qed.
Print Assumptions C17_sign_outcomes.

Theorem C17_sign_no_other_outcome : forall (E : env) (L : env_laws E) m m' (pp : pubparam E) pk sk t msg seed,
  pp_ok pp -> reachable m pp pk sk -> sec_time sk <= t <= last_time (pp_depth pp) ->
  (exists s sk', sign m' t pp msg seed sk = (Ok s, sk') /\ sec_time sk' = t)
  \/ (sign m' t pp msg seed sk = (Panic P_PRNG, sk)
      /\ exists i, (1 <= i < pp_depth pp)%nat /\ draws (sha512 E) i (spec_reseed sk seed) = sec_prng sk).
Proof. exact sign_no_other_outcome. Qed.
Print Assumptions C17_sign_no_other_outcome.

Theorem C17_sign_present_outcomes : forall (E : env) (L : env_laws E) m m' (pp : pubparam E) pk sk t msg,
  pp_ok pp -> reachable m pp pk sk ->
  (is_ok (fst (sign_present m' t pp msg sk)) = true <-> t = sec_time sk)
  /\ (t <> sec_time sk -> sign_present m' t pp msg sk = (Err E_TIME_STAMP, sk)).
Proof. exact sign_present_outcomes. Qed.
Print Assumptions C17_sign_present_outcomes.

Theorem C17_past_rejected : forall (E : env) m (pp : pubparam E) sk t msg seed,
  t < sec_time sk -> sign m t pp msg seed sk = (Err E_TIME_STAMP, sk)
                     /\ sign_present m t pp msg sk = (Err E_TIME_STAMP, sk)
                     /\ sign_then_update m t pp msg seed sk = (Err E_TIME_STAMP, sk).
Proof. exact sign_past_rejected. Qed.
Print Assumptions C17_past_rejected.

Example C17_example : is_ok (fst (sign_present Debug 7 tpp4 (str "hello") tsk7)) = true
  /\ sign Debug 7 tpp4 (str "hello") (str "s") tsk4b = (Ok tsig7b, tsk7b)
  /\ sign Debug 16 tpp4 (str "hello") (str "s") tsk7 = (Err E_TIME_STAMP, tsk7).
Proof. rewrite tsig7_ok. split; [reflexivity|]. split; [exact tsig7b_ok|reflexivity]. Qed.

(** C18 *)
Theorem C18_sign_is_update_then_sign : forall (E : env) (L : env_laws E) m m' (pp : pubparam E) pk sk t msg seed,
  pp_ok pp -> reachable m pp pk sk -> sec_time sk < t ->
  sign m' t pp msg seed sk = (do! _ <- update m' pp t seed; sign_present m' t pp msg) sk.
Proof. exact sign_is_update_then_sign. Qed.
Print Assumptions C18_sign_is_update_then_sign.

Theorem C18_any_key : forall (E : env) m (pp : pubparam E) sk t msg seed,
  sec_time sk < t -> valid_cs (pp_cs pp) = true ->
  let a := sign m t pp msg seed sk in
  let b := (do! _ <- update m pp t seed; sign_present m t pp msg) sk in
  snd a = snd b /\ (fst a = fst b \/ (fst a = Panic P_TIME /\ fst b = Err E_TIME_STAMP)).
Proof. exact sign_any_key. Qed.
Print Assumptions C18_any_key.

(** The exception of the previous theorem happens, on a key that can be deserialized. *)
Theorem C18_any_key_equal_refuted : exists (E : env) (pp : pubparam E) blob sk t msg seed sk',
  env_laws E /\ pp_ok pp /\ from_slice (sk_deserialize true) blob = Ok sk /\ sec_time sk < t
  /\ sign Debug t pp msg seed sk = (Panic P_TIME, sk')
  /\ (do! _ <- update Debug pp t seed; sign_present Debug t pp msg) sk = (Err E_TIME_STAMP, sk').
Proof. exact malformed_sign_differs. Qed.
Print Assumptions C18_any_key_equal_refuted.

Example C18_example : sec_time tsk4b = 1 /\ sec_time tsk4b < 7
  /\ (do! _ <- update Debug tpp4 7 (str "s"); sign_present Debug 7 tpp4 (str "hello")) tsk4b = (Ok tsig7b, tsk7b).
Proof.
  split; [reflexivity|]. split; [reflexivity|].
  rewrite <- (C18_sign_is_update_then_sign toy toy_laws Debug Debug tpp4 tpk4b tsk4b 7 (str "hello") (str "s") tpp4_ok); [exact tsig7b_ok| |reflexivity].
  exists (str "another seed of more than 32 bytes"), tsk4b, (snd tkg4b), []. split; [exact tkeygenb|reflexivity].
Qed.

(** C19 *)
Theorem C19_sign_present_read_only : forall (E : env) m (pp : pubparam E) sk ops1 t msg ops2,
  let r := run m pp (ops1 ++ OpSignPresent t msg :: ops2) sk in
  let r0 := run m pp (ops1 ++ ops2) sk in
  snd r = snd r0
  /\ fst r0 = firstn (length ops1) (fst r) ++ skipn (length ops1 + 1) (fst r).
Proof. exact sign_present_read_only. Qed.
Print Assumptions C19_sign_present_read_only.

Theorem C19_same_request_same_signature : forall (E : env) (L : env_laws E) m (pp : pubparam E) pk sk o1 s1 sk1 ops o2 s2 sk2 t msg,
  pp_ok pp -> reachable m pp pk sk ->
  signs o1 = Some (t, msg) -> step m pp o1 sk = (Ok (Some s1), sk1) ->
  signs o2 = Some (t, msg) -> step m pp o2 (snd (run m pp ops sk1)) = (Ok (Some s2), sk2) ->
  s1 = s2.
Proof. exact same_request_same_signature. Qed.
Print Assumptions C19_same_request_same_signature.

Example C19_example : sign_present Debug 7 tpp4 (str "hello") tsk7 = (Ok tsig7, tsk7)
  /\ sign Release 7 tpp4 (str "hello") (str "whatever") tsk7 = (Ok tsig7, tsk7).
Proof. split; [exact tsig7_ok|vm_cast_no_check (eq_refl (Ok tsig7, tsk7))]. Qed.

(** C20 *)
Theorem C20_at_most_one_signature : forall (E : env) (L : env_laws E) m (pp : pubparam E) pk sk ops,
  pp_ok pp -> reachable m pp pk sk -> Forall one_time ops ->
  StronglySorted N.lt (sig_times (fst (run m pp ops sk)))
  /\ Forall (fun t => sec_time sk <= t < sec_time (snd (run m pp ops sk))) (sig_times (fst (run m pp ops sk))).
Proof. exact at_most_one_signature. Qed.
Print Assumptions C20_at_most_one_signature.

Theorem C20_advances_by_one : forall (E : env) (L : env_laws E) m m' (pp : pubparam E) pk sk t msg seed s sk',
  pp_ok pp -> reachable m pp pk sk -> sign_then_update m' t pp msg seed sk = (Ok s, sk') ->
  t = sec_time sk /\ sec_time sk' = t + 1 /\ sign_present m' t pp msg sk = (Ok s, sk)
  /\ update m' pp (t + 1) seed sk = (Ok tt, sk').
Proof. exact sign_then_update_outcomes. Qed.
Print Assumptions C20_advances_by_one.

Theorem C20_any_key : forall (E : env) m (pp : pubparam E) sk t msg seed, t + 1 < 2 ^ 64 ->
  sign_then_update m t pp msg seed sk = (do! s <- sign_present m t pp msg; do! _ <- update m pp (t + 1) seed; sret s) sk.
Proof. exact sign_then_update_any_key. Qed.
Print Assumptions C20_any_key.

Example C20_example :
  let ops := [OpSignThenUpdate 1 (str "a") []; OpUpdate 4 []; OpSignThenUpdate 4 (str "a") [];
              OpSignThenUpdate 4 (str "b") []; OpSignThenUpdate 5 (str "a") []] in
  Forall one_time ops /\ sig_times (fst (run Debug tpp4 ops tsk4)) = [1; 4; 5].
Proof. split; [repeat constructor|vm_cast_no_check (eq_refl [1; 4; 5])]. Qed.

(** A malformed key that can be updated but not sign: the key is left alone. *)
Definition c20_key : seckey toy :=
  SecKey (sec_cs tsk7) 7 (map (fun s => SubKey (sk_t s) (sk_g2r s) (sk_hpoly s) []) (firstn 1 (sec_ssk tsk7)) ++ tl (sec_ssk tsk7)) (sec_prng tsk7).
Example C20_example_malformed : fst (update Debug tpp4 8 [] c20_key) = Ok tt
  /\ sign_then_update Debug 7 tpp4 (str "a") [] c20_key = (Err E_SSK_EMPTY, c20_key).
Proof.
  split; [vm_cast_no_check (eq_refl (Ok tt))|].
  vm_cast_no_check (@eq_refl (res (signature toy) * seckey toy) (Err E_SSK_EMPTY, c20_key)).
Qed.

(** C21: at the last time stamp the call fails although the time stamp matches the key
    and signing alone succeeds. *)
Theorem C21_last_time_stamp_refuted : forall (E : env) (L : env_laws E) m m' (pp : pubparam E) pk sk msg seed,
  pp_ok pp -> reachable m pp pk sk -> sec_time sk = last_time (pp_depth pp) ->
  sign_then_update m' (sec_time sk) pp msg seed sk = (Err E_TIME_STAMP, sk)
  /\ exists s, sign_present m' (sec_time sk) pp msg sk = (Ok s, sk).
Proof. exact sign_then_update_last. Qed.
Print Assumptions C21_last_time_stamp_refuted.

Definition tsk15 : seckey toy := Eval vm_compute in upd_of 15 [] tsk7.
Example C21_example : reachable Debug tpp4 tpk4 tsk15 /\ sec_time tsk15 = last_time (pp_depth tpp4).
Proof.
  split; [|reflexivity]. apply (reachable_update tsk7 tsk15 15 [] tsk7_reachable).
  vm_cast_no_check (eq_refl (@Ok unit tt, tsk15)).
Qed.

(** C54 *)
Theorem C54_failed_sign_keeps_key : forall (E : env) (L : env_laws E) m m' (pp : pubparam E) pk sk t msg seed,
  pp_ok pp -> reachable m pp pk sk -> is_ok (fst (sign m' t pp msg seed sk)) = false ->
  snd (sign m' t pp msg seed sk) = sk.
Proof. exact failed_sign_keeps_key. Qed.
Print Assumptions C54_failed_sign_keeps_key.

Theorem C54_any_key_refuted : exists (E : env) (pp : pubparam E) sk t msg seed sk',
  env_laws E /\ pp_ok pp /\ shape_sk pp sk
  /\ sign Debug t pp msg seed sk = (Err E_CIPHERSUITE, sk') /\ sec_time sk' = t /\ sec_time sk < t.
Proof. exact sign_fails_and_advances. Qed.
Print Assumptions C54_any_key_refuted.

Example C54_example : is_ok (fst (sign Debug 6 tpp4 (str "m") [] tsk7)) = false.
Proof. reflexivity. Qed.

(** C57 *)
Theorem C57_signature_value : forall (E : env) (L : env_laws E) m m' (pp : pubparam E) pk sk msg,
  pp_ok pp -> reachable m pp pk sk ->
  exists x v r rest, pk = PubKey (pp_cs pp) (g2_mul x (pp_g2 pp)) /\ node_at (pp_depth pp) (sec_time sk) v
    /\ sec_ssk sk = honest_ssk pp x (sec_time sk) v r :: rest
    /\ sign_present m' (sec_time sk) pp msg sk
       = (Ok (honest_sig pp x (sec_time sk) v (msg_scalar pp msg)
                (r + spec_scalar (sha512 E) (sec_prng sk) (sign_info msg (sec_time sk)))), sk).
Proof. exact signature_value. Qed.
Print Assumptions C57_signature_value.

Example C57_example : sign_info (str "hi") 258 = str "Pixel randomness for signing" ++ str "hi" ++ [0; 0; 1; 2].
Proof. reflexivity. Qed.
