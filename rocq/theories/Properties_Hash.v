(** Property C120: the strings that are hashed (HashTrace.v): they are all that a call needs of SHA-512, and how many and how long they are
    is public.  Specification vocabulary: SpecHash.v ([keygen_lens], [sign_lens], [verify_lens], [move_lens], [history_lens], [same_size]),
    SpecOps.v ([new_paths], [node], [signs], [one_by_one], [no_panic]), SpecKey.v ([pp_ok]), SpecTime.v ([last_time]). *)
From Coq Require Import String.
From Verif Require Import Base Env Time SpecTime Hkdf Prng SpecPrng SubKey SecretKey Keys Sig IO Serdes Api
  SpecKey SpecGrow OpTrace SpecOps HashTrace SpecHash HashProps Toy ToyRun WitSigProps.
Local Open Scope N_scope.

(** C120 *)
Theorem C120_same_results : forall (E : env) m (pp : pubparam E) seed s pk pks msg sk ops,
  fst (key_gen_q (sha512 E) seed pp []) = key_gen seed pp
  /\ fst (verify_q (sha512 E) m s pk pp msg []) = verify m s pk pp msg
  /\ fst (verify_aggregated_q (sha512 E) m s pks pp msg []) = verify_aggregated m s pks pp msg
  /\ fst (run_q (sha512 E) m pp ops (sk, [])) = fst (run m pp ops sk)
  /\ fst (snd (run_q (sha512 E) m pp ops (sk, []))) = snd (run m pp ops sk).
Proof. exact logged_results. Qed.
Print Assumptions C120_same_results.
Theorem C120_complete : forall (E : env) (H' : bytes -> bytes) m (pp : pubparam E) ops sk rs sk' q,
  run_q (sha512 E) m pp ops (sk, []) = (rs, (sk', q)) -> (forall b, In b q -> H' b = sha512 E b) ->
  run_q H' m pp ops (sk, []) = (rs, (sk', q)).
Proof. exact log_complete. Qed.
Print Assumptions C120_complete.
Theorem C120_complete_keygen : forall (E : env) (H' : bytes -> bytes) (pp : pubparam E) seed r q,
  key_gen_q (sha512 E) seed pp [] = (r, q) -> (forall b, In b q -> H' b = sha512 E b) -> key_gen_q H' seed pp [] = (r, q).
Proof. exact log_complete_keygen. Qed.
Print Assumptions C120_complete_keygen.
Theorem C120_keygen : forall (E : env) (L : env_laws E) (pp : pubparam E) seed k,
  key_gen seed pp = Ok k -> map (@length N) (snd (key_gen_q (sha512 E) seed pp [])) = keygen_lens (length seed).
Proof. exact keygen_log. Qed.
Print Assumptions C120_keygen.
Theorem C120_verify : forall (E : env) (H : bytes -> bytes) m (s : signature E) pk pks pp msg,
  let q := [DOM_SEP_HASH_TO_MSG ++ [pp_cs pp] ++ msg] in
  snd (verify_q H m s pk pp msg []) = (if valid_cs (pp_cs pp) && (sig_cs s =? pp_cs pp) then q else [])
  /\ (snd (verify_aggregated_q H m s pks pp msg []) = [] \/ snd (verify_aggregated_q H m s pks pp msg []) = q)
  /\ (fst (verify_q H m s pk pp msg []) = Ok true -> snd (verify_q H m s pk pp msg []) = q)
  /\ (fst (verify_aggregated_q H m s pks pp msg []) = Ok true -> snd (verify_aggregated_q H m s pks pp msg []) = q).
Proof. exact verify_log. Qed.
Print Assumptions C120_verify.
Theorem C120_history : forall (E : env) (L : env_laws E) m (pp : pubparam E) pk sk ops,
  pp_ok pp -> reachable m pp pk sk -> forallb no_panic (fst (run m pp ops sk)) = true ->
  map (@length N) (snd (snd (run_q (sha512 E) m pp ops (sk, [])))) = history_lens (pp_depth pp) (sec_time sk) ops.
Proof. exact history_log. Qed.
Print Assumptions C120_history.
Theorem C120_public_only : forall (E E' : env) (L : env_laws E) (L' : env_laws E') m m' (pp : pubparam E) (pp' : pubparam E') pk pk' sk sk' ops ops',
  pp_ok pp -> pp_ok pp' -> pp_depth pp = pp_depth pp' -> reachable m pp pk sk -> reachable m' pp' pk' sk' -> sec_time sk = sec_time sk' ->
  Forall2 same_size ops ops' -> forallb no_panic (fst (run m pp ops sk)) = true -> forallb no_panic (fst (run m' pp' ops' sk')) = true ->
  map (@length N) (snd (snd (run_q (sha512 E) m pp ops (sk, [])))) = map (@length N) (snd (snd (run_q (sha512 E') m' pp' ops' (sk', [])))).
Proof. exact log_public. Qed.
Print Assumptions C120_public_only.
Theorem C120_total : forall (E : env) (L : env_laws E) m (pp : pubparam E) pk sk ops,
  pp_ok pp -> reachable m pp pk sk -> forallb no_panic (fst (run m pp ops sk)) = true ->
  (length (snd (snd (run_q (sha512 E) m pp ops (sk, [])))) + 4 <= 4 * 2 ^ (pp_depth pp - 1) + 3 * length (filter signs ops) + 6 * length ops)%nat.
Proof. exact log_size. Qed.
Print Assumptions C120_total.
Theorem C120_total_reached : forall (E : env) (L : env_laws E) m (pp : pubparam E) pk sk seeds,
  pp_ok pp -> reachable m pp pk sk -> sec_time sk = 1 -> 1 + N.of_nat (length seeds) = last_time (pp_depth pp) ->
  forallb no_panic (fst (run m pp (one_by_one 1 seeds) sk)) = true ->
  (length (snd (snd (run_q (sha512 E) m pp (one_by_one 1 seeds) (sk, [])))) + 4 = 4 * 2 ^ (pp_depth pp - 1) + 6 * length seeds)%nat.
Proof. exact log_size_reached. Qed.
Print Assumptions C120_total_reached.

(** The history of ToyRun.v: update to 3, sign at 6 and again, a refused update, save and load, sign and update to 7. *)
Example C120_example :
  reachable Debug tpp4 tpk4 tsk4 /\ sec_time tsk4 = 1 /\ run Debug tpp4 thist tsk4 = (tres, tsk7) /\ forallb no_panic tres = true
  /\ (call_lens 4 1 (OpUpdate 3 (str "seed1")) = [168; 192; 232; 192; 197; 192] ++ [152; 192; 216; 192] ++ [152; 192; 216; 192])%nat
  /\ (call_lens 4 3 (OpSign 6 (str "hello") (str "seed2")) = [168; 192; 232; 192; 197; 192] ++ [166; 192; 27])%nat
  /\ (call_lens 4 6 (OpSignPresent 6 (str "again")) = [166; 192; 27])%nat /\ call_lens 4 6 (OpUpdate 2 []) = [] /\ call_lens 4 6 (OpReload true) = []
  /\ (call_lens 4 6 (OpSignThenUpdate 6 (str "bye") (str "seed3")) = [164; 192; 25] ++ [168; 192; 232; 192; 197; 192] ++ [152; 192; 216; 192])%nat
  /\ (length (history_lens 4 1 thist), length (filter signs thist), length thist) = (39, 3, 6)%nat.
Proof.
  split; [exact tsk4_reachable|]. split; [reflexivity|]. split; [exact trun_ok|]. split; [reflexivity|].
  split; [reflexivity|]. split; [reflexivity|]. split; [reflexivity|]. split; [reflexivity|]. split; [reflexivity|]. split; [reflexivity|]. reflexivity.
Qed.
(** Signing: the log, and a function that knows only these strings; it gives the same signature and key. *)
Definition hx_ops : list op := [OpSignPresent 1 (str "hello")].
Definition hx_run : list (res (option (signature toy))) * (seckey toy * list bytes) := Eval vm_compute in run_q (sha512 toy) Debug tpp4 hx_ops (tsk4, []).
Definition hx_log : list bytes := Eval cbv beta iota delta [fst snd hx_run] in snd (snd hx_run).
Definition hx_table (b : bytes) : bytes := if existsb (bytes_eqb b) hx_log then sha512 toy b else [].
Example C120_example_table :
  run_q (sha512 toy) Debug tpp4 hx_ops (tsk4, []) = hx_run
  /\ forallb no_panic (fst hx_run) = true /\ map (@length N) hx_log = history_lens 4 1 hx_ops /\ length hx_log = 3%nat
  /\ (forall b, In b hx_log -> hx_table b = sha512 toy b)
  /\ hx_table (str "hello") = [] /\ length (sha512 toy (str "hello")) = 64%nat
  /\ run_q hx_table Debug tpp4 hx_ops (tsk4, []) = hx_run.
Proof.
  split; [vm_cast_no_check (eq_refl hx_run)|].
  split; [reflexivity|]. split; [vm_cast_no_check (@eq_refl (list nat) (history_lens 4 1 hx_ops))|]. split; [reflexivity|].
  split; [|split; [vm_cast_no_check (@eq_refl bytes [])|split; [vm_cast_no_check (@eq_refl nat 64%nat)|vm_cast_no_check (eq_refl hx_run)]]].
  intros b Hb. unfold hx_table. replace (existsb (bytes_eqb b) hx_log) with true; [reflexivity|]. symmetry. apply existsb_exists. exists b. split; [exact Hb|apply PrngFacts.bytes_eqb_eq; reflexivity].
Qed.
(** Key generation, and a verification. *)
Example C120_example_keygen :
  (map (@length N) (snd (key_gen_q (sha512 toy) tseed tpp4 [])) = [168; 192] ++ [147; 192; 211; 192] ++ [154; 192; 218; 192])%nat
  /\ length tseed = 40%nat /\ key_gen tseed tpp4 = Ok (tpk4, tsk4, tpop4)
  /\ verify_q (sha512 toy) Debug tsig7 tpk4 tpp4 (str "hello") [] = (Ok true, [str "Pixel hash to message" ++ [0] ++ str "hello"])
  /\ verify_aggregated_q (sha512 toy) Debug tsig7 [] tpp4 (str "hello") [] = (Panic P_INDEX, []).
Proof.
  split; [vm_cast_no_check (@eq_refl (list nat) [168; 192; 147; 192; 211; 192; 154; 192; 218; 192]%nat)|]. split; [reflexivity|]. split; [exact tkeygen|].
  split; [vm_cast_no_check (@eq_refl (res bool * list bytes) (Ok true, [str "Pixel hash to message" ++ [0] ++ str "hello"]))|].
  vm_cast_no_check (@eq_refl (res bool * list bytes) (Panic P_INDEX, [])).
Qed.
(** Other messages and seeds of the same lengths; all nodes of depth 4 one by one: 7 right siblings are made. *)
Example C120_example_public :
  Forall2 same_size thist [OpUpdate 3 (str "12345"); OpSign 6 (str "54321") (str "67890"); OpSignPresent 6 (str "abcde");
                           OpUpdate 2 []; OpReload false; OpSignThenUpdate 6 (str "xyz") (str "09876")]
  /\ 1 + N.of_nat (length (repeat (@nil N) 14)) = last_time 4
  /\ length (history_lens 4 1 (one_by_one 1 (repeat [] 14))) = 112%nat /\ (4 * 2 ^ (4 - 1) + 6 * 14 = 112 + 4)%nat.
Proof. split; [|split; [reflexivity|split; reflexivity]]. unfold thist. repeat apply Forall2_cons; try apply Forall2_nil; cbn [same_size]; auto. Qed.
