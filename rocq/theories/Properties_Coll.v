(** Properties C83-C85, and the exact condition for the panic in C08: what a repetition in the randomness of a key means for the hash
    function.  Specification vocabulary: SpecColl.v ([chain], [chain_queries], [drawn],
    [broken], [reseeds], [advances], [key_steps]), SpecPrng.v ([rfc_hmac], [info_of], [purpose]). *)
From Coq Require Import String.
From Verif Require Import Base Env Time SpecTime Prng SpecPrng SubKey SecretKey Keys Sig Api
  SpecKey SpecUpdate SpecColl CollProps Toy ToyRun.
Local Open Scope N_scope.

(** C83 *)
Theorem C83_state_determines_steps : forall (H : bytes -> bytes), (forall b, length (H b) = 64%nat) ->
  forall cs seed l cs' seed' l', Forall step_used l -> Forall step_used l' ->
  chain H cs seed l = chain H cs' seed' l' ->
  (cs = cs' /\ seed = seed' /\ l = l') \/ broken H (chain_queries H cs seed l ++ chain_queries H cs' seed' l').
Proof. exact chain_determines. Qed.
Print Assumptions C83_state_determines_steps.

Theorem C83_drawn_strings_distinct : forall (H : bytes -> bytes), (forall b, length (H b) = 64%nat) ->
  forall cs seed l p cs' seed' l' p', Forall step_used l -> Forall step_used l' -> short_time p -> short_time p' ->
  drawn H (chain H cs seed l) p = drawn H (chain H cs' seed' l') p' ->
  (cs = cs' /\ seed = seed' /\ l = l' /\ p = p')
  \/ broken H (chain_queries H cs seed l ++ draw_queries H (chain H cs seed l) p
               ++ chain_queries H cs' seed' l' ++ draw_queries H (chain H cs' seed' l') p').
Proof. exact drawn_distinct. Qed.
Print Assumptions C83_drawn_strings_distinct.

Theorem C83_history_is_chain : forall (E : env) (L : env_laws E) m (pp : pubparam E) seed pk sk0 pop ops,
  pp_ok pp -> (pp_depth pp <= 32)%nat -> key_gen seed pp = Ok (pk, sk0, pop) ->
  sec_prng (snd (run m pp ops sk0)) = chain (sha512 E) (pp_cs pp) seed (key_steps m pp ops sk0)
  /\ Forall step_used (key_steps m pp ops sk0) /\ reseeds (key_steps m pp ops sk0) = advances m pp ops sk0.
Proof. exact history_chain. Qed.
Print Assumptions C83_history_is_chain.

Theorem C83_state_commits_to_history : forall (E : env) (L : env_laws E) m m' (pp pp' : pubparam E) seed seed' pk pk' sk0 sk0' pop pop' ops ops',
  pp_ok pp -> pp_ok pp' -> (pp_depth pp <= 32)%nat -> (pp_depth pp' <= 32)%nat ->
  key_gen seed pp = Ok (pk, sk0, pop) -> key_gen seed' pp' = Ok (pk', sk0', pop') ->
  sec_prng (snd (run m pp ops sk0)) = sec_prng (snd (run m' pp' ops' sk0')) ->
  (pp_cs pp = pp_cs pp' /\ seed = seed' /\ advances m pp ops sk0 = advances m' pp' ops' sk0')
  \/ broken (sha512 E) (chain_queries (sha512 E) (pp_cs pp) seed (key_steps m pp ops sk0)
                         ++ chain_queries (sha512 E) (pp_cs pp') seed' (key_steps m' pp' ops' sk0')).
Proof. exact state_commits. Qed.
Print Assumptions C83_state_commits_to_history.

(** The chain of a key with three updates; none of its queries collide, and with a
    constant hash function everything is broken. *)
Definition cw : bytes -> bytes := fun _ => repeat 0 64.
Definition coll_steps : list pstep :=
  [Draw KeyInit; Draw SkInit; Reseed 1 (str "seed1"); Draw Update; Draw Update; Reseed 3 (str "seed2");
   Reseed 6 (str "seed3"); Draw Update].
Fixpoint distinct (l : list bytes) : bool :=
  match l with [] => true | a :: l' => negb (existsb (bytes_eqb a) l') && distinct l' end.
Example C83_example :
  sec_prng tsk7 = chain qhash 0 tseed coll_steps
  /\ key_steps Debug tpp4 thist tsk4 = coll_steps
  /\ length (chain_queries qhash 0 tseed [Reseed 1 (str "a")]) = 8%nat
  /\ distinct (map qhash (chain_queries qhash 0 tseed [Reseed 1 (str "a")])) = true
  /\ broken cw (chain_queries cw 0 tseed [])
  /\ advances Debug tpp4 [OpUpdate 1 (str "x"); OpUpdate 9 (str "a")] tsk4 = [(1, str "a")].
Proof.
  split; [vm_cast_no_check (eq_refl (sec_prng tsk7))|].
  split; [vm_cast_no_check (eq_refl coll_steps)|].
  split; [vm_compute; reflexivity|]. split; [vm_compute; reflexivity|]. split.
  - left. do 2 eexists. split; [left; reflexivity|]. split; [right; left; reflexivity|]. split; [|reflexivity]. vm_compute. discriminate.
  - vm_cast_no_check (eq_refl [(1, str "a")]).
Qed.

(** C84 *)
Theorem C84_panic_breaks_hash : forall (E : env) (L : env_laws E) m m' (pp : pubparam E) seed pk sk0 pop ops o p,
  pp_ok pp -> (pp_depth pp <= 32)%nat -> key_gen seed pp = Ok (pk, sk0, pop) ->
  let sk := snd (run m pp ops sk0) in
  fst (step m' pp o sk) = Panic p ->
  broken (sha512 E) (chain_queries (sha512 E) (pp_cs pp) seed
    (key_steps m pp ops sk0 ++ Reseed (sec_time sk) (op_seed o) :: repeat (Draw Update) (pp_depth pp - 1))).
Proof. exact panic_breaks. Qed.
Print Assumptions C84_panic_breaks_hash.

Theorem C84_update_moves_state : forall (E : env) (L : env_laws E) m (pp : pubparam E) kseed pk sk0 pop l t seed sk',
  pp_ok pp -> (pp_depth pp <= 32)%nat -> key_gen kseed pp = Ok (pk, sk0, pop) ->
  let sk := snd (run m pp l sk0) in
  update m pp t seed sk = (Ok tt, sk') -> sec_prng sk' <> sec_prng sk \/ breaks_at m pp kseed l seed.
Proof. exact update_moves_state. Qed.
Print Assumptions C84_update_moves_state.

(** With a constant hash function the panic does happen, and the update to the last time
    stamp (no state is drawn) leaves the state as it is. *)
Definition toyc : env := toyh cw.
Definition cpp : pubparam toyc := Eval vm_compute in
  @PubParam toyc 2 0 toy_one (toy_hash (str "h") []) (map (fun i => toy_hash (str "hlist") [N.of_nat i]) (seq 0 3)).
Definition ckg : pubkey toyc * seckey toyc * proof toyc := Eval vm_compute in
  get (@PubKey toyc 0 (mk r2 0), SecKey 0 0 [] [], @Pop toyc 0 (mk r1 0)) (key_gen tseed cpp).
Example C84_example :
  env_laws toyc /\ pp_ok cpp /\ key_gen tseed cpp = Ok ckg
  /\ fst (step Debug cpp (OpUpdate 2 (str "s")) (snd (fst ckg))) = Panic P_PRNG
  /\ is_ok (fst (update Debug cpp 3 (str "s") (snd (fst ckg)))) = true
  /\ bytes_eqb (sec_prng (snd (update Debug cpp 3 (str "s") (snd (fst ckg))))) (sec_prng (snd (fst ckg))) = true.
Proof.
  split; [apply toyh_laws; intros b; [reflexivity|]; apply Forall_forall; intros x Hx; apply repeat_spec in Hx as ->; reflexivity|]. split.
  - constructor; cbn [cpp pp_depth pp_hlist pp_h pp_g2 length]; [lia|lia|repeat constructor|reflexivity|reflexivity].
  - split; [vm_cast_no_check (eq_refl (Ok ckg))|]. split; [vm_cast_no_check (eq_refl (@Panic (option (signature toyc)) P_PRNG))|].
    split; vm_cast_no_check (eq_refl true).
Qed.

(** C85 *)
Theorem C85_signing_strings_distinct : forall (E : env) (L : env_laws E) m m' (pp pp' : pubparam E) seed seed' pk pk' sk0 sk0' pop pop' ops ops' msg msg',
  pp_ok pp -> pp_ok pp' -> (pp_depth pp <= 32)%nat -> (pp_depth pp' <= 32)%nat ->
  key_gen seed pp = Ok (pk, sk0, pop) -> key_gen seed' pp' = Ok (pk', sk0', pop') ->
  let sk := snd (run m pp ops sk0) in let sk' := snd (run m' pp' ops' sk0') in
  let p := Signing msg (sec_time sk) in let p' := Signing msg' (sec_time sk') in
  drawn (sha512 E) (sec_prng sk) p = drawn (sha512 E) (sec_prng sk') p' ->
  (pp_cs pp = pp_cs pp' /\ seed = seed' /\ advances m pp ops sk0 = advances m' pp' ops' sk0'
   /\ sec_time sk = sec_time sk' /\ msg = msg')
  \/ broken (sha512 E)
       (chain_queries (sha512 E) (pp_cs pp) seed (key_steps m pp ops sk0) ++ draw_queries (sha512 E) (sec_prng sk) p
        ++ chain_queries (sha512 E) (pp_cs pp') seed' (key_steps m' pp' ops' sk0') ++ draw_queries (sha512 E) (sec_prng sk') p').
Proof. exact signing_strings. Qed.
Print Assumptions C85_signing_strings_distinct.

Example C85_example :
  bytes_eqb (drawn qhash (sec_prng tsk7) (Signing (str "a") 7)) (drawn qhash (sec_prng tsk7) (Signing (str "b") 7)) = false
  /\ bytes_eqb (drawn qhash (sec_prng tsk7) (Signing (str "a") 7)) (drawn qhash (sec_prng tsk4) (Signing (str "a") 1)) = false.
Proof. split; vm_compute; reflexivity. Qed.

(** C08: the assertion "prng not updated" fails exactly if one of the states drawn for the
    new sub keys is the state before the update. *)
Theorem C08_update_panics_iff : forall (E : env) (L : env_laws E) m m' (pp : pubparam E) pk sk t seed l,
  pp_ok pp -> reachable m pp pk sk -> sec_time sk < t <= last_time (pp_depth pp) -> tiling (pp_depth pp) t l ->
  (update m' pp t seed sk = (Panic P_PRNG, sk) <->
   exists i, (1 <= i < length (filter (fun u => negb (existsb (N.eqb u) (map sk_t (sec_ssk sk)))) l))%nat
             /\ draws (sha512 E) i (spec_reseed sk seed) = sec_prng sk).
Proof. exact update_panic_iff. Qed.
Print Assumptions C08_update_panics_iff.

(** From time 1 to time 2 in depth 2 the sub keys for 2 and for 3 are new, so one state is
    drawn; with a constant hash function it is the old one.  From time 7 to time 8 in depth 4
    nothing is new. *)
Example C08_example_panics :
  tiling 2 2 [2; 3]
  /\ length (filter (fun u => negb (existsb (N.eqb u) (map sk_t (sec_ssk (snd (fst ckg)))))) [2; 3]) = 2%nat
  /\ bytes_eqb (draws (sha512 toyc) 1 (spec_reseed (snd (fst ckg)) (str "s"))) (sec_prng (snd (fst ckg))) = true
  /\ fst (update Debug cpp 2 (str "s") (snd (fst ckg))) = Panic P_PRNG
  /\ tiling 4 8 [8; 9]
  /\ length (filter (fun u => negb (existsb (N.eqb u) (map sk_t (sec_ssk tsk7)))) [8; 9]) = 0%nat
  /\ is_ok (fst (update Debug tpp4 8 (str "s") tsk7)) = true.
Proof.
  split; [apply (tile_cons 2 2 [1] [3]); [split; [lia|reflexivity]|]; cbn; apply (tile_cons 2 3 [2] []); [split; [lia|reflexivity]|apply (tile_end 2)]|].
  split; [vm_cast_no_check (eq_refl 2%nat)|]. split; [vm_cast_no_check (eq_refl true)|].
  split; [vm_cast_no_check (eq_refl (@Panic unit P_PRNG))|].
  split; [apply (tile_cons 4 8 [1; 2; 2] [9]); [split; [lia|reflexivity]|]; cbn; apply (tile_cons 4 9 [2] []); [split; [lia|reflexivity]|apply (tile_end 4)]|].
  split; [vm_cast_no_check (eq_refl 0%nat)|]. vm_cast_no_check (eq_refl true).
Qed.
