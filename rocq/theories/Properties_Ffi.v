(** Properties C45, C46: the C interface (src/ffi.rs).
    Specification vocabulary: SpecFfi.v ([c_updates], [c_time], [increasing]),
    SpecSer.v (the blobs, [wf_pk], [wf_sig], [supported]), SpecTime.v ([last_time]),
    SpecColl.v ([updates], [breaks]: the hash function breaks within the history). *)
From Coq Require Import String.
From Verif Require Import Base Env Time Hkdf SpecTime Prng SubKey SecretKey Keys Sig IO Serdes Api Ffi
  SpecKey SpecSer SpecUpdate SpecColl SpecFfi FfiProps SerProps PrngFacts Toy ToyRun WitSigProps WitSerProps.
Local Open Scope N_scope.

(** C45 *)
Theorem C45_c_interface : forall (E : env) (L : env_laws E) m (pp : pubparam E) seed,
  pp_ok pp -> (pp_depth pp <= 32)%nat -> pp_g2 pp = g2_one -> supported (pp_cs pp) -> (32 <= length seed)%nat ->
  exists pkb skb popb, c_keygen pp seed = Ok (pkb, skb, popb)
  /\ c_verify_pop (E := E) pkb popb = Ok true
  /\ forall l, increasing 1 (last_time (pp_depth pp)) l ->
     (c_updates m pp l skb = Panic P_PRNG /\ breaks m pp [(seed, updates l)])
     \/ exists b, c_updates m pp l skb = Ok b
        /\ c_estimate_sk_size m (c_time l) (pp_depth pp) = Ok (length b)
        /\ forall msg, exists sigb, c_sign_present m pp b msg (c_time l) = Ok sigb /\ length sigb = 149%nat
                                    /\ c_verify m pp pkb msg sigb = Ok true.
Proof. exact c_interface. Qed.
Print Assumptions C45_c_interface.

(** A key generated, moved to time 3 and then to time 9, and a signature, as bytes. *)
Definition ckg : bytes * bytes * bytes := Eval vm_compute in get ([], [], []) (c_keygen tpp4 tseed).
Definition cpk : bytes := Eval cbv beta iota delta [fst3 fst snd ckg] in fst3 ckg.
Definition csk : bytes := Eval cbv beta iota delta [snd3 fst snd ckg] in snd3 ckg.
Definition cpop : bytes := Eval cbv beta iota delta [fst snd ckg] in snd ckg.
Definition cl : list (N * bytes) := [(3, str "a"); (9, str "b")].
Definition csk9 : bytes := Eval vm_compute in get [] (c_updates Debug tpp4 cl csk).
Definition csig9 : bytes := Eval vm_compute in get [] (c_sign_present Debug tpp4 csk9 (str "hello") 9).
Example C45_example :
  pp_ok tpp4 /\ pp_g2 tpp4 = @g2_one toy /\ supported (pp_cs tpp4)
  /\ increasing 1 (last_time (pp_depth tpp4)) cl /\ c_time cl = 9
  /\ c_keygen tpp4 tseed = Ok (cpk, csk, cpop) /\ c_updates Debug tpp4 cl csk = Ok csk9
  /\ c_estimate_sk_size Debug 9 4 = Ok (length csk9)
  /\ c_sign_present Debug tpp4 csk9 (str "hello") 9 = Ok csig9
  /\ c_verify Debug tpp4 cpk (str "hello") csig9 = Ok true
  /\ c_verify Debug tpp4 cpk (str "hallo") csig9 = Ok false
  /\ c_sk_update Debug tpp4 csk9 [] 9 = Panic P_FFI /\ c_sign_present Debug tpp4 csk9 [] 10 = Panic P_FFI
  /\ @c_verify_pop toy cpk cpop = Ok true.
Proof.
  split; [exact tpp4_ok|]. split; [vm_cast_no_check (@eq_refl (zn r2) toy_one)|]. split; [left; reflexivity|].
  split; [cbn; repeat split; intros H; discriminate H|]. split; [reflexivity|].
  split; [vm_cast_no_check (eq_refl (Ok (cpk, csk, cpop)))|]. split; [vm_cast_no_check (eq_refl (Ok csk9))|].
  split; [vm_compute; reflexivity|]. split; [vm_cast_no_check (eq_refl (Ok csig9))|].
  split; [vm_cast_no_check (eq_refl (Ok true))|]. split; [vm_cast_no_check (eq_refl (Ok false))|].
  split; [vm_cast_no_check (eq_refl (@Panic bytes P_FFI))|]. split; [vm_cast_no_check (eq_refl (@Panic bytes P_FFI))|].
  vm_cast_no_check (eq_refl (Ok true)).
Qed.

(** The C functions on the bytes of an object are the functions on the object, an
    error being a panic. *)
Theorem C45_c_keygen : forall (E : env) (L : env_laws E) (pp : pubparam E) seed,
  pp_ok pp -> (pp_depth pp <= 32)%nat ->
  match key_gen seed pp with
  | Ok (pk, sk, pop) => c_keygen pp seed = Ok (pk_blob true pk, sk_blob true sk, pop_blob true pop)
  | _ => c_keygen pp seed = Panic P_FFI /\ ((length seed < 32)%nat \/ ~ supported (pp_cs pp))
  end.
Proof. exact c_keygen_blobs. Qed.
Print Assumptions C45_c_keygen.

Theorem C45_c_sk_update : forall (E : env) (L : env_laws E) m m' (pp : pubparam E) pk sk t seed,
  pp_ok pp -> (pp_depth pp <= 32)%nat -> reachable m pp pk sk ->
  c_sk_update m' pp (sk_blob true sk) seed t
  = match update m' pp t seed sk with
    | (Ok _, sk') => Ok (sk_blob true sk')
    | (Err _, _) => Panic P_FFI
    | (Panic p, _) => Panic p
    end.
Proof. exact c_update_blobs. Qed.
Print Assumptions C45_c_sk_update.

Theorem C45_c_sign_present : forall (E : env) (L : env_laws E) m m' (pp : pubparam E) pk sk t msg,
  pp_ok pp -> (pp_depth pp <= 32)%nat -> reachable m pp pk sk ->
  c_sign_present m' pp (sk_blob true sk) msg t
  = match fst (sign_present m' t pp msg sk) with
    | Ok s => Ok (sig_blob true s)
    | Err _ => Panic P_FFI
    | Panic p => Panic p
    end.
Proof. exact c_sign_blobs. Qed.
Print Assumptions C45_c_sign_present.

Theorem C45_c_verify : forall (E : env) (L : env_laws E) m (pp : pubparam E) pk s msg,
  wf_pk pk -> wf_sig s -> c_verify m pp (pk_blob true pk) msg (sig_blob true s) = verify m s pk pp msg.
Proof. exact c_verify_blobs. Qed.
Print Assumptions C45_c_verify.

Theorem C45_c_verify_inputs : forall (E : env) m (pp : pubparam E) pkb msg sigb b,
  c_verify m pp pkb msg sigb = Ok b ->
  exists pk s, from_slice (pk_deserialize true) pkb = Ok pk /\ from_slice (sig_deserialize true) sigb = Ok s
               /\ verify m s pk pp msg = Ok b.
Proof. exact c_verify_inputs. Qed.
Print Assumptions C45_c_verify_inputs.

Theorem C45_c_verify_pop_bytes : forall (E : env) pkb popb,
  (forall b, @c_verify_pop E pkb popb = Ok b <->
     exists pk pop, from_slice (@pk_deserialize E true) pkb = Ok pk /\ from_slice (@pop_deserialize E true) popb = Ok pop
                    /\ pk_validate pk pop = b)
  /\ (is_ok (@c_verify_pop E pkb popb) = false -> @c_verify_pop E pkb popb = Panic P_FFI).
Proof. exact c_verify_pop_bytes. Qed.
Print Assumptions C45_c_verify_pop_bytes.

Theorem C45_c_verify_pop : forall (E : env) (L : env_laws E) (pk : pubkey E) pop,
  wf_pk pk -> wf_pop pop -> @c_verify_pop E (pk_blob true pk) (pop_blob true pop) = Ok (pk_validate pk pop).
Proof. exact c_verify_pop_blobs. Qed.
Print Assumptions C45_c_verify_pop.

Example C45_example_blobs :
  reachable Debug tpp4 tpk4 tsk7
  /\ c_sign_present Release tpp4 (sk_blob true tsk7) (str "hello") 7 = Ok (sig_blob true tsig7)
  /\ wf_pk tpk4 /\ c_verify Release tpp4 (pk_blob true tpk4) (str "hello") (sig_blob true tsig7) = Ok true
  /\ c_keygen tpp4 (str "short") = Panic P_FFI.
Proof.
  split; [exact tsk7_reachable|].
  split; [rewrite tblob7_ok; vm_cast_no_check (eq_refl (Ok tsigblob7))|].
  split; [apply (keygen_representable toy toy_laws tpp4 tseed tpk4 tsk4 tpop4 tpp4_ok tkeygen)|].
  split; [vm_cast_no_check (eq_refl (Ok true))|].
  vm_cast_no_check (eq_refl (@Panic (bytes * bytes * bytes) P_FFI)).
Qed.

Example C45_example_pop :
  @c_verify_pop toy cpk cpop = Ok true /\ @c_verify_pop toy (pk_blob true tpk4b) cpop = Ok false
  /\ @c_verify_pop toy cpk (1 :: tl cpop) = Ok false /\ @c_verify_pop toy cpk (2 :: tl cpop) = Panic P_FFI
  /\ @c_verify_pop toy (firstn 48 cpk) cpop = Panic P_FFI.
Proof.
  split; [vm_cast_no_check (eq_refl (Ok true))|]. split; [vm_cast_no_check (eq_refl (Ok false))|].
  split; [vm_cast_no_check (eq_refl (Ok false))|].
  split; [vm_cast_no_check (eq_refl (@Panic bool P_FFI))|]. vm_cast_no_check (eq_refl (@Panic bool P_FFI)).
Qed.

(** C46 *)
Theorem C46_c_aggregation_outcomes : forall (E : env) (L : env_laws E) bl,
  Forall are_bytes bl ->
  ((exists b, @c_aggregation E bl = Ok b) <->
   (exists s v, Forall2 (fun b x => from_slice (sig_deserialize true) b = Ok x) bl (s :: v)
                /\ Forall (fun e : signature E => sig_cs e = sig_cs s /\ sig_time e = sig_time s) v))
  /\ (forall e, @c_aggregation E bl <> Err e)
  /\ (forall b, @c_aggregation E bl = Ok b -> length b = 149%nat
        /\ exists (v : list (signature E)) (a : signature E),
             Forall2 (fun b x => from_slice (sig_deserialize true) b = Ok x) bl v
             /\ aggregate v = Ok a /\ b = sig_blob true a).
Proof. exact c_aggregation_outcomes. Qed.
Print Assumptions C46_c_aggregation_outcomes.

Theorem C46_c_aggregate_verifies : forall (E : env) (L : env_laws E) m (pp : pubparam E) (l : list (bytes * bytes)) msg t,
  pp_ok pp -> l <> [] -> Forall are_bytes (map fst l) ->
  Forall (fun sp => c_verify m pp (snd sp) msg (fst sp) = Ok true
     /\ (forall pk : pubkey E, from_slice (pk_deserialize true) (snd sp) = Ok pk -> pk_cs pk = pp_cs pp /\ g2_insub (pk_pk pk) = true)
     /\ (forall s : signature E, from_slice (sig_deserialize true) (fst sp) = Ok s -> sig_time s = t)) l ->
  exists b, @c_aggregation E (map fst l) = Ok b /\ length b = 149%nat /\ c_verify_agg m pp (map snd l) msg b = Ok true.
Proof. exact c_aggregate_verifies. Qed.
Print Assumptions C46_c_aggregate_verifies.

Theorem C46_c_verify_agg_bytes : forall (E : env) m (pp : pubparam E) pkbs msg sigb,
  (forall pks s, Forall2 (fun b k => from_slice (pk_deserialize true) b = Ok k) pkbs pks ->
     from_slice (sig_deserialize true) sigb = Ok s ->
     c_verify_agg m pp pkbs msg sigb = verify_aggregated m s pks pp msg)
  /\ (~ (exists (pks : list (pubkey E)) (s : signature E), Forall2 (fun b k => from_slice (pk_deserialize true) b = Ok k) pkbs pks
                       /\ from_slice (sig_deserialize true) sigb = Ok s) ->
      c_verify_agg m pp pkbs msg sigb = Panic P_FFI).
Proof. exact c_verify_agg_bytes. Qed.
Print Assumptions C46_c_verify_agg_bytes.

Definition csig7b : bytes := Eval vm_compute in sig_blob true tsig7b.
Definition cagg : bytes := Eval vm_compute in get [] (@c_aggregation toy [tsigblob7; csig7b]).
Definition cpk4b : bytes := Eval vm_compute in pk_blob true tpk4b.
Example C46_example :
  Forall are_bytes [tsigblob7; csig7b]
  /\ c_verify Debug tpp4 cpk (str "hello") tsigblob7 = Ok true
  /\ c_verify Debug tpp4 cpk4b (str "hello") csig7b = Ok true
  /\ @c_aggregation toy [tsigblob7; csig7b] = Ok cagg
  /\ c_verify_agg Debug tpp4 [cpk; cpk4b] (str "hello") cagg = Ok true
  /\ c_verify_agg Debug tpp4 [cpk; cpk] (str "hello") cagg = Ok false
  /\ @c_aggregation toy [tsigblob7; csig9] = Panic P_FFI
  /\ @c_aggregation toy [tsigblob7; 9 :: nil] = Panic P_FFI
  /\ @c_aggregation toy [] = Panic P_INDEX.
Proof.
  assert (Hb : forall l, forallb (fun x => x <? 256) l = true -> are_bytes l).
  { intros l H. unfold are_bytes. apply Forall_forall. intros x Hx.
    apply (proj1 (forallb_forall _ l) H), N.ltb_lt in Hx. exact Hx. }
  split; [repeat constructor; apply Hb; vm_cast_no_check (eq_refl true)|].
  split; [vm_cast_no_check (eq_refl (Ok true))|]. split; [vm_cast_no_check (eq_refl (Ok true))|].
  split; [vm_cast_no_check (eq_refl (Ok cagg))|]. split; [vm_cast_no_check (eq_refl (Ok true))|].
  split; [vm_cast_no_check (eq_refl (Ok false))|]. split; [vm_cast_no_check (eq_refl (@Panic bytes P_FFI))|].
  split; [vm_cast_no_check (eq_refl (@Panic bytes P_FFI))|]. vm_cast_no_check (eq_refl (@Panic bytes P_INDEX)).
Qed.
