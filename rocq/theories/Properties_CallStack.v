(** Property C133: what a C caller's calls of c_keygen, c_sign_present and c_sk_update leave on the stack (CallStack.v).
    Specification vocabulary: SpecCallStack.v ([c_session_h], [stacks]), SpecSessionMem.v ([c_session]), SpecReadStack.v ([read_cells]),
    SpecHyg.v ([gives], [keygen_cells], [sign_cells], [update_cells], [hv_cell], [sign_with]), SpecHv.v ([forge_with]), SpecSer.v ([sk_blob]),
    SpecKey.v ([pp_ok]), SpecTime.v ([node_at]). *)
From Coq Require Import String.
From Verif Require Import Base Env Time SpecTime Prng SpecPrng SubKey SecretKey Keys Sig IO Serdes Api Ffi Hygiene VecMem ReadStack SessionMem CallStack
  SpecKey SpecUpdate SpecSer SpecHyg SpecHv SpecReadStack SpecSessionMem SpecCallStack CallStackProps Toy ToyRun WitSerProps Properties_Read Properties_SessionMem.
Local Open Scope N_scope.

(** C133 *)
Theorem C133_same_results : forall (E : env) (L : env_laws E) m (pp : pubparam E) seed l skb,
  (exists d, gives (c_keygen_h pp seed) (c_keygen pp seed) d) /\ (exists d, gives (c_session_h m pp l skb) (c_session m pp l skb) d).
Proof. exact stack_session_same. Qed.
Print Assumptions C133_same_results.
Theorem C133_sign_leaves : forall (E : env) (L : env_laws E) m m' (pp : pubparam E) pk sk msg t b,
  pp_ok pp -> (pp_depth pp <= 32)%nat -> reachable m pp pk sk -> c_sign_present m' pp (sk_blob true sk) msg t = Ok b ->
  gives (c_sign_present_h m' pp (sk_blob true sk) msg t) (Ok b) (read_cells sk ++ sign_cells pp sk t msg).
Proof. exact stack_sign_leaves. Qed.
Print Assumptions C133_sign_leaves.
Theorem C133_update_leaves : forall (E : env) (L : env_laws E) m (pp : pubparam E) pk sk seed t b,
  pp_ok pp -> (pp_depth pp <= 32)%nat -> reachable m pp pk sk -> c_sk_update m pp (sk_blob true sk) seed t = Ok b ->
  exists sk', update m pp t seed sk = (Ok tt, sk') /\ b = sk_blob true sk'
    /\ gives (c_sk_update_h m pp (sk_blob true sk) seed t) (Ok b) (read_cells sk ++ update_cells sk sk' seed ++ map hv_cell (sec_ssk sk')).
Proof. exact stack_update_leaves. Qed.
Print Assumptions C133_update_leaves.
Theorem C133_keygen_leaves : forall (E : env) (L : env_laws E) m (pp : pubparam E) seed pkb skb popb,
  pp_ok pp -> (pp_depth pp <= 32)%nat -> c_keygen pp seed = Ok (pkb, skb, popb) ->
  exists pk sk pop g x r, key_gen seed pp = Ok (pk, sk, pop) /\ skb = sk_blob true sk
    /\ pk = PubKey (pp_cs pp) (g2_mul x (pp_g2 pp)) /\ (forall t v msg s, node_at (pp_depth pp) t v -> verify m (sign_with pp (g1_mul x (pp_h pp)) t v (msg_scalar pp msg) s) pk pp msg = Ok true)
    /\ gives (c_keygen_h pp seed) (Ok (pkb, skb, popb)) (keygen_cells pp g x r ++ map hv_cell (sec_ssk sk)).
Proof. exact stack_keygen_leaves. Qed.
Print Assumptions C133_keygen_leaves.
Theorem C133_any_call : forall (E : env) (L : env_laws E) m (pp : pubparam E) skb (k : seckey E) msg seed t,
  from_slice (sk_deserialize true) skb = Ok k ->
  (exists d, gives (c_sign_present_h m pp skb msg t) (c_sign_present m pp skb msg t) (read_cells k ++ d))
  /\ (exists d, gives (c_sk_update_h m pp skb seed t) (c_sk_update m pp skb seed t) (read_cells k ++ d)).
Proof. exact stack_any_call. Qed.
Print Assumptions C133_any_call.
Theorem C133_session_leaves : forall (E : env) (L : env_laws E) m (pp : pubparam E) pk l k b ss,
  pp_ok pp -> (pp_depth pp <= 32)%nat -> reachable m pp pk k -> c_session m pp l (sk_blob true k) = Ok (b, ss) ->
  exists k' d, b = sk_blob true k' /\ reachable m pp pk k' /\ stacks m pp k l k' d
    /\ gives (c_session_h m pp l (sk_blob true k)) (Ok (b, ss)) d.
Proof. exact stack_session_leaves. Qed.
Print Assumptions C133_session_leaves.
Theorem C133_life : forall (E : env) (L : env_laws E) m (pp : pubparam E) seed l pkb skb popb b ss,
  pp_ok pp -> (pp_depth pp <= 32)%nat -> c_keygen pp seed = Ok (pkb, skb, popb) -> c_session m pp l skb = Ok (b, ss) ->
  exists pk k0 pop g x r k d, key_gen seed pp = Ok (pk, k0, pop) /\ b = sk_blob true k /\ stacks m pp k0 l k d
    /\ gives (do! keys <- c_keygen_h pp seed; c_session_h m pp l (snd (fst keys))) (Ok (b, ss))
         ((keygen_cells pp g x r ++ map hv_cell (sec_ssk k0)) ++ d)
    /\ forall t v msg s, node_at (pp_depth pp) t v -> verify m (sign_with pp (g1_mul x (pp_h pp)) t v (msg_scalar pp msg) s) pk pp msg = Ok true.
Proof. exact stack_life. Qed.
Print Assumptions C133_life.
Theorem C133_session_betrays : forall (E : env) (L : env_laws E) m (pp : pubparam E) pk k l1 a l2 k' d,
  pp_ok pp -> reachable m pp pk k -> stacks m pp k (l1 ++ a :: l2) k' d ->
  exists k1 d1, stacks m pp k l1 k1 d1 /\ exists g2r hpoly y,
    In (Cell "SubSecretKey::deserialize" "g2r" (VG2 g2r)) d
    /\ In (Cell "SubSecretKey::deserialize" "hpoly" (VG1 hpoly)) d
    /\ In (Cell "SubSecretKey::deserialize" "tmp" (VG1 y)) d
    /\ forall m' msg, verify m' (forge_with pp (Head (sec_time k1) g2r hpoly) y msg) pk pp msg = Ok true.
Proof. exact stack_session_betrays. Qed.
Print Assumptions C133_session_betrays.

(** The owner of the key [3; 6; 9] (rx3 of Properties_Read.v) signs at time 3 and goes on to time 4; the new key is [4; 5; 6; 9].  The cells left by both calls
    still sign for time 3. *)
Notation cs_l := [CSign (str "m") 3; CUpdate 4 (str "a")].
Notation cs_d :=
  ((read_cells rx3 ++ sign_cells tpp4 rx3 3 (str "m")) ++ (read_cells rx3 ++ update_cells rx3 rx4 (str "a") ++ map hv_cell (sec_ssk rx4)) ++ []).
Example C133_example :
  reachable Debug tpp4 tpk4 rx3 /\ (pp_depth tpp4 <= 32)%nat /\ map sk_t (sec_ssk rx3) = [3; 6; 9] /\ map sk_t (sec_ssk rx4) = [4; 5; 6; 9]
  /\ (exists s, c_session Debug tpp4 cs_l (sk_blob true rx3) = Ok (sk_blob true rx4, [s]))
  /\ c_keygen tpp4 tseed = Ok (pk_blob true tpk4, sk_blob true tsk4, pop_blob true tpop4)
  /\ stacks Debug tpp4 rx3 cs_l rx4 cs_d
  /\ exists g2r hpoly y,
       In (Cell "SubSecretKey::deserialize" "g2r" (VG2 g2r)) cs_d /\ In (Cell "SubSecretKey::deserialize" "hpoly" (VG1 hpoly)) cs_d
       /\ In (Cell "SubSecretKey::deserialize" "tmp" (VG1 y)) cs_d
       /\ forall msg, verify Debug (forge_with tpp4 (Head 3 g2r hpoly) y msg) tpk4 tpp4 msg = Ok true.
Proof.
  destruct C114_example_signs as (_ & Hu & Ht & Ht' & _).
  assert (H32 : (pp_depth tpp4 <= 32)%nat) by (cbn; lia).
  assert (Hst : stacks Debug tpp4 rx3 cs_l rx4 cs_d) by (constructor; econstructor; [exact Hu|constructor]).
  split; [exact rx3_reachable|]. split; [exact H32|]. split; [exact Ht|]. split; [exact Ht'|].
  split; [exact (sign_update_session toy_laws Debug tpp4 tpk4 rx3 (str "m") 4 (str "a") rx4 tpp4_ok H32 rx3_reachable Hu)|].
  split; [pose proof (FfiProps.c_keygen_blobs toy toy_laws tpp4 tseed tpp4_ok H32) as Hc; rewrite tkeygen in Hc; exact Hc|]. split; [exact Hst|].
  destruct (stack_session_betrays toy toy_laws Debug tpp4 tpk4 rx3 [] (CSign (str "m") 3) [CUpdate 4 (str "a")] rx4 cs_d tpp4_ok rx3_reachable Hst)
    as (k1 & d1 & H1 & g2r & hpoly & y & I1 & I2 & I3 & Hv).
  inversion H1; subst. exists g2r, hpoly, y. split; [exact I1|]. split; [exact I2|]. split; [exact I3|]. intros msg. exact (Hv Debug msg).
Qed.

(** An update that is refused, to the time the key already has, has read the key too: the cells sign for time 3. *)
Example C133_example_refused :
  from_slice (sk_deserialize true) (sk_blob true rx3) = Ok rx3
  /\ (exists d, gives (c_sk_update_h Debug tpp4 (sk_blob true rx3) (str "a") 3) (Panic P_FFI) (read_cells rx3 ++ d)).
Proof.
  assert (H32 : (pp_depth tpp4 <= 32)%nat) by (cbn; lia).
  assert (Hs : from_slice (sk_deserialize true) (sk_blob true rx3) = Ok rx3)
    by exact (FfiProps.slice_sk toy_laws true rx3 (SerProps.reachable_sk_representable toy toy_laws Debug tpp4 tpk4 rx3 tpp4_ok H32 rx3_reachable)).
  split; [exact Hs|]. destruct (proj2 (stack_any_call toy toy_laws Debug tpp4 (sk_blob true rx3) rx3 [] (str "a") 3 Hs)) as (d & H). exists d.
  rewrite (FfiProps.c_update_blobs toy toy_laws Debug Debug tpp4 tpk4 rx3 3 (str "a") tpp4_ok H32 rx3_reachable) in H.
  exact H.
Qed.
