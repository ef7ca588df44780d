(** Property C111: what the serialization of a secret key leaves in the memory its buffers had before they were enlarged
    (BufMem.v).  Specification vocabulary: SpecBuf.v ([thrifty], [std_growth], [begins], [as_one]), SpecSer.v ([sk_blob], [ssk_blob]),
    SpecKey.v ([pp_ok]), SpecTime.v ([node_at]), SpecHyg.v ([combine_sigs]), SpecPrng.v ([spec_scalar]). *)
From Coq Require Import String.
From Verif Require Import Base Env Time SpecTime Hkdf Prng SpecPrng SubKey SecretKey Keys Sig IO Serdes Api
  SpecKey SpecUpdate SpecSer SpecHyg BufMem SpecBuf BufProps Toy ToyRun WitSerProps WitSigProps Debug SpecDbg Properties_Dbg.
Local Open Scope N_scope.

(** C111 *)
Theorem C111_same_result : forall (E : env) P (sk : seckey E) c w fr,
  exists new, sk_serialize_b P sk c (w, fr) = (fst (sk_serialize sk c w), (snd (sk_serialize sk c w), new ++ fr)).
Proof. exact serialize_b_result. Qed.
Print Assumptions C111_same_result.
Theorem C111_what_is_left : forall (E : env) P (sk : seckey E) c w fr w' fr',
  sk_serialize_b P sk c (w, fr) = (Ok tt, (w', fr')) ->
  exists new, fr' = new ++ fr
    /\ (forall b, In b new -> begins b (sk_blob c sk) \/ exists s, In s (sec_ssk sk) /\ begins b (ssk_blob c s))
    /\ ((forall n, bmoved P n = false) -> new = []).
Proof. exact serialize_b_begins. Qed.
Print Assumptions C111_what_is_left.
Theorem C111_blocks_left : forall (E : env) (L : env_laws E) P (sk : seckey E) c w fr w' fr' s l,
  thrifty P -> length (sec_prng sk) = 64%nat -> sec_ssk sk = s :: l ->
  sk_serialize_b P sk c (w, fr) = (Ok tt, (w', fr')) ->
  (bmoved P 66 = true -> In (firstn 66 (sk_blob c sk)) fr')
  /\ (l <> [] -> bmoved P (66 + length (ssk_blob c s)) = true -> In (firstn (66 + length (ssk_blob c s)) (sk_blob c sk)) fr').
Proof. exact serialize_leaves_blocks. Qed.
Print Assumptions C111_blocks_left.
Theorem C111_key_left_signs : forall (E : env) (L : env_laws E) P m (pp : pubparam E) pk sk v w fr w' fr',
  pp_ok pp -> (pp_depth pp <= 32)%nat -> reachable m pp pk sk -> node_at (pp_depth pp) (sec_time sk) v -> In 1 v ->
  thrifty P -> (forall n, bmoved P n = true) -> sk_serialize_b P sk true (w, fr) = (Ok tt, (w', fr')) ->
  exists b k, In b fr' /\ from_slice (sk_deserialize true) (as_one b) = Ok k
    /\ forall m' msg, exists s, fst (sign_present m' (sec_time sk) pp msg k) = Ok s /\ verify m' s pk pp msg = Ok true.
Proof. exact saved_key_signs. Qed.
Print Assumptions C111_key_left_signs.
Theorem C111_state_left_signs : forall (E : env) (L : env_laws E) P m m' (pp : pubparam E) pk sk t msg1 msg2 s1 s2 w fr w' fr',
  pp_ok pp -> (pp_depth pp <= 32)%nat -> reachable m pp pk sk -> thrifty P -> bmoved P 66 = true ->
  sk_serialize_b P sk true (w, fr) = (Ok tt, (w', fr')) ->
  sign_present m' t pp msg1 sk = (Ok s1, sk) -> sign_present m' t pp msg2 sk = (Ok s2, sk) ->
  msg_scalar pp msg1 <> msg_scalar pp msg2 ->
  exists b v c,
    In b fr' /\ length b = 66%nat /\ node_at (pp_depth pp) t v
    /\ let k msg := spec_scalar (sha512 E) (skipn 2 b) (sign_info msg t) in
       forall m'' msg,
         verify m'' (combine_sigs pp t v s1 s2 (k msg1) (k msg2) (msg_scalar pp msg1) (msg_scalar pp msg2) c (msg_scalar pp msg)) pk pp msg = Ok true.
Proof. exact saved_state_forges. Qed.
Print Assumptions C111_state_left_signs.
Theorem C111_failed_write : forall (E : env) (L : env_laws E) P m (pp : pubparam E) pk sk w fr e w' fr',
  pp_ok pp -> (pp_depth pp <= 32)%nat -> reachable m pp pk sk ->
  sk_serialize_b P sk true (w, fr) = (Err e, (w', fr')) ->
  exists b, In b fr' /\ from_slice (sk_deserialize true) b = Ok sk.
Proof. exact failed_write_leaves_key. Qed.
Print Assumptions C111_failed_write.

(** The key [7; 8; 9] of 993 bytes, with std's growth and an allocator that moves blocks.  The blocks of 1, 2, 66, 311 and 556
    bytes are beginnings of the key, the others those of the sub keys.  The block of 311 bytes is read as a key with the
    sub key 7, which signs as the key itself. *)
Definition bx : list bytes := Eval vm_compute in snd (snd (sk_serialize_b (std_growth (fun _ => true)) tsk7 true (vec_writer [], []))).
Definition bx_key : res (seckey toy) := Eval vm_compute in from_slice (sk_deserialize true) (as_one (nth 6 bx [])).
Definition bx_signs (k : res (seckey toy)) : res (signature toy) :=
  match k with Ok k => fst (sign_present Debug 7 tpp4 (str "hello") k) | Err e => Err e | Panic p => Panic p end.
Example C111_example :
  reachable Debug tpp4 tpk4 tsk7 /\ sec_time tsk7 = 7 /\ node_at 4 7 [1; 2; 1] /\ thrifty (std_growth (fun _ => true))
  /\ sk_serialize_b (std_growth (fun _ => true)) tsk7 true (vec_writer [], []) = (Ok tt, (vec_writer tblob7, bx))
  /\ map (@length N) bx = [556; 245; 149; 53; 5; 4; 311; 149; 53; 5; 4; 66; 149; 53; 5; 4; 2; 1]%nat
  /\ nth 11 bx [] = [0; 3] ++ sec_prng tsk7
  /\ from_slice (sk_deserialize true) (as_one (nth 6 bx [])) = bx_key
  /\ bx_signs bx_key = Ok tsig7 /\ verify Debug tsig7 tpk4 tpp4 (str "hello") = Ok true.
Proof.
  split; [exact tsk7_reachable|]. split; [reflexivity|]. split; [split; [lia|reflexivity]|].
  split; [intros c n; apply Nat.le_refl|].
  split; [vm_cast_no_check (eq_refl (@Ok unit tt, (vec_writer tblob7, bx)))|].
  split; [reflexivity|]. split; [vm_cast_no_check (eq_refl ([0; 3] ++ sec_prng tsk7))|].
  split; [vm_cast_no_check (@eq_refl (res (seckey toy)) bx_key)|]. split; [vm_cast_no_check (@eq_refl (res (signature toy)) (Ok tsig7))|].
  vm_cast_no_check (eq_refl (@Ok bool true)).
Qed.
(** An allocator that always enlarges in place leaves nothing; a writer that fails leaves all. *)
Example C111_example_stays :
  sk_serialize_b (std_growth (fun _ => false)) tsk7 true (vec_writer [], []) = (Ok tt, (vec_writer tblob7, []))
  /\ snd (snd (sk_serialize_b (std_growth (fun _ => false)) tsk7 true (Writer [] [WFail], []))) = [tblob7].
Proof.
  split; [vm_cast_no_check (eq_refl (@Ok unit tt, (vec_writer tblob7, @nil bytes)))|vm_cast_no_check (eq_refl [tblob7])].
Qed.
(** The block of 66 bytes has the state; with it and two signatures of the time stamp 7 a signature of another message is
    computed as in C100. *)
Example C111_example_state :
  sign_present Debug 7 tpp4 (str "hello") tsk7 = (Ok tsig7, tsk7) /\ sign_present Debug 7 tpp4 (str "b") tsk7 = (Ok d100s, tsk7)
  /\ msg_scalar tpp4 (str "hello") <> msg_scalar tpp4 (str "b")
  /\ skipn 2 (nth 11 bx []) = snd (leak (sk_debug (fun _ => []) (fun _ => []) tsk7))
  /\ verify Debug d100f tpk4 tpp4 (str "other") = Ok true.
Proof.
  destruct C100_example_attack as (_ & _ & H1 & H2 & H3 & H4 & _).
  split; [exact H1|]. split; [exact H2|]. split; [exact H3|]. split; [reflexivity|exact H4].
Qed.
