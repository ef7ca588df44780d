(** Property C123: the C interface on any bytes.
    Specification vocabulary: SpecCAny.v ([holds_sk], [c_update_result], [c_sign_result], [cut]),
    SpecAny.v ([update_result]), SpecSer.v (the blobs, [wf_sk]). *)
From Coq Require Import String.
From Verif Require Import Base Env SpecTime Prng SubKey SecretKey Keys Sig IO Serdes Api Ffi SpecKey SpecSer SpecUpdate
  FfiProps SpecAny SpecCAny CAnyProps WitCAnyProps SerProps Toy ToyRun WitSerProps WitSigProps.
Local Open Scope N_scope.

(** C123 *)
Theorem C123_update : forall (E : env) (L : env_laws E) m (pp : pubparam E) t seed b o,
  pp_ok pp -> (pp_depth pp <= 32)%nat -> are_bytes b ->
  (c_sk_update m pp b seed t = o <-> c_update_result pp t seed b o).
Proof. exact c_update_any. Qed.
Print Assumptions C123_update.

Theorem C123_sign : forall (E : env) (L : env_laws E) m (pp : pubparam E) msg t b o,
  pp_ok pp -> (pp_depth pp <= 32)%nat -> are_bytes b ->
  (c_sign_present m pp b msg t = o <-> c_sign_result pp msg t b o).
Proof. exact c_sign_any. Qed.
Print Assumptions C123_sign.

Theorem C123_verify : forall (E : env) (L : env_laws E) m (pp : pubparam E) pkb msg sigb,
  pp_ok pp ->
  (forall pk s, holds_pk pkb pk -> holds_sig sigb s ->
     exists r, verify m s pk pp msg = Ok r /\ c_verify m pp pkb msg sigb = Ok r)
  /\ ((forall pk : pubkey E, ~ holds_pk pkb pk) \/ (forall s : signature E, ~ holds_sig sigb s) ->
      c_verify m pp pkb msg sigb = Panic P_FFI).
Proof. exact c_verify_any. Qed.
Print Assumptions C123_verify.

Theorem C123_appended : forall (E : env) m (pp : pubparam E) b junk (sk : seckey E),
  holds_sk b sk ->
  holds_sk (b ++ junk) sk
  /\ (forall t seed, c_sk_update m pp (b ++ junk) seed t = c_sk_update m pp b seed t)
  /\ forall t msg, c_sign_present m pp (b ++ junk) msg t = c_sign_present m pp b msg t.
Proof. exact c_appended. Qed.
Print Assumptions C123_appended.

(** An updated key can be read back exactly if it has at most 255 sub keys. *)
Theorem C123_read_back : forall (E : env) (L : env_laws E) m (pp : pubparam E) t seed b sk b',
  pp_ok pp -> (pp_depth pp <= 32)%nat -> holds_sk b sk -> wf_sk sk ->
  c_sk_update m pp b seed t = Ok b' ->
  exists sk', update m pp t seed sk = (Ok tt, sk')
  /\ (length (sec_ssk sk') <= length (sec_ssk sk) - 1 + pp_depth pp)%nat
  /\ (holds_sk b' sk' <-> (length (sec_ssk sk') <= 255)%nat)
  /\ from_slice (sk_deserialize true) b'
     = if (length (sec_ssk sk') mod 256 =? 0)%nat then Err E_DESERIAL else Ok (cut sk').
Proof. exact c_update_back. Qed.
Print Assumptions C123_read_back.

Theorem C123_cut : forall (E : env) (L : env_laws E) (sk : seckey E),
  wf_but_number sk ->
  from_slice (sk_deserialize true) (sk_blob true sk)
  = if (length (sec_ssk sk) mod 256 =? 0)%nat then Err E_DESERIAL else Ok (cut sk).
Proof. exact read_back. Qed.
Print Assumptions C123_cut.

(** With a key of 255 sub keys the update to time 3 returns bytes in which all but one of the
    257 sub keys are missing, and the next update panics; in memory both succeed. *)
Theorem C123_next_update_refuted : exists (E : env) (pp : pubparam E) b sk sk1 sk2 b1,
  env_laws E /\ pp_ok pp /\ wf_sk sk /\ holds_sk b sk
  /\ update Debug pp 3 [] sk = (Ok tt, sk1) /\ update Debug pp 9 [] sk1 = (Ok tt, sk2)
  /\ c_sk_update Debug pp b [] 3 = Ok b1 /\ c_sk_update Debug pp b1 [] 9 = Panic P_FFI.
Proof. exact c_update_loses. Qed.
Print Assumptions C123_next_update_refuted.

Example C123_example :
  are_bytes tblob7 /\ holds_sk (tblob7 ++ [1; 2; 3]) tsk7
  /\ c_sign_present Release tpp4 (tblob7 ++ [1; 2; 3]) (str "hello") 7 = Ok tsigblob7
  /\ wf_sk tmany /\ holds_sk (sk_blob true tmany) tmany /\ length (sec_ssk tmany) = 255%nat.
Proof.
  assert (Hw : wf_sk tsk7) by (apply (reachable_sk_representable toy toy_laws Debug tpp4 tpk4 tsk7 tpp4_ok); [cbn; repeat constructor|exact tsk7_reachable]).
  assert (Hh : holds_sk tblob7 tsk7) by (rewrite <- tblob7_ok; exact (slice_sk toy_laws true tsk7 Hw)).
  destruct (c_appended toy Release tpp4 tblob7 [1; 2; 3] tsk7 Hh) as (H1 & _ & H2).
  split.
  { unfold are_bytes. apply Forall_forall. intros x Hx.
    assert (Hb : forallb (fun x => x <? 256) tblob7 = true) by (vm_cast_no_check (eq_refl true)).
    apply (proj1 (forallb_forall _ _) Hb), N.ltb_lt in Hx. exact Hx. }
  split; [exact H1|]. split; [rewrite H2; vm_cast_no_check (eq_refl (Ok tsigblob7))|].
  destruct (tmany_lost Debug) as (W & H & _). split; [exact W|]. split; [exact H|reflexivity].
Qed.

(** A vector too short for the target, sub keys missing, no key at all; a time stamp that is not
    the present, and a first sub key without vector. *)
Definition shortkey (t : N) (n : nat) : bytes := sk_blob true (@SecKey toy 0 t [tssk t n] (repeat 7 64)).
Example C123_example_bad :
  c_sk_update Debug tpp4 (shortkey 2 1) [] 4 = Panic P_INDEX /\ c_sk_update Debug tpp4 (shortkey 2 3) [] 9 = Panic P_FFI
  /\ c_sk_update Debug tpp4 [0; 1; 2] [] 9 = Panic P_FFI
  /\ c_sign_present Debug tpp4 (shortkey 2 1) [] 3 = Panic P_FFI /\ c_sign_present Debug tpp4 (shortkey 2 0) [] 2 = Panic P_FFI
  /\ is_ok (c_sign_present Debug tpp4 (shortkey 2 1) [] 2) = true.
Proof.
  split; [vm_cast_no_check (eq_refl (@Panic bytes P_INDEX))|]. split; [vm_cast_no_check (eq_refl (@Panic bytes P_FFI))|].
  split; [vm_cast_no_check (eq_refl (@Panic bytes P_FFI))|]. split; [vm_cast_no_check (eq_refl (@Panic bytes P_FFI))|].
  split; [vm_cast_no_check (eq_refl (@Panic bytes P_FFI))|vm_cast_no_check (eq_refl true)].
Qed.
