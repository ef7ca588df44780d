(** Property C132: what reading a secret key leaves on the stack (ReadStack.v).
    Specification vocabulary: SpecReadStack.v ([reads], [read_cells], [sub_cells], [seed_cell]), SpecHv.v ([forge_with]), SpecHyg.v ([combine_sigs]),
    SpecPrng.v ([spec_scalar]), SpecKey.v ([pp_ok], [reachable], [node_at]). *)
From Coq Require Import String.
From Verif Require Import Base Env Time Prng SpecTime SpecPrng SubKey SecretKey Keys Sig IO Serdes Api Hygiene VecMem HvMem ReadMem ReadStack
  SpecKey SpecUpdate SpecSer SpecHyg SpecVec SpecHv SpecRead SpecReadStack ReadProps ReadStackProps Toy ToyRun WitSerProps WitSigProps Debug SpecDbg Properties_Read Properties_Dbg.
Local Open Scope N_scope.

(** C132 *)
Theorem C132_same_result : forall (E : env) c r, exists d,
  reads (sk_deserialize_h (E := E) c) r (fst (sk_deserialize c r)) (snd (sk_deserialize (E := E) c r)) d
  /\ (forall k r1 g r2, read_exact 2 r = (Ok k, r1) -> read_exact 64 r1 = (Ok g, r2) -> exists d', d = d' ++ [seed_cell "SecretKey::deserialize" g]).
Proof. exact read_stack_same. Qed.
Print Assumptions C132_same_result.
Theorem C132_leaves : forall (E : env) c r sk r',
  sk_deserialize c r = (Ok sk, r') -> reads (sk_deserialize_h (E := E) c) r (Ok sk) r' (read_cells sk).
Proof. exact read_stack_leaves. Qed.
Print Assumptions C132_leaves.
Theorem C132_signs : forall (E : env) (L : env_laws E) m (pp : pubparam E) pk sk s,
  pp_ok pp -> reachable m pp pk sk -> In s (sec_ssk sk) ->
  exists g2r hpoly y,
    In (Cell "SubSecretKey::deserialize" "g2r" (VG2 g2r)) (read_cells sk)
    /\ In (Cell "SubSecretKey::deserialize" "hpoly" (VG1 hpoly)) (read_cells sk)
    /\ In (Cell "SubSecretKey::deserialize" "tmp" (VG1 y)) (read_cells sk)
    /\ forall m' msg, verify m' (forge_with pp (Head (sk_t s) g2r hpoly) y msg) pk pp msg = Ok true.
Proof. exact read_stack_signs. Qed.
Print Assumptions C132_signs.
Theorem C132_seed : forall (E : env) (L : env_laws E) m m' (pp : pubparam E) pk sk fn g t msg1 msg2 s1 s2,
  pp_ok pp -> reachable m pp pk sk -> In (seed_cell fn g) (read_cells sk) ->
  sign_present m' t pp msg1 sk = (Ok s1, sk) -> sign_present m' t pp msg2 sk = (Ok s2, sk) ->
  msg_scalar pp msg1 <> msg_scalar pp msg2 ->
  let k msg := spec_scalar (sha512 E) g (sign_info msg t) in
  exists v c,
    node_at (pp_depth pp) t v
    /\ forall m'' msg,
         verify m'' (combine_sigs pp t v s1 s2 (k msg1) (k msg2) (msg_scalar pp msg1) (msg_scalar pp msg2) c (msg_scalar pp msg)) pk pp msg = Ok true.
Proof. exact read_stack_seed. Qed.
Print Assumptions C132_seed.

(** The key at time 7 is read from its blob: five cells for each of the sub keys 7, 8 and 9, and the seed twice. *)
Definition rs_name (c : cell toy) : string := match c with Cell fn x _ => fn ++ " " ++ x end%string.
Definition rs_sub : list string :=
  ["SubSecretKey::new g2r"; "SubSecretKey::new hpoly"; "SubSecretKey::deserialize tmp"; "SubSecretKey::deserialize hpoly"; "SubSecretKey::deserialize g2r"]%string.
Example C132_example :
  reachable Debug tpp4 tpk4 tsk7 /\ map sk_t (sec_ssk tsk7) = [7; 8; 9]
  /\ sk_deserialize true (rpush tblob7 []) = (Ok tsk7, [])
  /\ reads (sk_deserialize_h (E := toy) true) (rpush tblob7 []) (Ok tsk7) [] (read_cells tsk7)
  /\ map rs_name (read_cells tsk7) = rs_sub ++ rs_sub ++ rs_sub ++ ["PRNG::new rngseed"; "SecretKey::deserialize rngseed"]%string
  /\ (forall g, In (seed_cell "PRNG::new" g) (read_cells tsk7) <-> g = sec_prng tsk7)
  /\ sign_present Debug 7 tpp4 (str "hello") tsk7 = (Ok tsig7, tsk7) /\ sign_present Debug 7 tpp4 (str "b") tsk7 = (Ok d100s, tsk7)
  /\ msg_scalar tpp4 (str "hello") <> msg_scalar tpp4 (str "b").
Proof.
  assert (Hd : sk_deserialize true (rpush tblob7 []) = (@Ok (seckey toy) tsk7, [])).
  { destruct C114_example as (_ & _ & H & _). exact (read_m_plain _ _ _ _ _ _ _ _ H). }
  split; [exact tsk7_reachable|]. split; [reflexivity|]. split; [exact Hd|]. split; [exact (read_stack_leaves toy true _ _ _ Hd)|].
  split; [reflexivity|]. split.
  { intros g. split; [apply seed_in_read|]. intros ->. apply in_or_app. right. left. reflexivity. }
  destruct C100_example_attack as (_ & _ & H1 & H2 & H3 & _).
  split; [exact H1|]. split; [exact H2|exact H3].
Qed.

(** A blob of a wrong ciphersuite is refused, but the seed it holds is on the stack. *)
Definition rs_bad : bytes := 9 :: 1 :: repeat 5 64.
Example C132_example_refused :
  reads (sk_deserialize_h (E := toy) true) (rpush rs_bad []) (Err E_CIPHERSUITE) [] [seed_cell "SecretKey::deserialize" (repeat 5 64)].
Proof. intros f dead. reflexivity. Qed.
