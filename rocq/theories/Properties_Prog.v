(** Properties C70-C73: the programs that write and compare the test vectors
    (test_vector/src/main.rs, pixel-python/test_vector.py, c_wrapper/test.c,
    test_buf/test_vector.py) and the memory of the C interface (src/ffi.rs).
    Specification vocabulary: SpecProg.v ([vector_names], [file_ok], [seq_ops], [jump_ops], [is_pop]),
    SpecMem.v ([new_key], [buffers], [no_write], [mem_updates], [zeros]), SpecKey.v
    ([pp_ok]), SpecTime.v ([last_time]), SpecPy.v ([py_params]), SpecColl.v
    ([breaks]: the hash function breaks within one of the histories). *)
From Coq Require Import String.
From Verif Require Import Base Env Time SpecTime SubKey SecretKey Keys Sig IO Serdes Api Ffi Python Programs FfiMem
  SpecKey SpecUpdate SpecSer SpecPy SpecColl SpecProg SpecMem KeyProps SerProps ProgProps MemProps Toy ToyRun WitProps.
Local Open Scope N_scope.

(** C70 *)
Theorem C70_generator_succeeds : forall (E : env) (L : env_laws E) m (pp : pubparam E),
  pp_ok pp -> (pp_depth pp <= 32)%nat -> 2016 <= last_time (pp_depth pp) -> supported (pp_cs pp) -> pp_g2 pp = g2_one ->
  (rs_main m pp = Panic P_PRNG /\ breaks m pp [(SEED, seq_ops); (SEED, jump_ops)])
  \/ exists files pk pop, rs_main m pp = Ok files /\ map fst files = vector_names
       /\ pk_validate pk pop = true /\ Forall (file_ok m pp pk pop) files.
Proof. exact rs_main_outcome. Qed.
Print Assumptions C70_generator_succeeds.

Definition vdir : list file := Eval vm_compute in get [] (rs_seq Debug tpp4 tpk4 tsk4 [2]).
Example C70_example :
  pp_ok (tpp 11 0) /\ (pp_depth (tpp 11 0) <= 32)%nat /\ 2016 <= last_time (pp_depth (tpp 11 0))
  /\ supported (pp_cs (tpp 11 0)) /\ pp_g2 (tpp 11 0) = @g2_one toy
  /\ length vector_names = 252%nat /\ nth_error vector_names 131 = Some (SigFf 3 6)
  /\ key_gen SEED tpp4 = Ok (tpk4, tsk4, tpop4) /\ rs_seq Debug tpp4 tpk4 tsk4 [2] = Ok vdir
  /\ map fst vdir = [SkBin 2; SigBin 2].
Proof.
  split; [apply tpp_ok; lia|]. split; [vm_compute; lia|]. split; [vm_compute; discriminate|].
  split; [left; reflexivity|]. split; [reflexivity|]. split; [vm_compute; reflexivity|].
  split; [vm_compute; reflexivity|]. split; [exact tkeygen|].
  split; [vm_cast_no_check (eq_refl (Ok vdir))|reflexivity].
Qed.

(** C71 *)
Theorem C71_python_accepts_exactly : forall (E : env) (L : env_laws E) m (pp : pubparam E) files,
  pp_ok pp -> py_params pp -> 2016 <= last_time (pp_depth pp) -> rs_main m pp = Ok files ->
  py_main pp files = Some (filter (fun f => negb (is_pop f)) files)
  /\ forall dir, (exists out, py_main pp dir = Some out)
       <-> forall n, n <> PopBin -> In n vector_names -> read_file dir n = read_file files n.
Proof. exact py_accepts_vectors. Qed.
Print Assumptions C71_python_accepts_exactly.

Definition flip (b : bytes) : bytes := match b with x :: b' => N.lxor x 1 :: b' | [] => [] end.
Definition vdir' : list file := Eval vm_compute in map (fun f => (fst f, flip (snd f))) vdir.
Example C71_example :
  py_params (tpp 11 0)
  /\ py_seq tpp4 vdir (py_view tsk4) [2] = Some vdir
  /\ py_seq tpp4 vdir' (py_view tsk4) [2] = None /\ py_seq tpp4 [] (py_view tsk4) [2] = None.
Proof.
  split; [constructor; [reflexivity|reflexivity|vm_compute; lia]|].
  split; [vm_cast_no_check (eq_refl (Some vdir))|].
  split; vm_cast_no_check (eq_refl (@None (list file))).
Qed.

(** C72 *)
Theorem C72_c_test_succeeds : forall (E : env) (L : env_laws E) m (pp : pubparam E),
  pp_ok pp -> (pp_depth pp <= 32)%nat -> 63 <= last_time (pp_depth pp) -> supported (pp_cs pp) -> pp_g2 pp = g2_one ->
  c_test m pp = Ok tt \/ (c_test m pp = Panic P_PRNG /\ breaks m pp [(SEED, [OpUpdate 2 RNGSEED])]).
Proof. exact c_test_outcome. Qed.
Print Assumptions C72_c_test_succeeds.

Theorem C72_c_vectors_written : forall (E : env) (L : env_laws E) m (pp : pubparam E),
  pp_ok pp -> (pp_depth pp <= 32)%nat -> 63 <= last_time (pp_depth pp) -> supported (pp_cs pp) -> pp_g2 pp = g2_one ->
  (c_test_vector m pp = Panic P_PRNG /\ breaks m pp [(SEED, seq_ops)])
  \/ exists cf, c_test_vector m pp = Ok cf /\ map fst cf = flat_map (fun i => [SigBin i; SkBin i]) (range 1 64).
Proof. exact c_test_vector_outcome. Qed.
Print Assumptions C72_c_vectors_written.

Theorem C72_comparison : forall rs c,
  compare_main rs c = Some tt <-> forall i n, 1 <= i < 64 -> n = SigBin i \/ n = SkBin i ->
    exists b, read_file rs n = Some b /\ read_file c n = Some b.
Proof. exact compare_iff. Qed.
Print Assumptions C72_comparison.

Theorem C72_c_vectors_match : forall (E : env) (L : env_laws E) m (pp : pubparam E) files,
  pp_ok pp -> (pp_depth pp <= 32)%nat -> 2016 <= last_time (pp_depth pp) -> supported (pp_cs pp) -> pp_g2 pp = g2_one ->
  rs_main m pp = Ok files ->
  exists cf, c_test_vector m pp = Ok cf /\ (forall f, In f cf -> In f files) /\ compare_main files cf = Some tt.
Proof. exact c_vectors_match. Qed.
Print Assumptions C72_c_vectors_match.

Definition vblob : bytes := Eval vm_compute in sk_blob true tsk4.
Definition vall (x : N) : list file := flat_map (fun i => [(SigBin i, [i; x]); (SkBin i, [x; i])]) (range 1 64).
Example C72_example :
  c_seq Debug tpp4 vblob [2] = Ok (rev vdir)
  /\ cmp_files vdir (rev vdir) (SkBin 2) = Some tt /\ cmp_files vdir vdir' (SkBin 2) = None
  /\ compare_main (vall 0) (rev (vall 0)) = Some tt /\ compare_main (vall 0) (vall 1) = None
  /\ compare_main (vall 0) (vall 0 ++ [(SigBin 63, [])]) = None.
Proof.
  split; [vm_cast_no_check (eq_refl (Ok (rev vdir)))|]. repeat split; vm_compute; reflexivity.
Qed.

(** C73 *)
Theorem C73_calls_write_new_blocks_only : forall (E : env) m (pp : pubparam E) c mm r mm',
  exec m pp c mm = Some (r, mm') ->
  match new_key r with
  | Some sk => exists b, mm' = mm ++ [b] /\ sk = PixelSk (length mm, 0%nat) (length b) /\ load mm' (ps_data sk) (ps_len sk) = Some b
  | None => mm' = mm
  end.
Proof. exact exec_frame. Qed.
Print Assumptions C73_calls_write_new_blocks_only.

Theorem C73_defined_iff_in_bounds : forall (E : env) m (pp : pubparam E) c mm,
  exec m pp c mm <> None
  <-> Forall (fun pn => exists b, nth_error mm (fst (fst pn)) = Some b /\ (snd (fst pn) + snd pn <= length b)%nat) (buffers c).
Proof. exact exec_defined. Qed.
Print Assumptions C73_defined_iff_in_bounds.

Theorem C73_key_kept : forall (E : env) m (pp : pubparam E) l mm mm' sk,
  crun m pp l mm = Some mm' -> no_write (fst (ps_data sk)) l -> load mm (ps_data sk) (ps_len sk) <> None ->
  load mm' (ps_data sk) (ps_len sk) = load mm (ps_data sk) (ps_len sk).
Proof. exact key_survives. Qed.
Print Assumptions C73_key_kept.

Theorem C73_update_erases_key_refuted : forall (E : env) (L : env_laws E) m (pp : pubparam E) sp sn mm pkb k0 popb mm1 l ks mm2,
  pp_ok pp -> (pp_depth pp <= 32)%nat ->
  exec m pp (CKeygen sp sn) mm = Some (Ok (RKeys pkb k0 popb), mm1) -> mem_updates m pp l k0 mm1 = Some (ks, mm2) ->
  (length ks = length l)%nat
  /\ forall k t p n msg, In (k, t) (combine (k0 :: ks) (1 :: map fst l)) -> load mm2 p n = Some msg ->
     exists sig, exec m pp (CSign k p n t) mm2 = Some (Ok (RSig sig), mm2)
              /\ exec m pp (CVerify pkb p n sig) mm2 = Some (Ok (RBool true), mm2).
Proof. exact old_keys_sign. Qed.
Print Assumptions C73_update_erases_key_refuted.

Theorem C73_caller_can_erase : forall (E : env) m (pp : pubparam E) mm k,
  load mm (ps_data k) (ps_len k) <> None ->
  exists mm', cstep_exec m pp (SWrite (ps_data k) (zeros (ps_len k))) mm = Some mm'
  /\ (forall b, b <> fst (ps_data k) -> nth_error mm' b = nth_error mm b)
  /\ forall p n t, load mm' p n <> None ->
       exec m pp (CSign k p n t) mm' = Some (Panic P_FFI, mm') /\ exec m pp (CUpdate k p n t) mm' = Some (Panic P_FFI, mm').
Proof. exact caller_erases. Qed.
Print Assumptions C73_caller_can_erase.

(** The caller's memory: a seed and a message. *)
Definition mm0 : mem := [SEED; MSG].
Definition mk0 : pixel_sk := PixelSk (2, 0)%nat (length vblob).
Definition mm1 : mem := mm0 ++ [vblob].
Definition mblob2 : bytes := Eval vm_compute in get [] (c_sk_update Debug tpp4 vblob [] 2).
Definition mk2 : pixel_sk := PixelSk (3, 0)%nat (length mblob2).
Definition mm2 : mem := mm1 ++ [mblob2].
Definition mpk : bytes := Eval vm_compute in pk_blob true tpk4.
Definition mpop : bytes := Eval vm_compute in pop_blob true tpop4.
Definition msig1 : bytes := Eval vm_compute in get [] (c_sign_present Debug tpp4 vblob MSG 1).
Example C73_example :
  exec Debug tpp4 (CKeygen (0, 0)%nat 40) mm0 = Some (Ok (RKeys mpk mk0 mpop), mm1)
  /\ exec Debug tpp4 (CKeygen (0, 1)%nat 40) mm0 = None
  /\ mem_updates Debug tpp4 [(2, ((0, 0)%nat, 0%nat))] mk0 mm1 = Some ([mk2], mm2)
  /\ In (mk0, 1) (combine (mk0 :: [mk2]) (1 :: [2]))
  /\ exec Debug tpp4 (CSign mk0 (1, 0)%nat 41 1) mm2 = Some (Ok (RSig msig1), mm2)
  /\ load mm2 (ps_data mk0) (ps_len mk0) <> None
  /\ no_write 2 [SCall (CUpdate mk0 (0, 0)%nat 0 2); SWrite (0, 3)%nat [0; 0]].
Proof.
  split; [vm_cast_no_check (eq_refl (Some (Ok (RKeys mpk mk0 mpop), mm1)))|].
  split; [vm_compute; reflexivity|].
  split; [vm_cast_no_check (eq_refl (Some ([mk2], mm2)))|].
  split; [left; reflexivity|].
  split; [vm_cast_no_check (eq_refl (Some (Ok (RSig msig1), mm2)))|].
  split; [vm_compute; discriminate|]. repeat constructor. discriminate.
Qed.
