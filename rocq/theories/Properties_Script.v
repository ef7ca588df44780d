(** Property C124: the scripts of pixel-python (keygen.py, keyupdate.py, sig.py and
    test_vector.py run as programs) and the files they leave behind.
    Specification vocabulary: SpecScripts.v ([same_file], [write_compare], [makes_keygen],
    [makes_keyupdate], [makes_sig], [makes_all]), SpecKey.v ([pp_ok]), SpecTime.v
    ([last_time]), SpecPy.v ([py_params]). *)
From Verif Require Import Base Env Time SpecTime SubKey SecretKey Keys Sig Python Programs Scripts
  SpecKey SpecPy SpecProg SpecScripts ScriptProps Toy ToyRun WitProps.
Local Open Scope N_scope.

(** Both files are written before the first comparison. *)
Theorem C124_keygen : forall (E : env) (L : env_laws E) m (pp : pubparam E) files,
  pp_ok pp -> py_params pp -> 2016 <= last_time (pp_depth pp) -> rs_main m pp = Ok files ->
  forall dir out, snd (keygen_script pp dir out) = out ++ filter makes_keygen files
    /\ (fst (keygen_script pp dir out) = Some tt <-> Forall (same_file dir) (filter makes_keygen files)).
Proof. exact keygen_script_outcome. Qed.
Print Assumptions C124_keygen.

Theorem C124_sig : forall (E : env) (L : env_laws E) m (pp : pubparam E) files,
  pp_ok pp -> py_params pp -> 2016 <= last_time (pp_depth pp) -> rs_main m pp = Ok files ->
  forall dir out, exists w, snd (sig_script pp dir out) = out ++ w
    /\ write_compare dir (filter makes_sig files) (fst (sig_script pp dir out)) w.
Proof. exact sig_script_outcome. Qed.
Print Assumptions C124_sig.

Theorem C124_test_vector : forall (E : env) (L : env_laws E) m (pp : pubparam E) files,
  pp_ok pp -> py_params pp -> 2016 <= last_time (pp_depth pp) -> rs_main m pp = Ok files ->
  forall dir out, exists w, snd (tv_script pp dir out) = out ++ w
    /\ write_compare dir (filter makes_all files) (fst (tv_script pp dir out)) w.
Proof. exact tv_script_outcome. Qed.
Print Assumptions C124_test_vector.

(** keyupdate.py passes "" for the seed, which raises in the first update: whatever the
    parameters and the files, nothing is written and nothing compared. *)
Theorem C124_keyupdate_refuted : forall (E : env) (pp : pubparam E) dir out, keyupdate_script pp dir out = (None, out).
Proof. exact keyupdate_script_raises. Qed.
Print Assumptions C124_keyupdate_refuted.

(** With b"" it would do what it says. *)
Theorem C124_keyupdate_bytes : forall (E : env) (L : env_laws E) m (pp : pubparam E) files,
  pp_ok pp -> py_params pp -> 2016 <= last_time (pp_depth pp) -> rs_main m pp = Ok files ->
  forall dir out, exists w, snd (keyupdate_with pp dir (PyBytes []) out) = out ++ w
    /\ write_compare dir (filter makes_keyupdate files) (fst (keyupdate_with pp dir (PyBytes []) out)) w.
Proof. exact keyupdate_bytes_outcome. Qed.
Print Assumptions C124_keyupdate_bytes.

Theorem C124_on_vectors : forall (E : env) (L : env_laws E) m (pp : pubparam E) files out,
  pp_ok pp -> py_params pp -> 2016 <= last_time (pp_depth pp) -> rs_main m pp = Ok files ->
  keygen_script pp files out = (Some tt, out ++ filter makes_keygen files)
  /\ sig_script pp files out = (Some tt, out ++ filter makes_sig files)
  /\ tv_script pp files out = (Some tt, out ++ filter makes_all files)
  /\ keyupdate_with pp files (PyBytes []) out = (Some tt, out ++ filter makes_keyupdate files)
  /\ keyupdate_script pp files out = (None, out).
Proof. exact scripts_on_vectors. Qed.
Print Assumptions C124_on_vectors.

Definition sdir : list file := Eval vm_compute in get [] (rs_seq Debug tpp4 tpk4 tsk4 [2]).
Definition sbad : list file := Eval vm_compute in [(SkBin 2, snd (nth 0 sdir (PkBin, []))); (SigBin 2, [0])].
Definition sold : file := (PkBin, []).
Example C124_example :
  py_params (tpp 11 0) /\ pp_ok (tpp 11 0) /\ 2016 <= last_time (pp_depth (tpp 11 0))
  /\ rs_seq Debug tpp4 tpk4 tsk4 [2] = Ok sdir /\ map fst sdir = [SkBin 2; SigBin 2]
  /\ keyupdate_loop tpp4 sdir (PyBytes []) (py_view tsk4) [2] [sold] = (Some tt, sold :: firstn 1 sdir)
  /\ sig_loop tpp4 sdir (py_view tsk4) [2] [sold] = (Some tt, sold :: skipn 1 sdir)
  /\ sig_loop tpp4 sbad (py_view tsk4) [2] [sold] = (None, sold :: skipn 1 sdir)
  /\ tv_seq tpp4 sdir (py_view tsk4) [2] [sold] = (Some tt, sold :: sdir)
  /\ tv_seq tpp4 sbad (py_view tsk4) [2] [sold] = (None, sold :: sdir)
  /\ tv_seq tpp4 [] (py_view tsk4) [2] [sold] = (None, sold :: firstn 1 sdir)
  /\ write_compare sbad sdir None sdir.
Proof.
  assert (Hrs : rs_seq Debug tpp4 tpk4 tsk4 [2] = Ok sdir) by vm_cast_no_check (eq_refl (Ok sdir)).
  assert (Hp : py_params tpp4) by (constructor; [reflexivity|reflexivity|vm_compute; lia]).
  assert (Hl : N.of_nat 3 <= 1 + last_time (pp_depth tpp4)) by (vm_compute; discriminate).
  assert (Ht : sec_time tsk4 + 1 = N.of_nat 2) by reflexivity.
  pose proof (fun dir => keyupdate_loop_does toy_laws Debug tpp4 tpk4 dir tpp4_ok Hp 1 2 3 tsk4 sdir eq_refl Hl tsk4_reachable Ht Hrs) as Hk.
  pose proof (fun dir => sig_loop_does toy_laws Debug tpp4 tpk4 dir tpp4_ok Hp 1 2 3 tsk4 sdir eq_refl Hl tsk4_reachable Ht Hrs) as Hs.
  pose proof (fun dir => tv_seq_does toy_laws Debug tpp4 tpk4 dir tpp4_ok Hp 1 2 3 tsk4 sdir eq_refl Hl tsk4_reachable Ht Hrs) as Hv.
  split; [constructor; [reflexivity|reflexivity|vm_compute; lia]|].
  split; [apply tpp_ok; lia|]. split; [vm_compute; discriminate|]. split; [exact Hrs|]. split; [reflexivity|].
  split; [exact (does_all _ _ _ [sold] (Hk sdir) ltac:(repeat constructor))|].
  split; [exact (does_all _ _ _ [sold] (Hs sdir) ltac:(repeat constructor))|].
  split; [exact (does_stop _ [] _ [] _ [sold] (Hs sbad) (Forall_nil _) ltac:(vm_compute; discriminate))|].
  split; [exact (does_all _ _ _ [sold] (Hv sdir) ltac:(repeat constructor))|].
  split; [exact (does_stop _ (firstn 1 sdir) _ [] _ [sold] (Hv sbad) ltac:(repeat constructor) ltac:(vm_compute; discriminate))|].
  split; [exact (does_stop _ [] _ (skipn 1 sdir) _ [sold] (Hv []) (Forall_nil _) ltac:(vm_compute; discriminate))|].
  right. split; [reflexivity|]. exists (firstn 1 sdir), (nth 1 sdir sold), []. split; [reflexivity|]. split; [reflexivity|].
  split; [repeat constructor|]. vm_compute. discriminate.
Qed.
