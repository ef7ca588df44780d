(** Property C126: the targets test_vector_rust, test_vector_python, test_vector_c, test
    and clean of the Makefile.
    Specification vocabulary: SpecMake.v ([c_names], [same_but_vec], [all_written], [c_stopped],
    [full]), SpecGen.v ([bins], [all_names], [cut_short], [no_failure]), SpecScripts.v
    ([same_file], [makes_all]), SpecProg.v ([file_ok], [seq_ops], [jump_ops]), SpecKey.v
    ([pp_ok]), SpecTime.v ([last_time]), SpecPy.v ([py_params]), SpecColl.v ([breaks]). *)
From Verif Require Import Base Env Time SpecTime SubKey SecretKey Keys Sig IO Serdes Api Python Programs GenFs Scripts MakeTest
  SpecKey SpecUpdate SpecSer SpecPy SpecColl SpecProg SpecScripts SpecGen SpecMake PrngFacts KeyProps ProgProps MakeProps Toy ToyRun WitProps.
Local Open Scope N_scope.

(** In a fresh checkout there is no test_vector/test_vector, and nobody makes it. *)
Theorem C126_fresh_checkout_refuted : forall (E : env) show ppb (pp : pubparam E) evs t, t_vec t = None -> make_test show ppb pp evs t = (false, t).
Proof. exact no_vector_dir. Qed.
Print Assumptions C126_fresh_checkout_refuted.

Theorem C126_no_python_directory : forall (E : env) show ppb (pp : pubparam E) evs t, t_py t = None ->
  fst (make_test show ppb pp evs t) = false /\ same_but_vec t (snd (make_test show ppb pp evs t)).
Proof. exact no_python_dir. Qed.
Print Assumptions C126_no_python_directory.

Theorem C126_outcome : forall (E : env) (L : env_laws E) (pp : pubparam E) show ppb evs t,
  pp_ok pp -> py_params pp -> 2016 <= last_time (pp_depth pp) -> pp_g2 pp = g2_one ->
  t_vec t <> None -> t_py t <> None ->
  breaks Debug pp [(SEED, seq_ops); (SEED, jump_ops)]
  \/ exists g pk pop t', map fst g = all_names /\ pk_validate pk pop = true /\ Forall (file_ok Debug pp pk pop) (bins g)
     /\ ((make_test show ppb pp evs t = (true, t') /\ all_written ppb g t t')
         \/ (~ no_failure evs /\ make_test show ppb pp evs t = (false, t') /\ same_but_vec t t'
             /\ exists fs left, t_vec t = Some fs /\ t_vec t' = Some (fs ++ left) /\ cut_short g left)).
Proof. exact test_outcome. Qed.
Print Assumptions C126_outcome.

Theorem C126_python_alone : forall (E : env) (L : env_laws E) (pp : pubparam E) ppb files t,
  pp_ok pp -> py_params pp -> 2016 <= last_time (pp_depth pp) -> rs_main Debug pp = Ok files ->
  match make_python ppb pp t with
  | (r, t') => (r = true <-> t_py t <> None /\ Forall (same_file (vec_files t)) (filter makes_all files))
    /\ t_vec t' = t_vec t /\ t_buf t' = t_buf t /\ t_exe t' = t_exe t
    /\ (t_py t = None -> t' = t)
    /\ (forall out, t_py t = Some out -> t_pyparam t' = Some ppb
          /\ exists l1 l2, filter makes_all files = l1 ++ l2 /\ t_py t' = Some (out ++ l1) /\ (r = true -> l2 = []))
  end.
Proof. exact python_alone. Qed.
Print Assumptions C126_python_alone.

Theorem C126_c_alone : forall (E : env) (L : env_laws E) (pp : pubparam E) files t,
  pp_ok pp -> (pp_depth pp <= 32)%nat -> 2016 <= last_time (pp_depth pp) -> supported (pp_cs pp) -> pp_g2 pp = g2_one ->
  rs_main Debug pp = Ok files ->
  breaks Debug pp [(SEED, seq_ops); (SEED, jump_ops)]
  \/ exists r cf, make_c pp t = (r, Tree (t_vec t) (t_py t) (t_pyparam t) (t_buf t ++ cf) true)
     /\ map fst cf = c_names /\ (forall f, In f cf -> In f files)
     /\ (r = true <-> forall i n, 1 <= i < 64 -> n = SigBin i \/ n = SkBin i -> read_file (vec_files t) n = read_file files n).
Proof. exact c_alone. Qed.
Print Assumptions C126_c_alone.

Theorem C126_c_program : forall (E : env) (pp : pubparam E) t,
  exists r w, run_c pp t = (r, Tree (t_vec t) (t_py t) (t_pyparam t) (t_buf t ++ w) true)
  /\ (r = true <-> c_test Debug pp = Ok tt /\ c_test_vector Debug pp = Ok w)
  /\ (r = false -> c_test Debug pp <> Ok tt -> w = []) /\ (r = false -> c_test Debug pp = Ok tt -> c_stopped pp w).
Proof. exact run_c_exactly. Qed.
Print Assumptions C126_c_program.

Theorem C126_clean_iff : forall t, fst (make_clean t) = true <-> full t.
Proof. exact clean_iff. Qed.
Print Assumptions C126_clean_iff.

Theorem C126_clean_removes_all : forall t, fst (make_clean t) = true -> snd (make_clean t) = Tree (Some []) (Some []) None [] false.
Proof. exact clean_all. Qed.
Print Assumptions C126_clean_removes_all.

Theorem C126_clean_twice : forall t, fst (make_clean (snd (make_clean t))) = false.
Proof. exact clean_twice. Qed.
Print Assumptions C126_clean_twice.

Theorem C126_clean_failure : forall t,
  (t_py t = None \/ (t_py t = Some [] /\ t_pyparam t = None) -> fst (make_clean t) = false)
  /\ (fst (make_clean t) = false -> t_buf (snd (make_clean t)) = t_buf t)
  /\ (t_vec t = None \/ t_vec t = Some [] -> make_clean t = (false, t)).
Proof. exact clean_keeps_c. Qed.
Print Assumptions C126_clean_failure.

Theorem C126_clean_after_test : forall ppb g t t', all_written ppb g t t' -> map fst g = all_names -> 
  make_clean t' = (true, Tree (Some []) (Some []) None [] false).
Proof. exact clean_after_test. Qed.
Print Assumptions C126_clean_after_test.

(** One byte per file. *)
Definition mfiles (x : N) : list file := map (fun n => (n, [x])) vector_names.
Definition mgen (x : N) : list (gname * bytes) := map (fun n => (n, [x])) all_names.
Definition mc (x : N) : list file := map (fun n => (n, [x])) c_names.
Definition mold : tree := Tree (Some [(Bin (SkBin 3), [8])]) (Some [(PkBin, [8])]) None [(SkBin 70, [8])] false.
Definition mnew : tree :=
  Tree (Some ((Bin (SkBin 3), [8]) :: mgen 1)) (Some ((PkBin, [8]) :: filter makes_all (mfiles 1))) (Some [5])
    ((SkBin 70, [8]) :: mc 1) true.
Definition mstale : tree := Tree (Some (mgen 2)) None None (mc 1) true.
Definition mempty : tree := Tree (Some []) (Some []) None [] false.
Example C126_example :
  pp_ok (tpp 11 0) /\ py_params (tpp 11 0) /\ 2016 <= last_time (pp_depth (tpp 11 0)) /\ pp_g2 (tpp 11 0) = @g2_one toy
  /\ length c_names = 126%nat /\ nth_error c_names 5 = Some (SkBin 3)
  /\ bins (mgen 1) = mfiles 1 /\ all_written [5] (mgen 1) mold mnew /\ ~ all_written [5] (mgen 2) mold mnew
  /\ compare_c mnew = (true, mnew) /\ compare_c mstale = (false, mstale) /\ compare_c mold = (false, mold)
  /\ make_clean mnew = (true, mempty) /\ make_clean mempty = (false, mempty)
  /\ make_clean mstale = (false, Tree (Some []) None None (mc 1) true)
  /\ make_clean mold = (false, Tree (Some []) (Some []) None [(SkBin 70, [8])] false)
  /\ make_python [5] (tpp 11 0) (Tree None None None [] false) = (false, Tree None None None [] false).
Proof.
  split; [apply tpp_ok; lia|]. split; [constructor; [reflexivity|reflexivity|vm_compute; lia]|]. split; [vm_compute; discriminate|].
  split; [reflexivity|]. split; [vm_compute; reflexivity|]. split; [vm_compute; reflexivity|]. split; [vm_compute; reflexivity|].
  split.
  { split; [exists [(Bin (SkBin 3), [8])]; split; reflexivity|].
    split; [exists [(PkBin, [8])]; split; [reflexivity|]; vm_compute; reflexivity|].
    split; [reflexivity|]. split; [|reflexivity]. exists (mc 1). split; [reflexivity|]. split; [vm_compute; reflexivity|].
    intros f Hf. unfold mc in Hf. apply in_map_iff in Hf as (n & <- & Hn).
    assert (Hb : forallb (fun n => existsb (fun f => fname_eqb (fst f) n && bytes_eqb (snd f) [1]) (bins (mgen 1))) c_names = true) by (vm_compute; reflexivity).
    rewrite forallb_forall in Hb. specialize (Hb n Hn). apply existsb_exists in Hb as ([n' b] & Hi & He).
    apply andb_prop in He as [He1 He2]. cbn [fst snd] in *. apply fname_eqb_eq in He1 as ->. apply bytes_eqb_eq in He2 as ->. exact Hi. }
  split.
  { intros ((fs & Hf & Hg) & _). injection Hf as <-.
    pose proof (f_equal (fun o => match o with Some (_ :: (_, b) :: _) => b | _ => [] end) Hg) as Hx. vm_compute in Hx. discriminate. }
  repeat (split; [vm_compute; reflexivity|]). vm_compute. reflexivity.
Qed.
