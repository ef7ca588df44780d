(** Property C125: the generator of the test vectors (test_vector/src/main.rs) with all
    its files, on a file system that may fail.
    Specification vocabulary: SpecGen.v ([cut_short], [no_failure], [bins], [all_names],
    [outcome]), SpecProg.v ([file_ok], [seq_ops], [jump_ops], [is_pop]), SpecSer.v
    ([willing]), SpecKey.v ([pp_ok]), SpecTime.v ([last_time]), SpecPy.v ([py_params]),
    SpecColl.v ([breaks]). *)
From Verif Require Import Base Env Time SpecTime SubKey SecretKey Keys Sig IO Serdes Api Python Programs GenFs
  SpecKey SpecUpdate SpecSer SpecPy SpecColl SpecProg SpecGen KeyProps SerProps GenProps Toy ToyRun WitProps WitSigProps WitSerProps.
Local Open Scope N_scope.

Theorem C125_failures : forall (E : env) show ppb m (pp : pubparam E) fs evs,
  exists r0 files, gen_main show ppb m pp (Disk [] []) = (r0, Disk files [])
  /\ match gen_main show ppb m pp (Disk fs evs) with
     | (r, Disk fs' _) =>
       exists left, fs' = fs ++ left
       /\ ((r = r0 /\ left = files) \/ (~ no_failure evs /\ r = Err E_IO /\ cut_short files left))
     end.
Proof. exact gen_failures. Qed.
Print Assumptions C125_failures.

Theorem C125_no_failure : forall (E : env) show ppb m (pp : pubparam E),
  match gen_main show ppb m pp (Disk [] []) with
  | (r, Disk files _) => r = outcome (rs_main m pp)
    /\ forall fl, rs_main m pp = Ok fl ->
         exists rest, files = (ParamPlain, show (ShPp pp)) :: (ParamBin, ppb) :: rest
         /\ bins files = fl /\ map fst files = [ParamPlain; ParamBin] ++ flat_map (fun n => [Plain n; Bin n]) (map fst fl)
  end.
Proof. exact gen_is_rs. Qed.
Print Assumptions C125_no_failure.

Theorem C125_outcome : forall (E : env) (L : env_laws E) m (pp : pubparam E) show ppb fs evs,
  pp_ok pp -> (pp_depth pp <= 32)%nat -> 2016 <= last_time (pp_depth pp) -> supported (pp_cs pp) -> pp_g2 pp = g2_one ->
  breaks m pp [(SEED, seq_ops); (SEED, jump_ops)]
  \/ exists files pk pop, map fst files = all_names /\ pk_validate pk pop = true /\ Forall (file_ok m pp pk pop) (bins files)
     /\ match gen_main show ppb m pp (Disk fs evs) with
        | (r, Disk fs' _) => exists left, fs' = fs ++ left
            /\ ((r = Ok tt /\ left = files) \/ (~ no_failure evs /\ r = Err E_IO /\ cut_short files left))
        end.
Proof. exact gen_main_outcome. Qed.
Print Assumptions C125_outcome.

Theorem C125_success_accepted : forall (E : env) (L : env_laws E) m (pp : pubparam E) show ppb fs evs d,
  pp_ok pp -> py_params pp -> 2016 <= last_time (pp_depth pp) ->
  gen_main show ppb m pp (Disk fs evs) = (Ok tt, d) ->
  exists files, rs_main m pp = Ok files /\ bins (dk_files d) = bins fs ++ files
  /\ py_main pp (bins (dk_files d)) = Some (filter (fun f => negb (is_pop f)) files).
Proof. exact gen_success_accepted. Qed.
Print Assumptions C125_success_accepted.

(** The third and the fourth file of a loop body: the plain and the binary signature. *)
Definition gshow (x : shown toy) : bytes := match x with ShSk _ => [1; 1] | _ => [2; 2; 2] end.
Definition grun (evs : list (option (list wevent))) : res unit * list (gname * bytes) :=
  let (r, d) := (do! _ <- save (Plain (SkBin 7)) (write_all (gshow (ShSk tsk7)));
                 do! _ <- save (Plain (SigBin 7)) (write_all (gshow (ShSig tsig7)));
                 save (Bin (SigBin 7)) (sig_serialize tsig7 true)) (Disk [(ParamBin, [5])] evs) in (r, dk_files d).
Definition gfiles : list (gname * bytes) := [(Plain (SkBin 7), [1; 1]); (Plain (SigBin 7), [2; 2; 2]); (Bin (SigBin 7), tsigblob7)].
Example C125_example :
  pp_ok (tpp 11 0) /\ (pp_depth (tpp 11 0) <= 32)%nat /\ 2016 <= last_time (pp_depth (tpp 11 0))
  /\ supported (pp_cs (tpp 11 0)) /\ pp_g2 (tpp 11 0) = @g2_one toy /\ py_params (tpp 11 0)
  /\ length all_names = 506%nat /\ nth_error all_names 265 = Some (Bin (SigFf 3 6))
  /\ grun [] = (Ok tt, (ParamBin, [5]) :: gfiles)
  /\ grun [Some [WIntr; WAccept 1]; Some [WAccept 2]; Some [WAccept 100]] = (Ok tt, (ParamBin, [5]) :: gfiles)
  /\ no_failure [Some [WIntr; WAccept 1]; Some [WAccept 2]; Some [WAccept 100]]
  /\ grun [Some []; None] = (Err E_IO, [(ParamBin, [5]); (Plain (SkBin 7), [1; 1])])
  /\ grun [Some []; Some [WAccept 2; WFail]] = (Err E_IO, [(ParamBin, [5]); (Plain (SkBin 7), [1; 1]); (Plain (SigBin 7), [2; 2])])
  /\ cut_short gfiles [(Plain (SkBin 7), [1; 1]); (Plain (SigBin 7), [2; 2])]
  /\ ~ cut_short gfiles [(Plain (SkBin 7), [1]); (Plain (SigBin 7), [2; 2])].
Proof.
  split; [apply tpp_ok; lia|]. split; [vm_compute; lia|]. split; [vm_compute; discriminate|].
  split; [left; reflexivity|]. split; [reflexivity|]. split; [constructor; [reflexivity|reflexivity|vm_compute; lia]|].
  split; [vm_compute; reflexivity|]. split; [vm_compute; reflexivity|].
  split; [vm_cast_no_check (eq_refl (@Ok unit tt, (ParamBin, [5]) :: gfiles))|].
  split; [vm_cast_no_check (eq_refl (@Ok unit tt, (ParamBin, [5]) :: gfiles))|].
  split; [repeat constructor; eexists; (split; [reflexivity|]); repeat constructor; discriminate|].
  split; [vm_cast_no_check (eq_refl (@Err unit E_IO, [(ParamBin, [5]); (Plain (SkBin 7), [1; 1])]))|].
  split; [vm_cast_no_check (eq_refl (@Err unit E_IO, [(ParamBin, [5]); (Plain (SkBin 7), [1; 1]); (Plain (SigBin 7), [2; 2])]))|].
  split.
  - exists [(Plain (SkBin 7), [1; 1])], (Plain (SigBin 7)), [2; 2; 2], [(Bin (SigBin 7), tsigblob7)]. split; [reflexivity|]. right. exists 2%nat. reflexivity.
  - intros (l1 & n & b & l2 & H & Hc). unfold gfiles in H. destruct l1 as [|x l1]; cbn [app] in H.
    + destruct Hc as [Hc|(k & Hc)]; discriminate.
    + injection H as <- _. destruct Hc as [Hc|(k & Hc)]; discriminate.
Qed.
