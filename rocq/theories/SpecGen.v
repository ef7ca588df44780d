(** What a run of the generator on a failing file system should leave behind. *)
From Verif Require Import Base Env IO SpecSer Programs SpecProg GenFs.
Local Open Scope N_scope.

(** [files], cut in the middle: some files complete, then possibly a beginning of the next. *)
Definition cut_short (files left : list (gname * bytes)) : Prop :=
  exists l1 n b l2, files = l1 ++ (n, b) :: l2
    /\ (left = l1 \/ exists k, left = l1 ++ [(n, firstn k b)]).

(** Every file can be created, and its [write] accepts something or is interrupted. *)
Definition no_failure (evs : list (option (list wevent))) : Prop :=
  Forall (fun e => exists sc, e = Some sc /\ willing (Writer [] sc)) evs.

(** The binary files other than the one of the parameters. *)
Fixpoint bins (l : list (gname * bytes)) : list file :=
  match l with
  | [] => []
  | (Bin n, b) :: l' => (n, b) :: bins l'
  | _ :: l' => bins l'
  end.

(** All names, in order: a plain file before each binary one. *)
Definition all_names : list gname :=
  [ParamPlain; ParamBin] ++ flat_map (fun n => [Plain n; Bin n]) vector_names.

(** The outcome of the run, without the files. *)
Definition outcome {A} (r : res A) : res unit :=
  match r with Ok _ => Ok tt | Err e => Err e | Panic p => Panic p end.
