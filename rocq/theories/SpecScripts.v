(** What a script that writes files one by one and compares each with another directory
    should leave behind. *)
From Verif Require Import Base Env Programs.
Local Open Scope N_scope.

(** The file is in the directory with these contents. *)
Definition same_file (dir : list file) (f : file) : Prop := read_file dir (fst f) = Some (snd f).

(** [l] written and compared one by one: all of it if all are in [dir], else up to the
    first that is not. *)
Definition write_compare (dir l : list file) (r : option unit) (written : list file) : Prop :=
  (r = Some tt /\ written = l /\ Forall (same_file dir) l)
  \/ (r = None /\ exists l1 f l2, l = l1 ++ f :: l2 /\ written = l1 ++ [f]
                 /\ Forall (same_file dir) l1 /\ ~ same_file dir f).

(** The files of the Rust generator that each script makes. *)
Definition makes_keygen (f : file) : bool := match fst f with PkBin => true | SkBin t => t =? 1 | _ => false end.
Definition makes_keyupdate (f : file) : bool := match fst f with SkBin t => negb (t =? 1) | _ => false end.
Definition makes_sig (f : file) : bool := match fst f with SigBin _ => true | _ => false end.
Definition makes_all (f : file) : bool := match fst f with PopBin => false | _ => true end.
