(** What the targets of the Makefile should leave behind. *)
From Verif Require Import Base Env SubKey Ffi Programs GenFs MakeTest SpecProg SpecScripts SpecGen.
Local Open Scope N_scope.

(** The files that the C program makes, in its order. *)
Definition c_names : list fname := flat_map (fun i => [SigBin i; SkBin i]) (range 1 64).

(** Nothing but the directory of Rust's vectors differs. *)
Definition same_but_vec (t t' : tree) : Prop :=
  t_py t' = t_py t /\ t_pyparam t' = t_pyparam t /\ t_buf t' = t_buf t /\ t_exe t' = t_exe t.

(** All three programs have written: [g] by the Rust generator, after what was there;
    from its binary files, all but pop_bin.txt by the Python script, and those of the time
    stamps 1 .. 63 by the C program. *)
Definition all_written (ppb : bytes) (g : list (gname * bytes)) (t t' : tree) : Prop :=
  (exists fs, t_vec t = Some fs /\ t_vec t' = Some (fs ++ g))
  /\ (exists out, t_py t = Some out /\ t_py t' = Some (out ++ filter makes_all (bins g)))
  /\ t_pyparam t' = Some ppb
  /\ (exists cf, t_buf t' = t_buf t ++ cf /\ map fst cf = c_names /\ forall f, In f cf -> In f (bins g))
  /\ t_exe t' = true.

(** Something to remove in every place. *)
Definition full (t : tree) : Prop :=
  (exists x l, t_vec t = Some (x :: l))
  /\ (exists l, t_py t = Some l /\ (l <> [] \/ t_pyparam t <> None))
  /\ t_exe t = true /\ t_buf t <> [].

(** The C program's test_vector with its loop ended before the time stamp [k]. *)
Definition c_upto {E} (pp : pubparam E) (k : nat) : res (list file) :=
  let! (pk, sk, pop) := c_keygen pp SEED in
  let! sig := c_sign_present Debug pp sk MSG 1 in
  let! _ := assert_true (@c_verify_pop E pk pop) in
  let! r := c_seq Debug pp sk (range 2 k) in
  Ok ([(SigBin 1, sig); (SkBin 1, sk)] ++ r).
(** What it has written when it ends early: nothing if it fails before the loop, else the
    files of the time stamps before the first that fails. *)
Definition c_stopped {E} (pp : pubparam E) (w : list file) : Prop :=
  (w = [] /\ forall k l, c_upto pp k <> Ok l)
  \/ exists k, (2 <= k < 64)%nat /\ c_upto pp k = Ok w /\ forall k' l, (k < k')%nat -> c_upto pp k' <> Ok l.
