(** Model of the targets test_vector_rust, test_vector_python, test_vector_c, test and
    clean of Makefile, on the three directories of test vectors.  The commands cargo
    build, cbindgen, gcc and cargo clean succeed, and cargo builds with the dev profile;
    make runs the prerequisites of [test] one after the other and stops at the first
    command that fails.  A command succeeds or fails; a failed assertion or a panic ends a
    program with a failure.  Left out, as in Programs.v and Scripts.v: the "plain" files of
    the Python scripts, and failures of the file system other than a missing directory
    (the Rust generator has them all). *)
From Verif Require Import Base Env SubKey IO Python Programs GenFs Scripts.
Local Open Scope N_scope.

(** test_vector/test_vector and pixel-python/test_vector ([None]: there is no such
    directory, as in the repository; none of the programs makes one) and test_buf (part of
    the repository).  [t_pyparam] is pixel-python/test_vector/param_bin.txt, [t_exe] says
    whether c_wrapper/c_example is there. *)
Record tree := Tree {
  t_vec : option (list (gname * bytes));
  t_py : option (list file);
  t_pyparam : option bytes;
  t_buf : list file;
  t_exe : bool }.

Definition target := tree -> bool * tree.
(** Two commands of a recipe, or two prerequisites. *)
Definition and_then (a b : target) : target :=
  fun t => match a t with (true, t') => b t' | (false, t') => (false, t') end.

(** The files x_bin.txt of pk, pop, sk and sig. *)
Definition bin_files (l : list (gname * bytes)) : list file :=
  flat_map (fun f => match fst f with Bin n => [(n, snd f)] | _ => [] end) l.
Definition vec_files (t : tree) : list file :=
  match t_vec t with Some fs => bin_files fs | None => [] end.

(** Makefile 19-20: cd test_vector; cargo run.  Without the directory the first
    File::create fails (main.rs 11).  [evs] as in GenFs.v. *)
Definition make_rust {E} (show : shown E -> bytes) (ppb : bytes) (pp : pubparam E) (evs : list (option (list wevent))) : target :=
  fun t =>
  match t_vec t with
  | None => (false, t)
  | Some fs =>
    let (r, d) := gen_main show ppb Debug pp (Disk fs evs) in
    (is_ok r, Tree (Some (dk_files d)) (t_py t) (t_pyparam t) (t_buf t) (t_exe t))
  end.

(** Makefile 22-23: cd pixel-python; python test_vector.py.  The import of param.py
    writes param_bin.txt (param.py 84-86), which raises without the directory.  A missing
    ../test_vector/test_vector is like an empty one: filecmp.cmp raises. *)
Definition make_python {E} (ppb : bytes) (pp : pubparam E) : target := fun t =>
  match t_py t with
  | None => (false, t)
  | Some out =>
    let (r, out') := tv_script pp (vec_files t) out in
    (match r with Some _ => true | None => false end,
     Tree (t_vec t) (Some out') (Some ppb) (t_buf t) (t_exe t))
  end.

(** c_wrapper/test.c 94-150 with the files written when the program ends early; the files
    of one time stamp are written after its signature is made. *)
Fixpoint c_seq_out {E} (m : mode) (pp : pubparam E) (sk : bytes) (l : list N) : bool * list file :=
  match l with
  | [] => (true, [])
  | i :: l' =>
    match (let! sk := Ffi.c_sk_update m pp sk RNGSEED i in
           let! sig := Ffi.c_sign_present m pp sk MSG i in Ok (sk, sig)) with
    | Ok (sk, sig) => let (r, w) := c_seq_out m pp sk l' in (r, [(SigBin i, sig); (SkBin i, sk)] ++ w)
    | _ => (false, [])
    end
  end.
Definition c_vector_out {E} (m : mode) (pp : pubparam E) : bool * list file :=
  match (let! (pk, sk, pop) := Ffi.c_keygen pp SEED in
         let! sig := Ffi.c_sign_present m pp sk MSG 1 in
         let! _ := assert_true (@Ffi.c_verify_pop E pk pop) in Ok (sk, sig)) with
  | Ok (sk, sig) => let (r, w) := c_seq_out m pp sk (range 2 64) in (r, [(SigBin 1, sig); (SkBin 1, sk)] ++ w)
  | _ => (false, [])
  end.

(** Makefile 12-17: build c_example, run it (test.c 153-158: test, then test_vector) and
    then python test_buf/test_vector.py. *)
Definition run_c {E} (pp : pubparam E) : target := fun t =>
  let w := if is_ok (c_test Debug pp) then c_vector_out Debug pp else (false, []) in
  (fst w, Tree (t_vec t) (t_py t) (t_pyparam t) (t_buf t ++ snd w) true).
Definition compare_c : target := fun t =>
  (match compare_main (vec_files t) (t_buf t) with Some _ => true | None => false end, t).
Definition make_c {E} (pp : pubparam E) : target := and_then (run_c pp) compare_c.

(** Makefile 25: test. *)
Definition make_test {E} (show : shown E -> bytes) (ppb : bytes) (pp : pubparam E) (evs : list (option (list wevent))) : target :=
  and_then (make_rust show ppb pp evs) (and_then (make_python ppb pp) (make_c pp)).

(** Makefile 34-39: clean.  rm fails if there is no file; all files of the directories
    match *.txt. *)
Definition rm_vec : target := fun t =>
  match t_vec t with
  | Some (_ :: _) => (true, Tree (Some []) (t_py t) (t_pyparam t) (t_buf t) (t_exe t))
  | _ => (false, t)
  end.
Definition rm_py : target := fun t =>
  match t_py t, t_pyparam t with
  | Some (_ :: _), _ | Some _, Some _ => (true, Tree (t_vec t) (Some []) None (t_buf t) (t_exe t))
  | _, _ => (false, t)
  end.
Definition rm_exe : target := fun t => (t_exe t, Tree (t_vec t) (t_py t) (t_pyparam t) (t_buf t) false).
Definition rm_buf : target := fun t =>
  match t_buf t with
  | [] => (false, t)
  | _ => (true, Tree (t_vec t) (t_py t) (t_pyparam t) [] (t_exe t))
  end.
Definition make_clean : target := and_then rm_vec (and_then rm_py (and_then rm_exe rm_buf)).
