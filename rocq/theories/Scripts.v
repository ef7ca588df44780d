(** Model of the scripts of pixel-python (keygen.py, keyupdate.py, sig.py and
    test_vector.py run as programs), with the files that have been written when an
    exception ends them.  [pp] stands for default_param.  A script gets the files already
    in its directory test_vector and leaves that directory; [None] is an exception.  The
    directory of the other implementation, ../test_vector/test_vector, is [dir].  Left
    out, as in Programs.v: the "plain" files, console output and failures of the file
    system; filecmp.cmp compares contents. *)
From Verif Require Import Base Env SubKey Python Programs.
Local Open Scope N_scope.

Definition scr (A : Type) := list file -> option A * list file.
Definition sc_ret {A} (a : A) : scr A := fun out => (Some a, out).
Definition sc_bind {A B} (e : scr A) (k : A -> scr B) : scr B :=
  fun out => match e out with (Some a, out') => k a out' | (None, out') => (None, out') end.
Definition sc_lift {A} (o : option A) : scr A := fun out => (o, out).
Notation "'py!' x <- e ; k" := (sc_bind e (fun x => k))
  (at level 200, x pattern, e at level 200, k at level 200).

(** f = open(fname, "wb"); f.write(buf); f.close() *)
Definition sc_write (n : fname) (b : bytes) : scr unit := fun out => (Some tt, out ++ [(n, b)]).
(** assert filecmp.cmp(fname, fname2); a file that is not there raises. *)
Definition sc_cmp (dir : list file) (n : fname) : scr unit :=
  fun out => ((let? b := read_file out n in cmp_file dir n b), out).

(** The [seed] argument of sk_update as the scripts pass it: b"" or "". *)
Inductive pyarg := PyBytes (b : bytes) | PyText (b : bytes).
(** pixel-python/keyupdate.py 15-67 for such an argument: prng.py 52 evaluates
    m1[:64]+newseed, which raises TypeError for a str. *)
Definition py_update_arg {E} (pp : pubparam E) (sk : pysk E) (tar_time : N) (seed : pyarg) : option (pysk E) :=
  match seed with
  | PyBytes b => py_update pp sk tar_time b
  | PyText _ => None
  end.

(** pixel-python/keygen.py 80-100 and 116-121: key_test_vector_gen, then the two
    comparisons of main. *)
Definition keygen_script {E} (pp : pubparam E) (dir : list file) : scr unit :=
  py! x <- sc_lift (py_key_gen pp SEED);
  py! _ <- sc_write PkBin (py_serialize_pk (fst x));
  py! b <- sc_lift (py_serialize_sk (snd x));
  py! _ <- sc_write (SkBin 1) b;
  py! _ <- sc_cmp dir PkBin;
  sc_cmp dir (SkBin 1).

(** pixel-python/keyupdate.py 182-205: the loop; [seed] is "" there. *)
Fixpoint keyupdate_loop {E} (pp : pubparam E) (dir : list file) (seed : pyarg) (sk : pysk E) (l : list N) : scr unit :=
  match l with
  | [] => sc_ret tt
  | i :: l' =>
    py! sk2 <- sc_lift (py_update_arg pp sk i seed);
    py! b <- sc_lift (py_serialize_sk sk2);
    py! _ <- sc_write (SkBin i) b;
    py! _ <- sc_cmp dir (SkBin i);
    keyupdate_loop pp dir seed sk2 l'
  end.
(** pixel-python/keyupdate.py 179-205: key_update_test_vector_gen, for a given seed. *)
Definition keyupdate_with {E} (pp : pubparam E) (dir : list file) (seed : pyarg) : scr unit :=
  py! x <- sc_lift (py_key_gen pp SEED);
  keyupdate_loop pp dir seed (snd x) (range 2 64).
Definition keyupdate_script {E} (pp : pubparam E) (dir : list file) : scr unit :=
  keyupdate_with pp dir (PyText []).

(** pixel-python/sig.py 92-109: the loop. *)
Fixpoint sig_loop {E} (pp : pubparam E) (dir : list file) (sk : pysk E) (l : list N) : scr unit :=
  match l with
  | [] => sc_ret tt
  | i :: l' =>
    py! sk_new <- sc_lift (py_update_arg pp sk i (PyBytes RNGSEED));
    py! sig <- sc_lift (py_sign_present pp sk_new i MSG);
    py! b <- sc_lift (py_serialize_sig sig);
    py! _ <- sc_write (SigBin i) b;
    py! _ <- sc_cmp dir (SigBin i);
    sig_loop pp dir sk_new l'
  end.
(** pixel-python/sig.py 75-109: signature_test_vector_gen. *)
Definition sig_script {E} (pp : pubparam E) (dir : list file) : scr unit :=
  py! x <- sc_lift (py_key_gen pp SEED);
  py! sig <- sc_lift (py_sign_present pp (snd x) 1 MSG);
  py! b <- sc_lift (py_serialize_sig sig);
  py! _ <- sc_write (SigBin 1) b;
  py! _ <- sc_cmp dir (SigBin 1);
  sig_loop pp dir (snd x) (range 2 64).

(** pixel-python/test_vector.py 78-115 and 125-162: the loop bodies. *)
Definition tv_step {E} (pp : pubparam E) (dir : list file) (sk : pysk E) (tar : N) (nsk nsig : fname) : scr (pysk E) :=
  py! sk2 <- sc_lift (py_update_arg pp sk tar (PyBytes RNGSEED));
  py! sig <- sc_lift (py_sign_present pp sk2 tar MSG);
  py! a <- sc_lift (py_serialize_sk sk2);
  py! _ <- sc_write nsk a;
  py! _ <- sc_cmp dir nsk;
  py! b <- sc_lift (py_serialize_sig sig);
  py! _ <- sc_write nsig b;
  py! _ <- sc_cmp dir nsig;
  sc_ret sk2.
(** pixel-python/test_vector.py 74-115. *)
Fixpoint tv_seq {E} (pp : pubparam E) (dir : list file) (sk : pysk E) (l : list N) : scr unit :=
  match l with
  | [] => sc_ret tt
  | i :: l' =>
    py! sk2 <- tv_step pp dir sk i (SkBin i) (SigBin i);
    tv_seq pp dir sk2 l'
  end.
(** pixel-python/test_vector.py 118-162. *)
Fixpoint tv_ff {E} (pp : pubparam E) (dir : list file) (sk : pysk E) (l : list N) : scr unit :=
  match l with
  | [] => sc_ret tt
  | i :: l' =>
    py! s <- sc_lift (py_nth (snd sk) 0);
    py! sk2 <- tv_step pp dir sk (sk_t s + i) (SkFf (sk_t s) (sk_t s + i)) (SigFf (sk_t s) (sk_t s + i));
    tv_ff pp dir sk2 l'
  end.
(** pixel-python/test_vector.py 26-162: test_vector. *)
Definition tv_script {E} (pp : pubparam E) (dir : list file) : scr unit :=
  py! x <- sc_lift (py_key_gen pp SEED);
  py! sig <- sc_lift (py_sign_present pp (snd x) 1 MSG);
  py! _ <- sc_write PkBin (py_serialize_pk (fst x));
  py! _ <- sc_cmp dir PkBin;
  py! b <- sc_lift (py_serialize_sk (snd x));
  py! _ <- sc_write (SkBin 1) b;
  py! _ <- sc_cmp dir (SkBin 1);
  py! c <- sc_lift (py_serialize_sig sig);
  py! _ <- sc_write (SigBin 1) c;
  py! _ <- sc_cmp dir (SigBin 1);
  py! _ <- tv_seq pp dir (snd x) (range 2 64);
  tv_ff pp dir (snd x) (range 2 64).
