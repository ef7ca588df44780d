(** Model of test_vector/src/main.rs with a file system that may fail, and with all the
    files it writes.  [show] stands for the format {:?} of the values and [ppb] for the
    bytes of pp.serialize (pixel_param, a dependency), written by one write_all.  Closing
    a file does not fail; println! is left out. *)
From Verif Require Import Base Env SubKey SecretKey Keys Sig IO Serdes Programs.
Local Open Scope N_scope.

(** x_bin.txt, x_plain.txt, param_bin.txt and param_plain.txt. *)
Inductive gname := Bin (n : fname) | Plain (n : fname) | ParamBin | ParamPlain.
Inductive shown (E : env) :=
| ShPp (x : pubparam E) | ShPk (x : pubkey E) | ShPop (x : proof E) | ShSk (x : seckey E) | ShSig (x : signature E).
Arguments ShPp {E}. Arguments ShPk {E}. Arguments ShPop {E}. Arguments ShSk {E}. Arguments ShSig {E}.

(** The directory, and for each File::create to come: [None] if it fails, else what the
    calls of [write] on the file do (IO.v).  When the list is used up nothing fails. *)
Record disk := Disk { dk_files : list (gname * bytes); dk_evs : list (option (list wevent)) }.

(** let mut file = File::create(n)?; then [f] writes to it. *)
Definition save (n : gname) (f : st writer unit) : st disk unit := fun d =>
  let go sc evs :=
    let (r, w) := f (Writer [] sc) in (r, Disk (dk_files d ++ [(n, w_out w)]) evs) in
  match dk_evs d with
  | [] => go [] []
  | None :: evs => (Err E_IO, Disk (dk_files d) evs)
  | Some sc :: evs => go sc evs
  end.

(** test_vector/src/main.rs 55-67 and 79-91: the loop bodies. *)
Definition gen_step {E} (show : shown E -> bytes) (m : mode) (pp : pubparam E) (pk : pubkey E) (sk : seckey E) (tar : N) (nsk nsig : fname)
  : st disk (seckey E) :=
  do! sk <- slift (unwrap (run_mut (update m pp tar RNGSEED) sk));
  do! sig <- slift (unwrap (fst (sign_present m tar pp MSG sk)));
  do! _ <- slift (assert_true (verify m sig pk pp MSG));
  do! _ <- save (Plain nsk) (write_all (show (ShSk sk)));
  do! _ <- save (Bin nsk) (sk_serialize sk true);
  do! _ <- save (Plain nsig) (write_all (show (ShSig sig)));
  do! _ <- save (Bin nsig) (sig_serialize sig true);
  sret sk.

(** test_vector/src/main.rs 54-68. *)
Fixpoint gen_seq {E} (show : shown E -> bytes) (m : mode) (pp : pubparam E) (pk : pubkey E) (sk : seckey E) (l : list N) : st disk unit :=
  match l with
  | [] => sret tt
  | i :: l' =>
    do! sk <- gen_step show m pp pk sk i (SkBin i) (SigBin i);
    gen_seq show m pp pk sk l'
  end.

(** test_vector/src/main.rs 74-92. *)
Fixpoint gen_ff {E} (show : shown E -> bytes) (m : mode) (pp : pubparam E) (pk : pubkey E) (sk : seckey E) (l : list N) : st disk unit :=
  match l with
  | [] => sret tt
  | i :: l' =>
    let cur := sec_time sk in
    do! tar <- slift (add64 m cur i);
    do! sk <- gen_step show m pp pk sk tar (SkFf cur tar) (SigFf cur tar);
    gen_ff show m pp pk sk l'
  end.

(** test_vector/src/main.rs 8-96: main. *)
Definition gen_main {E} (show : shown E -> bytes) (ppb : bytes) (m : mode) (pp : pubparam E) : st disk unit :=
  do! _ <- save ParamPlain (write_all (show (ShPp pp)));
  do! _ <- save ParamBin (write_all ppb);
  do! x <- slift (unwrap (key_gen SEED pp));
  let '(pk, sk, pop) := x in
  do! _ <- save (Plain PkBin) (write_all (show (ShPk pk)));
  do! _ <- save (Bin PkBin) (pk_serialize pk true);
  do! _ <- save (Plain PopBin) (write_all (show (ShPop pop)));
  do! _ <- save (Bin PopBin) (pop_serialize pop true);
  do! _ <- save (Plain (SkBin 1)) (write_all (show (ShSk sk)));
  do! _ <- save (Bin (SkBin 1)) (sk_serialize sk true);
  do! sig <- slift (unwrap (fst (sign_present m 1 pp MSG sk)));
  do! _ <- slift (assert_true (verify m sig pk pp MSG));
  do! _ <- save (Plain (SigBin 1)) (write_all (show (ShSig sig)));
  do! _ <- save (Bin (SigBin 1)) (sig_serialize sig true);
  do! _ <- gen_seq show m pp pk sk (range 2 64);
  gen_ff show m pp pk sk (range 2 64).
