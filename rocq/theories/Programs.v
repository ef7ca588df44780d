(** Model of the programs that write and compare test vectors: test_vector/src/main.rs,
    pixel-python/test_vector.py, c_wrapper/test.c and test_buf/test_vector.py.  [pp]
    stands for the default parameters of each.  A directory is the list of the files
    written to it, in order.  Left out: the parameter files, the "plain" files and failures
    of the file system (for the Rust program they are in GenFs.v), and console output.
    filecmp.cmp compares contents (it may take equal size and modification time for equal
    contents; not modelled). *)
From Coq Require Import String.
From Verif Require Import Base Env SubKey SecretKey Keys Sig IO Serdes Ffi Python.
Local Open Scope N_scope.

(** pk_bin.txt, pop_bin.txt, sk_bin_t.txt, sig_bin_t.txt, sk_bin_ff_c_t.txt and
    sig_bin_ff_c_t.txt. *)
Inductive fname :=
| PkBin | PopBin | SkBin (t : N) | SigBin (t : N) | SkFf (cur tar : N) | SigFf (cur tar : N).
Definition fname_eqb (a b : fname) : bool :=
  match a, b with
  | PkBin, PkBin | PopBin, PopBin => true
  | SkBin t, SkBin u | SigBin t, SigBin u => t =? u
  | SkFf c t, SkFf d u | SigFf c t, SigFf d u => (c =? d) && (t =? u)
  | _, _ => false
  end.
Definition file := (fname * bytes)%type.

(** Reading a file: the last one written under that name. *)
Fixpoint read_file (dir : list file) (n : fname) : option bytes :=
  match dir with
  | [] => None
  | (n', b) :: dir' =>
    match read_file dir' n with
    | Some c => Some c
    | None => if fname_eqb n' n then Some b else None
    end
  end.

(** The strings in all the programs (test_vector/src/main.rs 18-19, 43; test_vector.py
    28-29; test.c 16-18, 96-98). *)
Definition SEED : bytes := Eval vm_compute in str "this is a very long seed for pixel tests".
Definition RNGSEED : bytes := [].
Definition MSG : bytes := Eval vm_compute in str "this is the message we want pixel to sign".

(** [for i in 2..64], [range(2,64)], [for (i=2;i<64;i++)]. *)
Definition range (a b : nat) : list N := map N.of_nat (seq a (b - a)).

(** [e.unwrap()], [assert!(e.is_ok())]; [assert!(b)]. *)
Definition unwrap {A} (r : res A) : res A :=
  match r with Ok a => Ok a | Err _ => Panic P_ASSERT | Panic p => Panic p end.
Definition assert_true (r : res bool) : res unit :=
  let! b := r in if b then Ok tt else Panic P_ASSERT.

(** test_vector/src/main.rs 55-67 and 79-91: update the key to [tar], sign, verify, write
    both; returns the files and the key. *)
Definition rs_step {E} (m : mode) (pp : pubparam E) (pk : pubkey E) (sk : seckey E) (tar : N) (nsk nsig : fname)
  : res (list file * seckey E) :=
  let! sk := unwrap (run_mut (update m pp tar RNGSEED) sk) in
  let! sig := unwrap (fst (sign_present m tar pp MSG sk)) in
  let! _ := assert_true (verify m sig pk pp MSG) in
  let! a := to_vec (sk_serialize sk true) in
  let! b := to_vec (sig_serialize sig true) in
  Ok ([(nsk, a); (nsig, b)], sk).

(** test_vector/src/main.rs 54-68. *)
Fixpoint rs_seq {E} (m : mode) (pp : pubparam E) (pk : pubkey E) (sk : seckey E) (l : list N) : res (list file) :=
  match l with
  | [] => Ok []
  | i :: l' =>
    let! (fs, sk) := rs_step m pp pk sk i (SkBin i) (SigBin i) in
    let! r := rs_seq m pp pk sk l' in
    Ok (fs ++ r)
  end.

(** test_vector/src/main.rs 74-92. *)
Fixpoint rs_ff {E} (m : mode) (pp : pubparam E) (pk : pubkey E) (sk : seckey E) (l : list N) : res (list file) :=
  match l with
  | [] => Ok []
  | i :: l' =>
    let cur := sec_time sk in
    let! tar := add64 m cur i in
    let! (fs, sk) := rs_step m pp pk sk tar (SkFf cur tar) (SigFf cur tar) in
    let! r := rs_ff m pp pk sk l' in
    Ok (fs ++ r)
  end.

(** test_vector/src/main.rs 8-96: main. *)
Definition rs_main {E} (m : mode) (pp : pubparam E) : res (list file) :=
  let! (pk, sk, pop) := unwrap (key_gen SEED pp) in
  let! a := to_vec (pk_serialize pk true) in
  let! b := to_vec (pop_serialize pop true) in
  let! c := to_vec (sk_serialize sk true) in
  let! sig := unwrap (fst (sign_present m 1 pp MSG sk)) in
  let! _ := assert_true (verify m sig pk pp MSG) in
  let! d := to_vec (sig_serialize sig true) in
  let! f1 := rs_seq m pp pk sk (range 2 64) in
  let! f2 := rs_ff m pp pk sk (range 2 64) in
  Ok ([(PkBin, a); (PopBin, b); (SkBin 1, c); (SigBin 1, d)] ++ f1 ++ f2).

(** [assert filecmp.cmp(fname, fname2)]; [dir] is the other directory. *)
Definition cmp_file (dir : list file) (n : fname) (b : bytes) : option unit :=
  let? c := read_file dir n in
  if bytes_eqb b c then Some tt else None.

(** pixel-python/test_vector.py 78-115 and 125-162: the loop bodies. *)
Definition py_step {E} (pp : pubparam E) (dir : list file) (sk : pysk E) (tar : N) (nsk nsig : fname)
  : option (list file * pysk E) :=
  let? sk2 := py_update pp sk tar RNGSEED in
  let? sig := py_sign_present pp sk2 tar MSG in
  let? a := py_serialize_sk sk2 in
  let? _ := cmp_file dir nsk a in
  let? b := py_serialize_sig sig in
  let? _ := cmp_file dir nsig b in
  Some ([(nsk, a); (nsig, b)], sk2).

(** pixel-python/test_vector.py 74-115. *)
Fixpoint py_seq {E} (pp : pubparam E) (dir : list file) (sk : pysk E) (l : list N) : option (list file) :=
  match l with
  | [] => Some []
  | i :: l' =>
    let? (fs, sk) := py_step pp dir sk i (SkBin i) (SigBin i) in
    let? r := py_seq pp dir sk l' in
    Some (fs ++ r)
  end.

(** pixel-python/test_vector.py 118-162. *)
Fixpoint py_ff {E} (pp : pubparam E) (dir : list file) (sk : pysk E) (l : list N) : option (list file) :=
  match l with
  | [] => Some []
  | i :: l' =>
    let? s := py_nth (snd sk) 0 in
    let cur := sk_t s in
    let tar := cur + i in
    let? (fs, sk) := py_step pp dir sk tar (SkFf cur tar) (SigFf cur tar) in
    let? r := py_ff pp dir sk l' in
    Some (fs ++ r)
  end.

(** pixel-python/test_vector.py 26-162: test_vector; [dir] is ../test_vector/test_vector. *)
Definition py_main {E} (pp : pubparam E) (dir : list file) : option (list file) :=
  let? (pk, sk) := py_key_gen pp SEED in
  let? sig := py_sign_present pp sk 1 MSG in
  let a := py_serialize_pk pk in
  let? _ := cmp_file dir PkBin a in
  let? b := py_serialize_sk sk in
  let? _ := cmp_file dir (SkBin 1) b in
  let? c := py_serialize_sig sig in
  let? _ := cmp_file dir (SigBin 1) c in
  let? f1 := py_seq pp dir sk (range 2 64) in
  let? f2 := py_ff pp dir sk (range 2 64) in
  Some ([(PkBin, a); (SkBin 1, b); (SigBin 1, c)] ++ f1 ++ f2).

(** c_wrapper/test.c 63-82: the keys and signatures to be aggregated. *)
Fixpoint c_signers {E} (m : mode) (pp : pubparam E) (l : list nat) : res (list (bytes * bytes)) :=
  match l with
  | [] => Ok []
  | i :: l' =>
    let! (pk, sk, _) := c_keygen pp (firstn (32 + i) SEED) in
    let! sig := c_sign_present m pp sk MSG 1 in
    let! _ := assert_true (c_verify m pp pk MSG sig) in
    let! r := c_signers m pp l' in
    Ok ((sig, pk) :: r)
  end.

(** c_wrapper/test.c 13-91: test. *)
Definition c_test {E} (m : mode) (pp : pubparam E) : res unit :=
  let! (pk, sk, pop) := c_keygen pp SEED in
  let! _ := assert_true (@c_verify_pop E pk pop) in
  let! sig := c_sign_present m pp sk MSG 1 in
  let! _ := assert_true (c_verify m pp pk MSG sig) in
  let! sk2 := c_sk_update m pp sk RNGSEED 2 in
  let! sig := c_sign_present m pp sk2 MSG 2 in
  let! _ := assert_true (c_verify m pp pk MSG sig) in
  let! l := c_signers m pp (seq 0 5) in
  let! agg := @c_aggregation E (map fst l) in
  assert_true (c_verify_agg m pp (map snd l) MSG agg).

(** c_wrapper/test.c 131-147. *)
Fixpoint c_seq {E} (m : mode) (pp : pubparam E) (sk : bytes) (l : list N) : res (list file) :=
  match l with
  | [] => Ok []
  | i :: l' =>
    let! sk := c_sk_update m pp sk RNGSEED i in
    let! sig := c_sign_present m pp sk MSG i in
    let! r := c_seq m pp sk l' in
    Ok ([(SigBin i, sig); (SkBin i, sk)] ++ r)
  end.

(** c_wrapper/test.c 94-150: test_vector. *)
Definition c_test_vector {E} (m : mode) (pp : pubparam E) : res (list file) :=
  let! (pk, sk, pop) := c_keygen pp SEED in
  let! sig := c_sign_present m pp sk MSG 1 in
  let! _ := assert_true (@c_verify_pop E pk pop) in
  let! r := c_seq m pp sk (range 2 64) in
  Ok ([(SigBin 1, sig); (SkBin 1, sk)] ++ r).

(** test_buf/test_vector.py 3-12: test_vector; [rs] is test_vector/test_vector, [c] is
    test_buf. *)
Definition cmp_files (rs c : list file) (n : fname) : option unit :=
  let? a := read_file rs n in
  cmp_file c n a.
Fixpoint compare_loop (rs c : list file) (l : list N) : option unit :=
  match l with
  | [] => Some tt
  | i :: l' =>
    let? _ := cmp_files rs c (SigBin i) in
    let? _ := cmp_files rs c (SkBin i) in
    compare_loop rs c l'
  end.
Definition compare_main (rs c : list file) : option unit := compare_loop rs c (range 1 64).
