(** Reading the texts of Debug.v back. *)
From Verif Require Import Base Env.
Local Open Scope N_scope.

Definition undec (s : bytes) : N := fold_left (fun a c => a * 10 + (c - 48)) s 0.
Definition unhex (c : N) : N := if c <? 58 then c - 48 else c - 87.
(** The characters before the first end of line, and those after it. *)
Fixpoint until_nl (s : bytes) : bytes * bytes :=
  match s with
  | [] => ([], [])
  | c :: s' => if c =? 10 then ([], s') else let (a, b) := until_nl s' in (c :: a, b)
  end.
(** Bytes written as "0xhh, ", over several lines, up to the first other character. *)
Fixpoint read_prng (s : bytes) : bytes :=
  match s with
  | 10 :: s' => read_prng s'
  | 48 :: 120 :: a :: b :: 44 :: 32 :: s' => (unhex a * 16 + unhex b) :: read_prng s'
  | _ => []
  end.
(** Bytes written as "hh, ". *)
Fixpoint read_blob (s : bytes) : bytes :=
  match s with
  | a :: b :: 44 :: 32 :: s' => (unhex a * 16 + unhex b) :: read_blob s'
  | _ => []
  end.
(** The time stamp and the prng state in the text of a secret key: the time stamp starts at
    character 38, the state 7 characters behind it. *)
Definition leak (text : bytes) : N * bytes :=
  let (t, s) := until_nl (skipn 38 text) in (undec t, read_prng (skipn 7 s)).
