(** SecretKey::deserialize and SubSecretKey::deserialize once more (src/serdes.rs 250-284 and 334-365),
    now with the memory blocks of the two Vecs they push to: [hv] (358-362), one for each sub
    key, and [ssk_vec] (268-275).

    A Vec has a block with a slot for each element and some spare slots; vec![] has none.  push writes
    into the first spare slot; if there is none the block is first enlarged ([grow] of
    VecMem.v), and the allocator may do this by giving out another block and freeing the old
    one as it is ([moved]).  Points are without destructor, so that an early return by [?] frees the block of
    [hv] as it is; sub keys are overwritten when they are dropped, together with the h-vectors
    they hold (src/subkeys.rs 19-20).
    Not modelled: the stack, what the reader keeps, what the allocator writes into freed blocks. *)
From Verif Require Import Base Env Prng SubKey SecretKey IO Serdes VecMem.
Local Open Scope N_scope.

(** The contents of a freed block: points of an h-vector, or sub keys without their h-vectors. *)
Inductive old_block (E : env) := OldPoints (l : list (G1 E)) | OldKeys (l : list (head E)).
Arguments OldPoints {E}. Arguments OldKeys {E}.

(** Vec::push onto a full block of capacity [cap]: the new capacity, and what is freed; a Vec
    of capacity 0 has no block. *)
Definition next_cap (P : policy) (cap : nat) : nat := Nat.max (grow P cap) (S cap).
Definition left_behind {A} (P : policy) (cap : nat) (old : A) (fr : list A) : list A :=
  if (negb (cap =? 0)%nat && moved P cap)%bool then old :: fr else fr.
(** Vec::push, on a Vec with the elements [l] and capacity [cap]; [f] shows a block. *)
Definition vec_push {A B} (P : policy) (f : list A -> B) (x : A) (v : list A * nat) : st (list B) (list A * nat) := fun fr =>
  let (l, cap) := v in
  if (length l <? cap)%nat then (Ok (l ++ [x], cap), fr)
  else (Ok (l ++ [x], next_cap P cap), left_behind P cap (f l) fr).

(** Lifting of a reader, and of a step of the memory. *)
Definition rd {S A} (f : st reader A) : st (reader * S) A := fun s =>
  match f (fst s) with (r, r') => (r, (r', snd s)) end.
Definition mem {S A} (f : st S A) : st (reader * S) A := fun s =>
  match f (snd s) with (r, m') => (r, (fst s, m')) end.

(** src/serdes.rs 358-362: the loop that reads hvector; an error frees the block. *)
Fixpoint hv_read_m {E : env} (P : policy) (c : bool) (n : nat) (v : list (G1 E) * nat)
  : st (reader * list (old_block E)) (list (G1 E)) :=
  match n with
  | O => sret (fst v)
  | S n' => fun s =>
    match rd (g1_read c) s with
    | (Ok x, s') => (do! v' <- mem (vec_push P OldPoints x v); hv_read_m P c n' v') s'
    | (Err e, s') => (Err e, (fst s', OldPoints (fst v) :: snd s'))
    | (Panic p, s') => (Panic p, (fst s', OldPoints (fst v) :: snd s'))
    end
  end.

(** src/serdes.rs 334-365: SubSecretKey::deserialize. *)
Definition ssk_deserialize_m {E : env} (P : policy) (c : bool) : st (reader * list (old_block E)) (subkey E) :=
  do! tb <- rd (read_exact 4);
  let time := from_be4 tb in
  if time =? 0 then slift (Err E_TIME_STAMP)
  else
    do! hvlen <- rd (fun r => match read1 r with
                              | (Ok (Some b), r') => (Ok b, r')
                              | (Ok None, r') => (Ok 0, r')
                              | (_, r') => (Err E_DESERIAL, r')
                              end);
    do! g2r <- rd (g2_read c);
    do! hpoly <- rd (g1_read c);
    do! hv <- hv_read_m P c (N.to_nat hvlen) ([], 0%nat);
    sret (SubKey time g2r hpoly hv).

(** src/serdes.rs 271-275: the remaining sub keys; an error overwrites those read before. *)
Fixpoint ssks_read_m {E : env} (P Q : policy) (c : bool) (n : nat) (v : list (subkey E) * nat)
  : st (reader * list (old_block E)) (list (subkey E)) :=
  match n with
  | O => sret (fst v)
  | S n' =>
    do! x <- ssk_deserialize_m P c;
    do! v' <- mem (vec_push Q (fun l => OldKeys (map head_of l)) x v);
    ssks_read_m P Q c n' v'
  end.

(** src/serdes.rs 250-284: SecretKey::deserialize; [P] is for the h-vectors, [Q] for the Vec of sub keys. *)
Definition sk_deserialize_m {E : env} (P Q : policy) (c : bool) : st (reader * list (old_block E)) (seckey E) :=
  do! constants <- rd (read_exact 2);
  do! rngseed <- rd (read_exact 64);
  let cs := nth 0 constants 0 in
  let num := nth 1 constants 0 in
  if negb (valid_cs cs) then slift (Err E_CIPHERSUITE)
  else if num =? 0 then slift (Err E_DESERIAL)
  else
    do! ssk <- ssk_deserialize_m P c;
    do! v <- mem (vec_push Q (fun l => OldKeys (map head_of l)) ssk ([], 0%nat));
    do! l <- ssks_read_m P Q c (N.to_nat num - 1) v;
    sret (SecKey cs (sk_t ssk) l rngseed).
