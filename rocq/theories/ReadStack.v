(** SecretKey::deserialize and SubSecretKey::deserialize once more (src/serdes.rs 250-284 and 334-365), now with the variables on the
    stack: the seed of the prng and the points.  ReadMem.v has the heap.  The conventions are those of Hygiene.v:
    what the frame of a function still holds when it returns is added to the list of left cells, also if a later
    call overwrites it.  The sub keys, the Vecs and the PRNG are moved.
    The variable [tmp] of the loop (359-362) is the same cell in each round.
    Not modelled: what a read that fails has written into the arrays, time stamps and lengths, which are not secret, and the stack of
    the deserialization of points (pixel_param). *)
From Coq Require Import String.
From Verif Require Import Base Env Prng SubKey SecretKey IO Serdes Hygiene VecMem ReadMem.
Local Open Scope N_scope.

(** A computation with a reader and a frame; a call of [fn] with the arguments [args]. *)
Definition rm (E : env) (A : Type) := st (reader * (frame E * list (cell E))) A.
Definition call_r {E A} (fn : string) (args : frame E) (body : rm E A) : rm E A := fun s =>
  let '(r, (x, (f, dead))) := body (fst s, (args, snd (snd s))) in
  (r, (x, (fst (snd s), dead ++ map (fun v => Cell fn (fst v) (snd v)) f))).

(** src/serdes.rs 358-362: the loop that reads hvector. *)
Fixpoint hv_read_h {E : env} (c : bool) (n : nat) : rm E (list (G1 E)) :=
  match n with
  | O => sret []
  | S n' =>
    do! x <- rd (g1_read c);
    do! _ <- mem (var "tmp" (VG1 x));
    do! x <- mem (get_g1 "tmp");
    do! l <- hv_read_h c n';
    sret (x :: l)
  end.

(** src/subkeys.rs 37-44: SubSecretKey::new. *)
Definition ssk_new_h {E} (t : N) (g2r : G2 E) (hpoly : G1 E) (hv : list (G1 E)) : rm E (subkey E) :=
  call_r "SubSecretKey::new" [("g2r"%string, VG2 g2r); ("hpoly"%string, VG1 hpoly)]
  (do! g2r <- mem (get_g2 "g2r");
   do! hpoly <- mem (get_g1 "hpoly");
   sret (SubKey t g2r hpoly hv)).

(** src/serdes.rs 334-365: SubSecretKey::deserialize. *)
Definition ssk_deserialize_h {E : env} (c : bool) : rm E (subkey E) :=
  call_r "SubSecretKey::deserialize" []
  (do! tb <- rd (read_exact 4);
   let time := from_be4 tb in
   if time =? 0 then slift (Err E_TIME_STAMP)
   else
     do! hvlen <- rd (fun r => match read1 r with
                               | (Ok (Some b), r') => (Ok b, r')
                               | (Ok None, r') => (Ok 0, r')
                               | (_, r') => (Err E_DESERIAL, r')
                               end);
     do! g2r <- rd (g2_read c);
     do! _ <- mem (var "g2r" (VG2 g2r));
     do! hpoly <- rd (g1_read c);
     do! _ <- mem (var "hpoly" (VG1 hpoly));
     do! hv <- hv_read_h c (N.to_nat hvlen);
     do! g2r <- mem (get_g2 "g2r");
     do! hpoly <- mem (get_g1 "hpoly");
     ssk_new_h time g2r hpoly hv).

(** src/serdes.rs 271-275: the remaining sub keys. *)
Fixpoint ssks_read_h {E : env} (c : bool) (n : nat) : rm E (list (subkey E)) :=
  match n with
  | O => sret []
  | S n' =>
    do! x <- ssk_deserialize_h c;
    do! l <- ssks_read_h c n';
    sret (x :: l)
  end.

(** src/prng.rs 65-67: PRNG::new. *)
Definition prng_new_h {E} (rngseed : bytes) : rm E prng :=
  call_r "PRNG::new" [("rngseed"%string, VBytes rngseed)] (mem (get_bytes "rngseed")).

(** src/serdes.rs 250-284: SecretKey::deserialize. *)
Definition sk_deserialize_h {E : env} (c : bool) : rm E (seckey E) :=
  call_r "SecretKey::deserialize" []
  (do! constants <- rd (read_exact 2);
   do! seed <- rd (read_exact 64);
   do! _ <- mem (var "rngseed" (VBytes seed));
   let cs := nth 0 constants 0 in
   let num := nth 1 constants 0 in
   if negb (valid_cs cs) then slift (Err E_CIPHERSUITE)
   else if num =? 0 then slift (Err E_DESERIAL)
   else
     do! ssk <- ssk_deserialize_h c;
     do! rest <- ssks_read_h c (N.to_nat num - 1);
     do! rngseed <- mem (get_bytes "rngseed");
     do! g <- prng_new_h rngseed;
     sret (SecKey cs (sk_t ssk) (ssk :: rest) g)).
