(** Specification vocabulary for Properties_Coll.v: the states of a key's prng as a chain
    of steps, the hash queries such a chain makes, and what a break of the hash function
    is. *)
From Coq Require Import String.
From Verif Require Import Base Env SpecPrng SubKey SecretKey Keys Sig Api.
Local Open Scope N_scope.

(** What moves the prng: a drawn scalar, or the reseeding at the start of an update of a
    key for time [t]. *)
Inductive pstep := Draw (p : purpose) | Reseed (t : N) (seed : bytes).
(** The steps the code makes. *)
Definition step_used (s : pstep) : Prop :=
  match s with
  | Draw p => p = KeyInit \/ p = SkInit \/ p = Update
  | Reseed t _ => t < 2 ^ 32
  end.

Definition master_salt (cs : N) : bytes := str "Pixel master key" ++ [cs].
Definition start (H : bytes -> bytes) (cs : N) (seed : bytes) : bytes := rfc_hmac H (master_salt cs) seed.
Definition after (H : bytes -> bytes) (g : bytes) (s : pstep) : bytes :=
  match s with
  | Draw p => spec_next H g (info_of p)
  | Reseed t seed => spec_rerandomize H g seed (info_of (Rerandomize t))
  end.
(** The state after the steps [l], from the seed given to key generation. *)
Definition chain (H : bytes -> bytes) (cs : N) (seed : bytes) (l : list pstep) : bytes :=
  fold_left (after H) l (start H cs seed).
(** The 64 bytes from which a scalar is drawn for a purpose. *)
Definition drawn (H : bytes -> bytes) (g : bytes) (p : purpose) : bytes := hkdf_T1 H g (info_of p).

(** The two hash inputs of HMAC for a key of at most 128 bytes. *)
Definition hmac_queries (H : bytes -> bytes) (key text : bytes) : list bytes :=
  let xor_pad p := map (fun i => N.lxor (nth i key 0) p) (seq 0 128) in
  [xor_pad 0x36 ++ text; xor_pad 0x5c ++ H (xor_pad 0x36 ++ text)].
Definition draw_queries (H : bytes -> bytes) (g : bytes) (p : purpose) : list bytes :=
  hmac_queries H g (info_of p ++ [1]).
Definition next_queries (H : bytes -> bytes) (g info : bytes) : list bytes :=
  hmac_queries H g (info ++ [1]) ++ hmac_queries H g (hkdf_T1 H g info ++ info ++ [2]).
Definition step_queries (H : bytes -> bytes) (g : bytes) (s : pstep) : list bytes :=
  match s with
  | Draw p => next_queries H g (info_of p)
  | Reseed t seed =>
    let i := info_of (Rerandomize t) in
    next_queries H g i ++ hmac_queries H (hkdf_T2 H g i) (hkdf_T1 H g i ++ seed)
  end.
Fixpoint steps_queries (H : bytes -> bytes) (g : bytes) (l : list pstep) : list bytes :=
  match l with
  | [] => []
  | s :: l' => step_queries H g s ++ steps_queries H (after H g s) l'
  end.
(** All hash inputs of a chain. *)
Definition chain_queries (H : bytes -> bytes) (cs : N) (seed : bytes) (l : list pstep) : list bytes :=
  hmac_queries H (master_salt cs) seed ++ steps_queries H (start H cs seed) l.

(** A break of the hash function among the inputs [qs]: two of them collide, or one is
    mapped to the salt of key generation followed by zeros. *)
Definition broken (H : bytes -> bytes) (qs : list bytes) : Prop :=
  (exists a b, In a qs /\ In b qs /\ a <> b /\ H a = H b)
  \/ (exists a cs, In a qs /\ H a = master_salt cs ++ repeat 0 47).

(** The seeds that were used, with the times of the key before. *)
Definition reseeds (l : list pstep) : list (N * bytes) :=
  flat_map (fun s => match s with Reseed t seed => [(t, seed)] | Draw _ => [] end) l.
Definition op_seed (o : op) : bytes :=
  match o with
  | OpUpdate _ seed | OpSign _ _ seed | OpSignThenUpdate _ _ seed => seed
  | _ => []
  end.
(** The operations of a history that moved the key to a later time: time before, seed. *)
Fixpoint advances {E} (m : mode) (pp : pubparam E) (ops : list op) (sk : seckey E) : list (N * bytes) :=
  match ops with
  | [] => []
  | o :: ops' =>
    let sk1 := snd (step m pp o sk) in
    (if sec_time sk1 =? sec_time sk then [] else [(sec_time sk, op_seed o)]) ++ advances m pp ops' sk1
  end.

(** The time stamps of the sub keys of [sk1] that [sk] does not have. *)
Definition new_stamps {E} (sk sk1 : seckey E) : list N :=
  filter (fun t => negb (existsb (N.eqb t) (map sk_t (sec_ssk sk)))) (map sk_t (sec_ssk sk1)).
(** The steps of a history: for every advance one reseeding, and one draw for every new
    sub key but the first. *)
Fixpoint history_steps {E} (m : mode) (pp : pubparam E) (ops : list op) (sk : seckey E) : list pstep :=
  match ops with
  | [] => []
  | o :: ops' =>
    let sk1 := snd (step m pp o sk) in
    (if sec_time sk1 =? sec_time sk then []
     else Reseed (sec_time sk) (op_seed o) :: repeat (Draw Update) (length (new_stamps sk sk1) - 1))
    ++ history_steps m pp ops' sk1
  end.
(** All steps from key generation on. *)
Definition key_steps {E} (m : mode) (pp : pubparam E) (ops : list op) (sk : seckey E) : list pstep :=
  Draw KeyInit :: Draw SkInit :: history_steps m pp ops sk.

(** A break of the hash function in key generation from [kseed], the history [l] and the
    draws of one more update with [seed]. *)
Definition breaks_at {E} (m : mode) (pp : pubparam E) (kseed : bytes) (l : list op) (seed : bytes) : Prop :=
  exists pk sk0 pop, key_gen kseed pp = Ok (pk, sk0, pop)
  /\ let sk := snd (run m pp l sk0) in
     broken (sha512 E) (chain_queries (sha512 E) (pp_cs pp) kseed
       (key_steps m pp l sk0 ++ Reseed (sec_time sk) seed :: repeat (Draw Update) (pp_depth pp - 1))).
(** A break in one of the histories [hs], given with the seeds of key generation. *)
Definition breaks {E} (m : mode) (pp : pubparam E) (hs : list (bytes * list op)) : Prop :=
  exists kseed l o l', In (kseed, l ++ o :: l') hs /\ breaks_at m pp kseed l (op_seed o).
(** Updates, given by target times and seeds. *)
Definition updates (l : list (N * bytes)) : list op := map (fun p => OpUpdate (fst p) (snd p)) l.
