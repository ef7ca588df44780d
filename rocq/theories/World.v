(** Programs over the whole interface: several signers, the signatures they have made, and every call of
    src/lib.rs 88-214 (but the generation of parameters) and src/serdes.rs on them, under one set of parameters. *)
From Verif Require Import Base Env Time SubKey SecretKey Keys Sig IO Serdes Api.
Local Open Scope N_scope.

(** The objects a program holds: what key_gen returned, each secret key in its present state, and the
    signatures, in the order they were made. *)
Record world (E : env) := World {
  w_party : list (pubkey E * seckey E * proof E);
  w_sigs : list (signature E) }.
Arguments World {E}.
Arguments w_party {E}.
Arguments w_sigs {E}.

(** One call; objects are named by their position.  A name that does not exist is no call at all (in Rust
    such a program cannot be written down). *)
Inductive cmd :=
| KeyGen (seed : bytes)
| Call (i : nat) (o : op)
| Aggregate (js : list nat)
| Verify (j i : nat) (msg : bytes)
| VerifyAggregated (j : nat) (ks : list nat) (msg : bytes)
| VerifyPop (i k : nat)
| Validate (i k : nat)
| ReloadSig (j : nat)
| ReloadPk (i : nat) (compressed : bool).

Fixpoint set_nth {A} (i : nat) (a : A) (l : list A) : list A :=
  match i, l with
  | _, [] => []
  | O, _ :: l' => a :: l'
  | S i', b :: l' => b :: set_nth i' a l'
  end.

(** The objects with the given names, if all exist. *)
Fixpoint pick {A} (l : list A) (js : list nat) : option (list A) :=
  match js with
  | [] => Some []
  | j :: js' =>
    match nth_error l j, pick l js' with
    | Some a, Some r => Some (a :: r)
    | _, _ => None
    end
  end.

Definition with_sig {E} (w : world E) (s : signature E) : world E := World (w_party w) (w_sigs w ++ [s]).
Definition with_party {E} (w : world E) (i : nat) (p : pubkey E * seckey E * proof E) : world E :=
  World (set_nth i p (w_party w)) (w_sigs w).

(** What a call returns besides new objects: nothing, or a bool. *)
Definition answer (r : res bool) : res (option bool) := let! b := r in Ok (Some b).

(** src/lib.rs 110-117 key_gen; 121-176 the calls on a secret key; 180-187 verify; 192-194 aggregate_without_validate;
    201-208 verify_aggregated; 211-213 verify_pop; src/secret_key.rs 484-549 validate; writing an object to a
    Vec and reading it back (src/serdes.rs 65-195): on failure the old object is still there. *)
Definition exec {E} (m : mode) (pp : pubparam E) (c : cmd) : st (world E) (option bool) := fun w =>
  match c with
  | KeyGen seed =>
    match key_gen seed pp with
    | Ok p => (Ok None, World (w_party w ++ [p]) (w_sigs w))
    | Err e => (Err e, w)
    | Panic p => (Panic p, w)
    end
  | Call i o =>
    match nth_error (w_party w) i with
    | None => (Ok None, w)
    | Some (pk, sk, pop) =>
      let (r, sk') := step m pp o sk in
      let w' := with_party w i (pk, sk', pop) in
      match r with
      | Ok None => (Ok None, w')
      | Ok (Some s) => (Ok None, with_sig w' s)
      | Err e => (Err e, w')
      | Panic p => (Panic p, w')
      end
    end
  | Aggregate js =>
    match pick (w_sigs w) js with
    | None => (Ok None, w)
    | Some l =>
      match aggregate l with
      | Ok s => (Ok None, with_sig w s)
      | Err e => (Err e, w)
      | Panic p => (Panic p, w)
      end
    end
  | Verify j i msg =>
    match nth_error (w_sigs w) j, nth_error (w_party w) i with
    | Some s, Some p => (answer (verify m s (fst (fst p)) pp msg), w)
    | _, _ => (Ok None, w)
    end
  | VerifyAggregated j ks msg =>
    match nth_error (w_sigs w) j, pick (w_party w) ks with
    | Some s, Some l => (answer (verify_aggregated m s (map (fun p => fst (fst p)) l) pp msg), w)
    | _, _ => (Ok None, w)
    end
  | VerifyPop i k =>
    match nth_error (w_party w) i, nth_error (w_party w) k with
    | Some p, Some q => (Ok (Some (pk_validate (fst (fst p)) (snd q))), w)
    | _, _ => (Ok None, w)
    end
  | Validate i k =>
    match nth_error (w_party w) i, nth_error (w_party w) k with
    | Some p, Some q => (answer (sk_validate m (snd (fst p)) (fst (fst q)) pp), w)
    | _, _ => (Ok None, w)
    end
  | ReloadSig j =>
    match nth_error (w_sigs w) j with
    | None => (Ok None, w)
    | Some s =>
      match (let! b := to_vec (sig_serialize s true) in from_slice (sig_deserialize true) b) with
      | Ok s' => (Ok None, World (w_party w) (set_nth j s' (w_sigs w)))
      | Err e => (Err e, w)
      | Panic p => (Panic p, w)
      end
    end
  | ReloadPk i c =>
    match nth_error (w_party w) i with
    | None => (Ok None, w)
    | Some (pk, sk, pop) =>
      match (let! b := to_vec (pk_serialize pk c) in from_slice (pk_deserialize c) b) with
      | Ok pk' => (Ok None, with_party w i (pk', sk, pop))
      | Err e => (Err e, w)
      | Panic p => (Panic p, w)
      end
    end
  end.

(** A program: the caller goes on after errors and caught panics. *)
Fixpoint execs {E} (m : mode) (pp : pubparam E) (p : list cmd) (w : world E) : list (res (option bool)) * world E :=
  match p with
  | [] => ([], w)
  | c :: p' =>
    let (r, w1) := exec m pp c w in
    let (rs, w2) := execs m pp p' w1 in
    (r :: rs, w2)
  end.
