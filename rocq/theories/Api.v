(** The API of src/lib.rs as operations on one secret key, and histories of calls. *)
From Verif Require Import Base Env Time Hkdf Prng SubKey SecretKey Keys Sig IO Serdes.
Local Open Scope N_scope.

(** Calls of the trait PixelSignature (src/lib.rs 121-176) that take the secret key,
    and saving and reloading the key (src/serdes.rs 211, 250). *)
Inductive op :=
| OpUpdate (t : N) (seed : bytes)
| OpSign (t : N) (msg seed : bytes)
| OpSignPresent (t : N) (msg : bytes)
| OpSignThenUpdate (t : N) (msg seed : bytes)
| OpReload (compressed : bool).

(** Serialize into a Vec, drop the key, deserialize; on failure the old key is
    still there. *)
Definition reload {E} (c : bool) : st (seckey E) unit := fun sk =>
  match to_vec (sk_serialize sk c) with
  | Ok b =>
    match from_slice (sk_deserialize c) b with
    | Ok sk' => (Ok tt, sk')
    | Err e => (Err e, sk)
    | Panic p => (Panic p, sk)
    end
  | Err e => (Err e, sk)
  | Panic p => (Panic p, sk)
  end.

(** What a call returns: nothing, or a signature. *)
Definition step {E} (m : mode) (pp : pubparam E) (o : op) : st (seckey E) (option (signature E)) :=
  match o with
  | OpUpdate t seed => do! _ <- update m pp t seed; sret None
  | OpSign t msg seed => do! s <- sign m t pp msg seed; sret (Some s)
  | OpSignPresent t msg => do! s <- sign_present m t pp msg; sret (Some s)
  | OpSignThenUpdate t msg seed => do! s <- sign_then_update m t pp msg seed; sret (Some s)
  | OpReload c => do! _ <- reload c; sret None
  end.

(** A history: the caller goes on after errors (a caught panic leaves the key as the
    call left it).  Returns the results and the final key. *)
Fixpoint run {E} (m : mode) (pp : pubparam E) (ops : list op) (sk : seckey E)
  : list (res (option (signature E))) * seckey E :=
  match ops with
  | [] => ([], sk)
  | o :: ops' =>
    let (r, sk1) := step m pp o sk in
    let (rs, sk2) := run m pp ops' sk1 in
    (r :: rs, sk2)
  end.

(** Keys that exist: generated from a seed and then used in any way. *)
Definition reachable {E} (m : mode) (pp : pubparam E) (pk : pubkey E) (sk : seckey E) : Prop :=
  exists seed sk0 pop ops,
    key_gen seed pp = Ok (pk, sk0, pop) /\ snd (run m pp ops sk0) = sk.
