(** Programs over the C interface (src/ffi.rs): everything the caller holds is bytes. *)
From Verif Require Import Base Env SubKey SecretKey Keys Sig Api Ffi World.
Local Open Scope N_scope.

(** Public key, secret key and proof of possession of each signer; signatures in the order they were made. *)
Record cworld := CWorld { cw_party : list (bytes * bytes * bytes); cw_sigs : list bytes }.

Inductive ccmd :=
| CKeyGen (seed : bytes)
| CUpdate (i : nat) (t : N) (seed : bytes)
| CSign (i : nat) (t : N) (msg : bytes)
| CAggregate (js : list nat)
| CVerify (j i : nat) (msg : bytes)
| CVerifyAgg (j : nat) (ks : list nat) (msg : bytes)
| CVerifyPop (i k : nat).

(** src/ffi.rs 86-142 c_keygen; 227-275 c_sk_update, the caller puts the new buffer in the place of the old one;
    149-183 c_sign_present; 281-319 c_aggregation; 188-220 c_verify; 323-360 c_verify_agg; 364-388 c_verify_pop.
    After a panic the caller still has what it had (if it gets to run at all: unwinding out of an extern "C" function is
    not defined by Rust). *)
Definition cexec {E} (m : mode) (pp : pubparam E) (c : ccmd) (w : cworld) : res (option bool) * cworld :=
  match c with
  | CKeyGen seed =>
    match c_keygen pp seed with
    | Ok p => (Ok None, CWorld (cw_party w ++ [p]) (cw_sigs w))
    | Err e => (Err e, w)
    | Panic p => (Panic p, w)
    end
  | CUpdate i t seed =>
    match nth_error (cw_party w) i with
    | None => (Ok None, w)
    | Some (pk, sk, pop) =>
      match c_sk_update m pp sk seed t with
      | Ok sk' => (Ok None, CWorld (set_nth i (pk, sk', pop) (cw_party w)) (cw_sigs w))
      | Err e => (Err e, w)
      | Panic p => (Panic p, w)
      end
    end
  | CSign i t msg =>
    match nth_error (cw_party w) i with
    | None => (Ok None, w)
    | Some (pk, sk, pop) =>
      match c_sign_present m pp sk msg t with
      | Ok s => (Ok None, CWorld (cw_party w) (cw_sigs w ++ [s]))
      | Err e => (Err e, w)
      | Panic p => (Panic p, w)
      end
    end
  | CAggregate js =>
    match pick (cw_sigs w) js with
    | None => (Ok None, w)
    | Some l =>
      match @c_aggregation E l with
      | Ok s => (Ok None, CWorld (cw_party w) (cw_sigs w ++ [s]))
      | Err e => (Err e, w)
      | Panic p => (Panic p, w)
      end
    end
  | CVerify j i msg =>
    match nth_error (cw_sigs w) j, nth_error (cw_party w) i with
    | Some s, Some p => (answer (c_verify m pp (fst (fst p)) msg s), w)
    | _, _ => (Ok None, w)
    end
  | CVerifyAgg j ks msg =>
    match nth_error (cw_sigs w) j, pick (cw_party w) ks with
    | Some s, Some l => (answer (c_verify_agg m pp (map (fun p => fst (fst p)) l) msg s), w)
    | _, _ => (Ok None, w)
    end
  | CVerifyPop i k =>
    match nth_error (cw_party w) i, nth_error (cw_party w) k with
    | Some p, Some q => (answer (@c_verify_pop E (fst (fst p)) (snd q)), w)
    | _, _ => (Ok None, w)
    end
  end.

Fixpoint cexecs {E} (m : mode) (pp : pubparam E) (p : list ccmd) (w : cworld) : list (res (option bool)) * cworld :=
  match p with
  | [] => ([], w)
  | c :: p' =>
    let (r, w1) := cexec m pp c w in
    let (rs, w2) := cexecs m pp p' w1 in
    (r :: rs, w2)
  end.
