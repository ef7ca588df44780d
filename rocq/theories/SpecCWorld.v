(** Vocabulary for Properties_CWorld.v: a program over the C interface against one over the Rust interface. *)
From Verif Require Import Base Env SubKey SecretKey Keys Sig Api SpecSer World CWorld SpecWorld.
Local Open Scope N_scope.

(** The Rust call behind each C call. *)
Definition rust_call (c : ccmd) : cmd :=
  match c with
  | CKeyGen seed => KeyGen seed
  | CUpdate i t seed => Call i (OpUpdate t seed)
  | CSign i t msg => Call i (OpSignPresent t msg)
  | CAggregate js => Aggregate js
  | CVerify j i msg => Verify j i msg
  | CVerifyAgg j ks msg => VerifyAggregated j ks msg
  | CVerifyPop i k => VerifyPop i k
  end.

(** C functions have no errors: they panic. *)
Definition no_errors {A} (r : res A) : res A := match r with Err _ => Panic P_FFI | _ => r end.

(** The objects of a program in their byte formats, compressed. *)
Definition party_bytes {E} (p : pubkey E * seckey E * proof E) : bytes * bytes * bytes :=
  (pk_blob true (fst (fst p)), sk_blob true (snd (fst p)), pop_blob true (snd p)).
Definition world_bytes {E} (w : world E) : cworld := CWorld (map party_bytes (w_party w)) (map (sig_blob true) (w_sigs w)).

Definition cstart : cworld := CWorld [] [].
Definition cresults {E} (m : mode) (pp : pubparam E) (p : list ccmd) : list (res (option bool)) := fst (cexecs m pp p cstart).
Definition cafter {E} (m : mode) (pp : pubparam E) (p : list ccmd) : cworld := snd (cexecs m pp p cstart).
(** The bookkeeper of SpecWorld.v, watching the C program and its results. *)
Definition cbooks {E} (m : mode) (pp : pubparam E) (p : list ccmd) : book :=
  b_run (pp_depth pp) (map rust_call p) (cresults m pp p) (Book [] []).
