(** Specification of the byte formats (comments of src/serdes.rs and spec.md), and of
    readers and writers. *)
From Verif Require Import Base Env SubKey SecretKey Keys Sig IO Serdes Api.
Local Open Scope N_scope.

(** Big-endian 32-bit integer. *)
Definition be4 (t : N) : bytes := [t / 2^24 mod 256; t / 2^16 mod 256; t / 2^8 mod 256; t mod 256].

(** Formats. *)
Definition pop_blob {E} (c : bool) (x : proof E) : bytes := pop_cs x :: g1_enc c (pop_pop x).
Definition pk_blob {E} (c : bool) (x : pubkey E) : bytes := pk_cs x :: g2_enc c (pk_pk x).
Definition sig_blob {E} (c : bool) (x : signature E) : bytes :=
  sig_cs x :: be4 (sig_time x) ++ g2_enc c (sig_1 x) ++ g1_enc c (sig_2 x).
Definition ssk_blob {E} (c : bool) (x : subkey E) : bytes :=
  be4 (sk_t x) ++ [N.of_nat (length (sk_hvec x)) mod 256] ++ g2_enc c (sk_g2r x)
  ++ g1_enc c (sk_hpoly x) ++ concat (map (g1_enc c) (sk_hvec x)).
Definition sk_blob {E} (c : bool) (x : seckey E) : bytes :=
  [sec_cs x; N.of_nat (length (sec_ssk x)) mod 256] ++ sec_prng x ++ concat (map (ssk_blob c) (sec_ssk x)).

(** Objects that the formats can represent. *)
Definition supported (cs : N) : Prop := cs = 0 \/ cs = 1.
Record wf_pop {E} (x : proof E) : Prop := WfPop {
  wpop_cs : supported (pop_cs x); wpop_in : g1_insub (pop_pop x) = true }.
Record wf_pk {E} (x : pubkey E) : Prop := WfPk {
  wpk_cs : supported (pk_cs x); wpk_in : g2_insub (pk_pk x) = true }.
Record wf_sig {E} (x : signature E) : Prop := WfSig {
  wsig_cs : supported (sig_cs x); wsig_time : 1 <= sig_time x < 2^32;
  wsig_1 : g2_insub (sig_1 x) = true; wsig_2 : g1_insub (sig_2 x) = true }.
Record wf_ssk {E} (x : subkey E) : Prop := WfSsk {
  wssk_time : 1 <= sk_t x < 2^32; wssk_len : (length (sk_hvec x) < 256)%nat;
  wssk_1 : g2_insub (sk_g2r x) = true; wssk_2 : g1_insub (sk_hpoly x) = true;
  wssk_hv : Forall (fun h => g1_insub h = true) (sk_hvec x) }.
Record wf_sk {E} (x : seckey E) : Prop := WfSk {
  wsk_cs : supported (sec_cs x); wsk_num : (1 <= length (sec_ssk x) < 256)%nat;
  wsk_prng : length (sec_prng x) = 64%nat;
  wsk_time : map sk_t (firstn 1 (sec_ssk x)) = [sec_time x];
  wsk_ssk : Forall wf_ssk (sec_ssk x) }.

(** The bytes a reader still delivers before end of file or a failure. *)
Fixpoint content (r : reader) : bytes :=
  match r with
  | [] => []
  | RIntr :: r' => content r'
  | RFail :: _ => []
  | RData [] :: _ => []
  | RData b :: r' => b ++ content r'
  end.

(** A reader that never fails; it may be interrupted.  (No call returns 0 bytes before
    the end.) *)
Definition patient (r : reader) : Prop := Forall (fun e => e <> RFail /\ e <> RData []) r.
(** One that is never interrupted either. *)
Definition calm (r : reader) : Prop := Forall (fun e => exists b, b <> [] /\ e = RData b) r.

(** Number of bytes of a secret key whose sub key vectors have the lengths [lens], from
    the declared sizes of points. *)
Definition sk_bytes (c : bool) (lens : list nat) : nat :=
  66 + fold_right (fun n acc => 5 + g2_size c + g1_size c + n * g1_size c + acc)%nat 0%nat lens.

(** What a serializer does with a writer that already holds some bytes: it appends the
    blob, or (after a failed write) a prefix of it; or it refuses and leaves the writer alone. *)
Definition appends (f : st writer unit) (blob : bytes) : Prop :=
  forall w, (exists s, f w = (Ok tt, Writer (w_out w ++ blob) s))
         \/ (exists k s, f w = (Err E_IO, Writer (w_out w ++ firstn k blob) s)).
Definition refuses (f : st writer unit) : Prop :=
  forall w, exists e, f w = (Err e, w) /\ e <> E_IO.
(** A writer that takes at least one byte per call and never fails; it may be
    interrupted. *)
Definition willing (w : writer) : Prop := Forall (fun e => e <> WFail /\ e <> WAccept 0) (w_script w).

(** The calls of a history other than saving and reloading the key. *)
Definition keeps (o : op) : bool := match o with OpReload _ => false | _ => true end.
