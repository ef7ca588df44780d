(** Property C100: what the Debug implementations print (Debug.v).
    Specification vocabulary: SpecDbg.v ([read_prng], [read_blob], [leak]: reading the texts
    back), SpecHyg.v ([combine_sigs], [recover]), SpecUpdate.v ([msg_scalar], [sign_info],
    [new_times]), SpecPrng.v.  [p1], [p2]: any way to print points. *)
From Coq Require Import String.
From Verif Require Import Base Env Time Hkdf SpecTime Prng SpecPrng SubKey SecretKey Keys Sig IO Serdes Api
  SpecKey SpecUpdate SpecHyg Debug SpecDbg DbgProps WitDbgProps Toy ToyRun WitSigProps.
Local Open Scope N_scope.

(** C100: the texts of the prng and of the C buffers determine their bytes. *)
Theorem C100_prng_text : forall g, length g = 64%nat -> are_bytes g -> read_prng (prng_debug g) = g.
Proof. exact prng_text_read. Qed.
Print Assumptions C100_prng_text.

Theorem C100_buffer_text : forall b, are_bytes b -> read_blob (blob_debug b) = b.
Proof. exact blob_text_read. Qed.
Print Assumptions C100_buffer_text.

Example C100_example_text :
  blob_debug [0; 171; 255] = str "00, ab, ff, " ++ [10] /\ read_blob (str "00, ab, ff, " ++ [10]) = [0; 171; 255]
  /\ length (sec_prng tsk7) = 64%nat /\ forallb (fun b => b <? 256) (sec_prng tsk7) = true
  /\ length (prng_debug (sec_prng tsk7)) = 392%nat
  /\ firstn 49 (prng_debug (repeat 58 64)) = str "0x3a, 0x3a, 0x3a, 0x3a, 0x3a, 0x3a, 0x3a, 0x3a, " ++ [10].
Proof. split; [reflexivity|]. split; [reflexivity|]. split; [reflexivity|]. split; [reflexivity|]. split; reflexivity. Qed.

(** The text of a secret key shows its time stamp and its prng state. *)
Theorem C100_secret_key_text : forall (E : env) (p1 : G1 E -> bytes) (p2 : G2 E -> bytes) (sk : seckey E),
  sec_time sk < 2 ^ 64 -> length (sec_prng sk) = 64%nat -> are_bytes (sec_prng sk) ->
  leak (sk_debug p1 p2 sk) = (sec_time sk, sec_prng sk).
Proof. exact leak_text. Qed.
Print Assumptions C100_secret_key_text.

Example C100_example_key :
  sec_time tsk7 = 7 /\ leak (sk_debug (fun _ => str "point") (fun _ => []) tsk7) = (7, sec_prng tsk7)
  /\ leak (@sk_debug toy (fun _ => []) (fun _ => []) (SecKey 0 (2 ^ 64 - 1) [] (repeat 200 64))) = (2 ^ 64 - 1, repeat 200 64).
Proof. split; [reflexivity|]. split; vm_compute; reflexivity. Qed.

(** With two signatures for one time stamp it gives a signature on every message for that
    time stamp, even if points are not printed. *)
Theorem C100_printed_key_signs : forall (E : env) (L : env_laws E) m m' (pp : pubparam E) pk sk t msg1 msg2 s1 s2 p1 p2,
  pp_ok pp -> reachable m pp pk sk ->
  sign_present m' t pp msg1 sk = (Ok s1, sk) -> sign_present m' t pp msg2 sk = (Ok s2, sk) ->
  msg_scalar pp msg1 <> msg_scalar pp msg2 ->
  let k msg := spec_scalar (sha512 E) (snd (leak (sk_debug p1 p2 sk))) (sign_info msg t) in
  exists v c,
    node_at (pp_depth pp) t v
    /\ forall m'' msg,
         verify m'' (combine_sigs pp t v s1 s2 (k msg1) (k msg2) (msg_scalar pp msg1) (msg_scalar pp msg2) c (msg_scalar pp msg)) pk pp msg = Ok true.
Proof. exact printed_forges. Qed.
Print Assumptions C100_printed_key_signs.

(** With a later key and the seed of the update it gives a key for an earlier time stamp. *)
Theorem C100_printed_key_past : forall (E : env) (L : env_laws E) m m' (pp : pubparam E) pk sk t seed sk' p1 p2,
  pp_ok pp -> reachable m pp pk sk -> update m' pp t seed sk = (Ok tt, sk') ->
  (2 <= length (new_times sk sk'))%nat ->
  let (t0, g0) := leak (sk_debug p1 p2 sk) in
  let rho := spec_scalar (sha512 E) (spec_rerandomize (sha512 E) g0 seed (str "Pixel secret key rerandomize expand" ++ time4 t0))
               (str "Pixel secret key update") in
  exists s0 s1 rest p u,
    sec_ssk sk' = s0 :: s1 :: rest
    /\ node_at (pp_depth pp) p u /\ sec_time sk <= p < t
    /\ forall m'' g msg, exists s,
         fst (sign_present m'' p pp msg (SecKey (pp_cs pp) p [recover pp p u s0 s1 rho] g)) = Ok s
         /\ verify m'' s pk pp msg = Ok true.
Proof. exact printed_recovers_past. Qed.
Print Assumptions C100_printed_key_past.

(** The whole text of a sub key and of a signature. *)
Example C100_example_whole_text :
  @ssk_debug toy (fun _ => str "P") (fun _ => str "R") (SubKey 12 g2_zero g1_zero [g1_zero; g1_zero]) = str
"================================
==========Sub Secret key========
time : 12
g1r: R
h0 : P
hlist: h0: P
hlist: h1: P
================================
"
  /\ @sig_debug toy (fun _ => str "P") (fun _ => str "R") (Signature 0 12 g2_zero g1_zero) = str
"================================
==========Signature======
sigma1  : R
sigma2  : P
================================
"
  /\ @sk_debug toy (fun _ => str "P") (fun _ => str "R") (SecKey 0 12 [SubKey 12 g2_zero g1_zero []] (repeat 0 64)) = str
"================================
time:12
seed: 
" ++ prng_debug (repeat 0 64) ++ str "
========0-th subkey============
================================
==========Sub Secret key========
time : 12
g1r: R
h0 : P
================================

================================
".
Proof. split; [vm_compute; reflexivity|]. split; vm_compute; reflexivity. Qed.

Definition d100k (msg : bytes) : N :=
  spec_scalar (sha512 toy) (snd (leak (sk_debug (fun _ => []) (fun _ => []) tsk7))) (sign_info msg 7).
Definition d100s : signature toy := Eval vm_compute in
  match fst (sign_present Debug 7 tpp4 (str "b") tsk7) with Ok s => s | _ => tsig7 end.
Definition d100f : signature toy := Eval vm_compute in
  let M1 := msg_scalar tpp4 (str "hello") in let M2 := msg_scalar tpp4 (str "b") in
  let fix pw (a : N) (e : positive) : N :=
    match e with xH => a | xO e' => let y := pw a e' in (y * y) mod fr_modulus
    | xI e' => let y := pw a e' in (y * y * a) mod fr_modulus end in
  let c := match fr_modulus - 2 with Npos e => pw (M1 + (fr_modulus - M2)) e | _ => 0 end in
  combine_sigs tpp4 7 [1; 2; 1] tsig7 d100s (d100k (str "hello")) (d100k (str "b")) M1 M2 c (msg_scalar tpp4 (str "other")).
Definition d100u : seckey toy := Eval vm_compute in upd_of 10 (str "b") tsk7.
Example C100_example_attack :
  pp_ok tpp4 /\ reachable Debug tpp4 tpk4 tsk7
  /\ sign_present Debug 7 tpp4 (str "hello") tsk7 = (Ok tsig7, tsk7)
  /\ sign_present Debug 7 tpp4 (str "b") tsk7 = (Ok d100s, tsk7)
  /\ msg_scalar tpp4 (str "hello") <> msg_scalar tpp4 (str "b")
  /\ verify Debug d100f tpk4 tpp4 (str "other") = Ok true
  /\ update Debug tpp4 10 (str "b") tsk7 = (Ok tt, d100u) /\ (2 <= length (new_times tsk7 d100u))%nat.
Proof.
  split; [exact tpp4_ok|]. split; [exact tsk7_reachable|]. split; [exact tsig7_ok|].
  split; [vm_cast_no_check (@eq_refl (res (signature toy) * seckey toy) (Ok d100s, tsk7))|].
  split; [apply N.eqb_neq; vm_cast_no_check (@eq_refl bool false)|].
  split; [vm_cast_no_check (@eq_refl (res bool) (Ok true))|].
  split; [vm_cast_no_check (@eq_refl (res unit * seckey toy) (Ok tt, d100u))|]. vm_compute. lia.
Qed.

(** The text of a signature does not determine the signature. *)
Theorem C100_signature_text_refuted : exists (E : env) (pp : pubparam E) pk s s' msg,
  env_laws E /\ pp_ok pp /\ verify Debug s pk pp msg = Ok true /\ verify Debug s' pk pp msg = Ok false
  /\ forall p1 p2, sig_debug p1 p2 s = sig_debug p1 p2 s'.
Proof. exact sig_text_ambiguous. Qed.
Print Assumptions C100_signature_text_refuted.
