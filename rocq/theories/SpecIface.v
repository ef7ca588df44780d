(** Vocabulary for Properties_Iface.v: the game of SpecFwd.v in which the forger uses every call
    of the trait of src/lib.rs that takes the secret key. *)
From Verif Require Import Base Env Time SpecTime Prng SpecPrng SubKey SecretKey Keys Sig Api
  SpecKey SpecUpdate SpecAgg SpecRed SpecMulti SpecRom SpecPop SpecFwd.
Local Open Scope N_scope.

(** A call is an [op] of Api.v: update, sign, sign_present, sign_then_update, or saving and
    reloading the key.  The forger sees what the call returns. *)
Inductive iforger (E : env) : Type :=
| IForge (msg : bytes) (s : signature E) (l : list (pubkey E * proof E))
| IBreak (k : seckey E -> pforger E)
| ICall (o : op) (k : res (option (signature E)) -> iforger E)
| IAskHash (b : bytes) (k : bytes -> iforger E)
| IAskPoint (msg cs : bytes) (k : G1 E -> iforger E).
Arguments IForge {E}. Arguments IBreak {E}. Arguments ICall {E}. Arguments IAskHash {E}. Arguments IAskPoint {E}.
Definition iforger_for (E : env) := pubparam E -> pubkey E -> proof E -> iforger E.

(** The message signed by a call with that result.  If sign_then_update panics the signature may
    have been made. *)
Definition given {A} (o : op) (r : res A) : list event :=
  match o, r with
  | OpSign t msg _, Ok _ | OpSignPresent t msg, Ok _ | OpSignThenUpdate t msg _, Ok _
  | OpSignThenUpdate t msg _, Panic _ => [Signed t msg]
  | _, _ => []
  end.
Fixpoint iface_run {E} (H : bytes -> bytes) (Q : bytes -> bytes -> G1 E) (m : mode) (pp : pubparam E)
    (sk : seckey (code_env E H Q)) (f : iforger E)
  : option (bytes * signature E * list (pubkey E * proof E) * list event) :=
  match f with
  | IForge msg s l => Some (msg, s, l, [])
  | IBreak k => match tail_run H Q (k (uv_sk sk)) with
                | None => None
                | Some o => Some (o, [Broke (sec_time sk)])
                end
  | ICall o k =>
    let (r, sk') := step m (cv_pp pp) o sk in
    enote (given o r) (iface_run H Q m pp sk' (k (res_map (option_map uv_sig) r)))
  | IAskHash b k => iface_run H Q m pp sk (k (H b))
  | IAskPoint msg cs k => iface_run H Q m pp sk (k (Q msg cs))
  end.
(** The forger wins: as [awins] in SpecFwd.v. *)
Definition iwins {E} (H : bytes -> bytes) (Q : bytes -> bytes -> G1 E) (m : mode) (pp : pubparam E) (seed : bytes) (tb : N)
    (adv : iforger_for E) : Prop :=
  exists pk sk pop msg s l ev,
    @key_gen (code_env E H Q) seed (cv_pp pp) = Ok (pk, sk, pop)
    /\ iface_run H Q m pp sk (adv pp (uv_pk pk) (uv_pop pop)) = Some (msg, s, l, ev)
    /\ In (uv_pk pk) (map fst l) /\ N.of_nat (length l) < fr_modulus
    /\ ~ In (Signed (sig_time s) msg) ev
    /\ (if tb =? 0 then forall t, ~ In (Broke t) ev else In (Broke tb) ev /\ sig_time s < tb)
    /\ forallb (fun kp => @pk_validate (code_env E H Q) (cv_pk (fst kp)) (cv_pop (snd kp))) l = true
    /\ @verify_aggregated (code_env E H Q) m (cv_sig s) (map cv_pk (map fst l)) (cv_pp pp) msg = Ok true.

(** The same forger with update and sign_present only; [cur] is the time stamp of the key. *)
Fixpoint by_two {E} (d : nat) (cur : N) (f : iforger E) : aforger E :=
  match f with
  | IForge msg s l => AForge msg s l
  | IBreak k => ABreak k
  | IAskHash b k => AAskHash b (fun a => by_two d cur (k a))
  | IAskPoint msg cs k => AAskPoint msg cs (fun a => by_two d cur (k a))
  | ICall (OpUpdate t seed) k =>
    AUpdate t seed (fun r => by_two d (if is_ok r then t else cur) (k (res_map (fun _ => None) r)))
  | ICall (OpSignPresent t msg) k => ASign t msg (fun r => by_two d cur (k (res_map Some r)))
  | ICall (OpSign t msg seed) k =>
    if t <? cur then by_two d cur (k (Err E_TIME_STAMP))
    else if cur <? t then
      AUpdate t seed (fun r =>
        match r with
        | Ok _ => ASign t msg (fun r => by_two d t (k (res_map Some r)))
        | Err e => by_two d cur (k (Err e))
        | Panic p => by_two d cur (k (Panic p))
        end)
    else ASign t msg (fun r => by_two d cur (k (res_map Some r)))
  | ICall (OpSignThenUpdate t msg seed) k =>
    if negb (t =? cur) || (t =? last_time d) then by_two d cur (k (Err E_TIME_STAMP))
    else
      ASign t msg (fun r =>
        AUpdate (t + 1) seed (fun r' =>
          by_two d (if is_ok r' then t + 1 else cur) (k (match r' with Ok _ => res_map Some r | Err e => Err e | Panic p => Panic p end))))
  | ICall (OpReload _) k => by_two d cur (k (Ok None))
  end.
Definition two_calls {E} (d : nat) (adv : iforger_for E) : aforger_for E := fun pp pk pop => by_two d 1 (adv pp pk pop).

(** With these coins the forger wins against the code, or they do not make up a hash function. *)
Definition iwins_or {E} (m : mode) (g : G1 E) (d : nat) (cs tb : N) (bx : bytes) (adv : iforger_for E) (z : fcoins) : Prop :=
  let '(y, ys, hs, zs, (seed, _, _, _, _)) := z in
  exists o, sampled g d cs tb bx (two_calls d adv) z = Some o
    /\ (clean z o -> iwins (sampled_hash hs (o_tbl o) (o_calls o)) (points (o_ptbl o) (map (fun e => g1_mul e g) zs)) m (exp_params g d cs y ys) seed tb adv).
