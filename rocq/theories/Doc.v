(** The algorithms of the document spec.md, step by step, for comparison with the code.
    Group elements, parameters and key structures are those of the model; the tree is the
    one of SpecTime.v, HKDF the one of SpecPrng.v.  An index the document leaves open (out
    of range) is [Panic P_INDEX]. *)
From Coq Require Import String.
From Verif Require Import Base Env SpecTime Prng SpecPrng SubKey SecretKey Keys Sig.
Local Open Scope N_scope.

(** The info strings.  The document gives two for the master key ("Pixel master key" at line
    162, "key initialization" at line 683) and puts the time behind "Pixel secret key update"
    (lines 355, 709); they are arguments here. *)
Record texts := Texts {
  tx_master : bytes; tx_init : N -> bytes; tx_rerand : N -> bytes; tx_update : N -> bytes;
  tx_sign : bytes -> N -> bytes }.

(** The strings of lines 683-709 and 740, with four bytes for a time stamp. *)
Definition doc_texts : texts := Texts
  (str "key initialization")
  (fun t => str "Pixel secret key init" ++ time4 t)
  (fun t => str "Pixel secret key rerandomize expand" ++ time4 t)
  (fun t => str "Pixel secret key update" ++ time4 t)
  (fun msg t => str "Pixel randomness for signing" ++ msg ++ time4 t).
(** The same without the time in the third (src/secret_key.rs 389). *)
Definition code_texts : texts := Texts
  (tx_master doc_texts) (tx_init doc_texts) (tx_rerand doc_texts) (fun _ => str "Pixel secret key update")
  (tx_sign doc_texts).
(** The same with the master key string of line 162. *)
Definition doc_texts2 : texts := Texts
  (str "Pixel master key") (tx_init doc_texts) (tx_rerand doc_texts) (tx_update doc_texts) (tx_sign doc_texts).

(** Lines 57-84: the node of a time stamp, the time stamp of a node, the gamma list
    ([1,1,1] for depth 4 gives [1,1,1], [1,1,2], [1,2], [2]). *)
Definition doc_path (d : nat) (t : N) : res path :=
  if t =? 0 then Err E_TIME_STAMP
  else match nth_error (preorder d) (N.to_nat (t - 1)) with Some v => Ok v | None => Err E_TIME_STAMP end.
Fixpoint doc_find (v : path) (l : list path) : N :=
  match l with [] => 0 | w :: l' => if bytes_eqb w v then 0 else 1 + doc_find v l' end.
Definition doc_time (d : nat) (v : path) : N := 1 + doc_find v (preorder d).
Definition doc_gamma (v : path) : list path :=
  v :: map (fun i => firstn i v ++ [2]) (filter (fun i => nth i v 0 =? 1) (rev (seq 0 (length v)))).
Definition doc_prefix (v w : path) : bool := bytes_eqb (firstn (length v) w) v.

(** h0 * prod hi^ti and its like: [acc] times the powers of [hs]. *)
Definition doc_prod {E : env} (acc : G1 E) (es : list N) (hs : list (G1 E)) : G1 E :=
  fold_left (fun a eh => g1_add a (g1_mul (fst eh) (snd eh))) (combine es hs) acc.
Definition doc_base {E} (pp : pubparam E) (v : path) : G1 E :=
  doc_prod (nth 0 (pp_hlist pp) g1_zero) v (skipn 1 (pp_hlist pp)).

(** Lines 443-455: SubSecretKey::init; [alpha] is the element h^x. *)
Definition doc_ssk_init {E} (pp : pubparam E) (alpha : G1 E) (r : N) : subkey E :=
  SubKey 1 (g2_mul r (pp_g2 pp)) (g1_add alpha (g1_mul r (nth 0 (pp_hlist pp) g1_zero)))
    (map (fun i => g1_mul r (nth i (pp_hlist pp) g1_zero)) (seq 1 (pp_depth pp))).

(** Lines 457-475: delegate. *)
Definition doc_delegate {E} (d : nat) (s : subkey E) (tar : N) : res (subkey E) :=
  let! cur_tv := doc_path d (sk_t s) in
  let! tar_tv := doc_path d tar in
  if negb (doc_prefix cur_tv tar_tv) then Err E_TIME_STAMP
  else
    let k := (length tar_tv - length cur_tv)%nat in
    if (length (sk_hvec s) <? k)%nat then Panic P_INDEX
    else Ok (SubKey tar (sk_g2r s) (doc_prod (sk_hpoly s) (skipn (length cur_tv) tar_tv) (sk_hvec s))
               (skipn k (sk_hvec s))).

(** Lines 478-497: randomization. *)
Definition doc_randomization {E} (pp : pubparam E) (r : N) (s : subkey E) : res (subkey E) :=
  let! tv := doc_path (pp_depth pp) (sk_t s) in
  if (length (pp_hlist pp) <? length tv + 1 + length (sk_hvec s))%nat then Panic P_INDEX
  else Ok (SubKey (sk_t s) (g2_add (sk_g2r s) (g2_mul r (pp_g2 pp)))
             (g1_add (sk_hpoly s) (g1_mul r (doc_base pp tv)))
             (map (fun hh => g1_add (fst hh) (g1_mul r (snd hh)))
                (combine (sk_hvec s) (skipn (length tv + 1) (pp_hlist pp))))).

(** Lines 500-505: validate of a sub key. *)
Definition doc_ssk_validate {E} (pp : pubparam E) (pk : pubkey E) (s : subkey E) : bool :=
  match doc_path (pp_depth pp) (sk_t s) with
  | Ok tv => gt_eqb (pairing (pp_g2 pp) (sk_hpoly s))
               (gt_mul (pairing (pk_pk pk) (pp_h pp)) (pairing (sk_g2r s) (doc_base pp tv)))
  | _ => false
  end.

(** Lines 149-169, 196-208, 243-253, 311-326 and 676-690: the steps of key generation. *)
Definition doc_key_gen {E} (tx : texts) (seed : bytes) (pp : pubparam E) : res (pubkey E * seckey E * proof E) :=
  if (length seed <? 32)%nat then Err E_SEED_TOO_SHORT
  else if negb (valid_cs (pp_cs pp)) then Err E_CIPHERSUITE
  else
    let H := sha512 E in
    let g := rfc_hmac H (str "Pixel master key" ++ [pp_cs pp]) seed in
    let x := spec_scalar H g (tx_master tx) in
    let g := spec_next H g (tx_master tx) in
    let r := spec_scalar H g (tx_init tx 1) in
    let pk := g2_mul x (pp_g2 pp) in
    let pop := bls_sign x (str "Pixel public key POP" ++ g2_enc true pk) [pp_cs pp] in
    Ok (PubKey (pp_cs pp) pk,
        SecKey (pp_cs pp) 1 [doc_ssk_init pp (g1_mul x (pp_h pp)) r] (spec_next H g (tx_init tx 1)),
        Pop (pp_cs pp) pop).

(** Lines 255-267: validate of a public key. *)
Definition doc_pk_validate {E} (pk : pubkey E) (pop : proof E) : bool :=
  valid_cs (pk_cs pk) && (pk_cs pk =? pop_cs pop)
  && bls_verify (pk_pk pk) (pop_pop pop) (str "Pixel public key POP" ++ g2_enc true (pk_pk pk)) [pk_cs pk].

(** Lines 363-378: find_ancestor: the greatest time stamp of a sub key that is no greater
    than the target. *)
Definition doc_find_ancestor {E} (l : list (subkey E)) (tar : N) : option N :=
  match filter (fun t => t <=? tar) (map sk_t l) with
  | [] => None
  | t :: ts => Some (fold_left N.max ts t)
  end.

(** Lines 350-357: the loop over the gamma list from index [i]. *)
Definition doc_insert {A} (i : nat) (a : A) (l : list A) : list A := firstn i l ++ a :: skipn i l.
Fixpoint doc_loop {E} (tx : texts) (pp : pubparam E) (time : N) (del : subkey E) (dv : path) (i : nat)
    (gl : list path) (ssk : list (subkey E)) (g : prng) : res (list (subkey E) * prng) :=
  match gl with
  | [] => Ok (ssk, g)
  | v :: gl' =>
    if doc_prefix dv v then
      let! new := doc_delegate (pp_depth pp) del (doc_time (pp_depth pp) v) in
      if (i =? 0)%nat then doc_loop tx pp time del dv (S i) gl' (doc_insert (i + 1) new ssk) g
      else
        let! new := doc_randomization pp (spec_scalar (sha512 E) g (tx_update tx time)) new in
        doc_loop tx pp time del dv (S i) gl' (doc_insert (i + 1) new ssk) (spec_next (sha512 E) g (tx_update tx time))
    else doc_loop tx pp time del dv (S i) gl' ssk g
  end.

(** Lines 328-360, 697-722: update.  The time is correct if it is a time stamp of the tree
    after that of the key. *)
Definition doc_update {E} (tx : texts) (pp : pubparam E) (tar : N) (seed : bytes) (sk : seckey E) : res (seckey E) :=
  if negb (sec_cs sk =? pp_cs pp) then Err E_CIPHERSUITE
  else if (tar <=? sec_time sk) || (last_time (pp_depth pp) <? tar) then Err E_TIME_STAMP
  else
    let g := spec_rerandomize (sha512 E) (sec_prng sk) seed (tx_rerand tx (sec_time sk)) in
    match doc_find_ancestor (sec_ssk sk) tar with
    | None => Err E_TIME_STAMP
    | Some ta =>
      match filter (fun s => negb (sk_t s <? ta)) (sec_ssk sk) with
      | [] => Err E_SSK_EMPTY
      | del :: post =>
        if ta =? tar then Ok (SecKey (sec_cs sk) tar (del :: post) g)
        else
          let! v := doc_path (pp_depth pp) tar in
          let! dv := doc_path (pp_depth pp) ta in
          let! (ssk, g) := doc_loop tx pp (sec_time sk) del dv 0 (doc_gamma v) (del :: post) g in
          match skipn 1 ssk with
          | [] => Panic P_INDEX
          | s :: ssk' => Ok (SecKey (sec_cs sk) (sk_t s) (s :: ssk') g)
          end
      end
    end.

(** Lines 391-398: validate of a secret key. *)
Definition doc_sk_validate {E} (pp : pubparam E) (pk : pubkey E) (sk : seckey E) : bool :=
  (sec_cs sk =? pk_cs pk) && (pk_cs pk =? pp_cs pp)
  && forallb (doc_ssk_validate pp pk) (sec_ssk sk)
  && match doc_path (pp_depth pp) (sec_time sk) with
     | Ok v => bytes_eqb (map sk_t (sec_ssk sk)) (map (doc_time (pp_depth pp)) (doc_gamma v))
     | _ => false
     end.

(** Lines 589-597: hash_msg_into_fr. *)
Definition doc_hash_msg {E : env} (msg : bytes) (cs : N) : N :=
  os2ip (sha512 E (str "Pixel hash to message" ++ [cs] ++ msg)) mod fr_modulus.

(** Lines 549-572: sign_bytes; the time vector is that of the target time. *)
Definition doc_sign {E} (tx : texts) (pp : pubparam E) (sk : seckey E) (tar : N) (msg : bytes) : res (signature E) :=
  if tar <? sec_time sk then Err E_TIME_STAMP
  else if negb (valid_cs (pp_cs pp) && (sec_cs sk =? pp_cs pp)) then Err E_CIPHERSUITE
  else
    let r := spec_scalar (sha512 E) (sec_prng sk) (tx_sign tx msg tar) in
    let hm := doc_hash_msg (E := E) msg (pp_cs pp) in
    match sec_ssk sk with
    | [] => Err E_SSK_EMPTY
    | s :: _ =>
      let! tv := doc_path (pp_depth pp) tar in
      let tmp := g1_add (doc_base pp tv) (g1_mul hm (nth (pp_depth pp) (pp_hlist pp) g1_zero)) in
      match rev (sk_hvec s) with
      | [] => Err E_SSK_EMPTY
      | hl :: _ => Ok (Signature (pp_cs pp) tar (g2_add (sk_g2r s) (g2_mul r (pp_g2 pp)))
                         (g1_add (g1_add (sk_hpoly s) (g1_mul hm hl)) (g1_mul r tmp)))
      end
    end.

(** Lines 574-587: verify_bytes. *)
Definition doc_verify {E} (s : signature E) (pk : pubkey E) (pp : pubparam E) (msg : bytes) : bool :=
  valid_cs (pp_cs pp) && (sig_cs s =? pp_cs pp) && g2_insub (sig_1 s) && g1_insub (sig_2 s)
  && match doc_path (pp_depth pp) (sig_time s) with
     | Ok tv =>
       let hm := doc_hash_msg (E := E) msg (pp_cs pp) in
       let hfx := g1_add (doc_base pp tv) (g1_mul hm (nth (pp_depth pp) (pp_hlist pp) g1_zero)) in
       gt_eqb (gt_mul (gt_mul (pairing (g2_neg (pp_g2 pp)) (sig_2 s)) (pairing (sig_1 s) hfx)) (pairing (pk_pk pk) (pp_h pp)))
         gt_one
     | _ => false
     end.

(** Lines 599-613: aggregation of a first signature and others. *)
Definition doc_aggregate {E} (s : signature E) (l : list (signature E)) : res (signature E) :=
  if negb (forallb (fun e => sig_cs s =? sig_cs e) l) then Err E_CIPHERSUITE
  else if negb (forallb (fun e => sig_time s =? sig_time e) l) then Err E_TIME_STAMP
  else Ok (Signature (sig_cs s) (sig_time s) (fold_left g2_add (map sig_1 l) (sig_1 s)) (fold_left g1_add (map sig_2 l) (sig_2 s))).

(** Lines 615-640: verification for a first public key and others. *)
Definition doc_verify_aggregated {E} (s : signature E) (k : pubkey E) (ks : list (pubkey E)) (pp : pubparam E) (msg : bytes) : bool :=
  forallb (fun e => pp_cs pp =? pk_cs e) (k :: ks) && (sig_cs s =? pp_cs pp)
  && doc_verify s (PubKey (pp_cs pp) (fold_left g2_add (map pk_pk ks) (pk_pk k))) pp msg.
