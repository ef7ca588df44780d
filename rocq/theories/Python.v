(** Model of pixel-python (keygen.py, keyupdate.py, prng.py, sig.py).  [None] is a
    raised exception.  The module constants default_param = (g1gen, h, hlist) and d of
    param.py are the fields of [pp]; a sub key tuple (time, g2r, hpoly, hvector) is a
    [subkey]; a secret key is the pair (prng, ssk_vec).  Integers are unbounded as in
    Python; copy.copy and copy.deepcopy are identities, since values are not mutated
    here (vec_to_time empties the list it is given, which sk_update does not use again).
    HMAC and HKDF (package hkdf, hash sha512), the group operations and [serialize]
    (package bls_sigs_ref) are those of [Hkdf] and [env].  Printing and the
    interpreter's recursion limit are left out; files are in Programs.v and Scripts.v. *)
From Coq Require Import String.
From Verif Require Import Base Env Hkdf SubKey.
Local Open Scope N_scope.

Notation "'let?' x := e 'in' k" := (match e with Some x => k | None => None end)
  (at level 200, x pattern, e at level 200, k at level 200).

Definition pysk (E : env) := (bytes * list (subkey E))%type.

(** l[i] *)
Definition py_nth {A} (l : list A) (i : nat) : option A := nth_error l i.

(** bls_sigs_ref hash_to_field.py, OS2IP and I2OSP(val, 4) (ValueError if val is too
    large); int.to_bytes(4, 'big') gives the same bytes (OverflowError). *)
Definition py_os2ip (l : bytes) : N := fold_left (fun r b => N.shiftl r 8 + b) l 0.
Definition py_i2osp4 (t : N) : option bytes :=
  if t <? 2^32 then
    Some [N.land (N.shiftr t 24) 255; N.land (N.shiftr t 16) 255; N.land (N.shiftr t 8) 255; N.land t 255]
  else None.
(** b"%c" % n (OverflowError unless n < 256). *)
Definition py_chr (n : nat) : option bytes := if (n <? 256)%nat then Some [N.of_nat n] else None.

(** pixel-python/prng.py 12-14: prng_init. *)
Definition py_prng_init (H : bytes -> bytes) (seed salt : bytes) : bytes := hkdf_extract H salt seed.

(** pixel-python/prng.py 17-33: prng_sample_then_update; q of consts.py is the group order. *)
Definition py_sample_then_update (H : bytes -> bytes) (g info : bytes) : option (N * bytes) :=
  let? key := hkdf_expand H g info 128 in
  Some (py_os2ip (firstn 64 key) mod fr_modulus, skipn 64 key).

(** pixel-python/prng.py 36-48: prng_sample. *)
Definition py_sample (H : bytes -> bytes) (g info : bytes) : option N :=
  let? key := hkdf_expand H g info 64 in
  Some (py_os2ip key mod fr_modulus).

(** pixel-python/prng.py 50-52: prng_rerandomize. *)
Definition py_rerandomize (H : bytes -> bytes) (g newseed info : bytes) : option bytes :=
  let? m1 := hkdf_expand H g info 128 in
  Some (hkdf_extract H (skipn 64 m1) (firstn 64 m1 ++ newseed)).

(** pixel-python/keygen.py 20-55: key_gen. *)
Definition py_key_gen {E} (pp : pubparam E) (seed : bytes) : option (G2 E * pysk E) :=
  let prng := py_prng_init (sha512 E) seed (str "Pixel master key" ++ [0]) in
  let? (x, prng) := py_sample_then_update (sha512 E) prng (str "key initialization") in
  let pk := g2_mul x (pp_g2 pp) in
  let msk := g1_mul x (pp_h pp) in
  let? (r, prng) := py_sample_then_update (sha512 E) prng (str "Pixel secret key init" ++ [0; 0; 0; 1]) in
  let g2r := g2_mul r (pp_g2 pp) in
  let? h0 := py_nth (pp_hlist pp) 0 in
  let hpoly := g1_add (g1_mul r h0) msk in
  let hvector := map (g1_mul r) (skipn 1 (pp_hlist pp)) in
  Some (pk, (prng, [SubKey 1 g2r hpoly hvector])).

(** pixel-python/keygen.py 59-67: serialize_ssk. *)
Definition py_serialize_ssk {E} (s : subkey E) : option bytes :=
  let? t := py_i2osp4 (sk_t s) in
  let? n := py_chr (length (sk_hvec s)) in
  Some (t ++ n ++ g2_enc true (sk_g2r s) ++ g1_enc true (sk_hpoly s) ++ concat (map (g1_enc true) (sk_hvec s))).

Fixpoint py_serialize_ssks {E} (l : list (subkey E)) : option bytes :=
  match l with
  | [] => Some []
  | s :: l' => let? a := py_serialize_ssk s in let? b := py_serialize_ssks l' in Some (a ++ b)
  end.

(** pixel-python/keygen.py 70-77: serialize_sk. *)
Definition py_serialize_sk {E} (sk : pysk E) : option bytes :=
  let? n := py_chr (length (snd sk)) in
  let? l := py_serialize_ssks (snd sk) in
  Some ([0] ++ n ++ fst sk ++ l).

(** pixel-python/keygen.py 85: the bytes of the public key. *)
Definition py_serialize_pk {E : env} (pk : G2 E) : bytes := [0] ++ g2_enc true pk.

(** pixel-python/keyupdate.py 159-165: time_to_vec.  For time 0 the recursion does not
    end; when the depth is used up it counts down to 1 in steps of 1. *)
Fixpoint py_time_to_vec (time : N) (depth : nat) : option (list N) :=
  if time =? 0 then None
  else if time =? 1 then Some []
  else match depth with
       | O => Some (repeat 1 (N.to_nat (time - 1)))
       | S d1 =>
         if 2^(N.of_nat d1) <? time then
           let? v := py_time_to_vec (time - 2^(N.of_nat d1)) d1 in Some (2 :: v)
         else
           let? v := py_time_to_vec (time - 1) d1 in Some (1 :: v)
       end.

(** pixel-python/keyupdate.py 152-157: vec_to_time.  With the depth used up,
    pow(2, depth-1) is a fraction: not modelled, [None]. *)
Fixpoint py_vec_to_time (tvec : list N) (depth : nat) : option N :=
  match tvec with
  | [] => Some 1
  | ti :: tvec' =>
    match depth with
    | O => None
    | S d1 =>
      let? r := py_vec_to_time tvec' d1 in
      Some (1 + (ti - 1) * (2^(N.of_nat d1) - 1) + r)
    end
  end.

(** pixel-python/keyupdate.py 168-175: gammat; [ans] is [tvec] followed by [acc],
    [pre] is tvec[:i] and [rest] is tvec[i:]. *)
Fixpoint py_gammat_loop (pre rest : list N) (acc : list (list N)) : list (list N) :=
  match rest with
  | [] => acc
  | x :: rest' => py_gammat_loop (pre ++ [x]) rest' (if x =? 1 then (pre ++ [2]) :: acc else acc)
  end.
Definition py_gammat (tvec : list N) : list (list N) := tvec :: py_gammat_loop [] tvec [].

(** pixel-python/keyupdate.py 88-94: find_ancestor. *)
Fixpoint py_ancestor_loop {E} (tar_time : N) (ssk : subkey E) (l : list (subkey E)) : subkey E :=
  match l with
  | [] => ssk
  | e :: l' => py_ancestor_loop tar_time (if sk_t e <=? tar_time then e else ssk) l'
  end.
Definition py_find_ancestor {E} (ssk_vec : list (subkey E)) (tar_time : N) : option (subkey E) :=
  let? ssk := py_nth ssk_vec 0 in
  Some (py_ancestor_loop tar_time ssk ssk_vec).

(** The loops [tmp2 = point_mul(time_vec[i], hlist[i+1]); tmp = point_add(tmp, tmp2)]
    of pixel-python/keyupdate.py 109-111 and sig.py 47-50. *)
Fixpoint py_poly_loop {E : env} (hlist : list (G1 E)) (i : nat) (tv : list N) (tmp : G1 E) : option (G1 E) :=
  match tv with
  | [] => Some tmp
  | x :: tv' =>
    let? h := py_nth hlist (i + 1) in
    py_poly_loop hlist (S i) tv' (g1_add tmp (g1_mul x h))
  end.

(** pixel-python/keyupdate.py 119-122: [base] is i+1+len(time_vec). *)
Fixpoint py_hv_loop {E : env} (hlist : list (G1 E)) (base : nat) (r : N) (hv : list (G1 E)) : option (list (G1 E)) :=
  match hv with
  | [] => Some []
  | x :: hv' =>
    let? h := py_nth hlist base in
    let? l := py_hv_loop hlist (S base) r hv' in
    Some (g1_add (g1_mul r h) x :: l)
  end.

(** pixel-python/keyupdate.py 99-124: randomization. *)
Definition py_randomization {E} (pp : pubparam E) (ssk : subkey E) (r : N) : option (subkey E) :=
  let g2r := g2_add (sk_g2r ssk) (g2_mul r (pp_g2 pp)) in
  let? h0 := py_nth (pp_hlist pp) 0 in
  let? time_vec := py_time_to_vec (sk_t ssk) (pp_depth pp) in
  let? tmp := py_poly_loop (pp_hlist pp) 0 time_vec h0 in
  let hpoly_new := g1_add (sk_hpoly ssk) (g1_mul r tmp) in
  let? hvector_new := py_hv_loop (pp_hlist pp) (1 + length time_vec) r (sk_hvec ssk) in
  Some (SubKey (sk_t ssk) g2r hpoly_new hvector_new).

(** pixel-python/keyupdate.py 139-141: [ts] is tar_time_vec[len(cur_time_vec):], [hv]
    is hvector[i:]. *)
Fixpoint py_del_loop {E : env} (hv : list (G1 E)) (ts : list N) (hpoly : G1 E) {struct ts} : option (G1 E) :=
  match ts with
  | [] => Some hpoly
  | t :: ts' =>
    match hv with
    | [] => None
    | h :: hv' => py_del_loop hv' ts' (g1_add hpoly (g1_mul t h))
    end
  end.

(** pixel-python/keyupdate.py 132-148: delegate.  (The [del hvector[0]] remove entries
    that the loop before has indexed.) *)
Definition py_delegate {E} (d : nat) (ssk : subkey E) (tar_time : N) : option (subkey E) :=
  let? cur := py_time_to_vec (sk_t ssk) d in
  let? tar := py_time_to_vec tar_time d in
  let? hpoly := py_del_loop (sk_hvec ssk) (skipn (length cur) tar) (sk_hpoly ssk) in
  Some (SubKey tar_time (sk_g2r ssk) hpoly (skipn (length tar - length cur) (sk_hvec ssk))).

(** pixel-python/keyupdate.py 40-52: the sub keys delegated. *)
Fixpoint py_new_loop {E} (d : nat) (delegator : subkey E) (sk_vec : list (subkey E)) (gl : list (list N))
  : option (list (subkey E)) :=
  match gl with
  | [] => Some []
  | e :: gl' =>
    let? time := py_vec_to_time e d in
    if existsb (fun ssk => sk_t ssk =? time) sk_vec then py_new_loop d delegator sk_vec gl'
    else
      let? ssk := py_delegate d delegator time in
      let? l := py_new_loop d delegator sk_vec gl' in
      Some (ssk :: l)
  end.

(** pixel-python/keyupdate.py 57-59: all but the first are re-randomized. *)
Fixpoint py_rand_loop {E} (pp : pubparam E) (l : list (subkey E)) (g : bytes) : option (list (subkey E) * bytes) :=
  match l with
  | [] => Some ([], g)
  | s :: l' =>
    let? (r, g) := py_sample_then_update (sha512 E) g (str "Pixel secret key update") in
    let? s' := py_randomization pp s r in
    let? (l'', g) := py_rand_loop pp l' g in
    Some (s' :: l'', g)
  end.

(** pixel-python/keyupdate.py 15-67: sk_update. *)
Definition py_update {E} (pp : pubparam E) (sk : pysk E) (tar_time : N) (seed : bytes) : option (pysk E) :=
  let d := pp_depth pp in
  let? s0 := py_nth (snd sk) 0 in
  let? t0 := py_i2osp4 (sk_t s0) in
  let? new_seed := py_rerandomize (sha512 E) (fst sk) seed (str "Pixel secret key rerandomize expand" ++ t0) in
  let? delegator := py_find_ancestor (snd sk) tar_time in
  let sk_vec := filter (fun x => sk_t delegator <=? sk_t x) (snd sk) in
  let? s1 := py_nth sk_vec 0 in
  if sk_t s1 =? tar_time then Some (new_seed, sk_vec)
  else
    let? tvec := py_time_to_vec tar_time d in
    let? new_ssk := py_new_loop d delegator sk_vec (py_gammat tvec) in
    let? (new_ssk, new_seed) :=
      match new_ssk with
      | [] => Some ([], new_seed)
      | s :: l => let? (l', g) := py_rand_loop pp l new_seed in Some (s :: l', g)
      end in
    Some (new_seed, new_ssk ++ skipn 1 sk_vec).

(** pixel-python/sig.py 22-24: hash_msg_into_fr. *)
Definition py_hash_msg (H : bytes -> bytes) (msg : bytes) : N :=
  py_os2ip (H (str "Pixel hash to message" ++ [0] ++ msg)) mod fr_modulus.

(** pixel-python/sig.py 26-64: sign_present; the result is (time, sig1, sig2).
    ssk[3][len-1] on an empty list raises (index -1). *)
Definition py_sign_present {E} (pp : pubparam E) (sk : pysk E) (tar_time : N) (msg : bytes)
  : option (N * G2 E * G1 E) :=
  let d := pp_depth pp in
  let? ssk := py_nth (snd sk) 0 in
  if negb (sk_t ssk =? tar_time) then None
  else
    let? timevec := py_time_to_vec tar_time d in
    let? t4 := py_i2osp4 tar_time in
    let? r := py_sample (sha512 E) (fst sk) (str "Pixel randomness for signing" ++ msg ++ t4) in
    let m := py_hash_msg (sha512 E) msg in
    let sig1 := g2_add (sk_g2r ssk) (g2_mul r (pp_g2 pp)) in
    let? h0 := py_nth (pp_hlist pp) 0 in
    let? tmp := py_poly_loop (pp_hlist pp) 0 timevec h0 in
    let? hd := py_nth (pp_hlist pp) d in
    let tmp := g1_add tmp (g1_mul m hd) in
    let? hl := match sk_hvec ssk with [] => None | _ => py_nth (sk_hvec ssk) (length (sk_hvec ssk) - 1) end in
    let sig2 := g1_add (g1_add (sk_hpoly ssk) (g1_mul m hl)) (g1_mul r tmp) in
    Some (tar_time, sig1, sig2).

(** pixel-python/sig.py 67-68: serialize_sig. *)
Definition py_serialize_sig {E : env} (sig : N * G2 E * G1 E) : option bytes :=
  let '(t, s1, s2) := sig in
  let? t4 := py_i2osp4 t in
  Some ([0] ++ t4 ++ g2_enc true s1 ++ g1_enc true s2).
