(** Vocabulary for Properties_Any.v: what update does to a secret key of any shape, given by
    the time stamps it holds, the lengths of its vectors and the draws of the prng. *)
From Verif Require Import Base Env SpecTime Prng SubKey SecretKey SpecKey SpecUpdate.
Local Open Scope N_scope.

(** A time stamp of the tree, and the error the code gives for any other number. *)
Definition stamp (d : nat) (t : N) : Prop := 1 <= t <= last_time d.
Definition stamp_error (d : nat) (t : N) : error := if t =? pow2 d then E_TIME_DEPTH else E_TIME_STAMP.

(** The sub key that is delegated from: the last sub key whose time stamp is at most [t] says
    which time stamp, and the first one with this time stamp is taken. *)
Definition delegates {E} (t : N) (l pre : list (subkey E)) (a : subkey E) (post : list (subkey E)) : Prop :=
  l = pre ++ a :: post /\ Forall (fun s => sk_t s <> sk_t a) pre
  /\ exists p b q, l = p ++ b :: q /\ sk_t b = sk_t a /\ sk_t b <= t /\ Forall (fun s => t < sk_t s) q.

(** Looking for [u] among sub keys, from the left: it is met; or a number that is no time
    stamp is met before it; or neither. *)
Definition found {E} (d : nat) (u : N) (l : list (subkey E)) : Prop :=
  exists p s q, l = p ++ s :: q /\ Forall (fun x => stamp d (sk_t x)) p /\ sk_t s = u.
Definition broken {E} (d : nat) (u : N) (l : list (subkey E)) (s : subkey E) : Prop :=
  exists p q, l = p ++ s :: q /\ Forall (fun x => stamp d (sk_t x) /\ sk_t x <> u) p /\ ~ stamp d (sk_t s).
Definition clear {E} (d : nat) (u : N) (l : list (subkey E)) : Prop :=
  Forall (fun x => stamp d (sk_t x) /\ sk_t x <> u) l.

(** [a] moved down by the turns [w] to time stamp [t]; and [s], at the node [v], with [k] added
    to its randomness. *)
Definition moved_down {E} (a : subkey E) (w : path) (t : N) : subkey E :=
  SubKey t (sk_g2r a) (g1_add (sk_hpoly a) (lincomb w (sk_hvec a))) (skipn (length w) (sk_hvec a)).
Definition added_to {E} (pp : pubparam E) (s : subkey E) (v : path) (k : N) : subkey E :=
  SubKey (sk_t s) (g2_add (sk_g2r s) (g2_mul k (pp_g2 pp))) (g1_add (sk_hpoly s) (g1_mul k (node_val pp v)))
    (map (fun xh => g1_add (fst xh) (g1_mul k (snd xh))) (combine (sk_hvec s) (skipn (length v + 1) (pp_hlist pp)))).

(** The [i]-th new sub key of an update from [a], for the time stamp [u]; [g] is the prng state
    after the seed went in. *)
Definition new_sub {E} (pp : pubparam E) (g : prng) (a : subkey E) (i : nat) (u : N) (s : subkey E) : Prop :=
  exists va w, node_at (pp_depth pp) (sk_t a) va /\ node_at (pp_depth pp) u (va ++ w)
  /\ s = match i with
         | O => moved_down a w u
         | S _ => added_to pp (moved_down a w u) (va ++ w) (added (sha512 E) g i)
         end.

(** The vector of [a] has too few entries to reach [t], or more than the parameters have. *)
Definition too_short {E} (d : nat) (a : subkey E) (t : N) : Prop :=
  exists va v, node_at d (sk_t a) va /\ node_at d t v /\ (length va + length (sk_hvec a) < length v)%nat.
Definition too_long {E} (pp : pubparam E) (a : subkey E) : Prop :=
  exists va, node_at (pp_depth pp) (sk_t a) va /\ (length (pp_hlist pp) <= length va + length (sk_hvec a))%nat.

(** Of the time stamps [gl] that cover the time from [t] on, the first [n] are made new: they
    are below [a], and no sub key after [a] is for them. *)
Definition makes {E} (d : nat) (a : subkey E) (post : list (subkey E)) (gl : list N) (n : nat) : Prop :=
  (n <= length gl)%nat /\ Forall (fun u => clear d u post /\ strictly_below d (sk_t a) u) (firstn n gl).

(** The [n+1]-st is there already (or there are only [n]); or it can not be made. *)
Definition ends_well {E} (d : nat) (post : list (subkey E)) (gl : list N) (n : nat) : Prop :=
  n = length gl \/ exists u, nth_error gl n = Some u /\ found d u post.
Definition ends_badly {E} (d : nat) (a : subkey E) (post : list (subkey E)) (gl : list N) (n : nat) (e : error) : Prop :=
  exists u, nth_error gl n = Some u /\
  ((exists s, broken d u post s /\ e = stamp_error d (sk_t s))
   \/ (clear d u post /\ ~ strictly_below d (sk_t a) u
       /\ e = if sk_t a =? 0 then E_TIME_STAMP else E_TIME_NONE_PREFIX)).

(** No panic while the first [n] are made. *)
Definition smooth {E} (pp : pubparam E) (t : N) (old g : prng) (a : subkey E) (n : nat) : Prop :=
  (n = 0%nat \/ ~ too_short (pp_depth pp) a t) /\ ((n <= 1)%nat \/ ~ too_long pp a)
  /\ forall i, (1 <= i < n)%nat -> draws (sha512 E) i g <> old.

(** The result of an update from [a], which is not yet for [t]. *)
Inductive from_delegator {E} (pp : pubparam E) (t : N) (sk : seckey E) (g : prng) (a : subkey E)
    (post : list (subkey E)) (gl : list N) (n : nat) : res unit * seckey E -> Prop :=
| D_short : (0 < n)%nat -> too_short (pp_depth pp) a t -> from_delegator pp t sk g a post gl n (Panic P_INDEX, sk)
| D_draw : forall i, (1 <= i < n)%nat -> smooth pp t (sec_prng sk) g a i -> draws (sha512 E) i g = sec_prng sk ->
    from_delegator pp t sk g a post gl n (Panic P_PRNG, sk)
| D_long : (1 < n)%nat -> smooth pp t (sec_prng sk) g a 1 -> draws (sha512 E) 1 g <> sec_prng sk -> too_long pp a ->
    from_delegator pp t sk g a post gl n (Panic P_INDEX, sk)
| D_err : forall e, smooth pp t (sec_prng sk) g a n -> ends_badly (pp_depth pp) a post gl n e ->
    from_delegator pp t sk g a post gl n (Err e, sk)
| D_ok : forall news, smooth pp t (sec_prng sk) g a n -> ends_well (pp_depth pp) post gl n ->
    length news = n -> (forall i u s, nth_error gl i = Some u -> nth_error news i = Some s -> new_sub pp g a i u s) ->
    from_delegator pp t sk g a post gl n
      (Ok tt, SecKey (sec_cs sk) (hd 0 (map sk_t (news ++ post))) (news ++ post) (draws (sha512 E) (n - 1) g)).

(** The result of update on any key. *)
Inductive update_result {E} (pp : pubparam E) (t : N) (seed : bytes) (sk : seckey E) : res unit * seckey E -> Prop :=
| U_cs : sec_cs sk <> pp_cs pp -> update_result pp t seed sk (Err E_CIPHERSUITE, sk)
| U_time : sec_cs sk = pp_cs pp -> ~ (sec_time sk < t <= last_time (pp_depth pp)) ->
    update_result pp t seed sk (Err E_TIME_STAMP, sk)
| U_empty : sec_cs sk = pp_cs pp -> sec_time sk < t <= last_time (pp_depth pp) -> sec_ssk sk = [] ->
    update_result pp t seed sk (Err E_SSK_EMPTY, sk)
| U_late : forall s l, sec_cs sk = pp_cs pp -> sec_time sk < t <= last_time (pp_depth pp) ->
    sec_ssk sk = s :: l -> t <= sk_t s -> update_result pp t seed sk (Err E_TIME_STAMP, sk)
| U_exact : forall s l pre a post, sec_cs sk = pp_cs pp -> sec_time sk < t <= last_time (pp_depth pp) ->
    sec_ssk sk = s :: l -> sk_t s < t -> delegates t (sec_ssk sk) pre a post -> sk_t a = t ->
    update_result pp t seed sk (Ok tt, SecKey (sec_cs sk) t (a :: post) (spec_reseed sk seed))
| U_from : forall s l pre a post gl n o, sec_cs sk = pp_cs pp -> sec_time sk < t <= last_time (pp_depth pp) ->
    sec_ssk sk = s :: l -> sk_t s < t -> delegates t (sec_ssk sk) pre a post -> sk_t a <> t ->
    tiling (pp_depth pp) t gl -> makes (pp_depth pp) a post gl n ->
    from_delegator pp t sk (spec_reseed sk seed) a post gl n o ->
    update_result pp t seed sk o.

(** The result of delegate on any sub key. *)
Inductive delegate_result {E} (d : nat) (t : N) (s : subkey E) : res unit * subkey E -> Prop :=
| L_bad : ~ stamp d (sk_t s) -> delegate_result d t s (Err (stamp_error d (sk_t s)), s)
| L_target : stamp d (sk_t s) -> ~ stamp d t -> delegate_result d t s (Err (stamp_error d t), s)
| L_prefix : stamp d (sk_t s) -> stamp d t -> ~ strictly_below d (sk_t s) t ->
    delegate_result d t s (Err E_TIME_NONE_PREFIX, s)
| L_short : forall v w, node_at d (sk_t s) v -> node_at d t (v ++ w) -> w <> [] -> (length (sk_hvec s) < length w)%nat ->
    delegate_result d t s
      (Panic P_INDEX, SubKey (sk_t s) (sk_g2r s) (g1_add (sk_hpoly s) (lincomb w (sk_hvec s))) (sk_hvec s))
| L_ok : forall v w, node_at d (sk_t s) v -> node_at d t (v ++ w) -> w <> [] -> (length w <= length (sk_hvec s))%nat ->
    delegate_result d t s (Ok tt, moved_down s w t).

(** The result of randomization on any sub key: what a panic leaves is changed as far as the
    parameters reach. *)
Inductive randomization_result {E} (pp : pubparam E) (k : N) (s : subkey E) : res unit * subkey E -> Prop :=
| R_bad : ~ stamp (pp_depth pp) (sk_t s) ->
    randomization_result pp k s (Err (stamp_error (pp_depth pp) (sk_t s)),
      SubKey (sk_t s) (g2_add (sk_g2r s) (g2_mul k (pp_g2 pp))) (sk_hpoly s) (sk_hvec s))
| R_long : forall v, node_at (pp_depth pp) (sk_t s) v -> (length (pp_hlist pp) <= length v + length (sk_hvec s))%nat ->
    let s' := added_to pp s v k in
    randomization_result pp k s (Panic P_INDEX,
      SubKey (sk_t s) (sk_g2r s') (sk_hpoly s') (sk_hvec s' ++ skipn (length (pp_hlist pp) - (length v + 1)) (sk_hvec s)))
| R_ok : forall v, node_at (pp_depth pp) (sk_t s) v -> (length v + length (sk_hvec s) < length (pp_hlist pp))%nat ->
    randomization_result pp k s (Ok tt, added_to pp s v k).
