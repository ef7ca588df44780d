(** Model of pixel-python/param.py: the parameters and the file param_bin.txt.  The seed (64
    bytes in the source), the ciphersuite byte and the depth d are arguments; [h2c key cs] is
    map2curve_osswu2(key, ciphersuite) of bls_sigs_ref, a dependency.  [None] is a raised
    exception; the comparison of the file with the one of the generator is left out. *)
From Coq Require Import String.
From Verif Require Import Base Env Hkdf SubKey Python.
Local Open Scope N_scope.

(** param.py 41-46: seed *)
Definition PARAM_SEED : bytes :=
  [0x6a; 0x09; 0xe6; 0x67; 0xf3; 0xbc; 0xc9; 0x08; 0xbb; 0x67; 0xae; 0x85; 0x84; 0xca; 0xa7; 0x3b;
   0x3c; 0x6e; 0xf3; 0x72; 0xfe; 0x94; 0xf8; 0x2b; 0xa5; 0x4f; 0xf5; 0x3a; 0x5f; 0x1d; 0x36; 0xf1;
   0x51; 0x0e; 0x52; 0x7f; 0xad; 0xe6; 0x82; 0xd1; 0x9b; 0x05; 0x68; 0x8c; 0x2b; 0x3e; 0x6c; 0x1f;
   0x1f; 0x83; 0xd9; 0xab; 0xfb; 0x41; 0xbd; 0x6b; 0x5b; 0xe0; 0xcd; 0x19; 0x13; 0x7e; 0x21; 0x79].

(** I2OSP(i, 1) (ValueError if i is too large). *)
Definition py_i2osp1 (i : nat) : option bytes := if (i <? 256)%nat then Some [N.of_nat i] else None.

(** param.py 62-69: the loop over range(d+1); [n] rounds from [i] on. *)
Fixpoint py_param_hlist {E} (h2c : bytes -> bytes -> G1 E) (m cs : bytes) (i n : nat) : option (list (G1 E)) :=
  match n with
  | O => Some []
  | S n' =>
    let? b := py_i2osp1 i in
    let? key := hkdf_expand (sha512 E) m (str "H2G_h" ++ b) 32 in
    let? l := py_param_hlist h2c m cs (S i) n' in
    Some (h2c key cs :: l)
  end.

(** param.py 48-79: the parameters and the contents of the file. *)
Definition py_param {E} (h2c : bytes -> bytes -> G1 E) (seed : bytes) (cs : N) (d : nat) : option (pubparam E * bytes) :=
  let m := hkdf_extract (sha512 E) (str "Pixel public parameter generation") seed in
  let? key := hkdf_expand (sha512 E) m (str "H2G_h") 32 in
  let h := h2c key [cs] in
  let? hlist := py_param_hlist h2c m [cs] 0 (d + 1) in
  let? dbyte := py_chr d in
  Some (PubParam d cs g2_one h hlist,
        [cs] ++ dbyte ++ g2_enc false (@g2_one E) ++ g1_enc false h ++ concat (map (g1_enc false) hlist)).

(** The module constants: d = 32, ciphersuite b"\0". *)
Definition py_default_param {E} (h2c : bytes -> bytes -> G1 E) : option (pubparam E * bytes) :=
  py_param h2c PARAM_SEED 0 32.
