(** SHA-512 (FIPS 180-4), the hash of crate sha2 used by src/prng.rs and
    src/sig.rs.  Words are [N] below 2^64. *)
From Verif Require Import Base.
Local Open Scope N_scope.

Definition W : N := 18446744073709551616.
Definition low64 (x : N) : N := N.land x 0xffffffffffffffff.
Definition add_w (a b : N) : N := low64 (a + b).
Definition shr (n x : N) : N := N.shiftr x n.
Definition rotr (n x : N) : N := N.lor (N.shiftr x n) (low64 (N.shiftl x (64 - n))).
Definition xor3 (a b c : N) : N := N.lxor (N.lxor a b) c.

Definition Sigma0 x := xor3 (rotr 28 x) (rotr 34 x) (rotr 39 x).
Definition Sigma1 x := xor3 (rotr 14 x) (rotr 18 x) (rotr 41 x).
Definition sigma0 x := xor3 (rotr 1 x) (rotr 8 x) (shr 7 x).
Definition sigma1 x := xor3 (rotr 19 x) (rotr 61 x) (shr 6 x).
Definition not_w (x : N) : N := N.lxor x (W - 1).
Definition Ch x y z := N.lxor (N.land x y) (N.land (not_w x) z).
Definition Maj x y z := xor3 (N.land x y) (N.land x z) (N.land y z).

Definition sha_K : list N :=
  [0x428a2f98d728ae22; 0x7137449123ef65cd; 0xb5c0fbcfec4d3b2f; 0xe9b5dba58189dbbc;
   0x3956c25bf348b538; 0x59f111f1b605d019; 0x923f82a4af194f9b; 0xab1c5ed5da6d8118;
   0xd807aa98a3030242; 0x12835b0145706fbe; 0x243185be4ee4b28c; 0x550c7dc3d5ffb4e2;
   0x72be5d74f27b896f; 0x80deb1fe3b1696b1; 0x9bdc06a725c71235; 0xc19bf174cf692694;
   0xe49b69c19ef14ad2; 0xefbe4786384f25e3; 0x0fc19dc68b8cd5b5; 0x240ca1cc77ac9c65;
   0x2de92c6f592b0275; 0x4a7484aa6ea6e483; 0x5cb0a9dcbd41fbd4; 0x76f988da831153b5;
   0x983e5152ee66dfab; 0xa831c66d2db43210; 0xb00327c898fb213f; 0xbf597fc7beef0ee4;
   0xc6e00bf33da88fc2; 0xd5a79147930aa725; 0x06ca6351e003826f; 0x142929670a0e6e70;
   0x27b70a8546d22ffc; 0x2e1b21385c26c926; 0x4d2c6dfc5ac42aed; 0x53380d139d95b3df;
   0x650a73548baf63de; 0x766a0abb3c77b2a8; 0x81c2c92e47edaee6; 0x92722c851482353b;
   0xa2bfe8a14cf10364; 0xa81a664bbc423001; 0xc24b8b70d0f89791; 0xc76c51a30654be30;
   0xd192e819d6ef5218; 0xd69906245565a910; 0xf40e35855771202a; 0x106aa07032bbd1b8;
   0x19a4c116b8d2d0c8; 0x1e376c085141ab53; 0x2748774cdf8eeb99; 0x34b0bcb5e19b48a8;
   0x391c0cb3c5c95a63; 0x4ed8aa4ae3418acb; 0x5b9cca4f7763e373; 0x682e6ff3d6b2b8a3;
   0x748f82ee5defb2fc; 0x78a5636f43172f60; 0x84c87814a1f0ab72; 0x8cc702081a6439ec;
   0x90befffa23631e28; 0xa4506cebde82bde9; 0xbef9a3f7b2c67915; 0xc67178f2e372532b;
   0xca273eceea26619c; 0xd186b8c721c0c207; 0xeada7dd6cde0eb1e; 0xf57d4f7fee6ed178;
   0x06f067aa72176fba; 0x0a637dc5a2c898a6; 0x113f9804bef90dae; 0x1b710b35131c471b;
   0x28db77f523047d84; 0x32caab7b40c72493; 0x3c9ebe0a15c9bebc; 0x431d67c49c100d4c;
   0x4cc5d4becb3e42b6; 0x597f299cfc657e2a; 0x5fcb6fab3ad6faec; 0x6c44198c4a475817].
Definition sha_H0 : list N :=
  [0x6a09e667f3bcc908; 0xbb67ae8584caa73b; 0x3c6ef372fe94f82b; 0xa54ff53a5f1d36f1;
   0x510e527fade682d1; 0x9b05688c2b3e6c1f; 0x1f83d9abfb41bd6b; 0x5be0cd19137e2179].

(** Big-endian words and bytes. *)
Definition be_word (l : bytes) : N := fold_left (fun x b => x * 256 + b) l 0.
Definition word_be (x : N) : bytes :=
  map (fun i => N.shiftr x (8 * N.of_nat (7 - i)) mod 256) (seq 0 8).

(** Cut into [n] blocks of [k] bytes. *)
Fixpoint chunks (k n : nat) (l : bytes) : list bytes :=
  match n with
  | O => []
  | S n' => firstn k l :: chunks k n' (skipn k l)
  end.

(** Padding: 0x80, zeros, 128-bit length. *)
Definition sha_pad (msg : bytes) : bytes :=
  let len := length msg in
  let zeros := ((239 - (len mod 128)) mod 128)%nat in
  msg ++ [0x80] ++ repeat 0 zeros ++ repeat 0 8 ++ word_be (8 * N.of_nat len mod W).

(** Message schedule: a sliding window of 16 words; [n] more words. *)
Fixpoint schedule (w : list N) (n : nat) : list N :=
  match n with
  | O => w
  | S n' =>
    match w with
    | [] => []
    | w0 :: tl =>
      let x := add_w (add_w (sigma1 (nth 14 w 0)) (nth 9 w 0)) (add_w (sigma0 (nth 1 w 0)) w0) in
      w0 :: schedule (tl ++ [x]) n'
    end
  end.

Definition round (s : list N) (kw : N * N) : list N :=
  match s with
  | [a; b; c; d; e; f; g; h] =>
    let t1 := add_w (add_w (add_w h (Sigma1 e)) (Ch e f g)) (add_w (fst kw) (snd kw)) in
    let t2 := add_w (Sigma0 a) (Maj a b c) in
    [add_w t1 t2; a; b; c; add_w d t1; e; f; g]
  | _ => s
  end.

Definition compress (s : list N) (block : bytes) : list N :=
  let w := schedule (map be_word (chunks 8 16 block)) 64 in
  map (fun ab => add_w (fst ab) (snd ab)) (combine s (fold_left round (combine sha_K w) s)).

Definition sha512_real (msg : bytes) : bytes :=
  let p := sha_pad msg in
  concat (map word_be (fold_left compress (chunks 128 (length p / 128) p) sha_H0)).

Lemma word_be_len x : length (word_be x) = 8%nat.
Proof. reflexivity. Qed.

Lemma word_be_bytes x : are_bytes (word_be x).
Proof.
  unfold word_be, are_bytes. apply Forall_forall. intros b Hb. apply in_map_iff in Hb as (i & <- & _).
  apply N.mod_lt. discriminate.
Qed.

Lemma round_len s kw : length s = 8%nat -> length (round s kw) = 8%nat.
Proof. intros H. do 9 (destruct s as [|? s]; try discriminate). reflexivity. Qed.

Lemma rounds_len l : forall s, length s = 8%nat -> length (fold_left round l s) = 8%nat.
Proof. induction l; intros s H; cbn [fold_left]; auto using round_len. Qed.

Lemma compress_len s b : length s = 8%nat -> length (compress s b) = 8%nat.
Proof.
  intros H. unfold compress. rewrite map_length, combine_length, rounds_len, H by exact H. reflexivity.
Qed.

Lemma blocks_len l : forall s, length s = 8%nat -> length (fold_left compress l s) = 8%nat.
Proof. induction l; intros s H; cbn [fold_left]; auto using compress_len. Qed.

Lemma concat_words_len l : length (concat (map word_be l)) = (8 * length l)%nat.
Proof. induction l as [|x l IH]; cbn [map concat length]; [reflexivity|]. rewrite app_length, IH, word_be_len. lia. Qed.

Lemma sha512_real_len msg : length (sha512_real msg) = 64%nat.
Proof. unfold sha512_real. rewrite concat_words_len, blocks_len; reflexivity. Qed.

Lemma sha512_real_bytes msg : are_bytes (sha512_real msg).
Proof.
  unfold sha512_real. set (l := fold_left _ _ _). clearbody l.
  induction l as [|x l IH]; cbn [map concat]; [constructor|]. apply Forall_app. split; [apply word_be_bytes|exact IH].
Qed.

(** Known answers; the padding takes 1, 2 and 3 blocks. *)
Example sha512_empty : sha512_real [] =
  [207; 131; 225; 53; 126; 239; 184; 189; 241; 84; 40; 80; 214; 109; 128; 7; 214; 32; 228; 5; 11; 87; 21; 220; 131; 244; 169; 33; 211; 108; 233; 206; 71; 208; 209; 60; 93; 133; 242; 176; 255; 131; 24; 210; 135; 126; 236; 47; 99; 185; 49; 189; 71; 65; 122; 129; 165; 56; 50; 122; 249; 39; 218; 62].
Proof. vm_compute. reflexivity. Qed.
Example sha512_abc : sha512_real [97; 98; 99] =
  [221; 175; 53; 161; 147; 97; 122; 186; 204; 65; 115; 73; 174; 32; 65; 49; 18; 230; 250; 78; 137; 169; 126; 162; 10; 158; 238; 230; 75; 85; 211; 154; 33; 146; 153; 42; 39; 79; 193; 168; 54; 186; 60; 35; 163; 254; 235; 189; 69; 77; 68; 35; 100; 60; 232; 14; 42; 154; 201; 79; 165; 76; 164; 159].
Proof. vm_compute. reflexivity. Qed.
Example sha512_112 : sha512_real [0; 1; 2; 3; 4; 5; 6; 7; 8; 9; 10; 11; 12; 13; 14; 15; 16; 17; 18; 19; 20; 21; 22; 23; 24; 25; 26; 27; 28; 29; 30; 31; 32; 33; 34; 35; 36; 37; 38; 39; 40; 41; 42; 43; 44; 45; 46; 47; 48; 49; 50; 51; 52; 53; 54; 55; 56; 57; 58; 59; 60; 61; 62; 63; 64; 65; 66; 67; 68; 69; 70; 71; 72; 73; 74; 75; 76; 77; 78; 79; 80; 81; 82; 83; 84; 85; 86; 87; 88; 89; 90; 91; 92; 93; 94; 95; 96; 97; 98; 99; 100; 101; 102; 103; 104; 105; 106; 107; 108; 109; 110; 111] =
  [197; 251; 215; 49; 209; 157; 42; 225; 24; 15; 0; 27; 231; 44; 44; 26; 171; 161; 215; 176; 148; 179; 116; 136; 128; 226; 69; 147; 184; 225; 23; 167; 80; 225; 28; 27; 216; 103; 204; 47; 150; 218; 206; 140; 139; 116; 171; 210; 213; 196; 242; 54; 190; 68; 78; 119; 211; 13; 25; 22; 23; 64; 112; 185].
Proof. vm_compute. reflexivity. Qed.
Example sha512_111 : sha512_real [0; 1; 2; 3; 4; 5; 6; 7; 8; 9; 10; 11; 12; 13; 14; 15; 16; 17; 18; 19; 20; 21; 22; 23; 24; 25; 26; 27; 28; 29; 30; 31; 32; 33; 34; 35; 36; 37; 38; 39; 40; 41; 42; 43; 44; 45; 46; 47; 48; 49; 50; 51; 52; 53; 54; 55; 56; 57; 58; 59; 60; 61; 62; 63; 64; 65; 66; 67; 68; 69; 70; 71; 72; 73; 74; 75; 76; 77; 78; 79; 80; 81; 82; 83; 84; 85; 86; 87; 88; 89; 90; 91; 92; 93; 94; 95; 96; 97; 98; 99; 100; 101; 102; 103; 104; 105; 106; 107; 108; 109; 110] =
  [161; 161; 17; 68; 155; 25; 141; 155; 31; 83; 139; 173; 127; 63; 193; 2; 43; 58; 91; 26; 94; 144; 160; 188; 134; 13; 232; 81; 39; 70; 203; 195; 21; 153; 230; 200; 52; 222; 58; 50; 53; 50; 122; 240; 181; 31; 245; 123; 247; 172; 241; 151; 74; 115; 1; 77; 156; 57; 83; 129; 46; 220; 124; 141].
Proof. vm_compute. reflexivity. Qed.
Example sha512_250 : sha512_real [0; 1; 2; 3; 4; 5; 6; 7; 8; 9; 10; 11; 12; 13; 14; 15; 16; 17; 18; 19; 20; 21; 22; 23; 24; 25; 26; 27; 28; 29; 30; 31; 32; 33; 34; 35; 36; 37; 38; 39; 40; 41; 42; 43; 44; 45; 46; 47; 48; 49; 50; 51; 52; 53; 54; 55; 56; 57; 58; 59; 60; 61; 62; 63; 64; 65; 66; 67; 68; 69; 70; 71; 72; 73; 74; 75; 76; 77; 78; 79; 80; 81; 82; 83; 84; 85; 86; 87; 88; 89; 90; 91; 92; 93; 94; 95; 96; 97; 98; 99; 100; 101; 102; 103; 104; 105; 106; 107; 108; 109; 110; 111; 112; 113; 114; 115; 116; 117; 118; 119; 120; 121; 122; 123; 124; 125; 126; 127; 128; 129; 130; 131; 132; 133; 134; 135; 136; 137; 138; 139; 140; 141; 142; 143; 144; 145; 146; 147; 148; 149; 150; 151; 152; 153; 154; 155; 156; 157; 158; 159; 160; 161; 162; 163; 164; 165; 166; 167; 168; 169; 170; 171; 172; 173; 174; 175; 176; 177; 178; 179; 180; 181; 182; 183; 184; 185; 186; 187; 188; 189; 190; 191; 192; 193; 194; 195; 196; 197; 198; 199; 200; 201; 202; 203; 204; 205; 206; 207; 208; 209; 210; 211; 212; 213; 214; 215; 216; 217; 218; 219; 220; 221; 222; 223; 224; 225; 226; 227; 228; 229; 230; 231; 232; 233; 234; 235; 236; 237; 238; 239; 240; 241; 242; 243; 244; 245; 246; 247; 248; 249] =
  [220; 248; 35; 7; 25; 80; 53; 166; 104; 9; 117; 20; 255; 26; 16; 224; 191; 14; 128; 43; 73; 69; 167; 2; 210; 225; 122; 246; 222; 29; 61; 155; 164; 150; 22; 223; 209; 109; 128; 32; 84; 181; 33; 156; 163; 120; 132; 56; 94; 135; 167; 19; 180; 239; 92; 127; 203; 105; 102; 28; 127; 86; 213; 227].
Proof. vm_compute. reflexivity. Qed.
