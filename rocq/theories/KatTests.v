(** Model of the _kat tests of src/test/serdes.rs (lines 250-712): the decoders on fixed strings.
    In the names of the strings G1 and G2 are the groups of the curve library, so that a
    G1 string is read as a PixelG2 element and a G2 string as a PixelG1 element. *)
From Verif Require Import Base Env SubKey Keys Sig IO Serdes Programs Tests.
Local Open Scope N_scope.

(** serdes.rs 363. *)
Definition INVALID_CIPHERSUITE : list N := [0x0f; 0xff].

(** serdes.rs 250-348 and 414-553: the strings. *)
Definition VALID_G1_ZERO_COM : bytes :=
  [0xc0; 0x00; 0x00; 0x00; 0x00; 0x00; 0x00; 0x00; 0x00; 0x00; 0x00; 0x00; 0x00; 0x00; 0x00; 0x00;
   0x00; 0x00; 0x00; 0x00; 0x00; 0x00; 0x00; 0x00; 0x00; 0x00; 0x00; 0x00; 0x00; 0x00; 0x00; 0x00;
   0x00; 0x00; 0x00; 0x00; 0x00; 0x00; 0x00; 0x00; 0x00; 0x00; 0x00; 0x00; 0x00; 0x00; 0x00; 0x00].
Definition VALID_G1_ZERO_UNCOM : bytes :=
  [0x40; 0x00; 0x00; 0x00; 0x00; 0x00; 0x00; 0x00; 0x00; 0x00; 0x00; 0x00; 0x00; 0x00; 0x00; 0x00;
   0x00; 0x00; 0x00; 0x00; 0x00; 0x00; 0x00; 0x00; 0x00; 0x00; 0x00; 0x00; 0x00; 0x00; 0x00; 0x00;
   0x00; 0x00; 0x00; 0x00; 0x00; 0x00; 0x00; 0x00; 0x00; 0x00; 0x00; 0x00; 0x00; 0x00; 0x00; 0x00;
   0x00; 0x00; 0x00; 0x00; 0x00; 0x00; 0x00; 0x00; 0x00; 0x00; 0x00; 0x00; 0x00; 0x00; 0x00; 0x00;
   0x00; 0x00; 0x00; 0x00; 0x00; 0x00; 0x00; 0x00; 0x00; 0x00; 0x00; 0x00; 0x00; 0x00; 0x00; 0x00;
   0x00; 0x00; 0x00; 0x00; 0x00; 0x00; 0x00; 0x00; 0x00; 0x00; 0x00; 0x00; 0x00; 0x00; 0x00; 0x00].
Definition VALID_G1_COM : bytes :=
  [0xb8; 0xd2; 0xc4; 0x1d; 0x7a; 0xe7; 0xd3; 0x53; 0x9d; 0x81; 0x52; 0x82; 0x85; 0x28; 0x50; 0x60;
   0x5c; 0xa3; 0xcc; 0x01; 0xd6; 0x93; 0x9b; 0x0e; 0x2a; 0x13; 0x2b; 0xd0; 0x3a; 0x5a; 0xaf; 0xcb;
   0xd7; 0x92; 0xb5; 0xe1; 0x85; 0xb4; 0xbe; 0x72; 0xe9; 0xad; 0xd9; 0xe5; 0x77; 0xc1; 0x76; 0x66].
Definition INVALID_G1_ZERO_DATA_1 : bytes :=
  [0xc0; 0x10; 0x00; 0x00; 0x00; 0x00; 0x00; 0x00; 0x00; 0x00; 0x00; 0x00; 0x00; 0x00; 0x00; 0x00;
   0x00; 0x00; 0x00; 0x00; 0x00; 0x00; 0x00; 0x00; 0x00; 0x00; 0x00; 0x00; 0x00; 0x00; 0x00; 0x00;
   0x00; 0x00; 0x00; 0x00; 0x00; 0x00; 0x00; 0x00; 0x00; 0x00; 0x00; 0x00; 0x00; 0x00; 0x00; 0x00].
Definition INVALID_G1_ZERO_DATA_2 : bytes :=
  [0x40; 0x00; 0x00; 0x00; 0x01; 0x00; 0x00; 0x00; 0x00; 0x00; 0x00; 0x00; 0x00; 0x00; 0x00; 0x00;
   0x00; 0x00; 0x00; 0x00; 0x00; 0x00; 0x00; 0x00; 0x00; 0x00; 0x00; 0x00; 0x00; 0x00; 0x00; 0x00;
   0x00; 0x00; 0x00; 0x00; 0x00; 0x00; 0x00; 0x00; 0x00; 0x00; 0x00; 0x00; 0x00; 0x00; 0x00; 0x00;
   0x00; 0x00; 0x00; 0x00; 0x00; 0x00; 0x00; 0x00; 0x00; 0x00; 0x00; 0x00; 0x00; 0x00; 0x00; 0x00;
   0x00; 0x00; 0x00; 0x00; 0x00; 0x00; 0x00; 0x00; 0x00; 0x00; 0x00; 0x00; 0x00; 0x00; 0x00; 0x00;
   0x00; 0x00; 0x00; 0x00; 0x00; 0x00; 0x00; 0x00; 0x00; 0x00; 0x00; 0x00; 0x00; 0x00; 0x00; 0x00].
Definition INVALID_G1_ZERO_COM : bytes :=
  [0x40; 0x00; 0x00; 0x00; 0x00; 0x00; 0x00; 0x00; 0x00; 0x00; 0x00; 0x00; 0x00; 0x00; 0x00; 0x00;
   0x00; 0x00; 0x00; 0x00; 0x00; 0x00; 0x00; 0x00; 0x00; 0x00; 0x00; 0x00; 0x00; 0x00; 0x00; 0x00;
   0x00; 0x00; 0x00; 0x00; 0x00; 0x00; 0x00; 0x00; 0x00; 0x00; 0x00; 0x00; 0x00; 0x00; 0x00; 0x00].
Definition INVALID_G1_ZERO_COM_LEN : bytes :=
  [0xc0; 0x00; 0x00; 0x00; 0x00; 0x00; 0x00; 0x00; 0x00; 0x00; 0x00; 0x00; 0x00; 0x00; 0x00; 0x00;
   0x00; 0x00; 0x00; 0x00; 0x00; 0x00; 0x00; 0x00; 0x00; 0x00; 0x00; 0x00; 0x00; 0x00; 0x00; 0x00;
   0x00; 0x00; 0x00; 0x00; 0x00; 0x00; 0x00; 0x00; 0x00; 0x00; 0x00; 0x00; 0x00; 0x00; 0x00].
Definition INVALID_G1_ZERO_UNCOM_LEN : bytes :=
  [0x40; 0x00; 0x00; 0x00; 0x00; 0x00; 0x00; 0x00; 0x00; 0x00; 0x00; 0x00; 0x00; 0x00; 0x00; 0x00;
   0x00; 0x00; 0x00; 0x00; 0x00; 0x00; 0x00; 0x00; 0x00; 0x00; 0x00; 0x00; 0x00; 0x00; 0x00; 0x00;
   0x00; 0x00; 0x00; 0x00; 0x00; 0x00; 0x00; 0x00; 0x00; 0x00; 0x00; 0x00; 0x00; 0x00; 0x00; 0x00;
   0x00; 0x00; 0x00; 0x00; 0x00; 0x00; 0x00; 0x00; 0x00; 0x00; 0x00; 0x00; 0x00; 0x00; 0x00; 0x00;
   0x00; 0x00; 0x00; 0x00; 0x00; 0x00; 0x00; 0x00; 0x00; 0x00; 0x00; 0x00; 0x00; 0x00; 0x00; 0x00;
   0x00; 0x00; 0x00; 0x00; 0x00; 0x00; 0x00; 0x00; 0x00; 0x00; 0x00; 0x00; 0x00; 0x00; 0x00].
Definition INVALID_G1_DATA : bytes :=
  [0xb8; 0xd2; 0xc4; 0x1d; 0x7a; 0xe7; 0xd3; 0x53; 0x9d; 0x81; 0x52; 0x82; 0x85; 0x28; 0x50; 0x60;
   0x5c; 0xa4; 0xcc; 0x01; 0xd6; 0x93; 0x9b; 0x0e; 0x2a; 0x13; 0x2b; 0xd0; 0x3a; 0x5a; 0xaf; 0xcb;
   0xd7; 0x92; 0xb5; 0xe1; 0x85; 0xb4; 0xbe; 0x72; 0xe9; 0xad; 0xd9; 0xe5; 0x77; 0xc1; 0x76; 0x66].
Definition INVALID_G1_LEN : bytes :=
  [0xb8; 0xd2; 0xc4; 0x1d; 0x7a; 0xe7; 0xd3; 0x53; 0x9d; 0x81; 0x52; 0x82; 0x85; 0x28; 0x50; 0x60;
   0x5c; 0xa3; 0xcc; 0x01; 0xd6; 0x93; 0x9b; 0x0e; 0x2a; 0x13; 0x2b; 0xd0; 0x3a; 0x5a; 0xaf; 0xcb;
   0xd7; 0x92; 0xb5; 0xe1; 0x85; 0xb4; 0xbe; 0x72; 0xe9; 0xad; 0xd9; 0xe5; 0x77; 0xc1; 0x76].
Definition INVALID_G1_COM : bytes :=
  [0x28; 0xd2; 0xc4; 0x1d; 0x7a; 0xe7; 0xd3; 0x53; 0x9d; 0x81; 0x52; 0x82; 0x85; 0x28; 0x50; 0x60;
   0x5c; 0xa3; 0xcc; 0x01; 0xd6; 0x93; 0x9b; 0x0e; 0x2a; 0x13; 0x2b; 0xd0; 0x3a; 0x5a; 0xaf; 0xcb;
   0xd7; 0x92; 0xb5; 0xe1; 0x85; 0xb4; 0xbe; 0x72; 0xe9; 0xad; 0xd9; 0xe5; 0x77; 0xc1; 0x76; 0x66].
Definition VALID_G2_ZERO_COM : bytes :=
  [0xc0; 0x00; 0x00; 0x00; 0x00; 0x00; 0x00; 0x00; 0x00; 0x00; 0x00; 0x00; 0x00; 0x00; 0x00; 0x00;
   0x00; 0x00; 0x00; 0x00; 0x00; 0x00; 0x00; 0x00; 0x00; 0x00; 0x00; 0x00; 0x00; 0x00; 0x00; 0x00;
   0x00; 0x00; 0x00; 0x00; 0x00; 0x00; 0x00; 0x00; 0x00; 0x00; 0x00; 0x00; 0x00; 0x00; 0x00; 0x00;
   0x00; 0x00; 0x00; 0x00; 0x00; 0x00; 0x00; 0x00; 0x00; 0x00; 0x00; 0x00; 0x00; 0x00; 0x00; 0x00;
   0x00; 0x00; 0x00; 0x00; 0x00; 0x00; 0x00; 0x00; 0x00; 0x00; 0x00; 0x00; 0x00; 0x00; 0x00; 0x00;
   0x00; 0x00; 0x00; 0x00; 0x00; 0x00; 0x00; 0x00; 0x00; 0x00; 0x00; 0x00; 0x00; 0x00; 0x00; 0x00].
Definition VALID_G2_ZERO_UNCOM : bytes :=
  [0x40; 0x00; 0x00; 0x00; 0x00; 0x00; 0x00; 0x00; 0x00; 0x00; 0x00; 0x00; 0x00; 0x00; 0x00; 0x00;
   0x00; 0x00; 0x00; 0x00; 0x00; 0x00; 0x00; 0x00; 0x00; 0x00; 0x00; 0x00; 0x00; 0x00; 0x00; 0x00;
   0x00; 0x00; 0x00; 0x00; 0x00; 0x00; 0x00; 0x00; 0x00; 0x00; 0x00; 0x00; 0x00; 0x00; 0x00; 0x00;
   0x00; 0x00; 0x00; 0x00; 0x00; 0x00; 0x00; 0x00; 0x00; 0x00; 0x00; 0x00; 0x00; 0x00; 0x00; 0x00;
   0x00; 0x00; 0x00; 0x00; 0x00; 0x00; 0x00; 0x00; 0x00; 0x00; 0x00; 0x00; 0x00; 0x00; 0x00; 0x00;
   0x00; 0x00; 0x00; 0x00; 0x00; 0x00; 0x00; 0x00; 0x00; 0x00; 0x00; 0x00; 0x00; 0x00; 0x00; 0x00;
   0x00; 0x00; 0x00; 0x00; 0x00; 0x00; 0x00; 0x00; 0x00; 0x00; 0x00; 0x00; 0x00; 0x00; 0x00; 0x00;
   0x00; 0x00; 0x00; 0x00; 0x00; 0x00; 0x00; 0x00; 0x00; 0x00; 0x00; 0x00; 0x00; 0x00; 0x00; 0x00;
   0x00; 0x00; 0x00; 0x00; 0x00; 0x00; 0x00; 0x00; 0x00; 0x00; 0x00; 0x00; 0x00; 0x00; 0x00; 0x00;
   0x00; 0x00; 0x00; 0x00; 0x00; 0x00; 0x00; 0x00; 0x00; 0x00; 0x00; 0x00; 0x00; 0x00; 0x00; 0x00;
   0x00; 0x00; 0x00; 0x00; 0x00; 0x00; 0x00; 0x00; 0x00; 0x00; 0x00; 0x00; 0x00; 0x00; 0x00; 0x00;
   0x00; 0x00; 0x00; 0x00; 0x00; 0x00; 0x00; 0x00; 0x00; 0x00; 0x00; 0x00; 0x00; 0x00; 0x00; 0x00].
Definition VALID_G2_COM : bytes :=
  [0x90; 0x9c; 0xd3; 0x34; 0xa9; 0xd0; 0xcc; 0x8e; 0x7b; 0x30; 0x04; 0x98; 0x2b; 0x92; 0x8a; 0xce;
   0x41; 0x07; 0xfb; 0x7e; 0xf5; 0x21; 0x05; 0x74; 0x26; 0x6d; 0x5a; 0x84; 0x35; 0x5a; 0xe7; 0x64;
   0x7d; 0x49; 0x1a; 0x1a; 0xcc; 0x5e; 0x3a; 0xd3; 0x3a; 0x8c; 0xce; 0x4f; 0x47; 0x09; 0xb7; 0xf6;
   0x0e; 0x7f; 0xd9; 0xb1; 0xcd; 0x92; 0xd8; 0x9d; 0x96; 0x31; 0x1f; 0x4c; 0x48; 0x6c; 0x35; 0xd0;
   0xe7; 0x26; 0x17; 0xd9; 0x16; 0x06; 0x1e; 0xa7; 0xae; 0xd7; 0xcd; 0x48; 0x82; 0x96; 0x9e; 0xe5;
   0xdc; 0xae; 0x56; 0x8b; 0x7f; 0x1a; 0x55; 0x41; 0x1b; 0xda; 0x7b; 0x2e; 0x4b; 0x66; 0xb3; 0x8d].
Definition INVALID_G2_ZERO_DATA_1 : bytes :=
  [0xc0; 0x10; 0x00; 0x00; 0x00; 0x00; 0x00; 0x00; 0x00; 0x00; 0x00; 0x00; 0x00; 0x00; 0x00; 0x00;
   0x00; 0x00; 0x00; 0x00; 0x00; 0x00; 0x00; 0x00; 0x00; 0x00; 0x00; 0x00; 0x00; 0x00; 0x00; 0x00;
   0x00; 0x00; 0x00; 0x00; 0x00; 0x00; 0x00; 0x00; 0x00; 0x00; 0x00; 0x00; 0x00; 0x00; 0x00; 0x00;
   0x00; 0x00; 0x00; 0x00; 0x00; 0x00; 0x00; 0x00; 0x00; 0x00; 0x00; 0x00; 0x00; 0x00; 0x00; 0x00;
   0x00; 0x00; 0x00; 0x00; 0x00; 0x00; 0x00; 0x00; 0x00; 0x00; 0x00; 0x00; 0x00; 0x00; 0x00; 0x00;
   0x00; 0x00; 0x00; 0x00; 0x00; 0x00; 0x00; 0x00; 0x00; 0x00; 0x00; 0x00; 0x00; 0x00; 0x00; 0x00].
Definition INVALID_G2_ZERO_DATA_2 : bytes :=
  [0x40; 0x00; 0x00; 0x00; 0x00; 0x00; 0x00; 0x00; 0x00; 0x00; 0x00; 0x00; 0x00; 0x00; 0x00; 0x00;
   0x00; 0x00; 0x00; 0x00; 0x00; 0x00; 0x00; 0x00; 0x00; 0x00; 0x00; 0x00; 0x00; 0x00; 0x00; 0x00;
   0x00; 0x00; 0x00; 0x00; 0x00; 0x00; 0x00; 0x00; 0x00; 0x00; 0x00; 0x00; 0x00; 0x00; 0x00; 0x00;
   0x00; 0x00; 0x00; 0x00; 0x00; 0x00; 0x10; 0x00; 0x00; 0x00; 0x00; 0x00; 0x00; 0x00; 0x00; 0x00;
   0x00; 0x00; 0x00; 0x00; 0x00; 0x00; 0x00; 0x00; 0x00; 0x00; 0x00; 0x00; 0x00; 0x00; 0x00; 0x00;
   0x00; 0x00; 0x00; 0x00; 0x00; 0x00; 0x00; 0x00; 0x00; 0x00; 0x00; 0x00; 0x00; 0x00; 0x00; 0x00;
   0x00; 0x00; 0x00; 0x00; 0x00; 0x00; 0x00; 0x00; 0x00; 0x00; 0x00; 0x00; 0x00; 0x00; 0x00; 0x00;
   0x00; 0x00; 0x00; 0x00; 0x00; 0x00; 0x00; 0x00; 0x00; 0x00; 0x00; 0x00; 0x00; 0x00; 0x00; 0x00;
   0x00; 0x00; 0x00; 0x00; 0x00; 0x00; 0x00; 0x00; 0x00; 0x00; 0x00; 0x00; 0x00; 0x00; 0x00; 0x00;
   0x00; 0x00; 0x00; 0x00; 0x00; 0x00; 0x00; 0x00; 0x00; 0x00; 0x00; 0x00; 0x00; 0x00; 0x00; 0x00;
   0x00; 0x00; 0x00; 0x00; 0x00; 0x00; 0x00; 0x00; 0x00; 0x00; 0x00; 0x00; 0x00; 0x00; 0x00; 0x00;
   0x00; 0x00; 0x00; 0x00; 0x00; 0x00; 0x00; 0x00; 0x00; 0x00; 0x00; 0x00; 0x00; 0x00; 0x00; 0x00].
Definition INVALID_G2_ZERO_COM : bytes :=
  [0x40; 0x10; 0x00; 0x00; 0x00; 0x00; 0x00; 0x00; 0x00; 0x00; 0x00; 0x00; 0x00; 0x00; 0x00; 0x00;
   0x00; 0x00; 0x00; 0x00; 0x00; 0x00; 0x00; 0x00; 0x00; 0x00; 0x00; 0x00; 0x00; 0x00; 0x00; 0x00;
   0x00; 0x00; 0x00; 0x00; 0x00; 0x00; 0x00; 0x00; 0x00; 0x00; 0x00; 0x00; 0x00; 0x00; 0x00; 0x00;
   0x00; 0x00; 0x00; 0x00; 0x00; 0x00; 0x00; 0x00; 0x00; 0x00; 0x00; 0x00; 0x00; 0x00; 0x00; 0x00;
   0x00; 0x00; 0x00; 0x00; 0x00; 0x00; 0x00; 0x00; 0x00; 0x00; 0x00; 0x00; 0x00; 0x00; 0x00; 0x00;
   0x00; 0x00; 0x00; 0x00; 0x00; 0x00; 0x00; 0x00; 0x00; 0x00; 0x00; 0x00; 0x00; 0x00; 0x00; 0x00].
Definition INVALID_G2_ZERO_COM_LEN : bytes :=
  [0x40; 0x00; 0x00; 0x00; 0x00; 0x00; 0x00; 0x00; 0x00; 0x00; 0x00; 0x00; 0x00; 0x00; 0x00; 0x00;
   0x00; 0x00; 0x00; 0x00; 0x00; 0x00; 0x00; 0x00; 0x00; 0x00; 0x00; 0x00; 0x00; 0x00; 0x00; 0x00;
   0x00; 0x00; 0x00; 0x00; 0x00; 0x00; 0x00; 0x00; 0x00; 0x00; 0x00; 0x00; 0x00; 0x00; 0x00; 0x00;
   0x00; 0x00; 0x00; 0x00; 0x00; 0x00; 0x00; 0x00; 0x00; 0x00; 0x00; 0x00; 0x00; 0x00; 0x00; 0x00;
   0x00; 0x00; 0x00; 0x00; 0x00; 0x00; 0x00; 0x00; 0x00; 0x00; 0x00; 0x00; 0x00; 0x00; 0x00; 0x00;
   0x00; 0x00; 0x00; 0x00; 0x00; 0x00; 0x00; 0x00; 0x00; 0x00; 0x00; 0x00; 0x00; 0x00; 0x00; 0x00;
   0x00; 0x00; 0x00; 0x00; 0x00; 0x00; 0x00; 0x00; 0x00; 0x00; 0x00; 0x00; 0x00; 0x00; 0x00; 0x00;
   0x00; 0x00; 0x00; 0x00; 0x00; 0x00; 0x00; 0x00; 0x00; 0x00; 0x00; 0x00; 0x00; 0x00; 0x00; 0x00;
   0x00; 0x00; 0x00; 0x00; 0x00; 0x00; 0x00; 0x00; 0x00; 0x00; 0x00; 0x00; 0x00; 0x00; 0x00; 0x00;
   0x00; 0x00; 0x00; 0x00; 0x00; 0x00; 0x00; 0x00; 0x00; 0x00; 0x00; 0x00; 0x00; 0x00; 0x00; 0x00;
   0x00; 0x00; 0x00; 0x00; 0x00; 0x00; 0x00; 0x00; 0x00; 0x00; 0x00; 0x00; 0x00; 0x00; 0x00; 0x00;
   0x00; 0x00; 0x00; 0x00; 0x00; 0x00; 0x00; 0x00; 0x00; 0x00; 0x00; 0x00; 0x00; 0x00; 0x00].
Definition INVALID_G2_ZERO_UNCOM_LEN : bytes :=
  [0x40; 0x00; 0x00; 0x00; 0x00; 0x00; 0x00; 0x00; 0x00; 0x00; 0x00; 0x00; 0x00; 0x00; 0x00; 0x00;
   0x00; 0x00; 0x00; 0x00; 0x00; 0x00; 0x00; 0x00; 0x00; 0x00; 0x00; 0x00; 0x00; 0x00; 0x00; 0x00;
   0x00; 0x00; 0x00; 0x00; 0x00; 0x00; 0x00; 0x00; 0x00; 0x00; 0x00; 0x00; 0x00; 0x00; 0x00; 0x00;
   0x00; 0x00; 0x00; 0x00; 0x00; 0x00; 0x00; 0x00; 0x00; 0x00; 0x00; 0x00; 0x00; 0x00; 0x00; 0x00;
   0x00; 0x00; 0x00; 0x00; 0x00; 0x00; 0x00; 0x00; 0x00; 0x00; 0x00; 0x00; 0x00; 0x00; 0x00; 0x00;
   0x00; 0x00; 0x00; 0x00; 0x00; 0x00; 0x00; 0x00; 0x00; 0x00; 0x00; 0x00; 0x00; 0x00; 0x00].
Definition INVALID_G2_DATA : bytes :=
  [0x90; 0x9c; 0xd3; 0x34; 0xa9; 0xd0; 0xcc; 0x8e; 0x7b; 0x30; 0x04; 0x98; 0x2b; 0x92; 0x8a; 0xce;
   0x41; 0x07; 0xfb; 0x7e; 0xf5; 0x21; 0x05; 0x74; 0x26; 0x6d; 0x5a; 0x84; 0x35; 0x5a; 0xe7; 0x64;
   0x7d; 0x49; 0x1a; 0x1a; 0xcc; 0x5e; 0x3a; 0xd3; 0x3a; 0x8c; 0xce; 0x4f; 0x47; 0x09; 0xb7; 0xf6;
   0x0e; 0x7f; 0xd9; 0xb1; 0xcd; 0x92; 0xd8; 0x9d; 0x96; 0x31; 0x1f; 0x4c; 0x48; 0x6c; 0x35; 0xd0;
   0xe7; 0x26; 0x17; 0xd9; 0x16; 0x06; 0x1e; 0xa7; 0xae; 0xd7; 0xcd; 0x48; 0x82; 0x96; 0x9e; 0xe5;
   0xdc; 0xae; 0x56; 0x8b; 0x7f; 0x1a; 0x55; 0x41; 0x1b; 0xda; 0x7b; 0x2e; 0x4b; 0x66; 0xb3; 0x9d].
Definition INVALID_G2_LEN : bytes :=
  [0x90; 0x9c; 0xd3; 0x34; 0xa9; 0xd0; 0xcc; 0x8e; 0x7b; 0x30; 0x04; 0x98; 0x2b; 0x92; 0x8a; 0xce;
   0x41; 0x07; 0xfb; 0x7e; 0xf5; 0x21; 0x05; 0x74; 0x26; 0x6d; 0x5a; 0x84; 0x35; 0x5a; 0xe7; 0x64;
   0x7d; 0x49; 0x1a; 0x1a; 0xcc; 0x5e; 0x3a; 0xd3; 0x3a; 0x8c; 0xce; 0x4f; 0x47; 0x09; 0xb7; 0xf6;
   0x0e; 0x7f; 0xd9; 0xb1; 0xcd; 0x92; 0xd8; 0x9d; 0x96; 0x31; 0x1f; 0x4c; 0x48; 0x6c; 0x35; 0xd0;
   0xe7; 0x26; 0x17; 0xd9; 0x16; 0x06; 0x1e; 0xa7; 0xae; 0xd7; 0xcd; 0x48; 0x82; 0x96; 0x9e; 0xe5;
   0xdc; 0xae; 0x56; 0x8b; 0x7f; 0x1a; 0x55; 0x41; 0x1b; 0xda; 0x7b; 0x2e; 0x4b; 0x66; 0xb3].
Definition INVALID_G2_COM : bytes :=
  [0x10; 0x9c; 0xd3; 0x34; 0xa9; 0xd0; 0xcc; 0x8e; 0x7b; 0x30; 0x04; 0x98; 0x2b; 0x92; 0x8a; 0xce;
   0x41; 0x07; 0xfb; 0x7e; 0xf5; 0x21; 0x05; 0x74; 0x26; 0x6d; 0x5a; 0x84; 0x35; 0x5a; 0xe7; 0x64;
   0x7d; 0x49; 0x1a; 0x1a; 0xcc; 0x5e; 0x3a; 0xd3; 0x3a; 0x8c; 0xce; 0x4f; 0x47; 0x09; 0xb7; 0xf6;
   0x0e; 0x7f; 0xd9; 0xb1; 0xcd; 0x92; 0xd8; 0x9d; 0x96; 0x31; 0x1f; 0x4c; 0x48; 0x6c; 0x35; 0xd0;
   0xe7; 0x26; 0x17; 0xd9; 0x16; 0x06; 0x1e; 0xa7; 0xae; 0xd7; 0xcd; 0x48; 0x82; 0x96; 0x9e; 0xe5;
   0xdc; 0xae; 0x56; 0x8b; 0x7f; 0x1a; 0x55; 0x41; 0x1b; 0xda; 0x7b; 0x2e; 0x4b; 0x66; 0xb3; 0x8d].

(** serdes.rs 278, 351-360, 453, 556-565. *)
Definition VALID_G1_POINTS : list bytes := [VALID_G1_ZERO_COM; VALID_G1_COM; VALID_G1_ZERO_UNCOM].
Definition INVALID_G1_POINTS : list bytes :=
  [INVALID_G1_ZERO_DATA_1; INVALID_G1_ZERO_DATA_2; INVALID_G1_ZERO_COM; INVALID_G1_ZERO_COM_LEN;
   INVALID_G1_ZERO_UNCOM_LEN; INVALID_G1_DATA; INVALID_G1_LEN; INVALID_G1_COM].
Definition VALID_G2_POINTS : list bytes := [VALID_G2_ZERO_COM; VALID_G2_COM; VALID_G2_ZERO_UNCOM].
Definition INVALID_G2_POINTS : list bytes :=
  [INVALID_G2_ZERO_DATA_1; INVALID_G2_ZERO_DATA_2; INVALID_G2_ZERO_COM; INVALID_G2_ZERO_COM_LEN;
   INVALID_G2_ZERO_UNCOM_LEN; INVALID_G2_DATA; INVALID_G2_LEN; INVALID_G2_COM].

(** [assert!(res.is_ok())]. *)
Definition expect_ok {A} (r : res A) : res unit := let! _ := unwrap r in Ok tt.

(** serdes.rs 365-412: test_pk_serialization_kat. *)
Definition test_pk_serialization_kat (E : env) : res unit :=
  let de c csid val := from_slice (@pk_deserialize E c) (csid :: val) in
  let! _ := for_each [VALID_G1_ZERO_COM; VALID_G1_COM] (fun val =>
            for_each VALID_CIPHERSUITE (fun csid => expect_ok (de true csid val))) in
  let! _ := for_each VALID_CIPHERSUITE (fun csid => expect_ok (de false csid VALID_G1_ZERO_UNCOM)) in
  let! _ := for_each [VALID_G1_ZERO_COM; VALID_G1_COM] (fun val =>
            for_each VALID_CIPHERSUITE (fun csid => expect_err (de false csid val))) in
  let! _ := for_each VALID_CIPHERSUITE (fun csid => expect_err (de true csid VALID_G1_ZERO_UNCOM)) in
  let! _ := for_each INVALID_G1_POINTS (fun inval =>
            for_each VALID_CIPHERSUITE (fun csid => expect_err (de true csid inval))) in
  for_each VALID_G1_POINTS (fun val =>
  for_each INVALID_CIPHERSUITE (fun csid => expect_err (de true csid val))).

(** serdes.rs 567-602: test_pop_serialization_kat. *)
Definition test_pop_serialization_kat (E : env) : res unit :=
  let de csid val := from_slice (@pop_deserialize E true) (csid :: val) in
  let! _ := for_each (firstn 2 VALID_G2_POINTS) (fun val =>
            for_each VALID_CIPHERSUITE (fun csid => expect_ok (de csid val))) in
  let! _ := for_each VALID_CIPHERSUITE (fun csid => expect_err (de csid VALID_G2_ZERO_UNCOM)) in
  let! _ := for_each INVALID_G2_POINTS (fun inval =>
            for_each VALID_CIPHERSUITE (fun csid => expect_err (de csid inval))) in
  for_each VALID_G2_POINTS (fun val =>
  for_each INVALID_CIPHERSUITE (fun csid => expect_err (de csid val))).

(** [Signature::deserialize] of the concatenation in the three tests of signatures. *)
Definition de_sig (E : env) (csid : N) (time val1 val2 : bytes) : res (signature E) :=
  from_slice (@sig_deserialize E true) (csid :: time ++ val1 ++ val2).
Definition TIME : bytes := [1; 2; 3; 4].

(** serdes.rs 604-617: test_sig_serialization_kat_valid. *)
Definition test_sig_serialization_kat_valid (E : env) : res unit :=
  for_each (firstn 2 VALID_G1_POINTS) (fun val1 =>
  for_each (firstn 2 VALID_G2_POINTS) (fun val2 =>
  for_each VALID_CIPHERSUITE (fun csid => expect_ok (de_sig E csid TIME val1 val2)))).

(** serdes.rs 619-661: test_sig_serialization_kat_invalid_const. *)
Definition test_sig_serialization_kat_invalid_const (E : env) : res unit :=
  let! _ := for_each VALID_CIPHERSUITE (fun csid => expect_err (de_sig E csid TIME VALID_G1_ZERO_COM VALID_G2_ZERO_UNCOM)) in
  let! _ := for_each VALID_CIPHERSUITE (fun csid => expect_err (de_sig E csid TIME VALID_G1_ZERO_UNCOM VALID_G2_ZERO_COM)) in
  let! _ := for_each VALID_G1_POINTS (fun val1 =>
            for_each VALID_G2_POINTS (fun val2 =>
            for_each INVALID_CIPHERSUITE (fun csid => expect_err (de_sig E csid TIME val1 val2)))) in
  for_each VALID_G1_POINTS (fun val1 =>
  for_each VALID_G2_POINTS (fun val2 =>
  for_each VALID_CIPHERSUITE (fun csid => expect_err (de_sig E csid [0; 0; 0; 0] val1 val2)))).

(** serdes.rs 663-712: test_sig_serialization_kat_invalid_points. *)
Definition test_sig_serialization_kat_invalid_points (E : env) : res unit :=
  let all l1 l2 f := for_each l1 (fun v1 => for_each l2 (fun v2 =>
                     for_each VALID_CIPHERSUITE (fun csid => expect_err (f csid v1 v2)))) in
  let! _ := all INVALID_G1_POINTS VALID_G2_POINTS (fun csid v1 v2 => de_sig E csid TIME v1 v2) in
  let! _ := all VALID_G1_POINTS INVALID_G2_POINTS (fun csid v1 v2 => de_sig E csid TIME v1 v2) in
  let! _ := all INVALID_G1_POINTS INVALID_G2_POINTS (fun csid v1 v2 => de_sig E csid TIME v1 v2) in
  all VALID_G1_POINTS VALID_G2_POINTS (fun csid v1 v2 => de_sig E csid TIME v2 v1).
