(** Test vectors of crates/volaris-tools/src/encrypt.rs, used as concrete cases
    beside the theorems. *)
From Coq Require Import List.
From Verif Require Import Bytes.

(** lines 165-174 *)
Definition V4_ENCRYPTED_CONTENT : bytes :=
  [xde; x04; x0e; x01; x0c; x01; x3a; xce; x10; xb7; xe9; x80; x17; xdf;
    x51; x1e; xd6; x84; x20; x68; x33; x77; xad; xf0; x3c; x2d; xe6; xf3;
    x3a; xa0; x45; x32; xd9; xc0; x42; xdf; x7c; xbe; x94; x5b; x5c; x81;
    x00; x00; x00; x00; x00; x00; x93; x20; x43; x12; xf9; xd3; xbd; x56;
    xbb; x9f; xea; xa0; x5e; x50; x48; x44; xe7; x72; x84; x69; xa4; xb1;
    x1a; xd9; x2e; xa8; x61; x6e; x22; x1b; x0d; x10; x0e; x6f; x03; x6d;
    xda; xe8; xd4; x4e; xbc; x37; x5b; x6a; x61; x4a; xee; xd2; xad; xf0;
    x3c; x2d; xe6; xf3; x3a; xa0; x45; x32; xd9; xc0; x42; xdf; x7c; xbe;
    x94; x5b; x5c; x81; x32; x7e; x6e; xfe; x00; x00; x00; x00; x00; x00;
    x00; x00; x0e; x6e; x69; xd9; x4a; xab; xad; x67; x0b; x88; x77; x62;
    x91; x11; x46; x54; x90; x8f; x9a; xf4; x52; xc9; x55; x0d; xbb; x55;
    x59].

(** lines 176-195 *)
Definition V5_ENCRYPTED_CONTENT : bytes :=
  [xde; x05; x0e; x01; x0c; x01; xad; xf0; x3c; x2d; xe6; xf3; x3a; xa0;
    x45; x32; xd9; xc0; x42; xdf; x7c; xbe; x94; x5b; x5c; x81; x00; x00;
    x00; x00; x00; x00; xdf; xb5; x47; xf0; x8c; x6a; x29; x24; x52; x96;
    x69; xd7; x9f; x6c; xea; xf6; x19; x13; x41; xce; xb1; x92; x0f; xae;
    xd1; x81; x52; x02; x3e; x4c; x81; x22; x88; xbd; x0b; x62; x69; x36;
    x92; x47; x66; xa6; x61; xb1; xcf; x3e; xc2; x84; x26; x57; xad; xf0;
    x3c; x2d; xe6; xf3; x3a; xa0; x45; x32; xd9; xc0; x42; xdf; x7c; xbe;
    x94; x5b; x5c; x81; x32; x7e; x6e; xfe; x3a; xce; x10; xb7; xe9; x80;
    x17; xdf; x51; x1e; xd6; x84; x20; x68; x33; x77]
  ++ zeros 294
  ++ [x0e; x6e; x69; xd9; x4a; xab; xad; x67; x0b; x88; x77; xac; x91; x48;
    xef; x4a; xd9; x3f; xf5; xde; x1f; xa4; x8b; x92; x47; xa5; x5b].

(** lines 197-200 *)
Definition V5_ENCRYPTED_FULL_DETACHED_CONTENT : bytes :=
  [x0e; x6e; x69; xd9; x4a; xab; xad; x67; x0b; x88; x77; xac; x91; x48;
    xef; x4a; xd9; x3f; xf5; xde; x1f; xa4; x8b; x92; x47; xa5; x5b].

(** lines 219-236 *)
Definition V5_ENCRYPTED_DETACHED_HEADER : bytes :=
  [xde; x05; x0e; x01; x0c; x01; xad; xf0; x3c; x2d; xe6; xf3; x3a; xa0;
    x45; x32; xd9; xc0; x42; xdf; x7c; xbe; x94; x5b; x5c; x81; x00; x00;
    x00; x00; x00; x00; xdf; xb5; x47; xf0; x8c; x6a; x29; x24; x52; x96;
    x69; xd7; x9f; x6c; xea; xf6; x19; x13; x41; xce; xb1; x92; x0f; xae;
    xd1; x81; x52; x02; x3e; x4c; x81; x22; x88; xbd; x0b; x62; x69; x36;
    x92; x47; x66; xa6; x61; xb1; xcf; x3e; xc2; x84; x26; x57; xad; xf0;
    x3c; x2d; xe6; xf3; x3a; xa0; x45; x32; xd9; xc0; x42; xdf; x7c; xbe;
    x94; x5b; x5c; x81; x32; x7e; x6e; xfe; x3a; xce; x10; xb7; xe9; x80;
    x17; xdf; x51; x1e; xd6; x84; x20; x68; x33; x77]
  ++ zeros 294.
