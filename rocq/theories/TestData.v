(* Generated by tools/gen_tables.py; do not edit. *)
From Coq Require Import List Init.Byte.
Import ListNotations.

(* tests/test_data/whatwg/big5_whatwg_test_decode_in.txt, entries 0..255 *)
Definition big5_decode_in_0 : list byte := [
  x01; x0a; x02; x0a; x03; x0a; x04; x0a;
  x05; x0a; x06; x0a; x07; x0a; x08; x0a;
  x09; x0a; x0a; x0a; x0b; x0a; x0c; x0a;
  x0d; x0a; x0e; x0a; x0f; x0a; x10; x0a;
  x11; x0a; x12; x0a; x13; x0a; x14; x0a;
  x15; x0a; x16; x0a; x17; x0a; x18; x0a;
  x19; x0a; x1a; x0a; x1b; x0a; x1c; x0a;
  x1d; x0a; x1e; x0a; x1f; x0a; x20; x0a;
  x21; x0a; x22; x0a; x23; x0a; x24; x0a;
  x25; x0a; x26; x0a; x27; x0a; x28; x0a;
  x29; x0a; x2a; x0a; x2b; x0a; x2c; x0a;
  x2d; x0a; x2e; x0a; x2f; x0a; x30; x0a;
  x31; x0a; x32; x0a; x33; x0a; x34; x0a;
  x35; x0a; x36; x0a; x37; x0a; x38; x0a;
  x39; x0a; x3a; x0a; x3b; x0a; x3c; x0a;
  x3d; x0a; x3e; x0a; x3f; x0a; x40; x0a;
  x41; x0a; x42; x0a; x43; x0a; x44; x0a;
  x45; x0a; x46; x0a; x47; x0a; x48; x0a;
  x49; x0a; x4a; x0a; x4b; x0a; x4c; x0a;
  x4d; x0a; x4e; x0a; x4f; x0a; x50; x0a;
  x51; x0a; x52; x0a; x53; x0a; x54; x0a;
  x55; x0a; x56; x0a; x57; x0a; x58; x0a;
  x59; x0a; x5a; x0a; x5b; x0a; x5c; x0a;
  x5d; x0a; x5e; x0a; x5f; x0a; x60; x0a;
  x61; x0a; x62; x0a; x63; x0a; x64; x0a;
  x65; x0a; x66; x0a; x67; x0a; x68; x0a;
  x69; x0a; x6a; x0a; x6b; x0a; x6c; x0a;
  x6d; x0a; x6e; x0a; x6f; x0a; x70; x0a;
  x71; x0a; x72; x0a; x73; x0a; x74; x0a;
  x75; x0a; x76; x0a; x77; x0a; x78; x0a;
  x79; x0a; x7a; x0a; x7b; x0a; x7c; x0a;
  x7d; x0a; x7e; x0a; x7f; x0a; x87; x40
].
(* tests/test_data/whatwg/big5_whatwg_test_decode_in.txt, entries 256..511 *)
Definition big5_decode_in_1 : list byte := [
  x0a; x87; x41; x0a; x87; x42; x0a; x87;
  x43; x0a; x87; x44; x0a; x87; x45; x0a;
  x87; x46; x0a; x87; x47; x0a; x87; x48;
  x0a; x87; x49; x0a; x87; x4a; x0a; x87;
  x4b; x0a; x87; x4c; x0a; x87; x4d; x0a;
  x87; x4e; x0a; x87; x4f; x0a; x87; x50;
  x0a; x87; x51; x0a; x87; x52; x0a; x87;
  x53; x0a; x87; x54; x0a; x87; x55; x0a;
  x87; x56; x0a; x87; x57; x0a; x87; x58;
  x0a; x87; x59; x0a; x87; x5a; x0a; x87;
  x5b; x0a; x87; x5c; x0a; x87; x5d; x0a;
  x87; x5e; x0a; x87; x5f; x0a; x87; x60;
  x0a; x87; x61; x0a; x87; x62; x0a; x87;
  x63; x0a; x87; x64; x0a; x87; x65; x0a;
  x87; x67; x0a; x87; x68; x0a; x87; x69;
  x0a; x87; x6a; x0a; x87; x6b; x0a; x87;
  x6c; x0a; x87; x6d; x0a; x87; x6e; x0a;
  x87; x6f; x0a; x87; x70; x0a; x87; x71;
  x0a; x87; x72; x0a; x87; x73; x0a; x87;
  x74; x0a; x87; x75; x0a; x87; x76; x0a;
  x87; x77; x0a; x87; x78; x0a; x87; x79;
  x0a; x87; x7a; x0a; x87; x7b; x0a; x87;
  x7c; x0a; x87; x7d; x0a; x87; x7e; x0a;
  x87; xa1; x0a; x87; xa2; x0a; x87; xa3;
  x0a; x87; xa4; x0a; x87; xa5; x0a; x87;
  xa6; x0a; x87; xa7; x0a; x87; xa8; x0a;
  x87; xa9; x0a; x87; xaa; x0a; x87; xab;
  x0a; x87; xac; x0a; x87; xad; x0a; x87;
  xae; x0a; x87; xaf; x0a; x87; xb0; x0a;
  x87; xb1; x0a; x87; xb2; x0a; x87; xb3;
  x0a; x87; xb4; x0a; x87; xb5; x0a; x87;
  xb6; x0a; x87; xb7; x0a; x87; xb8; x0a
].
(* tests/test_data/whatwg/big5_whatwg_test_decode_in.txt, entries 512..767 *)
Definition big5_decode_in_2 : list byte := [
  x87; xb9; x0a; x87; xba; x0a; x87; xbb;
  x0a; x87; xbc; x0a; x87; xbd; x0a; x87;
  xbe; x0a; x87; xbf; x0a; x87; xc0; x0a;
  x87; xc1; x0a; x87; xc2; x0a; x87; xc3;
  x0a; x87; xc4; x0a; x87; xc5; x0a; x87;
  xc6; x0a; x87; xc7; x0a; x87; xc8; x0a;
  x87; xc9; x0a; x87; xca; x0a; x87; xcb;
  x0a; x87; xcc; x0a; x87; xcd; x0a; x87;
  xce; x0a; x87; xcf; x0a; x87; xd0; x0a;
  x87; xd1; x0a; x87; xd2; x0a; x87; xd3;
  x0a; x87; xd4; x0a; x87; xd5; x0a; x87;
  xd6; x0a; x87; xd7; x0a; x87; xd8; x0a;
  x87; xd9; x0a; x87; xda; x0a; x87; xdb;
  x0a; x87; xdc; x0a; x87; xdd; x0a; x87;
  xde; x0a; x87; xdf; x0a; x88; x40; x0a;
  x88; x41; x0a; x88; x42; x0a; x88; x43;
  x0a; x88; x44; x0a; x88; x45; x0a; x88;
  x46; x0a; x88; x47; x0a; x88; x48; x0a;
  x88; x49; x0a; x88; x4a; x0a; x88; x4b;
  x0a; x88; x4c; x0a; x88; x4d; x0a; x88;
  x4e; x0a; x88; x4f; x0a; x88; x50; x0a;
  x88; x51; x0a; x88; x52; x0a; x88; x53;
  x0a; x88; x54; x0a; x88; x55; x0a; x88;
  x56; x0a; x88; x57; x0a; x88; x58; x0a;
  x88; x59; x0a; x88; x5a; x0a; x88; x5b;
  x0a; x88; x5c; x0a; x88; x5d; x0a; x88;
  x5e; x0a; x88; x5f; x0a; x88; x60; x0a;
  x88; x61; x0a; x88; x63; x0a; x88; x65;
  x0a; x88; x66; x0a; x88; x67; x0a; x88;
  x68; x0a; x88; x69; x0a; x88; x6a; x0a;
  x88; x6b; x0a; x88; x6c; x0a; x88; x6d;
  x0a; x88; x6e; x0a; x88; x6f; x0a; x88
].
(* tests/test_data/whatwg/big5_whatwg_test_decode_in.txt, entries 768..1023 *)
Definition big5_decode_in_3 : list byte := [
  x70; x0a; x88; x71; x0a; x88; x72; x0a;
  x88; x73; x0a; x88; x74; x0a; x88; x75;
  x0a; x88; x76; x0a; x88; x77; x0a; x88;
  x78; x0a; x88; x79; x0a; x88; x7a; x0a;
  x88; x7b; x0a; x88; x7c; x0a; x88; x7d;
  x0a; x88; x7e; x0a; x88; xa1; x0a; x88;
  xa2; x0a; x88; xa4; x0a; x88; xa6; x0a;
  x88; xa7; x0a; x88; xa8; x0a; x88; xa9;
  x0a; x88; xaa; x0a; x89; x40; x0a; x89;
  x41; x0a; x89; x43; x0a; x89; x46; x0a;
  x89; x47; x0a; x89; x48; x0a; x89; x49;
  x0a; x89; x4c; x0a; x89; x4d; x0a; x89;
  x4e; x0a; x89; x4f; x0a; x89; x50; x0a;
  x89; x51; x0a; x89; x52; x0a; x89; x53;
  x0a; x89; x54; x0a; x89; x55; x0a; x89;
  x56; x0a; x89; x57; x0a; x89; x58; x0a;
  x89; x59; x0a; x89; x5a; x0a; x89; x5b;
  x0a; x89; x5c; x0a; x89; x5d; x0a; x89;
  x5e; x0a; x89; x5f; x0a; x89; x60; x0a;
  x89; x61; x0a; x89; x62; x0a; x89; x63;
  x0a; x89; x64; x0a; x89; x65; x0a; x89;
  x66; x0a; x89; x67; x0a; x89; x68; x0a;
  x89; x69; x0a; x89; x6a; x0a; x89; x6b;
  x0a; x89; x6c; x0a; x89; x6d; x0a; x89;
  x6e; x0a; x89; x6f; x0a; x89; x70; x0a;
  x89; x71; x0a; x89; x72; x0a; x89; x73;
  x0a; x89; x74; x0a; x89; x75; x0a; x89;
  x76; x0a; x89; x77; x0a; x89; x78; x0a;
  x89; x79; x0a; x89; x7a; x0a; x89; x7b;
  x0a; x89; x7c; x0a; x89; x7d; x0a; x89;
  x7e; x0a; x89; xa1; x0a; x89; xa2; x0a;
  x89; xa3; x0a; x89; xa4; x0a; x89; xa5
].
(* tests/test_data/whatwg/big5_whatwg_test_decode_in.txt, entries 1024..1279 *)
Definition big5_decode_in_4 : list byte := [
  x0a; x89; xa6; x0a; x89; xab; x0a; x89;
  xac; x0a; x89; xad; x0a; x89; xae; x0a;
  x89; xb0; x0a; x89; xb1; x0a; x89; xb2;
  x0a; x89; xb5; x0a; x89; xb6; x0a; x89;
  xb7; x0a; x89; xb8; x0a; x89; xb9; x0a;
  x89; xba; x0a; x89; xbb; x0a; x89; xbc;
  x0a; x89; xbd; x0a; x89; xbe; x0a; x89;
  xbf; x0a; x89; xc1; x0a; x89; xc2; x0a;
  x89; xc3; x0a; x89; xc5; x0a; x89; xc6;
  x0a; x89; xc7; x0a; x89; xc8; x0a; x89;
  xc9; x0a; x89; xca; x0a; x89; xcb; x0a;
  x89; xcc; x0a; x89; xcd; x0a; x89; xce;
  x0a; x89; xcf; x0a; x89; xd0; x0a; x89;
  xd1; x0a; x89; xd2; x0a; x89; xd3; x0a;
  x89; xd4; x0a; x89; xd5; x0a; x89; xd6;
  x0a; x89; xd7; x0a; x89; xd8; x0a; x89;
  xd9; x0a; x89; xda; x0a; x89; xdb; x0a;
  x89; xdc; x0a; x89; xdd; x0a; x89; xde;
  x0a; x89; xdf; x0a; x89; xe0; x0a; x89;
  xe1; x0a; x89; xe2; x0a; x89; xe3; x0a;
  x89; xe4; x0a; x89; xe5; x0a; x89; xe6;
  x0a; x89; xe7; x0a; x89; xe8; x0a; x89;
  xe9; x0a; x89; xea; x0a; x89; xeb; x0a;
  x89; xec; x0a; x89; xed; x0a; x89; xee;
  x0a; x89; xef; x0a; x89; xf0; x0a; x89;
  xf1; x0a; x89; xf2; x0a; x89; xf3; x0a;
  x89; xf4; x0a; x89; xf5; x0a; x89; xf6;
  x0a; x89; xf7; x0a; x89; xf8; x0a; x89;
  xf9; x0a; x89; xfa; x0a; x89; xfb; x0a;
  x89; xfc; x0a; x89; xfd; x0a; x89; xfe;
  x0a; x8a; x40; x0a; x8a; x41; x0a; x8a;
  x43; x0a; x8a; x44; x0a; x8a; x45; x0a
].
(* tests/test_data/whatwg/big5_whatwg_test_decode_in.txt, entries 1280..1535 *)
Definition big5_decode_in_5 : list byte := [
  x8a; x46; x0a; x8a; x47; x0a; x8a; x48;
  x0a; x8a; x49; x0a; x8a; x4a; x0a; x8a;
  x4b; x0a; x8a; x4c; x0a; x8a; x4d; x0a;
  x8a; x4e; x0a; x8a; x4f; x0a; x8a; x50;
  x0a; x8a; x51; x0a; x8a; x52; x0a; x8a;
  x53; x0a; x8a; x54; x0a; x8a; x55; x0a;
  x8a; x56; x0a; x8a; x57; x0a; x8a; x58;
  x0a; x8a; x59; x0a; x8a; x5a; x0a; x8a;
  x5b; x0a; x8a; x5c; x0a; x8a; x5d; x0a;
  x8a; x5e; x0a; x8a; x5f; x0a; x8a; x60;
  x0a; x8a; x61; x0a; x8a; x62; x0a; x8a;
  x64; x0a; x8a; x65; x0a; x8a; x66; x0a;
  x8a; x67; x0a; x8a; x68; x0a; x8a; x69;
  x0a; x8a; x6a; x0a; x8a; x6b; x0a; x8a;
  x6c; x0a; x8a; x6d; x0a; x8a; x6e; x0a;
  x8a; x6f; x0a; x8a; x70; x0a; x8a; x71;
  x0a; x8a; x72; x0a; x8a; x73; x0a; x8a;
  x74; x0a; x8a; x76; x0a; x8a; x77; x0a;
  x8a; x78; x0a; x8a; x79; x0a; x8a; x7a;
  x0a; x8a; x7b; x0a; x8a; x7c; x0a; x8a;
  x7d; x0a; x8a; x7e; x0a; x8a; xa1; x0a;
  x8a; xa2; x0a; x8a; xa3; x0a; x8a; xa4;
  x0a; x8a; xa5; x0a; x8a; xa6; x0a; x8a;
  xa7; x0a; x8a; xa8; x0a; x8a; xa9; x0a;
  x8a; xaa; x0a; x8a; xac; x0a; x8a; xad;
  x0a; x8a; xae; x0a; x8a; xaf; x0a; x8a;
  xb0; x0a; x8a; xb2; x0a; x8a; xb3; x0a;
  x8a; xb4; x0a; x8a; xb5; x0a; x8a; xb6;
  x0a; x8a; xb7; x0a; x8a; xb8; x0a; x8a;
  xb9; x0a; x8a; xbb; x0a; x8a; xbc; x0a;
  x8a; xbd; x0a; x8a; xbe; x0a; x8a; xbf;
  x0a; x8a; xc0; x0a; x8a; xc1; x0a; x8a
].
(* tests/test_data/whatwg/big5_whatwg_test_decode_in.txt, entries 1536..1791 *)
Definition big5_decode_in_6 : list byte := [
  xc2; x0a; x8a; xc3; x0a; x8a; xc4; x0a;
  x8a; xc5; x0a; x8a; xc6; x0a; x8a; xc7;
  x0a; x8a; xc9; x0a; x8a; xca; x0a; x8a;
  xcb; x0a; x8a; xcc; x0a; x8a; xce; x0a;
  x8a; xcf; x0a; x8a; xd0; x0a; x8a; xd1;
  x0a; x8a; xd2; x0a; x8a; xd3; x0a; x8a;
  xd4; x0a; x8a; xd5; x0a; x8a; xd6; x0a;
  x8a; xd7; x0a; x8a; xd8; x0a; x8a; xd9;
  x0a; x8a; xda; x0a; x8a; xdb; x0a; x8a;
  xdc; x0a; x8a; xdf; x0a; x8a; xe0; x0a;
  x8a; xe1; x0a; x8a; xe2; x0a; x8a; xe3;
  x0a; x8a; xe4; x0a; x8a; xe5; x0a; x8a;
  xe6; x0a; x8a; xe7; x0a; x8a; xe8; x0a;
  x8a; xe9; x0a; x8a; xea; x0a; x8a; xeb;
  x0a; x8a; xec; x0a; x8a; xed; x0a; x8a;
  xee; x0a; x8a; xef; x0a; x8a; xf0; x0a;
  x8a; xf1; x0a; x8a; xf2; x0a; x8a; xf3;
  x0a; x8a; xf4; x0a; x8a; xf6; x0a; x8a;
  xf7; x0a; x8a; xf8; x0a; x8a; xf9; x0a;
  x8a; xfa; x0a; x8a; xfb; x0a; x8a; xfc;
  x0a; x8a; xfd; x0a; x8a; xfe; x0a; x8b;
  x40; x0a; x8b; x41; x0a; x8b; x42; x0a;
  x8b; x43; x0a; x8b; x44; x0a; x8b; x45;
  x0a; x8b; x46; x0a; x8b; x47; x0a; x8b;
  x48; x0a; x8b; x49; x0a; x8b; x4a; x0a;
  x8b; x4b; x0a; x8b; x4c; x0a; x8b; x4d;
  x0a; x8b; x4e; x0a; x8b; x4f; x0a; x8b;
  x50; x0a; x8b; x51; x0a; x8b; x52; x0a;
  x8b; x53; x0a; x8b; x55; x0a; x8b; x56;
  x0a; x8b; x57; x0a; x8b; x58; x0a; x8b;
  x59; x0a; x8b; x5a; x0a; x8b; x5b; x0a;
  x8b; x5c; x0a; x8b; x5d; x0a; x8b; x5e
].
(* tests/test_data/whatwg/big5_whatwg_test_decode_in.txt, entries 1792..2047 *)
Definition big5_decode_in_7 : list byte := [
  x0a; x8b; x5f; x0a; x8b; x60; x0a; x8b;
  x61; x0a; x8b; x62; x0a; x8b; x63; x0a;
  x8b; x64; x0a; x8b; x65; x0a; x8b; x66;
  x0a; x8b; x67; x0a; x8b; x68; x0a; x8b;
  x69; x0a; x8b; x6a; x0a; x8b; x6b; x0a;
  x8b; x6c; x0a; x8b; x6d; x0a; x8b; x6e;
  x0a; x8b; x6f; x0a; x8b; x70; x0a; x8b;
  x71; x0a; x8b; x72; x0a; x8b; x73; x0a;
  x8b; x74; x0a; x8b; x75; x0a; x8b; x76;
  x0a; x8b; x77; x0a; x8b; x78; x0a; x8b;
  x79; x0a; x8b; x7a; x0a; x8b; x7b; x0a;
  x8b; x7c; x0a; x8b; x7d; x0a; x8b; x7e;
  x0a; x8b; xa1; x0a; x8b; xa2; x0a; x8b;
  xa3; x0a; x8b; xa4; x0a; x8b; xa5; x0a;
  x8b; xa6; x0a; x8b; xa7; x0a; x8b; xa8;
  x0a; x8b; xa9; x0a; x8b; xaa; x0a; x8b;
  xab; x0a; x8b; xac; x0a; x8b; xad; x0a;
  x8b; xae; x0a; x8b; xaf; x0a; x8b; xb0;
  x0a; x8b; xb1; x0a; x8b; xb2; x0a; x8b;
  xb3; x0a; x8b; xb4; x0a; x8b; xb5; x0a;
  x8b; xb6; x0a; x8b; xb7; x0a; x8b; xb8;
  x0a; x8b; xb9; x0a; x8b; xba; x0a; x8b;
  xbb; x0a; x8b; xbc; x0a; x8b; xbd; x0a;
  x8b; xbe; x0a; x8b; xbf; x0a; x8b; xc0;
  x0a; x8b; xc1; x0a; x8b; xc2; x0a; x8b;
  xc3; x0a; x8b; xc4; x0a; x8b; xc5; x0a;
  x8b; xc6; x0a; x8b; xc7; x0a; x8b; xc8;
  x0a; x8b; xc9; x0a; x8b; xca; x0a; x8b;
  xcb; x0a; x8b; xcc; x0a; x8b; xcd; x0a;
  x8b; xce; x0a; x8b; xcf; x0a; x8b; xd0;
  x0a; x8b; xd1; x0a; x8b; xd2; x0a; x8b;
  xd3; x0a; x8b; xd4; x0a; x8b; xd5; x0a
].
(* tests/test_data/whatwg/big5_whatwg_test_decode_in.txt, entries 2048..2303 *)
Definition big5_decode_in_8 : list byte := [
  x8b; xd6; x0a; x8b; xd7; x0a; x8b; xd8;
  x0a; x8b; xd9; x0a; x8b; xda; x0a; x8b;
  xdb; x0a; x8b; xdc; x0a; x8b; xde; x0a;
  x8b; xdf; x0a; x8b; xe0; x0a; x8b; xe1;
  x0a; x8b; xe2; x0a; x8b; xe3; x0a; x8b;
  xe4; x0a; x8b; xe5; x0a; x8b; xe6; x0a;
  x8b; xe7; x0a; x8b; xe8; x0a; x8b; xe9;
  x0a; x8b; xea; x0a; x8b; xeb; x0a; x8b;
  xec; x0a; x8b; xed; x0a; x8b; xee; x0a;
  x8b; xef; x0a; x8b; xf0; x0a; x8b; xf1;
  x0a; x8b; xf2; x0a; x8b; xf3; x0a; x8b;
  xf4; x0a; x8b; xf5; x0a; x8b; xf6; x0a;
  x8b; xf7; x0a; x8b; xf8; x0a; x8b; xf9;
  x0a; x8b; xfa; x0a; x8b; xfb; x0a; x8b;
  xfc; x0a; x8b; xfd; x0a; x8c; x40; x0a;
  x8c; x41; x0a; x8c; x42; x0a; x8c; x43;
  x0a; x8c; x44; x0a; x8c; x45; x0a; x8c;
  x46; x0a; x8c; x47; x0a; x8c; x48; x0a;
  x8c; x49; x0a; x8c; x4a; x0a; x8c; x4b;
  x0a; x8c; x4c; x0a; x8c; x4d; x0a; x8c;
  x4e; x0a; x8c; x4f; x0a; x8c; x50; x0a;
  x8c; x51; x0a; x8c; x52; x0a; x8c; x53;
  x0a; x8c; x54; x0a; x8c; x55; x0a; x8c;
  x56; x0a; x8c; x57; x0a; x8c; x58; x0a;
  x8c; x59; x0a; x8c; x5a; x0a; x8c; x5b;
  x0a; x8c; x5c; x0a; x8c; x5d; x0a; x8c;
  x5e; x0a; x8c; x5f; x0a; x8c; x60; x0a;
  x8c; x61; x0a; x8c; x62; x0a; x8c; x63;
  x0a; x8c; x64; x0a; x8c; x65; x0a; x8c;
  x66; x0a; x8c; x67; x0a; x8c; x68; x0a;
  x8c; x69; x0a; x8c; x6a; x0a; x8c; x6b;
  x0a; x8c; x6c; x0a; x8c; x6d; x0a; x8c
].
(* tests/test_data/whatwg/big5_whatwg_test_decode_in.txt, entries 2304..2559 *)
Definition big5_decode_in_9 : list byte := [
  x6e; x0a; x8c; x6f; x0a; x8c; x70; x0a;
  x8c; x71; x0a; x8c; x72; x0a; x8c; x73;
  x0a; x8c; x74; x0a; x8c; x75; x0a; x8c;
  x76; x0a; x8c; x77; x0a; x8c; x78; x0a;
  x8c; x79; x0a; x8c; x7a; x0a; x8c; x7b;
  x0a; x8c; x7c; x0a; x8c; x7d; x0a; x8c;
  x7e; x0a; x8c; xa1; x0a; x8c; xa2; x0a;
  x8c; xa3; x0a; x8c; xa4; x0a; x8c; xa5;
  x0a; x8c; xa7; x0a; x8c; xa8; x0a; x8c;
  xa9; x0a; x8c; xaa; x0a; x8c; xab; x0a;
  x8c; xac; x0a; x8c; xad; x0a; x8c; xae;
  x0a; x8c; xaf; x0a; x8c; xb0; x0a; x8c;
  xb1; x0a; x8c; xb2; x0a; x8c; xb3; x0a;
  x8c; xb4; x0a; x8c; xb5; x0a; x8c; xb6;
  x0a; x8c; xb7; x0a; x8c; xb8; x0a; x8c;
  xb9; x0a; x8c; xba; x0a; x8c; xbb; x0a;
  x8c; xbc; x0a; x8c; xbd; x0a; x8c; xbe;
  x0a; x8c; xbf; x0a; x8c; xc0; x0a; x8c;
  xc1; x0a; x8c; xc2; x0a; x8c; xc3; x0a;
  x8c; xc4; x0a; x8c; xc5; x0a; x8c; xc9;
  x0a; x8c; xca; x0a; x8c; xcb; x0a; x8c;
  xcc; x0a; x8c; xce; x0a; x8c; xcf; x0a;
  x8c; xd0; x0a; x8c; xd1; x0a; x8c; xd2;
  x0a; x8c; xd3; x0a; x8c; xd4; x0a; x8c;
  xd5; x0a; x8c; xd6; x0a; x8c; xd7; x0a;
  x8c; xd8; x0a; x8c; xd9; x0a; x8c; xda;
  x0a; x8c; xdb; x0a; x8c; xdc; x0a; x8c;
  xdd; x0a; x8c; xde; x0a; x8c; xdf; x0a;
  x8c; xe0; x0a; x8c; xe1; x0a; x8c; xe2;
  x0a; x8c; xe3; x0a; x8c; xe4; x0a; x8c;
  xe6; x0a; x8c; xe7; x0a; x8c; xe8; x0a;
  x8c; xe9; x0a; x8c; xea; x0a; x8c; xeb
].
(* tests/test_data/whatwg/big5_whatwg_test_decode_in.txt, entries 2560..2815 *)
Definition big5_decode_in_10 : list byte := [
  x0a; x8c; xec; x0a; x8c; xed; x0a; x8c;
  xee; x0a; x8c; xef; x0a; x8c; xf0; x0a;
  x8c; xf1; x0a; x8c; xf2; x0a; x8c; xf3;
  x0a; x8c; xf4; x0a; x8c; xf5; x0a; x8c;
  xf6; x0a; x8c; xf7; x0a; x8c; xf8; x0a;
  x8c; xf9; x0a; x8c; xfa; x0a; x8c; xfb;
  x0a; x8c; xfc; x0a; x8c; xfd; x0a; x8c;
  xfe; x0a; x8d; x40; x0a; x8d; x42; x0a;
  x8d; x43; x0a; x8d; x44; x0a; x8d; x45;
  x0a; x8d; x46; x0a; x8d; x47; x0a; x8d;
  x48; x0a; x8d; x49; x0a; x8d; x4a; x0a;
  x8d; x4b; x0a; x8d; x4c; x0a; x8d; x4d;
  x0a; x8d; x4e; x0a; x8d; x4f; x0a; x8d;
  x50; x0a; x8d; x51; x0a; x8d; x52; x0a;
  x8d; x53; x0a; x8d; x54; x0a; x8d; x55;
  x0a; x8d; x56; x0a; x8d; x57; x0a; x8d;
  x58; x0a; x8d; x59; x0a; x8d; x5a; x0a;
  x8d; x5b; x0a; x8d; x5c; x0a; x8d; x5d;
  x0a; x8d; x5e; x0a; x8d; x5f; x0a; x8d;
  x60; x0a; x8d; x61; x0a; x8d; x62; x0a;
  x8d; x63; x0a; x8d; x64; x0a; x8d; x65;
  x0a; x8d; x66; x0a; x8d; x67; x0a; x8d;
  x68; x0a; x8d; x69; x0a; x8d; x6a; x0a;
  x8d; x6b; x0a; x8d; x6c; x0a; x8d; x6d;
  x0a; x8d; x6e; x0a; x8d; x6f; x0a; x8d;
  x70; x0a; x8d; x71; x0a; x8d; x72; x0a;
  x8d; x73; x0a; x8d; x74; x0a; x8d; x75;
  x0a; x8d; x76; x0a; x8d; x77; x0a; x8d;
  x78; x0a; x8d; x79; x0a; x8d; x7a; x0a;
  x8d; x7b; x0a; x8d; x7c; x0a; x8d; x7d;
  x0a; x8d; x7e; x0a; x8d; xa1; x0a; x8d;
  xa2; x0a; x8d; xa3; x0a; x8d; xa4; x0a
].
(* tests/test_data/whatwg/big5_whatwg_test_decode_in.txt, entries 2816..3071 *)
Definition big5_decode_in_11 : list byte := [
  x8d; xa5; x0a; x8d; xa6; x0a; x8d; xa7;
  x0a; x8d; xa8; x0a; x8d; xa9; x0a; x8d;
  xaa; x0a; x8d; xab; x0a; x8d; xac; x0a;
  x8d; xad; x0a; x8d; xae; x0a; x8d; xaf;
  x0a; x8d; xb0; x0a; x8d; xb1; x0a; x8d;
  xb2; x0a; x8d; xb3; x0a; x8d; xb4; x0a;
  x8d; xb5; x0a; x8d; xb6; x0a; x8d; xb7;
  x0a; x8d; xb8; x0a; x8d; xb9; x0a; x8d;
  xba; x0a; x8d; xbb; x0a; x8d; xbc; x0a;
  x8d; xbd; x0a; x8d; xbe; x0a; x8d; xbf;
  x0a; x8d; xc0; x0a; x8d; xc1; x0a; x8d;
  xc2; x0a; x8d; xc3; x0a; x8d; xc4; x0a;
  x8d; xc5; x0a; x8d; xc6; x0a; x8d; xc7;
  x0a; x8d; xc8; x0a; x8d; xc9; x0a; x8d;
  xca; x0a; x8d; xcb; x0a; x8d; xcc; x0a;
  x8d; xcd; x0a; x8d; xce; x0a; x8d; xcf;
  x0a; x8d; xd0; x0a; x8d; xd1; x0a; x8d;
  xd2; x0a; x8d; xd3; x0a; x8d; xd4; x0a;
  x8d; xd5; x0a; x8d; xd6; x0a; x8d; xd7;
  x0a; x8d; xd8; x0a; x8d; xd9; x0a; x8d;
  xda; x0a; x8d; xdb; x0a; x8d; xdc; x0a;
  x8d; xdd; x0a; x8d; xde; x0a; x8d; xdf;
  x0a; x8d; xe0; x0a; x8d; xe1; x0a; x8d;
  xe2; x0a; x8d; xe3; x0a; x8d; xe4; x0a;
  x8d; xe5; x0a; x8d; xe6; x0a; x8d; xe7;
  x0a; x8d; xe8; x0a; x8d; xe9; x0a; x8d;
  xea; x0a; x8d; xeb; x0a; x8d; xec; x0a;
  x8d; xed; x0a; x8d; xee; x0a; x8d; xef;
  x0a; x8d; xf0; x0a; x8d; xf1; x0a; x8d;
  xf2; x0a; x8d; xf3; x0a; x8d; xf4; x0a;
  x8d; xf5; x0a; x8d; xf6; x0a; x8d; xf7;
  x0a; x8d; xf8; x0a; x8d; xf9; x0a; x8d
].
(* tests/test_data/whatwg/big5_whatwg_test_decode_in.txt, entries 3072..3327 *)
Definition big5_decode_in_12 : list byte := [
  xfa; x0a; x8d; xfb; x0a; x8d; xfc; x0a;
  x8d; xfd; x0a; x8d; xfe; x0a; x8e; x40;
  x0a; x8e; x41; x0a; x8e; x42; x0a; x8e;
  x43; x0a; x8e; x44; x0a; x8e; x45; x0a;
  x8e; x46; x0a; x8e; x47; x0a; x8e; x48;
  x0a; x8e; x49; x0a; x8e; x4a; x0a; x8e;
  x4b; x0a; x8e; x4c; x0a; x8e; x4d; x0a;
  x8e; x4e; x0a; x8e; x4f; x0a; x8e; x50;
  x0a; x8e; x51; x0a; x8e; x52; x0a; x8e;
  x53; x0a; x8e; x54; x0a; x8e; x55; x0a;
  x8e; x56; x0a; x8e; x57; x0a; x8e; x58;
  x0a; x8e; x59; x0a; x8e; x5a; x0a; x8e;
  x5b; x0a; x8e; x5c; x0a; x8e; x5d; x0a;
  x8e; x5e; x0a; x8e; x5f; x0a; x8e; x60;
  x0a; x8e; x61; x0a; x8e; x62; x0a; x8e;
  x63; x0a; x8e; x64; x0a; x8e; x65; x0a;
  x8e; x66; x0a; x8e; x67; x0a; x8e; x68;
  x0a; x8e; x69; x0a; x8e; x6a; x0a; x8e;
  x6b; x0a; x8e; x6c; x0a; x8e; x6d; x0a;
  x8e; x6e; x0a; x8e; x6f; x0a; x8e; x70;
  x0a; x8e; x71; x0a; x8e; x72; x0a; x8e;
  x73; x0a; x8e; x74; x0a; x8e; x75; x0a;
  x8e; x76; x0a; x8e; x77; x0a; x8e; x78;
  x0a; x8e; x79; x0a; x8e; x7a; x0a; x8e;
  x7b; x0a; x8e; x7c; x0a; x8e; x7d; x0a;
  x8e; x7e; x0a; x8e; xa1; x0a; x8e; xa2;
  x0a; x8e; xa3; x0a; x8e; xa4; x0a; x8e;
  xa5; x0a; x8e; xa6; x0a; x8e; xa7; x0a;
  x8e; xa8; x0a; x8e; xa9; x0a; x8e; xaa;
  x0a; x8e; xab; x0a; x8e; xac; x0a; x8e;
  xad; x0a; x8e; xae; x0a; x8e; xaf; x0a;
  x8e; xb0; x0a; x8e; xb1; x0a; x8e; xb2
].
(* tests/test_data/whatwg/big5_whatwg_test_decode_in.txt, entries 3328..3583 *)
Definition big5_decode_in_13 : list byte := [
  x0a; x8e; xb3; x0a; x8e; xb4; x0a; x8e;
  xb5; x0a; x8e; xb6; x0a; x8e; xb7; x0a;
  x8e; xb8; x0a; x8e; xb9; x0a; x8e; xba;
  x0a; x8e; xbb; x0a; x8e; xbc; x0a; x8e;
  xbd; x0a; x8e; xbe; x0a; x8e; xbf; x0a;
  x8e; xc0; x0a; x8e; xc1; x0a; x8e; xc2;
  x0a; x8e; xc3; x0a; x8e; xc4; x0a; x8e;
  xc5; x0a; x8e; xc6; x0a; x8e; xc7; x0a;
  x8e; xc8; x0a; x8e; xc9; x0a; x8e; xca;
  x0a; x8e; xcb; x0a; x8e; xcc; x0a; x8e;
  xcd; x0a; x8e; xce; x0a; x8e; xcf; x0a;
  x8e; xd0; x0a; x8e; xd1; x0a; x8e; xd2;
  x0a; x8e; xd3; x0a; x8e; xd4; x0a; x8e;
  xd5; x0a; x8e; xd6; x0a; x8e; xd7; x0a;
  x8e; xd8; x0a; x8e; xd9; x0a; x8e; xda;
  x0a; x8e; xdb; x0a; x8e; xdc; x0a; x8e;
  xdd; x0a; x8e; xde; x0a; x8e; xdf; x0a;
  x8e; xe0; x0a; x8e; xe1; x0a; x8e; xe2;
  x0a; x8e; xe3; x0a; x8e; xe4; x0a; x8e;
  xe5; x0a; x8e; xe6; x0a; x8e; xe7; x0a;
  x8e; xe8; x0a; x8e; xe9; x0a; x8e; xea;
  x0a; x8e; xeb; x0a; x8e; xec; x0a; x8e;
  xed; x0a; x8e; xee; x0a; x8e; xef; x0a;
  x8e; xf0; x0a; x8e; xf1; x0a; x8e; xf2;
  x0a; x8e; xf3; x0a; x8e; xf4; x0a; x8e;
  xf5; x0a; x8e; xf6; x0a; x8e; xf7; x0a;
  x8e; xf8; x0a; x8e; xf9; x0a; x8e; xfa;
  x0a; x8e; xfb; x0a; x8e; xfc; x0a; x8e;
  xfd; x0a; x8e; xfe; x0a; x8f; x40; x0a;
  x8f; x41; x0a; x8f; x42; x0a; x8f; x43;
  x0a; x8f; x44; x0a; x8f; x45; x0a; x8f;
  x46; x0a; x8f; x47; x0a; x8f; x48; x0a
].
(* tests/test_data/whatwg/big5_whatwg_test_decode_in.txt, entries 3584..3839 *)
Definition big5_decode_in_14 : list byte := [
  x8f; x49; x0a; x8f; x4a; x0a; x8f; x4b;
  x0a; x8f; x4c; x0a; x8f; x4d; x0a; x8f;
  x4e; x0a; x8f; x4f; x0a; x8f; x50; x0a;
  x8f; x51; x0a; x8f; x52; x0a; x8f; x53;
  x0a; x8f; x54; x0a; x8f; x55; x0a; x8f;
  x56; x0a; x8f; x57; x0a; x8f; x58; x0a;
  x8f; x59; x0a; x8f; x5a; x0a; x8f; x5b;
  x0a; x8f; x5c; x0a; x8f; x5d; x0a; x8f;
  x5e; x0a; x8f; x5f; x0a; x8f; x60; x0a;
  x8f; x61; x0a; x8f; x62; x0a; x8f; x63;
  x0a; x8f; x64; x0a; x8f; x65; x0a; x8f;
  x66; x0a; x8f; x67; x0a; x8f; x68; x0a;
  x8f; x69; x0a; x8f; x6a; x0a; x8f; x6b;
  x0a; x8f; x6c; x0a; x8f; x6d; x0a; x8f;
  x6e; x0a; x8f; x6f; x0a; x8f; x70; x0a;
  x8f; x71; x0a; x8f; x72; x0a; x8f; x73;
  x0a; x8f; x74; x0a; x8f; x75; x0a; x8f;
  x76; x0a; x8f; x77; x0a; x8f; x78; x0a;
  x8f; x79; x0a; x8f; x7a; x0a; x8f; x7b;
  x0a; x8f; x7c; x0a; x8f; x7d; x0a; x8f;
  x7e; x0a; x8f; xa1; x0a; x8f; xa2; x0a;
  x8f; xa3; x0a; x8f; xa4; x0a; x8f; xa5;
  x0a; x8f; xa6; x0a; x8f; xa7; x0a; x8f;
  xa8; x0a; x8f; xa9; x0a; x8f; xaa; x0a;
  x8f; xab; x0a; x8f; xac; x0a; x8f; xad;
  x0a; x8f; xae; x0a; x8f; xaf; x0a; x8f;
  xb0; x0a; x8f; xb1; x0a; x8f; xb2; x0a;
  x8f; xb3; x0a; x8f; xb4; x0a; x8f; xb5;
  x0a; x8f; xb6; x0a; x8f; xb7; x0a; x8f;
  xb8; x0a; x8f; xb9; x0a; x8f; xba; x0a;
  x8f; xbb; x0a; x8f; xbc; x0a; x8f; xbd;
  x0a; x8f; xbe; x0a; x8f; xbf; x0a; x8f
].
(* tests/test_data/whatwg/big5_whatwg_test_decode_in.txt, entries 3840..4095 *)
Definition big5_decode_in_15 : list byte := [
  xc0; x0a; x8f; xc1; x0a; x8f; xc2; x0a;
  x8f; xc3; x0a; x8f; xc4; x0a; x8f; xc5;
  x0a; x8f; xc6; x0a; x8f; xc7; x0a; x8f;
  xc8; x0a; x8f; xc9; x0a; x8f; xca; x0a;
  x8f; xcb; x0a; x8f; xcc; x0a; x8f; xcd;
  x0a; x8f; xce; x0a; x8f; xcf; x0a; x8f;
  xd0; x0a; x8f; xd1; x0a; x8f; xd2; x0a;
  x8f; xd3; x0a; x8f; xd4; x0a; x8f; xd5;
  x0a; x8f; xd6; x0a; x8f; xd7; x0a; x8f;
  xd8; x0a; x8f; xd9; x0a; x8f; xda; x0a;
  x8f; xdb; x0a; x8f; xdc; x0a; x8f; xdd;
  x0a; x8f; xde; x0a; x8f; xdf; x0a; x8f;
  xe0; x0a; x8f; xe1; x0a; x8f; xe2; x0a;
  x8f; xe3; x0a; x8f; xe4; x0a; x8f; xe5;
  x0a; x8f; xe6; x0a; x8f; xe7; x0a; x8f;
  xe8; x0a; x8f; xe9; x0a; x8f; xea; x0a;
  x8f; xeb; x0a; x8f; xec; x0a; x8f; xed;
  x0a; x8f; xee; x0a; x8f; xef; x0a; x8f;
  xf0; x0a; x8f; xf1; x0a; x8f; xf2; x0a;
  x8f; xf3; x0a; x8f; xf4; x0a; x8f; xf5;
  x0a; x8f; xf6; x0a; x8f; xf7; x0a; x8f;
  xf8; x0a; x8f; xf9; x0a; x8f; xfa; x0a;
  x8f; xfb; x0a; x8f; xfc; x0a; x8f; xfd;
  x0a; x8f; xfe; x0a; x90; x40; x0a; x90;
  x41; x0a; x90; x42; x0a; x90; x43; x0a;
  x90; x44; x0a; x90; x45; x0a; x90; x46;
  x0a; x90; x47; x0a; x90; x48; x0a; x90;
  x49; x0a; x90; x4a; x0a; x90; x4b; x0a;
  x90; x4c; x0a; x90; x4d; x0a; x90; x4e;
  x0a; x90; x4f; x0a; x90; x50; x0a; x90;
  x51; x0a; x90; x52; x0a; x90; x53; x0a;
  x90; x54; x0a; x90; x55; x0a; x90; x56
].
(* tests/test_data/whatwg/big5_whatwg_test_decode_in.txt, entries 4096..4351 *)
Definition big5_decode_in_16 : list byte := [
  x0a; x90; x57; x0a; x90; x58; x0a; x90;
  x59; x0a; x90; x5a; x0a; x90; x5b; x0a;
  x90; x5c; x0a; x90; x5d; x0a; x90; x5e;
  x0a; x90; x5f; x0a; x90; x60; x0a; x90;
  x61; x0a; x90; x62; x0a; x90; x63; x0a;
  x90; x64; x0a; x90; x65; x0a; x90; x66;
  x0a; x90; x67; x0a; x90; x68; x0a; x90;
  x69; x0a; x90; x6a; x0a; x90; x6b; x0a;
  x90; x6c; x0a; x90; x6d; x0a; x90; x6e;
  x0a; x90; x6f; x0a; x90; x70; x0a; x90;
  x71; x0a; x90; x72; x0a; x90; x73; x0a;
  x90; x74; x0a; x90; x75; x0a; x90; x76;
  x0a; x90; x77; x0a; x90; x78; x0a; x90;
  x79; x0a; x90; x7a; x0a; x90; x7b; x0a;
  x90; x7c; x0a; x90; x7d; x0a; x90; x7e;
  x0a; x90; xa1; x0a; x90; xa2; x0a; x90;
  xa3; x0a; x90; xa4; x0a; x90; xa5; x0a;
  x90; xa6; x0a; x90; xa7; x0a; x90; xa8;
  x0a; x90; xa9; x0a; x90; xaa; x0a; x90;
  xab; x0a; x90; xac; x0a; x90; xad; x0a;
  x90; xae; x0a; x90; xaf; x0a; x90; xb0;
  x0a; x90; xb1; x0a; x90; xb2; x0a; x90;
  xb3; x0a; x90; xb4; x0a; x90; xb5; x0a;
  x90; xb6; x0a; x90; xb7; x0a; x90; xb8;
  x0a; x90; xb9; x0a; x90; xba; x0a; x90;
  xbb; x0a; x90; xbc; x0a; x90; xbd; x0a;
  x90; xbe; x0a; x90; xbf; x0a; x90; xc0;
  x0a; x90; xc1; x0a; x90; xc2; x0a; x90;
  xc3; x0a; x90; xc4; x0a; x90; xc5; x0a;
  x90; xc6; x0a; x90; xc7; x0a; x90; xc8;
  x0a; x90; xc9; x0a; x90; xca; x0a; x90;
  xcb; x0a; x90; xcc; x0a; x90; xcd; x0a
].
(* tests/test_data/whatwg/big5_whatwg_test_decode_in.txt, entries 4352..4607 *)
Definition big5_decode_in_17 : list byte := [
  x90; xce; x0a; x90; xcf; x0a; x90; xd0;
  x0a; x90; xd1; x0a; x90; xd2; x0a; x90;
  xd3; x0a; x90; xd4; x0a; x90; xd5; x0a;
  x90; xd6; x0a; x90; xd7; x0a; x90; xd8;
  x0a; x90; xd9; x0a; x90; xda; x0a; x90;
  xdb; x0a; x90; xdc; x0a; x90; xdd; x0a;
  x90; xde; x0a; x90; xdf; x0a; x90; xe0;
  x0a; x90; xe1; x0a; x90; xe2; x0a; x90;
  xe3; x0a; x90; xe4; x0a; x90; xe5; x0a;
  x90; xe6; x0a; x90; xe7; x0a; x90; xe8;
  x0a; x90; xe9; x0a; x90; xea; x0a; x90;
  xeb; x0a; x90; xec; x0a; x90; xed; x0a;
  x90; xee; x0a; x90; xef; x0a; x90; xf0;
  x0a; x90; xf1; x0a; x90; xf2; x0a; x90;
  xf3; x0a; x90; xf4; x0a; x90; xf5; x0a;
  x90; xf6; x0a; x90; xf7; x0a; x90; xf8;
  x0a; x90; xf9; x0a; x90; xfa; x0a; x90;
  xfb; x0a; x90; xfc; x0a; x90; xfd; x0a;
  x90; xfe; x0a; x91; x40; x0a; x91; x41;
  x0a; x91; x42; x0a; x91; x43; x0a; x91;
  x44; x0a; x91; x45; x0a; x91; x46; x0a;
  x91; x47; x0a; x91; x48; x0a; x91; x49;
  x0a; x91; x4a; x0a; x91; x4b; x0a; x91;
  x4c; x0a; x91; x4d; x0a; x91; x4e; x0a;
  x91; x4f; x0a; x91; x50; x0a; x91; x51;
  x0a; x91; x52; x0a; x91; x53; x0a; x91;
  x54; x0a; x91; x55; x0a; x91; x56; x0a;
  x91; x57; x0a; x91; x58; x0a; x91; x59;
  x0a; x91; x5a; x0a; x91; x5b; x0a; x91;
  x5c; x0a; x91; x5d; x0a; x91; x5e; x0a;
  x91; x5f; x0a; x91; x60; x0a; x91; x61;
  x0a; x91; x62; x0a; x91; x63; x0a; x91
].
(* tests/test_data/whatwg/big5_whatwg_test_decode_in.txt, entries 4608..4863 *)
Definition big5_decode_in_18 : list byte := [
  x64; x0a; x91; x65; x0a; x91; x66; x0a;
  x91; x67; x0a; x91; x68; x0a; x91; x69;
  x0a; x91; x6a; x0a; x91; x6b; x0a; x91;
  x6c; x0a; x91; x6d; x0a; x91; x6e; x0a;
  x91; x6f; x0a; x91; x70; x0a; x91; x71;
  x0a; x91; x72; x0a; x91; x73; x0a; x91;
  x74; x0a; x91; x75; x0a; x91; x76; x0a;
  x91; x77; x0a; x91; x78; x0a; x91; x79;
  x0a; x91; x7a; x0a; x91; x7b; x0a; x91;
  x7c; x0a; x91; x7d; x0a; x91; x7e; x0a;
  x91; xa1; x0a; x91; xa2; x0a; x91; xa3;
  x0a; x91; xa4; x0a; x91; xa5; x0a; x91;
  xa6; x0a; x91; xa7; x0a; x91; xa8; x0a;
  x91; xa9; x0a; x91; xaa; x0a; x91; xab;
  x0a; x91; xac; x0a; x91; xad; x0a; x91;
  xae; x0a; x91; xaf; x0a; x91; xb0; x0a;
  x91; xb1; x0a; x91; xb2; x0a; x91; xb3;
  x0a; x91; xb4; x0a; x91; xb5; x0a; x91;
  xb6; x0a; x91; xb7; x0a; x91; xb8; x0a;
  x91; xb9; x0a; x91; xba; x0a; x91; xbb;
  x0a; x91; xbc; x0a; x91; xbd; x0a; x91;
  xbe; x0a; x91; xbf; x0a; x91; xc0; x0a;
  x91; xc1; x0a; x91; xc2; x0a; x91; xc3;
  x0a; x91; xc4; x0a; x91; xc5; x0a; x91;
  xc6; x0a; x91; xc7; x0a; x91; xc8; x0a;
  x91; xc9; x0a; x91; xca; x0a; x91; xcb;
  x0a; x91; xcc; x0a; x91; xcd; x0a; x91;
  xce; x0a; x91; xcf; x0a; x91; xd0; x0a;
  x91; xd1; x0a; x91; xd2; x0a; x91; xd3;
  x0a; x91; xd4; x0a; x91; xd5; x0a; x91;
  xd6; x0a; x91; xd7; x0a; x91; xd8; x0a;
  x91; xd9; x0a; x91; xda; x0a; x91; xdb
].
(* tests/test_data/whatwg/big5_whatwg_test_decode_in.txt, entries 4864..5119 *)
Definition big5_decode_in_19 : list byte := [
  x0a; x91; xdc; x0a; x91; xdd; x0a; x91;
  xde; x0a; x91; xdf; x0a; x91; xe0; x0a;
  x91; xe1; x0a; x91; xe2; x0a; x91; xe3;
  x0a; x91; xe4; x0a; x91; xe5; x0a; x91;
  xe6; x0a; x91; xe7; x0a; x91; xe8; x0a;
  x91; xe9; x0a; x91; xea; x0a; x91; xeb;
  x0a; x91; xec; x0a; x91; xed; x0a; x91;
  xee; x0a; x91; xef; x0a; x91; xf0; x0a;
  x91; xf1; x0a; x91; xf2; x0a; x91; xf3;
  x0a; x91; xf4; x0a; x91; xf5; x0a; x91;
  xf6; x0a; x91; xf7; x0a; x91; xf8; x0a;
  x91; xf9; x0a; x91; xfa; x0a; x91; xfb;
  x0a; x91; xfc; x0a; x91; xfd; x0a; x91;
  xfe; x0a; x92; x40; x0a; x92; x41; x0a;
  x92; x42; x0a; x92; x43; x0a; x92; x44;
  x0a; x92; x45; x0a; x92; x46; x0a; x92;
  x47; x0a; x92; x48; x0a; x92; x49; x0a;
  x92; x4a; x0a; x92; x4b; x0a; x92; x4c;
  x0a; x92; x4d; x0a; x92; x4e; x0a; x92;
  x4f; x0a; x92; x50; x0a; x92; x51; x0a;
  x92; x52; x0a; x92; x53; x0a; x92; x54;
  x0a; x92; x55; x0a; x92; x56; x0a; x92;
  x57; x0a; x92; x58; x0a; x92; x59; x0a;
  x92; x5a; x0a; x92; x5b; x0a; x92; x5c;
  x0a; x92; x5d; x0a; x92; x5e; x0a; x92;
  x5f; x0a; x92; x60; x0a; x92; x61; x0a;
  x92; x62; x0a; x92; x63; x0a; x92; x64;
  x0a; x92; x65; x0a; x92; x66; x0a; x92;
  x67; x0a; x92; x68; x0a; x92; x69; x0a;
  x92; x6a; x0a; x92; x6b; x0a; x92; x6c;
  x0a; x92; x6d; x0a; x92; x6e; x0a; x92;
  x6f; x0a; x92; x70; x0a; x92; x71; x0a
].
(* tests/test_data/whatwg/big5_whatwg_test_decode_in.txt, entries 5120..5375 *)
Definition big5_decode_in_20 : list byte := [
  x92; x72; x0a; x92; x73; x0a; x92; x74;
  x0a; x92; x75; x0a; x92; x76; x0a; x92;
  x77; x0a; x92; x78; x0a; x92; x79; x0a;
  x92; x7a; x0a; x92; x7b; x0a; x92; x7c;
  x0a; x92; x7d; x0a; x92; x7e; x0a; x92;
  xa1; x0a; x92; xa2; x0a; x92; xa3; x0a;
  x92; xa4; x0a; x92; xa5; x0a; x92; xa6;
  x0a; x92; xa7; x0a; x92; xa8; x0a; x92;
  xa9; x0a; x92; xaa; x0a; x92; xab; x0a;
  x92; xac; x0a; x92; xad; x0a; x92; xae;
  x0a; x92; xaf; x0a; x92; xb0; x0a; x92;
  xb1; x0a; x92; xb2; x0a; x92; xb3; x0a;
  x92; xb4; x0a; x92; xb5; x0a; x92; xb6;
  x0a; x92; xb7; x0a; x92; xb8; x0a; x92;
  xb9; x0a; x92; xba; x0a; x92; xbb; x0a;
  x92; xbc; x0a; x92; xbd; x0a; x92; xbe;
  x0a; x92; xbf; x0a; x92; xc0; x0a; x92;
  xc1; x0a; x92; xc2; x0a; x92; xc3; x0a;
  x92; xc4; x0a; x92; xc5; x0a; x92; xc6;
  x0a; x92; xc7; x0a; x92; xc8; x0a; x92;
  xc9; x0a; x92; xca; x0a; x92; xcb; x0a;
  x92; xcc; x0a; x92; xcd; x0a; x92; xce;
  x0a; x92; xcf; x0a; x92; xd0; x0a; x92;
  xd1; x0a; x92; xd2; x0a; x92; xd3; x0a;
  x92; xd4; x0a; x92; xd5; x0a; x92; xd6;
  x0a; x92; xd7; x0a; x92; xd8; x0a; x92;
  xd9; x0a; x92; xda; x0a; x92; xdb; x0a;
  x92; xdc; x0a; x92; xdd; x0a; x92; xde;
  x0a; x92; xdf; x0a; x92; xe0; x0a; x92;
  xe1; x0a; x92; xe2; x0a; x92; xe3; x0a;
  x92; xe4; x0a; x92; xe5; x0a; x92; xe6;
  x0a; x92; xe7; x0a; x92; xe8; x0a; x92
].
(* tests/test_data/whatwg/big5_whatwg_test_decode_in.txt, entries 5376..5631 *)
Definition big5_decode_in_21 : list byte := [
  xe9; x0a; x92; xea; x0a; x92; xeb; x0a;
  x92; xec; x0a; x92; xed; x0a; x92; xee;
  x0a; x92; xef; x0a; x92; xf0; x0a; x92;
  xf1; x0a; x92; xf2; x0a; x92; xf3; x0a;
  x92; xf4; x0a; x92; xf5; x0a; x92; xf6;
  x0a; x92; xf7; x0a; x92; xf8; x0a; x92;
  xf9; x0a; x92; xfa; x0a; x92; xfb; x0a;
  x92; xfc; x0a; x92; xfd; x0a; x92; xfe;
  x0a; x93; x40; x0a; x93; x41; x0a; x93;
  x42; x0a; x93; x43; x0a; x93; x44; x0a;
  x93; x45; x0a; x93; x46; x0a; x93; x47;
  x0a; x93; x48; x0a; x93; x49; x0a; x93;
  x4a; x0a; x93; x4b; x0a; x93; x4c; x0a;
  x93; x4d; x0a; x93; x4e; x0a; x93; x4f;
  x0a; x93; x50; x0a; x93; x51; x0a; x93;
  x52; x0a; x93; x53; x0a; x93; x54; x0a;
  x93; x55; x0a; x93; x56; x0a; x93; x57;
  x0a; x93; x58; x0a; x93; x59; x0a; x93;
  x5a; x0a; x93; x5b; x0a; x93; x5c; x0a;
  x93; x5d; x0a; x93; x5e; x0a; x93; x5f;
  x0a; x93; x60; x0a; x93; x61; x0a; x93;
  x62; x0a; x93; x63; x0a; x93; x64; x0a;
  x93; x65; x0a; x93; x66; x0a; x93; x67;
  x0a; x93; x68; x0a; x93; x69; x0a; x93;
  x6a; x0a; x93; x6b; x0a; x93; x6c; x0a;
  x93; x6d; x0a; x93; x6e; x0a; x93; x6f;
  x0a; x93; x70; x0a; x93; x71; x0a; x93;
  x72; x0a; x93; x73; x0a; x93; x74; x0a;
  x93; x75; x0a; x93; x76; x0a; x93; x77;
  x0a; x93; x78; x0a; x93; x79; x0a; x93;
  x7a; x0a; x93; x7b; x0a; x93; x7c; x0a;
  x93; x7d; x0a; x93; x7e; x0a; x93; xa1
].
(* tests/test_data/whatwg/big5_whatwg_test_decode_in.txt, entries 5632..5887 *)
Definition big5_decode_in_22 : list byte := [
  x0a; x93; xa2; x0a; x93; xa3; x0a; x93;
  xa4; x0a; x93; xa5; x0a; x93; xa6; x0a;
  x93; xa7; x0a; x93; xa8; x0a; x93; xa9;
  x0a; x93; xaa; x0a; x93; xab; x0a; x93;
  xac; x0a; x93; xad; x0a; x93; xae; x0a;
  x93; xaf; x0a; x93; xb0; x0a; x93; xb1;
  x0a; x93; xb2; x0a; x93; xb3; x0a; x93;
  xb4; x0a; x93; xb5; x0a; x93; xb6; x0a;
  x93; xb7; x0a; x93; xb8; x0a; x93; xb9;
  x0a; x93; xba; x0a; x93; xbb; x0a; x93;
  xbc; x0a; x93; xbd; x0a; x93; xbe; x0a;
  x93; xbf; x0a; x93; xc0; x0a; x93; xc1;
  x0a; x93; xc2; x0a; x93; xc3; x0a; x93;
  xc4; x0a; x93; xc5; x0a; x93; xc6; x0a;
  x93; xc7; x0a; x93; xc8; x0a; x93; xc9;
  x0a; x93; xca; x0a; x93; xcb; x0a; x93;
  xcc; x0a; x93; xcd; x0a; x93; xce; x0a;
  x93; xcf; x0a; x93; xd0; x0a; x93; xd1;
  x0a; x93; xd2; x0a; x93; xd3; x0a; x93;
  xd4; x0a; x93; xd5; x0a; x93; xd6; x0a;
  x93; xd7; x0a; x93; xd8; x0a; x93; xd9;
  x0a; x93; xda; x0a; x93; xdb; x0a; x93;
  xdc; x0a; x93; xdd; x0a; x93; xde; x0a;
  x93; xdf; x0a; x93; xe0; x0a; x93; xe1;
  x0a; x93; xe2; x0a; x93; xe3; x0a; x93;
  xe4; x0a; x93; xe5; x0a; x93; xe6; x0a;
  x93; xe7; x0a; x93; xe8; x0a; x93; xe9;
  x0a; x93; xea; x0a; x93; xeb; x0a; x93;
  xec; x0a; x93; xed; x0a; x93; xee; x0a;
  x93; xef; x0a; x93; xf0; x0a; x93; xf1;
  x0a; x93; xf2; x0a; x93; xf3; x0a; x93;
  xf4; x0a; x93; xf5; x0a; x93; xf6; x0a
].
(* tests/test_data/whatwg/big5_whatwg_test_decode_in.txt, entries 5888..6143 *)
Definition big5_decode_in_23 : list byte := [
  x93; xf7; x0a; x93; xf8; x0a; x93; xf9;
  x0a; x93; xfa; x0a; x93; xfb; x0a; x93;
  xfc; x0a; x93; xfd; x0a; x93; xfe; x0a;
  x94; x40; x0a; x94; x41; x0a; x94; x42;
  x0a; x94; x43; x0a; x94; x44; x0a; x94;
  x45; x0a; x94; x46; x0a; x94; x47; x0a;
  x94; x48; x0a; x94; x49; x0a; x94; x4a;
  x0a; x94; x4b; x0a; x94; x4c; x0a; x94;
  x4d; x0a; x94; x4e; x0a; x94; x4f; x0a;
  x94; x50; x0a; x94; x51; x0a; x94; x52;
  x0a; x94; x53; x0a; x94; x54; x0a; x94;
  x55; x0a; x94; x56; x0a; x94; x57; x0a;
  x94; x58; x0a; x94; x59; x0a; x94; x5a;
  x0a; x94; x5b; x0a; x94; x5c; x0a; x94;
  x5d; x0a; x94; x5e; x0a; x94; x5f; x0a;
  x94; x60; x0a; x94; x61; x0a; x94; x62;
  x0a; x94; x63; x0a; x94; x64; x0a; x94;
  x65; x0a; x94; x66; x0a; x94; x67; x0a;
  x94; x68; x0a; x94; x69; x0a; x94; x6a;
  x0a; x94; x6b; x0a; x94; x6c; x0a; x94;
  x6d; x0a; x94; x6e; x0a; x94; x6f; x0a;
  x94; x70; x0a; x94; x71; x0a; x94; x72;
  x0a; x94; x73; x0a; x94; x74; x0a; x94;
  x75; x0a; x94; x76; x0a; x94; x77; x0a;
  x94; x78; x0a; x94; x79; x0a; x94; x7a;
  x0a; x94; x7b; x0a; x94; x7c; x0a; x94;
  x7d; x0a; x94; x7e; x0a; x94; xa1; x0a;
  x94; xa2; x0a; x94; xa3; x0a; x94; xa4;
  x0a; x94; xa5; x0a; x94; xa6; x0a; x94;
  xa7; x0a; x94; xa8; x0a; x94; xa9; x0a;
  x94; xaa; x0a; x94; xab; x0a; x94; xac;
  x0a; x94; xad; x0a; x94; xae; x0a; x94
].
(* tests/test_data/whatwg/big5_whatwg_test_decode_in.txt, entries 6144..6399 *)
Definition big5_decode_in_24 : list byte := [
  xaf; x0a; x94; xb0; x0a; x94; xb1; x0a;
  x94; xb2; x0a; x94; xb3; x0a; x94; xb4;
  x0a; x94; xb5; x0a; x94; xb6; x0a; x94;
  xb7; x0a; x94; xb8; x0a; x94; xb9; x0a;
  x94; xba; x0a; x94; xbb; x0a; x94; xbc;
  x0a; x94; xbd; x0a; x94; xbe; x0a; x94;
  xbf; x0a; x94; xc0; x0a; x94; xc1; x0a;
  x94; xc2; x0a; x94; xc3; x0a; x94; xc4;
  x0a; x94; xc5; x0a; x94; xc6; x0a; x94;
  xc7; x0a; x94; xc8; x0a; x94; xc9; x0a;
  x94; xca; x0a; x94; xcb; x0a; x94; xcc;
  x0a; x94; xcd; x0a; x94; xce; x0a; x94;
  xcf; x0a; x94; xd0; x0a; x94; xd1; x0a;
  x94; xd2; x0a; x94; xd3; x0a; x94; xd4;
  x0a; x94; xd5; x0a; x94; xd6; x0a; x94;
  xd7; x0a; x94; xd8; x0a; x94; xd9; x0a;
  x94; xda; x0a; x94; xdb; x0a; x94; xdc;
  x0a; x94; xdd; x0a; x94; xde; x0a; x94;
  xdf; x0a; x94; xe0; x0a; x94; xe1; x0a;
  x94; xe2; x0a; x94; xe3; x0a; x94; xe4;
  x0a; x94; xe5; x0a; x94; xe6; x0a; x94;
  xe7; x0a; x94; xe8; x0a; x94; xe9; x0a;
  x94; xea; x0a; x94; xeb; x0a; x94; xec;
  x0a; x94; xed; x0a; x94; xee; x0a; x94;
  xef; x0a; x94; xf0; x0a; x94; xf1; x0a;
  x94; xf2; x0a; x94; xf3; x0a; x94; xf4;
  x0a; x94; xf5; x0a; x94; xf6; x0a; x94;
  xf7; x0a; x94; xf8; x0a; x94; xf9; x0a;
  x94; xfa; x0a; x94; xfb; x0a; x94; xfc;
  x0a; x94; xfd; x0a; x94; xfe; x0a; x95;
  x40; x0a; x95; x41; x0a; x95; x42; x0a;
  x95; x43; x0a; x95; x44; x0a; x95; x45
].
(* tests/test_data/whatwg/big5_whatwg_test_decode_in.txt, entries 6400..6655 *)
Definition big5_decode_in_25 : list byte := [
  x0a; x95; x46; x0a; x95; x47; x0a; x95;
  x48; x0a; x95; x49; x0a; x95; x4a; x0a;
  x95; x4b; x0a; x95; x4c; x0a; x95; x4d;
  x0a; x95; x4e; x0a; x95; x4f; x0a; x95;
  x50; x0a; x95; x51; x0a; x95; x52; x0a;
  x95; x53; x0a; x95; x54; x0a; x95; x55;
  x0a; x95; x56; x0a; x95; x57; x0a; x95;
  x58; x0a; x95; x59; x0a; x95; x5a; x0a;
  x95; x5b; x0a; x95; x5c; x0a; x95; x5d;
  x0a; x95; x5e; x0a; x95; x5f; x0a; x95;
  x60; x0a; x95; x61; x0a; x95; x62; x0a;
  x95; x63; x0a; x95; x64; x0a; x95; x65;
  x0a; x95; x66; x0a; x95; x67; x0a; x95;
  x68; x0a; x95; x69; x0a; x95; x6a; x0a;
  x95; x6b; x0a; x95; x6c; x0a; x95; x6d;
  x0a; x95; x6e; x0a; x95; x6f; x0a; x95;
  x70; x0a; x95; x71; x0a; x95; x72; x0a;
  x95; x73; x0a; x95; x74; x0a; x95; x75;
  x0a; x95; x76; x0a; x95; x77; x0a; x95;
  x78; x0a; x95; x79; x0a; x95; x7a; x0a;
  x95; x7b; x0a; x95; x7c; x0a; x95; x7d;
  x0a; x95; x7e; x0a; x95; xa1; x0a; x95;
  xa2; x0a; x95; xa3; x0a; x95; xa4; x0a;
  x95; xa5; x0a; x95; xa6; x0a; x95; xa7;
  x0a; x95; xa8; x0a; x95; xa9; x0a; x95;
  xaa; x0a; x95; xab; x0a; x95; xac; x0a;
  x95; xad; x0a; x95; xae; x0a; x95; xaf;
  x0a; x95; xb0; x0a; x95; xb1; x0a; x95;
  xb2; x0a; x95; xb3; x0a; x95; xb4; x0a;
  x95; xb5; x0a; x95; xb6; x0a; x95; xb7;
  x0a; x95; xb8; x0a; x95; xb9; x0a; x95;
  xba; x0a; x95; xbb; x0a; x95; xbc; x0a
].
(* tests/test_data/whatwg/big5_whatwg_test_decode_in.txt, entries 6656..6911 *)
Definition big5_decode_in_26 : list byte := [
  x95; xbd; x0a; x95; xbe; x0a; x95; xbf;
  x0a; x95; xc0; x0a; x95; xc1; x0a; x95;
  xc2; x0a; x95; xc3; x0a; x95; xc4; x0a;
  x95; xc5; x0a; x95; xc6; x0a; x95; xc7;
  x0a; x95; xc8; x0a; x95; xc9; x0a; x95;
  xca; x0a; x95; xcb; x0a; x95; xcc; x0a;
  x95; xcd; x0a; x95; xce; x0a; x95; xcf;
  x0a; x95; xd0; x0a; x95; xd1; x0a; x95;
  xd2; x0a; x95; xd3; x0a; x95; xd4; x0a;
  x95; xd5; x0a; x95; xd6; x0a; x95; xd7;
  x0a; x95; xd8; x0a; x95; xd9; x0a; x95;
  xda; x0a; x95; xdb; x0a; x95; xdc; x0a;
  x95; xdd; x0a; x95; xde; x0a; x95; xdf;
  x0a; x95; xe0; x0a; x95; xe1; x0a; x95;
  xe2; x0a; x95; xe3; x0a; x95; xe4; x0a;
  x95; xe5; x0a; x95; xe6; x0a; x95; xe7;
  x0a; x95; xe8; x0a; x95; xe9; x0a; x95;
  xea; x0a; x95; xeb; x0a; x95; xec; x0a;
  x95; xed; x0a; x95; xee; x0a; x95; xef;
  x0a; x95; xf0; x0a; x95; xf1; x0a; x95;
  xf2; x0a; x95; xf3; x0a; x95; xf4; x0a;
  x95; xf5; x0a; x95; xf6; x0a; x95; xf7;
  x0a; x95; xf8; x0a; x95; xf9; x0a; x95;
  xfa; x0a; x95; xfb; x0a; x95; xfc; x0a;
  x95; xfd; x0a; x95; xfe; x0a; x96; x40;
  x0a; x96; x41; x0a; x96; x42; x0a; x96;
  x43; x0a; x96; x44; x0a; x96; x45; x0a;
  x96; x46; x0a; x96; x47; x0a; x96; x48;
  x0a; x96; x49; x0a; x96; x4a; x0a; x96;
  x4b; x0a; x96; x4c; x0a; x96; x4d; x0a;
  x96; x4e; x0a; x96; x4f; x0a; x96; x50;
  x0a; x96; x51; x0a; x96; x52; x0a; x96
].
(* tests/test_data/whatwg/big5_whatwg_test_decode_in.txt, entries 6912..7167 *)
Definition big5_decode_in_27 : list byte := [
  x53; x0a; x96; x54; x0a; x96; x55; x0a;
  x96; x56; x0a; x96; x57; x0a; x96; x58;
  x0a; x96; x59; x0a; x96; x5a; x0a; x96;
  x5b; x0a; x96; x5c; x0a; x96; x5d; x0a;
  x96; x5e; x0a; x96; x5f; x0a; x96; x60;
  x0a; x96; x61; x0a; x96; x62; x0a; x96;
  x63; x0a; x96; x64; x0a; x96; x65; x0a;
  x96; x66; x0a; x96; x67; x0a; x96; x68;
  x0a; x96; x69; x0a; x96; x6a; x0a; x96;
  x6b; x0a; x96; x6c; x0a; x96; x6d; x0a;
  x96; x6e; x0a; x96; x6f; x0a; x96; x70;
  x0a; x96; x71; x0a; x96; x72; x0a; x96;
  x73; x0a; x96; x74; x0a; x96; x75; x0a;
  x96; x76; x0a; x96; x77; x0a; x96; x78;
  x0a; x96; x79; x0a; x96; x7a; x0a; x96;
  x7b; x0a; x96; x7c; x0a; x96; x7d; x0a;
  x96; x7e; x0a; x96; xa1; x0a; x96; xa2;
  x0a; x96; xa3; x0a; x96; xa4; x0a; x96;
  xa5; x0a; x96; xa6; x0a; x96; xa7; x0a;
  x96; xa8; x0a; x96; xa9; x0a; x96; xaa;
  x0a; x96; xab; x0a; x96; xac; x0a; x96;
  xad; x0a; x96; xae; x0a; x96; xaf; x0a;
  x96; xb0; x0a; x96; xb1; x0a; x96; xb2;
  x0a; x96; xb3; x0a; x96; xb4; x0a; x96;
  xb5; x0a; x96; xb6; x0a; x96; xb7; x0a;
  x96; xb8; x0a; x96; xb9; x0a; x96; xba;
  x0a; x96; xbb; x0a; x96; xbc; x0a; x96;
  xbd; x0a; x96; xbe; x0a; x96; xbf; x0a;
  x96; xc0; x0a; x96; xc1; x0a; x96; xc2;
  x0a; x96; xc3; x0a; x96; xc4; x0a; x96;
  xc5; x0a; x96; xc6; x0a; x96; xc7; x0a;
  x96; xc8; x0a; x96; xc9; x0a; x96; xca
].
(* tests/test_data/whatwg/big5_whatwg_test_decode_in.txt, entries 7168..7423 *)
Definition big5_decode_in_28 : list byte := [
  x0a; x96; xcb; x0a; x96; xcc; x0a; x96;
  xcd; x0a; x96; xce; x0a; x96; xcf; x0a;
  x96; xd0; x0a; x96; xd1; x0a; x96; xd2;
  x0a; x96; xd3; x0a; x96; xd4; x0a; x96;
  xd5; x0a; x96; xd6; x0a; x96; xd7; x0a;
  x96; xd8; x0a; x96; xd9; x0a; x96; xda;
  x0a; x96; xdb; x0a; x96; xdc; x0a; x96;
  xdd; x0a; x96; xde; x0a; x96; xdf; x0a;
  x96; xe0; x0a; x96; xe1; x0a; x96; xe2;
  x0a; x96; xe3; x0a; x96; xe4; x0a; x96;
  xe5; x0a; x96; xe6; x0a; x96; xe7; x0a;
  x96; xe8; x0a; x96; xe9; x0a; x96; xea;
  x0a; x96; xeb; x0a; x96; xec; x0a; x96;
  xed; x0a; x96; xee; x0a; x96; xef; x0a;
  x96; xf0; x0a; x96; xf1; x0a; x96; xf2;
  x0a; x96; xf3; x0a; x96; xf4; x0a; x96;
  xf5; x0a; x96; xf6; x0a; x96; xf7; x0a;
  x96; xf8; x0a; x96; xf9; x0a; x96; xfa;
  x0a; x96; xfb; x0a; x96; xfc; x0a; x96;
  xfd; x0a; x96; xfe; x0a; x97; x40; x0a;
  x97; x41; x0a; x97; x42; x0a; x97; x43;
  x0a; x97; x44; x0a; x97; x45; x0a; x97;
  x46; x0a; x97; x47; x0a; x97; x48; x0a;
  x97; x49; x0a; x97; x4a; x0a; x97; x4b;
  x0a; x97; x4c; x0a; x97; x4d; x0a; x97;
  x4e; x0a; x97; x4f; x0a; x97; x50; x0a;
  x97; x51; x0a; x97; x52; x0a; x97; x53;
  x0a; x97; x54; x0a; x97; x55; x0a; x97;
  x56; x0a; x97; x57; x0a; x97; x58; x0a;
  x97; x59; x0a; x97; x5a; x0a; x97; x5b;
  x0a; x97; x5c; x0a; x97; x5d; x0a; x97;
  x5e; x0a; x97; x5f; x0a; x97; x60; x0a
].
(* tests/test_data/whatwg/big5_whatwg_test_decode_in.txt, entries 7424..7679 *)
Definition big5_decode_in_29 : list byte := [
  x97; x61; x0a; x97; x62; x0a; x97; x63;
  x0a; x97; x64; x0a; x97; x65; x0a; x97;
  x66; x0a; x97; x67; x0a; x97; x68; x0a;
  x97; x69; x0a; x97; x6a; x0a; x97; x6b;
  x0a; x97; x6c; x0a; x97; x6d; x0a; x97;
  x6e; x0a; x97; x6f; x0a; x97; x70; x0a;
  x97; x71; x0a; x97; x72; x0a; x97; x73;
  x0a; x97; x74; x0a; x97; x75; x0a; x97;
  x76; x0a; x97; x77; x0a; x97; x78; x0a;
  x97; x79; x0a; x97; x7a; x0a; x97; x7b;
  x0a; x97; x7c; x0a; x97; x7d; x0a; x97;
  x7e; x0a; x97; xa1; x0a; x97; xa2; x0a;
  x97; xa3; x0a; x97; xa4; x0a; x97; xa5;
  x0a; x97; xa6; x0a; x97; xa7; x0a; x97;
  xa8; x0a; x97; xa9; x0a; x97; xaa; x0a;
  x97; xab; x0a; x97; xac; x0a; x97; xad;
  x0a; x97; xae; x0a; x97; xaf; x0a; x97;
  xb0; x0a; x97; xb1; x0a; x97; xb2; x0a;
  x97; xb3; x0a; x97; xb4; x0a; x97; xb5;
  x0a; x97; xb6; x0a; x97; xb7; x0a; x97;
  xb8; x0a; x97; xb9; x0a; x97; xba; x0a;
  x97; xbb; x0a; x97; xbc; x0a; x97; xbd;
  x0a; x97; xbe; x0a; x97; xbf; x0a; x97;
  xc0; x0a; x97; xc1; x0a; x97; xc2; x0a;
  x97; xc3; x0a; x97; xc4; x0a; x97; xc5;
  x0a; x97; xc6; x0a; x97; xc7; x0a; x97;
  xc8; x0a; x97; xc9; x0a; x97; xca; x0a;
  x97; xcb; x0a; x97; xcc; x0a; x97; xcd;
  x0a; x97; xce; x0a; x97; xcf; x0a; x97;
  xd0; x0a; x97; xd1; x0a; x97; xd2; x0a;
  x97; xd3; x0a; x97; xd4; x0a; x97; xd5;
  x0a; x97; xd6; x0a; x97; xd7; x0a; x97
].
(* tests/test_data/whatwg/big5_whatwg_test_decode_in.txt, entries 7680..7935 *)
Definition big5_decode_in_30 : list byte := [
  xd8; x0a; x97; xd9; x0a; x97; xda; x0a;
  x97; xdb; x0a; x97; xdc; x0a; x97; xdd;
  x0a; x97; xde; x0a; x97; xdf; x0a; x97;
  xe0; x0a; x97; xe1; x0a; x97; xe2; x0a;
  x97; xe3; x0a; x97; xe4; x0a; x97; xe5;
  x0a; x97; xe6; x0a; x97; xe7; x0a; x97;
  xe8; x0a; x97; xe9; x0a; x97; xea; x0a;
  x97; xeb; x0a; x97; xec; x0a; x97; xed;
  x0a; x97; xee; x0a; x97; xef; x0a; x97;
  xf0; x0a; x97; xf1; x0a; x97; xf2; x0a;
  x97; xf3; x0a; x97; xf4; x0a; x97; xf5;
  x0a; x97; xf6; x0a; x97; xf7; x0a; x97;
  xf8; x0a; x97; xf9; x0a; x97; xfa; x0a;
  x97; xfb; x0a; x97; xfc; x0a; x97; xfd;
  x0a; x97; xfe; x0a; x98; x40; x0a; x98;
  x41; x0a; x98; x42; x0a; x98; x43; x0a;
  x98; x44; x0a; x98; x45; x0a; x98; x46;
  x0a; x98; x47; x0a; x98; x48; x0a; x98;
  x49; x0a; x98; x4a; x0a; x98; x4b; x0a;
  x98; x4c; x0a; x98; x4d; x0a; x98; x4e;
  x0a; x98; x4f; x0a; x98; x50; x0a; x98;
  x51; x0a; x98; x52; x0a; x98; x53; x0a;
  x98; x54; x0a; x98; x55; x0a; x98; x56;
  x0a; x98; x57; x0a; x98; x58; x0a; x98;
  x59; x0a; x98; x5a; x0a; x98; x5b; x0a;
  x98; x5c; x0a; x98; x5d; x0a; x98; x5e;
  x0a; x98; x5f; x0a; x98; x60; x0a; x98;
  x61; x0a; x98; x62; x0a; x98; x63; x0a;
  x98; x64; x0a; x98; x65; x0a; x98; x66;
  x0a; x98; x67; x0a; x98; x68; x0a; x98;
  x69; x0a; x98; x6a; x0a; x98; x6b; x0a;
  x98; x6c; x0a; x98; x6d; x0a; x98; x6e
].
(* tests/test_data/whatwg/big5_whatwg_test_decode_in.txt, entries 7936..8191 *)
Definition big5_decode_in_31 : list byte := [
  x0a; x98; x6f; x0a; x98; x70; x0a; x98;
  x71; x0a; x98; x72; x0a; x98; x73; x0a;
  x98; x74; x0a; x98; x75; x0a; x98; x76;
  x0a; x98; x77; x0a; x98; x78; x0a; x98;
  x79; x0a; x98; x7a; x0a; x98; x7b; x0a;
  x98; x7c; x0a; x98; x7d; x0a; x98; x7e;
  x0a; x98; xa1; x0a; x98; xa2; x0a; x98;
  xa3; x0a; x98; xa4; x0a; x98; xa5; x0a;
  x98; xa6; x0a; x98; xa7; x0a; x98; xa8;
  x0a; x98; xa9; x0a; x98; xaa; x0a; x98;
  xab; x0a; x98; xac; x0a; x98; xad; x0a;
  x98; xae; x0a; x98; xaf; x0a; x98; xb0;
  x0a; x98; xb1; x0a; x98; xb2; x0a; x98;
  xb3; x0a; x98; xb4; x0a; x98; xb5; x0a;
  x98; xb6; x0a; x98; xb7; x0a; x98; xb8;
  x0a; x98; xb9; x0a; x98; xba; x0a; x98;
  xbb; x0a; x98; xbc; x0a; x98; xbd; x0a;
  x98; xbe; x0a; x98; xbf; x0a; x98; xc0;
  x0a; x98; xc1; x0a; x98; xc2; x0a; x98;
  xc3; x0a; x98; xc4; x0a; x98; xc5; x0a;
  x98; xc6; x0a; x98; xc7; x0a; x98; xc8;
  x0a; x98; xc9; x0a; x98; xca; x0a; x98;
  xcb; x0a; x98; xcc; x0a; x98; xcd; x0a;
  x98; xce; x0a; x98; xcf; x0a; x98; xd0;
  x0a; x98; xd1; x0a; x98; xd2; x0a; x98;
  xd3; x0a; x98; xd4; x0a; x98; xd5; x0a;
  x98; xd6; x0a; x98; xd7; x0a; x98; xd8;
  x0a; x98; xd9; x0a; x98; xda; x0a; x98;
  xdb; x0a; x98; xdc; x0a; x98; xdd; x0a;
  x98; xde; x0a; x98; xdf; x0a; x98; xe0;
  x0a; x98; xe1; x0a; x98; xe2; x0a; x98;
  xe3; x0a; x98; xe4; x0a; x98; xe5; x0a
].
(* tests/test_data/whatwg/big5_whatwg_test_decode_in.txt, entries 8192..8447 *)
Definition big5_decode_in_32 : list byte := [
  x98; xe6; x0a; x98; xe7; x0a; x98; xe8;
  x0a; x98; xe9; x0a; x98; xea; x0a; x98;
  xeb; x0a; x98; xec; x0a; x98; xed; x0a;
  x98; xee; x0a; x98; xef; x0a; x98; xf0;
  x0a; x98; xf1; x0a; x98; xf2; x0a; x98;
  xf3; x0a; x98; xf4; x0a; x98; xf5; x0a;
  x98; xf6; x0a; x98; xf7; x0a; x98; xf8;
  x0a; x98; xf9; x0a; x98; xfa; x0a; x98;
  xfb; x0a; x98; xfc; x0a; x98; xfd; x0a;
  x98; xfe; x0a; x99; x40; x0a; x99; x41;
  x0a; x99; x42; x0a; x99; x43; x0a; x99;
  x44; x0a; x99; x45; x0a; x99; x46; x0a;
  x99; x47; x0a; x99; x48; x0a; x99; x49;
  x0a; x99; x4a; x0a; x99; x4b; x0a; x99;
  x4c; x0a; x99; x4d; x0a; x99; x4e; x0a;
  x99; x4f; x0a; x99; x50; x0a; x99; x51;
  x0a; x99; x52; x0a; x99; x53; x0a; x99;
  x54; x0a; x99; x55; x0a; x99; x56; x0a;
  x99; x57; x0a; x99; x58; x0a; x99; x59;
  x0a; x99; x5a; x0a; x99; x5b; x0a; x99;
  x5c; x0a; x99; x5d; x0a; x99; x5e; x0a;
  x99; x5f; x0a; x99; x60; x0a; x99; x61;
  x0a; x99; x62; x0a; x99; x63; x0a; x99;
  x64; x0a; x99; x65; x0a; x99; x66; x0a;
  x99; x67; x0a; x99; x68; x0a; x99; x69;
  x0a; x99; x6a; x0a; x99; x6b; x0a; x99;
  x6c; x0a; x99; x6d; x0a; x99; x6e; x0a;
  x99; x6f; x0a; x99; x70; x0a; x99; x71;
  x0a; x99; x72; x0a; x99; x73; x0a; x99;
  x74; x0a; x99; x75; x0a; x99; x76; x0a;
  x99; x77; x0a; x99; x78; x0a; x99; x79;
  x0a; x99; x7a; x0a; x99; x7b; x0a; x99
].
(* tests/test_data/whatwg/big5_whatwg_test_decode_in.txt, entries 8448..8703 *)
Definition big5_decode_in_33 : list byte := [
  x7c; x0a; x99; x7d; x0a; x99; x7e; x0a;
  x99; xa1; x0a; x99; xa2; x0a; x99; xa3;
  x0a; x99; xa4; x0a; x99; xa5; x0a; x99;
  xa6; x0a; x99; xa7; x0a; x99; xa8; x0a;
  x99; xa9; x0a; x99; xaa; x0a; x99; xab;
  x0a; x99; xac; x0a; x99; xad; x0a; x99;
  xae; x0a; x99; xaf; x0a; x99; xb0; x0a;
  x99; xb1; x0a; x99; xb2; x0a; x99; xb3;
  x0a; x99; xb4; x0a; x99; xb5; x0a; x99;
  xb6; x0a; x99; xb7; x0a; x99; xb8; x0a;
  x99; xb9; x0a; x99; xba; x0a; x99; xbb;
  x0a; x99; xbc; x0a; x99; xbd; x0a; x99;
  xbe; x0a; x99; xbf; x0a; x99; xc0; x0a;
  x99; xc1; x0a; x99; xc2; x0a; x99; xc3;
  x0a; x99; xc4; x0a; x99; xc5; x0a; x99;
  xc6; x0a; x99; xc7; x0a; x99; xc8; x0a;
  x99; xc9; x0a; x99; xca; x0a; x99; xcb;
  x0a; x99; xcc; x0a; x99; xcd; x0a; x99;
  xce; x0a; x99; xcf; x0a; x99; xd0; x0a;
  x99; xd1; x0a; x99; xd2; x0a; x99; xd3;
  x0a; x99; xd4; x0a; x99; xd5; x0a; x99;
  xd6; x0a; x99; xd7; x0a; x99; xd8; x0a;
  x99; xd9; x0a; x99; xda; x0a; x99; xdb;
  x0a; x99; xdc; x0a; x99; xdd; x0a; x99;
  xde; x0a; x99; xdf; x0a; x99; xe0; x0a;
  x99; xe1; x0a; x99; xe2; x0a; x99; xe3;
  x0a; x99; xe4; x0a; x99; xe5; x0a; x99;
  xe6; x0a; x99; xe7; x0a; x99; xe8; x0a;
  x99; xe9; x0a; x99; xea; x0a; x99; xeb;
  x0a; x99; xec; x0a; x99; xed; x0a; x99;
  xee; x0a; x99; xef; x0a; x99; xf0; x0a;
  x99; xf1; x0a; x99; xf2; x0a; x99; xf3
].
(* tests/test_data/whatwg/big5_whatwg_test_decode_in.txt, entries 8704..8959 *)
Definition big5_decode_in_34 : list byte := [
  x0a; x99; xf4; x0a; x99; xf5; x0a; x99;
  xf6; x0a; x99; xf7; x0a; x99; xf8; x0a;
  x99; xf9; x0a; x99; xfa; x0a; x99; xfb;
  x0a; x99; xfc; x0a; x99; xfd; x0a; x99;
  xfe; x0a; x9a; x40; x0a; x9a; x41; x0a;
  x9a; x42; x0a; x9a; x43; x0a; x9a; x44;
  x0a; x9a; x45; x0a; x9a; x46; x0a; x9a;
  x47; x0a; x9a; x48; x0a; x9a; x49; x0a;
  x9a; x4a; x0a; x9a; x4b; x0a; x9a; x4c;
  x0a; x9a; x4d; x0a; x9a; x4e; x0a; x9a;
  x4f; x0a; x9a; x50; x0a; x9a; x51; x0a;
  x9a; x52; x0a; x9a; x53; x0a; x9a; x54;
  x0a; x9a; x55; x0a; x9a; x56; x0a; x9a;
  x57; x0a; x9a; x58; x0a; x9a; x59; x0a;
  x9a; x5a; x0a; x9a; x5b; x0a; x9a; x5c;
  x0a; x9a; x5d; x0a; x9a; x5e; x0a; x9a;
  x5f; x0a; x9a; x60; x0a; x9a; x61; x0a;
  x9a; x62; x0a; x9a; x63; x0a; x9a; x64;
  x0a; x9a; x65; x0a; x9a; x66; x0a; x9a;
  x67; x0a; x9a; x68; x0a; x9a; x69; x0a;
  x9a; x6a; x0a; x9a; x6b; x0a; x9a; x6c;
  x0a; x9a; x6d; x0a; x9a; x6e; x0a; x9a;
  x6f; x0a; x9a; x70; x0a; x9a; x71; x0a;
  x9a; x72; x0a; x9a; x73; x0a; x9a; x74;
  x0a; x9a; x75; x0a; x9a; x76; x0a; x9a;
  x77; x0a; x9a; x78; x0a; x9a; x79; x0a;
  x9a; x7a; x0a; x9a; x7b; x0a; x9a; x7c;
  x0a; x9a; x7d; x0a; x9a; x7e; x0a; x9a;
  xa1; x0a; x9a; xa2; x0a; x9a; xa3; x0a;
  x9a; xa4; x0a; x9a; xa5; x0a; x9a; xa6;
  x0a; x9a; xa7; x0a; x9a; xa8; x0a; x9a;
  xa9; x0a; x9a; xaa; x0a; x9a; xab; x0a
].
(* tests/test_data/whatwg/big5_whatwg_test_decode_in.txt, entries 8960..9215 *)
Definition big5_decode_in_35 : list byte := [
  x9a; xac; x0a; x9a; xad; x0a; x9a; xae;
  x0a; x9a; xaf; x0a; x9a; xb0; x0a; x9a;
  xb1; x0a; x9a; xb2; x0a; x9a; xb3; x0a;
  x9a; xb4; x0a; x9a; xb5; x0a; x9a; xb6;
  x0a; x9a; xb7; x0a; x9a; xb8; x0a; x9a;
  xb9; x0a; x9a; xba; x0a; x9a; xbb; x0a;
  x9a; xbc; x0a; x9a; xbd; x0a; x9a; xbe;
  x0a; x9a; xbf; x0a; x9a; xc0; x0a; x9a;
  xc1; x0a; x9a; xc2; x0a; x9a; xc3; x0a;
  x9a; xc4; x0a; x9a; xc5; x0a; x9a; xc6;
  x0a; x9a; xc7; x0a; x9a; xc8; x0a; x9a;
  xc9; x0a; x9a; xca; x0a; x9a; xcb; x0a;
  x9a; xcc; x0a; x9a; xcd; x0a; x9a; xce;
  x0a; x9a; xcf; x0a; x9a; xd0; x0a; x9a;
  xd1; x0a; x9a; xd2; x0a; x9a; xd3; x0a;
  x9a; xd4; x0a; x9a; xd5; x0a; x9a; xd6;
  x0a; x9a; xd7; x0a; x9a; xd8; x0a; x9a;
  xd9; x0a; x9a; xda; x0a; x9a; xdb; x0a;
  x9a; xdc; x0a; x9a; xdd; x0a; x9a; xde;
  x0a; x9a; xdf; x0a; x9a; xe0; x0a; x9a;
  xe1; x0a; x9a; xe2; x0a; x9a; xe3; x0a;
  x9a; xe4; x0a; x9a; xe5; x0a; x9a; xe6;
  x0a; x9a; xe7; x0a; x9a; xe8; x0a; x9a;
  xe9; x0a; x9a; xea; x0a; x9a; xeb; x0a;
  x9a; xec; x0a; x9a; xed; x0a; x9a; xee;
  x0a; x9a; xef; x0a; x9a; xf0; x0a; x9a;
  xf1; x0a; x9a; xf2; x0a; x9a; xf3; x0a;
  x9a; xf4; x0a; x9a; xf5; x0a; x9a; xf6;
  x0a; x9a; xf7; x0a; x9a; xf8; x0a; x9a;
  xf9; x0a; x9a; xfa; x0a; x9a; xfb; x0a;
  x9a; xfc; x0a; x9a; xfd; x0a; x9a; xfe;
  x0a; x9b; x40; x0a; x9b; x41; x0a; x9b
].
(* tests/test_data/whatwg/big5_whatwg_test_decode_in.txt, entries 9216..9471 *)
Definition big5_decode_in_36 : list byte := [
  x42; x0a; x9b; x43; x0a; x9b; x44; x0a;
  x9b; x45; x0a; x9b; x46; x0a; x9b; x47;
  x0a; x9b; x48; x0a; x9b; x49; x0a; x9b;
  x4a; x0a; x9b; x4b; x0a; x9b; x4c; x0a;
  x9b; x4d; x0a; x9b; x4e; x0a; x9b; x4f;
  x0a; x9b; x50; x0a; x9b; x51; x0a; x9b;
  x52; x0a; x9b; x53; x0a; x9b; x54; x0a;
  x9b; x55; x0a; x9b; x56; x0a; x9b; x57;
  x0a; x9b; x58; x0a; x9b; x59; x0a; x9b;
  x5a; x0a; x9b; x5b; x0a; x9b; x5c; x0a;
  x9b; x5d; x0a; x9b; x5e; x0a; x9b; x5f;
  x0a; x9b; x60; x0a; x9b; x62; x0a; x9b;
  x63; x0a; x9b; x64; x0a; x9b; x65; x0a;
  x9b; x66; x0a; x9b; x67; x0a; x9b; x68;
  x0a; x9b; x69; x0a; x9b; x6a; x0a; x9b;
  x6b; x0a; x9b; x6c; x0a; x9b; x6d; x0a;
  x9b; x6e; x0a; x9b; x6f; x0a; x9b; x70;
  x0a; x9b; x71; x0a; x9b; x72; x0a; x9b;
  x73; x0a; x9b; x74; x0a; x9b; x75; x0a;
  x9b; x76; x0a; x9b; x77; x0a; x9b; x78;
  x0a; x9b; x79; x0a; x9b; x7a; x0a; x9b;
  x7b; x0a; x9b; x7c; x0a; x9b; x7d; x0a;
  x9b; x7e; x0a; x9b; xa1; x0a; x9b; xa2;
  x0a; x9b; xa3; x0a; x9b; xa4; x0a; x9b;
  xa5; x0a; x9b; xa6; x0a; x9b; xa7; x0a;
  x9b; xa8; x0a; x9b; xa9; x0a; x9b; xaa;
  x0a; x9b; xab; x0a; x9b; xac; x0a; x9b;
  xad; x0a; x9b; xae; x0a; x9b; xaf; x0a;
  x9b; xb0; x0a; x9b; xb1; x0a; x9b; xb2;
  x0a; x9b; xb3; x0a; x9b; xb4; x0a; x9b;
  xb5; x0a; x9b; xb6; x0a; x9b; xb7; x0a;
  x9b; xb8; x0a; x9b; xb9; x0a; x9b; xba
].
(* tests/test_data/whatwg/big5_whatwg_test_decode_in.txt, entries 9472..9727 *)
Definition big5_decode_in_37 : list byte := [
  x0a; x9b; xbb; x0a; x9b; xbc; x0a; x9b;
  xbd; x0a; x9b; xbe; x0a; x9b; xbf; x0a;
  x9b; xc0; x0a; x9b; xc1; x0a; x9b; xc2;
  x0a; x9b; xc3; x0a; x9b; xc4; x0a; x9b;
  xc5; x0a; x9b; xc6; x0a; x9b; xc7; x0a;
  x9b; xc8; x0a; x9b; xc9; x0a; x9b; xca;
  x0a; x9b; xcb; x0a; x9b; xcc; x0a; x9b;
  xcd; x0a; x9b; xce; x0a; x9b; xcf; x0a;
  x9b; xd0; x0a; x9b; xd1; x0a; x9b; xd2;
  x0a; x9b; xd3; x0a; x9b; xd4; x0a; x9b;
  xd5; x0a; x9b; xd6; x0a; x9b; xd7; x0a;
  x9b; xd8; x0a; x9b; xd9; x0a; x9b; xda;
  x0a; x9b; xdb; x0a; x9b; xdc; x0a; x9b;
  xdd; x0a; x9b; xde; x0a; x9b; xdf; x0a;
  x9b; xe0; x0a; x9b; xe1; x0a; x9b; xe2;
  x0a; x9b; xe3; x0a; x9b; xe4; x0a; x9b;
  xe5; x0a; x9b; xe6; x0a; x9b; xe7; x0a;
  x9b; xe8; x0a; x9b; xe9; x0a; x9b; xea;
  x0a; x9b; xeb; x0a; x9b; xec; x0a; x9b;
  xed; x0a; x9b; xee; x0a; x9b; xef; x0a;
  x9b; xf0; x0a; x9b; xf1; x0a; x9b; xf2;
  x0a; x9b; xf3; x0a; x9b; xf4; x0a; x9b;
  xf5; x0a; x9b; xf6; x0a; x9b; xf7; x0a;
  x9b; xf8; x0a; x9b; xf9; x0a; x9b; xfa;
  x0a; x9b; xfb; x0a; x9b; xfc; x0a; x9b;
  xfd; x0a; x9b; xfe; x0a; x9c; x40; x0a;
  x9c; x41; x0a; x9c; x42; x0a; x9c; x43;
  x0a; x9c; x44; x0a; x9c; x45; x0a; x9c;
  x46; x0a; x9c; x47; x0a; x9c; x48; x0a;
  x9c; x49; x0a; x9c; x4a; x0a; x9c; x4b;
  x0a; x9c; x4c; x0a; x9c; x4d; x0a; x9c;
  x4e; x0a; x9c; x4f; x0a; x9c; x50; x0a
].
(* tests/test_data/whatwg/big5_whatwg_test_decode_in.txt, entries 9728..9983 *)
Definition big5_decode_in_38 : list byte := [
  x9c; x51; x0a; x9c; x52; x0a; x9c; x53;
  x0a; x9c; x54; x0a; x9c; x55; x0a; x9c;
  x56; x0a; x9c; x57; x0a; x9c; x58; x0a;
  x9c; x59; x0a; x9c; x5a; x0a; x9c; x5b;
  x0a; x9c; x5c; x0a; x9c; x5d; x0a; x9c;
  x5e; x0a; x9c; x5f; x0a; x9c; x60; x0a;
  x9c; x61; x0a; x9c; x62; x0a; x9c; x63;
  x0a; x9c; x64; x0a; x9c; x65; x0a; x9c;
  x66; x0a; x9c; x67; x0a; x9c; x68; x0a;
  x9c; x69; x0a; x9c; x6a; x0a; x9c; x6b;
  x0a; x9c; x6c; x0a; x9c; x6d; x0a; x9c;
  x6e; x0a; x9c; x6f; x0a; x9c; x70; x0a;
  x9c; x71; x0a; x9c; x72; x0a; x9c; x73;
  x0a; x9c; x74; x0a; x9c; x75; x0a; x9c;
  x76; x0a; x9c; x77; x0a; x9c; x78; x0a;
  x9c; x79; x0a; x9c; x7a; x0a; x9c; x7b;
  x0a; x9c; x7c; x0a; x9c; x7d; x0a; x9c;
  x7e; x0a; x9c; xa1; x0a; x9c; xa2; x0a;
  x9c; xa3; x0a; x9c; xa4; x0a; x9c; xa5;
  x0a; x9c; xa6; x0a; x9c; xa7; x0a; x9c;
  xa8; x0a; x9c; xa9; x0a; x9c; xaa; x0a;
  x9c; xab; x0a; x9c; xac; x0a; x9c; xad;
  x0a; x9c; xae; x0a; x9c; xaf; x0a; x9c;
  xb0; x0a; x9c; xb1; x0a; x9c; xb2; x0a;
  x9c; xb3; x0a; x9c; xb4; x0a; x9c; xb5;
  x0a; x9c; xb6; x0a; x9c; xb7; x0a; x9c;
  xb8; x0a; x9c; xb9; x0a; x9c; xba; x0a;
  x9c; xbb; x0a; x9c; xbc; x0a; x9c; xbd;
  x0a; x9c; xbe; x0a; x9c; xbf; x0a; x9c;
  xc0; x0a; x9c; xc1; x0a; x9c; xc2; x0a;
  x9c; xc3; x0a; x9c; xc4; x0a; x9c; xc5;
  x0a; x9c; xc6; x0a; x9c; xc7; x0a; x9c
].
(* tests/test_data/whatwg/big5_whatwg_test_decode_in.txt, entries 9984..10239 *)
Definition big5_decode_in_39 : list byte := [
  xc8; x0a; x9c; xc9; x0a; x9c; xca; x0a;
  x9c; xcb; x0a; x9c; xcc; x0a; x9c; xcd;
  x0a; x9c; xce; x0a; x9c; xcf; x0a; x9c;
  xd0; x0a; x9c; xd1; x0a; x9c; xd2; x0a;
  x9c; xd3; x0a; x9c; xd4; x0a; x9c; xd5;
  x0a; x9c; xd6; x0a; x9c; xd7; x0a; x9c;
  xd8; x0a; x9c; xd9; x0a; x9c; xda; x0a;
  x9c; xdb; x0a; x9c; xdc; x0a; x9c; xdd;
  x0a; x9c; xde; x0a; x9c; xdf; x0a; x9c;
  xe0; x0a; x9c; xe1; x0a; x9c; xe2; x0a;
  x9c; xe3; x0a; x9c; xe4; x0a; x9c; xe5;
  x0a; x9c; xe6; x0a; x9c; xe7; x0a; x9c;
  xe8; x0a; x9c; xe9; x0a; x9c; xea; x0a;
  x9c; xeb; x0a; x9c; xec; x0a; x9c; xed;
  x0a; x9c; xee; x0a; x9c; xef; x0a; x9c;
  xf0; x0a; x9c; xf1; x0a; x9c; xf2; x0a;
  x9c; xf3; x0a; x9c; xf4; x0a; x9c; xf5;
  x0a; x9c; xf6; x0a; x9c; xf7; x0a; x9c;
  xf8; x0a; x9c; xf9; x0a; x9c; xfa; x0a;
  x9c; xfb; x0a; x9c; xfc; x0a; x9c; xfd;
  x0a; x9c; xfe; x0a; x9d; x40; x0a; x9d;
  x41; x0a; x9d; x42; x0a; x9d; x43; x0a;
  x9d; x44; x0a; x9d; x45; x0a; x9d; x46;
  x0a; x9d; x47; x0a; x9d; x48; x0a; x9d;
  x49; x0a; x9d; x4a; x0a; x9d; x4b; x0a;
  x9d; x4c; x0a; x9d; x4d; x0a; x9d; x4e;
  x0a; x9d; x4f; x0a; x9d; x50; x0a; x9d;
  x51; x0a; x9d; x52; x0a; x9d; x53; x0a;
  x9d; x54; x0a; x9d; x55; x0a; x9d; x56;
  x0a; x9d; x57; x0a; x9d; x58; x0a; x9d;
  x59; x0a; x9d; x5a; x0a; x9d; x5b; x0a;
  x9d; x5c; x0a; x9d; x5d; x0a; x9d; x5e
].
(* tests/test_data/whatwg/big5_whatwg_test_decode_in.txt, entries 10240..10495 *)
Definition big5_decode_in_40 : list byte := [
  x0a; x9d; x5f; x0a; x9d; x60; x0a; x9d;
  x61; x0a; x9d; x62; x0a; x9d; x63; x0a;
  x9d; x64; x0a; x9d; x65; x0a; x9d; x66;
  x0a; x9d; x67; x0a; x9d; x68; x0a; x9d;
  x69; x0a; x9d; x6a; x0a; x9d; x6b; x0a;
  x9d; x6c; x0a; x9d; x6d; x0a; x9d; x6e;
  x0a; x9d; x6f; x0a; x9d; x70; x0a; x9d;
  x71; x0a; x9d; x72; x0a; x9d; x73; x0a;
  x9d; x74; x0a; x9d; x75; x0a; x9d; x76;
  x0a; x9d; x77; x0a; x9d; x78; x0a; x9d;
  x79; x0a; x9d; x7a; x0a; x9d; x7b; x0a;
  x9d; x7c; x0a; x9d; x7d; x0a; x9d; x7e;
  x0a; x9d; xa1; x0a; x9d; xa2; x0a; x9d;
  xa3; x0a; x9d; xa4; x0a; x9d; xa5; x0a;
  x9d; xa6; x0a; x9d; xa7; x0a; x9d; xa8;
  x0a; x9d; xa9; x0a; x9d; xaa; x0a; x9d;
  xab; x0a; x9d; xac; x0a; x9d; xad; x0a;
  x9d; xae; x0a; x9d; xaf; x0a; x9d; xb0;
  x0a; x9d; xb1; x0a; x9d; xb2; x0a; x9d;
  xb3; x0a; x9d; xb4; x0a; x9d; xb5; x0a;
  x9d; xb6; x0a; x9d; xb7; x0a; x9d; xb8;
  x0a; x9d; xb9; x0a; x9d; xba; x0a; x9d;
  xbb; x0a; x9d; xbc; x0a; x9d; xbd; x0a;
  x9d; xbe; x0a; x9d; xbf; x0a; x9d; xc0;
  x0a; x9d; xc1; x0a; x9d; xc2; x0a; x9d;
  xc3; x0a; x9d; xc4; x0a; x9d; xc5; x0a;
  x9d; xc6; x0a; x9d; xc7; x0a; x9d; xc8;
  x0a; x9d; xc9; x0a; x9d; xca; x0a; x9d;
  xcb; x0a; x9d; xcc; x0a; x9d; xcd; x0a;
  x9d; xce; x0a; x9d; xcf; x0a; x9d; xd0;
  x0a; x9d; xd1; x0a; x9d; xd2; x0a; x9d;
  xd3; x0a; x9d; xd4; x0a; x9d; xd5; x0a
].
(* tests/test_data/whatwg/big5_whatwg_test_decode_in.txt, entries 10496..10751 *)
Definition big5_decode_in_41 : list byte := [
  x9d; xd6; x0a; x9d; xd7; x0a; x9d; xd8;
  x0a; x9d; xd9; x0a; x9d; xda; x0a; x9d;
  xdb; x0a; x9d; xdc; x0a; x9d; xdd; x0a;
  x9d; xde; x0a; x9d; xdf; x0a; x9d; xe0;
  x0a; x9d; xe1; x0a; x9d; xe2; x0a; x9d;
  xe3; x0a; x9d; xe4; x0a; x9d; xe5; x0a;
  x9d; xe6; x0a; x9d; xe7; x0a; x9d; xe8;
  x0a; x9d; xe9; x0a; x9d; xea; x0a; x9d;
  xeb; x0a; x9d; xec; x0a; x9d; xed; x0a;
  x9d; xee; x0a; x9d; xef; x0a; x9d; xf0;
  x0a; x9d; xf1; x0a; x9d; xf2; x0a; x9d;
  xf3; x0a; x9d; xf4; x0a; x9d; xf5; x0a;
  x9d; xf6; x0a; x9d; xf7; x0a; x9d; xf8;
  x0a; x9d; xf9; x0a; x9d; xfa; x0a; x9d;
  xfb; x0a; x9d; xfc; x0a; x9d; xfd; x0a;
  x9d; xfe; x0a; x9e; x40; x0a; x9e; x41;
  x0a; x9e; x42; x0a; x9e; x43; x0a; x9e;
  x44; x0a; x9e; x45; x0a; x9e; x46; x0a;
  x9e; x47; x0a; x9e; x48; x0a; x9e; x49;
  x0a; x9e; x4a; x0a; x9e; x4b; x0a; x9e;
  x4c; x0a; x9e; x4d; x0a; x9e; x4e; x0a;
  x9e; x4f; x0a; x9e; x50; x0a; x9e; x51;
  x0a; x9e; x52; x0a; x9e; x53; x0a; x9e;
  x54; x0a; x9e; x55; x0a; x9e; x56; x0a;
  x9e; x57; x0a; x9e; x58; x0a; x9e; x59;
  x0a; x9e; x5a; x0a; x9e; x5b; x0a; x9e;
  x5c; x0a; x9e; x5d; x0a; x9e; x5e; x0a;
  x9e; x5f; x0a; x9e; x60; x0a; x9e; x61;
  x0a; x9e; x62; x0a; x9e; x63; x0a; x9e;
  x64; x0a; x9e; x65; x0a; x9e; x66; x0a;
  x9e; x67; x0a; x9e; x68; x0a; x9e; x69;
  x0a; x9e; x6a; x0a; x9e; x6b; x0a; x9e
].
(* tests/test_data/whatwg/big5_whatwg_test_decode_in.txt, entries 10752..11007 *)
Definition big5_decode_in_42 : list byte := [
  x6c; x0a; x9e; x6d; x0a; x9e; x6e; x0a;
  x9e; x6f; x0a; x9e; x70; x0a; x9e; x71;
  x0a; x9e; x72; x0a; x9e; x73; x0a; x9e;
  x74; x0a; x9e; x75; x0a; x9e; x76; x0a;
  x9e; x77; x0a; x9e; x78; x0a; x9e; x79;
  x0a; x9e; x7a; x0a; x9e; x7b; x0a; x9e;
  x7c; x0a; x9e; x7d; x0a; x9e; x7e; x0a;
  x9e; xa1; x0a; x9e; xa2; x0a; x9e; xa3;
  x0a; x9e; xa4; x0a; x9e; xa5; x0a; x9e;
  xa6; x0a; x9e; xa7; x0a; x9e; xa8; x0a;
  x9e; xa9; x0a; x9e; xaa; x0a; x9e; xab;
  x0a; x9e; xad; x0a; x9e; xae; x0a; x9e;
  xaf; x0a; x9e; xb0; x0a; x9e; xb1; x0a;
  x9e; xb2; x0a; x9e; xb3; x0a; x9e; xb4;
  x0a; x9e; xb5; x0a; x9e; xb6; x0a; x9e;
  xb7; x0a; x9e; xb8; x0a; x9e; xb9; x0a;
  x9e; xba; x0a; x9e; xbb; x0a; x9e; xbc;
  x0a; x9e; xbd; x0a; x9e; xbe; x0a; x9e;
  xbf; x0a; x9e; xc0; x0a; x9e; xc1; x0a;
  x9e; xc2; x0a; x9e; xc3; x0a; x9e; xc5;
  x0a; x9e; xc6; x0a; x9e; xc7; x0a; x9e;
  xc8; x0a; x9e; xc9; x0a; x9e; xca; x0a;
  x9e; xcb; x0a; x9e; xcc; x0a; x9e; xcd;
  x0a; x9e; xce; x0a; x9e; xcf; x0a; x9e;
  xd0; x0a; x9e; xd1; x0a; x9e; xd2; x0a;
  x9e; xd3; x0a; x9e; xd4; x0a; x9e; xd5;
  x0a; x9e; xd6; x0a; x9e; xd7; x0a; x9e;
  xd8; x0a; x9e; xd9; x0a; x9e; xda; x0a;
  x9e; xdb; x0a; x9e; xdc; x0a; x9e; xdd;
  x0a; x9e; xde; x0a; x9e; xdf; x0a; x9e;
  xe0; x0a; x9e; xe1; x0a; x9e; xe2; x0a;
  x9e; xe3; x0a; x9e; xe4; x0a; x9e; xe5
].
(* tests/test_data/whatwg/big5_whatwg_test_decode_in.txt, entries 11008..11263 *)
Definition big5_decode_in_43 : list byte := [
  x0a; x9e; xe6; x0a; x9e; xe7; x0a; x9e;
  xe8; x0a; x9e; xe9; x0a; x9e; xea; x0a;
  x9e; xeb; x0a; x9e; xec; x0a; x9e; xed;
  x0a; x9e; xee; x0a; x9e; xef; x0a; x9e;
  xf0; x0a; x9e; xf1; x0a; x9e; xf2; x0a;
  x9e; xf3; x0a; x9e; xf5; x0a; x9e; xf6;
  x0a; x9e; xf7; x0a; x9e; xf8; x0a; x9e;
  xf9; x0a; x9e; xfa; x0a; x9e; xfb; x0a;
  x9e; xfc; x0a; x9e; xfd; x0a; x9e; xfe;
  x0a; x9f; x40; x0a; x9f; x41; x0a; x9f;
  x42; x0a; x9f; x43; x0a; x9f; x44; x0a;
  x9f; x45; x0a; x9f; x46; x0a; x9f; x47;
  x0a; x9f; x48; x0a; x9f; x49; x0a; x9f;
  x4a; x0a; x9f; x4b; x0a; x9f; x4c; x0a;
  x9f; x4d; x0a; x9f; x4f; x0a; x9f; x50;
  x0a; x9f; x51; x0a; x9f; x52; x0a; x9f;
  x53; x0a; x9f; x54; x0a; x9f; x55; x0a;
  x9f; x56; x0a; x9f; x57; x0a; x9f; x58;
  x0a; x9f; x59; x0a; x9f; x5a; x0a; x9f;
  x5b; x0a; x9f; x5c; x0a; x9f; x5d; x0a;
  x9f; x5e; x0a; x9f; x5f; x0a; x9f; x60;
  x0a; x9f; x61; x0a; x9f; x62; x0a; x9f;
  x63; x0a; x9f; x64; x0a; x9f; x65; x0a;
  x9f; x66; x0a; x9f; x67; x0a; x9f; x68;
  x0a; x9f; x69; x0a; x9f; x6a; x0a; x9f;
  x6b; x0a; x9f; x6c; x0a; x9f; x6d; x0a;
  x9f; x6e; x0a; x9f; x6f; x0a; x9f; x70;
  x0a; x9f; x71; x0a; x9f; x72; x0a; x9f;
  x73; x0a; x9f; x74; x0a; x9f; x75; x0a;
  x9f; x76; x0a; x9f; x77; x0a; x9f; x78;
  x0a; x9f; x79; x0a; x9f; x7a; x0a; x9f;
  x7b; x0a; x9f; x7c; x0a; x9f; x7d; x0a
].
(* tests/test_data/whatwg/big5_whatwg_test_decode_in.txt, entries 11264..11519 *)
Definition big5_decode_in_44 : list byte := [
  x9f; x7e; x0a; x9f; xa1; x0a; x9f; xa2;
  x0a; x9f; xa3; x0a; x9f; xa4; x0a; x9f;
  xa5; x0a; x9f; xa6; x0a; x9f; xa7; x0a;
  x9f; xa8; x0a; x9f; xa9; x0a; x9f; xaa;
  x0a; x9f; xab; x0a; x9f; xac; x0a; x9f;
  xae; x0a; x9f; xaf; x0a; x9f; xb0; x0a;
  x9f; xb2; x0a; x9f; xb3; x0a; x9f; xb4;
  x0a; x9f; xb5; x0a; x9f; xb6; x0a; x9f;
  xb7; x0a; x9f; xb8; x0a; x9f; xb9; x0a;
  x9f; xba; x0a; x9f; xbb; x0a; x9f; xbc;
  x0a; x9f; xbd; x0a; x9f; xbe; x0a; x9f;
  xbf; x0a; x9f; xc1; x0a; x9f; xc2; x0a;
  x9f; xc3; x0a; x9f; xc4; x0a; x9f; xc5;
  x0a; x9f; xc6; x0a; x9f; xc7; x0a; x9f;
  xc9; x0a; x9f; xca; x0a; x9f; xcb; x0a;
  x9f; xcc; x0a; x9f; xcd; x0a; x9f; xce;
  x0a; x9f; xcf; x0a; x9f; xd0; x0a; x9f;
  xd1; x0a; x9f; xd2; x0a; x9f; xd3; x0a;
  x9f; xd4; x0a; x9f; xd5; x0a; x9f; xd6;
  x0a; x9f; xd7; x0a; x9f; xd8; x0a; x9f;
  xd9; x0a; x9f; xdb; x0a; x9f; xdc; x0a;
  x9f; xdd; x0a; x9f; xde; x0a; x9f; xdf;
  x0a; x9f; xe0; x0a; x9f; xe1; x0a; x9f;
  xe2; x0a; x9f; xe3; x0a; x9f; xe4; x0a;
  x9f; xe5; x0a; x9f; xe7; x0a; x9f; xe8;
  x0a; x9f; xe9; x0a; x9f; xeb; x0a; x9f;
  xec; x0a; x9f; xed; x0a; x9f; xee; x0a;
  x9f; xf0; x0a; x9f; xf1; x0a; x9f; xf2;
  x0a; x9f; xf3; x0a; x9f; xf4; x0a; x9f;
  xf5; x0a; x9f; xf6; x0a; x9f; xf7; x0a;
  x9f; xf8; x0a; x9f; xf9; x0a; x9f; xfa;
  x0a; x9f; xfb; x0a; x9f; xfc; x0a; x9f
].
(* tests/test_data/whatwg/big5_whatwg_test_decode_in.txt, entries 11520..11775 *)
Definition big5_decode_in_45 : list byte := [
  xfd; x0a; x9f; xfe; x0a; xa0; x40; x0a;
  xa0; x41; x0a; xa0; x42; x0a; xa0; x43;
  x0a; xa0; x44; x0a; xa0; x45; x0a; xa0;
  x46; x0a; xa0; x47; x0a; xa0; x48; x0a;
  xa0; x49; x0a; xa0; x4a; x0a; xa0; x4b;
  x0a; xa0; x4c; x0a; xa0; x4d; x0a; xa0;
  x4e; x0a; xa0; x4f; x0a; xa0; x50; x0a;
  xa0; x51; x0a; xa0; x52; x0a; xa0; x53;
  x0a; xa0; x55; x0a; xa0; x56; x0a; xa0;
  x58; x0a; xa0; x59; x0a; xa0; x5b; x0a;
  xa0; x5c; x0a; xa0; x5d; x0a; xa0; x5e;
  x0a; xa0; x5f; x0a; xa0; x60; x0a; xa0;
  x61; x0a; xa0; x63; x0a; xa0; x64; x0a;
  xa0; x65; x0a; xa0; x66; x0a; xa0; x67;
  x0a; xa0; x68; x0a; xa0; x69; x0a; xa0;
  x6a; x0a; xa0; x6b; x0a; xa0; x6c; x0a;
  xa0; x6d; x0a; xa0; x6e; x0a; xa0; x6f;
  x0a; xa0; x70; x0a; xa0; x71; x0a; xa0;
  x73; x0a; xa0; x74; x0a; xa0; x75; x0a;
  xa0; x76; x0a; xa0; x77; x0a; xa0; x78;
  x0a; xa0; x79; x0a; xa0; x7a; x0a; xa0;
  x7b; x0a; xa0; x7c; x0a; xa0; x7d; x0a;
  xa0; x7e; x0a; xa0; xa1; x0a; xa0; xa2;
  x0a; xa0; xa3; x0a; xa0; xa4; x0a; xa0;
  xa6; x0a; xa0; xa7; x0a; xa0; xa8; x0a;
  xa0; xa9; x0a; xa0; xaa; x0a; xa0; xab;
  x0a; xa0; xac; x0a; xa0; xae; x0a; xa0;
  xb0; x0a; xa0; xb1; x0a; xa0; xb2; x0a;
  xa0; xb3; x0a; xa0; xb4; x0a; xa0; xb5;
  x0a; xa0; xb6; x0a; xa0; xb7; x0a; xa0;
  xb8; x0a; xa0; xb9; x0a; xa0; xba; x0a;
  xa0; xbb; x0a; xa0; xbc; x0a; xa0; xbd
].
(* tests/test_data/whatwg/big5_whatwg_test_decode_in.txt, entries 11776..12031 *)
Definition big5_decode_in_46 : list byte := [
  x0a; xa0; xbe; x0a; xa0; xbf; x0a; xa0;
  xc0; x0a; xa0; xc1; x0a; xa0; xc2; x0a;
  xa0; xc3; x0a; xa0; xc4; x0a; xa0; xc5;
  x0a; xa0; xc6; x0a; xa0; xc7; x0a; xa0;
  xc8; x0a; xa0; xc9; x0a; xa0; xca; x0a;
  xa0; xcb; x0a; xa0; xcc; x0a; xa0; xcd;
  x0a; xa0; xce; x0a; xa0; xcf; x0a; xa0;
  xd0; x0a; xa0; xd1; x0a; xa0; xd2; x0a;
  xa0; xd4; x0a; xa0; xd5; x0a; xa0; xd6;
  x0a; xa0; xd7; x0a; xa0; xd8; x0a; xa0;
  xd9; x0a; xa0; xda; x0a; xa0; xdb; x0a;
  xa0; xdc; x0a; xa0; xdd; x0a; xa0; xde;
  x0a; xa0; xdf; x0a; xa0; xe0; x0a; xa0;
  xe2; x0a; xa0; xe3; x0a; xa0; xe4; x0a;
  xa0; xe5; x0a; xa0; xe6; x0a; xa0; xe7;
  x0a; xa0; xe8; x0a; xa0; xe9; x0a; xa0;
  xea; x0a; xa0; xeb; x0a; xa0; xec; x0a;
  xa0; xed; x0a; xa0; xee; x0a; xa0; xef;
  x0a; xa0; xf0; x0a; xa0; xf1; x0a; xa0;
  xf2; x0a; xa0; xf3; x0a; xa0; xf4; x0a;
  xa0; xf5; x0a; xa0; xf6; x0a; xa0; xf7;
  x0a; xa0; xf8; x0a; xa0; xf9; x0a; xa0;
  xfa; x0a; xa0; xfb; x0a; xa0; xfc; x0a;
  xa0; xfd; x0a; xa0; xfe; x0a; xa1; x40;
  x0a; xa1; x41; x0a; xa1; x42; x0a; xa1;
  x43; x0a; xa1; x44; x0a; xa1; x45; x0a;
  xa1; x46; x0a; xa1; x47; x0a; xa1; x48;
  x0a; xa1; x49; x0a; xa1; x4a; x0a; xa1;
  x4b; x0a; xa1; x4c; x0a; xa1; x4d; x0a;
  xa1; x4e; x0a; xa1; x4f; x0a; xa1; x50;
  x0a; xa1; x51; x0a; xa1; x52; x0a; xa1;
  x53; x0a; xa1; x54; x0a; xa1; x55; x0a
].
(* tests/test_data/whatwg/big5_whatwg_test_decode_in.txt, entries 12032..12287 *)
Definition big5_decode_in_47 : list byte := [
  xa1; x56; x0a; xa1; x57; x0a; xa1; x58;
  x0a; xa1; x59; x0a; xa1; x5a; x0a; xa1;
  x5b; x0a; xa1; x5c; x0a; xa1; x5d; x0a;
  xa1; x5e; x0a; xa1; x5f; x0a; xa1; x60;
  x0a; xa1; x61; x0a; xa1; x62; x0a; xa1;
  x63; x0a; xa1; x64; x0a; xa1; x65; x0a;
  xa1; x66; x0a; xa1; x67; x0a; xa1; x68;
  x0a; xa1; x69; x0a; xa1; x6a; x0a; xa1;
  x6b; x0a; xa1; x6c; x0a; xa1; x6d; x0a;
  xa1; x6e; x0a; xa1; x6f; x0a; xa1; x70;
  x0a; xa1; x71; x0a; xa1; x72; x0a; xa1;
  x73; x0a; xa1; x74; x0a; xa1; x75; x0a;
  xa1; x76; x0a; xa1; x77; x0a; xa1; x78;
  x0a; xa1; x79; x0a; xa1; x7a; x0a; xa1;
  x7b; x0a; xa1; x7c; x0a; xa1; x7d; x0a;
  xa1; x7e; x0a; xa1; xa1; x0a; xa1; xa2;
  x0a; xa1; xa3; x0a; xa1; xa4; x0a; xa1;
  xa5; x0a; xa1; xa6; x0a; xa1; xa7; x0a;
  xa1; xa8; x0a; xa1; xa9; x0a; xa1; xaa;
  x0a; xa1; xab; x0a; xa1; xac; x0a; xa1;
  xad; x0a; xa1; xae; x0a; xa1; xaf; x0a;
  xa1; xb0; x0a; xa1; xb1; x0a; xa1; xb2;
  x0a; xa1; xb3; x0a; xa1; xb4; x0a; xa1;
  xb5; x0a; xa1; xb6; x0a; xa1; xb7; x0a;
  xa1; xb8; x0a; xa1; xb9; x0a; xa1; xba;
  x0a; xa1; xbb; x0a; xa1; xbc; x0a; xa1;
  xbd; x0a; xa1; xbe; x0a; xa1; xbf; x0a;
  xa1; xc0; x0a; xa1; xc1; x0a; xa1; xc2;
  x0a; xa1; xc3; x0a; xa1; xc4; x0a; xa1;
  xc5; x0a; xa1; xc6; x0a; xa1; xc7; x0a;
  xa1; xc8; x0a; xa1; xc9; x0a; xa1; xca;
  x0a; xa1; xcb; x0a; xa1; xcc; x0a; xa1
].
(* tests/test_data/whatwg/big5_whatwg_test_decode_in.txt, entries 12288..12543 *)
Definition big5_decode_in_48 : list byte := [
  xcd; x0a; xa1; xce; x0a; xa1; xcf; x0a;
  xa1; xd0; x0a; xa1; xd1; x0a; xa1; xd2;
  x0a; xa1; xd3; x0a; xa1; xd4; x0a; xa1;
  xd5; x0a; xa1; xd6; x0a; xa1; xd7; x0a;
  xa1; xd8; x0a; xa1; xd9; x0a; xa1; xda;
  x0a; xa1; xdb; x0a; xa1; xdc; x0a; xa1;
  xdd; x0a; xa1; xde; x0a; xa1; xdf; x0a;
  xa1; xe0; x0a; xa1; xe1; x0a; xa1; xe2;
  x0a; xa1; xe3; x0a; xa1; xe4; x0a; xa1;
  xe5; x0a; xa1; xe6; x0a; xa1; xe7; x0a;
  xa1; xe8; x0a; xa1; xe9; x0a; xa1; xea;
  x0a; xa1; xeb; x0a; xa1; xec; x0a; xa1;
  xed; x0a; xa1; xee; x0a; xa1; xef; x0a;
  xa1; xf0; x0a; xa1; xf1; x0a; xa1; xf2;
  x0a; xa1; xf3; x0a; xa1; xf4; x0a; xa1;
  xf5; x0a; xa1; xf6; x0a; xa1; xf7; x0a;
  xa1; xf8; x0a; xa1; xf9; x0a; xa1; xfa;
  x0a; xa1; xfb; x0a; xa1; xfc; x0a; xa1;
  xfd; x0a; xa1; xfe; x0a; xa2; x40; x0a;
  xa2; x41; x0a; xa2; x42; x0a; xa2; x43;
  x0a; xa2; x44; x0a; xa2; x45; x0a; xa2;
  x46; x0a; xa2; x47; x0a; xa2; x48; x0a;
  xa2; x49; x0a; xa2; x4a; x0a; xa2; x4b;
  x0a; xa2; x4c; x0a; xa2; x4d; x0a; xa2;
  x4e; x0a; xa2; x4f; x0a; xa2; x50; x0a;
  xa2; x51; x0a; xa2; x52; x0a; xa2; x53;
  x0a; xa2; x54; x0a; xa2; x55; x0a; xa2;
  x56; x0a; xa2; x57; x0a; xa2; x58; x0a;
  xa2; x59; x0a; xa2; x5a; x0a; xa2; x5b;
  x0a; xa2; x5c; x0a; xa2; x5d; x0a; xa2;
  x5e; x0a; xa2; x5f; x0a; xa2; x60; x0a;
  xa2; x61; x0a; xa2; x62; x0a; xa2; x63
].
(* tests/test_data/whatwg/big5_whatwg_test_decode_in.txt, entries 12544..12799 *)
Definition big5_decode_in_49 : list byte := [
  x0a; xa2; x64; x0a; xa2; x65; x0a; xa2;
  x66; x0a; xa2; x67; x0a; xa2; x68; x0a;
  xa2; x69; x0a; xa2; x6a; x0a; xa2; x6b;
  x0a; xa2; x6c; x0a; xa2; x6d; x0a; xa2;
  x6e; x0a; xa2; x6f; x0a; xa2; x70; x0a;
  xa2; x71; x0a; xa2; x72; x0a; xa2; x73;
  x0a; xa2; x74; x0a; xa2; x75; x0a; xa2;
  x76; x0a; xa2; x77; x0a; xa2; x78; x0a;
  xa2; x79; x0a; xa2; x7a; x0a; xa2; x7b;
  x0a; xa2; x7c; x0a; xa2; x7d; x0a; xa2;
  x7e; x0a; xa2; xa1; x0a; xa2; xa2; x0a;
  xa2; xa3; x0a; xa2; xa4; x0a; xa2; xa5;
  x0a; xa2; xa6; x0a; xa2; xa7; x0a; xa2;
  xa8; x0a; xa2; xa9; x0a; xa2; xaa; x0a;
  xa2; xab; x0a; xa2; xac; x0a; xa2; xad;
  x0a; xa2; xae; x0a; xa2; xaf; x0a; xa2;
  xb0; x0a; xa2; xb1; x0a; xa2; xb2; x0a;
  xa2; xb3; x0a; xa2; xb4; x0a; xa2; xb5;
  x0a; xa2; xb6; x0a; xa2; xb7; x0a; xa2;
  xb8; x0a; xa2; xb9; x0a; xa2; xba; x0a;
  xa2; xbb; x0a; xa2; xbc; x0a; xa2; xbd;
  x0a; xa2; xbe; x0a; xa2; xbf; x0a; xa2;
  xc0; x0a; xa2; xc1; x0a; xa2; xc2; x0a;
  xa2; xc3; x0a; xa2; xc4; x0a; xa2; xc5;
  x0a; xa2; xc6; x0a; xa2; xc7; x0a; xa2;
  xc8; x0a; xa2; xc9; x0a; xa2; xca; x0a;
  xa2; xcb; x0a; xa2; xcc; x0a; xa2; xcd;
  x0a; xa2; xce; x0a; xa2; xcf; x0a; xa2;
  xd0; x0a; xa2; xd1; x0a; xa2; xd2; x0a;
  xa2; xd3; x0a; xa2; xd4; x0a; xa2; xd5;
  x0a; xa2; xd6; x0a; xa2; xd7; x0a; xa2;
  xd8; x0a; xa2; xd9; x0a; xa2; xda; x0a
].
(* tests/test_data/whatwg/big5_whatwg_test_decode_in.txt, entries 12800..13055 *)
Definition big5_decode_in_50 : list byte := [
  xa2; xdb; x0a; xa2; xdc; x0a; xa2; xdd;
  x0a; xa2; xde; x0a; xa2; xdf; x0a; xa2;
  xe0; x0a; xa2; xe1; x0a; xa2; xe2; x0a;
  xa2; xe3; x0a; xa2; xe4; x0a; xa2; xe5;
  x0a; xa2; xe6; x0a; xa2; xe7; x0a; xa2;
  xe8; x0a; xa2; xe9; x0a; xa2; xea; x0a;
  xa2; xeb; x0a; xa2; xec; x0a; xa2; xed;
  x0a; xa2; xee; x0a; xa2; xef; x0a; xa2;
  xf0; x0a; xa2; xf1; x0a; xa2; xf2; x0a;
  xa2; xf3; x0a; xa2; xf4; x0a; xa2; xf5;
  x0a; xa2; xf6; x0a; xa2; xf7; x0a; xa2;
  xf8; x0a; xa2; xf9; x0a; xa2; xfa; x0a;
  xa2; xfb; x0a; xa2; xfc; x0a; xa2; xfd;
  x0a; xa2; xfe; x0a; xa3; x40; x0a; xa3;
  x41; x0a; xa3; x42; x0a; xa3; x43; x0a;
  xa3; x44; x0a; xa3; x45; x0a; xa3; x46;
  x0a; xa3; x47; x0a; xa3; x48; x0a; xa3;
  x49; x0a; xa3; x4a; x0a; xa3; x4b; x0a;
  xa3; x4c; x0a; xa3; x4d; x0a; xa3; x4e;
  x0a; xa3; x4f; x0a; xa3; x50; x0a; xa3;
  x51; x0a; xa3; x52; x0a; xa3; x53; x0a;
  xa3; x54; x0a; xa3; x55; x0a; xa3; x56;
  x0a; xa3; x57; x0a; xa3; x58; x0a; xa3;
  x59; x0a; xa3; x5a; x0a; xa3; x5b; x0a;
  xa3; x5c; x0a; xa3; x5d; x0a; xa3; x5e;
  x0a; xa3; x5f; x0a; xa3; x60; x0a; xa3;
  x61; x0a; xa3; x62; x0a; xa3; x63; x0a;
  xa3; x64; x0a; xa3; x65; x0a; xa3; x66;
  x0a; xa3; x67; x0a; xa3; x68; x0a; xa3;
  x69; x0a; xa3; x6a; x0a; xa3; x6b; x0a;
  xa3; x6c; x0a; xa3; x6d; x0a; xa3; x6e;
  x0a; xa3; x6f; x0a; xa3; x70; x0a; xa3
].
(* tests/test_data/whatwg/big5_whatwg_test_decode_in.txt, entries 13056..13311 *)
Definition big5_decode_in_51 : list byte := [
  x71; x0a; xa3; x72; x0a; xa3; x73; x0a;
  xa3; x74; x0a; xa3; x75; x0a; xa3; x76;
  x0a; xa3; x77; x0a; xa3; x78; x0a; xa3;
  x79; x0a; xa3; x7a; x0a; xa3; x7b; x0a;
  xa3; x7c; x0a; xa3; x7d; x0a; xa3; x7e;
  x0a; xa3; xa1; x0a; xa3; xa2; x0a; xa3;
  xa3; x0a; xa3; xa4; x0a; xa3; xa5; x0a;
  xa3; xa6; x0a; xa3; xa7; x0a; xa3; xa8;
  x0a; xa3; xa9; x0a; xa3; xaa; x0a; xa3;
  xab; x0a; xa3; xac; x0a; xa3; xad; x0a;
  xa3; xae; x0a; xa3; xaf; x0a; xa3; xb0;
  x0a; xa3; xb1; x0a; xa3; xb2; x0a; xa3;
  xb3; x0a; xa3; xb4; x0a; xa3; xb5; x0a;
  xa3; xb6; x0a; xa3; xb7; x0a; xa3; xb8;
  x0a; xa3; xb9; x0a; xa3; xba; x0a; xa3;
  xbb; x0a; xa3; xbc; x0a; xa3; xbd; x0a;
  xa3; xbe; x0a; xa3; xbf; x0a; xa3; xc0;
  x0a; xa3; xc1; x0a; xa3; xc2; x0a; xa3;
  xc3; x0a; xa3; xc4; x0a; xa3; xc5; x0a;
  xa3; xc6; x0a; xa3; xc7; x0a; xa3; xc8;
  x0a; xa3; xc9; x0a; xa3; xca; x0a; xa3;
  xcb; x0a; xa3; xcc; x0a; xa3; xcd; x0a;
  xa3; xce; x0a; xa3; xcf; x0a; xa3; xd0;
  x0a; xa3; xd1; x0a; xa3; xd2; x0a; xa3;
  xd3; x0a; xa3; xd4; x0a; xa3; xd5; x0a;
  xa3; xd6; x0a; xa3; xd7; x0a; xa3; xd8;
  x0a; xa3; xd9; x0a; xa3; xda; x0a; xa3;
  xdb; x0a; xa3; xdc; x0a; xa3; xdd; x0a;
  xa3; xde; x0a; xa3; xdf; x0a; xa3; xe0;
  x0a; xa3; xe1; x0a; xa4; x40; x0a; xa4;
  x41; x0a; xa4; x42; x0a; xa4; x43; x0a;
  xa4; x44; x0a; xa4; x45; x0a; xa4; x46
].
(* tests/test_data/whatwg/big5_whatwg_test_decode_in.txt, entries 13312..13567 *)
Definition big5_decode_in_52 : list byte := [
  x0a; xa4; x47; x0a; xa4; x48; x0a; xa4;
  x49; x0a; xa4; x4a; x0a; xa4; x4b; x0a;
  xa4; x4c; x0a; xa4; x4d; x0a; xa4; x4e;
  x0a; xa4; x4f; x0a; xa4; x50; x0a; xa4;
  x51; x0a; xa4; x52; x0a; xa4; x53; x0a;
  xa4; x54; x0a; xa4; x55; x0a; xa4; x56;
  x0a; xa4; x57; x0a; xa4; x58; x0a; xa4;
  x59; x0a; xa4; x5a; x0a; xa4; x5b; x0a;
  xa4; x5c; x0a; xa4; x5d; x0a; xa4; x5e;
  x0a; xa4; x5f; x0a; xa4; x60; x0a; xa4;
  x61; x0a; xa4; x62; x0a; xa4; x63; x0a;
  xa4; x64; x0a; xa4; x65; x0a; xa4; x66;
  x0a; xa4; x67; x0a; xa4; x68; x0a; xa4;
  x69; x0a; xa4; x6a; x0a; xa4; x6b; x0a;
  xa4; x6c; x0a; xa4; x6d; x0a; xa4; x6e;
  x0a; xa4; x6f; x0a; xa4; x70; x0a; xa4;
  x71; x0a; xa4; x72; x0a; xa4; x73; x0a;
  xa4; x74; x0a; xa4; x75; x0a; xa4; x76;
  x0a; xa4; x77; x0a; xa4; x78; x0a; xa4;
  x79; x0a; xa4; x7a; x0a; xa4; x7b; x0a;
  xa4; x7c; x0a; xa4; x7d; x0a; xa4; x7e;
  x0a; xa4; xa1; x0a; xa4; xa2; x0a; xa4;
  xa3; x0a; xa4; xa4; x0a; xa4; xa5; x0a;
  xa4; xa6; x0a; xa4; xa7; x0a; xa4; xa8;
  x0a; xa4; xa9; x0a; xa4; xaa; x0a; xa4;
  xab; x0a; xa4; xac; x0a; xa4; xad; x0a;
  xa4; xae; x0a; xa4; xaf; x0a; xa4; xb0;
  x0a; xa4; xb1; x0a; xa4; xb2; x0a; xa4;
  xb3; x0a; xa4; xb4; x0a; xa4; xb5; x0a;
  xa4; xb6; x0a; xa4; xb7; x0a; xa4; xb8;
  x0a; xa4; xb9; x0a; xa4; xba; x0a; xa4;
  xbb; x0a; xa4; xbc; x0a; xa4; xbd; x0a
].
(* tests/test_data/whatwg/big5_whatwg_test_decode_in.txt, entries 13568..13823 *)
Definition big5_decode_in_53 : list byte := [
  xa4; xbe; x0a; xa4; xbf; x0a; xa4; xc0;
  x0a; xa4; xc1; x0a; xa4; xc2; x0a; xa4;
  xc3; x0a; xa4; xc4; x0a; xa4; xc5; x0a;
  xa4; xc6; x0a; xa4; xc7; x0a; xa4; xc8;
  x0a; xa4; xc9; x0a; xa4; xca; x0a; xa4;
  xcb; x0a; xa4; xcc; x0a; xa4; xcd; x0a;
  xa4; xce; x0a; xa4; xcf; x0a; xa4; xd0;
  x0a; xa4; xd1; x0a; xa4; xd2; x0a; xa4;
  xd3; x0a; xa4; xd4; x0a; xa4; xd5; x0a;
  xa4; xd6; x0a; xa4; xd7; x0a; xa4; xd8;
  x0a; xa4; xd9; x0a; xa4; xda; x0a; xa4;
  xdb; x0a; xa4; xdc; x0a; xa4; xdd; x0a;
  xa4; xde; x0a; xa4; xdf; x0a; xa4; xe0;
  x0a; xa4; xe1; x0a; xa4; xe2; x0a; xa4;
  xe3; x0a; xa4; xe4; x0a; xa4; xe5; x0a;
  xa4; xe6; x0a; xa4; xe7; x0a; xa4; xe8;
  x0a; xa4; xe9; x0a; xa4; xea; x0a; xa4;
  xeb; x0a; xa4; xec; x0a; xa4; xed; x0a;
  xa4; xee; x0a; xa4; xef; x0a; xa4; xf0;
  x0a; xa4; xf1; x0a; xa4; xf2; x0a; xa4;
  xf3; x0a; xa4; xf4; x0a; xa4; xf5; x0a;
  xa4; xf6; x0a; xa4; xf7; x0a; xa4; xf8;
  x0a; xa4; xf9; x0a; xa4; xfa; x0a; xa4;
  xfb; x0a; xa4; xfc; x0a; xa4; xfd; x0a;
  xa4; xfe; x0a; xa5; x40; x0a; xa5; x41;
  x0a; xa5; x42; x0a; xa5; x43; x0a; xa5;
  x44; x0a; xa5; x45; x0a; xa5; x46; x0a;
  xa5; x47; x0a; xa5; x48; x0a; xa5; x49;
  x0a; xa5; x4a; x0a; xa5; x4b; x0a; xa5;
  x4c; x0a; xa5; x4d; x0a; xa5; x4e; x0a;
  xa5; x4f; x0a; xa5; x50; x0a; xa5; x51;
  x0a; xa5; x52; x0a; xa5; x53; x0a; xa5
].
(* tests/test_data/whatwg/big5_whatwg_test_decode_in.txt, entries 13824..14079 *)
Definition big5_decode_in_54 : list byte := [
  x54; x0a; xa5; x55; x0a; xa5; x56; x0a;
  xa5; x57; x0a; xa5; x58; x0a; xa5; x59;
  x0a; xa5; x5a; x0a; xa5; x5b; x0a; xa5;
  x5c; x0a; xa5; x5d; x0a; xa5; x5e; x0a;
  xa5; x5f; x0a; xa5; x60; x0a; xa5; x61;
  x0a; xa5; x62; x0a; xa5; x63; x0a; xa5;
  x64; x0a; xa5; x65; x0a; xa5; x66; x0a;
  xa5; x67; x0a; xa5; x68; x0a; xa5; x69;
  x0a; xa5; x6a; x0a; xa5; x6b; x0a; xa5;
  x6c; x0a; xa5; x6d; x0a; xa5; x6e; x0a;
  xa5; x6f; x0a; xa5; x70; x0a; xa5; x71;
  x0a; xa5; x72; x0a; xa5; x73; x0a; xa5;
  x74; x0a; xa5; x75; x0a; xa5; x76; x0a;
  xa5; x77; x0a; xa5; x78; x0a; xa5; x79;
  x0a; xa5; x7a; x0a; xa5; x7b; x0a; xa5;
  x7c; x0a; xa5; x7d; x0a; xa5; x7e; x0a;
  xa5; xa1; x0a; xa5; xa2; x0a; xa5; xa3;
  x0a; xa5; xa4; x0a; xa5; xa5; x0a; xa5;
  xa6; x0a; xa5; xa7; x0a; xa5; xa8; x0a;
  xa5; xa9; x0a; xa5; xaa; x0a; xa5; xab;
  x0a; xa5; xac; x0a; xa5; xad; x0a; xa5;
  xae; x0a; xa5; xaf; x0a; xa5; xb0; x0a;
  xa5; xb1; x0a; xa5; xb2; x0a; xa5; xb3;
  x0a; xa5; xb4; x0a; xa5; xb5; x0a; xa5;
  xb6; x0a; xa5; xb7; x0a; xa5; xb8; x0a;
  xa5; xb9; x0a; xa5; xba; x0a; xa5; xbb;
  x0a; xa5; xbc; x0a; xa5; xbd; x0a; xa5;
  xbe; x0a; xa5; xbf; x0a; xa5; xc0; x0a;
  xa5; xc1; x0a; xa5; xc2; x0a; xa5; xc3;
  x0a; xa5; xc4; x0a; xa5; xc5; x0a; xa5;
  xc6; x0a; xa5; xc7; x0a; xa5; xc8; x0a;
  xa5; xc9; x0a; xa5; xca; x0a; xa5; xcb
].
(* tests/test_data/whatwg/big5_whatwg_test_decode_in.txt, entries 14080..14335 *)
Definition big5_decode_in_55 : list byte := [
  x0a; xa5; xcc; x0a; xa5; xcd; x0a; xa5;
  xce; x0a; xa5; xcf; x0a; xa5; xd0; x0a;
  xa5; xd1; x0a; xa5; xd2; x0a; xa5; xd3;
  x0a; xa5; xd4; x0a; xa5; xd5; x0a; xa5;
  xd6; x0a; xa5; xd7; x0a; xa5; xd8; x0a;
  xa5; xd9; x0a; xa5; xda; x0a; xa5; xdb;
  x0a; xa5; xdc; x0a; xa5; xdd; x0a; xa5;
  xde; x0a; xa5; xdf; x0a; xa5; xe0; x0a;
  xa5; xe1; x0a; xa5; xe2; x0a; xa5; xe3;
  x0a; xa5; xe4; x0a; xa5; xe5; x0a; xa5;
  xe6; x0a; xa5; xe7; x0a; xa5; xe8; x0a;
  xa5; xe9; x0a; xa5; xea; x0a; xa5; xeb;
  x0a; xa5; xec; x0a; xa5; xed; x0a; xa5;
  xee; x0a; xa5; xef; x0a; xa5; xf0; x0a;
  xa5; xf1; x0a; xa5; xf2; x0a; xa5; xf3;
  x0a; xa5; xf4; x0a; xa5; xf5; x0a; xa5;
  xf6; x0a; xa5; xf7; x0a; xa5; xf8; x0a;
  xa5; xf9; x0a; xa5; xfa; x0a; xa5; xfb;
  x0a; xa5; xfc; x0a; xa5; xfd; x0a; xa5;
  xfe; x0a; xa6; x40; x0a; xa6; x41; x0a;
  xa6; x42; x0a; xa6; x43; x0a; xa6; x44;
  x0a; xa6; x45; x0a; xa6; x46; x0a; xa6;
  x47; x0a; xa6; x48; x0a; xa6; x49; x0a;
  xa6; x4a; x0a; xa6; x4b; x0a; xa6; x4c;
  x0a; xa6; x4d; x0a; xa6; x4e; x0a; xa6;
  x4f; x0a; xa6; x50; x0a; xa6; x51; x0a;
  xa6; x52; x0a; xa6; x53; x0a; xa6; x54;
  x0a; xa6; x55; x0a; xa6; x56; x0a; xa6;
  x57; x0a; xa6; x58; x0a; xa6; x59; x0a;
  xa6; x5a; x0a; xa6; x5b; x0a; xa6; x5c;
  x0a; xa6; x5d; x0a; xa6; x5e; x0a; xa6;
  x5f; x0a; xa6; x60; x0a; xa6; x61; x0a
].
(* tests/test_data/whatwg/big5_whatwg_test_decode_in.txt, entries 14336..14591 *)
Definition big5_decode_in_56 : list byte := [
  xa6; x62; x0a; xa6; x63; x0a; xa6; x64;
  x0a; xa6; x65; x0a; xa6; x66; x0a; xa6;
  x67; x0a; xa6; x68; x0a; xa6; x69; x0a;
  xa6; x6a; x0a; xa6; x6b; x0a; xa6; x6c;
  x0a; xa6; x6d; x0a; xa6; x6e; x0a; xa6;
  x6f; x0a; xa6; x70; x0a; xa6; x71; x0a;
  xa6; x72; x0a; xa6; x73; x0a; xa6; x74;
  x0a; xa6; x75; x0a; xa6; x76; x0a; xa6;
  x77; x0a; xa6; x78; x0a; xa6; x79; x0a;
  xa6; x7a; x0a; xa6; x7b; x0a; xa6; x7c;
  x0a; xa6; x7d; x0a; xa6; x7e; x0a; xa6;
  xa1; x0a; xa6; xa2; x0a; xa6; xa3; x0a;
  xa6; xa4; x0a; xa6; xa5; x0a; xa6; xa6;
  x0a; xa6; xa7; x0a; xa6; xa8; x0a; xa6;
  xa9; x0a; xa6; xaa; x0a; xa6; xab; x0a;
  xa6; xac; x0a; xa6; xad; x0a; xa6; xae;
  x0a; xa6; xaf; x0a; xa6; xb0; x0a; xa6;
  xb1; x0a; xa6; xb2; x0a; xa6; xb3; x0a;
  xa6; xb4; x0a; xa6; xb5; x0a; xa6; xb6;
  x0a; xa6; xb7; x0a; xa6; xb8; x0a; xa6;
  xb9; x0a; xa6; xba; x0a; xa6; xbb; x0a;
  xa6; xbc; x0a; xa6; xbd; x0a; xa6; xbe;
  x0a; xa6; xbf; x0a; xa6; xc0; x0a; xa6;
  xc1; x0a; xa6; xc2; x0a; xa6; xc3; x0a;
  xa6; xc4; x0a; xa6; xc5; x0a; xa6; xc6;
  x0a; xa6; xc7; x0a; xa6; xc8; x0a; xa6;
  xc9; x0a; xa6; xca; x0a; xa6; xcb; x0a;
  xa6; xcc; x0a; xa6; xcd; x0a; xa6; xce;
  x0a; xa6; xcf; x0a; xa6; xd0; x0a; xa6;
  xd1; x0a; xa6; xd2; x0a; xa6; xd3; x0a;
  xa6; xd4; x0a; xa6; xd5; x0a; xa6; xd6;
  x0a; xa6; xd7; x0a; xa6; xd8; x0a; xa6
].
(* tests/test_data/whatwg/big5_whatwg_test_decode_in.txt, entries 14592..14847 *)
Definition big5_decode_in_57 : list byte := [
  xd9; x0a; xa6; xda; x0a; xa6; xdb; x0a;
  xa6; xdc; x0a; xa6; xdd; x0a; xa6; xde;
  x0a; xa6; xdf; x0a; xa6; xe0; x0a; xa6;
  xe1; x0a; xa6; xe2; x0a; xa6; xe3; x0a;
  xa6; xe4; x0a; xa6; xe5; x0a; xa6; xe6;
  x0a; xa6; xe7; x0a; xa6; xe8; x0a; xa6;
  xe9; x0a; xa6; xea; x0a; xa6; xeb; x0a;
  xa6; xec; x0a; xa6; xed; x0a; xa6; xee;
  x0a; xa6; xef; x0a; xa6; xf0; x0a; xa6;
  xf1; x0a; xa6; xf2; x0a; xa6; xf3; x0a;
  xa6; xf4; x0a; xa6; xf5; x0a; xa6; xf6;
  x0a; xa6; xf7; x0a; xa6; xf8; x0a; xa6;
  xf9; x0a; xa6; xfa; x0a; xa6; xfb; x0a;
  xa6; xfc; x0a; xa6; xfd; x0a; xa6; xfe;
  x0a; xa7; x40; x0a; xa7; x41; x0a; xa7;
  x42; x0a; xa7; x43; x0a; xa7; x44; x0a;
  xa7; x45; x0a; xa7; x46; x0a; xa7; x47;
  x0a; xa7; x48; x0a; xa7; x49; x0a; xa7;
  x4a; x0a; xa7; x4b; x0a; xa7; x4c; x0a;
  xa7; x4d; x0a; xa7; x4e; x0a; xa7; x4f;
  x0a; xa7; x50; x0a; xa7; x51; x0a; xa7;
  x52; x0a; xa7; x53; x0a; xa7; x54; x0a;
  xa7; x55; x0a; xa7; x56; x0a; xa7; x57;
  x0a; xa7; x58; x0a; xa7; x59; x0a; xa7;
  x5a; x0a; xa7; x5b; x0a; xa7; x5c; x0a;
  xa7; x5d; x0a; xa7; x5e; x0a; xa7; x5f;
  x0a; xa7; x60; x0a; xa7; x61; x0a; xa7;
  x62; x0a; xa7; x63; x0a; xa7; x64; x0a;
  xa7; x65; x0a; xa7; x66; x0a; xa7; x67;
  x0a; xa7; x68; x0a; xa7; x69; x0a; xa7;
  x6a; x0a; xa7; x6b; x0a; xa7; x6c; x0a;
  xa7; x6d; x0a; xa7; x6e; x0a; xa7; x6f
].
(* tests/test_data/whatwg/big5_whatwg_test_decode_in.txt, entries 14848..15103 *)
Definition big5_decode_in_58 : list byte := [
  x0a; xa7; x70; x0a; xa7; x71; x0a; xa7;
  x72; x0a; xa7; x73; x0a; xa7; x74; x0a;
  xa7; x75; x0a; xa7; x76; x0a; xa7; x77;
  x0a; xa7; x78; x0a; xa7; x79; x0a; xa7;
  x7a; x0a; xa7; x7b; x0a; xa7; x7c; x0a;
  xa7; x7d; x0a; xa7; x7e; x0a; xa7; xa1;
  x0a; xa7; xa2; x0a; xa7; xa3; x0a; xa7;
  xa4; x0a; xa7; xa5; x0a; xa7; xa6; x0a;
  xa7; xa7; x0a; xa7; xa8; x0a; xa7; xa9;
  x0a; xa7; xaa; x0a; xa7; xab; x0a; xa7;
  xac; x0a; xa7; xad; x0a; xa7; xae; x0a;
  xa7; xaf; x0a; xa7; xb0; x0a; xa7; xb1;
  x0a; xa7; xb2; x0a; xa7; xb3; x0a; xa7;
  xb4; x0a; xa7; xb5; x0a; xa7; xb6; x0a;
  xa7; xb7; x0a; xa7; xb8; x0a; xa7; xb9;
  x0a; xa7; xba; x0a; xa7; xbb; x0a; xa7;
  xbc; x0a; xa7; xbd; x0a; xa7; xbe; x0a;
  xa7; xbf; x0a; xa7; xc0; x0a; xa7; xc1;
  x0a; xa7; xc2; x0a; xa7; xc3; x0a; xa7;
  xc4; x0a; xa7; xc5; x0a; xa7; xc6; x0a;
  xa7; xc7; x0a; xa7; xc8; x0a; xa7; xc9;
  x0a; xa7; xca; x0a; xa7; xcb; x0a; xa7;
  xcc; x0a; xa7; xcd; x0a; xa7; xce; x0a;
  xa7; xcf; x0a; xa7; xd0; x0a; xa7; xd1;
  x0a; xa7; xd2; x0a; xa7; xd3; x0a; xa7;
  xd4; x0a; xa7; xd5; x0a; xa7; xd6; x0a;
  xa7; xd7; x0a; xa7; xd8; x0a; xa7; xd9;
  x0a; xa7; xda; x0a; xa7; xdb; x0a; xa7;
  xdc; x0a; xa7; xdd; x0a; xa7; xde; x0a;
  xa7; xdf; x0a; xa7; xe0; x0a; xa7; xe1;
  x0a; xa7; xe2; x0a; xa7; xe3; x0a; xa7;
  xe4; x0a; xa7; xe5; x0a; xa7; xe6; x0a
].
(* tests/test_data/whatwg/big5_whatwg_test_decode_in.txt, entries 15104..15359 *)
Definition big5_decode_in_59 : list byte := [
  xa7; xe7; x0a; xa7; xe8; x0a; xa7; xe9;
  x0a; xa7; xea; x0a; xa7; xeb; x0a; xa7;
  xec; x0a; xa7; xed; x0a; xa7; xee; x0a;
  xa7; xef; x0a; xa7; xf0; x0a; xa7; xf1;
  x0a; xa7; xf2; x0a; xa7; xf3; x0a; xa7;
  xf4; x0a; xa7; xf5; x0a; xa7; xf6; x0a;
  xa7; xf7; x0a; xa7; xf8; x0a; xa7; xf9;
  x0a; xa7; xfa; x0a; xa7; xfb; x0a; xa7;
  xfc; x0a; xa7; xfd; x0a; xa7; xfe; x0a;
  xa8; x40; x0a; xa8; x41; x0a; xa8; x42;
  x0a; xa8; x43; x0a; xa8; x44; x0a; xa8;
  x45; x0a; xa8; x46; x0a; xa8; x47; x0a;
  xa8; x48; x0a; xa8; x49; x0a; xa8; x4a;
  x0a; xa8; x4b; x0a; xa8; x4c; x0a; xa8;
  x4d; x0a; xa8; x4e; x0a; xa8; x4f; x0a;
  xa8; x50; x0a; xa8; x51; x0a; xa8; x52;
  x0a; xa8; x53; x0a; xa8; x54; x0a; xa8;
  x55; x0a; xa8; x56; x0a; xa8; x57; x0a;
  xa8; x58; x0a; xa8; x59; x0a; xa8; x5a;
  x0a; xa8; x5b; x0a; xa8; x5c; x0a; xa8;
  x5d; x0a; xa8; x5e; x0a; xa8; x5f; x0a;
  xa8; x60; x0a; xa8; x61; x0a; xa8; x62;
  x0a; xa8; x63; x0a; xa8; x64; x0a; xa8;
  x65; x0a; xa8; x66; x0a; xa8; x67; x0a;
  xa8; x68; x0a; xa8; x69; x0a; xa8; x6a;
  x0a; xa8; x6b; x0a; xa8; x6c; x0a; xa8;
  x6d; x0a; xa8; x6e; x0a; xa8; x6f; x0a;
  xa8; x70; x0a; xa8; x71; x0a; xa8; x72;
  x0a; xa8; x73; x0a; xa8; x74; x0a; xa8;
  x75; x0a; xa8; x76; x0a; xa8; x77; x0a;
  xa8; x78; x0a; xa8; x79; x0a; xa8; x7a;
  x0a; xa8; x7b; x0a; xa8; x7c; x0a; xa8
].
(* tests/test_data/whatwg/big5_whatwg_test_decode_in.txt, entries 15360..15615 *)
Definition big5_decode_in_60 : list byte := [
  x7d; x0a; xa8; x7e; x0a; xa8; xa1; x0a;
  xa8; xa2; x0a; xa8; xa3; x0a; xa8; xa4;
  x0a; xa8; xa5; x0a; xa8; xa6; x0a; xa8;
  xa7; x0a; xa8; xa8; x0a; xa8; xa9; x0a;
  xa8; xaa; x0a; xa8; xab; x0a; xa8; xac;
  x0a; xa8; xad; x0a; xa8; xae; x0a; xa8;
  xaf; x0a; xa8; xb0; x0a; xa8; xb1; x0a;
  xa8; xb2; x0a; xa8; xb3; x0a; xa8; xb4;
  x0a; xa8; xb5; x0a; xa8; xb6; x0a; xa8;
  xb7; x0a; xa8; xb8; x0a; xa8; xb9; x0a;
  xa8; xba; x0a; xa8; xbb; x0a; xa8; xbc;
  x0a; xa8; xbd; x0a; xa8; xbe; x0a; xa8;
  xbf; x0a; xa8; xc0; x0a; xa8; xc1; x0a;
  xa8; xc2; x0a; xa8; xc3; x0a; xa8; xc4;
  x0a; xa8; xc5; x0a; xa8; xc6; x0a; xa8;
  xc7; x0a; xa8; xc8; x0a; xa8; xc9; x0a;
  xa8; xca; x0a; xa8; xcb; x0a; xa8; xcc;
  x0a; xa8; xcd; x0a; xa8; xce; x0a; xa8;
  xcf; x0a; xa8; xd0; x0a; xa8; xd1; x0a;
  xa8; xd2; x0a; xa8; xd3; x0a; xa8; xd4;
  x0a; xa8; xd5; x0a; xa8; xd6; x0a; xa8;
  xd7; x0a; xa8; xd8; x0a; xa8; xd9; x0a;
  xa8; xda; x0a; xa8; xdb; x0a; xa8; xdc;
  x0a; xa8; xdd; x0a; xa8; xde; x0a; xa8;
  xdf; x0a; xa8; xe0; x0a; xa8; xe1; x0a;
  xa8; xe2; x0a; xa8; xe3; x0a; xa8; xe4;
  x0a; xa8; xe5; x0a; xa8; xe6; x0a; xa8;
  xe7; x0a; xa8; xe8; x0a; xa8; xe9; x0a;
  xa8; xea; x0a; xa8; xeb; x0a; xa8; xec;
  x0a; xa8; xed; x0a; xa8; xee; x0a; xa8;
  xef; x0a; xa8; xf0; x0a; xa8; xf1; x0a;
  xa8; xf2; x0a; xa8; xf3; x0a; xa8; xf4
].
(* tests/test_data/whatwg/big5_whatwg_test_decode_in.txt, entries 15616..15871 *)
Definition big5_decode_in_61 : list byte := [
  x0a; xa8; xf5; x0a; xa8; xf6; x0a; xa8;
  xf7; x0a; xa8; xf8; x0a; xa8; xf9; x0a;
  xa8; xfa; x0a; xa8; xfb; x0a; xa8; xfc;
  x0a; xa8; xfd; x0a; xa8; xfe; x0a; xa9;
  x40; x0a; xa9; x41; x0a; xa9; x42; x0a;
  xa9; x43; x0a; xa9; x44; x0a; xa9; x45;
  x0a; xa9; x46; x0a; xa9; x47; x0a; xa9;
  x48; x0a; xa9; x49; x0a; xa9; x4a; x0a;
  xa9; x4b; x0a; xa9; x4c; x0a; xa9; x4d;
  x0a; xa9; x4e; x0a; xa9; x4f; x0a; xa9;
  x50; x0a; xa9; x51; x0a; xa9; x52; x0a;
  xa9; x53; x0a; xa9; x54; x0a; xa9; x55;
  x0a; xa9; x56; x0a; xa9; x57; x0a; xa9;
  x58; x0a; xa9; x59; x0a; xa9; x5a; x0a;
  xa9; x5b; x0a; xa9; x5c; x0a; xa9; x5d;
  x0a; xa9; x5e; x0a; xa9; x5f; x0a; xa9;
  x60; x0a; xa9; x61; x0a; xa9; x62; x0a;
  xa9; x63; x0a; xa9; x64; x0a; xa9; x65;
  x0a; xa9; x66; x0a; xa9; x67; x0a; xa9;
  x68; x0a; xa9; x69; x0a; xa9; x6a; x0a;
  xa9; x6b; x0a; xa9; x6c; x0a; xa9; x6d;
  x0a; xa9; x6e; x0a; xa9; x6f; x0a; xa9;
  x70; x0a; xa9; x71; x0a; xa9; x72; x0a;
  xa9; x73; x0a; xa9; x74; x0a; xa9; x75;
  x0a; xa9; x76; x0a; xa9; x77; x0a; xa9;
  x78; x0a; xa9; x79; x0a; xa9; x7a; x0a;
  xa9; x7b; x0a; xa9; x7c; x0a; xa9; x7d;
  x0a; xa9; x7e; x0a; xa9; xa1; x0a; xa9;
  xa2; x0a; xa9; xa3; x0a; xa9; xa4; x0a;
  xa9; xa5; x0a; xa9; xa6; x0a; xa9; xa7;
  x0a; xa9; xa8; x0a; xa9; xa9; x0a; xa9;
  xaa; x0a; xa9; xab; x0a; xa9; xac; x0a
].
(* tests/test_data/whatwg/big5_whatwg_test_decode_in.txt, entries 15872..16127 *)
Definition big5_decode_in_62 : list byte := [
  xa9; xad; x0a; xa9; xae; x0a; xa9; xaf;
  x0a; xa9; xb0; x0a; xa9; xb1; x0a; xa9;
  xb2; x0a; xa9; xb3; x0a; xa9; xb4; x0a;
  xa9; xb5; x0a; xa9; xb6; x0a; xa9; xb7;
  x0a; xa9; xb8; x0a; xa9; xb9; x0a; xa9;
  xba; x0a; xa9; xbb; x0a; xa9; xbc; x0a;
  xa9; xbd; x0a; xa9; xbe; x0a; xa9; xbf;
  x0a; xa9; xc0; x0a; xa9; xc1; x0a; xa9;
  xc2; x0a; xa9; xc3; x0a; xa9; xc4; x0a;
  xa9; xc5; x0a; xa9; xc6; x0a; xa9; xc7;
  x0a; xa9; xc8; x0a; xa9; xc9; x0a; xa9;
  xca; x0a; xa9; xcb; x0a; xa9; xcc; x0a;
  xa9; xcd; x0a; xa9; xce; x0a; xa9; xcf;
  x0a; xa9; xd0; x0a; xa9; xd1; x0a; xa9;
  xd2; x0a; xa9; xd3; x0a; xa9; xd4; x0a;
  xa9; xd5; x0a; xa9; xd6; x0a; xa9; xd7;
  x0a; xa9; xd8; x0a; xa9; xd9; x0a; xa9;
  xda; x0a; xa9; xdb; x0a; xa9; xdc; x0a;
  xa9; xdd; x0a; xa9; xde; x0a; xa9; xdf;
  x0a; xa9; xe0; x0a; xa9; xe1; x0a; xa9;
  xe2; x0a; xa9; xe3; x0a; xa9; xe4; x0a;
  xa9; xe5; x0a; xa9; xe6; x0a; xa9; xe7;
  x0a; xa9; xe8; x0a; xa9; xe9; x0a; xa9;
  xea; x0a; xa9; xeb; x0a; xa9; xec; x0a;
  xa9; xed; x0a; xa9; xee; x0a; xa9; xef;
  x0a; xa9; xf0; x0a; xa9; xf1; x0a; xa9;
  xf2; x0a; xa9; xf3; x0a; xa9; xf4; x0a;
  xa9; xf5; x0a; xa9; xf6; x0a; xa9; xf7;
  x0a; xa9; xf8; x0a; xa9; xf9; x0a; xa9;
  xfa; x0a; xa9; xfb; x0a; xa9; xfc; x0a;
  xa9; xfd; x0a; xa9; xfe; x0a; xaa; x40;
  x0a; xaa; x41; x0a; xaa; x42; x0a; xaa
].
(* tests/test_data/whatwg/big5_whatwg_test_decode_in.txt, entries 16128..16383 *)
Definition big5_decode_in_63 : list byte := [
  x43; x0a; xaa; x44; x0a; xaa; x45; x0a;
  xaa; x46; x0a; xaa; x47; x0a; xaa; x48;
  x0a; xaa; x49; x0a; xaa; x4a; x0a; xaa;
  x4b; x0a; xaa; x4c; x0a; xaa; x4d; x0a;
  xaa; x4e; x0a; xaa; x4f; x0a; xaa; x50;
  x0a; xaa; x51; x0a; xaa; x52; x0a; xaa;
  x53; x0a; xaa; x54; x0a; xaa; x55; x0a;
  xaa; x56; x0a; xaa; x57; x0a; xaa; x58;
  x0a; xaa; x59; x0a; xaa; x5a; x0a; xaa;
  x5b; x0a; xaa; x5c; x0a; xaa; x5d; x0a;
  xaa; x5e; x0a; xaa; x5f; x0a; xaa; x60;
  x0a; xaa; x61; x0a; xaa; x62; x0a; xaa;
  x63; x0a; xaa; x64; x0a; xaa; x65; x0a;
  xaa; x66; x0a; xaa; x67; x0a; xaa; x68;
  x0a; xaa; x69; x0a; xaa; x6a; x0a; xaa;
  x6b; x0a; xaa; x6c; x0a; xaa; x6d; x0a;
  xaa; x6e; x0a; xaa; x6f; x0a; xaa; x70;
  x0a; xaa; x71; x0a; xaa; x72; x0a; xaa;
  x73; x0a; xaa; x74; x0a; xaa; x75; x0a;
  xaa; x76; x0a; xaa; x77; x0a; xaa; x78;
  x0a; xaa; x79; x0a; xaa; x7a; x0a; xaa;
  x7b; x0a; xaa; x7c; x0a; xaa; x7d; x0a;
  xaa; x7e; x0a; xaa; xa1; x0a; xaa; xa2;
  x0a; xaa; xa3; x0a; xaa; xa4; x0a; xaa;
  xa5; x0a; xaa; xa6; x0a; xaa; xa7; x0a;
  xaa; xa8; x0a; xaa; xa9; x0a; xaa; xaa;
  x0a; xaa; xab; x0a; xaa; xac; x0a; xaa;
  xad; x0a; xaa; xae; x0a; xaa; xaf; x0a;
  xaa; xb0; x0a; xaa; xb1; x0a; xaa; xb2;
  x0a; xaa; xb3; x0a; xaa; xb4; x0a; xaa;
  xb5; x0a; xaa; xb6; x0a; xaa; xb7; x0a;
  xaa; xb8; x0a; xaa; xb9; x0a; xaa; xba
].
(* tests/test_data/whatwg/big5_whatwg_test_decode_in.txt, entries 16384..16639 *)
Definition big5_decode_in_64 : list byte := [
  x0a; xaa; xbb; x0a; xaa; xbc; x0a; xaa;
  xbd; x0a; xaa; xbe; x0a; xaa; xbf; x0a;
  xaa; xc0; x0a; xaa; xc1; x0a; xaa; xc2;
  x0a; xaa; xc3; x0a; xaa; xc4; x0a; xaa;
  xc5; x0a; xaa; xc6; x0a; xaa; xc7; x0a;
  xaa; xc8; x0a; xaa; xc9; x0a; xaa; xca;
  x0a; xaa; xcb; x0a; xaa; xcc; x0a; xaa;
  xcd; x0a; xaa; xce; x0a; xaa; xcf; x0a;
  xaa; xd0; x0a; xaa; xd1; x0a; xaa; xd2;
  x0a; xaa; xd3; x0a; xaa; xd4; x0a; xaa;
  xd5; x0a; xaa; xd6; x0a; xaa; xd7; x0a;
  xaa; xd8; x0a; xaa; xd9; x0a; xaa; xda;
  x0a; xaa; xdb; x0a; xaa; xdc; x0a; xaa;
  xdd; x0a; xaa; xde; x0a; xaa; xdf; x0a;
  xaa; xe0; x0a; xaa; xe1; x0a; xaa; xe2;
  x0a; xaa; xe3; x0a; xaa; xe4; x0a; xaa;
  xe5; x0a; xaa; xe6; x0a; xaa; xe7; x0a;
  xaa; xe8; x0a; xaa; xe9; x0a; xaa; xea;
  x0a; xaa; xeb; x0a; xaa; xec; x0a; xaa;
  xed; x0a; xaa; xee; x0a; xaa; xef; x0a;
  xaa; xf0; x0a; xaa; xf1; x0a; xaa; xf2;
  x0a; xaa; xf3; x0a; xaa; xf4; x0a; xaa;
  xf5; x0a; xaa; xf6; x0a; xaa; xf7; x0a;
  xaa; xf8; x0a; xaa; xf9; x0a; xaa; xfa;
  x0a; xaa; xfb; x0a; xaa; xfc; x0a; xaa;
  xfd; x0a; xaa; xfe; x0a; xab; x40; x0a;
  xab; x41; x0a; xab; x42; x0a; xab; x43;
  x0a; xab; x44; x0a; xab; x45; x0a; xab;
  x46; x0a; xab; x47; x0a; xab; x48; x0a;
  xab; x49; x0a; xab; x4a; x0a; xab; x4b;
  x0a; xab; x4c; x0a; xab; x4d; x0a; xab;
  x4e; x0a; xab; x4f; x0a; xab; x50; x0a
].
(* tests/test_data/whatwg/big5_whatwg_test_decode_in.txt, entries 16640..16895 *)
Definition big5_decode_in_65 : list byte := [
  xab; x51; x0a; xab; x52; x0a; xab; x53;
  x0a; xab; x54; x0a; xab; x55; x0a; xab;
  x56; x0a; xab; x57; x0a; xab; x58; x0a;
  xab; x59; x0a; xab; x5a; x0a; xab; x5b;
  x0a; xab; x5c; x0a; xab; x5d; x0a; xab;
  x5e; x0a; xab; x5f; x0a; xab; x60; x0a;
  xab; x61; x0a; xab; x62; x0a; xab; x63;
  x0a; xab; x64; x0a; xab; x65; x0a; xab;
  x66; x0a; xab; x67; x0a; xab; x68; x0a;
  xab; x69; x0a; xab; x6a; x0a; xab; x6b;
  x0a; xab; x6c; x0a; xab; x6d; x0a; xab;
  x6e; x0a; xab; x6f; x0a; xab; x70; x0a;
  xab; x71; x0a; xab; x72; x0a; xab; x73;
  x0a; xab; x74; x0a; xab; x75; x0a; xab;
  x76; x0a; xab; x77; x0a; xab; x78; x0a;
  xab; x79; x0a; xab; x7a; x0a; xab; x7b;
  x0a; xab; x7c; x0a; xab; x7d; x0a; xab;
  x7e; x0a; xab; xa1; x0a; xab; xa2; x0a;
  xab; xa3; x0a; xab; xa4; x0a; xab; xa5;
  x0a; xab; xa6; x0a; xab; xa7; x0a; xab;
  xa8; x0a; xab; xa9; x0a; xab; xaa; x0a;
  xab; xab; x0a; xab; xac; x0a; xab; xad;
  x0a; xab; xae; x0a; xab; xaf; x0a; xab;
  xb0; x0a; xab; xb1; x0a; xab; xb2; x0a;
  xab; xb3; x0a; xab; xb4; x0a; xab; xb5;
  x0a; xab; xb6; x0a; xab; xb7; x0a; xab;
  xb8; x0a; xab; xb9; x0a; xab; xba; x0a;
  xab; xbb; x0a; xab; xbc; x0a; xab; xbd;
  x0a; xab; xbe; x0a; xab; xbf; x0a; xab;
  xc0; x0a; xab; xc1; x0a; xab; xc2; x0a;
  xab; xc3; x0a; xab; xc4; x0a; xab; xc5;
  x0a; xab; xc6; x0a; xab; xc7; x0a; xab
].
(* tests/test_data/whatwg/big5_whatwg_test_decode_in.txt, entries 16896..17151 *)
Definition big5_decode_in_66 : list byte := [
  xc8; x0a; xab; xc9; x0a; xab; xca; x0a;
  xab; xcb; x0a; xab; xcc; x0a; xab; xcd;
  x0a; xab; xce; x0a; xab; xcf; x0a; xab;
  xd0; x0a; xab; xd1; x0a; xab; xd2; x0a;
  xab; xd3; x0a; xab; xd4; x0a; xab; xd5;
  x0a; xab; xd6; x0a; xab; xd7; x0a; xab;
  xd8; x0a; xab; xd9; x0a; xab; xda; x0a;
  xab; xdb; x0a; xab; xdc; x0a; xab; xdd;
  x0a; xab; xde; x0a; xab; xdf; x0a; xab;
  xe0; x0a; xab; xe1; x0a; xab; xe2; x0a;
  xab; xe3; x0a; xab; xe4; x0a; xab; xe5;
  x0a; xab; xe6; x0a; xab; xe7; x0a; xab;
  xe8; x0a; xab; xe9; x0a; xab; xea; x0a;
  xab; xeb; x0a; xab; xec; x0a; xab; xed;
  x0a; xab; xee; x0a; xab; xef; x0a; xab;
  xf0; x0a; xab; xf1; x0a; xab; xf2; x0a;
  xab; xf3; x0a; xab; xf4; x0a; xab; xf5;
  x0a; xab; xf6; x0a; xab; xf7; x0a; xab;
  xf8; x0a; xab; xf9; x0a; xab; xfa; x0a;
  xab; xfb; x0a; xab; xfc; x0a; xab; xfd;
  x0a; xab; xfe; x0a; xac; x40; x0a; xac;
  x41; x0a; xac; x42; x0a; xac; x43; x0a;
  xac; x44; x0a; xac; x45; x0a; xac; x46;
  x0a; xac; x47; x0a; xac; x48; x0a; xac;
  x49; x0a; xac; x4a; x0a; xac; x4b; x0a;
  xac; x4c; x0a; xac; x4d; x0a; xac; x4e;
  x0a; xac; x4f; x0a; xac; x50; x0a; xac;
  x51; x0a; xac; x52; x0a; xac; x53; x0a;
  xac; x54; x0a; xac; x55; x0a; xac; x56;
  x0a; xac; x57; x0a; xac; x58; x0a; xac;
  x59; x0a; xac; x5a; x0a; xac; x5b; x0a;
  xac; x5c; x0a; xac; x5d; x0a; xac; x5e
].
(* tests/test_data/whatwg/big5_whatwg_test_decode_in.txt, entries 17152..17407 *)
Definition big5_decode_in_67 : list byte := [
  x0a; xac; x5f; x0a; xac; x60; x0a; xac;
  x61; x0a; xac; x62; x0a; xac; x63; x0a;
  xac; x64; x0a; xac; x65; x0a; xac; x66;
  x0a; xac; x67; x0a; xac; x68; x0a; xac;
  x69; x0a; xac; x6a; x0a; xac; x6b; x0a;
  xac; x6c; x0a; xac; x6d; x0a; xac; x6e;
  x0a; xac; x6f; x0a; xac; x70; x0a; xac;
  x71; x0a; xac; x72; x0a; xac; x73; x0a;
  xac; x74; x0a; xac; x75; x0a; xac; x76;
  x0a; xac; x77; x0a; xac; x78; x0a; xac;
  x79; x0a; xac; x7a; x0a; xac; x7b; x0a;
  xac; x7c; x0a; xac; x7d; x0a; xac; x7e;
  x0a; xac; xa1; x0a; xac; xa2; x0a; xac;
  xa3; x0a; xac; xa4; x0a; xac; xa5; x0a;
  xac; xa6; x0a; xac; xa7; x0a; xac; xa8;
  x0a; xac; xa9; x0a; xac; xaa; x0a; xac;
  xab; x0a; xac; xac; x0a; xac; xad; x0a;
  xac; xae; x0a; xac; xaf; x0a; xac; xb0;
  x0a; xac; xb1; x0a; xac; xb2; x0a; xac;
  xb3; x0a; xac; xb4; x0a; xac; xb5; x0a;
  xac; xb6; x0a; xac; xb7; x0a; xac; xb8;
  x0a; xac; xb9; x0a; xac; xba; x0a; xac;
  xbb; x0a; xac; xbc; x0a; xac; xbd; x0a;
  xac; xbe; x0a; xac; xbf; x0a; xac; xc0;
  x0a; xac; xc1; x0a; xac; xc2; x0a; xac;
  xc3; x0a; xac; xc4; x0a; xac; xc5; x0a;
  xac; xc6; x0a; xac; xc7; x0a; xac; xc8;
  x0a; xac; xc9; x0a; xac; xca; x0a; xac;
  xcb; x0a; xac; xcc; x0a; xac; xcd; x0a;
  xac; xce; x0a; xac; xcf; x0a; xac; xd0;
  x0a; xac; xd1; x0a; xac; xd2; x0a; xac;
  xd3; x0a; xac; xd4; x0a; xac; xd5; x0a
].
(* tests/test_data/whatwg/big5_whatwg_test_decode_in.txt, entries 17408..17663 *)
Definition big5_decode_in_68 : list byte := [
  xac; xd6; x0a; xac; xd7; x0a; xac; xd8;
  x0a; xac; xd9; x0a; xac; xda; x0a; xac;
  xdb; x0a; xac; xdc; x0a; xac; xdd; x0a;
  xac; xde; x0a; xac; xdf; x0a; xac; xe0;
  x0a; xac; xe1; x0a; xac; xe2; x0a; xac;
  xe3; x0a; xac; xe4; x0a; xac; xe5; x0a;
  xac; xe6; x0a; xac; xe7; x0a; xac; xe8;
  x0a; xac; xe9; x0a; xac; xea; x0a; xac;
  xeb; x0a; xac; xec; x0a; xac; xed; x0a;
  xac; xee; x0a; xac; xef; x0a; xac; xf0;
  x0a; xac; xf1; x0a; xac; xf2; x0a; xac;
  xf3; x0a; xac; xf4; x0a; xac; xf5; x0a;
  xac; xf6; x0a; xac; xf7; x0a; xac; xf8;
  x0a; xac; xf9; x0a; xac; xfa; x0a; xac;
  xfb; x0a; xac; xfc; x0a; xac; xfd; x0a;
  xac; xfe; x0a; xad; x40; x0a; xad; x41;
  x0a; xad; x42; x0a; xad; x43; x0a; xad;
  x44; x0a; xad; x45; x0a; xad; x46; x0a;
  xad; x47; x0a; xad; x48; x0a; xad; x49;
  x0a; xad; x4a; x0a; xad; x4b; x0a; xad;
  x4c; x0a; xad; x4d; x0a; xad; x4e; x0a;
  xad; x4f; x0a; xad; x50; x0a; xad; x51;
  x0a; xad; x52; x0a; xad; x53; x0a; xad;
  x54; x0a; xad; x55; x0a; xad; x56; x0a;
  xad; x57; x0a; xad; x58; x0a; xad; x59;
  x0a; xad; x5a; x0a; xad; x5b; x0a; xad;
  x5c; x0a; xad; x5d; x0a; xad; x5e; x0a;
  xad; x5f; x0a; xad; x60; x0a; xad; x61;
  x0a; xad; x62; x0a; xad; x63; x0a; xad;
  x64; x0a; xad; x65; x0a; xad; x66; x0a;
  xad; x67; x0a; xad; x68; x0a; xad; x69;
  x0a; xad; x6a; x0a; xad; x6b; x0a; xad
].
(* tests/test_data/whatwg/big5_whatwg_test_decode_in.txt, entries 17664..17919 *)
Definition big5_decode_in_69 : list byte := [
  x6c; x0a; xad; x6d; x0a; xad; x6e; x0a;
  xad; x6f; x0a; xad; x70; x0a; xad; x71;
  x0a; xad; x72; x0a; xad; x73; x0a; xad;
  x74; x0a; xad; x75; x0a; xad; x76; x0a;
  xad; x77; x0a; xad; x78; x0a; xad; x79;
  x0a; xad; x7a; x0a; xad; x7b; x0a; xad;
  x7c; x0a; xad; x7d; x0a; xad; x7e; x0a;
  xad; xa1; x0a; xad; xa2; x0a; xad; xa3;
  x0a; xad; xa4; x0a; xad; xa5; x0a; xad;
  xa6; x0a; xad; xa7; x0a; xad; xa8; x0a;
  xad; xa9; x0a; xad; xaa; x0a; xad; xab;
  x0a; xad; xac; x0a; xad; xad; x0a; xad;
  xae; x0a; xad; xaf; x0a; xad; xb0; x0a;
  xad; xb1; x0a; xad; xb2; x0a; xad; xb3;
  x0a; xad; xb4; x0a; xad; xb5; x0a; xad;
  xb6; x0a; xad; xb7; x0a; xad; xb8; x0a;
  xad; xb9; x0a; xad; xba; x0a; xad; xbb;
  x0a; xad; xbc; x0a; xad; xbd; x0a; xad;
  xbe; x0a; xad; xbf; x0a; xad; xc0; x0a;
  xad; xc1; x0a; xad; xc2; x0a; xad; xc3;
  x0a; xad; xc4; x0a; xad; xc5; x0a; xad;
  xc6; x0a; xad; xc7; x0a; xad; xc8; x0a;
  xad; xc9; x0a; xad; xca; x0a; xad; xcb;
  x0a; xad; xcc; x0a; xad; xcd; x0a; xad;
  xce; x0a; xad; xcf; x0a; xad; xd0; x0a;
  xad; xd1; x0a; xad; xd2; x0a; xad; xd3;
  x0a; xad; xd4; x0a; xad; xd5; x0a; xad;
  xd6; x0a; xad; xd7; x0a; xad; xd8; x0a;
  xad; xd9; x0a; xad; xda; x0a; xad; xdb;
  x0a; xad; xdc; x0a; xad; xdd; x0a; xad;
  xde; x0a; xad; xdf; x0a; xad; xe0; x0a;
  xad; xe1; x0a; xad; xe2; x0a; xad; xe3
].
(* tests/test_data/whatwg/big5_whatwg_test_decode_in.txt, entries 17920..18175 *)
Definition big5_decode_in_70 : list byte := [
  x0a; xad; xe4; x0a; xad; xe5; x0a; xad;
  xe6; x0a; xad; xe7; x0a; xad; xe8; x0a;
  xad; xe9; x0a; xad; xea; x0a; xad; xeb;
  x0a; xad; xec; x0a; xad; xed; x0a; xad;
  xee; x0a; xad; xef; x0a; xad; xf0; x0a;
  xad; xf1; x0a; xad; xf2; x0a; xad; xf3;
  x0a; xad; xf4; x0a; xad; xf5; x0a; xad;
  xf6; x0a; xad; xf7; x0a; xad; xf8; x0a;
  xad; xf9; x0a; xad; xfa; x0a; xad; xfb;
  x0a; xad; xfc; x0a; xad; xfd; x0a; xad;
  xfe; x0a; xae; x40; x0a; xae; x41; x0a;
  xae; x42; x0a; xae; x43; x0a; xae; x44;
  x0a; xae; x45; x0a; xae; x46; x0a; xae;
  x47; x0a; xae; x48; x0a; xae; x49; x0a;
  xae; x4a; x0a; xae; x4b; x0a; xae; x4c;
  x0a; xae; x4d; x0a; xae; x4e; x0a; xae;
  x4f; x0a; xae; x50; x0a; xae; x51; x0a;
  xae; x52; x0a; xae; x53; x0a; xae; x54;
  x0a; xae; x55; x0a; xae; x56; x0a; xae;
  x57; x0a; xae; x58; x0a; xae; x59; x0a;
  xae; x5a; x0a; xae; x5b; x0a; xae; x5c;
  x0a; xae; x5d; x0a; xae; x5e; x0a; xae;
  x5f; x0a; xae; x60; x0a; xae; x61; x0a;
  xae; x62; x0a; xae; x63; x0a; xae; x64;
  x0a; xae; x65; x0a; xae; x66; x0a; xae;
  x67; x0a; xae; x68; x0a; xae; x69; x0a;
  xae; x6a; x0a; xae; x6b; x0a; xae; x6c;
  x0a; xae; x6d; x0a; xae; x6e; x0a; xae;
  x6f; x0a; xae; x70; x0a; xae; x71; x0a;
  xae; x72; x0a; xae; x73; x0a; xae; x74;
  x0a; xae; x75; x0a; xae; x76; x0a; xae;
  x77; x0a; xae; x78; x0a; xae; x79; x0a
].
(* tests/test_data/whatwg/big5_whatwg_test_decode_in.txt, entries 18176..18431 *)
Definition big5_decode_in_71 : list byte := [
  xae; x7a; x0a; xae; x7b; x0a; xae; x7c;
  x0a; xae; x7d; x0a; xae; x7e; x0a; xae;
  xa1; x0a; xae; xa2; x0a; xae; xa3; x0a;
  xae; xa4; x0a; xae; xa5; x0a; xae; xa6;
  x0a; xae; xa7; x0a; xae; xa8; x0a; xae;
  xa9; x0a; xae; xaa; x0a; xae; xab; x0a;
  xae; xac; x0a; xae; xad; x0a; xae; xae;
  x0a; xae; xaf; x0a; xae; xb0; x0a; xae;
  xb1; x0a; xae; xb2; x0a; xae; xb3; x0a;
  xae; xb4; x0a; xae; xb5; x0a; xae; xb6;
  x0a; xae; xb7; x0a; xae; xb8; x0a; xae;
  xb9; x0a; xae; xba; x0a; xae; xbb; x0a;
  xae; xbc; x0a; xae; xbd; x0a; xae; xbe;
  x0a; xae; xbf; x0a; xae; xc0; x0a; xae;
  xc1; x0a; xae; xc2; x0a; xae; xc3; x0a;
  xae; xc4; x0a; xae; xc5; x0a; xae; xc6;
  x0a; xae; xc7; x0a; xae; xc8; x0a; xae;
  xc9; x0a; xae; xca; x0a; xae; xcb; x0a;
  xae; xcc; x0a; xae; xcd; x0a; xae; xce;
  x0a; xae; xcf; x0a; xae; xd0; x0a; xae;
  xd1; x0a; xae; xd2; x0a; xae; xd3; x0a;
  xae; xd4; x0a; xae; xd5; x0a; xae; xd6;
  x0a; xae; xd7; x0a; xae; xd8; x0a; xae;
  xd9; x0a; xae; xda; x0a; xae; xdb; x0a;
  xae; xdc; x0a; xae; xdd; x0a; xae; xde;
  x0a; xae; xdf; x0a; xae; xe0; x0a; xae;
  xe1; x0a; xae; xe2; x0a; xae; xe3; x0a;
  xae; xe4; x0a; xae; xe5; x0a; xae; xe6;
  x0a; xae; xe7; x0a; xae; xe8; x0a; xae;
  xe9; x0a; xae; xea; x0a; xae; xeb; x0a;
  xae; xec; x0a; xae; xed; x0a; xae; xee;
  x0a; xae; xef; x0a; xae; xf0; x0a; xae
].
(* tests/test_data/whatwg/big5_whatwg_test_decode_in.txt, entries 18432..18687 *)
Definition big5_decode_in_72 : list byte := [
  xf1; x0a; xae; xf2; x0a; xae; xf3; x0a;
  xae; xf4; x0a; xae; xf5; x0a; xae; xf6;
  x0a; xae; xf7; x0a; xae; xf8; x0a; xae;
  xf9; x0a; xae; xfa; x0a; xae; xfb; x0a;
  xae; xfc; x0a; xae; xfd; x0a; xae; xfe;
  x0a; xaf; x40; x0a; xaf; x41; x0a; xaf;
  x42; x0a; xaf; x43; x0a; xaf; x44; x0a;
  xaf; x45; x0a; xaf; x46; x0a; xaf; x47;
  x0a; xaf; x48; x0a; xaf; x49; x0a; xaf;
  x4a; x0a; xaf; x4b; x0a; xaf; x4c; x0a;
  xaf; x4d; x0a; xaf; x4e; x0a; xaf; x4f;
  x0a; xaf; x50; x0a; xaf; x51; x0a; xaf;
  x52; x0a; xaf; x53; x0a; xaf; x54; x0a;
  xaf; x55; x0a; xaf; x56; x0a; xaf; x57;
  x0a; xaf; x58; x0a; xaf; x59; x0a; xaf;
  x5a; x0a; xaf; x5b; x0a; xaf; x5c; x0a;
  xaf; x5d; x0a; xaf; x5e; x0a; xaf; x5f;
  x0a; xaf; x60; x0a; xaf; x61; x0a; xaf;
  x62; x0a; xaf; x63; x0a; xaf; x64; x0a;
  xaf; x65; x0a; xaf; x66; x0a; xaf; x67;
  x0a; xaf; x68; x0a; xaf; x69; x0a; xaf;
  x6a; x0a; xaf; x6b; x0a; xaf; x6c; x0a;
  xaf; x6d; x0a; xaf; x6e; x0a; xaf; x6f;
  x0a; xaf; x70; x0a; xaf; x71; x0a; xaf;
  x72; x0a; xaf; x73; x0a; xaf; x74; x0a;
  xaf; x75; x0a; xaf; x76; x0a; xaf; x77;
  x0a; xaf; x78; x0a; xaf; x79; x0a; xaf;
  x7a; x0a; xaf; x7b; x0a; xaf; x7c; x0a;
  xaf; x7d; x0a; xaf; x7e; x0a; xaf; xa1;
  x0a; xaf; xa2; x0a; xaf; xa3; x0a; xaf;
  xa4; x0a; xaf; xa5; x0a; xaf; xa6; x0a;
  xaf; xa7; x0a; xaf; xa8; x0a; xaf; xa9
].
(* tests/test_data/whatwg/big5_whatwg_test_decode_in.txt, entries 18688..18943 *)
Definition big5_decode_in_73 : list byte := [
  x0a; xaf; xaa; x0a; xaf; xab; x0a; xaf;
  xac; x0a; xaf; xad; x0a; xaf; xae; x0a;
  xaf; xaf; x0a; xaf; xb0; x0a; xaf; xb1;
  x0a; xaf; xb2; x0a; xaf; xb3; x0a; xaf;
  xb4; x0a; xaf; xb5; x0a; xaf; xb6; x0a;
  xaf; xb7; x0a; xaf; xb8; x0a; xaf; xb9;
  x0a; xaf; xba; x0a; xaf; xbb; x0a; xaf;
  xbc; x0a; xaf; xbd; x0a; xaf; xbe; x0a;
  xaf; xbf; x0a; xaf; xc0; x0a; xaf; xc1;
  x0a; xaf; xc2; x0a; xaf; xc3; x0a; xaf;
  xc4; x0a; xaf; xc5; x0a; xaf; xc6; x0a;
  xaf; xc7; x0a; xaf; xc8; x0a; xaf; xc9;
  x0a; xaf; xca; x0a; xaf; xcb; x0a; xaf;
  xcc; x0a; xaf; xcd; x0a; xaf; xce; x0a;
  xaf; xcf; x0a; xaf; xd0; x0a; xaf; xd1;
  x0a; xaf; xd2; x0a; xaf; xd3; x0a; xaf;
  xd4; x0a; xaf; xd5; x0a; xaf; xd6; x0a;
  xaf; xd7; x0a; xaf; xd8; x0a; xaf; xd9;
  x0a; xaf; xda; x0a; xaf; xdb; x0a; xaf;
  xdc; x0a; xaf; xdd; x0a; xaf; xde; x0a;
  xaf; xdf; x0a; xaf; xe0; x0a; xaf; xe1;
  x0a; xaf; xe2; x0a; xaf; xe3; x0a; xaf;
  xe4; x0a; xaf; xe5; x0a; xaf; xe6; x0a;
  xaf; xe7; x0a; xaf; xe8; x0a; xaf; xe9;
  x0a; xaf; xea; x0a; xaf; xeb; x0a; xaf;
  xec; x0a; xaf; xed; x0a; xaf; xee; x0a;
  xaf; xef; x0a; xaf; xf0; x0a; xaf; xf1;
  x0a; xaf; xf2; x0a; xaf; xf3; x0a; xaf;
  xf4; x0a; xaf; xf5; x0a; xaf; xf6; x0a;
  xaf; xf7; x0a; xaf; xf8; x0a; xaf; xf9;
  x0a; xaf; xfa; x0a; xaf; xfb; x0a; xaf;
  xfc; x0a; xaf; xfd; x0a; xaf; xfe; x0a
].
(* tests/test_data/whatwg/big5_whatwg_test_decode_in.txt, entries 18944..19199 *)
Definition big5_decode_in_74 : list byte := [
  xb0; x40; x0a; xb0; x41; x0a; xb0; x42;
  x0a; xb0; x43; x0a; xb0; x44; x0a; xb0;
  x45; x0a; xb0; x46; x0a; xb0; x47; x0a;
  xb0; x48; x0a; xb0; x49; x0a; xb0; x4a;
  x0a; xb0; x4b; x0a; xb0; x4c; x0a; xb0;
  x4d; x0a; xb0; x4e; x0a; xb0; x4f; x0a;
  xb0; x50; x0a; xb0; x51; x0a; xb0; x52;
  x0a; xb0; x53; x0a; xb0; x54; x0a; xb0;
  x55; x0a; xb0; x56; x0a; xb0; x57; x0a;
  xb0; x58; x0a; xb0; x59; x0a; xb0; x5a;
  x0a; xb0; x5b; x0a; xb0; x5c; x0a; xb0;
  x5d; x0a; xb0; x5e; x0a; xb0; x5f; x0a;
  xb0; x60; x0a; xb0; x61; x0a; xb0; x62;
  x0a; xb0; x63; x0a; xb0; x64; x0a; xb0;
  x65; x0a; xb0; x66; x0a; xb0; x67; x0a;
  xb0; x68; x0a; xb0; x69; x0a; xb0; x6a;
  x0a; xb0; x6b; x0a; xb0; x6c; x0a; xb0;
  x6d; x0a; xb0; x6e; x0a; xb0; x6f; x0a;
  xb0; x70; x0a; xb0; x71; x0a; xb0; x72;
  x0a; xb0; x73; x0a; xb0; x74; x0a; xb0;
  x75; x0a; xb0; x76; x0a; xb0; x77; x0a;
  xb0; x78; x0a; xb0; x79; x0a; xb0; x7a;
  x0a; xb0; x7b; x0a; xb0; x7c; x0a; xb0;
  x7d; x0a; xb0; x7e; x0a; xb0; xa1; x0a;
  xb0; xa2; x0a; xb0; xa3; x0a; xb0; xa4;
  x0a; xb0; xa5; x0a; xb0; xa6; x0a; xb0;
  xa7; x0a; xb0; xa8; x0a; xb0; xa9; x0a;
  xb0; xaa; x0a; xb0; xab; x0a; xb0; xac;
  x0a; xb0; xad; x0a; xb0; xae; x0a; xb0;
  xaf; x0a; xb0; xb0; x0a; xb0; xb1; x0a;
  xb0; xb2; x0a; xb0; xb3; x0a; xb0; xb4;
  x0a; xb0; xb5; x0a; xb0; xb6; x0a; xb0
].
(* tests/test_data/whatwg/big5_whatwg_test_decode_in.txt, entries 19200..19455 *)
Definition big5_decode_in_75 : list byte := [
  xb7; x0a; xb0; xb8; x0a; xb0; xb9; x0a;
  xb0; xba; x0a; xb0; xbb; x0a; xb0; xbc;
  x0a; xb0; xbd; x0a; xb0; xbe; x0a; xb0;
  xbf; x0a; xb0; xc0; x0a; xb0; xc1; x0a;
  xb0; xc2; x0a; xb0; xc3; x0a; xb0; xc4;
  x0a; xb0; xc5; x0a; xb0; xc6; x0a; xb0;
  xc7; x0a; xb0; xc8; x0a; xb0; xc9; x0a;
  xb0; xca; x0a; xb0; xcb; x0a; xb0; xcc;
  x0a; xb0; xcd; x0a; xb0; xce; x0a; xb0;
  xcf; x0a; xb0; xd0; x0a; xb0; xd1; x0a;
  xb0; xd2; x0a; xb0; xd3; x0a; xb0; xd4;
  x0a; xb0; xd5; x0a; xb0; xd6; x0a; xb0;
  xd7; x0a; xb0; xd8; x0a; xb0; xd9; x0a;
  xb0; xda; x0a; xb0; xdb; x0a; xb0; xdc;
  x0a; xb0; xdd; x0a; xb0; xde; x0a; xb0;
  xdf; x0a; xb0; xe0; x0a; xb0; xe1; x0a;
  xb0; xe2; x0a; xb0; xe3; x0a; xb0; xe4;
  x0a; xb0; xe5; x0a; xb0; xe6; x0a; xb0;
  xe7; x0a; xb0; xe8; x0a; xb0; xe9; x0a;
  xb0; xea; x0a; xb0; xeb; x0a; xb0; xec;
  x0a; xb0; xed; x0a; xb0; xee; x0a; xb0;
  xef; x0a; xb0; xf0; x0a; xb0; xf1; x0a;
  xb0; xf2; x0a; xb0; xf3; x0a; xb0; xf4;
  x0a; xb0; xf5; x0a; xb0; xf6; x0a; xb0;
  xf7; x0a; xb0; xf8; x0a; xb0; xf9; x0a;
  xb0; xfa; x0a; xb0; xfb; x0a; xb0; xfc;
  x0a; xb0; xfd; x0a; xb0; xfe; x0a; xb1;
  x40; x0a; xb1; x41; x0a; xb1; x42; x0a;
  xb1; x43; x0a; xb1; x44; x0a; xb1; x45;
  x0a; xb1; x46; x0a; xb1; x47; x0a; xb1;
  x48; x0a; xb1; x49; x0a; xb1; x4a; x0a;
  xb1; x4b; x0a; xb1; x4c; x0a; xb1; x4d
].
(* tests/test_data/whatwg/big5_whatwg_test_decode_in.txt, entries 19456..19711 *)
Definition big5_decode_in_76 : list byte := [
  x0a; xb1; x4e; x0a; xb1; x4f; x0a; xb1;
  x50; x0a; xb1; x51; x0a; xb1; x52; x0a;
  xb1; x53; x0a; xb1; x54; x0a; xb1; x55;
  x0a; xb1; x56; x0a; xb1; x57; x0a; xb1;
  x58; x0a; xb1; x59; x0a; xb1; x5a; x0a;
  xb1; x5b; x0a; xb1; x5c; x0a; xb1; x5d;
  x0a; xb1; x5e; x0a; xb1; x5f; x0a; xb1;
  x60; x0a; xb1; x61; x0a; xb1; x62; x0a;
  xb1; x63; x0a; xb1; x64; x0a; xb1; x65;
  x0a; xb1; x66; x0a; xb1; x67; x0a; xb1;
  x68; x0a; xb1; x69; x0a; xb1; x6a; x0a;
  xb1; x6b; x0a; xb1; x6c; x0a; xb1; x6d;
  x0a; xb1; x6e; x0a; xb1; x6f; x0a; xb1;
  x70; x0a; xb1; x71; x0a; xb1; x72; x0a;
  xb1; x73; x0a; xb1; x74; x0a; xb1; x75;
  x0a; xb1; x76; x0a; xb1; x77; x0a; xb1;
  x78; x0a; xb1; x79; x0a; xb1; x7a; x0a;
  xb1; x7b; x0a; xb1; x7c; x0a; xb1; x7d;
  x0a; xb1; x7e; x0a; xb1; xa1; x0a; xb1;
  xa2; x0a; xb1; xa3; x0a; xb1; xa4; x0a;
  xb1; xa5; x0a; xb1; xa6; x0a; xb1; xa7;
  x0a; xb1; xa8; x0a; xb1; xa9; x0a; xb1;
  xaa; x0a; xb1; xab; x0a; xb1; xac; x0a;
  xb1; xad; x0a; xb1; xae; x0a; xb1; xaf;
  x0a; xb1; xb0; x0a; xb1; xb1; x0a; xb1;
  xb2; x0a; xb1; xb3; x0a; xb1; xb4; x0a;
  xb1; xb5; x0a; xb1; xb6; x0a; xb1; xb7;
  x0a; xb1; xb8; x0a; xb1; xb9; x0a; xb1;
  xba; x0a; xb1; xbb; x0a; xb1; xbc; x0a;
  xb1; xbd; x0a; xb1; xbe; x0a; xb1; xbf;
  x0a; xb1; xc0; x0a; xb1; xc1; x0a; xb1;
  xc2; x0a; xb1; xc3; x0a; xb1; xc4; x0a
].
(* tests/test_data/whatwg/big5_whatwg_test_decode_in.txt, entries 19712..19967 *)
Definition big5_decode_in_77 : list byte := [
  xb1; xc5; x0a; xb1; xc6; x0a; xb1; xc7;
  x0a; xb1; xc8; x0a; xb1; xc9; x0a; xb1;
  xca; x0a; xb1; xcb; x0a; xb1; xcc; x0a;
  xb1; xcd; x0a; xb1; xce; x0a; xb1; xcf;
  x0a; xb1; xd0; x0a; xb1; xd1; x0a; xb1;
  xd2; x0a; xb1; xd3; x0a; xb1; xd4; x0a;
  xb1; xd5; x0a; xb1; xd6; x0a; xb1; xd7;
  x0a; xb1; xd8; x0a; xb1; xd9; x0a; xb1;
  xda; x0a; xb1; xdb; x0a; xb1; xdc; x0a;
  xb1; xdd; x0a; xb1; xde; x0a; xb1; xdf;
  x0a; xb1; xe0; x0a; xb1; xe1; x0a; xb1;
  xe2; x0a; xb1; xe3; x0a; xb1; xe4; x0a;
  xb1; xe5; x0a; xb1; xe6; x0a; xb1; xe7;
  x0a; xb1; xe8; x0a; xb1; xe9; x0a; xb1;
  xea; x0a; xb1; xeb; x0a; xb1; xec; x0a;
  xb1; xed; x0a; xb1; xee; x0a; xb1; xef;
  x0a; xb1; xf0; x0a; xb1; xf1; x0a; xb1;
  xf2; x0a; xb1; xf3; x0a; xb1; xf4; x0a;
  xb1; xf5; x0a; xb1; xf6; x0a; xb1; xf7;
  x0a; xb1; xf8; x0a; xb1; xf9; x0a; xb1;
  xfa; x0a; xb1; xfb; x0a; xb1; xfc; x0a;
  xb1; xfd; x0a; xb1; xfe; x0a; xb2; x40;
  x0a; xb2; x41; x0a; xb2; x42; x0a; xb2;
  x43; x0a; xb2; x44; x0a; xb2; x45; x0a;
  xb2; x46; x0a; xb2; x47; x0a; xb2; x48;
  x0a; xb2; x49; x0a; xb2; x4a; x0a; xb2;
  x4b; x0a; xb2; x4c; x0a; xb2; x4d; x0a;
  xb2; x4e; x0a; xb2; x4f; x0a; xb2; x50;
  x0a; xb2; x51; x0a; xb2; x52; x0a; xb2;
  x53; x0a; xb2; x54; x0a; xb2; x55; x0a;
  xb2; x56; x0a; xb2; x57; x0a; xb2; x58;
  x0a; xb2; x59; x0a; xb2; x5a; x0a; xb2
].
(* tests/test_data/whatwg/big5_whatwg_test_decode_in.txt, entries 19968..20223 *)
Definition big5_decode_in_78 : list byte := [
  x5b; x0a; xb2; x5c; x0a; xb2; x5d; x0a;
  xb2; x5e; x0a; xb2; x5f; x0a; xb2; x60;
  x0a; xb2; x61; x0a; xb2; x62; x0a; xb2;
  x63; x0a; xb2; x64; x0a; xb2; x65; x0a;
  xb2; x66; x0a; xb2; x67; x0a; xb2; x68;
  x0a; xb2; x69; x0a; xb2; x6a; x0a; xb2;
  x6b; x0a; xb2; x6c; x0a; xb2; x6d; x0a;
  xb2; x6e; x0a; xb2; x6f; x0a; xb2; x70;
  x0a; xb2; x71; x0a; xb2; x72; x0a; xb2;
  x73; x0a; xb2; x74; x0a; xb2; x75; x0a;
  xb2; x76; x0a; xb2; x77; x0a; xb2; x78;
  x0a; xb2; x79; x0a; xb2; x7a; x0a; xb2;
  x7b; x0a; xb2; x7c; x0a; xb2; x7d; x0a;
  xb2; x7e; x0a; xb2; xa1; x0a; xb2; xa2;
  x0a; xb2; xa3; x0a; xb2; xa4; x0a; xb2;
  xa5; x0a; xb2; xa6; x0a; xb2; xa7; x0a;
  xb2; xa8; x0a; xb2; xa9; x0a; xb2; xaa;
  x0a; xb2; xab; x0a; xb2; xac; x0a; xb2;
  xad; x0a; xb2; xae; x0a; xb2; xaf; x0a;
  xb2; xb0; x0a; xb2; xb1; x0a; xb2; xb2;
  x0a; xb2; xb3; x0a; xb2; xb4; x0a; xb2;
  xb5; x0a; xb2; xb6; x0a; xb2; xb7; x0a;
  xb2; xb8; x0a; xb2; xb9; x0a; xb2; xba;
  x0a; xb2; xbb; x0a; xb2; xbc; x0a; xb2;
  xbd; x0a; xb2; xbe; x0a; xb2; xbf; x0a;
  xb2; xc0; x0a; xb2; xc1; x0a; xb2; xc2;
  x0a; xb2; xc3; x0a; xb2; xc4; x0a; xb2;
  xc5; x0a; xb2; xc6; x0a; xb2; xc7; x0a;
  xb2; xc8; x0a; xb2; xc9; x0a; xb2; xca;
  x0a; xb2; xcb; x0a; xb2; xcc; x0a; xb2;
  xcd; x0a; xb2; xce; x0a; xb2; xcf; x0a;
  xb2; xd0; x0a; xb2; xd1; x0a; xb2; xd2
].
(* tests/test_data/whatwg/big5_whatwg_test_decode_in.txt, entries 20224..20479 *)
Definition big5_decode_in_79 : list byte := [
  x0a; xb2; xd3; x0a; xb2; xd4; x0a; xb2;
  xd5; x0a; xb2; xd6; x0a; xb2; xd7; x0a;
  xb2; xd8; x0a; xb2; xd9; x0a; xb2; xda;
  x0a; xb2; xdb; x0a; xb2; xdc; x0a; xb2;
  xdd; x0a; xb2; xde; x0a; xb2; xdf; x0a;
  xb2; xe0; x0a; xb2; xe1; x0a; xb2; xe2;
  x0a; xb2; xe3; x0a; xb2; xe4; x0a; xb2;
  xe5; x0a; xb2; xe6; x0a; xb2; xe7; x0a;
  xb2; xe8; x0a; xb2; xe9; x0a; xb2; xea;
  x0a; xb2; xeb; x0a; xb2; xec; x0a; xb2;
  xed; x0a; xb2; xee; x0a; xb2; xef; x0a;
  xb2; xf0; x0a; xb2; xf1; x0a; xb2; xf2;
  x0a; xb2; xf3; x0a; xb2; xf4; x0a; xb2;
  xf5; x0a; xb2; xf6; x0a; xb2; xf7; x0a;
  xb2; xf8; x0a; xb2; xf9; x0a; xb2; xfa;
  x0a; xb2; xfb; x0a; xb2; xfc; x0a; xb2;
  xfd; x0a; xb2; xfe; x0a; xb3; x40; x0a;
  xb3; x41; x0a; xb3; x42; x0a; xb3; x43;
  x0a; xb3; x44; x0a; xb3; x45; x0a; xb3;
  x46; x0a; xb3; x47; x0a; xb3; x48; x0a;
  xb3; x49; x0a; xb3; x4a; x0a; xb3; x4b;
  x0a; xb3; x4c; x0a; xb3; x4d; x0a; xb3;
  x4e; x0a; xb3; x4f; x0a; xb3; x50; x0a;
  xb3; x51; x0a; xb3; x52; x0a; xb3; x53;
  x0a; xb3; x54; x0a; xb3; x55; x0a; xb3;
  x56; x0a; xb3; x57; x0a; xb3; x58; x0a;
  xb3; x59; x0a; xb3; x5a; x0a; xb3; x5b;
  x0a; xb3; x5c; x0a; xb3; x5d; x0a; xb3;
  x5e; x0a; xb3; x5f; x0a; xb3; x60; x0a;
  xb3; x61; x0a; xb3; x62; x0a; xb3; x63;
  x0a; xb3; x64; x0a; xb3; x65; x0a; xb3;
  x66; x0a; xb3; x67; x0a; xb3; x68; x0a
].
(* tests/test_data/whatwg/big5_whatwg_test_decode_in.txt, entries 20480..20735 *)
Definition big5_decode_in_80 : list byte := [
  xb3; x69; x0a; xb3; x6a; x0a; xb3; x6b;
  x0a; xb3; x6c; x0a; xb3; x6d; x0a; xb3;
  x6e; x0a; xb3; x6f; x0a; xb3; x70; x0a;
  xb3; x71; x0a; xb3; x72; x0a; xb3; x73;
  x0a; xb3; x74; x0a; xb3; x75; x0a; xb3;
  x76; x0a; xb3; x77; x0a; xb3; x78; x0a;
  xb3; x79; x0a; xb3; x7a; x0a; xb3; x7b;
  x0a; xb3; x7c; x0a; xb3; x7d; x0a; xb3;
  x7e; x0a; xb3; xa1; x0a; xb3; xa2; x0a;
  xb3; xa3; x0a; xb3; xa4; x0a; xb3; xa5;
  x0a; xb3; xa6; x0a; xb3; xa7; x0a; xb3;
  xa8; x0a; xb3; xa9; x0a; xb3; xaa; x0a;
  xb3; xab; x0a; xb3; xac; x0a; xb3; xad;
  x0a; xb3; xae; x0a; xb3; xaf; x0a; xb3;
  xb0; x0a; xb3; xb1; x0a; xb3; xb2; x0a;
  xb3; xb3; x0a; xb3; xb4; x0a; xb3; xb5;
  x0a; xb3; xb6; x0a; xb3; xb7; x0a; xb3;
  xb8; x0a; xb3; xb9; x0a; xb3; xba; x0a;
  xb3; xbb; x0a; xb3; xbc; x0a; xb3; xbd;
  x0a; xb3; xbe; x0a; xb3; xbf; x0a; xb3;
  xc0; x0a; xb3; xc1; x0a; xb3; xc2; x0a;
  xb3; xc3; x0a; xb3; xc4; x0a; xb3; xc5;
  x0a; xb3; xc6; x0a; xb3; xc7; x0a; xb3;
  xc8; x0a; xb3; xc9; x0a; xb3; xca; x0a;
  xb3; xcb; x0a; xb3; xcc; x0a; xb3; xcd;
  x0a; xb3; xce; x0a; xb3; xcf; x0a; xb3;
  xd0; x0a; xb3; xd1; x0a; xb3; xd2; x0a;
  xb3; xd3; x0a; xb3; xd4; x0a; xb3; xd5;
  x0a; xb3; xd6; x0a; xb3; xd7; x0a; xb3;
  xd8; x0a; xb3; xd9; x0a; xb3; xda; x0a;
  xb3; xdb; x0a; xb3; xdc; x0a; xb3; xdd;
  x0a; xb3; xde; x0a; xb3; xdf; x0a; xb3
].
(* tests/test_data/whatwg/big5_whatwg_test_decode_in.txt, entries 20736..20991 *)
Definition big5_decode_in_81 : list byte := [
  xe0; x0a; xb3; xe1; x0a; xb3; xe2; x0a;
  xb3; xe3; x0a; xb3; xe4; x0a; xb3; xe5;
  x0a; xb3; xe6; x0a; xb3; xe7; x0a; xb3;
  xe8; x0a; xb3; xe9; x0a; xb3; xea; x0a;
  xb3; xeb; x0a; xb3; xec; x0a; xb3; xed;
  x0a; xb3; xee; x0a; xb3; xef; x0a; xb3;
  xf0; x0a; xb3; xf1; x0a; xb3; xf2; x0a;
  xb3; xf3; x0a; xb3; xf4; x0a; xb3; xf5;
  x0a; xb3; xf6; x0a; xb3; xf7; x0a; xb3;
  xf8; x0a; xb3; xf9; x0a; xb3; xfa; x0a;
  xb3; xfb; x0a; xb3; xfc; x0a; xb3; xfd;
  x0a; xb3; xfe; x0a; xb4; x40; x0a; xb4;
  x41; x0a; xb4; x42; x0a; xb4; x43; x0a;
  xb4; x44; x0a; xb4; x45; x0a; xb4; x46;
  x0a; xb4; x47; x0a; xb4; x48; x0a; xb4;
  x49; x0a; xb4; x4a; x0a; xb4; x4b; x0a;
  xb4; x4c; x0a; xb4; x4d; x0a; xb4; x4e;
  x0a; xb4; x4f; x0a; xb4; x50; x0a; xb4;
  x51; x0a; xb4; x52; x0a; xb4; x53; x0a;
  xb4; x54; x0a; xb4; x55; x0a; xb4; x56;
  x0a; xb4; x57; x0a; xb4; x58; x0a; xb4;
  x59; x0a; xb4; x5a; x0a; xb4; x5b; x0a;
  xb4; x5c; x0a; xb4; x5d; x0a; xb4; x5e;
  x0a; xb4; x5f; x0a; xb4; x60; x0a; xb4;
  x61; x0a; xb4; x62; x0a; xb4; x63; x0a;
  xb4; x64; x0a; xb4; x65; x0a; xb4; x66;
  x0a; xb4; x67; x0a; xb4; x68; x0a; xb4;
  x69; x0a; xb4; x6a; x0a; xb4; x6b; x0a;
  xb4; x6c; x0a; xb4; x6d; x0a; xb4; x6e;
  x0a; xb4; x6f; x0a; xb4; x70; x0a; xb4;
  x71; x0a; xb4; x72; x0a; xb4; x73; x0a;
  xb4; x74; x0a; xb4; x75; x0a; xb4; x76
].
(* tests/test_data/whatwg/big5_whatwg_test_decode_in.txt, entries 20992..21247 *)
Definition big5_decode_in_82 : list byte := [
  x0a; xb4; x77; x0a; xb4; x78; x0a; xb4;
  x79; x0a; xb4; x7a; x0a; xb4; x7b; x0a;
  xb4; x7c; x0a; xb4; x7d; x0a; xb4; x7e;
  x0a; xb4; xa1; x0a; xb4; xa2; x0a; xb4;
  xa3; x0a; xb4; xa4; x0a; xb4; xa5; x0a;
  xb4; xa6; x0a; xb4; xa7; x0a; xb4; xa8;
  x0a; xb4; xa9; x0a; xb4; xaa; x0a; xb4;
  xab; x0a; xb4; xac; x0a; xb4; xad; x0a;
  xb4; xae; x0a; xb4; xaf; x0a; xb4; xb0;
  x0a; xb4; xb1; x0a; xb4; xb2; x0a; xb4;
  xb3; x0a; xb4; xb4; x0a; xb4; xb5; x0a;
  xb4; xb6; x0a; xb4; xb7; x0a; xb4; xb8;
  x0a; xb4; xb9; x0a; xb4; xba; x0a; xb4;
  xbb; x0a; xb4; xbc; x0a; xb4; xbd; x0a;
  xb4; xbe; x0a; xb4; xbf; x0a; xb4; xc0;
  x0a; xb4; xc1; x0a; xb4; xc2; x0a; xb4;
  xc3; x0a; xb4; xc4; x0a; xb4; xc5; x0a;
  xb4; xc6; x0a; xb4; xc7; x0a; xb4; xc8;
  x0a; xb4; xc9; x0a; xb4; xca; x0a; xb4;
  xcb; x0a; xb4; xcc; x0a; xb4; xcd; x0a;
  xb4; xce; x0a; xb4; xcf; x0a; xb4; xd0;
  x0a; xb4; xd1; x0a; xb4; xd2; x0a; xb4;
  xd3; x0a; xb4; xd4; x0a; xb4; xd5; x0a;
  xb4; xd6; x0a; xb4; xd7; x0a; xb4; xd8;
  x0a; xb4; xd9; x0a; xb4; xda; x0a; xb4;
  xdb; x0a; xb4; xdc; x0a; xb4; xdd; x0a;
  xb4; xde; x0a; xb4; xdf; x0a; xb4; xe0;
  x0a; xb4; xe1; x0a; xb4; xe2; x0a; xb4;
  xe3; x0a; xb4; xe4; x0a; xb4; xe5; x0a;
  xb4; xe6; x0a; xb4; xe7; x0a; xb4; xe8;
  x0a; xb4; xe9; x0a; xb4; xea; x0a; xb4;
  xeb; x0a; xb4; xec; x0a; xb4; xed; x0a
].
(* tests/test_data/whatwg/big5_whatwg_test_decode_in.txt, entries 21248..21503 *)
Definition big5_decode_in_83 : list byte := [
  xb4; xee; x0a; xb4; xef; x0a; xb4; xf0;
  x0a; xb4; xf1; x0a; xb4; xf2; x0a; xb4;
  xf3; x0a; xb4; xf4; x0a; xb4; xf5; x0a;
  xb4; xf6; x0a; xb4; xf7; x0a; xb4; xf8;
  x0a; xb4; xf9; x0a; xb4; xfa; x0a; xb4;
  xfb; x0a; xb4; xfc; x0a; xb4; xfd; x0a;
  xb4; xfe; x0a; xb5; x40; x0a; xb5; x41;
  x0a; xb5; x42; x0a; xb5; x43; x0a; xb5;
  x44; x0a; xb5; x45; x0a; xb5; x46; x0a;
  xb5; x47; x0a; xb5; x48; x0a; xb5; x49;
  x0a; xb5; x4a; x0a; xb5; x4b; x0a; xb5;
  x4c; x0a; xb5; x4d; x0a; xb5; x4e; x0a;
  xb5; x4f; x0a; xb5; x50; x0a; xb5; x51;
  x0a; xb5; x52; x0a; xb5; x53; x0a; xb5;
  x54; x0a; xb5; x55; x0a; xb5; x56; x0a;
  xb5; x57; x0a; xb5; x58; x0a; xb5; x59;
  x0a; xb5; x5a; x0a; xb5; x5b; x0a; xb5;
  x5c; x0a; xb5; x5d; x0a; xb5; x5e; x0a;
  xb5; x5f; x0a; xb5; x60; x0a; xb5; x61;
  x0a; xb5; x62; x0a; xb5; x63; x0a; xb5;
  x64; x0a; xb5; x65; x0a; xb5; x66; x0a;
  xb5; x67; x0a; xb5; x68; x0a; xb5; x69;
  x0a; xb5; x6a; x0a; xb5; x6b; x0a; xb5;
  x6c; x0a; xb5; x6d; x0a; xb5; x6e; x0a;
  xb5; x6f; x0a; xb5; x70; x0a; xb5; x71;
  x0a; xb5; x72; x0a; xb5; x73; x0a; xb5;
  x74; x0a; xb5; x75; x0a; xb5; x76; x0a;
  xb5; x77; x0a; xb5; x78; x0a; xb5; x79;
  x0a; xb5; x7a; x0a; xb5; x7b; x0a; xb5;
  x7c; x0a; xb5; x7d; x0a; xb5; x7e; x0a;
  xb5; xa1; x0a; xb5; xa2; x0a; xb5; xa3;
  x0a; xb5; xa4; x0a; xb5; xa5; x0a; xb5
].
(* tests/test_data/whatwg/big5_whatwg_test_decode_in.txt, entries 21504..21759 *)
Definition big5_decode_in_84 : list byte := [
  xa6; x0a; xb5; xa7; x0a; xb5; xa8; x0a;
  xb5; xa9; x0a; xb5; xaa; x0a; xb5; xab;
  x0a; xb5; xac; x0a; xb5; xad; x0a; xb5;
  xae; x0a; xb5; xaf; x0a; xb5; xb0; x0a;
  xb5; xb1; x0a; xb5; xb2; x0a; xb5; xb3;
  x0a; xb5; xb4; x0a; xb5; xb5; x0a; xb5;
  xb6; x0a; xb5; xb7; x0a; xb5; xb8; x0a;
  xb5; xb9; x0a; xb5; xba; x0a; xb5; xbb;
  x0a; xb5; xbc; x0a; xb5; xbd; x0a; xb5;
  xbe; x0a; xb5; xbf; x0a; xb5; xc0; x0a;
  xb5; xc1; x0a; xb5; xc2; x0a; xb5; xc3;
  x0a; xb5; xc4; x0a; xb5; xc5; x0a; xb5;
  xc6; x0a; xb5; xc7; x0a; xb5; xc8; x0a;
  xb5; xc9; x0a; xb5; xca; x0a; xb5; xcb;
  x0a; xb5; xcc; x0a; xb5; xcd; x0a; xb5;
  xce; x0a; xb5; xcf; x0a; xb5; xd0; x0a;
  xb5; xd1; x0a; xb5; xd2; x0a; xb5; xd3;
  x0a; xb5; xd4; x0a; xb5; xd5; x0a; xb5;
  xd6; x0a; xb5; xd7; x0a; xb5; xd8; x0a;
  xb5; xd9; x0a; xb5; xda; x0a; xb5; xdb;
  x0a; xb5; xdc; x0a; xb5; xdd; x0a; xb5;
  xde; x0a; xb5; xdf; x0a; xb5; xe0; x0a;
  xb5; xe1; x0a; xb5; xe2; x0a; xb5; xe3;
  x0a; xb5; xe4; x0a; xb5; xe5; x0a; xb5;
  xe6; x0a; xb5; xe7; x0a; xb5; xe8; x0a;
  xb5; xe9; x0a; xb5; xea; x0a; xb5; xeb;
  x0a; xb5; xec; x0a; xb5; xed; x0a; xb5;
  xee; x0a; xb5; xef; x0a; xb5; xf0; x0a;
  xb5; xf1; x0a; xb5; xf2; x0a; xb5; xf3;
  x0a; xb5; xf4; x0a; xb5; xf5; x0a; xb5;
  xf6; x0a; xb5; xf7; x0a; xb5; xf8; x0a;
  xb5; xf9; x0a; xb5; xfa; x0a; xb5; xfb
].
(* tests/test_data/whatwg/big5_whatwg_test_decode_in.txt, entries 21760..22015 *)
Definition big5_decode_in_85 : list byte := [
  x0a; xb5; xfc; x0a; xb5; xfd; x0a; xb5;
  xfe; x0a; xb6; x40; x0a; xb6; x41; x0a;
  xb6; x42; x0a; xb6; x43; x0a; xb6; x44;
  x0a; xb6; x45; x0a; xb6; x46; x0a; xb6;
  x47; x0a; xb6; x48; x0a; xb6; x49; x0a;
  xb6; x4a; x0a; xb6; x4b; x0a; xb6; x4c;
  x0a; xb6; x4d; x0a; xb6; x4e; x0a; xb6;
  x4f; x0a; xb6; x50; x0a; xb6; x51; x0a;
  xb6; x52; x0a; xb6; x53; x0a; xb6; x54;
  x0a; xb6; x55; x0a; xb6; x56; x0a; xb6;
  x57; x0a; xb6; x58; x0a; xb6; x59; x0a;
  xb6; x5a; x0a; xb6; x5b; x0a; xb6; x5c;
  x0a; xb6; x5d; x0a; xb6; x5e; x0a; xb6;
  x5f; x0a; xb6; x60; x0a; xb6; x61; x0a;
  xb6; x62; x0a; xb6; x63; x0a; xb6; x64;
  x0a; xb6; x65; x0a; xb6; x66; x0a; xb6;
  x67; x0a; xb6; x68; x0a; xb6; x69; x0a;
  xb6; x6a; x0a; xb6; x6b; x0a; xb6; x6c;
  x0a; xb6; x6d; x0a; xb6; x6e; x0a; xb6;
  x6f; x0a; xb6; x70; x0a; xb6; x71; x0a;
  xb6; x72; x0a; xb6; x73; x0a; xb6; x74;
  x0a; xb6; x75; x0a; xb6; x76; x0a; xb6;
  x77; x0a; xb6; x78; x0a; xb6; x79; x0a;
  xb6; x7a; x0a; xb6; x7b; x0a; xb6; x7c;
  x0a; xb6; x7d; x0a; xb6; x7e; x0a; xb6;
  xa1; x0a; xb6; xa2; x0a; xb6; xa3; x0a;
  xb6; xa4; x0a; xb6; xa5; x0a; xb6; xa6;
  x0a; xb6; xa7; x0a; xb6; xa8; x0a; xb6;
  xa9; x0a; xb6; xaa; x0a; xb6; xab; x0a;
  xb6; xac; x0a; xb6; xad; x0a; xb6; xae;
  x0a; xb6; xaf; x0a; xb6; xb0; x0a; xb6;
  xb1; x0a; xb6; xb2; x0a; xb6; xb3; x0a
].
(* tests/test_data/whatwg/big5_whatwg_test_decode_in.txt, entries 22016..22271 *)
Definition big5_decode_in_86 : list byte := [
  xb6; xb4; x0a; xb6; xb5; x0a; xb6; xb6;
  x0a; xb6; xb7; x0a; xb6; xb8; x0a; xb6;
  xb9; x0a; xb6; xba; x0a; xb6; xbb; x0a;
  xb6; xbc; x0a; xb6; xbd; x0a; xb6; xbe;
  x0a; xb6; xbf; x0a; xb6; xc0; x0a; xb6;
  xc1; x0a; xb6; xc2; x0a; xb6; xc3; x0a;
  xb6; xc4; x0a; xb6; xc5; x0a; xb6; xc6;
  x0a; xb6; xc7; x0a; xb6; xc8; x0a; xb6;
  xc9; x0a; xb6; xca; x0a; xb6; xcb; x0a;
  xb6; xcc; x0a; xb6; xcd; x0a; xb6; xce;
  x0a; xb6; xcf; x0a; xb6; xd0; x0a; xb6;
  xd1; x0a; xb6; xd2; x0a; xb6; xd3; x0a;
  xb6; xd4; x0a; xb6; xd5; x0a; xb6; xd6;
  x0a; xb6; xd7; x0a; xb6; xd8; x0a; xb6;
  xd9; x0a; xb6; xda; x0a; xb6; xdb; x0a;
  xb6; xdc; x0a; xb6; xdd; x0a; xb6; xde;
  x0a; xb6; xdf; x0a; xb6; xe0; x0a; xb6;
  xe1; x0a; xb6; xe2; x0a; xb6; xe3; x0a;
  xb6; xe4; x0a; xb6; xe5; x0a; xb6; xe6;
  x0a; xb6; xe7; x0a; xb6; xe8; x0a; xb6;
  xe9; x0a; xb6; xea; x0a; xb6; xeb; x0a;
  xb6; xec; x0a; xb6; xed; x0a; xb6; xee;
  x0a; xb6; xef; x0a; xb6; xf0; x0a; xb6;
  xf1; x0a; xb6; xf2; x0a; xb6; xf3; x0a;
  xb6; xf4; x0a; xb6; xf5; x0a; xb6; xf6;
  x0a; xb6; xf7; x0a; xb6; xf8; x0a; xb6;
  xf9; x0a; xb6; xfa; x0a; xb6; xfb; x0a;
  xb6; xfc; x0a; xb6; xfd; x0a; xb6; xfe;
  x0a; xb7; x40; x0a; xb7; x41; x0a; xb7;
  x42; x0a; xb7; x43; x0a; xb7; x44; x0a;
  xb7; x45; x0a; xb7; x46; x0a; xb7; x47;
  x0a; xb7; x48; x0a; xb7; x49; x0a; xb7
].
(* tests/test_data/whatwg/big5_whatwg_test_decode_in.txt, entries 22272..22527 *)
Definition big5_decode_in_87 : list byte := [
  x4a; x0a; xb7; x4b; x0a; xb7; x4c; x0a;
  xb7; x4d; x0a; xb7; x4e; x0a; xb7; x4f;
  x0a; xb7; x50; x0a; xb7; x51; x0a; xb7;
  x52; x0a; xb7; x53; x0a; xb7; x54; x0a;
  xb7; x55; x0a; xb7; x56; x0a; xb7; x57;
  x0a; xb7; x58; x0a; xb7; x59; x0a; xb7;
  x5a; x0a; xb7; x5b; x0a; xb7; x5c; x0a;
  xb7; x5d; x0a; xb7; x5e; x0a; xb7; x5f;
  x0a; xb7; x60; x0a; xb7; x61; x0a; xb7;
  x62; x0a; xb7; x63; x0a; xb7; x64; x0a;
  xb7; x65; x0a; xb7; x66; x0a; xb7; x67;
  x0a; xb7; x68; x0a; xb7; x69; x0a; xb7;
  x6a; x0a; xb7; x6b; x0a; xb7; x6c; x0a;
  xb7; x6d; x0a; xb7; x6e; x0a; xb7; x6f;
  x0a; xb7; x70; x0a; xb7; x71; x0a; xb7;
  x72; x0a; xb7; x73; x0a; xb7; x74; x0a;
  xb7; x75; x0a; xb7; x76; x0a; xb7; x77;
  x0a; xb7; x78; x0a; xb7; x79; x0a; xb7;
  x7a; x0a; xb7; x7b; x0a; xb7; x7c; x0a;
  xb7; x7d; x0a; xb7; x7e; x0a; xb7; xa1;
  x0a; xb7; xa2; x0a; xb7; xa3; x0a; xb7;
  xa4; x0a; xb7; xa5; x0a; xb7; xa6; x0a;
  xb7; xa7; x0a; xb7; xa8; x0a; xb7; xa9;
  x0a; xb7; xaa; x0a; xb7; xab; x0a; xb7;
  xac; x0a; xb7; xad; x0a; xb7; xae; x0a;
  xb7; xaf; x0a; xb7; xb0; x0a; xb7; xb1;
  x0a; xb7; xb2; x0a; xb7; xb3; x0a; xb7;
  xb4; x0a; xb7; xb5; x0a; xb7; xb6; x0a;
  xb7; xb7; x0a; xb7; xb8; x0a; xb7; xb9;
  x0a; xb7; xba; x0a; xb7; xbb; x0a; xb7;
  xbc; x0a; xb7; xbd; x0a; xb7; xbe; x0a;
  xb7; xbf; x0a; xb7; xc0; x0a; xb7; xc1
].
(* tests/test_data/whatwg/big5_whatwg_test_decode_in.txt, entries 22528..22783 *)
Definition big5_decode_in_88 : list byte := [
  x0a; xb7; xc2; x0a; xb7; xc3; x0a; xb7;
  xc4; x0a; xb7; xc5; x0a; xb7; xc6; x0a;
  xb7; xc7; x0a; xb7; xc8; x0a; xb7; xc9;
  x0a; xb7; xca; x0a; xb7; xcb; x0a; xb7;
  xcc; x0a; xb7; xcd; x0a; xb7; xce; x0a;
  xb7; xcf; x0a; xb7; xd0; x0a; xb7; xd1;
  x0a; xb7; xd2; x0a; xb7; xd3; x0a; xb7;
  xd4; x0a; xb7; xd5; x0a; xb7; xd6; x0a;
  xb7; xd7; x0a; xb7; xd8; x0a; xb7; xd9;
  x0a; xb7; xda; x0a; xb7; xdb; x0a; xb7;
  xdc; x0a; xb7; xdd; x0a; xb7; xde; x0a;
  xb7; xdf; x0a; xb7; xe0; x0a; xb7; xe1;
  x0a; xb7; xe2; x0a; xb7; xe3; x0a; xb7;
  xe4; x0a; xb7; xe5; x0a; xb7; xe6; x0a;
  xb7; xe7; x0a; xb7; xe8; x0a; xb7; xe9;
  x0a; xb7; xea; x0a; xb7; xeb; x0a; xb7;
  xec; x0a; xb7; xed; x0a; xb7; xee; x0a;
  xb7; xef; x0a; xb7; xf0; x0a; xb7; xf1;
  x0a; xb7; xf2; x0a; xb7; xf3; x0a; xb7;
  xf4; x0a; xb7; xf5; x0a; xb7; xf6; x0a;
  xb7; xf7; x0a; xb7; xf8; x0a; xb7; xf9;
  x0a; xb7; xfa; x0a; xb7; xfb; x0a; xb7;
  xfc; x0a; xb7; xfd; x0a; xb7; xfe; x0a;
  xb8; x40; x0a; xb8; x41; x0a; xb8; x42;
  x0a; xb8; x43; x0a; xb8; x44; x0a; xb8;
  x45; x0a; xb8; x46; x0a; xb8; x47; x0a;
  xb8; x48; x0a; xb8; x49; x0a; xb8; x4a;
  x0a; xb8; x4b; x0a; xb8; x4c; x0a; xb8;
  x4d; x0a; xb8; x4e; x0a; xb8; x4f; x0a;
  xb8; x50; x0a; xb8; x51; x0a; xb8; x52;
  x0a; xb8; x53; x0a; xb8; x54; x0a; xb8;
  x55; x0a; xb8; x56; x0a; xb8; x57; x0a
].
(* tests/test_data/whatwg/big5_whatwg_test_decode_in.txt, entries 22784..23039 *)
Definition big5_decode_in_89 : list byte := [
  xb8; x58; x0a; xb8; x59; x0a; xb8; x5a;
  x0a; xb8; x5b; x0a; xb8; x5c; x0a; xb8;
  x5d; x0a; xb8; x5e; x0a; xb8; x5f; x0a;
  xb8; x60; x0a; xb8; x61; x0a; xb8; x62;
  x0a; xb8; x63; x0a; xb8; x64; x0a; xb8;
  x65; x0a; xb8; x66; x0a; xb8; x67; x0a;
  xb8; x68; x0a; xb8; x69; x0a; xb8; x6a;
  x0a; xb8; x6b; x0a; xb8; x6c; x0a; xb8;
  x6d; x0a; xb8; x6e; x0a; xb8; x6f; x0a;
  xb8; x70; x0a; xb8; x71; x0a; xb8; x72;
  x0a; xb8; x73; x0a; xb8; x74; x0a; xb8;
  x75; x0a; xb8; x76; x0a; xb8; x77; x0a;
  xb8; x78; x0a; xb8; x79; x0a; xb8; x7a;
  x0a; xb8; x7b; x0a; xb8; x7c; x0a; xb8;
  x7d; x0a; xb8; x7e; x0a; xb8; xa1; x0a;
  xb8; xa2; x0a; xb8; xa3; x0a; xb8; xa4;
  x0a; xb8; xa5; x0a; xb8; xa6; x0a; xb8;
  xa7; x0a; xb8; xa8; x0a; xb8; xa9; x0a;
  xb8; xaa; x0a; xb8; xab; x0a; xb8; xac;
  x0a; xb8; xad; x0a; xb8; xae; x0a; xb8;
  xaf; x0a; xb8; xb0; x0a; xb8; xb1; x0a;
  xb8; xb2; x0a; xb8; xb3; x0a; xb8; xb4;
  x0a; xb8; xb5; x0a; xb8; xb6; x0a; xb8;
  xb7; x0a; xb8; xb8; x0a; xb8; xb9; x0a;
  xb8; xba; x0a; xb8; xbb; x0a; xb8; xbc;
  x0a; xb8; xbd; x0a; xb8; xbe; x0a; xb8;
  xbf; x0a; xb8; xc0; x0a; xb8; xc1; x0a;
  xb8; xc2; x0a; xb8; xc3; x0a; xb8; xc4;
  x0a; xb8; xc5; x0a; xb8; xc6; x0a; xb8;
  xc7; x0a; xb8; xc8; x0a; xb8; xc9; x0a;
  xb8; xca; x0a; xb8; xcb; x0a; xb8; xcc;
  x0a; xb8; xcd; x0a; xb8; xce; x0a; xb8
].
(* tests/test_data/whatwg/big5_whatwg_test_decode_in.txt, entries 23040..23295 *)
Definition big5_decode_in_90 : list byte := [
  xcf; x0a; xb8; xd0; x0a; xb8; xd1; x0a;
  xb8; xd2; x0a; xb8; xd3; x0a; xb8; xd4;
  x0a; xb8; xd5; x0a; xb8; xd6; x0a; xb8;
  xd7; x0a; xb8; xd8; x0a; xb8; xd9; x0a;
  xb8; xda; x0a; xb8; xdb; x0a; xb8; xdc;
  x0a; xb8; xdd; x0a; xb8; xde; x0a; xb8;
  xdf; x0a; xb8; xe0; x0a; xb8; xe1; x0a;
  xb8; xe2; x0a; xb8; xe3; x0a; xb8; xe4;
  x0a; xb8; xe5; x0a; xb8; xe6; x0a; xb8;
  xe7; x0a; xb8; xe8; x0a; xb8; xe9; x0a;
  xb8; xea; x0a; xb8; xeb; x0a; xb8; xec;
  x0a; xb8; xed; x0a; xb8; xee; x0a; xb8;
  xef; x0a; xb8; xf0; x0a; xb8; xf1; x0a;
  xb8; xf2; x0a; xb8; xf3; x0a; xb8; xf4;
  x0a; xb8; xf5; x0a; xb8; xf6; x0a; xb8;
  xf7; x0a; xb8; xf8; x0a; xb8; xf9; x0a;
  xb8; xfa; x0a; xb8; xfb; x0a; xb8; xfc;
  x0a; xb8; xfd; x0a; xb8; xfe; x0a; xb9;
  x40; x0a; xb9; x41; x0a; xb9; x42; x0a;
  xb9; x43; x0a; xb9; x44; x0a; xb9; x45;
  x0a; xb9; x46; x0a; xb9; x47; x0a; xb9;
  x48; x0a; xb9; x49; x0a; xb9; x4a; x0a;
  xb9; x4b; x0a; xb9; x4c; x0a; xb9; x4d;
  x0a; xb9; x4e; x0a; xb9; x4f; x0a; xb9;
  x50; x0a; xb9; x51; x0a; xb9; x52; x0a;
  xb9; x53; x0a; xb9; x54; x0a; xb9; x55;
  x0a; xb9; x56; x0a; xb9; x57; x0a; xb9;
  x58; x0a; xb9; x59; x0a; xb9; x5a; x0a;
  xb9; x5b; x0a; xb9; x5c; x0a; xb9; x5d;
  x0a; xb9; x5e; x0a; xb9; x5f; x0a; xb9;
  x60; x0a; xb9; x61; x0a; xb9; x62; x0a;
  xb9; x63; x0a; xb9; x64; x0a; xb9; x65
].
(* tests/test_data/whatwg/big5_whatwg_test_decode_in.txt, entries 23296..23551 *)
Definition big5_decode_in_91 : list byte := [
  x0a; xb9; x66; x0a; xb9; x67; x0a; xb9;
  x68; x0a; xb9; x69; x0a; xb9; x6a; x0a;
  xb9; x6b; x0a; xb9; x6c; x0a; xb9; x6d;
  x0a; xb9; x6e; x0a; xb9; x6f; x0a; xb9;
  x70; x0a; xb9; x71; x0a; xb9; x72; x0a;
  xb9; x73; x0a; xb9; x74; x0a; xb9; x75;
  x0a; xb9; x76; x0a; xb9; x77; x0a; xb9;
  x78; x0a; xb9; x79; x0a; xb9; x7a; x0a;
  xb9; x7b; x0a; xb9; x7c; x0a; xb9; x7d;
  x0a; xb9; x7e; x0a; xb9; xa1; x0a; xb9;
  xa2; x0a; xb9; xa3; x0a; xb9; xa4; x0a;
  xb9; xa5; x0a; xb9; xa6; x0a; xb9; xa7;
  x0a; xb9; xa8; x0a; xb9; xa9; x0a; xb9;
  xaa; x0a; xb9; xab; x0a; xb9; xac; x0a;
  xb9; xad; x0a; xb9; xae; x0a; xb9; xaf;
  x0a; xb9; xb0; x0a; xb9; xb1; x0a; xb9;
  xb2; x0a; xb9; xb3; x0a; xb9; xb4; x0a;
  xb9; xb5; x0a; xb9; xb6; x0a; xb9; xb7;
  x0a; xb9; xb8; x0a; xb9; xb9; x0a; xb9;
  xba; x0a; xb9; xbb; x0a; xb9; xbc; x0a;
  xb9; xbd; x0a; xb9; xbe; x0a; xb9; xbf;
  x0a; xb9; xc0; x0a; xb9; xc1; x0a; xb9;
  xc2; x0a; xb9; xc3; x0a; xb9; xc4; x0a;
  xb9; xc5; x0a; xb9; xc6; x0a; xb9; xc7;
  x0a; xb9; xc8; x0a; xb9; xc9; x0a; xb9;
  xca; x0a; xb9; xcb; x0a; xb9; xcc; x0a;
  xb9; xcd; x0a; xb9; xce; x0a; xb9; xcf;
  x0a; xb9; xd0; x0a; xb9; xd1; x0a; xb9;
  xd2; x0a; xb9; xd3; x0a; xb9; xd4; x0a;
  xb9; xd5; x0a; xb9; xd6; x0a; xb9; xd7;
  x0a; xb9; xd8; x0a; xb9; xd9; x0a; xb9;
  xda; x0a; xb9; xdb; x0a; xb9; xdc; x0a
].
(* tests/test_data/whatwg/big5_whatwg_test_decode_in.txt, entries 23552..23807 *)
Definition big5_decode_in_92 : list byte := [
  xb9; xdd; x0a; xb9; xde; x0a; xb9; xdf;
  x0a; xb9; xe0; x0a; xb9; xe1; x0a; xb9;
  xe2; x0a; xb9; xe3; x0a; xb9; xe4; x0a;
  xb9; xe5; x0a; xb9; xe6; x0a; xb9; xe7;
  x0a; xb9; xe8; x0a; xb9; xe9; x0a; xb9;
  xea; x0a; xb9; xeb; x0a; xb9; xec; x0a;
  xb9; xed; x0a; xb9; xee; x0a; xb9; xef;
  x0a; xb9; xf0; x0a; xb9; xf1; x0a; xb9;
  xf2; x0a; xb9; xf3; x0a; xb9; xf4; x0a;
  xb9; xf5; x0a; xb9; xf6; x0a; xb9; xf7;
  x0a; xb9; xf8; x0a; xb9; xf9; x0a; xb9;
  xfa; x0a; xb9; xfb; x0a; xb9; xfc; x0a;
  xb9; xfd; x0a; xb9; xfe; x0a; xba; x40;
  x0a; xba; x41; x0a; xba; x42; x0a; xba;
  x43; x0a; xba; x44; x0a; xba; x45; x0a;
  xba; x46; x0a; xba; x47; x0a; xba; x48;
  x0a; xba; x49; x0a; xba; x4a; x0a; xba;
  x4b; x0a; xba; x4c; x0a; xba; x4d; x0a;
  xba; x4e; x0a; xba; x4f; x0a; xba; x50;
  x0a; xba; x51; x0a; xba; x52; x0a; xba;
  x53; x0a; xba; x54; x0a; xba; x55; x0a;
  xba; x56; x0a; xba; x57; x0a; xba; x58;
  x0a; xba; x59; x0a; xba; x5a; x0a; xba;
  x5b; x0a; xba; x5c; x0a; xba; x5d; x0a;
  xba; x5e; x0a; xba; x5f; x0a; xba; x60;
  x0a; xba; x61; x0a; xba; x62; x0a; xba;
  x63; x0a; xba; x64; x0a; xba; x65; x0a;
  xba; x66; x0a; xba; x67; x0a; xba; x68;
  x0a; xba; x69; x0a; xba; x6a; x0a; xba;
  x6b; x0a; xba; x6c; x0a; xba; x6d; x0a;
  xba; x6e; x0a; xba; x6f; x0a; xba; x70;
  x0a; xba; x71; x0a; xba; x72; x0a; xba
].
(* tests/test_data/whatwg/big5_whatwg_test_decode_in.txt, entries 23808..24063 *)
Definition big5_decode_in_93 : list byte := [
  x73; x0a; xba; x74; x0a; xba; x75; x0a;
  xba; x76; x0a; xba; x77; x0a; xba; x78;
  x0a; xba; x79; x0a; xba; x7a; x0a; xba;
  x7b; x0a; xba; x7c; x0a; xba; x7d; x0a;
  xba; x7e; x0a; xba; xa1; x0a; xba; xa2;
  x0a; xba; xa3; x0a; xba; xa4; x0a; xba;
  xa5; x0a; xba; xa6; x0a; xba; xa7; x0a;
  xba; xa8; x0a; xba; xa9; x0a; xba; xaa;
  x0a; xba; xab; x0a; xba; xac; x0a; xba;
  xad; x0a; xba; xae; x0a; xba; xaf; x0a;
  xba; xb0; x0a; xba; xb1; x0a; xba; xb2;
  x0a; xba; xb3; x0a; xba; xb4; x0a; xba;
  xb5; x0a; xba; xb6; x0a; xba; xb7; x0a;
  xba; xb8; x0a; xba; xb9; x0a; xba; xba;
  x0a; xba; xbb; x0a; xba; xbc; x0a; xba;
  xbd; x0a; xba; xbe; x0a; xba; xbf; x0a;
  xba; xc0; x0a; xba; xc1; x0a; xba; xc2;
  x0a; xba; xc3; x0a; xba; xc4; x0a; xba;
  xc5; x0a; xba; xc6; x0a; xba; xc7; x0a;
  xba; xc8; x0a; xba; xc9; x0a; xba; xca;
  x0a; xba; xcb; x0a; xba; xcc; x0a; xba;
  xcd; x0a; xba; xce; x0a; xba; xcf; x0a;
  xba; xd0; x0a; xba; xd1; x0a; xba; xd2;
  x0a; xba; xd3; x0a; xba; xd4; x0a; xba;
  xd5; x0a; xba; xd6; x0a; xba; xd7; x0a;
  xba; xd8; x0a; xba; xd9; x0a; xba; xda;
  x0a; xba; xdb; x0a; xba; xdc; x0a; xba;
  xdd; x0a; xba; xde; x0a; xba; xdf; x0a;
  xba; xe0; x0a; xba; xe1; x0a; xba; xe2;
  x0a; xba; xe3; x0a; xba; xe4; x0a; xba;
  xe5; x0a; xba; xe6; x0a; xba; xe7; x0a;
  xba; xe8; x0a; xba; xe9; x0a; xba; xea
].
(* tests/test_data/whatwg/big5_whatwg_test_decode_in.txt, entries 24064..24319 *)
Definition big5_decode_in_94 : list byte := [
  x0a; xba; xeb; x0a; xba; xec; x0a; xba;
  xed; x0a; xba; xee; x0a; xba; xef; x0a;
  xba; xf0; x0a; xba; xf1; x0a; xba; xf2;
  x0a; xba; xf3; x0a; xba; xf4; x0a; xba;
  xf5; x0a; xba; xf6; x0a; xba; xf7; x0a;
  xba; xf8; x0a; xba; xf9; x0a; xba; xfa;
  x0a; xba; xfb; x0a; xba; xfc; x0a; xba;
  xfd; x0a; xba; xfe; x0a; xbb; x40; x0a;
  xbb; x41; x0a; xbb; x42; x0a; xbb; x43;
  x0a; xbb; x44; x0a; xbb; x45; x0a; xbb;
  x46; x0a; xbb; x47; x0a; xbb; x48; x0a;
  xbb; x49; x0a; xbb; x4a; x0a; xbb; x4b;
  x0a; xbb; x4c; x0a; xbb; x4d; x0a; xbb;
  x4e; x0a; xbb; x4f; x0a; xbb; x50; x0a;
  xbb; x51; x0a; xbb; x52; x0a; xbb; x53;
  x0a; xbb; x54; x0a; xbb; x55; x0a; xbb;
  x56; x0a; xbb; x57; x0a; xbb; x58; x0a;
  xbb; x59; x0a; xbb; x5a; x0a; xbb; x5b;
  x0a; xbb; x5c; x0a; xbb; x5d; x0a; xbb;
  x5e; x0a; xbb; x5f; x0a; xbb; x60; x0a;
  xbb; x61; x0a; xbb; x62; x0a; xbb; x63;
  x0a; xbb; x64; x0a; xbb; x65; x0a; xbb;
  x66; x0a; xbb; x67; x0a; xbb; x68; x0a;
  xbb; x69; x0a; xbb; x6a; x0a; xbb; x6b;
  x0a; xbb; x6c; x0a; xbb; x6d; x0a; xbb;
  x6e; x0a; xbb; x6f; x0a; xbb; x70; x0a;
  xbb; x71; x0a; xbb; x72; x0a; xbb; x73;
  x0a; xbb; x74; x0a; xbb; x75; x0a; xbb;
  x76; x0a; xbb; x77; x0a; xbb; x78; x0a;
  xbb; x79; x0a; xbb; x7a; x0a; xbb; x7b;
  x0a; xbb; x7c; x0a; xbb; x7d; x0a; xbb;
  x7e; x0a; xbb; xa1; x0a; xbb; xa2; x0a
].
(* tests/test_data/whatwg/big5_whatwg_test_decode_in.txt, entries 24320..24575 *)
Definition big5_decode_in_95 : list byte := [
  xbb; xa3; x0a; xbb; xa4; x0a; xbb; xa5;
  x0a; xbb; xa6; x0a; xbb; xa7; x0a; xbb;
  xa8; x0a; xbb; xa9; x0a; xbb; xaa; x0a;
  xbb; xab; x0a; xbb; xac; x0a; xbb; xad;
  x0a; xbb; xae; x0a; xbb; xaf; x0a; xbb;
  xb0; x0a; xbb; xb1; x0a; xbb; xb2; x0a;
  xbb; xb3; x0a; xbb; xb4; x0a; xbb; xb5;
  x0a; xbb; xb6; x0a; xbb; xb7; x0a; xbb;
  xb8; x0a; xbb; xb9; x0a; xbb; xba; x0a;
  xbb; xbb; x0a; xbb; xbc; x0a; xbb; xbd;
  x0a; xbb; xbe; x0a; xbb; xbf; x0a; xbb;
  xc0; x0a; xbb; xc1; x0a; xbb; xc2; x0a;
  xbb; xc3; x0a; xbb; xc4; x0a; xbb; xc5;
  x0a; xbb; xc6; x0a; xbb; xc7; x0a; xbb;
  xc8; x0a; xbb; xc9; x0a; xbb; xca; x0a;
  xbb; xcb; x0a; xbb; xcc; x0a; xbb; xcd;
  x0a; xbb; xce; x0a; xbb; xcf; x0a; xbb;
  xd0; x0a; xbb; xd1; x0a; xbb; xd2; x0a;
  xbb; xd3; x0a; xbb; xd4; x0a; xbb; xd5;
  x0a; xbb; xd6; x0a; xbb; xd7; x0a; xbb;
  xd8; x0a; xbb; xd9; x0a; xbb; xda; x0a;
  xbb; xdb; x0a; xbb; xdc; x0a; xbb; xdd;
  x0a; xbb; xde; x0a; xbb; xdf; x0a; xbb;
  xe0; x0a; xbb; xe1; x0a; xbb; xe2; x0a;
  xbb; xe3; x0a; xbb; xe4; x0a; xbb; xe5;
  x0a; xbb; xe6; x0a; xbb; xe7; x0a; xbb;
  xe8; x0a; xbb; xe9; x0a; xbb; xea; x0a;
  xbb; xeb; x0a; xbb; xec; x0a; xbb; xed;
  x0a; xbb; xee; x0a; xbb; xef; x0a; xbb;
  xf0; x0a; xbb; xf1; x0a; xbb; xf2; x0a;
  xbb; xf3; x0a; xbb; xf4; x0a; xbb; xf5;
  x0a; xbb; xf6; x0a; xbb; xf7; x0a; xbb
].
(* tests/test_data/whatwg/big5_whatwg_test_decode_in.txt, entries 24576..24831 *)
Definition big5_decode_in_96 : list byte := [
  xf8; x0a; xbb; xf9; x0a; xbb; xfa; x0a;
  xbb; xfb; x0a; xbb; xfc; x0a; xbb; xfd;
  x0a; xbb; xfe; x0a; xbc; x40; x0a; xbc;
  x41; x0a; xbc; x42; x0a; xbc; x43; x0a;
  xbc; x44; x0a; xbc; x45; x0a; xbc; x46;
  x0a; xbc; x47; x0a; xbc; x48; x0a; xbc;
  x49; x0a; xbc; x4a; x0a; xbc; x4b; x0a;
  xbc; x4c; x0a; xbc; x4d; x0a; xbc; x4e;
  x0a; xbc; x4f; x0a; xbc; x50; x0a; xbc;
  x51; x0a; xbc; x52; x0a; xbc; x53; x0a;
  xbc; x54; x0a; xbc; x55; x0a; xbc; x56;
  x0a; xbc; x57; x0a; xbc; x58; x0a; xbc;
  x59; x0a; xbc; x5a; x0a; xbc; x5b; x0a;
  xbc; x5c; x0a; xbc; x5d; x0a; xbc; x5e;
  x0a; xbc; x5f; x0a; xbc; x60; x0a; xbc;
  x61; x0a; xbc; x62; x0a; xbc; x63; x0a;
  xbc; x64; x0a; xbc; x65; x0a; xbc; x66;
  x0a; xbc; x67; x0a; xbc; x68; x0a; xbc;
  x69; x0a; xbc; x6a; x0a; xbc; x6b; x0a;
  xbc; x6c; x0a; xbc; x6d; x0a; xbc; x6e;
  x0a; xbc; x6f; x0a; xbc; x70; x0a; xbc;
  x71; x0a; xbc; x72; x0a; xbc; x73; x0a;
  xbc; x74; x0a; xbc; x75; x0a; xbc; x76;
  x0a; xbc; x77; x0a; xbc; x78; x0a; xbc;
  x79; x0a; xbc; x7a; x0a; xbc; x7b; x0a;
  xbc; x7c; x0a; xbc; x7d; x0a; xbc; x7e;
  x0a; xbc; xa1; x0a; xbc; xa2; x0a; xbc;
  xa3; x0a; xbc; xa4; x0a; xbc; xa5; x0a;
  xbc; xa6; x0a; xbc; xa7; x0a; xbc; xa8;
  x0a; xbc; xa9; x0a; xbc; xaa; x0a; xbc;
  xab; x0a; xbc; xac; x0a; xbc; xad; x0a;
  xbc; xae; x0a; xbc; xaf; x0a; xbc; xb0
].
(* tests/test_data/whatwg/big5_whatwg_test_decode_in.txt, entries 24832..25087 *)
Definition big5_decode_in_97 : list byte := [
  x0a; xbc; xb1; x0a; xbc; xb2; x0a; xbc;
  xb3; x0a; xbc; xb4; x0a; xbc; xb5; x0a;
  xbc; xb6; x0a; xbc; xb7; x0a; xbc; xb8;
  x0a; xbc; xb9; x0a; xbc; xba; x0a; xbc;
  xbb; x0a; xbc; xbc; x0a; xbc; xbd; x0a;
  xbc; xbe; x0a; xbc; xbf; x0a; xbc; xc0;
  x0a; xbc; xc1; x0a; xbc; xc2; x0a; xbc;
  xc3; x0a; xbc; xc4; x0a; xbc; xc5; x0a;
  xbc; xc6; x0a; xbc; xc7; x0a; xbc; xc8;
  x0a; xbc; xc9; x0a; xbc; xca; x0a; xbc;
  xcb; x0a; xbc; xcc; x0a; xbc; xcd; x0a;
  xbc; xce; x0a; xbc; xcf; x0a; xbc; xd0;
  x0a; xbc; xd1; x0a; xbc; xd2; x0a; xbc;
  xd3; x0a; xbc; xd4; x0a; xbc; xd5; x0a;
  xbc; xd6; x0a; xbc; xd7; x0a; xbc; xd8;
  x0a; xbc; xd9; x0a; xbc; xda; x0a; xbc;
  xdb; x0a; xbc; xdc; x0a; xbc; xdd; x0a;
  xbc; xde; x0a; xbc; xdf; x0a; xbc; xe0;
  x0a; xbc; xe1; x0a; xbc; xe2; x0a; xbc;
  xe3; x0a; xbc; xe4; x0a; xbc; xe5; x0a;
  xbc; xe6; x0a; xbc; xe7; x0a; xbc; xe8;
  x0a; xbc; xe9; x0a; xbc; xea; x0a; xbc;
  xeb; x0a; xbc; xec; x0a; xbc; xed; x0a;
  xbc; xee; x0a; xbc; xef; x0a; xbc; xf0;
  x0a; xbc; xf1; x0a; xbc; xf2; x0a; xbc;
  xf3; x0a; xbc; xf4; x0a; xbc; xf5; x0a;
  xbc; xf6; x0a; xbc; xf7; x0a; xbc; xf8;
  x0a; xbc; xf9; x0a; xbc; xfa; x0a; xbc;
  xfb; x0a; xbc; xfc; x0a; xbc; xfd; x0a;
  xbc; xfe; x0a; xbd; x40; x0a; xbd; x41;
  x0a; xbd; x42; x0a; xbd; x43; x0a; xbd;
  x44; x0a; xbd; x45; x0a; xbd; x46; x0a
].
(* tests/test_data/whatwg/big5_whatwg_test_decode_in.txt, entries 25088..25343 *)
Definition big5_decode_in_98 : list byte := [
  xbd; x47; x0a; xbd; x48; x0a; xbd; x49;
  x0a; xbd; x4a; x0a; xbd; x4b; x0a; xbd;
  x4c; x0a; xbd; x4d; x0a; xbd; x4e; x0a;
  xbd; x4f; x0a; xbd; x50; x0a; xbd; x51;
  x0a; xbd; x52; x0a; xbd; x53; x0a; xbd;
  x54; x0a; xbd; x55; x0a; xbd; x56; x0a;
  xbd; x57; x0a; xbd; x58; x0a; xbd; x59;
  x0a; xbd; x5a; x0a; xbd; x5b; x0a; xbd;
  x5c; x0a; xbd; x5d; x0a; xbd; x5e; x0a;
  xbd; x5f; x0a; xbd; x60; x0a; xbd; x61;
  x0a; xbd; x62; x0a; xbd; x63; x0a; xbd;
  x64; x0a; xbd; x65; x0a; xbd; x66; x0a;
  xbd; x67; x0a; xbd; x68; x0a; xbd; x69;
  x0a; xbd; x6a; x0a; xbd; x6b; x0a; xbd;
  x6c; x0a; xbd; x6d; x0a; xbd; x6e; x0a;
  xbd; x6f; x0a; xbd; x70; x0a; xbd; x71;
  x0a; xbd; x72; x0a; xbd; x73; x0a; xbd;
  x74; x0a; xbd; x75; x0a; xbd; x76; x0a;
  xbd; x77; x0a; xbd; x78; x0a; xbd; x79;
  x0a; xbd; x7a; x0a; xbd; x7b; x0a; xbd;
  x7c; x0a; xbd; x7d; x0a; xbd; x7e; x0a;
  xbd; xa1; x0a; xbd; xa2; x0a; xbd; xa3;
  x0a; xbd; xa4; x0a; xbd; xa5; x0a; xbd;
  xa6; x0a; xbd; xa7; x0a; xbd; xa8; x0a;
  xbd; xa9; x0a; xbd; xaa; x0a; xbd; xab;
  x0a; xbd; xac; x0a; xbd; xad; x0a; xbd;
  xae; x0a; xbd; xaf; x0a; xbd; xb0; x0a;
  xbd; xb1; x0a; xbd; xb2; x0a; xbd; xb3;
  x0a; xbd; xb4; x0a; xbd; xb5; x0a; xbd;
  xb6; x0a; xbd; xb7; x0a; xbd; xb8; x0a;
  xbd; xb9; x0a; xbd; xba; x0a; xbd; xbb;
  x0a; xbd; xbc; x0a; xbd; xbd; x0a; xbd
].
(* tests/test_data/whatwg/big5_whatwg_test_decode_in.txt, entries 25344..25599 *)
Definition big5_decode_in_99 : list byte := [
  xbe; x0a; xbd; xbf; x0a; xbd; xc0; x0a;
  xbd; xc1; x0a; xbd; xc2; x0a; xbd; xc3;
  x0a; xbd; xc4; x0a; xbd; xc5; x0a; xbd;
  xc6; x0a; xbd; xc7; x0a; xbd; xc8; x0a;
  xbd; xc9; x0a; xbd; xca; x0a; xbd; xcb;
  x0a; xbd; xcc; x0a; xbd; xcd; x0a; xbd;
  xce; x0a; xbd; xcf; x0a; xbd; xd0; x0a;
  xbd; xd1; x0a; xbd; xd2; x0a; xbd; xd3;
  x0a; xbd; xd4; x0a; xbd; xd5; x0a; xbd;
  xd6; x0a; xbd; xd7; x0a; xbd; xd8; x0a;
  xbd; xd9; x0a; xbd; xda; x0a; xbd; xdb;
  x0a; xbd; xdc; x0a; xbd; xdd; x0a; xbd;
  xde; x0a; xbd; xdf; x0a; xbd; xe0; x0a;
  xbd; xe1; x0a; xbd; xe2; x0a; xbd; xe3;
  x0a; xbd; xe4; x0a; xbd; xe5; x0a; xbd;
  xe6; x0a; xbd; xe7; x0a; xbd; xe8; x0a;
  xbd; xe9; x0a; xbd; xea; x0a; xbd; xeb;
  x0a; xbd; xec; x0a; xbd; xed; x0a; xbd;
  xee; x0a; xbd; xef; x0a; xbd; xf0; x0a;
  xbd; xf1; x0a; xbd; xf2; x0a; xbd; xf3;
  x0a; xbd; xf4; x0a; xbd; xf5; x0a; xbd;
  xf6; x0a; xbd; xf7; x0a; xbd; xf8; x0a;
  xbd; xf9; x0a; xbd; xfa; x0a; xbd; xfb;
  x0a; xbd; xfc; x0a; xbd; xfd; x0a; xbd;
  xfe; x0a; xbe; x40; x0a; xbe; x41; x0a;
  xbe; x42; x0a; xbe; x43; x0a; xbe; x44;
  x0a; xbe; x45; x0a; xbe; x46; x0a; xbe;
  x47; x0a; xbe; x48; x0a; xbe; x49; x0a;
  xbe; x4a; x0a; xbe; x4b; x0a; xbe; x4c;
  x0a; xbe; x4d; x0a; xbe; x4e; x0a; xbe;
  x4f; x0a; xbe; x50; x0a; xbe; x51; x0a;
  xbe; x52; x0a; xbe; x53; x0a; xbe; x54
].
(* tests/test_data/whatwg/big5_whatwg_test_decode_in.txt, entries 25600..25855 *)
Definition big5_decode_in_100 : list byte := [
  x0a; xbe; x55; x0a; xbe; x56; x0a; xbe;
  x57; x0a; xbe; x58; x0a; xbe; x59; x0a;
  xbe; x5a; x0a; xbe; x5b; x0a; xbe; x5c;
  x0a; xbe; x5d; x0a; xbe; x5e; x0a; xbe;
  x5f; x0a; xbe; x60; x0a; xbe; x61; x0a;
  xbe; x62; x0a; xbe; x63; x0a; xbe; x64;
  x0a; xbe; x65; x0a; xbe; x66; x0a; xbe;
  x67; x0a; xbe; x68; x0a; xbe; x69; x0a;
  xbe; x6a; x0a; xbe; x6b; x0a; xbe; x6c;
  x0a; xbe; x6d; x0a; xbe; x6e; x0a; xbe;
  x6f; x0a; xbe; x70; x0a; xbe; x71; x0a;
  xbe; x72; x0a; xbe; x73; x0a; xbe; x74;
  x0a; xbe; x75; x0a; xbe; x76; x0a; xbe;
  x77; x0a; xbe; x78; x0a; xbe; x79; x0a;
  xbe; x7a; x0a; xbe; x7b; x0a; xbe; x7c;
  x0a; xbe; x7d; x0a; xbe; x7e; x0a; xbe;
  xa1; x0a; xbe; xa2; x0a; xbe; xa3; x0a;
  xbe; xa4; x0a; xbe; xa5; x0a; xbe; xa6;
  x0a; xbe; xa7; x0a; xbe; xa8; x0a; xbe;
  xa9; x0a; xbe; xaa; x0a; xbe; xab; x0a;
  xbe; xac; x0a; xbe; xad; x0a; xbe; xae;
  x0a; xbe; xaf; x0a; xbe; xb0; x0a; xbe;
  xb1; x0a; xbe; xb2; x0a; xbe; xb3; x0a;
  xbe; xb4; x0a; xbe; xb5; x0a; xbe; xb6;
  x0a; xbe; xb7; x0a; xbe; xb8; x0a; xbe;
  xb9; x0a; xbe; xba; x0a; xbe; xbb; x0a;
  xbe; xbc; x0a; xbe; xbd; x0a; xbe; xbe;
  x0a; xbe; xbf; x0a; xbe; xc0; x0a; xbe;
  xc1; x0a; xbe; xc2; x0a; xbe; xc3; x0a;
  xbe; xc4; x0a; xbe; xc5; x0a; xbe; xc6;
  x0a; xbe; xc7; x0a; xbe; xc8; x0a; xbe;
  xc9; x0a; xbe; xca; x0a; xbe; xcb; x0a
].
(* tests/test_data/whatwg/big5_whatwg_test_decode_in.txt, entries 25856..26111 *)
Definition big5_decode_in_101 : list byte := [
  xbe; xcc; x0a; xbe; xcd; x0a; xbe; xce;
  x0a; xbe; xcf; x0a; xbe; xd0; x0a; xbe;
  xd1; x0a; xbe; xd2; x0a; xbe; xd3; x0a;
  xbe; xd4; x0a; xbe; xd5; x0a; xbe; xd6;
  x0a; xbe; xd7; x0a; xbe; xd8; x0a; xbe;
  xd9; x0a; xbe; xda; x0a; xbe; xdb; x0a;
  xbe; xdc; x0a; xbe; xdd; x0a; xbe; xde;
  x0a; xbe; xdf; x0a; xbe; xe0; x0a; xbe;
  xe1; x0a; xbe; xe2; x0a; xbe; xe3; x0a;
  xbe; xe4; x0a; xbe; xe5; x0a; xbe; xe6;
  x0a; xbe; xe7; x0a; xbe; xe8; x0a; xbe;
  xe9; x0a; xbe; xea; x0a; xbe; xeb; x0a;
  xbe; xec; x0a; xbe; xed; x0a; xbe; xee;
  x0a; xbe; xef; x0a; xbe; xf0; x0a; xbe;
  xf1; x0a; xbe; xf2; x0a; xbe; xf3; x0a;
  xbe; xf4; x0a; xbe; xf5; x0a; xbe; xf6;
  x0a; xbe; xf7; x0a; xbe; xf8; x0a; xbe;
  xf9; x0a; xbe; xfa; x0a; xbe; xfb; x0a;
  xbe; xfc; x0a; xbe; xfd; x0a; xbe; xfe;
  x0a; xbf; x40; x0a; xbf; x41; x0a; xbf;
  x42; x0a; xbf; x43; x0a; xbf; x44; x0a;
  xbf; x45; x0a; xbf; x46; x0a; xbf; x47;
  x0a; xbf; x48; x0a; xbf; x49; x0a; xbf;
  x4a; x0a; xbf; x4b; x0a; xbf; x4c; x0a;
  xbf; x4d; x0a; xbf; x4e; x0a; xbf; x4f;
  x0a; xbf; x50; x0a; xbf; x51; x0a; xbf;
  x52; x0a; xbf; x53; x0a; xbf; x54; x0a;
  xbf; x55; x0a; xbf; x56; x0a; xbf; x57;
  x0a; xbf; x58; x0a; xbf; x59; x0a; xbf;
  x5a; x0a; xbf; x5b; x0a; xbf; x5c; x0a;
  xbf; x5d; x0a; xbf; x5e; x0a; xbf; x5f;
  x0a; xbf; x60; x0a; xbf; x61; x0a; xbf
].
(* tests/test_data/whatwg/big5_whatwg_test_decode_in.txt, entries 26112..26367 *)
Definition big5_decode_in_102 : list byte := [
  x62; x0a; xbf; x63; x0a; xbf; x64; x0a;
  xbf; x65; x0a; xbf; x66; x0a; xbf; x67;
  x0a; xbf; x68; x0a; xbf; x69; x0a; xbf;
  x6a; x0a; xbf; x6b; x0a; xbf; x6c; x0a;
  xbf; x6d; x0a; xbf; x6e; x0a; xbf; x6f;
  x0a; xbf; x70; x0a; xbf; x71; x0a; xbf;
  x72; x0a; xbf; x73; x0a; xbf; x74; x0a;
  xbf; x75; x0a; xbf; x76; x0a; xbf; x77;
  x0a; xbf; x78; x0a; xbf; x79; x0a; xbf;
  x7a; x0a; xbf; x7b; x0a; xbf; x7c; x0a;
  xbf; x7d; x0a; xbf; x7e; x0a; xbf; xa1;
  x0a; xbf; xa2; x0a; xbf; xa3; x0a; xbf;
  xa4; x0a; xbf; xa5; x0a; xbf; xa6; x0a;
  xbf; xa7; x0a; xbf; xa8; x0a; xbf; xa9;
  x0a; xbf; xaa; x0a; xbf; xab; x0a; xbf;
  xac; x0a; xbf; xad; x0a; xbf; xae; x0a;
  xbf; xaf; x0a; xbf; xb0; x0a; xbf; xb1;
  x0a; xbf; xb2; x0a; xbf; xb3; x0a; xbf;
  xb4; x0a; xbf; xb5; x0a; xbf; xb6; x0a;
  xbf; xb7; x0a; xbf; xb8; x0a; xbf; xb9;
  x0a; xbf; xba; x0a; xbf; xbb; x0a; xbf;
  xbc; x0a; xbf; xbd; x0a; xbf; xbe; x0a;
  xbf; xbf; x0a; xbf; xc0; x0a; xbf; xc1;
  x0a; xbf; xc2; x0a; xbf; xc3; x0a; xbf;
  xc4; x0a; xbf; xc5; x0a; xbf; xc6; x0a;
  xbf; xc7; x0a; xbf; xc8; x0a; xbf; xc9;
  x0a; xbf; xca; x0a; xbf; xcb; x0a; xbf;
  xcc; x0a; xbf; xcd; x0a; xbf; xce; x0a;
  xbf; xcf; x0a; xbf; xd0; x0a; xbf; xd1;
  x0a; xbf; xd2; x0a; xbf; xd3; x0a; xbf;
  xd4; x0a; xbf; xd5; x0a; xbf; xd6; x0a;
  xbf; xd7; x0a; xbf; xd8; x0a; xbf; xd9
].
(* tests/test_data/whatwg/big5_whatwg_test_decode_in.txt, entries 26368..26623 *)
Definition big5_decode_in_103 : list byte := [
  x0a; xbf; xda; x0a; xbf; xdb; x0a; xbf;
  xdc; x0a; xbf; xdd; x0a; xbf; xde; x0a;
  xbf; xdf; x0a; xbf; xe0; x0a; xbf; xe1;
  x0a; xbf; xe2; x0a; xbf; xe3; x0a; xbf;
  xe4; x0a; xbf; xe5; x0a; xbf; xe6; x0a;
  xbf; xe7; x0a; xbf; xe8; x0a; xbf; xe9;
  x0a; xbf; xea; x0a; xbf; xeb; x0a; xbf;
  xec; x0a; xbf; xed; x0a; xbf; xee; x0a;
  xbf; xef; x0a; xbf; xf0; x0a; xbf; xf1;
  x0a; xbf; xf2; x0a; xbf; xf3; x0a; xbf;
  xf4; x0a; xbf; xf5; x0a; xbf; xf6; x0a;
  xbf; xf7; x0a; xbf; xf8; x0a; xbf; xf9;
  x0a; xbf; xfa; x0a; xbf; xfb; x0a; xbf;
  xfc; x0a; xbf; xfd; x0a; xbf; xfe; x0a;
  xc0; x40; x0a; xc0; x41; x0a; xc0; x42;
  x0a; xc0; x43; x0a; xc0; x44; x0a; xc0;
  x45; x0a; xc0; x46; x0a; xc0; x47; x0a;
  xc0; x48; x0a; xc0; x49; x0a; xc0; x4a;
  x0a; xc0; x4b; x0a; xc0; x4c; x0a; xc0;
  x4d; x0a; xc0; x4e; x0a; xc0; x4f; x0a;
  xc0; x50; x0a; xc0; x51; x0a; xc0; x52;
  x0a; xc0; x53; x0a; xc0; x54; x0a; xc0;
  x55; x0a; xc0; x56; x0a; xc0; x57; x0a;
  xc0; x58; x0a; xc0; x59; x0a; xc0; x5a;
  x0a; xc0; x5b; x0a; xc0; x5c; x0a; xc0;
  x5d; x0a; xc0; x5e; x0a; xc0; x5f; x0a;
  xc0; x60; x0a; xc0; x61; x0a; xc0; x62;
  x0a; xc0; x63; x0a; xc0; x64; x0a; xc0;
  x65; x0a; xc0; x66; x0a; xc0; x67; x0a;
  xc0; x68; x0a; xc0; x69; x0a; xc0; x6a;
  x0a; xc0; x6b; x0a; xc0; x6c; x0a; xc0;
  x6d; x0a; xc0; x6e; x0a; xc0; x6f; x0a
].
(* tests/test_data/whatwg/big5_whatwg_test_decode_in.txt, entries 26624..26879 *)
Definition big5_decode_in_104 : list byte := [
  xc0; x70; x0a; xc0; x71; x0a; xc0; x72;
  x0a; xc0; x73; x0a; xc0; x74; x0a; xc0;
  x75; x0a; xc0; x76; x0a; xc0; x77; x0a;
  xc0; x78; x0a; xc0; x79; x0a; xc0; x7a;
  x0a; xc0; x7b; x0a; xc0; x7c; x0a; xc0;
  x7d; x0a; xc0; x7e; x0a; xc0; xa1; x0a;
  xc0; xa2; x0a; xc0; xa3; x0a; xc0; xa4;
  x0a; xc0; xa5; x0a; xc0; xa6; x0a; xc0;
  xa7; x0a; xc0; xa8; x0a; xc0; xa9; x0a;
  xc0; xaa; x0a; xc0; xab; x0a; xc0; xac;
  x0a; xc0; xad; x0a; xc0; xae; x0a; xc0;
  xaf; x0a; xc0; xb0; x0a; xc0; xb1; x0a;
  xc0; xb2; x0a; xc0; xb3; x0a; xc0; xb4;
  x0a; xc0; xb5; x0a; xc0; xb6; x0a; xc0;
  xb7; x0a; xc0; xb8; x0a; xc0; xb9; x0a;
  xc0; xba; x0a; xc0; xbb; x0a; xc0; xbc;
  x0a; xc0; xbd; x0a; xc0; xbe; x0a; xc0;
  xbf; x0a; xc0; xc0; x0a; xc0; xc1; x0a;
  xc0; xc2; x0a; xc0; xc3; x0a; xc0; xc4;
  x0a; xc0; xc5; x0a; xc0; xc6; x0a; xc0;
  xc7; x0a; xc0; xc8; x0a; xc0; xc9; x0a;
  xc0; xca; x0a; xc0; xcb; x0a; xc0; xcc;
  x0a; xc0; xcd; x0a; xc0; xce; x0a; xc0;
  xcf; x0a; xc0; xd0; x0a; xc0; xd1; x0a;
  xc0; xd2; x0a; xc0; xd3; x0a; xc0; xd4;
  x0a; xc0; xd5; x0a; xc0; xd6; x0a; xc0;
  xd7; x0a; xc0; xd8; x0a; xc0; xd9; x0a;
  xc0; xda; x0a; xc0; xdb; x0a; xc0; xdc;
  x0a; xc0; xdd; x0a; xc0; xde; x0a; xc0;
  xdf; x0a; xc0; xe0; x0a; xc0; xe1; x0a;
  xc0; xe2; x0a; xc0; xe3; x0a; xc0; xe4;
  x0a; xc0; xe5; x0a; xc0; xe6; x0a; xc0
].
(* tests/test_data/whatwg/big5_whatwg_test_decode_in.txt, entries 26880..27135 *)
Definition big5_decode_in_105 : list byte := [
  xe7; x0a; xc0; xe8; x0a; xc0; xe9; x0a;
  xc0; xea; x0a; xc0; xeb; x0a; xc0; xec;
  x0a; xc0; xed; x0a; xc0; xee; x0a; xc0;
  xef; x0a; xc0; xf0; x0a; xc0; xf1; x0a;
  xc0; xf2; x0a; xc0; xf3; x0a; xc0; xf4;
  x0a; xc0; xf5; x0a; xc0; xf6; x0a; xc0;
  xf7; x0a; xc0; xf8; x0a; xc0; xf9; x0a;
  xc0; xfa; x0a; xc0; xfb; x0a; xc0; xfc;
  x0a; xc0; xfd; x0a; xc0; xfe; x0a; xc1;
  x40; x0a; xc1; x41; x0a; xc1; x42; x0a;
  xc1; x43; x0a; xc1; x44; x0a; xc1; x45;
  x0a; xc1; x46; x0a; xc1; x47; x0a; xc1;
  x48; x0a; xc1; x49; x0a; xc1; x4a; x0a;
  xc1; x4b; x0a; xc1; x4c; x0a; xc1; x4d;
  x0a; xc1; x4e; x0a; xc1; x4f; x0a; xc1;
  x50; x0a; xc1; x51; x0a; xc1; x52; x0a;
  xc1; x53; x0a; xc1; x54; x0a; xc1; x55;
  x0a; xc1; x56; x0a; xc1; x57; x0a; xc1;
  x58; x0a; xc1; x59; x0a; xc1; x5a; x0a;
  xc1; x5b; x0a; xc1; x5c; x0a; xc1; x5d;
  x0a; xc1; x5e; x0a; xc1; x5f; x0a; xc1;
  x60; x0a; xc1; x61; x0a; xc1; x62; x0a;
  xc1; x63; x0a; xc1; x64; x0a; xc1; x65;
  x0a; xc1; x66; x0a; xc1; x67; x0a; xc1;
  x68; x0a; xc1; x69; x0a; xc1; x6a; x0a;
  xc1; x6b; x0a; xc1; x6c; x0a; xc1; x6d;
  x0a; xc1; x6e; x0a; xc1; x6f; x0a; xc1;
  x70; x0a; xc1; x71; x0a; xc1; x72; x0a;
  xc1; x73; x0a; xc1; x74; x0a; xc1; x75;
  x0a; xc1; x76; x0a; xc1; x77; x0a; xc1;
  x78; x0a; xc1; x79; x0a; xc1; x7a; x0a;
  xc1; x7b; x0a; xc1; x7c; x0a; xc1; x7d
].
(* tests/test_data/whatwg/big5_whatwg_test_decode_in.txt, entries 27136..27391 *)
Definition big5_decode_in_106 : list byte := [
  x0a; xc1; x7e; x0a; xc1; xa1; x0a; xc1;
  xa2; x0a; xc1; xa3; x0a; xc1; xa4; x0a;
  xc1; xa5; x0a; xc1; xa6; x0a; xc1; xa7;
  x0a; xc1; xa8; x0a; xc1; xa9; x0a; xc1;
  xaa; x0a; xc1; xab; x0a; xc1; xac; x0a;
  xc1; xad; x0a; xc1; xae; x0a; xc1; xaf;
  x0a; xc1; xb0; x0a; xc1; xb1; x0a; xc1;
  xb2; x0a; xc1; xb3; x0a; xc1; xb4; x0a;
  xc1; xb5; x0a; xc1; xb6; x0a; xc1; xb7;
  x0a; xc1; xb8; x0a; xc1; xb9; x0a; xc1;
  xba; x0a; xc1; xbb; x0a; xc1; xbc; x0a;
  xc1; xbd; x0a; xc1; xbe; x0a; xc1; xbf;
  x0a; xc1; xc0; x0a; xc1; xc1; x0a; xc1;
  xc2; x0a; xc1; xc3; x0a; xc1; xc4; x0a;
  xc1; xc5; x0a; xc1; xc6; x0a; xc1; xc7;
  x0a; xc1; xc8; x0a; xc1; xc9; x0a; xc1;
  xca; x0a; xc1; xcb; x0a; xc1; xcc; x0a;
  xc1; xcd; x0a; xc1; xce; x0a; xc1; xcf;
  x0a; xc1; xd0; x0a; xc1; xd1; x0a; xc1;
  xd2; x0a; xc1; xd3; x0a; xc1; xd4; x0a;
  xc1; xd5; x0a; xc1; xd6; x0a; xc1; xd7;
  x0a; xc1; xd8; x0a; xc1; xd9; x0a; xc1;
  xda; x0a; xc1; xdb; x0a; xc1; xdc; x0a;
  xc1; xdd; x0a; xc1; xde; x0a; xc1; xdf;
  x0a; xc1; xe0; x0a; xc1; xe1; x0a; xc1;
  xe2; x0a; xc1; xe3; x0a; xc1; xe4; x0a;
  xc1; xe5; x0a; xc1; xe6; x0a; xc1; xe7;
  x0a; xc1; xe8; x0a; xc1; xe9; x0a; xc1;
  xea; x0a; xc1; xeb; x0a; xc1; xec; x0a;
  xc1; xed; x0a; xc1; xee; x0a; xc1; xef;
  x0a; xc1; xf0; x0a; xc1; xf1; x0a; xc1;
  xf2; x0a; xc1; xf3; x0a; xc1; xf4; x0a
].
(* tests/test_data/whatwg/big5_whatwg_test_decode_in.txt, entries 27392..27647 *)
Definition big5_decode_in_107 : list byte := [
  xc1; xf5; x0a; xc1; xf6; x0a; xc1; xf7;
  x0a; xc1; xf8; x0a; xc1; xf9; x0a; xc1;
  xfa; x0a; xc1; xfb; x0a; xc1; xfc; x0a;
  xc1; xfd; x0a; xc1; xfe; x0a; xc2; x40;
  x0a; xc2; x41; x0a; xc2; x42; x0a; xc2;
  x43; x0a; xc2; x44; x0a; xc2; x45; x0a;
  xc2; x46; x0a; xc2; x47; x0a; xc2; x48;
  x0a; xc2; x49; x0a; xc2; x4a; x0a; xc2;
  x4b; x0a; xc2; x4c; x0a; xc2; x4d; x0a;
  xc2; x4e; x0a; xc2; x4f; x0a; xc2; x50;
  x0a; xc2; x51; x0a; xc2; x52; x0a; xc2;
  x53; x0a; xc2; x54; x0a; xc2; x55; x0a;
  xc2; x56; x0a; xc2; x57; x0a; xc2; x58;
  x0a; xc2; x59; x0a; xc2; x5a; x0a; xc2;
  x5b; x0a; xc2; x5c; x0a; xc2; x5d; x0a;
  xc2; x5e; x0a; xc2; x5f; x0a; xc2; x60;
  x0a; xc2; x61; x0a; xc2; x62; x0a; xc2;
  x63; x0a; xc2; x64; x0a; xc2; x65; x0a;
  xc2; x66; x0a; xc2; x67; x0a; xc2; x68;
  x0a; xc2; x69; x0a; xc2; x6a; x0a; xc2;
  x6b; x0a; xc2; x6c; x0a; xc2; x6d; x0a;
  xc2; x6e; x0a; xc2; x6f; x0a; xc2; x70;
  x0a; xc2; x71; x0a; xc2; x72; x0a; xc2;
  x73; x0a; xc2; x74; x0a; xc2; x75; x0a;
  xc2; x76; x0a; xc2; x77; x0a; xc2; x78;
  x0a; xc2; x79; x0a; xc2; x7a; x0a; xc2;
  x7b; x0a; xc2; x7c; x0a; xc2; x7d; x0a;
  xc2; x7e; x0a; xc2; xa1; x0a; xc2; xa2;
  x0a; xc2; xa3; x0a; xc2; xa4; x0a; xc2;
  xa5; x0a; xc2; xa6; x0a; xc2; xa7; x0a;
  xc2; xa8; x0a; xc2; xa9; x0a; xc2; xaa;
  x0a; xc2; xab; x0a; xc2; xac; x0a; xc2
].
(* tests/test_data/whatwg/big5_whatwg_test_decode_in.txt, entries 27648..27903 *)
Definition big5_decode_in_108 : list byte := [
  xad; x0a; xc2; xae; x0a; xc2; xaf; x0a;
  xc2; xb0; x0a; xc2; xb1; x0a; xc2; xb2;
  x0a; xc2; xb3; x0a; xc2; xb4; x0a; xc2;
  xb5; x0a; xc2; xb6; x0a; xc2; xb7; x0a;
  xc2; xb8; x0a; xc2; xb9; x0a; xc2; xba;
  x0a; xc2; xbb; x0a; xc2; xbc; x0a; xc2;
  xbd; x0a; xc2; xbe; x0a; xc2; xbf; x0a;
  xc2; xc0; x0a; xc2; xc1; x0a; xc2; xc2;
  x0a; xc2; xc3; x0a; xc2; xc4; x0a; xc2;
  xc5; x0a; xc2; xc6; x0a; xc2; xc7; x0a;
  xc2; xc8; x0a; xc2; xc9; x0a; xc2; xca;
  x0a; xc2; xcb; x0a; xc2; xcc; x0a; xc2;
  xcd; x0a; xc2; xce; x0a; xc2; xcf; x0a;
  xc2; xd0; x0a; xc2; xd1; x0a; xc2; xd2;
  x0a; xc2; xd3; x0a; xc2; xd4; x0a; xc2;
  xd5; x0a; xc2; xd6; x0a; xc2; xd7; x0a;
  xc2; xd8; x0a; xc2; xd9; x0a; xc2; xda;
  x0a; xc2; xdb; x0a; xc2; xdc; x0a; xc2;
  xdd; x0a; xc2; xde; x0a; xc2; xdf; x0a;
  xc2; xe0; x0a; xc2; xe1; x0a; xc2; xe2;
  x0a; xc2; xe3; x0a; xc2; xe4; x0a; xc2;
  xe5; x0a; xc2; xe6; x0a; xc2; xe7; x0a;
  xc2; xe8; x0a; xc2; xe9; x0a; xc2; xea;
  x0a; xc2; xeb; x0a; xc2; xec; x0a; xc2;
  xed; x0a; xc2; xee; x0a; xc2; xef; x0a;
  xc2; xf0; x0a; xc2; xf1; x0a; xc2; xf2;
  x0a; xc2; xf3; x0a; xc2; xf4; x0a; xc2;
  xf5; x0a; xc2; xf6; x0a; xc2; xf7; x0a;
  xc2; xf8; x0a; xc2; xf9; x0a; xc2; xfa;
  x0a; xc2; xfb; x0a; xc2; xfc; x0a; xc2;
  xfd; x0a; xc2; xfe; x0a; xc3; x40; x0a;
  xc3; x41; x0a; xc3; x42; x0a; xc3; x43
].
(* tests/test_data/whatwg/big5_whatwg_test_decode_in.txt, entries 27904..28159 *)
Definition big5_decode_in_109 : list byte := [
  x0a; xc3; x44; x0a; xc3; x45; x0a; xc3;
  x46; x0a; xc3; x47; x0a; xc3; x48; x0a;
  xc3; x49; x0a; xc3; x4a; x0a; xc3; x4b;
  x0a; xc3; x4c; x0a; xc3; x4d; x0a; xc3;
  x4e; x0a; xc3; x4f; x0a; xc3; x50; x0a;
  xc3; x51; x0a; xc3; x52; x0a; xc3; x53;
  x0a; xc3; x54; x0a; xc3; x55; x0a; xc3;
  x56; x0a; xc3; x57; x0a; xc3; x58; x0a;
  xc3; x59; x0a; xc3; x5a; x0a; xc3; x5b;
  x0a; xc3; x5c; x0a; xc3; x5d; x0a; xc3;
  x5e; x0a; xc3; x5f; x0a; xc3; x60; x0a;
  xc3; x61; x0a; xc3; x62; x0a; xc3; x63;
  x0a; xc3; x64; x0a; xc3; x65; x0a; xc3;
  x66; x0a; xc3; x67; x0a; xc3; x68; x0a;
  xc3; x69; x0a; xc3; x6a; x0a; xc3; x6b;
  x0a; xc3; x6c; x0a; xc3; x6d; x0a; xc3;
  x6e; x0a; xc3; x6f; x0a; xc3; x70; x0a;
  xc3; x71; x0a; xc3; x72; x0a; xc3; x73;
  x0a; xc3; x74; x0a; xc3; x75; x0a; xc3;
  x76; x0a; xc3; x77; x0a; xc3; x78; x0a;
  xc3; x79; x0a; xc3; x7a; x0a; xc3; x7b;
  x0a; xc3; x7c; x0a; xc3; x7d; x0a; xc3;
  x7e; x0a; xc3; xa1; x0a; xc3; xa2; x0a;
  xc3; xa3; x0a; xc3; xa4; x0a; xc3; xa5;
  x0a; xc3; xa6; x0a; xc3; xa7; x0a; xc3;
  xa8; x0a; xc3; xa9; x0a; xc3; xaa; x0a;
  xc3; xab; x0a; xc3; xac; x0a; xc3; xad;
  x0a; xc3; xae; x0a; xc3; xaf; x0a; xc3;
  xb0; x0a; xc3; xb1; x0a; xc3; xb2; x0a;
  xc3; xb3; x0a; xc3; xb4; x0a; xc3; xb5;
  x0a; xc3; xb6; x0a; xc3; xb7; x0a; xc3;
  xb8; x0a; xc3; xb9; x0a; xc3; xba; x0a
].
(* tests/test_data/whatwg/big5_whatwg_test_decode_in.txt, entries 28160..28415 *)
Definition big5_decode_in_110 : list byte := [
  xc3; xbb; x0a; xc3; xbc; x0a; xc3; xbd;
  x0a; xc3; xbe; x0a; xc3; xbf; x0a; xc3;
  xc0; x0a; xc3; xc1; x0a; xc3; xc2; x0a;
  xc3; xc3; x0a; xc3; xc4; x0a; xc3; xc5;
  x0a; xc3; xc6; x0a; xc3; xc7; x0a; xc3;
  xc8; x0a; xc3; xc9; x0a; xc3; xca; x0a;
  xc3; xcb; x0a; xc3; xcc; x0a; xc3; xcd;
  x0a; xc3; xce; x0a; xc3; xcf; x0a; xc3;
  xd0; x0a; xc3; xd1; x0a; xc3; xd2; x0a;
  xc3; xd3; x0a; xc3; xd4; x0a; xc3; xd5;
  x0a; xc3; xd6; x0a; xc3; xd7; x0a; xc3;
  xd8; x0a; xc3; xd9; x0a; xc3; xda; x0a;
  xc3; xdb; x0a; xc3; xdc; x0a; xc3; xdd;
  x0a; xc3; xde; x0a; xc3; xdf; x0a; xc3;
  xe0; x0a; xc3; xe1; x0a; xc3; xe2; x0a;
  xc3; xe3; x0a; xc3; xe4; x0a; xc3; xe5;
  x0a; xc3; xe6; x0a; xc3; xe7; x0a; xc3;
  xe8; x0a; xc3; xe9; x0a; xc3; xea; x0a;
  xc3; xeb; x0a; xc3; xec; x0a; xc3; xed;
  x0a; xc3; xee; x0a; xc3; xef; x0a; xc3;
  xf0; x0a; xc3; xf1; x0a; xc3; xf2; x0a;
  xc3; xf3; x0a; xc3; xf4; x0a; xc3; xf5;
  x0a; xc3; xf6; x0a; xc3; xf7; x0a; xc3;
  xf8; x0a; xc3; xf9; x0a; xc3; xfa; x0a;
  xc3; xfb; x0a; xc3; xfc; x0a; xc3; xfd;
  x0a; xc3; xfe; x0a; xc4; x40; x0a; xc4;
  x41; x0a; xc4; x42; x0a; xc4; x43; x0a;
  xc4; x44; x0a; xc4; x45; x0a; xc4; x46;
  x0a; xc4; x47; x0a; xc4; x48; x0a; xc4;
  x49; x0a; xc4; x4a; x0a; xc4; x4b; x0a;
  xc4; x4c; x0a; xc4; x4d; x0a; xc4; x4e;
  x0a; xc4; x4f; x0a; xc4; x50; x0a; xc4
].
(* tests/test_data/whatwg/big5_whatwg_test_decode_in.txt, entries 28416..28671 *)
Definition big5_decode_in_111 : list byte := [
  x51; x0a; xc4; x52; x0a; xc4; x53; x0a;
  xc4; x54; x0a; xc4; x55; x0a; xc4; x56;
  x0a; xc4; x57; x0a; xc4; x58; x0a; xc4;
  x59; x0a; xc4; x5a; x0a; xc4; x5b; x0a;
  xc4; x5c; x0a; xc4; x5d; x0a; xc4; x5e;
  x0a; xc4; x5f; x0a; xc4; x60; x0a; xc4;
  x61; x0a; xc4; x62; x0a; xc4; x63; x0a;
  xc4; x64; x0a; xc4; x65; x0a; xc4; x66;
  x0a; xc4; x67; x0a; xc4; x68; x0a; xc4;
  x69; x0a; xc4; x6a; x0a; xc4; x6b; x0a;
  xc4; x6c; x0a; xc4; x6d; x0a; xc4; x6e;
  x0a; xc4; x6f; x0a; xc4; x70; x0a; xc4;
  x71; x0a; xc4; x72; x0a; xc4; x73; x0a;
  xc4; x74; x0a; xc4; x75; x0a; xc4; x76;
  x0a; xc4; x77; x0a; xc4; x78; x0a; xc4;
  x79; x0a; xc4; x7a; x0a; xc4; x7b; x0a;
  xc4; x7c; x0a; xc4; x7d; x0a; xc4; x7e;
  x0a; xc4; xa1; x0a; xc4; xa2; x0a; xc4;
  xa3; x0a; xc4; xa4; x0a; xc4; xa5; x0a;
  xc4; xa6; x0a; xc4; xa7; x0a; xc4; xa8;
  x0a; xc4; xa9; x0a; xc4; xaa; x0a; xc4;
  xab; x0a; xc4; xac; x0a; xc4; xad; x0a;
  xc4; xae; x0a; xc4; xaf; x0a; xc4; xb0;
  x0a; xc4; xb1; x0a; xc4; xb2; x0a; xc4;
  xb3; x0a; xc4; xb4; x0a; xc4; xb5; x0a;
  xc4; xb6; x0a; xc4; xb7; x0a; xc4; xb8;
  x0a; xc4; xb9; x0a; xc4; xba; x0a; xc4;
  xbb; x0a; xc4; xbc; x0a; xc4; xbd; x0a;
  xc4; xbe; x0a; xc4; xbf; x0a; xc4; xc0;
  x0a; xc4; xc1; x0a; xc4; xc2; x0a; xc4;
  xc3; x0a; xc4; xc4; x0a; xc4; xc5; x0a;
  xc4; xc6; x0a; xc4; xc7; x0a; xc4; xc8
].
(* tests/test_data/whatwg/big5_whatwg_test_decode_in.txt, entries 28672..28927 *)
Definition big5_decode_in_112 : list byte := [
  x0a; xc4; xc9; x0a; xc4; xca; x0a; xc4;
  xcb; x0a; xc4; xcc; x0a; xc4; xcd; x0a;
  xc4; xce; x0a; xc4; xcf; x0a; xc4; xd0;
  x0a; xc4; xd1; x0a; xc4; xd2; x0a; xc4;
  xd3; x0a; xc4; xd4; x0a; xc4; xd5; x0a;
  xc4; xd6; x0a; xc4; xd7; x0a; xc4; xd8;
  x0a; xc4; xd9; x0a; xc4; xda; x0a; xc4;
  xdb; x0a; xc4; xdc; x0a; xc4; xdd; x0a;
  xc4; xde; x0a; xc4; xdf; x0a; xc4; xe0;
  x0a; xc4; xe1; x0a; xc4; xe2; x0a; xc4;
  xe3; x0a; xc4; xe4; x0a; xc4; xe5; x0a;
  xc4; xe6; x0a; xc4; xe7; x0a; xc4; xe8;
  x0a; xc4; xe9; x0a; xc4; xea; x0a; xc4;
  xeb; x0a; xc4; xec; x0a; xc4; xed; x0a;
  xc4; xee; x0a; xc4; xef; x0a; xc4; xf0;
  x0a; xc4; xf1; x0a; xc4; xf2; x0a; xc4;
  xf3; x0a; xc4; xf4; x0a; xc4; xf5; x0a;
  xc4; xf6; x0a; xc4; xf7; x0a; xc4; xf8;
  x0a; xc4; xf9; x0a; xc4; xfa; x0a; xc4;
  xfb; x0a; xc4; xfc; x0a; xc4; xfd; x0a;
  xc4; xfe; x0a; xc5; x40; x0a; xc5; x41;
  x0a; xc5; x42; x0a; xc5; x43; x0a; xc5;
  x44; x0a; xc5; x45; x0a; xc5; x46; x0a;
  xc5; x47; x0a; xc5; x48; x0a; xc5; x49;
  x0a; xc5; x4a; x0a; xc5; x4b; x0a; xc5;
  x4c; x0a; xc5; x4d; x0a; xc5; x4e; x0a;
  xc5; x4f; x0a; xc5; x50; x0a; xc5; x51;
  x0a; xc5; x52; x0a; xc5; x53; x0a; xc5;
  x54; x0a; xc5; x55; x0a; xc5; x56; x0a;
  xc5; x57; x0a; xc5; x58; x0a; xc5; x59;
  x0a; xc5; x5a; x0a; xc5; x5b; x0a; xc5;
  x5c; x0a; xc5; x5d; x0a; xc5; x5e; x0a
].
(* tests/test_data/whatwg/big5_whatwg_test_decode_in.txt, entries 28928..29183 *)
Definition big5_decode_in_113 : list byte := [
  xc5; x5f; x0a; xc5; x60; x0a; xc5; x61;
  x0a; xc5; x62; x0a; xc5; x63; x0a; xc5;
  x64; x0a; xc5; x65; x0a; xc5; x66; x0a;
  xc5; x67; x0a; xc5; x68; x0a; xc5; x69;
  x0a; xc5; x6a; x0a; xc5; x6b; x0a; xc5;
  x6c; x0a; xc5; x6d; x0a; xc5; x6e; x0a;
  xc5; x6f; x0a; xc5; x70; x0a; xc5; x71;
  x0a; xc5; x72; x0a; xc5; x73; x0a; xc5;
  x74; x0a; xc5; x75; x0a; xc5; x76; x0a;
  xc5; x77; x0a; xc5; x78; x0a; xc5; x79;
  x0a; xc5; x7a; x0a; xc5; x7b; x0a; xc5;
  x7c; x0a; xc5; x7d; x0a; xc5; x7e; x0a;
  xc5; xa1; x0a; xc5; xa2; x0a; xc5; xa3;
  x0a; xc5; xa4; x0a; xc5; xa5; x0a; xc5;
  xa6; x0a; xc5; xa7; x0a; xc5; xa8; x0a;
  xc5; xa9; x0a; xc5; xaa; x0a; xc5; xab;
  x0a; xc5; xac; x0a; xc5; xad; x0a; xc5;
  xae; x0a; xc5; xaf; x0a; xc5; xb0; x0a;
  xc5; xb1; x0a; xc5; xb2; x0a; xc5; xb3;
  x0a; xc5; xb4; x0a; xc5; xb5; x0a; xc5;
  xb6; x0a; xc5; xb7; x0a; xc5; xb8; x0a;
  xc5; xb9; x0a; xc5; xba; x0a; xc5; xbb;
  x0a; xc5; xbc; x0a; xc5; xbd; x0a; xc5;
  xbe; x0a; xc5; xbf; x0a; xc5; xc0; x0a;
  xc5; xc1; x0a; xc5; xc2; x0a; xc5; xc3;
  x0a; xc5; xc4; x0a; xc5; xc5; x0a; xc5;
  xc6; x0a; xc5; xc7; x0a; xc5; xc8; x0a;
  xc5; xc9; x0a; xc5; xca; x0a; xc5; xcb;
  x0a; xc5; xcc; x0a; xc5; xcd; x0a; xc5;
  xce; x0a; xc5; xcf; x0a; xc5; xd0; x0a;
  xc5; xd1; x0a; xc5; xd2; x0a; xc5; xd3;
  x0a; xc5; xd4; x0a; xc5; xd5; x0a; xc5
].
(* tests/test_data/whatwg/big5_whatwg_test_decode_in.txt, entries 29184..29439 *)
Definition big5_decode_in_114 : list byte := [
  xd6; x0a; xc5; xd7; x0a; xc5; xd8; x0a;
  xc5; xd9; x0a; xc5; xda; x0a; xc5; xdb;
  x0a; xc5; xdc; x0a; xc5; xdd; x0a; xc5;
  xde; x0a; xc5; xdf; x0a; xc5; xe0; x0a;
  xc5; xe1; x0a; xc5; xe2; x0a; xc5; xe3;
  x0a; xc5; xe4; x0a; xc5; xe5; x0a; xc5;
  xe6; x0a; xc5; xe7; x0a; xc5; xe8; x0a;
  xc5; xe9; x0a; xc5; xea; x0a; xc5; xeb;
  x0a; xc5; xec; x0a; xc5; xed; x0a; xc5;
  xee; x0a; xc5; xef; x0a; xc5; xf0; x0a;
  xc5; xf1; x0a; xc5; xf2; x0a; xc5; xf3;
  x0a; xc5; xf4; x0a; xc5; xf5; x0a; xc5;
  xf6; x0a; xc5; xf7; x0a; xc5; xf8; x0a;
  xc5; xf9; x0a; xc5; xfa; x0a; xc5; xfb;
  x0a; xc5; xfc; x0a; xc5; xfd; x0a; xc5;
  xfe; x0a; xc6; x40; x0a; xc6; x41; x0a;
  xc6; x42; x0a; xc6; x43; x0a; xc6; x44;
  x0a; xc6; x45; x0a; xc6; x46; x0a; xc6;
  x47; x0a; xc6; x48; x0a; xc6; x49; x0a;
  xc6; x4a; x0a; xc6; x4b; x0a; xc6; x4c;
  x0a; xc6; x4d; x0a; xc6; x4e; x0a; xc6;
  x4f; x0a; xc6; x50; x0a; xc6; x51; x0a;
  xc6; x52; x0a; xc6; x53; x0a; xc6; x54;
  x0a; xc6; x55; x0a; xc6; x56; x0a; xc6;
  x57; x0a; xc6; x58; x0a; xc6; x59; x0a;
  xc6; x5a; x0a; xc6; x5b; x0a; xc6; x5c;
  x0a; xc6; x5d; x0a; xc6; x5e; x0a; xc6;
  x5f; x0a; xc6; x60; x0a; xc6; x61; x0a;
  xc6; x62; x0a; xc6; x63; x0a; xc6; x64;
  x0a; xc6; x65; x0a; xc6; x66; x0a; xc6;
  x67; x0a; xc6; x68; x0a; xc6; x69; x0a;
  xc6; x6a; x0a; xc6; x6b; x0a; xc6; x6c
].
(* tests/test_data/whatwg/big5_whatwg_test_decode_in.txt, entries 29440..29695 *)
Definition big5_decode_in_115 : list byte := [
  x0a; xc6; x6d; x0a; xc6; x6e; x0a; xc6;
  x6f; x0a; xc6; x70; x0a; xc6; x71; x0a;
  xc6; x72; x0a; xc6; x73; x0a; xc6; x74;
  x0a; xc6; x75; x0a; xc6; x76; x0a; xc6;
  x77; x0a; xc6; x78; x0a; xc6; x79; x0a;
  xc6; x7a; x0a; xc6; x7b; x0a; xc6; x7c;
  x0a; xc6; x7d; x0a; xc6; x7e; x0a; xc6;
  xa1; x0a; xc6; xa2; x0a; xc6; xa3; x0a;
  xc6; xa4; x0a; xc6; xa5; x0a; xc6; xa6;
  x0a; xc6; xa7; x0a; xc6; xa8; x0a; xc6;
  xa9; x0a; xc6; xaa; x0a; xc6; xab; x0a;
  xc6; xac; x0a; xc6; xad; x0a; xc6; xae;
  x0a; xc6; xaf; x0a; xc6; xb0; x0a; xc6;
  xb1; x0a; xc6; xb2; x0a; xc6; xb3; x0a;
  xc6; xb4; x0a; xc6; xb5; x0a; xc6; xb6;
  x0a; xc6; xb7; x0a; xc6; xb8; x0a; xc6;
  xb9; x0a; xc6; xba; x0a; xc6; xbb; x0a;
  xc6; xbc; x0a; xc6; xbd; x0a; xc6; xbe;
  x0a; xc6; xbf; x0a; xc6; xc0; x0a; xc6;
  xc1; x0a; xc6; xc2; x0a; xc6; xc3; x0a;
  xc6; xc4; x0a; xc6; xc5; x0a; xc6; xc6;
  x0a; xc6; xc7; x0a; xc6; xc8; x0a; xc6;
  xc9; x0a; xc6; xca; x0a; xc6; xcb; x0a;
  xc6; xcc; x0a; xc6; xcd; x0a; xc6; xce;
  x0a; xc6; xcf; x0a; xc6; xd0; x0a; xc6;
  xd1; x0a; xc6; xd2; x0a; xc6; xd3; x0a;
  xc6; xd4; x0a; xc6; xd5; x0a; xc6; xd6;
  x0a; xc6; xd7; x0a; xc6; xd8; x0a; xc6;
  xd9; x0a; xc6; xda; x0a; xc6; xdb; x0a;
  xc6; xdc; x0a; xc6; xdd; x0a; xc6; xde;
  x0a; xc6; xdf; x0a; xc6; xe0; x0a; xc6;
  xe1; x0a; xc6; xe2; x0a; xc6; xe3; x0a
].
(* tests/test_data/whatwg/big5_whatwg_test_decode_in.txt, entries 29696..29951 *)
Definition big5_decode_in_116 : list byte := [
  xc6; xe4; x0a; xc6; xe5; x0a; xc6; xe6;
  x0a; xc6; xe7; x0a; xc6; xe8; x0a; xc6;
  xe9; x0a; xc6; xea; x0a; xc6; xeb; x0a;
  xc6; xec; x0a; xc6; xed; x0a; xc6; xee;
  x0a; xc6; xef; x0a; xc6; xf0; x0a; xc6;
  xf1; x0a; xc6; xf2; x0a; xc6; xf3; x0a;
  xc6; xf4; x0a; xc6; xf5; x0a; xc6; xf6;
  x0a; xc6; xf7; x0a; xc6; xf8; x0a; xc6;
  xf9; x0a; xc6; xfa; x0a; xc6; xfb; x0a;
  xc6; xfc; x0a; xc6; xfd; x0a; xc6; xfe;
  x0a; xc7; x40; x0a; xc7; x41; x0a; xc7;
  x42; x0a; xc7; x43; x0a; xc7; x44; x0a;
  xc7; x45; x0a; xc7; x46; x0a; xc7; x47;
  x0a; xc7; x48; x0a; xc7; x49; x0a; xc7;
  x4a; x0a; xc7; x4b; x0a; xc7; x4c; x0a;
  xc7; x4d; x0a; xc7; x4e; x0a; xc7; x4f;
  x0a; xc7; x50; x0a; xc7; x51; x0a; xc7;
  x52; x0a; xc7; x53; x0a; xc7; x54; x0a;
  xc7; x55; x0a; xc7; x56; x0a; xc7; x57;
  x0a; xc7; x58; x0a; xc7; x59; x0a; xc7;
  x5a; x0a; xc7; x5b; x0a; xc7; x5c; x0a;
  xc7; x5d; x0a; xc7; x5e; x0a; xc7; x5f;
  x0a; xc7; x60; x0a; xc7; x61; x0a; xc7;
  x62; x0a; xc7; x63; x0a; xc7; x64; x0a;
  xc7; x65; x0a; xc7; x66; x0a; xc7; x67;
  x0a; xc7; x68; x0a; xc7; x69; x0a; xc7;
  x6a; x0a; xc7; x6b; x0a; xc7; x6c; x0a;
  xc7; x6d; x0a; xc7; x6e; x0a; xc7; x6f;
  x0a; xc7; x70; x0a; xc7; x71; x0a; xc7;
  x72; x0a; xc7; x73; x0a; xc7; x74; x0a;
  xc7; x75; x0a; xc7; x76; x0a; xc7; x77;
  x0a; xc7; x78; x0a; xc7; x79; x0a; xc7
].
(* tests/test_data/whatwg/big5_whatwg_test_decode_in.txt, entries 29952..30207 *)
Definition big5_decode_in_117 : list byte := [
  x7a; x0a; xc7; x7b; x0a; xc7; x7c; x0a;
  xc7; x7d; x0a; xc7; x7e; x0a; xc7; xa1;
  x0a; xc7; xa2; x0a; xc7; xa3; x0a; xc7;
  xa4; x0a; xc7; xa5; x0a; xc7; xa6; x0a;
  xc7; xa7; x0a; xc7; xa8; x0a; xc7; xa9;
  x0a; xc7; xaa; x0a; xc7; xab; x0a; xc7;
  xac; x0a; xc7; xad; x0a; xc7; xae; x0a;
  xc7; xaf; x0a; xc7; xb0; x0a; xc7; xb1;
  x0a; xc7; xb2; x0a; xc7; xb3; x0a; xc7;
  xb4; x0a; xc7; xb5; x0a; xc7; xb6; x0a;
  xc7; xb7; x0a; xc7; xb8; x0a; xc7; xb9;
  x0a; xc7; xba; x0a; xc7; xbb; x0a; xc7;
  xbc; x0a; xc7; xbd; x0a; xc7; xbe; x0a;
  xc7; xbf; x0a; xc7; xc0; x0a; xc7; xc1;
  x0a; xc7; xc2; x0a; xc7; xc3; x0a; xc7;
  xc4; x0a; xc7; xc5; x0a; xc7; xc6; x0a;
  xc7; xc7; x0a; xc7; xc8; x0a; xc7; xc9;
  x0a; xc7; xca; x0a; xc7; xcb; x0a; xc7;
  xcc; x0a; xc7; xcd; x0a; xc7; xce; x0a;
  xc7; xcf; x0a; xc7; xd0; x0a; xc7; xd1;
  x0a; xc7; xd2; x0a; xc7; xd3; x0a; xc7;
  xd4; x0a; xc7; xd5; x0a; xc7; xd6; x0a;
  xc7; xd7; x0a; xc7; xd8; x0a; xc7; xd9;
  x0a; xc7; xda; x0a; xc7; xdb; x0a; xc7;
  xdc; x0a; xc7; xdd; x0a; xc7; xde; x0a;
  xc7; xdf; x0a; xc7; xe0; x0a; xc7; xe1;
  x0a; xc7; xe2; x0a; xc7; xe3; x0a; xc7;
  xe4; x0a; xc7; xe5; x0a; xc7; xe6; x0a;
  xc7; xe7; x0a; xc7; xe8; x0a; xc7; xe9;
  x0a; xc7; xea; x0a; xc7; xeb; x0a; xc7;
  xec; x0a; xc7; xed; x0a; xc7; xee; x0a;
  xc7; xef; x0a; xc7; xf0; x0a; xc7; xf1
].
(* tests/test_data/whatwg/big5_whatwg_test_decode_in.txt, entries 30208..30463 *)
Definition big5_decode_in_118 : list byte := [
  x0a; xc7; xf2; x0a; xc7; xf3; x0a; xc7;
  xf4; x0a; xc7; xf5; x0a; xc7; xf6; x0a;
  xc7; xf7; x0a; xc7; xf8; x0a; xc7; xf9;
  x0a; xc7; xfa; x0a; xc7; xfb; x0a; xc7;
  xfc; x0a; xc7; xfd; x0a; xc7; xfe; x0a;
  xc8; x40; x0a; xc8; x41; x0a; xc8; x42;
  x0a; xc8; x43; x0a; xc8; x44; x0a; xc8;
  x45; x0a; xc8; x46; x0a; xc8; x47; x0a;
  xc8; x48; x0a; xc8; x49; x0a; xc8; x4a;
  x0a; xc8; x4b; x0a; xc8; x4c; x0a; xc8;
  x4d; x0a; xc8; x4e; x0a; xc8; x4f; x0a;
  xc8; x50; x0a; xc8; x51; x0a; xc8; x52;
  x0a; xc8; x53; x0a; xc8; x54; x0a; xc8;
  x55; x0a; xc8; x56; x0a; xc8; x57; x0a;
  xc8; x58; x0a; xc8; x59; x0a; xc8; x5a;
  x0a; xc8; x5b; x0a; xc8; x5c; x0a; xc8;
  x5d; x0a; xc8; x5e; x0a; xc8; x5f; x0a;
  xc8; x60; x0a; xc8; x61; x0a; xc8; x62;
  x0a; xc8; x63; x0a; xc8; x64; x0a; xc8;
  x65; x0a; xc8; x66; x0a; xc8; x67; x0a;
  xc8; x68; x0a; xc8; x69; x0a; xc8; x6a;
  x0a; xc8; x6b; x0a; xc8; x6c; x0a; xc8;
  x6d; x0a; xc8; x6e; x0a; xc8; x6f; x0a;
  xc8; x70; x0a; xc8; x71; x0a; xc8; x72;
  x0a; xc8; x73; x0a; xc8; x74; x0a; xc8;
  x75; x0a; xc8; x76; x0a; xc8; x77; x0a;
  xc8; x78; x0a; xc8; x79; x0a; xc8; x7a;
  x0a; xc8; x7b; x0a; xc8; x7c; x0a; xc8;
  x7d; x0a; xc8; x7e; x0a; xc8; xa1; x0a;
  xc8; xa2; x0a; xc8; xa3; x0a; xc8; xa4;
  x0a; xc8; xcd; x0a; xc8; xce; x0a; xc8;
  xcf; x0a; xc8; xd0; x0a; xc8; xd1; x0a
].
(* tests/test_data/whatwg/big5_whatwg_test_decode_in.txt, entries 30464..30719 *)
Definition big5_decode_in_119 : list byte := [
  xc8; xd2; x0a; xc8; xd3; x0a; xc8; xd4;
  x0a; xc8; xd5; x0a; xc8; xd6; x0a; xc8;
  xd7; x0a; xc8; xd8; x0a; xc8; xd9; x0a;
  xc8; xda; x0a; xc8; xdb; x0a; xc8; xdc;
  x0a; xc8; xdd; x0a; xc8; xde; x0a; xc8;
  xdf; x0a; xc8; xe0; x0a; xc8; xe1; x0a;
  xc8; xe2; x0a; xc8; xe3; x0a; xc8; xe4;
  x0a; xc8; xe5; x0a; xc8; xe6; x0a; xc8;
  xe7; x0a; xc8; xe8; x0a; xc8; xe9; x0a;
  xc8; xea; x0a; xc8; xeb; x0a; xc8; xec;
  x0a; xc8; xed; x0a; xc8; xee; x0a; xc8;
  xef; x0a; xc8; xf0; x0a; xc8; xf1; x0a;
  xc8; xf5; x0a; xc8; xf6; x0a; xc8; xf7;
  x0a; xc8; xf8; x0a; xc8; xf9; x0a; xc8;
  xfa; x0a; xc8; xfb; x0a; xc8; xfc; x0a;
  xc8; xfd; x0a; xc8; xfe; x0a; xc9; x40;
  x0a; xc9; x41; x0a; xc9; x42; x0a; xc9;
  x43; x0a; xc9; x44; x0a; xc9; x45; x0a;
  xc9; x46; x0a; xc9; x47; x0a; xc9; x48;
  x0a; xc9; x49; x0a; xc9; x4a; x0a; xc9;
  x4b; x0a; xc9; x4c; x0a; xc9; x4d; x0a;
  xc9; x4e; x0a; xc9; x4f; x0a; xc9; x50;
  x0a; xc9; x51; x0a; xc9; x52; x0a; xc9;
  x53; x0a; xc9; x54; x0a; xc9; x55; x0a;
  xc9; x56; x0a; xc9; x57; x0a; xc9; x58;
  x0a; xc9; x59; x0a; xc9; x5a; x0a; xc9;
  x5b; x0a; xc9; x5c; x0a; xc9; x5d; x0a;
  xc9; x5e; x0a; xc9; x5f; x0a; xc9; x60;
  x0a; xc9; x61; x0a; xc9; x62; x0a; xc9;
  x63; x0a; xc9; x64; x0a; xc9; x65; x0a;
  xc9; x66; x0a; xc9; x67; x0a; xc9; x68;
  x0a; xc9; x69; x0a; xc9; x6a; x0a; xc9
].
(* tests/test_data/whatwg/big5_whatwg_test_decode_in.txt, entries 30720..30975 *)
Definition big5_decode_in_120 : list byte := [
  x6b; x0a; xc9; x6c; x0a; xc9; x6d; x0a;
  xc9; x6e; x0a; xc9; x6f; x0a; xc9; x70;
  x0a; xc9; x71; x0a; xc9; x72; x0a; xc9;
  x73; x0a; xc9; x74; x0a; xc9; x75; x0a;
  xc9; x76; x0a; xc9; x77; x0a; xc9; x78;
  x0a; xc9; x79; x0a; xc9; x7a; x0a; xc9;
  x7b; x0a; xc9; x7c; x0a; xc9; x7d; x0a;
  xc9; x7e; x0a; xc9; xa1; x0a; xc9; xa2;
  x0a; xc9; xa3; x0a; xc9; xa4; x0a; xc9;
  xa5; x0a; xc9; xa6; x0a; xc9; xa7; x0a;
  xc9; xa8; x0a; xc9; xa9; x0a; xc9; xaa;
  x0a; xc9; xab; x0a; xc9; xac; x0a; xc9;
  xad; x0a; xc9; xae; x0a; xc9; xaf; x0a;
  xc9; xb0; x0a; xc9; xb1; x0a; xc9; xb2;
  x0a; xc9; xb3; x0a; xc9; xb4; x0a; xc9;
  xb5; x0a; xc9; xb6; x0a; xc9; xb7; x0a;
  xc9; xb8; x0a; xc9; xb9; x0a; xc9; xba;
  x0a; xc9; xbb; x0a; xc9; xbc; x0a; xc9;
  xbd; x0a; xc9; xbe; x0a; xc9; xbf; x0a;
  xc9; xc0; x0a; xc9; xc1; x0a; xc9; xc2;
  x0a; xc9; xc3; x0a; xc9; xc4; x0a; xc9;
  xc5; x0a; xc9; xc6; x0a; xc9; xc7; x0a;
  xc9; xc8; x0a; xc9; xc9; x0a; xc9; xca;
  x0a; xc9; xcb; x0a; xc9; xcc; x0a; xc9;
  xcd; x0a; xc9; xce; x0a; xc9; xcf; x0a;
  xc9; xd0; x0a; xc9; xd1; x0a; xc9; xd2;
  x0a; xc9; xd3; x0a; xc9; xd4; x0a; xc9;
  xd5; x0a; xc9; xd6; x0a; xc9; xd7; x0a;
  xc9; xd8; x0a; xc9; xd9; x0a; xc9; xda;
  x0a; xc9; xdb; x0a; xc9; xdc; x0a; xc9;
  xdd; x0a; xc9; xde; x0a; xc9; xdf; x0a;
  xc9; xe0; x0a; xc9; xe1; x0a; xc9; xe2
].
(* tests/test_data/whatwg/big5_whatwg_test_decode_in.txt, entries 30976..31231 *)
Definition big5_decode_in_121 : list byte := [
  x0a; xc9; xe3; x0a; xc9; xe4; x0a; xc9;
  xe5; x0a; xc9; xe6; x0a; xc9; xe7; x0a;
  xc9; xe8; x0a; xc9; xe9; x0a; xc9; xea;
  x0a; xc9; xeb; x0a; xc9; xec; x0a; xc9;
  xed; x0a; xc9; xee; x0a; xc9; xef; x0a;
  xc9; xf0; x0a; xc9; xf1; x0a; xc9; xf2;
  x0a; xc9; xf3; x0a; xc9; xf4; x0a; xc9;
  xf5; x0a; xc9; xf6; x0a; xc9; xf7; x0a;
  xc9; xf8; x0a; xc9; xf9; x0a; xc9; xfa;
  x0a; xc9; xfb; x0a; xc9; xfc; x0a; xc9;
  xfd; x0a; xc9; xfe; x0a; xca; x40; x0a;
  xca; x41; x0a; xca; x42; x0a; xca; x43;
  x0a; xca; x44; x0a; xca; x45; x0a; xca;
  x46; x0a; xca; x47; x0a; xca; x48; x0a;
  xca; x49; x0a; xca; x4a; x0a; xca; x4b;
  x0a; xca; x4c; x0a; xca; x4d; x0a; xca;
  x4e; x0a; xca; x4f; x0a; xca; x50; x0a;
  xca; x51; x0a; xca; x52; x0a; xca; x53;
  x0a; xca; x54; x0a; xca; x55; x0a; xca;
  x56; x0a; xca; x57; x0a; xca; x58; x0a;
  xca; x59; x0a; xca; x5a; x0a; xca; x5b;
  x0a; xca; x5c; x0a; xca; x5d; x0a; xca;
  x5e; x0a; xca; x5f; x0a; xca; x60; x0a;
  xca; x61; x0a; xca; x62; x0a; xca; x63;
  x0a; xca; x64; x0a; xca; x65; x0a; xca;
  x66; x0a; xca; x67; x0a; xca; x68; x0a;
  xca; x69; x0a; xca; x6a; x0a; xca; x6b;
  x0a; xca; x6c; x0a; xca; x6d; x0a; xca;
  x6e; x0a; xca; x6f; x0a; xca; x70; x0a;
  xca; x71; x0a; xca; x72; x0a; xca; x73;
  x0a; xca; x74; x0a; xca; x75; x0a; xca;
  x76; x0a; xca; x77; x0a; xca; x78; x0a
].
(* tests/test_data/whatwg/big5_whatwg_test_decode_in.txt, entries 31232..31487 *)
Definition big5_decode_in_122 : list byte := [
  xca; x79; x0a; xca; x7a; x0a; xca; x7b;
  x0a; xca; x7c; x0a; xca; x7d; x0a; xca;
  x7e; x0a; xca; xa1; x0a; xca; xa2; x0a;
  xca; xa3; x0a; xca; xa4; x0a; xca; xa5;
  x0a; xca; xa6; x0a; xca; xa7; x0a; xca;
  xa8; x0a; xca; xa9; x0a; xca; xaa; x0a;
  xca; xab; x0a; xca; xac; x0a; xca; xad;
  x0a; xca; xae; x0a; xca; xaf; x0a; xca;
  xb0; x0a; xca; xb1; x0a; xca; xb2; x0a;
  xca; xb3; x0a; xca; xb4; x0a; xca; xb5;
  x0a; xca; xb6; x0a; xca; xb7; x0a; xca;
  xb8; x0a; xca; xb9; x0a; xca; xba; x0a;
  xca; xbb; x0a; xca; xbc; x0a; xca; xbd;
  x0a; xca; xbe; x0a; xca; xbf; x0a; xca;
  xc0; x0a; xca; xc1; x0a; xca; xc2; x0a;
  xca; xc3; x0a; xca; xc4; x0a; xca; xc5;
  x0a; xca; xc6; x0a; xca; xc7; x0a; xca;
  xc8; x0a; xca; xc9; x0a; xca; xca; x0a;
  xca; xcb; x0a; xca; xcc; x0a; xca; xcd;
  x0a; xca; xce; x0a; xca; xcf; x0a; xca;
  xd0; x0a; xca; xd1; x0a; xca; xd2; x0a;
  xca; xd3; x0a; xca; xd4; x0a; xca; xd5;
  x0a; xca; xd6; x0a; xca; xd7; x0a; xca;
  xd8; x0a; xca; xd9; x0a; xca; xda; x0a;
  xca; xdb; x0a; xca; xdc; x0a; xca; xdd;
  x0a; xca; xde; x0a; xca; xdf; x0a; xca;
  xe0; x0a; xca; xe1; x0a; xca; xe2; x0a;
  xca; xe3; x0a; xca; xe4; x0a; xca; xe5;
  x0a; xca; xe6; x0a; xca; xe7; x0a; xca;
  xe8; x0a; xca; xe9; x0a; xca; xea; x0a;
  xca; xeb; x0a; xca; xec; x0a; xca; xed;
  x0a; xca; xee; x0a; xca; xef; x0a; xca
].
(* tests/test_data/whatwg/big5_whatwg_test_decode_in.txt, entries 31488..31743 *)
Definition big5_decode_in_123 : list byte := [
  xf0; x0a; xca; xf1; x0a; xca; xf2; x0a;
  xca; xf3; x0a; xca; xf4; x0a; xca; xf5;
  x0a; xca; xf6; x0a; xca; xf7; x0a; xca;
  xf8; x0a; xca; xf9; x0a; xca; xfa; x0a;
  xca; xfb; x0a; xca; xfc; x0a; xca; xfd;
  x0a; xca; xfe; x0a; xcb; x40; x0a; xcb;
  x41; x0a; xcb; x42; x0a; xcb; x43; x0a;
  xcb; x44; x0a; xcb; x45; x0a; xcb; x46;
  x0a; xcb; x47; x0a; xcb; x48; x0a; xcb;
  x49; x0a; xcb; x4a; x0a; xcb; x4b; x0a;
  xcb; x4c; x0a; xcb; x4d; x0a; xcb; x4e;
  x0a; xcb; x4f; x0a; xcb; x50; x0a; xcb;
  x51; x0a; xcb; x52; x0a; xcb; x53; x0a;
  xcb; x54; x0a; xcb; x55; x0a; xcb; x56;
  x0a; xcb; x57; x0a; xcb; x58; x0a; xcb;
  x59; x0a; xcb; x5a; x0a; xcb; x5b; x0a;
  xcb; x5c; x0a; xcb; x5d; x0a; xcb; x5e;
  x0a; xcb; x5f; x0a; xcb; x60; x0a; xcb;
  x61; x0a; xcb; x62; x0a; xcb; x63; x0a;
  xcb; x64; x0a; xcb; x65; x0a; xcb; x66;
  x0a; xcb; x67; x0a; xcb; x68; x0a; xcb;
  x69; x0a; xcb; x6a; x0a; xcb; x6b; x0a;
  xcb; x6c; x0a; xcb; x6d; x0a; xcb; x6e;
  x0a; xcb; x6f; x0a; xcb; x70; x0a; xcb;
  x71; x0a; xcb; x72; x0a; xcb; x73; x0a;
  xcb; x74; x0a; xcb; x75; x0a; xcb; x76;
  x0a; xcb; x77; x0a; xcb; x78; x0a; xcb;
  x79; x0a; xcb; x7a; x0a; xcb; x7b; x0a;
  xcb; x7c; x0a; xcb; x7d; x0a; xcb; x7e;
  x0a; xcb; xa1; x0a; xcb; xa2; x0a; xcb;
  xa3; x0a; xcb; xa4; x0a; xcb; xa5; x0a;
  xcb; xa6; x0a; xcb; xa7; x0a; xcb; xa8
].
(* tests/test_data/whatwg/big5_whatwg_test_decode_in.txt, entries 31744..31999 *)
Definition big5_decode_in_124 : list byte := [
  x0a; xcb; xa9; x0a; xcb; xaa; x0a; xcb;
  xab; x0a; xcb; xac; x0a; xcb; xad; x0a;
  xcb; xae; x0a; xcb; xaf; x0a; xcb; xb0;
  x0a; xcb; xb1; x0a; xcb; xb2; x0a; xcb;
  xb3; x0a; xcb; xb4; x0a; xcb; xb5; x0a;
  xcb; xb6; x0a; xcb; xb7; x0a; xcb; xb8;
  x0a; xcb; xb9; x0a; xcb; xba; x0a; xcb;
  xbb; x0a; xcb; xbc; x0a; xcb; xbd; x0a;
  xcb; xbe; x0a; xcb; xbf; x0a; xcb; xc0;
  x0a; xcb; xc1; x0a; xcb; xc2; x0a; xcb;
  xc3; x0a; xcb; xc4; x0a; xcb; xc5; x0a;
  xcb; xc6; x0a; xcb; xc7; x0a; xcb; xc8;
  x0a; xcb; xc9; x0a; xcb; xca; x0a; xcb;
  xcb; x0a; xcb; xcc; x0a; xcb; xcd; x0a;
  xcb; xce; x0a; xcb; xcf; x0a; xcb; xd0;
  x0a; xcb; xd1; x0a; xcb; xd2; x0a; xcb;
  xd3; x0a; xcb; xd4; x0a; xcb; xd5; x0a;
  xcb; xd6; x0a; xcb; xd7; x0a; xcb; xd8;
  x0a; xcb; xd9; x0a; xcb; xda; x0a; xcb;
  xdb; x0a; xcb; xdc; x0a; xcb; xdd; x0a;
  xcb; xde; x0a; xcb; xdf; x0a; xcb; xe0;
  x0a; xcb; xe1; x0a; xcb; xe2; x0a; xcb;
  xe3; x0a; xcb; xe4; x0a; xcb; xe5; x0a;
  xcb; xe6; x0a; xcb; xe7; x0a; xcb; xe8;
  x0a; xcb; xe9; x0a; xcb; xea; x0a; xcb;
  xeb; x0a; xcb; xec; x0a; xcb; xed; x0a;
  xcb; xee; x0a; xcb; xef; x0a; xcb; xf0;
  x0a; xcb; xf1; x0a; xcb; xf2; x0a; xcb;
  xf3; x0a; xcb; xf4; x0a; xcb; xf5; x0a;
  xcb; xf6; x0a; xcb; xf7; x0a; xcb; xf8;
  x0a; xcb; xf9; x0a; xcb; xfa; x0a; xcb;
  xfb; x0a; xcb; xfc; x0a; xcb; xfd; x0a
].
(* tests/test_data/whatwg/big5_whatwg_test_decode_in.txt, entries 32000..32255 *)
Definition big5_decode_in_125 : list byte := [
  xcb; xfe; x0a; xcc; x40; x0a; xcc; x41;
  x0a; xcc; x42; x0a; xcc; x43; x0a; xcc;
  x44; x0a; xcc; x45; x0a; xcc; x46; x0a;
  xcc; x47; x0a; xcc; x48; x0a; xcc; x49;
  x0a; xcc; x4a; x0a; xcc; x4b; x0a; xcc;
  x4c; x0a; xcc; x4d; x0a; xcc; x4e; x0a;
  xcc; x4f; x0a; xcc; x50; x0a; xcc; x51;
  x0a; xcc; x52; x0a; xcc; x53; x0a; xcc;
  x54; x0a; xcc; x55; x0a; xcc; x56; x0a;
  xcc; x57; x0a; xcc; x58; x0a; xcc; x59;
  x0a; xcc; x5a; x0a; xcc; x5b; x0a; xcc;
  x5c; x0a; xcc; x5d; x0a; xcc; x5e; x0a;
  xcc; x5f; x0a; xcc; x60; x0a; xcc; x61;
  x0a; xcc; x62; x0a; xcc; x63; x0a; xcc;
  x64; x0a; xcc; x65; x0a; xcc; x66; x0a;
  xcc; x67; x0a; xcc; x68; x0a; xcc; x69;
  x0a; xcc; x6a; x0a; xcc; x6b; x0a; xcc;
  x6c; x0a; xcc; x6d; x0a; xcc; x6e; x0a;
  xcc; x6f; x0a; xcc; x70; x0a; xcc; x71;
  x0a; xcc; x72; x0a; xcc; x73; x0a; xcc;
  x74; x0a; xcc; x75; x0a; xcc; x76; x0a;
  xcc; x77; x0a; xcc; x78; x0a; xcc; x79;
  x0a; xcc; x7a; x0a; xcc; x7b; x0a; xcc;
  x7c; x0a; xcc; x7d; x0a; xcc; x7e; x0a;
  xcc; xa1; x0a; xcc; xa2; x0a; xcc; xa3;
  x0a; xcc; xa4; x0a; xcc; xa5; x0a; xcc;
  xa6; x0a; xcc; xa7; x0a; xcc; xa8; x0a;
  xcc; xa9; x0a; xcc; xaa; x0a; xcc; xab;
  x0a; xcc; xac; x0a; xcc; xad; x0a; xcc;
  xae; x0a; xcc; xaf; x0a; xcc; xb0; x0a;
  xcc; xb1; x0a; xcc; xb2; x0a; xcc; xb3;
  x0a; xcc; xb4; x0a; xcc; xb5; x0a; xcc
].
(* tests/test_data/whatwg/big5_whatwg_test_decode_in.txt, entries 32256..32511 *)
Definition big5_decode_in_126 : list byte := [
  xb6; x0a; xcc; xb7; x0a; xcc; xb8; x0a;
  xcc; xb9; x0a; xcc; xba; x0a; xcc; xbb;
  x0a; xcc; xbc; x0a; xcc; xbd; x0a; xcc;
  xbe; x0a; xcc; xbf; x0a; xcc; xc0; x0a;
  xcc; xc1; x0a; xcc; xc2; x0a; xcc; xc3;
  x0a; xcc; xc4; x0a; xcc; xc5; x0a; xcc;
  xc6; x0a; xcc; xc7; x0a; xcc; xc8; x0a;
  xcc; xc9; x0a; xcc; xca; x0a; xcc; xcb;
  x0a; xcc; xcc; x0a; xcc; xcd; x0a; xcc;
  xce; x0a; xcc; xcf; x0a; xcc; xd0; x0a;
  xcc; xd1; x0a; xcc; xd2; x0a; xcc; xd3;
  x0a; xcc; xd4; x0a; xcc; xd5; x0a; xcc;
  xd6; x0a; xcc; xd7; x0a; xcc; xd8; x0a;
  xcc; xd9; x0a; xcc; xda; x0a; xcc; xdb;
  x0a; xcc; xdc; x0a; xcc; xdd; x0a; xcc;
  xde; x0a; xcc; xdf; x0a; xcc; xe0; x0a;
  xcc; xe1; x0a; xcc; xe2; x0a; xcc; xe3;
  x0a; xcc; xe4; x0a; xcc; xe5; x0a; xcc;
  xe6; x0a; xcc; xe7; x0a; xcc; xe8; x0a;
  xcc; xe9; x0a; xcc; xea; x0a; xcc; xeb;
  x0a; xcc; xec; x0a; xcc; xed; x0a; xcc;
  xee; x0a; xcc; xef; x0a; xcc; xf0; x0a;
  xcc; xf1; x0a; xcc; xf2; x0a; xcc; xf3;
  x0a; xcc; xf4; x0a; xcc; xf5; x0a; xcc;
  xf6; x0a; xcc; xf7; x0a; xcc; xf8; x0a;
  xcc; xf9; x0a; xcc; xfa; x0a; xcc; xfb;
  x0a; xcc; xfc; x0a; xcc; xfd; x0a; xcc;
  xfe; x0a; xcd; x40; x0a; xcd; x41; x0a;
  xcd; x42; x0a; xcd; x43; x0a; xcd; x44;
  x0a; xcd; x45; x0a; xcd; x46; x0a; xcd;
  x47; x0a; xcd; x48; x0a; xcd; x49; x0a;
  xcd; x4a; x0a; xcd; x4b; x0a; xcd; x4c
].
(* tests/test_data/whatwg/big5_whatwg_test_decode_in.txt, entries 32512..32767 *)
Definition big5_decode_in_127 : list byte := [
  x0a; xcd; x4d; x0a; xcd; x4e; x0a; xcd;
  x4f; x0a; xcd; x50; x0a; xcd; x51; x0a;
  xcd; x52; x0a; xcd; x53; x0a; xcd; x54;
  x0a; xcd; x55; x0a; xcd; x56; x0a; xcd;
  x57; x0a; xcd; x58; x0a; xcd; x59; x0a;
  xcd; x5a; x0a; xcd; x5b; x0a; xcd; x5c;
  x0a; xcd; x5d; x0a; xcd; x5e; x0a; xcd;
  x5f; x0a; xcd; x60; x0a; xcd; x61; x0a;
  xcd; x62; x0a; xcd; x63; x0a; xcd; x64;
  x0a; xcd; x65; x0a; xcd; x66; x0a; xcd;
  x67; x0a; xcd; x68; x0a; xcd; x69; x0a;
  xcd; x6a; x0a; xcd; x6b; x0a; xcd; x6c;
  x0a; xcd; x6d; x0a; xcd; x6e; x0a; xcd;
  x6f; x0a; xcd; x70; x0a; xcd; x71; x0a;
  xcd; x72; x0a; xcd; x73; x0a; xcd; x74;
  x0a; xcd; x75; x0a; xcd; x76; x0a; xcd;
  x77; x0a; xcd; x78; x0a; xcd; x79; x0a;
  xcd; x7a; x0a; xcd; x7b; x0a; xcd; x7c;
  x0a; xcd; x7d; x0a; xcd; x7e; x0a; xcd;
  xa1; x0a; xcd; xa2; x0a; xcd; xa3; x0a;
  xcd; xa4; x0a; xcd; xa5; x0a; xcd; xa6;
  x0a; xcd; xa7; x0a; xcd; xa8; x0a; xcd;
  xa9; x0a; xcd; xaa; x0a; xcd; xab; x0a;
  xcd; xac; x0a; xcd; xad; x0a; xcd; xae;
  x0a; xcd; xaf; x0a; xcd; xb0; x0a; xcd;
  xb1; x0a; xcd; xb2; x0a; xcd; xb3; x0a;
  xcd; xb4; x0a; xcd; xb5; x0a; xcd; xb6;
  x0a; xcd; xb7; x0a; xcd; xb8; x0a; xcd;
  xb9; x0a; xcd; xba; x0a; xcd; xbb; x0a;
  xcd; xbc; x0a; xcd; xbd; x0a; xcd; xbe;
  x0a; xcd; xbf; x0a; xcd; xc0; x0a; xcd;
  xc1; x0a; xcd; xc2; x0a; xcd; xc3; x0a
].
(* tests/test_data/whatwg/big5_whatwg_test_decode_in.txt, entries 32768..33023 *)
Definition big5_decode_in_128 : list byte := [
  xcd; xc4; x0a; xcd; xc5; x0a; xcd; xc6;
  x0a; xcd; xc7; x0a; xcd; xc8; x0a; xcd;
  xc9; x0a; xcd; xca; x0a; xcd; xcb; x0a;
  xcd; xcc; x0a; xcd; xcd; x0a; xcd; xce;
  x0a; xcd; xcf; x0a; xcd; xd0; x0a; xcd;
  xd1; x0a; xcd; xd2; x0a; xcd; xd3; x0a;
  xcd; xd4; x0a; xcd; xd5; x0a; xcd; xd6;
  x0a; xcd; xd7; x0a; xcd; xd8; x0a; xcd;
  xd9; x0a; xcd; xda; x0a; xcd; xdb; x0a;
  xcd; xdc; x0a; xcd; xdd; x0a; xcd; xde;
  x0a; xcd; xdf; x0a; xcd; xe0; x0a; xcd;
  xe1; x0a; xcd; xe2; x0a; xcd; xe3; x0a;
  xcd; xe4; x0a; xcd; xe5; x0a; xcd; xe6;
  x0a; xcd; xe7; x0a; xcd; xe8; x0a; xcd;
  xe9; x0a; xcd; xea; x0a; xcd; xeb; x0a;
  xcd; xec; x0a; xcd; xed; x0a; xcd; xee;
  x0a; xcd; xef; x0a; xcd; xf0; x0a; xcd;
  xf1; x0a; xcd; xf2; x0a; xcd; xf3; x0a;
  xcd; xf4; x0a; xcd; xf5; x0a; xcd; xf6;
  x0a; xcd; xf7; x0a; xcd; xf8; x0a; xcd;
  xf9; x0a; xcd; xfa; x0a; xcd; xfb; x0a;
  xcd; xfc; x0a; xcd; xfd; x0a; xcd; xfe;
  x0a; xce; x40; x0a; xce; x41; x0a; xce;
  x42; x0a; xce; x43; x0a; xce; x44; x0a;
  xce; x45; x0a; xce; x46; x0a; xce; x47;
  x0a; xce; x48; x0a; xce; x49; x0a; xce;
  x4a; x0a; xce; x4b; x0a; xce; x4c; x0a;
  xce; x4d; x0a; xce; x4e; x0a; xce; x4f;
  x0a; xce; x50; x0a; xce; x51; x0a; xce;
  x52; x0a; xce; x53; x0a; xce; x54; x0a;
  xce; x55; x0a; xce; x56; x0a; xce; x57;
  x0a; xce; x58; x0a; xce; x59; x0a; xce
].
(* tests/test_data/whatwg/big5_whatwg_test_decode_in.txt, entries 33024..33279 *)
Definition big5_decode_in_129 : list byte := [
  x5a; x0a; xce; x5b; x0a; xce; x5c; x0a;
  xce; x5d; x0a; xce; x5e; x0a; xce; x5f;
  x0a; xce; x60; x0a; xce; x61; x0a; xce;
  x62; x0a; xce; x63; x0a; xce; x64; x0a;
  xce; x65; x0a; xce; x66; x0a; xce; x67;
  x0a; xce; x68; x0a; xce; x69; x0a; xce;
  x6a; x0a; xce; x6b; x0a; xce; x6c; x0a;
  xce; x6d; x0a; xce; x6e; x0a; xce; x6f;
  x0a; xce; x70; x0a; xce; x71; x0a; xce;
  x72; x0a; xce; x73; x0a; xce; x74; x0a;
  xce; x75; x0a; xce; x76; x0a; xce; x77;
  x0a; xce; x78; x0a; xce; x79; x0a; xce;
  x7a; x0a; xce; x7b; x0a; xce; x7c; x0a;
  xce; x7d; x0a; xce; x7e; x0a; xce; xa1;
  x0a; xce; xa2; x0a; xce; xa3; x0a; xce;
  xa4; x0a; xce; xa5; x0a; xce; xa6; x0a;
  xce; xa7; x0a; xce; xa8; x0a; xce; xa9;
  x0a; xce; xaa; x0a; xce; xab; x0a; xce;
  xac; x0a; xce; xad; x0a; xce; xae; x0a;
  xce; xaf; x0a; xce; xb0; x0a; xce; xb1;
  x0a; xce; xb2; x0a; xce; xb3; x0a; xce;
  xb4; x0a; xce; xb5; x0a; xce; xb6; x0a;
  xce; xb7; x0a; xce; xb8; x0a; xce; xb9;
  x0a; xce; xba; x0a; xce; xbb; x0a; xce;
  xbc; x0a; xce; xbd; x0a; xce; xbe; x0a;
  xce; xbf; x0a; xce; xc0; x0a; xce; xc1;
  x0a; xce; xc2; x0a; xce; xc3; x0a; xce;
  xc4; x0a; xce; xc5; x0a; xce; xc6; x0a;
  xce; xc7; x0a; xce; xc8; x0a; xce; xc9;
  x0a; xce; xca; x0a; xce; xcb; x0a; xce;
  xcc; x0a; xce; xcd; x0a; xce; xce; x0a;
  xce; xcf; x0a; xce; xd0; x0a; xce; xd1
].
(* tests/test_data/whatwg/big5_whatwg_test_decode_in.txt, entries 33280..33535 *)
Definition big5_decode_in_130 : list byte := [
  x0a; xce; xd2; x0a; xce; xd3; x0a; xce;
  xd4; x0a; xce; xd5; x0a; xce; xd6; x0a;
  xce; xd7; x0a; xce; xd8; x0a; xce; xd9;
  x0a; xce; xda; x0a; xce; xdb; x0a; xce;
  xdc; x0a; xce; xdd; x0a; xce; xde; x0a;
  xce; xdf; x0a; xce; xe0; x0a; xce; xe1;
  x0a; xce; xe2; x0a; xce; xe3; x0a; xce;
  xe4; x0a; xce; xe5; x0a; xce; xe6; x0a;
  xce; xe7; x0a; xce; xe8; x0a; xce; xe9;
  x0a; xce; xea; x0a; xce; xeb; x0a; xce;
  xec; x0a; xce; xed; x0a; xce; xee; x0a;
  xce; xef; x0a; xce; xf0; x0a; xce; xf1;
  x0a; xce; xf2; x0a; xce; xf3; x0a; xce;
  xf4; x0a; xce; xf5; x0a; xce; xf6; x0a;
  xce; xf7; x0a; xce; xf8; x0a; xce; xf9;
  x0a; xce; xfa; x0a; xce; xfb; x0a; xce;
  xfc; x0a; xce; xfd; x0a; xce; xfe; x0a;
  xcf; x40; x0a; xcf; x41; x0a; xcf; x42;
  x0a; xcf; x43; x0a; xcf; x44; x0a; xcf;
  x45; x0a; xcf; x46; x0a; xcf; x47; x0a;
  xcf; x48; x0a; xcf; x49; x0a; xcf; x4a;
  x0a; xcf; x4b; x0a; xcf; x4c; x0a; xcf;
  x4d; x0a; xcf; x4e; x0a; xcf; x4f; x0a;
  xcf; x50; x0a; xcf; x51; x0a; xcf; x52;
  x0a; xcf; x53; x0a; xcf; x54; x0a; xcf;
  x55; x0a; xcf; x56; x0a; xcf; x57; x0a;
  xcf; x58; x0a; xcf; x59; x0a; xcf; x5a;
  x0a; xcf; x5b; x0a; xcf; x5c; x0a; xcf;
  x5d; x0a; xcf; x5e; x0a; xcf; x5f; x0a;
  xcf; x60; x0a; xcf; x61; x0a; xcf; x62;
  x0a; xcf; x63; x0a; xcf; x64; x0a; xcf;
  x65; x0a; xcf; x66; x0a; xcf; x67; x0a
].
(* tests/test_data/whatwg/big5_whatwg_test_decode_in.txt, entries 33536..33791 *)
Definition big5_decode_in_131 : list byte := [
  xcf; x68; x0a; xcf; x69; x0a; xcf; x6a;
  x0a; xcf; x6b; x0a; xcf; x6c; x0a; xcf;
  x6d; x0a; xcf; x6e; x0a; xcf; x6f; x0a;
  xcf; x70; x0a; xcf; x71; x0a; xcf; x72;
  x0a; xcf; x73; x0a; xcf; x74; x0a; xcf;
  x75; x0a; xcf; x76; x0a; xcf; x77; x0a;
  xcf; x78; x0a; xcf; x79; x0a; xcf; x7a;
  x0a; xcf; x7b; x0a; xcf; x7c; x0a; xcf;
  x7d; x0a; xcf; x7e; x0a; xcf; xa1; x0a;
  xcf; xa2; x0a; xcf; xa3; x0a; xcf; xa4;
  x0a; xcf; xa5; x0a; xcf; xa6; x0a; xcf;
  xa7; x0a; xcf; xa8; x0a; xcf; xa9; x0a;
  xcf; xaa; x0a; xcf; xab; x0a; xcf; xac;
  x0a; xcf; xad; x0a; xcf; xae; x0a; xcf;
  xaf; x0a; xcf; xb0; x0a; xcf; xb1; x0a;
  xcf; xb2; x0a; xcf; xb3; x0a; xcf; xb4;
  x0a; xcf; xb5; x0a; xcf; xb6; x0a; xcf;
  xb7; x0a; xcf; xb8; x0a; xcf; xb9; x0a;
  xcf; xba; x0a; xcf; xbb; x0a; xcf; xbc;
  x0a; xcf; xbd; x0a; xcf; xbe; x0a; xcf;
  xbf; x0a; xcf; xc0; x0a; xcf; xc1; x0a;
  xcf; xc2; x0a; xcf; xc3; x0a; xcf; xc4;
  x0a; xcf; xc5; x0a; xcf; xc6; x0a; xcf;
  xc7; x0a; xcf; xc8; x0a; xcf; xc9; x0a;
  xcf; xca; x0a; xcf; xcb; x0a; xcf; xcc;
  x0a; xcf; xcd; x0a; xcf; xce; x0a; xcf;
  xcf; x0a; xcf; xd0; x0a; xcf; xd1; x0a;
  xcf; xd2; x0a; xcf; xd3; x0a; xcf; xd4;
  x0a; xcf; xd5; x0a; xcf; xd6; x0a; xcf;
  xd7; x0a; xcf; xd8; x0a; xcf; xd9; x0a;
  xcf; xda; x0a; xcf; xdb; x0a; xcf; xdc;
  x0a; xcf; xdd; x0a; xcf; xde; x0a; xcf
].
(* tests/test_data/whatwg/big5_whatwg_test_decode_in.txt, entries 33792..34047 *)
Definition big5_decode_in_132 : list byte := [
  xdf; x0a; xcf; xe0; x0a; xcf; xe1; x0a;
  xcf; xe2; x0a; xcf; xe3; x0a; xcf; xe4;
  x0a; xcf; xe5; x0a; xcf; xe6; x0a; xcf;
  xe7; x0a; xcf; xe8; x0a; xcf; xe9; x0a;
  xcf; xea; x0a; xcf; xeb; x0a; xcf; xec;
  x0a; xcf; xed; x0a; xcf; xee; x0a; xcf;
  xef; x0a; xcf; xf0; x0a; xcf; xf1; x0a;
  xcf; xf2; x0a; xcf; xf3; x0a; xcf; xf4;
  x0a; xcf; xf5; x0a; xcf; xf6; x0a; xcf;
  xf7; x0a; xcf; xf8; x0a; xcf; xf9; x0a;
  xcf; xfa; x0a; xcf; xfb; x0a; xcf; xfc;
  x0a; xcf; xfd; x0a; xcf; xfe; x0a; xd0;
  x40; x0a; xd0; x41; x0a; xd0; x42; x0a;
  xd0; x43; x0a; xd0; x44; x0a; xd0; x45;
  x0a; xd0; x46; x0a; xd0; x47; x0a; xd0;
  x48; x0a; xd0; x49; x0a; xd0; x4a; x0a;
  xd0; x4b; x0a; xd0; x4c; x0a; xd0; x4d;
  x0a; xd0; x4e; x0a; xd0; x4f; x0a; xd0;
  x50; x0a; xd0; x51; x0a; xd0; x52; x0a;
  xd0; x53; x0a; xd0; x54; x0a; xd0; x55;
  x0a; xd0; x56; x0a; xd0; x57; x0a; xd0;
  x58; x0a; xd0; x59; x0a; xd0; x5a; x0a;
  xd0; x5b; x0a; xd0; x5c; x0a; xd0; x5d;
  x0a; xd0; x5e; x0a; xd0; x5f; x0a; xd0;
  x60; x0a; xd0; x61; x0a; xd0; x62; x0a;
  xd0; x63; x0a; xd0; x64; x0a; xd0; x65;
  x0a; xd0; x66; x0a; xd0; x67; x0a; xd0;
  x68; x0a; xd0; x69; x0a; xd0; x6a; x0a;
  xd0; x6b; x0a; xd0; x6c; x0a; xd0; x6d;
  x0a; xd0; x6e; x0a; xd0; x6f; x0a; xd0;
  x70; x0a; xd0; x71; x0a; xd0; x72; x0a;
  xd0; x73; x0a; xd0; x74; x0a; xd0; x75
].
(* tests/test_data/whatwg/big5_whatwg_test_decode_in.txt, entries 34048..34303 *)
Definition big5_decode_in_133 : list byte := [
  x0a; xd0; x76; x0a; xd0; x77; x0a; xd0;
  x78; x0a; xd0; x79; x0a; xd0; x7a; x0a;
  xd0; x7b; x0a; xd0; x7c; x0a; xd0; x7d;
  x0a; xd0; x7e; x0a; xd0; xa1; x0a; xd0;
  xa2; x0a; xd0; xa3; x0a; xd0; xa4; x0a;
  xd0; xa5; x0a; xd0; xa6; x0a; xd0; xa7;
  x0a; xd0; xa8; x0a; xd0; xa9; x0a; xd0;
  xaa; x0a; xd0; xab; x0a; xd0; xac; x0a;
  xd0; xad; x0a; xd0; xae; x0a; xd0; xaf;
  x0a; xd0; xb0; x0a; xd0; xb1; x0a; xd0;
  xb2; x0a; xd0; xb3; x0a; xd0; xb4; x0a;
  xd0; xb5; x0a; xd0; xb6; x0a; xd0; xb7;
  x0a; xd0; xb8; x0a; xd0; xb9; x0a; xd0;
  xba; x0a; xd0; xbb; x0a; xd0; xbc; x0a;
  xd0; xbd; x0a; xd0; xbe; x0a; xd0; xbf;
  x0a; xd0; xc0; x0a; xd0; xc1; x0a; xd0;
  xc2; x0a; xd0; xc3; x0a; xd0; xc4; x0a;
  xd0; xc5; x0a; xd0; xc6; x0a; xd0; xc7;
  x0a; xd0; xc8; x0a; xd0; xc9; x0a; xd0;
  xca; x0a; xd0; xcb; x0a; xd0; xcc; x0a;
  xd0; xcd; x0a; xd0; xce; x0a; xd0; xcf;
  x0a; xd0; xd0; x0a; xd0; xd1; x0a; xd0;
  xd2; x0a; xd0; xd3; x0a; xd0; xd4; x0a;
  xd0; xd5; x0a; xd0; xd6; x0a; xd0; xd7;
  x0a; xd0; xd8; x0a; xd0; xd9; x0a; xd0;
  xda; x0a; xd0; xdb; x0a; xd0; xdc; x0a;
  xd0; xdd; x0a; xd0; xde; x0a; xd0; xdf;
  x0a; xd0; xe0; x0a; xd0; xe1; x0a; xd0;
  xe2; x0a; xd0; xe3; x0a; xd0; xe4; x0a;
  xd0; xe5; x0a; xd0; xe6; x0a; xd0; xe7;
  x0a; xd0; xe8; x0a; xd0; xe9; x0a; xd0;
  xea; x0a; xd0; xeb; x0a; xd0; xec; x0a
].
(* tests/test_data/whatwg/big5_whatwg_test_decode_in.txt, entries 34304..34559 *)
Definition big5_decode_in_134 : list byte := [
  xd0; xed; x0a; xd0; xee; x0a; xd0; xef;
  x0a; xd0; xf0; x0a; xd0; xf1; x0a; xd0;
  xf2; x0a; xd0; xf3; x0a; xd0; xf4; x0a;
  xd0; xf5; x0a; xd0; xf6; x0a; xd0; xf7;
  x0a; xd0; xf8; x0a; xd0; xf9; x0a; xd0;
  xfa; x0a; xd0; xfb; x0a; xd0; xfc; x0a;
  xd0; xfd; x0a; xd0; xfe; x0a; xd1; x40;
  x0a; xd1; x41; x0a; xd1; x42; x0a; xd1;
  x43; x0a; xd1; x44; x0a; xd1; x45; x0a;
  xd1; x46; x0a; xd1; x47; x0a; xd1; x48;
  x0a; xd1; x49; x0a; xd1; x4a; x0a; xd1;
  x4b; x0a; xd1; x4c; x0a; xd1; x4d; x0a;
  xd1; x4e; x0a; xd1; x4f; x0a; xd1; x50;
  x0a; xd1; x51; x0a; xd1; x52; x0a; xd1;
  x53; x0a; xd1; x54; x0a; xd1; x55; x0a;
  xd1; x56; x0a; xd1; x57; x0a; xd1; x58;
  x0a; xd1; x59; x0a; xd1; x5a; x0a; xd1;
  x5b; x0a; xd1; x5c; x0a; xd1; x5d; x0a;
  xd1; x5e; x0a; xd1; x5f; x0a; xd1; x60;
  x0a; xd1; x61; x0a; xd1; x62; x0a; xd1;
  x63; x0a; xd1; x64; x0a; xd1; x65; x0a;
  xd1; x66; x0a; xd1; x67; x0a; xd1; x68;
  x0a; xd1; x69; x0a; xd1; x6a; x0a; xd1;
  x6b; x0a; xd1; x6c; x0a; xd1; x6d; x0a;
  xd1; x6e; x0a; xd1; x6f; x0a; xd1; x70;
  x0a; xd1; x71; x0a; xd1; x72; x0a; xd1;
  x73; x0a; xd1; x74; x0a; xd1; x75; x0a;
  xd1; x76; x0a; xd1; x77; x0a; xd1; x78;
  x0a; xd1; x79; x0a; xd1; x7a; x0a; xd1;
  x7b; x0a; xd1; x7c; x0a; xd1; x7d; x0a;
  xd1; x7e; x0a; xd1; xa1; x0a; xd1; xa2;
  x0a; xd1; xa3; x0a; xd1; xa4; x0a; xd1
].
(* tests/test_data/whatwg/big5_whatwg_test_decode_in.txt, entries 34560..34815 *)
Definition big5_decode_in_135 : list byte := [
  xa5; x0a; xd1; xa6; x0a; xd1; xa7; x0a;
  xd1; xa8; x0a; xd1; xa9; x0a; xd1; xaa;
  x0a; xd1; xab; x0a; xd1; xac; x0a; xd1;
  xad; x0a; xd1; xae; x0a; xd1; xaf; x0a;
  xd1; xb0; x0a; xd1; xb1; x0a; xd1; xb2;
  x0a; xd1; xb3; x0a; xd1; xb4; x0a; xd1;
  xb5; x0a; xd1; xb6; x0a; xd1; xb7; x0a;
  xd1; xb8; x0a; xd1; xb9; x0a; xd1; xba;
  x0a; xd1; xbb; x0a; xd1; xbc; x0a; xd1;
  xbd; x0a; xd1; xbe; x0a; xd1; xbf; x0a;
  xd1; xc0; x0a; xd1; xc1; x0a; xd1; xc2;
  x0a; xd1; xc3; x0a; xd1; xc4; x0a; xd1;
  xc5; x0a; xd1; xc6; x0a; xd1; xc7; x0a;
  xd1; xc8; x0a; xd1; xc9; x0a; xd1; xca;
  x0a; xd1; xcb; x0a; xd1; xcc; x0a; xd1;
  xcd; x0a; xd1; xce; x0a; xd1; xcf; x0a;
  xd1; xd0; x0a; xd1; xd1; x0a; xd1; xd2;
  x0a; xd1; xd3; x0a; xd1; xd4; x0a; xd1;
  xd5; x0a; xd1; xd6; x0a; xd1; xd7; x0a;
  xd1; xd8; x0a; xd1; xd9; x0a; xd1; xda;
  x0a; xd1; xdb; x0a; xd1; xdc; x0a; xd1;
  xdd; x0a; xd1; xde; x0a; xd1; xdf; x0a;
  xd1; xe0; x0a; xd1; xe1; x0a; xd1; xe2;
  x0a; xd1; xe3; x0a; xd1; xe4; x0a; xd1;
  xe5; x0a; xd1; xe6; x0a; xd1; xe7; x0a;
  xd1; xe8; x0a; xd1; xe9; x0a; xd1; xea;
  x0a; xd1; xeb; x0a; xd1; xec; x0a; xd1;
  xed; x0a; xd1; xee; x0a; xd1; xef; x0a;
  xd1; xf0; x0a; xd1; xf1; x0a; xd1; xf2;
  x0a; xd1; xf3; x0a; xd1; xf4; x0a; xd1;
  xf5; x0a; xd1; xf6; x0a; xd1; xf7; x0a;
  xd1; xf8; x0a; xd1; xf9; x0a; xd1; xfa
].
(* tests/test_data/whatwg/big5_whatwg_test_decode_in.txt, entries 34816..35071 *)
Definition big5_decode_in_136 : list byte := [
  x0a; xd1; xfb; x0a; xd1; xfc; x0a; xd1;
  xfd; x0a; xd1; xfe; x0a; xd2; x40; x0a;
  xd2; x41; x0a; xd2; x42; x0a; xd2; x43;
  x0a; xd2; x44; x0a; xd2; x45; x0a; xd2;
  x46; x0a; xd2; x47; x0a; xd2; x48; x0a;
  xd2; x49; x0a; xd2; x4a; x0a; xd2; x4b;
  x0a; xd2; x4c; x0a; xd2; x4d; x0a; xd2;
  x4e; x0a; xd2; x4f; x0a; xd2; x50; x0a;
  xd2; x51; x0a; xd2; x52; x0a; xd2; x53;
  x0a; xd2; x54; x0a; xd2; x55; x0a; xd2;
  x56; x0a; xd2; x57; x0a; xd2; x58; x0a;
  xd2; x59; x0a; xd2; x5a; x0a; xd2; x5b;
  x0a; xd2; x5c; x0a; xd2; x5d; x0a; xd2;
  x5e; x0a; xd2; x5f; x0a; xd2; x60; x0a;
  xd2; x61; x0a; xd2; x62; x0a; xd2; x63;
  x0a; xd2; x64; x0a; xd2; x65; x0a; xd2;
  x66; x0a; xd2; x67; x0a; xd2; x68; x0a;
  xd2; x69; x0a; xd2; x6a; x0a; xd2; x6b;
  x0a; xd2; x6c; x0a; xd2; x6d; x0a; xd2;
  x6e; x0a; xd2; x6f; x0a; xd2; x70; x0a;
  xd2; x71; x0a; xd2; x72; x0a; xd2; x73;
  x0a; xd2; x74; x0a; xd2; x75; x0a; xd2;
  x76; x0a; xd2; x77; x0a; xd2; x78; x0a;
  xd2; x79; x0a; xd2; x7a; x0a; xd2; x7b;
  x0a; xd2; x7c; x0a; xd2; x7d; x0a; xd2;
  x7e; x0a; xd2; xa1; x0a; xd2; xa2; x0a;
  xd2; xa3; x0a; xd2; xa4; x0a; xd2; xa5;
  x0a; xd2; xa6; x0a; xd2; xa7; x0a; xd2;
  xa8; x0a; xd2; xa9; x0a; xd2; xaa; x0a;
  xd2; xab; x0a; xd2; xac; x0a; xd2; xad;
  x0a; xd2; xae; x0a; xd2; xaf; x0a; xd2;
  xb0; x0a; xd2; xb1; x0a; xd2; xb2; x0a
].
(* tests/test_data/whatwg/big5_whatwg_test_decode_in.txt, entries 35072..35327 *)
Definition big5_decode_in_137 : list byte := [
  xd2; xb3; x0a; xd2; xb4; x0a; xd2; xb5;
  x0a; xd2; xb6; x0a; xd2; xb7; x0a; xd2;
  xb8; x0a; xd2; xb9; x0a; xd2; xba; x0a;
  xd2; xbb; x0a; xd2; xbc; x0a; xd2; xbd;
  x0a; xd2; xbe; x0a; xd2; xbf; x0a; xd2;
  xc0; x0a; xd2; xc1; x0a; xd2; xc2; x0a;
  xd2; xc3; x0a; xd2; xc4; x0a; xd2; xc5;
  x0a; xd2; xc6; x0a; xd2; xc7; x0a; xd2;
  xc8; x0a; xd2; xc9; x0a; xd2; xca; x0a;
  xd2; xcb; x0a; xd2; xcc; x0a; xd2; xcd;
  x0a; xd2; xce; x0a; xd2; xcf; x0a; xd2;
  xd0; x0a; xd2; xd1; x0a; xd2; xd2; x0a;
  xd2; xd3; x0a; xd2; xd4; x0a; xd2; xd5;
  x0a; xd2; xd6; x0a; xd2; xd7; x0a; xd2;
  xd8; x0a; xd2; xd9; x0a; xd2; xda; x0a;
  xd2; xdb; x0a; xd2; xdc; x0a; xd2; xdd;
  x0a; xd2; xde; x0a; xd2; xdf; x0a; xd2;
  xe0; x0a; xd2; xe1; x0a; xd2; xe2; x0a;
  xd2; xe3; x0a; xd2; xe4; x0a; xd2; xe5;
  x0a; xd2; xe6; x0a; xd2; xe7; x0a; xd2;
  xe8; x0a; xd2; xe9; x0a; xd2; xea; x0a;
  xd2; xeb; x0a; xd2; xec; x0a; xd2; xed;
  x0a; xd2; xee; x0a; xd2; xef; x0a; xd2;
  xf0; x0a; xd2; xf1; x0a; xd2; xf2; x0a;
  xd2; xf3; x0a; xd2; xf4; x0a; xd2; xf5;
  x0a; xd2; xf6; x0a; xd2; xf7; x0a; xd2;
  xf8; x0a; xd2; xf9; x0a; xd2; xfa; x0a;
  xd2; xfb; x0a; xd2; xfc; x0a; xd2; xfd;
  x0a; xd2; xfe; x0a; xd3; x40; x0a; xd3;
  x41; x0a; xd3; x42; x0a; xd3; x43; x0a;
  xd3; x44; x0a; xd3; x45; x0a; xd3; x46;
  x0a; xd3; x47; x0a; xd3; x48; x0a; xd3
].
(* tests/test_data/whatwg/big5_whatwg_test_decode_in.txt, entries 35328..35583 *)
Definition big5_decode_in_138 : list byte := [
  x49; x0a; xd3; x4a; x0a; xd3; x4b; x0a;
  xd3; x4c; x0a; xd3; x4d; x0a; xd3; x4e;
  x0a; xd3; x4f; x0a; xd3; x50; x0a; xd3;
  x51; x0a; xd3; x52; x0a; xd3; x53; x0a;
  xd3; x54; x0a; xd3; x55; x0a; xd3; x56;
  x0a; xd3; x57; x0a; xd3; x58; x0a; xd3;
  x59; x0a; xd3; x5a; x0a; xd3; x5b; x0a;
  xd3; x5c; x0a; xd3; x5d; x0a; xd3; x5e;
  x0a; xd3; x5f; x0a; xd3; x60; x0a; xd3;
  x61; x0a; xd3; x62; x0a; xd3; x63; x0a;
  xd3; x64; x0a; xd3; x65; x0a; xd3; x66;
  x0a; xd3; x67; x0a; xd3; x68; x0a; xd3;
  x69; x0a; xd3; x6a; x0a; xd3; x6b; x0a;
  xd3; x6c; x0a; xd3; x6d; x0a; xd3; x6e;
  x0a; xd3; x6f; x0a; xd3; x70; x0a; xd3;
  x71; x0a; xd3; x72; x0a; xd3; x73; x0a;
  xd3; x74; x0a; xd3; x75; x0a; xd3; x76;
  x0a; xd3; x77; x0a; xd3; x78; x0a; xd3;
  x79; x0a; xd3; x7a; x0a; xd3; x7b; x0a;
  xd3; x7c; x0a; xd3; x7d; x0a; xd3; x7e;
  x0a; xd3; xa1; x0a; xd3; xa2; x0a; xd3;
  xa3; x0a; xd3; xa4; x0a; xd3; xa5; x0a;
  xd3; xa6; x0a; xd3; xa7; x0a; xd3; xa8;
  x0a; xd3; xa9; x0a; xd3; xaa; x0a; xd3;
  xab; x0a; xd3; xac; x0a; xd3; xad; x0a;
  xd3; xae; x0a; xd3; xaf; x0a; xd3; xb0;
  x0a; xd3; xb1; x0a; xd3; xb2; x0a; xd3;
  xb3; x0a; xd3; xb4; x0a; xd3; xb5; x0a;
  xd3; xb6; x0a; xd3; xb7; x0a; xd3; xb8;
  x0a; xd3; xb9; x0a; xd3; xba; x0a; xd3;
  xbb; x0a; xd3; xbc; x0a; xd3; xbd; x0a;
  xd3; xbe; x0a; xd3; xbf; x0a; xd3; xc0
].
(* tests/test_data/whatwg/big5_whatwg_test_decode_in.txt, entries 35584..35839 *)
Definition big5_decode_in_139 : list byte := [
  x0a; xd3; xc1; x0a; xd3; xc2; x0a; xd3;
  xc3; x0a; xd3; xc4; x0a; xd3; xc5; x0a;
  xd3; xc6; x0a; xd3; xc7; x0a; xd3; xc8;
  x0a; xd3; xc9; x0a; xd3; xca; x0a; xd3;
  xcb; x0a; xd3; xcc; x0a; xd3; xcd; x0a;
  xd3; xce; x0a; xd3; xcf; x0a; xd3; xd0;
  x0a; xd3; xd1; x0a; xd3; xd2; x0a; xd3;
  xd3; x0a; xd3; xd4; x0a; xd3; xd5; x0a;
  xd3; xd6; x0a; xd3; xd7; x0a; xd3; xd8;
  x0a; xd3; xd9; x0a; xd3; xda; x0a; xd3;
  xdb; x0a; xd3; xdc; x0a; xd3; xdd; x0a;
  xd3; xde; x0a; xd3; xdf; x0a; xd3; xe0;
  x0a; xd3; xe1; x0a; xd3; xe2; x0a; xd3;
  xe3; x0a; xd3; xe4; x0a; xd3; xe5; x0a;
  xd3; xe6; x0a; xd3; xe7; x0a; xd3; xe8;
  x0a; xd3; xe9; x0a; xd3; xea; x0a; xd3;
  xeb; x0a; xd3; xec; x0a; xd3; xed; x0a;
  xd3; xee; x0a; xd3; xef; x0a; xd3; xf0;
  x0a; xd3; xf1; x0a; xd3; xf2; x0a; xd3;
  xf3; x0a; xd3; xf4; x0a; xd3; xf5; x0a;
  xd3; xf6; x0a; xd3; xf7; x0a; xd3; xf8;
  x0a; xd3; xf9; x0a; xd3; xfa; x0a; xd3;
  xfb; x0a; xd3; xfc; x0a; xd3; xfd; x0a;
  xd3; xfe; x0a; xd4; x40; x0a; xd4; x41;
  x0a; xd4; x42; x0a; xd4; x43; x0a; xd4;
  x44; x0a; xd4; x45; x0a; xd4; x46; x0a;
  xd4; x47; x0a; xd4; x48; x0a; xd4; x49;
  x0a; xd4; x4a; x0a; xd4; x4b; x0a; xd4;
  x4c; x0a; xd4; x4d; x0a; xd4; x4e; x0a;
  xd4; x4f; x0a; xd4; x50; x0a; xd4; x51;
  x0a; xd4; x52; x0a; xd4; x53; x0a; xd4;
  x54; x0a; xd4; x55; x0a; xd4; x56; x0a
].
(* tests/test_data/whatwg/big5_whatwg_test_decode_in.txt, entries 35840..36095 *)
Definition big5_decode_in_140 : list byte := [
  xd4; x57; x0a; xd4; x58; x0a; xd4; x59;
  x0a; xd4; x5a; x0a; xd4; x5b; x0a; xd4;
  x5c; x0a; xd4; x5d; x0a; xd4; x5e; x0a;
  xd4; x5f; x0a; xd4; x60; x0a; xd4; x61;
  x0a; xd4; x62; x0a; xd4; x63; x0a; xd4;
  x64; x0a; xd4; x65; x0a; xd4; x66; x0a;
  xd4; x67; x0a; xd4; x68; x0a; xd4; x69;
  x0a; xd4; x6a; x0a; xd4; x6b; x0a; xd4;
  x6c; x0a; xd4; x6d; x0a; xd4; x6e; x0a;
  xd4; x6f; x0a; xd4; x70; x0a; xd4; x71;
  x0a; xd4; x72; x0a; xd4; x73; x0a; xd4;
  x74; x0a; xd4; x75; x0a; xd4; x76; x0a;
  xd4; x77; x0a; xd4; x78; x0a; xd4; x79;
  x0a; xd4; x7a; x0a; xd4; x7b; x0a; xd4;
  x7c; x0a; xd4; x7d; x0a; xd4; x7e; x0a;
  xd4; xa1; x0a; xd4; xa2; x0a; xd4; xa3;
  x0a; xd4; xa4; x0a; xd4; xa5; x0a; xd4;
  xa6; x0a; xd4; xa7; x0a; xd4; xa8; x0a;
  xd4; xa9; x0a; xd4; xaa; x0a; xd4; xab;
  x0a; xd4; xac; x0a; xd4; xad; x0a; xd4;
  xae; x0a; xd4; xaf; x0a; xd4; xb0; x0a;
  xd4; xb1; x0a; xd4; xb2; x0a; xd4; xb3;
  x0a; xd4; xb4; x0a; xd4; xb5; x0a; xd4;
  xb6; x0a; xd4; xb7; x0a; xd4; xb8; x0a;
  xd4; xb9; x0a; xd4; xba; x0a; xd4; xbb;
  x0a; xd4; xbc; x0a; xd4; xbd; x0a; xd4;
  xbe; x0a; xd4; xbf; x0a; xd4; xc0; x0a;
  xd4; xc1; x0a; xd4; xc2; x0a; xd4; xc3;
  x0a; xd4; xc4; x0a; xd4; xc5; x0a; xd4;
  xc6; x0a; xd4; xc7; x0a; xd4; xc8; x0a;
  xd4; xc9; x0a; xd4; xca; x0a; xd4; xcb;
  x0a; xd4; xcc; x0a; xd4; xcd; x0a; xd4
].
(* tests/test_data/whatwg/big5_whatwg_test_decode_in.txt, entries 36096..36351 *)
Definition big5_decode_in_141 : list byte := [
  xce; x0a; xd4; xcf; x0a; xd4; xd0; x0a;
  xd4; xd1; x0a; xd4; xd2; x0a; xd4; xd3;
  x0a; xd4; xd4; x0a; xd4; xd5; x0a; xd4;
  xd6; x0a; xd4; xd7; x0a; xd4; xd8; x0a;
  xd4; xd9; x0a; xd4; xda; x0a; xd4; xdb;
  x0a; xd4; xdc; x0a; xd4; xdd; x0a; xd4;
  xde; x0a; xd4; xdf; x0a; xd4; xe0; x0a;
  xd4; xe1; x0a; xd4; xe2; x0a; xd4; xe3;
  x0a; xd4; xe4; x0a; xd4; xe5; x0a; xd4;
  xe6; x0a; xd4; xe7; x0a; xd4; xe8; x0a;
  xd4; xe9; x0a; xd4; xea; x0a; xd4; xeb;
  x0a; xd4; xec; x0a; xd4; xed; x0a; xd4;
  xee; x0a; xd4; xef; x0a; xd4; xf0; x0a;
  xd4; xf1; x0a; xd4; xf2; x0a; xd4; xf3;
  x0a; xd4; xf4; x0a; xd4; xf5; x0a; xd4;
  xf6; x0a; xd4; xf7; x0a; xd4; xf8; x0a;
  xd4; xf9; x0a; xd4; xfa; x0a; xd4; xfb;
  x0a; xd4; xfc; x0a; xd4; xfd; x0a; xd4;
  xfe; x0a; xd5; x40; x0a; xd5; x41; x0a;
  xd5; x42; x0a; xd5; x43; x0a; xd5; x44;
  x0a; xd5; x45; x0a; xd5; x46; x0a; xd5;
  x47; x0a; xd5; x48; x0a; xd5; x49; x0a;
  xd5; x4a; x0a; xd5; x4b; x0a; xd5; x4c;
  x0a; xd5; x4d; x0a; xd5; x4e; x0a; xd5;
  x4f; x0a; xd5; x50; x0a; xd5; x51; x0a;
  xd5; x52; x0a; xd5; x53; x0a; xd5; x54;
  x0a; xd5; x55; x0a; xd5; x56; x0a; xd5;
  x57; x0a; xd5; x58; x0a; xd5; x59; x0a;
  xd5; x5a; x0a; xd5; x5b; x0a; xd5; x5c;
  x0a; xd5; x5d; x0a; xd5; x5e; x0a; xd5;
  x5f; x0a; xd5; x60; x0a; xd5; x61; x0a;
  xd5; x62; x0a; xd5; x63; x0a; xd5; x64
].
(* tests/test_data/whatwg/big5_whatwg_test_decode_in.txt, entries 36352..36607 *)
Definition big5_decode_in_142 : list byte := [
  x0a; xd5; x65; x0a; xd5; x66; x0a; xd5;
  x67; x0a; xd5; x68; x0a; xd5; x69; x0a;
  xd5; x6a; x0a; xd5; x6b; x0a; xd5; x6c;
  x0a; xd5; x6d; x0a; xd5; x6e; x0a; xd5;
  x6f; x0a; xd5; x70; x0a; xd5; x71; x0a;
  xd5; x72; x0a; xd5; x73; x0a; xd5; x74;
  x0a; xd5; x75; x0a; xd5; x76; x0a; xd5;
  x77; x0a; xd5; x78; x0a; xd5; x79; x0a;
  xd5; x7a; x0a; xd5; x7b; x0a; xd5; x7c;
  x0a; xd5; x7d; x0a; xd5; x7e; x0a; xd5;
  xa1; x0a; xd5; xa2; x0a; xd5; xa3; x0a;
  xd5; xa4; x0a; xd5; xa5; x0a; xd5; xa6;
  x0a; xd5; xa7; x0a; xd5; xa8; x0a; xd5;
  xa9; x0a; xd5; xaa; x0a; xd5; xab; x0a;
  xd5; xac; x0a; xd5; xad; x0a; xd5; xae;
  x0a; xd5; xaf; x0a; xd5; xb0; x0a; xd5;
  xb1; x0a; xd5; xb2; x0a; xd5; xb3; x0a;
  xd5; xb4; x0a; xd5; xb5; x0a; xd5; xb6;
  x0a; xd5; xb7; x0a; xd5; xb8; x0a; xd5;
  xb9; x0a; xd5; xba; x0a; xd5; xbb; x0a;
  xd5; xbc; x0a; xd5; xbd; x0a; xd5; xbe;
  x0a; xd5; xbf; x0a; xd5; xc0; x0a; xd5;
  xc1; x0a; xd5; xc2; x0a; xd5; xc3; x0a;
  xd5; xc4; x0a; xd5; xc5; x0a; xd5; xc6;
  x0a; xd5; xc7; x0a; xd5; xc8; x0a; xd5;
  xc9; x0a; xd5; xca; x0a; xd5; xcb; x0a;
  xd5; xcc; x0a; xd5; xcd; x0a; xd5; xce;
  x0a; xd5; xcf; x0a; xd5; xd0; x0a; xd5;
  xd1; x0a; xd5; xd2; x0a; xd5; xd3; x0a;
  xd5; xd4; x0a; xd5; xd5; x0a; xd5; xd6;
  x0a; xd5; xd7; x0a; xd5; xd8; x0a; xd5;
  xd9; x0a; xd5; xda; x0a; xd5; xdb; x0a
].
(* tests/test_data/whatwg/big5_whatwg_test_decode_in.txt, entries 36608..36863 *)
Definition big5_decode_in_143 : list byte := [
  xd5; xdc; x0a; xd5; xdd; x0a; xd5; xde;
  x0a; xd5; xdf; x0a; xd5; xe0; x0a; xd5;
  xe1; x0a; xd5; xe2; x0a; xd5; xe3; x0a;
  xd5; xe4; x0a; xd5; xe5; x0a; xd5; xe6;
  x0a; xd5; xe7; x0a; xd5; xe8; x0a; xd5;
  xe9; x0a; xd5; xea; x0a; xd5; xeb; x0a;
  xd5; xec; x0a; xd5; xed; x0a; xd5; xee;
  x0a; xd5; xef; x0a; xd5; xf0; x0a; xd5;
  xf1; x0a; xd5; xf2; x0a; xd5; xf3; x0a;
  xd5; xf4; x0a; xd5; xf5; x0a; xd5; xf6;
  x0a; xd5; xf7; x0a; xd5; xf8; x0a; xd5;
  xf9; x0a; xd5; xfa; x0a; xd5; xfb; x0a;
  xd5; xfc; x0a; xd5; xfd; x0a; xd5; xfe;
  x0a; xd6; x40; x0a; xd6; x41; x0a; xd6;
  x42; x0a; xd6; x43; x0a; xd6; x44; x0a;
  xd6; x45; x0a; xd6; x46; x0a; xd6; x47;
  x0a; xd6; x48; x0a; xd6; x49; x0a; xd6;
  x4a; x0a; xd6; x4b; x0a; xd6; x4c; x0a;
  xd6; x4d; x0a; xd6; x4e; x0a; xd6; x4f;
  x0a; xd6; x50; x0a; xd6; x51; x0a; xd6;
  x52; x0a; xd6; x53; x0a; xd6; x54; x0a;
  xd6; x55; x0a; xd6; x56; x0a; xd6; x57;
  x0a; xd6; x58; x0a; xd6; x59; x0a; xd6;
  x5a; x0a; xd6; x5b; x0a; xd6; x5c; x0a;
  xd6; x5d; x0a; xd6; x5e; x0a; xd6; x5f;
  x0a; xd6; x60; x0a; xd6; x61; x0a; xd6;
  x62; x0a; xd6; x63; x0a; xd6; x64; x0a;
  xd6; x65; x0a; xd6; x66; x0a; xd6; x67;
  x0a; xd6; x68; x0a; xd6; x69; x0a; xd6;
  x6a; x0a; xd6; x6b; x0a; xd6; x6c; x0a;
  xd6; x6d; x0a; xd6; x6e; x0a; xd6; x6f;
  x0a; xd6; x70; x0a; xd6; x71; x0a; xd6
].
(* tests/test_data/whatwg/big5_whatwg_test_decode_in.txt, entries 36864..37119 *)
Definition big5_decode_in_144 : list byte := [
  x72; x0a; xd6; x73; x0a; xd6; x74; x0a;
  xd6; x75; x0a; xd6; x76; x0a; xd6; x77;
  x0a; xd6; x78; x0a; xd6; x79; x0a; xd6;
  x7a; x0a; xd6; x7b; x0a; xd6; x7c; x0a;
  xd6; x7d; x0a; xd6; x7e; x0a; xd6; xa1;
  x0a; xd6; xa2; x0a; xd6; xa3; x0a; xd6;
  xa4; x0a; xd6; xa5; x0a; xd6; xa6; x0a;
  xd6; xa7; x0a; xd6; xa8; x0a; xd6; xa9;
  x0a; xd6; xaa; x0a; xd6; xab; x0a; xd6;
  xac; x0a; xd6; xad; x0a; xd6; xae; x0a;
  xd6; xaf; x0a; xd6; xb0; x0a; xd6; xb1;
  x0a; xd6; xb2; x0a; xd6; xb3; x0a; xd6;
  xb4; x0a; xd6; xb5; x0a; xd6; xb6; x0a;
  xd6; xb7; x0a; xd6; xb8; x0a; xd6; xb9;
  x0a; xd6; xba; x0a; xd6; xbb; x0a; xd6;
  xbc; x0a; xd6; xbd; x0a; xd6; xbe; x0a;
  xd6; xbf; x0a; xd6; xc0; x0a; xd6; xc1;
  x0a; xd6; xc2; x0a; xd6; xc3; x0a; xd6;
  xc4; x0a; xd6; xc5; x0a; xd6; xc6; x0a;
  xd6; xc7; x0a; xd6; xc8; x0a; xd6; xc9;
  x0a; xd6; xca; x0a; xd6; xcb; x0a; xd6;
  xcc; x0a; xd6; xcd; x0a; xd6; xce; x0a;
  xd6; xcf; x0a; xd6; xd0; x0a; xd6; xd1;
  x0a; xd6; xd2; x0a; xd6; xd3; x0a; xd6;
  xd4; x0a; xd6; xd5; x0a; xd6; xd6; x0a;
  xd6; xd7; x0a; xd6; xd8; x0a; xd6; xd9;
  x0a; xd6; xda; x0a; xd6; xdb; x0a; xd6;
  xdc; x0a; xd6; xdd; x0a; xd6; xde; x0a;
  xd6; xdf; x0a; xd6; xe0; x0a; xd6; xe1;
  x0a; xd6; xe2; x0a; xd6; xe3; x0a; xd6;
  xe4; x0a; xd6; xe5; x0a; xd6; xe6; x0a;
  xd6; xe7; x0a; xd6; xe8; x0a; xd6; xe9
].
(* tests/test_data/whatwg/big5_whatwg_test_decode_in.txt, entries 37120..37375 *)
Definition big5_decode_in_145 : list byte := [
  x0a; xd6; xea; x0a; xd6; xeb; x0a; xd6;
  xec; x0a; xd6; xed; x0a; xd6; xee; x0a;
  xd6; xef; x0a; xd6; xf0; x0a; xd6; xf1;
  x0a; xd6; xf2; x0a; xd6; xf3; x0a; xd6;
  xf4; x0a; xd6; xf5; x0a; xd6; xf6; x0a;
  xd6; xf7; x0a; xd6; xf8; x0a; xd6; xf9;
  x0a; xd6; xfa; x0a; xd6; xfb; x0a; xd6;
  xfc; x0a; xd6; xfd; x0a; xd6; xfe; x0a;
  xd7; x40; x0a; xd7; x41; x0a; xd7; x42;
  x0a; xd7; x43; x0a; xd7; x44; x0a; xd7;
  x45; x0a; xd7; x46; x0a; xd7; x47; x0a;
  xd7; x48; x0a; xd7; x49; x0a; xd7; x4a;
  x0a; xd7; x4b; x0a; xd7; x4c; x0a; xd7;
  x4d; x0a; xd7; x4e; x0a; xd7; x4f; x0a;
  xd7; x50; x0a; xd7; x51; x0a; xd7; x52;
  x0a; xd7; x53; x0a; xd7; x54; x0a; xd7;
  x55; x0a; xd7; x56; x0a; xd7; x57; x0a;
  xd7; x58; x0a; xd7; x59; x0a; xd7; x5a;
  x0a; xd7; x5b; x0a; xd7; x5c; x0a; xd7;
  x5d; x0a; xd7; x5e; x0a; xd7; x5f; x0a;
  xd7; x60; x0a; xd7; x61; x0a; xd7; x62;
  x0a; xd7; x63; x0a; xd7; x64; x0a; xd7;
  x65; x0a; xd7; x66; x0a; xd7; x67; x0a;
  xd7; x68; x0a; xd7; x69; x0a; xd7; x6a;
  x0a; xd7; x6b; x0a; xd7; x6c; x0a; xd7;
  x6d; x0a; xd7; x6e; x0a; xd7; x6f; x0a;
  xd7; x70; x0a; xd7; x71; x0a; xd7; x72;
  x0a; xd7; x73; x0a; xd7; x74; x0a; xd7;
  x75; x0a; xd7; x76; x0a; xd7; x77; x0a;
  xd7; x78; x0a; xd7; x79; x0a; xd7; x7a;
  x0a; xd7; x7b; x0a; xd7; x7c; x0a; xd7;
  x7d; x0a; xd7; x7e; x0a; xd7; xa1; x0a
].
(* tests/test_data/whatwg/big5_whatwg_test_decode_in.txt, entries 37376..37631 *)
Definition big5_decode_in_146 : list byte := [
  xd7; xa2; x0a; xd7; xa3; x0a; xd7; xa4;
  x0a; xd7; xa5; x0a; xd7; xa6; x0a; xd7;
  xa7; x0a; xd7; xa8; x0a; xd7; xa9; x0a;
  xd7; xaa; x0a; xd7; xab; x0a; xd7; xac;
  x0a; xd7; xad; x0a; xd7; xae; x0a; xd7;
  xaf; x0a; xd7; xb0; x0a; xd7; xb1; x0a;
  xd7; xb2; x0a; xd7; xb3; x0a; xd7; xb4;
  x0a; xd7; xb5; x0a; xd7; xb6; x0a; xd7;
  xb7; x0a; xd7; xb8; x0a; xd7; xb9; x0a;
  xd7; xba; x0a; xd7; xbb; x0a; xd7; xbc;
  x0a; xd7; xbd; x0a; xd7; xbe; x0a; xd7;
  xbf; x0a; xd7; xc0; x0a; xd7; xc1; x0a;
  xd7; xc2; x0a; xd7; xc3; x0a; xd7; xc4;
  x0a; xd7; xc5; x0a; xd7; xc6; x0a; xd7;
  xc7; x0a; xd7; xc8; x0a; xd7; xc9; x0a;
  xd7; xca; x0a; xd7; xcb; x0a; xd7; xcc;
  x0a; xd7; xcd; x0a; xd7; xce; x0a; xd7;
  xcf; x0a; xd7; xd0; x0a; xd7; xd1; x0a;
  xd7; xd2; x0a; xd7; xd3; x0a; xd7; xd4;
  x0a; xd7; xd5; x0a; xd7; xd6; x0a; xd7;
  xd7; x0a; xd7; xd8; x0a; xd7; xd9; x0a;
  xd7; xda; x0a; xd7; xdb; x0a; xd7; xdc;
  x0a; xd7; xdd; x0a; xd7; xde; x0a; xd7;
  xdf; x0a; xd7; xe0; x0a; xd7; xe1; x0a;
  xd7; xe2; x0a; xd7; xe3; x0a; xd7; xe4;
  x0a; xd7; xe5; x0a; xd7; xe6; x0a; xd7;
  xe7; x0a; xd7; xe8; x0a; xd7; xe9; x0a;
  xd7; xea; x0a; xd7; xeb; x0a; xd7; xec;
  x0a; xd7; xed; x0a; xd7; xee; x0a; xd7;
  xef; x0a; xd7; xf0; x0a; xd7; xf1; x0a;
  xd7; xf2; x0a; xd7; xf3; x0a; xd7; xf4;
  x0a; xd7; xf5; x0a; xd7; xf6; x0a; xd7
].
(* tests/test_data/whatwg/big5_whatwg_test_decode_in.txt, entries 37632..37887 *)
Definition big5_decode_in_147 : list byte := [
  xf7; x0a; xd7; xf8; x0a; xd7; xf9; x0a;
  xd7; xfa; x0a; xd7; xfb; x0a; xd7; xfc;
  x0a; xd7; xfd; x0a; xd7; xfe; x0a; xd8;
  x40; x0a; xd8; x41; x0a; xd8; x42; x0a;
  xd8; x43; x0a; xd8; x44; x0a; xd8; x45;
  x0a; xd8; x46; x0a; xd8; x47; x0a; xd8;
  x48; x0a; xd8; x49; x0a; xd8; x4a; x0a;
  xd8; x4b; x0a; xd8; x4c; x0a; xd8; x4d;
  x0a; xd8; x4e; x0a; xd8; x4f; x0a; xd8;
  x50; x0a; xd8; x51; x0a; xd8; x52; x0a;
  xd8; x53; x0a; xd8; x54; x0a; xd8; x55;
  x0a; xd8; x56; x0a; xd8; x57; x0a; xd8;
  x58; x0a; xd8; x59; x0a; xd8; x5a; x0a;
  xd8; x5b; x0a; xd8; x5c; x0a; xd8; x5d;
  x0a; xd8; x5e; x0a; xd8; x5f; x0a; xd8;
  x60; x0a; xd8; x61; x0a; xd8; x62; x0a;
  xd8; x63; x0a; xd8; x64; x0a; xd8; x65;
  x0a; xd8; x66; x0a; xd8; x67; x0a; xd8;
  x68; x0a; xd8; x69; x0a; xd8; x6a; x0a;
  xd8; x6b; x0a; xd8; x6c; x0a; xd8; x6d;
  x0a; xd8; x6e; x0a; xd8; x6f; x0a; xd8;
  x70; x0a; xd8; x71; x0a; xd8; x72; x0a;
  xd8; x73; x0a; xd8; x74; x0a; xd8; x75;
  x0a; xd8; x76; x0a; xd8; x77; x0a; xd8;
  x78; x0a; xd8; x79; x0a; xd8; x7a; x0a;
  xd8; x7b; x0a; xd8; x7c; x0a; xd8; x7d;
  x0a; xd8; x7e; x0a; xd8; xa1; x0a; xd8;
  xa2; x0a; xd8; xa3; x0a; xd8; xa4; x0a;
  xd8; xa5; x0a; xd8; xa6; x0a; xd8; xa7;
  x0a; xd8; xa8; x0a; xd8; xa9; x0a; xd8;
  xaa; x0a; xd8; xab; x0a; xd8; xac; x0a;
  xd8; xad; x0a; xd8; xae; x0a; xd8; xaf
].
(* tests/test_data/whatwg/big5_whatwg_test_decode_in.txt, entries 37888..38143 *)
Definition big5_decode_in_148 : list byte := [
  x0a; xd8; xb0; x0a; xd8; xb1; x0a; xd8;
  xb2; x0a; xd8; xb3; x0a; xd8; xb4; x0a;
  xd8; xb5; x0a; xd8; xb6; x0a; xd8; xb7;
  x0a; xd8; xb8; x0a; xd8; xb9; x0a; xd8;
  xba; x0a; xd8; xbb; x0a; xd8; xbc; x0a;
  xd8; xbd; x0a; xd8; xbe; x0a; xd8; xbf;
  x0a; xd8; xc0; x0a; xd8; xc1; x0a; xd8;
  xc2; x0a; xd8; xc3; x0a; xd8; xc4; x0a;
  xd8; xc5; x0a; xd8; xc6; x0a; xd8; xc7;
  x0a; xd8; xc8; x0a; xd8; xc9; x0a; xd8;
  xca; x0a; xd8; xcb; x0a; xd8; xcc; x0a;
  xd8; xcd; x0a; xd8; xce; x0a; xd8; xcf;
  x0a; xd8; xd0; x0a; xd8; xd1; x0a; xd8;
  xd2; x0a; xd8; xd3; x0a; xd8; xd4; x0a;
  xd8; xd5; x0a; xd8; xd6; x0a; xd8; xd7;
  x0a; xd8; xd8; x0a; xd8; xd9; x0a; xd8;
  xda; x0a; xd8; xdb; x0a; xd8; xdc; x0a;
  xd8; xdd; x0a; xd8; xde; x0a; xd8; xdf;
  x0a; xd8; xe0; x0a; xd8; xe1; x0a; xd8;
  xe2; x0a; xd8; xe3; x0a; xd8; xe4; x0a;
  xd8; xe5; x0a; xd8; xe6; x0a; xd8; xe7;
  x0a; xd8; xe8; x0a; xd8; xe9; x0a; xd8;
  xea; x0a; xd8; xeb; x0a; xd8; xec; x0a;
  xd8; xed; x0a; xd8; xee; x0a; xd8; xef;
  x0a; xd8; xf0; x0a; xd8; xf1; x0a; xd8;
  xf2; x0a; xd8; xf3; x0a; xd8; xf4; x0a;
  xd8; xf5; x0a; xd8; xf6; x0a; xd8; xf7;
  x0a; xd8; xf8; x0a; xd8; xf9; x0a; xd8;
  xfa; x0a; xd8; xfb; x0a; xd8; xfc; x0a;
  xd8; xfd; x0a; xd8; xfe; x0a; xd9; x40;
  x0a; xd9; x41; x0a; xd9; x42; x0a; xd9;
  x43; x0a; xd9; x44; x0a; xd9; x45; x0a
].
(* tests/test_data/whatwg/big5_whatwg_test_decode_in.txt, entries 38144..38399 *)
Definition big5_decode_in_149 : list byte := [
  xd9; x46; x0a; xd9; x47; x0a; xd9; x48;
  x0a; xd9; x49; x0a; xd9; x4a; x0a; xd9;
  x4b; x0a; xd9; x4c; x0a; xd9; x4d; x0a;
  xd9; x4e; x0a; xd9; x4f; x0a; xd9; x50;
  x0a; xd9; x51; x0a; xd9; x52; x0a; xd9;
  x53; x0a; xd9; x54; x0a; xd9; x55; x0a;
  xd9; x56; x0a; xd9; x57; x0a; xd9; x58;
  x0a; xd9; x59; x0a; xd9; x5a; x0a; xd9;
  x5b; x0a; xd9; x5c; x0a; xd9; x5d; x0a;
  xd9; x5e; x0a; xd9; x5f; x0a; xd9; x60;
  x0a; xd9; x61; x0a; xd9; x62; x0a; xd9;
  x63; x0a; xd9; x64; x0a; xd9; x65; x0a;
  xd9; x66; x0a; xd9; x67; x0a; xd9; x68;
  x0a; xd9; x69; x0a; xd9; x6a; x0a; xd9;
  x6b; x0a; xd9; x6c; x0a; xd9; x6d; x0a;
  xd9; x6e; x0a; xd9; x6f; x0a; xd9; x70;
  x0a; xd9; x71; x0a; xd9; x72; x0a; xd9;
  x73; x0a; xd9; x74; x0a; xd9; x75; x0a;
  xd9; x76; x0a; xd9; x77; x0a; xd9; x78;
  x0a; xd9; x79; x0a; xd9; x7a; x0a; xd9;
  x7b; x0a; xd9; x7c; x0a; xd9; x7d; x0a;
  xd9; x7e; x0a; xd9; xa1; x0a; xd9; xa2;
  x0a; xd9; xa3; x0a; xd9; xa4; x0a; xd9;
  xa5; x0a; xd9; xa6; x0a; xd9; xa7; x0a;
  xd9; xa8; x0a; xd9; xa9; x0a; xd9; xaa;
  x0a; xd9; xab; x0a; xd9; xac; x0a; xd9;
  xad; x0a; xd9; xae; x0a; xd9; xaf; x0a;
  xd9; xb0; x0a; xd9; xb1; x0a; xd9; xb2;
  x0a; xd9; xb3; x0a; xd9; xb4; x0a; xd9;
  xb5; x0a; xd9; xb6; x0a; xd9; xb7; x0a;
  xd9; xb8; x0a; xd9; xb9; x0a; xd9; xba;
  x0a; xd9; xbb; x0a; xd9; xbc; x0a; xd9
].
(* tests/test_data/whatwg/big5_whatwg_test_decode_in.txt, entries 38400..38655 *)
Definition big5_decode_in_150 : list byte := [
  xbd; x0a; xd9; xbe; x0a; xd9; xbf; x0a;
  xd9; xc0; x0a; xd9; xc1; x0a; xd9; xc2;
  x0a; xd9; xc3; x0a; xd9; xc4; x0a; xd9;
  xc5; x0a; xd9; xc6; x0a; xd9; xc7; x0a;
  xd9; xc8; x0a; xd9; xc9; x0a; xd9; xca;
  x0a; xd9; xcb; x0a; xd9; xcc; x0a; xd9;
  xcd; x0a; xd9; xce; x0a; xd9; xcf; x0a;
  xd9; xd0; x0a; xd9; xd1; x0a; xd9; xd2;
  x0a; xd9; xd3; x0a; xd9; xd4; x0a; xd9;
  xd5; x0a; xd9; xd6; x0a; xd9; xd7; x0a;
  xd9; xd8; x0a; xd9; xd9; x0a; xd9; xda;
  x0a; xd9; xdb; x0a; xd9; xdc; x0a; xd9;
  xdd; x0a; xd9; xde; x0a; xd9; xdf; x0a;
  xd9; xe0; x0a; xd9; xe1; x0a; xd9; xe2;
  x0a; xd9; xe3; x0a; xd9; xe4; x0a; xd9;
  xe5; x0a; xd9; xe6; x0a; xd9; xe7; x0a;
  xd9; xe8; x0a; xd9; xe9; x0a; xd9; xea;
  x0a; xd9; xeb; x0a; xd9; xec; x0a; xd9;
  xed; x0a; xd9; xee; x0a; xd9; xef; x0a;
  xd9; xf0; x0a; xd9; xf1; x0a; xd9; xf2;
  x0a; xd9; xf3; x0a; xd9; xf4; x0a; xd9;
  xf5; x0a; xd9; xf6; x0a; xd9; xf7; x0a;
  xd9; xf8; x0a; xd9; xf9; x0a; xd9; xfa;
  x0a; xd9; xfb; x0a; xd9; xfc; x0a; xd9;
  xfd; x0a; xd9; xfe; x0a; xda; x40; x0a;
  xda; x41; x0a; xda; x42; x0a; xda; x43;
  x0a; xda; x44; x0a; xda; x45; x0a; xda;
  x46; x0a; xda; x47; x0a; xda; x48; x0a;
  xda; x49; x0a; xda; x4a; x0a; xda; x4b;
  x0a; xda; x4c; x0a; xda; x4d; x0a; xda;
  x4e; x0a; xda; x4f; x0a; xda; x50; x0a;
  xda; x51; x0a; xda; x52; x0a; xda; x53
].
(* tests/test_data/whatwg/big5_whatwg_test_decode_in.txt, entries 38656..38911 *)
Definition big5_decode_in_151 : list byte := [
  x0a; xda; x54; x0a; xda; x55; x0a; xda;
  x56; x0a; xda; x57; x0a; xda; x58; x0a;
  xda; x59; x0a; xda; x5a; x0a; xda; x5b;
  x0a; xda; x5c; x0a; xda; x5d; x0a; xda;
  x5e; x0a; xda; x5f; x0a; xda; x60; x0a;
  xda; x61; x0a; xda; x62; x0a; xda; x63;
  x0a; xda; x64; x0a; xda; x65; x0a; xda;
  x66; x0a; xda; x67; x0a; xda; x68; x0a;
  xda; x69; x0a; xda; x6a; x0a; xda; x6b;
  x0a; xda; x6c; x0a; xda; x6d; x0a; xda;
  x6e; x0a; xda; x6f; x0a; xda; x70; x0a;
  xda; x71; x0a; xda; x72; x0a; xda; x73;
  x0a; xda; x74; x0a; xda; x75; x0a; xda;
  x76; x0a; xda; x77; x0a; xda; x78; x0a;
  xda; x79; x0a; xda; x7a; x0a; xda; x7b;
  x0a; xda; x7c; x0a; xda; x7d; x0a; xda;
  x7e; x0a; xda; xa1; x0a; xda; xa2; x0a;
  xda; xa3; x0a; xda; xa4; x0a; xda; xa5;
  x0a; xda; xa6; x0a; xda; xa7; x0a; xda;
  xa8; x0a; xda; xa9; x0a; xda; xaa; x0a;
  xda; xab; x0a; xda; xac; x0a; xda; xad;
  x0a; xda; xae; x0a; xda; xaf; x0a; xda;
  xb0; x0a; xda; xb1; x0a; xda; xb2; x0a;
  xda; xb3; x0a; xda; xb4; x0a; xda; xb5;
  x0a; xda; xb6; x0a; xda; xb7; x0a; xda;
  xb8; x0a; xda; xb9; x0a; xda; xba; x0a;
  xda; xbb; x0a; xda; xbc; x0a; xda; xbd;
  x0a; xda; xbe; x0a; xda; xbf; x0a; xda;
  xc0; x0a; xda; xc1; x0a; xda; xc2; x0a;
  xda; xc3; x0a; xda; xc4; x0a; xda; xc5;
  x0a; xda; xc6; x0a; xda; xc7; x0a; xda;
  xc8; x0a; xda; xc9; x0a; xda; xca; x0a
].
(* tests/test_data/whatwg/big5_whatwg_test_decode_in.txt, entries 38912..39167 *)
Definition big5_decode_in_152 : list byte := [
  xda; xcb; x0a; xda; xcc; x0a; xda; xcd;
  x0a; xda; xce; x0a; xda; xcf; x0a; xda;
  xd0; x0a; xda; xd1; x0a; xda; xd2; x0a;
  xda; xd3; x0a; xda; xd4; x0a; xda; xd5;
  x0a; xda; xd6; x0a; xda; xd7; x0a; xda;
  xd8; x0a; xda; xd9; x0a; xda; xda; x0a;
  xda; xdb; x0a; xda; xdc; x0a; xda; xdd;
  x0a; xda; xde; x0a; xda; xdf; x0a; xda;
  xe0; x0a; xda; xe1; x0a; xda; xe2; x0a;
  xda; xe3; x0a; xda; xe4; x0a; xda; xe5;
  x0a; xda; xe6; x0a; xda; xe7; x0a; xda;
  xe8; x0a; xda; xe9; x0a; xda; xea; x0a;
  xda; xeb; x0a; xda; xec; x0a; xda; xed;
  x0a; xda; xee; x0a; xda; xef; x0a; xda;
  xf0; x0a; xda; xf1; x0a; xda; xf2; x0a;
  xda; xf3; x0a; xda; xf4; x0a; xda; xf5;
  x0a; xda; xf6; x0a; xda; xf7; x0a; xda;
  xf8; x0a; xda; xf9; x0a; xda; xfa; x0a;
  xda; xfb; x0a; xda; xfc; x0a; xda; xfd;
  x0a; xda; xfe; x0a; xdb; x40; x0a; xdb;
  x41; x0a; xdb; x42; x0a; xdb; x43; x0a;
  xdb; x44; x0a; xdb; x45; x0a; xdb; x46;
  x0a; xdb; x47; x0a; xdb; x48; x0a; xdb;
  x49; x0a; xdb; x4a; x0a; xdb; x4b; x0a;
  xdb; x4c; x0a; xdb; x4d; x0a; xdb; x4e;
  x0a; xdb; x4f; x0a; xdb; x50; x0a; xdb;
  x51; x0a; xdb; x52; x0a; xdb; x53; x0a;
  xdb; x54; x0a; xdb; x55; x0a; xdb; x56;
  x0a; xdb; x57; x0a; xdb; x58; x0a; xdb;
  x59; x0a; xdb; x5a; x0a; xdb; x5b; x0a;
  xdb; x5c; x0a; xdb; x5d; x0a; xdb; x5e;
  x0a; xdb; x5f; x0a; xdb; x60; x0a; xdb
].
(* tests/test_data/whatwg/big5_whatwg_test_decode_in.txt, entries 39168..39423 *)
Definition big5_decode_in_153 : list byte := [
  x61; x0a; xdb; x62; x0a; xdb; x63; x0a;
  xdb; x64; x0a; xdb; x65; x0a; xdb; x66;
  x0a; xdb; x67; x0a; xdb; x68; x0a; xdb;
  x69; x0a; xdb; x6a; x0a; xdb; x6b; x0a;
  xdb; x6c; x0a; xdb; x6d; x0a; xdb; x6e;
  x0a; xdb; x6f; x0a; xdb; x70; x0a; xdb;
  x71; x0a; xdb; x72; x0a; xdb; x73; x0a;
  xdb; x74; x0a; xdb; x75; x0a; xdb; x76;
  x0a; xdb; x77; x0a; xdb; x78; x0a; xdb;
  x79; x0a; xdb; x7a; x0a; xdb; x7b; x0a;
  xdb; x7c; x0a; xdb; x7d; x0a; xdb; x7e;
  x0a; xdb; xa1; x0a; xdb; xa2; x0a; xdb;
  xa3; x0a; xdb; xa4; x0a; xdb; xa5; x0a;
  xdb; xa6; x0a; xdb; xa7; x0a; xdb; xa8;
  x0a; xdb; xa9; x0a; xdb; xaa; x0a; xdb;
  xab; x0a; xdb; xac; x0a; xdb; xad; x0a;
  xdb; xae; x0a; xdb; xaf; x0a; xdb; xb0;
  x0a; xdb; xb1; x0a; xdb; xb2; x0a; xdb;
  xb3; x0a; xdb; xb4; x0a; xdb; xb5; x0a;
  xdb; xb6; x0a; xdb; xb7; x0a; xdb; xb8;
  x0a; xdb; xb9; x0a; xdb; xba; x0a; xdb;
  xbb; x0a; xdb; xbc; x0a; xdb; xbd; x0a;
  xdb; xbe; x0a; xdb; xbf; x0a; xdb; xc0;
  x0a; xdb; xc1; x0a; xdb; xc2; x0a; xdb;
  xc3; x0a; xdb; xc4; x0a; xdb; xc5; x0a;
  xdb; xc6; x0a; xdb; xc7; x0a; xdb; xc8;
  x0a; xdb; xc9; x0a; xdb; xca; x0a; xdb;
  xcb; x0a; xdb; xcc; x0a; xdb; xcd; x0a;
  xdb; xce; x0a; xdb; xcf; x0a; xdb; xd0;
  x0a; xdb; xd1; x0a; xdb; xd2; x0a; xdb;
  xd3; x0a; xdb; xd4; x0a; xdb; xd5; x0a;
  xdb; xd6; x0a; xdb; xd7; x0a; xdb; xd8
].
(* tests/test_data/whatwg/big5_whatwg_test_decode_in.txt, entries 39424..39679 *)
Definition big5_decode_in_154 : list byte := [
  x0a; xdb; xd9; x0a; xdb; xda; x0a; xdb;
  xdb; x0a; xdb; xdc; x0a; xdb; xdd; x0a;
  xdb; xde; x0a; xdb; xdf; x0a; xdb; xe0;
  x0a; xdb; xe1; x0a; xdb; xe2; x0a; xdb;
  xe3; x0a; xdb; xe4; x0a; xdb; xe5; x0a;
  xdb; xe6; x0a; xdb; xe7; x0a; xdb; xe8;
  x0a; xdb; xe9; x0a; xdb; xea; x0a; xdb;
  xeb; x0a; xdb; xec; x0a; xdb; xed; x0a;
  xdb; xee; x0a; xdb; xef; x0a; xdb; xf0;
  x0a; xdb; xf1; x0a; xdb; xf2; x0a; xdb;
  xf3; x0a; xdb; xf4; x0a; xdb; xf5; x0a;
  xdb; xf6; x0a; xdb; xf7; x0a; xdb; xf8;
  x0a; xdb; xf9; x0a; xdb; xfa; x0a; xdb;
  xfb; x0a; xdb; xfc; x0a; xdb; xfd; x0a;
  xdb; xfe; x0a; xdc; x40; x0a; xdc; x41;
  x0a; xdc; x42; x0a; xdc; x43; x0a; xdc;
  x44; x0a; xdc; x45; x0a; xdc; x46; x0a;
  xdc; x47; x0a; xdc; x48; x0a; xdc; x49;
  x0a; xdc; x4a; x0a; xdc; x4b; x0a; xdc;
  x4c; x0a; xdc; x4d; x0a; xdc; x4e; x0a;
  xdc; x4f; x0a; xdc; x50; x0a; xdc; x51;
  x0a; xdc; x52; x0a; xdc; x53; x0a; xdc;
  x54; x0a; xdc; x55; x0a; xdc; x56; x0a;
  xdc; x57; x0a; xdc; x58; x0a; xdc; x59;
  x0a; xdc; x5a; x0a; xdc; x5b; x0a; xdc;
  x5c; x0a; xdc; x5d; x0a; xdc; x5e; x0a;
  xdc; x5f; x0a; xdc; x60; x0a; xdc; x61;
  x0a; xdc; x62; x0a; xdc; x63; x0a; xdc;
  x64; x0a; xdc; x65; x0a; xdc; x66; x0a;
  xdc; x67; x0a; xdc; x68; x0a; xdc; x69;
  x0a; xdc; x6a; x0a; xdc; x6b; x0a; xdc;
  x6c; x0a; xdc; x6d; x0a; xdc; x6e; x0a
].
(* tests/test_data/whatwg/big5_whatwg_test_decode_in.txt, entries 39680..39935 *)
Definition big5_decode_in_155 : list byte := [
  xdc; x6f; x0a; xdc; x70; x0a; xdc; x71;
  x0a; xdc; x72; x0a; xdc; x73; x0a; xdc;
  x74; x0a; xdc; x75; x0a; xdc; x76; x0a;
  xdc; x77; x0a; xdc; x78; x0a; xdc; x79;
  x0a; xdc; x7a; x0a; xdc; x7b; x0a; xdc;
  x7c; x0a; xdc; x7d; x0a; xdc; x7e; x0a;
  xdc; xa1; x0a; xdc; xa2; x0a; xdc; xa3;
  x0a; xdc; xa4; x0a; xdc; xa5; x0a; xdc;
  xa6; x0a; xdc; xa7; x0a; xdc; xa8; x0a;
  xdc; xa9; x0a; xdc; xaa; x0a; xdc; xab;
  x0a; xdc; xac; x0a; xdc; xad; x0a; xdc;
  xae; x0a; xdc; xaf; x0a; xdc; xb0; x0a;
  xdc; xb1; x0a; xdc; xb2; x0a; xdc; xb3;
  x0a; xdc; xb4; x0a; xdc; xb5; x0a; xdc;
  xb6; x0a; xdc; xb7; x0a; xdc; xb8; x0a;
  xdc; xb9; x0a; xdc; xba; x0a; xdc; xbb;
  x0a; xdc; xbc; x0a; xdc; xbd; x0a; xdc;
  xbe; x0a; xdc; xbf; x0a; xdc; xc0; x0a;
  xdc; xc1; x0a; xdc; xc2; x0a; xdc; xc3;
  x0a; xdc; xc4; x0a; xdc; xc5; x0a; xdc;
  xc6; x0a; xdc; xc7; x0a; xdc; xc8; x0a;
  xdc; xc9; x0a; xdc; xca; x0a; xdc; xcb;
  x0a; xdc; xcc; x0a; xdc; xcd; x0a; xdc;
  xce; x0a; xdc; xcf; x0a; xdc; xd0; x0a;
  xdc; xd1; x0a; xdc; xd2; x0a; xdc; xd3;
  x0a; xdc; xd4; x0a; xdc; xd5; x0a; xdc;
  xd6; x0a; xdc; xd7; x0a; xdc; xd8; x0a;
  xdc; xd9; x0a; xdc; xda; x0a; xdc; xdb;
  x0a; xdc; xdc; x0a; xdc; xdd; x0a; xdc;
  xde; x0a; xdc; xdf; x0a; xdc; xe0; x0a;
  xdc; xe1; x0a; xdc; xe2; x0a; xdc; xe3;
  x0a; xdc; xe4; x0a; xdc; xe5; x0a; xdc
].
(* tests/test_data/whatwg/big5_whatwg_test_decode_in.txt, entries 39936..40191 *)
Definition big5_decode_in_156 : list byte := [
  xe6; x0a; xdc; xe7; x0a; xdc; xe8; x0a;
  xdc; xe9; x0a; xdc; xea; x0a; xdc; xeb;
  x0a; xdc; xec; x0a; xdc; xed; x0a; xdc;
  xee; x0a; xdc; xef; x0a; xdc; xf0; x0a;
  xdc; xf1; x0a; xdc; xf2; x0a; xdc; xf3;
  x0a; xdc; xf4; x0a; xdc; xf5; x0a; xdc;
  xf6; x0a; xdc; xf7; x0a; xdc; xf8; x0a;
  xdc; xf9; x0a; xdc; xfa; x0a; xdc; xfb;
  x0a; xdc; xfc; x0a; xdc; xfd; x0a; xdc;
  xfe; x0a; xdd; x40; x0a; xdd; x41; x0a;
  xdd; x42; x0a; xdd; x43; x0a; xdd; x44;
  x0a; xdd; x45; x0a; xdd; x46; x0a; xdd;
  x47; x0a; xdd; x48; x0a; xdd; x49; x0a;
  xdd; x4a; x0a; xdd; x4b; x0a; xdd; x4c;
  x0a; xdd; x4d; x0a; xdd; x4e; x0a; xdd;
  x4f; x0a; xdd; x50; x0a; xdd; x51; x0a;
  xdd; x52; x0a; xdd; x53; x0a; xdd; x54;
  x0a; xdd; x55; x0a; xdd; x56; x0a; xdd;
  x57; x0a; xdd; x58; x0a; xdd; x59; x0a;
  xdd; x5a; x0a; xdd; x5b; x0a; xdd; x5c;
  x0a; xdd; x5d; x0a; xdd; x5e; x0a; xdd;
  x5f; x0a; xdd; x60; x0a; xdd; x61; x0a;
  xdd; x62; x0a; xdd; x63; x0a; xdd; x64;
  x0a; xdd; x65; x0a; xdd; x66; x0a; xdd;
  x67; x0a; xdd; x68; x0a; xdd; x69; x0a;
  xdd; x6a; x0a; xdd; x6b; x0a; xdd; x6c;
  x0a; xdd; x6d; x0a; xdd; x6e; x0a; xdd;
  x6f; x0a; xdd; x70; x0a; xdd; x71; x0a;
  xdd; x72; x0a; xdd; x73; x0a; xdd; x74;
  x0a; xdd; x75; x0a; xdd; x76; x0a; xdd;
  x77; x0a; xdd; x78; x0a; xdd; x79; x0a;
  xdd; x7a; x0a; xdd; x7b; x0a; xdd; x7c
].
(* tests/test_data/whatwg/big5_whatwg_test_decode_in.txt, entries 40192..40447 *)
Definition big5_decode_in_157 : list byte := [
  x0a; xdd; x7d; x0a; xdd; x7e; x0a; xdd;
  xa1; x0a; xdd; xa2; x0a; xdd; xa3; x0a;
  xdd; xa4; x0a; xdd; xa5; x0a; xdd; xa6;
  x0a; xdd; xa7; x0a; xdd; xa8; x0a; xdd;
  xa9; x0a; xdd; xaa; x0a; xdd; xab; x0a;
  xdd; xac; x0a; xdd; xad; x0a; xdd; xae;
  x0a; xdd; xaf; x0a; xdd; xb0; x0a; xdd;
  xb1; x0a; xdd; xb2; x0a; xdd; xb3; x0a;
  xdd; xb4; x0a; xdd; xb5; x0a; xdd; xb6;
  x0a; xdd; xb7; x0a; xdd; xb8; x0a; xdd;
  xb9; x0a; xdd; xba; x0a; xdd; xbb; x0a;
  xdd; xbc; x0a; xdd; xbd; x0a; xdd; xbe;
  x0a; xdd; xbf; x0a; xdd; xc0; x0a; xdd;
  xc1; x0a; xdd; xc2; x0a; xdd; xc3; x0a;
  xdd; xc4; x0a; xdd; xc5; x0a; xdd; xc6;
  x0a; xdd; xc7; x0a; xdd; xc8; x0a; xdd;
  xc9; x0a; xdd; xca; x0a; xdd; xcb; x0a;
  xdd; xcc; x0a; xdd; xcd; x0a; xdd; xce;
  x0a; xdd; xcf; x0a; xdd; xd0; x0a; xdd;
  xd1; x0a; xdd; xd2; x0a; xdd; xd3; x0a;
  xdd; xd4; x0a; xdd; xd5; x0a; xdd; xd6;
  x0a; xdd; xd7; x0a; xdd; xd8; x0a; xdd;
  xd9; x0a; xdd; xda; x0a; xdd; xdb; x0a;
  xdd; xdc; x0a; xdd; xdd; x0a; xdd; xde;
  x0a; xdd; xdf; x0a; xdd; xe0; x0a; xdd;
  xe1; x0a; xdd; xe2; x0a; xdd; xe3; x0a;
  xdd; xe4; x0a; xdd; xe5; x0a; xdd; xe6;
  x0a; xdd; xe7; x0a; xdd; xe8; x0a; xdd;
  xe9; x0a; xdd; xea; x0a; xdd; xeb; x0a;
  xdd; xec; x0a; xdd; xed; x0a; xdd; xee;
  x0a; xdd; xef; x0a; xdd; xf0; x0a; xdd;
  xf1; x0a; xdd; xf2; x0a; xdd; xf3; x0a
].
(* tests/test_data/whatwg/big5_whatwg_test_decode_in.txt, entries 40448..40703 *)
Definition big5_decode_in_158 : list byte := [
  xdd; xf4; x0a; xdd; xf5; x0a; xdd; xf6;
  x0a; xdd; xf7; x0a; xdd; xf8; x0a; xdd;
  xf9; x0a; xdd; xfa; x0a; xdd; xfb; x0a;
  xdd; xfc; x0a; xdd; xfd; x0a; xdd; xfe;
  x0a; xde; x40; x0a; xde; x41; x0a; xde;
  x42; x0a; xde; x43; x0a; xde; x44; x0a;
  xde; x45; x0a; xde; x46; x0a; xde; x47;
  x0a; xde; x48; x0a; xde; x49; x0a; xde;
  x4a; x0a; xde; x4b; x0a; xde; x4c; x0a;
  xde; x4d; x0a; xde; x4e; x0a; xde; x4f;
  x0a; xde; x50; x0a; xde; x51; x0a; xde;
  x52; x0a; xde; x53; x0a; xde; x54; x0a;
  xde; x55; x0a; xde; x56; x0a; xde; x57;
  x0a; xde; x58; x0a; xde; x59; x0a; xde;
  x5a; x0a; xde; x5b; x0a; xde; x5c; x0a;
  xde; x5d; x0a; xde; x5e; x0a; xde; x5f;
  x0a; xde; x60; x0a; xde; x61; x0a; xde;
  x62; x0a; xde; x63; x0a; xde; x64; x0a;
  xde; x65; x0a; xde; x66; x0a; xde; x67;
  x0a; xde; x68; x0a; xde; x69; x0a; xde;
  x6a; x0a; xde; x6b; x0a; xde; x6c; x0a;
  xde; x6d; x0a; xde; x6e; x0a; xde; x6f;
  x0a; xde; x70; x0a; xde; x71; x0a; xde;
  x72; x0a; xde; x73; x0a; xde; x74; x0a;
  xde; x75; x0a; xde; x76; x0a; xde; x77;
  x0a; xde; x78; x0a; xde; x79; x0a; xde;
  x7a; x0a; xde; x7b; x0a; xde; x7c; x0a;
  xde; x7d; x0a; xde; x7e; x0a; xde; xa1;
  x0a; xde; xa2; x0a; xde; xa3; x0a; xde;
  xa4; x0a; xde; xa5; x0a; xde; xa6; x0a;
  xde; xa7; x0a; xde; xa8; x0a; xde; xa9;
  x0a; xde; xaa; x0a; xde; xab; x0a; xde
].
(* tests/test_data/whatwg/big5_whatwg_test_decode_in.txt, entries 40704..40959 *)
Definition big5_decode_in_159 : list byte := [
  xac; x0a; xde; xad; x0a; xde; xae; x0a;
  xde; xaf; x0a; xde; xb0; x0a; xde; xb1;
  x0a; xde; xb2; x0a; xde; xb3; x0a; xde;
  xb4; x0a; xde; xb5; x0a; xde; xb6; x0a;
  xde; xb7; x0a; xde; xb8; x0a; xde; xb9;
  x0a; xde; xba; x0a; xde; xbb; x0a; xde;
  xbc; x0a; xde; xbd; x0a; xde; xbe; x0a;
  xde; xbf; x0a; xde; xc0; x0a; xde; xc1;
  x0a; xde; xc2; x0a; xde; xc3; x0a; xde;
  xc4; x0a; xde; xc5; x0a; xde; xc6; x0a;
  xde; xc7; x0a; xde; xc8; x0a; xde; xc9;
  x0a; xde; xca; x0a; xde; xcb; x0a; xde;
  xcc; x0a; xde; xcd; x0a; xde; xce; x0a;
  xde; xcf; x0a; xde; xd0; x0a; xde; xd1;
  x0a; xde; xd2; x0a; xde; xd3; x0a; xde;
  xd4; x0a; xde; xd5; x0a; xde; xd6; x0a;
  xde; xd7; x0a; xde; xd8; x0a; xde; xd9;
  x0a; xde; xda; x0a; xde; xdb; x0a; xde;
  xdc; x0a; xde; xdd; x0a; xde; xde; x0a;
  xde; xdf; x0a; xde; xe0; x0a; xde; xe1;
  x0a; xde; xe2; x0a; xde; xe3; x0a; xde;
  xe4; x0a; xde; xe5; x0a; xde; xe6; x0a;
  xde; xe7; x0a; xde; xe8; x0a; xde; xe9;
  x0a; xde; xea; x0a; xde; xeb; x0a; xde;
  xec; x0a; xde; xed; x0a; xde; xee; x0a;
  xde; xef; x0a; xde; xf0; x0a; xde; xf1;
  x0a; xde; xf2; x0a; xde; xf3; x0a; xde;
  xf4; x0a; xde; xf5; x0a; xde; xf6; x0a;
  xde; xf7; x0a; xde; xf8; x0a; xde; xf9;
  x0a; xde; xfa; x0a; xde; xfb; x0a; xde;
  xfc; x0a; xde; xfd; x0a; xde; xfe; x0a;
  xdf; x40; x0a; xdf; x41; x0a; xdf; x42
].
(* tests/test_data/whatwg/big5_whatwg_test_decode_in.txt, entries 40960..41215 *)
Definition big5_decode_in_160 : list byte := [
  x0a; xdf; x43; x0a; xdf; x44; x0a; xdf;
  x45; x0a; xdf; x46; x0a; xdf; x47; x0a;
  xdf; x48; x0a; xdf; x49; x0a; xdf; x4a;
  x0a; xdf; x4b; x0a; xdf; x4c; x0a; xdf;
  x4d; x0a; xdf; x4e; x0a; xdf; x4f; x0a;
  xdf; x50; x0a; xdf; x51; x0a; xdf; x52;
  x0a; xdf; x53; x0a; xdf; x54; x0a; xdf;
  x55; x0a; xdf; x56; x0a; xdf; x57; x0a;
  xdf; x58; x0a; xdf; x59; x0a; xdf; x5a;
  x0a; xdf; x5b; x0a; xdf; x5c; x0a; xdf;
  x5d; x0a; xdf; x5e; x0a; xdf; x5f; x0a;
  xdf; x60; x0a; xdf; x61; x0a; xdf; x62;
  x0a; xdf; x63; x0a; xdf; x64; x0a; xdf;
  x65; x0a; xdf; x66; x0a; xdf; x67; x0a;
  xdf; x68; x0a; xdf; x69; x0a; xdf; x6a;
  x0a; xdf; x6b; x0a; xdf; x6c; x0a; xdf;
  x6d; x0a; xdf; x6e; x0a; xdf; x6f; x0a;
  xdf; x70; x0a; xdf; x71; x0a; xdf; x72;
  x0a; xdf; x73; x0a; xdf; x74; x0a; xdf;
  x75; x0a; xdf; x76; x0a; xdf; x77; x0a;
  xdf; x78; x0a; xdf; x79; x0a; xdf; x7a;
  x0a; xdf; x7b; x0a; xdf; x7c; x0a; xdf;
  x7d; x0a; xdf; x7e; x0a; xdf; xa1; x0a;
  xdf; xa2; x0a; xdf; xa3; x0a; xdf; xa4;
  x0a; xdf; xa5; x0a; xdf; xa6; x0a; xdf;
  xa7; x0a; xdf; xa8; x0a; xdf; xa9; x0a;
  xdf; xaa; x0a; xdf; xab; x0a; xdf; xac;
  x0a; xdf; xad; x0a; xdf; xae; x0a; xdf;
  xaf; x0a; xdf; xb0; x0a; xdf; xb1; x0a;
  xdf; xb2; x0a; xdf; xb3; x0a; xdf; xb4;
  x0a; xdf; xb5; x0a; xdf; xb6; x0a; xdf;
  xb7; x0a; xdf; xb8; x0a; xdf; xb9; x0a
].
(* tests/test_data/whatwg/big5_whatwg_test_decode_in.txt, entries 41216..41471 *)
Definition big5_decode_in_161 : list byte := [
  xdf; xba; x0a; xdf; xbb; x0a; xdf; xbc;
  x0a; xdf; xbd; x0a; xdf; xbe; x0a; xdf;
  xbf; x0a; xdf; xc0; x0a; xdf; xc1; x0a;
  xdf; xc2; x0a; xdf; xc3; x0a; xdf; xc4;
  x0a; xdf; xc5; x0a; xdf; xc6; x0a; xdf;
  xc7; x0a; xdf; xc8; x0a; xdf; xc9; x0a;
  xdf; xca; x0a; xdf; xcb; x0a; xdf; xcc;
  x0a; xdf; xcd; x0a; xdf; xce; x0a; xdf;
  xcf; x0a; xdf; xd0; x0a; xdf; xd1; x0a;
  xdf; xd2; x0a; xdf; xd3; x0a; xdf; xd4;
  x0a; xdf; xd5; x0a; xdf; xd6; x0a; xdf;
  xd7; x0a; xdf; xd8; x0a; xdf; xd9; x0a;
  xdf; xda; x0a; xdf; xdb; x0a; xdf; xdc;
  x0a; xdf; xdd; x0a; xdf; xde; x0a; xdf;
  xdf; x0a; xdf; xe0; x0a; xdf; xe1; x0a;
  xdf; xe2; x0a; xdf; xe3; x0a; xdf; xe4;
  x0a; xdf; xe5; x0a; xdf; xe6; x0a; xdf;
  xe7; x0a; xdf; xe8; x0a; xdf; xe9; x0a;
  xdf; xea; x0a; xdf; xeb; x0a; xdf; xec;
  x0a; xdf; xed; x0a; xdf; xee; x0a; xdf;
  xef; x0a; xdf; xf0; x0a; xdf; xf1; x0a;
  xdf; xf2; x0a; xdf; xf3; x0a; xdf; xf4;
  x0a; xdf; xf5; x0a; xdf; xf6; x0a; xdf;
  xf7; x0a; xdf; xf8; x0a; xdf; xf9; x0a;
  xdf; xfa; x0a; xdf; xfb; x0a; xdf; xfc;
  x0a; xdf; xfd; x0a; xdf; xfe; x0a; xe0;
  x40; x0a; xe0; x41; x0a; xe0; x42; x0a;
  xe0; x43; x0a; xe0; x44; x0a; xe0; x45;
  x0a; xe0; x46; x0a; xe0; x47; x0a; xe0;
  x48; x0a; xe0; x49; x0a; xe0; x4a; x0a;
  xe0; x4b; x0a; xe0; x4c; x0a; xe0; x4d;
  x0a; xe0; x4e; x0a; xe0; x4f; x0a; xe0
].
(* tests/test_data/whatwg/big5_whatwg_test_decode_in.txt, entries 41472..41727 *)
Definition big5_decode_in_162 : list byte := [
  x50; x0a; xe0; x51; x0a; xe0; x52; x0a;
  xe0; x53; x0a; xe0; x54; x0a; xe0; x55;
  x0a; xe0; x56; x0a; xe0; x57; x0a; xe0;
  x58; x0a; xe0; x59; x0a; xe0; x5a; x0a;
  xe0; x5b; x0a; xe0; x5c; x0a; xe0; x5d;
  x0a; xe0; x5e; x0a; xe0; x5f; x0a; xe0;
  x60; x0a; xe0; x61; x0a; xe0; x62; x0a;
  xe0; x63; x0a; xe0; x64; x0a; xe0; x65;
  x0a; xe0; x66; x0a; xe0; x67; x0a; xe0;
  x68; x0a; xe0; x69; x0a; xe0; x6a; x0a;
  xe0; x6b; x0a; xe0; x6c; x0a; xe0; x6d;
  x0a; xe0; x6e; x0a; xe0; x6f; x0a; xe0;
  x70; x0a; xe0; x71; x0a; xe0; x72; x0a;
  xe0; x73; x0a; xe0; x74; x0a; xe0; x75;
  x0a; xe0; x76; x0a; xe0; x77; x0a; xe0;
  x78; x0a; xe0; x79; x0a; xe0; x7a; x0a;
  xe0; x7b; x0a; xe0; x7c; x0a; xe0; x7d;
  x0a; xe0; x7e; x0a; xe0; xa1; x0a; xe0;
  xa2; x0a; xe0; xa3; x0a; xe0; xa4; x0a;
  xe0; xa5; x0a; xe0; xa6; x0a; xe0; xa7;
  x0a; xe0; xa8; x0a; xe0; xa9; x0a; xe0;
  xaa; x0a; xe0; xab; x0a; xe0; xac; x0a;
  xe0; xad; x0a; xe0; xae; x0a; xe0; xaf;
  x0a; xe0; xb0; x0a; xe0; xb1; x0a; xe0;
  xb2; x0a; xe0; xb3; x0a; xe0; xb4; x0a;
  xe0; xb5; x0a; xe0; xb6; x0a; xe0; xb7;
  x0a; xe0; xb8; x0a; xe0; xb9; x0a; xe0;
  xba; x0a; xe0; xbb; x0a; xe0; xbc; x0a;
  xe0; xbd; x0a; xe0; xbe; x0a; xe0; xbf;
  x0a; xe0; xc0; x0a; xe0; xc1; x0a; xe0;
  xc2; x0a; xe0; xc3; x0a; xe0; xc4; x0a;
  xe0; xc5; x0a; xe0; xc6; x0a; xe0; xc7
].
(* tests/test_data/whatwg/big5_whatwg_test_decode_in.txt, entries 41728..41983 *)
Definition big5_decode_in_163 : list byte := [
  x0a; xe0; xc8; x0a; xe0; xc9; x0a; xe0;
  xca; x0a; xe0; xcb; x0a; xe0; xcc; x0a;
  xe0; xcd; x0a; xe0; xce; x0a; xe0; xcf;
  x0a; xe0; xd0; x0a; xe0; xd1; x0a; xe0;
  xd2; x0a; xe0; xd3; x0a; xe0; xd4; x0a;
  xe0; xd5; x0a; xe0; xd6; x0a; xe0; xd7;
  x0a; xe0; xd8; x0a; xe0; xd9; x0a; xe0;
  xda; x0a; xe0; xdb; x0a; xe0; xdc; x0a;
  xe0; xdd; x0a; xe0; xde; x0a; xe0; xdf;
  x0a; xe0; xe0; x0a; xe0; xe1; x0a; xe0;
  xe2; x0a; xe0; xe3; x0a; xe0; xe4; x0a;
  xe0; xe5; x0a; xe0; xe6; x0a; xe0; xe7;
  x0a; xe0; xe8; x0a; xe0; xe9; x0a; xe0;
  xea; x0a; xe0; xeb; x0a; xe0; xec; x0a;
  xe0; xed; x0a; xe0; xee; x0a; xe0; xef;
  x0a; xe0; xf0; x0a; xe0; xf1; x0a; xe0;
  xf2; x0a; xe0; xf3; x0a; xe0; xf4; x0a;
  xe0; xf5; x0a; xe0; xf6; x0a; xe0; xf7;
  x0a; xe0; xf8; x0a; xe0; xf9; x0a; xe0;
  xfa; x0a; xe0; xfb; x0a; xe0; xfc; x0a;
  xe0; xfd; x0a; xe0; xfe; x0a; xe1; x40;
  x0a; xe1; x41; x0a; xe1; x42; x0a; xe1;
  x43; x0a; xe1; x44; x0a; xe1; x45; x0a;
  xe1; x46; x0a; xe1; x47; x0a; xe1; x48;
  x0a; xe1; x49; x0a; xe1; x4a; x0a; xe1;
  x4b; x0a; xe1; x4c; x0a; xe1; x4d; x0a;
  xe1; x4e; x0a; xe1; x4f; x0a; xe1; x50;
  x0a; xe1; x51; x0a; xe1; x52; x0a; xe1;
  x53; x0a; xe1; x54; x0a; xe1; x55; x0a;
  xe1; x56; x0a; xe1; x57; x0a; xe1; x58;
  x0a; xe1; x59; x0a; xe1; x5a; x0a; xe1;
  x5b; x0a; xe1; x5c; x0a; xe1; x5d; x0a
].
(* tests/test_data/whatwg/big5_whatwg_test_decode_in.txt, entries 41984..42239 *)
Definition big5_decode_in_164 : list byte := [
  xe1; x5e; x0a; xe1; x5f; x0a; xe1; x60;
  x0a; xe1; x61; x0a; xe1; x62; x0a; xe1;
  x63; x0a; xe1; x64; x0a; xe1; x65; x0a;
  xe1; x66; x0a; xe1; x67; x0a; xe1; x68;
  x0a; xe1; x69; x0a; xe1; x6a; x0a; xe1;
  x6b; x0a; xe1; x6c; x0a; xe1; x6d; x0a;
  xe1; x6e; x0a; xe1; x6f; x0a; xe1; x70;
  x0a; xe1; x71; x0a; xe1; x72; x0a; xe1;
  x73; x0a; xe1; x74; x0a; xe1; x75; x0a;
  xe1; x76; x0a; xe1; x77; x0a; xe1; x78;
  x0a; xe1; x79; x0a; xe1; x7a; x0a; xe1;
  x7b; x0a; xe1; x7c; x0a; xe1; x7d; x0a;
  xe1; x7e; x0a; xe1; xa1; x0a; xe1; xa2;
  x0a; xe1; xa3; x0a; xe1; xa4; x0a; xe1;
  xa5; x0a; xe1; xa6; x0a; xe1; xa7; x0a;
  xe1; xa8; x0a; xe1; xa9; x0a; xe1; xaa;
  x0a; xe1; xab; x0a; xe1; xac; x0a; xe1;
  xad; x0a; xe1; xae; x0a; xe1; xaf; x0a;
  xe1; xb0; x0a; xe1; xb1; x0a; xe1; xb2;
  x0a; xe1; xb3; x0a; xe1; xb4; x0a; xe1;
  xb5; x0a; xe1; xb6; x0a; xe1; xb7; x0a;
  xe1; xb8; x0a; xe1; xb9; x0a; xe1; xba;
  x0a; xe1; xbb; x0a; xe1; xbc; x0a; xe1;
  xbd; x0a; xe1; xbe; x0a; xe1; xbf; x0a;
  xe1; xc0; x0a; xe1; xc1; x0a; xe1; xc2;
  x0a; xe1; xc3; x0a; xe1; xc4; x0a; xe1;
  xc5; x0a; xe1; xc6; x0a; xe1; xc7; x0a;
  xe1; xc8; x0a; xe1; xc9; x0a; xe1; xca;
  x0a; xe1; xcb; x0a; xe1; xcc; x0a; xe1;
  xcd; x0a; xe1; xce; x0a; xe1; xcf; x0a;
  xe1; xd0; x0a; xe1; xd1; x0a; xe1; xd2;
  x0a; xe1; xd3; x0a; xe1; xd4; x0a; xe1
].
(* tests/test_data/whatwg/big5_whatwg_test_decode_in.txt, entries 42240..42495 *)
Definition big5_decode_in_165 : list byte := [
  xd5; x0a; xe1; xd6; x0a; xe1; xd7; x0a;
  xe1; xd8; x0a; xe1; xd9; x0a; xe1; xda;
  x0a; xe1; xdb; x0a; xe1; xdc; x0a; xe1;
  xdd; x0a; xe1; xde; x0a; xe1; xdf; x0a;
  xe1; xe0; x0a; xe1; xe1; x0a; xe1; xe2;
  x0a; xe1; xe3; x0a; xe1; xe4; x0a; xe1;
  xe5; x0a; xe1; xe6; x0a; xe1; xe7; x0a;
  xe1; xe8; x0a; xe1; xe9; x0a; xe1; xea;
  x0a; xe1; xeb; x0a; xe1; xec; x0a; xe1;
  xed; x0a; xe1; xee; x0a; xe1; xef; x0a;
  xe1; xf0; x0a; xe1; xf1; x0a; xe1; xf2;
  x0a; xe1; xf3; x0a; xe1; xf4; x0a; xe1;
  xf5; x0a; xe1; xf6; x0a; xe1; xf7; x0a;
  xe1; xf8; x0a; xe1; xf9; x0a; xe1; xfa;
  x0a; xe1; xfb; x0a; xe1; xfc; x0a; xe1;
  xfd; x0a; xe1; xfe; x0a; xe2; x40; x0a;
  xe2; x41; x0a; xe2; x42; x0a; xe2; x43;
  x0a; xe2; x44; x0a; xe2; x45; x0a; xe2;
  x46; x0a; xe2; x47; x0a; xe2; x48; x0a;
  xe2; x49; x0a; xe2; x4a; x0a; xe2; x4b;
  x0a; xe2; x4c; x0a; xe2; x4d; x0a; xe2;
  x4e; x0a; xe2; x4f; x0a; xe2; x50; x0a;
  xe2; x51; x0a; xe2; x52; x0a; xe2; x53;
  x0a; xe2; x54; x0a; xe2; x55; x0a; xe2;
  x56; x0a; xe2; x57; x0a; xe2; x58; x0a;
  xe2; x59; x0a; xe2; x5a; x0a; xe2; x5b;
  x0a; xe2; x5c; x0a; xe2; x5d; x0a; xe2;
  x5e; x0a; xe2; x5f; x0a; xe2; x60; x0a;
  xe2; x61; x0a; xe2; x62; x0a; xe2; x63;
  x0a; xe2; x64; x0a; xe2; x65; x0a; xe2;
  x66; x0a; xe2; x67; x0a; xe2; x68; x0a;
  xe2; x69; x0a; xe2; x6a; x0a; xe2; x6b
].
(* tests/test_data/whatwg/big5_whatwg_test_decode_in.txt, entries 42496..42751 *)
Definition big5_decode_in_166 : list byte := [
  x0a; xe2; x6c; x0a; xe2; x6d; x0a; xe2;
  x6e; x0a; xe2; x6f; x0a; xe2; x70; x0a;
  xe2; x71; x0a; xe2; x72; x0a; xe2; x73;
  x0a; xe2; x74; x0a; xe2; x75; x0a; xe2;
  x76; x0a; xe2; x77; x0a; xe2; x78; x0a;
  xe2; x79; x0a; xe2; x7a; x0a; xe2; x7b;
  x0a; xe2; x7c; x0a; xe2; x7d; x0a; xe2;
  x7e; x0a; xe2; xa1; x0a; xe2; xa2; x0a;
  xe2; xa3; x0a; xe2; xa4; x0a; xe2; xa5;
  x0a; xe2; xa6; x0a; xe2; xa7; x0a; xe2;
  xa8; x0a; xe2; xa9; x0a; xe2; xaa; x0a;
  xe2; xab; x0a; xe2; xac; x0a; xe2; xad;
  x0a; xe2; xae; x0a; xe2; xaf; x0a; xe2;
  xb0; x0a; xe2; xb1; x0a; xe2; xb2; x0a;
  xe2; xb3; x0a; xe2; xb4; x0a; xe2; xb5;
  x0a; xe2; xb6; x0a; xe2; xb7; x0a; xe2;
  xb8; x0a; xe2; xb9; x0a; xe2; xba; x0a;
  xe2; xbb; x0a; xe2; xbc; x0a; xe2; xbd;
  x0a; xe2; xbe; x0a; xe2; xbf; x0a; xe2;
  xc0; x0a; xe2; xc1; x0a; xe2; xc2; x0a;
  xe2; xc3; x0a; xe2; xc4; x0a; xe2; xc5;
  x0a; xe2; xc6; x0a; xe2; xc7; x0a; xe2;
  xc8; x0a; xe2; xc9; x0a; xe2; xca; x0a;
  xe2; xcb; x0a; xe2; xcc; x0a; xe2; xcd;
  x0a; xe2; xce; x0a; xe2; xcf; x0a; xe2;
  xd0; x0a; xe2; xd1; x0a; xe2; xd2; x0a;
  xe2; xd3; x0a; xe2; xd4; x0a; xe2; xd5;
  x0a; xe2; xd6; x0a; xe2; xd7; x0a; xe2;
  xd8; x0a; xe2; xd9; x0a; xe2; xda; x0a;
  xe2; xdb; x0a; xe2; xdc; x0a; xe2; xdd;
  x0a; xe2; xde; x0a; xe2; xdf; x0a; xe2;
  xe0; x0a; xe2; xe1; x0a; xe2; xe2; x0a
].
(* tests/test_data/whatwg/big5_whatwg_test_decode_in.txt, entries 42752..43007 *)
Definition big5_decode_in_167 : list byte := [
  xe2; xe3; x0a; xe2; xe4; x0a; xe2; xe5;
  x0a; xe2; xe6; x0a; xe2; xe7; x0a; xe2;
  xe8; x0a; xe2; xe9; x0a; xe2; xea; x0a;
  xe2; xeb; x0a; xe2; xec; x0a; xe2; xed;
  x0a; xe2; xee; x0a; xe2; xef; x0a; xe2;
  xf0; x0a; xe2; xf1; x0a; xe2; xf2; x0a;
  xe2; xf3; x0a; xe2; xf4; x0a; xe2; xf5;
  x0a; xe2; xf6; x0a; xe2; xf7; x0a; xe2;
  xf8; x0a; xe2; xf9; x0a; xe2; xfa; x0a;
  xe2; xfb; x0a; xe2; xfc; x0a; xe2; xfd;
  x0a; xe2; xfe; x0a; xe3; x40; x0a; xe3;
  x41; x0a; xe3; x42; x0a; xe3; x43; x0a;
  xe3; x44; x0a; xe3; x45; x0a; xe3; x46;
  x0a; xe3; x47; x0a; xe3; x48; x0a; xe3;
  x49; x0a; xe3; x4a; x0a; xe3; x4b; x0a;
  xe3; x4c; x0a; xe3; x4d; x0a; xe3; x4e;
  x0a; xe3; x4f; x0a; xe3; x50; x0a; xe3;
  x51; x0a; xe3; x52; x0a; xe3; x53; x0a;
  xe3; x54; x0a; xe3; x55; x0a; xe3; x56;
  x0a; xe3; x57; x0a; xe3; x58; x0a; xe3;
  x59; x0a; xe3; x5a; x0a; xe3; x5b; x0a;
  xe3; x5c; x0a; xe3; x5d; x0a; xe3; x5e;
  x0a; xe3; x5f; x0a; xe3; x60; x0a; xe3;
  x61; x0a; xe3; x62; x0a; xe3; x63; x0a;
  xe3; x64; x0a; xe3; x65; x0a; xe3; x66;
  x0a; xe3; x67; x0a; xe3; x68; x0a; xe3;
  x69; x0a; xe3; x6a; x0a; xe3; x6b; x0a;
  xe3; x6c; x0a; xe3; x6d; x0a; xe3; x6e;
  x0a; xe3; x6f; x0a; xe3; x70; x0a; xe3;
  x71; x0a; xe3; x72; x0a; xe3; x73; x0a;
  xe3; x74; x0a; xe3; x75; x0a; xe3; x76;
  x0a; xe3; x77; x0a; xe3; x78; x0a; xe3
].
(* tests/test_data/whatwg/big5_whatwg_test_decode_in.txt, entries 43008..43263 *)
Definition big5_decode_in_168 : list byte := [
  x79; x0a; xe3; x7a; x0a; xe3; x7b; x0a;
  xe3; x7c; x0a; xe3; x7d; x0a; xe3; x7e;
  x0a; xe3; xa1; x0a; xe3; xa2; x0a; xe3;
  xa3; x0a; xe3; xa4; x0a; xe3; xa5; x0a;
  xe3; xa6; x0a; xe3; xa7; x0a; xe3; xa8;
  x0a; xe3; xa9; x0a; xe3; xaa; x0a; xe3;
  xab; x0a; xe3; xac; x0a; xe3; xad; x0a;
  xe3; xae; x0a; xe3; xaf; x0a; xe3; xb0;
  x0a; xe3; xb1; x0a; xe3; xb2; x0a; xe3;
  xb3; x0a; xe3; xb4; x0a; xe3; xb5; x0a;
  xe3; xb6; x0a; xe3; xb7; x0a; xe3; xb8;
  x0a; xe3; xb9; x0a; xe3; xba; x0a; xe3;
  xbb; x0a; xe3; xbc; x0a; xe3; xbd; x0a;
  xe3; xbe; x0a; xe3; xbf; x0a; xe3; xc0;
  x0a; xe3; xc1; x0a; xe3; xc2; x0a; xe3;
  xc3; x0a; xe3; xc4; x0a; xe3; xc5; x0a;
  xe3; xc6; x0a; xe3; xc7; x0a; xe3; xc8;
  x0a; xe3; xc9; x0a; xe3; xca; x0a; xe3;
  xcb; x0a; xe3; xcc; x0a; xe3; xcd; x0a;
  xe3; xce; x0a; xe3; xcf; x0a; xe3; xd0;
  x0a; xe3; xd1; x0a; xe3; xd2; x0a; xe3;
  xd3; x0a; xe3; xd4; x0a; xe3; xd5; x0a;
  xe3; xd6; x0a; xe3; xd7; x0a; xe3; xd8;
  x0a; xe3; xd9; x0a; xe3; xda; x0a; xe3;
  xdb; x0a; xe3; xdc; x0a; xe3; xdd; x0a;
  xe3; xde; x0a; xe3; xdf; x0a; xe3; xe0;
  x0a; xe3; xe1; x0a; xe3; xe2; x0a; xe3;
  xe3; x0a; xe3; xe4; x0a; xe3; xe5; x0a;
  xe3; xe6; x0a; xe3; xe7; x0a; xe3; xe8;
  x0a; xe3; xe9; x0a; xe3; xea; x0a; xe3;
  xeb; x0a; xe3; xec; x0a; xe3; xed; x0a;
  xe3; xee; x0a; xe3; xef; x0a; xe3; xf0
].
(* tests/test_data/whatwg/big5_whatwg_test_decode_in.txt, entries 43264..43519 *)
Definition big5_decode_in_169 : list byte := [
  x0a; xe3; xf1; x0a; xe3; xf2; x0a; xe3;
  xf3; x0a; xe3; xf4; x0a; xe3; xf5; x0a;
  xe3; xf6; x0a; xe3; xf7; x0a; xe3; xf8;
  x0a; xe3; xf9; x0a; xe3; xfa; x0a; xe3;
  xfb; x0a; xe3; xfc; x0a; xe3; xfd; x0a;
  xe3; xfe; x0a; xe4; x40; x0a; xe4; x41;
  x0a; xe4; x42; x0a; xe4; x43; x0a; xe4;
  x44; x0a; xe4; x45; x0a; xe4; x46; x0a;
  xe4; x47; x0a; xe4; x48; x0a; xe4; x49;
  x0a; xe4; x4a; x0a; xe4; x4b; x0a; xe4;
  x4c; x0a; xe4; x4d; x0a; xe4; x4e; x0a;
  xe4; x4f; x0a; xe4; x50; x0a; xe4; x51;
  x0a; xe4; x52; x0a; xe4; x53; x0a; xe4;
  x54; x0a; xe4; x55; x0a; xe4; x56; x0a;
  xe4; x57; x0a; xe4; x58; x0a; xe4; x59;
  x0a; xe4; x5a; x0a; xe4; x5b; x0a; xe4;
  x5c; x0a; xe4; x5d; x0a; xe4; x5e; x0a;
  xe4; x5f; x0a; xe4; x60; x0a; xe4; x61;
  x0a; xe4; x62; x0a; xe4; x63; x0a; xe4;
  x64; x0a; xe4; x65; x0a; xe4; x66; x0a;
  xe4; x67; x0a; xe4; x68; x0a; xe4; x69;
  x0a; xe4; x6a; x0a; xe4; x6b; x0a; xe4;
  x6c; x0a; xe4; x6d; x0a; xe4; x6e; x0a;
  xe4; x6f; x0a; xe4; x70; x0a; xe4; x71;
  x0a; xe4; x72; x0a; xe4; x73; x0a; xe4;
  x74; x0a; xe4; x75; x0a; xe4; x76; x0a;
  xe4; x77; x0a; xe4; x78; x0a; xe4; x79;
  x0a; xe4; x7a; x0a; xe4; x7b; x0a; xe4;
  x7c; x0a; xe4; x7d; x0a; xe4; x7e; x0a;
  xe4; xa1; x0a; xe4; xa2; x0a; xe4; xa3;
  x0a; xe4; xa4; x0a; xe4; xa5; x0a; xe4;
  xa6; x0a; xe4; xa7; x0a; xe4; xa8; x0a
].
(* tests/test_data/whatwg/big5_whatwg_test_decode_in.txt, entries 43520..43775 *)
Definition big5_decode_in_170 : list byte := [
  xe4; xa9; x0a; xe4; xaa; x0a; xe4; xab;
  x0a; xe4; xac; x0a; xe4; xad; x0a; xe4;
  xae; x0a; xe4; xaf; x0a; xe4; xb0; x0a;
  xe4; xb1; x0a; xe4; xb2; x0a; xe4; xb3;
  x0a; xe4; xb4; x0a; xe4; xb5; x0a; xe4;
  xb6; x0a; xe4; xb7; x0a; xe4; xb8; x0a;
  xe4; xb9; x0a; xe4; xba; x0a; xe4; xbb;
  x0a; xe4; xbc; x0a; xe4; xbd; x0a; xe4;
  xbe; x0a; xe4; xbf; x0a; xe4; xc0; x0a;
  xe4; xc1; x0a; xe4; xc2; x0a; xe4; xc3;
  x0a; xe4; xc4; x0a; xe4; xc5; x0a; xe4;
  xc6; x0a; xe4; xc7; x0a; xe4; xc8; x0a;
  xe4; xc9; x0a; xe4; xca; x0a; xe4; xcb;
  x0a; xe4; xcc; x0a; xe4; xcd; x0a; xe4;
  xce; x0a; xe4; xcf; x0a; xe4; xd0; x0a;
  xe4; xd1; x0a; xe4; xd2; x0a; xe4; xd3;
  x0a; xe4; xd4; x0a; xe4; xd5; x0a; xe4;
  xd6; x0a; xe4; xd7; x0a; xe4; xd8; x0a;
  xe4; xd9; x0a; xe4; xda; x0a; xe4; xdb;
  x0a; xe4; xdc; x0a; xe4; xdd; x0a; xe4;
  xde; x0a; xe4; xdf; x0a; xe4; xe0; x0a;
  xe4; xe1; x0a; xe4; xe2; x0a; xe4; xe3;
  x0a; xe4; xe4; x0a; xe4; xe5; x0a; xe4;
  xe6; x0a; xe4; xe7; x0a; xe4; xe8; x0a;
  xe4; xe9; x0a; xe4; xea; x0a; xe4; xeb;
  x0a; xe4; xec; x0a; xe4; xed; x0a; xe4;
  xee; x0a; xe4; xef; x0a; xe4; xf0; x0a;
  xe4; xf1; x0a; xe4; xf2; x0a; xe4; xf3;
  x0a; xe4; xf4; x0a; xe4; xf5; x0a; xe4;
  xf6; x0a; xe4; xf7; x0a; xe4; xf8; x0a;
  xe4; xf9; x0a; xe4; xfa; x0a; xe4; xfb;
  x0a; xe4; xfc; x0a; xe4; xfd; x0a; xe4
].
(* tests/test_data/whatwg/big5_whatwg_test_decode_in.txt, entries 43776..44031 *)
Definition big5_decode_in_171 : list byte := [
  xfe; x0a; xe5; x40; x0a; xe5; x41; x0a;
  xe5; x42; x0a; xe5; x43; x0a; xe5; x44;
  x0a; xe5; x45; x0a; xe5; x46; x0a; xe5;
  x47; x0a; xe5; x48; x0a; xe5; x49; x0a;
  xe5; x4a; x0a; xe5; x4b; x0a; xe5; x4c;
  x0a; xe5; x4d; x0a; xe5; x4e; x0a; xe5;
  x4f; x0a; xe5; x50; x0a; xe5; x51; x0a;
  xe5; x52; x0a; xe5; x53; x0a; xe5; x54;
  x0a; xe5; x55; x0a; xe5; x56; x0a; xe5;
  x57; x0a; xe5; x58; x0a; xe5; x59; x0a;
  xe5; x5a; x0a; xe5; x5b; x0a; xe5; x5c;
  x0a; xe5; x5d; x0a; xe5; x5e; x0a; xe5;
  x5f; x0a; xe5; x60; x0a; xe5; x61; x0a;
  xe5; x62; x0a; xe5; x63; x0a; xe5; x64;
  x0a; xe5; x65; x0a; xe5; x66; x0a; xe5;
  x67; x0a; xe5; x68; x0a; xe5; x69; x0a;
  xe5; x6a; x0a; xe5; x6b; x0a; xe5; x6c;
  x0a; xe5; x6d; x0a; xe5; x6e; x0a; xe5;
  x6f; x0a; xe5; x70; x0a; xe5; x71; x0a;
  xe5; x72; x0a; xe5; x73; x0a; xe5; x74;
  x0a; xe5; x75; x0a; xe5; x76; x0a; xe5;
  x77; x0a; xe5; x78; x0a; xe5; x79; x0a;
  xe5; x7a; x0a; xe5; x7b; x0a; xe5; x7c;
  x0a; xe5; x7d; x0a; xe5; x7e; x0a; xe5;
  xa1; x0a; xe5; xa2; x0a; xe5; xa3; x0a;
  xe5; xa4; x0a; xe5; xa5; x0a; xe5; xa6;
  x0a; xe5; xa7; x0a; xe5; xa8; x0a; xe5;
  xa9; x0a; xe5; xaa; x0a; xe5; xab; x0a;
  xe5; xac; x0a; xe5; xad; x0a; xe5; xae;
  x0a; xe5; xaf; x0a; xe5; xb0; x0a; xe5;
  xb1; x0a; xe5; xb2; x0a; xe5; xb3; x0a;
  xe5; xb4; x0a; xe5; xb5; x0a; xe5; xb6
].
(* tests/test_data/whatwg/big5_whatwg_test_decode_in.txt, entries 44032..44287 *)
Definition big5_decode_in_172 : list byte := [
  x0a; xe5; xb7; x0a; xe5; xb8; x0a; xe5;
  xb9; x0a; xe5; xba; x0a; xe5; xbb; x0a;
  xe5; xbc; x0a; xe5; xbd; x0a; xe5; xbe;
  x0a; xe5; xbf; x0a; xe5; xc0; x0a; xe5;
  xc1; x0a; xe5; xc2; x0a; xe5; xc3; x0a;
  xe5; xc4; x0a; xe5; xc5; x0a; xe5; xc6;
  x0a; xe5; xc7; x0a; xe5; xc8; x0a; xe5;
  xc9; x0a; xe5; xca; x0a; xe5; xcb; x0a;
  xe5; xcc; x0a; xe5; xcd; x0a; xe5; xce;
  x0a; xe5; xcf; x0a; xe5; xd0; x0a; xe5;
  xd1; x0a; xe5; xd2; x0a; xe5; xd3; x0a;
  xe5; xd4; x0a; xe5; xd5; x0a; xe5; xd6;
  x0a; xe5; xd7; x0a; xe5; xd8; x0a; xe5;
  xd9; x0a; xe5; xda; x0a; xe5; xdb; x0a;
  xe5; xdc; x0a; xe5; xdd; x0a; xe5; xde;
  x0a; xe5; xdf; x0a; xe5; xe0; x0a; xe5;
  xe1; x0a; xe5; xe2; x0a; xe5; xe3; x0a;
  xe5; xe4; x0a; xe5; xe5; x0a; xe5; xe6;
  x0a; xe5; xe7; x0a; xe5; xe8; x0a; xe5;
  xe9; x0a; xe5; xea; x0a; xe5; xeb; x0a;
  xe5; xec; x0a; xe5; xed; x0a; xe5; xee;
  x0a; xe5; xef; x0a; xe5; xf0; x0a; xe5;
  xf1; x0a; xe5; xf2; x0a; xe5; xf3; x0a;
  xe5; xf4; x0a; xe5; xf5; x0a; xe5; xf6;
  x0a; xe5; xf7; x0a; xe5; xf8; x0a; xe5;
  xf9; x0a; xe5; xfa; x0a; xe5; xfb; x0a;
  xe5; xfc; x0a; xe5; xfd; x0a; xe5; xfe;
  x0a; xe6; x40; x0a; xe6; x41; x0a; xe6;
  x42; x0a; xe6; x43; x0a; xe6; x44; x0a;
  xe6; x45; x0a; xe6; x46; x0a; xe6; x47;
  x0a; xe6; x48; x0a; xe6; x49; x0a; xe6;
  x4a; x0a; xe6; x4b; x0a; xe6; x4c; x0a
].
(* tests/test_data/whatwg/big5_whatwg_test_decode_in.txt, entries 44288..44543 *)
Definition big5_decode_in_173 : list byte := [
  xe6; x4d; x0a; xe6; x4e; x0a; xe6; x4f;
  x0a; xe6; x50; x0a; xe6; x51; x0a; xe6;
  x52; x0a; xe6; x53; x0a; xe6; x54; x0a;
  xe6; x55; x0a; xe6; x56; x0a; xe6; x57;
  x0a; xe6; x58; x0a; xe6; x59; x0a; xe6;
  x5a; x0a; xe6; x5b; x0a; xe6; x5c; x0a;
  xe6; x5d; x0a; xe6; x5e; x0a; xe6; x5f;
  x0a; xe6; x60; x0a; xe6; x61; x0a; xe6;
  x62; x0a; xe6; x63; x0a; xe6; x64; x0a;
  xe6; x65; x0a; xe6; x66; x0a; xe6; x67;
  x0a; xe6; x68; x0a; xe6; x69; x0a; xe6;
  x6a; x0a; xe6; x6b; x0a; xe6; x6c; x0a;
  xe6; x6d; x0a; xe6; x6e; x0a; xe6; x6f;
  x0a; xe6; x70; x0a; xe6; x71; x0a; xe6;
  x72; x0a; xe6; x73; x0a; xe6; x74; x0a;
  xe6; x75; x0a; xe6; x76; x0a; xe6; x77;
  x0a; xe6; x78; x0a; xe6; x79; x0a; xe6;
  x7a; x0a; xe6; x7b; x0a; xe6; x7c; x0a;
  xe6; x7d; x0a; xe6; x7e; x0a; xe6; xa1;
  x0a; xe6; xa2; x0a; xe6; xa3; x0a; xe6;
  xa4; x0a; xe6; xa5; x0a; xe6; xa6; x0a;
  xe6; xa7; x0a; xe6; xa8; x0a; xe6; xa9;
  x0a; xe6; xaa; x0a; xe6; xab; x0a; xe6;
  xac; x0a; xe6; xad; x0a; xe6; xae; x0a;
  xe6; xaf; x0a; xe6; xb0; x0a; xe6; xb1;
  x0a; xe6; xb2; x0a; xe6; xb3; x0a; xe6;
  xb4; x0a; xe6; xb5; x0a; xe6; xb6; x0a;
  xe6; xb7; x0a; xe6; xb8; x0a; xe6; xb9;
  x0a; xe6; xba; x0a; xe6; xbb; x0a; xe6;
  xbc; x0a; xe6; xbd; x0a; xe6; xbe; x0a;
  xe6; xbf; x0a; xe6; xc0; x0a; xe6; xc1;
  x0a; xe6; xc2; x0a; xe6; xc3; x0a; xe6
].
(* tests/test_data/whatwg/big5_whatwg_test_decode_in.txt, entries 44544..44799 *)
Definition big5_decode_in_174 : list byte := [
  xc4; x0a; xe6; xc5; x0a; xe6; xc6; x0a;
  xe6; xc7; x0a; xe6; xc8; x0a; xe6; xc9;
  x0a; xe6; xca; x0a; xe6; xcb; x0a; xe6;
  xcc; x0a; xe6; xcd; x0a; xe6; xce; x0a;
  xe6; xcf; x0a; xe6; xd0; x0a; xe6; xd1;
  x0a; xe6; xd2; x0a; xe6; xd3; x0a; xe6;
  xd4; x0a; xe6; xd5; x0a; xe6; xd6; x0a;
  xe6; xd7; x0a; xe6; xd8; x0a; xe6; xd9;
  x0a; xe6; xda; x0a; xe6; xdb; x0a; xe6;
  xdc; x0a; xe6; xdd; x0a; xe6; xde; x0a;
  xe6; xdf; x0a; xe6; xe0; x0a; xe6; xe1;
  x0a; xe6; xe2; x0a; xe6; xe3; x0a; xe6;
  xe4; x0a; xe6; xe5; x0a; xe6; xe6; x0a;
  xe6; xe7; x0a; xe6; xe8; x0a; xe6; xe9;
  x0a; xe6; xea; x0a; xe6; xeb; x0a; xe6;
  xec; x0a; xe6; xed; x0a; xe6; xee; x0a;
  xe6; xef; x0a; xe6; xf0; x0a; xe6; xf1;
  x0a; xe6; xf2; x0a; xe6; xf3; x0a; xe6;
  xf4; x0a; xe6; xf5; x0a; xe6; xf6; x0a;
  xe6; xf7; x0a; xe6; xf8; x0a; xe6; xf9;
  x0a; xe6; xfa; x0a; xe6; xfb; x0a; xe6;
  xfc; x0a; xe6; xfd; x0a; xe6; xfe; x0a;
  xe7; x40; x0a; xe7; x41; x0a; xe7; x42;
  x0a; xe7; x43; x0a; xe7; x44; x0a; xe7;
  x45; x0a; xe7; x46; x0a; xe7; x47; x0a;
  xe7; x48; x0a; xe7; x49; x0a; xe7; x4a;
  x0a; xe7; x4b; x0a; xe7; x4c; x0a; xe7;
  x4d; x0a; xe7; x4e; x0a; xe7; x4f; x0a;
  xe7; x50; x0a; xe7; x51; x0a; xe7; x52;
  x0a; xe7; x53; x0a; xe7; x54; x0a; xe7;
  x55; x0a; xe7; x56; x0a; xe7; x57; x0a;
  xe7; x58; x0a; xe7; x59; x0a; xe7; x5a
].
(* tests/test_data/whatwg/big5_whatwg_test_decode_in.txt, entries 44800..45055 *)
Definition big5_decode_in_175 : list byte := [
  x0a; xe7; x5b; x0a; xe7; x5c; x0a; xe7;
  x5d; x0a; xe7; x5e; x0a; xe7; x5f; x0a;
  xe7; x60; x0a; xe7; x61; x0a; xe7; x62;
  x0a; xe7; x63; x0a; xe7; x64; x0a; xe7;
  x65; x0a; xe7; x66; x0a; xe7; x67; x0a;
  xe7; x68; x0a; xe7; x69; x0a; xe7; x6a;
  x0a; xe7; x6b; x0a; xe7; x6c; x0a; xe7;
  x6d; x0a; xe7; x6e; x0a; xe7; x6f; x0a;
  xe7; x70; x0a; xe7; x71; x0a; xe7; x72;
  x0a; xe7; x73; x0a; xe7; x74; x0a; xe7;
  x75; x0a; xe7; x76; x0a; xe7; x77; x0a;
  xe7; x78; x0a; xe7; x79; x0a; xe7; x7a;
  x0a; xe7; x7b; x0a; xe7; x7c; x0a; xe7;
  x7d; x0a; xe7; x7e; x0a; xe7; xa1; x0a;
  xe7; xa2; x0a; xe7; xa3; x0a; xe7; xa4;
  x0a; xe7; xa5; x0a; xe7; xa6; x0a; xe7;
  xa7; x0a; xe7; xa8; x0a; xe7; xa9; x0a;
  xe7; xaa; x0a; xe7; xab; x0a; xe7; xac;
  x0a; xe7; xad; x0a; xe7; xae; x0a; xe7;
  xaf; x0a; xe7; xb0; x0a; xe7; xb1; x0a;
  xe7; xb2; x0a; xe7; xb3; x0a; xe7; xb4;
  x0a; xe7; xb5; x0a; xe7; xb6; x0a; xe7;
  xb7; x0a; xe7; xb8; x0a; xe7; xb9; x0a;
  xe7; xba; x0a; xe7; xbb; x0a; xe7; xbc;
  x0a; xe7; xbd; x0a; xe7; xbe; x0a; xe7;
  xbf; x0a; xe7; xc0; x0a; xe7; xc1; x0a;
  xe7; xc2; x0a; xe7; xc3; x0a; xe7; xc4;
  x0a; xe7; xc5; x0a; xe7; xc6; x0a; xe7;
  xc7; x0a; xe7; xc8; x0a; xe7; xc9; x0a;
  xe7; xca; x0a; xe7; xcb; x0a; xe7; xcc;
  x0a; xe7; xcd; x0a; xe7; xce; x0a; xe7;
  xcf; x0a; xe7; xd0; x0a; xe7; xd1; x0a
].
(* tests/test_data/whatwg/big5_whatwg_test_decode_in.txt, entries 45056..45311 *)
Definition big5_decode_in_176 : list byte := [
  xe7; xd2; x0a; xe7; xd3; x0a; xe7; xd4;
  x0a; xe7; xd5; x0a; xe7; xd6; x0a; xe7;
  xd7; x0a; xe7; xd8; x0a; xe7; xd9; x0a;
  xe7; xda; x0a; xe7; xdb; x0a; xe7; xdc;
  x0a; xe7; xdd; x0a; xe7; xde; x0a; xe7;
  xdf; x0a; xe7; xe0; x0a; xe7; xe1; x0a;
  xe7; xe2; x0a; xe7; xe3; x0a; xe7; xe4;
  x0a; xe7; xe5; x0a; xe7; xe6; x0a; xe7;
  xe7; x0a; xe7; xe8; x0a; xe7; xe9; x0a;
  xe7; xea; x0a; xe7; xeb; x0a; xe7; xec;
  x0a; xe7; xed; x0a; xe7; xee; x0a; xe7;
  xef; x0a; xe7; xf0; x0a; xe7; xf1; x0a;
  xe7; xf2; x0a; xe7; xf3; x0a; xe7; xf4;
  x0a; xe7; xf5; x0a; xe7; xf6; x0a; xe7;
  xf7; x0a; xe7; xf8; x0a; xe7; xf9; x0a;
  xe7; xfa; x0a; xe7; xfb; x0a; xe7; xfc;
  x0a; xe7; xfd; x0a; xe7; xfe; x0a; xe8;
  x40; x0a; xe8; x41; x0a; xe8; x42; x0a;
  xe8; x43; x0a; xe8; x44; x0a; xe8; x45;
  x0a; xe8; x46; x0a; xe8; x47; x0a; xe8;
  x48; x0a; xe8; x49; x0a; xe8; x4a; x0a;
  xe8; x4b; x0a; xe8; x4c; x0a; xe8; x4d;
  x0a; xe8; x4e; x0a; xe8; x4f; x0a; xe8;
  x50; x0a; xe8; x51; x0a; xe8; x52; x0a;
  xe8; x53; x0a; xe8; x54; x0a; xe8; x55;
  x0a; xe8; x56; x0a; xe8; x57; x0a; xe8;
  x58; x0a; xe8; x59; x0a; xe8; x5a; x0a;
  xe8; x5b; x0a; xe8; x5c; x0a; xe8; x5d;
  x0a; xe8; x5e; x0a; xe8; x5f; x0a; xe8;
  x60; x0a; xe8; x61; x0a; xe8; x62; x0a;
  xe8; x63; x0a; xe8; x64; x0a; xe8; x65;
  x0a; xe8; x66; x0a; xe8; x67; x0a; xe8
].
(* tests/test_data/whatwg/big5_whatwg_test_decode_in.txt, entries 45312..45567 *)
Definition big5_decode_in_177 : list byte := [
  x68; x0a; xe8; x69; x0a; xe8; x6a; x0a;
  xe8; x6b; x0a; xe8; x6c; x0a; xe8; x6d;
  x0a; xe8; x6e; x0a; xe8; x6f; x0a; xe8;
  x70; x0a; xe8; x71; x0a; xe8; x72; x0a;
  xe8; x73; x0a; xe8; x74; x0a; xe8; x75;
  x0a; xe8; x76; x0a; xe8; x77; x0a; xe8;
  x78; x0a; xe8; x79; x0a; xe8; x7a; x0a;
  xe8; x7b; x0a; xe8; x7c; x0a; xe8; x7d;
  x0a; xe8; x7e; x0a; xe8; xa1; x0a; xe8;
  xa2; x0a; xe8; xa3; x0a; xe8; xa4; x0a;
  xe8; xa5; x0a; xe8; xa6; x0a; xe8; xa7;
  x0a; xe8; xa8; x0a; xe8; xa9; x0a; xe8;
  xaa; x0a; xe8; xab; x0a; xe8; xac; x0a;
  xe8; xad; x0a; xe8; xae; x0a; xe8; xaf;
  x0a; xe8; xb0; x0a; xe8; xb1; x0a; xe8;
  xb2; x0a; xe8; xb3; x0a; xe8; xb4; x0a;
  xe8; xb5; x0a; xe8; xb6; x0a; xe8; xb7;
  x0a; xe8; xb8; x0a; xe8; xb9; x0a; xe8;
  xba; x0a; xe8; xbb; x0a; xe8; xbc; x0a;
  xe8; xbd; x0a; xe8; xbe; x0a; xe8; xbf;
  x0a; xe8; xc0; x0a; xe8; xc1; x0a; xe8;
  xc2; x0a; xe8; xc3; x0a; xe8; xc4; x0a;
  xe8; xc5; x0a; xe8; xc6; x0a; xe8; xc7;
  x0a; xe8; xc8; x0a; xe8; xc9; x0a; xe8;
  xca; x0a; xe8; xcb; x0a; xe8; xcc; x0a;
  xe8; xcd; x0a; xe8; xce; x0a; xe8; xcf;
  x0a; xe8; xd0; x0a; xe8; xd1; x0a; xe8;
  xd2; x0a; xe8; xd3; x0a; xe8; xd4; x0a;
  xe8; xd5; x0a; xe8; xd6; x0a; xe8; xd7;
  x0a; xe8; xd8; x0a; xe8; xd9; x0a; xe8;
  xda; x0a; xe8; xdb; x0a; xe8; xdc; x0a;
  xe8; xdd; x0a; xe8; xde; x0a; xe8; xdf
].
(* tests/test_data/whatwg/big5_whatwg_test_decode_in.txt, entries 45568..45823 *)
Definition big5_decode_in_178 : list byte := [
  x0a; xe8; xe0; x0a; xe8; xe1; x0a; xe8;
  xe2; x0a; xe8; xe3; x0a; xe8; xe4; x0a;
  xe8; xe5; x0a; xe8; xe6; x0a; xe8; xe7;
  x0a; xe8; xe8; x0a; xe8; xe9; x0a; xe8;
  xea; x0a; xe8; xeb; x0a; xe8; xec; x0a;
  xe8; xed; x0a; xe8; xee; x0a; xe8; xef;
  x0a; xe8; xf0; x0a; xe8; xf1; x0a; xe8;
  xf2; x0a; xe8; xf3; x0a; xe8; xf4; x0a;
  xe8; xf5; x0a; xe8; xf6; x0a; xe8; xf7;
  x0a; xe8; xf8; x0a; xe8; xf9; x0a; xe8;
  xfa; x0a; xe8; xfb; x0a; xe8; xfc; x0a;
  xe8; xfd; x0a; xe8; xfe; x0a; xe9; x40;
  x0a; xe9; x41; x0a; xe9; x42; x0a; xe9;
  x43; x0a; xe9; x44; x0a; xe9; x45; x0a;
  xe9; x46; x0a; xe9; x47; x0a; xe9; x48;
  x0a; xe9; x49; x0a; xe9; x4a; x0a; xe9;
  x4b; x0a; xe9; x4c; x0a; xe9; x4d; x0a;
  xe9; x4e; x0a; xe9; x4f; x0a; xe9; x50;
  x0a; xe9; x51; x0a; xe9; x52; x0a; xe9;
  x53; x0a; xe9; x54; x0a; xe9; x55; x0a;
  xe9; x56; x0a; xe9; x57; x0a; xe9; x58;
  x0a; xe9; x59; x0a; xe9; x5a; x0a; xe9;
  x5b; x0a; xe9; x5c; x0a; xe9; x5d; x0a;
  xe9; x5e; x0a; xe9; x5f; x0a; xe9; x60;
  x0a; xe9; x61; x0a; xe9; x62; x0a; xe9;
  x63; x0a; xe9; x64; x0a; xe9; x65; x0a;
  xe9; x66; x0a; xe9; x67; x0a; xe9; x68;
  x0a; xe9; x69; x0a; xe9; x6a; x0a; xe9;
  x6b; x0a; xe9; x6c; x0a; xe9; x6d; x0a;
  xe9; x6e; x0a; xe9; x6f; x0a; xe9; x70;
  x0a; xe9; x71; x0a; xe9; x72; x0a; xe9;
  x73; x0a; xe9; x74; x0a; xe9; x75; x0a
].
(* tests/test_data/whatwg/big5_whatwg_test_decode_in.txt, entries 45824..46079 *)
Definition big5_decode_in_179 : list byte := [
  xe9; x76; x0a; xe9; x77; x0a; xe9; x78;
  x0a; xe9; x79; x0a; xe9; x7a; x0a; xe9;
  x7b; x0a; xe9; x7c; x0a; xe9; x7d; x0a;
  xe9; x7e; x0a; xe9; xa1; x0a; xe9; xa2;
  x0a; xe9; xa3; x0a; xe9; xa4; x0a; xe9;
  xa5; x0a; xe9; xa6; x0a; xe9; xa7; x0a;
  xe9; xa8; x0a; xe9; xa9; x0a; xe9; xaa;
  x0a; xe9; xab; x0a; xe9; xac; x0a; xe9;
  xad; x0a; xe9; xae; x0a; xe9; xaf; x0a;
  xe9; xb0; x0a; xe9; xb1; x0a; xe9; xb2;
  x0a; xe9; xb3; x0a; xe9; xb4; x0a; xe9;
  xb5; x0a; xe9; xb6; x0a; xe9; xb7; x0a;
  xe9; xb8; x0a; xe9; xb9; x0a; xe9; xba;
  x0a; xe9; xbb; x0a; xe9; xbc; x0a; xe9;
  xbd; x0a; xe9; xbe; x0a; xe9; xbf; x0a;
  xe9; xc0; x0a; xe9; xc1; x0a; xe9; xc2;
  x0a; xe9; xc3; x0a; xe9; xc4; x0a; xe9;
  xc5; x0a; xe9; xc6; x0a; xe9; xc7; x0a;
  xe9; xc8; x0a; xe9; xc9; x0a; xe9; xca;
  x0a; xe9; xcb; x0a; xe9; xcc; x0a; xe9;
  xcd; x0a; xe9; xce; x0a; xe9; xcf; x0a;
  xe9; xd0; x0a; xe9; xd1; x0a; xe9; xd2;
  x0a; xe9; xd3; x0a; xe9; xd4; x0a; xe9;
  xd5; x0a; xe9; xd6; x0a; xe9; xd7; x0a;
  xe9; xd8; x0a; xe9; xd9; x0a; xe9; xda;
  x0a; xe9; xdb; x0a; xe9; xdc; x0a; xe9;
  xdd; x0a; xe9; xde; x0a; xe9; xdf; x0a;
  xe9; xe0; x0a; xe9; xe1; x0a; xe9; xe2;
  x0a; xe9; xe3; x0a; xe9; xe4; x0a; xe9;
  xe5; x0a; xe9; xe6; x0a; xe9; xe7; x0a;
  xe9; xe8; x0a; xe9; xe9; x0a; xe9; xea;
  x0a; xe9; xeb; x0a; xe9; xec; x0a; xe9
].
(* tests/test_data/whatwg/big5_whatwg_test_decode_in.txt, entries 46080..46335 *)
Definition big5_decode_in_180 : list byte := [
  xed; x0a; xe9; xee; x0a; xe9; xef; x0a;
  xe9; xf0; x0a; xe9; xf1; x0a; xe9; xf2;
  x0a; xe9; xf3; x0a; xe9; xf4; x0a; xe9;
  xf5; x0a; xe9; xf6; x0a; xe9; xf7; x0a;
  xe9; xf8; x0a; xe9; xf9; x0a; xe9; xfa;
  x0a; xe9; xfb; x0a; xe9; xfc; x0a; xe9;
  xfd; x0a; xe9; xfe; x0a; xea; x40; x0a;
  xea; x41; x0a; xea; x42; x0a; xea; x43;
  x0a; xea; x44; x0a; xea; x45; x0a; xea;
  x46; x0a; xea; x47; x0a; xea; x48; x0a;
  xea; x49; x0a; xea; x4a; x0a; xea; x4b;
  x0a; xea; x4c; x0a; xea; x4d; x0a; xea;
  x4e; x0a; xea; x4f; x0a; xea; x50; x0a;
  xea; x51; x0a; xea; x52; x0a; xea; x53;
  x0a; xea; x54; x0a; xea; x55; x0a; xea;
  x56; x0a; xea; x57; x0a; xea; x58; x0a;
  xea; x59; x0a; xea; x5a; x0a; xea; x5b;
  x0a; xea; x5c; x0a; xea; x5d; x0a; xea;
  x5e; x0a; xea; x5f; x0a; xea; x60; x0a;
  xea; x61; x0a; xea; x62; x0a; xea; x63;
  x0a; xea; x64; x0a; xea; x65; x0a; xea;
  x66; x0a; xea; x67; x0a; xea; x68; x0a;
  xea; x69; x0a; xea; x6a; x0a; xea; x6b;
  x0a; xea; x6c; x0a; xea; x6d; x0a; xea;
  x6e; x0a; xea; x6f; x0a; xea; x70; x0a;
  xea; x71; x0a; xea; x72; x0a; xea; x73;
  x0a; xea; x74; x0a; xea; x75; x0a; xea;
  x76; x0a; xea; x77; x0a; xea; x78; x0a;
  xea; x79; x0a; xea; x7a; x0a; xea; x7b;
  x0a; xea; x7c; x0a; xea; x7d; x0a; xea;
  x7e; x0a; xea; xa1; x0a; xea; xa2; x0a;
  xea; xa3; x0a; xea; xa4; x0a; xea; xa5
].
(* tests/test_data/whatwg/big5_whatwg_test_decode_in.txt, entries 46336..46591 *)
Definition big5_decode_in_181 : list byte := [
  x0a; xea; xa6; x0a; xea; xa7; x0a; xea;
  xa8; x0a; xea; xa9; x0a; xea; xaa; x0a;
  xea; xab; x0a; xea; xac; x0a; xea; xad;
  x0a; xea; xae; x0a; xea; xaf; x0a; xea;
  xb0; x0a; xea; xb1; x0a; xea; xb2; x0a;
  xea; xb3; x0a; xea; xb4; x0a; xea; xb5;
  x0a; xea; xb6; x0a; xea; xb7; x0a; xea;
  xb8; x0a; xea; xb9; x0a; xea; xba; x0a;
  xea; xbb; x0a; xea; xbc; x0a; xea; xbd;
  x0a; xea; xbe; x0a; xea; xbf; x0a; xea;
  xc0; x0a; xea; xc1; x0a; xea; xc2; x0a;
  xea; xc3; x0a; xea; xc4; x0a; xea; xc5;
  x0a; xea; xc6; x0a; xea; xc7; x0a; xea;
  xc8; x0a; xea; xc9; x0a; xea; xca; x0a;
  xea; xcb; x0a; xea; xcc; x0a; xea; xcd;
  x0a; xea; xce; x0a; xea; xcf; x0a; xea;
  xd0; x0a; xea; xd1; x0a; xea; xd2; x0a;
  xea; xd3; x0a; xea; xd4; x0a; xea; xd5;
  x0a; xea; xd6; x0a; xea; xd7; x0a; xea;
  xd8; x0a; xea; xd9; x0a; xea; xda; x0a;
  xea; xdb; x0a; xea; xdc; x0a; xea; xdd;
  x0a; xea; xde; x0a; xea; xdf; x0a; xea;
  xe0; x0a; xea; xe1; x0a; xea; xe2; x0a;
  xea; xe3; x0a; xea; xe4; x0a; xea; xe5;
  x0a; xea; xe6; x0a; xea; xe7; x0a; xea;
  xe8; x0a; xea; xe9; x0a; xea; xea; x0a;
  xea; xeb; x0a; xea; xec; x0a; xea; xed;
  x0a; xea; xee; x0a; xea; xef; x0a; xea;
  xf0; x0a; xea; xf1; x0a; xea; xf2; x0a;
  xea; xf3; x0a; xea; xf4; x0a; xea; xf5;
  x0a; xea; xf6; x0a; xea; xf7; x0a; xea;
  xf8; x0a; xea; xf9; x0a; xea; xfa; x0a
].
(* tests/test_data/whatwg/big5_whatwg_test_decode_in.txt, entries 46592..46847 *)
Definition big5_decode_in_182 : list byte := [
  xea; xfb; x0a; xea; xfc; x0a; xea; xfd;
  x0a; xea; xfe; x0a; xeb; x40; x0a; xeb;
  x41; x0a; xeb; x42; x0a; xeb; x43; x0a;
  xeb; x44; x0a; xeb; x45; x0a; xeb; x46;
  x0a; xeb; x47; x0a; xeb; x48; x0a; xeb;
  x49; x0a; xeb; x4a; x0a; xeb; x4b; x0a;
  xeb; x4c; x0a; xeb; x4d; x0a; xeb; x4e;
  x0a; xeb; x4f; x0a; xeb; x50; x0a; xeb;
  x51; x0a; xeb; x52; x0a; xeb; x53; x0a;
  xeb; x54; x0a; xeb; x55; x0a; xeb; x56;
  x0a; xeb; x57; x0a; xeb; x58; x0a; xeb;
  x59; x0a; xeb; x5a; x0a; xeb; x5b; x0a;
  xeb; x5c; x0a; xeb; x5d; x0a; xeb; x5e;
  x0a; xeb; x5f; x0a; xeb; x60; x0a; xeb;
  x61; x0a; xeb; x62; x0a; xeb; x63; x0a;
  xeb; x64; x0a; xeb; x65; x0a; xeb; x66;
  x0a; xeb; x67; x0a; xeb; x68; x0a; xeb;
  x69; x0a; xeb; x6a; x0a; xeb; x6b; x0a;
  xeb; x6c; x0a; xeb; x6d; x0a; xeb; x6e;
  x0a; xeb; x6f; x0a; xeb; x70; x0a; xeb;
  x71; x0a; xeb; x72; x0a; xeb; x73; x0a;
  xeb; x74; x0a; xeb; x75; x0a; xeb; x76;
  x0a; xeb; x77; x0a; xeb; x78; x0a; xeb;
  x79; x0a; xeb; x7a; x0a; xeb; x7b; x0a;
  xeb; x7c; x0a; xeb; x7d; x0a; xeb; x7e;
  x0a; xeb; xa1; x0a; xeb; xa2; x0a; xeb;
  xa3; x0a; xeb; xa4; x0a; xeb; xa5; x0a;
  xeb; xa6; x0a; xeb; xa7; x0a; xeb; xa8;
  x0a; xeb; xa9; x0a; xeb; xaa; x0a; xeb;
  xab; x0a; xeb; xac; x0a; xeb; xad; x0a;
  xeb; xae; x0a; xeb; xaf; x0a; xeb; xb0;
  x0a; xeb; xb1; x0a; xeb; xb2; x0a; xeb
].
(* tests/test_data/whatwg/big5_whatwg_test_decode_in.txt, entries 46848..47103 *)
Definition big5_decode_in_183 : list byte := [
  xb3; x0a; xeb; xb4; x0a; xeb; xb5; x0a;
  xeb; xb6; x0a; xeb; xb7; x0a; xeb; xb8;
  x0a; xeb; xb9; x0a; xeb; xba; x0a; xeb;
  xbb; x0a; xeb; xbc; x0a; xeb; xbd; x0a;
  xeb; xbe; x0a; xeb; xbf; x0a; xeb; xc0;
  x0a; xeb; xc1; x0a; xeb; xc2; x0a; xeb;
  xc3; x0a; xeb; xc4; x0a; xeb; xc5; x0a;
  xeb; xc6; x0a; xeb; xc7; x0a; xeb; xc8;
  x0a; xeb; xc9; x0a; xeb; xca; x0a; xeb;
  xcb; x0a; xeb; xcc; x0a; xeb; xcd; x0a;
  xeb; xce; x0a; xeb; xcf; x0a; xeb; xd0;
  x0a; xeb; xd1; x0a; xeb; xd2; x0a; xeb;
  xd3; x0a; xeb; xd4; x0a; xeb; xd5; x0a;
  xeb; xd6; x0a; xeb; xd7; x0a; xeb; xd8;
  x0a; xeb; xd9; x0a; xeb; xda; x0a; xeb;
  xdb; x0a; xeb; xdc; x0a; xeb; xdd; x0a;
  xeb; xde; x0a; xeb; xdf; x0a; xeb; xe0;
  x0a; xeb; xe1; x0a; xeb; xe2; x0a; xeb;
  xe3; x0a; xeb; xe4; x0a; xeb; xe5; x0a;
  xeb; xe6; x0a; xeb; xe7; x0a; xeb; xe8;
  x0a; xeb; xe9; x0a; xeb; xea; x0a; xeb;
  xeb; x0a; xeb; xec; x0a; xeb; xed; x0a;
  xeb; xee; x0a; xeb; xef; x0a; xeb; xf0;
  x0a; xeb; xf1; x0a; xeb; xf2; x0a; xeb;
  xf3; x0a; xeb; xf4; x0a; xeb; xf5; x0a;
  xeb; xf6; x0a; xeb; xf7; x0a; xeb; xf8;
  x0a; xeb; xf9; x0a; xeb; xfa; x0a; xeb;
  xfb; x0a; xeb; xfc; x0a; xeb; xfd; x0a;
  xeb; xfe; x0a; xec; x40; x0a; xec; x41;
  x0a; xec; x42; x0a; xec; x43; x0a; xec;
  x44; x0a; xec; x45; x0a; xec; x46; x0a;
  xec; x47; x0a; xec; x48; x0a; xec; x49
].
(* tests/test_data/whatwg/big5_whatwg_test_decode_in.txt, entries 47104..47359 *)
Definition big5_decode_in_184 : list byte := [
  x0a; xec; x4a; x0a; xec; x4b; x0a; xec;
  x4c; x0a; xec; x4d; x0a; xec; x4e; x0a;
  xec; x4f; x0a; xec; x50; x0a; xec; x51;
  x0a; xec; x52; x0a; xec; x53; x0a; xec;
  x54; x0a; xec; x55; x0a; xec; x56; x0a;
  xec; x57; x0a; xec; x58; x0a; xec; x59;
  x0a; xec; x5a; x0a; xec; x5b; x0a; xec;
  x5c; x0a; xec; x5d; x0a; xec; x5e; x0a;
  xec; x5f; x0a; xec; x60; x0a; xec; x61;
  x0a; xec; x62; x0a; xec; x63; x0a; xec;
  x64; x0a; xec; x65; x0a; xec; x66; x0a;
  xec; x67; x0a; xec; x68; x0a; xec; x69;
  x0a; xec; x6a; x0a; xec; x6b; x0a; xec;
  x6c; x0a; xec; x6d; x0a; xec; x6e; x0a;
  xec; x6f; x0a; xec; x70; x0a; xec; x71;
  x0a; xec; x72; x0a; xec; x73; x0a; xec;
  x74; x0a; xec; x75; x0a; xec; x76; x0a;
  xec; x77; x0a; xec; x78; x0a; xec; x79;
  x0a; xec; x7a; x0a; xec; x7b; x0a; xec;
  x7c; x0a; xec; x7d; x0a; xec; x7e; x0a;
  xec; xa1; x0a; xec; xa2; x0a; xec; xa3;
  x0a; xec; xa4; x0a; xec; xa5; x0a; xec;
  xa6; x0a; xec; xa7; x0a; xec; xa8; x0a;
  xec; xa9; x0a; xec; xaa; x0a; xec; xab;
  x0a; xec; xac; x0a; xec; xad; x0a; xec;
  xae; x0a; xec; xaf; x0a; xec; xb0; x0a;
  xec; xb1; x0a; xec; xb2; x0a; xec; xb3;
  x0a; xec; xb4; x0a; xec; xb5; x0a; xec;
  xb6; x0a; xec; xb7; x0a; xec; xb8; x0a;
  xec; xb9; x0a; xec; xba; x0a; xec; xbb;
  x0a; xec; xbc; x0a; xec; xbd; x0a; xec;
  xbe; x0a; xec; xbf; x0a; xec; xc0; x0a
].
(* tests/test_data/whatwg/big5_whatwg_test_decode_in.txt, entries 47360..47615 *)
Definition big5_decode_in_185 : list byte := [
  xec; xc1; x0a; xec; xc2; x0a; xec; xc3;
  x0a; xec; xc4; x0a; xec; xc5; x0a; xec;
  xc6; x0a; xec; xc7; x0a; xec; xc8; x0a;
  xec; xc9; x0a; xec; xca; x0a; xec; xcb;
  x0a; xec; xcc; x0a; xec; xcd; x0a; xec;
  xce; x0a; xec; xcf; x0a; xec; xd0; x0a;
  xec; xd1; x0a; xec; xd2; x0a; xec; xd3;
  x0a; xec; xd4; x0a; xec; xd5; x0a; xec;
  xd6; x0a; xec; xd7; x0a; xec; xd8; x0a;
  xec; xd9; x0a; xec; xda; x0a; xec; xdb;
  x0a; xec; xdc; x0a; xec; xdd; x0a; xec;
  xde; x0a; xec; xdf; x0a; xec; xe0; x0a;
  xec; xe1; x0a; xec; xe2; x0a; xec; xe3;
  x0a; xec; xe4; x0a; xec; xe5; x0a; xec;
  xe6; x0a; xec; xe7; x0a; xec; xe8; x0a;
  xec; xe9; x0a; xec; xea; x0a; xec; xeb;
  x0a; xec; xec; x0a; xec; xed; x0a; xec;
  xee; x0a; xec; xef; x0a; xec; xf0; x0a;
  xec; xf1; x0a; xec; xf2; x0a; xec; xf3;
  x0a; xec; xf4; x0a; xec; xf5; x0a; xec;
  xf6; x0a; xec; xf7; x0a; xec; xf8; x0a;
  xec; xf9; x0a; xec; xfa; x0a; xec; xfb;
  x0a; xec; xfc; x0a; xec; xfd; x0a; xec;
  xfe; x0a; xed; x40; x0a; xed; x41; x0a;
  xed; x42; x0a; xed; x43; x0a; xed; x44;
  x0a; xed; x45; x0a; xed; x46; x0a; xed;
  x47; x0a; xed; x48; x0a; xed; x49; x0a;
  xed; x4a; x0a; xed; x4b; x0a; xed; x4c;
  x0a; xed; x4d; x0a; xed; x4e; x0a; xed;
  x4f; x0a; xed; x50; x0a; xed; x51; x0a;
  xed; x52; x0a; xed; x53; x0a; xed; x54;
  x0a; xed; x55; x0a; xed; x56; x0a; xed
].
(* tests/test_data/whatwg/big5_whatwg_test_decode_in.txt, entries 47616..47871 *)
Definition big5_decode_in_186 : list byte := [
  x57; x0a; xed; x58; x0a; xed; x59; x0a;
  xed; x5a; x0a; xed; x5b; x0a; xed; x5c;
  x0a; xed; x5d; x0a; xed; x5e; x0a; xed;
  x5f; x0a; xed; x60; x0a; xed; x61; x0a;
  xed; x62; x0a; xed; x63; x0a; xed; x64;
  x0a; xed; x65; x0a; xed; x66; x0a; xed;
  x67; x0a; xed; x68; x0a; xed; x69; x0a;
  xed; x6a; x0a; xed; x6b; x0a; xed; x6c;
  x0a; xed; x6d; x0a; xed; x6e; x0a; xed;
  x6f; x0a; xed; x70; x0a; xed; x71; x0a;
  xed; x72; x0a; xed; x73; x0a; xed; x74;
  x0a; xed; x75; x0a; xed; x76; x0a; xed;
  x77; x0a; xed; x78; x0a; xed; x79; x0a;
  xed; x7a; x0a; xed; x7b; x0a; xed; x7c;
  x0a; xed; x7d; x0a; xed; x7e; x0a; xed;
  xa1; x0a; xed; xa2; x0a; xed; xa3; x0a;
  xed; xa4; x0a; xed; xa5; x0a; xed; xa6;
  x0a; xed; xa7; x0a; xed; xa8; x0a; xed;
  xa9; x0a; xed; xaa; x0a; xed; xab; x0a;
  xed; xac; x0a; xed; xad; x0a; xed; xae;
  x0a; xed; xaf; x0a; xed; xb0; x0a; xed;
  xb1; x0a; xed; xb2; x0a; xed; xb3; x0a;
  xed; xb4; x0a; xed; xb5; x0a; xed; xb6;
  x0a; xed; xb7; x0a; xed; xb8; x0a; xed;
  xb9; x0a; xed; xba; x0a; xed; xbb; x0a;
  xed; xbc; x0a; xed; xbd; x0a; xed; xbe;
  x0a; xed; xbf; x0a; xed; xc0; x0a; xed;
  xc1; x0a; xed; xc2; x0a; xed; xc3; x0a;
  xed; xc4; x0a; xed; xc5; x0a; xed; xc6;
  x0a; xed; xc7; x0a; xed; xc8; x0a; xed;
  xc9; x0a; xed; xca; x0a; xed; xcb; x0a;
  xed; xcc; x0a; xed; xcd; x0a; xed; xce
].
(* tests/test_data/whatwg/big5_whatwg_test_decode_in.txt, entries 47872..48127 *)
Definition big5_decode_in_187 : list byte := [
  x0a; xed; xcf; x0a; xed; xd0; x0a; xed;
  xd1; x0a; xed; xd2; x0a; xed; xd3; x0a;
  xed; xd4; x0a; xed; xd5; x0a; xed; xd6;
  x0a; xed; xd7; x0a; xed; xd8; x0a; xed;
  xd9; x0a; xed; xda; x0a; xed; xdb; x0a;
  xed; xdc; x0a; xed; xdd; x0a; xed; xde;
  x0a; xed; xdf; x0a; xed; xe0; x0a; xed;
  xe1; x0a; xed; xe2; x0a; xed; xe3; x0a;
  xed; xe4; x0a; xed; xe5; x0a; xed; xe6;
  x0a; xed; xe7; x0a; xed; xe8; x0a; xed;
  xe9; x0a; xed; xea; x0a; xed; xeb; x0a;
  xed; xec; x0a; xed; xed; x0a; xed; xee;
  x0a; xed; xef; x0a; xed; xf0; x0a; xed;
  xf1; x0a; xed; xf2; x0a; xed; xf3; x0a;
  xed; xf4; x0a; xed; xf5; x0a; xed; xf6;
  x0a; xed; xf7; x0a; xed; xf8; x0a; xed;
  xf9; x0a; xed; xfa; x0a; xed; xfb; x0a;
  xed; xfc; x0a; xed; xfd; x0a; xed; xfe;
  x0a; xee; x40; x0a; xee; x41; x0a; xee;
  x42; x0a; xee; x43; x0a; xee; x44; x0a;
  xee; x45; x0a; xee; x46; x0a; xee; x47;
  x0a; xee; x48; x0a; xee; x49; x0a; xee;
  x4a; x0a; xee; x4b; x0a; xee; x4c; x0a;
  xee; x4d; x0a; xee; x4e; x0a; xee; x4f;
  x0a; xee; x50; x0a; xee; x51; x0a; xee;
  x52; x0a; xee; x53; x0a; xee; x54; x0a;
  xee; x55; x0a; xee; x56; x0a; xee; x57;
  x0a; xee; x58; x0a; xee; x59; x0a; xee;
  x5a; x0a; xee; x5b; x0a; xee; x5c; x0a;
  xee; x5d; x0a; xee; x5e; x0a; xee; x5f;
  x0a; xee; x60; x0a; xee; x61; x0a; xee;
  x62; x0a; xee; x63; x0a; xee; x64; x0a
].
(* tests/test_data/whatwg/big5_whatwg_test_decode_in.txt, entries 48128..48383 *)
Definition big5_decode_in_188 : list byte := [
  xee; x65; x0a; xee; x66; x0a; xee; x67;
  x0a; xee; x68; x0a; xee; x69; x0a; xee;
  x6a; x0a; xee; x6b; x0a; xee; x6c; x0a;
  xee; x6d; x0a; xee; x6e; x0a; xee; x6f;
  x0a; xee; x70; x0a; xee; x71; x0a; xee;
  x72; x0a; xee; x73; x0a; xee; x74; x0a;
  xee; x75; x0a; xee; x76; x0a; xee; x77;
  x0a; xee; x78; x0a; xee; x79; x0a; xee;
  x7a; x0a; xee; x7b; x0a; xee; x7c; x0a;
  xee; x7d; x0a; xee; x7e; x0a; xee; xa1;
  x0a; xee; xa2; x0a; xee; xa3; x0a; xee;
  xa4; x0a; xee; xa5; x0a; xee; xa6; x0a;
  xee; xa7; x0a; xee; xa8; x0a; xee; xa9;
  x0a; xee; xaa; x0a; xee; xab; x0a; xee;
  xac; x0a; xee; xad; x0a; xee; xae; x0a;
  xee; xaf; x0a; xee; xb0; x0a; xee; xb1;
  x0a; xee; xb2; x0a; xee; xb3; x0a; xee;
  xb4; x0a; xee; xb5; x0a; xee; xb6; x0a;
  xee; xb7; x0a; xee; xb8; x0a; xee; xb9;
  x0a; xee; xba; x0a; xee; xbb; x0a; xee;
  xbc; x0a; xee; xbd; x0a; xee; xbe; x0a;
  xee; xbf; x0a; xee; xc0; x0a; xee; xc1;
  x0a; xee; xc2; x0a; xee; xc3; x0a; xee;
  xc4; x0a; xee; xc5; x0a; xee; xc6; x0a;
  xee; xc7; x0a; xee; xc8; x0a; xee; xc9;
  x0a; xee; xca; x0a; xee; xcb; x0a; xee;
  xcc; x0a; xee; xcd; x0a; xee; xce; x0a;
  xee; xcf; x0a; xee; xd0; x0a; xee; xd1;
  x0a; xee; xd2; x0a; xee; xd3; x0a; xee;
  xd4; x0a; xee; xd5; x0a; xee; xd6; x0a;
  xee; xd7; x0a; xee; xd8; x0a; xee; xd9;
  x0a; xee; xda; x0a; xee; xdb; x0a; xee
].
(* tests/test_data/whatwg/big5_whatwg_test_decode_in.txt, entries 48384..48639 *)
Definition big5_decode_in_189 : list byte := [
  xdc; x0a; xee; xdd; x0a; xee; xde; x0a;
  xee; xdf; x0a; xee; xe0; x0a; xee; xe1;
  x0a; xee; xe2; x0a; xee; xe3; x0a; xee;
  xe4; x0a; xee; xe5; x0a; xee; xe6; x0a;
  xee; xe7; x0a; xee; xe8; x0a; xee; xe9;
  x0a; xee; xea; x0a; xee; xeb; x0a; xee;
  xec; x0a; xee; xed; x0a; xee; xee; x0a;
  xee; xef; x0a; xee; xf0; x0a; xee; xf1;
  x0a; xee; xf2; x0a; xee; xf3; x0a; xee;
  xf4; x0a; xee; xf5; x0a; xee; xf6; x0a;
  xee; xf7; x0a; xee; xf8; x0a; xee; xf9;
  x0a; xee; xfa; x0a; xee; xfb; x0a; xee;
  xfc; x0a; xee; xfd; x0a; xee; xfe; x0a;
  xef; x40; x0a; xef; x41; x0a; xef; x42;
  x0a; xef; x43; x0a; xef; x44; x0a; xef;
  x45; x0a; xef; x46; x0a; xef; x47; x0a;
  xef; x48; x0a; xef; x49; x0a; xef; x4a;
  x0a; xef; x4b; x0a; xef; x4c; x0a; xef;
  x4d; x0a; xef; x4e; x0a; xef; x4f; x0a;
  xef; x50; x0a; xef; x51; x0a; xef; x52;
  x0a; xef; x53; x0a; xef; x54; x0a; xef;
  x55; x0a; xef; x56; x0a; xef; x57; x0a;
  xef; x58; x0a; xef; x59; x0a; xef; x5a;
  x0a; xef; x5b; x0a; xef; x5c; x0a; xef;
  x5d; x0a; xef; x5e; x0a; xef; x5f; x0a;
  xef; x60; x0a; xef; x61; x0a; xef; x62;
  x0a; xef; x63; x0a; xef; x64; x0a; xef;
  x65; x0a; xef; x66; x0a; xef; x67; x0a;
  xef; x68; x0a; xef; x69; x0a; xef; x6a;
  x0a; xef; x6b; x0a; xef; x6c; x0a; xef;
  x6d; x0a; xef; x6e; x0a; xef; x6f; x0a;
  xef; x70; x0a; xef; x71; x0a; xef; x72
].
(* tests/test_data/whatwg/big5_whatwg_test_decode_in.txt, entries 48640..48895 *)
Definition big5_decode_in_190 : list byte := [
  x0a; xef; x73; x0a; xef; x74; x0a; xef;
  x75; x0a; xef; x76; x0a; xef; x77; x0a;
  xef; x78; x0a; xef; x79; x0a; xef; x7a;
  x0a; xef; x7b; x0a; xef; x7c; x0a; xef;
  x7d; x0a; xef; x7e; x0a; xef; xa1; x0a;
  xef; xa2; x0a; xef; xa3; x0a; xef; xa4;
  x0a; xef; xa5; x0a; xef; xa6; x0a; xef;
  xa7; x0a; xef; xa8; x0a; xef; xa9; x0a;
  xef; xaa; x0a; xef; xab; x0a; xef; xac;
  x0a; xef; xad; x0a; xef; xae; x0a; xef;
  xaf; x0a; xef; xb0; x0a; xef; xb1; x0a;
  xef; xb2; x0a; xef; xb3; x0a; xef; xb4;
  x0a; xef; xb5; x0a; xef; xb6; x0a; xef;
  xb7; x0a; xef; xb8; x0a; xef; xb9; x0a;
  xef; xba; x0a; xef; xbb; x0a; xef; xbc;
  x0a; xef; xbd; x0a; xef; xbe; x0a; xef;
  xbf; x0a; xef; xc0; x0a; xef; xc1; x0a;
  xef; xc2; x0a; xef; xc3; x0a; xef; xc4;
  x0a; xef; xc5; x0a; xef; xc6; x0a; xef;
  xc7; x0a; xef; xc8; x0a; xef; xc9; x0a;
  xef; xca; x0a; xef; xcb; x0a; xef; xcc;
  x0a; xef; xcd; x0a; xef; xce; x0a; xef;
  xcf; x0a; xef; xd0; x0a; xef; xd1; x0a;
  xef; xd2; x0a; xef; xd3; x0a; xef; xd4;
  x0a; xef; xd5; x0a; xef; xd6; x0a; xef;
  xd7; x0a; xef; xd8; x0a; xef; xd9; x0a;
  xef; xda; x0a; xef; xdb; x0a; xef; xdc;
  x0a; xef; xdd; x0a; xef; xde; x0a; xef;
  xdf; x0a; xef; xe0; x0a; xef; xe1; x0a;
  xef; xe2; x0a; xef; xe3; x0a; xef; xe4;
  x0a; xef; xe5; x0a; xef; xe6; x0a; xef;
  xe7; x0a; xef; xe8; x0a; xef; xe9; x0a
].
(* tests/test_data/whatwg/big5_whatwg_test_decode_in.txt, entries 48896..49151 *)
Definition big5_decode_in_191 : list byte := [
  xef; xea; x0a; xef; xeb; x0a; xef; xec;
  x0a; xef; xed; x0a; xef; xee; x0a; xef;
  xef; x0a; xef; xf0; x0a; xef; xf1; x0a;
  xef; xf2; x0a; xef; xf3; x0a; xef; xf4;
  x0a; xef; xf5; x0a; xef; xf6; x0a; xef;
  xf7; x0a; xef; xf8; x0a; xef; xf9; x0a;
  xef; xfa; x0a; xef; xfb; x0a; xef; xfc;
  x0a; xef; xfd; x0a; xef; xfe; x0a; xf0;
  x40; x0a; xf0; x41; x0a; xf0; x42; x0a;
  xf0; x43; x0a; xf0; x44; x0a; xf0; x45;
  x0a; xf0; x46; x0a; xf0; x47; x0a; xf0;
  x48; x0a; xf0; x49; x0a; xf0; x4a; x0a;
  xf0; x4b; x0a; xf0; x4c; x0a; xf0; x4d;
  x0a; xf0; x4e; x0a; xf0; x4f; x0a; xf0;
  x50; x0a; xf0; x51; x0a; xf0; x52; x0a;
  xf0; x53; x0a; xf0; x54; x0a; xf0; x55;
  x0a; xf0; x56; x0a; xf0; x57; x0a; xf0;
  x58; x0a; xf0; x59; x0a; xf0; x5a; x0a;
  xf0; x5b; x0a; xf0; x5c; x0a; xf0; x5d;
  x0a; xf0; x5e; x0a; xf0; x5f; x0a; xf0;
  x60; x0a; xf0; x61; x0a; xf0; x62; x0a;
  xf0; x63; x0a; xf0; x64; x0a; xf0; x65;
  x0a; xf0; x66; x0a; xf0; x67; x0a; xf0;
  x68; x0a; xf0; x69; x0a; xf0; x6a; x0a;
  xf0; x6b; x0a; xf0; x6c; x0a; xf0; x6d;
  x0a; xf0; x6e; x0a; xf0; x6f; x0a; xf0;
  x70; x0a; xf0; x71; x0a; xf0; x72; x0a;
  xf0; x73; x0a; xf0; x74; x0a; xf0; x75;
  x0a; xf0; x76; x0a; xf0; x77; x0a; xf0;
  x78; x0a; xf0; x79; x0a; xf0; x7a; x0a;
  xf0; x7b; x0a; xf0; x7c; x0a; xf0; x7d;
  x0a; xf0; x7e; x0a; xf0; xa1; x0a; xf0
].
(* tests/test_data/whatwg/big5_whatwg_test_decode_in.txt, entries 49152..49407 *)
Definition big5_decode_in_192 : list byte := [
  xa2; x0a; xf0; xa3; x0a; xf0; xa4; x0a;
  xf0; xa5; x0a; xf0; xa6; x0a; xf0; xa7;
  x0a; xf0; xa8; x0a; xf0; xa9; x0a; xf0;
  xaa; x0a; xf0; xab; x0a; xf0; xac; x0a;
  xf0; xad; x0a; xf0; xae; x0a; xf0; xaf;
  x0a; xf0; xb0; x0a; xf0; xb1; x0a; xf0;
  xb2; x0a; xf0; xb3; x0a; xf0; xb4; x0a;
  xf0; xb5; x0a; xf0; xb6; x0a; xf0; xb7;
  x0a; xf0; xb8; x0a; xf0; xb9; x0a; xf0;
  xba; x0a; xf0; xbb; x0a; xf0; xbc; x0a;
  xf0; xbd; x0a; xf0; xbe; x0a; xf0; xbf;
  x0a; xf0; xc0; x0a; xf0; xc1; x0a; xf0;
  xc2; x0a; xf0; xc3; x0a; xf0; xc4; x0a;
  xf0; xc5; x0a; xf0; xc6; x0a; xf0; xc7;
  x0a; xf0; xc8; x0a; xf0; xc9; x0a; xf0;
  xca; x0a; xf0; xcb; x0a; xf0; xcc; x0a;
  xf0; xcd; x0a; xf0; xce; x0a; xf0; xcf;
  x0a; xf0; xd0; x0a; xf0; xd1; x0a; xf0;
  xd2; x0a; xf0; xd3; x0a; xf0; xd4; x0a;
  xf0; xd5; x0a; xf0; xd6; x0a; xf0; xd7;
  x0a; xf0; xd8; x0a; xf0; xd9; x0a; xf0;
  xda; x0a; xf0; xdb; x0a; xf0; xdc; x0a;
  xf0; xdd; x0a; xf0; xde; x0a; xf0; xdf;
  x0a; xf0; xe0; x0a; xf0; xe1; x0a; xf0;
  xe2; x0a; xf0; xe3; x0a; xf0; xe4; x0a;
  xf0; xe5; x0a; xf0; xe6; x0a; xf0; xe7;
  x0a; xf0; xe8; x0a; xf0; xe9; x0a; xf0;
  xea; x0a; xf0; xeb; x0a; xf0; xec; x0a;
  xf0; xed; x0a; xf0; xee; x0a; xf0; xef;
  x0a; xf0; xf0; x0a; xf0; xf1; x0a; xf0;
  xf2; x0a; xf0; xf3; x0a; xf0; xf4; x0a;
  xf0; xf5; x0a; xf0; xf6; x0a; xf0; xf7
].
(* tests/test_data/whatwg/big5_whatwg_test_decode_in.txt, entries 49408..49663 *)
Definition big5_decode_in_193 : list byte := [
  x0a; xf0; xf8; x0a; xf0; xf9; x0a; xf0;
  xfa; x0a; xf0; xfb; x0a; xf0; xfc; x0a;
  xf0; xfd; x0a; xf0; xfe; x0a; xf1; x40;
  x0a; xf1; x41; x0a; xf1; x42; x0a; xf1;
  x43; x0a; xf1; x44; x0a; xf1; x45; x0a;
  xf1; x46; x0a; xf1; x47; x0a; xf1; x48;
  x0a; xf1; x49; x0a; xf1; x4a; x0a; xf1;
  x4b; x0a; xf1; x4c; x0a; xf1; x4d; x0a;
  xf1; x4e; x0a; xf1; x4f; x0a; xf1; x50;
  x0a; xf1; x51; x0a; xf1; x52; x0a; xf1;
  x53; x0a; xf1; x54; x0a; xf1; x55; x0a;
  xf1; x56; x0a; xf1; x57; x0a; xf1; x58;
  x0a; xf1; x59; x0a; xf1; x5a; x0a; xf1;
  x5b; x0a; xf1; x5c; x0a; xf1; x5d; x0a;
  xf1; x5e; x0a; xf1; x5f; x0a; xf1; x60;
  x0a; xf1; x61; x0a; xf1; x62; x0a; xf1;
  x63; x0a; xf1; x64; x0a; xf1; x65; x0a;
  xf1; x66; x0a; xf1; x67; x0a; xf1; x68;
  x0a; xf1; x69; x0a; xf1; x6a; x0a; xf1;
  x6b; x0a; xf1; x6c; x0a; xf1; x6d; x0a;
  xf1; x6e; x0a; xf1; x6f; x0a; xf1; x70;
  x0a; xf1; x71; x0a; xf1; x72; x0a; xf1;
  x73; x0a; xf1; x74; x0a; xf1; x75; x0a;
  xf1; x76; x0a; xf1; x77; x0a; xf1; x78;
  x0a; xf1; x79; x0a; xf1; x7a; x0a; xf1;
  x7b; x0a; xf1; x7c; x0a; xf1; x7d; x0a;
  xf1; x7e; x0a; xf1; xa1; x0a; xf1; xa2;
  x0a; xf1; xa3; x0a; xf1; xa4; x0a; xf1;
  xa5; x0a; xf1; xa6; x0a; xf1; xa7; x0a;
  xf1; xa8; x0a; xf1; xa9; x0a; xf1; xaa;
  x0a; xf1; xab; x0a; xf1; xac; x0a; xf1;
  xad; x0a; xf1; xae; x0a; xf1; xaf; x0a
].
(* tests/test_data/whatwg/big5_whatwg_test_decode_in.txt, entries 49664..49919 *)
Definition big5_decode_in_194 : list byte := [
  xf1; xb0; x0a; xf1; xb1; x0a; xf1; xb2;
  x0a; xf1; xb3; x0a; xf1; xb4; x0a; xf1;
  xb5; x0a; xf1; xb6; x0a; xf1; xb7; x0a;
  xf1; xb8; x0a; xf1; xb9; x0a; xf1; xba;
  x0a; xf1; xbb; x0a; xf1; xbc; x0a; xf1;
  xbd; x0a; xf1; xbe; x0a; xf1; xbf; x0a;
  xf1; xc0; x0a; xf1; xc1; x0a; xf1; xc2;
  x0a; xf1; xc3; x0a; xf1; xc4; x0a; xf1;
  xc5; x0a; xf1; xc6; x0a; xf1; xc7; x0a;
  xf1; xc8; x0a; xf1; xc9; x0a; xf1; xca;
  x0a; xf1; xcb; x0a; xf1; xcc; x0a; xf1;
  xcd; x0a; xf1; xce; x0a; xf1; xcf; x0a;
  xf1; xd0; x0a; xf1; xd1; x0a; xf1; xd2;
  x0a; xf1; xd3; x0a; xf1; xd4; x0a; xf1;
  xd5; x0a; xf1; xd6; x0a; xf1; xd7; x0a;
  xf1; xd8; x0a; xf1; xd9; x0a; xf1; xda;
  x0a; xf1; xdb; x0a; xf1; xdc; x0a; xf1;
  xdd; x0a; xf1; xde; x0a; xf1; xdf; x0a;
  xf1; xe0; x0a; xf1; xe1; x0a; xf1; xe2;
  x0a; xf1; xe3; x0a; xf1; xe4; x0a; xf1;
  xe5; x0a; xf1; xe6; x0a; xf1; xe7; x0a;
  xf1; xe8; x0a; xf1; xe9; x0a; xf1; xea;
  x0a; xf1; xeb; x0a; xf1; xec; x0a; xf1;
  xed; x0a; xf1; xee; x0a; xf1; xef; x0a;
  xf1; xf0; x0a; xf1; xf1; x0a; xf1; xf2;
  x0a; xf1; xf3; x0a; xf1; xf4; x0a; xf1;
  xf5; x0a; xf1; xf6; x0a; xf1; xf7; x0a;
  xf1; xf8; x0a; xf1; xf9; x0a; xf1; xfa;
  x0a; xf1; xfb; x0a; xf1; xfc; x0a; xf1;
  xfd; x0a; xf1; xfe; x0a; xf2; x40; x0a;
  xf2; x41; x0a; xf2; x42; x0a; xf2; x43;
  x0a; xf2; x44; x0a; xf2; x45; x0a; xf2
].
(* tests/test_data/whatwg/big5_whatwg_test_decode_in.txt, entries 49920..50175 *)
Definition big5_decode_in_195 : list byte := [
  x46; x0a; xf2; x47; x0a; xf2; x48; x0a;
  xf2; x49; x0a; xf2; x4a; x0a; xf2; x4b;
  x0a; xf2; x4c; x0a; xf2; x4d; x0a; xf2;
  x4e; x0a; xf2; x4f; x0a; xf2; x50; x0a;
  xf2; x51; x0a; xf2; x52; x0a; xf2; x53;
  x0a; xf2; x54; x0a; xf2; x55; x0a; xf2;
  x56; x0a; xf2; x57; x0a; xf2; x58; x0a;
  xf2; x59; x0a; xf2; x5a; x0a; xf2; x5b;
  x0a; xf2; x5c; x0a; xf2; x5d; x0a; xf2;
  x5e; x0a; xf2; x5f; x0a; xf2; x60; x0a;
  xf2; x61; x0a; xf2; x62; x0a; xf2; x63;
  x0a; xf2; x64; x0a; xf2; x65; x0a; xf2;
  x66; x0a; xf2; x67; x0a; xf2; x68; x0a;
  xf2; x69; x0a; xf2; x6a; x0a; xf2; x6b;
  x0a; xf2; x6c; x0a; xf2; x6d; x0a; xf2;
  x6e; x0a; xf2; x6f; x0a; xf2; x70; x0a;
  xf2; x71; x0a; xf2; x72; x0a; xf2; x73;
  x0a; xf2; x74; x0a; xf2; x75; x0a; xf2;
  x76; x0a; xf2; x77; x0a; xf2; x78; x0a;
  xf2; x79; x0a; xf2; x7a; x0a; xf2; x7b;
  x0a; xf2; x7c; x0a; xf2; x7d; x0a; xf2;
  x7e; x0a; xf2; xa1; x0a; xf2; xa2; x0a;
  xf2; xa3; x0a; xf2; xa4; x0a; xf2; xa5;
  x0a; xf2; xa6; x0a; xf2; xa7; x0a; xf2;
  xa8; x0a; xf2; xa9; x0a; xf2; xaa; x0a;
  xf2; xab; x0a; xf2; xac; x0a; xf2; xad;
  x0a; xf2; xae; x0a; xf2; xaf; x0a; xf2;
  xb0; x0a; xf2; xb1; x0a; xf2; xb2; x0a;
  xf2; xb3; x0a; xf2; xb4; x0a; xf2; xb5;
  x0a; xf2; xb6; x0a; xf2; xb7; x0a; xf2;
  xb8; x0a; xf2; xb9; x0a; xf2; xba; x0a;
  xf2; xbb; x0a; xf2; xbc; x0a; xf2; xbd
].
(* tests/test_data/whatwg/big5_whatwg_test_decode_in.txt, entries 50176..50431 *)
Definition big5_decode_in_196 : list byte := [
  x0a; xf2; xbe; x0a; xf2; xbf; x0a; xf2;
  xc0; x0a; xf2; xc1; x0a; xf2; xc2; x0a;
  xf2; xc3; x0a; xf2; xc4; x0a; xf2; xc5;
  x0a; xf2; xc6; x0a; xf2; xc7; x0a; xf2;
  xc8; x0a; xf2; xc9; x0a; xf2; xca; x0a;
  xf2; xcb; x0a; xf2; xcc; x0a; xf2; xcd;
  x0a; xf2; xce; x0a; xf2; xcf; x0a; xf2;
  xd0; x0a; xf2; xd1; x0a; xf2; xd2; x0a;
  xf2; xd3; x0a; xf2; xd4; x0a; xf2; xd5;
  x0a; xf2; xd6; x0a; xf2; xd7; x0a; xf2;
  xd8; x0a; xf2; xd9; x0a; xf2; xda; x0a;
  xf2; xdb; x0a; xf2; xdc; x0a; xf2; xdd;
  x0a; xf2; xde; x0a; xf2; xdf; x0a; xf2;
  xe0; x0a; xf2; xe1; x0a; xf2; xe2; x0a;
  xf2; xe3; x0a; xf2; xe4; x0a; xf2; xe5;
  x0a; xf2; xe6; x0a; xf2; xe7; x0a; xf2;
  xe8; x0a; xf2; xe9; x0a; xf2; xea; x0a;
  xf2; xeb; x0a; xf2; xec; x0a; xf2; xed;
  x0a; xf2; xee; x0a; xf2; xef; x0a; xf2;
  xf0; x0a; xf2; xf1; x0a; xf2; xf2; x0a;
  xf2; xf3; x0a; xf2; xf4; x0a; xf2; xf5;
  x0a; xf2; xf6; x0a; xf2; xf7; x0a; xf2;
  xf8; x0a; xf2; xf9; x0a; xf2; xfa; x0a;
  xf2; xfb; x0a; xf2; xfc; x0a; xf2; xfd;
  x0a; xf2; xfe; x0a; xf3; x40; x0a; xf3;
  x41; x0a; xf3; x42; x0a; xf3; x43; x0a;
  xf3; x44; x0a; xf3; x45; x0a; xf3; x46;
  x0a; xf3; x47; x0a; xf3; x48; x0a; xf3;
  x49; x0a; xf3; x4a; x0a; xf3; x4b; x0a;
  xf3; x4c; x0a; xf3; x4d; x0a; xf3; x4e;
  x0a; xf3; x4f; x0a; xf3; x50; x0a; xf3;
  x51; x0a; xf3; x52; x0a; xf3; x53; x0a
].
(* tests/test_data/whatwg/big5_whatwg_test_decode_in.txt, entries 50432..50687 *)
Definition big5_decode_in_197 : list byte := [
  xf3; x54; x0a; xf3; x55; x0a; xf3; x56;
  x0a; xf3; x57; x0a; xf3; x58; x0a; xf3;
  x59; x0a; xf3; x5a; x0a; xf3; x5b; x0a;
  xf3; x5c; x0a; xf3; x5d; x0a; xf3; x5e;
  x0a; xf3; x5f; x0a; xf3; x60; x0a; xf3;
  x61; x0a; xf3; x62; x0a; xf3; x63; x0a;
  xf3; x64; x0a; xf3; x65; x0a; xf3; x66;
  x0a; xf3; x67; x0a; xf3; x68; x0a; xf3;
  x69; x0a; xf3; x6a; x0a; xf3; x6b; x0a;
  xf3; x6c; x0a; xf3; x6d; x0a; xf3; x6e;
  x0a; xf3; x6f; x0a; xf3; x70; x0a; xf3;
  x71; x0a; xf3; x72; x0a; xf3; x73; x0a;
  xf3; x74; x0a; xf3; x75; x0a; xf3; x76;
  x0a; xf3; x77; x0a; xf3; x78; x0a; xf3;
  x79; x0a; xf3; x7a; x0a; xf3; x7b; x0a;
  xf3; x7c; x0a; xf3; x7d; x0a; xf3; x7e;
  x0a; xf3; xa1; x0a; xf3; xa2; x0a; xf3;
  xa3; x0a; xf3; xa4; x0a; xf3; xa5; x0a;
  xf3; xa6; x0a; xf3; xa7; x0a; xf3; xa8;
  x0a; xf3; xa9; x0a; xf3; xaa; x0a; xf3;
  xab; x0a; xf3; xac; x0a; xf3; xad; x0a;
  xf3; xae; x0a; xf3; xaf; x0a; xf3; xb0;
  x0a; xf3; xb1; x0a; xf3; xb2; x0a; xf3;
  xb3; x0a; xf3; xb4; x0a; xf3; xb5; x0a;
  xf3; xb6; x0a; xf3; xb7; x0a; xf3; xb8;
  x0a; xf3; xb9; x0a; xf3; xba; x0a; xf3;
  xbb; x0a; xf3; xbc; x0a; xf3; xbd; x0a;
  xf3; xbe; x0a; xf3; xbf; x0a; xf3; xc0;
  x0a; xf3; xc1; x0a; xf3; xc2; x0a; xf3;
  xc3; x0a; xf3; xc4; x0a; xf3; xc5; x0a;
  xf3; xc6; x0a; xf3; xc7; x0a; xf3; xc8;
  x0a; xf3; xc9; x0a; xf3; xca; x0a; xf3
].
(* tests/test_data/whatwg/big5_whatwg_test_decode_in.txt, entries 50688..50943 *)
Definition big5_decode_in_198 : list byte := [
  xcb; x0a; xf3; xcc; x0a; xf3; xcd; x0a;
  xf3; xce; x0a; xf3; xcf; x0a; xf3; xd0;
  x0a; xf3; xd1; x0a; xf3; xd2; x0a; xf3;
  xd3; x0a; xf3; xd4; x0a; xf3; xd5; x0a;
  xf3; xd6; x0a; xf3; xd7; x0a; xf3; xd8;
  x0a; xf3; xd9; x0a; xf3; xda; x0a; xf3;
  xdb; x0a; xf3; xdc; x0a; xf3; xdd; x0a;
  xf3; xde; x0a; xf3; xdf; x0a; xf3; xe0;
  x0a; xf3; xe1; x0a; xf3; xe2; x0a; xf3;
  xe3; x0a; xf3; xe4; x0a; xf3; xe5; x0a;
  xf3; xe6; x0a; xf3; xe7; x0a; xf3; xe8;
  x0a; xf3; xe9; x0a; xf3; xea; x0a; xf3;
  xeb; x0a; xf3; xec; x0a; xf3; xed; x0a;
  xf3; xee; x0a; xf3; xef; x0a; xf3; xf0;
  x0a; xf3; xf1; x0a; xf3; xf2; x0a; xf3;
  xf3; x0a; xf3; xf4; x0a; xf3; xf5; x0a;
  xf3; xf6; x0a; xf3; xf7; x0a; xf3; xf8;
  x0a; xf3; xf9; x0a; xf3; xfa; x0a; xf3;
  xfb; x0a; xf3; xfc; x0a; xf3; xfd; x0a;
  xf3; xfe; x0a; xf4; x40; x0a; xf4; x41;
  x0a; xf4; x42; x0a; xf4; x43; x0a; xf4;
  x44; x0a; xf4; x45; x0a; xf4; x46; x0a;
  xf4; x47; x0a; xf4; x48; x0a; xf4; x49;
  x0a; xf4; x4a; x0a; xf4; x4b; x0a; xf4;
  x4c; x0a; xf4; x4d; x0a; xf4; x4e; x0a;
  xf4; x4f; x0a; xf4; x50; x0a; xf4; x51;
  x0a; xf4; x52; x0a; xf4; x53; x0a; xf4;
  x54; x0a; xf4; x55; x0a; xf4; x56; x0a;
  xf4; x57; x0a; xf4; x58; x0a; xf4; x59;
  x0a; xf4; x5a; x0a; xf4; x5b; x0a; xf4;
  x5c; x0a; xf4; x5d; x0a; xf4; x5e; x0a;
  xf4; x5f; x0a; xf4; x60; x0a; xf4; x61
].
(* tests/test_data/whatwg/big5_whatwg_test_decode_in.txt, entries 50944..51199 *)
Definition big5_decode_in_199 : list byte := [
  x0a; xf4; x62; x0a; xf4; x63; x0a; xf4;
  x64; x0a; xf4; x65; x0a; xf4; x66; x0a;
  xf4; x67; x0a; xf4; x68; x0a; xf4; x69;
  x0a; xf4; x6a; x0a; xf4; x6b; x0a; xf4;
  x6c; x0a; xf4; x6d; x0a; xf4; x6e; x0a;
  xf4; x6f; x0a; xf4; x70; x0a; xf4; x71;
  x0a; xf4; x72; x0a; xf4; x73; x0a; xf4;
  x74; x0a; xf4; x75; x0a; xf4; x76; x0a;
  xf4; x77; x0a; xf4; x78; x0a; xf4; x79;
  x0a; xf4; x7a; x0a; xf4; x7b; x0a; xf4;
  x7c; x0a; xf4; x7d; x0a; xf4; x7e; x0a;
  xf4; xa1; x0a; xf4; xa2; x0a; xf4; xa3;
  x0a; xf4; xa4; x0a; xf4; xa5; x0a; xf4;
  xa6; x0a; xf4; xa7; x0a; xf4; xa8; x0a;
  xf4; xa9; x0a; xf4; xaa; x0a; xf4; xab;
  x0a; xf4; xac; x0a; xf4; xad; x0a; xf4;
  xae; x0a; xf4; xaf; x0a; xf4; xb0; x0a;
  xf4; xb1; x0a; xf4; xb2; x0a; xf4; xb3;
  x0a; xf4; xb4; x0a; xf4; xb5; x0a; xf4;
  xb6; x0a; xf4; xb7; x0a; xf4; xb8; x0a;
  xf4; xb9; x0a; xf4; xba; x0a; xf4; xbb;
  x0a; xf4; xbc; x0a; xf4; xbd; x0a; xf4;
  xbe; x0a; xf4; xbf; x0a; xf4; xc0; x0a;
  xf4; xc1; x0a; xf4; xc2; x0a; xf4; xc3;
  x0a; xf4; xc4; x0a; xf4; xc5; x0a; xf4;
  xc6; x0a; xf4; xc7; x0a; xf4; xc8; x0a;
  xf4; xc9; x0a; xf4; xca; x0a; xf4; xcb;
  x0a; xf4; xcc; x0a; xf4; xcd; x0a; xf4;
  xce; x0a; xf4; xcf; x0a; xf4; xd0; x0a;
  xf4; xd1; x0a; xf4; xd2; x0a; xf4; xd3;
  x0a; xf4; xd4; x0a; xf4; xd5; x0a; xf4;
  xd6; x0a; xf4; xd7; x0a; xf4; xd8; x0a
].
(* tests/test_data/whatwg/big5_whatwg_test_decode_in.txt, entries 51200..51455 *)
Definition big5_decode_in_200 : list byte := [
  xf4; xd9; x0a; xf4; xda; x0a; xf4; xdb;
  x0a; xf4; xdc; x0a; xf4; xdd; x0a; xf4;
  xde; x0a; xf4; xdf; x0a; xf4; xe0; x0a;
  xf4; xe1; x0a; xf4; xe2; x0a; xf4; xe3;
  x0a; xf4; xe4; x0a; xf4; xe5; x0a; xf4;
  xe6; x0a; xf4; xe7; x0a; xf4; xe8; x0a;
  xf4; xe9; x0a; xf4; xea; x0a; xf4; xeb;
  x0a; xf4; xec; x0a; xf4; xed; x0a; xf4;
  xee; x0a; xf4; xef; x0a; xf4; xf0; x0a;
  xf4; xf1; x0a; xf4; xf2; x0a; xf4; xf3;
  x0a; xf4; xf4; x0a; xf4; xf5; x0a; xf4;
  xf6; x0a; xf4; xf7; x0a; xf4; xf8; x0a;
  xf4; xf9; x0a; xf4; xfa; x0a; xf4; xfb;
  x0a; xf4; xfc; x0a; xf4; xfd; x0a; xf4;
  xfe; x0a; xf5; x40; x0a; xf5; x41; x0a;
  xf5; x42; x0a; xf5; x43; x0a; xf5; x44;
  x0a; xf5; x45; x0a; xf5; x46; x0a; xf5;
  x47; x0a; xf5; x48; x0a; xf5; x49; x0a;
  xf5; x4a; x0a; xf5; x4b; x0a; xf5; x4c;
  x0a; xf5; x4d; x0a; xf5; x4e; x0a; xf5;
  x4f; x0a; xf5; x50; x0a; xf5; x51; x0a;
  xf5; x52; x0a; xf5; x53; x0a; xf5; x54;
  x0a; xf5; x55; x0a; xf5; x56; x0a; xf5;
  x57; x0a; xf5; x58; x0a; xf5; x59; x0a;
  xf5; x5a; x0a; xf5; x5b; x0a; xf5; x5c;
  x0a; xf5; x5d; x0a; xf5; x5e; x0a; xf5;
  x5f; x0a; xf5; x60; x0a; xf5; x61; x0a;
  xf5; x62; x0a; xf5; x63; x0a; xf5; x64;
  x0a; xf5; x65; x0a; xf5; x66; x0a; xf5;
  x67; x0a; xf5; x68; x0a; xf5; x69; x0a;
  xf5; x6a; x0a; xf5; x6b; x0a; xf5; x6c;
  x0a; xf5; x6d; x0a; xf5; x6e; x0a; xf5
].
(* tests/test_data/whatwg/big5_whatwg_test_decode_in.txt, entries 51456..51711 *)
Definition big5_decode_in_201 : list byte := [
  x6f; x0a; xf5; x70; x0a; xf5; x71; x0a;
  xf5; x72; x0a; xf5; x73; x0a; xf5; x74;
  x0a; xf5; x75; x0a; xf5; x76; x0a; xf5;
  x77; x0a; xf5; x78; x0a; xf5; x79; x0a;
  xf5; x7a; x0a; xf5; x7b; x0a; xf5; x7c;
  x0a; xf5; x7d; x0a; xf5; x7e; x0a; xf5;
  xa1; x0a; xf5; xa2; x0a; xf5; xa3; x0a;
  xf5; xa4; x0a; xf5; xa5; x0a; xf5; xa6;
  x0a; xf5; xa7; x0a; xf5; xa8; x0a; xf5;
  xa9; x0a; xf5; xaa; x0a; xf5; xab; x0a;
  xf5; xac; x0a; xf5; xad; x0a; xf5; xae;
  x0a; xf5; xaf; x0a; xf5; xb0; x0a; xf5;
  xb1; x0a; xf5; xb2; x0a; xf5; xb3; x0a;
  xf5; xb4; x0a; xf5; xb5; x0a; xf5; xb6;
  x0a; xf5; xb7; x0a; xf5; xb8; x0a; xf5;
  xb9; x0a; xf5; xba; x0a; xf5; xbb; x0a;
  xf5; xbc; x0a; xf5; xbd; x0a; xf5; xbe;
  x0a; xf5; xbf; x0a; xf5; xc0; x0a; xf5;
  xc1; x0a; xf5; xc2; x0a; xf5; xc3; x0a;
  xf5; xc4; x0a; xf5; xc5; x0a; xf5; xc6;
  x0a; xf5; xc7; x0a; xf5; xc8; x0a; xf5;
  xc9; x0a; xf5; xca; x0a; xf5; xcb; x0a;
  xf5; xcc; x0a; xf5; xcd; x0a; xf5; xce;
  x0a; xf5; xcf; x0a; xf5; xd0; x0a; xf5;
  xd1; x0a; xf5; xd2; x0a; xf5; xd3; x0a;
  xf5; xd4; x0a; xf5; xd5; x0a; xf5; xd6;
  x0a; xf5; xd7; x0a; xf5; xd8; x0a; xf5;
  xd9; x0a; xf5; xda; x0a; xf5; xdb; x0a;
  xf5; xdc; x0a; xf5; xdd; x0a; xf5; xde;
  x0a; xf5; xdf; x0a; xf5; xe0; x0a; xf5;
  xe1; x0a; xf5; xe2; x0a; xf5; xe3; x0a;
  xf5; xe4; x0a; xf5; xe5; x0a; xf5; xe6
].
(* tests/test_data/whatwg/big5_whatwg_test_decode_in.txt, entries 51712..51967 *)
Definition big5_decode_in_202 : list byte := [
  x0a; xf5; xe7; x0a; xf5; xe8; x0a; xf5;
  xe9; x0a; xf5; xea; x0a; xf5; xeb; x0a;
  xf5; xec; x0a; xf5; xed; x0a; xf5; xee;
  x0a; xf5; xef; x0a; xf5; xf0; x0a; xf5;
  xf1; x0a; xf5; xf2; x0a; xf5; xf3; x0a;
  xf5; xf4; x0a; xf5; xf5; x0a; xf5; xf6;
  x0a; xf5; xf7; x0a; xf5; xf8; x0a; xf5;
  xf9; x0a; xf5; xfa; x0a; xf5; xfb; x0a;
  xf5; xfc; x0a; xf5; xfd; x0a; xf5; xfe;
  x0a; xf6; x40; x0a; xf6; x41; x0a; xf6;
  x42; x0a; xf6; x43; x0a; xf6; x44; x0a;
  xf6; x45; x0a; xf6; x46; x0a; xf6; x47;
  x0a; xf6; x48; x0a; xf6; x49; x0a; xf6;
  x4a; x0a; xf6; x4b; x0a; xf6; x4c; x0a;
  xf6; x4d; x0a; xf6; x4e; x0a; xf6; x4f;
  x0a; xf6; x50; x0a; xf6; x51; x0a; xf6;
  x52; x0a; xf6; x53; x0a; xf6; x54; x0a;
  xf6; x55; x0a; xf6; x56; x0a; xf6; x57;
  x0a; xf6; x58; x0a; xf6; x59; x0a; xf6;
  x5a; x0a; xf6; x5b; x0a; xf6; x5c; x0a;
  xf6; x5d; x0a; xf6; x5e; x0a; xf6; x5f;
  x0a; xf6; x60; x0a; xf6; x61; x0a; xf6;
  x62; x0a; xf6; x63; x0a; xf6; x64; x0a;
  xf6; x65; x0a; xf6; x66; x0a; xf6; x67;
  x0a; xf6; x68; x0a; xf6; x69; x0a; xf6;
  x6a; x0a; xf6; x6b; x0a; xf6; x6c; x0a;
  xf6; x6d; x0a; xf6; x6e; x0a; xf6; x6f;
  x0a; xf6; x70; x0a; xf6; x71; x0a; xf6;
  x72; x0a; xf6; x73; x0a; xf6; x74; x0a;
  xf6; x75; x0a; xf6; x76; x0a; xf6; x77;
  x0a; xf6; x78; x0a; xf6; x79; x0a; xf6;
  x7a; x0a; xf6; x7b; x0a; xf6; x7c; x0a
].
(* tests/test_data/whatwg/big5_whatwg_test_decode_in.txt, entries 51968..52223 *)
Definition big5_decode_in_203 : list byte := [
  xf6; x7d; x0a; xf6; x7e; x0a; xf6; xa1;
  x0a; xf6; xa2; x0a; xf6; xa3; x0a; xf6;
  xa4; x0a; xf6; xa5; x0a; xf6; xa6; x0a;
  xf6; xa7; x0a; xf6; xa8; x0a; xf6; xa9;
  x0a; xf6; xaa; x0a; xf6; xab; x0a; xf6;
  xac; x0a; xf6; xad; x0a; xf6; xae; x0a;
  xf6; xaf; x0a; xf6; xb0; x0a; xf6; xb1;
  x0a; xf6; xb2; x0a; xf6; xb3; x0a; xf6;
  xb4; x0a; xf6; xb5; x0a; xf6; xb6; x0a;
  xf6; xb7; x0a; xf6; xb8; x0a; xf6; xb9;
  x0a; xf6; xba; x0a; xf6; xbb; x0a; xf6;
  xbc; x0a; xf6; xbd; x0a; xf6; xbe; x0a;
  xf6; xbf; x0a; xf6; xc0; x0a; xf6; xc1;
  x0a; xf6; xc2; x0a; xf6; xc3; x0a; xf6;
  xc4; x0a; xf6; xc5; x0a; xf6; xc6; x0a;
  xf6; xc7; x0a; xf6; xc8; x0a; xf6; xc9;
  x0a; xf6; xca; x0a; xf6; xcb; x0a; xf6;
  xcc; x0a; xf6; xcd; x0a; xf6; xce; x0a;
  xf6; xcf; x0a; xf6; xd0; x0a; xf6; xd1;
  x0a; xf6; xd2; x0a; xf6; xd3; x0a; xf6;
  xd4; x0a; xf6; xd5; x0a; xf6; xd6; x0a;
  xf6; xd7; x0a; xf6; xd8; x0a; xf6; xd9;
  x0a; xf6; xda; x0a; xf6; xdb; x0a; xf6;
  xdc; x0a; xf6; xdd; x0a; xf6; xde; x0a;
  xf6; xdf; x0a; xf6; xe0; x0a; xf6; xe1;
  x0a; xf6; xe2; x0a; xf6; xe3; x0a; xf6;
  xe4; x0a; xf6; xe5; x0a; xf6; xe6; x0a;
  xf6; xe7; x0a; xf6; xe8; x0a; xf6; xe9;
  x0a; xf6; xea; x0a; xf6; xeb; x0a; xf6;
  xec; x0a; xf6; xed; x0a; xf6; xee; x0a;
  xf6; xef; x0a; xf6; xf0; x0a; xf6; xf1;
  x0a; xf6; xf2; x0a; xf6; xf3; x0a; xf6
].
(* tests/test_data/whatwg/big5_whatwg_test_decode_in.txt, entries 52224..52479 *)
Definition big5_decode_in_204 : list byte := [
  xf4; x0a; xf6; xf5; x0a; xf6; xf6; x0a;
  xf6; xf7; x0a; xf6; xf8; x0a; xf6; xf9;
  x0a; xf6; xfa; x0a; xf6; xfb; x0a; xf6;
  xfc; x0a; xf6; xfd; x0a; xf6; xfe; x0a;
  xf7; x40; x0a; xf7; x41; x0a; xf7; x42;
  x0a; xf7; x43; x0a; xf7; x44; x0a; xf7;
  x45; x0a; xf7; x46; x0a; xf7; x47; x0a;
  xf7; x48; x0a; xf7; x49; x0a; xf7; x4a;
  x0a; xf7; x4b; x0a; xf7; x4c; x0a; xf7;
  x4d; x0a; xf7; x4e; x0a; xf7; x4f; x0a;
  xf7; x50; x0a; xf7; x51; x0a; xf7; x52;
  x0a; xf7; x53; x0a; xf7; x54; x0a; xf7;
  x55; x0a; xf7; x56; x0a; xf7; x57; x0a;
  xf7; x58; x0a; xf7; x59; x0a; xf7; x5a;
  x0a; xf7; x5b; x0a; xf7; x5c; x0a; xf7;
  x5d; x0a; xf7; x5e; x0a; xf7; x5f; x0a;
  xf7; x60; x0a; xf7; x61; x0a; xf7; x62;
  x0a; xf7; x63; x0a; xf7; x64; x0a; xf7;
  x65; x0a; xf7; x66; x0a; xf7; x67; x0a;
  xf7; x68; x0a; xf7; x69; x0a; xf7; x6a;
  x0a; xf7; x6b; x0a; xf7; x6c; x0a; xf7;
  x6d; x0a; xf7; x6e; x0a; xf7; x6f; x0a;
  xf7; x70; x0a; xf7; x71; x0a; xf7; x72;
  x0a; xf7; x73; x0a; xf7; x74; x0a; xf7;
  x75; x0a; xf7; x76; x0a; xf7; x77; x0a;
  xf7; x78; x0a; xf7; x79; x0a; xf7; x7a;
  x0a; xf7; x7b; x0a; xf7; x7c; x0a; xf7;
  x7d; x0a; xf7; x7e; x0a; xf7; xa1; x0a;
  xf7; xa2; x0a; xf7; xa3; x0a; xf7; xa4;
  x0a; xf7; xa5; x0a; xf7; xa6; x0a; xf7;
  xa7; x0a; xf7; xa8; x0a; xf7; xa9; x0a;
  xf7; xaa; x0a; xf7; xab; x0a; xf7; xac
].
(* tests/test_data/whatwg/big5_whatwg_test_decode_in.txt, entries 52480..52735 *)
Definition big5_decode_in_205 : list byte := [
  x0a; xf7; xad; x0a; xf7; xae; x0a; xf7;
  xaf; x0a; xf7; xb0; x0a; xf7; xb1; x0a;
  xf7; xb2; x0a; xf7; xb3; x0a; xf7; xb4;
  x0a; xf7; xb5; x0a; xf7; xb6; x0a; xf7;
  xb7; x0a; xf7; xb8; x0a; xf7; xb9; x0a;
  xf7; xba; x0a; xf7; xbb; x0a; xf7; xbc;
  x0a; xf7; xbd; x0a; xf7; xbe; x0a; xf7;
  xbf; x0a; xf7; xc0; x0a; xf7; xc1; x0a;
  xf7; xc2; x0a; xf7; xc3; x0a; xf7; xc4;
  x0a; xf7; xc5; x0a; xf7; xc6; x0a; xf7;
  xc7; x0a; xf7; xc8; x0a; xf7; xc9; x0a;
  xf7; xca; x0a; xf7; xcb; x0a; xf7; xcc;
  x0a; xf7; xcd; x0a; xf7; xce; x0a; xf7;
  xcf; x0a; xf7; xd0; x0a; xf7; xd1; x0a;
  xf7; xd2; x0a; xf7; xd3; x0a; xf7; xd4;
  x0a; xf7; xd5; x0a; xf7; xd6; x0a; xf7;
  xd7; x0a; xf7; xd8; x0a; xf7; xd9; x0a;
  xf7; xda; x0a; xf7; xdb; x0a; xf7; xdc;
  x0a; xf7; xdd; x0a; xf7; xde; x0a; xf7;
  xdf; x0a; xf7; xe0; x0a; xf7; xe1; x0a;
  xf7; xe2; x0a; xf7; xe3; x0a; xf7; xe4;
  x0a; xf7; xe5; x0a; xf7; xe6; x0a; xf7;
  xe7; x0a; xf7; xe8; x0a; xf7; xe9; x0a;
  xf7; xea; x0a; xf7; xeb; x0a; xf7; xec;
  x0a; xf7; xed; x0a; xf7; xee; x0a; xf7;
  xef; x0a; xf7; xf0; x0a; xf7; xf1; x0a;
  xf7; xf2; x0a; xf7; xf3; x0a; xf7; xf4;
  x0a; xf7; xf5; x0a; xf7; xf6; x0a; xf7;
  xf7; x0a; xf7; xf8; x0a; xf7; xf9; x0a;
  xf7; xfa; x0a; xf7; xfb; x0a; xf7; xfc;
  x0a; xf7; xfd; x0a; xf7; xfe; x0a; xf8;
  x40; x0a; xf8; x41; x0a; xf8; x42; x0a
].
(* tests/test_data/whatwg/big5_whatwg_test_decode_in.txt, entries 52736..52991 *)
Definition big5_decode_in_206 : list byte := [
  xf8; x43; x0a; xf8; x44; x0a; xf8; x45;
  x0a; xf8; x46; x0a; xf8; x47; x0a; xf8;
  x48; x0a; xf8; x49; x0a; xf8; x4a; x0a;
  xf8; x4b; x0a; xf8; x4c; x0a; xf8; x4d;
  x0a; xf8; x4e; x0a; xf8; x4f; x0a; xf8;
  x50; x0a; xf8; x51; x0a; xf8; x52; x0a;
  xf8; x53; x0a; xf8; x54; x0a; xf8; x55;
  x0a; xf8; x56; x0a; xf8; x57; x0a; xf8;
  x58; x0a; xf8; x59; x0a; xf8; x5a; x0a;
  xf8; x5b; x0a; xf8; x5c; x0a; xf8; x5d;
  x0a; xf8; x5e; x0a; xf8; x5f; x0a; xf8;
  x60; x0a; xf8; x61; x0a; xf8; x62; x0a;
  xf8; x63; x0a; xf8; x64; x0a; xf8; x65;
  x0a; xf8; x66; x0a; xf8; x67; x0a; xf8;
  x68; x0a; xf8; x69; x0a; xf8; x6a; x0a;
  xf8; x6b; x0a; xf8; x6c; x0a; xf8; x6d;
  x0a; xf8; x6e; x0a; xf8; x6f; x0a; xf8;
  x70; x0a; xf8; x71; x0a; xf8; x72; x0a;
  xf8; x73; x0a; xf8; x74; x0a; xf8; x75;
  x0a; xf8; x76; x0a; xf8; x77; x0a; xf8;
  x78; x0a; xf8; x79; x0a; xf8; x7a; x0a;
  xf8; x7b; x0a; xf8; x7c; x0a; xf8; x7d;
  x0a; xf8; x7e; x0a; xf8; xa1; x0a; xf8;
  xa2; x0a; xf8; xa3; x0a; xf8; xa4; x0a;
  xf8; xa5; x0a; xf8; xa6; x0a; xf8; xa7;
  x0a; xf8; xa8; x0a; xf8; xa9; x0a; xf8;
  xaa; x0a; xf8; xab; x0a; xf8; xac; x0a;
  xf8; xad; x0a; xf8; xae; x0a; xf8; xaf;
  x0a; xf8; xb0; x0a; xf8; xb1; x0a; xf8;
  xb2; x0a; xf8; xb3; x0a; xf8; xb4; x0a;
  xf8; xb5; x0a; xf8; xb6; x0a; xf8; xb7;
  x0a; xf8; xb8; x0a; xf8; xb9; x0a; xf8
].
(* tests/test_data/whatwg/big5_whatwg_test_decode_in.txt, entries 52992..53247 *)
Definition big5_decode_in_207 : list byte := [
  xba; x0a; xf8; xbb; x0a; xf8; xbc; x0a;
  xf8; xbd; x0a; xf8; xbe; x0a; xf8; xbf;
  x0a; xf8; xc0; x0a; xf8; xc1; x0a; xf8;
  xc2; x0a; xf8; xc3; x0a; xf8; xc4; x0a;
  xf8; xc5; x0a; xf8; xc6; x0a; xf8; xc7;
  x0a; xf8; xc8; x0a; xf8; xc9; x0a; xf8;
  xca; x0a; xf8; xcb; x0a; xf8; xcc; x0a;
  xf8; xcd; x0a; xf8; xce; x0a; xf8; xcf;
  x0a; xf8; xd0; x0a; xf8; xd1; x0a; xf8;
  xd2; x0a; xf8; xd3; x0a; xf8; xd4; x0a;
  xf8; xd5; x0a; xf8; xd6; x0a; xf8; xd7;
  x0a; xf8; xd8; x0a; xf8; xd9; x0a; xf8;
  xda; x0a; xf8; xdb; x0a; xf8; xdc; x0a;
  xf8; xdd; x0a; xf8; xde; x0a; xf8; xdf;
  x0a; xf8; xe0; x0a; xf8; xe1; x0a; xf8;
  xe2; x0a; xf8; xe3; x0a; xf8; xe4; x0a;
  xf8; xe5; x0a; xf8; xe6; x0a; xf8; xe7;
  x0a; xf8; xe8; x0a; xf8; xe9; x0a; xf8;
  xea; x0a; xf8; xeb; x0a; xf8; xec; x0a;
  xf8; xed; x0a; xf8; xee; x0a; xf8; xef;
  x0a; xf8; xf0; x0a; xf8; xf1; x0a; xf8;
  xf2; x0a; xf8; xf3; x0a; xf8; xf4; x0a;
  xf8; xf5; x0a; xf8; xf6; x0a; xf8; xf7;
  x0a; xf8; xf8; x0a; xf8; xf9; x0a; xf8;
  xfa; x0a; xf8; xfb; x0a; xf8; xfc; x0a;
  xf8; xfd; x0a; xf8; xfe; x0a; xf9; x40;
  x0a; xf9; x41; x0a; xf9; x42; x0a; xf9;
  x43; x0a; xf9; x44; x0a; xf9; x45; x0a;
  xf9; x46; x0a; xf9; x47; x0a; xf9; x48;
  x0a; xf9; x49; x0a; xf9; x4a; x0a; xf9;
  x4b; x0a; xf9; x4c; x0a; xf9; x4d; x0a;
  xf9; x4e; x0a; xf9; x4f; x0a; xf9; x50
].
(* tests/test_data/whatwg/big5_whatwg_test_decode_in.txt, entries 53248..53503 *)
Definition big5_decode_in_208 : list byte := [
  x0a; xf9; x51; x0a; xf9; x52; x0a; xf9;
  x53; x0a; xf9; x54; x0a; xf9; x55; x0a;
  xf9; x56; x0a; xf9; x57; x0a; xf9; x58;
  x0a; xf9; x59; x0a; xf9; x5a; x0a; xf9;
  x5b; x0a; xf9; x5c; x0a; xf9; x5d; x0a;
  xf9; x5e; x0a; xf9; x5f; x0a; xf9; x60;
  x0a; xf9; x61; x0a; xf9; x62; x0a; xf9;
  x63; x0a; xf9; x64; x0a; xf9; x65; x0a;
  xf9; x66; x0a; xf9; x67; x0a; xf9; x68;
  x0a; xf9; x69; x0a; xf9; x6a; x0a; xf9;
  x6b; x0a; xf9; x6c; x0a; xf9; x6d; x0a;
  xf9; x6e; x0a; xf9; x6f; x0a; xf9; x70;
  x0a; xf9; x71; x0a; xf9; x72; x0a; xf9;
  x73; x0a; xf9; x74; x0a; xf9; x75; x0a;
  xf9; x76; x0a; xf9; x77; x0a; xf9; x78;
  x0a; xf9; x79; x0a; xf9; x7a; x0a; xf9;
  x7b; x0a; xf9; x7c; x0a; xf9; x7d; x0a;
  xf9; x7e; x0a; xf9; xa1; x0a; xf9; xa2;
  x0a; xf9; xa3; x0a; xf9; xa4; x0a; xf9;
  xa5; x0a; xf9; xa6; x0a; xf9; xa7; x0a;
  xf9; xa8; x0a; xf9; xa9; x0a; xf9; xaa;
  x0a; xf9; xab; x0a; xf9; xac; x0a; xf9;
  xad; x0a; xf9; xae; x0a; xf9; xaf; x0a;
  xf9; xb0; x0a; xf9; xb1; x0a; xf9; xb2;
  x0a; xf9; xb3; x0a; xf9; xb4; x0a; xf9;
  xb5; x0a; xf9; xb6; x0a; xf9; xb7; x0a;
  xf9; xb8; x0a; xf9; xb9; x0a; xf9; xba;
  x0a; xf9; xbb; x0a; xf9; xbc; x0a; xf9;
  xbd; x0a; xf9; xbe; x0a; xf9; xbf; x0a;
  xf9; xc0; x0a; xf9; xc1; x0a; xf9; xc2;
  x0a; xf9; xc3; x0a; xf9; xc4; x0a; xf9;
  xc5; x0a; xf9; xc6; x0a; xf9; xc7; x0a
].
(* tests/test_data/whatwg/big5_whatwg_test_decode_in.txt, entries 53504..53759 *)
Definition big5_decode_in_209 : list byte := [
  xf9; xc8; x0a; xf9; xc9; x0a; xf9; xca;
  x0a; xf9; xcb; x0a; xf9; xcc; x0a; xf9;
  xcd; x0a; xf9; xce; x0a; xf9; xcf; x0a;
  xf9; xd0; x0a; xf9; xd1; x0a; xf9; xd2;
  x0a; xf9; xd3; x0a; xf9; xd4; x0a; xf9;
  xd5; x0a; xf9; xd6; x0a; xf9; xd7; x0a;
  xf9; xd8; x0a; xf9; xd9; x0a; xf9; xda;
  x0a; xf9; xdb; x0a; xf9; xdc; x0a; xf9;
  xdd; x0a; xf9; xde; x0a; xf9; xdf; x0a;
  xf9; xe0; x0a; xf9; xe1; x0a; xf9; xe2;
  x0a; xf9; xe3; x0a; xf9; xe4; x0a; xf9;
  xe5; x0a; xf9; xe6; x0a; xf9; xe7; x0a;
  xf9; xe8; x0a; xf9; xe9; x0a; xf9; xea;
  x0a; xf9; xeb; x0a; xf9; xec; x0a; xf9;
  xed; x0a; xf9; xee; x0a; xf9; xef; x0a;
  xf9; xf0; x0a; xf9; xf1; x0a; xf9; xf2;
  x0a; xf9; xf3; x0a; xf9; xf4; x0a; xf9;
  xf5; x0a; xf9; xf6; x0a; xf9; xf7; x0a;
  xf9; xf8; x0a; xf9; xf9; x0a; xf9; xfa;
  x0a; xf9; xfb; x0a; xf9; xfc; x0a; xf9;
  xfd; x0a; xf9; xfe; x0a; xfa; x40; x0a;
  xfa; x41; x0a; xfa; x42; x0a; xfa; x43;
  x0a; xfa; x44; x0a; xfa; x45; x0a; xfa;
  x46; x0a; xfa; x47; x0a; xfa; x48; x0a;
  xfa; x49; x0a; xfa; x4a; x0a; xfa; x4b;
  x0a; xfa; x4c; x0a; xfa; x4d; x0a; xfa;
  x4e; x0a; xfa; x4f; x0a; xfa; x50; x0a;
  xfa; x51; x0a; xfa; x52; x0a; xfa; x53;
  x0a; xfa; x54; x0a; xfa; x55; x0a; xfa;
  x56; x0a; xfa; x57; x0a; xfa; x58; x0a;
  xfa; x59; x0a; xfa; x5a; x0a; xfa; x5b;
  x0a; xfa; x5c; x0a; xfa; x5d; x0a; xfa
].
(* tests/test_data/whatwg/big5_whatwg_test_decode_in.txt, entries 53760..54015 *)
Definition big5_decode_in_210 : list byte := [
  x5e; x0a; xfa; x5f; x0a; xfa; x60; x0a;
  xfa; x61; x0a; xfa; x62; x0a; xfa; x63;
  x0a; xfa; x64; x0a; xfa; x65; x0a; xfa;
  x66; x0a; xfa; x67; x0a; xfa; x68; x0a;
  xfa; x69; x0a; xfa; x6a; x0a; xfa; x6b;
  x0a; xfa; x6c; x0a; xfa; x6d; x0a; xfa;
  x6e; x0a; xfa; x6f; x0a; xfa; x70; x0a;
  xfa; x71; x0a; xfa; x72; x0a; xfa; x73;
  x0a; xfa; x74; x0a; xfa; x75; x0a; xfa;
  x76; x0a; xfa; x77; x0a; xfa; x78; x0a;
  xfa; x79; x0a; xfa; x7a; x0a; xfa; x7b;
  x0a; xfa; x7c; x0a; xfa; x7d; x0a; xfa;
  x7e; x0a; xfa; xa1; x0a; xfa; xa2; x0a;
  xfa; xa3; x0a; xfa; xa4; x0a; xfa; xa5;
  x0a; xfa; xa6; x0a; xfa; xa7; x0a; xfa;
  xa8; x0a; xfa; xa9; x0a; xfa; xaa; x0a;
  xfa; xab; x0a; xfa; xac; x0a; xfa; xad;
  x0a; xfa; xae; x0a; xfa; xaf; x0a; xfa;
  xb0; x0a; xfa; xb1; x0a; xfa; xb2; x0a;
  xfa; xb3; x0a; xfa; xb4; x0a; xfa; xb5;
  x0a; xfa; xb6; x0a; xfa; xb7; x0a; xfa;
  xb8; x0a; xfa; xb9; x0a; xfa; xba; x0a;
  xfa; xbb; x0a; xfa; xbc; x0a; xfa; xbd;
  x0a; xfa; xbe; x0a; xfa; xbf; x0a; xfa;
  xc0; x0a; xfa; xc1; x0a; xfa; xc2; x0a;
  xfa; xc3; x0a; xfa; xc4; x0a; xfa; xc5;
  x0a; xfa; xc6; x0a; xfa; xc7; x0a; xfa;
  xc8; x0a; xfa; xc9; x0a; xfa; xca; x0a;
  xfa; xcb; x0a; xfa; xcc; x0a; xfa; xcd;
  x0a; xfa; xce; x0a; xfa; xcf; x0a; xfa;
  xd0; x0a; xfa; xd1; x0a; xfa; xd2; x0a;
  xfa; xd3; x0a; xfa; xd4; x0a; xfa; xd5
].
(* tests/test_data/whatwg/big5_whatwg_test_decode_in.txt, entries 54016..54271 *)
Definition big5_decode_in_211 : list byte := [
  x0a; xfa; xd6; x0a; xfa; xd7; x0a; xfa;
  xd8; x0a; xfa; xd9; x0a; xfa; xda; x0a;
  xfa; xdb; x0a; xfa; xdc; x0a; xfa; xdd;
  x0a; xfa; xde; x0a; xfa; xdf; x0a; xfa;
  xe0; x0a; xfa; xe1; x0a; xfa; xe2; x0a;
  xfa; xe3; x0a; xfa; xe4; x0a; xfa; xe5;
  x0a; xfa; xe6; x0a; xfa; xe7; x0a; xfa;
  xe8; x0a; xfa; xe9; x0a; xfa; xea; x0a;
  xfa; xeb; x0a; xfa; xec; x0a; xfa; xed;
  x0a; xfa; xee; x0a; xfa; xef; x0a; xfa;
  xf0; x0a; xfa; xf1; x0a; xfa; xf2; x0a;
  xfa; xf3; x0a; xfa; xf4; x0a; xfa; xf5;
  x0a; xfa; xf6; x0a; xfa; xf7; x0a; xfa;
  xf8; x0a; xfa; xf9; x0a; xfa; xfa; x0a;
  xfa; xfb; x0a; xfa; xfc; x0a; xfa; xfd;
  x0a; xfa; xfe; x0a; xfb; x40; x0a; xfb;
  x41; x0a; xfb; x42; x0a; xfb; x43; x0a;
  xfb; x44; x0a; xfb; x45; x0a; xfb; x46;
  x0a; xfb; x47; x0a; xfb; x48; x0a; xfb;
  x49; x0a; xfb; x4a; x0a; xfb; x4b; x0a;
  xfb; x4c; x0a; xfb; x4d; x0a; xfb; x4e;
  x0a; xfb; x4f; x0a; xfb; x50; x0a; xfb;
  x51; x0a; xfb; x52; x0a; xfb; x53; x0a;
  xfb; x54; x0a; xfb; x55; x0a; xfb; x56;
  x0a; xfb; x57; x0a; xfb; x58; x0a; xfb;
  x59; x0a; xfb; x5a; x0a; xfb; x5b; x0a;
  xfb; x5c; x0a; xfb; x5d; x0a; xfb; x5e;
  x0a; xfb; x5f; x0a; xfb; x60; x0a; xfb;
  x61; x0a; xfb; x62; x0a; xfb; x63; x0a;
  xfb; x64; x0a; xfb; x65; x0a; xfb; x66;
  x0a; xfb; x67; x0a; xfb; x68; x0a; xfb;
  x69; x0a; xfb; x6a; x0a; xfb; x6b; x0a
].
(* tests/test_data/whatwg/big5_whatwg_test_decode_in.txt, entries 54272..54527 *)
Definition big5_decode_in_212 : list byte := [
  xfb; x6c; x0a; xfb; x6d; x0a; xfb; x6e;
  x0a; xfb; x6f; x0a; xfb; x70; x0a; xfb;
  x71; x0a; xfb; x72; x0a; xfb; x73; x0a;
  xfb; x74; x0a; xfb; x75; x0a; xfb; x76;
  x0a; xfb; x77; x0a; xfb; x78; x0a; xfb;
  x79; x0a; xfb; x7a; x0a; xfb; x7b; x0a;
  xfb; x7c; x0a; xfb; x7d; x0a; xfb; x7e;
  x0a; xfb; xa1; x0a; xfb; xa2; x0a; xfb;
  xa3; x0a; xfb; xa4; x0a; xfb; xa5; x0a;
  xfb; xa6; x0a; xfb; xa7; x0a; xfb; xa8;
  x0a; xfb; xa9; x0a; xfb; xaa; x0a; xfb;
  xab; x0a; xfb; xac; x0a; xfb; xad; x0a;
  xfb; xae; x0a; xfb; xaf; x0a; xfb; xb0;
  x0a; xfb; xb1; x0a; xfb; xb2; x0a; xfb;
  xb3; x0a; xfb; xb4; x0a; xfb; xb5; x0a;
  xfb; xb6; x0a; xfb; xb7; x0a; xfb; xb8;
  x0a; xfb; xb9; x0a; xfb; xba; x0a; xfb;
  xbb; x0a; xfb; xbc; x0a; xfb; xbd; x0a;
  xfb; xbe; x0a; xfb; xbf; x0a; xfb; xc0;
  x0a; xfb; xc1; x0a; xfb; xc2; x0a; xfb;
  xc3; x0a; xfb; xc4; x0a; xfb; xc5; x0a;
  xfb; xc6; x0a; xfb; xc7; x0a; xfb; xc8;
  x0a; xfb; xc9; x0a; xfb; xca; x0a; xfb;
  xcb; x0a; xfb; xcc; x0a; xfb; xcd; x0a;
  xfb; xce; x0a; xfb; xcf; x0a; xfb; xd0;
  x0a; xfb; xd1; x0a; xfb; xd2; x0a; xfb;
  xd3; x0a; xfb; xd4; x0a; xfb; xd5; x0a;
  xfb; xd6; x0a; xfb; xd7; x0a; xfb; xd8;
  x0a; xfb; xd9; x0a; xfb; xda; x0a; xfb;
  xdb; x0a; xfb; xdc; x0a; xfb; xdd; x0a;
  xfb; xde; x0a; xfb; xdf; x0a; xfb; xe0;
  x0a; xfb; xe1; x0a; xfb; xe2; x0a; xfb
].
(* tests/test_data/whatwg/big5_whatwg_test_decode_in.txt, entries 54528..54783 *)
Definition big5_decode_in_213 : list byte := [
  xe3; x0a; xfb; xe4; x0a; xfb; xe5; x0a;
  xfb; xe6; x0a; xfb; xe7; x0a; xfb; xe8;
  x0a; xfb; xe9; x0a; xfb; xea; x0a; xfb;
  xeb; x0a; xfb; xec; x0a; xfb; xed; x0a;
  xfb; xee; x0a; xfb; xef; x0a; xfb; xf0;
  x0a; xfb; xf1; x0a; xfb; xf2; x0a; xfb;
  xf3; x0a; xfb; xf4; x0a; xfb; xf5; x0a;
  xfb; xf6; x0a; xfb; xf7; x0a; xfb; xf8;
  x0a; xfb; xf9; x0a; xfb; xfa; x0a; xfb;
  xfb; x0a; xfb; xfc; x0a; xfb; xfd; x0a;
  xfb; xfe; x0a; xfc; x40; x0a; xfc; x41;
  x0a; xfc; x42; x0a; xfc; x43; x0a; xfc;
  x44; x0a; xfc; x45; x0a; xfc; x46; x0a;
  xfc; x47; x0a; xfc; x48; x0a; xfc; x49;
  x0a; xfc; x4a; x0a; xfc; x4b; x0a; xfc;
  x4c; x0a; xfc; x4d; x0a; xfc; x4e; x0a;
  xfc; x4f; x0a; xfc; x50; x0a; xfc; x51;
  x0a; xfc; x52; x0a; xfc; x53; x0a; xfc;
  x54; x0a; xfc; x55; x0a; xfc; x56; x0a;
  xfc; x57; x0a; xfc; x58; x0a; xfc; x59;
  x0a; xfc; x5a; x0a; xfc; x5b; x0a; xfc;
  x5c; x0a; xfc; x5d; x0a; xfc; x5e; x0a;
  xfc; x5f; x0a; xfc; x60; x0a; xfc; x61;
  x0a; xfc; x62; x0a; xfc; x63; x0a; xfc;
  x64; x0a; xfc; x65; x0a; xfc; x66; x0a;
  xfc; x67; x0a; xfc; x68; x0a; xfc; x69;
  x0a; xfc; x6a; x0a; xfc; x6b; x0a; xfc;
  x6c; x0a; xfc; x6d; x0a; xfc; x6e; x0a;
  xfc; x6f; x0a; xfc; x70; x0a; xfc; x71;
  x0a; xfc; x72; x0a; xfc; x73; x0a; xfc;
  x74; x0a; xfc; x75; x0a; xfc; x76; x0a;
  xfc; x77; x0a; xfc; x78; x0a; xfc; x79
].
(* tests/test_data/whatwg/big5_whatwg_test_decode_in.txt, entries 54784..55039 *)
Definition big5_decode_in_214 : list byte := [
  x0a; xfc; x7a; x0a; xfc; x7b; x0a; xfc;
  x7c; x0a; xfc; x7d; x0a; xfc; x7e; x0a;
  xfc; xa1; x0a; xfc; xa2; x0a; xfc; xa3;
  x0a; xfc; xa4; x0a; xfc; xa5; x0a; xfc;
  xa6; x0a; xfc; xa7; x0a; xfc; xa8; x0a;
  xfc; xa9; x0a; xfc; xaa; x0a; xfc; xab;
  x0a; xfc; xac; x0a; xfc; xad; x0a; xfc;
  xae; x0a; xfc; xaf; x0a; xfc; xb0; x0a;
  xfc; xb1; x0a; xfc; xb2; x0a; xfc; xb3;
  x0a; xfc; xb4; x0a; xfc; xb5; x0a; xfc;
  xb6; x0a; xfc; xb7; x0a; xfc; xb8; x0a;
  xfc; xb9; x0a; xfc; xba; x0a; xfc; xbb;
  x0a; xfc; xbc; x0a; xfc; xbd; x0a; xfc;
  xbe; x0a; xfc; xbf; x0a; xfc; xc0; x0a;
  xfc; xc1; x0a; xfc; xc2; x0a; xfc; xc3;
  x0a; xfc; xc4; x0a; xfc; xc5; x0a; xfc;
  xc6; x0a; xfc; xc7; x0a; xfc; xc8; x0a;
  xfc; xc9; x0a; xfc; xca; x0a; xfc; xcb;
  x0a; xfc; xcc; x0a; xfc; xcd; x0a; xfc;
  xce; x0a; xfc; xcf; x0a; xfc; xd0; x0a;
  xfc; xd1; x0a; xfc; xd2; x0a; xfc; xd3;
  x0a; xfc; xd4; x0a; xfc; xd5; x0a; xfc;
  xd6; x0a; xfc; xd7; x0a; xfc; xd8; x0a;
  xfc; xd9; x0a; xfc; xda; x0a; xfc; xdb;
  x0a; xfc; xdc; x0a; xfc; xdd; x0a; xfc;
  xde; x0a; xfc; xdf; x0a; xfc; xe0; x0a;
  xfc; xe1; x0a; xfc; xe2; x0a; xfc; xe3;
  x0a; xfc; xe4; x0a; xfc; xe5; x0a; xfc;
  xe6; x0a; xfc; xe7; x0a; xfc; xe8; x0a;
  xfc; xe9; x0a; xfc; xea; x0a; xfc; xeb;
  x0a; xfc; xec; x0a; xfc; xed; x0a; xfc;
  xee; x0a; xfc; xef; x0a; xfc; xf0; x0a
].
(* tests/test_data/whatwg/big5_whatwg_test_decode_in.txt, entries 55040..55295 *)
Definition big5_decode_in_215 : list byte := [
  xfc; xf1; x0a; xfc; xf2; x0a; xfc; xf3;
  x0a; xfc; xf4; x0a; xfc; xf5; x0a; xfc;
  xf6; x0a; xfc; xf7; x0a; xfc; xf8; x0a;
  xfc; xf9; x0a; xfc; xfa; x0a; xfc; xfb;
  x0a; xfc; xfc; x0a; xfc; xfd; x0a; xfc;
  xfe; x0a; xfd; x40; x0a; xfd; x41; x0a;
  xfd; x42; x0a; xfd; x43; x0a; xfd; x44;
  x0a; xfd; x45; x0a; xfd; x46; x0a; xfd;
  x47; x0a; xfd; x48; x0a; xfd; x49; x0a;
  xfd; x4a; x0a; xfd; x4b; x0a; xfd; x4c;
  x0a; xfd; x4d; x0a; xfd; x4e; x0a; xfd;
  x4f; x0a; xfd; x50; x0a; xfd; x51; x0a;
  xfd; x52; x0a; xfd; x53; x0a; xfd; x54;
  x0a; xfd; x55; x0a; xfd; x56; x0a; xfd;
  x57; x0a; xfd; x58; x0a; xfd; x59; x0a;
  xfd; x5a; x0a; xfd; x5b; x0a; xfd; x5c;
  x0a; xfd; x5d; x0a; xfd; x5e; x0a; xfd;
  x5f; x0a; xfd; x60; x0a; xfd; x61; x0a;
  xfd; x62; x0a; xfd; x63; x0a; xfd; x64;
  x0a; xfd; x65; x0a; xfd; x66; x0a; xfd;
  x67; x0a; xfd; x68; x0a; xfd; x69; x0a;
  xfd; x6a; x0a; xfd; x6b; x0a; xfd; x6c;
  x0a; xfd; x6d; x0a; xfd; x6e; x0a; xfd;
  x6f; x0a; xfd; x70; x0a; xfd; x71; x0a;
  xfd; x72; x0a; xfd; x73; x0a; xfd; x74;
  x0a; xfd; x75; x0a; xfd; x76; x0a; xfd;
  x77; x0a; xfd; x78; x0a; xfd; x79; x0a;
  xfd; x7a; x0a; xfd; x7b; x0a; xfd; x7c;
  x0a; xfd; x7d; x0a; xfd; x7e; x0a; xfd;
  xa1; x0a; xfd; xa2; x0a; xfd; xa3; x0a;
  xfd; xa4; x0a; xfd; xa5; x0a; xfd; xa6;
  x0a; xfd; xa7; x0a; xfd; xa8; x0a; xfd
].
(* tests/test_data/whatwg/big5_whatwg_test_decode_in.txt, entries 55296..55551 *)
Definition big5_decode_in_216 : list byte := [
  xa9; x0a; xfd; xaa; x0a; xfd; xab; x0a;
  xfd; xac; x0a; xfd; xad; x0a; xfd; xae;
  x0a; xfd; xaf; x0a; xfd; xb0; x0a; xfd;
  xb1; x0a; xfd; xb2; x0a; xfd; xb3; x0a;
  xfd; xb4; x0a; xfd; xb5; x0a; xfd; xb6;
  x0a; xfd; xb7; x0a; xfd; xb8; x0a; xfd;
  xb9; x0a; xfd; xba; x0a; xfd; xbb; x0a;
  xfd; xbc; x0a; xfd; xbd; x0a; xfd; xbe;
  x0a; xfd; xbf; x0a; xfd; xc0; x0a; xfd;
  xc1; x0a; xfd; xc2; x0a; xfd; xc3; x0a;
  xfd; xc4; x0a; xfd; xc5; x0a; xfd; xc6;
  x0a; xfd; xc7; x0a; xfd; xc8; x0a; xfd;
  xc9; x0a; xfd; xca; x0a; xfd; xcb; x0a;
  xfd; xcc; x0a; xfd; xcd; x0a; xfd; xce;
  x0a; xfd; xcf; x0a; xfd; xd0; x0a; xfd;
  xd1; x0a; xfd; xd2; x0a; xfd; xd3; x0a;
  xfd; xd4; x0a; xfd; xd5; x0a; xfd; xd6;
  x0a; xfd; xd7; x0a; xfd; xd8; x0a; xfd;
  xd9; x0a; xfd; xda; x0a; xfd; xdb; x0a;
  xfd; xdc; x0a; xfd; xdd; x0a; xfd; xde;
  x0a; xfd; xdf; x0a; xfd; xe0; x0a; xfd;
  xe1; x0a; xfd; xe2; x0a; xfd; xe3; x0a;
  xfd; xe4; x0a; xfd; xe5; x0a; xfd; xe6;
  x0a; xfd; xe7; x0a; xfd; xe8; x0a; xfd;
  xe9; x0a; xfd; xea; x0a; xfd; xeb; x0a;
  xfd; xec; x0a; xfd; xed; x0a; xfd; xee;
  x0a; xfd; xef; x0a; xfd; xf0; x0a; xfd;
  xf1; x0a; xfd; xf2; x0a; xfd; xf3; x0a;
  xfd; xf4; x0a; xfd; xf5; x0a; xfd; xf6;
  x0a; xfd; xf7; x0a; xfd; xf8; x0a; xfd;
  xf9; x0a; xfd; xfa; x0a; xfd; xfb; x0a;
  xfd; xfc; x0a; xfd; xfd; x0a; xfd; xfe
].
(* tests/test_data/whatwg/big5_whatwg_test_decode_in.txt, entries 55552..55807 *)
Definition big5_decode_in_217 : list byte := [
  x0a; xfe; x40; x0a; xfe; x41; x0a; xfe;
  x42; x0a; xfe; x43; x0a; xfe; x44; x0a;
  xfe; x45; x0a; xfe; x46; x0a; xfe; x47;
  x0a; xfe; x48; x0a; xfe; x49; x0a; xfe;
  x4a; x0a; xfe; x4b; x0a; xfe; x4c; x0a;
  xfe; x4d; x0a; xfe; x4e; x0a; xfe; x4f;
  x0a; xfe; x50; x0a; xfe; x51; x0a; xfe;
  x52; x0a; xfe; x53; x0a; xfe; x54; x0a;
  xfe; x55; x0a; xfe; x56; x0a; xfe; x57;
  x0a; xfe; x58; x0a; xfe; x59; x0a; xfe;
  x5a; x0a; xfe; x5b; x0a; xfe; x5c; x0a;
  xfe; x5d; x0a; xfe; x5e; x0a; xfe; x5f;
  x0a; xfe; x60; x0a; xfe; x61; x0a; xfe;
  x62; x0a; xfe; x63; x0a; xfe; x64; x0a;
  xfe; x65; x0a; xfe; x66; x0a; xfe; x67;
  x0a; xfe; x68; x0a; xfe; x69; x0a; xfe;
  x6a; x0a; xfe; x6b; x0a; xfe; x6c; x0a;
  xfe; x6d; x0a; xfe; x6e; x0a; xfe; x6f;
  x0a; xfe; x70; x0a; xfe; x71; x0a; xfe;
  x72; x0a; xfe; x73; x0a; xfe; x74; x0a;
  xfe; x75; x0a; xfe; x76; x0a; xfe; x77;
  x0a; xfe; x78; x0a; xfe; x79; x0a; xfe;
  x7a; x0a; xfe; x7b; x0a; xfe; x7c; x0a;
  xfe; x7d; x0a; xfe; x7e; x0a; xfe; xa1;
  x0a; xfe; xa2; x0a; xfe; xa3; x0a; xfe;
  xa4; x0a; xfe; xa5; x0a; xfe; xa6; x0a;
  xfe; xa7; x0a; xfe; xa8; x0a; xfe; xa9;
  x0a; xfe; xaa; x0a; xfe; xab; x0a; xfe;
  xac; x0a; xfe; xad; x0a; xfe; xae; x0a;
  xfe; xaf; x0a; xfe; xb0; x0a; xfe; xb1;
  x0a; xfe; xb2; x0a; xfe; xb3; x0a; xfe;
  xb4; x0a; xfe; xb5; x0a; xfe; xb6; x0a
].
(* tests/test_data/whatwg/big5_whatwg_test_decode_in.txt, entries 55808..56035 *)
Definition big5_decode_in_218 : list byte := [
  xfe; xb7; x0a; xfe; xb8; x0a; xfe; xb9;
  x0a; xfe; xba; x0a; xfe; xbb; x0a; xfe;
  xbc; x0a; xfe; xbd; x0a; xfe; xbe; x0a;
  xfe; xbf; x0a; xfe; xc0; x0a; xfe; xc1;
  x0a; xfe; xc2; x0a; xfe; xc3; x0a; xfe;
  xc4; x0a; xfe; xc5; x0a; xfe; xc6; x0a;
  xfe; xc7; x0a; xfe; xc8; x0a; xfe; xc9;
  x0a; xfe; xca; x0a; xfe; xcb; x0a; xfe;
  xcc; x0a; xfe; xcd; x0a; xfe; xce; x0a;
  xfe; xcf; x0a; xfe; xd0; x0a; xfe; xd1;
  x0a; xfe; xd2; x0a; xfe; xd3; x0a; xfe;
  xd4; x0a; xfe; xd5; x0a; xfe; xd6; x0a;
  xfe; xd7; x0a; xfe; xd8; x0a; xfe; xd9;
  x0a; xfe; xda; x0a; xfe; xdb; x0a; xfe;
  xdc; x0a; xfe; xdd; x0a; xfe; xde; x0a;
  xfe; xdf; x0a; xfe; xe0; x0a; xfe; xe1;
  x0a; xfe; xe2; x0a; xfe; xe3; x0a; xfe;
  xe4; x0a; xfe; xe5; x0a; xfe; xe6; x0a;
  xfe; xe7; x0a; xfe; xe8; x0a; xfe; xe9;
  x0a; xfe; xea; x0a; xfe; xeb; x0a; xfe;
  xec; x0a; xfe; xed; x0a; xfe; xee; x0a;
  xfe; xef; x0a; xfe; xf0; x0a; xfe; xf1;
  x0a; xfe; xf2; x0a; xfe; xf3; x0a; xfe;
  xf4; x0a; xfe; xf5; x0a; xfe; xf6; x0a;
  xfe; xf7; x0a; xfe; xf8; x0a; xfe; xf9;
  x0a; xfe; xfa; x0a; xfe; xfb; x0a; xfe;
  xfc; x0a; xfe; xfd; x0a; xfe; xfe; x0a;
  x88; x62; x0a; x88; x64; x0a; x88; xa3;
  x0a; x88; xa5; x0a
].
(* tests/test_data/whatwg/big5_whatwg_test_decode_in.txt: the whole table *)
Definition big5_decode_in : list byte :=
  big5_decode_in_0 ++
  big5_decode_in_1 ++
  big5_decode_in_2 ++
  big5_decode_in_3 ++
  big5_decode_in_4 ++
  big5_decode_in_5 ++
  big5_decode_in_6 ++
  big5_decode_in_7 ++
  big5_decode_in_8 ++
  big5_decode_in_9 ++
  big5_decode_in_10 ++
  big5_decode_in_11 ++
  big5_decode_in_12 ++
  big5_decode_in_13 ++
  big5_decode_in_14 ++
  big5_decode_in_15 ++
  big5_decode_in_16 ++
  big5_decode_in_17 ++
  big5_decode_in_18 ++
  big5_decode_in_19 ++
  big5_decode_in_20 ++
  big5_decode_in_21 ++
  big5_decode_in_22 ++
  big5_decode_in_23 ++
  big5_decode_in_24 ++
  big5_decode_in_25 ++
  big5_decode_in_26 ++
  big5_decode_in_27 ++
  big5_decode_in_28 ++
  big5_decode_in_29 ++
  big5_decode_in_30 ++
  big5_decode_in_31 ++
  big5_decode_in_32 ++
  big5_decode_in_33 ++
  big5_decode_in_34 ++
  big5_decode_in_35 ++
  big5_decode_in_36 ++
  big5_decode_in_37 ++
  big5_decode_in_38 ++
  big5_decode_in_39 ++
  big5_decode_in_40 ++
  big5_decode_in_41 ++
  big5_decode_in_42 ++
  big5_decode_in_43 ++
  big5_decode_in_44 ++
  big5_decode_in_45 ++
  big5_decode_in_46 ++
  big5_decode_in_47 ++
  big5_decode_in_48 ++
  big5_decode_in_49 ++
  big5_decode_in_50 ++
  big5_decode_in_51 ++
  big5_decode_in_52 ++
  big5_decode_in_53 ++
  big5_decode_in_54 ++
  big5_decode_in_55 ++
  big5_decode_in_56 ++
  big5_decode_in_57 ++
  big5_decode_in_58 ++
  big5_decode_in_59 ++
  big5_decode_in_60 ++
  big5_decode_in_61 ++
  big5_decode_in_62 ++
  big5_decode_in_63 ++
  big5_decode_in_64 ++
  big5_decode_in_65 ++
  big5_decode_in_66 ++
  big5_decode_in_67 ++
  big5_decode_in_68 ++
  big5_decode_in_69 ++
  big5_decode_in_70 ++
  big5_decode_in_71 ++
  big5_decode_in_72 ++
  big5_decode_in_73 ++
  big5_decode_in_74 ++
  big5_decode_in_75 ++
  big5_decode_in_76 ++
  big5_decode_in_77 ++
  big5_decode_in_78 ++
  big5_decode_in_79 ++
  big5_decode_in_80 ++
  big5_decode_in_81 ++
  big5_decode_in_82 ++
  big5_decode_in_83 ++
  big5_decode_in_84 ++
  big5_decode_in_85 ++
  big5_decode_in_86 ++
  big5_decode_in_87 ++
  big5_decode_in_88 ++
  big5_decode_in_89 ++
  big5_decode_in_90 ++
  big5_decode_in_91 ++
  big5_decode_in_92 ++
  big5_decode_in_93 ++
  big5_decode_in_94 ++
  big5_decode_in_95 ++
  big5_decode_in_96 ++
  big5_decode_in_97 ++
  big5_decode_in_98 ++
  big5_decode_in_99 ++
  big5_decode_in_100 ++
  big5_decode_in_101 ++
  big5_decode_in_102 ++
  big5_decode_in_103 ++
  big5_decode_in_104 ++
  big5_decode_in_105 ++
  big5_decode_in_106 ++
  big5_decode_in_107 ++
  big5_decode_in_108 ++
  big5_decode_in_109 ++
  big5_decode_in_110 ++
  big5_decode_in_111 ++
  big5_decode_in_112 ++
  big5_decode_in_113 ++
  big5_decode_in_114 ++
  big5_decode_in_115 ++
  big5_decode_in_116 ++
  big5_decode_in_117 ++
  big5_decode_in_118 ++
  big5_decode_in_119 ++
  big5_decode_in_120 ++
  big5_decode_in_121 ++
  big5_decode_in_122 ++
  big5_decode_in_123 ++
  big5_decode_in_124 ++
  big5_decode_in_125 ++
  big5_decode_in_126 ++
  big5_decode_in_127 ++
  big5_decode_in_128 ++
  big5_decode_in_129 ++
  big5_decode_in_130 ++
  big5_decode_in_131 ++
  big5_decode_in_132 ++
  big5_decode_in_133 ++
  big5_decode_in_134 ++
  big5_decode_in_135 ++
  big5_decode_in_136 ++
  big5_decode_in_137 ++
  big5_decode_in_138 ++
  big5_decode_in_139 ++
  big5_decode_in_140 ++
  big5_decode_in_141 ++
  big5_decode_in_142 ++
  big5_decode_in_143 ++
  big5_decode_in_144 ++
  big5_decode_in_145 ++
  big5_decode_in_146 ++
  big5_decode_in_147 ++
  big5_decode_in_148 ++
  big5_decode_in_149 ++
  big5_decode_in_150 ++
  big5_decode_in_151 ++
  big5_decode_in_152 ++
  big5_decode_in_153 ++
  big5_decode_in_154 ++
  big5_decode_in_155 ++
  big5_decode_in_156 ++
  big5_decode_in_157 ++
  big5_decode_in_158 ++
  big5_decode_in_159 ++
  big5_decode_in_160 ++
  big5_decode_in_161 ++
  big5_decode_in_162 ++
  big5_decode_in_163 ++
  big5_decode_in_164 ++
  big5_decode_in_165 ++
  big5_decode_in_166 ++
  big5_decode_in_167 ++
  big5_decode_in_168 ++
  big5_decode_in_169 ++
  big5_decode_in_170 ++
  big5_decode_in_171 ++
  big5_decode_in_172 ++
  big5_decode_in_173 ++
  big5_decode_in_174 ++
  big5_decode_in_175 ++
  big5_decode_in_176 ++
  big5_decode_in_177 ++
  big5_decode_in_178 ++
  big5_decode_in_179 ++
  big5_decode_in_180 ++
  big5_decode_in_181 ++
  big5_decode_in_182 ++
  big5_decode_in_183 ++
  big5_decode_in_184 ++
  big5_decode_in_185 ++
  big5_decode_in_186 ++
  big5_decode_in_187 ++
  big5_decode_in_188 ++
  big5_decode_in_189 ++
  big5_decode_in_190 ++
  big5_decode_in_191 ++
  big5_decode_in_192 ++
  big5_decode_in_193 ++
  big5_decode_in_194 ++
  big5_decode_in_195 ++
  big5_decode_in_196 ++
  big5_decode_in_197 ++
  big5_decode_in_198 ++
  big5_decode_in_199 ++
  big5_decode_in_200 ++
  big5_decode_in_201 ++
  big5_decode_in_202 ++
  big5_decode_in_203 ++
  big5_decode_in_204 ++
  big5_decode_in_205 ++
  big5_decode_in_206 ++
  big5_decode_in_207 ++
  big5_decode_in_208 ++
  big5_decode_in_209 ++
  big5_decode_in_210 ++
  big5_decode_in_211 ++
  big5_decode_in_212 ++
  big5_decode_in_213 ++
  big5_decode_in_214 ++
  big5_decode_in_215 ++
  big5_decode_in_216 ++
  big5_decode_in_217 ++
  big5_decode_in_218.

(* tests/test_data/whatwg/big5_whatwg_test_decode_out.txt, entries 0..255 *)
Definition big5_decode_out_0 : list byte := [
  x01; x0a; x02; x0a; x03; x0a; x04; x0a;
  x05; x0a; x06; x0a; x07; x0a; x08; x0a;
  x09; x0a; x0a; x0a; x0b; x0a; x0c; x0a;
  x0d; x0a; x0e; x0a; x0f; x0a; x10; x0a;
  x11; x0a; x12; x0a; x13; x0a; x14; x0a;
  x15; x0a; x16; x0a; x17; x0a; x18; x0a;
  x19; x0a; x1a; x0a; x1b; x0a; x1c; x0a;
  x1d; x0a; x1e; x0a; x1f; x0a; x20; x0a;
  x21; x0a; x22; x0a; x23; x0a; x24; x0a;
  x25; x0a; x26; x0a; x27; x0a; x28; x0a;
  x29; x0a; x2a; x0a; x2b; x0a; x2c; x0a;
  x2d; x0a; x2e; x0a; x2f; x0a; x30; x0a;
  x31; x0a; x32; x0a; x33; x0a; x34; x0a;
  x35; x0a; x36; x0a; x37; x0a; x38; x0a;
  x39; x0a; x3a; x0a; x3b; x0a; x3c; x0a;
  x3d; x0a; x3e; x0a; x3f; x0a; x40; x0a;
  x41; x0a; x42; x0a; x43; x0a; x44; x0a;
  x45; x0a; x46; x0a; x47; x0a; x48; x0a;
  x49; x0a; x4a; x0a; x4b; x0a; x4c; x0a;
  x4d; x0a; x4e; x0a; x4f; x0a; x50; x0a;
  x51; x0a; x52; x0a; x53; x0a; x54; x0a;
  x55; x0a; x56; x0a; x57; x0a; x58; x0a;
  x59; x0a; x5a; x0a; x5b; x0a; x5c; x0a;
  x5d; x0a; x5e; x0a; x5f; x0a; x60; x0a;
  x61; x0a; x62; x0a; x63; x0a; x64; x0a;
  x65; x0a; x66; x0a; x67; x0a; x68; x0a;
  x69; x0a; x6a; x0a; x6b; x0a; x6c; x0a;
  x6d; x0a; x6e; x0a; x6f; x0a; x70; x0a;
  x71; x0a; x72; x0a; x73; x0a; x74; x0a;
  x75; x0a; x76; x0a; x77; x0a; x78; x0a;
  x79; x0a; x7a; x0a; x7b; x0a; x7c; x0a;
  x7d; x0a; x7e; x0a; x7f; x0a; xe4; x8f
].
(* tests/test_data/whatwg/big5_whatwg_test_decode_out.txt, entries 256..511 *)
Definition big5_decode_out_1 : list byte := [
  xb0; x0a; xe4; xb0; xb2; x0a; xe4; x98;
  x83; x0a; xe4; x96; xa6; x0a; xe4; x95;
  xb8; x0a; xf0; xa7; x89; xa7; x0a; xe4;
  xb5; xb7; x0a; xe4; x96; xb3; x0a; xf0;
  xa7; xb2; xb1; x0a; xe4; xb3; xa2; x0a;
  xf0; xa7; xb3; x85; x0a; xe3; xae; x95;
  x0a; xe4; x9c; xb6; x0a; xe4; x9d; x84;
  x0a; xe4; xb1; x87; x0a; xe4; xb1; x80;
  x0a; xf0; xa4; x8a; xbf; x0a; xf0; xa3;
  x98; x97; x0a; xf0; xa7; x8d; x92; x0a;
  xf0; xa6; xba; x8b; x0a; xf0; xa7; x83;
  x92; x0a; xe4; xb1; x97; x0a; xf0; xaa;
  x8d; x91; x0a; xe4; x9d; x8f; x0a; xe4;
  x97; x9a; x0a; xe4; xb2; x85; x0a; xf0;
  xa7; xb1; xac; x0a; xe4; xb4; x87; x0a;
  xe4; xaa; xa4; x0a; xe4; x9a; xa1; x0a;
  xf0; xa6; xac; xa3; x0a; xe7; x88; xa5;
  x0a; xf0; xa5; xa9; x94; x0a; xf0; xa1;
  xa9; xa3; x0a; xf0; xa3; xb8; x86; x0a;
  xf0; xa3; xbd; xa1; x0a; xe6; x99; x8d;
  x0a; xe5; x9b; xbb; x0a; xe7; xb6; x95;
  x0a; xe5; xa4; x9d; x0a; xf0; xa8; xae;
  xb9; x0a; xe3; xb7; xb4; x0a; xe9; x9c;
  xb4; x0a; xf0; xa7; xaf; xaf; x0a; xe5;
  xaf; x9b; x0a; xf0; xa1; xb5; x9e; x0a;
  xe5; xaa; xa4; x0a; xe3; x98; xa5; x0a;
  xf0; xa9; xba; xb0; x0a; xe5; xab; x91;
  x0a; xe5; xae; xb7; x0a; xe5; xb3; xbc;
  x0a; xe6; x9d; xae; x0a; xe8; x96; x93;
  x0a; xf0; xa9; xa5; x85; x0a; xe7; x91;
  xa1; x0a; xe7; x92; x9d; x0a; xe3; xa1;
  xb5; x0a; xf0; xa1; xb5; x93; x0a; xf0
].
(* tests/test_data/whatwg/big5_whatwg_test_decode_out.txt, entries 512..767 *)
Definition big5_decode_out_2 : list byte := [
  xa3; x9a; x9e; x0a; xf0; xa6; x80; xa1;
  x0a; xe3; xbb; xac; x0a; xf0; xa5; xa3;
  x9e; x0a; xe3; xab; xb5; x0a; xe7; xab;
  xbc; x0a; xe9; xbe; x97; x0a; xf0; xa4;
  x85; xa1; x0a; xf0; xa8; xa4; x8d; x0a;
  xf0; xa3; x87; xaa; x0a; xf0; xa0; xaa;
  x8a; x0a; xf0; xa3; x89; x9e; x0a; xe4;
  x8c; x8a; x0a; xe8; x92; x84; x0a; xe9;
  xbe; x96; x0a; xe9; x90; xaf; x0a; xe4;
  xa4; xb0; x0a; xe8; x98; x93; x0a; xe5;
  xa2; x96; x0a; xe9; x9d; x8a; x0a; xe9;
  x88; x98; x0a; xe7; xa7; x90; x0a; xe7;
  xa8; xb2; x0a; xe6; x99; xa0; x0a; xe6;
  xa8; xa9; x0a; xe8; xa2; x9d; x0a; xe7;
  x91; x8c; x0a; xe7; xaf; x85; x0a; xe6;
  x9e; x82; x0a; xe7; xa8; xac; x0a; xe5;
  x89; x8f; x0a; xe9; x81; x86; x0a; xe3;
  x93; xa6; x0a; xe7; x8f; x84; x0a; xf0;
  xa5; xb6; xb9; x0a; xe7; x93; x86; x0a;
  xe9; xbf; x87; x0a; xe5; x9e; xb3; x0a;
  xe4; xa4; xaf; x0a; xe5; x91; x8c; x0a;
  xe4; x84; xb1; x0a; xf0; xa3; x9a; x8e;
  x0a; xe5; xa0; x98; x0a; xe7; xa9; xb2;
  x0a; xf0; xa7; xad; xa5; x0a; xe8; xae;
  x8f; x0a; xe4; x9a; xae; x0a; xf0; xa6;
  xba; x88; x0a; xe4; x86; x81; x0a; xf0;
  xa5; xb6; x99; x0a; xe7; xae; xae; x0a;
  xf0; xa2; x92; xbc; x0a; xe9; xbf; x88;
  x0a; xf0; xa2; x93; x81; x0a; xf0; xa2;
  x93; x89; x0a; xf0; xa2; x93; x8c; x0a;
  xe9; xbf; x89; x0a; xe8; x94; x84; x0a;
  xf0; xa3; x96; xbb; x0a; xe4; x82; xb4
].
(* tests/test_data/whatwg/big5_whatwg_test_decode_out.txt, entries 768..1023 *)
Definition big5_decode_out_3 : list byte := [
  x0a; xe9; xbf; x8a; x0a; xe4; x93; xa1;
  x0a; xf0; xaa; xb7; xbf; x0a; xe6; x8b;
  x81; x0a; xe7; x81; xae; x0a; xe9; xbf;
  x8b; x0a; xe3; x87; x80; x0a; xe3; x87;
  x81; x0a; xe3; x87; x82; x0a; xe3; x87;
  x83; x0a; xe3; x87; x84; x0a; xf0; xa0;
  x84; x8c; x0a; xe3; x87; x85; x0a; xf0;
  xa0; x83; x91; x0a; xf0; xa0; x83; x8d;
  x0a; xe3; x87; x86; x0a; xe3; x87; x87;
  x0a; xf0; xa0; x83; x8b; x0a; xf0; xa1;
  xbf; xa8; x0a; xe3; x87; x88; x0a; xf0;
  xa0; x83; x8a; x0a; xe3; x87; x89; x0a;
  xe3; x87; x8a; x0a; xe3; x87; x8b; x0a;
  xe3; x87; x8c; x0a; xf0; xa0; x84; x8e;
  x0a; xe3; x87; x8d; x0a; xe3; x87; x8e;
  x0a; xc4; x80; x0a; xc3; x81; x0a; xc7;
  x8d; x0a; xc3; x80; x0a; xc4; x92; x0a;
  xc3; x89; x0a; xc4; x9a; x0a; xc3; x88;
  x0a; xc5; x8c; x0a; xc3; x93; x0a; xc7;
  x91; x0a; xc3; x92; x0a; xe1; xba; xbe;
  x0a; xe1; xbb; x80; x0a; xc3; x8a; x0a;
  xc4; x81; x0a; xc3; xa1; x0a; xc7; x8e;
  x0a; xc3; xa0; x0a; xc9; x91; x0a; xc4;
  x93; x0a; xc3; xa9; x0a; xc4; x9b; x0a;
  xc3; xa8; x0a; xc4; xab; x0a; xc3; xad;
  x0a; xc7; x90; x0a; xc3; xac; x0a; xc5;
  x8d; x0a; xc3; xb3; x0a; xc7; x92; x0a;
  xc3; xb2; x0a; xc5; xab; x0a; xc3; xba;
  x0a; xc7; x94; x0a; xc3; xb9; x0a; xc7;
  x96; x0a; xc7; x98; x0a; xc7; x9a; x0a;
  xc7; x9c; x0a; xc3; xbc; x0a; xe1; xba;
  xbf; x0a; xe1; xbb; x81; x0a; xc3; xaa
].
(* tests/test_data/whatwg/big5_whatwg_test_decode_out.txt, entries 1024..1279 *)
Definition big5_decode_out_4 : list byte := [
  x0a; xc9; xa1; x0a; xe2; x8f; x9a; x0a;
  xe2; x8f; x9b; x0a; xf0; xaa; x8e; xa9;
  x0a; xf0; xa1; x85; x85; x0a; xe6; x94;
  x8a; x0a; xe4; xb8; xbd; x0a; xe6; xbb;
  x9d; x0a; xe9; xb5; x8e; x0a; xe9; x87;
  x9f; x0a; xf0; xa7; x9c; xb5; x0a; xe6;
  x92; x91; x0a; xe4; xbc; x9a; x0a; xe4;
  xbc; xa8; x0a; xe4; xbe; xa8; x0a; xe5;
  x85; x96; x0a; xe5; x85; xb4; x0a; xe5;
  x86; x9c; x0a; xe5; x87; xa4; x0a; xe5;
  x8a; xa1; x0a; xe5; x8a; xa8; x0a; xe5;
  x8c; xbb; x0a; xe5; x8d; x8e; x0a; xe5;
  x8f; x91; x0a; xe5; x8f; x98; x0a; xe5;
  x9b; xa2; x0a; xe5; xa3; xb0; x0a; xe5;
  xa4; x84; x0a; xe5; xa4; x87; x0a; xe5;
  xa4; xb2; x0a; xe5; xa4; xb4; x0a; xe5;
  xad; xa6; x0a; xe5; xae; x9e; x0a; xe5;
  xae; x9f; x0a; xe5; xb2; x9a; x0a; xe5;
  xba; x86; x0a; xe6; x80; xbb; x0a; xe6;
  x96; x89; x0a; xe6; x9f; xbe; x0a; xe6;
  xa0; x84; x0a; xe6; xa1; xa5; x0a; xe6;
  xb5; x8e; x0a; xe7; x82; xbc; x0a; xe7;
  x94; xb5; x0a; xe7; xba; xa4; x0a; xe7;
  xba; xac; x0a; xe7; xba; xba; x0a; xe7;
  xbb; x87; x0a; xe7; xbb; x8f; x0a; xe7;
  xbb; x9f; x0a; xe7; xbc; x86; x0a; xe7;
  xbc; xb7; x0a; xe8; x89; xba; x0a; xe8;
  x8b; x8f; x0a; xe8; x8d; xaf; x0a; xe8;
  xa7; x86; x0a; xe8; xae; xbe; x0a; xe8;
  xaf; xa2; x0a; xe8; xbd; xa6; x0a; xe8;
  xbd; xa7; x0a; xe8; xbd; xae; x0a; xe7;
  x90; x91; x0a; xe7; xb3; xbc; x0a; xe7
].
(* tests/test_data/whatwg/big5_whatwg_test_decode_out.txt, entries 1280..1535 *)
Definition big5_decode_out_5 : list byte := [
  xb7; x8d; x0a; xe6; xa5; x86; x0a; xe7;
  xab; x89; x0a; xe5; x88; xa7; x0a; xe9;
  x86; x8c; x0a; xe7; xa2; xb8; x0a; xe9;
  x85; x9e; x0a; xe8; x82; xbc; x0a; xe8;
  xb4; x8b; x0a; xe8; x83; xb6; x0a; xf0;
  xa0; xa7; xa7; x0a; xe8; x82; x9f; x0a;
  xe9; xbb; x87; x0a; xe4; xb3; x8d; x0a;
  xe9; xb7; x89; x0a; xe9; xb8; x8c; x0a;
  xe4; xb0; xbe; x0a; xf0; xa9; xb7; xb6;
  x0a; xf0; xa7; x80; x8e; x0a; xe9; xb8;
  x8a; x0a; xf0; xaa; x84; xb3; x0a; xe3;
  x97; x81; x0a; xe6; xba; x9a; x0a; xe8;
  x88; xbe; x0a; xe7; x94; x99; x0a; xe4;
  xa4; x91; x0a; xe9; xa9; xac; x0a; xe9;
  xaa; x8f; x0a; xe9; xbe; x99; x0a; xe7;
  xa6; x87; x0a; xf0; xa8; x91; xac; x0a;
  xf0; xa1; xb7; x8a; x0a; xf0; xa0; x97;
  x90; x0a; xf0; xa2; xab; xa6; x0a; xe4;
  xb8; xa4; x0a; xe4; xba; x81; x0a; xe4;
  xba; x80; x0a; xe4; xba; x87; x0a; xe4;
  xba; xbf; x0a; xe4; xbb; xab; x0a; xe4;
  xbc; xb7; x0a; xe3; x91; x8c; x0a; xe4;
  xbe; xbd; x0a; xe3; xb9; x88; x0a; xe5;
  x80; x83; x0a; xe5; x82; x88; x0a; xe3;
  x91; xbd; x0a; xe3; x92; x93; x0a; xe3;
  x92; xa5; x0a; xe5; x86; x86; x0a; xe5;
  xa4; x85; x0a; xe5; x87; x9b; x0a; xe5;
  x87; xbc; x0a; xe5; x88; x85; x0a; xe4;
  xba; x89; x0a; xe5; x89; xb9; x0a; xe5;
  x8a; x90; x0a; xe5; x8c; xa7; x0a; xe3;
  x97; x87; x0a; xe5; x8e; xa9; x0a; xe3;
  x95; x91; x0a; xe5; x8e; xb0; x0a; xe3
].
(* tests/test_data/whatwg/big5_whatwg_test_decode_out.txt, entries 1536..1791 *)
Definition big5_decode_out_6 : list byte := [
  x95; x93; x0a; xe5; x8f; x82; x0a; xe5;
  x90; xa3; x0a; xe3; x95; xad; x0a; xe3;
  x95; xb2; x0a; xe3; x9a; x81; x0a; xe5;
  x92; x93; x0a; xe5; x92; xa3; x0a; xe5;
  x92; xb4; x0a; xe5; x92; xb9; x0a; xe5;
  x93; x90; x0a; xe5; x93; xaf; x0a; xe5;
  x94; x98; x0a; xe5; x94; xa3; x0a; xe5;
  x94; xa8; x0a; xe3; x96; x98; x0a; xe5;
  x94; xbf; x0a; xe3; x96; xa5; x0a; xe3;
  x96; xbf; x0a; xe5; x97; x97; x0a; xe3;
  x97; x85; x0a; xf0; xa7; xb6; x84; x0a;
  xe5; x94; xa5; x0a; xf0; xa0; xb1; x82;
  x0a; xf0; xa0; xb4; x95; x0a; xf0; xa5;
  x84; xab; x0a; xe5; x96; x90; x0a; xf0;
  xa2; xb3; x86; x0a; xe3; xa7; xac; x0a;
  xf0; xa0; x8d; x81; x0a; xe8; xb9; x86;
  x0a; xf0; xa4; xb6; xb8; x0a; xf0; xa9;
  x93; xa5; x0a; xe4; x81; x93; x0a; xf0;
  xa8; x82; xbe; x0a; xe7; x9d; xba; x0a;
  xf0; xa2; xb0; xb8; x0a; xe3; xa8; xb4;
  x0a; xe4; x9f; x95; x0a; xf0; xa8; x85;
  x9d; x0a; xf0; xa6; xa7; xb2; x0a; xf0;
  xa4; xb7; xaa; x0a; xe6; x93; x9d; x0a;
  xf0; xa0; xb5; xbc; x0a; xf0; xa0; xbe;
  xb4; x0a; xf0; xa0; xb3; x95; x0a; xf0;
  xa1; x83; xb4; x0a; xe6; x92; x8d; x0a;
  xe8; xb9; xbe; x0a; xf0; xa0; xba; x96;
  x0a; xf0; xa0; xb0; x8b; x0a; xf0; xa0;
  xbd; xa4; x0a; xf0; xa2; xb2; xa9; x0a;
  xf0; xa8; x89; x96; x0a; xf0; xa4; x93;
  x93; x0a; xf0; xa0; xb5; x86; x0a; xf0;
  xa9; xa9; x8d; x0a; xf0; xa8; x83; xa9
].
(* tests/test_data/whatwg/big5_whatwg_test_decode_out.txt, entries 1792..2047 *)
Definition big5_decode_out_7 : list byte := [
  x0a; xe4; x9f; xb4; x0a; xf0; xa4; xba;
  xa7; x0a; xf0; xa2; xb3; x82; x0a; xe9;
  xaa; xb2; x0a; xe3; xa9; xa7; x0a; xf0;
  xa9; x97; xb4; x0a; xe3; xbf; xad; x0a;
  xe3; x94; x86; x0a; xf0; xa5; x8b; x87;
  x0a; xf0; xa9; x9f; x94; x0a; xf0; xa7;
  xa3; x88; x0a; xf0; xa2; xb5; x84; x0a;
  xe9; xb5; xae; x0a; xe9; xa0; x95; x0a;
  xe4; x8f; x99; x0a; xf0; xa6; x82; xa5;
  x0a; xe6; x92; xb4; x0a; xe5; x93; xa3;
  x0a; xf0; xa2; xb5; x8c; x0a; xf0; xa2;
  xaf; x8a; x0a; xf0; xa1; x81; xb7; x0a;
  xe3; xa7; xbb; x0a; xf0; xa1; x81; xaf;
  x0a; xf0; xa6; x9b; x9a; x0a; xf0; xa6;
  x9c; x96; x0a; xf0; xa7; xa6; xa0; x0a;
  xe6; x93; xaa; x0a; xf0; xa5; x81; x92;
  x0a; xf0; xa0; xb1; x83; x0a; xe8; xb9;
  xa8; x0a; xf0; xa2; x86; xa1; x0a; xf0;
  xa8; xad; x8c; x0a; xf0; xa0; x9c; xb1;
  x0a; xe4; xa0; x8b; x0a; xf0; xa0; x86;
  xa9; x0a; xe3; xbf; xba; x0a; xe5; xa1;
  xb3; x0a; xf0; xa2; xb6; x8d; x0a; xf0;
  xa4; x97; x88; x0a; xf0; xa0; x93; xbc;
  x0a; xf0; xa6; x82; x97; x0a; xf0; xa0;
  xbd; x8c; x0a; xf0; xa0; xb6; x96; x0a;
  xe5; x95; xb9; x0a; xe4; x82; xbb; x0a;
  xe4; x8e; xba; x0a; xe4; xaa; xb4; x0a;
  xf0; xa2; xa9; xa6; x0a; xf0; xa1; x82;
  x9d; x0a; xe8; x86; xaa; x0a; xe9; xa3;
  xb5; x0a; xf0; xa0; xb6; x9c; x0a; xe6;
  x8d; xb9; x0a; xe3; xa7; xbe; x0a; xf0;
  xa2; x9d; xb5; x0a; xe8; xb7; x80; x0a
].
(* tests/test_data/whatwg/big5_whatwg_test_decode_out.txt, entries 2048..2303 *)
Definition big5_decode_out_8 : list byte := [
  xe5; x9a; xa1; x0a; xe6; x91; xbc; x0a;
  xe3; xb9; x83; x0a; xf0; xaa; x98; x81;
  x0a; xf0; xa0; xb8; x89; x0a; xf0; xa2;
  xab; x8f; x0a; xf0; xa2; xb3; x89; x0a;
  xf0; xa1; x83; x88; x0a; xf0; xa3; xa7;
  x82; x0a; xe3; xa6; x92; x0a; xe3; xa8;
  x86; x0a; xf0; xa8; x8a; x9b; x0a; xe3;
  x95; xb8; x0a; xf0; xa5; xb9; x89; x0a;
  xf0; xa2; x83; x87; x0a; xe5; x99; x92;
  x0a; xf0; xa0; xbc; xb1; x0a; xf0; xa2;
  xb2; xb2; x0a; xf0; xa9; x9c; xa0; x0a;
  xe3; x92; xbc; x0a; xe6; xb0; xbd; x0a;
  xf0; xa4; xb8; xbb; x0a; xf0; xa7; x95;
  xb4; x0a; xf0; xa2; xba; x8b; x0a; xf0;
  xa2; x88; x88; x0a; xf0; xaa; x99; x9b;
  x0a; xf0; xa8; xb3; x8d; x0a; xf0; xa0;
  xb9; xba; x0a; xf0; xa0; xb0; xb4; x0a;
  xf0; xa6; xa0; x9c; x0a; xe7; xbe; x93;
  x0a; xf0; xa1; x83; x8f; x0a; xf0; xa2;
  xa0; x83; x0a; xf0; xa2; xa4; xb9; x0a;
  xe3; x97; xbb; x0a; xf0; xa5; x87; xa3;
  x0a; xf0; xa0; xba; x8c; x0a; xf0; xa0;
  xbe; x8d; x0a; xf0; xa0; xba; xaa; x0a;
  xe3; xbe; x93; x0a; xf0; xa0; xbc; xb0;
  x0a; xf0; xa0; xb5; x87; x0a; xf0; xa1;
  x85; x8f; x0a; xf0; xa0; xb9; x8c; x0a;
  xf0; xa0; xba; xab; x0a; xf0; xa0; xae;
  xa9; x0a; xf0; xa0; xb5; x88; x0a; xf0;
  xa1; x83; x80; x0a; xf0; xa1; x84; xbd;
  x0a; xe3; xbf; xb9; x0a; xf0; xa2; x9a;
  x96; x0a; xe6; x90; xb2; x0a; xf0; xa0;
  xbe; xad; x0a; xf0; xa3; x8f; xb4; x0a
].
(* tests/test_data/whatwg/big5_whatwg_test_decode_out.txt, entries 2304..2559 *)
Definition big5_decode_out_9 : list byte := [
  xf0; xa7; x98; xb9; x0a; xf0; xa2; xaf;
  x8e; x0a; xf0; xa0; xb5; xbe; x0a; xf0;
  xa0; xb5; xbf; x0a; xf0; xa2; xb1; x91;
  x0a; xf0; xa2; xb1; x95; x0a; xe3; xa8;
  x98; x0a; xf0; xa0; xba; x98; x0a; xf0;
  xa1; x83; x87; x0a; xf0; xa0; xbc; xae;
  x0a; xf0; xaa; x98; xb2; x0a; xf0; xa6;
  xad; x90; x0a; xf0; xa8; xb3; x92; x0a;
  xf0; xa8; xb6; x99; x0a; xf0; xa8; xb3;
  x8a; x0a; xe9; x96; xaa; x0a; xe5; x93;
  x8c; x0a; xe8; x8b; x84; x0a; xe5; x96;
  xb9; x0a; xf0; xa9; xbb; x83; x0a; xe9;
  xb0; xa6; x0a; xe9; xaa; xb6; x0a; xf0;
  xa7; x9d; x9e; x0a; xf0; xa2; xb7; xae;
  x0a; xe7; x85; x80; x0a; xe8; x85; xad;
  x0a; xe8; x83; xac; x0a; xe5; xb0; x9c;
  x0a; xf0; xa6; x95; xb2; x0a; xe8; x84;
  xb4; x0a; xe3; x9e; x97; x0a; xe5; x8d;
  x9f; x0a; xf0; xa8; x82; xbd; x0a; xe9;
  x86; xb6; x0a; xf0; xa0; xbb; xba; x0a;
  xf0; xa0; xb8; x8f; x0a; xf0; xa0; xb9;
  xb7; x0a; xf0; xa0; xbb; xbb; x0a; xe3;
  x97; x9d; x0a; xf0; xa4; xb7; xab; x0a;
  xe3; x98; x89; x0a; xf0; xa0; xb3; x96;
  x0a; xe5; x9a; xaf; x0a; xf0; xa2; x9e;
  xb5; x0a; xf0; xa1; x83; x89; x0a; xf0;
  xa0; xb8; x90; x0a; xf0; xa0; xb9; xb8;
  x0a; xf0; xa1; x81; xb8; x0a; xf0; xa1;
  x85; x88; x0a; xf0; xa8; x88; x87; x0a;
  xf0; xa1; x91; x95; x0a; xf0; xa0; xb9;
  xb9; x0a; xf0; xa4; xb9; x90; x0a; xf0;
  xa2; xb6; xa4; x0a; xe5; xa9; x94; x0a
].
(* tests/test_data/whatwg/big5_whatwg_test_decode_out.txt, entries 2560..2815 *)
Definition big5_decode_out_10 : list byte := [
  xf0; xa1; x80; x9d; x0a; xf0; xa1; x80;
  x9e; x0a; xf0; xa1; x83; xb5; x0a; xf0;
  xa1; x83; xb6; x0a; xe5; x9e; x9c; x0a;
  xf0; xa0; xb8; x91; x0a; xf0; xa7; x9a;
  x94; x0a; xf0; xa8; x8b; x8d; x0a; xf0;
  xa0; xbe; xb5; x0a; xf0; xa0; xb9; xbb;
  x0a; xf0; xa5; x85; xbe; x0a; xe3; x9c;
  x83; x0a; xf0; xa0; xbe; xb6; x0a; xf0;
  xa1; x86; x80; x0a; xf0; xa5; x8b; x98;
  x0a; xf0; xaa; x8a; xbd; x0a; xf0; xa4;
  xa7; x9a; x0a; xf0; xa1; xa0; xba; x0a;
  xf0; xa4; x85; xb7; x0a; xf0; xa8; x89;
  xbc; x0a; xe5; xa2; x99; x0a; xe5; x89;
  xa8; x0a; xe3; x98; x9a; x0a; xf0; xa5;
  x9c; xbd; x0a; xe7; xae; xb2; x0a; xe5;
  xad; xa8; x0a; xe4; xa0; x80; x0a; xe4;
  xac; xac; x0a; xe9; xbc; xa7; x0a; xe4;
  xa7; xa7; x0a; xe9; xb0; x9f; x0a; xe9;
  xae; x8d; x0a; xf0; xa5; xad; xb4; x0a;
  xf0; xa3; x84; xbd; x0a; xe5; x97; xbb;
  x0a; xe3; x97; xb2; x0a; xe5; x9a; x89;
  x0a; xe4; xb8; xa8; x0a; xe5; xa4; x82;
  x0a; xf0; xa1; xaf; x81; x0a; xf0; xaf;
  xa1; xb8; x0a; xe9; x9d; x91; x0a; xf0;
  xa0; x82; x86; x0a; xe4; xb9; x9b; x0a;
  xe4; xba; xbb; x0a; xe3; x94; xbe; x0a;
  xe5; xb0; xa3; x0a; xe5; xbd; x91; x0a;
  xe5; xbf; x84; x0a; xe3; xa3; xba; x0a;
  xe6; x89; x8c; x0a; xe6; x94; xb5; x0a;
  xe6; xad; xba; x0a; xe6; xb0; xb5; x0a;
  xe6; xb0; xba; x0a; xe7; x81; xac; x0a;
  xe7; x88; xab; x0a; xe4; xb8; xac; x0a
].
(* tests/test_data/whatwg/big5_whatwg_test_decode_out.txt, entries 2816..3071 *)
Definition big5_decode_out_11 : list byte := [
  xe7; x8a; xad; x0a; xf0; xa4; xa3; xa9;
  x0a; xe7; xbd; x92; x0a; xe7; xa4; xbb;
  x0a; xe7; xb3; xb9; x0a; xe7; xbd; x93;
  x0a; xf0; xa6; x89; xaa; x0a; xe3; x93;
  x81; x0a; xf0; xa6; x8d; x8b; x0a; xe8;
  x80; x82; x0a; xe8; x82; x80; x0a; xf0;
  xa6; x98; x92; x0a; xf0; xa6; xa5; x91;
  x0a; xe5; x8d; x9d; x0a; xe8; xa1; xa4;
  x0a; xe8; xa7; x81; x0a; xf0; xa7; xa2;
  xb2; x0a; xe8; xae; xa0; x0a; xe8; xb4;
  x9d; x0a; xe9; x92; x85; x0a; xe9; x95;
  xb8; x0a; xe9; x95; xbf; x0a; xe9; x97;
  xa8; x0a; xf0; xa8; xb8; x8f; x0a; xe9;
  x9f; xa6; x0a; xe9; xa1; xb5; x0a; xe9;
  xa3; x8e; x0a; xe9; xa3; x9e; x0a; xe9;
  xa5; xa3; x0a; xf0; xa9; xa0; x90; x0a;
  xe9; xb1; xbc; x0a; xe9; xb8; x9f; x0a;
  xe9; xbb; x84; x0a; xe6; xad; xaf; x0a;
  xef; xa4; x87; x0a; xe4; xb8; xb7; x0a;
  xf0; xa0; x82; x87; x0a; xe9; x98; x9d;
  x0a; xe6; x88; xb7; x0a; xe9; x92; xa2;
  x0a; xe5; x80; xbb; x0a; xe6; xb7; xbe;
  x0a; xf0; xa9; xb1; xb3; x0a; xe9; xbe;
  xa6; x0a; xe3; xb7; x89; x0a; xe8; xa2;
  x8f; x0a; xf0; xa4; x85; x8e; x0a; xe7;
  x81; xb7; x0a; xe5; xb3; xb5; x0a; xe4;
  xac; xa0; x0a; xf0; xa5; x87; x8d; x0a;
  xe3; x95; x99; x0a; xf0; xa5; xb4; xb0;
  x0a; xe6; x84; xa2; x0a; xf0; xa8; xa8;
  xb2; x0a; xe8; xbe; xa7; x0a; xe9; x87;
  xb6; x0a; xe7; x86; x91; x0a; xe6; x9c;
  x99; x0a; xe7; x8e; xba; x0a; xf0; xa3
].
(* tests/test_data/whatwg/big5_whatwg_test_decode_out.txt, entries 3072..3327 *)
Definition big5_decode_out_12 : list byte := [
  x8a; x81; x0a; xf0; xaa; x84; x87; x0a;
  xe3; xb2; x8b; x0a; xf0; xa1; xa6; x80;
  x0a; xe4; xac; x90; x0a; xe7; xa3; xa4;
  x0a; xe7; x90; x82; x0a; xe5; x86; xae;
  x0a; xf0; xa8; x9c; x8f; x0a; xe4; x80;
  x89; x0a; xe6; xa9; xa3; x0a; xf0; xaa;
  x8a; xba; x0a; xe4; x88; xa3; x0a; xe8;
  x98; x8f; x0a; xf0; xa0; xa9; xaf; x0a;
  xe7; xa8; xaa; x0a; xf0; xa9; xa5; x87;
  x0a; xf0; xa8; xab; xaa; x0a; xe9; x9d;
  x95; x0a; xe7; x81; x8d; x0a; xe5; x8c;
  xa4; x0a; xf0; xa2; x81; xbe; x0a; xe9;
  x8f; xb4; x0a; xe7; x9b; x99; x0a; xf0;
  xa8; xa7; xa3; x0a; xe9; xbe; xa7; x0a;
  xe7; x9f; x9d; x0a; xe4; xba; xa3; x0a;
  xe4; xbf; xb0; x0a; xe5; x82; xbc; x0a;
  xe4; xb8; xaf; x0a; xe4; xbc; x97; x0a;
  xe9; xbe; xa8; x0a; xe5; x90; xb4; x0a;
  xe7; xb6; x8b; x0a; xe5; xa2; x92; x0a;
  xe5; xa3; x90; x0a; xf0; xa1; xb6; xb6;
  x0a; xe5; xba; x92; x0a; xe5; xba; x99;
  x0a; xe5; xbf; x82; x0a; xf0; xa2; x9c;
  x92; x0a; xe6; x96; x8b; x0a; xf0; xa3;
  x8f; xb9; x0a; xe6; xa4; x99; x0a; xe6;
  xa9; x83; x0a; xf0; xa3; xb1; xa3; x0a;
  xe6; xb3; xbf; x0a; xe7; x88; x80; x0a;
  xf0; xa4; x94; x85; x0a; xe7; x8e; x8c;
  x0a; xe3; xbb; x9b; x0a; xf0; xa4; xa8;
  x93; x0a; xe5; xac; x95; x0a; xe7; x92;
  xb9; x0a; xe8; xae; x83; x0a; xf0; xa5;
  xb2; xa4; x0a; xf0; xa5; x9a; x95; x0a;
  xe7; xaa; x93; x0a; xe7; xaf; xac; x0a
].
(* tests/test_data/whatwg/big5_whatwg_test_decode_out.txt, entries 3328..3583 *)
Definition big5_decode_out_13 : list byte := [
  xe7; xb3; x83; x0a; xe7; xb9; xac; x0a;
  xe8; x8b; xb8; x0a; xe8; x96; x97; x0a;
  xe9; xbe; xa9; x0a; xe8; xa2; x90; x0a;
  xe9; xbe; xaa; x0a; xe8; xba; xb9; x0a;
  xe9; xbe; xab; x0a; xe8; xbf; x8f; x0a;
  xe8; x95; x9f; x0a; xe9; xa7; xa0; x0a;
  xe9; x88; xa1; x0a; xe9; xbe; xac; x0a;
  xf0; xa8; xb6; xb9; x0a; xf0; xa1; x90;
  xbf; x0a; xe4; x81; xb1; x0a; xe4; x8a;
  xa2; x0a; xe5; xa8; x9a; x0a; xe9; xa1;
  xa8; x0a; xe6; x9d; xab; x0a; xe4; x89;
  xb6; x0a; xe5; x9c; xbd; x0a; xe8; x97;
  x96; x0a; xf0; xa4; xa5; xbb; x0a; xe8;
  x8a; xbf; x0a; xf0; xa7; x84; x8d; x0a;
  xe4; xb2; x81; x0a; xf0; xa6; xb5; xb4;
  x0a; xe5; xb5; xbb; x0a; xf0; xa6; xac;
  x95; x0a; xf0; xa6; xbe; xbe; x0a; xe9;
  xbe; xad; x0a; xe9; xbe; xae; x0a; xe5;
  xae; x96; x0a; xe9; xbe; xaf; x0a; xe6;
  x9b; xa7; x0a; xe7; xb9; x9b; x0a; xe6;
  xb9; x97; x0a; xe7; xa7; x8a; x0a; xe3;
  xb6; x88; x0a; xe4; x93; x83; x0a; xf0;
  xa3; x89; x96; x0a; xf0; xa2; x9e; x96;
  x0a; xe4; x8e; x9a; x0a; xe4; x94; xb6;
  x0a; xe5; xb3; x95; x0a; xf0; xa3; xac;
  x9a; x0a; xe8; xab; xb9; x0a; xe5; xb1;
  xb8; x0a; xe3; xb4; x92; x0a; xf0; xa3;
  x95; x91; x0a; xe5; xb5; xb8; x0a; xe9;
  xbe; xb2; x0a; xe7; x85; x97; x0a; xe4;
  x95; x98; x0a; xf0; xa4; x83; xac; x0a;
  xf0; xa1; xb8; xa3; x0a; xe4; xb1; xb7;
  x0a; xe3; xa5; xb8; x0a; xe3; x91; x8a
].
(* tests/test_data/whatwg/big5_whatwg_test_decode_out.txt, entries 3584..3839 *)
Definition big5_decode_out_14 : list byte := [
  x0a; xf0; xa0; x86; xa4; x0a; xf0; xa6;
  xb1; x81; x0a; xe8; xab; x8c; x0a; xe4;
  xbe; xb4; x0a; xf0; xa0; x88; xb9; x0a;
  xe5; xa6; xbf; x0a; xe8; x85; xac; x0a;
  xe9; xa1; x96; x0a; xf0; xa9; xa3; xba;
  x0a; xe5; xbc; xbb; x0a; xf0; xa0; xae;
  x9f; x0a; xf0; xa2; x87; x81; x0a; xf0;
  xa8; xa5; xad; x0a; xe4; x84; x82; x0a;
  xe4; x9a; xbb; x0a; xf0; xa9; x81; xb9;
  x0a; xe3; xbc; x87; x0a; xe9; xbe; xb3;
  x0a; xf0; xaa; x86; xb5; x0a; xe4; x83;
  xb8; x0a; xe3; x9f; x96; x0a; xe4; x9b;
  xb7; x0a; xf0; xa6; xb1; x86; x0a; xe4;
  x85; xbc; x0a; xf0; xa8; x9a; xb2; x0a;
  xf0; xa7; x8f; xbf; x0a; xe4; x95; xad;
  x0a; xe3; xa3; x94; x0a; xf0; xa5; x92;
  x9a; x0a; xe4; x95; xa1; x0a; xe4; x94;
  x9b; x0a; xe4; xb6; x89; x0a; xe4; xb1;
  xbb; x0a; xe4; xb5; xb6; x0a; xe4; x97;
  xaa; x0a; xe3; xbf; x88; x0a; xf0; xa4;
  xac; x8f; x0a; xe3; x99; xa1; x0a; xe4;
  x93; x9e; x0a; xe4; x92; xbd; x0a; xe4;
  x87; xad; x0a; xe5; xb4; xbe; x0a; xe5;
  xb5; x88; x0a; xe5; xb5; x96; x0a; xe3;
  xb7; xbc; x0a; xe3; xa0; x8f; x0a; xe5;
  xb6; xa4; x0a; xe5; xb6; xb9; x0a; xe3;
  xa0; xa0; x0a; xe3; xa0; xb8; x0a; xe5;
  xb9; x82; x0a; xe5; xba; xbd; x0a; xe5;
  xbc; xa5; x0a; xe5; xbe; x83; x0a; xe3;
  xa4; x88; x0a; xe3; xa4; x94; x0a; xe3;
  xa4; xbf; x0a; xe3; xa5; x8d; x0a; xe6;
  x83; x97; x0a; xe6; x84; xbd; x0a; xe5
].
(* tests/test_data/whatwg/big5_whatwg_test_decode_out.txt, entries 3840..4095 *)
Definition big5_decode_out_15 : list byte := [
  xb3; xa5; x0a; xe3; xa6; x89; x0a; xe6;
  x86; xb7; x0a; xe6; x86; xb9; x0a; xe6;
  x87; x8f; x0a; xe3; xa6; xb8; x0a; xe6;
  x88; xac; x0a; xe6; x8a; x90; x0a; xe6;
  x8b; xa5; x0a; xe6; x8c; x98; x0a; xe3;
  xa7; xb8; x0a; xe5; x9a; xb1; x0a; xe3;
  xa8; x83; x0a; xe6; x8f; xa2; x0a; xe6;
  x8f; xbb; x0a; xe6; x90; x87; x0a; xe6;
  x91; x9a; x0a; xe3; xa9; x8b; x0a; xe6;
  x93; x80; x0a; xe5; xb4; x95; x0a; xe5;
  x98; xa1; x0a; xe9; xbe; x9f; x0a; xe3;
  xaa; x97; x0a; xe6; x96; x86; x0a; xe3;
  xaa; xbd; x0a; xe6; x97; xbf; x0a; xe6;
  x99; x93; x0a; xe3; xab; xb2; x0a; xe6;
  x9a; x92; x0a; xe3; xac; xa2; x0a; xe6;
  x9c; x96; x0a; xe3; xad; x82; x0a; xe6;
  x9e; xa4; x0a; xe6; xa0; x80; x0a; xe3;
  xad; x98; x0a; xe6; xa1; x8a; x0a; xe6;
  xa2; x84; x0a; xe3; xad; xb2; x0a; xe3;
  xad; xb1; x0a; xe3; xad; xbb; x0a; xe6;
  xa4; x89; x0a; xe6; xa5; x83; x0a; xe7;
  x89; x9c; x0a; xe6; xa5; xa4; x0a; xe6;
  xa6; x9f; x0a; xe6; xa6; x85; x0a; xe3;
  xae; xbc; x0a; xe6; xa7; x96; x0a; xe3;
  xaf; x9d; x0a; xe6; xa9; xa5; x0a; xe6;
  xa9; xb4; x0a; xe6; xa9; xb1; x0a; xe6;
  xaa; x82; x0a; xe3; xaf; xac; x0a; xe6;
  xaa; x99; x0a; xe3; xaf; xb2; x0a; xe6;
  xaa; xab; x0a; xe6; xaa; xb5; x0a; xe6;
  xab; x94; x0a; xe6; xab; xb6; x0a; xe6;
  xae; x81; x0a; xe6; xaf; x81; x0a; xe6;
  xaf; xaa; x0a; xe6; xb1; xb5; x0a; xe6
].
(* tests/test_data/whatwg/big5_whatwg_test_decode_out.txt, entries 4096..4351 *)
Definition big5_decode_out_16 : list byte := [
  xb2; xaa; x0a; xe3; xb3; x8b; x0a; xe6;
  xb4; x82; x0a; xe6; xb4; x86; x0a; xe6;
  xb4; xa6; x0a; xe6; xb6; x81; x0a; xe3;
  xb3; xaf; x0a; xe6; xb6; xa4; x0a; xe6;
  xb6; xb1; x0a; xe6; xb8; x95; x0a; xe6;
  xb8; x98; x0a; xe6; xb8; xa9; x0a; xe6;
  xba; x86; x0a; xf0; xa8; xa7; x80; x0a;
  xe6; xba; xbb; x0a; xe6; xbb; xa2; x0a;
  xe6; xbb; x9a; x0a; xe9; xbd; xbf; x0a;
  xe6; xbb; xa8; x0a; xe6; xbb; xa9; x0a;
  xe6; xbc; xa4; x0a; xe6; xbc; xb4; x0a;
  xe3; xb5; x86; x0a; xf0; xa3; xbd; x81;
  x0a; xe6; xbe; x81; x0a; xe6; xbe; xbe;
  x0a; xe3; xb5; xaa; x0a; xe3; xb5; xb5;
  x0a; xe7; x86; xb7; x0a; xe5; xb2; x99;
  x0a; xe3; xb6; x8a; x0a; xe7; x80; xac;
  x0a; xe3; xb6; x91; x0a; xe7; x81; x90;
  x0a; xe7; x81; x94; x0a; xe7; x81; xaf;
  x0a; xe7; x81; xbf; x0a; xe7; x82; x89;
  x0a; xf0; xa0; x8c; xa5; x0a; xe4; x8f;
  x81; x0a; xe3; x97; xb1; x0a; xf0; xa0;
  xbb; x98; x0a; xf0; xa3; xbb; x97; x0a;
  xe5; x9e; xbe; x0a; xf0; xa6; xbb; x93;
  x0a; xe7; x84; xbe; x0a; xf0; xa5; x9f;
  xa0; x0a; xe3; x99; x8e; x0a; xe6; xa6;
  xa2; x0a; xf0; xa8; xaf; xa9; x0a; xe5;
  xad; xb4; x0a; xe7; xa9; x89; x0a; xf0;
  xa5; xa3; xa1; x0a; xf0; xa9; x93; x99;
  x0a; xe7; xa9; xa5; x0a; xe7; xa9; xbd;
  x0a; xf0; xa5; xa6; xac; x0a; xe7; xaa;
  xbb; x0a; xe7; xaa; xb0; x0a; xe7; xab;
  x82; x0a; xe7; xab; x83; x0a; xe7; x87
].
(* tests/test_data/whatwg/big5_whatwg_test_decode_out.txt, entries 4352..4607 *)
Definition big5_decode_out_17 : list byte := [
  x91; x0a; xf0; xa6; x92; x8d; x0a; xe4;
  x87; x8a; x0a; xe7; xab; x9a; x0a; xe7;
  xab; x9d; x0a; xe7; xab; xaa; x0a; xe4;
  x87; xaf; x0a; xe5; x92; xb2; x0a; xf0;
  xa5; xb0; x81; x0a; xe7; xac; x8b; x0a;
  xe7; xad; x95; x0a; xe7; xac; xa9; x0a;
  xf0; xa5; x8c; x8e; x0a; xf0; xa5; xb3;
  xbe; x0a; xe7; xae; xa2; x0a; xe7; xad;
  xaf; x0a; xe8; x8e; x9c; x0a; xf0; xa5;
  xae; xb4; x0a; xf0; xa6; xb1; xbf; x0a;
  xe7; xaf; x90; x0a; xe8; x90; xa1; x0a;
  xe7; xae; x92; x0a; xe7; xae; xb8; x0a;
  xf0; xa5; xb4; xa0; x0a; xe3; xb6; xad;
  x0a; xf0; xa5; xb1; xa5; x0a; xe8; x92;
  x92; x0a; xe7; xaf; xba; x0a; xe7; xb0;
  x86; x0a; xe7; xb0; xb5; x0a; xf0; xa5;
  xb3; x81; x0a; xe7; xb1; x84; x0a; xe7;
  xb2; x83; x0a; xf0; xa4; xa2; x82; x0a;
  xe7; xb2; xa6; x0a; xe6; x99; xbd; x0a;
  xf0; xa4; x95; xb8; x0a; xe7; xb3; x89;
  x0a; xe7; xb3; x87; x0a; xe7; xb3; xa6;
  x0a; xe7; xb1; xb4; x0a; xe7; xb3; xb3;
  x0a; xe7; xb3; xb5; x0a; xe7; xb3; x8e;
  x0a; xe7; xb9; xa7; x0a; xe4; x94; x9d;
  x0a; xf0; xa6; xb9; x84; x0a; xe7; xb5;
  x9d; x0a; xf0; xa6; xbb; x96; x0a; xe7;
  x92; x8d; x0a; xe7; xb6; x89; x0a; xe7;
  xb6; xab; x0a; xe7; x84; xb5; x0a; xe7;
  xb6; xb3; x0a; xe7; xb7; x92; x0a; xf0;
  xa4; x81; x97; x0a; xf0; xa6; x80; xa9;
  x0a; xe7; xb7; xa4; x0a; xe3; xb4; x93;
  x0a; xe7; xb7; xb5; x0a; xf0; xa1; x9f
].
(* tests/test_data/whatwg/big5_whatwg_test_decode_out.txt, entries 4608..4863 *)
Definition big5_decode_out_18 : list byte := [
  xb9; x0a; xe7; xb7; xa5; x0a; xf0; xa8;
  x8d; xad; x0a; xe7; xb8; x9d; x0a; xf0;
  xa6; x84; xa1; x0a; xf0; xa6; x85; x9a;
  x0a; xe7; xb9; xae; x0a; xe7; xba; x92;
  x0a; xe4; x8c; xab; x0a; xe9; x91; xac;
  x0a; xe7; xb8; xa7; x0a; xe7; xbd; x80;
  x0a; xe7; xbd; x81; x0a; xe7; xbd; x87;
  x0a; xe7; xa4; xb6; x0a; xf0; xa6; x8b;
  x90; x0a; xe9; xa7; xa1; x0a; xe7; xbe;
  x97; x0a; xf0; xa6; x8d; x91; x0a; xe7;
  xbe; xa3; x0a; xf0; xa1; x99; xa1; x0a;
  xf0; xa0; x81; xa8; x0a; xe4; x95; x9c;
  x0a; xf0; xa3; x9d; xa6; x0a; xe4; x94;
  x83; x0a; xf0; xa8; x8c; xba; x0a; xe7;
  xbf; xba; x0a; xf0; xa6; x92; x89; x0a;
  xe8; x80; x85; x0a; xe8; x80; x88; x0a;
  xe8; x80; x9d; x0a; xe8; x80; xa8; x0a;
  xe8; x80; xaf; x0a; xf0; xaa; x82; x87;
  x0a; xf0; xa6; xb3; x83; x0a; xe8; x80;
  xbb; x0a; xe8; x80; xbc; x0a; xe8; x81;
  xa1; x0a; xf0; xa2; x9c; x94; x0a; xe4;
  xa6; x89; x0a; xf0; xa6; x98; xa6; x0a;
  xf0; xa3; xb7; xa3; x0a; xf0; xa6; x9b;
  xa8; x0a; xe6; x9c; xa5; x0a; xe8; x82;
  xa7; x0a; xf0; xa8; xa9; x88; x0a; xe8;
  x84; x87; x0a; xe8; x84; x9a; x0a; xe5;
  xa2; xb0; x0a; xf0; xa2; x9b; xb6; x0a;
  xe6; xb1; xbf; x0a; xf0; xa6; x92; x98;
  x0a; xf0; xa4; xbe; xb8; x0a; xe6; x93;
  xa7; x0a; xf0; xa1; x92; x8a; x0a; xe8;
  x88; x98; x0a; xf0; xa1; xa1; x9e; x0a;
  xe6; xa9; x93; x0a; xf0; xa4; xa9; xa5
].
(* tests/test_data/whatwg/big5_whatwg_test_decode_out.txt, entries 4864..5119 *)
Definition big5_decode_out_19 : list byte := [
  x0a; xf0; xa4; xaa; x95; x0a; xe4; x91;
  xba; x0a; xe8; x88; xa9; x0a; xf0; xa0;
  xac; x8d; x0a; xf0; xa6; xa9; x92; x0a;
  xf0; xa3; xb5; xbe; x0a; xe4; xbf; xb9;
  x0a; xf0; xa1; x93; xbd; x0a; xe8; x93;
  xa2; x0a; xe8; x8d; xa2; x0a; xf0; xa6;
  xac; x8a; x0a; xf0; xa4; xa6; xa7; x0a;
  xf0; xa3; x94; xb0; x0a; xf0; xa1; x9d;
  xb3; x0a; xf0; xa3; xb7; xb8; x0a; xe8;
  x8a; xaa; x0a; xe6; xa4; x9b; x0a; xf0;
  xaf; xa6; x94; x0a; xe4; x87; x9b; x0a;
  xe8; x95; x8b; x0a; xe8; x8b; x90; x0a;
  xe8; x8c; x9a; x0a; xf0; xa0; xb8; x96;
  x0a; xf0; xa1; x9e; xb4; x0a; xe3; x9b;
  x81; x0a; xf0; xa3; x85; xbd; x0a; xf0;
  xa3; x95; x9a; x0a; xe8; x89; xbb; x0a;
  xe8; x8b; xa2; x0a; xe8; x8c; x98; x0a;
  xf0; xa3; xba; x8b; x0a; xf0; xa6; xb6;
  xa3; x0a; xf0; xa6; xac; x85; x0a; xf0;
  xa6; xae; x97; x0a; xf0; xa3; x97; x8e;
  x0a; xe3; xb6; xbf; x0a; xe8; x8c; x9d;
  x0a; xe5; x97; xac; x0a; xe8; x8e; x85;
  x0a; xe4; x94; x8b; x0a; xf0; xa6; xb6;
  xa5; x0a; xe8; x8e; xac; x0a; xe8; x8f;
  x81; x0a; xe8; x8f; x93; x0a; xe3; x91;
  xbe; x0a; xf0; xa6; xbb; x94; x0a; xe6;
  xa9; x97; x0a; xe8; x95; x9a; x0a; xe3;
  x92; x96; x0a; xf0; xa6; xb9; x82; x0a;
  xf0; xa2; xbb; xaf; x0a; xe8; x91; x98;
  x0a; xf0; xa5; xaf; xa4; x0a; xe8; x91;
  xb1; x0a; xe3; xb7; x93; x0a; xe4; x93;
  xa4; x0a; xe6; xaa; xa7; x0a; xe8; x91
].
(* tests/test_data/whatwg/big5_whatwg_test_decode_out.txt, entries 5120..5375 *)
Definition big5_decode_out_20 : list byte := [
  x8a; x0a; xf0; xa3; xb2; xb5; x0a; xe7;
  xa5; x98; x0a; xe8; x92; xa8; x0a; xf0;
  xa6; xae; x96; x0a; xf0; xa6; xb9; xb7;
  x0a; xf0; xa6; xb9; x83; x0a; xe8; x93;
  x9e; x0a; xe8; x90; x8f; x0a; xe8; x8e;
  x91; x0a; xe4; x92; xa0; x0a; xe8; x92;
  x93; x0a; xe8; x93; xa4; x0a; xf0; xa5;
  xb2; x91; x0a; xe4; x89; x80; x0a; xf0;
  xa5; xb3; x80; x0a; xe4; x95; x83; x0a;
  xe8; x94; xb4; x0a; xe5; xab; xb2; x0a;
  xf0; xa6; xba; x99; x0a; xe4; x94; xa7;
  x0a; xe8; x95; xb3; x0a; xe4; x94; x96;
  x0a; xe6; x9e; xbf; x0a; xe8; x98; x96;
  x0a; xf0; xa8; x98; xa5; x0a; xf0; xa8;
  x98; xbb; x0a; xe8; x97; x81; x0a; xf0;
  xa7; x82; x88; x0a; xe8; x98; x82; x0a;
  xf0; xa1; x96; x82; x0a; xf0; xa7; x83;
  x8d; x0a; xf0; xaf; xa6; xb2; x0a; xe4;
  x95; xaa; x0a; xe8; x98; xa8; x0a; xe3;
  x99; x88; x0a; xf0; xa1; xa2; xa2; x0a;
  xe5; x8f; xb7; x0a; xf0; xa7; x8e; x9a;
  x0a; xe8; x99; xbe; x0a; xe8; x9d; xb1;
  x0a; xf0; xaa; x83; xb8; x0a; xe8; x9f;
  xae; x0a; xf0; xa2; xb0; xa7; x0a; xe8;
  x9e; xb1; x0a; xe8; x9f; x9a; x0a; xe8;
  xa0; x8f; x0a; xe5; x99; xa1; x0a; xe8;
  x99; xac; x0a; xe6; xa1; x96; x0a; xe4;
  x98; x8f; x0a; xe8; xa1; x85; x0a; xe8;
  xa1; x86; x0a; xf0; xa7; x97; xa0; x0a;
  xf0; xa3; xb6; xb9; x0a; xf0; xa7; x97;
  xa4; x0a; xe8; xa1; x9e; x0a; xe8; xa2;
  x9c; x0a; xe4; x99; x9b; x0a; xe8; xa2
].
(* tests/test_data/whatwg/big5_whatwg_test_decode_out.txt, entries 5376..5631 *)
Definition big5_decode_out_21 : list byte := [
  xb4; x0a; xe8; xa2; xb5; x0a; xe6; x8f;
  x81; x0a; xe8; xa3; x85; x0a; xe7; x9d;
  xb7; x0a; xf0; xa7; x9c; x8f; x0a; xe8;
  xa6; x87; x0a; xe8; xa6; x8a; x0a; xe8;
  xa6; xa6; x0a; xe8; xa6; xa9; x0a; xe8;
  xa6; xa7; x0a; xe8; xa6; xbc; x0a; xf0;
  xa8; xa8; xa5; x0a; xe8; xa7; xa7; x0a;
  xf0; xa7; xa4; xa4; x0a; xf0; xa7; xaa;
  xbd; x0a; xe8; xaa; x9c; x0a; xe7; x9e;
  x93; x0a; xe9; x87; xbe; x0a; xe8; xaa;
  x90; x0a; xf0; xa7; xa9; x99; x0a; xe7;
  xab; xa9; x0a; xf0; xa7; xac; xba; x0a;
  xf0; xa3; xbe; x8f; x0a; xe4; x9c; x93;
  x0a; xf0; xa7; xac; xb8; x0a; xe7; x85;
  xbc; x0a; xe8; xac; x8c; x0a; xe8; xac;
  x9f; x0a; xf0; xa5; x90; xb0; x0a; xf0;
  xa5; x95; xa5; x0a; xe8; xac; xbf; x0a;
  xe8; xad; x8c; x0a; xe8; xad; x8d; x0a;
  xe8; xaa; xa9; x0a; xf0; xa4; xa9; xba;
  x0a; xe8; xae; x90; x0a; xe8; xae; x9b;
  x0a; xe8; xaa; xaf; x0a; xf0; xa1; x9b;
  x9f; x0a; xe4; x98; x95; x0a; xe8; xa1;
  x8f; x0a; xe8; xb2; x9b; x0a; xf0; xa7;
  xb5; x94; x0a; xf0; xa7; xb6; x8f; x0a;
  xf0; xaf; xa7; x94; x0a; xe3; x9c; xa5;
  x0a; xf0; xa7; xb5; x93; x0a; xe8; xb3;
  x96; x0a; xf0; xa7; xb6; x98; x0a; xf0;
  xa7; xb6; xbd; x0a; xe8; xb4; x92; x0a;
  xe8; xb4; x83; x0a; xf0; xa1; xa4; x90;
  x0a; xe8; xb3; x9b; x0a; xe7; x81; x9c;
  x0a; xe8; xb4; x91; x0a; xf0; xa4; xb3;
  x89; x0a; xe3; xbb; x90; x0a; xe8; xb5
].
(* tests/test_data/whatwg/big5_whatwg_test_decode_out.txt, entries 5632..5887 *)
Definition big5_decode_out_22 : list byte := [
  xb7; x0a; xe8; xb6; xa9; x0a; xf0; xa8;
  x80; x82; x0a; xf0; xa1; x80; x94; x0a;
  xf0; xa4; xa6; x8a; x0a; xe3; xad; xbc;
  x0a; xf0; xa8; x86; xbc; x0a; xf0; xa7;
  x84; x8c; x0a; xe7; xab; xa7; x0a; xe8;
  xba; xad; x0a; xe8; xba; xb6; x0a; xe8;
  xbb; x83; x0a; xe9; x8b; x94; x0a; xe8;
  xbc; x99; x0a; xe8; xbc; xad; x0a; xf0;
  xa8; x8d; xa5; x0a; xf0; xa8; x90; x92;
  x0a; xe8; xbe; xa5; x0a; xe9; x8c; x83;
  x0a; xf0; xaa; x8a; x9f; x0a; xf0; xa0;
  xa9; x90; x0a; xe8; xbe; xb3; x0a; xe4;
  xa4; xaa; x0a; xf0; xa8; xa7; x9e; x0a;
  xf0; xa8; x94; xbd; x0a; xf0; xa3; xb6;
  xbb; x0a; xe5; xbb; xb8; x0a; xf0; xa3;
  x89; xa2; x0a; xe8; xbf; xb9; x0a; xf0;
  xaa; x80; x94; x0a; xf0; xa8; x9a; xbc;
  x0a; xf0; xa8; x94; x81; x0a; xf0; xa2;
  x8c; xa5; x0a; xe3; xa6; x80; x0a; xf0;
  xa6; xbb; x97; x0a; xe9; x80; xb7; x0a;
  xf0; xa8; x94; xbc; x0a; xf0; xa7; xaa;
  xbe; x0a; xe9; x81; xa1; x0a; xf0; xa8;
  x95; xac; x0a; xf0; xa8; x98; x8b; x0a;
  xe9; x82; xa8; x0a; xf0; xa8; x9c; x93;
  x0a; xe9; x83; x84; x0a; xf0; xa8; x9b;
  xa6; x0a; xe9; x82; xae; x0a; xe9; x83;
  xbd; x0a; xe9; x85; xa7; x0a; xe3; xab;
  xb0; x0a; xe9; x86; xa9; x0a; xe9; x87;
  x84; x0a; xe7; xb2; xac; x0a; xf0; xa8;
  xa4; xb3; x0a; xf0; xa1; xba; x89; x0a;
  xe9; x88; x8e; x0a; xe6; xb2; x9f; x0a;
  xe9; x89; x81; x0a; xe9; x89; xa2; x0a
].
(* tests/test_data/whatwg/big5_whatwg_test_decode_out.txt, entries 5888..6143 *)
Definition big5_decode_out_23 : list byte := [
  xf0; xa5; x96; xb9; x0a; xe9; x8a; xb9;
  x0a; xf0; xa8; xab; x86; x0a; xf0; xa3;
  xb2; x9b; x0a; xf0; xa8; xac; x8c; x0a;
  xf0; xa5; x97; x9b; x0a; xf0; xa0; xb4;
  xb1; x0a; xe9; x8c; xac; x0a; xe9; x8d;
  xab; x0a; xf0; xa8; xab; xa1; x0a; xf0;
  xa8; xaf; xab; x0a; xe7; x82; x8f; x0a;
  xe5; xab; x83; x0a; xf0; xa8; xab; xa2;
  x0a; xf0; xa8; xab; xa5; x0a; xe4; xa5;
  xa5; x0a; xe9; x89; x84; x0a; xf0; xa8;
  xaf; xac; x0a; xf0; xa8; xb0; xb9; x0a;
  xf0; xa8; xaf; xbf; x0a; xe9; x8d; xb3;
  x0a; xe9; x91; x9b; x0a; xe8; xba; xbc;
  x0a; xe9; x96; x85; x0a; xe9; x96; xa6;
  x0a; xe9; x90; xa6; x0a; xe9; x96; xa0;
  x0a; xe6; xbf; xb6; x0a; xe4; x8a; xb9;
  x0a; xf0; xa2; x99; xba; x0a; xf0; xa8;
  x9b; x98; x0a; xf0; xa1; x89; xbc; x0a;
  xf0; xa3; xb8; xae; x0a; xe4; xa7; x9f;
  x0a; xe6; xb0; x9c; x0a; xe9; x99; xbb;
  x0a; xe9; x9a; x96; x0a; xe4; x85; xac;
  x0a; xe9; x9a; xa3; x0a; xf0; xa6; xbb;
  x95; x0a; xe6; x87; x9a; x0a; xe9; x9a;
  xb6; x0a; xe7; xa3; xb5; x0a; xf0; xa8;
  xab; xa0; x0a; xe9; x9a; xbd; x0a; xe5;
  x8f; x8c; x0a; xe4; xa6; xa1; x0a; xf0;
  xa6; xb2; xb8; x0a; xf0; xa0; x89; xb4;
  x0a; xf0; xa6; x90; x90; x0a; xf0; xa9;
  x82; xaf; x0a; xf0; xa9; x83; xa5; x0a;
  xf0; xa4; xab; x91; x0a; xf0; xa1; xa4;
  x95; x0a; xf0; xa3; x8c; x8a; x0a; xe9;
  x9c; xb1; x0a; xe8; x99; x82; x0a; xe9
].
(* tests/test_data/whatwg/big5_whatwg_test_decode_out.txt, entries 6144..6399 *)
Definition big5_decode_out_24 : list byte := [
  x9c; xb6; x0a; xe4; xa8; x8f; x0a; xe4;
  x94; xbd; x0a; xe4; x96; x85; x0a; xf0;
  xa4; xab; xa9; x0a; xe7; x81; xb5; x0a;
  xe5; xad; x81; x0a; xe9; x9c; x9b; x0a;
  xe9; x9d; x9c; x0a; xf0; xa9; x87; x95;
  x0a; xe9; x9d; x97; x0a; xe5; xad; x8a;
  x0a; xf0; xa9; x87; xab; x0a; xe9; x9d;
  x9f; x0a; xe9; x90; xa5; x0a; xe5; x83;
  x90; x0a; xf0; xa3; x82; xb7; x0a; xf0;
  xa3; x82; xbc; x0a; xe9; x9e; x89; x0a;
  xe9; x9e; x9f; x0a; xe9; x9e; xb1; x0a;
  xe9; x9e; xbe; x0a; xe9; x9f; x80; x0a;
  xe9; x9f; x92; x0a; xe9; x9f; xa0; x0a;
  xf0; xa5; x91; xac; x0a; xe9; x9f; xae;
  x0a; xe7; x90; x9c; x0a; xf0; xa9; x90;
  xb3; x0a; xe9; x9f; xbf; x0a; xe9; x9f;
  xb5; x0a; xf0; xa9; x90; x9d; x0a; xf0;
  xa7; xa5; xba; x0a; xe4; xab; x91; x0a;
  xe9; xa0; xb4; x0a; xe9; xa0; xb3; x0a;
  xe9; xa1; x8b; x0a; xe9; xa1; xa6; x0a;
  xe3; xac; x8e; x0a; xf0; xa7; x85; xb5;
  x0a; xe3; xb5; x91; x0a; xf0; xa0; x98;
  xb0; x0a; xf0; xa4; x85; x9c; x0a; xf0;
  xa5; x9c; x86; x0a; xe9; xa3; x8a; x0a;
  xe9; xa2; xb7; x0a; xe9; xa3; x88; x0a;
  xe9; xa3; x87; x0a; xe4; xab; xbf; x0a;
  xf0; xa6; xb4; xa7; x0a; xf0; xa1; x9b;
  x93; x0a; xe5; x96; xb0; x0a; xe9; xa3;
  xa1; x0a; xe9; xa3; xa6; x0a; xe9; xa3;
  xac; x0a; xe9; x8d; xb8; x0a; xe9; xa4;
  xb9; x0a; xf0; xa4; xa8; xa9; x0a; xe4;
  xad; xb2; x0a; xf0; xa9; xa1; x97; x0a
].
(* tests/test_data/whatwg/big5_whatwg_test_decode_out.txt, entries 6400..6655 *)
Definition big5_decode_out_25 : list byte := [
  xf0; xa9; xa4; x85; x0a; xe9; xa7; xb5;
  x0a; xe9; xa8; x8c; x0a; xe9; xa8; xbb;
  x0a; xe9; xa8; x90; x0a; xe9; xa9; x98;
  x0a; xf0; xa5; x9c; xa5; x0a; xe3; x9b;
  x84; x0a; xf0; xa9; x82; xb1; x0a; xf0;
  xa9; xaf; x95; x0a; xe9; xab; xa0; x0a;
  xe9; xab; xa2; x0a; xf0; xa9; xac; x85;
  x0a; xe9; xab; xb4; x0a; xe4; xb0; x8e;
  x0a; xe9; xac; x94; x0a; xe9; xac; xad;
  x0a; xf0; xa8; x98; x80; x0a; xe5; x80;
  xb4; x0a; xe9; xac; xb4; x0a; xf0; xa6;
  xa6; xa8; x0a; xe3; xa3; x83; x0a; xf0;
  xa3; x81; xbd; x0a; xe9; xad; x90; x0a;
  xe9; xad; x80; x0a; xf0; xa9; xb4; xbe;
  x0a; xe5; xa9; x85; x0a; xf0; xa1; xa1;
  xa3; x0a; xe9; xae; x8e; x0a; xf0; xa4;
  x89; x8b; x0a; xe9; xb0; x82; x0a; xe9;
  xaf; xbf; x0a; xe9; xb0; x8c; x0a; xf0;
  xa9; xb9; xa8; x0a; xe9; xb7; x94; x0a;
  xf0; xa9; xbe; xb7; x0a; xf0; xaa; x86;
  x92; x0a; xf0; xaa; x86; xab; x0a; xf0;
  xaa; x83; xa1; x0a; xf0; xaa; x84; xa3;
  x0a; xf0; xaa; x87; x9f; x0a; xe9; xb5;
  xbe; x0a; xe9; xb6; x83; x0a; xf0; xaa;
  x84; xb4; x0a; xe9; xb8; x8e; x0a; xe6;
  xa2; x88; x0a; xe9; xb7; x84; x0a; xf0;
  xa2; x85; x9b; x0a; xf0; xaa; x86; x93;
  x0a; xf0; xaa; x88; xa0; x0a; xf0; xa1;
  xa4; xbb; x0a; xf0; xaa; x88; xb3; x0a;
  xe9; xb4; xb9; x0a; xf0; xaa; x82; xb9;
  x0a; xf0; xaa; x8a; xb4; x0a; xe9; xba;
  x90; x0a; xe9; xba; x95; x0a; xe9; xba
].
(* tests/test_data/whatwg/big5_whatwg_test_decode_out.txt, entries 6656..6911 *)
Definition big5_decode_out_26 : list byte := [
  x9e; x0a; xe9; xba; xa2; x0a; xe4; xb4;
  xb4; x0a; xe9; xba; xaa; x0a; xe9; xba;
  xaf; x0a; xf0; xa4; x8d; xa4; x0a; xe9;
  xbb; x81; x0a; xe3; xad; xa0; x0a; xe3;
  xa7; xa5; x0a; xe3; xb4; x9d; x0a; xe4;
  xbc; xb2; x0a; xe3; x9e; xbe; x0a; xf0;
  xa8; xb0; xab; x0a; xe9; xbc; x82; x0a;
  xe9; xbc; x88; x0a; xe4; xae; x96; x0a;
  xe9; x90; xa4; x0a; xf0; xa6; xb6; xa2;
  x0a; xe9; xbc; x97; x0a; xe9; xbc; x96;
  x0a; xe9; xbc; xb9; x0a; xe5; x9a; x9f;
  x0a; xe5; x9a; x8a; x0a; xe9; xbd; x85;
  x0a; xe9; xa6; xb8; x0a; xf0; xa9; x82;
  x8b; x0a; xe9; x9f; xb2; x0a; xe8; x91;
  xbf; x0a; xe9; xbd; xa2; x0a; xe9; xbd;
  xa9; x0a; xe7; xab; x9c; x0a; xe9; xbe;
  x8e; x0a; xe7; x88; x96; x0a; xe4; xae;
  xbe; x0a; xf0; xa4; xa5; xb5; x0a; xf0;
  xa4; xa6; xbb; x0a; xe7; x85; xb7; x0a;
  xf0; xa4; xa7; xb8; x0a; xf0; xa4; x8d;
  x88; x0a; xf0; xa4; xa9; x91; x0a; xe7;
  x8e; x9e; x0a; xf0; xa8; xaf; x9a; x0a;
  xf0; xa1; xa3; xba; x0a; xe7; xa6; x9f;
  x0a; xf0; xa8; xa5; xbe; x0a; xf0; xa8;
  xb8; xb6; x0a; xe9; x8d; xa9; x0a; xe9;
  x8f; xb3; x0a; xf0; xa8; xa9; x84; x0a;
  xe9; x8b; xac; x0a; xe9; x8e; x81; x0a;
  xe9; x8f; x8b; x0a; xf0; xa8; xa5; xac;
  x0a; xf0; xa4; x92; xb9; x0a; xe7; x88;
  x97; x0a; xe3; xbb; xab; x0a; xe7; x9d;
  xb2; x0a; xe7; xa9; x83; x0a; xe7; x83;
  x90; x0a; xf0; xa4; x91; xb3; x0a; xf0
].
(* tests/test_data/whatwg/big5_whatwg_test_decode_out.txt, entries 6912..7167 *)
Definition big5_decode_out_27 : list byte := [
  xa4; x8f; xb8; x0a; xe7; x85; xbe; x0a;
  xf0; xa1; x9f; xaf; x0a; xe7; x82; xa3;
  x0a; xf0; xa1; xa2; xbe; x0a; xf0; xa3;
  x96; x99; x0a; xe3; xbb; x87; x0a; xf0;
  xa1; xa2; x85; x0a; xf0; xa5; x90; xaf;
  x0a; xf0; xa1; x9f; xb8; x0a; xe3; x9c;
  xa2; x0a; xf0; xa1; x9b; xbb; x0a; xf0;
  xa1; xa0; xb9; x0a; xe3; x9b; xa1; x0a;
  xf0; xa1; x9d; xb4; x0a; xf0; xa1; xa3;
  x91; x0a; xf0; xa5; xbd; x8b; x0a; xe3;
  x9c; xa3; x0a; xf0; xa1; x9b; x80; x0a;
  xe5; x9d; x9b; x0a; xf0; xa4; xa8; xa5;
  x0a; xf0; xa1; x8f; xbe; x0a; xf0; xa1;
  x8a; xa8; x0a; xf0; xa1; x8f; x86; x0a;
  xf0; xa1; x92; xb6; x0a; xe8; x94; x83;
  x0a; xf0; xa3; x9a; xa6; x0a; xe8; x94;
  x83; x0a; xe8; x91; x95; x0a; xf0; xa4;
  xa6; x94; x0a; xf0; xa7; x85; xa5; x0a;
  xf0; xa3; xb8; xb1; x0a; xf0; xa5; x95;
  x9c; x0a; xf0; xa3; xbb; xbb; x0a; xf0;
  xa7; x81; x92; x0a; xe4; x93; xb4; x0a;
  xf0; xa3; x9b; xae; x0a; xf0; xa9; xa6;
  x9d; x0a; xf0; xa6; xbc; xa6; x0a; xe6;
  x9f; xb9; x0a; xe3; x9c; xb3; x0a; xe3;
  xb0; x95; x0a; xe3; xb7; xa7; x0a; xe5;
  xa1; xac; x0a; xf0; xa1; xa4; xa2; x0a;
  xe6; xa0; x90; x0a; xe4; x81; x97; x0a;
  xf0; xa3; x9c; xbf; x0a; xf0; xa4; x83;
  xa1; x0a; xf0; xa4; x82; x8b; x0a; xf0;
  xa4; x84; x8f; x0a; xf0; xa6; xb0; xa1;
  x0a; xe5; x93; x8b; x0a; xe5; x9a; x9e;
  x0a; xf0; xa6; x9a; xb1; x0a; xe5; x9a
].
(* tests/test_data/whatwg/big5_whatwg_test_decode_out.txt, entries 7168..7423 *)
Definition big5_decode_out_28 : list byte := [
  x92; x0a; xf0; xa0; xbf; x9f; x0a; xf0;
  xa0; xae; xa8; x0a; xf0; xa0; xb8; x8d;
  x0a; xe9; x8f; x86; x0a; xf0; xa8; xac;
  x93; x0a; xe9; x8e; x9c; x0a; xe4; xbb;
  xb8; x0a; xe5; x84; xab; x0a; xe3; xa0;
  x99; x0a; xf0; xa4; x90; xb6; x0a; xe4;
  xba; xbc; x0a; xf0; xa0; x91; xa5; x0a;
  xf0; xa0; x8d; xbf; x0a; xe4; xbd; x8b;
  x0a; xe4; xbe; x8a; x0a; xf0; xa5; x99;
  x91; x0a; xe5; xa9; xa8; x0a; xf0; xa0;
  x86; xab; x0a; xf0; xa0; x8f; x8b; x0a;
  xe3; xa6; x99; x0a; xf0; xa0; x8c; x8a;
  x0a; xf0; xa0; x90; x94; x0a; xe3; x90;
  xb5; x0a; xe4; xbc; xa9; x0a; xf0; xa0;
  x8b; x80; x0a; xf0; xa8; xba; xb3; x0a;
  xf0; xa0; x89; xb5; x0a; xe8; xab; x9a;
  x0a; xf0; xa0; x88; x8c; x0a; xe4; xba;
  x98; x0a; xe5; x83; x8d; x0a; xe5; x84;
  x8d; x0a; xe4; xbe; xa2; x0a; xe4; xbc;
  x83; x0a; xf0; xa4; xa8; x8e; x0a; xf0;
  xa3; xba; x8a; x0a; xe4; xbd; x82; x0a;
  xe5; x80; xae; x0a; xe5; x81; xac; x0a;
  xe5; x82; x81; x0a; xe4; xbf; x8c; x0a;
  xe4; xbf; xa5; x0a; xe5; x81; x98; x0a;
  xe5; x83; xbc; x0a; xe5; x85; x99; x0a;
  xe5; x85; x9b; x0a; xe5; x85; x9d; x0a;
  xe5; x85; x9e; x0a; xe6; xb9; xb6; x0a;
  xf0; xa3; x96; x95; x0a; xf0; xa3; xb8;
  xb9; x0a; xf0; xa3; xba; xbf; x0a; xe6;
  xb5; xb2; x0a; xf0; xa1; xa2; x84; x0a;
  xf0; xa3; xba; x89; x0a; xe5; x86; xa8;
  x0a; xe5; x87; x83; x0a; xf0; xa0; x97
].
(* tests/test_data/whatwg/big5_whatwg_test_decode_out.txt, entries 7424..7679 *)
Definition big5_decode_out_29 : list byte := [
  xa0; x0a; xe4; x93; x9d; x0a; xf0; xa0;
  x92; xa3; x0a; xf0; xa0; x92; x92; x0a;
  xf0; xa0; x92; x91; x0a; xe8; xb5; xba;
  x0a; xf0; xa8; xaa; x9c; x0a; xf0; xa0;
  x9c; x8e; x0a; xe5; x89; x99; x0a; xe5;
  x8a; xa4; x0a; xf0; xa0; xa1; xb3; x0a;
  xe5; x8b; xa1; x0a; xe9; x8d; xae; x0a;
  xe4; x99; xba; x0a; xe7; x86; x8c; x0a;
  xf0; xa4; x8e; x8c; x0a; xf0; xa0; xb0;
  xa0; x0a; xf0; xa4; xa6; xac; x0a; xf0;
  xa1; x83; xa4; x0a; xe6; xa7; x91; x0a;
  xf0; xa0; xb8; x9d; x0a; xe7; x91; xb9;
  x0a; xe3; xbb; x9e; x0a; xe7; x92; x99;
  x0a; xe7; x90; x94; x0a; xe7; x91; x96;
  x0a; xe7; x8e; x98; x0a; xe4; xae; x8e;
  x0a; xf0; xa4; xaa; xbc; x0a; xf0; xa4;
  x82; x8d; x0a; xe5; x8f; x90; x0a; xe3;
  x96; x84; x0a; xe7; x88; x8f; x0a; xf0;
  xa4; x83; x89; x0a; xe5; x96; xb4; x0a;
  xf0; xa0; x8d; x85; x0a; xe5; x93; x8d;
  x0a; xf0; xa0; xaf; x86; x0a; xe5; x9c;
  x9d; x0a; xe9; x89; x9d; x0a; xe9; x9b;
  xb4; x0a; xe9; x8d; xa6; x0a; xe5; x9f;
  x9d; x0a; xe5; x9e; x8d; x0a; xe5; x9d;
  xbf; x0a; xe3; x98; xbe; x0a; xe5; xa3;
  x8b; x0a; xe5; xaa; x99; x0a; xf0; xa8;
  xa9; x86; x0a; xf0; xa1; x9b; xba; x0a;
  xf0; xa1; x9d; xaf; x0a; xf0; xa1; x9c;
  x90; x0a; xe5; xa8; xac; x0a; xe5; xa6;
  xb8; x0a; xe9; x8a; x8f; x0a; xe5; xa9;
  xbe; x0a; xe5; xab; x8f; x0a; xe5; xa8;
  x92; x0a; xf0; xa5; xa5; x86; x0a; xf0
].
(* tests/test_data/whatwg/big5_whatwg_test_decode_out.txt, entries 7680..7935 *)
Definition big5_decode_out_30 : list byte := [
  xa1; xa7; xb3; x0a; xf0; xa1; xa1; xa1;
  x0a; xf0; xa4; x8a; x95; x0a; xe3; x9b;
  xb5; x0a; xe6; xb4; x85; x0a; xe7; x91;
  x83; x0a; xe5; xa8; xa1; x0a; xf0; xa5;
  xba; x83; x0a; xe5; xaa; x81; x0a; xf0;
  xa8; xaf; x97; x0a; xf0; xa0; x90; x93;
  x0a; xe9; x8f; xa0; x0a; xe7; x92; x8c;
  x0a; xf0; xa1; x8c; x83; x0a; xe7; x84;
  x85; x0a; xe4; xa5; xb2; x0a; xe9; x90;
  x88; x0a; xf0; xa8; xa7; xbb; x0a; xe9;
  x8e; xbd; x0a; xe3; x9e; xa0; x0a; xe5;
  xb0; x9e; x0a; xe5; xb2; x9e; x0a; xe5;
  xb9; x9e; x0a; xe5; xb9; x88; x0a; xf0;
  xa1; xa6; x96; x0a; xf0; xa1; xa5; xbc;
  x0a; xf0; xa3; xab; xae; x0a; xe5; xbb;
  x8d; x0a; xe5; xad; x8f; x0a; xf0; xa1;
  xa4; x83; x0a; xf0; xa1; xa4; x84; x0a;
  xe3; x9c; x81; x0a; xf0; xa1; xa2; xa0;
  x0a; xe3; x9b; x9d; x0a; xf0; xa1; x9b;
  xbe; x0a; xe3; x9b; x93; x0a; xe8; x84;
  xaa; x0a; xf0; xa8; xa9; x87; x0a; xf0;
  xa1; xb6; xba; x0a; xf0; xa3; x91; xb2;
  x0a; xf0; xa8; xa6; xa8; x0a; xe5; xbc;
  x8c; x0a; xe5; xbc; x8e; x0a; xf0; xa1;
  xa4; xa7; x0a; xf0; xa1; x9e; xab; x0a;
  xe5; xa9; xab; x0a; xf0; xa1; x9c; xbb;
  x0a; xe5; xad; x84; x0a; xe8; x98; x94;
  x0a; xf0; xa7; x97; xbd; x0a; xe8; xa1;
  xa0; x0a; xe6; x81; xbe; x0a; xf0; xa2;
  xa1; xa0; x0a; xf0; xa2; x98; xab; x0a;
  xe5; xbf; x9b; x0a; xe3; xba; xb8; x0a;
  xf0; xa2; x96; xaf; x0a; xf0; xa2; x96
].
(* tests/test_data/whatwg/big5_whatwg_test_decode_out.txt, entries 7936..8191 *)
Definition big5_decode_out_31 : list byte := [
  xbe; x0a; xf0; xa9; x82; x88; x0a; xf0;
  xa6; xbd; xb3; x0a; xe6; x87; x80; x0a;
  xf0; xa0; x80; xbe; x0a; xf0; xa0; x81;
  x86; x0a; xf0; xa2; x98; x9b; x0a; xe6;
  x86; x99; x0a; xe6; x86; x98; x0a; xe6;
  x81; xb5; x0a; xf0; xa2; xb2; x9b; x0a;
  xf0; xa2; xb4; x87; x0a; xf0; xa4; x9b;
  x94; x0a; xf0; xa9; x85; x8d; x0a; xe6;
  x91; xb1; x0a; xf0; xa4; x99; xa5; x0a;
  xf0; xa2; xad; xaa; x0a; xe3; xa8; xa9;
  x0a; xf0; xa2; xac; xa2; x0a; xf0; xa3;
  x91; x90; x0a; xf0; xa9; xa3; xaa; x0a;
  xf0; xa2; xb9; xb8; x0a; xe6; x8c; xb7;
  x0a; xf0; xaa; x91; x9b; x0a; xe6; x92;
  xb6; x0a; xe6; x8c; xb1; x0a; xe6; x8f;
  x91; x0a; xf0; xa4; xa7; xa3; x0a; xf0;
  xa2; xb5; xa7; x0a; xe6; x8a; xa4; x0a;
  xf0; xa2; xb2; xa1; x0a; xe6; x90; xbb;
  x0a; xe6; x95; xab; x0a; xe6; xa5; xb2;
  x0a; xe3; xaf; xb4; x0a; xf0; xa3; x82;
  x8e; x0a; xf0; xa3; x8a; xad; x0a; xf0;
  xa4; xa6; x89; x0a; xf0; xa3; x8a; xab;
  x0a; xe5; x94; x8d; x0a; xf0; xa3; x8b;
  xa0; x0a; xf0; xa1; xa3; x99; x0a; xf0;
  xa9; x90; xbf; x0a; xe6; x9b; x8e; x0a;
  xf0; xa3; x8a; x89; x0a; xf0; xa3; x86;
  xb3; x0a; xe3; xab; xa0; x0a; xe4; x86;
  x90; x0a; xf0; xa5; x96; x84; x0a; xf0;
  xa8; xac; xa2; x0a; xf0; xa5; x96; x8f;
  x0a; xf0; xa1; x9b; xbc; x0a; xf0; xa5;
  x95; x9b; x0a; xf0; xa5; x90; xa5; x0a;
  xe7; xa3; xae; x0a; xf0; xa3; x84; x83
].
(* tests/test_data/whatwg/big5_whatwg_test_decode_out.txt, entries 8192..8447 *)
Definition big5_decode_out_32 : list byte := [
  x0a; xf0; xa1; xa0; xaa; x0a; xf0; xa3;
  x88; xb4; x0a; xe3; x91; xa4; x0a; xf0;
  xa3; x88; x8f; x0a; xf0; xa3; x86; x82;
  x0a; xf0; xa4; x8b; x89; x0a; xe6; x9a;
  x8e; x0a; xf0; xa6; xb4; xa4; x0a; xe6;
  x99; xab; x0a; xe4; xae; x93; x0a; xe6;
  x98; xb0; x0a; xf0; xa7; xa1; xb0; x0a;
  xf0; xa1; xb7; xab; x0a; xe6; x99; xa3;
  x0a; xf0; xa3; x8b; x92; x0a; xf0; xa3;
  x8b; xa1; x0a; xe6; x98; x9e; x0a; xf0;
  xa5; xa1; xb2; x0a; xe3; xa3; x91; x0a;
  xf0; xa3; xa0; xba; x0a; xf0; xa3; x9e;
  xbc; x0a; xe3; xae; x99; x0a; xf0; xa3;
  x9e; xa2; x0a; xf0; xa3; x8f; xbe; x0a;
  xe7; x93; x90; x0a; xe3; xae; x96; x0a;
  xe6; x9e; x8f; x0a; xf0; xa4; x98; xaa;
  x0a; xe6; xa2; xb6; x0a; xe6; xa0; x9e;
  x0a; xe3; xaf; x84; x0a; xe6; xaa; xbe;
  x0a; xe3; xa1; xa3; x0a; xf0; xa3; x9f;
  x95; x0a; xf0; xa4; x92; x87; x0a; xe6;
  xa8; xb3; x0a; xe6; xa9; x92; x0a; xe6;
  xab; x89; x0a; xe6; xac; x85; x0a; xf0;
  xa1; xa4; x92; x0a; xe6; x94; x91; x0a;
  xe6; xa2; x98; x0a; xe6; xa9; x8c; x0a;
  xe3; xaf; x97; x0a; xe6; xa9; xba; x0a;
  xe6; xad; x97; x0a; xf0; xa3; xbf; x80;
  x0a; xf0; xa3; xb2; x9a; x0a; xe9; x8e;
  xa0; x0a; xe9; x8b; xb2; x0a; xf0; xa8;
  xaf; xaa; x0a; xf0; xa8; xab; x8b; x0a;
  xe9; x8a; x89; x0a; xf0; xa8; x80; x9e;
  x0a; xf0; xa8; xa7; x9c; x0a; xe9; x91;
  xa7; x0a; xe6; xb6; xa5; x0a; xe6; xbc
].
(* tests/test_data/whatwg/big5_whatwg_test_decode_out.txt, entries 8448..8703 *)
Definition big5_decode_out_33 : list byte := [
  x8b; x0a; xf0; xa4; xa7; xac; x0a; xe6;
  xb5; xa7; x0a; xf0; xa3; xbd; xbf; x0a;
  xe3; xb6; x8f; x0a; xe6; xb8; x84; x0a;
  xf0; xa4; x80; xbc; x0a; xe5; xa8; xbd;
  x0a; xe6; xb8; x8a; x0a; xe5; xa1; x87;
  x0a; xe6; xb4; xa4; x0a; xe7; xa1; x82;
  x0a; xe7; x84; xbb; x0a; xf0; xa4; x8c;
  x9a; x0a; xf0; xa4; x89; xb6; x0a; xe7;
  x83; xb1; x0a; xe7; x89; x90; x0a; xe7;
  x8a; x87; x0a; xe7; x8a; x94; x0a; xf0;
  xa4; x9e; x8f; x0a; xf0; xa4; x9c; xa5;
  x0a; xe5; x85; xb9; x0a; xf0; xa4; xaa;
  xa4; x0a; xf0; xa0; x97; xab; x0a; xe7;
  x91; xba; x0a; xf0; xa3; xbb; xb8; x0a;
  xf0; xa3; x99; x9f; x0a; xf0; xa4; xa9;
  x8a; x0a; xf0; xa4; xa4; x97; x0a; xf0;
  xa5; xbf; xa1; x0a; xe3; xbc; x86; x0a;
  xe3; xba; xb1; x0a; xf0; xa4; xab; x9f;
  x0a; xf0; xa8; xb0; xa3; x0a; xf0; xa3;
  xbc; xb5; x0a; xe6; x82; xa7; x0a; xe3;
  xbb; xb3; x0a; xe7; x93; x8c; x0a; xe7;
  x90; xbc; x0a; xe9; x8e; x87; x0a; xe7;
  x90; xb7; x0a; xe4; x92; x9f; x0a; xf0;
  xa6; xb7; xaa; x0a; xe4; x95; x91; x0a;
  xe7; x96; x83; x0a; xe3; xbd; xa3; x0a;
  xf0; xa4; xb3; x99; x0a; xf0; xa4; xb4;
  x86; x0a; xe3; xbd; x98; x0a; xe7; x95;
  x95; x0a; xe7; x99; xb3; x0a; xf0; xaa;
  x97; x86; x0a; xe3; xac; x99; x0a; xe7;
  x91; xa8; x0a; xf0; xa8; xab; x8c; x0a;
  xf0; xa4; xa6; xab; x0a; xf0; xa4; xa6;
  x8e; x0a; xe3; xab; xbb; x0a; xe3; xb7
].
(* tests/test_data/whatwg/big5_whatwg_test_decode_out.txt, entries 8704..8959 *)
Definition big5_decode_out_34 : list byte := [
  x8d; x0a; xf0; xa4; xa9; x8e; x0a; xe3;
  xbb; xbf; x0a; xf0; xa4; xa7; x85; x0a;
  xf0; xa4; xa3; xb3; x0a; xe9; x87; xba;
  x0a; xe5; x9c; xb2; x0a; xe9; x8d; x82;
  x0a; xf0; xa8; xab; xa3; x0a; xf0; xa1;
  xa1; xa4; x0a; xe5; x83; x9f; x0a; xf0;
  xa5; x88; xa1; x0a; xf0; xa5; x87; xa7;
  x0a; xe7; x9d; xb8; x0a; xf0; xa3; x88;
  xb2; x0a; xe7; x9c; x8e; x0a; xe7; x9c;
  x8f; x0a; xe7; x9d; xbb; x0a; xf0; xa4;
  x9a; x97; x0a; xf0; xa3; x9e; x81; x0a;
  xe3; xa9; x9e; x0a; xf0; xa4; xa3; xb0;
  x0a; xe7; x90; xb8; x0a; xe7; x92; x9b;
  x0a; xe3; xba; xbf; x0a; xf0; xa4; xaa;
  xba; x0a; xf0; xa4; xab; x87; x0a; xe4;
  x83; x88; x0a; xf0; xa4; xaa; x96; x0a;
  xf0; xa6; x86; xae; x0a; xe9; x8c; x87;
  x0a; xf0; xa5; x96; x81; x0a; xe7; xa0;
  x9e; x0a; xe7; xa2; x8d; x0a; xe7; xa2;
  x88; x0a; xe7; xa3; x92; x0a; xe7; x8f;
  x90; x0a; xe7; xa5; x99; x0a; xf0; xa7;
  x9d; x81; x0a; xf0; xa5; x9b; xa3; x0a;
  xe4; x84; x8e; x0a; xe7; xa6; x9b; x0a;
  xe8; x92; x96; x0a; xe7; xa6; xa5; x0a;
  xe6; xa8; xad; x0a; xf0; xa3; xbb; xba;
  x0a; xe7; xa8; xba; x0a; xe7; xa7; xb4;
  x0a; xe4; x85; xae; x0a; xf0; xa1; x9b;
  xa6; x0a; xe4; x84; xb2; x0a; xe9; x88;
  xb5; x0a; xe7; xa7; xb1; x0a; xf0; xa0;
  xb5; x8c; x0a; xf0; xa4; xa6; x8c; x0a;
  xf0; xa0; x8a; x99; x0a; xf0; xa3; xb6;
  xba; x0a; xf0; xa1; x9d; xae; x0a; xe3
].
(* tests/test_data/whatwg/big5_whatwg_test_decode_out.txt, entries 8960..9215 *)
Definition big5_decode_out_35 : list byte := [
  x96; x97; x0a; xe5; x95; xab; x0a; xe3;
  x95; xb0; x0a; xe3; x9a; xaa; x0a; xf0;
  xa0; x87; x94; x0a; xf0; xa0; xb0; x8d;
  x0a; xe7; xab; xa2; x0a; xe5; xa9; x99;
  x0a; xf0; xa2; x9b; xb5; x0a; xf0; xa5;
  xaa; xaf; x0a; xf0; xa5; xaa; x9c; x0a;
  xe5; xa8; x8d; x0a; xf0; xa0; x89; x9b;
  x0a; xe7; xa3; xb0; x0a; xe5; xa8; xaa;
  x0a; xf0; xa5; xaf; x86; x0a; xe7; xab;
  xbe; x0a; xe4; x87; xb9; x0a; xe7; xb1;
  x9d; x0a; xe7; xb1; xad; x0a; xe4; x88;
  x91; x0a; xf0; xa5; xae; xb3; x0a; xf0;
  xa5; xba; xbc; x0a; xf0; xa5; xba; xa6;
  x0a; xe7; xb3; x8d; x0a; xf0; xa4; xa7;
  xb9; x0a; xf0; xa1; x9e; xb0; x0a; xe7;
  xb2; x8e; x0a; xe7; xb1; xbc; x0a; xe7;
  xb2; xae; x0a; xe6; xaa; xb2; x0a; xe7;
  xb7; x9c; x0a; xe7; xb8; x87; x0a; xe7;
  xb7; x93; x0a; xe7; xbd; x8e; x0a; xf0;
  xa6; x89; xa1; x0a; xf0; xa6; x85; x9c;
  x0a; xf0; xa7; xad; x88; x0a; xe7; xb6;
  x97; x0a; xf0; xa5; xba; x82; x0a; xe4;
  x89; xaa; x0a; xf0; xa6; xad; xb5; x0a;
  xf0; xa0; xa4; x96; x0a; xe6; x9f; x96;
  x0a; xf0; xa0; x81; x8e; x0a; xf0; xa3;
  x97; x8f; x0a; xe5; x9f; x84; x0a; xf0;
  xa6; x90; x92; x0a; xf0; xa6; x8f; xb8;
  x0a; xf0; xa4; xa5; xa2; x0a; xe7; xbf;
  x9d; x0a; xe7; xac; xa7; x0a; xf0; xa0;
  xa0; xac; x0a; xf0; xa5; xab; xa9; x0a;
  xf0; xa5; xb5; x83; x0a; xe7; xac; x8c;
  x0a; xf0; xa5; xb8; x8e; x0a; xe9; xa7
].
(* tests/test_data/whatwg/big5_whatwg_test_decode_out.txt, entries 9216..9471 *)
Definition big5_decode_out_36 : list byte := [
  xa6; x0a; xe8; x99; x85; x0a; xe9; xa9;
  xa3; x0a; xe6; xa8; x9c; x0a; xf0; xa3;
  x90; xbf; x0a; xe3; xa7; xa2; x0a; xf0;
  xa4; xa7; xb7; x0a; xf0; xa6; x96; xad;
  x0a; xe9; xa8; x9f; x0a; xf0; xa6; x96;
  xa0; x0a; xe8; x92; x80; x0a; xf0; xa7;
  x84; xa7; x0a; xf0; xa6; xb3; x91; x0a;
  xe4; x93; xaa; x0a; xe8; x84; xb7; x0a;
  xe4; x90; x82; x0a; xe8; x83; x86; x0a;
  xe8; x84; x89; x0a; xe8; x85; x82; x0a;
  xf0; xa6; x9e; xb4; x0a; xe9; xa3; x83;
  x0a; xf0; xa6; xa9; x82; x0a; xe8; x89;
  xa2; x0a; xe8; x89; xa5; x0a; xf0; xa6;
  xa9; x91; x0a; xe8; x91; x93; x0a; xf0;
  xa6; xb6; xa7; x0a; xe8; x98; x90; x0a;
  xf0; xa7; x88; x9b; x0a; xe5; xaa; x86;
  x0a; xe4; x85; xbf; x0a; xf0; xa1; xa1;
  x80; x0a; xe5; xac; xab; x0a; xf0; xa1;
  xa2; xa1; x0a; xe5; xab; xa4; x0a; xf0;
  xa1; xa3; x98; x0a; xe8; x9a; xa0; x0a;
  xf0; xaf; xa6; xbc; x0a; xf0; xa3; xb6;
  x8f; x0a; xe8; xa0; xad; x0a; xf0; xa7;
  x90; xa2; x0a; xe5; xa8; x82; x0a; xe8;
  xa1; xae; x0a; xe4; xbd; x85; x0a; xe8;
  xa2; x87; x0a; xe8; xa2; xbf; x0a; xe8;
  xa3; xa6; x0a; xe8; xa5; xa5; x0a; xe8;
  xa5; x8d; x0a; xf0; xa5; x9a; x83; x0a;
  xe8; xa5; x94; x0a; xf0; xa7; x9e; x85;
  x0a; xf0; xa7; x9e; x84; x0a; xf0; xa8;
  xaf; xb5; x0a; xf0; xa8; xaf; x99; x0a;
  xf0; xa8; xae; x9c; x0a; xf0; xa8; xa7;
  xb9; x0a; xe3; xba; xad; x0a; xe8; x92
].
(* tests/test_data/whatwg/big5_whatwg_test_decode_out.txt, entries 9472..9727 *)
Definition big5_decode_out_37 : list byte := [
  xa3; x0a; xe4; x9b; xb5; x0a; xe4; x9b;
  x8f; x0a; xe3; x9f; xb2; x0a; xe8; xa8;
  xbd; x0a; xe8; xa8; x9c; x0a; xf0; xa9;
  x91; x88; x0a; xe5; xbd; x8d; x0a; xe9;
  x88; xab; x0a; xf0; xa4; x8a; x84; x0a;
  xe6; x97; x94; x0a; xe7; x84; xa9; x0a;
  xe7; x83; x84; x0a; xf0; xa1; xa1; x85;
  x0a; xe9; xb5; xad; x0a; xe8; xb2; x9f;
  x0a; xe8; xb3; xa9; x0a; xf0; xa7; xb7;
  x9c; x0a; xe5; xa6; x9a; x0a; xe7; x9f;
  x83; x0a; xe5; xa7; xb0; x0a; xe4; x8d;
  xae; x0a; xe3; x9b; x94; x0a; xe8; xb8;
  xaa; x0a; xe8; xba; xa7; x0a; xf0; xa4;
  xb0; x89; x0a; xe8; xbc; xb0; x0a; xe8;
  xbd; x8a; x0a; xe4; x8b; xb4; x0a; xe6;
  xb1; x98; x0a; xe6; xbe; xbb; x0a; xf0;
  xa2; x8c; xa1; x0a; xe4; xa2; x9b; x0a;
  xe6; xbd; xb9; x0a; xe6; xba; x8b; x0a;
  xf0; xa1; x9f; x9a; x0a; xe9; xaf; xa9;
  x0a; xe3; x9a; xb5; x0a; xf0; xa4; xa4;
  xaf; x0a; xe9; x82; xbb; x0a; xe9; x82;
  x97; x0a; xe5; x95; xb1; x0a; xe4; xa4;
  x86; x0a; xe9; x86; xbb; x0a; xe9; x90;
  x84; x0a; xf0; xa8; xa9; x8b; x0a; xe4;
  x81; xa2; x0a; xf0; xa8; xab; xbc; x0a;
  xe9; x90; xa7; x0a; xf0; xa8; xb0; x9d;
  x0a; xf0; xa8; xb0; xbb; x0a; xe8; x93;
  xa5; x0a; xe8; xa8; xab; x0a; xe9; x96;
  x99; x0a; xe9; x96; xa7; x0a; xe9; x96;
  x97; x0a; xe9; x96; x96; x0a; xf0; xa8;
  xb4; xb4; x0a; xe7; x91; x85; x0a; xe3;
  xbb; x82; x0a; xf0; xa4; xa3; xbf; x0a
].
(* tests/test_data/whatwg/big5_whatwg_test_decode_out.txt, entries 9728..9983 *)
Definition big5_decode_out_38 : list byte := [
  xf0; xa4; xa9; x82; x0a; xf0; xa4; x8f;
  xaa; x0a; xe3; xbb; xa7; x0a; xf0; xa3;
  x88; xa5; x0a; xe9; x9a; x8f; x0a; xf0;
  xa8; xbb; xa7; x0a; xf0; xa8; xb9; xa6;
  x0a; xf0; xa8; xb9; xa5; x0a; xe3; xbb;
  x8c; x0a; xf0; xa4; xa7; xad; x0a; xf0;
  xa4; xa9; xb8; x0a; xf0; xa3; xbf; xae;
  x0a; xe7; x90; x92; x0a; xe7; x91; xab;
  x0a; xe3; xbb; xbc; x0a; xe9; x9d; x81;
  x0a; xf0; xa9; x82; xb0; x0a; xe6; xa1;
  x87; x0a; xe4; xa8; x9d; x0a; xf0; xa9;
  x82; x93; x0a; xf0; xa5; x9f; x9f; x0a;
  xe9; x9d; x9d; x0a; xe9; x8d; xa8; x0a;
  xf0; xa8; xa6; x89; x0a; xf0; xa8; xb0;
  xa6; x0a; xf0; xa8; xac; xaf; x0a; xf0;
  xa6; x8e; xbe; x0a; xe9; x8a; xba; x0a;
  xe5; xac; x91; x0a; xe8; xad; xa9; x0a;
  xe4; xa4; xbc; x0a; xe7; x8f; xb9; x0a;
  xf0; xa4; x88; x9b; x0a; xe9; x9e; x9b;
  x0a; xe9; x9d; xb1; x0a; xe9; xa4; xb8;
  x0a; xf0; xa0; xbc; xa6; x0a; xe5; xb7;
  x81; x0a; xf0; xa8; xaf; x85; x0a; xf0;
  xa4; xaa; xb2; x0a; xe9; xa0; x9f; x0a;
  xf0; xa9; x93; x9a; x0a; xe9; x8b; xb6;
  x0a; xf0; xa9; x97; x97; x0a; xe9; x87;
  xa5; x0a; xe4; x93; x80; x0a; xf0; xa8;
  xad; x90; x0a; xf0; xa4; xa9; xa7; x0a;
  xf0; xa8; xad; xa4; x0a; xe9; xa3; x9c;
  x0a; xf0; xa8; xa9; x85; x0a; xe3; xbc;
  x80; x0a; xe9; x88; xaa; x0a; xe4; xa4;
  xa5; x0a; xe8; x90; x94; x0a; xe9; xa4;
  xbb; x0a; xe9; xa5; x8d; x0a; xf0; xa7
].
(* tests/test_data/whatwg/big5_whatwg_test_decode_out.txt, entries 9984..10239 *)
Definition big5_decode_out_39 : list byte := [
  xac; x86; x0a; xe3; xb7; xbd; x0a; xe9;
  xa6; x9b; x0a; xe4; xad; xaf; x0a; xe9;
  xa6; xaa; x0a; xe9; xa9; x9c; x0a; xf0;
  xa8; xad; xa5; x0a; xf0; xa5; xa3; x88;
  x0a; xe6; xaa; x8f; x0a; xe9; xa8; xa1;
  x0a; xe5; xab; xbe; x0a; xe9; xa8; xaf;
  x0a; xf0; xa9; xa3; xb1; x0a; xe4; xae;
  x90; x0a; xf0; xa9; xa5; x88; x0a; xe9;
  xa6; xbc; x0a; xe4; xae; xbd; x0a; xe4;
  xae; x97; x0a; xe9; x8d; xbd; x0a; xe5;
  xa1; xb2; x0a; xf0; xa1; x8c; x82; x0a;
  xe5; xa0; xa2; x0a; xf0; xa4; xa6; xb8;
  x0a; xf0; xa1; x93; xa8; x0a; xe7; xa1;
  x84; x0a; xf0; xa2; x9c; x9f; x0a; xf0;
  xa3; xb6; xb8; x0a; xe6; xa3; x85; x0a;
  xe3; xb5; xbd; x0a; xe9; x91; x98; x0a;
  xe3; xa4; xa7; x0a; xe6; x85; x90; x0a;
  xf0; xa2; x9e; x81; x0a; xf0; xa2; xa5;
  xab; x0a; xe6; x84; x87; x0a; xe9; xb1;
  x8f; x0a; xe9; xb1; x93; x0a; xe9; xb1;
  xbb; x0a; xe9; xb0; xb5; x0a; xe9; xb0;
  x90; x0a; xe9; xad; xbf; x0a; xe9; xaf;
  x8f; x0a; xf0; xa9; xb8; xad; x0a; xe9;
  xae; x9f; x0a; xf0; xaa; x87; xb5; x0a;
  xf0; xaa; x83; xbe; x0a; xe9; xb4; xa1;
  x0a; xe4; xb2; xae; x0a; xf0; xa4; x84;
  x84; x0a; xe9; xb8; x98; x0a; xe4; xb2;
  xb0; x0a; xe9; xb4; x8c; x0a; xf0; xaa;
  x86; xb4; x0a; xf0; xaa; x83; xad; x0a;
  xf0; xaa; x83; xb3; x0a; xf0; xa9; xa4;
  xaf; x0a; xe9; xb6; xa5; x0a; xe8; x92;
  xbd; x0a; xf0; xa6; xb8; x92; x0a; xf0
].
(* tests/test_data/whatwg/big5_whatwg_test_decode_out.txt, entries 10240..10495 *)
Definition big5_decode_out_40 : list byte := [
  xa6; xbf; x9f; x0a; xf0; xa6; xae; x82;
  x0a; xe8; x97; xbc; x0a; xe4; x94; xb3;
  x0a; xf0; xa6; xb6; xa4; x0a; xf0; xa6;
  xba; x84; x0a; xf0; xa6; xb7; xb0; x0a;
  xe8; x90; xa0; x0a; xe8; x97; xae; x0a;
  xf0; xa6; xb8; x80; x0a; xf0; xa3; x9f;
  x97; x0a; xf0; xa6; x81; xa4; x0a; xe7;
  xa7; xa2; x0a; xf0; xa3; x96; x9c; x0a;
  xf0; xa3; x99; x80; x0a; xe4; xa4; xad;
  x0a; xf0; xa4; xa7; x9e; x0a; xe3; xb5;
  xa2; x0a; xe9; x8f; x9b; x0a; xe9; x8a;
  xbe; x0a; xe9; x8d; x88; x0a; xf0; xa0;
  x8a; xbf; x0a; xe7; xa2; xb9; x0a; xe9;
  x89; xb7; x0a; xe9; x91; x8d; x0a; xe4;
  xbf; xa4; x0a; xe3; x91; x80; x0a; xe9;
  x81; xa4; x0a; xf0; xa5; x95; x9d; x0a;
  xe7; xa0; xbd; x0a; xe7; xa1; x94; x0a;
  xe7; xa2; xb6; x0a; xe7; xa1; x8b; x0a;
  xf0; xa1; x9d; x97; x0a; xf0; xa3; x87;
  x89; x0a; xf0; xa4; xa5; x81; x0a; xe3;
  x9a; x9a; x0a; xe4; xbd; xb2; x0a; xe6;
  xbf; x9a; x0a; xe6; xbf; x99; x0a; xe7;
  x80; x9e; x0a; xe7; x80; x9e; x0a; xe5;
  x90; x94; x0a; xf0; xa4; x86; xb5; x0a;
  xe5; x9e; xbb; x0a; xe5; xa3; xb3; x0a;
  xe5; x9e; x8a; x0a; xe9; xb4; x96; x0a;
  xe5; x9f; x97; x0a; xe7; x84; xb4; x0a;
  xe3; x92; xaf; x0a; xf0; xa4; x86; xac;
  x0a; xe7; x87; xab; x0a; xf0; xa6; xb1;
  x80; x0a; xf0; xa4; xbe; x97; x0a; xe5;
  xac; xa8; x0a; xf0; xa1; x9e; xb5; x0a;
  xf0; xa8; xa9; x89; x0a; xe6; x84; x8c
].
(* tests/test_data/whatwg/big5_whatwg_test_decode_out.txt, entries 10496..10751 *)
Definition big5_decode_out_41 : list byte := [
  x0a; xe5; xab; x8e; x0a; xe5; xa8; x8b;
  x0a; xe4; x8a; xbc; x0a; xf0; xa4; x92;
  x88; x0a; xe3; x9c; xac; x0a; xe4; xad;
  xbb; x0a; xf0; xa8; xa7; xbc; x0a; xe9;
  x8e; xbb; x0a; xe9; x8e; xb8; x0a; xf0;
  xa1; xa3; x96; x0a; xf0; xa0; xbc; x9d;
  x0a; xe8; x91; xb2; x0a; xf0; xa6; xb3;
  x80; x0a; xf0; xa1; x90; x93; x0a; xf0;
  xa4; x8b; xba; x0a; xf0; xa2; xb0; xa6;
  x0a; xf0; xa4; x8f; x81; x0a; xe5; xa6;
  x94; x0a; xf0; xa3; xb6; xb7; x0a; xf0;
  xa6; x9d; x81; x0a; xe7; xb6; xa8; x0a;
  xf0; xa6; x85; x9b; x0a; xf0; xa6; x82;
  xa4; x0a; xf0; xa4; xa6; xb9; x0a; xf0;
  xa4; xa6; x8b; x0a; xf0; xa8; xa7; xba;
  x0a; xe9; x8b; xa5; x0a; xe7; x8f; xa2;
  x0a; xe3; xbb; xa9; x0a; xe7; x92; xb4;
  x0a; xf0; xa8; xad; xa3; x0a; xf0; xa1;
  xa2; x9f; x0a; xe3; xbb; xa1; x0a; xf0;
  xa4; xaa; xb3; x0a; xe6; xab; x98; x0a;
  xe7; x8f; xb3; x0a; xe7; x8f; xbb; x0a;
  xe3; xbb; x96; x0a; xf0; xa4; xa8; xbe;
  x0a; xf0; xa4; xaa; x94; x0a; xf0; xa1;
  x9f; x99; x0a; xf0; xa4; xa9; xa6; x0a;
  xf0; xa0; x8e; xa7; x0a; xf0; xa1; x90;
  xa4; x0a; xf0; xa4; xa7; xa5; x0a; xe7;
  x91; x88; x0a; xf0; xa4; xa4; x96; x0a;
  xe7; x82; xa5; x0a; xf0; xa4; xa5; xb6;
  x0a; xe9; x8a; x84; x0a; xe7; x8f; xa6;
  x0a; xe9; x8d; x9f; x0a; xf0; xa0; x93;
  xbe; x0a; xe9; x8c; xb1; x0a; xf0; xa8;
  xab; x8e; x0a; xf0; xa8; xa8; x96; x0a
].
(* tests/test_data/whatwg/big5_whatwg_test_decode_out.txt, entries 10752..11007 *)
Definition big5_decode_out_42 : list byte := [
  xe9; x8e; x86; x0a; xf0; xa8; xaf; xa7;
  x0a; xf0; xa5; x97; x95; x0a; xe4; xa4;
  xb5; x0a; xf0; xa8; xaa; x82; x0a; xe7;
  x85; xab; x0a; xf0; xa4; xa5; x83; x0a;
  xf0; xa0; xb3; xbf; x0a; xe5; x9a; xa4;
  x0a; xf0; xa0; x98; x9a; x0a; xf0; xa0;
  xaf; xab; x0a; xf0; xa0; xb2; xb8; x0a;
  xe5; x94; x82; x0a; xe7; xa7; x84; x0a;
  xf0; xa1; x9f; xba; x0a; xe7; xb7; xbe;
  x0a; xf0; xa1; x9b; x82; x0a; xf0; xa4;
  xa9; x90; x0a; xf0; xa1; xa1; x92; x0a;
  xe4; x94; xae; x0a; xe9; x90; x81; x0a;
  xe3; x9c; x8a; x0a; xf0; xa8; xab; x80;
  x0a; xf0; xa4; xa6; xad; x0a; xe5; xa6;
  xb0; x0a; xf0; xa1; xa2; xbf; x0a; xf0;
  xa1; xa2; x83; x0a; xf0; xa7; x92; x84;
  x0a; xe5; xaa; xa1; x0a; xe3; x9b; xa2;
  x0a; xf0; xa3; xb5; x9b; x0a; xe3; x9a;
  xb0; x0a; xe9; x89; x9f; x0a; xe5; xa9;
  xb9; x0a; xf0; xa8; xaa; x81; x0a; xf0;
  xa1; xa1; xa2; x0a; xe9; x8d; xb4; x0a;
  xe3; xb3; x8d; x0a; xf0; xa0; xaa; xb4;
  x0a; xe4; xaa; x96; x0a; xe3; xa6; x8a;
  x0a; xe5; x83; xb4; x0a; xe3; xb5; xa9;
  x0a; xe3; xb5; x8c; x0a; xf0; xa1; x8e;
  x9c; x0a; xe7; x85; xb5; x0a; xe4; x8b;
  xbb; x0a; xf0; xa8; x88; x98; x0a; xe6;
  xb8; x8f; x0a; xf0; xa9; x83; xa4; x0a;
  xe4; x93; xab; x0a; xe6; xb5; x97; x0a;
  xf0; xa7; xb9; x8f; x0a; xe7; x81; xa7;
  x0a; xe6; xb2; xaf; x0a; xe3; xb3; x96;
  x0a; xf0; xa3; xbf; xad; x0a; xf0; xa3
].
(* tests/test_data/whatwg/big5_whatwg_test_decode_out.txt, entries 11008..11263 *)
Definition big5_decode_out_43 : list byte := [
  xb8; xad; x0a; xe6; xb8; x82; x0a; xe6;
  xbc; x8c; x0a; xe3; xb5; xaf; x0a; xf0;
  xa0; x8f; xb5; x0a; xe7; x95; x91; x0a;
  xe3; x9a; xbc; x0a; xe3; x93; x88; x0a;
  xe4; x9a; x80; x0a; xe3; xbb; x9a; x0a;
  xe4; xa1; xb1; x0a; xe5; xa7; x84; x0a;
  xe9; x89; xae; x0a; xe4; xa4; xbe; x0a;
  xe8; xbd; x81; x0a; xf0; xa8; xb0; x9c;
  x0a; xf0; xa6; xaf; x80; x0a; xe5; xa0;
  x92; x0a; xe5; x9f; x88; x0a; xe3; x9b;
  x96; x0a; xf0; xa1; x91; x92; x0a; xe7;
  x83; xbe; x0a; xf0; xa4; x8d; xa2; x0a;
  xf0; xa4; xa9; xb1; x0a; xf0; xa2; xbf;
  xa3; x0a; xf0; xa1; x8a; xb0; x0a; xf0;
  xa2; x8e; xbd; x0a; xe6; xa2; xb9; x0a;
  xe6; xa5; xa7; x0a; xf0; xa1; x8e; x98;
  x0a; xf0; xa3; x93; xa5; x0a; xf0; xa7;
  xaf; xb4; x0a; xf0; xa3; x9b; x9f; x0a;
  xf0; xa8; xaa; x83; x0a; xf0; xa3; x9f;
  x96; x0a; xf0; xa3; x8f; xba; x0a; xf0;
  xa4; xb2; x9f; x0a; xe6; xa8; x9a; x0a;
  xf0; xa3; x9a; xad; x0a; xf0; xa6; xb2;
  xb7; x0a; xe8; x90; xbe; x0a; xe4; x93;
  x9f; x0a; xe4; x93; x8e; x0a; xf0; xa6;
  xb4; xa6; x0a; xf0; xa6; xb5; x91; x0a;
  xf0; xa6; xb2; x82; x0a; xf0; xa6; xbf;
  x9e; x0a; xe6; xbc; x97; x0a; xf0; xa7;
  x84; x89; x0a; xe8; x8c; xbd; x0a; xf0;
  xa1; x9c; xba; x0a; xe8; x8f; xad; x0a;
  xf0; xa6; xb2; x80; x0a; xf0; xa7; x81;
  x93; x0a; xf0; xa1; x9f; x9b; x0a; xe5;
  xa6; x89; x0a; xe5; xaa; x82; x0a; xf0
].
(* tests/test_data/whatwg/big5_whatwg_test_decode_out.txt, entries 11264..11519 *)
Definition big5_decode_out_44 : list byte := [
  xa1; x9e; xb3; x0a; xe5; xa9; xa1; x0a;
  xe5; xa9; xb1; x0a; xf0; xa1; xa4; x85;
  x0a; xf0; xa4; x87; xbc; x0a; xe3; x9c;
  xad; x0a; xe5; xa7; xaf; x0a; xf0; xa1;
  x9c; xbc; x0a; xe3; x9b; x87; x0a; xe7;
  x86; x8e; x0a; xe9; x8e; x90; x0a; xe6;
  x9a; x9a; x0a; xf0; xa4; x8a; xa5; x0a;
  xe5; xa9; xae; x0a; xe5; xa8; xab; x0a;
  xf0; xa4; x8a; x93; x0a; xe6; xa8; xab;
  x0a; xf0; xa3; xbb; xb9; x0a; xf0; xa7;
  x9c; xb6; x0a; xf0; xa4; x91; x9b; x0a;
  xf0; xa4; x8b; x8a; x0a; xe7; x84; x9d;
  x0a; xf0; xa4; x89; x99; x0a; xf0; xa8;
  xa7; xa1; x0a; xe4; xbe; xb0; x0a; xf0;
  xa6; xb4; xa8; x0a; xe5; xb3; x82; x0a;
  xf0; xa4; x93; x8e; x0a; xf0; xa7; xb9;
  x8d; x0a; xf0; xa4; x8e; xbd; x0a; xe6;
  xa8; x8c; x0a; xf0; xa4; x89; x96; x0a;
  xf0; xa1; x8c; x84; x0a; xe7; x82; xa6;
  x0a; xe7; x84; xb3; x0a; xf0; xa4; x8f;
  xa9; x0a; xe3; xb6; xa5; x0a; xe6; xb3;
  x9f; x0a; xf0; xaf; xa0; xa5; x0a; xf0;
  xa4; xa9; x8f; x0a; xe7; xb9; xa5; x0a;
  xe5; xa7; xab; x0a; xe5; xb4; xaf; x0a;
  xe3; xb7; xb3; x0a; xe5; xbd; x9c; x0a;
  xf0; xa4; xa9; x9d; x0a; xf0; xa1; x9f;
  x9f; x0a; xe7; xb6; xa4; x0a; xe8; x90;
  xa6; x0a; xe5; x92; x85; x0a; xf0; xa3;
  xab; xba; x0a; xf0; xa3; x8c; x80; x0a;
  xf0; xa0; x88; x94; x0a; xe5; x9d; xbe;
  x0a; xf0; xa0; xa3; x95; x0a; xf0; xa0;
  x98; x99; x0a; xe3; xbf; xa5; x0a; xf0
].
(* tests/test_data/whatwg/big5_whatwg_test_decode_out.txt, entries 11520..11775 *)
Definition big5_decode_out_45 : list byte := [
  xa1; xbe; x9e; x0a; xf0; xaa; x8a; xb6;
  x0a; xe7; x80; x83; x0a; xf0; xa9; x85;
  x9b; x0a; xe5; xb5; xb0; x0a; xe7; x8e;
  x8f; x0a; xe7; xb3; x93; x0a; xf0; xa8;
  xa9; x99; x0a; xf0; xa9; x90; xa0; x0a;
  xe4; xbf; x88; x0a; xe7; xbf; xa7; x0a;
  xe7; x8b; x8d; x0a; xe7; x8c; x90; x0a;
  xf0; xa7; xab; xb4; x0a; xe7; x8c; xb8;
  x0a; xe7; x8c; xb9; x0a; xf0; xa5; x9b;
  xb6; x0a; xe7; x8d; x81; x0a; xe7; x8d;
  x88; x0a; xe3; xba; xa9; x0a; xf0; xa7;
  xac; x98; x0a; xe9; x81; xac; x0a; xe7;
  x87; xb5; x0a; xf0; xa4; xa3; xb2; x0a;
  xe7; x8f; xa1; x0a; xe8; x87; xb6; x0a;
  xe3; xbb; x8a; x0a; xe7; x9c; x8c; x0a;
  xe3; xbb; x91; x0a; xe6; xb2; xa2; x0a;
  xe5; x9b; xbd; x0a; xe7; x90; x99; x0a;
  xe7; x90; x9e; x0a; xe7; x90; x9f; x0a;
  xe3; xbb; xa2; x0a; xe3; xbb; xb0; x0a;
  xe3; xbb; xb4; x0a; xe3; xbb; xba; x0a;
  xe7; x93; x93; x0a; xe3; xbc; x8e; x0a;
  xe3; xbd; x93; x0a; xe7; x95; x82; x0a;
  xe7; x95; xad; x0a; xe7; x95; xb2; x0a;
  xe7; x96; x8d; x0a; xe3; xbd; xbc; x0a;
  xe7; x97; x88; x0a; xe7; x97; x9c; x0a;
  xe3; xbf; x80; x0a; xe7; x99; x8d; x0a;
  xe3; xbf; x97; x0a; xe7; x99; xb4; x0a;
  xe3; xbf; x9c; x0a; xe7; x99; xba; x0a;
  xf0; xa4; xbd; x9c; x0a; xe7; x86; x88;
  x0a; xe5; x98; xa3; x0a; xe8; xa6; x80;
  x0a; xe5; xa1; xa9; x0a; xe4; x80; x9d;
  x0a; xe7; x9d; x83; x0a; xe4; x80; xb9
].
(* tests/test_data/whatwg/big5_whatwg_test_decode_out.txt, entries 11776..12031 *)
Definition big5_decode_out_46 : list byte := [
  x0a; xe6; x9d; xa1; x0a; xe4; x81; x85;
  x0a; xe3; x97; x9b; x0a; xe7; x9e; x98;
  x0a; xe4; x81; xaa; x0a; xe4; x81; xaf;
  x0a; xe5; xb1; x9e; x0a; xe7; x9e; xbe;
  x0a; xe7; x9f; x8b; x0a; xe5; xa3; xb2;
  x0a; xe7; xa0; x98; x0a; xe7; x82; xb9;
  x0a; xe7; xa0; x9c; x0a; xe4; x82; xa8;
  x0a; xe7; xa0; xb9; x0a; xe7; xa1; x87;
  x0a; xe7; xa1; x91; x0a; xe7; xa1; xa6;
  x0a; xe8; x91; x88; x0a; xf0; xa5; x94;
  xb5; x0a; xe7; xa4; xb3; x0a; xe6; xa0;
  x83; x0a; xe7; xa4; xb2; x0a; xe4; x84;
  x83; x0a; xe4; x84; x89; x0a; xe7; xa6;
  x91; x0a; xe7; xa6; x99; x0a; xe8; xbe;
  xbb; x0a; xe7; xa8; x86; x0a; xe8; xbe;
  xbc; x0a; xe4; x85; xa7; x0a; xe7; xaa;
  x91; x0a; xe4; x86; xb2; x0a; xe7; xaa;
  xbc; x0a; xe8; x89; xb9; x0a; xe4; x87;
  x84; x0a; xe7; xab; x8f; x0a; xe7; xab;
  x9b; x0a; xe4; x87; x8f; x0a; xe4; xb8;
  xa1; x0a; xe7; xad; xa2; x0a; xe7; xad;
  xac; x0a; xe7; xad; xbb; x0a; xe7; xb0;
  x92; x0a; xe7; xb0; x9b; x0a; xe4; x89;
  xa0; x0a; xe4; x89; xba; x0a; xe7; xb1;
  xbb; x0a; xe7; xb2; x9c; x0a; xe4; x8a;
  x8c; x0a; xe7; xb2; xb8; x0a; xe4; x8a;
  x94; x0a; xe7; xb3; xad; x0a; xe8; xbe;
  x93; x0a; xe7; x83; x80; x0a; xf0; xa0;
  xb3; x8f; x0a; xe7; xb7; x8f; x0a; xe7;
  xb7; x94; x0a; xe7; xb7; x90; x0a; xe7;
  xb7; xbd; x0a; xe7; xbe; xae; x0a; xe7;
  xbe; xb4; x0a; xe7; x8a; x9f; x0a; xe4
].
(* tests/test_data/whatwg/big5_whatwg_test_decode_out.txt, entries 12032..12287 *)
Definition big5_decode_out_47 : list byte := [
  x8e; x97; x0a; xe8; x80; xa0; x0a; xe8;
  x80; xa5; x0a; xe7; xac; xb9; x0a; xe8;
  x80; xae; x0a; xe8; x80; xb1; x0a; xe8;
  x81; x94; x0a; xe3; xb7; x8c; x0a; xe5;
  x9e; xb4; x0a; xe7; x82; xa0; x0a; xe8;
  x82; xb7; x0a; xe8; x83; xa9; x0a; xe4;
  x8f; xad; x0a; xe8; x84; x8c; x0a; xe7;
  x8c; xaa; x0a; xe8; x84; x8e; x0a; xe8;
  x84; x92; x0a; xe7; x95; xa0; x0a; xe8;
  x84; x94; x0a; xe4; x90; x81; x0a; xe3;
  xac; xb9; x0a; xe8; x85; x96; x0a; xe8;
  x85; x99; x0a; xe8; x85; x9a; x0a; xe4;
  x90; x93; x0a; xe5; xa0; xba; x0a; xe8;
  x85; xbc; x0a; xe8; x86; x84; x0a; xe4;
  x90; xa5; x0a; xe8; x86; x93; x0a; xe4;
  x90; xad; x0a; xe8; x86; xa5; x0a; xe5;
  x9f; xaf; x0a; xe8; x87; x81; x0a; xe8;
  x87; xa4; x0a; xe8; x89; x94; x0a; xe4;
  x92; x8f; x0a; xe8; x8a; xa6; x0a; xe8;
  x89; xb6; x0a; xe8; x8b; x8a; x0a; xe8;
  x8b; x98; x0a; xe8; x8b; xbf; x0a; xe4;
  x92; xb0; x0a; xe8; x8d; x97; x0a; xe9;
  x99; xa9; x0a; xe6; xa6; x8a; x0a; xe8;
  x90; x85; x0a; xe7; x83; xb5; x0a; xe8;
  x91; xa4; x0a; xe6; x83; xa3; x0a; xe8;
  x92; x88; x0a; xe4; x94; x84; x0a; xe8;
  x92; xbe; x0a; xe8; x93; xa1; x0a; xe8;
  x93; xb8; x0a; xe8; x94; x90; x0a; xe8;
  x94; xb8; x0a; xe8; x95; x92; x0a; xe4;
  x94; xbb; x0a; xe8; x95; xaf; x0a; xe8;
  x95; xb0; x0a; xe8; x97; xa0; x0a; xe4;
  x95; xb7; x0a; xe8; x99; xb2; x0a; xe8
].
(* tests/test_data/whatwg/big5_whatwg_test_decode_out.txt, entries 12288..12543 *)
Definition big5_decode_out_48 : list byte := [
  x9a; x92; x0a; xe8; x9a; xb2; x0a; xe8;
  x9b; xaf; x0a; xe9; x99; x85; x0a; xe8;
  x9e; x8b; x0a; xe4; x98; x86; x0a; xe4;
  x98; x97; x0a; xe8; xa2; xae; x0a; xe8;
  xa3; xbf; x0a; xe8; xa4; xa4; x0a; xe8;
  xa5; x87; x0a; xe8; xa6; x91; x0a; xf0;
  xa7; xa5; xa7; x0a; xe8; xa8; xa9; x0a;
  xe8; xa8; xb8; x0a; xe8; xaa; x94; x0a;
  xe8; xaa; xb4; x0a; xe8; xb1; x91; x0a;
  xe8; xb3; x94; x0a; xe8; xb3; xb2; x0a;
  xe8; xb4; x9c; x0a; xe4; x9e; x98; x0a;
  xe5; xa1; x9f; x0a; xe8; xb7; x83; x0a;
  xe4; x9f; xad; x0a; xe4; xbb; xae; x0a;
  xe8; xb8; xba; x0a; xe5; x97; x98; x0a;
  xe5; x9d; x94; x0a; xe8; xb9; xb1; x0a;
  xe5; x97; xb5; x0a; xe8; xba; xb0; x0a;
  xe4; xa0; xb7; x0a; xe8; xbb; x8e; x0a;
  xe8; xbb; xa2; x0a; xe8; xbb; xa4; x0a;
  xe8; xbb; xad; x0a; xe8; xbb; xb2; x0a;
  xe8; xbe; xb7; x0a; xe8; xbf; x81; x0a;
  xe8; xbf; x8a; x0a; xe8; xbf; x8c; x0a;
  xe9; x80; xb3; x0a; xe9; xa7; x84; x0a;
  xe4; xa2; xad; x0a; xe9; xa3; xa0; x0a;
  xe9; x88; x93; x0a; xe4; xa4; x9e; x0a;
  xe9; x88; xa8; x0a; xe9; x89; x98; x0a;
  xe9; x89; xab; x0a; xe9; x8a; xb1; x0a;
  xe9; x8a; xae; x0a; xe9; x8a; xbf; x0a;
  xe9; x8b; xa3; x0a; xe9; x8b; xab; x0a;
  xe9; x8b; xb3; x0a; xe9; x8b; xb4; x0a;
  xe9; x8b; xbd; x0a; xe9; x8d; x83; x0a;
  xe9; x8e; x84; x0a; xe9; x8e; xad; x0a;
  xe4; xa5; x85; x0a; xe4; xa5; x91; x0a
].
(* tests/test_data/whatwg/big5_whatwg_test_decode_out.txt, entries 12544..12799 *)
Definition big5_decode_out_49 : list byte := [
  xe9; xba; xbf; x0a; xe9; x90; x97; x0a;
  xe5; x8c; x81; x0a; xe9; x90; x9d; x0a;
  xe9; x90; xad; x0a; xe9; x90; xbe; x0a;
  xe4; xa5; xaa; x0a; xe9; x91; x94; x0a;
  xe9; x91; xb9; x0a; xe9; x94; xad; x0a;
  xe9; x96; xa2; x0a; xe4; xa6; xa7; x0a;
  xe9; x97; xb4; x0a; xe9; x98; xb3; x0a;
  xe4; xa7; xa5; x0a; xe6; x9e; xa0; x0a;
  xe4; xa8; xa4; x0a; xe9; x9d; x80; x0a;
  xe4; xa8; xb5; x0a; xe9; x9e; xb2; x0a;
  xe9; x9f; x82; x0a; xe5; x99; x94; x0a;
  xe4; xab; xa4; x0a; xe6; x83; xa8; x0a;
  xe9; xa2; xb9; x0a; xe4; xac; x99; x0a;
  xe9; xa3; xb1; x0a; xe5; xa1; x84; x0a;
  xe9; xa4; x8e; x0a; xe9; xa4; x99; x0a;
  xe5; x86; xb4; x0a; xe9; xa4; x9c; x0a;
  xe9; xa4; xb7; x0a; xe9; xa5; x82; x0a;
  xe9; xa5; x9d; x0a; xe9; xa5; xa2; x0a;
  xe4; xad; xb0; x0a; xe9; xa7; x85; x0a;
  xe4; xae; x9d; x0a; xe9; xa8; xbc; x0a;
  xe9; xac; x8f; x0a; xe7; xaa; x83; x0a;
  xe9; xad; xa9; x0a; xe9; xae; x81; x0a;
  xe9; xaf; x9d; x0a; xe9; xaf; xb1; x0a;
  xe9; xaf; xb4; x0a; xe4; xb1; xad; x0a;
  xe9; xb0; xa0; x0a; xe3; x9d; xaf; x0a;
  xf0; xa1; xaf; x82; x0a; xe9; xb5; x89;
  x0a; xe9; xb0; xba; x0a; xe9; xbb; xbe;
  x0a; xe5; x99; x90; x0a; xe9; xb6; x93;
  x0a; xe9; xb6; xbd; x0a; xe9; xb7; x80;
  x0a; xe9; xb7; xbc; x0a; xe9; x93; xb6;
  x0a; xe8; xbe; xb6; x0a; xe9; xb9; xbb;
  x0a; xe9; xba; xac; x0a; xe9; xba; xb1
].
(* tests/test_data/whatwg/big5_whatwg_test_decode_out.txt, entries 12800..13055 *)
Definition big5_decode_out_50 : list byte := [
  x0a; xe9; xba; xbd; x0a; xe9; xbb; x86;
  x0a; xe9; x93; x9c; x0a; xe9; xbb; xa2;
  x0a; xe9; xbb; xb1; x0a; xe9; xbb; xb8;
  x0a; xe7; xab; x88; x0a; xe9; xbd; x84;
  x0a; xf0; xa0; x82; x94; x0a; xf0; xa0;
  x8a; xb7; x0a; xf0; xa0; x8e; xa0; x0a;
  xe6; xa4; x9a; x0a; xe9; x93; x83; x0a;
  xe5; xa6; xac; x0a; xf0; xa0; x93; x97;
  x0a; xe5; xa1; x80; x0a; xe9; x93; x81;
  x0a; xe3; x9e; xb9; x0a; xf0; xa0; x97;
  x95; x0a; xf0; xa0; x98; x95; x0a; xf0;
  xa0; x99; xb6; x0a; xf0; xa1; x9a; xba;
  x0a; xe5; x9d; x97; x0a; xe7; x85; xb3;
  x0a; xf0; xa0; xab; x82; x0a; xf0; xa0;
  xab; x8d; x0a; xf0; xa0; xae; xbf; x0a;
  xe5; x91; xaa; x0a; xf0; xaf; xa0; xbb;
  x0a; xf0; xa0; xaf; x8b; x0a; xe5; x92;
  x9e; x0a; xf0; xa0; xaf; xbb; x0a; xf0;
  xa0; xb0; xbb; x0a; xf0; xa0; xb1; x93;
  x0a; xf0; xa0; xb1; xa5; x0a; xf0; xa0;
  xb1; xbc; x0a; xe6; x83; xa7; x0a; xf0;
  xa0; xb2; x8d; x0a; xe5; x99; xba; x0a;
  xf0; xa0; xb2; xb5; x0a; xf0; xa0; xb3;
  x9d; x0a; xf0; xa0; xb3; xad; x0a; xf0;
  xa0; xb5; xaf; x0a; xf0; xa0; xb6; xb2;
  x0a; xf0; xa0; xb7; x88; x0a; xe6; xa5;
  x95; x0a; xe9; xb0; xaf; x0a; xe8; x9e;
  xa5; x0a; xf0; xa0; xb8; x84; x0a; xf0;
  xa0; xb8; x8e; x0a; xf0; xa0; xbb; x97;
  x0a; xf0; xa0; xbe; x90; x0a; xf0; xa0;
  xbc; xad; x0a; xf0; xa0; xb9; xb3; x0a;
  xe5; xb0; xa0; x0a; xf0; xa0; xbe; xbc
].
(* tests/test_data/whatwg/big5_whatwg_test_decode_out.txt, entries 13056..13311 *)
Definition big5_decode_out_51 : list byte := [
  x0a; xe5; xb8; x8b; x0a; xf0; xa1; x81;
  x9c; x0a; xf0; xa1; x81; x8f; x0a; xf0;
  xa1; x81; xb6; x0a; xe6; x9c; x9e; x0a;
  xf0; xa1; x81; xbb; x0a; xf0; xa1; x82;
  x88; x0a; xf0; xa1; x82; x96; x0a; xe3;
  x99; x87; x0a; xf0; xa1; x82; xbf; x0a;
  xf0; xa1; x83; x93; x0a; xf0; xa1; x84;
  xaf; x0a; xf0; xa1; x84; xbb; x0a; xe5;
  x8d; xa4; x0a; xe8; x92; xad; x0a; xf0;
  xa1; x8b; xa3; x0a; xf0; xa1; x8d; xb5;
  x0a; xf0; xa1; x8c; xb6; x0a; xe8; xae;
  x81; x0a; xf0; xa1; x95; xb7; x0a; xf0;
  xa1; x98; x99; x0a; xf0; xa1; x9f; x83;
  x0a; xf0; xa1; x9f; x87; x0a; xe4; xb9;
  xb8; x0a; xe7; x82; xbb; x0a; xf0; xa1;
  xa0; xad; x0a; xf0; xa1; xa5; xaa; x0a;
  xf0; xa1; xa8; xad; x0a; xf0; xa1; xa9;
  x85; x0a; xf0; xa1; xb0; xaa; x0a; xf0;
  xa1; xb1; xb0; x0a; xf0; xa1; xb2; xac;
  x0a; xf0; xa1; xbb; x88; x0a; xe6; x8b;
  x83; x0a; xf0; xa1; xbb; x95; x0a; xf0;
  xa1; xbc; x95; x0a; xe7; x86; x98; x0a;
  xe6; xa1; x95; x0a; xf0; xa2; x81; x85;
  x0a; xe6; xa7; xa9; x0a; xe3; x9b; x88;
  x0a; xf0; xa2; x89; xbc; x0a; xf0; xa2;
  x8f; x97; x0a; xf0; xa2; x8f; xba; x0a;
  xf0; xa2; x9c; xaa; x0a; xf0; xa2; xa1;
  xb1; x0a; xf0; xa2; xa5; x8f; x0a; xe8;
  x8b; xbd; x0a; xf0; xa2; xa5; xa7; x0a;
  xf0; xa2; xa6; x93; x0a; xf0; xa2; xab;
  x95; x0a; xe8; xa6; xa5; x0a; xf0; xa2;
  xab; xa8; x0a; xe8; xbe; xa0; x0a; xf0
].
(* tests/test_data/whatwg/big5_whatwg_test_decode_out.txt, entries 13312..13567 *)
Definition big5_decode_out_52 : list byte := [
  xa2; xac; x8e; x0a; xe9; x9e; xb8; x0a;
  xf0; xa2; xac; xbf; x0a; xe9; xa1; x87;
  x0a; xe9; xaa; xbd; x0a; xf0; xa2; xb1;
  x8c; x0a; xf0; xa2; xb2; x88; x0a; xf0;
  xa2; xb2; xb7; x0a; xf0; xa5; xaf; xa8;
  x0a; xf0; xa2; xb4; x88; x0a; xf0; xa2;
  xb4; x92; x0a; xf0; xa2; xb6; xb7; x0a;
  xf0; xa2; xb6; x95; x0a; xf0; xa2; xb9;
  x82; x0a; xf0; xa2; xbd; xb4; x0a; xf0;
  xa2; xbf; x8c; x0a; xf0; xa3; x80; xb3;
  x0a; xf0; xa3; x81; xa6; x0a; xf0; xa3;
  x8c; x9f; x0a; xf0; xa3; x8f; x9e; x0a;
  xe5; xbe; xb1; x0a; xe6; x99; x88; x0a;
  xe6; x9a; xbf; x0a; xf0; xa7; xa9; xb9;
  x0a; xf0; xa3; x95; xa7; x0a; xf0; xa3;
  x97; xb3; x0a; xe7; x88; x81; x0a; xf0;
  xa4; xa6; xba; x0a; xe7; x9f; x97; x0a;
  xf0; xa3; x98; x9a; x0a; xf0; xa3; x9c;
  x96; x0a; xe7; xba; x87; x0a; xf0; xa0;
  x8d; x86; x0a; xe5; xa2; xb5; x0a; xe6;
  x9c; x8e; x0a; xe6; xa4; x98; x0a; xf0;
  xa3; xaa; xa7; x0a; xf0; xa7; x99; x97;
  x0a; xf0; xa5; xbf; xa2; x0a; xf0; xa3;
  xb8; x91; x0a; xf0; xa3; xba; xb9; x0a;
  xf0; xa7; x97; xbe; x0a; xf0; xa2; x82;
  x9a; x0a; xe4; xa3; x90; x0a; xe4; xaa;
  xb8; x0a; xf0; xa4; x84; x99; x0a; xf0;
  xa8; xaa; x9a; x0a; xf0; xa4; x8b; xae;
  x0a; xf0; xa4; x8c; x8d; x0a; xf0; xa4;
  x80; xbb; x0a; xf0; xa4; x8c; xb4; x0a;
  xf0; xa4; x8e; x96; x0a; xf0; xa4; xa9;
  x85; x0a; xf0; xa0; x97; x8a; x0a; xe5
].
(* tests/test_data/whatwg/big5_whatwg_test_decode_out.txt, entries 13568..13823 *)
Definition big5_decode_out_53 : list byte := [
  x87; x92; x0a; xf0; xa0; x98; x91; x0a;
  xe5; xa6; x9f; x0a; xf0; xa1; xba; xa8;
  x0a; xe3; xae; xbe; x0a; xf0; xa3; xb3;
  xbf; x0a; xf0; xa4; x90; x84; x0a; xf0;
  xa4; x93; x96; x0a; xe5; x9e; x88; x0a;
  xf0; xa4; x99; xb4; x0a; xe3; xa6; x9b;
  x0a; xf0; xa4; x9c; xaf; x0a; xf0; xa8;
  x97; xa8; x0a; xf0; xa9; xa7; x89; x0a;
  xe3; x9d; xa2; x0a; xf0; xa2; x87; x83;
  x0a; xe8; xad; x9e; x0a; xf0; xa8; xad;
  x8e; x0a; xe9; xa7; x96; x0a; xf0; xa4;
  xa0; x92; x0a; xf0; xa4; xa3; xbb; x0a;
  xf0; xa4; xa8; x95; x0a; xe7; x88; x89;
  x0a; xf0; xa4; xab; x80; x0a; xf0; xa0;
  xb1; xb8; x0a; xe5; xa5; xa5; x0a; xf0;
  xa4; xba; xa5; x0a; xf0; xa4; xbe; x86;
  x0a; xf0; xa0; x9d; xb9; x0a; xe8; xbb;
  x9a; x0a; xf0; xa5; x80; xac; x0a; xe5;
  x8a; x8f; x0a; xe5; x9c; xbf; x0a; xe7;
  x85; xb1; x0a; xf0; xa5; x8a; x99; x0a;
  xf0; xa5; x90; x99; x0a; xf0; xa3; xbd;
  x8a; x0a; xf0; xa4; xaa; xa7; x0a; xe5;
  x96; xbc; x0a; xf0; xa5; x91; x86; x0a;
  xf0; xa5; x91; xae; x0a; xf0; xa6; xad;
  x92; x0a; xe9; x87; x94; x0a; xe3; x91;
  xb3; x0a; xf0; xa5; x94; xbf; x0a; xf0;
  xa7; x98; xb2; x0a; xf0; xa5; x95; x9e;
  x0a; xe4; x9c; x98; x0a; xf0; xa5; x95;
  xa2; x0a; xf0; xa5; x95; xa6; x0a; xf0;
  xa5; x9f; x87; x0a; xf0; xa4; xa4; xbf;
  x0a; xf0; xa5; xa1; x9d; x0a; xe5; x81;
  xa6; x0a; xe3; x93; xbb; x0a; xf0; xa3
].
(* tests/test_data/whatwg/big5_whatwg_test_decode_out.txt, entries 13824..14079 *)
Definition big5_decode_out_54 : list byte := [
  x8f; x8c; x0a; xe6; x83; x9e; x0a; xf0;
  xa5; xa4; x83; x0a; xe4; x9d; xbc; x0a;
  xf0; xa8; xa5; x88; x0a; xf0; xa5; xaa;
  xae; x0a; xf0; xa5; xae; x89; x0a; xf0;
  xa5; xb0; x86; x0a; xf0; xa1; xb6; x90;
  x0a; xe5; x9e; xa1; x0a; xe7; x85; x91;
  x0a; xe6; xbe; xb6; x0a; xf0; xa6; x84;
  x82; x0a; xf0; xa7; xb0; x92; x0a; xe9;
  x81; x96; x0a; xf0; xa6; x86; xb2; x0a;
  xf0; xa4; xbe; x9a; x0a; xe8; xad; xa2;
  x0a; xf0; xa6; x90; x82; x0a; xf0; xa6;
  x91; x8a; x0a; xe5; xb5; x9b; x0a; xf0;
  xa6; xaf; xb7; x0a; xe8; xbc; xb6; x0a;
  xf0; xa6; x92; x84; x0a; xf0; xa1; xa4;
  x9c; x0a; xe8; xab; xaa; x0a; xf0; xa4;
  xa7; xb6; x0a; xf0; xa6; x92; x88; x0a;
  xf0; xa3; xbf; xaf; x0a; xf0; xa6; x94;
  x92; x0a; xe4; xaf; x80; x0a; xf0; xa6;
  x96; xbf; x0a; xf0; xa6; x9a; xb5; x0a;
  xf0; xa2; x9c; x9b; x0a; xe9; x91; xa5;
  x0a; xf0; xa5; x9f; xa1; x0a; xe6; x86;
  x95; x0a; xe5; xa8; xa7; x0a; xf0; xaf;
  xa3; x8d; x0a; xe4; xbe; xbb; x0a; xe5;
  x9a; xb9; x0a; xf0; xa4; x94; xa1; x0a;
  xf0; xa6; x9b; xbc; x0a; xe4; xb9; xaa;
  x0a; xf0; xa4; xa4; xb4; x0a; xe9; x99;
  x96; x0a; xe6; xb6; x8f; x0a; xf0; xa6;
  xb2; xbd; x0a; xe3; x98; x98; x0a; xe8;
  xa5; xb7; x0a; xf0; xa6; x9e; x99; x0a;
  xf0; xa6; xa1; xae; x0a; xf0; xa6; x90;
  x91; x0a; xf0; xa6; xa1; x9e; x0a; xe7;
  x87; x9f; x0a; xf0; xa6; xa3; x87; x0a
].
(* tests/test_data/whatwg/big5_whatwg_test_decode_out.txt, entries 14080..14335 *)
Definition big5_decode_out_55 : list byte := [
  xe7; xad; x82; x0a; xf0; xa9; x83; x80;
  x0a; xf0; xa0; xa8; x91; x0a; xf0; xa6;
  xa4; xa6; x0a; xe9; x84; x84; x0a; xf0;
  xa6; xa4; xb9; x0a; xe7; xa9; x85; x0a;
  xe9; xb7; xb0; x0a; xf0; xa6; xa7; xba;
  x0a; xe9; xa8; xa6; x0a; xf0; xa6; xa8;
  xad; x0a; xe3; x99; x9f; x0a; xf0; xa6;
  x91; xa9; x0a; xf0; xa0; x80; xa1; x0a;
  xe7; xa6; x83; x0a; xf0; xa6; xa8; xb4;
  x0a; xf0; xa6; xad; x9b; x0a; xe5; xb4;
  xac; x0a; xf0; xa3; x94; x99; x0a; xe8;
  x8f; x8f; x0a; xf0; xa6; xae; x9d; x0a;
  xe4; x9b; x90; x0a; xf0; xa6; xb2; xa4;
  x0a; xe7; x94; xbb; x0a; xe8; xa1; xa5;
  x0a; xf0; xa6; xb6; xae; x0a; xe5; xa2;
  xb6; x0a; xe3; x9c; x9c; x0a; xf0; xa2;
  x96; x8d; x0a; xf0; xa7; x81; x8b; x0a;
  xf0; xa7; x87; x8d; x0a; xe3; xb1; x94;
  x0a; xf0; xa7; x8a; x80; x0a; xf0; xa7;
  x8a; x85; x0a; xe9; x8a; x81; x0a; xf0;
  xa2; x85; xba; x0a; xf0; xa7; x8a; x8b;
  x0a; xe9; x8c; xb0; x0a; xf0; xa7; x8b;
  xa6; x0a; xf0; xa4; xa7; x90; x0a; xe6;
  xb0; xb9; x0a; xe9; x92; x9f; x0a; xf0;
  xa7; x91; x90; x0a; xf0; xa0; xbb; xb8;
  x0a; xe8; xa0; xa7; x0a; xe8; xa3; xb5;
  x0a; xf0; xa2; xa4; xa6; x0a; xf0; xa8;
  x91; xb3; x0a; xf0; xa1; x9e; xb1; x0a;
  xe6; xba; xb8; x0a; xf0; xa4; xa8; xaa;
  x0a; xf0; xa1; xa0; xa0; x0a; xe3; xa6;
  xa4; x0a; xe3; x9a; xb9; x0a; xe5; xb0;
  x90; x0a; xe7; xa7; xa3; x0a; xe4; x94
].
(* tests/test_data/whatwg/big5_whatwg_test_decode_out.txt, entries 14336..14591 *)
Definition big5_decode_out_56 : list byte := [
  xbf; x0a; xe6; x9a; xb6; x0a; xf0; xa9;
  xb2; xad; x0a; xf0; xa9; xa2; xa4; x0a;
  xe8; xa5; x83; x0a; xf0; xa7; x9f; x8c;
  x0a; xf0; xa7; xa1; x98; x0a; xe5; x9b;
  x96; x0a; xe4; x83; x9f; x0a; xf0; xa1;
  x98; x8a; x0a; xe3; xa6; xa1; x0a; xf0;
  xa3; x9c; xaf; x0a; xf0; xa8; x83; xa8;
  x0a; xf0; xa1; x8f; x85; x0a; xe7; x86;
  xad; x0a; xe8; x8d; xa6; x0a; xf0; xa7;
  xa7; x9d; x0a; xf0; xa9; x86; xa8; x0a;
  xe5; xa9; xa7; x0a; xe4; xb2; xb7; x0a;
  xf0; xa7; x82; xaf; x0a; xf0; xa8; xa6;
  xab; x0a; xf0; xa7; xa7; xbd; x0a; xf0;
  xa7; xa8; x8a; x0a; xf0; xa7; xac; x8b;
  x0a; xf0; xa7; xb5; xa6; x0a; xf0; xa4;
  x85; xba; x0a; xe7; xad; x83; x0a; xe7;
  xa5; xbe; x0a; xf0; xa8; x80; x89; x0a;
  xe6; xbe; xb5; x0a; xf0; xaa; x8b; x9f;
  x0a; xe6; xa8; x83; x0a; xf0; xa8; x8c;
  x98; x0a; xe5; x8e; xa2; x0a; xf0; xa6;
  xb8; x87; x0a; xe9; x8e; xbf; x0a; xe6;
  xa0; xb6; x0a; xe9; x9d; x9d; x0a; xf0;
  xa8; x85; xaf; x0a; xf0; xa8; x80; xa3;
  x0a; xf0; xa6; xa6; xb5; x0a; xf0; xa1;
  x8f; xad; x0a; xf0; xa3; x88; xaf; x0a;
  xf0; xa8; x81; x88; x0a; xe5; xb6; x85;
  x0a; xf0; xa8; xb0; xb0; x0a; xf0; xa8;
  x82; x83; x0a; xe5; x9c; x95; x0a; xe9;
  xa0; xa3; x0a; xf0; xa8; xa5; x89; x0a;
  xe5; xb6; xab; x0a; xf0; xa4; xa6; x88;
  x0a; xe6; x96; xbe; x0a; xe6; xa7; x95;
  x0a; xe5; x8f; x92; x0a; xf0; xa4; xaa
].
(* tests/test_data/whatwg/big5_whatwg_test_decode_out.txt, entries 14592..14847 *)
Definition big5_decode_out_57 : list byte := [
  xa5; x0a; xf0; xa3; xbe; x81; x0a; xe3;
  xb0; x91; x0a; xe6; x9c; xb6; x0a; xf0;
  xa8; x82; x90; x0a; xf0; xa8; x83; xb4;
  x0a; xf0; xa8; x84; xae; x0a; xf0; xa1;
  xbe; xa1; x0a; xf0; xa8; x85; x8f; x0a;
  xf0; xa8; x86; x89; x0a; xf0; xa8; x86;
  xaf; x0a; xf0; xa8; x88; x9a; x0a; xf0;
  xa8; x8c; x86; x0a; xf0; xa8; x8c; xaf;
  x0a; xf0; xa8; x8e; x8a; x0a; xe3; x97;
  x8a; x0a; xf0; xa8; x91; xa8; x0a; xf0;
  xa8; x9a; xaa; x0a; xe4; xa3; xba; x0a;
  xe6; x8f; xa6; x0a; xf0; xa8; xa5; x96;
  x0a; xe7; xa0; x88; x0a; xe9; x89; x95;
  x0a; xf0; xa8; xa6; xb8; x0a; xe4; x8f;
  xb2; x0a; xf0; xa8; xa7; xa7; x0a; xe4;
  x8f; x9f; x0a; xf0; xa8; xa7; xa8; x0a;
  xf0; xa8; xad; x86; x0a; xf0; xa8; xaf;
  x94; x0a; xe5; xa7; xb8; x0a; xf0; xa8;
  xb0; x89; x0a; xe8; xbc; x8b; x0a; xf0;
  xa8; xbf; x85; x0a; xf0; xa9; x83; xac;
  x0a; xe7; xad; x91; x0a; xf0; xa9; x84;
  x90; x0a; xf0; xa9; x84; xbc; x0a; xe3;
  xb7; xb7; x0a; xf0; xa9; x85; x9e; x0a;
  xf0; xa4; xab; x8a; x0a; xe8; xbf; x90;
  x0a; xe7; x8a; x8f; x0a; xe5; x9a; x8b;
  x0a; xf0; xa9; x93; xa7; x0a; xf0; xa9;
  x97; xa9; x0a; xf0; xa9; x96; xb0; x0a;
  xf0; xa9; x96; xb8; x0a; xf0; xa9; x9c;
  xb2; x0a; xf0; xa9; xa3; x91; x0a; xf0;
  xa9; xa5; x89; x0a; xf0; xa9; xa5; xaa;
  x0a; xf0; xa9; xa7; x83; x0a; xf0; xa9;
  xa8; xa8; x0a; xf0; xa9; xac; x8e; x0a
].
(* tests/test_data/whatwg/big5_whatwg_test_decode_out.txt, entries 14848..15103 *)
Definition big5_decode_out_58 : list byte := [
  xf0; xa9; xb5; x9a; x0a; xf0; xa9; xb6;
  x9b; x0a; xe7; xba; x9f; x0a; xf0; xa9;
  xbb; xb8; x0a; xf0; xa9; xbc; xa3; x0a;
  xe4; xb2; xa4; x0a; xe9; x95; x87; x0a;
  xf0; xaa; x8a; x93; x0a; xe7; x86; xa2;
  x0a; xf0; xaa; x8b; xbf; x0a; xe4; xb6;
  x91; x0a; xe9; x80; x92; x0a; xf0; xaa;
  x97; x8b; x0a; xe4; xb6; x9c; x0a; xf0;
  xa0; xb2; x9c; x0a; xe8; xbe; xbe; x0a;
  xe5; x97; x81; x0a; xe8; xbe; xba; x0a;
  xf0; xa2; x92; xb0; x0a; xe8; xbe; xb9;
  x0a; xf0; xa4; xaa; x93; x0a; xe4; x94;
  x89; x0a; xe7; xb9; xbf; x0a; xe6; xbd;
  x96; x0a; xe6; xaa; xb1; x0a; xe4; xbb;
  xaa; x0a; xe3; x93; xa4; x0a; xf0; xa8;
  xac; xac; x0a; xf0; xa7; xa2; x9d; x0a;
  xe3; x9c; xba; x0a; xe8; xba; x80; x0a;
  xf0; xa1; x9f; xb5; x0a; xf0; xa8; x80;
  xa4; x0a; xf0; xa8; xad; xac; x0a; xf0;
  xa8; xae; x99; x0a; xf0; xa7; xa8; xbe;
  x0a; xf0; xa6; x9a; xaf; x0a; xe3; xb7;
  xab; x0a; xf0; xa7; x99; x95; x0a; xf0;
  xa3; xb2; xb7; x0a; xf0; xa5; x98; xb5;
  x0a; xf0; xa5; xa5; x96; x0a; xe4; xba;
  x9a; x0a; xf0; xa5; xba; x81; x0a; xf0;
  xa6; x89; x98; x0a; xe5; x9a; xbf; x0a;
  xf0; xa0; xb9; xad; x0a; xe8; xb8; x8e;
  x0a; xe5; xad; xad; x0a; xf0; xa3; xba;
  x88; x0a; xf0; xa4; xb2; x9e; x0a; xe6;
  x8f; x9e; x0a; xe6; x8b; x90; x0a; xf0;
  xa1; x9f; xb6; x0a; xf0; xa1; xa1; xbb;
  x0a; xe6; x94; xb0; x0a; xe5; x98; xad
].
(* tests/test_data/whatwg/big5_whatwg_test_decode_out.txt, entries 15104..15359 *)
Definition big5_decode_out_59 : list byte := [
  x0a; xf0; xa5; xb1; x8a; x0a; xe5; x90;
  x9a; x0a; xf0; xa5; x8c; x91; x0a; xe3;
  xb7; x86; x0a; xf0; xa9; xb6; x98; x0a;
  xe4; xb1; xbd; x0a; xe5; x98; xa2; x0a;
  xe5; x98; x9e; x0a; xe7; xbd; x89; x0a;
  xf0; xa5; xbb; x98; x0a; xe5; xa5; xb5;
  x0a; xf0; xa3; xb5; x80; x0a; xe8; x9d;
  xb0; x0a; xe4; xb8; x9c; x0a; xf0; xa0;
  xbf; xaa; x0a; xf0; xa0; xb5; x89; x0a;
  xf0; xa3; x9a; xba; x0a; xe8; x84; x97;
  x0a; xe9; xb5; x9e; x0a; xe8; xb4; x98;
  x0a; xe7; x98; xbb; x0a; xe9; xb1; x85;
  x0a; xe7; x99; x8e; x0a; xe7; x9e; xb9;
  x0a; xe9; x8d; x85; x0a; xe5; x90; xb2;
  x0a; xe8; x85; x88; x0a; xe8; x8b; xb7;
  x0a; xe5; x98; xa5; x0a; xe8; x84; xb2;
  x0a; xe8; x90; x98; x0a; xe8; x82; xbd;
  x0a; xe5; x97; xaa; x0a; xe7; xa5; xa2;
  x0a; xe5; x99; x83; x0a; xe5; x90; x96;
  x0a; xf0; xa0; xba; x9d; x0a; xe3; x97;
  x8e; x0a; xe5; x98; x85; x0a; xe5; x97;
  xb1; x0a; xe6; x9b; xb1; x0a; xf0; xa8;
  x8b; xa2; x0a; xe3; x98; xad; x0a; xe7;
  x94; xb4; x0a; xe5; x97; xb0; x0a; xe5;
  x96; xba; x0a; xe5; x92; x97; x0a; xe5;
  x95; xb2; x0a; xf0; xa0; xb1; x81; x0a;
  xf0; xa0; xb2; x96; x0a; xe5; xbb; x90;
  x0a; xf0; xa5; x85; x88; x0a; xf0; xa0;
  xb9; xb6; x0a; xf0; xa2; xb1; xa2; x0a;
  xf0; xa0; xba; xa2; x0a; xe9; xba; xab;
  x0a; xe7; xb5; x9a; x0a; xe5; x97; x9e;
  x0a; xf0; xa1; x81; xb5; x0a; xe6; x8a
].
(* tests/test_data/whatwg/big5_whatwg_test_decode_out.txt, entries 15360..15615 *)
Definition big5_decode_out_60 : list byte := [
  x9d; x0a; xe9; x9d; xad; x0a; xe5; x92;
  x94; x0a; xe8; xb3; x8d; x0a; xe7; x87;
  xb6; x0a; xe9; x85; xb6; x0a; xe6; x8f;
  xbc; x0a; xe6; x8e; xb9; x0a; xe6; x8f;
  xbe; x0a; xe5; x95; xa9; x0a; xf0; xa2;
  xad; x83; x0a; xe9; xb1; xb2; x0a; xf0;
  xa2; xba; xb3; x0a; xe5; x86; x9a; x0a;
  xe3; x93; x9f; x0a; xf0; xa0; xb6; xa7;
  x0a; xe5; x86; xa7; x0a; xe5; x91; x8d;
  x0a; xe5; x94; x9e; x0a; xe5; x94; x93;
  x0a; xe7; x99; xa6; x0a; xe8; xb8; xad;
  x0a; xf0; xa6; xa2; x8a; x0a; xe7; x96;
  xb1; x0a; xe8; x82; xb6; x0a; xe8; xa0;
  x84; x0a; xe8; x9e; x86; x0a; xe8; xa3;
  x87; x0a; xe8; x86; xb6; x0a; xe8; x90;
  x9c; x0a; xf0; xa1; x83; x81; x0a; xe4;
  x93; xac; x0a; xe7; x8c; x84; x0a; xf0;
  xa4; x9c; x86; x0a; xe5; xae; x90; x0a;
  xe8; x8c; x8b; x0a; xf0; xa6; xa2; x93;
  x0a; xe5; x99; xbb; x0a; xf0; xa2; x9b;
  xb4; x0a; xf0; xa7; xb4; xaf; x0a; xf0;
  xa4; x86; xa3; x0a; xf0; xa7; xb5; xb3;
  x0a; xf0; xa6; xbb; x90; x0a; xf0; xa7;
  x8a; xb6; x0a; xe9; x85; xb0; x0a; xf0;
  xa1; x87; x99; x0a; xe9; x88; x88; x0a;
  xf0; xa3; xb3; xbc; x0a; xf0; xaa; x9a;
  xa9; x0a; xf0; xa0; xba; xac; x0a; xf0;
  xa0; xbb; xb9; x0a; xe7; x89; xa6; x0a;
  xf0; xa1; xb2; xa2; x0a; xe4; x9d; x8e;
  x0a; xf0; xa4; xbf; x82; x0a; xf0; xa7;
  xbf; xb9; x0a; xf0; xa0; xbf; xab; x0a;
  xe4; x83; xba; x0a; xe9; xb1; x9d; x0a
].
(* tests/test_data/whatwg/big5_whatwg_test_decode_out.txt, entries 15616..15871 *)
Definition big5_decode_out_61 : list byte := [
  xe6; x94; x9f; x0a; xf0; xa2; xb6; xa0;
  x0a; xe4; xa3; xb3; x0a; xf0; xa4; x9f;
  xa0; x0a; xf0; xa9; xb5; xbc; x0a; xf0;
  xa0; xbf; xac; x0a; xf0; xa0; xb8; x8a;
  x0a; xe6; x81; xa2; x0a; xf0; xa7; x96;
  xa3; x0a; xf0; xa0; xbf; xad; x0a; xf0;
  xa6; x81; x88; x0a; xf0; xa1; x86; x87;
  x0a; xe7; x86; xa3; x0a; xe7; xba; x8e;
  x0a; xe9; xb5; x90; x0a; xe4; xb8; x9a;
  x0a; xe4; xb8; x84; x0a; xe3; x95; xb7;
  x0a; xe5; xac; x8d; x0a; xe6; xb2; xb2;
  x0a; xe5; x8d; xa7; x0a; xe3; x9a; xac;
  x0a; xe3; xa7; x9c; x0a; xe5; x8d; xbd;
  x0a; xe3; x9a; xa5; x0a; xf0; xa4; x98;
  x98; x0a; xe5; xa2; x9a; x0a; xf0; xa4;
  xad; xae; x0a; xe8; x88; xad; x0a; xe5;
  x91; x8b; x0a; xe5; x9e; xaa; x0a; xf0;
  xa5; xaa; x95; x0a; xf0; xa0; xa5; xb9;
  x0a; xe3; xa9; x92; x0a; xf0; xa2; x91;
  xa5; x0a; xe7; x8d; xb4; x0a; xf0; xa9;
  xba; xac; x0a; xe4; xb4; x89; x0a; xe9;
  xaf; xad; x0a; xf0; xa3; xb3; xbe; x0a;
  xf0; xa9; xbc; xb0; x0a; xe4; xb1; x9b;
  x0a; xf0; xa4; xbe; xa9; x0a; xf0; xa9;
  x96; x9e; x0a; xf0; xa9; xbf; x9e; x0a;
  xe8; x91; x9c; x0a; xf0; xa3; xb6; xb6;
  x0a; xf0; xa7; x8a; xb2; x0a; xf0; xa6;
  x9e; xb3; x0a; xf0; xa3; x9c; xa0; x0a;
  xe6; x8c; xae; x0a; xe7; xb4; xa5; x0a;
  xf0; xa3; xbb; xb7; x0a; xf0; xa3; xb8;
  xac; x0a; xe3; xa8; xaa; x0a; xe9; x80;
  x88; x0a; xe5; x8b; x8c; x0a; xe3; xb9
].
(* tests/test_data/whatwg/big5_whatwg_test_decode_out.txt, entries 15872..16127 *)
Definition big5_decode_out_62 : list byte := [
  xb4; x0a; xe3; x99; xba; x0a; xe4; x97;
  xa9; x0a; xf0; xa0; x92; x8e; x0a; xe7;
  x99; x80; x0a; xe5; xab; xb0; x0a; xf0;
  xa0; xba; xb6; x0a; xe7; xa1; xba; x0a;
  xf0; xa7; xbc; xae; x0a; xe5; xa2; xa7;
  x0a; xe4; x82; xbf; x0a; xe5; x99; xbc;
  x0a; xe9; xae; x8b; x0a; xe5; xb5; xb4;
  x0a; xe7; x99; x94; x0a; xf0; xaa; x90;
  xb4; x0a; xe9; xba; x85; x0a; xe4; xb3;
  xa1; x0a; xe7; x97; xb9; x0a; xe3; x9f;
  xbb; x0a; xe6; x84; x99; x0a; xf0; xa3;
  x83; x9a; x0a; xf0; xa4; x8f; xb2; x0a;
  xe5; x99; x9d; x0a; xf0; xa1; x8a; xa9;
  x0a; xe5; x9e; xa7; x0a; xf0; xa4; xa5;
  xa3; x0a; xf0; xa9; xb8; x86; x0a; xe5;
  x88; xb4; x0a; xf0; xa7; x82; xae; x0a;
  xe3; x96; xad; x0a; xe6; xb1; x8a; x0a;
  xe9; xb5; xbc; x0a; xe7; xb1; x96; x0a;
  xe9; xac; xb9; x0a; xe5; x9f; x9e; x0a;
  xf0; xa1; x9d; xac; x0a; xe5; xb1; x93;
  x0a; xe6; x93; x93; x0a; xf0; xa9; x93;
  x90; x0a; xf0; xa6; x8c; xb5; x0a; xf0;
  xa7; x85; xa4; x0a; xe8; x9a; xad; x0a;
  xf0; xa0; xb4; xa8; x0a; xf0; xa6; xb4;
  xa2; x0a; xf0; xa4; xab; xa2; x0a; xf0;
  xa0; xb5; xb1; x0a; xe5; x87; xbe; x0a;
  xf0; xa1; xbc; x8f; x0a; xe5; xb6; x8e;
  x0a; xe9; x9c; x83; x0a; xf0; xa1; xb7;
  x91; x0a; xe9; xba; x81; x0a; xe9; x81;
  x8c; x0a; xe7; xac; x9f; x0a; xe9; xac;
  x82; x0a; xe5; xb3; x91; x0a; xe7; xae;
  xa3; x0a; xe6; x89; xa8; x0a; xe6; x8c
].
(* tests/test_data/whatwg/big5_whatwg_test_decode_out.txt, entries 16128..16383 *)
Definition big5_decode_out_63 : list byte := [
  xb5; x0a; xe9; xab; xbf; x0a; xe7; xaf;
  x8f; x0a; xe9; xac; xaa; x0a; xe7; xb1;
  xbe; x0a; xe9; xac; xae; x0a; xe7; xb1;
  x82; x0a; xe7; xb2; x86; x0a; xe9; xb0;
  x95; x0a; xe7; xaf; xbc; x0a; xe9; xac;
  x89; x0a; xe9; xbc; x97; x0a; xe9; xb0;
  x9b; x0a; xf0; xa4; xa4; xbe; x0a; xe9;
  xbd; x9a; x0a; xe5; x95; xb3; x0a; xe5;
  xaf; x83; x0a; xe4; xbf; xbd; x0a; xe9;
  xba; x98; x0a; xe4; xbf; xb2; x0a; xe5;
  x89; xa0; x0a; xe3; xb8; x86; x0a; xe5;
  x8b; x91; x0a; xe5; x9d; xa7; x0a; xe5;
  x81; x96; x0a; xe5; xa6; xb7; x0a; xe5;
  xb8; x92; x0a; xe9; x9f; x88; x0a; xe9;
  xb6; xab; x0a; xe8; xbd; x9c; x0a; xe5;
  x91; xa9; x0a; xe9; x9e; xb4; x0a; xe9;
  xa5; x80; x0a; xe9; x9e; xba; x0a; xe5;
  x8c; xac; x0a; xe6; x84; xb0; x0a; xe6;
  xa4; xac; x0a; xe5; x8f; x9a; x0a; xe9;
  xb0; x8a; x0a; xe9; xb4; x82; x0a; xe4;
  xb0; xbb; x0a; xe9; x99; x81; x0a; xe6;
  xa6; x80; x0a; xe5; x82; xa6; x0a; xe7;
  x95; x86; x0a; xf0; xa1; x9d; xad; x0a;
  xe9; xa7; x9a; x0a; xe5; x89; xb3; x0a;
  xe9; x85; x99; x0a; xe9; x9a; x81; x0a;
  xe9; x85; x9c; x0a; xe9; x85; x91; x0a;
  xf0; xa8; xba; x97; x0a; xe6; x8d; xbf;
  x0a; xf0; xa6; xb4; xa3; x0a; xe6; xab;
  x8a; x0a; xe5; x98; x91; x0a; xe9; x86;
  x8e; x0a; xe7; x95; xba; x0a; xe6; x8a;
  x85; x0a; xf0; xa0; x8f; xbc; x0a; xe7;
  x8d; x8f; x0a; xe7; xb1; xb0; x0a; xf0
].
(* tests/test_data/whatwg/big5_whatwg_test_decode_out.txt, entries 16384..16639 *)
Definition big5_decode_out_64 : list byte := [
  xa5; xb0; xa1; x0a; xf0; xa3; xb3; xbd;
  x0a; xf0; xa4; xa4; x99; x0a; xe7; x9b;
  x96; x0a; xe9; xae; x9d; x0a; xe4; xb8;
  xaa; x0a; xf0; xa0; xb3; x94; x0a; xe8;
  x8e; xbe; x0a; xe8; xa1; x82; x0a; xe5;
  xb1; x8a; x0a; xe6; xa7; x80; x0a; xe5;
  x83; xad; x0a; xe5; x9d; xba; x0a; xe5;
  x88; x9f; x0a; xe5; xb7; xb5; x0a; xe4;
  xbb; x8e; x0a; xe6; xb0; xb1; x0a; xf0;
  xa0; x87; xb2; x0a; xe4; xbc; xb9; x0a;
  xe5; x92; x9c; x0a; xe5; x93; x9a; x0a;
  xe5; x8a; x9a; x0a; xe8; xb6; x82; x0a;
  xe3; x97; xbe; x0a; xe5; xbc; x8c; x0a;
  xe3; x97; xb3; x0a; xe6; xad; x92; x0a;
  xe9; x85; xbc; x0a; xe9; xbe; xa5; x0a;
  xe9; xae; x97; x0a; xe9; xa0; xae; x0a;
  xe9; xa2; xb4; x0a; xe9; xaa; xba; x0a;
  xe9; xba; xa8; x0a; xe9; xba; x84; x0a;
  xe7; x85; xba; x0a; xe7; xac; x94; x0a;
  xe6; xaf; xba; x0a; xe8; xa0; x98; x0a;
  xe7; xbd; xb8; x0a; xe5; x98; xa0; x0a;
  xf0; xaa; x99; x8a; x0a; xe8; xb9; xb7;
  x0a; xe9; xbd; x93; x0a; xe8; xb7; x94;
  x0a; xe8; xb9; x8f; x0a; xe9; xb8; x9c;
  x0a; xe8; xb8; x81; x0a; xe6; x8a; x82;
  x0a; xf0; xa8; x8d; xbd; x0a; xe8; xb8;
  xa8; x0a; xe8; xb9; xb5; x0a; xe7; xab;
  x93; x0a; xf0; xa4; xa9; xb7; x0a; xe7;
  xa8; xbe; x0a; xe7; xa3; x98; x0a; xe6;
  xb3; xaa; x0a; xe8; xa9; xa7; x0a; xe7;
  x98; x87; x0a; xf0; xa8; xa9; x9a; x0a;
  xe9; xbc; xa6; x0a; xe6; xb3; x8e; x0a
].
(* tests/test_data/whatwg/big5_whatwg_test_decode_out.txt, entries 16640..16895 *)
Definition big5_decode_out_65 : list byte := [
  xe8; x9f; x96; x0a; xe7; x97; x83; x0a;
  xf0; xaa; x8a; xb2; x0a; xe7; xa1; x93;
  x0a; xf0; xaf; xa1; x80; x0a; xe8; xb4;
  x8c; x0a; xe7; x8b; xa2; x0a; xe7; x8d;
  xb1; x0a; xe8; xac; xad; x0a; xe7; x8c;
  x82; x0a; xe7; x93; xb1; x0a; xe8; xb3;
  xab; x0a; xf0; xa4; xaa; xbb; x0a; xe8;
  x98; xaf; x0a; xe5; xbe; xba; x0a; xe8;
  xa2; xa0; x0a; xe4; x92; xb7; x0a; xf0;
  xa1; xa0; xbb; x0a; xf0; xa6; xb8; x85;
  x0a; xe8; xa9; xbe; x0a; xf0; xa2; x94;
  x9b; x0a; xe6; x83; xbd; x0a; xe7; x99;
  xa7; x0a; xe9; xab; x97; x0a; xe9; xb5;
  x84; x0a; xe9; x8d; xae; x0a; xe9; xae;
  x8f; x0a; xe8; x9f; xb5; x0a; xe8; xa0;
  x8f; x0a; xe8; xb3; xb7; x0a; xe7; x8c;
  xac; x0a; xe9; x9c; xa1; x0a; xe9; xae;
  xb0; x0a; xe3; x97; x96; x0a; xe7; x8a;
  xb2; x0a; xe4; xb0; x87; x0a; xe7; xb1;
  x91; x0a; xe9; xa5; x8a; x0a; xf0; xa6;
  x85; x99; x0a; xe6; x85; x99; x0a; xe4;
  xb0; x84; x0a; xe9; xba; x96; x0a; xe6;
  x85; xbd; x0a; xe5; x9d; x9f; x0a; xe6;
  x85; xaf; x0a; xe6; x8a; xa6; x0a; xe6;
  x88; xb9; x0a; xe6; x8b; x8e; x0a; xe3;
  xa9; x9c; x0a; xe6; x87; xa2; x0a; xe5;
  x8e; xaa; x0a; xf0; xa3; x8f; xb5; x0a;
  xe6; x8d; xa4; x0a; xe6; xa0; x82; x0a;
  xe3; x97; x92; x0a; xe5; xb5; x97; x0a;
  xf0; xa8; xaf; x82; x0a; xe8; xbf; x9a;
  x0a; xf0; xa8; xb8; xb9; x0a; xe5; x83;
  x99; x0a; xf0; xa1; xb5; x86; x0a; xe7
].
(* tests/test_data/whatwg/big5_whatwg_test_decode_out.txt, entries 16896..17151 *)
Definition big5_decode_out_66 : list byte := [
  xa4; x86; x0a; xe5; x8c; xb2; x0a; xe9;
  x98; xb8; x0a; xf0; xa0; xbc; xbb; x0a;
  xe4; x81; xa5; x0a; xe7; x9f; xbe; x0a;
  xe7; xb3; x82; x0a; xf0; xa5; xbc; x9a;
  x0a; xe7; xb3; x9a; x0a; xe7; xa8; xad;
  x0a; xe8; x81; xa6; x0a; xe8; x81; xa3;
  x0a; xe7; xb5; x8d; x0a; xe7; x94; x85;
  x0a; xe7; x93; xb2; x0a; xe8; xa6; x94;
  x0a; xe8; x88; x9a; x0a; xe6; x9c; x8c;
  x0a; xe8; x81; xa2; x0a; xf0; xa7; x92;
  x86; x0a; xe8; x81; x9b; x0a; xe7; x93;
  xb0; x0a; xe8; x84; x83; x0a; xe7; x9c;
  xa4; x0a; xe8; xa6; x89; x0a; xf0; xa6;
  x9f; x8c; x0a; xe7; x95; x93; x0a; xf0;
  xa6; xbb; x91; x0a; xe8; x9e; xa9; x0a;
  xe8; x9f; x8e; x0a; xe8; x87; x88; x0a;
  xe8; x9e; x8c; x0a; xe8; xa9; x89; x0a;
  xe8; xb2; xad; x0a; xe8; xad; x83; x0a;
  xe7; x9c; xab; x0a; xe7; x93; xb8; x0a;
  xe8; x93; x9a; x0a; xe3; x98; xb5; x0a;
  xe6; xa6; xb2; x0a; xe8; xb6; xa6; x0a;
  xe8; xa6; xa9; x0a; xe7; x91; xa8; x0a;
  xe6; xb6; xb9; x0a; xe8; x9f; x81; x0a;
  xf0; xa4; x80; x91; x0a; xe7; x93; xa7;
  x0a; xe3; xb7; x9b; x0a; xe7; x85; xb6;
  x0a; xe6; x82; xa4; x0a; xe6; x86; x9c;
  x0a; xe3; xb3; x91; x0a; xe7; x85; xa2;
  x0a; xe6; x81; xb7; x0a; xe7; xbd; xb1;
  x0a; xf0; xa8; xac; xad; x0a; xe7; x89;
  x90; x0a; xe6; x83; xa9; x0a; xe4; xad;
  xbe; x0a; xe5; x88; xa0; x0a; xe3; xb0;
  x98; x0a; xf0; xa3; xb3; x87; x0a; xf0
].
(* tests/test_data/whatwg/big5_whatwg_test_decode_out.txt, entries 17152..17407 *)
Definition big5_decode_out_67 : list byte := [
  xa5; xbb; x97; x0a; xf0; xa7; x99; x96;
  x0a; xf0; xa5; x94; xb1; x0a; xf0; xa1;
  xa5; x84; x0a; xf0; xa1; x8b; xbe; x0a;
  xf0; xa9; xa4; x83; x0a; xf0; xa6; xb7;
  x9c; x0a; xf0; xa7; x82; xad; x0a; xe5;
  xb3; x81; x0a; xf0; xa6; x86; xad; x0a;
  xf0; xa8; xa8; x8f; x0a; xf0; xa3; x99;
  xb7; x0a; xf0; xa0; x83; xae; x0a; xf0;
  xa6; xa1; x86; x0a; xf0; xa4; xbc; x8e;
  x0a; xe4; x95; xa2; x0a; xe5; xac; x9f;
  x0a; xf0; xa6; x8d; x8c; x0a; xe9; xbd;
  x90; x0a; xe9; xba; xa6; x0a; xf0; xa6;
  x89; xab; x0a; xe3; x80; x80; x0a; xef;
  xbc; x8c; x0a; xe3; x80; x81; x0a; xe3;
  x80; x82; x0a; xef; xbc; x8e; x0a; xe2;
  x80; xa7; x0a; xef; xbc; x9b; x0a; xef;
  xbc; x9a; x0a; xef; xbc; x9f; x0a; xef;
  xbc; x81; x0a; xef; xb8; xb0; x0a; xe2;
  x80; xa6; x0a; xe2; x80; xa5; x0a; xef;
  xb9; x90; x0a; xef; xb9; x91; x0a; xef;
  xb9; x92; x0a; xc2; xb7; x0a; xef; xb9;
  x94; x0a; xef; xb9; x95; x0a; xef; xb9;
  x96; x0a; xef; xb9; x97; x0a; xef; xbd;
  x9c; x0a; xe2; x80; x93; x0a; xef; xb8;
  xb1; x0a; xe2; x80; x94; x0a; xef; xb8;
  xb3; x0a; xe2; x95; xb4; x0a; xef; xb8;
  xb4; x0a; xef; xb9; x8f; x0a; xef; xbc;
  x88; x0a; xef; xbc; x89; x0a; xef; xb8;
  xb5; x0a; xef; xb8; xb6; x0a; xef; xbd;
  x9b; x0a; xef; xbd; x9d; x0a; xef; xb8;
  xb7; x0a; xef; xb8; xb8; x0a; xe3; x80;
  x94; x0a; xe3; x80; x95; x0a; xef; xb8
].
(* tests/test_data/whatwg/big5_whatwg_test_decode_out.txt, entries 17408..17663 *)
Definition big5_decode_out_68 : list byte := [
  xb9; x0a; xef; xb8; xba; x0a; xe3; x80;
  x90; x0a; xe3; x80; x91; x0a; xef; xb8;
  xbb; x0a; xef; xb8; xbc; x0a; xe3; x80;
  x8a; x0a; xe3; x80; x8b; x0a; xef; xb8;
  xbd; x0a; xef; xb8; xbe; x0a; xe3; x80;
  x88; x0a; xe3; x80; x89; x0a; xef; xb8;
  xbf; x0a; xef; xb9; x80; x0a; xe3; x80;
  x8c; x0a; xe3; x80; x8d; x0a; xef; xb9;
  x81; x0a; xef; xb9; x82; x0a; xe3; x80;
  x8e; x0a; xe3; x80; x8f; x0a; xef; xb9;
  x83; x0a; xef; xb9; x84; x0a; xef; xb9;
  x99; x0a; xef; xb9; x9a; x0a; xef; xb9;
  x9b; x0a; xef; xb9; x9c; x0a; xef; xb9;
  x9d; x0a; xef; xb9; x9e; x0a; xe2; x80;
  x98; x0a; xe2; x80; x99; x0a; xe2; x80;
  x9c; x0a; xe2; x80; x9d; x0a; xe3; x80;
  x9d; x0a; xe3; x80; x9e; x0a; xe2; x80;
  xb5; x0a; xe2; x80; xb2; x0a; xef; xbc;
  x83; x0a; xef; xbc; x86; x0a; xef; xbc;
  x8a; x0a; xe2; x80; xbb; x0a; xc2; xa7;
  x0a; xe3; x80; x83; x0a; xe2; x97; x8b;
  x0a; xe2; x97; x8f; x0a; xe2; x96; xb3;
  x0a; xe2; x96; xb2; x0a; xe2; x97; x8e;
  x0a; xe2; x98; x86; x0a; xe2; x98; x85;
  x0a; xe2; x97; x87; x0a; xe2; x97; x86;
  x0a; xe2; x96; xa1; x0a; xe2; x96; xa0;
  x0a; xe2; x96; xbd; x0a; xe2; x96; xbc;
  x0a; xe3; x8a; xa3; x0a; xe2; x84; x85;
  x0a; xc2; xaf; x0a; xef; xbf; xa3; x0a;
  xef; xbc; xbf; x0a; xcb; x8d; x0a; xef;
  xb9; x89; x0a; xef; xb9; x8a; x0a; xef;
  xb9; x8d; x0a; xef; xb9; x8e; x0a; xef
].
(* tests/test_data/whatwg/big5_whatwg_test_decode_out.txt, entries 17664..17919 *)
Definition big5_decode_out_69 : list byte := [
  xb9; x8b; x0a; xef; xb9; x8c; x0a; xef;
  xb9; x9f; x0a; xef; xb9; xa0; x0a; xef;
  xb9; xa1; x0a; xef; xbc; x8b; x0a; xef;
  xbc; x8d; x0a; xc3; x97; x0a; xc3; xb7;
  x0a; xc2; xb1; x0a; xe2; x88; x9a; x0a;
  xef; xbc; x9c; x0a; xef; xbc; x9e; x0a;
  xef; xbc; x9d; x0a; xe2; x89; xa6; x0a;
  xe2; x89; xa7; x0a; xe2; x89; xa0; x0a;
  xe2; x88; x9e; x0a; xe2; x89; x92; x0a;
  xe2; x89; xa1; x0a; xef; xb9; xa2; x0a;
  xef; xb9; xa3; x0a; xef; xb9; xa4; x0a;
  xef; xb9; xa5; x0a; xef; xb9; xa6; x0a;
  xef; xbd; x9e; x0a; xe2; x88; xa9; x0a;
  xe2; x88; xaa; x0a; xe2; x8a; xa5; x0a;
  xe2; x88; xa0; x0a; xe2; x88; x9f; x0a;
  xe2; x8a; xbf; x0a; xe3; x8f; x92; x0a;
  xe3; x8f; x91; x0a; xe2; x88; xab; x0a;
  xe2; x88; xae; x0a; xe2; x88; xb5; x0a;
  xe2; x88; xb4; x0a; xe2; x99; x80; x0a;
  xe2; x99; x82; x0a; xe2; x8a; x95; x0a;
  xe2; x8a; x99; x0a; xe2; x86; x91; x0a;
  xe2; x86; x93; x0a; xe2; x86; x90; x0a;
  xe2; x86; x92; x0a; xe2; x86; x96; x0a;
  xe2; x86; x97; x0a; xe2; x86; x99; x0a;
  xe2; x86; x98; x0a; xe2; x88; xa5; x0a;
  xe2; x88; xa3; x0a; xef; xbc; x8f; x0a;
  xef; xbc; xbc; x0a; xe2; x88; x95; x0a;
  xef; xb9; xa8; x0a; xef; xbc; x84; x0a;
  xef; xbf; xa5; x0a; xe3; x80; x92; x0a;
  xef; xbf; xa0; x0a; xef; xbf; xa1; x0a;
  xef; xbc; x85; x0a; xef; xbc; xa0; x0a;
  xe2; x84; x83; x0a; xe2; x84; x89; x0a
].
(* tests/test_data/whatwg/big5_whatwg_test_decode_out.txt, entries 17920..18175 *)
Definition big5_decode_out_70 : list byte := [
  xef; xb9; xa9; x0a; xef; xb9; xaa; x0a;
  xef; xb9; xab; x0a; xe3; x8f; x95; x0a;
  xe3; x8e; x9c; x0a; xe3; x8e; x9d; x0a;
  xe3; x8e; x9e; x0a; xe3; x8f; x8e; x0a;
  xe3; x8e; xa1; x0a; xe3; x8e; x8e; x0a;
  xe3; x8e; x8f; x0a; xe3; x8f; x84; x0a;
  xc2; xb0; x0a; xe5; x85; x99; x0a; xe5;
  x85; x9b; x0a; xe5; x85; x9e; x0a; xe5;
  x85; x9d; x0a; xe5; x85; xa1; x0a; xe5;
  x85; xa3; x0a; xe5; x97; xa7; x0a; xe7;
  x93; xa9; x0a; xe7; xb3; x8e; x0a; xe2;
  x96; x81; x0a; xe2; x96; x82; x0a; xe2;
  x96; x83; x0a; xe2; x96; x84; x0a; xe2;
  x96; x85; x0a; xe2; x96; x86; x0a; xe2;
  x96; x87; x0a; xe2; x96; x88; x0a; xe2;
  x96; x8f; x0a; xe2; x96; x8e; x0a; xe2;
  x96; x8d; x0a; xe2; x96; x8c; x0a; xe2;
  x96; x8b; x0a; xe2; x96; x8a; x0a; xe2;
  x96; x89; x0a; xe2; x94; xbc; x0a; xe2;
  x94; xb4; x0a; xe2; x94; xac; x0a; xe2;
  x94; xa4; x0a; xe2; x94; x9c; x0a; xe2;
  x96; x94; x0a; xe2; x94; x80; x0a; xe2;
  x94; x82; x0a; xe2; x96; x95; x0a; xe2;
  x94; x8c; x0a; xe2; x94; x90; x0a; xe2;
  x94; x94; x0a; xe2; x94; x98; x0a; xe2;
  x95; xad; x0a; xe2; x95; xae; x0a; xe2;
  x95; xb0; x0a; xe2; x95; xaf; x0a; xe2;
  x95; x90; x0a; xe2; x95; x9e; x0a; xe2;
  x95; xaa; x0a; xe2; x95; xa1; x0a; xe2;
  x97; xa2; x0a; xe2; x97; xa3; x0a; xe2;
  x97; xa5; x0a; xe2; x97; xa4; x0a; xe2;
  x95; xb1; x0a; xe2; x95; xb2; x0a; xe2
].
(* tests/test_data/whatwg/big5_whatwg_test_decode_out.txt, entries 18176..18431 *)
Definition big5_decode_out_71 : list byte := [
  x95; xb3; x0a; xef; xbc; x90; x0a; xef;
  xbc; x91; x0a; xef; xbc; x92; x0a; xef;
  xbc; x93; x0a; xef; xbc; x94; x0a; xef;
  xbc; x95; x0a; xef; xbc; x96; x0a; xef;
  xbc; x97; x0a; xef; xbc; x98; x0a; xef;
  xbc; x99; x0a; xe2; x85; xa0; x0a; xe2;
  x85; xa1; x0a; xe2; x85; xa2; x0a; xe2;
  x85; xa3; x0a; xe2; x85; xa4; x0a; xe2;
  x85; xa5; x0a; xe2; x85; xa6; x0a; xe2;
  x85; xa7; x0a; xe2; x85; xa8; x0a; xe2;
  x85; xa9; x0a; xe3; x80; xa1; x0a; xe3;
  x80; xa2; x0a; xe3; x80; xa3; x0a; xe3;
  x80; xa4; x0a; xe3; x80; xa5; x0a; xe3;
  x80; xa6; x0a; xe3; x80; xa7; x0a; xe3;
  x80; xa8; x0a; xe3; x80; xa9; x0a; xe5;
  x8d; x81; x0a; xe5; x8d; x84; x0a; xe5;
  x8d; x85; x0a; xef; xbc; xa1; x0a; xef;
  xbc; xa2; x0a; xef; xbc; xa3; x0a; xef;
  xbc; xa4; x0a; xef; xbc; xa5; x0a; xef;
  xbc; xa6; x0a; xef; xbc; xa7; x0a; xef;
  xbc; xa8; x0a; xef; xbc; xa9; x0a; xef;
  xbc; xaa; x0a; xef; xbc; xab; x0a; xef;
  xbc; xac; x0a; xef; xbc; xad; x0a; xef;
  xbc; xae; x0a; xef; xbc; xaf; x0a; xef;
  xbc; xb0; x0a; xef; xbc; xb1; x0a; xef;
  xbc; xb2; x0a; xef; xbc; xb3; x0a; xef;
  xbc; xb4; x0a; xef; xbc; xb5; x0a; xef;
  xbc; xb6; x0a; xef; xbc; xb7; x0a; xef;
  xbc; xb8; x0a; xef; xbc; xb9; x0a; xef;
  xbc; xba; x0a; xef; xbd; x81; x0a; xef;
  xbd; x82; x0a; xef; xbd; x83; x0a; xef;
  xbd; x84; x0a; xef; xbd; x85; x0a; xef
].
(* tests/test_data/whatwg/big5_whatwg_test_decode_out.txt, entries 18432..18687 *)
Definition big5_decode_out_72 : list byte := [
  xbd; x86; x0a; xef; xbd; x87; x0a; xef;
  xbd; x88; x0a; xef; xbd; x89; x0a; xef;
  xbd; x8a; x0a; xef; xbd; x8b; x0a; xef;
  xbd; x8c; x0a; xef; xbd; x8d; x0a; xef;
  xbd; x8e; x0a; xef; xbd; x8f; x0a; xef;
  xbd; x90; x0a; xef; xbd; x91; x0a; xef;
  xbd; x92; x0a; xef; xbd; x93; x0a; xef;
  xbd; x94; x0a; xef; xbd; x95; x0a; xef;
  xbd; x96; x0a; xef; xbd; x97; x0a; xef;
  xbd; x98; x0a; xef; xbd; x99; x0a; xef;
  xbd; x9a; x0a; xce; x91; x0a; xce; x92;
  x0a; xce; x93; x0a; xce; x94; x0a; xce;
  x95; x0a; xce; x96; x0a; xce; x97; x0a;
  xce; x98; x0a; xce; x99; x0a; xce; x9a;
  x0a; xce; x9b; x0a; xce; x9c; x0a; xce;
  x9d; x0a; xce; x9e; x0a; xce; x9f; x0a;
  xce; xa0; x0a; xce; xa1; x0a; xce; xa3;
  x0a; xce; xa4; x0a; xce; xa5; x0a; xce;
  xa6; x0a; xce; xa7; x0a; xce; xa8; x0a;
  xce; xa9; x0a; xce; xb1; x0a; xce; xb2;
  x0a; xce; xb3; x0a; xce; xb4; x0a; xce;
  xb5; x0a; xce; xb6; x0a; xce; xb7; x0a;
  xce; xb8; x0a; xce; xb9; x0a; xce; xba;
  x0a; xce; xbb; x0a; xce; xbc; x0a; xce;
  xbd; x0a; xce; xbe; x0a; xce; xbf; x0a;
  xcf; x80; x0a; xcf; x81; x0a; xcf; x83;
  x0a; xcf; x84; x0a; xcf; x85; x0a; xcf;
  x86; x0a; xcf; x87; x0a; xcf; x88; x0a;
  xcf; x89; x0a; xe3; x84; x85; x0a; xe3;
  x84; x86; x0a; xe3; x84; x87; x0a; xe3;
  x84; x88; x0a; xe3; x84; x89; x0a; xe3;
  x84; x8a; x0a; xe3; x84; x8b; x0a; xe3
].
(* tests/test_data/whatwg/big5_whatwg_test_decode_out.txt, entries 18688..18943 *)
Definition big5_decode_out_73 : list byte := [
  x84; x8c; x0a; xe3; x84; x8d; x0a; xe3;
  x84; x8e; x0a; xe3; x84; x8f; x0a; xe3;
  x84; x90; x0a; xe3; x84; x91; x0a; xe3;
  x84; x92; x0a; xe3; x84; x93; x0a; xe3;
  x84; x94; x0a; xe3; x84; x95; x0a; xe3;
  x84; x96; x0a; xe3; x84; x97; x0a; xe3;
  x84; x98; x0a; xe3; x84; x99; x0a; xe3;
  x84; x9a; x0a; xe3; x84; x9b; x0a; xe3;
  x84; x9c; x0a; xe3; x84; x9d; x0a; xe3;
  x84; x9e; x0a; xe3; x84; x9f; x0a; xe3;
  x84; xa0; x0a; xe3; x84; xa1; x0a; xe3;
  x84; xa2; x0a; xe3; x84; xa3; x0a; xe3;
  x84; xa4; x0a; xe3; x84; xa5; x0a; xe3;
  x84; xa6; x0a; xe3; x84; xa7; x0a; xe3;
  x84; xa8; x0a; xe3; x84; xa9; x0a; xcb;
  x99; x0a; xcb; x89; x0a; xcb; x8a; x0a;
  xcb; x87; x0a; xcb; x8b; x0a; xe2; x90;
  x80; x0a; xe2; x90; x81; x0a; xe2; x90;
  x82; x0a; xe2; x90; x83; x0a; xe2; x90;
  x84; x0a; xe2; x90; x85; x0a; xe2; x90;
  x86; x0a; xe2; x90; x87; x0a; xe2; x90;
  x88; x0a; xe2; x90; x89; x0a; xe2; x90;
  x8a; x0a; xe2; x90; x8b; x0a; xe2; x90;
  x8c; x0a; xe2; x90; x8d; x0a; xe2; x90;
  x8e; x0a; xe2; x90; x8f; x0a; xe2; x90;
  x90; x0a; xe2; x90; x91; x0a; xe2; x90;
  x92; x0a; xe2; x90; x93; x0a; xe2; x90;
  x94; x0a; xe2; x90; x95; x0a; xe2; x90;
  x96; x0a; xe2; x90; x97; x0a; xe2; x90;
  x98; x0a; xe2; x90; x99; x0a; xe2; x90;
  x9a; x0a; xe2; x90; x9b; x0a; xe2; x90;
  x9c; x0a; xe2; x90; x9d; x0a; xe2; x90
].
(* tests/test_data/whatwg/big5_whatwg_test_decode_out.txt, entries 18944..19199 *)
Definition big5_decode_out_74 : list byte := [
  x9e; x0a; xe2; x90; x9f; x0a; xe2; x90;
  xa1; x0a; xe2; x82; xac; x0a; xe4; xb8;
  x80; x0a; xe4; xb9; x99; x0a; xe4; xb8;
  x81; x0a; xe4; xb8; x83; x0a; xe4; xb9;
  x83; x0a; xe4; xb9; x9d; x0a; xe4; xba;
  x86; x0a; xe4; xba; x8c; x0a; xe4; xba;
  xba; x0a; xe5; x84; xbf; x0a; xe5; x85;
  xa5; x0a; xe5; x85; xab; x0a; xe5; x87;
  xa0; x0a; xe5; x88; x80; x0a; xe5; x88;
  x81; x0a; xe5; x8a; x9b; x0a; xe5; x8c;
  x95; x0a; xe5; x8d; x81; x0a; xe5; x8d;
  x9c; x0a; xe5; x8f; x88; x0a; xe4; xb8;
  x89; x0a; xe4; xb8; x8b; x0a; xe4; xb8;
  x88; x0a; xe4; xb8; x8a; x0a; xe4; xb8;
  xab; x0a; xe4; xb8; xb8; x0a; xe5; x87;
  xa1; x0a; xe4; xb9; x85; x0a; xe4; xb9;
  x88; x0a; xe4; xb9; x9f; x0a; xe4; xb9;
  x9e; x0a; xe4; xba; x8e; x0a; xe4; xba;
  xa1; x0a; xe5; x85; x80; x0a; xe5; x88;
  x83; x0a; xe5; x8b; xba; x0a; xe5; x8d;
  x83; x0a; xe5; x8f; x89; x0a; xe5; x8f;
  xa3; x0a; xe5; x9c; x9f; x0a; xe5; xa3;
  xab; x0a; xe5; xa4; x95; x0a; xe5; xa4;
  xa7; x0a; xe5; xa5; xb3; x0a; xe5; xad;
  x90; x0a; xe5; xad; x91; x0a; xe5; xad;
  x93; x0a; xe5; xaf; xb8; x0a; xe5; xb0;
  x8f; x0a; xe5; xb0; xa2; x0a; xe5; xb0;
  xb8; x0a; xe5; xb1; xb1; x0a; xe5; xb7;
  x9d; x0a; xe5; xb7; xa5; x0a; xe5; xb7;
  xb1; x0a; xe5; xb7; xb2; x0a; xe5; xb7;
  xb3; x0a; xe5; xb7; xbe; x0a; xe5; xb9;
  xb2; x0a; xe5; xbb; xbe; x0a; xe5; xbc
].
(* tests/test_data/whatwg/big5_whatwg_test_decode_out.txt, entries 19200..19455 *)
Definition big5_decode_out_75 : list byte := [
  x8b; x0a; xe5; xbc; x93; x0a; xe6; x89;
  x8d; x0a; xe4; xb8; x91; x0a; xe4; xb8;
  x90; x0a; xe4; xb8; x8d; x0a; xe4; xb8;
  xad; x0a; xe4; xb8; xb0; x0a; xe4; xb8;
  xb9; x0a; xe4; xb9; x8b; x0a; xe5; xb0;
  xb9; x0a; xe4; xba; x88; x0a; xe4; xba;
  x91; x0a; xe4; xba; x95; x0a; xe4; xba;
  x92; x0a; xe4; xba; x94; x0a; xe4; xba;
  xa2; x0a; xe4; xbb; x81; x0a; xe4; xbb;
  x80; x0a; xe4; xbb; x83; x0a; xe4; xbb;
  x86; x0a; xe4; xbb; x87; x0a; xe4; xbb;
  x8d; x0a; xe4; xbb; x8a; x0a; xe4; xbb;
  x8b; x0a; xe4; xbb; x84; x0a; xe5; x85;
  x83; x0a; xe5; x85; x81; x0a; xe5; x85;
  xa7; x0a; xe5; x85; xad; x0a; xe5; x85;
  xae; x0a; xe5; x85; xac; x0a; xe5; x86;
  x97; x0a; xe5; x87; xb6; x0a; xe5; x88;
  x86; x0a; xe5; x88; x87; x0a; xe5; x88;
  x88; x0a; xe5; x8b; xbb; x0a; xe5; x8b;
  xbe; x0a; xe5; x8b; xbf; x0a; xe5; x8c;
  x96; x0a; xe5; x8c; xb9; x0a; xe5; x8d;
  x88; x0a; xe5; x8d; x87; x0a; xe5; x8d;
  x85; x0a; xe5; x8d; x9e; x0a; xe5; x8e;
  x84; x0a; xe5; x8f; x8b; x0a; xe5; x8f;
  x8a; x0a; xe5; x8f; x8d; x0a; xe5; xa3;
  xac; x0a; xe5; xa4; xa9; x0a; xe5; xa4;
  xab; x0a; xe5; xa4; xaa; x0a; xe5; xa4;
  xad; x0a; xe5; xad; x94; x0a; xe5; xb0;
  x91; x0a; xe5; xb0; xa4; x0a; xe5; xb0;
  xba; x0a; xe5; xb1; xaf; x0a; xe5; xb7;
  xb4; x0a; xe5; xb9; xbb; x0a; xe5; xbb;
  xbf; x0a; xe5; xbc; x94; x0a; xe5; xbc
].
(* tests/test_data/whatwg/big5_whatwg_test_decode_out.txt, entries 19456..19711 *)
Definition big5_decode_out_76 : list byte := [
  x95; x0a; xe5; xbf; x83; x0a; xe6; x88;
  x88; x0a; xe6; x88; xb6; x0a; xe6; x89;
  x8b; x0a; xe6; x89; x8e; x0a; xe6; x94;
  xaf; x0a; xe6; x96; x87; x0a; xe6; x96;
  x97; x0a; xe6; x96; xa4; x0a; xe6; x96;
  xb9; x0a; xe6; x97; xa5; x0a; xe6; x9b;
  xb0; x0a; xe6; x9c; x88; x0a; xe6; x9c;
  xa8; x0a; xe6; xac; xa0; x0a; xe6; xad;
  xa2; x0a; xe6; xad; xb9; x0a; xe6; xaf;
  x8b; x0a; xe6; xaf; x94; x0a; xe6; xaf;
  x9b; x0a; xe6; xb0; x8f; x0a; xe6; xb0;
  xb4; x0a; xe7; x81; xab; x0a; xe7; x88;
  xaa; x0a; xe7; x88; xb6; x0a; xe7; x88;
  xbb; x0a; xe7; x89; x87; x0a; xe7; x89;
  x99; x0a; xe7; x89; x9b; x0a; xe7; x8a;
  xac; x0a; xe7; x8e; x8b; x0a; xe4; xb8;
  x99; x0a; xe4; xb8; x96; x0a; xe4; xb8;
  x95; x0a; xe4; xb8; x94; x0a; xe4; xb8;
  x98; x0a; xe4; xb8; xbb; x0a; xe4; xb9;
  x8d; x0a; xe4; xb9; x8f; x0a; xe4; xb9;
  x8e; x0a; xe4; xbb; xa5; x0a; xe4; xbb;
  x98; x0a; xe4; xbb; x94; x0a; xe4; xbb;
  x95; x0a; xe4; xbb; x96; x0a; xe4; xbb;
  x97; x0a; xe4; xbb; xa3; x0a; xe4; xbb;
  xa4; x0a; xe4; xbb; x99; x0a; xe4; xbb;
  x9e; x0a; xe5; x85; x85; x0a; xe5; x85;
  x84; x0a; xe5; x86; x89; x0a; xe5; x86;
  x8a; x0a; xe5; x86; xac; x0a; xe5; x87;
  xb9; x0a; xe5; x87; xba; x0a; xe5; x87;
  xb8; x0a; xe5; x88; x8a; x0a; xe5; x8a;
  xa0; x0a; xe5; x8a; x9f; x0a; xe5; x8c;
  x85; x0a; xe5; x8c; x86; x0a; xe5; x8c
].
(* tests/test_data/whatwg/big5_whatwg_test_decode_out.txt, entries 19712..19967 *)
Definition big5_decode_out_77 : list byte := [
  x97; x0a; xe5; x8c; x9d; x0a; xe4; xbb;
  x9f; x0a; xe5; x8d; x8a; x0a; xe5; x8d;
  x89; x0a; xe5; x8d; xa1; x0a; xe5; x8d;
  xa0; x0a; xe5; x8d; xaf; x0a; xe5; x8d;
  xae; x0a; xe5; x8e; xbb; x0a; xe5; x8f;
  xaf; x0a; xe5; x8f; xa4; x0a; xe5; x8f;
  xb3; x0a; xe5; x8f; xac; x0a; xe5; x8f;
  xae; x0a; xe5; x8f; xa9; x0a; xe5; x8f;
  xa8; x0a; xe5; x8f; xbc; x0a; xe5; x8f;
  xb8; x0a; xe5; x8f; xb5; x0a; xe5; x8f;
  xab; x0a; xe5; x8f; xa6; x0a; xe5; x8f;
  xaa; x0a; xe5; x8f; xb2; x0a; xe5; x8f;
  xb1; x0a; xe5; x8f; xb0; x0a; xe5; x8f;
  xa5; x0a; xe5; x8f; xad; x0a; xe5; x8f;
  xbb; x0a; xe5; x9b; x9b; x0a; xe5; x9b;
  x9a; x0a; xe5; xa4; x96; x0a; xe5; xa4;
  xae; x0a; xe5; xa4; xb1; x0a; xe5; xa5;
  xb4; x0a; xe5; xa5; xb6; x0a; xe5; xad;
  x95; x0a; xe5; xae; x83; x0a; xe5; xb0;
  xbc; x0a; xe5; xb7; xa8; x0a; xe5; xb7;
  xa7; x0a; xe5; xb7; xa6; x0a; xe5; xb8;
  x82; x0a; xe5; xb8; x83; x0a; xe5; xb9;
  xb3; x0a; xe5; xb9; xbc; x0a; xe5; xbc;
  x81; x0a; xe5; xbc; x98; x0a; xe5; xbc;
  x97; x0a; xe5; xbf; x85; x0a; xe6; x88;
  x8a; x0a; xe6; x89; x93; x0a; xe6; x89;
  x94; x0a; xe6; x89; x92; x0a; xe6; x89;
  x91; x0a; xe6; x96; xa5; x0a; xe6; x97;
  xa6; x0a; xe6; x9c; xae; x0a; xe6; x9c;
  xac; x0a; xe6; x9c; xaa; x0a; xe6; x9c;
  xab; x0a; xe6; x9c; xad; x0a; xe6; xad;
  xa3; x0a; xe6; xaf; x8d; x0a; xe6; xb0
].
(* tests/test_data/whatwg/big5_whatwg_test_decode_out.txt, entries 19968..20223 *)
Definition big5_decode_out_78 : list byte := [
  x91; x0a; xe6; xb0; x90; x0a; xe6; xb0;
  xb8; x0a; xe6; xb1; x81; x0a; xe6; xb1;
  x80; x0a; xe6; xb0; xbe; x0a; xe7; x8a;
  xaf; x0a; xe7; x8e; x84; x0a; xe7; x8e;
  x89; x0a; xe7; x93; x9c; x0a; xe7; x93;
  xa6; x0a; xe7; x94; x98; x0a; xe7; x94;
  x9f; x0a; xe7; x94; xa8; x0a; xe7; x94;
  xa9; x0a; xe7; x94; xb0; x0a; xe7; x94;
  xb1; x0a; xe7; x94; xb2; x0a; xe7; x94;
  xb3; x0a; xe7; x96; x8b; x0a; xe7; x99;
  xbd; x0a; xe7; x9a; xae; x0a; xe7; x9a;
  xbf; x0a; xe7; x9b; xae; x0a; xe7; x9f;
  x9b; x0a; xe7; x9f; xa2; x0a; xe7; x9f;
  xb3; x0a; xe7; xa4; xba; x0a; xe7; xa6;
  xbe; x0a; xe7; xa9; xb4; x0a; xe7; xab;
  x8b; x0a; xe4; xb8; x9e; x0a; xe4; xb8;
  x9f; x0a; xe4; xb9; x92; x0a; xe4; xb9;
  x93; x0a; xe4; xb9; xa9; x0a; xe4; xba;
  x99; x0a; xe4; xba; xa4; x0a; xe4; xba;
  xa6; x0a; xe4; xba; xa5; x0a; xe4; xbb;
  xbf; x0a; xe4; xbc; x89; x0a; xe4; xbc;
  x99; x0a; xe4; xbc; x8a; x0a; xe4; xbc;
  x95; x0a; xe4; xbc; x8d; x0a; xe4; xbc;
  x90; x0a; xe4; xbc; x91; x0a; xe4; xbc;
  x8f; x0a; xe4; xbb; xb2; x0a; xe4; xbb;
  xb6; x0a; xe4; xbb; xbb; x0a; xe4; xbb;
  xb0; x0a; xe4; xbb; xb3; x0a; xe4; xbb;
  xbd; x0a; xe4; xbc; x81; x0a; xe4; xbc;
  x8b; x0a; xe5; x85; x89; x0a; xe5; x85;
  x87; x0a; xe5; x85; x86; x0a; xe5; x85;
  x88; x0a; xe5; x85; xa8; x0a; xe5; x85;
  xb1; x0a; xe5; x86; x8d; x0a; xe5; x86
].
(* tests/test_data/whatwg/big5_whatwg_test_decode_out.txt, entries 20224..20479 *)
Definition big5_decode_out_79 : list byte := [
  xb0; x0a; xe5; x88; x97; x0a; xe5; x88;
  x91; x0a; xe5; x88; x92; x0a; xe5; x88;
  x8e; x0a; xe5; x88; x96; x0a; xe5; x8a;
  xa3; x0a; xe5; x8c; x88; x0a; xe5; x8c;
  xa1; x0a; xe5; x8c; xa0; x0a; xe5; x8d;
  xb0; x0a; xe5; x8d; xb1; x0a; xe5; x90;
  x89; x0a; xe5; x90; x8f; x0a; xe5; x90;
  x8c; x0a; xe5; x90; x8a; x0a; xe5; x90;
  x90; x0a; xe5; x90; x81; x0a; xe5; x90;
  x8b; x0a; xe5; x90; x84; x0a; xe5; x90;
  x91; x0a; xe5; x90; x8d; x0a; xe5; x90;
  x88; x0a; xe5; x90; x83; x0a; xe5; x90;
  x8e; x0a; xe5; x90; x86; x0a; xe5; x90;
  x92; x0a; xe5; x9b; xa0; x0a; xe5; x9b;
  x9e; x0a; xe5; x9b; x9d; x0a; xe5; x9c;
  xb3; x0a; xe5; x9c; xb0; x0a; xe5; x9c;
  xa8; x0a; xe5; x9c; xad; x0a; xe5; x9c;
  xac; x0a; xe5; x9c; xaf; x0a; xe5; x9c;
  xa9; x0a; xe5; xa4; x99; x0a; xe5; xa4;
  x9a; x0a; xe5; xa4; xb7; x0a; xe5; xa4;
  xb8; x0a; xe5; xa6; x84; x0a; xe5; xa5;
  xb8; x0a; xe5; xa6; x83; x0a; xe5; xa5;
  xbd; x0a; xe5; xa5; xb9; x0a; xe5; xa6;
  x82; x0a; xe5; xa6; x81; x0a; xe5; xad;
  x97; x0a; xe5; xad; x98; x0a; xe5; xae;
  x87; x0a; xe5; xae; x88; x0a; xe5; xae;
  x85; x0a; xe5; xae; x89; x0a; xe5; xaf;
  xba; x0a; xe5; xb0; x96; x0a; xe5; xb1;
  xb9; x0a; xe5; xb7; x9e; x0a; xe5; xb8;
  x86; x0a; xe5; xb9; xb6; x0a; xe5; xb9;
  xb4; x0a; xe5; xbc; x8f; x0a; xe5; xbc;
  x9b; x0a; xe5; xbf; x99; x0a; xe5; xbf
].
(* tests/test_data/whatwg/big5_whatwg_test_decode_out.txt, entries 20480..20735 *)
Definition big5_decode_out_80 : list byte := [
  x96; x0a; xe6; x88; x8e; x0a; xe6; x88;
  x8c; x0a; xe6; x88; x8d; x0a; xe6; x88;
  x90; x0a; xe6; x89; xa3; x0a; xe6; x89;
  x9b; x0a; xe6; x89; x98; x0a; xe6; x94;
  xb6; x0a; xe6; x97; xa9; x0a; xe6; x97;
  xa8; x0a; xe6; x97; xac; x0a; xe6; x97;
  xad; x0a; xe6; x9b; xb2; x0a; xe6; x9b;
  xb3; x0a; xe6; x9c; x89; x0a; xe6; x9c;
  xbd; x0a; xe6; x9c; xb4; x0a; xe6; x9c;
  xb1; x0a; xe6; x9c; xb5; x0a; xe6; xac;
  xa1; x0a; xe6; xad; xa4; x0a; xe6; xad;
  xbb; x0a; xe6; xb0; x96; x0a; xe6; xb1;
  x9d; x0a; xe6; xb1; x97; x0a; xe6; xb1;
  x99; x0a; xe6; xb1; x9f; x0a; xe6; xb1;
  xa0; x0a; xe6; xb1; x90; x0a; xe6; xb1;
  x95; x0a; xe6; xb1; xa1; x0a; xe6; xb1;
  x9b; x0a; xe6; xb1; x8d; x0a; xe6; xb1;
  x8e; x0a; xe7; x81; xb0; x0a; xe7; x89;
  x9f; x0a; xe7; x89; x9d; x0a; xe7; x99;
  xbe; x0a; xe7; xab; xb9; x0a; xe7; xb1;
  xb3; x0a; xe7; xb3; xb8; x0a; xe7; xbc;
  xb6; x0a; xe7; xbe; x8a; x0a; xe7; xbe;
  xbd; x0a; xe8; x80; x81; x0a; xe8; x80;
  x83; x0a; xe8; x80; x8c; x0a; xe8; x80;
  x92; x0a; xe8; x80; xb3; x0a; xe8; x81;
  xbf; x0a; xe8; x82; x89; x0a; xe8; x82;
  x8b; x0a; xe8; x82; x8c; x0a; xe8; x87;
  xa3; x0a; xe8; x87; xaa; x0a; xe8; x87;
  xb3; x0a; xe8; x87; xbc; x0a; xe8; x88;
  x8c; x0a; xe8; x88; x9b; x0a; xe8; x88;
  x9f; x0a; xe8; x89; xae; x0a; xe8; x89;
  xb2; x0a; xe8; x89; xbe; x0a; xe8; x99
].
(* tests/test_data/whatwg/big5_whatwg_test_decode_out.txt, entries 20736..20991 *)
Definition big5_decode_out_81 : list byte := [
  xab; x0a; xe8; xa1; x80; x0a; xe8; xa1;
  x8c; x0a; xe8; xa1; xa3; x0a; xe8; xa5;
  xbf; x0a; xe9; x98; xa1; x0a; xe4; xb8;
  xb2; x0a; xe4; xba; xa8; x0a; xe4; xbd;
  x8d; x0a; xe4; xbd; x8f; x0a; xe4; xbd;
  x87; x0a; xe4; xbd; x97; x0a; xe4; xbd;
  x9e; x0a; xe4; xbc; xb4; x0a; xe4; xbd;
  x9b; x0a; xe4; xbd; x95; x0a; xe4; xbc;
  xb0; x0a; xe4; xbd; x90; x0a; xe4; xbd;
  x91; x0a; xe4; xbc; xbd; x0a; xe4; xbc;
  xba; x0a; xe4; xbc; xb8; x0a; xe4; xbd;
  x83; x0a; xe4; xbd; x94; x0a; xe4; xbc;
  xbc; x0a; xe4; xbd; x86; x0a; xe4; xbd;
  xa3; x0a; xe4; xbd; x9c; x0a; xe4; xbd;
  xa0; x0a; xe4; xbc; xaf; x0a; xe4; xbd;
  x8e; x0a; xe4; xbc; xb6; x0a; xe4; xbd;
  x99; x0a; xe4; xbd; x9d; x0a; xe4; xbd;
  x88; x0a; xe4; xbd; x9a; x0a; xe5; x85;
  x8c; x0a; xe5; x85; x8b; x0a; xe5; x85;
  x8d; x0a; xe5; x85; xb5; x0a; xe5; x86;
  xb6; x0a; xe5; x86; xb7; x0a; xe5; x88;
  xa5; x0a; xe5; x88; xa4; x0a; xe5; x88;
  xa9; x0a; xe5; x88; xaa; x0a; xe5; x88;
  xa8; x0a; xe5; x8a; xab; x0a; xe5; x8a;
  xa9; x0a; xe5; x8a; xaa; x0a; xe5; x8a;
  xac; x0a; xe5; x8c; xa3; x0a; xe5; x8d;
  xb3; x0a; xe5; x8d; xb5; x0a; xe5; x90;
  x9d; x0a; xe5; x90; xad; x0a; xe5; x90;
  x9e; x0a; xe5; x90; xbe; x0a; xe5; x90;
  xa6; x0a; xe5; x91; x8e; x0a; xe5; x90;
  xa7; x0a; xe5; x91; x86; x0a; xe5; x91;
  x83; x0a; xe5; x90; xb3; x0a; xe5; x91
].
(* tests/test_data/whatwg/big5_whatwg_test_decode_out.txt, entries 20992..21247 *)
Definition big5_decode_out_82 : list byte := [
  x88; x0a; xe5; x91; x82; x0a; xe5; x90;
  x9b; x0a; xe5; x90; xa9; x0a; xe5; x91;
  x8a; x0a; xe5; x90; xb9; x0a; xe5; x90;
  xbb; x0a; xe5; x90; xb8; x0a; xe5; x90;
  xae; x0a; xe5; x90; xb5; x0a; xe5; x90;
  xb6; x0a; xe5; x90; xa0; x0a; xe5; x90;
  xbc; x0a; xe5; x91; x80; x0a; xe5; x90;
  xb1; x0a; xe5; x90; xab; x0a; xe5; x90;
  x9f; x0a; xe5; x90; xac; x0a; xe5; x9b;
  xaa; x0a; xe5; x9b; xb0; x0a; xe5; x9b;
  xa4; x0a; xe5; x9b; xab; x0a; xe5; x9d;
  x8a; x0a; xe5; x9d; x91; x0a; xe5; x9d;
  x80; x0a; xe5; x9d; x8d; x0a; xe5; x9d;
  x87; x0a; xe5; x9d; x8e; x0a; xe5; x9c;
  xbe; x0a; xe5; x9d; x90; x0a; xe5; x9d;
  x8f; x0a; xe5; x9c; xbb; x0a; xe5; xa3;
  xaf; x0a; xe5; xa4; xbe; x0a; xe5; xa6;
  x9d; x0a; xe5; xa6; x92; x0a; xe5; xa6;
  xa8; x0a; xe5; xa6; x9e; x0a; xe5; xa6;
  xa3; x0a; xe5; xa6; x99; x0a; xe5; xa6;
  x96; x0a; xe5; xa6; x8d; x0a; xe5; xa6;
  xa4; x0a; xe5; xa6; x93; x0a; xe5; xa6;
  x8a; x0a; xe5; xa6; xa5; x0a; xe5; xad;
  x9d; x0a; xe5; xad; x9c; x0a; xe5; xad;
  x9a; x0a; xe5; xad; x9b; x0a; xe5; xae;
  x8c; x0a; xe5; xae; x8b; x0a; xe5; xae;
  x8f; x0a; xe5; xb0; xac; x0a; xe5; xb1;
  x80; x0a; xe5; xb1; x81; x0a; xe5; xb0;
  xbf; x0a; xe5; xb0; xbe; x0a; xe5; xb2;
  x90; x0a; xe5; xb2; x91; x0a; xe5; xb2;
  x94; x0a; xe5; xb2; x8c; x0a; xe5; xb7;
  xab; x0a; xe5; xb8; x8c; x0a; xe5; xba
].
(* tests/test_data/whatwg/big5_whatwg_test_decode_out.txt, entries 21248..21503 *)
Definition big5_decode_out_83 : list byte := [
  x8f; x0a; xe5; xba; x87; x0a; xe5; xba;
  x8a; x0a; xe5; xbb; xb7; x0a; xe5; xbc;
  x84; x0a; xe5; xbc; x9f; x0a; xe5; xbd;
  xa4; x0a; xe5; xbd; xa2; x0a; xe5; xbd;
  xb7; x0a; xe5; xbd; xb9; x0a; xe5; xbf;
  x98; x0a; xe5; xbf; x8c; x0a; xe5; xbf;
  x97; x0a; xe5; xbf; x8d; x0a; xe5; xbf;
  xb1; x0a; xe5; xbf; xab; x0a; xe5; xbf;
  xb8; x0a; xe5; xbf; xaa; x0a; xe6; x88;
  x92; x0a; xe6; x88; x91; x0a; xe6; x8a;
  x84; x0a; xe6; x8a; x97; x0a; xe6; x8a;
  x96; x0a; xe6; x8a; x80; x0a; xe6; x89;
  xb6; x0a; xe6; x8a; x89; x0a; xe6; x89;
  xad; x0a; xe6; x8a; x8a; x0a; xe6; x89;
  xbc; x0a; xe6; x89; xbe; x0a; xe6; x89;
  xb9; x0a; xe6; x89; xb3; x0a; xe6; x8a;
  x92; x0a; xe6; x89; xaf; x0a; xe6; x8a;
  x98; x0a; xe6; x89; xae; x0a; xe6; x8a;
  x95; x0a; xe6; x8a; x93; x0a; xe6; x8a;
  x91; x0a; xe6; x8a; x86; x0a; xe6; x94;
  xb9; x0a; xe6; x94; xbb; x0a; xe6; x94;
  xb8; x0a; xe6; x97; xb1; x0a; xe6; x9b;
  xb4; x0a; xe6; x9d; x9f; x0a; xe6; x9d;
  x8e; x0a; xe6; x9d; x8f; x0a; xe6; x9d;
  x90; x0a; xe6; x9d; x91; x0a; xe6; x9d;
  x9c; x0a; xe6; x9d; x96; x0a; xe6; x9d;
  x9e; x0a; xe6; x9d; x89; x0a; xe6; x9d;
  x86; x0a; xe6; x9d; xa0; x0a; xe6; x9d;
  x93; x0a; xe6; x9d; x97; x0a; xe6; xad;
  xa5; x0a; xe6; xaf; x8f; x0a; xe6; xb1;
  x82; x0a; xe6; xb1; x9e; x0a; xe6; xb2;
  x99; x0a; xe6; xb2; x81; x0a; xe6; xb2
].
(* tests/test_data/whatwg/big5_whatwg_test_decode_out.txt, entries 21504..21759 *)
Definition big5_decode_out_84 : list byte := [
  x88; x0a; xe6; xb2; x89; x0a; xe6; xb2;
  x85; x0a; xe6; xb2; x9b; x0a; xe6; xb1;
  xaa; x0a; xe6; xb1; xba; x0a; xe6; xb2;
  x90; x0a; xe6; xb1; xb0; x0a; xe6; xb2;
  x8c; x0a; xe6; xb1; xa8; x0a; xe6; xb2;
  x96; x0a; xe6; xb2; x92; x0a; xe6; xb1;
  xbd; x0a; xe6; xb2; x83; x0a; xe6; xb1;
  xb2; x0a; xe6; xb1; xbe; x0a; xe6; xb1;
  xb4; x0a; xe6; xb2; x86; x0a; xe6; xb1;
  xb6; x0a; xe6; xb2; x8d; x0a; xe6; xb2;
  x94; x0a; xe6; xb2; x98; x0a; xe6; xb2;
  x82; x0a; xe7; x81; xb6; x0a; xe7; x81;
  xbc; x0a; xe7; x81; xbd; x0a; xe7; x81;
  xb8; x0a; xe7; x89; xa2; x0a; xe7; x89;
  xa1; x0a; xe7; x89; xa0; x0a; xe7; x8b;
  x84; x0a; xe7; x8b; x82; x0a; xe7; x8e;
  x96; x0a; xe7; x94; xac; x0a; xe7; x94;
  xab; x0a; xe7; x94; xb7; x0a; xe7; x94;
  xb8; x0a; xe7; x9a; x82; x0a; xe7; x9b;
  xaf; x0a; xe7; x9f; xa3; x0a; xe7; xa7;
  x81; x0a; xe7; xa7; x80; x0a; xe7; xa6;
  xbf; x0a; xe7; xa9; xb6; x0a; xe7; xb3;
  xbb; x0a; xe7; xbd; x95; x0a; xe8; x82;
  x96; x0a; xe8; x82; x93; x0a; xe8; x82;
  x9d; x0a; xe8; x82; x98; x0a; xe8; x82;
  x9b; x0a; xe8; x82; x9a; x0a; xe8; x82;
  xb2; x0a; xe8; x89; xaf; x0a; xe8; x8a;
  x92; x0a; xe8; x8a; x8b; x0a; xe8; x8a;
  x8d; x0a; xe8; xa6; x8b; x0a; xe8; xa7;
  x92; x0a; xe8; xa8; x80; x0a; xe8; xb0;
  xb7; x0a; xe8; xb1; x86; x0a; xe8; xb1;
  x95; x0a; xe8; xb2; x9d; x0a; xe8; xb5
].
(* tests/test_data/whatwg/big5_whatwg_test_decode_out.txt, entries 21760..22015 *)
Definition big5_decode_out_85 : list byte := [
  xa4; x0a; xe8; xb5; xb0; x0a; xe8; xb6;
  xb3; x0a; xe8; xba; xab; x0a; xe8; xbb;
  x8a; x0a; xe8; xbe; x9b; x0a; xe8; xbe;
  xb0; x0a; xe8; xbf; x82; x0a; xe8; xbf;
  x86; x0a; xe8; xbf; x85; x0a; xe8; xbf;
  x84; x0a; xe5; xb7; xa1; x0a; xe9; x82;
  x91; x0a; xe9; x82; xa2; x0a; xe9; x82;
  xaa; x0a; xe9; x82; xa6; x0a; xe9; x82;
  xa3; x0a; xe9; x85; x89; x0a; xe9; x87;
  x86; x0a; xe9; x87; x8c; x0a; xe9; x98;
  xb2; x0a; xe9; x98; xae; x0a; xe9; x98;
  xb1; x0a; xe9; x98; xaa; x0a; xe9; x98;
  xac; x0a; xe4; xb8; xa6; x0a; xe4; xb9;
  x96; x0a; xe4; xb9; xb3; x0a; xe4; xba;
  x8b; x0a; xe4; xba; x9b; x0a; xe4; xba;
  x9e; x0a; xe4; xba; xab; x0a; xe4; xba;
  xac; x0a; xe4; xbd; xaf; x0a; xe4; xbe;
  x9d; x0a; xe4; xbe; x8d; x0a; xe4; xbd;
  xb3; x0a; xe4; xbd; xbf; x0a; xe4; xbd;
  xac; x0a; xe4; xbe; x9b; x0a; xe4; xbe;
  x8b; x0a; xe4; xbe; x86; x0a; xe4; xbe;
  x83; x0a; xe4; xbd; xb0; x0a; xe4; xbd;
  xb5; x0a; xe4; xbe; x88; x0a; xe4; xbd;
  xa9; x0a; xe4; xbd; xbb; x0a; xe4; xbe;
  x96; x0a; xe4; xbd; xbe; x0a; xe4; xbe;
  x8f; x0a; xe4; xbe; x91; x0a; xe4; xbd;
  xba; x0a; xe5; x85; x94; x0a; xe5; x85;
  x92; x0a; xe5; x85; x95; x0a; xe5; x85;
  xa9; x0a; xe5; x85; xb7; x0a; xe5; x85;
  xb6; x0a; xe5; x85; xb8; x0a; xe5; x86;
  xbd; x0a; xe5; x87; xbd; x0a; xe5; x88;
  xbb; x0a; xe5; x88; xb8; x0a; xe5; x88
].
(* tests/test_data/whatwg/big5_whatwg_test_decode_out.txt, entries 22016..22271 *)
Definition big5_decode_out_86 : list byte := [
  xb7; x0a; xe5; x88; xba; x0a; xe5; x88;
  xb0; x0a; xe5; x88; xae; x0a; xe5; x88;
  xb6; x0a; xe5; x89; x81; x0a; xe5; x8a;
  xbe; x0a; xe5; x8a; xbb; x0a; xe5; x8d;
  x92; x0a; xe5; x8d; x94; x0a; xe5; x8d;
  x93; x0a; xe5; x8d; x91; x0a; xe5; x8d;
  xa6; x0a; xe5; x8d; xb7; x0a; xe5; x8d;
  xb8; x0a; xe5; x8d; xb9; x0a; xe5; x8f;
  x96; x0a; xe5; x8f; x94; x0a; xe5; x8f;
  x97; x0a; xe5; x91; xb3; x0a; xe5; x91;
  xb5; x0a; xe5; x92; x96; x0a; xe5; x91;
  xb8; x0a; xe5; x92; x95; x0a; xe5; x92;
  x80; x0a; xe5; x91; xbb; x0a; xe5; x91;
  xb7; x0a; xe5; x92; x84; x0a; xe5; x92;
  x92; x0a; xe5; x92; x86; x0a; xe5; x91;
  xbc; x0a; xe5; x92; x90; x0a; xe5; x91;
  xb1; x0a; xe5; x91; xb6; x0a; xe5; x92;
  x8c; x0a; xe5; x92; x9a; x0a; xe5; x91;
  xa2; x0a; xe5; x91; xa8; x0a; xe5; x92;
  x8b; x0a; xe5; x91; xbd; x0a; xe5; x92;
  x8e; x0a; xe5; x9b; xba; x0a; xe5; x9e;
  x83; x0a; xe5; x9d; xb7; x0a; xe5; x9d;
  xaa; x0a; xe5; x9d; xa9; x0a; xe5; x9d;
  xa1; x0a; xe5; x9d; xa6; x0a; xe5; x9d;
  xa4; x0a; xe5; x9d; xbc; x0a; xe5; xa4;
  x9c; x0a; xe5; xa5; x89; x0a; xe5; xa5;
  x87; x0a; xe5; xa5; x88; x0a; xe5; xa5;
  x84; x0a; xe5; xa5; x94; x0a; xe5; xa6;
  xbe; x0a; xe5; xa6; xbb; x0a; xe5; xa7;
  x94; x0a; xe5; xa6; xb9; x0a; xe5; xa6;
  xae; x0a; xe5; xa7; x91; x0a; xe5; xa7;
  x86; x0a; xe5; xa7; x90; x0a; xe5; xa7
].
(* tests/test_data/whatwg/big5_whatwg_test_decode_out.txt, entries 22272..22527 *)
Definition big5_decode_out_87 : list byte := [
  x8d; x0a; xe5; xa7; x8b; x0a; xe5; xa7;
  x93; x0a; xe5; xa7; x8a; x0a; xe5; xa6;
  xaf; x0a; xe5; xa6; xb3; x0a; xe5; xa7;
  x92; x0a; xe5; xa7; x85; x0a; xe5; xad;
  x9f; x0a; xe5; xad; xa4; x0a; xe5; xad;
  xa3; x0a; xe5; xae; x97; x0a; xe5; xae;
  x9a; x0a; xe5; xae; x98; x0a; xe5; xae;
  x9c; x0a; xe5; xae; x99; x0a; xe5; xae;
  x9b; x0a; xe5; xb0; x9a; x0a; xe5; xb1;
  x88; x0a; xe5; xb1; x85; x0a; xe5; xb1;
  x86; x0a; xe5; xb2; xb7; x0a; xe5; xb2;
  xa1; x0a; xe5; xb2; xb8; x0a; xe5; xb2;
  xa9; x0a; xe5; xb2; xab; x0a; xe5; xb2;
  xb1; x0a; xe5; xb2; xb3; x0a; xe5; xb8;
  x98; x0a; xe5; xb8; x9a; x0a; xe5; xb8;
  x96; x0a; xe5; xb8; x95; x0a; xe5; xb8;
  x9b; x0a; xe5; xb8; x91; x0a; xe5; xb9;
  xb8; x0a; xe5; xba; x9a; x0a; xe5; xba;
  x97; x0a; xe5; xba; x9c; x0a; xe5; xba;
  x95; x0a; xe5; xba; x96; x0a; xe5; xbb;
  xb6; x0a; xe5; xbc; xa6; x0a; xe5; xbc;
  xa7; x0a; xe5; xbc; xa9; x0a; xe5; xbe;
  x80; x0a; xe5; xbe; x81; x0a; xe5; xbd;
  xbf; x0a; xe5; xbd; xbc; x0a; xe5; xbf;
  x9d; x0a; xe5; xbf; xa0; x0a; xe5; xbf;
  xbd; x0a; xe5; xbf; xb5; x0a; xe5; xbf;
  xbf; x0a; xe6; x80; x8f; x0a; xe6; x80;
  x94; x0a; xe6; x80; xaf; x0a; xe6; x80;
  xb5; x0a; xe6; x80; x96; x0a; xe6; x80;
  xaa; x0a; xe6; x80; x95; x0a; xe6; x80;
  xa1; x0a; xe6; x80; xa7; x0a; xe6; x80;
  xa9; x0a; xe6; x80; xab; x0a; xe6; x80
].
(* tests/test_data/whatwg/big5_whatwg_test_decode_out.txt, entries 22528..22783 *)
Definition big5_decode_out_88 : list byte := [
  x9b; x0a; xe6; x88; x96; x0a; xe6; x88;
  x95; x0a; xe6; x88; xbf; x0a; xe6; x88;
  xbe; x0a; xe6; x89; x80; x0a; xe6; x89;
  xbf; x0a; xe6; x8b; x89; x0a; xe6; x8b;
  x8c; x0a; xe6; x8b; x84; x0a; xe6; x8a;
  xbf; x0a; xe6; x8b; x82; x0a; xe6; x8a;
  xb9; x0a; xe6; x8b; x92; x0a; xe6; x8b;
  x9b; x0a; xe6; x8a; xab; x0a; xe6; x8b;
  x93; x0a; xe6; x8b; x94; x0a; xe6; x8b;
  x8b; x0a; xe6; x8b; x88; x0a; xe6; x8a;
  xa8; x0a; xe6; x8a; xbd; x0a; xe6; x8a;
  xbc; x0a; xe6; x8b; x90; x0a; xe6; x8b;
  x99; x0a; xe6; x8b; x87; x0a; xe6; x8b;
  x8d; x0a; xe6; x8a; xb5; x0a; xe6; x8b;
  x9a; x0a; xe6; x8a; xb1; x0a; xe6; x8b;
  x98; x0a; xe6; x8b; x96; x0a; xe6; x8b;
  x97; x0a; xe6; x8b; x86; x0a; xe6; x8a;
  xac; x0a; xe6; x8b; x8e; x0a; xe6; x94;
  xbe; x0a; xe6; x96; xa7; x0a; xe6; x96;
  xbc; x0a; xe6; x97; xba; x0a; xe6; x98;
  x94; x0a; xe6; x98; x93; x0a; xe6; x98;
  x8c; x0a; xe6; x98; x86; x0a; xe6; x98;
  x82; x0a; xe6; x98; x8e; x0a; xe6; x98;
  x80; x0a; xe6; x98; x8f; x0a; xe6; x98;
  x95; x0a; xe6; x98; x8a; x0a; xe6; x98;
  x87; x0a; xe6; x9c; x8d; x0a; xe6; x9c;
  x8b; x0a; xe6; x9d; xad; x0a; xe6; x9e;
  x8b; x0a; xe6; x9e; x95; x0a; xe6; x9d;
  xb1; x0a; xe6; x9e; x9c; x0a; xe6; x9d;
  xb3; x0a; xe6; x9d; xb7; x0a; xe6; x9e;
  x87; x0a; xe6; x9e; x9d; x0a; xe6; x9e;
  x97; x0a; xe6; x9d; xaf; x0a; xe6; x9d
].
(* tests/test_data/whatwg/big5_whatwg_test_decode_out.txt, entries 22784..23039 *)
Definition big5_decode_out_89 : list byte := [
  xb0; x0a; xe6; x9d; xbf; x0a; xe6; x9e;
  x89; x0a; xe6; x9d; xbe; x0a; xe6; x9e;
  x90; x0a; xe6; x9d; xb5; x0a; xe6; x9e;
  x9a; x0a; xe6; x9e; x93; x0a; xe6; x9d;
  xbc; x0a; xe6; x9d; xaa; x0a; xe6; x9d;
  xb2; x0a; xe6; xac; xa3; x0a; xe6; xad;
  xa6; x0a; xe6; xad; xa7; x0a; xe6; xad;
  xbf; x0a; xe6; xb0; x93; x0a; xe6; xb0;
  x9b; x0a; xe6; xb3; xa3; x0a; xe6; xb3;
  xa8; x0a; xe6; xb3; xb3; x0a; xe6; xb2;
  xb1; x0a; xe6; xb3; x8c; x0a; xe6; xb3;
  xa5; x0a; xe6; xb2; xb3; x0a; xe6; xb2;
  xbd; x0a; xe6; xb2; xbe; x0a; xe6; xb2;
  xbc; x0a; xe6; xb3; xa2; x0a; xe6; xb2;
  xab; x0a; xe6; xb3; x95; x0a; xe6; xb3;
  x93; x0a; xe6; xb2; xb8; x0a; xe6; xb3;
  x84; x0a; xe6; xb2; xb9; x0a; xe6; xb3;
  x81; x0a; xe6; xb2; xae; x0a; xe6; xb3;
  x97; x0a; xe6; xb3; x85; x0a; xe6; xb3;
  xb1; x0a; xe6; xb2; xbf; x0a; xe6; xb2;
  xbb; x0a; xe6; xb3; xa1; x0a; xe6; xb3;
  x9b; x0a; xe6; xb3; x8a; x0a; xe6; xb2;
  xac; x0a; xe6; xb3; xaf; x0a; xe6; xb3;
  x9c; x0a; xe6; xb3; x96; x0a; xe6; xb3;
  xa0; x0a; xe7; x82; x95; x0a; xe7; x82;
  x8e; x0a; xe7; x82; x92; x0a; xe7; x82;
  x8a; x0a; xe7; x82; x99; x0a; xe7; x88;
  xac; x0a; xe7; x88; xad; x0a; xe7; x88;
  xb8; x0a; xe7; x89; x88; x0a; xe7; x89;
  xa7; x0a; xe7; x89; xa9; x0a; xe7; x8b;
  x80; x0a; xe7; x8b; x8e; x0a; xe7; x8b;
  x99; x0a; xe7; x8b; x97; x0a; xe7; x8b
].
(* tests/test_data/whatwg/big5_whatwg_test_decode_out.txt, entries 23040..23295 *)
Definition big5_decode_out_90 : list byte := [
  x90; x0a; xe7; x8e; xa9; x0a; xe7; x8e;
  xa8; x0a; xe7; x8e; x9f; x0a; xe7; x8e;
  xab; x0a; xe7; x8e; xa5; x0a; xe7; x94;
  xbd; x0a; xe7; x96; x9d; x0a; xe7; x96;
  x99; x0a; xe7; x96; x9a; x0a; xe7; x9a;
  x84; x0a; xe7; x9b; x82; x0a; xe7; x9b;
  xb2; x0a; xe7; x9b; xb4; x0a; xe7; x9f;
  xa5; x0a; xe7; x9f; xbd; x0a; xe7; xa4;
  xbe; x0a; xe7; xa5; x80; x0a; xe7; xa5;
  x81; x0a; xe7; xa7; x89; x0a; xe7; xa7;
  x88; x0a; xe7; xa9; xba; x0a; xe7; xa9;
  xb9; x0a; xe7; xab; xba; x0a; xe7; xb3;
  xbe; x0a; xe7; xbd; x94; x0a; xe7; xbe;
  x8c; x0a; xe7; xbe; x8b; x0a; xe8; x80;
  x85; x0a; xe8; x82; xba; x0a; xe8; x82;
  xa5; x0a; xe8; x82; xa2; x0a; xe8; x82;
  xb1; x0a; xe8; x82; xa1; x0a; xe8; x82;
  xab; x0a; xe8; x82; xa9; x0a; xe8; x82;
  xb4; x0a; xe8; x82; xaa; x0a; xe8; x82;
  xaf; x0a; xe8; x87; xa5; x0a; xe8; x87;
  xbe; x0a; xe8; x88; x8d; x0a; xe8; x8a;
  xb3; x0a; xe8; x8a; x9d; x0a; xe8; x8a;
  x99; x0a; xe8; x8a; xad; x0a; xe8; x8a;
  xbd; x0a; xe8; x8a; x9f; x0a; xe8; x8a;
  xb9; x0a; xe8; x8a; xb1; x0a; xe8; x8a;
  xac; x0a; xe8; x8a; xa5; x0a; xe8; x8a;
  xaf; x0a; xe8; x8a; xb8; x0a; xe8; x8a;
  xa3; x0a; xe8; x8a; xb0; x0a; xe8; x8a;
  xbe; x0a; xe8; x8a; xb7; x0a; xe8; x99;
  x8e; x0a; xe8; x99; xb1; x0a; xe5; x88;
  x9d; x0a; xe8; xa1; xa8; x0a; xe8; xbb;
  x8b; x0a; xe8; xbf; x8e; x0a; xe8; xbf
].
(* tests/test_data/whatwg/big5_whatwg_test_decode_out.txt, entries 23296..23551 *)
Definition big5_decode_out_91 : list byte := [
  x94; x0a; xe8; xbf; x91; x0a; xe9; x82;
  xb5; x0a; xe9; x82; xb8; x0a; xe9; x82;
  xb1; x0a; xe9; x82; xb6; x0a; xe9; x87;
  x87; x0a; xe9; x87; x91; x0a; xe9; x95;
  xb7; x0a; xe9; x96; x80; x0a; xe9; x98;
  x9c; x0a; xe9; x99; x80; x0a; xe9; x98;
  xbf; x0a; xe9; x98; xbb; x0a; xe9; x99;
  x84; x0a; xe9; x99; x82; x0a; xe9; x9a;
  xb9; x0a; xe9; x9b; xa8; x0a; xe9; x9d;
  x92; x0a; xe9; x9d; x9e; x0a; xe4; xba;
  x9f; x0a; xe4; xba; xad; x0a; xe4; xba;
  xae; x0a; xe4; xbf; xa1; x0a; xe4; xbe;
  xb5; x0a; xe4; xbe; xaf; x0a; xe4; xbe;
  xbf; x0a; xe4; xbf; xa0; x0a; xe4; xbf;
  x91; x0a; xe4; xbf; x8f; x0a; xe4; xbf;
  x9d; x0a; xe4; xbf; x83; x0a; xe4; xbe;
  xb6; x0a; xe4; xbf; x98; x0a; xe4; xbf;
  x9f; x0a; xe4; xbf; x8a; x0a; xe4; xbf;
  x97; x0a; xe4; xbe; xae; x0a; xe4; xbf;
  x90; x0a; xe4; xbf; x84; x0a; xe4; xbf;
  x82; x0a; xe4; xbf; x9a; x0a; xe4; xbf;
  x8e; x0a; xe4; xbf; x9e; x0a; xe4; xbe;
  xb7; x0a; xe5; x85; x97; x0a; xe5; x86;
  x92; x0a; xe5; x86; x91; x0a; xe5; x86;
  xa0; x0a; xe5; x89; x8e; x0a; xe5; x89;
  x83; x0a; xe5; x89; x8a; x0a; xe5; x89;
  x8d; x0a; xe5; x89; x8c; x0a; xe5; x89;
  x8b; x0a; xe5; x89; x87; x0a; xe5; x8b;
  x87; x0a; xe5; x8b; x89; x0a; xe5; x8b;
  x83; x0a; xe5; x8b; x81; x0a; xe5; x8c;
  x8d; x0a; xe5; x8d; x97; x0a; xe5; x8d;
  xbb; x0a; xe5; x8e; x9a; x0a; xe5; x8f
].
(* tests/test_data/whatwg/big5_whatwg_test_decode_out.txt, entries 23552..23807 *)
Definition big5_decode_out_92 : list byte := [
  x9b; x0a; xe5; x92; xac; x0a; xe5; x93;
  x80; x0a; xe5; x92; xa8; x0a; xe5; x93;
  x8e; x0a; xe5; x93; x89; x0a; xe5; x92;
  xb8; x0a; xe5; x92; xa6; x0a; xe5; x92;
  xb3; x0a; xe5; x93; x87; x0a; xe5; x93;
  x82; x0a; xe5; x92; xbd; x0a; xe5; x92;
  xaa; x0a; xe5; x93; x81; x0a; xe5; x93;
  x84; x0a; xe5; x93; x88; x0a; xe5; x92;
  xaf; x0a; xe5; x92; xab; x0a; xe5; x92;
  xb1; x0a; xe5; x92; xbb; x0a; xe5; x92;
  xa9; x0a; xe5; x92; xa7; x0a; xe5; x92;
  xbf; x0a; xe5; x9b; xbf; x0a; xe5; x9e;
  x82; x0a; xe5; x9e; x8b; x0a; xe5; x9e;
  xa0; x0a; xe5; x9e; xa3; x0a; xe5; x9e;
  xa2; x0a; xe5; x9f; x8e; x0a; xe5; x9e;
  xae; x0a; xe5; x9e; x93; x0a; xe5; xa5;
  x95; x0a; xe5; xa5; x91; x0a; xe5; xa5;
  x8f; x0a; xe5; xa5; x8e; x0a; xe5; xa5;
  x90; x0a; xe5; xa7; x9c; x0a; xe5; xa7;
  x98; x0a; xe5; xa7; xbf; x0a; xe5; xa7;
  xa3; x0a; xe5; xa7; xa8; x0a; xe5; xa8;
  x83; x0a; xe5; xa7; xa5; x0a; xe5; xa7;
  xaa; x0a; xe5; xa7; x9a; x0a; xe5; xa7;
  xa6; x0a; xe5; xa8; x81; x0a; xe5; xa7;
  xbb; x0a; xe5; xad; xa9; x0a; xe5; xae;
  xa3; x0a; xe5; xae; xa6; x0a; xe5; xae;
  xa4; x0a; xe5; xae; xa2; x0a; xe5; xae;
  xa5; x0a; xe5; xb0; x81; x0a; xe5; xb1;
  x8e; x0a; xe5; xb1; x8f; x0a; xe5; xb1;
  x8d; x0a; xe5; xb1; x8b; x0a; xe5; xb3;
  x99; x0a; xe5; xb3; x92; x0a; xe5; xb7;
  xb7; x0a; xe5; xb8; x9d; x0a; xe5; xb8
].
(* tests/test_data/whatwg/big5_whatwg_test_decode_out.txt, entries 23808..24063 *)
Definition big5_decode_out_93 : list byte := [
  xa5; x0a; xe5; xb8; x9f; x0a; xe5; xb9;
  xbd; x0a; xe5; xba; xa0; x0a; xe5; xba;
  xa6; x0a; xe5; xbb; xba; x0a; xe5; xbc;
  x88; x0a; xe5; xbc; xad; x0a; xe5; xbd;
  xa5; x0a; xe5; xbe; x88; x0a; xe5; xbe;
  x85; x0a; xe5; xbe; x8a; x0a; xe5; xbe;
  x8b; x0a; xe5; xbe; x87; x0a; xe5; xbe;
  x8c; x0a; xe5; xbe; x89; x0a; xe6; x80;
  x92; x0a; xe6; x80; x9d; x0a; xe6; x80;
  xa0; x0a; xe6; x80; xa5; x0a; xe6; x80;
  x8e; x0a; xe6; x80; xa8; x0a; xe6; x81;
  x8d; x0a; xe6; x81; xb0; x0a; xe6; x81;
  xa8; x0a; xe6; x81; xa2; x0a; xe6; x81;
  x86; x0a; xe6; x81; x83; x0a; xe6; x81;
  xac; x0a; xe6; x81; xab; x0a; xe6; x81;
  xaa; x0a; xe6; x81; xa4; x0a; xe6; x89;
  x81; x0a; xe6; x8b; x9c; x0a; xe6; x8c;
  x96; x0a; xe6; x8c; x89; x0a; xe6; x8b;
  xbc; x0a; xe6; x8b; xad; x0a; xe6; x8c;
  x81; x0a; xe6; x8b; xae; x0a; xe6; x8b;
  xbd; x0a; xe6; x8c; x87; x0a; xe6; x8b;
  xb1; x0a; xe6; x8b; xb7; x0a; xe6; x8b;
  xaf; x0a; xe6; x8b; xac; x0a; xe6; x8b;
  xbe; x0a; xe6; x8b; xb4; x0a; xe6; x8c;
  x91; x0a; xe6; x8c; x82; x0a; xe6; x94;
  xbf; x0a; xe6; x95; x85; x0a; xe6; x96;
  xab; x0a; xe6; x96; xbd; x0a; xe6; x97;
  xa2; x0a; xe6; x98; xa5; x0a; xe6; x98;
  xad; x0a; xe6; x98; xa0; x0a; xe6; x98;
  xa7; x0a; xe6; x98; xaf; x0a; xe6; x98;
  x9f; x0a; xe6; x98; xa8; x0a; xe6; x98;
  xb1; x0a; xe6; x98; xa4; x0a; xe6; x9b
].
(* tests/test_data/whatwg/big5_whatwg_test_decode_out.txt, entries 24064..24319 *)
Definition big5_decode_out_94 : list byte := [
  xb7; x0a; xe6; x9f; xbf; x0a; xe6; x9f;
  x93; x0a; xe6; x9f; xb1; x0a; xe6; x9f;
  x94; x0a; xe6; x9f; x90; x0a; xe6; x9f;
  xac; x0a; xe6; x9e; xb6; x0a; xe6; x9e;
  xaf; x0a; xe6; x9f; xb5; x0a; xe6; x9f;
  xa9; x0a; xe6; x9f; xaf; x0a; xe6; x9f;
  x84; x0a; xe6; x9f; x91; x0a; xe6; x9e;
  xb4; x0a; xe6; x9f; x9a; x0a; xe6; x9f;
  xa5; x0a; xe6; x9e; xb8; x0a; xe6; x9f;
  x8f; x0a; xe6; x9f; x9e; x0a; xe6; x9f;
  xb3; x0a; xe6; x9e; xb0; x0a; xe6; x9f;
  x99; x0a; xe6; x9f; xa2; x0a; xe6; x9f;
  x9d; x0a; xe6; x9f; x92; x0a; xe6; xad;
  xaa; x0a; xe6; xae; x83; x0a; xe6; xae;
  x86; x0a; xe6; xae; xb5; x0a; xe6; xaf;
  x92; x0a; xe6; xaf; x97; x0a; xe6; xb0;
  x9f; x0a; xe6; xb3; x89; x0a; xe6; xb4;
  x8b; x0a; xe6; xb4; xb2; x0a; xe6; xb4;
  xaa; x0a; xe6; xb5; x81; x0a; xe6; xb4;
  xa5; x0a; xe6; xb4; x8c; x0a; xe6; xb4;
  xb1; x0a; xe6; xb4; x9e; x0a; xe6; xb4;
  x97; x0a; xe6; xb4; xbb; x0a; xe6; xb4;
  xbd; x0a; xe6; xb4; xbe; x0a; xe6; xb4;
  xb6; x0a; xe6; xb4; x9b; x0a; xe6; xb3;
  xb5; x0a; xe6; xb4; xb9; x0a; xe6; xb4;
  xa7; x0a; xe6; xb4; xb8; x0a; xe6; xb4;
  xa9; x0a; xe6; xb4; xae; x0a; xe6; xb4;
  xb5; x0a; xe6; xb4; x8e; x0a; xe6; xb4;
  xab; x0a; xe7; x82; xab; x0a; xe7; x82;
  xba; x0a; xe7; x82; xb3; x0a; xe7; x82;
  xac; x0a; xe7; x82; xaf; x0a; xe7; x82;
  xad; x0a; xe7; x82; xb8; x0a; xe7; x82
].
(* tests/test_data/whatwg/big5_whatwg_test_decode_out.txt, entries 24320..24575 *)
Definition big5_decode_out_95 : list byte := [
  xae; x0a; xe7; x82; xa4; x0a; xe7; x88;
  xb0; x0a; xe7; x89; xb2; x0a; xe7; x89;
  xaf; x0a; xe7; x89; xb4; x0a; xe7; x8b;
  xa9; x0a; xe7; x8b; xa0; x0a; xe7; x8b;
  xa1; x0a; xe7; x8e; xb7; x0a; xe7; x8f;
  x8a; x0a; xe7; x8e; xbb; x0a; xe7; x8e;
  xb2; x0a; xe7; x8f; x8d; x0a; xe7; x8f;
  x80; x0a; xe7; x8e; xb3; x0a; xe7; x94;
  x9a; x0a; xe7; x94; xad; x0a; xe7; x95;
  x8f; x0a; xe7; x95; x8c; x0a; xe7; x95;
  x8e; x0a; xe7; x95; x8b; x0a; xe7; x96;
  xab; x0a; xe7; x96; xa4; x0a; xe7; x96;
  xa5; x0a; xe7; x96; xa2; x0a; xe7; x96;
  xa3; x0a; xe7; x99; xb8; x0a; xe7; x9a;
  x86; x0a; xe7; x9a; x87; x0a; xe7; x9a;
  x88; x0a; xe7; x9b; x88; x0a; xe7; x9b;
  x86; x0a; xe7; x9b; x83; x0a; xe7; x9b;
  x85; x0a; xe7; x9c; x81; x0a; xe7; x9b;
  xb9; x0a; xe7; x9b; xb8; x0a; xe7; x9c;
  x89; x0a; xe7; x9c; x8b; x0a; xe7; x9b;
  xbe; x0a; xe7; x9b; xbc; x0a; xe7; x9c;
  x87; x0a; xe7; x9f; x9c; x0a; xe7; xa0;
  x82; x0a; xe7; xa0; x94; x0a; xe7; xa0;
  x8c; x0a; xe7; xa0; x8d; x0a; xe7; xa5;
  x86; x0a; xe7; xa5; x89; x0a; xe7; xa5;
  x88; x0a; xe7; xa5; x87; x0a; xe7; xa6;
  xb9; x0a; xe7; xa6; xba; x0a; xe7; xa7;
  x91; x0a; xe7; xa7; x92; x0a; xe7; xa7;
  x8b; x0a; xe7; xa9; xbf; x0a; xe7; xaa;
  x81; x0a; xe7; xab; xbf; x0a; xe7; xab;
  xbd; x0a; xe7; xb1; xbd; x0a; xe7; xb4;
  x82; x0a; xe7; xb4; x85; x0a; xe7; xb4
].
(* tests/test_data/whatwg/big5_whatwg_test_decode_out.txt, entries 24576..24831 *)
Definition big5_decode_out_96 : list byte := [
  x80; x0a; xe7; xb4; x89; x0a; xe7; xb4;
  x87; x0a; xe7; xb4; x84; x0a; xe7; xb4;
  x86; x0a; xe7; xbc; xb8; x0a; xe7; xbe;
  x8e; x0a; xe7; xbe; xbf; x0a; xe8; x80;
  x84; x0a; xe8; x80; x90; x0a; xe8; x80;
  x8d; x0a; xe8; x80; x91; x0a; xe8; x80;
  xb6; x0a; xe8; x83; x96; x0a; xe8; x83;
  xa5; x0a; xe8; x83; x9a; x0a; xe8; x83;
  x83; x0a; xe8; x83; x84; x0a; xe8; x83;
  x8c; x0a; xe8; x83; xa1; x0a; xe8; x83;
  x9b; x0a; xe8; x83; x8e; x0a; xe8; x83;
  x9e; x0a; xe8; x83; xa4; x0a; xe8; x83;
  x9d; x0a; xe8; x87; xb4; x0a; xe8; x88;
  xa2; x0a; xe8; x8b; xa7; x0a; xe8; x8c;
  x83; x0a; xe8; x8c; x85; x0a; xe8; x8b;
  xa3; x0a; xe8; x8b; x9b; x0a; xe8; x8b;
  xa6; x0a; xe8; x8c; x84; x0a; xe8; x8b;
  xa5; x0a; xe8; x8c; x82; x0a; xe8; x8c;
  x89; x0a; xe8; x8b; x92; x0a; xe8; x8b;
  x97; x0a; xe8; x8b; xb1; x0a; xe8; x8c;
  x81; x0a; xe8; x8b; x9c; x0a; xe8; x8b;
  x94; x0a; xe8; x8b; x91; x0a; xe8; x8b;
  x9e; x0a; xe8; x8b; x93; x0a; xe8; x8b;
  x9f; x0a; xe8; x8b; xaf; x0a; xe8; x8c;
  x86; x0a; xe8; x99; x90; x0a; xe8; x99;
  xb9; x0a; xe8; x99; xbb; x0a; xe8; x99;
  xba; x0a; xe8; xa1; x8d; x0a; xe8; xa1;
  xab; x0a; xe8; xa6; x81; x0a; xe8; xa7;
  x94; x0a; xe8; xa8; x88; x0a; xe8; xa8;
  x82; x0a; xe8; xa8; x83; x0a; xe8; xb2;
  x9e; x0a; xe8; xb2; xa0; x0a; xe8; xb5;
  xb4; x0a; xe8; xb5; xb3; x0a; xe8; xb6
].
(* tests/test_data/whatwg/big5_whatwg_test_decode_out.txt, entries 24832..25087 *)
Definition big5_decode_out_97 : list byte := [
  xb4; x0a; xe8; xbb; x8d; x0a; xe8; xbb;
  x8c; x0a; xe8; xbf; xb0; x0a; xe8; xbf;
  xa6; x0a; xe8; xbf; xa2; x0a; xe8; xbf;
  xaa; x0a; xe8; xbf; xa5; x0a; xe8; xbf;
  xad; x0a; xe8; xbf; xab; x0a; xe8; xbf;
  xa4; x0a; xe8; xbf; xa8; x0a; xe9; x83;
  x8a; x0a; xe9; x83; x8e; x0a; xe9; x83;
  x81; x0a; xe9; x83; x83; x0a; xe9; x85;
  x8b; x0a; xe9; x85; x8a; x0a; xe9; x87;
  x8d; x0a; xe9; x96; x82; x0a; xe9; x99;
  x90; x0a; xe9; x99; x8b; x0a; xe9; x99;
  x8c; x0a; xe9; x99; x8d; x0a; xe9; x9d;
  xa2; x0a; xe9; x9d; xa9; x0a; xe9; x9f;
  x8b; x0a; xe9; x9f; xad; x0a; xe9; x9f;
  xb3; x0a; xe9; xa0; x81; x0a; xe9; xa2;
  xa8; x0a; xe9; xa3; x9b; x0a; xe9; xa3;
  x9f; x0a; xe9; xa6; x96; x0a; xe9; xa6;
  x99; x0a; xe4; xb9; x98; x0a; xe4; xba;
  xb3; x0a; xe5; x80; x8c; x0a; xe5; x80;
  x8d; x0a; xe5; x80; xa3; x0a; xe4; xbf;
  xaf; x0a; xe5; x80; xa6; x0a; xe5; x80;
  xa5; x0a; xe4; xbf; xb8; x0a; xe5; x80;
  xa9; x0a; xe5; x80; x96; x0a; xe5; x80;
  x86; x0a; xe5; x80; xbc; x0a; xe5; x80;
  x9f; x0a; xe5; x80; x9a; x0a; xe5; x80;
  x92; x0a; xe5; x80; x91; x0a; xe4; xbf;
  xba; x0a; xe5; x80; x80; x0a; xe5; x80;
  x94; x0a; xe5; x80; xa8; x0a; xe4; xbf;
  xb1; x0a; xe5; x80; xa1; x0a; xe5; x80;
  x8b; x0a; xe5; x80; x99; x0a; xe5; x80;
  x98; x0a; xe4; xbf; xb3; x0a; xe4; xbf;
  xae; x0a; xe5; x80; xad; x0a; xe5; x80
].
(* tests/test_data/whatwg/big5_whatwg_test_decode_out.txt, entries 25088..25343 *)
Definition big5_decode_out_98 : list byte := [
  xaa; x0a; xe4; xbf; xbe; x0a; xe5; x80;
  xab; x0a; xe5; x80; x89; x0a; xe5; x85;
  xbc; x0a; xe5; x86; xa4; x0a; xe5; x86;
  xa5; x0a; xe5; x86; xa2; x0a; xe5; x87;
  x8d; x0a; xe5; x87; x8c; x0a; xe5; x87;
  x86; x0a; xe5; x87; x8b; x0a; xe5; x89;
  x96; x0a; xe5; x89; x9c; x0a; xe5; x89;
  x94; x0a; xe5; x89; x9b; x0a; xe5; x89;
  x9d; x0a; xe5; x8c; xaa; x0a; xe5; x8d;
  xbf; x0a; xe5; x8e; x9f; x0a; xe5; x8e;
  x9d; x0a; xe5; x8f; x9f; x0a; xe5; x93;
  xa8; x0a; xe5; x94; x90; x0a; xe5; x94;
  x81; x0a; xe5; x94; xb7; x0a; xe5; x93;
  xbc; x0a; xe5; x93; xa5; x0a; xe5; x93;
  xb2; x0a; xe5; x94; x86; x0a; xe5; x93;
  xba; x0a; xe5; x94; x94; x0a; xe5; x93;
  xa9; x0a; xe5; x93; xad; x0a; xe5; x93;
  xa1; x0a; xe5; x94; x89; x0a; xe5; x93;
  xae; x0a; xe5; x93; xaa; x0a; xe5; x93;
  xa6; x0a; xe5; x94; xa7; x0a; xe5; x94;
  x87; x0a; xe5; x93; xbd; x0a; xe5; x94;
  x8f; x0a; xe5; x9c; x83; x0a; xe5; x9c;
  x84; x0a; xe5; x9f; x82; x0a; xe5; x9f;
  x94; x0a; xe5; x9f; x8b; x0a; xe5; x9f;
  x83; x0a; xe5; xa0; x89; x0a; xe5; xa4;
  x8f; x0a; xe5; xa5; x97; x0a; xe5; xa5;
  x98; x0a; xe5; xa5; x9a; x0a; xe5; xa8;
  x91; x0a; xe5; xa8; x98; x0a; xe5; xa8;
  x9c; x0a; xe5; xa8; x9f; x0a; xe5; xa8;
  x9b; x0a; xe5; xa8; x93; x0a; xe5; xa7;
  xac; x0a; xe5; xa8; xa0; x0a; xe5; xa8;
  xa3; x0a; xe5; xa8; xa9; x0a; xe5; xa8
].
(* tests/test_data/whatwg/big5_whatwg_test_decode_out.txt, entries 25344..25599 *)
Definition big5_decode_out_99 : list byte := [
  xa5; x0a; xe5; xa8; x8c; x0a; xe5; xa8;
  x89; x0a; xe5; xad; xab; x0a; xe5; xb1;
  x98; x0a; xe5; xae; xb0; x0a; xe5; xae;
  xb3; x0a; xe5; xae; xb6; x0a; xe5; xae;
  xb4; x0a; xe5; xae; xae; x0a; xe5; xae;
  xb5; x0a; xe5; xae; xb9; x0a; xe5; xae;
  xb8; x0a; xe5; xb0; x84; x0a; xe5; xb1;
  x91; x0a; xe5; xb1; x95; x0a; xe5; xb1;
  x90; x0a; xe5; xb3; xad; x0a; xe5; xb3;
  xbd; x0a; xe5; xb3; xbb; x0a; xe5; xb3;
  xaa; x0a; xe5; xb3; xa8; x0a; xe5; xb3;
  xb0; x0a; xe5; xb3; xb6; x0a; xe5; xb4;
  x81; x0a; xe5; xb3; xb4; x0a; xe5; xb7;
  xae; x0a; xe5; xb8; xad; x0a; xe5; xb8;
  xab; x0a; xe5; xba; xab; x0a; xe5; xba;
  xad; x0a; xe5; xba; xa7; x0a; xe5; xbc;
  xb1; x0a; xe5; xbe; x92; x0a; xe5; xbe;
  x91; x0a; xe5; xbe; x90; x0a; xe6; x81;
  x99; x0a; xe6; x81; xa3; x0a; xe6; x81;
  xa5; x0a; xe6; x81; x90; x0a; xe6; x81;
  x95; x0a; xe6; x81; xad; x0a; xe6; x81;
  xa9; x0a; xe6; x81; xaf; x0a; xe6; x82;
  x84; x0a; xe6; x82; x9f; x0a; xe6; x82;
  x9a; x0a; xe6; x82; x8d; x0a; xe6; x82;
  x94; x0a; xe6; x82; x8c; x0a; xe6; x82;
  x85; x0a; xe6; x82; x96; x0a; xe6; x89;
  x87; x0a; xe6; x8b; xb3; x0a; xe6; x8c;
  x88; x0a; xe6; x8b; xbf; x0a; xe6; x8d;
  x8e; x0a; xe6; x8c; xbe; x0a; xe6; x8c;
  xaf; x0a; xe6; x8d; x95; x0a; xe6; x8d;
  x82; x0a; xe6; x8d; x86; x0a; xe6; x8d;
  x8f; x0a; xe6; x8d; x89; x0a; xe6; x8c
].
(* tests/test_data/whatwg/big5_whatwg_test_decode_out.txt, entries 25600..25855 *)
Definition big5_decode_out_100 : list byte := [
  xba; x0a; xe6; x8d; x90; x0a; xe6; x8c;
  xbd; x0a; xe6; x8c; xaa; x0a; xe6; x8c;
  xab; x0a; xe6; x8c; xa8; x0a; xe6; x8d;
  x8d; x0a; xe6; x8d; x8c; x0a; xe6; x95;
  x88; x0a; xe6; x95; x89; x0a; xe6; x96;
  x99; x0a; xe6; x97; x81; x0a; xe6; x97;
  x85; x0a; xe6; x99; x82; x0a; xe6; x99;
  x89; x0a; xe6; x99; x8f; x0a; xe6; x99;
  x83; x0a; xe6; x99; x92; x0a; xe6; x99;
  x8c; x0a; xe6; x99; x85; x0a; xe6; x99;
  x81; x0a; xe6; x9b; xb8; x0a; xe6; x9c;
  x94; x0a; xe6; x9c; x95; x0a; xe6; x9c;
  x97; x0a; xe6; xa0; xa1; x0a; xe6; xa0;
  xb8; x0a; xe6; xa1; x88; x0a; xe6; xa1;
  x86; x0a; xe6; xa1; x93; x0a; xe6; xa0;
  xb9; x0a; xe6; xa1; x82; x0a; xe6; xa1;
  x94; x0a; xe6; xa0; xa9; x0a; xe6; xa2;
  xb3; x0a; xe6; xa0; x97; x0a; xe6; xa1;
  x8c; x0a; xe6; xa1; x91; x0a; xe6; xa0;
  xbd; x0a; xe6; x9f; xb4; x0a; xe6; xa1;
  x90; x0a; xe6; xa1; x80; x0a; xe6; xa0;
  xbc; x0a; xe6; xa1; x83; x0a; xe6; xa0;
  xaa; x0a; xe6; xa1; x85; x0a; xe6; xa0;
  x93; x0a; xe6; xa0; x98; x0a; xe6; xa1;
  x81; x0a; xe6; xae; x8a; x0a; xe6; xae;
  x89; x0a; xe6; xae; xb7; x0a; xe6; xb0;
  xa3; x0a; xe6; xb0; xa7; x0a; xe6; xb0;
  xa8; x0a; xe6; xb0; xa6; x0a; xe6; xb0;
  xa4; x0a; xe6; xb3; xb0; x0a; xe6; xb5;
  xaa; x0a; xe6; xb6; x95; x0a; xe6; xb6;
  x88; x0a; xe6; xb6; x87; x0a; xe6; xb5;
  xa6; x0a; xe6; xb5; xb8; x0a; xe6; xb5
].
(* tests/test_data/whatwg/big5_whatwg_test_decode_out.txt, entries 25856..26111 *)
Definition big5_decode_out_101 : list byte := [
  xb7; x0a; xe6; xb5; x99; x0a; xe6; xb6;
  x93; x0a; xe6; xb5; xac; x0a; xe6; xb6;
  x89; x0a; xe6; xb5; xae; x0a; xe6; xb5;
  x9a; x0a; xe6; xb5; xb4; x0a; xe6; xb5;
  xa9; x0a; xe6; xb6; x8c; x0a; xe6; xb6;
  x8a; x0a; xe6; xb5; xb9; x0a; xe6; xb6;
  x85; x0a; xe6; xb5; xa5; x0a; xe6; xb6;
  x94; x0a; xe7; x83; x8a; x0a; xe7; x83;
  x98; x0a; xe7; x83; xa4; x0a; xe7; x83;
  x99; x0a; xe7; x83; x88; x0a; xe7; x83;
  x8f; x0a; xe7; x88; xb9; x0a; xe7; x89;
  xb9; x0a; xe7; x8b; xbc; x0a; xe7; x8b;
  xb9; x0a; xe7; x8b; xbd; x0a; xe7; x8b;
  xb8; x0a; xe7; x8b; xb7; x0a; xe7; x8e;
  x86; x0a; xe7; x8f; xad; x0a; xe7; x90;
  x89; x0a; xe7; x8f; xae; x0a; xe7; x8f;
  xa0; x0a; xe7; x8f; xaa; x0a; xe7; x8f;
  x9e; x0a; xe7; x95; x94; x0a; xe7; x95;
  x9d; x0a; xe7; x95; x9c; x0a; xe7; x95;
  x9a; x0a; xe7; x95; x99; x0a; xe7; x96;
  xbe; x0a; xe7; x97; x85; x0a; xe7; x97;
  x87; x0a; xe7; x96; xb2; x0a; xe7; x96;
  xb3; x0a; xe7; x96; xbd; x0a; xe7; x96;
  xbc; x0a; xe7; x96; xb9; x0a; xe7; x97;
  x82; x0a; xe7; x96; xb8; x0a; xe7; x9a;
  x8b; x0a; xe7; x9a; xb0; x0a; xe7; x9b;
  x8a; x0a; xe7; x9b; x8d; x0a; xe7; x9b;
  x8e; x0a; xe7; x9c; xa9; x0a; xe7; x9c;
  x9f; x0a; xe7; x9c; xa0; x0a; xe7; x9c;
  xa8; x0a; xe7; x9f; xa9; x0a; xe7; xa0;
  xb0; x0a; xe7; xa0; xa7; x0a; xe7; xa0;
  xb8; x0a; xe7; xa0; x9d; x0a; xe7; xa0
].
(* tests/test_data/whatwg/big5_whatwg_test_decode_out.txt, entries 26112..26367 *)
Definition big5_decode_out_102 : list byte := [
  xb4; x0a; xe7; xa0; xb7; x0a; xe7; xa0;
  xa5; x0a; xe7; xa0; xad; x0a; xe7; xa0;
  xa0; x0a; xe7; xa0; x9f; x0a; xe7; xa0;
  xb2; x0a; xe7; xa5; x95; x0a; xe7; xa5;
  x90; x0a; xe7; xa5; xa0; x0a; xe7; xa5;
  x9f; x0a; xe7; xa5; x96; x0a; xe7; xa5;
  x9e; x0a; xe7; xa5; x9d; x0a; xe7; xa5;
  x97; x0a; xe7; xa5; x9a; x0a; xe7; xa7;
  xa4; x0a; xe7; xa7; xa3; x0a; xe7; xa7;
  xa7; x0a; xe7; xa7; x9f; x0a; xe7; xa7;
  xa6; x0a; xe7; xa7; xa9; x0a; xe7; xa7;
  x98; x0a; xe7; xaa; x84; x0a; xe7; xaa;
  x88; x0a; xe7; xab; x99; x0a; xe7; xac;
  x86; x0a; xe7; xac; x91; x0a; xe7; xb2;
  x89; x0a; xe7; xb4; xa1; x0a; xe7; xb4;
  x97; x0a; xe7; xb4; x8b; x0a; xe7; xb4;
  x8a; x0a; xe7; xb4; xa0; x0a; xe7; xb4;
  xa2; x0a; xe7; xb4; x94; x0a; xe7; xb4;
  x90; x0a; xe7; xb4; x95; x0a; xe7; xb4;
  x9a; x0a; xe7; xb4; x9c; x0a; xe7; xb4;
  x8d; x0a; xe7; xb4; x99; x0a; xe7; xb4;
  x9b; x0a; xe7; xbc; xba; x0a; xe7; xbd;
  x9f; x0a; xe7; xbe; x94; x0a; xe7; xbf;
  x85; x0a; xe7; xbf; x81; x0a; xe8; x80;
  x86; x0a; xe8; x80; x98; x0a; xe8; x80;
  x95; x0a; xe8; x80; x99; x0a; xe8; x80;
  x97; x0a; xe8; x80; xbd; x0a; xe8; x80;
  xbf; x0a; xe8; x83; xb1; x0a; xe8; x84;
  x82; x0a; xe8; x83; xb0; x0a; xe8; x84;
  x85; x0a; xe8; x83; xad; x0a; xe8; x83;
  xb4; x0a; xe8; x84; x86; x0a; xe8; x83;
  xb8; x0a; xe8; x83; xb3; x0a; xe8; x84
].
(* tests/test_data/whatwg/big5_whatwg_test_decode_out.txt, entries 26368..26623 *)
Definition big5_decode_out_103 : list byte := [
  x88; x0a; xe8; x83; xbd; x0a; xe8; x84;
  x8a; x0a; xe8; x83; xbc; x0a; xe8; x83;
  xaf; x0a; xe8; x87; xad; x0a; xe8; x87;
  xac; x0a; xe8; x88; x80; x0a; xe8; x88;
  x90; x0a; xe8; x88; xaa; x0a; xe8; x88;
  xab; x0a; xe8; x88; xa8; x0a; xe8; x88;
  xac; x0a; xe8; x8a; xbb; x0a; xe8; x8c;
  xab; x0a; xe8; x8d; x92; x0a; xe8; x8d;
  x94; x0a; xe8; x8d; x8a; x0a; xe8; x8c;
  xb8; x0a; xe8; x8d; x90; x0a; xe8; x8d;
  x89; x0a; xe8; x8c; xb5; x0a; xe8; x8c;
  xb4; x0a; xe8; x8d; x8f; x0a; xe8; x8c;
  xb2; x0a; xe8; x8c; xb9; x0a; xe8; x8c;
  xb6; x0a; xe8; x8c; x97; x0a; xe8; x8d;
  x80; x0a; xe8; x8c; xb1; x0a; xe8; x8c;
  xa8; x0a; xe8; x8d; x83; x0a; xe8; x99;
  x94; x0a; xe8; x9a; x8a; x0a; xe8; x9a;
  xaa; x0a; xe8; x9a; x93; x0a; xe8; x9a;
  xa4; x0a; xe8; x9a; xa9; x0a; xe8; x9a;
  x8c; x0a; xe8; x9a; xa3; x0a; xe8; x9a;
  x9c; x0a; xe8; xa1; xb0; x0a; xe8; xa1;
  xb7; x0a; xe8; xa2; x81; x0a; xe8; xa2;
  x82; x0a; xe8; xa1; xbd; x0a; xe8; xa1;
  xb9; x0a; xe8; xa8; x98; x0a; xe8; xa8;
  x90; x0a; xe8; xa8; x8e; x0a; xe8; xa8;
  x8c; x0a; xe8; xa8; x95; x0a; xe8; xa8;
  x8a; x0a; xe8; xa8; x97; x0a; xe8; xa8;
  x93; x0a; xe8; xa8; x96; x0a; xe8; xa8;
  x8f; x0a; xe8; xa8; x91; x0a; xe8; xb1;
  x88; x0a; xe8; xb1; xba; x0a; xe8; xb1;
  xb9; x0a; xe8; xb2; xa1; x0a; xe8; xb2;
  xa2; x0a; xe8; xb5; xb7; x0a; xe8; xba
].
(* tests/test_data/whatwg/big5_whatwg_test_decode_out.txt, entries 26624..26879 *)
Definition big5_decode_out_104 : list byte := [
  xac; x0a; xe8; xbb; x92; x0a; xe8; xbb;
  x94; x0a; xe8; xbb; x8f; x0a; xe8; xbe;
  xb1; x0a; xe9; x80; x81; x0a; xe9; x80;
  x86; x0a; xe8; xbf; xb7; x0a; xe9; x80;
  x80; x0a; xe8; xbf; xba; x0a; xe8; xbf;
  xb4; x0a; xe9; x80; x83; x0a; xe8; xbf;
  xbd; x0a; xe9; x80; x85; x0a; xe8; xbf;
  xb8; x0a; xe9; x82; x95; x0a; xe9; x83;
  xa1; x0a; xe9; x83; x9d; x0a; xe9; x83;
  xa2; x0a; xe9; x85; x92; x0a; xe9; x85;
  x8d; x0a; xe9; x85; x8c; x0a; xe9; x87;
  x98; x0a; xe9; x87; x9d; x0a; xe9; x87;
  x97; x0a; xe9; x87; x9c; x0a; xe9; x87;
  x99; x0a; xe9; x96; x83; x0a; xe9; x99;
  xa2; x0a; xe9; x99; xa3; x0a; xe9; x99;
  xa1; x0a; xe9; x99; x9b; x0a; xe9; x99;
  x9d; x0a; xe9; x99; xa4; x0a; xe9; x99;
  x98; x0a; xe9; x99; x9e; x0a; xe9; x9a;
  xbb; x0a; xe9; xa3; xa2; x0a; xe9; xa6;
  xac; x0a; xe9; xaa; xa8; x0a; xe9; xab;
  x98; x0a; xe9; xac; xa5; x0a; xe9; xac;
  xb2; x0a; xe9; xac; xbc; x0a; xe4; xb9;
  xbe; x0a; xe5; x81; xba; x0a; xe5; x81;
  xbd; x0a; xe5; x81; x9c; x0a; xe5; x81;
  x87; x0a; xe5; x81; x83; x0a; xe5; x81;
  x8c; x0a; xe5; x81; x9a; x0a; xe5; x81;
  x89; x0a; xe5; x81; xa5; x0a; xe5; x81;
  xb6; x0a; xe5; x81; x8e; x0a; xe5; x81;
  x95; x0a; xe5; x81; xb5; x0a; xe5; x81;
  xb4; x0a; xe5; x81; xb7; x0a; xe5; x81;
  x8f; x0a; xe5; x80; x8f; x0a; xe5; x81;
  xaf; x0a; xe5; x81; xad; x0a; xe5; x85
].
(* tests/test_data/whatwg/big5_whatwg_test_decode_out.txt, entries 26880..27135 *)
Definition big5_decode_out_105 : list byte := [
  x9c; x0a; xe5; x86; x95; x0a; xe5; x87;
  xb0; x0a; xe5; x89; xaa; x0a; xe5; x89;
  xaf; x0a; xe5; x8b; x92; x0a; xe5; x8b;
  x99; x0a; xe5; x8b; x98; x0a; xe5; x8b;
  x95; x0a; xe5; x8c; x90; x0a; xe5; x8c;
  x8f; x0a; xe5; x8c; x99; x0a; xe5; x8c;
  xbf; x0a; xe5; x8d; x80; x0a; xe5; x8c;
  xbe; x0a; xe5; x8f; x83; x0a; xe6; x9b;
  xbc; x0a; xe5; x95; x86; x0a; xe5; x95;
  xaa; x0a; xe5; x95; xa6; x0a; xe5; x95;
  x84; x0a; xe5; x95; x9e; x0a; xe5; x95;
  xa1; x0a; xe5; x95; x83; x0a; xe5; x95;
  x8a; x0a; xe5; x94; xb1; x0a; xe5; x95;
  x96; x0a; xe5; x95; x8f; x0a; xe5; x95;
  x95; x0a; xe5; x94; xaf; x0a; xe5; x95;
  xa4; x0a; xe5; x94; xb8; x0a; xe5; x94;
  xae; x0a; xe5; x95; x9c; x0a; xe5; x94;
  xac; x0a; xe5; x95; xa3; x0a; xe5; x94;
  xb3; x0a; xe5; x95; x81; x0a; xe5; x95;
  x97; x0a; xe5; x9c; x88; x0a; xe5; x9c;
  x8b; x0a; xe5; x9c; x89; x0a; xe5; x9f;
  x9f; x0a; xe5; xa0; x85; x0a; xe5; xa0;
  x8a; x0a; xe5; xa0; x86; x0a; xe5; x9f;
  xa0; x0a; xe5; x9f; xa4; x0a; xe5; x9f;
  xba; x0a; xe5; xa0; x82; x0a; xe5; xa0;
  xb5; x0a; xe5; x9f; xb7; x0a; xe5; x9f;
  xb9; x0a; xe5; xa4; xa0; x0a; xe5; xa5;
  xa2; x0a; xe5; xa8; xb6; x0a; xe5; xa9;
  x81; x0a; xe5; xa9; x89; x0a; xe5; xa9;
  xa6; x0a; xe5; xa9; xaa; x0a; xe5; xa9;
  x80; x0a; xe5; xa8; xbc; x0a; xe5; xa9;
  xa2; x0a; xe5; xa9; x9a; x0a; xe5; xa9
].
(* tests/test_data/whatwg/big5_whatwg_test_decode_out.txt, entries 27136..27391 *)
Definition big5_decode_out_106 : list byte := [
  x86; x0a; xe5; xa9; x8a; x0a; xe5; xad;
  xb0; x0a; xe5; xaf; x87; x0a; xe5; xaf;
  x85; x0a; xe5; xaf; x84; x0a; xe5; xaf;
  x82; x0a; xe5; xae; xbf; x0a; xe5; xaf;
  x86; x0a; xe5; xb0; x89; x0a; xe5; xb0;
  x88; x0a; xe5; xb0; x87; x0a; xe5; xb1;
  xa0; x0a; xe5; xb1; x9c; x0a; xe5; xb1;
  x9d; x0a; xe5; xb4; x87; x0a; xe5; xb4;
  x86; x0a; xe5; xb4; x8e; x0a; xe5; xb4;
  x9b; x0a; xe5; xb4; x96; x0a; xe5; xb4;
  xa2; x0a; xe5; xb4; x91; x0a; xe5; xb4;
  xa9; x0a; xe5; xb4; x94; x0a; xe5; xb4;
  x99; x0a; xe5; xb4; xa4; x0a; xe5; xb4;
  xa7; x0a; xe5; xb4; x97; x0a; xe5; xb7;
  xa2; x0a; xe5; xb8; xb8; x0a; xe5; xb8;
  xb6; x0a; xe5; xb8; xb3; x0a; xe5; xb8;
  xb7; x0a; xe5; xba; xb7; x0a; xe5; xba;
  xb8; x0a; xe5; xba; xb6; x0a; xe5; xba;
  xb5; x0a; xe5; xba; xbe; x0a; xe5; xbc;
  xb5; x0a; xe5; xbc; xb7; x0a; xe5; xbd;
  x97; x0a; xe5; xbd; xac; x0a; xe5; xbd;
  xa9; x0a; xe5; xbd; xab; x0a; xe5; xbe;
  x97; x0a; xe5; xbe; x99; x0a; xe5; xbe;
  x9e; x0a; xe5; xbe; x98; x0a; xe5; xbe;
  xa1; x0a; xe5; xbe; xa0; x0a; xe5; xbe;
  x9c; x0a; xe6; x81; xbf; x0a; xe6; x82;
  xa3; x0a; xe6; x82; x89; x0a; xe6; x82;
  xa0; x0a; xe6; x82; xa8; x0a; xe6; x83;
  x8b; x0a; xe6; x82; xb4; x0a; xe6; x83;
  xa6; x0a; xe6; x82; xbd; x0a; xe6; x83;
  x85; x0a; xe6; x82; xbb; x0a; xe6; x82;
  xb5; x0a; xe6; x83; x9c; x0a; xe6; x82
].
(* tests/test_data/whatwg/big5_whatwg_test_decode_out.txt, entries 27392..27647 *)
Definition big5_decode_out_107 : list byte := [
  xbc; x0a; xe6; x83; x98; x0a; xe6; x83;
  x95; x0a; xe6; x83; x86; x0a; xe6; x83;
  x9f; x0a; xe6; x82; xb8; x0a; xe6; x83;
  x9a; x0a; xe6; x83; x87; x0a; xe6; x88;
  x9a; x0a; xe6; x88; x9b; x0a; xe6; x89;
  x88; x0a; xe6; x8e; xa0; x0a; xe6; x8e;
  xa7; x0a; xe6; x8d; xb2; x0a; xe6; x8e;
  x96; x0a; xe6; x8e; xa2; x0a; xe6; x8e;
  xa5; x0a; xe6; x8d; xb7; x0a; xe6; x8d;
  xa7; x0a; xe6; x8e; x98; x0a; xe6; x8e;
  xaa; x0a; xe6; x8d; xb1; x0a; xe6; x8e;
  xa9; x0a; xe6; x8e; x89; x0a; xe6; x8e;
  x83; x0a; xe6; x8e; x9b; x0a; xe6; x8d;
  xab; x0a; xe6; x8e; xa8; x0a; xe6; x8e;
  x84; x0a; xe6; x8e; x88; x0a; xe6; x8e;
  x99; x0a; xe6; x8e; xa1; x0a; xe6; x8e;
  xac; x0a; xe6; x8e; x92; x0a; xe6; x8e;
  x8f; x0a; xe6; x8e; x80; x0a; xe6; x8d;
  xbb; x0a; xe6; x8d; xa9; x0a; xe6; x8d;
  xa8; x0a; xe6; x8d; xba; x0a; xe6; x95;
  x9d; x0a; xe6; x95; x96; x0a; xe6; x95;
  x91; x0a; xe6; x95; x99; x0a; xe6; x95;
  x97; x0a; xe5; x95; x9f; x0a; xe6; x95;
  x8f; x0a; xe6; x95; x98; x0a; xe6; x95;
  x95; x0a; xe6; x95; x94; x0a; xe6; x96;
  x9c; x0a; xe6; x96; x9b; x0a; xe6; x96;
  xac; x0a; xe6; x97; x8f; x0a; xe6; x97;
  x8b; x0a; xe6; x97; x8c; x0a; xe6; x97;
  x8e; x0a; xe6; x99; x9d; x0a; xe6; x99;
  x9a; x0a; xe6; x99; xa4; x0a; xe6; x99;
  xa8; x0a; xe6; x99; xa6; x0a; xe6; x99;
  x9e; x0a; xe6; x9b; xb9; x0a; xe5; x8b
].
(* tests/test_data/whatwg/big5_whatwg_test_decode_out.txt, entries 27648..27903 *)
Definition big5_decode_out_108 : list byte := [
  x97; x0a; xe6; x9c; x9b; x0a; xe6; xa2;
  x81; x0a; xe6; xa2; xaf; x0a; xe6; xa2;
  xa2; x0a; xe6; xa2; x93; x0a; xe6; xa2;
  xb5; x0a; xe6; xa1; xbf; x0a; xe6; xa1;
  xb6; x0a; xe6; xa2; xb1; x0a; xe6; xa2;
  xa7; x0a; xe6; xa2; x97; x0a; xe6; xa2;
  xb0; x0a; xe6; xa2; x83; x0a; xe6; xa3;
  x84; x0a; xe6; xa2; xad; x0a; xe6; xa2;
  x86; x0a; xe6; xa2; x85; x0a; xe6; xa2;
  x94; x0a; xe6; xa2; x9d; x0a; xe6; xa2;
  xa8; x0a; xe6; xa2; x9f; x0a; xe6; xa2;
  xa1; x0a; xe6; xa2; x82; x0a; xe6; xac;
  xb2; x0a; xe6; xae; xba; x0a; xe6; xaf;
  xab; x0a; xe6; xaf; xac; x0a; xe6; xb0;
  xab; x0a; xe6; xb6; x8e; x0a; xe6; xb6;
  xbc; x0a; xe6; xb7; xb3; x0a; xe6; xb7;
  x99; x0a; xe6; xb6; xb2; x0a; xe6; xb7;
  xa1; x0a; xe6; xb7; x8c; x0a; xe6; xb7;
  xa4; x0a; xe6; xb7; xbb; x0a; xe6; xb7;
  xba; x0a; xe6; xb8; x85; x0a; xe6; xb7;
  x87; x0a; xe6; xb7; x8b; x0a; xe6; xb6;
  xaf; x0a; xe6; xb7; x91; x0a; xe6; xb6;
  xae; x0a; xe6; xb7; x9e; x0a; xe6; xb7;
  xb9; x0a; xe6; xb6; xb8; x0a; xe6; xb7;
  xb7; x0a; xe6; xb7; xb5; x0a; xe6; xb7;
  x85; x0a; xe6; xb7; x92; x0a; xe6; xb8;
  x9a; x0a; xe6; xb6; xb5; x0a; xe6; xb7;
  x9a; x0a; xe6; xb7; xab; x0a; xe6; xb7;
  x98; x0a; xe6; xb7; xaa; x0a; xe6; xb7;
  xb1; x0a; xe6; xb7; xae; x0a; xe6; xb7;
  xa8; x0a; xe6; xb7; x86; x0a; xe6; xb7;
  x84; x0a; xe6; xb6; xaa; x0a; xe6; xb7
].
(* tests/test_data/whatwg/big5_whatwg_test_decode_out.txt, entries 27904..28159 *)
Definition big5_decode_out_109 : list byte := [
  xac; x0a; xe6; xb6; xbf; x0a; xe6; xb7;
  xa6; x0a; xe7; x83; xb9; x0a; xe7; x84;
  x89; x0a; xe7; x84; x8a; x0a; xe7; x83;
  xbd; x0a; xe7; x83; xaf; x0a; xe7; x88;
  xbd; x0a; xe7; x89; xbd; x0a; xe7; x8a;
  x81; x0a; xe7; x8c; x9c; x0a; xe7; x8c;
  x9b; x0a; xe7; x8c; x96; x0a; xe7; x8c;
  x93; x0a; xe7; x8c; x99; x0a; xe7; x8e;
  x87; x0a; xe7; x90; x85; x0a; xe7; x90;
  x8a; x0a; xe7; x90; x83; x0a; xe7; x90;
  x86; x0a; xe7; x8f; xbe; x0a; xe7; x90;
  x8d; x0a; xe7; x93; xa0; x0a; xe7; x93;
  xb6; x0a; xe7; x93; xb7; x0a; xe7; x94;
  x9c; x0a; xe7; x94; xa2; x0a; xe7; x95;
  xa5; x0a; xe7; x95; xa6; x0a; xe7; x95;
  xa2; x0a; xe7; x95; xb0; x0a; xe7; x96;
  x8f; x0a; xe7; x97; x94; x0a; xe7; x97;
  x95; x0a; xe7; x96; xb5; x0a; xe7; x97;
  x8a; x0a; xe7; x97; x8d; x0a; xe7; x9a;
  x8e; x0a; xe7; x9b; x94; x0a; xe7; x9b;
  x92; x0a; xe7; x9b; x9b; x0a; xe7; x9c;
  xb7; x0a; xe7; x9c; xbe; x0a; xe7; x9c;
  xbc; x0a; xe7; x9c; xb6; x0a; xe7; x9c;
  xb8; x0a; xe7; x9c; xba; x0a; xe7; xa1;
  xab; x0a; xe7; xa1; x83; x0a; xe7; xa1;
  x8e; x0a; xe7; xa5; xa5; x0a; xe7; xa5;
  xa8; x0a; xe7; xa5; xad; x0a; xe7; xa7;
  xbb; x0a; xe7; xaa; x92; x0a; xe7; xaa;
  x95; x0a; xe7; xac; xa0; x0a; xe7; xac;
  xa8; x0a; xe7; xac; x9b; x0a; xe7; xac;
  xac; x0a; xe7; xac; xa6; x0a; xe7; xac;
  x99; x0a; xe7; xac; x9e; x0a; xe7; xac
].
(* tests/test_data/whatwg/big5_whatwg_test_decode_out.txt, entries 28160..28415 *)
Definition big5_decode_out_110 : list byte := [
  xae; x0a; xe7; xb2; x92; x0a; xe7; xb2;
  x97; x0a; xe7; xb2; x95; x0a; xe7; xb5;
  x86; x0a; xe7; xb5; x83; x0a; xe7; xb5;
  xb1; x0a; xe7; xb4; xae; x0a; xe7; xb4;
  xb9; x0a; xe7; xb4; xbc; x0a; xe7; xb5;
  x80; x0a; xe7; xb4; xb0; x0a; xe7; xb4;
  xb3; x0a; xe7; xb5; x84; x0a; xe7; xb4;
  xaf; x0a; xe7; xb5; x82; x0a; xe7; xb4;
  xb2; x0a; xe7; xb4; xb1; x0a; xe7; xbc;
  xbd; x0a; xe7; xbe; x9e; x0a; xe7; xbe;
  x9a; x0a; xe7; xbf; x8c; x0a; xe7; xbf;
  x8e; x0a; xe7; xbf; x92; x0a; xe8; x80;
  x9c; x0a; xe8; x81; x8a; x0a; xe8; x81;
  x86; x0a; xe8; x84; xaf; x0a; xe8; x84;
  x96; x0a; xe8; x84; xa3; x0a; xe8; x84;
  xab; x0a; xe8; x84; xa9; x0a; xe8; x84;
  xb0; x0a; xe8; x84; xa4; x0a; xe8; x88;
  x82; x0a; xe8; x88; xb5; x0a; xe8; x88;
  xb7; x0a; xe8; x88; xb6; x0a; xe8; x88;
  xb9; x0a; xe8; x8e; x8e; x0a; xe8; x8e;
  x9e; x0a; xe8; x8e; x98; x0a; xe8; x8d;
  xb8; x0a; xe8; x8e; xa2; x0a; xe8; x8e;
  x96; x0a; xe8; x8e; xbd; x0a; xe8; x8e;
  xab; x0a; xe8; x8e; x92; x0a; xe8; x8e;
  x8a; x0a; xe8; x8e; x93; x0a; xe8; x8e;
  x89; x0a; xe8; x8e; xa0; x0a; xe8; x8d;
  xb7; x0a; xe8; x8d; xbb; x0a; xe8; x8d;
  xbc; x0a; xe8; x8e; x86; x0a; xe8; x8e;
  xa7; x0a; xe8; x99; x95; x0a; xe5; xbd;
  xaa; x0a; xe8; x9b; x87; x0a; xe8; x9b;
  x80; x0a; xe8; x9a; xb6; x0a; xe8; x9b;
  x84; x0a; xe8; x9a; xb5; x0a; xe8; x9b
].
(* tests/test_data/whatwg/big5_whatwg_test_decode_out.txt, entries 28416..28671 *)
Definition big5_decode_out_111 : list byte := [
  x86; x0a; xe8; x9b; x8b; x0a; xe8; x9a;
  xb1; x0a; xe8; x9a; xaf; x0a; xe8; x9b;
  x89; x0a; xe8; xa1; x93; x0a; xe8; xa2;
  x9e; x0a; xe8; xa2; x88; x0a; xe8; xa2;
  xab; x0a; xe8; xa2; x92; x0a; xe8; xa2;
  x96; x0a; xe8; xa2; x8d; x0a; xe8; xa2;
  x8b; x0a; xe8; xa6; x93; x0a; xe8; xa6;
  x8f; x0a; xe8; xa8; xaa; x0a; xe8; xa8;
  x9d; x0a; xe8; xa8; xa3; x0a; xe8; xa8;
  xa5; x0a; xe8; xa8; xb1; x0a; xe8; xa8;
  xad; x0a; xe8; xa8; x9f; x0a; xe8; xa8;
  x9b; x0a; xe8; xa8; xa2; x0a; xe8; xb1;
  x89; x0a; xe8; xb1; x9a; x0a; xe8; xb2;
  xa9; x0a; xe8; xb2; xac; x0a; xe8; xb2;
  xab; x0a; xe8; xb2; xa8; x0a; xe8; xb2;
  xaa; x0a; xe8; xb2; xa7; x0a; xe8; xb5;
  xa7; x0a; xe8; xb5; xa6; x0a; xe8; xb6;
  xbe; x0a; xe8; xb6; xba; x0a; xe8; xbb;
  x9b; x0a; xe8; xbb; x9f; x0a; xe9; x80;
  x99; x0a; xe9; x80; x8d; x0a; xe9; x80;
  x9a; x0a; xe9; x80; x97; x0a; xe9; x80;
  xa3; x0a; xe9; x80; x9f; x0a; xe9; x80;
  x9d; x0a; xe9; x80; x90; x0a; xe9; x80;
  x95; x0a; xe9; x80; x9e; x0a; xe9; x80;
  xa0; x0a; xe9; x80; x8f; x0a; xe9; x80;
  xa2; x0a; xe9; x80; x96; x0a; xe9; x80;
  x9b; x0a; xe9; x80; x94; x0a; xe9; x83;
  xa8; x0a; xe9; x83; xad; x0a; xe9; x83;
  xbd; x0a; xe9; x85; x97; x0a; xe9; x87;
  x8e; x0a; xe9; x87; xb5; x0a; xe9; x87;
  xa6; x0a; xe9; x87; xa3; x0a; xe9; x87;
  xa7; x0a; xe9; x87; xad; x0a; xe9; x87
].
(* tests/test_data/whatwg/big5_whatwg_test_decode_out.txt, entries 28672..28927 *)
Definition big5_decode_out_112 : list byte := [
  xa9; x0a; xe9; x96; x89; x0a; xe9; x99;
  xaa; x0a; xe9; x99; xb5; x0a; xe9; x99;
  xb3; x0a; xe9; x99; xb8; x0a; xe9; x99;
  xb0; x0a; xe9; x99; xb4; x0a; xe9; x99;
  xb6; x0a; xe9; x99; xb7; x0a; xe9; x99;
  xac; x0a; xe9; x9b; x80; x0a; xe9; x9b;
  xaa; x0a; xe9; x9b; xa9; x0a; xe7; xab;
  xa0; x0a; xe7; xab; x9f; x0a; xe9; xa0;
  x82; x0a; xe9; xa0; x83; x0a; xe9; xad;
  x9a; x0a; xe9; xb3; xa5; x0a; xe9; xb9;
  xb5; x0a; xe9; xb9; xbf; x0a; xe9; xba;
  xa5; x0a; xe9; xba; xbb; x0a; xe5; x82;
  xa2; x0a; xe5; x82; x8d; x0a; xe5; x82;
  x85; x0a; xe5; x82; x99; x0a; xe5; x82;
  x91; x0a; xe5; x82; x80; x0a; xe5; x82;
  x96; x0a; xe5; x82; x98; x0a; xe5; x82;
  x9a; x0a; xe6; x9c; x80; x0a; xe5; x87;
  xb1; x0a; xe5; x89; xb2; x0a; xe5; x89;
  xb4; x0a; xe5; x89; xb5; x0a; xe5; x89;
  xa9; x0a; xe5; x8b; x9e; x0a; xe5; x8b;
  x9d; x0a; xe5; x8b; x9b; x0a; xe5; x8d;
  x9a; x0a; xe5; x8e; xa5; x0a; xe5; x95;
  xbb; x0a; xe5; x96; x80; x0a; xe5; x96;
  xa7; x0a; xe5; x95; xbc; x0a; xe5; x96;
  x8a; x0a; xe5; x96; x9d; x0a; xe5; x96;
  x98; x0a; xe5; x96; x82; x0a; xe5; x96;
  x9c; x0a; xe5; x96; xaa; x0a; xe5; x96;
  x94; x0a; xe5; x96; x87; x0a; xe5; x96;
  x8b; x0a; xe5; x96; x83; x0a; xe5; x96;
  xb3; x0a; xe5; x96; xae; x0a; xe5; x96;
  x9f; x0a; xe5; x94; xbe; x0a; xe5; x96;
  xb2; x0a; xe5; x96; x9a; x0a; xe5; x96
].
(* tests/test_data/whatwg/big5_whatwg_test_decode_out.txt, entries 28928..29183 *)
Definition big5_decode_out_113 : list byte := [
  xbb; x0a; xe5; x96; xac; x0a; xe5; x96;
  xb1; x0a; xe5; x95; xbe; x0a; xe5; x96;
  x89; x0a; xe5; x96; xab; x0a; xe5; x96;
  x99; x0a; xe5; x9c; x8d; x0a; xe5; xa0;
  xaf; x0a; xe5; xa0; xaa; x0a; xe5; xa0;
  xb4; x0a; xe5; xa0; xa4; x0a; xe5; xa0;
  xb0; x0a; xe5; xa0; xb1; x0a; xe5; xa0;
  xa1; x0a; xe5; xa0; x9d; x0a; xe5; xa0;
  xa0; x0a; xe5; xa3; xb9; x0a; xe5; xa3;
  xba; x0a; xe5; xa5; xa0; x0a; xe5; xa9;
  xb7; x0a; xe5; xaa; x9a; x0a; xe5; xa9;
  xbf; x0a; xe5; xaa; x92; x0a; xe5; xaa;
  x9b; x0a; xe5; xaa; xa7; x0a; xe5; xad;
  xb3; x0a; xe5; xad; xb1; x0a; xe5; xaf;
  x92; x0a; xe5; xaf; x8c; x0a; xe5; xaf;
  x93; x0a; xe5; xaf; x90; x0a; xe5; xb0;
  x8a; x0a; xe5; xb0; x8b; x0a; xe5; xb0;
  xb1; x0a; xe5; xb5; x8c; x0a; xe5; xb5;
  x90; x0a; xe5; xb4; xb4; x0a; xe5; xb5;
  x87; x0a; xe5; xb7; xbd; x0a; xe5; xb9;
  x85; x0a; xe5; xb8; xbd; x0a; xe5; xb9;
  x80; x0a; xe5; xb9; x83; x0a; xe5; xb9;
  xbe; x0a; xe5; xbb; x8a; x0a; xe5; xbb;
  x81; x0a; xe5; xbb; x82; x0a; xe5; xbb;
  x84; x0a; xe5; xbc; xbc; x0a; xe5; xbd;
  xad; x0a; xe5; xbe; xa9; x0a; xe5; xbe;
  xaa; x0a; xe5; xbe; xa8; x0a; xe6; x83;
  x91; x0a; xe6; x83; xa1; x0a; xe6; x82;
  xb2; x0a; xe6; x82; xb6; x0a; xe6; x83;
  xa0; x0a; xe6; x84; x9c; x0a; xe6; x84;
  xa3; x0a; xe6; x83; xba; x0a; xe6; x84;
  x95; x0a; xe6; x83; xb0; x0a; xe6; x83
].
(* tests/test_data/whatwg/big5_whatwg_test_decode_out.txt, entries 29184..29439 *)
Definition big5_decode_out_114 : list byte := [
  xbb; x0a; xe6; x83; xb4; x0a; xe6; x85;
  xa8; x0a; xe6; x83; xb1; x0a; xe6; x84;
  x8e; x0a; xe6; x83; xb6; x0a; xe6; x84;
  x89; x0a; xe6; x84; x80; x0a; xe6; x84;
  x92; x0a; xe6; x88; x9f; x0a; xe6; x89;
  x89; x0a; xe6; x8e; xa3; x0a; xe6; x8e;
  x8c; x0a; xe6; x8f; x8f; x0a; xe6; x8f;
  x80; x0a; xe6; x8f; xa9; x0a; xe6; x8f;
  x89; x0a; xe6; x8f; x86; x0a; xe6; x8f;
  x8d; x0a; xe6; x8f; x92; x0a; xe6; x8f;
  xa3; x0a; xe6; x8f; x90; x0a; xe6; x8f;
  xa1; x0a; xe6; x8f; x96; x0a; xe6; x8f;
  xad; x0a; xe6; x8f; xae; x0a; xe6; x8d;
  xb6; x0a; xe6; x8f; xb4; x0a; xe6; x8f;
  xaa; x0a; xe6; x8f; x9b; x0a; xe6; x91;
  x92; x0a; xe6; x8f; x9a; x0a; xe6; x8f;
  xb9; x0a; xe6; x95; x9e; x0a; xe6; x95;
  xa6; x0a; xe6; x95; xa2; x0a; xe6; x95;
  xa3; x0a; xe6; x96; x91; x0a; xe6; x96;
  x90; x0a; xe6; x96; xaf; x0a; xe6; x99;
  xae; x0a; xe6; x99; xb0; x0a; xe6; x99;
  xb4; x0a; xe6; x99; xb6; x0a; xe6; x99;
  xaf; x0a; xe6; x9a; x91; x0a; xe6; x99;
  xba; x0a; xe6; x99; xbe; x0a; xe6; x99;
  xb7; x0a; xe6; x9b; xbe; x0a; xe6; x9b;
  xbf; x0a; xe6; x9c; x9f; x0a; xe6; x9c;
  x9d; x0a; xe6; xa3; xba; x0a; xe6; xa3;
  x95; x0a; xe6; xa3; xa0; x0a; xe6; xa3;
  x98; x0a; xe6; xa3; x97; x0a; xe6; xa4;
  x85; x0a; xe6; xa3; x9f; x0a; xe6; xa3;
  xb5; x0a; xe6; xa3; xae; x0a; xe6; xa3;
  xa7; x0a; xe6; xa3; xb9; x0a; xe6; xa3
].
(* tests/test_data/whatwg/big5_whatwg_test_decode_out.txt, entries 29440..29695 *)
Definition big5_decode_out_115 : list byte := [
  x92; x0a; xe6; xa3; xb2; x0a; xe6; xa3;
  xa3; x0a; xe6; xa3; x8b; x0a; xe6; xa3;
  x8d; x0a; xe6; xa4; x8d; x0a; xe6; xa4;
  x92; x0a; xe6; xa4; x8e; x0a; xe6; xa3;
  x89; x0a; xe6; xa3; x9a; x0a; xe6; xa5;
  xae; x0a; xe6; xa3; xbb; x0a; xe6; xac;
  xbe; x0a; xe6; xac; xba; x0a; xe6; xac;
  xbd; x0a; xe6; xae; x98; x0a; xe6; xae;
  x96; x0a; xe6; xae; xbc; x0a; xe6; xaf;
  xaf; x0a; xe6; xb0; xae; x0a; xe6; xb0;
  xaf; x0a; xe6; xb0; xac; x0a; xe6; xb8;
  xaf; x0a; xe6; xb8; xb8; x0a; xe6; xb9;
  x94; x0a; xe6; xb8; xa1; x0a; xe6; xb8;
  xb2; x0a; xe6; xb9; xa7; x0a; xe6; xb9;
  x8a; x0a; xe6; xb8; xa0; x0a; xe6; xb8;
  xa5; x0a; xe6; xb8; xa3; x0a; xe6; xb8;
  x9b; x0a; xe6; xb9; x9b; x0a; xe6; xb9;
  x98; x0a; xe6; xb8; xa4; x0a; xe6; xb9;
  x96; x0a; xe6; xb9; xae; x0a; xe6; xb8;
  xad; x0a; xe6; xb8; xa6; x0a; xe6; xb9;
  xaf; x0a; xe6; xb8; xb4; x0a; xe6; xb9;
  x8d; x0a; xe6; xb8; xba; x0a; xe6; xb8;
  xac; x0a; xe6; xb9; x83; x0a; xe6; xb8;
  x9d; x0a; xe6; xb8; xbe; x0a; xe6; xbb;
  x8b; x0a; xe6; xba; x89; x0a; xe6; xb8;
  x99; x0a; xe6; xb9; x8e; x0a; xe6; xb9;
  xa3; x0a; xe6; xb9; x84; x0a; xe6; xb9;
  xb2; x0a; xe6; xb9; xa9; x0a; xe6; xb9;
  x9f; x0a; xe7; x84; x99; x0a; xe7; x84;
  x9a; x0a; xe7; x84; xa6; x0a; xe7; x84;
  xb0; x0a; xe7; x84; xa1; x0a; xe7; x84;
  xb6; x0a; xe7; x85; xae; x0a; xe7; x84
].
(* tests/test_data/whatwg/big5_whatwg_test_decode_out.txt, entries 29696..29951 *)
Definition big5_decode_out_116 : list byte := [
  x9c; x0a; xe7; x89; x8c; x0a; xe7; x8a;
  x84; x0a; xe7; x8a; x80; x0a; xe7; x8c;
  xb6; x0a; xe7; x8c; xa5; x0a; xe7; x8c;
  xb4; x0a; xe7; x8c; xa9; x0a; xe7; x90;
  xba; x0a; xe7; x90; xaa; x0a; xe7; x90;
  xb3; x0a; xe7; x90; xa2; x0a; xe7; x90;
  xa5; x0a; xe7; x90; xb5; x0a; xe7; x90;
  xb6; x0a; xe7; x90; xb4; x0a; xe7; x90;
  xaf; x0a; xe7; x90; x9b; x0a; xe7; x90;
  xa6; x0a; xe7; x90; xa8; x0a; xe7; x94;
  xa5; x0a; xe7; x94; xa6; x0a; xe7; x95;
  xab; x0a; xe7; x95; xaa; x0a; xe7; x97;
  xa2; x0a; xe7; x97; x9b; x0a; xe7; x97;
  xa3; x0a; xe7; x97; x99; x0a; xe7; x97;
  x98; x0a; xe7; x97; x9e; x0a; xe7; x97;
  xa0; x0a; xe7; x99; xbb; x0a; xe7; x99;
  xbc; x0a; xe7; x9a; x96; x0a; xe7; x9a;
  x93; x0a; xe7; x9a; xb4; x0a; xe7; x9b;
  x9c; x0a; xe7; x9d; x8f; x0a; xe7; x9f;
  xad; x0a; xe7; xa1; x9d; x0a; xe7; xa1;
  xac; x0a; xe7; xa1; xaf; x0a; xe7; xa8;
  x8d; x0a; xe7; xa8; x88; x0a; xe7; xa8;
  x8b; x0a; xe7; xa8; x85; x0a; xe7; xa8;
  x80; x0a; xe7; xaa; x98; x0a; xe7; xaa;
  x97; x0a; xe7; xaa; x96; x0a; xe7; xab;
  xa5; x0a; xe7; xab; xa3; x0a; xe7; xad;
  x89; x0a; xe7; xad; x96; x0a; xe7; xad;
  x86; x0a; xe7; xad; x90; x0a; xe7; xad;
  x92; x0a; xe7; xad; x94; x0a; xe7; xad;
  x8d; x0a; xe7; xad; x8b; x0a; xe7; xad;
  x8f; x0a; xe7; xad; x91; x0a; xe7; xb2;
  x9f; x0a; xe7; xb2; xa5; x0a; xe7; xb5
].
(* tests/test_data/whatwg/big5_whatwg_test_decode_out.txt, entries 29952..30207 *)
Definition big5_decode_out_117 : list byte := [
  x9e; x0a; xe7; xb5; x90; x0a; xe7; xb5;
  xa8; x0a; xe7; xb5; x95; x0a; xe7; xb4;
  xab; x0a; xe7; xb5; xae; x0a; xe7; xb5;
  xb2; x0a; xe7; xb5; xa1; x0a; xe7; xb5;
  xa6; x0a; xe7; xb5; xa2; x0a; xe7; xb5;
  xb0; x0a; xe7; xb5; xb3; x0a; xe5; x96;
  x84; x0a; xe7; xbf; x94; x0a; xe7; xbf;
  x95; x0a; xe8; x80; x8b; x0a; xe8; x81;
  x92; x0a; xe8; x82; x85; x0a; xe8; x85;
  x95; x0a; xe8; x85; x94; x0a; xe8; x85;
  x8b; x0a; xe8; x85; x91; x0a; xe8; x85;
  x8e; x0a; xe8; x84; xb9; x0a; xe8; x85;
  x86; x0a; xe8; x84; xbe; x0a; xe8; x85;
  x8c; x0a; xe8; x85; x93; x0a; xe8; x85;
  xb4; x0a; xe8; x88; x92; x0a; xe8; x88;
  x9c; x0a; xe8; x8f; xa9; x0a; xe8; x90;
  x83; x0a; xe8; x8f; xb8; x0a; xe8; x90;
  x8d; x0a; xe8; x8f; xa0; x0a; xe8; x8f;
  x85; x0a; xe8; x90; x8b; x0a; xe8; x8f;
  x81; x0a; xe8; x8f; xaf; x0a; xe8; x8f;
  xb1; x0a; xe8; x8f; xb4; x0a; xe8; x91;
  x97; x0a; xe8; x90; x8a; x0a; xe8; x8f;
  xb0; x0a; xe8; x90; x8c; x0a; xe8; x8f;
  x8c; x0a; xe8; x8f; xbd; x0a; xe8; x8f;
  xb2; x0a; xe8; x8f; x8a; x0a; xe8; x90;
  xb8; x0a; xe8; x90; x8e; x0a; xe8; x90;
  x84; x0a; xe8; x8f; x9c; x0a; xe8; x90;
  x87; x0a; xe8; x8f; x94; x0a; xe8; x8f;
  x9f; x0a; xe8; x99; x9b; x0a; xe8; x9b;
  x9f; x0a; xe8; x9b; x99; x0a; xe8; x9b;
  xad; x0a; xe8; x9b; x94; x0a; xe8; x9b;
  x9b; x0a; xe8; x9b; xa4; x0a; xe8; x9b
].
(* tests/test_data/whatwg/big5_whatwg_test_decode_out.txt, entries 30208..30463 *)
Definition big5_decode_out_118 : list byte := [
  x90; x0a; xe8; x9b; x9e; x0a; xe8; xa1;
  x97; x0a; xe8; xa3; x81; x0a; xe8; xa3;
  x82; x0a; xe8; xa2; xb1; x0a; xe8; xa6;
  x83; x0a; xe8; xa6; x96; x0a; xe8; xa8;
  xbb; x0a; xe8; xa9; xa0; x0a; xe8; xa9;
  x95; x0a; xe8; xa9; x9e; x0a; xe8; xa8;
  xbc; x0a; xe8; xa9; x81; x0a; xe8; xa9;
  x94; x0a; xe8; xa9; x9b; x0a; xe8; xa9;
  x90; x0a; xe8; xa9; x86; x0a; xe8; xa8;
  xb4; x0a; xe8; xa8; xba; x0a; xe8; xa8;
  xb6; x0a; xe8; xa9; x96; x0a; xe8; xb1;
  xa1; x0a; xe8; xb2; x82; x0a; xe8; xb2;
  xaf; x0a; xe8; xb2; xbc; x0a; xe8; xb2;
  xb3; x0a; xe8; xb2; xbd; x0a; xe8; xb3;
  x81; x0a; xe8; xb2; xbb; x0a; xe8; xb3;
  x80; x0a; xe8; xb2; xb4; x0a; xe8; xb2;
  xb7; x0a; xe8; xb2; xb6; x0a; xe8; xb2;
  xbf; x0a; xe8; xb2; xb8; x0a; xe8; xb6;
  x8a; x0a; xe8; xb6; x85; x0a; xe8; xb6;
  x81; x0a; xe8; xb7; x8e; x0a; xe8; xb7;
  x9d; x0a; xe8; xb7; x8b; x0a; xe8; xb7;
  x9a; x0a; xe8; xb7; x91; x0a; xe8; xb7;
  x8c; x0a; xe8; xb7; x9b; x0a; xe8; xb7;
  x86; x0a; xe8; xbb; xbb; x0a; xe8; xbb;
  xb8; x0a; xe8; xbb; xbc; x0a; xe8; xbe;
  x9c; x0a; xe9; x80; xae; x0a; xe9; x80;
  xb5; x0a; xe9; x80; xb1; x0a; xe9; x80;
  xb8; x0a; xe9; x80; xb2; x0a; xe9; x80;
  xb6; x0a; xe9; x84; x82; x0a; xe9; x83;
  xb5; x0a; xe9; x84; x89; x0a; xe9; x83;
  xbe; x0a; xe9; x85; xa3; x0a; xe9; x85;
  xa5; x0a; xe9; x87; x8f; x0a; xe9; x88
].
(* tests/test_data/whatwg/big5_whatwg_test_decode_out.txt, entries 30464..30719 *)
Definition big5_decode_out_119 : list byte := [
  x94; x0a; xe9; x88; x95; x0a; xe9; x88;
  xa3; x0a; xe9; x88; x89; x0a; xe9; x88;
  x9e; x0a; xe9; x88; x8d; x0a; xe9; x88;
  x90; x0a; xe9; x88; x87; x0a; xe9; x88;
  x91; x0a; xe9; x96; x94; x0a; xe9; x96;
  x8f; x0a; xe9; x96; x8b; x0a; xe9; x96;
  x91; x0a; xe9; x96; x93; x0a; xe9; x96;
  x92; x0a; xe9; x96; x8e; x0a; xe9; x9a;
  x8a; x0a; xe9; x9a; x8e; x0a; xe9; x9a;
  x8b; x0a; xe9; x99; xbd; x0a; xe9; x9a;
  x85; x0a; xe9; x9a; x86; x0a; xe9; x9a;
  x8d; x0a; xe9; x99; xb2; x0a; xe9; x9a;
  x84; x0a; xe9; x9b; x81; x0a; xe9; x9b;
  x85; x0a; xe9; x9b; x84; x0a; xe9; x9b;
  x86; x0a; xe9; x9b; x87; x0a; xe9; x9b;
  xaf; x0a; xe9; x9b; xb2; x0a; xe9; x9f;
  x8c; x0a; xe9; xa0; x85; x0a; xe9; xa0;
  x86; x0a; xe9; xa0; x88; x0a; xe9; xa3;
  xa7; x0a; xe9; xa3; xaa; x0a; xe9; xa3;
  xaf; x0a; xe9; xa3; xa9; x0a; xe9; xa3;
  xb2; x0a; xe9; xa3; xad; x0a; xe9; xa6;
  xae; x0a; xe9; xa6; xad; x0a; xe9; xbb;
  x83; x0a; xe9; xbb; x8d; x0a; xe9; xbb;
  x91; x0a; xe4; xba; x82; x0a; xe5; x82;
  xad; x0a; xe5; x82; xb5; x0a; xe5; x82;
  xb2; x0a; xe5; x82; xb3; x0a; xe5; x83;
  x85; x0a; xe5; x82; xbe; x0a; xe5; x82;
  xac; x0a; xe5; x82; xb7; x0a; xe5; x82;
  xbb; x0a; xe5; x82; xaf; x0a; xe5; x83;
  x87; x0a; xe5; x89; xbf; x0a; xe5; x89;
  xb7; x0a; xe5; x89; xbd; x0a; xe5; x8b;
  x9f; x0a; xe5; x8b; xa6; x0a; xe5; x8b
].
(* tests/test_data/whatwg/big5_whatwg_test_decode_out.txt, entries 30720..30975 *)
Definition big5_decode_out_120 : list byte := [
  xa4; x0a; xe5; x8b; xa2; x0a; xe5; x8b;
  xa3; x0a; xe5; x8c; xaf; x0a; xe5; x97;
  x9f; x0a; xe5; x97; xa8; x0a; xe5; x97;
  x93; x0a; xe5; x97; xa6; x0a; xe5; x97;
  x8e; x0a; xe5; x97; x9c; x0a; xe5; x97;
  x87; x0a; xe5; x97; x91; x0a; xe5; x97;
  xa3; x0a; xe5; x97; xa4; x0a; xe5; x97;
  xaf; x0a; xe5; x97; x9a; x0a; xe5; x97;
  xa1; x0a; xe5; x97; x85; x0a; xe5; x97;
  x86; x0a; xe5; x97; xa5; x0a; xe5; x97;
  x89; x0a; xe5; x9c; x92; x0a; xe5; x9c;
  x93; x0a; xe5; xa1; x9e; x0a; xe5; xa1;
  x91; x0a; xe5; xa1; x98; x0a; xe5; xa1;
  x97; x0a; xe5; xa1; x9a; x0a; xe5; xa1;
  x94; x0a; xe5; xa1; xab; x0a; xe5; xa1;
  x8c; x0a; xe5; xa1; xad; x0a; xe5; xa1;
  x8a; x0a; xe5; xa1; xa2; x0a; xe5; xa1;
  x92; x0a; xe5; xa1; x8b; x0a; xe5; xa5;
  xa7; x0a; xe5; xab; x81; x0a; xe5; xab;
  x89; x0a; xe5; xab; x8c; x0a; xe5; xaa;
  xbe; x0a; xe5; xaa; xbd; x0a; xe5; xaa;
  xbc; x0a; xe5; xaa; xb3; x0a; xe5; xab;
  x82; x0a; xe5; xaa; xb2; x0a; xe5; xb5;
  xa9; x0a; xe5; xb5; xaf; x0a; xe5; xb9;
  x8c; x0a; xe5; xb9; xb9; x0a; xe5; xbb;
  x89; x0a; xe5; xbb; x88; x0a; xe5; xbc;
  x92; x0a; xe5; xbd; x99; x0a; xe5; xbe;
  xac; x0a; xe5; xbe; xae; x0a; xe6; x84;
  x9a; x0a; xe6; x84; x8f; x0a; xe6; x85;
  x88; x0a; xe6; x84; x9f; x0a; xe6; x83;
  xb3; x0a; xe6; x84; x9b; x0a; xe6; x83;
  xb9; x0a; xe6; x84; x81; x0a; xe6; x84
].
(* tests/test_data/whatwg/big5_whatwg_test_decode_out.txt, entries 30976..31231 *)
Definition big5_decode_out_121 : list byte := [
  x88; x0a; xe6; x85; x8e; x0a; xe6; x85;
  x8c; x0a; xe6; x85; x84; x0a; xe6; x85;
  x8d; x0a; xe6; x84; xbe; x0a; xe6; x84;
  xb4; x0a; xe6; x84; xa7; x0a; xe6; x84;
  x8d; x0a; xe6; x84; x86; x0a; xe6; x84;
  xb7; x0a; xe6; x88; xa1; x0a; xe6; x88;
  xa2; x0a; xe6; x90; x93; x0a; xe6; x90;
  xbe; x0a; xe6; x90; x9e; x0a; xe6; x90;
  xaa; x0a; xe6; x90; xad; x0a; xe6; x90;
  xbd; x0a; xe6; x90; xac; x0a; xe6; x90;
  x8f; x0a; xe6; x90; x9c; x0a; xe6; x90;
  x94; x0a; xe6; x90; x8d; x0a; xe6; x90;
  xb6; x0a; xe6; x90; x96; x0a; xe6; x90;
  x97; x0a; xe6; x90; x86; x0a; xe6; x95;
  xac; x0a; xe6; x96; x9f; x0a; xe6; x96;
  xb0; x0a; xe6; x9a; x97; x0a; xe6; x9a;
  x89; x0a; xe6; x9a; x87; x0a; xe6; x9a;
  x88; x0a; xe6; x9a; x96; x0a; xe6; x9a;
  x84; x0a; xe6; x9a; x98; x0a; xe6; x9a;
  x8d; x0a; xe6; x9c; x83; x0a; xe6; xa6;
  x94; x0a; xe6; xa5; xad; x0a; xe6; xa5;
  x9a; x0a; xe6; xa5; xb7; x0a; xe6; xa5;
  xa0; x0a; xe6; xa5; x94; x0a; xe6; xa5;
  xb5; x0a; xe6; xa4; xb0; x0a; xe6; xa6;
  x82; x0a; xe6; xa5; x8a; x0a; xe6; xa5;
  xa8; x0a; xe6; xa5; xab; x0a; xe6; xa5;
  x9e; x0a; xe6; xa5; x93; x0a; xe6; xa5;
  xb9; x0a; xe6; xa6; x86; x0a; xe6; xa5;
  x9d; x0a; xe6; xa5; xa3; x0a; xe6; xa5;
  x9b; x0a; xe6; xad; x87; x0a; xe6; xad;
  xb2; x0a; xe6; xaf; x80; x0a; xe6; xae;
  xbf; x0a; xe6; xaf; x93; x0a; xe6; xaf
].
(* tests/test_data/whatwg/big5_whatwg_test_decode_out.txt, entries 31232..31487 *)
Definition big5_decode_out_122 : list byte := [
  xbd; x0a; xe6; xba; xa2; x0a; xe6; xba;
  xaf; x0a; xe6; xbb; x93; x0a; xe6; xba;
  xb6; x0a; xe6; xbb; x82; x0a; xe6; xba;
  x90; x0a; xe6; xba; x9d; x0a; xe6; xbb;
  x87; x0a; xe6; xbb; x85; x0a; xe6; xba;
  xa5; x0a; xe6; xba; x98; x0a; xe6; xba;
  xbc; x0a; xe6; xba; xba; x0a; xe6; xba;
  xab; x0a; xe6; xbb; x91; x0a; xe6; xba;
  x96; x0a; xe6; xba; x9c; x0a; xe6; xbb;
  x84; x0a; xe6; xbb; x94; x0a; xe6; xba;
  xaa; x0a; xe6; xba; xa7; x0a; xe6; xba;
  xb4; x0a; xe7; x85; x8e; x0a; xe7; x85;
  x99; x0a; xe7; x85; xa9; x0a; xe7; x85;
  xa4; x0a; xe7; x85; x89; x0a; xe7; x85;
  xa7; x0a; xe7; x85; x9c; x0a; xe7; x85;
  xac; x0a; xe7; x85; xa6; x0a; xe7; x85;
  x8c; x0a; xe7; x85; xa5; x0a; xe7; x85;
  x9e; x0a; xe7; x85; x86; x0a; xe7; x85;
  xa8; x0a; xe7; x85; x96; x0a; xe7; x88;
  xba; x0a; xe7; x89; x92; x0a; xe7; x8c;
  xb7; x0a; xe7; x8d; x85; x0a; xe7; x8c;
  xbf; x0a; xe7; x8c; xbe; x0a; xe7; x91;
  xaf; x0a; xe7; x91; x9a; x0a; xe7; x91;
  x95; x0a; xe7; x91; x9f; x0a; xe7; x91;
  x9e; x0a; xe7; x91; x81; x0a; xe7; x90;
  xbf; x0a; xe7; x91; x99; x0a; xe7; x91;
  x9b; x0a; xe7; x91; x9c; x0a; xe7; x95;
  xb6; x0a; xe7; x95; xb8; x0a; xe7; x98;
  x80; x0a; xe7; x97; xb0; x0a; xe7; x98;
  x81; x0a; xe7; x97; xb2; x0a; xe7; x97;
  xb1; x0a; xe7; x97; xba; x0a; xe7; x97;
  xbf; x0a; xe7; x97; xb4; x0a; xe7; x97
].
(* tests/test_data/whatwg/big5_whatwg_test_decode_out.txt, entries 31488..31743 *)
Definition big5_decode_out_123 : list byte := [
  xb3; x0a; xe7; x9b; x9e; x0a; xe7; x9b;
  x9f; x0a; xe7; x9d; x9b; x0a; xe7; x9d;
  xab; x0a; xe7; x9d; xa6; x0a; xe7; x9d;
  x9e; x0a; xe7; x9d; xa3; x0a; xe7; x9d;
  xb9; x0a; xe7; x9d; xaa; x0a; xe7; x9d;
  xac; x0a; xe7; x9d; x9c; x0a; xe7; x9d;
  xa5; x0a; xe7; x9d; xa8; x0a; xe7; x9d;
  xa2; x0a; xe7; x9f; xae; x0a; xe7; xa2;
  x8e; x0a; xe7; xa2; xb0; x0a; xe7; xa2;
  x97; x0a; xe7; xa2; x98; x0a; xe7; xa2;
  x8c; x0a; xe7; xa2; x89; x0a; xe7; xa1;
  xbc; x0a; xe7; xa2; x91; x0a; xe7; xa2;
  x93; x0a; xe7; xa1; xbf; x0a; xe7; xa5;
  xba; x0a; xe7; xa5; xbf; x0a; xe7; xa6;
  x81; x0a; xe8; x90; xac; x0a; xe7; xa6;
  xbd; x0a; xe7; xa8; x9c; x0a; xe7; xa8;
  x9a; x0a; xe7; xa8; xa0; x0a; xe7; xa8;
  x94; x0a; xe7; xa8; x9f; x0a; xe7; xa8;
  x9e; x0a; xe7; xaa; x9f; x0a; xe7; xaa;
  xa0; x0a; xe7; xad; xb7; x0a; xe7; xaf;
  x80; x0a; xe7; xad; xa0; x0a; xe7; xad;
  xae; x0a; xe7; xad; xa7; x0a; xe7; xb2;
  xb1; x0a; xe7; xb2; xb3; x0a; xe7; xb2;
  xb5; x0a; xe7; xb6; x93; x0a; xe7; xb5;
  xb9; x0a; xe7; xb6; x91; x0a; xe7; xb6;
  x81; x0a; xe7; xb6; x8f; x0a; xe7; xb5;
  x9b; x0a; xe7; xbd; xae; x0a; xe7; xbd;
  xa9; x0a; xe7; xbd; xaa; x0a; xe7; xbd;
  xb2; x0a; xe7; xbe; xa9; x0a; xe7; xbe;
  xa8; x0a; xe7; xbe; xa4; x0a; xe8; x81;
  x96; x0a; xe8; x81; x98; x0a; xe8; x82;
  x86; x0a; xe8; x82; x84; x0a; xe8; x85
].
(* tests/test_data/whatwg/big5_whatwg_test_decode_out.txt, entries 31744..31999 *)
Definition big5_decode_out_124 : list byte := [
  xb1; x0a; xe8; x85; xb0; x0a; xe8; x85;
  xb8; x0a; xe8; x85; xa5; x0a; xe8; x85;
  xae; x0a; xe8; x85; xb3; x0a; xe8; x85;
  xab; x0a; xe8; x85; xb9; x0a; xe8; x85;
  xba; x0a; xe8; x85; xa6; x0a; xe8; x88;
  x85; x0a; xe8; x89; x87; x0a; xe8; x92;
  x82; x0a; xe8; x91; xb7; x0a; xe8; x90;
  xbd; x0a; xe8; x90; xb1; x0a; xe8; x91;
  xb5; x0a; xe8; x91; xa6; x0a; xe8; x91;
  xab; x0a; xe8; x91; x89; x0a; xe8; x91;
  xac; x0a; xe8; x91; x9b; x0a; xe8; x90;
  xbc; x0a; xe8; x90; xb5; x0a; xe8; x91;
  xa1; x0a; xe8; x91; xa3; x0a; xe8; x91;
  xa9; x0a; xe8; x91; xad; x0a; xe8; x91;
  x86; x0a; xe8; x99; x9e; x0a; xe8; x99;
  x9c; x0a; xe8; x99; x9f; x0a; xe8; x9b;
  xb9; x0a; xe8; x9c; x93; x0a; xe8; x9c;
  x88; x0a; xe8; x9c; x87; x0a; xe8; x9c;
  x80; x0a; xe8; x9b; xbe; x0a; xe8; x9b;
  xbb; x0a; xe8; x9c; x82; x0a; xe8; x9c;
  x83; x0a; xe8; x9c; x86; x0a; xe8; x9c;
  x8a; x0a; xe8; xa1; x99; x0a; xe8; xa3;
  x9f; x0a; xe8; xa3; x94; x0a; xe8; xa3;
  x99; x0a; xe8; xa3; x9c; x0a; xe8; xa3;
  x98; x0a; xe8; xa3; x9d; x0a; xe8; xa3;
  xa1; x0a; xe8; xa3; x8a; x0a; xe8; xa3;
  x95; x0a; xe8; xa3; x92; x0a; xe8; xa6;
  x9c; x0a; xe8; xa7; xa3; x0a; xe8; xa9;
  xab; x0a; xe8; xa9; xb2; x0a; xe8; xa9;
  xb3; x0a; xe8; xa9; xa6; x0a; xe8; xa9;
  xa9; x0a; xe8; xa9; xb0; x0a; xe8; xaa;
  x87; x0a; xe8; xa9; xbc; x0a; xe8; xa9
].
(* tests/test_data/whatwg/big5_whatwg_test_decode_out.txt, entries 32000..32255 *)
Definition big5_decode_out_125 : list byte := [
  xa3; x0a; xe8; xaa; xa0; x0a; xe8; xa9;
  xb1; x0a; xe8; xaa; x85; x0a; xe8; xa9;
  xad; x0a; xe8; xa9; xa2; x0a; xe8; xa9;
  xae; x0a; xe8; xa9; xac; x0a; xe8; xa9;
  xb9; x0a; xe8; xa9; xbb; x0a; xe8; xa8;
  xbe; x0a; xe8; xa9; xa8; x0a; xe8; xb1;
  xa2; x0a; xe8; xb2; x8a; x0a; xe8; xb2;
  x89; x0a; xe8; xb3; x8a; x0a; xe8; xb3;
  x87; x0a; xe8; xb3; x88; x0a; xe8; xb3;
  x84; x0a; xe8; xb2; xb2; x0a; xe8; xb3;
  x83; x0a; xe8; xb3; x82; x0a; xe8; xb3;
  x85; x0a; xe8; xb7; xa1; x0a; xe8; xb7;
  x9f; x0a; xe8; xb7; xa8; x0a; xe8; xb7;
  xaf; x0a; xe8; xb7; xb3; x0a; xe8; xb7;
  xba; x0a; xe8; xb7; xaa; x0a; xe8; xb7;
  xa4; x0a; xe8; xb7; xa6; x0a; xe8; xba;
  xb2; x0a; xe8; xbc; x83; x0a; xe8; xbc;
  x89; x0a; xe8; xbb; xbe; x0a; xe8; xbc;
  x8a; x0a; xe8; xbe; x9f; x0a; xe8; xbe;
  xb2; x0a; xe9; x81; x8b; x0a; xe9; x81;
  x8a; x0a; xe9; x81; x93; x0a; xe9; x81;
  x82; x0a; xe9; x81; x94; x0a; xe9; x80;
  xbc; x0a; xe9; x81; x95; x0a; xe9; x81;
  x90; x0a; xe9; x81; x87; x0a; xe9; x81;
  x8f; x0a; xe9; x81; x8e; x0a; xe9; x81;
  x8d; x0a; xe9; x81; x91; x0a; xe9; x80;
  xbe; x0a; xe9; x81; x81; x0a; xe9; x84;
  x92; x0a; xe9; x84; x97; x0a; xe9; x85;
  xac; x0a; xe9; x85; xaa; x0a; xe9; x85;
  xa9; x0a; xe9; x87; x89; x0a; xe9; x88;
  xb7; x0a; xe9; x89; x97; x0a; xe9; x88;
  xb8; x0a; xe9; x88; xbd; x0a; xe9; x89
].
(* tests/test_data/whatwg/big5_whatwg_test_decode_out.txt, entries 32256..32511 *)
Definition big5_decode_out_126 : list byte := [
  x80; x0a; xe9; x88; xbe; x0a; xe9; x89;
  x9b; x0a; xe9; x89; x8b; x0a; xe9; x89;
  xa4; x0a; xe9; x89; x91; x0a; xe9; x88;
  xb4; x0a; xe9; x89; x89; x0a; xe9; x89;
  x8d; x0a; xe9; x89; x85; x0a; xe9; x88;
  xb9; x0a; xe9; x88; xbf; x0a; xe9; x89;
  x9a; x0a; xe9; x96; x98; x0a; xe9; x9a;
  x98; x0a; xe9; x9a; x94; x0a; xe9; x9a;
  x95; x0a; xe9; x9b; x8d; x0a; xe9; x9b;
  x8b; x0a; xe9; x9b; x89; x0a; xe9; x9b;
  x8a; x0a; xe9; x9b; xb7; x0a; xe9; x9b;
  xbb; x0a; xe9; x9b; xb9; x0a; xe9; x9b;
  xb6; x0a; xe9; x9d; x96; x0a; xe9; x9d;
  xb4; x0a; xe9; x9d; xb6; x0a; xe9; xa0;
  x90; x0a; xe9; xa0; x91; x0a; xe9; xa0;
  x93; x0a; xe9; xa0; x8a; x0a; xe9; xa0;
  x92; x0a; xe9; xa0; x8c; x0a; xe9; xa3;
  xbc; x0a; xe9; xa3; xb4; x0a; xe9; xa3;
  xbd; x0a; xe9; xa3; xbe; x0a; xe9; xa6;
  xb3; x0a; xe9; xa6; xb1; x0a; xe9; xa6;
  xb4; x0a; xe9; xab; xa1; x0a; xe9; xb3;
  xa9; x0a; xe9; xba; x82; x0a; xe9; xbc;
  x8e; x0a; xe9; xbc; x93; x0a; xe9; xbc;
  xa0; x0a; xe5; x83; xa7; x0a; xe5; x83;
  xae; x0a; xe5; x83; xa5; x0a; xe5; x83;
  x96; x0a; xe5; x83; xad; x0a; xe5; x83;
  x9a; x0a; xe5; x83; x95; x0a; xe5; x83;
  x8f; x0a; xe5; x83; x91; x0a; xe5; x83;
  xb1; x0a; xe5; x83; x8e; x0a; xe5; x83;
  xa9; x0a; xe5; x85; xa2; x0a; xe5; x87;
  xb3; x0a; xe5; x8a; x83; x0a; xe5; x8a;
  x82; x0a; xe5; x8c; xb1; x0a; xe5; x8e
].
(* tests/test_data/whatwg/big5_whatwg_test_decode_out.txt, entries 32512..32767 *)
Definition big5_decode_out_127 : list byte := [
  xad; x0a; xe5; x97; xbe; x0a; xe5; x98;
  x80; x0a; xe5; x98; x9b; x0a; xe5; x98;
  x97; x0a; xe5; x97; xbd; x0a; xe5; x98;
  x94; x0a; xe5; x98; x86; x0a; xe5; x98;
  x89; x0a; xe5; x98; x8d; x0a; xe5; x98;
  x8e; x0a; xe5; x97; xb7; x0a; xe5; x98;
  x96; x0a; xe5; x98; x9f; x0a; xe5; x98;
  x88; x0a; xe5; x98; x90; x0a; xe5; x97;
  xb6; x0a; xe5; x9c; x98; x0a; xe5; x9c;
  x96; x0a; xe5; xa1; xb5; x0a; xe5; xa1;
  xbe; x0a; xe5; xa2; x83; x0a; xe5; xa2;
  x93; x0a; xe5; xa2; x8a; x0a; xe5; xa1;
  xb9; x0a; xe5; xa2; x85; x0a; xe5; xa1;
  xbd; x0a; xe5; xa3; xbd; x0a; xe5; xa4;
  xa5; x0a; xe5; xa4; xa2; x0a; xe5; xa4;
  xa4; x0a; xe5; xa5; xaa; x0a; xe5; xa5;
  xa9; x0a; xe5; xab; xa1; x0a; xe5; xab;
  xa6; x0a; xe5; xab; xa9; x0a; xe5; xab;
  x97; x0a; xe5; xab; x96; x0a; xe5; xab;
  x98; x0a; xe5; xab; xa3; x0a; xe5; xad;
  xb5; x0a; xe5; xaf; x9e; x0a; xe5; xaf;
  xa7; x0a; xe5; xaf; xa1; x0a; xe5; xaf;
  xa5; x0a; xe5; xaf; xa6; x0a; xe5; xaf;
  xa8; x0a; xe5; xaf; xa2; x0a; xe5; xaf;
  xa4; x0a; xe5; xaf; x9f; x0a; xe5; xb0;
  x8d; x0a; xe5; xb1; xa2; x0a; xe5; xb6;
  x84; x0a; xe5; xb6; x87; x0a; xe5; xb9;
  x9b; x0a; xe5; xb9; xa3; x0a; xe5; xb9;
  x95; x0a; xe5; xb9; x97; x0a; xe5; xb9;
  x94; x0a; xe5; xbb; x93; x0a; xe5; xbb;
  x96; x0a; xe5; xbc; x8a; x0a; xe5; xbd;
  x86; x0a; xe5; xbd; xb0; x0a; xe5; xbe
].
(* tests/test_data/whatwg/big5_whatwg_test_decode_out.txt, entries 32768..33023 *)
Definition big5_decode_out_128 : list byte := [
  xb9; x0a; xe6; x85; x87; x0a; xe6; x84;
  xbf; x0a; xe6; x85; x8b; x0a; xe6; x85;
  xb7; x0a; xe6; x85; xa2; x0a; xe6; x85;
  xa3; x0a; xe6; x85; x9f; x0a; xe6; x85;
  x9a; x0a; xe6; x85; x98; x0a; xe6; x85;
  xb5; x0a; xe6; x88; xaa; x0a; xe6; x92;
  x87; x0a; xe6; x91; x98; x0a; xe6; x91;
  x94; x0a; xe6; x92; xa4; x0a; xe6; x91;
  xb8; x0a; xe6; x91; x9f; x0a; xe6; x91;
  xba; x0a; xe6; x91; x91; x0a; xe6; x91;
  xa7; x0a; xe6; x90; xb4; x0a; xe6; x91;
  xad; x0a; xe6; x91; xbb; x0a; xe6; x95;
  xb2; x0a; xe6; x96; xa1; x0a; xe6; x97;
  x97; x0a; xe6; x97; x96; x0a; xe6; x9a;
  xa2; x0a; xe6; x9a; xa8; x0a; xe6; x9a;
  x9d; x0a; xe6; xa6; x9c; x0a; xe6; xa6;
  xa8; x0a; xe6; xa6; x95; x0a; xe6; xa7;
  x81; x0a; xe6; xa6; xae; x0a; xe6; xa7;
  x93; x0a; xe6; xa7; x8b; x0a; xe6; xa6;
  x9b; x0a; xe6; xa6; xb7; x0a; xe6; xa6;
  xbb; x0a; xe6; xa6; xab; x0a; xe6; xa6;
  xb4; x0a; xe6; xa7; x90; x0a; xe6; xa7;
  x8d; x0a; xe6; xa6; xad; x0a; xe6; xa7;
  x8c; x0a; xe6; xa6; xa6; x0a; xe6; xa7;
  x83; x0a; xe6; xa6; xa3; x0a; xe6; xad;
  x89; x0a; xe6; xad; x8c; x0a; xe6; xb0;
  xb3; x0a; xe6; xbc; xb3; x0a; xe6; xbc;
  x94; x0a; xe6; xbb; xbe; x0a; xe6; xbc;
  x93; x0a; xe6; xbb; xb4; x0a; xe6; xbc;
  xa9; x0a; xe6; xbc; xbe; x0a; xe6; xbc;
  xa0; x0a; xe6; xbc; xac; x0a; xe6; xbc;
  x8f; x0a; xe6; xbc; x82; x0a; xe6; xbc
].
(* tests/test_data/whatwg/big5_whatwg_test_decode_out.txt, entries 33024..33279 *)
Definition big5_decode_out_129 : list byte := [
  xa2; x0a; xe6; xbb; xbf; x0a; xe6; xbb;
  xaf; x0a; xe6; xbc; x86; x0a; xe6; xbc;
  xb1; x0a; xe6; xbc; xb8; x0a; xe6; xbc;
  xb2; x0a; xe6; xbc; xa3; x0a; xe6; xbc;
  x95; x0a; xe6; xbc; xab; x0a; xe6; xbc;
  xaf; x0a; xe6; xbe; x88; x0a; xe6; xbc;
  xaa; x0a; xe6; xbb; xac; x0a; xe6; xbc;
  x81; x0a; xe6; xbb; xb2; x0a; xe6; xbb;
  x8c; x0a; xe6; xbb; xb7; x0a; xe7; x86;
  x94; x0a; xe7; x86; x99; x0a; xe7; x85;
  xbd; x0a; xe7; x86; x8a; x0a; xe7; x86;
  x84; x0a; xe7; x86; x92; x0a; xe7; x88;
  xbe; x0a; xe7; x8a; x92; x0a; xe7; x8a;
  x96; x0a; xe7; x8d; x84; x0a; xe7; x8d;
  x90; x0a; xe7; x91; xa4; x0a; xe7; x91;
  xa3; x0a; xe7; x91; xaa; x0a; xe7; x91;
  xb0; x0a; xe7; x91; xad; x0a; xe7; x94;
  x84; x0a; xe7; x96; x91; x0a; xe7; x98;
  xa7; x0a; xe7; x98; x8d; x0a; xe7; x98;
  x8b; x0a; xe7; x98; x89; x0a; xe7; x98;
  x93; x0a; xe7; x9b; xa1; x0a; xe7; x9b;
  xa3; x0a; xe7; x9e; x84; x0a; xe7; x9d;
  xbd; x0a; xe7; x9d; xbf; x0a; xe7; x9d;
  xa1; x0a; xe7; xa3; x81; x0a; xe7; xa2;
  x9f; x0a; xe7; xa2; xa7; x0a; xe7; xa2;
  xb3; x0a; xe7; xa2; xa9; x0a; xe7; xa2;
  xa3; x0a; xe7; xa6; x8e; x0a; xe7; xa6;
  x8f; x0a; xe7; xa6; x8d; x0a; xe7; xa8;
  xae; x0a; xe7; xa8; xb1; x0a; xe7; xaa;
  xaa; x0a; xe7; xaa; xa9; x0a; xe7; xab;
  xad; x0a; xe7; xab; xaf; x0a; xe7; xae;
  xa1; x0a; xe7; xae; x95; x0a; xe7; xae
].
(* tests/test_data/whatwg/big5_whatwg_test_decode_out.txt, entries 33280..33535 *)
Definition big5_decode_out_130 : list byte := [
  x8b; x0a; xe7; xad; xb5; x0a; xe7; xae;
  x97; x0a; xe7; xae; x9d; x0a; xe7; xae;
  x94; x0a; xe7; xae; x8f; x0a; xe7; xae;
  xb8; x0a; xe7; xae; x87; x0a; xe7; xae;
  x84; x0a; xe7; xb2; xb9; x0a; xe7; xb2;
  xbd; x0a; xe7; xb2; xbe; x0a; xe7; xb6;
  xbb; x0a; xe7; xb6; xb0; x0a; xe7; xb6;
  x9c; x0a; xe7; xb6; xbd; x0a; xe7; xb6;
  xbe; x0a; xe7; xb6; xa0; x0a; xe7; xb7;
  x8a; x0a; xe7; xb6; xb4; x0a; xe7; xb6;
  xb2; x0a; xe7; xb6; xb1; x0a; xe7; xb6;
  xba; x0a; xe7; xb6; xa2; x0a; xe7; xb6;
  xbf; x0a; xe7; xb6; xb5; x0a; xe7; xb6;
  xb8; x0a; xe7; xb6; xad; x0a; xe7; xb7;
  x92; x0a; xe7; xb7; x87; x0a; xe7; xb6;
  xac; x0a; xe7; xbd; xb0; x0a; xe7; xbf;
  xa0; x0a; xe7; xbf; xa1; x0a; xe7; xbf;
  x9f; x0a; xe8; x81; x9e; x0a; xe8; x81;
  x9a; x0a; xe8; x82; x87; x0a; xe8; x85;
  x90; x0a; xe8; x86; x80; x0a; xe8; x86;
  x8f; x0a; xe8; x86; x88; x0a; xe8; x86;
  x8a; x0a; xe8; x85; xbf; x0a; xe8; x86;
  x82; x0a; xe8; x87; xa7; x0a; xe8; x87;
  xba; x0a; xe8; x88; x87; x0a; xe8; x88;
  x94; x0a; xe8; x88; x9e; x0a; xe8; x89;
  x8b; x0a; xe8; x93; x89; x0a; xe8; x92;
  xbf; x0a; xe8; x93; x86; x0a; xe8; x93;
  x84; x0a; xe8; x92; x99; x0a; xe8; x92;
  x9e; x0a; xe8; x92; xb2; x0a; xe8; x92;
  x9c; x0a; xe8; x93; x8b; x0a; xe8; x92;
  xb8; x0a; xe8; x93; x80; x0a; xe8; x93;
  x93; x0a; xe8; x92; x90; x0a; xe8; x92
].
(* tests/test_data/whatwg/big5_whatwg_test_decode_out.txt, entries 33536..33791 *)
Definition big5_decode_out_131 : list byte := [
  xbc; x0a; xe8; x93; x91; x0a; xe8; x93;
  x8a; x0a; xe8; x9c; xbf; x0a; xe8; x9c;
  x9c; x0a; xe8; x9c; xbb; x0a; xe8; x9c;
  xa2; x0a; xe8; x9c; xa5; x0a; xe8; x9c;
  xb4; x0a; xe8; x9c; x98; x0a; xe8; x9d;
  x95; x0a; xe8; x9c; xb7; x0a; xe8; x9c;
  xa9; x0a; xe8; xa3; xb3; x0a; xe8; xa4;
  x82; x0a; xe8; xa3; xb4; x0a; xe8; xa3;
  xb9; x0a; xe8; xa3; xb8; x0a; xe8; xa3;
  xbd; x0a; xe8; xa3; xa8; x0a; xe8; xa4;
  x9a; x0a; xe8; xa3; xaf; x0a; xe8; xaa;
  xa6; x0a; xe8; xaa; x8c; x0a; xe8; xaa;
  x9e; x0a; xe8; xaa; xa3; x0a; xe8; xaa;
  x8d; x0a; xe8; xaa; xa1; x0a; xe8; xaa;
  x93; x0a; xe8; xaa; xa4; x0a; xe8; xaa;
  xaa; x0a; xe8; xaa; xa5; x0a; xe8; xaa;
  xa8; x0a; xe8; xaa; x98; x0a; xe8; xaa;
  x91; x0a; xe8; xaa; x9a; x0a; xe8; xaa;
  xa7; x0a; xe8; xb1; xaa; x0a; xe8; xb2;
  x8d; x0a; xe8; xb2; x8c; x0a; xe8; xb3;
  x93; x0a; xe8; xb3; x91; x0a; xe8; xb3;
  x92; x0a; xe8; xb5; xab; x0a; xe8; xb6;
  x99; x0a; xe8; xb6; x95; x0a; xe8; xb7;
  xbc; x0a; xe8; xbc; x94; x0a; xe8; xbc;
  x92; x0a; xe8; xbc; x95; x0a; xe8; xbc;
  x93; x0a; xe8; xbe; xa3; x0a; xe9; x81;
  xa0; x0a; xe9; x81; x98; x0a; xe9; x81;
  x9c; x0a; xe9; x81; xa3; x0a; xe9; x81;
  x99; x0a; xe9; x81; x9e; x0a; xe9; x81;
  xa2; x0a; xe9; x81; x9d; x0a; xe9; x81;
  x9b; x0a; xe9; x84; x99; x0a; xe9; x84;
  x98; x0a; xe9; x84; x9e; x0a; xe9; x85
].
(* tests/test_data/whatwg/big5_whatwg_test_decode_out.txt, entries 33792..34047 *)
Definition big5_decode_out_132 : list byte := [
  xb5; x0a; xe9; x85; xb8; x0a; xe9; x85;
  xb7; x0a; xe9; x85; xb4; x0a; xe9; x89;
  xb8; x0a; xe9; x8a; x80; x0a; xe9; x8a;
  x85; x0a; xe9; x8a; x98; x0a; xe9; x8a;
  x96; x0a; xe9; x89; xbb; x0a; xe9; x8a;
  x93; x0a; xe9; x8a; x9c; x0a; xe9; x8a;
  xa8; x0a; xe9; x89; xbc; x0a; xe9; x8a;
  x91; x0a; xe9; x96; xa1; x0a; xe9; x96;
  xa8; x0a; xe9; x96; xa9; x0a; xe9; x96;
  xa3; x0a; xe9; x96; xa5; x0a; xe9; x96;
  xa4; x0a; xe9; x9a; x99; x0a; xe9; x9a;
  x9c; x0a; xe9; x9a; x9b; x0a; xe9; x9b;
  x8c; x0a; xe9; x9b; x92; x0a; xe9; x9c;
  x80; x0a; xe9; x9d; xbc; x0a; xe9; x9e;
  x85; x0a; xe9; x9f; xb6; x0a; xe9; xa0;
  x97; x0a; xe9; xa0; x98; x0a; xe9; xa2;
  xaf; x0a; xe9; xa2; xb1; x0a; xe9; xa4;
  x83; x0a; xe9; xa4; x85; x0a; xe9; xa4;
  x8c; x0a; xe9; xa4; x89; x0a; xe9; xa7;
  x81; x0a; xe9; xaa; xaf; x0a; xe9; xaa;
  xb0; x0a; xe9; xab; xa6; x0a; xe9; xad;
  x81; x0a; xe9; xad; x82; x0a; xe9; xb3;
  xb4; x0a; xe9; xb3; xb6; x0a; xe9; xb3;
  xb3; x0a; xe9; xba; xbc; x0a; xe9; xbc;
  xbb; x0a; xe9; xbd; x8a; x0a; xe5; x84;
  x84; x0a; xe5; x84; x80; x0a; xe5; x83;
  xbb; x0a; xe5; x83; xb5; x0a; xe5; x83;
  xb9; x0a; xe5; x84; x82; x0a; xe5; x84;
  x88; x0a; xe5; x84; x89; x0a; xe5; x84;
  x85; x0a; xe5; x87; x9c; x0a; xe5; x8a;
  x87; x0a; xe5; x8a; x88; x0a; xe5; x8a;
  x89; x0a; xe5; x8a; x8d; x0a; xe5; x8a
].
(* tests/test_data/whatwg/big5_whatwg_test_decode_out.txt, entries 34048..34303 *)
Definition big5_decode_out_133 : list byte := [
  x8a; x0a; xe5; x8b; xb0; x0a; xe5; x8e;
  xb2; x0a; xe5; x98; xae; x0a; xe5; x98;
  xbb; x0a; xe5; x98; xb9; x0a; xe5; x98;
  xb2; x0a; xe5; x98; xbf; x0a; xe5; x98;
  xb4; x0a; xe5; x98; xa9; x0a; xe5; x99;
  x93; x0a; xe5; x99; x8e; x0a; xe5; x99;
  x97; x0a; xe5; x99; xb4; x0a; xe5; x98;
  xb6; x0a; xe5; x98; xaf; x0a; xe5; x98;
  xb0; x0a; xe5; xa2; x80; x0a; xe5; xa2;
  x9f; x0a; xe5; xa2; x9e; x0a; xe5; xa2;
  xb3; x0a; xe5; xa2; x9c; x0a; xe5; xa2;
  xae; x0a; xe5; xa2; xa9; x0a; xe5; xa2;
  xa6; x0a; xe5; xa5; xad; x0a; xe5; xac;
  x89; x0a; xe5; xab; xbb; x0a; xe5; xac;
  x8b; x0a; xe5; xab; xb5; x0a; xe5; xac;
  x8c; x0a; xe5; xac; x88; x0a; xe5; xaf;
  xae; x0a; xe5; xaf; xac; x0a; xe5; xaf;
  xa9; x0a; xe5; xaf; xab; x0a; xe5; xb1;
  xa4; x0a; xe5; xb1; xa5; x0a; xe5; xb6;
  x9d; x0a; xe5; xb6; x94; x0a; xe5; xb9;
  xa2; x0a; xe5; xb9; x9f; x0a; xe5; xb9;
  xa1; x0a; xe5; xbb; xa2; x0a; xe5; xbb;
  x9a; x0a; xe5; xbb; x9f; x0a; xe5; xbb;
  x9d; x0a; xe5; xbb; xa3; x0a; xe5; xbb;
  xa0; x0a; xe5; xbd; x88; x0a; xe5; xbd;
  xb1; x0a; xe5; xbe; xb7; x0a; xe5; xbe;
  xb5; x0a; xe6; x85; xb6; x0a; xe6; x85;
  xa7; x0a; xe6; x85; xae; x0a; xe6; x85;
  x9d; x0a; xe6; x85; x95; x0a; xe6; x86;
  x82; x0a; xe6; x85; xbc; x0a; xe6; x85;
  xb0; x0a; xe6; x85; xab; x0a; xe6; x85;
  xbe; x0a; xe6; x86; xa7; x0a; xe6; x86
].
(* tests/test_data/whatwg/big5_whatwg_test_decode_out.txt, entries 34304..34559 *)
Definition big5_decode_out_134 : list byte := [
  x90; x0a; xe6; x86; xab; x0a; xe6; x86;
  x8e; x0a; xe6; x86; xac; x0a; xe6; x86;
  x9a; x0a; xe6; x86; xa4; x0a; xe6; x86;
  x94; x0a; xe6; x86; xae; x0a; xe6; x88;
  xae; x0a; xe6; x91; xa9; x0a; xe6; x91;
  xaf; x0a; xe6; x91; xb9; x0a; xe6; x92;
  x9e; x0a; xe6; x92; xb2; x0a; xe6; x92;
  x88; x0a; xe6; x92; x90; x0a; xe6; x92;
  xb0; x0a; xe6; x92; xa5; x0a; xe6; x92;
  x93; x0a; xe6; x92; x95; x0a; xe6; x92;
  xa9; x0a; xe6; x92; x92; x0a; xe6; x92;
  xae; x0a; xe6; x92; xad; x0a; xe6; x92;
  xab; x0a; xe6; x92; x9a; x0a; xe6; x92;
  xac; x0a; xe6; x92; x99; x0a; xe6; x92;
  xa2; x0a; xe6; x92; xb3; x0a; xe6; x95;
  xb5; x0a; xe6; x95; xb7; x0a; xe6; x95;
  xb8; x0a; xe6; x9a; xae; x0a; xe6; x9a;
  xab; x0a; xe6; x9a; xb4; x0a; xe6; x9a;
  xb1; x0a; xe6; xa8; xa3; x0a; xe6; xa8;
  x9f; x0a; xe6; xa7; xa8; x0a; xe6; xa8;
  x81; x0a; xe6; xa8; x9e; x0a; xe6; xa8;
  x99; x0a; xe6; xa7; xbd; x0a; xe6; xa8;
  xa1; x0a; xe6; xa8; x93; x0a; xe6; xa8;
  x8a; x0a; xe6; xa7; xb3; x0a; xe6; xa8;
  x82; x0a; xe6; xa8; x85; x0a; xe6; xa7;
  xad; x0a; xe6; xa8; x91; x0a; xe6; xad;
  x90; x0a; xe6; xad; x8e; x0a; xe6; xae;
  xa4; x0a; xe6; xaf; x85; x0a; xe6; xaf;
  x86; x0a; xe6; xbc; xbf; x0a; xe6; xbd;
  xbc; x0a; xe6; xbe; x84; x0a; xe6; xbd;
  x91; x0a; xe6; xbd; xa6; x0a; xe6; xbd;
  x94; x0a; xe6; xbe; x86; x0a; xe6; xbd
].
(* tests/test_data/whatwg/big5_whatwg_test_decode_out.txt, entries 34560..34815 *)
Definition big5_decode_out_135 : list byte := [
  xad; x0a; xe6; xbd; x9b; x0a; xe6; xbd;
  xb8; x0a; xe6; xbd; xae; x0a; xe6; xbe;
  x8e; x0a; xe6; xbd; xba; x0a; xe6; xbd;
  xb0; x0a; xe6; xbd; xa4; x0a; xe6; xbe;
  x97; x0a; xe6; xbd; x98; x0a; xe6; xbb;
  x95; x0a; xe6; xbd; xaf; x0a; xe6; xbd;
  xa0; x0a; xe6; xbd; x9f; x0a; xe7; x86;
  x9f; x0a; xe7; x86; xac; x0a; xe7; x86;
  xb1; x0a; xe7; x86; xa8; x0a; xe7; x89;
  x96; x0a; xe7; x8a; x9b; x0a; xe7; x8d;
  x8e; x0a; xe7; x8d; x97; x0a; xe7; x91;
  xa9; x0a; xe7; x92; x8b; x0a; xe7; x92;
  x83; x0a; xe7; x91; xbe; x0a; xe7; x92;
  x80; x0a; xe7; x95; xbf; x0a; xe7; x98;
  xa0; x0a; xe7; x98; xa9; x0a; xe7; x98;
  x9f; x0a; xe7; x98; xa4; x0a; xe7; x98;
  xa6; x0a; xe7; x98; xa1; x0a; xe7; x98;
  xa2; x0a; xe7; x9a; x9a; x0a; xe7; x9a;
  xba; x0a; xe7; x9b; xa4; x0a; xe7; x9e;
  x8e; x0a; xe7; x9e; x87; x0a; xe7; x9e;
  x8c; x0a; xe7; x9e; x91; x0a; xe7; x9e;
  x8b; x0a; xe7; xa3; x8b; x0a; xe7; xa3;
  x85; x0a; xe7; xa2; xba; x0a; xe7; xa3;
  x8a; x0a; xe7; xa2; xbe; x0a; xe7; xa3;
  x95; x0a; xe7; xa2; xbc; x0a; xe7; xa3;
  x90; x0a; xe7; xa8; xbf; x0a; xe7; xa8;
  xbc; x0a; xe7; xa9; x80; x0a; xe7; xa8;
  xbd; x0a; xe7; xa8; xb7; x0a; xe7; xa8;
  xbb; x0a; xe7; xaa; xaf; x0a; xe7; xaa;
  xae; x0a; xe7; xae; xad; x0a; xe7; xae;
  xb1; x0a; xe7; xaf; x84; x0a; xe7; xae;
  xb4; x0a; xe7; xaf; x86; x0a; xe7; xaf
].
(* tests/test_data/whatwg/big5_whatwg_test_decode_out.txt, entries 34816..35071 *)
Definition big5_decode_out_136 : list byte := [
  x87; x0a; xe7; xaf; x81; x0a; xe7; xae;
  xa0; x0a; xe7; xaf; x8c; x0a; xe7; xb3;
  x8a; x0a; xe7; xb7; xa0; x0a; xe7; xb7;
  xb4; x0a; xe7; xb7; xaf; x0a; xe7; xb7;
  xbb; x0a; xe7; xb7; x98; x0a; xe7; xb7;
  xac; x0a; xe7; xb7; x9d; x0a; xe7; xb7;
  xa8; x0a; xe7; xb7; xa3; x0a; xe7; xb7;
  x9a; x0a; xe7; xb7; x9e; x0a; xe7; xb7;
  xa9; x0a; xe7; xb6; x9e; x0a; xe7; xb7;
  x99; x0a; xe7; xb7; xb2; x0a; xe7; xb7;
  xb9; x0a; xe7; xbd; xb5; x0a; xe7; xbd;
  xb7; x0a; xe7; xbe; xaf; x0a; xe7; xbf;
  xa9; x0a; xe8; x80; xa6; x0a; xe8; x86;
  x9b; x0a; xe8; x86; x9c; x0a; xe8; x86;
  x9d; x0a; xe8; x86; xa0; x0a; xe8; x86;
  x9a; x0a; xe8; x86; x98; x0a; xe8; x94;
  x97; x0a; xe8; x94; xbd; x0a; xe8; x94;
  x9a; x0a; xe8; x93; xae; x0a; xe8; x94;
  xac; x0a; xe8; x94; xad; x0a; xe8; x94;
  x93; x0a; xe8; x94; x91; x0a; xe8; x94;
  xa3; x0a; xe8; x94; xa1; x0a; xe8; x94;
  x94; x0a; xe8; x93; xac; x0a; xe8; x94;
  xa5; x0a; xe8; x93; xbf; x0a; xe8; x94;
  x86; x0a; xe8; x9e; x82; x0a; xe8; x9d;
  xb4; x0a; xe8; x9d; xb6; x0a; xe8; x9d;
  xa0; x0a; xe8; x9d; xa6; x0a; xe8; x9d;
  xb8; x0a; xe8; x9d; xa8; x0a; xe8; x9d;
  x99; x0a; xe8; x9d; x97; x0a; xe8; x9d;
  x8c; x0a; xe8; x9d; x93; x0a; xe8; xa1;
  x9b; x0a; xe8; xa1; x9d; x0a; xe8; xa4;
  x90; x0a; xe8; xa4; x87; x0a; xe8; xa4;
  x92; x0a; xe8; xa4; x93; x0a; xe8; xa4
].
(* tests/test_data/whatwg/big5_whatwg_test_decode_out.txt, entries 35072..35327 *)
Definition big5_decode_out_137 : list byte := [
  x95; x0a; xe8; xa4; x8a; x0a; xe8; xaa;
  xbc; x0a; xe8; xab; x92; x0a; xe8; xab;
  x87; x0a; xe8; xab; x84; x0a; xe8; xaa;
  x95; x0a; xe8; xab; x8b; x0a; xe8; xab;
  xb8; x0a; xe8; xaa; xb2; x0a; xe8; xab;
  x89; x0a; xe8; xab; x82; x0a; xe8; xaa;
  xbf; x0a; xe8; xaa; xb0; x0a; xe8; xab;
  x96; x0a; xe8; xab; x8d; x0a; xe8; xaa;
  xb6; x0a; xe8; xaa; xb9; x0a; xe8; xab;
  x9b; x0a; xe8; xb1; x8c; x0a; xe8; xb1;
  x8e; x0a; xe8; xb1; xac; x0a; xe8; xb3;
  xa0; x0a; xe8; xb3; x9e; x0a; xe8; xb3;
  xa6; x0a; xe8; xb3; xa4; x0a; xe8; xb3;
  xac; x0a; xe8; xb3; xad; x0a; xe8; xb3;
  xa2; x0a; xe8; xb3; xa3; x0a; xe8; xb3;
  x9c; x0a; xe8; xb3; xaa; x0a; xe8; xb3;
  xa1; x0a; xe8; xb5; xad; x0a; xe8; xb6;
  x9f; x0a; xe8; xb6; xa3; x0a; xe8; xb8;
  xab; x0a; xe8; xb8; x90; x0a; xe8; xb8;
  x9d; x0a; xe8; xb8; xa2; x0a; xe8; xb8;
  x8f; x0a; xe8; xb8; xa9; x0a; xe8; xb8;
  x9f; x0a; xe8; xb8; xa1; x0a; xe8; xb8;
  x9e; x0a; xe8; xba; xba; x0a; xe8; xbc;
  x9d; x0a; xe8; xbc; x9b; x0a; xe8; xbc;
  x9f; x0a; xe8; xbc; xa9; x0a; xe8; xbc;
  xa6; x0a; xe8; xbc; xaa; x0a; xe8; xbc;
  x9c; x0a; xe8; xbc; x9e; x0a; xe8; xbc;
  xa5; x0a; xe9; x81; xa9; x0a; xe9; x81;
  xae; x0a; xe9; x81; xa8; x0a; xe9; x81;
  xad; x0a; xe9; x81; xb7; x0a; xe9; x84;
  xb0; x0a; xe9; x84; xad; x0a; xe9; x84;
  xa7; x0a; xe9; x84; xb1; x0a; xe9; x86
].
(* tests/test_data/whatwg/big5_whatwg_test_decode_out.txt, entries 35328..35583 *)
Definition big5_decode_out_138 : list byte := [
  x87; x0a; xe9; x86; x89; x0a; xe9; x86;
  x8b; x0a; xe9; x86; x83; x0a; xe9; x8b;
  x85; x0a; xe9; x8a; xbb; x0a; xe9; x8a;
  xb7; x0a; xe9; x8b; xaa; x0a; xe9; x8a;
  xac; x0a; xe9; x8b; xa4; x0a; xe9; x8b;
  x81; x0a; xe9; x8a; xb3; x0a; xe9; x8a;
  xbc; x0a; xe9; x8b; x92; x0a; xe9; x8b;
  x87; x0a; xe9; x8b; xb0; x0a; xe9; x8a;
  xb2; x0a; xe9; x96; xad; x0a; xe9; x96;
  xb1; x0a; xe9; x9c; x84; x0a; xe9; x9c;
  x86; x0a; xe9; x9c; x87; x0a; xe9; x9c;
  x89; x0a; xe9; x9d; xa0; x0a; xe9; x9e;
  x8d; x0a; xe9; x9e; x8b; x0a; xe9; x9e;
  x8f; x0a; xe9; xa0; xa1; x0a; xe9; xa0;
  xab; x0a; xe9; xa0; x9c; x0a; xe9; xa2;
  xb3; x0a; xe9; xa4; x8a; x0a; xe9; xa4;
  x93; x0a; xe9; xa4; x92; x0a; xe9; xa4;
  x98; x0a; xe9; xa7; x9d; x0a; xe9; xa7;
  x90; x0a; xe9; xa7; x9f; x0a; xe9; xa7;
  x9b; x0a; xe9; xa7; x91; x0a; xe9; xa7;
  x95; x0a; xe9; xa7; x92; x0a; xe9; xa7;
  x99; x0a; xe9; xaa; xb7; x0a; xe9; xab;
  xae; x0a; xe9; xab; xaf; x0a; xe9; xac;
  xa7; x0a; xe9; xad; x85; x0a; xe9; xad;
  x84; x0a; xe9; xad; xb7; x0a; xe9; xad;
  xaf; x0a; xe9; xb4; x86; x0a; xe9; xb4;
  x89; x0a; xe9; xb4; x83; x0a; xe9; xba;
  xa9; x0a; xe9; xba; xbe; x0a; xe9; xbb;
  x8e; x0a; xe5; xa2; xa8; x0a; xe9; xbd;
  x92; x0a; xe5; x84; x92; x0a; xe5; x84;
  x98; x0a; xe5; x84; x94; x0a; xe5; x84;
  x90; x0a; xe5; x84; x95; x0a; xe5; x86
].
(* tests/test_data/whatwg/big5_whatwg_test_decode_out.txt, entries 35584..35839 *)
Definition big5_decode_out_139 : list byte := [
  x80; x0a; xe5; x86; xaa; x0a; xe5; x87;
  x9d; x0a; xe5; x8a; x91; x0a; xe5; x8a;
  x93; x0a; xe5; x8b; xb3; x0a; xe5; x99;
  x99; x0a; xe5; x99; xab; x0a; xe5; x99;
  xb9; x0a; xe5; x99; xa9; x0a; xe5; x99;
  xa4; x0a; xe5; x99; xb8; x0a; xe5; x99;
  xaa; x0a; xe5; x99; xa8; x0a; xe5; x99;
  xa5; x0a; xe5; x99; xb1; x0a; xe5; x99;
  xaf; x0a; xe5; x99; xac; x0a; xe5; x99;
  xa2; x0a; xe5; x99; xb6; x0a; xe5; xa3;
  x81; x0a; xe5; xa2; xbe; x0a; xe5; xa3;
  x87; x0a; xe5; xa3; x85; x0a; xe5; xa5;
  xae; x0a; xe5; xac; x9d; x0a; xe5; xac;
  xb4; x0a; xe5; xad; xb8; x0a; xe5; xaf;
  xb0; x0a; xe5; xb0; x8e; x0a; xe5; xbd;
  x8a; x0a; xe6; x86; xb2; x0a; xe6; x86;
  x91; x0a; xe6; x86; xa9; x0a; xe6; x86;
  x8a; x0a; xe6; x87; x8d; x0a; xe6; x86;
  xb6; x0a; xe6; x86; xbe; x0a; xe6; x87;
  x8a; x0a; xe6; x87; x88; x0a; xe6; x88;
  xb0; x0a; xe6; x93; x85; x0a; xe6; x93;
  x81; x0a; xe6; x93; x8b; x0a; xe6; x92;
  xbb; x0a; xe6; x92; xbc; x0a; xe6; x93;
  x9a; x0a; xe6; x93; x84; x0a; xe6; x93;
  x87; x0a; xe6; x93; x82; x0a; xe6; x93;
  x8d; x0a; xe6; x92; xbf; x0a; xe6; x93;
  x92; x0a; xe6; x93; x94; x0a; xe6; x92;
  xbe; x0a; xe6; x95; xb4; x0a; xe6; x9b;
  x86; x0a; xe6; x9b; x89; x0a; xe6; x9a;
  xb9; x0a; xe6; x9b; x84; x0a; xe6; x9b;
  x87; x0a; xe6; x9a; xb8; x0a; xe6; xa8;
  xbd; x0a; xe6; xa8; xb8; x0a; xe6; xa8
].
(* tests/test_data/whatwg/big5_whatwg_test_decode_out.txt, entries 35840..36095 *)
Definition big5_decode_out_140 : list byte := [
  xba; x0a; xe6; xa9; x99; x0a; xe6; xa9;
  xab; x0a; xe6; xa9; x98; x0a; xe6; xa8;
  xb9; x0a; xe6; xa9; x84; x0a; xe6; xa9;
  xa2; x0a; xe6; xa9; xa1; x0a; xe6; xa9;
  x8b; x0a; xe6; xa9; x87; x0a; xe6; xa8;
  xb5; x0a; xe6; xa9; x9f; x0a; xe6; xa9;
  x88; x0a; xe6; xad; x99; x0a; xe6; xad;
  xb7; x0a; xe6; xb0; x85; x0a; xe6; xbf;
  x82; x0a; xe6; xbe; xb1; x0a; xe6; xbe;
  xa1; x0a; xe6; xbf; x83; x0a; xe6; xbe;
  xa4; x0a; xe6; xbf; x81; x0a; xe6; xbe;
  xa7; x0a; xe6; xbe; xb3; x0a; xe6; xbf;
  x80; x0a; xe6; xbe; xb9; x0a; xe6; xbe;
  xb6; x0a; xe6; xbe; xa6; x0a; xe6; xbe;
  xa0; x0a; xe6; xbe; xb4; x0a; xe7; x86;
  xbe; x0a; xe7; x87; x89; x0a; xe7; x87;
  x90; x0a; xe7; x87; x92; x0a; xe7; x87;
  x88; x0a; xe7; x87; x95; x0a; xe7; x86;
  xb9; x0a; xe7; x87; x8e; x0a; xe7; x87;
  x99; x0a; xe7; x87; x9c; x0a; xe7; x87;
  x83; x0a; xe7; x87; x84; x0a; xe7; x8d;
  xa8; x0a; xe7; x92; x9c; x0a; xe7; x92;
  xa3; x0a; xe7; x92; x98; x0a; xe7; x92;
  x9f; x0a; xe7; x92; x9e; x0a; xe7; x93;
  xa2; x0a; xe7; x94; x8c; x0a; xe7; x94;
  x8d; x0a; xe7; x98; xb4; x0a; xe7; x98;
  xb8; x0a; xe7; x98; xba; x0a; xe7; x9b;
  xa7; x0a; xe7; x9b; xa5; x0a; xe7; x9e;
  xa0; x0a; xe7; x9e; x9e; x0a; xe7; x9e;
  x9f; x0a; xe7; x9e; xa5; x0a; xe7; xa3;
  xa8; x0a; xe7; xa3; x9a; x0a; xe7; xa3;
  xac; x0a; xe7; xa3; xa7; x0a; xe7; xa6
].
(* tests/test_data/whatwg/big5_whatwg_test_decode_out.txt, entries 36096..36351 *)
Definition big5_decode_out_141 : list byte := [
  xa6; x0a; xe7; xa9; x8d; x0a; xe7; xa9;
  x8e; x0a; xe7; xa9; x86; x0a; xe7; xa9;
  x8c; x0a; xe7; xa9; x8b; x0a; xe7; xaa;
  xba; x0a; xe7; xaf; x99; x0a; xe7; xb0;
  x91; x0a; xe7; xaf; x89; x0a; xe7; xaf;
  xa4; x0a; xe7; xaf; x9b; x0a; xe7; xaf;
  xa1; x0a; xe7; xaf; xa9; x0a; xe7; xaf;
  xa6; x0a; xe7; xb3; x95; x0a; xe7; xb3;
  x96; x0a; xe7; xb8; x8a; x0a; xe7; xb8;
  x91; x0a; xe7; xb8; x88; x0a; xe7; xb8;
  x9b; x0a; xe7; xb8; xa3; x0a; xe7; xb8;
  x9e; x0a; xe7; xb8; x9d; x0a; xe7; xb8;
  x89; x0a; xe7; xb8; x90; x0a; xe7; xbd;
  xb9; x0a; xe7; xbe; xb2; x0a; xe7; xbf;
  xb0; x0a; xe7; xbf; xb1; x0a; xe7; xbf;
  xae; x0a; xe8; x80; xa8; x0a; xe8; x86;
  xb3; x0a; xe8; x86; xa9; x0a; xe8; x86;
  xa8; x0a; xe8; x87; xbb; x0a; xe8; x88;
  x88; x0a; xe8; x89; x98; x0a; xe8; x89;
  x99; x0a; xe8; x95; x8a; x0a; xe8; x95;
  x99; x0a; xe8; x95; x88; x0a; xe8; x95;
  xa8; x0a; xe8; x95; xa9; x0a; xe8; x95;
  x83; x0a; xe8; x95; x89; x0a; xe8; x95;
  xad; x0a; xe8; x95; xaa; x0a; xe8; x95;
  x9e; x0a; xe8; x9e; x83; x0a; xe8; x9e;
  x9f; x0a; xe8; x9e; x9e; x0a; xe8; x9e;
  xa2; x0a; xe8; x9e; x8d; x0a; xe8; xa1;
  xa1; x0a; xe8; xa4; xaa; x0a; xe8; xa4;
  xb2; x0a; xe8; xa4; xa5; x0a; xe8; xa4;
  xab; x0a; xe8; xa4; xa1; x0a; xe8; xa6;
  xaa; x0a; xe8; xa6; xa6; x0a; xe8; xab;
  xa6; x0a; xe8; xab; xba; x0a; xe8; xab
].
(* tests/test_data/whatwg/big5_whatwg_test_decode_out.txt, entries 36352..36607 *)
Definition big5_decode_out_142 : list byte := [
  xab; x0a; xe8; xab; xb1; x0a; xe8; xac;
  x80; x0a; xe8; xab; x9c; x0a; xe8; xab;
  xa7; x0a; xe8; xab; xae; x0a; xe8; xab;
  xbe; x0a; xe8; xac; x81; x0a; xe8; xac;
  x82; x0a; xe8; xab; xb7; x0a; xe8; xab;
  xad; x0a; xe8; xab; xb3; x0a; xe8; xab;
  xb6; x0a; xe8; xab; xbc; x0a; xe8; xb1;
  xab; x0a; xe8; xb1; xad; x0a; xe8; xb2;
  x93; x0a; xe8; xb3; xb4; x0a; xe8; xb9;
  x84; x0a; xe8; xb8; xb1; x0a; xe8; xb8;
  xb4; x0a; xe8; xb9; x82; x0a; xe8; xb8;
  xb9; x0a; xe8; xb8; xb5; x0a; xe8; xbc;
  xbb; x0a; xe8; xbc; xaf; x0a; xe8; xbc;
  xb8; x0a; xe8; xbc; xb3; x0a; xe8; xbe;
  xa8; x0a; xe8; xbe; xa6; x0a; xe9; x81;
  xb5; x0a; xe9; x81; xb4; x0a; xe9; x81;
  xb8; x0a; xe9; x81; xb2; x0a; xe9; x81;
  xbc; x0a; xe9; x81; xba; x0a; xe9; x84;
  xb4; x0a; xe9; x86; x92; x0a; xe9; x8c;
  xa0; x0a; xe9; x8c; xb6; x0a; xe9; x8b;
  xb8; x0a; xe9; x8c; xb3; x0a; xe9; x8c;
  xaf; x0a; xe9; x8c; xa2; x0a; xe9; x8b;
  xbc; x0a; xe9; x8c; xab; x0a; xe9; x8c;
  x84; x0a; xe9; x8c; x9a; x0a; xe9; x8c;
  x90; x0a; xe9; x8c; xa6; x0a; xe9; x8c;
  xa1; x0a; xe9; x8c; x95; x0a; xe9; x8c;
  xae; x0a; xe9; x8c; x99; x0a; xe9; x96;
  xbb; x0a; xe9; x9a; xa7; x0a; xe9; x9a;
  xa8; x0a; xe9; x9a; xaa; x0a; xe9; x9b;
  x95; x0a; xe9; x9c; x8e; x0a; xe9; x9c;
  x91; x0a; xe9; x9c; x96; x0a; xe9; x9c;
  x8d; x0a; xe9; x9c; x93; x0a; xe9; x9c
].
(* tests/test_data/whatwg/big5_whatwg_test_decode_out.txt, entries 36608..36863 *)
Definition big5_decode_out_143 : list byte := [
  x8f; x0a; xe9; x9d; x9b; x0a; xe9; x9d;
  x9c; x0a; xe9; x9d; xa6; x0a; xe9; x9e;
  x98; x0a; xe9; xa0; xb0; x0a; xe9; xa0;
  xb8; x0a; xe9; xa0; xbb; x0a; xe9; xa0;
  xb7; x0a; xe9; xa0; xad; x0a; xe9; xa0;
  xb9; x0a; xe9; xa0; xa4; x0a; xe9; xa4;
  x90; x0a; xe9; xa4; xa8; x0a; xe9; xa4;
  x9e; x0a; xe9; xa4; x9b; x0a; xe9; xa4;
  xa1; x0a; xe9; xa4; x9a; x0a; xe9; xa7;
  xad; x0a; xe9; xa7; xa2; x0a; xe9; xa7;
  xb1; x0a; xe9; xaa; xb8; x0a; xe9; xaa;
  xbc; x0a; xe9; xab; xbb; x0a; xe9; xab;
  xad; x0a; xe9; xac; xa8; x0a; xe9; xae;
  x91; x0a; xe9; xb4; x95; x0a; xe9; xb4;
  xa3; x0a; xe9; xb4; xa6; x0a; xe9; xb4;
  xa8; x0a; xe9; xb4; x92; x0a; xe9; xb4;
  x9b; x0a; xe9; xbb; x98; x0a; xe9; xbb;
  x94; x0a; xe9; xbe; x8d; x0a; xe9; xbe;
  x9c; x0a; xe5; x84; xaa; x0a; xe5; x84;
  x9f; x0a; xe5; x84; xa1; x0a; xe5; x84;
  xb2; x0a; xe5; x8b; xb5; x0a; xe5; x9a;
  x8e; x0a; xe5; x9a; x80; x0a; xe5; x9a;
  x90; x0a; xe5; x9a; x85; x0a; xe5; x9a;
  x87; x0a; xe5; x9a; x8f; x0a; xe5; xa3;
  x95; x0a; xe5; xa3; x93; x0a; xe5; xa3;
  x91; x0a; xe5; xa3; x8e; x0a; xe5; xac;
  xb0; x0a; xe5; xac; xaa; x0a; xe5; xac;
  xa4; x0a; xe5; xad; xba; x0a; xe5; xb0;
  xb7; x0a; xe5; xb1; xa8; x0a; xe5; xb6;
  xbc; x0a; xe5; xb6; xba; x0a; xe5; xb6;
  xbd; x0a; xe5; xb6; xb8; x0a; xe5; xb9;
  xab; x0a; xe5; xbd; x8c; x0a; xe5; xbe
].
(* tests/test_data/whatwg/big5_whatwg_test_decode_out.txt, entries 36864..37119 *)
Definition big5_decode_out_144 : list byte := [
  xbd; x0a; xe6; x87; x89; x0a; xe6; x87;
  x82; x0a; xe6; x87; x87; x0a; xe6; x87;
  xa6; x0a; xe6; x87; x8b; x0a; xe6; x88;
  xb2; x0a; xe6; x88; xb4; x0a; xe6; x93;
  x8e; x0a; xe6; x93; x8a; x0a; xe6; x93;
  x98; x0a; xe6; x93; xa0; x0a; xe6; x93;
  xb0; x0a; xe6; x93; xa6; x0a; xe6; x93;
  xac; x0a; xe6; x93; xb1; x0a; xe6; x93;
  xa2; x0a; xe6; x93; xad; x0a; xe6; x96;
  x82; x0a; xe6; x96; x83; x0a; xe6; x9b;
  x99; x0a; xe6; x9b; x96; x0a; xe6; xaa;
  x80; x0a; xe6; xaa; x94; x0a; xe6; xaa;
  x84; x0a; xe6; xaa; xa2; x0a; xe6; xaa;
  x9c; x0a; xe6; xab; x9b; x0a; xe6; xaa;
  xa3; x0a; xe6; xa9; xbe; x0a; xe6; xaa;
  x97; x0a; xe6; xaa; x90; x0a; xe6; xaa;
  xa0; x0a; xe6; xad; x9c; x0a; xe6; xae;
  xae; x0a; xe6; xaf; x9a; x0a; xe6; xb0;
  x88; x0a; xe6; xbf; x98; x0a; xe6; xbf;
  xb1; x0a; xe6; xbf; x9f; x0a; xe6; xbf;
  xa0; x0a; xe6; xbf; x9b; x0a; xe6; xbf;
  xa4; x0a; xe6; xbf; xab; x0a; xe6; xbf;
  xaf; x0a; xe6; xbe; x80; x0a; xe6; xbf;
  xac; x0a; xe6; xbf; xa1; x0a; xe6; xbf;
  xa9; x0a; xe6; xbf; x95; x0a; xe6; xbf;
  xae; x0a; xe6; xbf; xb0; x0a; xe7; x87;
  xa7; x0a; xe7; x87; x9f; x0a; xe7; x87;
  xae; x0a; xe7; x87; xa6; x0a; xe7; x87;
  xa5; x0a; xe7; x87; xad; x0a; xe7; x87;
  xac; x0a; xe7; x87; xb4; x0a; xe7; x87;
  xa0; x0a; xe7; x88; xb5; x0a; xe7; x89;
  x86; x0a; xe7; x8d; xb0; x0a; xe7; x8d
].
(* tests/test_data/whatwg/big5_whatwg_test_decode_out.txt, entries 37120..37375 *)
Definition big5_decode_out_145 : list byte := [
  xb2; x0a; xe7; x92; xa9; x0a; xe7; x92;
  xb0; x0a; xe7; x92; xa6; x0a; xe7; x92;
  xa8; x0a; xe7; x99; x86; x0a; xe7; x99;
  x82; x0a; xe7; x99; x8c; x0a; xe7; x9b;
  xaa; x0a; xe7; x9e; xb3; x0a; xe7; x9e;
  xaa; x0a; xe7; x9e; xb0; x0a; xe7; x9e;
  xac; x0a; xe7; x9e; xa7; x0a; xe7; x9e;
  xad; x0a; xe7; x9f; xaf; x0a; xe7; xa3;
  xb7; x0a; xe7; xa3; xba; x0a; xe7; xa3;
  xb4; x0a; xe7; xa3; xaf; x0a; xe7; xa4;
  x81; x0a; xe7; xa6; xa7; x0a; xe7; xa6;
  xaa; x0a; xe7; xa9; x97; x0a; xe7; xaa;
  xbf; x0a; xe7; xb0; x87; x0a; xe7; xb0;
  x8d; x0a; xe7; xaf; xbe; x0a; xe7; xaf;
  xb7; x0a; xe7; xb0; x8c; x0a; xe7; xaf;
  xa0; x0a; xe7; xb3; xa0; x0a; xe7; xb3;
  x9c; x0a; xe7; xb3; x9e; x0a; xe7; xb3;
  xa2; x0a; xe7; xb3; x9f; x0a; xe7; xb3;
  x99; x0a; xe7; xb3; x9d; x0a; xe7; xb8;
  xae; x0a; xe7; xb8; xbe; x0a; xe7; xb9;
  x86; x0a; xe7; xb8; xb7; x0a; xe7; xb8;
  xb2; x0a; xe7; xb9; x83; x0a; xe7; xb8;
  xab; x0a; xe7; xb8; xbd; x0a; xe7; xb8;
  xb1; x0a; xe7; xb9; x85; x0a; xe7; xb9;
  x81; x0a; xe7; xb8; xb4; x0a; xe7; xb8;
  xb9; x0a; xe7; xb9; x88; x0a; xe7; xb8;
  xb5; x0a; xe7; xb8; xbf; x0a; xe7; xb8;
  xaf; x0a; xe7; xbd; x84; x0a; xe7; xbf;
  xb3; x0a; xe7; xbf; xbc; x0a; xe8; x81;
  xb1; x0a; xe8; x81; xb2; x0a; xe8; x81;
  xb0; x0a; xe8; x81; xaf; x0a; xe8; x81;
  xb3; x0a; xe8; x87; x86; x0a; xe8; x87
].
(* tests/test_data/whatwg/big5_whatwg_test_decode_out.txt, entries 37376..37631 *)
Definition big5_decode_out_146 : list byte := [
  x83; x0a; xe8; x86; xba; x0a; xe8; x87;
  x82; x0a; xe8; x87; x80; x0a; xe8; x86;
  xbf; x0a; xe8; x86; xbd; x0a; xe8; x87;
  x89; x0a; xe8; x86; xbe; x0a; xe8; x87;
  xa8; x0a; xe8; x88; x89; x0a; xe8; x89;
  xb1; x0a; xe8; x96; xaa; x0a; xe8; x96;
  x84; x0a; xe8; x95; xbe; x0a; xe8; x96;
  x9c; x0a; xe8; x96; x91; x0a; xe8; x96;
  x94; x0a; xe8; x96; xaf; x0a; xe8; x96;
  x9b; x0a; xe8; x96; x87; x0a; xe8; x96;
  xa8; x0a; xe8; x96; x8a; x0a; xe8; x99;
  xa7; x0a; xe8; x9f; x80; x0a; xe8; x9f;
  x91; x0a; xe8; x9e; xb3; x0a; xe8; x9f;
  x92; x0a; xe8; x9f; x86; x0a; xe8; x9e;
  xab; x0a; xe8; x9e; xbb; x0a; xe8; x9e;
  xba; x0a; xe8; x9f; x88; x0a; xe8; x9f;
  x8b; x0a; xe8; xa4; xbb; x0a; xe8; xa4;
  xb6; x0a; xe8; xa5; x84; x0a; xe8; xa4;
  xb8; x0a; xe8; xa4; xbd; x0a; xe8; xa6;
  xac; x0a; xe8; xac; x8e; x0a; xe8; xac;
  x97; x0a; xe8; xac; x99; x0a; xe8; xac;
  x9b; x0a; xe8; xac; x8a; x0a; xe8; xac;
  xa0; x0a; xe8; xac; x9d; x0a; xe8; xac;
  x84; x0a; xe8; xac; x90; x0a; xe8; xb1;
  x81; x0a; xe8; xb0; xbf; x0a; xe8; xb1;
  xb3; x0a; xe8; xb3; xba; x0a; xe8; xb3;
  xbd; x0a; xe8; xb3; xbc; x0a; xe8; xb3;
  xb8; x0a; xe8; xb3; xbb; x0a; xe8; xb6;
  xa8; x0a; xe8; xb9; x89; x0a; xe8; xb9;
  x8b; x0a; xe8; xb9; x88; x0a; xe8; xb9;
  x8a; x0a; xe8; xbd; x84; x0a; xe8; xbc;
  xbe; x0a; xe8; xbd; x82; x0a; xe8; xbd
].
(* tests/test_data/whatwg/big5_whatwg_test_decode_out.txt, entries 37632..37887 *)
Definition big5_decode_out_147 : list byte := [
  x85; x0a; xe8; xbc; xbf; x0a; xe9; x81;
  xbf; x0a; xe9; x81; xbd; x0a; xe9; x82;
  x84; x0a; xe9; x82; x81; x0a; xe9; x82;
  x82; x0a; xe9; x82; x80; x0a; xe9; x84;
  xb9; x0a; xe9; x86; xa3; x0a; xe9; x86;
  x9e; x0a; xe9; x86; x9c; x0a; xe9; x8d;
  x8d; x0a; xe9; x8e; x82; x0a; xe9; x8c;
  xa8; x0a; xe9; x8d; xb5; x0a; xe9; x8d;
  x8a; x0a; xe9; x8d; xa5; x0a; xe9; x8d;
  x8b; x0a; xe9; x8c; x98; x0a; xe9; x8d;
  xbe; x0a; xe9; x8d; xac; x0a; xe9; x8d;
  x9b; x0a; xe9; x8d; xb0; x0a; xe9; x8d;
  x9a; x0a; xe9; x8d; x94; x0a; xe9; x97;
  x8a; x0a; xe9; x97; x8b; x0a; xe9; x97;
  x8c; x0a; xe9; x97; x88; x0a; xe9; x97;
  x86; x0a; xe9; x9a; xb1; x0a; xe9; x9a;
  xb8; x0a; xe9; x9b; x96; x0a; xe9; x9c;
  x9c; x0a; xe9; x9c; x9e; x0a; xe9; x9e;
  xa0; x0a; xe9; x9f; x93; x0a; xe9; xa1;
  x86; x0a; xe9; xa2; xb6; x0a; xe9; xa4;
  xb5; x0a; xe9; xa8; x81; x0a; xe9; xa7;
  xbf; x0a; xe9; xae; xae; x0a; xe9; xae;
  xab; x0a; xe9; xae; xaa; x0a; xe9; xae;
  xad; x0a; xe9; xb4; xbb; x0a; xe9; xb4;
  xbf; x0a; xe9; xba; x8b; x0a; xe9; xbb;
  x8f; x0a; xe9; xbb; x9e; x0a; xe9; xbb;
  x9c; x0a; xe9; xbb; x9d; x0a; xe9; xbb;
  x9b; x0a; xe9; xbc; xbe; x0a; xe9; xbd;
  x8b; x0a; xe5; x8f; xa2; x0a; xe5; x9a;
  x95; x0a; xe5; x9a; xae; x0a; xe5; xa3;
  x99; x0a; xe5; xa3; x98; x0a; xe5; xac;
  xb8; x0a; xe5; xbd; x9d; x0a; xe6; x87
].
(* tests/test_data/whatwg/big5_whatwg_test_decode_out.txt, entries 37888..38143 *)
Definition big5_decode_out_148 : list byte := [
  xa3; x0a; xe6; x88; xb3; x0a; xe6; x93;
  xb4; x0a; xe6; x93; xb2; x0a; xe6; x93;
  xbe; x0a; xe6; x94; x86; x0a; xe6; x93;
  xba; x0a; xe6; x93; xbb; x0a; xe6; x93;
  xb7; x0a; xe6; x96; xb7; x0a; xe6; x9b;
  x9c; x0a; xe6; x9c; xa6; x0a; xe6; xaa;
  xb3; x0a; xe6; xaa; xac; x0a; xe6; xab;
  x83; x0a; xe6; xaa; xbb; x0a; xe6; xaa;
  xb8; x0a; xe6; xab; x82; x0a; xe6; xaa;
  xae; x0a; xe6; xaa; xaf; x0a; xe6; xad;
  x9f; x0a; xe6; xad; xb8; x0a; xe6; xae;
  xaf; x0a; xe7; x80; x89; x0a; xe7; x80;
  x8b; x0a; xe6; xbf; xbe; x0a; xe7; x80;
  x86; x0a; xe6; xbf; xba; x0a; xe7; x80;
  x91; x0a; xe7; x80; x8f; x0a; xe7; x87;
  xbb; x0a; xe7; x87; xbc; x0a; xe7; x87;
  xbe; x0a; xe7; x87; xb8; x0a; xe7; x8d;
  xb7; x0a; xe7; x8d; xb5; x0a; xe7; x92;
  xa7; x0a; xe7; x92; xbf; x0a; xe7; x94;
  x95; x0a; xe7; x99; x96; x0a; xe7; x99;
  x98; x0a; xe7; x99; x92; x0a; xe7; x9e;
  xbd; x0a; xe7; x9e; xbf; x0a; xe7; x9e;
  xbb; x0a; xe7; x9e; xbc; x0a; xe7; xa4;
  x8e; x0a; xe7; xa6; xae; x0a; xe7; xa9;
  xa1; x0a; xe7; xa9; xa2; x0a; xe7; xa9;
  xa0; x0a; xe7; xab; x84; x0a; xe7; xab;
  x85; x0a; xe7; xb0; xab; x0a; xe7; xb0;
  xa7; x0a; xe7; xb0; xaa; x0a; xe7; xb0;
  x9e; x0a; xe7; xb0; xa3; x0a; xe7; xb0;
  xa1; x0a; xe7; xb3; xa7; x0a; xe7; xb9;
  x94; x0a; xe7; xb9; x95; x0a; xe7; xb9;
  x9e; x0a; xe7; xb9; x9a; x0a; xe7; xb9
].
(* tests/test_data/whatwg/big5_whatwg_test_decode_out.txt, entries 38144..38399 *)
Definition big5_decode_out_149 : list byte := [
  xa1; x0a; xe7; xb9; x92; x0a; xe7; xb9;
  x99; x0a; xe7; xbd; x88; x0a; xe7; xbf;
  xb9; x0a; xe7; xbf; xbb; x0a; xe8; x81;
  xb7; x0a; xe8; x81; xb6; x0a; xe8; x87;
  x8d; x0a; xe8; x87; x8f; x0a; xe8; x88;
  x8a; x0a; xe8; x97; x8f; x0a; xe8; x96;
  xa9; x0a; xe8; x97; x8d; x0a; xe8; x97;
  x90; x0a; xe8; x97; x89; x0a; xe8; x96;
  xb0; x0a; xe8; x96; xba; x0a; xe8; x96;
  xb9; x0a; xe8; x96; xa6; x0a; xe8; x9f;
  xaf; x0a; xe8; x9f; xac; x0a; xe8; x9f;
  xb2; x0a; xe8; x9f; xa0; x0a; xe8; xa6;
  x86; x0a; xe8; xa6; xb2; x0a; xe8; xa7;
  xb4; x0a; xe8; xac; xa8; x0a; xe8; xac;
  xb9; x0a; xe8; xac; xac; x0a; xe8; xac;
  xab; x0a; xe8; xb1; x90; x0a; xe8; xb4;
  x85; x0a; xe8; xb9; x99; x0a; xe8; xb9;
  xa3; x0a; xe8; xb9; xa6; x0a; xe8; xb9;
  xa4; x0a; xe8; xb9; x9f; x0a; xe8; xb9;
  x95; x0a; xe8; xbb; x80; x0a; xe8; xbd;
  x89; x0a; xe8; xbd; x8d; x0a; xe9; x82;
  x87; x0a; xe9; x82; x83; x0a; xe9; x82;
  x88; x0a; xe9; x86; xab; x0a; xe9; x86;
  xac; x0a; xe9; x87; x90; x0a; xe9; x8e;
  x94; x0a; xe9; x8e; x8a; x0a; xe9; x8e;
  x96; x0a; xe9; x8e; xa2; x0a; xe9; x8e;
  xb3; x0a; xe9; x8e; xae; x0a; xe9; x8e;
  xac; x0a; xe9; x8e; xb0; x0a; xe9; x8e;
  x98; x0a; xe9; x8e; x9a; x0a; xe9; x8e;
  x97; x0a; xe9; x97; x94; x0a; xe9; x97;
  x96; x0a; xe9; x97; x90; x0a; xe9; x97;
  x95; x0a; xe9; x9b; xa2; x0a; xe9; x9b
].
(* tests/test_data/whatwg/big5_whatwg_test_decode_out.txt, entries 38400..38655 *)
Definition big5_decode_out_150 : list byte := [
  x9c; x0a; xe9; x9b; x99; x0a; xe9; x9b;
  x9b; x0a; xe9; x9b; x9e; x0a; xe9; x9c;
  xa4; x0a; xe9; x9e; xa3; x0a; xe9; x9e;
  xa6; x0a; xe9; x9e; xad; x0a; xe9; x9f;
  xb9; x0a; xe9; xa1; x8d; x0a; xe9; xa1;
  x8f; x0a; xe9; xa1; x8c; x0a; xe9; xa1;
  x8e; x0a; xe9; xa1; x93; x0a; xe9; xa2;
  xba; x0a; xe9; xa4; xbe; x0a; xe9; xa4;
  xbf; x0a; xe9; xa4; xbd; x0a; xe9; xa4;
  xae; x0a; xe9; xa6; xa5; x0a; xe9; xa8;
  x8e; x0a; xe9; xab; x81; x0a; xe9; xac;
  x83; x0a; xe9; xac; x86; x0a; xe9; xad;
  x8f; x0a; xe9; xad; x8e; x0a; xe9; xad;
  x8d; x0a; xe9; xaf; x8a; x0a; xe9; xaf;
  x89; x0a; xe9; xaf; xbd; x0a; xe9; xaf;
  x88; x0a; xe9; xaf; x80; x0a; xe9; xb5;
  x91; x0a; xe9; xb5; x9d; x0a; xe9; xb5;
  xa0; x0a; xe9; xbb; xa0; x0a; xe9; xbc;
  x95; x0a; xe9; xbc; xac; x0a; xe5; x84;
  xb3; x0a; xe5; x9a; xa5; x0a; xe5; xa3;
  x9e; x0a; xe5; xa3; x9f; x0a; xe5; xa3;
  xa2; x0a; xe5; xaf; xb5; x0a; xe9; xbe;
  x90; x0a; xe5; xbb; xac; x0a; xe6; x87;
  xb2; x0a; xe6; x87; xb7; x0a; xe6; x87;
  xb6; x0a; xe6; x87; xb5; x0a; xe6; x94;
  x80; x0a; xe6; x94; x8f; x0a; xe6; x9b;
  xa0; x0a; xe6; x9b; x9d; x0a; xe6; xab;
  xa5; x0a; xe6; xab; x9d; x0a; xe6; xab;
  x9a; x0a; xe6; xab; x93; x0a; xe7; x80;
  x9b; x0a; xe7; x80; x9f; x0a; xe7; x80;
  xa8; x0a; xe7; x80; x9a; x0a; xe7; x80;
  x9d; x0a; xe7; x80; x95; x0a; xe7; x80
].
(* tests/test_data/whatwg/big5_whatwg_test_decode_out.txt, entries 38656..38911 *)
Definition big5_decode_out_151 : list byte := [
  x98; x0a; xe7; x88; x86; x0a; xe7; x88;
  x8d; x0a; xe7; x89; x98; x0a; xe7; x8a;
  xa2; x0a; xe7; x8d; xb8; x0a; xe7; x8d;
  xba; x0a; xe7; x92; xbd; x0a; xe7; x93;
  x8a; x0a; xe7; x93; xa3; x0a; xe7; x96;
  x87; x0a; xe7; x96; x86; x0a; xe7; x99;
  x9f; x0a; xe7; x99; xa1; x0a; xe7; x9f;
  x87; x0a; xe7; xa4; x99; x0a; xe7; xa6;
  xb1; x0a; xe7; xa9; xab; x0a; xe7; xa9;
  xa9; x0a; xe7; xb0; xbe; x0a; xe7; xb0;
  xbf; x0a; xe7; xb0; xb8; x0a; xe7; xb0;
  xbd; x0a; xe7; xb0; xb7; x0a; xe7; xb1;
  x80; x0a; xe7; xb9; xab; x0a; xe7; xb9;
  xad; x0a; xe7; xb9; xb9; x0a; xe7; xb9;
  xa9; x0a; xe7; xb9; xaa; x0a; xe7; xbe;
  x85; x0a; xe7; xb9; xb3; x0a; xe7; xbe;
  xb6; x0a; xe7; xbe; xb9; x0a; xe7; xbe;
  xb8; x0a; xe8; x87; x98; x0a; xe8; x97;
  xa9; x0a; xe8; x97; x9d; x0a; xe8; x97;
  xaa; x0a; xe8; x97; x95; x0a; xe8; x97;
  xa4; x0a; xe8; x97; xa5; x0a; xe8; x97;
  xb7; x0a; xe8; x9f; xbb; x0a; xe8; xa0;
  x85; x0a; xe8; xa0; x8d; x0a; xe8; x9f;
  xb9; x0a; xe8; x9f; xbe; x0a; xe8; xa5;
  xa0; x0a; xe8; xa5; x9f; x0a; xe8; xa5;
  x96; x0a; xe8; xa5; x9e; x0a; xe8; xad;
  x81; x0a; xe8; xad; x9c; x0a; xe8; xad;
  x98; x0a; xe8; xad; x89; x0a; xe8; xad;
  x9a; x0a; xe8; xad; x8e; x0a; xe8; xad;
  x8f; x0a; xe8; xad; x86; x0a; xe8; xad;
  x99; x0a; xe8; xb4; x88; x0a; xe8; xb4;
  x8a; x0a; xe8; xb9; xbc; x0a; xe8; xb9
].
(* tests/test_data/whatwg/big5_whatwg_test_decode_out.txt, entries 38912..39167 *)
Definition big5_decode_out_152 : list byte := [
  xb2; x0a; xe8; xba; x87; x0a; xe8; xb9;
  xb6; x0a; xe8; xb9; xac; x0a; xe8; xb9;
  xba; x0a; xe8; xb9; xb4; x0a; xe8; xbd;
  x94; x0a; xe8; xbd; x8e; x0a; xe8; xbe;
  xad; x0a; xe9; x82; x8a; x0a; xe9; x82;
  x8b; x0a; xe9; x86; xb1; x0a; xe9; x86;
  xae; x0a; xe9; x8f; xa1; x0a; xe9; x8f;
  x91; x0a; xe9; x8f; x9f; x0a; xe9; x8f;
  x83; x0a; xe9; x8f; x88; x0a; xe9; x8f;
  x9c; x0a; xe9; x8f; x9d; x0a; xe9; x8f;
  x96; x0a; xe9; x8f; xa2; x0a; xe9; x8f;
  x8d; x0a; xe9; x8f; x98; x0a; xe9; x8f;
  xa4; x0a; xe9; x8f; x97; x0a; xe9; x8f;
  xa8; x0a; xe9; x97; x9c; x0a; xe9; x9a;
  xb4; x0a; xe9; x9b; xa3; x0a; xe9; x9c;
  xaa; x0a; xe9; x9c; xa7; x0a; xe9; x9d;
  xa1; x0a; xe9; x9f; x9c; x0a; xe9; x9f;
  xbb; x0a; xe9; xa1; x9e; x0a; xe9; xa1;
  x98; x0a; xe9; xa1; x9b; x0a; xe9; xa2;
  xbc; x0a; xe9; xa5; x85; x0a; xe9; xa5;
  x89; x0a; xe9; xa8; x96; x0a; xe9; xa8;
  x99; x0a; xe9; xac; x8d; x0a; xe9; xaf;
  xa8; x0a; xe9; xaf; xa7; x0a; xe9; xaf;
  x96; x0a; xe9; xaf; x9b; x0a; xe9; xb6;
  x89; x0a; xe9; xb5; xa1; x0a; xe9; xb5;
  xb2; x0a; xe9; xb5; xaa; x0a; xe9; xb5;
  xac; x0a; xe9; xba; x92; x0a; xe9; xba;
  x97; x0a; xe9; xba; x93; x0a; xe9; xba;
  xb4; x0a; xe5; x8b; xb8; x0a; xe5; x9a;
  xa8; x0a; xe5; x9a; xb7; x0a; xe5; x9a;
  xb6; x0a; xe5; x9a; xb4; x0a; xe5; x9a;
  xbc; x0a; xe5; xa3; xa4; x0a; xe5; xad
].
(* tests/test_data/whatwg/big5_whatwg_test_decode_out.txt, entries 39168..39423 *)
Definition big5_decode_out_153 : list byte := [
  x80; x0a; xe5; xad; x83; x0a; xe5; xad;
  xbd; x0a; xe5; xaf; xb6; x0a; xe5; xb7;
  x89; x0a; xe6; x87; xb8; x0a; xe6; x87;
  xba; x0a; xe6; x94; x98; x0a; xe6; x94;
  x94; x0a; xe6; x94; x99; x0a; xe6; x9b;
  xa6; x0a; xe6; x9c; xa7; x0a; xe6; xab;
  xac; x0a; xe7; x80; xbe; x0a; xe7; x80;
  xb0; x0a; xe7; x80; xb2; x0a; xe7; x88;
  x90; x0a; xe7; x8d; xbb; x0a; xe7; x93;
  x8f; x0a; xe7; x99; xa2; x0a; xe7; x99;
  xa5; x0a; xe7; xa4; xa6; x0a; xe7; xa4;
  xaa; x0a; xe7; xa4; xac; x0a; xe7; xa4;
  xab; x0a; xe7; xab; x87; x0a; xe7; xab;
  xb6; x0a; xe7; xb1; x8c; x0a; xe7; xb1;
  x83; x0a; xe7; xb1; x8d; x0a; xe7; xb3;
  xaf; x0a; xe7; xb3; xb0; x0a; xe8; xbe;
  xae; x0a; xe7; xb9; xbd; x0a; xe7; xb9;
  xbc; x0a; xe7; xba; x82; x0a; xe7; xbd;
  x8c; x0a; xe8; x80; x80; x0a; xe8; x87;
  x9a; x0a; xe8; x89; xa6; x0a; xe8; x97;
  xbb; x0a; xe8; x97; xb9; x0a; xe8; x98;
  x91; x0a; xe8; x97; xba; x0a; xe8; x98;
  x86; x0a; xe8; x98; x8b; x0a; xe8; x98;
  x87; x0a; xe8; x98; x8a; x0a; xe8; xa0;
  x94; x0a; xe8; xa0; x95; x0a; xe8; xa5;
  xa4; x0a; xe8; xa6; xba; x0a; xe8; xa7;
  xb8; x0a; xe8; xad; xb0; x0a; xe8; xad;
  xac; x0a; xe8; xad; xa6; x0a; xe8; xad;
  xaf; x0a; xe8; xad; x9f; x0a; xe8; xad;
  xab; x0a; xe8; xb4; x8f; x0a; xe8; xb4;
  x8d; x0a; xe8; xba; x89; x0a; xe8; xba;
  x81; x0a; xe8; xba; x85; x0a; xe8; xba
].
(* tests/test_data/whatwg/big5_whatwg_test_decode_out.txt, entries 39424..39679 *)
Definition big5_decode_out_154 : list byte := [
  x82; x0a; xe9; x86; xb4; x0a; xe9; x87;
  x8b; x0a; xe9; x90; x98; x0a; xe9; x90;
  x83; x0a; xe9; x8f; xbd; x0a; xe9; x97;
  xa1; x0a; xe9; x9c; xb0; x0a; xe9; xa3;
  x84; x0a; xe9; xa5; x92; x0a; xe9; xa5;
  x91; x0a; xe9; xa6; xa8; x0a; xe9; xa8;
  xab; x0a; xe9; xa8; xb0; x0a; xe9; xa8;
  xb7; x0a; xe9; xa8; xb5; x0a; xe9; xb0;
  x93; x0a; xe9; xb0; x8d; x0a; xe9; xb9;
  xb9; x0a; xe9; xba; xb5; x0a; xe9; xbb;
  xa8; x0a; xe9; xbc; xaf; x0a; xe9; xbd;
  x9f; x0a; xe9; xbd; xa3; x0a; xe9; xbd;
  xa1; x0a; xe5; x84; xb7; x0a; xe5; x84;
  xb8; x0a; xe5; x9b; x81; x0a; xe5; x9b;
  x80; x0a; xe5; x9b; x82; x0a; xe5; xa4;
  x94; x0a; xe5; xb1; xac; x0a; xe5; xb7;
  x8d; x0a; xe6; x87; xbc; x0a; xe6; x87;
  xbe; x0a; xe6; x94; x9d; x0a; xe6; x94;
  x9c; x0a; xe6; x96; x95; x0a; xe6; x9b;
  xa9; x0a; xe6; xab; xbb; x0a; xe6; xac;
  x84; x0a; xe6; xab; xba; x0a; xe6; xae;
  xb2; x0a; xe7; x81; x8c; x0a; xe7; x88;
  x9b; x0a; xe7; x8a; xa7; x0a; xe7; x93;
  x96; x0a; xe7; x93; x94; x0a; xe7; x99;
  xa9; x0a; xe7; x9f; x93; x0a; xe7; xb1;
  x90; x0a; xe7; xba; x8f; x0a; xe7; xba;
  x8c; x0a; xe7; xbe; xbc; x0a; xe8; x98;
  x97; x0a; xe8; x98; xad; x0a; xe8; x98;
  x9a; x0a; xe8; xa0; xa3; x0a; xe8; xa0;
  xa2; x0a; xe8; xa0; xa1; x0a; xe8; xa0;
  x9f; x0a; xe8; xa5; xaa; x0a; xe8; xa5;
  xac; x0a; xe8; xa6; xbd; x0a; xe8; xad
].
(* tests/test_data/whatwg/big5_whatwg_test_decode_out.txt, entries 39680..39935 *)
Definition big5_decode_out_155 : list byte := [
  xb4; x0a; xe8; xad; xb7; x0a; xe8; xad;
  xbd; x0a; xe8; xb4; x93; x0a; xe8; xba;
  x8a; x0a; xe8; xba; x8d; x0a; xe8; xba;
  x8b; x0a; xe8; xbd; x9f; x0a; xe8; xbe;
  xaf; x0a; xe9; x86; xba; x0a; xe9; x90;
  xae; x0a; xe9; x90; xb3; x0a; xe9; x90;
  xb5; x0a; xe9; x90; xba; x0a; xe9; x90;
  xb8; x0a; xe9; x90; xb2; x0a; xe9; x90;
  xab; x0a; xe9; x97; xa2; x0a; xe9; x9c;
  xb8; x0a; xe9; x9c; xb9; x0a; xe9; x9c;
  xb2; x0a; xe9; x9f; xbf; x0a; xe9; xa1;
  xa7; x0a; xe9; xa1; xa5; x0a; xe9; xa5;
  x97; x0a; xe9; xa9; x85; x0a; xe9; xa9;
  x83; x0a; xe9; xa9; x80; x0a; xe9; xa8;
  xbe; x0a; xe9; xab; x8f; x0a; xe9; xad;
  x94; x0a; xe9; xad; x91; x0a; xe9; xb0;
  xad; x0a; xe9; xb0; xa5; x0a; xe9; xb6;
  xaf; x0a; xe9; xb6; xb4; x0a; xe9; xb7;
  x82; x0a; xe9; xb6; xb8; x0a; xe9; xba;
  x9d; x0a; xe9; xbb; xaf; x0a; xe9; xbc;
  x99; x0a; xe9; xbd; x9c; x0a; xe9; xbd;
  xa6; x0a; xe9; xbd; xa7; x0a; xe5; x84;
  xbc; x0a; xe5; x84; xbb; x0a; xe5; x9b;
  x88; x0a; xe5; x9b; x8a; x0a; xe5; x9b;
  x89; x0a; xe5; xad; xbf; x0a; xe5; xb7;
  x94; x0a; xe5; xb7; x92; x0a; xe5; xbd;
  x8e; x0a; xe6; x87; xbf; x0a; xe6; x94;
  xa4; x0a; xe6; xac; x8a; x0a; xe6; xad;
  xa1; x0a; xe7; x81; x91; x0a; xe7; x81;
  x98; x0a; xe7; x8e; x80; x0a; xe7; x93;
  xa4; x0a; xe7; x96; x8a; x0a; xe7; x99;
  xae; x0a; xe7; x99; xac; x0a; xe7; xa6
].
(* tests/test_data/whatwg/big5_whatwg_test_decode_out.txt, entries 39936..40191 *)
Definition big5_decode_out_156 : list byte := [
  xb3; x0a; xe7; xb1; xa0; x0a; xe7; xb1;
  x9f; x0a; xe8; x81; xbe; x0a; xe8; x81;
  xbd; x0a; xe8; x87; x9f; x0a; xe8; xa5;
  xb2; x0a; xe8; xa5; xaf; x0a; xe8; xa7;
  xbc; x0a; xe8; xae; x80; x0a; xe8; xb4;
  x96; x0a; xe8; xb4; x97; x0a; xe8; xba;
  x91; x0a; xe8; xba; x93; x0a; xe8; xbd;
  xa1; x0a; xe9; x85; x88; x0a; xe9; x91;
  x84; x0a; xe9; x91; x91; x0a; xe9; x91;
  x92; x0a; xe9; x9c; xbd; x0a; xe9; x9c;
  xbe; x0a; xe9; x9f; x83; x0a; xe9; x9f;
  x81; x0a; xe9; xa1; xab; x0a; xe9; xa5;
  x95; x0a; xe9; xa9; x95; x0a; xe9; xa9;
  x8d; x0a; xe9; xab; x92; x0a; xe9; xac;
  x9a; x0a; xe9; xb1; x89; x0a; xe9; xb0;
  xb1; x0a; xe9; xb0; xbe; x0a; xe9; xb0;
  xbb; x0a; xe9; xb7; x93; x0a; xe9; xb7;
  x97; x0a; xe9; xbc; xb4; x0a; xe9; xbd;
  xac; x0a; xe9; xbd; xaa; x0a; xe9; xbe;
  x94; x0a; xe5; x9b; x8c; x0a; xe5; xb7;
  x96; x0a; xe6; x88; x80; x0a; xe6; x94;
  xa3; x0a; xe6; x94; xab; x0a; xe6; x94;
  xaa; x0a; xe6; x9b; xac; x0a; xe6; xac;
  x90; x0a; xe7; x93; x9a; x0a; xe7; xab;
  x8a; x0a; xe7; xb1; xa4; x0a; xe7; xb1;
  xa3; x0a; xe7; xb1; xa5; x0a; xe7; xba;
  x93; x0a; xe7; xba; x96; x0a; xe7; xba;
  x94; x0a; xe8; x87; xa2; x0a; xe8; x98;
  xb8; x0a; xe8; x98; xbf; x0a; xe8; xa0;
  xb1; x0a; xe8; xae; x8a; x0a; xe9; x82;
  x90; x0a; xe9; x82; x8f; x0a; xe9; x91;
  xa3; x0a; xe9; x91; xa0; x0a; xe9; x91
].
(* tests/test_data/whatwg/big5_whatwg_test_decode_out.txt, entries 40192..40447 *)
Definition big5_decode_out_157 : list byte := [
  xa4; x0a; xe9; x9d; xa8; x0a; xe9; xa1;
  xaf; x0a; xe9; xa5; x9c; x0a; xe9; xa9;
  x9a; x0a; xe9; xa9; x9b; x0a; xe9; xa9;
  x97; x0a; xe9; xab; x93; x0a; xe9; xab;
  x94; x0a; xe9; xab; x91; x0a; xe9; xb1;
  x94; x0a; xe9; xb1; x97; x0a; xe9; xb1;
  x96; x0a; xe9; xb7; xa5; x0a; xe9; xba;
  x9f; x0a; xe9; xbb; xb4; x0a; xe5; x9b;
  x91; x0a; xe5; xa3; xa9; x0a; xe6; x94;
  xac; x0a; xe7; x81; x9e; x0a; xe7; x99;
  xb1; x0a; xe7; x99; xb2; x0a; xe7; x9f;
  x97; x0a; xe7; xbd; x90; x0a; xe7; xbe;
  x88; x0a; xe8; xa0; xb6; x0a; xe8; xa0;
  xb9; x0a; xe8; xa1; xa2; x0a; xe8; xae;
  x93; x0a; xe8; xae; x92; x0a; xe8; xae;
  x96; x0a; xe8; x89; xb7; x0a; xe8; xb4;
  x9b; x0a; xe9; x87; x80; x0a; xe9; x91;
  xaa; x0a; xe9; x9d; x82; x0a; xe9; x9d;
  x88; x0a; xe9; x9d; x84; x0a; xe9; x9f;
  x86; x0a; xe9; xa1; xb0; x0a; xe9; xa9;
  x9f; x0a; xe9; xac; xa2; x0a; xe9; xad;
  x98; x0a; xe9; xb1; x9f; x0a; xe9; xb7;
  xb9; x0a; xe9; xb7; xba; x0a; xe9; xb9;
  xbc; x0a; xe9; xb9; xbd; x0a; xe9; xbc;
  x87; x0a; xe9; xbd; xb7; x0a; xe9; xbd;
  xb2; x0a; xe5; xbb; xb3; x0a; xe6; xac;
  x96; x0a; xe7; x81; xa3; x0a; xe7; xb1;
  xac; x0a; xe7; xb1; xae; x0a; xe8; xa0;
  xbb; x0a; xe8; xa7; x80; x0a; xe8; xba;
  xa1; x0a; xe9; x87; x81; x0a; xe9; x91;
  xb2; x0a; xe9; x91; xb0; x0a; xe9; xa1;
  xb1; x0a; xe9; xa5; x9e; x0a; xe9; xab
].
(* tests/test_data/whatwg/big5_whatwg_test_decode_out.txt, entries 40448..40703 *)
Definition big5_decode_out_158 : list byte := [
  x96; x0a; xe9; xac; xa3; x0a; xe9; xbb;
  x8c; x0a; xe7; x81; xa4; x0a; xe7; x9f;
  x9a; x0a; xe8; xae; x9a; x0a; xe9; x91;
  xb7; x0a; xe9; x9f; x89; x0a; xe9; xa9;
  xa2; x0a; xe9; xa9; xa5; x0a; xe7; xba;
  x9c; x0a; xe8; xae; x9c; x0a; xe8; xba;
  xaa; x0a; xe9; x87; x85; x0a; xe9; x91;
  xbd; x0a; xe9; x91; xbe; x0a; xe9; x91;
  xbc; x0a; xe9; xb1; xb7; x0a; xe9; xb1;
  xb8; x0a; xe9; xbb; xb7; x0a; xe8; xb1;
  x94; x0a; xe9; x91; xbf; x0a; xe9; xb8;
  x9a; x0a; xe7; x88; xa8; x0a; xe9; xa9;
  xaa; x0a; xe9; xac; xb1; x0a; xe9; xb8;
  x9b; x0a; xe9; xb8; x9e; x0a; xe7; xb1;
  xb2; x0a; xe2; x91; xa0; x0a; xe2; x91;
  xa1; x0a; xe2; x91; xa2; x0a; xe2; x91;
  xa3; x0a; xe2; x91; xa4; x0a; xe2; x91;
  xa5; x0a; xe2; x91; xa6; x0a; xe2; x91;
  xa7; x0a; xe2; x91; xa8; x0a; xe2; x91;
  xa9; x0a; xe2; x91; xb4; x0a; xe2; x91;
  xb5; x0a; xe2; x91; xb6; x0a; xe2; x91;
  xb7; x0a; xe2; x91; xb8; x0a; xe2; x91;
  xb9; x0a; xe2; x91; xba; x0a; xe2; x91;
  xbb; x0a; xe2; x91; xbc; x0a; xe2; x91;
  xbd; x0a; xe2; x85; xb0; x0a; xe2; x85;
  xb1; x0a; xe2; x85; xb2; x0a; xe2; x85;
  xb3; x0a; xe2; x85; xb4; x0a; xe2; x85;
  xb5; x0a; xe2; x85; xb6; x0a; xe2; x85;
  xb7; x0a; xe2; x85; xb8; x0a; xe2; x85;
  xb9; x0a; xe4; xb8; xb6; x0a; xe4; xb8;
  xbf; x0a; xe4; xba; x85; x0a; xe4; xba;
  xa0; x0a; xe5; x86; x82; x0a; xe5; x86
].
(* tests/test_data/whatwg/big5_whatwg_test_decode_out.txt, entries 40704..40959 *)
Definition big5_decode_out_159 : list byte := [
  x96; x0a; xe5; x86; xab; x0a; xe5; x8b;
  xb9; x0a; xe5; x8c; xb8; x0a; xe5; x8d;
  xa9; x0a; xe5; x8e; xb6; x0a; xe5; xa4;
  x8a; x0a; xe5; xae; x80; x0a; xe5; xb7;
  x9b; x0a; xe2; xbc; xb3; x0a; xe5; xb9;
  xbf; x0a; xe5; xbb; xb4; x0a; xe5; xbd;
  x90; x0a; xe5; xbd; xa1; x0a; xe6; x94;
  xb4; x0a; xe6; x97; xa0; x0a; xe7; x96;
  x92; x0a; xe7; x99; xb6; x0a; xe8; xbe;
  xb5; x0a; xe9; x9a; xb6; x0a; xc2; xa8;
  x0a; xcb; x86; x0a; xe3; x83; xbd; x0a;
  xe3; x83; xbe; x0a; xe3; x82; x9d; x0a;
  xe3; x82; x9e; x0a; xe3; x80; x83; x0a;
  xe4; xbb; x9d; x0a; xe3; x80; x85; x0a;
  xe3; x80; x86; x0a; xe3; x80; x87; x0a;
  xe3; x83; xbc; x0a; xef; xbc; xbb; x0a;
  xef; xbc; xbd; x0a; xe2; x9c; xbd; x0a;
  xe3; x81; x81; x0a; xe3; x81; x82; x0a;
  xe3; x81; x83; x0a; xe3; x81; x84; x0a;
  xe3; x81; x85; x0a; xe3; x81; x86; x0a;
  xe3; x81; x87; x0a; xe3; x81; x88; x0a;
  xe3; x81; x89; x0a; xe3; x81; x8a; x0a;
  xe3; x81; x8b; x0a; xe3; x81; x8c; x0a;
  xe3; x81; x8d; x0a; xe3; x81; x8e; x0a;
  xe3; x81; x8f; x0a; xe3; x81; x90; x0a;
  xe3; x81; x91; x0a; xe3; x81; x92; x0a;
  xe3; x81; x93; x0a; xe3; x81; x94; x0a;
  xe3; x81; x95; x0a; xe3; x81; x96; x0a;
  xe3; x81; x97; x0a; xe3; x81; x98; x0a;
  xe3; x81; x99; x0a; xe3; x81; x9a; x0a;
  xe3; x81; x9b; x0a; xe3; x81; x9c; x0a;
  xe3; x81; x9d; x0a; xe3; x81; x9e; x0a
].
(* tests/test_data/whatwg/big5_whatwg_test_decode_out.txt, entries 40960..41215 *)
Definition big5_decode_out_160 : list byte := [
  xe3; x81; x9f; x0a; xe3; x81; xa0; x0a;
  xe3; x81; xa1; x0a; xe3; x81; xa2; x0a;
  xe3; x81; xa3; x0a; xe3; x81; xa4; x0a;
  xe3; x81; xa5; x0a; xe3; x81; xa6; x0a;
  xe3; x81; xa7; x0a; xe3; x81; xa8; x0a;
  xe3; x81; xa9; x0a; xe3; x81; xaa; x0a;
  xe3; x81; xab; x0a; xe3; x81; xac; x0a;
  xe3; x81; xad; x0a; xe3; x81; xae; x0a;
  xe3; x81; xaf; x0a; xe3; x81; xb0; x0a;
  xe3; x81; xb1; x0a; xe3; x81; xb2; x0a;
  xe3; x81; xb3; x0a; xe3; x81; xb4; x0a;
  xe3; x81; xb5; x0a; xe3; x81; xb6; x0a;
  xe3; x81; xb7; x0a; xe3; x81; xb8; x0a;
  xe3; x81; xb9; x0a; xe3; x81; xba; x0a;
  xe3; x81; xbb; x0a; xe3; x81; xbc; x0a;
  xe3; x81; xbd; x0a; xe3; x81; xbe; x0a;
  xe3; x81; xbf; x0a; xe3; x82; x80; x0a;
  xe3; x82; x81; x0a; xe3; x82; x82; x0a;
  xe3; x82; x83; x0a; xe3; x82; x84; x0a;
  xe3; x82; x85; x0a; xe3; x82; x86; x0a;
  xe3; x82; x87; x0a; xe3; x82; x88; x0a;
  xe3; x82; x89; x0a; xe3; x82; x8a; x0a;
  xe3; x82; x8b; x0a; xe3; x82; x8c; x0a;
  xe3; x82; x8d; x0a; xe3; x82; x8e; x0a;
  xe3; x82; x8f; x0a; xe3; x82; x90; x0a;
  xe3; x82; x91; x0a; xe3; x82; x92; x0a;
  xe3; x82; x93; x0a; xe3; x82; xa1; x0a;
  xe3; x82; xa2; x0a; xe3; x82; xa3; x0a;
  xe3; x82; xa4; x0a; xe3; x82; xa5; x0a;
  xe3; x82; xa6; x0a; xe3; x82; xa7; x0a;
  xe3; x82; xa8; x0a; xe3; x82; xa9; x0a;
  xe3; x82; xaa; x0a; xe3; x82; xab; x0a
].
(* tests/test_data/whatwg/big5_whatwg_test_decode_out.txt, entries 41216..41471 *)
Definition big5_decode_out_161 : list byte := [
  xe3; x82; xac; x0a; xe3; x82; xad; x0a;
  xe3; x82; xae; x0a; xe3; x82; xaf; x0a;
  xe3; x82; xb0; x0a; xe3; x82; xb1; x0a;
  xe3; x82; xb2; x0a; xe3; x82; xb3; x0a;
  xe3; x82; xb4; x0a; xe3; x82; xb5; x0a;
  xe3; x82; xb6; x0a; xe3; x82; xb7; x0a;
  xe3; x82; xb8; x0a; xe3; x82; xb9; x0a;
  xe3; x82; xba; x0a; xe3; x82; xbb; x0a;
  xe3; x82; xbc; x0a; xe3; x82; xbd; x0a;
  xe3; x82; xbe; x0a; xe3; x82; xbf; x0a;
  xe3; x83; x80; x0a; xe3; x83; x81; x0a;
  xe3; x83; x82; x0a; xe3; x83; x83; x0a;
  xe3; x83; x84; x0a; xe3; x83; x85; x0a;
  xe3; x83; x86; x0a; xe3; x83; x87; x0a;
  xe3; x83; x88; x0a; xe3; x83; x89; x0a;
  xe3; x83; x8a; x0a; xe3; x83; x8b; x0a;
  xe3; x83; x8c; x0a; xe3; x83; x8d; x0a;
  xe3; x83; x8e; x0a; xe3; x83; x8f; x0a;
  xe3; x83; x90; x0a; xe3; x83; x91; x0a;
  xe3; x83; x92; x0a; xe3; x83; x93; x0a;
  xe3; x83; x94; x0a; xe3; x83; x95; x0a;
  xe3; x83; x96; x0a; xe3; x83; x97; x0a;
  xe3; x83; x98; x0a; xe3; x83; x99; x0a;
  xe3; x83; x9a; x0a; xe3; x83; x9b; x0a;
  xe3; x83; x9c; x0a; xe3; x83; x9d; x0a;
  xe3; x83; x9e; x0a; xe3; x83; x9f; x0a;
  xe3; x83; xa0; x0a; xe3; x83; xa1; x0a;
  xe3; x83; xa2; x0a; xe3; x83; xa3; x0a;
  xe3; x83; xa4; x0a; xe3; x83; xa5; x0a;
  xe3; x83; xa6; x0a; xe3; x83; xa7; x0a;
  xe3; x83; xa8; x0a; xe3; x83; xa9; x0a;
  xe3; x83; xaa; x0a; xe3; x83; xab; x0a
].
(* tests/test_data/whatwg/big5_whatwg_test_decode_out.txt, entries 41472..41727 *)
Definition big5_decode_out_162 : list byte := [
  xe3; x83; xac; x0a; xe3; x83; xad; x0a;
  xe3; x83; xae; x0a; xe3; x83; xaf; x0a;
  xe3; x83; xb0; x0a; xe3; x83; xb1; x0a;
  xe3; x83; xb2; x0a; xe3; x83; xb3; x0a;
  xe3; x83; xb4; x0a; xe3; x83; xb5; x0a;
  xe3; x83; xb6; x0a; xd0; x90; x0a; xd0;
  x91; x0a; xd0; x92; x0a; xd0; x93; x0a;
  xd0; x94; x0a; xd0; x95; x0a; xd0; x81;
  x0a; xd0; x96; x0a; xd0; x97; x0a; xd0;
  x98; x0a; xd0; x99; x0a; xd0; x9a; x0a;
  xd0; x9b; x0a; xd0; x9c; x0a; xd0; x9d;
  x0a; xd0; x9e; x0a; xd0; x9f; x0a; xd0;
  xa0; x0a; xd0; xa1; x0a; xd0; xa2; x0a;
  xd0; xa3; x0a; xd0; xa4; x0a; xd0; xa5;
  x0a; xd0; xa6; x0a; xd0; xa7; x0a; xd0;
  xa8; x0a; xd0; xa9; x0a; xd0; xaa; x0a;
  xd0; xab; x0a; xd0; xac; x0a; xd0; xad;
  x0a; xd0; xae; x0a; xd0; xaf; x0a; xd0;
  xb0; x0a; xd0; xb1; x0a; xd0; xb2; x0a;
  xd0; xb3; x0a; xd0; xb4; x0a; xd0; xb5;
  x0a; xd1; x91; x0a; xd0; xb6; x0a; xd0;
  xb7; x0a; xd0; xb8; x0a; xd0; xb9; x0a;
  xd0; xba; x0a; xd0; xbb; x0a; xd0; xbc;
  x0a; xd0; xbd; x0a; xd0; xbe; x0a; xd0;
  xbf; x0a; xd1; x80; x0a; xd1; x81; x0a;
  xd1; x82; x0a; xd1; x83; x0a; xd1; x84;
  x0a; xd1; x85; x0a; xd1; x86; x0a; xd1;
  x87; x0a; xd1; x88; x0a; xd1; x89; x0a;
  xd1; x8a; x0a; xd1; x8b; x0a; xd1; x8c;
  x0a; xd1; x8d; x0a; xd1; x8e; x0a; xd1;
  x8f; x0a; xe2; x87; xa7; x0a; xe2; x86;
  xb8; x0a; xe2; x86; xb9; x0a; xe3; x87
].
(* tests/test_data/whatwg/big5_whatwg_test_decode_out.txt, entries 41728..41983 *)
Definition big5_decode_out_163 : list byte := [
  x8f; x0a; xf0; xa0; x83; x8c; x0a; xe4;
  xb9; x9a; x0a; xf0; xa0; x82; x8a; x0a;
  xe5; x88; x82; x0a; xe4; x92; x91; x0a;
  xe9; xbe; xb0; x0a; xe5; x86; x88; x0a;
  xe9; xbe; xb1; x0a; xf0; xa7; x98; x87;
  x0a; xef; xbf; xa2; x0a; xef; xbf; xa4;
  x0a; xef; xbc; x87; x0a; xef; xbc; x82;
  x0a; xe3; x88; xb1; x0a; xe2; x84; x96;
  x0a; xe2; x84; xa1; x0a; xe3; x82; x9b;
  x0a; xe3; x82; x9c; x0a; xe2; xba; x80;
  x0a; xe2; xba; x84; x0a; xe2; xba; x86;
  x0a; xe2; xba; x87; x0a; xe2; xba; x88;
  x0a; xe2; xba; x8a; x0a; xe2; xba; x8c;
  x0a; xe2; xba; x8d; x0a; xe2; xba; x95;
  x0a; xe2; xba; x9c; x0a; xe2; xba; x9d;
  x0a; xe2; xba; xa5; x0a; xe2; xba; xa7;
  x0a; xe2; xba; xaa; x0a; xe2; xba; xac;
  x0a; xe2; xba; xae; x0a; xe2; xba; xb6;
  x0a; xe2; xba; xbc; x0a; xe2; xba; xbe;
  x0a; xe2; xbb; x86; x0a; xe2; xbb; x8a;
  x0a; xe2; xbb; x8c; x0a; xe2; xbb; x8d;
  x0a; xe2; xbb; x8f; x0a; xe2; xbb; x96;
  x0a; xe2; xbb; x97; x0a; xe2; xbb; x9e;
  x0a; xe2; xbb; xa3; x0a; xca; x83; x0a;
  xc9; x90; x0a; xc9; x9b; x0a; xc9; x94;
  x0a; xc9; xb5; x0a; xc5; x93; x0a; xc3;
  xb8; x0a; xc5; x8b; x0a; xca; x8a; x0a;
  xc9; xaa; x0a; xe4; xb9; x82; x0a; xe4;
  xb9; x9c; x0a; xe5; x87; xb5; x0a; xe5;
  x8c; x9a; x0a; xe5; x8e; x82; x0a; xe4;
  xb8; x87; x0a; xe4; xb8; x8c; x0a; xe4;
  xb9; x87; x0a; xe4; xba; x8d; x0a; xe5
].
(* tests/test_data/whatwg/big5_whatwg_test_decode_out.txt, entries 41984..42239 *)
Definition big5_decode_out_164 : list byte := [
  x9b; x97; x0a; xef; xa8; x8c; x0a; xe5;
  xb1; xae; x0a; xe5; xbd; xb3; x0a; xe4;
  xb8; x8f; x0a; xe5; x86; x87; x0a; xe4;
  xb8; x8e; x0a; xe4; xb8; xae; x0a; xe4;
  xba; x93; x0a; xe4; xbb; x82; x0a; xe4;
  xbb; x89; x0a; xe4; xbb; x88; x0a; xe5;
  x86; x98; x0a; xe5; x8b; xbc; x0a; xe5;
  x8d; xac; x0a; xe5; x8e; xb9; x0a; xe5;
  x9c; xa0; x0a; xe5; xa4; x83; x0a; xe5;
  xa4; xac; x0a; xe5; xb0; x90; x0a; xe5;
  xb7; xbf; x0a; xe6; x97; xa1; x0a; xe6;
  xae; xb3; x0a; xe6; xaf; x8c; x0a; xe6;
  xb0; x94; x0a; xe7; x88; xbf; x0a; xe4;
  xb8; xb1; x0a; xe4; xb8; xbc; x0a; xe4;
  xbb; xa8; x0a; xe4; xbb; x9c; x0a; xe4;
  xbb; xa9; x0a; xe4; xbb; xa1; x0a; xe4;
  xbb; x9d; x0a; xe4; xbb; x9a; x0a; xe5;
  x88; x8c; x0a; xe5; x8c; x9c; x0a; xe5;
  x8d; x8c; x0a; xe5; x9c; xa2; x0a; xe5;
  x9c; xa3; x0a; xe5; xa4; x97; x0a; xe5;
  xa4; xaf; x0a; xe5; xae; x81; x0a; xe5;
  xae; x84; x0a; xe5; xb0; x92; x0a; xe5;
  xb0; xbb; x0a; xe5; xb1; xb4; x0a; xe5;
  xb1; xb3; x0a; xe5; xb8; x84; x0a; xe5;
  xba; x80; x0a; xe5; xba; x82; x0a; xe5;
  xbf; x89; x0a; xe6; x88; x89; x0a; xe6;
  x89; x90; x0a; xe6; xb0; x95; x0a; xe6;
  xb0; xb6; x0a; xe6; xb1; x83; x0a; xe6;
  xb0; xbf; x0a; xe6; xb0; xbb; x0a; xe7;
  x8a; xae; x0a; xe7; x8a; xb0; x0a; xe7;
  x8e; x8a; x0a; xe7; xa6; xb8; x0a; xe8;
  x82; x8a; x0a; xe9; x98; x9e; x0a; xe4
].
(* tests/test_data/whatwg/big5_whatwg_test_decode_out.txt, entries 42240..42495 *)
Definition big5_decode_out_165 : list byte := [
  xbc; x8e; x0a; xe4; xbc; x98; x0a; xe4;
  xbc; xac; x0a; xe4; xbb; xb5; x0a; xe4;
  xbc; x94; x0a; xe4; xbb; xb1; x0a; xe4;
  xbc; x80; x0a; xe4; xbb; xb7; x0a; xe4;
  xbc; x88; x0a; xe4; xbc; x9d; x0a; xe4;
  xbc; x82; x0a; xe4; xbc; x85; x0a; xe4;
  xbc; xa2; x0a; xe4; xbc; x93; x0a; xe4;
  xbc; x84; x0a; xe4; xbb; xb4; x0a; xe4;
  xbc; x92; x0a; xe5; x86; xb1; x0a; xe5;
  x88; x93; x0a; xe5; x88; x89; x0a; xe5;
  x88; x90; x0a; xe5; x8a; xa6; x0a; xe5;
  x8c; xa2; x0a; xe5; x8c; x9f; x0a; xe5;
  x8d; x8d; x0a; xe5; x8e; x8a; x0a; xe5;
  x90; x87; x0a; xe5; x9b; xa1; x0a; xe5;
  x9b; x9f; x0a; xe5; x9c; xae; x0a; xe5;
  x9c; xaa; x0a; xe5; x9c; xb4; x0a; xe5;
  xa4; xbc; x0a; xe5; xa6; x80; x0a; xe5;
  xa5; xbc; x0a; xe5; xa6; x85; x0a; xe5;
  xa5; xbb; x0a; xe5; xa5; xbe; x0a; xe5;
  xa5; xb7; x0a; xe5; xa5; xbf; x0a; xe5;
  xad; x96; x0a; xe5; xb0; x95; x0a; xe5;
  xb0; xa5; x0a; xe5; xb1; xbc; x0a; xe5;
  xb1; xba; x0a; xe5; xb1; xbb; x0a; xe5;
  xb1; xbe; x0a; xe5; xb7; x9f; x0a; xe5;
  xb9; xb5; x0a; xe5; xba; x84; x0a; xe5;
  xbc; x82; x0a; xe5; xbc; x9a; x0a; xe5;
  xbd; xb4; x0a; xe5; xbf; x95; x0a; xe5;
  xbf; x94; x0a; xe5; xbf; x8f; x0a; xe6;
  x89; x9c; x0a; xe6; x89; x9e; x0a; xe6;
  x89; xa4; x0a; xe6; x89; xa1; x0a; xe6;
  x89; xa6; x0a; xe6; x89; xa2; x0a; xe6;
  x89; x99; x0a; xe6; x89; xa0; x0a; xe6
].
(* tests/test_data/whatwg/big5_whatwg_test_decode_out.txt, entries 42496..42751 *)
Definition big5_decode_out_166 : list byte := [
  x89; x9a; x0a; xe6; x89; xa5; x0a; xe6;
  x97; xaf; x0a; xe6; x97; xae; x0a; xe6;
  x9c; xbe; x0a; xe6; x9c; xb9; x0a; xe6;
  x9c; xb8; x0a; xe6; x9c; xbb; x0a; xe6;
  x9c; xba; x0a; xe6; x9c; xbf; x0a; xe6;
  x9c; xbc; x0a; xe6; x9c; xb3; x0a; xe6;
  xb0; x98; x0a; xe6; xb1; x86; x0a; xe6;
  xb1; x92; x0a; xe6; xb1; x9c; x0a; xe6;
  xb1; x8f; x0a; xe6; xb1; x8a; x0a; xe6;
  xb1; x94; x0a; xe6; xb1; x8b; x0a; xe6;
  xb1; x8c; x0a; xe7; x81; xb1; x0a; xe7;
  x89; x9e; x0a; xe7; x8a; xb4; x0a; xe7;
  x8a; xb5; x0a; xe7; x8e; x8e; x0a; xe7;
  x94; xaa; x0a; xe7; x99; xbf; x0a; xe7;
  xa9; xb5; x0a; xe7; xbd; x91; x0a; xe8;
  x89; xb8; x0a; xe8; x89; xbc; x0a; xe8;
  x8a; x80; x0a; xe8; x89; xbd; x0a; xe8;
  x89; xbf; x0a; xe8; x99; x8d; x0a; xe8;
  xa5; xbe; x0a; xe9; x82; x99; x0a; xe9;
  x82; x97; x0a; xe9; x82; x98; x0a; xe9;
  x82; x9b; x0a; xe9; x82; x94; x0a; xe9;
  x98; xa2; x0a; xe9; x98; xa4; x0a; xe9;
  x98; xa0; x0a; xe9; x98; xa3; x0a; xe4;
  xbd; x96; x0a; xe4; xbc; xbb; x0a; xe4;
  xbd; xa2; x0a; xe4; xbd; x89; x0a; xe4;
  xbd; x93; x0a; xe4; xbd; xa4; x0a; xe4;
  xbc; xbe; x0a; xe4; xbd; xa7; x0a; xe4;
  xbd; x92; x0a; xe4; xbd; x9f; x0a; xe4;
  xbd; x81; x0a; xe4; xbd; x98; x0a; xe4;
  xbc; xad; x0a; xe4; xbc; xb3; x0a; xe4;
  xbc; xbf; x0a; xe4; xbd; xa1; x0a; xe5;
  x86; x8f; x0a; xe5; x86; xb9; x0a; xe5
].
(* tests/test_data/whatwg/big5_whatwg_test_decode_out.txt, entries 42752..43007 *)
Definition big5_decode_out_167 : list byte := [
  x88; x9c; x0a; xe5; x88; x9e; x0a; xe5;
  x88; xa1; x0a; xe5; x8a; xad; x0a; xe5;
  x8a; xae; x0a; xe5; x8c; x89; x0a; xe5;
  x8d; xa3; x0a; xe5; x8d; xb2; x0a; xe5;
  x8e; x8e; x0a; xe5; x8e; x8f; x0a; xe5;
  x90; xb0; x0a; xe5; x90; xb7; x0a; xe5;
  x90; xaa; x0a; xe5; x91; x94; x0a; xe5;
  x91; x85; x0a; xe5; x90; x99; x0a; xe5;
  x90; x9c; x0a; xe5; x90; xa5; x0a; xe5;
  x90; x98; x0a; xe5; x90; xbd; x0a; xe5;
  x91; x8f; x0a; xe5; x91; x81; x0a; xe5;
  x90; xa8; x0a; xe5; x90; xa4; x0a; xe5;
  x91; x87; x0a; xe5; x9b; xae; x0a; xe5;
  x9b; xa7; x0a; xe5; x9b; xa5; x0a; xe5;
  x9d; x81; x0a; xe5; x9d; x85; x0a; xe5;
  x9d; x8c; x0a; xe5; x9d; x89; x0a; xe5;
  x9d; x8b; x0a; xe5; x9d; x92; x0a; xe5;
  xa4; x86; x0a; xe5; xa5; x80; x0a; xe5;
  xa6; xa6; x0a; xe5; xa6; x98; x0a; xe5;
  xa6; xa0; x0a; xe5; xa6; x97; x0a; xe5;
  xa6; x8e; x0a; xe5; xa6; xa2; x0a; xe5;
  xa6; x90; x0a; xe5; xa6; x8f; x0a; xe5;
  xa6; xa7; x0a; xe5; xa6; xa1; x0a; xe5;
  xae; x8e; x0a; xe5; xae; x92; x0a; xe5;
  xb0; xa8; x0a; xe5; xb0; xaa; x0a; xe5;
  xb2; x8d; x0a; xe5; xb2; x8f; x0a; xe5;
  xb2; x88; x0a; xe5; xb2; x8b; x0a; xe5;
  xb2; x89; x0a; xe5; xb2; x92; x0a; xe5;
  xb2; x8a; x0a; xe5; xb2; x86; x0a; xe5;
  xb2; x93; x0a; xe5; xb2; x95; x0a; xe5;
  xb7; xa0; x0a; xe5; xb8; x8a; x0a; xe5;
  xb8; x8e; x0a; xe5; xba; x8b; x0a; xe5
].
(* tests/test_data/whatwg/big5_whatwg_test_decode_out.txt, entries 43008..43263 *)
Definition big5_decode_out_168 : list byte := [
  xba; x89; x0a; xe5; xba; x8c; x0a; xe5;
  xba; x88; x0a; xe5; xba; x8d; x0a; xe5;
  xbc; x85; x0a; xe5; xbc; x9d; x0a; xe5;
  xbd; xb8; x0a; xe5; xbd; xb6; x0a; xe5;
  xbf; x92; x0a; xe5; xbf; x91; x0a; xe5;
  xbf; x90; x0a; xe5; xbf; xad; x0a; xe5;
  xbf; xa8; x0a; xe5; xbf; xae; x0a; xe5;
  xbf; xb3; x0a; xe5; xbf; xa1; x0a; xe5;
  xbf; xa4; x0a; xe5; xbf; xa3; x0a; xe5;
  xbf; xba; x0a; xe5; xbf; xaf; x0a; xe5;
  xbf; xb7; x0a; xe5; xbf; xbb; x0a; xe6;
  x80; x80; x0a; xe5; xbf; xb4; x0a; xe6;
  x88; xba; x0a; xe6; x8a; x83; x0a; xe6;
  x8a; x8c; x0a; xe6; x8a; x8e; x0a; xe6;
  x8a; x8f; x0a; xe6; x8a; x94; x0a; xe6;
  x8a; x87; x0a; xe6; x89; xb1; x0a; xe6;
  x89; xbb; x0a; xe6; x89; xba; x0a; xe6;
  x89; xb0; x0a; xe6; x8a; x81; x0a; xe6;
  x8a; x88; x0a; xe6; x89; xb7; x0a; xe6;
  x89; xbd; x0a; xe6; x89; xb2; x0a; xe6;
  x89; xb4; x0a; xe6; x94; xb7; x0a; xe6;
  x97; xb0; x0a; xe6; x97; xb4; x0a; xe6;
  x97; xb3; x0a; xe6; x97; xb2; x0a; xe6;
  x97; xb5; x0a; xe6; x9d; x85; x0a; xe6;
  x9d; x87; x0a; xe6; x9d; x99; x0a; xe6;
  x9d; x95; x0a; xe6; x9d; x8c; x0a; xe6;
  x9d; x88; x0a; xe6; x9d; x9d; x0a; xe6;
  x9d; x8d; x0a; xe6; x9d; x9a; x0a; xe6;
  x9d; x8b; x0a; xe6; xaf; x90; x0a; xe6;
  xb0; x99; x0a; xe6; xb0; x9a; x0a; xe6;
  xb1; xb8; x0a; xe6; xb1; xa7; x0a; xe6;
  xb1; xab; x0a; xe6; xb2; x84; x0a; xe6
].
(* tests/test_data/whatwg/big5_whatwg_test_decode_out.txt, entries 43264..43519 *)
Definition big5_decode_out_169 : list byte := [
  xb2; x8b; x0a; xe6; xb2; x8f; x0a; xe6;
  xb1; xb1; x0a; xe6; xb1; xaf; x0a; xe6;
  xb1; xa9; x0a; xe6; xb2; x9a; x0a; xe6;
  xb1; xad; x0a; xe6; xb2; x87; x0a; xe6;
  xb2; x95; x0a; xe6; xb2; x9c; x0a; xe6;
  xb1; xa6; x0a; xe6; xb1; xb3; x0a; xe6;
  xb1; xa5; x0a; xe6; xb1; xbb; x0a; xe6;
  xb2; x8e; x0a; xe7; x81; xb4; x0a; xe7;
  x81; xba; x0a; xe7; x89; xa3; x0a; xe7;
  x8a; xbf; x0a; xe7; x8a; xbd; x0a; xe7;
  x8b; x83; x0a; xe7; x8b; x86; x0a; xe7;
  x8b; x81; x0a; xe7; x8a; xba; x0a; xe7;
  x8b; x85; x0a; xe7; x8e; x95; x0a; xe7;
  x8e; x97; x0a; xe7; x8e; x93; x0a; xe7;
  x8e; x94; x0a; xe7; x8e; x92; x0a; xe7;
  x94; xba; x0a; xe7; x94; xb9; x0a; xe7;
  x96; x94; x0a; xe7; x96; x95; x0a; xe7;
  x9a; x81; x0a; xe7; xa4; xbd; x0a; xe8;
  x80; xb4; x0a; xe8; x82; x95; x0a; xe8;
  x82; x99; x0a; xe8; x82; x90; x0a; xe8;
  x82; x92; x0a; xe8; x82; x9c; x0a; xe8;
  x8a; x90; x0a; xe8; x8a; x8f; x0a; xe8;
  x8a; x85; x0a; xe8; x8a; x8e; x0a; xe8;
  x8a; x91; x0a; xe8; x8a; x93; x0a; xe8;
  x8a; x8a; x0a; xe8; x8a; x83; x0a; xe8;
  x8a; x84; x0a; xe8; xb1; xb8; x0a; xe8;
  xbf; x89; x0a; xe8; xbe; xbf; x0a; xe9;
  x82; x9f; x0a; xe9; x82; xa1; x0a; xe9;
  x82; xa5; x0a; xe9; x82; x9e; x0a; xe9;
  x82; xa7; x0a; xe9; x82; xa0; x0a; xe9;
  x98; xb0; x0a; xe9; x98; xa8; x0a; xe9;
  x98; xaf; x0a; xe9; x98; xad; x0a; xe4
].
(* tests/test_data/whatwg/big5_whatwg_test_decode_out.txt, entries 43520..43775 *)
Definition big5_decode_out_170 : list byte := [
  xb8; xb3; x0a; xe4; xbe; x98; x0a; xe4;
  xbd; xbc; x0a; xe4; xbe; x85; x0a; xe4;
  xbd; xbd; x0a; xe4; xbe; x80; x0a; xe4;
  xbe; x87; x0a; xe4; xbd; xb6; x0a; xe4;
  xbd; xb4; x0a; xe4; xbe; x89; x0a; xe4;
  xbe; x84; x0a; xe4; xbd; xb7; x0a; xe4;
  xbd; x8c; x0a; xe4; xbe; x97; x0a; xe4;
  xbd; xaa; x0a; xe4; xbe; x9a; x0a; xe4;
  xbd; xb9; x0a; xe4; xbe; x81; x0a; xe4;
  xbd; xb8; x0a; xe4; xbe; x90; x0a; xe4;
  xbe; x9c; x0a; xe4; xbe; x94; x0a; xe4;
  xbe; x9e; x0a; xe4; xbe; x92; x0a; xe4;
  xbe; x82; x0a; xe4; xbe; x95; x0a; xe4;
  xbd; xab; x0a; xe4; xbd; xae; x0a; xe5;
  x86; x9e; x0a; xe5; x86; xbc; x0a; xe5;
  x86; xbe; x0a; xe5; x88; xb5; x0a; xe5;
  x88; xb2; x0a; xe5; x88; xb3; x0a; xe5;
  x89; x86; x0a; xe5; x88; xb1; x0a; xe5;
  x8a; xbc; x0a; xe5; x8c; x8a; x0a; xe5;
  x8c; x8b; x0a; xe5; x8c; xbc; x0a; xe5;
  x8e; x92; x0a; xe5; x8e; x94; x0a; xe5;
  x92; x87; x0a; xe5; x91; xbf; x0a; xe5;
  x92; x81; x0a; xe5; x92; x91; x0a; xe5;
  x92; x82; x0a; xe5; x92; x88; x0a; xe5;
  x91; xab; x0a; xe5; x91; xba; x0a; xe5;
  x91; xbe; x0a; xe5; x91; xa5; x0a; xe5;
  x91; xac; x0a; xe5; x91; xb4; x0a; xe5;
  x91; xa6; x0a; xe5; x92; x8d; x0a; xe5;
  x91; xaf; x0a; xe5; x91; xa1; x0a; xe5;
  x91; xa0; x0a; xe5; x92; x98; x0a; xe5;
  x91; xa3; x0a; xe5; x91; xa7; x0a; xe5;
  x91; xa4; x0a; xe5; x9b; xb7; x0a; xe5
].
(* tests/test_data/whatwg/big5_whatwg_test_decode_out.txt, entries 43776..44031 *)
Definition big5_decode_out_171 : list byte := [
  x9b; xb9; x0a; xe5; x9d; xaf; x0a; xe5;
  x9d; xb2; x0a; xe5; x9d; xad; x0a; xe5;
  x9d; xab; x0a; xe5; x9d; xb1; x0a; xe5;
  x9d; xb0; x0a; xe5; x9d; xb6; x0a; xe5;
  x9e; x80; x0a; xe5; x9d; xb5; x0a; xe5;
  x9d; xbb; x0a; xe5; x9d; xb3; x0a; xe5;
  x9d; xb4; x0a; xe5; x9d; xa2; x0a; xe5;
  x9d; xa8; x0a; xe5; x9d; xbd; x0a; xe5;
  xa4; x8c; x0a; xe5; xa5; x85; x0a; xe5;
  xa6; xb5; x0a; xe5; xa6; xba; x0a; xe5;
  xa7; x8f; x0a; xe5; xa7; x8e; x0a; xe5;
  xa6; xb2; x0a; xe5; xa7; x8c; x0a; xe5;
  xa7; x81; x0a; xe5; xa6; xb6; x0a; xe5;
  xa6; xbc; x0a; xe5; xa7; x83; x0a; xe5;
  xa7; x96; x0a; xe5; xa6; xb1; x0a; xe5;
  xa6; xbd; x0a; xe5; xa7; x80; x0a; xe5;
  xa7; x88; x0a; xe5; xa6; xb4; x0a; xe5;
  xa7; x87; x0a; xe5; xad; xa2; x0a; xe5;
  xad; xa5; x0a; xe5; xae; x93; x0a; xe5;
  xae; x95; x0a; xe5; xb1; x84; x0a; xe5;
  xb1; x87; x0a; xe5; xb2; xae; x0a; xe5;
  xb2; xa4; x0a; xe5; xb2; xa0; x0a; xe5;
  xb2; xb5; x0a; xe5; xb2; xaf; x0a; xe5;
  xb2; xa8; x0a; xe5; xb2; xac; x0a; xe5;
  xb2; x9f; x0a; xe5; xb2; xa3; x0a; xe5;
  xb2; xad; x0a; xe5; xb2; xa2; x0a; xe5;
  xb2; xaa; x0a; xe5; xb2; xa7; x0a; xe5;
  xb2; x9d; x0a; xe5; xb2; xa5; x0a; xe5;
  xb2; xb6; x0a; xe5; xb2; xb0; x0a; xe5;
  xb2; xa6; x0a; xe5; xb8; x97; x0a; xe5;
  xb8; x94; x0a; xe5; xb8; x99; x0a; xe5;
  xbc; xa8; x0a; xe5; xbc; xa2; x0a; xe5
].
(* tests/test_data/whatwg/big5_whatwg_test_decode_out.txt, entries 44032..44287 *)
Definition big5_decode_out_172 : list byte := [
  xbc; xa3; x0a; xe5; xbc; xa4; x0a; xe5;
  xbd; x94; x0a; xe5; xbe; x82; x0a; xe5;
  xbd; xbe; x0a; xe5; xbd; xbd; x0a; xe5;
  xbf; x9e; x0a; xe5; xbf; xa5; x0a; xe6;
  x80; xad; x0a; xe6; x80; xa6; x0a; xe6;
  x80; x99; x0a; xe6; x80; xb2; x0a; xe6;
  x80; x8b; x0a; xe6; x80; xb4; x0a; xe6;
  x80; x8a; x0a; xe6; x80; x97; x0a; xe6;
  x80; xb3; x0a; xe6; x80; x9a; x0a; xe6;
  x80; x9e; x0a; xe6; x80; xac; x0a; xe6;
  x80; xa2; x0a; xe6; x80; x8d; x0a; xe6;
  x80; x90; x0a; xe6; x80; xae; x0a; xe6;
  x80; x93; x0a; xe6; x80; x91; x0a; xe6;
  x80; x8c; x0a; xe6; x80; x89; x0a; xe6;
  x80; x9c; x0a; xe6; x88; x94; x0a; xe6;
  x88; xbd; x0a; xe6; x8a; xad; x0a; xe6;
  x8a; xb4; x0a; xe6; x8b; x91; x0a; xe6;
  x8a; xbe; x0a; xe6; x8a; xaa; x0a; xe6;
  x8a; xb6; x0a; xe6; x8b; x8a; x0a; xe6;
  x8a; xae; x0a; xe6; x8a; xb3; x0a; xe6;
  x8a; xaf; x0a; xe6; x8a; xbb; x0a; xe6;
  x8a; xa9; x0a; xe6; x8a; xb0; x0a; xe6;
  x8a; xb8; x0a; xe6; x94; xbd; x0a; xe6;
  x96; xa8; x0a; xe6; x96; xbb; x0a; xe6;
  x98; x89; x0a; xe6; x97; xbc; x0a; xe6;
  x98; x84; x0a; xe6; x98; x92; x0a; xe6;
  x98; x88; x0a; xe6; x97; xbb; x0a; xe6;
  x98; x83; x0a; xe6; x98; x8b; x0a; xe6;
  x98; x8d; x0a; xe6; x98; x85; x0a; xe6;
  x97; xbd; x0a; xe6; x98; x91; x0a; xe6;
  x98; x90; x0a; xe6; x9b; xb6; x0a; xe6;
  x9c; x8a; x0a; xe6; x9e; x85; x0a; xe6
].
(* tests/test_data/whatwg/big5_whatwg_test_decode_out.txt, entries 44288..44543 *)
Definition big5_decode_out_173 : list byte := [
  x9d; xac; x0a; xe6; x9e; x8e; x0a; xe6;
  x9e; x92; x0a; xe6; x9d; xb6; x0a; xe6;
  x9d; xbb; x0a; xe6; x9e; x98; x0a; xe6;
  x9e; x86; x0a; xe6; x9e; x84; x0a; xe6;
  x9d; xb4; x0a; xe6; x9e; x8d; x0a; xe6;
  x9e; x8c; x0a; xe6; x9d; xba; x0a; xe6;
  x9e; x9f; x0a; xe6; x9e; x91; x0a; xe6;
  x9e; x99; x0a; xe6; x9e; x83; x0a; xe6;
  x9d; xbd; x0a; xe6; x9e; x81; x0a; xe6;
  x9d; xb8; x0a; xe6; x9d; xb9; x0a; xe6;
  x9e; x94; x0a; xe6; xac; xa5; x0a; xe6;
  xae; x80; x0a; xe6; xad; xbe; x0a; xe6;
  xaf; x9e; x0a; xe6; xb0; x9d; x0a; xe6;
  xb2; x93; x0a; xe6; xb3; xac; x0a; xe6;
  xb3; xab; x0a; xe6; xb3; xae; x0a; xe6;
  xb3; x99; x0a; xe6; xb2; xb6; x0a; xe6;
  xb3; x94; x0a; xe6; xb2; xad; x0a; xe6;
  xb3; xa7; x0a; xe6; xb2; xb7; x0a; xe6;
  xb3; x90; x0a; xe6; xb3; x82; x0a; xe6;
  xb2; xba; x0a; xe6; xb3; x83; x0a; xe6;
  xb3; x86; x0a; xe6; xb3; xad; x0a; xe6;
  xb3; xb2; x0a; xe6; xb3; x92; x0a; xe6;
  xb3; x9d; x0a; xe6; xb2; xb4; x0a; xe6;
  xb2; x8a; x0a; xe6; xb2; x9d; x0a; xe6;
  xb2; x80; x0a; xe6; xb3; x9e; x0a; xe6;
  xb3; x80; x0a; xe6; xb4; xb0; x0a; xe6;
  xb3; x8d; x0a; xe6; xb3; x87; x0a; xe6;
  xb2; xb0; x0a; xe6; xb3; xb9; x0a; xe6;
  xb3; x8f; x0a; xe6; xb3; xa9; x0a; xe6;
  xb3; x91; x0a; xe7; x82; x94; x0a; xe7;
  x82; x98; x0a; xe7; x82; x85; x0a; xe7;
  x82; x93; x0a; xe7; x82; x86; x0a; xe7
].
(* tests/test_data/whatwg/big5_whatwg_test_decode_out.txt, entries 44544..44799 *)
Definition big5_decode_out_174 : list byte := [
  x82; x84; x0a; xe7; x82; x91; x0a; xe7;
  x82; x96; x0a; xe7; x82; x82; x0a; xe7;
  x82; x9a; x0a; xe7; x82; x83; x0a; xe7;
  x89; xaa; x0a; xe7; x8b; x96; x0a; xe7;
  x8b; x8b; x0a; xe7; x8b; x98; x0a; xe7;
  x8b; x89; x0a; xe7; x8b; x9c; x0a; xe7;
  x8b; x92; x0a; xe7; x8b; x94; x0a; xe7;
  x8b; x9a; x0a; xe7; x8b; x8c; x0a; xe7;
  x8b; x91; x0a; xe7; x8e; xa4; x0a; xe7;
  x8e; xa1; x0a; xe7; x8e; xad; x0a; xe7;
  x8e; xa6; x0a; xe7; x8e; xa2; x0a; xe7;
  x8e; xa0; x0a; xe7; x8e; xac; x0a; xe7;
  x8e; x9d; x0a; xe7; x93; x9d; x0a; xe7;
  x93; xa8; x0a; xe7; x94; xbf; x0a; xe7;
  x95; x80; x0a; xe7; x94; xbe; x0a; xe7;
  x96; x8c; x0a; xe7; x96; x98; x0a; xe7;
  x9a; xaf; x0a; xe7; x9b; xb3; x0a; xe7;
  x9b; xb1; x0a; xe7; x9b; xb0; x0a; xe7;
  x9b; xb5; x0a; xe7; x9f; xb8; x0a; xe7;
  x9f; xbc; x0a; xe7; x9f; xb9; x0a; xe7;
  x9f; xbb; x0a; xe7; x9f; xba; x0a; xe7;
  x9f; xb7; x0a; xe7; xa5; x82; x0a; xe7;
  xa4; xbf; x0a; xe7; xa7; x85; x0a; xe7;
  xa9; xb8; x0a; xe7; xa9; xbb; x0a; xe7;
  xab; xbb; x0a; xe7; xb1; xb5; x0a; xe7;
  xb3; xbd; x0a; xe8; x80; xb5; x0a; xe8;
  x82; x8f; x0a; xe8; x82; xae; x0a; xe8;
  x82; xa3; x0a; xe8; x82; xb8; x0a; xe8;
  x82; xb5; x0a; xe8; x82; xad; x0a; xe8;
  x88; xa0; x0a; xe8; x8a; xa0; x0a; xe8;
  x8b; x80; x0a; xe8; x8a; xab; x0a; xe8;
  x8a; x9a; x0a; xe8; x8a; x98; x0a; xe8
].
(* tests/test_data/whatwg/big5_whatwg_test_decode_out.txt, entries 44800..45055 *)
Definition big5_decode_out_175 : list byte := [
  x8a; x9b; x0a; xe8; x8a; xb5; x0a; xe8;
  x8a; xa7; x0a; xe8; x8a; xae; x0a; xe8;
  x8a; xbc; x0a; xe8; x8a; x9e; x0a; xe8;
  x8a; xba; x0a; xe8; x8a; xb4; x0a; xe8;
  x8a; xa8; x0a; xe8; x8a; xa1; x0a; xe8;
  x8a; xa9; x0a; xe8; x8b; x82; x0a; xe8;
  x8a; xa4; x0a; xe8; x8b; x83; x0a; xe8;
  x8a; xb6; x0a; xe8; x8a; xa2; x0a; xe8;
  x99; xb0; x0a; xe8; x99; xaf; x0a; xe8;
  x99; xad; x0a; xe8; x99; xae; x0a; xe8;
  xb1; x96; x0a; xe8; xbf; x92; x0a; xe8;
  xbf; x8b; x0a; xe8; xbf; x93; x0a; xe8;
  xbf; x8d; x0a; xe8; xbf; x96; x0a; xe8;
  xbf; x95; x0a; xe8; xbf; x97; x0a; xe9;
  x82; xb2; x0a; xe9; x82; xb4; x0a; xe9;
  x82; xaf; x0a; xe9; x82; xb3; x0a; xe9;
  x82; xb0; x0a; xe9; x98; xb9; x0a; xe9;
  x98; xbd; x0a; xe9; x98; xbc; x0a; xe9;
  x98; xba; x0a; xe9; x99; x83; x0a; xe4;
  xbf; x8d; x0a; xe4; xbf; x85; x0a; xe4;
  xbf; x93; x0a; xe4; xbe; xb2; x0a; xe4;
  xbf; x89; x0a; xe4; xbf; x8b; x0a; xe4;
  xbf; x81; x0a; xe4; xbf; x94; x0a; xe4;
  xbf; x9c; x0a; xe4; xbf; x99; x0a; xe4;
  xbe; xbb; x0a; xe4; xbe; xb3; x0a; xe4;
  xbf; x9b; x0a; xe4; xbf; x87; x0a; xe4;
  xbf; x96; x0a; xe4; xbe; xba; x0a; xe4;
  xbf; x80; x0a; xe4; xbe; xb9; x0a; xe4;
  xbf; xac; x0a; xe5; x89; x84; x0a; xe5;
  x89; x89; x0a; xe5; x8b; x80; x0a; xe5;
  x8b; x82; x0a; xe5; x8c; xbd; x0a; xe5;
  x8d; xbc; x0a; xe5; x8e; x97; x0a; xe5
].
(* tests/test_data/whatwg/big5_whatwg_test_decode_out.txt, entries 45056..45311 *)
Definition big5_decode_out_176 : list byte := [
  x8e; x96; x0a; xe5; x8e; x99; x0a; xe5;
  x8e; x98; x0a; xe5; x92; xba; x0a; xe5;
  x92; xa1; x0a; xe5; x92; xad; x0a; xe5;
  x92; xa5; x0a; xe5; x93; x8f; x0a; xe5;
  x93; x83; x0a; xe8; x8c; x8d; x0a; xe5;
  x92; xb7; x0a; xe5; x92; xae; x0a; xe5;
  x93; x96; x0a; xe5; x92; xb6; x0a; xe5;
  x93; x85; x0a; xe5; x93; x86; x0a; xe5;
  x92; xa0; x0a; xe5; x91; xb0; x0a; xe5;
  x92; xbc; x0a; xe5; x92; xa2; x0a; xe5;
  x92; xbe; x0a; xe5; x91; xb2; x0a; xe5;
  x93; x9e; x0a; xe5; x92; xb0; x0a; xe5;
  x9e; xb5; x0a; xe5; x9e; x9e; x0a; xe5;
  x9e; x9f; x0a; xe5; x9e; xa4; x0a; xe5;
  x9e; x8c; x0a; xe5; x9e; x97; x0a; xe5;
  x9e; x9d; x0a; xe5; x9e; x9b; x0a; xe5;
  x9e; x94; x0a; xe5; x9e; x98; x0a; xe5;
  x9e; x8f; x0a; xe5; x9e; x99; x0a; xe5;
  x9e; xa5; x0a; xe5; x9e; x9a; x0a; xe5;
  x9e; x95; x0a; xe5; xa3; xb4; x0a; xe5;
  xa4; x8d; x0a; xe5; xa5; x93; x0a; xe5;
  xa7; xa1; x0a; xe5; xa7; x9e; x0a; xe5;
  xa7; xae; x0a; xe5; xa8; x80; x0a; xe5;
  xa7; xb1; x0a; xe5; xa7; x9d; x0a; xe5;
  xa7; xba; x0a; xe5; xa7; xbd; x0a; xe5;
  xa7; xbc; x0a; xe5; xa7; xb6; x0a; xe5;
  xa7; xa4; x0a; xe5; xa7; xb2; x0a; xe5;
  xa7; xb7; x0a; xe5; xa7; x9b; x0a; xe5;
  xa7; xa9; x0a; xe5; xa7; xb3; x0a; xe5;
  xa7; xb5; x0a; xe5; xa7; xa0; x0a; xe5;
  xa7; xbe; x0a; xe5; xa7; xb4; x0a; xe5;
  xa7; xad; x0a; xe5; xae; xa8; x0a; xe5
].
(* tests/test_data/whatwg/big5_whatwg_test_decode_out.txt, entries 45312..45567 *)
Definition big5_decode_out_177 : list byte := [
  xb1; x8c; x0a; xe5; xb3; x90; x0a; xe5;
  xb3; x98; x0a; xe5; xb3; x8c; x0a; xe5;
  xb3; x97; x0a; xe5; xb3; x8b; x0a; xe5;
  xb3; x9b; x0a; xe5; xb3; x9e; x0a; xe5;
  xb3; x9a; x0a; xe5; xb3; x89; x0a; xe5;
  xb3; x87; x0a; xe5; xb3; x8a; x0a; xe5;
  xb3; x96; x0a; xe5; xb3; x93; x0a; xe5;
  xb3; x94; x0a; xe5; xb3; x8f; x0a; xe5;
  xb3; x88; x0a; xe5; xb3; x86; x0a; xe5;
  xb3; x8e; x0a; xe5; xb3; x9f; x0a; xe5;
  xb3; xb8; x0a; xe5; xb7; xb9; x0a; xe5;
  xb8; xa1; x0a; xe5; xb8; xa2; x0a; xe5;
  xb8; xa3; x0a; xe5; xb8; xa0; x0a; xe5;
  xb8; xa4; x0a; xe5; xba; xb0; x0a; xe5;
  xba; xa4; x0a; xe5; xba; xa2; x0a; xe5;
  xba; x9b; x0a; xe5; xba; xa3; x0a; xe5;
  xba; xa5; x0a; xe5; xbc; x87; x0a; xe5;
  xbc; xae; x0a; xe5; xbd; x96; x0a; xe5;
  xbe; x86; x0a; xe6; x80; xb7; x0a; xe6;
  x80; xb9; x0a; xe6; x81; x94; x0a; xe6;
  x81; xb2; x0a; xe6; x81; x9e; x0a; xe6;
  x81; x85; x0a; xe6; x81; x93; x0a; xe6;
  x81; x87; x0a; xe6; x81; x89; x0a; xe6;
  x81; x9b; x0a; xe6; x81; x8c; x0a; xe6;
  x81; x80; x0a; xe6; x81; x82; x0a; xe6;
  x81; x9f; x0a; xe6; x80; xa4; x0a; xe6;
  x81; x84; x0a; xe6; x81; x98; x0a; xe6;
  x81; xa6; x0a; xe6; x81; xae; x0a; xe6;
  x89; x82; x0a; xe6; x89; x83; x0a; xe6;
  x8b; x8f; x0a; xe6; x8c; x8d; x0a; xe6;
  x8c; x8b; x0a; xe6; x8b; xb5; x0a; xe6;
  x8c; x8e; x0a; xe6; x8c; x83; x0a; xe6
].
(* tests/test_data/whatwg/big5_whatwg_test_decode_out.txt, entries 45568..45823 *)
Definition big5_decode_out_178 : list byte := [
  x8b; xab; x0a; xe6; x8b; xb9; x0a; xe6;
  x8c; x8f; x0a; xe6; x8c; x8c; x0a; xe6;
  x8b; xb8; x0a; xe6; x8b; xb6; x0a; xe6;
  x8c; x80; x0a; xe6; x8c; x93; x0a; xe6;
  x8c; x94; x0a; xe6; x8b; xba; x0a; xe6;
  x8c; x95; x0a; xe6; x8b; xbb; x0a; xe6;
  x8b; xb0; x0a; xe6; x95; x81; x0a; xe6;
  x95; x83; x0a; xe6; x96; xaa; x0a; xe6;
  x96; xbf; x0a; xe6; x98; xb6; x0a; xe6;
  x98; xa1; x0a; xe6; x98; xb2; x0a; xe6;
  x98; xb5; x0a; xe6; x98; x9c; x0a; xe6;
  x98; xa6; x0a; xe6; x98; xa2; x0a; xe6;
  x98; xb3; x0a; xe6; x98; xab; x0a; xe6;
  x98; xba; x0a; xe6; x98; x9d; x0a; xe6;
  x98; xb4; x0a; xe6; x98; xb9; x0a; xe6;
  x98; xae; x0a; xe6; x9c; x8f; x0a; xe6;
  x9c; x90; x0a; xe6; x9f; x81; x0a; xe6;
  x9f; xb2; x0a; xe6; x9f; x88; x0a; xe6;
  x9e; xba; x0a; xe6; x9f; x9c; x0a; xe6;
  x9e; xbb; x0a; xe6; x9f; xb8; x0a; xe6;
  x9f; x98; x0a; xe6; x9f; x80; x0a; xe6;
  x9e; xb7; x0a; xe6; x9f; x85; x0a; xe6;
  x9f; xab; x0a; xe6; x9f; xa4; x0a; xe6;
  x9f; x9f; x0a; xe6; x9e; xb5; x0a; xe6;
  x9f; x8d; x0a; xe6; x9e; xb3; x0a; xe6;
  x9f; xb7; x0a; xe6; x9f; xb6; x0a; xe6;
  x9f; xae; x0a; xe6; x9f; xa3; x0a; xe6;
  x9f; x82; x0a; xe6; x9e; xb9; x0a; xe6;
  x9f; x8e; x0a; xe6; x9f; xa7; x0a; xe6;
  x9f; xb0; x0a; xe6; x9e; xb2; x0a; xe6;
  x9f; xbc; x0a; xe6; x9f; x86; x0a; xe6;
  x9f; xad; x0a; xe6; x9f; x8c; x0a; xe6
].
(* tests/test_data/whatwg/big5_whatwg_test_decode_out.txt, entries 45824..46079 *)
Definition big5_decode_out_179 : list byte := [
  x9e; xae; x0a; xe6; x9f; xa6; x0a; xe6;
  x9f; x9b; x0a; xe6; x9f; xba; x0a; xe6;
  x9f; x89; x0a; xe6; x9f; x8a; x0a; xe6;
  x9f; x83; x0a; xe6; x9f; xaa; x0a; xe6;
  x9f; x8b; x0a; xe6; xac; xa8; x0a; xe6;
  xae; x82; x0a; xe6; xae; x84; x0a; xe6;
  xae; xb6; x0a; xe6; xaf; x96; x0a; xe6;
  xaf; x98; x0a; xe6; xaf; xa0; x0a; xe6;
  xb0; xa0; x0a; xe6; xb0; xa1; x0a; xe6;
  xb4; xa8; x0a; xe6; xb4; xb4; x0a; xe6;
  xb4; xad; x0a; xe6; xb4; x9f; x0a; xe6;
  xb4; xbc; x0a; xe6; xb4; xbf; x0a; xe6;
  xb4; x92; x0a; xe6; xb4; x8a; x0a; xe6;
  xb3; x9a; x0a; xe6; xb4; xb3; x0a; xe6;
  xb4; x84; x0a; xe6; xb4; x99; x0a; xe6;
  xb4; xba; x0a; xe6; xb4; x9a; x0a; xe6;
  xb4; x91; x0a; xe6; xb4; x80; x0a; xe6;
  xb4; x9d; x0a; xe6; xb5; x82; x0a; xe6;
  xb4; x81; x0a; xe6; xb4; x98; x0a; xe6;
  xb4; xb7; x0a; xe6; xb4; x83; x0a; xe6;
  xb4; x8f; x0a; xe6; xb5; x80; x0a; xe6;
  xb4; x87; x0a; xe6; xb4; xa0; x0a; xe6;
  xb4; xac; x0a; xe6; xb4; x88; x0a; xe6;
  xb4; xa2; x0a; xe6; xb4; x89; x0a; xe6;
  xb4; x90; x0a; xe7; x82; xb7; x0a; xe7;
  x82; x9f; x0a; xe7; x82; xbe; x0a; xe7;
  x82; xb1; x0a; xe7; x82; xb0; x0a; xe7;
  x82; xa1; x0a; xe7; x82; xb4; x0a; xe7;
  x82; xb5; x0a; xe7; x82; xa9; x0a; xe7;
  x89; x81; x0a; xe7; x89; x89; x0a; xe7;
  x89; x8a; x0a; xe7; x89; xac; x0a; xe7;
  x89; xb0; x0a; xe7; x89; xb3; x0a; xe7
].
(* tests/test_data/whatwg/big5_whatwg_test_decode_out.txt, entries 46080..46335 *)
Definition big5_decode_out_180 : list byte := [
  x89; xae; x0a; xe7; x8b; x8a; x0a; xe7;
  x8b; xa4; x0a; xe7; x8b; xa8; x0a; xe7;
  x8b; xab; x0a; xe7; x8b; x9f; x0a; xe7;
  x8b; xaa; x0a; xe7; x8b; xa6; x0a; xe7;
  x8b; xa3; x0a; xe7; x8e; x85; x0a; xe7;
  x8f; x8c; x0a; xe7; x8f; x82; x0a; xe7;
  x8f; x88; x0a; xe7; x8f; x85; x0a; xe7;
  x8e; xb9; x0a; xe7; x8e; xb6; x0a; xe7;
  x8e; xb5; x0a; xe7; x8e; xb4; x0a; xe7;
  x8f; xab; x0a; xe7; x8e; xbf; x0a; xe7;
  x8f; x87; x0a; xe7; x8e; xbe; x0a; xe7;
  x8f; x83; x0a; xe7; x8f; x86; x0a; xe7;
  x8e; xb8; x0a; xe7; x8f; x8b; x0a; xe7;
  x93; xac; x0a; xe7; x93; xae; x0a; xe7;
  x94; xae; x0a; xe7; x95; x87; x0a; xe7;
  x95; x88; x0a; xe7; x96; xa7; x0a; xe7;
  x96; xaa; x0a; xe7; x99; xb9; x0a; xe7;
  x9b; x84; x0a; xe7; x9c; x88; x0a; xe7;
  x9c; x83; x0a; xe7; x9c; x84; x0a; xe7;
  x9c; x85; x0a; xe7; x9c; x8a; x0a; xe7;
  x9b; xb7; x0a; xe7; x9b; xbb; x0a; xe7;
  x9b; xba; x0a; xe7; x9f; xa7; x0a; xe7;
  x9f; xa8; x0a; xe7; xa0; x86; x0a; xe7;
  xa0; x91; x0a; xe7; xa0; x92; x0a; xe7;
  xa0; x85; x0a; xe7; xa0; x90; x0a; xe7;
  xa0; x8f; x0a; xe7; xa0; x8e; x0a; xe7;
  xa0; x89; x0a; xe7; xa0; x83; x0a; xe7;
  xa0; x93; x0a; xe7; xa5; x8a; x0a; xe7;
  xa5; x8c; x0a; xe7; xa5; x8b; x0a; xe7;
  xa5; x85; x0a; xe7; xa5; x84; x0a; xe7;
  xa7; x95; x0a; xe7; xa7; x8d; x0a; xe7;
  xa7; x8f; x0a; xe7; xa7; x96; x0a; xe7
].
(* tests/test_data/whatwg/big5_whatwg_test_decode_out.txt, entries 46336..46591 *)
Definition big5_decode_out_181 : list byte := [
  xa7; x8e; x0a; xe7; xaa; x80; x0a; xe7;
  xa9; xbe; x0a; xe7; xab; x91; x0a; xe7;
  xac; x80; x0a; xe7; xac; x81; x0a; xe7;
  xb1; xba; x0a; xe7; xb1; xb8; x0a; xe7;
  xb1; xb9; x0a; xe7; xb1; xbf; x0a; xe7;
  xb2; x80; x0a; xe7; xb2; x81; x0a; xe7;
  xb4; x83; x0a; xe7; xb4; x88; x0a; xe7;
  xb4; x81; x0a; xe7; xbd; x98; x0a; xe7;
  xbe; x91; x0a; xe7; xbe; x8d; x0a; xe7;
  xbe; xbe; x0a; xe8; x80; x87; x0a; xe8;
  x80; x8e; x0a; xe8; x80; x8f; x0a; xe8;
  x80; x94; x0a; xe8; x80; xb7; x0a; xe8;
  x83; x98; x0a; xe8; x83; x87; x0a; xe8;
  x83; xa0; x0a; xe8; x83; x91; x0a; xe8;
  x83; x88; x0a; xe8; x83; x82; x0a; xe8;
  x83; x90; x0a; xe8; x83; x85; x0a; xe8;
  x83; xa3; x0a; xe8; x83; x99; x0a; xe8;
  x83; x9c; x0a; xe8; x83; x8a; x0a; xe8;
  x83; x95; x0a; xe8; x83; x89; x0a; xe8;
  x83; x8f; x0a; xe8; x83; x97; x0a; xe8;
  x83; xa6; x0a; xe8; x83; x8d; x0a; xe8;
  x87; xbf; x0a; xe8; x88; xa1; x0a; xe8;
  x8a; x94; x0a; xe8; x8b; x99; x0a; xe8;
  x8b; xbe; x0a; xe8; x8b; xb9; x0a; xe8;
  x8c; x87; x0a; xe8; x8b; xa8; x0a; xe8;
  x8c; x80; x0a; xe8; x8b; x95; x0a; xe8;
  x8c; xba; x0a; xe8; x8b; xab; x0a; xe8;
  x8b; x96; x0a; xe8; x8b; xb4; x0a; xe8;
  x8b; xac; x0a; xe8; x8b; xa1; x0a; xe8;
  x8b; xb2; x0a; xe8; x8b; xb5; x0a; xe8;
  x8c; x8c; x0a; xe8; x8b; xbb; x0a; xe8;
  x8b; xb6; x0a; xe8; x8b; xb0; x0a; xe8
].
(* tests/test_data/whatwg/big5_whatwg_test_decode_out.txt, entries 46592..46847 *)
Definition big5_decode_out_182 : list byte := [
  x8b; xaa; x0a; xe8; x8b; xa4; x0a; xe8;
  x8b; xa0; x0a; xe8; x8b; xba; x0a; xe8;
  x8b; xb3; x0a; xe8; x8b; xad; x0a; xe8;
  x99; xb7; x0a; xe8; x99; xb4; x0a; xe8;
  x99; xbc; x0a; xe8; x99; xb3; x0a; xe8;
  xa1; x81; x0a; xe8; xa1; x8e; x0a; xe8;
  xa1; xa7; x0a; xe8; xa1; xaa; x0a; xe8;
  xa1; xa9; x0a; xe8; xa7; x93; x0a; xe8;
  xa8; x84; x0a; xe8; xa8; x87; x0a; xe8;
  xb5; xb2; x0a; xe8; xbf; xa3; x0a; xe8;
  xbf; xa1; x0a; xe8; xbf; xae; x0a; xe8;
  xbf; xa0; x0a; xe9; x83; xb1; x0a; xe9;
  x82; xbd; x0a; xe9; x82; xbf; x0a; xe9;
  x83; x95; x0a; xe9; x83; x85; x0a; xe9;
  x82; xbe; x0a; xe9; x83; x87; x0a; xe9;
  x83; x8b; x0a; xe9; x83; x88; x0a; xe9;
  x87; x94; x0a; xe9; x87; x93; x0a; xe9;
  x99; x94; x0a; xe9; x99; x8f; x0a; xe9;
  x99; x91; x0a; xe9; x99; x93; x0a; xe9;
  x99; x8a; x0a; xe9; x99; x8e; x0a; xe5;
  x80; x9e; x0a; xe5; x80; x85; x0a; xe5;
  x80; x87; x0a; xe5; x80; x93; x0a; xe5;
  x80; xa2; x0a; xe5; x80; xb0; x0a; xe5;
  x80; x9b; x0a; xe4; xbf; xb5; x0a; xe4;
  xbf; xb4; x0a; xe5; x80; xb3; x0a; xe5;
  x80; xb7; x0a; xe5; x80; xac; x0a; xe4;
  xbf; xb6; x0a; xe4; xbf; xb7; x0a; xe5;
  x80; x97; x0a; xe5; x80; x9c; x0a; xe5;
  x80; xa0; x0a; xe5; x80; xa7; x0a; xe5;
  x80; xb5; x0a; xe5; x80; xaf; x0a; xe5;
  x80; xb1; x0a; xe5; x80; x8e; x0a; xe5;
  x85; x9a; x0a; xe5; x86; x94; x0a; xe5
].
(* tests/test_data/whatwg/big5_whatwg_test_decode_out.txt, entries 46848..47103 *)
Definition big5_decode_out_183 : list byte := [
  x86; x93; x0a; xe5; x87; x8a; x0a; xe5;
  x87; x84; x0a; xe5; x87; x85; x0a; xe5;
  x87; x88; x0a; xe5; x87; x8e; x0a; xe5;
  x89; xa1; x0a; xe5; x89; x9a; x0a; xe5;
  x89; x92; x0a; xe5; x89; x9e; x0a; xe5;
  x89; x9f; x0a; xe5; x89; x95; x0a; xe5;
  x89; xa2; x0a; xe5; x8b; x8d; x0a; xe5;
  x8c; x8e; x0a; xe5; x8e; x9e; x0a; xe5;
  x94; xa6; x0a; xe5; x93; xa2; x0a; xe5;
  x94; x97; x0a; xe5; x94; x92; x0a; xe5;
  x93; xa7; x0a; xe5; x93; xb3; x0a; xe5;
  x93; xa4; x0a; xe5; x94; x9a; x0a; xe5;
  x93; xbf; x0a; xe5; x94; x84; x0a; xe5;
  x94; x88; x0a; xe5; x93; xab; x0a; xe5;
  x94; x91; x0a; xe5; x94; x85; x0a; xe5;
  x93; xb1; x0a; xe5; x94; x8a; x0a; xe5;
  x93; xbb; x0a; xe5; x93; xb7; x0a; xe5;
  x93; xb8; x0a; xe5; x93; xa0; x0a; xe5;
  x94; x8e; x0a; xe5; x94; x83; x0a; xe5;
  x94; x8b; x0a; xe5; x9c; x81; x0a; xe5;
  x9c; x82; x0a; xe5; x9f; x8c; x0a; xe5;
  xa0; xb2; x0a; xe5; x9f; x95; x0a; xe5;
  x9f; x92; x0a; xe5; x9e; xba; x0a; xe5;
  x9f; x86; x0a; xe5; x9e; xbd; x0a; xe5;
  x9e; xbc; x0a; xe5; x9e; xb8; x0a; xe5;
  x9e; xb6; x0a; xe5; x9e; xbf; x0a; xe5;
  x9f; x87; x0a; xe5; x9f; x90; x0a; xe5;
  x9e; xb9; x0a; xe5; x9f; x81; x0a; xe5;
  xa4; x8e; x0a; xe5; xa5; x8a; x0a; xe5;
  xa8; x99; x0a; xe5; xa8; x96; x0a; xe5;
  xa8; xad; x0a; xe5; xa8; xae; x0a; xe5;
  xa8; x95; x0a; xe5; xa8; x8f; x0a; xe5
].
(* tests/test_data/whatwg/big5_whatwg_test_decode_out.txt, entries 47104..47359 *)
Definition big5_decode_out_184 : list byte := [
  xa8; x97; x0a; xe5; xa8; x8a; x0a; xe5;
  xa8; x9e; x0a; xe5; xa8; xb3; x0a; xe5;
  xad; xac; x0a; xe5; xae; xa7; x0a; xe5;
  xae; xad; x0a; xe5; xae; xac; x0a; xe5;
  xb0; x83; x0a; xe5; xb1; x96; x0a; xe5;
  xb1; x94; x0a; xe5; xb3; xac; x0a; xe5;
  xb3; xbf; x0a; xe5; xb3; xae; x0a; xe5;
  xb3; xb1; x0a; xe5; xb3; xb7; x0a; xe5;
  xb4; x80; x0a; xe5; xb3; xb9; x0a; xe5;
  xb8; xa9; x0a; xe5; xb8; xa8; x0a; xe5;
  xba; xa8; x0a; xe5; xba; xae; x0a; xe5;
  xba; xaa; x0a; xe5; xba; xac; x0a; xe5;
  xbc; xb3; x0a; xe5; xbc; xb0; x0a; xe5;
  xbd; xa7; x0a; xe6; x81; x9d; x0a; xe6;
  x81; x9a; x0a; xe6; x81; xa7; x0a; xe6;
  x81; x81; x0a; xe6; x82; xa2; x0a; xe6;
  x82; x88; x0a; xe6; x82; x80; x0a; xe6;
  x82; x92; x0a; xe6; x82; x81; x0a; xe6;
  x82; x9d; x0a; xe6; x82; x83; x0a; xe6;
  x82; x95; x0a; xe6; x82; x9b; x0a; xe6;
  x82; x97; x0a; xe6; x82; x87; x0a; xe6;
  x82; x9c; x0a; xe6; x82; x8e; x0a; xe6;
  x88; x99; x0a; xe6; x89; x86; x0a; xe6;
  x8b; xb2; x0a; xe6; x8c; x90; x0a; xe6;
  x8d; x96; x0a; xe6; x8c; xac; x0a; xe6;
  x8d; x84; x0a; xe6; x8d; x85; x0a; xe6;
  x8c; xb6; x0a; xe6; x8d; x83; x0a; xe6;
  x8f; xa4; x0a; xe6; x8c; xb9; x0a; xe6;
  x8d; x8b; x0a; xe6; x8d; x8a; x0a; xe6;
  x8c; xbc; x0a; xe6; x8c; xa9; x0a; xe6;
  x8d; x81; x0a; xe6; x8c; xb4; x0a; xe6;
  x8d; x98; x0a; xe6; x8d; x94; x0a; xe6
].
(* tests/test_data/whatwg/big5_whatwg_test_decode_out.txt, entries 47360..47615 *)
Definition big5_decode_out_185 : list byte := [
  x8d; x99; x0a; xe6; x8c; xad; x0a; xe6;
  x8d; x87; x0a; xe6; x8c; xb3; x0a; xe6;
  x8d; x9a; x0a; xe6; x8d; x91; x0a; xe6;
  x8c; xb8; x0a; xe6; x8d; x97; x0a; xe6;
  x8d; x80; x0a; xe6; x8d; x88; x0a; xe6;
  x95; x8a; x0a; xe6; x95; x86; x0a; xe6;
  x97; x86; x0a; xe6; x97; x83; x0a; xe6;
  x97; x84; x0a; xe6; x97; x82; x0a; xe6;
  x99; x8a; x0a; xe6; x99; x9f; x0a; xe6;
  x99; x87; x0a; xe6; x99; x91; x0a; xe6;
  x9c; x92; x0a; xe6; x9c; x93; x0a; xe6;
  xa0; x9f; x0a; xe6; xa0; x9a; x0a; xe6;
  xa1; x89; x0a; xe6; xa0; xb2; x0a; xe6;
  xa0; xb3; x0a; xe6; xa0; xbb; x0a; xe6;
  xa1; x8b; x0a; xe6; xa1; x8f; x0a; xe6;
  xa0; x96; x0a; xe6; xa0; xb1; x0a; xe6;
  xa0; x9c; x0a; xe6; xa0; xb5; x0a; xe6;
  xa0; xab; x0a; xe6; xa0; xad; x0a; xe6;
  xa0; xaf; x0a; xe6; xa1; x8e; x0a; xe6;
  xa1; x84; x0a; xe6; xa0; xb4; x0a; xe6;
  xa0; x9d; x0a; xe6; xa0; x92; x0a; xe6;
  xa0; x94; x0a; xe6; xa0; xa6; x0a; xe6;
  xa0; xa8; x0a; xe6; xa0; xae; x0a; xe6;
  xa1; x8d; x0a; xe6; xa0; xba; x0a; xe6;
  xa0; xa5; x0a; xe6; xa0; xa0; x0a; xe6;
  xac; xac; x0a; xe6; xac; xaf; x0a; xe6;
  xac; xad; x0a; xe6; xac; xb1; x0a; xe6;
  xac; xb4; x0a; xe6; xad; xad; x0a; xe8;
  x82; x82; x0a; xe6; xae; x88; x0a; xe6;
  xaf; xa6; x0a; xe6; xaf; xa4; x0a; xe6;
  xaf; xa8; x0a; xe6; xaf; xa3; x0a; xe6;
  xaf; xa2; x0a; xe6; xaf; xa7; x0a; xe6
].
(* tests/test_data/whatwg/big5_whatwg_test_decode_out.txt, entries 47616..47871 *)
Definition big5_decode_out_186 : list byte := [
  xb0; xa5; x0a; xe6; xb5; xba; x0a; xe6;
  xb5; xa3; x0a; xe6; xb5; xa4; x0a; xe6;
  xb5; xb6; x0a; xe6; xb4; x8d; x0a; xe6;
  xb5; xa1; x0a; xe6; xb6; x92; x0a; xe6;
  xb5; x98; x0a; xe6; xb5; xa2; x0a; xe6;
  xb5; xad; x0a; xe6; xb5; xaf; x0a; xe6;
  xb6; x91; x0a; xe6; xb6; x8d; x0a; xe6;
  xb7; xaf; x0a; xe6; xb5; xbf; x0a; xe6;
  xb6; x86; x0a; xe6; xb5; x9e; x0a; xe6;
  xb5; xa7; x0a; xe6; xb5; xa0; x0a; xe6;
  xb6; x97; x0a; xe6; xb5; xb0; x0a; xe6;
  xb5; xbc; x0a; xe6; xb5; x9f; x0a; xe6;
  xb6; x82; x0a; xe6; xb6; x98; x0a; xe6;
  xb4; xaf; x0a; xe6; xb5; xa8; x0a; xe6;
  xb6; x8b; x0a; xe6; xb5; xbe; x0a; xe6;
  xb6; x80; x0a; xe6; xb6; x84; x0a; xe6;
  xb4; x96; x0a; xe6; xb6; x83; x0a; xe6;
  xb5; xbb; x0a; xe6; xb5; xbd; x0a; xe6;
  xb5; xb5; x0a; xe6; xb6; x90; x0a; xe7;
  x83; x9c; x0a; xe7; x83; x93; x0a; xe7;
  x83; x91; x0a; xe7; x83; x9d; x0a; xe7;
  x83; x8b; x0a; xe7; xbc; xb9; x0a; xe7;
  x83; xa2; x0a; xe7; x83; x97; x0a; xe7;
  x83; x92; x0a; xe7; x83; x9e; x0a; xe7;
  x83; xa0; x0a; xe7; x83; x94; x0a; xe7;
  x83; x8d; x0a; xe7; x83; x85; x0a; xe7;
  x83; x86; x0a; xe7; x83; x87; x0a; xe7;
  x83; x9a; x0a; xe7; x83; x8e; x0a; xe7;
  x83; xa1; x0a; xe7; x89; x82; x0a; xe7;
  x89; xb8; x0a; xe7; x89; xb7; x0a; xe7;
  x89; xb6; x0a; xe7; x8c; x80; x0a; xe7;
  x8b; xba; x0a; xe7; x8b; xb4; x0a; xe7
].
(* tests/test_data/whatwg/big5_whatwg_test_decode_out.txt, entries 47872..48127 *)
Definition big5_decode_out_187 : list byte := [
  x8b; xbe; x0a; xe7; x8b; xb6; x0a; xe7;
  x8b; xb3; x0a; xe7; x8b; xbb; x0a; xe7;
  x8c; x81; x0a; xe7; x8f; x93; x0a; xe7;
  x8f; x99; x0a; xe7; x8f; xa5; x0a; xe7;
  x8f; x96; x0a; xe7; x8e; xbc; x0a; xe7;
  x8f; xa7; x0a; xe7; x8f; xa3; x0a; xe7;
  x8f; xa9; x0a; xe7; x8f; x9c; x0a; xe7;
  x8f; x92; x0a; xe7; x8f; x9b; x0a; xe7;
  x8f; x94; x0a; xe7; x8f; x9d; x0a; xe7;
  x8f; x9a; x0a; xe7; x8f; x97; x0a; xe7;
  x8f; x98; x0a; xe7; x8f; xa8; x0a; xe7;
  x93; x9e; x0a; xe7; x93; x9f; x0a; xe7;
  x93; xb4; x0a; xe7; x93; xb5; x0a; xe7;
  x94; xa1; x0a; xe7; x95; x9b; x0a; xe7;
  x95; x9f; x0a; xe7; x96; xb0; x0a; xe7;
  x97; x81; x0a; xe7; x96; xbb; x0a; xe7;
  x97; x84; x0a; xe7; x97; x80; x0a; xe7;
  x96; xbf; x0a; xe7; x96; xb6; x0a; xe7;
  x96; xba; x0a; xe7; x9a; x8a; x0a; xe7;
  x9b; x89; x0a; xe7; x9c; x9d; x0a; xe7;
  x9c; x9b; x0a; xe7; x9c; x90; x0a; xe7;
  x9c; x93; x0a; xe7; x9c; x92; x0a; xe7;
  x9c; xa3; x0a; xe7; x9c; x91; x0a; xe7;
  x9c; x95; x0a; xe7; x9c; x99; x0a; xe7;
  x9c; x9a; x0a; xe7; x9c; xa2; x0a; xe7;
  x9c; xa7; x0a; xe7; xa0; xa3; x0a; xe7;
  xa0; xac; x0a; xe7; xa0; xa2; x0a; xe7;
  xa0; xb5; x0a; xe7; xa0; xaf; x0a; xe7;
  xa0; xa8; x0a; xe7; xa0; xae; x0a; xe7;
  xa0; xab; x0a; xe7; xa0; xa1; x0a; xe7;
  xa0; xa9; x0a; xe7; xa0; xb3; x0a; xe7;
  xa0; xaa; x0a; xe7; xa0; xb1; x0a; xe7
].
(* tests/test_data/whatwg/big5_whatwg_test_decode_out.txt, entries 48128..48383 *)
Definition big5_decode_out_188 : list byte := [
  xa5; x94; x0a; xe7; xa5; x9b; x0a; xe7;
  xa5; x8f; x0a; xe7; xa5; x9c; x0a; xe7;
  xa5; x93; x0a; xe7; xa5; x92; x0a; xe7;
  xa5; x91; x0a; xe7; xa7; xab; x0a; xe7;
  xa7; xac; x0a; xe7; xa7; xa0; x0a; xe7;
  xa7; xae; x0a; xe7; xa7; xad; x0a; xe7;
  xa7; xaa; x0a; xe7; xa7; x9c; x0a; xe7;
  xa7; x9e; x0a; xe7; xa7; x9d; x0a; xe7;
  xaa; x86; x0a; xe7; xaa; x89; x0a; xe7;
  xaa; x85; x0a; xe7; xaa; x8b; x0a; xe7;
  xaa; x8c; x0a; xe7; xaa; x8a; x0a; xe7;
  xaa; x87; x0a; xe7; xab; x98; x0a; xe7;
  xac; x90; x0a; xe7; xac; x84; x0a; xe7;
  xac; x93; x0a; xe7; xac; x85; x0a; xe7;
  xac; x8f; x0a; xe7; xac; x88; x0a; xe7;
  xac; x8a; x0a; xe7; xac; x8e; x0a; xe7;
  xac; x89; x0a; xe7; xac; x92; x0a; xe7;
  xb2; x84; x0a; xe7; xb2; x91; x0a; xe7;
  xb2; x8a; x0a; xe7; xb2; x8c; x0a; xe7;
  xb2; x88; x0a; xe7; xb2; x8d; x0a; xe7;
  xb2; x85; x0a; xe7; xb4; x9e; x0a; xe7;
  xb4; x9d; x0a; xe7; xb4; x91; x0a; xe7;
  xb4; x8e; x0a; xe7; xb4; x98; x0a; xe7;
  xb4; x96; x0a; xe7; xb4; x93; x0a; xe7;
  xb4; x9f; x0a; xe7; xb4; x92; x0a; xe7;
  xb4; x8f; x0a; xe7; xb4; x8c; x0a; xe7;
  xbd; x9c; x0a; xe7; xbd; xa1; x0a; xe7;
  xbd; x9e; x0a; xe7; xbd; xa0; x0a; xe7;
  xbd; x9d; x0a; xe7; xbd; x9b; x0a; xe7;
  xbe; x96; x0a; xe7; xbe; x92; x0a; xe7;
  xbf; x83; x0a; xe7; xbf; x82; x0a; xe7;
  xbf; x80; x0a; xe8; x80; x96; x0a; xe8
].
(* tests/test_data/whatwg/big5_whatwg_test_decode_out.txt, entries 48384..48639 *)
Definition big5_decode_out_189 : list byte := [
  x80; xbe; x0a; xe8; x80; xb9; x0a; xe8;
  x83; xba; x0a; xe8; x83; xb2; x0a; xe8;
  x83; xb9; x0a; xe8; x83; xb5; x0a; xe8;
  x84; x81; x0a; xe8; x83; xbb; x0a; xe8;
  x84; x80; x0a; xe8; x88; x81; x0a; xe8;
  x88; xaf; x0a; xe8; x88; xa5; x0a; xe8;
  x8c; xb3; x0a; xe8; x8c; xad; x0a; xe8;
  x8d; x84; x0a; xe8; x8c; x99; x0a; xe8;
  x8d; x91; x0a; xe8; x8c; xa5; x0a; xe8;
  x8d; x96; x0a; xe8; x8c; xbf; x0a; xe8;
  x8d; x81; x0a; xe8; x8c; xa6; x0a; xe8;
  x8c; x9c; x0a; xe8; x8c; xa2; x0a; xe8;
  x8d; x82; x0a; xe8; x8d; x8e; x0a; xe8;
  x8c; x9b; x0a; xe8; x8c; xaa; x0a; xe8;
  x8c; x88; x0a; xe8; x8c; xbc; x0a; xe8;
  x8d; x8d; x0a; xe8; x8c; x96; x0a; xe8;
  x8c; xa4; x0a; xe8; x8c; xa0; x0a; xe8;
  x8c; xb7; x0a; xe8; x8c; xaf; x0a; xe8;
  x8c; xa9; x0a; xe8; x8d; x87; x0a; xe8;
  x8d; x85; x0a; xe8; x8d; x8c; x0a; xe8;
  x8d; x93; x0a; xe8; x8c; x9e; x0a; xe8;
  x8c; xac; x0a; xe8; x8d; x8b; x0a; xe8;
  x8c; xa7; x0a; xe8; x8d; x88; x0a; xe8;
  x99; x93; x0a; xe8; x99; x92; x0a; xe8;
  x9a; xa2; x0a; xe8; x9a; xa8; x0a; xe8;
  x9a; x96; x0a; xe8; x9a; x8d; x0a; xe8;
  x9a; x91; x0a; xe8; x9a; x9e; x0a; xe8;
  x9a; x87; x0a; xe8; x9a; x97; x0a; xe8;
  x9a; x86; x0a; xe8; x9a; x8b; x0a; xe8;
  x9a; x9a; x0a; xe8; x9a; x85; x0a; xe8;
  x9a; xa5; x0a; xe8; x9a; x99; x0a; xe8;
  x9a; xa1; x0a; xe8; x9a; xa7; x0a; xe8
].
(* tests/test_data/whatwg/big5_whatwg_test_decode_out.txt, entries 48640..48895 *)
Definition big5_decode_out_190 : list byte := [
  x9a; x95; x0a; xe8; x9a; x98; x0a; xe8;
  x9a; x8e; x0a; xe8; x9a; x9d; x0a; xe8;
  x9a; x90; x0a; xe8; x9a; x94; x0a; xe8;
  xa1; x83; x0a; xe8; xa1; x84; x0a; xe8;
  xa1; xad; x0a; xe8; xa1; xb5; x0a; xe8;
  xa1; xb6; x0a; xe8; xa1; xb2; x0a; xe8;
  xa2; x80; x0a; xe8; xa1; xb1; x0a; xe8;
  xa1; xbf; x0a; xe8; xa1; xaf; x0a; xe8;
  xa2; x83; x0a; xe8; xa1; xbe; x0a; xe8;
  xa1; xb4; x0a; xe8; xa1; xbc; x0a; xe8;
  xa8; x92; x0a; xe8; xb1; x87; x0a; xe8;
  xb1; x97; x0a; xe8; xb1; xbb; x0a; xe8;
  xb2; xa4; x0a; xe8; xb2; xa3; x0a; xe8;
  xb5; xb6; x0a; xe8; xb5; xb8; x0a; xe8;
  xb6; xb5; x0a; xe8; xb6; xb7; x0a; xe8;
  xb6; xb6; x0a; xe8; xbb; x91; x0a; xe8;
  xbb; x93; x0a; xe8; xbf; xbe; x0a; xe8;
  xbf; xb5; x0a; xe9; x80; x82; x0a; xe8;
  xbf; xbf; x0a; xe8; xbf; xbb; x0a; xe9;
  x80; x84; x0a; xe8; xbf; xbc; x0a; xe8;
  xbf; xb6; x0a; xe9; x83; x96; x0a; xe9;
  x83; xa0; x0a; xe9; x83; x99; x0a; xe9;
  x83; x9a; x0a; xe9; x83; xa3; x0a; xe9;
  x83; x9f; x0a; xe9; x83; xa5; x0a; xe9;
  x83; x98; x0a; xe9; x83; x9b; x0a; xe9;
  x83; x97; x0a; xe9; x83; x9c; x0a; xe9;
  x83; xa4; x0a; xe9; x85; x90; x0a; xe9;
  x85; x8e; x0a; xe9; x85; x8f; x0a; xe9;
  x87; x95; x0a; xe9; x87; xa2; x0a; xe9;
  x87; x9a; x0a; xe9; x99; x9c; x0a; xe9;
  x99; x9f; x0a; xe9; x9a; xbc; x0a; xe9;
  xa3; xa3; x0a; xe9; xab; x9f; x0a; xe9
].
(* tests/test_data/whatwg/big5_whatwg_test_decode_out.txt, entries 48896..49151 *)
Definition big5_decode_out_191 : list byte := [
  xac; xaf; x0a; xe4; xb9; xbf; x0a; xe5;
  x81; xb0; x0a; xe5; x81; xaa; x0a; xe5;
  x81; xa1; x0a; xe5; x81; x9e; x0a; xe5;
  x81; xa0; x0a; xe5; x81; x93; x0a; xe5;
  x81; x8b; x0a; xe5; x81; x9d; x0a; xe5;
  x81; xb2; x0a; xe5; x81; x88; x0a; xe5;
  x81; x8d; x0a; xe5; x81; x81; x0a; xe5;
  x81; x9b; x0a; xe5; x81; x8a; x0a; xe5;
  x81; xa2; x0a; xe5; x80; x95; x0a; xe5;
  x81; x85; x0a; xe5; x81; x9f; x0a; xe5;
  x81; xa9; x0a; xe5; x81; xab; x0a; xe5;
  x81; xa3; x0a; xe5; x81; xa4; x0a; xe5;
  x81; x86; x0a; xe5; x81; x80; x0a; xe5;
  x81; xae; x0a; xe5; x81; xb3; x0a; xe5;
  x81; x97; x0a; xe5; x81; x91; x0a; xe5;
  x87; x90; x0a; xe5; x89; xab; x0a; xe5;
  x89; xad; x0a; xe5; x89; xac; x0a; xe5;
  x89; xae; x0a; xe5; x8b; x96; x0a; xe5;
  x8b; x93; x0a; xe5; x8c; xad; x0a; xe5;
  x8e; x9c; x0a; xe5; x95; xb5; x0a; xe5;
  x95; xb6; x0a; xe5; x94; xbc; x0a; xe5;
  x95; x8d; x0a; xe5; x95; x90; x0a; xe5;
  x94; xb4; x0a; xe5; x94; xaa; x0a; xe5;
  x95; x91; x0a; xe5; x95; xa2; x0a; xe5;
  x94; xb6; x0a; xe5; x94; xb5; x0a; xe5;
  x94; xb0; x0a; xe5; x95; x92; x0a; xe5;
  x95; x85; x0a; xe5; x94; x8c; x0a; xe5;
  x94; xb2; x0a; xe5; x95; xa5; x0a; xe5;
  x95; x8e; x0a; xe5; x94; xb9; x0a; xe5;
  x95; x88; x0a; xe5; x94; xad; x0a; xe5;
  x94; xbb; x0a; xe5; x95; x80; x0a; xe5;
  x95; x8b; x0a; xe5; x9c; x8a; x0a; xe5
].
(* tests/test_data/whatwg/big5_whatwg_test_decode_out.txt, entries 49152..49407 *)
Definition big5_decode_out_192 : list byte := [
  x9c; x87; x0a; xe5; x9f; xbb; x0a; xe5;
  xa0; x94; x0a; xe5; x9f; xa2; x0a; xe5;
  x9f; xb6; x0a; xe5; x9f; x9c; x0a; xe5;
  x9f; xb4; x0a; xe5; xa0; x80; x0a; xe5;
  x9f; xad; x0a; xe5; x9f; xbd; x0a; xe5;
  xa0; x88; x0a; xe5; x9f; xb8; x0a; xe5;
  xa0; x8b; x0a; xe5; x9f; xb3; x0a; xe5;
  x9f; x8f; x0a; xe5; xa0; x87; x0a; xe5;
  x9f; xae; x0a; xe5; x9f; xa3; x0a; xe5;
  x9f; xb2; x0a; xe5; x9f; xa5; x0a; xe5;
  x9f; xac; x0a; xe5; x9f; xa1; x0a; xe5;
  xa0; x8e; x0a; xe5; x9f; xbc; x0a; xe5;
  xa0; x90; x0a; xe5; x9f; xa7; x0a; xe5;
  xa0; x81; x0a; xe5; xa0; x8c; x0a; xe5;
  x9f; xb1; x0a; xe5; x9f; xa9; x0a; xe5;
  x9f; xb0; x0a; xe5; xa0; x8d; x0a; xe5;
  xa0; x84; x0a; xe5; xa5; x9c; x0a; xe5;
  xa9; xa0; x0a; xe5; xa9; x98; x0a; xe5;
  xa9; x95; x0a; xe5; xa9; xa7; x0a; xe5;
  xa9; x9e; x0a; xe5; xa8; xb8; x0a; xe5;
  xa8; xb5; x0a; xe5; xa9; xad; x0a; xe5;
  xa9; x90; x0a; xe5; xa9; x9f; x0a; xe5;
  xa9; xa5; x0a; xe5; xa9; xac; x0a; xe5;
  xa9; x93; x0a; xe5; xa9; xa4; x0a; xe5;
  xa9; x97; x0a; xe5; xa9; x83; x0a; xe5;
  xa9; x9d; x0a; xe5; xa9; x92; x0a; xe5;
  xa9; x84; x0a; xe5; xa9; x9b; x0a; xe5;
  xa9; x88; x0a; xe5; xaa; x8e; x0a; xe5;
  xa8; xbe; x0a; xe5; xa9; x8d; x0a; xe5;
  xa8; xb9; x0a; xe5; xa9; x8c; x0a; xe5;
  xa9; xb0; x0a; xe5; xa9; xa9; x0a; xe5;
  xa9; x87; x0a; xe5; xa9; x91; x0a; xe5
].
(* tests/test_data/whatwg/big5_whatwg_test_decode_out.txt, entries 49408..49663 *)
Definition big5_decode_out_193 : list byte := [
  xa9; x96; x0a; xe5; xa9; x82; x0a; xe5;
  xa9; x9c; x0a; xe5; xad; xb2; x0a; xe5;
  xad; xae; x0a; xe5; xaf; x81; x0a; xe5;
  xaf; x80; x0a; xe5; xb1; x99; x0a; xe5;
  xb4; x9e; x0a; xe5; xb4; x8b; x0a; xe5;
  xb4; x9d; x0a; xe5; xb4; x9a; x0a; xe5;
  xb4; xa0; x0a; xe5; xb4; x8c; x0a; xe5;
  xb4; xa8; x0a; xe5; xb4; x8d; x0a; xe5;
  xb4; xa6; x0a; xe5; xb4; xa5; x0a; xe5;
  xb4; x8f; x0a; xe5; xb4; xb0; x0a; xe5;
  xb4; x92; x0a; xe5; xb4; xa3; x0a; xe5;
  xb4; x9f; x0a; xe5; xb4; xae; x0a; xe5;
  xb8; xbe; x0a; xe5; xb8; xb4; x0a; xe5;
  xba; xb1; x0a; xe5; xba; xb4; x0a; xe5;
  xba; xb9; x0a; xe5; xba; xb2; x0a; xe5;
  xba; xb3; x0a; xe5; xbc; xb6; x0a; xe5;
  xbc; xb8; x0a; xe5; xbe; x9b; x0a; xe5;
  xbe; x96; x0a; xe5; xbe; x9f; x0a; xe6;
  x82; x8a; x0a; xe6; x82; x90; x0a; xe6;
  x82; x86; x0a; xe6; x82; xbe; x0a; xe6;
  x82; xb0; x0a; xe6; x82; xba; x0a; xe6;
  x83; x93; x0a; xe6; x83; x94; x0a; xe6;
  x83; x8f; x0a; xe6; x83; xa4; x0a; xe6;
  x83; x99; x0a; xe6; x83; x9d; x0a; xe6;
  x83; x88; x0a; xe6; x82; xb1; x0a; xe6;
  x83; x9b; x0a; xe6; x82; xb7; x0a; xe6;
  x83; x8a; x0a; xe6; x82; xbf; x0a; xe6;
  x83; x83; x0a; xe6; x83; x8d; x0a; xe6;
  x83; x80; x0a; xe6; x8c; xb2; x0a; xe6;
  x8d; xa5; x0a; xe6; x8e; x8a; x0a; xe6;
  x8e; x82; x0a; xe6; x8d; xbd; x0a; xe6;
  x8e; xbd; x0a; xe6; x8e; x9e; x0a; xe6
].
(* tests/test_data/whatwg/big5_whatwg_test_decode_out.txt, entries 49664..49919 *)
Definition big5_decode_out_194 : list byte := [
  x8e; xad; x0a; xe6; x8e; x9d; x0a; xe6;
  x8e; x97; x0a; xe6; x8e; xab; x0a; xe6;
  x8e; x8e; x0a; xe6; x8d; xaf; x0a; xe6;
  x8e; x87; x0a; xe6; x8e; x90; x0a; xe6;
  x8d; xae; x0a; xe6; x8e; xaf; x0a; xe6;
  x8d; xb5; x0a; xe6; x8e; x9c; x0a; xe6;
  x8d; xad; x0a; xe6; x8e; xae; x0a; xe6;
  x8d; xbc; x0a; xe6; x8e; xa4; x0a; xe6;
  x8c; xbb; x0a; xe6; x8e; x9f; x0a; xe6;
  x8d; xb8; x0a; xe6; x8e; x85; x0a; xe6;
  x8e; x81; x0a; xe6; x8e; x91; x0a; xe6;
  x8e; x8d; x0a; xe6; x8d; xb0; x0a; xe6;
  x95; x93; x0a; xe6; x97; x8d; x0a; xe6;
  x99; xa5; x0a; xe6; x99; xa1; x0a; xe6;
  x99; x9b; x0a; xe6; x99; x99; x0a; xe6;
  x99; x9c; x0a; xe6; x99; xa2; x0a; xe6;
  x9c; x98; x0a; xe6; xa1; xb9; x0a; xe6;
  xa2; x87; x0a; xe6; xa2; x90; x0a; xe6;
  xa2; x9c; x0a; xe6; xa1; xad; x0a; xe6;
  xa1; xae; x0a; xe6; xa2; xae; x0a; xe6;
  xa2; xab; x0a; xe6; xa5; x96; x0a; xe6;
  xa1; xaf; x0a; xe6; xa2; xa3; x0a; xe6;
  xa2; xac; x0a; xe6; xa2; xa9; x0a; xe6;
  xa1; xb5; x0a; xe6; xa1; xb4; x0a; xe6;
  xa2; xb2; x0a; xe6; xa2; x8f; x0a; xe6;
  xa1; xb7; x0a; xe6; xa2; x92; x0a; xe6;
  xa1; xbc; x0a; xe6; xa1; xab; x0a; xe6;
  xa1; xb2; x0a; xe6; xa2; xaa; x0a; xe6;
  xa2; x80; x0a; xe6; xa1; xb1; x0a; xe6;
  xa1; xbe; x0a; xe6; xa2; x9b; x0a; xe6;
  xa2; x96; x0a; xe6; xa2; x8b; x0a; xe6;
  xa2; xa0; x0a; xe6; xa2; x89; x0a; xe6
].
(* tests/test_data/whatwg/big5_whatwg_test_decode_out.txt, entries 49920..50175 *)
Definition big5_decode_out_195 : list byte := [
  xa2; xa4; x0a; xe6; xa1; xb8; x0a; xe6;
  xa1; xbb; x0a; xe6; xa2; x91; x0a; xe6;
  xa2; x8c; x0a; xe6; xa2; x8a; x0a; xe6;
  xa1; xbd; x0a; xe6; xac; xb6; x0a; xe6;
  xac; xb3; x0a; xe6; xac; xb7; x0a; xe6;
  xac; xb8; x0a; xe6; xae; x91; x0a; xe6;
  xae; x8f; x0a; xe6; xae; x8d; x0a; xe6;
  xae; x8e; x0a; xe6; xae; x8c; x0a; xe6;
  xb0; xaa; x0a; xe6; xb7; x80; x0a; xe6;
  xb6; xab; x0a; xe6; xb6; xb4; x0a; xe6;
  xb6; xb3; x0a; xe6; xb9; xb4; x0a; xe6;
  xb6; xac; x0a; xe6; xb7; xa9; x0a; xe6;
  xb7; xa2; x0a; xe6; xb6; xb7; x0a; xe6;
  xb7; xb6; x0a; xe6; xb7; x94; x0a; xe6;
  xb8; x80; x0a; xe6; xb7; x88; x0a; xe6;
  xb7; xa0; x0a; xe6; xb7; x9f; x0a; xe6;
  xb7; x96; x0a; xe6; xb6; xbe; x0a; xe6;
  xb7; xa5; x0a; xe6; xb7; x9c; x0a; xe6;
  xb7; x9d; x0a; xe6; xb7; x9b; x0a; xe6;
  xb7; xb4; x0a; xe6; xb7; x8a; x0a; xe6;
  xb6; xbd; x0a; xe6; xb7; xad; x0a; xe6;
  xb7; xb0; x0a; xe6; xb6; xba; x0a; xe6;
  xb7; x95; x0a; xe6; xb7; x82; x0a; xe6;
  xb7; x8f; x0a; xe6; xb7; x89; x0a; xe6;
  xb7; x90; x0a; xe6; xb7; xb2; x0a; xe6;
  xb7; x93; x0a; xe6; xb7; xbd; x0a; xe6;
  xb7; x97; x0a; xe6; xb7; x8d; x0a; xe6;
  xb7; xa3; x0a; xe6; xb6; xbb; x0a; xe7;
  x83; xba; x0a; xe7; x84; x8d; x0a; xe7;
  x83; xb7; x0a; xe7; x84; x97; x0a; xe7;
  x83; xb4; x0a; xe7; x84; x8c; x0a; xe7;
  x83; xb0; x0a; xe7; x84; x84; x0a; xe7
].
(* tests/test_data/whatwg/big5_whatwg_test_decode_out.txt, entries 50176..50431 *)
Definition big5_decode_out_196 : list byte := [
  x83; xb3; x0a; xe7; x84; x90; x0a; xe7;
  x83; xbc; x0a; xe7; x83; xbf; x0a; xe7;
  x84; x86; x0a; xe7; x84; x93; x0a; xe7;
  x84; x80; x0a; xe7; x83; xb8; x0a; xe7;
  x83; xb6; x0a; xe7; x84; x8b; x0a; xe7;
  x84; x82; x0a; xe7; x84; x8e; x0a; xe7;
  x89; xbe; x0a; xe7; x89; xbb; x0a; xe7;
  x89; xbc; x0a; xe7; x89; xbf; x0a; xe7;
  x8c; x9d; x0a; xe7; x8c; x97; x0a; xe7;
  x8c; x87; x0a; xe7; x8c; x91; x0a; xe7;
  x8c; x98; x0a; xe7; x8c; x8a; x0a; xe7;
  x8c; x88; x0a; xe7; x8b; xbf; x0a; xe7;
  x8c; x8f; x0a; xe7; x8c; x9e; x0a; xe7;
  x8e; x88; x0a; xe7; x8f; xb6; x0a; xe7;
  x8f; xb8; x0a; xe7; x8f; xb5; x0a; xe7;
  x90; x84; x0a; xe7; x90; x81; x0a; xe7;
  x8f; xbd; x0a; xe7; x90; x87; x0a; xe7;
  x90; x80; x0a; xe7; x8f; xba; x0a; xe7;
  x8f; xbc; x0a; xe7; x8f; xbf; x0a; xe7;
  x90; x8c; x0a; xe7; x90; x8b; x0a; xe7;
  x8f; xb4; x0a; xe7; x90; x88; x0a; xe7;
  x95; xa4; x0a; xe7; x95; xa3; x0a; xe7;
  x97; x8e; x0a; xe7; x97; x92; x0a; xe7;
  x97; x8f; x0a; xe7; x97; x8b; x0a; xe7;
  x97; x8c; x0a; xe7; x97; x91; x0a; xe7;
  x97; x90; x0a; xe7; x9a; x8f; x0a; xe7;
  x9a; x89; x0a; xe7; x9b; x93; x0a; xe7;
  x9c; xb9; x0a; xe7; x9c; xaf; x0a; xe7;
  x9c; xad; x0a; xe7; x9c; xb1; x0a; xe7;
  x9c; xb2; x0a; xe7; x9c; xb4; x0a; xe7;
  x9c; xb3; x0a; xe7; x9c; xbd; x0a; xe7;
  x9c; xa5; x0a; xe7; x9c; xbb; x0a; xe7
].
(* tests/test_data/whatwg/big5_whatwg_test_decode_out.txt, entries 50432..50687 *)
Definition big5_decode_out_197 : list byte := [
  x9c; xb5; x0a; xe7; xa1; x88; x0a; xe7;
  xa1; x92; x0a; xe7; xa1; x89; x0a; xe7;
  xa1; x8d; x0a; xe7; xa1; x8a; x0a; xe7;
  xa1; x8c; x0a; xe7; xa0; xa6; x0a; xe7;
  xa1; x85; x0a; xe7; xa1; x90; x0a; xe7;
  xa5; xa4; x0a; xe7; xa5; xa7; x0a; xe7;
  xa5; xa9; x0a; xe7; xa5; xaa; x0a; xe7;
  xa5; xa3; x0a; xe7; xa5; xab; x0a; xe7;
  xa5; xa1; x0a; xe7; xa6; xbb; x0a; xe7;
  xa7; xba; x0a; xe7; xa7; xb8; x0a; xe7;
  xa7; xb6; x0a; xe7; xa7; xb7; x0a; xe7;
  xaa; x8f; x0a; xe7; xaa; x94; x0a; xe7;
  xaa; x90; x0a; xe7; xac; xb5; x0a; xe7;
  xad; x87; x0a; xe7; xac; xb4; x0a; xe7;
  xac; xa5; x0a; xe7; xac; xb0; x0a; xe7;
  xac; xa2; x0a; xe7; xac; xa4; x0a; xe7;
  xac; xb3; x0a; xe7; xac; x98; x0a; xe7;
  xac; xaa; x0a; xe7; xac; x9d; x0a; xe7;
  xac; xb1; x0a; xe7; xac; xab; x0a; xe7;
  xac; xad; x0a; xe7; xac; xaf; x0a; xe7;
  xac; xb2; x0a; xe7; xac; xb8; x0a; xe7;
  xac; x9a; x0a; xe7; xac; xa3; x0a; xe7;
  xb2; x94; x0a; xe7; xb2; x98; x0a; xe7;
  xb2; x96; x0a; xe7; xb2; xa3; x0a; xe7;
  xb4; xb5; x0a; xe7; xb4; xbd; x0a; xe7;
  xb4; xb8; x0a; xe7; xb4; xb6; x0a; xe7;
  xb4; xba; x0a; xe7; xb5; x85; x0a; xe7;
  xb4; xac; x0a; xe7; xb4; xa9; x0a; xe7;
  xb5; x81; x0a; xe7; xb5; x87; x0a; xe7;
  xb4; xbe; x0a; xe7; xb4; xbf; x0a; xe7;
  xb5; x8a; x0a; xe7; xb4; xbb; x0a; xe7;
  xb4; xa8; x0a; xe7; xbd; xa3; x0a; xe7
].
(* tests/test_data/whatwg/big5_whatwg_test_decode_out.txt, entries 50688..50943 *)
Definition big5_decode_out_198 : list byte := [
  xbe; x95; x0a; xe7; xbe; x9c; x0a; xe7;
  xbe; x9d; x0a; xe7; xbe; x9b; x0a; xe7;
  xbf; x8a; x0a; xe7; xbf; x8b; x0a; xe7;
  xbf; x8d; x0a; xe7; xbf; x90; x0a; xe7;
  xbf; x91; x0a; xe7; xbf; x87; x0a; xe7;
  xbf; x8f; x0a; xe7; xbf; x89; x0a; xe8;
  x80; x9f; x0a; xe8; x80; x9e; x0a; xe8;
  x80; x9b; x0a; xe8; x81; x87; x0a; xe8;
  x81; x83; x0a; xe8; x81; x88; x0a; xe8;
  x84; x98; x0a; xe8; x84; xa5; x0a; xe8;
  x84; x99; x0a; xe8; x84; x9b; x0a; xe8;
  x84; xad; x0a; xe8; x84; x9f; x0a; xe8;
  x84; xac; x0a; xe8; x84; x9e; x0a; xe8;
  x84; xa1; x0a; xe8; x84; x95; x0a; xe8;
  x84; xa7; x0a; xe8; x84; x9d; x0a; xe8;
  x84; xa2; x0a; xe8; x88; x91; x0a; xe8;
  x88; xb8; x0a; xe8; x88; xb3; x0a; xe8;
  x88; xba; x0a; xe8; x88; xb4; x0a; xe8;
  x88; xb2; x0a; xe8; x89; xb4; x0a; xe8;
  x8e; x90; x0a; xe8; x8e; xa3; x0a; xe8;
  x8e; xa8; x0a; xe8; x8e; x8d; x0a; xe8;
  x8d; xba; x0a; xe8; x8d; xb3; x0a; xe8;
  x8e; xa4; x0a; xe8; x8d; xb4; x0a; xe8;
  x8e; x8f; x0a; xe8; x8e; x81; x0a; xe8;
  x8e; x95; x0a; xe8; x8e; x99; x0a; xe8;
  x8d; xb5; x0a; xe8; x8e; x94; x0a; xe8;
  x8e; xa9; x0a; xe8; x8d; xbd; x0a; xe8;
  x8e; x83; x0a; xe8; x8e; x8c; x0a; xe8;
  x8e; x9d; x0a; xe8; x8e; x9b; x0a; xe8;
  x8e; xaa; x0a; xe8; x8e; x8b; x0a; xe8;
  x8d; xbe; x0a; xe8; x8e; xa5; x0a; xe8;
  x8e; xaf; x0a; xe8; x8e; x88; x0a; xe8
].
(* tests/test_data/whatwg/big5_whatwg_test_decode_out.txt, entries 50944..51199 *)
Definition big5_decode_out_199 : list byte := [
  x8e; x97; x0a; xe8; x8e; xb0; x0a; xe8;
  x8d; xbf; x0a; xe8; x8e; xa6; x0a; xe8;
  x8e; x87; x0a; xe8; x8e; xae; x0a; xe8;
  x8d; xb6; x0a; xe8; x8e; x9a; x0a; xe8;
  x99; x99; x0a; xe8; x99; x96; x0a; xe8;
  x9a; xbf; x0a; xe8; x9a; xb7; x0a; xe8;
  x9b; x82; x0a; xe8; x9b; x81; x0a; xe8;
  x9b; x85; x0a; xe8; x9a; xba; x0a; xe8;
  x9a; xb0; x0a; xe8; x9b; x88; x0a; xe8;
  x9a; xb9; x0a; xe8; x9a; xb3; x0a; xe8;
  x9a; xb8; x0a; xe8; x9b; x8c; x0a; xe8;
  x9a; xb4; x0a; xe8; x9a; xbb; x0a; xe8;
  x9a; xbc; x0a; xe8; x9b; x83; x0a; xe8;
  x9a; xbd; x0a; xe8; x9a; xbe; x0a; xe8;
  xa1; x92; x0a; xe8; xa2; x89; x0a; xe8;
  xa2; x95; x0a; xe8; xa2; xa8; x0a; xe8;
  xa2; xa2; x0a; xe8; xa2; xaa; x0a; xe8;
  xa2; x9a; x0a; xe8; xa2; x91; x0a; xe8;
  xa2; xa1; x0a; xe8; xa2; x9f; x0a; xe8;
  xa2; x98; x0a; xe8; xa2; xa7; x0a; xe8;
  xa2; x99; x0a; xe8; xa2; x9b; x0a; xe8;
  xa2; x97; x0a; xe8; xa2; xa4; x0a; xe8;
  xa2; xac; x0a; xe8; xa2; x8c; x0a; xe8;
  xa2; x93; x0a; xe8; xa2; x8e; x0a; xe8;
  xa6; x82; x0a; xe8; xa7; x96; x0a; xe8;
  xa7; x99; x0a; xe8; xa7; x95; x0a; xe8;
  xa8; xb0; x0a; xe8; xa8; xa7; x0a; xe8;
  xa8; xac; x0a; xe8; xa8; x9e; x0a; xe8;
  xb0; xb9; x0a; xe8; xb0; xbb; x0a; xe8;
  xb1; x9c; x0a; xe8; xb1; x9d; x0a; xe8;
  xb1; xbd; x0a; xe8; xb2; xa5; x0a; xe8;
  xb5; xbd; x0a; xe8; xb5; xbb; x0a; xe8
].
(* tests/test_data/whatwg/big5_whatwg_test_decode_out.txt, entries 51200..51455 *)
Definition big5_decode_out_200 : list byte := [
  xb5; xb9; x0a; xe8; xb6; xbc; x0a; xe8;
  xb7; x82; x0a; xe8; xb6; xb9; x0a; xe8;
  xb6; xbf; x0a; xe8; xb7; x81; x0a; xe8;
  xbb; x98; x0a; xe8; xbb; x9e; x0a; xe8;
  xbb; x9d; x0a; xe8; xbb; x9c; x0a; xe8;
  xbb; x97; x0a; xe8; xbb; xa0; x0a; xe8;
  xbb; xa1; x0a; xe9; x80; xa4; x0a; xe9;
  x80; x8b; x0a; xe9; x80; x91; x0a; xe9;
  x80; x9c; x0a; xe9; x80; x8c; x0a; xe9;
  x80; xa1; x0a; xe9; x83; xaf; x0a; xe9;
  x83; xaa; x0a; xe9; x83; xb0; x0a; xe9;
  x83; xb4; x0a; xe9; x83; xb2; x0a; xe9;
  x83; xb3; x0a; xe9; x83; x94; x0a; xe9;
  x83; xab; x0a; xe9; x83; xac; x0a; xe9;
  x83; xa9; x0a; xe9; x85; x96; x0a; xe9;
  x85; x98; x0a; xe9; x85; x9a; x0a; xe9;
  x85; x93; x0a; xe9; x85; x95; x0a; xe9;
  x87; xac; x0a; xe9; x87; xb4; x0a; xe9;
  x87; xb1; x0a; xe9; x87; xb3; x0a; xe9;
  x87; xb8; x0a; xe9; x87; xa4; x0a; xe9;
  x87; xb9; x0a; xe9; x87; xaa; x0a; xe9;
  x87; xab; x0a; xe9; x87; xb7; x0a; xe9;
  x87; xa8; x0a; xe9; x87; xae; x0a; xe9;
  x95; xba; x0a; xe9; x96; x86; x0a; xe9;
  x96; x88; x0a; xe9; x99; xbc; x0a; xe9;
  x99; xad; x0a; xe9; x99; xab; x0a; xe9;
  x99; xb1; x0a; xe9; x99; xaf; x0a; xe9;
  x9a; xbf; x0a; xe9; x9d; xaa; x0a; xe9;
  xa0; x84; x0a; xe9; xa3; xa5; x0a; xe9;
  xa6; x97; x0a; xe5; x82; x9b; x0a; xe5;
  x82; x95; x0a; xe5; x82; x94; x0a; xe5;
  x82; x9e; x0a; xe5; x82; x8b; x0a; xe5
].
(* tests/test_data/whatwg/big5_whatwg_test_decode_out.txt, entries 51456..51711 *)
Definition big5_decode_out_201 : list byte := [
  x82; xa3; x0a; xe5; x82; x83; x0a; xe5;
  x82; x8c; x0a; xe5; x82; x8e; x0a; xe5;
  x82; x9d; x0a; xe5; x81; xa8; x0a; xe5;
  x82; x9c; x0a; xe5; x82; x92; x0a; xe5;
  x82; x82; x0a; xe5; x82; x87; x0a; xe5;
  x85; x9f; x0a; xe5; x87; x94; x0a; xe5;
  x8c; x92; x0a; xe5; x8c; x91; x0a; xe5;
  x8e; xa4; x0a; xe5; x8e; xa7; x0a; xe5;
  x96; x91; x0a; xe5; x96; xa8; x0a; xe5;
  x96; xa5; x0a; xe5; x96; xad; x0a; xe5;
  x95; xb7; x0a; xe5; x99; x85; x0a; xe5;
  x96; xa2; x0a; xe5; x96; x93; x0a; xe5;
  x96; x88; x0a; xe5; x96; x8f; x0a; xe5;
  x96; xb5; x0a; xe5; x96; x81; x0a; xe5;
  x96; xa3; x0a; xe5; x96; x92; x0a; xe5;
  x96; xa4; x0a; xe5; x95; xbd; x0a; xe5;
  x96; x8c; x0a; xe5; x96; xa6; x0a; xe5;
  x95; xbf; x0a; xe5; x96; x95; x0a; xe5;
  x96; xa1; x0a; xe5; x96; x8e; x0a; xe5;
  x9c; x8c; x0a; xe5; xa0; xa9; x0a; xe5;
  xa0; xb7; x0a; xe5; xa0; x99; x0a; xe5;
  xa0; x9e; x0a; xe5; xa0; xa7; x0a; xe5;
  xa0; xa3; x0a; xe5; xa0; xa8; x0a; xe5;
  x9f; xb5; x0a; xe5; xa1; x88; x0a; xe5;
  xa0; xa5; x0a; xe5; xa0; x9c; x0a; xe5;
  xa0; x9b; x0a; xe5; xa0; xb3; x0a; xe5;
  xa0; xbf; x0a; xe5; xa0; xb6; x0a; xe5;
  xa0; xae; x0a; xe5; xa0; xb9; x0a; xe5;
  xa0; xb8; x0a; xe5; xa0; xad; x0a; xe5;
  xa0; xac; x0a; xe5; xa0; xbb; x0a; xe5;
  xa5; xa1; x0a; xe5; xaa; xaf; x0a; xe5;
  xaa; x94; x0a; xe5; xaa; x9f; x0a; xe5
].
(* tests/test_data/whatwg/big5_whatwg_test_decode_out.txt, entries 51712..51967 *)
Definition big5_decode_out_202 : list byte := [
  xa9; xba; x0a; xe5; xaa; xa2; x0a; xe5;
  xaa; x9e; x0a; xe5; xa9; xb8; x0a; xe5;
  xaa; xa6; x0a; xe5; xa9; xbc; x0a; xe5;
  xaa; xa5; x0a; xe5; xaa; xac; x0a; xe5;
  xaa; x95; x0a; xe5; xaa; xae; x0a; xe5;
  xa8; xb7; x0a; xe5; xaa; x84; x0a; xe5;
  xaa; x8a; x0a; xe5; xaa; x97; x0a; xe5;
  xaa; x83; x0a; xe5; xaa; x8b; x0a; xe5;
  xaa; xa9; x0a; xe5; xa9; xbb; x0a; xe5;
  xa9; xbd; x0a; xe5; xaa; x8c; x0a; xe5;
  xaa; x9c; x0a; xe5; xaa; x8f; x0a; xe5;
  xaa; x93; x0a; xe5; xaa; x9d; x0a; xe5;
  xaf; xaa; x0a; xe5; xaf; x8d; x0a; xe5;
  xaf; x8b; x0a; xe5; xaf; x94; x0a; xe5;
  xaf; x91; x0a; xe5; xaf; x8a; x0a; xe5;
  xaf; x8e; x0a; xe5; xb0; x8c; x0a; xe5;
  xb0; xb0; x0a; xe5; xb4; xb7; x0a; xe5;
  xb5; x83; x0a; xe5; xb5; xab; x0a; xe5;
  xb5; x81; x0a; xe5; xb5; x8b; x0a; xe5;
  xb4; xbf; x0a; xe5; xb4; xb5; x0a; xe5;
  xb5; x91; x0a; xe5; xb5; x8e; x0a; xe5;
  xb5; x95; x0a; xe5; xb4; xb3; x0a; xe5;
  xb4; xba; x0a; xe5; xb5; x92; x0a; xe5;
  xb4; xbd; x0a; xe5; xb4; xb1; x0a; xe5;
  xb5; x99; x0a; xe5; xb5; x82; x0a; xe5;
  xb4; xb9; x0a; xe5; xb5; x89; x0a; xe5;
  xb4; xb8; x0a; xe5; xb4; xbc; x0a; xe5;
  xb4; xb2; x0a; xe5; xb4; xb6; x0a; xe5;
  xb5; x80; x0a; xe5; xb5; x85; x0a; xe5;
  xb9; x84; x0a; xe5; xb9; x81; x0a; xe5;
  xbd; x98; x0a; xe5; xbe; xa6; x0a; xe5;
  xbe; xa5; x0a; xe5; xbe; xab; x0a; xe6
].
(* tests/test_data/whatwg/big5_whatwg_test_decode_out.txt, entries 51968..52223 *)
Definition big5_decode_out_203 : list byte := [
  x83; x89; x0a; xe6; x82; xb9; x0a; xe6;
  x83; x8c; x0a; xe6; x83; xa2; x0a; xe6;
  x83; x8e; x0a; xe6; x83; x84; x0a; xe6;
  x84; x94; x0a; xe6; x83; xb2; x0a; xe6;
  x84; x8a; x0a; xe6; x84; x96; x0a; xe6;
  x84; x85; x0a; xe6; x83; xb5; x0a; xe6;
  x84; x93; x0a; xe6; x83; xb8; x0a; xe6;
  x83; xbc; x0a; xe6; x83; xbe; x0a; xe6;
  x83; x81; x0a; xe6; x84; x83; x0a; xe6;
  x84; x98; x0a; xe6; x84; x9d; x0a; xe6;
  x84; x90; x0a; xe6; x83; xbf; x0a; xe6;
  x84; x84; x0a; xe6; x84; x8b; x0a; xe6;
  x89; x8a; x0a; xe6; x8e; x94; x0a; xe6;
  x8e; xb1; x0a; xe6; x8e; xb0; x0a; xe6;
  x8f; x8e; x0a; xe6; x8f; xa5; x0a; xe6;
  x8f; xa8; x0a; xe6; x8f; xaf; x0a; xe6;
  x8f; x83; x0a; xe6; x92; x9d; x0a; xe6;
  x8f; xb3; x0a; xe6; x8f; x8a; x0a; xe6;
  x8f; xa0; x0a; xe6; x8f; xb6; x0a; xe6;
  x8f; x95; x0a; xe6; x8f; xb2; x0a; xe6;
  x8f; xb5; x0a; xe6; x91; xa1; x0a; xe6;
  x8f; x9f; x0a; xe6; x8e; xbe; x0a; xe6;
  x8f; x9d; x0a; xe6; x8f; x9c; x0a; xe6;
  x8f; x84; x0a; xe6; x8f; x98; x0a; xe6;
  x8f; x93; x0a; xe6; x8f; x82; x0a; xe6;
  x8f; x87; x0a; xe6; x8f; x8c; x0a; xe6;
  x8f; x8b; x0a; xe6; x8f; x88; x0a; xe6;
  x8f; xb0; x0a; xe6; x8f; x97; x0a; xe6;
  x8f; x99; x0a; xe6; x94; xb2; x0a; xe6;
  x95; xa7; x0a; xe6; x95; xaa; x0a; xe6;
  x95; xa4; x0a; xe6; x95; x9c; x0a; xe6;
  x95; xa8; x0a; xe6; x95; xa5; x0a; xe6
].
(* tests/test_data/whatwg/big5_whatwg_test_decode_out.txt, entries 52224..52479 *)
Definition big5_decode_out_204 : list byte := [
  x96; x8c; x0a; xe6; x96; x9d; x0a; xe6;
  x96; x9e; x0a; xe6; x96; xae; x0a; xe6;
  x97; x90; x0a; xe6; x97; x92; x0a; xe6;
  x99; xbc; x0a; xe6; x99; xac; x0a; xe6;
  x99; xbb; x0a; xe6; x9a; x80; x0a; xe6;
  x99; xb1; x0a; xe6; x99; xb9; x0a; xe6;
  x99; xaa; x0a; xe6; x99; xb2; x0a; xe6;
  x9c; x81; x0a; xe6; xa4; x8c; x0a; xe6;
  xa3; x93; x0a; xe6; xa4; x84; x0a; xe6;
  xa3; x9c; x0a; xe6; xa4; xaa; x0a; xe6;
  xa3; xac; x0a; xe6; xa3; xaa; x0a; xe6;
  xa3; xb1; x0a; xe6; xa4; x8f; x0a; xe6;
  xa3; x96; x0a; xe6; xa3; xb7; x0a; xe6;
  xa3; xab; x0a; xe6; xa3; xa4; x0a; xe6;
  xa3; xb6; x0a; xe6; xa4; x93; x0a; xe6;
  xa4; x90; x0a; xe6; xa3; xb3; x0a; xe6;
  xa3; xa1; x0a; xe6; xa4; x87; x0a; xe6;
  xa3; x8c; x0a; xe6; xa4; x88; x0a; xe6;
  xa5; xb0; x0a; xe6; xa2; xb4; x0a; xe6;
  xa4; x91; x0a; xe6; xa3; xaf; x0a; xe6;
  xa3; x86; x0a; xe6; xa4; x94; x0a; xe6;
  xa3; xb8; x0a; xe6; xa3; x90; x0a; xe6;
  xa3; xbd; x0a; xe6; xa3; xbc; x0a; xe6;
  xa3; xa8; x0a; xe6; xa4; x8b; x0a; xe6;
  xa4; x8a; x0a; xe6; xa4; x97; x0a; xe6;
  xa3; x8e; x0a; xe6; xa3; x88; x0a; xe6;
  xa3; x9d; x0a; xe6; xa3; x9e; x0a; xe6;
  xa3; xa6; x0a; xe6; xa3; xb4; x0a; xe6;
  xa3; x91; x0a; xe6; xa4; x86; x0a; xe6;
  xa3; x94; x0a; xe6; xa3; xa9; x0a; xe6;
  xa4; x95; x0a; xe6; xa4; xa5; x0a; xe6;
  xa3; x87; x0a; xe6; xac; xb9; x0a; xe6
].
(* tests/test_data/whatwg/big5_whatwg_test_decode_out.txt, entries 52480..52735 *)
Definition big5_decode_out_205 : list byte := [
  xac; xbb; x0a; xe6; xac; xbf; x0a; xe6;
  xac; xbc; x0a; xe6; xae; x94; x0a; xe6;
  xae; x97; x0a; xe6; xae; x99; x0a; xe6;
  xae; x95; x0a; xe6; xae; xbd; x0a; xe6;
  xaf; xb0; x0a; xe6; xaf; xb2; x0a; xe6;
  xaf; xb3; x0a; xe6; xb0; xb0; x0a; xe6;
  xb7; xbc; x0a; xe6; xb9; x86; x0a; xe6;
  xb9; x87; x0a; xe6; xb8; x9f; x0a; xe6;
  xb9; x89; x0a; xe6; xba; x88; x0a; xe6;
  xb8; xbc; x0a; xe6; xb8; xbd; x0a; xe6;
  xb9; x85; x0a; xe6; xb9; xa2; x0a; xe6;
  xb8; xab; x0a; xe6; xb8; xbf; x0a; xe6;
  xb9; x81; x0a; xe6; xb9; x9d; x0a; xe6;
  xb9; xb3; x0a; xe6; xb8; x9c; x0a; xe6;
  xb8; xb3; x0a; xe6; xb9; x8b; x0a; xe6;
  xb9; x80; x0a; xe6; xb9; x91; x0a; xe6;
  xb8; xbb; x0a; xe6; xb8; x83; x0a; xe6;
  xb8; xae; x0a; xe6; xb9; x9e; x0a; xe6;
  xb9; xa8; x0a; xe6; xb9; x9c; x0a; xe6;
  xb9; xa1; x0a; xe6; xb8; xb1; x0a; xe6;
  xb8; xa8; x0a; xe6; xb9; xa0; x0a; xe6;
  xb9; xb1; x0a; xe6; xb9; xab; x0a; xe6;
  xb8; xb9; x0a; xe6; xb8; xa2; x0a; xe6;
  xb8; xb0; x0a; xe6; xb9; x93; x0a; xe6;
  xb9; xa5; x0a; xe6; xb8; xa7; x0a; xe6;
  xb9; xb8; x0a; xe6; xb9; xa4; x0a; xe6;
  xb9; xb7; x0a; xe6; xb9; x95; x0a; xe6;
  xb9; xb9; x0a; xe6; xb9; x92; x0a; xe6;
  xb9; xa6; x0a; xe6; xb8; xb5; x0a; xe6;
  xb8; xb6; x0a; xe6; xb9; x9a; x0a; xe7;
  x84; xa0; x0a; xe7; x84; x9e; x0a; xe7;
  x84; xaf; x0a; xe7; x83; xbb; x0a; xe7
].
(* tests/test_data/whatwg/big5_whatwg_test_decode_out.txt, entries 52736..52991 *)
Definition big5_decode_out_206 : list byte := [
  x84; xae; x0a; xe7; x84; xb1; x0a; xe7;
  x84; xa3; x0a; xe7; x84; xa5; x0a; xe7;
  x84; xa2; x0a; xe7; x84; xb2; x0a; xe7;
  x84; x9f; x0a; xe7; x84; xa8; x0a; xe7;
  x84; xba; x0a; xe7; x84; x9b; x0a; xe7;
  x89; x8b; x0a; xe7; x89; x9a; x0a; xe7;
  x8a; x88; x0a; xe7; x8a; x89; x0a; xe7;
  x8a; x86; x0a; xe7; x8a; x85; x0a; xe7;
  x8a; x8b; x0a; xe7; x8c; x92; x0a; xe7;
  x8c; x8b; x0a; xe7; x8c; xb0; x0a; xe7;
  x8c; xa2; x0a; xe7; x8c; xb1; x0a; xe7;
  x8c; xb3; x0a; xe7; x8c; xa7; x0a; xe7;
  x8c; xb2; x0a; xe7; x8c; xad; x0a; xe7;
  x8c; xa6; x0a; xe7; x8c; xa3; x0a; xe7;
  x8c; xb5; x0a; xe7; x8c; x8c; x0a; xe7;
  x90; xae; x0a; xe7; x90; xac; x0a; xe7;
  x90; xb0; x0a; xe7; x90; xab; x0a; xe7;
  x90; x96; x0a; xe7; x90; x9a; x0a; xe7;
  x90; xa1; x0a; xe7; x90; xad; x0a; xe7;
  x90; xb1; x0a; xe7; x90; xa4; x0a; xe7;
  x90; xa3; x0a; xe7; x90; x9d; x0a; xe7;
  x90; xa9; x0a; xe7; x90; xa0; x0a; xe7;
  x90; xb2; x0a; xe7; x93; xbb; x0a; xe7;
  x94; xaf; x0a; xe7; x95; xaf; x0a; xe7;
  x95; xac; x0a; xe7; x97; xa7; x0a; xe7;
  x97; x9a; x0a; xe7; x97; xa1; x0a; xe7;
  x97; xa6; x0a; xe7; x97; x9d; x0a; xe7;
  x97; x9f; x0a; xe7; x97; xa4; x0a; xe7;
  x97; x97; x0a; xe7; x9a; x95; x0a; xe7;
  x9a; x92; x0a; xe7; x9b; x9a; x0a; xe7;
  x9d; x86; x0a; xe7; x9d; x87; x0a; xe7;
  x9d; x84; x0a; xe7; x9d; x8d; x0a; xe7
].
(* tests/test_data/whatwg/big5_whatwg_test_decode_out.txt, entries 52992..53247 *)
Definition big5_decode_out_207 : list byte := [
  x9d; x85; x0a; xe7; x9d; x8a; x0a; xe7;
  x9d; x8e; x0a; xe7; x9d; x8b; x0a; xe7;
  x9d; x8c; x0a; xe7; x9f; x9e; x0a; xe7;
  x9f; xac; x0a; xe7; xa1; xa0; x0a; xe7;
  xa1; xa4; x0a; xe7; xa1; xa5; x0a; xe7;
  xa1; x9c; x0a; xe7; xa1; xad; x0a; xe7;
  xa1; xb1; x0a; xe7; xa1; xaa; x0a; xe7;
  xa1; xae; x0a; xe7; xa1; xb0; x0a; xe7;
  xa1; xa9; x0a; xe7; xa1; xa8; x0a; xe7;
  xa1; x9e; x0a; xe7; xa1; xa2; x0a; xe7;
  xa5; xb4; x0a; xe7; xa5; xb3; x0a; xe7;
  xa5; xb2; x0a; xe7; xa5; xb0; x0a; xe7;
  xa8; x82; x0a; xe7; xa8; x8a; x0a; xe7;
  xa8; x83; x0a; xe7; xa8; x8c; x0a; xe7;
  xa8; x84; x0a; xe7; xaa; x99; x0a; xe7;
  xab; xa6; x0a; xe7; xab; xa4; x0a; xe7;
  xad; x8a; x0a; xe7; xac; xbb; x0a; xe7;
  xad; x84; x0a; xe7; xad; x88; x0a; xe7;
  xad; x8c; x0a; xe7; xad; x8e; x0a; xe7;
  xad; x80; x0a; xe7; xad; x98; x0a; xe7;
  xad; x85; x0a; xe7; xb2; xa2; x0a; xe7;
  xb2; x9e; x0a; xe7; xb2; xa8; x0a; xe7;
  xb2; xa1; x0a; xe7; xb5; x98; x0a; xe7;
  xb5; xaf; x0a; xe7; xb5; xa3; x0a; xe7;
  xb5; x93; x0a; xe7; xb5; x96; x0a; xe7;
  xb5; xa7; x0a; xe7; xb5; xaa; x0a; xe7;
  xb5; x8f; x0a; xe7; xb5; xad; x0a; xe7;
  xb5; x9c; x0a; xe7; xb5; xab; x0a; xe7;
  xb5; x92; x0a; xe7; xb5; x94; x0a; xe7;
  xb5; xa9; x0a; xe7; xb5; x91; x0a; xe7;
  xb5; x9f; x0a; xe7; xb5; x8e; x0a; xe7;
  xbc; xbe; x0a; xe7; xbc; xbf; x0a; xe7
].
(* tests/test_data/whatwg/big5_whatwg_test_decode_out.txt, entries 53248..53503 *)
Definition big5_decode_out_208 : list byte := [
  xbd; xa5; x0a; xe7; xbd; xa6; x0a; xe7;
  xbe; xa2; x0a; xe7; xbe; xa0; x0a; xe7;
  xbe; xa1; x0a; xe7; xbf; x97; x0a; xe8;
  x81; x91; x0a; xe8; x81; x8f; x0a; xe8;
  x81; x90; x0a; xe8; x83; xbe; x0a; xe8;
  x83; x94; x0a; xe8; x85; x83; x0a; xe8;
  x85; x8a; x0a; xe8; x85; x92; x0a; xe8;
  x85; x8f; x0a; xe8; x85; x87; x0a; xe8;
  x84; xbd; x0a; xe8; x85; x8d; x0a; xe8;
  x84; xba; x0a; xe8; x87; xa6; x0a; xe8;
  x87; xae; x0a; xe8; x87; xb7; x0a; xe8;
  x87; xb8; x0a; xe8; x87; xb9; x0a; xe8;
  x88; x84; x0a; xe8; x88; xbc; x0a; xe8;
  x88; xbd; x0a; xe8; x88; xbf; x0a; xe8;
  x89; xb5; x0a; xe8; x8c; xbb; x0a; xe8;
  x8f; x8f; x0a; xe8; x8f; xb9; x0a; xe8;
  x90; xa3; x0a; xe8; x8f; x80; x0a; xe8;
  x8f; xa8; x0a; xe8; x90; x92; x0a; xe8;
  x8f; xa7; x0a; xe8; x8f; xa4; x0a; xe8;
  x8f; xbc; x0a; xe8; x8f; xb6; x0a; xe8;
  x90; x90; x0a; xe8; x8f; x86; x0a; xe8;
  x8f; x88; x0a; xe8; x8f; xab; x0a; xe8;
  x8f; xa3; x0a; xe8; x8e; xbf; x0a; xe8;
  x90; x81; x0a; xe8; x8f; x9d; x0a; xe8;
  x8f; xa5; x0a; xe8; x8f; x98; x0a; xe8;
  x8f; xbf; x0a; xe8; x8f; xa1; x0a; xe8;
  x8f; x8b; x0a; xe8; x8f; x8e; x0a; xe8;
  x8f; x96; x0a; xe8; x8f; xb5; x0a; xe8;
  x8f; x89; x0a; xe8; x90; x89; x0a; xe8;
  x90; x8f; x0a; xe8; x8f; x9e; x0a; xe8;
  x90; x91; x0a; xe8; x90; x86; x0a; xe8;
  x8f; x82; x0a; xe8; x8f; xb3; x0a; xe8
].
(* tests/test_data/whatwg/big5_whatwg_test_decode_out.txt, entries 53504..53759 *)
Definition big5_decode_out_209 : list byte := [
  x8f; x95; x0a; xe8; x8f; xba; x0a; xe8;
  x8f; x87; x0a; xe8; x8f; x91; x0a; xe8;
  x8f; xaa; x0a; xe8; x90; x93; x0a; xe8;
  x8f; x83; x0a; xe8; x8f; xac; x0a; xe8;
  x8f; xae; x0a; xe8; x8f; x84; x0a; xe8;
  x8f; xbb; x0a; xe8; x8f; x97; x0a; xe8;
  x8f; xa2; x0a; xe8; x90; x9b; x0a; xe8;
  x8f; x9b; x0a; xe8; x8f; xbe; x0a; xe8;
  x9b; x98; x0a; xe8; x9b; xa2; x0a; xe8;
  x9b; xa6; x0a; xe8; x9b; x93; x0a; xe8;
  x9b; xa3; x0a; xe8; x9b; x9a; x0a; xe8;
  x9b; xaa; x0a; xe8; x9b; x9d; x0a; xe8;
  x9b; xab; x0a; xe8; x9b; x9c; x0a; xe8;
  x9b; xac; x0a; xe8; x9b; xa9; x0a; xe8;
  x9b; x97; x0a; xe8; x9b; xa8; x0a; xe8;
  x9b; x91; x0a; xe8; xa1; x88; x0a; xe8;
  xa1; x96; x0a; xe8; xa1; x95; x0a; xe8;
  xa2; xba; x0a; xe8; xa3; x97; x0a; xe8;
  xa2; xb9; x0a; xe8; xa2; xb8; x0a; xe8;
  xa3; x80; x0a; xe8; xa2; xbe; x0a; xe8;
  xa2; xb6; x0a; xe8; xa2; xbc; x0a; xe8;
  xa2; xb7; x0a; xe8; xa2; xbd; x0a; xe8;
  xa2; xb2; x0a; xe8; xa4; x81; x0a; xe8;
  xa3; x89; x0a; xe8; xa6; x95; x0a; xe8;
  xa6; x98; x0a; xe8; xa6; x97; x0a; xe8;
  xa7; x9d; x0a; xe8; xa7; x9a; x0a; xe8;
  xa7; x9b; x0a; xe8; xa9; x8e; x0a; xe8;
  xa9; x8d; x0a; xe8; xa8; xb9; x0a; xe8;
  xa9; x99; x0a; xe8; xa9; x80; x0a; xe8;
  xa9; x97; x0a; xe8; xa9; x98; x0a; xe8;
  xa9; x84; x0a; xe8; xa9; x85; x0a; xe8;
  xa9; x92; x0a; xe8; xa9; x88; x0a; xe8
].
(* tests/test_data/whatwg/big5_whatwg_test_decode_out.txt, entries 53760..54015 *)
Definition big5_decode_out_210 : list byte := [
  xa9; x91; x0a; xe8; xa9; x8a; x0a; xe8;
  xa9; x8c; x0a; xe8; xa9; x8f; x0a; xe8;
  xb1; x9f; x0a; xe8; xb2; x81; x0a; xe8;
  xb2; x80; x0a; xe8; xb2; xba; x0a; xe8;
  xb2; xbe; x0a; xe8; xb2; xb0; x0a; xe8;
  xb2; xb9; x0a; xe8; xb2; xb5; x0a; xe8;
  xb6; x84; x0a; xe8; xb6; x80; x0a; xe8;
  xb6; x89; x0a; xe8; xb7; x98; x0a; xe8;
  xb7; x93; x0a; xe8; xb7; x8d; x0a; xe8;
  xb7; x87; x0a; xe8; xb7; x96; x0a; xe8;
  xb7; x9c; x0a; xe8; xb7; x8f; x0a; xe8;
  xb7; x95; x0a; xe8; xb7; x99; x0a; xe8;
  xb7; x88; x0a; xe8; xb7; x97; x0a; xe8;
  xb7; x85; x0a; xe8; xbb; xaf; x0a; xe8;
  xbb; xb7; x0a; xe8; xbb; xba; x0a; xe8;
  xbb; xb9; x0a; xe8; xbb; xa6; x0a; xe8;
  xbb; xae; x0a; xe8; xbb; xa5; x0a; xe8;
  xbb; xb5; x0a; xe8; xbb; xa7; x0a; xe8;
  xbb; xa8; x0a; xe8; xbb; xb6; x0a; xe8;
  xbb; xab; x0a; xe8; xbb; xb1; x0a; xe8;
  xbb; xac; x0a; xe8; xbb; xb4; x0a; xe8;
  xbb; xa9; x0a; xe9; x80; xad; x0a; xe9;
  x80; xb4; x0a; xe9; x80; xaf; x0a; xe9;
  x84; x86; x0a; xe9; x84; xac; x0a; xe9;
  x84; x84; x0a; xe9; x83; xbf; x0a; xe9;
  x83; xbc; x0a; xe9; x84; x88; x0a; xe9;
  x83; xb9; x0a; xe9; x83; xbb; x0a; xe9;
  x84; x81; x0a; xe9; x84; x80; x0a; xe9;
  x84; x87; x0a; xe9; x84; x85; x0a; xe9;
  x84; x83; x0a; xe9; x85; xa1; x0a; xe9;
  x85; xa4; x0a; xe9; x85; x9f; x0a; xe9;
  x85; xa2; x0a; xe9; x85; xa0; x0a; xe9
].
(* tests/test_data/whatwg/big5_whatwg_test_decode_out.txt, entries 54016..54271 *)
Definition big5_decode_out_211 : list byte := [
  x88; x81; x0a; xe9; x88; x8a; x0a; xe9;
  x88; xa5; x0a; xe9; x88; x83; x0a; xe9;
  x88; x9a; x0a; xe9; x88; xa6; x0a; xe9;
  x88; x8f; x0a; xe9; x88; x8c; x0a; xe9;
  x88; x80; x0a; xe9; x88; x92; x0a; xe9;
  x87; xbf; x0a; xe9; x87; xbd; x0a; xe9;
  x88; x86; x0a; xe9; x88; x84; x0a; xe9;
  x88; xa7; x0a; xe9; x88; x82; x0a; xe9;
  x88; x9c; x0a; xe9; x88; xa4; x0a; xe9;
  x88; x99; x0a; xe9; x88; x97; x0a; xe9;
  x88; x85; x0a; xe9; x88; x96; x0a; xe9;
  x95; xbb; x0a; xe9; x96; x8d; x0a; xe9;
  x96; x8c; x0a; xe9; x96; x90; x0a; xe9;
  x9a; x87; x0a; xe9; x99; xbe; x0a; xe9;
  x9a; x88; x0a; xe9; x9a; x89; x0a; xe9;
  x9a; x83; x0a; xe9; x9a; x80; x0a; xe9;
  x9b; x82; x0a; xe9; x9b; x88; x0a; xe9;
  x9b; x83; x0a; xe9; x9b; xb1; x0a; xe9;
  x9b; xb0; x0a; xe9; x9d; xac; x0a; xe9;
  x9d; xb0; x0a; xe9; x9d; xae; x0a; xe9;
  xa0; x87; x0a; xe9; xa2; xa9; x0a; xe9;
  xa3; xab; x0a; xe9; xb3; xa6; x0a; xe9;
  xbb; xb9; x0a; xe4; xba; x83; x0a; xe4;
  xba; x84; x0a; xe4; xba; xb6; x0a; xe5;
  x82; xbd; x0a; xe5; x82; xbf; x0a; xe5;
  x83; x86; x0a; xe5; x82; xae; x0a; xe5;
  x83; x84; x0a; xe5; x83; x8a; x0a; xe5;
  x82; xb4; x0a; xe5; x83; x88; x0a; xe5;
  x83; x82; x0a; xe5; x82; xb0; x0a; xe5;
  x83; x81; x0a; xe5; x82; xba; x0a; xe5;
  x82; xb1; x0a; xe5; x83; x8b; x0a; xe5;
  x83; x89; x0a; xe5; x82; xb6; x0a; xe5
].
(* tests/test_data/whatwg/big5_whatwg_test_decode_out.txt, entries 54272..54527 *)
Definition big5_decode_out_212 : list byte := [
  x82; xb8; x0a; xe5; x87; x97; x0a; xe5;
  x89; xba; x0a; xe5; x89; xb8; x0a; xe5;
  x89; xbb; x0a; xe5; x89; xbc; x0a; xe5;
  x97; x83; x0a; xe5; x97; x9b; x0a; xe5;
  x97; x8c; x0a; xe5; x97; x90; x0a; xe5;
  x97; x8b; x0a; xe5; x97; x8a; x0a; xe5;
  x97; x9d; x0a; xe5; x97; x80; x0a; xe5;
  x97; x94; x0a; xe5; x97; x84; x0a; xe5;
  x97; xa9; x0a; xe5; x96; xbf; x0a; xe5;
  x97; x92; x0a; xe5; x96; x8d; x0a; xe5;
  x97; x8f; x0a; xe5; x97; x95; x0a; xe5;
  x97; xa2; x0a; xe5; x97; x96; x0a; xe5;
  x97; x88; x0a; xe5; x97; xb2; x0a; xe5;
  x97; x8d; x0a; xe5; x97; x99; x0a; xe5;
  x97; x82; x0a; xe5; x9c; x94; x0a; xe5;
  xa1; x93; x0a; xe5; xa1; xa8; x0a; xe5;
  xa1; xa4; x0a; xe5; xa1; x8f; x0a; xe5;
  xa1; x8d; x0a; xe5; xa1; x89; x0a; xe5;
  xa1; xaf; x0a; xe5; xa1; x95; x0a; xe5;
  xa1; x8e; x0a; xe5; xa1; x9d; x0a; xe5;
  xa1; x99; x0a; xe5; xa1; xa5; x0a; xe5;
  xa1; x9b; x0a; xe5; xa0; xbd; x0a; xe5;
  xa1; xa3; x0a; xe5; xa1; xb1; x0a; xe5;
  xa3; xbc; x0a; xe5; xab; x87; x0a; xe5;
  xab; x84; x0a; xe5; xab; x8b; x0a; xe5;
  xaa; xba; x0a; xe5; xaa; xb8; x0a; xe5;
  xaa; xb1; x0a; xe5; xaa; xb5; x0a; xe5;
  xaa; xb0; x0a; xe5; xaa; xbf; x0a; xe5;
  xab; x88; x0a; xe5; xaa; xbb; x0a; xe5;
  xab; x86; x0a; xe5; xaa; xb7; x0a; xe5;
  xab; x80; x0a; xe5; xab; x8a; x0a; xe5;
  xaa; xb4; x0a; xe5; xaa; xb6; x0a; xe5
].
(* tests/test_data/whatwg/big5_whatwg_test_decode_out.txt, entries 54528..54783 *)
Definition big5_decode_out_213 : list byte := [
  xab; x8d; x0a; xe5; xaa; xb9; x0a; xe5;
  xaa; x90; x0a; xe5; xaf; x96; x0a; xe5;
  xaf; x98; x0a; xe5; xaf; x99; x0a; xe5;
  xb0; x9f; x0a; xe5; xb0; xb3; x0a; xe5;
  xb5; xb1; x0a; xe5; xb5; xa3; x0a; xe5;
  xb5; x8a; x0a; xe5; xb5; xa5; x0a; xe5;
  xb5; xb2; x0a; xe5; xb5; xac; x0a; xe5;
  xb5; x9e; x0a; xe5; xb5; xa8; x0a; xe5;
  xb5; xa7; x0a; xe5; xb5; xa2; x0a; xe5;
  xb7; xb0; x0a; xe5; xb9; x8f; x0a; xe5;
  xb9; x8e; x0a; xe5; xb9; x8a; x0a; xe5;
  xb9; x8d; x0a; xe5; xb9; x8b; x0a; xe5;
  xbb; x85; x0a; xe5; xbb; x8c; x0a; xe5;
  xbb; x86; x0a; xe5; xbb; x8b; x0a; xe5;
  xbb; x87; x0a; xe5; xbd; x80; x0a; xe5;
  xbe; xaf; x0a; xe5; xbe; xad; x0a; xe6;
  x83; xb7; x0a; xe6; x85; x89; x0a; xe6;
  x85; x8a; x0a; xe6; x84; xab; x0a; xe6;
  x85; x85; x0a; xe6; x84; xb6; x0a; xe6;
  x84; xb2; x0a; xe6; x84; xae; x0a; xe6;
  x85; x86; x0a; xe6; x84; xaf; x0a; xe6;
  x85; x8f; x0a; xe6; x84; xa9; x0a; xe6;
  x85; x80; x0a; xe6; x88; xa0; x0a; xe9;
  x85; xa8; x0a; xe6; x88; xa3; x0a; xe6;
  x88; xa5; x0a; xe6; x88; xa4; x0a; xe6;
  x8f; x85; x0a; xe6; x8f; xb1; x0a; xe6;
  x8f; xab; x0a; xe6; x90; x90; x0a; xe6;
  x90; x92; x0a; xe6; x90; x89; x0a; xe6;
  x90; xa0; x0a; xe6; x90; xa4; x0a; xe6;
  x90; xb3; x0a; xe6; x91; x83; x0a; xe6;
  x90; x9f; x0a; xe6; x90; x95; x0a; xe6;
  x90; x98; x0a; xe6; x90; xb9; x0a; xe6
].
(* tests/test_data/whatwg/big5_whatwg_test_decode_out.txt, entries 54784..55039 *)
Definition big5_decode_out_214 : list byte := [
  x90; xb7; x0a; xe6; x90; xa2; x0a; xe6;
  x90; xa3; x0a; xe6; x90; x8c; x0a; xe6;
  x90; xa6; x0a; xe6; x90; xb0; x0a; xe6;
  x90; xa8; x0a; xe6; x91; x81; x0a; xe6;
  x90; xb5; x0a; xe6; x90; xaf; x0a; xe6;
  x90; x8a; x0a; xe6; x90; x9a; x0a; xe6;
  x91; x80; x0a; xe6; x90; xa5; x0a; xe6;
  x90; xa7; x0a; xe6; x90; x8b; x0a; xe6;
  x8f; xa7; x0a; xe6; x90; x9b; x0a; xe6;
  x90; xae; x0a; xe6; x90; xa1; x0a; xe6;
  x90; x8e; x0a; xe6; x95; xaf; x0a; xe6;
  x96; x92; x0a; xe6; x97; x93; x0a; xe6;
  x9a; x86; x0a; xe6; x9a; x8c; x0a; xe6;
  x9a; x95; x0a; xe6; x9a; x90; x0a; xe6;
  x9a; x8b; x0a; xe6; x9a; x8a; x0a; xe6;
  x9a; x99; x0a; xe6; x9a; x94; x0a; xe6;
  x99; xb8; x0a; xe6; x9c; xa0; x0a; xe6;
  xa5; xa6; x0a; xe6; xa5; x9f; x0a; xe6;
  xa4; xb8; x0a; xe6; xa5; x8e; x0a; xe6;
  xa5; xa2; x0a; xe6; xa5; xb1; x0a; xe6;
  xa4; xbf; x0a; xe6; xa5; x85; x0a; xe6;
  xa5; xaa; x0a; xe6; xa4; xb9; x0a; xe6;
  xa5; x82; x0a; xe6; xa5; x97; x0a; xe6;
  xa5; x99; x0a; xe6; xa5; xba; x0a; xe6;
  xa5; x88; x0a; xe6; xa5; x89; x0a; xe6;
  xa4; xb5; x0a; xe6; xa5; xac; x0a; xe6;
  xa4; xb3; x0a; xe6; xa4; xbd; x0a; xe6;
  xa5; xa5; x0a; xe6; xa3; xb0; x0a; xe6;
  xa5; xb8; x0a; xe6; xa4; xb4; x0a; xe6;
  xa5; xa9; x0a; xe6; xa5; x80; x0a; xe6;
  xa5; xaf; x0a; xe6; xa5; x84; x0a; xe6;
  xa5; xb6; x0a; xe6; xa5; x98; x0a; xe6
].
(* tests/test_data/whatwg/big5_whatwg_test_decode_out.txt, entries 55040..55295 *)
Definition big5_decode_out_215 : list byte := [
  xa5; x81; x0a; xe6; xa5; xb4; x0a; xe6;
  xa5; x8c; x0a; xe6; xa4; xbb; x0a; xe6;
  xa5; x8b; x0a; xe6; xa4; xb7; x0a; xe6;
  xa5; x9c; x0a; xe6; xa5; x8f; x0a; xe6;
  xa5; x91; x0a; xe6; xa4; xb2; x0a; xe6;
  xa5; x92; x0a; xe6; xa4; xaf; x0a; xe6;
  xa5; xbb; x0a; xe6; xa4; xbc; x0a; xe6;
  xad; x86; x0a; xe6; xad; x85; x0a; xe6;
  xad; x83; x0a; xe6; xad; x82; x0a; xe6;
  xad; x88; x0a; xe6; xad; x81; x0a; xe6;
  xae; x9b; x0a; xef; xa8; x8d; x0a; xe6;
  xaf; xbb; x0a; xe6; xaf; xbc; x0a; xe6;
  xaf; xb9; x0a; xe6; xaf; xb7; x0a; xe6;
  xaf; xb8; x0a; xe6; xba; x9b; x0a; xe6;
  xbb; x96; x0a; xe6; xbb; x88; x0a; xe6;
  xba; x8f; x0a; xe6; xbb; x80; x0a; xe6;
  xba; x9f; x0a; xe6; xba; x93; x0a; xe6;
  xba; x94; x0a; xe6; xba; xa0; x0a; xe6;
  xba; xb1; x0a; xe6; xba; xb9; x0a; xe6;
  xbb; x86; x0a; xe6; xbb; x92; x0a; xe6;
  xba; xbd; x0a; xe6; xbb; x81; x0a; xe6;
  xba; x9e; x0a; xe6; xbb; x89; x0a; xe6;
  xba; xb7; x0a; xe6; xba; xb0; x0a; xe6;
  xbb; x8d; x0a; xe6; xba; xa6; x0a; xe6;
  xbb; x8f; x0a; xe6; xba; xb2; x0a; xe6;
  xba; xbe; x0a; xe6; xbb; x83; x0a; xe6;
  xbb; x9c; x0a; xe6; xbb; x98; x0a; xe6;
  xba; x99; x0a; xe6; xba; x92; x0a; xe6;
  xba; x8e; x0a; xe6; xba; x8d; x0a; xe6;
  xba; xa4; x0a; xe6; xba; xa1; x0a; xe6;
  xba; xbf; x0a; xe6; xba; xb3; x0a; xe6;
  xbb; x90; x0a; xe6; xbb; x8a; x0a; xe6
].
(* tests/test_data/whatwg/big5_whatwg_test_decode_out.txt, entries 55296..55551 *)
Definition big5_decode_out_216 : list byte := [
  xba; x97; x0a; xe6; xba; xae; x0a; xe6;
  xba; xa3; x0a; xe7; x85; x87; x0a; xe7;
  x85; x94; x0a; xe7; x85; x92; x0a; xe7;
  x85; xa3; x0a; xe7; x85; xa0; x0a; xe7;
  x85; x81; x0a; xe7; x85; x9d; x0a; xe7;
  x85; xa2; x0a; xe7; x85; xb2; x0a; xe7;
  x85; xb8; x0a; xe7; x85; xaa; x0a; xe7;
  x85; xa1; x0a; xe7; x85; x82; x0a; xe7;
  x85; x98; x0a; xe7; x85; x83; x0a; xe7;
  x85; x8b; x0a; xe7; x85; xb0; x0a; xe7;
  x85; x9f; x0a; xe7; x85; x90; x0a; xe7;
  x85; x93; x0a; xe7; x85; x84; x0a; xe7;
  x85; x8d; x0a; xe7; x85; x9a; x0a; xe7;
  x89; x8f; x0a; xe7; x8a; x8d; x0a; xe7;
  x8a; x8c; x0a; xe7; x8a; x91; x0a; xe7;
  x8a; x90; x0a; xe7; x8a; x8e; x0a; xe7;
  x8c; xbc; x0a; xe7; x8d; x82; x0a; xe7;
  x8c; xbb; x0a; xe7; x8c; xba; x0a; xe7;
  x8d; x80; x0a; xe7; x8d; x8a; x0a; xe7;
  x8d; x89; x0a; xe7; x91; x84; x0a; xe7;
  x91; x8a; x0a; xe7; x91; x8b; x0a; xe7;
  x91; x92; x0a; xe7; x91; x91; x0a; xe7;
  x91; x97; x0a; xe7; x91; x80; x0a; xe7;
  x91; x8f; x0a; xe7; x91; x90; x0a; xe7;
  x91; x8e; x0a; xe7; x91; x82; x0a; xe7;
  x91; x86; x0a; xe7; x91; x8d; x0a; xe7;
  x91; x94; x0a; xe7; x93; xa1; x0a; xe7;
  x93; xbf; x0a; xe7; x93; xbe; x0a; xe7;
  x93; xbd; x0a; xe7; x94; x9d; x0a; xe7;
  x95; xb9; x0a; xe7; x95; xb7; x0a; xe6;
  xa6; x83; x0a; xe7; x97; xaf; x0a; xe7;
  x98; x8f; x0a; xe7; x98; x83; x0a; xe7
].
(* tests/test_data/whatwg/big5_whatwg_test_decode_out.txt, entries 55552..55807 *)
Definition big5_decode_out_217 : list byte := [
  x97; xb7; x0a; xe7; x97; xbe; x0a; xe7;
  x97; xbc; x0a; xe7; x97; xb9; x0a; xe7;
  x97; xb8; x0a; xe7; x98; x90; x0a; xe7;
  x97; xbb; x0a; xe7; x97; xb6; x0a; xe7;
  x97; xad; x0a; xe7; x97; xb5; x0a; xe7;
  x97; xbd; x0a; xe7; x9a; x99; x0a; xe7;
  x9a; xb5; x0a; xe7; x9b; x9d; x0a; xe7;
  x9d; x95; x0a; xe7; x9d; x9f; x0a; xe7;
  x9d; xa0; x0a; xe7; x9d; x92; x0a; xe7;
  x9d; x96; x0a; xe7; x9d; x9a; x0a; xe7;
  x9d; xa9; x0a; xe7; x9d; xa7; x0a; xe7;
  x9d; x94; x0a; xe7; x9d; x99; x0a; xe7;
  x9d; xad; x0a; xe7; x9f; xa0; x0a; xe7;
  xa2; x87; x0a; xe7; xa2; x9a; x0a; xe7;
  xa2; x94; x0a; xe7; xa2; x8f; x0a; xe7;
  xa2; x84; x0a; xe7; xa2; x95; x0a; xe7;
  xa2; x85; x0a; xe7; xa2; x86; x0a; xe7;
  xa2; xa1; x0a; xe7; xa2; x83; x0a; xe7;
  xa1; xb9; x0a; xe7; xa2; x99; x0a; xe7;
  xa2; x80; x0a; xe7; xa2; x96; x0a; xe7;
  xa1; xbb; x0a; xe7; xa5; xbc; x0a; xe7;
  xa6; x82; x0a; xe7; xa5; xbd; x0a; xe7;
  xa5; xb9; x0a; xe7; xa8; x91; x0a; xe7;
  xa8; x98; x0a; xe7; xa8; x99; x0a; xe7;
  xa8; x92; x0a; xe7; xa8; x97; x0a; xe7;
  xa8; x95; x0a; xe7; xa8; xa2; x0a; xe7;
  xa8; x93; x0a; xe7; xa8; x9b; x0a; xe7;
  xa8; x90; x0a; xe7; xaa; xa3; x0a; xe7;
  xaa; xa2; x0a; xe7; xaa; x9e; x0a; xe7;
  xab; xab; x0a; xe7; xad; xa6; x0a; xe7;
  xad; xa4; x0a; xe7; xad; xad; x0a; xe7;
  xad; xb4; x0a; xe7; xad; xa9; x0a; xe7
].
(* tests/test_data/whatwg/big5_whatwg_test_decode_out.txt, entries 55808..56063 *)
Definition big5_decode_out_218 : list byte := [
  xad; xb2; x0a; xe7; xad; xa5; x0a; xe7;
  xad; xb3; x0a; xe7; xad; xb1; x0a; xe7;
  xad; xb0; x0a; xe7; xad; xa1; x0a; xe7;
  xad; xb8; x0a; xe7; xad; xb6; x0a; xe7;
  xad; xa3; x0a; xe7; xb2; xb2; x0a; xe7;
  xb2; xb4; x0a; xe7; xb2; xaf; x0a; xe7;
  xb6; x88; x0a; xe7; xb6; x86; x0a; xe7;
  xb6; x80; x0a; xe7; xb6; x8d; x0a; xe7;
  xb5; xbf; x0a; xe7; xb6; x85; x0a; xe7;
  xb5; xba; x0a; xe7; xb6; x8e; x0a; xe7;
  xb5; xbb; x0a; xe7; xb6; x83; x0a; xe7;
  xb5; xbc; x0a; xe7; xb6; x8c; x0a; xe7;
  xb6; x94; x0a; xe7; xb6; x84; x0a; xe7;
  xb5; xbd; x0a; xe7; xb6; x92; x0a; xe7;
  xbd; xad; x0a; xe7; xbd; xab; x0a; xe7;
  xbd; xa7; x0a; xe7; xbd; xa8; x0a; xe7;
  xbd; xac; x0a; xe7; xbe; xa6; x0a; xe7;
  xbe; xa5; x0a; xe7; xbe; xa7; x0a; xe7;
  xbf; x9b; x0a; xe7; xbf; x9c; x0a; xe8;
  x80; xa1; x0a; xe8; x85; xa4; x0a; xe8;
  x85; xa0; x0a; xe8; x85; xb7; x0a; xe8;
  x85; x9c; x0a; xe8; x85; xa9; x0a; xe8;
  x85; x9b; x0a; xe8; x85; xa2; x0a; xe8;
  x85; xb2; x0a; xe6; x9c; xa1; x0a; xe8;
  x85; x9e; x0a; xe8; x85; xb6; x0a; xe8;
  x85; xa7; x0a; xe8; x85; xaf; x0a; xe8;
  x85; x84; x0a; xe8; x85; xa1; x0a; xe8;
  x88; x9d; x0a; xe8; x89; x89; x0a; xe8;
  x89; x84; x0a; xe8; x89; x80; x0a; xe8;
  x89; x82; x0a; xe8; x89; x85; x0a; xe8;
  x93; xb1; x0a; xe8; x90; xbf; x0a; xe8;
  x91; x96; x0a; xe8; x91; xb6; x0a; xe8
].
(* tests/test_data/whatwg/big5_whatwg_test_decode_out.txt, entries 56064..56319 *)
Definition big5_decode_out_219 : list byte := [
  x91; xb9; x0a; xe8; x92; x8f; x0a; xe8;
  x92; x8d; x0a; xe8; x91; xa5; x0a; xe8;
  x91; x91; x0a; xe8; x91; x80; x0a; xe8;
  x92; x86; x0a; xe8; x91; xa7; x0a; xe8;
  x90; xb0; x0a; xe8; x91; x8d; x0a; xe8;
  x91; xbd; x0a; xe8; x91; x9a; x0a; xe8;
  x91; x99; x0a; xe8; x91; xb4; x0a; xe8;
  x91; xb3; x0a; xe8; x91; x9d; x0a; xe8;
  x94; x87; x0a; xe8; x91; x9e; x0a; xe8;
  x90; xb7; x0a; xe8; x90; xba; x0a; xe8;
  x90; xb4; x0a; xe8; x91; xba; x0a; xe8;
  x91; x83; x0a; xe8; x91; xb8; x0a; xe8;
  x90; xb2; x0a; xe8; x91; x85; x0a; xe8;
  x90; xa9; x0a; xe8; x8f; x99; x0a; xe8;
  x91; x8b; x0a; xe8; x90; xaf; x0a; xe8;
  x91; x82; x0a; xe8; x90; xad; x0a; xe8;
  x91; x9f; x0a; xe8; x91; xb0; x0a; xe8;
  x90; xb9; x0a; xe8; x91; x8e; x0a; xe8;
  x91; x8c; x0a; xe8; x91; x92; x0a; xe8;
  x91; xaf; x0a; xe8; x93; x85; x0a; xe8;
  x92; x8e; x0a; xe8; x90; xbb; x0a; xe8;
  x91; x87; x0a; xe8; x90; xb6; x0a; xe8;
  x90; xb3; x0a; xe8; x91; xa8; x0a; xe8;
  x91; xbe; x0a; xe8; x91; x84; x0a; xe8;
  x90; xab; x0a; xe8; x91; xa0; x0a; xe8;
  x91; x94; x0a; xe8; x91; xae; x0a; xe8;
  x91; x90; x0a; xe8; x9c; x8b; x0a; xe8;
  x9c; x84; x0a; xe8; x9b; xb7; x0a; xe8;
  x9c; x8c; x0a; xe8; x9b; xba; x0a; xe8;
  x9b; x96; x0a; xe8; x9b; xb5; x0a; xe8;
  x9d; x8d; x0a; xe8; x9b; xb8; x0a; xe8;
  x9c; x8e; x0a; xe8; x9c; x89; x0a; xe8
].
(* tests/test_data/whatwg/big5_whatwg_test_decode_out.txt, entries 56320..56575 *)
Definition big5_decode_out_220 : list byte := [
  x9c; x81; x0a; xe8; x9b; xb6; x0a; xe8;
  x9c; x8d; x0a; xe8; x9c; x85; x0a; xe8;
  xa3; x96; x0a; xe8; xa3; x8b; x0a; xe8;
  xa3; x8d; x0a; xe8; xa3; x8e; x0a; xe8;
  xa3; x9e; x0a; xe8; xa3; x9b; x0a; xe8;
  xa3; x9a; x0a; xe8; xa3; x8c; x0a; xe8;
  xa3; x90; x0a; xe8; xa6; x85; x0a; xe8;
  xa6; x9b; x0a; xe8; xa7; x9f; x0a; xe8;
  xa7; xa5; x0a; xe8; xa7; xa4; x0a; xe8;
  xa7; xa1; x0a; xe8; xa7; xa0; x0a; xe8;
  xa7; xa2; x0a; xe8; xa7; x9c; x0a; xe8;
  xa7; xa6; x0a; xe8; xa9; xb6; x0a; xe8;
  xaa; x86; x0a; xe8; xa9; xbf; x0a; xe8;
  xa9; xa1; x0a; xe8; xa8; xbf; x0a; xe8;
  xa9; xb7; x0a; xe8; xaa; x82; x0a; xe8;
  xaa; x84; x0a; xe8; xa9; xb5; x0a; xe8;
  xaa; x83; x0a; xe8; xaa; x81; x0a; xe8;
  xa9; xb4; x0a; xe8; xa9; xba; x0a; xe8;
  xb0; xbc; x0a; xe8; xb1; x8b; x0a; xe8;
  xb1; x8a; x0a; xe8; xb1; xa5; x0a; xe8;
  xb1; xa4; x0a; xe8; xb1; xa6; x0a; xe8;
  xb2; x86; x0a; xe8; xb2; x84; x0a; xe8;
  xb2; x85; x0a; xe8; xb3; x8c; x0a; xe8;
  xb5; xa8; x0a; xe8; xb5; xa9; x0a; xe8;
  xb6; x91; x0a; xe8; xb6; x8c; x0a; xe8;
  xb6; x8e; x0a; xe8; xb6; x8f; x0a; xe8;
  xb6; x8d; x0a; xe8; xb6; x93; x0a; xe8;
  xb6; x94; x0a; xe8; xb6; x90; x0a; xe8;
  xb6; x92; x0a; xe8; xb7; xb0; x0a; xe8;
  xb7; xa0; x0a; xe8; xb7; xac; x0a; xe8;
  xb7; xb1; x0a; xe8; xb7; xae; x0a; xe8;
  xb7; x90; x0a; xe8; xb7; xa9; x0a; xe8
].
(* tests/test_data/whatwg/big5_whatwg_test_decode_out.txt, entries 56576..56831 *)
Definition big5_decode_out_221 : list byte := [
  xb7; xa3; x0a; xe8; xb7; xa2; x0a; xe8;
  xb7; xa7; x0a; xe8; xb7; xb2; x0a; xe8;
  xb7; xab; x0a; xe8; xb7; xb4; x0a; xe8;
  xbc; x86; x0a; xe8; xbb; xbf; x0a; xe8;
  xbc; x81; x0a; xe8; xbc; x80; x0a; xe8;
  xbc; x85; x0a; xe8; xbc; x87; x0a; xe8;
  xbc; x88; x0a; xe8; xbc; x82; x0a; xe8;
  xbc; x8b; x0a; xe9; x81; x92; x0a; xe9;
  x80; xbf; x0a; xe9; x81; x84; x0a; xe9;
  x81; x89; x0a; xe9; x80; xbd; x0a; xe9;
  x84; x90; x0a; xe9; x84; x8d; x0a; xe9;
  x84; x8f; x0a; xe9; x84; x91; x0a; xe9;
  x84; x96; x0a; xe9; x84; x94; x0a; xe9;
  x84; x8b; x0a; xe9; x84; x8e; x0a; xe9;
  x85; xae; x0a; xe9; x85; xaf; x0a; xe9;
  x89; x88; x0a; xe9; x89; x92; x0a; xe9;
  x88; xb0; x0a; xe9; x88; xba; x0a; xe9;
  x89; xa6; x0a; xe9; x88; xb3; x0a; xe9;
  x89; xa5; x0a; xe9; x89; x9e; x0a; xe9;
  x8a; x83; x0a; xe9; x88; xae; x0a; xe9;
  x89; x8a; x0a; xe9; x89; x86; x0a; xe9;
  x89; xad; x0a; xe9; x89; xac; x0a; xe9;
  x89; x8f; x0a; xe9; x89; xa0; x0a; xe9;
  x89; xa7; x0a; xe9; x89; xaf; x0a; xe9;
  x88; xb6; x0a; xe9; x89; xa1; x0a; xe9;
  x89; xb0; x0a; xe9; x88; xb1; x0a; xe9;
  x89; x94; x0a; xe9; x89; xa3; x0a; xe9;
  x89; x90; x0a; xe9; x89; xb2; x0a; xe9;
  x89; x8e; x0a; xe9; x89; x93; x0a; xe9;
  x89; x8c; x0a; xe9; x89; x96; x0a; xe9;
  x88; xb2; x0a; xe9; x96; x9f; x0a; xe9;
  x96; x9c; x0a; xe9; x96; x9e; x0a; xe9
].
(* tests/test_data/whatwg/big5_whatwg_test_decode_out.txt, entries 56832..57087 *)
Definition big5_decode_out_222 : list byte := [
  x96; x9b; x0a; xe9; x9a; x92; x0a; xe9;
  x9a; x93; x0a; xe9; x9a; x91; x0a; xe9;
  x9a; x97; x0a; xe9; x9b; x8e; x0a; xe9;
  x9b; xba; x0a; xe9; x9b; xbd; x0a; xe9;
  x9b; xb8; x0a; xe9; x9b; xb5; x0a; xe9;
  x9d; xb3; x0a; xe9; x9d; xb7; x0a; xe9;
  x9d; xb8; x0a; xe9; x9d; xb2; x0a; xe9;
  xa0; x8f; x0a; xe9; xa0; x8d; x0a; xe9;
  xa0; x8e; x0a; xe9; xa2; xac; x0a; xe9;
  xa3; xb6; x0a; xe9; xa3; xb9; x0a; xe9;
  xa6; xaf; x0a; xe9; xa6; xb2; x0a; xe9;
  xa6; xb0; x0a; xe9; xa6; xb5; x0a; xe9;
  xaa; xad; x0a; xe9; xaa; xab; x0a; xe9;
  xad; x9b; x0a; xe9; xb3; xaa; x0a; xe9;
  xb3; xad; x0a; xe9; xb3; xa7; x0a; xe9;
  xba; x80; x0a; xe9; xbb; xbd; x0a; xe5;
  x83; xa6; x0a; xe5; x83; x94; x0a; xe5;
  x83; x97; x0a; xe5; x83; xa8; x0a; xe5;
  x83; xb3; x0a; xe5; x83; x9b; x0a; xe5;
  x83; xaa; x0a; xe5; x83; x9d; x0a; xe5;
  x83; xa4; x0a; xe5; x83; x93; x0a; xe5;
  x83; xac; x0a; xe5; x83; xb0; x0a; xe5;
  x83; xaf; x0a; xe5; x83; xa3; x0a; xe5;
  x83; xa0; x0a; xe5; x87; x98; x0a; xe5;
  x8a; x80; x0a; xe5; x8a; x81; x0a; xe5;
  x8b; xa9; x0a; xe5; x8b; xab; x0a; xe5;
  x8c; xb0; x0a; xe5; x8e; xac; x0a; xe5;
  x98; xa7; x0a; xe5; x98; x95; x0a; xe5;
  x98; x8c; x0a; xe5; x98; x92; x0a; xe5;
  x97; xbc; x0a; xe5; x98; x8f; x0a; xe5;
  x98; x9c; x0a; xe5; x98; x81; x0a; xe5;
  x98; x93; x0a; xe5; x98; x82; x0a; xe5
].
(* tests/test_data/whatwg/big5_whatwg_test_decode_out.txt, entries 57088..57343 *)
Definition big5_decode_out_223 : list byte := [
  x97; xba; x0a; xe5; x98; x9d; x0a; xe5;
  x98; x84; x0a; xe5; x97; xbf; x0a; xe5;
  x97; xb9; x0a; xe5; xa2; x89; x0a; xe5;
  xa1; xbc; x0a; xe5; xa2; x90; x0a; xe5;
  xa2; x98; x0a; xe5; xa2; x86; x0a; xe5;
  xa2; x81; x0a; xe5; xa1; xbf; x0a; xe5;
  xa1; xb4; x0a; xe5; xa2; x8b; x0a; xe5;
  xa1; xba; x0a; xe5; xa2; x87; x0a; xe5;
  xa2; x91; x0a; xe5; xa2; x8e; x0a; xe5;
  xa1; xb6; x0a; xe5; xa2; x82; x0a; xe5;
  xa2; x88; x0a; xe5; xa1; xbb; x0a; xe5;
  xa2; x94; x0a; xe5; xa2; x8f; x0a; xe5;
  xa3; xbe; x0a; xe5; xa5; xab; x0a; xe5;
  xab; x9c; x0a; xe5; xab; xae; x0a; xe5;
  xab; xa5; x0a; xe5; xab; x95; x0a; xe5;
  xab; xaa; x0a; xe5; xab; x9a; x0a; xe5;
  xab; xad; x0a; xe5; xab; xab; x0a; xe5;
  xab; xb3; x0a; xe5; xab; xa2; x0a; xe5;
  xab; xa0; x0a; xe5; xab; x9b; x0a; xe5;
  xab; xac; x0a; xe5; xab; x9e; x0a; xe5;
  xab; x9d; x0a; xe5; xab; x99; x0a; xe5;
  xab; xa8; x0a; xe5; xab; x9f; x0a; xe5;
  xad; xb7; x0a; xe5; xaf; xa0; x0a; xe5;
  xaf; xa3; x0a; xe5; xb1; xa3; x0a; xe5;
  xb6; x82; x0a; xe5; xb6; x80; x0a; xe5;
  xb5; xbd; x0a; xe5; xb6; x86; x0a; xe5;
  xb5; xba; x0a; xe5; xb6; x81; x0a; xe5;
  xb5; xb7; x0a; xe5; xb6; x8a; x0a; xe5;
  xb6; x89; x0a; xe5; xb6; x88; x0a; xe5;
  xb5; xbe; x0a; xe5; xb5; xbc; x0a; xe5;
  xb6; x8d; x0a; xe5; xb5; xb9; x0a; xe5;
  xb5; xbf; x0a; xe5; xb9; x98; x0a; xe5
].
(* tests/test_data/whatwg/big5_whatwg_test_decode_out.txt, entries 57344..57599 *)
Definition big5_decode_out_224 : list byte := [
  xb9; x99; x0a; xe5; xb9; x93; x0a; xe5;
  xbb; x98; x0a; xe5; xbb; x91; x0a; xe5;
  xbb; x97; x0a; xe5; xbb; x8e; x0a; xe5;
  xbb; x9c; x0a; xe5; xbb; x95; x0a; xe5;
  xbb; x99; x0a; xe5; xbb; x92; x0a; xe5;
  xbb; x94; x0a; xe5; xbd; x84; x0a; xe5;
  xbd; x83; x0a; xe5; xbd; xaf; x0a; xe5;
  xbe; xb6; x0a; xe6; x84; xac; x0a; xe6;
  x84; xa8; x0a; xe6; x85; x81; x0a; xe6;
  x85; x9e; x0a; xe6; x85; xb1; x0a; xe6;
  x85; xb3; x0a; xe6; x85; x92; x0a; xe6;
  x85; x93; x0a; xe6; x85; xb2; x0a; xe6;
  x85; xac; x0a; xe6; x86; x80; x0a; xe6;
  x85; xb4; x0a; xe6; x85; x94; x0a; xe6;
  x85; xba; x0a; xe6; x85; x9b; x0a; xe6;
  x85; xa5; x0a; xe6; x84; xbb; x0a; xe6;
  x85; xaa; x0a; xe6; x85; xa1; x0a; xe6;
  x85; x96; x0a; xe6; x88; xa9; x0a; xe6;
  x88; xa7; x0a; xe6; x88; xab; x0a; xe6;
  x90; xab; x0a; xe6; x91; x8d; x0a; xe6;
  x91; x9b; x0a; xe6; x91; x9d; x0a; xe6;
  x91; xb4; x0a; xe6; x91; xb6; x0a; xe6;
  x91; xb2; x0a; xe6; x91; xb3; x0a; xe6;
  x91; xbd; x0a; xe6; x91; xb5; x0a; xe6;
  x91; xa6; x0a; xe6; x92; xa6; x0a; xe6;
  x91; x8e; x0a; xe6; x92; x82; x0a; xe6;
  x91; x9e; x0a; xe6; x91; x9c; x0a; xe6;
  x91; x8b; x0a; xe6; x91; x93; x0a; xe6;
  x91; xa0; x0a; xe6; x91; x90; x0a; xe6;
  x91; xbf; x0a; xe6; x90; xbf; x0a; xe6;
  x91; xac; x0a; xe6; x91; xab; x0a; xe6;
  x91; x99; x0a; xe6; x91; xa5; x0a; xe6
].
(* tests/test_data/whatwg/big5_whatwg_test_decode_out.txt, entries 57600..57855 *)
Definition big5_decode_out_225 : list byte := [
  x91; xb7; x0a; xe6; x95; xb3; x0a; xe6;
  x96; xa0; x0a; xe6; x9a; xa1; x0a; xe6;
  x9a; xa0; x0a; xe6; x9a; x9f; x0a; xe6;
  x9c; x85; x0a; xe6; x9c; x84; x0a; xe6;
  x9c; xa2; x0a; xe6; xa6; xb1; x0a; xe6;
  xa6; xb6; x0a; xe6; xa7; x89; x0a; xe6;
  xa6; xa0; x0a; xe6; xa7; x8e; x0a; xe6;
  xa6; x96; x0a; xe6; xa6; xb0; x0a; xe6;
  xa6; xac; x0a; xe6; xa6; xbc; x0a; xe6;
  xa6; x91; x0a; xe6; xa6; x99; x0a; xe6;
  xa6; x8e; x0a; xe6; xa6; xa7; x0a; xe6;
  xa6; x8d; x0a; xe6; xa6; xa9; x0a; xe6;
  xa6; xbe; x0a; xe6; xa6; xaf; x0a; xe6;
  xa6; xbf; x0a; xe6; xa7; x84; x0a; xe6;
  xa6; xbd; x0a; xe6; xa6; xa4; x0a; xe6;
  xa7; x94; x0a; xe6; xa6; xb9; x0a; xe6;
  xa7; x8a; x0a; xe6; xa6; x9a; x0a; xe6;
  xa7; x8f; x0a; xe6; xa6; xb3; x0a; xe6;
  xa6; x93; x0a; xe6; xa6; xaa; x0a; xe6;
  xa6; xa1; x0a; xe6; xa6; x9e; x0a; xe6;
  xa7; x99; x0a; xe6; xa6; x97; x0a; xe6;
  xa6; x90; x0a; xe6; xa7; x82; x0a; xe6;
  xa6; xb5; x0a; xe6; xa6; xa5; x0a; xe6;
  xa7; x86; x0a; xe6; xad; x8a; x0a; xe6;
  xad; x8d; x0a; xe6; xad; x8b; x0a; xe6;
  xae; x9e; x0a; xe6; xae; x9f; x0a; xe6;
  xae; xa0; x0a; xe6; xaf; x83; x0a; xe6;
  xaf; x84; x0a; xe6; xaf; xbe; x0a; xe6;
  xbb; x8e; x0a; xe6; xbb; xb5; x0a; xe6;
  xbb; xb1; x0a; xe6; xbc; x83; x0a; xe6;
  xbc; xa5; x0a; xe6; xbb; xb8; x0a; xe6;
  xbc; xb7; x0a; xe6; xbb; xbb; x0a; xe6
].
(* tests/test_data/whatwg/big5_whatwg_test_decode_out.txt, entries 57856..58111 *)
Definition big5_decode_out_226 : list byte := [
  xbc; xae; x0a; xe6; xbc; x89; x0a; xe6;
  xbd; x8e; x0a; xe6; xbc; x99; x0a; xe6;
  xbc; x9a; x0a; xe6; xbc; xa7; x0a; xe6;
  xbc; x98; x0a; xe6; xbc; xbb; x0a; xe6;
  xbc; x92; x0a; xe6; xbb; xad; x0a; xe6;
  xbc; x8a; x0a; xe6; xbc; xb6; x0a; xe6;
  xbd; xb3; x0a; xe6; xbb; xb9; x0a; xe6;
  xbb; xae; x0a; xe6; xbc; xad; x0a; xe6;
  xbd; x80; x0a; xe6; xbc; xb0; x0a; xe6;
  xbc; xbc; x0a; xe6; xbc; xb5; x0a; xe6;
  xbb; xab; x0a; xe6; xbc; x87; x0a; xe6;
  xbc; x8e; x0a; xe6; xbd; x83; x0a; xe6;
  xbc; x85; x0a; xe6; xbb; xbd; x0a; xe6;
  xbb; xb6; x0a; xe6; xbc; xb9; x0a; xe6;
  xbc; x9c; x0a; xe6; xbb; xbc; x0a; xe6;
  xbc; xba; x0a; xe6; xbc; x9f; x0a; xe6;
  xbc; x8d; x0a; xe6; xbc; x9e; x0a; xe6;
  xbc; x88; x0a; xe6; xbc; xa1; x0a; xe7;
  x86; x87; x0a; xe7; x86; x90; x0a; xe7;
  x86; x89; x0a; xe7; x86; x80; x0a; xe7;
  x86; x85; x0a; xe7; x86; x82; x0a; xe7;
  x86; x8f; x0a; xe7; x85; xbb; x0a; xe7;
  x86; x86; x0a; xe7; x86; x81; x0a; xe7;
  x86; x97; x0a; xe7; x89; x84; x0a; xe7;
  x89; x93; x0a; xe7; x8a; x97; x0a; xe7;
  x8a; x95; x0a; xe7; x8a; x93; x0a; xe7;
  x8d; x83; x0a; xe7; x8d; x8d; x0a; xe7;
  x8d; x91; x0a; xe7; x8d; x8c; x0a; xe7;
  x91; xa2; x0a; xe7; x91; xb3; x0a; xe7;
  x91; xb1; x0a; xe7; x91; xb5; x0a; xe7;
  x91; xb2; x0a; xe7; x91; xa7; x0a; xe7;
  x91; xae; x0a; xe7; x94; x80; x0a; xe7
].
(* tests/test_data/whatwg/big5_whatwg_test_decode_out.txt, entries 58112..58367 *)
Definition big5_decode_out_227 : list byte := [
  x94; x82; x0a; xe7; x94; x83; x0a; xe7;
  x95; xbd; x0a; xe7; x96; x90; x0a; xe7;
  x98; x96; x0a; xe7; x98; x88; x0a; xe7;
  x98; x8c; x0a; xe7; x98; x95; x0a; xe7;
  x98; x91; x0a; xe7; x98; x8a; x0a; xe7;
  x98; x94; x0a; xe7; x9a; xb8; x0a; xe7;
  x9e; x81; x0a; xe7; x9d; xbc; x0a; xe7;
  x9e; x85; x0a; xe7; x9e; x82; x0a; xe7;
  x9d; xae; x0a; xe7; x9e; x80; x0a; xe7;
  x9d; xaf; x0a; xe7; x9d; xbe; x0a; xe7;
  x9e; x83; x0a; xe7; xa2; xb2; x0a; xe7;
  xa2; xaa; x0a; xe7; xa2; xb4; x0a; xe7;
  xa2; xad; x0a; xe7; xa2; xa8; x0a; xe7;
  xa1; xbe; x0a; xe7; xa2; xab; x0a; xe7;
  xa2; x9e; x0a; xe7; xa2; xa5; x0a; xe7;
  xa2; xa0; x0a; xe7; xa2; xac; x0a; xe7;
  xa2; xa2; x0a; xe7; xa2; xa4; x0a; xe7;
  xa6; x98; x0a; xe7; xa6; x8a; x0a; xe7;
  xa6; x8b; x0a; xe7; xa6; x96; x0a; xe7;
  xa6; x95; x0a; xe7; xa6; x94; x0a; xe7;
  xa6; x93; x0a; xe7; xa6; x97; x0a; xe7;
  xa6; x88; x0a; xe7; xa6; x92; x0a; xe7;
  xa6; x90; x0a; xe7; xa8; xab; x0a; xe7;
  xa9; x8a; x0a; xe7; xa8; xb0; x0a; xe7;
  xa8; xaf; x0a; xe7; xa8; xa8; x0a; xe7;
  xa8; xa6; x0a; xe7; xaa; xa8; x0a; xe7;
  xaa; xab; x0a; xe7; xaa; xac; x0a; xe7;
  xab; xae; x0a; xe7; xae; x88; x0a; xe7;
  xae; x9c; x0a; xe7; xae; x8a; x0a; xe7;
  xae; x91; x0a; xe7; xae; x90; x0a; xe7;
  xae; x96; x0a; xe7; xae; x8d; x0a; xe7;
  xae; x8c; x0a; xe7; xae; x9b; x0a; xe7
].
(* tests/test_data/whatwg/big5_whatwg_test_decode_out.txt, entries 58368..58623 *)
Definition big5_decode_out_228 : list byte := [
  xae; x8e; x0a; xe7; xae; x85; x0a; xe7;
  xae; x98; x0a; xe5; x8a; x84; x0a; xe7;
  xae; x99; x0a; xe7; xae; xa4; x0a; xe7;
  xae; x82; x0a; xe7; xb2; xbb; x0a; xe7;
  xb2; xbf; x0a; xe7; xb2; xbc; x0a; xe7;
  xb2; xba; x0a; xe7; xb6; xa7; x0a; xe7;
  xb6; xb7; x0a; xe7; xb7; x82; x0a; xe7;
  xb6; xa3; x0a; xe7; xb6; xaa; x0a; xe7;
  xb7; x81; x0a; xe7; xb7; x80; x0a; xe7;
  xb7; x85; x0a; xe7; xb6; x9d; x0a; xe7;
  xb7; x8e; x0a; xe7; xb7; x84; x0a; xe7;
  xb7; x86; x0a; xe7; xb7; x8b; x0a; xe7;
  xb7; x8c; x0a; xe7; xb6; xaf; x0a; xe7;
  xb6; xb9; x0a; xe7; xb6; x96; x0a; xe7;
  xb6; xbc; x0a; xe7; xb6; x9f; x0a; xe7;
  xb6; xa6; x0a; xe7; xb6; xae; x0a; xe7;
  xb6; xa9; x0a; xe7; xb6; xa1; x0a; xe7;
  xb7; x89; x0a; xe7; xbd; xb3; x0a; xe7;
  xbf; xa2; x0a; xe7; xbf; xa3; x0a; xe7;
  xbf; xa5; x0a; xe7; xbf; x9e; x0a; xe8;
  x80; xa4; x0a; xe8; x81; x9d; x0a; xe8;
  x81; x9c; x0a; xe8; x86; x89; x0a; xe8;
  x86; x86; x0a; xe8; x86; x83; x0a; xe8;
  x86; x87; x0a; xe8; x86; x8d; x0a; xe8;
  x86; x8c; x0a; xe8; x86; x8b; x0a; xe8;
  x88; x95; x0a; xe8; x92; x97; x0a; xe8;
  x92; xa4; x0a; xe8; x92; xa1; x0a; xe8;
  x92; x9f; x0a; xe8; x92; xba; x0a; xe8;
  x93; x8e; x0a; xe8; x93; x82; x0a; xe8;
  x92; xac; x0a; xe8; x92; xae; x0a; xe8;
  x92; xab; x0a; xe8; x92; xb9; x0a; xe8;
  x92; xb4; x0a; xe8; x93; x81; x0a; xe8
].
(* tests/test_data/whatwg/big5_whatwg_test_decode_out.txt, entries 58624..58879 *)
Definition big5_decode_out_229 : list byte := [
  x93; x8d; x0a; xe8; x92; xaa; x0a; xe8;
  x92; x9a; x0a; xe8; x92; xb1; x0a; xe8;
  x93; x90; x0a; xe8; x92; x9d; x0a; xe8;
  x92; xa7; x0a; xe8; x92; xbb; x0a; xe8;
  x92; xa2; x0a; xe8; x92; x94; x0a; xe8;
  x93; x87; x0a; xe8; x93; x8c; x0a; xe8;
  x92; x9b; x0a; xe8; x92; xa9; x0a; xe8;
  x92; xaf; x0a; xe8; x92; xa8; x0a; xe8;
  x93; x96; x0a; xe8; x92; x98; x0a; xe8;
  x92; xb6; x0a; xe8; x93; x8f; x0a; xe8;
  x92; xa0; x0a; xe8; x93; x97; x0a; xe8;
  x93; x94; x0a; xe8; x93; x92; x0a; xe8;
  x93; x9b; x0a; xe8; x92; xb0; x0a; xe8;
  x92; x91; x0a; xe8; x99; xa1; x0a; xe8;
  x9c; xb3; x0a; xe8; x9c; xa3; x0a; xe8;
  x9c; xa8; x0a; xe8; x9d; xab; x0a; xe8;
  x9d; x80; x0a; xe8; x9c; xae; x0a; xe8;
  x9c; x9e; x0a; xe8; x9c; xa1; x0a; xe8;
  x9c; x99; x0a; xe8; x9c; x9b; x0a; xe8;
  x9d; x83; x0a; xe8; x9c; xac; x0a; xe8;
  x9d; x81; x0a; xe8; x9c; xbe; x0a; xe8;
  x9d; x86; x0a; xe8; x9c; xa0; x0a; xe8;
  x9c; xb2; x0a; xe8; x9c; xaa; x0a; xe8;
  x9c; xad; x0a; xe8; x9c; xbc; x0a; xe8;
  x9c; x92; x0a; xe8; x9c; xba; x0a; xe8;
  x9c; xb1; x0a; xe8; x9c; xb5; x0a; xe8;
  x9d; x82; x0a; xe8; x9c; xa6; x0a; xe8;
  x9c; xa7; x0a; xe8; x9c; xb8; x0a; xe8;
  x9c; xa4; x0a; xe8; x9c; x9a; x0a; xe8;
  x9c; xb0; x0a; xe8; x9c; x91; x0a; xe8;
  xa3; xb7; x0a; xe8; xa3; xa7; x0a; xe8;
  xa3; xb1; x0a; xe8; xa3; xb2; x0a; xe8
].
(* tests/test_data/whatwg/big5_whatwg_test_decode_out.txt, entries 58880..59135 *)
Definition big5_decode_out_230 : list byte := [
  xa3; xba; x0a; xe8; xa3; xbe; x0a; xe8;
  xa3; xae; x0a; xe8; xa3; xbc; x0a; xe8;
  xa3; xb6; x0a; xe8; xa3; xbb; x0a; xe8;
  xa3; xb0; x0a; xe8; xa3; xac; x0a; xe8;
  xa3; xab; x0a; xe8; xa6; x9d; x0a; xe8;
  xa6; xa1; x0a; xe8; xa6; x9f; x0a; xe8;
  xa6; x9e; x0a; xe8; xa7; xa9; x0a; xe8;
  xa7; xab; x0a; xe8; xa7; xa8; x0a; xe8;
  xaa; xab; x0a; xe8; xaa; x99; x0a; xe8;
  xaa; x8b; x0a; xe8; xaa; x92; x0a; xe8;
  xaa; x8f; x0a; xe8; xaa; x96; x0a; xe8;
  xb0; xbd; x0a; xe8; xb1; xa8; x0a; xe8;
  xb1; xa9; x0a; xe8; xb3; x95; x0a; xe8;
  xb3; x8f; x0a; xe8; xb3; x97; x0a; xe8;
  xb6; x96; x0a; xe8; xb8; x89; x0a; xe8;
  xb8; x82; x0a; xe8; xb7; xbf; x0a; xe8;
  xb8; x8d; x0a; xe8; xb7; xbd; x0a; xe8;
  xb8; x8a; x0a; xe8; xb8; x83; x0a; xe8;
  xb8; x87; x0a; xe8; xb8; x86; x0a; xe8;
  xb8; x85; x0a; xe8; xb7; xbe; x0a; xe8;
  xb8; x80; x0a; xe8; xb8; x84; x0a; xe8;
  xbc; x90; x0a; xe8; xbc; x91; x0a; xe8;
  xbc; x8e; x0a; xe8; xbc; x8d; x0a; xe9;
  x84; xa3; x0a; xe9; x84; x9c; x0a; xe9;
  x84; xa0; x0a; xe9; x84; xa2; x0a; xe9;
  x84; x9f; x0a; xe9; x84; x9d; x0a; xe9;
  x84; x9a; x0a; xe9; x84; xa4; x0a; xe9;
  x84; xa1; x0a; xe9; x84; x9b; x0a; xe9;
  x85; xba; x0a; xe9; x85; xb2; x0a; xe9;
  x85; xb9; x0a; xe9; x85; xb3; x0a; xe9;
  x8a; xa5; x0a; xe9; x8a; xa4; x0a; xe9;
  x89; xb6; x0a; xe9; x8a; x9b; x0a; xe9
].
(* tests/test_data/whatwg/big5_whatwg_test_decode_out.txt, entries 59136..59391 *)
Definition big5_decode_out_231 : list byte := [
  x89; xba; x0a; xe9; x8a; xa0; x0a; xe9;
  x8a; x94; x0a; xe9; x8a; xaa; x0a; xe9;
  x8a; x8d; x0a; xe9; x8a; xa6; x0a; xe9;
  x8a; x9a; x0a; xe9; x8a; xab; x0a; xe9;
  x89; xb9; x0a; xe9; x8a; x97; x0a; xe9;
  x89; xbf; x0a; xe9; x8a; xa3; x0a; xe9;
  x8b; xae; x0a; xe9; x8a; x8e; x0a; xe9;
  x8a; x82; x0a; xe9; x8a; x95; x0a; xe9;
  x8a; xa2; x0a; xe9; x89; xbd; x0a; xe9;
  x8a; x88; x0a; xe9; x8a; xa1; x0a; xe9;
  x8a; x8a; x0a; xe9; x8a; x86; x0a; xe9;
  x8a; x8c; x0a; xe9; x8a; x99; x0a; xe9;
  x8a; xa7; x0a; xe9; x89; xbe; x0a; xe9;
  x8a; x87; x0a; xe9; x8a; xa9; x0a; xe9;
  x8a; x9d; x0a; xe9; x8a; x8b; x0a; xe9;
  x88; xad; x0a; xe9; x9a; x9e; x0a; xe9;
  x9a; xa1; x0a; xe9; x9b; xbf; x0a; xe9;
  x9d; x98; x0a; xe9; x9d; xbd; x0a; xe9;
  x9d; xba; x0a; xe9; x9d; xbe; x0a; xe9;
  x9e; x83; x0a; xe9; x9e; x80; x0a; xe9;
  x9e; x82; x0a; xe9; x9d; xbb; x0a; xe9;
  x9e; x84; x0a; xe9; x9e; x81; x0a; xe9;
  x9d; xbf; x0a; xe9; x9f; x8e; x0a; xe9;
  x9f; x8d; x0a; xe9; xa0; x96; x0a; xe9;
  xa2; xad; x0a; xe9; xa2; xae; x0a; xe9;
  xa4; x82; x0a; xe9; xa4; x80; x0a; xe9;
  xa4; x87; x0a; xe9; xa6; x9d; x0a; xe9;
  xa6; x9c; x0a; xe9; xa7; x83; x0a; xe9;
  xa6; xb9; x0a; xe9; xa6; xbb; x0a; xe9;
  xa6; xba; x0a; xe9; xa7; x82; x0a; xe9;
  xa6; xbd; x0a; xe9; xa7; x87; x0a; xe9;
  xaa; xb1; x0a; xe9; xab; xa3; x0a; xe9
].
(* tests/test_data/whatwg/big5_whatwg_test_decode_out.txt, entries 59392..59647 *)
Definition big5_decode_out_232 : list byte := [
  xab; xa7; x0a; xe9; xac; xbe; x0a; xe9;
  xac; xbf; x0a; xe9; xad; xa0; x0a; xe9;
  xad; xa1; x0a; xe9; xad; x9f; x0a; xe9;
  xb3; xb1; x0a; xe9; xb3; xb2; x0a; xe9;
  xb3; xb5; x0a; xe9; xba; xa7; x0a; xe5;
  x83; xbf; x0a; xe5; x84; x83; x0a; xe5;
  x84; xb0; x0a; xe5; x83; xb8; x0a; xe5;
  x84; x86; x0a; xe5; x84; x87; x0a; xe5;
  x83; xb6; x0a; xe5; x83; xbe; x0a; xe5;
  x84; x8b; x0a; xe5; x84; x8c; x0a; xe5;
  x83; xbd; x0a; xe5; x84; x8a; x0a; xe5;
  x8a; x8b; x0a; xe5; x8a; x8c; x0a; xe5;
  x8b; xb1; x0a; xe5; x8b; xaf; x0a; xe5;
  x99; x88; x0a; xe5; x99; x82; x0a; xe5;
  x99; x8c; x0a; xe5; x98; xb5; x0a; xe5;
  x99; x81; x0a; xe5; x99; x8a; x0a; xe5;
  x99; x89; x0a; xe5; x99; x86; x0a; xe5;
  x99; x98; x0a; xe5; x99; x9a; x0a; xe5;
  x99; x80; x0a; xe5; x98; xb3; x0a; xe5;
  x98; xbd; x0a; xe5; x98; xac; x0a; xe5;
  x98; xbe; x0a; xe5; x98; xb8; x0a; xe5;
  x98; xaa; x0a; xe5; x98; xba; x0a; xe5;
  x9c; x9a; x0a; xe5; xa2; xab; x0a; xe5;
  xa2; x9d; x0a; xe5; xa2; xb1; x0a; xe5;
  xa2; xa0; x0a; xe5; xa2; xa3; x0a; xe5;
  xa2; xaf; x0a; xe5; xa2; xac; x0a; xe5;
  xa2; xa5; x0a; xe5; xa2; xa1; x0a; xe5;
  xa3; xbf; x0a; xe5; xab; xbf; x0a; xe5;
  xab; xb4; x0a; xe5; xab; xbd; x0a; xe5;
  xab; xb7; x0a; xe5; xab; xb6; x0a; xe5;
  xac; x83; x0a; xe5; xab; xb8; x0a; xe5;
  xac; x82; x0a; xe5; xab; xb9; x0a; xe5
].
(* tests/test_data/whatwg/big5_whatwg_test_decode_out.txt, entries 59648..59903 *)
Definition big5_decode_out_233 : list byte := [
  xac; x81; x0a; xe5; xac; x87; x0a; xe5;
  xac; x85; x0a; xe5; xac; x8f; x0a; xe5;
  xb1; xa7; x0a; xe5; xb6; x99; x0a; xe5;
  xb6; x97; x0a; xe5; xb6; x9f; x0a; xe5;
  xb6; x92; x0a; xe5; xb6; xa2; x0a; xe5;
  xb6; x93; x0a; xe5; xb6; x95; x0a; xe5;
  xb6; xa0; x0a; xe5; xb6; x9c; x0a; xe5;
  xb6; xa1; x0a; xe5; xb6; x9a; x0a; xe5;
  xb6; x9e; x0a; xe5; xb9; xa9; x0a; xe5;
  xb9; x9d; x0a; xe5; xb9; xa0; x0a; xe5;
  xb9; x9c; x0a; xe7; xb7; xb3; x0a; xe5;
  xbb; x9b; x0a; xe5; xbb; x9e; x0a; xe5;
  xbb; xa1; x0a; xe5; xbd; x89; x0a; xe5;
  xbe; xb2; x0a; xe6; x86; x8b; x0a; xe6;
  x86; x83; x0a; xe6; x85; xb9; x0a; xe6;
  x86; xb1; x0a; xe6; x86; xb0; x0a; xe6;
  x86; xa2; x0a; xe6; x86; x89; x0a; xe6;
  x86; x9b; x0a; xe6; x86; x93; x0a; xe6;
  x86; xaf; x0a; xe6; x86; xad; x0a; xe6;
  x86; x9f; x0a; xe6; x86; x92; x0a; xe6;
  x86; xaa; x0a; xe6; x86; xa1; x0a; xe6;
  x86; x8d; x0a; xe6; x85; xa6; x0a; xe6;
  x86; xb3; x0a; xe6; x88; xad; x0a; xe6;
  x91; xae; x0a; xe6; x91; xb0; x0a; xe6;
  x92; x96; x0a; xe6; x92; xa0; x0a; xe6;
  x92; x85; x0a; xe6; x92; x97; x0a; xe6;
  x92; x9c; x0a; xe6; x92; x8f; x0a; xe6;
  x92; x8b; x0a; xe6; x92; x8a; x0a; xe6;
  x92; x8c; x0a; xe6; x92; xa3; x0a; xe6;
  x92; x9f; x0a; xe6; x91; xa8; x0a; xe6;
  x92; xb1; x0a; xe6; x92; x98; x0a; xe6;
  x95; xb6; x0a; xe6; x95; xba; x0a; xe6
].
(* tests/test_data/whatwg/big5_whatwg_test_decode_out.txt, entries 59904..60159 *)
Definition big5_decode_out_234 : list byte := [
  x95; xb9; x0a; xe6; x95; xbb; x0a; xe6;
  x96; xb2; x0a; xe6; x96; xb3; x0a; xe6;
  x9a; xb5; x0a; xe6; x9a; xb0; x0a; xe6;
  x9a; xa9; x0a; xe6; x9a; xb2; x0a; xe6;
  x9a; xb7; x0a; xe6; x9a; xaa; x0a; xe6;
  x9a; xaf; x0a; xe6; xa8; x80; x0a; xe6;
  xa8; x86; x0a; xe6; xa8; x97; x0a; xe6;
  xa7; xa5; x0a; xe6; xa7; xb8; x0a; xe6;
  xa8; x95; x0a; xe6; xa7; xb1; x0a; xe6;
  xa7; xa4; x0a; xe6; xa8; xa0; x0a; xe6;
  xa7; xbf; x0a; xe6; xa7; xac; x0a; xe6;
  xa7; xa2; x0a; xe6; xa8; x9b; x0a; xe6;
  xa8; x9d; x0a; xe6; xa7; xbe; x0a; xe6;
  xa8; xa7; x0a; xe6; xa7; xb2; x0a; xe6;
  xa7; xae; x0a; xe6; xa8; x94; x0a; xe6;
  xa7; xb7; x0a; xe6; xa7; xa7; x0a; xe6;
  xa9; x80; x0a; xe6; xa8; x88; x0a; xe6;
  xa7; xa6; x0a; xe6; xa7; xbb; x0a; xe6;
  xa8; x8d; x0a; xe6; xa7; xbc; x0a; xe6;
  xa7; xab; x0a; xe6; xa8; x89; x0a; xe6;
  xa8; x84; x0a; xe6; xa8; x98; x0a; xe6;
  xa8; xa5; x0a; xe6; xa8; x8f; x0a; xe6;
  xa7; xb6; x0a; xe6; xa8; xa6; x0a; xe6;
  xa8; x87; x0a; xe6; xa7; xb4; x0a; xe6;
  xa8; x96; x0a; xe6; xad; x91; x0a; xe6;
  xae; xa5; x0a; xe6; xae; xa3; x0a; xe6;
  xae; xa2; x0a; xe6; xae; xa6; x0a; xe6;
  xb0; x81; x0a; xe6; xb0; x80; x0a; xe6;
  xaf; xbf; x0a; xe6; xb0; x82; x0a; xe6;
  xbd; x81; x0a; xe6; xbc; xa6; x0a; xe6;
  xbd; xbe; x0a; xe6; xbe; x87; x0a; xe6;
  xbf; x86; x0a; xe6; xbe; x92; x0a; xe6
].
(* tests/test_data/whatwg/big5_whatwg_test_decode_out.txt, entries 60160..60415 *)
Definition big5_decode_out_235 : list byte := [
  xbe; x8d; x0a; xe6; xbe; x89; x0a; xe6;
  xbe; x8c; x0a; xe6; xbd; xa2; x0a; xe6;
  xbd; x8f; x0a; xe6; xbe; x85; x0a; xe6;
  xbd; x9a; x0a; xe6; xbe; x96; x0a; xe6;
  xbd; xb6; x0a; xe6; xbd; xac; x0a; xe6;
  xbe; x82; x0a; xe6; xbd; x95; x0a; xe6;
  xbd; xb2; x0a; xe6; xbd; x92; x0a; xe6;
  xbd; x90; x0a; xe6; xbd; x97; x0a; xe6;
  xbe; x94; x0a; xe6; xbe; x93; x0a; xe6;
  xbd; x9d; x0a; xe6; xbc; x80; x0a; xe6;
  xbd; xa1; x0a; xe6; xbd; xab; x0a; xe6;
  xbd; xbd; x0a; xe6; xbd; xa7; x0a; xe6;
  xbe; x90; x0a; xe6; xbd; x93; x0a; xe6;
  xbe; x8b; x0a; xe6; xbd; xa9; x0a; xe6;
  xbd; xbf; x0a; xe6; xbe; x95; x0a; xe6;
  xbd; xa3; x0a; xe6; xbd; xb7; x0a; xe6;
  xbd; xaa; x0a; xe6; xbd; xbb; x0a; xe7;
  x86; xb2; x0a; xe7; x86; xaf; x0a; xe7;
  x86; x9b; x0a; xe7; x86; xb0; x0a; xe7;
  x86; xa0; x0a; xe7; x86; x9a; x0a; xe7;
  x86; xa9; x0a; xe7; x86; xb5; x0a; xe7;
  x86; x9d; x0a; xe7; x86; xa5; x0a; xe7;
  x86; x9e; x0a; xe7; x86; xa4; x0a; xe7;
  x86; xa1; x0a; xe7; x86; xaa; x0a; xe7;
  x86; x9c; x0a; xe7; x86; xa7; x0a; xe7;
  x86; xb3; x0a; xe7; x8a; x98; x0a; xe7;
  x8a; x9a; x0a; xe7; x8d; x98; x0a; xe7;
  x8d; x92; x0a; xe7; x8d; x9e; x0a; xe7;
  x8d; x9f; x0a; xe7; x8d; xa0; x0a; xe7;
  x8d; x9d; x0a; xe7; x8d; x9b; x0a; xe7;
  x8d; xa1; x0a; xe7; x8d; x9a; x0a; xe7;
  x8d; x99; x0a; xe7; x8d; xa2; x0a; xe7
].
(* tests/test_data/whatwg/big5_whatwg_test_decode_out.txt, entries 60416..60671 *)
Definition big5_decode_out_236 : list byte := [
  x92; x87; x0a; xe7; x92; x89; x0a; xe7;
  x92; x8a; x0a; xe7; x92; x86; x0a; xe7;
  x92; x81; x0a; xe7; x91; xbd; x0a; xe7;
  x92; x85; x0a; xe7; x92; x88; x0a; xe7;
  x91; xbc; x0a; xe7; x91; xb9; x0a; xe7;
  x94; x88; x0a; xe7; x94; x87; x0a; xe7;
  x95; xbe; x0a; xe7; x98; xa5; x0a; xe7;
  x98; x9e; x0a; xe7; x98; x99; x0a; xe7;
  x98; x9d; x0a; xe7; x98; x9c; x0a; xe7;
  x98; xa3; x0a; xe7; x98; x9a; x0a; xe7;
  x98; xa8; x0a; xe7; x98; x9b; x0a; xe7;
  x9a; x9c; x0a; xe7; x9a; x9d; x0a; xe7;
  x9a; x9e; x0a; xe7; x9a; x9b; x0a; xe7;
  x9e; x8d; x0a; xe7; x9e; x8f; x0a; xe7;
  x9e; x89; x0a; xe7; x9e; x88; x0a; xe7;
  xa3; x8d; x0a; xe7; xa2; xbb; x0a; xe7;
  xa3; x8f; x0a; xe7; xa3; x8c; x0a; xe7;
  xa3; x91; x0a; xe7; xa3; x8e; x0a; xe7;
  xa3; x94; x0a; xe7; xa3; x88; x0a; xe7;
  xa3; x83; x0a; xe7; xa3; x84; x0a; xe7;
  xa3; x89; x0a; xe7; xa6; x9a; x0a; xe7;
  xa6; xa1; x0a; xe7; xa6; xa0; x0a; xe7;
  xa6; x9c; x0a; xe7; xa6; xa2; x0a; xe7;
  xa6; x9b; x0a; xe6; xad; xb6; x0a; xe7;
  xa8; xb9; x0a; xe7; xaa; xb2; x0a; xe7;
  xaa; xb4; x0a; xe7; xaa; xb3; x0a; xe7;
  xae; xb7; x0a; xe7; xaf; x8b; x0a; xe7;
  xae; xbe; x0a; xe7; xae; xac; x0a; xe7;
  xaf; x8e; x0a; xe7; xae; xaf; x0a; xe7;
  xae; xb9; x0a; xe7; xaf; x8a; x0a; xe7;
  xae; xb5; x0a; xe7; xb3; x85; x0a; xe7;
  xb3; x88; x0a; xe7; xb3; x8c; x0a; xe7
].
(* tests/test_data/whatwg/big5_whatwg_test_decode_out.txt, entries 60672..60927 *)
Definition big5_decode_out_237 : list byte := [
  xb3; x8b; x0a; xe7; xb7; xb7; x0a; xe7;
  xb7; x9b; x0a; xe7; xb7; xaa; x0a; xe7;
  xb7; xa7; x0a; xe7; xb7; x97; x0a; xe7;
  xb7; xa1; x0a; xe7; xb8; x83; x0a; xe7;
  xb7; xba; x0a; xe7; xb7; xa6; x0a; xe7;
  xb7; xb6; x0a; xe7; xb7; xb1; x0a; xe7;
  xb7; xb0; x0a; xe7; xb7; xae; x0a; xe7;
  xb7; x9f; x0a; xe7; xbd; xb6; x0a; xe7;
  xbe; xac; x0a; xe7; xbe; xb0; x0a; xe7;
  xbe; xad; x0a; xe7; xbf; xad; x0a; xe7;
  xbf; xab; x0a; xe7; xbf; xaa; x0a; xe7;
  xbf; xac; x0a; xe7; xbf; xa6; x0a; xe7;
  xbf; xa8; x0a; xe8; x81; xa4; x0a; xe8;
  x81; xa7; x0a; xe8; x86; xa3; x0a; xe8;
  x86; x9f; x0a; xe8; x86; x9e; x0a; xe8;
  x86; x95; x0a; xe8; x86; xa2; x0a; xe8;
  x86; x99; x0a; xe8; x86; x97; x0a; xe8;
  x88; x96; x0a; xe8; x89; x8f; x0a; xe8;
  x89; x93; x0a; xe8; x89; x92; x0a; xe8;
  x89; x90; x0a; xe8; x89; x8e; x0a; xe8;
  x89; x91; x0a; xe8; x94; xa4; x0a; xe8;
  x94; xbb; x0a; xe8; x94; x8f; x0a; xe8;
  x94; x80; x0a; xe8; x94; xa9; x0a; xe8;
  x94; x8e; x0a; xe8; x94; x89; x0a; xe8;
  x94; x8d; x0a; xe8; x94; x9f; x0a; xe8;
  x94; x8a; x0a; xe8; x94; xa7; x0a; xe8;
  x94; x9c; x0a; xe8; x93; xbb; x0a; xe8;
  x94; xab; x0a; xe8; x93; xba; x0a; xe8;
  x94; x88; x0a; xe8; x94; x8c; x0a; xe8;
  x93; xb4; x0a; xe8; x94; xaa; x0a; xe8;
  x93; xb2; x0a; xe8; x94; x95; x0a; xe8;
  x93; xb7; x0a; xe8; x93; xab; x0a; xe8
].
(* tests/test_data/whatwg/big5_whatwg_test_decode_out.txt, entries 60928..61183 *)
Definition big5_decode_out_238 : list byte := [
  x93; xb3; x0a; xe8; x93; xbc; x0a; xe8;
  x94; x92; x0a; xe8; x93; xaa; x0a; xe8;
  x93; xa9; x0a; xe8; x94; x96; x0a; xe8;
  x93; xbe; x0a; xe8; x94; xa8; x0a; xe8;
  x94; x9d; x0a; xe8; x94; xae; x0a; xe8;
  x94; x82; x0a; xe8; x93; xbd; x0a; xe8;
  x94; x9e; x0a; xe8; x93; xb6; x0a; xe8;
  x94; xb1; x0a; xe8; x94; xa6; x0a; xe8;
  x93; xa7; x0a; xe8; x93; xa8; x0a; xe8;
  x93; xb0; x0a; xe8; x93; xaf; x0a; xe8;
  x93; xb9; x0a; xe8; x94; x98; x0a; xe8;
  x94; xa0; x0a; xe8; x94; xb0; x0a; xe8;
  x94; x8b; x0a; xe8; x94; x99; x0a; xe8;
  x94; xaf; x0a; xe8; x99; xa2; x0a; xe8;
  x9d; x96; x0a; xe8; x9d; xa3; x0a; xe8;
  x9d; xa4; x0a; xe8; x9d; xb7; x0a; xe8;
  x9f; xa1; x0a; xe8; x9d; xb3; x0a; xe8;
  x9d; x98; x0a; xe8; x9d; x94; x0a; xe8;
  x9d; x9b; x0a; xe8; x9d; x92; x0a; xe8;
  x9d; xa1; x0a; xe8; x9d; x9a; x0a; xe8;
  x9d; x91; x0a; xe8; x9d; x9e; x0a; xe8;
  x9d; xad; x0a; xe8; x9d; xaa; x0a; xe8;
  x9d; x90; x0a; xe8; x9d; x8e; x0a; xe8;
  x9d; x9f; x0a; xe8; x9d; x9d; x0a; xe8;
  x9d; xaf; x0a; xe8; x9d; xac; x0a; xe8;
  x9d; xba; x0a; xe8; x9d; xae; x0a; xe8;
  x9d; x9c; x0a; xe8; x9d; xa5; x0a; xe8;
  x9d; x8f; x0a; xe8; x9d; xbb; x0a; xe8;
  x9d; xb5; x0a; xe8; x9d; xa2; x0a; xe8;
  x9d; xa7; x0a; xe8; x9d; xa9; x0a; xe8;
  xa1; x9a; x0a; xe8; xa4; x85; x0a; xe8;
  xa4; x8c; x0a; xe8; xa4; x94; x0a; xe8
].
(* tests/test_data/whatwg/big5_whatwg_test_decode_out.txt, entries 61184..61439 *)
Definition big5_decode_out_239 : list byte := [
  xa4; x8b; x0a; xe8; xa4; x97; x0a; xe8;
  xa4; x98; x0a; xe8; xa4; x99; x0a; xe8;
  xa4; x86; x0a; xe8; xa4; x96; x0a; xe8;
  xa4; x91; x0a; xe8; xa4; x8e; x0a; xe8;
  xa4; x89; x0a; xe8; xa6; xa2; x0a; xe8;
  xa6; xa4; x0a; xe8; xa6; xa3; x0a; xe8;
  xa7; xad; x0a; xe8; xa7; xb0; x0a; xe8;
  xa7; xac; x0a; xe8; xab; x8f; x0a; xe8;
  xab; x86; x0a; xe8; xaa; xb8; x0a; xe8;
  xab; x93; x0a; xe8; xab; x91; x0a; xe8;
  xab; x94; x0a; xe8; xab; x95; x0a; xe8;
  xaa; xbb; x0a; xe8; xab; x97; x0a; xe8;
  xaa; xbe; x0a; xe8; xab; x80; x0a; xe8;
  xab; x85; x0a; xe8; xab; x98; x0a; xe8;
  xab; x83; x0a; xe8; xaa; xba; x0a; xe8;
  xaa; xbd; x0a; xe8; xab; x99; x0a; xe8;
  xb0; xbe; x0a; xe8; xb1; x8d; x0a; xe8;
  xb2; x8f; x0a; xe8; xb3; xa5; x0a; xe8;
  xb3; x9f; x0a; xe8; xb3; x99; x0a; xe8;
  xb3; xa8; x0a; xe8; xb3; x9a; x0a; xe8;
  xb3; x9d; x0a; xe8; xb3; xa7; x0a; xe8;
  xb6; xa0; x0a; xe8; xb6; x9c; x0a; xe8;
  xb6; xa1; x0a; xe8; xb6; x9b; x0a; xe8;
  xb8; xa0; x0a; xe8; xb8; xa3; x0a; xe8;
  xb8; xa5; x0a; xe8; xb8; xa4; x0a; xe8;
  xb8; xae; x0a; xe8; xb8; x95; x0a; xe8;
  xb8; x9b; x0a; xe8; xb8; x96; x0a; xe8;
  xb8; x91; x0a; xe8; xb8; x99; x0a; xe8;
  xb8; xa6; x0a; xe8; xb8; xa7; x0a; xe8;
  xb8; x94; x0a; xe8; xb8; x92; x0a; xe8;
  xb8; x98; x0a; xe8; xb8; x93; x0a; xe8;
  xb8; x9c; x0a; xe8; xb8; x97; x0a; xe8
].
(* tests/test_data/whatwg/big5_whatwg_test_decode_out.txt, entries 61440..61695 *)
Definition big5_decode_out_240 : list byte := [
  xb8; x9a; x0a; xe8; xbc; xac; x0a; xe8;
  xbc; xa4; x0a; xe8; xbc; x98; x0a; xe8;
  xbc; x9a; x0a; xe8; xbc; xa0; x0a; xe8;
  xbc; xa3; x0a; xe8; xbc; x96; x0a; xe8;
  xbc; x97; x0a; xe9; x81; xb3; x0a; xe9;
  x81; xb0; x0a; xe9; x81; xaf; x0a; xe9;
  x81; xa7; x0a; xe9; x81; xab; x0a; xe9;
  x84; xaf; x0a; xe9; x84; xab; x0a; xe9;
  x84; xa9; x0a; xe9; x84; xaa; x0a; xe9;
  x84; xb2; x0a; xe9; x84; xa6; x0a; xe9;
  x84; xae; x0a; xe9; x86; x85; x0a; xe9;
  x86; x86; x0a; xe9; x86; x8a; x0a; xe9;
  x86; x81; x0a; xe9; x86; x82; x0a; xe9;
  x86; x84; x0a; xe9; x86; x80; x0a; xe9;
  x8b; x90; x0a; xe9; x8b; x83; x0a; xe9;
  x8b; x84; x0a; xe9; x8b; x80; x0a; xe9;
  x8b; x99; x0a; xe9; x8a; xb6; x0a; xe9;
  x8b; x8f; x0a; xe9; x8b; xb1; x0a; xe9;
  x8b; x9f; x0a; xe9; x8b; x98; x0a; xe9;
  x8b; xa9; x0a; xe9; x8b; x97; x0a; xe9;
  x8b; x9d; x0a; xe9; x8b; x8c; x0a; xe9;
  x8b; xaf; x0a; xe9; x8b; x82; x0a; xe9;
  x8b; xa8; x0a; xe9; x8b; x8a; x0a; xe9;
  x8b; x88; x0a; xe9; x8b; x8e; x0a; xe9;
  x8b; xa6; x0a; xe9; x8b; x8d; x0a; xe9;
  x8b; x95; x0a; xe9; x8b; x89; x0a; xe9;
  x8b; xa0; x0a; xe9; x8b; x9e; x0a; xe9;
  x8b; xa7; x0a; xe9; x8b; x91; x0a; xe9;
  x8b; x93; x0a; xe9; x8a; xb5; x0a; xe9;
  x8b; xa1; x0a; xe9; x8b; x86; x0a; xe9;
  x8a; xb4; x0a; xe9; x95; xbc; x0a; xe9;
  x96; xac; x0a; xe9; x96; xab; x0a; xe9
].
(* tests/test_data/whatwg/big5_whatwg_test_decode_out.txt, entries 61696..61951 *)
Definition big5_decode_out_241 : list byte := [
  x96; xae; x0a; xe9; x96; xb0; x0a; xe9;
  x9a; xa4; x0a; xe9; x9a; xa2; x0a; xe9;
  x9b; x93; x0a; xe9; x9c; x85; x0a; xe9;
  x9c; x88; x0a; xe9; x9c; x82; x0a; xe9;
  x9d; x9a; x0a; xe9; x9e; x8a; x0a; xe9;
  x9e; x8e; x0a; xe9; x9e; x88; x0a; xe9;
  x9f; x90; x0a; xe9; x9f; x8f; x0a; xe9;
  xa0; x9e; x0a; xe9; xa0; x9d; x0a; xe9;
  xa0; xa6; x0a; xe9; xa0; xa9; x0a; xe9;
  xa0; xa8; x0a; xe9; xa0; xa0; x0a; xe9;
  xa0; x9b; x0a; xe9; xa0; xa7; x0a; xe9;
  xa2; xb2; x0a; xe9; xa4; x88; x0a; xe9;
  xa3; xba; x0a; xe9; xa4; x91; x0a; xe9;
  xa4; x94; x0a; xe9; xa4; x96; x0a; xe9;
  xa4; x97; x0a; xe9; xa4; x95; x0a; xe9;
  xa7; x9c; x0a; xe9; xa7; x8d; x0a; xe9;
  xa7; x8f; x0a; xe9; xa7; x93; x0a; xe9;
  xa7; x94; x0a; xe9; xa7; x8e; x0a; xe9;
  xa7; x89; x0a; xe9; xa7; x96; x0a; xe9;
  xa7; x98; x0a; xe9; xa7; x8b; x0a; xe9;
  xa7; x97; x0a; xe9; xa7; x8c; x0a; xe9;
  xaa; xb3; x0a; xe9; xab; xac; x0a; xe9;
  xab; xab; x0a; xe9; xab; xb3; x0a; xe9;
  xab; xb2; x0a; xe9; xab; xb1; x0a; xe9;
  xad; x86; x0a; xe9; xad; x83; x0a; xe9;
  xad; xa7; x0a; xe9; xad; xb4; x0a; xe9;
  xad; xb1; x0a; xe9; xad; xa6; x0a; xe9;
  xad; xb6; x0a; xe9; xad; xb5; x0a; xe9;
  xad; xb0; x0a; xe9; xad; xa8; x0a; xe9;
  xad; xa4; x0a; xe9; xad; xac; x0a; xe9;
  xb3; xbc; x0a; xe9; xb3; xba; x0a; xe9;
  xb3; xbd; x0a; xe9; xb3; xbf; x0a; xe9
].
(* tests/test_data/whatwg/big5_whatwg_test_decode_out.txt, entries 61952..62207 *)
Definition big5_decode_out_242 : list byte := [
  xb3; xb7; x0a; xe9; xb4; x87; x0a; xe9;
  xb4; x80; x0a; xe9; xb3; xb9; x0a; xe9;
  xb3; xbb; x0a; xe9; xb4; x88; x0a; xe9;
  xb4; x85; x0a; xe9; xb4; x84; x0a; xe9;
  xba; x83; x0a; xe9; xbb; x93; x0a; xe9;
  xbc; x8f; x0a; xe9; xbc; x90; x0a; xe5;
  x84; x9c; x0a; xe5; x84; x93; x0a; xe5;
  x84; x97; x0a; xe5; x84; x9a; x0a; xe5;
  x84; x91; x0a; xe5; x87; x9e; x0a; xe5;
  x8c; xb4; x0a; xe5; x8f; xa1; x0a; xe5;
  x99; xb0; x0a; xe5; x99; xa0; x0a; xe5;
  x99; xae; x0a; xe5; x99; xb3; x0a; xe5;
  x99; xa6; x0a; xe5; x99; xa3; x0a; xe5;
  x99; xad; x0a; xe5; x99; xb2; x0a; xe5;
  x99; x9e; x0a; xe5; x99; xb7; x0a; xe5;
  x9c; x9c; x0a; xe5; x9c; x9b; x0a; xe5;
  xa3; x88; x0a; xe5; xa2; xbd; x0a; xe5;
  xa3; x89; x0a; xe5; xa2; xbf; x0a; xe5;
  xa2; xba; x0a; xe5; xa3; x82; x0a; xe5;
  xa2; xbc; x0a; xe5; xa3; x86; x0a; xe5;
  xac; x97; x0a; xe5; xac; x99; x0a; xe5;
  xac; x9b; x0a; xe5; xac; xa1; x0a; xe5;
  xac; x94; x0a; xe5; xac; x93; x0a; xe5;
  xac; x90; x0a; xe5; xac; x96; x0a; xe5;
  xac; xa8; x0a; xe5; xac; x9a; x0a; xe5;
  xac; xa0; x0a; xe5; xac; x9e; x0a; xe5;
  xaf; xaf; x0a; xe5; xb6; xac; x0a; xe5;
  xb6; xb1; x0a; xe5; xb6; xa9; x0a; xe5;
  xb6; xa7; x0a; xe5; xb6; xb5; x0a; xe5;
  xb6; xb0; x0a; xe5; xb6; xae; x0a; xe5;
  xb6; xaa; x0a; xe5; xb6; xa8; x0a; xe5;
  xb6; xb2; x0a; xe5; xb6; xad; x0a; xe5
].
(* tests/test_data/whatwg/big5_whatwg_test_decode_out.txt, entries 62208..62463 *)
Definition big5_decode_out_243 : list byte := [
  xb6; xaf; x0a; xe5; xb6; xb4; x0a; xe5;
  xb9; xa7; x0a; xe5; xb9; xa8; x0a; xe5;
  xb9; xa6; x0a; xe5; xb9; xaf; x0a; xe5;
  xbb; xa9; x0a; xe5; xbb; xa7; x0a; xe5;
  xbb; xa6; x0a; xe5; xbb; xa8; x0a; xe5;
  xbb; xa5; x0a; xe5; xbd; x8b; x0a; xe5;
  xbe; xbc; x0a; xe6; x86; x9d; x0a; xe6;
  x86; xa8; x0a; xe6; x86; x96; x0a; xe6;
  x87; x85; x0a; xe6; x86; xb4; x0a; xe6;
  x87; x86; x0a; xe6; x87; x81; x0a; xe6;
  x87; x8c; x0a; xe6; x86; xba; x0a; xe6;
  x86; xbf; x0a; xe6; x86; xb8; x0a; xe6;
  x86; x8c; x0a; xe6; x93; x97; x0a; xe6;
  x93; x96; x0a; xe6; x93; x90; x0a; xe6;
  x93; x8f; x0a; xe6; x93; x89; x0a; xe6;
  x92; xbd; x0a; xe6; x92; x89; x0a; xe6;
  x93; x83; x0a; xe6; x93; x9b; x0a; xe6;
  x93; xb3; x0a; xe6; x93; x99; x0a; xe6;
  x94; xb3; x0a; xe6; x95; xbf; x0a; xe6;
  x95; xbc; x0a; xe6; x96; xa2; x0a; xe6;
  x9b; x88; x0a; xe6; x9a; xbe; x0a; xe6;
  x9b; x80; x0a; xe6; x9b; x8a; x0a; xe6;
  x9b; x8b; x0a; xe6; x9b; x8f; x0a; xe6;
  x9a; xbd; x0a; xe6; x9a; xbb; x0a; xe6;
  x9a; xba; x0a; xe6; x9b; x8c; x0a; xe6;
  x9c; xa3; x0a; xe6; xa8; xb4; x0a; xe6;
  xa9; xa6; x0a; xe6; xa9; x89; x0a; xe6;
  xa9; xa7; x0a; xe6; xa8; xb2; x0a; xe6;
  xa9; xa8; x0a; xe6; xa8; xbe; x0a; xe6;
  xa9; x9d; x0a; xe6; xa9; xad; x0a; xe6;
  xa9; xb6; x0a; xe6; xa9; x9b; x0a; xe6;
  xa9; x91; x0a; xe6; xa8; xa8; x0a; xe6
].
(* tests/test_data/whatwg/big5_whatwg_test_decode_out.txt, entries 62464..62719 *)
Definition big5_decode_out_244 : list byte := [
  xa9; x9a; x0a; xe6; xa8; xbb; x0a; xe6;
  xa8; xbf; x0a; xe6; xa9; x81; x0a; xe6;
  xa9; xaa; x0a; xe6; xa9; xa4; x0a; xe6;
  xa9; x90; x0a; xe6; xa9; x8f; x0a; xe6;
  xa9; x94; x0a; xe6; xa9; xaf; x0a; xe6;
  xa9; xa9; x0a; xe6; xa9; xa0; x0a; xe6;
  xa8; xbc; x0a; xe6; xa9; x9e; x0a; xe6;
  xa9; x96; x0a; xe6; xa9; x95; x0a; xe6;
  xa9; x8d; x0a; xe6; xa9; x8e; x0a; xe6;
  xa9; x86; x0a; xe6; xad; x95; x0a; xe6;
  xad; x94; x0a; xe6; xad; x96; x0a; xe6;
  xae; xa7; x0a; xe6; xae; xaa; x0a; xe6;
  xae; xab; x0a; xe6; xaf; x88; x0a; xe6;
  xaf; x87; x0a; xe6; xb0; x84; x0a; xe6;
  xb0; x83; x0a; xe6; xb0; x86; x0a; xe6;
  xbe; xad; x0a; xe6; xbf; x8b; x0a; xe6;
  xbe; xa3; x0a; xe6; xbf; x87; x0a; xe6;
  xbe; xbc; x0a; xe6; xbf; x8e; x0a; xe6;
  xbf; x88; x0a; xe6; xbd; x9e; x0a; xe6;
  xbf; x84; x0a; xe6; xbe; xbd; x0a; xe6;
  xbe; x9e; x0a; xe6; xbf; x8a; x0a; xe6;
  xbe; xa8; x0a; xe7; x80; x84; x0a; xe6;
  xbe; xa5; x0a; xe6; xbe; xae; x0a; xe6;
  xbe; xba; x0a; xe6; xbe; xac; x0a; xe6;
  xbe; xaa; x0a; xe6; xbf; x8f; x0a; xe6;
  xbe; xbf; x0a; xe6; xbe; xb8; x0a; xe6;
  xbe; xa2; x0a; xe6; xbf; x89; x0a; xe6;
  xbe; xab; x0a; xe6; xbf; x8d; x0a; xe6;
  xbe; xaf; x0a; xe6; xbe; xb2; x0a; xe6;
  xbe; xb0; x0a; xe7; x87; x85; x0a; xe7;
  x87; x82; x0a; xe7; x86; xbf; x0a; xe7;
  x86; xb8; x0a; xe7; x87; x96; x0a; xe7
].
(* tests/test_data/whatwg/big5_whatwg_test_decode_out.txt, entries 62720..62975 *)
Definition big5_decode_out_245 : list byte := [
  x87; x80; x0a; xe7; x87; x81; x0a; xe7;
  x87; x8b; x0a; xe7; x87; x94; x0a; xe7;
  x87; x8a; x0a; xe7; x87; x87; x0a; xe7;
  x87; x8f; x0a; xe7; x86; xbd; x0a; xe7;
  x87; x98; x0a; xe7; x86; xbc; x0a; xe7;
  x87; x86; x0a; xe7; x87; x9a; x0a; xe7;
  x87; x9b; x0a; xe7; x8a; x9d; x0a; xe7;
  x8a; x9e; x0a; xe7; x8d; xa9; x0a; xe7;
  x8d; xa6; x0a; xe7; x8d; xa7; x0a; xe7;
  x8d; xac; x0a; xe7; x8d; xa5; x0a; xe7;
  x8d; xab; x0a; xe7; x8d; xaa; x0a; xe7;
  x91; xbf; x0a; xe7; x92; x9a; x0a; xe7;
  x92; xa0; x0a; xe7; x92; x94; x0a; xe7;
  x92; x92; x0a; xe7; x92; x95; x0a; xe7;
  x92; xa1; x0a; xe7; x94; x8b; x0a; xe7;
  x96; x80; x0a; xe7; x98; xaf; x0a; xe7;
  x98; xad; x0a; xe7; x98; xb1; x0a; xe7;
  x98; xbd; x0a; xe7; x98; xb3; x0a; xe7;
  x98; xbc; x0a; xe7; x98; xb5; x0a; xe7;
  x98; xb2; x0a; xe7; x98; xb0; x0a; xe7;
  x9a; xbb; x0a; xe7; x9b; xa6; x0a; xe7;
  x9e; x9a; x0a; xe7; x9e; x9d; x0a; xe7;
  x9e; xa1; x0a; xe7; x9e; x9c; x0a; xe7;
  x9e; x9b; x0a; xe7; x9e; xa2; x0a; xe7;
  x9e; xa3; x0a; xe7; x9e; x95; x0a; xe7;
  x9e; x99; x0a; xe7; x9e; x97; x0a; xe7;
  xa3; x9d; x0a; xe7; xa3; xa9; x0a; xe7;
  xa3; xa5; x0a; xe7; xa3; xaa; x0a; xe7;
  xa3; x9e; x0a; xe7; xa3; xa3; x0a; xe7;
  xa3; x9b; x0a; xe7; xa3; xa1; x0a; xe7;
  xa3; xa2; x0a; xe7; xa3; xad; x0a; xe7;
  xa3; x9f; x0a; xe7; xa3; xa0; x0a; xe7
].
(* tests/test_data/whatwg/big5_whatwg_test_decode_out.txt, entries 62976..63231 *)
Definition big5_decode_out_246 : list byte := [
  xa6; xa4; x0a; xe7; xa9; x84; x0a; xe7;
  xa9; x88; x0a; xe7; xa9; x87; x0a; xe7;
  xaa; xb6; x0a; xe7; xaa; xb8; x0a; xe7;
  xaa; xb5; x0a; xe7; xaa; xb1; x0a; xe7;
  xaa; xb7; x0a; xe7; xaf; x9e; x0a; xe7;
  xaf; xa3; x0a; xe7; xaf; xa7; x0a; xe7;
  xaf; x9d; x0a; xe7; xaf; x95; x0a; xe7;
  xaf; xa5; x0a; xe7; xaf; x9a; x0a; xe7;
  xaf; xa8; x0a; xe7; xaf; xb9; x0a; xe7;
  xaf; x94; x0a; xe7; xaf; xaa; x0a; xe7;
  xaf; xa2; x0a; xe7; xaf; x9c; x0a; xe7;
  xaf; xab; x0a; xe7; xaf; x98; x0a; xe7;
  xaf; x9f; x0a; xe7; xb3; x92; x0a; xe7;
  xb3; x94; x0a; xe7; xb3; x97; x0a; xe7;
  xb3; x90; x0a; xe7; xb3; x91; x0a; xe7;
  xb8; x92; x0a; xe7; xb8; xa1; x0a; xe7;
  xb8; x97; x0a; xe7; xb8; x8c; x0a; xe7;
  xb8; x9f; x0a; xe7; xb8; xa0; x0a; xe7;
  xb8; x93; x0a; xe7; xb8; x8e; x0a; xe7;
  xb8; x9c; x0a; xe7; xb8; x95; x0a; xe7;
  xb8; x9a; x0a; xe7; xb8; xa2; x0a; xe7;
  xb8; x8b; x0a; xe7; xb8; x8f; x0a; xe7;
  xb8; x96; x0a; xe7; xb8; x8d; x0a; xe7;
  xb8; x94; x0a; xe7; xb8; xa5; x0a; xe7;
  xb8; xa4; x0a; xe7; xbd; x83; x0a; xe7;
  xbd; xbb; x0a; xe7; xbd; xbc; x0a; xe7;
  xbd; xba; x0a; xe7; xbe; xb1; x0a; xe7;
  xbf; xaf; x0a; xe8; x80; xaa; x0a; xe8;
  x80; xa9; x0a; xe8; x81; xac; x0a; xe8;
  x86; xb1; x0a; xe8; x86; xa6; x0a; xe8;
  x86; xae; x0a; xe8; x86; xb9; x0a; xe8;
  x86; xb5; x0a; xe8; x86; xab; x0a; xe8
].
(* tests/test_data/whatwg/big5_whatwg_test_decode_out.txt, entries 63232..63487 *)
Definition big5_decode_out_247 : list byte := [
  x86; xb0; x0a; xe8; x86; xac; x0a; xe8;
  x86; xb4; x0a; xe8; x86; xb2; x0a; xe8;
  x86; xb7; x0a; xe8; x86; xa7; x0a; xe8;
  x87; xb2; x0a; xe8; x89; x95; x0a; xe8;
  x89; x96; x0a; xe8; x89; x97; x0a; xe8;
  x95; x96; x0a; xe8; x95; x85; x0a; xe8;
  x95; xab; x0a; xe8; x95; x8d; x0a; xe8;
  x95; x93; x0a; xe8; x95; xa1; x0a; xe8;
  x95; x98; x0a; xe8; x95; x80; x0a; xe8;
  x95; x86; x0a; xe8; x95; xa4; x0a; xe8;
  x95; x81; x0a; xe8; x95; xa2; x0a; xe8;
  x95; x84; x0a; xe8; x95; x91; x0a; xe8;
  x95; x87; x0a; xe8; x95; xa3; x0a; xe8;
  x94; xbe; x0a; xe8; x95; x9b; x0a; xe8;
  x95; xb1; x0a; xe8; x95; x8e; x0a; xe8;
  x95; xae; x0a; xe8; x95; xb5; x0a; xe8;
  x95; x95; x0a; xe8; x95; xa7; x0a; xe8;
  x95; xa0; x0a; xe8; x96; x8c; x0a; xe8;
  x95; xa6; x0a; xe8; x95; x9d; x0a; xe8;
  x95; x94; x0a; xe8; x95; xa5; x0a; xe8;
  x95; xac; x0a; xe8; x99; xa3; x0a; xe8;
  x99; xa5; x0a; xe8; x99; xa4; x0a; xe8;
  x9e; x9b; x0a; xe8; x9e; x8f; x0a; xe8;
  x9e; x97; x0a; xe8; x9e; x93; x0a; xe8;
  x9e; x92; x0a; xe8; x9e; x88; x0a; xe8;
  x9e; x81; x0a; xe8; x9e; x96; x0a; xe8;
  x9e; x98; x0a; xe8; x9d; xb9; x0a; xe8;
  x9e; x87; x0a; xe8; x9e; xa3; x0a; xe8;
  x9e; x85; x0a; xe8; x9e; x90; x0a; xe8;
  x9e; x91; x0a; xe8; x9e; x9d; x0a; xe8;
  x9e; x84; x0a; xe8; x9e; x94; x0a; xe8;
  x9e; x9c; x0a; xe8; x9e; x9a; x0a; xe8
].
(* tests/test_data/whatwg/big5_whatwg_test_decode_out.txt, entries 63488..63743 *)
Definition big5_decode_out_248 : list byte := [
  x9e; x89; x0a; xe8; xa4; x9e; x0a; xe8;
  xa4; xa6; x0a; xe8; xa4; xb0; x0a; xe8;
  xa4; xad; x0a; xe8; xa4; xae; x0a; xe8;
  xa4; xa7; x0a; xe8; xa4; xb1; x0a; xe8;
  xa4; xa2; x0a; xe8; xa4; xa9; x0a; xe8;
  xa4; xa3; x0a; xe8; xa4; xaf; x0a; xe8;
  xa4; xac; x0a; xe8; xa4; x9f; x0a; xe8;
  xa7; xb1; x0a; xe8; xab; xa0; x0a; xe8;
  xab; xa2; x0a; xe8; xab; xb2; x0a; xe8;
  xab; xb4; x0a; xe8; xab; xb5; x0a; xe8;
  xab; x9d; x0a; xe8; xac; x94; x0a; xe8;
  xab; xa4; x0a; xe8; xab; x9f; x0a; xe8;
  xab; xb0; x0a; xe8; xab; x88; x0a; xe8;
  xab; x9e; x0a; xe8; xab; xa1; x0a; xe8;
  xab; xa8; x0a; xe8; xab; xbf; x0a; xe8;
  xab; xaf; x0a; xe8; xab; xbb; x0a; xe8;
  xb2; x91; x0a; xe8; xb2; x92; x0a; xe8;
  xb2; x90; x0a; xe8; xb3; xb5; x0a; xe8;
  xb3; xae; x0a; xe8; xb3; xb1; x0a; xe8;
  xb3; xb0; x0a; xe8; xb3; xb3; x0a; xe8;
  xb5; xac; x0a; xe8; xb5; xae; x0a; xe8;
  xb6; xa5; x0a; xe8; xb6; xa7; x0a; xe8;
  xb8; xb3; x0a; xe8; xb8; xbe; x0a; xe8;
  xb8; xb8; x0a; xe8; xb9; x80; x0a; xe8;
  xb9; x85; x0a; xe8; xb8; xb6; x0a; xe8;
  xb8; xbc; x0a; xe8; xb8; xbd; x0a; xe8;
  xb9; x81; x0a; xe8; xb8; xb0; x0a; xe8;
  xb8; xbf; x0a; xe8; xba; xbd; x0a; xe8;
  xbc; xb6; x0a; xe8; xbc; xae; x0a; xe8;
  xbc; xb5; x0a; xe8; xbc; xb2; x0a; xe8;
  xbc; xb9; x0a; xe8; xbc; xb7; x0a; xe8;
  xbc; xb4; x0a; xe9; x81; xb6; x0a; xe9
].
(* tests/test_data/whatwg/big5_whatwg_test_decode_out.txt, entries 63744..63999 *)
Definition big5_decode_out_249 : list byte := [
  x81; xb9; x0a; xe9; x81; xbb; x0a; xe9;
  x82; x86; x0a; xe9; x83; xba; x0a; xe9;
  x84; xb3; x0a; xe9; x84; xb5; x0a; xe9;
  x84; xb6; x0a; xe9; x86; x93; x0a; xe9;
  x86; x90; x0a; xe9; x86; x91; x0a; xe9;
  x86; x8d; x0a; xe9; x86; x8f; x0a; xe9;
  x8c; xa7; x0a; xe9; x8c; x9e; x0a; xe9;
  x8c; x88; x0a; xe9; x8c; x9f; x0a; xe9;
  x8c; x86; x0a; xe9; x8c; x8f; x0a; xe9;
  x8d; xba; x0a; xe9; x8c; xb8; x0a; xe9;
  x8c; xbc; x0a; xe9; x8c; x9b; x0a; xe9;
  x8c; xa3; x0a; xe9; x8c; x92; x0a; xe9;
  x8c; x81; x0a; xe9; x8d; x86; x0a; xe9;
  x8c; xad; x0a; xe9; x8c; x8e; x0a; xe9;
  x8c; x8d; x0a; xe9; x8b; x8b; x0a; xe9;
  x8c; x9d; x0a; xe9; x8b; xba; x0a; xe9;
  x8c; xa5; x0a; xe9; x8c; x93; x0a; xe9;
  x8b; xb9; x0a; xe9; x8b; xb7; x0a; xe9;
  x8c; xb4; x0a; xe9; x8c; x82; x0a; xe9;
  x8c; xa4; x0a; xe9; x8b; xbf; x0a; xe9;
  x8c; xa9; x0a; xe9; x8c; xb9; x0a; xe9;
  x8c; xb5; x0a; xe9; x8c; xaa; x0a; xe9;
  x8c; x94; x0a; xe9; x8c; x8c; x0a; xe9;
  x8c; x8b; x0a; xe9; x8b; xbe; x0a; xe9;
  x8c; x89; x0a; xe9; x8c; x80; x0a; xe9;
  x8b; xbb; x0a; xe9; x8c; x96; x0a; xe9;
  x96; xbc; x0a; xe9; x97; x8d; x0a; xe9;
  x96; xbe; x0a; xe9; x96; xb9; x0a; xe9;
  x96; xba; x0a; xe9; x96; xb6; x0a; xe9;
  x96; xbf; x0a; xe9; x96; xb5; x0a; xe9;
  x96; xbd; x0a; xe9; x9a; xa9; x0a; xe9;
  x9b; x94; x0a; xe9; x9c; x8b; x0a; xe9
].
(* tests/test_data/whatwg/big5_whatwg_test_decode_out.txt, entries 64000..64255 *)
Definition big5_decode_out_250 : list byte := [
  x9c; x92; x0a; xe9; x9c; x90; x0a; xe9;
  x9e; x99; x0a; xe9; x9e; x97; x0a; xe9;
  x9e; x94; x0a; xe9; x9f; xb0; x0a; xe9;
  x9f; xb8; x0a; xe9; xa0; xb5; x0a; xe9;
  xa0; xaf; x0a; xe9; xa0; xb2; x0a; xe9;
  xa4; xa4; x0a; xe9; xa4; x9f; x0a; xe9;
  xa4; xa7; x0a; xe9; xa4; xa9; x0a; xe9;
  xa6; x9e; x0a; xe9; xa7; xae; x0a; xe9;
  xa7; xac; x0a; xe9; xa7; xa5; x0a; xe9;
  xa7; xa4; x0a; xe9; xa7; xb0; x0a; xe9;
  xa7; xa3; x0a; xe9; xa7; xaa; x0a; xe9;
  xa7; xa9; x0a; xe9; xa7; xa7; x0a; xe9;
  xaa; xb9; x0a; xe9; xaa; xbf; x0a; xe9;
  xaa; xb4; x0a; xe9; xaa; xbb; x0a; xe9;
  xab; xb6; x0a; xe9; xab; xba; x0a; xe9;
  xab; xb9; x0a; xe9; xab; xb7; x0a; xe9;
  xac; xb3; x0a; xe9; xae; x80; x0a; xe9;
  xae; x85; x0a; xe9; xae; x87; x0a; xe9;
  xad; xbc; x0a; xe9; xad; xbe; x0a; xe9;
  xad; xbb; x0a; xe9; xae; x82; x0a; xe9;
  xae; x93; x0a; xe9; xae; x92; x0a; xe9;
  xae; x90; x0a; xe9; xad; xba; x0a; xe9;
  xae; x95; x0a; xe9; xad; xbd; x0a; xe9;
  xae; x88; x0a; xe9; xb4; xa5; x0a; xe9;
  xb4; x97; x0a; xe9; xb4; xa0; x0a; xe9;
  xb4; x9e; x0a; xe9; xb4; x94; x0a; xe9;
  xb4; xa9; x0a; xe9; xb4; x9d; x0a; xe9;
  xb4; x98; x0a; xe9; xb4; xa2; x0a; xe9;
  xb4; x90; x0a; xe9; xb4; x99; x0a; xe9;
  xb4; x9f; x0a; xe9; xba; x88; x0a; xe9;
  xba; x86; x0a; xe9; xba; x87; x0a; xe9;
  xba; xae; x0a; xe9; xba; xad; x0a; xe9
].
(* tests/test_data/whatwg/big5_whatwg_test_decode_out.txt, entries 64256..64511 *)
Definition big5_decode_out_251 : list byte := [
  xbb; x95; x0a; xe9; xbb; x96; x0a; xe9;
  xbb; xba; x0a; xe9; xbc; x92; x0a; xe9;
  xbc; xbd; x0a; xe5; x84; xa6; x0a; xe5;
  x84; xa5; x0a; xe5; x84; xa2; x0a; xe5;
  x84; xa4; x0a; xe5; x84; xa0; x0a; xe5;
  x84; xa9; x0a; xe5; x8b; xb4; x0a; xe5;
  x9a; x93; x0a; xe5; x9a; x8c; x0a; xe5;
  x9a; x8d; x0a; xe5; x9a; x86; x0a; xe5;
  x9a; x84; x0a; xe5; x9a; x83; x0a; xe5;
  x99; xbe; x0a; xe5; x9a; x82; x0a; xe5;
  x99; xbf; x0a; xe5; x9a; x81; x0a; xe5;
  xa3; x96; x0a; xe5; xa3; x94; x0a; xe5;
  xa3; x8f; x0a; xe5; xa3; x92; x0a; xe5;
  xac; xad; x0a; xe5; xac; xa5; x0a; xe5;
  xac; xb2; x0a; xe5; xac; xa3; x0a; xe5;
  xac; xac; x0a; xe5; xac; xa7; x0a; xe5;
  xac; xa6; x0a; xe5; xac; xaf; x0a; xe5;
  xac; xae; x0a; xe5; xad; xbb; x0a; xe5;
  xaf; xb1; x0a; xe5; xaf; xb2; x0a; xe5;
  xb6; xb7; x0a; xe5; xb9; xac; x0a; xe5;
  xb9; xaa; x0a; xe5; xbe; xbe; x0a; xe5;
  xbe; xbb; x0a; xe6; x87; x83; x0a; xe6;
  x86; xb5; x0a; xe6; x86; xbc; x0a; xe6;
  x87; xa7; x0a; xe6; x87; xa0; x0a; xe6;
  x87; xa5; x0a; xe6; x87; xa4; x0a; xe6;
  x87; xa8; x0a; xe6; x87; x9e; x0a; xe6;
  x93; xaf; x0a; xe6; x93; xa9; x0a; xe6;
  x93; xa3; x0a; xe6; x93; xab; x0a; xe6;
  x93; xa4; x0a; xe6; x93; xa8; x0a; xe6;
  x96; x81; x0a; xe6; x96; x80; x0a; xe6;
  x96; xb6; x0a; xe6; x97; x9a; x0a; xe6;
  x9b; x92; x0a; xe6; xaa; x8d; x0a; xe6
].
(* tests/test_data/whatwg/big5_whatwg_test_decode_out.txt, entries 64512..64767 *)
Definition big5_decode_out_252 : list byte := [
  xaa; x96; x0a; xe6; xaa; x81; x0a; xe6;
  xaa; xa5; x0a; xe6; xaa; x89; x0a; xe6;
  xaa; x9f; x0a; xe6; xaa; x9b; x0a; xe6;
  xaa; xa1; x0a; xe6; xaa; x9e; x0a; xe6;
  xaa; x87; x0a; xe6; xaa; x93; x0a; xe6;
  xaa; x8e; x0a; xe6; xaa; x95; x0a; xe6;
  xaa; x83; x0a; xe6; xaa; xa8; x0a; xe6;
  xaa; xa4; x0a; xe6; xaa; x91; x0a; xe6;
  xa9; xbf; x0a; xe6; xaa; xa6; x0a; xe6;
  xaa; x9a; x0a; xe6; xaa; x85; x0a; xe6;
  xaa; x8c; x0a; xe6; xaa; x92; x0a; xe6;
  xad; x9b; x0a; xe6; xae; xad; x0a; xe6;
  xb0; x89; x0a; xe6; xbf; x8c; x0a; xe6;
  xbe; xa9; x0a; xe6; xbf; xb4; x0a; xe6;
  xbf; x94; x0a; xe6; xbf; xa3; x0a; xe6;
  xbf; x9c; x0a; xe6; xbf; xad; x0a; xe6;
  xbf; xa7; x0a; xe6; xbf; xa6; x0a; xe6;
  xbf; x9e; x0a; xe6; xbf; xb2; x0a; xe6;
  xbf; x9d; x0a; xe6; xbf; xa2; x0a; xe6;
  xbf; xa8; x0a; xe7; x87; xa1; x0a; xe7;
  x87; xb1; x0a; xe7; x87; xa8; x0a; xe7;
  x87; xb2; x0a; xe7; x87; xa4; x0a; xe7;
  x87; xb0; x0a; xe7; x87; xa2; x0a; xe7;
  x8d; xb3; x0a; xe7; x8d; xae; x0a; xe7;
  x8d; xaf; x0a; xe7; x92; x97; x0a; xe7;
  x92; xb2; x0a; xe7; x92; xab; x0a; xe7;
  x92; x90; x0a; xe7; x92; xaa; x0a; xe7;
  x92; xad; x0a; xe7; x92; xb1; x0a; xe7;
  x92; xa5; x0a; xe7; x92; xaf; x0a; xe7;
  x94; x90; x0a; xe7; x94; x91; x0a; xe7;
  x94; x92; x0a; xe7; x94; x8f; x0a; xe7;
  x96; x84; x0a; xe7; x99; x83; x0a; xe7
].
(* tests/test_data/whatwg/big5_whatwg_test_decode_out.txt, entries 64768..65023 *)
Definition big5_decode_out_253 : list byte := [
  x99; x88; x0a; xe7; x99; x89; x0a; xe7;
  x99; x87; x0a; xe7; x9a; xa4; x0a; xe7;
  x9b; xa9; x0a; xe7; x9e; xb5; x0a; xe7;
  x9e; xab; x0a; xe7; x9e; xb2; x0a; xe7;
  x9e; xb7; x0a; xe7; x9e; xb6; x0a; xe7;
  x9e; xb4; x0a; xe7; x9e; xb1; x0a; xe7;
  x9e; xa8; x0a; xe7; x9f; xb0; x0a; xe7;
  xa3; xb3; x0a; xe7; xa3; xbd; x0a; xe7;
  xa4; x82; x0a; xe7; xa3; xbb; x0a; xe7;
  xa3; xbc; x0a; xe7; xa3; xb2; x0a; xe7;
  xa4; x85; x0a; xe7; xa3; xb9; x0a; xe7;
  xa3; xbe; x0a; xe7; xa4; x84; x0a; xe7;
  xa6; xab; x0a; xe7; xa6; xa8; x0a; xe7;
  xa9; x9c; x0a; xe7; xa9; x9b; x0a; xe7;
  xa9; x96; x0a; xe7; xa9; x98; x0a; xe7;
  xa9; x94; x0a; xe7; xa9; x9a; x0a; xe7;
  xaa; xbe; x0a; xe7; xab; x80; x0a; xe7;
  xab; x81; x0a; xe7; xb0; x85; x0a; xe7;
  xb0; x8f; x0a; xe7; xaf; xb2; x0a; xe7;
  xb0; x80; x0a; xe7; xaf; xbf; x0a; xe7;
  xaf; xbb; x0a; xe7; xb0; x8e; x0a; xe7;
  xaf; xb4; x0a; xe7; xb0; x8b; x0a; xe7;
  xaf; xb3; x0a; xe7; xb0; x82; x0a; xe7;
  xb0; x89; x0a; xe7; xb0; x83; x0a; xe7;
  xb0; x81; x0a; xe7; xaf; xb8; x0a; xe7;
  xaf; xbd; x0a; xe7; xb0; x86; x0a; xe7;
  xaf; xb0; x0a; xe7; xaf; xb1; x0a; xe7;
  xb0; x90; x0a; xe7; xb0; x8a; x0a; xe7;
  xb3; xa8; x0a; xe7; xb8; xad; x0a; xe7;
  xb8; xbc; x0a; xe7; xb9; x82; x0a; xe7;
  xb8; xb3; x0a; xe9; xa1; x88; x0a; xe7;
  xb8; xb8; x0a; xe7; xb8; xaa; x0a; xe7
].
(* tests/test_data/whatwg/big5_whatwg_test_decode_out.txt, entries 65024..65279 *)
Definition big5_decode_out_254 : list byte := [
  xb9; x89; x0a; xe7; xb9; x80; x0a; xe7;
  xb9; x87; x0a; xe7; xb8; xa9; x0a; xe7;
  xb9; x8c; x0a; xe7; xb8; xb0; x0a; xe7;
  xb8; xbb; x0a; xe7; xb8; xb6; x0a; xe7;
  xb9; x84; x0a; xe7; xb8; xba; x0a; xe7;
  xbd; x85; x0a; xe7; xbd; xbf; x0a; xe7;
  xbd; xbe; x0a; xe7; xbd; xbd; x0a; xe7;
  xbf; xb4; x0a; xe7; xbf; xb2; x0a; xe8;
  x80; xac; x0a; xe8; x86; xbb; x0a; xe8;
  x87; x84; x0a; xe8; x87; x8c; x0a; xe8;
  x87; x8a; x0a; xe8; x87; x85; x0a; xe8;
  x87; x87; x0a; xe8; x86; xbc; x0a; xe8;
  x87; xa9; x0a; xe8; x89; x9b; x0a; xe8;
  x89; x9a; x0a; xe8; x89; x9c; x0a; xe8;
  x96; x83; x0a; xe8; x96; x80; x0a; xe8;
  x96; x8f; x0a; xe8; x96; xa7; x0a; xe8;
  x96; x95; x0a; xe8; x96; xa0; x0a; xe8;
  x96; x8b; x0a; xe8; x96; xa3; x0a; xe8;
  x95; xbb; x0a; xe8; x96; xa4; x0a; xe8;
  x96; x9a; x0a; xe8; x96; x9e; x0a; xe8;
  x95; xb7; x0a; xe8; x95; xbc; x0a; xe8;
  x96; x89; x0a; xe8; x96; xa1; x0a; xe8;
  x95; xba; x0a; xe8; x95; xb8; x0a; xe8;
  x95; x97; x0a; xe8; x96; x8e; x0a; xe8;
  x96; x96; x0a; xe8; x96; x86; x0a; xe8;
  x96; x8d; x0a; xe8; x96; x99; x0a; xe8;
  x96; x9d; x0a; xe8; x96; x81; x0a; xe8;
  x96; xa2; x0a; xe8; x96; x82; x0a; xe8;
  x96; x88; x0a; xe8; x96; x85; x0a; xe8;
  x95; xb9; x0a; xe8; x95; xb6; x0a; xe8;
  x96; x98; x0a; xe8; x96; x90; x0a; xe8;
  x96; x9f; x0a; xe8; x99; xa8; x0a; xe8
].
(* tests/test_data/whatwg/big5_whatwg_test_decode_out.txt, entries 65280..65535 *)
Definition big5_decode_out_255 : list byte := [
  x9e; xbe; x0a; xe8; x9e; xaa; x0a; xe8;
  x9e; xad; x0a; xe8; x9f; x85; x0a; xe8;
  x9e; xb0; x0a; xe8; x9e; xac; x0a; xe8;
  x9e; xb9; x0a; xe8; x9e; xb5; x0a; xe8;
  x9e; xbc; x0a; xe8; x9e; xae; x0a; xe8;
  x9f; x89; x0a; xe8; x9f; x83; x0a; xe8;
  x9f; x82; x0a; xe8; x9f; x8c; x0a; xe8;
  x9e; xb7; x0a; xe8; x9e; xaf; x0a; xe8;
  x9f; x84; x0a; xe8; x9f; x8a; x0a; xe8;
  x9e; xb4; x0a; xe8; x9e; xb6; x0a; xe8;
  x9e; xbf; x0a; xe8; x9e; xb8; x0a; xe8;
  x9e; xbd; x0a; xe8; x9f; x9e; x0a; xe8;
  x9e; xb2; x0a; xe8; xa4; xb5; x0a; xe8;
  xa4; xb3; x0a; xe8; xa4; xbc; x0a; xe8;
  xa4; xbe; x0a; xe8; xa5; x81; x0a; xe8;
  xa5; x92; x0a; xe8; xa4; xb7; x0a; xe8;
  xa5; x82; x0a; xe8; xa6; xad; x0a; xe8;
  xa6; xaf; x0a; xe8; xa6; xae; x0a; xe8;
  xa7; xb2; x0a; xe8; xa7; xb3; x0a; xe8;
  xac; x9e; x0a; xe8; xac; x98; x0a; xe8;
  xac; x96; x0a; xe8; xac; x91; x0a; xe8;
  xac; x85; x0a; xe8; xac; x8b; x0a; xe8;
  xac; xa2; x0a; xe8; xac; x8f; x0a; xe8;
  xac; x92; x0a; xe8; xac; x95; x0a; xe8;
  xac; x87; x0a; xe8; xac; x8d; x0a; xe8;
  xac; x88; x0a; xe8; xac; x86; x0a; xe8;
  xac; x9c; x0a; xe8; xac; x93; x0a; xe8;
  xac; x9a; x0a; xe8; xb1; x8f; x0a; xe8;
  xb1; xb0; x0a; xe8; xb1; xb2; x0a; xe8;
  xb1; xb1; x0a; xe8; xb1; xaf; x0a; xe8;
  xb2; x95; x0a; xe8; xb2; x94; x0a; xe8;
  xb3; xb9; x0a; xe8; xb5; xaf; x0a; xe8
].
(* tests/test_data/whatwg/big5_whatwg_test_decode_out.txt, entries 65536..65791 *)
Definition big5_decode_out_256 : list byte := [
  xb9; x8e; x0a; xe8; xb9; x8d; x0a; xe8;
  xb9; x93; x0a; xe8; xb9; x90; x0a; xe8;
  xb9; x8c; x0a; xe8; xb9; x87; x0a; xe8;
  xbd; x83; x0a; xe8; xbd; x80; x0a; xe9;
  x82; x85; x0a; xe9; x81; xbe; x0a; xe9;
  x84; xb8; x0a; xe9; x86; x9a; x0a; xe9;
  x86; xa2; x0a; xe9; x86; x9b; x0a; xe9;
  x86; x99; x0a; xe9; x86; x9f; x0a; xe9;
  x86; xa1; x0a; xe9; x86; x9d; x0a; xe9;
  x86; xa0; x0a; xe9; x8e; xa1; x0a; xe9;
  x8e; x83; x0a; xe9; x8e; xaf; x0a; xe9;
  x8d; xa4; x0a; xe9; x8d; x96; x0a; xe9;
  x8d; x87; x0a; xe9; x8d; xbc; x0a; xe9;
  x8d; x98; x0a; xe9; x8d; x9c; x0a; xe9;
  x8d; xb6; x0a; xe9; x8d; x89; x0a; xe9;
  x8d; x90; x0a; xe9; x8d; x91; x0a; xe9;
  x8d; xa0; x0a; xe9; x8d; xad; x0a; xe9;
  x8e; x8f; x0a; xe9; x8d; x8c; x0a; xe9;
  x8d; xaa; x0a; xe9; x8d; xb9; x0a; xe9;
  x8d; x97; x0a; xe9; x8d; x95; x0a; xe9;
  x8d; x92; x0a; xe9; x8d; x8f; x0a; xe9;
  x8d; xb1; x0a; xe9; x8d; xb7; x0a; xe9;
  x8d; xbb; x0a; xe9; x8d; xa1; x0a; xe9;
  x8d; x9e; x0a; xe9; x8d; xa3; x0a; xe9;
  x8d; xa7; x0a; xe9; x8e; x80; x0a; xe9;
  x8d; x8e; x0a; xe9; x8d; x99; x0a; xe9;
  x97; x87; x0a; xe9; x97; x80; x0a; xe9;
  x97; x89; x0a; xe9; x97; x83; x0a; xe9;
  x97; x85; x0a; xe9; x96; xb7; x0a; xe9;
  x9a; xae; x0a; xe9; x9a; xb0; x0a; xe9;
  x9a; xac; x0a; xe9; x9c; xa0; x0a; xe9;
  x9c; x9f; x0a; xe9; x9c; x98; x0a; xe9
].
(* tests/test_data/whatwg/big5_whatwg_test_decode_out.txt, entries 65792..66047 *)
Definition big5_decode_out_257 : list byte := [
  x9c; x9d; x0a; xe9; x9c; x99; x0a; xe9;
  x9e; x9a; x0a; xe9; x9e; xa1; x0a; xe9;
  x9e; x9c; x0a; xe9; x9e; x9e; x0a; xe9;
  x9e; x9d; x0a; xe9; x9f; x95; x0a; xe9;
  x9f; x94; x0a; xe9; x9f; xb1; x0a; xe9;
  xa1; x81; x0a; xe9; xa1; x84; x0a; xe9;
  xa1; x8a; x0a; xe9; xa1; x89; x0a; xe9;
  xa1; x85; x0a; xe9; xa1; x83; x0a; xe9;
  xa4; xa5; x0a; xe9; xa4; xab; x0a; xe9;
  xa4; xac; x0a; xe9; xa4; xaa; x0a; xe9;
  xa4; xb3; x0a; xe9; xa4; xb2; x0a; xe9;
  xa4; xaf; x0a; xe9; xa4; xad; x0a; xe9;
  xa4; xb1; x0a; xe9; xa4; xb0; x0a; xe9;
  xa6; x98; x0a; xe9; xa6; xa3; x0a; xe9;
  xa6; xa1; x0a; xe9; xa8; x82; x0a; xe9;
  xa7; xba; x0a; xe9; xa7; xb4; x0a; xe9;
  xa7; xb7; x0a; xe9; xa7; xb9; x0a; xe9;
  xa7; xb8; x0a; xe9; xa7; xb6; x0a; xe9;
  xa7; xbb; x0a; xe9; xa7; xbd; x0a; xe9;
  xa7; xbe; x0a; xe9; xa7; xbc; x0a; xe9;
  xa8; x83; x0a; xe9; xaa; xbe; x0a; xe9;
  xab; xbe; x0a; xe9; xab; xbd; x0a; xe9;
  xac; x81; x0a; xe9; xab; xbc; x0a; xe9;
  xad; x88; x0a; xe9; xae; x9a; x0a; xe9;
  xae; xa8; x0a; xe9; xae; x9e; x0a; xe9;
  xae; x9b; x0a; xe9; xae; xa6; x0a; xe9;
  xae; xa1; x0a; xe9; xae; xa5; x0a; xe9;
  xae; xa4; x0a; xe9; xae; x86; x0a; xe9;
  xae; xa2; x0a; xe9; xae; xa0; x0a; xe9;
  xae; xaf; x0a; xe9; xb4; xb3; x0a; xe9;
  xb5; x81; x0a; xe9; xb5; xa7; x0a; xe9;
  xb4; xb6; x0a; xe9; xb4; xae; x0a; xe9
].
(* tests/test_data/whatwg/big5_whatwg_test_decode_out.txt, entries 66048..66303 *)
Definition big5_decode_out_258 : list byte := [
  xb4; xaf; x0a; xe9; xb4; xb1; x0a; xe9;
  xb4; xb8; x0a; xe9; xb4; xb0; x0a; xe9;
  xb5; x85; x0a; xe9; xb5; x82; x0a; xe9;
  xb5; x83; x0a; xe9; xb4; xbe; x0a; xe9;
  xb4; xb7; x0a; xe9; xb5; x80; x0a; xe9;
  xb4; xbd; x0a; xe7; xbf; xb5; x0a; xe9;
  xb4; xad; x0a; xe9; xba; x8a; x0a; xe9;
  xba; x89; x0a; xe9; xba; x8d; x0a; xe9;
  xba; xb0; x0a; xe9; xbb; x88; x0a; xe9;
  xbb; x9a; x0a; xe9; xbb; xbb; x0a; xe9;
  xbb; xbf; x0a; xe9; xbc; xa4; x0a; xe9;
  xbc; xa3; x0a; xe9; xbc; xa2; x0a; xe9;
  xbd; x94; x0a; xe9; xbe; xa0; x0a; xe5;
  x84; xb1; x0a; xe5; x84; xad; x0a; xe5;
  x84; xae; x0a; xe5; x9a; x98; x0a; xe5;
  x9a; x9c; x0a; xe5; x9a; x97; x0a; xe5;
  x9a; x9a; x0a; xe5; x9a; x9d; x0a; xe5;
  x9a; x99; x0a; xe5; xa5; xb0; x0a; xe5;
  xac; xbc; x0a; xe5; xb1; xa9; x0a; xe5;
  xb1; xaa; x0a; xe5; xb7; x80; x0a; xe5;
  xb9; xad; x0a; xe5; xb9; xae; x0a; xe6;
  x87; x98; x0a; xe6; x87; x9f; x0a; xe6;
  x87; xad; x0a; xe6; x87; xae; x0a; xe6;
  x87; xb1; x0a; xe6; x87; xaa; x0a; xe6;
  x87; xb0; x0a; xe6; x87; xab; x0a; xe6;
  x87; x96; x0a; xe6; x87; xa9; x0a; xe6;
  x93; xbf; x0a; xe6; x94; x84; x0a; xe6;
  x93; xbd; x0a; xe6; x93; xb8; x0a; xe6;
  x94; x81; x0a; xe6; x94; x83; x0a; xe6;
  x93; xbc; x0a; xe6; x96; x94; x0a; xe6;
  x97; x9b; x0a; xe6; x9b; x9a; x0a; xe6;
  x9b; x9b; x0a; xe6; x9b; x98; x0a; xe6
].
(* tests/test_data/whatwg/big5_whatwg_test_decode_out.txt, entries 66304..66559 *)
Definition big5_decode_out_259 : list byte := [
  xab; x85; x0a; xe6; xaa; xb9; x0a; xe6;
  xaa; xbd; x0a; xe6; xab; xa1; x0a; xe6;
  xab; x86; x0a; xe6; xaa; xba; x0a; xe6;
  xaa; xb6; x0a; xe6; xaa; xb7; x0a; xe6;
  xab; x87; x0a; xe6; xaa; xb4; x0a; xe6;
  xaa; xad; x0a; xe6; xad; x9e; x0a; xe6;
  xaf; x89; x0a; xe6; xb0; x8b; x0a; xe7;
  x80; x87; x0a; xe7; x80; x8c; x0a; xe7;
  x80; x8d; x0a; xe7; x80; x81; x0a; xe7;
  x80; x85; x0a; xe7; x80; x94; x0a; xe7;
  x80; x8e; x0a; xe6; xbf; xbf; x0a; xe7;
  x80; x80; x0a; xe6; xbf; xbb; x0a; xe7;
  x80; xa6; x0a; xe6; xbf; xbc; x0a; xe6;
  xbf; xb7; x0a; xe7; x80; x8a; x0a; xe7;
  x88; x81; x0a; xe7; x87; xbf; x0a; xe7;
  x87; xb9; x0a; xe7; x88; x83; x0a; xe7;
  x87; xbd; x0a; xe7; x8d; xb6; x0a; xe7;
  x92; xb8; x0a; xe7; x93; x80; x0a; xe7;
  x92; xb5; x0a; xe7; x93; x81; x0a; xe7;
  x92; xbe; x0a; xe7; x92; xb6; x0a; xe7;
  x92; xbb; x0a; xe7; x93; x82; x0a; xe7;
  x94; x94; x0a; xe7; x94; x93; x0a; xe7;
  x99; x9c; x0a; xe7; x99; xa4; x0a; xe7;
  x99; x99; x0a; xe7; x99; x90; x0a; xe7;
  x99; x93; x0a; xe7; x99; x97; x0a; xe7;
  x99; x9a; x0a; xe7; x9a; xa6; x0a; xe7;
  x9a; xbd; x0a; xe7; x9b; xac; x0a; xe7;
  x9f; x82; x0a; xe7; x9e; xba; x0a; xe7;
  xa3; xbf; x0a; xe7; xa4; x8c; x0a; xe7;
  xa4; x93; x0a; xe7; xa4; x94; x0a; xe7;
  xa4; x89; x0a; xe7; xa4; x90; x0a; xe7;
  xa4; x92; x0a; xe7; xa4; x91; x0a; xe7
].
(* tests/test_data/whatwg/big5_whatwg_test_decode_out.txt, entries 66560..66815 *)
Definition big5_decode_out_260 : list byte := [
  xa6; xad; x0a; xe7; xa6; xac; x0a; xe7;
  xa9; x9f; x0a; xe7; xb0; x9c; x0a; xe7;
  xb0; xa9; x0a; xe7; xb0; x99; x0a; xe7;
  xb0; xa0; x0a; xe7; xb0; x9f; x0a; xe7;
  xb0; xad; x0a; xe7; xb0; x9d; x0a; xe7;
  xb0; xa6; x0a; xe7; xb0; xa8; x0a; xe7;
  xb0; xa2; x0a; xe7; xb0; xa5; x0a; xe7;
  xb0; xb0; x0a; xe7; xb9; x9c; x0a; xe7;
  xb9; x90; x0a; xe7; xb9; x96; x0a; xe7;
  xb9; xa3; x0a; xe7; xb9; x98; x0a; xe7;
  xb9; xa2; x0a; xe7; xb9; x9f; x0a; xe7;
  xb9; x91; x0a; xe7; xb9; xa0; x0a; xe7;
  xb9; x97; x0a; xe7; xb9; x93; x0a; xe7;
  xbe; xb5; x0a; xe7; xbe; xb3; x0a; xe7;
  xbf; xb7; x0a; xe7; xbf; xb8; x0a; xe8;
  x81; xb5; x0a; xe8; x87; x91; x0a; xe8;
  x87; x92; x0a; xe8; x87; x90; x0a; xe8;
  x89; x9f; x0a; xe8; x89; x9e; x0a; xe8;
  x96; xb4; x0a; xe8; x97; x86; x0a; xe8;
  x97; x80; x0a; xe8; x97; x83; x0a; xe8;
  x97; x82; x0a; xe8; x96; xb3; x0a; xe8;
  x96; xb5; x0a; xe8; x96; xbd; x0a; xe8;
  x97; x87; x0a; xe8; x97; x84; x0a; xe8;
  x96; xbf; x0a; xe8; x97; x8b; x0a; xe8;
  x97; x8e; x0a; xe8; x97; x88; x0a; xe8;
  x97; x85; x0a; xe8; x96; xb1; x0a; xe8;
  x96; xb6; x0a; xe8; x97; x92; x0a; xe8;
  x98; xa4; x0a; xe8; x96; xb8; x0a; xe8;
  x96; xb7; x0a; xe8; x96; xbe; x0a; xe8;
  x99; xa9; x0a; xe8; x9f; xa7; x0a; xe8;
  x9f; xa6; x0a; xe8; x9f; xa2; x0a; xe8;
  x9f; x9b; x0a; xe8; x9f; xab; x0a; xe8
].
(* tests/test_data/whatwg/big5_whatwg_test_decode_out.txt, entries 66816..67071 *)
Definition big5_decode_out_261 : list byte := [
  x9f; xaa; x0a; xe8; x9f; xa5; x0a; xe8;
  x9f; x9f; x0a; xe8; x9f; xb3; x0a; xe8;
  x9f; xa4; x0a; xe8; x9f; x94; x0a; xe8;
  x9f; x9c; x0a; xe8; x9f; x93; x0a; xe8;
  x9f; xad; x0a; xe8; x9f; x98; x0a; xe8;
  x9f; xa3; x0a; xe8; x9e; xa4; x0a; xe8;
  x9f; x97; x0a; xe8; x9f; x99; x0a; xe8;
  xa0; x81; x0a; xe8; x9f; xb4; x0a; xe8;
  x9f; xa8; x0a; xe8; x9f; x9d; x0a; xe8;
  xa5; x93; x0a; xe8; xa5; x8b; x0a; xe8;
  xa5; x8f; x0a; xe8; xa5; x8c; x0a; xe8;
  xa5; x86; x0a; xe8; xa5; x90; x0a; xe8;
  xa5; x91; x0a; xe8; xa5; x89; x0a; xe8;
  xac; xaa; x0a; xe8; xac; xa7; x0a; xe8;
  xac; xa3; x0a; xe8; xac; xb3; x0a; xe8;
  xac; xb0; x0a; xe8; xac; xb5; x0a; xe8;
  xad; x87; x0a; xe8; xac; xaf; x0a; xe8;
  xac; xbc; x0a; xe8; xac; xbe; x0a; xe8;
  xac; xb1; x0a; xe8; xac; xa5; x0a; xe8;
  xac; xb7; x0a; xe8; xac; xa6; x0a; xe8;
  xac; xb6; x0a; xe8; xac; xae; x0a; xe8;
  xac; xa4; x0a; xe8; xac; xbb; x0a; xe8;
  xac; xbd; x0a; xe8; xac; xba; x0a; xe8;
  xb1; x82; x0a; xe8; xb1; xb5; x0a; xe8;
  xb2; x99; x0a; xe8; xb2; x98; x0a; xe8;
  xb2; x97; x0a; xe8; xb3; xbe; x0a; xe8;
  xb4; x84; x0a; xe8; xb4; x82; x0a; xe8;
  xb4; x80; x0a; xe8; xb9; x9c; x0a; xe8;
  xb9; xa2; x0a; xe8; xb9; xa0; x0a; xe8;
  xb9; x97; x0a; xe8; xb9; x96; x0a; xe8;
  xb9; x9e; x0a; xe8; xb9; xa5; x0a; xe8;
  xb9; xa7; x0a; xe8; xb9; x9b; x0a; xe8
].
(* tests/test_data/whatwg/big5_whatwg_test_decode_out.txt, entries 67072..67327 *)
Definition big5_decode_out_262 : list byte := [
  xb9; x9a; x0a; xe8; xb9; xa1; x0a; xe8;
  xb9; x9d; x0a; xe8; xb9; xa9; x0a; xe8;
  xb9; x94; x0a; xe8; xbd; x86; x0a; xe8;
  xbd; x87; x0a; xe8; xbd; x88; x0a; xe8;
  xbd; x8b; x0a; xe9; x84; xa8; x0a; xe9;
  x84; xba; x0a; xe9; x84; xbb; x0a; xe9;
  x84; xbe; x0a; xe9; x86; xa8; x0a; xe9;
  x86; xa5; x0a; xe9; x86; xa7; x0a; xe9;
  x86; xaf; x0a; xe9; x86; xaa; x0a; xe9;
  x8e; xb5; x0a; xe9; x8e; x8c; x0a; xe9;
  x8e; x92; x0a; xe9; x8e; xb7; x0a; xe9;
  x8e; x9b; x0a; xe9; x8e; x9d; x0a; xe9;
  x8e; x89; x0a; xe9; x8e; xa7; x0a; xe9;
  x8e; x8e; x0a; xe9; x8e; xaa; x0a; xe9;
  x8e; x9e; x0a; xe9; x8e; xa6; x0a; xe9;
  x8e; x95; x0a; xe9; x8e; x88; x0a; xe9;
  x8e; x99; x0a; xe9; x8e; x9f; x0a; xe9;
  x8e; x8d; x0a; xe9; x8e; xb1; x0a; xe9;
  x8e; x91; x0a; xe9; x8e; xb2; x0a; xe9;
  x8e; xa4; x0a; xe9; x8e; xa8; x0a; xe9;
  x8e; xb4; x0a; xe9; x8e; xa3; x0a; xe9;
  x8e; xa5; x0a; xe9; x97; x92; x0a; xe9;
  x97; x93; x0a; xe9; x97; x91; x0a; xe9;
  x9a; xb3; x0a; xe9; x9b; x97; x0a; xe9;
  x9b; x9a; x0a; xe5; xb7; x82; x0a; xe9;
  x9b; x9f; x0a; xe9; x9b; x98; x0a; xe9;
  x9b; x9d; x0a; xe9; x9c; xa3; x0a; xe9;
  x9c; xa2; x0a; xe9; x9c; xa5; x0a; xe9;
  x9e; xac; x0a; xe9; x9e; xae; x0a; xe9;
  x9e; xa8; x0a; xe9; x9e; xab; x0a; xe9;
  x9e; xa4; x0a; xe9; x9e; xaa; x0a; xe9;
  x9e; xa2; x0a; xe9; x9e; xa5; x0a; xe9
].
(* tests/test_data/whatwg/big5_whatwg_test_decode_out.txt, entries 67328..67583 *)
Definition big5_decode_out_263 : list byte := [
  x9f; x97; x0a; xe9; x9f; x99; x0a; xe9;
  x9f; x96; x0a; xe9; x9f; x98; x0a; xe9;
  x9f; xba; x0a; xe9; xa1; x90; x0a; xe9;
  xa1; x91; x0a; xe9; xa1; x92; x0a; xe9;
  xa2; xb8; x0a; xe9; xa5; x81; x0a; xe9;
  xa4; xbc; x0a; xe9; xa4; xba; x0a; xe9;
  xa8; x8f; x0a; xe9; xa8; x8b; x0a; xe9;
  xa8; x89; x0a; xe9; xa8; x8d; x0a; xe9;
  xa8; x84; x0a; xe9; xa8; x91; x0a; xe9;
  xa8; x8a; x0a; xe9; xa8; x85; x0a; xe9;
  xa8; x87; x0a; xe9; xa8; x86; x0a; xe9;
  xab; x80; x0a; xe9; xab; x9c; x0a; xe9;
  xac; x88; x0a; xe9; xac; x84; x0a; xe9;
  xac; x85; x0a; xe9; xac; xa9; x0a; xe9;
  xac; xb5; x0a; xe9; xad; x8a; x0a; xe9;
  xad; x8c; x0a; xe9; xad; x8b; x0a; xe9;
  xaf; x87; x0a; xe9; xaf; x86; x0a; xe9;
  xaf; x83; x0a; xe9; xae; xbf; x0a; xe9;
  xaf; x81; x0a; xe9; xae; xb5; x0a; xe9;
  xae; xb8; x0a; xe9; xaf; x93; x0a; xe9;
  xae; xb6; x0a; xe9; xaf; x84; x0a; xe9;
  xae; xb9; x0a; xe9; xae; xbd; x0a; xe9;
  xb5; x9c; x0a; xe9; xb5; x93; x0a; xe9;
  xb5; x8f; x0a; xe9; xb5; x8a; x0a; xe9;
  xb5; x9b; x0a; xe9; xb5; x8b; x0a; xe9;
  xb5; x99; x0a; xe9; xb5; x96; x0a; xe9;
  xb5; x8c; x0a; xe9; xb5; x97; x0a; xe9;
  xb5; x92; x0a; xe9; xb5; x94; x0a; xe9;
  xb5; x9f; x0a; xe9; xb5; x98; x0a; xe9;
  xb5; x9a; x0a; xe9; xba; x8e; x0a; xe9;
  xba; x8c; x0a; xe9; xbb; x9f; x0a; xe9;
  xbc; x81; x0a; xe9; xbc; x80; x0a; xe9
].
(* tests/test_data/whatwg/big5_whatwg_test_decode_out.txt, entries 67584..67839 *)
Definition big5_decode_out_264 : list byte := [
  xbc; x96; x0a; xe9; xbc; xa5; x0a; xe9;
  xbc; xab; x0a; xe9; xbc; xaa; x0a; xe9;
  xbc; xa9; x0a; xe9; xbc; xa8; x0a; xe9;
  xbd; x8c; x0a; xe9; xbd; x95; x0a; xe5;
  x84; xb4; x0a; xe5; x84; xb5; x0a; xe5;
  x8a; x96; x0a; xe5; x8b; xb7; x0a; xe5;
  x8e; xb4; x0a; xe5; x9a; xab; x0a; xe5;
  x9a; xad; x0a; xe5; x9a; xa6; x0a; xe5;
  x9a; xa7; x0a; xe5; x9a; xaa; x0a; xe5;
  x9a; xac; x0a; xe5; xa3; x9a; x0a; xe5;
  xa3; x9d; x0a; xe5; xa3; x9b; x0a; xe5;
  xa4; x92; x0a; xe5; xac; xbd; x0a; xe5;
  xac; xbe; x0a; xe5; xac; xbf; x0a; xe5;
  xb7; x83; x0a; xe5; xb9; xb0; x0a; xe5;
  xbe; xbf; x0a; xe6; x87; xbb; x0a; xe6;
  x94; x87; x0a; xe6; x94; x90; x0a; xe6;
  x94; x8d; x0a; xe6; x94; x89; x0a; xe6;
  x94; x8c; x0a; xe6; x94; x8e; x0a; xe6;
  x96; x84; x0a; xe6; x97; x9e; x0a; xe6;
  x97; x9d; x0a; xe6; x9b; x9e; x0a; xe6;
  xab; xa7; x0a; xe6; xab; xa0; x0a; xe6;
  xab; x8c; x0a; xe6; xab; x91; x0a; xe6;
  xab; x99; x0a; xe6; xab; x8b; x0a; xe6;
  xab; x9f; x0a; xe6; xab; x9c; x0a; xe6;
  xab; x90; x0a; xe6; xab; xab; x0a; xe6;
  xab; x8f; x0a; xe6; xab; x8d; x0a; xe6;
  xab; x9e; x0a; xe6; xad; xa0; x0a; xe6;
  xae; xb0; x0a; xe6; xb0; x8c; x0a; xe7;
  x80; x99; x0a; xe7; x80; xa7; x0a; xe7;
  x80; xa0; x0a; xe7; x80; x96; x0a; xe7;
  x80; xab; x0a; xe7; x80; xa1; x0a; xe7;
  x80; xa2; x0a; xe7; x80; xa3; x0a; xe7
].
(* tests/test_data/whatwg/big5_whatwg_test_decode_out.txt, entries 67840..68095 *)
Definition big5_decode_out_265 : list byte := [
  x80; xa9; x0a; xe7; x80; x97; x0a; xe7;
  x80; xa4; x0a; xe7; x80; x9c; x0a; xe7;
  x80; xaa; x0a; xe7; x88; x8c; x0a; xe7;
  x88; x8a; x0a; xe7; x88; x87; x0a; xe7;
  x88; x82; x0a; xe7; x88; x85; x0a; xe7;
  x8a; xa5; x0a; xe7; x8a; xa6; x0a; xe7;
  x8a; xa4; x0a; xe7; x8a; xa3; x0a; xe7;
  x8a; xa1; x0a; xe7; x93; x8b; x0a; xe7;
  x93; x85; x0a; xe7; x92; xb7; x0a; xe7;
  x93; x83; x0a; xe7; x94; x96; x0a; xe7;
  x99; xa0; x0a; xe7; x9f; x89; x0a; xe7;
  x9f; x8a; x0a; xe7; x9f; x84; x0a; xe7;
  x9f; xb1; x0a; xe7; xa4; x9d; x0a; xe7;
  xa4; x9b; x0a; xe7; xa4; xa1; x0a; xe7;
  xa4; x9c; x0a; xe7; xa4; x97; x0a; xe7;
  xa4; x9e; x0a; xe7; xa6; xb0; x0a; xe7;
  xa9; xa7; x0a; xe7; xa9; xa8; x0a; xe7;
  xb0; xb3; x0a; xe7; xb0; xbc; x0a; xe7;
  xb0; xb9; x0a; xe7; xb0; xac; x0a; xe7;
  xb0; xbb; x0a; xe7; xb3; xac; x0a; xe7;
  xb3; xaa; x0a; xe7; xb9; xb6; x0a; xe7;
  xb9; xb5; x0a; xe7; xb9; xb8; x0a; xe7;
  xb9; xb0; x0a; xe7; xb9; xb7; x0a; xe7;
  xb9; xaf; x0a; xe7; xb9; xba; x0a; xe7;
  xb9; xb2; x0a; xe7; xb9; xb4; x0a; xe7;
  xb9; xa8; x0a; xe7; xbd; x8b; x0a; xe7;
  xbd; x8a; x0a; xe7; xbe; x83; x0a; xe7;
  xbe; x86; x0a; xe7; xbe; xb7; x0a; xe7;
  xbf; xbd; x0a; xe7; xbf; xbe; x0a; xe8;
  x81; xb8; x0a; xe8; x87; x97; x0a; xe8;
  x87; x95; x0a; xe8; x89; xa4; x0a; xe8;
  x89; xa1; x0a; xe8; x89; xa3; x0a; xe8
].
(* tests/test_data/whatwg/big5_whatwg_test_decode_out.txt, entries 68096..68351 *)
Definition big5_decode_out_266 : list byte := [
  x97; xab; x0a; xe8; x97; xb1; x0a; xe8;
  x97; xad; x0a; xe8; x97; x99; x0a; xe8;
  x97; xa1; x0a; xe8; x97; xa8; x0a; xe8;
  x97; x9a; x0a; xe8; x97; x97; x0a; xe8;
  x97; xac; x0a; xe8; x97; xb2; x0a; xe8;
  x97; xb8; x0a; xe8; x97; x98; x0a; xe8;
  x97; x9f; x0a; xe8; x97; xa3; x0a; xe8;
  x97; x9c; x0a; xe8; x97; x91; x0a; xe8;
  x97; xb0; x0a; xe8; x97; xa6; x0a; xe8;
  x97; xaf; x0a; xe8; x97; x9e; x0a; xe8;
  x97; xa2; x0a; xe8; xa0; x80; x0a; xe8;
  x9f; xba; x0a; xe8; xa0; x83; x0a; xe8;
  x9f; xb6; x0a; xe8; x9f; xb7; x0a; xe8;
  xa0; x89; x0a; xe8; xa0; x8c; x0a; xe8;
  xa0; x8b; x0a; xe8; xa0; x86; x0a; xe8;
  x9f; xbc; x0a; xe8; xa0; x88; x0a; xe8;
  x9f; xbf; x0a; xe8; xa0; x8a; x0a; xe8;
  xa0; x82; x0a; xe8; xa5; xa2; x0a; xe8;
  xa5; x9a; x0a; xe8; xa5; x9b; x0a; xe8;
  xa5; x97; x0a; xe8; xa5; xa1; x0a; xe8;
  xa5; x9c; x0a; xe8; xa5; x98; x0a; xe8;
  xa5; x9d; x0a; xe8; xa5; x99; x0a; xe8;
  xa6; x88; x0a; xe8; xa6; xb7; x0a; xe8;
  xa6; xb6; x0a; xe8; xa7; xb6; x0a; xe8;
  xad; x90; x0a; xe8; xad; x88; x0a; xe8;
  xad; x8a; x0a; xe8; xad; x80; x0a; xe8;
  xad; x93; x0a; xe8; xad; x96; x0a; xe8;
  xad; x94; x0a; xe8; xad; x8b; x0a; xe8;
  xad; x95; x0a; xe8; xad; x91; x0a; xe8;
  xad; x82; x0a; xe8; xad; x92; x0a; xe8;
  xad; x97; x0a; xe8; xb1; x83; x0a; xe8;
  xb1; xb7; x0a; xe8; xb1; xb6; x0a; xe8
].
(* tests/test_data/whatwg/big5_whatwg_test_decode_out.txt, entries 68352..68607 *)
Definition big5_decode_out_267 : list byte := [
  xb2; x9a; x0a; xe8; xb4; x86; x0a; xe8;
  xb4; x87; x0a; xe8; xb4; x89; x0a; xe8;
  xb6; xac; x0a; xe8; xb6; xaa; x0a; xe8;
  xb6; xad; x0a; xe8; xb6; xab; x0a; xe8;
  xb9; xad; x0a; xe8; xb9; xb8; x0a; xe8;
  xb9; xb3; x0a; xe8; xb9; xaa; x0a; xe8;
  xb9; xaf; x0a; xe8; xb9; xbb; x0a; xe8;
  xbb; x82; x0a; xe8; xbd; x92; x0a; xe8;
  xbd; x91; x0a; xe8; xbd; x8f; x0a; xe8;
  xbd; x90; x0a; xe8; xbd; x93; x0a; xe8;
  xbe; xb4; x0a; xe9; x85; x80; x0a; xe9;
  x84; xbf; x0a; xe9; x86; xb0; x0a; xe9;
  x86; xad; x0a; xe9; x8f; x9e; x0a; xe9;
  x8f; x87; x0a; xe9; x8f; x8f; x0a; xe9;
  x8f; x82; x0a; xe9; x8f; x9a; x0a; xe9;
  x8f; x90; x0a; xe9; x8f; xb9; x0a; xe9;
  x8f; xac; x0a; xe9; x8f; x8c; x0a; xe9;
  x8f; x99; x0a; xe9; x8e; xa9; x0a; xe9;
  x8f; xa6; x0a; xe9; x8f; x8a; x0a; xe9;
  x8f; x94; x0a; xe9; x8f; xae; x0a; xe9;
  x8f; xa3; x0a; xe9; x8f; x95; x0a; xe9;
  x8f; x84; x0a; xe9; x8f; x8e; x0a; xe9;
  x8f; x80; x0a; xe9; x8f; x92; x0a; xe9;
  x8f; xa7; x0a; xe9; x95; xbd; x0a; xe9;
  x97; x9a; x0a; xe9; x97; x9b; x0a; xe9;
  x9b; xa1; x0a; xe9; x9c; xa9; x0a; xe9;
  x9c; xab; x0a; xe9; x9c; xac; x0a; xe9;
  x9c; xa8; x0a; xe9; x9c; xa6; x0a; xe9;
  x9e; xb3; x0a; xe9; x9e; xb7; x0a; xe9;
  x9e; xb6; x0a; xe9; x9f; x9d; x0a; xe9;
  x9f; x9e; x0a; xe9; x9f; x9f; x0a; xe9;
  xa1; x9c; x0a; xe9; xa1; x99; x0a; xe9
].
(* tests/test_data/whatwg/big5_whatwg_test_decode_out.txt, entries 68608..68863 *)
Definition big5_decode_out_268 : list byte := [
  xa1; x9d; x0a; xe9; xa1; x97; x0a; xe9;
  xa2; xbf; x0a; xe9; xa2; xbd; x0a; xe9;
  xa2; xbb; x0a; xe9; xa2; xbe; x0a; xe9;
  xa5; x88; x0a; xe9; xa5; x87; x0a; xe9;
  xa5; x83; x0a; xe9; xa6; xa6; x0a; xe9;
  xa6; xa7; x0a; xe9; xa8; x9a; x0a; xe9;
  xa8; x95; x0a; xe9; xa8; xa5; x0a; xe9;
  xa8; x9d; x0a; xe9; xa8; xa4; x0a; xe9;
  xa8; x9b; x0a; xe9; xa8; xa2; x0a; xe9;
  xa8; xa0; x0a; xe9; xa8; xa7; x0a; xe9;
  xa8; xa3; x0a; xe9; xa8; x9e; x0a; xe9;
  xa8; x9c; x0a; xe9; xa8; x94; x0a; xe9;
  xab; x82; x0a; xe9; xac; x8b; x0a; xe9;
  xac; x8a; x0a; xe9; xac; x8e; x0a; xe9;
  xac; x8c; x0a; xe9; xac; xb7; x0a; xe9;
  xaf; xaa; x0a; xe9; xaf; xab; x0a; xe9;
  xaf; xa0; x0a; xe9; xaf; x9e; x0a; xe9;
  xaf; xa4; x0a; xe9; xaf; xa6; x0a; xe9;
  xaf; xa2; x0a; xe9; xaf; xb0; x0a; xe9;
  xaf; x94; x0a; xe9; xaf; x97; x0a; xe9;
  xaf; xac; x0a; xe9; xaf; x9c; x0a; xe9;
  xaf; x99; x0a; xe9; xaf; xa5; x0a; xe9;
  xaf; x95; x0a; xe9; xaf; xa1; x0a; xe9;
  xaf; x9a; x0a; xe9; xb5; xb7; x0a; xe9;
  xb6; x81; x0a; xe9; xb6; x8a; x0a; xe9;
  xb6; x84; x0a; xe9; xb6; x88; x0a; xe9;
  xb5; xb1; x0a; xe9; xb6; x80; x0a; xe9;
  xb5; xb8; x0a; xe9; xb6; x86; x0a; xe9;
  xb6; x8b; x0a; xe9; xb6; x8c; x0a; xe9;
  xb5; xbd; x0a; xe9; xb5; xab; x0a; xe9;
  xb5; xb4; x0a; xe9; xb5; xb5; x0a; xe9;
  xb5; xb0; x0a; xe9; xb5; xa9; x0a; xe9
].
(* tests/test_data/whatwg/big5_whatwg_test_decode_out.txt, entries 68864..69119 *)
Definition big5_decode_out_269 : list byte := [
  xb6; x85; x0a; xe9; xb5; xb3; x0a; xe9;
  xb5; xbb; x0a; xe9; xb6; x82; x0a; xe9;
  xb5; xaf; x0a; xe9; xb5; xb9; x0a; xe9;
  xb5; xbf; x0a; xe9; xb6; x87; x0a; xe9;
  xb5; xa8; x0a; xe9; xba; x94; x0a; xe9;
  xba; x91; x0a; xe9; xbb; x80; x0a; xe9;
  xbb; xbc; x0a; xe9; xbc; xad; x0a; xe9;
  xbd; x80; x0a; xe9; xbd; x81; x0a; xe9;
  xbd; x8d; x0a; xe9; xbd; x96; x0a; xe9;
  xbd; x97; x0a; xe9; xbd; x98; x0a; xe5;
  x8c; xb7; x0a; xe5; x9a; xb2; x0a; xe5;
  x9a; xb5; x0a; xe5; x9a; xb3; x0a; xe5;
  xa3; xa3; x0a; xe5; xad; x85; x0a; xe5;
  xb7; x86; x0a; xe5; xb7; x87; x0a; xe5;
  xbb; xae; x0a; xe5; xbb; xaf; x0a; xe5;
  xbf; x80; x0a; xe5; xbf; x81; x0a; xe6;
  x87; xb9; x0a; xe6; x94; x97; x0a; xe6;
  x94; x96; x0a; xe6; x94; x95; x0a; xe6;
  x94; x93; x0a; xe6; x97; x9f; x0a; xe6;
  x9b; xa8; x0a; xe6; x9b; xa3; x0a; xe6;
  x9b; xa4; x0a; xe6; xab; xb3; x0a; xe6;
  xab; xb0; x0a; xe6; xab; xaa; x0a; xe6;
  xab; xa8; x0a; xe6; xab; xb9; x0a; xe6;
  xab; xb1; x0a; xe6; xab; xae; x0a; xe6;
  xab; xaf; x0a; xe7; x80; xbc; x0a; xe7;
  x80; xb5; x0a; xe7; x80; xaf; x0a; xe7;
  x80; xb7; x0a; xe7; x80; xb4; x0a; xe7;
  x80; xb1; x0a; xe7; x81; x82; x0a; xe7;
  x80; xb8; x0a; xe7; x80; xbf; x0a; xe7;
  x80; xba; x0a; xe7; x80; xb9; x0a; xe7;
  x81; x80; x0a; xe7; x80; xbb; x0a; xe7;
  x80; xb3; x0a; xe7; x81; x81; x0a; xe7
].
(* tests/test_data/whatwg/big5_whatwg_test_decode_out.txt, entries 69120..69375 *)
Definition big5_decode_out_270 : list byte := [
  x88; x93; x0a; xe7; x88; x94; x0a; xe7;
  x8a; xa8; x0a; xe7; x8d; xbd; x0a; xe7;
  x8d; xbc; x0a; xe7; x92; xba; x0a; xe7;
  x9a; xab; x0a; xe7; x9a; xaa; x0a; xe7;
  x9a; xbe; x0a; xe7; x9b; xad; x0a; xe7;
  x9f; x8c; x0a; xe7; x9f; x8e; x0a; xe7;
  x9f; x8f; x0a; xe7; x9f; x8d; x0a; xe7;
  x9f; xb2; x0a; xe7; xa4; xa5; x0a; xe7;
  xa4; xa3; x0a; xe7; xa4; xa7; x0a; xe7;
  xa4; xa8; x0a; xe7; xa4; xa4; x0a; xe7;
  xa4; xa9; x0a; xe7; xa6; xb2; x0a; xe7;
  xa9; xae; x0a; xe7; xa9; xac; x0a; xe7;
  xa9; xad; x0a; xe7; xab; xb7; x0a; xe7;
  xb1; x89; x0a; xe7; xb1; x88; x0a; xe7;
  xb1; x8a; x0a; xe7; xb1; x87; x0a; xe7;
  xb1; x85; x0a; xe7; xb3; xae; x0a; xe7;
  xb9; xbb; x0a; xe7; xb9; xbe; x0a; xe7;
  xba; x81; x0a; xe7; xba; x80; x0a; xe7;
  xbe; xba; x0a; xe7; xbf; xbf; x0a; xe8;
  x81; xb9; x0a; xe8; x87; x9b; x0a; xe8;
  x87; x99; x0a; xe8; x88; x8b; x0a; xe8;
  x89; xa8; x0a; xe8; x89; xa9; x0a; xe8;
  x98; xa2; x0a; xe8; x97; xbf; x0a; xe8;
  x98; x81; x0a; xe8; x97; xbe; x0a; xe8;
  x98; x9b; x0a; xe8; x98; x80; x0a; xe8;
  x97; xb6; x0a; xe8; x98; x84; x0a; xe8;
  x98; x89; x0a; xe8; x98; x85; x0a; xe8;
  x98; x8c; x0a; xe8; x97; xbd; x0a; xe8;
  xa0; x99; x0a; xe8; xa0; x90; x0a; xe8;
  xa0; x91; x0a; xe8; xa0; x97; x0a; xe8;
  xa0; x93; x0a; xe8; xa0; x96; x0a; xe8;
  xa5; xa3; x0a; xe8; xa5; xa6; x0a; xe8
].
(* tests/test_data/whatwg/big5_whatwg_test_decode_out.txt, entries 69376..69631 *)
Definition big5_decode_out_271 : list byte := [
  xa6; xb9; x0a; xe8; xa7; xb7; x0a; xe8;
  xad; xa0; x0a; xe8; xad; xaa; x0a; xe8;
  xad; x9d; x0a; xe8; xad; xa8; x0a; xe8;
  xad; xa3; x0a; xe8; xad; xa5; x0a; xe8;
  xad; xa7; x0a; xe8; xad; xad; x0a; xe8;
  xb6; xae; x0a; xe8; xba; x86; x0a; xe8;
  xba; x88; x0a; xe8; xba; x84; x0a; xe8;
  xbd; x99; x0a; xe8; xbd; x96; x0a; xe8;
  xbd; x97; x0a; xe8; xbd; x95; x0a; xe8;
  xbd; x98; x0a; xe8; xbd; x9a; x0a; xe9;
  x82; x8d; x0a; xe9; x85; x83; x0a; xe9;
  x85; x81; x0a; xe9; x86; xb7; x0a; xe9;
  x86; xb5; x0a; xe9; x86; xb2; x0a; xe9;
  x86; xb3; x0a; xe9; x90; x8b; x0a; xe9;
  x90; x93; x0a; xe9; x8f; xbb; x0a; xe9;
  x90; xa0; x0a; xe9; x90; x8f; x0a; xe9;
  x90; x94; x0a; xe9; x8f; xbe; x0a; xe9;
  x90; x95; x0a; xe9; x90; x90; x0a; xe9;
  x90; xa8; x0a; xe9; x90; x99; x0a; xe9;
  x90; x8d; x0a; xe9; x8f; xb5; x0a; xe9;
  x90; x80; x0a; xe9; x8f; xb7; x0a; xe9;
  x90; x87; x0a; xe9; x90; x8e; x0a; xe9;
  x90; x96; x0a; xe9; x90; x92; x0a; xe9;
  x8f; xba; x0a; xe9; x90; x89; x0a; xe9;
  x8f; xb8; x0a; xe9; x90; x8a; x0a; xe9;
  x8f; xbf; x0a; xe9; x8f; xbc; x0a; xe9;
  x90; x8c; x0a; xe9; x8f; xb6; x0a; xe9;
  x90; x91; x0a; xe9; x90; x86; x0a; xe9;
  x97; x9e; x0a; xe9; x97; xa0; x0a; xe9;
  x97; x9f; x0a; xe9; x9c; xae; x0a; xe9;
  x9c; xaf; x0a; xe9; x9e; xb9; x0a; xe9;
  x9e; xbb; x0a; xe9; x9f; xbd; x0a; xe9
].
(* tests/test_data/whatwg/big5_whatwg_test_decode_out.txt, entries 69632..69887 *)
Definition big5_decode_out_272 : list byte := [
  x9f; xbe; x0a; xe9; xa1; xa0; x0a; xe9;
  xa1; xa2; x0a; xe9; xa1; xa3; x0a; xe9;
  xa1; x9f; x0a; xe9; xa3; x81; x0a; xe9;
  xa3; x82; x0a; xe9; xa5; x90; x0a; xe9;
  xa5; x8e; x0a; xe9; xa5; x99; x0a; xe9;
  xa5; x8c; x0a; xe9; xa5; x8b; x0a; xe9;
  xa5; x93; x0a; xe9; xa8; xb2; x0a; xe9;
  xa8; xb4; x0a; xe9; xa8; xb1; x0a; xe9;
  xa8; xac; x0a; xe9; xa8; xaa; x0a; xe9;
  xa8; xb6; x0a; xe9; xa8; xa9; x0a; xe9;
  xa8; xae; x0a; xe9; xa8; xb8; x0a; xe9;
  xa8; xad; x0a; xe9; xab; x87; x0a; xe9;
  xab; x8a; x0a; xe9; xab; x86; x0a; xe9;
  xac; x90; x0a; xe9; xac; x92; x0a; xe9;
  xac; x91; x0a; xe9; xb0; x8b; x0a; xe9;
  xb0; x88; x0a; xe9; xaf; xb7; x0a; xe9;
  xb0; x85; x0a; xe9; xb0; x92; x0a; xe9;
  xaf; xb8; x0a; xe9; xb1; x80; x0a; xe9;
  xb0; x87; x0a; xe9; xb0; x8e; x0a; xe9;
  xb0; x86; x0a; xe9; xb0; x97; x0a; xe9;
  xb0; x94; x0a; xe9; xb0; x89; x0a; xe9;
  xb6; x9f; x0a; xe9; xb6; x99; x0a; xe9;
  xb6; xa4; x0a; xe9; xb6; x9d; x0a; xe9;
  xb6; x92; x0a; xe9; xb6; x98; x0a; xe9;
  xb6; x90; x0a; xe9; xb6; x9b; x0a; xe9;
  xb6; xa0; x0a; xe9; xb6; x94; x0a; xe9;
  xb6; x9c; x0a; xe9; xb6; xaa; x0a; xe9;
  xb6; x97; x0a; xe9; xb6; xa1; x0a; xe9;
  xb6; x9a; x0a; xe9; xb6; xa2; x0a; xe9;
  xb6; xa8; x0a; xe9; xb6; x9e; x0a; xe9;
  xb6; xa3; x0a; xe9; xb6; xbf; x0a; xe9;
  xb6; xa9; x0a; xe9; xb6; x96; x0a; xe9
].
(* tests/test_data/whatwg/big5_whatwg_test_decode_out.txt, entries 69888..70143 *)
Definition big5_decode_out_273 : list byte := [
  xb6; xa6; x0a; xe9; xb6; xa7; x0a; xe9;
  xba; x99; x0a; xe9; xba; x9b; x0a; xe9;
  xba; x9a; x0a; xe9; xbb; xa5; x0a; xe9;
  xbb; xa4; x0a; xe9; xbb; xa7; x0a; xe9;
  xbb; xa6; x0a; xe9; xbc; xb0; x0a; xe9;
  xbc; xae; x0a; xe9; xbd; x9b; x0a; xe9;
  xbd; xa0; x0a; xe9; xbd; x9e; x0a; xe9;
  xbd; x9d; x0a; xe9; xbd; x99; x0a; xe9;
  xbe; x91; x0a; xe5; x84; xba; x0a; xe5;
  x84; xb9; x0a; xe5; x8a; x98; x0a; xe5;
  x8a; x97; x0a; xe5; x9b; x83; x0a; xe5;
  x9a; xbd; x0a; xe5; x9a; xbe; x0a; xe5;
  xad; x88; x0a; xe5; xad; x87; x0a; xe5;
  xb7; x8b; x0a; xe5; xb7; x8f; x0a; xe5;
  xbb; xb1; x0a; xe6; x87; xbd; x0a; xe6;
  x94; x9b; x0a; xe6; xac; x82; x0a; xe6;
  xab; xbc; x0a; xe6; xac; x83; x0a; xe6;
  xab; xb8; x0a; xe6; xac; x80; x0a; xe7;
  x81; x83; x0a; xe7; x81; x84; x0a; xe7;
  x81; x8a; x0a; xe7; x81; x88; x0a; xe7;
  x81; x89; x0a; xe7; x81; x85; x0a; xe7;
  x81; x86; x0a; xe7; x88; x9d; x0a; xe7;
  x88; x9a; x0a; xe7; x88; x99; x0a; xe7;
  x8d; xbe; x0a; xe7; x94; x97; x0a; xe7;
  x99; xaa; x0a; xe7; x9f; x90; x0a; xe7;
  xa4; xad; x0a; xe7; xa4; xb1; x0a; xe7;
  xa4; xaf; x0a; xe7; xb1; x94; x0a; xe7;
  xb1; x93; x0a; xe7; xb3; xb2; x0a; xe7;
  xba; x8a; x0a; xe7; xba; x87; x0a; xe7;
  xba; x88; x0a; xe7; xba; x8b; x0a; xe7;
  xba; x86; x0a; xe7; xba; x8d; x0a; xe7;
  xbd; x8d; x0a; xe7; xbe; xbb; x0a; xe8
].
(* tests/test_data/whatwg/big5_whatwg_test_decode_out.txt, entries 70144..70399 *)
Definition big5_decode_out_274 : list byte := [
  x80; xb0; x0a; xe8; x87; x9d; x0a; xe8;
  x98; x98; x0a; xe8; x98; xaa; x0a; xe8;
  x98; xa6; x0a; xe8; x98; x9f; x0a; xe8;
  x98; xa3; x0a; xe8; x98; x9c; x0a; xe8;
  x98; x99; x0a; xe8; x98; xa7; x0a; xe8;
  x98; xae; x0a; xe8; x98; xa1; x0a; xe8;
  x98; xa0; x0a; xe8; x98; xa9; x0a; xe8;
  x98; x9e; x0a; xe8; x98; xa5; x0a; xe8;
  xa0; xa9; x0a; xe8; xa0; x9d; x0a; xe8;
  xa0; x9b; x0a; xe8; xa0; xa0; x0a; xe8;
  xa0; xa4; x0a; xe8; xa0; x9c; x0a; xe8;
  xa0; xab; x0a; xe8; xa1; x8a; x0a; xe8;
  xa5; xad; x0a; xe8; xa5; xa9; x0a; xe8;
  xa5; xae; x0a; xe8; xa5; xab; x0a; xe8;
  xa7; xba; x0a; xe8; xad; xb9; x0a; xe8;
  xad; xb8; x0a; xe8; xad; x85; x0a; xe8;
  xad; xba; x0a; xe8; xad; xbb; x0a; xe8;
  xb4; x90; x0a; xe8; xb4; x94; x0a; xe8;
  xb6; xaf; x0a; xe8; xba; x8e; x0a; xe8;
  xba; x8c; x0a; xe8; xbd; x9e; x0a; xe8;
  xbd; x9b; x0a; xe8; xbd; x9d; x0a; xe9;
  x85; x86; x0a; xe9; x85; x84; x0a; xe9;
  x85; x85; x0a; xe9; x86; xb9; x0a; xe9;
  x90; xbf; x0a; xe9; x90; xbb; x0a; xe9;
  x90; xb6; x0a; xe9; x90; xa9; x0a; xe9;
  x90; xbd; x0a; xe9; x90; xbc; x0a; xe9;
  x90; xb0; x0a; xe9; x90; xb9; x0a; xe9;
  x90; xaa; x0a; xe9; x90; xb7; x0a; xe9;
  x90; xac; x0a; xe9; x91; x80; x0a; xe9;
  x90; xb1; x0a; xe9; x97; xa5; x0a; xe9;
  x97; xa4; x0a; xe9; x97; xa3; x0a; xe9;
  x9c; xb5; x0a; xe9; x9c; xba; x0a; xe9
].
(* tests/test_data/whatwg/big5_whatwg_test_decode_out.txt, entries 70400..70655 *)
Definition big5_decode_out_275 : list byte := [
  x9e; xbf; x0a; xe9; x9f; xa1; x0a; xe9;
  xa1; xa4; x0a; xe9; xa3; x89; x0a; xe9;
  xa3; x86; x0a; xe9; xa3; x80; x0a; xe9;
  xa5; x98; x0a; xe9; xa5; x96; x0a; xe9;
  xa8; xb9; x0a; xe9; xa8; xbd; x0a; xe9;
  xa9; x86; x0a; xe9; xa9; x84; x0a; xe9;
  xa9; x82; x0a; xe9; xa9; x81; x0a; xe9;
  xa8; xba; x0a; xe9; xa8; xbf; x0a; xe9;
  xab; x8d; x0a; xe9; xac; x95; x0a; xe9;
  xac; x97; x0a; xe9; xac; x98; x0a; xe9;
  xac; x96; x0a; xe9; xac; xba; x0a; xe9;
  xad; x92; x0a; xe9; xb0; xab; x0a; xe9;
  xb0; x9d; x0a; xe9; xb0; x9c; x0a; xe9;
  xb0; xac; x0a; xe9; xb0; xa3; x0a; xe9;
  xb0; xa8; x0a; xe9; xb0; xa9; x0a; xe9;
  xb0; xa4; x0a; xe9; xb0; xa1; x0a; xe9;
  xb6; xb7; x0a; xe9; xb6; xb6; x0a; xe9;
  xb6; xbc; x0a; xe9; xb7; x81; x0a; xe9;
  xb7; x87; x0a; xe9; xb7; x8a; x0a; xe9;
  xb7; x8f; x0a; xe9; xb6; xbe; x0a; xe9;
  xb7; x85; x0a; xe9; xb7; x83; x0a; xe9;
  xb6; xbb; x0a; xe9; xb6; xb5; x0a; xe9;
  xb7; x8e; x0a; xe9; xb6; xb9; x0a; xe9;
  xb6; xba; x0a; xe9; xb6; xac; x0a; xe9;
  xb7; x88; x0a; xe9; xb6; xb1; x0a; xe9;
  xb6; xad; x0a; xe9; xb7; x8c; x0a; xe9;
  xb6; xb3; x0a; xe9; xb7; x8d; x0a; xe9;
  xb6; xb2; x0a; xe9; xb9; xba; x0a; xe9;
  xba; x9c; x0a; xe9; xbb; xab; x0a; xe9;
  xbb; xae; x0a; xe9; xbb; xad; x0a; xe9;
  xbc; x9b; x0a; xe9; xbc; x98; x0a; xe9;
  xbc; x9a; x0a; xe9; xbc; xb1; x0a; xe9
].
(* tests/test_data/whatwg/big5_whatwg_test_decode_out.txt, entries 70656..70911 *)
Definition big5_decode_out_276 : list byte := [
  xbd; x8e; x0a; xe9; xbd; xa5; x0a; xe9;
  xbd; xa4; x0a; xe9; xbe; x92; x0a; xe4;
  xba; xb9; x0a; xe5; x9b; x86; x0a; xe5;
  x9b; x85; x0a; xe5; x9b; x8b; x0a; xe5;
  xa5; xb1; x0a; xe5; xad; x8b; x0a; xe5;
  xad; x8c; x0a; xe5; xb7; x95; x0a; xe5;
  xb7; x91; x0a; xe5; xbb; xb2; x0a; xe6;
  x94; xa1; x0a; xe6; x94; xa0; x0a; xe6;
  x94; xa6; x0a; xe6; x94; xa2; x0a; xe6;
  xac; x8b; x0a; xe6; xac; x88; x0a; xe6;
  xac; x89; x0a; xe6; xb0; x8d; x0a; xe7;
  x81; x95; x0a; xe7; x81; x96; x0a; xe7;
  x81; x97; x0a; xe7; x81; x92; x0a; xe7;
  x88; x9e; x0a; xe7; x88; x9f; x0a; xe7;
  x8a; xa9; x0a; xe7; x8d; xbf; x0a; xe7;
  x93; x98; x0a; xe7; x93; x95; x0a; xe7;
  x93; x99; x0a; xe7; x93; x97; x0a; xe7;
  x99; xad; x0a; xe7; x9a; xad; x0a; xe7;
  xa4; xb5; x0a; xe7; xa6; xb4; x0a; xe7;
  xa9; xb0; x0a; xe7; xa9; xb1; x0a; xe7;
  xb1; x97; x0a; xe7; xb1; x9c; x0a; xe7;
  xb1; x99; x0a; xe7; xb1; x9b; x0a; xe7;
  xb1; x9a; x0a; xe7; xb3; xb4; x0a; xe7;
  xb3; xb1; x0a; xe7; xba; x91; x0a; xe7;
  xbd; x8f; x0a; xe7; xbe; x87; x0a; xe8;
  x87; x9e; x0a; xe8; x89; xab; x0a; xe8;
  x98; xb4; x0a; xe8; x98; xb5; x0a; xe8;
  x98; xb3; x0a; xe8; x98; xac; x0a; xe8;
  x98; xb2; x0a; xe8; x98; xb6; x0a; xe8;
  xa0; xac; x0a; xe8; xa0; xa8; x0a; xe8;
  xa0; xa6; x0a; xe8; xa0; xaa; x0a; xe8;
  xa0; xa5; x0a; xe8; xa5; xb1; x0a; xe8
].
(* tests/test_data/whatwg/big5_whatwg_test_decode_out.txt, entries 70912..71167 *)
Definition big5_decode_out_277 : list byte := [
  xa6; xbf; x0a; xe8; xa6; xbe; x0a; xe8;
  xa7; xbb; x0a; xe8; xad; xbe; x0a; xe8;
  xae; x84; x0a; xe8; xae; x82; x0a; xe8;
  xae; x86; x0a; xe8; xae; x85; x0a; xe8;
  xad; xbf; x0a; xe8; xb4; x95; x0a; xe8;
  xba; x95; x0a; xe8; xba; x94; x0a; xe8;
  xba; x9a; x0a; xe8; xba; x92; x0a; xe8;
  xba; x90; x0a; xe8; xba; x96; x0a; xe8;
  xba; x97; x0a; xe8; xbd; xa0; x0a; xe8;
  xbd; xa2; x0a; xe9; x85; x87; x0a; xe9;
  x91; x8c; x0a; xe9; x91; x90; x0a; xe9;
  x91; x8a; x0a; xe9; x91; x8b; x0a; xe9;
  x91; x8f; x0a; xe9; x91; x87; x0a; xe9;
  x91; x85; x0a; xe9; x91; x88; x0a; xe9;
  x91; x89; x0a; xe9; x91; x86; x0a; xe9;
  x9c; xbf; x0a; xe9; x9f; xa3; x0a; xe9;
  xa1; xaa; x0a; xe9; xa1; xa9; x0a; xe9;
  xa3; x8b; x0a; xe9; xa5; x94; x0a; xe9;
  xa5; x9b; x0a; xe9; xa9; x8e; x0a; xe9;
  xa9; x93; x0a; xe9; xa9; x94; x0a; xe9;
  xa9; x8c; x0a; xe9; xa9; x8f; x0a; xe9;
  xa9; x88; x0a; xe9; xa9; x8a; x0a; xe9;
  xa9; x89; x0a; xe9; xa9; x92; x0a; xe9;
  xa9; x90; x0a; xe9; xab; x90; x0a; xe9;
  xac; x99; x0a; xe9; xac; xab; x0a; xe9;
  xac; xbb; x0a; xe9; xad; x96; x0a; xe9;
  xad; x95; x0a; xe9; xb1; x86; x0a; xe9;
  xb1; x88; x0a; xe9; xb0; xbf; x0a; xe9;
  xb1; x84; x0a; xe9; xb0; xb9; x0a; xe9;
  xb0; xb3; x0a; xe9; xb1; x81; x0a; xe9;
  xb0; xbc; x0a; xe9; xb0; xb7; x0a; xe9;
  xb0; xb4; x0a; xe9; xb0; xb2; x0a; xe9
].
(* tests/test_data/whatwg/big5_whatwg_test_decode_out.txt, entries 71168..71423 *)
Definition big5_decode_out_278 : list byte := [
  xb0; xbd; x0a; xe9; xb0; xb6; x0a; xe9;
  xb7; x9b; x0a; xe9; xb7; x92; x0a; xe9;
  xb7; x9e; x0a; xe9; xb7; x9a; x0a; xe9;
  xb7; x8b; x0a; xe9; xb7; x90; x0a; xe9;
  xb7; x9c; x0a; xe9; xb7; x91; x0a; xe9;
  xb7; x9f; x0a; xe9; xb7; xa9; x0a; xe9;
  xb7; x99; x0a; xe9; xb7; x98; x0a; xe9;
  xb7; x96; x0a; xe9; xb7; xb5; x0a; xe9;
  xb7; x95; x0a; xe9; xb7; x9d; x0a; xe9;
  xba; xb6; x0a; xe9; xbb; xb0; x0a; xe9;
  xbc; xb5; x0a; xe9; xbc; xb3; x0a; xe9;
  xbc; xb2; x0a; xe9; xbd; x82; x0a; xe9;
  xbd; xab; x0a; xe9; xbe; x95; x0a; xe9;
  xbe; xa2; x0a; xe5; x84; xbd; x0a; xe5;
  x8a; x99; x0a; xe5; xa3; xa8; x0a; xe5;
  xa3; xa7; x0a; xe5; xa5; xb2; x0a; xe5;
  xad; x8d; x0a; xe5; xb7; x98; x0a; xe8;
  xa0; xaf; x0a; xe5; xbd; x8f; x0a; xe6;
  x88; x81; x0a; xe6; x88; x83; x0a; xe6;
  x88; x84; x0a; xe6; x94; xa9; x0a; xe6;
  x94; xa5; x0a; xe6; x96; x96; x0a; xe6;
  x9b; xab; x0a; xe6; xac; x91; x0a; xe6;
  xac; x92; x0a; xe6; xac; x8f; x0a; xe6;
  xaf; x8a; x0a; xe7; x81; x9b; x0a; xe7;
  x81; x9a; x0a; xe7; x88; xa2; x0a; xe7;
  x8e; x82; x0a; xe7; x8e; x81; x0a; xe7;
  x8e; x83; x0a; xe7; x99; xb0; x0a; xe7;
  x9f; x94; x0a; xe7; xb1; xa7; x0a; xe7;
  xb1; xa6; x0a; xe7; xba; x95; x0a; xe8;
  x89; xac; x0a; xe8; x98; xba; x0a; xe8;
  x99; x80; x0a; xe8; x98; xb9; x0a; xe8;
  x98; xbc; x0a; xe8; x98; xb1; x0a; xe8
].
(* tests/test_data/whatwg/big5_whatwg_test_decode_out.txt, entries 71424..71679 *)
Definition big5_decode_out_279 : list byte := [
  x98; xbb; x0a; xe8; x98; xbe; x0a; xe8;
  xa0; xb0; x0a; xe8; xa0; xb2; x0a; xe8;
  xa0; xae; x0a; xe8; xa0; xb3; x0a; xe8;
  xa5; xb6; x0a; xe8; xa5; xb4; x0a; xe8;
  xa5; xb3; x0a; xe8; xa7; xbe; x0a; xe8;
  xae; x8c; x0a; xe8; xae; x8e; x0a; xe8;
  xae; x8b; x0a; xe8; xae; x88; x0a; xe8;
  xb1; x85; x0a; xe8; xb4; x99; x0a; xe8;
  xba; x98; x0a; xe8; xbd; xa4; x0a; xe8;
  xbd; xa3; x0a; xe9; x86; xbc; x0a; xe9;
  x91; xa2; x0a; xe9; x91; x95; x0a; xe9;
  x91; x9d; x0a; xe9; x91; x97; x0a; xe9;
  x91; x9e; x0a; xe9; x9f; x84; x0a; xe9;
  x9f; x85; x0a; xe9; xa0; x80; x0a; xe9;
  xa9; x96; x0a; xe9; xa9; x99; x0a; xe9;
  xac; x9e; x0a; xe9; xac; x9f; x0a; xe9;
  xac; xa0; x0a; xe9; xb1; x92; x0a; xe9;
  xb1; x98; x0a; xe9; xb1; x90; x0a; xe9;
  xb1; x8a; x0a; xe9; xb1; x8d; x0a; xe9;
  xb1; x8b; x0a; xe9; xb1; x95; x0a; xe9;
  xb1; x99; x0a; xe9; xb1; x8c; x0a; xe9;
  xb1; x8e; x0a; xe9; xb7; xbb; x0a; xe9;
  xb7; xb7; x0a; xe9; xb7; xaf; x0a; xe9;
  xb7; xa3; x0a; xe9; xb7; xab; x0a; xe9;
  xb7; xb8; x0a; xe9; xb7; xa4; x0a; xe9;
  xb7; xb6; x0a; xe9; xb7; xa1; x0a; xe9;
  xb7; xae; x0a; xe9; xb7; xa6; x0a; xe9;
  xb7; xb2; x0a; xe9; xb7; xb0; x0a; xe9;
  xb7; xa2; x0a; xe9; xb7; xac; x0a; xe9;
  xb7; xb4; x0a; xe9; xb7; xb3; x0a; xe9;
  xb7; xa8; x0a; xe9; xb7; xad; x0a; xe9;
  xbb; x82; x0a; xe9; xbb; x90; x0a; xe9
].
(* tests/test_data/whatwg/big5_whatwg_test_decode_out.txt, entries 71680..71935 *)
Definition big5_decode_out_280 : list byte := [
  xbb; xb2; x0a; xe9; xbb; xb3; x0a; xe9;
  xbc; x86; x0a; xe9; xbc; x9c; x0a; xe9;
  xbc; xb8; x0a; xe9; xbc; xb7; x0a; xe9;
  xbc; xb6; x0a; xe9; xbd; x83; x0a; xe9;
  xbd; x8f; x0a; xe9; xbd; xb1; x0a; xe9;
  xbd; xb0; x0a; xe9; xbd; xae; x0a; xe9;
  xbd; xaf; x0a; xe5; x9b; x93; x0a; xe5;
  x9b; x8d; x0a; xe5; xad; x8e; x0a; xe5;
  xb1; xad; x0a; xe6; x94; xad; x0a; xe6;
  x9b; xad; x0a; xe6; x9b; xae; x0a; xe6;
  xac; x93; x0a; xe7; x81; x9f; x0a; xe7;
  x81; xa1; x0a; xe7; x81; x9d; x0a; xe7;
  x81; xa0; x0a; xe7; x88; xa3; x0a; xe7;
  x93; x9b; x0a; xe7; x93; xa5; x0a; xe7;
  x9f; x95; x0a; xe7; xa4; xb8; x0a; xe7;
  xa6; xb7; x0a; xe7; xa6; xb6; x0a; xe7;
  xb1; xaa; x0a; xe7; xba; x97; x0a; xe7;
  xbe; x89; x0a; xe8; x89; xad; x0a; xe8;
  x99; x83; x0a; xe8; xa0; xb8; x0a; xe8;
  xa0; xb7; x0a; xe8; xa0; xb5; x0a; xe8;
  xa1; x8b; x0a; xe8; xae; x94; x0a; xe8;
  xae; x95; x0a; xe8; xba; x9e; x0a; xe8;
  xba; x9f; x0a; xe8; xba; xa0; x0a; xe8;
  xba; x9d; x0a; xe9; x86; xbe; x0a; xe9;
  x86; xbd; x0a; xe9; x87; x82; x0a; xe9;
  x91; xab; x0a; xe9; x91; xa8; x0a; xe9;
  x91; xa9; x0a; xe9; x9b; xa5; x0a; xe9;
  x9d; x86; x0a; xe9; x9d; x83; x0a; xe9;
  x9d; x87; x0a; xe9; x9f; x87; x0a; xe9;
  x9f; xa5; x0a; xe9; xa9; x9e; x0a; xe9;
  xab; x95; x0a; xe9; xad; x99; x0a; xe9;
  xb1; xa3; x0a; xe9; xb1; xa7; x0a; xe9
].
(* tests/test_data/whatwg/big5_whatwg_test_decode_out.txt, entries 71936..72191 *)
Definition big5_decode_out_281 : list byte := [
  xb1; xa6; x0a; xe9; xb1; xa2; x0a; xe9;
  xb1; x9e; x0a; xe9; xb1; xa0; x0a; xe9;
  xb8; x82; x0a; xe9; xb7; xbe; x0a; xe9;
  xb8; x87; x0a; xe9; xb8; x83; x0a; xe9;
  xb8; x86; x0a; xe9; xb8; x85; x0a; xe9;
  xb8; x80; x0a; xe9; xb8; x81; x0a; xe9;
  xb8; x89; x0a; xe9; xb7; xbf; x0a; xe9;
  xb7; xbd; x0a; xe9; xb8; x84; x0a; xe9;
  xba; xa0; x0a; xe9; xbc; x9e; x0a; xe9;
  xbd; x86; x0a; xe9; xbd; xb4; x0a; xe9;
  xbd; xb5; x0a; xe9; xbd; xb6; x0a; xe5;
  x9b; x94; x0a; xe6; x94; xae; x0a; xe6;
  x96; xb8; x0a; xe6; xac; x98; x0a; xe6;
  xac; x99; x0a; xe6; xac; x97; x0a; xe6;
  xac; x9a; x0a; xe7; x81; xa2; x0a; xe7;
  x88; xa6; x0a; xe7; x8a; xaa; x0a; xe7;
  x9f; x98; x0a; xe7; x9f; x99; x0a; xe7;
  xa4; xb9; x0a; xe7; xb1; xa9; x0a; xe7;
  xb1; xab; x0a; xe7; xb3; xb6; x0a; xe7;
  xba; x9a; x0a; xe7; xba; x98; x0a; xe7;
  xba; x9b; x0a; xe7; xba; x99; x0a; xe8;
  x87; xa0; x0a; xe8; x87; xa1; x0a; xe8;
  x99; x86; x0a; xe8; x99; x87; x0a; xe8;
  x99; x88; x0a; xe8; xa5; xb9; x0a; xe8;
  xa5; xba; x0a; xe8; xa5; xbc; x0a; xe8;
  xa5; xbb; x0a; xe8; xa7; xbf; x0a; xe8;
  xae; x98; x0a; xe8; xae; x99; x0a; xe8;
  xba; xa5; x0a; xe8; xba; xa4; x0a; xe8;
  xba; xa3; x0a; xe9; x91; xae; x0a; xe9;
  x91; xad; x0a; xe9; x91; xaf; x0a; xe9;
  x91; xb1; x0a; xe9; x91; xb3; x0a; xe9;
  x9d; x89; x0a; xe9; xa1; xb2; x0a; xe9
].
(* tests/test_data/whatwg/big5_whatwg_test_decode_out.txt, entries 72192..72447 *)
Definition big5_decode_out_282 : list byte := [
  xa5; x9f; x0a; xe9; xb1; xa8; x0a; xe9;
  xb1; xae; x0a; xe9; xb1; xad; x0a; xe9;
  xb8; x8b; x0a; xe9; xb8; x8d; x0a; xe9;
  xb8; x90; x0a; xe9; xb8; x8f; x0a; xe9;
  xb8; x92; x0a; xe9; xb8; x91; x0a; xe9;
  xba; xa1; x0a; xe9; xbb; xb5; x0a; xe9;
  xbc; x89; x0a; xe9; xbd; x87; x0a; xe9;
  xbd; xb8; x0a; xe9; xbd; xbb; x0a; xe9;
  xbd; xba; x0a; xe9; xbd; xb9; x0a; xe5;
  x9c; x9e; x0a; xe7; x81; xa6; x0a; xe7;
  xb1; xaf; x0a; xe8; xa0; xbc; x0a; xe8;
  xb6; xb2; x0a; xe8; xba; xa6; x0a; xe9;
  x87; x83; x0a; xe9; x91; xb4; x0a; xe9;
  x91; xb8; x0a; xe9; x91; xb6; x0a; xe9;
  x91; xb5; x0a; xe9; xa9; xa0; x0a; xe9;
  xb1; xb4; x0a; xe9; xb1; xb3; x0a; xe9;
  xb1; xb1; x0a; xe9; xb1; xb5; x0a; xe9;
  xb8; x94; x0a; xe9; xb8; x93; x0a; xe9;
  xbb; xb6; x0a; xe9; xbc; x8a; x0a; xe9;
  xbe; xa4; x0a; xe7; x81; xa8; x0a; xe7;
  x81; xa5; x0a; xe7; xb3; xb7; x0a; xe8;
  x99; xaa; x0a; xe8; xa0; xbe; x0a; xe8;
  xa0; xbd; x0a; xe8; xa0; xbf; x0a; xe8;
  xae; x9e; x0a; xe8; xb2; x9c; x0a; xe8;
  xba; xa9; x0a; xe8; xbb; x89; x0a; xe9;
  x9d; x8b; x0a; xe9; xa1; xb3; x0a; xe9;
  xa1; xb4; x0a; xe9; xa3; x8c; x0a; xe9;
  xa5; xa1; x0a; xe9; xa6; xab; x0a; xe9;
  xa9; xa4; x0a; xe9; xa9; xa6; x0a; xe9;
  xa9; xa7; x0a; xe9; xac; xa4; x0a; xe9;
  xb8; x95; x0a; xe9; xb8; x97; x0a; xe9;
  xbd; x88; x0a; xe6; x88; x87; x0a; xe6
].
(* tests/test_data/whatwg/big5_whatwg_test_decode_out.txt, entries 72448..72703 *)
Definition big5_decode_out_283 : list byte := [
  xac; x9e; x0a; xe7; x88; xa7; x0a; xe8;
  x99; x8c; x0a; xe8; xba; xa8; x0a; xe9;
  x92; x82; x0a; xe9; x92; x80; x0a; xe9;
  x92; x81; x0a; xe9; xa9; xa9; x0a; xe9;
  xa9; xa8; x0a; xe9; xac; xae; x0a; xe9;
  xb8; x99; x0a; xe7; x88; xa9; x0a; xe8;
  x99; x8b; x0a; xe8; xae; x9f; x0a; xe9;
  x92; x83; x0a; xe9; xb1; xb9; x0a; xe9;
  xba; xb7; x0a; xe7; x99; xb5; x0a; xe9;
  xa9; xab; x0a; xe9; xb1; xba; x0a; xe9;
  xb8; x9d; x0a; xe7; x81; xa9; x0a; xe7;
  x81; xaa; x0a; xe9; xba; xa4; x0a; xe9;
  xbd; xbe; x0a; xe9; xbd; x89; x0a; xe9;
  xbe; x98; x0a; xe7; xa2; x81; x0a; xe9;
  x8a; xb9; x0a; xe8; xa3; x8f; x0a; xe5;
  xa2; xbb; x0a; xe6; x81; x92; x0a; xe7;
  xb2; xa7; x0a; xe5; xab; xba; x0a; xe2;
  x95; x94; x0a; xe2; x95; xa6; x0a; xe2;
  x95; x97; x0a; xe2; x95; xa0; x0a; xe2;
  x95; xac; x0a; xe2; x95; xa3; x0a; xe2;
  x95; x9a; x0a; xe2; x95; xa9; x0a; xe2;
  x95; x9d; x0a; xe2; x95; x92; x0a; xe2;
  x95; xa4; x0a; xe2; x95; x95; x0a; xe2;
  x95; x9e; x0a; xe2; x95; xaa; x0a; xe2;
  x95; xa1; x0a; xe2; x95; x98; x0a; xe2;
  x95; xa7; x0a; xe2; x95; x9b; x0a; xe2;
  x95; x93; x0a; xe2; x95; xa5; x0a; xe2;
  x95; x96; x0a; xe2; x95; x9f; x0a; xe2;
  x95; xab; x0a; xe2; x95; xa2; x0a; xe2;
  x95; x99; x0a; xe2; x95; xa8; x0a; xe2;
  x95; x9c; x0a; xe2; x95; x91; x0a; xe2;
  x95; x90; x0a; xe2; x95; xad; x0a; xe2
].
(* tests/test_data/whatwg/big5_whatwg_test_decode_out.txt, entries 72704..72959 *)
Definition big5_decode_out_284 : list byte := [
  x95; xae; x0a; xe2; x95; xb0; x0a; xe2;
  x95; xaf; x0a; xef; xbf; xad; x0a; xf0;
  xa0; x95; x87; x0a; xe9; x8b; x9b; x0a;
  xf0; xa0; x97; x9f; x0a; xf0; xa3; xbf;
  x85; x0a; xe8; x95; x8c; x0a; xe4; x8a;
  xb5; x0a; xe7; x8f; xaf; x0a; xe5; x86;
  xb5; x0a; xe3; x99; x89; x0a; xf0; xa4;
  xa5; x82; x0a; xf0; xa8; xa7; xa4; x0a;
  xe9; x8d; x84; x0a; xf0; xa1; xa7; x9b;
  x0a; xe8; x8b; xae; x0a; xf0; xa3; xb3;
  x88; x0a; xe7; xa0; xbc; x0a; xe6; x9d;
  x84; x0a; xe6; x8b; x9f; x0a; xf0; xa4;
  xa4; xb3; x0a; xf0; xa8; xa6; xaa; x0a;
  xf0; xa0; x8a; xa0; x0a; xf0; xa6; xae;
  xb3; x0a; xf0; xa1; x8c; x85; x0a; xe4;
  xbe; xab; x0a; xf0; xa2; x93; xad; x0a;
  xe5; x80; x88; x0a; xf0; xa6; xb4; xa9;
  x0a; xf0; xa7; xaa; x84; x0a; xf0; xa3;
  x98; x80; x0a; xf0; xa4; xaa; xb1; x0a;
  xf0; xa2; x94; x93; x0a; xe5; x80; xa9;
  x0a; xf0; xa0; x8d; xbe; x0a; xe5; xbe;
  xa4; x0a; xf0; xa0; x8e; x80; x0a; xf0;
  xa0; x8d; x87; x0a; xe6; xbb; x9b; x0a;
  xf0; xa0; x90; x9f; x0a; xe5; x81; xbd;
  x0a; xe5; x84; x81; x0a; xe3; x91; xba;
  x0a; xe5; x84; x8e; x0a; xe9; xa1; xac;
  x0a; xe3; x9d; x83; x0a; xe8; x90; x96;
  x0a; xf0; xa4; xa6; xa4; x0a; xf0; xa0;
  x92; x87; x0a; xe5; x85; xa0; x0a; xf0;
  xa3; x8e; xb4; x0a; xe5; x85; xaa; x0a;
  xf0; xa0; xaf; xbf; x0a; xf0; xa2; x83;
  xbc; x0a; xf0; xa0; x8b; xa5; x0a; xf0
].
(* tests/test_data/whatwg/big5_whatwg_test_decode_out.txt, entries 72960..73215 *)
Definition big5_decode_out_285 : list byte := [
  xa2; x94; xb0; x0a; xf0; xa0; x96; x8e;
  x0a; xf0; xa3; x88; xb3; x0a; xf0; xa1;
  xa6; x83; x0a; xe5; xae; x82; x0a; xe8;
  x9d; xbd; x0a; xf0; xa0; x96; xb3; x0a;
  xf0; xa3; xb2; x99; x0a; xe5; x86; xb2;
  x0a; xe5; x86; xb8; x0a; xe9; xb4; xb4;
  x0a; xe5; x87; x89; x0a; xe5; x87; x8f;
  x0a; xe5; x87; x91; x0a; xe3; xb3; x9c;
  x0a; xe5; x87; x93; x0a; xf0; xa4; xaa;
  xa6; x0a; xe5; x86; xb3; x0a; xe5; x87;
  xa2; x0a; xe5; x8d; x82; x0a; xe5; x87;
  xad; x0a; xe8; x8f; x8d; x0a; xe6; xa4;
  xbe; x0a; xf0; xa3; x9c; xad; x0a; xe5;
  xbd; xbb; x0a; xe5; x88; x8b; x0a; xe5;
  x88; xa6; x0a; xe5; x88; xbc; x0a; xe5;
  x8a; xb5; x0a; xe5; x89; x97; x0a; xe5;
  x8a; x94; x0a; xe5; x8a; xb9; x0a; xe5;
  x8b; x85; x0a; xe7; xb0; x95; x0a; xe8;
  x95; x82; x0a; xe5; x8b; xa0; x0a; xe8;
  x98; x8d; x0a; xf0; xa6; xac; x93; x0a;
  xe5; x8c; x85; x0a; xf0; xa8; xab; x9e;
  x0a; xe5; x95; x89; x0a; xe6; xbb; x99;
  x0a; xf0; xa3; xbe; x80; x0a; xf0; xa0;
  xa5; x94; x0a; xf0; xa3; xbf; xac; x0a;
  xe5; x8c; xb3; x0a; xe5; x8d; x84; x0a;
  xf0; xa0; xaf; xa2; x0a; xe6; xb3; x8b;
  x0a; xf0; xa1; x9c; xa6; x0a; xe6; xa0;
  x9b; x0a; xe7; x8f; x95; x0a; xe6; x81;
  x8a; x0a; xe3; xba; xaa; x0a; xe3; xa3;
  x8c; x0a; xf0; xa1; x9b; xa8; x0a; xe7;
  x87; x9d; x0a; xe4; x92; xa2; x0a; xe5;
  x8d; xad; x0a; xe5; x8d; xb4; x0a; xf0
].
(* tests/test_data/whatwg/big5_whatwg_test_decode_out.txt, entries 73216..73471 *)
Definition big5_decode_out_286 : list byte := [
  xa8; x9a; xab; x0a; xe5; x8d; xbe; x0a;
  xe5; x8d; xbf; x0a; xf0; xa1; x96; x96;
  x0a; xf0; xa1; x98; x93; x0a; xe7; x9f;
  xa6; x0a; xe5; x8e; x93; x0a; xf0; xa8;
  xaa; x9b; x0a; xe5; x8e; xa0; x0a; xe5;
  x8e; xab; x0a; xe5; x8e; xae; x0a; xe7;
  x8e; xa7; x0a; xf0; xa5; x9d; xb2; x0a;
  xe3; xbd; x99; x0a; xe7; x8e; x9c; x0a;
  xe5; x8f; x81; x0a; xe5; x8f; x85; x0a;
  xe6; xb1; x89; x0a; xe4; xb9; x89; x0a;
  xe5; x9f; xbe; x0a; xe5; x8f; x99; x0a;
  xe3; xaa; xab; x0a; xf0; xa0; xae; x8f;
  x0a; xe5; x8f; xa0; x0a; xf0; xa3; xbf;
  xab; x0a; xf0; xa2; xb6; xa3; x0a; xe5;
  x8f; xb6; x0a; xf0; xa0; xb1; xb7; x0a;
  xe5; x90; x93; x0a; xe7; x81; xb9; x0a;
  xe5; x94; xab; x0a; xe6; x99; x97; x0a;
  xe6; xb5; x9b; x0a; xe5; x91; xad; x0a;
  xf0; xa6; xad; x93; x0a; xf0; xa0; xb5;
  xb4; x0a; xe5; x95; x9d; x0a; xe5; x92;
  x8f; x0a; xe5; x92; xa4; x0a; xe4; x9e;
  xa6; x0a; xf0; xa1; x9c; x8d; x0a; xf0;
  xa0; xbb; x9d; x0a; xe3; xb6; xb4; x0a;
  xf0; xa0; xb5; x8d; x0a; xf0; xa8; xa6;
  xbc; x0a; xf0; xa2; x9a; x98; x0a; xe5;
  x95; x87; x0a; xe4; xb3; xad; x0a; xe5;
  x90; xaf; x0a; xe7; x90; x97; x0a; xe5;
  x96; x86; x0a; xe5; x96; xa9; x0a; xe5;
  x98; x85; x0a; xf0; xa1; xa3; x97; x0a;
  xf0; xa4; x80; xba; x0a; xe4; x95; x92;
  x0a; xf0; xa4; x90; xb5; x0a; xe6; x9a;
  xb3; x0a; xf0; xa1; x82; xb4; x0a; xe5
].
(* tests/test_data/whatwg/big5_whatwg_test_decode_out.txt, entries 73472..73727 *)
Definition big5_decode_out_287 : list byte := [
  x98; xb7; x0a; xe6; x9b; x8d; x0a; xf0;
  xa3; x8a; x8a; x0a; xe6; x9a; xa4; x0a;
  xe6; x9a; xad; x0a; xe5; x99; x8d; x0a;
  xe5; x99; x8f; x0a; xe7; xa3; xb1; x0a;
  xe5; x9b; xb1; x0a; xe9; x9e; x87; x0a;
  xe5; x8f; xbe; x0a; xe5; x9c; x80; x0a;
  xe5; x9b; xaf; x0a; xe5; x9b; xad; x0a;
  xf0; xa8; xad; xa6; x0a; xe3; x98; xa3;
  x0a; xf0; xa1; x89; x8f; x0a; xe5; x9d;
  x86; x0a; xf0; xa4; x86; xa5; x0a; xe6;
  xb1; xae; x0a; xe7; x82; x8b; x0a; xe5;
  x9d; x82; x0a; xe3; x9a; xb1; x0a; xf0;
  xa6; xb1; xbe; x0a; xe5; x9f; xa6; x0a;
  xf0; xa1; x90; x96; x0a; xe5; xa0; x83;
  x0a; xf0; xa1; x91; x94; x0a; xf0; xa4;
  x8d; xa3; x0a; xe5; xa0; xa6; x0a; xf0;
  xa4; xaf; xb5; x0a; xe5; xa1; x9c; x0a;
  xe5; xa2; xaa; x0a; xe3; x95; xa1; x0a;
  xe5; xa3; xa0; x0a; xe5; xa3; x9c; x0a;
  xf0; xa1; x88; xbc; x0a; xe5; xa3; xbb;
  x0a; xe5; xaf; xbf; x0a; xe5; x9d; x83;
  x0a; xf0; xaa; x85; x90; x0a; xf0; xa4;
  x89; xb8; x0a; xe9; x8f; x93; x0a; xe3;
  x96; xa1; x0a; xe5; xa4; x9f; x0a; xe6;
  xa2; xa6; x0a; xe3; x9b; x83; x0a; xe6;
  xb9; x99; x0a; xf0; xa1; x98; xbe; x0a;
  xe5; xa8; xa4; x0a; xe5; x95; x93; x0a;
  xf0; xa1; x9a; x92; x0a; xe8; x94; x85;
  x0a; xe5; xa7; x89; x0a; xf0; xa0; xb5;
  x8e; x0a; xf0; xa6; xb2; x81; x0a; xf0;
  xa6; xb4; xaa; x0a; xf0; xa1; x9f; x9c;
  x0a; xe5; xa7; x99; x0a; xf0; xa1; x9f
].
(* tests/test_data/whatwg/big5_whatwg_test_decode_out.txt, entries 73728..73983 *)
Definition big5_decode_out_288 : list byte := [
  xbb; x0a; xf0; xa1; x9e; xb2; x0a; xf0;
  xa6; xb6; xa6; x0a; xe6; xb5; xb1; x0a;
  xf0; xa1; xa0; xa8; x0a; xf0; xa1; x9b;
  x95; x0a; xe5; xa7; xb9; x0a; xf0; xa6;
  xb9; x85; x0a; xe5; xaa; xab; x0a; xe5;
  xa9; xa3; x0a; xe3; x9b; xa6; x0a; xf0;
  xa4; xa6; xa9; x0a; xe5; xa9; xb7; x0a;
  xe3; x9c; x88; x0a; xe5; xaa; x96; x0a;
  xe7; x91; xa5; x0a; xe5; xab; x93; x0a;
  xf0; xa6; xbe; xa1; x0a; xf0; xa2; x95;
  x94; x0a; xe3; xb6; x85; x0a; xf0; xa1;
  xa4; x91; x0a; xe3; x9c; xb2; x0a; xf0;
  xa1; x9a; xb8; x0a; xe5; xba; x83; x0a;
  xe5; x8b; x90; x0a; xe5; xad; xb6; x0a;
  xe6; x96; x88; x0a; xe5; xad; xbc; x0a;
  xf0; xa7; xa8; x8e; x0a; xe4; x80; x84;
  x0a; xe4; xa1; x9d; x0a; xf0; xa0; x88;
  x84; x0a; xe5; xaf; x95; x0a; xe6; x85;
  xa0; x0a; xf0; xa1; xa8; xb4; x0a; xf0;
  xa5; xa7; x8c; x0a; xf0; xa0; x96; xa5;
  x0a; xe5; xaf; xb3; x0a; xe5; xae; x9d;
  x0a; xe4; xb4; x90; x0a; xe5; xb0; x85;
  x0a; xf0; xa1; xad; x84; x0a; xe5; xb0;
  x93; x0a; xe7; x8f; x8e; x0a; xe5; xb0;
  x94; x0a; xf0; xa1; xb2; xa5; x0a; xf0;
  xa6; xac; xa8; x0a; xe5; xb1; x89; x0a;
  xe4; xa3; x9d; x0a; xe5; xb2; x85; x0a;
  xe5; xb3; xa9; x0a; xe5; xb3; xaf; x0a;
  xe5; xb6; x8b; x0a; xf0; xa1; xb7; xb9;
  x0a; xf0; xa1; xb8; xb7; x0a; xe5; xb4;
  x90; x0a; xe5; xb4; x98; x0a; xe5; xb5;
  x86; x0a; xf0; xa1; xba; xa4; x0a; xe5
].
(* tests/test_data/whatwg/big5_whatwg_test_decode_out.txt, entries 73984..74239 *)
Definition big5_decode_out_289 : list byte := [
  xb2; xba; x0a; xe5; xb7; x97; x0a; xe8;
  x8b; xbc; x0a; xe3; xa0; xad; x0a; xf0;
  xa4; xa4; x81; x0a; xf0; xa2; x81; x89;
  x0a; xf0; xa2; x85; xb3; x0a; xe8; x8a;
  x87; x0a; xe3; xa0; xb6; x0a; xe3; xaf;
  x82; x0a; xe5; xb8; xae; x0a; xe6; xaa;
  x8a; x0a; xe5; xb9; xb5; x0a; xe5; xb9;
  xba; x0a; xf0; xa4; x92; xbc; x0a; xf0;
  xa0; xb3; x93; x0a; xe5; x8e; xa6; x0a;
  xe4; xba; xb7; x0a; xe5; xbb; x90; x0a;
  xe5; x8e; xa8; x0a; xf0; xa1; x9d; xb1;
  x0a; xe5; xb8; x89; x0a; xe5; xbb; xb4;
  x0a; xf0; xa8; x92; x82; x0a; xe5; xbb;
  xb9; x0a; xe5; xbb; xbb; x0a; xe3; xa2;
  xa0; x0a; xe5; xbb; xbc; x0a; xe6; xa0;
  xbe; x0a; xe9; x90; x9b; x0a; xe5; xbc;
  x8d; x0a; xf0; xa0; x87; x81; x0a; xf0;
  xaf; xa2; x94; x0a; xe3; xab; x9e; x0a;
  xe4; xa2; xae; x0a; xf0; xa1; x8c; xba;
  x0a; xe5; xbc; xba; x0a; xf0; xa6; xa2;
  x88; x0a; xf0; xa2; x8f; x90; x0a; xe5;
  xbd; x98; x0a; xf0; xa2; x91; xb1; x0a;
  xe5; xbd; xa3; x0a; xe9; x9e; xbd; x0a;
  xf0; xa6; xb9; xae; x0a; xe5; xbd; xb2;
  x0a; xe9; x8d; x80; x0a; xf0; xa8; xa8;
  xb6; x0a; xe5; xbe; xa7; x0a; xe5; xb6;
  xb6; x0a; xe3; xb5; x9f; x0a; xf0; xa5;
  x89; x90; x0a; xf0; xa1; xbd; xaa; x0a;
  xf0; xa7; x83; xb8; x0a; xf0; xa2; x99;
  xa8; x0a; xe9; x87; x96; x0a; xf0; xa0;
  x8a; x9e; x0a; xf0; xa8; xa8; xa9; x0a;
  xe6; x80; xb1; x0a; xe6; x9a; x85; x0a
].
(* tests/test_data/whatwg/big5_whatwg_test_decode_out.txt, entries 74240..74495 *)
Definition big5_decode_out_290 : list byte := [
  xf0; xa1; xa1; xb7; x0a; xe3; xa5; xa3;
  x0a; xe3; xb7; x87; x0a; xe3; x98; xb9;
  x0a; xe5; x9e; x90; x0a; xf0; xa2; x9e;
  xb4; x0a; xe7; xa5; xb1; x0a; xe3; xb9;
  x80; x0a; xe6; x82; x9e; x0a; xe6; x82;
  xa4; x0a; xe6; x82; xb3; x0a; xf0; xa4;
  xa6; x82; x0a; xf0; xa4; xa6; x8f; x0a;
  xf0; xa7; xa9; x93; x0a; xe7; x92; xa4;
  x0a; xe5; x83; xa1; x0a; xe5; xaa; xa0;
  x0a; xe6; x85; xa4; x0a; xe8; x90; xa4;
  x0a; xe6; x85; x82; x0a; xf0; xaf; xa2;
  xa6; x0a; xf0; xa6; xbb; x92; x0a; xe6;
  x86; x81; x0a; xe5; x87; xb4; x0a; xf0;
  xa0; x99; x96; x0a; xe6; x86; x87; x0a;
  xe5; xae; xaa; x0a; xf0; xa3; xbe; xb7;
  x0a; xf0; xa2; xa1; x9f; x0a; xe6; x87;
  x93; x0a; xf0; xa8; xae; x9d; x0a; xf0;
  xa9; xa5; x9d; x0a; xe6; x87; x90; x0a;
  xe3; xa4; xb2; x0a; xf0; xa2; xa6; x80;
  x0a; xf0; xa2; xa3; x81; x0a; xe6; x80;
  xa3; x0a; xe6; x85; x9c; x0a; xe6; x94;
  x9e; x0a; xe6; x8e; x8b; x0a; xf0; xa0;
  x84; x98; x0a; xe6; x8b; x85; x0a; xf0;
  xa1; x9d; xb0; x0a; xe6; x8b; x95; x0a;
  xf0; xa2; xb8; x8d; x0a; xe6; x8d; xac;
  x0a; xf0; xa4; xa7; x9f; x0a; xe3; xa8;
  x97; x0a; xe6; x90; xb8; x0a; xe6; x8f;
  xb8; x0a; xf0; xa1; x8e; x8e; x0a; xf0;
  xa1; x9f; xbc; x0a; xe6; x92; x90; x0a;
  xe6; xbe; x8a; x0a; xf0; xa2; xb8; xb6;
  x0a; xe9; xa0; x94; x0a; xf0; xa4; x82;
  x8c; x0a; xf0; xa5; x9c; x9d; x0a; xe6
].
(* tests/test_data/whatwg/big5_whatwg_test_decode_out.txt, entries 74496..74751 *)
Definition big5_decode_out_291 : list byte := [
  x93; xa1; x0a; xe6; x93; xa5; x0a; xe9;
  x91; xbb; x0a; xe3; xa9; xa6; x0a; xe6;
  x90; xba; x0a; xe3; xa9; x97; x0a; xe6;
  x95; x8d; x0a; xe6; xbc; x96; x0a; xf0;
  xa4; xa8; xa8; x0a; xf0; xa4; xa8; xa3;
  x0a; xe6; x96; x85; x0a; xe6; x95; xad;
  x0a; xe6; x95; x9f; x0a; xf0; xa3; x81;
  xbe; x0a; xe6; x96; xb5; x0a; xf0; xa4;
  xa5; x80; x0a; xe4; xac; xb7; x0a; xe6;
  x97; x91; x0a; xe4; x83; x98; x0a; xf0;
  xa1; xa0; xa9; x0a; xe6; x97; xa0; x0a;
  xe6; x97; xa3; x0a; xe5; xbf; x9f; x0a;
  xf0; xa3; x90; x80; x0a; xe6; x98; x98;
  x0a; xf0; xa3; x87; xb7; x0a; xf0; xa3;
  x87; xb8; x0a; xe6; x99; x84; x0a; xf0;
  xa3; x86; xa4; x0a; xf0; xa3; x86; xa5;
  x0a; xe6; x99; x8b; x0a; xf0; xa0; xb9;
  xb5; x0a; xe6; x99; xa7; x0a; xf0; xa5;
  x87; xa6; x0a; xe6; x99; xb3; x0a; xe6;
  x99; xb4; x0a; xf0; xa1; xb8; xbd; x0a;
  xf0; xa3; x88; xb1; x0a; xf0; xa8; x97;
  xb4; x0a; xf0; xa3; x87; x88; x0a; xf0;
  xa5; x8c; x93; x0a; xe7; x9f; x85; x0a;
  xf0; xa2; xa3; xb7; x0a; xe9; xa6; xa4;
  x0a; xe6; x9c; x82; x0a; xf0; xa4; x8e;
  x9c; x0a; xf0; xa4; xa8; xa1; x0a; xe3;
  xac; xab; x0a; xe6; xa7; xba; x0a; xf0;
  xa3; x9f; x82; x0a; xe6; x9d; x9e; x0a;
  xe6; x9d; xa7; x0a; xe6; x9d; xa2; x0a;
  xf0; xa4; x87; x8d; x0a; xf0; xa9; x83;
  xad; x0a; xe6; x9f; x97; x0a; xe4; x93;
  xa9; x0a; xe6; xa0; xa2; x0a; xe6; xb9
].
(* tests/test_data/whatwg/big5_whatwg_test_decode_out.txt, entries 74752..75007 *)
Definition big5_decode_out_292 : list byte := [
  x90; x0a; xe9; x88; xbc; x0a; xe6; xa0;
  x81; x0a; xf0; xa3; x8f; xa6; x0a; xf0;
  xa6; xb6; xa0; x0a; xe6; xa1; x9d; x0a;
  xf0; xa3; x91; xaf; x0a; xe6; xa7; xa1;
  x0a; xe6; xa8; x8b; x0a; xf0; xa8; xab;
  x9f; x0a; xe6; xa5; xb3; x0a; xe6; xa3;
  x83; x0a; xf0; xa3; x97; x8d; x0a; xe6;
  xa4; x81; x0a; xe6; xa4; x80; x0a; xe3;
  xb4; xb2; x0a; xe3; xa8; x81; x0a; xf0;
  xa3; x98; xbc; x0a; xe3; xae; x80; x0a;
  xe6; x9e; xac; x0a; xe6; xa5; xa1; x0a;
  xf0; xa8; xa9; x8a; x0a; xe4; x8b; xbc;
  x0a; xe6; xa4; xb6; x0a; xe6; xa6; x98;
  x0a; xe3; xae; xa1; x0a; xf0; xa0; x8f;
  x89; x0a; xe8; x8d; xa3; x0a; xe5; x82;
  x90; x0a; xe6; xa7; xb9; x0a; xf0; xa3;
  x99; x99; x0a; xf0; xa2; x84; xaa; x0a;
  xe6; xa9; x85; x0a; xf0; xa3; x9c; x83;
  x0a; xe6; xaa; x9d; x0a; xe3; xaf; xb3;
  x0a; xe6; x9e; xb1; x0a; xe6; xab; x88;
  x0a; xf0; xa9; x86; x9c; x0a; xe3; xb0;
  x8d; x0a; xe6; xac; x9d; x0a; xf0; xa0;
  xa4; xa3; x0a; xe6; x83; x9e; x0a; xe6;
  xac; xb5; x0a; xe6; xad; xb4; x0a; xf0;
  xa2; x9f; x8d; x0a; xe6; xba; xb5; x0a;
  xf0; xa3; xab; x9b; x0a; xf0; xa0; x8e;
  xb5; x0a; xf0; xa1; xa5; x98; x0a; xe3;
  x9d; x80; x0a; xe5; x90; xa1; x0a; xf0;
  xa3; xad; x9a; x0a; xe6; xaf; xa1; x0a;
  xf0; xa3; xbb; xbc; x0a; xe6; xaf; x9c;
  x0a; xe6; xb0; xb7; x0a; xf0; xa2; x92;
  x8b; x0a; xf0; xa4; xa3; xb1; x0a; xf0
].
(* tests/test_data/whatwg/big5_whatwg_test_decode_out.txt, entries 75008..75263 *)
Definition big5_decode_out_293 : list byte := [
  xa6; xad; x91; x0a; xe6; xb1; x9a; x0a;
  xe8; x88; xa6; x0a; xe6; xb1; xb9; x0a;
  xf0; xa3; xb6; xbc; x0a; xe4; x93; x85;
  x0a; xf0; xa3; xb6; xbd; x0a; xf0; xa4;
  x86; xa4; x0a; xf0; xa4; xa4; x8c; x0a;
  xf0; xa4; xa4; x80; x0a; xf0; xa3; xb3;
  x89; x0a; xe3; x9b; xa5; x0a; xe3; xb3;
  xab; x0a; xf0; xa0; xb4; xb2; x0a; xe9;
  xae; x83; x0a; xf0; xa3; x87; xb9; x0a;
  xf0; xa2; x92; x91; x0a; xe7; xbe; x8f;
  x0a; xe6; xa0; xb7; x0a; xf0; xa6; xb4;
  xa5; x0a; xf0; xa6; xb6; xa1; x0a; xf0;
  xa6; xb7; xab; x0a; xe6; xb6; x96; x0a;
  xe6; xb5; x9c; x0a; xe6; xb9; xbc; x0a;
  xe6; xbc; x84; x0a; xf0; xa4; xa5; xbf;
  x0a; xf0; xa4; x82; x85; x0a; xf0; xa6;
  xb9; xb2; x0a; xe8; x94; xb3; x0a; xf0;
  xa6; xbd; xb4; x0a; xe5; x87; x87; x0a;
  xe6; xb2; x9c; x0a; xe6; xb8; x9d; x0a;
  xe8; x90; xae; x0a; xf0; xa8; xac; xa1;
  x0a; xe6; xb8; xaf; x0a; xf0; xa3; xb8;
  xaf; x0a; xe7; x91; x93; x0a; xf0; xa3;
  xbe; x82; x0a; xe7; xa7; x8c; x0a; xe6;
  xb9; x8f; x0a; xe5; xaa; x91; x0a; xf0;
  xa3; x81; x8b; x0a; xe6; xbf; xb8; x0a;
  xe3; x9c; x8d; x0a; xe6; xbe; x9d; x0a;
  xf0; xa3; xb8; xb0; x0a; xe6; xbb; xba;
  x0a; xf0; xa1; x92; x97; x0a; xf0; xa4;
  x80; xbd; x0a; xe4; x95; x95; x0a; xe9;
  x8f; xb0; x0a; xe6; xbd; x84; x0a; xe6;
  xbd; x9c; x0a; xe3; xb5; x8e; x0a; xe6;
  xbd; xb4; x0a; xf0; xa9; x85; xb0; x0a
].
(* tests/test_data/whatwg/big5_whatwg_test_decode_out.txt, entries 75264..75519 *)
Definition big5_decode_out_294 : list byte := [
  xe3; xb4; xbb; x0a; xe6; xbe; x9f; x0a;
  xf0; xa4; x85; x84; x0a; xe6; xbf; x93;
  x0a; xf0; xa4; x82; x91; x0a; xf0; xa4;
  x85; x95; x0a; xf0; xa4; x80; xb9; x0a;
  xf0; xa3; xbf; xb0; x0a; xf0; xa3; xbe;
  xb4; x0a; xf0; xa4; x84; xbf; x0a; xe5;
  x87; x9f; x0a; xf0; xa4; x85; x96; x0a;
  xf0; xa4; x85; x97; x0a; xf0; xa4; x85;
  x80; x0a; xf0; xa6; x87; x9d; x0a; xe7;
  x81; x8b; x0a; xe7; x81; xbe; x0a; xe7;
  x82; xa7; x0a; xe7; x82; x81; x0a; xe7;
  x83; x8c; x0a; xe7; x83; x95; x0a; xe7;
  x83; x96; x0a; xe7; x83; x9f; x0a; xe4;
  x84; x84; x0a; xe3; xb7; xa8; x0a; xe7;
  x86; xb4; x0a; xe7; x86; x96; x0a; xf0;
  xa4; x89; xb7; x0a; xe7; x84; xab; x0a;
  xe7; x85; x85; x0a; xe5; xaa; x88; x0a;
  xe7; x85; x8a; x0a; xe7; x85; xae; x0a;
  xe5; xb2; x9c; x0a; xf0; xa4; x8d; xa5;
  x0a; xe7; x85; x8f; x0a; xe9; x8d; xa2;
  x0a; xf0; xa4; x8b; x81; x0a; xe7; x84;
  xac; x0a; xf0; xa4; x91; x9a; x0a; xf0;
  xa4; xa8; xa7; x0a; xf0; xa4; xa8; xa2;
  x0a; xe7; x86; xba; x0a; xf0; xa8; xaf;
  xa8; x0a; xe7; x82; xbd; x0a; xe7; x88;
  x8e; x0a; xe9; x91; x82; x0a; xe7; x88;
  x95; x0a; xe5; xa4; x91; x0a; xe9; x91;
  x83; x0a; xe7; x88; xa4; x0a; xe9; x8d;
  x81; x0a; xf0; xa5; x98; x85; x0a; xe7;
  x88; xae; x0a; xe7; x89; x80; x0a; xf0;
  xa4; xa5; xb4; x0a; xe6; xa2; xbd; x0a;
  xe7; x89; x95; x0a; xe7; x89; x97; x0a
].
(* tests/test_data/whatwg/big5_whatwg_test_decode_out.txt, entries 75520..75775 *)
Definition big5_decode_out_295 : list byte := [
  xe3; xb9; x95; x0a; xf0; xa3; x81; x84;
  x0a; xe6; xa0; x8d; x0a; xe6; xbc; xbd;
  x0a; xe7; x8a; x82; x0a; xe7; x8c; xaa;
  x0a; xe7; x8c; xab; x0a; xf0; xa4; xa0;
  xa3; x0a; xf0; xa8; xa0; xab; x0a; xe4;
  xa3; xad; x0a; xf0; xa8; xa0; x84; x0a;
  xe7; x8c; xa8; x0a; xe7; x8c; xae; x0a;
  xe7; x8f; x8f; x0a; xe7; x8e; xaa; x0a;
  xf0; xa0; xb0; xba; x0a; xf0; xa6; xa8;
  xae; x0a; xe7; x8f; x89; x0a; xe7; x91;
  x89; x0a; xf0; xa4; x87; xa2; x0a; xf0;
  xa1; x9b; xa7; x0a; xf0; xa4; xa8; xa4;
  x0a; xe6; x98; xa3; x0a; xe3; x9b; x85;
  x0a; xf0; xa4; xa6; xb7; x0a; xf0; xa4;
  xa6; x8d; x0a; xf0; xa4; xa7; xbb; x0a;
  xe7; x8f; xb7; x0a; xe7; x90; x95; x0a;
  xe6; xa4; x83; x0a; xf0; xa4; xa8; xa6;
  x0a; xe7; x90; xb9; x0a; xf0; xa0; x97;
  x83; x0a; xe3; xbb; x97; x0a; xe7; x91;
  x9c; x0a; xf0; xa2; xa2; xad; x0a; xe7;
  x91; xa0; x0a; xf0; xa8; xba; xb2; x0a;
  xe7; x91; x87; x0a; xe7; x8f; xa4; x0a;
  xe7; x91; xb6; x0a; xe8; x8e; xb9; x0a;
  xe7; x91; xac; x0a; xe3; x9c; xb0; x0a;
  xe7; x91; xb4; x0a; xe9; x8f; xb1; x0a;
  xe6; xa8; xac; x0a; xe7; x92; x82; x0a;
  xe4; xa5; x93; x0a; xf0; xa4; xaa; x8c;
  x0a; xf0; xa4; x85; x9f; x0a; xf0; xa4;
  xa9; xb9; x0a; xf0; xa8; xae; x8f; x0a;
  xe5; xad; x86; x0a; xf0; xa8; xb0; x83;
  x0a; xf0; xa1; xa2; x9e; x0a; xe7; x93;
  x88; x0a; xf0; xa1; xa6; x88; x0a; xe7
].
(* tests/test_data/whatwg/big5_whatwg_test_decode_out.txt, entries 75776..76031 *)
Definition big5_decode_out_296 : list byte := [
  x94; x8e; x0a; xe7; x93; xa9; x0a; xe7;
  x94; x9e; x0a; xf0; xa8; xbb; x99; x0a;
  xf0; xa1; xa9; x8b; x0a; xe5; xaf; x97;
  x0a; xf0; xa8; xba; xac; x0a; xe9; x8e;
  x85; x0a; xe7; x95; x8d; x0a; xe7; x95;
  x8a; x0a; xe7; x95; xa7; x0a; xe7; x95;
  xae; x0a; xf0; xa4; xbe; x82; x0a; xe3;
  xbc; x84; x0a; xf0; xa4; xb4; x93; x0a;
  xe7; x96; x8e; x0a; xe7; x91; x9d; x0a;
  xe7; x96; x9e; x0a; xe7; x96; xb4; x0a;
  xe7; x98; x82; x0a; xe7; x98; xac; x0a;
  xe7; x99; x91; x0a; xe7; x99; x8f; x0a;
  xe7; x99; xaf; x0a; xe7; x99; xb6; x0a;
  xf0; xa6; x8f; xb5; x0a; xe7; x9a; x90;
  x0a; xe8; x87; xaf; x0a; xe3; x9f; xb8;
  x0a; xf0; xa6; xa4; x91; x0a; xf0; xa6;
  xa4; x8e; x0a; xe7; x9a; xa1; x0a; xe7;
  x9a; xa5; x0a; xe7; x9a; xb7; x0a; xe7;
  x9b; x8c; x0a; xf0; xa6; xbe; x9f; x0a;
  xe8; x91; xa2; x0a; xf0; xa5; x82; x9d;
  x0a; xf0; xa5; x85; xbd; x0a; xf0; xa1;
  xb8; x9c; x0a; xe7; x9c; x9e; x0a; xe7;
  x9c; xa6; x0a; xe7; x9d; x80; x0a; xe6;
  x92; xaf; x0a; xf0; xa5; x88; xa0; x0a;
  xe7; x9d; x98; x0a; xf0; xa3; x8a; xac;
  x0a; xe7; x9e; xaf; x0a; xf0; xa8; xa5;
  xa4; x0a; xf0; xa8; xa5; xa8; x0a; xf0;
  xa1; x9b; x81; x0a; xe7; x9f; xb4; x0a;
  xe7; xa0; x89; x0a; xf0; xa1; x8d; xb6;
  x0a; xf0; xa4; xa8; x92; x0a; xe6; xa3;
  x8a; x0a; xe7; xa2; xaf; x0a; xe7; xa3;
  x87; x0a; xe7; xa3; x93; x0a; xe9; x9a
].
(* tests/test_data/whatwg/big5_whatwg_test_decode_out.txt, entries 76032..76166 *)
Definition big5_decode_out_297 : list byte := [
  xa5; x0a; xe7; xa4; xae; x0a; xf0; xa5;
  x97; xa0; x0a; xe7; xa3; x97; x0a; xe7;
  xa4; xb4; x0a; xe7; xa2; xb1; x0a; xf0;
  xa7; x98; x8c; x0a; xe8; xbe; xb8; x0a;
  xe8; xa2; x84; x0a; xf0; xa8; xac; xab;
  x0a; xf0; xa6; x82; x83; x0a; xf0; xa2;
  x98; x9c; x0a; xe7; xa6; x86; x0a; xe8;
  xa4; x80; x0a; xe6; xa4; x82; x0a; xe7;
  xa6; x80; x0a; xf0; xa5; xa1; x97; x0a;
  xe7; xa6; x9d; x0a; xf0; xa7; xac; xb9;
  x0a; xe7; xa4; xbc; x0a; xe7; xa6; xa9;
  x0a; xe6; xb8; xaa; x0a; xf0; xa7; x84;
  xa6; x0a; xe3; xba; xa8; x0a; xe7; xa7;
  x86; x0a; xf0; xa9; x84; x8d; x0a; xe7;
  xa7; x94; x0a; xc3; x8a; xcc; x84; x0a;
  xc3; x8a; xcc; x8c; x0a; xc3; xaa; xcc;
  x84; x0a; xc3; xaa; xcc; x8c; x0a
].
(* tests/test_data/whatwg/big5_whatwg_test_decode_out.txt: the whole table *)
Definition big5_decode_out : list byte :=
  big5_decode_out_0 ++
  big5_decode_out_1 ++
  big5_decode_out_2 ++
  big5_decode_out_3 ++
  big5_decode_out_4 ++
  big5_decode_out_5 ++
  big5_decode_out_6 ++
  big5_decode_out_7 ++
  big5_decode_out_8 ++
  big5_decode_out_9 ++
  big5_decode_out_10 ++
  big5_decode_out_11 ++
  big5_decode_out_12 ++
  big5_decode_out_13 ++
  big5_decode_out_14 ++
  big5_decode_out_15 ++
  big5_decode_out_16 ++
  big5_decode_out_17 ++
  big5_decode_out_18 ++
  big5_decode_out_19 ++
  big5_decode_out_20 ++
  big5_decode_out_21 ++
  big5_decode_out_22 ++
  big5_decode_out_23 ++
  big5_decode_out_24 ++
  big5_decode_out_25 ++
  big5_decode_out_26 ++
  big5_decode_out_27 ++
  big5_decode_out_28 ++
  big5_decode_out_29 ++
  big5_decode_out_30 ++
  big5_decode_out_31 ++
  big5_decode_out_32 ++
  big5_decode_out_33 ++
  big5_decode_out_34 ++
  big5_decode_out_35 ++
  big5_decode_out_36 ++
  big5_decode_out_37 ++
  big5_decode_out_38 ++
  big5_decode_out_39 ++
  big5_decode_out_40 ++
  big5_decode_out_41 ++
  big5_decode_out_42 ++
  big5_decode_out_43 ++
  big5_decode_out_44 ++
  big5_decode_out_45 ++
  big5_decode_out_46 ++
  big5_decode_out_47 ++
  big5_decode_out_48 ++
  big5_decode_out_49 ++
  big5_decode_out_50 ++
  big5_decode_out_51 ++
  big5_decode_out_52 ++
  big5_decode_out_53 ++
  big5_decode_out_54 ++
  big5_decode_out_55 ++
  big5_decode_out_56 ++
  big5_decode_out_57 ++
  big5_decode_out_58 ++
  big5_decode_out_59 ++
  big5_decode_out_60 ++
  big5_decode_out_61 ++
  big5_decode_out_62 ++
  big5_decode_out_63 ++
  big5_decode_out_64 ++
  big5_decode_out_65 ++
  big5_decode_out_66 ++
  big5_decode_out_67 ++
  big5_decode_out_68 ++
  big5_decode_out_69 ++
  big5_decode_out_70 ++
  big5_decode_out_71 ++
  big5_decode_out_72 ++
  big5_decode_out_73 ++
  big5_decode_out_74 ++
  big5_decode_out_75 ++
  big5_decode_out_76 ++
  big5_decode_out_77 ++
  big5_decode_out_78 ++
  big5_decode_out_79 ++
  big5_decode_out_80 ++
  big5_decode_out_81 ++
  big5_decode_out_82 ++
  big5_decode_out_83 ++
  big5_decode_out_84 ++
  big5_decode_out_85 ++
  big5_decode_out_86 ++
  big5_decode_out_87 ++
  big5_decode_out_88 ++
  big5_decode_out_89 ++
  big5_decode_out_90 ++
  big5_decode_out_91 ++
  big5_decode_out_92 ++
  big5_decode_out_93 ++
  big5_decode_out_94 ++
  big5_decode_out_95 ++
  big5_decode_out_96 ++
  big5_decode_out_97 ++
  big5_decode_out_98 ++
  big5_decode_out_99 ++
  big5_decode_out_100 ++
  big5_decode_out_101 ++
  big5_decode_out_102 ++
  big5_decode_out_103 ++
  big5_decode_out_104 ++
  big5_decode_out_105 ++
  big5_decode_out_106 ++
  big5_decode_out_107 ++
  big5_decode_out_108 ++
  big5_decode_out_109 ++
  big5_decode_out_110 ++
  big5_decode_out_111 ++
  big5_decode_out_112 ++
  big5_decode_out_113 ++
  big5_decode_out_114 ++
  big5_decode_out_115 ++
  big5_decode_out_116 ++
  big5_decode_out_117 ++
  big5_decode_out_118 ++
  big5_decode_out_119 ++
  big5_decode_out_120 ++
  big5_decode_out_121 ++
  big5_decode_out_122 ++
  big5_decode_out_123 ++
  big5_decode_out_124 ++
  big5_decode_out_125 ++
  big5_decode_out_126 ++
  big5_decode_out_127 ++
  big5_decode_out_128 ++
  big5_decode_out_129 ++
  big5_decode_out_130 ++
  big5_decode_out_131 ++
  big5_decode_out_132 ++
  big5_decode_out_133 ++
  big5_decode_out_134 ++
  big5_decode_out_135 ++
  big5_decode_out_136 ++
  big5_decode_out_137 ++
  big5_decode_out_138 ++
  big5_decode_out_139 ++
  big5_decode_out_140 ++
  big5_decode_out_141 ++
  big5_decode_out_142 ++
  big5_decode_out_143 ++
  big5_decode_out_144 ++
  big5_decode_out_145 ++
  big5_decode_out_146 ++
  big5_decode_out_147 ++
  big5_decode_out_148 ++
  big5_decode_out_149 ++
  big5_decode_out_150 ++
  big5_decode_out_151 ++
  big5_decode_out_152 ++
  big5_decode_out_153 ++
  big5_decode_out_154 ++
  big5_decode_out_155 ++
  big5_decode_out_156 ++
  big5_decode_out_157 ++
  big5_decode_out_158 ++
  big5_decode_out_159 ++
  big5_decode_out_160 ++
  big5_decode_out_161 ++
  big5_decode_out_162 ++
  big5_decode_out_163 ++
  big5_decode_out_164 ++
  big5_decode_out_165 ++
  big5_decode_out_166 ++
  big5_decode_out_167 ++
  big5_decode_out_168 ++
  big5_decode_out_169 ++
  big5_decode_out_170 ++
  big5_decode_out_171 ++
  big5_decode_out_172 ++
  big5_decode_out_173 ++
  big5_decode_out_174 ++
  big5_decode_out_175 ++
  big5_decode_out_176 ++
  big5_decode_out_177 ++
  big5_decode_out_178 ++
  big5_decode_out_179 ++
  big5_decode_out_180 ++
  big5_decode_out_181 ++
  big5_decode_out_182 ++
  big5_decode_out_183 ++
  big5_decode_out_184 ++
  big5_decode_out_185 ++
  big5_decode_out_186 ++
  big5_decode_out_187 ++
  big5_decode_out_188 ++
  big5_decode_out_189 ++
  big5_decode_out_190 ++
  big5_decode_out_191 ++
  big5_decode_out_192 ++
  big5_decode_out_193 ++
  big5_decode_out_194 ++
  big5_decode_out_195 ++
  big5_decode_out_196 ++
  big5_decode_out_197 ++
  big5_decode_out_198 ++
  big5_decode_out_199 ++
  big5_decode_out_200 ++
  big5_decode_out_201 ++
  big5_decode_out_202 ++
  big5_decode_out_203 ++
  big5_decode_out_204 ++
  big5_decode_out_205 ++
  big5_decode_out_206 ++
  big5_decode_out_207 ++
  big5_decode_out_208 ++
  big5_decode_out_209 ++
  big5_decode_out_210 ++
  big5_decode_out_211 ++
  big5_decode_out_212 ++
  big5_decode_out_213 ++
  big5_decode_out_214 ++
  big5_decode_out_215 ++
  big5_decode_out_216 ++
  big5_decode_out_217 ++
  big5_decode_out_218 ++
  big5_decode_out_219 ++
  big5_decode_out_220 ++
  big5_decode_out_221 ++
  big5_decode_out_222 ++
  big5_decode_out_223 ++
  big5_decode_out_224 ++
  big5_decode_out_225 ++
  big5_decode_out_226 ++
  big5_decode_out_227 ++
  big5_decode_out_228 ++
  big5_decode_out_229 ++
  big5_decode_out_230 ++
  big5_decode_out_231 ++
  big5_decode_out_232 ++
  big5_decode_out_233 ++
  big5_decode_out_234 ++
  big5_decode_out_235 ++
  big5_decode_out_236 ++
  big5_decode_out_237 ++
  big5_decode_out_238 ++
  big5_decode_out_239 ++
  big5_decode_out_240 ++
  big5_decode_out_241 ++
  big5_decode_out_242 ++
  big5_decode_out_243 ++
  big5_decode_out_244 ++
  big5_decode_out_245 ++
  big5_decode_out_246 ++
  big5_decode_out_247 ++
  big5_decode_out_248 ++
  big5_decode_out_249 ++
  big5_decode_out_250 ++
  big5_decode_out_251 ++
  big5_decode_out_252 ++
  big5_decode_out_253 ++
  big5_decode_out_254 ++
  big5_decode_out_255 ++
  big5_decode_out_256 ++
  big5_decode_out_257 ++
  big5_decode_out_258 ++
  big5_decode_out_259 ++
  big5_decode_out_260 ++
  big5_decode_out_261 ++
  big5_decode_out_262 ++
  big5_decode_out_263 ++
  big5_decode_out_264 ++
  big5_decode_out_265 ++
  big5_decode_out_266 ++
  big5_decode_out_267 ++
  big5_decode_out_268 ++
  big5_decode_out_269 ++
  big5_decode_out_270 ++
  big5_decode_out_271 ++
  big5_decode_out_272 ++
  big5_decode_out_273 ++
  big5_decode_out_274 ++
  big5_decode_out_275 ++
  big5_decode_out_276 ++
  big5_decode_out_277 ++
  big5_decode_out_278 ++
  big5_decode_out_279 ++
  big5_decode_out_280 ++
  big5_decode_out_281 ++
  big5_decode_out_282 ++
  big5_decode_out_283 ++
  big5_decode_out_284 ++
  big5_decode_out_285 ++
  big5_decode_out_286 ++
  big5_decode_out_287 ++
  big5_decode_out_288 ++
  big5_decode_out_289 ++
  big5_decode_out_290 ++
  big5_decode_out_291 ++
  big5_decode_out_292 ++
  big5_decode_out_293 ++
  big5_decode_out_294 ++
  big5_decode_out_295 ++
  big5_decode_out_296 ++
  big5_decode_out_297.

(* tests/test_data/whatwg/big5_whatwg_test_encode_in.txt, entries 0..255 *)
Definition big5_encode_in_0 : list byte := [
  x01; x0a; x02; x0a; x03; x0a; x04; x0a;
  x05; x0a; x06; x0a; x07; x0a; x08; x0a;
  x09; x0a; x0a; x0a; x0b; x0a; x0c; x0a;
  x0d; x0a; x0e; x0a; x0f; x0a; x10; x0a;
  x11; x0a; x12; x0a; x13; x0a; x14; x0a;
  x15; x0a; x16; x0a; x17; x0a; x18; x0a;
  x19; x0a; x1a; x0a; x1b; x0a; x1c; x0a;
  x1d; x0a; x1e; x0a; x1f; x0a; x20; x0a;
  x21; x0a; x22; x0a; x23; x0a; x24; x0a;
  x25; x0a; x26; x0a; x27; x0a; x28; x0a;
  x29; x0a; x2a; x0a; x2b; x0a; x2c; x0a;
  x2d; x0a; x2e; x0a; x2f; x0a; x30; x0a;
  x31; x0a; x32; x0a; x33; x0a; x34; x0a;
  x35; x0a; x36; x0a; x37; x0a; x38; x0a;
  x39; x0a; x3a; x0a; x3b; x0a; x3c; x0a;
  x3d; x0a; x3e; x0a; x3f; x0a; x40; x0a;
  x41; x0a; x42; x0a; x43; x0a; x44; x0a;
  x45; x0a; x46; x0a; x47; x0a; x48; x0a;
  x49; x0a; x4a; x0a; x4b; x0a; x4c; x0a;
  x4d; x0a; x4e; x0a; x4f; x0a; x50; x0a;
  x51; x0a; x52; x0a; x53; x0a; x54; x0a;
  x55; x0a; x56; x0a; x57; x0a; x58; x0a;
  x59; x0a; x5a; x0a; x5b; x0a; x5c; x0a;
  x5d; x0a; x5e; x0a; x5f; x0a; x60; x0a;
  x61; x0a; x62; x0a; x63; x0a; x64; x0a;
  x65; x0a; x66; x0a; x67; x0a; x68; x0a;
  x69; x0a; x6a; x0a; x6b; x0a; x6c; x0a;
  x6d; x0a; x6e; x0a; x6f; x0a; x70; x0a;
  x71; x0a; x72; x0a; x73; x0a; x74; x0a;
  x75; x0a; x76; x0a; x77; x0a; x78; x0a;
  x79; x0a; x7a; x0a; x7b; x0a; x7c; x0a;
  x7d; x0a; x7e; x0a; x7f; x0a; xe4; x8f
].
(* tests/test_data/whatwg/big5_whatwg_test_encode_in.txt, entries 256..511 *)
Definition big5_encode_in_1 : list byte := [
  xb0; x0a; xe4; xb0; xb2; x0a; xe4; x98;
  x83; x0a; xe4; x96; xa6; x0a; xe4; x95;
  xb8; x0a; xf0; xa7; x89; xa7; x0a; xe4;
  xb5; xb7; x0a; xe4; x96; xb3; x0a; xf0;
  xa7; xb2; xb1; x0a; xe4; xb3; xa2; x0a;
  xf0; xa7; xb3; x85; x0a; xe3; xae; x95;
  x0a; xe4; x9c; xb6; x0a; xe4; x9d; x84;
  x0a; xe4; xb1; x87; x0a; xe4; xb1; x80;
  x0a; xf0; xa4; x8a; xbf; x0a; xf0; xa3;
  x98; x97; x0a; xf0; xa7; x8d; x92; x0a;
  xf0; xa6; xba; x8b; x0a; xf0; xa7; x83;
  x92; x0a; xe4; xb1; x97; x0a; xf0; xaa;
  x8d; x91; x0a; xe4; x9d; x8f; x0a; xe4;
  x97; x9a; x0a; xe4; xb2; x85; x0a; xf0;
  xa7; xb1; xac; x0a; xe4; xb4; x87; x0a;
  xe4; xaa; xa4; x0a; xe4; x9a; xa1; x0a;
  xf0; xa6; xac; xa3; x0a; xe7; x88; xa5;
  x0a; xf0; xa5; xa9; x94; x0a; xf0; xa1;
  xa9; xa3; x0a; xf0; xa3; xb8; x86; x0a;
  xf0; xa3; xbd; xa1; x0a; xe6; x99; x8d;
  x0a; xe5; x9b; xbb; x0a; xe7; xb6; x95;
  x0a; xe5; xa4; x9d; x0a; xf0; xa8; xae;
  xb9; x0a; xe3; xb7; xb4; x0a; xe9; x9c;
  xb4; x0a; xf0; xa7; xaf; xaf; x0a; xe5;
  xaf; x9b; x0a; xf0; xa1; xb5; x9e; x0a;
  xe5; xaa; xa4; x0a; xe3; x98; xa5; x0a;
  xf0; xa9; xba; xb0; x0a; xe5; xab; x91;
  x0a; xe5; xae; xb7; x0a; xe5; xb3; xbc;
  x0a; xe6; x9d; xae; x0a; xe8; x96; x93;
  x0a; xf0; xa9; xa5; x85; x0a; xe7; x91;
  xa1; x0a; xe7; x92; x9d; x0a; xe3; xa1;
  xb5; x0a; xf0; xa1; xb5; x93; x0a; xf0
].
(* tests/test_data/whatwg/big5_whatwg_test_encode_in.txt, entries 512..767 *)
Definition big5_encode_in_2 : list byte := [
  xa3; x9a; x9e; x0a; xf0; xa6; x80; xa1;
  x0a; xe3; xbb; xac; x0a; xf0; xa5; xa3;
  x9e; x0a; xe3; xab; xb5; x0a; xe7; xab;
  xbc; x0a; xe9; xbe; x97; x0a; xf0; xa4;
  x85; xa1; x0a; xf0; xa8; xa4; x8d; x0a;
  xf0; xa3; x87; xaa; x0a; xf0; xa0; xaa;
  x8a; x0a; xf0; xa3; x89; x9e; x0a; xe4;
  x8c; x8a; x0a; xe8; x92; x84; x0a; xe9;
  xbe; x96; x0a; xe9; x90; xaf; x0a; xe4;
  xa4; xb0; x0a; xe8; x98; x93; x0a; xe5;
  xa2; x96; x0a; xe9; x9d; x8a; x0a; xe9;
  x88; x98; x0a; xe7; xa7; x90; x0a; xe7;
  xa8; xb2; x0a; xe6; x99; xa0; x0a; xe6;
  xa8; xa9; x0a; xe8; xa2; x9d; x0a; xe7;
  x91; x8c; x0a; xe7; xaf; x85; x0a; xe6;
  x9e; x82; x0a; xe7; xa8; xac; x0a; xe5;
  x89; x8f; x0a; xe9; x81; x86; x0a; xe3;
  x93; xa6; x0a; xe7; x8f; x84; x0a; xf0;
  xa5; xb6; xb9; x0a; xe7; x93; x86; x0a;
  xe9; xbf; x87; x0a; xe5; x9e; xb3; x0a;
  xe4; xa4; xaf; x0a; xe5; x91; x8c; x0a;
  xe4; x84; xb1; x0a; xf0; xa3; x9a; x8e;
  x0a; xe5; xa0; x98; x0a; xe7; xa9; xb2;
  x0a; xf0; xa7; xad; xa5; x0a; xe8; xae;
  x8f; x0a; xe4; x9a; xae; x0a; xf0; xa6;
  xba; x88; x0a; xe4; x86; x81; x0a; xf0;
  xa5; xb6; x99; x0a; xe7; xae; xae; x0a;
  xf0; xa2; x92; xbc; x0a; xe9; xbf; x88;
  x0a; xf0; xa2; x93; x81; x0a; xf0; xa2;
  x93; x89; x0a; xf0; xa2; x93; x8c; x0a;
  xe9; xbf; x89; x0a; xe8; x94; x84; x0a;
  xf0; xa3; x96; xbb; x0a; xe4; x82; xb4
].
(* tests/test_data/whatwg/big5_whatwg_test_encode_in.txt, entries 768..1023 *)
Definition big5_encode_in_3 : list byte := [
  x0a; xe9; xbf; x8a; x0a; xe4; x93; xa1;
  x0a; xf0; xaa; xb7; xbf; x0a; xe6; x8b;
  x81; x0a; xe7; x81; xae; x0a; xe9; xbf;
  x8b; x0a; xe3; x87; x80; x0a; xe3; x87;
  x81; x0a; xe3; x87; x82; x0a; xe3; x87;
  x83; x0a; xe3; x87; x84; x0a; xf0; xa0;
  x84; x8c; x0a; xe3; x87; x85; x0a; xf0;
  xa0; x83; x91; x0a; xf0; xa0; x83; x8d;
  x0a; xe3; x87; x86; x0a; xe3; x87; x87;
  x0a; xf0; xa0; x83; x8b; x0a; xf0; xa1;
  xbf; xa8; x0a; xe3; x87; x88; x0a; xf0;
  xa0; x83; x8a; x0a; xe3; x87; x89; x0a;
  xe3; x87; x8a; x0a; xe3; x87; x8b; x0a;
  xe3; x87; x8c; x0a; xf0; xa0; x84; x8e;
  x0a; xe3; x87; x8d; x0a; xe3; x87; x8e;
  x0a; xc4; x80; x0a; xc3; x81; x0a; xc7;
  x8d; x0a; xc3; x80; x0a; xc4; x92; x0a;
  xc3; x89; x0a; xc4; x9a; x0a; xc3; x88;
  x0a; xc5; x8c; x0a; xc3; x93; x0a; xc7;
  x91; x0a; xc3; x92; x0a; xe1; xba; xbe;
  x0a; xe1; xbb; x80; x0a; xc3; x8a; x0a;
  xc4; x81; x0a; xc3; xa1; x0a; xc7; x8e;
  x0a; xc3; xa0; x0a; xc9; x91; x0a; xc4;
  x93; x0a; xc3; xa9; x0a; xc4; x9b; x0a;
  xc3; xa8; x0a; xc4; xab; x0a; xc3; xad;
  x0a; xc7; x90; x0a; xc3; xac; x0a; xc5;
  x8d; x0a; xc3; xb3; x0a; xc7; x92; x0a;
  xc3; xb2; x0a; xc5; xab; x0a; xc3; xba;
  x0a; xc7; x94; x0a; xc3; xb9; x0a; xc7;
  x96; x0a; xc7; x98; x0a; xc7; x9a; x0a;
  xc7; x9c; x0a; xc3; xbc; x0a; xe1; xba;
  xbf; x0a; xe1; xbb; x81; x0a; xc3; xaa
].
(* tests/test_data/whatwg/big5_whatwg_test_encode_in.txt, entries 1024..1279 *)
Definition big5_encode_in_4 : list byte := [
  x0a; xc9; xa1; x0a; xe2; x8f; x9a; x0a;
  xe2; x8f; x9b; x0a; xf0; xaa; x8e; xa9;
  x0a; xf0; xa1; x85; x85; x0a; xe6; x94;
  x8a; x0a; xe4; xb8; xbd; x0a; xe6; xbb;
  x9d; x0a; xe9; xb5; x8e; x0a; xe9; x87;
  x9f; x0a; xf0; xa7; x9c; xb5; x0a; xe6;
  x92; x91; x0a; xe4; xbc; x9a; x0a; xe4;
  xbc; xa8; x0a; xe4; xbe; xa8; x0a; xe5;
  x85; x96; x0a; xe5; x85; xb4; x0a; xe5;
  x86; x9c; x0a; xe5; x87; xa4; x0a; xe5;
  x8a; xa1; x0a; xe5; x8a; xa8; x0a; xe5;
  x8c; xbb; x0a; xe5; x8d; x8e; x0a; xe5;
  x8f; x91; x0a; xe5; x8f; x98; x0a; xe5;
  x9b; xa2; x0a; xe5; xa3; xb0; x0a; xe5;
  xa4; x84; x0a; xe5; xa4; x87; x0a; xe5;
  xa4; xb2; x0a; xe5; xa4; xb4; x0a; xe5;
  xad; xa6; x0a; xe5; xae; x9e; x0a; xe5;
  xae; x9f; x0a; xe5; xb2; x9a; x0a; xe5;
  xba; x86; x0a; xe6; x80; xbb; x0a; xe6;
  x96; x89; x0a; xe6; x9f; xbe; x0a; xe6;
  xa0; x84; x0a; xe6; xa1; xa5; x0a; xe6;
  xb5; x8e; x0a; xe7; x82; xbc; x0a; xe7;
  x94; xb5; x0a; xe7; xba; xa4; x0a; xe7;
  xba; xac; x0a; xe7; xba; xba; x0a; xe7;
  xbb; x87; x0a; xe7; xbb; x8f; x0a; xe7;
  xbb; x9f; x0a; xe7; xbc; x86; x0a; xe7;
  xbc; xb7; x0a; xe8; x89; xba; x0a; xe8;
  x8b; x8f; x0a; xe8; x8d; xaf; x0a; xe8;
  xa7; x86; x0a; xe8; xae; xbe; x0a; xe8;
  xaf; xa2; x0a; xe8; xbd; xa6; x0a; xe8;
  xbd; xa7; x0a; xe8; xbd; xae; x0a; xe7;
  x90; x91; x0a; xe7; xb3; xbc; x0a; xe7
].
(* tests/test_data/whatwg/big5_whatwg_test_encode_in.txt, entries 1280..1535 *)
Definition big5_encode_in_5 : list byte := [
  xb7; x8d; x0a; xe6; xa5; x86; x0a; xe7;
  xab; x89; x0a; xe5; x88; xa7; x0a; xe9;
  x86; x8c; x0a; xe7; xa2; xb8; x0a; xe9;
  x85; x9e; x0a; xe8; x82; xbc; x0a; xe8;
  xb4; x8b; x0a; xe8; x83; xb6; x0a; xf0;
  xa0; xa7; xa7; x0a; xe8; x82; x9f; x0a;
  xe9; xbb; x87; x0a; xe4; xb3; x8d; x0a;
  xe9; xb7; x89; x0a; xe9; xb8; x8c; x0a;
  xe4; xb0; xbe; x0a; xf0; xa9; xb7; xb6;
  x0a; xf0; xa7; x80; x8e; x0a; xe9; xb8;
  x8a; x0a; xf0; xaa; x84; xb3; x0a; xe3;
  x97; x81; x0a; xe6; xba; x9a; x0a; xe8;
  x88; xbe; x0a; xe7; x94; x99; x0a; xe4;
  xa4; x91; x0a; xe9; xa9; xac; x0a; xe9;
  xaa; x8f; x0a; xe9; xbe; x99; x0a; xe7;
  xa6; x87; x0a; xf0; xa8; x91; xac; x0a;
  xf0; xa1; xb7; x8a; x0a; xf0; xa0; x97;
  x90; x0a; xf0; xa2; xab; xa6; x0a; xe4;
  xb8; xa4; x0a; xe4; xba; x81; x0a; xe4;
  xba; x80; x0a; xe4; xba; x87; x0a; xe4;
  xba; xbf; x0a; xe4; xbb; xab; x0a; xe4;
  xbc; xb7; x0a; xe3; x91; x8c; x0a; xe4;
  xbe; xbd; x0a; xe3; xb9; x88; x0a; xe5;
  x80; x83; x0a; xe5; x82; x88; x0a; xe3;
  x91; xbd; x0a; xe3; x92; x93; x0a; xe3;
  x92; xa5; x0a; xe5; x86; x86; x0a; xe5;
  xa4; x85; x0a; xe5; x87; x9b; x0a; xe5;
  x87; xbc; x0a; xe5; x88; x85; x0a; xe4;
  xba; x89; x0a; xe5; x89; xb9; x0a; xe5;
  x8a; x90; x0a; xe5; x8c; xa7; x0a; xe3;
  x97; x87; x0a; xe5; x8e; xa9; x0a; xe3;
  x95; x91; x0a; xe5; x8e; xb0; x0a; xe3
].
(* tests/test_data/whatwg/big5_whatwg_test_encode_in.txt, entries 1536..1791 *)
Definition big5_encode_in_6 : list byte := [
  x95; x93; x0a; xe5; x8f; x82; x0a; xe5;
  x90; xa3; x0a; xe3; x95; xad; x0a; xe3;
  x95; xb2; x0a; xe3; x9a; x81; x0a; xe5;
  x92; x93; x0a; xe5; x92; xa3; x0a; xe5;
  x92; xb4; x0a; xe5; x92; xb9; x0a; xe5;
  x93; x90; x0a; xe5; x93; xaf; x0a; xe5;
  x94; x98; x0a; xe5; x94; xa3; x0a; xe5;
  x94; xa8; x0a; xe3; x96; x98; x0a; xe5;
  x94; xbf; x0a; xe3; x96; xa5; x0a; xe3;
  x96; xbf; x0a; xe5; x97; x97; x0a; xe3;
  x97; x85; x0a; xf0; xa7; xb6; x84; x0a;
  xe5; x94; xa5; x0a; xf0; xa0; xb1; x82;
  x0a; xf0; xa0; xb4; x95; x0a; xf0; xa5;
  x84; xab; x0a; xe5; x96; x90; x0a; xf0;
  xa2; xb3; x86; x0a; xe3; xa7; xac; x0a;
  xf0; xa0; x8d; x81; x0a; xe8; xb9; x86;
  x0a; xf0; xa4; xb6; xb8; x0a; xf0; xa9;
  x93; xa5; x0a; xe4; x81; x93; x0a; xf0;
  xa8; x82; xbe; x0a; xe7; x9d; xba; x0a;
  xf0; xa2; xb0; xb8; x0a; xe3; xa8; xb4;
  x0a; xe4; x9f; x95; x0a; xf0; xa8; x85;
  x9d; x0a; xf0; xa6; xa7; xb2; x0a; xf0;
  xa4; xb7; xaa; x0a; xe6; x93; x9d; x0a;
  xf0; xa0; xb5; xbc; x0a; xf0; xa0; xbe;
  xb4; x0a; xf0; xa0; xb3; x95; x0a; xf0;
  xa1; x83; xb4; x0a; xe6; x92; x8d; x0a;
  xe8; xb9; xbe; x0a; xf0; xa0; xba; x96;
  x0a; xf0; xa0; xb0; x8b; x0a; xf0; xa0;
  xbd; xa4; x0a; xf0; xa2; xb2; xa9; x0a;
  xf0; xa8; x89; x96; x0a; xf0; xa4; x93;
  x93; x0a; xf0; xa0; xb5; x86; x0a; xf0;
  xa9; xa9; x8d; x0a; xf0; xa8; x83; xa9
].
(* tests/test_data/whatwg/big5_whatwg_test_encode_in.txt, entries 1792..2047 *)
Definition big5_encode_in_7 : list byte := [
  x0a; xe4; x9f; xb4; x0a; xf0; xa4; xba;
  xa7; x0a; xf0; xa2; xb3; x82; x0a; xe9;
  xaa; xb2; x0a; xe3; xa9; xa7; x0a; xf0;
  xa9; x97; xb4; x0a; xe3; xbf; xad; x0a;
  xe3; x94; x86; x0a; xf0; xa5; x8b; x87;
  x0a; xf0; xa9; x9f; x94; x0a; xf0; xa7;
  xa3; x88; x0a; xf0; xa2; xb5; x84; x0a;
  xe9; xb5; xae; x0a; xe9; xa0; x95; x0a;
  xe4; x8f; x99; x0a; xf0; xa6; x82; xa5;
  x0a; xe6; x92; xb4; x0a; xe5; x93; xa3;
  x0a; xf0; xa2; xb5; x8c; x0a; xf0; xa2;
  xaf; x8a; x0a; xf0; xa1; x81; xb7; x0a;
  xe3; xa7; xbb; x0a; xf0; xa1; x81; xaf;
  x0a; xf0; xa6; x9b; x9a; x0a; xf0; xa6;
  x9c; x96; x0a; xf0; xa7; xa6; xa0; x0a;
  xe6; x93; xaa; x0a; xf0; xa5; x81; x92;
  x0a; xf0; xa0; xb1; x83; x0a; xe8; xb9;
  xa8; x0a; xf0; xa2; x86; xa1; x0a; xf0;
  xa8; xad; x8c; x0a; xf0; xa0; x9c; xb1;
  x0a; xe4; xa0; x8b; x0a; xf0; xa0; x86;
  xa9; x0a; xe3; xbf; xba; x0a; xe5; xa1;
  xb3; x0a; xf0; xa2; xb6; x8d; x0a; xf0;
  xa4; x97; x88; x0a; xf0; xa0; x93; xbc;
  x0a; xf0; xa6; x82; x97; x0a; xf0; xa0;
  xbd; x8c; x0a; xf0; xa0; xb6; x96; x0a;
  xe5; x95; xb9; x0a; xe4; x82; xbb; x0a;
  xe4; x8e; xba; x0a; xe4; xaa; xb4; x0a;
  xf0; xa2; xa9; xa6; x0a; xf0; xa1; x82;
  x9d; x0a; xe8; x86; xaa; x0a; xe9; xa3;
  xb5; x0a; xf0; xa0; xb6; x9c; x0a; xe6;
  x8d; xb9; x0a; xe3; xa7; xbe; x0a; xf0;
  xa2; x9d; xb5; x0a; xe8; xb7; x80; x0a
].
(* tests/test_data/whatwg/big5_whatwg_test_encode_in.txt, entries 2048..2303 *)
Definition big5_encode_in_8 : list byte := [
  xe5; x9a; xa1; x0a; xe6; x91; xbc; x0a;
  xe3; xb9; x83; x0a; xf0; xaa; x98; x81;
  x0a; xf0; xa0; xb8; x89; x0a; xf0; xa2;
  xab; x8f; x0a; xf0; xa2; xb3; x89; x0a;
  xf0; xa1; x83; x88; x0a; xf0; xa3; xa7;
  x82; x0a; xe3; xa6; x92; x0a; xe3; xa8;
  x86; x0a; xf0; xa8; x8a; x9b; x0a; xe3;
  x95; xb8; x0a; xf0; xa5; xb9; x89; x0a;
  xf0; xa2; x83; x87; x0a; xe5; x99; x92;
  x0a; xf0; xa0; xbc; xb1; x0a; xf0; xa2;
  xb2; xb2; x0a; xf0; xa9; x9c; xa0; x0a;
  xe3; x92; xbc; x0a; xe6; xb0; xbd; x0a;
  xf0; xa4; xb8; xbb; x0a; xf0; xa7; x95;
  xb4; x0a; xf0; xa2; xba; x8b; x0a; xf0;
  xa2; x88; x88; x0a; xf0; xaa; x99; x9b;
  x0a; xf0; xa8; xb3; x8d; x0a; xf0; xa0;
  xb9; xba; x0a; xf0; xa0; xb0; xb4; x0a;
  xf0; xa6; xa0; x9c; x0a; xe7; xbe; x93;
  x0a; xf0; xa1; x83; x8f; x0a; xf0; xa2;
  xa0; x83; x0a; xf0; xa2; xa4; xb9; x0a;
  xe3; x97; xbb; x0a; xf0; xa5; x87; xa3;
  x0a; xf0; xa0; xba; x8c; x0a; xf0; xa0;
  xbe; x8d; x0a; xf0; xa0; xba; xaa; x0a;
  xe3; xbe; x93; x0a; xf0; xa0; xbc; xb0;
  x0a; xf0; xa0; xb5; x87; x0a; xf0; xa1;
  x85; x8f; x0a; xf0; xa0; xb9; x8c; x0a;
  xf0; xa0; xba; xab; x0a; xf0; xa0; xae;
  xa9; x0a; xf0; xa0; xb5; x88; x0a; xf0;
  xa1; x83; x80; x0a; xf0; xa1; x84; xbd;
  x0a; xe3; xbf; xb9; x0a; xf0; xa2; x9a;
  x96; x0a; xe6; x90; xb2; x0a; xf0; xa0;
  xbe; xad; x0a; xf0; xa3; x8f; xb4; x0a
].
(* tests/test_data/whatwg/big5_whatwg_test_encode_in.txt, entries 2304..2559 *)
Definition big5_encode_in_9 : list byte := [
  xf0; xa7; x98; xb9; x0a; xf0; xa2; xaf;
  x8e; x0a; xf0; xa0; xb5; xbe; x0a; xf0;
  xa0; xb5; xbf; x0a; xf0; xa2; xb1; x91;
  x0a; xf0; xa2; xb1; x95; x0a; xe3; xa8;
  x98; x0a; xf0; xa0; xba; x98; x0a; xf0;
  xa1; x83; x87; x0a; xf0; xa0; xbc; xae;
  x0a; xf0; xaa; x98; xb2; x0a; xf0; xa6;
  xad; x90; x0a; xf0; xa8; xb3; x92; x0a;
  xf0; xa8; xb6; x99; x0a; xf0; xa8; xb3;
  x8a; x0a; xe9; x96; xaa; x0a; xe5; x93;
  x8c; x0a; xe8; x8b; x84; x0a; xe5; x96;
  xb9; x0a; xf0; xa9; xbb; x83; x0a; xe9;
  xb0; xa6; x0a; xe9; xaa; xb6; x0a; xf0;
  xa7; x9d; x9e; x0a; xf0; xa2; xb7; xae;
  x0a; xe7; x85; x80; x0a; xe8; x85; xad;
  x0a; xe8; x83; xac; x0a; xe5; xb0; x9c;
  x0a; xf0; xa6; x95; xb2; x0a; xe8; x84;
  xb4; x0a; xe3; x9e; x97; x0a; xe5; x8d;
  x9f; x0a; xf0; xa8; x82; xbd; x0a; xe9;
  x86; xb6; x0a; xf0; xa0; xbb; xba; x0a;
  xf0; xa0; xb8; x8f; x0a; xf0; xa0; xb9;
  xb7; x0a; xf0; xa0; xbb; xbb; x0a; xe3;
  x97; x9d; x0a; xf0; xa4; xb7; xab; x0a;
  xe3; x98; x89; x0a; xf0; xa0; xb3; x96;
  x0a; xe5; x9a; xaf; x0a; xf0; xa2; x9e;
  xb5; x0a; xf0; xa1; x83; x89; x0a; xf0;
  xa0; xb8; x90; x0a; xf0; xa0; xb9; xb8;
  x0a; xf0; xa1; x81; xb8; x0a; xf0; xa1;
  x85; x88; x0a; xf0; xa8; x88; x87; x0a;
  xf0; xa1; x91; x95; x0a; xf0; xa0; xb9;
  xb9; x0a; xf0; xa4; xb9; x90; x0a; xf0;
  xa2; xb6; xa4; x0a; xe5; xa9; x94; x0a
].
(* tests/test_data/whatwg/big5_whatwg_test_encode_in.txt, entries 2560..2815 *)
Definition big5_encode_in_10 : list byte := [
  xf0; xa1; x80; x9d; x0a; xf0; xa1; x80;
  x9e; x0a; xf0; xa1; x83; xb5; x0a; xf0;
  xa1; x83; xb6; x0a; xe5; x9e; x9c; x0a;
  xf0; xa0; xb8; x91; x0a; xf0; xa7; x9a;
  x94; x0a; xf0; xa8; x8b; x8d; x0a; xf0;
  xa0; xbe; xb5; x0a; xf0; xa0; xb9; xbb;
  x0a; xf0; xa5; x85; xbe; x0a; xe3; x9c;
  x83; x0a; xf0; xa0; xbe; xb6; x0a; xf0;
  xa1; x86; x80; x0a; xf0; xa5; x8b; x98;
  x0a; xf0; xaa; x8a; xbd; x0a; xf0; xa4;
  xa7; x9a; x0a; xf0; xa1; xa0; xba; x0a;
  xf0; xa4; x85; xb7; x0a; xf0; xa8; x89;
  xbc; x0a; xe5; xa2; x99; x0a; xe5; x89;
  xa8; x0a; xe3; x98; x9a; x0a; xf0; xa5;
  x9c; xbd; x0a; xe7; xae; xb2; x0a; xe5;
  xad; xa8; x0a; xe4; xa0; x80; x0a; xe4;
  xac; xac; x0a; xe9; xbc; xa7; x0a; xe4;
  xa7; xa7; x0a; xe9; xb0; x9f; x0a; xe9;
  xae; x8d; x0a; xf0; xa5; xad; xb4; x0a;
  xf0; xa3; x84; xbd; x0a; xe5; x97; xbb;
  x0a; xe3; x97; xb2; x0a; xe5; x9a; x89;
  x0a; xe4; xb8; xa8; x0a; xe5; xa4; x82;
  x0a; xf0; xa1; xaf; x81; x0a; xf0; xaf;
  xa1; xb8; x0a; xe9; x9d; x91; x0a; xf0;
  xa0; x82; x86; x0a; xe4; xb9; x9b; x0a;
  xe4; xba; xbb; x0a; xe3; x94; xbe; x0a;
  xe5; xb0; xa3; x0a; xe5; xbd; x91; x0a;
  xe5; xbf; x84; x0a; xe3; xa3; xba; x0a;
  xe6; x89; x8c; x0a; xe6; x94; xb5; x0a;
  xe6; xad; xba; x0a; xe6; xb0; xb5; x0a;
  xe6; xb0; xba; x0a; xe7; x81; xac; x0a;
  xe7; x88; xab; x0a; xe4; xb8; xac; x0a
].
(* tests/test_data/whatwg/big5_whatwg_test_encode_in.txt, entries 2816..3071 *)
Definition big5_encode_in_11 : list byte := [
  xe7; x8a; xad; x0a; xf0; xa4; xa3; xa9;
  x0a; xe7; xbd; x92; x0a; xe7; xa4; xbb;
  x0a; xe7; xb3; xb9; x0a; xe7; xbd; x93;
  x0a; xf0; xa6; x89; xaa; x0a; xe3; x93;
  x81; x0a; xf0; xa6; x8d; x8b; x0a; xe8;
  x80; x82; x0a; xe8; x82; x80; x0a; xf0;
  xa6; x98; x92; x0a; xf0; xa6; xa5; x91;
  x0a; xe5; x8d; x9d; x0a; xe8; xa1; xa4;
  x0a; xe8; xa7; x81; x0a; xf0; xa7; xa2;
  xb2; x0a; xe8; xae; xa0; x0a; xe8; xb4;
  x9d; x0a; xe9; x92; x85; x0a; xe9; x95;
  xb8; x0a; xe9; x95; xbf; x0a; xe9; x97;
  xa8; x0a; xf0; xa8; xb8; x8f; x0a; xe9;
  x9f; xa6; x0a; xe9; xa1; xb5; x0a; xe9;
  xa3; x8e; x0a; xe9; xa3; x9e; x0a; xe9;
  xa5; xa3; x0a; xf0; xa9; xa0; x90; x0a;
  xe9; xb1; xbc; x0a; xe9; xb8; x9f; x0a;
  xe9; xbb; x84; x0a; xe6; xad; xaf; x0a;
  xef; xa4; x87; x0a; xe4; xb8; xb7; x0a;
  xf0; xa0; x82; x87; x0a; xe9; x98; x9d;
  x0a; xe6; x88; xb7; x0a; xe9; x92; xa2;
  x0a; xe5; x80; xbb; x0a; xe6; xb7; xbe;
  x0a; xf0; xa9; xb1; xb3; x0a; xe9; xbe;
  xa6; x0a; xe3; xb7; x89; x0a; xe8; xa2;
  x8f; x0a; xf0; xa4; x85; x8e; x0a; xe7;
  x81; xb7; x0a; xe5; xb3; xb5; x0a; xe4;
  xac; xa0; x0a; xf0; xa5; x87; x8d; x0a;
  xe3; x95; x99; x0a; xf0; xa5; xb4; xb0;
  x0a; xe6; x84; xa2; x0a; xf0; xa8; xa8;
  xb2; x0a; xe8; xbe; xa7; x0a; xe9; x87;
  xb6; x0a; xe7; x86; x91; x0a; xe6; x9c;
  x99; x0a; xe7; x8e; xba; x0a; xf0; xa3
].
(* tests/test_data/whatwg/big5_whatwg_test_encode_in.txt, entries 3072..3327 *)
Definition big5_encode_in_12 : list byte := [
  x8a; x81; x0a; xf0; xaa; x84; x87; x0a;
  xe3; xb2; x8b; x0a; xf0; xa1; xa6; x80;
  x0a; xe4; xac; x90; x0a; xe7; xa3; xa4;
  x0a; xe7; x90; x82; x0a; xe5; x86; xae;
  x0a; xf0; xa8; x9c; x8f; x0a; xe4; x80;
  x89; x0a; xe6; xa9; xa3; x0a; xf0; xaa;
  x8a; xba; x0a; xe4; x88; xa3; x0a; xe8;
  x98; x8f; x0a; xf0; xa0; xa9; xaf; x0a;
  xe7; xa8; xaa; x0a; xf0; xa9; xa5; x87;
  x0a; xf0; xa8; xab; xaa; x0a; xe9; x9d;
  x95; x0a; xe7; x81; x8d; x0a; xe5; x8c;
  xa4; x0a; xf0; xa2; x81; xbe; x0a; xe9;
  x8f; xb4; x0a; xe7; x9b; x99; x0a; xf0;
  xa8; xa7; xa3; x0a; xe9; xbe; xa7; x0a;
  xe7; x9f; x9d; x0a; xe4; xba; xa3; x0a;
  xe4; xbf; xb0; x0a; xe5; x82; xbc; x0a;
  xe4; xb8; xaf; x0a; xe4; xbc; x97; x0a;
  xe9; xbe; xa8; x0a; xe5; x90; xb4; x0a;
  xe7; xb6; x8b; x0a; xe5; xa2; x92; x0a;
  xe5; xa3; x90; x0a; xf0; xa1; xb6; xb6;
  x0a; xe5; xba; x92; x0a; xe5; xba; x99;
  x0a; xe5; xbf; x82; x0a; xf0; xa2; x9c;
  x92; x0a; xe6; x96; x8b; x0a; xf0; xa3;
  x8f; xb9; x0a; xe6; xa4; x99; x0a; xe6;
  xa9; x83; x0a; xf0; xa3; xb1; xa3; x0a;
  xe6; xb3; xbf; x0a; xe7; x88; x80; x0a;
  xf0; xa4; x94; x85; x0a; xe7; x8e; x8c;
  x0a; xe3; xbb; x9b; x0a; xf0; xa4; xa8;
  x93; x0a; xe5; xac; x95; x0a; xe7; x92;
  xb9; x0a; xe8; xae; x83; x0a; xf0; xa5;
  xb2; xa4; x0a; xf0; xa5; x9a; x95; x0a;
  xe7; xaa; x93; x0a; xe7; xaf; xac; x0a
].
(* tests/test_data/whatwg/big5_whatwg_test_encode_in.txt, entries 3328..3583 *)
Definition big5_encode_in_13 : list byte := [
  xe7; xb3; x83; x0a; xe7; xb9; xac; x0a;
  xe8; x8b; xb8; x0a; xe8; x96; x97; x0a;
  xe9; xbe; xa9; x0a; xe8; xa2; x90; x0a;
  xe9; xbe; xaa; x0a; xe8; xba; xb9; x0a;
  xe9; xbe; xab; x0a; xe8; xbf; x8f; x0a;
  xe8; x95; x9f; x0a; xe9; xa7; xa0; x0a;
  xe9; x88; xa1; x0a; xe9; xbe; xac; x0a;
  xf0; xa8; xb6; xb9; x0a; xf0; xa1; x90;
  xbf; x0a; xe4; x81; xb1; x0a; xe4; x8a;
  xa2; x0a; xe5; xa8; x9a; x0a; xe9; xa1;
  xa8; x0a; xe6; x9d; xab; x0a; xe4; x89;
  xb6; x0a; xe5; x9c; xbd; x0a; xe8; x97;
  x96; x0a; xf0; xa4; xa5; xbb; x0a; xe8;
  x8a; xbf; x0a; xf0; xa7; x84; x8d; x0a;
  xe4; xb2; x81; x0a; xf0; xa6; xb5; xb4;
  x0a; xe5; xb5; xbb; x0a; xf0; xa6; xac;
  x95; x0a; xf0; xa6; xbe; xbe; x0a; xe9;
  xbe; xad; x0a; xe9; xbe; xae; x0a; xe5;
  xae; x96; x0a; xe9; xbe; xaf; x0a; xe6;
  x9b; xa7; x0a; xe7; xb9; x9b; x0a; xe6;
  xb9; x97; x0a; xe7; xa7; x8a; x0a; xe3;
  xb6; x88; x0a; xe4; x93; x83; x0a; xf0;
  xa3; x89; x96; x0a; xf0; xa2; x9e; x96;
  x0a; xe4; x8e; x9a; x0a; xe4; x94; xb6;
  x0a; xe5; xb3; x95; x0a; xf0; xa3; xac;
  x9a; x0a; xe8; xab; xb9; x0a; xe5; xb1;
  xb8; x0a; xe3; xb4; x92; x0a; xf0; xa3;
  x95; x91; x0a; xe5; xb5; xb8; x0a; xe9;
  xbe; xb2; x0a; xe7; x85; x97; x0a; xe4;
  x95; x98; x0a; xf0; xa4; x83; xac; x0a;
  xf0; xa1; xb8; xa3; x0a; xe4; xb1; xb7;
  x0a; xe3; xa5; xb8; x0a; xe3; x91; x8a
].
(* tests/test_data/whatwg/big5_whatwg_test_encode_in.txt, entries 3584..3839 *)
Definition big5_encode_in_14 : list byte := [
  x0a; xf0; xa0; x86; xa4; x0a; xf0; xa6;
  xb1; x81; x0a; xe8; xab; x8c; x0a; xe4;
  xbe; xb4; x0a; xf0; xa0; x88; xb9; x0a;
  xe5; xa6; xbf; x0a; xe8; x85; xac; x0a;
  xe9; xa1; x96; x0a; xf0; xa9; xa3; xba;
  x0a; xe5; xbc; xbb; x0a; xf0; xa0; xae;
  x9f; x0a; xf0; xa2; x87; x81; x0a; xf0;
  xa8; xa5; xad; x0a; xe4; x84; x82; x0a;
  xe4; x9a; xbb; x0a; xf0; xa9; x81; xb9;
  x0a; xe3; xbc; x87; x0a; xe9; xbe; xb3;
  x0a; xf0; xaa; x86; xb5; x0a; xe4; x83;
  xb8; x0a; xe3; x9f; x96; x0a; xe4; x9b;
  xb7; x0a; xf0; xa6; xb1; x86; x0a; xe4;
  x85; xbc; x0a; xf0; xa8; x9a; xb2; x0a;
  xf0; xa7; x8f; xbf; x0a; xe4; x95; xad;
  x0a; xe3; xa3; x94; x0a; xf0; xa5; x92;
  x9a; x0a; xe4; x95; xa1; x0a; xe4; x94;
  x9b; x0a; xe4; xb6; x89; x0a; xe4; xb1;
  xbb; x0a; xe4; xb5; xb6; x0a; xe4; x97;
  xaa; x0a; xe3; xbf; x88; x0a; xf0; xa4;
  xac; x8f; x0a; xe3; x99; xa1; x0a; xe4;
  x93; x9e; x0a; xe4; x92; xbd; x0a; xe4;
  x87; xad; x0a; xe5; xb4; xbe; x0a; xe5;
  xb5; x88; x0a; xe5; xb5; x96; x0a; xe3;
  xb7; xbc; x0a; xe3; xa0; x8f; x0a; xe5;
  xb6; xa4; x0a; xe5; xb6; xb9; x0a; xe3;
  xa0; xa0; x0a; xe3; xa0; xb8; x0a; xe5;
  xb9; x82; x0a; xe5; xba; xbd; x0a; xe5;
  xbc; xa5; x0a; xe5; xbe; x83; x0a; xe3;
  xa4; x88; x0a; xe3; xa4; x94; x0a; xe3;
  xa4; xbf; x0a; xe3; xa5; x8d; x0a; xe6;
  x83; x97; x0a; xe6; x84; xbd; x0a; xe5
].
(* tests/test_data/whatwg/big5_whatwg_test_encode_in.txt, entries 3840..4095 *)
Definition big5_encode_in_15 : list byte := [
  xb3; xa5; x0a; xe3; xa6; x89; x0a; xe6;
  x86; xb7; x0a; xe6; x86; xb9; x0a; xe6;
  x87; x8f; x0a; xe3; xa6; xb8; x0a; xe6;
  x88; xac; x0a; xe6; x8a; x90; x0a; xe6;
  x8b; xa5; x0a; xe6; x8c; x98; x0a; xe3;
  xa7; xb8; x0a; xe5; x9a; xb1; x0a; xe3;
  xa8; x83; x0a; xe6; x8f; xa2; x0a; xe6;
  x8f; xbb; x0a; xe6; x90; x87; x0a; xe6;
  x91; x9a; x0a; xe3; xa9; x8b; x0a; xe6;
  x93; x80; x0a; xe5; xb4; x95; x0a; xe5;
  x98; xa1; x0a; xe9; xbe; x9f; x0a; xe3;
  xaa; x97; x0a; xe6; x96; x86; x0a; xe3;
  xaa; xbd; x0a; xe6; x97; xbf; x0a; xe6;
  x99; x93; x0a; xe3; xab; xb2; x0a; xe6;
  x9a; x92; x0a; xe3; xac; xa2; x0a; xe6;
  x9c; x96; x0a; xe3; xad; x82; x0a; xe6;
  x9e; xa4; x0a; xe6; xa0; x80; x0a; xe3;
  xad; x98; x0a; xe6; xa1; x8a; x0a; xe6;
  xa2; x84; x0a; xe3; xad; xb2; x0a; xe3;
  xad; xb1; x0a; xe3; xad; xbb; x0a; xe6;
  xa4; x89; x0a; xe6; xa5; x83; x0a; xe7;
  x89; x9c; x0a; xe6; xa5; xa4; x0a; xe6;
  xa6; x9f; x0a; xe6; xa6; x85; x0a; xe3;
  xae; xbc; x0a; xe6; xa7; x96; x0a; xe3;
  xaf; x9d; x0a; xe6; xa9; xa5; x0a; xe6;
  xa9; xb4; x0a; xe6; xa9; xb1; x0a; xe6;
  xaa; x82; x0a; xe3; xaf; xac; x0a; xe6;
  xaa; x99; x0a; xe3; xaf; xb2; x0a; xe6;
  xaa; xab; x0a; xe6; xaa; xb5; x0a; xe6;
  xab; x94; x0a; xe6; xab; xb6; x0a; xe6;
  xae; x81; x0a; xe6; xaf; x81; x0a; xe6;
  xaf; xaa; x0a; xe6; xb1; xb5; x0a; xe6
].
(* tests/test_data/whatwg/big5_whatwg_test_encode_in.txt, entries 4096..4351 *)
Definition big5_encode_in_16 : list byte := [
  xb2; xaa; x0a; xe3; xb3; x8b; x0a; xe6;
  xb4; x82; x0a; xe6; xb4; x86; x0a; xe6;
  xb4; xa6; x0a; xe6; xb6; x81; x0a; xe3;
  xb3; xaf; x0a; xe6; xb6; xa4; x0a; xe6;
  xb6; xb1; x0a; xe6; xb8; x95; x0a; xe6;
  xb8; x98; x0a; xe6; xb8; xa9; x0a; xe6;
  xba; x86; x0a; xf0; xa8; xa7; x80; x0a;
  xe6; xba; xbb; x0a; xe6; xbb; xa2; x0a;
  xe6; xbb; x9a; x0a; xe9; xbd; xbf; x0a;
  xe6; xbb; xa8; x0a; xe6; xbb; xa9; x0a;
  xe6; xbc; xa4; x0a; xe6; xbc; xb4; x0a;
  xe3; xb5; x86; x0a; xf0; xa3; xbd; x81;
  x0a; xe6; xbe; x81; x0a; xe6; xbe; xbe;
  x0a; xe3; xb5; xaa; x0a; xe3; xb5; xb5;
  x0a; xe7; x86; xb7; x0a; xe5; xb2; x99;
  x0a; xe3; xb6; x8a; x0a; xe7; x80; xac;
  x0a; xe3; xb6; x91; x0a; xe7; x81; x90;
  x0a; xe7; x81; x94; x0a; xe7; x81; xaf;
  x0a; xe7; x81; xbf; x0a; xe7; x82; x89;
  x0a; xf0; xa0; x8c; xa5; x0a; xe4; x8f;
  x81; x0a; xe3; x97; xb1; x0a; xf0; xa0;
  xbb; x98; x0a; xf0; xa3; xbb; x97; x0a;
  xe5; x9e; xbe; x0a; xf0; xa6; xbb; x93;
  x0a; xe7; x84; xbe; x0a; xf0; xa5; x9f;
  xa0; x0a; xe3; x99; x8e; x0a; xe6; xa6;
  xa2; x0a; xf0; xa8; xaf; xa9; x0a; xe5;
  xad; xb4; x0a; xe7; xa9; x89; x0a; xf0;
  xa5; xa3; xa1; x0a; xf0; xa9; x93; x99;
  x0a; xe7; xa9; xa5; x0a; xe7; xa9; xbd;
  x0a; xf0; xa5; xa6; xac; x0a; xe7; xaa;
  xbb; x0a; xe7; xaa; xb0; x0a; xe7; xab;
  x82; x0a; xe7; xab; x83; x0a; xe7; x87
].
(* tests/test_data/whatwg/big5_whatwg_test_encode_in.txt, entries 4352..4607 *)
Definition big5_encode_in_17 : list byte := [
  x91; x0a; xf0; xa6; x92; x8d; x0a; xe4;
  x87; x8a; x0a; xe7; xab; x9a; x0a; xe7;
  xab; x9d; x0a; xe7; xab; xaa; x0a; xe4;
  x87; xaf; x0a; xe5; x92; xb2; x0a; xf0;
  xa5; xb0; x81; x0a; xe7; xac; x8b; x0a;
  xe7; xad; x95; x0a; xe7; xac; xa9; x0a;
  xf0; xa5; x8c; x8e; x0a; xf0; xa5; xb3;
  xbe; x0a; xe7; xae; xa2; x0a; xe7; xad;
  xaf; x0a; xe8; x8e; x9c; x0a; xf0; xa5;
  xae; xb4; x0a; xf0; xa6; xb1; xbf; x0a;
  xe7; xaf; x90; x0a; xe8; x90; xa1; x0a;
  xe7; xae; x92; x0a; xe7; xae; xb8; x0a;
  xf0; xa5; xb4; xa0; x0a; xe3; xb6; xad;
  x0a; xf0; xa5; xb1; xa5; x0a; xe8; x92;
  x92; x0a; xe7; xaf; xba; x0a; xe7; xb0;
  x86; x0a; xe7; xb0; xb5; x0a; xf0; xa5;
  xb3; x81; x0a; xe7; xb1; x84; x0a; xe7;
  xb2; x83; x0a; xf0; xa4; xa2; x82; x0a;
  xe7; xb2; xa6; x0a; xe6; x99; xbd; x0a;
  xf0; xa4; x95; xb8; x0a; xe7; xb3; x89;
  x0a; xe7; xb3; x87; x0a; xe7; xb3; xa6;
  x0a; xe7; xb1; xb4; x0a; xe7; xb3; xb3;
  x0a; xe7; xb3; xb5; x0a; xe7; xb3; x8e;
  x0a; xe7; xb9; xa7; x0a; xe4; x94; x9d;
  x0a; xf0; xa6; xb9; x84; x0a; xe7; xb5;
  x9d; x0a; xf0; xa6; xbb; x96; x0a; xe7;
  x92; x8d; x0a; xe7; xb6; x89; x0a; xe7;
  xb6; xab; x0a; xe7; x84; xb5; x0a; xe7;
  xb6; xb3; x0a; xe7; xb7; x92; x0a; xf0;
  xa4; x81; x97; x0a; xf0; xa6; x80; xa9;
  x0a; xe7; xb7; xa4; x0a; xe3; xb4; x93;
  x0a; xe7; xb7; xb5; x0a; xf0; xa1; x9f
].
(* tests/test_data/whatwg/big5_whatwg_test_encode_in.txt, entries 4608..4863 *)
Definition big5_encode_in_18 : list byte := [
  xb9; x0a; xe7; xb7; xa5; x0a; xf0; xa8;
  x8d; xad; x0a; xe7; xb8; x9d; x0a; xf0;
  xa6; x84; xa1; x0a; xf0; xa6; x85; x9a;
  x0a; xe7; xb9; xae; x0a; xe7; xba; x92;
  x0a; xe4; x8c; xab; x0a; xe9; x91; xac;
  x0a; xe7; xb8; xa7; x0a; xe7; xbd; x80;
  x0a; xe7; xbd; x81; x0a; xe7; xbd; x87;
  x0a; xe7; xa4; xb6; x0a; xf0; xa6; x8b;
  x90; x0a; xe9; xa7; xa1; x0a; xe7; xbe;
  x97; x0a; xf0; xa6; x8d; x91; x0a; xe7;
  xbe; xa3; x0a; xf0; xa1; x99; xa1; x0a;
  xf0; xa0; x81; xa8; x0a; xe4; x95; x9c;
  x0a; xf0; xa3; x9d; xa6; x0a; xe4; x94;
  x83; x0a; xf0; xa8; x8c; xba; x0a; xe7;
  xbf; xba; x0a; xf0; xa6; x92; x89; x0a;
  xe8; x80; x85; x0a; xe8; x80; x88; x0a;
  xe8; x80; x9d; x0a; xe8; x80; xa8; x0a;
  xe8; x80; xaf; x0a; xf0; xaa; x82; x87;
  x0a; xf0; xa6; xb3; x83; x0a; xe8; x80;
  xbb; x0a; xe8; x80; xbc; x0a; xe8; x81;
  xa1; x0a; xf0; xa2; x9c; x94; x0a; xe4;
  xa6; x89; x0a; xf0; xa6; x98; xa6; x0a;
  xf0; xa3; xb7; xa3; x0a; xf0; xa6; x9b;
  xa8; x0a; xe6; x9c; xa5; x0a; xe8; x82;
  xa7; x0a; xf0; xa8; xa9; x88; x0a; xe8;
  x84; x87; x0a; xe8; x84; x9a; x0a; xe5;
  xa2; xb0; x0a; xf0; xa2; x9b; xb6; x0a;
  xe6; xb1; xbf; x0a; xf0; xa6; x92; x98;
  x0a; xf0; xa4; xbe; xb8; x0a; xe6; x93;
  xa7; x0a; xf0; xa1; x92; x8a; x0a; xe8;
  x88; x98; x0a; xf0; xa1; xa1; x9e; x0a;
  xe6; xa9; x93; x0a; xf0; xa4; xa9; xa5
].
(* tests/test_data/whatwg/big5_whatwg_test_encode_in.txt, entries 4864..5119 *)
Definition big5_encode_in_19 : list byte := [
  x0a; xf0; xa4; xaa; x95; x0a; xe4; x91;
  xba; x0a; xe8; x88; xa9; x0a; xf0; xa0;
  xac; x8d; x0a; xf0; xa6; xa9; x92; x0a;
  xf0; xa3; xb5; xbe; x0a; xe4; xbf; xb9;
  x0a; xf0; xa1; x93; xbd; x0a; xe8; x93;
  xa2; x0a; xe8; x8d; xa2; x0a; xf0; xa6;
  xac; x8a; x0a; xf0; xa4; xa6; xa7; x0a;
  xf0; xa3; x94; xb0; x0a; xf0; xa1; x9d;
  xb3; x0a; xf0; xa3; xb7; xb8; x0a; xe8;
  x8a; xaa; x0a; xe6; xa4; x9b; x0a; xf0;
  xaf; xa6; x94; x0a; xe4; x87; x9b; x0a;
  xe8; x95; x8b; x0a; xe8; x8b; x90; x0a;
  xe8; x8c; x9a; x0a; xf0; xa0; xb8; x96;
  x0a; xf0; xa1; x9e; xb4; x0a; xe3; x9b;
  x81; x0a; xf0; xa3; x85; xbd; x0a; xf0;
  xa3; x95; x9a; x0a; xe8; x89; xbb; x0a;
  xe8; x8b; xa2; x0a; xe8; x8c; x98; x0a;
  xf0; xa3; xba; x8b; x0a; xf0; xa6; xb6;
  xa3; x0a; xf0; xa6; xac; x85; x0a; xf0;
  xa6; xae; x97; x0a; xf0; xa3; x97; x8e;
  x0a; xe3; xb6; xbf; x0a; xe8; x8c; x9d;
  x0a; xe5; x97; xac; x0a; xe8; x8e; x85;
  x0a; xe4; x94; x8b; x0a; xf0; xa6; xb6;
  xa5; x0a; xe8; x8e; xac; x0a; xe8; x8f;
  x81; x0a; xe8; x8f; x93; x0a; xe3; x91;
  xbe; x0a; xf0; xa6; xbb; x94; x0a; xe6;
  xa9; x97; x0a; xe8; x95; x9a; x0a; xe3;
  x92; x96; x0a; xf0; xa6; xb9; x82; x0a;
  xf0; xa2; xbb; xaf; x0a; xe8; x91; x98;
  x0a; xf0; xa5; xaf; xa4; x0a; xe8; x91;
  xb1; x0a; xe3; xb7; x93; x0a; xe4; x93;
  xa4; x0a; xe6; xaa; xa7; x0a; xe8; x91
].
(* tests/test_data/whatwg/big5_whatwg_test_encode_in.txt, entries 5120..5375 *)
Definition big5_encode_in_20 : list byte := [
  x8a; x0a; xf0; xa3; xb2; xb5; x0a; xe7;
  xa5; x98; x0a; xe8; x92; xa8; x0a; xf0;
  xa6; xae; x96; x0a; xf0; xa6; xb9; xb7;
  x0a; xf0; xa6; xb9; x83; x0a; xe8; x93;
  x9e; x0a; xe8; x90; x8f; x0a; xe8; x8e;
  x91; x0a; xe4; x92; xa0; x0a; xe8; x92;
  x93; x0a; xe8; x93; xa4; x0a; xf0; xa5;
  xb2; x91; x0a; xe4; x89; x80; x0a; xf0;
  xa5; xb3; x80; x0a; xe4; x95; x83; x0a;
  xe8; x94; xb4; x0a; xe5; xab; xb2; x0a;
  xf0; xa6; xba; x99; x0a; xe4; x94; xa7;
  x0a; xe8; x95; xb3; x0a; xe4; x94; x96;
  x0a; xe6; x9e; xbf; x0a; xe8; x98; x96;
  x0a; xf0; xa8; x98; xa5; x0a; xf0; xa8;
  x98; xbb; x0a; xe8; x97; x81; x0a; xf0;
  xa7; x82; x88; x0a; xe8; x98; x82; x0a;
  xf0; xa1; x96; x82; x0a; xf0; xa7; x83;
  x8d; x0a; xf0; xaf; xa6; xb2; x0a; xe4;
  x95; xaa; x0a; xe8; x98; xa8; x0a; xe3;
  x99; x88; x0a; xf0; xa1; xa2; xa2; x0a;
  xe5; x8f; xb7; x0a; xf0; xa7; x8e; x9a;
  x0a; xe8; x99; xbe; x0a; xe8; x9d; xb1;
  x0a; xf0; xaa; x83; xb8; x0a; xe8; x9f;
  xae; x0a; xf0; xa2; xb0; xa7; x0a; xe8;
  x9e; xb1; x0a; xe8; x9f; x9a; x0a; xe8;
  xa0; x8f; x0a; xe5; x99; xa1; x0a; xe8;
  x99; xac; x0a; xe6; xa1; x96; x0a; xe4;
  x98; x8f; x0a; xe8; xa1; x85; x0a; xe8;
  xa1; x86; x0a; xf0; xa7; x97; xa0; x0a;
  xf0; xa3; xb6; xb9; x0a; xf0; xa7; x97;
  xa4; x0a; xe8; xa1; x9e; x0a; xe8; xa2;
  x9c; x0a; xe4; x99; x9b; x0a; xe8; xa2
].
(* tests/test_data/whatwg/big5_whatwg_test_encode_in.txt, entries 5376..5631 *)
Definition big5_encode_in_21 : list byte := [
  xb4; x0a; xe8; xa2; xb5; x0a; xe6; x8f;
  x81; x0a; xe8; xa3; x85; x0a; xe7; x9d;
  xb7; x0a; xf0; xa7; x9c; x8f; x0a; xe8;
  xa6; x87; x0a; xe8; xa6; x8a; x0a; xe8;
  xa6; xa6; x0a; xe8; xa6; xa9; x0a; xe8;
  xa6; xa7; x0a; xe8; xa6; xbc; x0a; xf0;
  xa8; xa8; xa5; x0a; xe8; xa7; xa7; x0a;
  xf0; xa7; xa4; xa4; x0a; xf0; xa7; xaa;
  xbd; x0a; xe8; xaa; x9c; x0a; xe7; x9e;
  x93; x0a; xe9; x87; xbe; x0a; xe8; xaa;
  x90; x0a; xf0; xa7; xa9; x99; x0a; xe7;
  xab; xa9; x0a; xf0; xa7; xac; xba; x0a;
  xf0; xa3; xbe; x8f; x0a; xe4; x9c; x93;
  x0a; xf0; xa7; xac; xb8; x0a; xe7; x85;
  xbc; x0a; xe8; xac; x8c; x0a; xe8; xac;
  x9f; x0a; xf0; xa5; x90; xb0; x0a; xf0;
  xa5; x95; xa5; x0a; xe8; xac; xbf; x0a;
  xe8; xad; x8c; x0a; xe8; xad; x8d; x0a;
  xe8; xaa; xa9; x0a; xf0; xa4; xa9; xba;
  x0a; xe8; xae; x90; x0a; xe8; xae; x9b;
  x0a; xe8; xaa; xaf; x0a; xf0; xa1; x9b;
  x9f; x0a; xe4; x98; x95; x0a; xe8; xa1;
  x8f; x0a; xe8; xb2; x9b; x0a; xf0; xa7;
  xb5; x94; x0a; xf0; xa7; xb6; x8f; x0a;
  xf0; xaf; xa7; x94; x0a; xe3; x9c; xa5;
  x0a; xf0; xa7; xb5; x93; x0a; xe8; xb3;
  x96; x0a; xf0; xa7; xb6; x98; x0a; xf0;
  xa7; xb6; xbd; x0a; xe8; xb4; x92; x0a;
  xe8; xb4; x83; x0a; xf0; xa1; xa4; x90;
  x0a; xe8; xb3; x9b; x0a; xe7; x81; x9c;
  x0a; xe8; xb4; x91; x0a; xf0; xa4; xb3;
  x89; x0a; xe3; xbb; x90; x0a; xe8; xb5
].
(* tests/test_data/whatwg/big5_whatwg_test_encode_in.txt, entries 5632..5887 *)
Definition big5_encode_in_22 : list byte := [
  xb7; x0a; xe8; xb6; xa9; x0a; xf0; xa8;
  x80; x82; x0a; xf0; xa1; x80; x94; x0a;
  xf0; xa4; xa6; x8a; x0a; xe3; xad; xbc;
  x0a; xf0; xa8; x86; xbc; x0a; xf0; xa7;
  x84; x8c; x0a; xe7; xab; xa7; x0a; xe8;
  xba; xad; x0a; xe8; xba; xb6; x0a; xe8;
  xbb; x83; x0a; xe9; x8b; x94; x0a; xe8;
  xbc; x99; x0a; xe8; xbc; xad; x0a; xf0;
  xa8; x8d; xa5; x0a; xf0; xa8; x90; x92;
  x0a; xe8; xbe; xa5; x0a; xe9; x8c; x83;
  x0a; xf0; xaa; x8a; x9f; x0a; xf0; xa0;
  xa9; x90; x0a; xe8; xbe; xb3; x0a; xe4;
  xa4; xaa; x0a; xf0; xa8; xa7; x9e; x0a;
  xf0; xa8; x94; xbd; x0a; xf0; xa3; xb6;
  xbb; x0a; xe5; xbb; xb8; x0a; xf0; xa3;
  x89; xa2; x0a; xe8; xbf; xb9; x0a; xf0;
  xaa; x80; x94; x0a; xf0; xa8; x9a; xbc;
  x0a; xf0; xa8; x94; x81; x0a; xf0; xa2;
  x8c; xa5; x0a; xe3; xa6; x80; x0a; xf0;
  xa6; xbb; x97; x0a; xe9; x80; xb7; x0a;
  xf0; xa8; x94; xbc; x0a; xf0; xa7; xaa;
  xbe; x0a; xe9; x81; xa1; x0a; xf0; xa8;
  x95; xac; x0a; xf0; xa8; x98; x8b; x0a;
  xe9; x82; xa8; x0a; xf0; xa8; x9c; x93;
  x0a; xe9; x83; x84; x0a; xf0; xa8; x9b;
  xa6; x0a; xe9; x82; xae; x0a; xe9; x83;
  xbd; x0a; xe9; x85; xa7; x0a; xe3; xab;
  xb0; x0a; xe9; x86; xa9; x0a; xe9; x87;
  x84; x0a; xe7; xb2; xac; x0a; xf0; xa8;
  xa4; xb3; x0a; xf0; xa1; xba; x89; x0a;
  xe9; x88; x8e; x0a; xe6; xb2; x9f; x0a;
  xe9; x89; x81; x0a; xe9; x89; xa2; x0a
].
(* tests/test_data/whatwg/big5_whatwg_test_encode_in.txt, entries 5888..6143 *)
Definition big5_encode_in_23 : list byte := [
  xf0; xa5; x96; xb9; x0a; xe9; x8a; xb9;
  x0a; xf0; xa8; xab; x86; x0a; xf0; xa3;
  xb2; x9b; x0a; xf0; xa8; xac; x8c; x0a;
  xf0; xa5; x97; x9b; x0a; xf0; xa0; xb4;
  xb1; x0a; xe9; x8c; xac; x0a; xe9; x8d;
  xab; x0a; xf0; xa8; xab; xa1; x0a; xf0;
  xa8; xaf; xab; x0a; xe7; x82; x8f; x0a;
  xe5; xab; x83; x0a; xf0; xa8; xab; xa2;
  x0a; xf0; xa8; xab; xa5; x0a; xe4; xa5;
  xa5; x0a; xe9; x89; x84; x0a; xf0; xa8;
  xaf; xac; x0a; xf0; xa8; xb0; xb9; x0a;
  xf0; xa8; xaf; xbf; x0a; xe9; x8d; xb3;
  x0a; xe9; x91; x9b; x0a; xe8; xba; xbc;
  x0a; xe9; x96; x85; x0a; xe9; x96; xa6;
  x0a; xe9; x90; xa6; x0a; xe9; x96; xa0;
  x0a; xe6; xbf; xb6; x0a; xe4; x8a; xb9;
  x0a; xf0; xa2; x99; xba; x0a; xf0; xa8;
  x9b; x98; x0a; xf0; xa1; x89; xbc; x0a;
  xf0; xa3; xb8; xae; x0a; xe4; xa7; x9f;
  x0a; xe6; xb0; x9c; x0a; xe9; x99; xbb;
  x0a; xe9; x9a; x96; x0a; xe4; x85; xac;
  x0a; xe9; x9a; xa3; x0a; xf0; xa6; xbb;
  x95; x0a; xe6; x87; x9a; x0a; xe9; x9a;
  xb6; x0a; xe7; xa3; xb5; x0a; xf0; xa8;
  xab; xa0; x0a; xe9; x9a; xbd; x0a; xe5;
  x8f; x8c; x0a; xe4; xa6; xa1; x0a; xf0;
  xa6; xb2; xb8; x0a; xf0; xa0; x89; xb4;
  x0a; xf0; xa6; x90; x90; x0a; xf0; xa9;
  x82; xaf; x0a; xf0; xa9; x83; xa5; x0a;
  xf0; xa4; xab; x91; x0a; xf0; xa1; xa4;
  x95; x0a; xf0; xa3; x8c; x8a; x0a; xe9;
  x9c; xb1; x0a; xe8; x99; x82; x0a; xe9
].
(* tests/test_data/whatwg/big5_whatwg_test_encode_in.txt, entries 6144..6399 *)
Definition big5_encode_in_24 : list byte := [
  x9c; xb6; x0a; xe4; xa8; x8f; x0a; xe4;
  x94; xbd; x0a; xe4; x96; x85; x0a; xf0;
  xa4; xab; xa9; x0a; xe7; x81; xb5; x0a;
  xe5; xad; x81; x0a; xe9; x9c; x9b; x0a;
  xe9; x9d; x9c; x0a; xf0; xa9; x87; x95;
  x0a; xe9; x9d; x97; x0a; xe5; xad; x8a;
  x0a; xf0; xa9; x87; xab; x0a; xe9; x9d;
  x9f; x0a; xe9; x90; xa5; x0a; xe5; x83;
  x90; x0a; xf0; xa3; x82; xb7; x0a; xf0;
  xa3; x82; xbc; x0a; xe9; x9e; x89; x0a;
  xe9; x9e; x9f; x0a; xe9; x9e; xb1; x0a;
  xe9; x9e; xbe; x0a; xe9; x9f; x80; x0a;
  xe9; x9f; x92; x0a; xe9; x9f; xa0; x0a;
  xf0; xa5; x91; xac; x0a; xe9; x9f; xae;
  x0a; xe7; x90; x9c; x0a; xf0; xa9; x90;
  xb3; x0a; xe9; x9f; xbf; x0a; xe9; x9f;
  xb5; x0a; xf0; xa9; x90; x9d; x0a; xf0;
  xa7; xa5; xba; x0a; xe4; xab; x91; x0a;
  xe9; xa0; xb4; x0a; xe9; xa0; xb3; x0a;
  xe9; xa1; x8b; x0a; xe9; xa1; xa6; x0a;
  xe3; xac; x8e; x0a; xf0; xa7; x85; xb5;
  x0a; xe3; xb5; x91; x0a; xf0; xa0; x98;
  xb0; x0a; xf0; xa4; x85; x9c; x0a; xf0;
  xa5; x9c; x86; x0a; xe9; xa3; x8a; x0a;
  xe9; xa2; xb7; x0a; xe9; xa3; x88; x0a;
  xe9; xa3; x87; x0a; xe4; xab; xbf; x0a;
  xf0; xa6; xb4; xa7; x0a; xf0; xa1; x9b;
  x93; x0a; xe5; x96; xb0; x0a; xe9; xa3;
  xa1; x0a; xe9; xa3; xa6; x0a; xe9; xa3;
  xac; x0a; xe9; x8d; xb8; x0a; xe9; xa4;
  xb9; x0a; xf0; xa4; xa8; xa9; x0a; xe4;
  xad; xb2; x0a; xf0; xa9; xa1; x97; x0a
].
(* tests/test_data/whatwg/big5_whatwg_test_encode_in.txt, entries 6400..6655 *)
Definition big5_encode_in_25 : list byte := [
  xf0; xa9; xa4; x85; x0a; xe9; xa7; xb5;
  x0a; xe9; xa8; x8c; x0a; xe9; xa8; xbb;
  x0a; xe9; xa8; x90; x0a; xe9; xa9; x98;
  x0a; xf0; xa5; x9c; xa5; x0a; xe3; x9b;
  x84; x0a; xf0; xa9; x82; xb1; x0a; xf0;
  xa9; xaf; x95; x0a; xe9; xab; xa0; x0a;
  xe9; xab; xa2; x0a; xf0; xa9; xac; x85;
  x0a; xe9; xab; xb4; x0a; xe4; xb0; x8e;
  x0a; xe9; xac; x94; x0a; xe9; xac; xad;
  x0a; xf0; xa8; x98; x80; x0a; xe5; x80;
  xb4; x0a; xe9; xac; xb4; x0a; xf0; xa6;
  xa6; xa8; x0a; xe3; xa3; x83; x0a; xf0;
  xa3; x81; xbd; x0a; xe9; xad; x90; x0a;
  xe9; xad; x80; x0a; xf0; xa9; xb4; xbe;
  x0a; xe5; xa9; x85; x0a; xf0; xa1; xa1;
  xa3; x0a; xe9; xae; x8e; x0a; xf0; xa4;
  x89; x8b; x0a; xe9; xb0; x82; x0a; xe9;
  xaf; xbf; x0a; xe9; xb0; x8c; x0a; xf0;
  xa9; xb9; xa8; x0a; xe9; xb7; x94; x0a;
  xf0; xa9; xbe; xb7; x0a; xf0; xaa; x86;
  x92; x0a; xf0; xaa; x86; xab; x0a; xf0;
  xaa; x83; xa1; x0a; xf0; xaa; x84; xa3;
  x0a; xf0; xaa; x87; x9f; x0a; xe9; xb5;
  xbe; x0a; xe9; xb6; x83; x0a; xf0; xaa;
  x84; xb4; x0a; xe9; xb8; x8e; x0a; xe6;
  xa2; x88; x0a; xe9; xb7; x84; x0a; xf0;
  xa2; x85; x9b; x0a; xf0; xaa; x86; x93;
  x0a; xf0; xaa; x88; xa0; x0a; xf0; xa1;
  xa4; xbb; x0a; xf0; xaa; x88; xb3; x0a;
  xe9; xb4; xb9; x0a; xf0; xaa; x82; xb9;
  x0a; xf0; xaa; x8a; xb4; x0a; xe9; xba;
  x90; x0a; xe9; xba; x95; x0a; xe9; xba
].
(* tests/test_data/whatwg/big5_whatwg_test_encode_in.txt, entries 6656..6911 *)
Definition big5_encode_in_26 : list byte := [
  x9e; x0a; xe9; xba; xa2; x0a; xe4; xb4;
  xb4; x0a; xe9; xba; xaa; x0a; xe9; xba;
  xaf; x0a; xf0; xa4; x8d; xa4; x0a; xe9;
  xbb; x81; x0a; xe3; xad; xa0; x0a; xe3;
  xa7; xa5; x0a; xe3; xb4; x9d; x0a; xe4;
  xbc; xb2; x0a; xe3; x9e; xbe; x0a; xf0;
  xa8; xb0; xab; x0a; xe9; xbc; x82; x0a;
  xe9; xbc; x88; x0a; xe4; xae; x96; x0a;
  xe9; x90; xa4; x0a; xf0; xa6; xb6; xa2;
  x0a; xe9; xbc; x97; x0a; xe9; xbc; x96;
  x0a; xe9; xbc; xb9; x0a; xe5; x9a; x9f;
  x0a; xe5; x9a; x8a; x0a; xe9; xbd; x85;
  x0a; xe9; xa6; xb8; x0a; xf0; xa9; x82;
  x8b; x0a; xe9; x9f; xb2; x0a; xe8; x91;
  xbf; x0a; xe9; xbd; xa2; x0a; xe9; xbd;
  xa9; x0a; xe7; xab; x9c; x0a; xe9; xbe;
  x8e; x0a; xe7; x88; x96; x0a; xe4; xae;
  xbe; x0a; xf0; xa4; xa5; xb5; x0a; xf0;
  xa4; xa6; xbb; x0a; xe7; x85; xb7; x0a;
  xf0; xa4; xa7; xb8; x0a; xf0; xa4; x8d;
  x88; x0a; xf0; xa4; xa9; x91; x0a; xe7;
  x8e; x9e; x0a; xf0; xa8; xaf; x9a; x0a;
  xf0; xa1; xa3; xba; x0a; xe7; xa6; x9f;
  x0a; xf0; xa8; xa5; xbe; x0a; xf0; xa8;
  xb8; xb6; x0a; xe9; x8d; xa9; x0a; xe9;
  x8f; xb3; x0a; xf0; xa8; xa9; x84; x0a;
  xe9; x8b; xac; x0a; xe9; x8e; x81; x0a;
  xe9; x8f; x8b; x0a; xf0; xa8; xa5; xac;
  x0a; xf0; xa4; x92; xb9; x0a; xe7; x88;
  x97; x0a; xe3; xbb; xab; x0a; xe7; x9d;
  xb2; x0a; xe7; xa9; x83; x0a; xe7; x83;
  x90; x0a; xf0; xa4; x91; xb3; x0a; xf0
].
(* tests/test_data/whatwg/big5_whatwg_test_encode_in.txt, entries 6912..7167 *)
Definition big5_encode_in_27 : list byte := [
  xa4; x8f; xb8; x0a; xe7; x85; xbe; x0a;
  xf0; xa1; x9f; xaf; x0a; xe7; x82; xa3;
  x0a; xf0; xa1; xa2; xbe; x0a; xf0; xa3;
  x96; x99; x0a; xe3; xbb; x87; x0a; xf0;
  xa1; xa2; x85; x0a; xf0; xa5; x90; xaf;
  x0a; xf0; xa1; x9f; xb8; x0a; xe3; x9c;
  xa2; x0a; xf0; xa1; x9b; xbb; x0a; xf0;
  xa1; xa0; xb9; x0a; xe3; x9b; xa1; x0a;
  xf0; xa1; x9d; xb4; x0a; xf0; xa1; xa3;
  x91; x0a; xf0; xa5; xbd; x8b; x0a; xe3;
  x9c; xa3; x0a; xf0; xa1; x9b; x80; x0a;
  xe5; x9d; x9b; x0a; xf0; xa4; xa8; xa5;
  x0a; xf0; xa1; x8f; xbe; x0a; xf0; xa1;
  x8a; xa8; x0a; xf0; xa1; x8f; x86; x0a;
  xf0; xa1; x92; xb6; x0a; xe8; x94; x83;
  x0a; xf0; xa3; x9a; xa6; x0a; xe8; x91;
  x95; x0a; xf0; xa4; xa6; x94; x0a; xf0;
  xa7; x85; xa5; x0a; xf0; xa3; xb8; xb1;
  x0a; xf0; xa5; x95; x9c; x0a; xf0; xa3;
  xbb; xbb; x0a; xf0; xa7; x81; x92; x0a;
  xe4; x93; xb4; x0a; xf0; xa3; x9b; xae;
  x0a; xf0; xa9; xa6; x9d; x0a; xf0; xa6;
  xbc; xa6; x0a; xe6; x9f; xb9; x0a; xe3;
  x9c; xb3; x0a; xe3; xb0; x95; x0a; xe3;
  xb7; xa7; x0a; xe5; xa1; xac; x0a; xf0;
  xa1; xa4; xa2; x0a; xe6; xa0; x90; x0a;
  xe4; x81; x97; x0a; xf0; xa3; x9c; xbf;
  x0a; xf0; xa4; x83; xa1; x0a; xf0; xa4;
  x82; x8b; x0a; xf0; xa4; x84; x8f; x0a;
  xf0; xa6; xb0; xa1; x0a; xe5; x93; x8b;
  x0a; xe5; x9a; x9e; x0a; xf0; xa6; x9a;
  xb1; x0a; xe5; x9a; x92; x0a; xf0; xa0
].
(* tests/test_data/whatwg/big5_whatwg_test_encode_in.txt, entries 7168..7423 *)
Definition big5_encode_in_28 : list byte := [
  xbf; x9f; x0a; xf0; xa0; xae; xa8; x0a;
  xf0; xa0; xb8; x8d; x0a; xe9; x8f; x86;
  x0a; xf0; xa8; xac; x93; x0a; xe9; x8e;
  x9c; x0a; xe4; xbb; xb8; x0a; xe5; x84;
  xab; x0a; xe3; xa0; x99; x0a; xf0; xa4;
  x90; xb6; x0a; xe4; xba; xbc; x0a; xf0;
  xa0; x91; xa5; x0a; xf0; xa0; x8d; xbf;
  x0a; xe4; xbd; x8b; x0a; xe4; xbe; x8a;
  x0a; xf0; xa5; x99; x91; x0a; xe5; xa9;
  xa8; x0a; xf0; xa0; x86; xab; x0a; xf0;
  xa0; x8f; x8b; x0a; xe3; xa6; x99; x0a;
  xf0; xa0; x8c; x8a; x0a; xf0; xa0; x90;
  x94; x0a; xe3; x90; xb5; x0a; xe4; xbc;
  xa9; x0a; xf0; xa0; x8b; x80; x0a; xf0;
  xa8; xba; xb3; x0a; xf0; xa0; x89; xb5;
  x0a; xe8; xab; x9a; x0a; xf0; xa0; x88;
  x8c; x0a; xe4; xba; x98; x0a; xe5; x83;
  x8d; x0a; xe5; x84; x8d; x0a; xe4; xbe;
  xa2; x0a; xe4; xbc; x83; x0a; xf0; xa4;
  xa8; x8e; x0a; xf0; xa3; xba; x8a; x0a;
  xe4; xbd; x82; x0a; xe5; x80; xae; x0a;
  xe5; x81; xac; x0a; xe5; x82; x81; x0a;
  xe4; xbf; x8c; x0a; xe4; xbf; xa5; x0a;
  xe5; x81; x98; x0a; xe5; x83; xbc; x0a;
  xe5; x85; x99; x0a; xe5; x85; x9b; x0a;
  xe5; x85; x9d; x0a; xe5; x85; x9e; x0a;
  xe6; xb9; xb6; x0a; xf0; xa3; x96; x95;
  x0a; xf0; xa3; xb8; xb9; x0a; xf0; xa3;
  xba; xbf; x0a; xe6; xb5; xb2; x0a; xf0;
  xa1; xa2; x84; x0a; xf0; xa3; xba; x89;
  x0a; xe5; x86; xa8; x0a; xe5; x87; x83;
  x0a; xf0; xa0; x97; xa0; x0a; xe4; x93
].
(* tests/test_data/whatwg/big5_whatwg_test_encode_in.txt, entries 7424..7679 *)
Definition big5_encode_in_29 : list byte := [
  x9d; x0a; xf0; xa0; x92; xa3; x0a; xf0;
  xa0; x92; x92; x0a; xf0; xa0; x92; x91;
  x0a; xe8; xb5; xba; x0a; xf0; xa8; xaa;
  x9c; x0a; xf0; xa0; x9c; x8e; x0a; xe5;
  x89; x99; x0a; xe5; x8a; xa4; x0a; xf0;
  xa0; xa1; xb3; x0a; xe5; x8b; xa1; x0a;
  xe9; x8d; xae; x0a; xe4; x99; xba; x0a;
  xe7; x86; x8c; x0a; xf0; xa4; x8e; x8c;
  x0a; xf0; xa0; xb0; xa0; x0a; xf0; xa4;
  xa6; xac; x0a; xf0; xa1; x83; xa4; x0a;
  xe6; xa7; x91; x0a; xf0; xa0; xb8; x9d;
  x0a; xe7; x91; xb9; x0a; xe3; xbb; x9e;
  x0a; xe7; x92; x99; x0a; xe7; x90; x94;
  x0a; xe7; x91; x96; x0a; xe7; x8e; x98;
  x0a; xe4; xae; x8e; x0a; xf0; xa4; xaa;
  xbc; x0a; xf0; xa4; x82; x8d; x0a; xe5;
  x8f; x90; x0a; xe3; x96; x84; x0a; xe7;
  x88; x8f; x0a; xf0; xa4; x83; x89; x0a;
  xe5; x96; xb4; x0a; xf0; xa0; x8d; x85;
  x0a; xe5; x93; x8d; x0a; xf0; xa0; xaf;
  x86; x0a; xe5; x9c; x9d; x0a; xe9; x89;
  x9d; x0a; xe9; x9b; xb4; x0a; xe9; x8d;
  xa6; x0a; xe5; x9f; x9d; x0a; xe5; x9e;
  x8d; x0a; xe5; x9d; xbf; x0a; xe3; x98;
  xbe; x0a; xe5; xa3; x8b; x0a; xe5; xaa;
  x99; x0a; xf0; xa8; xa9; x86; x0a; xf0;
  xa1; x9b; xba; x0a; xf0; xa1; x9d; xaf;
  x0a; xf0; xa1; x9c; x90; x0a; xe5; xa8;
  xac; x0a; xe5; xa6; xb8; x0a; xe9; x8a;
  x8f; x0a; xe5; xa9; xbe; x0a; xe5; xab;
  x8f; x0a; xe5; xa8; x92; x0a; xf0; xa5;
  xa5; x86; x0a; xf0; xa1; xa7; xb3; x0a
].
(* tests/test_data/whatwg/big5_whatwg_test_encode_in.txt, entries 7680..7935 *)
Definition big5_encode_in_30 : list byte := [
  xf0; xa1; xa1; xa1; x0a; xf0; xa4; x8a;
  x95; x0a; xe3; x9b; xb5; x0a; xe6; xb4;
  x85; x0a; xe7; x91; x83; x0a; xe5; xa8;
  xa1; x0a; xf0; xa5; xba; x83; x0a; xe5;
  xaa; x81; x0a; xf0; xa8; xaf; x97; x0a;
  xf0; xa0; x90; x93; x0a; xe9; x8f; xa0;
  x0a; xe7; x92; x8c; x0a; xf0; xa1; x8c;
  x83; x0a; xe7; x84; x85; x0a; xe4; xa5;
  xb2; x0a; xe9; x90; x88; x0a; xf0; xa8;
  xa7; xbb; x0a; xe9; x8e; xbd; x0a; xe3;
  x9e; xa0; x0a; xe5; xb0; x9e; x0a; xe5;
  xb2; x9e; x0a; xe5; xb9; x9e; x0a; xe5;
  xb9; x88; x0a; xf0; xa1; xa6; x96; x0a;
  xf0; xa1; xa5; xbc; x0a; xf0; xa3; xab;
  xae; x0a; xe5; xbb; x8d; x0a; xe5; xad;
  x8f; x0a; xf0; xa1; xa4; x83; x0a; xf0;
  xa1; xa4; x84; x0a; xe3; x9c; x81; x0a;
  xf0; xa1; xa2; xa0; x0a; xe3; x9b; x9d;
  x0a; xf0; xa1; x9b; xbe; x0a; xe3; x9b;
  x93; x0a; xe8; x84; xaa; x0a; xf0; xa8;
  xa9; x87; x0a; xf0; xa1; xb6; xba; x0a;
  xf0; xa3; x91; xb2; x0a; xf0; xa8; xa6;
  xa8; x0a; xe5; xbc; x8c; x0a; xe5; xbc;
  x8e; x0a; xf0; xa1; xa4; xa7; x0a; xf0;
  xa1; x9e; xab; x0a; xe5; xa9; xab; x0a;
  xf0; xa1; x9c; xbb; x0a; xe5; xad; x84;
  x0a; xe8; x98; x94; x0a; xf0; xa7; x97;
  xbd; x0a; xe8; xa1; xa0; x0a; xe6; x81;
  xbe; x0a; xf0; xa2; xa1; xa0; x0a; xf0;
  xa2; x98; xab; x0a; xe5; xbf; x9b; x0a;
  xe3; xba; xb8; x0a; xf0; xa2; x96; xaf;
  x0a; xf0; xa2; x96; xbe; x0a; xf0; xa9
].
(* tests/test_data/whatwg/big5_whatwg_test_encode_in.txt, entries 7936..8191 *)
Definition big5_encode_in_31 : list byte := [
  x82; x88; x0a; xf0; xa6; xbd; xb3; x0a;
  xe6; x87; x80; x0a; xf0; xa0; x80; xbe;
  x0a; xf0; xa0; x81; x86; x0a; xf0; xa2;
  x98; x9b; x0a; xe6; x86; x99; x0a; xe6;
  x86; x98; x0a; xe6; x81; xb5; x0a; xf0;
  xa2; xb2; x9b; x0a; xf0; xa2; xb4; x87;
  x0a; xf0; xa4; x9b; x94; x0a; xf0; xa9;
  x85; x8d; x0a; xe6; x91; xb1; x0a; xf0;
  xa4; x99; xa5; x0a; xf0; xa2; xad; xaa;
  x0a; xe3; xa8; xa9; x0a; xf0; xa2; xac;
  xa2; x0a; xf0; xa3; x91; x90; x0a; xf0;
  xa9; xa3; xaa; x0a; xf0; xa2; xb9; xb8;
  x0a; xe6; x8c; xb7; x0a; xf0; xaa; x91;
  x9b; x0a; xe6; x92; xb6; x0a; xe6; x8c;
  xb1; x0a; xe6; x8f; x91; x0a; xf0; xa4;
  xa7; xa3; x0a; xf0; xa2; xb5; xa7; x0a;
  xe6; x8a; xa4; x0a; xf0; xa2; xb2; xa1;
  x0a; xe6; x90; xbb; x0a; xe6; x95; xab;
  x0a; xe6; xa5; xb2; x0a; xe3; xaf; xb4;
  x0a; xf0; xa3; x82; x8e; x0a; xf0; xa3;
  x8a; xad; x0a; xf0; xa4; xa6; x89; x0a;
  xf0; xa3; x8a; xab; x0a; xe5; x94; x8d;
  x0a; xf0; xa3; x8b; xa0; x0a; xf0; xa1;
  xa3; x99; x0a; xf0; xa9; x90; xbf; x0a;
  xe6; x9b; x8e; x0a; xf0; xa3; x8a; x89;
  x0a; xf0; xa3; x86; xb3; x0a; xe3; xab;
  xa0; x0a; xe4; x86; x90; x0a; xf0; xa5;
  x96; x84; x0a; xf0; xa8; xac; xa2; x0a;
  xf0; xa5; x96; x8f; x0a; xf0; xa1; x9b;
  xbc; x0a; xf0; xa5; x95; x9b; x0a; xf0;
  xa5; x90; xa5; x0a; xe7; xa3; xae; x0a;
  xf0; xa3; x84; x83; x0a; xf0; xa1; xa0
].
(* tests/test_data/whatwg/big5_whatwg_test_encode_in.txt, entries 8192..8447 *)
Definition big5_encode_in_32 : list byte := [
  xaa; x0a; xf0; xa3; x88; xb4; x0a; xe3;
  x91; xa4; x0a; xf0; xa3; x88; x8f; x0a;
  xf0; xa3; x86; x82; x0a; xf0; xa4; x8b;
  x89; x0a; xe6; x9a; x8e; x0a; xf0; xa6;
  xb4; xa4; x0a; xe6; x99; xab; x0a; xe4;
  xae; x93; x0a; xe6; x98; xb0; x0a; xf0;
  xa7; xa1; xb0; x0a; xf0; xa1; xb7; xab;
  x0a; xe6; x99; xa3; x0a; xf0; xa3; x8b;
  x92; x0a; xf0; xa3; x8b; xa1; x0a; xe6;
  x98; x9e; x0a; xf0; xa5; xa1; xb2; x0a;
  xe3; xa3; x91; x0a; xf0; xa3; xa0; xba;
  x0a; xf0; xa3; x9e; xbc; x0a; xe3; xae;
  x99; x0a; xf0; xa3; x9e; xa2; x0a; xf0;
  xa3; x8f; xbe; x0a; xe7; x93; x90; x0a;
  xe3; xae; x96; x0a; xe6; x9e; x8f; x0a;
  xf0; xa4; x98; xaa; x0a; xe6; xa2; xb6;
  x0a; xe6; xa0; x9e; x0a; xe3; xaf; x84;
  x0a; xe6; xaa; xbe; x0a; xe3; xa1; xa3;
  x0a; xf0; xa3; x9f; x95; x0a; xf0; xa4;
  x92; x87; x0a; xe6; xa8; xb3; x0a; xe6;
  xa9; x92; x0a; xe6; xab; x89; x0a; xe6;
  xac; x85; x0a; xf0; xa1; xa4; x92; x0a;
  xe6; x94; x91; x0a; xe6; xa2; x98; x0a;
  xe6; xa9; x8c; x0a; xe3; xaf; x97; x0a;
  xe6; xa9; xba; x0a; xe6; xad; x97; x0a;
  xf0; xa3; xbf; x80; x0a; xf0; xa3; xb2;
  x9a; x0a; xe9; x8e; xa0; x0a; xe9; x8b;
  xb2; x0a; xf0; xa8; xaf; xaa; x0a; xf0;
  xa8; xab; x8b; x0a; xe9; x8a; x89; x0a;
  xf0; xa8; x80; x9e; x0a; xf0; xa8; xa7;
  x9c; x0a; xe9; x91; xa7; x0a; xe6; xb6;
  xa5; x0a; xe6; xbc; x8b; x0a; xf0; xa4
].
(* tests/test_data/whatwg/big5_whatwg_test_encode_in.txt, entries 8448..8703 *)
Definition big5_encode_in_33 : list byte := [
  xa7; xac; x0a; xe6; xb5; xa7; x0a; xf0;
  xa3; xbd; xbf; x0a; xe3; xb6; x8f; x0a;
  xe6; xb8; x84; x0a; xf0; xa4; x80; xbc;
  x0a; xe5; xa8; xbd; x0a; xe6; xb8; x8a;
  x0a; xe5; xa1; x87; x0a; xe6; xb4; xa4;
  x0a; xe7; xa1; x82; x0a; xe7; x84; xbb;
  x0a; xf0; xa4; x8c; x9a; x0a; xf0; xa4;
  x89; xb6; x0a; xe7; x83; xb1; x0a; xe7;
  x89; x90; x0a; xe7; x8a; x87; x0a; xe7;
  x8a; x94; x0a; xf0; xa4; x9e; x8f; x0a;
  xf0; xa4; x9c; xa5; x0a; xe5; x85; xb9;
  x0a; xf0; xa4; xaa; xa4; x0a; xf0; xa0;
  x97; xab; x0a; xe7; x91; xba; x0a; xf0;
  xa3; xbb; xb8; x0a; xf0; xa3; x99; x9f;
  x0a; xf0; xa4; xa9; x8a; x0a; xf0; xa4;
  xa4; x97; x0a; xf0; xa5; xbf; xa1; x0a;
  xe3; xbc; x86; x0a; xe3; xba; xb1; x0a;
  xf0; xa4; xab; x9f; x0a; xf0; xa8; xb0;
  xa3; x0a; xf0; xa3; xbc; xb5; x0a; xe6;
  x82; xa7; x0a; xe3; xbb; xb3; x0a; xe7;
  x93; x8c; x0a; xe7; x90; xbc; x0a; xe9;
  x8e; x87; x0a; xe7; x90; xb7; x0a; xe4;
  x92; x9f; x0a; xf0; xa6; xb7; xaa; x0a;
  xe4; x95; x91; x0a; xe7; x96; x83; x0a;
  xe3; xbd; xa3; x0a; xf0; xa4; xb3; x99;
  x0a; xf0; xa4; xb4; x86; x0a; xe3; xbd;
  x98; x0a; xe7; x95; x95; x0a; xe7; x99;
  xb3; x0a; xf0; xaa; x97; x86; x0a; xe3;
  xac; x99; x0a; xe7; x91; xa8; x0a; xf0;
  xa8; xab; x8c; x0a; xf0; xa4; xa6; xab;
  x0a; xf0; xa4; xa6; x8e; x0a; xe3; xab;
  xbb; x0a; xe3; xb7; x8d; x0a; xf0; xa4
].
(* tests/test_data/whatwg/big5_whatwg_test_encode_in.txt, entries 8704..8959 *)
Definition big5_encode_in_34 : list byte := [
  xa9; x8e; x0a; xe3; xbb; xbf; x0a; xf0;
  xa4; xa7; x85; x0a; xf0; xa4; xa3; xb3;
  x0a; xe9; x87; xba; x0a; xe5; x9c; xb2;
  x0a; xe9; x8d; x82; x0a; xf0; xa8; xab;
  xa3; x0a; xf0; xa1; xa1; xa4; x0a; xe5;
  x83; x9f; x0a; xf0; xa5; x88; xa1; x0a;
  xf0; xa5; x87; xa7; x0a; xe7; x9d; xb8;
  x0a; xf0; xa3; x88; xb2; x0a; xe7; x9c;
  x8e; x0a; xe7; x9c; x8f; x0a; xe7; x9d;
  xbb; x0a; xf0; xa4; x9a; x97; x0a; xf0;
  xa3; x9e; x81; x0a; xe3; xa9; x9e; x0a;
  xf0; xa4; xa3; xb0; x0a; xe7; x90; xb8;
  x0a; xe7; x92; x9b; x0a; xe3; xba; xbf;
  x0a; xf0; xa4; xaa; xba; x0a; xf0; xa4;
  xab; x87; x0a; xe4; x83; x88; x0a; xf0;
  xa4; xaa; x96; x0a; xf0; xa6; x86; xae;
  x0a; xe9; x8c; x87; x0a; xf0; xa5; x96;
  x81; x0a; xe7; xa0; x9e; x0a; xe7; xa2;
  x8d; x0a; xe7; xa2; x88; x0a; xe7; xa3;
  x92; x0a; xe7; x8f; x90; x0a; xe7; xa5;
  x99; x0a; xf0; xa7; x9d; x81; x0a; xf0;
  xa5; x9b; xa3; x0a; xe4; x84; x8e; x0a;
  xe7; xa6; x9b; x0a; xe8; x92; x96; x0a;
  xe7; xa6; xa5; x0a; xe6; xa8; xad; x0a;
  xf0; xa3; xbb; xba; x0a; xe7; xa8; xba;
  x0a; xe7; xa7; xb4; x0a; xe4; x85; xae;
  x0a; xf0; xa1; x9b; xa6; x0a; xe4; x84;
  xb2; x0a; xe9; x88; xb5; x0a; xe7; xa7;
  xb1; x0a; xf0; xa0; xb5; x8c; x0a; xf0;
  xa4; xa6; x8c; x0a; xf0; xa0; x8a; x99;
  x0a; xf0; xa3; xb6; xba; x0a; xf0; xa1;
  x9d; xae; x0a; xe3; x96; x97; x0a; xe5
].
(* tests/test_data/whatwg/big5_whatwg_test_encode_in.txt, entries 8960..9215 *)
Definition big5_encode_in_35 : list byte := [
  x95; xab; x0a; xe3; x95; xb0; x0a; xe3;
  x9a; xaa; x0a; xf0; xa0; x87; x94; x0a;
  xf0; xa0; xb0; x8d; x0a; xe7; xab; xa2;
  x0a; xe5; xa9; x99; x0a; xf0; xa2; x9b;
  xb5; x0a; xf0; xa5; xaa; xaf; x0a; xf0;
  xa5; xaa; x9c; x0a; xe5; xa8; x8d; x0a;
  xf0; xa0; x89; x9b; x0a; xe7; xa3; xb0;
  x0a; xe5; xa8; xaa; x0a; xf0; xa5; xaf;
  x86; x0a; xe7; xab; xbe; x0a; xe4; x87;
  xb9; x0a; xe7; xb1; x9d; x0a; xe7; xb1;
  xad; x0a; xe4; x88; x91; x0a; xf0; xa5;
  xae; xb3; x0a; xf0; xa5; xba; xbc; x0a;
  xf0; xa5; xba; xa6; x0a; xe7; xb3; x8d;
  x0a; xf0; xa4; xa7; xb9; x0a; xf0; xa1;
  x9e; xb0; x0a; xe7; xb2; x8e; x0a; xe7;
  xb1; xbc; x0a; xe7; xb2; xae; x0a; xe6;
  xaa; xb2; x0a; xe7; xb7; x9c; x0a; xe7;
  xb8; x87; x0a; xe7; xb7; x93; x0a; xe7;
  xbd; x8e; x0a; xf0; xa6; x89; xa1; x0a;
  xf0; xa6; x85; x9c; x0a; xf0; xa7; xad;
  x88; x0a; xe7; xb6; x97; x0a; xf0; xa5;
  xba; x82; x0a; xe4; x89; xaa; x0a; xf0;
  xa6; xad; xb5; x0a; xf0; xa0; xa4; x96;
  x0a; xe6; x9f; x96; x0a; xf0; xa0; x81;
  x8e; x0a; xf0; xa3; x97; x8f; x0a; xe5;
  x9f; x84; x0a; xf0; xa6; x90; x92; x0a;
  xf0; xa6; x8f; xb8; x0a; xf0; xa4; xa5;
  xa2; x0a; xe7; xbf; x9d; x0a; xe7; xac;
  xa7; x0a; xf0; xa0; xa0; xac; x0a; xf0;
  xa5; xab; xa9; x0a; xf0; xa5; xb5; x83;
  x0a; xe7; xac; x8c; x0a; xf0; xa5; xb8;
  x8e; x0a; xe9; xa7; xa6; x0a; xe8; x99
].
(* tests/test_data/whatwg/big5_whatwg_test_encode_in.txt, entries 9216..9471 *)
Definition big5_encode_in_36 : list byte := [
  x85; x0a; xe9; xa9; xa3; x0a; xe6; xa8;
  x9c; x0a; xf0; xa3; x90; xbf; x0a; xe3;
  xa7; xa2; x0a; xf0; xa4; xa7; xb7; x0a;
  xf0; xa6; x96; xad; x0a; xe9; xa8; x9f;
  x0a; xf0; xa6; x96; xa0; x0a; xe8; x92;
  x80; x0a; xf0; xa7; x84; xa7; x0a; xf0;
  xa6; xb3; x91; x0a; xe4; x93; xaa; x0a;
  xe8; x84; xb7; x0a; xe4; x90; x82; x0a;
  xe8; x83; x86; x0a; xe8; x84; x89; x0a;
  xe8; x85; x82; x0a; xf0; xa6; x9e; xb4;
  x0a; xe9; xa3; x83; x0a; xf0; xa6; xa9;
  x82; x0a; xe8; x89; xa2; x0a; xe8; x89;
  xa5; x0a; xf0; xa6; xa9; x91; x0a; xe8;
  x91; x93; x0a; xf0; xa6; xb6; xa7; x0a;
  xe8; x98; x90; x0a; xf0; xa7; x88; x9b;
  x0a; xe5; xaa; x86; x0a; xe4; x85; xbf;
  x0a; xf0; xa1; xa1; x80; x0a; xe5; xac;
  xab; x0a; xf0; xa1; xa2; xa1; x0a; xe5;
  xab; xa4; x0a; xf0; xa1; xa3; x98; x0a;
  xe8; x9a; xa0; x0a; xf0; xaf; xa6; xbc;
  x0a; xf0; xa3; xb6; x8f; x0a; xe8; xa0;
  xad; x0a; xf0; xa7; x90; xa2; x0a; xe5;
  xa8; x82; x0a; xe8; xa1; xae; x0a; xe4;
  xbd; x85; x0a; xe8; xa2; x87; x0a; xe8;
  xa2; xbf; x0a; xe8; xa3; xa6; x0a; xe8;
  xa5; xa5; x0a; xe8; xa5; x8d; x0a; xf0;
  xa5; x9a; x83; x0a; xe8; xa5; x94; x0a;
  xf0; xa7; x9e; x85; x0a; xf0; xa7; x9e;
  x84; x0a; xf0; xa8; xaf; xb5; x0a; xf0;
  xa8; xaf; x99; x0a; xf0; xa8; xae; x9c;
  x0a; xf0; xa8; xa7; xb9; x0a; xe3; xba;
  xad; x0a; xe8; x92; xa3; x0a; xe4; x9b
].
(* tests/test_data/whatwg/big5_whatwg_test_encode_in.txt, entries 9472..9727 *)
Definition big5_encode_in_37 : list byte := [
  xb5; x0a; xe4; x9b; x8f; x0a; xe3; x9f;
  xb2; x0a; xe8; xa8; xbd; x0a; xe8; xa8;
  x9c; x0a; xf0; xa9; x91; x88; x0a; xe5;
  xbd; x8d; x0a; xe9; x88; xab; x0a; xf0;
  xa4; x8a; x84; x0a; xe6; x97; x94; x0a;
  xe7; x84; xa9; x0a; xe7; x83; x84; x0a;
  xf0; xa1; xa1; x85; x0a; xe9; xb5; xad;
  x0a; xe8; xb2; x9f; x0a; xe8; xb3; xa9;
  x0a; xf0; xa7; xb7; x9c; x0a; xe5; xa6;
  x9a; x0a; xe7; x9f; x83; x0a; xe5; xa7;
  xb0; x0a; xe4; x8d; xae; x0a; xe3; x9b;
  x94; x0a; xe8; xb8; xaa; x0a; xe8; xba;
  xa7; x0a; xf0; xa4; xb0; x89; x0a; xe8;
  xbc; xb0; x0a; xe8; xbd; x8a; x0a; xe4;
  x8b; xb4; x0a; xe6; xb1; x98; x0a; xe6;
  xbe; xbb; x0a; xf0; xa2; x8c; xa1; x0a;
  xe4; xa2; x9b; x0a; xe6; xbd; xb9; x0a;
  xe6; xba; x8b; x0a; xf0; xa1; x9f; x9a;
  x0a; xe9; xaf; xa9; x0a; xe3; x9a; xb5;
  x0a; xf0; xa4; xa4; xaf; x0a; xe9; x82;
  xbb; x0a; xe9; x82; x97; x0a; xe5; x95;
  xb1; x0a; xe4; xa4; x86; x0a; xe9; x86;
  xbb; x0a; xe9; x90; x84; x0a; xf0; xa8;
  xa9; x8b; x0a; xe4; x81; xa2; x0a; xf0;
  xa8; xab; xbc; x0a; xe9; x90; xa7; x0a;
  xf0; xa8; xb0; x9d; x0a; xf0; xa8; xb0;
  xbb; x0a; xe8; x93; xa5; x0a; xe8; xa8;
  xab; x0a; xe9; x96; x99; x0a; xe9; x96;
  xa7; x0a; xe9; x96; x97; x0a; xe9; x96;
  x96; x0a; xf0; xa8; xb4; xb4; x0a; xe7;
  x91; x85; x0a; xe3; xbb; x82; x0a; xf0;
  xa4; xa3; xbf; x0a; xf0; xa4; xa9; x82
].
(* tests/test_data/whatwg/big5_whatwg_test_encode_in.txt, entries 9728..9983 *)
Definition big5_encode_in_38 : list byte := [
  x0a; xf0; xa4; x8f; xaa; x0a; xe3; xbb;
  xa7; x0a; xf0; xa3; x88; xa5; x0a; xe9;
  x9a; x8f; x0a; xf0; xa8; xbb; xa7; x0a;
  xf0; xa8; xb9; xa6; x0a; xf0; xa8; xb9;
  xa5; x0a; xe3; xbb; x8c; x0a; xf0; xa4;
  xa7; xad; x0a; xf0; xa4; xa9; xb8; x0a;
  xf0; xa3; xbf; xae; x0a; xe7; x90; x92;
  x0a; xe7; x91; xab; x0a; xe3; xbb; xbc;
  x0a; xe9; x9d; x81; x0a; xf0; xa9; x82;
  xb0; x0a; xe6; xa1; x87; x0a; xe4; xa8;
  x9d; x0a; xf0; xa9; x82; x93; x0a; xf0;
  xa5; x9f; x9f; x0a; xe9; x9d; x9d; x0a;
  xe9; x8d; xa8; x0a; xf0; xa8; xa6; x89;
  x0a; xf0; xa8; xb0; xa6; x0a; xf0; xa8;
  xac; xaf; x0a; xf0; xa6; x8e; xbe; x0a;
  xe9; x8a; xba; x0a; xe5; xac; x91; x0a;
  xe8; xad; xa9; x0a; xe4; xa4; xbc; x0a;
  xe7; x8f; xb9; x0a; xf0; xa4; x88; x9b;
  x0a; xe9; x9e; x9b; x0a; xe9; x9d; xb1;
  x0a; xe9; xa4; xb8; x0a; xf0; xa0; xbc;
  xa6; x0a; xe5; xb7; x81; x0a; xf0; xa8;
  xaf; x85; x0a; xf0; xa4; xaa; xb2; x0a;
  xe9; xa0; x9f; x0a; xf0; xa9; x93; x9a;
  x0a; xe9; x8b; xb6; x0a; xf0; xa9; x97;
  x97; x0a; xe9; x87; xa5; x0a; xe4; x93;
  x80; x0a; xf0; xa8; xad; x90; x0a; xf0;
  xa4; xa9; xa7; x0a; xf0; xa8; xad; xa4;
  x0a; xe9; xa3; x9c; x0a; xf0; xa8; xa9;
  x85; x0a; xe3; xbc; x80; x0a; xe9; x88;
  xaa; x0a; xe4; xa4; xa5; x0a; xe8; x90;
  x94; x0a; xe9; xa4; xbb; x0a; xe9; xa5;
  x8d; x0a; xf0; xa7; xac; x86; x0a; xe3
].
(* tests/test_data/whatwg/big5_whatwg_test_encode_in.txt, entries 9984..10239 *)
Definition big5_encode_in_39 : list byte := [
  xb7; xbd; x0a; xe9; xa6; x9b; x0a; xe4;
  xad; xaf; x0a; xe9; xa6; xaa; x0a; xe9;
  xa9; x9c; x0a; xf0; xa8; xad; xa5; x0a;
  xf0; xa5; xa3; x88; x0a; xe6; xaa; x8f;
  x0a; xe9; xa8; xa1; x0a; xe5; xab; xbe;
  x0a; xe9; xa8; xaf; x0a; xf0; xa9; xa3;
  xb1; x0a; xe4; xae; x90; x0a; xf0; xa9;
  xa5; x88; x0a; xe9; xa6; xbc; x0a; xe4;
  xae; xbd; x0a; xe4; xae; x97; x0a; xe9;
  x8d; xbd; x0a; xe5; xa1; xb2; x0a; xf0;
  xa1; x8c; x82; x0a; xe5; xa0; xa2; x0a;
  xf0; xa4; xa6; xb8; x0a; xf0; xa1; x93;
  xa8; x0a; xe7; xa1; x84; x0a; xf0; xa2;
  x9c; x9f; x0a; xf0; xa3; xb6; xb8; x0a;
  xe6; xa3; x85; x0a; xe3; xb5; xbd; x0a;
  xe9; x91; x98; x0a; xe3; xa4; xa7; x0a;
  xe6; x85; x90; x0a; xf0; xa2; x9e; x81;
  x0a; xf0; xa2; xa5; xab; x0a; xe6; x84;
  x87; x0a; xe9; xb1; x8f; x0a; xe9; xb1;
  x93; x0a; xe9; xb1; xbb; x0a; xe9; xb0;
  xb5; x0a; xe9; xb0; x90; x0a; xe9; xad;
  xbf; x0a; xe9; xaf; x8f; x0a; xf0; xa9;
  xb8; xad; x0a; xe9; xae; x9f; x0a; xf0;
  xaa; x87; xb5; x0a; xf0; xaa; x83; xbe;
  x0a; xe9; xb4; xa1; x0a; xe4; xb2; xae;
  x0a; xf0; xa4; x84; x84; x0a; xe9; xb8;
  x98; x0a; xe4; xb2; xb0; x0a; xe9; xb4;
  x8c; x0a; xf0; xaa; x86; xb4; x0a; xf0;
  xaa; x83; xad; x0a; xf0; xaa; x83; xb3;
  x0a; xf0; xa9; xa4; xaf; x0a; xe9; xb6;
  xa5; x0a; xe8; x92; xbd; x0a; xf0; xa6;
  xb8; x92; x0a; xf0; xa6; xbf; x9f; x0a
].
(* tests/test_data/whatwg/big5_whatwg_test_encode_in.txt, entries 10240..10495 *)
Definition big5_encode_in_40 : list byte := [
  xf0; xa6; xae; x82; x0a; xe8; x97; xbc;
  x0a; xe4; x94; xb3; x0a; xf0; xa6; xb6;
  xa4; x0a; xf0; xa6; xba; x84; x0a; xf0;
  xa6; xb7; xb0; x0a; xe8; x90; xa0; x0a;
  xe8; x97; xae; x0a; xf0; xa6; xb8; x80;
  x0a; xf0; xa3; x9f; x97; x0a; xf0; xa6;
  x81; xa4; x0a; xe7; xa7; xa2; x0a; xf0;
  xa3; x96; x9c; x0a; xf0; xa3; x99; x80;
  x0a; xe4; xa4; xad; x0a; xf0; xa4; xa7;
  x9e; x0a; xe3; xb5; xa2; x0a; xe9; x8f;
  x9b; x0a; xe9; x8a; xbe; x0a; xe9; x8d;
  x88; x0a; xf0; xa0; x8a; xbf; x0a; xe7;
  xa2; xb9; x0a; xe9; x89; xb7; x0a; xe9;
  x91; x8d; x0a; xe4; xbf; xa4; x0a; xe3;
  x91; x80; x0a; xe9; x81; xa4; x0a; xf0;
  xa5; x95; x9d; x0a; xe7; xa0; xbd; x0a;
  xe7; xa1; x94; x0a; xe7; xa2; xb6; x0a;
  xe7; xa1; x8b; x0a; xf0; xa1; x9d; x97;
  x0a; xf0; xa3; x87; x89; x0a; xf0; xa4;
  xa5; x81; x0a; xe3; x9a; x9a; x0a; xe4;
  xbd; xb2; x0a; xe6; xbf; x9a; x0a; xe6;
  xbf; x99; x0a; xe7; x80; x9e; x0a; xe5;
  x90; x94; x0a; xf0; xa4; x86; xb5; x0a;
  xe5; x9e; xbb; x0a; xe5; xa3; xb3; x0a;
  xe5; x9e; x8a; x0a; xe9; xb4; x96; x0a;
  xe5; x9f; x97; x0a; xe7; x84; xb4; x0a;
  xe3; x92; xaf; x0a; xf0; xa4; x86; xac;
  x0a; xe7; x87; xab; x0a; xf0; xa6; xb1;
  x80; x0a; xf0; xa4; xbe; x97; x0a; xe5;
  xac; xa8; x0a; xf0; xa1; x9e; xb5; x0a;
  xf0; xa8; xa9; x89; x0a; xe6; x84; x8c;
  x0a; xe5; xab; x8e; x0a; xe5; xa8; x8b
].
(* tests/test_data/whatwg/big5_whatwg_test_encode_in.txt, entries 10496..10751 *)
Definition big5_encode_in_41 : list byte := [
  x0a; xe4; x8a; xbc; x0a; xf0; xa4; x92;
  x88; x0a; xe3; x9c; xac; x0a; xe4; xad;
  xbb; x0a; xf0; xa8; xa7; xbc; x0a; xe9;
  x8e; xbb; x0a; xe9; x8e; xb8; x0a; xf0;
  xa1; xa3; x96; x0a; xf0; xa0; xbc; x9d;
  x0a; xe8; x91; xb2; x0a; xf0; xa6; xb3;
  x80; x0a; xf0; xa1; x90; x93; x0a; xf0;
  xa4; x8b; xba; x0a; xf0; xa2; xb0; xa6;
  x0a; xf0; xa4; x8f; x81; x0a; xe5; xa6;
  x94; x0a; xf0; xa3; xb6; xb7; x0a; xf0;
  xa6; x9d; x81; x0a; xe7; xb6; xa8; x0a;
  xf0; xa6; x85; x9b; x0a; xf0; xa6; x82;
  xa4; x0a; xf0; xa4; xa6; xb9; x0a; xf0;
  xa4; xa6; x8b; x0a; xf0; xa8; xa7; xba;
  x0a; xe9; x8b; xa5; x0a; xe7; x8f; xa2;
  x0a; xe3; xbb; xa9; x0a; xe7; x92; xb4;
  x0a; xf0; xa8; xad; xa3; x0a; xf0; xa1;
  xa2; x9f; x0a; xe3; xbb; xa1; x0a; xf0;
  xa4; xaa; xb3; x0a; xe6; xab; x98; x0a;
  xe7; x8f; xb3; x0a; xe7; x8f; xbb; x0a;
  xe3; xbb; x96; x0a; xf0; xa4; xa8; xbe;
  x0a; xf0; xa4; xaa; x94; x0a; xf0; xa1;
  x9f; x99; x0a; xf0; xa4; xa9; xa6; x0a;
  xf0; xa0; x8e; xa7; x0a; xf0; xa1; x90;
  xa4; x0a; xf0; xa4; xa7; xa5; x0a; xe7;
  x91; x88; x0a; xf0; xa4; xa4; x96; x0a;
  xe7; x82; xa5; x0a; xf0; xa4; xa5; xb6;
  x0a; xe9; x8a; x84; x0a; xe7; x8f; xa6;
  x0a; xe9; x8d; x9f; x0a; xf0; xa0; x93;
  xbe; x0a; xe9; x8c; xb1; x0a; xf0; xa8;
  xab; x8e; x0a; xf0; xa8; xa8; x96; x0a;
  xe9; x8e; x86; x0a; xf0; xa8; xaf; xa7
].
(* tests/test_data/whatwg/big5_whatwg_test_encode_in.txt, entries 10752..11007 *)
Definition big5_encode_in_42 : list byte := [
  x0a; xf0; xa5; x97; x95; x0a; xe4; xa4;
  xb5; x0a; xf0; xa8; xaa; x82; x0a; xe7;
  x85; xab; x0a; xf0; xa4; xa5; x83; x0a;
  xf0; xa0; xb3; xbf; x0a; xe5; x9a; xa4;
  x0a; xf0; xa0; x98; x9a; x0a; xf0; xa0;
  xaf; xab; x0a; xf0; xa0; xb2; xb8; x0a;
  xe5; x94; x82; x0a; xe7; xa7; x84; x0a;
  xf0; xa1; x9f; xba; x0a; xe7; xb7; xbe;
  x0a; xf0; xa1; x9b; x82; x0a; xf0; xa4;
  xa9; x90; x0a; xf0; xa1; xa1; x92; x0a;
  xe4; x94; xae; x0a; xe9; x90; x81; x0a;
  xe3; x9c; x8a; x0a; xf0; xa8; xab; x80;
  x0a; xf0; xa4; xa6; xad; x0a; xe5; xa6;
  xb0; x0a; xf0; xa1; xa2; xbf; x0a; xf0;
  xa1; xa2; x83; x0a; xf0; xa7; x92; x84;
  x0a; xe5; xaa; xa1; x0a; xe3; x9b; xa2;
  x0a; xf0; xa3; xb5; x9b; x0a; xe3; x9a;
  xb0; x0a; xe9; x89; x9f; x0a; xe5; xa9;
  xb9; x0a; xf0; xa8; xaa; x81; x0a; xf0;
  xa1; xa1; xa2; x0a; xe9; x8d; xb4; x0a;
  xe3; xb3; x8d; x0a; xf0; xa0; xaa; xb4;
  x0a; xe4; xaa; x96; x0a; xe3; xa6; x8a;
  x0a; xe5; x83; xb4; x0a; xe3; xb5; xa9;
  x0a; xe3; xb5; x8c; x0a; xf0; xa1; x8e;
  x9c; x0a; xe7; x85; xb5; x0a; xe4; x8b;
  xbb; x0a; xf0; xa8; x88; x98; x0a; xe6;
  xb8; x8f; x0a; xf0; xa9; x83; xa4; x0a;
  xe4; x93; xab; x0a; xe6; xb5; x97; x0a;
  xf0; xa7; xb9; x8f; x0a; xe7; x81; xa7;
  x0a; xe6; xb2; xaf; x0a; xe3; xb3; x96;
  x0a; xf0; xa3; xbf; xad; x0a; xf0; xa3;
  xb8; xad; x0a; xe6; xb8; x82; x0a; xe6
].
(* tests/test_data/whatwg/big5_whatwg_test_encode_in.txt, entries 11008..11263 *)
Definition big5_encode_in_43 : list byte := [
  xbc; x8c; x0a; xe3; xb5; xaf; x0a; xf0;
  xa0; x8f; xb5; x0a; xe7; x95; x91; x0a;
  xe3; x9a; xbc; x0a; xe3; x93; x88; x0a;
  xe4; x9a; x80; x0a; xe3; xbb; x9a; x0a;
  xe4; xa1; xb1; x0a; xe5; xa7; x84; x0a;
  xe9; x89; xae; x0a; xe4; xa4; xbe; x0a;
  xe8; xbd; x81; x0a; xf0; xa8; xb0; x9c;
  x0a; xf0; xa6; xaf; x80; x0a; xe5; xa0;
  x92; x0a; xe5; x9f; x88; x0a; xe3; x9b;
  x96; x0a; xf0; xa1; x91; x92; x0a; xe7;
  x83; xbe; x0a; xf0; xa4; x8d; xa2; x0a;
  xf0; xa4; xa9; xb1; x0a; xf0; xa2; xbf;
  xa3; x0a; xf0; xa1; x8a; xb0; x0a; xf0;
  xa2; x8e; xbd; x0a; xe6; xa2; xb9; x0a;
  xe6; xa5; xa7; x0a; xf0; xa1; x8e; x98;
  x0a; xf0; xa3; x93; xa5; x0a; xf0; xa7;
  xaf; xb4; x0a; xf0; xa3; x9b; x9f; x0a;
  xf0; xa8; xaa; x83; x0a; xf0; xa3; x9f;
  x96; x0a; xf0; xa3; x8f; xba; x0a; xf0;
  xa4; xb2; x9f; x0a; xe6; xa8; x9a; x0a;
  xf0; xa3; x9a; xad; x0a; xf0; xa6; xb2;
  xb7; x0a; xe8; x90; xbe; x0a; xe4; x93;
  x9f; x0a; xe4; x93; x8e; x0a; xf0; xa6;
  xb4; xa6; x0a; xf0; xa6; xb5; x91; x0a;
  xf0; xa6; xb2; x82; x0a; xf0; xa6; xbf;
  x9e; x0a; xe6; xbc; x97; x0a; xf0; xa7;
  x84; x89; x0a; xe8; x8c; xbd; x0a; xf0;
  xa1; x9c; xba; x0a; xe8; x8f; xad; x0a;
  xf0; xa6; xb2; x80; x0a; xf0; xa7; x81;
  x93; x0a; xf0; xa1; x9f; x9b; x0a; xe5;
  xa6; x89; x0a; xe5; xaa; x82; x0a; xf0;
  xa1; x9e; xb3; x0a; xe5; xa9; xa1; x0a
].
(* tests/test_data/whatwg/big5_whatwg_test_encode_in.txt, entries 11264..11519 *)
Definition big5_encode_in_44 : list byte := [
  xe5; xa9; xb1; x0a; xf0; xa1; xa4; x85;
  x0a; xf0; xa4; x87; xbc; x0a; xe3; x9c;
  xad; x0a; xe5; xa7; xaf; x0a; xf0; xa1;
  x9c; xbc; x0a; xe3; x9b; x87; x0a; xe7;
  x86; x8e; x0a; xe9; x8e; x90; x0a; xe6;
  x9a; x9a; x0a; xf0; xa4; x8a; xa5; x0a;
  xe5; xa9; xae; x0a; xe5; xa8; xab; x0a;
  xf0; xa4; x8a; x93; x0a; xe6; xa8; xab;
  x0a; xf0; xa3; xbb; xb9; x0a; xf0; xa7;
  x9c; xb6; x0a; xf0; xa4; x91; x9b; x0a;
  xf0; xa4; x8b; x8a; x0a; xe7; x84; x9d;
  x0a; xf0; xa4; x89; x99; x0a; xf0; xa8;
  xa7; xa1; x0a; xe4; xbe; xb0; x0a; xf0;
  xa6; xb4; xa8; x0a; xe5; xb3; x82; x0a;
  xf0; xa4; x93; x8e; x0a; xf0; xa7; xb9;
  x8d; x0a; xf0; xa4; x8e; xbd; x0a; xe6;
  xa8; x8c; x0a; xf0; xa4; x89; x96; x0a;
  xf0; xa1; x8c; x84; x0a; xe7; x82; xa6;
  x0a; xe7; x84; xb3; x0a; xf0; xa4; x8f;
  xa9; x0a; xe3; xb6; xa5; x0a; xe6; xb3;
  x9f; x0a; xf0; xaf; xa0; xa5; x0a; xf0;
  xa4; xa9; x8f; x0a; xe7; xb9; xa5; x0a;
  xe5; xa7; xab; x0a; xe5; xb4; xaf; x0a;
  xe3; xb7; xb3; x0a; xe5; xbd; x9c; x0a;
  xf0; xa4; xa9; x9d; x0a; xf0; xa1; x9f;
  x9f; x0a; xe7; xb6; xa4; x0a; xe8; x90;
  xa6; x0a; xe5; x92; x85; x0a; xf0; xa3;
  xab; xba; x0a; xf0; xa3; x8c; x80; x0a;
  xf0; xa0; x88; x94; x0a; xe5; x9d; xbe;
  x0a; xf0; xa0; xa3; x95; x0a; xf0; xa0;
  x98; x99; x0a; xe3; xbf; xa5; x0a; xf0;
  xa1; xbe; x9e; x0a; xf0; xaa; x8a; xb6
].
(* tests/test_data/whatwg/big5_whatwg_test_encode_in.txt, entries 11520..11775 *)
Definition big5_encode_in_45 : list byte := [
  x0a; xe7; x80; x83; x0a; xf0; xa9; x85;
  x9b; x0a; xe5; xb5; xb0; x0a; xe7; x8e;
  x8f; x0a; xe7; xb3; x93; x0a; xf0; xa8;
  xa9; x99; x0a; xf0; xa9; x90; xa0; x0a;
  xe4; xbf; x88; x0a; xe7; xbf; xa7; x0a;
  xe7; x8b; x8d; x0a; xe7; x8c; x90; x0a;
  xf0; xa7; xab; xb4; x0a; xe7; x8c; xb8;
  x0a; xe7; x8c; xb9; x0a; xf0; xa5; x9b;
  xb6; x0a; xe7; x8d; x81; x0a; xe7; x8d;
  x88; x0a; xe3; xba; xa9; x0a; xf0; xa7;
  xac; x98; x0a; xe9; x81; xac; x0a; xe7;
  x87; xb5; x0a; xf0; xa4; xa3; xb2; x0a;
  xe7; x8f; xa1; x0a; xe8; x87; xb6; x0a;
  xe3; xbb; x8a; x0a; xe7; x9c; x8c; x0a;
  xe3; xbb; x91; x0a; xe6; xb2; xa2; x0a;
  xe5; x9b; xbd; x0a; xe7; x90; x99; x0a;
  xe7; x90; x9e; x0a; xe7; x90; x9f; x0a;
  xe3; xbb; xa2; x0a; xe3; xbb; xb0; x0a;
  xe3; xbb; xb4; x0a; xe3; xbb; xba; x0a;
  xe7; x93; x93; x0a; xe3; xbc; x8e; x0a;
  xe3; xbd; x93; x0a; xe7; x95; x82; x0a;
  xe7; x95; xad; x0a; xe7; x95; xb2; x0a;
  xe7; x96; x8d; x0a; xe3; xbd; xbc; x0a;
  xe7; x97; x88; x0a; xe7; x97; x9c; x0a;
  xe3; xbf; x80; x0a; xe7; x99; x8d; x0a;
  xe3; xbf; x97; x0a; xe7; x99; xb4; x0a;
  xe3; xbf; x9c; x0a; xe7; x99; xba; x0a;
  xf0; xa4; xbd; x9c; x0a; xe7; x86; x88;
  x0a; xe5; x98; xa3; x0a; xe8; xa6; x80;
  x0a; xe5; xa1; xa9; x0a; xe4; x80; x9d;
  x0a; xe7; x9d; x83; x0a; xe4; x80; xb9;
  x0a; xe6; x9d; xa1; x0a; xe4; x81; x85
].
(* tests/test_data/whatwg/big5_whatwg_test_encode_in.txt, entries 11776..12031 *)
Definition big5_encode_in_46 : list byte := [
  x0a; xe3; x97; x9b; x0a; xe7; x9e; x98;
  x0a; xe4; x81; xaa; x0a; xe4; x81; xaf;
  x0a; xe5; xb1; x9e; x0a; xe7; x9e; xbe;
  x0a; xe7; x9f; x8b; x0a; xe5; xa3; xb2;
  x0a; xe7; xa0; x98; x0a; xe7; x82; xb9;
  x0a; xe7; xa0; x9c; x0a; xe4; x82; xa8;
  x0a; xe7; xa0; xb9; x0a; xe7; xa1; x87;
  x0a; xe7; xa1; x91; x0a; xe7; xa1; xa6;
  x0a; xe8; x91; x88; x0a; xf0; xa5; x94;
  xb5; x0a; xe7; xa4; xb3; x0a; xe6; xa0;
  x83; x0a; xe7; xa4; xb2; x0a; xe4; x84;
  x83; x0a; xe4; x84; x89; x0a; xe7; xa6;
  x91; x0a; xe7; xa6; x99; x0a; xe8; xbe;
  xbb; x0a; xe7; xa8; x86; x0a; xe8; xbe;
  xbc; x0a; xe4; x85; xa7; x0a; xe7; xaa;
  x91; x0a; xe4; x86; xb2; x0a; xe7; xaa;
  xbc; x0a; xe8; x89; xb9; x0a; xe4; x87;
  x84; x0a; xe7; xab; x8f; x0a; xe7; xab;
  x9b; x0a; xe4; x87; x8f; x0a; xe4; xb8;
  xa1; x0a; xe7; xad; xa2; x0a; xe7; xad;
  xac; x0a; xe7; xad; xbb; x0a; xe7; xb0;
  x92; x0a; xe7; xb0; x9b; x0a; xe4; x89;
  xa0; x0a; xe4; x89; xba; x0a; xe7; xb1;
  xbb; x0a; xe7; xb2; x9c; x0a; xe4; x8a;
  x8c; x0a; xe7; xb2; xb8; x0a; xe4; x8a;
  x94; x0a; xe7; xb3; xad; x0a; xe8; xbe;
  x93; x0a; xe7; x83; x80; x0a; xf0; xa0;
  xb3; x8f; x0a; xe7; xb7; x8f; x0a; xe7;
  xb7; x94; x0a; xe7; xb7; x90; x0a; xe7;
  xb7; xbd; x0a; xe7; xbe; xae; x0a; xe7;
  xbe; xb4; x0a; xe7; x8a; x9f; x0a; xe4;
  x8e; x97; x0a; xe8; x80; xa0; x0a; xe8
].
(* tests/test_data/whatwg/big5_whatwg_test_encode_in.txt, entries 12032..12287 *)
Definition big5_encode_in_47 : list byte := [
  x80; xa5; x0a; xe7; xac; xb9; x0a; xe8;
  x80; xae; x0a; xe8; x80; xb1; x0a; xe8;
  x81; x94; x0a; xe3; xb7; x8c; x0a; xe5;
  x9e; xb4; x0a; xe7; x82; xa0; x0a; xe8;
  x82; xb7; x0a; xe8; x83; xa9; x0a; xe4;
  x8f; xad; x0a; xe8; x84; x8c; x0a; xe7;
  x8c; xaa; x0a; xe8; x84; x8e; x0a; xe8;
  x84; x92; x0a; xe7; x95; xa0; x0a; xe8;
  x84; x94; x0a; xe4; x90; x81; x0a; xe3;
  xac; xb9; x0a; xe8; x85; x96; x0a; xe8;
  x85; x99; x0a; xe8; x85; x9a; x0a; xe4;
  x90; x93; x0a; xe5; xa0; xba; x0a; xe8;
  x85; xbc; x0a; xe8; x86; x84; x0a; xe4;
  x90; xa5; x0a; xe8; x86; x93; x0a; xe4;
  x90; xad; x0a; xe8; x86; xa5; x0a; xe5;
  x9f; xaf; x0a; xe8; x87; x81; x0a; xe8;
  x87; xa4; x0a; xe8; x89; x94; x0a; xe4;
  x92; x8f; x0a; xe8; x8a; xa6; x0a; xe8;
  x89; xb6; x0a; xe8; x8b; x8a; x0a; xe8;
  x8b; x98; x0a; xe8; x8b; xbf; x0a; xe4;
  x92; xb0; x0a; xe8; x8d; x97; x0a; xe9;
  x99; xa9; x0a; xe6; xa6; x8a; x0a; xe8;
  x90; x85; x0a; xe7; x83; xb5; x0a; xe8;
  x91; xa4; x0a; xe6; x83; xa3; x0a; xe8;
  x92; x88; x0a; xe4; x94; x84; x0a; xe8;
  x92; xbe; x0a; xe8; x93; xa1; x0a; xe8;
  x93; xb8; x0a; xe8; x94; x90; x0a; xe8;
  x94; xb8; x0a; xe8; x95; x92; x0a; xe4;
  x94; xbb; x0a; xe8; x95; xaf; x0a; xe8;
  x95; xb0; x0a; xe8; x97; xa0; x0a; xe4;
  x95; xb7; x0a; xe8; x99; xb2; x0a; xe8;
  x9a; x92; x0a; xe8; x9a; xb2; x0a; xe8
].
(* tests/test_data/whatwg/big5_whatwg_test_encode_in.txt, entries 12288..12543 *)
Definition big5_encode_in_48 : list byte := [
  x9b; xaf; x0a; xe9; x99; x85; x0a; xe8;
  x9e; x8b; x0a; xe4; x98; x86; x0a; xe4;
  x98; x97; x0a; xe8; xa2; xae; x0a; xe8;
  xa3; xbf; x0a; xe8; xa4; xa4; x0a; xe8;
  xa5; x87; x0a; xe8; xa6; x91; x0a; xf0;
  xa7; xa5; xa7; x0a; xe8; xa8; xa9; x0a;
  xe8; xa8; xb8; x0a; xe8; xaa; x94; x0a;
  xe8; xaa; xb4; x0a; xe8; xb1; x91; x0a;
  xe8; xb3; x94; x0a; xe8; xb3; xb2; x0a;
  xe8; xb4; x9c; x0a; xe4; x9e; x98; x0a;
  xe5; xa1; x9f; x0a; xe8; xb7; x83; x0a;
  xe4; x9f; xad; x0a; xe4; xbb; xae; x0a;
  xe8; xb8; xba; x0a; xe5; x97; x98; x0a;
  xe5; x9d; x94; x0a; xe8; xb9; xb1; x0a;
  xe5; x97; xb5; x0a; xe8; xba; xb0; x0a;
  xe4; xa0; xb7; x0a; xe8; xbb; x8e; x0a;
  xe8; xbb; xa2; x0a; xe8; xbb; xa4; x0a;
  xe8; xbb; xad; x0a; xe8; xbb; xb2; x0a;
  xe8; xbe; xb7; x0a; xe8; xbf; x81; x0a;
  xe8; xbf; x8a; x0a; xe8; xbf; x8c; x0a;
  xe9; x80; xb3; x0a; xe9; xa7; x84; x0a;
  xe4; xa2; xad; x0a; xe9; xa3; xa0; x0a;
  xe9; x88; x93; x0a; xe4; xa4; x9e; x0a;
  xe9; x88; xa8; x0a; xe9; x89; x98; x0a;
  xe9; x89; xab; x0a; xe9; x8a; xb1; x0a;
  xe9; x8a; xae; x0a; xe9; x8a; xbf; x0a;
  xe9; x8b; xa3; x0a; xe9; x8b; xab; x0a;
  xe9; x8b; xb3; x0a; xe9; x8b; xb4; x0a;
  xe9; x8b; xbd; x0a; xe9; x8d; x83; x0a;
  xe9; x8e; x84; x0a; xe9; x8e; xad; x0a;
  xe4; xa5; x85; x0a; xe4; xa5; x91; x0a;
  xe9; xba; xbf; x0a; xe9; x90; x97; x0a
].
(* tests/test_data/whatwg/big5_whatwg_test_encode_in.txt, entries 12544..12799 *)
Definition big5_encode_in_49 : list byte := [
  xe5; x8c; x81; x0a; xe9; x90; x9d; x0a;
  xe9; x90; xad; x0a; xe9; x90; xbe; x0a;
  xe4; xa5; xaa; x0a; xe9; x91; x94; x0a;
  xe9; x91; xb9; x0a; xe9; x94; xad; x0a;
  xe9; x96; xa2; x0a; xe4; xa6; xa7; x0a;
  xe9; x97; xb4; x0a; xe9; x98; xb3; x0a;
  xe4; xa7; xa5; x0a; xe6; x9e; xa0; x0a;
  xe4; xa8; xa4; x0a; xe9; x9d; x80; x0a;
  xe4; xa8; xb5; x0a; xe9; x9e; xb2; x0a;
  xe9; x9f; x82; x0a; xe5; x99; x94; x0a;
  xe4; xab; xa4; x0a; xe6; x83; xa8; x0a;
  xe9; xa2; xb9; x0a; xe4; xac; x99; x0a;
  xe9; xa3; xb1; x0a; xe5; xa1; x84; x0a;
  xe9; xa4; x8e; x0a; xe9; xa4; x99; x0a;
  xe5; x86; xb4; x0a; xe9; xa4; x9c; x0a;
  xe9; xa4; xb7; x0a; xe9; xa5; x82; x0a;
  xe9; xa5; x9d; x0a; xe9; xa5; xa2; x0a;
  xe4; xad; xb0; x0a; xe9; xa7; x85; x0a;
  xe4; xae; x9d; x0a; xe9; xa8; xbc; x0a;
  xe9; xac; x8f; x0a; xe7; xaa; x83; x0a;
  xe9; xad; xa9; x0a; xe9; xae; x81; x0a;
  xe9; xaf; x9d; x0a; xe9; xaf; xb1; x0a;
  xe9; xaf; xb4; x0a; xe4; xb1; xad; x0a;
  xe9; xb0; xa0; x0a; xe3; x9d; xaf; x0a;
  xf0; xa1; xaf; x82; x0a; xe9; xb5; x89;
  x0a; xe9; xb0; xba; x0a; xe9; xbb; xbe;
  x0a; xe5; x99; x90; x0a; xe9; xb6; x93;
  x0a; xe9; xb6; xbd; x0a; xe9; xb7; x80;
  x0a; xe9; xb7; xbc; x0a; xe9; x93; xb6;
  x0a; xe8; xbe; xb6; x0a; xe9; xb9; xbb;
  x0a; xe9; xba; xac; x0a; xe9; xba; xb1;
  x0a; xe9; xba; xbd; x0a; xe9; xbb; x86
].
(* tests/test_data/whatwg/big5_whatwg_test_encode_in.txt, entries 12800..13055 *)
Definition big5_encode_in_50 : list byte := [
  x0a; xe9; x93; x9c; x0a; xe9; xbb; xa2;
  x0a; xe9; xbb; xb1; x0a; xe9; xbb; xb8;
  x0a; xe7; xab; x88; x0a; xe9; xbd; x84;
  x0a; xf0; xa0; x82; x94; x0a; xf0; xa0;
  x8a; xb7; x0a; xf0; xa0; x8e; xa0; x0a;
  xe6; xa4; x9a; x0a; xe9; x93; x83; x0a;
  xe5; xa6; xac; x0a; xf0; xa0; x93; x97;
  x0a; xe5; xa1; x80; x0a; xe9; x93; x81;
  x0a; xe3; x9e; xb9; x0a; xf0; xa0; x97;
  x95; x0a; xf0; xa0; x98; x95; x0a; xf0;
  xa0; x99; xb6; x0a; xf0; xa1; x9a; xba;
  x0a; xe5; x9d; x97; x0a; xe7; x85; xb3;
  x0a; xf0; xa0; xab; x82; x0a; xf0; xa0;
  xab; x8d; x0a; xf0; xa0; xae; xbf; x0a;
  xe5; x91; xaa; x0a; xf0; xaf; xa0; xbb;
  x0a; xf0; xa0; xaf; x8b; x0a; xe5; x92;
  x9e; x0a; xf0; xa0; xaf; xbb; x0a; xf0;
  xa0; xb0; xbb; x0a; xf0; xa0; xb1; x93;
  x0a; xf0; xa0; xb1; xa5; x0a; xf0; xa0;
  xb1; xbc; x0a; xe6; x83; xa7; x0a; xf0;
  xa0; xb2; x8d; x0a; xe5; x99; xba; x0a;
  xf0; xa0; xb2; xb5; x0a; xf0; xa0; xb3;
  x9d; x0a; xf0; xa0; xb3; xad; x0a; xf0;
  xa0; xb5; xaf; x0a; xf0; xa0; xb6; xb2;
  x0a; xf0; xa0; xb7; x88; x0a; xe6; xa5;
  x95; x0a; xe9; xb0; xaf; x0a; xe8; x9e;
  xa5; x0a; xf0; xa0; xb8; x84; x0a; xf0;
  xa0; xb8; x8e; x0a; xf0; xa0; xbb; x97;
  x0a; xf0; xa0; xbe; x90; x0a; xf0; xa0;
  xbc; xad; x0a; xf0; xa0; xb9; xb3; x0a;
  xe5; xb0; xa0; x0a; xf0; xa0; xbe; xbc;
  x0a; xe5; xb8; x8b; x0a; xf0; xa1; x81
].
(* tests/test_data/whatwg/big5_whatwg_test_encode_in.txt, entries 13056..13311 *)
Definition big5_encode_in_51 : list byte := [
  x9c; x0a; xf0; xa1; x81; x8f; x0a; xf0;
  xa1; x81; xb6; x0a; xe6; x9c; x9e; x0a;
  xf0; xa1; x81; xbb; x0a; xf0; xa1; x82;
  x88; x0a; xf0; xa1; x82; x96; x0a; xe3;
  x99; x87; x0a; xf0; xa1; x82; xbf; x0a;
  xf0; xa1; x83; x93; x0a; xf0; xa1; x84;
  xaf; x0a; xf0; xa1; x84; xbb; x0a; xe5;
  x8d; xa4; x0a; xe8; x92; xad; x0a; xf0;
  xa1; x8b; xa3; x0a; xf0; xa1; x8d; xb5;
  x0a; xf0; xa1; x8c; xb6; x0a; xe8; xae;
  x81; x0a; xf0; xa1; x95; xb7; x0a; xf0;
  xa1; x98; x99; x0a; xf0; xa1; x9f; x83;
  x0a; xf0; xa1; x9f; x87; x0a; xe4; xb9;
  xb8; x0a; xe7; x82; xbb; x0a; xf0; xa1;
  xa0; xad; x0a; xf0; xa1; xa5; xaa; x0a;
  xf0; xa1; xa8; xad; x0a; xf0; xa1; xa9;
  x85; x0a; xf0; xa1; xb0; xaa; x0a; xf0;
  xa1; xb1; xb0; x0a; xf0; xa1; xb2; xac;
  x0a; xf0; xa1; xbb; x88; x0a; xe6; x8b;
  x83; x0a; xf0; xa1; xbb; x95; x0a; xf0;
  xa1; xbc; x95; x0a; xe7; x86; x98; x0a;
  xe6; xa1; x95; x0a; xf0; xa2; x81; x85;
  x0a; xe6; xa7; xa9; x0a; xe3; x9b; x88;
  x0a; xf0; xa2; x89; xbc; x0a; xf0; xa2;
  x8f; x97; x0a; xf0; xa2; x8f; xba; x0a;
  xf0; xa2; x9c; xaa; x0a; xf0; xa2; xa1;
  xb1; x0a; xf0; xa2; xa5; x8f; x0a; xe8;
  x8b; xbd; x0a; xf0; xa2; xa5; xa7; x0a;
  xf0; xa2; xa6; x93; x0a; xf0; xa2; xab;
  x95; x0a; xe8; xa6; xa5; x0a; xf0; xa2;
  xab; xa8; x0a; xe8; xbe; xa0; x0a; xf0;
  xa2; xac; x8e; x0a; xe9; x9e; xb8; x0a
].
(* tests/test_data/whatwg/big5_whatwg_test_encode_in.txt, entries 13312..13567 *)
Definition big5_encode_in_52 : list byte := [
  xf0; xa2; xac; xbf; x0a; xe9; xa1; x87;
  x0a; xe9; xaa; xbd; x0a; xf0; xa2; xb1;
  x8c; x0a; xf0; xa2; xb2; x88; x0a; xf0;
  xa2; xb2; xb7; x0a; xf0; xa5; xaf; xa8;
  x0a; xf0; xa2; xb4; x88; x0a; xf0; xa2;
  xb4; x92; x0a; xf0; xa2; xb6; xb7; x0a;
  xf0; xa2; xb6; x95; x0a; xf0; xa2; xb9;
  x82; x0a; xf0; xa2; xbd; xb4; x0a; xf0;
  xa2; xbf; x8c; x0a; xf0; xa3; x80; xb3;
  x0a; xf0; xa3; x81; xa6; x0a; xf0; xa3;
  x8c; x9f; x0a; xf0; xa3; x8f; x9e; x0a;
  xe5; xbe; xb1; x0a; xe6; x99; x88; x0a;
  xe6; x9a; xbf; x0a; xf0; xa7; xa9; xb9;
  x0a; xf0; xa3; x95; xa7; x0a; xf0; xa3;
  x97; xb3; x0a; xe7; x88; x81; x0a; xf0;
  xa4; xa6; xba; x0a; xe7; x9f; x97; x0a;
  xf0; xa3; x98; x9a; x0a; xf0; xa3; x9c;
  x96; x0a; xe7; xba; x87; x0a; xf0; xa0;
  x8d; x86; x0a; xe5; xa2; xb5; x0a; xe6;
  x9c; x8e; x0a; xe6; xa4; x98; x0a; xf0;
  xa3; xaa; xa7; x0a; xf0; xa7; x99; x97;
  x0a; xf0; xa5; xbf; xa2; x0a; xf0; xa3;
  xb8; x91; x0a; xf0; xa3; xba; xb9; x0a;
  xf0; xa7; x97; xbe; x0a; xf0; xa2; x82;
  x9a; x0a; xe4; xa3; x90; x0a; xe4; xaa;
  xb8; x0a; xf0; xa4; x84; x99; x0a; xf0;
  xa8; xaa; x9a; x0a; xf0; xa4; x8b; xae;
  x0a; xf0; xa4; x8c; x8d; x0a; xf0; xa4;
  x80; xbb; x0a; xf0; xa4; x8c; xb4; x0a;
  xf0; xa4; x8e; x96; x0a; xf0; xa4; xa9;
  x85; x0a; xf0; xa0; x97; x8a; x0a; xe5;
  x87; x92; x0a; xf0; xa0; x98; x91; x0a
].
(* tests/test_data/whatwg/big5_whatwg_test_encode_in.txt, entries 13568..13823 *)
Definition big5_encode_in_53 : list byte := [
  xe5; xa6; x9f; x0a; xf0; xa1; xba; xa8;
  x0a; xe3; xae; xbe; x0a; xf0; xa3; xb3;
  xbf; x0a; xf0; xa4; x90; x84; x0a; xf0;
  xa4; x93; x96; x0a; xe5; x9e; x88; x0a;
  xf0; xa4; x99; xb4; x0a; xe3; xa6; x9b;
  x0a; xf0; xa4; x9c; xaf; x0a; xf0; xa8;
  x97; xa8; x0a; xf0; xa9; xa7; x89; x0a;
  xe3; x9d; xa2; x0a; xf0; xa2; x87; x83;
  x0a; xe8; xad; x9e; x0a; xf0; xa8; xad;
  x8e; x0a; xe9; xa7; x96; x0a; xf0; xa4;
  xa0; x92; x0a; xf0; xa4; xa3; xbb; x0a;
  xf0; xa4; xa8; x95; x0a; xe7; x88; x89;
  x0a; xf0; xa4; xab; x80; x0a; xf0; xa0;
  xb1; xb8; x0a; xe5; xa5; xa5; x0a; xf0;
  xa4; xba; xa5; x0a; xf0; xa4; xbe; x86;
  x0a; xf0; xa0; x9d; xb9; x0a; xe8; xbb;
  x9a; x0a; xf0; xa5; x80; xac; x0a; xe5;
  x8a; x8f; x0a; xe5; x9c; xbf; x0a; xe7;
  x85; xb1; x0a; xf0; xa5; x8a; x99; x0a;
  xf0; xa5; x90; x99; x0a; xf0; xa3; xbd;
  x8a; x0a; xf0; xa4; xaa; xa7; x0a; xe5;
  x96; xbc; x0a; xf0; xa5; x91; x86; x0a;
  xf0; xa5; x91; xae; x0a; xf0; xa6; xad;
  x92; x0a; xe9; x87; x94; x0a; xe3; x91;
  xb3; x0a; xf0; xa5; x94; xbf; x0a; xf0;
  xa7; x98; xb2; x0a; xf0; xa5; x95; x9e;
  x0a; xe4; x9c; x98; x0a; xf0; xa5; x95;
  xa2; x0a; xf0; xa5; x95; xa6; x0a; xf0;
  xa5; x9f; x87; x0a; xf0; xa4; xa4; xbf;
  x0a; xf0; xa5; xa1; x9d; x0a; xe5; x81;
  xa6; x0a; xe3; x93; xbb; x0a; xf0; xa3;
  x8f; x8c; x0a; xe6; x83; x9e; x0a; xf0
].
(* tests/test_data/whatwg/big5_whatwg_test_encode_in.txt, entries 13824..14079 *)
Definition big5_encode_in_54 : list byte := [
  xa5; xa4; x83; x0a; xe4; x9d; xbc; x0a;
  xf0; xa8; xa5; x88; x0a; xf0; xa5; xaa;
  xae; x0a; xf0; xa5; xae; x89; x0a; xf0;
  xa5; xb0; x86; x0a; xf0; xa1; xb6; x90;
  x0a; xe5; x9e; xa1; x0a; xe7; x85; x91;
  x0a; xe6; xbe; xb6; x0a; xf0; xa6; x84;
  x82; x0a; xf0; xa7; xb0; x92; x0a; xe9;
  x81; x96; x0a; xf0; xa6; x86; xb2; x0a;
  xf0; xa4; xbe; x9a; x0a; xe8; xad; xa2;
  x0a; xf0; xa6; x90; x82; x0a; xf0; xa6;
  x91; x8a; x0a; xe5; xb5; x9b; x0a; xf0;
  xa6; xaf; xb7; x0a; xe8; xbc; xb6; x0a;
  xf0; xa6; x92; x84; x0a; xf0; xa1; xa4;
  x9c; x0a; xe8; xab; xaa; x0a; xf0; xa4;
  xa7; xb6; x0a; xf0; xa6; x92; x88; x0a;
  xf0; xa3; xbf; xaf; x0a; xf0; xa6; x94;
  x92; x0a; xe4; xaf; x80; x0a; xf0; xa6;
  x96; xbf; x0a; xf0; xa6; x9a; xb5; x0a;
  xf0; xa2; x9c; x9b; x0a; xe9; x91; xa5;
  x0a; xf0; xa5; x9f; xa1; x0a; xe6; x86;
  x95; x0a; xe5; xa8; xa7; x0a; xf0; xaf;
  xa3; x8d; x0a; xe4; xbe; xbb; x0a; xe5;
  x9a; xb9; x0a; xf0; xa4; x94; xa1; x0a;
  xf0; xa6; x9b; xbc; x0a; xe4; xb9; xaa;
  x0a; xf0; xa4; xa4; xb4; x0a; xe9; x99;
  x96; x0a; xe6; xb6; x8f; x0a; xf0; xa6;
  xb2; xbd; x0a; xe3; x98; x98; x0a; xe8;
  xa5; xb7; x0a; xf0; xa6; x9e; x99; x0a;
  xf0; xa6; xa1; xae; x0a; xf0; xa6; x90;
  x91; x0a; xf0; xa6; xa1; x9e; x0a; xe7;
  x87; x9f; x0a; xf0; xa6; xa3; x87; x0a;
  xe7; xad; x82; x0a; xf0; xa9; x83; x80
].
(* tests/test_data/whatwg/big5_whatwg_test_encode_in.txt, entries 14080..14335 *)
Definition big5_encode_in_55 : list byte := [
  x0a; xf0; xa0; xa8; x91; x0a; xf0; xa6;
  xa4; xa6; x0a; xe9; x84; x84; x0a; xf0;
  xa6; xa4; xb9; x0a; xe7; xa9; x85; x0a;
  xe9; xb7; xb0; x0a; xf0; xa6; xa7; xba;
  x0a; xe9; xa8; xa6; x0a; xf0; xa6; xa8;
  xad; x0a; xe3; x99; x9f; x0a; xf0; xa6;
  x91; xa9; x0a; xf0; xa0; x80; xa1; x0a;
  xe7; xa6; x83; x0a; xf0; xa6; xa8; xb4;
  x0a; xf0; xa6; xad; x9b; x0a; xe5; xb4;
  xac; x0a; xf0; xa3; x94; x99; x0a; xe8;
  x8f; x8f; x0a; xf0; xa6; xae; x9d; x0a;
  xe4; x9b; x90; x0a; xf0; xa6; xb2; xa4;
  x0a; xe7; x94; xbb; x0a; xe8; xa1; xa5;
  x0a; xf0; xa6; xb6; xae; x0a; xe5; xa2;
  xb6; x0a; xe3; x9c; x9c; x0a; xf0; xa2;
  x96; x8d; x0a; xf0; xa7; x81; x8b; x0a;
  xf0; xa7; x87; x8d; x0a; xe3; xb1; x94;
  x0a; xf0; xa7; x8a; x80; x0a; xf0; xa7;
  x8a; x85; x0a; xe9; x8a; x81; x0a; xf0;
  xa2; x85; xba; x0a; xf0; xa7; x8a; x8b;
  x0a; xe9; x8c; xb0; x0a; xf0; xa7; x8b;
  xa6; x0a; xf0; xa4; xa7; x90; x0a; xe6;
  xb0; xb9; x0a; xe9; x92; x9f; x0a; xf0;
  xa7; x91; x90; x0a; xf0; xa0; xbb; xb8;
  x0a; xe8; xa0; xa7; x0a; xe8; xa3; xb5;
  x0a; xf0; xa2; xa4; xa6; x0a; xf0; xa8;
  x91; xb3; x0a; xf0; xa1; x9e; xb1; x0a;
  xe6; xba; xb8; x0a; xf0; xa4; xa8; xaa;
  x0a; xf0; xa1; xa0; xa0; x0a; xe3; xa6;
  xa4; x0a; xe3; x9a; xb9; x0a; xe5; xb0;
  x90; x0a; xe7; xa7; xa3; x0a; xe4; x94;
  xbf; x0a; xe6; x9a; xb6; x0a; xf0; xa9
].
(* tests/test_data/whatwg/big5_whatwg_test_encode_in.txt, entries 14336..14591 *)
Definition big5_encode_in_56 : list byte := [
  xb2; xad; x0a; xf0; xa9; xa2; xa4; x0a;
  xe8; xa5; x83; x0a; xf0; xa7; x9f; x8c;
  x0a; xf0; xa7; xa1; x98; x0a; xe5; x9b;
  x96; x0a; xe4; x83; x9f; x0a; xf0; xa1;
  x98; x8a; x0a; xe3; xa6; xa1; x0a; xf0;
  xa3; x9c; xaf; x0a; xf0; xa8; x83; xa8;
  x0a; xf0; xa1; x8f; x85; x0a; xe7; x86;
  xad; x0a; xe8; x8d; xa6; x0a; xf0; xa7;
  xa7; x9d; x0a; xf0; xa9; x86; xa8; x0a;
  xe5; xa9; xa7; x0a; xe4; xb2; xb7; x0a;
  xf0; xa7; x82; xaf; x0a; xf0; xa8; xa6;
  xab; x0a; xf0; xa7; xa7; xbd; x0a; xf0;
  xa7; xa8; x8a; x0a; xf0; xa7; xac; x8b;
  x0a; xf0; xa7; xb5; xa6; x0a; xf0; xa4;
  x85; xba; x0a; xe7; xad; x83; x0a; xe7;
  xa5; xbe; x0a; xf0; xa8; x80; x89; x0a;
  xe6; xbe; xb5; x0a; xf0; xaa; x8b; x9f;
  x0a; xe6; xa8; x83; x0a; xf0; xa8; x8c;
  x98; x0a; xe5; x8e; xa2; x0a; xf0; xa6;
  xb8; x87; x0a; xe9; x8e; xbf; x0a; xe6;
  xa0; xb6; x0a; xf0; xa8; x85; xaf; x0a;
  xf0; xa8; x80; xa3; x0a; xf0; xa6; xa6;
  xb5; x0a; xf0; xa1; x8f; xad; x0a; xf0;
  xa3; x88; xaf; x0a; xf0; xa8; x81; x88;
  x0a; xe5; xb6; x85; x0a; xf0; xa8; xb0;
  xb0; x0a; xf0; xa8; x82; x83; x0a; xe5;
  x9c; x95; x0a; xe9; xa0; xa3; x0a; xf0;
  xa8; xa5; x89; x0a; xe5; xb6; xab; x0a;
  xf0; xa4; xa6; x88; x0a; xe6; x96; xbe;
  x0a; xe6; xa7; x95; x0a; xe5; x8f; x92;
  x0a; xf0; xa4; xaa; xa5; x0a; xf0; xa3;
  xbe; x81; x0a; xe3; xb0; x91; x0a; xe6
].
(* tests/test_data/whatwg/big5_whatwg_test_encode_in.txt, entries 14592..14847 *)
Definition big5_encode_in_57 : list byte := [
  x9c; xb6; x0a; xf0; xa8; x82; x90; x0a;
  xf0; xa8; x83; xb4; x0a; xf0; xa8; x84;
  xae; x0a; xf0; xa1; xbe; xa1; x0a; xf0;
  xa8; x85; x8f; x0a; xf0; xa8; x86; x89;
  x0a; xf0; xa8; x86; xaf; x0a; xf0; xa8;
  x88; x9a; x0a; xf0; xa8; x8c; x86; x0a;
  xf0; xa8; x8c; xaf; x0a; xf0; xa8; x8e;
  x8a; x0a; xe3; x97; x8a; x0a; xf0; xa8;
  x91; xa8; x0a; xf0; xa8; x9a; xaa; x0a;
  xe4; xa3; xba; x0a; xe6; x8f; xa6; x0a;
  xf0; xa8; xa5; x96; x0a; xe7; xa0; x88;
  x0a; xe9; x89; x95; x0a; xf0; xa8; xa6;
  xb8; x0a; xe4; x8f; xb2; x0a; xf0; xa8;
  xa7; xa7; x0a; xe4; x8f; x9f; x0a; xf0;
  xa8; xa7; xa8; x0a; xf0; xa8; xad; x86;
  x0a; xf0; xa8; xaf; x94; x0a; xe5; xa7;
  xb8; x0a; xf0; xa8; xb0; x89; x0a; xe8;
  xbc; x8b; x0a; xf0; xa8; xbf; x85; x0a;
  xf0; xa9; x83; xac; x0a; xe7; xad; x91;
  x0a; xf0; xa9; x84; x90; x0a; xf0; xa9;
  x84; xbc; x0a; xe3; xb7; xb7; x0a; xf0;
  xa9; x85; x9e; x0a; xf0; xa4; xab; x8a;
  x0a; xe8; xbf; x90; x0a; xe7; x8a; x8f;
  x0a; xe5; x9a; x8b; x0a; xf0; xa9; x93;
  xa7; x0a; xf0; xa9; x97; xa9; x0a; xf0;
  xa9; x96; xb0; x0a; xf0; xa9; x96; xb8;
  x0a; xf0; xa9; x9c; xb2; x0a; xf0; xa9;
  xa3; x91; x0a; xf0; xa9; xa5; x89; x0a;
  xf0; xa9; xa5; xaa; x0a; xf0; xa9; xa7;
  x83; x0a; xf0; xa9; xa8; xa8; x0a; xf0;
  xa9; xac; x8e; x0a; xf0; xa9; xb5; x9a;
  x0a; xf0; xa9; xb6; x9b; x0a; xe7; xba
].
(* tests/test_data/whatwg/big5_whatwg_test_encode_in.txt, entries 14848..15103 *)
Definition big5_encode_in_58 : list byte := [
  x9f; x0a; xf0; xa9; xbb; xb8; x0a; xf0;
  xa9; xbc; xa3; x0a; xe4; xb2; xa4; x0a;
  xe9; x95; x87; x0a; xf0; xaa; x8a; x93;
  x0a; xe7; x86; xa2; x0a; xf0; xaa; x8b;
  xbf; x0a; xe4; xb6; x91; x0a; xe9; x80;
  x92; x0a; xf0; xaa; x97; x8b; x0a; xe4;
  xb6; x9c; x0a; xf0; xa0; xb2; x9c; x0a;
  xe8; xbe; xbe; x0a; xe5; x97; x81; x0a;
  xe8; xbe; xba; x0a; xf0; xa2; x92; xb0;
  x0a; xe8; xbe; xb9; x0a; xf0; xa4; xaa;
  x93; x0a; xe4; x94; x89; x0a; xe7; xb9;
  xbf; x0a; xe6; xbd; x96; x0a; xe6; xaa;
  xb1; x0a; xe4; xbb; xaa; x0a; xe3; x93;
  xa4; x0a; xf0; xa8; xac; xac; x0a; xf0;
  xa7; xa2; x9d; x0a; xe3; x9c; xba; x0a;
  xe8; xba; x80; x0a; xf0; xa1; x9f; xb5;
  x0a; xf0; xa8; x80; xa4; x0a; xf0; xa8;
  xad; xac; x0a; xf0; xa8; xae; x99; x0a;
  xf0; xa7; xa8; xbe; x0a; xf0; xa6; x9a;
  xaf; x0a; xe3; xb7; xab; x0a; xf0; xa7;
  x99; x95; x0a; xf0; xa3; xb2; xb7; x0a;
  xf0; xa5; x98; xb5; x0a; xf0; xa5; xa5;
  x96; x0a; xe4; xba; x9a; x0a; xf0; xa5;
  xba; x81; x0a; xf0; xa6; x89; x98; x0a;
  xe5; x9a; xbf; x0a; xf0; xa0; xb9; xad;
  x0a; xe8; xb8; x8e; x0a; xe5; xad; xad;
  x0a; xf0; xa3; xba; x88; x0a; xf0; xa4;
  xb2; x9e; x0a; xe6; x8f; x9e; x0a; xe6;
  x8b; x90; x0a; xf0; xa1; x9f; xb6; x0a;
  xf0; xa1; xa1; xbb; x0a; xe6; x94; xb0;
  x0a; xe5; x98; xad; x0a; xf0; xa5; xb1;
  x8a; x0a; xe5; x90; x9a; x0a; xf0; xa5
].
(* tests/test_data/whatwg/big5_whatwg_test_encode_in.txt, entries 15104..15359 *)
Definition big5_encode_in_59 : list byte := [
  x8c; x91; x0a; xe3; xb7; x86; x0a; xf0;
  xa9; xb6; x98; x0a; xe4; xb1; xbd; x0a;
  xe5; x98; xa2; x0a; xe5; x98; x9e; x0a;
  xe7; xbd; x89; x0a; xf0; xa5; xbb; x98;
  x0a; xe5; xa5; xb5; x0a; xf0; xa3; xb5;
  x80; x0a; xe8; x9d; xb0; x0a; xe4; xb8;
  x9c; x0a; xf0; xa0; xbf; xaa; x0a; xf0;
  xa0; xb5; x89; x0a; xf0; xa3; x9a; xba;
  x0a; xe8; x84; x97; x0a; xe9; xb5; x9e;
  x0a; xe8; xb4; x98; x0a; xe7; x98; xbb;
  x0a; xe9; xb1; x85; x0a; xe7; x99; x8e;
  x0a; xe7; x9e; xb9; x0a; xe9; x8d; x85;
  x0a; xe5; x90; xb2; x0a; xe8; x85; x88;
  x0a; xe8; x8b; xb7; x0a; xe5; x98; xa5;
  x0a; xe8; x84; xb2; x0a; xe8; x90; x98;
  x0a; xe8; x82; xbd; x0a; xe5; x97; xaa;
  x0a; xe7; xa5; xa2; x0a; xe5; x99; x83;
  x0a; xe5; x90; x96; x0a; xf0; xa0; xba;
  x9d; x0a; xe3; x97; x8e; x0a; xe5; x98;
  x85; x0a; xe5; x97; xb1; x0a; xe6; x9b;
  xb1; x0a; xf0; xa8; x8b; xa2; x0a; xe3;
  x98; xad; x0a; xe7; x94; xb4; x0a; xe5;
  x97; xb0; x0a; xe5; x96; xba; x0a; xe5;
  x92; x97; x0a; xe5; x95; xb2; x0a; xf0;
  xa0; xb1; x81; x0a; xf0; xa0; xb2; x96;
  x0a; xe5; xbb; x90; x0a; xf0; xa5; x85;
  x88; x0a; xf0; xa0; xb9; xb6; x0a; xf0;
  xa2; xb1; xa2; x0a; xf0; xa0; xba; xa2;
  x0a; xe9; xba; xab; x0a; xe7; xb5; x9a;
  x0a; xe5; x97; x9e; x0a; xf0; xa1; x81;
  xb5; x0a; xe6; x8a; x9d; x0a; xe9; x9d;
  xad; x0a; xe5; x92; x94; x0a; xe8; xb3
].
(* tests/test_data/whatwg/big5_whatwg_test_encode_in.txt, entries 15360..15615 *)
Definition big5_encode_in_60 : list byte := [
  x8d; x0a; xe7; x87; xb6; x0a; xe9; x85;
  xb6; x0a; xe6; x8f; xbc; x0a; xe6; x8e;
  xb9; x0a; xe6; x8f; xbe; x0a; xe5; x95;
  xa9; x0a; xf0; xa2; xad; x83; x0a; xe9;
  xb1; xb2; x0a; xf0; xa2; xba; xb3; x0a;
  xe5; x86; x9a; x0a; xe3; x93; x9f; x0a;
  xf0; xa0; xb6; xa7; x0a; xe5; x86; xa7;
  x0a; xe5; x91; x8d; x0a; xe5; x94; x9e;
  x0a; xe5; x94; x93; x0a; xe7; x99; xa6;
  x0a; xe8; xb8; xad; x0a; xf0; xa6; xa2;
  x8a; x0a; xe7; x96; xb1; x0a; xe8; x82;
  xb6; x0a; xe8; xa0; x84; x0a; xe8; x9e;
  x86; x0a; xe8; xa3; x87; x0a; xe8; x86;
  xb6; x0a; xe8; x90; x9c; x0a; xf0; xa1;
  x83; x81; x0a; xe4; x93; xac; x0a; xe7;
  x8c; x84; x0a; xf0; xa4; x9c; x86; x0a;
  xe5; xae; x90; x0a; xe8; x8c; x8b; x0a;
  xf0; xa6; xa2; x93; x0a; xe5; x99; xbb;
  x0a; xf0; xa2; x9b; xb4; x0a; xf0; xa7;
  xb4; xaf; x0a; xf0; xa4; x86; xa3; x0a;
  xf0; xa7; xb5; xb3; x0a; xf0; xa6; xbb;
  x90; x0a; xf0; xa7; x8a; xb6; x0a; xe9;
  x85; xb0; x0a; xf0; xa1; x87; x99; x0a;
  xe9; x88; x88; x0a; xf0; xa3; xb3; xbc;
  x0a; xf0; xaa; x9a; xa9; x0a; xf0; xa0;
  xba; xac; x0a; xf0; xa0; xbb; xb9; x0a;
  xe7; x89; xa6; x0a; xf0; xa1; xb2; xa2;
  x0a; xe4; x9d; x8e; x0a; xf0; xa4; xbf;
  x82; x0a; xf0; xa7; xbf; xb9; x0a; xf0;
  xa0; xbf; xab; x0a; xe4; x83; xba; x0a;
  xe9; xb1; x9d; x0a; xe6; x94; x9f; x0a;
  xf0; xa2; xb6; xa0; x0a; xe4; xa3; xb3
].
(* tests/test_data/whatwg/big5_whatwg_test_encode_in.txt, entries 15616..15871 *)
Definition big5_encode_in_61 : list byte := [
  x0a; xf0; xa4; x9f; xa0; x0a; xf0; xa9;
  xb5; xbc; x0a; xf0; xa0; xbf; xac; x0a;
  xf0; xa0; xb8; x8a; x0a; xe6; x81; xa2;
  x0a; xf0; xa7; x96; xa3; x0a; xf0; xa0;
  xbf; xad; x0a; xf0; xa6; x81; x88; x0a;
  xf0; xa1; x86; x87; x0a; xe7; x86; xa3;
  x0a; xe7; xba; x8e; x0a; xe9; xb5; x90;
  x0a; xe4; xb8; x9a; x0a; xe4; xb8; x84;
  x0a; xe3; x95; xb7; x0a; xe5; xac; x8d;
  x0a; xe6; xb2; xb2; x0a; xe5; x8d; xa7;
  x0a; xe3; x9a; xac; x0a; xe3; xa7; x9c;
  x0a; xe5; x8d; xbd; x0a; xe3; x9a; xa5;
  x0a; xf0; xa4; x98; x98; x0a; xe5; xa2;
  x9a; x0a; xf0; xa4; xad; xae; x0a; xe8;
  x88; xad; x0a; xe5; x91; x8b; x0a; xe5;
  x9e; xaa; x0a; xf0; xa5; xaa; x95; x0a;
  xf0; xa0; xa5; xb9; x0a; xe3; xa9; x92;
  x0a; xf0; xa2; x91; xa5; x0a; xe7; x8d;
  xb4; x0a; xf0; xa9; xba; xac; x0a; xe4;
  xb4; x89; x0a; xe9; xaf; xad; x0a; xf0;
  xa3; xb3; xbe; x0a; xf0; xa9; xbc; xb0;
  x0a; xe4; xb1; x9b; x0a; xf0; xa4; xbe;
  xa9; x0a; xf0; xa9; x96; x9e; x0a; xf0;
  xa9; xbf; x9e; x0a; xe8; x91; x9c; x0a;
  xf0; xa3; xb6; xb6; x0a; xf0; xa7; x8a;
  xb2; x0a; xf0; xa6; x9e; xb3; x0a; xf0;
  xa3; x9c; xa0; x0a; xe6; x8c; xae; x0a;
  xe7; xb4; xa5; x0a; xf0; xa3; xbb; xb7;
  x0a; xf0; xa3; xb8; xac; x0a; xe3; xa8;
  xaa; x0a; xe9; x80; x88; x0a; xe5; x8b;
  x8c; x0a; xe3; xb9; xb4; x0a; xe3; x99;
  xba; x0a; xe4; x97; xa9; x0a; xf0; xa0
].
(* tests/test_data/whatwg/big5_whatwg_test_encode_in.txt, entries 15872..16127 *)
Definition big5_encode_in_62 : list byte := [
  x92; x8e; x0a; xe7; x99; x80; x0a; xe5;
  xab; xb0; x0a; xf0; xa0; xba; xb6; x0a;
  xe7; xa1; xba; x0a; xf0; xa7; xbc; xae;
  x0a; xe5; xa2; xa7; x0a; xe4; x82; xbf;
  x0a; xe5; x99; xbc; x0a; xe9; xae; x8b;
  x0a; xe5; xb5; xb4; x0a; xe7; x99; x94;
  x0a; xf0; xaa; x90; xb4; x0a; xe9; xba;
  x85; x0a; xe4; xb3; xa1; x0a; xe7; x97;
  xb9; x0a; xe3; x9f; xbb; x0a; xe6; x84;
  x99; x0a; xf0; xa3; x83; x9a; x0a; xf0;
  xa4; x8f; xb2; x0a; xe5; x99; x9d; x0a;
  xf0; xa1; x8a; xa9; x0a; xe5; x9e; xa7;
  x0a; xf0; xa4; xa5; xa3; x0a; xf0; xa9;
  xb8; x86; x0a; xe5; x88; xb4; x0a; xf0;
  xa7; x82; xae; x0a; xe3; x96; xad; x0a;
  xe6; xb1; x8a; x0a; xe9; xb5; xbc; x0a;
  xe7; xb1; x96; x0a; xe9; xac; xb9; x0a;
  xe5; x9f; x9e; x0a; xf0; xa1; x9d; xac;
  x0a; xe5; xb1; x93; x0a; xe6; x93; x93;
  x0a; xf0; xa9; x93; x90; x0a; xf0; xa6;
  x8c; xb5; x0a; xf0; xa7; x85; xa4; x0a;
  xe8; x9a; xad; x0a; xf0; xa0; xb4; xa8;
  x0a; xf0; xa6; xb4; xa2; x0a; xf0; xa4;
  xab; xa2; x0a; xf0; xa0; xb5; xb1; x0a;
  xe5; x87; xbe; x0a; xf0; xa1; xbc; x8f;
  x0a; xe5; xb6; x8e; x0a; xe9; x9c; x83;
  x0a; xf0; xa1; xb7; x91; x0a; xe9; xba;
  x81; x0a; xe9; x81; x8c; x0a; xe7; xac;
  x9f; x0a; xe9; xac; x82; x0a; xe5; xb3;
  x91; x0a; xe7; xae; xa3; x0a; xe6; x89;
  xa8; x0a; xe6; x8c; xb5; x0a; xe9; xab;
  xbf; x0a; xe7; xaf; x8f; x0a; xe9; xac
].
(* tests/test_data/whatwg/big5_whatwg_test_encode_in.txt, entries 16128..16383 *)
Definition big5_encode_in_63 : list byte := [
  xaa; x0a; xe7; xb1; xbe; x0a; xe9; xac;
  xae; x0a; xe7; xb1; x82; x0a; xe7; xb2;
  x86; x0a; xe9; xb0; x95; x0a; xe7; xaf;
  xbc; x0a; xe9; xac; x89; x0a; xe9; xb0;
  x9b; x0a; xf0; xa4; xa4; xbe; x0a; xe9;
  xbd; x9a; x0a; xe5; x95; xb3; x0a; xe5;
  xaf; x83; x0a; xe4; xbf; xbd; x0a; xe9;
  xba; x98; x0a; xe4; xbf; xb2; x0a; xe5;
  x89; xa0; x0a; xe3; xb8; x86; x0a; xe5;
  x8b; x91; x0a; xe5; x9d; xa7; x0a; xe5;
  x81; x96; x0a; xe5; xa6; xb7; x0a; xe5;
  xb8; x92; x0a; xe9; x9f; x88; x0a; xe9;
  xb6; xab; x0a; xe8; xbd; x9c; x0a; xe5;
  x91; xa9; x0a; xe9; x9e; xb4; x0a; xe9;
  xa5; x80; x0a; xe9; x9e; xba; x0a; xe5;
  x8c; xac; x0a; xe6; x84; xb0; x0a; xe6;
  xa4; xac; x0a; xe5; x8f; x9a; x0a; xe9;
  xb0; x8a; x0a; xe9; xb4; x82; x0a; xe4;
  xb0; xbb; x0a; xe9; x99; x81; x0a; xe6;
  xa6; x80; x0a; xe5; x82; xa6; x0a; xe7;
  x95; x86; x0a; xf0; xa1; x9d; xad; x0a;
  xe9; xa7; x9a; x0a; xe5; x89; xb3; x0a;
  xe9; x85; x99; x0a; xe9; x9a; x81; x0a;
  xe9; x85; x9c; x0a; xe9; x85; x91; x0a;
  xf0; xa8; xba; x97; x0a; xe6; x8d; xbf;
  x0a; xf0; xa6; xb4; xa3; x0a; xe6; xab;
  x8a; x0a; xe5; x98; x91; x0a; xe9; x86;
  x8e; x0a; xe7; x95; xba; x0a; xe6; x8a;
  x85; x0a; xf0; xa0; x8f; xbc; x0a; xe7;
  x8d; x8f; x0a; xe7; xb1; xb0; x0a; xf0;
  xa5; xb0; xa1; x0a; xf0; xa3; xb3; xbd;
  x0a; xf0; xa4; xa4; x99; x0a; xe7; x9b
].
(* tests/test_data/whatwg/big5_whatwg_test_encode_in.txt, entries 16384..16639 *)
Definition big5_encode_in_64 : list byte := [
  x96; x0a; xe9; xae; x9d; x0a; xe4; xb8;
  xaa; x0a; xf0; xa0; xb3; x94; x0a; xe8;
  x8e; xbe; x0a; xe8; xa1; x82; x0a; xe5;
  xb1; x8a; x0a; xe6; xa7; x80; x0a; xe5;
  x83; xad; x0a; xe5; x9d; xba; x0a; xe5;
  x88; x9f; x0a; xe5; xb7; xb5; x0a; xe4;
  xbb; x8e; x0a; xe6; xb0; xb1; x0a; xf0;
  xa0; x87; xb2; x0a; xe4; xbc; xb9; x0a;
  xe5; x92; x9c; x0a; xe5; x93; x9a; x0a;
  xe5; x8a; x9a; x0a; xe8; xb6; x82; x0a;
  xe3; x97; xbe; x0a; xe3; x97; xb3; x0a;
  xe6; xad; x92; x0a; xe9; x85; xbc; x0a;
  xe9; xbe; xa5; x0a; xe9; xae; x97; x0a;
  xe9; xa0; xae; x0a; xe9; xa2; xb4; x0a;
  xe9; xaa; xba; x0a; xe9; xba; xa8; x0a;
  xe9; xba; x84; x0a; xe7; x85; xba; x0a;
  xe7; xac; x94; x0a; xe6; xaf; xba; x0a;
  xe8; xa0; x98; x0a; xe7; xbd; xb8; x0a;
  xe5; x98; xa0; x0a; xf0; xaa; x99; x8a;
  x0a; xe8; xb9; xb7; x0a; xe9; xbd; x93;
  x0a; xe8; xb7; x94; x0a; xe8; xb9; x8f;
  x0a; xe9; xb8; x9c; x0a; xe8; xb8; x81;
  x0a; xe6; x8a; x82; x0a; xf0; xa8; x8d;
  xbd; x0a; xe8; xb8; xa8; x0a; xe8; xb9;
  xb5; x0a; xe7; xab; x93; x0a; xf0; xa4;
  xa9; xb7; x0a; xe7; xa8; xbe; x0a; xe7;
  xa3; x98; x0a; xe6; xb3; xaa; x0a; xe8;
  xa9; xa7; x0a; xe7; x98; x87; x0a; xf0;
  xa8; xa9; x9a; x0a; xe9; xbc; xa6; x0a;
  xe6; xb3; x8e; x0a; xe8; x9f; x96; x0a;
  xe7; x97; x83; x0a; xf0; xaa; x8a; xb2;
  x0a; xe7; xa1; x93; x0a; xf0; xaf; xa1
].
(* tests/test_data/whatwg/big5_whatwg_test_encode_in.txt, entries 16640..16895 *)
Definition big5_encode_in_65 : list byte := [
  x80; x0a; xe8; xb4; x8c; x0a; xe7; x8b;
  xa2; x0a; xe7; x8d; xb1; x0a; xe8; xac;
  xad; x0a; xe7; x8c; x82; x0a; xe7; x93;
  xb1; x0a; xe8; xb3; xab; x0a; xf0; xa4;
  xaa; xbb; x0a; xe8; x98; xaf; x0a; xe5;
  xbe; xba; x0a; xe8; xa2; xa0; x0a; xe4;
  x92; xb7; x0a; xf0; xa1; xa0; xbb; x0a;
  xf0; xa6; xb8; x85; x0a; xe8; xa9; xbe;
  x0a; xf0; xa2; x94; x9b; x0a; xe6; x83;
  xbd; x0a; xe7; x99; xa7; x0a; xe9; xab;
  x97; x0a; xe9; xb5; x84; x0a; xe9; xae;
  x8f; x0a; xe8; x9f; xb5; x0a; xe8; xb3;
  xb7; x0a; xe7; x8c; xac; x0a; xe9; x9c;
  xa1; x0a; xe9; xae; xb0; x0a; xe3; x97;
  x96; x0a; xe7; x8a; xb2; x0a; xe4; xb0;
  x87; x0a; xe7; xb1; x91; x0a; xe9; xa5;
  x8a; x0a; xf0; xa6; x85; x99; x0a; xe6;
  x85; x99; x0a; xe4; xb0; x84; x0a; xe9;
  xba; x96; x0a; xe6; x85; xbd; x0a; xe5;
  x9d; x9f; x0a; xe6; x85; xaf; x0a; xe6;
  x8a; xa6; x0a; xe6; x88; xb9; x0a; xe6;
  x8b; x8e; x0a; xe3; xa9; x9c; x0a; xe6;
  x87; xa2; x0a; xe5; x8e; xaa; x0a; xf0;
  xa3; x8f; xb5; x0a; xe6; x8d; xa4; x0a;
  xe6; xa0; x82; x0a; xe3; x97; x92; x0a;
  xe5; xb5; x97; x0a; xf0; xa8; xaf; x82;
  x0a; xe8; xbf; x9a; x0a; xf0; xa8; xb8;
  xb9; x0a; xe5; x83; x99; x0a; xf0; xa1;
  xb5; x86; x0a; xe7; xa4; x86; x0a; xe5;
  x8c; xb2; x0a; xe9; x98; xb8; x0a; xf0;
  xa0; xbc; xbb; x0a; xe4; x81; xa5; x0a;
  xe7; x9f; xbe; x0a; xe7; xb3; x82; x0a
].
(* tests/test_data/whatwg/big5_whatwg_test_encode_in.txt, entries 16896..17151 *)
Definition big5_encode_in_66 : list byte := [
  xf0; xa5; xbc; x9a; x0a; xe7; xb3; x9a;
  x0a; xe7; xa8; xad; x0a; xe8; x81; xa6;
  x0a; xe8; x81; xa3; x0a; xe7; xb5; x8d;
  x0a; xe7; x94; x85; x0a; xe7; x93; xb2;
  x0a; xe8; xa6; x94; x0a; xe8; x88; x9a;
  x0a; xe6; x9c; x8c; x0a; xe8; x81; xa2;
  x0a; xf0; xa7; x92; x86; x0a; xe8; x81;
  x9b; x0a; xe7; x93; xb0; x0a; xe8; x84;
  x83; x0a; xe7; x9c; xa4; x0a; xe8; xa6;
  x89; x0a; xf0; xa6; x9f; x8c; x0a; xe7;
  x95; x93; x0a; xf0; xa6; xbb; x91; x0a;
  xe8; x9e; xa9; x0a; xe8; x9f; x8e; x0a;
  xe8; x87; x88; x0a; xe8; x9e; x8c; x0a;
  xe8; xa9; x89; x0a; xe8; xb2; xad; x0a;
  xe8; xad; x83; x0a; xe7; x9c; xab; x0a;
  xe7; x93; xb8; x0a; xe8; x93; x9a; x0a;
  xe3; x98; xb5; x0a; xe6; xa6; xb2; x0a;
  xe8; xb6; xa6; x0a; xe6; xb6; xb9; x0a;
  xe8; x9f; x81; x0a; xf0; xa4; x80; x91;
  x0a; xe7; x93; xa7; x0a; xe3; xb7; x9b;
  x0a; xe7; x85; xb6; x0a; xe6; x82; xa4;
  x0a; xe6; x86; x9c; x0a; xe3; xb3; x91;
  x0a; xe7; x85; xa2; x0a; xe6; x81; xb7;
  x0a; xe7; xbd; xb1; x0a; xf0; xa8; xac;
  xad; x0a; xe6; x83; xa9; x0a; xe4; xad;
  xbe; x0a; xe5; x88; xa0; x0a; xe3; xb0;
  x98; x0a; xf0; xa3; xb3; x87; x0a; xf0;
  xa5; xbb; x97; x0a; xf0; xa7; x99; x96;
  x0a; xf0; xa5; x94; xb1; x0a; xf0; xa1;
  xa5; x84; x0a; xf0; xa1; x8b; xbe; x0a;
  xf0; xa9; xa4; x83; x0a; xf0; xa6; xb7;
  x9c; x0a; xf0; xa7; x82; xad; x0a; xe5
].
(* tests/test_data/whatwg/big5_whatwg_test_encode_in.txt, entries 17152..17407 *)
Definition big5_encode_in_67 : list byte := [
  xb3; x81; x0a; xf0; xa6; x86; xad; x0a;
  xf0; xa8; xa8; x8f; x0a; xf0; xa3; x99;
  xb7; x0a; xf0; xa0; x83; xae; x0a; xf0;
  xa6; xa1; x86; x0a; xf0; xa4; xbc; x8e;
  x0a; xe4; x95; xa2; x0a; xe5; xac; x9f;
  x0a; xf0; xa6; x8d; x8c; x0a; xe9; xbd;
  x90; x0a; xe9; xba; xa6; x0a; xf0; xa6;
  x89; xab; x0a; xe3; x80; x80; x0a; xef;
  xbc; x8c; x0a; xe3; x80; x81; x0a; xe3;
  x80; x82; x0a; xef; xbc; x8e; x0a; xe2;
  x80; xa7; x0a; xef; xbc; x9b; x0a; xef;
  xbc; x9a; x0a; xef; xbc; x9f; x0a; xef;
  xbc; x81; x0a; xef; xb8; xb0; x0a; xe2;
  x80; xa6; x0a; xe2; x80; xa5; x0a; xef;
  xb9; x90; x0a; xef; xb9; x91; x0a; xef;
  xb9; x92; x0a; xc2; xb7; x0a; xef; xb9;
  x94; x0a; xef; xb9; x95; x0a; xef; xb9;
  x96; x0a; xef; xb9; x97; x0a; xef; xbd;
  x9c; x0a; xe2; x80; x93; x0a; xef; xb8;
  xb1; x0a; xe2; x80; x94; x0a; xef; xb8;
  xb3; x0a; xe2; x95; xb4; x0a; xef; xb8;
  xb4; x0a; xef; xb9; x8f; x0a; xef; xbc;
  x88; x0a; xef; xbc; x89; x0a; xef; xb8;
  xb5; x0a; xef; xb8; xb6; x0a; xef; xbd;
  x9b; x0a; xef; xbd; x9d; x0a; xef; xb8;
  xb7; x0a; xef; xb8; xb8; x0a; xe3; x80;
  x94; x0a; xe3; x80; x95; x0a; xef; xb8;
  xb9; x0a; xef; xb8; xba; x0a; xe3; x80;
  x90; x0a; xe3; x80; x91; x0a; xef; xb8;
  xbb; x0a; xef; xb8; xbc; x0a; xe3; x80;
  x8a; x0a; xe3; x80; x8b; x0a; xef; xb8;
  xbd; x0a; xef; xb8; xbe; x0a; xe3; x80
].
(* tests/test_data/whatwg/big5_whatwg_test_encode_in.txt, entries 17408..17663 *)
Definition big5_encode_in_68 : list byte := [
  x88; x0a; xe3; x80; x89; x0a; xef; xb8;
  xbf; x0a; xef; xb9; x80; x0a; xe3; x80;
  x8c; x0a; xe3; x80; x8d; x0a; xef; xb9;
  x81; x0a; xef; xb9; x82; x0a; xe3; x80;
  x8e; x0a; xe3; x80; x8f; x0a; xef; xb9;
  x83; x0a; xef; xb9; x84; x0a; xef; xb9;
  x99; x0a; xef; xb9; x9a; x0a; xef; xb9;
  x9b; x0a; xef; xb9; x9c; x0a; xef; xb9;
  x9d; x0a; xef; xb9; x9e; x0a; xe2; x80;
  x98; x0a; xe2; x80; x99; x0a; xe2; x80;
  x9c; x0a; xe2; x80; x9d; x0a; xe3; x80;
  x9d; x0a; xe3; x80; x9e; x0a; xe2; x80;
  xb5; x0a; xe2; x80; xb2; x0a; xef; xbc;
  x83; x0a; xef; xbc; x86; x0a; xef; xbc;
  x8a; x0a; xe2; x80; xbb; x0a; xc2; xa7;
  x0a; xe3; x80; x83; x0a; xe2; x97; x8b;
  x0a; xe2; x97; x8f; x0a; xe2; x96; xb3;
  x0a; xe2; x96; xb2; x0a; xe2; x97; x8e;
  x0a; xe2; x98; x86; x0a; xe2; x98; x85;
  x0a; xe2; x97; x87; x0a; xe2; x97; x86;
  x0a; xe2; x96; xa1; x0a; xe2; x96; xa0;
  x0a; xe2; x96; xbd; x0a; xe2; x96; xbc;
  x0a; xe3; x8a; xa3; x0a; xe2; x84; x85;
  x0a; xc2; xaf; x0a; xef; xbf; xa3; x0a;
  xef; xbc; xbf; x0a; xcb; x8d; x0a; xef;
  xb9; x89; x0a; xef; xb9; x8a; x0a; xef;
  xb9; x8d; x0a; xef; xb9; x8e; x0a; xef;
  xb9; x8b; x0a; xef; xb9; x8c; x0a; xef;
  xb9; x9f; x0a; xef; xb9; xa0; x0a; xef;
  xb9; xa1; x0a; xef; xbc; x8b; x0a; xef;
  xbc; x8d; x0a; xc3; x97; x0a; xc3; xb7;
  x0a; xc2; xb1; x0a; xe2; x88; x9a; x0a
].
(* tests/test_data/whatwg/big5_whatwg_test_encode_in.txt, entries 17664..17919 *)
Definition big5_encode_in_69 : list byte := [
  xef; xbc; x9c; x0a; xef; xbc; x9e; x0a;
  xef; xbc; x9d; x0a; xe2; x89; xa6; x0a;
  xe2; x89; xa7; x0a; xe2; x89; xa0; x0a;
  xe2; x88; x9e; x0a; xe2; x89; x92; x0a;
  xe2; x89; xa1; x0a; xef; xb9; xa2; x0a;
  xef; xb9; xa3; x0a; xef; xb9; xa4; x0a;
  xef; xb9; xa5; x0a; xef; xb9; xa6; x0a;
  xef; xbd; x9e; x0a; xe2; x88; xa9; x0a;
  xe2; x88; xaa; x0a; xe2; x8a; xa5; x0a;
  xe2; x88; xa0; x0a; xe2; x88; x9f; x0a;
  xe2; x8a; xbf; x0a; xe3; x8f; x92; x0a;
  xe3; x8f; x91; x0a; xe2; x88; xab; x0a;
  xe2; x88; xae; x0a; xe2; x88; xb5; x0a;
  xe2; x88; xb4; x0a; xe2; x99; x80; x0a;
  xe2; x99; x82; x0a; xe2; x8a; x95; x0a;
  xe2; x8a; x99; x0a; xe2; x86; x91; x0a;
  xe2; x86; x93; x0a; xe2; x86; x90; x0a;
  xe2; x86; x92; x0a; xe2; x86; x96; x0a;
  xe2; x86; x97; x0a; xe2; x86; x99; x0a;
  xe2; x86; x98; x0a; xe2; x88; xa5; x0a;
  xe2; x88; xa3; x0a; xef; xbc; x8f; x0a;
  xef; xbc; xbc; x0a; xe2; x88; x95; x0a;
  xef; xb9; xa8; x0a; xef; xbc; x84; x0a;
  xef; xbf; xa5; x0a; xe3; x80; x92; x0a;
  xef; xbf; xa0; x0a; xef; xbf; xa1; x0a;
  xef; xbc; x85; x0a; xef; xbc; xa0; x0a;
  xe2; x84; x83; x0a; xe2; x84; x89; x0a;
  xef; xb9; xa9; x0a; xef; xb9; xaa; x0a;
  xef; xb9; xab; x0a; xe3; x8f; x95; x0a;
  xe3; x8e; x9c; x0a; xe3; x8e; x9d; x0a;
  xe3; x8e; x9e; x0a; xe3; x8f; x8e; x0a;
  xe3; x8e; xa1; x0a; xe3; x8e; x8e; x0a
].
(* tests/test_data/whatwg/big5_whatwg_test_encode_in.txt, entries 17920..18175 *)
Definition big5_encode_in_70 : list byte := [
  xe3; x8e; x8f; x0a; xe3; x8f; x84; x0a;
  xc2; xb0; x0a; xe5; x85; xa1; x0a; xe5;
  x85; xa3; x0a; xe5; x97; xa7; x0a; xe7;
  x93; xa9; x0a; xe2; x96; x81; x0a; xe2;
  x96; x82; x0a; xe2; x96; x83; x0a; xe2;
  x96; x84; x0a; xe2; x96; x85; x0a; xe2;
  x96; x86; x0a; xe2; x96; x87; x0a; xe2;
  x96; x88; x0a; xe2; x96; x8f; x0a; xe2;
  x96; x8e; x0a; xe2; x96; x8d; x0a; xe2;
  x96; x8c; x0a; xe2; x96; x8b; x0a; xe2;
  x96; x8a; x0a; xe2; x96; x89; x0a; xe2;
  x94; xbc; x0a; xe2; x94; xb4; x0a; xe2;
  x94; xac; x0a; xe2; x94; xa4; x0a; xe2;
  x94; x9c; x0a; xe2; x96; x94; x0a; xe2;
  x94; x80; x0a; xe2; x94; x82; x0a; xe2;
  x96; x95; x0a; xe2; x94; x8c; x0a; xe2;
  x94; x90; x0a; xe2; x94; x94; x0a; xe2;
  x94; x98; x0a; xe2; x95; xad; x0a; xe2;
  x95; xae; x0a; xe2; x95; xb0; x0a; xe2;
  x95; xaf; x0a; xe2; x97; xa2; x0a; xe2;
  x97; xa3; x0a; xe2; x97; xa5; x0a; xe2;
  x97; xa4; x0a; xe2; x95; xb1; x0a; xe2;
  x95; xb2; x0a; xe2; x95; xb3; x0a; xef;
  xbc; x90; x0a; xef; xbc; x91; x0a; xef;
  xbc; x92; x0a; xef; xbc; x93; x0a; xef;
  xbc; x94; x0a; xef; xbc; x95; x0a; xef;
  xbc; x96; x0a; xef; xbc; x97; x0a; xef;
  xbc; x98; x0a; xef; xbc; x99; x0a; xe2;
  x85; xa0; x0a; xe2; x85; xa1; x0a; xe2;
  x85; xa2; x0a; xe2; x85; xa3; x0a; xe2;
  x85; xa4; x0a; xe2; x85; xa5; x0a; xe2;
  x85; xa6; x0a; xe2; x85; xa7; x0a; xe2
].
(* tests/test_data/whatwg/big5_whatwg_test_encode_in.txt, entries 18176..18431 *)
Definition big5_encode_in_71 : list byte := [
  x85; xa8; x0a; xe2; x85; xa9; x0a; xe3;
  x80; xa1; x0a; xe3; x80; xa2; x0a; xe3;
  x80; xa3; x0a; xe3; x80; xa4; x0a; xe3;
  x80; xa5; x0a; xe3; x80; xa6; x0a; xe3;
  x80; xa7; x0a; xe3; x80; xa8; x0a; xe3;
  x80; xa9; x0a; xe5; x8d; x84; x0a; xef;
  xbc; xa1; x0a; xef; xbc; xa2; x0a; xef;
  xbc; xa3; x0a; xef; xbc; xa4; x0a; xef;
  xbc; xa5; x0a; xef; xbc; xa6; x0a; xef;
  xbc; xa7; x0a; xef; xbc; xa8; x0a; xef;
  xbc; xa9; x0a; xef; xbc; xaa; x0a; xef;
  xbc; xab; x0a; xef; xbc; xac; x0a; xef;
  xbc; xad; x0a; xef; xbc; xae; x0a; xef;
  xbc; xaf; x0a; xef; xbc; xb0; x0a; xef;
  xbc; xb1; x0a; xef; xbc; xb2; x0a; xef;
  xbc; xb3; x0a; xef; xbc; xb4; x0a; xef;
  xbc; xb5; x0a; xef; xbc; xb6; x0a; xef;
  xbc; xb7; x0a; xef; xbc; xb8; x0a; xef;
  xbc; xb9; x0a; xef; xbc; xba; x0a; xef;
  xbd; x81; x0a; xef; xbd; x82; x0a; xef;
  xbd; x83; x0a; xef; xbd; x84; x0a; xef;
  xbd; x85; x0a; xef; xbd; x86; x0a; xef;
  xbd; x87; x0a; xef; xbd; x88; x0a; xef;
  xbd; x89; x0a; xef; xbd; x8a; x0a; xef;
  xbd; x8b; x0a; xef; xbd; x8c; x0a; xef;
  xbd; x8d; x0a; xef; xbd; x8e; x0a; xef;
  xbd; x8f; x0a; xef; xbd; x90; x0a; xef;
  xbd; x91; x0a; xef; xbd; x92; x0a; xef;
  xbd; x93; x0a; xef; xbd; x94; x0a; xef;
  xbd; x95; x0a; xef; xbd; x96; x0a; xef;
  xbd; x97; x0a; xef; xbd; x98; x0a; xef;
  xbd; x99; x0a; xef; xbd; x9a; x0a; xce
].
(* tests/test_data/whatwg/big5_whatwg_test_encode_in.txt, entries 18432..18687 *)
Definition big5_encode_in_72 : list byte := [
  x91; x0a; xce; x92; x0a; xce; x93; x0a;
  xce; x94; x0a; xce; x95; x0a; xce; x96;
  x0a; xce; x97; x0a; xce; x98; x0a; xce;
  x99; x0a; xce; x9a; x0a; xce; x9b; x0a;
  xce; x9c; x0a; xce; x9d; x0a; xce; x9e;
  x0a; xce; x9f; x0a; xce; xa0; x0a; xce;
  xa1; x0a; xce; xa3; x0a; xce; xa4; x0a;
  xce; xa5; x0a; xce; xa6; x0a; xce; xa7;
  x0a; xce; xa8; x0a; xce; xa9; x0a; xce;
  xb1; x0a; xce; xb2; x0a; xce; xb3; x0a;
  xce; xb4; x0a; xce; xb5; x0a; xce; xb6;
  x0a; xce; xb7; x0a; xce; xb8; x0a; xce;
  xb9; x0a; xce; xba; x0a; xce; xbb; x0a;
  xce; xbc; x0a; xce; xbd; x0a; xce; xbe;
  x0a; xce; xbf; x0a; xcf; x80; x0a; xcf;
  x81; x0a; xcf; x83; x0a; xcf; x84; x0a;
  xcf; x85; x0a; xcf; x86; x0a; xcf; x87;
  x0a; xcf; x88; x0a; xcf; x89; x0a; xe3;
  x84; x85; x0a; xe3; x84; x86; x0a; xe3;
  x84; x87; x0a; xe3; x84; x88; x0a; xe3;
  x84; x89; x0a; xe3; x84; x8a; x0a; xe3;
  x84; x8b; x0a; xe3; x84; x8c; x0a; xe3;
  x84; x8d; x0a; xe3; x84; x8e; x0a; xe3;
  x84; x8f; x0a; xe3; x84; x90; x0a; xe3;
  x84; x91; x0a; xe3; x84; x92; x0a; xe3;
  x84; x93; x0a; xe3; x84; x94; x0a; xe3;
  x84; x95; x0a; xe3; x84; x96; x0a; xe3;
  x84; x97; x0a; xe3; x84; x98; x0a; xe3;
  x84; x99; x0a; xe3; x84; x9a; x0a; xe3;
  x84; x9b; x0a; xe3; x84; x9c; x0a; xe3;
  x84; x9d; x0a; xe3; x84; x9e; x0a; xe3;
  x84; x9f; x0a; xe3; x84; xa0; x0a; xe3
].
(* tests/test_data/whatwg/big5_whatwg_test_encode_in.txt, entries 18688..18943 *)
Definition big5_encode_in_73 : list byte := [
  x84; xa1; x0a; xe3; x84; xa2; x0a; xe3;
  x84; xa3; x0a; xe3; x84; xa4; x0a; xe3;
  x84; xa5; x0a; xe3; x84; xa6; x0a; xe3;
  x84; xa7; x0a; xe3; x84; xa8; x0a; xe3;
  x84; xa9; x0a; xcb; x99; x0a; xcb; x89;
  x0a; xcb; x8a; x0a; xcb; x87; x0a; xcb;
  x8b; x0a; xe2; x90; x80; x0a; xe2; x90;
  x81; x0a; xe2; x90; x82; x0a; xe2; x90;
  x83; x0a; xe2; x90; x84; x0a; xe2; x90;
  x85; x0a; xe2; x90; x86; x0a; xe2; x90;
  x87; x0a; xe2; x90; x88; x0a; xe2; x90;
  x89; x0a; xe2; x90; x8a; x0a; xe2; x90;
  x8b; x0a; xe2; x90; x8c; x0a; xe2; x90;
  x8d; x0a; xe2; x90; x8e; x0a; xe2; x90;
  x8f; x0a; xe2; x90; x90; x0a; xe2; x90;
  x91; x0a; xe2; x90; x92; x0a; xe2; x90;
  x93; x0a; xe2; x90; x94; x0a; xe2; x90;
  x95; x0a; xe2; x90; x96; x0a; xe2; x90;
  x97; x0a; xe2; x90; x98; x0a; xe2; x90;
  x99; x0a; xe2; x90; x9a; x0a; xe2; x90;
  x9b; x0a; xe2; x90; x9c; x0a; xe2; x90;
  x9d; x0a; xe2; x90; x9e; x0a; xe2; x90;
  x9f; x0a; xe2; x90; xa1; x0a; xe2; x82;
  xac; x0a; xe4; xb8; x80; x0a; xe4; xb9;
  x99; x0a; xe4; xb8; x81; x0a; xe4; xb8;
  x83; x0a; xe4; xb9; x83; x0a; xe4; xb9;
  x9d; x0a; xe4; xba; x86; x0a; xe4; xba;
  x8c; x0a; xe4; xba; xba; x0a; xe5; x84;
  xbf; x0a; xe5; x85; xa5; x0a; xe5; x85;
  xab; x0a; xe5; x87; xa0; x0a; xe5; x88;
  x80; x0a; xe5; x88; x81; x0a; xe5; x8a;
  x9b; x0a; xe5; x8c; x95; x0a; xe5; x8d
].
(* tests/test_data/whatwg/big5_whatwg_test_encode_in.txt, entries 18944..19199 *)
Definition big5_encode_in_74 : list byte := [
  x81; x0a; xe5; x8d; x9c; x0a; xe5; x8f;
  x88; x0a; xe4; xb8; x89; x0a; xe4; xb8;
  x8b; x0a; xe4; xb8; x88; x0a; xe4; xb8;
  x8a; x0a; xe4; xb8; xab; x0a; xe4; xb8;
  xb8; x0a; xe5; x87; xa1; x0a; xe4; xb9;
  x85; x0a; xe4; xb9; x88; x0a; xe4; xb9;
  x9f; x0a; xe4; xb9; x9e; x0a; xe4; xba;
  x8e; x0a; xe4; xba; xa1; x0a; xe5; x85;
  x80; x0a; xe5; x88; x83; x0a; xe5; x8b;
  xba; x0a; xe5; x8d; x83; x0a; xe5; x8f;
  x89; x0a; xe5; x8f; xa3; x0a; xe5; x9c;
  x9f; x0a; xe5; xa3; xab; x0a; xe5; xa4;
  x95; x0a; xe5; xa4; xa7; x0a; xe5; xa5;
  xb3; x0a; xe5; xad; x90; x0a; xe5; xad;
  x91; x0a; xe5; xad; x93; x0a; xe5; xaf;
  xb8; x0a; xe5; xb0; x8f; x0a; xe5; xb0;
  xa2; x0a; xe5; xb0; xb8; x0a; xe5; xb1;
  xb1; x0a; xe5; xb7; x9d; x0a; xe5; xb7;
  xa5; x0a; xe5; xb7; xb1; x0a; xe5; xb7;
  xb2; x0a; xe5; xb7; xb3; x0a; xe5; xb7;
  xbe; x0a; xe5; xb9; xb2; x0a; xe5; xbb;
  xbe; x0a; xe5; xbc; x8b; x0a; xe5; xbc;
  x93; x0a; xe6; x89; x8d; x0a; xe4; xb8;
  x91; x0a; xe4; xb8; x90; x0a; xe4; xb8;
  x8d; x0a; xe4; xb8; xad; x0a; xe4; xb8;
  xb0; x0a; xe4; xb8; xb9; x0a; xe4; xb9;
  x8b; x0a; xe5; xb0; xb9; x0a; xe4; xba;
  x88; x0a; xe4; xba; x91; x0a; xe4; xba;
  x95; x0a; xe4; xba; x92; x0a; xe4; xba;
  x94; x0a; xe4; xba; xa2; x0a; xe4; xbb;
  x81; x0a; xe4; xbb; x80; x0a; xe4; xbb;
  x83; x0a; xe4; xbb; x86; x0a; xe4; xbb
].
(* tests/test_data/whatwg/big5_whatwg_test_encode_in.txt, entries 19200..19455 *)
Definition big5_encode_in_75 : list byte := [
  x87; x0a; xe4; xbb; x8d; x0a; xe4; xbb;
  x8a; x0a; xe4; xbb; x8b; x0a; xe4; xbb;
  x84; x0a; xe5; x85; x83; x0a; xe5; x85;
  x81; x0a; xe5; x85; xa7; x0a; xe5; x85;
  xad; x0a; xe5; x85; xae; x0a; xe5; x85;
  xac; x0a; xe5; x86; x97; x0a; xe5; x87;
  xb6; x0a; xe5; x88; x86; x0a; xe5; x88;
  x87; x0a; xe5; x88; x88; x0a; xe5; x8b;
  xbb; x0a; xe5; x8b; xbe; x0a; xe5; x8b;
  xbf; x0a; xe5; x8c; x96; x0a; xe5; x8c;
  xb9; x0a; xe5; x8d; x88; x0a; xe5; x8d;
  x87; x0a; xe5; x8d; x85; x0a; xe5; x8d;
  x9e; x0a; xe5; x8e; x84; x0a; xe5; x8f;
  x8b; x0a; xe5; x8f; x8a; x0a; xe5; x8f;
  x8d; x0a; xe5; xa3; xac; x0a; xe5; xa4;
  xa9; x0a; xe5; xa4; xab; x0a; xe5; xa4;
  xaa; x0a; xe5; xa4; xad; x0a; xe5; xad;
  x94; x0a; xe5; xb0; x91; x0a; xe5; xb0;
  xa4; x0a; xe5; xb0; xba; x0a; xe5; xb1;
  xaf; x0a; xe5; xb7; xb4; x0a; xe5; xb9;
  xbb; x0a; xe5; xbb; xbf; x0a; xe5; xbc;
  x94; x0a; xe5; xbc; x95; x0a; xe5; xbf;
  x83; x0a; xe6; x88; x88; x0a; xe6; x88;
  xb6; x0a; xe6; x89; x8b; x0a; xe6; x89;
  x8e; x0a; xe6; x94; xaf; x0a; xe6; x96;
  x87; x0a; xe6; x96; x97; x0a; xe6; x96;
  xa4; x0a; xe6; x96; xb9; x0a; xe6; x97;
  xa5; x0a; xe6; x9b; xb0; x0a; xe6; x9c;
  x88; x0a; xe6; x9c; xa8; x0a; xe6; xac;
  xa0; x0a; xe6; xad; xa2; x0a; xe6; xad;
  xb9; x0a; xe6; xaf; x8b; x0a; xe6; xaf;
  x94; x0a; xe6; xaf; x9b; x0a; xe6; xb0
].
(* tests/test_data/whatwg/big5_whatwg_test_encode_in.txt, entries 19456..19711 *)
Definition big5_encode_in_76 : list byte := [
  x8f; x0a; xe6; xb0; xb4; x0a; xe7; x81;
  xab; x0a; xe7; x88; xaa; x0a; xe7; x88;
  xb6; x0a; xe7; x88; xbb; x0a; xe7; x89;
  x87; x0a; xe7; x89; x99; x0a; xe7; x89;
  x9b; x0a; xe7; x8a; xac; x0a; xe7; x8e;
  x8b; x0a; xe4; xb8; x99; x0a; xe4; xb8;
  x96; x0a; xe4; xb8; x95; x0a; xe4; xb8;
  x94; x0a; xe4; xb8; x98; x0a; xe4; xb8;
  xbb; x0a; xe4; xb9; x8d; x0a; xe4; xb9;
  x8f; x0a; xe4; xb9; x8e; x0a; xe4; xbb;
  xa5; x0a; xe4; xbb; x98; x0a; xe4; xbb;
  x94; x0a; xe4; xbb; x95; x0a; xe4; xbb;
  x96; x0a; xe4; xbb; x97; x0a; xe4; xbb;
  xa3; x0a; xe4; xbb; xa4; x0a; xe4; xbb;
  x99; x0a; xe4; xbb; x9e; x0a; xe5; x85;
  x85; x0a; xe5; x85; x84; x0a; xe5; x86;
  x89; x0a; xe5; x86; x8a; x0a; xe5; x86;
  xac; x0a; xe5; x87; xb9; x0a; xe5; x87;
  xba; x0a; xe5; x87; xb8; x0a; xe5; x88;
  x8a; x0a; xe5; x8a; xa0; x0a; xe5; x8a;
  x9f; x0a; xe5; x8c; x85; x0a; xe5; x8c;
  x86; x0a; xe5; x8c; x97; x0a; xe5; x8c;
  x9d; x0a; xe4; xbb; x9f; x0a; xe5; x8d;
  x8a; x0a; xe5; x8d; x89; x0a; xe5; x8d;
  xa1; x0a; xe5; x8d; xa0; x0a; xe5; x8d;
  xaf; x0a; xe5; x8d; xae; x0a; xe5; x8e;
  xbb; x0a; xe5; x8f; xaf; x0a; xe5; x8f;
  xa4; x0a; xe5; x8f; xb3; x0a; xe5; x8f;
  xac; x0a; xe5; x8f; xae; x0a; xe5; x8f;
  xa9; x0a; xe5; x8f; xa8; x0a; xe5; x8f;
  xbc; x0a; xe5; x8f; xb8; x0a; xe5; x8f;
  xb5; x0a; xe5; x8f; xab; x0a; xe5; x8f
].
(* tests/test_data/whatwg/big5_whatwg_test_encode_in.txt, entries 19712..19967 *)
Definition big5_encode_in_77 : list byte := [
  xa6; x0a; xe5; x8f; xaa; x0a; xe5; x8f;
  xb2; x0a; xe5; x8f; xb1; x0a; xe5; x8f;
  xb0; x0a; xe5; x8f; xa5; x0a; xe5; x8f;
  xad; x0a; xe5; x8f; xbb; x0a; xe5; x9b;
  x9b; x0a; xe5; x9b; x9a; x0a; xe5; xa4;
  x96; x0a; xe5; xa4; xae; x0a; xe5; xa4;
  xb1; x0a; xe5; xa5; xb4; x0a; xe5; xa5;
  xb6; x0a; xe5; xad; x95; x0a; xe5; xae;
  x83; x0a; xe5; xb0; xbc; x0a; xe5; xb7;
  xa8; x0a; xe5; xb7; xa7; x0a; xe5; xb7;
  xa6; x0a; xe5; xb8; x82; x0a; xe5; xb8;
  x83; x0a; xe5; xb9; xb3; x0a; xe5; xb9;
  xbc; x0a; xe5; xbc; x81; x0a; xe5; xbc;
  x98; x0a; xe5; xbc; x97; x0a; xe5; xbf;
  x85; x0a; xe6; x88; x8a; x0a; xe6; x89;
  x93; x0a; xe6; x89; x94; x0a; xe6; x89;
  x92; x0a; xe6; x89; x91; x0a; xe6; x96;
  xa5; x0a; xe6; x97; xa6; x0a; xe6; x9c;
  xae; x0a; xe6; x9c; xac; x0a; xe6; x9c;
  xaa; x0a; xe6; x9c; xab; x0a; xe6; x9c;
  xad; x0a; xe6; xad; xa3; x0a; xe6; xaf;
  x8d; x0a; xe6; xb0; x91; x0a; xe6; xb0;
  x90; x0a; xe6; xb0; xb8; x0a; xe6; xb1;
  x81; x0a; xe6; xb1; x80; x0a; xe6; xb0;
  xbe; x0a; xe7; x8a; xaf; x0a; xe7; x8e;
  x84; x0a; xe7; x8e; x89; x0a; xe7; x93;
  x9c; x0a; xe7; x93; xa6; x0a; xe7; x94;
  x98; x0a; xe7; x94; x9f; x0a; xe7; x94;
  xa8; x0a; xe7; x94; xa9; x0a; xe7; x94;
  xb0; x0a; xe7; x94; xb1; x0a; xe7; x94;
  xb2; x0a; xe7; x94; xb3; x0a; xe7; x96;
  x8b; x0a; xe7; x99; xbd; x0a; xe7; x9a
].
(* tests/test_data/whatwg/big5_whatwg_test_encode_in.txt, entries 19968..20223 *)
Definition big5_encode_in_78 : list byte := [
  xae; x0a; xe7; x9a; xbf; x0a; xe7; x9b;
  xae; x0a; xe7; x9f; x9b; x0a; xe7; x9f;
  xa2; x0a; xe7; x9f; xb3; x0a; xe7; xa4;
  xba; x0a; xe7; xa6; xbe; x0a; xe7; xa9;
  xb4; x0a; xe7; xab; x8b; x0a; xe4; xb8;
  x9e; x0a; xe4; xb8; x9f; x0a; xe4; xb9;
  x92; x0a; xe4; xb9; x93; x0a; xe4; xb9;
  xa9; x0a; xe4; xba; x99; x0a; xe4; xba;
  xa4; x0a; xe4; xba; xa6; x0a; xe4; xba;
  xa5; x0a; xe4; xbb; xbf; x0a; xe4; xbc;
  x89; x0a; xe4; xbc; x99; x0a; xe4; xbc;
  x8a; x0a; xe4; xbc; x95; x0a; xe4; xbc;
  x8d; x0a; xe4; xbc; x90; x0a; xe4; xbc;
  x91; x0a; xe4; xbc; x8f; x0a; xe4; xbb;
  xb2; x0a; xe4; xbb; xb6; x0a; xe4; xbb;
  xbb; x0a; xe4; xbb; xb0; x0a; xe4; xbb;
  xb3; x0a; xe4; xbb; xbd; x0a; xe4; xbc;
  x81; x0a; xe4; xbc; x8b; x0a; xe5; x85;
  x89; x0a; xe5; x85; x87; x0a; xe5; x85;
  x86; x0a; xe5; x85; x88; x0a; xe5; x85;
  xa8; x0a; xe5; x85; xb1; x0a; xe5; x86;
  x8d; x0a; xe5; x86; xb0; x0a; xe5; x88;
  x97; x0a; xe5; x88; x91; x0a; xe5; x88;
  x92; x0a; xe5; x88; x8e; x0a; xe5; x88;
  x96; x0a; xe5; x8a; xa3; x0a; xe5; x8c;
  x88; x0a; xe5; x8c; xa1; x0a; xe5; x8c;
  xa0; x0a; xe5; x8d; xb0; x0a; xe5; x8d;
  xb1; x0a; xe5; x90; x89; x0a; xe5; x90;
  x8f; x0a; xe5; x90; x8c; x0a; xe5; x90;
  x8a; x0a; xe5; x90; x90; x0a; xe5; x90;
  x81; x0a; xe5; x90; x8b; x0a; xe5; x90;
  x84; x0a; xe5; x90; x91; x0a; xe5; x90
].
(* tests/test_data/whatwg/big5_whatwg_test_encode_in.txt, entries 20224..20479 *)
Definition big5_encode_in_79 : list byte := [
  x8d; x0a; xe5; x90; x88; x0a; xe5; x90;
  x83; x0a; xe5; x90; x8e; x0a; xe5; x90;
  x86; x0a; xe5; x90; x92; x0a; xe5; x9b;
  xa0; x0a; xe5; x9b; x9e; x0a; xe5; x9b;
  x9d; x0a; xe5; x9c; xb3; x0a; xe5; x9c;
  xb0; x0a; xe5; x9c; xa8; x0a; xe5; x9c;
  xad; x0a; xe5; x9c; xac; x0a; xe5; x9c;
  xaf; x0a; xe5; x9c; xa9; x0a; xe5; xa4;
  x99; x0a; xe5; xa4; x9a; x0a; xe5; xa4;
  xb7; x0a; xe5; xa4; xb8; x0a; xe5; xa6;
  x84; x0a; xe5; xa5; xb8; x0a; xe5; xa6;
  x83; x0a; xe5; xa5; xbd; x0a; xe5; xa5;
  xb9; x0a; xe5; xa6; x82; x0a; xe5; xa6;
  x81; x0a; xe5; xad; x97; x0a; xe5; xad;
  x98; x0a; xe5; xae; x87; x0a; xe5; xae;
  x88; x0a; xe5; xae; x85; x0a; xe5; xae;
  x89; x0a; xe5; xaf; xba; x0a; xe5; xb0;
  x96; x0a; xe5; xb1; xb9; x0a; xe5; xb7;
  x9e; x0a; xe5; xb8; x86; x0a; xe5; xb9;
  xb6; x0a; xe5; xb9; xb4; x0a; xe5; xbc;
  x8f; x0a; xe5; xbc; x9b; x0a; xe5; xbf;
  x99; x0a; xe5; xbf; x96; x0a; xe6; x88;
  x8e; x0a; xe6; x88; x8c; x0a; xe6; x88;
  x8d; x0a; xe6; x88; x90; x0a; xe6; x89;
  xa3; x0a; xe6; x89; x9b; x0a; xe6; x89;
  x98; x0a; xe6; x94; xb6; x0a; xe6; x97;
  xa9; x0a; xe6; x97; xa8; x0a; xe6; x97;
  xac; x0a; xe6; x97; xad; x0a; xe6; x9b;
  xb2; x0a; xe6; x9b; xb3; x0a; xe6; x9c;
  x89; x0a; xe6; x9c; xbd; x0a; xe6; x9c;
  xb4; x0a; xe6; x9c; xb1; x0a; xe6; x9c;
  xb5; x0a; xe6; xac; xa1; x0a; xe6; xad
].
(* tests/test_data/whatwg/big5_whatwg_test_encode_in.txt, entries 20480..20735 *)
Definition big5_encode_in_80 : list byte := [
  xa4; x0a; xe6; xad; xbb; x0a; xe6; xb0;
  x96; x0a; xe6; xb1; x9d; x0a; xe6; xb1;
  x97; x0a; xe6; xb1; x99; x0a; xe6; xb1;
  x9f; x0a; xe6; xb1; xa0; x0a; xe6; xb1;
  x90; x0a; xe6; xb1; x95; x0a; xe6; xb1;
  xa1; x0a; xe6; xb1; x9b; x0a; xe6; xb1;
  x8d; x0a; xe6; xb1; x8e; x0a; xe7; x81;
  xb0; x0a; xe7; x89; x9f; x0a; xe7; x89;
  x9d; x0a; xe7; x99; xbe; x0a; xe7; xab;
  xb9; x0a; xe7; xb1; xb3; x0a; xe7; xb3;
  xb8; x0a; xe7; xbc; xb6; x0a; xe7; xbe;
  x8a; x0a; xe7; xbe; xbd; x0a; xe8; x80;
  x81; x0a; xe8; x80; x83; x0a; xe8; x80;
  x8c; x0a; xe8; x80; x92; x0a; xe8; x80;
  xb3; x0a; xe8; x81; xbf; x0a; xe8; x82;
  x89; x0a; xe8; x82; x8b; x0a; xe8; x82;
  x8c; x0a; xe8; x87; xa3; x0a; xe8; x87;
  xaa; x0a; xe8; x87; xb3; x0a; xe8; x87;
  xbc; x0a; xe8; x88; x8c; x0a; xe8; x88;
  x9b; x0a; xe8; x88; x9f; x0a; xe8; x89;
  xae; x0a; xe8; x89; xb2; x0a; xe8; x89;
  xbe; x0a; xe8; x99; xab; x0a; xe8; xa1;
  x80; x0a; xe8; xa1; x8c; x0a; xe8; xa1;
  xa3; x0a; xe8; xa5; xbf; x0a; xe9; x98;
  xa1; x0a; xe4; xb8; xb2; x0a; xe4; xba;
  xa8; x0a; xe4; xbd; x8d; x0a; xe4; xbd;
  x8f; x0a; xe4; xbd; x87; x0a; xe4; xbd;
  x97; x0a; xe4; xbd; x9e; x0a; xe4; xbc;
  xb4; x0a; xe4; xbd; x9b; x0a; xe4; xbd;
  x95; x0a; xe4; xbc; xb0; x0a; xe4; xbd;
  x90; x0a; xe4; xbd; x91; x0a; xe4; xbc;
  xbd; x0a; xe4; xbc; xba; x0a; xe4; xbc
].
(* tests/test_data/whatwg/big5_whatwg_test_encode_in.txt, entries 20736..20991 *)
Definition big5_encode_in_81 : list byte := [
  xb8; x0a; xe4; xbd; x83; x0a; xe4; xbd;
  x94; x0a; xe4; xbc; xbc; x0a; xe4; xbd;
  x86; x0a; xe4; xbd; xa3; x0a; xe4; xbd;
  x9c; x0a; xe4; xbd; xa0; x0a; xe4; xbc;
  xaf; x0a; xe4; xbd; x8e; x0a; xe4; xbc;
  xb6; x0a; xe4; xbd; x99; x0a; xe4; xbd;
  x9d; x0a; xe4; xbd; x88; x0a; xe4; xbd;
  x9a; x0a; xe5; x85; x8c; x0a; xe5; x85;
  x8b; x0a; xe5; x85; x8d; x0a; xe5; x85;
  xb5; x0a; xe5; x86; xb6; x0a; xe5; x86;
  xb7; x0a; xe5; x88; xa5; x0a; xe5; x88;
  xa4; x0a; xe5; x88; xa9; x0a; xe5; x88;
  xaa; x0a; xe5; x88; xa8; x0a; xe5; x8a;
  xab; x0a; xe5; x8a; xa9; x0a; xe5; x8a;
  xaa; x0a; xe5; x8a; xac; x0a; xe5; x8c;
  xa3; x0a; xe5; x8d; xb3; x0a; xe5; x8d;
  xb5; x0a; xe5; x90; x9d; x0a; xe5; x90;
  xad; x0a; xe5; x90; x9e; x0a; xe5; x90;
  xbe; x0a; xe5; x90; xa6; x0a; xe5; x91;
  x8e; x0a; xe5; x90; xa7; x0a; xe5; x91;
  x86; x0a; xe5; x91; x83; x0a; xe5; x90;
  xb3; x0a; xe5; x91; x88; x0a; xe5; x91;
  x82; x0a; xe5; x90; x9b; x0a; xe5; x90;
  xa9; x0a; xe5; x91; x8a; x0a; xe5; x90;
  xb9; x0a; xe5; x90; xbb; x0a; xe5; x90;
  xb8; x0a; xe5; x90; xae; x0a; xe5; x90;
  xb5; x0a; xe5; x90; xb6; x0a; xe5; x90;
  xa0; x0a; xe5; x90; xbc; x0a; xe5; x91;
  x80; x0a; xe5; x90; xb1; x0a; xe5; x90;
  xab; x0a; xe5; x90; x9f; x0a; xe5; x90;
  xac; x0a; xe5; x9b; xaa; x0a; xe5; x9b;
  xb0; x0a; xe5; x9b; xa4; x0a; xe5; x9b
].
(* tests/test_data/whatwg/big5_whatwg_test_encode_in.txt, entries 20992..21247 *)
Definition big5_encode_in_82 : list byte := [
  xab; x0a; xe5; x9d; x8a; x0a; xe5; x9d;
  x91; x0a; xe5; x9d; x80; x0a; xe5; x9d;
  x8d; x0a; xe5; x9d; x87; x0a; xe5; x9d;
  x8e; x0a; xe5; x9c; xbe; x0a; xe5; x9d;
  x90; x0a; xe5; x9d; x8f; x0a; xe5; x9c;
  xbb; x0a; xe5; xa3; xaf; x0a; xe5; xa4;
  xbe; x0a; xe5; xa6; x9d; x0a; xe5; xa6;
  x92; x0a; xe5; xa6; xa8; x0a; xe5; xa6;
  x9e; x0a; xe5; xa6; xa3; x0a; xe5; xa6;
  x99; x0a; xe5; xa6; x96; x0a; xe5; xa6;
  x8d; x0a; xe5; xa6; xa4; x0a; xe5; xa6;
  x93; x0a; xe5; xa6; x8a; x0a; xe5; xa6;
  xa5; x0a; xe5; xad; x9d; x0a; xe5; xad;
  x9c; x0a; xe5; xad; x9a; x0a; xe5; xad;
  x9b; x0a; xe5; xae; x8c; x0a; xe5; xae;
  x8b; x0a; xe5; xae; x8f; x0a; xe5; xb0;
  xac; x0a; xe5; xb1; x80; x0a; xe5; xb1;
  x81; x0a; xe5; xb0; xbf; x0a; xe5; xb0;
  xbe; x0a; xe5; xb2; x90; x0a; xe5; xb2;
  x91; x0a; xe5; xb2; x94; x0a; xe5; xb2;
  x8c; x0a; xe5; xb7; xab; x0a; xe5; xb8;
  x8c; x0a; xe5; xba; x8f; x0a; xe5; xba;
  x87; x0a; xe5; xba; x8a; x0a; xe5; xbb;
  xb7; x0a; xe5; xbc; x84; x0a; xe5; xbc;
  x9f; x0a; xe5; xbd; xa4; x0a; xe5; xbd;
  xa2; x0a; xe5; xbd; xb7; x0a; xe5; xbd;
  xb9; x0a; xe5; xbf; x98; x0a; xe5; xbf;
  x8c; x0a; xe5; xbf; x97; x0a; xe5; xbf;
  x8d; x0a; xe5; xbf; xb1; x0a; xe5; xbf;
  xab; x0a; xe5; xbf; xb8; x0a; xe5; xbf;
  xaa; x0a; xe6; x88; x92; x0a; xe6; x88;
  x91; x0a; xe6; x8a; x84; x0a; xe6; x8a
].
(* tests/test_data/whatwg/big5_whatwg_test_encode_in.txt, entries 21248..21503 *)
Definition big5_encode_in_83 : list byte := [
  x97; x0a; xe6; x8a; x96; x0a; xe6; x8a;
  x80; x0a; xe6; x89; xb6; x0a; xe6; x8a;
  x89; x0a; xe6; x89; xad; x0a; xe6; x8a;
  x8a; x0a; xe6; x89; xbc; x0a; xe6; x89;
  xbe; x0a; xe6; x89; xb9; x0a; xe6; x89;
  xb3; x0a; xe6; x8a; x92; x0a; xe6; x89;
  xaf; x0a; xe6; x8a; x98; x0a; xe6; x89;
  xae; x0a; xe6; x8a; x95; x0a; xe6; x8a;
  x93; x0a; xe6; x8a; x91; x0a; xe6; x8a;
  x86; x0a; xe6; x94; xb9; x0a; xe6; x94;
  xbb; x0a; xe6; x94; xb8; x0a; xe6; x97;
  xb1; x0a; xe6; x9b; xb4; x0a; xe6; x9d;
  x9f; x0a; xe6; x9d; x8e; x0a; xe6; x9d;
  x8f; x0a; xe6; x9d; x90; x0a; xe6; x9d;
  x91; x0a; xe6; x9d; x9c; x0a; xe6; x9d;
  x96; x0a; xe6; x9d; x9e; x0a; xe6; x9d;
  x89; x0a; xe6; x9d; x86; x0a; xe6; x9d;
  xa0; x0a; xe6; x9d; x93; x0a; xe6; x9d;
  x97; x0a; xe6; xad; xa5; x0a; xe6; xaf;
  x8f; x0a; xe6; xb1; x82; x0a; xe6; xb1;
  x9e; x0a; xe6; xb2; x99; x0a; xe6; xb2;
  x81; x0a; xe6; xb2; x88; x0a; xe6; xb2;
  x89; x0a; xe6; xb2; x85; x0a; xe6; xb2;
  x9b; x0a; xe6; xb1; xaa; x0a; xe6; xb1;
  xba; x0a; xe6; xb2; x90; x0a; xe6; xb1;
  xb0; x0a; xe6; xb2; x8c; x0a; xe6; xb1;
  xa8; x0a; xe6; xb2; x96; x0a; xe6; xb2;
  x92; x0a; xe6; xb1; xbd; x0a; xe6; xb2;
  x83; x0a; xe6; xb1; xb2; x0a; xe6; xb1;
  xbe; x0a; xe6; xb1; xb4; x0a; xe6; xb2;
  x86; x0a; xe6; xb1; xb6; x0a; xe6; xb2;
  x8d; x0a; xe6; xb2; x94; x0a; xe6; xb2
].
(* tests/test_data/whatwg/big5_whatwg_test_encode_in.txt, entries 21504..21759 *)
Definition big5_encode_in_84 : list byte := [
  x98; x0a; xe6; xb2; x82; x0a; xe7; x81;
  xb6; x0a; xe7; x81; xbc; x0a; xe7; x81;
  xbd; x0a; xe7; x81; xb8; x0a; xe7; x89;
  xa2; x0a; xe7; x89; xa1; x0a; xe7; x89;
  xa0; x0a; xe7; x8b; x84; x0a; xe7; x8b;
  x82; x0a; xe7; x8e; x96; x0a; xe7; x94;
  xac; x0a; xe7; x94; xab; x0a; xe7; x94;
  xb7; x0a; xe7; x94; xb8; x0a; xe7; x9a;
  x82; x0a; xe7; x9b; xaf; x0a; xe7; x9f;
  xa3; x0a; xe7; xa7; x81; x0a; xe7; xa7;
  x80; x0a; xe7; xa6; xbf; x0a; xe7; xa9;
  xb6; x0a; xe7; xb3; xbb; x0a; xe7; xbd;
  x95; x0a; xe8; x82; x96; x0a; xe8; x82;
  x93; x0a; xe8; x82; x9d; x0a; xe8; x82;
  x98; x0a; xe8; x82; x9b; x0a; xe8; x82;
  x9a; x0a; xe8; x82; xb2; x0a; xe8; x89;
  xaf; x0a; xe8; x8a; x92; x0a; xe8; x8a;
  x8b; x0a; xe8; x8a; x8d; x0a; xe8; xa6;
  x8b; x0a; xe8; xa7; x92; x0a; xe8; xa8;
  x80; x0a; xe8; xb0; xb7; x0a; xe8; xb1;
  x86; x0a; xe8; xb1; x95; x0a; xe8; xb2;
  x9d; x0a; xe8; xb5; xa4; x0a; xe8; xb5;
  xb0; x0a; xe8; xb6; xb3; x0a; xe8; xba;
  xab; x0a; xe8; xbb; x8a; x0a; xe8; xbe;
  x9b; x0a; xe8; xbe; xb0; x0a; xe8; xbf;
  x82; x0a; xe8; xbf; x86; x0a; xe8; xbf;
  x85; x0a; xe8; xbf; x84; x0a; xe5; xb7;
  xa1; x0a; xe9; x82; x91; x0a; xe9; x82;
  xa2; x0a; xe9; x82; xaa; x0a; xe9; x82;
  xa6; x0a; xe9; x82; xa3; x0a; xe9; x85;
  x89; x0a; xe9; x87; x86; x0a; xe9; x87;
  x8c; x0a; xe9; x98; xb2; x0a; xe9; x98
].
(* tests/test_data/whatwg/big5_whatwg_test_encode_in.txt, entries 21760..22015 *)
Definition big5_encode_in_85 : list byte := [
  xae; x0a; xe9; x98; xb1; x0a; xe9; x98;
  xaa; x0a; xe9; x98; xac; x0a; xe4; xb8;
  xa6; x0a; xe4; xb9; x96; x0a; xe4; xb9;
  xb3; x0a; xe4; xba; x8b; x0a; xe4; xba;
  x9b; x0a; xe4; xba; x9e; x0a; xe4; xba;
  xab; x0a; xe4; xba; xac; x0a; xe4; xbd;
  xaf; x0a; xe4; xbe; x9d; x0a; xe4; xbe;
  x8d; x0a; xe4; xbd; xb3; x0a; xe4; xbd;
  xbf; x0a; xe4; xbd; xac; x0a; xe4; xbe;
  x9b; x0a; xe4; xbe; x8b; x0a; xe4; xbe;
  x86; x0a; xe4; xbe; x83; x0a; xe4; xbd;
  xb0; x0a; xe4; xbd; xb5; x0a; xe4; xbe;
  x88; x0a; xe4; xbd; xa9; x0a; xe4; xbd;
  xbb; x0a; xe4; xbe; x96; x0a; xe4; xbd;
  xbe; x0a; xe4; xbe; x8f; x0a; xe4; xbe;
  x91; x0a; xe4; xbd; xba; x0a; xe5; x85;
  x94; x0a; xe5; x85; x92; x0a; xe5; x85;
  x95; x0a; xe5; x85; xa9; x0a; xe5; x85;
  xb7; x0a; xe5; x85; xb6; x0a; xe5; x85;
  xb8; x0a; xe5; x86; xbd; x0a; xe5; x87;
  xbd; x0a; xe5; x88; xbb; x0a; xe5; x88;
  xb8; x0a; xe5; x88; xb7; x0a; xe5; x88;
  xba; x0a; xe5; x88; xb0; x0a; xe5; x88;
  xae; x0a; xe5; x88; xb6; x0a; xe5; x89;
  x81; x0a; xe5; x8a; xbe; x0a; xe5; x8a;
  xbb; x0a; xe5; x8d; x92; x0a; xe5; x8d;
  x94; x0a; xe5; x8d; x93; x0a; xe5; x8d;
  x91; x0a; xe5; x8d; xa6; x0a; xe5; x8d;
  xb7; x0a; xe5; x8d; xb8; x0a; xe5; x8d;
  xb9; x0a; xe5; x8f; x96; x0a; xe5; x8f;
  x94; x0a; xe5; x8f; x97; x0a; xe5; x91;
  xb3; x0a; xe5; x91; xb5; x0a; xe5; x92
].
(* tests/test_data/whatwg/big5_whatwg_test_encode_in.txt, entries 22016..22271 *)
Definition big5_encode_in_86 : list byte := [
  x96; x0a; xe5; x91; xb8; x0a; xe5; x92;
  x95; x0a; xe5; x92; x80; x0a; xe5; x91;
  xbb; x0a; xe5; x91; xb7; x0a; xe5; x92;
  x84; x0a; xe5; x92; x92; x0a; xe5; x92;
  x86; x0a; xe5; x91; xbc; x0a; xe5; x92;
  x90; x0a; xe5; x91; xb1; x0a; xe5; x91;
  xb6; x0a; xe5; x92; x8c; x0a; xe5; x92;
  x9a; x0a; xe5; x91; xa2; x0a; xe5; x91;
  xa8; x0a; xe5; x92; x8b; x0a; xe5; x91;
  xbd; x0a; xe5; x92; x8e; x0a; xe5; x9b;
  xba; x0a; xe5; x9e; x83; x0a; xe5; x9d;
  xb7; x0a; xe5; x9d; xaa; x0a; xe5; x9d;
  xa9; x0a; xe5; x9d; xa1; x0a; xe5; x9d;
  xa6; x0a; xe5; x9d; xa4; x0a; xe5; x9d;
  xbc; x0a; xe5; xa4; x9c; x0a; xe5; xa5;
  x89; x0a; xe5; xa5; x87; x0a; xe5; xa5;
  x88; x0a; xe5; xa5; x84; x0a; xe5; xa5;
  x94; x0a; xe5; xa6; xbe; x0a; xe5; xa6;
  xbb; x0a; xe5; xa7; x94; x0a; xe5; xa6;
  xb9; x0a; xe5; xa6; xae; x0a; xe5; xa7;
  x91; x0a; xe5; xa7; x86; x0a; xe5; xa7;
  x90; x0a; xe5; xa7; x8d; x0a; xe5; xa7;
  x8b; x0a; xe5; xa7; x93; x0a; xe5; xa7;
  x8a; x0a; xe5; xa6; xaf; x0a; xe5; xa6;
  xb3; x0a; xe5; xa7; x92; x0a; xe5; xa7;
  x85; x0a; xe5; xad; x9f; x0a; xe5; xad;
  xa4; x0a; xe5; xad; xa3; x0a; xe5; xae;
  x97; x0a; xe5; xae; x9a; x0a; xe5; xae;
  x98; x0a; xe5; xae; x9c; x0a; xe5; xae;
  x99; x0a; xe5; xae; x9b; x0a; xe5; xb0;
  x9a; x0a; xe5; xb1; x88; x0a; xe5; xb1;
  x85; x0a; xe5; xb1; x86; x0a; xe5; xb2
].
(* tests/test_data/whatwg/big5_whatwg_test_encode_in.txt, entries 22272..22527 *)
Definition big5_encode_in_87 : list byte := [
  xb7; x0a; xe5; xb2; xa1; x0a; xe5; xb2;
  xb8; x0a; xe5; xb2; xa9; x0a; xe5; xb2;
  xab; x0a; xe5; xb2; xb1; x0a; xe5; xb2;
  xb3; x0a; xe5; xb8; x98; x0a; xe5; xb8;
  x9a; x0a; xe5; xb8; x96; x0a; xe5; xb8;
  x95; x0a; xe5; xb8; x9b; x0a; xe5; xb8;
  x91; x0a; xe5; xb9; xb8; x0a; xe5; xba;
  x9a; x0a; xe5; xba; x97; x0a; xe5; xba;
  x9c; x0a; xe5; xba; x95; x0a; xe5; xba;
  x96; x0a; xe5; xbb; xb6; x0a; xe5; xbc;
  xa6; x0a; xe5; xbc; xa7; x0a; xe5; xbc;
  xa9; x0a; xe5; xbe; x80; x0a; xe5; xbe;
  x81; x0a; xe5; xbd; xbf; x0a; xe5; xbd;
  xbc; x0a; xe5; xbf; x9d; x0a; xe5; xbf;
  xa0; x0a; xe5; xbf; xbd; x0a; xe5; xbf;
  xb5; x0a; xe5; xbf; xbf; x0a; xe6; x80;
  x8f; x0a; xe6; x80; x94; x0a; xe6; x80;
  xaf; x0a; xe6; x80; xb5; x0a; xe6; x80;
  x96; x0a; xe6; x80; xaa; x0a; xe6; x80;
  x95; x0a; xe6; x80; xa1; x0a; xe6; x80;
  xa7; x0a; xe6; x80; xa9; x0a; xe6; x80;
  xab; x0a; xe6; x80; x9b; x0a; xe6; x88;
  x96; x0a; xe6; x88; x95; x0a; xe6; x88;
  xbf; x0a; xe6; x88; xbe; x0a; xe6; x89;
  x80; x0a; xe6; x89; xbf; x0a; xe6; x8b;
  x89; x0a; xe6; x8b; x8c; x0a; xe6; x8b;
  x84; x0a; xe6; x8a; xbf; x0a; xe6; x8b;
  x82; x0a; xe6; x8a; xb9; x0a; xe6; x8b;
  x92; x0a; xe6; x8b; x9b; x0a; xe6; x8a;
  xab; x0a; xe6; x8b; x93; x0a; xe6; x8b;
  x94; x0a; xe6; x8b; x8b; x0a; xe6; x8b;
  x88; x0a; xe6; x8a; xa8; x0a; xe6; x8a
].
(* tests/test_data/whatwg/big5_whatwg_test_encode_in.txt, entries 22528..22783 *)
Definition big5_encode_in_88 : list byte := [
  xbd; x0a; xe6; x8a; xbc; x0a; xe6; x8b;
  x99; x0a; xe6; x8b; x87; x0a; xe6; x8b;
  x8d; x0a; xe6; x8a; xb5; x0a; xe6; x8b;
  x9a; x0a; xe6; x8a; xb1; x0a; xe6; x8b;
  x98; x0a; xe6; x8b; x96; x0a; xe6; x8b;
  x97; x0a; xe6; x8b; x86; x0a; xe6; x8a;
  xac; x0a; xe6; x94; xbe; x0a; xe6; x96;
  xa7; x0a; xe6; x96; xbc; x0a; xe6; x97;
  xba; x0a; xe6; x98; x94; x0a; xe6; x98;
  x93; x0a; xe6; x98; x8c; x0a; xe6; x98;
  x86; x0a; xe6; x98; x82; x0a; xe6; x98;
  x8e; x0a; xe6; x98; x80; x0a; xe6; x98;
  x8f; x0a; xe6; x98; x95; x0a; xe6; x98;
  x8a; x0a; xe6; x98; x87; x0a; xe6; x9c;
  x8d; x0a; xe6; x9c; x8b; x0a; xe6; x9d;
  xad; x0a; xe6; x9e; x8b; x0a; xe6; x9e;
  x95; x0a; xe6; x9d; xb1; x0a; xe6; x9e;
  x9c; x0a; xe6; x9d; xb3; x0a; xe6; x9d;
  xb7; x0a; xe6; x9e; x87; x0a; xe6; x9e;
  x9d; x0a; xe6; x9e; x97; x0a; xe6; x9d;
  xaf; x0a; xe6; x9d; xb0; x0a; xe6; x9d;
  xbf; x0a; xe6; x9e; x89; x0a; xe6; x9d;
  xbe; x0a; xe6; x9e; x90; x0a; xe6; x9d;
  xb5; x0a; xe6; x9e; x9a; x0a; xe6; x9e;
  x93; x0a; xe6; x9d; xbc; x0a; xe6; x9d;
  xaa; x0a; xe6; x9d; xb2; x0a; xe6; xac;
  xa3; x0a; xe6; xad; xa6; x0a; xe6; xad;
  xa7; x0a; xe6; xad; xbf; x0a; xe6; xb0;
  x93; x0a; xe6; xb0; x9b; x0a; xe6; xb3;
  xa3; x0a; xe6; xb3; xa8; x0a; xe6; xb3;
  xb3; x0a; xe6; xb2; xb1; x0a; xe6; xb3;
  x8c; x0a; xe6; xb3; xa5; x0a; xe6; xb2
].
(* tests/test_data/whatwg/big5_whatwg_test_encode_in.txt, entries 22784..23039 *)
Definition big5_encode_in_89 : list byte := [
  xb3; x0a; xe6; xb2; xbd; x0a; xe6; xb2;
  xbe; x0a; xe6; xb2; xbc; x0a; xe6; xb3;
  xa2; x0a; xe6; xb2; xab; x0a; xe6; xb3;
  x95; x0a; xe6; xb3; x93; x0a; xe6; xb2;
  xb8; x0a; xe6; xb3; x84; x0a; xe6; xb2;
  xb9; x0a; xe6; xb3; x81; x0a; xe6; xb2;
  xae; x0a; xe6; xb3; x97; x0a; xe6; xb3;
  x85; x0a; xe6; xb3; xb1; x0a; xe6; xb2;
  xbf; x0a; xe6; xb2; xbb; x0a; xe6; xb3;
  xa1; x0a; xe6; xb3; x9b; x0a; xe6; xb3;
  x8a; x0a; xe6; xb2; xac; x0a; xe6; xb3;
  xaf; x0a; xe6; xb3; x9c; x0a; xe6; xb3;
  x96; x0a; xe6; xb3; xa0; x0a; xe7; x82;
  x95; x0a; xe7; x82; x8e; x0a; xe7; x82;
  x92; x0a; xe7; x82; x8a; x0a; xe7; x82;
  x99; x0a; xe7; x88; xac; x0a; xe7; x88;
  xad; x0a; xe7; x88; xb8; x0a; xe7; x89;
  x88; x0a; xe7; x89; xa7; x0a; xe7; x89;
  xa9; x0a; xe7; x8b; x80; x0a; xe7; x8b;
  x8e; x0a; xe7; x8b; x99; x0a; xe7; x8b;
  x97; x0a; xe7; x8b; x90; x0a; xe7; x8e;
  xa9; x0a; xe7; x8e; xa8; x0a; xe7; x8e;
  x9f; x0a; xe7; x8e; xab; x0a; xe7; x8e;
  xa5; x0a; xe7; x94; xbd; x0a; xe7; x96;
  x9d; x0a; xe7; x96; x99; x0a; xe7; x96;
  x9a; x0a; xe7; x9a; x84; x0a; xe7; x9b;
  x82; x0a; xe7; x9b; xb2; x0a; xe7; x9b;
  xb4; x0a; xe7; x9f; xa5; x0a; xe7; x9f;
  xbd; x0a; xe7; xa4; xbe; x0a; xe7; xa5;
  x80; x0a; xe7; xa5; x81; x0a; xe7; xa7;
  x89; x0a; xe7; xa7; x88; x0a; xe7; xa9;
  xba; x0a; xe7; xa9; xb9; x0a; xe7; xab
].
(* tests/test_data/whatwg/big5_whatwg_test_encode_in.txt, entries 23040..23295 *)
Definition big5_encode_in_90 : list byte := [
  xba; x0a; xe7; xb3; xbe; x0a; xe7; xbd;
  x94; x0a; xe7; xbe; x8c; x0a; xe7; xbe;
  x8b; x0a; xe8; x82; xba; x0a; xe8; x82;
  xa5; x0a; xe8; x82; xa2; x0a; xe8; x82;
  xb1; x0a; xe8; x82; xa1; x0a; xe8; x82;
  xab; x0a; xe8; x82; xa9; x0a; xe8; x82;
  xb4; x0a; xe8; x82; xaa; x0a; xe8; x82;
  xaf; x0a; xe8; x87; xa5; x0a; xe8; x87;
  xbe; x0a; xe8; x88; x8d; x0a; xe8; x8a;
  xb3; x0a; xe8; x8a; x9d; x0a; xe8; x8a;
  x99; x0a; xe8; x8a; xad; x0a; xe8; x8a;
  xbd; x0a; xe8; x8a; x9f; x0a; xe8; x8a;
  xb9; x0a; xe8; x8a; xb1; x0a; xe8; x8a;
  xac; x0a; xe8; x8a; xa5; x0a; xe8; x8a;
  xaf; x0a; xe8; x8a; xb8; x0a; xe8; x8a;
  xa3; x0a; xe8; x8a; xb0; x0a; xe8; x8a;
  xbe; x0a; xe8; x8a; xb7; x0a; xe8; x99;
  x8e; x0a; xe8; x99; xb1; x0a; xe5; x88;
  x9d; x0a; xe8; xa1; xa8; x0a; xe8; xbb;
  x8b; x0a; xe8; xbf; x8e; x0a; xe8; xbf;
  x94; x0a; xe8; xbf; x91; x0a; xe9; x82;
  xb5; x0a; xe9; x82; xb8; x0a; xe9; x82;
  xb1; x0a; xe9; x82; xb6; x0a; xe9; x87;
  x87; x0a; xe9; x87; x91; x0a; xe9; x95;
  xb7; x0a; xe9; x96; x80; x0a; xe9; x98;
  x9c; x0a; xe9; x99; x80; x0a; xe9; x98;
  xbf; x0a; xe9; x98; xbb; x0a; xe9; x99;
  x84; x0a; xe9; x99; x82; x0a; xe9; x9a;
  xb9; x0a; xe9; x9b; xa8; x0a; xe9; x9d;
  x92; x0a; xe9; x9d; x9e; x0a; xe4; xba;
  x9f; x0a; xe4; xba; xad; x0a; xe4; xba;
  xae; x0a; xe4; xbf; xa1; x0a; xe4; xbe
].
(* tests/test_data/whatwg/big5_whatwg_test_encode_in.txt, entries 23296..23551 *)
Definition big5_encode_in_91 : list byte := [
  xb5; x0a; xe4; xbe; xaf; x0a; xe4; xbe;
  xbf; x0a; xe4; xbf; xa0; x0a; xe4; xbf;
  x91; x0a; xe4; xbf; x8f; x0a; xe4; xbf;
  x9d; x0a; xe4; xbf; x83; x0a; xe4; xbe;
  xb6; x0a; xe4; xbf; x98; x0a; xe4; xbf;
  x9f; x0a; xe4; xbf; x8a; x0a; xe4; xbf;
  x97; x0a; xe4; xbe; xae; x0a; xe4; xbf;
  x90; x0a; xe4; xbf; x84; x0a; xe4; xbf;
  x82; x0a; xe4; xbf; x9a; x0a; xe4; xbf;
  x8e; x0a; xe4; xbf; x9e; x0a; xe4; xbe;
  xb7; x0a; xe5; x85; x97; x0a; xe5; x86;
  x92; x0a; xe5; x86; x91; x0a; xe5; x86;
  xa0; x0a; xe5; x89; x8e; x0a; xe5; x89;
  x83; x0a; xe5; x89; x8a; x0a; xe5; x89;
  x8d; x0a; xe5; x89; x8c; x0a; xe5; x89;
  x8b; x0a; xe5; x89; x87; x0a; xe5; x8b;
  x87; x0a; xe5; x8b; x89; x0a; xe5; x8b;
  x83; x0a; xe5; x8b; x81; x0a; xe5; x8c;
  x8d; x0a; xe5; x8d; x97; x0a; xe5; x8d;
  xbb; x0a; xe5; x8e; x9a; x0a; xe5; x8f;
  x9b; x0a; xe5; x92; xac; x0a; xe5; x93;
  x80; x0a; xe5; x92; xa8; x0a; xe5; x93;
  x8e; x0a; xe5; x93; x89; x0a; xe5; x92;
  xb8; x0a; xe5; x92; xa6; x0a; xe5; x92;
  xb3; x0a; xe5; x93; x87; x0a; xe5; x93;
  x82; x0a; xe5; x92; xbd; x0a; xe5; x92;
  xaa; x0a; xe5; x93; x81; x0a; xe5; x93;
  x84; x0a; xe5; x93; x88; x0a; xe5; x92;
  xaf; x0a; xe5; x92; xab; x0a; xe5; x92;
  xb1; x0a; xe5; x92; xbb; x0a; xe5; x92;
  xa9; x0a; xe5; x92; xa7; x0a; xe5; x92;
  xbf; x0a; xe5; x9b; xbf; x0a; xe5; x9e
].
(* tests/test_data/whatwg/big5_whatwg_test_encode_in.txt, entries 23552..23807 *)
Definition big5_encode_in_92 : list byte := [
  x82; x0a; xe5; x9e; x8b; x0a; xe5; x9e;
  xa0; x0a; xe5; x9e; xa3; x0a; xe5; x9e;
  xa2; x0a; xe5; x9f; x8e; x0a; xe5; x9e;
  xae; x0a; xe5; x9e; x93; x0a; xe5; xa5;
  x95; x0a; xe5; xa5; x91; x0a; xe5; xa5;
  x8f; x0a; xe5; xa5; x8e; x0a; xe5; xa5;
  x90; x0a; xe5; xa7; x9c; x0a; xe5; xa7;
  x98; x0a; xe5; xa7; xbf; x0a; xe5; xa7;
  xa3; x0a; xe5; xa7; xa8; x0a; xe5; xa8;
  x83; x0a; xe5; xa7; xa5; x0a; xe5; xa7;
  xaa; x0a; xe5; xa7; x9a; x0a; xe5; xa7;
  xa6; x0a; xe5; xa8; x81; x0a; xe5; xa7;
  xbb; x0a; xe5; xad; xa9; x0a; xe5; xae;
  xa3; x0a; xe5; xae; xa6; x0a; xe5; xae;
  xa4; x0a; xe5; xae; xa2; x0a; xe5; xae;
  xa5; x0a; xe5; xb0; x81; x0a; xe5; xb1;
  x8e; x0a; xe5; xb1; x8f; x0a; xe5; xb1;
  x8d; x0a; xe5; xb1; x8b; x0a; xe5; xb3;
  x99; x0a; xe5; xb3; x92; x0a; xe5; xb7;
  xb7; x0a; xe5; xb8; x9d; x0a; xe5; xb8;
  xa5; x0a; xe5; xb8; x9f; x0a; xe5; xb9;
  xbd; x0a; xe5; xba; xa0; x0a; xe5; xba;
  xa6; x0a; xe5; xbb; xba; x0a; xe5; xbc;
  x88; x0a; xe5; xbc; xad; x0a; xe5; xbd;
  xa5; x0a; xe5; xbe; x88; x0a; xe5; xbe;
  x85; x0a; xe5; xbe; x8a; x0a; xe5; xbe;
  x8b; x0a; xe5; xbe; x87; x0a; xe5; xbe;
  x8c; x0a; xe5; xbe; x89; x0a; xe6; x80;
  x92; x0a; xe6; x80; x9d; x0a; xe6; x80;
  xa0; x0a; xe6; x80; xa5; x0a; xe6; x80;
  x8e; x0a; xe6; x80; xa8; x0a; xe6; x81;
  x8d; x0a; xe6; x81; xb0; x0a; xe6; x81
].
(* tests/test_data/whatwg/big5_whatwg_test_encode_in.txt, entries 23808..24063 *)
Definition big5_encode_in_93 : list byte := [
  xa8; x0a; xe6; x81; x86; x0a; xe6; x81;
  x83; x0a; xe6; x81; xac; x0a; xe6; x81;
  xab; x0a; xe6; x81; xaa; x0a; xe6; x81;
  xa4; x0a; xe6; x89; x81; x0a; xe6; x8b;
  x9c; x0a; xe6; x8c; x96; x0a; xe6; x8c;
  x89; x0a; xe6; x8b; xbc; x0a; xe6; x8b;
  xad; x0a; xe6; x8c; x81; x0a; xe6; x8b;
  xae; x0a; xe6; x8b; xbd; x0a; xe6; x8c;
  x87; x0a; xe6; x8b; xb1; x0a; xe6; x8b;
  xb7; x0a; xe6; x8b; xaf; x0a; xe6; x8b;
  xac; x0a; xe6; x8b; xbe; x0a; xe6; x8b;
  xb4; x0a; xe6; x8c; x91; x0a; xe6; x8c;
  x82; x0a; xe6; x94; xbf; x0a; xe6; x95;
  x85; x0a; xe6; x96; xab; x0a; xe6; x96;
  xbd; x0a; xe6; x97; xa2; x0a; xe6; x98;
  xa5; x0a; xe6; x98; xad; x0a; xe6; x98;
  xa0; x0a; xe6; x98; xa7; x0a; xe6; x98;
  xaf; x0a; xe6; x98; x9f; x0a; xe6; x98;
  xa8; x0a; xe6; x98; xb1; x0a; xe6; x98;
  xa4; x0a; xe6; x9b; xb7; x0a; xe6; x9f;
  xbf; x0a; xe6; x9f; x93; x0a; xe6; x9f;
  xb1; x0a; xe6; x9f; x94; x0a; xe6; x9f;
  x90; x0a; xe6; x9f; xac; x0a; xe6; x9e;
  xb6; x0a; xe6; x9e; xaf; x0a; xe6; x9f;
  xb5; x0a; xe6; x9f; xa9; x0a; xe6; x9f;
  xaf; x0a; xe6; x9f; x84; x0a; xe6; x9f;
  x91; x0a; xe6; x9e; xb4; x0a; xe6; x9f;
  x9a; x0a; xe6; x9f; xa5; x0a; xe6; x9e;
  xb8; x0a; xe6; x9f; x8f; x0a; xe6; x9f;
  x9e; x0a; xe6; x9f; xb3; x0a; xe6; x9e;
  xb0; x0a; xe6; x9f; x99; x0a; xe6; x9f;
  xa2; x0a; xe6; x9f; x9d; x0a; xe6; x9f
].
(* tests/test_data/whatwg/big5_whatwg_test_encode_in.txt, entries 24064..24319 *)
Definition big5_encode_in_94 : list byte := [
  x92; x0a; xe6; xad; xaa; x0a; xe6; xae;
  x83; x0a; xe6; xae; x86; x0a; xe6; xae;
  xb5; x0a; xe6; xaf; x92; x0a; xe6; xaf;
  x97; x0a; xe6; xb0; x9f; x0a; xe6; xb3;
  x89; x0a; xe6; xb4; x8b; x0a; xe6; xb4;
  xb2; x0a; xe6; xb4; xaa; x0a; xe6; xb5;
  x81; x0a; xe6; xb4; xa5; x0a; xe6; xb4;
  x8c; x0a; xe6; xb4; xb1; x0a; xe6; xb4;
  x9e; x0a; xe6; xb4; x97; x0a; xe6; xb4;
  xbb; x0a; xe6; xb4; xbd; x0a; xe6; xb4;
  xbe; x0a; xe6; xb4; xb6; x0a; xe6; xb4;
  x9b; x0a; xe6; xb3; xb5; x0a; xe6; xb4;
  xb9; x0a; xe6; xb4; xa7; x0a; xe6; xb4;
  xb8; x0a; xe6; xb4; xa9; x0a; xe6; xb4;
  xae; x0a; xe6; xb4; xb5; x0a; xe6; xb4;
  x8e; x0a; xe6; xb4; xab; x0a; xe7; x82;
  xab; x0a; xe7; x82; xba; x0a; xe7; x82;
  xb3; x0a; xe7; x82; xac; x0a; xe7; x82;
  xaf; x0a; xe7; x82; xad; x0a; xe7; x82;
  xb8; x0a; xe7; x82; xae; x0a; xe7; x82;
  xa4; x0a; xe7; x88; xb0; x0a; xe7; x89;
  xb2; x0a; xe7; x89; xaf; x0a; xe7; x89;
  xb4; x0a; xe7; x8b; xa9; x0a; xe7; x8b;
  xa0; x0a; xe7; x8b; xa1; x0a; xe7; x8e;
  xb7; x0a; xe7; x8f; x8a; x0a; xe7; x8e;
  xbb; x0a; xe7; x8e; xb2; x0a; xe7; x8f;
  x8d; x0a; xe7; x8f; x80; x0a; xe7; x8e;
  xb3; x0a; xe7; x94; x9a; x0a; xe7; x94;
  xad; x0a; xe7; x95; x8f; x0a; xe7; x95;
  x8c; x0a; xe7; x95; x8e; x0a; xe7; x95;
  x8b; x0a; xe7; x96; xab; x0a; xe7; x96;
  xa4; x0a; xe7; x96; xa5; x0a; xe7; x96
].
(* tests/test_data/whatwg/big5_whatwg_test_encode_in.txt, entries 24320..24575 *)
Definition big5_encode_in_95 : list byte := [
  xa2; x0a; xe7; x96; xa3; x0a; xe7; x99;
  xb8; x0a; xe7; x9a; x86; x0a; xe7; x9a;
  x87; x0a; xe7; x9a; x88; x0a; xe7; x9b;
  x88; x0a; xe7; x9b; x86; x0a; xe7; x9b;
  x83; x0a; xe7; x9b; x85; x0a; xe7; x9c;
  x81; x0a; xe7; x9b; xb9; x0a; xe7; x9b;
  xb8; x0a; xe7; x9c; x89; x0a; xe7; x9c;
  x8b; x0a; xe7; x9b; xbe; x0a; xe7; x9b;
  xbc; x0a; xe7; x9c; x87; x0a; xe7; x9f;
  x9c; x0a; xe7; xa0; x82; x0a; xe7; xa0;
  x94; x0a; xe7; xa0; x8c; x0a; xe7; xa0;
  x8d; x0a; xe7; xa5; x86; x0a; xe7; xa5;
  x89; x0a; xe7; xa5; x88; x0a; xe7; xa5;
  x87; x0a; xe7; xa6; xb9; x0a; xe7; xa6;
  xba; x0a; xe7; xa7; x91; x0a; xe7; xa7;
  x92; x0a; xe7; xa7; x8b; x0a; xe7; xa9;
  xbf; x0a; xe7; xaa; x81; x0a; xe7; xab;
  xbf; x0a; xe7; xab; xbd; x0a; xe7; xb1;
  xbd; x0a; xe7; xb4; x82; x0a; xe7; xb4;
  x85; x0a; xe7; xb4; x80; x0a; xe7; xb4;
  x89; x0a; xe7; xb4; x87; x0a; xe7; xb4;
  x84; x0a; xe7; xb4; x86; x0a; xe7; xbc;
  xb8; x0a; xe7; xbe; x8e; x0a; xe7; xbe;
  xbf; x0a; xe8; x80; x84; x0a; xe8; x80;
  x90; x0a; xe8; x80; x8d; x0a; xe8; x80;
  x91; x0a; xe8; x80; xb6; x0a; xe8; x83;
  x96; x0a; xe8; x83; xa5; x0a; xe8; x83;
  x9a; x0a; xe8; x83; x83; x0a; xe8; x83;
  x84; x0a; xe8; x83; x8c; x0a; xe8; x83;
  xa1; x0a; xe8; x83; x9b; x0a; xe8; x83;
  x8e; x0a; xe8; x83; x9e; x0a; xe8; x83;
  xa4; x0a; xe8; x83; x9d; x0a; xe8; x87
].
(* tests/test_data/whatwg/big5_whatwg_test_encode_in.txt, entries 24576..24831 *)
Definition big5_encode_in_96 : list byte := [
  xb4; x0a; xe8; x88; xa2; x0a; xe8; x8b;
  xa7; x0a; xe8; x8c; x83; x0a; xe8; x8c;
  x85; x0a; xe8; x8b; xa3; x0a; xe8; x8b;
  x9b; x0a; xe8; x8b; xa6; x0a; xe8; x8c;
  x84; x0a; xe8; x8b; xa5; x0a; xe8; x8c;
  x82; x0a; xe8; x8c; x89; x0a; xe8; x8b;
  x92; x0a; xe8; x8b; x97; x0a; xe8; x8b;
  xb1; x0a; xe8; x8c; x81; x0a; xe8; x8b;
  x9c; x0a; xe8; x8b; x94; x0a; xe8; x8b;
  x91; x0a; xe8; x8b; x9e; x0a; xe8; x8b;
  x93; x0a; xe8; x8b; x9f; x0a; xe8; x8b;
  xaf; x0a; xe8; x8c; x86; x0a; xe8; x99;
  x90; x0a; xe8; x99; xb9; x0a; xe8; x99;
  xbb; x0a; xe8; x99; xba; x0a; xe8; xa1;
  x8d; x0a; xe8; xa1; xab; x0a; xe8; xa6;
  x81; x0a; xe8; xa7; x94; x0a; xe8; xa8;
  x88; x0a; xe8; xa8; x82; x0a; xe8; xa8;
  x83; x0a; xe8; xb2; x9e; x0a; xe8; xb2;
  xa0; x0a; xe8; xb5; xb4; x0a; xe8; xb5;
  xb3; x0a; xe8; xb6; xb4; x0a; xe8; xbb;
  x8d; x0a; xe8; xbb; x8c; x0a; xe8; xbf;
  xb0; x0a; xe8; xbf; xa6; x0a; xe8; xbf;
  xa2; x0a; xe8; xbf; xaa; x0a; xe8; xbf;
  xa5; x0a; xe8; xbf; xad; x0a; xe8; xbf;
  xab; x0a; xe8; xbf; xa4; x0a; xe8; xbf;
  xa8; x0a; xe9; x83; x8a; x0a; xe9; x83;
  x8e; x0a; xe9; x83; x81; x0a; xe9; x83;
  x83; x0a; xe9; x85; x8b; x0a; xe9; x85;
  x8a; x0a; xe9; x87; x8d; x0a; xe9; x96;
  x82; x0a; xe9; x99; x90; x0a; xe9; x99;
  x8b; x0a; xe9; x99; x8c; x0a; xe9; x99;
  x8d; x0a; xe9; x9d; xa2; x0a; xe9; x9d
].
(* tests/test_data/whatwg/big5_whatwg_test_encode_in.txt, entries 24832..25087 *)
Definition big5_encode_in_97 : list byte := [
  xa9; x0a; xe9; x9f; x8b; x0a; xe9; x9f;
  xad; x0a; xe9; x9f; xb3; x0a; xe9; xa0;
  x81; x0a; xe9; xa2; xa8; x0a; xe9; xa3;
  x9b; x0a; xe9; xa3; x9f; x0a; xe9; xa6;
  x96; x0a; xe9; xa6; x99; x0a; xe4; xb9;
  x98; x0a; xe4; xba; xb3; x0a; xe5; x80;
  x8c; x0a; xe5; x80; x8d; x0a; xe5; x80;
  xa3; x0a; xe4; xbf; xaf; x0a; xe5; x80;
  xa6; x0a; xe5; x80; xa5; x0a; xe4; xbf;
  xb8; x0a; xe5; x80; xa9; x0a; xe5; x80;
  x96; x0a; xe5; x80; x86; x0a; xe5; x80;
  xbc; x0a; xe5; x80; x9f; x0a; xe5; x80;
  x9a; x0a; xe5; x80; x92; x0a; xe5; x80;
  x91; x0a; xe4; xbf; xba; x0a; xe5; x80;
  x80; x0a; xe5; x80; x94; x0a; xe5; x80;
  xa8; x0a; xe4; xbf; xb1; x0a; xe5; x80;
  xa1; x0a; xe5; x80; x8b; x0a; xe5; x80;
  x99; x0a; xe5; x80; x98; x0a; xe4; xbf;
  xb3; x0a; xe4; xbf; xae; x0a; xe5; x80;
  xad; x0a; xe5; x80; xaa; x0a; xe4; xbf;
  xbe; x0a; xe5; x80; xab; x0a; xe5; x80;
  x89; x0a; xe5; x85; xbc; x0a; xe5; x86;
  xa4; x0a; xe5; x86; xa5; x0a; xe5; x86;
  xa2; x0a; xe5; x87; x8d; x0a; xe5; x87;
  x8c; x0a; xe5; x87; x86; x0a; xe5; x87;
  x8b; x0a; xe5; x89; x96; x0a; xe5; x89;
  x9c; x0a; xe5; x89; x94; x0a; xe5; x89;
  x9b; x0a; xe5; x89; x9d; x0a; xe5; x8c;
  xaa; x0a; xe5; x8d; xbf; x0a; xe5; x8e;
  x9f; x0a; xe5; x8e; x9d; x0a; xe5; x8f;
  x9f; x0a; xe5; x93; xa8; x0a; xe5; x94;
  x90; x0a; xe5; x94; x81; x0a; xe5; x94
].
(* tests/test_data/whatwg/big5_whatwg_test_encode_in.txt, entries 25088..25343 *)
Definition big5_encode_in_98 : list byte := [
  xb7; x0a; xe5; x93; xbc; x0a; xe5; x93;
  xa5; x0a; xe5; x93; xb2; x0a; xe5; x94;
  x86; x0a; xe5; x93; xba; x0a; xe5; x94;
  x94; x0a; xe5; x93; xa9; x0a; xe5; x93;
  xad; x0a; xe5; x93; xa1; x0a; xe5; x94;
  x89; x0a; xe5; x93; xae; x0a; xe5; x93;
  xaa; x0a; xe5; x93; xa6; x0a; xe5; x94;
  xa7; x0a; xe5; x94; x87; x0a; xe5; x93;
  xbd; x0a; xe5; x94; x8f; x0a; xe5; x9c;
  x83; x0a; xe5; x9c; x84; x0a; xe5; x9f;
  x82; x0a; xe5; x9f; x94; x0a; xe5; x9f;
  x8b; x0a; xe5; x9f; x83; x0a; xe5; xa0;
  x89; x0a; xe5; xa4; x8f; x0a; xe5; xa5;
  x97; x0a; xe5; xa5; x98; x0a; xe5; xa5;
  x9a; x0a; xe5; xa8; x91; x0a; xe5; xa8;
  x98; x0a; xe5; xa8; x9c; x0a; xe5; xa8;
  x9f; x0a; xe5; xa8; x9b; x0a; xe5; xa8;
  x93; x0a; xe5; xa7; xac; x0a; xe5; xa8;
  xa0; x0a; xe5; xa8; xa3; x0a; xe5; xa8;
  xa9; x0a; xe5; xa8; xa5; x0a; xe5; xa8;
  x8c; x0a; xe5; xa8; x89; x0a; xe5; xad;
  xab; x0a; xe5; xb1; x98; x0a; xe5; xae;
  xb0; x0a; xe5; xae; xb3; x0a; xe5; xae;
  xb6; x0a; xe5; xae; xb4; x0a; xe5; xae;
  xae; x0a; xe5; xae; xb5; x0a; xe5; xae;
  xb9; x0a; xe5; xae; xb8; x0a; xe5; xb0;
  x84; x0a; xe5; xb1; x91; x0a; xe5; xb1;
  x95; x0a; xe5; xb1; x90; x0a; xe5; xb3;
  xad; x0a; xe5; xb3; xbd; x0a; xe5; xb3;
  xbb; x0a; xe5; xb3; xaa; x0a; xe5; xb3;
  xa8; x0a; xe5; xb3; xb0; x0a; xe5; xb3;
  xb6; x0a; xe5; xb4; x81; x0a; xe5; xb3
].
(* tests/test_data/whatwg/big5_whatwg_test_encode_in.txt, entries 25344..25599 *)
Definition big5_encode_in_99 : list byte := [
  xb4; x0a; xe5; xb7; xae; x0a; xe5; xb8;
  xad; x0a; xe5; xb8; xab; x0a; xe5; xba;
  xab; x0a; xe5; xba; xad; x0a; xe5; xba;
  xa7; x0a; xe5; xbc; xb1; x0a; xe5; xbe;
  x92; x0a; xe5; xbe; x91; x0a; xe5; xbe;
  x90; x0a; xe6; x81; x99; x0a; xe6; x81;
  xa3; x0a; xe6; x81; xa5; x0a; xe6; x81;
  x90; x0a; xe6; x81; x95; x0a; xe6; x81;
  xad; x0a; xe6; x81; xa9; x0a; xe6; x81;
  xaf; x0a; xe6; x82; x84; x0a; xe6; x82;
  x9f; x0a; xe6; x82; x9a; x0a; xe6; x82;
  x8d; x0a; xe6; x82; x94; x0a; xe6; x82;
  x8c; x0a; xe6; x82; x85; x0a; xe6; x82;
  x96; x0a; xe6; x89; x87; x0a; xe6; x8b;
  xb3; x0a; xe6; x8c; x88; x0a; xe6; x8b;
  xbf; x0a; xe6; x8d; x8e; x0a; xe6; x8c;
  xbe; x0a; xe6; x8c; xaf; x0a; xe6; x8d;
  x95; x0a; xe6; x8d; x82; x0a; xe6; x8d;
  x86; x0a; xe6; x8d; x8f; x0a; xe6; x8d;
  x89; x0a; xe6; x8c; xba; x0a; xe6; x8d;
  x90; x0a; xe6; x8c; xbd; x0a; xe6; x8c;
  xaa; x0a; xe6; x8c; xab; x0a; xe6; x8c;
  xa8; x0a; xe6; x8d; x8d; x0a; xe6; x8d;
  x8c; x0a; xe6; x95; x88; x0a; xe6; x95;
  x89; x0a; xe6; x96; x99; x0a; xe6; x97;
  x81; x0a; xe6; x97; x85; x0a; xe6; x99;
  x82; x0a; xe6; x99; x89; x0a; xe6; x99;
  x8f; x0a; xe6; x99; x83; x0a; xe6; x99;
  x92; x0a; xe6; x99; x8c; x0a; xe6; x99;
  x85; x0a; xe6; x99; x81; x0a; xe6; x9b;
  xb8; x0a; xe6; x9c; x94; x0a; xe6; x9c;
  x95; x0a; xe6; x9c; x97; x0a; xe6; xa0
].
(* tests/test_data/whatwg/big5_whatwg_test_encode_in.txt, entries 25600..25855 *)
Definition big5_encode_in_100 : list byte := [
  xa1; x0a; xe6; xa0; xb8; x0a; xe6; xa1;
  x88; x0a; xe6; xa1; x86; x0a; xe6; xa1;
  x93; x0a; xe6; xa0; xb9; x0a; xe6; xa1;
  x82; x0a; xe6; xa1; x94; x0a; xe6; xa0;
  xa9; x0a; xe6; xa2; xb3; x0a; xe6; xa0;
  x97; x0a; xe6; xa1; x8c; x0a; xe6; xa1;
  x91; x0a; xe6; xa0; xbd; x0a; xe6; x9f;
  xb4; x0a; xe6; xa1; x90; x0a; xe6; xa1;
  x80; x0a; xe6; xa0; xbc; x0a; xe6; xa1;
  x83; x0a; xe6; xa0; xaa; x0a; xe6; xa1;
  x85; x0a; xe6; xa0; x93; x0a; xe6; xa0;
  x98; x0a; xe6; xa1; x81; x0a; xe6; xae;
  x8a; x0a; xe6; xae; x89; x0a; xe6; xae;
  xb7; x0a; xe6; xb0; xa3; x0a; xe6; xb0;
  xa7; x0a; xe6; xb0; xa8; x0a; xe6; xb0;
  xa6; x0a; xe6; xb0; xa4; x0a; xe6; xb3;
  xb0; x0a; xe6; xb5; xaa; x0a; xe6; xb6;
  x95; x0a; xe6; xb6; x88; x0a; xe6; xb6;
  x87; x0a; xe6; xb5; xa6; x0a; xe6; xb5;
  xb8; x0a; xe6; xb5; xb7; x0a; xe6; xb5;
  x99; x0a; xe6; xb6; x93; x0a; xe6; xb5;
  xac; x0a; xe6; xb6; x89; x0a; xe6; xb5;
  xae; x0a; xe6; xb5; x9a; x0a; xe6; xb5;
  xb4; x0a; xe6; xb5; xa9; x0a; xe6; xb6;
  x8c; x0a; xe6; xb6; x8a; x0a; xe6; xb5;
  xb9; x0a; xe6; xb6; x85; x0a; xe6; xb5;
  xa5; x0a; xe6; xb6; x94; x0a; xe7; x83;
  x8a; x0a; xe7; x83; x98; x0a; xe7; x83;
  xa4; x0a; xe7; x83; x99; x0a; xe7; x83;
  x88; x0a; xe7; x83; x8f; x0a; xe7; x88;
  xb9; x0a; xe7; x89; xb9; x0a; xe7; x8b;
  xbc; x0a; xe7; x8b; xb9; x0a; xe7; x8b
].
(* tests/test_data/whatwg/big5_whatwg_test_encode_in.txt, entries 25856..26111 *)
Definition big5_encode_in_101 : list byte := [
  xbd; x0a; xe7; x8b; xb8; x0a; xe7; x8b;
  xb7; x0a; xe7; x8e; x86; x0a; xe7; x8f;
  xad; x0a; xe7; x90; x89; x0a; xe7; x8f;
  xae; x0a; xe7; x8f; xa0; x0a; xe7; x8f;
  xaa; x0a; xe7; x8f; x9e; x0a; xe7; x95;
  x94; x0a; xe7; x95; x9d; x0a; xe7; x95;
  x9c; x0a; xe7; x95; x9a; x0a; xe7; x95;
  x99; x0a; xe7; x96; xbe; x0a; xe7; x97;
  x85; x0a; xe7; x97; x87; x0a; xe7; x96;
  xb2; x0a; xe7; x96; xb3; x0a; xe7; x96;
  xbd; x0a; xe7; x96; xbc; x0a; xe7; x96;
  xb9; x0a; xe7; x97; x82; x0a; xe7; x96;
  xb8; x0a; xe7; x9a; x8b; x0a; xe7; x9a;
  xb0; x0a; xe7; x9b; x8a; x0a; xe7; x9b;
  x8d; x0a; xe7; x9b; x8e; x0a; xe7; x9c;
  xa9; x0a; xe7; x9c; x9f; x0a; xe7; x9c;
  xa0; x0a; xe7; x9c; xa8; x0a; xe7; x9f;
  xa9; x0a; xe7; xa0; xb0; x0a; xe7; xa0;
  xa7; x0a; xe7; xa0; xb8; x0a; xe7; xa0;
  x9d; x0a; xe7; xa0; xb4; x0a; xe7; xa0;
  xb7; x0a; xe7; xa0; xa5; x0a; xe7; xa0;
  xad; x0a; xe7; xa0; xa0; x0a; xe7; xa0;
  x9f; x0a; xe7; xa0; xb2; x0a; xe7; xa5;
  x95; x0a; xe7; xa5; x90; x0a; xe7; xa5;
  xa0; x0a; xe7; xa5; x9f; x0a; xe7; xa5;
  x96; x0a; xe7; xa5; x9e; x0a; xe7; xa5;
  x9d; x0a; xe7; xa5; x97; x0a; xe7; xa5;
  x9a; x0a; xe7; xa7; xa4; x0a; xe7; xa7;
  xa7; x0a; xe7; xa7; x9f; x0a; xe7; xa7;
  xa6; x0a; xe7; xa7; xa9; x0a; xe7; xa7;
  x98; x0a; xe7; xaa; x84; x0a; xe7; xaa;
  x88; x0a; xe7; xab; x99; x0a; xe7; xac
].
(* tests/test_data/whatwg/big5_whatwg_test_encode_in.txt, entries 26112..26367 *)
Definition big5_encode_in_102 : list byte := [
  x86; x0a; xe7; xac; x91; x0a; xe7; xb2;
  x89; x0a; xe7; xb4; xa1; x0a; xe7; xb4;
  x97; x0a; xe7; xb4; x8b; x0a; xe7; xb4;
  x8a; x0a; xe7; xb4; xa0; x0a; xe7; xb4;
  xa2; x0a; xe7; xb4; x94; x0a; xe7; xb4;
  x90; x0a; xe7; xb4; x95; x0a; xe7; xb4;
  x9a; x0a; xe7; xb4; x9c; x0a; xe7; xb4;
  x8d; x0a; xe7; xb4; x99; x0a; xe7; xb4;
  x9b; x0a; xe7; xbc; xba; x0a; xe7; xbd;
  x9f; x0a; xe7; xbe; x94; x0a; xe7; xbf;
  x85; x0a; xe7; xbf; x81; x0a; xe8; x80;
  x86; x0a; xe8; x80; x98; x0a; xe8; x80;
  x95; x0a; xe8; x80; x99; x0a; xe8; x80;
  x97; x0a; xe8; x80; xbd; x0a; xe8; x80;
  xbf; x0a; xe8; x83; xb1; x0a; xe8; x84;
  x82; x0a; xe8; x83; xb0; x0a; xe8; x84;
  x85; x0a; xe8; x83; xad; x0a; xe8; x83;
  xb4; x0a; xe8; x84; x86; x0a; xe8; x83;
  xb8; x0a; xe8; x83; xb3; x0a; xe8; x84;
  x88; x0a; xe8; x83; xbd; x0a; xe8; x84;
  x8a; x0a; xe8; x83; xbc; x0a; xe8; x83;
  xaf; x0a; xe8; x87; xad; x0a; xe8; x87;
  xac; x0a; xe8; x88; x80; x0a; xe8; x88;
  x90; x0a; xe8; x88; xaa; x0a; xe8; x88;
  xab; x0a; xe8; x88; xa8; x0a; xe8; x88;
  xac; x0a; xe8; x8a; xbb; x0a; xe8; x8c;
  xab; x0a; xe8; x8d; x92; x0a; xe8; x8d;
  x94; x0a; xe8; x8d; x8a; x0a; xe8; x8c;
  xb8; x0a; xe8; x8d; x90; x0a; xe8; x8d;
  x89; x0a; xe8; x8c; xb5; x0a; xe8; x8c;
  xb4; x0a; xe8; x8d; x8f; x0a; xe8; x8c;
  xb2; x0a; xe8; x8c; xb9; x0a; xe8; x8c
].
(* tests/test_data/whatwg/big5_whatwg_test_encode_in.txt, entries 26368..26623 *)
Definition big5_encode_in_103 : list byte := [
  xb6; x0a; xe8; x8c; x97; x0a; xe8; x8d;
  x80; x0a; xe8; x8c; xb1; x0a; xe8; x8c;
  xa8; x0a; xe8; x8d; x83; x0a; xe8; x99;
  x94; x0a; xe8; x9a; x8a; x0a; xe8; x9a;
  xaa; x0a; xe8; x9a; x93; x0a; xe8; x9a;
  xa4; x0a; xe8; x9a; xa9; x0a; xe8; x9a;
  x8c; x0a; xe8; x9a; xa3; x0a; xe8; x9a;
  x9c; x0a; xe8; xa1; xb0; x0a; xe8; xa1;
  xb7; x0a; xe8; xa2; x81; x0a; xe8; xa2;
  x82; x0a; xe8; xa1; xbd; x0a; xe8; xa1;
  xb9; x0a; xe8; xa8; x98; x0a; xe8; xa8;
  x90; x0a; xe8; xa8; x8e; x0a; xe8; xa8;
  x8c; x0a; xe8; xa8; x95; x0a; xe8; xa8;
  x8a; x0a; xe8; xa8; x97; x0a; xe8; xa8;
  x93; x0a; xe8; xa8; x96; x0a; xe8; xa8;
  x8f; x0a; xe8; xa8; x91; x0a; xe8; xb1;
  x88; x0a; xe8; xb1; xba; x0a; xe8; xb1;
  xb9; x0a; xe8; xb2; xa1; x0a; xe8; xb2;
  xa2; x0a; xe8; xba; xac; x0a; xe8; xbb;
  x92; x0a; xe8; xbb; x94; x0a; xe8; xbb;
  x8f; x0a; xe8; xbe; xb1; x0a; xe9; x80;
  x81; x0a; xe9; x80; x86; x0a; xe8; xbf;
  xb7; x0a; xe9; x80; x80; x0a; xe8; xbf;
  xba; x0a; xe8; xbf; xb4; x0a; xe9; x80;
  x83; x0a; xe8; xbf; xbd; x0a; xe9; x80;
  x85; x0a; xe8; xbf; xb8; x0a; xe9; x82;
  x95; x0a; xe9; x83; xa1; x0a; xe9; x83;
  x9d; x0a; xe9; x83; xa2; x0a; xe9; x85;
  x92; x0a; xe9; x85; x8d; x0a; xe9; x85;
  x8c; x0a; xe9; x87; x98; x0a; xe9; x87;
  x9d; x0a; xe9; x87; x97; x0a; xe9; x87;
  x9c; x0a; xe9; x87; x99; x0a; xe9; x96
].
(* tests/test_data/whatwg/big5_whatwg_test_encode_in.txt, entries 26624..26879 *)
Definition big5_encode_in_104 : list byte := [
  x83; x0a; xe9; x99; xa2; x0a; xe9; x99;
  xa3; x0a; xe9; x99; xa1; x0a; xe9; x99;
  x9b; x0a; xe9; x99; x9d; x0a; xe9; x99;
  xa4; x0a; xe9; x99; x98; x0a; xe9; x99;
  x9e; x0a; xe9; x9a; xbb; x0a; xe9; xa3;
  xa2; x0a; xe9; xa6; xac; x0a; xe9; xaa;
  xa8; x0a; xe9; xab; x98; x0a; xe9; xac;
  xa5; x0a; xe9; xac; xb2; x0a; xe9; xac;
  xbc; x0a; xe4; xb9; xbe; x0a; xe5; x81;
  xba; x0a; xe5; x81; xbd; x0a; xe5; x81;
  x9c; x0a; xe5; x81; x87; x0a; xe5; x81;
  x83; x0a; xe5; x81; x8c; x0a; xe5; x81;
  x9a; x0a; xe5; x81; x89; x0a; xe5; x81;
  xa5; x0a; xe5; x81; xb6; x0a; xe5; x81;
  x8e; x0a; xe5; x81; x95; x0a; xe5; x81;
  xb5; x0a; xe5; x81; xb4; x0a; xe5; x81;
  xb7; x0a; xe5; x81; x8f; x0a; xe5; x80;
  x8f; x0a; xe5; x81; xaf; x0a; xe5; x81;
  xad; x0a; xe5; x85; x9c; x0a; xe5; x86;
  x95; x0a; xe5; x87; xb0; x0a; xe5; x89;
  xaa; x0a; xe5; x89; xaf; x0a; xe5; x8b;
  x92; x0a; xe5; x8b; x99; x0a; xe5; x8b;
  x98; x0a; xe5; x8b; x95; x0a; xe5; x8c;
  x90; x0a; xe5; x8c; x8f; x0a; xe5; x8c;
  x99; x0a; xe5; x8c; xbf; x0a; xe5; x8d;
  x80; x0a; xe5; x8c; xbe; x0a; xe5; x8f;
  x83; x0a; xe6; x9b; xbc; x0a; xe5; x95;
  x86; x0a; xe5; x95; xaa; x0a; xe5; x95;
  xa6; x0a; xe5; x95; x84; x0a; xe5; x95;
  x9e; x0a; xe5; x95; xa1; x0a; xe5; x95;
  x83; x0a; xe5; x95; x8a; x0a; xe5; x94;
  xb1; x0a; xe5; x95; x96; x0a; xe5; x95
].
(* tests/test_data/whatwg/big5_whatwg_test_encode_in.txt, entries 26880..27135 *)
Definition big5_encode_in_105 : list byte := [
  x8f; x0a; xe5; x95; x95; x0a; xe5; x94;
  xaf; x0a; xe5; x95; xa4; x0a; xe5; x94;
  xb8; x0a; xe5; x94; xae; x0a; xe5; x95;
  x9c; x0a; xe5; x94; xac; x0a; xe5; x95;
  xa3; x0a; xe5; x94; xb3; x0a; xe5; x95;
  x81; x0a; xe5; x95; x97; x0a; xe5; x9c;
  x88; x0a; xe5; x9c; x8b; x0a; xe5; x9c;
  x89; x0a; xe5; x9f; x9f; x0a; xe5; xa0;
  x85; x0a; xe5; xa0; x8a; x0a; xe5; xa0;
  x86; x0a; xe5; x9f; xa0; x0a; xe5; x9f;
  xa4; x0a; xe5; x9f; xba; x0a; xe5; xa0;
  x82; x0a; xe5; xa0; xb5; x0a; xe5; x9f;
  xb7; x0a; xe5; x9f; xb9; x0a; xe5; xa4;
  xa0; x0a; xe5; xa5; xa2; x0a; xe5; xa8;
  xb6; x0a; xe5; xa9; x81; x0a; xe5; xa9;
  x89; x0a; xe5; xa9; xa6; x0a; xe5; xa9;
  xaa; x0a; xe5; xa9; x80; x0a; xe5; xa8;
  xbc; x0a; xe5; xa9; xa2; x0a; xe5; xa9;
  x9a; x0a; xe5; xa9; x86; x0a; xe5; xa9;
  x8a; x0a; xe5; xad; xb0; x0a; xe5; xaf;
  x87; x0a; xe5; xaf; x85; x0a; xe5; xaf;
  x84; x0a; xe5; xaf; x82; x0a; xe5; xae;
  xbf; x0a; xe5; xaf; x86; x0a; xe5; xb0;
  x89; x0a; xe5; xb0; x88; x0a; xe5; xb0;
  x87; x0a; xe5; xb1; xa0; x0a; xe5; xb1;
  x9c; x0a; xe5; xb1; x9d; x0a; xe5; xb4;
  x87; x0a; xe5; xb4; x86; x0a; xe5; xb4;
  x8e; x0a; xe5; xb4; x9b; x0a; xe5; xb4;
  x96; x0a; xe5; xb4; xa2; x0a; xe5; xb4;
  x91; x0a; xe5; xb4; xa9; x0a; xe5; xb4;
  x94; x0a; xe5; xb4; x99; x0a; xe5; xb4;
  xa4; x0a; xe5; xb4; xa7; x0a; xe5; xb4
].
(* tests/test_data/whatwg/big5_whatwg_test_encode_in.txt, entries 27136..27391 *)
Definition big5_encode_in_106 : list byte := [
  x97; x0a; xe5; xb7; xa2; x0a; xe5; xb8;
  xb8; x0a; xe5; xb8; xb6; x0a; xe5; xb8;
  xb3; x0a; xe5; xb8; xb7; x0a; xe5; xba;
  xb7; x0a; xe5; xba; xb8; x0a; xe5; xba;
  xb6; x0a; xe5; xba; xb5; x0a; xe5; xba;
  xbe; x0a; xe5; xbc; xb5; x0a; xe5; xbc;
  xb7; x0a; xe5; xbd; x97; x0a; xe5; xbd;
  xac; x0a; xe5; xbd; xa9; x0a; xe5; xbd;
  xab; x0a; xe5; xbe; x97; x0a; xe5; xbe;
  x99; x0a; xe5; xbe; x9e; x0a; xe5; xbe;
  x98; x0a; xe5; xbe; xa1; x0a; xe5; xbe;
  xa0; x0a; xe5; xbe; x9c; x0a; xe6; x81;
  xbf; x0a; xe6; x82; xa3; x0a; xe6; x82;
  x89; x0a; xe6; x82; xa0; x0a; xe6; x82;
  xa8; x0a; xe6; x83; x8b; x0a; xe6; x82;
  xb4; x0a; xe6; x83; xa6; x0a; xe6; x82;
  xbd; x0a; xe6; x83; x85; x0a; xe6; x82;
  xbb; x0a; xe6; x82; xb5; x0a; xe6; x83;
  x9c; x0a; xe6; x82; xbc; x0a; xe6; x83;
  x98; x0a; xe6; x83; x95; x0a; xe6; x83;
  x86; x0a; xe6; x83; x9f; x0a; xe6; x82;
  xb8; x0a; xe6; x83; x9a; x0a; xe6; x83;
  x87; x0a; xe6; x88; x9a; x0a; xe6; x88;
  x9b; x0a; xe6; x89; x88; x0a; xe6; x8e;
  xa0; x0a; xe6; x8e; xa7; x0a; xe6; x8d;
  xb2; x0a; xe6; x8e; x96; x0a; xe6; x8e;
  xa2; x0a; xe6; x8e; xa5; x0a; xe6; x8d;
  xb7; x0a; xe6; x8d; xa7; x0a; xe6; x8e;
  x98; x0a; xe6; x8e; xaa; x0a; xe6; x8d;
  xb1; x0a; xe6; x8e; xa9; x0a; xe6; x8e;
  x89; x0a; xe6; x8e; x83; x0a; xe6; x8e;
  x9b; x0a; xe6; x8d; xab; x0a; xe6; x8e
].
(* tests/test_data/whatwg/big5_whatwg_test_encode_in.txt, entries 27392..27647 *)
Definition big5_encode_in_107 : list byte := [
  xa8; x0a; xe6; x8e; x84; x0a; xe6; x8e;
  x88; x0a; xe6; x8e; x99; x0a; xe6; x8e;
  xa1; x0a; xe6; x8e; xac; x0a; xe6; x8e;
  x92; x0a; xe6; x8e; x8f; x0a; xe6; x8e;
  x80; x0a; xe6; x8d; xbb; x0a; xe6; x8d;
  xa9; x0a; xe6; x8d; xa8; x0a; xe6; x8d;
  xba; x0a; xe6; x95; x9d; x0a; xe6; x95;
  x96; x0a; xe6; x95; x91; x0a; xe6; x95;
  x99; x0a; xe6; x95; x97; x0a; xe5; x95;
  x9f; x0a; xe6; x95; x8f; x0a; xe6; x95;
  x98; x0a; xe6; x95; x95; x0a; xe6; x95;
  x94; x0a; xe6; x96; x9c; x0a; xe6; x96;
  x9b; x0a; xe6; x96; xac; x0a; xe6; x97;
  x8f; x0a; xe6; x97; x8b; x0a; xe6; x97;
  x8c; x0a; xe6; x97; x8e; x0a; xe6; x99;
  x9d; x0a; xe6; x99; x9a; x0a; xe6; x99;
  xa4; x0a; xe6; x99; xa8; x0a; xe6; x99;
  xa6; x0a; xe6; x99; x9e; x0a; xe6; x9b;
  xb9; x0a; xe5; x8b; x97; x0a; xe6; x9c;
  x9b; x0a; xe6; xa2; x81; x0a; xe6; xa2;
  xaf; x0a; xe6; xa2; xa2; x0a; xe6; xa2;
  x93; x0a; xe6; xa2; xb5; x0a; xe6; xa1;
  xbf; x0a; xe6; xa1; xb6; x0a; xe6; xa2;
  xb1; x0a; xe6; xa2; xa7; x0a; xe6; xa2;
  x97; x0a; xe6; xa2; xb0; x0a; xe6; xa2;
  x83; x0a; xe6; xa3; x84; x0a; xe6; xa2;
  xad; x0a; xe6; xa2; x86; x0a; xe6; xa2;
  x85; x0a; xe6; xa2; x94; x0a; xe6; xa2;
  x9d; x0a; xe6; xa2; xa8; x0a; xe6; xa2;
  x9f; x0a; xe6; xa2; xa1; x0a; xe6; xa2;
  x82; x0a; xe6; xac; xb2; x0a; xe6; xae;
  xba; x0a; xe6; xaf; xab; x0a; xe6; xaf
].
(* tests/test_data/whatwg/big5_whatwg_test_encode_in.txt, entries 27648..27903 *)
Definition big5_encode_in_108 : list byte := [
  xac; x0a; xe6; xb0; xab; x0a; xe6; xb6;
  x8e; x0a; xe6; xb6; xbc; x0a; xe6; xb7;
  xb3; x0a; xe6; xb7; x99; x0a; xe6; xb6;
  xb2; x0a; xe6; xb7; xa1; x0a; xe6; xb7;
  x8c; x0a; xe6; xb7; xa4; x0a; xe6; xb7;
  xbb; x0a; xe6; xb7; xba; x0a; xe6; xb8;
  x85; x0a; xe6; xb7; x87; x0a; xe6; xb7;
  x8b; x0a; xe6; xb6; xaf; x0a; xe6; xb7;
  x91; x0a; xe6; xb6; xae; x0a; xe6; xb7;
  x9e; x0a; xe6; xb7; xb9; x0a; xe6; xb6;
  xb8; x0a; xe6; xb7; xb7; x0a; xe6; xb7;
  xb5; x0a; xe6; xb7; x85; x0a; xe6; xb7;
  x92; x0a; xe6; xb8; x9a; x0a; xe6; xb6;
  xb5; x0a; xe6; xb7; x9a; x0a; xe6; xb7;
  xab; x0a; xe6; xb7; x98; x0a; xe6; xb7;
  xaa; x0a; xe6; xb7; xb1; x0a; xe6; xb7;
  xae; x0a; xe6; xb7; xa8; x0a; xe6; xb7;
  x86; x0a; xe6; xb7; x84; x0a; xe6; xb6;
  xaa; x0a; xe6; xb7; xac; x0a; xe6; xb6;
  xbf; x0a; xe6; xb7; xa6; x0a; xe7; x83;
  xb9; x0a; xe7; x84; x89; x0a; xe7; x84;
  x8a; x0a; xe7; x83; xbd; x0a; xe7; x83;
  xaf; x0a; xe7; x88; xbd; x0a; xe7; x89;
  xbd; x0a; xe7; x8a; x81; x0a; xe7; x8c;
  x9c; x0a; xe7; x8c; x9b; x0a; xe7; x8c;
  x96; x0a; xe7; x8c; x93; x0a; xe7; x8c;
  x99; x0a; xe7; x8e; x87; x0a; xe7; x90;
  x85; x0a; xe7; x90; x8a; x0a; xe7; x90;
  x83; x0a; xe7; x90; x86; x0a; xe7; x8f;
  xbe; x0a; xe7; x90; x8d; x0a; xe7; x93;
  xa0; x0a; xe7; x93; xb6; x0a; xe7; x93;
  xb7; x0a; xe7; x94; x9c; x0a; xe7; x94
].
(* tests/test_data/whatwg/big5_whatwg_test_encode_in.txt, entries 27904..28159 *)
Definition big5_encode_in_109 : list byte := [
  xa2; x0a; xe7; x95; xa5; x0a; xe7; x95;
  xa6; x0a; xe7; x95; xa2; x0a; xe7; x95;
  xb0; x0a; xe7; x96; x8f; x0a; xe7; x97;
  x94; x0a; xe7; x97; x95; x0a; xe7; x96;
  xb5; x0a; xe7; x97; x8a; x0a; xe7; x97;
  x8d; x0a; xe7; x9a; x8e; x0a; xe7; x9b;
  x94; x0a; xe7; x9b; x92; x0a; xe7; x9b;
  x9b; x0a; xe7; x9c; xb7; x0a; xe7; x9c;
  xbe; x0a; xe7; x9c; xbc; x0a; xe7; x9c;
  xb6; x0a; xe7; x9c; xb8; x0a; xe7; x9c;
  xba; x0a; xe7; xa1; xab; x0a; xe7; xa1;
  x83; x0a; xe7; xa1; x8e; x0a; xe7; xa5;
  xa5; x0a; xe7; xa5; xa8; x0a; xe7; xa5;
  xad; x0a; xe7; xa7; xbb; x0a; xe7; xaa;
  x92; x0a; xe7; xaa; x95; x0a; xe7; xac;
  xa0; x0a; xe7; xac; xa8; x0a; xe7; xac;
  x9b; x0a; xe7; xac; xac; x0a; xe7; xac;
  xa6; x0a; xe7; xac; x99; x0a; xe7; xac;
  x9e; x0a; xe7; xac; xae; x0a; xe7; xb2;
  x92; x0a; xe7; xb2; x97; x0a; xe7; xb2;
  x95; x0a; xe7; xb5; x86; x0a; xe7; xb5;
  x83; x0a; xe7; xb5; xb1; x0a; xe7; xb4;
  xae; x0a; xe7; xb4; xb9; x0a; xe7; xb4;
  xbc; x0a; xe7; xb5; x80; x0a; xe7; xb4;
  xb0; x0a; xe7; xb4; xb3; x0a; xe7; xb5;
  x84; x0a; xe7; xb4; xaf; x0a; xe7; xb5;
  x82; x0a; xe7; xb4; xb2; x0a; xe7; xb4;
  xb1; x0a; xe7; xbc; xbd; x0a; xe7; xbe;
  x9e; x0a; xe7; xbe; x9a; x0a; xe7; xbf;
  x8c; x0a; xe7; xbf; x8e; x0a; xe7; xbf;
  x92; x0a; xe8; x80; x9c; x0a; xe8; x81;
  x8a; x0a; xe8; x81; x86; x0a; xe8; x84
].
(* tests/test_data/whatwg/big5_whatwg_test_encode_in.txt, entries 28160..28415 *)
Definition big5_encode_in_110 : list byte := [
  xaf; x0a; xe8; x84; x96; x0a; xe8; x84;
  xa3; x0a; xe8; x84; xab; x0a; xe8; x84;
  xa9; x0a; xe8; x84; xb0; x0a; xe8; x84;
  xa4; x0a; xe8; x88; x82; x0a; xe8; x88;
  xb5; x0a; xe8; x88; xb7; x0a; xe8; x88;
  xb6; x0a; xe8; x88; xb9; x0a; xe8; x8e;
  x8e; x0a; xe8; x8e; x9e; x0a; xe8; x8e;
  x98; x0a; xe8; x8d; xb8; x0a; xe8; x8e;
  xa2; x0a; xe8; x8e; x96; x0a; xe8; x8e;
  xbd; x0a; xe8; x8e; xab; x0a; xe8; x8e;
  x92; x0a; xe8; x8e; x8a; x0a; xe8; x8e;
  x93; x0a; xe8; x8e; x89; x0a; xe8; x8e;
  xa0; x0a; xe8; x8d; xb7; x0a; xe8; x8d;
  xbb; x0a; xe8; x8d; xbc; x0a; xe8; x8e;
  x86; x0a; xe8; x8e; xa7; x0a; xe8; x99;
  x95; x0a; xe5; xbd; xaa; x0a; xe8; x9b;
  x87; x0a; xe8; x9b; x80; x0a; xe8; x9a;
  xb6; x0a; xe8; x9b; x84; x0a; xe8; x9a;
  xb5; x0a; xe8; x9b; x86; x0a; xe8; x9b;
  x8b; x0a; xe8; x9a; xb1; x0a; xe8; x9a;
  xaf; x0a; xe8; x9b; x89; x0a; xe8; xa1;
  x93; x0a; xe8; xa2; x9e; x0a; xe8; xa2;
  x88; x0a; xe8; xa2; xab; x0a; xe8; xa2;
  x92; x0a; xe8; xa2; x96; x0a; xe8; xa2;
  x8d; x0a; xe8; xa2; x8b; x0a; xe8; xa6;
  x93; x0a; xe8; xa6; x8f; x0a; xe8; xa8;
  xaa; x0a; xe8; xa8; x9d; x0a; xe8; xa8;
  xa3; x0a; xe8; xa8; xa5; x0a; xe8; xa8;
  xb1; x0a; xe8; xa8; xad; x0a; xe8; xa8;
  x9f; x0a; xe8; xa8; x9b; x0a; xe8; xa8;
  xa2; x0a; xe8; xb1; x89; x0a; xe8; xb1;
  x9a; x0a; xe8; xb2; xa9; x0a; xe8; xb2
].
(* tests/test_data/whatwg/big5_whatwg_test_encode_in.txt, entries 28416..28671 *)
Definition big5_encode_in_111 : list byte := [
  xac; x0a; xe8; xb2; xab; x0a; xe8; xb2;
  xa8; x0a; xe8; xb2; xaa; x0a; xe8; xb2;
  xa7; x0a; xe8; xb5; xa7; x0a; xe8; xb5;
  xa6; x0a; xe8; xb6; xbe; x0a; xe8; xb6;
  xba; x0a; xe8; xbb; x9b; x0a; xe8; xbb;
  x9f; x0a; xe9; x80; x99; x0a; xe9; x80;
  x8d; x0a; xe9; x80; x9a; x0a; xe9; x80;
  x97; x0a; xe9; x80; xa3; x0a; xe9; x80;
  x9f; x0a; xe9; x80; x9d; x0a; xe9; x80;
  x90; x0a; xe9; x80; x95; x0a; xe9; x80;
  x9e; x0a; xe9; x80; xa0; x0a; xe9; x80;
  x8f; x0a; xe9; x80; xa2; x0a; xe9; x80;
  x96; x0a; xe9; x80; x9b; x0a; xe9; x80;
  x94; x0a; xe9; x83; xa8; x0a; xe9; x83;
  xad; x0a; xe9; x85; x97; x0a; xe9; x87;
  x8e; x0a; xe9; x87; xb5; x0a; xe9; x87;
  xa6; x0a; xe9; x87; xa3; x0a; xe9; x87;
  xa7; x0a; xe9; x87; xad; x0a; xe9; x87;
  xa9; x0a; xe9; x96; x89; x0a; xe9; x99;
  xaa; x0a; xe9; x99; xb5; x0a; xe9; x99;
  xb3; x0a; xe9; x99; xb8; x0a; xe9; x99;
  xb0; x0a; xe9; x99; xb4; x0a; xe9; x99;
  xb6; x0a; xe9; x99; xb7; x0a; xe9; x99;
  xac; x0a; xe9; x9b; x80; x0a; xe9; x9b;
  xaa; x0a; xe9; x9b; xa9; x0a; xe7; xab;
  xa0; x0a; xe7; xab; x9f; x0a; xe9; xa0;
  x82; x0a; xe9; xa0; x83; x0a; xe9; xad;
  x9a; x0a; xe9; xb3; xa5; x0a; xe9; xb9;
  xb5; x0a; xe9; xb9; xbf; x0a; xe9; xba;
  xa5; x0a; xe9; xba; xbb; x0a; xe5; x82;
  xa2; x0a; xe5; x82; x8d; x0a; xe5; x82;
  x85; x0a; xe5; x82; x99; x0a; xe5; x82
].
(* tests/test_data/whatwg/big5_whatwg_test_encode_in.txt, entries 28672..28927 *)
Definition big5_encode_in_112 : list byte := [
  x91; x0a; xe5; x82; x80; x0a; xe5; x82;
  x96; x0a; xe5; x82; x98; x0a; xe5; x82;
  x9a; x0a; xe6; x9c; x80; x0a; xe5; x87;
  xb1; x0a; xe5; x89; xb2; x0a; xe5; x89;
  xb4; x0a; xe5; x89; xb5; x0a; xe5; x89;
  xa9; x0a; xe5; x8b; x9e; x0a; xe5; x8b;
  x9d; x0a; xe5; x8b; x9b; x0a; xe5; x8d;
  x9a; x0a; xe5; x8e; xa5; x0a; xe5; x95;
  xbb; x0a; xe5; x96; x80; x0a; xe5; x96;
  xa7; x0a; xe5; x95; xbc; x0a; xe5; x96;
  x8a; x0a; xe5; x96; x9d; x0a; xe5; x96;
  x98; x0a; xe5; x96; x82; x0a; xe5; x96;
  x9c; x0a; xe5; x96; xaa; x0a; xe5; x96;
  x94; x0a; xe5; x96; x87; x0a; xe5; x96;
  x8b; x0a; xe5; x96; x83; x0a; xe5; x96;
  xb3; x0a; xe5; x96; xae; x0a; xe5; x96;
  x9f; x0a; xe5; x94; xbe; x0a; xe5; x96;
  xb2; x0a; xe5; x96; x9a; x0a; xe5; x96;
  xbb; x0a; xe5; x96; xac; x0a; xe5; x96;
  xb1; x0a; xe5; x95; xbe; x0a; xe5; x96;
  x89; x0a; xe5; x96; xab; x0a; xe5; x96;
  x99; x0a; xe5; x9c; x8d; x0a; xe5; xa0;
  xaf; x0a; xe5; xa0; xaa; x0a; xe5; xa0;
  xb4; x0a; xe5; xa0; xa4; x0a; xe5; xa0;
  xb0; x0a; xe5; xa0; xb1; x0a; xe5; xa0;
  xa1; x0a; xe5; xa0; x9d; x0a; xe5; xa0;
  xa0; x0a; xe5; xa3; xb9; x0a; xe5; xa3;
  xba; x0a; xe5; xa5; xa0; x0a; xe5; xa9;
  xb7; x0a; xe5; xaa; x9a; x0a; xe5; xa9;
  xbf; x0a; xe5; xaa; x92; x0a; xe5; xaa;
  x9b; x0a; xe5; xaa; xa7; x0a; xe5; xad;
  xb3; x0a; xe5; xad; xb1; x0a; xe5; xaf
].
(* tests/test_data/whatwg/big5_whatwg_test_encode_in.txt, entries 28928..29183 *)
Definition big5_encode_in_113 : list byte := [
  x92; x0a; xe5; xaf; x8c; x0a; xe5; xaf;
  x93; x0a; xe5; xaf; x90; x0a; xe5; xb0;
  x8a; x0a; xe5; xb0; x8b; x0a; xe5; xb0;
  xb1; x0a; xe5; xb5; x8c; x0a; xe5; xb5;
  x90; x0a; xe5; xb4; xb4; x0a; xe5; xb5;
  x87; x0a; xe5; xb7; xbd; x0a; xe5; xb9;
  x85; x0a; xe5; xb8; xbd; x0a; xe5; xb9;
  x80; x0a; xe5; xb9; x83; x0a; xe5; xb9;
  xbe; x0a; xe5; xbb; x8a; x0a; xe5; xbb;
  x81; x0a; xe5; xbb; x82; x0a; xe5; xbb;
  x84; x0a; xe5; xbc; xbc; x0a; xe5; xbd;
  xad; x0a; xe5; xbe; xa9; x0a; xe5; xbe;
  xaa; x0a; xe5; xbe; xa8; x0a; xe6; x83;
  x91; x0a; xe6; x83; xa1; x0a; xe6; x82;
  xb2; x0a; xe6; x82; xb6; x0a; xe6; x83;
  xa0; x0a; xe6; x84; x9c; x0a; xe6; x84;
  xa3; x0a; xe6; x83; xba; x0a; xe6; x84;
  x95; x0a; xe6; x83; xb0; x0a; xe6; x83;
  xbb; x0a; xe6; x83; xb4; x0a; xe6; x85;
  xa8; x0a; xe6; x83; xb1; x0a; xe6; x84;
  x8e; x0a; xe6; x83; xb6; x0a; xe6; x84;
  x89; x0a; xe6; x84; x80; x0a; xe6; x84;
  x92; x0a; xe6; x88; x9f; x0a; xe6; x89;
  x89; x0a; xe6; x8e; xa3; x0a; xe6; x8e;
  x8c; x0a; xe6; x8f; x8f; x0a; xe6; x8f;
  x80; x0a; xe6; x8f; xa9; x0a; xe6; x8f;
  x89; x0a; xe6; x8f; x86; x0a; xe6; x8f;
  x8d; x0a; xe6; x8f; x92; x0a; xe6; x8f;
  xa3; x0a; xe6; x8f; x90; x0a; xe6; x8f;
  xa1; x0a; xe6; x8f; x96; x0a; xe6; x8f;
  xad; x0a; xe6; x8f; xae; x0a; xe6; x8d;
  xb6; x0a; xe6; x8f; xb4; x0a; xe6; x8f
].
(* tests/test_data/whatwg/big5_whatwg_test_encode_in.txt, entries 29184..29439 *)
Definition big5_encode_in_114 : list byte := [
  xaa; x0a; xe6; x8f; x9b; x0a; xe6; x91;
  x92; x0a; xe6; x8f; x9a; x0a; xe6; x8f;
  xb9; x0a; xe6; x95; x9e; x0a; xe6; x95;
  xa6; x0a; xe6; x95; xa2; x0a; xe6; x95;
  xa3; x0a; xe6; x96; x91; x0a; xe6; x96;
  x90; x0a; xe6; x96; xaf; x0a; xe6; x99;
  xae; x0a; xe6; x99; xb0; x0a; xe6; x99;
  xb4; x0a; xe6; x99; xb6; x0a; xe6; x99;
  xaf; x0a; xe6; x9a; x91; x0a; xe6; x99;
  xba; x0a; xe6; x99; xbe; x0a; xe6; x99;
  xb7; x0a; xe6; x9b; xbe; x0a; xe6; x9b;
  xbf; x0a; xe6; x9c; x9f; x0a; xe6; x9c;
  x9d; x0a; xe6; xa3; xba; x0a; xe6; xa3;
  x95; x0a; xe6; xa3; xa0; x0a; xe6; xa3;
  x98; x0a; xe6; xa3; x97; x0a; xe6; xa4;
  x85; x0a; xe6; xa3; x9f; x0a; xe6; xa3;
  xb5; x0a; xe6; xa3; xae; x0a; xe6; xa3;
  xa7; x0a; xe6; xa3; xb9; x0a; xe6; xa3;
  x92; x0a; xe6; xa3; xb2; x0a; xe6; xa3;
  xa3; x0a; xe6; xa3; x8b; x0a; xe6; xa3;
  x8d; x0a; xe6; xa4; x8d; x0a; xe6; xa4;
  x92; x0a; xe6; xa4; x8e; x0a; xe6; xa3;
  x89; x0a; xe6; xa3; x9a; x0a; xe6; xa5;
  xae; x0a; xe6; xa3; xbb; x0a; xe6; xac;
  xbe; x0a; xe6; xac; xba; x0a; xe6; xac;
  xbd; x0a; xe6; xae; x98; x0a; xe6; xae;
  x96; x0a; xe6; xae; xbc; x0a; xe6; xaf;
  xaf; x0a; xe6; xb0; xae; x0a; xe6; xb0;
  xaf; x0a; xe6; xb0; xac; x0a; xe6; xb8;
  xaf; x0a; xe6; xb8; xb8; x0a; xe6; xb9;
  x94; x0a; xe6; xb8; xa1; x0a; xe6; xb8;
  xb2; x0a; xe6; xb9; xa7; x0a; xe6; xb9
].
(* tests/test_data/whatwg/big5_whatwg_test_encode_in.txt, entries 29440..29695 *)
Definition big5_encode_in_115 : list byte := [
  x8a; x0a; xe6; xb8; xa0; x0a; xe6; xb8;
  xa5; x0a; xe6; xb8; xa3; x0a; xe6; xb8;
  x9b; x0a; xe6; xb9; x9b; x0a; xe6; xb9;
  x98; x0a; xe6; xb8; xa4; x0a; xe6; xb9;
  x96; x0a; xe6; xb9; xae; x0a; xe6; xb8;
  xad; x0a; xe6; xb8; xa6; x0a; xe6; xb9;
  xaf; x0a; xe6; xb8; xb4; x0a; xe6; xb9;
  x8d; x0a; xe6; xb8; xba; x0a; xe6; xb8;
  xac; x0a; xe6; xb9; x83; x0a; xe6; xb8;
  x9d; x0a; xe6; xb8; xbe; x0a; xe6; xbb;
  x8b; x0a; xe6; xba; x89; x0a; xe6; xb8;
  x99; x0a; xe6; xb9; x8e; x0a; xe6; xb9;
  xa3; x0a; xe6; xb9; x84; x0a; xe6; xb9;
  xb2; x0a; xe6; xb9; xa9; x0a; xe6; xb9;
  x9f; x0a; xe7; x84; x99; x0a; xe7; x84;
  x9a; x0a; xe7; x84; xa6; x0a; xe7; x84;
  xb0; x0a; xe7; x84; xa1; x0a; xe7; x84;
  xb6; x0a; xe7; x85; xae; x0a; xe7; x84;
  x9c; x0a; xe7; x89; x8c; x0a; xe7; x8a;
  x84; x0a; xe7; x8a; x80; x0a; xe7; x8c;
  xb6; x0a; xe7; x8c; xa5; x0a; xe7; x8c;
  xb4; x0a; xe7; x8c; xa9; x0a; xe7; x90;
  xba; x0a; xe7; x90; xaa; x0a; xe7; x90;
  xb3; x0a; xe7; x90; xa2; x0a; xe7; x90;
  xa5; x0a; xe7; x90; xb5; x0a; xe7; x90;
  xb6; x0a; xe7; x90; xb4; x0a; xe7; x90;
  xaf; x0a; xe7; x90; x9b; x0a; xe7; x90;
  xa6; x0a; xe7; x90; xa8; x0a; xe7; x94;
  xa5; x0a; xe7; x94; xa6; x0a; xe7; x95;
  xab; x0a; xe7; x95; xaa; x0a; xe7; x97;
  xa2; x0a; xe7; x97; x9b; x0a; xe7; x97;
  xa3; x0a; xe7; x97; x99; x0a; xe7; x97
].
(* tests/test_data/whatwg/big5_whatwg_test_encode_in.txt, entries 29696..29951 *)
Definition big5_encode_in_116 : list byte := [
  x98; x0a; xe7; x97; x9e; x0a; xe7; x97;
  xa0; x0a; xe7; x99; xbb; x0a; xe7; x99;
  xbc; x0a; xe7; x9a; x96; x0a; xe7; x9a;
  x93; x0a; xe7; x9a; xb4; x0a; xe7; x9b;
  x9c; x0a; xe7; x9d; x8f; x0a; xe7; x9f;
  xad; x0a; xe7; xa1; x9d; x0a; xe7; xa1;
  xac; x0a; xe7; xa1; xaf; x0a; xe7; xa8;
  x8d; x0a; xe7; xa8; x88; x0a; xe7; xa8;
  x8b; x0a; xe7; xa8; x85; x0a; xe7; xa8;
  x80; x0a; xe7; xaa; x98; x0a; xe7; xaa;
  x97; x0a; xe7; xaa; x96; x0a; xe7; xab;
  xa5; x0a; xe7; xab; xa3; x0a; xe7; xad;
  x89; x0a; xe7; xad; x96; x0a; xe7; xad;
  x86; x0a; xe7; xad; x90; x0a; xe7; xad;
  x92; x0a; xe7; xad; x94; x0a; xe7; xad;
  x8d; x0a; xe7; xad; x8b; x0a; xe7; xad;
  x8f; x0a; xe7; xb2; x9f; x0a; xe7; xb2;
  xa5; x0a; xe7; xb5; x9e; x0a; xe7; xb5;
  x90; x0a; xe7; xb5; xa8; x0a; xe7; xb5;
  x95; x0a; xe7; xb4; xab; x0a; xe7; xb5;
  xae; x0a; xe7; xb5; xb2; x0a; xe7; xb5;
  xa1; x0a; xe7; xb5; xa6; x0a; xe7; xb5;
  xa2; x0a; xe7; xb5; xb0; x0a; xe7; xb5;
  xb3; x0a; xe5; x96; x84; x0a; xe7; xbf;
  x94; x0a; xe7; xbf; x95; x0a; xe8; x80;
  x8b; x0a; xe8; x81; x92; x0a; xe8; x82;
  x85; x0a; xe8; x85; x95; x0a; xe8; x85;
  x94; x0a; xe8; x85; x8b; x0a; xe8; x85;
  x91; x0a; xe8; x85; x8e; x0a; xe8; x84;
  xb9; x0a; xe8; x85; x86; x0a; xe8; x84;
  xbe; x0a; xe8; x85; x8c; x0a; xe8; x85;
  x93; x0a; xe8; x85; xb4; x0a; xe8; x88
].
(* tests/test_data/whatwg/big5_whatwg_test_encode_in.txt, entries 29952..30207 *)
Definition big5_encode_in_117 : list byte := [
  x92; x0a; xe8; x88; x9c; x0a; xe8; x8f;
  xa9; x0a; xe8; x90; x83; x0a; xe8; x8f;
  xb8; x0a; xe8; x90; x8d; x0a; xe8; x8f;
  xa0; x0a; xe8; x8f; x85; x0a; xe8; x90;
  x8b; x0a; xe8; x8f; xaf; x0a; xe8; x8f;
  xb1; x0a; xe8; x8f; xb4; x0a; xe8; x91;
  x97; x0a; xe8; x90; x8a; x0a; xe8; x8f;
  xb0; x0a; xe8; x90; x8c; x0a; xe8; x8f;
  x8c; x0a; xe8; x8f; xbd; x0a; xe8; x8f;
  xb2; x0a; xe8; x8f; x8a; x0a; xe8; x90;
  xb8; x0a; xe8; x90; x8e; x0a; xe8; x90;
  x84; x0a; xe8; x8f; x9c; x0a; xe8; x90;
  x87; x0a; xe8; x8f; x94; x0a; xe8; x8f;
  x9f; x0a; xe8; x99; x9b; x0a; xe8; x9b;
  x9f; x0a; xe8; x9b; x99; x0a; xe8; x9b;
  xad; x0a; xe8; x9b; x94; x0a; xe8; x9b;
  x9b; x0a; xe8; x9b; xa4; x0a; xe8; x9b;
  x90; x0a; xe8; x9b; x9e; x0a; xe8; xa1;
  x97; x0a; xe8; xa3; x81; x0a; xe8; xa3;
  x82; x0a; xe8; xa2; xb1; x0a; xe8; xa6;
  x83; x0a; xe8; xa6; x96; x0a; xe8; xa8;
  xbb; x0a; xe8; xa9; xa0; x0a; xe8; xa9;
  x95; x0a; xe8; xa9; x9e; x0a; xe8; xa8;
  xbc; x0a; xe8; xa9; x81; x0a; xe8; xa9;
  x94; x0a; xe8; xa9; x9b; x0a; xe8; xa9;
  x90; x0a; xe8; xa9; x86; x0a; xe8; xa8;
  xb4; x0a; xe8; xa8; xba; x0a; xe8; xa8;
  xb6; x0a; xe8; xa9; x96; x0a; xe8; xb1;
  xa1; x0a; xe8; xb2; x82; x0a; xe8; xb2;
  xaf; x0a; xe8; xb2; xbc; x0a; xe8; xb2;
  xb3; x0a; xe8; xb2; xbd; x0a; xe8; xb3;
  x81; x0a; xe8; xb2; xbb; x0a; xe8; xb3
].
(* tests/test_data/whatwg/big5_whatwg_test_encode_in.txt, entries 30208..30463 *)
Definition big5_encode_in_118 : list byte := [
  x80; x0a; xe8; xb2; xb4; x0a; xe8; xb2;
  xb7; x0a; xe8; xb2; xb6; x0a; xe8; xb2;
  xbf; x0a; xe8; xb2; xb8; x0a; xe8; xb6;
  x8a; x0a; xe8; xb6; x85; x0a; xe8; xb6;
  x81; x0a; xe8; xb7; x8e; x0a; xe8; xb7;
  x9d; x0a; xe8; xb7; x8b; x0a; xe8; xb7;
  x9a; x0a; xe8; xb7; x91; x0a; xe8; xb7;
  x8c; x0a; xe8; xb7; x9b; x0a; xe8; xb7;
  x86; x0a; xe8; xbb; xbb; x0a; xe8; xbb;
  xb8; x0a; xe8; xbb; xbc; x0a; xe8; xbe;
  x9c; x0a; xe9; x80; xae; x0a; xe9; x80;
  xb5; x0a; xe9; x80; xb1; x0a; xe9; x80;
  xb8; x0a; xe9; x80; xb2; x0a; xe9; x80;
  xb6; x0a; xe9; x84; x82; x0a; xe9; x83;
  xb5; x0a; xe9; x84; x89; x0a; xe9; x83;
  xbe; x0a; xe9; x85; xa3; x0a; xe9; x85;
  xa5; x0a; xe9; x87; x8f; x0a; xe9; x88;
  x94; x0a; xe9; x88; x95; x0a; xe9; x88;
  xa3; x0a; xe9; x88; x89; x0a; xe9; x88;
  x9e; x0a; xe9; x88; x8d; x0a; xe9; x88;
  x90; x0a; xe9; x88; x87; x0a; xe9; x88;
  x91; x0a; xe9; x96; x94; x0a; xe9; x96;
  x8f; x0a; xe9; x96; x8b; x0a; xe9; x96;
  x91; x0a; xe9; x96; x93; x0a; xe9; x96;
  x92; x0a; xe9; x96; x8e; x0a; xe9; x9a;
  x8a; x0a; xe9; x9a; x8e; x0a; xe9; x9a;
  x8b; x0a; xe9; x99; xbd; x0a; xe9; x9a;
  x85; x0a; xe9; x9a; x86; x0a; xe9; x9a;
  x8d; x0a; xe9; x99; xb2; x0a; xe9; x9a;
  x84; x0a; xe9; x9b; x81; x0a; xe9; x9b;
  x85; x0a; xe9; x9b; x84; x0a; xe9; x9b;
  x86; x0a; xe9; x9b; x87; x0a; xe9; x9b
].
(* tests/test_data/whatwg/big5_whatwg_test_encode_in.txt, entries 30464..30719 *)
Definition big5_encode_in_119 : list byte := [
  xaf; x0a; xe9; x9b; xb2; x0a; xe9; x9f;
  x8c; x0a; xe9; xa0; x85; x0a; xe9; xa0;
  x86; x0a; xe9; xa0; x88; x0a; xe9; xa3;
  xa7; x0a; xe9; xa3; xaa; x0a; xe9; xa3;
  xaf; x0a; xe9; xa3; xa9; x0a; xe9; xa3;
  xb2; x0a; xe9; xa3; xad; x0a; xe9; xa6;
  xae; x0a; xe9; xa6; xad; x0a; xe9; xbb;
  x83; x0a; xe9; xbb; x8d; x0a; xe9; xbb;
  x91; x0a; xe4; xba; x82; x0a; xe5; x82;
  xad; x0a; xe5; x82; xb5; x0a; xe5; x82;
  xb2; x0a; xe5; x82; xb3; x0a; xe5; x83;
  x85; x0a; xe5; x82; xbe; x0a; xe5; x82;
  xac; x0a; xe5; x82; xb7; x0a; xe5; x82;
  xbb; x0a; xe5; x82; xaf; x0a; xe5; x83;
  x87; x0a; xe5; x89; xbf; x0a; xe5; x89;
  xb7; x0a; xe5; x89; xbd; x0a; xe5; x8b;
  x9f; x0a; xe5; x8b; xa6; x0a; xe5; x8b;
  xa4; x0a; xe5; x8b; xa2; x0a; xe5; x8b;
  xa3; x0a; xe5; x8c; xaf; x0a; xe5; x97;
  x9f; x0a; xe5; x97; xa8; x0a; xe5; x97;
  x93; x0a; xe5; x97; xa6; x0a; xe5; x97;
  x8e; x0a; xe5; x97; x9c; x0a; xe5; x97;
  x87; x0a; xe5; x97; x91; x0a; xe5; x97;
  xa3; x0a; xe5; x97; xa4; x0a; xe5; x97;
  xaf; x0a; xe5; x97; x9a; x0a; xe5; x97;
  xa1; x0a; xe5; x97; x85; x0a; xe5; x97;
  x86; x0a; xe5; x97; xa5; x0a; xe5; x97;
  x89; x0a; xe5; x9c; x92; x0a; xe5; x9c;
  x93; x0a; xe5; xa1; x9e; x0a; xe5; xa1;
  x91; x0a; xe5; xa1; x98; x0a; xe5; xa1;
  x97; x0a; xe5; xa1; x9a; x0a; xe5; xa1;
  x94; x0a; xe5; xa1; xab; x0a; xe5; xa1
].
(* tests/test_data/whatwg/big5_whatwg_test_encode_in.txt, entries 30720..30975 *)
Definition big5_encode_in_120 : list byte := [
  x8c; x0a; xe5; xa1; xad; x0a; xe5; xa1;
  x8a; x0a; xe5; xa1; xa2; x0a; xe5; xa1;
  x92; x0a; xe5; xa1; x8b; x0a; xe5; xa5;
  xa7; x0a; xe5; xab; x81; x0a; xe5; xab;
  x89; x0a; xe5; xab; x8c; x0a; xe5; xaa;
  xbe; x0a; xe5; xaa; xbd; x0a; xe5; xaa;
  xbc; x0a; xe5; xaa; xb3; x0a; xe5; xab;
  x82; x0a; xe5; xaa; xb2; x0a; xe5; xb5;
  xa9; x0a; xe5; xb5; xaf; x0a; xe5; xb9;
  x8c; x0a; xe5; xb9; xb9; x0a; xe5; xbb;
  x89; x0a; xe5; xbb; x88; x0a; xe5; xbc;
  x92; x0a; xe5; xbd; x99; x0a; xe5; xbe;
  xac; x0a; xe5; xbe; xae; x0a; xe6; x84;
  x9a; x0a; xe6; x84; x8f; x0a; xe6; x85;
  x88; x0a; xe6; x84; x9f; x0a; xe6; x83;
  xb3; x0a; xe6; x84; x9b; x0a; xe6; x83;
  xb9; x0a; xe6; x84; x81; x0a; xe6; x84;
  x88; x0a; xe6; x85; x8e; x0a; xe6; x85;
  x8c; x0a; xe6; x85; x84; x0a; xe6; x85;
  x8d; x0a; xe6; x84; xbe; x0a; xe6; x84;
  xb4; x0a; xe6; x84; xa7; x0a; xe6; x84;
  x8d; x0a; xe6; x84; x86; x0a; xe6; x84;
  xb7; x0a; xe6; x88; xa1; x0a; xe6; x88;
  xa2; x0a; xe6; x90; x93; x0a; xe6; x90;
  xbe; x0a; xe6; x90; x9e; x0a; xe6; x90;
  xaa; x0a; xe6; x90; xad; x0a; xe6; x90;
  xbd; x0a; xe6; x90; xac; x0a; xe6; x90;
  x8f; x0a; xe6; x90; x9c; x0a; xe6; x90;
  x94; x0a; xe6; x90; x8d; x0a; xe6; x90;
  xb6; x0a; xe6; x90; x96; x0a; xe6; x90;
  x97; x0a; xe6; x90; x86; x0a; xe6; x95;
  xac; x0a; xe6; x96; x9f; x0a; xe6; x96
].
(* tests/test_data/whatwg/big5_whatwg_test_encode_in.txt, entries 30976..31231 *)
Definition big5_encode_in_121 : list byte := [
  xb0; x0a; xe6; x9a; x97; x0a; xe6; x9a;
  x89; x0a; xe6; x9a; x87; x0a; xe6; x9a;
  x88; x0a; xe6; x9a; x96; x0a; xe6; x9a;
  x84; x0a; xe6; x9a; x98; x0a; xe6; x9a;
  x8d; x0a; xe6; x9c; x83; x0a; xe6; xa6;
  x94; x0a; xe6; xa5; xad; x0a; xe6; xa5;
  x9a; x0a; xe6; xa5; xb7; x0a; xe6; xa5;
  xa0; x0a; xe6; xa5; x94; x0a; xe6; xa5;
  xb5; x0a; xe6; xa4; xb0; x0a; xe6; xa6;
  x82; x0a; xe6; xa5; x8a; x0a; xe6; xa5;
  xa8; x0a; xe6; xa5; xab; x0a; xe6; xa5;
  x9e; x0a; xe6; xa5; x93; x0a; xe6; xa5;
  xb9; x0a; xe6; xa6; x86; x0a; xe6; xa5;
  x9d; x0a; xe6; xa5; xa3; x0a; xe6; xa5;
  x9b; x0a; xe6; xad; x87; x0a; xe6; xad;
  xb2; x0a; xe6; xaf; x80; x0a; xe6; xae;
  xbf; x0a; xe6; xaf; x93; x0a; xe6; xaf;
  xbd; x0a; xe6; xba; xa2; x0a; xe6; xba;
  xaf; x0a; xe6; xbb; x93; x0a; xe6; xba;
  xb6; x0a; xe6; xbb; x82; x0a; xe6; xba;
  x90; x0a; xe6; xba; x9d; x0a; xe6; xbb;
  x87; x0a; xe6; xbb; x85; x0a; xe6; xba;
  xa5; x0a; xe6; xba; x98; x0a; xe6; xba;
  xbc; x0a; xe6; xba; xba; x0a; xe6; xba;
  xab; x0a; xe6; xbb; x91; x0a; xe6; xba;
  x96; x0a; xe6; xba; x9c; x0a; xe6; xbb;
  x84; x0a; xe6; xbb; x94; x0a; xe6; xba;
  xaa; x0a; xe6; xba; xa7; x0a; xe6; xba;
  xb4; x0a; xe7; x85; x8e; x0a; xe7; x85;
  x99; x0a; xe7; x85; xa9; x0a; xe7; x85;
  xa4; x0a; xe7; x85; x89; x0a; xe7; x85;
  xa7; x0a; xe7; x85; x9c; x0a; xe7; x85
].
(* tests/test_data/whatwg/big5_whatwg_test_encode_in.txt, entries 31232..31487 *)
Definition big5_encode_in_122 : list byte := [
  xac; x0a; xe7; x85; xa6; x0a; xe7; x85;
  x8c; x0a; xe7; x85; xa5; x0a; xe7; x85;
  x9e; x0a; xe7; x85; x86; x0a; xe7; x85;
  xa8; x0a; xe7; x85; x96; x0a; xe7; x88;
  xba; x0a; xe7; x89; x92; x0a; xe7; x8c;
  xb7; x0a; xe7; x8d; x85; x0a; xe7; x8c;
  xbf; x0a; xe7; x8c; xbe; x0a; xe7; x91;
  xaf; x0a; xe7; x91; x9a; x0a; xe7; x91;
  x95; x0a; xe7; x91; x9f; x0a; xe7; x91;
  x9e; x0a; xe7; x91; x81; x0a; xe7; x90;
  xbf; x0a; xe7; x91; x99; x0a; xe7; x91;
  x9b; x0a; xe7; x91; x9c; x0a; xe7; x95;
  xb6; x0a; xe7; x95; xb8; x0a; xe7; x98;
  x80; x0a; xe7; x97; xb0; x0a; xe7; x98;
  x81; x0a; xe7; x97; xb2; x0a; xe7; x97;
  xb1; x0a; xe7; x97; xba; x0a; xe7; x97;
  xbf; x0a; xe7; x97; xb4; x0a; xe7; x97;
  xb3; x0a; xe7; x9b; x9e; x0a; xe7; x9b;
  x9f; x0a; xe7; x9d; x9b; x0a; xe7; x9d;
  xab; x0a; xe7; x9d; xa6; x0a; xe7; x9d;
  x9e; x0a; xe7; x9d; xa3; x0a; xe7; x9d;
  xb9; x0a; xe7; x9d; xaa; x0a; xe7; x9d;
  xac; x0a; xe7; x9d; x9c; x0a; xe7; x9d;
  xa5; x0a; xe7; x9d; xa8; x0a; xe7; x9d;
  xa2; x0a; xe7; x9f; xae; x0a; xe7; xa2;
  x8e; x0a; xe7; xa2; xb0; x0a; xe7; xa2;
  x97; x0a; xe7; xa2; x98; x0a; xe7; xa2;
  x8c; x0a; xe7; xa2; x89; x0a; xe7; xa1;
  xbc; x0a; xe7; xa2; x91; x0a; xe7; xa2;
  x93; x0a; xe7; xa1; xbf; x0a; xe7; xa5;
  xba; x0a; xe7; xa5; xbf; x0a; xe7; xa6;
  x81; x0a; xe8; x90; xac; x0a; xe7; xa6
].
(* tests/test_data/whatwg/big5_whatwg_test_encode_in.txt, entries 31488..31743 *)
Definition big5_encode_in_123 : list byte := [
  xbd; x0a; xe7; xa8; x9c; x0a; xe7; xa8;
  x9a; x0a; xe7; xa8; xa0; x0a; xe7; xa8;
  x94; x0a; xe7; xa8; x9f; x0a; xe7; xa8;
  x9e; x0a; xe7; xaa; x9f; x0a; xe7; xaa;
  xa0; x0a; xe7; xad; xb7; x0a; xe7; xaf;
  x80; x0a; xe7; xad; xa0; x0a; xe7; xad;
  xae; x0a; xe7; xad; xa7; x0a; xe7; xb2;
  xb1; x0a; xe7; xb2; xb3; x0a; xe7; xb2;
  xb5; x0a; xe7; xb6; x93; x0a; xe7; xb5;
  xb9; x0a; xe7; xb6; x91; x0a; xe7; xb6;
  x81; x0a; xe7; xb6; x8f; x0a; xe7; xb5;
  x9b; x0a; xe7; xbd; xae; x0a; xe7; xbd;
  xa9; x0a; xe7; xbd; xaa; x0a; xe7; xbd;
  xb2; x0a; xe7; xbe; xa9; x0a; xe7; xbe;
  xa8; x0a; xe7; xbe; xa4; x0a; xe8; x81;
  x96; x0a; xe8; x81; x98; x0a; xe8; x82;
  x86; x0a; xe8; x82; x84; x0a; xe8; x85;
  xb1; x0a; xe8; x85; xb0; x0a; xe8; x85;
  xb8; x0a; xe8; x85; xa5; x0a; xe8; x85;
  xae; x0a; xe8; x85; xb3; x0a; xe8; x85;
  xab; x0a; xe8; x85; xb9; x0a; xe8; x85;
  xba; x0a; xe8; x85; xa6; x0a; xe8; x88;
  x85; x0a; xe8; x89; x87; x0a; xe8; x92;
  x82; x0a; xe8; x91; xb7; x0a; xe8; x90;
  xbd; x0a; xe8; x90; xb1; x0a; xe8; x91;
  xb5; x0a; xe8; x91; xa6; x0a; xe8; x91;
  xab; x0a; xe8; x91; x89; x0a; xe8; x91;
  xac; x0a; xe8; x91; x9b; x0a; xe8; x90;
  xbc; x0a; xe8; x90; xb5; x0a; xe8; x91;
  xa1; x0a; xe8; x91; xa3; x0a; xe8; x91;
  xa9; x0a; xe8; x91; xad; x0a; xe8; x91;
  x86; x0a; xe8; x99; x9e; x0a; xe8; x99
].
(* tests/test_data/whatwg/big5_whatwg_test_encode_in.txt, entries 31744..31999 *)
Definition big5_encode_in_124 : list byte := [
  x9c; x0a; xe8; x99; x9f; x0a; xe8; x9b;
  xb9; x0a; xe8; x9c; x93; x0a; xe8; x9c;
  x88; x0a; xe8; x9c; x87; x0a; xe8; x9c;
  x80; x0a; xe8; x9b; xbe; x0a; xe8; x9b;
  xbb; x0a; xe8; x9c; x82; x0a; xe8; x9c;
  x83; x0a; xe8; x9c; x86; x0a; xe8; x9c;
  x8a; x0a; xe8; xa1; x99; x0a; xe8; xa3;
  x9f; x0a; xe8; xa3; x94; x0a; xe8; xa3;
  x99; x0a; xe8; xa3; x9c; x0a; xe8; xa3;
  x98; x0a; xe8; xa3; x9d; x0a; xe8; xa3;
  xa1; x0a; xe8; xa3; x8a; x0a; xe8; xa3;
  x95; x0a; xe8; xa3; x92; x0a; xe8; xa6;
  x9c; x0a; xe8; xa7; xa3; x0a; xe8; xa9;
  xab; x0a; xe8; xa9; xb2; x0a; xe8; xa9;
  xb3; x0a; xe8; xa9; xa6; x0a; xe8; xa9;
  xa9; x0a; xe8; xa9; xb0; x0a; xe8; xaa;
  x87; x0a; xe8; xa9; xbc; x0a; xe8; xa9;
  xa3; x0a; xe8; xaa; xa0; x0a; xe8; xa9;
  xb1; x0a; xe8; xaa; x85; x0a; xe8; xa9;
  xad; x0a; xe8; xa9; xa2; x0a; xe8; xa9;
  xae; x0a; xe8; xa9; xac; x0a; xe8; xa9;
  xb9; x0a; xe8; xa9; xbb; x0a; xe8; xa8;
  xbe; x0a; xe8; xa9; xa8; x0a; xe8; xb1;
  xa2; x0a; xe8; xb2; x8a; x0a; xe8; xb2;
  x89; x0a; xe8; xb3; x8a; x0a; xe8; xb3;
  x87; x0a; xe8; xb3; x88; x0a; xe8; xb3;
  x84; x0a; xe8; xb2; xb2; x0a; xe8; xb3;
  x83; x0a; xe8; xb3; x82; x0a; xe8; xb3;
  x85; x0a; xe8; xb7; xa1; x0a; xe8; xb7;
  x9f; x0a; xe8; xb7; xa8; x0a; xe8; xb7;
  xaf; x0a; xe8; xb7; xb3; x0a; xe8; xb7;
  xba; x0a; xe8; xb7; xaa; x0a; xe8; xb7
].
(* tests/test_data/whatwg/big5_whatwg_test_encode_in.txt, entries 32000..32255 *)
Definition big5_encode_in_125 : list byte := [
  xa4; x0a; xe8; xb7; xa6; x0a; xe8; xba;
  xb2; x0a; xe8; xbc; x83; x0a; xe8; xbc;
  x89; x0a; xe8; xbb; xbe; x0a; xe8; xbc;
  x8a; x0a; xe8; xbe; x9f; x0a; xe8; xbe;
  xb2; x0a; xe9; x81; x8b; x0a; xe9; x81;
  x8a; x0a; xe9; x81; x93; x0a; xe9; x81;
  x82; x0a; xe9; x81; x94; x0a; xe9; x80;
  xbc; x0a; xe9; x81; x95; x0a; xe9; x81;
  x90; x0a; xe9; x81; x87; x0a; xe9; x81;
  x8f; x0a; xe9; x81; x8e; x0a; xe9; x81;
  x8d; x0a; xe9; x81; x91; x0a; xe9; x80;
  xbe; x0a; xe9; x81; x81; x0a; xe9; x84;
  x92; x0a; xe9; x84; x97; x0a; xe9; x85;
  xac; x0a; xe9; x85; xaa; x0a; xe9; x85;
  xa9; x0a; xe9; x87; x89; x0a; xe9; x88;
  xb7; x0a; xe9; x89; x97; x0a; xe9; x88;
  xb8; x0a; xe9; x88; xbd; x0a; xe9; x89;
  x80; x0a; xe9; x88; xbe; x0a; xe9; x89;
  x9b; x0a; xe9; x89; x8b; x0a; xe9; x89;
  xa4; x0a; xe9; x89; x91; x0a; xe9; x88;
  xb4; x0a; xe9; x89; x89; x0a; xe9; x89;
  x8d; x0a; xe9; x89; x85; x0a; xe9; x88;
  xb9; x0a; xe9; x88; xbf; x0a; xe9; x89;
  x9a; x0a; xe9; x96; x98; x0a; xe9; x9a;
  x98; x0a; xe9; x9a; x94; x0a; xe9; x9a;
  x95; x0a; xe9; x9b; x8d; x0a; xe9; x9b;
  x8b; x0a; xe9; x9b; x89; x0a; xe9; x9b;
  x8a; x0a; xe9; x9b; xb7; x0a; xe9; x9b;
  xbb; x0a; xe9; x9b; xb9; x0a; xe9; x9b;
  xb6; x0a; xe9; x9d; x96; x0a; xe9; x9d;
  xb4; x0a; xe9; x9d; xb6; x0a; xe9; xa0;
  x90; x0a; xe9; xa0; x91; x0a; xe9; xa0
].
(* tests/test_data/whatwg/big5_whatwg_test_encode_in.txt, entries 32256..32511 *)
Definition big5_encode_in_126 : list byte := [
  x93; x0a; xe9; xa0; x8a; x0a; xe9; xa0;
  x92; x0a; xe9; xa0; x8c; x0a; xe9; xa3;
  xbc; x0a; xe9; xa3; xb4; x0a; xe9; xa3;
  xbd; x0a; xe9; xa3; xbe; x0a; xe9; xa6;
  xb3; x0a; xe9; xa6; xb1; x0a; xe9; xa6;
  xb4; x0a; xe9; xab; xa1; x0a; xe9; xb3;
  xa9; x0a; xe9; xba; x82; x0a; xe9; xbc;
  x8e; x0a; xe9; xbc; x93; x0a; xe9; xbc;
  xa0; x0a; xe5; x83; xa7; x0a; xe5; x83;
  xae; x0a; xe5; x83; xa5; x0a; xe5; x83;
  x96; x0a; xe5; x83; x9a; x0a; xe5; x83;
  x95; x0a; xe5; x83; x8f; x0a; xe5; x83;
  x91; x0a; xe5; x83; xb1; x0a; xe5; x83;
  x8e; x0a; xe5; x83; xa9; x0a; xe5; x85;
  xa2; x0a; xe5; x87; xb3; x0a; xe5; x8a;
  x83; x0a; xe5; x8a; x82; x0a; xe5; x8c;
  xb1; x0a; xe5; x8e; xad; x0a; xe5; x97;
  xbe; x0a; xe5; x98; x80; x0a; xe5; x98;
  x9b; x0a; xe5; x98; x97; x0a; xe5; x97;
  xbd; x0a; xe5; x98; x94; x0a; xe5; x98;
  x86; x0a; xe5; x98; x89; x0a; xe5; x98;
  x8d; x0a; xe5; x98; x8e; x0a; xe5; x97;
  xb7; x0a; xe5; x98; x96; x0a; xe5; x98;
  x9f; x0a; xe5; x98; x88; x0a; xe5; x98;
  x90; x0a; xe5; x97; xb6; x0a; xe5; x9c;
  x98; x0a; xe5; x9c; x96; x0a; xe5; xa1;
  xb5; x0a; xe5; xa1; xbe; x0a; xe5; xa2;
  x83; x0a; xe5; xa2; x93; x0a; xe5; xa2;
  x8a; x0a; xe5; xa1; xb9; x0a; xe5; xa2;
  x85; x0a; xe5; xa1; xbd; x0a; xe5; xa3;
  xbd; x0a; xe5; xa4; xa5; x0a; xe5; xa4;
  xa2; x0a; xe5; xa4; xa4; x0a; xe5; xa5
].
(* tests/test_data/whatwg/big5_whatwg_test_encode_in.txt, entries 32512..32767 *)
Definition big5_encode_in_127 : list byte := [
  xaa; x0a; xe5; xa5; xa9; x0a; xe5; xab;
  xa1; x0a; xe5; xab; xa6; x0a; xe5; xab;
  xa9; x0a; xe5; xab; x97; x0a; xe5; xab;
  x96; x0a; xe5; xab; x98; x0a; xe5; xab;
  xa3; x0a; xe5; xad; xb5; x0a; xe5; xaf;
  x9e; x0a; xe5; xaf; xa7; x0a; xe5; xaf;
  xa1; x0a; xe5; xaf; xa5; x0a; xe5; xaf;
  xa6; x0a; xe5; xaf; xa8; x0a; xe5; xaf;
  xa2; x0a; xe5; xaf; xa4; x0a; xe5; xaf;
  x9f; x0a; xe5; xb0; x8d; x0a; xe5; xb1;
  xa2; x0a; xe5; xb6; x84; x0a; xe5; xb6;
  x87; x0a; xe5; xb9; x9b; x0a; xe5; xb9;
  xa3; x0a; xe5; xb9; x95; x0a; xe5; xb9;
  x97; x0a; xe5; xb9; x94; x0a; xe5; xbb;
  x93; x0a; xe5; xbb; x96; x0a; xe5; xbc;
  x8a; x0a; xe5; xbd; x86; x0a; xe5; xbd;
  xb0; x0a; xe5; xbe; xb9; x0a; xe6; x85;
  x87; x0a; xe6; x84; xbf; x0a; xe6; x85;
  x8b; x0a; xe6; x85; xb7; x0a; xe6; x85;
  xa2; x0a; xe6; x85; xa3; x0a; xe6; x85;
  x9f; x0a; xe6; x85; x9a; x0a; xe6; x85;
  x98; x0a; xe6; x85; xb5; x0a; xe6; x88;
  xaa; x0a; xe6; x92; x87; x0a; xe6; x91;
  x98; x0a; xe6; x91; x94; x0a; xe6; x92;
  xa4; x0a; xe6; x91; xb8; x0a; xe6; x91;
  x9f; x0a; xe6; x91; xba; x0a; xe6; x91;
  x91; x0a; xe6; x91; xa7; x0a; xe6; x90;
  xb4; x0a; xe6; x91; xad; x0a; xe6; x91;
  xbb; x0a; xe6; x95; xb2; x0a; xe6; x96;
  xa1; x0a; xe6; x97; x97; x0a; xe6; x97;
  x96; x0a; xe6; x9a; xa2; x0a; xe6; x9a;
  xa8; x0a; xe6; x9a; x9d; x0a; xe6; xa6
].
(* tests/test_data/whatwg/big5_whatwg_test_encode_in.txt, entries 32768..33023 *)
Definition big5_encode_in_128 : list byte := [
  x9c; x0a; xe6; xa6; xa8; x0a; xe6; xa6;
  x95; x0a; xe6; xa7; x81; x0a; xe6; xa6;
  xae; x0a; xe6; xa7; x93; x0a; xe6; xa7;
  x8b; x0a; xe6; xa6; x9b; x0a; xe6; xa6;
  xb7; x0a; xe6; xa6; xbb; x0a; xe6; xa6;
  xab; x0a; xe6; xa6; xb4; x0a; xe6; xa7;
  x90; x0a; xe6; xa7; x8d; x0a; xe6; xa6;
  xad; x0a; xe6; xa7; x8c; x0a; xe6; xa6;
  xa6; x0a; xe6; xa7; x83; x0a; xe6; xa6;
  xa3; x0a; xe6; xad; x89; x0a; xe6; xad;
  x8c; x0a; xe6; xb0; xb3; x0a; xe6; xbc;
  xb3; x0a; xe6; xbc; x94; x0a; xe6; xbb;
  xbe; x0a; xe6; xbc; x93; x0a; xe6; xbb;
  xb4; x0a; xe6; xbc; xa9; x0a; xe6; xbc;
  xbe; x0a; xe6; xbc; xa0; x0a; xe6; xbc;
  xac; x0a; xe6; xbc; x8f; x0a; xe6; xbc;
  x82; x0a; xe6; xbc; xa2; x0a; xe6; xbb;
  xbf; x0a; xe6; xbb; xaf; x0a; xe6; xbc;
  x86; x0a; xe6; xbc; xb1; x0a; xe6; xbc;
  xb8; x0a; xe6; xbc; xb2; x0a; xe6; xbc;
  xa3; x0a; xe6; xbc; x95; x0a; xe6; xbc;
  xab; x0a; xe6; xbc; xaf; x0a; xe6; xbe;
  x88; x0a; xe6; xbc; xaa; x0a; xe6; xbb;
  xac; x0a; xe6; xbc; x81; x0a; xe6; xbb;
  xb2; x0a; xe6; xbb; x8c; x0a; xe6; xbb;
  xb7; x0a; xe7; x86; x94; x0a; xe7; x86;
  x99; x0a; xe7; x85; xbd; x0a; xe7; x86;
  x8a; x0a; xe7; x86; x84; x0a; xe7; x86;
  x92; x0a; xe7; x88; xbe; x0a; xe7; x8a;
  x92; x0a; xe7; x8a; x96; x0a; xe7; x8d;
  x84; x0a; xe7; x8d; x90; x0a; xe7; x91;
  xa4; x0a; xe7; x91; xa3; x0a; xe7; x91
].
(* tests/test_data/whatwg/big5_whatwg_test_encode_in.txt, entries 33024..33279 *)
Definition big5_encode_in_129 : list byte := [
  xaa; x0a; xe7; x91; xb0; x0a; xe7; x91;
  xad; x0a; xe7; x94; x84; x0a; xe7; x96;
  x91; x0a; xe7; x98; xa7; x0a; xe7; x98;
  x8d; x0a; xe7; x98; x8b; x0a; xe7; x98;
  x89; x0a; xe7; x98; x93; x0a; xe7; x9b;
  xa1; x0a; xe7; x9b; xa3; x0a; xe7; x9e;
  x84; x0a; xe7; x9d; xbd; x0a; xe7; x9d;
  xbf; x0a; xe7; x9d; xa1; x0a; xe7; xa3;
  x81; x0a; xe7; xa2; x9f; x0a; xe7; xa2;
  xa7; x0a; xe7; xa2; xb3; x0a; xe7; xa2;
  xa9; x0a; xe7; xa2; xa3; x0a; xe7; xa6;
  x8e; x0a; xe7; xa6; x8f; x0a; xe7; xa6;
  x8d; x0a; xe7; xa8; xae; x0a; xe7; xa8;
  xb1; x0a; xe7; xaa; xaa; x0a; xe7; xaa;
  xa9; x0a; xe7; xab; xad; x0a; xe7; xab;
  xaf; x0a; xe7; xae; xa1; x0a; xe7; xae;
  x95; x0a; xe7; xae; x8b; x0a; xe7; xad;
  xb5; x0a; xe7; xae; x97; x0a; xe7; xae;
  x9d; x0a; xe7; xae; x94; x0a; xe7; xae;
  x8f; x0a; xe7; xae; x87; x0a; xe7; xae;
  x84; x0a; xe7; xb2; xb9; x0a; xe7; xb2;
  xbd; x0a; xe7; xb2; xbe; x0a; xe7; xb6;
  xbb; x0a; xe7; xb6; xb0; x0a; xe7; xb6;
  x9c; x0a; xe7; xb6; xbd; x0a; xe7; xb6;
  xbe; x0a; xe7; xb6; xa0; x0a; xe7; xb7;
  x8a; x0a; xe7; xb6; xb4; x0a; xe7; xb6;
  xb2; x0a; xe7; xb6; xb1; x0a; xe7; xb6;
  xba; x0a; xe7; xb6; xa2; x0a; xe7; xb6;
  xbf; x0a; xe7; xb6; xb5; x0a; xe7; xb6;
  xb8; x0a; xe7; xb6; xad; x0a; xe7; xb7;
  x87; x0a; xe7; xb6; xac; x0a; xe7; xbd;
  xb0; x0a; xe7; xbf; xa0; x0a; xe7; xbf
].
(* tests/test_data/whatwg/big5_whatwg_test_encode_in.txt, entries 33280..33535 *)
Definition big5_encode_in_130 : list byte := [
  xa1; x0a; xe7; xbf; x9f; x0a; xe8; x81;
  x9e; x0a; xe8; x81; x9a; x0a; xe8; x82;
  x87; x0a; xe8; x85; x90; x0a; xe8; x86;
  x80; x0a; xe8; x86; x8f; x0a; xe8; x86;
  x88; x0a; xe8; x86; x8a; x0a; xe8; x85;
  xbf; x0a; xe8; x86; x82; x0a; xe8; x87;
  xa7; x0a; xe8; x87; xba; x0a; xe8; x88;
  x87; x0a; xe8; x88; x94; x0a; xe8; x88;
  x9e; x0a; xe8; x89; x8b; x0a; xe8; x93;
  x89; x0a; xe8; x92; xbf; x0a; xe8; x93;
  x86; x0a; xe8; x93; x84; x0a; xe8; x92;
  x99; x0a; xe8; x92; x9e; x0a; xe8; x92;
  xb2; x0a; xe8; x92; x9c; x0a; xe8; x93;
  x8b; x0a; xe8; x92; xb8; x0a; xe8; x93;
  x80; x0a; xe8; x93; x93; x0a; xe8; x92;
  x90; x0a; xe8; x92; xbc; x0a; xe8; x93;
  x91; x0a; xe8; x93; x8a; x0a; xe8; x9c;
  xbf; x0a; xe8; x9c; x9c; x0a; xe8; x9c;
  xbb; x0a; xe8; x9c; xa2; x0a; xe8; x9c;
  xa5; x0a; xe8; x9c; xb4; x0a; xe8; x9c;
  x98; x0a; xe8; x9d; x95; x0a; xe8; x9c;
  xb7; x0a; xe8; x9c; xa9; x0a; xe8; xa3;
  xb3; x0a; xe8; xa4; x82; x0a; xe8; xa3;
  xb4; x0a; xe8; xa3; xb9; x0a; xe8; xa3;
  xb8; x0a; xe8; xa3; xbd; x0a; xe8; xa3;
  xa8; x0a; xe8; xa4; x9a; x0a; xe8; xa3;
  xaf; x0a; xe8; xaa; xa6; x0a; xe8; xaa;
  x8c; x0a; xe8; xaa; x9e; x0a; xe8; xaa;
  xa3; x0a; xe8; xaa; x8d; x0a; xe8; xaa;
  xa1; x0a; xe8; xaa; x93; x0a; xe8; xaa;
  xa4; x0a; xe8; xaa; xaa; x0a; xe8; xaa;
  xa5; x0a; xe8; xaa; xa8; x0a; xe8; xaa
].
(* tests/test_data/whatwg/big5_whatwg_test_encode_in.txt, entries 33536..33791 *)
Definition big5_encode_in_131 : list byte := [
  x98; x0a; xe8; xaa; x91; x0a; xe8; xaa;
  x9a; x0a; xe8; xaa; xa7; x0a; xe8; xb1;
  xaa; x0a; xe8; xb2; x8d; x0a; xe8; xb2;
  x8c; x0a; xe8; xb3; x93; x0a; xe8; xb3;
  x91; x0a; xe8; xb3; x92; x0a; xe8; xb5;
  xab; x0a; xe8; xb6; x99; x0a; xe8; xb6;
  x95; x0a; xe8; xb7; xbc; x0a; xe8; xbc;
  x94; x0a; xe8; xbc; x92; x0a; xe8; xbc;
  x95; x0a; xe8; xbc; x93; x0a; xe8; xbe;
  xa3; x0a; xe9; x81; xa0; x0a; xe9; x81;
  x98; x0a; xe9; x81; x9c; x0a; xe9; x81;
  xa3; x0a; xe9; x81; x99; x0a; xe9; x81;
  x9e; x0a; xe9; x81; xa2; x0a; xe9; x81;
  x9d; x0a; xe9; x81; x9b; x0a; xe9; x84;
  x99; x0a; xe9; x84; x98; x0a; xe9; x84;
  x9e; x0a; xe9; x85; xb5; x0a; xe9; x85;
  xb8; x0a; xe9; x85; xb7; x0a; xe9; x85;
  xb4; x0a; xe9; x89; xb8; x0a; xe9; x8a;
  x80; x0a; xe9; x8a; x85; x0a; xe9; x8a;
  x98; x0a; xe9; x8a; x96; x0a; xe9; x89;
  xbb; x0a; xe9; x8a; x93; x0a; xe9; x8a;
  x9c; x0a; xe9; x8a; xa8; x0a; xe9; x89;
  xbc; x0a; xe9; x8a; x91; x0a; xe9; x96;
  xa1; x0a; xe9; x96; xa8; x0a; xe9; x96;
  xa9; x0a; xe9; x96; xa3; x0a; xe9; x96;
  xa5; x0a; xe9; x96; xa4; x0a; xe9; x9a;
  x99; x0a; xe9; x9a; x9c; x0a; xe9; x9a;
  x9b; x0a; xe9; x9b; x8c; x0a; xe9; x9b;
  x92; x0a; xe9; x9c; x80; x0a; xe9; x9d;
  xbc; x0a; xe9; x9e; x85; x0a; xe9; x9f;
  xb6; x0a; xe9; xa0; x97; x0a; xe9; xa0;
  x98; x0a; xe9; xa2; xaf; x0a; xe9; xa2
].
(* tests/test_data/whatwg/big5_whatwg_test_encode_in.txt, entries 33792..34047 *)
Definition big5_encode_in_132 : list byte := [
  xb1; x0a; xe9; xa4; x83; x0a; xe9; xa4;
  x85; x0a; xe9; xa4; x8c; x0a; xe9; xa4;
  x89; x0a; xe9; xa7; x81; x0a; xe9; xaa;
  xaf; x0a; xe9; xaa; xb0; x0a; xe9; xab;
  xa6; x0a; xe9; xad; x81; x0a; xe9; xad;
  x82; x0a; xe9; xb3; xb4; x0a; xe9; xb3;
  xb6; x0a; xe9; xb3; xb3; x0a; xe9; xba;
  xbc; x0a; xe9; xbc; xbb; x0a; xe9; xbd;
  x8a; x0a; xe5; x84; x84; x0a; xe5; x84;
  x80; x0a; xe5; x83; xbb; x0a; xe5; x83;
  xb5; x0a; xe5; x83; xb9; x0a; xe5; x84;
  x82; x0a; xe5; x84; x88; x0a; xe5; x84;
  x89; x0a; xe5; x84; x85; x0a; xe5; x87;
  x9c; x0a; xe5; x8a; x87; x0a; xe5; x8a;
  x88; x0a; xe5; x8a; x89; x0a; xe5; x8a;
  x8d; x0a; xe5; x8a; x8a; x0a; xe5; x8b;
  xb0; x0a; xe5; x8e; xb2; x0a; xe5; x98;
  xae; x0a; xe5; x98; xbb; x0a; xe5; x98;
  xb9; x0a; xe5; x98; xb2; x0a; xe5; x98;
  xbf; x0a; xe5; x98; xb4; x0a; xe5; x98;
  xa9; x0a; xe5; x99; x93; x0a; xe5; x99;
  x8e; x0a; xe5; x99; x97; x0a; xe5; x99;
  xb4; x0a; xe5; x98; xb6; x0a; xe5; x98;
  xaf; x0a; xe5; x98; xb0; x0a; xe5; xa2;
  x80; x0a; xe5; xa2; x9f; x0a; xe5; xa2;
  x9e; x0a; xe5; xa2; xb3; x0a; xe5; xa2;
  x9c; x0a; xe5; xa2; xae; x0a; xe5; xa2;
  xa9; x0a; xe5; xa2; xa6; x0a; xe5; xa5;
  xad; x0a; xe5; xac; x89; x0a; xe5; xab;
  xbb; x0a; xe5; xac; x8b; x0a; xe5; xab;
  xb5; x0a; xe5; xac; x8c; x0a; xe5; xac;
  x88; x0a; xe5; xaf; xae; x0a; xe5; xaf
].
(* tests/test_data/whatwg/big5_whatwg_test_encode_in.txt, entries 34048..34303 *)
Definition big5_encode_in_133 : list byte := [
  xac; x0a; xe5; xaf; xa9; x0a; xe5; xaf;
  xab; x0a; xe5; xb1; xa4; x0a; xe5; xb1;
  xa5; x0a; xe5; xb6; x9d; x0a; xe5; xb6;
  x94; x0a; xe5; xb9; xa2; x0a; xe5; xb9;
  x9f; x0a; xe5; xb9; xa1; x0a; xe5; xbb;
  xa2; x0a; xe5; xbb; x9a; x0a; xe5; xbb;
  x9f; x0a; xe5; xbb; x9d; x0a; xe5; xbb;
  xa3; x0a; xe5; xbb; xa0; x0a; xe5; xbd;
  x88; x0a; xe5; xbd; xb1; x0a; xe5; xbe;
  xb7; x0a; xe5; xbe; xb5; x0a; xe6; x85;
  xb6; x0a; xe6; x85; xa7; x0a; xe6; x85;
  xae; x0a; xe6; x85; x9d; x0a; xe6; x85;
  x95; x0a; xe6; x86; x82; x0a; xe6; x85;
  xbc; x0a; xe6; x85; xb0; x0a; xe6; x85;
  xab; x0a; xe6; x85; xbe; x0a; xe6; x86;
  xa7; x0a; xe6; x86; x90; x0a; xe6; x86;
  xab; x0a; xe6; x86; x8e; x0a; xe6; x86;
  xac; x0a; xe6; x86; x9a; x0a; xe6; x86;
  xa4; x0a; xe6; x86; x94; x0a; xe6; x86;
  xae; x0a; xe6; x88; xae; x0a; xe6; x91;
  xa9; x0a; xe6; x91; xaf; x0a; xe6; x91;
  xb9; x0a; xe6; x92; x9e; x0a; xe6; x92;
  xb2; x0a; xe6; x92; x88; x0a; xe6; x92;
  x90; x0a; xe6; x92; xb0; x0a; xe6; x92;
  xa5; x0a; xe6; x92; x93; x0a; xe6; x92;
  x95; x0a; xe6; x92; xa9; x0a; xe6; x92;
  x92; x0a; xe6; x92; xae; x0a; xe6; x92;
  xad; x0a; xe6; x92; xab; x0a; xe6; x92;
  x9a; x0a; xe6; x92; xac; x0a; xe6; x92;
  x99; x0a; xe6; x92; xa2; x0a; xe6; x92;
  xb3; x0a; xe6; x95; xb5; x0a; xe6; x95;
  xb7; x0a; xe6; x95; xb8; x0a; xe6; x9a
].
(* tests/test_data/whatwg/big5_whatwg_test_encode_in.txt, entries 34304..34559 *)
Definition big5_encode_in_134 : list byte := [
  xae; x0a; xe6; x9a; xab; x0a; xe6; x9a;
  xb4; x0a; xe6; x9a; xb1; x0a; xe6; xa8;
  xa3; x0a; xe6; xa8; x9f; x0a; xe6; xa7;
  xa8; x0a; xe6; xa8; x81; x0a; xe6; xa8;
  x9e; x0a; xe6; xa8; x99; x0a; xe6; xa7;
  xbd; x0a; xe6; xa8; xa1; x0a; xe6; xa8;
  x93; x0a; xe6; xa8; x8a; x0a; xe6; xa7;
  xb3; x0a; xe6; xa8; x82; x0a; xe6; xa8;
  x85; x0a; xe6; xa7; xad; x0a; xe6; xa8;
  x91; x0a; xe6; xad; x90; x0a; xe6; xad;
  x8e; x0a; xe6; xae; xa4; x0a; xe6; xaf;
  x85; x0a; xe6; xaf; x86; x0a; xe6; xbc;
  xbf; x0a; xe6; xbd; xbc; x0a; xe6; xbe;
  x84; x0a; xe6; xbd; x91; x0a; xe6; xbd;
  xa6; x0a; xe6; xbd; x94; x0a; xe6; xbe;
  x86; x0a; xe6; xbd; xad; x0a; xe6; xbd;
  x9b; x0a; xe6; xbd; xb8; x0a; xe6; xbd;
  xae; x0a; xe6; xbe; x8e; x0a; xe6; xbd;
  xba; x0a; xe6; xbd; xb0; x0a; xe6; xbd;
  xa4; x0a; xe6; xbe; x97; x0a; xe6; xbd;
  x98; x0a; xe6; xbb; x95; x0a; xe6; xbd;
  xaf; x0a; xe6; xbd; xa0; x0a; xe6; xbd;
  x9f; x0a; xe7; x86; x9f; x0a; xe7; x86;
  xac; x0a; xe7; x86; xb1; x0a; xe7; x86;
  xa8; x0a; xe7; x89; x96; x0a; xe7; x8a;
  x9b; x0a; xe7; x8d; x8e; x0a; xe7; x8d;
  x97; x0a; xe7; x91; xa9; x0a; xe7; x92;
  x8b; x0a; xe7; x92; x83; x0a; xe7; x91;
  xbe; x0a; xe7; x92; x80; x0a; xe7; x95;
  xbf; x0a; xe7; x98; xa0; x0a; xe7; x98;
  xa9; x0a; xe7; x98; x9f; x0a; xe7; x98;
  xa4; x0a; xe7; x98; xa6; x0a; xe7; x98
].
(* tests/test_data/whatwg/big5_whatwg_test_encode_in.txt, entries 34560..34815 *)
Definition big5_encode_in_135 : list byte := [
  xa1; x0a; xe7; x98; xa2; x0a; xe7; x9a;
  x9a; x0a; xe7; x9a; xba; x0a; xe7; x9b;
  xa4; x0a; xe7; x9e; x8e; x0a; xe7; x9e;
  x87; x0a; xe7; x9e; x8c; x0a; xe7; x9e;
  x91; x0a; xe7; x9e; x8b; x0a; xe7; xa3;
  x8b; x0a; xe7; xa3; x85; x0a; xe7; xa2;
  xba; x0a; xe7; xa3; x8a; x0a; xe7; xa2;
  xbe; x0a; xe7; xa3; x95; x0a; xe7; xa2;
  xbc; x0a; xe7; xa3; x90; x0a; xe7; xa8;
  xbf; x0a; xe7; xa8; xbc; x0a; xe7; xa9;
  x80; x0a; xe7; xa8; xbd; x0a; xe7; xa8;
  xb7; x0a; xe7; xa8; xbb; x0a; xe7; xaa;
  xaf; x0a; xe7; xaa; xae; x0a; xe7; xae;
  xad; x0a; xe7; xae; xb1; x0a; xe7; xaf;
  x84; x0a; xe7; xae; xb4; x0a; xe7; xaf;
  x86; x0a; xe7; xaf; x87; x0a; xe7; xaf;
  x81; x0a; xe7; xae; xa0; x0a; xe7; xaf;
  x8c; x0a; xe7; xb3; x8a; x0a; xe7; xb7;
  xa0; x0a; xe7; xb7; xb4; x0a; xe7; xb7;
  xaf; x0a; xe7; xb7; xbb; x0a; xe7; xb7;
  x98; x0a; xe7; xb7; xac; x0a; xe7; xb7;
  x9d; x0a; xe7; xb7; xa8; x0a; xe7; xb7;
  xa3; x0a; xe7; xb7; x9a; x0a; xe7; xb7;
  x9e; x0a; xe7; xb7; xa9; x0a; xe7; xb6;
  x9e; x0a; xe7; xb7; x99; x0a; xe7; xb7;
  xb2; x0a; xe7; xb7; xb9; x0a; xe7; xbd;
  xb5; x0a; xe7; xbd; xb7; x0a; xe7; xbe;
  xaf; x0a; xe7; xbf; xa9; x0a; xe8; x80;
  xa6; x0a; xe8; x86; x9b; x0a; xe8; x86;
  x9c; x0a; xe8; x86; x9d; x0a; xe8; x86;
  xa0; x0a; xe8; x86; x9a; x0a; xe8; x86;
  x98; x0a; xe8; x94; x97; x0a; xe8; x94
].
(* tests/test_data/whatwg/big5_whatwg_test_encode_in.txt, entries 34816..35071 *)
Definition big5_encode_in_136 : list byte := [
  xbd; x0a; xe8; x94; x9a; x0a; xe8; x93;
  xae; x0a; xe8; x94; xac; x0a; xe8; x94;
  xad; x0a; xe8; x94; x93; x0a; xe8; x94;
  x91; x0a; xe8; x94; xa3; x0a; xe8; x94;
  xa1; x0a; xe8; x94; x94; x0a; xe8; x93;
  xac; x0a; xe8; x94; xa5; x0a; xe8; x93;
  xbf; x0a; xe8; x94; x86; x0a; xe8; x9e;
  x82; x0a; xe8; x9d; xb4; x0a; xe8; x9d;
  xb6; x0a; xe8; x9d; xa0; x0a; xe8; x9d;
  xa6; x0a; xe8; x9d; xb8; x0a; xe8; x9d;
  xa8; x0a; xe8; x9d; x99; x0a; xe8; x9d;
  x97; x0a; xe8; x9d; x8c; x0a; xe8; x9d;
  x93; x0a; xe8; xa1; x9b; x0a; xe8; xa1;
  x9d; x0a; xe8; xa4; x90; x0a; xe8; xa4;
  x87; x0a; xe8; xa4; x92; x0a; xe8; xa4;
  x93; x0a; xe8; xa4; x95; x0a; xe8; xa4;
  x8a; x0a; xe8; xaa; xbc; x0a; xe8; xab;
  x92; x0a; xe8; xab; x87; x0a; xe8; xab;
  x84; x0a; xe8; xaa; x95; x0a; xe8; xab;
  x8b; x0a; xe8; xab; xb8; x0a; xe8; xaa;
  xb2; x0a; xe8; xab; x89; x0a; xe8; xab;
  x82; x0a; xe8; xaa; xbf; x0a; xe8; xaa;
  xb0; x0a; xe8; xab; x96; x0a; xe8; xab;
  x8d; x0a; xe8; xaa; xb6; x0a; xe8; xaa;
  xb9; x0a; xe8; xab; x9b; x0a; xe8; xb1;
  x8c; x0a; xe8; xb1; x8e; x0a; xe8; xb1;
  xac; x0a; xe8; xb3; xa0; x0a; xe8; xb3;
  x9e; x0a; xe8; xb3; xa6; x0a; xe8; xb3;
  xa4; x0a; xe8; xb3; xac; x0a; xe8; xb3;
  xad; x0a; xe8; xb3; xa2; x0a; xe8; xb3;
  xa3; x0a; xe8; xb3; x9c; x0a; xe8; xb3;
  xaa; x0a; xe8; xb3; xa1; x0a; xe8; xb5
].
(* tests/test_data/whatwg/big5_whatwg_test_encode_in.txt, entries 35072..35327 *)
Definition big5_encode_in_137 : list byte := [
  xad; x0a; xe8; xb6; x9f; x0a; xe8; xb6;
  xa3; x0a; xe8; xb8; xab; x0a; xe8; xb8;
  x90; x0a; xe8; xb8; x9d; x0a; xe8; xb8;
  xa2; x0a; xe8; xb8; x8f; x0a; xe8; xb8;
  xa9; x0a; xe8; xb8; x9f; x0a; xe8; xb8;
  xa1; x0a; xe8; xb8; x9e; x0a; xe8; xba;
  xba; x0a; xe8; xbc; x9d; x0a; xe8; xbc;
  x9b; x0a; xe8; xbc; x9f; x0a; xe8; xbc;
  xa9; x0a; xe8; xbc; xa6; x0a; xe8; xbc;
  xaa; x0a; xe8; xbc; x9c; x0a; xe8; xbc;
  x9e; x0a; xe8; xbc; xa5; x0a; xe9; x81;
  xa9; x0a; xe9; x81; xae; x0a; xe9; x81;
  xa8; x0a; xe9; x81; xad; x0a; xe9; x81;
  xb7; x0a; xe9; x84; xb0; x0a; xe9; x84;
  xad; x0a; xe9; x84; xa7; x0a; xe9; x84;
  xb1; x0a; xe9; x86; x87; x0a; xe9; x86;
  x89; x0a; xe9; x86; x8b; x0a; xe9; x86;
  x83; x0a; xe9; x8b; x85; x0a; xe9; x8a;
  xbb; x0a; xe9; x8a; xb7; x0a; xe9; x8b;
  xaa; x0a; xe9; x8a; xac; x0a; xe9; x8b;
  xa4; x0a; xe9; x8b; x81; x0a; xe9; x8a;
  xb3; x0a; xe9; x8a; xbc; x0a; xe9; x8b;
  x92; x0a; xe9; x8b; x87; x0a; xe9; x8b;
  xb0; x0a; xe9; x8a; xb2; x0a; xe9; x96;
  xad; x0a; xe9; x96; xb1; x0a; xe9; x9c;
  x84; x0a; xe9; x9c; x86; x0a; xe9; x9c;
  x87; x0a; xe9; x9c; x89; x0a; xe9; x9d;
  xa0; x0a; xe9; x9e; x8d; x0a; xe9; x9e;
  x8b; x0a; xe9; x9e; x8f; x0a; xe9; xa0;
  xa1; x0a; xe9; xa0; xab; x0a; xe9; xa0;
  x9c; x0a; xe9; xa2; xb3; x0a; xe9; xa4;
  x8a; x0a; xe9; xa4; x93; x0a; xe9; xa4
].
(* tests/test_data/whatwg/big5_whatwg_test_encode_in.txt, entries 35328..35583 *)
Definition big5_encode_in_138 : list byte := [
  x92; x0a; xe9; xa4; x98; x0a; xe9; xa7;
  x9d; x0a; xe9; xa7; x90; x0a; xe9; xa7;
  x9f; x0a; xe9; xa7; x9b; x0a; xe9; xa7;
  x91; x0a; xe9; xa7; x95; x0a; xe9; xa7;
  x92; x0a; xe9; xa7; x99; x0a; xe9; xaa;
  xb7; x0a; xe9; xab; xae; x0a; xe9; xab;
  xaf; x0a; xe9; xac; xa7; x0a; xe9; xad;
  x85; x0a; xe9; xad; x84; x0a; xe9; xad;
  xb7; x0a; xe9; xad; xaf; x0a; xe9; xb4;
  x86; x0a; xe9; xb4; x89; x0a; xe9; xb4;
  x83; x0a; xe9; xba; xa9; x0a; xe9; xba;
  xbe; x0a; xe9; xbb; x8e; x0a; xe5; xa2;
  xa8; x0a; xe9; xbd; x92; x0a; xe5; x84;
  x92; x0a; xe5; x84; x98; x0a; xe5; x84;
  x94; x0a; xe5; x84; x90; x0a; xe5; x84;
  x95; x0a; xe5; x86; x80; x0a; xe5; x86;
  xaa; x0a; xe5; x87; x9d; x0a; xe5; x8a;
  x91; x0a; xe5; x8a; x93; x0a; xe5; x8b;
  xb3; x0a; xe5; x99; x99; x0a; xe5; x99;
  xab; x0a; xe5; x99; xb9; x0a; xe5; x99;
  xa9; x0a; xe5; x99; xa4; x0a; xe5; x99;
  xb8; x0a; xe5; x99; xaa; x0a; xe5; x99;
  xa8; x0a; xe5; x99; xa5; x0a; xe5; x99;
  xb1; x0a; xe5; x99; xaf; x0a; xe5; x99;
  xac; x0a; xe5; x99; xa2; x0a; xe5; x99;
  xb6; x0a; xe5; xa3; x81; x0a; xe5; xa2;
  xbe; x0a; xe5; xa3; x87; x0a; xe5; xa3;
  x85; x0a; xe5; xa5; xae; x0a; xe5; xac;
  x9d; x0a; xe5; xac; xb4; x0a; xe5; xad;
  xb8; x0a; xe5; xaf; xb0; x0a; xe5; xb0;
  x8e; x0a; xe5; xbd; x8a; x0a; xe6; x86;
  xb2; x0a; xe6; x86; x91; x0a; xe6; x86
].
(* tests/test_data/whatwg/big5_whatwg_test_encode_in.txt, entries 35584..35839 *)
Definition big5_encode_in_139 : list byte := [
  xa9; x0a; xe6; x86; x8a; x0a; xe6; x87;
  x8d; x0a; xe6; x86; xb6; x0a; xe6; x86;
  xbe; x0a; xe6; x87; x8a; x0a; xe6; x87;
  x88; x0a; xe6; x88; xb0; x0a; xe6; x93;
  x85; x0a; xe6; x93; x81; x0a; xe6; x93;
  x8b; x0a; xe6; x92; xbb; x0a; xe6; x92;
  xbc; x0a; xe6; x93; x9a; x0a; xe6; x93;
  x84; x0a; xe6; x93; x87; x0a; xe6; x93;
  x82; x0a; xe6; x93; x8d; x0a; xe6; x92;
  xbf; x0a; xe6; x93; x92; x0a; xe6; x93;
  x94; x0a; xe6; x92; xbe; x0a; xe6; x95;
  xb4; x0a; xe6; x9b; x86; x0a; xe6; x9b;
  x89; x0a; xe6; x9a; xb9; x0a; xe6; x9b;
  x84; x0a; xe6; x9b; x87; x0a; xe6; x9a;
  xb8; x0a; xe6; xa8; xbd; x0a; xe6; xa8;
  xb8; x0a; xe6; xa8; xba; x0a; xe6; xa9;
  x99; x0a; xe6; xa9; xab; x0a; xe6; xa9;
  x98; x0a; xe6; xa8; xb9; x0a; xe6; xa9;
  x84; x0a; xe6; xa9; xa2; x0a; xe6; xa9;
  xa1; x0a; xe6; xa9; x8b; x0a; xe6; xa9;
  x87; x0a; xe6; xa8; xb5; x0a; xe6; xa9;
  x9f; x0a; xe6; xa9; x88; x0a; xe6; xad;
  x99; x0a; xe6; xad; xb7; x0a; xe6; xb0;
  x85; x0a; xe6; xbf; x82; x0a; xe6; xbe;
  xb1; x0a; xe6; xbe; xa1; x0a; xe6; xbf;
  x83; x0a; xe6; xbe; xa4; x0a; xe6; xbf;
  x81; x0a; xe6; xbe; xa7; x0a; xe6; xbe;
  xb3; x0a; xe6; xbf; x80; x0a; xe6; xbe;
  xb9; x0a; xe6; xbe; xa6; x0a; xe6; xbe;
  xa0; x0a; xe6; xbe; xb4; x0a; xe7; x86;
  xbe; x0a; xe7; x87; x89; x0a; xe7; x87;
  x90; x0a; xe7; x87; x92; x0a; xe7; x87
].
(* tests/test_data/whatwg/big5_whatwg_test_encode_in.txt, entries 35840..36095 *)
Definition big5_encode_in_140 : list byte := [
  x88; x0a; xe7; x87; x95; x0a; xe7; x86;
  xb9; x0a; xe7; x87; x8e; x0a; xe7; x87;
  x99; x0a; xe7; x87; x9c; x0a; xe7; x87;
  x83; x0a; xe7; x87; x84; x0a; xe7; x8d;
  xa8; x0a; xe7; x92; x9c; x0a; xe7; x92;
  xa3; x0a; xe7; x92; x98; x0a; xe7; x92;
  x9f; x0a; xe7; x92; x9e; x0a; xe7; x93;
  xa2; x0a; xe7; x94; x8c; x0a; xe7; x94;
  x8d; x0a; xe7; x98; xb4; x0a; xe7; x98;
  xb8; x0a; xe7; x98; xba; x0a; xe7; x9b;
  xa7; x0a; xe7; x9b; xa5; x0a; xe7; x9e;
  xa0; x0a; xe7; x9e; x9e; x0a; xe7; x9e;
  x9f; x0a; xe7; x9e; xa5; x0a; xe7; xa3;
  xa8; x0a; xe7; xa3; x9a; x0a; xe7; xa3;
  xac; x0a; xe7; xa3; xa7; x0a; xe7; xa6;
  xa6; x0a; xe7; xa9; x8d; x0a; xe7; xa9;
  x8e; x0a; xe7; xa9; x86; x0a; xe7; xa9;
  x8c; x0a; xe7; xa9; x8b; x0a; xe7; xaa;
  xba; x0a; xe7; xaf; x99; x0a; xe7; xb0;
  x91; x0a; xe7; xaf; x89; x0a; xe7; xaf;
  xa4; x0a; xe7; xaf; x9b; x0a; xe7; xaf;
  xa1; x0a; xe7; xaf; xa9; x0a; xe7; xaf;
  xa6; x0a; xe7; xb3; x95; x0a; xe7; xb3;
  x96; x0a; xe7; xb8; x8a; x0a; xe7; xb8;
  x91; x0a; xe7; xb8; x88; x0a; xe7; xb8;
  x9b; x0a; xe7; xb8; xa3; x0a; xe7; xb8;
  x9e; x0a; xe7; xb8; x89; x0a; xe7; xb8;
  x90; x0a; xe7; xbd; xb9; x0a; xe7; xbe;
  xb2; x0a; xe7; xbf; xb0; x0a; xe7; xbf;
  xb1; x0a; xe7; xbf; xae; x0a; xe8; x86;
  xb3; x0a; xe8; x86; xa9; x0a; xe8; x86;
  xa8; x0a; xe8; x87; xbb; x0a; xe8; x88
].
(* tests/test_data/whatwg/big5_whatwg_test_encode_in.txt, entries 36096..36351 *)
Definition big5_encode_in_141 : list byte := [
  x88; x0a; xe8; x89; x98; x0a; xe8; x89;
  x99; x0a; xe8; x95; x8a; x0a; xe8; x95;
  x99; x0a; xe8; x95; x88; x0a; xe8; x95;
  xa8; x0a; xe8; x95; xa9; x0a; xe8; x95;
  x83; x0a; xe8; x95; x89; x0a; xe8; x95;
  xad; x0a; xe8; x95; xaa; x0a; xe8; x95;
  x9e; x0a; xe8; x9e; x83; x0a; xe8; x9e;
  x9f; x0a; xe8; x9e; x9e; x0a; xe8; x9e;
  xa2; x0a; xe8; x9e; x8d; x0a; xe8; xa1;
  xa1; x0a; xe8; xa4; xaa; x0a; xe8; xa4;
  xb2; x0a; xe8; xa4; xa5; x0a; xe8; xa4;
  xab; x0a; xe8; xa4; xa1; x0a; xe8; xa6;
  xaa; x0a; xe8; xab; xa6; x0a; xe8; xab;
  xba; x0a; xe8; xab; xab; x0a; xe8; xab;
  xb1; x0a; xe8; xac; x80; x0a; xe8; xab;
  x9c; x0a; xe8; xab; xa7; x0a; xe8; xab;
  xae; x0a; xe8; xab; xbe; x0a; xe8; xac;
  x81; x0a; xe8; xac; x82; x0a; xe8; xab;
  xb7; x0a; xe8; xab; xad; x0a; xe8; xab;
  xb3; x0a; xe8; xab; xb6; x0a; xe8; xab;
  xbc; x0a; xe8; xb1; xab; x0a; xe8; xb1;
  xad; x0a; xe8; xb2; x93; x0a; xe8; xb3;
  xb4; x0a; xe8; xb9; x84; x0a; xe8; xb8;
  xb1; x0a; xe8; xb8; xb4; x0a; xe8; xb9;
  x82; x0a; xe8; xb8; xb9; x0a; xe8; xb8;
  xb5; x0a; xe8; xbc; xbb; x0a; xe8; xbc;
  xaf; x0a; xe8; xbc; xb8; x0a; xe8; xbc;
  xb3; x0a; xe8; xbe; xa8; x0a; xe8; xbe;
  xa6; x0a; xe9; x81; xb5; x0a; xe9; x81;
  xb4; x0a; xe9; x81; xb8; x0a; xe9; x81;
  xb2; x0a; xe9; x81; xbc; x0a; xe9; x81;
  xba; x0a; xe9; x84; xb4; x0a; xe9; x86
].
(* tests/test_data/whatwg/big5_whatwg_test_encode_in.txt, entries 36352..36607 *)
Definition big5_encode_in_142 : list byte := [
  x92; x0a; xe9; x8c; xa0; x0a; xe9; x8c;
  xb6; x0a; xe9; x8b; xb8; x0a; xe9; x8c;
  xb3; x0a; xe9; x8c; xaf; x0a; xe9; x8c;
  xa2; x0a; xe9; x8b; xbc; x0a; xe9; x8c;
  xab; x0a; xe9; x8c; x84; x0a; xe9; x8c;
  x9a; x0a; xe9; x8c; x90; x0a; xe9; x8c;
  xa6; x0a; xe9; x8c; xa1; x0a; xe9; x8c;
  x95; x0a; xe9; x8c; xae; x0a; xe9; x8c;
  x99; x0a; xe9; x96; xbb; x0a; xe9; x9a;
  xa7; x0a; xe9; x9a; xa8; x0a; xe9; x9a;
  xaa; x0a; xe9; x9b; x95; x0a; xe9; x9c;
  x8e; x0a; xe9; x9c; x91; x0a; xe9; x9c;
  x96; x0a; xe9; x9c; x8d; x0a; xe9; x9c;
  x93; x0a; xe9; x9c; x8f; x0a; xe9; x9d;
  x9b; x0a; xe9; x9d; xa6; x0a; xe9; x9e;
  x98; x0a; xe9; xa0; xb0; x0a; xe9; xa0;
  xb8; x0a; xe9; xa0; xbb; x0a; xe9; xa0;
  xb7; x0a; xe9; xa0; xad; x0a; xe9; xa0;
  xb9; x0a; xe9; xa0; xa4; x0a; xe9; xa4;
  x90; x0a; xe9; xa4; xa8; x0a; xe9; xa4;
  x9e; x0a; xe9; xa4; x9b; x0a; xe9; xa4;
  xa1; x0a; xe9; xa4; x9a; x0a; xe9; xa7;
  xad; x0a; xe9; xa7; xa2; x0a; xe9; xa7;
  xb1; x0a; xe9; xaa; xb8; x0a; xe9; xaa;
  xbc; x0a; xe9; xab; xbb; x0a; xe9; xab;
  xad; x0a; xe9; xac; xa8; x0a; xe9; xae;
  x91; x0a; xe9; xb4; x95; x0a; xe9; xb4;
  xa3; x0a; xe9; xb4; xa6; x0a; xe9; xb4;
  xa8; x0a; xe9; xb4; x92; x0a; xe9; xb4;
  x9b; x0a; xe9; xbb; x98; x0a; xe9; xbb;
  x94; x0a; xe9; xbe; x8d; x0a; xe9; xbe;
  x9c; x0a; xe5; x84; xaa; x0a; xe5; x84
].
(* tests/test_data/whatwg/big5_whatwg_test_encode_in.txt, entries 36608..36863 *)
Definition big5_encode_in_143 : list byte := [
  x9f; x0a; xe5; x84; xa1; x0a; xe5; x84;
  xb2; x0a; xe5; x8b; xb5; x0a; xe5; x9a;
  x8e; x0a; xe5; x9a; x80; x0a; xe5; x9a;
  x90; x0a; xe5; x9a; x85; x0a; xe5; x9a;
  x87; x0a; xe5; x9a; x8f; x0a; xe5; xa3;
  x95; x0a; xe5; xa3; x93; x0a; xe5; xa3;
  x91; x0a; xe5; xa3; x8e; x0a; xe5; xac;
  xb0; x0a; xe5; xac; xaa; x0a; xe5; xac;
  xa4; x0a; xe5; xad; xba; x0a; xe5; xb0;
  xb7; x0a; xe5; xb1; xa8; x0a; xe5; xb6;
  xbc; x0a; xe5; xb6; xba; x0a; xe5; xb6;
  xbd; x0a; xe5; xb6; xb8; x0a; xe5; xb9;
  xab; x0a; xe5; xbd; x8c; x0a; xe5; xbe;
  xbd; x0a; xe6; x87; x89; x0a; xe6; x87;
  x82; x0a; xe6; x87; x87; x0a; xe6; x87;
  xa6; x0a; xe6; x87; x8b; x0a; xe6; x88;
  xb2; x0a; xe6; x88; xb4; x0a; xe6; x93;
  x8e; x0a; xe6; x93; x8a; x0a; xe6; x93;
  x98; x0a; xe6; x93; xa0; x0a; xe6; x93;
  xb0; x0a; xe6; x93; xa6; x0a; xe6; x93;
  xac; x0a; xe6; x93; xb1; x0a; xe6; x93;
  xa2; x0a; xe6; x93; xad; x0a; xe6; x96;
  x82; x0a; xe6; x96; x83; x0a; xe6; x9b;
  x99; x0a; xe6; x9b; x96; x0a; xe6; xaa;
  x80; x0a; xe6; xaa; x94; x0a; xe6; xaa;
  x84; x0a; xe6; xaa; xa2; x0a; xe6; xaa;
  x9c; x0a; xe6; xab; x9b; x0a; xe6; xaa;
  xa3; x0a; xe6; xa9; xbe; x0a; xe6; xaa;
  x97; x0a; xe6; xaa; x90; x0a; xe6; xaa;
  xa0; x0a; xe6; xad; x9c; x0a; xe6; xae;
  xae; x0a; xe6; xaf; x9a; x0a; xe6; xb0;
  x88; x0a; xe6; xbf; x98; x0a; xe6; xbf
].
(* tests/test_data/whatwg/big5_whatwg_test_encode_in.txt, entries 36864..37119 *)
Definition big5_encode_in_144 : list byte := [
  xb1; x0a; xe6; xbf; x9f; x0a; xe6; xbf;
  xa0; x0a; xe6; xbf; x9b; x0a; xe6; xbf;
  xa4; x0a; xe6; xbf; xab; x0a; xe6; xbf;
  xaf; x0a; xe6; xbe; x80; x0a; xe6; xbf;
  xac; x0a; xe6; xbf; xa1; x0a; xe6; xbf;
  xa9; x0a; xe6; xbf; x95; x0a; xe6; xbf;
  xae; x0a; xe6; xbf; xb0; x0a; xe7; x87;
  xa7; x0a; xe7; x87; xae; x0a; xe7; x87;
  xa6; x0a; xe7; x87; xa5; x0a; xe7; x87;
  xad; x0a; xe7; x87; xac; x0a; xe7; x87;
  xb4; x0a; xe7; x87; xa0; x0a; xe7; x88;
  xb5; x0a; xe7; x89; x86; x0a; xe7; x8d;
  xb0; x0a; xe7; x8d; xb2; x0a; xe7; x92;
  xa9; x0a; xe7; x92; xb0; x0a; xe7; x92;
  xa6; x0a; xe7; x92; xa8; x0a; xe7; x99;
  x86; x0a; xe7; x99; x82; x0a; xe7; x99;
  x8c; x0a; xe7; x9b; xaa; x0a; xe7; x9e;
  xb3; x0a; xe7; x9e; xaa; x0a; xe7; x9e;
  xb0; x0a; xe7; x9e; xac; x0a; xe7; x9e;
  xa7; x0a; xe7; x9e; xad; x0a; xe7; x9f;
  xaf; x0a; xe7; xa3; xb7; x0a; xe7; xa3;
  xba; x0a; xe7; xa3; xb4; x0a; xe7; xa3;
  xaf; x0a; xe7; xa4; x81; x0a; xe7; xa6;
  xa7; x0a; xe7; xa6; xaa; x0a; xe7; xa9;
  x97; x0a; xe7; xaa; xbf; x0a; xe7; xb0;
  x87; x0a; xe7; xb0; x8d; x0a; xe7; xaf;
  xbe; x0a; xe7; xaf; xb7; x0a; xe7; xb0;
  x8c; x0a; xe7; xaf; xa0; x0a; xe7; xb3;
  xa0; x0a; xe7; xb3; x9c; x0a; xe7; xb3;
  x9e; x0a; xe7; xb3; xa2; x0a; xe7; xb3;
  x9f; x0a; xe7; xb3; x99; x0a; xe7; xb3;
  x9d; x0a; xe7; xb8; xae; x0a; xe7; xb8
].
(* tests/test_data/whatwg/big5_whatwg_test_encode_in.txt, entries 37120..37375 *)
Definition big5_encode_in_145 : list byte := [
  xbe; x0a; xe7; xb9; x86; x0a; xe7; xb8;
  xb7; x0a; xe7; xb8; xb2; x0a; xe7; xb9;
  x83; x0a; xe7; xb8; xab; x0a; xe7; xb8;
  xbd; x0a; xe7; xb8; xb1; x0a; xe7; xb9;
  x85; x0a; xe7; xb9; x81; x0a; xe7; xb8;
  xb4; x0a; xe7; xb8; xb9; x0a; xe7; xb9;
  x88; x0a; xe7; xb8; xb5; x0a; xe7; xb8;
  xbf; x0a; xe7; xb8; xaf; x0a; xe7; xbd;
  x84; x0a; xe7; xbf; xb3; x0a; xe7; xbf;
  xbc; x0a; xe8; x81; xb1; x0a; xe8; x81;
  xb2; x0a; xe8; x81; xb0; x0a; xe8; x81;
  xaf; x0a; xe8; x81; xb3; x0a; xe8; x87;
  x86; x0a; xe8; x87; x83; x0a; xe8; x86;
  xba; x0a; xe8; x87; x82; x0a; xe8; x87;
  x80; x0a; xe8; x86; xbf; x0a; xe8; x86;
  xbd; x0a; xe8; x87; x89; x0a; xe8; x86;
  xbe; x0a; xe8; x87; xa8; x0a; xe8; x88;
  x89; x0a; xe8; x89; xb1; x0a; xe8; x96;
  xaa; x0a; xe8; x96; x84; x0a; xe8; x95;
  xbe; x0a; xe8; x96; x9c; x0a; xe8; x96;
  x91; x0a; xe8; x96; x94; x0a; xe8; x96;
  xaf; x0a; xe8; x96; x9b; x0a; xe8; x96;
  x87; x0a; xe8; x96; xa8; x0a; xe8; x96;
  x8a; x0a; xe8; x99; xa7; x0a; xe8; x9f;
  x80; x0a; xe8; x9f; x91; x0a; xe8; x9e;
  xb3; x0a; xe8; x9f; x92; x0a; xe8; x9f;
  x86; x0a; xe8; x9e; xab; x0a; xe8; x9e;
  xbb; x0a; xe8; x9e; xba; x0a; xe8; x9f;
  x88; x0a; xe8; x9f; x8b; x0a; xe8; xa4;
  xbb; x0a; xe8; xa4; xb6; x0a; xe8; xa5;
  x84; x0a; xe8; xa4; xb8; x0a; xe8; xa4;
  xbd; x0a; xe8; xa6; xac; x0a; xe8; xac
].
(* tests/test_data/whatwg/big5_whatwg_test_encode_in.txt, entries 37376..37631 *)
Definition big5_encode_in_146 : list byte := [
  x8e; x0a; xe8; xac; x97; x0a; xe8; xac;
  x99; x0a; xe8; xac; x9b; x0a; xe8; xac;
  x8a; x0a; xe8; xac; xa0; x0a; xe8; xac;
  x9d; x0a; xe8; xac; x84; x0a; xe8; xac;
  x90; x0a; xe8; xb1; x81; x0a; xe8; xb0;
  xbf; x0a; xe8; xb1; xb3; x0a; xe8; xb3;
  xba; x0a; xe8; xb3; xbd; x0a; xe8; xb3;
  xbc; x0a; xe8; xb3; xb8; x0a; xe8; xb3;
  xbb; x0a; xe8; xb6; xa8; x0a; xe8; xb9;
  x89; x0a; xe8; xb9; x8b; x0a; xe8; xb9;
  x88; x0a; xe8; xb9; x8a; x0a; xe8; xbd;
  x84; x0a; xe8; xbc; xbe; x0a; xe8; xbd;
  x82; x0a; xe8; xbd; x85; x0a; xe8; xbc;
  xbf; x0a; xe9; x81; xbf; x0a; xe9; x81;
  xbd; x0a; xe9; x82; x84; x0a; xe9; x82;
  x81; x0a; xe9; x82; x82; x0a; xe9; x82;
  x80; x0a; xe9; x84; xb9; x0a; xe9; x86;
  xa3; x0a; xe9; x86; x9e; x0a; xe9; x86;
  x9c; x0a; xe9; x8d; x8d; x0a; xe9; x8e;
  x82; x0a; xe9; x8c; xa8; x0a; xe9; x8d;
  xb5; x0a; xe9; x8d; x8a; x0a; xe9; x8d;
  xa5; x0a; xe9; x8d; x8b; x0a; xe9; x8c;
  x98; x0a; xe9; x8d; xbe; x0a; xe9; x8d;
  xac; x0a; xe9; x8d; x9b; x0a; xe9; x8d;
  xb0; x0a; xe9; x8d; x9a; x0a; xe9; x8d;
  x94; x0a; xe9; x97; x8a; x0a; xe9; x97;
  x8b; x0a; xe9; x97; x8c; x0a; xe9; x97;
  x88; x0a; xe9; x97; x86; x0a; xe9; x9a;
  xb1; x0a; xe9; x9a; xb8; x0a; xe9; x9b;
  x96; x0a; xe9; x9c; x9c; x0a; xe9; x9c;
  x9e; x0a; xe9; x9e; xa0; x0a; xe9; x9f;
  x93; x0a; xe9; xa1; x86; x0a; xe9; xa2
].
(* tests/test_data/whatwg/big5_whatwg_test_encode_in.txt, entries 37632..37887 *)
Definition big5_encode_in_147 : list byte := [
  xb6; x0a; xe9; xa4; xb5; x0a; xe9; xa8;
  x81; x0a; xe9; xa7; xbf; x0a; xe9; xae;
  xae; x0a; xe9; xae; xab; x0a; xe9; xae;
  xaa; x0a; xe9; xae; xad; x0a; xe9; xb4;
  xbb; x0a; xe9; xb4; xbf; x0a; xe9; xba;
  x8b; x0a; xe9; xbb; x8f; x0a; xe9; xbb;
  x9e; x0a; xe9; xbb; x9c; x0a; xe9; xbb;
  x9d; x0a; xe9; xbb; x9b; x0a; xe9; xbc;
  xbe; x0a; xe9; xbd; x8b; x0a; xe5; x8f;
  xa2; x0a; xe5; x9a; x95; x0a; xe5; x9a;
  xae; x0a; xe5; xa3; x99; x0a; xe5; xa3;
  x98; x0a; xe5; xac; xb8; x0a; xe5; xbd;
  x9d; x0a; xe6; x87; xa3; x0a; xe6; x88;
  xb3; x0a; xe6; x93; xb4; x0a; xe6; x93;
  xb2; x0a; xe6; x93; xbe; x0a; xe6; x94;
  x86; x0a; xe6; x93; xba; x0a; xe6; x93;
  xbb; x0a; xe6; x93; xb7; x0a; xe6; x96;
  xb7; x0a; xe6; x9b; x9c; x0a; xe6; x9c;
  xa6; x0a; xe6; xaa; xb3; x0a; xe6; xaa;
  xac; x0a; xe6; xab; x83; x0a; xe6; xaa;
  xbb; x0a; xe6; xaa; xb8; x0a; xe6; xab;
  x82; x0a; xe6; xaa; xae; x0a; xe6; xaa;
  xaf; x0a; xe6; xad; x9f; x0a; xe6; xad;
  xb8; x0a; xe6; xae; xaf; x0a; xe7; x80;
  x89; x0a; xe7; x80; x8b; x0a; xe6; xbf;
  xbe; x0a; xe7; x80; x86; x0a; xe6; xbf;
  xba; x0a; xe7; x80; x91; x0a; xe7; x80;
  x8f; x0a; xe7; x87; xbb; x0a; xe7; x87;
  xbc; x0a; xe7; x87; xbe; x0a; xe7; x87;
  xb8; x0a; xe7; x8d; xb7; x0a; xe7; x8d;
  xb5; x0a; xe7; x92; xa7; x0a; xe7; x92;
  xbf; x0a; xe7; x94; x95; x0a; xe7; x99
].
(* tests/test_data/whatwg/big5_whatwg_test_encode_in.txt, entries 37888..38143 *)
Definition big5_encode_in_148 : list byte := [
  x96; x0a; xe7; x99; x98; x0a; xe7; x99;
  x92; x0a; xe7; x9e; xbd; x0a; xe7; x9e;
  xbf; x0a; xe7; x9e; xbb; x0a; xe7; x9e;
  xbc; x0a; xe7; xa4; x8e; x0a; xe7; xa6;
  xae; x0a; xe7; xa9; xa1; x0a; xe7; xa9;
  xa2; x0a; xe7; xa9; xa0; x0a; xe7; xab;
  x84; x0a; xe7; xab; x85; x0a; xe7; xb0;
  xab; x0a; xe7; xb0; xa7; x0a; xe7; xb0;
  xaa; x0a; xe7; xb0; x9e; x0a; xe7; xb0;
  xa3; x0a; xe7; xb0; xa1; x0a; xe7; xb3;
  xa7; x0a; xe7; xb9; x94; x0a; xe7; xb9;
  x95; x0a; xe7; xb9; x9e; x0a; xe7; xb9;
  x9a; x0a; xe7; xb9; xa1; x0a; xe7; xb9;
  x92; x0a; xe7; xb9; x99; x0a; xe7; xbd;
  x88; x0a; xe7; xbf; xb9; x0a; xe7; xbf;
  xbb; x0a; xe8; x81; xb7; x0a; xe8; x81;
  xb6; x0a; xe8; x87; x8d; x0a; xe8; x87;
  x8f; x0a; xe8; x88; x8a; x0a; xe8; x97;
  x8f; x0a; xe8; x96; xa9; x0a; xe8; x97;
  x8d; x0a; xe8; x97; x90; x0a; xe8; x97;
  x89; x0a; xe8; x96; xb0; x0a; xe8; x96;
  xba; x0a; xe8; x96; xb9; x0a; xe8; x96;
  xa6; x0a; xe8; x9f; xaf; x0a; xe8; x9f;
  xac; x0a; xe8; x9f; xb2; x0a; xe8; x9f;
  xa0; x0a; xe8; xa6; x86; x0a; xe8; xa6;
  xb2; x0a; xe8; xa7; xb4; x0a; xe8; xac;
  xa8; x0a; xe8; xac; xb9; x0a; xe8; xac;
  xac; x0a; xe8; xac; xab; x0a; xe8; xb1;
  x90; x0a; xe8; xb4; x85; x0a; xe8; xb9;
  x99; x0a; xe8; xb9; xa3; x0a; xe8; xb9;
  xa6; x0a; xe8; xb9; xa4; x0a; xe8; xb9;
  x9f; x0a; xe8; xb9; x95; x0a; xe8; xbb
].
(* tests/test_data/whatwg/big5_whatwg_test_encode_in.txt, entries 38144..38399 *)
Definition big5_encode_in_149 : list byte := [
  x80; x0a; xe8; xbd; x89; x0a; xe8; xbd;
  x8d; x0a; xe9; x82; x87; x0a; xe9; x82;
  x83; x0a; xe9; x82; x88; x0a; xe9; x86;
  xab; x0a; xe9; x86; xac; x0a; xe9; x87;
  x90; x0a; xe9; x8e; x94; x0a; xe9; x8e;
  x8a; x0a; xe9; x8e; x96; x0a; xe9; x8e;
  xa2; x0a; xe9; x8e; xb3; x0a; xe9; x8e;
  xae; x0a; xe9; x8e; xac; x0a; xe9; x8e;
  xb0; x0a; xe9; x8e; x98; x0a; xe9; x8e;
  x9a; x0a; xe9; x8e; x97; x0a; xe9; x97;
  x94; x0a; xe9; x97; x96; x0a; xe9; x97;
  x90; x0a; xe9; x97; x95; x0a; xe9; x9b;
  xa2; x0a; xe9; x9b; x9c; x0a; xe9; x9b;
  x99; x0a; xe9; x9b; x9b; x0a; xe9; x9b;
  x9e; x0a; xe9; x9c; xa4; x0a; xe9; x9e;
  xa3; x0a; xe9; x9e; xa6; x0a; xe9; x9e;
  xad; x0a; xe9; x9f; xb9; x0a; xe9; xa1;
  x8d; x0a; xe9; xa1; x8f; x0a; xe9; xa1;
  x8c; x0a; xe9; xa1; x8e; x0a; xe9; xa1;
  x93; x0a; xe9; xa2; xba; x0a; xe9; xa4;
  xbe; x0a; xe9; xa4; xbf; x0a; xe9; xa4;
  xbd; x0a; xe9; xa4; xae; x0a; xe9; xa6;
  xa5; x0a; xe9; xa8; x8e; x0a; xe9; xab;
  x81; x0a; xe9; xac; x83; x0a; xe9; xac;
  x86; x0a; xe9; xad; x8f; x0a; xe9; xad;
  x8e; x0a; xe9; xad; x8d; x0a; xe9; xaf;
  x8a; x0a; xe9; xaf; x89; x0a; xe9; xaf;
  xbd; x0a; xe9; xaf; x88; x0a; xe9; xaf;
  x80; x0a; xe9; xb5; x91; x0a; xe9; xb5;
  x9d; x0a; xe9; xb5; xa0; x0a; xe9; xbb;
  xa0; x0a; xe9; xbc; x95; x0a; xe9; xbc;
  xac; x0a; xe5; x84; xb3; x0a; xe5; x9a
].
(* tests/test_data/whatwg/big5_whatwg_test_encode_in.txt, entries 38400..38655 *)
Definition big5_encode_in_150 : list byte := [
  xa5; x0a; xe5; xa3; x9e; x0a; xe5; xa3;
  x9f; x0a; xe5; xa3; xa2; x0a; xe5; xaf;
  xb5; x0a; xe9; xbe; x90; x0a; xe5; xbb;
  xac; x0a; xe6; x87; xb2; x0a; xe6; x87;
  xb7; x0a; xe6; x87; xb6; x0a; xe6; x87;
  xb5; x0a; xe6; x94; x80; x0a; xe6; x94;
  x8f; x0a; xe6; x9b; xa0; x0a; xe6; x9b;
  x9d; x0a; xe6; xab; xa5; x0a; xe6; xab;
  x9d; x0a; xe6; xab; x9a; x0a; xe6; xab;
  x93; x0a; xe7; x80; x9b; x0a; xe7; x80;
  x9f; x0a; xe7; x80; xa8; x0a; xe7; x80;
  x9a; x0a; xe7; x80; x9d; x0a; xe7; x80;
  x95; x0a; xe7; x80; x98; x0a; xe7; x88;
  x86; x0a; xe7; x88; x8d; x0a; xe7; x89;
  x98; x0a; xe7; x8a; xa2; x0a; xe7; x8d;
  xb8; x0a; xe7; x8d; xba; x0a; xe7; x92;
  xbd; x0a; xe7; x93; x8a; x0a; xe7; x93;
  xa3; x0a; xe7; x96; x87; x0a; xe7; x96;
  x86; x0a; xe7; x99; x9f; x0a; xe7; x99;
  xa1; x0a; xe7; x9f; x87; x0a; xe7; xa4;
  x99; x0a; xe7; xa6; xb1; x0a; xe7; xa9;
  xab; x0a; xe7; xa9; xa9; x0a; xe7; xb0;
  xbe; x0a; xe7; xb0; xbf; x0a; xe7; xb0;
  xb8; x0a; xe7; xb0; xbd; x0a; xe7; xb0;
  xb7; x0a; xe7; xb1; x80; x0a; xe7; xb9;
  xab; x0a; xe7; xb9; xad; x0a; xe7; xb9;
  xb9; x0a; xe7; xb9; xa9; x0a; xe7; xb9;
  xaa; x0a; xe7; xbe; x85; x0a; xe7; xb9;
  xb3; x0a; xe7; xbe; xb6; x0a; xe7; xbe;
  xb9; x0a; xe7; xbe; xb8; x0a; xe8; x87;
  x98; x0a; xe8; x97; xa9; x0a; xe8; x97;
  x9d; x0a; xe8; x97; xaa; x0a; xe8; x97
].
(* tests/test_data/whatwg/big5_whatwg_test_encode_in.txt, entries 38656..38911 *)
Definition big5_encode_in_151 : list byte := [
  x95; x0a; xe8; x97; xa4; x0a; xe8; x97;
  xa5; x0a; xe8; x97; xb7; x0a; xe8; x9f;
  xbb; x0a; xe8; xa0; x85; x0a; xe8; xa0;
  x8d; x0a; xe8; x9f; xb9; x0a; xe8; x9f;
  xbe; x0a; xe8; xa5; xa0; x0a; xe8; xa5;
  x9f; x0a; xe8; xa5; x96; x0a; xe8; xa5;
  x9e; x0a; xe8; xad; x81; x0a; xe8; xad;
  x9c; x0a; xe8; xad; x98; x0a; xe8; xad;
  x89; x0a; xe8; xad; x9a; x0a; xe8; xad;
  x8e; x0a; xe8; xad; x8f; x0a; xe8; xad;
  x86; x0a; xe8; xad; x99; x0a; xe8; xb4;
  x88; x0a; xe8; xb4; x8a; x0a; xe8; xb9;
  xbc; x0a; xe8; xb9; xb2; x0a; xe8; xba;
  x87; x0a; xe8; xb9; xb6; x0a; xe8; xb9;
  xac; x0a; xe8; xb9; xba; x0a; xe8; xb9;
  xb4; x0a; xe8; xbd; x94; x0a; xe8; xbd;
  x8e; x0a; xe8; xbe; xad; x0a; xe9; x82;
  x8a; x0a; xe9; x82; x8b; x0a; xe9; x86;
  xb1; x0a; xe9; x86; xae; x0a; xe9; x8f;
  xa1; x0a; xe9; x8f; x91; x0a; xe9; x8f;
  x9f; x0a; xe9; x8f; x83; x0a; xe9; x8f;
  x88; x0a; xe9; x8f; x9c; x0a; xe9; x8f;
  x9d; x0a; xe9; x8f; x96; x0a; xe9; x8f;
  xa2; x0a; xe9; x8f; x8d; x0a; xe9; x8f;
  x98; x0a; xe9; x8f; xa4; x0a; xe9; x8f;
  x97; x0a; xe9; x8f; xa8; x0a; xe9; x97;
  x9c; x0a; xe9; x9a; xb4; x0a; xe9; x9b;
  xa3; x0a; xe9; x9c; xaa; x0a; xe9; x9c;
  xa7; x0a; xe9; x9d; xa1; x0a; xe9; x9f;
  x9c; x0a; xe9; x9f; xbb; x0a; xe9; xa1;
  x9e; x0a; xe9; xa1; x98; x0a; xe9; xa1;
  x9b; x0a; xe9; xa2; xbc; x0a; xe9; xa5
].
(* tests/test_data/whatwg/big5_whatwg_test_encode_in.txt, entries 38912..39167 *)
Definition big5_encode_in_152 : list byte := [
  x85; x0a; xe9; xa5; x89; x0a; xe9; xa8;
  x96; x0a; xe9; xa8; x99; x0a; xe9; xac;
  x8d; x0a; xe9; xaf; xa8; x0a; xe9; xaf;
  xa7; x0a; xe9; xaf; x96; x0a; xe9; xaf;
  x9b; x0a; xe9; xb6; x89; x0a; xe9; xb5;
  xa1; x0a; xe9; xb5; xb2; x0a; xe9; xb5;
  xaa; x0a; xe9; xb5; xac; x0a; xe9; xba;
  x92; x0a; xe9; xba; x97; x0a; xe9; xba;
  x93; x0a; xe9; xba; xb4; x0a; xe5; x8b;
  xb8; x0a; xe5; x9a; xa8; x0a; xe5; x9a;
  xb7; x0a; xe5; x9a; xb6; x0a; xe5; x9a;
  xb4; x0a; xe5; x9a; xbc; x0a; xe5; xa3;
  xa4; x0a; xe5; xad; x80; x0a; xe5; xad;
  x83; x0a; xe5; xad; xbd; x0a; xe5; xaf;
  xb6; x0a; xe5; xb7; x89; x0a; xe6; x87;
  xb8; x0a; xe6; x87; xba; x0a; xe6; x94;
  x98; x0a; xe6; x94; x94; x0a; xe6; x94;
  x99; x0a; xe6; x9b; xa6; x0a; xe6; x9c;
  xa7; x0a; xe6; xab; xac; x0a; xe7; x80;
  xbe; x0a; xe7; x80; xb0; x0a; xe7; x80;
  xb2; x0a; xe7; x88; x90; x0a; xe7; x8d;
  xbb; x0a; xe7; x93; x8f; x0a; xe7; x99;
  xa2; x0a; xe7; x99; xa5; x0a; xe7; xa4;
  xa6; x0a; xe7; xa4; xaa; x0a; xe7; xa4;
  xac; x0a; xe7; xa4; xab; x0a; xe7; xab;
  x87; x0a; xe7; xab; xb6; x0a; xe7; xb1;
  x8c; x0a; xe7; xb1; x83; x0a; xe7; xb1;
  x8d; x0a; xe7; xb3; xaf; x0a; xe7; xb3;
  xb0; x0a; xe8; xbe; xae; x0a; xe7; xb9;
  xbd; x0a; xe7; xb9; xbc; x0a; xe7; xba;
  x82; x0a; xe7; xbd; x8c; x0a; xe8; x80;
  x80; x0a; xe8; x87; x9a; x0a; xe8; x89
].
(* tests/test_data/whatwg/big5_whatwg_test_encode_in.txt, entries 39168..39423 *)
Definition big5_encode_in_153 : list byte := [
  xa6; x0a; xe8; x97; xbb; x0a; xe8; x97;
  xb9; x0a; xe8; x98; x91; x0a; xe8; x97;
  xba; x0a; xe8; x98; x86; x0a; xe8; x98;
  x8b; x0a; xe8; x98; x87; x0a; xe8; x98;
  x8a; x0a; xe8; xa0; x94; x0a; xe8; xa0;
  x95; x0a; xe8; xa5; xa4; x0a; xe8; xa6;
  xba; x0a; xe8; xa7; xb8; x0a; xe8; xad;
  xb0; x0a; xe8; xad; xac; x0a; xe8; xad;
  xa6; x0a; xe8; xad; xaf; x0a; xe8; xad;
  x9f; x0a; xe8; xad; xab; x0a; xe8; xb4;
  x8f; x0a; xe8; xb4; x8d; x0a; xe8; xba;
  x89; x0a; xe8; xba; x81; x0a; xe8; xba;
  x85; x0a; xe8; xba; x82; x0a; xe9; x86;
  xb4; x0a; xe9; x87; x8b; x0a; xe9; x90;
  x98; x0a; xe9; x90; x83; x0a; xe9; x8f;
  xbd; x0a; xe9; x97; xa1; x0a; xe9; x9c;
  xb0; x0a; xe9; xa3; x84; x0a; xe9; xa5;
  x92; x0a; xe9; xa5; x91; x0a; xe9; xa6;
  xa8; x0a; xe9; xa8; xab; x0a; xe9; xa8;
  xb0; x0a; xe9; xa8; xb7; x0a; xe9; xa8;
  xb5; x0a; xe9; xb0; x93; x0a; xe9; xb0;
  x8d; x0a; xe9; xb9; xb9; x0a; xe9; xba;
  xb5; x0a; xe9; xbb; xa8; x0a; xe9; xbc;
  xaf; x0a; xe9; xbd; x9f; x0a; xe9; xbd;
  xa3; x0a; xe9; xbd; xa1; x0a; xe5; x84;
  xb7; x0a; xe5; x84; xb8; x0a; xe5; x9b;
  x81; x0a; xe5; x9b; x80; x0a; xe5; x9b;
  x82; x0a; xe5; xa4; x94; x0a; xe5; xb1;
  xac; x0a; xe5; xb7; x8d; x0a; xe6; x87;
  xbc; x0a; xe6; x87; xbe; x0a; xe6; x94;
  x9d; x0a; xe6; x94; x9c; x0a; xe6; x96;
  x95; x0a; xe6; x9b; xa9; x0a; xe6; xab
].
(* tests/test_data/whatwg/big5_whatwg_test_encode_in.txt, entries 39424..39679 *)
Definition big5_encode_in_154 : list byte := [
  xbb; x0a; xe6; xac; x84; x0a; xe6; xab;
  xba; x0a; xe6; xae; xb2; x0a; xe7; x81;
  x8c; x0a; xe7; x88; x9b; x0a; xe7; x8a;
  xa7; x0a; xe7; x93; x96; x0a; xe7; x93;
  x94; x0a; xe7; x99; xa9; x0a; xe7; x9f;
  x93; x0a; xe7; xb1; x90; x0a; xe7; xba;
  x8f; x0a; xe7; xba; x8c; x0a; xe7; xbe;
  xbc; x0a; xe8; x98; x97; x0a; xe8; x98;
  xad; x0a; xe8; x98; x9a; x0a; xe8; xa0;
  xa3; x0a; xe8; xa0; xa2; x0a; xe8; xa0;
  xa1; x0a; xe8; xa0; x9f; x0a; xe8; xa5;
  xaa; x0a; xe8; xa5; xac; x0a; xe8; xa6;
  xbd; x0a; xe8; xad; xb4; x0a; xe8; xad;
  xb7; x0a; xe8; xad; xbd; x0a; xe8; xb4;
  x93; x0a; xe8; xba; x8a; x0a; xe8; xba;
  x8d; x0a; xe8; xba; x8b; x0a; xe8; xbd;
  x9f; x0a; xe8; xbe; xaf; x0a; xe9; x86;
  xba; x0a; xe9; x90; xae; x0a; xe9; x90;
  xb3; x0a; xe9; x90; xb5; x0a; xe9; x90;
  xba; x0a; xe9; x90; xb8; x0a; xe9; x90;
  xb2; x0a; xe9; x90; xab; x0a; xe9; x97;
  xa2; x0a; xe9; x9c; xb8; x0a; xe9; x9c;
  xb9; x0a; xe9; x9c; xb2; x0a; xe9; xa1;
  xa7; x0a; xe9; xa1; xa5; x0a; xe9; xa5;
  x97; x0a; xe9; xa9; x85; x0a; xe9; xa9;
  x83; x0a; xe9; xa9; x80; x0a; xe9; xa8;
  xbe; x0a; xe9; xab; x8f; x0a; xe9; xad;
  x94; x0a; xe9; xad; x91; x0a; xe9; xb0;
  xad; x0a; xe9; xb0; xa5; x0a; xe9; xb6;
  xaf; x0a; xe9; xb6; xb4; x0a; xe9; xb7;
  x82; x0a; xe9; xb6; xb8; x0a; xe9; xba;
  x9d; x0a; xe9; xbb; xaf; x0a; xe9; xbc
].
(* tests/test_data/whatwg/big5_whatwg_test_encode_in.txt, entries 39680..39935 *)
Definition big5_encode_in_155 : list byte := [
  x99; x0a; xe9; xbd; x9c; x0a; xe9; xbd;
  xa6; x0a; xe9; xbd; xa7; x0a; xe5; x84;
  xbc; x0a; xe5; x84; xbb; x0a; xe5; x9b;
  x88; x0a; xe5; x9b; x8a; x0a; xe5; x9b;
  x89; x0a; xe5; xad; xbf; x0a; xe5; xb7;
  x94; x0a; xe5; xb7; x92; x0a; xe5; xbd;
  x8e; x0a; xe6; x87; xbf; x0a; xe6; x94;
  xa4; x0a; xe6; xac; x8a; x0a; xe6; xad;
  xa1; x0a; xe7; x81; x91; x0a; xe7; x81;
  x98; x0a; xe7; x8e; x80; x0a; xe7; x93;
  xa4; x0a; xe7; x96; x8a; x0a; xe7; x99;
  xae; x0a; xe7; x99; xac; x0a; xe7; xa6;
  xb3; x0a; xe7; xb1; xa0; x0a; xe7; xb1;
  x9f; x0a; xe8; x81; xbe; x0a; xe8; x81;
  xbd; x0a; xe8; x87; x9f; x0a; xe8; xa5;
  xb2; x0a; xe8; xa5; xaf; x0a; xe8; xa7;
  xbc; x0a; xe8; xae; x80; x0a; xe8; xb4;
  x96; x0a; xe8; xb4; x97; x0a; xe8; xba;
  x91; x0a; xe8; xba; x93; x0a; xe8; xbd;
  xa1; x0a; xe9; x85; x88; x0a; xe9; x91;
  x84; x0a; xe9; x91; x91; x0a; xe9; x91;
  x92; x0a; xe9; x9c; xbd; x0a; xe9; x9c;
  xbe; x0a; xe9; x9f; x83; x0a; xe9; x9f;
  x81; x0a; xe9; xa1; xab; x0a; xe9; xa5;
  x95; x0a; xe9; xa9; x95; x0a; xe9; xa9;
  x8d; x0a; xe9; xab; x92; x0a; xe9; xac;
  x9a; x0a; xe9; xb1; x89; x0a; xe9; xb0;
  xb1; x0a; xe9; xb0; xbe; x0a; xe9; xb0;
  xbb; x0a; xe9; xb7; x93; x0a; xe9; xb7;
  x97; x0a; xe9; xbc; xb4; x0a; xe9; xbd;
  xac; x0a; xe9; xbd; xaa; x0a; xe9; xbe;
  x94; x0a; xe5; x9b; x8c; x0a; xe5; xb7
].
(* tests/test_data/whatwg/big5_whatwg_test_encode_in.txt, entries 39936..40191 *)
Definition big5_encode_in_156 : list byte := [
  x96; x0a; xe6; x88; x80; x0a; xe6; x94;
  xa3; x0a; xe6; x94; xab; x0a; xe6; x94;
  xaa; x0a; xe6; x9b; xac; x0a; xe6; xac;
  x90; x0a; xe7; x93; x9a; x0a; xe7; xab;
  x8a; x0a; xe7; xb1; xa4; x0a; xe7; xb1;
  xa3; x0a; xe7; xb1; xa5; x0a; xe7; xba;
  x93; x0a; xe7; xba; x96; x0a; xe7; xba;
  x94; x0a; xe8; x87; xa2; x0a; xe8; x98;
  xb8; x0a; xe8; x98; xbf; x0a; xe8; xa0;
  xb1; x0a; xe8; xae; x8a; x0a; xe9; x82;
  x90; x0a; xe9; x82; x8f; x0a; xe9; x91;
  xa3; x0a; xe9; x91; xa0; x0a; xe9; x91;
  xa4; x0a; xe9; x9d; xa8; x0a; xe9; xa1;
  xaf; x0a; xe9; xa5; x9c; x0a; xe9; xa9;
  x9a; x0a; xe9; xa9; x9b; x0a; xe9; xa9;
  x97; x0a; xe9; xab; x93; x0a; xe9; xab;
  x94; x0a; xe9; xab; x91; x0a; xe9; xb1;
  x94; x0a; xe9; xb1; x97; x0a; xe9; xb1;
  x96; x0a; xe9; xb7; xa5; x0a; xe9; xba;
  x9f; x0a; xe9; xbb; xb4; x0a; xe5; x9b;
  x91; x0a; xe5; xa3; xa9; x0a; xe6; x94;
  xac; x0a; xe7; x81; x9e; x0a; xe7; x99;
  xb1; x0a; xe7; x99; xb2; x0a; xe7; xbd;
  x90; x0a; xe7; xbe; x88; x0a; xe8; xa0;
  xb6; x0a; xe8; xa0; xb9; x0a; xe8; xa1;
  xa2; x0a; xe8; xae; x93; x0a; xe8; xae;
  x92; x0a; xe8; xae; x96; x0a; xe8; x89;
  xb7; x0a; xe8; xb4; x9b; x0a; xe9; x87;
  x80; x0a; xe9; x91; xaa; x0a; xe9; x9d;
  x82; x0a; xe9; x9d; x88; x0a; xe9; x9d;
  x84; x0a; xe9; x9f; x86; x0a; xe9; xa1;
  xb0; x0a; xe9; xa9; x9f; x0a; xe9; xac
].
(* tests/test_data/whatwg/big5_whatwg_test_encode_in.txt, entries 40192..40447 *)
Definition big5_encode_in_157 : list byte := [
  xa2; x0a; xe9; xad; x98; x0a; xe9; xb1;
  x9f; x0a; xe9; xb7; xb9; x0a; xe9; xb7;
  xba; x0a; xe9; xb9; xbc; x0a; xe9; xb9;
  xbd; x0a; xe9; xbc; x87; x0a; xe9; xbd;
  xb7; x0a; xe9; xbd; xb2; x0a; xe5; xbb;
  xb3; x0a; xe6; xac; x96; x0a; xe7; x81;
  xa3; x0a; xe7; xb1; xac; x0a; xe7; xb1;
  xae; x0a; xe8; xa0; xbb; x0a; xe8; xa7;
  x80; x0a; xe8; xba; xa1; x0a; xe9; x87;
  x81; x0a; xe9; x91; xb2; x0a; xe9; x91;
  xb0; x0a; xe9; xa1; xb1; x0a; xe9; xa5;
  x9e; x0a; xe9; xab; x96; x0a; xe9; xac;
  xa3; x0a; xe9; xbb; x8c; x0a; xe7; x81;
  xa4; x0a; xe7; x9f; x9a; x0a; xe8; xae;
  x9a; x0a; xe9; x91; xb7; x0a; xe9; x9f;
  x89; x0a; xe9; xa9; xa2; x0a; xe9; xa9;
  xa5; x0a; xe7; xba; x9c; x0a; xe8; xae;
  x9c; x0a; xe8; xba; xaa; x0a; xe9; x87;
  x85; x0a; xe9; x91; xbd; x0a; xe9; x91;
  xbe; x0a; xe9; x91; xbc; x0a; xe9; xb1;
  xb7; x0a; xe9; xb1; xb8; x0a; xe9; xbb;
  xb7; x0a; xe8; xb1; x94; x0a; xe9; x91;
  xbf; x0a; xe9; xb8; x9a; x0a; xe7; x88;
  xa8; x0a; xe9; xa9; xaa; x0a; xe9; xac;
  xb1; x0a; xe9; xb8; x9b; x0a; xe9; xb8;
  x9e; x0a; xe7; xb1; xb2; x0a; xe2; x91;
  xa0; x0a; xe2; x91; xa1; x0a; xe2; x91;
  xa2; x0a; xe2; x91; xa3; x0a; xe2; x91;
  xa4; x0a; xe2; x91; xa5; x0a; xe2; x91;
  xa6; x0a; xe2; x91; xa7; x0a; xe2; x91;
  xa8; x0a; xe2; x91; xa9; x0a; xe2; x91;
  xb4; x0a; xe2; x91; xb5; x0a; xe2; x91
].
(* tests/test_data/whatwg/big5_whatwg_test_encode_in.txt, entries 40448..40703 *)
Definition big5_encode_in_158 : list byte := [
  xb6; x0a; xe2; x91; xb7; x0a; xe2; x91;
  xb8; x0a; xe2; x91; xb9; x0a; xe2; x91;
  xba; x0a; xe2; x91; xbb; x0a; xe2; x91;
  xbc; x0a; xe2; x91; xbd; x0a; xe2; x85;
  xb0; x0a; xe2; x85; xb1; x0a; xe2; x85;
  xb2; x0a; xe2; x85; xb3; x0a; xe2; x85;
  xb4; x0a; xe2; x85; xb5; x0a; xe2; x85;
  xb6; x0a; xe2; x85; xb7; x0a; xe2; x85;
  xb8; x0a; xe2; x85; xb9; x0a; xe4; xb8;
  xb6; x0a; xe4; xb8; xbf; x0a; xe4; xba;
  x85; x0a; xe4; xba; xa0; x0a; xe5; x86;
  x82; x0a; xe5; x86; x96; x0a; xe5; x86;
  xab; x0a; xe5; x8b; xb9; x0a; xe5; x8c;
  xb8; x0a; xe5; x8d; xa9; x0a; xe5; x8e;
  xb6; x0a; xe5; xa4; x8a; x0a; xe5; xae;
  x80; x0a; xe5; xb7; x9b; x0a; xe2; xbc;
  xb3; x0a; xe5; xb9; xbf; x0a; xe5; xbb;
  xb4; x0a; xe5; xbd; x90; x0a; xe5; xbd;
  xa1; x0a; xe6; x94; xb4; x0a; xe6; x97;
  xa0; x0a; xe7; x96; x92; x0a; xe7; x99;
  xb6; x0a; xe8; xbe; xb5; x0a; xc2; xa8;
  x0a; xcb; x86; x0a; xe3; x83; xbd; x0a;
  xe3; x83; xbe; x0a; xe3; x82; x9d; x0a;
  xe3; x82; x9e; x0a; xe4; xbb; x9d; x0a;
  xe3; x80; x85; x0a; xe3; x80; x86; x0a;
  xe3; x80; x87; x0a; xe3; x83; xbc; x0a;
  xef; xbc; xbb; x0a; xef; xbc; xbd; x0a;
  xe2; x9c; xbd; x0a; xe3; x81; x81; x0a;
  xe3; x81; x82; x0a; xe3; x81; x83; x0a;
  xe3; x81; x84; x0a; xe3; x81; x85; x0a;
  xe3; x81; x86; x0a; xe3; x81; x87; x0a;
  xe3; x81; x88; x0a; xe3; x81; x89; x0a
].
(* tests/test_data/whatwg/big5_whatwg_test_encode_in.txt, entries 40704..40959 *)
Definition big5_encode_in_159 : list byte := [
  xe3; x81; x8a; x0a; xe3; x81; x8b; x0a;
  xe3; x81; x8c; x0a; xe3; x81; x8d; x0a;
  xe3; x81; x8e; x0a; xe3; x81; x8f; x0a;
  xe3; x81; x90; x0a; xe3; x81; x91; x0a;
  xe3; x81; x92; x0a; xe3; x81; x93; x0a;
  xe3; x81; x94; x0a; xe3; x81; x95; x0a;
  xe3; x81; x96; x0a; xe3; x81; x97; x0a;
  xe3; x81; x98; x0a; xe3; x81; x99; x0a;
  xe3; x81; x9a; x0a; xe3; x81; x9b; x0a;
  xe3; x81; x9c; x0a; xe3; x81; x9d; x0a;
  xe3; x81; x9e; x0a; xe3; x81; x9f; x0a;
  xe3; x81; xa0; x0a; xe3; x81; xa1; x0a;
  xe3; x81; xa2; x0a; xe3; x81; xa3; x0a;
  xe3; x81; xa4; x0a; xe3; x81; xa5; x0a;
  xe3; x81; xa6; x0a; xe3; x81; xa7; x0a;
  xe3; x81; xa8; x0a; xe3; x81; xa9; x0a;
  xe3; x81; xaa; x0a; xe3; x81; xab; x0a;
  xe3; x81; xac; x0a; xe3; x81; xad; x0a;
  xe3; x81; xae; x0a; xe3; x81; xaf; x0a;
  xe3; x81; xb0; x0a; xe3; x81; xb1; x0a;
  xe3; x81; xb2; x0a; xe3; x81; xb3; x0a;
  xe3; x81; xb4; x0a; xe3; x81; xb5; x0a;
  xe3; x81; xb6; x0a; xe3; x81; xb7; x0a;
  xe3; x81; xb8; x0a; xe3; x81; xb9; x0a;
  xe3; x81; xba; x0a; xe3; x81; xbb; x0a;
  xe3; x81; xbc; x0a; xe3; x81; xbd; x0a;
  xe3; x81; xbe; x0a; xe3; x81; xbf; x0a;
  xe3; x82; x80; x0a; xe3; x82; x81; x0a;
  xe3; x82; x82; x0a; xe3; x82; x83; x0a;
  xe3; x82; x84; x0a; xe3; x82; x85; x0a;
  xe3; x82; x86; x0a; xe3; x82; x87; x0a;
  xe3; x82; x88; x0a; xe3; x82; x89; x0a
].
(* tests/test_data/whatwg/big5_whatwg_test_encode_in.txt, entries 40960..41215 *)
Definition big5_encode_in_160 : list byte := [
  xe3; x82; x8a; x0a; xe3; x82; x8b; x0a;
  xe3; x82; x8c; x0a; xe3; x82; x8d; x0a;
  xe3; x82; x8e; x0a; xe3; x82; x8f; x0a;
  xe3; x82; x90; x0a; xe3; x82; x91; x0a;
  xe3; x82; x92; x0a; xe3; x82; x93; x0a;
  xe3; x82; xa1; x0a; xe3; x82; xa2; x0a;
  xe3; x82; xa3; x0a; xe3; x82; xa4; x0a;
  xe3; x82; xa5; x0a; xe3; x82; xa6; x0a;
  xe3; x82; xa7; x0a; xe3; x82; xa8; x0a;
  xe3; x82; xa9; x0a; xe3; x82; xaa; x0a;
  xe3; x82; xab; x0a; xe3; x82; xac; x0a;
  xe3; x82; xad; x0a; xe3; x82; xae; x0a;
  xe3; x82; xaf; x0a; xe3; x82; xb0; x0a;
  xe3; x82; xb1; x0a; xe3; x82; xb2; x0a;
  xe3; x82; xb3; x0a; xe3; x82; xb4; x0a;
  xe3; x82; xb5; x0a; xe3; x82; xb6; x0a;
  xe3; x82; xb7; x0a; xe3; x82; xb8; x0a;
  xe3; x82; xb9; x0a; xe3; x82; xba; x0a;
  xe3; x82; xbb; x0a; xe3; x82; xbc; x0a;
  xe3; x82; xbd; x0a; xe3; x82; xbe; x0a;
  xe3; x82; xbf; x0a; xe3; x83; x80; x0a;
  xe3; x83; x81; x0a; xe3; x83; x82; x0a;
  xe3; x83; x83; x0a; xe3; x83; x84; x0a;
  xe3; x83; x85; x0a; xe3; x83; x86; x0a;
  xe3; x83; x87; x0a; xe3; x83; x88; x0a;
  xe3; x83; x89; x0a; xe3; x83; x8a; x0a;
  xe3; x83; x8b; x0a; xe3; x83; x8c; x0a;
  xe3; x83; x8d; x0a; xe3; x83; x8e; x0a;
  xe3; x83; x8f; x0a; xe3; x83; x90; x0a;
  xe3; x83; x91; x0a; xe3; x83; x92; x0a;
  xe3; x83; x93; x0a; xe3; x83; x94; x0a;
  xe3; x83; x95; x0a; xe3; x83; x96; x0a
].
(* tests/test_data/whatwg/big5_whatwg_test_encode_in.txt, entries 41216..41471 *)
Definition big5_encode_in_161 : list byte := [
  xe3; x83; x97; x0a; xe3; x83; x98; x0a;
  xe3; x83; x99; x0a; xe3; x83; x9a; x0a;
  xe3; x83; x9b; x0a; xe3; x83; x9c; x0a;
  xe3; x83; x9d; x0a; xe3; x83; x9e; x0a;
  xe3; x83; x9f; x0a; xe3; x83; xa0; x0a;
  xe3; x83; xa1; x0a; xe3; x83; xa2; x0a;
  xe3; x83; xa3; x0a; xe3; x83; xa4; x0a;
  xe3; x83; xa5; x0a; xe3; x83; xa6; x0a;
  xe3; x83; xa7; x0a; xe3; x83; xa8; x0a;
  xe3; x83; xa9; x0a; xe3; x83; xaa; x0a;
  xe3; x83; xab; x0a; xe3; x83; xac; x0a;
  xe3; x83; xad; x0a; xe3; x83; xae; x0a;
  xe3; x83; xaf; x0a; xe3; x83; xb0; x0a;
  xe3; x83; xb1; x0a; xe3; x83; xb2; x0a;
  xe3; x83; xb3; x0a; xe3; x83; xb4; x0a;
  xe3; x83; xb5; x0a; xe3; x83; xb6; x0a;
  xd0; x90; x0a; xd0; x91; x0a; xd0; x92;
  x0a; xd0; x93; x0a; xd0; x94; x0a; xd0;
  x95; x0a; xd0; x81; x0a; xd0; x96; x0a;
  xd0; x97; x0a; xd0; x98; x0a; xd0; x99;
  x0a; xd0; x9a; x0a; xd0; x9b; x0a; xd0;
  x9c; x0a; xd0; x9d; x0a; xd0; x9e; x0a;
  xd0; x9f; x0a; xd0; xa0; x0a; xd0; xa1;
  x0a; xd0; xa2; x0a; xd0; xa3; x0a; xd0;
  xa4; x0a; xd0; xa5; x0a; xd0; xa6; x0a;
  xd0; xa7; x0a; xd0; xa8; x0a; xd0; xa9;
  x0a; xd0; xaa; x0a; xd0; xab; x0a; xd0;
  xac; x0a; xd0; xad; x0a; xd0; xae; x0a;
  xd0; xaf; x0a; xd0; xb0; x0a; xd0; xb1;
  x0a; xd0; xb2; x0a; xd0; xb3; x0a; xd0;
  xb4; x0a; xd0; xb5; x0a; xd1; x91; x0a;
  xd0; xb6; x0a; xd0; xb7; x0a; xd0; xb8
].
(* tests/test_data/whatwg/big5_whatwg_test_encode_in.txt, entries 41472..41727 *)
Definition big5_encode_in_162 : list byte := [
  x0a; xd0; xb9; x0a; xd0; xba; x0a; xd0;
  xbb; x0a; xd0; xbc; x0a; xd0; xbd; x0a;
  xd0; xbe; x0a; xd0; xbf; x0a; xd1; x80;
  x0a; xd1; x81; x0a; xd1; x82; x0a; xd1;
  x83; x0a; xd1; x84; x0a; xd1; x85; x0a;
  xd1; x86; x0a; xd1; x87; x0a; xd1; x88;
  x0a; xd1; x89; x0a; xd1; x8a; x0a; xd1;
  x8b; x0a; xd1; x8c; x0a; xd1; x8d; x0a;
  xd1; x8e; x0a; xd1; x8f; x0a; xe2; x87;
  xa7; x0a; xe2; x86; xb8; x0a; xe2; x86;
  xb9; x0a; xe3; x87; x8f; x0a; xf0; xa0;
  x83; x8c; x0a; xe4; xb9; x9a; x0a; xf0;
  xa0; x82; x8a; x0a; xe5; x88; x82; x0a;
  xe4; x92; x91; x0a; xe9; xbe; xb0; x0a;
  xe5; x86; x88; x0a; xe9; xbe; xb1; x0a;
  xf0; xa7; x98; x87; x0a; xef; xbf; xa2;
  x0a; xef; xbf; xa4; x0a; xef; xbc; x87;
  x0a; xef; xbc; x82; x0a; xe3; x88; xb1;
  x0a; xe2; x84; x96; x0a; xe2; x84; xa1;
  x0a; xe3; x82; x9b; x0a; xe3; x82; x9c;
  x0a; xe2; xba; x80; x0a; xe2; xba; x84;
  x0a; xe2; xba; x86; x0a; xe2; xba; x87;
  x0a; xe2; xba; x88; x0a; xe2; xba; x8a;
  x0a; xe2; xba; x8c; x0a; xe2; xba; x8d;
  x0a; xe2; xba; x95; x0a; xe2; xba; x9c;
  x0a; xe2; xba; x9d; x0a; xe2; xba; xa5;
  x0a; xe2; xba; xa7; x0a; xe2; xba; xaa;
  x0a; xe2; xba; xac; x0a; xe2; xba; xae;
  x0a; xe2; xba; xb6; x0a; xe2; xba; xbc;
  x0a; xe2; xba; xbe; x0a; xe2; xbb; x86;
  x0a; xe2; xbb; x8a; x0a; xe2; xbb; x8c;
  x0a; xe2; xbb; x8d; x0a; xe2; xbb; x8f
].
(* tests/test_data/whatwg/big5_whatwg_test_encode_in.txt, entries 41728..41983 *)
Definition big5_encode_in_163 : list byte := [
  x0a; xe2; xbb; x96; x0a; xe2; xbb; x97;
  x0a; xe2; xbb; x9e; x0a; xe2; xbb; xa3;
  x0a; xca; x83; x0a; xc9; x90; x0a; xc9;
  x9b; x0a; xc9; x94; x0a; xc9; xb5; x0a;
  xc5; x93; x0a; xc3; xb8; x0a; xc5; x8b;
  x0a; xca; x8a; x0a; xc9; xaa; x0a; xe4;
  xb9; x82; x0a; xe4; xb9; x9c; x0a; xe5;
  x87; xb5; x0a; xe5; x8c; x9a; x0a; xe5;
  x8e; x82; x0a; xe4; xb8; x87; x0a; xe4;
  xb8; x8c; x0a; xe4; xb9; x87; x0a; xe4;
  xba; x8d; x0a; xe5; x9b; x97; x0a; xef;
  xa8; x8c; x0a; xe5; xb1; xae; x0a; xe5;
  xbd; xb3; x0a; xe4; xb8; x8f; x0a; xe5;
  x86; x87; x0a; xe4; xb8; x8e; x0a; xe4;
  xb8; xae; x0a; xe4; xba; x93; x0a; xe4;
  xbb; x82; x0a; xe4; xbb; x89; x0a; xe4;
  xbb; x88; x0a; xe5; x86; x98; x0a; xe5;
  x8b; xbc; x0a; xe5; x8d; xac; x0a; xe5;
  x8e; xb9; x0a; xe5; x9c; xa0; x0a; xe5;
  xa4; x83; x0a; xe5; xa4; xac; x0a; xe5;
  xb7; xbf; x0a; xe6; x97; xa1; x0a; xe6;
  xae; xb3; x0a; xe6; xaf; x8c; x0a; xe6;
  xb0; x94; x0a; xe7; x88; xbf; x0a; xe4;
  xb8; xb1; x0a; xe4; xb8; xbc; x0a; xe4;
  xbb; xa8; x0a; xe4; xbb; x9c; x0a; xe4;
  xbb; xa9; x0a; xe4; xbb; xa1; x0a; xe4;
  xbb; x9a; x0a; xe5; x88; x8c; x0a; xe5;
  x8c; x9c; x0a; xe5; x8d; x8c; x0a; xe5;
  x9c; xa2; x0a; xe5; x9c; xa3; x0a; xe5;
  xa4; x97; x0a; xe5; xa4; xaf; x0a; xe5;
  xae; x81; x0a; xe5; xae; x84; x0a; xe5;
  xb0; x92; x0a; xe5; xb0; xbb; x0a; xe5
].
(* tests/test_data/whatwg/big5_whatwg_test_encode_in.txt, entries 41984..42239 *)
Definition big5_encode_in_164 : list byte := [
  xb1; xb4; x0a; xe5; xb1; xb3; x0a; xe5;
  xb8; x84; x0a; xe5; xba; x80; x0a; xe5;
  xba; x82; x0a; xe5; xbf; x89; x0a; xe6;
  x88; x89; x0a; xe6; x89; x90; x0a; xe6;
  xb0; x95; x0a; xe6; xb0; xb6; x0a; xe6;
  xb1; x83; x0a; xe6; xb0; xbf; x0a; xe6;
  xb0; xbb; x0a; xe7; x8a; xae; x0a; xe7;
  x8a; xb0; x0a; xe7; x8e; x8a; x0a; xe7;
  xa6; xb8; x0a; xe8; x82; x8a; x0a; xe9;
  x98; x9e; x0a; xe4; xbc; x8e; x0a; xe4;
  xbc; x98; x0a; xe4; xbc; xac; x0a; xe4;
  xbb; xb5; x0a; xe4; xbc; x94; x0a; xe4;
  xbb; xb1; x0a; xe4; xbc; x80; x0a; xe4;
  xbb; xb7; x0a; xe4; xbc; x88; x0a; xe4;
  xbc; x9d; x0a; xe4; xbc; x82; x0a; xe4;
  xbc; x85; x0a; xe4; xbc; xa2; x0a; xe4;
  xbc; x93; x0a; xe4; xbc; x84; x0a; xe4;
  xbb; xb4; x0a; xe4; xbc; x92; x0a; xe5;
  x86; xb1; x0a; xe5; x88; x93; x0a; xe5;
  x88; x89; x0a; xe5; x88; x90; x0a; xe5;
  x8a; xa6; x0a; xe5; x8c; xa2; x0a; xe5;
  x8c; x9f; x0a; xe5; x8d; x8d; x0a; xe5;
  x8e; x8a; x0a; xe5; x90; x87; x0a; xe5;
  x9b; xa1; x0a; xe5; x9b; x9f; x0a; xe5;
  x9c; xae; x0a; xe5; x9c; xaa; x0a; xe5;
  x9c; xb4; x0a; xe5; xa4; xbc; x0a; xe5;
  xa6; x80; x0a; xe5; xa5; xbc; x0a; xe5;
  xa6; x85; x0a; xe5; xa5; xbb; x0a; xe5;
  xa5; xbe; x0a; xe5; xa5; xb7; x0a; xe5;
  xa5; xbf; x0a; xe5; xad; x96; x0a; xe5;
  xb0; x95; x0a; xe5; xb0; xa5; x0a; xe5;
  xb1; xbc; x0a; xe5; xb1; xba; x0a; xe5
].
(* tests/test_data/whatwg/big5_whatwg_test_encode_in.txt, entries 42240..42495 *)
Definition big5_encode_in_165 : list byte := [
  xb1; xbb; x0a; xe5; xb1; xbe; x0a; xe5;
  xb7; x9f; x0a; xe5; xb9; xb5; x0a; xe5;
  xba; x84; x0a; xe5; xbc; x82; x0a; xe5;
  xbc; x9a; x0a; xe5; xbd; xb4; x0a; xe5;
  xbf; x95; x0a; xe5; xbf; x94; x0a; xe5;
  xbf; x8f; x0a; xe6; x89; x9c; x0a; xe6;
  x89; x9e; x0a; xe6; x89; xa4; x0a; xe6;
  x89; xa1; x0a; xe6; x89; xa6; x0a; xe6;
  x89; xa2; x0a; xe6; x89; x99; x0a; xe6;
  x89; xa0; x0a; xe6; x89; x9a; x0a; xe6;
  x89; xa5; x0a; xe6; x97; xaf; x0a; xe6;
  x97; xae; x0a; xe6; x9c; xbe; x0a; xe6;
  x9c; xb9; x0a; xe6; x9c; xb8; x0a; xe6;
  x9c; xbb; x0a; xe6; x9c; xba; x0a; xe6;
  x9c; xbf; x0a; xe6; x9c; xbc; x0a; xe6;
  x9c; xb3; x0a; xe6; xb0; x98; x0a; xe6;
  xb1; x86; x0a; xe6; xb1; x92; x0a; xe6;
  xb1; x9c; x0a; xe6; xb1; x8f; x0a; xe6;
  xb1; x94; x0a; xe6; xb1; x8b; x0a; xe6;
  xb1; x8c; x0a; xe7; x81; xb1; x0a; xe7;
  x89; x9e; x0a; xe7; x8a; xb4; x0a; xe7;
  x8a; xb5; x0a; xe7; x8e; x8e; x0a; xe7;
  x94; xaa; x0a; xe7; x99; xbf; x0a; xe7;
  xa9; xb5; x0a; xe7; xbd; x91; x0a; xe8;
  x89; xb8; x0a; xe8; x89; xbc; x0a; xe8;
  x8a; x80; x0a; xe8; x89; xbd; x0a; xe8;
  x89; xbf; x0a; xe8; x99; x8d; x0a; xe8;
  xa5; xbe; x0a; xe9; x82; x99; x0a; xe9;
  x82; x98; x0a; xe9; x82; x9b; x0a; xe9;
  x82; x94; x0a; xe9; x98; xa2; x0a; xe9;
  x98; xa4; x0a; xe9; x98; xa0; x0a; xe9;
  x98; xa3; x0a; xe4; xbd; x96; x0a; xe4
].
(* tests/test_data/whatwg/big5_whatwg_test_encode_in.txt, entries 42496..42751 *)
Definition big5_encode_in_166 : list byte := [
  xbc; xbb; x0a; xe4; xbd; xa2; x0a; xe4;
  xbd; x89; x0a; xe4; xbd; x93; x0a; xe4;
  xbd; xa4; x0a; xe4; xbc; xbe; x0a; xe4;
  xbd; xa7; x0a; xe4; xbd; x92; x0a; xe4;
  xbd; x9f; x0a; xe4; xbd; x81; x0a; xe4;
  xbd; x98; x0a; xe4; xbc; xad; x0a; xe4;
  xbc; xb3; x0a; xe4; xbc; xbf; x0a; xe4;
  xbd; xa1; x0a; xe5; x86; x8f; x0a; xe5;
  x86; xb9; x0a; xe5; x88; x9c; x0a; xe5;
  x88; x9e; x0a; xe5; x88; xa1; x0a; xe5;
  x8a; xad; x0a; xe5; x8a; xae; x0a; xe5;
  x8c; x89; x0a; xe5; x8d; xa3; x0a; xe5;
  x8d; xb2; x0a; xe5; x8e; x8e; x0a; xe5;
  x8e; x8f; x0a; xe5; x90; xb0; x0a; xe5;
  x90; xb7; x0a; xe5; x90; xaa; x0a; xe5;
  x91; x94; x0a; xe5; x91; x85; x0a; xe5;
  x90; x99; x0a; xe5; x90; x9c; x0a; xe5;
  x90; xa5; x0a; xe5; x90; x98; x0a; xe5;
  x90; xbd; x0a; xe5; x91; x8f; x0a; xe5;
  x91; x81; x0a; xe5; x90; xa8; x0a; xe5;
  x90; xa4; x0a; xe5; x91; x87; x0a; xe5;
  x9b; xae; x0a; xe5; x9b; xa7; x0a; xe5;
  x9b; xa5; x0a; xe5; x9d; x81; x0a; xe5;
  x9d; x85; x0a; xe5; x9d; x8c; x0a; xe5;
  x9d; x89; x0a; xe5; x9d; x8b; x0a; xe5;
  x9d; x92; x0a; xe5; xa4; x86; x0a; xe5;
  xa5; x80; x0a; xe5; xa6; xa6; x0a; xe5;
  xa6; x98; x0a; xe5; xa6; xa0; x0a; xe5;
  xa6; x97; x0a; xe5; xa6; x8e; x0a; xe5;
  xa6; xa2; x0a; xe5; xa6; x90; x0a; xe5;
  xa6; x8f; x0a; xe5; xa6; xa7; x0a; xe5;
  xa6; xa1; x0a; xe5; xae; x8e; x0a; xe5
].
(* tests/test_data/whatwg/big5_whatwg_test_encode_in.txt, entries 42752..43007 *)
Definition big5_encode_in_167 : list byte := [
  xae; x92; x0a; xe5; xb0; xa8; x0a; xe5;
  xb0; xaa; x0a; xe5; xb2; x8d; x0a; xe5;
  xb2; x8f; x0a; xe5; xb2; x88; x0a; xe5;
  xb2; x8b; x0a; xe5; xb2; x89; x0a; xe5;
  xb2; x92; x0a; xe5; xb2; x8a; x0a; xe5;
  xb2; x86; x0a; xe5; xb2; x93; x0a; xe5;
  xb2; x95; x0a; xe5; xb7; xa0; x0a; xe5;
  xb8; x8a; x0a; xe5; xb8; x8e; x0a; xe5;
  xba; x8b; x0a; xe5; xba; x89; x0a; xe5;
  xba; x8c; x0a; xe5; xba; x88; x0a; xe5;
  xba; x8d; x0a; xe5; xbc; x85; x0a; xe5;
  xbc; x9d; x0a; xe5; xbd; xb8; x0a; xe5;
  xbd; xb6; x0a; xe5; xbf; x92; x0a; xe5;
  xbf; x91; x0a; xe5; xbf; x90; x0a; xe5;
  xbf; xad; x0a; xe5; xbf; xa8; x0a; xe5;
  xbf; xae; x0a; xe5; xbf; xb3; x0a; xe5;
  xbf; xa1; x0a; xe5; xbf; xa4; x0a; xe5;
  xbf; xa3; x0a; xe5; xbf; xba; x0a; xe5;
  xbf; xaf; x0a; xe5; xbf; xb7; x0a; xe5;
  xbf; xbb; x0a; xe6; x80; x80; x0a; xe5;
  xbf; xb4; x0a; xe6; x88; xba; x0a; xe6;
  x8a; x83; x0a; xe6; x8a; x8c; x0a; xe6;
  x8a; x8e; x0a; xe6; x8a; x8f; x0a; xe6;
  x8a; x94; x0a; xe6; x8a; x87; x0a; xe6;
  x89; xb1; x0a; xe6; x89; xbb; x0a; xe6;
  x89; xba; x0a; xe6; x89; xb0; x0a; xe6;
  x8a; x81; x0a; xe6; x8a; x88; x0a; xe6;
  x89; xb7; x0a; xe6; x89; xbd; x0a; xe6;
  x89; xb2; x0a; xe6; x89; xb4; x0a; xe6;
  x94; xb7; x0a; xe6; x97; xb0; x0a; xe6;
  x97; xb4; x0a; xe6; x97; xb3; x0a; xe6;
  x97; xb2; x0a; xe6; x97; xb5; x0a; xe6
].
(* tests/test_data/whatwg/big5_whatwg_test_encode_in.txt, entries 43008..43263 *)
Definition big5_encode_in_168 : list byte := [
  x9d; x85; x0a; xe6; x9d; x87; x0a; xe6;
  x9d; x99; x0a; xe6; x9d; x95; x0a; xe6;
  x9d; x8c; x0a; xe6; x9d; x88; x0a; xe6;
  x9d; x9d; x0a; xe6; x9d; x8d; x0a; xe6;
  x9d; x9a; x0a; xe6; x9d; x8b; x0a; xe6;
  xaf; x90; x0a; xe6; xb0; x99; x0a; xe6;
  xb0; x9a; x0a; xe6; xb1; xb8; x0a; xe6;
  xb1; xa7; x0a; xe6; xb1; xab; x0a; xe6;
  xb2; x84; x0a; xe6; xb2; x8b; x0a; xe6;
  xb2; x8f; x0a; xe6; xb1; xb1; x0a; xe6;
  xb1; xaf; x0a; xe6; xb1; xa9; x0a; xe6;
  xb2; x9a; x0a; xe6; xb1; xad; x0a; xe6;
  xb2; x87; x0a; xe6; xb2; x95; x0a; xe6;
  xb2; x9c; x0a; xe6; xb1; xa6; x0a; xe6;
  xb1; xb3; x0a; xe6; xb1; xa5; x0a; xe6;
  xb1; xbb; x0a; xe6; xb2; x8e; x0a; xe7;
  x81; xb4; x0a; xe7; x81; xba; x0a; xe7;
  x89; xa3; x0a; xe7; x8a; xbf; x0a; xe7;
  x8a; xbd; x0a; xe7; x8b; x83; x0a; xe7;
  x8b; x86; x0a; xe7; x8b; x81; x0a; xe7;
  x8a; xba; x0a; xe7; x8b; x85; x0a; xe7;
  x8e; x95; x0a; xe7; x8e; x97; x0a; xe7;
  x8e; x93; x0a; xe7; x8e; x94; x0a; xe7;
  x8e; x92; x0a; xe7; x94; xba; x0a; xe7;
  x94; xb9; x0a; xe7; x96; x94; x0a; xe7;
  x96; x95; x0a; xe7; x9a; x81; x0a; xe7;
  xa4; xbd; x0a; xe8; x80; xb4; x0a; xe8;
  x82; x95; x0a; xe8; x82; x99; x0a; xe8;
  x82; x90; x0a; xe8; x82; x92; x0a; xe8;
  x82; x9c; x0a; xe8; x8a; x90; x0a; xe8;
  x8a; x8f; x0a; xe8; x8a; x85; x0a; xe8;
  x8a; x8e; x0a; xe8; x8a; x91; x0a; xe8
].
(* tests/test_data/whatwg/big5_whatwg_test_encode_in.txt, entries 43264..43519 *)
Definition big5_encode_in_169 : list byte := [
  x8a; x93; x0a; xe8; x8a; x8a; x0a; xe8;
  x8a; x83; x0a; xe8; x8a; x84; x0a; xe8;
  xb1; xb8; x0a; xe8; xbf; x89; x0a; xe8;
  xbe; xbf; x0a; xe9; x82; x9f; x0a; xe9;
  x82; xa1; x0a; xe9; x82; xa5; x0a; xe9;
  x82; x9e; x0a; xe9; x82; xa7; x0a; xe9;
  x82; xa0; x0a; xe9; x98; xb0; x0a; xe9;
  x98; xa8; x0a; xe9; x98; xaf; x0a; xe9;
  x98; xad; x0a; xe4; xb8; xb3; x0a; xe4;
  xbe; x98; x0a; xe4; xbd; xbc; x0a; xe4;
  xbe; x85; x0a; xe4; xbd; xbd; x0a; xe4;
  xbe; x80; x0a; xe4; xbe; x87; x0a; xe4;
  xbd; xb6; x0a; xe4; xbd; xb4; x0a; xe4;
  xbe; x89; x0a; xe4; xbe; x84; x0a; xe4;
  xbd; xb7; x0a; xe4; xbd; x8c; x0a; xe4;
  xbe; x97; x0a; xe4; xbd; xaa; x0a; xe4;
  xbe; x9a; x0a; xe4; xbd; xb9; x0a; xe4;
  xbe; x81; x0a; xe4; xbd; xb8; x0a; xe4;
  xbe; x90; x0a; xe4; xbe; x9c; x0a; xe4;
  xbe; x94; x0a; xe4; xbe; x9e; x0a; xe4;
  xbe; x92; x0a; xe4; xbe; x82; x0a; xe4;
  xbe; x95; x0a; xe4; xbd; xab; x0a; xe4;
  xbd; xae; x0a; xe5; x86; x9e; x0a; xe5;
  x86; xbc; x0a; xe5; x86; xbe; x0a; xe5;
  x88; xb5; x0a; xe5; x88; xb2; x0a; xe5;
  x88; xb3; x0a; xe5; x89; x86; x0a; xe5;
  x88; xb1; x0a; xe5; x8a; xbc; x0a; xe5;
  x8c; x8a; x0a; xe5; x8c; x8b; x0a; xe5;
  x8c; xbc; x0a; xe5; x8e; x92; x0a; xe5;
  x8e; x94; x0a; xe5; x92; x87; x0a; xe5;
  x91; xbf; x0a; xe5; x92; x81; x0a; xe5;
  x92; x91; x0a; xe5; x92; x82; x0a; xe5
].
(* tests/test_data/whatwg/big5_whatwg_test_encode_in.txt, entries 43520..43775 *)
Definition big5_encode_in_170 : list byte := [
  x92; x88; x0a; xe5; x91; xab; x0a; xe5;
  x91; xba; x0a; xe5; x91; xbe; x0a; xe5;
  x91; xa5; x0a; xe5; x91; xac; x0a; xe5;
  x91; xb4; x0a; xe5; x91; xa6; x0a; xe5;
  x92; x8d; x0a; xe5; x91; xaf; x0a; xe5;
  x91; xa1; x0a; xe5; x91; xa0; x0a; xe5;
  x92; x98; x0a; xe5; x91; xa3; x0a; xe5;
  x91; xa7; x0a; xe5; x91; xa4; x0a; xe5;
  x9b; xb7; x0a; xe5; x9b; xb9; x0a; xe5;
  x9d; xaf; x0a; xe5; x9d; xb2; x0a; xe5;
  x9d; xad; x0a; xe5; x9d; xab; x0a; xe5;
  x9d; xb1; x0a; xe5; x9d; xb0; x0a; xe5;
  x9d; xb6; x0a; xe5; x9e; x80; x0a; xe5;
  x9d; xb5; x0a; xe5; x9d; xbb; x0a; xe5;
  x9d; xb3; x0a; xe5; x9d; xb4; x0a; xe5;
  x9d; xa2; x0a; xe5; x9d; xa8; x0a; xe5;
  x9d; xbd; x0a; xe5; xa4; x8c; x0a; xe5;
  xa5; x85; x0a; xe5; xa6; xb5; x0a; xe5;
  xa6; xba; x0a; xe5; xa7; x8f; x0a; xe5;
  xa7; x8e; x0a; xe5; xa6; xb2; x0a; xe5;
  xa7; x8c; x0a; xe5; xa7; x81; x0a; xe5;
  xa6; xb6; x0a; xe5; xa6; xbc; x0a; xe5;
  xa7; x83; x0a; xe5; xa7; x96; x0a; xe5;
  xa6; xb1; x0a; xe5; xa6; xbd; x0a; xe5;
  xa7; x80; x0a; xe5; xa7; x88; x0a; xe5;
  xa6; xb4; x0a; xe5; xa7; x87; x0a; xe5;
  xad; xa2; x0a; xe5; xad; xa5; x0a; xe5;
  xae; x93; x0a; xe5; xae; x95; x0a; xe5;
  xb1; x84; x0a; xe5; xb1; x87; x0a; xe5;
  xb2; xae; x0a; xe5; xb2; xa4; x0a; xe5;
  xb2; xa0; x0a; xe5; xb2; xb5; x0a; xe5;
  xb2; xaf; x0a; xe5; xb2; xa8; x0a; xe5
].
(* tests/test_data/whatwg/big5_whatwg_test_encode_in.txt, entries 43776..44031 *)
Definition big5_encode_in_171 : list byte := [
  xb2; xac; x0a; xe5; xb2; x9f; x0a; xe5;
  xb2; xa3; x0a; xe5; xb2; xad; x0a; xe5;
  xb2; xa2; x0a; xe5; xb2; xaa; x0a; xe5;
  xb2; xa7; x0a; xe5; xb2; x9d; x0a; xe5;
  xb2; xa5; x0a; xe5; xb2; xb6; x0a; xe5;
  xb2; xb0; x0a; xe5; xb2; xa6; x0a; xe5;
  xb8; x97; x0a; xe5; xb8; x94; x0a; xe5;
  xb8; x99; x0a; xe5; xbc; xa8; x0a; xe5;
  xbc; xa2; x0a; xe5; xbc; xa3; x0a; xe5;
  xbc; xa4; x0a; xe5; xbd; x94; x0a; xe5;
  xbe; x82; x0a; xe5; xbd; xbe; x0a; xe5;
  xbd; xbd; x0a; xe5; xbf; x9e; x0a; xe5;
  xbf; xa5; x0a; xe6; x80; xad; x0a; xe6;
  x80; xa6; x0a; xe6; x80; x99; x0a; xe6;
  x80; xb2; x0a; xe6; x80; x8b; x0a; xe6;
  x80; xb4; x0a; xe6; x80; x8a; x0a; xe6;
  x80; x97; x0a; xe6; x80; xb3; x0a; xe6;
  x80; x9a; x0a; xe6; x80; x9e; x0a; xe6;
  x80; xac; x0a; xe6; x80; xa2; x0a; xe6;
  x80; x8d; x0a; xe6; x80; x90; x0a; xe6;
  x80; xae; x0a; xe6; x80; x93; x0a; xe6;
  x80; x91; x0a; xe6; x80; x8c; x0a; xe6;
  x80; x89; x0a; xe6; x80; x9c; x0a; xe6;
  x88; x94; x0a; xe6; x88; xbd; x0a; xe6;
  x8a; xad; x0a; xe6; x8a; xb4; x0a; xe6;
  x8b; x91; x0a; xe6; x8a; xbe; x0a; xe6;
  x8a; xaa; x0a; xe6; x8a; xb6; x0a; xe6;
  x8b; x8a; x0a; xe6; x8a; xae; x0a; xe6;
  x8a; xb3; x0a; xe6; x8a; xaf; x0a; xe6;
  x8a; xbb; x0a; xe6; x8a; xa9; x0a; xe6;
  x8a; xb0; x0a; xe6; x8a; xb8; x0a; xe6;
  x94; xbd; x0a; xe6; x96; xa8; x0a; xe6
].
(* tests/test_data/whatwg/big5_whatwg_test_encode_in.txt, entries 44032..44287 *)
Definition big5_encode_in_172 : list byte := [
  x96; xbb; x0a; xe6; x98; x89; x0a; xe6;
  x97; xbc; x0a; xe6; x98; x84; x0a; xe6;
  x98; x92; x0a; xe6; x98; x88; x0a; xe6;
  x97; xbb; x0a; xe6; x98; x83; x0a; xe6;
  x98; x8b; x0a; xe6; x98; x8d; x0a; xe6;
  x98; x85; x0a; xe6; x97; xbd; x0a; xe6;
  x98; x91; x0a; xe6; x98; x90; x0a; xe6;
  x9b; xb6; x0a; xe6; x9c; x8a; x0a; xe6;
  x9e; x85; x0a; xe6; x9d; xac; x0a; xe6;
  x9e; x8e; x0a; xe6; x9e; x92; x0a; xe6;
  x9d; xb6; x0a; xe6; x9d; xbb; x0a; xe6;
  x9e; x98; x0a; xe6; x9e; x86; x0a; xe6;
  x9e; x84; x0a; xe6; x9d; xb4; x0a; xe6;
  x9e; x8d; x0a; xe6; x9e; x8c; x0a; xe6;
  x9d; xba; x0a; xe6; x9e; x9f; x0a; xe6;
  x9e; x91; x0a; xe6; x9e; x99; x0a; xe6;
  x9e; x83; x0a; xe6; x9d; xbd; x0a; xe6;
  x9e; x81; x0a; xe6; x9d; xb8; x0a; xe6;
  x9d; xb9; x0a; xe6; x9e; x94; x0a; xe6;
  xac; xa5; x0a; xe6; xae; x80; x0a; xe6;
  xad; xbe; x0a; xe6; xaf; x9e; x0a; xe6;
  xb0; x9d; x0a; xe6; xb2; x93; x0a; xe6;
  xb3; xac; x0a; xe6; xb3; xab; x0a; xe6;
  xb3; xae; x0a; xe6; xb3; x99; x0a; xe6;
  xb2; xb6; x0a; xe6; xb3; x94; x0a; xe6;
  xb2; xad; x0a; xe6; xb3; xa7; x0a; xe6;
  xb2; xb7; x0a; xe6; xb3; x90; x0a; xe6;
  xb3; x82; x0a; xe6; xb2; xba; x0a; xe6;
  xb3; x83; x0a; xe6; xb3; x86; x0a; xe6;
  xb3; xad; x0a; xe6; xb3; xb2; x0a; xe6;
  xb3; x92; x0a; xe6; xb3; x9d; x0a; xe6;
  xb2; xb4; x0a; xe6; xb2; x8a; x0a; xe6
].
(* tests/test_data/whatwg/big5_whatwg_test_encode_in.txt, entries 44288..44543 *)
Definition big5_encode_in_173 : list byte := [
  xb2; x9d; x0a; xe6; xb2; x80; x0a; xe6;
  xb3; x9e; x0a; xe6; xb3; x80; x0a; xe6;
  xb4; xb0; x0a; xe6; xb3; x8d; x0a; xe6;
  xb3; x87; x0a; xe6; xb2; xb0; x0a; xe6;
  xb3; xb9; x0a; xe6; xb3; x8f; x0a; xe6;
  xb3; xa9; x0a; xe6; xb3; x91; x0a; xe7;
  x82; x94; x0a; xe7; x82; x98; x0a; xe7;
  x82; x85; x0a; xe7; x82; x93; x0a; xe7;
  x82; x86; x0a; xe7; x82; x84; x0a; xe7;
  x82; x91; x0a; xe7; x82; x96; x0a; xe7;
  x82; x82; x0a; xe7; x82; x9a; x0a; xe7;
  x82; x83; x0a; xe7; x89; xaa; x0a; xe7;
  x8b; x96; x0a; xe7; x8b; x8b; x0a; xe7;
  x8b; x98; x0a; xe7; x8b; x89; x0a; xe7;
  x8b; x9c; x0a; xe7; x8b; x92; x0a; xe7;
  x8b; x94; x0a; xe7; x8b; x9a; x0a; xe7;
  x8b; x8c; x0a; xe7; x8b; x91; x0a; xe7;
  x8e; xa4; x0a; xe7; x8e; xa1; x0a; xe7;
  x8e; xad; x0a; xe7; x8e; xa6; x0a; xe7;
  x8e; xa2; x0a; xe7; x8e; xa0; x0a; xe7;
  x8e; xac; x0a; xe7; x8e; x9d; x0a; xe7;
  x93; x9d; x0a; xe7; x93; xa8; x0a; xe7;
  x94; xbf; x0a; xe7; x95; x80; x0a; xe7;
  x94; xbe; x0a; xe7; x96; x8c; x0a; xe7;
  x96; x98; x0a; xe7; x9a; xaf; x0a; xe7;
  x9b; xb3; x0a; xe7; x9b; xb1; x0a; xe7;
  x9b; xb0; x0a; xe7; x9b; xb5; x0a; xe7;
  x9f; xb8; x0a; xe7; x9f; xbc; x0a; xe7;
  x9f; xb9; x0a; xe7; x9f; xbb; x0a; xe7;
  x9f; xba; x0a; xe7; x9f; xb7; x0a; xe7;
  xa5; x82; x0a; xe7; xa4; xbf; x0a; xe7;
  xa7; x85; x0a; xe7; xa9; xb8; x0a; xe7
].
(* tests/test_data/whatwg/big5_whatwg_test_encode_in.txt, entries 44544..44799 *)
Definition big5_encode_in_174 : list byte := [
  xa9; xbb; x0a; xe7; xab; xbb; x0a; xe7;
  xb1; xb5; x0a; xe7; xb3; xbd; x0a; xe8;
  x80; xb5; x0a; xe8; x82; x8f; x0a; xe8;
  x82; xae; x0a; xe8; x82; xa3; x0a; xe8;
  x82; xb8; x0a; xe8; x82; xb5; x0a; xe8;
  x82; xad; x0a; xe8; x88; xa0; x0a; xe8;
  x8a; xa0; x0a; xe8; x8b; x80; x0a; xe8;
  x8a; xab; x0a; xe8; x8a; x9a; x0a; xe8;
  x8a; x98; x0a; xe8; x8a; x9b; x0a; xe8;
  x8a; xb5; x0a; xe8; x8a; xa7; x0a; xe8;
  x8a; xae; x0a; xe8; x8a; xbc; x0a; xe8;
  x8a; x9e; x0a; xe8; x8a; xba; x0a; xe8;
  x8a; xb4; x0a; xe8; x8a; xa8; x0a; xe8;
  x8a; xa1; x0a; xe8; x8a; xa9; x0a; xe8;
  x8b; x82; x0a; xe8; x8a; xa4; x0a; xe8;
  x8b; x83; x0a; xe8; x8a; xb6; x0a; xe8;
  x8a; xa2; x0a; xe8; x99; xb0; x0a; xe8;
  x99; xaf; x0a; xe8; x99; xad; x0a; xe8;
  x99; xae; x0a; xe8; xb1; x96; x0a; xe8;
  xbf; x92; x0a; xe8; xbf; x8b; x0a; xe8;
  xbf; x93; x0a; xe8; xbf; x8d; x0a; xe8;
  xbf; x96; x0a; xe8; xbf; x95; x0a; xe8;
  xbf; x97; x0a; xe9; x82; xb2; x0a; xe9;
  x82; xb4; x0a; xe9; x82; xaf; x0a; xe9;
  x82; xb3; x0a; xe9; x82; xb0; x0a; xe9;
  x98; xb9; x0a; xe9; x98; xbd; x0a; xe9;
  x98; xbc; x0a; xe9; x98; xba; x0a; xe9;
  x99; x83; x0a; xe4; xbf; x8d; x0a; xe4;
  xbf; x85; x0a; xe4; xbf; x93; x0a; xe4;
  xbe; xb2; x0a; xe4; xbf; x89; x0a; xe4;
  xbf; x8b; x0a; xe4; xbf; x81; x0a; xe4;
  xbf; x94; x0a; xe4; xbf; x9c; x0a; xe4
].
(* tests/test_data/whatwg/big5_whatwg_test_encode_in.txt, entries 44800..45055 *)
Definition big5_encode_in_175 : list byte := [
  xbf; x99; x0a; xe4; xbe; xb3; x0a; xe4;
  xbf; x9b; x0a; xe4; xbf; x87; x0a; xe4;
  xbf; x96; x0a; xe4; xbe; xba; x0a; xe4;
  xbf; x80; x0a; xe4; xbe; xb9; x0a; xe4;
  xbf; xac; x0a; xe5; x89; x84; x0a; xe5;
  x89; x89; x0a; xe5; x8b; x80; x0a; xe5;
  x8b; x82; x0a; xe5; x8c; xbd; x0a; xe5;
  x8d; xbc; x0a; xe5; x8e; x97; x0a; xe5;
  x8e; x96; x0a; xe5; x8e; x99; x0a; xe5;
  x8e; x98; x0a; xe5; x92; xba; x0a; xe5;
  x92; xa1; x0a; xe5; x92; xad; x0a; xe5;
  x92; xa5; x0a; xe5; x93; x8f; x0a; xe5;
  x93; x83; x0a; xe8; x8c; x8d; x0a; xe5;
  x92; xb7; x0a; xe5; x92; xae; x0a; xe5;
  x93; x96; x0a; xe5; x92; xb6; x0a; xe5;
  x93; x85; x0a; xe5; x93; x86; x0a; xe5;
  x92; xa0; x0a; xe5; x91; xb0; x0a; xe5;
  x92; xbc; x0a; xe5; x92; xa2; x0a; xe5;
  x92; xbe; x0a; xe5; x91; xb2; x0a; xe5;
  x93; x9e; x0a; xe5; x92; xb0; x0a; xe5;
  x9e; xb5; x0a; xe5; x9e; x9e; x0a; xe5;
  x9e; x9f; x0a; xe5; x9e; xa4; x0a; xe5;
  x9e; x8c; x0a; xe5; x9e; x97; x0a; xe5;
  x9e; x9d; x0a; xe5; x9e; x9b; x0a; xe5;
  x9e; x94; x0a; xe5; x9e; x98; x0a; xe5;
  x9e; x8f; x0a; xe5; x9e; x99; x0a; xe5;
  x9e; xa5; x0a; xe5; x9e; x9a; x0a; xe5;
  x9e; x95; x0a; xe5; xa3; xb4; x0a; xe5;
  xa4; x8d; x0a; xe5; xa5; x93; x0a; xe5;
  xa7; xa1; x0a; xe5; xa7; x9e; x0a; xe5;
  xa7; xae; x0a; xe5; xa8; x80; x0a; xe5;
  xa7; xb1; x0a; xe5; xa7; x9d; x0a; xe5
].
(* tests/test_data/whatwg/big5_whatwg_test_encode_in.txt, entries 45056..45311 *)
Definition big5_encode_in_176 : list byte := [
  xa7; xba; x0a; xe5; xa7; xbd; x0a; xe5;
  xa7; xbc; x0a; xe5; xa7; xb6; x0a; xe5;
  xa7; xa4; x0a; xe5; xa7; xb2; x0a; xe5;
  xa7; xb7; x0a; xe5; xa7; x9b; x0a; xe5;
  xa7; xa9; x0a; xe5; xa7; xb3; x0a; xe5;
  xa7; xb5; x0a; xe5; xa7; xa0; x0a; xe5;
  xa7; xbe; x0a; xe5; xa7; xb4; x0a; xe5;
  xa7; xad; x0a; xe5; xae; xa8; x0a; xe5;
  xb1; x8c; x0a; xe5; xb3; x90; x0a; xe5;
  xb3; x98; x0a; xe5; xb3; x8c; x0a; xe5;
  xb3; x97; x0a; xe5; xb3; x8b; x0a; xe5;
  xb3; x9b; x0a; xe5; xb3; x9e; x0a; xe5;
  xb3; x9a; x0a; xe5; xb3; x89; x0a; xe5;
  xb3; x87; x0a; xe5; xb3; x8a; x0a; xe5;
  xb3; x96; x0a; xe5; xb3; x93; x0a; xe5;
  xb3; x94; x0a; xe5; xb3; x8f; x0a; xe5;
  xb3; x88; x0a; xe5; xb3; x86; x0a; xe5;
  xb3; x8e; x0a; xe5; xb3; x9f; x0a; xe5;
  xb3; xb8; x0a; xe5; xb7; xb9; x0a; xe5;
  xb8; xa1; x0a; xe5; xb8; xa2; x0a; xe5;
  xb8; xa3; x0a; xe5; xb8; xa0; x0a; xe5;
  xb8; xa4; x0a; xe5; xba; xb0; x0a; xe5;
  xba; xa4; x0a; xe5; xba; xa2; x0a; xe5;
  xba; x9b; x0a; xe5; xba; xa3; x0a; xe5;
  xba; xa5; x0a; xe5; xbc; x87; x0a; xe5;
  xbc; xae; x0a; xe5; xbd; x96; x0a; xe5;
  xbe; x86; x0a; xe6; x80; xb7; x0a; xe6;
  x80; xb9; x0a; xe6; x81; x94; x0a; xe6;
  x81; xb2; x0a; xe6; x81; x9e; x0a; xe6;
  x81; x85; x0a; xe6; x81; x93; x0a; xe6;
  x81; x87; x0a; xe6; x81; x89; x0a; xe6;
  x81; x9b; x0a; xe6; x81; x8c; x0a; xe6
].
(* tests/test_data/whatwg/big5_whatwg_test_encode_in.txt, entries 45312..45567 *)
Definition big5_encode_in_177 : list byte := [
  x81; x80; x0a; xe6; x81; x82; x0a; xe6;
  x81; x9f; x0a; xe6; x80; xa4; x0a; xe6;
  x81; x84; x0a; xe6; x81; x98; x0a; xe6;
  x81; xa6; x0a; xe6; x81; xae; x0a; xe6;
  x89; x82; x0a; xe6; x89; x83; x0a; xe6;
  x8b; x8f; x0a; xe6; x8c; x8d; x0a; xe6;
  x8c; x8b; x0a; xe6; x8b; xb5; x0a; xe6;
  x8c; x8e; x0a; xe6; x8c; x83; x0a; xe6;
  x8b; xab; x0a; xe6; x8b; xb9; x0a; xe6;
  x8c; x8f; x0a; xe6; x8c; x8c; x0a; xe6;
  x8b; xb8; x0a; xe6; x8b; xb6; x0a; xe6;
  x8c; x80; x0a; xe6; x8c; x93; x0a; xe6;
  x8c; x94; x0a; xe6; x8b; xba; x0a; xe6;
  x8c; x95; x0a; xe6; x8b; xbb; x0a; xe6;
  x8b; xb0; x0a; xe6; x95; x81; x0a; xe6;
  x95; x83; x0a; xe6; x96; xaa; x0a; xe6;
  x96; xbf; x0a; xe6; x98; xb6; x0a; xe6;
  x98; xa1; x0a; xe6; x98; xb2; x0a; xe6;
  x98; xb5; x0a; xe6; x98; x9c; x0a; xe6;
  x98; xa6; x0a; xe6; x98; xa2; x0a; xe6;
  x98; xb3; x0a; xe6; x98; xab; x0a; xe6;
  x98; xba; x0a; xe6; x98; x9d; x0a; xe6;
  x98; xb4; x0a; xe6; x98; xb9; x0a; xe6;
  x98; xae; x0a; xe6; x9c; x8f; x0a; xe6;
  x9c; x90; x0a; xe6; x9f; x81; x0a; xe6;
  x9f; xb2; x0a; xe6; x9f; x88; x0a; xe6;
  x9e; xba; x0a; xe6; x9f; x9c; x0a; xe6;
  x9e; xbb; x0a; xe6; x9f; xb8; x0a; xe6;
  x9f; x98; x0a; xe6; x9f; x80; x0a; xe6;
  x9e; xb7; x0a; xe6; x9f; x85; x0a; xe6;
  x9f; xab; x0a; xe6; x9f; xa4; x0a; xe6;
  x9f; x9f; x0a; xe6; x9e; xb5; x0a; xe6
].
(* tests/test_data/whatwg/big5_whatwg_test_encode_in.txt, entries 45568..45823 *)
Definition big5_encode_in_178 : list byte := [
  x9f; x8d; x0a; xe6; x9e; xb3; x0a; xe6;
  x9f; xb7; x0a; xe6; x9f; xb6; x0a; xe6;
  x9f; xae; x0a; xe6; x9f; xa3; x0a; xe6;
  x9f; x82; x0a; xe6; x9e; xb9; x0a; xe6;
  x9f; x8e; x0a; xe6; x9f; xa7; x0a; xe6;
  x9f; xb0; x0a; xe6; x9e; xb2; x0a; xe6;
  x9f; xbc; x0a; xe6; x9f; x86; x0a; xe6;
  x9f; xad; x0a; xe6; x9f; x8c; x0a; xe6;
  x9e; xae; x0a; xe6; x9f; xa6; x0a; xe6;
  x9f; x9b; x0a; xe6; x9f; xba; x0a; xe6;
  x9f; x89; x0a; xe6; x9f; x8a; x0a; xe6;
  x9f; x83; x0a; xe6; x9f; xaa; x0a; xe6;
  x9f; x8b; x0a; xe6; xac; xa8; x0a; xe6;
  xae; x82; x0a; xe6; xae; x84; x0a; xe6;
  xae; xb6; x0a; xe6; xaf; x96; x0a; xe6;
  xaf; x98; x0a; xe6; xaf; xa0; x0a; xe6;
  xb0; xa0; x0a; xe6; xb0; xa1; x0a; xe6;
  xb4; xa8; x0a; xe6; xb4; xb4; x0a; xe6;
  xb4; xad; x0a; xe6; xb4; x9f; x0a; xe6;
  xb4; xbc; x0a; xe6; xb4; xbf; x0a; xe6;
  xb4; x92; x0a; xe6; xb4; x8a; x0a; xe6;
  xb3; x9a; x0a; xe6; xb4; xb3; x0a; xe6;
  xb4; x84; x0a; xe6; xb4; x99; x0a; xe6;
  xb4; xba; x0a; xe6; xb4; x9a; x0a; xe6;
  xb4; x91; x0a; xe6; xb4; x80; x0a; xe6;
  xb4; x9d; x0a; xe6; xb5; x82; x0a; xe6;
  xb4; x81; x0a; xe6; xb4; x98; x0a; xe6;
  xb4; xb7; x0a; xe6; xb4; x83; x0a; xe6;
  xb4; x8f; x0a; xe6; xb5; x80; x0a; xe6;
  xb4; x87; x0a; xe6; xb4; xa0; x0a; xe6;
  xb4; xac; x0a; xe6; xb4; x88; x0a; xe6;
  xb4; xa2; x0a; xe6; xb4; x89; x0a; xe6
].
(* tests/test_data/whatwg/big5_whatwg_test_encode_in.txt, entries 45824..46079 *)
Definition big5_encode_in_179 : list byte := [
  xb4; x90; x0a; xe7; x82; xb7; x0a; xe7;
  x82; x9f; x0a; xe7; x82; xbe; x0a; xe7;
  x82; xb1; x0a; xe7; x82; xb0; x0a; xe7;
  x82; xa1; x0a; xe7; x82; xb4; x0a; xe7;
  x82; xb5; x0a; xe7; x82; xa9; x0a; xe7;
  x89; x81; x0a; xe7; x89; x89; x0a; xe7;
  x89; x8a; x0a; xe7; x89; xac; x0a; xe7;
  x89; xb0; x0a; xe7; x89; xb3; x0a; xe7;
  x89; xae; x0a; xe7; x8b; x8a; x0a; xe7;
  x8b; xa4; x0a; xe7; x8b; xa8; x0a; xe7;
  x8b; xab; x0a; xe7; x8b; x9f; x0a; xe7;
  x8b; xaa; x0a; xe7; x8b; xa6; x0a; xe7;
  x8b; xa3; x0a; xe7; x8e; x85; x0a; xe7;
  x8f; x8c; x0a; xe7; x8f; x82; x0a; xe7;
  x8f; x88; x0a; xe7; x8f; x85; x0a; xe7;
  x8e; xb9; x0a; xe7; x8e; xb6; x0a; xe7;
  x8e; xb5; x0a; xe7; x8e; xb4; x0a; xe7;
  x8f; xab; x0a; xe7; x8e; xbf; x0a; xe7;
  x8f; x87; x0a; xe7; x8e; xbe; x0a; xe7;
  x8f; x83; x0a; xe7; x8f; x86; x0a; xe7;
  x8e; xb8; x0a; xe7; x8f; x8b; x0a; xe7;
  x93; xac; x0a; xe7; x93; xae; x0a; xe7;
  x94; xae; x0a; xe7; x95; x87; x0a; xe7;
  x95; x88; x0a; xe7; x96; xa7; x0a; xe7;
  x96; xaa; x0a; xe7; x99; xb9; x0a; xe7;
  x9b; x84; x0a; xe7; x9c; x88; x0a; xe7;
  x9c; x83; x0a; xe7; x9c; x84; x0a; xe7;
  x9c; x85; x0a; xe7; x9c; x8a; x0a; xe7;
  x9b; xb7; x0a; xe7; x9b; xbb; x0a; xe7;
  x9b; xba; x0a; xe7; x9f; xa7; x0a; xe7;
  x9f; xa8; x0a; xe7; xa0; x86; x0a; xe7;
  xa0; x91; x0a; xe7; xa0; x92; x0a; xe7
].
(* tests/test_data/whatwg/big5_whatwg_test_encode_in.txt, entries 46080..46335 *)
Definition big5_encode_in_180 : list byte := [
  xa0; x85; x0a; xe7; xa0; x90; x0a; xe7;
  xa0; x8f; x0a; xe7; xa0; x8e; x0a; xe7;
  xa0; x89; x0a; xe7; xa0; x83; x0a; xe7;
  xa0; x93; x0a; xe7; xa5; x8a; x0a; xe7;
  xa5; x8c; x0a; xe7; xa5; x8b; x0a; xe7;
  xa5; x85; x0a; xe7; xa5; x84; x0a; xe7;
  xa7; x95; x0a; xe7; xa7; x8d; x0a; xe7;
  xa7; x8f; x0a; xe7; xa7; x96; x0a; xe7;
  xa7; x8e; x0a; xe7; xaa; x80; x0a; xe7;
  xa9; xbe; x0a; xe7; xab; x91; x0a; xe7;
  xac; x80; x0a; xe7; xac; x81; x0a; xe7;
  xb1; xba; x0a; xe7; xb1; xb8; x0a; xe7;
  xb1; xb9; x0a; xe7; xb1; xbf; x0a; xe7;
  xb2; x80; x0a; xe7; xb2; x81; x0a; xe7;
  xb4; x83; x0a; xe7; xb4; x88; x0a; xe7;
  xb4; x81; x0a; xe7; xbd; x98; x0a; xe7;
  xbe; x91; x0a; xe7; xbe; x8d; x0a; xe7;
  xbe; xbe; x0a; xe8; x80; x87; x0a; xe8;
  x80; x8e; x0a; xe8; x80; x8f; x0a; xe8;
  x80; x94; x0a; xe8; x80; xb7; x0a; xe8;
  x83; x98; x0a; xe8; x83; x87; x0a; xe8;
  x83; xa0; x0a; xe8; x83; x91; x0a; xe8;
  x83; x88; x0a; xe8; x83; x82; x0a; xe8;
  x83; x90; x0a; xe8; x83; x85; x0a; xe8;
  x83; xa3; x0a; xe8; x83; x99; x0a; xe8;
  x83; x9c; x0a; xe8; x83; x8a; x0a; xe8;
  x83; x95; x0a; xe8; x83; x89; x0a; xe8;
  x83; x8f; x0a; xe8; x83; x97; x0a; xe8;
  x83; xa6; x0a; xe8; x83; x8d; x0a; xe8;
  x87; xbf; x0a; xe8; x88; xa1; x0a; xe8;
  x8a; x94; x0a; xe8; x8b; x99; x0a; xe8;
  x8b; xbe; x0a; xe8; x8b; xb9; x0a; xe8
].
(* tests/test_data/whatwg/big5_whatwg_test_encode_in.txt, entries 46336..46591 *)
Definition big5_encode_in_181 : list byte := [
  x8c; x87; x0a; xe8; x8b; xa8; x0a; xe8;
  x8c; x80; x0a; xe8; x8b; x95; x0a; xe8;
  x8c; xba; x0a; xe8; x8b; xab; x0a; xe8;
  x8b; x96; x0a; xe8; x8b; xb4; x0a; xe8;
  x8b; xac; x0a; xe8; x8b; xa1; x0a; xe8;
  x8b; xb2; x0a; xe8; x8b; xb5; x0a; xe8;
  x8c; x8c; x0a; xe8; x8b; xbb; x0a; xe8;
  x8b; xb6; x0a; xe8; x8b; xb0; x0a; xe8;
  x8b; xaa; x0a; xe8; x8b; xa4; x0a; xe8;
  x8b; xa0; x0a; xe8; x8b; xba; x0a; xe8;
  x8b; xb3; x0a; xe8; x8b; xad; x0a; xe8;
  x99; xb7; x0a; xe8; x99; xb4; x0a; xe8;
  x99; xbc; x0a; xe8; x99; xb3; x0a; xe8;
  xa1; x81; x0a; xe8; xa1; x8e; x0a; xe8;
  xa1; xa7; x0a; xe8; xa1; xaa; x0a; xe8;
  xa1; xa9; x0a; xe8; xa7; x93; x0a; xe8;
  xa8; x84; x0a; xe8; xa8; x87; x0a; xe8;
  xb5; xb2; x0a; xe8; xbf; xa3; x0a; xe8;
  xbf; xa1; x0a; xe8; xbf; xae; x0a; xe8;
  xbf; xa0; x0a; xe9; x83; xb1; x0a; xe9;
  x82; xbd; x0a; xe9; x82; xbf; x0a; xe9;
  x83; x95; x0a; xe9; x83; x85; x0a; xe9;
  x82; xbe; x0a; xe9; x83; x87; x0a; xe9;
  x83; x8b; x0a; xe9; x83; x88; x0a; xe9;
  x87; x93; x0a; xe9; x99; x94; x0a; xe9;
  x99; x8f; x0a; xe9; x99; x91; x0a; xe9;
  x99; x93; x0a; xe9; x99; x8a; x0a; xe9;
  x99; x8e; x0a; xe5; x80; x9e; x0a; xe5;
  x80; x85; x0a; xe5; x80; x87; x0a; xe5;
  x80; x93; x0a; xe5; x80; xa2; x0a; xe5;
  x80; xb0; x0a; xe5; x80; x9b; x0a; xe4;
  xbf; xb5; x0a; xe4; xbf; xb4; x0a; xe5
].
(* tests/test_data/whatwg/big5_whatwg_test_encode_in.txt, entries 46592..46847 *)
Definition big5_encode_in_182 : list byte := [
  x80; xb3; x0a; xe5; x80; xb7; x0a; xe5;
  x80; xac; x0a; xe4; xbf; xb6; x0a; xe4;
  xbf; xb7; x0a; xe5; x80; x97; x0a; xe5;
  x80; x9c; x0a; xe5; x80; xa0; x0a; xe5;
  x80; xa7; x0a; xe5; x80; xb5; x0a; xe5;
  x80; xaf; x0a; xe5; x80; xb1; x0a; xe5;
  x80; x8e; x0a; xe5; x85; x9a; x0a; xe5;
  x86; x94; x0a; xe5; x86; x93; x0a; xe5;
  x87; x8a; x0a; xe5; x87; x84; x0a; xe5;
  x87; x85; x0a; xe5; x87; x88; x0a; xe5;
  x87; x8e; x0a; xe5; x89; xa1; x0a; xe5;
  x89; x9a; x0a; xe5; x89; x92; x0a; xe5;
  x89; x9e; x0a; xe5; x89; x9f; x0a; xe5;
  x89; x95; x0a; xe5; x89; xa2; x0a; xe5;
  x8b; x8d; x0a; xe5; x8c; x8e; x0a; xe5;
  x8e; x9e; x0a; xe5; x94; xa6; x0a; xe5;
  x93; xa2; x0a; xe5; x94; x97; x0a; xe5;
  x94; x92; x0a; xe5; x93; xa7; x0a; xe5;
  x93; xb3; x0a; xe5; x93; xa4; x0a; xe5;
  x94; x9a; x0a; xe5; x93; xbf; x0a; xe5;
  x94; x84; x0a; xe5; x94; x88; x0a; xe5;
  x93; xab; x0a; xe5; x94; x91; x0a; xe5;
  x94; x85; x0a; xe5; x93; xb1; x0a; xe5;
  x94; x8a; x0a; xe5; x93; xbb; x0a; xe5;
  x93; xb7; x0a; xe5; x93; xb8; x0a; xe5;
  x93; xa0; x0a; xe5; x94; x8e; x0a; xe5;
  x94; x83; x0a; xe5; x94; x8b; x0a; xe5;
  x9c; x81; x0a; xe5; x9c; x82; x0a; xe5;
  x9f; x8c; x0a; xe5; xa0; xb2; x0a; xe5;
  x9f; x95; x0a; xe5; x9f; x92; x0a; xe5;
  x9e; xba; x0a; xe5; x9f; x86; x0a; xe5;
  x9e; xbd; x0a; xe5; x9e; xbc; x0a; xe5
].
(* tests/test_data/whatwg/big5_whatwg_test_encode_in.txt, entries 46848..47103 *)
Definition big5_encode_in_183 : list byte := [
  x9e; xb8; x0a; xe5; x9e; xb6; x0a; xe5;
  x9e; xbf; x0a; xe5; x9f; x87; x0a; xe5;
  x9f; x90; x0a; xe5; x9e; xb9; x0a; xe5;
  x9f; x81; x0a; xe5; xa4; x8e; x0a; xe5;
  xa5; x8a; x0a; xe5; xa8; x99; x0a; xe5;
  xa8; x96; x0a; xe5; xa8; xad; x0a; xe5;
  xa8; xae; x0a; xe5; xa8; x95; x0a; xe5;
  xa8; x8f; x0a; xe5; xa8; x97; x0a; xe5;
  xa8; x8a; x0a; xe5; xa8; x9e; x0a; xe5;
  xa8; xb3; x0a; xe5; xad; xac; x0a; xe5;
  xae; xa7; x0a; xe5; xae; xad; x0a; xe5;
  xae; xac; x0a; xe5; xb0; x83; x0a; xe5;
  xb1; x96; x0a; xe5; xb1; x94; x0a; xe5;
  xb3; xac; x0a; xe5; xb3; xbf; x0a; xe5;
  xb3; xae; x0a; xe5; xb3; xb1; x0a; xe5;
  xb3; xb7; x0a; xe5; xb4; x80; x0a; xe5;
  xb3; xb9; x0a; xe5; xb8; xa9; x0a; xe5;
  xb8; xa8; x0a; xe5; xba; xa8; x0a; xe5;
  xba; xae; x0a; xe5; xba; xaa; x0a; xe5;
  xba; xac; x0a; xe5; xbc; xb3; x0a; xe5;
  xbc; xb0; x0a; xe5; xbd; xa7; x0a; xe6;
  x81; x9d; x0a; xe6; x81; x9a; x0a; xe6;
  x81; xa7; x0a; xe6; x81; x81; x0a; xe6;
  x82; xa2; x0a; xe6; x82; x88; x0a; xe6;
  x82; x80; x0a; xe6; x82; x92; x0a; xe6;
  x82; x81; x0a; xe6; x82; x9d; x0a; xe6;
  x82; x83; x0a; xe6; x82; x95; x0a; xe6;
  x82; x9b; x0a; xe6; x82; x97; x0a; xe6;
  x82; x87; x0a; xe6; x82; x9c; x0a; xe6;
  x82; x8e; x0a; xe6; x88; x99; x0a; xe6;
  x89; x86; x0a; xe6; x8b; xb2; x0a; xe6;
  x8c; x90; x0a; xe6; x8d; x96; x0a; xe6
].
(* tests/test_data/whatwg/big5_whatwg_test_encode_in.txt, entries 47104..47359 *)
Definition big5_encode_in_184 : list byte := [
  x8c; xac; x0a; xe6; x8d; x84; x0a; xe6;
  x8d; x85; x0a; xe6; x8c; xb6; x0a; xe6;
  x8d; x83; x0a; xe6; x8f; xa4; x0a; xe6;
  x8c; xb9; x0a; xe6; x8d; x8b; x0a; xe6;
  x8d; x8a; x0a; xe6; x8c; xbc; x0a; xe6;
  x8c; xa9; x0a; xe6; x8d; x81; x0a; xe6;
  x8c; xb4; x0a; xe6; x8d; x98; x0a; xe6;
  x8d; x94; x0a; xe6; x8d; x99; x0a; xe6;
  x8c; xad; x0a; xe6; x8d; x87; x0a; xe6;
  x8c; xb3; x0a; xe6; x8d; x9a; x0a; xe6;
  x8d; x91; x0a; xe6; x8c; xb8; x0a; xe6;
  x8d; x97; x0a; xe6; x8d; x80; x0a; xe6;
  x8d; x88; x0a; xe6; x95; x8a; x0a; xe6;
  x95; x86; x0a; xe6; x97; x86; x0a; xe6;
  x97; x83; x0a; xe6; x97; x84; x0a; xe6;
  x97; x82; x0a; xe6; x99; x8a; x0a; xe6;
  x99; x9f; x0a; xe6; x99; x87; x0a; xe6;
  x99; x91; x0a; xe6; x9c; x92; x0a; xe6;
  x9c; x93; x0a; xe6; xa0; x9f; x0a; xe6;
  xa0; x9a; x0a; xe6; xa1; x89; x0a; xe6;
  xa0; xb2; x0a; xe6; xa0; xb3; x0a; xe6;
  xa0; xbb; x0a; xe6; xa1; x8b; x0a; xe6;
  xa1; x8f; x0a; xe6; xa0; x96; x0a; xe6;
  xa0; xb1; x0a; xe6; xa0; x9c; x0a; xe6;
  xa0; xb5; x0a; xe6; xa0; xab; x0a; xe6;
  xa0; xad; x0a; xe6; xa0; xaf; x0a; xe6;
  xa1; x8e; x0a; xe6; xa1; x84; x0a; xe6;
  xa0; xb4; x0a; xe6; xa0; x9d; x0a; xe6;
  xa0; x92; x0a; xe6; xa0; x94; x0a; xe6;
  xa0; xa6; x0a; xe6; xa0; xa8; x0a; xe6;
  xa0; xae; x0a; xe6; xa1; x8d; x0a; xe6;
  xa0; xba; x0a; xe6; xa0; xa5; x0a; xe6
].
(* tests/test_data/whatwg/big5_whatwg_test_encode_in.txt, entries 47360..47615 *)
Definition big5_encode_in_185 : list byte := [
  xa0; xa0; x0a; xe6; xac; xac; x0a; xe6;
  xac; xaf; x0a; xe6; xac; xad; x0a; xe6;
  xac; xb1; x0a; xe6; xac; xb4; x0a; xe6;
  xad; xad; x0a; xe8; x82; x82; x0a; xe6;
  xae; x88; x0a; xe6; xaf; xa6; x0a; xe6;
  xaf; xa4; x0a; xe6; xaf; xa8; x0a; xe6;
  xaf; xa3; x0a; xe6; xaf; xa2; x0a; xe6;
  xaf; xa7; x0a; xe6; xb0; xa5; x0a; xe6;
  xb5; xba; x0a; xe6; xb5; xa3; x0a; xe6;
  xb5; xa4; x0a; xe6; xb5; xb6; x0a; xe6;
  xb4; x8d; x0a; xe6; xb5; xa1; x0a; xe6;
  xb6; x92; x0a; xe6; xb5; x98; x0a; xe6;
  xb5; xa2; x0a; xe6; xb5; xad; x0a; xe6;
  xb5; xaf; x0a; xe6; xb6; x91; x0a; xe6;
  xb6; x8d; x0a; xe6; xb7; xaf; x0a; xe6;
  xb5; xbf; x0a; xe6; xb6; x86; x0a; xe6;
  xb5; x9e; x0a; xe6; xb5; xa0; x0a; xe6;
  xb6; x97; x0a; xe6; xb5; xb0; x0a; xe6;
  xb5; xbc; x0a; xe6; xb5; x9f; x0a; xe6;
  xb6; x82; x0a; xe6; xb6; x98; x0a; xe6;
  xb4; xaf; x0a; xe6; xb5; xa8; x0a; xe6;
  xb6; x8b; x0a; xe6; xb5; xbe; x0a; xe6;
  xb6; x80; x0a; xe6; xb6; x84; x0a; xe6;
  xb4; x96; x0a; xe6; xb6; x83; x0a; xe6;
  xb5; xbb; x0a; xe6; xb5; xbd; x0a; xe6;
  xb5; xb5; x0a; xe6; xb6; x90; x0a; xe7;
  x83; x9c; x0a; xe7; x83; x93; x0a; xe7;
  x83; x91; x0a; xe7; x83; x9d; x0a; xe7;
  x83; x8b; x0a; xe7; xbc; xb9; x0a; xe7;
  x83; xa2; x0a; xe7; x83; x97; x0a; xe7;
  x83; x92; x0a; xe7; x83; x9e; x0a; xe7;
  x83; xa0; x0a; xe7; x83; x94; x0a; xe7
].
(* tests/test_data/whatwg/big5_whatwg_test_encode_in.txt, entries 47616..47871 *)
Definition big5_encode_in_186 : list byte := [
  x83; x8d; x0a; xe7; x83; x85; x0a; xe7;
  x83; x86; x0a; xe7; x83; x87; x0a; xe7;
  x83; x9a; x0a; xe7; x83; x8e; x0a; xe7;
  x83; xa1; x0a; xe7; x89; x82; x0a; xe7;
  x89; xb8; x0a; xe7; x89; xb7; x0a; xe7;
  x89; xb6; x0a; xe7; x8c; x80; x0a; xe7;
  x8b; xba; x0a; xe7; x8b; xb4; x0a; xe7;
  x8b; xbe; x0a; xe7; x8b; xb6; x0a; xe7;
  x8b; xb3; x0a; xe7; x8b; xbb; x0a; xe7;
  x8c; x81; x0a; xe7; x8f; x93; x0a; xe7;
  x8f; x99; x0a; xe7; x8f; xa5; x0a; xe7;
  x8f; x96; x0a; xe7; x8e; xbc; x0a; xe7;
  x8f; xa7; x0a; xe7; x8f; xa3; x0a; xe7;
  x8f; xa9; x0a; xe7; x8f; x9c; x0a; xe7;
  x8f; x92; x0a; xe7; x8f; x9b; x0a; xe7;
  x8f; x94; x0a; xe7; x8f; x9d; x0a; xe7;
  x8f; x9a; x0a; xe7; x8f; x97; x0a; xe7;
  x8f; x98; x0a; xe7; x8f; xa8; x0a; xe7;
  x93; x9e; x0a; xe7; x93; x9f; x0a; xe7;
  x93; xb4; x0a; xe7; x93; xb5; x0a; xe7;
  x94; xa1; x0a; xe7; x95; x9b; x0a; xe7;
  x95; x9f; x0a; xe7; x96; xb0; x0a; xe7;
  x97; x81; x0a; xe7; x96; xbb; x0a; xe7;
  x97; x84; x0a; xe7; x97; x80; x0a; xe7;
  x96; xbf; x0a; xe7; x96; xb6; x0a; xe7;
  x96; xba; x0a; xe7; x9a; x8a; x0a; xe7;
  x9b; x89; x0a; xe7; x9c; x9d; x0a; xe7;
  x9c; x9b; x0a; xe7; x9c; x90; x0a; xe7;
  x9c; x93; x0a; xe7; x9c; x92; x0a; xe7;
  x9c; xa3; x0a; xe7; x9c; x91; x0a; xe7;
  x9c; x95; x0a; xe7; x9c; x99; x0a; xe7;
  x9c; x9a; x0a; xe7; x9c; xa2; x0a; xe7
].
(* tests/test_data/whatwg/big5_whatwg_test_encode_in.txt, entries 47872..48127 *)
Definition big5_encode_in_187 : list byte := [
  x9c; xa7; x0a; xe7; xa0; xa3; x0a; xe7;
  xa0; xac; x0a; xe7; xa0; xa2; x0a; xe7;
  xa0; xb5; x0a; xe7; xa0; xaf; x0a; xe7;
  xa0; xa8; x0a; xe7; xa0; xae; x0a; xe7;
  xa0; xab; x0a; xe7; xa0; xa1; x0a; xe7;
  xa0; xa9; x0a; xe7; xa0; xb3; x0a; xe7;
  xa0; xaa; x0a; xe7; xa0; xb1; x0a; xe7;
  xa5; x94; x0a; xe7; xa5; x9b; x0a; xe7;
  xa5; x8f; x0a; xe7; xa5; x9c; x0a; xe7;
  xa5; x93; x0a; xe7; xa5; x92; x0a; xe7;
  xa5; x91; x0a; xe7; xa7; xab; x0a; xe7;
  xa7; xac; x0a; xe7; xa7; xa0; x0a; xe7;
  xa7; xae; x0a; xe7; xa7; xad; x0a; xe7;
  xa7; xaa; x0a; xe7; xa7; x9c; x0a; xe7;
  xa7; x9e; x0a; xe7; xa7; x9d; x0a; xe7;
  xaa; x86; x0a; xe7; xaa; x89; x0a; xe7;
  xaa; x85; x0a; xe7; xaa; x8b; x0a; xe7;
  xaa; x8c; x0a; xe7; xaa; x8a; x0a; xe7;
  xaa; x87; x0a; xe7; xab; x98; x0a; xe7;
  xac; x90; x0a; xe7; xac; x84; x0a; xe7;
  xac; x93; x0a; xe7; xac; x85; x0a; xe7;
  xac; x8f; x0a; xe7; xac; x88; x0a; xe7;
  xac; x8a; x0a; xe7; xac; x8e; x0a; xe7;
  xac; x89; x0a; xe7; xac; x92; x0a; xe7;
  xb2; x84; x0a; xe7; xb2; x91; x0a; xe7;
  xb2; x8a; x0a; xe7; xb2; x8c; x0a; xe7;
  xb2; x88; x0a; xe7; xb2; x8d; x0a; xe7;
  xb2; x85; x0a; xe7; xb4; x9e; x0a; xe7;
  xb4; x9d; x0a; xe7; xb4; x91; x0a; xe7;
  xb4; x8e; x0a; xe7; xb4; x98; x0a; xe7;
  xb4; x96; x0a; xe7; xb4; x93; x0a; xe7;
  xb4; x9f; x0a; xe7; xb4; x92; x0a; xe7
].
(* tests/test_data/whatwg/big5_whatwg_test_encode_in.txt, entries 48128..48383 *)
Definition big5_encode_in_188 : list byte := [
  xb4; x8f; x0a; xe7; xb4; x8c; x0a; xe7;
  xbd; x9c; x0a; xe7; xbd; xa1; x0a; xe7;
  xbd; x9e; x0a; xe7; xbd; xa0; x0a; xe7;
  xbd; x9d; x0a; xe7; xbd; x9b; x0a; xe7;
  xbe; x96; x0a; xe7; xbe; x92; x0a; xe7;
  xbf; x83; x0a; xe7; xbf; x82; x0a; xe7;
  xbf; x80; x0a; xe8; x80; x96; x0a; xe8;
  x80; xbe; x0a; xe8; x80; xb9; x0a; xe8;
  x83; xba; x0a; xe8; x83; xb2; x0a; xe8;
  x83; xb9; x0a; xe8; x83; xb5; x0a; xe8;
  x84; x81; x0a; xe8; x83; xbb; x0a; xe8;
  x84; x80; x0a; xe8; x88; x81; x0a; xe8;
  x88; xaf; x0a; xe8; x88; xa5; x0a; xe8;
  x8c; xb3; x0a; xe8; x8c; xad; x0a; xe8;
  x8d; x84; x0a; xe8; x8c; x99; x0a; xe8;
  x8d; x91; x0a; xe8; x8c; xa5; x0a; xe8;
  x8d; x96; x0a; xe8; x8c; xbf; x0a; xe8;
  x8d; x81; x0a; xe8; x8c; xa6; x0a; xe8;
  x8c; x9c; x0a; xe8; x8c; xa2; x0a; xe8;
  x8d; x82; x0a; xe8; x8d; x8e; x0a; xe8;
  x8c; x9b; x0a; xe8; x8c; xaa; x0a; xe8;
  x8c; x88; x0a; xe8; x8c; xbc; x0a; xe8;
  x8d; x8d; x0a; xe8; x8c; x96; x0a; xe8;
  x8c; xa4; x0a; xe8; x8c; xa0; x0a; xe8;
  x8c; xb7; x0a; xe8; x8c; xaf; x0a; xe8;
  x8c; xa9; x0a; xe8; x8d; x87; x0a; xe8;
  x8d; x85; x0a; xe8; x8d; x8c; x0a; xe8;
  x8d; x93; x0a; xe8; x8c; x9e; x0a; xe8;
  x8c; xac; x0a; xe8; x8d; x8b; x0a; xe8;
  x8c; xa7; x0a; xe8; x8d; x88; x0a; xe8;
  x99; x93; x0a; xe8; x99; x92; x0a; xe8;
  x9a; xa2; x0a; xe8; x9a; xa8; x0a; xe8
].
(* tests/test_data/whatwg/big5_whatwg_test_encode_in.txt, entries 48384..48639 *)
Definition big5_encode_in_189 : list byte := [
  x9a; x96; x0a; xe8; x9a; x8d; x0a; xe8;
  x9a; x91; x0a; xe8; x9a; x9e; x0a; xe8;
  x9a; x87; x0a; xe8; x9a; x97; x0a; xe8;
  x9a; x86; x0a; xe8; x9a; x8b; x0a; xe8;
  x9a; x9a; x0a; xe8; x9a; x85; x0a; xe8;
  x9a; xa5; x0a; xe8; x9a; x99; x0a; xe8;
  x9a; xa1; x0a; xe8; x9a; xa7; x0a; xe8;
  x9a; x95; x0a; xe8; x9a; x98; x0a; xe8;
  x9a; x8e; x0a; xe8; x9a; x9d; x0a; xe8;
  x9a; x90; x0a; xe8; x9a; x94; x0a; xe8;
  xa1; x83; x0a; xe8; xa1; x84; x0a; xe8;
  xa1; xad; x0a; xe8; xa1; xb5; x0a; xe8;
  xa1; xb6; x0a; xe8; xa1; xb2; x0a; xe8;
  xa2; x80; x0a; xe8; xa1; xb1; x0a; xe8;
  xa1; xbf; x0a; xe8; xa1; xaf; x0a; xe8;
  xa2; x83; x0a; xe8; xa1; xbe; x0a; xe8;
  xa1; xb4; x0a; xe8; xa1; xbc; x0a; xe8;
  xa8; x92; x0a; xe8; xb1; x87; x0a; xe8;
  xb1; x97; x0a; xe8; xb1; xbb; x0a; xe8;
  xb2; xa4; x0a; xe8; xb2; xa3; x0a; xe8;
  xb5; xb6; x0a; xe8; xb5; xb8; x0a; xe8;
  xb6; xb5; x0a; xe8; xb6; xb7; x0a; xe8;
  xb6; xb6; x0a; xe8; xbb; x91; x0a; xe8;
  xbb; x93; x0a; xe8; xbf; xbe; x0a; xe8;
  xbf; xb5; x0a; xe9; x80; x82; x0a; xe8;
  xbf; xbf; x0a; xe8; xbf; xbb; x0a; xe9;
  x80; x84; x0a; xe8; xbf; xbc; x0a; xe8;
  xbf; xb6; x0a; xe9; x83; x96; x0a; xe9;
  x83; xa0; x0a; xe9; x83; x99; x0a; xe9;
  x83; x9a; x0a; xe9; x83; xa3; x0a; xe9;
  x83; x9f; x0a; xe9; x83; xa5; x0a; xe9;
  x83; x98; x0a; xe9; x83; x9b; x0a; xe9
].
(* tests/test_data/whatwg/big5_whatwg_test_encode_in.txt, entries 48640..48895 *)
Definition big5_encode_in_190 : list byte := [
  x83; x97; x0a; xe9; x83; x9c; x0a; xe9;
  x83; xa4; x0a; xe9; x85; x90; x0a; xe9;
  x85; x8e; x0a; xe9; x85; x8f; x0a; xe9;
  x87; x95; x0a; xe9; x87; xa2; x0a; xe9;
  x87; x9a; x0a; xe9; x99; x9c; x0a; xe9;
  x99; x9f; x0a; xe9; x9a; xbc; x0a; xe9;
  xa3; xa3; x0a; xe9; xab; x9f; x0a; xe9;
  xac; xaf; x0a; xe4; xb9; xbf; x0a; xe5;
  x81; xb0; x0a; xe5; x81; xaa; x0a; xe5;
  x81; xa1; x0a; xe5; x81; x9e; x0a; xe5;
  x81; xa0; x0a; xe5; x81; x93; x0a; xe5;
  x81; x8b; x0a; xe5; x81; x9d; x0a; xe5;
  x81; xb2; x0a; xe5; x81; x88; x0a; xe5;
  x81; x8d; x0a; xe5; x81; x81; x0a; xe5;
  x81; x9b; x0a; xe5; x81; x8a; x0a; xe5;
  x81; xa2; x0a; xe5; x80; x95; x0a; xe5;
  x81; x85; x0a; xe5; x81; x9f; x0a; xe5;
  x81; xa9; x0a; xe5; x81; xab; x0a; xe5;
  x81; xa3; x0a; xe5; x81; xa4; x0a; xe5;
  x81; x86; x0a; xe5; x81; x80; x0a; xe5;
  x81; xae; x0a; xe5; x81; xb3; x0a; xe5;
  x81; x97; x0a; xe5; x81; x91; x0a; xe5;
  x87; x90; x0a; xe5; x89; xab; x0a; xe5;
  x89; xad; x0a; xe5; x89; xac; x0a; xe5;
  x89; xae; x0a; xe5; x8b; x96; x0a; xe5;
  x8b; x93; x0a; xe5; x8c; xad; x0a; xe5;
  x8e; x9c; x0a; xe5; x95; xb5; x0a; xe5;
  x95; xb6; x0a; xe5; x94; xbc; x0a; xe5;
  x95; x8d; x0a; xe5; x95; x90; x0a; xe5;
  x94; xb4; x0a; xe5; x94; xaa; x0a; xe5;
  x95; x91; x0a; xe5; x95; xa2; x0a; xe5;
  x94; xb6; x0a; xe5; x94; xb5; x0a; xe5
].
(* tests/test_data/whatwg/big5_whatwg_test_encode_in.txt, entries 48896..49151 *)
Definition big5_encode_in_191 : list byte := [
  x94; xb0; x0a; xe5; x95; x92; x0a; xe5;
  x95; x85; x0a; xe5; x94; x8c; x0a; xe5;
  x94; xb2; x0a; xe5; x95; xa5; x0a; xe5;
  x95; x8e; x0a; xe5; x94; xb9; x0a; xe5;
  x95; x88; x0a; xe5; x94; xad; x0a; xe5;
  x94; xbb; x0a; xe5; x95; x80; x0a; xe5;
  x95; x8b; x0a; xe5; x9c; x8a; x0a; xe5;
  x9c; x87; x0a; xe5; x9f; xbb; x0a; xe5;
  xa0; x94; x0a; xe5; x9f; xa2; x0a; xe5;
  x9f; xb6; x0a; xe5; x9f; x9c; x0a; xe5;
  x9f; xb4; x0a; xe5; xa0; x80; x0a; xe5;
  x9f; xad; x0a; xe5; x9f; xbd; x0a; xe5;
  xa0; x88; x0a; xe5; x9f; xb8; x0a; xe5;
  xa0; x8b; x0a; xe5; x9f; xb3; x0a; xe5;
  x9f; x8f; x0a; xe5; xa0; x87; x0a; xe5;
  x9f; xae; x0a; xe5; x9f; xa3; x0a; xe5;
  x9f; xb2; x0a; xe5; x9f; xa5; x0a; xe5;
  x9f; xac; x0a; xe5; x9f; xa1; x0a; xe5;
  xa0; x8e; x0a; xe5; x9f; xbc; x0a; xe5;
  xa0; x90; x0a; xe5; x9f; xa7; x0a; xe5;
  xa0; x81; x0a; xe5; xa0; x8c; x0a; xe5;
  x9f; xb1; x0a; xe5; x9f; xa9; x0a; xe5;
  x9f; xb0; x0a; xe5; xa0; x8d; x0a; xe5;
  xa0; x84; x0a; xe5; xa5; x9c; x0a; xe5;
  xa9; xa0; x0a; xe5; xa9; x98; x0a; xe5;
  xa9; x95; x0a; xe5; xa9; x9e; x0a; xe5;
  xa8; xb8; x0a; xe5; xa8; xb5; x0a; xe5;
  xa9; xad; x0a; xe5; xa9; x90; x0a; xe5;
  xa9; x9f; x0a; xe5; xa9; xa5; x0a; xe5;
  xa9; xac; x0a; xe5; xa9; x93; x0a; xe5;
  xa9; xa4; x0a; xe5; xa9; x97; x0a; xe5;
  xa9; x83; x0a; xe5; xa9; x9d; x0a; xe5
].
(* tests/test_data/whatwg/big5_whatwg_test_encode_in.txt, entries 49152..49407 *)
Definition big5_encode_in_192 : list byte := [
  xa9; x92; x0a; xe5; xa9; x84; x0a; xe5;
  xa9; x9b; x0a; xe5; xa9; x88; x0a; xe5;
  xaa; x8e; x0a; xe5; xa8; xbe; x0a; xe5;
  xa9; x8d; x0a; xe5; xa8; xb9; x0a; xe5;
  xa9; x8c; x0a; xe5; xa9; xb0; x0a; xe5;
  xa9; xa9; x0a; xe5; xa9; x87; x0a; xe5;
  xa9; x91; x0a; xe5; xa9; x96; x0a; xe5;
  xa9; x82; x0a; xe5; xa9; x9c; x0a; xe5;
  xad; xb2; x0a; xe5; xad; xae; x0a; xe5;
  xaf; x81; x0a; xe5; xaf; x80; x0a; xe5;
  xb1; x99; x0a; xe5; xb4; x9e; x0a; xe5;
  xb4; x8b; x0a; xe5; xb4; x9d; x0a; xe5;
  xb4; x9a; x0a; xe5; xb4; xa0; x0a; xe5;
  xb4; x8c; x0a; xe5; xb4; xa8; x0a; xe5;
  xb4; x8d; x0a; xe5; xb4; xa6; x0a; xe5;
  xb4; xa5; x0a; xe5; xb4; x8f; x0a; xe5;
  xb4; xb0; x0a; xe5; xb4; x92; x0a; xe5;
  xb4; xa3; x0a; xe5; xb4; x9f; x0a; xe5;
  xb4; xae; x0a; xe5; xb8; xbe; x0a; xe5;
  xb8; xb4; x0a; xe5; xba; xb1; x0a; xe5;
  xba; xb4; x0a; xe5; xba; xb9; x0a; xe5;
  xba; xb2; x0a; xe5; xba; xb3; x0a; xe5;
  xbc; xb6; x0a; xe5; xbc; xb8; x0a; xe5;
  xbe; x9b; x0a; xe5; xbe; x96; x0a; xe5;
  xbe; x9f; x0a; xe6; x82; x8a; x0a; xe6;
  x82; x90; x0a; xe6; x82; x86; x0a; xe6;
  x82; xbe; x0a; xe6; x82; xb0; x0a; xe6;
  x82; xba; x0a; xe6; x83; x93; x0a; xe6;
  x83; x94; x0a; xe6; x83; x8f; x0a; xe6;
  x83; xa4; x0a; xe6; x83; x99; x0a; xe6;
  x83; x9d; x0a; xe6; x83; x88; x0a; xe6;
  x82; xb1; x0a; xe6; x83; x9b; x0a; xe6
].
(* tests/test_data/whatwg/big5_whatwg_test_encode_in.txt, entries 49408..49663 *)
Definition big5_encode_in_193 : list byte := [
  x82; xb7; x0a; xe6; x83; x8a; x0a; xe6;
  x82; xbf; x0a; xe6; x83; x83; x0a; xe6;
  x83; x8d; x0a; xe6; x83; x80; x0a; xe6;
  x8c; xb2; x0a; xe6; x8d; xa5; x0a; xe6;
  x8e; x8a; x0a; xe6; x8e; x82; x0a; xe6;
  x8d; xbd; x0a; xe6; x8e; xbd; x0a; xe6;
  x8e; x9e; x0a; xe6; x8e; xad; x0a; xe6;
  x8e; x9d; x0a; xe6; x8e; x97; x0a; xe6;
  x8e; xab; x0a; xe6; x8e; x8e; x0a; xe6;
  x8d; xaf; x0a; xe6; x8e; x87; x0a; xe6;
  x8e; x90; x0a; xe6; x8d; xae; x0a; xe6;
  x8e; xaf; x0a; xe6; x8d; xb5; x0a; xe6;
  x8e; x9c; x0a; xe6; x8d; xad; x0a; xe6;
  x8e; xae; x0a; xe6; x8d; xbc; x0a; xe6;
  x8e; xa4; x0a; xe6; x8c; xbb; x0a; xe6;
  x8e; x9f; x0a; xe6; x8d; xb8; x0a; xe6;
  x8e; x85; x0a; xe6; x8e; x81; x0a; xe6;
  x8e; x91; x0a; xe6; x8e; x8d; x0a; xe6;
  x8d; xb0; x0a; xe6; x95; x93; x0a; xe6;
  x97; x8d; x0a; xe6; x99; xa5; x0a; xe6;
  x99; xa1; x0a; xe6; x99; x9b; x0a; xe6;
  x99; x99; x0a; xe6; x99; x9c; x0a; xe6;
  x99; xa2; x0a; xe6; x9c; x98; x0a; xe6;
  xa1; xb9; x0a; xe6; xa2; x87; x0a; xe6;
  xa2; x90; x0a; xe6; xa2; x9c; x0a; xe6;
  xa1; xad; x0a; xe6; xa1; xae; x0a; xe6;
  xa2; xae; x0a; xe6; xa2; xab; x0a; xe6;
  xa5; x96; x0a; xe6; xa1; xaf; x0a; xe6;
  xa2; xa3; x0a; xe6; xa2; xac; x0a; xe6;
  xa2; xa9; x0a; xe6; xa1; xb5; x0a; xe6;
  xa1; xb4; x0a; xe6; xa2; xb2; x0a; xe6;
  xa2; x8f; x0a; xe6; xa1; xb7; x0a; xe6
].
(* tests/test_data/whatwg/big5_whatwg_test_encode_in.txt, entries 49664..49919 *)
Definition big5_encode_in_194 : list byte := [
  xa2; x92; x0a; xe6; xa1; xbc; x0a; xe6;
  xa1; xab; x0a; xe6; xa1; xb2; x0a; xe6;
  xa2; xaa; x0a; xe6; xa2; x80; x0a; xe6;
  xa1; xb1; x0a; xe6; xa1; xbe; x0a; xe6;
  xa2; x9b; x0a; xe6; xa2; x96; x0a; xe6;
  xa2; x8b; x0a; xe6; xa2; xa0; x0a; xe6;
  xa2; x89; x0a; xe6; xa2; xa4; x0a; xe6;
  xa1; xb8; x0a; xe6; xa1; xbb; x0a; xe6;
  xa2; x91; x0a; xe6; xa2; x8c; x0a; xe6;
  xa2; x8a; x0a; xe6; xa1; xbd; x0a; xe6;
  xac; xb6; x0a; xe6; xac; xb3; x0a; xe6;
  xac; xb7; x0a; xe6; xac; xb8; x0a; xe6;
  xae; x91; x0a; xe6; xae; x8f; x0a; xe6;
  xae; x8d; x0a; xe6; xae; x8e; x0a; xe6;
  xae; x8c; x0a; xe6; xb0; xaa; x0a; xe6;
  xb7; x80; x0a; xe6; xb6; xab; x0a; xe6;
  xb6; xb4; x0a; xe6; xb6; xb3; x0a; xe6;
  xb9; xb4; x0a; xe6; xb6; xac; x0a; xe6;
  xb7; xa9; x0a; xe6; xb7; xa2; x0a; xe6;
  xb6; xb7; x0a; xe6; xb7; xb6; x0a; xe6;
  xb7; x94; x0a; xe6; xb8; x80; x0a; xe6;
  xb7; x88; x0a; xe6; xb7; xa0; x0a; xe6;
  xb7; x9f; x0a; xe6; xb7; x96; x0a; xe6;
  xb6; xbe; x0a; xe6; xb7; xa5; x0a; xe6;
  xb7; x9c; x0a; xe6; xb7; x9d; x0a; xe6;
  xb7; x9b; x0a; xe6; xb7; xb4; x0a; xe6;
  xb7; x8a; x0a; xe6; xb6; xbd; x0a; xe6;
  xb7; xad; x0a; xe6; xb7; xb0; x0a; xe6;
  xb6; xba; x0a; xe6; xb7; x95; x0a; xe6;
  xb7; x82; x0a; xe6; xb7; x8f; x0a; xe6;
  xb7; x89; x0a; xe6; xb7; x90; x0a; xe6;
  xb7; xb2; x0a; xe6; xb7; x93; x0a; xe6
].
(* tests/test_data/whatwg/big5_whatwg_test_encode_in.txt, entries 49920..50175 *)
Definition big5_encode_in_195 : list byte := [
  xb7; xbd; x0a; xe6; xb7; x97; x0a; xe6;
  xb7; x8d; x0a; xe6; xb7; xa3; x0a; xe6;
  xb6; xbb; x0a; xe7; x83; xba; x0a; xe7;
  x84; x8d; x0a; xe7; x83; xb7; x0a; xe7;
  x84; x97; x0a; xe7; x83; xb4; x0a; xe7;
  x84; x8c; x0a; xe7; x83; xb0; x0a; xe7;
  x84; x84; x0a; xe7; x83; xb3; x0a; xe7;
  x84; x90; x0a; xe7; x83; xbc; x0a; xe7;
  x83; xbf; x0a; xe7; x84; x86; x0a; xe7;
  x84; x93; x0a; xe7; x84; x80; x0a; xe7;
  x83; xb8; x0a; xe7; x83; xb6; x0a; xe7;
  x84; x8b; x0a; xe7; x84; x82; x0a; xe7;
  x84; x8e; x0a; xe7; x89; xbe; x0a; xe7;
  x89; xbb; x0a; xe7; x89; xbc; x0a; xe7;
  x89; xbf; x0a; xe7; x8c; x9d; x0a; xe7;
  x8c; x97; x0a; xe7; x8c; x87; x0a; xe7;
  x8c; x91; x0a; xe7; x8c; x98; x0a; xe7;
  x8c; x8a; x0a; xe7; x8c; x88; x0a; xe7;
  x8b; xbf; x0a; xe7; x8c; x8f; x0a; xe7;
  x8c; x9e; x0a; xe7; x8e; x88; x0a; xe7;
  x8f; xb6; x0a; xe7; x8f; xb8; x0a; xe7;
  x8f; xb5; x0a; xe7; x90; x84; x0a; xe7;
  x90; x81; x0a; xe7; x8f; xbd; x0a; xe7;
  x90; x87; x0a; xe7; x90; x80; x0a; xe7;
  x8f; xba; x0a; xe7; x8f; xbc; x0a; xe7;
  x8f; xbf; x0a; xe7; x90; x8c; x0a; xe7;
  x90; x8b; x0a; xe7; x8f; xb4; x0a; xe7;
  x90; x88; x0a; xe7; x95; xa4; x0a; xe7;
  x95; xa3; x0a; xe7; x97; x8e; x0a; xe7;
  x97; x92; x0a; xe7; x97; x8f; x0a; xe7;
  x97; x8b; x0a; xe7; x97; x8c; x0a; xe7;
  x97; x91; x0a; xe7; x97; x90; x0a; xe7
].
(* tests/test_data/whatwg/big5_whatwg_test_encode_in.txt, entries 50176..50431 *)
Definition big5_encode_in_196 : list byte := [
  x9a; x8f; x0a; xe7; x9a; x89; x0a; xe7;
  x9b; x93; x0a; xe7; x9c; xb9; x0a; xe7;
  x9c; xaf; x0a; xe7; x9c; xad; x0a; xe7;
  x9c; xb1; x0a; xe7; x9c; xb2; x0a; xe7;
  x9c; xb4; x0a; xe7; x9c; xb3; x0a; xe7;
  x9c; xbd; x0a; xe7; x9c; xa5; x0a; xe7;
  x9c; xbb; x0a; xe7; x9c; xb5; x0a; xe7;
  xa1; x88; x0a; xe7; xa1; x92; x0a; xe7;
  xa1; x89; x0a; xe7; xa1; x8d; x0a; xe7;
  xa1; x8a; x0a; xe7; xa1; x8c; x0a; xe7;
  xa0; xa6; x0a; xe7; xa1; x85; x0a; xe7;
  xa1; x90; x0a; xe7; xa5; xa4; x0a; xe7;
  xa5; xa7; x0a; xe7; xa5; xa9; x0a; xe7;
  xa5; xaa; x0a; xe7; xa5; xa3; x0a; xe7;
  xa5; xab; x0a; xe7; xa5; xa1; x0a; xe7;
  xa6; xbb; x0a; xe7; xa7; xba; x0a; xe7;
  xa7; xb8; x0a; xe7; xa7; xb6; x0a; xe7;
  xa7; xb7; x0a; xe7; xaa; x8f; x0a; xe7;
  xaa; x94; x0a; xe7; xaa; x90; x0a; xe7;
  xac; xb5; x0a; xe7; xad; x87; x0a; xe7;
  xac; xb4; x0a; xe7; xac; xa5; x0a; xe7;
  xac; xb0; x0a; xe7; xac; xa2; x0a; xe7;
  xac; xa4; x0a; xe7; xac; xb3; x0a; xe7;
  xac; x98; x0a; xe7; xac; xaa; x0a; xe7;
  xac; x9d; x0a; xe7; xac; xb1; x0a; xe7;
  xac; xab; x0a; xe7; xac; xad; x0a; xe7;
  xac; xaf; x0a; xe7; xac; xb2; x0a; xe7;
  xac; xb8; x0a; xe7; xac; x9a; x0a; xe7;
  xac; xa3; x0a; xe7; xb2; x94; x0a; xe7;
  xb2; x98; x0a; xe7; xb2; x96; x0a; xe7;
  xb2; xa3; x0a; xe7; xb4; xb5; x0a; xe7;
  xb4; xbd; x0a; xe7; xb4; xb8; x0a; xe7
].
(* tests/test_data/whatwg/big5_whatwg_test_encode_in.txt, entries 50432..50687 *)
Definition big5_encode_in_197 : list byte := [
  xb4; xb6; x0a; xe7; xb4; xba; x0a; xe7;
  xb5; x85; x0a; xe7; xb4; xac; x0a; xe7;
  xb4; xa9; x0a; xe7; xb5; x81; x0a; xe7;
  xb5; x87; x0a; xe7; xb4; xbe; x0a; xe7;
  xb4; xbf; x0a; xe7; xb5; x8a; x0a; xe7;
  xb4; xbb; x0a; xe7; xb4; xa8; x0a; xe7;
  xbd; xa3; x0a; xe7; xbe; x95; x0a; xe7;
  xbe; x9c; x0a; xe7; xbe; x9d; x0a; xe7;
  xbe; x9b; x0a; xe7; xbf; x8a; x0a; xe7;
  xbf; x8b; x0a; xe7; xbf; x8d; x0a; xe7;
  xbf; x90; x0a; xe7; xbf; x91; x0a; xe7;
  xbf; x87; x0a; xe7; xbf; x8f; x0a; xe7;
  xbf; x89; x0a; xe8; x80; x9f; x0a; xe8;
  x80; x9e; x0a; xe8; x80; x9b; x0a; xe8;
  x81; x87; x0a; xe8; x81; x83; x0a; xe8;
  x81; x88; x0a; xe8; x84; x98; x0a; xe8;
  x84; xa5; x0a; xe8; x84; x99; x0a; xe8;
  x84; x9b; x0a; xe8; x84; xad; x0a; xe8;
  x84; x9f; x0a; xe8; x84; xac; x0a; xe8;
  x84; x9e; x0a; xe8; x84; xa1; x0a; xe8;
  x84; x95; x0a; xe8; x84; xa7; x0a; xe8;
  x84; x9d; x0a; xe8; x84; xa2; x0a; xe8;
  x88; x91; x0a; xe8; x88; xb8; x0a; xe8;
  x88; xb3; x0a; xe8; x88; xba; x0a; xe8;
  x88; xb4; x0a; xe8; x88; xb2; x0a; xe8;
  x89; xb4; x0a; xe8; x8e; x90; x0a; xe8;
  x8e; xa3; x0a; xe8; x8e; xa8; x0a; xe8;
  x8e; x8d; x0a; xe8; x8d; xba; x0a; xe8;
  x8d; xb3; x0a; xe8; x8e; xa4; x0a; xe8;
  x8d; xb4; x0a; xe8; x8e; x8f; x0a; xe8;
  x8e; x81; x0a; xe8; x8e; x95; x0a; xe8;
  x8e; x99; x0a; xe8; x8d; xb5; x0a; xe8
].
(* tests/test_data/whatwg/big5_whatwg_test_encode_in.txt, entries 50688..50943 *)
Definition big5_encode_in_198 : list byte := [
  x8e; x94; x0a; xe8; x8e; xa9; x0a; xe8;
  x8d; xbd; x0a; xe8; x8e; x83; x0a; xe8;
  x8e; x8c; x0a; xe8; x8e; x9d; x0a; xe8;
  x8e; x9b; x0a; xe8; x8e; xaa; x0a; xe8;
  x8e; x8b; x0a; xe8; x8d; xbe; x0a; xe8;
  x8e; xa5; x0a; xe8; x8e; xaf; x0a; xe8;
  x8e; x88; x0a; xe8; x8e; x97; x0a; xe8;
  x8e; xb0; x0a; xe8; x8d; xbf; x0a; xe8;
  x8e; xa6; x0a; xe8; x8e; x87; x0a; xe8;
  x8e; xae; x0a; xe8; x8d; xb6; x0a; xe8;
  x8e; x9a; x0a; xe8; x99; x99; x0a; xe8;
  x99; x96; x0a; xe8; x9a; xbf; x0a; xe8;
  x9a; xb7; x0a; xe8; x9b; x82; x0a; xe8;
  x9b; x81; x0a; xe8; x9b; x85; x0a; xe8;
  x9a; xba; x0a; xe8; x9a; xb0; x0a; xe8;
  x9b; x88; x0a; xe8; x9a; xb9; x0a; xe8;
  x9a; xb3; x0a; xe8; x9a; xb8; x0a; xe8;
  x9b; x8c; x0a; xe8; x9a; xb4; x0a; xe8;
  x9a; xbb; x0a; xe8; x9a; xbc; x0a; xe8;
  x9b; x83; x0a; xe8; x9a; xbd; x0a; xe8;
  x9a; xbe; x0a; xe8; xa1; x92; x0a; xe8;
  xa2; x89; x0a; xe8; xa2; x95; x0a; xe8;
  xa2; xa8; x0a; xe8; xa2; xa2; x0a; xe8;
  xa2; xaa; x0a; xe8; xa2; x9a; x0a; xe8;
  xa2; x91; x0a; xe8; xa2; xa1; x0a; xe8;
  xa2; x9f; x0a; xe8; xa2; x98; x0a; xe8;
  xa2; xa7; x0a; xe8; xa2; x99; x0a; xe8;
  xa2; x9b; x0a; xe8; xa2; x97; x0a; xe8;
  xa2; xa4; x0a; xe8; xa2; xac; x0a; xe8;
  xa2; x8c; x0a; xe8; xa2; x93; x0a; xe8;
  xa2; x8e; x0a; xe8; xa6; x82; x0a; xe8;
  xa7; x96; x0a; xe8; xa7; x99; x0a; xe8
].
(* tests/test_data/whatwg/big5_whatwg_test_encode_in.txt, entries 50944..51199 *)
Definition big5_encode_in_199 : list byte := [
  xa7; x95; x0a; xe8; xa8; xb0; x0a; xe8;
  xa8; xa7; x0a; xe8; xa8; xac; x0a; xe8;
  xa8; x9e; x0a; xe8; xb0; xb9; x0a; xe8;
  xb0; xbb; x0a; xe8; xb1; x9c; x0a; xe8;
  xb1; x9d; x0a; xe8; xb1; xbd; x0a; xe8;
  xb2; xa5; x0a; xe8; xb5; xbd; x0a; xe8;
  xb5; xbb; x0a; xe8; xb5; xb9; x0a; xe8;
  xb6; xbc; x0a; xe8; xb7; x82; x0a; xe8;
  xb6; xb9; x0a; xe8; xb6; xbf; x0a; xe8;
  xb7; x81; x0a; xe8; xbb; x98; x0a; xe8;
  xbb; x9e; x0a; xe8; xbb; x9d; x0a; xe8;
  xbb; x9c; x0a; xe8; xbb; x97; x0a; xe8;
  xbb; xa0; x0a; xe8; xbb; xa1; x0a; xe9;
  x80; xa4; x0a; xe9; x80; x8b; x0a; xe9;
  x80; x91; x0a; xe9; x80; x9c; x0a; xe9;
  x80; x8c; x0a; xe9; x80; xa1; x0a; xe9;
  x83; xaf; x0a; xe9; x83; xaa; x0a; xe9;
  x83; xb0; x0a; xe9; x83; xb4; x0a; xe9;
  x83; xb2; x0a; xe9; x83; xb3; x0a; xe9;
  x83; x94; x0a; xe9; x83; xab; x0a; xe9;
  x83; xac; x0a; xe9; x83; xa9; x0a; xe9;
  x85; x96; x0a; xe9; x85; x98; x0a; xe9;
  x85; x9a; x0a; xe9; x85; x93; x0a; xe9;
  x85; x95; x0a; xe9; x87; xac; x0a; xe9;
  x87; xb4; x0a; xe9; x87; xb1; x0a; xe9;
  x87; xb3; x0a; xe9; x87; xb8; x0a; xe9;
  x87; xa4; x0a; xe9; x87; xb9; x0a; xe9;
  x87; xaa; x0a; xe9; x87; xab; x0a; xe9;
  x87; xb7; x0a; xe9; x87; xa8; x0a; xe9;
  x87; xae; x0a; xe9; x95; xba; x0a; xe9;
  x96; x86; x0a; xe9; x96; x88; x0a; xe9;
  x99; xbc; x0a; xe9; x99; xad; x0a; xe9
].
(* tests/test_data/whatwg/big5_whatwg_test_encode_in.txt, entries 51200..51455 *)
Definition big5_encode_in_200 : list byte := [
  x99; xab; x0a; xe9; x99; xb1; x0a; xe9;
  x99; xaf; x0a; xe9; x9a; xbf; x0a; xe9;
  x9d; xaa; x0a; xe9; xa0; x84; x0a; xe9;
  xa3; xa5; x0a; xe9; xa6; x97; x0a; xe5;
  x82; x9b; x0a; xe5; x82; x95; x0a; xe5;
  x82; x94; x0a; xe5; x82; x9e; x0a; xe5;
  x82; x8b; x0a; xe5; x82; xa3; x0a; xe5;
  x82; x83; x0a; xe5; x82; x8c; x0a; xe5;
  x82; x8e; x0a; xe5; x82; x9d; x0a; xe5;
  x81; xa8; x0a; xe5; x82; x9c; x0a; xe5;
  x82; x92; x0a; xe5; x82; x82; x0a; xe5;
  x82; x87; x0a; xe5; x85; x9f; x0a; xe5;
  x87; x94; x0a; xe5; x8c; x92; x0a; xe5;
  x8c; x91; x0a; xe5; x8e; xa4; x0a; xe5;
  x8e; xa7; x0a; xe5; x96; x91; x0a; xe5;
  x96; xa8; x0a; xe5; x96; xa5; x0a; xe5;
  x96; xad; x0a; xe5; x95; xb7; x0a; xe5;
  x99; x85; x0a; xe5; x96; xa2; x0a; xe5;
  x96; x93; x0a; xe5; x96; x88; x0a; xe5;
  x96; x8f; x0a; xe5; x96; xb5; x0a; xe5;
  x96; x81; x0a; xe5; x96; xa3; x0a; xe5;
  x96; x92; x0a; xe5; x96; xa4; x0a; xe5;
  x95; xbd; x0a; xe5; x96; x8c; x0a; xe5;
  x96; xa6; x0a; xe5; x95; xbf; x0a; xe5;
  x96; x95; x0a; xe5; x96; xa1; x0a; xe5;
  x96; x8e; x0a; xe5; x9c; x8c; x0a; xe5;
  xa0; xa9; x0a; xe5; xa0; xb7; x0a; xe5;
  xa0; x99; x0a; xe5; xa0; x9e; x0a; xe5;
  xa0; xa7; x0a; xe5; xa0; xa3; x0a; xe5;
  xa0; xa8; x0a; xe5; x9f; xb5; x0a; xe5;
  xa1; x88; x0a; xe5; xa0; xa5; x0a; xe5;
  xa0; x9c; x0a; xe5; xa0; x9b; x0a; xe5
].
(* tests/test_data/whatwg/big5_whatwg_test_encode_in.txt, entries 51456..51711 *)
Definition big5_encode_in_201 : list byte := [
  xa0; xb3; x0a; xe5; xa0; xbf; x0a; xe5;
  xa0; xb6; x0a; xe5; xa0; xae; x0a; xe5;
  xa0; xb9; x0a; xe5; xa0; xb8; x0a; xe5;
  xa0; xad; x0a; xe5; xa0; xac; x0a; xe5;
  xa0; xbb; x0a; xe5; xa5; xa1; x0a; xe5;
  xaa; xaf; x0a; xe5; xaa; x94; x0a; xe5;
  xaa; x9f; x0a; xe5; xa9; xba; x0a; xe5;
  xaa; xa2; x0a; xe5; xaa; x9e; x0a; xe5;
  xa9; xb8; x0a; xe5; xaa; xa6; x0a; xe5;
  xa9; xbc; x0a; xe5; xaa; xa5; x0a; xe5;
  xaa; xac; x0a; xe5; xaa; x95; x0a; xe5;
  xaa; xae; x0a; xe5; xa8; xb7; x0a; xe5;
  xaa; x84; x0a; xe5; xaa; x8a; x0a; xe5;
  xaa; x97; x0a; xe5; xaa; x83; x0a; xe5;
  xaa; x8b; x0a; xe5; xaa; xa9; x0a; xe5;
  xa9; xbb; x0a; xe5; xa9; xbd; x0a; xe5;
  xaa; x8c; x0a; xe5; xaa; x9c; x0a; xe5;
  xaa; x8f; x0a; xe5; xaa; x93; x0a; xe5;
  xaa; x9d; x0a; xe5; xaf; xaa; x0a; xe5;
  xaf; x8d; x0a; xe5; xaf; x8b; x0a; xe5;
  xaf; x94; x0a; xe5; xaf; x91; x0a; xe5;
  xaf; x8a; x0a; xe5; xaf; x8e; x0a; xe5;
  xb0; x8c; x0a; xe5; xb0; xb0; x0a; xe5;
  xb4; xb7; x0a; xe5; xb5; x83; x0a; xe5;
  xb5; xab; x0a; xe5; xb5; x81; x0a; xe5;
  xb5; x8b; x0a; xe5; xb4; xbf; x0a; xe5;
  xb4; xb5; x0a; xe5; xb5; x91; x0a; xe5;
  xb5; x8e; x0a; xe5; xb5; x95; x0a; xe5;
  xb4; xb3; x0a; xe5; xb4; xba; x0a; xe5;
  xb5; x92; x0a; xe5; xb4; xbd; x0a; xe5;
  xb4; xb1; x0a; xe5; xb5; x99; x0a; xe5;
  xb5; x82; x0a; xe5; xb4; xb9; x0a; xe5
].
(* tests/test_data/whatwg/big5_whatwg_test_encode_in.txt, entries 51712..51967 *)
Definition big5_encode_in_202 : list byte := [
  xb5; x89; x0a; xe5; xb4; xb8; x0a; xe5;
  xb4; xbc; x0a; xe5; xb4; xb2; x0a; xe5;
  xb4; xb6; x0a; xe5; xb5; x80; x0a; xe5;
  xb5; x85; x0a; xe5; xb9; x84; x0a; xe5;
  xb9; x81; x0a; xe5; xbd; x98; x0a; xe5;
  xbe; xa6; x0a; xe5; xbe; xa5; x0a; xe5;
  xbe; xab; x0a; xe6; x83; x89; x0a; xe6;
  x82; xb9; x0a; xe6; x83; x8c; x0a; xe6;
  x83; xa2; x0a; xe6; x83; x8e; x0a; xe6;
  x83; x84; x0a; xe6; x84; x94; x0a; xe6;
  x83; xb2; x0a; xe6; x84; x8a; x0a; xe6;
  x84; x96; x0a; xe6; x84; x85; x0a; xe6;
  x83; xb5; x0a; xe6; x84; x93; x0a; xe6;
  x83; xb8; x0a; xe6; x83; xbc; x0a; xe6;
  x83; xbe; x0a; xe6; x83; x81; x0a; xe6;
  x84; x83; x0a; xe6; x84; x98; x0a; xe6;
  x84; x9d; x0a; xe6; x84; x90; x0a; xe6;
  x83; xbf; x0a; xe6; x84; x84; x0a; xe6;
  x84; x8b; x0a; xe6; x89; x8a; x0a; xe6;
  x8e; x94; x0a; xe6; x8e; xb1; x0a; xe6;
  x8e; xb0; x0a; xe6; x8f; x8e; x0a; xe6;
  x8f; xa5; x0a; xe6; x8f; xa8; x0a; xe6;
  x8f; xaf; x0a; xe6; x8f; x83; x0a; xe6;
  x92; x9d; x0a; xe6; x8f; xb3; x0a; xe6;
  x8f; x8a; x0a; xe6; x8f; xa0; x0a; xe6;
  x8f; xb6; x0a; xe6; x8f; x95; x0a; xe6;
  x8f; xb2; x0a; xe6; x8f; xb5; x0a; xe6;
  x91; xa1; x0a; xe6; x8f; x9f; x0a; xe6;
  x8e; xbe; x0a; xe6; x8f; x9d; x0a; xe6;
  x8f; x9c; x0a; xe6; x8f; x84; x0a; xe6;
  x8f; x98; x0a; xe6; x8f; x93; x0a; xe6;
  x8f; x82; x0a; xe6; x8f; x87; x0a; xe6
].
(* tests/test_data/whatwg/big5_whatwg_test_encode_in.txt, entries 51968..52223 *)
Definition big5_encode_in_203 : list byte := [
  x8f; x8c; x0a; xe6; x8f; x8b; x0a; xe6;
  x8f; x88; x0a; xe6; x8f; xb0; x0a; xe6;
  x8f; x97; x0a; xe6; x8f; x99; x0a; xe6;
  x94; xb2; x0a; xe6; x95; xa7; x0a; xe6;
  x95; xaa; x0a; xe6; x95; xa4; x0a; xe6;
  x95; x9c; x0a; xe6; x95; xa8; x0a; xe6;
  x95; xa5; x0a; xe6; x96; x8c; x0a; xe6;
  x96; x9d; x0a; xe6; x96; x9e; x0a; xe6;
  x96; xae; x0a; xe6; x97; x90; x0a; xe6;
  x97; x92; x0a; xe6; x99; xbc; x0a; xe6;
  x99; xac; x0a; xe6; x99; xbb; x0a; xe6;
  x9a; x80; x0a; xe6; x99; xb1; x0a; xe6;
  x99; xb9; x0a; xe6; x99; xaa; x0a; xe6;
  x99; xb2; x0a; xe6; x9c; x81; x0a; xe6;
  xa4; x8c; x0a; xe6; xa3; x93; x0a; xe6;
  xa4; x84; x0a; xe6; xa3; x9c; x0a; xe6;
  xa4; xaa; x0a; xe6; xa3; xac; x0a; xe6;
  xa3; xaa; x0a; xe6; xa3; xb1; x0a; xe6;
  xa4; x8f; x0a; xe6; xa3; x96; x0a; xe6;
  xa3; xb7; x0a; xe6; xa3; xab; x0a; xe6;
  xa3; xa4; x0a; xe6; xa3; xb6; x0a; xe6;
  xa4; x93; x0a; xe6; xa4; x90; x0a; xe6;
  xa3; xb3; x0a; xe6; xa3; xa1; x0a; xe6;
  xa4; x87; x0a; xe6; xa3; x8c; x0a; xe6;
  xa4; x88; x0a; xe6; xa5; xb0; x0a; xe6;
  xa2; xb4; x0a; xe6; xa4; x91; x0a; xe6;
  xa3; xaf; x0a; xe6; xa3; x86; x0a; xe6;
  xa4; x94; x0a; xe6; xa3; xb8; x0a; xe6;
  xa3; x90; x0a; xe6; xa3; xbd; x0a; xe6;
  xa3; xbc; x0a; xe6; xa3; xa8; x0a; xe6;
  xa4; x8b; x0a; xe6; xa4; x8a; x0a; xe6;
  xa4; x97; x0a; xe6; xa3; x8e; x0a; xe6
].
(* tests/test_data/whatwg/big5_whatwg_test_encode_in.txt, entries 52224..52479 *)
Definition big5_encode_in_204 : list byte := [
  xa3; x88; x0a; xe6; xa3; x9d; x0a; xe6;
  xa3; x9e; x0a; xe6; xa3; xa6; x0a; xe6;
  xa3; xb4; x0a; xe6; xa3; x91; x0a; xe6;
  xa4; x86; x0a; xe6; xa3; x94; x0a; xe6;
  xa3; xa9; x0a; xe6; xa4; x95; x0a; xe6;
  xa4; xa5; x0a; xe6; xa3; x87; x0a; xe6;
  xac; xb9; x0a; xe6; xac; xbb; x0a; xe6;
  xac; xbf; x0a; xe6; xac; xbc; x0a; xe6;
  xae; x94; x0a; xe6; xae; x97; x0a; xe6;
  xae; x99; x0a; xe6; xae; x95; x0a; xe6;
  xae; xbd; x0a; xe6; xaf; xb0; x0a; xe6;
  xaf; xb2; x0a; xe6; xaf; xb3; x0a; xe6;
  xb0; xb0; x0a; xe6; xb7; xbc; x0a; xe6;
  xb9; x86; x0a; xe6; xb9; x87; x0a; xe6;
  xb8; x9f; x0a; xe6; xb9; x89; x0a; xe6;
  xba; x88; x0a; xe6; xb8; xbc; x0a; xe6;
  xb8; xbd; x0a; xe6; xb9; x85; x0a; xe6;
  xb9; xa2; x0a; xe6; xb8; xab; x0a; xe6;
  xb8; xbf; x0a; xe6; xb9; x81; x0a; xe6;
  xb9; x9d; x0a; xe6; xb9; xb3; x0a; xe6;
  xb8; x9c; x0a; xe6; xb8; xb3; x0a; xe6;
  xb9; x8b; x0a; xe6; xb9; x80; x0a; xe6;
  xb9; x91; x0a; xe6; xb8; xbb; x0a; xe6;
  xb8; x83; x0a; xe6; xb8; xae; x0a; xe6;
  xb9; x9e; x0a; xe6; xb9; xa8; x0a; xe6;
  xb9; x9c; x0a; xe6; xb9; xa1; x0a; xe6;
  xb8; xb1; x0a; xe6; xb8; xa8; x0a; xe6;
  xb9; xa0; x0a; xe6; xb9; xb1; x0a; xe6;
  xb9; xab; x0a; xe6; xb8; xb9; x0a; xe6;
  xb8; xa2; x0a; xe6; xb8; xb0; x0a; xe6;
  xb9; x93; x0a; xe6; xb9; xa5; x0a; xe6;
  xb8; xa7; x0a; xe6; xb9; xb8; x0a; xe6
].
(* tests/test_data/whatwg/big5_whatwg_test_encode_in.txt, entries 52480..52735 *)
Definition big5_encode_in_205 : list byte := [
  xb9; xa4; x0a; xe6; xb9; xb7; x0a; xe6;
  xb9; x95; x0a; xe6; xb9; xb9; x0a; xe6;
  xb9; x92; x0a; xe6; xb9; xa6; x0a; xe6;
  xb8; xb5; x0a; xe6; xb8; xb6; x0a; xe6;
  xb9; x9a; x0a; xe7; x84; xa0; x0a; xe7;
  x84; x9e; x0a; xe7; x84; xaf; x0a; xe7;
  x83; xbb; x0a; xe7; x84; xae; x0a; xe7;
  x84; xb1; x0a; xe7; x84; xa3; x0a; xe7;
  x84; xa5; x0a; xe7; x84; xa2; x0a; xe7;
  x84; xb2; x0a; xe7; x84; x9f; x0a; xe7;
  x84; xa8; x0a; xe7; x84; xba; x0a; xe7;
  x84; x9b; x0a; xe7; x89; x8b; x0a; xe7;
  x89; x9a; x0a; xe7; x8a; x88; x0a; xe7;
  x8a; x89; x0a; xe7; x8a; x86; x0a; xe7;
  x8a; x85; x0a; xe7; x8a; x8b; x0a; xe7;
  x8c; x92; x0a; xe7; x8c; x8b; x0a; xe7;
  x8c; xb0; x0a; xe7; x8c; xa2; x0a; xe7;
  x8c; xb1; x0a; xe7; x8c; xb3; x0a; xe7;
  x8c; xa7; x0a; xe7; x8c; xb2; x0a; xe7;
  x8c; xad; x0a; xe7; x8c; xa6; x0a; xe7;
  x8c; xa3; x0a; xe7; x8c; xb5; x0a; xe7;
  x8c; x8c; x0a; xe7; x90; xae; x0a; xe7;
  x90; xac; x0a; xe7; x90; xb0; x0a; xe7;
  x90; xab; x0a; xe7; x90; x96; x0a; xe7;
  x90; x9a; x0a; xe7; x90; xa1; x0a; xe7;
  x90; xad; x0a; xe7; x90; xb1; x0a; xe7;
  x90; xa4; x0a; xe7; x90; xa3; x0a; xe7;
  x90; x9d; x0a; xe7; x90; xa9; x0a; xe7;
  x90; xa0; x0a; xe7; x90; xb2; x0a; xe7;
  x93; xbb; x0a; xe7; x94; xaf; x0a; xe7;
  x95; xaf; x0a; xe7; x95; xac; x0a; xe7;
  x97; xa7; x0a; xe7; x97; x9a; x0a; xe7
].
(* tests/test_data/whatwg/big5_whatwg_test_encode_in.txt, entries 52736..52991 *)
Definition big5_encode_in_206 : list byte := [
  x97; xa1; x0a; xe7; x97; xa6; x0a; xe7;
  x97; x9d; x0a; xe7; x97; x9f; x0a; xe7;
  x97; xa4; x0a; xe7; x97; x97; x0a; xe7;
  x9a; x95; x0a; xe7; x9a; x92; x0a; xe7;
  x9b; x9a; x0a; xe7; x9d; x86; x0a; xe7;
  x9d; x87; x0a; xe7; x9d; x84; x0a; xe7;
  x9d; x8d; x0a; xe7; x9d; x85; x0a; xe7;
  x9d; x8a; x0a; xe7; x9d; x8e; x0a; xe7;
  x9d; x8b; x0a; xe7; x9d; x8c; x0a; xe7;
  x9f; x9e; x0a; xe7; x9f; xac; x0a; xe7;
  xa1; xa0; x0a; xe7; xa1; xa4; x0a; xe7;
  xa1; xa5; x0a; xe7; xa1; x9c; x0a; xe7;
  xa1; xad; x0a; xe7; xa1; xb1; x0a; xe7;
  xa1; xaa; x0a; xe7; xa1; xae; x0a; xe7;
  xa1; xb0; x0a; xe7; xa1; xa9; x0a; xe7;
  xa1; xa8; x0a; xe7; xa1; x9e; x0a; xe7;
  xa1; xa2; x0a; xe7; xa5; xb4; x0a; xe7;
  xa5; xb3; x0a; xe7; xa5; xb2; x0a; xe7;
  xa5; xb0; x0a; xe7; xa8; x82; x0a; xe7;
  xa8; x8a; x0a; xe7; xa8; x83; x0a; xe7;
  xa8; x8c; x0a; xe7; xa8; x84; x0a; xe7;
  xaa; x99; x0a; xe7; xab; xa6; x0a; xe7;
  xab; xa4; x0a; xe7; xad; x8a; x0a; xe7;
  xac; xbb; x0a; xe7; xad; x84; x0a; xe7;
  xad; x88; x0a; xe7; xad; x8c; x0a; xe7;
  xad; x8e; x0a; xe7; xad; x80; x0a; xe7;
  xad; x98; x0a; xe7; xad; x85; x0a; xe7;
  xb2; xa2; x0a; xe7; xb2; x9e; x0a; xe7;
  xb2; xa8; x0a; xe7; xb2; xa1; x0a; xe7;
  xb5; x98; x0a; xe7; xb5; xaf; x0a; xe7;
  xb5; xa3; x0a; xe7; xb5; x93; x0a; xe7;
  xb5; x96; x0a; xe7; xb5; xa7; x0a; xe7
].
(* tests/test_data/whatwg/big5_whatwg_test_encode_in.txt, entries 52992..53247 *)
Definition big5_encode_in_207 : list byte := [
  xb5; xaa; x0a; xe7; xb5; x8f; x0a; xe7;
  xb5; xad; x0a; xe7; xb5; x9c; x0a; xe7;
  xb5; xab; x0a; xe7; xb5; x92; x0a; xe7;
  xb5; x94; x0a; xe7; xb5; xa9; x0a; xe7;
  xb5; x91; x0a; xe7; xb5; x9f; x0a; xe7;
  xb5; x8e; x0a; xe7; xbc; xbe; x0a; xe7;
  xbc; xbf; x0a; xe7; xbd; xa5; x0a; xe7;
  xbd; xa6; x0a; xe7; xbe; xa2; x0a; xe7;
  xbe; xa0; x0a; xe7; xbe; xa1; x0a; xe7;
  xbf; x97; x0a; xe8; x81; x91; x0a; xe8;
  x81; x8f; x0a; xe8; x81; x90; x0a; xe8;
  x83; xbe; x0a; xe8; x83; x94; x0a; xe8;
  x85; x83; x0a; xe8; x85; x8a; x0a; xe8;
  x85; x92; x0a; xe8; x85; x8f; x0a; xe8;
  x85; x87; x0a; xe8; x84; xbd; x0a; xe8;
  x85; x8d; x0a; xe8; x84; xba; x0a; xe8;
  x87; xa6; x0a; xe8; x87; xae; x0a; xe8;
  x87; xb7; x0a; xe8; x87; xb8; x0a; xe8;
  x87; xb9; x0a; xe8; x88; x84; x0a; xe8;
  x88; xbc; x0a; xe8; x88; xbd; x0a; xe8;
  x88; xbf; x0a; xe8; x89; xb5; x0a; xe8;
  x8c; xbb; x0a; xe8; x8f; xb9; x0a; xe8;
  x90; xa3; x0a; xe8; x8f; x80; x0a; xe8;
  x8f; xa8; x0a; xe8; x90; x92; x0a; xe8;
  x8f; xa7; x0a; xe8; x8f; xa4; x0a; xe8;
  x8f; xbc; x0a; xe8; x8f; xb6; x0a; xe8;
  x90; x90; x0a; xe8; x8f; x86; x0a; xe8;
  x8f; x88; x0a; xe8; x8f; xab; x0a; xe8;
  x8f; xa3; x0a; xe8; x8e; xbf; x0a; xe8;
  x90; x81; x0a; xe8; x8f; x9d; x0a; xe8;
  x8f; xa5; x0a; xe8; x8f; x98; x0a; xe8;
  x8f; xbf; x0a; xe8; x8f; xa1; x0a; xe8
].
(* tests/test_data/whatwg/big5_whatwg_test_encode_in.txt, entries 53248..53503 *)
Definition big5_encode_in_208 : list byte := [
  x8f; x8b; x0a; xe8; x8f; x8e; x0a; xe8;
  x8f; x96; x0a; xe8; x8f; xb5; x0a; xe8;
  x8f; x89; x0a; xe8; x90; x89; x0a; xe8;
  x8f; x9e; x0a; xe8; x90; x91; x0a; xe8;
  x90; x86; x0a; xe8; x8f; x82; x0a; xe8;
  x8f; xb3; x0a; xe8; x8f; x95; x0a; xe8;
  x8f; xba; x0a; xe8; x8f; x87; x0a; xe8;
  x8f; x91; x0a; xe8; x8f; xaa; x0a; xe8;
  x90; x93; x0a; xe8; x8f; x83; x0a; xe8;
  x8f; xac; x0a; xe8; x8f; xae; x0a; xe8;
  x8f; x84; x0a; xe8; x8f; xbb; x0a; xe8;
  x8f; x97; x0a; xe8; x8f; xa2; x0a; xe8;
  x90; x9b; x0a; xe8; x8f; x9b; x0a; xe8;
  x8f; xbe; x0a; xe8; x9b; x98; x0a; xe8;
  x9b; xa2; x0a; xe8; x9b; xa6; x0a; xe8;
  x9b; x93; x0a; xe8; x9b; xa3; x0a; xe8;
  x9b; x9a; x0a; xe8; x9b; xaa; x0a; xe8;
  x9b; x9d; x0a; xe8; x9b; xab; x0a; xe8;
  x9b; x9c; x0a; xe8; x9b; xac; x0a; xe8;
  x9b; xa9; x0a; xe8; x9b; x97; x0a; xe8;
  x9b; xa8; x0a; xe8; x9b; x91; x0a; xe8;
  xa1; x88; x0a; xe8; xa1; x96; x0a; xe8;
  xa1; x95; x0a; xe8; xa2; xba; x0a; xe8;
  xa3; x97; x0a; xe8; xa2; xb9; x0a; xe8;
  xa2; xb8; x0a; xe8; xa3; x80; x0a; xe8;
  xa2; xbe; x0a; xe8; xa2; xb6; x0a; xe8;
  xa2; xbc; x0a; xe8; xa2; xb7; x0a; xe8;
  xa2; xbd; x0a; xe8; xa2; xb2; x0a; xe8;
  xa4; x81; x0a; xe8; xa3; x89; x0a; xe8;
  xa6; x95; x0a; xe8; xa6; x98; x0a; xe8;
  xa6; x97; x0a; xe8; xa7; x9d; x0a; xe8;
  xa7; x9a; x0a; xe8; xa7; x9b; x0a; xe8
].
(* tests/test_data/whatwg/big5_whatwg_test_encode_in.txt, entries 53504..53759 *)
Definition big5_encode_in_209 : list byte := [
  xa9; x8e; x0a; xe8; xa9; x8d; x0a; xe8;
  xa8; xb9; x0a; xe8; xa9; x99; x0a; xe8;
  xa9; x80; x0a; xe8; xa9; x97; x0a; xe8;
  xa9; x98; x0a; xe8; xa9; x84; x0a; xe8;
  xa9; x85; x0a; xe8; xa9; x92; x0a; xe8;
  xa9; x88; x0a; xe8; xa9; x91; x0a; xe8;
  xa9; x8a; x0a; xe8; xa9; x8c; x0a; xe8;
  xa9; x8f; x0a; xe8; xb1; x9f; x0a; xe8;
  xb2; x81; x0a; xe8; xb2; x80; x0a; xe8;
  xb2; xba; x0a; xe8; xb2; xbe; x0a; xe8;
  xb2; xb0; x0a; xe8; xb2; xb9; x0a; xe8;
  xb2; xb5; x0a; xe8; xb6; x84; x0a; xe8;
  xb6; x80; x0a; xe8; xb6; x89; x0a; xe8;
  xb7; x98; x0a; xe8; xb7; x93; x0a; xe8;
  xb7; x8d; x0a; xe8; xb7; x87; x0a; xe8;
  xb7; x96; x0a; xe8; xb7; x9c; x0a; xe8;
  xb7; x8f; x0a; xe8; xb7; x95; x0a; xe8;
  xb7; x99; x0a; xe8; xb7; x88; x0a; xe8;
  xb7; x97; x0a; xe8; xb7; x85; x0a; xe8;
  xbb; xaf; x0a; xe8; xbb; xb7; x0a; xe8;
  xbb; xba; x0a; xe8; xbb; xb9; x0a; xe8;
  xbb; xa6; x0a; xe8; xbb; xae; x0a; xe8;
  xbb; xa5; x0a; xe8; xbb; xb5; x0a; xe8;
  xbb; xa7; x0a; xe8; xbb; xa8; x0a; xe8;
  xbb; xb6; x0a; xe8; xbb; xab; x0a; xe8;
  xbb; xb1; x0a; xe8; xbb; xac; x0a; xe8;
  xbb; xb4; x0a; xe8; xbb; xa9; x0a; xe9;
  x80; xad; x0a; xe9; x80; xb4; x0a; xe9;
  x80; xaf; x0a; xe9; x84; x86; x0a; xe9;
  x84; xac; x0a; xe9; x83; xbf; x0a; xe9;
  x83; xbc; x0a; xe9; x84; x88; x0a; xe9;
  x83; xb9; x0a; xe9; x83; xbb; x0a; xe9
].
(* tests/test_data/whatwg/big5_whatwg_test_encode_in.txt, entries 53760..54015 *)
Definition big5_encode_in_210 : list byte := [
  x84; x81; x0a; xe9; x84; x80; x0a; xe9;
  x84; x87; x0a; xe9; x84; x85; x0a; xe9;
  x84; x83; x0a; xe9; x85; xa1; x0a; xe9;
  x85; xa4; x0a; xe9; x85; x9f; x0a; xe9;
  x85; xa2; x0a; xe9; x85; xa0; x0a; xe9;
  x88; x81; x0a; xe9; x88; x8a; x0a; xe9;
  x88; xa5; x0a; xe9; x88; x83; x0a; xe9;
  x88; x9a; x0a; xe9; x88; xa6; x0a; xe9;
  x88; x8f; x0a; xe9; x88; x8c; x0a; xe9;
  x88; x80; x0a; xe9; x88; x92; x0a; xe9;
  x87; xbf; x0a; xe9; x87; xbd; x0a; xe9;
  x88; x86; x0a; xe9; x88; x84; x0a; xe9;
  x88; xa7; x0a; xe9; x88; x82; x0a; xe9;
  x88; x9c; x0a; xe9; x88; xa4; x0a; xe9;
  x88; x99; x0a; xe9; x88; x97; x0a; xe9;
  x88; x85; x0a; xe9; x88; x96; x0a; xe9;
  x95; xbb; x0a; xe9; x96; x8d; x0a; xe9;
  x96; x8c; x0a; xe9; x96; x90; x0a; xe9;
  x9a; x87; x0a; xe9; x99; xbe; x0a; xe9;
  x9a; x88; x0a; xe9; x9a; x89; x0a; xe9;
  x9a; x83; x0a; xe9; x9a; x80; x0a; xe9;
  x9b; x82; x0a; xe9; x9b; x88; x0a; xe9;
  x9b; x83; x0a; xe9; x9b; xb1; x0a; xe9;
  x9b; xb0; x0a; xe9; x9d; xac; x0a; xe9;
  x9d; xb0; x0a; xe9; x9d; xae; x0a; xe9;
  xa0; x87; x0a; xe9; xa2; xa9; x0a; xe9;
  xa3; xab; x0a; xe9; xb3; xa6; x0a; xe9;
  xbb; xb9; x0a; xe4; xba; x83; x0a; xe4;
  xba; x84; x0a; xe4; xba; xb6; x0a; xe5;
  x82; xbd; x0a; xe5; x82; xbf; x0a; xe5;
  x83; x86; x0a; xe5; x82; xae; x0a; xe5;
  x83; x84; x0a; xe5; x83; x8a; x0a; xe5
].
(* tests/test_data/whatwg/big5_whatwg_test_encode_in.txt, entries 54016..54271 *)
Definition big5_encode_in_211 : list byte := [
  x82; xb4; x0a; xe5; x83; x88; x0a; xe5;
  x83; x82; x0a; xe5; x82; xb0; x0a; xe5;
  x83; x81; x0a; xe5; x82; xba; x0a; xe5;
  x82; xb1; x0a; xe5; x83; x8b; x0a; xe5;
  x83; x89; x0a; xe5; x82; xb6; x0a; xe5;
  x82; xb8; x0a; xe5; x87; x97; x0a; xe5;
  x89; xba; x0a; xe5; x89; xb8; x0a; xe5;
  x89; xbb; x0a; xe5; x89; xbc; x0a; xe5;
  x97; x83; x0a; xe5; x97; x9b; x0a; xe5;
  x97; x8c; x0a; xe5; x97; x90; x0a; xe5;
  x97; x8b; x0a; xe5; x97; x8a; x0a; xe5;
  x97; x9d; x0a; xe5; x97; x80; x0a; xe5;
  x97; x94; x0a; xe5; x97; x84; x0a; xe5;
  x97; xa9; x0a; xe5; x96; xbf; x0a; xe5;
  x97; x92; x0a; xe5; x96; x8d; x0a; xe5;
  x97; x8f; x0a; xe5; x97; x95; x0a; xe5;
  x97; xa2; x0a; xe5; x97; x96; x0a; xe5;
  x97; x88; x0a; xe5; x97; xb2; x0a; xe5;
  x97; x8d; x0a; xe5; x97; x99; x0a; xe5;
  x97; x82; x0a; xe5; x9c; x94; x0a; xe5;
  xa1; x93; x0a; xe5; xa1; xa8; x0a; xe5;
  xa1; xa4; x0a; xe5; xa1; x8f; x0a; xe5;
  xa1; x8d; x0a; xe5; xa1; x89; x0a; xe5;
  xa1; xaf; x0a; xe5; xa1; x95; x0a; xe5;
  xa1; x8e; x0a; xe5; xa1; x9d; x0a; xe5;
  xa1; x99; x0a; xe5; xa1; xa5; x0a; xe5;
  xa1; x9b; x0a; xe5; xa0; xbd; x0a; xe5;
  xa1; xa3; x0a; xe5; xa1; xb1; x0a; xe5;
  xa3; xbc; x0a; xe5; xab; x87; x0a; xe5;
  xab; x84; x0a; xe5; xab; x8b; x0a; xe5;
  xaa; xba; x0a; xe5; xaa; xb8; x0a; xe5;
  xaa; xb1; x0a; xe5; xaa; xb5; x0a; xe5
].
(* tests/test_data/whatwg/big5_whatwg_test_encode_in.txt, entries 54272..54527 *)
Definition big5_encode_in_212 : list byte := [
  xaa; xb0; x0a; xe5; xaa; xbf; x0a; xe5;
  xab; x88; x0a; xe5; xaa; xbb; x0a; xe5;
  xab; x86; x0a; xe5; xaa; xb7; x0a; xe5;
  xab; x80; x0a; xe5; xab; x8a; x0a; xe5;
  xaa; xb4; x0a; xe5; xaa; xb6; x0a; xe5;
  xab; x8d; x0a; xe5; xaa; xb9; x0a; xe5;
  xaa; x90; x0a; xe5; xaf; x96; x0a; xe5;
  xaf; x98; x0a; xe5; xaf; x99; x0a; xe5;
  xb0; x9f; x0a; xe5; xb0; xb3; x0a; xe5;
  xb5; xb1; x0a; xe5; xb5; xa3; x0a; xe5;
  xb5; x8a; x0a; xe5; xb5; xa5; x0a; xe5;
  xb5; xb2; x0a; xe5; xb5; xac; x0a; xe5;
  xb5; x9e; x0a; xe5; xb5; xa8; x0a; xe5;
  xb5; xa7; x0a; xe5; xb5; xa2; x0a; xe5;
  xb7; xb0; x0a; xe5; xb9; x8f; x0a; xe5;
  xb9; x8e; x0a; xe5; xb9; x8a; x0a; xe5;
  xb9; x8d; x0a; xe5; xb9; x8b; x0a; xe5;
  xbb; x85; x0a; xe5; xbb; x8c; x0a; xe5;
  xbb; x86; x0a; xe5; xbb; x8b; x0a; xe5;
  xbb; x87; x0a; xe5; xbd; x80; x0a; xe5;
  xbe; xaf; x0a; xe5; xbe; xad; x0a; xe6;
  x83; xb7; x0a; xe6; x85; x89; x0a; xe6;
  x85; x8a; x0a; xe6; x84; xab; x0a; xe6;
  x85; x85; x0a; xe6; x84; xb6; x0a; xe6;
  x84; xb2; x0a; xe6; x84; xae; x0a; xe6;
  x85; x86; x0a; xe6; x84; xaf; x0a; xe6;
  x85; x8f; x0a; xe6; x84; xa9; x0a; xe6;
  x85; x80; x0a; xe6; x88; xa0; x0a; xe9;
  x85; xa8; x0a; xe6; x88; xa3; x0a; xe6;
  x88; xa5; x0a; xe6; x88; xa4; x0a; xe6;
  x8f; x85; x0a; xe6; x8f; xb1; x0a; xe6;
  x8f; xab; x0a; xe6; x90; x90; x0a; xe6
].
(* tests/test_data/whatwg/big5_whatwg_test_encode_in.txt, entries 54528..54783 *)
Definition big5_encode_in_213 : list byte := [
  x90; x92; x0a; xe6; x90; x89; x0a; xe6;
  x90; xa0; x0a; xe6; x90; xa4; x0a; xe6;
  x90; xb3; x0a; xe6; x91; x83; x0a; xe6;
  x90; x9f; x0a; xe6; x90; x95; x0a; xe6;
  x90; x98; x0a; xe6; x90; xb9; x0a; xe6;
  x90; xb7; x0a; xe6; x90; xa2; x0a; xe6;
  x90; xa3; x0a; xe6; x90; x8c; x0a; xe6;
  x90; xa6; x0a; xe6; x90; xb0; x0a; xe6;
  x90; xa8; x0a; xe6; x91; x81; x0a; xe6;
  x90; xb5; x0a; xe6; x90; xaf; x0a; xe6;
  x90; x8a; x0a; xe6; x90; x9a; x0a; xe6;
  x91; x80; x0a; xe6; x90; xa5; x0a; xe6;
  x90; xa7; x0a; xe6; x90; x8b; x0a; xe6;
  x8f; xa7; x0a; xe6; x90; x9b; x0a; xe6;
  x90; xae; x0a; xe6; x90; xa1; x0a; xe6;
  x90; x8e; x0a; xe6; x95; xaf; x0a; xe6;
  x96; x92; x0a; xe6; x97; x93; x0a; xe6;
  x9a; x86; x0a; xe6; x9a; x8c; x0a; xe6;
  x9a; x95; x0a; xe6; x9a; x90; x0a; xe6;
  x9a; x8b; x0a; xe6; x9a; x8a; x0a; xe6;
  x9a; x99; x0a; xe6; x9a; x94; x0a; xe6;
  x99; xb8; x0a; xe6; x9c; xa0; x0a; xe6;
  xa5; xa6; x0a; xe6; xa5; x9f; x0a; xe6;
  xa4; xb8; x0a; xe6; xa5; x8e; x0a; xe6;
  xa5; xa2; x0a; xe6; xa5; xb1; x0a; xe6;
  xa4; xbf; x0a; xe6; xa5; x85; x0a; xe6;
  xa5; xaa; x0a; xe6; xa4; xb9; x0a; xe6;
  xa5; x82; x0a; xe6; xa5; x97; x0a; xe6;
  xa5; x99; x0a; xe6; xa5; xba; x0a; xe6;
  xa5; x88; x0a; xe6; xa5; x89; x0a; xe6;
  xa4; xb5; x0a; xe6; xa5; xac; x0a; xe6;
  xa4; xb3; x0a; xe6; xa4; xbd; x0a; xe6
].
(* tests/test_data/whatwg/big5_whatwg_test_encode_in.txt, entries 54784..55039 *)
Definition big5_encode_in_214 : list byte := [
  xa5; xa5; x0a; xe6; xa3; xb0; x0a; xe6;
  xa5; xb8; x0a; xe6; xa4; xb4; x0a; xe6;
  xa5; xa9; x0a; xe6; xa5; x80; x0a; xe6;
  xa5; xaf; x0a; xe6; xa5; x84; x0a; xe6;
  xa5; xb6; x0a; xe6; xa5; x98; x0a; xe6;
  xa5; x81; x0a; xe6; xa5; xb4; x0a; xe6;
  xa5; x8c; x0a; xe6; xa4; xbb; x0a; xe6;
  xa5; x8b; x0a; xe6; xa4; xb7; x0a; xe6;
  xa5; x9c; x0a; xe6; xa5; x8f; x0a; xe6;
  xa5; x91; x0a; xe6; xa4; xb2; x0a; xe6;
  xa5; x92; x0a; xe6; xa4; xaf; x0a; xe6;
  xa5; xbb; x0a; xe6; xa4; xbc; x0a; xe6;
  xad; x86; x0a; xe6; xad; x85; x0a; xe6;
  xad; x83; x0a; xe6; xad; x82; x0a; xe6;
  xad; x88; x0a; xe6; xad; x81; x0a; xe6;
  xae; x9b; x0a; xef; xa8; x8d; x0a; xe6;
  xaf; xbb; x0a; xe6; xaf; xbc; x0a; xe6;
  xaf; xb9; x0a; xe6; xaf; xb7; x0a; xe6;
  xaf; xb8; x0a; xe6; xba; x9b; x0a; xe6;
  xbb; x96; x0a; xe6; xbb; x88; x0a; xe6;
  xba; x8f; x0a; xe6; xbb; x80; x0a; xe6;
  xba; x9f; x0a; xe6; xba; x93; x0a; xe6;
  xba; x94; x0a; xe6; xba; xa0; x0a; xe6;
  xba; xb1; x0a; xe6; xba; xb9; x0a; xe6;
  xbb; x86; x0a; xe6; xbb; x92; x0a; xe6;
  xba; xbd; x0a; xe6; xbb; x81; x0a; xe6;
  xba; x9e; x0a; xe6; xbb; x89; x0a; xe6;
  xba; xb7; x0a; xe6; xba; xb0; x0a; xe6;
  xbb; x8d; x0a; xe6; xba; xa6; x0a; xe6;
  xbb; x8f; x0a; xe6; xba; xb2; x0a; xe6;
  xba; xbe; x0a; xe6; xbb; x83; x0a; xe6;
  xbb; x9c; x0a; xe6; xbb; x98; x0a; xe6
].
(* tests/test_data/whatwg/big5_whatwg_test_encode_in.txt, entries 55040..55295 *)
Definition big5_encode_in_215 : list byte := [
  xba; x99; x0a; xe6; xba; x92; x0a; xe6;
  xba; x8e; x0a; xe6; xba; x8d; x0a; xe6;
  xba; xa4; x0a; xe6; xba; xa1; x0a; xe6;
  xba; xbf; x0a; xe6; xba; xb3; x0a; xe6;
  xbb; x90; x0a; xe6; xbb; x8a; x0a; xe6;
  xba; x97; x0a; xe6; xba; xae; x0a; xe6;
  xba; xa3; x0a; xe7; x85; x87; x0a; xe7;
  x85; x94; x0a; xe7; x85; x92; x0a; xe7;
  x85; xa3; x0a; xe7; x85; xa0; x0a; xe7;
  x85; x81; x0a; xe7; x85; x9d; x0a; xe7;
  x85; xb2; x0a; xe7; x85; xb8; x0a; xe7;
  x85; xaa; x0a; xe7; x85; xa1; x0a; xe7;
  x85; x82; x0a; xe7; x85; x98; x0a; xe7;
  x85; x83; x0a; xe7; x85; x8b; x0a; xe7;
  x85; xb0; x0a; xe7; x85; x9f; x0a; xe7;
  x85; x90; x0a; xe7; x85; x93; x0a; xe7;
  x85; x84; x0a; xe7; x85; x8d; x0a; xe7;
  x85; x9a; x0a; xe7; x89; x8f; x0a; xe7;
  x8a; x8d; x0a; xe7; x8a; x8c; x0a; xe7;
  x8a; x91; x0a; xe7; x8a; x90; x0a; xe7;
  x8a; x8e; x0a; xe7; x8c; xbc; x0a; xe7;
  x8d; x82; x0a; xe7; x8c; xbb; x0a; xe7;
  x8c; xba; x0a; xe7; x8d; x80; x0a; xe7;
  x8d; x8a; x0a; xe7; x8d; x89; x0a; xe7;
  x91; x84; x0a; xe7; x91; x8a; x0a; xe7;
  x91; x8b; x0a; xe7; x91; x92; x0a; xe7;
  x91; x91; x0a; xe7; x91; x97; x0a; xe7;
  x91; x80; x0a; xe7; x91; x8f; x0a; xe7;
  x91; x90; x0a; xe7; x91; x8e; x0a; xe7;
  x91; x82; x0a; xe7; x91; x86; x0a; xe7;
  x91; x8d; x0a; xe7; x91; x94; x0a; xe7;
  x93; xa1; x0a; xe7; x93; xbf; x0a; xe7
].
(* tests/test_data/whatwg/big5_whatwg_test_encode_in.txt, entries 55296..55551 *)
Definition big5_encode_in_216 : list byte := [
  x93; xbe; x0a; xe7; x93; xbd; x0a; xe7;
  x94; x9d; x0a; xe7; x95; xb9; x0a; xe7;
  x95; xb7; x0a; xe6; xa6; x83; x0a; xe7;
  x97; xaf; x0a; xe7; x98; x8f; x0a; xe7;
  x98; x83; x0a; xe7; x97; xb7; x0a; xe7;
  x97; xbe; x0a; xe7; x97; xbc; x0a; xe7;
  x97; xb8; x0a; xe7; x98; x90; x0a; xe7;
  x97; xbb; x0a; xe7; x97; xb6; x0a; xe7;
  x97; xad; x0a; xe7; x97; xb5; x0a; xe7;
  x97; xbd; x0a; xe7; x9a; x99; x0a; xe7;
  x9a; xb5; x0a; xe7; x9b; x9d; x0a; xe7;
  x9d; x95; x0a; xe7; x9d; x9f; x0a; xe7;
  x9d; xa0; x0a; xe7; x9d; x92; x0a; xe7;
  x9d; x96; x0a; xe7; x9d; x9a; x0a; xe7;
  x9d; xa9; x0a; xe7; x9d; xa7; x0a; xe7;
  x9d; x94; x0a; xe7; x9d; x99; x0a; xe7;
  x9d; xad; x0a; xe7; x9f; xa0; x0a; xe7;
  xa2; x87; x0a; xe7; xa2; x9a; x0a; xe7;
  xa2; x94; x0a; xe7; xa2; x8f; x0a; xe7;
  xa2; x84; x0a; xe7; xa2; x95; x0a; xe7;
  xa2; x85; x0a; xe7; xa2; x86; x0a; xe7;
  xa2; xa1; x0a; xe7; xa2; x83; x0a; xe7;
  xa1; xb9; x0a; xe7; xa2; x99; x0a; xe7;
  xa2; x80; x0a; xe7; xa2; x96; x0a; xe7;
  xa1; xbb; x0a; xe7; xa5; xbc; x0a; xe7;
  xa6; x82; x0a; xe7; xa5; xbd; x0a; xe7;
  xa5; xb9; x0a; xe7; xa8; x91; x0a; xe7;
  xa8; x98; x0a; xe7; xa8; x99; x0a; xe7;
  xa8; x92; x0a; xe7; xa8; x97; x0a; xe7;
  xa8; x95; x0a; xe7; xa8; xa2; x0a; xe7;
  xa8; x93; x0a; xe7; xa8; x9b; x0a; xe7;
  xa8; x90; x0a; xe7; xaa; xa3; x0a; xe7
].
(* tests/test_data/whatwg/big5_whatwg_test_encode_in.txt, entries 55552..55807 *)
Definition big5_encode_in_217 : list byte := [
  xaa; xa2; x0a; xe7; xaa; x9e; x0a; xe7;
  xab; xab; x0a; xe7; xad; xa6; x0a; xe7;
  xad; xa4; x0a; xe7; xad; xad; x0a; xe7;
  xad; xb4; x0a; xe7; xad; xa9; x0a; xe7;
  xad; xb2; x0a; xe7; xad; xa5; x0a; xe7;
  xad; xb3; x0a; xe7; xad; xb1; x0a; xe7;
  xad; xb0; x0a; xe7; xad; xa1; x0a; xe7;
  xad; xb8; x0a; xe7; xad; xb6; x0a; xe7;
  xad; xa3; x0a; xe7; xb2; xb2; x0a; xe7;
  xb2; xb4; x0a; xe7; xb2; xaf; x0a; xe7;
  xb6; x88; x0a; xe7; xb6; x86; x0a; xe7;
  xb6; x80; x0a; xe7; xb6; x8d; x0a; xe7;
  xb5; xbf; x0a; xe7; xb6; x85; x0a; xe7;
  xb5; xba; x0a; xe7; xb6; x8e; x0a; xe7;
  xb5; xbb; x0a; xe7; xb6; x83; x0a; xe7;
  xb5; xbc; x0a; xe7; xb6; x8c; x0a; xe7;
  xb6; x94; x0a; xe7; xb6; x84; x0a; xe7;
  xb5; xbd; x0a; xe7; xb6; x92; x0a; xe7;
  xbd; xad; x0a; xe7; xbd; xab; x0a; xe7;
  xbd; xa7; x0a; xe7; xbd; xa8; x0a; xe7;
  xbd; xac; x0a; xe7; xbe; xa6; x0a; xe7;
  xbe; xa5; x0a; xe7; xbe; xa7; x0a; xe7;
  xbf; x9b; x0a; xe7; xbf; x9c; x0a; xe8;
  x80; xa1; x0a; xe8; x85; xa4; x0a; xe8;
  x85; xa0; x0a; xe8; x85; xb7; x0a; xe8;
  x85; x9c; x0a; xe8; x85; xa9; x0a; xe8;
  x85; x9b; x0a; xe8; x85; xa2; x0a; xe8;
  x85; xb2; x0a; xe6; x9c; xa1; x0a; xe8;
  x85; x9e; x0a; xe8; x85; xb6; x0a; xe8;
  x85; xa7; x0a; xe8; x85; xaf; x0a; xe8;
  x85; x84; x0a; xe8; x85; xa1; x0a; xe8;
  x88; x9d; x0a; xe8; x89; x89; x0a; xe8
].
(* tests/test_data/whatwg/big5_whatwg_test_encode_in.txt, entries 55808..56063 *)
Definition big5_encode_in_218 : list byte := [
  x89; x84; x0a; xe8; x89; x80; x0a; xe8;
  x89; x82; x0a; xe8; x89; x85; x0a; xe8;
  x93; xb1; x0a; xe8; x90; xbf; x0a; xe8;
  x91; x96; x0a; xe8; x91; xb6; x0a; xe8;
  x91; xb9; x0a; xe8; x92; x8f; x0a; xe8;
  x92; x8d; x0a; xe8; x91; xa5; x0a; xe8;
  x91; x91; x0a; xe8; x91; x80; x0a; xe8;
  x92; x86; x0a; xe8; x91; xa7; x0a; xe8;
  x90; xb0; x0a; xe8; x91; x8d; x0a; xe8;
  x91; xbd; x0a; xe8; x91; x9a; x0a; xe8;
  x91; x99; x0a; xe8; x91; xb4; x0a; xe8;
  x91; xb3; x0a; xe8; x91; x9d; x0a; xe8;
  x94; x87; x0a; xe8; x91; x9e; x0a; xe8;
  x90; xb7; x0a; xe8; x90; xba; x0a; xe8;
  x90; xb4; x0a; xe8; x91; xba; x0a; xe8;
  x91; x83; x0a; xe8; x91; xb8; x0a; xe8;
  x90; xb2; x0a; xe8; x91; x85; x0a; xe8;
  x90; xa9; x0a; xe8; x8f; x99; x0a; xe8;
  x91; x8b; x0a; xe8; x90; xaf; x0a; xe8;
  x91; x82; x0a; xe8; x90; xad; x0a; xe8;
  x91; x9f; x0a; xe8; x91; xb0; x0a; xe8;
  x90; xb9; x0a; xe8; x91; x8e; x0a; xe8;
  x91; x8c; x0a; xe8; x91; x92; x0a; xe8;
  x91; xaf; x0a; xe8; x93; x85; x0a; xe8;
  x92; x8e; x0a; xe8; x90; xbb; x0a; xe8;
  x91; x87; x0a; xe8; x90; xb6; x0a; xe8;
  x90; xb3; x0a; xe8; x91; xa8; x0a; xe8;
  x91; xbe; x0a; xe8; x91; x84; x0a; xe8;
  x90; xab; x0a; xe8; x91; xa0; x0a; xe8;
  x91; x94; x0a; xe8; x91; xae; x0a; xe8;
  x91; x90; x0a; xe8; x9c; x8b; x0a; xe8;
  x9c; x84; x0a; xe8; x9b; xb7; x0a; xe8
].
(* tests/test_data/whatwg/big5_whatwg_test_encode_in.txt, entries 56064..56319 *)
Definition big5_encode_in_219 : list byte := [
  x9c; x8c; x0a; xe8; x9b; xba; x0a; xe8;
  x9b; x96; x0a; xe8; x9b; xb5; x0a; xe8;
  x9d; x8d; x0a; xe8; x9b; xb8; x0a; xe8;
  x9c; x8e; x0a; xe8; x9c; x89; x0a; xe8;
  x9c; x81; x0a; xe8; x9b; xb6; x0a; xe8;
  x9c; x8d; x0a; xe8; x9c; x85; x0a; xe8;
  xa3; x96; x0a; xe8; xa3; x8b; x0a; xe8;
  xa3; x8d; x0a; xe8; xa3; x8e; x0a; xe8;
  xa3; x9e; x0a; xe8; xa3; x9b; x0a; xe8;
  xa3; x9a; x0a; xe8; xa3; x8c; x0a; xe8;
  xa3; x90; x0a; xe8; xa6; x85; x0a; xe8;
  xa6; x9b; x0a; xe8; xa7; x9f; x0a; xe8;
  xa7; xa5; x0a; xe8; xa7; xa4; x0a; xe8;
  xa7; xa1; x0a; xe8; xa7; xa0; x0a; xe8;
  xa7; xa2; x0a; xe8; xa7; x9c; x0a; xe8;
  xa7; xa6; x0a; xe8; xa9; xb6; x0a; xe8;
  xaa; x86; x0a; xe8; xa9; xbf; x0a; xe8;
  xa9; xa1; x0a; xe8; xa8; xbf; x0a; xe8;
  xa9; xb7; x0a; xe8; xaa; x82; x0a; xe8;
  xaa; x84; x0a; xe8; xa9; xb5; x0a; xe8;
  xaa; x83; x0a; xe8; xaa; x81; x0a; xe8;
  xa9; xb4; x0a; xe8; xa9; xba; x0a; xe8;
  xb0; xbc; x0a; xe8; xb1; x8b; x0a; xe8;
  xb1; x8a; x0a; xe8; xb1; xa5; x0a; xe8;
  xb1; xa4; x0a; xe8; xb1; xa6; x0a; xe8;
  xb2; x86; x0a; xe8; xb2; x84; x0a; xe8;
  xb2; x85; x0a; xe8; xb3; x8c; x0a; xe8;
  xb5; xa8; x0a; xe8; xb5; xa9; x0a; xe8;
  xb6; x91; x0a; xe8; xb6; x8c; x0a; xe8;
  xb6; x8e; x0a; xe8; xb6; x8f; x0a; xe8;
  xb6; x8d; x0a; xe8; xb6; x93; x0a; xe8;
  xb6; x94; x0a; xe8; xb6; x90; x0a; xe8
].
(* tests/test_data/whatwg/big5_whatwg_test_encode_in.txt, entries 56320..56575 *)
Definition big5_encode_in_220 : list byte := [
  xb6; x92; x0a; xe8; xb7; xb0; x0a; xe8;
  xb7; xa0; x0a; xe8; xb7; xac; x0a; xe8;
  xb7; xb1; x0a; xe8; xb7; xae; x0a; xe8;
  xb7; x90; x0a; xe8; xb7; xa9; x0a; xe8;
  xb7; xa3; x0a; xe8; xb7; xa2; x0a; xe8;
  xb7; xa7; x0a; xe8; xb7; xb2; x0a; xe8;
  xb7; xab; x0a; xe8; xb7; xb4; x0a; xe8;
  xbc; x86; x0a; xe8; xbb; xbf; x0a; xe8;
  xbc; x81; x0a; xe8; xbc; x80; x0a; xe8;
  xbc; x85; x0a; xe8; xbc; x87; x0a; xe8;
  xbc; x88; x0a; xe8; xbc; x82; x0a; xe9;
  x81; x92; x0a; xe9; x80; xbf; x0a; xe9;
  x81; x84; x0a; xe9; x81; x89; x0a; xe9;
  x80; xbd; x0a; xe9; x84; x90; x0a; xe9;
  x84; x8d; x0a; xe9; x84; x8f; x0a; xe9;
  x84; x91; x0a; xe9; x84; x96; x0a; xe9;
  x84; x94; x0a; xe9; x84; x8b; x0a; xe9;
  x84; x8e; x0a; xe9; x85; xae; x0a; xe9;
  x85; xaf; x0a; xe9; x89; x88; x0a; xe9;
  x89; x92; x0a; xe9; x88; xb0; x0a; xe9;
  x88; xba; x0a; xe9; x89; xa6; x0a; xe9;
  x88; xb3; x0a; xe9; x89; xa5; x0a; xe9;
  x89; x9e; x0a; xe9; x8a; x83; x0a; xe9;
  x88; xae; x0a; xe9; x89; x8a; x0a; xe9;
  x89; x86; x0a; xe9; x89; xad; x0a; xe9;
  x89; xac; x0a; xe9; x89; x8f; x0a; xe9;
  x89; xa0; x0a; xe9; x89; xa7; x0a; xe9;
  x89; xaf; x0a; xe9; x88; xb6; x0a; xe9;
  x89; xa1; x0a; xe9; x89; xb0; x0a; xe9;
  x88; xb1; x0a; xe9; x89; x94; x0a; xe9;
  x89; xa3; x0a; xe9; x89; x90; x0a; xe9;
  x89; xb2; x0a; xe9; x89; x8e; x0a; xe9
].
(* tests/test_data/whatwg/big5_whatwg_test_encode_in.txt, entries 56576..56831 *)
Definition big5_encode_in_221 : list byte := [
  x89; x93; x0a; xe9; x89; x8c; x0a; xe9;
  x89; x96; x0a; xe9; x88; xb2; x0a; xe9;
  x96; x9f; x0a; xe9; x96; x9c; x0a; xe9;
  x96; x9e; x0a; xe9; x96; x9b; x0a; xe9;
  x9a; x92; x0a; xe9; x9a; x93; x0a; xe9;
  x9a; x91; x0a; xe9; x9a; x97; x0a; xe9;
  x9b; x8e; x0a; xe9; x9b; xba; x0a; xe9;
  x9b; xbd; x0a; xe9; x9b; xb8; x0a; xe9;
  x9b; xb5; x0a; xe9; x9d; xb3; x0a; xe9;
  x9d; xb7; x0a; xe9; x9d; xb8; x0a; xe9;
  x9d; xb2; x0a; xe9; xa0; x8f; x0a; xe9;
  xa0; x8d; x0a; xe9; xa0; x8e; x0a; xe9;
  xa2; xac; x0a; xe9; xa3; xb6; x0a; xe9;
  xa3; xb9; x0a; xe9; xa6; xaf; x0a; xe9;
  xa6; xb2; x0a; xe9; xa6; xb0; x0a; xe9;
  xa6; xb5; x0a; xe9; xaa; xad; x0a; xe9;
  xaa; xab; x0a; xe9; xad; x9b; x0a; xe9;
  xb3; xaa; x0a; xe9; xb3; xad; x0a; xe9;
  xb3; xa7; x0a; xe9; xba; x80; x0a; xe9;
  xbb; xbd; x0a; xe5; x83; xa6; x0a; xe5;
  x83; x94; x0a; xe5; x83; x97; x0a; xe5;
  x83; xa8; x0a; xe5; x83; xb3; x0a; xe5;
  x83; x9b; x0a; xe5; x83; xaa; x0a; xe5;
  x83; x9d; x0a; xe5; x83; xa4; x0a; xe5;
  x83; x93; x0a; xe5; x83; xac; x0a; xe5;
  x83; xb0; x0a; xe5; x83; xaf; x0a; xe5;
  x83; xa3; x0a; xe5; x83; xa0; x0a; xe5;
  x87; x98; x0a; xe5; x8a; x80; x0a; xe5;
  x8a; x81; x0a; xe5; x8b; xa9; x0a; xe5;
  x8b; xab; x0a; xe5; x8c; xb0; x0a; xe5;
  x8e; xac; x0a; xe5; x98; xa7; x0a; xe5;
  x98; x95; x0a; xe5; x98; x8c; x0a; xe5
].
(* tests/test_data/whatwg/big5_whatwg_test_encode_in.txt, entries 56832..57087 *)
Definition big5_encode_in_222 : list byte := [
  x98; x92; x0a; xe5; x97; xbc; x0a; xe5;
  x98; x8f; x0a; xe5; x98; x9c; x0a; xe5;
  x98; x81; x0a; xe5; x98; x93; x0a; xe5;
  x98; x82; x0a; xe5; x97; xba; x0a; xe5;
  x98; x9d; x0a; xe5; x98; x84; x0a; xe5;
  x97; xbf; x0a; xe5; x97; xb9; x0a; xe5;
  xa2; x89; x0a; xe5; xa1; xbc; x0a; xe5;
  xa2; x90; x0a; xe5; xa2; x98; x0a; xe5;
  xa2; x86; x0a; xe5; xa2; x81; x0a; xe5;
  xa1; xbf; x0a; xe5; xa1; xb4; x0a; xe5;
  xa2; x8b; x0a; xe5; xa1; xba; x0a; xe5;
  xa2; x87; x0a; xe5; xa2; x91; x0a; xe5;
  xa2; x8e; x0a; xe5; xa1; xb6; x0a; xe5;
  xa2; x82; x0a; xe5; xa2; x88; x0a; xe5;
  xa1; xbb; x0a; xe5; xa2; x94; x0a; xe5;
  xa2; x8f; x0a; xe5; xa3; xbe; x0a; xe5;
  xa5; xab; x0a; xe5; xab; x9c; x0a; xe5;
  xab; xae; x0a; xe5; xab; xa5; x0a; xe5;
  xab; x95; x0a; xe5; xab; xaa; x0a; xe5;
  xab; x9a; x0a; xe5; xab; xad; x0a; xe5;
  xab; xab; x0a; xe5; xab; xb3; x0a; xe5;
  xab; xa2; x0a; xe5; xab; xa0; x0a; xe5;
  xab; x9b; x0a; xe5; xab; xac; x0a; xe5;
  xab; x9e; x0a; xe5; xab; x9d; x0a; xe5;
  xab; x99; x0a; xe5; xab; xa8; x0a; xe5;
  xab; x9f; x0a; xe5; xad; xb7; x0a; xe5;
  xaf; xa0; x0a; xe5; xaf; xa3; x0a; xe5;
  xb1; xa3; x0a; xe5; xb6; x82; x0a; xe5;
  xb6; x80; x0a; xe5; xb5; xbd; x0a; xe5;
  xb6; x86; x0a; xe5; xb5; xba; x0a; xe5;
  xb6; x81; x0a; xe5; xb5; xb7; x0a; xe5;
  xb6; x8a; x0a; xe5; xb6; x89; x0a; xe5
].
(* tests/test_data/whatwg/big5_whatwg_test_encode_in.txt, entries 57088..57343 *)
Definition big5_encode_in_223 : list byte := [
  xb6; x88; x0a; xe5; xb5; xbe; x0a; xe5;
  xb5; xbc; x0a; xe5; xb6; x8d; x0a; xe5;
  xb5; xb9; x0a; xe5; xb5; xbf; x0a; xe5;
  xb9; x98; x0a; xe5; xb9; x99; x0a; xe5;
  xb9; x93; x0a; xe5; xbb; x98; x0a; xe5;
  xbb; x91; x0a; xe5; xbb; x97; x0a; xe5;
  xbb; x8e; x0a; xe5; xbb; x9c; x0a; xe5;
  xbb; x95; x0a; xe5; xbb; x99; x0a; xe5;
  xbb; x92; x0a; xe5; xbb; x94; x0a; xe5;
  xbd; x84; x0a; xe5; xbd; x83; x0a; xe5;
  xbd; xaf; x0a; xe5; xbe; xb6; x0a; xe6;
  x84; xac; x0a; xe6; x84; xa8; x0a; xe6;
  x85; x81; x0a; xe6; x85; x9e; x0a; xe6;
  x85; xb1; x0a; xe6; x85; xb3; x0a; xe6;
  x85; x92; x0a; xe6; x85; x93; x0a; xe6;
  x85; xb2; x0a; xe6; x85; xac; x0a; xe6;
  x86; x80; x0a; xe6; x85; xb4; x0a; xe6;
  x85; x94; x0a; xe6; x85; xba; x0a; xe6;
  x85; x9b; x0a; xe6; x85; xa5; x0a; xe6;
  x84; xbb; x0a; xe6; x85; xaa; x0a; xe6;
  x85; xa1; x0a; xe6; x85; x96; x0a; xe6;
  x88; xa9; x0a; xe6; x88; xa7; x0a; xe6;
  x88; xab; x0a; xe6; x90; xab; x0a; xe6;
  x91; x8d; x0a; xe6; x91; x9b; x0a; xe6;
  x91; x9d; x0a; xe6; x91; xb4; x0a; xe6;
  x91; xb6; x0a; xe6; x91; xb2; x0a; xe6;
  x91; xb3; x0a; xe6; x91; xbd; x0a; xe6;
  x91; xb5; x0a; xe6; x91; xa6; x0a; xe6;
  x92; xa6; x0a; xe6; x91; x8e; x0a; xe6;
  x92; x82; x0a; xe6; x91; x9e; x0a; xe6;
  x91; x9c; x0a; xe6; x91; x8b; x0a; xe6;
  x91; x93; x0a; xe6; x91; xa0; x0a; xe6
].
(* tests/test_data/whatwg/big5_whatwg_test_encode_in.txt, entries 57344..57599 *)
Definition big5_encode_in_224 : list byte := [
  x91; x90; x0a; xe6; x91; xbf; x0a; xe6;
  x90; xbf; x0a; xe6; x91; xac; x0a; xe6;
  x91; xab; x0a; xe6; x91; x99; x0a; xe6;
  x91; xa5; x0a; xe6; x91; xb7; x0a; xe6;
  x95; xb3; x0a; xe6; x96; xa0; x0a; xe6;
  x9a; xa1; x0a; xe6; x9a; xa0; x0a; xe6;
  x9a; x9f; x0a; xe6; x9c; x85; x0a; xe6;
  x9c; x84; x0a; xe6; x9c; xa2; x0a; xe6;
  xa6; xb1; x0a; xe6; xa6; xb6; x0a; xe6;
  xa7; x89; x0a; xe6; xa6; xa0; x0a; xe6;
  xa7; x8e; x0a; xe6; xa6; x96; x0a; xe6;
  xa6; xb0; x0a; xe6; xa6; xac; x0a; xe6;
  xa6; xbc; x0a; xe6; xa6; x91; x0a; xe6;
  xa6; x99; x0a; xe6; xa6; x8e; x0a; xe6;
  xa6; xa7; x0a; xe6; xa6; x8d; x0a; xe6;
  xa6; xa9; x0a; xe6; xa6; xbe; x0a; xe6;
  xa6; xaf; x0a; xe6; xa6; xbf; x0a; xe6;
  xa7; x84; x0a; xe6; xa6; xbd; x0a; xe6;
  xa6; xa4; x0a; xe6; xa7; x94; x0a; xe6;
  xa6; xb9; x0a; xe6; xa7; x8a; x0a; xe6;
  xa6; x9a; x0a; xe6; xa7; x8f; x0a; xe6;
  xa6; xb3; x0a; xe6; xa6; x93; x0a; xe6;
  xa6; xaa; x0a; xe6; xa6; xa1; x0a; xe6;
  xa6; x9e; x0a; xe6; xa7; x99; x0a; xe6;
  xa6; x97; x0a; xe6; xa6; x90; x0a; xe6;
  xa7; x82; x0a; xe6; xa6; xb5; x0a; xe6;
  xa6; xa5; x0a; xe6; xa7; x86; x0a; xe6;
  xad; x8a; x0a; xe6; xad; x8d; x0a; xe6;
  xad; x8b; x0a; xe6; xae; x9e; x0a; xe6;
  xae; x9f; x0a; xe6; xae; xa0; x0a; xe6;
  xaf; x83; x0a; xe6; xaf; x84; x0a; xe6;
  xaf; xbe; x0a; xe6; xbb; x8e; x0a; xe6
].
(* tests/test_data/whatwg/big5_whatwg_test_encode_in.txt, entries 57600..57855 *)
Definition big5_encode_in_225 : list byte := [
  xbb; xb5; x0a; xe6; xbb; xb1; x0a; xe6;
  xbc; x83; x0a; xe6; xbc; xa5; x0a; xe6;
  xbb; xb8; x0a; xe6; xbc; xb7; x0a; xe6;
  xbb; xbb; x0a; xe6; xbc; xae; x0a; xe6;
  xbc; x89; x0a; xe6; xbd; x8e; x0a; xe6;
  xbc; x99; x0a; xe6; xbc; x9a; x0a; xe6;
  xbc; xa7; x0a; xe6; xbc; x98; x0a; xe6;
  xbc; xbb; x0a; xe6; xbc; x92; x0a; xe6;
  xbb; xad; x0a; xe6; xbc; x8a; x0a; xe6;
  xbc; xb6; x0a; xe6; xbd; xb3; x0a; xe6;
  xbb; xb9; x0a; xe6; xbb; xae; x0a; xe6;
  xbc; xad; x0a; xe6; xbd; x80; x0a; xe6;
  xbc; xb0; x0a; xe6; xbc; xbc; x0a; xe6;
  xbc; xb5; x0a; xe6; xbb; xab; x0a; xe6;
  xbc; x87; x0a; xe6; xbc; x8e; x0a; xe6;
  xbd; x83; x0a; xe6; xbc; x85; x0a; xe6;
  xbb; xbd; x0a; xe6; xbb; xb6; x0a; xe6;
  xbc; xb9; x0a; xe6; xbc; x9c; x0a; xe6;
  xbb; xbc; x0a; xe6; xbc; xba; x0a; xe6;
  xbc; x9f; x0a; xe6; xbc; x8d; x0a; xe6;
  xbc; x9e; x0a; xe6; xbc; x88; x0a; xe6;
  xbc; xa1; x0a; xe7; x86; x87; x0a; xe7;
  x86; x90; x0a; xe7; x86; x89; x0a; xe7;
  x86; x80; x0a; xe7; x86; x85; x0a; xe7;
  x86; x82; x0a; xe7; x86; x8f; x0a; xe7;
  x85; xbb; x0a; xe7; x86; x86; x0a; xe7;
  x86; x81; x0a; xe7; x86; x97; x0a; xe7;
  x89; x84; x0a; xe7; x89; x93; x0a; xe7;
  x8a; x97; x0a; xe7; x8a; x95; x0a; xe7;
  x8a; x93; x0a; xe7; x8d; x83; x0a; xe7;
  x8d; x8d; x0a; xe7; x8d; x91; x0a; xe7;
  x8d; x8c; x0a; xe7; x91; xa2; x0a; xe7
].
(* tests/test_data/whatwg/big5_whatwg_test_encode_in.txt, entries 57856..58111 *)
Definition big5_encode_in_226 : list byte := [
  x91; xb3; x0a; xe7; x91; xb1; x0a; xe7;
  x91; xb5; x0a; xe7; x91; xb2; x0a; xe7;
  x91; xa7; x0a; xe7; x91; xae; x0a; xe7;
  x94; x80; x0a; xe7; x94; x82; x0a; xe7;
  x94; x83; x0a; xe7; x95; xbd; x0a; xe7;
  x96; x90; x0a; xe7; x98; x96; x0a; xe7;
  x98; x88; x0a; xe7; x98; x8c; x0a; xe7;
  x98; x95; x0a; xe7; x98; x91; x0a; xe7;
  x98; x8a; x0a; xe7; x98; x94; x0a; xe7;
  x9a; xb8; x0a; xe7; x9e; x81; x0a; xe7;
  x9d; xbc; x0a; xe7; x9e; x85; x0a; xe7;
  x9e; x82; x0a; xe7; x9d; xae; x0a; xe7;
  x9e; x80; x0a; xe7; x9d; xaf; x0a; xe7;
  x9d; xbe; x0a; xe7; x9e; x83; x0a; xe7;
  xa2; xb2; x0a; xe7; xa2; xaa; x0a; xe7;
  xa2; xb4; x0a; xe7; xa2; xad; x0a; xe7;
  xa2; xa8; x0a; xe7; xa1; xbe; x0a; xe7;
  xa2; xab; x0a; xe7; xa2; x9e; x0a; xe7;
  xa2; xa5; x0a; xe7; xa2; xa0; x0a; xe7;
  xa2; xac; x0a; xe7; xa2; xa2; x0a; xe7;
  xa2; xa4; x0a; xe7; xa6; x98; x0a; xe7;
  xa6; x8a; x0a; xe7; xa6; x8b; x0a; xe7;
  xa6; x96; x0a; xe7; xa6; x95; x0a; xe7;
  xa6; x94; x0a; xe7; xa6; x93; x0a; xe7;
  xa6; x97; x0a; xe7; xa6; x88; x0a; xe7;
  xa6; x92; x0a; xe7; xa6; x90; x0a; xe7;
  xa8; xab; x0a; xe7; xa9; x8a; x0a; xe7;
  xa8; xb0; x0a; xe7; xa8; xaf; x0a; xe7;
  xa8; xa8; x0a; xe7; xa8; xa6; x0a; xe7;
  xaa; xa8; x0a; xe7; xaa; xab; x0a; xe7;
  xaa; xac; x0a; xe7; xab; xae; x0a; xe7;
  xae; x88; x0a; xe7; xae; x9c; x0a; xe7
].
(* tests/test_data/whatwg/big5_whatwg_test_encode_in.txt, entries 58112..58367 *)
Definition big5_encode_in_227 : list byte := [
  xae; x8a; x0a; xe7; xae; x91; x0a; xe7;
  xae; x90; x0a; xe7; xae; x96; x0a; xe7;
  xae; x8d; x0a; xe7; xae; x8c; x0a; xe7;
  xae; x9b; x0a; xe7; xae; x8e; x0a; xe7;
  xae; x85; x0a; xe7; xae; x98; x0a; xe5;
  x8a; x84; x0a; xe7; xae; x99; x0a; xe7;
  xae; xa4; x0a; xe7; xae; x82; x0a; xe7;
  xb2; xbb; x0a; xe7; xb2; xbf; x0a; xe7;
  xb2; xbc; x0a; xe7; xb2; xba; x0a; xe7;
  xb6; xa7; x0a; xe7; xb6; xb7; x0a; xe7;
  xb7; x82; x0a; xe7; xb6; xa3; x0a; xe7;
  xb6; xaa; x0a; xe7; xb7; x81; x0a; xe7;
  xb7; x80; x0a; xe7; xb7; x85; x0a; xe7;
  xb6; x9d; x0a; xe7; xb7; x8e; x0a; xe7;
  xb7; x84; x0a; xe7; xb7; x86; x0a; xe7;
  xb7; x8b; x0a; xe7; xb7; x8c; x0a; xe7;
  xb6; xaf; x0a; xe7; xb6; xb9; x0a; xe7;
  xb6; x96; x0a; xe7; xb6; xbc; x0a; xe7;
  xb6; x9f; x0a; xe7; xb6; xa6; x0a; xe7;
  xb6; xae; x0a; xe7; xb6; xa9; x0a; xe7;
  xb6; xa1; x0a; xe7; xb7; x89; x0a; xe7;
  xbd; xb3; x0a; xe7; xbf; xa2; x0a; xe7;
  xbf; xa3; x0a; xe7; xbf; xa5; x0a; xe7;
  xbf; x9e; x0a; xe8; x80; xa4; x0a; xe8;
  x81; x9d; x0a; xe8; x81; x9c; x0a; xe8;
  x86; x89; x0a; xe8; x86; x86; x0a; xe8;
  x86; x83; x0a; xe8; x86; x87; x0a; xe8;
  x86; x8d; x0a; xe8; x86; x8c; x0a; xe8;
  x86; x8b; x0a; xe8; x88; x95; x0a; xe8;
  x92; x97; x0a; xe8; x92; xa4; x0a; xe8;
  x92; xa1; x0a; xe8; x92; x9f; x0a; xe8;
  x92; xba; x0a; xe8; x93; x8e; x0a; xe8
].
(* tests/test_data/whatwg/big5_whatwg_test_encode_in.txt, entries 58368..58623 *)
Definition big5_encode_in_228 : list byte := [
  x93; x82; x0a; xe8; x92; xac; x0a; xe8;
  x92; xae; x0a; xe8; x92; xab; x0a; xe8;
  x92; xb9; x0a; xe8; x92; xb4; x0a; xe8;
  x93; x81; x0a; xe8; x93; x8d; x0a; xe8;
  x92; xaa; x0a; xe8; x92; x9a; x0a; xe8;
  x92; xb1; x0a; xe8; x93; x90; x0a; xe8;
  x92; x9d; x0a; xe8; x92; xa7; x0a; xe8;
  x92; xbb; x0a; xe8; x92; xa2; x0a; xe8;
  x92; x94; x0a; xe8; x93; x87; x0a; xe8;
  x93; x8c; x0a; xe8; x92; x9b; x0a; xe8;
  x92; xa9; x0a; xe8; x92; xaf; x0a; xe8;
  x93; x96; x0a; xe8; x92; x98; x0a; xe8;
  x92; xb6; x0a; xe8; x93; x8f; x0a; xe8;
  x92; xa0; x0a; xe8; x93; x97; x0a; xe8;
  x93; x94; x0a; xe8; x93; x92; x0a; xe8;
  x93; x9b; x0a; xe8; x92; xb0; x0a; xe8;
  x92; x91; x0a; xe8; x99; xa1; x0a; xe8;
  x9c; xb3; x0a; xe8; x9c; xa3; x0a; xe8;
  x9c; xa8; x0a; xe8; x9d; xab; x0a; xe8;
  x9d; x80; x0a; xe8; x9c; xae; x0a; xe8;
  x9c; x9e; x0a; xe8; x9c; xa1; x0a; xe8;
  x9c; x99; x0a; xe8; x9c; x9b; x0a; xe8;
  x9d; x83; x0a; xe8; x9c; xac; x0a; xe8;
  x9d; x81; x0a; xe8; x9c; xbe; x0a; xe8;
  x9d; x86; x0a; xe8; x9c; xa0; x0a; xe8;
  x9c; xb2; x0a; xe8; x9c; xaa; x0a; xe8;
  x9c; xad; x0a; xe8; x9c; xbc; x0a; xe8;
  x9c; x92; x0a; xe8; x9c; xba; x0a; xe8;
  x9c; xb1; x0a; xe8; x9c; xb5; x0a; xe8;
  x9d; x82; x0a; xe8; x9c; xa6; x0a; xe8;
  x9c; xa7; x0a; xe8; x9c; xb8; x0a; xe8;
  x9c; xa4; x0a; xe8; x9c; x9a; x0a; xe8
].
(* tests/test_data/whatwg/big5_whatwg_test_encode_in.txt, entries 58624..58879 *)
Definition big5_encode_in_229 : list byte := [
  x9c; xb0; x0a; xe8; x9c; x91; x0a; xe8;
  xa3; xb7; x0a; xe8; xa3; xa7; x0a; xe8;
  xa3; xb1; x0a; xe8; xa3; xb2; x0a; xe8;
  xa3; xba; x0a; xe8; xa3; xbe; x0a; xe8;
  xa3; xae; x0a; xe8; xa3; xbc; x0a; xe8;
  xa3; xb6; x0a; xe8; xa3; xbb; x0a; xe8;
  xa3; xb0; x0a; xe8; xa3; xac; x0a; xe8;
  xa3; xab; x0a; xe8; xa6; x9d; x0a; xe8;
  xa6; xa1; x0a; xe8; xa6; x9f; x0a; xe8;
  xa6; x9e; x0a; xe8; xa7; xa9; x0a; xe8;
  xa7; xab; x0a; xe8; xa7; xa8; x0a; xe8;
  xaa; xab; x0a; xe8; xaa; x99; x0a; xe8;
  xaa; x8b; x0a; xe8; xaa; x92; x0a; xe8;
  xaa; x8f; x0a; xe8; xaa; x96; x0a; xe8;
  xb0; xbd; x0a; xe8; xb1; xa8; x0a; xe8;
  xb1; xa9; x0a; xe8; xb3; x95; x0a; xe8;
  xb3; x8f; x0a; xe8; xb3; x97; x0a; xe8;
  xb6; x96; x0a; xe8; xb8; x89; x0a; xe8;
  xb8; x82; x0a; xe8; xb7; xbf; x0a; xe8;
  xb8; x8d; x0a; xe8; xb7; xbd; x0a; xe8;
  xb8; x8a; x0a; xe8; xb8; x83; x0a; xe8;
  xb8; x87; x0a; xe8; xb8; x86; x0a; xe8;
  xb8; x85; x0a; xe8; xb7; xbe; x0a; xe8;
  xb8; x80; x0a; xe8; xb8; x84; x0a; xe8;
  xbc; x90; x0a; xe8; xbc; x91; x0a; xe8;
  xbc; x8e; x0a; xe8; xbc; x8d; x0a; xe9;
  x84; xa3; x0a; xe9; x84; x9c; x0a; xe9;
  x84; xa0; x0a; xe9; x84; xa2; x0a; xe9;
  x84; x9f; x0a; xe9; x84; x9d; x0a; xe9;
  x84; x9a; x0a; xe9; x84; xa4; x0a; xe9;
  x84; xa1; x0a; xe9; x84; x9b; x0a; xe9;
  x85; xba; x0a; xe9; x85; xb2; x0a; xe9
].
(* tests/test_data/whatwg/big5_whatwg_test_encode_in.txt, entries 58880..59135 *)
Definition big5_encode_in_230 : list byte := [
  x85; xb9; x0a; xe9; x85; xb3; x0a; xe9;
  x8a; xa5; x0a; xe9; x8a; xa4; x0a; xe9;
  x89; xb6; x0a; xe9; x8a; x9b; x0a; xe9;
  x89; xba; x0a; xe9; x8a; xa0; x0a; xe9;
  x8a; x94; x0a; xe9; x8a; xaa; x0a; xe9;
  x8a; x8d; x0a; xe9; x8a; xa6; x0a; xe9;
  x8a; x9a; x0a; xe9; x8a; xab; x0a; xe9;
  x89; xb9; x0a; xe9; x8a; x97; x0a; xe9;
  x89; xbf; x0a; xe9; x8a; xa3; x0a; xe9;
  x8b; xae; x0a; xe9; x8a; x8e; x0a; xe9;
  x8a; x82; x0a; xe9; x8a; x95; x0a; xe9;
  x8a; xa2; x0a; xe9; x89; xbd; x0a; xe9;
  x8a; x88; x0a; xe9; x8a; xa1; x0a; xe9;
  x8a; x8a; x0a; xe9; x8a; x86; x0a; xe9;
  x8a; x8c; x0a; xe9; x8a; x99; x0a; xe9;
  x8a; xa7; x0a; xe9; x89; xbe; x0a; xe9;
  x8a; x87; x0a; xe9; x8a; xa9; x0a; xe9;
  x8a; x9d; x0a; xe9; x8a; x8b; x0a; xe9;
  x88; xad; x0a; xe9; x9a; x9e; x0a; xe9;
  x9a; xa1; x0a; xe9; x9b; xbf; x0a; xe9;
  x9d; x98; x0a; xe9; x9d; xbd; x0a; xe9;
  x9d; xba; x0a; xe9; x9d; xbe; x0a; xe9;
  x9e; x83; x0a; xe9; x9e; x80; x0a; xe9;
  x9e; x82; x0a; xe9; x9d; xbb; x0a; xe9;
  x9e; x84; x0a; xe9; x9e; x81; x0a; xe9;
  x9d; xbf; x0a; xe9; x9f; x8e; x0a; xe9;
  x9f; x8d; x0a; xe9; xa0; x96; x0a; xe9;
  xa2; xad; x0a; xe9; xa2; xae; x0a; xe9;
  xa4; x82; x0a; xe9; xa4; x80; x0a; xe9;
  xa4; x87; x0a; xe9; xa6; x9d; x0a; xe9;
  xa6; x9c; x0a; xe9; xa7; x83; x0a; xe9;
  xa6; xb9; x0a; xe9; xa6; xbb; x0a; xe9
].
(* tests/test_data/whatwg/big5_whatwg_test_encode_in.txt, entries 59136..59391 *)
Definition big5_encode_in_231 : list byte := [
  xa6; xba; x0a; xe9; xa7; x82; x0a; xe9;
  xa6; xbd; x0a; xe9; xa7; x87; x0a; xe9;
  xaa; xb1; x0a; xe9; xab; xa3; x0a; xe9;
  xab; xa7; x0a; xe9; xac; xbe; x0a; xe9;
  xac; xbf; x0a; xe9; xad; xa0; x0a; xe9;
  xad; xa1; x0a; xe9; xad; x9f; x0a; xe9;
  xb3; xb1; x0a; xe9; xb3; xb2; x0a; xe9;
  xb3; xb5; x0a; xe9; xba; xa7; x0a; xe5;
  x83; xbf; x0a; xe5; x84; x83; x0a; xe5;
  x84; xb0; x0a; xe5; x83; xb8; x0a; xe5;
  x84; x86; x0a; xe5; x84; x87; x0a; xe5;
  x83; xb6; x0a; xe5; x83; xbe; x0a; xe5;
  x84; x8b; x0a; xe5; x84; x8c; x0a; xe5;
  x83; xbd; x0a; xe5; x84; x8a; x0a; xe5;
  x8a; x8b; x0a; xe5; x8a; x8c; x0a; xe5;
  x8b; xb1; x0a; xe5; x8b; xaf; x0a; xe5;
  x99; x88; x0a; xe5; x99; x82; x0a; xe5;
  x99; x8c; x0a; xe5; x98; xb5; x0a; xe5;
  x99; x81; x0a; xe5; x99; x8a; x0a; xe5;
  x99; x89; x0a; xe5; x99; x86; x0a; xe5;
  x99; x98; x0a; xe5; x99; x9a; x0a; xe5;
  x99; x80; x0a; xe5; x98; xb3; x0a; xe5;
  x98; xbd; x0a; xe5; x98; xac; x0a; xe5;
  x98; xbe; x0a; xe5; x98; xb8; x0a; xe5;
  x98; xaa; x0a; xe5; x98; xba; x0a; xe5;
  x9c; x9a; x0a; xe5; xa2; xab; x0a; xe5;
  xa2; x9d; x0a; xe5; xa2; xb1; x0a; xe5;
  xa2; xa0; x0a; xe5; xa2; xa3; x0a; xe5;
  xa2; xaf; x0a; xe5; xa2; xac; x0a; xe5;
  xa2; xa5; x0a; xe5; xa2; xa1; x0a; xe5;
  xa3; xbf; x0a; xe5; xab; xbf; x0a; xe5;
  xab; xb4; x0a; xe5; xab; xbd; x0a; xe5
].
(* tests/test_data/whatwg/big5_whatwg_test_encode_in.txt, entries 59392..59647 *)
Definition big5_encode_in_232 : list byte := [
  xab; xb7; x0a; xe5; xab; xb6; x0a; xe5;
  xac; x83; x0a; xe5; xab; xb8; x0a; xe5;
  xac; x82; x0a; xe5; xab; xb9; x0a; xe5;
  xac; x81; x0a; xe5; xac; x87; x0a; xe5;
  xac; x85; x0a; xe5; xac; x8f; x0a; xe5;
  xb1; xa7; x0a; xe5; xb6; x99; x0a; xe5;
  xb6; x97; x0a; xe5; xb6; x9f; x0a; xe5;
  xb6; x92; x0a; xe5; xb6; xa2; x0a; xe5;
  xb6; x93; x0a; xe5; xb6; x95; x0a; xe5;
  xb6; xa0; x0a; xe5; xb6; x9c; x0a; xe5;
  xb6; xa1; x0a; xe5; xb6; x9a; x0a; xe5;
  xb6; x9e; x0a; xe5; xb9; xa9; x0a; xe5;
  xb9; x9d; x0a; xe5; xb9; xa0; x0a; xe5;
  xb9; x9c; x0a; xe7; xb7; xb3; x0a; xe5;
  xbb; x9b; x0a; xe5; xbb; x9e; x0a; xe5;
  xbb; xa1; x0a; xe5; xbd; x89; x0a; xe5;
  xbe; xb2; x0a; xe6; x86; x8b; x0a; xe6;
  x86; x83; x0a; xe6; x85; xb9; x0a; xe6;
  x86; xb1; x0a; xe6; x86; xb0; x0a; xe6;
  x86; xa2; x0a; xe6; x86; x89; x0a; xe6;
  x86; x9b; x0a; xe6; x86; x93; x0a; xe6;
  x86; xaf; x0a; xe6; x86; xad; x0a; xe6;
  x86; x9f; x0a; xe6; x86; x92; x0a; xe6;
  x86; xaa; x0a; xe6; x86; xa1; x0a; xe6;
  x86; x8d; x0a; xe6; x85; xa6; x0a; xe6;
  x86; xb3; x0a; xe6; x88; xad; x0a; xe6;
  x91; xae; x0a; xe6; x91; xb0; x0a; xe6;
  x92; x96; x0a; xe6; x92; xa0; x0a; xe6;
  x92; x85; x0a; xe6; x92; x97; x0a; xe6;
  x92; x9c; x0a; xe6; x92; x8f; x0a; xe6;
  x92; x8b; x0a; xe6; x92; x8a; x0a; xe6;
  x92; x8c; x0a; xe6; x92; xa3; x0a; xe6
].
(* tests/test_data/whatwg/big5_whatwg_test_encode_in.txt, entries 59648..59903 *)
Definition big5_encode_in_233 : list byte := [
  x92; x9f; x0a; xe6; x91; xa8; x0a; xe6;
  x92; xb1; x0a; xe6; x92; x98; x0a; xe6;
  x95; xb6; x0a; xe6; x95; xba; x0a; xe6;
  x95; xb9; x0a; xe6; x95; xbb; x0a; xe6;
  x96; xb2; x0a; xe6; x96; xb3; x0a; xe6;
  x9a; xb5; x0a; xe6; x9a; xb0; x0a; xe6;
  x9a; xa9; x0a; xe6; x9a; xb2; x0a; xe6;
  x9a; xb7; x0a; xe6; x9a; xaa; x0a; xe6;
  x9a; xaf; x0a; xe6; xa8; x80; x0a; xe6;
  xa8; x86; x0a; xe6; xa8; x97; x0a; xe6;
  xa7; xa5; x0a; xe6; xa7; xb8; x0a; xe6;
  xa8; x95; x0a; xe6; xa7; xb1; x0a; xe6;
  xa7; xa4; x0a; xe6; xa8; xa0; x0a; xe6;
  xa7; xbf; x0a; xe6; xa7; xac; x0a; xe6;
  xa7; xa2; x0a; xe6; xa8; x9b; x0a; xe6;
  xa8; x9d; x0a; xe6; xa7; xbe; x0a; xe6;
  xa8; xa7; x0a; xe6; xa7; xb2; x0a; xe6;
  xa7; xae; x0a; xe6; xa8; x94; x0a; xe6;
  xa7; xb7; x0a; xe6; xa7; xa7; x0a; xe6;
  xa9; x80; x0a; xe6; xa8; x88; x0a; xe6;
  xa7; xa6; x0a; xe6; xa7; xbb; x0a; xe6;
  xa8; x8d; x0a; xe6; xa7; xbc; x0a; xe6;
  xa7; xab; x0a; xe6; xa8; x89; x0a; xe6;
  xa8; x84; x0a; xe6; xa8; x98; x0a; xe6;
  xa8; xa5; x0a; xe6; xa8; x8f; x0a; xe6;
  xa7; xb6; x0a; xe6; xa8; xa6; x0a; xe6;
  xa8; x87; x0a; xe6; xa7; xb4; x0a; xe6;
  xa8; x96; x0a; xe6; xad; x91; x0a; xe6;
  xae; xa5; x0a; xe6; xae; xa3; x0a; xe6;
  xae; xa2; x0a; xe6; xae; xa6; x0a; xe6;
  xb0; x81; x0a; xe6; xb0; x80; x0a; xe6;
  xaf; xbf; x0a; xe6; xb0; x82; x0a; xe6
].
(* tests/test_data/whatwg/big5_whatwg_test_encode_in.txt, entries 59904..60159 *)
Definition big5_encode_in_234 : list byte := [
  xbd; x81; x0a; xe6; xbc; xa6; x0a; xe6;
  xbd; xbe; x0a; xe6; xbe; x87; x0a; xe6;
  xbf; x86; x0a; xe6; xbe; x92; x0a; xe6;
  xbe; x8d; x0a; xe6; xbe; x89; x0a; xe6;
  xbe; x8c; x0a; xe6; xbd; xa2; x0a; xe6;
  xbd; x8f; x0a; xe6; xbe; x85; x0a; xe6;
  xbd; x9a; x0a; xe6; xbe; x96; x0a; xe6;
  xbd; xb6; x0a; xe6; xbd; xac; x0a; xe6;
  xbe; x82; x0a; xe6; xbd; x95; x0a; xe6;
  xbd; xb2; x0a; xe6; xbd; x92; x0a; xe6;
  xbd; x90; x0a; xe6; xbd; x97; x0a; xe6;
  xbe; x94; x0a; xe6; xbe; x93; x0a; xe6;
  xbd; x9d; x0a; xe6; xbc; x80; x0a; xe6;
  xbd; xa1; x0a; xe6; xbd; xab; x0a; xe6;
  xbd; xbd; x0a; xe6; xbd; xa7; x0a; xe6;
  xbe; x90; x0a; xe6; xbd; x93; x0a; xe6;
  xbe; x8b; x0a; xe6; xbd; xa9; x0a; xe6;
  xbd; xbf; x0a; xe6; xbe; x95; x0a; xe6;
  xbd; xa3; x0a; xe6; xbd; xb7; x0a; xe6;
  xbd; xaa; x0a; xe6; xbd; xbb; x0a; xe7;
  x86; xb2; x0a; xe7; x86; xaf; x0a; xe7;
  x86; x9b; x0a; xe7; x86; xb0; x0a; xe7;
  x86; xa0; x0a; xe7; x86; x9a; x0a; xe7;
  x86; xa9; x0a; xe7; x86; xb5; x0a; xe7;
  x86; x9d; x0a; xe7; x86; xa5; x0a; xe7;
  x86; x9e; x0a; xe7; x86; xa4; x0a; xe7;
  x86; xa1; x0a; xe7; x86; xaa; x0a; xe7;
  x86; x9c; x0a; xe7; x86; xa7; x0a; xe7;
  x86; xb3; x0a; xe7; x8a; x98; x0a; xe7;
  x8a; x9a; x0a; xe7; x8d; x98; x0a; xe7;
  x8d; x92; x0a; xe7; x8d; x9e; x0a; xe7;
  x8d; x9f; x0a; xe7; x8d; xa0; x0a; xe7
].
(* tests/test_data/whatwg/big5_whatwg_test_encode_in.txt, entries 60160..60415 *)
Definition big5_encode_in_235 : list byte := [
  x8d; x9d; x0a; xe7; x8d; x9b; x0a; xe7;
  x8d; xa1; x0a; xe7; x8d; x9a; x0a; xe7;
  x8d; x99; x0a; xe7; x8d; xa2; x0a; xe7;
  x92; x87; x0a; xe7; x92; x89; x0a; xe7;
  x92; x8a; x0a; xe7; x92; x86; x0a; xe7;
  x92; x81; x0a; xe7; x91; xbd; x0a; xe7;
  x92; x85; x0a; xe7; x92; x88; x0a; xe7;
  x91; xbc; x0a; xe7; x94; x88; x0a; xe7;
  x94; x87; x0a; xe7; x95; xbe; x0a; xe7;
  x98; xa5; x0a; xe7; x98; x9e; x0a; xe7;
  x98; x99; x0a; xe7; x98; x9d; x0a; xe7;
  x98; x9c; x0a; xe7; x98; xa3; x0a; xe7;
  x98; x9a; x0a; xe7; x98; xa8; x0a; xe7;
  x98; x9b; x0a; xe7; x9a; x9c; x0a; xe7;
  x9a; x9d; x0a; xe7; x9a; x9e; x0a; xe7;
  x9a; x9b; x0a; xe7; x9e; x8d; x0a; xe7;
  x9e; x8f; x0a; xe7; x9e; x89; x0a; xe7;
  x9e; x88; x0a; xe7; xa3; x8d; x0a; xe7;
  xa2; xbb; x0a; xe7; xa3; x8f; x0a; xe7;
  xa3; x8c; x0a; xe7; xa3; x91; x0a; xe7;
  xa3; x8e; x0a; xe7; xa3; x94; x0a; xe7;
  xa3; x88; x0a; xe7; xa3; x83; x0a; xe7;
  xa3; x84; x0a; xe7; xa3; x89; x0a; xe7;
  xa6; x9a; x0a; xe7; xa6; xa1; x0a; xe7;
  xa6; xa0; x0a; xe7; xa6; x9c; x0a; xe7;
  xa6; xa2; x0a; xe6; xad; xb6; x0a; xe7;
  xa8; xb9; x0a; xe7; xaa; xb2; x0a; xe7;
  xaa; xb4; x0a; xe7; xaa; xb3; x0a; xe7;
  xae; xb7; x0a; xe7; xaf; x8b; x0a; xe7;
  xae; xbe; x0a; xe7; xae; xac; x0a; xe7;
  xaf; x8e; x0a; xe7; xae; xaf; x0a; xe7;
  xae; xb9; x0a; xe7; xaf; x8a; x0a; xe7
].
(* tests/test_data/whatwg/big5_whatwg_test_encode_in.txt, entries 60416..60671 *)
Definition big5_encode_in_236 : list byte := [
  xae; xb5; x0a; xe7; xb3; x85; x0a; xe7;
  xb3; x88; x0a; xe7; xb3; x8c; x0a; xe7;
  xb3; x8b; x0a; xe7; xb7; xb7; x0a; xe7;
  xb7; x9b; x0a; xe7; xb7; xaa; x0a; xe7;
  xb7; xa7; x0a; xe7; xb7; x97; x0a; xe7;
  xb7; xa1; x0a; xe7; xb8; x83; x0a; xe7;
  xb7; xba; x0a; xe7; xb7; xa6; x0a; xe7;
  xb7; xb6; x0a; xe7; xb7; xb1; x0a; xe7;
  xb7; xb0; x0a; xe7; xb7; xae; x0a; xe7;
  xb7; x9f; x0a; xe7; xbd; xb6; x0a; xe7;
  xbe; xac; x0a; xe7; xbe; xb0; x0a; xe7;
  xbe; xad; x0a; xe7; xbf; xad; x0a; xe7;
  xbf; xab; x0a; xe7; xbf; xaa; x0a; xe7;
  xbf; xac; x0a; xe7; xbf; xa6; x0a; xe7;
  xbf; xa8; x0a; xe8; x81; xa4; x0a; xe8;
  x81; xa7; x0a; xe8; x86; xa3; x0a; xe8;
  x86; x9f; x0a; xe8; x86; x9e; x0a; xe8;
  x86; x95; x0a; xe8; x86; xa2; x0a; xe8;
  x86; x99; x0a; xe8; x86; x97; x0a; xe8;
  x88; x96; x0a; xe8; x89; x8f; x0a; xe8;
  x89; x93; x0a; xe8; x89; x92; x0a; xe8;
  x89; x90; x0a; xe8; x89; x8e; x0a; xe8;
  x89; x91; x0a; xe8; x94; xa4; x0a; xe8;
  x94; xbb; x0a; xe8; x94; x8f; x0a; xe8;
  x94; x80; x0a; xe8; x94; xa9; x0a; xe8;
  x94; x8e; x0a; xe8; x94; x89; x0a; xe8;
  x94; x8d; x0a; xe8; x94; x9f; x0a; xe8;
  x94; x8a; x0a; xe8; x94; xa7; x0a; xe8;
  x94; x9c; x0a; xe8; x93; xbb; x0a; xe8;
  x94; xab; x0a; xe8; x93; xba; x0a; xe8;
  x94; x88; x0a; xe8; x94; x8c; x0a; xe8;
  x93; xb4; x0a; xe8; x94; xaa; x0a; xe8
].
(* tests/test_data/whatwg/big5_whatwg_test_encode_in.txt, entries 60672..60927 *)
Definition big5_encode_in_237 : list byte := [
  x93; xb2; x0a; xe8; x94; x95; x0a; xe8;
  x93; xb7; x0a; xe8; x93; xab; x0a; xe8;
  x93; xb3; x0a; xe8; x93; xbc; x0a; xe8;
  x94; x92; x0a; xe8; x93; xaa; x0a; xe8;
  x93; xa9; x0a; xe8; x94; x96; x0a; xe8;
  x93; xbe; x0a; xe8; x94; xa8; x0a; xe8;
  x94; x9d; x0a; xe8; x94; xae; x0a; xe8;
  x94; x82; x0a; xe8; x93; xbd; x0a; xe8;
  x94; x9e; x0a; xe8; x93; xb6; x0a; xe8;
  x94; xb1; x0a; xe8; x94; xa6; x0a; xe8;
  x93; xa7; x0a; xe8; x93; xa8; x0a; xe8;
  x93; xb0; x0a; xe8; x93; xaf; x0a; xe8;
  x93; xb9; x0a; xe8; x94; x98; x0a; xe8;
  x94; xa0; x0a; xe8; x94; xb0; x0a; xe8;
  x94; x8b; x0a; xe8; x94; x99; x0a; xe8;
  x94; xaf; x0a; xe8; x99; xa2; x0a; xe8;
  x9d; x96; x0a; xe8; x9d; xa3; x0a; xe8;
  x9d; xa4; x0a; xe8; x9d; xb7; x0a; xe8;
  x9f; xa1; x0a; xe8; x9d; xb3; x0a; xe8;
  x9d; x98; x0a; xe8; x9d; x94; x0a; xe8;
  x9d; x9b; x0a; xe8; x9d; x92; x0a; xe8;
  x9d; xa1; x0a; xe8; x9d; x9a; x0a; xe8;
  x9d; x91; x0a; xe8; x9d; x9e; x0a; xe8;
  x9d; xad; x0a; xe8; x9d; xaa; x0a; xe8;
  x9d; x90; x0a; xe8; x9d; x8e; x0a; xe8;
  x9d; x9f; x0a; xe8; x9d; x9d; x0a; xe8;
  x9d; xaf; x0a; xe8; x9d; xac; x0a; xe8;
  x9d; xba; x0a; xe8; x9d; xae; x0a; xe8;
  x9d; x9c; x0a; xe8; x9d; xa5; x0a; xe8;
  x9d; x8f; x0a; xe8; x9d; xbb; x0a; xe8;
  x9d; xb5; x0a; xe8; x9d; xa2; x0a; xe8;
  x9d; xa7; x0a; xe8; x9d; xa9; x0a; xe8
].
(* tests/test_data/whatwg/big5_whatwg_test_encode_in.txt, entries 60928..61183 *)
Definition big5_encode_in_238 : list byte := [
  xa1; x9a; x0a; xe8; xa4; x85; x0a; xe8;
  xa4; x8c; x0a; xe8; xa4; x94; x0a; xe8;
  xa4; x8b; x0a; xe8; xa4; x97; x0a; xe8;
  xa4; x98; x0a; xe8; xa4; x99; x0a; xe8;
  xa4; x86; x0a; xe8; xa4; x96; x0a; xe8;
  xa4; x91; x0a; xe8; xa4; x8e; x0a; xe8;
  xa4; x89; x0a; xe8; xa6; xa2; x0a; xe8;
  xa6; xa4; x0a; xe8; xa6; xa3; x0a; xe8;
  xa7; xad; x0a; xe8; xa7; xb0; x0a; xe8;
  xa7; xac; x0a; xe8; xab; x8f; x0a; xe8;
  xab; x86; x0a; xe8; xaa; xb8; x0a; xe8;
  xab; x93; x0a; xe8; xab; x91; x0a; xe8;
  xab; x94; x0a; xe8; xab; x95; x0a; xe8;
  xaa; xbb; x0a; xe8; xab; x97; x0a; xe8;
  xaa; xbe; x0a; xe8; xab; x80; x0a; xe8;
  xab; x85; x0a; xe8; xab; x98; x0a; xe8;
  xab; x83; x0a; xe8; xaa; xba; x0a; xe8;
  xaa; xbd; x0a; xe8; xab; x99; x0a; xe8;
  xb0; xbe; x0a; xe8; xb1; x8d; x0a; xe8;
  xb2; x8f; x0a; xe8; xb3; xa5; x0a; xe8;
  xb3; x9f; x0a; xe8; xb3; x99; x0a; xe8;
  xb3; xa8; x0a; xe8; xb3; x9a; x0a; xe8;
  xb3; x9d; x0a; xe8; xb3; xa7; x0a; xe8;
  xb6; xa0; x0a; xe8; xb6; x9c; x0a; xe8;
  xb6; xa1; x0a; xe8; xb6; x9b; x0a; xe8;
  xb8; xa0; x0a; xe8; xb8; xa3; x0a; xe8;
  xb8; xa5; x0a; xe8; xb8; xa4; x0a; xe8;
  xb8; xae; x0a; xe8; xb8; x95; x0a; xe8;
  xb8; x9b; x0a; xe8; xb8; x96; x0a; xe8;
  xb8; x91; x0a; xe8; xb8; x99; x0a; xe8;
  xb8; xa6; x0a; xe8; xb8; xa7; x0a; xe8;
  xb8; x94; x0a; xe8; xb8; x92; x0a; xe8
].
(* tests/test_data/whatwg/big5_whatwg_test_encode_in.txt, entries 61184..61439 *)
Definition big5_encode_in_239 : list byte := [
  xb8; x98; x0a; xe8; xb8; x93; x0a; xe8;
  xb8; x9c; x0a; xe8; xb8; x97; x0a; xe8;
  xb8; x9a; x0a; xe8; xbc; xac; x0a; xe8;
  xbc; xa4; x0a; xe8; xbc; x98; x0a; xe8;
  xbc; x9a; x0a; xe8; xbc; xa0; x0a; xe8;
  xbc; xa3; x0a; xe8; xbc; x96; x0a; xe8;
  xbc; x97; x0a; xe9; x81; xb3; x0a; xe9;
  x81; xb0; x0a; xe9; x81; xaf; x0a; xe9;
  x81; xa7; x0a; xe9; x81; xab; x0a; xe9;
  x84; xaf; x0a; xe9; x84; xab; x0a; xe9;
  x84; xa9; x0a; xe9; x84; xaa; x0a; xe9;
  x84; xb2; x0a; xe9; x84; xa6; x0a; xe9;
  x84; xae; x0a; xe9; x86; x85; x0a; xe9;
  x86; x86; x0a; xe9; x86; x8a; x0a; xe9;
  x86; x81; x0a; xe9; x86; x82; x0a; xe9;
  x86; x84; x0a; xe9; x86; x80; x0a; xe9;
  x8b; x90; x0a; xe9; x8b; x83; x0a; xe9;
  x8b; x84; x0a; xe9; x8b; x80; x0a; xe9;
  x8b; x99; x0a; xe9; x8a; xb6; x0a; xe9;
  x8b; x8f; x0a; xe9; x8b; xb1; x0a; xe9;
  x8b; x9f; x0a; xe9; x8b; x98; x0a; xe9;
  x8b; xa9; x0a; xe9; x8b; x97; x0a; xe9;
  x8b; x9d; x0a; xe9; x8b; x8c; x0a; xe9;
  x8b; xaf; x0a; xe9; x8b; x82; x0a; xe9;
  x8b; xa8; x0a; xe9; x8b; x8a; x0a; xe9;
  x8b; x88; x0a; xe9; x8b; x8e; x0a; xe9;
  x8b; xa6; x0a; xe9; x8b; x8d; x0a; xe9;
  x8b; x95; x0a; xe9; x8b; x89; x0a; xe9;
  x8b; xa0; x0a; xe9; x8b; x9e; x0a; xe9;
  x8b; xa7; x0a; xe9; x8b; x91; x0a; xe9;
  x8b; x93; x0a; xe9; x8a; xb5; x0a; xe9;
  x8b; xa1; x0a; xe9; x8b; x86; x0a; xe9
].
(* tests/test_data/whatwg/big5_whatwg_test_encode_in.txt, entries 61440..61695 *)
Definition big5_encode_in_240 : list byte := [
  x8a; xb4; x0a; xe9; x95; xbc; x0a; xe9;
  x96; xac; x0a; xe9; x96; xab; x0a; xe9;
  x96; xae; x0a; xe9; x96; xb0; x0a; xe9;
  x9a; xa4; x0a; xe9; x9a; xa2; x0a; xe9;
  x9b; x93; x0a; xe9; x9c; x85; x0a; xe9;
  x9c; x88; x0a; xe9; x9c; x82; x0a; xe9;
  x9d; x9a; x0a; xe9; x9e; x8a; x0a; xe9;
  x9e; x8e; x0a; xe9; x9e; x88; x0a; xe9;
  x9f; x90; x0a; xe9; x9f; x8f; x0a; xe9;
  xa0; x9e; x0a; xe9; xa0; x9d; x0a; xe9;
  xa0; xa6; x0a; xe9; xa0; xa9; x0a; xe9;
  xa0; xa8; x0a; xe9; xa0; xa0; x0a; xe9;
  xa0; x9b; x0a; xe9; xa0; xa7; x0a; xe9;
  xa2; xb2; x0a; xe9; xa4; x88; x0a; xe9;
  xa3; xba; x0a; xe9; xa4; x91; x0a; xe9;
  xa4; x94; x0a; xe9; xa4; x96; x0a; xe9;
  xa4; x97; x0a; xe9; xa4; x95; x0a; xe9;
  xa7; x9c; x0a; xe9; xa7; x8d; x0a; xe9;
  xa7; x8f; x0a; xe9; xa7; x93; x0a; xe9;
  xa7; x94; x0a; xe9; xa7; x8e; x0a; xe9;
  xa7; x89; x0a; xe9; xa7; x98; x0a; xe9;
  xa7; x8b; x0a; xe9; xa7; x97; x0a; xe9;
  xa7; x8c; x0a; xe9; xaa; xb3; x0a; xe9;
  xab; xac; x0a; xe9; xab; xab; x0a; xe9;
  xab; xb3; x0a; xe9; xab; xb2; x0a; xe9;
  xab; xb1; x0a; xe9; xad; x86; x0a; xe9;
  xad; x83; x0a; xe9; xad; xa7; x0a; xe9;
  xad; xb4; x0a; xe9; xad; xb1; x0a; xe9;
  xad; xa6; x0a; xe9; xad; xb6; x0a; xe9;
  xad; xb5; x0a; xe9; xad; xb0; x0a; xe9;
  xad; xa8; x0a; xe9; xad; xa4; x0a; xe9;
  xad; xac; x0a; xe9; xb3; xbc; x0a; xe9
].
(* tests/test_data/whatwg/big5_whatwg_test_encode_in.txt, entries 61696..61951 *)
Definition big5_encode_in_241 : list byte := [
  xb3; xba; x0a; xe9; xb3; xbd; x0a; xe9;
  xb3; xbf; x0a; xe9; xb3; xb7; x0a; xe9;
  xb4; x87; x0a; xe9; xb4; x80; x0a; xe9;
  xb3; xb9; x0a; xe9; xb3; xbb; x0a; xe9;
  xb4; x88; x0a; xe9; xb4; x85; x0a; xe9;
  xb4; x84; x0a; xe9; xba; x83; x0a; xe9;
  xbb; x93; x0a; xe9; xbc; x8f; x0a; xe9;
  xbc; x90; x0a; xe5; x84; x9c; x0a; xe5;
  x84; x93; x0a; xe5; x84; x97; x0a; xe5;
  x84; x9a; x0a; xe5; x84; x91; x0a; xe5;
  x87; x9e; x0a; xe5; x8c; xb4; x0a; xe5;
  x8f; xa1; x0a; xe5; x99; xb0; x0a; xe5;
  x99; xa0; x0a; xe5; x99; xae; x0a; xe5;
  x99; xb3; x0a; xe5; x99; xa6; x0a; xe5;
  x99; xa3; x0a; xe5; x99; xad; x0a; xe5;
  x99; xb2; x0a; xe5; x99; x9e; x0a; xe5;
  x99; xb7; x0a; xe5; x9c; x9c; x0a; xe5;
  x9c; x9b; x0a; xe5; xa3; x88; x0a; xe5;
  xa2; xbd; x0a; xe5; xa3; x89; x0a; xe5;
  xa2; xbf; x0a; xe5; xa2; xba; x0a; xe5;
  xa3; x82; x0a; xe5; xa2; xbc; x0a; xe5;
  xa3; x86; x0a; xe5; xac; x97; x0a; xe5;
  xac; x99; x0a; xe5; xac; x9b; x0a; xe5;
  xac; xa1; x0a; xe5; xac; x94; x0a; xe5;
  xac; x93; x0a; xe5; xac; x90; x0a; xe5;
  xac; x96; x0a; xe5; xac; x9a; x0a; xe5;
  xac; xa0; x0a; xe5; xac; x9e; x0a; xe5;
  xaf; xaf; x0a; xe5; xb6; xac; x0a; xe5;
  xb6; xb1; x0a; xe5; xb6; xa9; x0a; xe5;
  xb6; xa7; x0a; xe5; xb6; xb5; x0a; xe5;
  xb6; xb0; x0a; xe5; xb6; xae; x0a; xe5;
  xb6; xaa; x0a; xe5; xb6; xa8; x0a; xe5
].
(* tests/test_data/whatwg/big5_whatwg_test_encode_in.txt, entries 61952..62207 *)
Definition big5_encode_in_242 : list byte := [
  xb6; xb2; x0a; xe5; xb6; xad; x0a; xe5;
  xb6; xaf; x0a; xe5; xb6; xb4; x0a; xe5;
  xb9; xa7; x0a; xe5; xb9; xa8; x0a; xe5;
  xb9; xa6; x0a; xe5; xb9; xaf; x0a; xe5;
  xbb; xa9; x0a; xe5; xbb; xa7; x0a; xe5;
  xbb; xa6; x0a; xe5; xbb; xa8; x0a; xe5;
  xbb; xa5; x0a; xe5; xbd; x8b; x0a; xe5;
  xbe; xbc; x0a; xe6; x86; x9d; x0a; xe6;
  x86; xa8; x0a; xe6; x86; x96; x0a; xe6;
  x87; x85; x0a; xe6; x86; xb4; x0a; xe6;
  x87; x86; x0a; xe6; x87; x81; x0a; xe6;
  x87; x8c; x0a; xe6; x86; xba; x0a; xe6;
  x86; xbf; x0a; xe6; x86; xb8; x0a; xe6;
  x86; x8c; x0a; xe6; x93; x97; x0a; xe6;
  x93; x96; x0a; xe6; x93; x90; x0a; xe6;
  x93; x8f; x0a; xe6; x93; x89; x0a; xe6;
  x92; xbd; x0a; xe6; x92; x89; x0a; xe6;
  x93; x83; x0a; xe6; x93; x9b; x0a; xe6;
  x93; xb3; x0a; xe6; x93; x99; x0a; xe6;
  x94; xb3; x0a; xe6; x95; xbf; x0a; xe6;
  x95; xbc; x0a; xe6; x96; xa2; x0a; xe6;
  x9b; x88; x0a; xe6; x9a; xbe; x0a; xe6;
  x9b; x80; x0a; xe6; x9b; x8a; x0a; xe6;
  x9b; x8b; x0a; xe6; x9b; x8f; x0a; xe6;
  x9a; xbd; x0a; xe6; x9a; xbb; x0a; xe6;
  x9a; xba; x0a; xe6; x9b; x8c; x0a; xe6;
  x9c; xa3; x0a; xe6; xa8; xb4; x0a; xe6;
  xa9; xa6; x0a; xe6; xa9; x89; x0a; xe6;
  xa9; xa7; x0a; xe6; xa8; xb2; x0a; xe6;
  xa9; xa8; x0a; xe6; xa8; xbe; x0a; xe6;
  xa9; x9d; x0a; xe6; xa9; xad; x0a; xe6;
  xa9; xb6; x0a; xe6; xa9; x9b; x0a; xe6
].
(* tests/test_data/whatwg/big5_whatwg_test_encode_in.txt, entries 62208..62463 *)
Definition big5_encode_in_243 : list byte := [
  xa9; x91; x0a; xe6; xa8; xa8; x0a; xe6;
  xa9; x9a; x0a; xe6; xa8; xbb; x0a; xe6;
  xa8; xbf; x0a; xe6; xa9; x81; x0a; xe6;
  xa9; xaa; x0a; xe6; xa9; xa4; x0a; xe6;
  xa9; x90; x0a; xe6; xa9; x8f; x0a; xe6;
  xa9; x94; x0a; xe6; xa9; xaf; x0a; xe6;
  xa9; xa9; x0a; xe6; xa9; xa0; x0a; xe6;
  xa8; xbc; x0a; xe6; xa9; x9e; x0a; xe6;
  xa9; x96; x0a; xe6; xa9; x95; x0a; xe6;
  xa9; x8d; x0a; xe6; xa9; x8e; x0a; xe6;
  xa9; x86; x0a; xe6; xad; x95; x0a; xe6;
  xad; x94; x0a; xe6; xad; x96; x0a; xe6;
  xae; xa7; x0a; xe6; xae; xaa; x0a; xe6;
  xae; xab; x0a; xe6; xaf; x88; x0a; xe6;
  xaf; x87; x0a; xe6; xb0; x84; x0a; xe6;
  xb0; x83; x0a; xe6; xb0; x86; x0a; xe6;
  xbe; xad; x0a; xe6; xbf; x8b; x0a; xe6;
  xbe; xa3; x0a; xe6; xbf; x87; x0a; xe6;
  xbe; xbc; x0a; xe6; xbf; x8e; x0a; xe6;
  xbf; x88; x0a; xe6; xbd; x9e; x0a; xe6;
  xbf; x84; x0a; xe6; xbe; xbd; x0a; xe6;
  xbe; x9e; x0a; xe6; xbf; x8a; x0a; xe6;
  xbe; xa8; x0a; xe7; x80; x84; x0a; xe6;
  xbe; xa5; x0a; xe6; xbe; xae; x0a; xe6;
  xbe; xba; x0a; xe6; xbe; xac; x0a; xe6;
  xbe; xaa; x0a; xe6; xbf; x8f; x0a; xe6;
  xbe; xbf; x0a; xe6; xbe; xb8; x0a; xe6;
  xbe; xa2; x0a; xe6; xbf; x89; x0a; xe6;
  xbe; xab; x0a; xe6; xbf; x8d; x0a; xe6;
  xbe; xaf; x0a; xe6; xbe; xb2; x0a; xe6;
  xbe; xb0; x0a; xe7; x87; x85; x0a; xe7;
  x87; x82; x0a; xe7; x86; xbf; x0a; xe7
].
(* tests/test_data/whatwg/big5_whatwg_test_encode_in.txt, entries 62464..62719 *)
Definition big5_encode_in_244 : list byte := [
  x86; xb8; x0a; xe7; x87; x96; x0a; xe7;
  x87; x80; x0a; xe7; x87; x81; x0a; xe7;
  x87; x8b; x0a; xe7; x87; x94; x0a; xe7;
  x87; x8a; x0a; xe7; x87; x87; x0a; xe7;
  x87; x8f; x0a; xe7; x86; xbd; x0a; xe7;
  x87; x98; x0a; xe7; x86; xbc; x0a; xe7;
  x87; x86; x0a; xe7; x87; x9a; x0a; xe7;
  x87; x9b; x0a; xe7; x8a; x9d; x0a; xe7;
  x8a; x9e; x0a; xe7; x8d; xa9; x0a; xe7;
  x8d; xa6; x0a; xe7; x8d; xa7; x0a; xe7;
  x8d; xac; x0a; xe7; x8d; xa5; x0a; xe7;
  x8d; xab; x0a; xe7; x8d; xaa; x0a; xe7;
  x91; xbf; x0a; xe7; x92; x9a; x0a; xe7;
  x92; xa0; x0a; xe7; x92; x94; x0a; xe7;
  x92; x92; x0a; xe7; x92; x95; x0a; xe7;
  x92; xa1; x0a; xe7; x94; x8b; x0a; xe7;
  x96; x80; x0a; xe7; x98; xaf; x0a; xe7;
  x98; xad; x0a; xe7; x98; xb1; x0a; xe7;
  x98; xbd; x0a; xe7; x98; xb3; x0a; xe7;
  x98; xbc; x0a; xe7; x98; xb5; x0a; xe7;
  x98; xb2; x0a; xe7; x98; xb0; x0a; xe7;
  x9a; xbb; x0a; xe7; x9b; xa6; x0a; xe7;
  x9e; x9a; x0a; xe7; x9e; x9d; x0a; xe7;
  x9e; xa1; x0a; xe7; x9e; x9c; x0a; xe7;
  x9e; x9b; x0a; xe7; x9e; xa2; x0a; xe7;
  x9e; xa3; x0a; xe7; x9e; x95; x0a; xe7;
  x9e; x99; x0a; xe7; x9e; x97; x0a; xe7;
  xa3; x9d; x0a; xe7; xa3; xa9; x0a; xe7;
  xa3; xa5; x0a; xe7; xa3; xaa; x0a; xe7;
  xa3; x9e; x0a; xe7; xa3; xa3; x0a; xe7;
  xa3; x9b; x0a; xe7; xa3; xa1; x0a; xe7;
  xa3; xa2; x0a; xe7; xa3; xad; x0a; xe7
].
(* tests/test_data/whatwg/big5_whatwg_test_encode_in.txt, entries 62720..62975 *)
Definition big5_encode_in_245 : list byte := [
  xa3; x9f; x0a; xe7; xa3; xa0; x0a; xe7;
  xa6; xa4; x0a; xe7; xa9; x84; x0a; xe7;
  xa9; x88; x0a; xe7; xa9; x87; x0a; xe7;
  xaa; xb6; x0a; xe7; xaa; xb8; x0a; xe7;
  xaa; xb5; x0a; xe7; xaa; xb1; x0a; xe7;
  xaa; xb7; x0a; xe7; xaf; x9e; x0a; xe7;
  xaf; xa3; x0a; xe7; xaf; xa7; x0a; xe7;
  xaf; x9d; x0a; xe7; xaf; x95; x0a; xe7;
  xaf; xa5; x0a; xe7; xaf; x9a; x0a; xe7;
  xaf; xa8; x0a; xe7; xaf; xb9; x0a; xe7;
  xaf; x94; x0a; xe7; xaf; xaa; x0a; xe7;
  xaf; xa2; x0a; xe7; xaf; x9c; x0a; xe7;
  xaf; xab; x0a; xe7; xaf; x98; x0a; xe7;
  xaf; x9f; x0a; xe7; xb3; x92; x0a; xe7;
  xb3; x94; x0a; xe7; xb3; x97; x0a; xe7;
  xb3; x90; x0a; xe7; xb3; x91; x0a; xe7;
  xb8; x92; x0a; xe7; xb8; xa1; x0a; xe7;
  xb8; x97; x0a; xe7; xb8; x8c; x0a; xe7;
  xb8; x9f; x0a; xe7; xb8; xa0; x0a; xe7;
  xb8; x93; x0a; xe7; xb8; x8e; x0a; xe7;
  xb8; x9c; x0a; xe7; xb8; x95; x0a; xe7;
  xb8; x9a; x0a; xe7; xb8; xa2; x0a; xe7;
  xb8; x8b; x0a; xe7; xb8; x8f; x0a; xe7;
  xb8; x96; x0a; xe7; xb8; x8d; x0a; xe7;
  xb8; x94; x0a; xe7; xb8; xa5; x0a; xe7;
  xb8; xa4; x0a; xe7; xbd; x83; x0a; xe7;
  xbd; xbb; x0a; xe7; xbd; xbc; x0a; xe7;
  xbd; xba; x0a; xe7; xbe; xb1; x0a; xe7;
  xbf; xaf; x0a; xe8; x80; xaa; x0a; xe8;
  x80; xa9; x0a; xe8; x81; xac; x0a; xe8;
  x86; xb1; x0a; xe8; x86; xa6; x0a; xe8;
  x86; xae; x0a; xe8; x86; xb9; x0a; xe8
].
(* tests/test_data/whatwg/big5_whatwg_test_encode_in.txt, entries 62976..63231 *)
Definition big5_encode_in_246 : list byte := [
  x86; xb5; x0a; xe8; x86; xab; x0a; xe8;
  x86; xb0; x0a; xe8; x86; xac; x0a; xe8;
  x86; xb4; x0a; xe8; x86; xb2; x0a; xe8;
  x86; xb7; x0a; xe8; x86; xa7; x0a; xe8;
  x87; xb2; x0a; xe8; x89; x95; x0a; xe8;
  x89; x96; x0a; xe8; x89; x97; x0a; xe8;
  x95; x96; x0a; xe8; x95; x85; x0a; xe8;
  x95; xab; x0a; xe8; x95; x8d; x0a; xe8;
  x95; x93; x0a; xe8; x95; xa1; x0a; xe8;
  x95; x98; x0a; xe8; x95; x80; x0a; xe8;
  x95; x86; x0a; xe8; x95; xa4; x0a; xe8;
  x95; x81; x0a; xe8; x95; xa2; x0a; xe8;
  x95; x84; x0a; xe8; x95; x91; x0a; xe8;
  x95; x87; x0a; xe8; x95; xa3; x0a; xe8;
  x94; xbe; x0a; xe8; x95; x9b; x0a; xe8;
  x95; xb1; x0a; xe8; x95; x8e; x0a; xe8;
  x95; xae; x0a; xe8; x95; xb5; x0a; xe8;
  x95; x95; x0a; xe8; x95; xa7; x0a; xe8;
  x95; xa0; x0a; xe8; x96; x8c; x0a; xe8;
  x95; xa6; x0a; xe8; x95; x9d; x0a; xe8;
  x95; x94; x0a; xe8; x95; xa5; x0a; xe8;
  x95; xac; x0a; xe8; x99; xa3; x0a; xe8;
  x99; xa5; x0a; xe8; x99; xa4; x0a; xe8;
  x9e; x9b; x0a; xe8; x9e; x8f; x0a; xe8;
  x9e; x97; x0a; xe8; x9e; x93; x0a; xe8;
  x9e; x92; x0a; xe8; x9e; x88; x0a; xe8;
  x9e; x81; x0a; xe8; x9e; x96; x0a; xe8;
  x9e; x98; x0a; xe8; x9d; xb9; x0a; xe8;
  x9e; x87; x0a; xe8; x9e; xa3; x0a; xe8;
  x9e; x85; x0a; xe8; x9e; x90; x0a; xe8;
  x9e; x91; x0a; xe8; x9e; x9d; x0a; xe8;
  x9e; x84; x0a; xe8; x9e; x94; x0a; xe8
].
(* tests/test_data/whatwg/big5_whatwg_test_encode_in.txt, entries 63232..63487 *)
Definition big5_encode_in_247 : list byte := [
  x9e; x9c; x0a; xe8; x9e; x9a; x0a; xe8;
  x9e; x89; x0a; xe8; xa4; x9e; x0a; xe8;
  xa4; xa6; x0a; xe8; xa4; xb0; x0a; xe8;
  xa4; xad; x0a; xe8; xa4; xae; x0a; xe8;
  xa4; xa7; x0a; xe8; xa4; xb1; x0a; xe8;
  xa4; xa2; x0a; xe8; xa4; xa9; x0a; xe8;
  xa4; xa3; x0a; xe8; xa4; xaf; x0a; xe8;
  xa4; xac; x0a; xe8; xa4; x9f; x0a; xe8;
  xa7; xb1; x0a; xe8; xab; xa0; x0a; xe8;
  xab; xa2; x0a; xe8; xab; xb2; x0a; xe8;
  xab; xb4; x0a; xe8; xab; xb5; x0a; xe8;
  xab; x9d; x0a; xe8; xac; x94; x0a; xe8;
  xab; xa4; x0a; xe8; xab; x9f; x0a; xe8;
  xab; xb0; x0a; xe8; xab; x88; x0a; xe8;
  xab; x9e; x0a; xe8; xab; xa1; x0a; xe8;
  xab; xa8; x0a; xe8; xab; xbf; x0a; xe8;
  xab; xaf; x0a; xe8; xab; xbb; x0a; xe8;
  xb2; x91; x0a; xe8; xb2; x92; x0a; xe8;
  xb2; x90; x0a; xe8; xb3; xb5; x0a; xe8;
  xb3; xae; x0a; xe8; xb3; xb1; x0a; xe8;
  xb3; xb0; x0a; xe8; xb3; xb3; x0a; xe8;
  xb5; xac; x0a; xe8; xb5; xae; x0a; xe8;
  xb6; xa5; x0a; xe8; xb6; xa7; x0a; xe8;
  xb8; xb3; x0a; xe8; xb8; xbe; x0a; xe8;
  xb8; xb8; x0a; xe8; xb9; x80; x0a; xe8;
  xb9; x85; x0a; xe8; xb8; xb6; x0a; xe8;
  xb8; xbc; x0a; xe8; xb8; xbd; x0a; xe8;
  xb9; x81; x0a; xe8; xb8; xb0; x0a; xe8;
  xb8; xbf; x0a; xe8; xba; xbd; x0a; xe8;
  xbc; xae; x0a; xe8; xbc; xb5; x0a; xe8;
  xbc; xb2; x0a; xe8; xbc; xb9; x0a; xe8;
  xbc; xb7; x0a; xe8; xbc; xb4; x0a; xe9
].
(* tests/test_data/whatwg/big5_whatwg_test_encode_in.txt, entries 63488..63743 *)
Definition big5_encode_in_248 : list byte := [
  x81; xb6; x0a; xe9; x81; xb9; x0a; xe9;
  x81; xbb; x0a; xe9; x82; x86; x0a; xe9;
  x83; xba; x0a; xe9; x84; xb3; x0a; xe9;
  x84; xb5; x0a; xe9; x84; xb6; x0a; xe9;
  x86; x93; x0a; xe9; x86; x90; x0a; xe9;
  x86; x91; x0a; xe9; x86; x8d; x0a; xe9;
  x86; x8f; x0a; xe9; x8c; xa7; x0a; xe9;
  x8c; x9e; x0a; xe9; x8c; x88; x0a; xe9;
  x8c; x9f; x0a; xe9; x8c; x86; x0a; xe9;
  x8c; x8f; x0a; xe9; x8d; xba; x0a; xe9;
  x8c; xb8; x0a; xe9; x8c; xbc; x0a; xe9;
  x8c; x9b; x0a; xe9; x8c; xa3; x0a; xe9;
  x8c; x92; x0a; xe9; x8c; x81; x0a; xe9;
  x8d; x86; x0a; xe9; x8c; xad; x0a; xe9;
  x8c; x8e; x0a; xe9; x8c; x8d; x0a; xe9;
  x8b; x8b; x0a; xe9; x8c; x9d; x0a; xe9;
  x8b; xba; x0a; xe9; x8c; xa5; x0a; xe9;
  x8c; x93; x0a; xe9; x8b; xb9; x0a; xe9;
  x8b; xb7; x0a; xe9; x8c; xb4; x0a; xe9;
  x8c; x82; x0a; xe9; x8c; xa4; x0a; xe9;
  x8b; xbf; x0a; xe9; x8c; xa9; x0a; xe9;
  x8c; xb9; x0a; xe9; x8c; xb5; x0a; xe9;
  x8c; xaa; x0a; xe9; x8c; x94; x0a; xe9;
  x8c; x8c; x0a; xe9; x8c; x8b; x0a; xe9;
  x8b; xbe; x0a; xe9; x8c; x89; x0a; xe9;
  x8c; x80; x0a; xe9; x8b; xbb; x0a; xe9;
  x8c; x96; x0a; xe9; x96; xbc; x0a; xe9;
  x97; x8d; x0a; xe9; x96; xbe; x0a; xe9;
  x96; xb9; x0a; xe9; x96; xba; x0a; xe9;
  x96; xb6; x0a; xe9; x96; xbf; x0a; xe9;
  x96; xb5; x0a; xe9; x96; xbd; x0a; xe9;
  x9a; xa9; x0a; xe9; x9b; x94; x0a; xe9
].
(* tests/test_data/whatwg/big5_whatwg_test_encode_in.txt, entries 63744..63999 *)
Definition big5_encode_in_249 : list byte := [
  x9c; x8b; x0a; xe9; x9c; x92; x0a; xe9;
  x9c; x90; x0a; xe9; x9e; x99; x0a; xe9;
  x9e; x97; x0a; xe9; x9e; x94; x0a; xe9;
  x9f; xb0; x0a; xe9; x9f; xb8; x0a; xe9;
  xa0; xb5; x0a; xe9; xa0; xaf; x0a; xe9;
  xa0; xb2; x0a; xe9; xa4; xa4; x0a; xe9;
  xa4; x9f; x0a; xe9; xa4; xa7; x0a; xe9;
  xa4; xa9; x0a; xe9; xa6; x9e; x0a; xe9;
  xa7; xae; x0a; xe9; xa7; xac; x0a; xe9;
  xa7; xa5; x0a; xe9; xa7; xa4; x0a; xe9;
  xa7; xb0; x0a; xe9; xa7; xa3; x0a; xe9;
  xa7; xaa; x0a; xe9; xa7; xa9; x0a; xe9;
  xa7; xa7; x0a; xe9; xaa; xb9; x0a; xe9;
  xaa; xbf; x0a; xe9; xaa; xb4; x0a; xe9;
  xaa; xbb; x0a; xe9; xab; xb6; x0a; xe9;
  xab; xba; x0a; xe9; xab; xb9; x0a; xe9;
  xab; xb7; x0a; xe9; xac; xb3; x0a; xe9;
  xae; x80; x0a; xe9; xae; x85; x0a; xe9;
  xae; x87; x0a; xe9; xad; xbc; x0a; xe9;
  xad; xbe; x0a; xe9; xad; xbb; x0a; xe9;
  xae; x82; x0a; xe9; xae; x93; x0a; xe9;
  xae; x92; x0a; xe9; xae; x90; x0a; xe9;
  xad; xba; x0a; xe9; xae; x95; x0a; xe9;
  xad; xbd; x0a; xe9; xae; x88; x0a; xe9;
  xb4; xa5; x0a; xe9; xb4; x97; x0a; xe9;
  xb4; xa0; x0a; xe9; xb4; x9e; x0a; xe9;
  xb4; x94; x0a; xe9; xb4; xa9; x0a; xe9;
  xb4; x9d; x0a; xe9; xb4; x98; x0a; xe9;
  xb4; xa2; x0a; xe9; xb4; x90; x0a; xe9;
  xb4; x99; x0a; xe9; xb4; x9f; x0a; xe9;
  xba; x88; x0a; xe9; xba; x86; x0a; xe9;
  xba; x87; x0a; xe9; xba; xae; x0a; xe9
].
(* tests/test_data/whatwg/big5_whatwg_test_encode_in.txt, entries 64000..64255 *)
Definition big5_encode_in_250 : list byte := [
  xba; xad; x0a; xe9; xbb; x95; x0a; xe9;
  xbb; x96; x0a; xe9; xbb; xba; x0a; xe9;
  xbc; x92; x0a; xe9; xbc; xbd; x0a; xe5;
  x84; xa6; x0a; xe5; x84; xa5; x0a; xe5;
  x84; xa2; x0a; xe5; x84; xa4; x0a; xe5;
  x84; xa0; x0a; xe5; x84; xa9; x0a; xe5;
  x8b; xb4; x0a; xe5; x9a; x93; x0a; xe5;
  x9a; x8c; x0a; xe5; x9a; x8d; x0a; xe5;
  x9a; x86; x0a; xe5; x9a; x84; x0a; xe5;
  x9a; x83; x0a; xe5; x99; xbe; x0a; xe5;
  x9a; x82; x0a; xe5; x99; xbf; x0a; xe5;
  x9a; x81; x0a; xe5; xa3; x96; x0a; xe5;
  xa3; x94; x0a; xe5; xa3; x8f; x0a; xe5;
  xa3; x92; x0a; xe5; xac; xad; x0a; xe5;
  xac; xa5; x0a; xe5; xac; xb2; x0a; xe5;
  xac; xa3; x0a; xe5; xac; xac; x0a; xe5;
  xac; xa7; x0a; xe5; xac; xa6; x0a; xe5;
  xac; xaf; x0a; xe5; xac; xae; x0a; xe5;
  xad; xbb; x0a; xe5; xaf; xb1; x0a; xe5;
  xaf; xb2; x0a; xe5; xb6; xb7; x0a; xe5;
  xb9; xac; x0a; xe5; xb9; xaa; x0a; xe5;
  xbe; xbe; x0a; xe5; xbe; xbb; x0a; xe6;
  x87; x83; x0a; xe6; x86; xb5; x0a; xe6;
  x86; xbc; x0a; xe6; x87; xa7; x0a; xe6;
  x87; xa0; x0a; xe6; x87; xa5; x0a; xe6;
  x87; xa4; x0a; xe6; x87; xa8; x0a; xe6;
  x87; x9e; x0a; xe6; x93; xaf; x0a; xe6;
  x93; xa9; x0a; xe6; x93; xa3; x0a; xe6;
  x93; xab; x0a; xe6; x93; xa4; x0a; xe6;
  x93; xa8; x0a; xe6; x96; x81; x0a; xe6;
  x96; x80; x0a; xe6; x96; xb6; x0a; xe6;
  x97; x9a; x0a; xe6; x9b; x92; x0a; xe6
].
(* tests/test_data/whatwg/big5_whatwg_test_encode_in.txt, entries 64256..64511 *)
Definition big5_encode_in_251 : list byte := [
  xaa; x8d; x0a; xe6; xaa; x96; x0a; xe6;
  xaa; x81; x0a; xe6; xaa; xa5; x0a; xe6;
  xaa; x89; x0a; xe6; xaa; x9f; x0a; xe6;
  xaa; x9b; x0a; xe6; xaa; xa1; x0a; xe6;
  xaa; x9e; x0a; xe6; xaa; x87; x0a; xe6;
  xaa; x93; x0a; xe6; xaa; x8e; x0a; xe6;
  xaa; x95; x0a; xe6; xaa; x83; x0a; xe6;
  xaa; xa8; x0a; xe6; xaa; xa4; x0a; xe6;
  xaa; x91; x0a; xe6; xa9; xbf; x0a; xe6;
  xaa; xa6; x0a; xe6; xaa; x9a; x0a; xe6;
  xaa; x85; x0a; xe6; xaa; x8c; x0a; xe6;
  xaa; x92; x0a; xe6; xad; x9b; x0a; xe6;
  xae; xad; x0a; xe6; xb0; x89; x0a; xe6;
  xbf; x8c; x0a; xe6; xbe; xa9; x0a; xe6;
  xbf; xb4; x0a; xe6; xbf; x94; x0a; xe6;
  xbf; xa3; x0a; xe6; xbf; x9c; x0a; xe6;
  xbf; xad; x0a; xe6; xbf; xa7; x0a; xe6;
  xbf; xa6; x0a; xe6; xbf; x9e; x0a; xe6;
  xbf; xb2; x0a; xe6; xbf; x9d; x0a; xe6;
  xbf; xa2; x0a; xe6; xbf; xa8; x0a; xe7;
  x87; xa1; x0a; xe7; x87; xb1; x0a; xe7;
  x87; xa8; x0a; xe7; x87; xb2; x0a; xe7;
  x87; xa4; x0a; xe7; x87; xb0; x0a; xe7;
  x87; xa2; x0a; xe7; x8d; xb3; x0a; xe7;
  x8d; xae; x0a; xe7; x8d; xaf; x0a; xe7;
  x92; x97; x0a; xe7; x92; xb2; x0a; xe7;
  x92; xab; x0a; xe7; x92; x90; x0a; xe7;
  x92; xaa; x0a; xe7; x92; xad; x0a; xe7;
  x92; xb1; x0a; xe7; x92; xa5; x0a; xe7;
  x92; xaf; x0a; xe7; x94; x90; x0a; xe7;
  x94; x91; x0a; xe7; x94; x92; x0a; xe7;
  x94; x8f; x0a; xe7; x96; x84; x0a; xe7
].
(* tests/test_data/whatwg/big5_whatwg_test_encode_in.txt, entries 64512..64767 *)
Definition big5_encode_in_252 : list byte := [
  x99; x83; x0a; xe7; x99; x88; x0a; xe7;
  x99; x89; x0a; xe7; x99; x87; x0a; xe7;
  x9a; xa4; x0a; xe7; x9b; xa9; x0a; xe7;
  x9e; xb5; x0a; xe7; x9e; xab; x0a; xe7;
  x9e; xb2; x0a; xe7; x9e; xb7; x0a; xe7;
  x9e; xb6; x0a; xe7; x9e; xb4; x0a; xe7;
  x9e; xb1; x0a; xe7; x9e; xa8; x0a; xe7;
  x9f; xb0; x0a; xe7; xa3; xb3; x0a; xe7;
  xa3; xbd; x0a; xe7; xa4; x82; x0a; xe7;
  xa3; xbb; x0a; xe7; xa3; xbc; x0a; xe7;
  xa3; xb2; x0a; xe7; xa4; x85; x0a; xe7;
  xa3; xb9; x0a; xe7; xa3; xbe; x0a; xe7;
  xa4; x84; x0a; xe7; xa6; xab; x0a; xe7;
  xa6; xa8; x0a; xe7; xa9; x9c; x0a; xe7;
  xa9; x9b; x0a; xe7; xa9; x96; x0a; xe7;
  xa9; x98; x0a; xe7; xa9; x94; x0a; xe7;
  xa9; x9a; x0a; xe7; xaa; xbe; x0a; xe7;
  xab; x80; x0a; xe7; xab; x81; x0a; xe7;
  xb0; x85; x0a; xe7; xb0; x8f; x0a; xe7;
  xaf; xb2; x0a; xe7; xb0; x80; x0a; xe7;
  xaf; xbf; x0a; xe7; xaf; xbb; x0a; xe7;
  xb0; x8e; x0a; xe7; xaf; xb4; x0a; xe7;
  xb0; x8b; x0a; xe7; xaf; xb3; x0a; xe7;
  xb0; x82; x0a; xe7; xb0; x89; x0a; xe7;
  xb0; x83; x0a; xe7; xb0; x81; x0a; xe7;
  xaf; xb8; x0a; xe7; xaf; xbd; x0a; xe7;
  xaf; xb0; x0a; xe7; xaf; xb1; x0a; xe7;
  xb0; x90; x0a; xe7; xb0; x8a; x0a; xe7;
  xb3; xa8; x0a; xe7; xb8; xad; x0a; xe7;
  xb8; xbc; x0a; xe7; xb9; x82; x0a; xe7;
  xb8; xb3; x0a; xe9; xa1; x88; x0a; xe7;
  xb8; xb8; x0a; xe7; xb8; xaa; x0a; xe7
].
(* tests/test_data/whatwg/big5_whatwg_test_encode_in.txt, entries 64768..65023 *)
Definition big5_encode_in_253 : list byte := [
  xb9; x89; x0a; xe7; xb9; x80; x0a; xe7;
  xb9; x87; x0a; xe7; xb8; xa9; x0a; xe7;
  xb9; x8c; x0a; xe7; xb8; xb0; x0a; xe7;
  xb8; xbb; x0a; xe7; xb8; xb6; x0a; xe7;
  xb9; x84; x0a; xe7; xb8; xba; x0a; xe7;
  xbd; x85; x0a; xe7; xbd; xbf; x0a; xe7;
  xbd; xbe; x0a; xe7; xbd; xbd; x0a; xe7;
  xbf; xb4; x0a; xe7; xbf; xb2; x0a; xe8;
  x80; xac; x0a; xe8; x86; xbb; x0a; xe8;
  x87; x84; x0a; xe8; x87; x8c; x0a; xe8;
  x87; x8a; x0a; xe8; x87; x85; x0a; xe8;
  x87; x87; x0a; xe8; x86; xbc; x0a; xe8;
  x87; xa9; x0a; xe8; x89; x9b; x0a; xe8;
  x89; x9a; x0a; xe8; x89; x9c; x0a; xe8;
  x96; x83; x0a; xe8; x96; x80; x0a; xe8;
  x96; x8f; x0a; xe8; x96; xa7; x0a; xe8;
  x96; x95; x0a; xe8; x96; xa0; x0a; xe8;
  x96; x8b; x0a; xe8; x96; xa3; x0a; xe8;
  x95; xbb; x0a; xe8; x96; xa4; x0a; xe8;
  x96; x9a; x0a; xe8; x96; x9e; x0a; xe8;
  x95; xb7; x0a; xe8; x95; xbc; x0a; xe8;
  x96; x89; x0a; xe8; x96; xa1; x0a; xe8;
  x95; xba; x0a; xe8; x95; xb8; x0a; xe8;
  x95; x97; x0a; xe8; x96; x8e; x0a; xe8;
  x96; x96; x0a; xe8; x96; x86; x0a; xe8;
  x96; x8d; x0a; xe8; x96; x99; x0a; xe8;
  x96; x9d; x0a; xe8; x96; x81; x0a; xe8;
  x96; xa2; x0a; xe8; x96; x82; x0a; xe8;
  x96; x88; x0a; xe8; x96; x85; x0a; xe8;
  x95; xb9; x0a; xe8; x95; xb6; x0a; xe8;
  x96; x98; x0a; xe8; x96; x90; x0a; xe8;
  x96; x9f; x0a; xe8; x99; xa8; x0a; xe8
].
(* tests/test_data/whatwg/big5_whatwg_test_encode_in.txt, entries 65024..65279 *)
Definition big5_encode_in_254 : list byte := [
  x9e; xbe; x0a; xe8; x9e; xaa; x0a; xe8;
  x9e; xad; x0a; xe8; x9f; x85; x0a; xe8;
  x9e; xb0; x0a; xe8; x9e; xac; x0a; xe8;
  x9e; xb9; x0a; xe8; x9e; xb5; x0a; xe8;
  x9e; xbc; x0a; xe8; x9e; xae; x0a; xe8;
  x9f; x89; x0a; xe8; x9f; x83; x0a; xe8;
  x9f; x82; x0a; xe8; x9f; x8c; x0a; xe8;
  x9e; xb7; x0a; xe8; x9e; xaf; x0a; xe8;
  x9f; x84; x0a; xe8; x9f; x8a; x0a; xe8;
  x9e; xb4; x0a; xe8; x9e; xb6; x0a; xe8;
  x9e; xbf; x0a; xe8; x9e; xb8; x0a; xe8;
  x9e; xbd; x0a; xe8; x9f; x9e; x0a; xe8;
  x9e; xb2; x0a; xe8; xa4; xb5; x0a; xe8;
  xa4; xb3; x0a; xe8; xa4; xbc; x0a; xe8;
  xa4; xbe; x0a; xe8; xa5; x81; x0a; xe8;
  xa5; x92; x0a; xe8; xa4; xb7; x0a; xe8;
  xa5; x82; x0a; xe8; xa6; xad; x0a; xe8;
  xa6; xaf; x0a; xe8; xa6; xae; x0a; xe8;
  xa7; xb2; x0a; xe8; xa7; xb3; x0a; xe8;
  xac; x9e; x0a; xe8; xac; x98; x0a; xe8;
  xac; x96; x0a; xe8; xac; x91; x0a; xe8;
  xac; x85; x0a; xe8; xac; x8b; x0a; xe8;
  xac; xa2; x0a; xe8; xac; x8f; x0a; xe8;
  xac; x92; x0a; xe8; xac; x95; x0a; xe8;
  xac; x87; x0a; xe8; xac; x8d; x0a; xe8;
  xac; x88; x0a; xe8; xac; x86; x0a; xe8;
  xac; x9c; x0a; xe8; xac; x93; x0a; xe8;
  xac; x9a; x0a; xe8; xb1; x8f; x0a; xe8;
  xb1; xb0; x0a; xe8; xb1; xb2; x0a; xe8;
  xb1; xb1; x0a; xe8; xb1; xaf; x0a; xe8;
  xb2; x95; x0a; xe8; xb2; x94; x0a; xe8;
  xb3; xb9; x0a; xe8; xb5; xaf; x0a; xe8
].
(* tests/test_data/whatwg/big5_whatwg_test_encode_in.txt, entries 65280..65535 *)
Definition big5_encode_in_255 : list byte := [
  xb9; x8e; x0a; xe8; xb9; x8d; x0a; xe8;
  xb9; x93; x0a; xe8; xb9; x90; x0a; xe8;
  xb9; x8c; x0a; xe8; xb9; x87; x0a; xe8;
  xbd; x83; x0a; xe8; xbd; x80; x0a; xe9;
  x82; x85; x0a; xe9; x81; xbe; x0a; xe9;
  x84; xb8; x0a; xe9; x86; x9a; x0a; xe9;
  x86; xa2; x0a; xe9; x86; x9b; x0a; xe9;
  x86; x99; x0a; xe9; x86; x9f; x0a; xe9;
  x86; xa1; x0a; xe9; x86; x9d; x0a; xe9;
  x86; xa0; x0a; xe9; x8e; xa1; x0a; xe9;
  x8e; x83; x0a; xe9; x8e; xaf; x0a; xe9;
  x8d; xa4; x0a; xe9; x8d; x96; x0a; xe9;
  x8d; x87; x0a; xe9; x8d; xbc; x0a; xe9;
  x8d; x98; x0a; xe9; x8d; x9c; x0a; xe9;
  x8d; xb6; x0a; xe9; x8d; x89; x0a; xe9;
  x8d; x90; x0a; xe9; x8d; x91; x0a; xe9;
  x8d; xa0; x0a; xe9; x8d; xad; x0a; xe9;
  x8e; x8f; x0a; xe9; x8d; x8c; x0a; xe9;
  x8d; xaa; x0a; xe9; x8d; xb9; x0a; xe9;
  x8d; x97; x0a; xe9; x8d; x95; x0a; xe9;
  x8d; x92; x0a; xe9; x8d; x8f; x0a; xe9;
  x8d; xb1; x0a; xe9; x8d; xb7; x0a; xe9;
  x8d; xbb; x0a; xe9; x8d; xa1; x0a; xe9;
  x8d; x9e; x0a; xe9; x8d; xa3; x0a; xe9;
  x8d; xa7; x0a; xe9; x8e; x80; x0a; xe9;
  x8d; x8e; x0a; xe9; x8d; x99; x0a; xe9;
  x97; x87; x0a; xe9; x97; x80; x0a; xe9;
  x97; x89; x0a; xe9; x97; x83; x0a; xe9;
  x97; x85; x0a; xe9; x96; xb7; x0a; xe9;
  x9a; xae; x0a; xe9; x9a; xb0; x0a; xe9;
  x9a; xac; x0a; xe9; x9c; xa0; x0a; xe9;
  x9c; x9f; x0a; xe9; x9c; x98; x0a; xe9
].
(* tests/test_data/whatwg/big5_whatwg_test_encode_in.txt, entries 65536..65791 *)
Definition big5_encode_in_256 : list byte := [
  x9c; x9d; x0a; xe9; x9c; x99; x0a; xe9;
  x9e; x9a; x0a; xe9; x9e; xa1; x0a; xe9;
  x9e; x9c; x0a; xe9; x9e; x9e; x0a; xe9;
  x9e; x9d; x0a; xe9; x9f; x95; x0a; xe9;
  x9f; x94; x0a; xe9; x9f; xb1; x0a; xe9;
  xa1; x81; x0a; xe9; xa1; x84; x0a; xe9;
  xa1; x8a; x0a; xe9; xa1; x89; x0a; xe9;
  xa1; x85; x0a; xe9; xa1; x83; x0a; xe9;
  xa4; xa5; x0a; xe9; xa4; xab; x0a; xe9;
  xa4; xac; x0a; xe9; xa4; xaa; x0a; xe9;
  xa4; xb3; x0a; xe9; xa4; xb2; x0a; xe9;
  xa4; xaf; x0a; xe9; xa4; xad; x0a; xe9;
  xa4; xb1; x0a; xe9; xa4; xb0; x0a; xe9;
  xa6; x98; x0a; xe9; xa6; xa3; x0a; xe9;
  xa6; xa1; x0a; xe9; xa8; x82; x0a; xe9;
  xa7; xba; x0a; xe9; xa7; xb4; x0a; xe9;
  xa7; xb7; x0a; xe9; xa7; xb9; x0a; xe9;
  xa7; xb8; x0a; xe9; xa7; xb6; x0a; xe9;
  xa7; xbb; x0a; xe9; xa7; xbd; x0a; xe9;
  xa7; xbe; x0a; xe9; xa7; xbc; x0a; xe9;
  xa8; x83; x0a; xe9; xaa; xbe; x0a; xe9;
  xab; xbe; x0a; xe9; xab; xbd; x0a; xe9;
  xac; x81; x0a; xe9; xab; xbc; x0a; xe9;
  xad; x88; x0a; xe9; xae; x9a; x0a; xe9;
  xae; xa8; x0a; xe9; xae; x9e; x0a; xe9;
  xae; x9b; x0a; xe9; xae; xa6; x0a; xe9;
  xae; xa1; x0a; xe9; xae; xa5; x0a; xe9;
  xae; xa4; x0a; xe9; xae; x86; x0a; xe9;
  xae; xa2; x0a; xe9; xae; xa0; x0a; xe9;
  xae; xaf; x0a; xe9; xb4; xb3; x0a; xe9;
  xb5; x81; x0a; xe9; xb5; xa7; x0a; xe9;
  xb4; xb6; x0a; xe9; xb4; xae; x0a; xe9
].
(* tests/test_data/whatwg/big5_whatwg_test_encode_in.txt, entries 65792..66047 *)
Definition big5_encode_in_257 : list byte := [
  xb4; xaf; x0a; xe9; xb4; xb1; x0a; xe9;
  xb4; xb8; x0a; xe9; xb4; xb0; x0a; xe9;
  xb5; x85; x0a; xe9; xb5; x82; x0a; xe9;
  xb5; x83; x0a; xe9; xb4; xbe; x0a; xe9;
  xb4; xb7; x0a; xe9; xb5; x80; x0a; xe9;
  xb4; xbd; x0a; xe7; xbf; xb5; x0a; xe9;
  xb4; xad; x0a; xe9; xba; x8a; x0a; xe9;
  xba; x89; x0a; xe9; xba; x8d; x0a; xe9;
  xba; xb0; x0a; xe9; xbb; x88; x0a; xe9;
  xbb; x9a; x0a; xe9; xbb; xbb; x0a; xe9;
  xbb; xbf; x0a; xe9; xbc; xa4; x0a; xe9;
  xbc; xa3; x0a; xe9; xbc; xa2; x0a; xe9;
  xbd; x94; x0a; xe9; xbe; xa0; x0a; xe5;
  x84; xb1; x0a; xe5; x84; xad; x0a; xe5;
  x84; xae; x0a; xe5; x9a; x98; x0a; xe5;
  x9a; x9c; x0a; xe5; x9a; x97; x0a; xe5;
  x9a; x9a; x0a; xe5; x9a; x9d; x0a; xe5;
  x9a; x99; x0a; xe5; xa5; xb0; x0a; xe5;
  xac; xbc; x0a; xe5; xb1; xa9; x0a; xe5;
  xb1; xaa; x0a; xe5; xb7; x80; x0a; xe5;
  xb9; xad; x0a; xe5; xb9; xae; x0a; xe6;
  x87; x98; x0a; xe6; x87; x9f; x0a; xe6;
  x87; xad; x0a; xe6; x87; xae; x0a; xe6;
  x87; xb1; x0a; xe6; x87; xaa; x0a; xe6;
  x87; xb0; x0a; xe6; x87; xab; x0a; xe6;
  x87; x96; x0a; xe6; x87; xa9; x0a; xe6;
  x93; xbf; x0a; xe6; x94; x84; x0a; xe6;
  x93; xbd; x0a; xe6; x93; xb8; x0a; xe6;
  x94; x81; x0a; xe6; x94; x83; x0a; xe6;
  x93; xbc; x0a; xe6; x96; x94; x0a; xe6;
  x97; x9b; x0a; xe6; x9b; x9a; x0a; xe6;
  x9b; x9b; x0a; xe6; x9b; x98; x0a; xe6
].
(* tests/test_data/whatwg/big5_whatwg_test_encode_in.txt, entries 66048..66303 *)
Definition big5_encode_in_258 : list byte := [
  xab; x85; x0a; xe6; xaa; xb9; x0a; xe6;
  xaa; xbd; x0a; xe6; xab; xa1; x0a; xe6;
  xab; x86; x0a; xe6; xaa; xba; x0a; xe6;
  xaa; xb6; x0a; xe6; xaa; xb7; x0a; xe6;
  xab; x87; x0a; xe6; xaa; xb4; x0a; xe6;
  xaa; xad; x0a; xe6; xad; x9e; x0a; xe6;
  xaf; x89; x0a; xe6; xb0; x8b; x0a; xe7;
  x80; x87; x0a; xe7; x80; x8c; x0a; xe7;
  x80; x8d; x0a; xe7; x80; x81; x0a; xe7;
  x80; x85; x0a; xe7; x80; x94; x0a; xe7;
  x80; x8e; x0a; xe6; xbf; xbf; x0a; xe7;
  x80; x80; x0a; xe6; xbf; xbb; x0a; xe7;
  x80; xa6; x0a; xe6; xbf; xbc; x0a; xe6;
  xbf; xb7; x0a; xe7; x80; x8a; x0a; xe7;
  x87; xbf; x0a; xe7; x87; xb9; x0a; xe7;
  x88; x83; x0a; xe7; x87; xbd; x0a; xe7;
  x8d; xb6; x0a; xe7; x92; xb8; x0a; xe7;
  x93; x80; x0a; xe7; x92; xb5; x0a; xe7;
  x93; x81; x0a; xe7; x92; xbe; x0a; xe7;
  x92; xb6; x0a; xe7; x92; xbb; x0a; xe7;
  x93; x82; x0a; xe7; x94; x94; x0a; xe7;
  x94; x93; x0a; xe7; x99; x9c; x0a; xe7;
  x99; xa4; x0a; xe7; x99; x99; x0a; xe7;
  x99; x90; x0a; xe7; x99; x93; x0a; xe7;
  x99; x97; x0a; xe7; x99; x9a; x0a; xe7;
  x9a; xa6; x0a; xe7; x9a; xbd; x0a; xe7;
  x9b; xac; x0a; xe7; x9f; x82; x0a; xe7;
  x9e; xba; x0a; xe7; xa3; xbf; x0a; xe7;
  xa4; x8c; x0a; xe7; xa4; x93; x0a; xe7;
  xa4; x94; x0a; xe7; xa4; x89; x0a; xe7;
  xa4; x90; x0a; xe7; xa4; x92; x0a; xe7;
  xa4; x91; x0a; xe7; xa6; xad; x0a; xe7
].
(* tests/test_data/whatwg/big5_whatwg_test_encode_in.txt, entries 66304..66559 *)
Definition big5_encode_in_259 : list byte := [
  xa6; xac; x0a; xe7; xa9; x9f; x0a; xe7;
  xb0; x9c; x0a; xe7; xb0; xa9; x0a; xe7;
  xb0; x99; x0a; xe7; xb0; xa0; x0a; xe7;
  xb0; x9f; x0a; xe7; xb0; xad; x0a; xe7;
  xb0; x9d; x0a; xe7; xb0; xa6; x0a; xe7;
  xb0; xa8; x0a; xe7; xb0; xa2; x0a; xe7;
  xb0; xa5; x0a; xe7; xb0; xb0; x0a; xe7;
  xb9; x9c; x0a; xe7; xb9; x90; x0a; xe7;
  xb9; x96; x0a; xe7; xb9; xa3; x0a; xe7;
  xb9; x98; x0a; xe7; xb9; xa2; x0a; xe7;
  xb9; x9f; x0a; xe7; xb9; x91; x0a; xe7;
  xb9; xa0; x0a; xe7; xb9; x97; x0a; xe7;
  xb9; x93; x0a; xe7; xbe; xb5; x0a; xe7;
  xbe; xb3; x0a; xe7; xbf; xb7; x0a; xe7;
  xbf; xb8; x0a; xe8; x81; xb5; x0a; xe8;
  x87; x91; x0a; xe8; x87; x92; x0a; xe8;
  x87; x90; x0a; xe8; x89; x9f; x0a; xe8;
  x89; x9e; x0a; xe8; x96; xb4; x0a; xe8;
  x97; x86; x0a; xe8; x97; x80; x0a; xe8;
  x97; x83; x0a; xe8; x97; x82; x0a; xe8;
  x96; xb3; x0a; xe8; x96; xb5; x0a; xe8;
  x96; xbd; x0a; xe8; x97; x87; x0a; xe8;
  x97; x84; x0a; xe8; x96; xbf; x0a; xe8;
  x97; x8b; x0a; xe8; x97; x8e; x0a; xe8;
  x97; x88; x0a; xe8; x97; x85; x0a; xe8;
  x96; xb1; x0a; xe8; x96; xb6; x0a; xe8;
  x97; x92; x0a; xe8; x98; xa4; x0a; xe8;
  x96; xb8; x0a; xe8; x96; xb7; x0a; xe8;
  x96; xbe; x0a; xe8; x99; xa9; x0a; xe8;
  x9f; xa7; x0a; xe8; x9f; xa6; x0a; xe8;
  x9f; xa2; x0a; xe8; x9f; x9b; x0a; xe8;
  x9f; xab; x0a; xe8; x9f; xaa; x0a; xe8
].
(* tests/test_data/whatwg/big5_whatwg_test_encode_in.txt, entries 66560..66815 *)
Definition big5_encode_in_260 : list byte := [
  x9f; xa5; x0a; xe8; x9f; x9f; x0a; xe8;
  x9f; xb3; x0a; xe8; x9f; xa4; x0a; xe8;
  x9f; x94; x0a; xe8; x9f; x9c; x0a; xe8;
  x9f; x93; x0a; xe8; x9f; xad; x0a; xe8;
  x9f; x98; x0a; xe8; x9f; xa3; x0a; xe8;
  x9e; xa4; x0a; xe8; x9f; x97; x0a; xe8;
  x9f; x99; x0a; xe8; xa0; x81; x0a; xe8;
  x9f; xb4; x0a; xe8; x9f; xa8; x0a; xe8;
  x9f; x9d; x0a; xe8; xa5; x93; x0a; xe8;
  xa5; x8b; x0a; xe8; xa5; x8f; x0a; xe8;
  xa5; x8c; x0a; xe8; xa5; x86; x0a; xe8;
  xa5; x90; x0a; xe8; xa5; x91; x0a; xe8;
  xa5; x89; x0a; xe8; xac; xaa; x0a; xe8;
  xac; xa7; x0a; xe8; xac; xa3; x0a; xe8;
  xac; xb3; x0a; xe8; xac; xb0; x0a; xe8;
  xac; xb5; x0a; xe8; xad; x87; x0a; xe8;
  xac; xaf; x0a; xe8; xac; xbc; x0a; xe8;
  xac; xbe; x0a; xe8; xac; xb1; x0a; xe8;
  xac; xa5; x0a; xe8; xac; xb7; x0a; xe8;
  xac; xa6; x0a; xe8; xac; xb6; x0a; xe8;
  xac; xae; x0a; xe8; xac; xa4; x0a; xe8;
  xac; xbb; x0a; xe8; xac; xbd; x0a; xe8;
  xac; xba; x0a; xe8; xb1; x82; x0a; xe8;
  xb1; xb5; x0a; xe8; xb2; x99; x0a; xe8;
  xb2; x98; x0a; xe8; xb2; x97; x0a; xe8;
  xb3; xbe; x0a; xe8; xb4; x84; x0a; xe8;
  xb4; x82; x0a; xe8; xb4; x80; x0a; xe8;
  xb9; x9c; x0a; xe8; xb9; xa2; x0a; xe8;
  xb9; xa0; x0a; xe8; xb9; x97; x0a; xe8;
  xb9; x96; x0a; xe8; xb9; x9e; x0a; xe8;
  xb9; xa5; x0a; xe8; xb9; xa7; x0a; xe8;
  xb9; x9b; x0a; xe8; xb9; x9a; x0a; xe8
].
(* tests/test_data/whatwg/big5_whatwg_test_encode_in.txt, entries 66816..67071 *)
Definition big5_encode_in_261 : list byte := [
  xb9; xa1; x0a; xe8; xb9; x9d; x0a; xe8;
  xb9; xa9; x0a; xe8; xb9; x94; x0a; xe8;
  xbd; x86; x0a; xe8; xbd; x87; x0a; xe8;
  xbd; x88; x0a; xe8; xbd; x8b; x0a; xe9;
  x84; xa8; x0a; xe9; x84; xba; x0a; xe9;
  x84; xbb; x0a; xe9; x84; xbe; x0a; xe9;
  x86; xa8; x0a; xe9; x86; xa5; x0a; xe9;
  x86; xa7; x0a; xe9; x86; xaf; x0a; xe9;
  x86; xaa; x0a; xe9; x8e; xb5; x0a; xe9;
  x8e; x8c; x0a; xe9; x8e; x92; x0a; xe9;
  x8e; xb7; x0a; xe9; x8e; x9b; x0a; xe9;
  x8e; x9d; x0a; xe9; x8e; x89; x0a; xe9;
  x8e; xa7; x0a; xe9; x8e; x8e; x0a; xe9;
  x8e; xaa; x0a; xe9; x8e; x9e; x0a; xe9;
  x8e; xa6; x0a; xe9; x8e; x95; x0a; xe9;
  x8e; x88; x0a; xe9; x8e; x99; x0a; xe9;
  x8e; x9f; x0a; xe9; x8e; x8d; x0a; xe9;
  x8e; xb1; x0a; xe9; x8e; x91; x0a; xe9;
  x8e; xb2; x0a; xe9; x8e; xa4; x0a; xe9;
  x8e; xa8; x0a; xe9; x8e; xb4; x0a; xe9;
  x8e; xa3; x0a; xe9; x8e; xa5; x0a; xe9;
  x97; x92; x0a; xe9; x97; x93; x0a; xe9;
  x97; x91; x0a; xe9; x9a; xb3; x0a; xe9;
  x9b; x97; x0a; xe9; x9b; x9a; x0a; xe5;
  xb7; x82; x0a; xe9; x9b; x9f; x0a; xe9;
  x9b; x98; x0a; xe9; x9b; x9d; x0a; xe9;
  x9c; xa3; x0a; xe9; x9c; xa2; x0a; xe9;
  x9c; xa5; x0a; xe9; x9e; xac; x0a; xe9;
  x9e; xae; x0a; xe9; x9e; xa8; x0a; xe9;
  x9e; xab; x0a; xe9; x9e; xa4; x0a; xe9;
  x9e; xaa; x0a; xe9; x9e; xa2; x0a; xe9;
  x9e; xa5; x0a; xe9; x9f; x97; x0a; xe9
].
(* tests/test_data/whatwg/big5_whatwg_test_encode_in.txt, entries 67072..67327 *)
Definition big5_encode_in_262 : list byte := [
  x9f; x99; x0a; xe9; x9f; x96; x0a; xe9;
  x9f; x98; x0a; xe9; x9f; xba; x0a; xe9;
  xa1; x90; x0a; xe9; xa1; x91; x0a; xe9;
  xa1; x92; x0a; xe9; xa2; xb8; x0a; xe9;
  xa5; x81; x0a; xe9; xa4; xbc; x0a; xe9;
  xa4; xba; x0a; xe9; xa8; x8f; x0a; xe9;
  xa8; x8b; x0a; xe9; xa8; x89; x0a; xe9;
  xa8; x8d; x0a; xe9; xa8; x84; x0a; xe9;
  xa8; x91; x0a; xe9; xa8; x8a; x0a; xe9;
  xa8; x85; x0a; xe9; xa8; x87; x0a; xe9;
  xa8; x86; x0a; xe9; xab; x80; x0a; xe9;
  xab; x9c; x0a; xe9; xac; x88; x0a; xe9;
  xac; x84; x0a; xe9; xac; x85; x0a; xe9;
  xac; xa9; x0a; xe9; xac; xb5; x0a; xe9;
  xad; x8a; x0a; xe9; xad; x8c; x0a; xe9;
  xad; x8b; x0a; xe9; xaf; x87; x0a; xe9;
  xaf; x86; x0a; xe9; xaf; x83; x0a; xe9;
  xae; xbf; x0a; xe9; xaf; x81; x0a; xe9;
  xae; xb5; x0a; xe9; xae; xb8; x0a; xe9;
  xaf; x93; x0a; xe9; xae; xb6; x0a; xe9;
  xaf; x84; x0a; xe9; xae; xb9; x0a; xe9;
  xae; xbd; x0a; xe9; xb5; x9c; x0a; xe9;
  xb5; x93; x0a; xe9; xb5; x8f; x0a; xe9;
  xb5; x8a; x0a; xe9; xb5; x9b; x0a; xe9;
  xb5; x8b; x0a; xe9; xb5; x99; x0a; xe9;
  xb5; x96; x0a; xe9; xb5; x8c; x0a; xe9;
  xb5; x97; x0a; xe9; xb5; x92; x0a; xe9;
  xb5; x94; x0a; xe9; xb5; x9f; x0a; xe9;
  xb5; x98; x0a; xe9; xb5; x9a; x0a; xe9;
  xba; x8e; x0a; xe9; xba; x8c; x0a; xe9;
  xbb; x9f; x0a; xe9; xbc; x81; x0a; xe9;
  xbc; x80; x0a; xe9; xbc; xa5; x0a; xe9
].
(* tests/test_data/whatwg/big5_whatwg_test_encode_in.txt, entries 67328..67583 *)
Definition big5_encode_in_263 : list byte := [
  xbc; xab; x0a; xe9; xbc; xaa; x0a; xe9;
  xbc; xa9; x0a; xe9; xbc; xa8; x0a; xe9;
  xbd; x8c; x0a; xe9; xbd; x95; x0a; xe5;
  x84; xb4; x0a; xe5; x84; xb5; x0a; xe5;
  x8a; x96; x0a; xe5; x8b; xb7; x0a; xe5;
  x8e; xb4; x0a; xe5; x9a; xab; x0a; xe5;
  x9a; xad; x0a; xe5; x9a; xa6; x0a; xe5;
  x9a; xa7; x0a; xe5; x9a; xaa; x0a; xe5;
  x9a; xac; x0a; xe5; xa3; x9a; x0a; xe5;
  xa3; x9d; x0a; xe5; xa3; x9b; x0a; xe5;
  xa4; x92; x0a; xe5; xac; xbd; x0a; xe5;
  xac; xbe; x0a; xe5; xac; xbf; x0a; xe5;
  xb7; x83; x0a; xe5; xb9; xb0; x0a; xe5;
  xbe; xbf; x0a; xe6; x87; xbb; x0a; xe6;
  x94; x87; x0a; xe6; x94; x90; x0a; xe6;
  x94; x8d; x0a; xe6; x94; x89; x0a; xe6;
  x94; x8c; x0a; xe6; x94; x8e; x0a; xe6;
  x96; x84; x0a; xe6; x97; x9e; x0a; xe6;
  x97; x9d; x0a; xe6; x9b; x9e; x0a; xe6;
  xab; xa7; x0a; xe6; xab; xa0; x0a; xe6;
  xab; x8c; x0a; xe6; xab; x91; x0a; xe6;
  xab; x99; x0a; xe6; xab; x8b; x0a; xe6;
  xab; x9f; x0a; xe6; xab; x9c; x0a; xe6;
  xab; x90; x0a; xe6; xab; xab; x0a; xe6;
  xab; x8f; x0a; xe6; xab; x8d; x0a; xe6;
  xab; x9e; x0a; xe6; xad; xa0; x0a; xe6;
  xae; xb0; x0a; xe6; xb0; x8c; x0a; xe7;
  x80; x99; x0a; xe7; x80; xa7; x0a; xe7;
  x80; xa0; x0a; xe7; x80; x96; x0a; xe7;
  x80; xab; x0a; xe7; x80; xa1; x0a; xe7;
  x80; xa2; x0a; xe7; x80; xa3; x0a; xe7;
  x80; xa9; x0a; xe7; x80; x97; x0a; xe7
].
(* tests/test_data/whatwg/big5_whatwg_test_encode_in.txt, entries 67584..67839 *)
Definition big5_encode_in_264 : list byte := [
  x80; xa4; x0a; xe7; x80; x9c; x0a; xe7;
  x80; xaa; x0a; xe7; x88; x8c; x0a; xe7;
  x88; x8a; x0a; xe7; x88; x87; x0a; xe7;
  x88; x82; x0a; xe7; x88; x85; x0a; xe7;
  x8a; xa5; x0a; xe7; x8a; xa6; x0a; xe7;
  x8a; xa4; x0a; xe7; x8a; xa3; x0a; xe7;
  x8a; xa1; x0a; xe7; x93; x8b; x0a; xe7;
  x93; x85; x0a; xe7; x92; xb7; x0a; xe7;
  x93; x83; x0a; xe7; x94; x96; x0a; xe7;
  x99; xa0; x0a; xe7; x9f; x89; x0a; xe7;
  x9f; x8a; x0a; xe7; x9f; x84; x0a; xe7;
  x9f; xb1; x0a; xe7; xa4; x9d; x0a; xe7;
  xa4; x9b; x0a; xe7; xa4; xa1; x0a; xe7;
  xa4; x9c; x0a; xe7; xa4; x97; x0a; xe7;
  xa4; x9e; x0a; xe7; xa6; xb0; x0a; xe7;
  xa9; xa7; x0a; xe7; xa9; xa8; x0a; xe7;
  xb0; xb3; x0a; xe7; xb0; xbc; x0a; xe7;
  xb0; xb9; x0a; xe7; xb0; xac; x0a; xe7;
  xb0; xbb; x0a; xe7; xb3; xac; x0a; xe7;
  xb3; xaa; x0a; xe7; xb9; xb6; x0a; xe7;
  xb9; xb5; x0a; xe7; xb9; xb8; x0a; xe7;
  xb9; xb0; x0a; xe7; xb9; xb7; x0a; xe7;
  xb9; xaf; x0a; xe7; xb9; xba; x0a; xe7;
  xb9; xb2; x0a; xe7; xb9; xb4; x0a; xe7;
  xb9; xa8; x0a; xe7; xbd; x8b; x0a; xe7;
  xbd; x8a; x0a; xe7; xbe; x83; x0a; xe7;
  xbe; x86; x0a; xe7; xbe; xb7; x0a; xe7;
  xbf; xbd; x0a; xe7; xbf; xbe; x0a; xe8;
  x81; xb8; x0a; xe8; x87; x97; x0a; xe8;
  x87; x95; x0a; xe8; x89; xa4; x0a; xe8;
  x89; xa1; x0a; xe8; x89; xa3; x0a; xe8;
  x97; xab; x0a; xe8; x97; xb1; x0a; xe8
].
(* tests/test_data/whatwg/big5_whatwg_test_encode_in.txt, entries 67840..68095 *)
Definition big5_encode_in_265 : list byte := [
  x97; xad; x0a; xe8; x97; x99; x0a; xe8;
  x97; xa1; x0a; xe8; x97; xa8; x0a; xe8;
  x97; x9a; x0a; xe8; x97; x97; x0a; xe8;
  x97; xac; x0a; xe8; x97; xb2; x0a; xe8;
  x97; xb8; x0a; xe8; x97; x98; x0a; xe8;
  x97; x9f; x0a; xe8; x97; xa3; x0a; xe8;
  x97; x9c; x0a; xe8; x97; x91; x0a; xe8;
  x97; xb0; x0a; xe8; x97; xa6; x0a; xe8;
  x97; xaf; x0a; xe8; x97; x9e; x0a; xe8;
  x97; xa2; x0a; xe8; xa0; x80; x0a; xe8;
  x9f; xba; x0a; xe8; xa0; x83; x0a; xe8;
  x9f; xb6; x0a; xe8; x9f; xb7; x0a; xe8;
  xa0; x89; x0a; xe8; xa0; x8c; x0a; xe8;
  xa0; x8b; x0a; xe8; xa0; x86; x0a; xe8;
  x9f; xbc; x0a; xe8; xa0; x88; x0a; xe8;
  x9f; xbf; x0a; xe8; xa0; x8a; x0a; xe8;
  xa0; x82; x0a; xe8; xa5; xa2; x0a; xe8;
  xa5; x9a; x0a; xe8; xa5; x9b; x0a; xe8;
  xa5; x97; x0a; xe8; xa5; xa1; x0a; xe8;
  xa5; x9c; x0a; xe8; xa5; x98; x0a; xe8;
  xa5; x9d; x0a; xe8; xa5; x99; x0a; xe8;
  xa6; x88; x0a; xe8; xa6; xb7; x0a; xe8;
  xa6; xb6; x0a; xe8; xa7; xb6; x0a; xe8;
  xad; x90; x0a; xe8; xad; x88; x0a; xe8;
  xad; x8a; x0a; xe8; xad; x80; x0a; xe8;
  xad; x93; x0a; xe8; xad; x96; x0a; xe8;
  xad; x94; x0a; xe8; xad; x8b; x0a; xe8;
  xad; x95; x0a; xe8; xad; x91; x0a; xe8;
  xad; x82; x0a; xe8; xad; x92; x0a; xe8;
  xad; x97; x0a; xe8; xb1; x83; x0a; xe8;
  xb1; xb7; x0a; xe8; xb1; xb6; x0a; xe8;
  xb2; x9a; x0a; xe8; xb4; x86; x0a; xe8
].
(* tests/test_data/whatwg/big5_whatwg_test_encode_in.txt, entries 68096..68351 *)
Definition big5_encode_in_266 : list byte := [
  xb4; x87; x0a; xe8; xb4; x89; x0a; xe8;
  xb6; xac; x0a; xe8; xb6; xaa; x0a; xe8;
  xb6; xad; x0a; xe8; xb6; xab; x0a; xe8;
  xb9; xad; x0a; xe8; xb9; xb8; x0a; xe8;
  xb9; xb3; x0a; xe8; xb9; xaa; x0a; xe8;
  xb9; xaf; x0a; xe8; xb9; xbb; x0a; xe8;
  xbb; x82; x0a; xe8; xbd; x92; x0a; xe8;
  xbd; x91; x0a; xe8; xbd; x8f; x0a; xe8;
  xbd; x90; x0a; xe8; xbd; x93; x0a; xe8;
  xbe; xb4; x0a; xe9; x85; x80; x0a; xe9;
  x84; xbf; x0a; xe9; x86; xb0; x0a; xe9;
  x86; xad; x0a; xe9; x8f; x9e; x0a; xe9;
  x8f; x87; x0a; xe9; x8f; x8f; x0a; xe9;
  x8f; x82; x0a; xe9; x8f; x9a; x0a; xe9;
  x8f; x90; x0a; xe9; x8f; xb9; x0a; xe9;
  x8f; xac; x0a; xe9; x8f; x8c; x0a; xe9;
  x8f; x99; x0a; xe9; x8e; xa9; x0a; xe9;
  x8f; xa6; x0a; xe9; x8f; x8a; x0a; xe9;
  x8f; x94; x0a; xe9; x8f; xae; x0a; xe9;
  x8f; xa3; x0a; xe9; x8f; x95; x0a; xe9;
  x8f; x84; x0a; xe9; x8f; x8e; x0a; xe9;
  x8f; x80; x0a; xe9; x8f; x92; x0a; xe9;
  x8f; xa7; x0a; xe9; x95; xbd; x0a; xe9;
  x97; x9a; x0a; xe9; x97; x9b; x0a; xe9;
  x9b; xa1; x0a; xe9; x9c; xa9; x0a; xe9;
  x9c; xab; x0a; xe9; x9c; xac; x0a; xe9;
  x9c; xa8; x0a; xe9; x9c; xa6; x0a; xe9;
  x9e; xb3; x0a; xe9; x9e; xb7; x0a; xe9;
  x9e; xb6; x0a; xe9; x9f; x9d; x0a; xe9;
  x9f; x9e; x0a; xe9; x9f; x9f; x0a; xe9;
  xa1; x9c; x0a; xe9; xa1; x99; x0a; xe9;
  xa1; x9d; x0a; xe9; xa1; x97; x0a; xe9
].
(* tests/test_data/whatwg/big5_whatwg_test_encode_in.txt, entries 68352..68607 *)
Definition big5_encode_in_267 : list byte := [
  xa2; xbf; x0a; xe9; xa2; xbd; x0a; xe9;
  xa2; xbb; x0a; xe9; xa2; xbe; x0a; xe9;
  xa5; x88; x0a; xe9; xa5; x87; x0a; xe9;
  xa5; x83; x0a; xe9; xa6; xa6; x0a; xe9;
  xa6; xa7; x0a; xe9; xa8; x9a; x0a; xe9;
  xa8; x95; x0a; xe9; xa8; xa5; x0a; xe9;
  xa8; x9d; x0a; xe9; xa8; xa4; x0a; xe9;
  xa8; x9b; x0a; xe9; xa8; xa2; x0a; xe9;
  xa8; xa0; x0a; xe9; xa8; xa7; x0a; xe9;
  xa8; xa3; x0a; xe9; xa8; x9e; x0a; xe9;
  xa8; x9c; x0a; xe9; xa8; x94; x0a; xe9;
  xab; x82; x0a; xe9; xac; x8b; x0a; xe9;
  xac; x8a; x0a; xe9; xac; x8e; x0a; xe9;
  xac; x8c; x0a; xe9; xac; xb7; x0a; xe9;
  xaf; xaa; x0a; xe9; xaf; xab; x0a; xe9;
  xaf; xa0; x0a; xe9; xaf; x9e; x0a; xe9;
  xaf; xa4; x0a; xe9; xaf; xa6; x0a; xe9;
  xaf; xa2; x0a; xe9; xaf; xb0; x0a; xe9;
  xaf; x94; x0a; xe9; xaf; x97; x0a; xe9;
  xaf; xac; x0a; xe9; xaf; x9c; x0a; xe9;
  xaf; x99; x0a; xe9; xaf; xa5; x0a; xe9;
  xaf; x95; x0a; xe9; xaf; xa1; x0a; xe9;
  xaf; x9a; x0a; xe9; xb5; xb7; x0a; xe9;
  xb6; x81; x0a; xe9; xb6; x8a; x0a; xe9;
  xb6; x84; x0a; xe9; xb6; x88; x0a; xe9;
  xb5; xb1; x0a; xe9; xb6; x80; x0a; xe9;
  xb5; xb8; x0a; xe9; xb6; x86; x0a; xe9;
  xb6; x8b; x0a; xe9; xb6; x8c; x0a; xe9;
  xb5; xbd; x0a; xe9; xb5; xab; x0a; xe9;
  xb5; xb4; x0a; xe9; xb5; xb5; x0a; xe9;
  xb5; xb0; x0a; xe9; xb5; xa9; x0a; xe9;
  xb6; x85; x0a; xe9; xb5; xb3; x0a; xe9
].
(* tests/test_data/whatwg/big5_whatwg_test_encode_in.txt, entries 68608..68863 *)
Definition big5_encode_in_268 : list byte := [
  xb5; xbb; x0a; xe9; xb6; x82; x0a; xe9;
  xb5; xaf; x0a; xe9; xb5; xb9; x0a; xe9;
  xb5; xbf; x0a; xe9; xb6; x87; x0a; xe9;
  xb5; xa8; x0a; xe9; xba; x94; x0a; xe9;
  xba; x91; x0a; xe9; xbb; x80; x0a; xe9;
  xbb; xbc; x0a; xe9; xbc; xad; x0a; xe9;
  xbd; x80; x0a; xe9; xbd; x81; x0a; xe9;
  xbd; x8d; x0a; xe9; xbd; x96; x0a; xe9;
  xbd; x97; x0a; xe9; xbd; x98; x0a; xe5;
  x8c; xb7; x0a; xe5; x9a; xb2; x0a; xe5;
  x9a; xb5; x0a; xe5; x9a; xb3; x0a; xe5;
  xa3; xa3; x0a; xe5; xad; x85; x0a; xe5;
  xb7; x86; x0a; xe5; xb7; x87; x0a; xe5;
  xbb; xae; x0a; xe5; xbb; xaf; x0a; xe5;
  xbf; x80; x0a; xe5; xbf; x81; x0a; xe6;
  x87; xb9; x0a; xe6; x94; x97; x0a; xe6;
  x94; x96; x0a; xe6; x94; x95; x0a; xe6;
  x94; x93; x0a; xe6; x97; x9f; x0a; xe6;
  x9b; xa8; x0a; xe6; x9b; xa3; x0a; xe6;
  x9b; xa4; x0a; xe6; xab; xb3; x0a; xe6;
  xab; xb0; x0a; xe6; xab; xaa; x0a; xe6;
  xab; xa8; x0a; xe6; xab; xb9; x0a; xe6;
  xab; xb1; x0a; xe6; xab; xae; x0a; xe6;
  xab; xaf; x0a; xe7; x80; xbc; x0a; xe7;
  x80; xb5; x0a; xe7; x80; xaf; x0a; xe7;
  x80; xb7; x0a; xe7; x80; xb4; x0a; xe7;
  x80; xb1; x0a; xe7; x81; x82; x0a; xe7;
  x80; xb8; x0a; xe7; x80; xbf; x0a; xe7;
  x80; xba; x0a; xe7; x80; xb9; x0a; xe7;
  x81; x80; x0a; xe7; x80; xbb; x0a; xe7;
  x80; xb3; x0a; xe7; x81; x81; x0a; xe7;
  x88; x93; x0a; xe7; x88; x94; x0a; xe7
].
(* tests/test_data/whatwg/big5_whatwg_test_encode_in.txt, entries 68864..69119 *)
Definition big5_encode_in_269 : list byte := [
  x8a; xa8; x0a; xe7; x8d; xbd; x0a; xe7;
  x8d; xbc; x0a; xe7; x92; xba; x0a; xe7;
  x9a; xab; x0a; xe7; x9a; xaa; x0a; xe7;
  x9a; xbe; x0a; xe7; x9b; xad; x0a; xe7;
  x9f; x8c; x0a; xe7; x9f; x8e; x0a; xe7;
  x9f; x8f; x0a; xe7; x9f; x8d; x0a; xe7;
  x9f; xb2; x0a; xe7; xa4; xa5; x0a; xe7;
  xa4; xa3; x0a; xe7; xa4; xa7; x0a; xe7;
  xa4; xa8; x0a; xe7; xa4; xa4; x0a; xe7;
  xa4; xa9; x0a; xe7; xa6; xb2; x0a; xe7;
  xa9; xae; x0a; xe7; xa9; xac; x0a; xe7;
  xa9; xad; x0a; xe7; xab; xb7; x0a; xe7;
  xb1; x89; x0a; xe7; xb1; x88; x0a; xe7;
  xb1; x8a; x0a; xe7; xb1; x87; x0a; xe7;
  xb1; x85; x0a; xe7; xb3; xae; x0a; xe7;
  xb9; xbb; x0a; xe7; xb9; xbe; x0a; xe7;
  xba; x81; x0a; xe7; xba; x80; x0a; xe7;
  xbe; xba; x0a; xe7; xbf; xbf; x0a; xe8;
  x81; xb9; x0a; xe8; x87; x9b; x0a; xe8;
  x87; x99; x0a; xe8; x88; x8b; x0a; xe8;
  x89; xa8; x0a; xe8; x89; xa9; x0a; xe8;
  x98; xa2; x0a; xe8; x97; xbf; x0a; xe8;
  x98; x81; x0a; xe8; x97; xbe; x0a; xe8;
  x98; x9b; x0a; xe8; x98; x80; x0a; xe8;
  x97; xb6; x0a; xe8; x98; x84; x0a; xe8;
  x98; x89; x0a; xe8; x98; x85; x0a; xe8;
  x98; x8c; x0a; xe8; x97; xbd; x0a; xe8;
  xa0; x99; x0a; xe8; xa0; x90; x0a; xe8;
  xa0; x91; x0a; xe8; xa0; x97; x0a; xe8;
  xa0; x93; x0a; xe8; xa0; x96; x0a; xe8;
  xa5; xa3; x0a; xe8; xa5; xa6; x0a; xe8;
  xa6; xb9; x0a; xe8; xa7; xb7; x0a; xe8
].
(* tests/test_data/whatwg/big5_whatwg_test_encode_in.txt, entries 69120..69375 *)
Definition big5_encode_in_270 : list byte := [
  xad; xa0; x0a; xe8; xad; xaa; x0a; xe8;
  xad; x9d; x0a; xe8; xad; xa8; x0a; xe8;
  xad; xa3; x0a; xe8; xad; xa5; x0a; xe8;
  xad; xa7; x0a; xe8; xad; xad; x0a; xe8;
  xb6; xae; x0a; xe8; xba; x86; x0a; xe8;
  xba; x88; x0a; xe8; xba; x84; x0a; xe8;
  xbd; x99; x0a; xe8; xbd; x96; x0a; xe8;
  xbd; x97; x0a; xe8; xbd; x95; x0a; xe8;
  xbd; x98; x0a; xe8; xbd; x9a; x0a; xe9;
  x82; x8d; x0a; xe9; x85; x83; x0a; xe9;
  x85; x81; x0a; xe9; x86; xb7; x0a; xe9;
  x86; xb5; x0a; xe9; x86; xb2; x0a; xe9;
  x86; xb3; x0a; xe9; x90; x8b; x0a; xe9;
  x90; x93; x0a; xe9; x8f; xbb; x0a; xe9;
  x90; xa0; x0a; xe9; x90; x8f; x0a; xe9;
  x90; x94; x0a; xe9; x8f; xbe; x0a; xe9;
  x90; x95; x0a; xe9; x90; x90; x0a; xe9;
  x90; xa8; x0a; xe9; x90; x99; x0a; xe9;
  x90; x8d; x0a; xe9; x8f; xb5; x0a; xe9;
  x90; x80; x0a; xe9; x8f; xb7; x0a; xe9;
  x90; x87; x0a; xe9; x90; x8e; x0a; xe9;
  x90; x96; x0a; xe9; x90; x92; x0a; xe9;
  x8f; xba; x0a; xe9; x90; x89; x0a; xe9;
  x8f; xb8; x0a; xe9; x90; x8a; x0a; xe9;
  x8f; xbf; x0a; xe9; x8f; xbc; x0a; xe9;
  x90; x8c; x0a; xe9; x8f; xb6; x0a; xe9;
  x90; x91; x0a; xe9; x90; x86; x0a; xe9;
  x97; x9e; x0a; xe9; x97; xa0; x0a; xe9;
  x97; x9f; x0a; xe9; x9c; xae; x0a; xe9;
  x9c; xaf; x0a; xe9; x9e; xb9; x0a; xe9;
  x9e; xbb; x0a; xe9; x9f; xbd; x0a; xe9;
  x9f; xbe; x0a; xe9; xa1; xa0; x0a; xe9
].
(* tests/test_data/whatwg/big5_whatwg_test_encode_in.txt, entries 69376..69631 *)
Definition big5_encode_in_271 : list byte := [
  xa1; xa2; x0a; xe9; xa1; xa3; x0a; xe9;
  xa1; x9f; x0a; xe9; xa3; x81; x0a; xe9;
  xa3; x82; x0a; xe9; xa5; x90; x0a; xe9;
  xa5; x8e; x0a; xe9; xa5; x99; x0a; xe9;
  xa5; x8c; x0a; xe9; xa5; x8b; x0a; xe9;
  xa5; x93; x0a; xe9; xa8; xb2; x0a; xe9;
  xa8; xb4; x0a; xe9; xa8; xb1; x0a; xe9;
  xa8; xac; x0a; xe9; xa8; xaa; x0a; xe9;
  xa8; xb6; x0a; xe9; xa8; xa9; x0a; xe9;
  xa8; xae; x0a; xe9; xa8; xb8; x0a; xe9;
  xa8; xad; x0a; xe9; xab; x87; x0a; xe9;
  xab; x8a; x0a; xe9; xab; x86; x0a; xe9;
  xac; x90; x0a; xe9; xac; x92; x0a; xe9;
  xac; x91; x0a; xe9; xb0; x8b; x0a; xe9;
  xb0; x88; x0a; xe9; xaf; xb7; x0a; xe9;
  xb0; x85; x0a; xe9; xb0; x92; x0a; xe9;
  xaf; xb8; x0a; xe9; xb1; x80; x0a; xe9;
  xb0; x87; x0a; xe9; xb0; x8e; x0a; xe9;
  xb0; x86; x0a; xe9; xb0; x97; x0a; xe9;
  xb0; x94; x0a; xe9; xb0; x89; x0a; xe9;
  xb6; x9f; x0a; xe9; xb6; x99; x0a; xe9;
  xb6; xa4; x0a; xe9; xb6; x9d; x0a; xe9;
  xb6; x92; x0a; xe9; xb6; x98; x0a; xe9;
  xb6; x90; x0a; xe9; xb6; x9b; x0a; xe9;
  xb6; xa0; x0a; xe9; xb6; x94; x0a; xe9;
  xb6; x9c; x0a; xe9; xb6; xaa; x0a; xe9;
  xb6; x97; x0a; xe9; xb6; xa1; x0a; xe9;
  xb6; x9a; x0a; xe9; xb6; xa2; x0a; xe9;
  xb6; xa8; x0a; xe9; xb6; x9e; x0a; xe9;
  xb6; xa3; x0a; xe9; xb6; xbf; x0a; xe9;
  xb6; xa9; x0a; xe9; xb6; x96; x0a; xe9;
  xb6; xa6; x0a; xe9; xb6; xa7; x0a; xe9
].
(* tests/test_data/whatwg/big5_whatwg_test_encode_in.txt, entries 69632..69887 *)
Definition big5_encode_in_272 : list byte := [
  xba; x99; x0a; xe9; xba; x9b; x0a; xe9;
  xba; x9a; x0a; xe9; xbb; xa5; x0a; xe9;
  xbb; xa4; x0a; xe9; xbb; xa7; x0a; xe9;
  xbb; xa6; x0a; xe9; xbc; xb0; x0a; xe9;
  xbc; xae; x0a; xe9; xbd; x9b; x0a; xe9;
  xbd; xa0; x0a; xe9; xbd; x9e; x0a; xe9;
  xbd; x9d; x0a; xe9; xbd; x99; x0a; xe9;
  xbe; x91; x0a; xe5; x84; xba; x0a; xe5;
  x84; xb9; x0a; xe5; x8a; x98; x0a; xe5;
  x8a; x97; x0a; xe5; x9b; x83; x0a; xe5;
  x9a; xbd; x0a; xe5; x9a; xbe; x0a; xe5;
  xad; x88; x0a; xe5; xad; x87; x0a; xe5;
  xb7; x8b; x0a; xe5; xb7; x8f; x0a; xe5;
  xbb; xb1; x0a; xe6; x87; xbd; x0a; xe6;
  x94; x9b; x0a; xe6; xac; x82; x0a; xe6;
  xab; xbc; x0a; xe6; xac; x83; x0a; xe6;
  xab; xb8; x0a; xe6; xac; x80; x0a; xe7;
  x81; x83; x0a; xe7; x81; x84; x0a; xe7;
  x81; x8a; x0a; xe7; x81; x88; x0a; xe7;
  x81; x89; x0a; xe7; x81; x85; x0a; xe7;
  x81; x86; x0a; xe7; x88; x9d; x0a; xe7;
  x88; x9a; x0a; xe7; x88; x99; x0a; xe7;
  x8d; xbe; x0a; xe7; x94; x97; x0a; xe7;
  x99; xaa; x0a; xe7; x9f; x90; x0a; xe7;
  xa4; xad; x0a; xe7; xa4; xb1; x0a; xe7;
  xa4; xaf; x0a; xe7; xb1; x94; x0a; xe7;
  xb1; x93; x0a; xe7; xb3; xb2; x0a; xe7;
  xba; x8a; x0a; xe7; xba; x88; x0a; xe7;
  xba; x8b; x0a; xe7; xba; x86; x0a; xe7;
  xba; x8d; x0a; xe7; xbd; x8d; x0a; xe7;
  xbe; xbb; x0a; xe8; x80; xb0; x0a; xe8;
  x87; x9d; x0a; xe8; x98; x98; x0a; xe8
].
(* tests/test_data/whatwg/big5_whatwg_test_encode_in.txt, entries 69888..70143 *)
Definition big5_encode_in_273 : list byte := [
  x98; xaa; x0a; xe8; x98; xa6; x0a; xe8;
  x98; x9f; x0a; xe8; x98; xa3; x0a; xe8;
  x98; x9c; x0a; xe8; x98; x99; x0a; xe8;
  x98; xa7; x0a; xe8; x98; xae; x0a; xe8;
  x98; xa1; x0a; xe8; x98; xa0; x0a; xe8;
  x98; xa9; x0a; xe8; x98; x9e; x0a; xe8;
  x98; xa5; x0a; xe8; xa0; xa9; x0a; xe8;
  xa0; x9d; x0a; xe8; xa0; x9b; x0a; xe8;
  xa0; xa0; x0a; xe8; xa0; xa4; x0a; xe8;
  xa0; x9c; x0a; xe8; xa0; xab; x0a; xe8;
  xa1; x8a; x0a; xe8; xa5; xad; x0a; xe8;
  xa5; xa9; x0a; xe8; xa5; xae; x0a; xe8;
  xa5; xab; x0a; xe8; xa7; xba; x0a; xe8;
  xad; xb9; x0a; xe8; xad; xb8; x0a; xe8;
  xad; x85; x0a; xe8; xad; xba; x0a; xe8;
  xad; xbb; x0a; xe8; xb4; x90; x0a; xe8;
  xb4; x94; x0a; xe8; xb6; xaf; x0a; xe8;
  xba; x8e; x0a; xe8; xba; x8c; x0a; xe8;
  xbd; x9e; x0a; xe8; xbd; x9b; x0a; xe8;
  xbd; x9d; x0a; xe9; x85; x86; x0a; xe9;
  x85; x84; x0a; xe9; x85; x85; x0a; xe9;
  x86; xb9; x0a; xe9; x90; xbf; x0a; xe9;
  x90; xbb; x0a; xe9; x90; xb6; x0a; xe9;
  x90; xa9; x0a; xe9; x90; xbd; x0a; xe9;
  x90; xbc; x0a; xe9; x90; xb0; x0a; xe9;
  x90; xb9; x0a; xe9; x90; xaa; x0a; xe9;
  x90; xb7; x0a; xe9; x90; xac; x0a; xe9;
  x91; x80; x0a; xe9; x90; xb1; x0a; xe9;
  x97; xa5; x0a; xe9; x97; xa4; x0a; xe9;
  x97; xa3; x0a; xe9; x9c; xb5; x0a; xe9;
  x9c; xba; x0a; xe9; x9e; xbf; x0a; xe9;
  x9f; xa1; x0a; xe9; xa1; xa4; x0a; xe9
].
(* tests/test_data/whatwg/big5_whatwg_test_encode_in.txt, entries 70144..70399 *)
Definition big5_encode_in_274 : list byte := [
  xa3; x89; x0a; xe9; xa3; x86; x0a; xe9;
  xa3; x80; x0a; xe9; xa5; x98; x0a; xe9;
  xa5; x96; x0a; xe9; xa8; xb9; x0a; xe9;
  xa8; xbd; x0a; xe9; xa9; x86; x0a; xe9;
  xa9; x84; x0a; xe9; xa9; x82; x0a; xe9;
  xa9; x81; x0a; xe9; xa8; xba; x0a; xe9;
  xa8; xbf; x0a; xe9; xab; x8d; x0a; xe9;
  xac; x95; x0a; xe9; xac; x97; x0a; xe9;
  xac; x98; x0a; xe9; xac; x96; x0a; xe9;
  xac; xba; x0a; xe9; xad; x92; x0a; xe9;
  xb0; xab; x0a; xe9; xb0; x9d; x0a; xe9;
  xb0; x9c; x0a; xe9; xb0; xac; x0a; xe9;
  xb0; xa3; x0a; xe9; xb0; xa8; x0a; xe9;
  xb0; xa9; x0a; xe9; xb0; xa4; x0a; xe9;
  xb0; xa1; x0a; xe9; xb6; xb7; x0a; xe9;
  xb6; xb6; x0a; xe9; xb6; xbc; x0a; xe9;
  xb7; x81; x0a; xe9; xb7; x87; x0a; xe9;
  xb7; x8a; x0a; xe9; xb7; x8f; x0a; xe9;
  xb6; xbe; x0a; xe9; xb7; x85; x0a; xe9;
  xb7; x83; x0a; xe9; xb6; xbb; x0a; xe9;
  xb6; xb5; x0a; xe9; xb7; x8e; x0a; xe9;
  xb6; xb9; x0a; xe9; xb6; xba; x0a; xe9;
  xb6; xac; x0a; xe9; xb7; x88; x0a; xe9;
  xb6; xb1; x0a; xe9; xb6; xad; x0a; xe9;
  xb7; x8c; x0a; xe9; xb6; xb3; x0a; xe9;
  xb7; x8d; x0a; xe9; xb6; xb2; x0a; xe9;
  xb9; xba; x0a; xe9; xba; x9c; x0a; xe9;
  xbb; xab; x0a; xe9; xbb; xae; x0a; xe9;
  xbb; xad; x0a; xe9; xbc; x9b; x0a; xe9;
  xbc; x98; x0a; xe9; xbc; x9a; x0a; xe9;
  xbc; xb1; x0a; xe9; xbd; x8e; x0a; xe9;
  xbd; xa5; x0a; xe9; xbd; xa4; x0a; xe9
].
(* tests/test_data/whatwg/big5_whatwg_test_encode_in.txt, entries 70400..70655 *)
Definition big5_encode_in_275 : list byte := [
  xbe; x92; x0a; xe4; xba; xb9; x0a; xe5;
  x9b; x86; x0a; xe5; x9b; x85; x0a; xe5;
  x9b; x8b; x0a; xe5; xa5; xb1; x0a; xe5;
  xad; x8b; x0a; xe5; xad; x8c; x0a; xe5;
  xb7; x95; x0a; xe5; xb7; x91; x0a; xe5;
  xbb; xb2; x0a; xe6; x94; xa1; x0a; xe6;
  x94; xa0; x0a; xe6; x94; xa6; x0a; xe6;
  x94; xa2; x0a; xe6; xac; x8b; x0a; xe6;
  xac; x88; x0a; xe6; xac; x89; x0a; xe6;
  xb0; x8d; x0a; xe7; x81; x95; x0a; xe7;
  x81; x96; x0a; xe7; x81; x97; x0a; xe7;
  x81; x92; x0a; xe7; x88; x9e; x0a; xe7;
  x88; x9f; x0a; xe7; x8a; xa9; x0a; xe7;
  x8d; xbf; x0a; xe7; x93; x98; x0a; xe7;
  x93; x95; x0a; xe7; x93; x99; x0a; xe7;
  x93; x97; x0a; xe7; x99; xad; x0a; xe7;
  x9a; xad; x0a; xe7; xa4; xb5; x0a; xe7;
  xa6; xb4; x0a; xe7; xa9; xb0; x0a; xe7;
  xa9; xb1; x0a; xe7; xb1; x97; x0a; xe7;
  xb1; x9c; x0a; xe7; xb1; x99; x0a; xe7;
  xb1; x9b; x0a; xe7; xb1; x9a; x0a; xe7;
  xb3; xb4; x0a; xe7; xb3; xb1; x0a; xe7;
  xba; x91; x0a; xe7; xbd; x8f; x0a; xe7;
  xbe; x87; x0a; xe8; x87; x9e; x0a; xe8;
  x89; xab; x0a; xe8; x98; xb4; x0a; xe8;
  x98; xb5; x0a; xe8; x98; xb3; x0a; xe8;
  x98; xac; x0a; xe8; x98; xb2; x0a; xe8;
  x98; xb6; x0a; xe8; xa0; xac; x0a; xe8;
  xa0; xa8; x0a; xe8; xa0; xa6; x0a; xe8;
  xa0; xaa; x0a; xe8; xa0; xa5; x0a; xe8;
  xa5; xb1; x0a; xe8; xa6; xbf; x0a; xe8;
  xa6; xbe; x0a; xe8; xa7; xbb; x0a; xe8
].
(* tests/test_data/whatwg/big5_whatwg_test_encode_in.txt, entries 70656..70911 *)
Definition big5_encode_in_276 : list byte := [
  xad; xbe; x0a; xe8; xae; x84; x0a; xe8;
  xae; x82; x0a; xe8; xae; x86; x0a; xe8;
  xae; x85; x0a; xe8; xad; xbf; x0a; xe8;
  xb4; x95; x0a; xe8; xba; x95; x0a; xe8;
  xba; x94; x0a; xe8; xba; x9a; x0a; xe8;
  xba; x92; x0a; xe8; xba; x90; x0a; xe8;
  xba; x96; x0a; xe8; xba; x97; x0a; xe8;
  xbd; xa0; x0a; xe8; xbd; xa2; x0a; xe9;
  x85; x87; x0a; xe9; x91; x8c; x0a; xe9;
  x91; x90; x0a; xe9; x91; x8a; x0a; xe9;
  x91; x8b; x0a; xe9; x91; x8f; x0a; xe9;
  x91; x87; x0a; xe9; x91; x85; x0a; xe9;
  x91; x88; x0a; xe9; x91; x89; x0a; xe9;
  x91; x86; x0a; xe9; x9c; xbf; x0a; xe9;
  x9f; xa3; x0a; xe9; xa1; xaa; x0a; xe9;
  xa1; xa9; x0a; xe9; xa3; x8b; x0a; xe9;
  xa5; x94; x0a; xe9; xa5; x9b; x0a; xe9;
  xa9; x8e; x0a; xe9; xa9; x93; x0a; xe9;
  xa9; x94; x0a; xe9; xa9; x8c; x0a; xe9;
  xa9; x8f; x0a; xe9; xa9; x88; x0a; xe9;
  xa9; x8a; x0a; xe9; xa9; x89; x0a; xe9;
  xa9; x92; x0a; xe9; xa9; x90; x0a; xe9;
  xab; x90; x0a; xe9; xac; x99; x0a; xe9;
  xac; xab; x0a; xe9; xac; xbb; x0a; xe9;
  xad; x96; x0a; xe9; xad; x95; x0a; xe9;
  xb1; x86; x0a; xe9; xb1; x88; x0a; xe9;
  xb0; xbf; x0a; xe9; xb1; x84; x0a; xe9;
  xb0; xb9; x0a; xe9; xb0; xb3; x0a; xe9;
  xb1; x81; x0a; xe9; xb0; xbc; x0a; xe9;
  xb0; xb7; x0a; xe9; xb0; xb4; x0a; xe9;
  xb0; xb2; x0a; xe9; xb0; xbd; x0a; xe9;
  xb0; xb6; x0a; xe9; xb7; x9b; x0a; xe9
].
(* tests/test_data/whatwg/big5_whatwg_test_encode_in.txt, entries 70912..71167 *)
Definition big5_encode_in_277 : list byte := [
  xb7; x92; x0a; xe9; xb7; x9e; x0a; xe9;
  xb7; x9a; x0a; xe9; xb7; x8b; x0a; xe9;
  xb7; x90; x0a; xe9; xb7; x9c; x0a; xe9;
  xb7; x91; x0a; xe9; xb7; x9f; x0a; xe9;
  xb7; xa9; x0a; xe9; xb7; x99; x0a; xe9;
  xb7; x98; x0a; xe9; xb7; x96; x0a; xe9;
  xb7; xb5; x0a; xe9; xb7; x95; x0a; xe9;
  xb7; x9d; x0a; xe9; xba; xb6; x0a; xe9;
  xbb; xb0; x0a; xe9; xbc; xb5; x0a; xe9;
  xbc; xb3; x0a; xe9; xbc; xb2; x0a; xe9;
  xbd; x82; x0a; xe9; xbd; xab; x0a; xe9;
  xbe; x95; x0a; xe9; xbe; xa2; x0a; xe5;
  x84; xbd; x0a; xe5; x8a; x99; x0a; xe5;
  xa3; xa8; x0a; xe5; xa3; xa7; x0a; xe5;
  xa5; xb2; x0a; xe5; xad; x8d; x0a; xe5;
  xb7; x98; x0a; xe8; xa0; xaf; x0a; xe5;
  xbd; x8f; x0a; xe6; x88; x81; x0a; xe6;
  x88; x83; x0a; xe6; x88; x84; x0a; xe6;
  x94; xa9; x0a; xe6; x94; xa5; x0a; xe6;
  x96; x96; x0a; xe6; x9b; xab; x0a; xe6;
  xac; x91; x0a; xe6; xac; x92; x0a; xe6;
  xac; x8f; x0a; xe6; xaf; x8a; x0a; xe7;
  x81; x9b; x0a; xe7; x81; x9a; x0a; xe7;
  x88; xa2; x0a; xe7; x8e; x82; x0a; xe7;
  x8e; x81; x0a; xe7; x8e; x83; x0a; xe7;
  x99; xb0; x0a; xe7; x9f; x94; x0a; xe7;
  xb1; xa7; x0a; xe7; xb1; xa6; x0a; xe7;
  xba; x95; x0a; xe8; x89; xac; x0a; xe8;
  x98; xba; x0a; xe8; x99; x80; x0a; xe8;
  x98; xb9; x0a; xe8; x98; xbc; x0a; xe8;
  x98; xb1; x0a; xe8; x98; xbb; x0a; xe8;
  x98; xbe; x0a; xe8; xa0; xb0; x0a; xe8
].
(* tests/test_data/whatwg/big5_whatwg_test_encode_in.txt, entries 71168..71423 *)
Definition big5_encode_in_278 : list byte := [
  xa0; xb2; x0a; xe8; xa0; xae; x0a; xe8;
  xa0; xb3; x0a; xe8; xa5; xb6; x0a; xe8;
  xa5; xb4; x0a; xe8; xa5; xb3; x0a; xe8;
  xa7; xbe; x0a; xe8; xae; x8c; x0a; xe8;
  xae; x8e; x0a; xe8; xae; x8b; x0a; xe8;
  xae; x88; x0a; xe8; xb1; x85; x0a; xe8;
  xb4; x99; x0a; xe8; xba; x98; x0a; xe8;
  xbd; xa4; x0a; xe8; xbd; xa3; x0a; xe9;
  x86; xbc; x0a; xe9; x91; xa2; x0a; xe9;
  x91; x95; x0a; xe9; x91; x9d; x0a; xe9;
  x91; x97; x0a; xe9; x91; x9e; x0a; xe9;
  x9f; x84; x0a; xe9; x9f; x85; x0a; xe9;
  xa0; x80; x0a; xe9; xa9; x96; x0a; xe9;
  xa9; x99; x0a; xe9; xac; x9e; x0a; xe9;
  xac; x9f; x0a; xe9; xac; xa0; x0a; xe9;
  xb1; x92; x0a; xe9; xb1; x98; x0a; xe9;
  xb1; x90; x0a; xe9; xb1; x8a; x0a; xe9;
  xb1; x8d; x0a; xe9; xb1; x8b; x0a; xe9;
  xb1; x95; x0a; xe9; xb1; x99; x0a; xe9;
  xb1; x8c; x0a; xe9; xb1; x8e; x0a; xe9;
  xb7; xbb; x0a; xe9; xb7; xb7; x0a; xe9;
  xb7; xaf; x0a; xe9; xb7; xa3; x0a; xe9;
  xb7; xab; x0a; xe9; xb7; xb8; x0a; xe9;
  xb7; xa4; x0a; xe9; xb7; xb6; x0a; xe9;
  xb7; xa1; x0a; xe9; xb7; xae; x0a; xe9;
  xb7; xa6; x0a; xe9; xb7; xb2; x0a; xe9;
  xb7; xa2; x0a; xe9; xb7; xac; x0a; xe9;
  xb7; xb4; x0a; xe9; xb7; xb3; x0a; xe9;
  xb7; xa8; x0a; xe9; xb7; xad; x0a; xe9;
  xbb; x82; x0a; xe9; xbb; x90; x0a; xe9;
  xbb; xb2; x0a; xe9; xbb; xb3; x0a; xe9;
  xbc; x86; x0a; xe9; xbc; x9c; x0a; xe9
].
(* tests/test_data/whatwg/big5_whatwg_test_encode_in.txt, entries 71424..71679 *)
Definition big5_encode_in_279 : list byte := [
  xbc; xb8; x0a; xe9; xbc; xb7; x0a; xe9;
  xbc; xb6; x0a; xe9; xbd; x83; x0a; xe9;
  xbd; x8f; x0a; xe9; xbd; xb1; x0a; xe9;
  xbd; xb0; x0a; xe9; xbd; xae; x0a; xe9;
  xbd; xaf; x0a; xe5; x9b; x93; x0a; xe5;
  x9b; x8d; x0a; xe5; xad; x8e; x0a; xe5;
  xb1; xad; x0a; xe6; x94; xad; x0a; xe6;
  x9b; xad; x0a; xe6; x9b; xae; x0a; xe6;
  xac; x93; x0a; xe7; x81; x9f; x0a; xe7;
  x81; xa1; x0a; xe7; x81; x9d; x0a; xe7;
  x81; xa0; x0a; xe7; x88; xa3; x0a; xe7;
  x93; x9b; x0a; xe7; x93; xa5; x0a; xe7;
  x9f; x95; x0a; xe7; xa4; xb8; x0a; xe7;
  xa6; xb7; x0a; xe7; xa6; xb6; x0a; xe7;
  xb1; xaa; x0a; xe7; xba; x97; x0a; xe7;
  xbe; x89; x0a; xe8; x89; xad; x0a; xe8;
  x99; x83; x0a; xe8; xa0; xb8; x0a; xe8;
  xa0; xb7; x0a; xe8; xa0; xb5; x0a; xe8;
  xa1; x8b; x0a; xe8; xae; x94; x0a; xe8;
  xae; x95; x0a; xe8; xba; x9e; x0a; xe8;
  xba; x9f; x0a; xe8; xba; xa0; x0a; xe8;
  xba; x9d; x0a; xe9; x86; xbe; x0a; xe9;
  x86; xbd; x0a; xe9; x87; x82; x0a; xe9;
  x91; xab; x0a; xe9; x91; xa8; x0a; xe9;
  x91; xa9; x0a; xe9; x9b; xa5; x0a; xe9;
  x9d; x86; x0a; xe9; x9d; x83; x0a; xe9;
  x9d; x87; x0a; xe9; x9f; x87; x0a; xe9;
  x9f; xa5; x0a; xe9; xa9; x9e; x0a; xe9;
  xab; x95; x0a; xe9; xad; x99; x0a; xe9;
  xb1; xa3; x0a; xe9; xb1; xa7; x0a; xe9;
  xb1; xa6; x0a; xe9; xb1; xa2; x0a; xe9;
  xb1; x9e; x0a; xe9; xb1; xa0; x0a; xe9
].
(* tests/test_data/whatwg/big5_whatwg_test_encode_in.txt, entries 71680..71935 *)
Definition big5_encode_in_280 : list byte := [
  xb8; x82; x0a; xe9; xb7; xbe; x0a; xe9;
  xb8; x87; x0a; xe9; xb8; x83; x0a; xe9;
  xb8; x86; x0a; xe9; xb8; x85; x0a; xe9;
  xb8; x80; x0a; xe9; xb8; x81; x0a; xe9;
  xb8; x89; x0a; xe9; xb7; xbf; x0a; xe9;
  xb7; xbd; x0a; xe9; xb8; x84; x0a; xe9;
  xba; xa0; x0a; xe9; xbc; x9e; x0a; xe9;
  xbd; x86; x0a; xe9; xbd; xb4; x0a; xe9;
  xbd; xb5; x0a; xe9; xbd; xb6; x0a; xe5;
  x9b; x94; x0a; xe6; x94; xae; x0a; xe6;
  x96; xb8; x0a; xe6; xac; x98; x0a; xe6;
  xac; x99; x0a; xe6; xac; x97; x0a; xe6;
  xac; x9a; x0a; xe7; x81; xa2; x0a; xe7;
  x88; xa6; x0a; xe7; x8a; xaa; x0a; xe7;
  x9f; x98; x0a; xe7; x9f; x99; x0a; xe7;
  xa4; xb9; x0a; xe7; xb1; xa9; x0a; xe7;
  xb1; xab; x0a; xe7; xb3; xb6; x0a; xe7;
  xba; x9a; x0a; xe7; xba; x98; x0a; xe7;
  xba; x9b; x0a; xe7; xba; x99; x0a; xe8;
  x87; xa0; x0a; xe8; x87; xa1; x0a; xe8;
  x99; x86; x0a; xe8; x99; x87; x0a; xe8;
  x99; x88; x0a; xe8; xa5; xb9; x0a; xe8;
  xa5; xba; x0a; xe8; xa5; xbc; x0a; xe8;
  xa5; xbb; x0a; xe8; xa7; xbf; x0a; xe8;
  xae; x98; x0a; xe8; xae; x99; x0a; xe8;
  xba; xa5; x0a; xe8; xba; xa4; x0a; xe8;
  xba; xa3; x0a; xe9; x91; xae; x0a; xe9;
  x91; xad; x0a; xe9; x91; xaf; x0a; xe9;
  x91; xb1; x0a; xe9; x91; xb3; x0a; xe9;
  x9d; x89; x0a; xe9; xa1; xb2; x0a; xe9;
  xa5; x9f; x0a; xe9; xb1; xa8; x0a; xe9;
  xb1; xae; x0a; xe9; xb1; xad; x0a; xe9
].
(* tests/test_data/whatwg/big5_whatwg_test_encode_in.txt, entries 71936..72191 *)
Definition big5_encode_in_281 : list byte := [
  xb8; x8b; x0a; xe9; xb8; x8d; x0a; xe9;
  xb8; x90; x0a; xe9; xb8; x8f; x0a; xe9;
  xb8; x92; x0a; xe9; xb8; x91; x0a; xe9;
  xba; xa1; x0a; xe9; xbb; xb5; x0a; xe9;
  xbc; x89; x0a; xe9; xbd; x87; x0a; xe9;
  xbd; xb8; x0a; xe9; xbd; xbb; x0a; xe9;
  xbd; xba; x0a; xe9; xbd; xb9; x0a; xe5;
  x9c; x9e; x0a; xe7; x81; xa6; x0a; xe7;
  xb1; xaf; x0a; xe8; xa0; xbc; x0a; xe8;
  xb6; xb2; x0a; xe8; xba; xa6; x0a; xe9;
  x87; x83; x0a; xe9; x91; xb4; x0a; xe9;
  x91; xb8; x0a; xe9; x91; xb6; x0a; xe9;
  x91; xb5; x0a; xe9; xa9; xa0; x0a; xe9;
  xb1; xb4; x0a; xe9; xb1; xb3; x0a; xe9;
  xb1; xb1; x0a; xe9; xb1; xb5; x0a; xe9;
  xb8; x94; x0a; xe9; xb8; x93; x0a; xe9;
  xbb; xb6; x0a; xe9; xbc; x8a; x0a; xe9;
  xbe; xa4; x0a; xe7; x81; xa8; x0a; xe7;
  x81; xa5; x0a; xe7; xb3; xb7; x0a; xe8;
  x99; xaa; x0a; xe8; xa0; xbe; x0a; xe8;
  xa0; xbd; x0a; xe8; xa0; xbf; x0a; xe8;
  xae; x9e; x0a; xe8; xb2; x9c; x0a; xe8;
  xba; xa9; x0a; xe8; xbb; x89; x0a; xe9;
  x9d; x8b; x0a; xe9; xa1; xb3; x0a; xe9;
  xa1; xb4; x0a; xe9; xa3; x8c; x0a; xe9;
  xa5; xa1; x0a; xe9; xa6; xab; x0a; xe9;
  xa9; xa4; x0a; xe9; xa9; xa6; x0a; xe9;
  xa9; xa7; x0a; xe9; xac; xa4; x0a; xe9;
  xb8; x95; x0a; xe9; xb8; x97; x0a; xe9;
  xbd; x88; x0a; xe6; x88; x87; x0a; xe6;
  xac; x9e; x0a; xe7; x88; xa7; x0a; xe8;
  x99; x8c; x0a; xe8; xba; xa8; x0a; xe9
].
(* tests/test_data/whatwg/big5_whatwg_test_encode_in.txt, entries 72192..72447 *)
Definition big5_encode_in_282 : list byte := [
  x92; x82; x0a; xe9; x92; x80; x0a; xe9;
  x92; x81; x0a; xe9; xa9; xa9; x0a; xe9;
  xa9; xa8; x0a; xe9; xb8; x99; x0a; xe7;
  x88; xa9; x0a; xe8; x99; x8b; x0a; xe8;
  xae; x9f; x0a; xe9; x92; x83; x0a; xe9;
  xb1; xb9; x0a; xe9; xba; xb7; x0a; xe7;
  x99; xb5; x0a; xe9; xa9; xab; x0a; xe9;
  xb1; xba; x0a; xe9; xb8; x9d; x0a; xe7;
  x81; xa9; x0a; xe7; x81; xaa; x0a; xe9;
  xba; xa4; x0a; xe9; xbd; xbe; x0a; xe9;
  xbd; x89; x0a; xe9; xbe; x98; x0a; xe7;
  xa2; x81; x0a; xe8; xa3; x8f; x0a; xe5;
  xa2; xbb; x0a; xe6; x81; x92; x0a; xe7;
  xb2; xa7; x0a; xe5; xab; xba; x0a; xe2;
  x95; x94; x0a; xe2; x95; xa6; x0a; xe2;
  x95; x97; x0a; xe2; x95; xa0; x0a; xe2;
  x95; xac; x0a; xe2; x95; xa3; x0a; xe2;
  x95; x9a; x0a; xe2; x95; xa9; x0a; xe2;
  x95; x9d; x0a; xe2; x95; x92; x0a; xe2;
  x95; xa4; x0a; xe2; x95; x95; x0a; xe2;
  x95; x9e; x0a; xe2; x95; xaa; x0a; xe2;
  x95; xa1; x0a; xe2; x95; x98; x0a; xe2;
  x95; xa7; x0a; xe2; x95; x9b; x0a; xe2;
  x95; x93; x0a; xe2; x95; xa5; x0a; xe2;
  x95; x96; x0a; xe2; x95; x9f; x0a; xe2;
  x95; xab; x0a; xe2; x95; xa2; x0a; xe2;
  x95; x99; x0a; xe2; x95; xa8; x0a; xe2;
  x95; x9c; x0a; xe2; x95; x91; x0a; xe2;
  x95; x90; x0a; xef; xbf; xad; x0a; xf0;
  xa0; x95; x87; x0a; xe9; x8b; x9b; x0a;
  xf0; xa0; x97; x9f; x0a; xf0; xa3; xbf;
  x85; x0a; xe8; x95; x8c; x0a; xe4; x8a
].
(* tests/test_data/whatwg/big5_whatwg_test_encode_in.txt, entries 72448..72703 *)
Definition big5_encode_in_283 : list byte := [
  xb5; x0a; xe7; x8f; xaf; x0a; xe5; x86;
  xb5; x0a; xe3; x99; x89; x0a; xf0; xa4;
  xa5; x82; x0a; xf0; xa8; xa7; xa4; x0a;
  xe9; x8d; x84; x0a; xf0; xa1; xa7; x9b;
  x0a; xe8; x8b; xae; x0a; xf0; xa3; xb3;
  x88; x0a; xe7; xa0; xbc; x0a; xe6; x9d;
  x84; x0a; xe6; x8b; x9f; x0a; xf0; xa4;
  xa4; xb3; x0a; xf0; xa8; xa6; xaa; x0a;
  xf0; xa0; x8a; xa0; x0a; xf0; xa6; xae;
  xb3; x0a; xf0; xa1; x8c; x85; x0a; xe4;
  xbe; xab; x0a; xf0; xa2; x93; xad; x0a;
  xe5; x80; x88; x0a; xf0; xa6; xb4; xa9;
  x0a; xf0; xa7; xaa; x84; x0a; xf0; xa3;
  x98; x80; x0a; xf0; xa4; xaa; xb1; x0a;
  xf0; xa2; x94; x93; x0a; xf0; xa0; x8d;
  xbe; x0a; xe5; xbe; xa4; x0a; xf0; xa0;
  x8e; x80; x0a; xf0; xa0; x8d; x87; x0a;
  xe6; xbb; x9b; x0a; xf0; xa0; x90; x9f;
  x0a; xe5; x84; x81; x0a; xe3; x91; xba;
  x0a; xe5; x84; x8e; x0a; xe9; xa1; xac;
  x0a; xe3; x9d; x83; x0a; xe8; x90; x96;
  x0a; xf0; xa4; xa6; xa4; x0a; xf0; xa0;
  x92; x87; x0a; xe5; x85; xa0; x0a; xf0;
  xa3; x8e; xb4; x0a; xe5; x85; xaa; x0a;
  xf0; xa0; xaf; xbf; x0a; xf0; xa2; x83;
  xbc; x0a; xf0; xa0; x8b; xa5; x0a; xf0;
  xa2; x94; xb0; x0a; xf0; xa0; x96; x8e;
  x0a; xf0; xa3; x88; xb3; x0a; xf0; xa1;
  xa6; x83; x0a; xe5; xae; x82; x0a; xe8;
  x9d; xbd; x0a; xf0; xa0; x96; xb3; x0a;
  xf0; xa3; xb2; x99; x0a; xe5; x86; xb2;
  x0a; xe5; x86; xb8; x0a; xe9; xb4; xb4
].
(* tests/test_data/whatwg/big5_whatwg_test_encode_in.txt, entries 72704..72959 *)
Definition big5_encode_in_284 : list byte := [
  x0a; xe5; x87; x89; x0a; xe5; x87; x8f;
  x0a; xe5; x87; x91; x0a; xe3; xb3; x9c;
  x0a; xe5; x87; x93; x0a; xf0; xa4; xaa;
  xa6; x0a; xe5; x86; xb3; x0a; xe5; x87;
  xa2; x0a; xe5; x8d; x82; x0a; xe5; x87;
  xad; x0a; xe8; x8f; x8d; x0a; xe6; xa4;
  xbe; x0a; xf0; xa3; x9c; xad; x0a; xe5;
  xbd; xbb; x0a; xe5; x88; x8b; x0a; xe5;
  x88; xa6; x0a; xe5; x88; xbc; x0a; xe5;
  x8a; xb5; x0a; xe5; x89; x97; x0a; xe5;
  x8a; x94; x0a; xe5; x8a; xb9; x0a; xe5;
  x8b; x85; x0a; xe7; xb0; x95; x0a; xe8;
  x95; x82; x0a; xe5; x8b; xa0; x0a; xe8;
  x98; x8d; x0a; xf0; xa6; xac; x93; x0a;
  xf0; xa8; xab; x9e; x0a; xe5; x95; x89;
  x0a; xe6; xbb; x99; x0a; xf0; xa3; xbe;
  x80; x0a; xf0; xa0; xa5; x94; x0a; xf0;
  xa3; xbf; xac; x0a; xe5; x8c; xb3; x0a;
  xf0; xa0; xaf; xa2; x0a; xe6; xb3; x8b;
  x0a; xf0; xa1; x9c; xa6; x0a; xe6; xa0;
  x9b; x0a; xe7; x8f; x95; x0a; xe6; x81;
  x8a; x0a; xe3; xba; xaa; x0a; xe3; xa3;
  x8c; x0a; xf0; xa1; x9b; xa8; x0a; xe7;
  x87; x9d; x0a; xe4; x92; xa2; x0a; xe5;
  x8d; xad; x0a; xe5; x8d; xb4; x0a; xf0;
  xa8; x9a; xab; x0a; xe5; x8d; xbe; x0a;
  xf0; xa1; x96; x96; x0a; xf0; xa1; x98;
  x93; x0a; xe7; x9f; xa6; x0a; xe5; x8e;
  x93; x0a; xf0; xa8; xaa; x9b; x0a; xe5;
  x8e; xa0; x0a; xe5; x8e; xab; x0a; xe5;
  x8e; xae; x0a; xe7; x8e; xa7; x0a; xf0;
  xa5; x9d; xb2; x0a; xe3; xbd; x99; x0a
].
(* tests/test_data/whatwg/big5_whatwg_test_encode_in.txt, entries 72960..73215 *)
Definition big5_encode_in_285 : list byte := [
  xe7; x8e; x9c; x0a; xe5; x8f; x81; x0a;
  xe5; x8f; x85; x0a; xe6; xb1; x89; x0a;
  xe4; xb9; x89; x0a; xe5; x9f; xbe; x0a;
  xe5; x8f; x99; x0a; xe3; xaa; xab; x0a;
  xf0; xa0; xae; x8f; x0a; xe5; x8f; xa0;
  x0a; xf0; xa3; xbf; xab; x0a; xf0; xa2;
  xb6; xa3; x0a; xe5; x8f; xb6; x0a; xf0;
  xa0; xb1; xb7; x0a; xe5; x90; x93; x0a;
  xe7; x81; xb9; x0a; xe5; x94; xab; x0a;
  xe6; x99; x97; x0a; xe6; xb5; x9b; x0a;
  xe5; x91; xad; x0a; xf0; xa6; xad; x93;
  x0a; xf0; xa0; xb5; xb4; x0a; xe5; x95;
  x9d; x0a; xe5; x92; x8f; x0a; xe5; x92;
  xa4; x0a; xe4; x9e; xa6; x0a; xf0; xa1;
  x9c; x8d; x0a; xf0; xa0; xbb; x9d; x0a;
  xe3; xb6; xb4; x0a; xf0; xa0; xb5; x8d;
  x0a; xf0; xa8; xa6; xbc; x0a; xf0; xa2;
  x9a; x98; x0a; xe5; x95; x87; x0a; xe4;
  xb3; xad; x0a; xe5; x90; xaf; x0a; xe7;
  x90; x97; x0a; xe5; x96; x86; x0a; xe5;
  x96; xa9; x0a; xf0; xa1; xa3; x97; x0a;
  xf0; xa4; x80; xba; x0a; xe4; x95; x92;
  x0a; xf0; xa4; x90; xb5; x0a; xe6; x9a;
  xb3; x0a; xf0; xa1; x82; xb4; x0a; xe5;
  x98; xb7; x0a; xe6; x9b; x8d; x0a; xf0;
  xa3; x8a; x8a; x0a; xe6; x9a; xa4; x0a;
  xe6; x9a; xad; x0a; xe5; x99; x8d; x0a;
  xe5; x99; x8f; x0a; xe7; xa3; xb1; x0a;
  xe5; x9b; xb1; x0a; xe9; x9e; x87; x0a;
  xe5; x8f; xbe; x0a; xe5; x9c; x80; x0a;
  xe5; x9b; xaf; x0a; xe5; x9b; xad; x0a;
  xf0; xa8; xad; xa6; x0a; xe3; x98; xa3
].
(* tests/test_data/whatwg/big5_whatwg_test_encode_in.txt, entries 73216..73471 *)
Definition big5_encode_in_286 : list byte := [
  x0a; xf0; xa1; x89; x8f; x0a; xe5; x9d;
  x86; x0a; xf0; xa4; x86; xa5; x0a; xe6;
  xb1; xae; x0a; xe7; x82; x8b; x0a; xe5;
  x9d; x82; x0a; xe3; x9a; xb1; x0a; xf0;
  xa6; xb1; xbe; x0a; xe5; x9f; xa6; x0a;
  xf0; xa1; x90; x96; x0a; xe5; xa0; x83;
  x0a; xf0; xa1; x91; x94; x0a; xf0; xa4;
  x8d; xa3; x0a; xe5; xa0; xa6; x0a; xf0;
  xa4; xaf; xb5; x0a; xe5; xa1; x9c; x0a;
  xe5; xa2; xaa; x0a; xe3; x95; xa1; x0a;
  xe5; xa3; xa0; x0a; xe5; xa3; x9c; x0a;
  xf0; xa1; x88; xbc; x0a; xe5; xa3; xbb;
  x0a; xe5; xaf; xbf; x0a; xe5; x9d; x83;
  x0a; xf0; xaa; x85; x90; x0a; xf0; xa4;
  x89; xb8; x0a; xe9; x8f; x93; x0a; xe3;
  x96; xa1; x0a; xe5; xa4; x9f; x0a; xe6;
  xa2; xa6; x0a; xe3; x9b; x83; x0a; xe6;
  xb9; x99; x0a; xf0; xa1; x98; xbe; x0a;
  xe5; xa8; xa4; x0a; xe5; x95; x93; x0a;
  xf0; xa1; x9a; x92; x0a; xe8; x94; x85;
  x0a; xe5; xa7; x89; x0a; xf0; xa0; xb5;
  x8e; x0a; xf0; xa6; xb2; x81; x0a; xf0;
  xa6; xb4; xaa; x0a; xf0; xa1; x9f; x9c;
  x0a; xe5; xa7; x99; x0a; xf0; xa1; x9f;
  xbb; x0a; xf0; xa1; x9e; xb2; x0a; xf0;
  xa6; xb6; xa6; x0a; xe6; xb5; xb1; x0a;
  xf0; xa1; xa0; xa8; x0a; xf0; xa1; x9b;
  x95; x0a; xe5; xa7; xb9; x0a; xf0; xa6;
  xb9; x85; x0a; xe5; xaa; xab; x0a; xe5;
  xa9; xa3; x0a; xe3; x9b; xa6; x0a; xf0;
  xa4; xa6; xa9; x0a; xe3; x9c; x88; x0a;
  xe5; xaa; x96; x0a; xe7; x91; xa5; x0a
].
(* tests/test_data/whatwg/big5_whatwg_test_encode_in.txt, entries 73472..73727 *)
Definition big5_encode_in_287 : list byte := [
  xe5; xab; x93; x0a; xf0; xa6; xbe; xa1;
  x0a; xf0; xa2; x95; x94; x0a; xe3; xb6;
  x85; x0a; xf0; xa1; xa4; x91; x0a; xe3;
  x9c; xb2; x0a; xf0; xa1; x9a; xb8; x0a;
  xe5; xba; x83; x0a; xe5; x8b; x90; x0a;
  xe5; xad; xb6; x0a; xe6; x96; x88; x0a;
  xe5; xad; xbc; x0a; xf0; xa7; xa8; x8e;
  x0a; xe4; x80; x84; x0a; xe4; xa1; x9d;
  x0a; xf0; xa0; x88; x84; x0a; xe5; xaf;
  x95; x0a; xe6; x85; xa0; x0a; xf0; xa1;
  xa8; xb4; x0a; xf0; xa5; xa7; x8c; x0a;
  xf0; xa0; x96; xa5; x0a; xe5; xaf; xb3;
  x0a; xe5; xae; x9d; x0a; xe4; xb4; x90;
  x0a; xe5; xb0; x85; x0a; xf0; xa1; xad;
  x84; x0a; xe5; xb0; x93; x0a; xe7; x8f;
  x8e; x0a; xe5; xb0; x94; x0a; xf0; xa1;
  xb2; xa5; x0a; xf0; xa6; xac; xa8; x0a;
  xe5; xb1; x89; x0a; xe4; xa3; x9d; x0a;
  xe5; xb2; x85; x0a; xe5; xb3; xa9; x0a;
  xe5; xb3; xaf; x0a; xe5; xb6; x8b; x0a;
  xf0; xa1; xb7; xb9; x0a; xf0; xa1; xb8;
  xb7; x0a; xe5; xb4; x90; x0a; xe5; xb4;
  x98; x0a; xe5; xb5; x86; x0a; xf0; xa1;
  xba; xa4; x0a; xe5; xb2; xba; x0a; xe5;
  xb7; x97; x0a; xe8; x8b; xbc; x0a; xe3;
  xa0; xad; x0a; xf0; xa4; xa4; x81; x0a;
  xf0; xa2; x81; x89; x0a; xf0; xa2; x85;
  xb3; x0a; xe8; x8a; x87; x0a; xe3; xa0;
  xb6; x0a; xe3; xaf; x82; x0a; xe5; xb8;
  xae; x0a; xe6; xaa; x8a; x0a; xe5; xb9;
  xba; x0a; xf0; xa4; x92; xbc; x0a; xf0;
  xa0; xb3; x93; x0a; xe5; x8e; xa6; x0a
].
(* tests/test_data/whatwg/big5_whatwg_test_encode_in.txt, entries 73728..73983 *)
Definition big5_encode_in_288 : list byte := [
  xe4; xba; xb7; x0a; xe5; x8e; xa8; x0a;
  xf0; xa1; x9d; xb1; x0a; xe5; xb8; x89;
  x0a; xf0; xa8; x92; x82; x0a; xe5; xbb;
  xb9; x0a; xe5; xbb; xbb; x0a; xe3; xa2;
  xa0; x0a; xe5; xbb; xbc; x0a; xe6; xa0;
  xbe; x0a; xe9; x90; x9b; x0a; xe5; xbc;
  x8d; x0a; xf0; xa0; x87; x81; x0a; xf0;
  xaf; xa2; x94; x0a; xe3; xab; x9e; x0a;
  xe4; xa2; xae; x0a; xf0; xa1; x8c; xba;
  x0a; xe5; xbc; xba; x0a; xf0; xa6; xa2;
  x88; x0a; xf0; xa2; x8f; x90; x0a; xf0;
  xa2; x91; xb1; x0a; xe5; xbd; xa3; x0a;
  xe9; x9e; xbd; x0a; xf0; xa6; xb9; xae;
  x0a; xe5; xbd; xb2; x0a; xe9; x8d; x80;
  x0a; xf0; xa8; xa8; xb6; x0a; xe5; xbe;
  xa7; x0a; xe5; xb6; xb6; x0a; xe3; xb5;
  x9f; x0a; xf0; xa5; x89; x90; x0a; xf0;
  xa1; xbd; xaa; x0a; xf0; xa7; x83; xb8;
  x0a; xf0; xa2; x99; xa8; x0a; xe9; x87;
  x96; x0a; xf0; xa0; x8a; x9e; x0a; xf0;
  xa8; xa8; xa9; x0a; xe6; x80; xb1; x0a;
  xe6; x9a; x85; x0a; xf0; xa1; xa1; xb7;
  x0a; xe3; xa5; xa3; x0a; xe3; xb7; x87;
  x0a; xe3; x98; xb9; x0a; xe5; x9e; x90;
  x0a; xf0; xa2; x9e; xb4; x0a; xe7; xa5;
  xb1; x0a; xe3; xb9; x80; x0a; xe6; x82;
  x9e; x0a; xe6; x82; xb3; x0a; xf0; xa4;
  xa6; x82; x0a; xf0; xa4; xa6; x8f; x0a;
  xf0; xa7; xa9; x93; x0a; xe7; x92; xa4;
  x0a; xe5; x83; xa1; x0a; xe5; xaa; xa0;
  x0a; xe6; x85; xa4; x0a; xe8; x90; xa4;
  x0a; xe6; x85; x82; x0a; xf0; xaf; xa2
].
(* tests/test_data/whatwg/big5_whatwg_test_encode_in.txt, entries 73984..74239 *)
Definition big5_encode_in_289 : list byte := [
  xa6; x0a; xf0; xa6; xbb; x92; x0a; xe6;
  x86; x81; x0a; xe5; x87; xb4; x0a; xf0;
  xa0; x99; x96; x0a; xe6; x86; x87; x0a;
  xe5; xae; xaa; x0a; xf0; xa3; xbe; xb7;
  x0a; xf0; xa2; xa1; x9f; x0a; xe6; x87;
  x93; x0a; xf0; xa8; xae; x9d; x0a; xf0;
  xa9; xa5; x9d; x0a; xe6; x87; x90; x0a;
  xe3; xa4; xb2; x0a; xf0; xa2; xa6; x80;
  x0a; xf0; xa2; xa3; x81; x0a; xe6; x80;
  xa3; x0a; xe6; x85; x9c; x0a; xe6; x94;
  x9e; x0a; xe6; x8e; x8b; x0a; xf0; xa0;
  x84; x98; x0a; xe6; x8b; x85; x0a; xf0;
  xa1; x9d; xb0; x0a; xe6; x8b; x95; x0a;
  xf0; xa2; xb8; x8d; x0a; xe6; x8d; xac;
  x0a; xf0; xa4; xa7; x9f; x0a; xe3; xa8;
  x97; x0a; xe6; x90; xb8; x0a; xe6; x8f;
  xb8; x0a; xf0; xa1; x8e; x8e; x0a; xf0;
  xa1; x9f; xbc; x0a; xe6; xbe; x8a; x0a;
  xf0; xa2; xb8; xb6; x0a; xe9; xa0; x94;
  x0a; xf0; xa4; x82; x8c; x0a; xf0; xa5;
  x9c; x9d; x0a; xe6; x93; xa1; x0a; xe6;
  x93; xa5; x0a; xe9; x91; xbb; x0a; xe3;
  xa9; xa6; x0a; xe6; x90; xba; x0a; xe3;
  xa9; x97; x0a; xe6; x95; x8d; x0a; xe6;
  xbc; x96; x0a; xf0; xa4; xa8; xa8; x0a;
  xf0; xa4; xa8; xa3; x0a; xe6; x96; x85;
  x0a; xe6; x95; xad; x0a; xe6; x95; x9f;
  x0a; xf0; xa3; x81; xbe; x0a; xe6; x96;
  xb5; x0a; xf0; xa4; xa5; x80; x0a; xe4;
  xac; xb7; x0a; xe6; x97; x91; x0a; xe4;
  x83; x98; x0a; xf0; xa1; xa0; xa9; x0a;
  xe6; x97; xa3; x0a; xe5; xbf; x9f; x0a
].
(* tests/test_data/whatwg/big5_whatwg_test_encode_in.txt, entries 74240..74495 *)
Definition big5_encode_in_290 : list byte := [
  xf0; xa3; x90; x80; x0a; xe6; x98; x98;
  x0a; xf0; xa3; x87; xb7; x0a; xf0; xa3;
  x87; xb8; x0a; xe6; x99; x84; x0a; xf0;
  xa3; x86; xa4; x0a; xf0; xa3; x86; xa5;
  x0a; xe6; x99; x8b; x0a; xf0; xa0; xb9;
  xb5; x0a; xe6; x99; xa7; x0a; xf0; xa5;
  x87; xa6; x0a; xe6; x99; xb3; x0a; xf0;
  xa1; xb8; xbd; x0a; xf0; xa3; x88; xb1;
  x0a; xf0; xa8; x97; xb4; x0a; xf0; xa3;
  x87; x88; x0a; xf0; xa5; x8c; x93; x0a;
  xe7; x9f; x85; x0a; xf0; xa2; xa3; xb7;
  x0a; xe9; xa6; xa4; x0a; xe6; x9c; x82;
  x0a; xf0; xa4; x8e; x9c; x0a; xf0; xa4;
  xa8; xa1; x0a; xe3; xac; xab; x0a; xe6;
  xa7; xba; x0a; xf0; xa3; x9f; x82; x0a;
  xe6; x9d; xa7; x0a; xe6; x9d; xa2; x0a;
  xf0; xa4; x87; x8d; x0a; xf0; xa9; x83;
  xad; x0a; xe6; x9f; x97; x0a; xe4; x93;
  xa9; x0a; xe6; xa0; xa2; x0a; xe6; xb9;
  x90; x0a; xe9; x88; xbc; x0a; xe6; xa0;
  x81; x0a; xf0; xa3; x8f; xa6; x0a; xf0;
  xa6; xb6; xa0; x0a; xe6; xa1; x9d; x0a;
  xf0; xa3; x91; xaf; x0a; xe6; xa7; xa1;
  x0a; xe6; xa8; x8b; x0a; xf0; xa8; xab;
  x9f; x0a; xe6; xa5; xb3; x0a; xe6; xa3;
  x83; x0a; xf0; xa3; x97; x8d; x0a; xe6;
  xa4; x81; x0a; xe6; xa4; x80; x0a; xe3;
  xb4; xb2; x0a; xe3; xa8; x81; x0a; xf0;
  xa3; x98; xbc; x0a; xe3; xae; x80; x0a;
  xe6; x9e; xac; x0a; xe6; xa5; xa1; x0a;
  xf0; xa8; xa9; x8a; x0a; xe4; x8b; xbc;
  x0a; xe6; xa4; xb6; x0a; xe6; xa6; x98
].
(* tests/test_data/whatwg/big5_whatwg_test_encode_in.txt, entries 74496..74751 *)
Definition big5_encode_in_291 : list byte := [
  x0a; xe3; xae; xa1; x0a; xf0; xa0; x8f;
  x89; x0a; xe8; x8d; xa3; x0a; xe5; x82;
  x90; x0a; xe6; xa7; xb9; x0a; xf0; xa3;
  x99; x99; x0a; xf0; xa2; x84; xaa; x0a;
  xe6; xa9; x85; x0a; xf0; xa3; x9c; x83;
  x0a; xe6; xaa; x9d; x0a; xe3; xaf; xb3;
  x0a; xe6; x9e; xb1; x0a; xe6; xab; x88;
  x0a; xf0; xa9; x86; x9c; x0a; xe3; xb0;
  x8d; x0a; xe6; xac; x9d; x0a; xf0; xa0;
  xa4; xa3; x0a; xe6; xac; xb5; x0a; xe6;
  xad; xb4; x0a; xf0; xa2; x9f; x8d; x0a;
  xe6; xba; xb5; x0a; xf0; xa3; xab; x9b;
  x0a; xf0; xa0; x8e; xb5; x0a; xf0; xa1;
  xa5; x98; x0a; xe3; x9d; x80; x0a; xe5;
  x90; xa1; x0a; xf0; xa3; xad; x9a; x0a;
  xe6; xaf; xa1; x0a; xf0; xa3; xbb; xbc;
  x0a; xe6; xaf; x9c; x0a; xe6; xb0; xb7;
  x0a; xf0; xa2; x92; x8b; x0a; xf0; xa4;
  xa3; xb1; x0a; xf0; xa6; xad; x91; x0a;
  xe6; xb1; x9a; x0a; xe8; x88; xa6; x0a;
  xe6; xb1; xb9; x0a; xf0; xa3; xb6; xbc;
  x0a; xe4; x93; x85; x0a; xf0; xa3; xb6;
  xbd; x0a; xf0; xa4; x86; xa4; x0a; xf0;
  xa4; xa4; x8c; x0a; xf0; xa4; xa4; x80;
  x0a; xf0; xa3; xb3; x89; x0a; xe3; x9b;
  xa5; x0a; xe3; xb3; xab; x0a; xf0; xa0;
  xb4; xb2; x0a; xe9; xae; x83; x0a; xf0;
  xa3; x87; xb9; x0a; xf0; xa2; x92; x91;
  x0a; xe7; xbe; x8f; x0a; xe6; xa0; xb7;
  x0a; xf0; xa6; xb4; xa5; x0a; xf0; xa6;
  xb6; xa1; x0a; xf0; xa6; xb7; xab; x0a;
  xe6; xb6; x96; x0a; xe6; xb5; x9c; x0a
].
(* tests/test_data/whatwg/big5_whatwg_test_encode_in.txt, entries 74752..75007 *)
Definition big5_encode_in_292 : list byte := [
  xe6; xb9; xbc; x0a; xe6; xbc; x84; x0a;
  xf0; xa4; xa5; xbf; x0a; xf0; xa4; x82;
  x85; x0a; xf0; xa6; xb9; xb2; x0a; xe8;
  x94; xb3; x0a; xf0; xa6; xbd; xb4; x0a;
  xe5; x87; x87; x0a; xe8; x90; xae; x0a;
  xf0; xa8; xac; xa1; x0a; xf0; xa3; xb8;
  xaf; x0a; xe7; x91; x93; x0a; xf0; xa3;
  xbe; x82; x0a; xe7; xa7; x8c; x0a; xe6;
  xb9; x8f; x0a; xe5; xaa; x91; x0a; xf0;
  xa3; x81; x8b; x0a; xe6; xbf; xb8; x0a;
  xe3; x9c; x8d; x0a; xe6; xbe; x9d; x0a;
  xf0; xa3; xb8; xb0; x0a; xe6; xbb; xba;
  x0a; xf0; xa1; x92; x97; x0a; xf0; xa4;
  x80; xbd; x0a; xe4; x95; x95; x0a; xe9;
  x8f; xb0; x0a; xe6; xbd; x84; x0a; xe6;
  xbd; x9c; x0a; xe3; xb5; x8e; x0a; xe6;
  xbd; xb4; x0a; xf0; xa9; x85; xb0; x0a;
  xe3; xb4; xbb; x0a; xe6; xbe; x9f; x0a;
  xf0; xa4; x85; x84; x0a; xe6; xbf; x93;
  x0a; xf0; xa4; x82; x91; x0a; xf0; xa4;
  x85; x95; x0a; xf0; xa4; x80; xb9; x0a;
  xf0; xa3; xbf; xb0; x0a; xf0; xa3; xbe;
  xb4; x0a; xf0; xa4; x84; xbf; x0a; xe5;
  x87; x9f; x0a; xf0; xa4; x85; x96; x0a;
  xf0; xa4; x85; x97; x0a; xf0; xa4; x85;
  x80; x0a; xf0; xa6; x87; x9d; x0a; xe7;
  x81; x8b; x0a; xe7; x81; xbe; x0a; xe7;
  x82; xa7; x0a; xe7; x82; x81; x0a; xe7;
  x83; x8c; x0a; xe7; x83; x95; x0a; xe7;
  x83; x96; x0a; xe7; x83; x9f; x0a; xe4;
  x84; x84; x0a; xe3; xb7; xa8; x0a; xe7;
  x86; xb4; x0a; xe7; x86; x96; x0a; xf0
].
(* tests/test_data/whatwg/big5_whatwg_test_encode_in.txt, entries 75008..75263 *)
Definition big5_encode_in_293 : list byte := [
  xa4; x89; xb7; x0a; xe7; x84; xab; x0a;
  xe7; x85; x85; x0a; xe5; xaa; x88; x0a;
  xe7; x85; x8a; x0a; xe5; xb2; x9c; x0a;
  xf0; xa4; x8d; xa5; x0a; xe7; x85; x8f;
  x0a; xe9; x8d; xa2; x0a; xf0; xa4; x8b;
  x81; x0a; xe7; x84; xac; x0a; xf0; xa4;
  x91; x9a; x0a; xf0; xa4; xa8; xa7; x0a;
  xf0; xa4; xa8; xa2; x0a; xe7; x86; xba;
  x0a; xf0; xa8; xaf; xa8; x0a; xe7; x82;
  xbd; x0a; xe7; x88; x8e; x0a; xe9; x91;
  x82; x0a; xe7; x88; x95; x0a; xe5; xa4;
  x91; x0a; xe9; x91; x83; x0a; xe7; x88;
  xa4; x0a; xe9; x8d; x81; x0a; xf0; xa5;
  x98; x85; x0a; xe7; x88; xae; x0a; xe7;
  x89; x80; x0a; xf0; xa4; xa5; xb4; x0a;
  xe6; xa2; xbd; x0a; xe7; x89; x95; x0a;
  xe7; x89; x97; x0a; xe3; xb9; x95; x0a;
  xf0; xa3; x81; x84; x0a; xe6; xa0; x8d;
  x0a; xe6; xbc; xbd; x0a; xe7; x8a; x82;
  x0a; xe7; x8c; xab; x0a; xf0; xa4; xa0;
  xa3; x0a; xf0; xa8; xa0; xab; x0a; xe4;
  xa3; xad; x0a; xf0; xa8; xa0; x84; x0a;
  xe7; x8c; xa8; x0a; xe7; x8c; xae; x0a;
  xe7; x8f; x8f; x0a; xe7; x8e; xaa; x0a;
  xf0; xa0; xb0; xba; x0a; xf0; xa6; xa8;
  xae; x0a; xe7; x8f; x89; x0a; xe7; x91;
  x89; x0a; xf0; xa4; x87; xa2; x0a; xf0;
  xa1; x9b; xa7; x0a; xf0; xa4; xa8; xa4;
  x0a; xe6; x98; xa3; x0a; xe3; x9b; x85;
  x0a; xf0; xa4; xa6; xb7; x0a; xf0; xa4;
  xa6; x8d; x0a; xf0; xa4; xa7; xbb; x0a;
  xe7; x8f; xb7; x0a; xe7; x90; x95; x0a
].
(* tests/test_data/whatwg/big5_whatwg_test_encode_in.txt, entries 75264..75519 *)
Definition big5_encode_in_294 : list byte := [
  xe6; xa4; x83; x0a; xf0; xa4; xa8; xa6;
  x0a; xe7; x90; xb9; x0a; xf0; xa0; x97;
  x83; x0a; xe3; xbb; x97; x0a; xf0; xa2;
  xa2; xad; x0a; xe7; x91; xa0; x0a; xf0;
  xa8; xba; xb2; x0a; xe7; x91; x87; x0a;
  xe7; x8f; xa4; x0a; xe7; x91; xb6; x0a;
  xe8; x8e; xb9; x0a; xe7; x91; xac; x0a;
  xe3; x9c; xb0; x0a; xe7; x91; xb4; x0a;
  xe9; x8f; xb1; x0a; xe6; xa8; xac; x0a;
  xe7; x92; x82; x0a; xe4; xa5; x93; x0a;
  xf0; xa4; xaa; x8c; x0a; xf0; xa4; x85;
  x9f; x0a; xf0; xa4; xa9; xb9; x0a; xf0;
  xa8; xae; x8f; x0a; xe5; xad; x86; x0a;
  xf0; xa8; xb0; x83; x0a; xf0; xa1; xa2;
  x9e; x0a; xe7; x93; x88; x0a; xf0; xa1;
  xa6; x88; x0a; xe7; x94; x8e; x0a; xe7;
  x94; x9e; x0a; xf0; xa8; xbb; x99; x0a;
  xf0; xa1; xa9; x8b; x0a; xe5; xaf; x97;
  x0a; xf0; xa8; xba; xac; x0a; xe9; x8e;
  x85; x0a; xe7; x95; x8d; x0a; xe7; x95;
  x8a; x0a; xe7; x95; xa7; x0a; xe7; x95;
  xae; x0a; xf0; xa4; xbe; x82; x0a; xe3;
  xbc; x84; x0a; xf0; xa4; xb4; x93; x0a;
  xe7; x96; x8e; x0a; xe7; x91; x9d; x0a;
  xe7; x96; x9e; x0a; xe7; x96; xb4; x0a;
  xe7; x98; x82; x0a; xe7; x98; xac; x0a;
  xe7; x99; x91; x0a; xe7; x99; x8f; x0a;
  xe7; x99; xaf; x0a; xf0; xa6; x8f; xb5;
  x0a; xe7; x9a; x90; x0a; xe8; x87; xaf;
  x0a; xe3; x9f; xb8; x0a; xf0; xa6; xa4;
  x91; x0a; xf0; xa6; xa4; x8e; x0a; xe7;
  x9a; xa1; x0a; xe7; x9a; xa5; x0a; xe7
].
(* tests/test_data/whatwg/big5_whatwg_test_encode_in.txt, entries 75520..75766 *)
Definition big5_encode_in_295 : list byte := [
  x9a; xb7; x0a; xe7; x9b; x8c; x0a; xf0;
  xa6; xbe; x9f; x0a; xe8; x91; xa2; x0a;
  xf0; xa5; x82; x9d; x0a; xf0; xa5; x85;
  xbd; x0a; xf0; xa1; xb8; x9c; x0a; xe7;
  x9c; x9e; x0a; xe7; x9c; xa6; x0a; xe7;
  x9d; x80; x0a; xe6; x92; xaf; x0a; xf0;
  xa5; x88; xa0; x0a; xe7; x9d; x98; x0a;
  xf0; xa3; x8a; xac; x0a; xe7; x9e; xaf;
  x0a; xf0; xa8; xa5; xa4; x0a; xf0; xa8;
  xa5; xa8; x0a; xf0; xa1; x9b; x81; x0a;
  xe7; x9f; xb4; x0a; xf0; xa1; x8d; xb6;
  x0a; xf0; xa4; xa8; x92; x0a; xe6; xa3;
  x8a; x0a; xe7; xa2; xaf; x0a; xe7; xa3;
  x87; x0a; xe7; xa3; x93; x0a; xe9; x9a;
  xa5; x0a; xe7; xa4; xae; x0a; xf0; xa5;
  x97; xa0; x0a; xe7; xa3; x97; x0a; xe7;
  xa4; xb4; x0a; xe7; xa2; xb1; x0a; xf0;
  xa7; x98; x8c; x0a; xe8; xbe; xb8; x0a;
  xe8; xa2; x84; x0a; xf0; xa8; xac; xab;
  x0a; xf0; xa6; x82; x83; x0a; xf0; xa2;
  x98; x9c; x0a; xe7; xa6; x86; x0a; xe8;
  xa4; x80; x0a; xe6; xa4; x82; x0a; xe7;
  xa6; x80; x0a; xf0; xa5; xa1; x97; x0a;
  xe7; xa6; x9d; x0a; xf0; xa7; xac; xb9;
  x0a; xe7; xa4; xbc; x0a; xe7; xa6; xa9;
  x0a; xe6; xb8; xaa; x0a; xf0; xa7; x84;
  xa6; x0a; xe3; xba; xa8; x0a; xe7; xa7;
  x86; x0a; xf0; xa9; x84; x8d; x0a; xe7;
  xa7; x94; x0a; xc3; x8a; xcc; x84; x0a;
  xc3; x8a; xcc; x8c; x0a; xc3; xaa; xcc;
  x84; x0a; xc3; xaa; xcc; x8c; x0a
].
(* tests/test_data/whatwg/big5_whatwg_test_encode_in.txt: the whole table *)
Definition big5_encode_in : list byte :=
  big5_encode_in_0 ++
  big5_encode_in_1 ++
  big5_encode_in_2 ++
  big5_encode_in_3 ++
  big5_encode_in_4 ++
  big5_encode_in_5 ++
  big5_encode_in_6 ++
  big5_encode_in_7 ++
  big5_encode_in_8 ++
  big5_encode_in_9 ++
  big5_encode_in_10 ++
  big5_encode_in_11 ++
  big5_encode_in_12 ++
  big5_encode_in_13 ++
  big5_encode_in_14 ++
  big5_encode_in_15 ++
  big5_encode_in_16 ++
  big5_encode_in_17 ++
  big5_encode_in_18 ++
  big5_encode_in_19 ++
  big5_encode_in_20 ++
  big5_encode_in_21 ++
  big5_encode_in_22 ++
  big5_encode_in_23 ++
  big5_encode_in_24 ++
  big5_encode_in_25 ++
  big5_encode_in_26 ++
  big5_encode_in_27 ++
  big5_encode_in_28 ++
  big5_encode_in_29 ++
  big5_encode_in_30 ++
  big5_encode_in_31 ++
  big5_encode_in_32 ++
  big5_encode_in_33 ++
  big5_encode_in_34 ++
  big5_encode_in_35 ++
  big5_encode_in_36 ++
  big5_encode_in_37 ++
  big5_encode_in_38 ++
  big5_encode_in_39 ++
  big5_encode_in_40 ++
  big5_encode_in_41 ++
  big5_encode_in_42 ++
  big5_encode_in_43 ++
  big5_encode_in_44 ++
  big5_encode_in_45 ++
  big5_encode_in_46 ++
  big5_encode_in_47 ++
  big5_encode_in_48 ++
  big5_encode_in_49 ++
  big5_encode_in_50 ++
  big5_encode_in_51 ++
  big5_encode_in_52 ++
  big5_encode_in_53 ++
  big5_encode_in_54 ++
  big5_encode_in_55 ++
  big5_encode_in_56 ++
  big5_encode_in_57 ++
  big5_encode_in_58 ++
  big5_encode_in_59 ++
  big5_encode_in_60 ++
  big5_encode_in_61 ++
  big5_encode_in_62 ++
  big5_encode_in_63 ++
  big5_encode_in_64 ++
  big5_encode_in_65 ++
  big5_encode_in_66 ++
  big5_encode_in_67 ++
  big5_encode_in_68 ++
  big5_encode_in_69 ++
  big5_encode_in_70 ++
  big5_encode_in_71 ++
  big5_encode_in_72 ++
  big5_encode_in_73 ++
  big5_encode_in_74 ++
  big5_encode_in_75 ++
  big5_encode_in_76 ++
  big5_encode_in_77 ++
  big5_encode_in_78 ++
  big5_encode_in_79 ++
  big5_encode_in_80 ++
  big5_encode_in_81 ++
  big5_encode_in_82 ++
  big5_encode_in_83 ++
  big5_encode_in_84 ++
  big5_encode_in_85 ++
  big5_encode_in_86 ++
  big5_encode_in_87 ++
  big5_encode_in_88 ++
  big5_encode_in_89 ++
  big5_encode_in_90 ++
  big5_encode_in_91 ++
  big5_encode_in_92 ++
  big5_encode_in_93 ++
  big5_encode_in_94 ++
  big5_encode_in_95 ++
  big5_encode_in_96 ++
  big5_encode_in_97 ++
  big5_encode_in_98 ++
  big5_encode_in_99 ++
  big5_encode_in_100 ++
  big5_encode_in_101 ++
  big5_encode_in_102 ++
  big5_encode_in_103 ++
  big5_encode_in_104 ++
  big5_encode_in_105 ++
  big5_encode_in_106 ++
  big5_encode_in_107 ++
  big5_encode_in_108 ++
  big5_encode_in_109 ++
  big5_encode_in_110 ++
  big5_encode_in_111 ++
  big5_encode_in_112 ++
  big5_encode_in_113 ++
  big5_encode_in_114 ++
  big5_encode_in_115 ++
  big5_encode_in_116 ++
  big5_encode_in_117 ++
  big5_encode_in_118 ++
  big5_encode_in_119 ++
  big5_encode_in_120 ++
  big5_encode_in_121 ++
  big5_encode_in_122 ++
  big5_encode_in_123 ++
  big5_encode_in_124 ++
  big5_encode_in_125 ++
  big5_encode_in_126 ++
  big5_encode_in_127 ++
  big5_encode_in_128 ++
  big5_encode_in_129 ++
  big5_encode_in_130 ++
  big5_encode_in_131 ++
  big5_encode_in_132 ++
  big5_encode_in_133 ++
  big5_encode_in_134 ++
  big5_encode_in_135 ++
  big5_encode_in_136 ++
  big5_encode_in_137 ++
  big5_encode_in_138 ++
  big5_encode_in_139 ++
  big5_encode_in_140 ++
  big5_encode_in_141 ++
  big5_encode_in_142 ++
  big5_encode_in_143 ++
  big5_encode_in_144 ++
  big5_encode_in_145 ++
  big5_encode_in_146 ++
  big5_encode_in_147 ++
  big5_encode_in_148 ++
  big5_encode_in_149 ++
  big5_encode_in_150 ++
  big5_encode_in_151 ++
  big5_encode_in_152 ++
  big5_encode_in_153 ++
  big5_encode_in_154 ++
  big5_encode_in_155 ++
  big5_encode_in_156 ++
  big5_encode_in_157 ++
  big5_encode_in_158 ++
  big5_encode_in_159 ++
  big5_encode_in_160 ++
  big5_encode_in_161 ++
  big5_encode_in_162 ++
  big5_encode_in_163 ++
  big5_encode_in_164 ++
  big5_encode_in_165 ++
  big5_encode_in_166 ++
  big5_encode_in_167 ++
  big5_encode_in_168 ++
  big5_encode_in_169 ++
  big5_encode_in_170 ++
  big5_encode_in_171 ++
  big5_encode_in_172 ++
  big5_encode_in_173 ++
  big5_encode_in_174 ++
  big5_encode_in_175 ++
  big5_encode_in_176 ++
  big5_encode_in_177 ++
  big5_encode_in_178 ++
  big5_encode_in_179 ++
  big5_encode_in_180 ++
  big5_encode_in_181 ++
  big5_encode_in_182 ++
  big5_encode_in_183 ++
  big5_encode_in_184 ++
  big5_encode_in_185 ++
  big5_encode_in_186 ++
  big5_encode_in_187 ++
  big5_encode_in_188 ++
  big5_encode_in_189 ++
  big5_encode_in_190 ++
  big5_encode_in_191 ++
  big5_encode_in_192 ++
  big5_encode_in_193 ++
  big5_encode_in_194 ++
  big5_encode_in_195 ++
  big5_encode_in_196 ++
  big5_encode_in_197 ++
  big5_encode_in_198 ++
  big5_encode_in_199 ++
  big5_encode_in_200 ++
  big5_encode_in_201 ++
  big5_encode_in_202 ++
  big5_encode_in_203 ++
  big5_encode_in_204 ++
  big5_encode_in_205 ++
  big5_encode_in_206 ++
  big5_encode_in_207 ++
  big5_encode_in_208 ++
  big5_encode_in_209 ++
  big5_encode_in_210 ++
  big5_encode_in_211 ++
  big5_encode_in_212 ++
  big5_encode_in_213 ++
  big5_encode_in_214 ++
  big5_encode_in_215 ++
  big5_encode_in_216 ++
  big5_encode_in_217 ++
  big5_encode_in_218 ++
  big5_encode_in_219 ++
  big5_encode_in_220 ++
  big5_encode_in_221 ++
  big5_encode_in_222 ++
  big5_encode_in_223 ++
  big5_encode_in_224 ++
  big5_encode_in_225 ++
  big5_encode_in_226 ++
  big5_encode_in_227 ++
  big5_encode_in_228 ++
  big5_encode_in_229 ++
  big5_encode_in_230 ++
  big5_encode_in_231 ++
  big5_encode_in_232 ++
  big5_encode_in_233 ++
  big5_encode_in_234 ++
  big5_encode_in_235 ++
  big5_encode_in_236 ++
  big5_encode_in_237 ++
  big5_encode_in_238 ++
  big5_encode_in_239 ++
  big5_encode_in_240 ++
  big5_encode_in_241 ++
  big5_encode_in_242 ++
  big5_encode_in_243 ++
  big5_encode_in_244 ++
  big5_encode_in_245 ++
  big5_encode_in_246 ++
  big5_encode_in_247 ++
  big5_encode_in_248 ++
  big5_encode_in_249 ++
  big5_encode_in_250 ++
  big5_encode_in_251 ++
  big5_encode_in_252 ++
  big5_encode_in_253 ++
  big5_encode_in_254 ++
  big5_encode_in_255 ++
  big5_encode_in_256 ++
  big5_encode_in_257 ++
  big5_encode_in_258 ++
  big5_encode_in_259 ++
  big5_encode_in_260 ++
  big5_encode_in_261 ++
  big5_encode_in_262 ++
  big5_encode_in_263 ++
  big5_encode_in_264 ++
  big5_encode_in_265 ++
  big5_encode_in_266 ++
  big5_encode_in_267 ++
  big5_encode_in_268 ++
  big5_encode_in_269 ++
  big5_encode_in_270 ++
  big5_encode_in_271 ++
  big5_encode_in_272 ++
  big5_encode_in_273 ++
  big5_encode_in_274 ++
  big5_encode_in_275 ++
  big5_encode_in_276 ++
  big5_encode_in_277 ++
  big5_encode_in_278 ++
  big5_encode_in_279 ++
  big5_encode_in_280 ++
  big5_encode_in_281 ++
  big5_encode_in_282 ++
  big5_encode_in_283 ++
  big5_encode_in_284 ++
  big5_encode_in_285 ++
  big5_encode_in_286 ++
  big5_encode_in_287 ++
  big5_encode_in_288 ++
  big5_encode_in_289 ++
  big5_encode_in_290 ++
  big5_encode_in_291 ++
  big5_encode_in_292 ++
  big5_encode_in_293 ++
  big5_encode_in_294 ++
  big5_encode_in_295.

(* tests/test_data/whatwg/big5_whatwg_test_encode_out.txt, entries 0..255 *)
Definition big5_encode_out_0 : list byte := [
  x01; x0a; x02; x0a; x03; x0a; x04; x0a;
  x05; x0a; x06; x0a; x07; x0a; x08; x0a;
  x09; x0a; x0a; x0a; x0b; x0a; x0c; x0a;
  x0d; x0a; x0e; x0a; x0f; x0a; x10; x0a;
  x11; x0a; x12; x0a; x13; x0a; x14; x0a;
  x15; x0a; x16; x0a; x17; x0a; x18; x0a;
  x19; x0a; x1a; x0a; x1b; x0a; x1c; x0a;
  x1d; x0a; x1e; x0a; x1f; x0a; x20; x0a;
  x21; x0a; x22; x0a; x23; x0a; x24; x0a;
  x25; x0a; x26; x0a; x27; x0a; x28; x0a;
  x29; x0a; x2a; x0a; x2b; x0a; x2c; x0a;
  x2d; x0a; x2e; x0a; x2f; x0a; x30; x0a;
  x31; x0a; x32; x0a; x33; x0a; x34; x0a;
  x35; x0a; x36; x0a; x37; x0a; x38; x0a;
  x39; x0a; x3a; x0a; x3b; x0a; x3c; x0a;
  x3d; x0a; x3e; x0a; x3f; x0a; x40; x0a;
  x41; x0a; x42; x0a; x43; x0a; x44; x0a;
  x45; x0a; x46; x0a; x47; x0a; x48; x0a;
  x49; x0a; x4a; x0a; x4b; x0a; x4c; x0a;
  x4d; x0a; x4e; x0a; x4f; x0a; x50; x0a;
  x51; x0a; x52; x0a; x53; x0a; x54; x0a;
  x55; x0a; x56; x0a; x57; x0a; x58; x0a;
  x59; x0a; x5a; x0a; x5b; x0a; x5c; x0a;
  x5d; x0a; x5e; x0a; x5f; x0a; x60; x0a;
  x61; x0a; x62; x0a; x63; x0a; x64; x0a;
  x65; x0a; x66; x0a; x67; x0a; x68; x0a;
  x69; x0a; x6a; x0a; x6b; x0a; x6c; x0a;
  x6d; x0a; x6e; x0a; x6f; x0a; x70; x0a;
  x71; x0a; x72; x0a; x73; x0a; x74; x0a;
  x75; x0a; x76; x0a; x77; x0a; x78; x0a;
  x79; x0a; x7a; x0a; x7b; x0a; x7c; x0a;
  x7d; x0a; x7e; x0a; x7f; x0a; x87; x40
].
(* tests/test_data/whatwg/big5_whatwg_test_encode_out.txt, entries 256..511 *)
Definition big5_encode_out_1 : list byte := [
  x0a; x87; x41; x0a; x87; x42; x0a; x87;
  x43; x0a; x87; x44; x0a; x87; x45; x0a;
  x87; x46; x0a; x87; x47; x0a; x87; x48;
  x0a; x87; x49; x0a; x87; x4a; x0a; x87;
  x4b; x0a; x87; x4c; x0a; x87; x4d; x0a;
  x87; x4e; x0a; x87; x4f; x0a; x87; x50;
  x0a; x87; x51; x0a; x87; x52; x0a; x87;
  x53; x0a; x87; x54; x0a; x87; x55; x0a;
  x87; x56; x0a; x87; x57; x0a; x87; x58;
  x0a; x87; x59; x0a; x87; x5a; x0a; x87;
  x5b; x0a; x87; x5c; x0a; x87; x5d; x0a;
  x87; x5e; x0a; x87; x5f; x0a; x87; x60;
  x0a; x87; x61; x0a; x87; x62; x0a; x87;
  x63; x0a; x87; x64; x0a; x87; x65; x0a;
  x87; x67; x0a; x87; x68; x0a; x87; x69;
  x0a; x87; x6a; x0a; x87; x6b; x0a; x87;
  x6c; x0a; x87; x6d; x0a; x87; x6e; x0a;
  x87; x6f; x0a; x87; x70; x0a; x87; x71;
  x0a; x87; x72; x0a; x87; x73; x0a; x87;
  x74; x0a; x87; x75; x0a; x87; x76; x0a;
  x87; x77; x0a; x87; x78; x0a; x87; x79;
  x0a; x87; x7a; x0a; x87; x7b; x0a; x87;
  x7c; x0a; x87; x7d; x0a; x87; x7e; x0a;
  x87; xa1; x0a; x87; xa2; x0a; x87; xa3;
  x0a; x87; xa4; x0a; x87; xa5; x0a; x87;
  xa6; x0a; x87; xa7; x0a; x87; xa8; x0a;
  x87; xa9; x0a; x87; xaa; x0a; x87; xab;
  x0a; x87; xac; x0a; x87; xad; x0a; x87;
  xae; x0a; x87; xaf; x0a; x87; xb0; x0a;
  x87; xb1; x0a; x87; xb2; x0a; x87; xb3;
  x0a; x87; xb4; x0a; x87; xb5; x0a; x87;
  xb6; x0a; x87; xb7; x0a; x87; xb8; x0a
].
(* tests/test_data/whatwg/big5_whatwg_test_encode_out.txt, entries 512..767 *)
Definition big5_encode_out_2 : list byte := [
  x87; xb9; x0a; x87; xba; x0a; x87; xbb;
  x0a; x87; xbc; x0a; x87; xbd; x0a; x87;
  xbe; x0a; x87; xbf; x0a; x87; xc0; x0a;
  x87; xc1; x0a; x87; xc2; x0a; x87; xc3;
  x0a; x87; xc4; x0a; x87; xc5; x0a; x87;
  xc6; x0a; x87; xc7; x0a; x87; xc8; x0a;
  x87; xc9; x0a; x87; xca; x0a; x87; xcb;
  x0a; x87; xcc; x0a; x87; xcd; x0a; x87;
  xce; x0a; x87; xcf; x0a; x87; xd0; x0a;
  x87; xd1; x0a; x87; xd2; x0a; x87; xd3;
  x0a; x87; xd4; x0a; x87; xd5; x0a; x87;
  xd6; x0a; x87; xd7; x0a; x87; xd8; x0a;
  x87; xd9; x0a; x87; xda; x0a; x87; xdb;
  x0a; x87; xdc; x0a; x87; xdd; x0a; x87;
  xde; x0a; x87; xdf; x0a; x88; x40; x0a;
  x88; x41; x0a; x88; x42; x0a; x88; x43;
  x0a; x88; x44; x0a; x88; x45; x0a; x88;
  x46; x0a; x88; x47; x0a; x88; x48; x0a;
  x88; x49; x0a; x88; x4a; x0a; x88; x4b;
  x0a; x88; x4c; x0a; x88; x4d; x0a; x88;
  x4e; x0a; x88; x4f; x0a; x88; x50; x0a;
  x88; x51; x0a; x88; x52; x0a; x88; x53;
  x0a; x88; x54; x0a; x88; x55; x0a; x88;
  x56; x0a; x88; x57; x0a; x88; x58; x0a;
  x88; x59; x0a; x88; x5a; x0a; x88; x5b;
  x0a; x88; x5c; x0a; x88; x5d; x0a; x88;
  x5e; x0a; x88; x5f; x0a; x88; x60; x0a;
  x88; x61; x0a; x88; x63; x0a; x88; x65;
  x0a; x88; x66; x0a; x88; x67; x0a; x88;
  x68; x0a; x88; x69; x0a; x88; x6a; x0a;
  x88; x6b; x0a; x88; x6c; x0a; x88; x6d;
  x0a; x88; x6e; x0a; x88; x6f; x0a; x88
].
(* tests/test_data/whatwg/big5_whatwg_test_encode_out.txt, entries 768..1023 *)
Definition big5_encode_out_3 : list byte := [
  x70; x0a; x88; x71; x0a; x88; x72; x0a;
  x88; x73; x0a; x88; x74; x0a; x88; x75;
  x0a; x88; x76; x0a; x88; x77; x0a; x88;
  x78; x0a; x88; x79; x0a; x88; x7a; x0a;
  x88; x7b; x0a; x88; x7c; x0a; x88; x7d;
  x0a; x88; x7e; x0a; x88; xa1; x0a; x88;
  xa2; x0a; x88; xa4; x0a; x88; xa6; x0a;
  x88; xa7; x0a; x88; xa8; x0a; x88; xa9;
  x0a; x88; xaa; x0a; x89; x40; x0a; x89;
  x41; x0a; x89; x43; x0a; x89; x46; x0a;
  x89; x47; x0a; x89; x48; x0a; x89; x49;
  x0a; x89; x4c; x0a; x89; x4d; x0a; x89;
  x4e; x0a; x89; x4f; x0a; x89; x50; x0a;
  x89; x51; x0a; x89; x52; x0a; x89; x53;
  x0a; x89; x54; x0a; x89; x55; x0a; x89;
  x56; x0a; x89; x57; x0a; x89; x58; x0a;
  x89; x59; x0a; x89; x5a; x0a; x89; x5b;
  x0a; x89; x5c; x0a; x89; x5d; x0a; x89;
  x5e; x0a; x89; x5f; x0a; x89; x60; x0a;
  x89; x61; x0a; x89; x62; x0a; x89; x63;
  x0a; x89; x64; x0a; x89; x65; x0a; x89;
  x66; x0a; x89; x67; x0a; x89; x68; x0a;
  x89; x69; x0a; x89; x6a; x0a; x89; x6b;
  x0a; x89; x6c; x0a; x89; x6d; x0a; x89;
  x6e; x0a; x89; x6f; x0a; x89; x70; x0a;
  x89; x71; x0a; x89; x72; x0a; x89; x73;
  x0a; x89; x74; x0a; x89; x75; x0a; x89;
  x76; x0a; x89; x77; x0a; x89; x78; x0a;
  x89; x79; x0a; x89; x7a; x0a; x89; x7b;
  x0a; x89; x7c; x0a; x89; x7d; x0a; x89;
  x7e; x0a; x89; xa1; x0a; x89; xa2; x0a;
  x89; xa3; x0a; x89; xa4; x0a; x89; xa5
].
(* tests/test_data/whatwg/big5_whatwg_test_encode_out.txt, entries 1024..1279 *)
Definition big5_encode_out_4 : list byte := [
  x0a; x89; xa6; x0a; x89; xab; x0a; x89;
  xac; x0a; x89; xad; x0a; x89; xae; x0a;
  x89; xb0; x0a; x89; xb1; x0a; x89; xb2;
  x0a; x89; xb5; x0a; x89; xb6; x0a; x89;
  xb7; x0a; x89; xb8; x0a; x89; xb9; x0a;
  x89; xba; x0a; x89; xbb; x0a; x89; xbc;
  x0a; x89; xbd; x0a; x89; xbe; x0a; x89;
  xbf; x0a; x89; xc1; x0a; x89; xc2; x0a;
  x89; xc3; x0a; x89; xc5; x0a; x89; xc6;
  x0a; x89; xc7; x0a; x89; xc8; x0a; x89;
  xc9; x0a; x89; xca; x0a; x89; xcb; x0a;
  x89; xcc; x0a; x89; xcd; x0a; x89; xce;
  x0a; x89; xcf; x0a; x89; xd0; x0a; x89;
  xd1; x0a; x89; xd2; x0a; x89; xd3; x0a;
  x89; xd4; x0a; x89; xd5; x0a; x89; xd6;
  x0a; x89; xd7; x0a; x89; xd8; x0a; x89;
  xd9; x0a; x89; xda; x0a; x89; xdb; x0a;
  x89; xdc; x0a; x89; xdd; x0a; x89; xde;
  x0a; x89; xdf; x0a; x89; xe0; x0a; x89;
  xe1; x0a; x89; xe2; x0a; x89; xe3; x0a;
  x89; xe4; x0a; x89; xe5; x0a; x89; xe6;
  x0a; x89; xe7; x0a; x89; xe8; x0a; x89;
  xe9; x0a; x89; xea; x0a; x89; xeb; x0a;
  x89; xec; x0a; x89; xed; x0a; x89; xee;
  x0a; x89; xef; x0a; x89; xf0; x0a; x89;
  xf1; x0a; x89; xf2; x0a; x89; xf3; x0a;
  x89; xf4; x0a; x89; xf5; x0a; x89; xf6;
  x0a; x89; xf7; x0a; x89; xf8; x0a; x89;
  xf9; x0a; x89; xfa; x0a; x89; xfb; x0a;
  x89; xfc; x0a; x89; xfd; x0a; x89; xfe;
  x0a; x8a; x40; x0a; x8a; x41; x0a; x8a;
  x43; x0a; x8a; x44; x0a; x8a; x45; x0a
].
(* tests/test_data/whatwg/big5_whatwg_test_encode_out.txt, entries 1280..1535 *)
Definition big5_encode_out_5 : list byte := [
  x8a; x46; x0a; x8a; x47; x0a; x8a; x48;
  x0a; x8a; x49; x0a; x8a; x4a; x0a; x8a;
  x4b; x0a; x8a; x4c; x0a; x8a; x4d; x0a;
  x8a; x4e; x0a; x8a; x4f; x0a; x8a; x50;
  x0a; x8a; x51; x0a; x8a; x52; x0a; x8a;
  x53; x0a; x8a; x54; x0a; x8a; x55; x0a;
  x8a; x56; x0a; x8a; x57; x0a; x8a; x58;
  x0a; x8a; x59; x0a; x8a; x5a; x0a; x8a;
  x5b; x0a; x8a; x5c; x0a; x8a; x5d; x0a;
  x8a; x5e; x0a; x8a; x5f; x0a; x8a; x60;
  x0a; x8a; x61; x0a; x8a; x62; x0a; x8a;
  x64; x0a; x8a; x65; x0a; x8a; x66; x0a;
  x8a; x67; x0a; x8a; x68; x0a; x8a; x69;
  x0a; x8a; x6a; x0a; x8a; x6b; x0a; x8a;
  x6c; x0a; x8a; x6d; x0a; x8a; x6e; x0a;
  x8a; x6f; x0a; x8a; x70; x0a; x8a; x71;
  x0a; x8a; x72; x0a; x8a; x73; x0a; x8a;
  x74; x0a; x8a; x76; x0a; x8a; x77; x0a;
  x8a; x78; x0a; x8a; x79; x0a; x8a; x7a;
  x0a; x8a; x7b; x0a; x8a; x7c; x0a; x8a;
  x7d; x0a; x8a; x7e; x0a; x8a; xa1; x0a;
  x8a; xa2; x0a; x8a; xa3; x0a; x8a; xa4;
  x0a; x8a; xa5; x0a; x8a; xa6; x0a; x8a;
  xa7; x0a; x8a; xa8; x0a; x8a; xa9; x0a;
  x8a; xaa; x0a; x8a; xac; x0a; x8a; xad;
  x0a; x8a; xae; x0a; x8a; xaf; x0a; x8a;
  xb0; x0a; x8a; xb2; x0a; x8a; xb3; x0a;
  x8a; xb4; x0a; x8a; xb5; x0a; x8a; xb6;
  x0a; x8a; xb7; x0a; x8a; xb8; x0a; x8a;
  xb9; x0a; x8a; xbb; x0a; x8a; xbc; x0a;
  x8a; xbd; x0a; x8a; xbe; x0a; x8a; xbf;
  x0a; x8a; xc0; x0a; x8a; xc1; x0a; x8a
].
(* tests/test_data/whatwg/big5_whatwg_test_encode_out.txt, entries 1536..1791 *)
Definition big5_encode_out_6 : list byte := [
  xc2; x0a; x8a; xc3; x0a; x8a; xc4; x0a;
  x8a; xc5; x0a; x8a; xc6; x0a; x8a; xc7;
  x0a; x8a; xc9; x0a; x8a; xca; x0a; x8a;
  xcb; x0a; x8a; xcc; x0a; x8a; xce; x0a;
  x8a; xcf; x0a; x8a; xd0; x0a; x8a; xd1;
  x0a; x8a; xd2; x0a; x8a; xd3; x0a; x8a;
  xd4; x0a; x8a; xd5; x0a; x8a; xd6; x0a;
  x8a; xd7; x0a; x8a; xd8; x0a; x8a; xd9;
  x0a; x8a; xda; x0a; x8a; xdb; x0a; x8a;
  xdc; x0a; x8a; xdf; x0a; x8a; xe0; x0a;
  x8a; xe1; x0a; x8a; xe2; x0a; x8a; xe3;
  x0a; x8a; xe4; x0a; x8a; xe5; x0a; x8a;
  xe6; x0a; x8a; xe7; x0a; x8a; xe8; x0a;
  x8a; xe9; x0a; x8a; xea; x0a; x8a; xeb;
  x0a; x8a; xec; x0a; x8a; xed; x0a; x8a;
  xee; x0a; x8a; xef; x0a; x8a; xf0; x0a;
  x8a; xf1; x0a; x8a; xf2; x0a; x8a; xf3;
  x0a; x8a; xf4; x0a; x8a; xf6; x0a; x8a;
  xf7; x0a; x8a; xf8; x0a; x8a; xf9; x0a;
  x8a; xfa; x0a; x8a; xfb; x0a; x8a; xfc;
  x0a; x8a; xfd; x0a; x8a; xfe; x0a; x8b;
  x40; x0a; x8b; x41; x0a; x8b; x42; x0a;
  x8b; x43; x0a; x8b; x44; x0a; x8b; x45;
  x0a; x8b; x46; x0a; x8b; x47; x0a; x8b;
  x48; x0a; x8b; x49; x0a; x8b; x4a; x0a;
  x8b; x4b; x0a; x8b; x4c; x0a; x8b; x4d;
  x0a; x8b; x4e; x0a; x8b; x4f; x0a; x8b;
  x50; x0a; x8b; x51; x0a; x8b; x52; x0a;
  x8b; x53; x0a; x8b; x55; x0a; x8b; x56;
  x0a; x8b; x57; x0a; x8b; x58; x0a; x8b;
  x59; x0a; x8b; x5a; x0a; x8b; x5b; x0a;
  x8b; x5c; x0a; x8b; x5d; x0a; x8b; x5e
].
(* tests/test_data/whatwg/big5_whatwg_test_encode_out.txt, entries 1792..2047 *)
Definition big5_encode_out_7 : list byte := [
  x0a; x8b; x5f; x0a; x8b; x60; x0a; x8b;
  x61; x0a; x8b; x62; x0a; x8b; x63; x0a;
  x8b; x64; x0a; x8b; x65; x0a; x8b; x66;
  x0a; x8b; x67; x0a; x8b; x68; x0a; x8b;
  x69; x0a; x8b; x6a; x0a; x8b; x6b; x0a;
  x8b; x6c; x0a; x8b; x6d; x0a; x8b; x6e;
  x0a; x8b; x6f; x0a; x8b; x70; x0a; x8b;
  x71; x0a; x8b; x72; x0a; x8b; x73; x0a;
  x8b; x74; x0a; x8b; x75; x0a; x8b; x76;
  x0a; x8b; x77; x0a; x8b; x78; x0a; x8b;
  x79; x0a; x8b; x7a; x0a; x8b; x7b; x0a;
  x8b; x7c; x0a; x8b; x7d; x0a; x8b; x7e;
  x0a; x8b; xa1; x0a; x8b; xa2; x0a; x8b;
  xa3; x0a; x8b; xa4; x0a; x8b; xa5; x0a;
  x8b; xa6; x0a; x8b; xa7; x0a; x8b; xa8;
  x0a; x8b; xa9; x0a; x8b; xaa; x0a; x8b;
  xab; x0a; x8b; xac; x0a; x8b; xad; x0a;
  x8b; xae; x0a; x8b; xaf; x0a; x8b; xb0;
  x0a; x8b; xb1; x0a; x8b; xb2; x0a; x8b;
  xb3; x0a; x8b; xb4; x0a; x8b; xb5; x0a;
  x8b; xb6; x0a; x8b; xb7; x0a; x8b; xb8;
  x0a; x8b; xb9; x0a; x8b; xba; x0a; x8b;
  xbb; x0a; x8b; xbc; x0a; x8b; xbd; x0a;
  x8b; xbe; x0a; x8b; xbf; x0a; x8b; xc0;
  x0a; x8b; xc1; x0a; x8b; xc2; x0a; x8b;
  xc3; x0a; x8b; xc4; x0a; x8b; xc5; x0a;
  x8b; xc6; x0a; x8b; xc7; x0a; x8b; xc8;
  x0a; x8b; xc9; x0a; x8b; xca; x0a; x8b;
  xcb; x0a; x8b; xcc; x0a; x8b; xcd; x0a;
  x8b; xce; x0a; x8b; xcf; x0a; x8b; xd0;
  x0a; x8b; xd1; x0a; x8b; xd2; x0a; x8b;
  xd3; x0a; x8b; xd4; x0a; x8b; xd5; x0a
].
(* tests/test_data/whatwg/big5_whatwg_test_encode_out.txt, entries 2048..2303 *)
Definition big5_encode_out_8 : list byte := [
  x8b; xd6; x0a; x8b; xd7; x0a; x8b; xd8;
  x0a; x8b; xd9; x0a; x8b; xda; x0a; x8b;
  xdb; x0a; x8b; xdc; x0a; x8b; xde; x0a;
  x8b; xdf; x0a; x8b; xe0; x0a; x8b; xe1;
  x0a; x8b; xe2; x0a; x8b; xe3; x0a; x8b;
  xe4; x0a; x8b; xe5; x0a; x8b; xe6; x0a;
  x8b; xe7; x0a; x8b; xe8; x0a; x8b; xe9;
  x0a; x8b; xea; x0a; x8b; xeb; x0a; x8b;
  xec; x0a; x8b; xed; x0a; x8b; xee; x0a;
  x8b; xef; x0a; x8b; xf0; x0a; x8b; xf1;
  x0a; x8b; xf2; x0a; x8b; xf3; x0a; x8b;
  xf4; x0a; x8b; xf5; x0a; x8b; xf6; x0a;
  x8b; xf7; x0a; x8b; xf8; x0a; x8b; xf9;
  x0a; x8b; xfa; x0a; x8b; xfb; x0a; x8b;
  xfc; x0a; x8b; xfd; x0a; x8c; x40; x0a;
  x8c; x41; x0a; x8c; x42; x0a; x8c; x43;
  x0a; x8c; x44; x0a; x8c; x45; x0a; x8c;
  x46; x0a; x8c; x47; x0a; x8c; x48; x0a;
  x8c; x49; x0a; x8c; x4a; x0a; x8c; x4b;
  x0a; x8c; x4c; x0a; x8c; x4d; x0a; x8c;
  x4e; x0a; x8c; x4f; x0a; x8c; x50; x0a;
  x8c; x51; x0a; x8c; x52; x0a; x8c; x53;
  x0a; x8c; x54; x0a; x8c; x55; x0a; x8c;
  x56; x0a; x8c; x57; x0a; x8c; x58; x0a;
  x8c; x59; x0a; x8c; x5a; x0a; x8c; x5b;
  x0a; x8c; x5c; x0a; x8c; x5d; x0a; x8c;
  x5e; x0a; x8c; x5f; x0a; x8c; x60; x0a;
  x8c; x61; x0a; x8c; x62; x0a; x8c; x63;
  x0a; x8c; x64; x0a; x8c; x65; x0a; x8c;
  x66; x0a; x8c; x67; x0a; x8c; x68; x0a;
  x8c; x69; x0a; x8c; x6a; x0a; x8c; x6b;
  x0a; x8c; x6c; x0a; x8c; x6d; x0a; x8c
].
(* tests/test_data/whatwg/big5_whatwg_test_encode_out.txt, entries 2304..2559 *)
Definition big5_encode_out_9 : list byte := [
  x6e; x0a; x8c; x6f; x0a; x8c; x70; x0a;
  x8c; x71; x0a; x8c; x72; x0a; x8c; x73;
  x0a; x8c; x74; x0a; x8c; x75; x0a; x8c;
  x76; x0a; x8c; x77; x0a; x8c; x78; x0a;
  x8c; x79; x0a; x8c; x7a; x0a; x8c; x7b;
  x0a; x8c; x7c; x0a; x8c; x7d; x0a; x8c;
  x7e; x0a; x8c; xa1; x0a; x8c; xa2; x0a;
  x8c; xa3; x0a; x8c; xa4; x0a; x8c; xa5;
  x0a; x8c; xa7; x0a; x8c; xa8; x0a; x8c;
  xa9; x0a; x8c; xaa; x0a; x8c; xab; x0a;
  x8c; xac; x0a; x8c; xad; x0a; x8c; xae;
  x0a; x8c; xaf; x0a; x8c; xb0; x0a; x8c;
  xb1; x0a; x8c; xb2; x0a; x8c; xb3; x0a;
  x8c; xb4; x0a; x8c; xb5; x0a; x8c; xb6;
  x0a; x8c; xb7; x0a; x8c; xb8; x0a; x8c;
  xb9; x0a; x8c; xba; x0a; x8c; xbb; x0a;
  x8c; xbc; x0a; x8c; xbd; x0a; x8c; xbe;
  x0a; x8c; xbf; x0a; x8c; xc0; x0a; x8c;
  xc1; x0a; x8c; xc2; x0a; x8c; xc3; x0a;
  x8c; xc4; x0a; x8c; xc5; x0a; x8c; xc9;
  x0a; x8c; xca; x0a; x8c; xcb; x0a; x8c;
  xcc; x0a; x8c; xce; x0a; x8c; xcf; x0a;
  x8c; xd0; x0a; x8c; xd1; x0a; x8c; xd2;
  x0a; x8c; xd3; x0a; x8c; xd4; x0a; x8c;
  xd5; x0a; x8c; xd6; x0a; x8c; xd7; x0a;
  x8c; xd8; x0a; x8c; xd9; x0a; x8c; xda;
  x0a; x8c; xdb; x0a; x8c; xdc; x0a; x8c;
  xdd; x0a; x8c; xde; x0a; x8c; xdf; x0a;
  x8c; xe0; x0a; x8c; xe1; x0a; x8c; xe2;
  x0a; x8c; xe3; x0a; x8c; xe4; x0a; x8c;
  xe6; x0a; x8c; xe7; x0a; x8c; xe8; x0a;
  x8c; xe9; x0a; x8c; xea; x0a; x8c; xeb
].
(* tests/test_data/whatwg/big5_whatwg_test_encode_out.txt, entries 2560..2815 *)
Definition big5_encode_out_10 : list byte := [
  x0a; x8c; xec; x0a; x8c; xed; x0a; x8c;
  xee; x0a; x8c; xef; x0a; x8c; xf0; x0a;
  x8c; xf1; x0a; x8c; xf2; x0a; x8c; xf3;
  x0a; x8c; xf4; x0a; x8c; xf5; x0a; x8c;
  xf6; x0a; x8c; xf7; x0a; x8c; xf8; x0a;
  x8c; xf9; x0a; x8c; xfa; x0a; x8c; xfb;
  x0a; x8c; xfc; x0a; x8c; xfd; x0a; x8c;
  xfe; x0a; x8d; x40; x0a; x8d; x42; x0a;
  x8d; x43; x0a; x8d; x44; x0a; x8d; x45;
  x0a; x8d; x46; x0a; x8d; x47; x0a; x8d;
  x48; x0a; x8d; x49; x0a; x8d; x4a; x0a;
  x8d; x4b; x0a; x8d; x4c; x0a; x8d; x4d;
  x0a; x8d; x4e; x0a; x8d; x4f; x0a; x8d;
  x50; x0a; x8d; x51; x0a; x8d; x52; x0a;
  x8d; x53; x0a; x8d; x54; x0a; x8d; x55;
  x0a; x8d; x56; x0a; x8d; x57; x0a; x8d;
  x58; x0a; x8d; x59; x0a; x8d; x5a; x0a;
  x8d; x5b; x0a; x8d; x5c; x0a; x8d; x5d;
  x0a; x8d; x5e; x0a; x8d; x5f; x0a; x8d;
  x60; x0a; x8d; x61; x0a; x8d; x62; x0a;
  x8d; x63; x0a; x8d; x64; x0a; x8d; x65;
  x0a; x8d; x66; x0a; x8d; x67; x0a; x8d;
  x68; x0a; x8d; x69; x0a; x8d; x6a; x0a;
  x8d; x6b; x0a; x8d; x6c; x0a; x8d; x6d;
  x0a; x8d; x6e; x0a; x8d; x6f; x0a; x8d;
  x70; x0a; x8d; x71; x0a; x8d; x72; x0a;
  x8d; x73; x0a; x8d; x74; x0a; x8d; x75;
  x0a; x8d; x76; x0a; x8d; x77; x0a; x8d;
  x78; x0a; x8d; x79; x0a; x8d; x7a; x0a;
  x8d; x7b; x0a; x8d; x7c; x0a; x8d; x7d;
  x0a; x8d; x7e; x0a; x8d; xa1; x0a; x8d;
  xa2; x0a; x8d; xa3; x0a; x8d; xa4; x0a
].
(* tests/test_data/whatwg/big5_whatwg_test_encode_out.txt, entries 2816..3071 *)
Definition big5_encode_out_11 : list byte := [
  x8d; xa5; x0a; x8d; xa6; x0a; x8d; xa7;
  x0a; x8d; xa8; x0a; x8d; xa9; x0a; x8d;
  xaa; x0a; x8d; xab; x0a; x8d; xac; x0a;
  x8d; xad; x0a; x8d; xae; x0a; x8d; xaf;
  x0a; x8d; xb0; x0a; x8d; xb1; x0a; x8d;
  xb2; x0a; x8d; xb3; x0a; x8d; xb4; x0a;
  x8d; xb5; x0a; x8d; xb6; x0a; x8d; xb7;
  x0a; x8d; xb8; x0a; x8d; xb9; x0a; x8d;
  xba; x0a; x8d; xbb; x0a; x8d; xbc; x0a;
  x8d; xbd; x0a; x8d; xbe; x0a; x8d; xbf;
  x0a; x8d; xc0; x0a; x8d; xc1; x0a; x8d;
  xc2; x0a; x8d; xc3; x0a; x8d; xc4; x0a;
  x8d; xc5; x0a; x8d; xc6; x0a; x8d; xc7;
  x0a; x8d; xc8; x0a; x8d; xc9; x0a; x8d;
  xca; x0a; x8d; xcb; x0a; x8d; xcc; x0a;
  x8d; xcd; x0a; x8d; xce; x0a; x8d; xcf;
  x0a; x8d; xd0; x0a; x8d; xd1; x0a; x8d;
  xd2; x0a; x8d; xd3; x0a; x8d; xd4; x0a;
  x8d; xd5; x0a; x8d; xd6; x0a; x8d; xd7;
  x0a; x8d; xd8; x0a; x8d; xd9; x0a; x8d;
  xda; x0a; x8d; xdb; x0a; x8d; xdc; x0a;
  x8d; xdd; x0a; x8d; xde; x0a; x8d; xdf;
  x0a; x8d; xe0; x0a; x8d; xe1; x0a; x8d;
  xe2; x0a; x8d; xe3; x0a; x8d; xe4; x0a;
  x8d; xe5; x0a; x8d; xe6; x0a; x8d; xe7;
  x0a; x8d; xe8; x0a; x8d; xe9; x0a; x8d;
  xea; x0a; x8d; xeb; x0a; x8d; xec; x0a;
  x8d; xed; x0a; x8d; xee; x0a; x8d; xef;
  x0a; x8d; xf0; x0a; x8d; xf1; x0a; x8d;
  xf2; x0a; x8d; xf3; x0a; x8d; xf4; x0a;
  x8d; xf5; x0a; x8d; xf6; x0a; x8d; xf7;
  x0a; x8d; xf8; x0a; x8d; xf9; x0a; x8d
].
(* tests/test_data/whatwg/big5_whatwg_test_encode_out.txt, entries 3072..3327 *)
Definition big5_encode_out_12 : list byte := [
  xfa; x0a; x8d; xfb; x0a; x8d; xfc; x0a;
  x8d; xfd; x0a; x8d; xfe; x0a; x8e; x40;
  x0a; x8e; x41; x0a; x8e; x42; x0a; x8e;
  x43; x0a; x8e; x44; x0a; x8e; x45; x0a;
  x8e; x46; x0a; x8e; x47; x0a; x8e; x48;
  x0a; x8e; x49; x0a; x8e; x4a; x0a; x8e;
  x4b; x0a; x8e; x4c; x0a; x8e; x4d; x0a;
  x8e; x4e; x0a; x8e; x4f; x0a; x8e; x50;
  x0a; x8e; x51; x0a; x8e; x52; x0a; x8e;
  x53; x0a; x8e; x54; x0a; x8e; x55; x0a;
  x8e; x56; x0a; x8e; x57; x0a; x8e; x58;
  x0a; x8e; x59; x0a; x8e; x5a; x0a; x8e;
  x5b; x0a; x8e; x5c; x0a; x8e; x5d; x0a;
  x8e; x5e; x0a; x8e; x5f; x0a; x8e; x60;
  x0a; x8e; x61; x0a; x8e; x62; x0a; x8e;
  x63; x0a; x8e; x64; x0a; x8e; x65; x0a;
  x8e; x66; x0a; x8e; x67; x0a; x8e; x68;
  x0a; x8e; x69; x0a; x8e; x6a; x0a; x8e;
  x6b; x0a; x8e; x6c; x0a; x8e; x6d; x0a;
  x8e; x6e; x0a; x8e; x6f; x0a; x8e; x70;
  x0a; x8e; x71; x0a; x8e; x72; x0a; x8e;
  x73; x0a; x8e; x74; x0a; x8e; x75; x0a;
  x8e; x76; x0a; x8e; x77; x0a; x8e; x78;
  x0a; x8e; x79; x0a; x8e; x7a; x0a; x8e;
  x7b; x0a; x8e; x7c; x0a; x8e; x7d; x0a;
  x8e; x7e; x0a; x8e; xa1; x0a; x8e; xa2;
  x0a; x8e; xa3; x0a; x8e; xa4; x0a; x8e;
  xa5; x0a; x8e; xa6; x0a; x8e; xa7; x0a;
  x8e; xa8; x0a; x8e; xa9; x0a; x8e; xaa;
  x0a; x8e; xab; x0a; x8e; xac; x0a; x8e;
  xad; x0a; x8e; xae; x0a; x8e; xaf; x0a;
  x8e; xb0; x0a; x8e; xb1; x0a; x8e; xb2
].
(* tests/test_data/whatwg/big5_whatwg_test_encode_out.txt, entries 3328..3583 *)
Definition big5_encode_out_13 : list byte := [
  x0a; x8e; xb3; x0a; x8e; xb4; x0a; x8e;
  xb5; x0a; x8e; xb6; x0a; x8e; xb7; x0a;
  x8e; xb8; x0a; x8e; xb9; x0a; x8e; xba;
  x0a; x8e; xbb; x0a; x8e; xbc; x0a; x8e;
  xbd; x0a; x8e; xbe; x0a; x8e; xbf; x0a;
  x8e; xc0; x0a; x8e; xc1; x0a; x8e; xc2;
  x0a; x8e; xc3; x0a; x8e; xc4; x0a; x8e;
  xc5; x0a; x8e; xc6; x0a; x8e; xc7; x0a;
  x8e; xc8; x0a; x8e; xc9; x0a; x8e; xca;
  x0a; x8e; xcb; x0a; x8e; xcc; x0a; x8e;
  xcd; x0a; x8e; xce; x0a; x8e; xcf; x0a;
  x8e; xd0; x0a; x8e; xd1; x0a; x8e; xd2;
  x0a; x8e; xd3; x0a; x8e; xd4; x0a; x8e;
  xd5; x0a; x8e; xd6; x0a; x8e; xd7; x0a;
  x8e; xd8; x0a; x8e; xd9; x0a; x8e; xda;
  x0a; x8e; xdb; x0a; x8e; xdc; x0a; x8e;
  xdd; x0a; x8e; xde; x0a; x8e; xdf; x0a;
  x8e; xe0; x0a; x8e; xe1; x0a; x8e; xe2;
  x0a; x8e; xe3; x0a; x8e; xe4; x0a; x8e;
  xe5; x0a; x8e; xe6; x0a; x8e; xe7; x0a;
  x8e; xe8; x0a; x8e; xe9; x0a; x8e; xea;
  x0a; x8e; xeb; x0a; x8e; xec; x0a; x8e;
  xed; x0a; x8e; xee; x0a; x8e; xef; x0a;
  x8e; xf0; x0a; x8e; xf1; x0a; x8e; xf2;
  x0a; x8e; xf3; x0a; x8e; xf4; x0a; x8e;
  xf5; x0a; x8e; xf6; x0a; x8e; xf7; x0a;
  x8e; xf8; x0a; x8e; xf9; x0a; x8e; xfa;
  x0a; x8e; xfb; x0a; x8e; xfc; x0a; x8e;
  xfd; x0a; x8e; xfe; x0a; x8f; x40; x0a;
  x8f; x41; x0a; x8f; x42; x0a; x8f; x43;
  x0a; x8f; x44; x0a; x8f; x45; x0a; x8f;
  x46; x0a; x8f; x47; x0a; x8f; x48; x0a
].
(* tests/test_data/whatwg/big5_whatwg_test_encode_out.txt, entries 3584..3839 *)
Definition big5_encode_out_14 : list byte := [
  x8f; x49; x0a; x8f; x4a; x0a; x8f; x4b;
  x0a; x8f; x4c; x0a; x8f; x4d; x0a; x8f;
  x4e; x0a; x8f; x4f; x0a; x8f; x50; x0a;
  x8f; x51; x0a; x8f; x52; x0a; x8f; x53;
  x0a; x8f; x54; x0a; x8f; x55; x0a; x8f;
  x56; x0a; x8f; x57; x0a; x8f; x58; x0a;
  x8f; x59; x0a; x8f; x5a; x0a; x8f; x5b;
  x0a; x8f; x5c; x0a; x8f; x5d; x0a; x8f;
  x5e; x0a; x8f; x5f; x0a; x8f; x60; x0a;
  x8f; x61; x0a; x8f; x62; x0a; x8f; x63;
  x0a; x8f; x64; x0a; x8f; x65; x0a; x8f;
  x66; x0a; x8f; x67; x0a; x8f; x68; x0a;
  x8f; x69; x0a; x8f; x6a; x0a; x8f; x6b;
  x0a; x8f; x6c; x0a; x8f; x6d; x0a; x8f;
  x6e; x0a; x8f; x6f; x0a; x8f; x70; x0a;
  x8f; x71; x0a; x8f; x72; x0a; x8f; x73;
  x0a; x8f; x74; x0a; x8f; x75; x0a; x8f;
  x76; x0a; x8f; x77; x0a; x8f; x78; x0a;
  x8f; x79; x0a; x8f; x7a; x0a; x8f; x7b;
  x0a; x8f; x7c; x0a; x8f; x7d; x0a; x8f;
  x7e; x0a; x8f; xa1; x0a; x8f; xa2; x0a;
  x8f; xa3; x0a; x8f; xa4; x0a; x8f; xa5;
  x0a; x8f; xa6; x0a; x8f; xa7; x0a; x8f;
  xa8; x0a; x8f; xa9; x0a; x8f; xaa; x0a;
  x8f; xab; x0a; x8f; xac; x0a; x8f; xad;
  x0a; x8f; xae; x0a; x8f; xaf; x0a; x8f;
  xb0; x0a; x8f; xb1; x0a; x8f; xb2; x0a;
  x8f; xb3; x0a; x8f; xb4; x0a; x8f; xb5;
  x0a; x8f; xb6; x0a; x8f; xb7; x0a; x8f;
  xb8; x0a; x8f; xb9; x0a; x8f; xba; x0a;
  x8f; xbb; x0a; x8f; xbc; x0a; x8f; xbd;
  x0a; x8f; xbe; x0a; x8f; xbf; x0a; x8f
].
(* tests/test_data/whatwg/big5_whatwg_test_encode_out.txt, entries 3840..4095 *)
Definition big5_encode_out_15 : list byte := [
  xc0; x0a; x8f; xc1; x0a; x8f; xc2; x0a;
  x8f; xc3; x0a; x8f; xc4; x0a; x8f; xc5;
  x0a; x8f; xc6; x0a; x8f; xc7; x0a; x8f;
  xc8; x0a; x8f; xc9; x0a; x8f; xca; x0a;
  x8f; xcb; x0a; x8f; xcc; x0a; x8f; xcd;
  x0a; x8f; xce; x0a; x8f; xcf; x0a; x8f;
  xd0; x0a; x8f; xd1; x0a; x8f; xd2; x0a;
  x8f; xd3; x0a; x8f; xd4; x0a; x8f; xd5;
  x0a; x8f; xd6; x0a; x8f; xd7; x0a; x8f;
  xd8; x0a; x8f; xd9; x0a; x8f; xda; x0a;
  x8f; xdb; x0a; x8f; xdc; x0a; x8f; xdd;
  x0a; x8f; xde; x0a; x8f; xdf; x0a; x8f;
  xe0; x0a; x8f; xe1; x0a; x8f; xe2; x0a;
  x8f; xe3; x0a; x8f; xe4; x0a; x8f; xe5;
  x0a; x8f; xe6; x0a; x8f; xe7; x0a; x8f;
  xe8; x0a; x8f; xe9; x0a; x8f; xea; x0a;
  x8f; xeb; x0a; x8f; xec; x0a; x8f; xed;
  x0a; x8f; xee; x0a; x8f; xef; x0a; x8f;
  xf0; x0a; x8f; xf1; x0a; x8f; xf2; x0a;
  x8f; xf3; x0a; x8f; xf4; x0a; x8f; xf5;
  x0a; x8f; xf6; x0a; x8f; xf7; x0a; x8f;
  xf8; x0a; x8f; xf9; x0a; x8f; xfa; x0a;
  x8f; xfb; x0a; x8f; xfc; x0a; x8f; xfd;
  x0a; x8f; xfe; x0a; x90; x40; x0a; x90;
  x41; x0a; x90; x42; x0a; x90; x43; x0a;
  x90; x44; x0a; x90; x45; x0a; x90; x46;
  x0a; x90; x47; x0a; x90; x48; x0a; x90;
  x49; x0a; x90; x4a; x0a; x90; x4b; x0a;
  x90; x4c; x0a; x90; x4d; x0a; x90; x4e;
  x0a; x90; x4f; x0a; x90; x50; x0a; x90;
  x51; x0a; x90; x52; x0a; x90; x53; x0a;
  x90; x54; x0a; x90; x55; x0a; x90; x56
].
(* tests/test_data/whatwg/big5_whatwg_test_encode_out.txt, entries 4096..4351 *)
Definition big5_encode_out_16 : list byte := [
  x0a; x90; x57; x0a; x90; x58; x0a; x90;
  x59; x0a; x90; x5a; x0a; x90; x5b; x0a;
  x90; x5c; x0a; x90; x5d; x0a; x90; x5e;
  x0a; x90; x5f; x0a; x90; x60; x0a; x90;
  x61; x0a; x90; x62; x0a; x90; x63; x0a;
  x90; x64; x0a; x90; x65; x0a; x90; x66;
  x0a; x90; x67; x0a; x90; x68; x0a; x90;
  x69; x0a; x90; x6a; x0a; x90; x6b; x0a;
  x90; x6c; x0a; x90; x6d; x0a; x90; x6e;
  x0a; x90; x6f; x0a; x90; x70; x0a; x90;
  x71; x0a; x90; x72; x0a; x90; x73; x0a;
  x90; x74; x0a; x90; x75; x0a; x90; x76;
  x0a; x90; x77; x0a; x90; x78; x0a; x90;
  x79; x0a; x90; x7a; x0a; x90; x7b; x0a;
  x90; x7c; x0a; x90; x7d; x0a; x90; x7e;
  x0a; x90; xa1; x0a; x90; xa2; x0a; x90;
  xa3; x0a; x90; xa4; x0a; x90; xa5; x0a;
  x90; xa6; x0a; x90; xa7; x0a; x90; xa8;
  x0a; x90; xa9; x0a; x90; xaa; x0a; x90;
  xab; x0a; x90; xac; x0a; x90; xad; x0a;
  x90; xae; x0a; x90; xaf; x0a; x90; xb0;
  x0a; x90; xb1; x0a; x90; xb2; x0a; x90;
  xb3; x0a; x90; xb4; x0a; x90; xb5; x0a;
  x90; xb6; x0a; x90; xb7; x0a; x90; xb8;
  x0a; x90; xb9; x0a; x90; xba; x0a; x90;
  xbb; x0a; x90; xbc; x0a; x90; xbd; x0a;
  x90; xbe; x0a; x90; xbf; x0a; x90; xc0;
  x0a; x90; xc1; x0a; x90; xc2; x0a; x90;
  xc3; x0a; x90; xc4; x0a; x90; xc5; x0a;
  x90; xc6; x0a; x90; xc7; x0a; x90; xc8;
  x0a; x90; xc9; x0a; x90; xca; x0a; x90;
  xcb; x0a; x90; xcc; x0a; x90; xcd; x0a
].
(* tests/test_data/whatwg/big5_whatwg_test_encode_out.txt, entries 4352..4607 *)
Definition big5_encode_out_17 : list byte := [
  x90; xce; x0a; x90; xcf; x0a; x90; xd0;
  x0a; x90; xd1; x0a; x90; xd2; x0a; x90;
  xd3; x0a; x90; xd4; x0a; x90; xd5; x0a;
  x90; xd6; x0a; x90; xd7; x0a; x90; xd8;
  x0a; x90; xd9; x0a; x90; xda; x0a; x90;
  xdb; x0a; x90; xdc; x0a; x90; xdd; x0a;
  x90; xde; x0a; x90; xdf; x0a; x90; xe0;
  x0a; x90; xe1; x0a; x90; xe2; x0a; x90;
  xe3; x0a; x90; xe4; x0a; x90; xe5; x0a;
  x90; xe6; x0a; x90; xe7; x0a; x90; xe8;
  x0a; x90; xe9; x0a; x90; xea; x0a; x90;
  xeb; x0a; x90; xec; x0a; x90; xed; x0a;
  x90; xee; x0a; x90; xef; x0a; x90; xf0;
  x0a; x90; xf1; x0a; x90; xf2; x0a; x90;
  xf3; x0a; x90; xf4; x0a; x90; xf5; x0a;
  x90; xf6; x0a; x90; xf7; x0a; x90; xf8;
  x0a; x90; xf9; x0a; x90; xfa; x0a; x90;
  xfb; x0a; x90; xfc; x0a; x90; xfd; x0a;
  x90; xfe; x0a; x91; x40; x0a; x91; x41;
  x0a; x91; x42; x0a; x91; x43; x0a; x91;
  x44; x0a; x91; x45; x0a; x91; x46; x0a;
  x91; x47; x0a; x91; x48; x0a; x91; x49;
  x0a; x91; x4a; x0a; x91; x4b; x0a; x91;
  x4c; x0a; x91; x4d; x0a; x91; x4e; x0a;
  x91; x4f; x0a; x91; x50; x0a; x91; x51;
  x0a; x91; x52; x0a; x91; x53; x0a; x91;
  x54; x0a; x91; x55; x0a; x91; x56; x0a;
  x91; x57; x0a; x91; x58; x0a; x91; x59;
  x0a; x91; x5a; x0a; x91; x5b; x0a; x91;
  x5c; x0a; x91; x5d; x0a; x91; x5e; x0a;
  x91; x5f; x0a; x91; x60; x0a; x91; x61;
  x0a; x91; x62; x0a; x91; x63; x0a; x91
].
(* tests/test_data/whatwg/big5_whatwg_test_encode_out.txt, entries 4608..4863 *)
Definition big5_encode_out_18 : list byte := [
  x64; x0a; x91; x65; x0a; x91; x66; x0a;
  x91; x67; x0a; x91; x68; x0a; x91; x69;
  x0a; x91; x6a; x0a; x91; x6b; x0a; x91;
  x6c; x0a; x91; x6d; x0a; x91; x6e; x0a;
  x91; x6f; x0a; x91; x70; x0a; x91; x71;
  x0a; x91; x72; x0a; x91; x73; x0a; x91;
  x74; x0a; x91; x75; x0a; x91; x76; x0a;
  x91; x77; x0a; x91; x78; x0a; x91; x79;
  x0a; x91; x7a; x0a; x91; x7b; x0a; x91;
  x7c; x0a; x91; x7d; x0a; x91; x7e; x0a;
  x91; xa1; x0a; x91; xa2; x0a; x91; xa3;
  x0a; x91; xa4; x0a; x91; xa5; x0a; x91;
  xa6; x0a; x91; xa7; x0a; x91; xa8; x0a;
  x91; xa9; x0a; x91; xaa; x0a; x91; xab;
  x0a; x91; xac; x0a; x91; xad; x0a; x91;
  xae; x0a; x91; xaf; x0a; x91; xb0; x0a;
  x91; xb1; x0a; x91; xb2; x0a; x91; xb3;
  x0a; x91; xb4; x0a; x91; xb5; x0a; x91;
  xb6; x0a; x91; xb7; x0a; x91; xb8; x0a;
  x91; xb9; x0a; x91; xba; x0a; x91; xbb;
  x0a; x91; xbc; x0a; x91; xbd; x0a; x91;
  xbe; x0a; x91; xbf; x0a; x91; xc0; x0a;
  x91; xc1; x0a; x91; xc2; x0a; x91; xc3;
  x0a; x91; xc4; x0a; x91; xc5; x0a; x91;
  xc6; x0a; x91; xc7; x0a; x91; xc8; x0a;
  x91; xc9; x0a; x91; xca; x0a; x91; xcb;
  x0a; x91; xcc; x0a; x91; xcd; x0a; x91;
  xce; x0a; x91; xcf; x0a; x91; xd0; x0a;
  x91; xd1; x0a; x91; xd2; x0a; x91; xd3;
  x0a; x91; xd4; x0a; x91; xd5; x0a; x91;
  xd6; x0a; x91; xd7; x0a; x91; xd8; x0a;
  x91; xd9; x0a; x91; xda; x0a; x91; xdb
].
(* tests/test_data/whatwg/big5_whatwg_test_encode_out.txt, entries 4864..5119 *)
Definition big5_encode_out_19 : list byte := [
  x0a; x91; xdc; x0a; x91; xdd; x0a; x91;
  xde; x0a; x91; xdf; x0a; x91; xe0; x0a;
  x91; xe1; x0a; x91; xe2; x0a; x91; xe3;
  x0a; x91; xe4; x0a; x91; xe5; x0a; x91;
  xe6; x0a; x91; xe7; x0a; x91; xe8; x0a;
  x91; xe9; x0a; x91; xea; x0a; x91; xeb;
  x0a; x91; xec; x0a; x91; xed; x0a; x91;
  xee; x0a; x91; xef; x0a; x91; xf0; x0a;
  x91; xf1; x0a; x91; xf2; x0a; x91; xf3;
  x0a; x91; xf4; x0a; x91; xf5; x0a; x91;
  xf6; x0a; x91; xf7; x0a; x91; xf8; x0a;
  x91; xf9; x0a; x91; xfa; x0a; x91; xfb;
  x0a; x91; xfc; x0a; x91; xfd; x0a; x91;
  xfe; x0a; x92; x40; x0a; x92; x41; x0a;
  x92; x42; x0a; x92; x43; x0a; x92; x45;
  x0a; x92; x46; x0a; x92; x47; x0a; x92;
  x48; x0a; x92; x49; x0a; x92; x4a; x0a;
  x92; x4b; x0a; x92; x4c; x0a; x92; x4d;
  x0a; x92; x4e; x0a; x92; x4f; x0a; x92;
  x50; x0a; x92; x51; x0a; x92; x52; x0a;
  x92; x53; x0a; x92; x54; x0a; x92; x55;
  x0a; x92; x56; x0a; x92; x57; x0a; x92;
  x58; x0a; x92; x59; x0a; x92; x5a; x0a;
  x92; x5b; x0a; x92; x5c; x0a; x92; x5d;
  x0a; x92; x5e; x0a; x92; x5f; x0a; x92;
  x60; x0a; x92; x61; x0a; x92; x62; x0a;
  x92; x63; x0a; x92; x64; x0a; x92; x65;
  x0a; x92; x66; x0a; x92; x67; x0a; x92;
  x68; x0a; x92; x69; x0a; x92; x6a; x0a;
  x92; x6b; x0a; x92; x6c; x0a; x92; x6d;
  x0a; x92; x6e; x0a; x92; x6f; x0a; x92;
  x70; x0a; x92; x71; x0a; x92; x72; x0a
].
(* tests/test_data/whatwg/big5_whatwg_test_encode_out.txt, entries 5120..5375 *)
Definition big5_encode_out_20 : list byte := [
  x92; x73; x0a; x92; x74; x0a; x92; x75;
  x0a; x92; x76; x0a; x92; x77; x0a; x92;
  x78; x0a; x92; x79; x0a; x92; x7a; x0a;
  x92; x7b; x0a; x92; x7c; x0a; x92; x7d;
  x0a; x92; x7e; x0a; x92; xa1; x0a; x92;
  xa2; x0a; x92; xa3; x0a; x92; xa4; x0a;
  x92; xa5; x0a; x92; xa6; x0a; x92; xa7;
  x0a; x92; xa8; x0a; x92; xa9; x0a; x92;
  xaa; x0a; x92; xab; x0a; x92; xac; x0a;
  x92; xad; x0a; x92; xae; x0a; x92; xaf;
  x0a; x92; xb0; x0a; x92; xb1; x0a; x92;
  xb2; x0a; x92; xb3; x0a; x92; xb4; x0a;
  x92; xb5; x0a; x92; xb6; x0a; x92; xb7;
  x0a; x92; xb8; x0a; x92; xb9; x0a; x92;
  xba; x0a; x92; xbb; x0a; x92; xbc; x0a;
  x92; xbd; x0a; x92; xbe; x0a; x92; xbf;
  x0a; x92; xc0; x0a; x92; xc1; x0a; x92;
  xc2; x0a; x92; xc3; x0a; x92; xc4; x0a;
  x92; xc5; x0a; x92; xc6; x0a; x92; xc7;
  x0a; x92; xc8; x0a; x92; xc9; x0a; x92;
  xca; x0a; x92; xcb; x0a; x92; xcc; x0a;
  x92; xcd; x0a; x92; xce; x0a; x92; xcf;
  x0a; x92; xd0; x0a; x92; xd1; x0a; x92;
  xd2; x0a; x92; xd3; x0a; x92; xd4; x0a;
  x92; xd5; x0a; x92; xd6; x0a; x92; xd7;
  x0a; x92; xd8; x0a; x92; xd9; x0a; x92;
  xda; x0a; x92; xdb; x0a; x92; xdc; x0a;
  x92; xdd; x0a; x92; xde; x0a; x92; xdf;
  x0a; x92; xe0; x0a; x92; xe1; x0a; x92;
  xe2; x0a; x92; xe3; x0a; x92; xe4; x0a;
  x92; xe5; x0a; x92; xe6; x0a; x92; xe7;
  x0a; x92; xe8; x0a; x92; xe9; x0a; x92
].
(* tests/test_data/whatwg/big5_whatwg_test_encode_out.txt, entries 5376..5631 *)
Definition big5_encode_out_21 : list byte := [
  xea; x0a; x92; xeb; x0a; x92; xec; x0a;
  x92; xed; x0a; x92; xee; x0a; x92; xef;
  x0a; x92; xf0; x0a; x92; xf1; x0a; x92;
  xf2; x0a; x92; xf3; x0a; x92; xf4; x0a;
  x92; xf5; x0a; x92; xf6; x0a; x92; xf7;
  x0a; x92; xf8; x0a; x92; xf9; x0a; x92;
  xfa; x0a; x92; xfb; x0a; x92; xfc; x0a;
  x92; xfd; x0a; x92; xfe; x0a; x93; x40;
  x0a; x93; x41; x0a; x93; x42; x0a; x93;
  x43; x0a; x93; x44; x0a; x93; x45; x0a;
  x93; x46; x0a; x93; x47; x0a; x93; x48;
  x0a; x93; x49; x0a; x93; x4a; x0a; x93;
  x4b; x0a; x93; x4c; x0a; x93; x4d; x0a;
  x93; x4e; x0a; x93; x4f; x0a; x93; x50;
  x0a; x93; x51; x0a; x93; x52; x0a; x93;
  x53; x0a; x93; x54; x0a; x93; x55; x0a;
  x93; x56; x0a; x93; x57; x0a; x93; x58;
  x0a; x93; x59; x0a; x93; x5a; x0a; x93;
  x5b; x0a; x93; x5c; x0a; x93; x5d; x0a;
  x93; x5e; x0a; x93; x5f; x0a; x93; x60;
  x0a; x93; x61; x0a; x93; x62; x0a; x93;
  x63; x0a; x93; x64; x0a; x93; x65; x0a;
  x93; x66; x0a; x93; x67; x0a; x93; x68;
  x0a; x93; x69; x0a; x93; x6a; x0a; x93;
  x6b; x0a; x93; x6c; x0a; x93; x6d; x0a;
  x93; x6e; x0a; x93; x6f; x0a; x93; x70;
  x0a; x93; x71; x0a; x93; x72; x0a; x93;
  x73; x0a; x93; x74; x0a; x93; x75; x0a;
  x93; x76; x0a; x93; x77; x0a; x93; x78;
  x0a; x93; x79; x0a; x93; x7a; x0a; x93;
  x7b; x0a; x93; x7c; x0a; x93; x7d; x0a;
  x93; x7e; x0a; x93; xa1; x0a; x93; xa2
].
(* tests/test_data/whatwg/big5_whatwg_test_encode_out.txt, entries 5632..5887 *)
Definition big5_encode_out_22 : list byte := [
  x0a; x93; xa3; x0a; x93; xa4; x0a; x93;
  xa5; x0a; x93; xa6; x0a; x93; xa7; x0a;
  x93; xa8; x0a; x93; xa9; x0a; x93; xaa;
  x0a; x93; xab; x0a; x93; xac; x0a; x93;
  xad; x0a; x93; xae; x0a; x93; xaf; x0a;
  x93; xb0; x0a; x93; xb1; x0a; x93; xb2;
  x0a; x93; xb3; x0a; x93; xb4; x0a; x93;
  xb5; x0a; x93; xb6; x0a; x93; xb7; x0a;
  x93; xb8; x0a; x93; xb9; x0a; x93; xba;
  x0a; x93; xbb; x0a; x93; xbc; x0a; x93;
  xbd; x0a; x93; xbe; x0a; x93; xbf; x0a;
  x93; xc0; x0a; x93; xc1; x0a; x93; xc2;
  x0a; x93; xc3; x0a; x93; xc4; x0a; x93;
  xc5; x0a; x93; xc6; x0a; x93; xc7; x0a;
  x93; xc8; x0a; x93; xc9; x0a; x93; xca;
  x0a; x93; xcb; x0a; x93; xcc; x0a; x93;
  xcd; x0a; x93; xce; x0a; x93; xcf; x0a;
  x93; xd0; x0a; x93; xd1; x0a; x93; xd2;
  x0a; x93; xd3; x0a; x93; xd4; x0a; x93;
  xd5; x0a; x93; xd6; x0a; x93; xd7; x0a;
  x93; xd8; x0a; x93; xd9; x0a; x93; xda;
  x0a; x93; xdb; x0a; x93; xdc; x0a; x93;
  xdd; x0a; x93; xde; x0a; x93; xdf; x0a;
  x93; xe0; x0a; x93; xe1; x0a; x93; xe2;
  x0a; x93; xe3; x0a; x93; xe4; x0a; x93;
  xe5; x0a; x93; xe6; x0a; x93; xe7; x0a;
  x93; xe8; x0a; x93; xe9; x0a; x93; xea;
  x0a; x93; xeb; x0a; x93; xec; x0a; x93;
  xed; x0a; x93; xee; x0a; x93; xef; x0a;
  x93; xf0; x0a; x93; xf1; x0a; x93; xf2;
  x0a; x93; xf3; x0a; x93; xf4; x0a; x93;
  xf5; x0a; x93; xf6; x0a; x93; xf7; x0a
].
(* tests/test_data/whatwg/big5_whatwg_test_encode_out.txt, entries 5888..6143 *)
Definition big5_encode_out_23 : list byte := [
  x93; xf8; x0a; x93; xf9; x0a; x93; xfa;
  x0a; x93; xfb; x0a; x93; xfc; x0a; x93;
  xfd; x0a; x93; xfe; x0a; x94; x40; x0a;
  x94; x41; x0a; x94; x42; x0a; x94; x43;
  x0a; x94; x44; x0a; x94; x45; x0a; x94;
  x46; x0a; x94; x47; x0a; x94; x48; x0a;
  x94; x49; x0a; x94; x4a; x0a; x94; x4b;
  x0a; x94; x4c; x0a; x94; x4d; x0a; x94;
  x4e; x0a; x94; x4f; x0a; x94; x50; x0a;
  x94; x51; x0a; x94; x52; x0a; x94; x53;
  x0a; x94; x54; x0a; x94; x55; x0a; x94;
  x56; x0a; x94; x57; x0a; x94; x58; x0a;
  x94; x59; x0a; x94; x5a; x0a; x94; x5b;
  x0a; x94; x5c; x0a; x94; x5d; x0a; x94;
  x5e; x0a; x94; x5f; x0a; x94; x60; x0a;
  x94; x61; x0a; x94; x62; x0a; x94; x63;
  x0a; x94; x64; x0a; x94; x65; x0a; x94;
  x66; x0a; x94; x67; x0a; x94; x68; x0a;
  x94; x69; x0a; x94; x6a; x0a; x94; x6b;
  x0a; x94; x6c; x0a; x94; x6d; x0a; x94;
  x6e; x0a; x94; x6f; x0a; x94; x70; x0a;
  x94; x71; x0a; x94; x72; x0a; x94; x73;
  x0a; x94; x74; x0a; x94; x75; x0a; x94;
  x76; x0a; x94; x77; x0a; x94; x78; x0a;
  x94; x79; x0a; x94; x7a; x0a; x94; x7b;
  x0a; x94; x7c; x0a; x94; x7d; x0a; x94;
  x7e; x0a; x94; xa1; x0a; x94; xa2; x0a;
  x94; xa3; x0a; x94; xa4; x0a; x94; xa5;
  x0a; x94; xa6; x0a; x94; xa7; x0a; x94;
  xa8; x0a; x94; xa9; x0a; x94; xaa; x0a;
  x94; xab; x0a; x94; xac; x0a; x94; xad;
  x0a; x94; xae; x0a; x94; xaf; x0a; x94
].
(* tests/test_data/whatwg/big5_whatwg_test_encode_out.txt, entries 6144..6399 *)
Definition big5_encode_out_24 : list byte := [
  xb0; x0a; x94; xb1; x0a; x94; xb2; x0a;
  x94; xb3; x0a; x94; xb4; x0a; x94; xb5;
  x0a; x94; xb6; x0a; x94; xb7; x0a; x94;
  xb8; x0a; x94; xb9; x0a; x94; xba; x0a;
  x94; xbb; x0a; x94; xbc; x0a; x94; xbd;
  x0a; x94; xbe; x0a; x94; xbf; x0a; x94;
  xc0; x0a; x94; xc1; x0a; x94; xc2; x0a;
  x94; xc3; x0a; x94; xc4; x0a; x94; xc5;
  x0a; x94; xc6; x0a; x94; xc7; x0a; x94;
  xc8; x0a; x94; xc9; x0a; x94; xca; x0a;
  x94; xcb; x0a; x94; xcc; x0a; x94; xcd;
  x0a; x94; xce; x0a; x94; xcf; x0a; x94;
  xd0; x0a; x94; xd1; x0a; x94; xd2; x0a;
  x94; xd3; x0a; x94; xd4; x0a; x94; xd5;
  x0a; x94; xd6; x0a; x94; xd7; x0a; x94;
  xd8; x0a; x94; xd9; x0a; x94; xda; x0a;
  x94; xdb; x0a; x94; xdc; x0a; x94; xdd;
  x0a; x94; xde; x0a; x94; xdf; x0a; x94;
  xe0; x0a; x94; xe1; x0a; x94; xe2; x0a;
  x94; xe3; x0a; x94; xe4; x0a; x94; xe5;
  x0a; x94; xe6; x0a; x94; xe7; x0a; x94;
  xe8; x0a; x94; xe9; x0a; x94; xea; x0a;
  x94; xeb; x0a; x94; xec; x0a; x94; xed;
  x0a; x94; xee; x0a; x94; xef; x0a; x94;
  xf0; x0a; x94; xf1; x0a; x94; xf2; x0a;
  x94; xf3; x0a; x94; xf4; x0a; x94; xf5;
  x0a; x94; xf6; x0a; x94; xf7; x0a; x94;
  xf8; x0a; x94; xf9; x0a; x94; xfa; x0a;
  x94; xfb; x0a; x94; xfc; x0a; x94; xfd;
  x0a; x94; xfe; x0a; x95; x40; x0a; x95;
  x41; x0a; x95; x42; x0a; x95; x43; x0a;
  x95; x44; x0a; x95; x45; x0a; x95; x46
].
(* tests/test_data/whatwg/big5_whatwg_test_encode_out.txt, entries 6400..6655 *)
Definition big5_encode_out_25 : list byte := [
  x0a; x95; x47; x0a; x95; x48; x0a; x95;
  x49; x0a; x95; x4a; x0a; x95; x4b; x0a;
  x95; x4c; x0a; x95; x4d; x0a; x95; x4e;
  x0a; x95; x4f; x0a; x95; x50; x0a; x95;
  x51; x0a; x95; x52; x0a; x95; x53; x0a;
  x95; x54; x0a; x95; x55; x0a; x95; x56;
  x0a; x95; x57; x0a; x95; x58; x0a; x95;
  x59; x0a; x95; x5a; x0a; x95; x5b; x0a;
  x95; x5c; x0a; x95; x5d; x0a; x95; x5e;
  x0a; x95; x5f; x0a; x95; x60; x0a; x95;
  x61; x0a; x95; x62; x0a; x95; x63; x0a;
  x95; x64; x0a; x95; x65; x0a; x95; x66;
  x0a; x95; x67; x0a; x95; x68; x0a; x95;
  x69; x0a; x95; x6a; x0a; x95; x6b; x0a;
  x95; x6c; x0a; x95; x6d; x0a; x95; x6e;
  x0a; x95; x6f; x0a; x95; x70; x0a; x95;
  x71; x0a; x95; x72; x0a; x95; x73; x0a;
  x95; x74; x0a; x95; x75; x0a; x95; x76;
  x0a; x95; x77; x0a; x95; x78; x0a; x95;
  x79; x0a; x95; x7a; x0a; x95; x7b; x0a;
  x95; x7c; x0a; x95; x7d; x0a; x95; x7e;
  x0a; x95; xa1; x0a; x95; xa2; x0a; x95;
  xa3; x0a; x95; xa4; x0a; x95; xa5; x0a;
  x95; xa6; x0a; x95; xa7; x0a; x95; xa8;
  x0a; x95; xa9; x0a; x95; xaa; x0a; x95;
  xab; x0a; x95; xac; x0a; x95; xad; x0a;
  x95; xae; x0a; x95; xaf; x0a; x95; xb0;
  x0a; x95; xb1; x0a; x95; xb2; x0a; x95;
  xb3; x0a; x95; xb4; x0a; x95; xb5; x0a;
  x95; xb6; x0a; x95; xb7; x0a; x95; xb8;
  x0a; x95; xb9; x0a; x95; xba; x0a; x95;
  xbb; x0a; x95; xbc; x0a; x95; xbd; x0a
].
(* tests/test_data/whatwg/big5_whatwg_test_encode_out.txt, entries 6656..6911 *)
Definition big5_encode_out_26 : list byte := [
  x95; xbe; x0a; x95; xbf; x0a; x95; xc0;
  x0a; x95; xc1; x0a; x95; xc2; x0a; x95;
  xc3; x0a; x95; xc4; x0a; x95; xc5; x0a;
  x95; xc6; x0a; x95; xc7; x0a; x95; xc8;
  x0a; x95; xc9; x0a; x95; xca; x0a; x95;
  xcb; x0a; x95; xcc; x0a; x95; xcd; x0a;
  x95; xce; x0a; x95; xcf; x0a; x95; xd0;
  x0a; x95; xd1; x0a; x95; xd2; x0a; x95;
  xd3; x0a; x95; xd4; x0a; x95; xd5; x0a;
  x95; xd6; x0a; x95; xd7; x0a; x95; xd8;
  x0a; x95; xd9; x0a; x95; xda; x0a; x95;
  xdb; x0a; x95; xdc; x0a; x95; xdd; x0a;
  x95; xde; x0a; x95; xdf; x0a; x95; xe0;
  x0a; x95; xe1; x0a; x95; xe2; x0a; x95;
  xe3; x0a; x95; xe4; x0a; x95; xe5; x0a;
  x95; xe6; x0a; x95; xe7; x0a; x95; xe8;
  x0a; x95; xe9; x0a; x95; xea; x0a; x95;
  xeb; x0a; x95; xec; x0a; x95; xed; x0a;
  x95; xee; x0a; x95; xef; x0a; x95; xf0;
  x0a; x95; xf1; x0a; x95; xf2; x0a; x95;
  xf3; x0a; x95; xf4; x0a; x95; xf5; x0a;
  x95; xf6; x0a; x95; xf7; x0a; x95; xf8;
  x0a; x95; xf9; x0a; x95; xfa; x0a; x95;
  xfb; x0a; x95; xfc; x0a; x95; xfd; x0a;
  x95; xfe; x0a; x96; x40; x0a; x96; x41;
  x0a; x96; x42; x0a; x96; x43; x0a; x96;
  x44; x0a; x96; x45; x0a; x96; x46; x0a;
  x96; x47; x0a; x96; x48; x0a; x96; x49;
  x0a; x96; x4a; x0a; x96; x4b; x0a; x96;
  x4c; x0a; x96; x4d; x0a; x96; x4e; x0a;
  x96; x4f; x0a; x96; x50; x0a; x96; x51;
  x0a; x96; x52; x0a; x96; x53; x0a; x96
].
(* tests/test_data/whatwg/big5_whatwg_test_encode_out.txt, entries 6912..7167 *)
Definition big5_encode_out_27 : list byte := [
  x54; x0a; x96; x55; x0a; x96; x56; x0a;
  x96; x57; x0a; x96; x58; x0a; x96; x59;
  x0a; x96; x5a; x0a; x96; x5b; x0a; x96;
  x5c; x0a; x96; x5d; x0a; x96; x5e; x0a;
  x96; x5f; x0a; x96; x60; x0a; x96; x61;
  x0a; x96; x62; x0a; x96; x63; x0a; x96;
  x64; x0a; x96; x65; x0a; x96; x66; x0a;
  x96; x67; x0a; x96; x68; x0a; x96; x69;
  x0a; x96; x6a; x0a; x96; x6b; x0a; x96;
  x6c; x0a; x96; x6d; x0a; x96; x6e; x0a;
  x96; x6f; x0a; x96; x70; x0a; x96; x71;
  x0a; x96; x72; x0a; x96; x73; x0a; x96;
  x74; x0a; x96; x75; x0a; x96; x76; x0a;
  x96; x77; x0a; x96; x78; x0a; x96; x79;
  x0a; x96; x7a; x0a; x96; x7b; x0a; x96;
  x7c; x0a; x96; x7d; x0a; x96; x7e; x0a;
  x96; xa1; x0a; x96; xa2; x0a; x96; xa3;
  x0a; x96; xa4; x0a; x96; xa5; x0a; x96;
  xa6; x0a; x96; xa7; x0a; x96; xa8; x0a;
  x96; xa9; x0a; x96; xaa; x0a; x96; xab;
  x0a; x96; xac; x0a; x96; xad; x0a; x96;
  xae; x0a; x96; xaf; x0a; x96; xb0; x0a;
  x96; xb1; x0a; x96; xb2; x0a; x96; xb3;
  x0a; x96; xb4; x0a; x96; xb5; x0a; x96;
  xb6; x0a; x96; xb7; x0a; x96; xb8; x0a;
  x96; xb9; x0a; x96; xba; x0a; x96; xbb;
  x0a; x96; xbc; x0a; x96; xbd; x0a; x96;
  xbe; x0a; x96; xbf; x0a; x96; xc0; x0a;
  x96; xc1; x0a; x96; xc2; x0a; x96; xc3;
  x0a; x96; xc4; x0a; x96; xc5; x0a; x96;
  xc6; x0a; x96; xc7; x0a; x96; xc8; x0a;
  x96; xc9; x0a; x96; xca; x0a; x96; xcb
].
(* tests/test_data/whatwg/big5_whatwg_test_encode_out.txt, entries 7168..7423 *)
Definition big5_encode_out_28 : list byte := [
  x0a; x96; xcc; x0a; x96; xcd; x0a; x96;
  xce; x0a; x96; xcf; x0a; x96; xd0; x0a;
  x96; xd1; x0a; x96; xd2; x0a; x96; xd3;
  x0a; x96; xd4; x0a; x96; xd5; x0a; x96;
  xd6; x0a; x96; xd7; x0a; x96; xd8; x0a;
  x96; xd9; x0a; x96; xda; x0a; x96; xdb;
  x0a; x96; xdc; x0a; x96; xdd; x0a; x96;
  xde; x0a; x96; xdf; x0a; x96; xe0; x0a;
  x96; xe1; x0a; x96; xe2; x0a; x96; xe3;
  x0a; x96; xe4; x0a; x96; xe5; x0a; x96;
  xe6; x0a; x96; xe7; x0a; x96; xe8; x0a;
  x96; xe9; x0a; x96; xea; x0a; x96; xeb;
  x0a; x96; xec; x0a; x96; xed; x0a; x96;
  xef; x0a; x96; xf0; x0a; x96; xf1; x0a;
  x96; xf2; x0a; x96; xf3; x0a; x96; xf4;
  x0a; x96; xf5; x0a; x96; xf6; x0a; x96;
  xf7; x0a; x96; xf8; x0a; x96; xf9; x0a;
  x96; xfa; x0a; x96; xfb; x0a; x96; xfc;
  x0a; x96; xfd; x0a; x96; xfe; x0a; x97;
  x40; x0a; x97; x41; x0a; x97; x42; x0a;
  x97; x43; x0a; x97; x44; x0a; x97; x45;
  x0a; x97; x46; x0a; x97; x47; x0a; x97;
  x48; x0a; x97; x49; x0a; x97; x4a; x0a;
  x97; x4b; x0a; x97; x4c; x0a; x97; x4d;
  x0a; x97; x4e; x0a; x97; x4f; x0a; x97;
  x50; x0a; x97; x51; x0a; x97; x52; x0a;
  x97; x53; x0a; x97; x54; x0a; x97; x55;
  x0a; x97; x56; x0a; x97; x57; x0a; x97;
  x58; x0a; x97; x59; x0a; x97; x5a; x0a;
  x97; x5b; x0a; x97; x5c; x0a; x97; x5d;
  x0a; x97; x5e; x0a; x97; x5f; x0a; x97;
  x60; x0a; x97; x61; x0a; x97; x62; x0a
].
(* tests/test_data/whatwg/big5_whatwg_test_encode_out.txt, entries 7424..7679 *)
Definition big5_encode_out_29 : list byte := [
  x97; x63; x0a; x97; x64; x0a; x97; x65;
  x0a; x97; x66; x0a; x97; x67; x0a; x97;
  x68; x0a; x97; x69; x0a; x97; x6a; x0a;
  x97; x6b; x0a; x97; x6c; x0a; x97; x6d;
  x0a; x97; x6e; x0a; x97; x6f; x0a; x97;
  x70; x0a; x97; x71; x0a; x97; x72; x0a;
  x97; x73; x0a; x97; x74; x0a; x97; x75;
  x0a; x97; x76; x0a; x97; x77; x0a; x97;
  x78; x0a; x97; x79; x0a; x97; x7a; x0a;
  x97; x7b; x0a; x97; x7c; x0a; x97; x7d;
  x0a; x97; x7e; x0a; x97; xa1; x0a; x97;
  xa2; x0a; x97; xa3; x0a; x97; xa4; x0a;
  x97; xa5; x0a; x97; xa6; x0a; x97; xa7;
  x0a; x97; xa8; x0a; x97; xa9; x0a; x97;
  xaa; x0a; x97; xab; x0a; x97; xac; x0a;
  x97; xad; x0a; x97; xae; x0a; x97; xaf;
  x0a; x97; xb0; x0a; x97; xb1; x0a; x97;
  xb2; x0a; x97; xb3; x0a; x97; xb4; x0a;
  x97; xb5; x0a; x97; xb6; x0a; x97; xb7;
  x0a; x97; xb8; x0a; x97; xb9; x0a; x97;
  xba; x0a; x97; xbb; x0a; x97; xbc; x0a;
  x97; xbd; x0a; x97; xbe; x0a; x97; xbf;
  x0a; x97; xc0; x0a; x97; xc1; x0a; x97;
  xc2; x0a; x97; xc3; x0a; x97; xc4; x0a;
  x97; xc5; x0a; x97; xc6; x0a; x97; xc7;
  x0a; x97; xc8; x0a; x97; xc9; x0a; x97;
  xca; x0a; x97; xcb; x0a; x97; xcc; x0a;
  x97; xcd; x0a; x97; xce; x0a; x97; xcf;
  x0a; x97; xd0; x0a; x97; xd1; x0a; x97;
  xd2; x0a; x97; xd3; x0a; x97; xd4; x0a;
  x97; xd5; x0a; x97; xd6; x0a; x97; xd7;
  x0a; x97; xd8; x0a; x97; xd9; x0a; x97
].
(* tests/test_data/whatwg/big5_whatwg_test_encode_out.txt, entries 7680..7935 *)
Definition big5_encode_out_30 : list byte := [
  xda; x0a; x97; xdb; x0a; x97; xdc; x0a;
  x97; xdd; x0a; x97; xde; x0a; x97; xdf;
  x0a; x97; xe0; x0a; x97; xe1; x0a; x97;
  xe2; x0a; x97; xe3; x0a; x97; xe4; x0a;
  x97; xe5; x0a; x97; xe6; x0a; x97; xe7;
  x0a; x97; xe8; x0a; x97; xe9; x0a; x97;
  xea; x0a; x97; xeb; x0a; x97; xec; x0a;
  x97; xed; x0a; x97; xee; x0a; x97; xef;
  x0a; x97; xf0; x0a; x97; xf1; x0a; x97;
  xf2; x0a; x97; xf3; x0a; x97; xf4; x0a;
  x97; xf5; x0a; x97; xf6; x0a; x97; xf7;
  x0a; x97; xf8; x0a; x97; xf9; x0a; x97;
  xfa; x0a; x97; xfb; x0a; x97; xfc; x0a;
  x97; xfd; x0a; x97; xfe; x0a; x98; x40;
  x0a; x98; x41; x0a; x98; x42; x0a; x98;
  x43; x0a; x98; x44; x0a; x98; x45; x0a;
  x98; x46; x0a; x98; x47; x0a; x98; x48;
  x0a; x98; x49; x0a; x98; x4a; x0a; x98;
  x4b; x0a; x98; x4c; x0a; x98; x4d; x0a;
  x98; x4e; x0a; x98; x4f; x0a; x98; x50;
  x0a; x98; x51; x0a; x98; x52; x0a; x98;
  x53; x0a; x98; x54; x0a; x98; x55; x0a;
  x98; x56; x0a; x98; x57; x0a; x98; x58;
  x0a; x98; x59; x0a; x98; x5a; x0a; x98;
  x5b; x0a; x98; x5c; x0a; x98; x5d; x0a;
  x98; x5e; x0a; x98; x5f; x0a; x98; x60;
  x0a; x98; x61; x0a; x98; x62; x0a; x98;
  x63; x0a; x98; x64; x0a; x98; x65; x0a;
  x98; x66; x0a; x98; x67; x0a; x98; x68;
  x0a; x98; x69; x0a; x98; x6a; x0a; x98;
  x6b; x0a; x98; x6c; x0a; x98; x6d; x0a;
  x98; x6e; x0a; x98; x6f; x0a; x98; x70
].
(* tests/test_data/whatwg/big5_whatwg_test_encode_out.txt, entries 7936..8191 *)
Definition big5_encode_out_31 : list byte := [
  x0a; x98; x71; x0a; x98; x72; x0a; x98;
  x73; x0a; x98; x74; x0a; x98; x75; x0a;
  x98; x76; x0a; x98; x77; x0a; x98; x78;
  x0a; x98; x79; x0a; x98; x7a; x0a; x98;
  x7b; x0a; x98; x7c; x0a; x98; x7d; x0a;
  x98; x7e; x0a; x98; xa1; x0a; x98; xa2;
  x0a; x98; xa3; x0a; x98; xa4; x0a; x98;
  xa5; x0a; x98; xa6; x0a; x98; xa7; x0a;
  x98; xa8; x0a; x98; xa9; x0a; x98; xaa;
  x0a; x98; xab; x0a; x98; xac; x0a; x98;
  xad; x0a; x98; xae; x0a; x98; xaf; x0a;
  x98; xb0; x0a; x98; xb1; x0a; x98; xb2;
  x0a; x98; xb3; x0a; x98; xb4; x0a; x98;
  xb5; x0a; x98; xb6; x0a; x98; xb7; x0a;
  x98; xb8; x0a; x98; xb9; x0a; x98; xba;
  x0a; x98; xbb; x0a; x98; xbc; x0a; x98;
  xbd; x0a; x98; xbe; x0a; x98; xbf; x0a;
  x98; xc0; x0a; x98; xc1; x0a; x98; xc2;
  x0a; x98; xc3; x0a; x98; xc4; x0a; x98;
  xc5; x0a; x98; xc6; x0a; x98; xc7; x0a;
  x98; xc8; x0a; x98; xc9; x0a; x98; xca;
  x0a; x98; xcb; x0a; x98; xcc; x0a; x98;
  xcd; x0a; x98; xce; x0a; x98; xcf; x0a;
  x98; xd0; x0a; x98; xd1; x0a; x98; xd2;
  x0a; x98; xd3; x0a; x98; xd4; x0a; x98;
  xd5; x0a; x98; xd6; x0a; x98; xd7; x0a;
  x98; xd8; x0a; x98; xd9; x0a; x98; xda;
  x0a; x98; xdb; x0a; x98; xdc; x0a; x98;
  xdd; x0a; x98; xde; x0a; x98; xdf; x0a;
  x98; xe0; x0a; x98; xe1; x0a; x98; xe2;
  x0a; x98; xe3; x0a; x98; xe4; x0a; x98;
  xe5; x0a; x98; xe6; x0a; x98; xe7; x0a
].
(* tests/test_data/whatwg/big5_whatwg_test_encode_out.txt, entries 8192..8447 *)
Definition big5_encode_out_32 : list byte := [
  x98; xe8; x0a; x98; xe9; x0a; x98; xea;
  x0a; x98; xeb; x0a; x98; xec; x0a; x98;
  xed; x0a; x98; xee; x0a; x98; xef; x0a;
  x98; xf0; x0a; x98; xf1; x0a; x98; xf2;
  x0a; x98; xf3; x0a; x98; xf4; x0a; x98;
  xf5; x0a; x98; xf6; x0a; x98; xf7; x0a;
  x98; xf8; x0a; x98; xf9; x0a; x98; xfa;
  x0a; x98; xfb; x0a; x98; xfc; x0a; x98;
  xfd; x0a; x98; xfe; x0a; x99; x40; x0a;
  x99; x41; x0a; x99; x42; x0a; x99; x43;
  x0a; x99; x44; x0a; x99; x45; x0a; x99;
  x46; x0a; x99; x47; x0a; x99; x48; x0a;
  x99; x49; x0a; x99; x4a; x0a; x99; x4b;
  x0a; x99; x4c; x0a; x99; x4d; x0a; x99;
  x4e; x0a; x99; x4f; x0a; x99; x50; x0a;
  x99; x51; x0a; x99; x52; x0a; x99; x53;
  x0a; x99; x54; x0a; x99; x55; x0a; x99;
  x56; x0a; x99; x57; x0a; x99; x58; x0a;
  x99; x59; x0a; x99; x5a; x0a; x99; x5b;
  x0a; x99; x5c; x0a; x99; x5d; x0a; x99;
  x5e; x0a; x99; x5f; x0a; x99; x60; x0a;
  x99; x61; x0a; x99; x62; x0a; x99; x63;
  x0a; x99; x64; x0a; x99; x65; x0a; x99;
  x66; x0a; x99; x67; x0a; x99; x68; x0a;
  x99; x69; x0a; x99; x6a; x0a; x99; x6b;
  x0a; x99; x6c; x0a; x99; x6d; x0a; x99;
  x6e; x0a; x99; x6f; x0a; x99; x70; x0a;
  x99; x71; x0a; x99; x72; x0a; x99; x73;
  x0a; x99; x74; x0a; x99; x75; x0a; x99;
  x76; x0a; x99; x77; x0a; x99; x78; x0a;
  x99; x79; x0a; x99; x7a; x0a; x99; x7b;
  x0a; x99; x7c; x0a; x99; x7d; x0a; x99
].
(* tests/test_data/whatwg/big5_whatwg_test_encode_out.txt, entries 8448..8703 *)
Definition big5_encode_out_33 : list byte := [
  x7e; x0a; x99; xa1; x0a; x99; xa2; x0a;
  x99; xa3; x0a; x99; xa4; x0a; x99; xa5;
  x0a; x99; xa6; x0a; x99; xa7; x0a; x99;
  xa8; x0a; x99; xa9; x0a; x99; xaa; x0a;
  x99; xab; x0a; x99; xac; x0a; x99; xad;
  x0a; x99; xae; x0a; x99; xaf; x0a; x99;
  xb0; x0a; x99; xb1; x0a; x99; xb2; x0a;
  x99; xb3; x0a; x99; xb4; x0a; x99; xb5;
  x0a; x99; xb6; x0a; x99; xb7; x0a; x99;
  xb8; x0a; x99; xb9; x0a; x99; xba; x0a;
  x99; xbb; x0a; x99; xbc; x0a; x99; xbd;
  x0a; x99; xbe; x0a; x99; xbf; x0a; x99;
  xc0; x0a; x99; xc1; x0a; x99; xc2; x0a;
  x99; xc3; x0a; x99; xc4; x0a; x99; xc5;
  x0a; x99; xc6; x0a; x99; xc7; x0a; x99;
  xc8; x0a; x99; xc9; x0a; x99; xca; x0a;
  x99; xcb; x0a; x99; xcc; x0a; x99; xcd;
  x0a; x99; xce; x0a; x99; xcf; x0a; x99;
  xd0; x0a; x99; xd1; x0a; x99; xd2; x0a;
  x99; xd3; x0a; x99; xd4; x0a; x99; xd5;
  x0a; x99; xd6; x0a; x99; xd7; x0a; x99;
  xd8; x0a; x99; xd9; x0a; x99; xda; x0a;
  x99; xdb; x0a; x99; xdc; x0a; x99; xdd;
  x0a; x99; xde; x0a; x99; xdf; x0a; x99;
  xe0; x0a; x99; xe1; x0a; x99; xe2; x0a;
  x99; xe3; x0a; x99; xe4; x0a; x99; xe5;
  x0a; x99; xe6; x0a; x99; xe7; x0a; x99;
  xe8; x0a; x99; xe9; x0a; x99; xea; x0a;
  x99; xeb; x0a; x99; xec; x0a; x99; xed;
  x0a; x99; xee; x0a; x99; xef; x0a; x99;
  xf0; x0a; x99; xf1; x0a; x99; xf2; x0a;
  x99; xf3; x0a; x99; xf4; x0a; x99; xf5
].
(* tests/test_data/whatwg/big5_whatwg_test_encode_out.txt, entries 8704..8959 *)
Definition big5_encode_out_34 : list byte := [
  x0a; x99; xf6; x0a; x99; xf7; x0a; x99;
  xf8; x0a; x99; xf9; x0a; x99; xfa; x0a;
  x99; xfb; x0a; x99; xfc; x0a; x99; xfd;
  x0a; x99; xfe; x0a; x9a; x40; x0a; x9a;
  x41; x0a; x9a; x42; x0a; x9a; x43; x0a;
  x9a; x44; x0a; x9a; x45; x0a; x9a; x46;
  x0a; x9a; x47; x0a; x9a; x48; x0a; x9a;
  x49; x0a; x9a; x4a; x0a; x9a; x4b; x0a;
  x9a; x4c; x0a; x9a; x4d; x0a; x9a; x4e;
  x0a; x9a; x4f; x0a; x9a; x50; x0a; x9a;
  x51; x0a; x9a; x52; x0a; x9a; x53; x0a;
  x9a; x54; x0a; x9a; x55; x0a; x9a; x56;
  x0a; x9a; x57; x0a; x9a; x58; x0a; x9a;
  x59; x0a; x9a; x5a; x0a; x9a; x5b; x0a;
  x9a; x5c; x0a; x9a; x5d; x0a; x9a; x5e;
  x0a; x9a; x5f; x0a; x9a; x60; x0a; x9a;
  x61; x0a; x9a; x62; x0a; x9a; x63; x0a;
  x9a; x64; x0a; x9a; x65; x0a; x9a; x66;
  x0a; x9a; x67; x0a; x9a; x68; x0a; x9a;
  x69; x0a; x9a; x6a; x0a; x9a; x6b; x0a;
  x9a; x6c; x0a; x9a; x6d; x0a; x9a; x6e;
  x0a; x9a; x6f; x0a; x9a; x70; x0a; x9a;
  x71; x0a; x9a; x72; x0a; x9a; x73; x0a;
  x9a; x74; x0a; x9a; x75; x0a; x9a; x76;
  x0a; x9a; x77; x0a; x9a; x78; x0a; x9a;
  x79; x0a; x9a; x7a; x0a; x9a; x7b; x0a;
  x9a; x7c; x0a; x9a; x7d; x0a; x9a; x7e;
  x0a; x9a; xa1; x0a; x9a; xa2; x0a; x9a;
  xa3; x0a; x9a; xa4; x0a; x9a; xa5; x0a;
  x9a; xa6; x0a; x9a; xa7; x0a; x9a; xa8;
  x0a; x9a; xa9; x0a; x9a; xaa; x0a; x9a;
  xab; x0a; x9a; xac; x0a; x9a; xad; x0a
].
(* tests/test_data/whatwg/big5_whatwg_test_encode_out.txt, entries 8960..9215 *)
Definition big5_encode_out_35 : list byte := [
  x9a; xae; x0a; x9a; xaf; x0a; x9a; xb0;
  x0a; x9a; xb1; x0a; x9a; xb2; x0a; x9a;
  xb3; x0a; x9a; xb4; x0a; x9a; xb5; x0a;
  x9a; xb6; x0a; x9a; xb7; x0a; x9a; xb8;
  x0a; x9a; xb9; x0a; x9a; xba; x0a; x9a;
  xbb; x0a; x9a; xbc; x0a; x9a; xbd; x0a;
  x9a; xbe; x0a; x9a; xbf; x0a; x9a; xc0;
  x0a; x9a; xc1; x0a; x9a; xc2; x0a; x9a;
  xc3; x0a; x9a; xc4; x0a; x9a; xc5; x0a;
  x9a; xc6; x0a; x9a; xc7; x0a; x9a; xc8;
  x0a; x9a; xc9; x0a; x9a; xca; x0a; x9a;
  xcb; x0a; x9a; xcc; x0a; x9a; xcd; x0a;
  x9a; xce; x0a; x9a; xcf; x0a; x9a; xd0;
  x0a; x9a; xd1; x0a; x9a; xd2; x0a; x9a;
  xd3; x0a; x9a; xd4; x0a; x9a; xd5; x0a;
  x9a; xd6; x0a; x9a; xd7; x0a; x9a; xd8;
  x0a; x9a; xd9; x0a; x9a; xda; x0a; x9a;
  xdb; x0a; x9a; xdc; x0a; x9a; xdd; x0a;
  x9a; xde; x0a; x9a; xdf; x0a; x9a; xe0;
  x0a; x9a; xe1; x0a; x9a; xe2; x0a; x9a;
  xe3; x0a; x9a; xe4; x0a; x9a; xe5; x0a;
  x9a; xe6; x0a; x9a; xe7; x0a; x9a; xe8;
  x0a; x9a; xe9; x0a; x9a; xea; x0a; x9a;
  xeb; x0a; x9a; xec; x0a; x9a; xed; x0a;
  x9a; xee; x0a; x9a; xef; x0a; x9a; xf0;
  x0a; x9a; xf1; x0a; x9a; xf2; x0a; x9a;
  xf3; x0a; x9a; xf4; x0a; x9a; xf5; x0a;
  x9a; xf6; x0a; x9a; xf7; x0a; x9a; xf8;
  x0a; x9a; xf9; x0a; x9a; xfa; x0a; x9a;
  xfb; x0a; x9a; xfc; x0a; x9a; xfd; x0a;
  x9a; xfe; x0a; x9b; x40; x0a; x9b; x41;
  x0a; x9b; x42; x0a; x9b; x43; x0a; x9b
].
(* tests/test_data/whatwg/big5_whatwg_test_encode_out.txt, entries 9216..9471 *)
Definition big5_encode_out_36 : list byte := [
  x44; x0a; x9b; x45; x0a; x9b; x46; x0a;
  x9b; x47; x0a; x9b; x48; x0a; x9b; x49;
  x0a; x9b; x4a; x0a; x9b; x4b; x0a; x9b;
  x4c; x0a; x9b; x4d; x0a; x9b; x4e; x0a;
  x9b; x4f; x0a; x9b; x50; x0a; x9b; x51;
  x0a; x9b; x52; x0a; x9b; x53; x0a; x9b;
  x54; x0a; x9b; x55; x0a; x9b; x56; x0a;
  x9b; x57; x0a; x9b; x58; x0a; x9b; x59;
  x0a; x9b; x5a; x0a; x9b; x5b; x0a; x9b;
  x5c; x0a; x9b; x5d; x0a; x9b; x5e; x0a;
  x9b; x5f; x0a; x9b; x60; x0a; x9b; x62;
  x0a; x9b; x63; x0a; x9b; x64; x0a; x9b;
  x65; x0a; x9b; x66; x0a; x9b; x67; x0a;
  x9b; x68; x0a; x9b; x69; x0a; x9b; x6a;
  x0a; x9b; x6b; x0a; x9b; x6c; x0a; x9b;
  x6d; x0a; x9b; x6e; x0a; x9b; x6f; x0a;
  x9b; x70; x0a; x9b; x71; x0a; x9b; x72;
  x0a; x9b; x73; x0a; x9b; x74; x0a; x9b;
  x75; x0a; x9b; x76; x0a; x9b; x77; x0a;
  x9b; x78; x0a; x9b; x79; x0a; x9b; x7a;
  x0a; x9b; x7b; x0a; x9b; x7c; x0a; x9b;
  x7d; x0a; x9b; x7e; x0a; x9b; xa1; x0a;
  x9b; xa2; x0a; x9b; xa3; x0a; x9b; xa4;
  x0a; x9b; xa5; x0a; x9b; xa6; x0a; x9b;
  xa7; x0a; x9b; xa8; x0a; x9b; xa9; x0a;
  x9b; xaa; x0a; x9b; xab; x0a; x9b; xac;
  x0a; x9b; xad; x0a; x9b; xae; x0a; x9b;
  xaf; x0a; x9b; xb0; x0a; x9b; xb1; x0a;
  x9b; xb2; x0a; x9b; xb3; x0a; x9b; xb4;
  x0a; x9b; xb5; x0a; x9b; xb6; x0a; x9b;
  xb7; x0a; x9b; xb8; x0a; x9b; xb9; x0a;
  x9b; xba; x0a; x9b; xbb; x0a; x9b; xbc
].
(* tests/test_data/whatwg/big5_whatwg_test_encode_out.txt, entries 9472..9727 *)
Definition big5_encode_out_37 : list byte := [
  x0a; x9b; xbd; x0a; x9b; xbe; x0a; x9b;
  xbf; x0a; x9b; xc0; x0a; x9b; xc1; x0a;
  x9b; xc2; x0a; x9b; xc3; x0a; x9b; xc4;
  x0a; x9b; xc5; x0a; x9b; xc6; x0a; x9b;
  xc7; x0a; x9b; xc8; x0a; x9b; xc9; x0a;
  x9b; xca; x0a; x9b; xcb; x0a; x9b; xcc;
  x0a; x9b; xcd; x0a; x9b; xce; x0a; x9b;
  xcf; x0a; x9b; xd0; x0a; x9b; xd1; x0a;
  x9b; xd2; x0a; x9b; xd3; x0a; x9b; xd4;
  x0a; x9b; xd5; x0a; x9b; xd6; x0a; x9b;
  xd7; x0a; x9b; xd8; x0a; x9b; xd9; x0a;
  x9b; xda; x0a; x9b; xdb; x0a; x9b; xdc;
  x0a; x9b; xdd; x0a; x9b; xde; x0a; x9b;
  xdf; x0a; x9b; xe0; x0a; x9b; xe1; x0a;
  x9b; xe2; x0a; x9b; xe3; x0a; x9b; xe4;
  x0a; x9b; xe5; x0a; x9b; xe6; x0a; x9b;
  xe7; x0a; x9b; xe8; x0a; x9b; xe9; x0a;
  x9b; xea; x0a; x9b; xeb; x0a; x9b; xec;
  x0a; x9b; xed; x0a; x9b; xee; x0a; x9b;
  xef; x0a; x9b; xf0; x0a; x9b; xf1; x0a;
  x9b; xf2; x0a; x9b; xf3; x0a; x9b; xf4;
  x0a; x9b; xf5; x0a; x9b; xf6; x0a; x9b;
  xf7; x0a; x9b; xf8; x0a; x9b; xf9; x0a;
  x9b; xfa; x0a; x9b; xfb; x0a; x9b; xfc;
  x0a; x9b; xfd; x0a; x9b; xfe; x0a; x9c;
  x40; x0a; x9c; x41; x0a; x9c; x42; x0a;
  x9c; x43; x0a; x9c; x44; x0a; x9c; x45;
  x0a; x9c; x46; x0a; x9c; x47; x0a; x9c;
  x48; x0a; x9c; x49; x0a; x9c; x4a; x0a;
  x9c; x4b; x0a; x9c; x4c; x0a; x9c; x4d;
  x0a; x9c; x4e; x0a; x9c; x4f; x0a; x9c;
  x50; x0a; x9c; x51; x0a; x9c; x52; x0a
].
(* tests/test_data/whatwg/big5_whatwg_test_encode_out.txt, entries 9728..9983 *)
Definition big5_encode_out_38 : list byte := [
  x9c; x53; x0a; x9c; x54; x0a; x9c; x55;
  x0a; x9c; x56; x0a; x9c; x57; x0a; x9c;
  x58; x0a; x9c; x59; x0a; x9c; x5a; x0a;
  x9c; x5b; x0a; x9c; x5c; x0a; x9c; x5d;
  x0a; x9c; x5e; x0a; x9c; x5f; x0a; x9c;
  x60; x0a; x9c; x61; x0a; x9c; x62; x0a;
  x9c; x63; x0a; x9c; x64; x0a; x9c; x65;
  x0a; x9c; x66; x0a; x9c; x67; x0a; x9c;
  x68; x0a; x9c; x69; x0a; x9c; x6a; x0a;
  x9c; x6b; x0a; x9c; x6c; x0a; x9c; x6d;
  x0a; x9c; x6e; x0a; x9c; x6f; x0a; x9c;
  x70; x0a; x9c; x71; x0a; x9c; x72; x0a;
  x9c; x73; x0a; x9c; x74; x0a; x9c; x75;
  x0a; x9c; x76; x0a; x9c; x77; x0a; x9c;
  x78; x0a; x9c; x79; x0a; x9c; x7a; x0a;
  x9c; x7b; x0a; x9c; x7c; x0a; x9c; x7d;
  x0a; x9c; x7e; x0a; x9c; xa1; x0a; x9c;
  xa2; x0a; x9c; xa3; x0a; x9c; xa4; x0a;
  x9c; xa5; x0a; x9c; xa6; x0a; x9c; xa7;
  x0a; x9c; xa8; x0a; x9c; xa9; x0a; x9c;
  xaa; x0a; x9c; xab; x0a; x9c; xac; x0a;
  x9c; xad; x0a; x9c; xae; x0a; x9c; xaf;
  x0a; x9c; xb0; x0a; x9c; xb1; x0a; x9c;
  xb2; x0a; x9c; xb3; x0a; x9c; xb4; x0a;
  x9c; xb5; x0a; x9c; xb6; x0a; x9c; xb7;
  x0a; x9c; xb8; x0a; x9c; xb9; x0a; x9c;
  xba; x0a; x9c; xbb; x0a; x9c; xbc; x0a;
  x9c; xbd; x0a; x9c; xbe; x0a; x9c; xbf;
  x0a; x9c; xc0; x0a; x9c; xc1; x0a; x9c;
  xc2; x0a; x9c; xc3; x0a; x9c; xc4; x0a;
  x9c; xc5; x0a; x9c; xc6; x0a; x9c; xc7;
  x0a; x9c; xc8; x0a; x9c; xc9; x0a; x9c
].
(* tests/test_data/whatwg/big5_whatwg_test_encode_out.txt, entries 9984..10239 *)
Definition big5_encode_out_39 : list byte := [
  xca; x0a; x9c; xcb; x0a; x9c; xcc; x0a;
  x9c; xcd; x0a; x9c; xce; x0a; x9c; xcf;
  x0a; x9c; xd0; x0a; x9c; xd1; x0a; x9c;
  xd2; x0a; x9c; xd3; x0a; x9c; xd4; x0a;
  x9c; xd5; x0a; x9c; xd6; x0a; x9c; xd7;
  x0a; x9c; xd8; x0a; x9c; xd9; x0a; x9c;
  xda; x0a; x9c; xdb; x0a; x9c; xdc; x0a;
  x9c; xdd; x0a; x9c; xde; x0a; x9c; xdf;
  x0a; x9c; xe0; x0a; x9c; xe1; x0a; x9c;
  xe2; x0a; x9c; xe3; x0a; x9c; xe5; x0a;
  x9c; xe6; x0a; x9c; xe7; x0a; x9c; xe8;
  x0a; x9c; xe9; x0a; x9c; xea; x0a; x9c;
  xeb; x0a; x9c; xec; x0a; x9c; xed; x0a;
  x9c; xee; x0a; x9c; xef; x0a; x9c; xf0;
  x0a; x9c; xf1; x0a; x9c; xf2; x0a; x9c;
  xf3; x0a; x9c; xf4; x0a; x9c; xf5; x0a;
  x9c; xf6; x0a; x9c; xf7; x0a; x9c; xf8;
  x0a; x9c; xf9; x0a; x9c; xfa; x0a; x9c;
  xfb; x0a; x9c; xfc; x0a; x9c; xfd; x0a;
  x9c; xfe; x0a; x9d; x40; x0a; x9d; x41;
  x0a; x9d; x42; x0a; x9d; x43; x0a; x9d;
  x44; x0a; x9d; x45; x0a; x9d; x46; x0a;
  x9d; x47; x0a; x9d; x48; x0a; x9d; x49;
  x0a; x9d; x4a; x0a; x9d; x4b; x0a; x9d;
  x4c; x0a; x9d; x4d; x0a; x9d; x4e; x0a;
  x9d; x4f; x0a; x9d; x50; x0a; x9d; x51;
  x0a; x9d; x52; x0a; x9d; x53; x0a; x9d;
  x54; x0a; x9d; x55; x0a; x9d; x56; x0a;
  x9d; x57; x0a; x9d; x58; x0a; x9d; x59;
  x0a; x9d; x5a; x0a; x9d; x5b; x0a; x9d;
  x5c; x0a; x9d; x5d; x0a; x9d; x5e; x0a;
  x9d; x5f; x0a; x9d; x60; x0a; x9d; x61
].
(* tests/test_data/whatwg/big5_whatwg_test_encode_out.txt, entries 10240..10495 *)
Definition big5_encode_out_40 : list byte := [
  x0a; x9d; x62; x0a; x9d; x63; x0a; x9d;
  x64; x0a; x9d; x65; x0a; x9d; x66; x0a;
  x9d; x67; x0a; x9d; x68; x0a; x9d; x69;
  x0a; x9d; x6a; x0a; x9d; x6b; x0a; x9d;
  x6c; x0a; x9d; x6d; x0a; x9d; x6e; x0a;
  x9d; x6f; x0a; x9d; x70; x0a; x9d; x71;
  x0a; x9d; x72; x0a; x9d; x73; x0a; x9d;
  x74; x0a; x9d; x75; x0a; x9d; x76; x0a;
  x9d; x77; x0a; x9d; x78; x0a; x9d; x79;
  x0a; x9d; x7a; x0a; x9d; x7b; x0a; x9d;
  x7c; x0a; x9d; x7d; x0a; x9d; x7e; x0a;
  x9d; xa1; x0a; x9d; xa2; x0a; x9d; xa3;
  x0a; x9d; xa4; x0a; x9d; xa5; x0a; x9d;
  xa6; x0a; x9d; xa7; x0a; x9d; xa8; x0a;
  x9d; xa9; x0a; x9d; xaa; x0a; x9d; xab;
  x0a; x9d; xac; x0a; x9d; xad; x0a; x9d;
  xae; x0a; x9d; xaf; x0a; x9d; xb0; x0a;
  x9d; xb1; x0a; x9d; xb2; x0a; x9d; xb3;
  x0a; x9d; xb4; x0a; x9d; xb5; x0a; x9d;
  xb6; x0a; x9d; xb7; x0a; x9d; xb8; x0a;
  x9d; xb9; x0a; x9d; xba; x0a; x9d; xbb;
  x0a; x9d; xbc; x0a; x9d; xbd; x0a; x9d;
  xbe; x0a; x9d; xbf; x0a; x9d; xc0; x0a;
  x9d; xc1; x0a; x9d; xc2; x0a; x9d; xc3;
  x0a; x9d; xc4; x0a; x9d; xc5; x0a; x9d;
  xc6; x0a; x9d; xc7; x0a; x9d; xc8; x0a;
  x9d; xc9; x0a; x9d; xca; x0a; x9d; xcb;
  x0a; x9d; xcc; x0a; x9d; xcd; x0a; x9d;
  xce; x0a; x9d; xcf; x0a; x9d; xd0; x0a;
  x9d; xd1; x0a; x9d; xd2; x0a; x9d; xd3;
  x0a; x9d; xd4; x0a; x9d; xd5; x0a; x9d;
  xd6; x0a; x9d; xd7; x0a; x9d; xd8; x0a
].
(* tests/test_data/whatwg/big5_whatwg_test_encode_out.txt, entries 10496..10751 *)
Definition big5_encode_out_41 : list byte := [
  x9d; xd9; x0a; x9d; xda; x0a; x9d; xdb;
  x0a; x9d; xdc; x0a; x9d; xdd; x0a; x9d;
  xde; x0a; x9d; xdf; x0a; x9d; xe0; x0a;
  x9d; xe1; x0a; x9d; xe2; x0a; x9d; xe3;
  x0a; x9d; xe4; x0a; x9d; xe5; x0a; x9d;
  xe6; x0a; x9d; xe7; x0a; x9d; xe8; x0a;
  x9d; xe9; x0a; x9d; xea; x0a; x9d; xeb;
  x0a; x9d; xec; x0a; x9d; xed; x0a; x9d;
  xee; x0a; x9d; xef; x0a; x9d; xf0; x0a;
  x9d; xf1; x0a; x9d; xf2; x0a; x9d; xf3;
  x0a; x9d; xf4; x0a; x9d; xf5; x0a; x9d;
  xf6; x0a; x9d; xf7; x0a; x9d; xf8; x0a;
  x9d; xf9; x0a; x9d; xfa; x0a; x9d; xfb;
  x0a; x9d; xfc; x0a; x9d; xfd; x0a; x9d;
  xfe; x0a; x9e; x40; x0a; x9e; x41; x0a;
  x9e; x42; x0a; x9e; x43; x0a; x9e; x44;
  x0a; x9e; x45; x0a; x9e; x46; x0a; x9e;
  x47; x0a; x9e; x48; x0a; x9e; x49; x0a;
  x9e; x4a; x0a; x9e; x4b; x0a; x9e; x4c;
  x0a; x9e; x4d; x0a; x9e; x4e; x0a; x9e;
  x4f; x0a; x9e; x50; x0a; x9e; x51; x0a;
  x9e; x52; x0a; x9e; x53; x0a; x9e; x54;
  x0a; x9e; x55; x0a; x9e; x56; x0a; x9e;
  x57; x0a; x9e; x58; x0a; x9e; x59; x0a;
  x9e; x5a; x0a; x9e; x5b; x0a; x9e; x5c;
  x0a; x9e; x5d; x0a; x9e; x5e; x0a; x9e;
  x5f; x0a; x9e; x60; x0a; x9e; x61; x0a;
  x9e; x62; x0a; x9e; x63; x0a; x9e; x64;
  x0a; x9e; x65; x0a; x9e; x66; x0a; x9e;
  x67; x0a; x9e; x68; x0a; x9e; x69; x0a;
  x9e; x6a; x0a; x9e; x6b; x0a; x9e; x6c;
  x0a; x9e; x6d; x0a; x9e; x6e; x0a; x9e
].
(* tests/test_data/whatwg/big5_whatwg_test_encode_out.txt, entries 10752..11007 *)
Definition big5_encode_out_42 : list byte := [
  x6f; x0a; x9e; x70; x0a; x9e; x71; x0a;
  x9e; x72; x0a; x9e; x73; x0a; x9e; x74;
  x0a; x9e; x75; x0a; x9e; x76; x0a; x9e;
  x77; x0a; x9e; x78; x0a; x9e; x79; x0a;
  x9e; x7a; x0a; x9e; x7b; x0a; x9e; x7c;
  x0a; x9e; x7d; x0a; x9e; x7e; x0a; x9e;
  xa1; x0a; x9e; xa2; x0a; x9e; xa3; x0a;
  x9e; xa4; x0a; x9e; xa5; x0a; x9e; xa6;
  x0a; x9e; xa7; x0a; x9e; xa8; x0a; x9e;
  xa9; x0a; x9e; xaa; x0a; x9e; xab; x0a;
  x9e; xad; x0a; x9e; xae; x0a; x9e; xaf;
  x0a; x9e; xb0; x0a; x9e; xb1; x0a; x9e;
  xb2; x0a; x9e; xb3; x0a; x9e; xb4; x0a;
  x9e; xb5; x0a; x9e; xb6; x0a; x9e; xb7;
  x0a; x9e; xb8; x0a; x9e; xb9; x0a; x9e;
  xba; x0a; x9e; xbb; x0a; x9e; xbc; x0a;
  x9e; xbd; x0a; x9e; xbe; x0a; x9e; xbf;
  x0a; x9e; xc0; x0a; x9e; xc1; x0a; x9e;
  xc2; x0a; x9e; xc3; x0a; x9e; xc5; x0a;
  x9e; xc6; x0a; x9e; xc7; x0a; x9e; xc8;
  x0a; x9e; xc9; x0a; x9e; xca; x0a; x9e;
  xcb; x0a; x9e; xcc; x0a; x9e; xcd; x0a;
  x9e; xce; x0a; x9e; xcf; x0a; x9e; xd0;
  x0a; x9e; xd1; x0a; x9e; xd2; x0a; x9e;
  xd3; x0a; x9e; xd4; x0a; x9e; xd5; x0a;
  x9e; xd6; x0a; x9e; xd7; x0a; x9e; xd8;
  x0a; x9e; xd9; x0a; x9e; xda; x0a; x9e;
  xdb; x0a; x9e; xdc; x0a; x9e; xdd; x0a;
  x9e; xde; x0a; x9e; xdf; x0a; x9e; xe0;
  x0a; x9e; xe1; x0a; x9e; xe2; x0a; x9e;
  xe3; x0a; x9e; xe4; x0a; x9e; xe5; x0a;
  x9e; xe6; x0a; x9e; xe7; x0a; x9e; xe8
].
(* tests/test_data/whatwg/big5_whatwg_test_encode_out.txt, entries 11008..11263 *)
Definition big5_encode_out_43 : list byte := [
  x0a; x9e; xe9; x0a; x9e; xea; x0a; x9e;
  xeb; x0a; x9e; xec; x0a; x9e; xed; x0a;
  x9e; xee; x0a; x9e; xef; x0a; x9e; xf0;
  x0a; x9e; xf1; x0a; x9e; xf2; x0a; x9e;
  xf3; x0a; x9e; xf5; x0a; x9e; xf6; x0a;
  x9e; xf7; x0a; x9e; xf8; x0a; x9e; xf9;
  x0a; x9e; xfa; x0a; x9e; xfb; x0a; x9e;
  xfc; x0a; x9e; xfd; x0a; x9e; xfe; x0a;
  x9f; x40; x0a; x9f; x41; x0a; x9f; x42;
  x0a; x9f; x43; x0a; x9f; x44; x0a; x9f;
  x45; x0a; x9f; x46; x0a; x9f; x47; x0a;
  x9f; x48; x0a; x9f; x49; x0a; x9f; x4a;
  x0a; x9f; x4b; x0a; x9f; x4c; x0a; x9f;
  x4d; x0a; x9f; x4f; x0a; x9f; x50; x0a;
  x9f; x51; x0a; x9f; x52; x0a; x9f; x53;
  x0a; x9f; x54; x0a; x9f; x55; x0a; x9f;
  x56; x0a; x9f; x57; x0a; x9f; x58; x0a;
  x9f; x59; x0a; x9f; x5a; x0a; x9f; x5b;
  x0a; x9f; x5c; x0a; x9f; x5d; x0a; x9f;
  x5e; x0a; x9f; x5f; x0a; x9f; x60; x0a;
  x9f; x61; x0a; x9f; x62; x0a; x9f; x63;
  x0a; x9f; x64; x0a; x9f; x65; x0a; x9f;
  x67; x0a; x9f; x68; x0a; x9f; x69; x0a;
  x9f; x6a; x0a; x9f; x6b; x0a; x9f; x6c;
  x0a; x9f; x6d; x0a; x9f; x6e; x0a; x9f;
  x6f; x0a; x9f; x70; x0a; x9f; x71; x0a;
  x9f; x72; x0a; x9f; x73; x0a; x9f; x74;
  x0a; x9f; x75; x0a; x9f; x76; x0a; x9f;
  x77; x0a; x9f; x78; x0a; x9f; x79; x0a;
  x9f; x7a; x0a; x9f; x7b; x0a; x9f; x7c;
  x0a; x9f; x7d; x0a; x9f; x7e; x0a; x9f;
  xa1; x0a; x9f; xa2; x0a; x9f; xa3; x0a
].
(* tests/test_data/whatwg/big5_whatwg_test_encode_out.txt, entries 11264..11519 *)
Definition big5_encode_out_44 : list byte := [
  x9f; xa4; x0a; x9f; xa5; x0a; x9f; xa6;
  x0a; x9f; xa7; x0a; x9f; xa8; x0a; x9f;
  xa9; x0a; x9f; xaa; x0a; x9f; xab; x0a;
  x9f; xac; x0a; x9f; xae; x0a; x9f; xaf;
  x0a; x9f; xb0; x0a; x9f; xb2; x0a; x9f;
  xb3; x0a; x9f; xb4; x0a; x9f; xb5; x0a;
  x9f; xb6; x0a; x9f; xb7; x0a; x9f; xb8;
  x0a; x9f; xb9; x0a; x9f; xba; x0a; x9f;
  xbb; x0a; x9f; xbc; x0a; x9f; xbd; x0a;
  x9f; xbe; x0a; x9f; xbf; x0a; x9f; xc1;
  x0a; x9f; xc2; x0a; x9f; xc3; x0a; x9f;
  xc4; x0a; x9f; xc5; x0a; x9f; xc6; x0a;
  x9f; xc7; x0a; x9f; xc9; x0a; x9f; xca;
  x0a; x9f; xcb; x0a; x9f; xcc; x0a; x9f;
  xcd; x0a; x9f; xce; x0a; x9f; xcf; x0a;
  x9f; xd0; x0a; x9f; xd1; x0a; x9f; xd2;
  x0a; x9f; xd3; x0a; x9f; xd4; x0a; x9f;
  xd5; x0a; x9f; xd6; x0a; x9f; xd7; x0a;
  x9f; xd9; x0a; x9f; xdb; x0a; x9f; xdc;
  x0a; x9f; xdd; x0a; x9f; xde; x0a; x9f;
  xdf; x0a; x9f; xe0; x0a; x9f; xe1; x0a;
  x9f; xe2; x0a; x9f; xe3; x0a; x9f; xe4;
  x0a; x9f; xe5; x0a; x9f; xe7; x0a; x9f;
  xe8; x0a; x9f; xe9; x0a; x9f; xeb; x0a;
  x9f; xec; x0a; x9f; xed; x0a; x9f; xee;
  x0a; x9f; xf0; x0a; x9f; xf1; x0a; x9f;
  xf2; x0a; x9f; xf3; x0a; x9f; xf4; x0a;
  x9f; xf5; x0a; x9f; xf6; x0a; x9f; xf7;
  x0a; x9f; xf8; x0a; x9f; xf9; x0a; x9f;
  xfa; x0a; x9f; xfb; x0a; x9f; xfc; x0a;
  x9f; xfd; x0a; x9f; xfe; x0a; xa0; x40;
  x0a; xa0; x41; x0a; xa0; x42; x0a; xa0
].
(* tests/test_data/whatwg/big5_whatwg_test_encode_out.txt, entries 11520..11775 *)
Definition big5_encode_out_45 : list byte := [
  x43; x0a; xa0; x44; x0a; xa0; x45; x0a;
  xa0; x46; x0a; xa0; x47; x0a; xa0; x48;
  x0a; xa0; x49; x0a; xa0; x4a; x0a; xa0;
  x4b; x0a; xa0; x4c; x0a; xa0; x4d; x0a;
  xa0; x4e; x0a; xa0; x4f; x0a; xa0; x50;
  x0a; xa0; x51; x0a; xa0; x52; x0a; xa0;
  x53; x0a; xa0; x55; x0a; xa0; x56; x0a;
  xa0; x58; x0a; xa0; x59; x0a; xa0; x5b;
  x0a; xa0; x5c; x0a; xa0; x5d; x0a; xa0;
  x5e; x0a; xa0; x60; x0a; xa0; x61; x0a;
  xa0; x64; x0a; xa0; x65; x0a; xa0; x66;
  x0a; xa0; x67; x0a; xa0; x68; x0a; xa0;
  x69; x0a; xa0; x6a; x0a; xa0; x6b; x0a;
  xa0; x6c; x0a; xa0; x6d; x0a; xa0; x6e;
  x0a; xa0; x6f; x0a; xa0; x70; x0a; xa0;
  x71; x0a; xa0; x73; x0a; xa0; x74; x0a;
  xa0; x75; x0a; xa0; x76; x0a; xa0; x77;
  x0a; xa0; x78; x0a; xa0; x79; x0a; xa0;
  x7a; x0a; xa0; x7b; x0a; xa0; x7c; x0a;
  xa0; x7d; x0a; xa0; x7e; x0a; xa0; xa1;
  x0a; xa0; xa2; x0a; xa0; xa3; x0a; xa0;
  xa4; x0a; xa0; xa6; x0a; xa0; xa7; x0a;
  xa0; xa8; x0a; xa0; xa9; x0a; xa0; xaa;
  x0a; xa0; xab; x0a; xa0; xac; x0a; xa0;
  xae; x0a; xa0; xb0; x0a; xa0; xb1; x0a;
  xa0; xb2; x0a; xa0; xb3; x0a; xa0; xb4;
  x0a; xa0; xb5; x0a; xa0; xb6; x0a; xa0;
  xb7; x0a; xa0; xb8; x0a; xa0; xb9; x0a;
  xa0; xba; x0a; xa0; xbb; x0a; xa0; xbc;
  x0a; xa0; xbd; x0a; xa0; xbe; x0a; xa0;
  xbf; x0a; xa0; xc0; x0a; xa0; xc1; x0a;
  xa0; xc2; x0a; xa0; xc3; x0a; xa0; xc4
].
(* tests/test_data/whatwg/big5_whatwg_test_encode_out.txt, entries 11776..12031 *)
Definition big5_encode_out_46 : list byte := [
  x0a; xa0; xc5; x0a; xa0; xc6; x0a; xa0;
  xc7; x0a; xa0; xc8; x0a; xa0; xc9; x0a;
  xa0; xca; x0a; xa0; xcb; x0a; xa0; xcc;
  x0a; xa0; xcd; x0a; xa0; xce; x0a; xa0;
  xcf; x0a; xa0; xd0; x0a; xa0; xd1; x0a;
  xa0; xd2; x0a; xa0; xd6; x0a; xa0; xd7;
  x0a; xa0; xd8; x0a; xa0; xd9; x0a; xa0;
  xda; x0a; xa0; xdb; x0a; xa0; xdc; x0a;
  xa0; xdd; x0a; xa0; xde; x0a; xa0; xdf;
  x0a; xa0; xe0; x0a; xa0; xe2; x0a; xa0;
  xe3; x0a; xa0; xe5; x0a; xa0; xe6; x0a;
  xa0; xe7; x0a; xa0; xe8; x0a; xa0; xe9;
  x0a; xa0; xea; x0a; xa0; xeb; x0a; xa0;
  xec; x0a; xa0; xed; x0a; xa0; xee; x0a;
  xa0; xef; x0a; xa0; xf0; x0a; xa0; xf1;
  x0a; xa0; xf2; x0a; xa0; xf3; x0a; xa0;
  xf4; x0a; xa0; xf5; x0a; xa0; xf6; x0a;
  xa0; xf7; x0a; xa0; xf8; x0a; xa0; xf9;
  x0a; xa0; xfa; x0a; xa0; xfb; x0a; xa0;
  xfc; x0a; xa0; xfd; x0a; xa0; xfe; x0a;
  xa1; x40; x0a; xa1; x41; x0a; xa1; x42;
  x0a; xa1; x43; x0a; xa1; x44; x0a; xa1;
  x45; x0a; xa1; x46; x0a; xa1; x47; x0a;
  xa1; x48; x0a; xa1; x49; x0a; xa1; x4a;
  x0a; xa1; x4b; x0a; xa1; x4c; x0a; xa1;
  x4d; x0a; xa1; x4e; x0a; xa1; x4f; x0a;
  xa1; x50; x0a; xa1; x51; x0a; xa1; x52;
  x0a; xa1; x53; x0a; xa1; x54; x0a; xa1;
  x55; x0a; xa1; x56; x0a; xa1; x57; x0a;
  xa1; x58; x0a; xa1; x59; x0a; xa1; x5a;
  x0a; xa1; x5b; x0a; xa1; x5c; x0a; xa1;
  x5d; x0a; xa1; x5e; x0a; xa1; x5f; x0a
].
(* tests/test_data/whatwg/big5_whatwg_test_encode_out.txt, entries 12032..12287 *)
Definition big5_encode_out_47 : list byte := [
  xa1; x60; x0a; xa1; x61; x0a; xa1; x62;
  x0a; xa1; x63; x0a; xa1; x64; x0a; xa1;
  x65; x0a; xa1; x66; x0a; xa1; x67; x0a;
  xa1; x68; x0a; xa1; x69; x0a; xa1; x6a;
  x0a; xa1; x6b; x0a; xa1; x6c; x0a; xa1;
  x6d; x0a; xa1; x6e; x0a; xa1; x6f; x0a;
  xa1; x70; x0a; xa1; x71; x0a; xa1; x72;
  x0a; xa1; x73; x0a; xa1; x74; x0a; xa1;
  x75; x0a; xa1; x76; x0a; xa1; x77; x0a;
  xa1; x78; x0a; xa1; x79; x0a; xa1; x7a;
  x0a; xa1; x7b; x0a; xa1; x7c; x0a; xa1;
  x7d; x0a; xa1; x7e; x0a; xa1; xa1; x0a;
  xa1; xa2; x0a; xa1; xa3; x0a; xa1; xa4;
  x0a; xa1; xa5; x0a; xa1; xa6; x0a; xa1;
  xa7; x0a; xa1; xa8; x0a; xa1; xa9; x0a;
  xa1; xaa; x0a; xa1; xab; x0a; xa1; xac;
  x0a; xa1; xad; x0a; xa1; xae; x0a; xa1;
  xaf; x0a; xa1; xb0; x0a; xa1; xb1; x0a;
  xa1; xb2; x0a; xa1; xb3; x0a; xa1; xb4;
  x0a; xa1; xb5; x0a; xa1; xb6; x0a; xa1;
  xb7; x0a; xa1; xb8; x0a; xa1; xb9; x0a;
  xa1; xba; x0a; xa1; xbb; x0a; xa1; xbc;
  x0a; xa1; xbd; x0a; xa1; xbe; x0a; xa1;
  xbf; x0a; xa1; xc0; x0a; xa1; xc1; x0a;
  xa1; xc2; x0a; xa1; xc3; x0a; xa1; xc4;
  x0a; xa1; xc5; x0a; xa1; xc6; x0a; xa1;
  xc7; x0a; xa1; xc8; x0a; xa1; xc9; x0a;
  xa1; xca; x0a; xa1; xcb; x0a; xa1; xcc;
  x0a; xa1; xcd; x0a; xa1; xce; x0a; xa1;
  xcf; x0a; xa1; xd0; x0a; xa1; xd1; x0a;
  xa1; xd2; x0a; xa1; xd3; x0a; xa1; xd4;
  x0a; xa1; xd5; x0a; xa1; xd6; x0a; xa1
].
(* tests/test_data/whatwg/big5_whatwg_test_encode_out.txt, entries 12288..12543 *)
Definition big5_encode_out_48 : list byte := [
  xd7; x0a; xa1; xd8; x0a; xa1; xd9; x0a;
  xa1; xda; x0a; xa1; xdb; x0a; xa1; xdc;
  x0a; xa1; xdd; x0a; xa1; xde; x0a; xa1;
  xdf; x0a; xa1; xe0; x0a; xa1; xe1; x0a;
  xa1; xe2; x0a; xa1; xe3; x0a; xa1; xe4;
  x0a; xa1; xe5; x0a; xa1; xe6; x0a; xa1;
  xe7; x0a; xa1; xe8; x0a; xa1; xe9; x0a;
  xa1; xea; x0a; xa1; xeb; x0a; xa1; xec;
  x0a; xa1; xed; x0a; xa1; xee; x0a; xa1;
  xef; x0a; xa1; xf0; x0a; xa1; xf1; x0a;
  xa1; xf2; x0a; xa1; xf3; x0a; xa1; xf4;
  x0a; xa1; xf5; x0a; xa1; xf6; x0a; xa1;
  xf7; x0a; xa1; xf8; x0a; xa1; xf9; x0a;
  xa1; xfa; x0a; xa1; xfb; x0a; xa1; xfc;
  x0a; xa1; xfd; x0a; xa1; xfe; x0a; xa2;
  x40; x0a; xa2; x41; x0a; xa2; x42; x0a;
  xa2; x43; x0a; xa2; x44; x0a; xa2; x45;
  x0a; xa2; x46; x0a; xa2; x47; x0a; xa2;
  x48; x0a; xa2; x49; x0a; xa2; x4a; x0a;
  xa2; x4b; x0a; xa2; x4c; x0a; xa2; x4d;
  x0a; xa2; x4e; x0a; xa2; x4f; x0a; xa2;
  x50; x0a; xa2; x51; x0a; xa2; x52; x0a;
  xa2; x53; x0a; xa2; x54; x0a; xa2; x55;
  x0a; xa2; x56; x0a; xa2; x57; x0a; xa2;
  x58; x0a; xa2; x5d; x0a; xa2; x5e; x0a;
  xa2; x5f; x0a; xa2; x60; x0a; xa2; x62;
  x0a; xa2; x63; x0a; xa2; x64; x0a; xa2;
  x65; x0a; xa2; x66; x0a; xa2; x67; x0a;
  xa2; x68; x0a; xa2; x69; x0a; xa2; x6a;
  x0a; xa2; x6b; x0a; xa2; x6c; x0a; xa2;
  x6d; x0a; xa2; x6e; x0a; xa2; x6f; x0a;
  xa2; x70; x0a; xa2; x71; x0a; xa2; x72
].
(* tests/test_data/whatwg/big5_whatwg_test_encode_out.txt, entries 12544..12799 *)
Definition big5_encode_out_49 : list byte := [
  x0a; xa2; x73; x0a; xa2; x74; x0a; xa2;
  x75; x0a; xa2; x76; x0a; xa2; x77; x0a;
  xa2; x78; x0a; xa2; x79; x0a; xa2; x7a;
  x0a; xa2; x7b; x0a; xa2; x7c; x0a; xa2;
  x7d; x0a; xa2; x7e; x0a; xa2; xa1; x0a;
  xa2; xa2; x0a; xa2; xa3; x0a; xa2; xa8;
  x0a; xa2; xa9; x0a; xa2; xaa; x0a; xa2;
  xab; x0a; xa2; xac; x0a; xa2; xad; x0a;
  xa2; xae; x0a; xa2; xaf; x0a; xa2; xb0;
  x0a; xa2; xb1; x0a; xa2; xb2; x0a; xa2;
  xb3; x0a; xa2; xb4; x0a; xa2; xb5; x0a;
  xa2; xb6; x0a; xa2; xb7; x0a; xa2; xb8;
  x0a; xa2; xb9; x0a; xa2; xba; x0a; xa2;
  xbb; x0a; xa2; xbc; x0a; xa2; xbd; x0a;
  xa2; xbe; x0a; xa2; xbf; x0a; xa2; xc0;
  x0a; xa2; xc1; x0a; xa2; xc2; x0a; xa2;
  xc3; x0a; xa2; xc4; x0a; xa2; xc5; x0a;
  xa2; xc6; x0a; xa2; xc7; x0a; xa2; xc8;
  x0a; xa2; xc9; x0a; xa2; xca; x0a; xa2;
  xcb; x0a; xa2; xcd; x0a; xa2; xcf; x0a;
  xa2; xd0; x0a; xa2; xd1; x0a; xa2; xd2;
  x0a; xa2; xd3; x0a; xa2; xd4; x0a; xa2;
  xd5; x0a; xa2; xd6; x0a; xa2; xd7; x0a;
  xa2; xd8; x0a; xa2; xd9; x0a; xa2; xda;
  x0a; xa2; xdb; x0a; xa2; xdc; x0a; xa2;
  xdd; x0a; xa2; xde; x0a; xa2; xdf; x0a;
  xa2; xe0; x0a; xa2; xe1; x0a; xa2; xe2;
  x0a; xa2; xe3; x0a; xa2; xe4; x0a; xa2;
  xe5; x0a; xa2; xe6; x0a; xa2; xe7; x0a;
  xa2; xe8; x0a; xa2; xe9; x0a; xa2; xea;
  x0a; xa2; xeb; x0a; xa2; xec; x0a; xa2;
  xed; x0a; xa2; xee; x0a; xa2; xef; x0a
].
(* tests/test_data/whatwg/big5_whatwg_test_encode_out.txt, entries 12800..13055 *)
Definition big5_encode_out_50 : list byte := [
  xa2; xf0; x0a; xa2; xf1; x0a; xa2; xf2;
  x0a; xa2; xf3; x0a; xa2; xf4; x0a; xa2;
  xf5; x0a; xa2; xf6; x0a; xa2; xf7; x0a;
  xa2; xf8; x0a; xa2; xf9; x0a; xa2; xfa;
  x0a; xa2; xfb; x0a; xa2; xfc; x0a; xa2;
  xfd; x0a; xa2; xfe; x0a; xa3; x40; x0a;
  xa3; x41; x0a; xa3; x42; x0a; xa3; x43;
  x0a; xa3; x44; x0a; xa3; x45; x0a; xa3;
  x46; x0a; xa3; x47; x0a; xa3; x48; x0a;
  xa3; x49; x0a; xa3; x4a; x0a; xa3; x4b;
  x0a; xa3; x4c; x0a; xa3; x4d; x0a; xa3;
  x4e; x0a; xa3; x4f; x0a; xa3; x50; x0a;
  xa3; x51; x0a; xa3; x52; x0a; xa3; x53;
  x0a; xa3; x54; x0a; xa3; x55; x0a; xa3;
  x56; x0a; xa3; x57; x0a; xa3; x58; x0a;
  xa3; x59; x0a; xa3; x5a; x0a; xa3; x5b;
  x0a; xa3; x5c; x0a; xa3; x5d; x0a; xa3;
  x5e; x0a; xa3; x5f; x0a; xa3; x60; x0a;
  xa3; x61; x0a; xa3; x62; x0a; xa3; x63;
  x0a; xa3; x64; x0a; xa3; x65; x0a; xa3;
  x66; x0a; xa3; x67; x0a; xa3; x68; x0a;
  xa3; x69; x0a; xa3; x6a; x0a; xa3; x6b;
  x0a; xa3; x6c; x0a; xa3; x6d; x0a; xa3;
  x6e; x0a; xa3; x6f; x0a; xa3; x70; x0a;
  xa3; x71; x0a; xa3; x72; x0a; xa3; x73;
  x0a; xa3; x74; x0a; xa3; x75; x0a; xa3;
  x76; x0a; xa3; x77; x0a; xa3; x78; x0a;
  xa3; x79; x0a; xa3; x7a; x0a; xa3; x7b;
  x0a; xa3; x7c; x0a; xa3; x7d; x0a; xa3;
  x7e; x0a; xa3; xa1; x0a; xa3; xa2; x0a;
  xa3; xa3; x0a; xa3; xa4; x0a; xa3; xa5;
  x0a; xa3; xa6; x0a; xa3; xa7; x0a; xa3
].
(* tests/test_data/whatwg/big5_whatwg_test_encode_out.txt, entries 13056..13311 *)
Definition big5_encode_out_51 : list byte := [
  xa8; x0a; xa3; xa9; x0a; xa3; xaa; x0a;
  xa3; xab; x0a; xa3; xac; x0a; xa3; xad;
  x0a; xa3; xae; x0a; xa3; xaf; x0a; xa3;
  xb0; x0a; xa3; xb1; x0a; xa3; xb2; x0a;
  xa3; xb3; x0a; xa3; xb4; x0a; xa3; xb5;
  x0a; xa3; xb6; x0a; xa3; xb7; x0a; xa3;
  xb8; x0a; xa3; xb9; x0a; xa3; xba; x0a;
  xa3; xbb; x0a; xa3; xbc; x0a; xa3; xbd;
  x0a; xa3; xbe; x0a; xa3; xbf; x0a; xa3;
  xc0; x0a; xa3; xc1; x0a; xa3; xc2; x0a;
  xa3; xc3; x0a; xa3; xc4; x0a; xa3; xc5;
  x0a; xa3; xc6; x0a; xa3; xc7; x0a; xa3;
  xc8; x0a; xa3; xc9; x0a; xa3; xca; x0a;
  xa3; xcb; x0a; xa3; xcc; x0a; xa3; xcd;
  x0a; xa3; xce; x0a; xa3; xcf; x0a; xa3;
  xd0; x0a; xa3; xd1; x0a; xa3; xd2; x0a;
  xa3; xd3; x0a; xa3; xd4; x0a; xa3; xd5;
  x0a; xa3; xd6; x0a; xa3; xd7; x0a; xa3;
  xd8; x0a; xa3; xd9; x0a; xa3; xda; x0a;
  xa3; xdb; x0a; xa3; xdc; x0a; xa3; xdd;
  x0a; xa3; xde; x0a; xa3; xdf; x0a; xa3;
  xe0; x0a; xa3; xe1; x0a; xa4; x40; x0a;
  xa4; x41; x0a; xa4; x42; x0a; xa4; x43;
  x0a; xa4; x44; x0a; xa4; x45; x0a; xa4;
  x46; x0a; xa4; x47; x0a; xa4; x48; x0a;
  xa4; x49; x0a; xa4; x4a; x0a; xa4; x4b;
  x0a; xa4; x4c; x0a; xa4; x4d; x0a; xa4;
  x4e; x0a; xa4; x4f; x0a; xa4; x50; x0a;
  xa4; x51; x0a; xa4; x52; x0a; xa4; x53;
  x0a; xa4; x54; x0a; xa4; x55; x0a; xa4;
  x56; x0a; xa4; x57; x0a; xa4; x58; x0a;
  xa4; x59; x0a; xa4; x5a; x0a; xa4; x5b
].
(* tests/test_data/whatwg/big5_whatwg_test_encode_out.txt, entries 13312..13567 *)
Definition big5_encode_out_52 : list byte := [
  x0a; xa4; x5c; x0a; xa4; x5d; x0a; xa4;
  x5e; x0a; xa4; x5f; x0a; xa4; x60; x0a;
  xa4; x61; x0a; xa4; x62; x0a; xa4; x63;
  x0a; xa4; x64; x0a; xa4; x65; x0a; xa4;
  x66; x0a; xa4; x67; x0a; xa4; x68; x0a;
  xa4; x69; x0a; xa4; x6a; x0a; xa4; x6b;
  x0a; xa4; x6c; x0a; xa4; x6d; x0a; xa4;
  x6e; x0a; xa4; x6f; x0a; xa4; x70; x0a;
  xa4; x71; x0a; xa4; x72; x0a; xa4; x73;
  x0a; xa4; x74; x0a; xa4; x75; x0a; xa4;
  x76; x0a; xa4; x77; x0a; xa4; x78; x0a;
  xa4; x79; x0a; xa4; x7a; x0a; xa4; x7b;
  x0a; xa4; x7c; x0a; xa4; x7d; x0a; xa4;
  x7e; x0a; xa4; xa1; x0a; xa4; xa2; x0a;
  xa4; xa3; x0a; xa4; xa4; x0a; xa4; xa5;
  x0a; xa4; xa6; x0a; xa4; xa7; x0a; xa4;
  xa8; x0a; xa4; xa9; x0a; xa4; xaa; x0a;
  xa4; xab; x0a; xa4; xac; x0a; xa4; xad;
  x0a; xa4; xae; x0a; xa4; xaf; x0a; xa4;
  xb0; x0a; xa4; xb1; x0a; xa4; xb2; x0a;
  xa4; xb3; x0a; xa4; xb4; x0a; xa4; xb5;
  x0a; xa4; xb6; x0a; xa4; xb7; x0a; xa4;
  xb8; x0a; xa4; xb9; x0a; xa4; xba; x0a;
  xa4; xbb; x0a; xa4; xbc; x0a; xa4; xbd;
  x0a; xa4; xbe; x0a; xa4; xbf; x0a; xa4;
  xc0; x0a; xa4; xc1; x0a; xa4; xc2; x0a;
  xa4; xc3; x0a; xa4; xc4; x0a; xa4; xc5;
  x0a; xa4; xc6; x0a; xa4; xc7; x0a; xa4;
  xc8; x0a; xa4; xc9; x0a; xa4; xca; x0a;
  xa4; xcb; x0a; xa4; xcc; x0a; xa4; xcd;
  x0a; xa4; xce; x0a; xa4; xcf; x0a; xa4;
  xd0; x0a; xa4; xd1; x0a; xa4; xd2; x0a
].
(* tests/test_data/whatwg/big5_whatwg_test_encode_out.txt, entries 13568..13823 *)
Definition big5_encode_out_53 : list byte := [
  xa4; xd3; x0a; xa4; xd4; x0a; xa4; xd5;
  x0a; xa4; xd6; x0a; xa4; xd7; x0a; xa4;
  xd8; x0a; xa4; xd9; x0a; xa4; xda; x0a;
  xa4; xdb; x0a; xa4; xdc; x0a; xa4; xdd;
  x0a; xa4; xde; x0a; xa4; xdf; x0a; xa4;
  xe0; x0a; xa4; xe1; x0a; xa4; xe2; x0a;
  xa4; xe3; x0a; xa4; xe4; x0a; xa4; xe5;
  x0a; xa4; xe6; x0a; xa4; xe7; x0a; xa4;
  xe8; x0a; xa4; xe9; x0a; xa4; xea; x0a;
  xa4; xeb; x0a; xa4; xec; x0a; xa4; xed;
  x0a; xa4; xee; x0a; xa4; xef; x0a; xa4;
  xf0; x0a; xa4; xf1; x0a; xa4; xf2; x0a;
  xa4; xf3; x0a; xa4; xf4; x0a; xa4; xf5;
  x0a; xa4; xf6; x0a; xa4; xf7; x0a; xa4;
  xf8; x0a; xa4; xf9; x0a; xa4; xfa; x0a;
  xa4; xfb; x0a; xa4; xfc; x0a; xa4; xfd;
  x0a; xa4; xfe; x0a; xa5; x40; x0a; xa5;
  x41; x0a; xa5; x42; x0a; xa5; x43; x0a;
  xa5; x44; x0a; xa5; x45; x0a; xa5; x46;
  x0a; xa5; x47; x0a; xa5; x48; x0a; xa5;
  x49; x0a; xa5; x4a; x0a; xa5; x4b; x0a;
  xa5; x4c; x0a; xa5; x4d; x0a; xa5; x4e;
  x0a; xa5; x4f; x0a; xa5; x50; x0a; xa5;
  x51; x0a; xa5; x52; x0a; xa5; x53; x0a;
  xa5; x54; x0a; xa5; x55; x0a; xa5; x56;
  x0a; xa5; x57; x0a; xa5; x58; x0a; xa5;
  x59; x0a; xa5; x5a; x0a; xa5; x5b; x0a;
  xa5; x5c; x0a; xa5; x5d; x0a; xa5; x5e;
  x0a; xa5; x5f; x0a; xa5; x60; x0a; xa5;
  x61; x0a; xa5; x62; x0a; xa5; x63; x0a;
  xa5; x64; x0a; xa5; x65; x0a; xa5; x66;
  x0a; xa5; x67; x0a; xa5; x68; x0a; xa5
].
(* tests/test_data/whatwg/big5_whatwg_test_encode_out.txt, entries 13824..14079 *)
Definition big5_encode_out_54 : list byte := [
  x69; x0a; xa5; x6a; x0a; xa5; x6b; x0a;
  xa5; x6c; x0a; xa5; x6d; x0a; xa5; x6e;
  x0a; xa5; x6f; x0a; xa5; x70; x0a; xa5;
  x71; x0a; xa5; x72; x0a; xa5; x73; x0a;
  xa5; x74; x0a; xa5; x75; x0a; xa5; x76;
  x0a; xa5; x77; x0a; xa5; x78; x0a; xa5;
  x79; x0a; xa5; x7a; x0a; xa5; x7b; x0a;
  xa5; x7c; x0a; xa5; x7d; x0a; xa5; x7e;
  x0a; xa5; xa1; x0a; xa5; xa2; x0a; xa5;
  xa3; x0a; xa5; xa4; x0a; xa5; xa5; x0a;
  xa5; xa6; x0a; xa5; xa7; x0a; xa5; xa8;
  x0a; xa5; xa9; x0a; xa5; xaa; x0a; xa5;
  xab; x0a; xa5; xac; x0a; xa5; xad; x0a;
  xa5; xae; x0a; xa5; xaf; x0a; xa5; xb0;
  x0a; xa5; xb1; x0a; xa5; xb2; x0a; xa5;
  xb3; x0a; xa5; xb4; x0a; xa5; xb5; x0a;
  xa5; xb6; x0a; xa5; xb7; x0a; xa5; xb8;
  x0a; xa5; xb9; x0a; xa5; xba; x0a; xa5;
  xbb; x0a; xa5; xbc; x0a; xa5; xbd; x0a;
  xa5; xbe; x0a; xa5; xbf; x0a; xa5; xc0;
  x0a; xa5; xc1; x0a; xa5; xc2; x0a; xa5;
  xc3; x0a; xa5; xc4; x0a; xa5; xc5; x0a;
  xa5; xc6; x0a; xa5; xc7; x0a; xa5; xc8;
  x0a; xa5; xc9; x0a; xa5; xca; x0a; xa5;
  xcb; x0a; xa5; xcc; x0a; xa5; xcd; x0a;
  xa5; xce; x0a; xa5; xcf; x0a; xa5; xd0;
  x0a; xa5; xd1; x0a; xa5; xd2; x0a; xa5;
  xd3; x0a; xa5; xd4; x0a; xa5; xd5; x0a;
  xa5; xd6; x0a; xa5; xd7; x0a; xa5; xd8;
  x0a; xa5; xd9; x0a; xa5; xda; x0a; xa5;
  xdb; x0a; xa5; xdc; x0a; xa5; xdd; x0a;
  xa5; xde; x0a; xa5; xdf; x0a; xa5; xe0
].
(* tests/test_data/whatwg/big5_whatwg_test_encode_out.txt, entries 14080..14335 *)
Definition big5_encode_out_55 : list byte := [
  x0a; xa5; xe1; x0a; xa5; xe2; x0a; xa5;
  xe3; x0a; xa5; xe4; x0a; xa5; xe5; x0a;
  xa5; xe6; x0a; xa5; xe7; x0a; xa5; xe8;
  x0a; xa5; xe9; x0a; xa5; xea; x0a; xa5;
  xeb; x0a; xa5; xec; x0a; xa5; xed; x0a;
  xa5; xee; x0a; xa5; xef; x0a; xa5; xf0;
  x0a; xa5; xf1; x0a; xa5; xf2; x0a; xa5;
  xf3; x0a; xa5; xf4; x0a; xa5; xf5; x0a;
  xa5; xf6; x0a; xa5; xf7; x0a; xa5; xf8;
  x0a; xa5; xf9; x0a; xa5; xfa; x0a; xa5;
  xfb; x0a; xa5; xfc; x0a; xa5; xfd; x0a;
  xa5; xfe; x0a; xa6; x40; x0a; xa6; x41;
  x0a; xa6; x42; x0a; xa6; x43; x0a; xa6;
  x44; x0a; xa6; x45; x0a; xa6; x46; x0a;
  xa6; x47; x0a; xa6; x48; x0a; xa6; x49;
  x0a; xa6; x4a; x0a; xa6; x4b; x0a; xa6;
  x4c; x0a; xa6; x4d; x0a; xa6; x4e; x0a;
  xa6; x4f; x0a; xa6; x50; x0a; xa6; x51;
  x0a; xa6; x52; x0a; xa6; x53; x0a; xa6;
  x54; x0a; xa6; x55; x0a; xa6; x56; x0a;
  xa6; x57; x0a; xa6; x58; x0a; xa6; x59;
  x0a; xa6; x5a; x0a; xa6; x5b; x0a; xa6;
  x5c; x0a; xa6; x5d; x0a; xa6; x5e; x0a;
  xa6; x5f; x0a; xa6; x60; x0a; xa6; x61;
  x0a; xa6; x62; x0a; xa6; x63; x0a; xa6;
  x64; x0a; xa6; x65; x0a; xa6; x66; x0a;
  xa6; x67; x0a; xa6; x68; x0a; xa6; x69;
  x0a; xa6; x6a; x0a; xa6; x6b; x0a; xa6;
  x6c; x0a; xa6; x6d; x0a; xa6; x6e; x0a;
  xa6; x6f; x0a; xa6; x70; x0a; xa6; x71;
  x0a; xa6; x72; x0a; xa6; x73; x0a; xa6;
  x74; x0a; xa6; x75; x0a; xa6; x76; x0a
].
(* tests/test_data/whatwg/big5_whatwg_test_encode_out.txt, entries 14336..14591 *)
Definition big5_encode_out_56 : list byte := [
  xa6; x77; x0a; xa6; x78; x0a; xa6; x79;
  x0a; xa6; x7a; x0a; xa6; x7b; x0a; xa6;
  x7c; x0a; xa6; x7d; x0a; xa6; x7e; x0a;
  xa6; xa1; x0a; xa6; xa2; x0a; xa6; xa3;
  x0a; xa6; xa4; x0a; xa6; xa5; x0a; xa6;
  xa6; x0a; xa6; xa7; x0a; xa6; xa8; x0a;
  xa6; xa9; x0a; xa6; xaa; x0a; xa6; xab;
  x0a; xa6; xac; x0a; xa6; xad; x0a; xa6;
  xae; x0a; xa6; xaf; x0a; xa6; xb0; x0a;
  xa6; xb1; x0a; xa6; xb2; x0a; xa6; xb3;
  x0a; xa6; xb4; x0a; xa6; xb5; x0a; xa6;
  xb6; x0a; xa6; xb7; x0a; xa6; xb8; x0a;
  xa6; xb9; x0a; xa6; xba; x0a; xa6; xbb;
  x0a; xa6; xbc; x0a; xa6; xbd; x0a; xa6;
  xbe; x0a; xa6; xbf; x0a; xa6; xc0; x0a;
  xa6; xc1; x0a; xa6; xc2; x0a; xa6; xc3;
  x0a; xa6; xc4; x0a; xa6; xc5; x0a; xa6;
  xc6; x0a; xa6; xc7; x0a; xa6; xc8; x0a;
  xa6; xc9; x0a; xa6; xca; x0a; xa6; xcb;
  x0a; xa6; xcc; x0a; xa6; xcd; x0a; xa6;
  xce; x0a; xa6; xcf; x0a; xa6; xd0; x0a;
  xa6; xd1; x0a; xa6; xd2; x0a; xa6; xd3;
  x0a; xa6; xd4; x0a; xa6; xd5; x0a; xa6;
  xd6; x0a; xa6; xd7; x0a; xa6; xd8; x0a;
  xa6; xd9; x0a; xa6; xda; x0a; xa6; xdb;
  x0a; xa6; xdc; x0a; xa6; xdd; x0a; xa6;
  xde; x0a; xa6; xdf; x0a; xa6; xe0; x0a;
  xa6; xe1; x0a; xa6; xe2; x0a; xa6; xe3;
  x0a; xa6; xe4; x0a; xa6; xe5; x0a; xa6;
  xe6; x0a; xa6; xe7; x0a; xa6; xe8; x0a;
  xa6; xe9; x0a; xa6; xea; x0a; xa6; xeb;
  x0a; xa6; xec; x0a; xa6; xed; x0a; xa6
].
(* tests/test_data/whatwg/big5_whatwg_test_encode_out.txt, entries 14592..14847 *)
Definition big5_encode_out_57 : list byte := [
  xee; x0a; xa6; xef; x0a; xa6; xf0; x0a;
  xa6; xf1; x0a; xa6; xf2; x0a; xa6; xf3;
  x0a; xa6; xf4; x0a; xa6; xf5; x0a; xa6;
  xf6; x0a; xa6; xf7; x0a; xa6; xf8; x0a;
  xa6; xf9; x0a; xa6; xfa; x0a; xa6; xfb;
  x0a; xa6; xfc; x0a; xa6; xfd; x0a; xa6;
  xfe; x0a; xa7; x40; x0a; xa7; x41; x0a;
  xa7; x42; x0a; xa7; x43; x0a; xa7; x44;
  x0a; xa7; x45; x0a; xa7; x46; x0a; xa7;
  x47; x0a; xa7; x48; x0a; xa7; x49; x0a;
  xa7; x4a; x0a; xa7; x4b; x0a; xa7; x4c;
  x0a; xa7; x4d; x0a; xa7; x4e; x0a; xa7;
  x4f; x0a; xa7; x50; x0a; xa7; x51; x0a;
  xa7; x52; x0a; xa7; x53; x0a; xa7; x54;
  x0a; xa7; x55; x0a; xa7; x56; x0a; xa7;
  x57; x0a; xa7; x58; x0a; xa7; x59; x0a;
  xa7; x5a; x0a; xa7; x5b; x0a; xa7; x5c;
  x0a; xa7; x5d; x0a; xa7; x5e; x0a; xa7;
  x5f; x0a; xa7; x60; x0a; xa7; x61; x0a;
  xa7; x62; x0a; xa7; x63; x0a; xa7; x64;
  x0a; xa7; x65; x0a; xa7; x66; x0a; xa7;
  x67; x0a; xa7; x68; x0a; xa7; x69; x0a;
  xa7; x6a; x0a; xa7; x6b; x0a; xa7; x6c;
  x0a; xa7; x6d; x0a; xa7; x6e; x0a; xa7;
  x6f; x0a; xa7; x70; x0a; xa7; x71; x0a;
  xa7; x72; x0a; xa7; x73; x0a; xa7; x74;
  x0a; xa7; x75; x0a; xa7; x76; x0a; xa7;
  x77; x0a; xa7; x78; x0a; xa7; x79; x0a;
  xa7; x7a; x0a; xa7; x7b; x0a; xa7; x7c;
  x0a; xa7; x7d; x0a; xa7; x7e; x0a; xa7;
  xa1; x0a; xa7; xa2; x0a; xa7; xa3; x0a;
  xa7; xa4; x0a; xa7; xa5; x0a; xa7; xa6
].
(* tests/test_data/whatwg/big5_whatwg_test_encode_out.txt, entries 14848..15103 *)
Definition big5_encode_out_58 : list byte := [
  x0a; xa7; xa7; x0a; xa7; xa8; x0a; xa7;
  xa9; x0a; xa7; xaa; x0a; xa7; xab; x0a;
  xa7; xac; x0a; xa7; xad; x0a; xa7; xae;
  x0a; xa7; xaf; x0a; xa7; xb0; x0a; xa7;
  xb1; x0a; xa7; xb2; x0a; xa7; xb3; x0a;
  xa7; xb4; x0a; xa7; xb5; x0a; xa7; xb6;
  x0a; xa7; xb7; x0a; xa7; xb8; x0a; xa7;
  xb9; x0a; xa7; xba; x0a; xa7; xbb; x0a;
  xa7; xbc; x0a; xa7; xbd; x0a; xa7; xbe;
  x0a; xa7; xbf; x0a; xa7; xc0; x0a; xa7;
  xc1; x0a; xa7; xc2; x0a; xa7; xc3; x0a;
  xa7; xc4; x0a; xa7; xc5; x0a; xa7; xc6;
  x0a; xa7; xc7; x0a; xa7; xc8; x0a; xa7;
  xc9; x0a; xa7; xca; x0a; xa7; xcb; x0a;
  xa7; xcc; x0a; xa7; xcd; x0a; xa7; xce;
  x0a; xa7; xcf; x0a; xa7; xd0; x0a; xa7;
  xd1; x0a; xa7; xd2; x0a; xa7; xd3; x0a;
  xa7; xd4; x0a; xa7; xd5; x0a; xa7; xd6;
  x0a; xa7; xd7; x0a; xa7; xd8; x0a; xa7;
  xd9; x0a; xa7; xda; x0a; xa7; xdb; x0a;
  xa7; xdc; x0a; xa7; xdd; x0a; xa7; xde;
  x0a; xa7; xdf; x0a; xa7; xe0; x0a; xa7;
  xe1; x0a; xa7; xe2; x0a; xa7; xe3; x0a;
  xa7; xe4; x0a; xa7; xe5; x0a; xa7; xe6;
  x0a; xa7; xe7; x0a; xa7; xe8; x0a; xa7;
  xe9; x0a; xa7; xea; x0a; xa7; xeb; x0a;
  xa7; xec; x0a; xa7; xed; x0a; xa7; xee;
  x0a; xa7; xef; x0a; xa7; xf0; x0a; xa7;
  xf1; x0a; xa7; xf2; x0a; xa7; xf3; x0a;
  xa7; xf4; x0a; xa7; xf5; x0a; xa7; xf6;
  x0a; xa7; xf7; x0a; xa7; xf8; x0a; xa7;
  xf9; x0a; xa7; xfa; x0a; xa7; xfb; x0a
].
(* tests/test_data/whatwg/big5_whatwg_test_encode_out.txt, entries 15104..15359 *)
Definition big5_encode_out_59 : list byte := [
  xa7; xfc; x0a; xa7; xfd; x0a; xa7; xfe;
  x0a; xa8; x40; x0a; xa8; x41; x0a; xa8;
  x42; x0a; xa8; x43; x0a; xa8; x44; x0a;
  xa8; x45; x0a; xa8; x46; x0a; xa8; x47;
  x0a; xa8; x48; x0a; xa8; x49; x0a; xa8;
  x4a; x0a; xa8; x4b; x0a; xa8; x4c; x0a;
  xa8; x4d; x0a; xa8; x4e; x0a; xa8; x4f;
  x0a; xa8; x50; x0a; xa8; x51; x0a; xa8;
  x52; x0a; xa8; x53; x0a; xa8; x54; x0a;
  xa8; x55; x0a; xa8; x56; x0a; xa8; x57;
  x0a; xa8; x58; x0a; xa8; x59; x0a; xa8;
  x5a; x0a; xa8; x5b; x0a; xa8; x5c; x0a;
  xa8; x5d; x0a; xa8; x5e; x0a; xa8; x5f;
  x0a; xa8; x60; x0a; xa8; x61; x0a; xa8;
  x62; x0a; xa8; x63; x0a; xa8; x64; x0a;
  xa8; x65; x0a; xa8; x66; x0a; xa8; x67;
  x0a; xa8; x68; x0a; xa8; x69; x0a; xa8;
  x6a; x0a; xa8; x6b; x0a; xa8; x6c; x0a;
  xa8; x6d; x0a; xa8; x6e; x0a; xa8; x6f;
  x0a; xa8; x70; x0a; xa8; x71; x0a; xa8;
  x72; x0a; xa8; x73; x0a; xa8; x74; x0a;
  xa8; x75; x0a; xa8; x76; x0a; xa8; x77;
  x0a; xa8; x78; x0a; xa8; x79; x0a; xa8;
  x7a; x0a; xa8; x7b; x0a; xa8; x7c; x0a;
  xa8; x7d; x0a; xa8; x7e; x0a; xa8; xa1;
  x0a; xa8; xa2; x0a; xa8; xa3; x0a; xa8;
  xa4; x0a; xa8; xa5; x0a; xa8; xa6; x0a;
  xa8; xa7; x0a; xa8; xa8; x0a; xa8; xa9;
  x0a; xa8; xaa; x0a; xa8; xab; x0a; xa8;
  xac; x0a; xa8; xad; x0a; xa8; xae; x0a;
  xa8; xaf; x0a; xa8; xb0; x0a; xa8; xb1;
  x0a; xa8; xb2; x0a; xa8; xb3; x0a; xa8
].
(* tests/test_data/whatwg/big5_whatwg_test_encode_out.txt, entries 15360..15615 *)
Definition big5_encode_out_60 : list byte := [
  xb4; x0a; xa8; xb5; x0a; xa8; xb6; x0a;
  xa8; xb7; x0a; xa8; xb8; x0a; xa8; xb9;
  x0a; xa8; xba; x0a; xa8; xbb; x0a; xa8;
  xbc; x0a; xa8; xbd; x0a; xa8; xbe; x0a;
  xa8; xbf; x0a; xa8; xc0; x0a; xa8; xc1;
  x0a; xa8; xc2; x0a; xa8; xc3; x0a; xa8;
  xc4; x0a; xa8; xc5; x0a; xa8; xc6; x0a;
  xa8; xc7; x0a; xa8; xc8; x0a; xa8; xc9;
  x0a; xa8; xca; x0a; xa8; xcb; x0a; xa8;
  xcc; x0a; xa8; xcd; x0a; xa8; xce; x0a;
  xa8; xcf; x0a; xa8; xd0; x0a; xa8; xd1;
  x0a; xa8; xd2; x0a; xa8; xd3; x0a; xa8;
  xd4; x0a; xa8; xd5; x0a; xa8; xd6; x0a;
  xa8; xd7; x0a; xa8; xd8; x0a; xa8; xd9;
  x0a; xa8; xda; x0a; xa8; xdb; x0a; xa8;
  xdc; x0a; xa8; xdd; x0a; xa8; xde; x0a;
  xa8; xdf; x0a; xa8; xe0; x0a; xa8; xe1;
  x0a; xa8; xe2; x0a; xa8; xe3; x0a; xa8;
  xe4; x0a; xa8; xe5; x0a; xa8; xe6; x0a;
  xa8; xe7; x0a; xa8; xe8; x0a; xa8; xe9;
  x0a; xa8; xea; x0a; xa8; xeb; x0a; xa8;
  xec; x0a; xa8; xed; x0a; xa8; xee; x0a;
  xa8; xef; x0a; xa8; xf0; x0a; xa8; xf1;
  x0a; xa8; xf2; x0a; xa8; xf3; x0a; xa8;
  xf4; x0a; xa8; xf5; x0a; xa8; xf6; x0a;
  xa8; xf7; x0a; xa8; xf8; x0a; xa8; xf9;
  x0a; xa8; xfa; x0a; xa8; xfb; x0a; xa8;
  xfc; x0a; xa8; xfd; x0a; xa8; xfe; x0a;
  xa9; x40; x0a; xa9; x41; x0a; xa9; x42;
  x0a; xa9; x43; x0a; xa9; x44; x0a; xa9;
  x45; x0a; xa9; x46; x0a; xa9; x47; x0a;
  xa9; x48; x0a; xa9; x49; x0a; xa9; x4a
].
(* tests/test_data/whatwg/big5_whatwg_test_encode_out.txt, entries 15616..15871 *)
Definition big5_encode_out_61 : list byte := [
  x0a; xa9; x4b; x0a; xa9; x4c; x0a; xa9;
  x4d; x0a; xa9; x4e; x0a; xa9; x4f; x0a;
  xa9; x50; x0a; xa9; x51; x0a; xa9; x52;
  x0a; xa9; x53; x0a; xa9; x54; x0a; xa9;
  x55; x0a; xa9; x56; x0a; xa9; x57; x0a;
  xa9; x58; x0a; xa9; x59; x0a; xa9; x5a;
  x0a; xa9; x5b; x0a; xa9; x5c; x0a; xa9;
  x5d; x0a; xa9; x5e; x0a; xa9; x5f; x0a;
  xa9; x60; x0a; xa9; x61; x0a; xa9; x62;
  x0a; xa9; x63; x0a; xa9; x64; x0a; xa9;
  x65; x0a; xa9; x66; x0a; xa9; x67; x0a;
  xa9; x68; x0a; xa9; x69; x0a; xa9; x6a;
  x0a; xa9; x6b; x0a; xa9; x6c; x0a; xa9;
  x6d; x0a; xa9; x6e; x0a; xa9; x6f; x0a;
  xa9; x70; x0a; xa9; x71; x0a; xa9; x72;
  x0a; xa9; x73; x0a; xa9; x74; x0a; xa9;
  x75; x0a; xa9; x76; x0a; xa9; x77; x0a;
  xa9; x78; x0a; xa9; x79; x0a; xa9; x7a;
  x0a; xa9; x7b; x0a; xa9; x7c; x0a; xa9;
  x7d; x0a; xa9; x7e; x0a; xa9; xa1; x0a;
  xa9; xa2; x0a; xa9; xa3; x0a; xa9; xa4;
  x0a; xa9; xa5; x0a; xa9; xa6; x0a; xa9;
  xa7; x0a; xa9; xa8; x0a; xa9; xa9; x0a;
  xa9; xaa; x0a; xa9; xab; x0a; xa9; xac;
  x0a; xa9; xad; x0a; xa9; xae; x0a; xa9;
  xaf; x0a; xa9; xb0; x0a; xa9; xb1; x0a;
  xa9; xb2; x0a; xa9; xb3; x0a; xa9; xb4;
  x0a; xa9; xb5; x0a; xa9; xb6; x0a; xa9;
  xb7; x0a; xa9; xb8; x0a; xa9; xb9; x0a;
  xa9; xba; x0a; xa9; xbb; x0a; xa9; xbc;
  x0a; xa9; xbd; x0a; xa9; xbe; x0a; xa9;
  xbf; x0a; xa9; xc0; x0a; xa9; xc1; x0a
].
(* tests/test_data/whatwg/big5_whatwg_test_encode_out.txt, entries 15872..16127 *)
Definition big5_encode_out_62 : list byte := [
  xa9; xc2; x0a; xa9; xc3; x0a; xa9; xc4;
  x0a; xa9; xc5; x0a; xa9; xc6; x0a; xa9;
  xc7; x0a; xa9; xc8; x0a; xa9; xc9; x0a;
  xa9; xca; x0a; xa9; xcb; x0a; xa9; xcc;
  x0a; xa9; xcd; x0a; xa9; xce; x0a; xa9;
  xcf; x0a; xa9; xd0; x0a; xa9; xd1; x0a;
  xa9; xd2; x0a; xa9; xd3; x0a; xa9; xd4;
  x0a; xa9; xd5; x0a; xa9; xd6; x0a; xa9;
  xd7; x0a; xa9; xd8; x0a; xa9; xd9; x0a;
  xa9; xda; x0a; xa9; xdb; x0a; xa9; xdc;
  x0a; xa9; xdd; x0a; xa9; xde; x0a; xa9;
  xdf; x0a; xa9; xe0; x0a; xa9; xe1; x0a;
  xa9; xe2; x0a; xa9; xe3; x0a; xa9; xe5;
  x0a; xa9; xe6; x0a; xa9; xe7; x0a; xa9;
  xe8; x0a; xa9; xe9; x0a; xa9; xea; x0a;
  xa9; xeb; x0a; xa9; xec; x0a; xa9; xed;
  x0a; xa9; xee; x0a; xa9; xef; x0a; xa9;
  xf1; x0a; xa9; xf2; x0a; xa9; xf3; x0a;
  xa9; xf4; x0a; xa9; xf5; x0a; xa9; xf6;
  x0a; xa9; xf7; x0a; xa9; xf8; x0a; xa9;
  xf9; x0a; xa9; xfa; x0a; xa9; xfb; x0a;
  xa9; xfc; x0a; xa9; xfd; x0a; xa9; xfe;
  x0a; xaa; x40; x0a; xaa; x41; x0a; xaa;
  x42; x0a; xaa; x43; x0a; xaa; x44; x0a;
  xaa; x45; x0a; xaa; x46; x0a; xaa; x47;
  x0a; xaa; x48; x0a; xaa; x49; x0a; xaa;
  x4a; x0a; xaa; x4b; x0a; xaa; x4c; x0a;
  xaa; x4d; x0a; xaa; x4e; x0a; xaa; x4f;
  x0a; xaa; x50; x0a; xaa; x51; x0a; xaa;
  x52; x0a; xaa; x53; x0a; xaa; x54; x0a;
  xaa; x55; x0a; xaa; x56; x0a; xaa; x57;
  x0a; xaa; x58; x0a; xaa; x59; x0a; xaa
].
(* tests/test_data/whatwg/big5_whatwg_test_encode_out.txt, entries 16128..16383 *)
Definition big5_encode_out_63 : list byte := [
  x5a; x0a; xaa; x5b; x0a; xaa; x5c; x0a;
  xaa; x5d; x0a; xaa; x5e; x0a; xaa; x5f;
  x0a; xaa; x60; x0a; xaa; x61; x0a; xaa;
  x62; x0a; xaa; x63; x0a; xaa; x64; x0a;
  xaa; x65; x0a; xaa; x66; x0a; xaa; x67;
  x0a; xaa; x68; x0a; xaa; x69; x0a; xaa;
  x6a; x0a; xaa; x6b; x0a; xaa; x6c; x0a;
  xaa; x6d; x0a; xaa; x6e; x0a; xaa; x6f;
  x0a; xaa; x70; x0a; xaa; x71; x0a; xaa;
  x72; x0a; xaa; x73; x0a; xaa; x74; x0a;
  xaa; x75; x0a; xaa; x76; x0a; xaa; x77;
  x0a; xaa; x78; x0a; xaa; x79; x0a; xaa;
  x7a; x0a; xaa; x7b; x0a; xaa; x7c; x0a;
  xaa; x7d; x0a; xaa; x7e; x0a; xaa; xa1;
  x0a; xaa; xa2; x0a; xaa; xa3; x0a; xaa;
  xa4; x0a; xaa; xa5; x0a; xaa; xa6; x0a;
  xaa; xa7; x0a; xaa; xa8; x0a; xaa; xa9;
  x0a; xaa; xaa; x0a; xaa; xab; x0a; xaa;
  xac; x0a; xaa; xad; x0a; xaa; xae; x0a;
  xaa; xaf; x0a; xaa; xb0; x0a; xaa; xb1;
  x0a; xaa; xb2; x0a; xaa; xb3; x0a; xaa;
  xb4; x0a; xaa; xb5; x0a; xaa; xb6; x0a;
  xaa; xb7; x0a; xaa; xb8; x0a; xaa; xb9;
  x0a; xaa; xba; x0a; xaa; xbb; x0a; xaa;
  xbc; x0a; xaa; xbd; x0a; xaa; xbe; x0a;
  xaa; xbf; x0a; xaa; xc0; x0a; xaa; xc1;
  x0a; xaa; xc2; x0a; xaa; xc3; x0a; xaa;
  xc4; x0a; xaa; xc5; x0a; xaa; xc6; x0a;
  xaa; xc7; x0a; xaa; xc8; x0a; xaa; xc9;
  x0a; xaa; xca; x0a; xaa; xcb; x0a; xaa;
  xcd; x0a; xaa; xce; x0a; xaa; xcf; x0a;
  xaa; xd0; x0a; xaa; xd1; x0a; xaa; xd2
].
(* tests/test_data/whatwg/big5_whatwg_test_encode_out.txt, entries 16384..16639 *)
Definition big5_encode_out_64 : list byte := [
  x0a; xaa; xd3; x0a; xaa; xd4; x0a; xaa;
  xd5; x0a; xaa; xd6; x0a; xaa; xd7; x0a;
  xaa; xd8; x0a; xaa; xd9; x0a; xaa; xda;
  x0a; xaa; xdb; x0a; xaa; xdc; x0a; xaa;
  xdd; x0a; xaa; xde; x0a; xaa; xdf; x0a;
  xaa; xe0; x0a; xaa; xe1; x0a; xaa; xe2;
  x0a; xaa; xe3; x0a; xaa; xe4; x0a; xaa;
  xe5; x0a; xaa; xe6; x0a; xaa; xe7; x0a;
  xaa; xe8; x0a; xaa; xe9; x0a; xaa; xea;
  x0a; xaa; xeb; x0a; xaa; xec; x0a; xaa;
  xed; x0a; xaa; xee; x0a; xaa; xef; x0a;
  xaa; xf0; x0a; xaa; xf1; x0a; xaa; xf2;
  x0a; xaa; xf3; x0a; xaa; xf4; x0a; xaa;
  xf5; x0a; xaa; xf6; x0a; xaa; xf7; x0a;
  xaa; xf8; x0a; xaa; xf9; x0a; xaa; xfa;
  x0a; xaa; xfb; x0a; xaa; xfc; x0a; xaa;
  xfd; x0a; xaa; xfe; x0a; xab; x40; x0a;
  xab; x41; x0a; xab; x42; x0a; xab; x43;
  x0a; xab; x44; x0a; xab; x45; x0a; xab;
  x46; x0a; xab; x47; x0a; xab; x48; x0a;
  xab; x49; x0a; xab; x4a; x0a; xab; x4b;
  x0a; xab; x4c; x0a; xab; x4d; x0a; xab;
  x4e; x0a; xab; x4f; x0a; xab; x50; x0a;
  xab; x51; x0a; xab; x52; x0a; xab; x53;
  x0a; xab; x54; x0a; xab; x55; x0a; xab;
  x56; x0a; xab; x57; x0a; xab; x58; x0a;
  xab; x59; x0a; xab; x5a; x0a; xab; x5b;
  x0a; xab; x5c; x0a; xab; x5d; x0a; xab;
  x5e; x0a; xab; x5f; x0a; xab; x60; x0a;
  xab; x61; x0a; xab; x62; x0a; xab; x63;
  x0a; xab; x64; x0a; xab; x65; x0a; xab;
  x66; x0a; xab; x67; x0a; xab; x68; x0a
].
(* tests/test_data/whatwg/big5_whatwg_test_encode_out.txt, entries 16640..16895 *)
Definition big5_encode_out_65 : list byte := [
  xab; x69; x0a; xab; x6a; x0a; xab; x6b;
  x0a; xab; x6c; x0a; xab; x6d; x0a; xab;
  x6e; x0a; xab; x6f; x0a; xab; x70; x0a;
  xab; x71; x0a; xab; x72; x0a; xab; x73;
  x0a; xab; x74; x0a; xab; x75; x0a; xab;
  x76; x0a; xab; x77; x0a; xab; x78; x0a;
  xab; x79; x0a; xab; x7a; x0a; xab; x7b;
  x0a; xab; x7c; x0a; xab; x7d; x0a; xab;
  x7e; x0a; xab; xa1; x0a; xab; xa2; x0a;
  xab; xa3; x0a; xab; xa4; x0a; xab; xa5;
  x0a; xab; xa6; x0a; xab; xa7; x0a; xab;
  xa8; x0a; xab; xa9; x0a; xab; xaa; x0a;
  xab; xab; x0a; xab; xac; x0a; xab; xad;
  x0a; xab; xae; x0a; xab; xaf; x0a; xab;
  xb0; x0a; xab; xb1; x0a; xab; xb2; x0a;
  xab; xb3; x0a; xab; xb4; x0a; xab; xb5;
  x0a; xab; xb6; x0a; xab; xb7; x0a; xab;
  xb8; x0a; xab; xb9; x0a; xab; xba; x0a;
  xab; xbb; x0a; xab; xbc; x0a; xab; xbd;
  x0a; xab; xbe; x0a; xab; xbf; x0a; xab;
  xc0; x0a; xab; xc1; x0a; xab; xc2; x0a;
  xab; xc3; x0a; xab; xc4; x0a; xab; xc5;
  x0a; xab; xc6; x0a; xab; xc7; x0a; xab;
  xc8; x0a; xab; xc9; x0a; xab; xca; x0a;
  xab; xcb; x0a; xab; xcc; x0a; xab; xcd;
  x0a; xab; xce; x0a; xab; xcf; x0a; xab;
  xd0; x0a; xab; xd1; x0a; xab; xd2; x0a;
  xab; xd3; x0a; xab; xd4; x0a; xab; xd5;
  x0a; xab; xd6; x0a; xab; xd7; x0a; xab;
  xd8; x0a; xab; xd9; x0a; xab; xda; x0a;
  xab; xdb; x0a; xab; xdc; x0a; xab; xdd;
  x0a; xab; xde; x0a; xab; xdf; x0a; xab
].
(* tests/test_data/whatwg/big5_whatwg_test_encode_out.txt, entries 16896..17151 *)
Definition big5_encode_out_66 : list byte := [
  xe0; x0a; xab; xe1; x0a; xab; xe2; x0a;
  xab; xe3; x0a; xab; xe4; x0a; xab; xe5;
  x0a; xab; xe6; x0a; xab; xe7; x0a; xab;
  xe8; x0a; xab; xe9; x0a; xab; xea; x0a;
  xab; xeb; x0a; xab; xed; x0a; xab; xee;
  x0a; xab; xef; x0a; xab; xf0; x0a; xab;
  xf1; x0a; xab; xf2; x0a; xab; xf3; x0a;
  xab; xf4; x0a; xab; xf5; x0a; xab; xf6;
  x0a; xab; xf7; x0a; xab; xf8; x0a; xab;
  xf9; x0a; xab; xfa; x0a; xab; xfb; x0a;
  xab; xfc; x0a; xab; xfd; x0a; xab; xfe;
  x0a; xac; x40; x0a; xac; x41; x0a; xac;
  x42; x0a; xac; x43; x0a; xac; x44; x0a;
  xac; x45; x0a; xac; x46; x0a; xac; x47;
  x0a; xac; x48; x0a; xac; x49; x0a; xac;
  x4a; x0a; xac; x4b; x0a; xac; x4c; x0a;
  xac; x4d; x0a; xac; x4e; x0a; xac; x4f;
  x0a; xac; x50; x0a; xac; x51; x0a; xac;
  x52; x0a; xac; x53; x0a; xac; x54; x0a;
  xac; x55; x0a; xac; x56; x0a; xac; x57;
  x0a; xac; x58; x0a; xac; x59; x0a; xac;
  x5a; x0a; xac; x5b; x0a; xac; x5c; x0a;
  xac; x5d; x0a; xac; x5e; x0a; xac; x5f;
  x0a; xac; x60; x0a; xac; x61; x0a; xac;
  x62; x0a; xac; x63; x0a; xac; x64; x0a;
  xac; x65; x0a; xac; x66; x0a; xac; x67;
  x0a; xac; x68; x0a; xac; x69; x0a; xac;
  x6a; x0a; xac; x6b; x0a; xac; x6c; x0a;
  xac; x6d; x0a; xac; x6e; x0a; xac; x6f;
  x0a; xac; x70; x0a; xac; x71; x0a; xac;
  x72; x0a; xac; x73; x0a; xac; x74; x0a;
  xac; x75; x0a; xac; x76; x0a; xac; x77
].
(* tests/test_data/whatwg/big5_whatwg_test_encode_out.txt, entries 17152..17407 *)
Definition big5_encode_out_67 : list byte := [
  x0a; xac; x78; x0a; xac; x79; x0a; xac;
  x7a; x0a; xac; x7b; x0a; xac; x7c; x0a;
  xac; x7d; x0a; xac; x7e; x0a; xac; xa1;
  x0a; xac; xa2; x0a; xac; xa3; x0a; xac;
  xa4; x0a; xac; xa5; x0a; xac; xa6; x0a;
  xac; xa7; x0a; xac; xa8; x0a; xac; xa9;
  x0a; xac; xaa; x0a; xac; xab; x0a; xac;
  xac; x0a; xac; xad; x0a; xac; xae; x0a;
  xac; xaf; x0a; xac; xb0; x0a; xac; xb1;
  x0a; xac; xb2; x0a; xac; xb3; x0a; xac;
  xb4; x0a; xac; xb5; x0a; xac; xb6; x0a;
  xac; xb7; x0a; xac; xb8; x0a; xac; xb9;
  x0a; xac; xba; x0a; xac; xbb; x0a; xac;
  xbc; x0a; xac; xbd; x0a; xac; xbe; x0a;
  xac; xbf; x0a; xac; xc0; x0a; xac; xc1;
  x0a; xac; xc2; x0a; xac; xc3; x0a; xac;
  xc4; x0a; xac; xc5; x0a; xac; xc6; x0a;
  xac; xc7; x0a; xac; xc8; x0a; xac; xc9;
  x0a; xac; xca; x0a; xac; xcb; x0a; xac;
  xcc; x0a; xac; xcd; x0a; xac; xce; x0a;
  xac; xcf; x0a; xac; xd0; x0a; xac; xd1;
  x0a; xac; xd2; x0a; xac; xd3; x0a; xac;
  xd4; x0a; xac; xd5; x0a; xac; xd6; x0a;
  xac; xd7; x0a; xac; xd8; x0a; xac; xd9;
  x0a; xac; xda; x0a; xac; xdb; x0a; xac;
  xdc; x0a; xac; xdd; x0a; xac; xde; x0a;
  xac; xdf; x0a; xac; xe0; x0a; xac; xe1;
  x0a; xac; xe2; x0a; xac; xe3; x0a; xac;
  xe4; x0a; xac; xe5; x0a; xac; xe6; x0a;
  xac; xe7; x0a; xac; xe8; x0a; xac; xe9;
  x0a; xac; xea; x0a; xac; xeb; x0a; xac;
  xec; x0a; xac; xed; x0a; xac; xee; x0a
].
(* tests/test_data/whatwg/big5_whatwg_test_encode_out.txt, entries 17408..17663 *)
Definition big5_encode_out_68 : list byte := [
  xac; xef; x0a; xac; xf0; x0a; xac; xf1;
  x0a; xac; xf2; x0a; xac; xf3; x0a; xac;
  xf4; x0a; xac; xf5; x0a; xac; xf6; x0a;
  xac; xf7; x0a; xac; xf8; x0a; xac; xf9;
  x0a; xac; xfa; x0a; xac; xfb; x0a; xac;
  xfc; x0a; xac; xfd; x0a; xac; xfe; x0a;
  xad; x40; x0a; xad; x41; x0a; xad; x42;
  x0a; xad; x43; x0a; xad; x44; x0a; xad;
  x45; x0a; xad; x46; x0a; xad; x47; x0a;
  xad; x48; x0a; xad; x49; x0a; xad; x4a;
  x0a; xad; x4b; x0a; xad; x4c; x0a; xad;
  x4d; x0a; xad; x4e; x0a; xad; x4f; x0a;
  xad; x50; x0a; xad; x51; x0a; xad; x52;
  x0a; xad; x53; x0a; xad; x54; x0a; xad;
  x55; x0a; xad; x56; x0a; xad; x57; x0a;
  xad; x58; x0a; xad; x59; x0a; xad; x5a;
  x0a; xad; x5b; x0a; xad; x5c; x0a; xad;
  x5d; x0a; xad; x5e; x0a; xad; x5f; x0a;
  xad; x60; x0a; xad; x61; x0a; xad; x62;
  x0a; xad; x63; x0a; xad; x64; x0a; xad;
  x65; x0a; xad; x66; x0a; xad; x67; x0a;
  xad; x68; x0a; xad; x69; x0a; xad; x6a;
  x0a; xad; x6b; x0a; xad; x6c; x0a; xad;
  x6d; x0a; xad; x6e; x0a; xad; x6f; x0a;
  xad; x70; x0a; xad; x71; x0a; xad; x72;
  x0a; xad; x73; x0a; xad; x74; x0a; xad;
  x75; x0a; xad; x76; x0a; xad; x77; x0a;
  xad; x78; x0a; xad; x79; x0a; xad; x7a;
  x0a; xad; x7b; x0a; xad; x7c; x0a; xad;
  x7d; x0a; xad; x7e; x0a; xad; xa1; x0a;
  xad; xa2; x0a; xad; xa3; x0a; xad; xa4;
  x0a; xad; xa5; x0a; xad; xa6; x0a; xad
].
(* tests/test_data/whatwg/big5_whatwg_test_encode_out.txt, entries 17664..17919 *)
Definition big5_encode_out_69 : list byte := [
  xa7; x0a; xad; xa8; x0a; xad; xa9; x0a;
  xad; xaa; x0a; xad; xab; x0a; xad; xac;
  x0a; xad; xad; x0a; xad; xae; x0a; xad;
  xaf; x0a; xad; xb0; x0a; xad; xb1; x0a;
  xad; xb2; x0a; xad; xb3; x0a; xad; xb4;
  x0a; xad; xb5; x0a; xad; xb6; x0a; xad;
  xb7; x0a; xad; xb8; x0a; xad; xb9; x0a;
  xad; xba; x0a; xad; xbb; x0a; xad; xbc;
  x0a; xad; xbd; x0a; xad; xbe; x0a; xad;
  xbf; x0a; xad; xc0; x0a; xad; xc1; x0a;
  xad; xc2; x0a; xad; xc3; x0a; xad; xc4;
  x0a; xad; xc5; x0a; xad; xc6; x0a; xad;
  xc7; x0a; xad; xc8; x0a; xad; xc9; x0a;
  xad; xca; x0a; xad; xcb; x0a; xad; xcc;
  x0a; xad; xcd; x0a; xad; xce; x0a; xad;
  xcf; x0a; xad; xd0; x0a; xad; xd1; x0a;
  xad; xd2; x0a; xad; xd3; x0a; xad; xd4;
  x0a; xad; xd5; x0a; xad; xd6; x0a; xad;
  xd7; x0a; xad; xd8; x0a; xad; xd9; x0a;
  xad; xda; x0a; xad; xdb; x0a; xad; xdc;
  x0a; xad; xdd; x0a; xad; xde; x0a; xad;
  xdf; x0a; xad; xe0; x0a; xad; xe1; x0a;
  xad; xe2; x0a; xad; xe3; x0a; xad; xe4;
  x0a; xad; xe5; x0a; xad; xe6; x0a; xad;
  xe7; x0a; xad; xe8; x0a; xad; xe9; x0a;
  xad; xea; x0a; xad; xeb; x0a; xad; xec;
  x0a; xad; xed; x0a; xad; xee; x0a; xad;
  xef; x0a; xad; xf0; x0a; xad; xf1; x0a;
  xad; xf2; x0a; xad; xf3; x0a; xad; xf4;
  x0a; xad; xf5; x0a; xad; xf6; x0a; xad;
  xf7; x0a; xad; xf8; x0a; xad; xf9; x0a;
  xad; xfa; x0a; xad; xfb; x0a; xad; xfc
].
(* tests/test_data/whatwg/big5_whatwg_test_encode_out.txt, entries 17920..18175 *)
Definition big5_encode_out_70 : list byte := [
  x0a; xad; xfd; x0a; xad; xfe; x0a; xae;
  x40; x0a; xae; x41; x0a; xae; x42; x0a;
  xae; x43; x0a; xae; x44; x0a; xae; x45;
  x0a; xae; x46; x0a; xae; x47; x0a; xae;
  x48; x0a; xae; x49; x0a; xae; x4a; x0a;
  xae; x4b; x0a; xae; x4c; x0a; xae; x4d;
  x0a; xae; x4e; x0a; xae; x4f; x0a; xae;
  x50; x0a; xae; x51; x0a; xae; x52; x0a;
  xae; x53; x0a; xae; x54; x0a; xae; x55;
  x0a; xae; x56; x0a; xae; x57; x0a; xae;
  x58; x0a; xae; x59; x0a; xae; x5a; x0a;
  xae; x5b; x0a; xae; x5c; x0a; xae; x5d;
  x0a; xae; x5e; x0a; xae; x5f; x0a; xae;
  x60; x0a; xae; x61; x0a; xae; x62; x0a;
  xae; x63; x0a; xae; x64; x0a; xae; x65;
  x0a; xae; x66; x0a; xae; x67; x0a; xae;
  x68; x0a; xae; x69; x0a; xae; x6a; x0a;
  xae; x6b; x0a; xae; x6c; x0a; xae; x6d;
  x0a; xae; x6e; x0a; xae; x6f; x0a; xae;
  x70; x0a; xae; x71; x0a; xae; x72; x0a;
  xae; x73; x0a; xae; x74; x0a; xae; x75;
  x0a; xae; x76; x0a; xae; x77; x0a; xae;
  x78; x0a; xae; x79; x0a; xae; x7a; x0a;
  xae; x7b; x0a; xae; x7c; x0a; xae; x7d;
  x0a; xae; x7e; x0a; xae; xa1; x0a; xae;
  xa2; x0a; xae; xa3; x0a; xae; xa4; x0a;
  xae; xa5; x0a; xae; xa6; x0a; xae; xa7;
  x0a; xae; xa8; x0a; xae; xa9; x0a; xae;
  xaa; x0a; xae; xab; x0a; xae; xac; x0a;
  xae; xad; x0a; xae; xae; x0a; xae; xaf;
  x0a; xae; xb0; x0a; xae; xb1; x0a; xae;
  xb2; x0a; xae; xb3; x0a; xae; xb4; x0a
].
(* tests/test_data/whatwg/big5_whatwg_test_encode_out.txt, entries 18176..18431 *)
Definition big5_encode_out_71 : list byte := [
  xae; xb5; x0a; xae; xb6; x0a; xae; xb7;
  x0a; xae; xb8; x0a; xae; xb9; x0a; xae;
  xba; x0a; xae; xbb; x0a; xae; xbc; x0a;
  xae; xbd; x0a; xae; xbe; x0a; xae; xbf;
  x0a; xae; xc0; x0a; xae; xc1; x0a; xae;
  xc2; x0a; xae; xc3; x0a; xae; xc4; x0a;
  xae; xc5; x0a; xae; xc6; x0a; xae; xc7;
  x0a; xae; xc8; x0a; xae; xc9; x0a; xae;
  xca; x0a; xae; xcb; x0a; xae; xcc; x0a;
  xae; xcd; x0a; xae; xce; x0a; xae; xcf;
  x0a; xae; xd0; x0a; xae; xd1; x0a; xae;
  xd2; x0a; xae; xd3; x0a; xae; xd4; x0a;
  xae; xd5; x0a; xae; xd6; x0a; xae; xd7;
  x0a; xae; xd8; x0a; xae; xd9; x0a; xae;
  xda; x0a; xae; xdb; x0a; xae; xdc; x0a;
  xae; xdd; x0a; xae; xde; x0a; xae; xdf;
  x0a; xae; xe0; x0a; xae; xe1; x0a; xae;
  xe2; x0a; xae; xe3; x0a; xae; xe4; x0a;
  xae; xe5; x0a; xae; xe6; x0a; xae; xe7;
  x0a; xae; xe8; x0a; xae; xe9; x0a; xae;
  xea; x0a; xae; xeb; x0a; xae; xec; x0a;
  xae; xed; x0a; xae; xee; x0a; xae; xef;
  x0a; xae; xf0; x0a; xae; xf1; x0a; xae;
  xf2; x0a; xae; xf3; x0a; xae; xf4; x0a;
  xae; xf5; x0a; xae; xf6; x0a; xae; xf7;
  x0a; xae; xf8; x0a; xae; xf9; x0a; xae;
  xfa; x0a; xae; xfb; x0a; xae; xfc; x0a;
  xae; xfd; x0a; xae; xfe; x0a; xaf; x40;
  x0a; xaf; x41; x0a; xaf; x42; x0a; xaf;
  x43; x0a; xaf; x44; x0a; xaf; x45; x0a;
  xaf; x46; x0a; xaf; x47; x0a; xaf; x48;
  x0a; xaf; x49; x0a; xaf; x4a; x0a; xaf
].
(* tests/test_data/whatwg/big5_whatwg_test_encode_out.txt, entries 18432..18687 *)
Definition big5_encode_out_72 : list byte := [
  x4b; x0a; xaf; x4c; x0a; xaf; x4d; x0a;
  xaf; x4e; x0a; xaf; x4f; x0a; xaf; x50;
  x0a; xaf; x51; x0a; xaf; x52; x0a; xaf;
  x53; x0a; xaf; x54; x0a; xaf; x55; x0a;
  xaf; x56; x0a; xaf; x57; x0a; xaf; x58;
  x0a; xaf; x59; x0a; xaf; x5a; x0a; xaf;
  x5b; x0a; xaf; x5c; x0a; xaf; x5d; x0a;
  xaf; x5e; x0a; xaf; x5f; x0a; xaf; x60;
  x0a; xaf; x61; x0a; xaf; x62; x0a; xaf;
  x63; x0a; xaf; x64; x0a; xaf; x65; x0a;
  xaf; x66; x0a; xaf; x67; x0a; xaf; x68;
  x0a; xaf; x69; x0a; xaf; x6a; x0a; xaf;
  x6b; x0a; xaf; x6c; x0a; xaf; x6d; x0a;
  xaf; x6e; x0a; xaf; x6f; x0a; xaf; x70;
  x0a; xaf; x71; x0a; xaf; x72; x0a; xaf;
  x73; x0a; xaf; x74; x0a; xaf; x75; x0a;
  xaf; x76; x0a; xaf; x77; x0a; xaf; x78;
  x0a; xaf; x79; x0a; xaf; x7a; x0a; xaf;
  x7b; x0a; xaf; x7c; x0a; xaf; x7d; x0a;
  xaf; x7e; x0a; xaf; xa1; x0a; xaf; xa2;
  x0a; xaf; xa3; x0a; xaf; xa4; x0a; xaf;
  xa5; x0a; xaf; xa6; x0a; xaf; xa7; x0a;
  xaf; xa8; x0a; xaf; xa9; x0a; xaf; xaa;
  x0a; xaf; xab; x0a; xaf; xac; x0a; xaf;
  xad; x0a; xaf; xae; x0a; xaf; xaf; x0a;
  xaf; xb1; x0a; xaf; xb2; x0a; xaf; xb3;
  x0a; xaf; xb4; x0a; xaf; xb5; x0a; xaf;
  xb6; x0a; xaf; xb7; x0a; xaf; xb8; x0a;
  xaf; xb9; x0a; xaf; xba; x0a; xaf; xbb;
  x0a; xaf; xbc; x0a; xaf; xbd; x0a; xaf;
  xbe; x0a; xaf; xbf; x0a; xaf; xc0; x0a;
  xaf; xc1; x0a; xaf; xc2; x0a; xaf; xc3
].
(* tests/test_data/whatwg/big5_whatwg_test_encode_out.txt, entries 18688..18943 *)
Definition big5_encode_out_73 : list byte := [
  x0a; xaf; xc4; x0a; xaf; xc5; x0a; xaf;
  xc6; x0a; xaf; xc7; x0a; xaf; xc8; x0a;
  xaf; xc9; x0a; xaf; xca; x0a; xaf; xcb;
  x0a; xaf; xcc; x0a; xaf; xcd; x0a; xaf;
  xce; x0a; xaf; xcf; x0a; xaf; xd0; x0a;
  xaf; xd1; x0a; xaf; xd2; x0a; xaf; xd3;
  x0a; xaf; xd4; x0a; xaf; xd5; x0a; xaf;
  xd6; x0a; xaf; xd7; x0a; xaf; xd8; x0a;
  xaf; xd9; x0a; xaf; xda; x0a; xaf; xdb;
  x0a; xaf; xdc; x0a; xaf; xdd; x0a; xaf;
  xde; x0a; xaf; xdf; x0a; xaf; xe0; x0a;
  xaf; xe1; x0a; xaf; xe2; x0a; xaf; xe3;
  x0a; xaf; xe4; x0a; xaf; xe5; x0a; xaf;
  xe6; x0a; xaf; xe7; x0a; xaf; xe8; x0a;
  xaf; xe9; x0a; xaf; xea; x0a; xaf; xeb;
  x0a; xaf; xec; x0a; xaf; xed; x0a; xaf;
  xee; x0a; xaf; xef; x0a; xaf; xf0; x0a;
  xaf; xf1; x0a; xaf; xf2; x0a; xaf; xf3;
  x0a; xaf; xf4; x0a; xaf; xf5; x0a; xaf;
  xf6; x0a; xaf; xf7; x0a; xaf; xf8; x0a;
  xaf; xf9; x0a; xaf; xfa; x0a; xaf; xfb;
  x0a; xaf; xfc; x0a; xaf; xfd; x0a; xaf;
  xfe; x0a; xb0; x40; x0a; xb0; x41; x0a;
  xb0; x42; x0a; xb0; x43; x0a; xb0; x44;
  x0a; xb0; x45; x0a; xb0; x46; x0a; xb0;
  x47; x0a; xb0; x48; x0a; xb0; x49; x0a;
  xb0; x4a; x0a; xb0; x4b; x0a; xb0; x4c;
  x0a; xb0; x4d; x0a; xb0; x4e; x0a; xb0;
  x4f; x0a; xb0; x50; x0a; xb0; x51; x0a;
  xb0; x52; x0a; xb0; x53; x0a; xb0; x54;
  x0a; xb0; x55; x0a; xb0; x56; x0a; xb0;
  x57; x0a; xb0; x58; x0a; xb0; x59; x0a
].
(* tests/test_data/whatwg/big5_whatwg_test_encode_out.txt, entries 18944..19199 *)
Definition big5_encode_out_74 : list byte := [
  xb0; x5a; x0a; xb0; x5b; x0a; xb0; x5c;
  x0a; xb0; x5d; x0a; xb0; x5e; x0a; xb0;
  x60; x0a; xb0; x61; x0a; xb0; x62; x0a;
  xb0; x63; x0a; xb0; x64; x0a; xb0; x65;
  x0a; xb0; x66; x0a; xb0; x67; x0a; xb0;
  x68; x0a; xb0; x69; x0a; xb0; x6a; x0a;
  xb0; x6b; x0a; xb0; x6c; x0a; xb0; x6d;
  x0a; xb0; x6e; x0a; xb0; x6f; x0a; xb0;
  x70; x0a; xb0; x71; x0a; xb0; x72; x0a;
  xb0; x73; x0a; xb0; x74; x0a; xb0; x75;
  x0a; xb0; x76; x0a; xb0; x77; x0a; xb0;
  x78; x0a; xb0; x79; x0a; xb0; x7a; x0a;
  xb0; x7b; x0a; xb0; x7c; x0a; xb0; x7d;
  x0a; xb0; x7e; x0a; xb0; xa1; x0a; xb0;
  xa2; x0a; xb0; xa3; x0a; xb0; xa4; x0a;
  xb0; xa5; x0a; xb0; xa6; x0a; xb0; xa7;
  x0a; xb0; xa8; x0a; xb0; xa9; x0a; xb0;
  xaa; x0a; xb0; xab; x0a; xb0; xac; x0a;
  xb0; xad; x0a; xb0; xae; x0a; xb0; xaf;
  x0a; xb0; xb0; x0a; xb0; xb1; x0a; xb0;
  xb2; x0a; xb0; xb3; x0a; xb0; xb4; x0a;
  xb0; xb5; x0a; xb0; xb6; x0a; xb0; xb7;
  x0a; xb0; xb8; x0a; xb0; xb9; x0a; xb0;
  xba; x0a; xb0; xbb; x0a; xb0; xbc; x0a;
  xb0; xbd; x0a; xb0; xbe; x0a; xb0; xbf;
  x0a; xb0; xc0; x0a; xb0; xc1; x0a; xb0;
  xc2; x0a; xb0; xc3; x0a; xb0; xc4; x0a;
  xb0; xc5; x0a; xb0; xc6; x0a; xb0; xc7;
  x0a; xb0; xc8; x0a; xb0; xc9; x0a; xb0;
  xca; x0a; xb0; xcb; x0a; xb0; xcc; x0a;
  xb0; xcd; x0a; xb0; xce; x0a; xb0; xcf;
  x0a; xb0; xd0; x0a; xb0; xd1; x0a; xb0
].
(* tests/test_data/whatwg/big5_whatwg_test_encode_out.txt, entries 19200..19455 *)
Definition big5_encode_out_75 : list byte := [
  xd2; x0a; xb0; xd3; x0a; xb0; xd4; x0a;
  xb0; xd5; x0a; xb0; xd6; x0a; xb0; xd7;
  x0a; xb0; xd8; x0a; xb0; xd9; x0a; xb0;
  xda; x0a; xb0; xdb; x0a; xb0; xdc; x0a;
  xb0; xdd; x0a; xb0; xde; x0a; xb0; xdf;
  x0a; xb0; xe0; x0a; xb0; xe1; x0a; xb0;
  xe2; x0a; xb0; xe3; x0a; xb0; xe4; x0a;
  xb0; xe5; x0a; xb0; xe6; x0a; xb0; xe7;
  x0a; xb0; xe8; x0a; xb0; xe9; x0a; xb0;
  xea; x0a; xb0; xeb; x0a; xb0; xec; x0a;
  xb0; xed; x0a; xb0; xee; x0a; xb0; xef;
  x0a; xb0; xf0; x0a; xb0; xf1; x0a; xb0;
  xf2; x0a; xb0; xf3; x0a; xb0; xf4; x0a;
  xb0; xf5; x0a; xb0; xf6; x0a; xb0; xf7;
  x0a; xb0; xf8; x0a; xb0; xf9; x0a; xb0;
  xfa; x0a; xb0; xfb; x0a; xb0; xfc; x0a;
  xb0; xfd; x0a; xb0; xfe; x0a; xb1; x40;
  x0a; xb1; x41; x0a; xb1; x42; x0a; xb1;
  x43; x0a; xb1; x44; x0a; xb1; x45; x0a;
  xb1; x46; x0a; xb1; x47; x0a; xb1; x48;
  x0a; xb1; x49; x0a; xb1; x4a; x0a; xb1;
  x4b; x0a; xb1; x4c; x0a; xb1; x4d; x0a;
  xb1; x4e; x0a; xb1; x4f; x0a; xb1; x50;
  x0a; xb1; x51; x0a; xb1; x52; x0a; xb1;
  x53; x0a; xb1; x54; x0a; xb1; x55; x0a;
  xb1; x56; x0a; xb1; x57; x0a; xb1; x58;
  x0a; xb1; x59; x0a; xb1; x5a; x0a; xb1;
  x5b; x0a; xb1; x5c; x0a; xb1; x5d; x0a;
  xb1; x5e; x0a; xb1; x5f; x0a; xb1; x60;
  x0a; xb1; x61; x0a; xb1; x62; x0a; xb1;
  x63; x0a; xb1; x64; x0a; xb1; x65; x0a;
  xb1; x66; x0a; xb1; x67; x0a; xb1; x68
].
(* tests/test_data/whatwg/big5_whatwg_test_encode_out.txt, entries 19456..19711 *)
Definition big5_encode_out_76 : list byte := [
  x0a; xb1; x69; x0a; xb1; x6a; x0a; xb1;
  x6b; x0a; xb1; x6c; x0a; xb1; x6d; x0a;
  xb1; x6e; x0a; xb1; x6f; x0a; xb1; x70;
  x0a; xb1; x71; x0a; xb1; x72; x0a; xb1;
  x73; x0a; xb1; x74; x0a; xb1; x75; x0a;
  xb1; x76; x0a; xb1; x77; x0a; xb1; x78;
  x0a; xb1; x79; x0a; xb1; x7a; x0a; xb1;
  x7b; x0a; xb1; x7c; x0a; xb1; x7d; x0a;
  xb1; x7e; x0a; xb1; xa1; x0a; xb1; xa2;
  x0a; xb1; xa3; x0a; xb1; xa4; x0a; xb1;
  xa5; x0a; xb1; xa6; x0a; xb1; xa7; x0a;
  xb1; xa8; x0a; xb1; xa9; x0a; xb1; xaa;
  x0a; xb1; xab; x0a; xb1; xac; x0a; xb1;
  xad; x0a; xb1; xae; x0a; xb1; xaf; x0a;
  xb1; xb0; x0a; xb1; xb1; x0a; xb1; xb2;
  x0a; xb1; xb3; x0a; xb1; xb4; x0a; xb1;
  xb5; x0a; xb1; xb6; x0a; xb1; xb7; x0a;
  xb1; xb8; x0a; xb1; xb9; x0a; xb1; xba;
  x0a; xb1; xbb; x0a; xb1; xbc; x0a; xb1;
  xbd; x0a; xb1; xbe; x0a; xb1; xbf; x0a;
  xb1; xc0; x0a; xb1; xc1; x0a; xb1; xc2;
  x0a; xb1; xc3; x0a; xb1; xc4; x0a; xb1;
  xc5; x0a; xb1; xc6; x0a; xb1; xc7; x0a;
  xb1; xc8; x0a; xb1; xc9; x0a; xb1; xca;
  x0a; xb1; xcb; x0a; xb1; xcc; x0a; xb1;
  xcd; x0a; xb1; xce; x0a; xb1; xcf; x0a;
  xb1; xd0; x0a; xb1; xd1; x0a; xb1; xd2;
  x0a; xb1; xd3; x0a; xb1; xd4; x0a; xb1;
  xd5; x0a; xb1; xd6; x0a; xb1; xd7; x0a;
  xb1; xd8; x0a; xb1; xd9; x0a; xb1; xda;
  x0a; xb1; xdb; x0a; xb1; xdc; x0a; xb1;
  xdd; x0a; xb1; xde; x0a; xb1; xdf; x0a
].
(* tests/test_data/whatwg/big5_whatwg_test_encode_out.txt, entries 19712..19967 *)
Definition big5_encode_out_77 : list byte := [
  xb1; xe0; x0a; xb1; xe1; x0a; xb1; xe2;
  x0a; xb1; xe3; x0a; xb1; xe4; x0a; xb1;
  xe5; x0a; xb1; xe6; x0a; xb1; xe7; x0a;
  xb1; xe8; x0a; xb1; xe9; x0a; xb1; xea;
  x0a; xb1; xeb; x0a; xb1; xec; x0a; xb1;
  xed; x0a; xb1; xee; x0a; xb1; xef; x0a;
  xb1; xf0; x0a; xb1; xf1; x0a; xb1; xf2;
  x0a; xb1; xf3; x0a; xb1; xf4; x0a; xb1;
  xf5; x0a; xb1; xf6; x0a; xb1; xf7; x0a;
  xb1; xf8; x0a; xb1; xf9; x0a; xb1; xfa;
  x0a; xb1; xfb; x0a; xb1; xfc; x0a; xb1;
  xfd; x0a; xb1; xfe; x0a; xb2; x40; x0a;
  xb2; x41; x0a; xb2; x42; x0a; xb2; x43;
  x0a; xb2; x44; x0a; xb2; x45; x0a; xb2;
  x46; x0a; xb2; x47; x0a; xb2; x48; x0a;
  xb2; x49; x0a; xb2; x4a; x0a; xb2; x4b;
  x0a; xb2; x4c; x0a; xb2; x4d; x0a; xb2;
  x4e; x0a; xb2; x4f; x0a; xb2; x50; x0a;
  xb2; x51; x0a; xb2; x52; x0a; xb2; x53;
  x0a; xb2; x54; x0a; xb2; x55; x0a; xb2;
  x56; x0a; xb2; x57; x0a; xb2; x58; x0a;
  xb2; x59; x0a; xb2; x5a; x0a; xb2; x5b;
  x0a; xb2; x5c; x0a; xb2; x5d; x0a; xb2;
  x5e; x0a; xb2; x5f; x0a; xb2; x60; x0a;
  xb2; x61; x0a; xb2; x62; x0a; xb2; x63;
  x0a; xb2; x64; x0a; xb2; x65; x0a; xb2;
  x66; x0a; xb2; x67; x0a; xb2; x68; x0a;
  xb2; x69; x0a; xb2; x6a; x0a; xb2; x6b;
  x0a; xb2; x6c; x0a; xb2; x6d; x0a; xb2;
  x6e; x0a; xb2; x6f; x0a; xb2; x70; x0a;
  xb2; x71; x0a; xb2; x72; x0a; xb2; x73;
  x0a; xb2; x74; x0a; xb2; x75; x0a; xb2
].
(* tests/test_data/whatwg/big5_whatwg_test_encode_out.txt, entries 19968..20223 *)
Definition big5_encode_out_78 : list byte := [
  x76; x0a; xb2; x77; x0a; xb2; x78; x0a;
  xb2; x79; x0a; xb2; x7a; x0a; xb2; x7b;
  x0a; xb2; x7c; x0a; xb2; x7d; x0a; xb2;
  x7e; x0a; xb2; xa1; x0a; xb2; xa2; x0a;
  xb2; xa3; x0a; xb2; xa4; x0a; xb2; xa5;
  x0a; xb2; xa6; x0a; xb2; xa7; x0a; xb2;
  xa8; x0a; xb2; xa9; x0a; xb2; xaa; x0a;
  xb2; xab; x0a; xb2; xac; x0a; xb2; xad;
  x0a; xb2; xae; x0a; xb2; xaf; x0a; xb2;
  xb0; x0a; xb2; xb1; x0a; xb2; xb2; x0a;
  xb2; xb3; x0a; xb2; xb4; x0a; xb2; xb5;
  x0a; xb2; xb6; x0a; xb2; xb7; x0a; xb2;
  xb8; x0a; xb2; xb9; x0a; xb2; xba; x0a;
  xb2; xbb; x0a; xb2; xbc; x0a; xb2; xbd;
  x0a; xb2; xbe; x0a; xb2; xbf; x0a; xb2;
  xc0; x0a; xb2; xc1; x0a; xb2; xc2; x0a;
  xb2; xc3; x0a; xb2; xc4; x0a; xb2; xc5;
  x0a; xb2; xc6; x0a; xb2; xc7; x0a; xb2;
  xc8; x0a; xb2; xc9; x0a; xb2; xca; x0a;
  xb2; xcb; x0a; xb2; xcc; x0a; xb2; xcd;
  x0a; xb2; xce; x0a; xb2; xcf; x0a; xb2;
  xd0; x0a; xb2; xd1; x0a; xb2; xd2; x0a;
  xb2; xd3; x0a; xb2; xd4; x0a; xb2; xd5;
  x0a; xb2; xd6; x0a; xb2; xd7; x0a; xb2;
  xd8; x0a; xb2; xd9; x0a; xb2; xda; x0a;
  xb2; xdb; x0a; xb2; xdc; x0a; xb2; xdd;
  x0a; xb2; xde; x0a; xb2; xdf; x0a; xb2;
  xe0; x0a; xb2; xe1; x0a; xb2; xe2; x0a;
  xb2; xe3; x0a; xb2; xe4; x0a; xb2; xe5;
  x0a; xb2; xe6; x0a; xb2; xe7; x0a; xb2;
  xe8; x0a; xb2; xe9; x0a; xb2; xea; x0a;
  xb2; xeb; x0a; xb2; xec; x0a; xb2; xed
].
(* tests/test_data/whatwg/big5_whatwg_test_encode_out.txt, entries 20224..20479 *)
Definition big5_encode_out_79 : list byte := [
  x0a; xb2; xee; x0a; xb2; xef; x0a; xb2;
  xf0; x0a; xb2; xf1; x0a; xb2; xf2; x0a;
  xb2; xf3; x0a; xb2; xf4; x0a; xb2; xf5;
  x0a; xb2; xf6; x0a; xb2; xf7; x0a; xb2;
  xf8; x0a; xb2; xf9; x0a; xb2; xfa; x0a;
  xb2; xfb; x0a; xb2; xfc; x0a; xb2; xfd;
  x0a; xb2; xfe; x0a; xb3; x40; x0a; xb3;
  x41; x0a; xb3; x42; x0a; xb3; x43; x0a;
  xb3; x44; x0a; xb3; x45; x0a; xb3; x46;
  x0a; xb3; x47; x0a; xb3; x48; x0a; xb3;
  x49; x0a; xb3; x4a; x0a; xb3; x4b; x0a;
  xb3; x4c; x0a; xb3; x4d; x0a; xb3; x4e;
  x0a; xb3; x4f; x0a; xb3; x50; x0a; xb3;
  x51; x0a; xb3; x52; x0a; xb3; x53; x0a;
  xb3; x54; x0a; xb3; x55; x0a; xb3; x56;
  x0a; xb3; x57; x0a; xb3; x58; x0a; xb3;
  x59; x0a; xb3; x5a; x0a; xb3; x5b; x0a;
  xb3; x5c; x0a; xb3; x5d; x0a; xb3; x5e;
  x0a; xb3; x5f; x0a; xb3; x60; x0a; xb3;
  x61; x0a; xb3; x62; x0a; xb3; x63; x0a;
  xb3; x64; x0a; xb3; x65; x0a; xb3; x66;
  x0a; xb3; x67; x0a; xb3; x68; x0a; xb3;
  x69; x0a; xb3; x6a; x0a; xb3; x6b; x0a;
  xb3; x6c; x0a; xb3; x6d; x0a; xb3; x6e;
  x0a; xb3; x6f; x0a; xb3; x70; x0a; xb3;
  x71; x0a; xb3; x72; x0a; xb3; x73; x0a;
  xb3; x74; x0a; xb3; x75; x0a; xb3; x76;
  x0a; xb3; x77; x0a; xb3; x78; x0a; xb3;
  x79; x0a; xb3; x7a; x0a; xb3; x7b; x0a;
  xb3; x7c; x0a; xb3; x7d; x0a; xb3; x7e;
  x0a; xb3; xa1; x0a; xb3; xa2; x0a; xb3;
  xa4; x0a; xb3; xa5; x0a; xb3; xa6; x0a
].
(* tests/test_data/whatwg/big5_whatwg_test_encode_out.txt, entries 20480..20735 *)
Definition big5_encode_out_80 : list byte := [
  xb3; xa7; x0a; xb3; xa8; x0a; xb3; xa9;
  x0a; xb3; xaa; x0a; xb3; xab; x0a; xb3;
  xac; x0a; xb3; xad; x0a; xb3; xae; x0a;
  xb3; xaf; x0a; xb3; xb0; x0a; xb3; xb1;
  x0a; xb3; xb2; x0a; xb3; xb3; x0a; xb3;
  xb4; x0a; xb3; xb5; x0a; xb3; xb6; x0a;
  xb3; xb7; x0a; xb3; xb8; x0a; xb3; xb9;
  x0a; xb3; xba; x0a; xb3; xbb; x0a; xb3;
  xbc; x0a; xb3; xbd; x0a; xb3; xbe; x0a;
  xb3; xbf; x0a; xb3; xc0; x0a; xb3; xc1;
  x0a; xb3; xc2; x0a; xb3; xc3; x0a; xb3;
  xc4; x0a; xb3; xc5; x0a; xb3; xc6; x0a;
  xb3; xc7; x0a; xb3; xc8; x0a; xb3; xc9;
  x0a; xb3; xca; x0a; xb3; xcb; x0a; xb3;
  xcc; x0a; xb3; xcd; x0a; xb3; xce; x0a;
  xb3; xcf; x0a; xb3; xd0; x0a; xb3; xd1;
  x0a; xb3; xd2; x0a; xb3; xd3; x0a; xb3;
  xd4; x0a; xb3; xd5; x0a; xb3; xd6; x0a;
  xb3; xd7; x0a; xb3; xd8; x0a; xb3; xd9;
  x0a; xb3; xda; x0a; xb3; xdb; x0a; xb3;
  xdc; x0a; xb3; xdd; x0a; xb3; xde; x0a;
  xb3; xdf; x0a; xb3; xe0; x0a; xb3; xe1;
  x0a; xb3; xe2; x0a; xb3; xe3; x0a; xb3;
  xe4; x0a; xb3; xe5; x0a; xb3; xe6; x0a;
  xb3; xe7; x0a; xb3; xe8; x0a; xb3; xe9;
  x0a; xb3; xea; x0a; xb3; xeb; x0a; xb3;
  xec; x0a; xb3; xed; x0a; xb3; xee; x0a;
  xb3; xef; x0a; xb3; xf0; x0a; xb3; xf1;
  x0a; xb3; xf2; x0a; xb3; xf3; x0a; xb3;
  xf4; x0a; xb3; xf5; x0a; xb3; xf6; x0a;
  xb3; xf7; x0a; xb3; xf8; x0a; xb3; xf9;
  x0a; xb3; xfa; x0a; xb3; xfb; x0a; xb3
].
(* tests/test_data/whatwg/big5_whatwg_test_encode_out.txt, entries 20736..20991 *)
Definition big5_encode_out_81 : list byte := [
  xfc; x0a; xb3; xfd; x0a; xb3; xfe; x0a;
  xb4; x40; x0a; xb4; x41; x0a; xb4; x42;
  x0a; xb4; x43; x0a; xb4; x44; x0a; xb4;
  x45; x0a; xb4; x46; x0a; xb4; x47; x0a;
  xb4; x48; x0a; xb4; x49; x0a; xb4; x4a;
  x0a; xb4; x4b; x0a; xb4; x4c; x0a; xb4;
  x4d; x0a; xb4; x4e; x0a; xb4; x4f; x0a;
  xb4; x50; x0a; xb4; x51; x0a; xb4; x52;
  x0a; xb4; x53; x0a; xb4; x54; x0a; xb4;
  x55; x0a; xb4; x56; x0a; xb4; x57; x0a;
  xb4; x58; x0a; xb4; x59; x0a; xb4; x5a;
  x0a; xb4; x5b; x0a; xb4; x5c; x0a; xb4;
  x5d; x0a; xb4; x5e; x0a; xb4; x5f; x0a;
  xb4; x60; x0a; xb4; x61; x0a; xb4; x62;
  x0a; xb4; x63; x0a; xb4; x64; x0a; xb4;
  x65; x0a; xb4; x66; x0a; xb4; x67; x0a;
  xb4; x68; x0a; xb4; x69; x0a; xb4; x6a;
  x0a; xb4; x6b; x0a; xb4; x6c; x0a; xb4;
  x6d; x0a; xb4; x6e; x0a; xb4; x6f; x0a;
  xb4; x70; x0a; xb4; x71; x0a; xb4; x72;
  x0a; xb4; x73; x0a; xb4; x74; x0a; xb4;
  x75; x0a; xb4; x76; x0a; xb4; x77; x0a;
  xb4; x78; x0a; xb4; x79; x0a; xb4; x7a;
  x0a; xb4; x7b; x0a; xb4; x7c; x0a; xb4;
  x7d; x0a; xb4; x7e; x0a; xb4; xa1; x0a;
  xb4; xa2; x0a; xb4; xa3; x0a; xb4; xa4;
  x0a; xb4; xa5; x0a; xb4; xa6; x0a; xb4;
  xa7; x0a; xb4; xa8; x0a; xb4; xa9; x0a;
  xb4; xaa; x0a; xb4; xab; x0a; xb4; xac;
  x0a; xb4; xad; x0a; xb4; xae; x0a; xb4;
  xaf; x0a; xb4; xb0; x0a; xb4; xb1; x0a;
  xb4; xb2; x0a; xb4; xb3; x0a; xb4; xb4
].
(* tests/test_data/whatwg/big5_whatwg_test_encode_out.txt, entries 20992..21247 *)
Definition big5_encode_out_82 : list byte := [
  x0a; xb4; xb5; x0a; xb4; xb6; x0a; xb4;
  xb7; x0a; xb4; xb8; x0a; xb4; xb9; x0a;
  xb4; xba; x0a; xb4; xbb; x0a; xb4; xbc;
  x0a; xb4; xbd; x0a; xb4; xbe; x0a; xb4;
  xbf; x0a; xb4; xc0; x0a; xb4; xc1; x0a;
  xb4; xc2; x0a; xb4; xc3; x0a; xb4; xc4;
  x0a; xb4; xc5; x0a; xb4; xc6; x0a; xb4;
  xc7; x0a; xb4; xc8; x0a; xb4; xc9; x0a;
  xb4; xca; x0a; xb4; xcb; x0a; xb4; xcc;
  x0a; xb4; xcd; x0a; xb4; xce; x0a; xb4;
  xcf; x0a; xb4; xd0; x0a; xb4; xd1; x0a;
  xb4; xd2; x0a; xb4; xd3; x0a; xb4; xd4;
  x0a; xb4; xd5; x0a; xb4; xd6; x0a; xb4;
  xd7; x0a; xb4; xd8; x0a; xb4; xd9; x0a;
  xb4; xda; x0a; xb4; xdb; x0a; xb4; xdc;
  x0a; xb4; xdd; x0a; xb4; xde; x0a; xb4;
  xdf; x0a; xb4; xe0; x0a; xb4; xe1; x0a;
  xb4; xe2; x0a; xb4; xe3; x0a; xb4; xe4;
  x0a; xb4; xe5; x0a; xb4; xe6; x0a; xb4;
  xe7; x0a; xb4; xe8; x0a; xb4; xe9; x0a;
  xb4; xea; x0a; xb4; xeb; x0a; xb4; xec;
  x0a; xb4; xed; x0a; xb4; xee; x0a; xb4;
  xef; x0a; xb4; xf0; x0a; xb4; xf1; x0a;
  xb4; xf2; x0a; xb4; xf3; x0a; xb4; xf4;
  x0a; xb4; xf5; x0a; xb4; xf6; x0a; xb4;
  xf7; x0a; xb4; xf8; x0a; xb4; xf9; x0a;
  xb4; xfa; x0a; xb4; xfb; x0a; xb4; xfc;
  x0a; xb4; xfd; x0a; xb4; xfe; x0a; xb5;
  x40; x0a; xb5; x41; x0a; xb5; x42; x0a;
  xb5; x43; x0a; xb5; x44; x0a; xb5; x45;
  x0a; xb5; x46; x0a; xb5; x47; x0a; xb5;
  x48; x0a; xb5; x49; x0a; xb5; x4a; x0a
].
(* tests/test_data/whatwg/big5_whatwg_test_encode_out.txt, entries 21248..21503 *)
Definition big5_encode_out_83 : list byte := [
  xb5; x4b; x0a; xb5; x4c; x0a; xb5; x4d;
  x0a; xb5; x4e; x0a; xb5; x4f; x0a; xb5;
  x50; x0a; xb5; x51; x0a; xb5; x52; x0a;
  xb5; x53; x0a; xb5; x54; x0a; xb5; x55;
  x0a; xb5; x56; x0a; xb5; x57; x0a; xb5;
  x58; x0a; xb5; x59; x0a; xb5; x5a; x0a;
  xb5; x5b; x0a; xb5; x5c; x0a; xb5; x5d;
  x0a; xb5; x5e; x0a; xb5; x5f; x0a; xb5;
  x60; x0a; xb5; x61; x0a; xb5; x62; x0a;
  xb5; x63; x0a; xb5; x64; x0a; xb5; x65;
  x0a; xb5; x66; x0a; xb5; x67; x0a; xb5;
  x68; x0a; xb5; x69; x0a; xb5; x6a; x0a;
  xb5; x6b; x0a; xb5; x6c; x0a; xb5; x6d;
  x0a; xb5; x6e; x0a; xb5; x6f; x0a; xb5;
  x70; x0a; xb5; x71; x0a; xb5; x72; x0a;
  xb5; x73; x0a; xb5; x74; x0a; xb5; x75;
  x0a; xb5; x76; x0a; xb5; x77; x0a; xb5;
  x78; x0a; xb5; x79; x0a; xb5; x7a; x0a;
  xb5; x7b; x0a; xb5; x7c; x0a; xb5; x7d;
  x0a; xb5; x7e; x0a; xb5; xa1; x0a; xb5;
  xa2; x0a; xb5; xa3; x0a; xb5; xa4; x0a;
  xb5; xa5; x0a; xb5; xa6; x0a; xb5; xa7;
  x0a; xb5; xa8; x0a; xb5; xa9; x0a; xb5;
  xaa; x0a; xb5; xab; x0a; xb5; xac; x0a;
  xb5; xad; x0a; xb5; xaf; x0a; xb5; xb0;
  x0a; xb5; xb1; x0a; xb5; xb2; x0a; xb5;
  xb3; x0a; xb5; xb4; x0a; xb5; xb5; x0a;
  xb5; xb6; x0a; xb5; xb7; x0a; xb5; xb8;
  x0a; xb5; xb9; x0a; xb5; xba; x0a; xb5;
  xbb; x0a; xb5; xbc; x0a; xb5; xbd; x0a;
  xb5; xbe; x0a; xb5; xbf; x0a; xb5; xc0;
  x0a; xb5; xc1; x0a; xb5; xc2; x0a; xb5
].
(* tests/test_data/whatwg/big5_whatwg_test_encode_out.txt, entries 21504..21759 *)
Definition big5_encode_out_84 : list byte := [
  xc3; x0a; xb5; xc4; x0a; xb5; xc5; x0a;
  xb5; xc6; x0a; xb5; xc7; x0a; xb5; xc8;
  x0a; xb5; xc9; x0a; xb5; xca; x0a; xb5;
  xcb; x0a; xb5; xcc; x0a; xb5; xcd; x0a;
  xb5; xce; x0a; xb5; xcf; x0a; xb5; xd0;
  x0a; xb5; xd1; x0a; xb5; xd2; x0a; xb5;
  xd3; x0a; xb5; xd4; x0a; xb5; xd5; x0a;
  xb5; xd6; x0a; xb5; xd8; x0a; xb5; xd9;
  x0a; xb5; xda; x0a; xb5; xdb; x0a; xb5;
  xdc; x0a; xb5; xdd; x0a; xb5; xde; x0a;
  xb5; xdf; x0a; xb5; xe0; x0a; xb5; xe1;
  x0a; xb5; xe2; x0a; xb5; xe3; x0a; xb5;
  xe4; x0a; xb5; xe5; x0a; xb5; xe6; x0a;
  xb5; xe7; x0a; xb5; xe8; x0a; xb5; xe9;
  x0a; xb5; xea; x0a; xb5; xeb; x0a; xb5;
  xec; x0a; xb5; xed; x0a; xb5; xee; x0a;
  xb5; xef; x0a; xb5; xf0; x0a; xb5; xf1;
  x0a; xb5; xf2; x0a; xb5; xf3; x0a; xb5;
  xf4; x0a; xb5; xf5; x0a; xb5; xf6; x0a;
  xb5; xf7; x0a; xb5; xf8; x0a; xb5; xf9;
  x0a; xb5; xfa; x0a; xb5; xfb; x0a; xb5;
  xfc; x0a; xb5; xfd; x0a; xb5; xfe; x0a;
  xb6; x40; x0a; xb6; x41; x0a; xb6; x42;
  x0a; xb6; x43; x0a; xb6; x44; x0a; xb6;
  x45; x0a; xb6; x46; x0a; xb6; x47; x0a;
  xb6; x48; x0a; xb6; x49; x0a; xb6; x4a;
  x0a; xb6; x4b; x0a; xb6; x4c; x0a; xb6;
  x4d; x0a; xb6; x4e; x0a; xb6; x4f; x0a;
  xb6; x50; x0a; xb6; x51; x0a; xb6; x52;
  x0a; xb6; x53; x0a; xb6; x54; x0a; xb6;
  x55; x0a; xb6; x56; x0a; xb6; x57; x0a;
  xb6; x58; x0a; xb6; x59; x0a; xb6; x5a
].
(* tests/test_data/whatwg/big5_whatwg_test_encode_out.txt, entries 21760..22015 *)
Definition big5_encode_out_85 : list byte := [
  x0a; xb6; x5b; x0a; xb6; x5c; x0a; xb6;
  x5d; x0a; xb6; x5e; x0a; xb6; x5f; x0a;
  xb6; x60; x0a; xb6; x61; x0a; xb6; x62;
  x0a; xb6; x63; x0a; xb6; x64; x0a; xb6;
  x65; x0a; xb6; x66; x0a; xb6; x67; x0a;
  xb6; x68; x0a; xb6; x69; x0a; xb6; x6a;
  x0a; xb6; x6b; x0a; xb6; x6c; x0a; xb6;
  x6d; x0a; xb6; x6e; x0a; xb6; x6f; x0a;
  xb6; x70; x0a; xb6; x71; x0a; xb6; x72;
  x0a; xb6; x73; x0a; xb6; x74; x0a; xb6;
  x75; x0a; xb6; x76; x0a; xb6; x77; x0a;
  xb6; x78; x0a; xb6; x79; x0a; xb6; x7a;
  x0a; xb6; x7b; x0a; xb6; x7c; x0a; xb6;
  x7d; x0a; xb6; x7e; x0a; xb6; xa1; x0a;
  xb6; xa2; x0a; xb6; xa3; x0a; xb6; xa4;
  x0a; xb6; xa5; x0a; xb6; xa6; x0a; xb6;
  xa7; x0a; xb6; xa8; x0a; xb6; xa9; x0a;
  xb6; xaa; x0a; xb6; xab; x0a; xb6; xac;
  x0a; xb6; xad; x0a; xb6; xae; x0a; xb6;
  xaf; x0a; xb6; xb0; x0a; xb6; xb1; x0a;
  xb6; xb2; x0a; xb6; xb3; x0a; xb6; xb4;
  x0a; xb6; xb5; x0a; xb6; xb6; x0a; xb6;
  xb7; x0a; xb6; xb8; x0a; xb6; xb9; x0a;
  xb6; xba; x0a; xb6; xbb; x0a; xb6; xbc;
  x0a; xb6; xbd; x0a; xb6; xbe; x0a; xb6;
  xbf; x0a; xb6; xc0; x0a; xb6; xc1; x0a;
  xb6; xc2; x0a; xb6; xc3; x0a; xb6; xc4;
  x0a; xb6; xc5; x0a; xb6; xc6; x0a; xb6;
  xc7; x0a; xb6; xc8; x0a; xb6; xc9; x0a;
  xb6; xca; x0a; xb6; xcb; x0a; xb6; xcc;
  x0a; xb6; xcd; x0a; xb6; xce; x0a; xb6;
  xcf; x0a; xb6; xd0; x0a; xb6; xd1; x0a
].
(* tests/test_data/whatwg/big5_whatwg_test_encode_out.txt, entries 22016..22271 *)
Definition big5_encode_out_86 : list byte := [
  xb6; xd2; x0a; xb6; xd3; x0a; xb6; xd4;
  x0a; xb6; xd5; x0a; xb6; xd6; x0a; xb6;
  xd7; x0a; xb6; xd8; x0a; xb6; xd9; x0a;
  xb6; xda; x0a; xb6; xdb; x0a; xb6; xdc;
  x0a; xb6; xdd; x0a; xb6; xde; x0a; xb6;
  xdf; x0a; xb6; xe0; x0a; xb6; xe1; x0a;
  xb6; xe2; x0a; xb6; xe3; x0a; xb6; xe4;
  x0a; xb6; xe5; x0a; xb6; xe6; x0a; xb6;
  xe7; x0a; xb6; xe8; x0a; xb6; xe9; x0a;
  xb6; xea; x0a; xb6; xeb; x0a; xb6; xec;
  x0a; xb6; xed; x0a; xb6; xee; x0a; xb6;
  xef; x0a; xb6; xf0; x0a; xb6; xf1; x0a;
  xb6; xf2; x0a; xb6; xf3; x0a; xb6; xf4;
  x0a; xb6; xf5; x0a; xb6; xf6; x0a; xb6;
  xf7; x0a; xb6; xf8; x0a; xb6; xf9; x0a;
  xb6; xfa; x0a; xb6; xfb; x0a; xb6; xfc;
  x0a; xb6; xfd; x0a; xb6; xfe; x0a; xb7;
  x40; x0a; xb7; x41; x0a; xb7; x42; x0a;
  xb7; x43; x0a; xb7; x44; x0a; xb7; x45;
  x0a; xb7; x46; x0a; xb7; x47; x0a; xb7;
  x48; x0a; xb7; x49; x0a; xb7; x4a; x0a;
  xb7; x4b; x0a; xb7; x4c; x0a; xb7; x4d;
  x0a; xb7; x4e; x0a; xb7; x4f; x0a; xb7;
  x50; x0a; xb7; x51; x0a; xb7; x52; x0a;
  xb7; x53; x0a; xb7; x54; x0a; xb7; x55;
  x0a; xb7; x56; x0a; xb7; x57; x0a; xb7;
  x58; x0a; xb7; x59; x0a; xb7; x5a; x0a;
  xb7; x5b; x0a; xb7; x5c; x0a; xb7; x5d;
  x0a; xb7; x5e; x0a; xb7; x5f; x0a; xb7;
  x60; x0a; xb7; x61; x0a; xb7; x62; x0a;
  xb7; x63; x0a; xb7; x64; x0a; xb7; x65;
  x0a; xb7; x66; x0a; xb7; x67; x0a; xb7
].
(* tests/test_data/whatwg/big5_whatwg_test_encode_out.txt, entries 22272..22527 *)
Definition big5_encode_out_87 : list byte := [
  x68; x0a; xb7; x69; x0a; xb7; x6a; x0a;
  xb7; x6b; x0a; xb7; x6c; x0a; xb7; x6d;
  x0a; xb7; x6e; x0a; xb7; x6f; x0a; xb7;
  x70; x0a; xb7; x71; x0a; xb7; x72; x0a;
  xb7; x73; x0a; xb7; x74; x0a; xb7; x75;
  x0a; xb7; x76; x0a; xb7; x77; x0a; xb7;
  x78; x0a; xb7; x79; x0a; xb7; x7a; x0a;
  xb7; x7b; x0a; xb7; x7c; x0a; xb7; x7d;
  x0a; xb7; x7e; x0a; xb7; xa1; x0a; xb7;
  xa2; x0a; xb7; xa3; x0a; xb7; xa4; x0a;
  xb7; xa5; x0a; xb7; xa6; x0a; xb7; xa7;
  x0a; xb7; xa8; x0a; xb7; xa9; x0a; xb7;
  xaa; x0a; xb7; xab; x0a; xb7; xac; x0a;
  xb7; xad; x0a; xb7; xae; x0a; xb7; xaf;
  x0a; xb7; xb0; x0a; xb7; xb1; x0a; xb7;
  xb2; x0a; xb7; xb3; x0a; xb7; xb4; x0a;
  xb7; xb5; x0a; xb7; xb6; x0a; xb7; xb7;
  x0a; xb7; xb8; x0a; xb7; xb9; x0a; xb7;
  xba; x0a; xb7; xbb; x0a; xb7; xbc; x0a;
  xb7; xbd; x0a; xb7; xbe; x0a; xb7; xbf;
  x0a; xb7; xc0; x0a; xb7; xc1; x0a; xb7;
  xc2; x0a; xb7; xc3; x0a; xb7; xc4; x0a;
  xb7; xc5; x0a; xb7; xc6; x0a; xb7; xc7;
  x0a; xb7; xc8; x0a; xb7; xc9; x0a; xb7;
  xca; x0a; xb7; xcb; x0a; xb7; xcc; x0a;
  xb7; xcd; x0a; xb7; xce; x0a; xb7; xcf;
  x0a; xb7; xd0; x0a; xb7; xd1; x0a; xb7;
  xd2; x0a; xb7; xd3; x0a; xb7; xd4; x0a;
  xb7; xd5; x0a; xb7; xd6; x0a; xb7; xd7;
  x0a; xb7; xd8; x0a; xb7; xd9; x0a; xb7;
  xda; x0a; xb7; xdb; x0a; xb7; xdc; x0a;
  xb7; xdd; x0a; xb7; xde; x0a; xb7; xdf
].
(* tests/test_data/whatwg/big5_whatwg_test_encode_out.txt, entries 22528..22783 *)
Definition big5_encode_out_88 : list byte := [
  x0a; xb7; xe0; x0a; xb7; xe1; x0a; xb7;
  xe2; x0a; xb7; xe3; x0a; xb7; xe4; x0a;
  xb7; xe5; x0a; xb7; xe6; x0a; xb7; xe7;
  x0a; xb7; xe8; x0a; xb7; xe9; x0a; xb7;
  xea; x0a; xb7; xeb; x0a; xb7; xec; x0a;
  xb7; xed; x0a; xb7; xee; x0a; xb7; xef;
  x0a; xb7; xf0; x0a; xb7; xf1; x0a; xb7;
  xf2; x0a; xb7; xf3; x0a; xb7; xf4; x0a;
  xb7; xf5; x0a; xb7; xf6; x0a; xb7; xf7;
  x0a; xb7; xf8; x0a; xb7; xf9; x0a; xb7;
  xfa; x0a; xb7; xfb; x0a; xb7; xfc; x0a;
  xb7; xfd; x0a; xb7; xfe; x0a; xb8; x40;
  x0a; xb8; x41; x0a; xb8; x42; x0a; xb8;
  x43; x0a; xb8; x44; x0a; xb8; x45; x0a;
  xb8; x46; x0a; xb8; x47; x0a; xb8; x48;
  x0a; xb8; x49; x0a; xb8; x4a; x0a; xb8;
  x4b; x0a; xb8; x4c; x0a; xb8; x4d; x0a;
  xb8; x4e; x0a; xb8; x4f; x0a; xb8; x50;
  x0a; xb8; x51; x0a; xb8; x52; x0a; xb8;
  x53; x0a; xb8; x54; x0a; xb8; x55; x0a;
  xb8; x56; x0a; xb8; x57; x0a; xb8; x58;
  x0a; xb8; x59; x0a; xb8; x5a; x0a; xb8;
  x5b; x0a; xb8; x5c; x0a; xb8; x5d; x0a;
  xb8; x5e; x0a; xb8; x5f; x0a; xb8; x60;
  x0a; xb8; x61; x0a; xb8; x62; x0a; xb8;
  x63; x0a; xb8; x64; x0a; xb8; x65; x0a;
  xb8; x66; x0a; xb8; x67; x0a; xb8; x68;
  x0a; xb8; x69; x0a; xb8; x6a; x0a; xb8;
  x6b; x0a; xb8; x6c; x0a; xb8; x6d; x0a;
  xb8; x6e; x0a; xb8; x6f; x0a; xb8; x70;
  x0a; xb8; x71; x0a; xb8; x72; x0a; xb8;
  x73; x0a; xb8; x74; x0a; xb8; x75; x0a
].
(* tests/test_data/whatwg/big5_whatwg_test_encode_out.txt, entries 22784..23039 *)
Definition big5_encode_out_89 : list byte := [
  xb8; x76; x0a; xb8; x77; x0a; xb8; x78;
  x0a; xb8; x79; x0a; xb8; x7a; x0a; xb8;
  x7b; x0a; xb8; x7c; x0a; xb8; x7d; x0a;
  xb8; x7e; x0a; xb8; xa1; x0a; xb8; xa2;
  x0a; xb8; xa3; x0a; xb8; xa4; x0a; xb8;
  xa5; x0a; xb8; xa6; x0a; xb8; xa7; x0a;
  xb8; xa8; x0a; xb8; xa9; x0a; xb8; xaa;
  x0a; xb8; xab; x0a; xb8; xac; x0a; xb8;
  xad; x0a; xb8; xae; x0a; xb8; xaf; x0a;
  xb8; xb0; x0a; xb8; xb1; x0a; xb8; xb2;
  x0a; xb8; xb3; x0a; xb8; xb4; x0a; xb8;
  xb5; x0a; xb8; xb6; x0a; xb8; xb7; x0a;
  xb8; xb8; x0a; xb8; xb9; x0a; xb8; xba;
  x0a; xb8; xbb; x0a; xb8; xbc; x0a; xb8;
  xbd; x0a; xb8; xbe; x0a; xb8; xbf; x0a;
  xb8; xc0; x0a; xb8; xc1; x0a; xb8; xc2;
  x0a; xb8; xc3; x0a; xb8; xc4; x0a; xb8;
  xc5; x0a; xb8; xc6; x0a; xb8; xc7; x0a;
  xb8; xc8; x0a; xb8; xc9; x0a; xb8; xca;
  x0a; xb8; xcb; x0a; xb8; xcc; x0a; xb8;
  xcd; x0a; xb8; xce; x0a; xb8; xcf; x0a;
  xb8; xd0; x0a; xb8; xd1; x0a; xb8; xd2;
  x0a; xb8; xd3; x0a; xb8; xd4; x0a; xb8;
  xd5; x0a; xb8; xd6; x0a; xb8; xd7; x0a;
  xb8; xd8; x0a; xb8; xd9; x0a; xb8; xda;
  x0a; xb8; xdb; x0a; xb8; xdc; x0a; xb8;
  xdd; x0a; xb8; xde; x0a; xb8; xdf; x0a;
  xb8; xe0; x0a; xb8; xe1; x0a; xb8; xe2;
  x0a; xb8; xe3; x0a; xb8; xe4; x0a; xb8;
  xe5; x0a; xb8; xe6; x0a; xb8; xe7; x0a;
  xb8; xe8; x0a; xb8; xe9; x0a; xb8; xea;
  x0a; xb8; xeb; x0a; xb8; xec; x0a; xb8
].
(* tests/test_data/whatwg/big5_whatwg_test_encode_out.txt, entries 23040..23295 *)
Definition big5_encode_out_90 : list byte := [
  xed; x0a; xb8; xee; x0a; xb8; xef; x0a;
  xb8; xf0; x0a; xb8; xf1; x0a; xb8; xf2;
  x0a; xb8; xf3; x0a; xb8; xf4; x0a; xb8;
  xf5; x0a; xb8; xf6; x0a; xb8; xf7; x0a;
  xb8; xf8; x0a; xb8; xf9; x0a; xb8; xfa;
  x0a; xb8; xfb; x0a; xb8; xfc; x0a; xb8;
  xfd; x0a; xb8; xfe; x0a; xb9; x40; x0a;
  xb9; x41; x0a; xb9; x42; x0a; xb9; x43;
  x0a; xb9; x44; x0a; xb9; x45; x0a; xb9;
  x46; x0a; xb9; x47; x0a; xb9; x48; x0a;
  xb9; x49; x0a; xb9; x4a; x0a; xb9; x4b;
  x0a; xb9; x4c; x0a; xb9; x4d; x0a; xb9;
  x4e; x0a; xb9; x4f; x0a; xb9; x50; x0a;
  xb9; x51; x0a; xb9; x52; x0a; xb9; x53;
  x0a; xb9; x54; x0a; xb9; x55; x0a; xb9;
  x56; x0a; xb9; x57; x0a; xb9; x58; x0a;
  xb9; x59; x0a; xb9; x5a; x0a; xb9; x5b;
  x0a; xb9; x5c; x0a; xb9; x5d; x0a; xb9;
  x5e; x0a; xb9; x5f; x0a; xb9; x60; x0a;
  xb9; x61; x0a; xb9; x62; x0a; xb9; x63;
  x0a; xb9; x64; x0a; xb9; x65; x0a; xb9;
  x66; x0a; xb9; x67; x0a; xb9; x68; x0a;
  xb9; x69; x0a; xb9; x6a; x0a; xb9; x6b;
  x0a; xb9; x6c; x0a; xb9; x6d; x0a; xb9;
  x6e; x0a; xb9; x6f; x0a; xb9; x70; x0a;
  xb9; x71; x0a; xb9; x72; x0a; xb9; x73;
  x0a; xb9; x74; x0a; xb9; x75; x0a; xb9;
  x76; x0a; xb9; x77; x0a; xb9; x78; x0a;
  xb9; x79; x0a; xb9; x7a; x0a; xb9; x7b;
  x0a; xb9; x7c; x0a; xb9; x7d; x0a; xb9;
  x7e; x0a; xb9; xa1; x0a; xb9; xa2; x0a;
  xb9; xa3; x0a; xb9; xa4; x0a; xb9; xa5
].
(* tests/test_data/whatwg/big5_whatwg_test_encode_out.txt, entries 23296..23551 *)
Definition big5_encode_out_91 : list byte := [
  x0a; xb9; xa6; x0a; xb9; xa7; x0a; xb9;
  xa8; x0a; xb9; xa9; x0a; xb9; xaa; x0a;
  xb9; xab; x0a; xb9; xac; x0a; xb9; xad;
  x0a; xb9; xae; x0a; xb9; xaf; x0a; xb9;
  xb1; x0a; xb9; xb2; x0a; xb9; xb3; x0a;
  xb9; xb4; x0a; xb9; xb5; x0a; xb9; xb6;
  x0a; xb9; xb7; x0a; xb9; xb8; x0a; xb9;
  xb9; x0a; xb9; xba; x0a; xb9; xbb; x0a;
  xb9; xbc; x0a; xb9; xbd; x0a; xb9; xbe;
  x0a; xb9; xbf; x0a; xb9; xc0; x0a; xb9;
  xc1; x0a; xb9; xc2; x0a; xb9; xc3; x0a;
  xb9; xc4; x0a; xb9; xc5; x0a; xb9; xc6;
  x0a; xb9; xc7; x0a; xb9; xc8; x0a; xb9;
  xc9; x0a; xb9; xca; x0a; xb9; xcb; x0a;
  xb9; xcc; x0a; xb9; xcd; x0a; xb9; xce;
  x0a; xb9; xcf; x0a; xb9; xd0; x0a; xb9;
  xd1; x0a; xb9; xd2; x0a; xb9; xd3; x0a;
  xb9; xd4; x0a; xb9; xd5; x0a; xb9; xd6;
  x0a; xb9; xd7; x0a; xb9; xd8; x0a; xb9;
  xd9; x0a; xb9; xda; x0a; xb9; xdb; x0a;
  xb9; xdc; x0a; xb9; xdd; x0a; xb9; xde;
  x0a; xb9; xdf; x0a; xb9; xe0; x0a; xb9;
  xe1; x0a; xb9; xe2; x0a; xb9; xe3; x0a;
  xb9; xe4; x0a; xb9; xe5; x0a; xb9; xe6;
  x0a; xb9; xe7; x0a; xb9; xe8; x0a; xb9;
  xe9; x0a; xb9; xea; x0a; xb9; xeb; x0a;
  xb9; xec; x0a; xb9; xed; x0a; xb9; xee;
  x0a; xb9; xef; x0a; xb9; xf0; x0a; xb9;
  xf1; x0a; xb9; xf2; x0a; xb9; xf3; x0a;
  xb9; xf4; x0a; xb9; xf5; x0a; xb9; xf6;
  x0a; xb9; xf7; x0a; xb9; xf8; x0a; xb9;
  xf9; x0a; xb9; xfa; x0a; xb9; xfb; x0a
].
(* tests/test_data/whatwg/big5_whatwg_test_encode_out.txt, entries 23552..23807 *)
Definition big5_encode_out_92 : list byte := [
  xb9; xfc; x0a; xb9; xfd; x0a; xb9; xfe;
  x0a; xba; x40; x0a; xba; x41; x0a; xba;
  x42; x0a; xba; x43; x0a; xba; x44; x0a;
  xba; x45; x0a; xba; x46; x0a; xba; x47;
  x0a; xba; x48; x0a; xba; x49; x0a; xba;
  x4a; x0a; xba; x4b; x0a; xba; x4c; x0a;
  xba; x4d; x0a; xba; x4e; x0a; xba; x4f;
  x0a; xba; x50; x0a; xba; x51; x0a; xba;
  x52; x0a; xba; x53; x0a; xba; x54; x0a;
  xba; x55; x0a; xba; x56; x0a; xba; x57;
  x0a; xba; x58; x0a; xba; x59; x0a; xba;
  x5a; x0a; xba; x5b; x0a; xba; x5c; x0a;
  xba; x5d; x0a; xba; x5e; x0a; xba; x5f;
  x0a; xba; x60; x0a; xba; x61; x0a; xba;
  x62; x0a; xba; x63; x0a; xba; x64; x0a;
  xba; x65; x0a; xba; x66; x0a; xba; x67;
  x0a; xba; x68; x0a; xba; x69; x0a; xba;
  x6a; x0a; xba; x6b; x0a; xba; x6c; x0a;
  xba; x6d; x0a; xba; x6e; x0a; xba; x6f;
  x0a; xba; x70; x0a; xba; x71; x0a; xba;
  x72; x0a; xba; x73; x0a; xba; x74; x0a;
  xba; x75; x0a; xba; x76; x0a; xba; x77;
  x0a; xba; x78; x0a; xba; x79; x0a; xba;
  x7a; x0a; xba; x7b; x0a; xba; x7c; x0a;
  xba; x7d; x0a; xba; x7e; x0a; xba; xa1;
  x0a; xba; xa2; x0a; xba; xa3; x0a; xba;
  xa4; x0a; xba; xa5; x0a; xba; xa6; x0a;
  xba; xa7; x0a; xba; xa8; x0a; xba; xa9;
  x0a; xba; xaa; x0a; xba; xab; x0a; xba;
  xac; x0a; xba; xad; x0a; xba; xae; x0a;
  xba; xaf; x0a; xba; xb0; x0a; xba; xb1;
  x0a; xba; xb2; x0a; xba; xb3; x0a; xba
].
(* tests/test_data/whatwg/big5_whatwg_test_encode_out.txt, entries 23808..24063 *)
Definition big5_encode_out_93 : list byte := [
  xb4; x0a; xba; xb5; x0a; xba; xb6; x0a;
  xba; xb7; x0a; xba; xb8; x0a; xba; xb9;
  x0a; xba; xba; x0a; xba; xbb; x0a; xba;
  xbc; x0a; xba; xbd; x0a; xba; xbe; x0a;
  xba; xbf; x0a; xba; xc0; x0a; xba; xc1;
  x0a; xba; xc2; x0a; xba; xc3; x0a; xba;
  xc4; x0a; xba; xc5; x0a; xba; xc6; x0a;
  xba; xc7; x0a; xba; xc8; x0a; xba; xc9;
  x0a; xba; xca; x0a; xba; xcb; x0a; xba;
  xcc; x0a; xba; xcd; x0a; xba; xce; x0a;
  xba; xcf; x0a; xba; xd0; x0a; xba; xd1;
  x0a; xba; xd2; x0a; xba; xd3; x0a; xba;
  xd4; x0a; xba; xd5; x0a; xba; xd6; x0a;
  xba; xd7; x0a; xba; xd8; x0a; xba; xd9;
  x0a; xba; xda; x0a; xba; xdb; x0a; xba;
  xdc; x0a; xba; xdd; x0a; xba; xde; x0a;
  xba; xdf; x0a; xba; xe0; x0a; xba; xe1;
  x0a; xba; xe2; x0a; xba; xe3; x0a; xba;
  xe4; x0a; xba; xe5; x0a; xba; xe7; x0a;
  xba; xe8; x0a; xba; xe9; x0a; xba; xea;
  x0a; xba; xeb; x0a; xba; xec; x0a; xba;
  xed; x0a; xba; xee; x0a; xba; xef; x0a;
  xba; xf0; x0a; xba; xf1; x0a; xba; xf2;
  x0a; xba; xf3; x0a; xba; xf4; x0a; xba;
  xf5; x0a; xba; xf6; x0a; xba; xf7; x0a;
  xba; xf8; x0a; xba; xf9; x0a; xba; xfa;
  x0a; xba; xfb; x0a; xba; xfd; x0a; xba;
  xfe; x0a; xbb; x40; x0a; xbb; x41; x0a;
  xbb; x42; x0a; xbb; x43; x0a; xbb; x44;
  x0a; xbb; x45; x0a; xbb; x46; x0a; xbb;
  x47; x0a; xbb; x48; x0a; xbb; x49; x0a;
  xbb; x4a; x0a; xbb; x4b; x0a; xbb; x4c
].
(* tests/test_data/whatwg/big5_whatwg_test_encode_out.txt, entries 24064..24319 *)
Definition big5_encode_out_94 : list byte := [
  x0a; xbb; x4d; x0a; xbb; x4e; x0a; xbb;
  x4f; x0a; xbb; x50; x0a; xbb; x51; x0a;
  xbb; x52; x0a; xbb; x53; x0a; xbb; x54;
  x0a; xbb; x55; x0a; xbb; x56; x0a; xbb;
  x57; x0a; xbb; x58; x0a; xbb; x59; x0a;
  xbb; x5a; x0a; xbb; x5b; x0a; xbb; x5c;
  x0a; xbb; x5d; x0a; xbb; x5e; x0a; xbb;
  x5f; x0a; xbb; x60; x0a; xbb; x61; x0a;
  xbb; x62; x0a; xbb; x63; x0a; xbb; x64;
  x0a; xbb; x65; x0a; xbb; x66; x0a; xbb;
  x67; x0a; xbb; x68; x0a; xbb; x69; x0a;
  xbb; x6a; x0a; xbb; x6b; x0a; xbb; x6c;
  x0a; xbb; x6d; x0a; xbb; x6e; x0a; xbb;
  x6f; x0a; xbb; x70; x0a; xbb; x71; x0a;
  xbb; x72; x0a; xbb; x73; x0a; xbb; x74;
  x0a; xbb; x75; x0a; xbb; x76; x0a; xbb;
  x77; x0a; xbb; x78; x0a; xbb; x79; x0a;
  xbb; x7a; x0a; xbb; x7b; x0a; xbb; x7c;
  x0a; xbb; x7d; x0a; xbb; x7e; x0a; xbb;
  xa1; x0a; xbb; xa2; x0a; xbb; xa3; x0a;
  xbb; xa4; x0a; xbb; xa5; x0a; xbb; xa6;
  x0a; xbb; xa7; x0a; xbb; xa8; x0a; xbb;
  xa9; x0a; xbb; xaa; x0a; xbb; xab; x0a;
  xbb; xac; x0a; xbb; xad; x0a; xbb; xae;
  x0a; xbb; xaf; x0a; xbb; xb0; x0a; xbb;
  xb1; x0a; xbb; xb2; x0a; xbb; xb3; x0a;
  xbb; xb4; x0a; xbb; xb5; x0a; xbb; xb6;
  x0a; xbb; xb7; x0a; xbb; xb8; x0a; xbb;
  xb9; x0a; xbb; xba; x0a; xbb; xbb; x0a;
  xbb; xbc; x0a; xbb; xbd; x0a; xbb; xbe;
  x0a; xbb; xbf; x0a; xbb; xc0; x0a; xbb;
  xc1; x0a; xbb; xc2; x0a; xbb; xc3; x0a
].
(* tests/test_data/whatwg/big5_whatwg_test_encode_out.txt, entries 24320..24575 *)
Definition big5_encode_out_95 : list byte := [
  xbb; xc4; x0a; xbb; xc5; x0a; xbb; xc6;
  x0a; xbb; xc7; x0a; xbb; xc8; x0a; xbb;
  xc9; x0a; xbb; xca; x0a; xbb; xcb; x0a;
  xbb; xcc; x0a; xbb; xcd; x0a; xbb; xce;
  x0a; xbb; xcf; x0a; xbb; xd0; x0a; xbb;
  xd1; x0a; xbb; xd2; x0a; xbb; xd3; x0a;
  xbb; xd4; x0a; xbb; xd5; x0a; xbb; xd6;
  x0a; xbb; xd7; x0a; xbb; xd8; x0a; xbb;
  xd9; x0a; xbb; xda; x0a; xbb; xdb; x0a;
  xbb; xdc; x0a; xbb; xdd; x0a; xbb; xde;
  x0a; xbb; xdf; x0a; xbb; xe0; x0a; xbb;
  xe1; x0a; xbb; xe2; x0a; xbb; xe3; x0a;
  xbb; xe4; x0a; xbb; xe5; x0a; xbb; xe6;
  x0a; xbb; xe7; x0a; xbb; xe8; x0a; xbb;
  xe9; x0a; xbb; xea; x0a; xbb; xeb; x0a;
  xbb; xec; x0a; xbb; xed; x0a; xbb; xee;
  x0a; xbb; xef; x0a; xbb; xf0; x0a; xbb;
  xf1; x0a; xbb; xf2; x0a; xbb; xf3; x0a;
  xbb; xf4; x0a; xbb; xf5; x0a; xbb; xf6;
  x0a; xbb; xf7; x0a; xbb; xf8; x0a; xbb;
  xf9; x0a; xbb; xfa; x0a; xbb; xfb; x0a;
  xbb; xfc; x0a; xbb; xfd; x0a; xbb; xfe;
  x0a; xbc; x40; x0a; xbc; x41; x0a; xbc;
  x42; x0a; xbc; x43; x0a; xbc; x44; x0a;
  xbc; x45; x0a; xbc; x46; x0a; xbc; x47;
  x0a; xbc; x48; x0a; xbc; x49; x0a; xbc;
  x4a; x0a; xbc; x4b; x0a; xbc; x4c; x0a;
  xbc; x4d; x0a; xbc; x4e; x0a; xbc; x4f;
  x0a; xbc; x50; x0a; xbc; x51; x0a; xbc;
  x52; x0a; xbc; x53; x0a; xbc; x54; x0a;
  xbc; x55; x0a; xbc; x56; x0a; xbc; x57;
  x0a; xbc; x58; x0a; xbc; x59; x0a; xbc
].
(* tests/test_data/whatwg/big5_whatwg_test_encode_out.txt, entries 24576..24831 *)
Definition big5_encode_out_96 : list byte := [
  x5a; x0a; xbc; x5b; x0a; xbc; x5c; x0a;
  xbc; x5d; x0a; xbc; x5e; x0a; xbc; x5f;
  x0a; xbc; x60; x0a; xbc; x61; x0a; xbc;
  x62; x0a; xbc; x63; x0a; xbc; x64; x0a;
  xbc; x65; x0a; xbc; x66; x0a; xbc; x67;
  x0a; xbc; x68; x0a; xbc; x69; x0a; xbc;
  x6a; x0a; xbc; x6b; x0a; xbc; x6c; x0a;
  xbc; x6d; x0a; xbc; x6e; x0a; xbc; x6f;
  x0a; xbc; x70; x0a; xbc; x71; x0a; xbc;
  x72; x0a; xbc; x73; x0a; xbc; x74; x0a;
  xbc; x75; x0a; xbc; x76; x0a; xbc; x77;
  x0a; xbc; x78; x0a; xbc; x79; x0a; xbc;
  x7a; x0a; xbc; x7b; x0a; xbc; x7c; x0a;
  xbc; x7d; x0a; xbc; x7e; x0a; xbc; xa1;
  x0a; xbc; xa2; x0a; xbc; xa3; x0a; xbc;
  xa4; x0a; xbc; xa5; x0a; xbc; xa6; x0a;
  xbc; xa7; x0a; xbc; xa8; x0a; xbc; xa9;
  x0a; xbc; xaa; x0a; xbc; xab; x0a; xbc;
  xac; x0a; xbc; xad; x0a; xbc; xae; x0a;
  xbc; xaf; x0a; xbc; xb0; x0a; xbc; xb1;
  x0a; xbc; xb2; x0a; xbc; xb3; x0a; xbc;
  xb4; x0a; xbc; xb5; x0a; xbc; xb6; x0a;
  xbc; xb7; x0a; xbc; xb8; x0a; xbc; xb9;
  x0a; xbc; xba; x0a; xbc; xbb; x0a; xbc;
  xbc; x0a; xbc; xbd; x0a; xbc; xbe; x0a;
  xbc; xbf; x0a; xbc; xc0; x0a; xbc; xc1;
  x0a; xbc; xc2; x0a; xbc; xc3; x0a; xbc;
  xc4; x0a; xbc; xc5; x0a; xbc; xc6; x0a;
  xbc; xc7; x0a; xbc; xc8; x0a; xbc; xc9;
  x0a; xbc; xca; x0a; xbc; xcb; x0a; xbc;
  xcc; x0a; xbc; xcd; x0a; xbc; xce; x0a;
  xbc; xcf; x0a; xbc; xd0; x0a; xbc; xd1
].
(* tests/test_data/whatwg/big5_whatwg_test_encode_out.txt, entries 24832..25087 *)
Definition big5_encode_out_97 : list byte := [
  x0a; xbc; xd2; x0a; xbc; xd3; x0a; xbc;
  xd4; x0a; xbc; xd5; x0a; xbc; xd6; x0a;
  xbc; xd7; x0a; xbc; xd8; x0a; xbc; xd9;
  x0a; xbc; xda; x0a; xbc; xdb; x0a; xbc;
  xdc; x0a; xbc; xdd; x0a; xbc; xde; x0a;
  xbc; xdf; x0a; xbc; xe0; x0a; xbc; xe1;
  x0a; xbc; xe2; x0a; xbc; xe3; x0a; xbc;
  xe4; x0a; xbc; xe5; x0a; xbc; xe6; x0a;
  xbc; xe7; x0a; xbc; xe8; x0a; xbc; xe9;
  x0a; xbc; xea; x0a; xbc; xeb; x0a; xbc;
  xec; x0a; xbc; xed; x0a; xbc; xee; x0a;
  xbc; xef; x0a; xbc; xf0; x0a; xbc; xf1;
  x0a; xbc; xf2; x0a; xbc; xf3; x0a; xbc;
  xf4; x0a; xbc; xf5; x0a; xbc; xf6; x0a;
  xbc; xf7; x0a; xbc; xf8; x0a; xbc; xf9;
  x0a; xbc; xfa; x0a; xbc; xfb; x0a; xbc;
  xfc; x0a; xbc; xfd; x0a; xbc; xfe; x0a;
  xbd; x40; x0a; xbd; x41; x0a; xbd; x42;
  x0a; xbd; x43; x0a; xbd; x44; x0a; xbd;
  x45; x0a; xbd; x46; x0a; xbd; x47; x0a;
  xbd; x48; x0a; xbd; x49; x0a; xbd; x4a;
  x0a; xbd; x4b; x0a; xbd; x4c; x0a; xbd;
  x4d; x0a; xbd; x4e; x0a; xbd; x4f; x0a;
  xbd; x50; x0a; xbd; x51; x0a; xbd; x52;
  x0a; xbd; x53; x0a; xbd; x54; x0a; xbd;
  x55; x0a; xbd; x56; x0a; xbd; x57; x0a;
  xbd; x58; x0a; xbd; x59; x0a; xbd; x5a;
  x0a; xbd; x5b; x0a; xbd; x5c; x0a; xbd;
  x5d; x0a; xbd; x5e; x0a; xbd; x5f; x0a;
  xbd; x60; x0a; xbd; x61; x0a; xbd; x62;
  x0a; xbd; x63; x0a; xbd; x64; x0a; xbd;
  x65; x0a; xbd; x66; x0a; xbd; x67; x0a
].
(* tests/test_data/whatwg/big5_whatwg_test_encode_out.txt, entries 25088..25343 *)
Definition big5_encode_out_98 : list byte := [
  xbd; x68; x0a; xbd; x69; x0a; xbd; x6a;
  x0a; xbd; x6b; x0a; xbd; x6c; x0a; xbd;
  x6d; x0a; xbd; x6e; x0a; xbd; x6f; x0a;
  xbd; x70; x0a; xbd; x71; x0a; xbd; x72;
  x0a; xbd; x73; x0a; xbd; x74; x0a; xbd;
  x75; x0a; xbd; x76; x0a; xbd; x77; x0a;
  xbd; x78; x0a; xbd; x79; x0a; xbd; x7a;
  x0a; xbd; x7b; x0a; xbd; x7c; x0a; xbd;
  x7d; x0a; xbd; x7e; x0a; xbd; xa1; x0a;
  xbd; xa2; x0a; xbd; xa3; x0a; xbd; xa4;
  x0a; xbd; xa5; x0a; xbd; xa6; x0a; xbd;
  xa7; x0a; xbd; xa8; x0a; xbd; xa9; x0a;
  xbd; xaa; x0a; xbd; xab; x0a; xbd; xac;
  x0a; xbd; xad; x0a; xbd; xae; x0a; xbd;
  xaf; x0a; xbd; xb0; x0a; xbd; xb1; x0a;
  xbd; xb2; x0a; xbd; xb3; x0a; xbd; xb4;
  x0a; xbd; xb5; x0a; xbd; xb6; x0a; xbd;
  xb7; x0a; xbd; xb8; x0a; xbd; xb9; x0a;
  xbd; xba; x0a; xbd; xbb; x0a; xbd; xbc;
  x0a; xbd; xbd; x0a; xbd; xbe; x0a; xbd;
  xbf; x0a; xbd; xc0; x0a; xbd; xc1; x0a;
  xbd; xc2; x0a; xbd; xc3; x0a; xbd; xc4;
  x0a; xbd; xc5; x0a; xbd; xc6; x0a; xbd;
  xc7; x0a; xbd; xc8; x0a; xbd; xc9; x0a;
  xbd; xca; x0a; xbd; xcb; x0a; xbd; xcc;
  x0a; xbd; xcd; x0a; xbd; xce; x0a; xbd;
  xcf; x0a; xbd; xd0; x0a; xbd; xd1; x0a;
  xbd; xd2; x0a; xbd; xd3; x0a; xbd; xd4;
  x0a; xbd; xd5; x0a; xbd; xd6; x0a; xbd;
  xd7; x0a; xbd; xd8; x0a; xbd; xd9; x0a;
  xbd; xda; x0a; xbd; xdb; x0a; xbd; xdc;
  x0a; xbd; xdd; x0a; xbd; xde; x0a; xbd
].
(* tests/test_data/whatwg/big5_whatwg_test_encode_out.txt, entries 25344..25599 *)
Definition big5_encode_out_99 : list byte := [
  xdf; x0a; xbd; xe0; x0a; xbd; xe1; x0a;
  xbd; xe2; x0a; xbd; xe3; x0a; xbd; xe4;
  x0a; xbd; xe5; x0a; xbd; xe6; x0a; xbd;
  xe7; x0a; xbd; xe8; x0a; xbd; xe9; x0a;
  xbd; xea; x0a; xbd; xeb; x0a; xbd; xec;
  x0a; xbd; xed; x0a; xbd; xee; x0a; xbd;
  xef; x0a; xbd; xf0; x0a; xbd; xf1; x0a;
  xbd; xf2; x0a; xbd; xf3; x0a; xbd; xf4;
  x0a; xbd; xf5; x0a; xbd; xf6; x0a; xbd;
  xf7; x0a; xbd; xf8; x0a; xbd; xf9; x0a;
  xbd; xfa; x0a; xbd; xfb; x0a; xbd; xfc;
  x0a; xbd; xfd; x0a; xbd; xfe; x0a; xbe;
  x40; x0a; xbe; x41; x0a; xbe; x42; x0a;
  xbe; x43; x0a; xbe; x44; x0a; xbe; x45;
  x0a; xbe; x46; x0a; xbe; x47; x0a; xbe;
  x48; x0a; xbe; x49; x0a; xbe; x4a; x0a;
  xbe; x4b; x0a; xbe; x4c; x0a; xbe; x4d;
  x0a; xbe; x4e; x0a; xbe; x4f; x0a; xbe;
  x50; x0a; xbe; x51; x0a; xbe; x52; x0a;
  xbe; x53; x0a; xbe; x54; x0a; xbe; x55;
  x0a; xbe; x56; x0a; xbe; x57; x0a; xbe;
  x58; x0a; xbe; x59; x0a; xbe; x5a; x0a;
  xbe; x5b; x0a; xbe; x5c; x0a; xbe; x5d;
  x0a; xbe; x5e; x0a; xbe; x5f; x0a; xbe;
  x60; x0a; xbe; x61; x0a; xbe; x62; x0a;
  xbe; x63; x0a; xbe; x64; x0a; xbe; x65;
  x0a; xbe; x66; x0a; xbe; x67; x0a; xbe;
  x68; x0a; xbe; x69; x0a; xbe; x6a; x0a;
  xbe; x6b; x0a; xbe; x6c; x0a; xbe; x6d;
  x0a; xbe; x6e; x0a; xbe; x6f; x0a; xbe;
  x70; x0a; xbe; x71; x0a; xbe; x72; x0a;
  xbe; x73; x0a; xbe; x74; x0a; xbe; x75
].
(* tests/test_data/whatwg/big5_whatwg_test_encode_out.txt, entries 25600..25855 *)
Definition big5_encode_out_100 : list byte := [
  x0a; xbe; x76; x0a; xbe; x77; x0a; xbe;
  x78; x0a; xbe; x79; x0a; xbe; x7a; x0a;
  xbe; x7b; x0a; xbe; x7c; x0a; xbe; x7d;
  x0a; xbe; x7e; x0a; xbe; xa1; x0a; xbe;
  xa2; x0a; xbe; xa3; x0a; xbe; xa4; x0a;
  xbe; xa5; x0a; xbe; xa6; x0a; xbe; xa7;
  x0a; xbe; xa8; x0a; xbe; xa9; x0a; xbe;
  xaa; x0a; xbe; xab; x0a; xbe; xac; x0a;
  xbe; xad; x0a; xbe; xae; x0a; xbe; xaf;
  x0a; xbe; xb0; x0a; xbe; xb1; x0a; xbe;
  xb2; x0a; xbe; xb3; x0a; xbe; xb4; x0a;
  xbe; xb5; x0a; xbe; xb6; x0a; xbe; xb7;
  x0a; xbe; xb8; x0a; xbe; xb9; x0a; xbe;
  xba; x0a; xbe; xbb; x0a; xbe; xbc; x0a;
  xbe; xbd; x0a; xbe; xbe; x0a; xbe; xbf;
  x0a; xbe; xc0; x0a; xbe; xc1; x0a; xbe;
  xc2; x0a; xbe; xc3; x0a; xbe; xc4; x0a;
  xbe; xc5; x0a; xbe; xc6; x0a; xbe; xc7;
  x0a; xbe; xc8; x0a; xbe; xc9; x0a; xbe;
  xca; x0a; xbe; xcb; x0a; xbe; xcc; x0a;
  xbe; xcd; x0a; xbe; xce; x0a; xbe; xcf;
  x0a; xbe; xd0; x0a; xbe; xd1; x0a; xbe;
  xd2; x0a; xbe; xd3; x0a; xbe; xd4; x0a;
  xbe; xd5; x0a; xbe; xd6; x0a; xbe; xd7;
  x0a; xbe; xd8; x0a; xbe; xd9; x0a; xbe;
  xda; x0a; xbe; xdb; x0a; xbe; xdc; x0a;
  xbe; xdd; x0a; xbe; xde; x0a; xbe; xdf;
  x0a; xbe; xe0; x0a; xbe; xe1; x0a; xbe;
  xe2; x0a; xbe; xe3; x0a; xbe; xe4; x0a;
  xbe; xe5; x0a; xbe; xe6; x0a; xbe; xe7;
  x0a; xbe; xe8; x0a; xbe; xe9; x0a; xbe;
  xea; x0a; xbe; xeb; x0a; xbe; xec; x0a
].
(* tests/test_data/whatwg/big5_whatwg_test_encode_out.txt, entries 25856..26111 *)
Definition big5_encode_out_101 : list byte := [
  xbe; xed; x0a; xbe; xee; x0a; xbe; xef;
  x0a; xbe; xf0; x0a; xbe; xf1; x0a; xbe;
  xf2; x0a; xbe; xf3; x0a; xbe; xf4; x0a;
  xbe; xf5; x0a; xbe; xf6; x0a; xbe; xf7;
  x0a; xbe; xf8; x0a; xbe; xf9; x0a; xbe;
  xfa; x0a; xbe; xfb; x0a; xbe; xfc; x0a;
  xbe; xfd; x0a; xbe; xfe; x0a; xbf; x40;
  x0a; xbf; x41; x0a; xbf; x42; x0a; xbf;
  x43; x0a; xbf; x44; x0a; xbf; x45; x0a;
  xbf; x46; x0a; xbf; x48; x0a; xbf; x49;
  x0a; xbf; x4a; x0a; xbf; x4b; x0a; xbf;
  x4c; x0a; xbf; x4d; x0a; xbf; x4e; x0a;
  xbf; x4f; x0a; xbf; x50; x0a; xbf; x51;
  x0a; xbf; x52; x0a; xbf; x53; x0a; xbf;
  x54; x0a; xbf; x55; x0a; xbf; x56; x0a;
  xbf; x57; x0a; xbf; x58; x0a; xbf; x59;
  x0a; xbf; x5a; x0a; xbf; x5b; x0a; xbf;
  x5c; x0a; xbf; x5d; x0a; xbf; x5e; x0a;
  xbf; x5f; x0a; xbf; x60; x0a; xbf; x61;
  x0a; xbf; x62; x0a; xbf; x63; x0a; xbf;
  x64; x0a; xbf; x65; x0a; xbf; x66; x0a;
  xbf; x67; x0a; xbf; x68; x0a; xbf; x69;
  x0a; xbf; x6a; x0a; xbf; x6b; x0a; xbf;
  x6c; x0a; xbf; x6d; x0a; xbf; x6e; x0a;
  xbf; x6f; x0a; xbf; x70; x0a; xbf; x71;
  x0a; xbf; x72; x0a; xbf; x73; x0a; xbf;
  x74; x0a; xbf; x75; x0a; xbf; x76; x0a;
  xbf; x77; x0a; xbf; x78; x0a; xbf; x79;
  x0a; xbf; x7a; x0a; xbf; x7b; x0a; xbf;
  x7c; x0a; xbf; x7d; x0a; xbf; x7e; x0a;
  xbf; xa1; x0a; xbf; xa2; x0a; xbf; xa3;
  x0a; xbf; xa4; x0a; xbf; xa5; x0a; xbf
].
(* tests/test_data/whatwg/big5_whatwg_test_encode_out.txt, entries 26112..26367 *)
Definition big5_encode_out_102 : list byte := [
  xa7; x0a; xbf; xa8; x0a; xbf; xa9; x0a;
  xbf; xaa; x0a; xbf; xab; x0a; xbf; xac;
  x0a; xbf; xad; x0a; xbf; xaf; x0a; xbf;
  xb0; x0a; xbf; xb1; x0a; xbf; xb2; x0a;
  xbf; xb3; x0a; xbf; xb4; x0a; xbf; xb5;
  x0a; xbf; xb6; x0a; xbf; xb7; x0a; xbf;
  xb8; x0a; xbf; xb9; x0a; xbf; xba; x0a;
  xbf; xbb; x0a; xbf; xbc; x0a; xbf; xbd;
  x0a; xbf; xbe; x0a; xbf; xbf; x0a; xbf;
  xc0; x0a; xbf; xc1; x0a; xbf; xc2; x0a;
  xbf; xc3; x0a; xbf; xc4; x0a; xbf; xc5;
  x0a; xbf; xc6; x0a; xbf; xc7; x0a; xbf;
  xc8; x0a; xbf; xc9; x0a; xbf; xca; x0a;
  xbf; xcb; x0a; xbf; xcd; x0a; xbf; xce;
  x0a; xbf; xcf; x0a; xbf; xd0; x0a; xbf;
  xd1; x0a; xbf; xd2; x0a; xbf; xd3; x0a;
  xbf; xd4; x0a; xbf; xd5; x0a; xbf; xd6;
  x0a; xbf; xd7; x0a; xbf; xd8; x0a; xbf;
  xd9; x0a; xbf; xda; x0a; xbf; xdb; x0a;
  xbf; xdc; x0a; xbf; xdd; x0a; xbf; xde;
  x0a; xbf; xdf; x0a; xbf; xe0; x0a; xbf;
  xe1; x0a; xbf; xe2; x0a; xbf; xe3; x0a;
  xbf; xe4; x0a; xbf; xe5; x0a; xbf; xe6;
  x0a; xbf; xe7; x0a; xbf; xe8; x0a; xbf;
  xe9; x0a; xbf; xea; x0a; xbf; xeb; x0a;
  xbf; xec; x0a; xbf; xed; x0a; xbf; xee;
  x0a; xbf; xef; x0a; xbf; xf0; x0a; xbf;
  xf1; x0a; xbf; xf2; x0a; xbf; xf3; x0a;
  xbf; xf4; x0a; xbf; xf5; x0a; xbf; xf6;
  x0a; xbf; xf7; x0a; xbf; xf8; x0a; xbf;
  xf9; x0a; xbf; xfa; x0a; xbf; xfb; x0a;
  xbf; xfc; x0a; xbf; xfd; x0a; xbf; xfe
].
(* tests/test_data/whatwg/big5_whatwg_test_encode_out.txt, entries 26368..26623 *)
Definition big5_encode_out_103 : list byte := [
  x0a; xc0; x40; x0a; xc0; x41; x0a; xc0;
  x42; x0a; xc0; x43; x0a; xc0; x44; x0a;
  xc0; x45; x0a; xc0; x46; x0a; xc0; x47;
  x0a; xc0; x48; x0a; xc0; x49; x0a; xc0;
  x4a; x0a; xc0; x4b; x0a; xc0; x4c; x0a;
  xc0; x4d; x0a; xc0; x4e; x0a; xc0; x4f;
  x0a; xc0; x50; x0a; xc0; x51; x0a; xc0;
  x53; x0a; xc0; x54; x0a; xc0; x55; x0a;
  xc0; x56; x0a; xc0; x57; x0a; xc0; x58;
  x0a; xc0; x59; x0a; xc0; x5a; x0a; xc0;
  x5b; x0a; xc0; x5c; x0a; xc0; x5d; x0a;
  xc0; x5e; x0a; xc0; x5f; x0a; xc0; x60;
  x0a; xc0; x61; x0a; xc0; x62; x0a; xc0;
  x63; x0a; xc0; x64; x0a; xc0; x65; x0a;
  xc0; x66; x0a; xc0; x67; x0a; xc0; x68;
  x0a; xc0; x69; x0a; xc0; x6a; x0a; xc0;
  x6b; x0a; xc0; x6c; x0a; xc0; x6d; x0a;
  xc0; x6e; x0a; xc0; x6f; x0a; xc0; x70;
  x0a; xc0; x71; x0a; xc0; x72; x0a; xc0;
  x73; x0a; xc0; x74; x0a; xc0; x75; x0a;
  xc0; x76; x0a; xc0; x77; x0a; xc0; x78;
  x0a; xc0; x79; x0a; xc0; x7a; x0a; xc0;
  x7b; x0a; xc0; x7c; x0a; xc0; x7d; x0a;
  xc0; x7e; x0a; xc0; xa1; x0a; xc0; xa2;
  x0a; xc0; xa3; x0a; xc0; xa4; x0a; xc0;
  xa5; x0a; xc0; xa6; x0a; xc0; xa7; x0a;
  xc0; xa8; x0a; xc0; xa9; x0a; xc0; xaa;
  x0a; xc0; xab; x0a; xc0; xac; x0a; xc0;
  xad; x0a; xc0; xae; x0a; xc0; xaf; x0a;
  xc0; xb0; x0a; xc0; xb1; x0a; xc0; xb2;
  x0a; xc0; xb3; x0a; xc0; xb4; x0a; xc0;
  xb5; x0a; xc0; xb6; x0a; xc0; xb7; x0a
].
(* tests/test_data/whatwg/big5_whatwg_test_encode_out.txt, entries 26624..26879 *)
Definition big5_encode_out_104 : list byte := [
  xc0; xb8; x0a; xc0; xb9; x0a; xc0; xba;
  x0a; xc0; xbb; x0a; xc0; xbc; x0a; xc0;
  xbd; x0a; xc0; xbe; x0a; xc0; xbf; x0a;
  xc0; xc0; x0a; xc0; xc1; x0a; xc0; xc2;
  x0a; xc0; xc3; x0a; xc0; xc4; x0a; xc0;
  xc5; x0a; xc0; xc6; x0a; xc0; xc7; x0a;
  xc0; xc8; x0a; xc0; xc9; x0a; xc0; xca;
  x0a; xc0; xcb; x0a; xc0; xcc; x0a; xc0;
  xcd; x0a; xc0; xce; x0a; xc0; xcf; x0a;
  xc0; xd0; x0a; xc0; xd1; x0a; xc0; xd2;
  x0a; xc0; xd3; x0a; xc0; xd4; x0a; xc0;
  xd5; x0a; xc0; xd6; x0a; xc0; xd7; x0a;
  xc0; xd8; x0a; xc0; xd9; x0a; xc0; xda;
  x0a; xc0; xdb; x0a; xc0; xdc; x0a; xc0;
  xdd; x0a; xc0; xde; x0a; xc0; xdf; x0a;
  xc0; xe0; x0a; xc0; xe1; x0a; xc0; xe2;
  x0a; xc0; xe3; x0a; xc0; xe4; x0a; xc0;
  xe5; x0a; xc0; xe6; x0a; xc0; xe8; x0a;
  xc0; xe9; x0a; xc0; xea; x0a; xc0; xeb;
  x0a; xc0; xec; x0a; xc0; xed; x0a; xc0;
  xee; x0a; xc0; xef; x0a; xc0; xf0; x0a;
  xc0; xf1; x0a; xc0; xf2; x0a; xc0; xf3;
  x0a; xc0; xf4; x0a; xc0; xf5; x0a; xc0;
  xf6; x0a; xc0; xf7; x0a; xc0; xf8; x0a;
  xc0; xf9; x0a; xc0; xfa; x0a; xc0; xfb;
  x0a; xc0; xfc; x0a; xc0; xfd; x0a; xc0;
  xfe; x0a; xc1; x40; x0a; xc1; x41; x0a;
  xc1; x42; x0a; xc1; x43; x0a; xc1; x44;
  x0a; xc1; x45; x0a; xc1; x46; x0a; xc1;
  x47; x0a; xc1; x48; x0a; xc1; x49; x0a;
  xc1; x4a; x0a; xc1; x4b; x0a; xc1; x4c;
  x0a; xc1; x4d; x0a; xc1; x4e; x0a; xc1
].
(* tests/test_data/whatwg/big5_whatwg_test_encode_out.txt, entries 26880..27135 *)
Definition big5_encode_out_105 : list byte := [
  x4f; x0a; xc1; x50; x0a; xc1; x51; x0a;
  xc1; x52; x0a; xc1; x53; x0a; xc1; x54;
  x0a; xc1; x55; x0a; xc1; x56; x0a; xc1;
  x57; x0a; xc1; x58; x0a; xc1; x59; x0a;
  xc1; x5a; x0a; xc1; x5b; x0a; xc1; x5c;
  x0a; xc1; x5d; x0a; xc1; x5e; x0a; xc1;
  x5f; x0a; xc1; x60; x0a; xc1; x61; x0a;
  xc1; x62; x0a; xc1; x63; x0a; xc1; x64;
  x0a; xc1; x65; x0a; xc1; x66; x0a; xc1;
  x67; x0a; xc1; x68; x0a; xc1; x69; x0a;
  xc1; x6a; x0a; xc1; x6b; x0a; xc1; x6c;
  x0a; xc1; x6d; x0a; xc1; x6e; x0a; xc1;
  x6f; x0a; xc1; x70; x0a; xc1; x71; x0a;
  xc1; x72; x0a; xc1; x73; x0a; xc1; x74;
  x0a; xc1; x75; x0a; xc1; x76; x0a; xc1;
  x77; x0a; xc1; x78; x0a; xc1; x79; x0a;
  xc1; x7a; x0a; xc1; x7b; x0a; xc1; x7c;
  x0a; xc1; x7d; x0a; xc1; x7e; x0a; xc1;
  xa1; x0a; xc1; xa2; x0a; xc1; xa3; x0a;
  xc1; xa4; x0a; xc1; xa5; x0a; xc1; xa6;
  x0a; xc1; xa7; x0a; xc1; xa8; x0a; xc1;
  xa9; x0a; xc1; xaa; x0a; xc1; xab; x0a;
  xc1; xac; x0a; xc1; xad; x0a; xc1; xae;
  x0a; xc1; xaf; x0a; xc1; xb0; x0a; xc1;
  xb1; x0a; xc1; xb2; x0a; xc1; xb3; x0a;
  xc1; xb4; x0a; xc1; xb5; x0a; xc1; xb6;
  x0a; xc1; xb7; x0a; xc1; xb8; x0a; xc1;
  xb9; x0a; xc1; xba; x0a; xc1; xbb; x0a;
  xc1; xbc; x0a; xc1; xbd; x0a; xc1; xbe;
  x0a; xc1; xbf; x0a; xc1; xc0; x0a; xc1;
  xc1; x0a; xc1; xc2; x0a; xc1; xc3; x0a;
  xc1; xc4; x0a; xc1; xc5; x0a; xc1; xc6
].
(* tests/test_data/whatwg/big5_whatwg_test_encode_out.txt, entries 27136..27391 *)
Definition big5_encode_out_106 : list byte := [
  x0a; xc1; xc7; x0a; xc1; xc8; x0a; xc1;
  xc9; x0a; xc1; xca; x0a; xc1; xcb; x0a;
  xc1; xcc; x0a; xc1; xcd; x0a; xc1; xce;
  x0a; xc1; xcf; x0a; xc1; xd0; x0a; xc1;
  xd1; x0a; xc1; xd2; x0a; xc1; xd3; x0a;
  xc1; xd4; x0a; xc1; xd5; x0a; xc1; xd6;
  x0a; xc1; xd7; x0a; xc1; xd8; x0a; xc1;
  xd9; x0a; xc1; xda; x0a; xc1; xdb; x0a;
  xc1; xdc; x0a; xc1; xdd; x0a; xc1; xde;
  x0a; xc1; xdf; x0a; xc1; xe0; x0a; xc1;
  xe1; x0a; xc1; xe2; x0a; xc1; xe3; x0a;
  xc1; xe4; x0a; xc1; xe5; x0a; xc1; xe6;
  x0a; xc1; xe7; x0a; xc1; xe8; x0a; xc1;
  xe9; x0a; xc1; xea; x0a; xc1; xeb; x0a;
  xc1; xec; x0a; xc1; xed; x0a; xc1; xee;
  x0a; xc1; xef; x0a; xc1; xf0; x0a; xc1;
  xf1; x0a; xc1; xf2; x0a; xc1; xf3; x0a;
  xc1; xf4; x0a; xc1; xf5; x0a; xc1; xf6;
  x0a; xc1; xf7; x0a; xc1; xf8; x0a; xc1;
  xf9; x0a; xc1; xfa; x0a; xc1; xfb; x0a;
  xc1; xfc; x0a; xc1; xfd; x0a; xc1; xfe;
  x0a; xc2; x40; x0a; xc2; x41; x0a; xc2;
  x42; x0a; xc2; x43; x0a; xc2; x44; x0a;
  xc2; x45; x0a; xc2; x46; x0a; xc2; x47;
  x0a; xc2; x48; x0a; xc2; x49; x0a; xc2;
  x4a; x0a; xc2; x4b; x0a; xc2; x4c; x0a;
  xc2; x4d; x0a; xc2; x4e; x0a; xc2; x4f;
  x0a; xc2; x50; x0a; xc2; x51; x0a; xc2;
  x52; x0a; xc2; x53; x0a; xc2; x54; x0a;
  xc2; x55; x0a; xc2; x56; x0a; xc2; x57;
  x0a; xc2; x58; x0a; xc2; x59; x0a; xc2;
  x5a; x0a; xc2; x5b; x0a; xc2; x5c; x0a
].
(* tests/test_data/whatwg/big5_whatwg_test_encode_out.txt, entries 27392..27647 *)
Definition big5_encode_out_107 : list byte := [
  xc2; x5d; x0a; xc2; x5e; x0a; xc2; x5f;
  x0a; xc2; x60; x0a; xc2; x61; x0a; xc2;
  x62; x0a; xc2; x63; x0a; xc2; x64; x0a;
  xc2; x65; x0a; xc2; x66; x0a; xc2; x67;
  x0a; xc2; x68; x0a; xc2; x69; x0a; xc2;
  x6a; x0a; xc2; x6b; x0a; xc2; x6c; x0a;
  xc2; x6d; x0a; xc2; x6e; x0a; xc2; x6f;
  x0a; xc2; x70; x0a; xc2; x71; x0a; xc2;
  x72; x0a; xc2; x73; x0a; xc2; x74; x0a;
  xc2; x75; x0a; xc2; x76; x0a; xc2; x77;
  x0a; xc2; x78; x0a; xc2; x79; x0a; xc2;
  x7a; x0a; xc2; x7b; x0a; xc2; x7c; x0a;
  xc2; x7d; x0a; xc2; x7e; x0a; xc2; xa1;
  x0a; xc2; xa2; x0a; xc2; xa3; x0a; xc2;
  xa4; x0a; xc2; xa5; x0a; xc2; xa6; x0a;
  xc2; xa7; x0a; xc2; xa8; x0a; xc2; xa9;
  x0a; xc2; xaa; x0a; xc2; xab; x0a; xc2;
  xac; x0a; xc2; xad; x0a; xc2; xae; x0a;
  xc2; xaf; x0a; xc2; xb0; x0a; xc2; xb1;
  x0a; xc2; xb2; x0a; xc2; xb3; x0a; xc2;
  xb4; x0a; xc2; xb5; x0a; xc2; xb6; x0a;
  xc2; xb7; x0a; xc2; xb8; x0a; xc2; xb9;
  x0a; xc2; xba; x0a; xc2; xbb; x0a; xc2;
  xbc; x0a; xc2; xbd; x0a; xc2; xbe; x0a;
  xc2; xbf; x0a; xc2; xc0; x0a; xc2; xc1;
  x0a; xc2; xc2; x0a; xc2; xc3; x0a; xc2;
  xc4; x0a; xc2; xc5; x0a; xc2; xc6; x0a;
  xc2; xc7; x0a; xc2; xc8; x0a; xc2; xc9;
  x0a; xc2; xca; x0a; xc2; xcb; x0a; xc2;
  xcc; x0a; xc2; xcd; x0a; xc2; xce; x0a;
  xc2; xcf; x0a; xc2; xd0; x0a; xc2; xd1;
  x0a; xc2; xd2; x0a; xc2; xd3; x0a; xc2
].
(* tests/test_data/whatwg/big5_whatwg_test_encode_out.txt, entries 27648..27903 *)
Definition big5_encode_out_108 : list byte := [
  xd4; x0a; xc2; xd5; x0a; xc2; xd6; x0a;
  xc2; xd7; x0a; xc2; xd8; x0a; xc2; xd9;
  x0a; xc2; xda; x0a; xc2; xdb; x0a; xc2;
  xdc; x0a; xc2; xdd; x0a; xc2; xde; x0a;
  xc2; xdf; x0a; xc2; xe0; x0a; xc2; xe1;
  x0a; xc2; xe2; x0a; xc2; xe3; x0a; xc2;
  xe4; x0a; xc2; xe5; x0a; xc2; xe6; x0a;
  xc2; xe7; x0a; xc2; xe8; x0a; xc2; xe9;
  x0a; xc2; xea; x0a; xc2; xeb; x0a; xc2;
  xec; x0a; xc2; xed; x0a; xc2; xee; x0a;
  xc2; xef; x0a; xc2; xf0; x0a; xc2; xf1;
  x0a; xc2; xf2; x0a; xc2; xf3; x0a; xc2;
  xf4; x0a; xc2; xf5; x0a; xc2; xf6; x0a;
  xc2; xf7; x0a; xc2; xf8; x0a; xc2; xf9;
  x0a; xc2; xfa; x0a; xc2; xfb; x0a; xc2;
  xfc; x0a; xc2; xfd; x0a; xc2; xfe; x0a;
  xc3; x40; x0a; xc3; x41; x0a; xc3; x42;
  x0a; xc3; x43; x0a; xc3; x44; x0a; xc3;
  x45; x0a; xc3; x46; x0a; xc3; x47; x0a;
  xc3; x48; x0a; xc3; x49; x0a; xc3; x4a;
  x0a; xc3; x4b; x0a; xc3; x4c; x0a; xc3;
  x4d; x0a; xc3; x4e; x0a; xc3; x4f; x0a;
  xc3; x50; x0a; xc3; x51; x0a; xc3; x52;
  x0a; xc3; x53; x0a; xc3; x54; x0a; xc3;
  x55; x0a; xc3; x56; x0a; xc3; x57; x0a;
  xc3; x58; x0a; xc3; x59; x0a; xc3; x5a;
  x0a; xc3; x5b; x0a; xc3; x5c; x0a; xc3;
  x5d; x0a; xc3; x5e; x0a; xc3; x5f; x0a;
  xc3; x60; x0a; xc3; x61; x0a; xc3; x62;
  x0a; xc3; x63; x0a; xc3; x64; x0a; xc3;
  x65; x0a; xc3; x66; x0a; xc3; x67; x0a;
  xc3; x68; x0a; xc3; x69; x0a; xc3; x6a
].
(* tests/test_data/whatwg/big5_whatwg_test_encode_out.txt, entries 27904..28159 *)
Definition big5_encode_out_109 : list byte := [
  x0a; xc3; x6b; x0a; xc3; x6c; x0a; xc3;
  x6d; x0a; xc3; x6e; x0a; xc3; x6f; x0a;
  xc3; x70; x0a; xc3; x71; x0a; xc3; x72;
  x0a; xc3; x73; x0a; xc3; x74; x0a; xc3;
  x75; x0a; xc3; x76; x0a; xc3; x77; x0a;
  xc3; x78; x0a; xc3; x79; x0a; xc3; x7a;
  x0a; xc3; x7b; x0a; xc3; x7c; x0a; xc3;
  x7d; x0a; xc3; x7e; x0a; xc3; xa1; x0a;
  xc3; xa2; x0a; xc3; xa3; x0a; xc3; xa4;
  x0a; xc3; xa5; x0a; xc3; xa6; x0a; xc3;
  xa7; x0a; xc3; xa8; x0a; xc3; xa9; x0a;
  xc3; xaa; x0a; xc3; xab; x0a; xc3; xac;
  x0a; xc3; xad; x0a; xc3; xae; x0a; xc3;
  xaf; x0a; xc3; xb0; x0a; xc3; xb1; x0a;
  xc3; xb2; x0a; xc3; xb3; x0a; xc3; xb4;
  x0a; xc3; xb5; x0a; xc3; xb6; x0a; xc3;
  xb7; x0a; xc3; xb8; x0a; xc3; xb9; x0a;
  xc3; xba; x0a; xc3; xbb; x0a; xc3; xbc;
  x0a; xc3; xbd; x0a; xc3; xbe; x0a; xc3;
  xbf; x0a; xc3; xc0; x0a; xc3; xc1; x0a;
  xc3; xc2; x0a; xc3; xc3; x0a; xc3; xc4;
  x0a; xc3; xc5; x0a; xc3; xc6; x0a; xc3;
  xc7; x0a; xc3; xc8; x0a; xc3; xc9; x0a;
  xc3; xca; x0a; xc3; xcb; x0a; xc3; xcc;
  x0a; xc3; xcd; x0a; xc3; xce; x0a; xc3;
  xcf; x0a; xc3; xd0; x0a; xc3; xd1; x0a;
  xc3; xd2; x0a; xc3; xd3; x0a; xc3; xd4;
  x0a; xc3; xd5; x0a; xc3; xd6; x0a; xc3;
  xd7; x0a; xc3; xd8; x0a; xc3; xd9; x0a;
  xc3; xda; x0a; xc3; xdb; x0a; xc3; xdc;
  x0a; xc3; xdd; x0a; xc3; xde; x0a; xc3;
  xdf; x0a; xc3; xe0; x0a; xc3; xe1; x0a
].
(* tests/test_data/whatwg/big5_whatwg_test_encode_out.txt, entries 28160..28415 *)
Definition big5_encode_out_110 : list byte := [
  xc3; xe2; x0a; xc3; xe3; x0a; xc3; xe4;
  x0a; xc3; xe5; x0a; xc3; xe6; x0a; xc3;
  xe7; x0a; xc3; xe8; x0a; xc3; xe9; x0a;
  xc3; xea; x0a; xc3; xeb; x0a; xc3; xec;
  x0a; xc3; xed; x0a; xc3; xee; x0a; xc3;
  xef; x0a; xc3; xf0; x0a; xc3; xf1; x0a;
  xc3; xf2; x0a; xc3; xf3; x0a; xc3; xf4;
  x0a; xc3; xf5; x0a; xc3; xf6; x0a; xc3;
  xf7; x0a; xc3; xf8; x0a; xc3; xf9; x0a;
  xc3; xfa; x0a; xc3; xfb; x0a; xc3; xfc;
  x0a; xc3; xfd; x0a; xc3; xfe; x0a; xc4;
  x40; x0a; xc4; x41; x0a; xc4; x42; x0a;
  xc4; x43; x0a; xc4; x44; x0a; xc4; x45;
  x0a; xc4; x46; x0a; xc4; x47; x0a; xc4;
  x48; x0a; xc4; x49; x0a; xc4; x4a; x0a;
  xc4; x4b; x0a; xc4; x4c; x0a; xc4; x4d;
  x0a; xc4; x4e; x0a; xc4; x4f; x0a; xc4;
  x50; x0a; xc4; x51; x0a; xc4; x52; x0a;
  xc4; x53; x0a; xc4; x54; x0a; xc4; x55;
  x0a; xc4; x56; x0a; xc4; x57; x0a; xc4;
  x58; x0a; xc4; x59; x0a; xc4; x5a; x0a;
  xc4; x5b; x0a; xc4; x5c; x0a; xc4; x5d;
  x0a; xc4; x5e; x0a; xc4; x5f; x0a; xc4;
  x60; x0a; xc4; x61; x0a; xc4; x62; x0a;
  xc4; x63; x0a; xc4; x64; x0a; xc4; x65;
  x0a; xc4; x66; x0a; xc4; x67; x0a; xc4;
  x68; x0a; xc4; x69; x0a; xc4; x6a; x0a;
  xc4; x6b; x0a; xc4; x6c; x0a; xc4; x6d;
  x0a; xc4; x6e; x0a; xc4; x6f; x0a; xc4;
  x70; x0a; xc4; x71; x0a; xc4; x72; x0a;
  xc4; x73; x0a; xc4; x74; x0a; xc4; x75;
  x0a; xc4; x76; x0a; xc4; x77; x0a; xc4
].
(* tests/test_data/whatwg/big5_whatwg_test_encode_out.txt, entries 28416..28671 *)
Definition big5_encode_out_111 : list byte := [
  x78; x0a; xc4; x79; x0a; xc4; x7a; x0a;
  xc4; x7b; x0a; xc4; x7c; x0a; xc4; x7d;
  x0a; xc4; x7e; x0a; xc4; xa1; x0a; xc4;
  xa2; x0a; xc4; xa3; x0a; xc4; xa4; x0a;
  xc4; xa5; x0a; xc4; xa6; x0a; xc4; xa7;
  x0a; xc4; xa8; x0a; xc4; xa9; x0a; xc4;
  xaa; x0a; xc4; xab; x0a; xc4; xac; x0a;
  xc4; xad; x0a; xc4; xae; x0a; xc4; xaf;
  x0a; xc4; xb0; x0a; xc4; xb1; x0a; xc4;
  xb2; x0a; xc4; xb3; x0a; xc4; xb4; x0a;
  xc4; xb5; x0a; xc4; xb6; x0a; xc4; xb7;
  x0a; xc4; xb8; x0a; xc4; xb9; x0a; xc4;
  xba; x0a; xc4; xbb; x0a; xc4; xbc; x0a;
  xc4; xbd; x0a; xc4; xbe; x0a; xc4; xbf;
  x0a; xc4; xc0; x0a; xc4; xc1; x0a; xc4;
  xc2; x0a; xc4; xc3; x0a; xc4; xc4; x0a;
  xc4; xc5; x0a; xc4; xc6; x0a; xc4; xc7;
  x0a; xc4; xc8; x0a; xc4; xc9; x0a; xc4;
  xca; x0a; xc4; xcb; x0a; xc4; xcc; x0a;
  xc4; xcd; x0a; xc4; xce; x0a; xc4; xcf;
  x0a; xc4; xd0; x0a; xc4; xd1; x0a; xc4;
  xd2; x0a; xc4; xd3; x0a; xc4; xd4; x0a;
  xc4; xd5; x0a; xc4; xd6; x0a; xc4; xd7;
  x0a; xc4; xd8; x0a; xc4; xd9; x0a; xc4;
  xda; x0a; xc4; xdb; x0a; xc4; xdc; x0a;
  xc4; xdd; x0a; xc4; xde; x0a; xc4; xdf;
  x0a; xc4; xe0; x0a; xc4; xe1; x0a; xc4;
  xe2; x0a; xc4; xe3; x0a; xc4; xe4; x0a;
  xc4; xe5; x0a; xc4; xe6; x0a; xc4; xe7;
  x0a; xc4; xe8; x0a; xc4; xe9; x0a; xc4;
  xea; x0a; xc4; xeb; x0a; xc4; xec; x0a;
  xc4; xed; x0a; xc4; xee; x0a; xc4; xef
].
(* tests/test_data/whatwg/big5_whatwg_test_encode_out.txt, entries 28672..28927 *)
Definition big5_encode_out_112 : list byte := [
  x0a; xc4; xf0; x0a; xc4; xf1; x0a; xc4;
  xf2; x0a; xc4; xf3; x0a; xc4; xf4; x0a;
  xc4; xf5; x0a; xc4; xf6; x0a; xc4; xf7;
  x0a; xc4; xf8; x0a; xc4; xf9; x0a; xc4;
  xfa; x0a; xc4; xfb; x0a; xc4; xfc; x0a;
  xc4; xfd; x0a; xc4; xfe; x0a; xc5; x40;
  x0a; xc5; x41; x0a; xc5; x42; x0a; xc5;
  x43; x0a; xc5; x44; x0a; xc5; x45; x0a;
  xc5; x46; x0a; xc5; x47; x0a; xc5; x48;
  x0a; xc5; x49; x0a; xc5; x4a; x0a; xc5;
  x4b; x0a; xc5; x4c; x0a; xc5; x4d; x0a;
  xc5; x4e; x0a; xc5; x4f; x0a; xc5; x50;
  x0a; xc5; x51; x0a; xc5; x52; x0a; xc5;
  x53; x0a; xc5; x55; x0a; xc5; x56; x0a;
  xc5; x57; x0a; xc5; x58; x0a; xc5; x59;
  x0a; xc5; x5a; x0a; xc5; x5b; x0a; xc5;
  x5c; x0a; xc5; x5d; x0a; xc5; x5e; x0a;
  xc5; x5f; x0a; xc5; x60; x0a; xc5; x61;
  x0a; xc5; x62; x0a; xc5; x63; x0a; xc5;
  x64; x0a; xc5; x65; x0a; xc5; x66; x0a;
  xc5; x67; x0a; xc5; x68; x0a; xc5; x69;
  x0a; xc5; x6a; x0a; xc5; x6b; x0a; xc5;
  x6c; x0a; xc5; x6d; x0a; xc5; x6e; x0a;
  xc5; x6f; x0a; xc5; x70; x0a; xc5; x71;
  x0a; xc5; x72; x0a; xc5; x73; x0a; xc5;
  x74; x0a; xc5; x75; x0a; xc5; x76; x0a;
  xc5; x77; x0a; xc5; x78; x0a; xc5; x79;
  x0a; xc5; x7a; x0a; xc5; x7b; x0a; xc5;
  x7c; x0a; xc5; x7d; x0a; xc5; x7e; x0a;
  xc5; xa1; x0a; xc5; xa2; x0a; xc5; xa3;
  x0a; xc5; xa4; x0a; xc5; xa5; x0a; xc5;
  xa6; x0a; xc5; xa7; x0a; xc5; xa8; x0a
].
(* tests/test_data/whatwg/big5_whatwg_test_encode_out.txt, entries 28928..29183 *)
Definition big5_encode_out_113 : list byte := [
  xc5; xa9; x0a; xc5; xaa; x0a; xc5; xab;
  x0a; xc5; xac; x0a; xc5; xad; x0a; xc5;
  xae; x0a; xc5; xaf; x0a; xc5; xb0; x0a;
  xc5; xb1; x0a; xc5; xb2; x0a; xc5; xb3;
  x0a; xc5; xb4; x0a; xc5; xb5; x0a; xc5;
  xb6; x0a; xc5; xb7; x0a; xc5; xb8; x0a;
  xc5; xb9; x0a; xc5; xba; x0a; xc5; xbb;
  x0a; xc5; xbc; x0a; xc5; xbd; x0a; xc5;
  xbe; x0a; xc5; xbf; x0a; xc5; xc0; x0a;
  xc5; xc1; x0a; xc5; xc2; x0a; xc5; xc3;
  x0a; xc5; xc4; x0a; xc5; xc5; x0a; xc5;
  xc6; x0a; xc5; xc7; x0a; xc5; xc8; x0a;
  xc5; xc9; x0a; xc5; xca; x0a; xc5; xcb;
  x0a; xc5; xcc; x0a; xc5; xcd; x0a; xc5;
  xce; x0a; xc5; xcf; x0a; xc5; xd0; x0a;
  xc5; xd1; x0a; xc5; xd2; x0a; xc5; xd3;
  x0a; xc5; xd4; x0a; xc5; xd5; x0a; xc5;
  xd6; x0a; xc5; xd7; x0a; xc5; xd8; x0a;
  xc5; xd9; x0a; xc5; xda; x0a; xc5; xdb;
  x0a; xc5; xdc; x0a; xc5; xdd; x0a; xc5;
  xde; x0a; xc5; xdf; x0a; xc5; xe0; x0a;
  xc5; xe1; x0a; xc5; xe2; x0a; xc5; xe3;
  x0a; xc5; xe4; x0a; xc5; xe5; x0a; xc5;
  xe6; x0a; xc5; xe7; x0a; xc5; xe8; x0a;
  xc5; xe9; x0a; xc5; xea; x0a; xc5; xeb;
  x0a; xc5; xec; x0a; xc5; xed; x0a; xc5;
  xee; x0a; xc5; xef; x0a; xc5; xf0; x0a;
  xc5; xf1; x0a; xc5; xf2; x0a; xc5; xf3;
  x0a; xc5; xf4; x0a; xc5; xf5; x0a; xc5;
  xf6; x0a; xc5; xf8; x0a; xc5; xf9; x0a;
  xc5; xfa; x0a; xc5; xfb; x0a; xc5; xfc;
  x0a; xc5; xfd; x0a; xc5; xfe; x0a; xc6
].
(* tests/test_data/whatwg/big5_whatwg_test_encode_out.txt, entries 29184..29439 *)
Definition big5_encode_out_114 : list byte := [
  x40; x0a; xc6; x41; x0a; xc6; x42; x0a;
  xc6; x43; x0a; xc6; x44; x0a; xc6; x45;
  x0a; xc6; x46; x0a; xc6; x47; x0a; xc6;
  x48; x0a; xc6; x49; x0a; xc6; x4a; x0a;
  xc6; x4b; x0a; xc6; x4c; x0a; xc6; x4d;
  x0a; xc6; x4e; x0a; xc6; x4f; x0a; xc6;
  x50; x0a; xc6; x51; x0a; xc6; x52; x0a;
  xc6; x53; x0a; xc6; x54; x0a; xc6; x55;
  x0a; xc6; x56; x0a; xc6; x57; x0a; xc6;
  x58; x0a; xc6; x59; x0a; xc6; x5a; x0a;
  xc6; x5b; x0a; xc6; x5c; x0a; xc6; x5d;
  x0a; xc6; x5e; x0a; xc6; x5f; x0a; xc6;
  x60; x0a; xc6; x61; x0a; xc6; x62; x0a;
  xc6; x63; x0a; xc6; x64; x0a; xc6; x65;
  x0a; xc6; x66; x0a; xc6; x67; x0a; xc6;
  x68; x0a; xc6; x69; x0a; xc6; x6a; x0a;
  xc6; x6b; x0a; xc6; x6c; x0a; xc6; x6d;
  x0a; xc6; x6e; x0a; xc6; x6f; x0a; xc6;
  x70; x0a; xc6; x71; x0a; xc6; x72; x0a;
  xc6; x73; x0a; xc6; x74; x0a; xc6; x75;
  x0a; xc6; x76; x0a; xc6; x77; x0a; xc6;
  x78; x0a; xc6; x79; x0a; xc6; x7a; x0a;
  xc6; x7b; x0a; xc6; x7c; x0a; xc6; x7d;
  x0a; xc6; x7e; x0a; xc6; xa1; x0a; xc6;
  xa2; x0a; xc6; xa3; x0a; xc6; xa4; x0a;
  xc6; xa5; x0a; xc6; xa6; x0a; xc6; xa7;
  x0a; xc6; xa8; x0a; xc6; xa9; x0a; xc6;
  xaa; x0a; xc6; xab; x0a; xc6; xac; x0a;
  xc6; xad; x0a; xc6; xae; x0a; xc6; xaf;
  x0a; xc6; xb0; x0a; xc6; xb1; x0a; xc6;
  xb2; x0a; xc6; xb3; x0a; xc6; xb4; x0a;
  xc6; xb5; x0a; xc6; xb6; x0a; xc6; xb7
].
(* tests/test_data/whatwg/big5_whatwg_test_encode_out.txt, entries 29440..29695 *)
Definition big5_encode_out_115 : list byte := [
  x0a; xc6; xb8; x0a; xc6; xb9; x0a; xc6;
  xba; x0a; xc6; xbb; x0a; xc6; xbc; x0a;
  xc6; xbd; x0a; xc6; xbe; x0a; xc6; xbf;
  x0a; xc6; xc0; x0a; xc6; xc1; x0a; xc6;
  xc2; x0a; xc6; xc3; x0a; xc6; xc4; x0a;
  xc6; xc5; x0a; xc6; xc6; x0a; xc6; xc7;
  x0a; xc6; xc8; x0a; xc6; xc9; x0a; xc6;
  xca; x0a; xc6; xcb; x0a; xc6; xcc; x0a;
  xc6; xcd; x0a; xc6; xce; x0a; xc6; xcf;
  x0a; xc6; xd0; x0a; xc6; xd1; x0a; xc6;
  xd2; x0a; xc6; xd3; x0a; xc6; xd4; x0a;
  xc6; xd5; x0a; xc6; xd6; x0a; xc6; xd8;
  x0a; xc6; xd9; x0a; xc6; xda; x0a; xc6;
  xdb; x0a; xc6; xdc; x0a; xc6; xdd; x0a;
  xc6; xdf; x0a; xc6; xe0; x0a; xc6; xe1;
  x0a; xc6; xe2; x0a; xc6; xe3; x0a; xc6;
  xe4; x0a; xc6; xe5; x0a; xc6; xe6; x0a;
  xc6; xe7; x0a; xc6; xe8; x0a; xc6; xe9;
  x0a; xc6; xea; x0a; xc6; xeb; x0a; xc6;
  xec; x0a; xc6; xed; x0a; xc6; xee; x0a;
  xc6; xef; x0a; xc6; xf0; x0a; xc6; xf1;
  x0a; xc6; xf2; x0a; xc6; xf3; x0a; xc6;
  xf4; x0a; xc6; xf5; x0a; xc6; xf6; x0a;
  xc6; xf7; x0a; xc6; xf8; x0a; xc6; xf9;
  x0a; xc6; xfa; x0a; xc6; xfb; x0a; xc6;
  xfc; x0a; xc6; xfd; x0a; xc6; xfe; x0a;
  xc7; x40; x0a; xc7; x41; x0a; xc7; x42;
  x0a; xc7; x43; x0a; xc7; x44; x0a; xc7;
  x45; x0a; xc7; x46; x0a; xc7; x47; x0a;
  xc7; x48; x0a; xc7; x49; x0a; xc7; x4a;
  x0a; xc7; x4b; x0a; xc7; x4c; x0a; xc7;
  x4d; x0a; xc7; x4e; x0a; xc7; x4f; x0a
].
(* tests/test_data/whatwg/big5_whatwg_test_encode_out.txt, entries 29696..29951 *)
Definition big5_encode_out_116 : list byte := [
  xc7; x50; x0a; xc7; x51; x0a; xc7; x52;
  x0a; xc7; x53; x0a; xc7; x54; x0a; xc7;
  x55; x0a; xc7; x56; x0a; xc7; x57; x0a;
  xc7; x58; x0a; xc7; x59; x0a; xc7; x5a;
  x0a; xc7; x5b; x0a; xc7; x5c; x0a; xc7;
  x5d; x0a; xc7; x5e; x0a; xc7; x5f; x0a;
  xc7; x60; x0a; xc7; x61; x0a; xc7; x62;
  x0a; xc7; x63; x0a; xc7; x64; x0a; xc7;
  x65; x0a; xc7; x66; x0a; xc7; x67; x0a;
  xc7; x68; x0a; xc7; x69; x0a; xc7; x6a;
  x0a; xc7; x6b; x0a; xc7; x6c; x0a; xc7;
  x6d; x0a; xc7; x6e; x0a; xc7; x6f; x0a;
  xc7; x70; x0a; xc7; x71; x0a; xc7; x72;
  x0a; xc7; x73; x0a; xc7; x74; x0a; xc7;
  x75; x0a; xc7; x76; x0a; xc7; x77; x0a;
  xc7; x78; x0a; xc7; x79; x0a; xc7; x7a;
  x0a; xc7; x7b; x0a; xc7; x7c; x0a; xc7;
  x7d; x0a; xc7; x7e; x0a; xc7; xa1; x0a;
  xc7; xa2; x0a; xc7; xa3; x0a; xc7; xa4;
  x0a; xc7; xa5; x0a; xc7; xa6; x0a; xc7;
  xa7; x0a; xc7; xa8; x0a; xc7; xa9; x0a;
  xc7; xaa; x0a; xc7; xab; x0a; xc7; xac;
  x0a; xc7; xad; x0a; xc7; xae; x0a; xc7;
  xaf; x0a; xc7; xb0; x0a; xc7; xb1; x0a;
  xc7; xb2; x0a; xc7; xb3; x0a; xc7; xb4;
  x0a; xc7; xb5; x0a; xc7; xb6; x0a; xc7;
  xb7; x0a; xc7; xb8; x0a; xc7; xb9; x0a;
  xc7; xba; x0a; xc7; xbb; x0a; xc7; xbc;
  x0a; xc7; xbd; x0a; xc7; xbe; x0a; xc7;
  xbf; x0a; xc7; xc0; x0a; xc7; xc1; x0a;
  xc7; xc2; x0a; xc7; xc3; x0a; xc7; xc4;
  x0a; xc7; xc5; x0a; xc7; xc6; x0a; xc7
].
(* tests/test_data/whatwg/big5_whatwg_test_encode_out.txt, entries 29952..30207 *)
Definition big5_encode_out_117 : list byte := [
  xc7; x0a; xc7; xc8; x0a; xc7; xc9; x0a;
  xc7; xca; x0a; xc7; xcb; x0a; xc7; xcc;
  x0a; xc7; xcd; x0a; xc7; xce; x0a; xc7;
  xcf; x0a; xc7; xd0; x0a; xc7; xd1; x0a;
  xc7; xd2; x0a; xc7; xd3; x0a; xc7; xd4;
  x0a; xc7; xd5; x0a; xc7; xd6; x0a; xc7;
  xd7; x0a; xc7; xd8; x0a; xc7; xd9; x0a;
  xc7; xda; x0a; xc7; xdb; x0a; xc7; xdc;
  x0a; xc7; xdd; x0a; xc7; xde; x0a; xc7;
  xdf; x0a; xc7; xe0; x0a; xc7; xe1; x0a;
  xc7; xe2; x0a; xc7; xe3; x0a; xc7; xe4;
  x0a; xc7; xe5; x0a; xc7; xe6; x0a; xc7;
  xe7; x0a; xc7; xe8; x0a; xc7; xe9; x0a;
  xc7; xea; x0a; xc7; xeb; x0a; xc7; xec;
  x0a; xc7; xed; x0a; xc7; xee; x0a; xc7;
  xef; x0a; xc7; xf0; x0a; xc7; xf1; x0a;
  xc7; xf2; x0a; xc7; xf3; x0a; xc7; xf4;
  x0a; xc7; xf5; x0a; xc7; xf6; x0a; xc7;
  xf7; x0a; xc7; xf8; x0a; xc7; xf9; x0a;
  xc7; xfa; x0a; xc7; xfb; x0a; xc7; xfc;
  x0a; xc7; xfd; x0a; xc7; xfe; x0a; xc8;
  x40; x0a; xc8; x41; x0a; xc8; x42; x0a;
  xc8; x43; x0a; xc8; x44; x0a; xc8; x45;
  x0a; xc8; x46; x0a; xc8; x47; x0a; xc8;
  x48; x0a; xc8; x49; x0a; xc8; x4a; x0a;
  xc8; x4b; x0a; xc8; x4c; x0a; xc8; x4d;
  x0a; xc8; x4e; x0a; xc8; x4f; x0a; xc8;
  x50; x0a; xc8; x51; x0a; xc8; x52; x0a;
  xc8; x53; x0a; xc8; x54; x0a; xc8; x55;
  x0a; xc8; x56; x0a; xc8; x57; x0a; xc8;
  x58; x0a; xc8; x59; x0a; xc8; x5a; x0a;
  xc8; x5b; x0a; xc8; x5c; x0a; xc8; x5d
].
(* tests/test_data/whatwg/big5_whatwg_test_encode_out.txt, entries 30208..30463 *)
Definition big5_encode_out_118 : list byte := [
  x0a; xc8; x5e; x0a; xc8; x5f; x0a; xc8;
  x60; x0a; xc8; x61; x0a; xc8; x62; x0a;
  xc8; x63; x0a; xc8; x64; x0a; xc8; x65;
  x0a; xc8; x66; x0a; xc8; x67; x0a; xc8;
  x68; x0a; xc8; x69; x0a; xc8; x6a; x0a;
  xc8; x6b; x0a; xc8; x6c; x0a; xc8; x6d;
  x0a; xc8; x6e; x0a; xc8; x6f; x0a; xc8;
  x70; x0a; xc8; x71; x0a; xc8; x72; x0a;
  xc8; x73; x0a; xc8; x74; x0a; xc8; x75;
  x0a; xc8; x76; x0a; xc8; x77; x0a; xc8;
  x78; x0a; xc8; x79; x0a; xc8; x7a; x0a;
  xc8; x7b; x0a; xc8; x7c; x0a; xc8; x7d;
  x0a; xc8; x7e; x0a; xc8; xa1; x0a; xc8;
  xa2; x0a; xc8; xa3; x0a; xc8; xa4; x0a;
  xc8; xcd; x0a; xc8; xce; x0a; xc8; xcf;
  x0a; xc8; xd0; x0a; xc8; xd1; x0a; xc8;
  xd2; x0a; xc8; xd3; x0a; xc8; xd4; x0a;
  xc8; xd5; x0a; xc8; xd6; x0a; xc8; xd7;
  x0a; xc8; xd8; x0a; xc8; xd9; x0a; xc8;
  xda; x0a; xc8; xdb; x0a; xc8; xdc; x0a;
  xc8; xdd; x0a; xc8; xde; x0a; xc8; xdf;
  x0a; xc8; xe0; x0a; xc8; xe1; x0a; xc8;
  xe2; x0a; xc8; xe3; x0a; xc8; xe4; x0a;
  xc8; xe5; x0a; xc8; xe6; x0a; xc8; xe7;
  x0a; xc8; xe8; x0a; xc8; xe9; x0a; xc8;
  xea; x0a; xc8; xeb; x0a; xc8; xec; x0a;
  xc8; xed; x0a; xc8; xee; x0a; xc8; xef;
  x0a; xc8; xf0; x0a; xc8; xf1; x0a; xc8;
  xf5; x0a; xc8; xf6; x0a; xc8; xf7; x0a;
  xc8; xf8; x0a; xc8; xf9; x0a; xc8; xfa;
  x0a; xc8; xfb; x0a; xc8; xfc; x0a; xc8;
  xfd; x0a; xc8; xfe; x0a; xc9; x40; x0a
].
(* tests/test_data/whatwg/big5_whatwg_test_encode_out.txt, entries 30464..30719 *)
Definition big5_encode_out_119 : list byte := [
  xc9; x41; x0a; xc9; x42; x0a; xc9; x43;
  x0a; xc9; x44; x0a; xc9; x45; x0a; xc9;
  x46; x0a; xc9; x47; x0a; xc9; x48; x0a;
  xc9; x49; x0a; xc9; x4a; x0a; xc9; x4b;
  x0a; xc9; x4c; x0a; xc9; x4d; x0a; xc9;
  x4e; x0a; xc9; x4f; x0a; xc9; x50; x0a;
  xc9; x51; x0a; xc9; x52; x0a; xc9; x53;
  x0a; xc9; x54; x0a; xc9; x55; x0a; xc9;
  x56; x0a; xc9; x57; x0a; xc9; x58; x0a;
  xc9; x59; x0a; xc9; x5a; x0a; xc9; x5b;
  x0a; xc9; x5d; x0a; xc9; x5e; x0a; xc9;
  x5f; x0a; xc9; x60; x0a; xc9; x61; x0a;
  xc9; x62; x0a; xc9; x63; x0a; xc9; x64;
  x0a; xc9; x65; x0a; xc9; x66; x0a; xc9;
  x67; x0a; xc9; x68; x0a; xc9; x6a; x0a;
  xc9; x6b; x0a; xc9; x6c; x0a; xc9; x6d;
  x0a; xc9; x6e; x0a; xc9; x6f; x0a; xc9;
  x70; x0a; xc9; x71; x0a; xc9; x72; x0a;
  xc9; x73; x0a; xc9; x74; x0a; xc9; x75;
  x0a; xc9; x76; x0a; xc9; x77; x0a; xc9;
  x78; x0a; xc9; x79; x0a; xc9; x7a; x0a;
  xc9; x7b; x0a; xc9; x7c; x0a; xc9; x7d;
  x0a; xc9; x7e; x0a; xc9; xa1; x0a; xc9;
  xa2; x0a; xc9; xa3; x0a; xc9; xa4; x0a;
  xc9; xa5; x0a; xc9; xa6; x0a; xc9; xa7;
  x0a; xc9; xa8; x0a; xc9; xa9; x0a; xc9;
  xaa; x0a; xc9; xab; x0a; xc9; xac; x0a;
  xc9; xad; x0a; xc9; xae; x0a; xc9; xaf;
  x0a; xc9; xb0; x0a; xc9; xb1; x0a; xc9;
  xb2; x0a; xc9; xb3; x0a; xc9; xb4; x0a;
  xc9; xb5; x0a; xc9; xb6; x0a; xc9; xb7;
  x0a; xc9; xb8; x0a; xc9; xb9; x0a; xc9
].
(* tests/test_data/whatwg/big5_whatwg_test_encode_out.txt, entries 30720..30975 *)
Definition big5_encode_out_120 : list byte := [
  xba; x0a; xc9; xbb; x0a; xc9; xbc; x0a;
  xc9; xbd; x0a; xc9; xbe; x0a; xc9; xbf;
  x0a; xc9; xc0; x0a; xc9; xc1; x0a; xc9;
  xc2; x0a; xc9; xc3; x0a; xc9; xc4; x0a;
  xc9; xc5; x0a; xc9; xc6; x0a; xc9; xc7;
  x0a; xc9; xc8; x0a; xc9; xc9; x0a; xc9;
  xca; x0a; xc9; xcb; x0a; xc9; xcc; x0a;
  xc9; xcd; x0a; xc9; xce; x0a; xc9; xcf;
  x0a; xc9; xd0; x0a; xc9; xd1; x0a; xc9;
  xd2; x0a; xc9; xd3; x0a; xc9; xd4; x0a;
  xc9; xd5; x0a; xc9; xd6; x0a; xc9; xd7;
  x0a; xc9; xd8; x0a; xc9; xd9; x0a; xc9;
  xda; x0a; xc9; xdb; x0a; xc9; xdc; x0a;
  xc9; xdd; x0a; xc9; xde; x0a; xc9; xdf;
  x0a; xc9; xe0; x0a; xc9; xe1; x0a; xc9;
  xe2; x0a; xc9; xe3; x0a; xc9; xe4; x0a;
  xc9; xe5; x0a; xc9; xe6; x0a; xc9; xe7;
  x0a; xc9; xe8; x0a; xc9; xe9; x0a; xc9;
  xea; x0a; xc9; xeb; x0a; xc9; xec; x0a;
  xc9; xed; x0a; xc9; xee; x0a; xc9; xef;
  x0a; xc9; xf0; x0a; xc9; xf1; x0a; xc9;
  xf2; x0a; xc9; xf3; x0a; xc9; xf4; x0a;
  xc9; xf5; x0a; xc9; xf6; x0a; xc9; xf7;
  x0a; xc9; xf8; x0a; xc9; xf9; x0a; xc9;
  xfa; x0a; xc9; xfb; x0a; xc9; xfd; x0a;
  xc9; xfe; x0a; xca; x40; x0a; xca; x41;
  x0a; xca; x42; x0a; xca; x43; x0a; xca;
  x44; x0a; xca; x45; x0a; xca; x46; x0a;
  xca; x47; x0a; xca; x48; x0a; xca; x49;
  x0a; xca; x4a; x0a; xca; x4b; x0a; xca;
  x4c; x0a; xca; x4d; x0a; xca; x4e; x0a;
  xca; x4f; x0a; xca; x50; x0a; xca; x51
].
(* tests/test_data/whatwg/big5_whatwg_test_encode_out.txt, entries 30976..31231 *)
Definition big5_encode_out_121 : list byte := [
  x0a; xca; x53; x0a; xca; x54; x0a; xca;
  x55; x0a; xca; x56; x0a; xca; x57; x0a;
  xca; x58; x0a; xca; x59; x0a; xca; x5a;
  x0a; xca; x5b; x0a; xca; x5c; x0a; xca;
  x5d; x0a; xca; x5e; x0a; xca; x5f; x0a;
  xca; x60; x0a; xca; x61; x0a; xca; x62;
  x0a; xca; x63; x0a; xca; x64; x0a; xca;
  x65; x0a; xca; x66; x0a; xca; x67; x0a;
  xca; x68; x0a; xca; x69; x0a; xca; x6a;
  x0a; xca; x6b; x0a; xca; x6c; x0a; xca;
  x6d; x0a; xca; x6e; x0a; xca; x6f; x0a;
  xca; x70; x0a; xca; x71; x0a; xca; x72;
  x0a; xca; x73; x0a; xca; x74; x0a; xca;
  x75; x0a; xca; x76; x0a; xca; x77; x0a;
  xca; x78; x0a; xca; x79; x0a; xca; x7a;
  x0a; xca; x7b; x0a; xca; x7c; x0a; xca;
  x7d; x0a; xca; x7e; x0a; xca; xa1; x0a;
  xca; xa2; x0a; xca; xa3; x0a; xca; xa4;
  x0a; xca; xa5; x0a; xca; xa6; x0a; xca;
  xa7; x0a; xca; xa8; x0a; xca; xa9; x0a;
  xca; xaa; x0a; xca; xab; x0a; xca; xac;
  x0a; xca; xad; x0a; xca; xae; x0a; xca;
  xaf; x0a; xca; xb0; x0a; xca; xb1; x0a;
  xca; xb2; x0a; xca; xb3; x0a; xca; xb4;
  x0a; xca; xb5; x0a; xca; xb6; x0a; xca;
  xb7; x0a; xca; xb8; x0a; xca; xb9; x0a;
  xca; xba; x0a; xca; xbb; x0a; xca; xbc;
  x0a; xca; xbd; x0a; xca; xbe; x0a; xca;
  xbf; x0a; xca; xc0; x0a; xca; xc1; x0a;
  xca; xc2; x0a; xca; xc3; x0a; xca; xc4;
  x0a; xca; xc5; x0a; xca; xc6; x0a; xca;
  xc7; x0a; xca; xc8; x0a; xca; xc9; x0a
].
(* tests/test_data/whatwg/big5_whatwg_test_encode_out.txt, entries 31232..31487 *)
Definition big5_encode_out_122 : list byte := [
  xca; xca; x0a; xca; xcb; x0a; xca; xcc;
  x0a; xca; xcd; x0a; xca; xce; x0a; xca;
  xcf; x0a; xca; xd0; x0a; xca; xd1; x0a;
  xca; xd2; x0a; xca; xd3; x0a; xca; xd4;
  x0a; xca; xd5; x0a; xca; xd6; x0a; xca;
  xd7; x0a; xca; xd8; x0a; xca; xd9; x0a;
  xca; xda; x0a; xca; xdb; x0a; xca; xdc;
  x0a; xca; xdd; x0a; xca; xde; x0a; xca;
  xdf; x0a; xca; xe0; x0a; xca; xe1; x0a;
  xca; xe2; x0a; xca; xe3; x0a; xca; xe4;
  x0a; xca; xe5; x0a; xca; xe6; x0a; xca;
  xe7; x0a; xca; xe8; x0a; xca; xe9; x0a;
  xca; xea; x0a; xca; xeb; x0a; xca; xec;
  x0a; xca; xed; x0a; xca; xee; x0a; xca;
  xef; x0a; xca; xf0; x0a; xca; xf1; x0a;
  xca; xf2; x0a; xca; xf3; x0a; xca; xf4;
  x0a; xca; xf5; x0a; xca; xf6; x0a; xca;
  xf7; x0a; xca; xf8; x0a; xca; xf9; x0a;
  xca; xfa; x0a; xca; xfb; x0a; xca; xfc;
  x0a; xca; xfd; x0a; xca; xfe; x0a; xcb;
  x40; x0a; xcb; x41; x0a; xcb; x42; x0a;
  xcb; x43; x0a; xcb; x44; x0a; xcb; x45;
  x0a; xcb; x46; x0a; xcb; x47; x0a; xcb;
  x48; x0a; xcb; x49; x0a; xcb; x4a; x0a;
  xcb; x4b; x0a; xcb; x4c; x0a; xcb; x4d;
  x0a; xcb; x4e; x0a; xcb; x4f; x0a; xcb;
  x50; x0a; xcb; x51; x0a; xcb; x52; x0a;
  xcb; x53; x0a; xcb; x54; x0a; xcb; x55;
  x0a; xcb; x56; x0a; xcb; x57; x0a; xcb;
  x58; x0a; xcb; x59; x0a; xcb; x5a; x0a;
  xcb; x5b; x0a; xcb; x5c; x0a; xcb; x5d;
  x0a; xcb; x5e; x0a; xcb; x5f; x0a; xcb
].
(* tests/test_data/whatwg/big5_whatwg_test_encode_out.txt, entries 31488..31743 *)
Definition big5_encode_out_123 : list byte := [
  x60; x0a; xcb; x61; x0a; xcb; x62; x0a;
  xcb; x63; x0a; xcb; x64; x0a; xcb; x65;
  x0a; xcb; x66; x0a; xcb; x67; x0a; xcb;
  x68; x0a; xcb; x69; x0a; xcb; x6a; x0a;
  xcb; x6b; x0a; xcb; x6c; x0a; xcb; x6d;
  x0a; xcb; x6e; x0a; xcb; x6f; x0a; xcb;
  x70; x0a; xcb; x71; x0a; xcb; x72; x0a;
  xcb; x73; x0a; xcb; x74; x0a; xcb; x75;
  x0a; xcb; x76; x0a; xcb; x77; x0a; xcb;
  x78; x0a; xcb; x79; x0a; xcb; x7a; x0a;
  xcb; x7b; x0a; xcb; x7c; x0a; xcb; x7d;
  x0a; xcb; x7e; x0a; xcb; xa1; x0a; xcb;
  xa2; x0a; xcb; xa3; x0a; xcb; xa4; x0a;
  xcb; xa5; x0a; xcb; xa6; x0a; xcb; xa7;
  x0a; xcb; xa8; x0a; xcb; xa9; x0a; xcb;
  xaa; x0a; xcb; xab; x0a; xcb; xac; x0a;
  xcb; xad; x0a; xcb; xae; x0a; xcb; xaf;
  x0a; xcb; xb0; x0a; xcb; xb1; x0a; xcb;
  xb2; x0a; xcb; xb3; x0a; xcb; xb4; x0a;
  xcb; xb5; x0a; xcb; xb6; x0a; xcb; xb7;
  x0a; xcb; xb8; x0a; xcb; xb9; x0a; xcb;
  xba; x0a; xcb; xbb; x0a; xcb; xbc; x0a;
  xcb; xbd; x0a; xcb; xbe; x0a; xcb; xbf;
  x0a; xcb; xc0; x0a; xcb; xc1; x0a; xcb;
  xc2; x0a; xcb; xc3; x0a; xcb; xc4; x0a;
  xcb; xc5; x0a; xcb; xc6; x0a; xcb; xc7;
  x0a; xcb; xc8; x0a; xcb; xc9; x0a; xcb;
  xca; x0a; xcb; xcb; x0a; xcb; xcc; x0a;
  xcb; xcd; x0a; xcb; xce; x0a; xcb; xcf;
  x0a; xcb; xd0; x0a; xcb; xd1; x0a; xcb;
  xd2; x0a; xcb; xd3; x0a; xcb; xd4; x0a;
  xcb; xd5; x0a; xcb; xd6; x0a; xcb; xd7
].
(* tests/test_data/whatwg/big5_whatwg_test_encode_out.txt, entries 31744..31999 *)
Definition big5_encode_out_124 : list byte := [
  x0a; xcb; xd8; x0a; xcb; xd9; x0a; xcb;
  xda; x0a; xcb; xdb; x0a; xcb; xdc; x0a;
  xcb; xdd; x0a; xcb; xde; x0a; xcb; xdf;
  x0a; xcb; xe0; x0a; xcb; xe1; x0a; xcb;
  xe2; x0a; xcb; xe3; x0a; xcb; xe4; x0a;
  xcb; xe5; x0a; xcb; xe6; x0a; xcb; xe7;
  x0a; xcb; xe8; x0a; xcb; xe9; x0a; xcb;
  xea; x0a; xcb; xeb; x0a; xcb; xec; x0a;
  xcb; xed; x0a; xcb; xee; x0a; xcb; xef;
  x0a; xcb; xf0; x0a; xcb; xf1; x0a; xcb;
  xf2; x0a; xcb; xf3; x0a; xcb; xf4; x0a;
  xcb; xf5; x0a; xcb; xf6; x0a; xcb; xf7;
  x0a; xcb; xf8; x0a; xcb; xf9; x0a; xcb;
  xfa; x0a; xcb; xfb; x0a; xcb; xfc; x0a;
  xcb; xfd; x0a; xcb; xfe; x0a; xcc; x40;
  x0a; xcc; x41; x0a; xcc; x42; x0a; xcc;
  x43; x0a; xcc; x44; x0a; xcc; x45; x0a;
  xcc; x46; x0a; xcc; x47; x0a; xcc; x48;
  x0a; xcc; x49; x0a; xcc; x4a; x0a; xcc;
  x4b; x0a; xcc; x4c; x0a; xcc; x4d; x0a;
  xcc; x4e; x0a; xcc; x4f; x0a; xcc; x50;
  x0a; xcc; x51; x0a; xcc; x52; x0a; xcc;
  x53; x0a; xcc; x54; x0a; xcc; x55; x0a;
  xcc; x56; x0a; xcc; x57; x0a; xcc; x58;
  x0a; xcc; x59; x0a; xcc; x5a; x0a; xcc;
  x5b; x0a; xcc; x5c; x0a; xcc; x5d; x0a;
  xcc; x5e; x0a; xcc; x5f; x0a; xcc; x60;
  x0a; xcc; x61; x0a; xcc; x62; x0a; xcc;
  x63; x0a; xcc; x64; x0a; xcc; x65; x0a;
  xcc; x66; x0a; xcc; x67; x0a; xcc; x68;
  x0a; xcc; x69; x0a; xcc; x6a; x0a; xcc;
  x6b; x0a; xcc; x6c; x0a; xcc; x6d; x0a
].
(* tests/test_data/whatwg/big5_whatwg_test_encode_out.txt, entries 32000..32255 *)
Definition big5_encode_out_125 : list byte := [
  xcc; x6e; x0a; xcc; x6f; x0a; xcc; x70;
  x0a; xcc; x71; x0a; xcc; x72; x0a; xcc;
  x73; x0a; xcc; x74; x0a; xcc; x75; x0a;
  xcc; x76; x0a; xcc; x77; x0a; xcc; x78;
  x0a; xcc; x79; x0a; xcc; x7a; x0a; xcc;
  x7b; x0a; xcc; x7c; x0a; xcc; x7d; x0a;
  xcc; x7e; x0a; xcc; xa1; x0a; xcc; xa2;
  x0a; xcc; xa3; x0a; xcc; xa4; x0a; xcc;
  xa5; x0a; xcc; xa6; x0a; xcc; xa7; x0a;
  xcc; xa8; x0a; xcc; xa9; x0a; xcc; xaa;
  x0a; xcc; xab; x0a; xcc; xac; x0a; xcc;
  xad; x0a; xcc; xae; x0a; xcc; xaf; x0a;
  xcc; xb0; x0a; xcc; xb1; x0a; xcc; xb2;
  x0a; xcc; xb3; x0a; xcc; xb4; x0a; xcc;
  xb5; x0a; xcc; xb6; x0a; xcc; xb7; x0a;
  xcc; xb8; x0a; xcc; xb9; x0a; xcc; xba;
  x0a; xcc; xbb; x0a; xcc; xbc; x0a; xcc;
  xbd; x0a; xcc; xbe; x0a; xcc; xbf; x0a;
  xcc; xc0; x0a; xcc; xc1; x0a; xcc; xc2;
  x0a; xcc; xc3; x0a; xcc; xc4; x0a; xcc;
  xc5; x0a; xcc; xc6; x0a; xcc; xc7; x0a;
  xcc; xc8; x0a; xcc; xc9; x0a; xcc; xca;
  x0a; xcc; xcb; x0a; xcc; xcc; x0a; xcc;
  xcd; x0a; xcc; xce; x0a; xcc; xcf; x0a;
  xcc; xd0; x0a; xcc; xd1; x0a; xcc; xd2;
  x0a; xcc; xd3; x0a; xcc; xd4; x0a; xcc;
  xd5; x0a; xcc; xd6; x0a; xcc; xd7; x0a;
  xcc; xd8; x0a; xcc; xd9; x0a; xcc; xda;
  x0a; xcc; xdb; x0a; xcc; xdc; x0a; xcc;
  xdd; x0a; xcc; xde; x0a; xcc; xdf; x0a;
  xcc; xe0; x0a; xcc; xe1; x0a; xcc; xe2;
  x0a; xcc; xe3; x0a; xcc; xe4; x0a; xcc
].
(* tests/test_data/whatwg/big5_whatwg_test_encode_out.txt, entries 32256..32511 *)
Definition big5_encode_out_126 : list byte := [
  xe5; x0a; xcc; xe6; x0a; xcc; xe7; x0a;
  xcc; xe8; x0a; xcc; xe9; x0a; xcc; xea;
  x0a; xcc; xeb; x0a; xcc; xec; x0a; xcc;
  xed; x0a; xcc; xee; x0a; xcc; xef; x0a;
  xcc; xf0; x0a; xcc; xf1; x0a; xcc; xf2;
  x0a; xcc; xf3; x0a; xcc; xf4; x0a; xcc;
  xf5; x0a; xcc; xf6; x0a; xcc; xf7; x0a;
  xcc; xf8; x0a; xcc; xf9; x0a; xcc; xfa;
  x0a; xcc; xfb; x0a; xcc; xfc; x0a; xcc;
  xfd; x0a; xcc; xfe; x0a; xcd; x40; x0a;
  xcd; x41; x0a; xcd; x42; x0a; xcd; x43;
  x0a; xcd; x44; x0a; xcd; x45; x0a; xcd;
  x46; x0a; xcd; x47; x0a; xcd; x48; x0a;
  xcd; x49; x0a; xcd; x4a; x0a; xcd; x4b;
  x0a; xcd; x4c; x0a; xcd; x4d; x0a; xcd;
  x4e; x0a; xcd; x4f; x0a; xcd; x50; x0a;
  xcd; x51; x0a; xcd; x52; x0a; xcd; x53;
  x0a; xcd; x54; x0a; xcd; x55; x0a; xcd;
  x56; x0a; xcd; x57; x0a; xcd; x58; x0a;
  xcd; x59; x0a; xcd; x5a; x0a; xcd; x5b;
  x0a; xcd; x5c; x0a; xcd; x5d; x0a; xcd;
  x5e; x0a; xcd; x5f; x0a; xcd; x60; x0a;
  xcd; x61; x0a; xcd; x62; x0a; xcd; x63;
  x0a; xcd; x64; x0a; xcd; x65; x0a; xcd;
  x66; x0a; xcd; x67; x0a; xcd; x68; x0a;
  xcd; x69; x0a; xcd; x6a; x0a; xcd; x6b;
  x0a; xcd; x6c; x0a; xcd; x6d; x0a; xcd;
  x6e; x0a; xcd; x6f; x0a; xcd; x70; x0a;
  xcd; x71; x0a; xcd; x72; x0a; xcd; x73;
  x0a; xcd; x74; x0a; xcd; x75; x0a; xcd;
  x76; x0a; xcd; x77; x0a; xcd; x78; x0a;
  xcd; x79; x0a; xcd; x7a; x0a; xcd; x7b
].
(* tests/test_data/whatwg/big5_whatwg_test_encode_out.txt, entries 32512..32767 *)
Definition big5_encode_out_127 : list byte := [
  x0a; xcd; x7c; x0a; xcd; x7d; x0a; xcd;
  x7e; x0a; xcd; xa1; x0a; xcd; xa2; x0a;
  xcd; xa3; x0a; xcd; xa4; x0a; xcd; xa5;
  x0a; xcd; xa6; x0a; xcd; xa7; x0a; xcd;
  xa8; x0a; xcd; xa9; x0a; xcd; xaa; x0a;
  xcd; xab; x0a; xcd; xac; x0a; xcd; xad;
  x0a; xcd; xae; x0a; xcd; xaf; x0a; xcd;
  xb0; x0a; xcd; xb1; x0a; xcd; xb2; x0a;
  xcd; xb3; x0a; xcd; xb4; x0a; xcd; xb5;
  x0a; xcd; xb6; x0a; xcd; xb7; x0a; xcd;
  xb8; x0a; xcd; xb9; x0a; xcd; xba; x0a;
  xcd; xbb; x0a; xcd; xbc; x0a; xcd; xbd;
  x0a; xcd; xbe; x0a; xcd; xbf; x0a; xcd;
  xc0; x0a; xcd; xc1; x0a; xcd; xc2; x0a;
  xcd; xc3; x0a; xcd; xc4; x0a; xcd; xc5;
  x0a; xcd; xc6; x0a; xcd; xc7; x0a; xcd;
  xc8; x0a; xcd; xc9; x0a; xcd; xca; x0a;
  xcd; xcb; x0a; xcd; xcc; x0a; xcd; xcd;
  x0a; xcd; xce; x0a; xcd; xcf; x0a; xcd;
  xd0; x0a; xcd; xd1; x0a; xcd; xd2; x0a;
  xcd; xd3; x0a; xcd; xd4; x0a; xcd; xd5;
  x0a; xcd; xd6; x0a; xcd; xd7; x0a; xcd;
  xd8; x0a; xcd; xd9; x0a; xcd; xda; x0a;
  xcd; xdb; x0a; xcd; xdc; x0a; xcd; xdd;
  x0a; xcd; xde; x0a; xcd; xdf; x0a; xcd;
  xe0; x0a; xcd; xe1; x0a; xcd; xe2; x0a;
  xcd; xe3; x0a; xcd; xe4; x0a; xcd; xe5;
  x0a; xcd; xe6; x0a; xcd; xe8; x0a; xcd;
  xe9; x0a; xcd; xea; x0a; xcd; xeb; x0a;
  xcd; xec; x0a; xcd; xed; x0a; xcd; xee;
  x0a; xcd; xef; x0a; xcd; xf0; x0a; xcd;
  xf1; x0a; xcd; xf2; x0a; xcd; xf3; x0a
].
(* tests/test_data/whatwg/big5_whatwg_test_encode_out.txt, entries 32768..33023 *)
Definition big5_encode_out_128 : list byte := [
  xcd; xf4; x0a; xcd; xf5; x0a; xcd; xf6;
  x0a; xcd; xf7; x0a; xcd; xf8; x0a; xcd;
  xf9; x0a; xcd; xfa; x0a; xcd; xfb; x0a;
  xcd; xfc; x0a; xcd; xfd; x0a; xcd; xfe;
  x0a; xce; x40; x0a; xce; x41; x0a; xce;
  x42; x0a; xce; x43; x0a; xce; x44; x0a;
  xce; x45; x0a; xce; x46; x0a; xce; x47;
  x0a; xce; x48; x0a; xce; x49; x0a; xce;
  x4a; x0a; xce; x4b; x0a; xce; x4c; x0a;
  xce; x4d; x0a; xce; x4e; x0a; xce; x4f;
  x0a; xce; x50; x0a; xce; x51; x0a; xce;
  x52; x0a; xce; x53; x0a; xce; x54; x0a;
  xce; x55; x0a; xce; x56; x0a; xce; x57;
  x0a; xce; x58; x0a; xce; x59; x0a; xce;
  x5a; x0a; xce; x5b; x0a; xce; x5c; x0a;
  xce; x5d; x0a; xce; x5e; x0a; xce; x5f;
  x0a; xce; x60; x0a; xce; x61; x0a; xce;
  x62; x0a; xce; x63; x0a; xce; x64; x0a;
  xce; x65; x0a; xce; x66; x0a; xce; x67;
  x0a; xce; x68; x0a; xce; x69; x0a; xce;
  x6a; x0a; xce; x6b; x0a; xce; x6c; x0a;
  xce; x6d; x0a; xce; x6e; x0a; xce; x6f;
  x0a; xce; x70; x0a; xce; x71; x0a; xce;
  x72; x0a; xce; x73; x0a; xce; x74; x0a;
  xce; x75; x0a; xce; x76; x0a; xce; x77;
  x0a; xce; x78; x0a; xce; x79; x0a; xce;
  x7a; x0a; xce; x7b; x0a; xce; x7c; x0a;
  xce; x7d; x0a; xce; x7e; x0a; xce; xa1;
  x0a; xce; xa2; x0a; xce; xa3; x0a; xce;
  xa4; x0a; xce; xa5; x0a; xce; xa6; x0a;
  xce; xa7; x0a; xce; xa8; x0a; xce; xa9;
  x0a; xce; xaa; x0a; xce; xab; x0a; xce
].
(* tests/test_data/whatwg/big5_whatwg_test_encode_out.txt, entries 33024..33279 *)
Definition big5_encode_out_129 : list byte := [
  xac; x0a; xce; xad; x0a; xce; xae; x0a;
  xce; xaf; x0a; xce; xb0; x0a; xce; xb1;
  x0a; xce; xb2; x0a; xce; xb3; x0a; xce;
  xb4; x0a; xce; xb5; x0a; xce; xb6; x0a;
  xce; xb7; x0a; xce; xb8; x0a; xce; xb9;
  x0a; xce; xba; x0a; xce; xbb; x0a; xce;
  xbc; x0a; xce; xbd; x0a; xce; xbe; x0a;
  xce; xbf; x0a; xce; xc0; x0a; xce; xc1;
  x0a; xce; xc2; x0a; xce; xc3; x0a; xce;
  xc4; x0a; xce; xc5; x0a; xce; xc6; x0a;
  xce; xc7; x0a; xce; xc8; x0a; xce; xc9;
  x0a; xce; xca; x0a; xce; xcb; x0a; xce;
  xcc; x0a; xce; xcd; x0a; xce; xce; x0a;
  xce; xcf; x0a; xce; xd0; x0a; xce; xd1;
  x0a; xce; xd2; x0a; xce; xd3; x0a; xce;
  xd4; x0a; xce; xd5; x0a; xce; xd6; x0a;
  xce; xd7; x0a; xce; xd8; x0a; xce; xd9;
  x0a; xce; xda; x0a; xce; xdb; x0a; xce;
  xdc; x0a; xce; xdd; x0a; xce; xde; x0a;
  xce; xdf; x0a; xce; xe0; x0a; xce; xe1;
  x0a; xce; xe2; x0a; xce; xe3; x0a; xce;
  xe4; x0a; xce; xe5; x0a; xce; xe6; x0a;
  xce; xe7; x0a; xce; xe8; x0a; xce; xe9;
  x0a; xce; xea; x0a; xce; xeb; x0a; xce;
  xec; x0a; xce; xed; x0a; xce; xee; x0a;
  xce; xef; x0a; xce; xf0; x0a; xce; xf1;
  x0a; xce; xf2; x0a; xce; xf3; x0a; xce;
  xf4; x0a; xce; xf5; x0a; xce; xf6; x0a;
  xce; xf7; x0a; xce; xf8; x0a; xce; xf9;
  x0a; xce; xfa; x0a; xce; xfb; x0a; xce;
  xfc; x0a; xce; xfd; x0a; xce; xfe; x0a;
  xcf; x40; x0a; xcf; x41; x0a; xcf; x42
].
(* tests/test_data/whatwg/big5_whatwg_test_encode_out.txt, entries 33280..33535 *)
Definition big5_encode_out_130 : list byte := [
  x0a; xcf; x43; x0a; xcf; x44; x0a; xcf;
  x45; x0a; xcf; x46; x0a; xcf; x47; x0a;
  xcf; x48; x0a; xcf; x49; x0a; xcf; x4a;
  x0a; xcf; x4b; x0a; xcf; x4c; x0a; xcf;
  x4d; x0a; xcf; x4e; x0a; xcf; x4f; x0a;
  xcf; x50; x0a; xcf; x51; x0a; xcf; x52;
  x0a; xcf; x53; x0a; xcf; x54; x0a; xcf;
  x55; x0a; xcf; x56; x0a; xcf; x57; x0a;
  xcf; x58; x0a; xcf; x59; x0a; xcf; x5a;
  x0a; xcf; x5b; x0a; xcf; x5c; x0a; xcf;
  x5d; x0a; xcf; x5e; x0a; xcf; x5f; x0a;
  xcf; x60; x0a; xcf; x61; x0a; xcf; x62;
  x0a; xcf; x63; x0a; xcf; x64; x0a; xcf;
  x65; x0a; xcf; x66; x0a; xcf; x67; x0a;
  xcf; x68; x0a; xcf; x69; x0a; xcf; x6a;
  x0a; xcf; x6b; x0a; xcf; x6c; x0a; xcf;
  x6d; x0a; xcf; x6e; x0a; xcf; x6f; x0a;
  xcf; x70; x0a; xcf; x71; x0a; xcf; x72;
  x0a; xcf; x73; x0a; xcf; x74; x0a; xcf;
  x75; x0a; xcf; x76; x0a; xcf; x77; x0a;
  xcf; x78; x0a; xcf; x79; x0a; xcf; x7a;
  x0a; xcf; x7b; x0a; xcf; x7c; x0a; xcf;
  x7d; x0a; xcf; x7e; x0a; xcf; xa1; x0a;
  xcf; xa2; x0a; xcf; xa3; x0a; xcf; xa4;
  x0a; xcf; xa5; x0a; xcf; xa6; x0a; xcf;
  xa7; x0a; xcf; xa8; x0a; xcf; xa9; x0a;
  xcf; xaa; x0a; xcf; xab; x0a; xcf; xac;
  x0a; xcf; xad; x0a; xcf; xae; x0a; xcf;
  xaf; x0a; xcf; xb0; x0a; xcf; xb1; x0a;
  xcf; xb2; x0a; xcf; xb3; x0a; xcf; xb4;
  x0a; xcf; xb5; x0a; xcf; xb6; x0a; xcf;
  xb7; x0a; xcf; xb8; x0a; xcf; xb9; x0a
].
(* tests/test_data/whatwg/big5_whatwg_test_encode_out.txt, entries 33536..33791 *)
Definition big5_encode_out_131 : list byte := [
  xcf; xba; x0a; xcf; xbb; x0a; xcf; xbc;
  x0a; xcf; xbd; x0a; xcf; xbe; x0a; xcf;
  xbf; x0a; xcf; xc0; x0a; xcf; xc1; x0a;
  xcf; xc2; x0a; xcf; xc3; x0a; xcf; xc4;
  x0a; xcf; xc5; x0a; xcf; xc6; x0a; xcf;
  xc7; x0a; xcf; xc8; x0a; xcf; xc9; x0a;
  xcf; xca; x0a; xcf; xcb; x0a; xcf; xcc;
  x0a; xcf; xcd; x0a; xcf; xce; x0a; xcf;
  xcf; x0a; xcf; xd0; x0a; xcf; xd1; x0a;
  xcf; xd2; x0a; xcf; xd3; x0a; xcf; xd4;
  x0a; xcf; xd5; x0a; xcf; xd6; x0a; xcf;
  xd7; x0a; xcf; xd8; x0a; xcf; xd9; x0a;
  xcf; xda; x0a; xcf; xdb; x0a; xcf; xdc;
  x0a; xcf; xdd; x0a; xcf; xde; x0a; xcf;
  xdf; x0a; xcf; xe0; x0a; xcf; xe1; x0a;
  xcf; xe2; x0a; xcf; xe3; x0a; xcf; xe4;
  x0a; xcf; xe5; x0a; xcf; xe6; x0a; xcf;
  xe7; x0a; xcf; xe8; x0a; xcf; xe9; x0a;
  xcf; xea; x0a; xcf; xeb; x0a; xcf; xec;
  x0a; xcf; xed; x0a; xcf; xee; x0a; xcf;
  xef; x0a; xcf; xf0; x0a; xcf; xf1; x0a;
  xcf; xf2; x0a; xcf; xf3; x0a; xcf; xf4;
  x0a; xcf; xf5; x0a; xcf; xf6; x0a; xcf;
  xf7; x0a; xcf; xf8; x0a; xcf; xf9; x0a;
  xcf; xfa; x0a; xcf; xfb; x0a; xcf; xfc;
  x0a; xcf; xfd; x0a; xcf; xfe; x0a; xd0;
  x40; x0a; xd0; x41; x0a; xd0; x42; x0a;
  xd0; x43; x0a; xd0; x44; x0a; xd0; x45;
  x0a; xd0; x46; x0a; xd0; x47; x0a; xd0;
  x48; x0a; xd0; x49; x0a; xd0; x4a; x0a;
  xd0; x4b; x0a; xd0; x4c; x0a; xd0; x4d;
  x0a; xd0; x4e; x0a; xd0; x4f; x0a; xd0
].
(* tests/test_data/whatwg/big5_whatwg_test_encode_out.txt, entries 33792..34047 *)
Definition big5_encode_out_132 : list byte := [
  x50; x0a; xd0; x51; x0a; xd0; x52; x0a;
  xd0; x53; x0a; xd0; x54; x0a; xd0; x55;
  x0a; xd0; x56; x0a; xd0; x57; x0a; xd0;
  x58; x0a; xd0; x59; x0a; xd0; x5a; x0a;
  xd0; x5b; x0a; xd0; x5c; x0a; xd0; x5d;
  x0a; xd0; x5e; x0a; xd0; x5f; x0a; xd0;
  x60; x0a; xd0; x61; x0a; xd0; x62; x0a;
  xd0; x63; x0a; xd0; x64; x0a; xd0; x65;
  x0a; xd0; x66; x0a; xd0; x67; x0a; xd0;
  x68; x0a; xd0; x69; x0a; xd0; x6a; x0a;
  xd0; x6b; x0a; xd0; x6c; x0a; xd0; x6d;
  x0a; xd0; x6e; x0a; xd0; x6f; x0a; xd0;
  x70; x0a; xd0; x71; x0a; xd0; x72; x0a;
  xd0; x73; x0a; xd0; x74; x0a; xd0; x75;
  x0a; xd0; x76; x0a; xd0; x77; x0a; xd0;
  x78; x0a; xd0; x79; x0a; xd0; x7a; x0a;
  xd0; x7b; x0a; xd0; x7c; x0a; xd0; x7d;
  x0a; xd0; x7e; x0a; xd0; xa1; x0a; xd0;
  xa2; x0a; xd0; xa3; x0a; xd0; xa4; x0a;
  xd0; xa5; x0a; xd0; xa6; x0a; xd0; xa7;
  x0a; xd0; xa8; x0a; xd0; xa9; x0a; xd0;
  xaa; x0a; xd0; xab; x0a; xd0; xac; x0a;
  xd0; xad; x0a; xd0; xae; x0a; xd0; xaf;
  x0a; xd0; xb0; x0a; xd0; xb1; x0a; xd0;
  xb2; x0a; xd0; xb3; x0a; xd0; xb4; x0a;
  xd0; xb5; x0a; xd0; xb6; x0a; xd0; xb7;
  x0a; xd0; xb8; x0a; xd0; xb9; x0a; xd0;
  xba; x0a; xd0; xbb; x0a; xd0; xbc; x0a;
  xd0; xbd; x0a; xd0; xbe; x0a; xd0; xbf;
  x0a; xd0; xc1; x0a; xd0; xc2; x0a; xd0;
  xc3; x0a; xd0; xc4; x0a; xd0; xc5; x0a;
  xd0; xc6; x0a; xd0; xc7; x0a; xd0; xc8
].
(* tests/test_data/whatwg/big5_whatwg_test_encode_out.txt, entries 34048..34303 *)
Definition big5_encode_out_133 : list byte := [
  x0a; xd0; xc9; x0a; xd0; xca; x0a; xd0;
  xcb; x0a; xd0; xcc; x0a; xd0; xcd; x0a;
  xd0; xce; x0a; xd0; xcf; x0a; xd0; xd0;
  x0a; xd0; xd1; x0a; xd0; xd2; x0a; xd0;
  xd3; x0a; xd0; xd4; x0a; xd0; xd5; x0a;
  xd0; xd6; x0a; xd0; xd7; x0a; xd0; xd8;
  x0a; xd0; xd9; x0a; xd0; xda; x0a; xd0;
  xdb; x0a; xd0; xdc; x0a; xd0; xdd; x0a;
  xd0; xde; x0a; xd0; xdf; x0a; xd0; xe0;
  x0a; xd0; xe1; x0a; xd0; xe2; x0a; xd0;
  xe3; x0a; xd0; xe4; x0a; xd0; xe5; x0a;
  xd0; xe6; x0a; xd0; xe7; x0a; xd0; xe8;
  x0a; xd0; xe9; x0a; xd0; xea; x0a; xd0;
  xeb; x0a; xd0; xec; x0a; xd0; xed; x0a;
  xd0; xee; x0a; xd0; xef; x0a; xd0; xf0;
  x0a; xd0; xf1; x0a; xd0; xf2; x0a; xd0;
  xf3; x0a; xd0; xf4; x0a; xd0; xf5; x0a;
  xd0; xf6; x0a; xd0; xf7; x0a; xd0; xf8;
  x0a; xd0; xf9; x0a; xd0; xfa; x0a; xd0;
  xfb; x0a; xd0; xfc; x0a; xd0; xfd; x0a;
  xd0; xfe; x0a; xd1; x40; x0a; xd1; x41;
  x0a; xd1; x42; x0a; xd1; x43; x0a; xd1;
  x44; x0a; xd1; x45; x0a; xd1; x46; x0a;
  xd1; x47; x0a; xd1; x48; x0a; xd1; x49;
  x0a; xd1; x4a; x0a; xd1; x4b; x0a; xd1;
  x4c; x0a; xd1; x4d; x0a; xd1; x4e; x0a;
  xd1; x4f; x0a; xd1; x50; x0a; xd1; x51;
  x0a; xd1; x52; x0a; xd1; x53; x0a; xd1;
  x54; x0a; xd1; x55; x0a; xd1; x56; x0a;
  xd1; x57; x0a; xd1; x58; x0a; xd1; x59;
  x0a; xd1; x5a; x0a; xd1; x5b; x0a; xd1;
  x5c; x0a; xd1; x5d; x0a; xd1; x5e; x0a
].
(* tests/test_data/whatwg/big5_whatwg_test_encode_out.txt, entries 34304..34559 *)
Definition big5_encode_out_134 : list byte := [
  xd1; x5f; x0a; xd1; x60; x0a; xd1; x61;
  x0a; xd1; x62; x0a; xd1; x63; x0a; xd1;
  x64; x0a; xd1; x65; x0a; xd1; x66; x0a;
  xd1; x67; x0a; xd1; x68; x0a; xd1; x69;
  x0a; xd1; x6a; x0a; xd1; x6b; x0a; xd1;
  x6c; x0a; xd1; x6d; x0a; xd1; x6e; x0a;
  xd1; x6f; x0a; xd1; x70; x0a; xd1; x71;
  x0a; xd1; x72; x0a; xd1; x73; x0a; xd1;
  x74; x0a; xd1; x75; x0a; xd1; x76; x0a;
  xd1; x77; x0a; xd1; x78; x0a; xd1; x79;
  x0a; xd1; x7a; x0a; xd1; x7b; x0a; xd1;
  x7c; x0a; xd1; x7d; x0a; xd1; x7e; x0a;
  xd1; xa1; x0a; xd1; xa2; x0a; xd1; xa3;
  x0a; xd1; xa4; x0a; xd1; xa5; x0a; xd1;
  xa6; x0a; xd1; xa7; x0a; xd1; xa8; x0a;
  xd1; xa9; x0a; xd1; xaa; x0a; xd1; xab;
  x0a; xd1; xac; x0a; xd1; xad; x0a; xd1;
  xae; x0a; xd1; xaf; x0a; xd1; xb0; x0a;
  xd1; xb1; x0a; xd1; xb2; x0a; xd1; xb3;
  x0a; xd1; xb4; x0a; xd1; xb5; x0a; xd1;
  xb6; x0a; xd1; xb7; x0a; xd1; xb8; x0a;
  xd1; xb9; x0a; xd1; xba; x0a; xd1; xbb;
  x0a; xd1; xbc; x0a; xd1; xbd; x0a; xd1;
  xbe; x0a; xd1; xbf; x0a; xd1; xc0; x0a;
  xd1; xc1; x0a; xd1; xc2; x0a; xd1; xc3;
  x0a; xd1; xc4; x0a; xd1; xc5; x0a; xd1;
  xc6; x0a; xd1; xc7; x0a; xd1; xc8; x0a;
  xd1; xc9; x0a; xd1; xca; x0a; xd1; xcb;
  x0a; xd1; xcc; x0a; xd1; xcd; x0a; xd1;
  xce; x0a; xd1; xcf; x0a; xd1; xd0; x0a;
  xd1; xd1; x0a; xd1; xd2; x0a; xd1; xd3;
  x0a; xd1; xd4; x0a; xd1; xd5; x0a; xd1
].
(* tests/test_data/whatwg/big5_whatwg_test_encode_out.txt, entries 34560..34815 *)
Definition big5_encode_out_135 : list byte := [
  xd6; x0a; xd1; xd7; x0a; xd1; xd8; x0a;
  xd1; xd9; x0a; xd1; xda; x0a; xd1; xdb;
  x0a; xd1; xdc; x0a; xd1; xdd; x0a; xd1;
  xde; x0a; xd1; xdf; x0a; xd1; xe0; x0a;
  xd1; xe1; x0a; xd1; xe2; x0a; xd1; xe3;
  x0a; xd1; xe4; x0a; xd1; xe5; x0a; xd1;
  xe6; x0a; xd1; xe7; x0a; xd1; xe8; x0a;
  xd1; xe9; x0a; xd1; xea; x0a; xd1; xeb;
  x0a; xd1; xec; x0a; xd1; xed; x0a; xd1;
  xee; x0a; xd1; xef; x0a; xd1; xf0; x0a;
  xd1; xf1; x0a; xd1; xf2; x0a; xd1; xf3;
  x0a; xd1; xf4; x0a; xd1; xf5; x0a; xd1;
  xf6; x0a; xd1; xf7; x0a; xd1; xf8; x0a;
  xd1; xf9; x0a; xd1; xfa; x0a; xd1; xfb;
  x0a; xd1; xfc; x0a; xd1; xfd; x0a; xd1;
  xfe; x0a; xd2; x40; x0a; xd2; x41; x0a;
  xd2; x42; x0a; xd2; x43; x0a; xd2; x44;
  x0a; xd2; x45; x0a; xd2; x46; x0a; xd2;
  x47; x0a; xd2; x48; x0a; xd2; x49; x0a;
  xd2; x4a; x0a; xd2; x4b; x0a; xd2; x4c;
  x0a; xd2; x4d; x0a; xd2; x4e; x0a; xd2;
  x4f; x0a; xd2; x50; x0a; xd2; x51; x0a;
  xd2; x52; x0a; xd2; x53; x0a; xd2; x54;
  x0a; xd2; x55; x0a; xd2; x57; x0a; xd2;
  x58; x0a; xd2; x59; x0a; xd2; x5a; x0a;
  xd2; x5b; x0a; xd2; x5c; x0a; xd2; x5d;
  x0a; xd2; x5e; x0a; xd2; x5f; x0a; xd2;
  x60; x0a; xd2; x61; x0a; xd2; x62; x0a;
  xd2; x63; x0a; xd2; x64; x0a; xd2; x65;
  x0a; xd2; x66; x0a; xd2; x67; x0a; xd2;
  x68; x0a; xd2; x69; x0a; xd2; x6a; x0a;
  xd2; x6b; x0a; xd2; x6c; x0a; xd2; x6d
].
(* tests/test_data/whatwg/big5_whatwg_test_encode_out.txt, entries 34816..35071 *)
Definition big5_encode_out_136 : list byte := [
  x0a; xd2; x6e; x0a; xd2; x6f; x0a; xd2;
  x70; x0a; xd2; x71; x0a; xd2; x72; x0a;
  xd2; x73; x0a; xd2; x74; x0a; xd2; x75;
  x0a; xd2; x76; x0a; xd2; x77; x0a; xd2;
  x78; x0a; xd2; x79; x0a; xd2; x7a; x0a;
  xd2; x7b; x0a; xd2; x7c; x0a; xd2; x7d;
  x0a; xd2; x7e; x0a; xd2; xa1; x0a; xd2;
  xa2; x0a; xd2; xa3; x0a; xd2; xa4; x0a;
  xd2; xa5; x0a; xd2; xa6; x0a; xd2; xa7;
  x0a; xd2; xa8; x0a; xd2; xa9; x0a; xd2;
  xaa; x0a; xd2; xab; x0a; xd2; xac; x0a;
  xd2; xad; x0a; xd2; xae; x0a; xd2; xaf;
  x0a; xd2; xb0; x0a; xd2; xb1; x0a; xd2;
  xb2; x0a; xd2; xb3; x0a; xd2; xb4; x0a;
  xd2; xb5; x0a; xd2; xb6; x0a; xd2; xb7;
  x0a; xd2; xb8; x0a; xd2; xb9; x0a; xd2;
  xba; x0a; xd2; xbb; x0a; xd2; xbc; x0a;
  xd2; xbd; x0a; xd2; xbe; x0a; xd2; xbf;
  x0a; xd2; xc0; x0a; xd2; xc1; x0a; xd2;
  xc2; x0a; xd2; xc3; x0a; xd2; xc4; x0a;
  xd2; xc5; x0a; xd2; xc6; x0a; xd2; xc7;
  x0a; xd2; xc8; x0a; xd2; xc9; x0a; xd2;
  xca; x0a; xd2; xcb; x0a; xd2; xcc; x0a;
  xd2; xcd; x0a; xd2; xce; x0a; xd2; xcf;
  x0a; xd2; xd0; x0a; xd2; xd1; x0a; xd2;
  xd2; x0a; xd2; xd3; x0a; xd2; xd4; x0a;
  xd2; xd5; x0a; xd2; xd6; x0a; xd2; xd7;
  x0a; xd2; xd8; x0a; xd2; xd9; x0a; xd2;
  xda; x0a; xd2; xdb; x0a; xd2; xdc; x0a;
  xd2; xdd; x0a; xd2; xde; x0a; xd2; xdf;
  x0a; xd2; xe0; x0a; xd2; xe1; x0a; xd2;
  xe2; x0a; xd2; xe3; x0a; xd2; xe4; x0a
].
(* tests/test_data/whatwg/big5_whatwg_test_encode_out.txt, entries 35072..35327 *)
Definition big5_encode_out_137 : list byte := [
  xd2; xe5; x0a; xd2; xe6; x0a; xd2; xe7;
  x0a; xd2; xe8; x0a; xd2; xe9; x0a; xd2;
  xea; x0a; xd2; xeb; x0a; xd2; xec; x0a;
  xd2; xed; x0a; xd2; xee; x0a; xd2; xef;
  x0a; xd2; xf0; x0a; xd2; xf1; x0a; xd2;
  xf2; x0a; xd2; xf3; x0a; xd2; xf4; x0a;
  xd2; xf5; x0a; xd2; xf6; x0a; xd2; xf7;
  x0a; xd2; xf8; x0a; xd2; xf9; x0a; xd2;
  xfa; x0a; xd2; xfb; x0a; xd2; xfc; x0a;
  xd2; xfd; x0a; xd2; xfe; x0a; xd3; x40;
  x0a; xd3; x41; x0a; xd3; x42; x0a; xd3;
  x43; x0a; xd3; x44; x0a; xd3; x45; x0a;
  xd3; x46; x0a; xd3; x47; x0a; xd3; x48;
  x0a; xd3; x49; x0a; xd3; x4a; x0a; xd3;
  x4b; x0a; xd3; x4c; x0a; xd3; x4d; x0a;
  xd3; x4e; x0a; xd3; x4f; x0a; xd3; x50;
  x0a; xd3; x51; x0a; xd3; x52; x0a; xd3;
  x53; x0a; xd3; x54; x0a; xd3; x55; x0a;
  xd3; x56; x0a; xd3; x57; x0a; xd3; x58;
  x0a; xd3; x59; x0a; xd3; x5a; x0a; xd3;
  x5b; x0a; xd3; x5c; x0a; xd3; x5d; x0a;
  xd3; x5e; x0a; xd3; x5f; x0a; xd3; x60;
  x0a; xd3; x61; x0a; xd3; x62; x0a; xd3;
  x63; x0a; xd3; x64; x0a; xd3; x65; x0a;
  xd3; x66; x0a; xd3; x67; x0a; xd3; x68;
  x0a; xd3; x69; x0a; xd3; x6a; x0a; xd3;
  x6b; x0a; xd3; x6c; x0a; xd3; x6d; x0a;
  xd3; x6e; x0a; xd3; x6f; x0a; xd3; x70;
  x0a; xd3; x71; x0a; xd3; x72; x0a; xd3;
  x73; x0a; xd3; x74; x0a; xd3; x75; x0a;
  xd3; x76; x0a; xd3; x77; x0a; xd3; x78;
  x0a; xd3; x79; x0a; xd3; x7a; x0a; xd3
].
(* tests/test_data/whatwg/big5_whatwg_test_encode_out.txt, entries 35328..35583 *)
Definition big5_encode_out_138 : list byte := [
  x7b; x0a; xd3; x7c; x0a; xd3; x7d; x0a;
  xd3; x7e; x0a; xd3; xa1; x0a; xd3; xa2;
  x0a; xd3; xa3; x0a; xd3; xa4; x0a; xd3;
  xa5; x0a; xd3; xa6; x0a; xd3; xa7; x0a;
  xd3; xa8; x0a; xd3; xa9; x0a; xd3; xaa;
  x0a; xd3; xab; x0a; xd3; xac; x0a; xd3;
  xad; x0a; xd3; xae; x0a; xd3; xaf; x0a;
  xd3; xb0; x0a; xd3; xb1; x0a; xd3; xb2;
  x0a; xd3; xb3; x0a; xd3; xb4; x0a; xd3;
  xb5; x0a; xd3; xb6; x0a; xd3; xb7; x0a;
  xd3; xb8; x0a; xd3; xb9; x0a; xd3; xba;
  x0a; xd3; xbb; x0a; xd3; xbc; x0a; xd3;
  xbd; x0a; xd3; xbe; x0a; xd3; xbf; x0a;
  xd3; xc0; x0a; xd3; xc1; x0a; xd3; xc2;
  x0a; xd3; xc3; x0a; xd3; xc4; x0a; xd3;
  xc5; x0a; xd3; xc6; x0a; xd3; xc7; x0a;
  xd3; xc8; x0a; xd3; xc9; x0a; xd3; xca;
  x0a; xd3; xcb; x0a; xd3; xcc; x0a; xd3;
  xcd; x0a; xd3; xce; x0a; xd3; xcf; x0a;
  xd3; xd0; x0a; xd3; xd1; x0a; xd3; xd2;
  x0a; xd3; xd3; x0a; xd3; xd4; x0a; xd3;
  xd5; x0a; xd3; xd6; x0a; xd3; xd7; x0a;
  xd3; xd8; x0a; xd3; xd9; x0a; xd3; xda;
  x0a; xd3; xdb; x0a; xd3; xdc; x0a; xd3;
  xdd; x0a; xd3; xde; x0a; xd3; xdf; x0a;
  xd3; xe0; x0a; xd3; xe1; x0a; xd3; xe2;
  x0a; xd3; xe3; x0a; xd3; xe4; x0a; xd3;
  xe5; x0a; xd3; xe6; x0a; xd3; xe7; x0a;
  xd3; xe8; x0a; xd3; xe9; x0a; xd3; xea;
  x0a; xd3; xeb; x0a; xd3; xec; x0a; xd3;
  xed; x0a; xd3; xee; x0a; xd3; xef; x0a;
  xd3; xf0; x0a; xd3; xf1; x0a; xd3; xf2
].
(* tests/test_data/whatwg/big5_whatwg_test_encode_out.txt, entries 35584..35839 *)
Definition big5_encode_out_139 : list byte := [
  x0a; xd3; xf3; x0a; xd3; xf4; x0a; xd3;
  xf5; x0a; xd3; xf6; x0a; xd3; xf7; x0a;
  xd3; xf8; x0a; xd3; xf9; x0a; xd3; xfa;
  x0a; xd3; xfb; x0a; xd3; xfc; x0a; xd3;
  xfd; x0a; xd3; xfe; x0a; xd4; x40; x0a;
  xd4; x41; x0a; xd4; x42; x0a; xd4; x43;
  x0a; xd4; x44; x0a; xd4; x45; x0a; xd4;
  x46; x0a; xd4; x47; x0a; xd4; x48; x0a;
  xd4; x49; x0a; xd4; x4a; x0a; xd4; x4b;
  x0a; xd4; x4c; x0a; xd4; x4d; x0a; xd4;
  x4e; x0a; xd4; x4f; x0a; xd4; x50; x0a;
  xd4; x51; x0a; xd4; x52; x0a; xd4; x53;
  x0a; xd4; x54; x0a; xd4; x55; x0a; xd4;
  x56; x0a; xd4; x57; x0a; xd4; x58; x0a;
  xd4; x59; x0a; xd4; x5a; x0a; xd4; x5b;
  x0a; xd4; x5c; x0a; xd4; x5d; x0a; xd4;
  x5e; x0a; xd4; x5f; x0a; xd4; x60; x0a;
  xd4; x61; x0a; xd4; x62; x0a; xd4; x63;
  x0a; xd4; x64; x0a; xd4; x65; x0a; xd4;
  x66; x0a; xd4; x67; x0a; xd4; x68; x0a;
  xd4; x69; x0a; xd4; x6a; x0a; xd4; x6b;
  x0a; xd4; x6c; x0a; xd4; x6d; x0a; xd4;
  x6e; x0a; xd4; x6f; x0a; xd4; x70; x0a;
  xd4; x71; x0a; xd4; x72; x0a; xd4; x73;
  x0a; xd4; x74; x0a; xd4; x75; x0a; xd4;
  x76; x0a; xd4; x77; x0a; xd4; x78; x0a;
  xd4; x79; x0a; xd4; x7a; x0a; xd4; x7b;
  x0a; xd4; x7c; x0a; xd4; x7d; x0a; xd4;
  x7e; x0a; xd4; xa1; x0a; xd4; xa2; x0a;
  xd4; xa3; x0a; xd4; xa4; x0a; xd4; xa5;
  x0a; xd4; xa6; x0a; xd4; xa7; x0a; xd4;
  xa8; x0a; xd4; xa9; x0a; xd4; xaa; x0a
].
(* tests/test_data/whatwg/big5_whatwg_test_encode_out.txt, entries 35840..36095 *)
Definition big5_encode_out_140 : list byte := [
  xd4; xab; x0a; xd4; xac; x0a; xd4; xad;
  x0a; xd4; xae; x0a; xd4; xaf; x0a; xd4;
  xb0; x0a; xd4; xb1; x0a; xd4; xb2; x0a;
  xd4; xb3; x0a; xd4; xb4; x0a; xd4; xb5;
  x0a; xd4; xb6; x0a; xd4; xb7; x0a; xd4;
  xb8; x0a; xd4; xb9; x0a; xd4; xba; x0a;
  xd4; xbb; x0a; xd4; xbc; x0a; xd4; xbd;
  x0a; xd4; xbe; x0a; xd4; xbf; x0a; xd4;
  xc0; x0a; xd4; xc1; x0a; xd4; xc2; x0a;
  xd4; xc3; x0a; xd4; xc4; x0a; xd4; xc5;
  x0a; xd4; xc6; x0a; xd4; xc7; x0a; xd4;
  xc8; x0a; xd4; xc9; x0a; xd4; xca; x0a;
  xd4; xcb; x0a; xd4; xcc; x0a; xd4; xcd;
  x0a; xd4; xce; x0a; xd4; xcf; x0a; xd4;
  xd0; x0a; xd4; xd2; x0a; xd4; xd3; x0a;
  xd4; xd4; x0a; xd4; xd5; x0a; xd4; xd6;
  x0a; xd4; xd7; x0a; xd4; xd8; x0a; xd4;
  xd9; x0a; xd4; xda; x0a; xd4; xdb; x0a;
  xd4; xdc; x0a; xd4; xdd; x0a; xd4; xde;
  x0a; xd4; xdf; x0a; xd4; xe0; x0a; xd4;
  xe1; x0a; xd4; xe2; x0a; xd4; xe3; x0a;
  xd4; xe4; x0a; xd4; xe5; x0a; xd4; xe6;
  x0a; xd4; xe7; x0a; xd4; xe8; x0a; xd4;
  xe9; x0a; xd4; xea; x0a; xd4; xeb; x0a;
  xd4; xec; x0a; xd4; xed; x0a; xd4; xee;
  x0a; xd4; xef; x0a; xd4; xf0; x0a; xd4;
  xf1; x0a; xd4; xf2; x0a; xd4; xf3; x0a;
  xd4; xf4; x0a; xd4; xf5; x0a; xd4; xf6;
  x0a; xd4; xf7; x0a; xd4; xf8; x0a; xd4;
  xf9; x0a; xd4; xfa; x0a; xd4; xfb; x0a;
  xd4; xfc; x0a; xd4; xfd; x0a; xd4; xfe;
  x0a; xd5; x40; x0a; xd5; x41; x0a; xd5
].
(* tests/test_data/whatwg/big5_whatwg_test_encode_out.txt, entries 36096..36351 *)
Definition big5_encode_out_141 : list byte := [
  x42; x0a; xd5; x43; x0a; xd5; x44; x0a;
  xd5; x45; x0a; xd5; x46; x0a; xd5; x47;
  x0a; xd5; x48; x0a; xd5; x49; x0a; xd5;
  x4a; x0a; xd5; x4b; x0a; xd5; x4c; x0a;
  xd5; x4d; x0a; xd5; x4e; x0a; xd5; x4f;
  x0a; xd5; x50; x0a; xd5; x51; x0a; xd5;
  x52; x0a; xd5; x53; x0a; xd5; x54; x0a;
  xd5; x55; x0a; xd5; x56; x0a; xd5; x57;
  x0a; xd5; x58; x0a; xd5; x59; x0a; xd5;
  x5a; x0a; xd5; x5b; x0a; xd5; x5c; x0a;
  xd5; x5d; x0a; xd5; x5e; x0a; xd5; x5f;
  x0a; xd5; x60; x0a; xd5; x61; x0a; xd5;
  x62; x0a; xd5; x63; x0a; xd5; x64; x0a;
  xd5; x65; x0a; xd5; x66; x0a; xd5; x67;
  x0a; xd5; x68; x0a; xd5; x69; x0a; xd5;
  x6a; x0a; xd5; x6b; x0a; xd5; x6c; x0a;
  xd5; x6d; x0a; xd5; x6e; x0a; xd5; x6f;
  x0a; xd5; x70; x0a; xd5; x71; x0a; xd5;
  x72; x0a; xd5; x73; x0a; xd5; x74; x0a;
  xd5; x75; x0a; xd5; x76; x0a; xd5; x77;
  x0a; xd5; x78; x0a; xd5; x79; x0a; xd5;
  x7a; x0a; xd5; x7b; x0a; xd5; x7c; x0a;
  xd5; x7d; x0a; xd5; x7e; x0a; xd5; xa1;
  x0a; xd5; xa2; x0a; xd5; xa3; x0a; xd5;
  xa4; x0a; xd5; xa5; x0a; xd5; xa6; x0a;
  xd5; xa7; x0a; xd5; xa8; x0a; xd5; xa9;
  x0a; xd5; xaa; x0a; xd5; xab; x0a; xd5;
  xac; x0a; xd5; xad; x0a; xd5; xae; x0a;
  xd5; xaf; x0a; xd5; xb0; x0a; xd5; xb1;
  x0a; xd5; xb2; x0a; xd5; xb3; x0a; xd5;
  xb4; x0a; xd5; xb5; x0a; xd5; xb6; x0a;
  xd5; xb7; x0a; xd5; xb8; x0a; xd5; xb9
].
(* tests/test_data/whatwg/big5_whatwg_test_encode_out.txt, entries 36352..36607 *)
Definition big5_encode_out_142 : list byte := [
  x0a; xd5; xba; x0a; xd5; xbb; x0a; xd5;
  xbc; x0a; xd5; xbd; x0a; xd5; xbe; x0a;
  xd5; xbf; x0a; xd5; xc0; x0a; xd5; xc1;
  x0a; xd5; xc2; x0a; xd5; xc3; x0a; xd5;
  xc4; x0a; xd5; xc5; x0a; xd5; xc6; x0a;
  xd5; xc7; x0a; xd5; xc8; x0a; xd5; xc9;
  x0a; xd5; xca; x0a; xd5; xcb; x0a; xd5;
  xcc; x0a; xd5; xcd; x0a; xd5; xce; x0a;
  xd5; xcf; x0a; xd5; xd0; x0a; xd5; xd1;
  x0a; xd5; xd2; x0a; xd5; xd3; x0a; xd5;
  xd4; x0a; xd5; xd5; x0a; xd5; xd6; x0a;
  xd5; xd7; x0a; xd5; xd8; x0a; xd5; xd9;
  x0a; xd5; xda; x0a; xd5; xdb; x0a; xd5;
  xdc; x0a; xd5; xdd; x0a; xd5; xde; x0a;
  xd5; xdf; x0a; xd5; xe0; x0a; xd5; xe1;
  x0a; xd5; xe2; x0a; xd5; xe3; x0a; xd5;
  xe4; x0a; xd5; xe5; x0a; xd5; xe6; x0a;
  xd5; xe7; x0a; xd5; xe8; x0a; xd5; xe9;
  x0a; xd5; xea; x0a; xd5; xeb; x0a; xd5;
  xec; x0a; xd5; xed; x0a; xd5; xee; x0a;
  xd5; xef; x0a; xd5; xf0; x0a; xd5; xf1;
  x0a; xd5; xf2; x0a; xd5; xf3; x0a; xd5;
  xf4; x0a; xd5; xf5; x0a; xd5; xf6; x0a;
  xd5; xf7; x0a; xd5; xf8; x0a; xd5; xf9;
  x0a; xd5; xfa; x0a; xd5; xfb; x0a; xd5;
  xfc; x0a; xd5; xfd; x0a; xd5; xfe; x0a;
  xd6; x40; x0a; xd6; x41; x0a; xd6; x42;
  x0a; xd6; x43; x0a; xd6; x44; x0a; xd6;
  x45; x0a; xd6; x46; x0a; xd6; x47; x0a;
  xd6; x48; x0a; xd6; x49; x0a; xd6; x4a;
  x0a; xd6; x4b; x0a; xd6; x4c; x0a; xd6;
  x4d; x0a; xd6; x4e; x0a; xd6; x4f; x0a
].
(* tests/test_data/whatwg/big5_whatwg_test_encode_out.txt, entries 36608..36863 *)
Definition big5_encode_out_143 : list byte := [
  xd6; x50; x0a; xd6; x51; x0a; xd6; x52;
  x0a; xd6; x53; x0a; xd6; x54; x0a; xd6;
  x55; x0a; xd6; x56; x0a; xd6; x57; x0a;
  xd6; x58; x0a; xd6; x59; x0a; xd6; x5a;
  x0a; xd6; x5b; x0a; xd6; x5c; x0a; xd6;
  x5d; x0a; xd6; x5e; x0a; xd6; x5f; x0a;
  xd6; x60; x0a; xd6; x61; x0a; xd6; x62;
  x0a; xd6; x63; x0a; xd6; x64; x0a; xd6;
  x65; x0a; xd6; x66; x0a; xd6; x67; x0a;
  xd6; x68; x0a; xd6; x69; x0a; xd6; x6a;
  x0a; xd6; x6b; x0a; xd6; x6c; x0a; xd6;
  x6d; x0a; xd6; x6e; x0a; xd6; x6f; x0a;
  xd6; x70; x0a; xd6; x71; x0a; xd6; x72;
  x0a; xd6; x73; x0a; xd6; x74; x0a; xd6;
  x75; x0a; xd6; x76; x0a; xd6; x77; x0a;
  xd6; x78; x0a; xd6; x79; x0a; xd6; x7a;
  x0a; xd6; x7b; x0a; xd6; x7c; x0a; xd6;
  x7d; x0a; xd6; x7e; x0a; xd6; xa1; x0a;
  xd6; xa2; x0a; xd6; xa3; x0a; xd6; xa4;
  x0a; xd6; xa5; x0a; xd6; xa6; x0a; xd6;
  xa7; x0a; xd6; xa8; x0a; xd6; xa9; x0a;
  xd6; xaa; x0a; xd6; xab; x0a; xd6; xac;
  x0a; xd6; xad; x0a; xd6; xae; x0a; xd6;
  xaf; x0a; xd6; xb0; x0a; xd6; xb1; x0a;
  xd6; xb2; x0a; xd6; xb3; x0a; xd6; xb4;
  x0a; xd6; xb5; x0a; xd6; xb6; x0a; xd6;
  xb7; x0a; xd6; xb8; x0a; xd6; xb9; x0a;
  xd6; xba; x0a; xd6; xbb; x0a; xd6; xbc;
  x0a; xd6; xbd; x0a; xd6; xbe; x0a; xd6;
  xbf; x0a; xd6; xc0; x0a; xd6; xc1; x0a;
  xd6; xc2; x0a; xd6; xc3; x0a; xd6; xc4;
  x0a; xd6; xc5; x0a; xd6; xc6; x0a; xd6
].
(* tests/test_data/whatwg/big5_whatwg_test_encode_out.txt, entries 36864..37119 *)
Definition big5_encode_out_144 : list byte := [
  xc7; x0a; xd6; xc8; x0a; xd6; xc9; x0a;
  xd6; xca; x0a; xd6; xcb; x0a; xd6; xcc;
  x0a; xd6; xcd; x0a; xd6; xce; x0a; xd6;
  xcf; x0a; xd6; xd0; x0a; xd6; xd1; x0a;
  xd6; xd2; x0a; xd6; xd3; x0a; xd6; xd4;
  x0a; xd6; xd5; x0a; xd6; xd6; x0a; xd6;
  xd7; x0a; xd6; xd8; x0a; xd6; xd9; x0a;
  xd6; xda; x0a; xd6; xdb; x0a; xd6; xdc;
  x0a; xd6; xdd; x0a; xd6; xde; x0a; xd6;
  xdf; x0a; xd6; xe0; x0a; xd6; xe1; x0a;
  xd6; xe2; x0a; xd6; xe3; x0a; xd6; xe4;
  x0a; xd6; xe5; x0a; xd6; xe6; x0a; xd6;
  xe7; x0a; xd6; xe8; x0a; xd6; xe9; x0a;
  xd6; xea; x0a; xd6; xeb; x0a; xd6; xec;
  x0a; xd6; xed; x0a; xd6; xee; x0a; xd6;
  xef; x0a; xd6; xf0; x0a; xd6; xf1; x0a;
  xd6; xf2; x0a; xd6; xf3; x0a; xd6; xf4;
  x0a; xd6; xf5; x0a; xd6; xf6; x0a; xd6;
  xf7; x0a; xd6; xf8; x0a; xd6; xf9; x0a;
  xd6; xfa; x0a; xd6; xfb; x0a; xd6; xfc;
  x0a; xd6; xfd; x0a; xd6; xfe; x0a; xd7;
  x40; x0a; xd7; x41; x0a; xd7; x42; x0a;
  xd7; x43; x0a; xd7; x44; x0a; xd7; x45;
  x0a; xd7; x46; x0a; xd7; x47; x0a; xd7;
  x48; x0a; xd7; x49; x0a; xd7; x4a; x0a;
  xd7; x4b; x0a; xd7; x4c; x0a; xd7; x4d;
  x0a; xd7; x4e; x0a; xd7; x4f; x0a; xd7;
  x50; x0a; xd7; x51; x0a; xd7; x52; x0a;
  xd7; x53; x0a; xd7; x54; x0a; xd7; x55;
  x0a; xd7; x56; x0a; xd7; x57; x0a; xd7;
  x58; x0a; xd7; x59; x0a; xd7; x5a; x0a;
  xd7; x5b; x0a; xd7; x5c; x0a; xd7; x5d
].
(* tests/test_data/whatwg/big5_whatwg_test_encode_out.txt, entries 37120..37375 *)
Definition big5_encode_out_145 : list byte := [
  x0a; xd7; x5e; x0a; xd7; x5f; x0a; xd7;
  x60; x0a; xd7; x61; x0a; xd7; x62; x0a;
  xd7; x63; x0a; xd7; x64; x0a; xd7; x65;
  x0a; xd7; x66; x0a; xd7; x67; x0a; xd7;
  x68; x0a; xd7; x69; x0a; xd7; x6a; x0a;
  xd7; x6b; x0a; xd7; x6c; x0a; xd7; x6d;
  x0a; xd7; x6e; x0a; xd7; x6f; x0a; xd7;
  x70; x0a; xd7; x71; x0a; xd7; x72; x0a;
  xd7; x73; x0a; xd7; x74; x0a; xd7; x75;
  x0a; xd7; x76; x0a; xd7; x77; x0a; xd7;
  x78; x0a; xd7; x79; x0a; xd7; x7a; x0a;
  xd7; x7b; x0a; xd7; x7c; x0a; xd7; x7d;
  x0a; xd7; x7e; x0a; xd7; xa1; x0a; xd7;
  xa2; x0a; xd7; xa3; x0a; xd7; xa4; x0a;
  xd7; xa5; x0a; xd7; xa6; x0a; xd7; xa7;
  x0a; xd7; xa8; x0a; xd7; xa9; x0a; xd7;
  xaa; x0a; xd7; xab; x0a; xd7; xac; x0a;
  xd7; xad; x0a; xd7; xae; x0a; xd7; xaf;
  x0a; xd7; xb0; x0a; xd7; xb1; x0a; xd7;
  xb2; x0a; xd7; xb3; x0a; xd7; xb4; x0a;
  xd7; xb5; x0a; xd7; xb6; x0a; xd7; xb7;
  x0a; xd7; xb8; x0a; xd7; xb9; x0a; xd7;
  xba; x0a; xd7; xbb; x0a; xd7; xbc; x0a;
  xd7; xbd; x0a; xd7; xbe; x0a; xd7; xbf;
  x0a; xd7; xc0; x0a; xd7; xc1; x0a; xd7;
  xc2; x0a; xd7; xc3; x0a; xd7; xc4; x0a;
  xd7; xc5; x0a; xd7; xc6; x0a; xd7; xc7;
  x0a; xd7; xc8; x0a; xd7; xc9; x0a; xd7;
  xca; x0a; xd7; xcb; x0a; xd7; xcc; x0a;
  xd7; xcd; x0a; xd7; xce; x0a; xd7; xcf;
  x0a; xd7; xd0; x0a; xd7; xd1; x0a; xd7;
  xd2; x0a; xd7; xd3; x0a; xd7; xd4; x0a
].
(* tests/test_data/whatwg/big5_whatwg_test_encode_out.txt, entries 37376..37631 *)
Definition big5_encode_out_146 : list byte := [
  xd7; xd5; x0a; xd7; xd6; x0a; xd7; xd7;
  x0a; xd7; xd8; x0a; xd7; xd9; x0a; xd7;
  xda; x0a; xd7; xdb; x0a; xd7; xdc; x0a;
  xd7; xdd; x0a; xd7; xde; x0a; xd7; xdf;
  x0a; xd7; xe0; x0a; xd7; xe1; x0a; xd7;
  xe2; x0a; xd7; xe3; x0a; xd7; xe4; x0a;
  xd7; xe5; x0a; xd7; xe6; x0a; xd7; xe7;
  x0a; xd7; xe8; x0a; xd7; xe9; x0a; xd7;
  xea; x0a; xd7; xeb; x0a; xd7; xec; x0a;
  xd7; xed; x0a; xd7; xee; x0a; xd7; xef;
  x0a; xd7; xf0; x0a; xd7; xf1; x0a; xd7;
  xf2; x0a; xd7; xf3; x0a; xd7; xf4; x0a;
  xd7; xf5; x0a; xd7; xf6; x0a; xd7; xf7;
  x0a; xd7; xf8; x0a; xd7; xf9; x0a; xd7;
  xfa; x0a; xd7; xfb; x0a; xd7; xfc; x0a;
  xd7; xfd; x0a; xd7; xfe; x0a; xd8; x40;
  x0a; xd8; x41; x0a; xd8; x42; x0a; xd8;
  x43; x0a; xd8; x44; x0a; xd8; x45; x0a;
  xd8; x46; x0a; xd8; x47; x0a; xd8; x48;
  x0a; xd8; x49; x0a; xd8; x4a; x0a; xd8;
  x4b; x0a; xd8; x4c; x0a; xd8; x4d; x0a;
  xd8; x4e; x0a; xd8; x4f; x0a; xd8; x50;
  x0a; xd8; x51; x0a; xd8; x52; x0a; xd8;
  x53; x0a; xd8; x54; x0a; xd8; x55; x0a;
  xd8; x56; x0a; xd8; x57; x0a; xd8; x58;
  x0a; xd8; x59; x0a; xd8; x5a; x0a; xd8;
  x5b; x0a; xd8; x5c; x0a; xd8; x5d; x0a;
  xd8; x5e; x0a; xd8; x5f; x0a; xd8; x60;
  x0a; xd8; x61; x0a; xd8; x62; x0a; xd8;
  x63; x0a; xd8; x64; x0a; xd8; x65; x0a;
  xd8; x66; x0a; xd8; x67; x0a; xd8; x68;
  x0a; xd8; x69; x0a; xd8; x6a; x0a; xd8
].
(* tests/test_data/whatwg/big5_whatwg_test_encode_out.txt, entries 37632..37887 *)
Definition big5_encode_out_147 : list byte := [
  x6b; x0a; xd8; x6c; x0a; xd8; x6d; x0a;
  xd8; x6e; x0a; xd8; x6f; x0a; xd8; x70;
  x0a; xd8; x71; x0a; xd8; x72; x0a; xd8;
  x73; x0a; xd8; x74; x0a; xd8; x75; x0a;
  xd8; x76; x0a; xd8; x77; x0a; xd8; x78;
  x0a; xd8; x79; x0a; xd8; x7a; x0a; xd8;
  x7b; x0a; xd8; x7c; x0a; xd8; x7d; x0a;
  xd8; x7e; x0a; xd8; xa1; x0a; xd8; xa2;
  x0a; xd8; xa3; x0a; xd8; xa4; x0a; xd8;
  xa5; x0a; xd8; xa6; x0a; xd8; xa7; x0a;
  xd8; xa8; x0a; xd8; xa9; x0a; xd8; xaa;
  x0a; xd8; xab; x0a; xd8; xac; x0a; xd8;
  xad; x0a; xd8; xae; x0a; xd8; xaf; x0a;
  xd8; xb0; x0a; xd8; xb1; x0a; xd8; xb2;
  x0a; xd8; xb3; x0a; xd8; xb4; x0a; xd8;
  xb5; x0a; xd8; xb6; x0a; xd8; xb7; x0a;
  xd8; xb8; x0a; xd8; xb9; x0a; xd8; xba;
  x0a; xd8; xbb; x0a; xd8; xbc; x0a; xd8;
  xbd; x0a; xd8; xbe; x0a; xd8; xbf; x0a;
  xd8; xc0; x0a; xd8; xc1; x0a; xd8; xc2;
  x0a; xd8; xc3; x0a; xd8; xc4; x0a; xd8;
  xc5; x0a; xd8; xc6; x0a; xd8; xc7; x0a;
  xd8; xc8; x0a; xd8; xc9; x0a; xd8; xca;
  x0a; xd8; xcb; x0a; xd8; xcc; x0a; xd8;
  xcd; x0a; xd8; xce; x0a; xd8; xcf; x0a;
  xd8; xd0; x0a; xd8; xd1; x0a; xd8; xd2;
  x0a; xd8; xd3; x0a; xd8; xd4; x0a; xd8;
  xd5; x0a; xd8; xd6; x0a; xd8; xd7; x0a;
  xd8; xd8; x0a; xd8; xd9; x0a; xd8; xda;
  x0a; xd8; xdb; x0a; xd8; xdc; x0a; xd8;
  xdd; x0a; xd8; xde; x0a; xd8; xdf; x0a;
  xd8; xe0; x0a; xd8; xe1; x0a; xd8; xe2
].
(* tests/test_data/whatwg/big5_whatwg_test_encode_out.txt, entries 37888..38143 *)
Definition big5_encode_out_148 : list byte := [
  x0a; xd8; xe3; x0a; xd8; xe4; x0a; xd8;
  xe5; x0a; xd8; xe6; x0a; xd8; xe7; x0a;
  xd8; xe8; x0a; xd8; xe9; x0a; xd8; xea;
  x0a; xd8; xeb; x0a; xd8; xec; x0a; xd8;
  xed; x0a; xd8; xee; x0a; xd8; xef; x0a;
  xd8; xf0; x0a; xd8; xf1; x0a; xd8; xf2;
  x0a; xd8; xf3; x0a; xd8; xf4; x0a; xd8;
  xf5; x0a; xd8; xf6; x0a; xd8; xf7; x0a;
  xd8; xf8; x0a; xd8; xf9; x0a; xd8; xfa;
  x0a; xd8; xfb; x0a; xd8; xfc; x0a; xd8;
  xfd; x0a; xd8; xfe; x0a; xd9; x40; x0a;
  xd9; x41; x0a; xd9; x42; x0a; xd9; x43;
  x0a; xd9; x44; x0a; xd9; x45; x0a; xd9;
  x46; x0a; xd9; x47; x0a; xd9; x48; x0a;
  xd9; x49; x0a; xd9; x4a; x0a; xd9; x4b;
  x0a; xd9; x4c; x0a; xd9; x4d; x0a; xd9;
  x4e; x0a; xd9; x4f; x0a; xd9; x50; x0a;
  xd9; x51; x0a; xd9; x52; x0a; xd9; x53;
  x0a; xd9; x54; x0a; xd9; x55; x0a; xd9;
  x56; x0a; xd9; x57; x0a; xd9; x58; x0a;
  xd9; x59; x0a; xd9; x5a; x0a; xd9; x5b;
  x0a; xd9; x5c; x0a; xd9; x5d; x0a; xd9;
  x5e; x0a; xd9; x5f; x0a; xd9; x60; x0a;
  xd9; x61; x0a; xd9; x62; x0a; xd9; x63;
  x0a; xd9; x64; x0a; xd9; x65; x0a; xd9;
  x66; x0a; xd9; x67; x0a; xd9; x68; x0a;
  xd9; x69; x0a; xd9; x6a; x0a; xd9; x6b;
  x0a; xd9; x6c; x0a; xd9; x6d; x0a; xd9;
  x6e; x0a; xd9; x6f; x0a; xd9; x70; x0a;
  xd9; x71; x0a; xd9; x72; x0a; xd9; x73;
  x0a; xd9; x74; x0a; xd9; x75; x0a; xd9;
  x76; x0a; xd9; x77; x0a; xd9; x78; x0a
].
(* tests/test_data/whatwg/big5_whatwg_test_encode_out.txt, entries 38144..38399 *)
Definition big5_encode_out_149 : list byte := [
  xd9; x79; x0a; xd9; x7a; x0a; xd9; x7b;
  x0a; xd9; x7c; x0a; xd9; x7d; x0a; xd9;
  x7e; x0a; xd9; xa1; x0a; xd9; xa2; x0a;
  xd9; xa3; x0a; xd9; xa4; x0a; xd9; xa5;
  x0a; xd9; xa6; x0a; xd9; xa7; x0a; xd9;
  xa8; x0a; xd9; xa9; x0a; xd9; xaa; x0a;
  xd9; xab; x0a; xd9; xac; x0a; xd9; xad;
  x0a; xd9; xae; x0a; xd9; xaf; x0a; xd9;
  xb0; x0a; xd9; xb1; x0a; xd9; xb2; x0a;
  xd9; xb3; x0a; xd9; xb4; x0a; xd9; xb5;
  x0a; xd9; xb6; x0a; xd9; xb7; x0a; xd9;
  xb8; x0a; xd9; xb9; x0a; xd9; xba; x0a;
  xd9; xbb; x0a; xd9; xbc; x0a; xd9; xbd;
  x0a; xd9; xbe; x0a; xd9; xbf; x0a; xd9;
  xc0; x0a; xd9; xc1; x0a; xd9; xc2; x0a;
  xd9; xc3; x0a; xd9; xc4; x0a; xd9; xc5;
  x0a; xd9; xc6; x0a; xd9; xc7; x0a; xd9;
  xc8; x0a; xd9; xc9; x0a; xd9; xca; x0a;
  xd9; xcb; x0a; xd9; xcc; x0a; xd9; xcd;
  x0a; xd9; xce; x0a; xd9; xcf; x0a; xd9;
  xd0; x0a; xd9; xd1; x0a; xd9; xd2; x0a;
  xd9; xd3; x0a; xd9; xd4; x0a; xd9; xd5;
  x0a; xd9; xd6; x0a; xd9; xd7; x0a; xd9;
  xd8; x0a; xd9; xd9; x0a; xd9; xda; x0a;
  xd9; xdb; x0a; xd9; xdc; x0a; xd9; xdd;
  x0a; xd9; xde; x0a; xd9; xdf; x0a; xd9;
  xe0; x0a; xd9; xe1; x0a; xd9; xe2; x0a;
  xd9; xe3; x0a; xd9; xe4; x0a; xd9; xe5;
  x0a; xd9; xe6; x0a; xd9; xe7; x0a; xd9;
  xe8; x0a; xd9; xe9; x0a; xd9; xea; x0a;
  xd9; xeb; x0a; xd9; xec; x0a; xd9; xed;
  x0a; xd9; xee; x0a; xd9; xef; x0a; xd9
].
(* tests/test_data/whatwg/big5_whatwg_test_encode_out.txt, entries 38400..38655 *)
Definition big5_encode_out_150 : list byte := [
  xf0; x0a; xd9; xf1; x0a; xd9; xf2; x0a;
  xd9; xf3; x0a; xd9; xf4; x0a; xd9; xf5;
  x0a; xd9; xf6; x0a; xd9; xf7; x0a; xd9;
  xf8; x0a; xd9; xf9; x0a; xd9; xfa; x0a;
  xd9; xfb; x0a; xd9; xfc; x0a; xd9; xfd;
  x0a; xd9; xfe; x0a; xda; x40; x0a; xda;
  x41; x0a; xda; x42; x0a; xda; x43; x0a;
  xda; x44; x0a; xda; x45; x0a; xda; x46;
  x0a; xda; x47; x0a; xda; x48; x0a; xda;
  x49; x0a; xda; x4a; x0a; xda; x4b; x0a;
  xda; x4c; x0a; xda; x4d; x0a; xda; x4e;
  x0a; xda; x4f; x0a; xda; x50; x0a; xda;
  x51; x0a; xda; x52; x0a; xda; x53; x0a;
  xda; x54; x0a; xda; x55; x0a; xda; x56;
  x0a; xda; x57; x0a; xda; x58; x0a; xda;
  x59; x0a; xda; x5a; x0a; xda; x5b; x0a;
  xda; x5c; x0a; xda; x5d; x0a; xda; x5e;
  x0a; xda; x5f; x0a; xda; x60; x0a; xda;
  x61; x0a; xda; x62; x0a; xda; x63; x0a;
  xda; x64; x0a; xda; x65; x0a; xda; x66;
  x0a; xda; x67; x0a; xda; x68; x0a; xda;
  x69; x0a; xda; x6a; x0a; xda; x6b; x0a;
  xda; x6c; x0a; xda; x6d; x0a; xda; x6e;
  x0a; xda; x6f; x0a; xda; x70; x0a; xda;
  x71; x0a; xda; x72; x0a; xda; x73; x0a;
  xda; x74; x0a; xda; x75; x0a; xda; x76;
  x0a; xda; x77; x0a; xda; x78; x0a; xda;
  x79; x0a; xda; x7a; x0a; xda; x7b; x0a;
  xda; x7c; x0a; xda; x7d; x0a; xda; x7e;
  x0a; xda; xa1; x0a; xda; xa2; x0a; xda;
  xa3; x0a; xda; xa4; x0a; xda; xa5; x0a;
  xda; xa6; x0a; xda; xa7; x0a; xda; xa8
].
(* tests/test_data/whatwg/big5_whatwg_test_encode_out.txt, entries 38656..38911 *)
Definition big5_encode_out_151 : list byte := [
  x0a; xda; xa9; x0a; xda; xaa; x0a; xda;
  xab; x0a; xda; xac; x0a; xda; xad; x0a;
  xda; xae; x0a; xda; xaf; x0a; xda; xb0;
  x0a; xda; xb1; x0a; xda; xb2; x0a; xda;
  xb3; x0a; xda; xb4; x0a; xda; xb5; x0a;
  xda; xb6; x0a; xda; xb7; x0a; xda; xb8;
  x0a; xda; xb9; x0a; xda; xba; x0a; xda;
  xbb; x0a; xda; xbc; x0a; xda; xbd; x0a;
  xda; xbe; x0a; xda; xbf; x0a; xda; xc0;
  x0a; xda; xc1; x0a; xda; xc2; x0a; xda;
  xc3; x0a; xda; xc4; x0a; xda; xc5; x0a;
  xda; xc6; x0a; xda; xc7; x0a; xda; xc8;
  x0a; xda; xc9; x0a; xda; xca; x0a; xda;
  xcb; x0a; xda; xcc; x0a; xda; xcd; x0a;
  xda; xce; x0a; xda; xcf; x0a; xda; xd0;
  x0a; xda; xd1; x0a; xda; xd2; x0a; xda;
  xd3; x0a; xda; xd4; x0a; xda; xd5; x0a;
  xda; xd6; x0a; xda; xd7; x0a; xda; xd8;
  x0a; xda; xd9; x0a; xda; xda; x0a; xda;
  xdb; x0a; xda; xdc; x0a; xda; xdd; x0a;
  xda; xde; x0a; xda; xdf; x0a; xda; xe0;
  x0a; xda; xe1; x0a; xda; xe2; x0a; xda;
  xe3; x0a; xda; xe4; x0a; xda; xe5; x0a;
  xda; xe6; x0a; xda; xe7; x0a; xda; xe8;
  x0a; xda; xe9; x0a; xda; xea; x0a; xda;
  xeb; x0a; xda; xec; x0a; xda; xed; x0a;
  xda; xee; x0a; xda; xef; x0a; xda; xf0;
  x0a; xda; xf1; x0a; xda; xf2; x0a; xda;
  xf3; x0a; xda; xf4; x0a; xda; xf5; x0a;
  xda; xf6; x0a; xda; xf7; x0a; xda; xf8;
  x0a; xda; xf9; x0a; xda; xfa; x0a; xda;
  xfb; x0a; xda; xfc; x0a; xda; xfd; x0a
].
(* tests/test_data/whatwg/big5_whatwg_test_encode_out.txt, entries 38912..39167 *)
Definition big5_encode_out_152 : list byte := [
  xda; xfe; x0a; xdb; x40; x0a; xdb; x41;
  x0a; xdb; x42; x0a; xdb; x43; x0a; xdb;
  x44; x0a; xdb; x45; x0a; xdb; x46; x0a;
  xdb; x47; x0a; xdb; x48; x0a; xdb; x49;
  x0a; xdb; x4a; x0a; xdb; x4b; x0a; xdb;
  x4c; x0a; xdb; x4d; x0a; xdb; x4e; x0a;
  xdb; x4f; x0a; xdb; x50; x0a; xdb; x51;
  x0a; xdb; x52; x0a; xdb; x53; x0a; xdb;
  x54; x0a; xdb; x55; x0a; xdb; x56; x0a;
  xdb; x57; x0a; xdb; x58; x0a; xdb; x59;
  x0a; xdb; x5a; x0a; xdb; x5b; x0a; xdb;
  x5c; x0a; xdb; x5e; x0a; xdb; x5f; x0a;
  xdb; x60; x0a; xdb; x61; x0a; xdb; x62;
  x0a; xdb; x63; x0a; xdb; x64; x0a; xdb;
  x65; x0a; xdb; x66; x0a; xdb; x67; x0a;
  xdb; x68; x0a; xdb; x69; x0a; xdb; x6a;
  x0a; xdb; x6b; x0a; xdb; x6c; x0a; xdb;
  x6d; x0a; xdb; x6e; x0a; xdb; x6f; x0a;
  xdb; x70; x0a; xdb; x71; x0a; xdb; x72;
  x0a; xdb; x73; x0a; xdb; x74; x0a; xdb;
  x75; x0a; xdb; x76; x0a; xdb; x77; x0a;
  xdb; x78; x0a; xdb; x7a; x0a; xdb; x7b;
  x0a; xdb; x7c; x0a; xdb; x7d; x0a; xdb;
  x7e; x0a; xdb; xa1; x0a; xdb; xa2; x0a;
  xdb; xa3; x0a; xdb; xa4; x0a; xdb; xa5;
  x0a; xdb; xa6; x0a; xdb; xa7; x0a; xdb;
  xa8; x0a; xdb; xa9; x0a; xdb; xaa; x0a;
  xdb; xab; x0a; xdb; xac; x0a; xdb; xad;
  x0a; xdb; xae; x0a; xdb; xaf; x0a; xdb;
  xb0; x0a; xdb; xb1; x0a; xdb; xb2; x0a;
  xdb; xb3; x0a; xdb; xb4; x0a; xdb; xb5;
  x0a; xdb; xb6; x0a; xdb; xb7; x0a; xdb
].
(* tests/test_data/whatwg/big5_whatwg_test_encode_out.txt, entries 39168..39423 *)
Definition big5_encode_out_153 : list byte := [
  xb8; x0a; xdb; xb9; x0a; xdb; xba; x0a;
  xdb; xbb; x0a; xdb; xbc; x0a; xdb; xbd;
  x0a; xdb; xbe; x0a; xdb; xbf; x0a; xdb;
  xc0; x0a; xdb; xc1; x0a; xdb; xc2; x0a;
  xdb; xc3; x0a; xdb; xc4; x0a; xdb; xc5;
  x0a; xdb; xc6; x0a; xdb; xc7; x0a; xdb;
  xc8; x0a; xdb; xc9; x0a; xdb; xca; x0a;
  xdb; xcb; x0a; xdb; xcc; x0a; xdb; xcd;
  x0a; xdb; xce; x0a; xdb; xcf; x0a; xdb;
  xd0; x0a; xdb; xd1; x0a; xdb; xd2; x0a;
  xdb; xd3; x0a; xdb; xd4; x0a; xdb; xd5;
  x0a; xdb; xd6; x0a; xdb; xd7; x0a; xdb;
  xd8; x0a; xdb; xd9; x0a; xdb; xda; x0a;
  xdb; xdb; x0a; xdb; xdc; x0a; xdb; xdd;
  x0a; xdb; xde; x0a; xdb; xdf; x0a; xdb;
  xe0; x0a; xdb; xe1; x0a; xdb; xe2; x0a;
  xdb; xe3; x0a; xdb; xe4; x0a; xdb; xe5;
  x0a; xdb; xe6; x0a; xdb; xe7; x0a; xdb;
  xe8; x0a; xdb; xe9; x0a; xdb; xea; x0a;
  xdb; xeb; x0a; xdb; xec; x0a; xdb; xed;
  x0a; xdb; xee; x0a; xdb; xef; x0a; xdb;
  xf0; x0a; xdb; xf1; x0a; xdb; xf2; x0a;
  xdb; xf3; x0a; xdb; xf4; x0a; xdb; xf5;
  x0a; xdb; xf6; x0a; xdb; xf7; x0a; xdb;
  xf8; x0a; xdb; xf9; x0a; xdb; xfa; x0a;
  xdb; xfb; x0a; xdb; xfc; x0a; xdb; xfd;
  x0a; xdb; xfe; x0a; xdc; x40; x0a; xdc;
  x41; x0a; xdc; x42; x0a; xdc; x43; x0a;
  xdc; x44; x0a; xdc; x45; x0a; xdc; x46;
  x0a; xdc; x47; x0a; xdc; x48; x0a; xdc;
  x49; x0a; xdc; x4a; x0a; xdc; x4b; x0a;
  xdc; x4c; x0a; xdc; x4d; x0a; xdc; x4e
].
(* tests/test_data/whatwg/big5_whatwg_test_encode_out.txt, entries 39424..39679 *)
Definition big5_encode_out_154 : list byte := [
  x0a; xdc; x4f; x0a; xdc; x50; x0a; xdc;
  x51; x0a; xdc; x53; x0a; xdc; x54; x0a;
  xdc; x55; x0a; xdc; x56; x0a; xdc; x57;
  x0a; xdc; x58; x0a; xdc; x59; x0a; xdc;
  x5a; x0a; xdc; x5b; x0a; xdc; x5c; x0a;
  xdc; x5d; x0a; xdc; x5e; x0a; xdc; x5f;
  x0a; xdc; x60; x0a; xdc; x61; x0a; xdc;
  x62; x0a; xdc; x63; x0a; xdc; x64; x0a;
  xdc; x65; x0a; xdc; x66; x0a; xdc; x67;
  x0a; xdc; x68; x0a; xdc; x69; x0a; xdc;
  x6a; x0a; xdc; x6b; x0a; xdc; x6c; x0a;
  xdc; x6d; x0a; xdc; x6e; x0a; xdc; x6f;
  x0a; xdc; x70; x0a; xdc; x71; x0a; xdc;
  x72; x0a; xdc; x73; x0a; xdc; x74; x0a;
  xdc; x75; x0a; xdc; x76; x0a; xdc; x77;
  x0a; xdc; x78; x0a; xdc; x79; x0a; xdc;
  x7a; x0a; xdc; x7b; x0a; xdc; x7c; x0a;
  xdc; x7d; x0a; xdc; x7e; x0a; xdc; xa1;
  x0a; xdc; xa2; x0a; xdc; xa3; x0a; xdc;
  xa4; x0a; xdc; xa5; x0a; xdc; xa6; x0a;
  xdc; xa7; x0a; xdc; xa8; x0a; xdc; xa9;
  x0a; xdc; xaa; x0a; xdc; xab; x0a; xdc;
  xac; x0a; xdc; xad; x0a; xdc; xae; x0a;
  xdc; xaf; x0a; xdc; xb0; x0a; xdc; xb1;
  x0a; xdc; xb2; x0a; xdc; xb3; x0a; xdc;
  xb4; x0a; xdc; xb5; x0a; xdc; xb6; x0a;
  xdc; xb7; x0a; xdc; xb8; x0a; xdc; xb9;
  x0a; xdc; xba; x0a; xdc; xbb; x0a; xdc;
  xbc; x0a; xdc; xbd; x0a; xdc; xbe; x0a;
  xdc; xbf; x0a; xdc; xc0; x0a; xdc; xc1;
  x0a; xdc; xc2; x0a; xdc; xc3; x0a; xdc;
  xc4; x0a; xdc; xc5; x0a; xdc; xc6; x0a
].
(* tests/test_data/whatwg/big5_whatwg_test_encode_out.txt, entries 39680..39935 *)
Definition big5_encode_out_155 : list byte := [
  xdc; xc7; x0a; xdc; xc8; x0a; xdc; xc9;
  x0a; xdc; xca; x0a; xdc; xcb; x0a; xdc;
  xcc; x0a; xdc; xcd; x0a; xdc; xce; x0a;
  xdc; xcf; x0a; xdc; xd0; x0a; xdc; xd1;
  x0a; xdc; xd2; x0a; xdc; xd3; x0a; xdc;
  xd4; x0a; xdc; xd5; x0a; xdc; xd6; x0a;
  xdc; xd7; x0a; xdc; xd8; x0a; xdc; xd9;
  x0a; xdc; xda; x0a; xdc; xdb; x0a; xdc;
  xdc; x0a; xdc; xdd; x0a; xdc; xde; x0a;
  xdc; xdf; x0a; xdc; xe0; x0a; xdc; xe1;
  x0a; xdc; xe2; x0a; xdc; xe3; x0a; xdc;
  xe4; x0a; xdc; xe5; x0a; xdc; xe6; x0a;
  xdc; xe7; x0a; xdc; xe8; x0a; xdc; xe9;
  x0a; xdc; xea; x0a; xdc; xeb; x0a; xdc;
  xec; x0a; xdc; xed; x0a; xdc; xee; x0a;
  xdc; xef; x0a; xdc; xf0; x0a; xdc; xf1;
  x0a; xdc; xf2; x0a; xdc; xf3; x0a; xdc;
  xf4; x0a; xdc; xf5; x0a; xdc; xf6; x0a;
  xdc; xf7; x0a; xdc; xf8; x0a; xdc; xf9;
  x0a; xdc; xfa; x0a; xdc; xfb; x0a; xdc;
  xfc; x0a; xdc; xfd; x0a; xdc; xfe; x0a;
  xdd; x40; x0a; xdd; x41; x0a; xdd; x42;
  x0a; xdd; x43; x0a; xdd; x44; x0a; xdd;
  x45; x0a; xdd; x46; x0a; xdd; x47; x0a;
  xdd; x48; x0a; xdd; x49; x0a; xdd; x4a;
  x0a; xdd; x4b; x0a; xdd; x4c; x0a; xdd;
  x4d; x0a; xdd; x4e; x0a; xdd; x4f; x0a;
  xdd; x50; x0a; xdd; x51; x0a; xdd; x52;
  x0a; xdd; x53; x0a; xdd; x54; x0a; xdd;
  x55; x0a; xdd; x56; x0a; xdd; x57; x0a;
  xdd; x58; x0a; xdd; x59; x0a; xdd; x5a;
  x0a; xdd; x5b; x0a; xdd; x5c; x0a; xdd
].
(* tests/test_data/whatwg/big5_whatwg_test_encode_out.txt, entries 39936..40191 *)
Definition big5_encode_out_156 : list byte := [
  x5d; x0a; xdd; x5e; x0a; xdd; x5f; x0a;
  xdd; x60; x0a; xdd; x61; x0a; xdd; x62;
  x0a; xdd; x63; x0a; xdd; x64; x0a; xdd;
  x65; x0a; xdd; x66; x0a; xdd; x67; x0a;
  xdd; x68; x0a; xdd; x69; x0a; xdd; x6a;
  x0a; xdd; x6b; x0a; xdd; x6c; x0a; xdd;
  x6d; x0a; xdd; x6e; x0a; xdd; x6f; x0a;
  xdd; x70; x0a; xdd; x71; x0a; xdd; x72;
  x0a; xdd; x73; x0a; xdd; x74; x0a; xdd;
  x75; x0a; xdd; x76; x0a; xdd; x77; x0a;
  xdd; x78; x0a; xdd; x79; x0a; xdd; x7a;
  x0a; xdd; x7b; x0a; xdd; x7c; x0a; xdd;
  x7d; x0a; xdd; x7e; x0a; xdd; xa1; x0a;
  xdd; xa2; x0a; xdd; xa3; x0a; xdd; xa4;
  x0a; xdd; xa5; x0a; xdd; xa6; x0a; xdd;
  xa7; x0a; xdd; xa8; x0a; xdd; xa9; x0a;
  xdd; xaa; x0a; xdd; xab; x0a; xdd; xac;
  x0a; xdd; xad; x0a; xdd; xae; x0a; xdd;
  xaf; x0a; xdd; xb0; x0a; xdd; xb1; x0a;
  xdd; xb2; x0a; xdd; xb3; x0a; xdd; xb4;
  x0a; xdd; xb5; x0a; xdd; xb6; x0a; xdd;
  xb7; x0a; xdd; xb8; x0a; xdd; xb9; x0a;
  xdd; xba; x0a; xdd; xbb; x0a; xdd; xbc;
  x0a; xdd; xbd; x0a; xdd; xbe; x0a; xdd;
  xbf; x0a; xdd; xc0; x0a; xdd; xc1; x0a;
  xdd; xc2; x0a; xdd; xc3; x0a; xdd; xc4;
  x0a; xdd; xc5; x0a; xdd; xc6; x0a; xdd;
  xc7; x0a; xdd; xc8; x0a; xdd; xc9; x0a;
  xdd; xca; x0a; xdd; xcb; x0a; xdd; xcc;
  x0a; xdd; xcd; x0a; xdd; xce; x0a; xdd;
  xcf; x0a; xdd; xd0; x0a; xdd; xd1; x0a;
  xdd; xd2; x0a; xdd; xd3; x0a; xdd; xd4
].
(* tests/test_data/whatwg/big5_whatwg_test_encode_out.txt, entries 40192..40447 *)
Definition big5_encode_out_157 : list byte := [
  x0a; xdd; xd5; x0a; xdd; xd6; x0a; xdd;
  xd7; x0a; xdd; xd8; x0a; xdd; xd9; x0a;
  xdd; xda; x0a; xdd; xdb; x0a; xdd; xdc;
  x0a; xdd; xdd; x0a; xdd; xde; x0a; xdd;
  xdf; x0a; xdd; xe0; x0a; xdd; xe1; x0a;
  xdd; xe2; x0a; xdd; xe3; x0a; xdd; xe4;
  x0a; xdd; xe5; x0a; xdd; xe6; x0a; xdd;
  xe7; x0a; xdd; xe8; x0a; xdd; xe9; x0a;
  xdd; xea; x0a; xdd; xeb; x0a; xdd; xec;
  x0a; xdd; xed; x0a; xdd; xee; x0a; xdd;
  xef; x0a; xdd; xf0; x0a; xdd; xf1; x0a;
  xdd; xf2; x0a; xdd; xf3; x0a; xdd; xf4;
  x0a; xdd; xf5; x0a; xdd; xf6; x0a; xdd;
  xf7; x0a; xdd; xf8; x0a; xdd; xf9; x0a;
  xdd; xfa; x0a; xdd; xfb; x0a; xdd; xfc;
  x0a; xdd; xfd; x0a; xdd; xfe; x0a; xde;
  x40; x0a; xde; x41; x0a; xde; x42; x0a;
  xde; x43; x0a; xde; x44; x0a; xde; x45;
  x0a; xde; x46; x0a; xde; x47; x0a; xde;
  x48; x0a; xde; x49; x0a; xde; x4a; x0a;
  xde; x4b; x0a; xde; x4c; x0a; xde; x4d;
  x0a; xde; x4e; x0a; xde; x4f; x0a; xde;
  x50; x0a; xde; x51; x0a; xde; x52; x0a;
  xde; x53; x0a; xde; x54; x0a; xde; x55;
  x0a; xde; x56; x0a; xde; x57; x0a; xde;
  x58; x0a; xde; x59; x0a; xde; x5a; x0a;
  xde; x5b; x0a; xde; x5c; x0a; xde; x5d;
  x0a; xde; x5e; x0a; xde; x5f; x0a; xde;
  x60; x0a; xde; x61; x0a; xde; x62; x0a;
  xde; x63; x0a; xde; x64; x0a; xde; x65;
  x0a; xde; x66; x0a; xde; x67; x0a; xde;
  x68; x0a; xde; x69; x0a; xde; x6a; x0a
].
(* tests/test_data/whatwg/big5_whatwg_test_encode_out.txt, entries 40448..40703 *)
Definition big5_encode_out_158 : list byte := [
  xde; x6b; x0a; xde; x6c; x0a; xde; x6d;
  x0a; xde; x6e; x0a; xde; x6f; x0a; xde;
  x70; x0a; xde; x71; x0a; xde; x73; x0a;
  xde; x74; x0a; xde; x75; x0a; xde; x76;
  x0a; xde; x77; x0a; xde; x78; x0a; xde;
  x79; x0a; xde; x7a; x0a; xde; x7b; x0a;
  xde; x7c; x0a; xde; x7d; x0a; xde; x7e;
  x0a; xde; xa1; x0a; xde; xa2; x0a; xde;
  xa3; x0a; xde; xa4; x0a; xde; xa5; x0a;
  xde; xa6; x0a; xde; xa7; x0a; xde; xa8;
  x0a; xde; xa9; x0a; xde; xaa; x0a; xde;
  xab; x0a; xde; xac; x0a; xde; xad; x0a;
  xde; xae; x0a; xde; xaf; x0a; xde; xb0;
  x0a; xde; xb1; x0a; xde; xb2; x0a; xde;
  xb3; x0a; xde; xb4; x0a; xde; xb5; x0a;
  xde; xb6; x0a; xde; xb7; x0a; xde; xb8;
  x0a; xde; xb9; x0a; xde; xba; x0a; xde;
  xbb; x0a; xde; xbc; x0a; xde; xbd; x0a;
  xde; xbe; x0a; xde; xbf; x0a; xde; xc0;
  x0a; xde; xc1; x0a; xde; xc2; x0a; xde;
  xc3; x0a; xde; xc4; x0a; xde; xc5; x0a;
  xde; xc6; x0a; xde; xc7; x0a; xde; xc8;
  x0a; xde; xc9; x0a; xde; xca; x0a; xde;
  xcb; x0a; xde; xcc; x0a; xde; xce; x0a;
  xde; xcf; x0a; xde; xd0; x0a; xde; xd1;
  x0a; xde; xd2; x0a; xde; xd3; x0a; xde;
  xd4; x0a; xde; xd5; x0a; xde; xd6; x0a;
  xde; xd7; x0a; xde; xd8; x0a; xde; xd9;
  x0a; xde; xda; x0a; xde; xdb; x0a; xde;
  xdc; x0a; xde; xdd; x0a; xde; xde; x0a;
  xde; xdf; x0a; xde; xe0; x0a; xde; xe1;
  x0a; xde; xe2; x0a; xde; xe3; x0a; xde
].
(* tests/test_data/whatwg/big5_whatwg_test_encode_out.txt, entries 40704..40959 *)
Definition big5_encode_out_159 : list byte := [
  xe4; x0a; xde; xe5; x0a; xde; xe6; x0a;
  xde; xe7; x0a; xde; xe8; x0a; xde; xe9;
  x0a; xde; xea; x0a; xde; xeb; x0a; xde;
  xec; x0a; xde; xed; x0a; xde; xee; x0a;
  xde; xef; x0a; xde; xf0; x0a; xde; xf1;
  x0a; xde; xf2; x0a; xde; xf3; x0a; xde;
  xf4; x0a; xde; xf5; x0a; xde; xf6; x0a;
  xde; xf7; x0a; xde; xf8; x0a; xde; xf9;
  x0a; xde; xfa; x0a; xde; xfb; x0a; xde;
  xfc; x0a; xde; xfd; x0a; xde; xfe; x0a;
  xdf; x40; x0a; xdf; x41; x0a; xdf; x42;
  x0a; xdf; x43; x0a; xdf; x44; x0a; xdf;
  x45; x0a; xdf; x46; x0a; xdf; x47; x0a;
  xdf; x48; x0a; xdf; x49; x0a; xdf; x4a;
  x0a; xdf; x4b; x0a; xdf; x4c; x0a; xdf;
  x4d; x0a; xdf; x4e; x0a; xdf; x4f; x0a;
  xdf; x50; x0a; xdf; x51; x0a; xdf; x52;
  x0a; xdf; x53; x0a; xdf; x54; x0a; xdf;
  x55; x0a; xdf; x56; x0a; xdf; x57; x0a;
  xdf; x58; x0a; xdf; x59; x0a; xdf; x5a;
  x0a; xdf; x5b; x0a; xdf; x5c; x0a; xdf;
  x5d; x0a; xdf; x5e; x0a; xdf; x5f; x0a;
  xdf; x60; x0a; xdf; x61; x0a; xdf; x62;
  x0a; xdf; x63; x0a; xdf; x64; x0a; xdf;
  x65; x0a; xdf; x66; x0a; xdf; x67; x0a;
  xdf; x68; x0a; xdf; x69; x0a; xdf; x6a;
  x0a; xdf; x6b; x0a; xdf; x6c; x0a; xdf;
  x6d; x0a; xdf; x6e; x0a; xdf; x6f; x0a;
  xdf; x70; x0a; xdf; x71; x0a; xdf; x72;
  x0a; xdf; x73; x0a; xdf; x74; x0a; xdf;
  x75; x0a; xdf; x76; x0a; xdf; x77; x0a;
  xdf; x78; x0a; xdf; x79; x0a; xdf; x7a
].
(* tests/test_data/whatwg/big5_whatwg_test_encode_out.txt, entries 40960..41215 *)
Definition big5_encode_out_160 : list byte := [
  x0a; xdf; x7b; x0a; xdf; x7c; x0a; xdf;
  x7d; x0a; xdf; x7e; x0a; xdf; xa1; x0a;
  xdf; xa2; x0a; xdf; xa3; x0a; xdf; xa4;
  x0a; xdf; xa5; x0a; xdf; xa6; x0a; xdf;
  xa7; x0a; xdf; xa8; x0a; xdf; xa9; x0a;
  xdf; xaa; x0a; xdf; xab; x0a; xdf; xac;
  x0a; xdf; xad; x0a; xdf; xae; x0a; xdf;
  xaf; x0a; xdf; xb0; x0a; xdf; xb1; x0a;
  xdf; xb2; x0a; xdf; xb3; x0a; xdf; xb4;
  x0a; xdf; xb5; x0a; xdf; xb6; x0a; xdf;
  xb7; x0a; xdf; xb8; x0a; xdf; xb9; x0a;
  xdf; xba; x0a; xdf; xbb; x0a; xdf; xbc;
  x0a; xdf; xbd; x0a; xdf; xbe; x0a; xdf;
  xbf; x0a; xdf; xc0; x0a; xdf; xc1; x0a;
  xdf; xc2; x0a; xdf; xc3; x0a; xdf; xc4;
  x0a; xdf; xc5; x0a; xdf; xc6; x0a; xdf;
  xc7; x0a; xdf; xc8; x0a; xdf; xc9; x0a;
  xdf; xca; x0a; xdf; xcb; x0a; xdf; xcc;
  x0a; xdf; xcd; x0a; xdf; xce; x0a; xdf;
  xcf; x0a; xdf; xd0; x0a; xdf; xd1; x0a;
  xdf; xd2; x0a; xdf; xd3; x0a; xdf; xd4;
  x0a; xdf; xd5; x0a; xdf; xd6; x0a; xdf;
  xd7; x0a; xdf; xd8; x0a; xdf; xd9; x0a;
  xdf; xda; x0a; xdf; xdb; x0a; xdf; xdc;
  x0a; xdf; xdd; x0a; xdf; xde; x0a; xdf;
  xdf; x0a; xdf; xe0; x0a; xdf; xe1; x0a;
  xdf; xe2; x0a; xdf; xe3; x0a; xdf; xe4;
  x0a; xdf; xe5; x0a; xdf; xe6; x0a; xdf;
  xe7; x0a; xdf; xe8; x0a; xdf; xe9; x0a;
  xdf; xea; x0a; xdf; xeb; x0a; xdf; xec;
  x0a; xdf; xed; x0a; xdf; xee; x0a; xdf;
  xef; x0a; xdf; xf0; x0a; xdf; xf1; x0a
].
(* tests/test_data/whatwg/big5_whatwg_test_encode_out.txt, entries 41216..41471 *)
Definition big5_encode_out_161 : list byte := [
  xdf; xf2; x0a; xdf; xf3; x0a; xdf; xf4;
  x0a; xdf; xf5; x0a; xdf; xf6; x0a; xdf;
  xf7; x0a; xdf; xf8; x0a; xdf; xf9; x0a;
  xdf; xfa; x0a; xdf; xfb; x0a; xdf; xfc;
  x0a; xdf; xfd; x0a; xdf; xfe; x0a; xe0;
  x40; x0a; xe0; x41; x0a; xe0; x42; x0a;
  xe0; x43; x0a; xe0; x44; x0a; xe0; x45;
  x0a; xe0; x46; x0a; xe0; x47; x0a; xe0;
  x48; x0a; xe0; x49; x0a; xe0; x4a; x0a;
  xe0; x4b; x0a; xe0; x4c; x0a; xe0; x4d;
  x0a; xe0; x4e; x0a; xe0; x4f; x0a; xe0;
  x50; x0a; xe0; x51; x0a; xe0; x52; x0a;
  xe0; x53; x0a; xe0; x54; x0a; xe0; x55;
  x0a; xe0; x56; x0a; xe0; x57; x0a; xe0;
  x58; x0a; xe0; x59; x0a; xe0; x5a; x0a;
  xe0; x5b; x0a; xe0; x5c; x0a; xe0; x5d;
  x0a; xe0; x5e; x0a; xe0; x5f; x0a; xe0;
  x60; x0a; xe0; x61; x0a; xe0; x62; x0a;
  xe0; x63; x0a; xe0; x64; x0a; xe0; x65;
  x0a; xe0; x66; x0a; xe0; x67; x0a; xe0;
  x68; x0a; xe0; x69; x0a; xe0; x6a; x0a;
  xe0; x6b; x0a; xe0; x6c; x0a; xe0; x6d;
  x0a; xe0; x6e; x0a; xe0; x6f; x0a; xe0;
  x70; x0a; xe0; x71; x0a; xe0; x72; x0a;
  xe0; x73; x0a; xe0; x74; x0a; xe0; x75;
  x0a; xe0; x76; x0a; xe0; x77; x0a; xe0;
  x78; x0a; xe0; x79; x0a; xe0; x7a; x0a;
  xe0; x7b; x0a; xe0; x7d; x0a; xe0; x7e;
  x0a; xe0; xa1; x0a; xe0; xa2; x0a; xe0;
  xa3; x0a; xe0; xa4; x0a; xe0; xa5; x0a;
  xe0; xa6; x0a; xe0; xa7; x0a; xe0; xa8;
  x0a; xe0; xa9; x0a; xe0; xaa; x0a; xe0
].
(* tests/test_data/whatwg/big5_whatwg_test_encode_out.txt, entries 41472..41727 *)
Definition big5_encode_out_162 : list byte := [
  xab; x0a; xe0; xac; x0a; xe0; xad; x0a;
  xe0; xae; x0a; xe0; xaf; x0a; xe0; xb0;
  x0a; xe0; xb1; x0a; xe0; xb2; x0a; xe0;
  xb3; x0a; xe0; xb4; x0a; xe0; xb5; x0a;
  xe0; xb6; x0a; xe0; xb7; x0a; xe0; xb8;
  x0a; xe0; xb9; x0a; xe0; xba; x0a; xe0;
  xbb; x0a; xe0; xbc; x0a; xe0; xbd; x0a;
  xe0; xbe; x0a; xe0; xbf; x0a; xe0; xc0;
  x0a; xe0; xc1; x0a; xe0; xc2; x0a; xe0;
  xc3; x0a; xe0; xc4; x0a; xe0; xc5; x0a;
  xe0; xc6; x0a; xe0; xc7; x0a; xe0; xc8;
  x0a; xe0; xc9; x0a; xe0; xca; x0a; xe0;
  xcb; x0a; xe0; xcc; x0a; xe0; xcd; x0a;
  xe0; xce; x0a; xe0; xcf; x0a; xe0; xd0;
  x0a; xe0; xd1; x0a; xe0; xd2; x0a; xe0;
  xd3; x0a; xe0; xd4; x0a; xe0; xd5; x0a;
  xe0; xd6; x0a; xe0; xd7; x0a; xe0; xd8;
  x0a; xe0; xd9; x0a; xe0; xda; x0a; xe0;
  xdb; x0a; xe0; xdc; x0a; xe0; xdd; x0a;
  xe0; xde; x0a; xe0; xdf; x0a; xe0; xe0;
  x0a; xe0; xe1; x0a; xe0; xe2; x0a; xe0;
  xe3; x0a; xe0; xe4; x0a; xe0; xe5; x0a;
  xe0; xe6; x0a; xe0; xe7; x0a; xe0; xe8;
  x0a; xe0; xe9; x0a; xe0; xea; x0a; xe0;
  xeb; x0a; xe0; xec; x0a; xe0; xed; x0a;
  xe0; xee; x0a; xe0; xef; x0a; xe0; xf0;
  x0a; xe0; xf1; x0a; xe0; xf2; x0a; xe0;
  xf3; x0a; xe0; xf4; x0a; xe0; xf5; x0a;
  xe0; xf6; x0a; xe0; xf7; x0a; xe0; xf8;
  x0a; xe0; xf9; x0a; xe0; xfa; x0a; xe0;
  xfb; x0a; xe0; xfc; x0a; xe0; xfd; x0a;
  xe0; xfe; x0a; xe1; x40; x0a; xe1; x41
].
(* tests/test_data/whatwg/big5_whatwg_test_encode_out.txt, entries 41728..41983 *)
Definition big5_encode_out_163 : list byte := [
  x0a; xe1; x42; x0a; xe1; x43; x0a; xe1;
  x44; x0a; xe1; x45; x0a; xe1; x46; x0a;
  xe1; x47; x0a; xe1; x48; x0a; xe1; x49;
  x0a; xe1; x4a; x0a; xe1; x4b; x0a; xe1;
  x4c; x0a; xe1; x4d; x0a; xe1; x4e; x0a;
  xe1; x4f; x0a; xe1; x50; x0a; xe1; x51;
  x0a; xe1; x52; x0a; xe1; x53; x0a; xe1;
  x54; x0a; xe1; x55; x0a; xe1; x56; x0a;
  xe1; x57; x0a; xe1; x58; x0a; xe1; x59;
  x0a; xe1; x5a; x0a; xe1; x5b; x0a; xe1;
  x5c; x0a; xe1; x5d; x0a; xe1; x5e; x0a;
  xe1; x5f; x0a; xe1; x60; x0a; xe1; x61;
  x0a; xe1; x62; x0a; xe1; x63; x0a; xe1;
  x64; x0a; xe1; x65; x0a; xe1; x66; x0a;
  xe1; x67; x0a; xe1; x68; x0a; xe1; x69;
  x0a; xe1; x6a; x0a; xe1; x6b; x0a; xe1;
  x6c; x0a; xe1; x6d; x0a; xe1; x6e; x0a;
  xe1; x6f; x0a; xe1; x70; x0a; xe1; x71;
  x0a; xe1; x72; x0a; xe1; x73; x0a; xe1;
  x74; x0a; xe1; x75; x0a; xe1; x76; x0a;
  xe1; x77; x0a; xe1; x78; x0a; xe1; x79;
  x0a; xe1; x7a; x0a; xe1; x7b; x0a; xe1;
  x7c; x0a; xe1; x7d; x0a; xe1; x7e; x0a;
  xe1; xa1; x0a; xe1; xa2; x0a; xe1; xa3;
  x0a; xe1; xa4; x0a; xe1; xa5; x0a; xe1;
  xa6; x0a; xe1; xa7; x0a; xe1; xa8; x0a;
  xe1; xa9; x0a; xe1; xaa; x0a; xe1; xab;
  x0a; xe1; xac; x0a; xe1; xad; x0a; xe1;
  xae; x0a; xe1; xaf; x0a; xe1; xb0; x0a;
  xe1; xb1; x0a; xe1; xb2; x0a; xe1; xb3;
  x0a; xe1; xb4; x0a; xe1; xb5; x0a; xe1;
  xb6; x0a; xe1; xb7; x0a; xe1; xb8; x0a
].
(* tests/test_data/whatwg/big5_whatwg_test_encode_out.txt, entries 41984..42239 *)
Definition big5_encode_out_164 : list byte := [
  xe1; xb9; x0a; xe1; xba; x0a; xe1; xbb;
  x0a; xe1; xbc; x0a; xe1; xbd; x0a; xe1;
  xbe; x0a; xe1; xbf; x0a; xe1; xc0; x0a;
  xe1; xc1; x0a; xe1; xc2; x0a; xe1; xc3;
  x0a; xe1; xc4; x0a; xe1; xc5; x0a; xe1;
  xc6; x0a; xe1; xc7; x0a; xe1; xc8; x0a;
  xe1; xc9; x0a; xe1; xca; x0a; xe1; xcb;
  x0a; xe1; xcc; x0a; xe1; xcd; x0a; xe1;
  xce; x0a; xe1; xcf; x0a; xe1; xd0; x0a;
  xe1; xd1; x0a; xe1; xd2; x0a; xe1; xd3;
  x0a; xe1; xd4; x0a; xe1; xd5; x0a; xe1;
  xd6; x0a; xe1; xd7; x0a; xe1; xd8; x0a;
  xe1; xd9; x0a; xe1; xda; x0a; xe1; xdb;
  x0a; xe1; xdc; x0a; xe1; xdd; x0a; xe1;
  xde; x0a; xe1; xdf; x0a; xe1; xe0; x0a;
  xe1; xe1; x0a; xe1; xe2; x0a; xe1; xe3;
  x0a; xe1; xe4; x0a; xe1; xe5; x0a; xe1;
  xe6; x0a; xe1; xe7; x0a; xe1; xe8; x0a;
  xe1; xe9; x0a; xe1; xea; x0a; xe1; xeb;
  x0a; xe1; xec; x0a; xe1; xed; x0a; xe1;
  xee; x0a; xe1; xef; x0a; xe1; xf0; x0a;
  xe1; xf1; x0a; xe1; xf2; x0a; xe1; xf3;
  x0a; xe1; xf4; x0a; xe1; xf5; x0a; xe1;
  xf6; x0a; xe1; xf7; x0a; xe1; xf8; x0a;
  xe1; xf9; x0a; xe1; xfa; x0a; xe1; xfb;
  x0a; xe1; xfc; x0a; xe1; xfd; x0a; xe1;
  xfe; x0a; xe2; x40; x0a; xe2; x41; x0a;
  xe2; x42; x0a; xe2; x43; x0a; xe2; x44;
  x0a; xe2; x45; x0a; xe2; x46; x0a; xe2;
  x47; x0a; xe2; x48; x0a; xe2; x49; x0a;
  xe2; x4a; x0a; xe2; x4b; x0a; xe2; x4c;
  x0a; xe2; x4d; x0a; xe2; x4e; x0a; xe2
].
(* tests/test_data/whatwg/big5_whatwg_test_encode_out.txt, entries 42240..42495 *)
Definition big5_encode_out_165 : list byte := [
  x4f; x0a; xe2; x50; x0a; xe2; x51; x0a;
  xe2; x52; x0a; xe2; x53; x0a; xe2; x54;
  x0a; xe2; x55; x0a; xe2; x56; x0a; xe2;
  x57; x0a; xe2; x58; x0a; xe2; x59; x0a;
  xe2; x5a; x0a; xe2; x5b; x0a; xe2; x5c;
  x0a; xe2; x5d; x0a; xe2; x5e; x0a; xe2;
  x5f; x0a; xe2; x60; x0a; xe2; x61; x0a;
  xe2; x62; x0a; xe2; x63; x0a; xe2; x64;
  x0a; xe2; x65; x0a; xe2; x66; x0a; xe2;
  x67; x0a; xe2; x68; x0a; xe2; x69; x0a;
  xe2; x6a; x0a; xe2; x6b; x0a; xe2; x6c;
  x0a; xe2; x6d; x0a; xe2; x6e; x0a; xe2;
  x6f; x0a; xe2; x70; x0a; xe2; x71; x0a;
  xe2; x72; x0a; xe2; x73; x0a; xe2; x74;
  x0a; xe2; x75; x0a; xe2; x76; x0a; xe2;
  x77; x0a; xe2; x78; x0a; xe2; x79; x0a;
  xe2; x7a; x0a; xe2; x7b; x0a; xe2; x7c;
  x0a; xe2; x7d; x0a; xe2; x7e; x0a; xe2;
  xa1; x0a; xe2; xa2; x0a; xe2; xa3; x0a;
  xe2; xa4; x0a; xe2; xa5; x0a; xe2; xa6;
  x0a; xe2; xa7; x0a; xe2; xa8; x0a; xe2;
  xa9; x0a; xe2; xaa; x0a; xe2; xab; x0a;
  xe2; xac; x0a; xe2; xad; x0a; xe2; xae;
  x0a; xe2; xaf; x0a; xe2; xb0; x0a; xe2;
  xb1; x0a; xe2; xb2; x0a; xe2; xb3; x0a;
  xe2; xb4; x0a; xe2; xb5; x0a; xe2; xb6;
  x0a; xe2; xb7; x0a; xe2; xb8; x0a; xe2;
  xb9; x0a; xe2; xba; x0a; xe2; xbb; x0a;
  xe2; xbc; x0a; xe2; xbd; x0a; xe2; xbe;
  x0a; xe2; xbf; x0a; xe2; xc0; x0a; xe2;
  xc1; x0a; xe2; xc2; x0a; xe2; xc3; x0a;
  xe2; xc4; x0a; xe2; xc5; x0a; xe2; xc6
].
(* tests/test_data/whatwg/big5_whatwg_test_encode_out.txt, entries 42496..42751 *)
Definition big5_encode_out_166 : list byte := [
  x0a; xe2; xc7; x0a; xe2; xc8; x0a; xe2;
  xc9; x0a; xe2; xca; x0a; xe2; xcb; x0a;
  xe2; xcc; x0a; xe2; xcd; x0a; xe2; xce;
  x0a; xe2; xcf; x0a; xe2; xd0; x0a; xe2;
  xd1; x0a; xe2; xd2; x0a; xe2; xd3; x0a;
  xe2; xd4; x0a; xe2; xd5; x0a; xe2; xd6;
  x0a; xe2; xd7; x0a; xe2; xd8; x0a; xe2;
  xd9; x0a; xe2; xda; x0a; xe2; xdb; x0a;
  xe2; xdc; x0a; xe2; xdd; x0a; xe2; xde;
  x0a; xe2; xdf; x0a; xe2; xe0; x0a; xe2;
  xe1; x0a; xe2; xe2; x0a; xe2; xe3; x0a;
  xe2; xe4; x0a; xe2; xe5; x0a; xe2; xe6;
  x0a; xe2; xe7; x0a; xe2; xe8; x0a; xe2;
  xe9; x0a; xe2; xea; x0a; xe2; xeb; x0a;
  xe2; xec; x0a; xe2; xed; x0a; xe2; xee;
  x0a; xe2; xef; x0a; xe2; xf0; x0a; xe2;
  xf1; x0a; xe2; xf2; x0a; xe2; xf3; x0a;
  xe2; xf4; x0a; xe2; xf5; x0a; xe2; xf6;
  x0a; xe2; xf7; x0a; xe2; xf8; x0a; xe2;
  xf9; x0a; xe2; xfa; x0a; xe2; xfb; x0a;
  xe2; xfc; x0a; xe2; xfd; x0a; xe2; xfe;
  x0a; xe3; x40; x0a; xe3; x41; x0a; xe3;
  x42; x0a; xe3; x43; x0a; xe3; x44; x0a;
  xe3; x45; x0a; xe3; x46; x0a; xe3; x47;
  x0a; xe3; x48; x0a; xe3; x49; x0a; xe3;
  x4a; x0a; xe3; x4b; x0a; xe3; x4c; x0a;
  xe3; x4d; x0a; xe3; x4e; x0a; xe3; x4f;
  x0a; xe3; x50; x0a; xe3; x51; x0a; xe3;
  x52; x0a; xe3; x53; x0a; xe3; x54; x0a;
  xe3; x55; x0a; xe3; x56; x0a; xe3; x57;
  x0a; xe3; x58; x0a; xe3; x59; x0a; xe3;
  x5a; x0a; xe3; x5b; x0a; xe3; x5c; x0a
].
(* tests/test_data/whatwg/big5_whatwg_test_encode_out.txt, entries 42752..43007 *)
Definition big5_encode_out_167 : list byte := [
  xe3; x5d; x0a; xe3; x5e; x0a; xe3; x5f;
  x0a; xe3; x60; x0a; xe3; x61; x0a; xe3;
  x62; x0a; xe3; x63; x0a; xe3; x64; x0a;
  xe3; x65; x0a; xe3; x66; x0a; xe3; x67;
  x0a; xe3; x68; x0a; xe3; x69; x0a; xe3;
  x6a; x0a; xe3; x6b; x0a; xe3; x6c; x0a;
  xe3; x6d; x0a; xe3; x6e; x0a; xe3; x6f;
  x0a; xe3; x70; x0a; xe3; x71; x0a; xe3;
  x72; x0a; xe3; x73; x0a; xe3; x74; x0a;
  xe3; x75; x0a; xe3; x76; x0a; xe3; x77;
  x0a; xe3; x78; x0a; xe3; x79; x0a; xe3;
  x7a; x0a; xe3; x7b; x0a; xe3; x7c; x0a;
  xe3; x7d; x0a; xe3; x7e; x0a; xe3; xa1;
  x0a; xe3; xa2; x0a; xe3; xa3; x0a; xe3;
  xa4; x0a; xe3; xa5; x0a; xe3; xa6; x0a;
  xe3; xa7; x0a; xe3; xa8; x0a; xe3; xa9;
  x0a; xe3; xaa; x0a; xe3; xab; x0a; xe3;
  xac; x0a; xe3; xad; x0a; xe3; xae; x0a;
  xe3; xaf; x0a; xe3; xb0; x0a; xe3; xb1;
  x0a; xe3; xb2; x0a; xe3; xb3; x0a; xe3;
  xb4; x0a; xe3; xb5; x0a; xe3; xb6; x0a;
  xe3; xb7; x0a; xe3; xb8; x0a; xe3; xb9;
  x0a; xe3; xba; x0a; xe3; xbb; x0a; xe3;
  xbc; x0a; xe3; xbd; x0a; xe3; xbe; x0a;
  xe3; xbf; x0a; xe3; xc0; x0a; xe3; xc1;
  x0a; xe3; xc2; x0a; xe3; xc3; x0a; xe3;
  xc4; x0a; xe3; xc5; x0a; xe3; xc6; x0a;
  xe3; xc7; x0a; xe3; xc9; x0a; xe3; xca;
  x0a; xe3; xcb; x0a; xe3; xcc; x0a; xe3;
  xcd; x0a; xe3; xce; x0a; xe3; xcf; x0a;
  xe3; xd0; x0a; xe3; xd1; x0a; xe3; xd2;
  x0a; xe3; xd3; x0a; xe3; xd4; x0a; xe3
].
(* tests/test_data/whatwg/big5_whatwg_test_encode_out.txt, entries 43008..43263 *)
Definition big5_encode_out_168 : list byte := [
  xd5; x0a; xe3; xd6; x0a; xe3; xd7; x0a;
  xe3; xd8; x0a; xe3; xd9; x0a; xe3; xda;
  x0a; xe3; xdb; x0a; xe3; xdc; x0a; xe3;
  xdd; x0a; xe3; xde; x0a; xe3; xdf; x0a;
  xe3; xe0; x0a; xe3; xe1; x0a; xe3; xe2;
  x0a; xe3; xe3; x0a; xe3; xe4; x0a; xe3;
  xe5; x0a; xe3; xe6; x0a; xe3; xe7; x0a;
  xe3; xe8; x0a; xe3; xe9; x0a; xe3; xea;
  x0a; xe3; xeb; x0a; xe3; xec; x0a; xe3;
  xed; x0a; xe3; xee; x0a; xe3; xef; x0a;
  xe3; xf0; x0a; xe3; xf1; x0a; xe3; xf2;
  x0a; xe3; xf3; x0a; xe3; xf4; x0a; xe3;
  xf5; x0a; xe3; xf6; x0a; xe3; xf7; x0a;
  xe3; xf8; x0a; xe3; xf9; x0a; xe3; xfa;
  x0a; xe3; xfb; x0a; xe3; xfc; x0a; xe3;
  xfd; x0a; xe3; xfe; x0a; xe4; x40; x0a;
  xe4; x41; x0a; xe4; x42; x0a; xe4; x43;
  x0a; xe4; x44; x0a; xe4; x45; x0a; xe4;
  x46; x0a; xe4; x47; x0a; xe4; x48; x0a;
  xe4; x49; x0a; xe4; x4a; x0a; xe4; x4b;
  x0a; xe4; x4c; x0a; xe4; x4d; x0a; xe4;
  x4e; x0a; xe4; x4f; x0a; xe4; x50; x0a;
  xe4; x51; x0a; xe4; x52; x0a; xe4; x53;
  x0a; xe4; x54; x0a; xe4; x55; x0a; xe4;
  x56; x0a; xe4; x57; x0a; xe4; x58; x0a;
  xe4; x59; x0a; xe4; x5a; x0a; xe4; x5b;
  x0a; xe4; x5c; x0a; xe4; x5d; x0a; xe4;
  x5e; x0a; xe4; x5f; x0a; xe4; x60; x0a;
  xe4; x61; x0a; xe4; x62; x0a; xe4; x63;
  x0a; xe4; x64; x0a; xe4; x65; x0a; xe4;
  x66; x0a; xe4; x67; x0a; xe4; x68; x0a;
  xe4; x69; x0a; xe4; x6a; x0a; xe4; x6b
].
(* tests/test_data/whatwg/big5_whatwg_test_encode_out.txt, entries 43264..43519 *)
Definition big5_encode_out_169 : list byte := [
  x0a; xe4; x6c; x0a; xe4; x6d; x0a; xe4;
  x6e; x0a; xe4; x6f; x0a; xe4; x70; x0a;
  xe4; x71; x0a; xe4; x72; x0a; xe4; x73;
  x0a; xe4; x74; x0a; xe4; x75; x0a; xe4;
  x76; x0a; xe4; x77; x0a; xe4; x78; x0a;
  xe4; x79; x0a; xe4; x7a; x0a; xe4; x7b;
  x0a; xe4; x7c; x0a; xe4; x7d; x0a; xe4;
  x7e; x0a; xe4; xa1; x0a; xe4; xa2; x0a;
  xe4; xa3; x0a; xe4; xa4; x0a; xe4; xa5;
  x0a; xe4; xa6; x0a; xe4; xa7; x0a; xe4;
  xa8; x0a; xe4; xa9; x0a; xe4; xaa; x0a;
  xe4; xab; x0a; xe4; xac; x0a; xe4; xad;
  x0a; xe4; xae; x0a; xe4; xaf; x0a; xe4;
  xb0; x0a; xe4; xb1; x0a; xe4; xb2; x0a;
  xe4; xb3; x0a; xe4; xb4; x0a; xe4; xb5;
  x0a; xe4; xb6; x0a; xe4; xb7; x0a; xe4;
  xb8; x0a; xe4; xb9; x0a; xe4; xba; x0a;
  xe4; xbb; x0a; xe4; xbc; x0a; xe4; xbd;
  x0a; xe4; xbe; x0a; xe4; xbf; x0a; xe4;
  xc0; x0a; xe4; xc1; x0a; xe4; xc2; x0a;
  xe4; xc3; x0a; xe4; xc4; x0a; xe4; xc5;
  x0a; xe4; xc6; x0a; xe4; xc7; x0a; xe4;
  xc8; x0a; xe4; xc9; x0a; xe4; xca; x0a;
  xe4; xcb; x0a; xe4; xcc; x0a; xe4; xcd;
  x0a; xe4; xce; x0a; xe4; xcf; x0a; xe4;
  xd0; x0a; xe4; xd1; x0a; xe4; xd2; x0a;
  xe4; xd3; x0a; xe4; xd4; x0a; xe4; xd5;
  x0a; xe4; xd6; x0a; xe4; xd7; x0a; xe4;
  xd8; x0a; xe4; xd9; x0a; xe4; xda; x0a;
  xe4; xdb; x0a; xe4; xdc; x0a; xe4; xdd;
  x0a; xe4; xde; x0a; xe4; xdf; x0a; xe4;
  xe0; x0a; xe4; xe1; x0a; xe4; xe2; x0a
].
(* tests/test_data/whatwg/big5_whatwg_test_encode_out.txt, entries 43520..43775 *)
Definition big5_encode_out_170 : list byte := [
  xe4; xe3; x0a; xe4; xe4; x0a; xe4; xe5;
  x0a; xe4; xe6; x0a; xe4; xe7; x0a; xe4;
  xe8; x0a; xe4; xe9; x0a; xe4; xea; x0a;
  xe4; xeb; x0a; xe4; xec; x0a; xe4; xed;
  x0a; xe4; xee; x0a; xe4; xef; x0a; xe4;
  xf0; x0a; xe4; xf1; x0a; xe4; xf2; x0a;
  xe4; xf3; x0a; xe4; xf4; x0a; xe4; xf5;
  x0a; xe4; xf6; x0a; xe4; xf7; x0a; xe4;
  xf8; x0a; xe4; xf9; x0a; xe4; xfa; x0a;
  xe4; xfb; x0a; xe4; xfc; x0a; xe4; xfd;
  x0a; xe4; xfe; x0a; xe5; x40; x0a; xe5;
  x41; x0a; xe5; x42; x0a; xe5; x43; x0a;
  xe5; x44; x0a; xe5; x45; x0a; xe5; x46;
  x0a; xe5; x47; x0a; xe5; x48; x0a; xe5;
  x49; x0a; xe5; x4a; x0a; xe5; x4b; x0a;
  xe5; x4c; x0a; xe5; x4d; x0a; xe5; x4e;
  x0a; xe5; x4f; x0a; xe5; x50; x0a; xe5;
  x51; x0a; xe5; x52; x0a; xe5; x53; x0a;
  xe5; x54; x0a; xe5; x55; x0a; xe5; x56;
  x0a; xe5; x57; x0a; xe5; x58; x0a; xe5;
  x59; x0a; xe5; x5a; x0a; xe5; x5b; x0a;
  xe5; x5c; x0a; xe5; x5d; x0a; xe5; x5e;
  x0a; xe5; x5f; x0a; xe5; x60; x0a; xe5;
  x61; x0a; xe5; x62; x0a; xe5; x63; x0a;
  xe5; x64; x0a; xe5; x65; x0a; xe5; x66;
  x0a; xe5; x67; x0a; xe5; x68; x0a; xe5;
  x69; x0a; xe5; x6a; x0a; xe5; x6b; x0a;
  xe5; x6c; x0a; xe5; x6d; x0a; xe5; x6e;
  x0a; xe5; x6f; x0a; xe5; x70; x0a; xe5;
  x71; x0a; xe5; x72; x0a; xe5; x73; x0a;
  xe5; x74; x0a; xe5; x75; x0a; xe5; x76;
  x0a; xe5; x77; x0a; xe5; x78; x0a; xe5
].
(* tests/test_data/whatwg/big5_whatwg_test_encode_out.txt, entries 43776..44031 *)
Definition big5_encode_out_171 : list byte := [
  x79; x0a; xe5; x7a; x0a; xe5; x7b; x0a;
  xe5; x7c; x0a; xe5; x7d; x0a; xe5; x7e;
  x0a; xe5; xa1; x0a; xe5; xa2; x0a; xe5;
  xa3; x0a; xe5; xa4; x0a; xe5; xa5; x0a;
  xe5; xa6; x0a; xe5; xa7; x0a; xe5; xa8;
  x0a; xe5; xa9; x0a; xe5; xaa; x0a; xe5;
  xab; x0a; xe5; xac; x0a; xe5; xad; x0a;
  xe5; xae; x0a; xe5; xaf; x0a; xe5; xb0;
  x0a; xe5; xb1; x0a; xe5; xb2; x0a; xe5;
  xb3; x0a; xe5; xb4; x0a; xe5; xb5; x0a;
  xe5; xb6; x0a; xe5; xb7; x0a; xe5; xb8;
  x0a; xe5; xb9; x0a; xe5; xba; x0a; xe5;
  xbb; x0a; xe5; xbc; x0a; xe5; xbd; x0a;
  xe5; xbe; x0a; xe5; xbf; x0a; xe5; xc0;
  x0a; xe5; xc1; x0a; xe5; xc2; x0a; xe5;
  xc3; x0a; xe5; xc4; x0a; xe5; xc5; x0a;
  xe5; xc6; x0a; xe5; xc7; x0a; xe5; xc8;
  x0a; xe5; xc9; x0a; xe5; xca; x0a; xe5;
  xcb; x0a; xe5; xcc; x0a; xe5; xcd; x0a;
  xe5; xce; x0a; xe5; xcf; x0a; xe5; xd0;
  x0a; xe5; xd1; x0a; xe5; xd2; x0a; xe5;
  xd3; x0a; xe5; xd4; x0a; xe5; xd5; x0a;
  xe5; xd6; x0a; xe5; xd7; x0a; xe5; xd8;
  x0a; xe5; xd9; x0a; xe5; xda; x0a; xe5;
  xdb; x0a; xe5; xdc; x0a; xe5; xdd; x0a;
  xe5; xde; x0a; xe5; xdf; x0a; xe5; xe0;
  x0a; xe5; xe1; x0a; xe5; xe2; x0a; xe5;
  xe3; x0a; xe5; xe4; x0a; xe5; xe5; x0a;
  xe5; xe6; x0a; xe5; xe7; x0a; xe5; xe8;
  x0a; xe5; xe9; x0a; xe5; xea; x0a; xe5;
  xeb; x0a; xe5; xec; x0a; xe5; xed; x0a;
  xe5; xee; x0a; xe5; xef; x0a; xe5; xf0
].
(* tests/test_data/whatwg/big5_whatwg_test_encode_out.txt, entries 44032..44287 *)
Definition big5_encode_out_172 : list byte := [
  x0a; xe5; xf1; x0a; xe5; xf2; x0a; xe5;
  xf3; x0a; xe5; xf4; x0a; xe5; xf5; x0a;
  xe5; xf6; x0a; xe5; xf7; x0a; xe5; xf8;
  x0a; xe5; xf9; x0a; xe5; xfa; x0a; xe5;
  xfb; x0a; xe5; xfc; x0a; xe5; xfd; x0a;
  xe5; xfe; x0a; xe6; x40; x0a; xe6; x41;
  x0a; xe6; x42; x0a; xe6; x43; x0a; xe6;
  x44; x0a; xe6; x45; x0a; xe6; x46; x0a;
  xe6; x47; x0a; xe6; x48; x0a; xe6; x49;
  x0a; xe6; x4a; x0a; xe6; x4b; x0a; xe6;
  x4c; x0a; xe6; x4d; x0a; xe6; x4e; x0a;
  xe6; x4f; x0a; xe6; x50; x0a; xe6; x51;
  x0a; xe6; x52; x0a; xe6; x53; x0a; xe6;
  x54; x0a; xe6; x55; x0a; xe6; x56; x0a;
  xe6; x57; x0a; xe6; x58; x0a; xe6; x59;
  x0a; xe6; x5a; x0a; xe6; x5b; x0a; xe6;
  x5c; x0a; xe6; x5d; x0a; xe6; x5e; x0a;
  xe6; x5f; x0a; xe6; x60; x0a; xe6; x61;
  x0a; xe6; x62; x0a; xe6; x63; x0a; xe6;
  x64; x0a; xe6; x65; x0a; xe6; x66; x0a;
  xe6; x67; x0a; xe6; x68; x0a; xe6; x69;
  x0a; xe6; x6a; x0a; xe6; x6b; x0a; xe6;
  x6c; x0a; xe6; x6d; x0a; xe6; x6e; x0a;
  xe6; x6f; x0a; xe6; x70; x0a; xe6; x71;
  x0a; xe6; x72; x0a; xe6; x73; x0a; xe6;
  x74; x0a; xe6; x75; x0a; xe6; x76; x0a;
  xe6; x77; x0a; xe6; x78; x0a; xe6; x79;
  x0a; xe6; x7a; x0a; xe6; x7b; x0a; xe6;
  x7c; x0a; xe6; x7d; x0a; xe6; x7e; x0a;
  xe6; xa1; x0a; xe6; xa2; x0a; xe6; xa3;
  x0a; xe6; xa4; x0a; xe6; xa5; x0a; xe6;
  xa6; x0a; xe6; xa7; x0a; xe6; xa8; x0a
].
(* tests/test_data/whatwg/big5_whatwg_test_encode_out.txt, entries 44288..44543 *)
Definition big5_encode_out_173 : list byte := [
  xe6; xa9; x0a; xe6; xaa; x0a; xe6; xac;
  x0a; xe6; xad; x0a; xe6; xae; x0a; xe6;
  xaf; x0a; xe6; xb0; x0a; xe6; xb1; x0a;
  xe6; xb2; x0a; xe6; xb3; x0a; xe6; xb4;
  x0a; xe6; xb5; x0a; xe6; xb6; x0a; xe6;
  xb7; x0a; xe6; xb8; x0a; xe6; xb9; x0a;
  xe6; xba; x0a; xe6; xbb; x0a; xe6; xbc;
  x0a; xe6; xbd; x0a; xe6; xbe; x0a; xe6;
  xbf; x0a; xe6; xc0; x0a; xe6; xc1; x0a;
  xe6; xc2; x0a; xe6; xc3; x0a; xe6; xc4;
  x0a; xe6; xc5; x0a; xe6; xc6; x0a; xe6;
  xc7; x0a; xe6; xc8; x0a; xe6; xc9; x0a;
  xe6; xca; x0a; xe6; xcb; x0a; xe6; xcc;
  x0a; xe6; xcd; x0a; xe6; xce; x0a; xe6;
  xcf; x0a; xe6; xd1; x0a; xe6; xd2; x0a;
  xe6; xd3; x0a; xe6; xd4; x0a; xe6; xd5;
  x0a; xe6; xd6; x0a; xe6; xd7; x0a; xe6;
  xd8; x0a; xe6; xd9; x0a; xe6; xda; x0a;
  xe6; xdb; x0a; xe6; xdc; x0a; xe6; xdd;
  x0a; xe6; xde; x0a; xe6; xdf; x0a; xe6;
  xe0; x0a; xe6; xe1; x0a; xe6; xe2; x0a;
  xe6; xe3; x0a; xe6; xe4; x0a; xe6; xe5;
  x0a; xe6; xe6; x0a; xe6; xe7; x0a; xe6;
  xe8; x0a; xe6; xe9; x0a; xe6; xea; x0a;
  xe6; xeb; x0a; xe6; xec; x0a; xe6; xed;
  x0a; xe6; xee; x0a; xe6; xef; x0a; xe6;
  xf0; x0a; xe6; xf1; x0a; xe6; xf2; x0a;
  xe6; xf3; x0a; xe6; xf4; x0a; xe6; xf5;
  x0a; xe6; xf6; x0a; xe6; xf7; x0a; xe6;
  xf8; x0a; xe6; xf9; x0a; xe6; xfa; x0a;
  xe6; xfb; x0a; xe6; xfc; x0a; xe6; xfd;
  x0a; xe6; xfe; x0a; xe7; x40; x0a; xe7
].
(* tests/test_data/whatwg/big5_whatwg_test_encode_out.txt, entries 44544..44799 *)
Definition big5_encode_out_174 : list byte := [
  x41; x0a; xe7; x42; x0a; xe7; x43; x0a;
  xe7; x44; x0a; xe7; x45; x0a; xe7; x46;
  x0a; xe7; x47; x0a; xe7; x48; x0a; xe7;
  x49; x0a; xe7; x4a; x0a; xe7; x4b; x0a;
  xe7; x4c; x0a; xe7; x4d; x0a; xe7; x4e;
  x0a; xe7; x4f; x0a; xe7; x50; x0a; xe7;
  x51; x0a; xe7; x52; x0a; xe7; x53; x0a;
  xe7; x54; x0a; xe7; x55; x0a; xe7; x56;
  x0a; xe7; x57; x0a; xe7; x58; x0a; xe7;
  x59; x0a; xe7; x5a; x0a; xe7; x5b; x0a;
  xe7; x5c; x0a; xe7; x5d; x0a; xe7; x5e;
  x0a; xe7; x5f; x0a; xe7; x60; x0a; xe7;
  x61; x0a; xe7; x62; x0a; xe7; x63; x0a;
  xe7; x64; x0a; xe7; x65; x0a; xe7; x66;
  x0a; xe7; x67; x0a; xe7; x68; x0a; xe7;
  x69; x0a; xe7; x6a; x0a; xe7; x6b; x0a;
  xe7; x6c; x0a; xe7; x6d; x0a; xe7; x6e;
  x0a; xe7; x6f; x0a; xe7; x70; x0a; xe7;
  x71; x0a; xe7; x72; x0a; xe7; x73; x0a;
  xe7; x74; x0a; xe7; x75; x0a; xe7; x76;
  x0a; xe7; x77; x0a; xe7; x78; x0a; xe7;
  x79; x0a; xe7; x7a; x0a; xe7; x7b; x0a;
  xe7; x7c; x0a; xe7; x7d; x0a; xe7; x7e;
  x0a; xe7; xa1; x0a; xe7; xa2; x0a; xe7;
  xa3; x0a; xe7; xa4; x0a; xe7; xa5; x0a;
  xe7; xa6; x0a; xe7; xa7; x0a; xe7; xa8;
  x0a; xe7; xa9; x0a; xe7; xaa; x0a; xe7;
  xab; x0a; xe7; xac; x0a; xe7; xad; x0a;
  xe7; xae; x0a; xe7; xaf; x0a; xe7; xb0;
  x0a; xe7; xb1; x0a; xe7; xb2; x0a; xe7;
  xb3; x0a; xe7; xb4; x0a; xe7; xb5; x0a;
  xe7; xb6; x0a; xe7; xb7; x0a; xe7; xb8
].
(* tests/test_data/whatwg/big5_whatwg_test_encode_out.txt, entries 44800..45055 *)
Definition big5_encode_out_175 : list byte := [
  x0a; xe7; xb9; x0a; xe7; xba; x0a; xe7;
  xbb; x0a; xe7; xbc; x0a; xe7; xbd; x0a;
  xe7; xbe; x0a; xe7; xbf; x0a; xe7; xc0;
  x0a; xe7; xc1; x0a; xe7; xc2; x0a; xe7;
  xc3; x0a; xe7; xc4; x0a; xe7; xc5; x0a;
  xe7; xc6; x0a; xe7; xc7; x0a; xe7; xc8;
  x0a; xe7; xc9; x0a; xe7; xca; x0a; xe7;
  xcb; x0a; xe7; xcc; x0a; xe7; xcd; x0a;
  xe7; xce; x0a; xe7; xcf; x0a; xe7; xd0;
  x0a; xe7; xd1; x0a; xe7; xd2; x0a; xe7;
  xd3; x0a; xe7; xd4; x0a; xe7; xd5; x0a;
  xe7; xd6; x0a; xe7; xd7; x0a; xe7; xd8;
  x0a; xe7; xd9; x0a; xe7; xda; x0a; xe7;
  xdb; x0a; xe7; xdc; x0a; xe7; xdd; x0a;
  xe7; xde; x0a; xe7; xdf; x0a; xe7; xe0;
  x0a; xe7; xe1; x0a; xe7; xe2; x0a; xe7;
  xe3; x0a; xe7; xe4; x0a; xe7; xe5; x0a;
  xe7; xe6; x0a; xe7; xe7; x0a; xe7; xe8;
  x0a; xe7; xe9; x0a; xe7; xea; x0a; xe7;
  xeb; x0a; xe7; xec; x0a; xe7; xed; x0a;
  xe7; xee; x0a; xe7; xef; x0a; xe7; xf0;
  x0a; xe7; xf1; x0a; xe7; xf2; x0a; xe7;
  xf3; x0a; xe7; xf4; x0a; xe7; xf5; x0a;
  xe7; xf6; x0a; xe7; xf7; x0a; xe7; xf8;
  x0a; xe7; xf9; x0a; xe7; xfa; x0a; xe7;
  xfb; x0a; xe7; xfc; x0a; xe7; xfd; x0a;
  xe7; xfe; x0a; xe8; x40; x0a; xe8; x41;
  x0a; xe8; x42; x0a; xe8; x43; x0a; xe8;
  x44; x0a; xe8; x45; x0a; xe8; x46; x0a;
  xe8; x47; x0a; xe8; x48; x0a; xe8; x49;
  x0a; xe8; x4a; x0a; xe8; x4b; x0a; xe8;
  x4c; x0a; xe8; x4d; x0a; xe8; x4e; x0a
].
(* tests/test_data/whatwg/big5_whatwg_test_encode_out.txt, entries 45056..45311 *)
Definition big5_encode_out_176 : list byte := [
  xe8; x4f; x0a; xe8; x50; x0a; xe8; x51;
  x0a; xe8; x52; x0a; xe8; x53; x0a; xe8;
  x54; x0a; xe8; x55; x0a; xe8; x56; x0a;
  xe8; x57; x0a; xe8; x58; x0a; xe8; x59;
  x0a; xe8; x5a; x0a; xe8; x5b; x0a; xe8;
  x5c; x0a; xe8; x5d; x0a; xe8; x5e; x0a;
  xe8; x5f; x0a; xe8; x60; x0a; xe8; x61;
  x0a; xe8; x62; x0a; xe8; x63; x0a; xe8;
  x64; x0a; xe8; x65; x0a; xe8; x66; x0a;
  xe8; x67; x0a; xe8; x68; x0a; xe8; x69;
  x0a; xe8; x6a; x0a; xe8; x6b; x0a; xe8;
  x6c; x0a; xe8; x6d; x0a; xe8; x6e; x0a;
  xe8; x6f; x0a; xe8; x70; x0a; xe8; x71;
  x0a; xe8; x72; x0a; xe8; x73; x0a; xe8;
  x74; x0a; xe8; x75; x0a; xe8; x76; x0a;
  xe8; x77; x0a; xe8; x78; x0a; xe8; x79;
  x0a; xe8; x7a; x0a; xe8; x7b; x0a; xe8;
  x7c; x0a; xe8; x7d; x0a; xe8; x7e; x0a;
  xe8; xa1; x0a; xe8; xa2; x0a; xe8; xa3;
  x0a; xe8; xa4; x0a; xe8; xa5; x0a; xe8;
  xa6; x0a; xe8; xa7; x0a; xe8; xa8; x0a;
  xe8; xa9; x0a; xe8; xaa; x0a; xe8; xab;
  x0a; xe8; xac; x0a; xe8; xad; x0a; xe8;
  xae; x0a; xe8; xaf; x0a; xe8; xb0; x0a;
  xe8; xb1; x0a; xe8; xb2; x0a; xe8; xb3;
  x0a; xe8; xb4; x0a; xe8; xb5; x0a; xe8;
  xb6; x0a; xe8; xb7; x0a; xe8; xb8; x0a;
  xe8; xb9; x0a; xe8; xba; x0a; xe8; xbb;
  x0a; xe8; xbc; x0a; xe8; xbd; x0a; xe8;
  xbe; x0a; xe8; xbf; x0a; xe8; xc0; x0a;
  xe8; xc1; x0a; xe8; xc2; x0a; xe8; xc3;
  x0a; xe8; xc4; x0a; xe8; xc5; x0a; xe8
].
(* tests/test_data/whatwg/big5_whatwg_test_encode_out.txt, entries 45312..45567 *)
Definition big5_encode_out_177 : list byte := [
  xc6; x0a; xe8; xc7; x0a; xe8; xc8; x0a;
  xe8; xc9; x0a; xe8; xca; x0a; xe8; xcb;
  x0a; xe8; xcc; x0a; xe8; xce; x0a; xe8;
  xcf; x0a; xe8; xd0; x0a; xe8; xd1; x0a;
  xe8; xd2; x0a; xe8; xd3; x0a; xe8; xd4;
  x0a; xe8; xd5; x0a; xe8; xd6; x0a; xe8;
  xd7; x0a; xe8; xd8; x0a; xe8; xd9; x0a;
  xe8; xda; x0a; xe8; xdb; x0a; xe8; xdc;
  x0a; xe8; xdd; x0a; xe8; xde; x0a; xe8;
  xdf; x0a; xe8; xe0; x0a; xe8; xe1; x0a;
  xe8; xe2; x0a; xe8; xe3; x0a; xe8; xe4;
  x0a; xe8; xe5; x0a; xe8; xe6; x0a; xe8;
  xe7; x0a; xe8; xe8; x0a; xe8; xe9; x0a;
  xe8; xea; x0a; xe8; xeb; x0a; xe8; xec;
  x0a; xe8; xed; x0a; xe8; xee; x0a; xe8;
  xef; x0a; xe8; xf0; x0a; xe8; xf1; x0a;
  xe8; xf2; x0a; xe8; xf3; x0a; xe8; xf4;
  x0a; xe8; xf5; x0a; xe8; xf6; x0a; xe8;
  xf7; x0a; xe8; xf8; x0a; xe8; xf9; x0a;
  xe8; xfa; x0a; xe8; xfb; x0a; xe8; xfc;
  x0a; xe8; xfd; x0a; xe8; xfe; x0a; xe9;
  x40; x0a; xe9; x41; x0a; xe9; x42; x0a;
  xe9; x43; x0a; xe9; x44; x0a; xe9; x45;
  x0a; xe9; x46; x0a; xe9; x47; x0a; xe9;
  x48; x0a; xe9; x49; x0a; xe9; x4a; x0a;
  xe9; x4b; x0a; xe9; x4c; x0a; xe9; x4d;
  x0a; xe9; x4e; x0a; xe9; x4f; x0a; xe9;
  x50; x0a; xe9; x51; x0a; xe9; x52; x0a;
  xe9; x53; x0a; xe9; x54; x0a; xe9; x55;
  x0a; xe9; x56; x0a; xe9; x57; x0a; xe9;
  x58; x0a; xe9; x5a; x0a; xe9; x5b; x0a;
  xe9; x5c; x0a; xe9; x5d; x0a; xe9; x5e
].
(* tests/test_data/whatwg/big5_whatwg_test_encode_out.txt, entries 45568..45823 *)
Definition big5_encode_out_178 : list byte := [
  x0a; xe9; x5f; x0a; xe9; x60; x0a; xe9;
  x61; x0a; xe9; x62; x0a; xe9; x63; x0a;
  xe9; x64; x0a; xe9; x65; x0a; xe9; x66;
  x0a; xe9; x67; x0a; xe9; x68; x0a; xe9;
  x69; x0a; xe9; x6a; x0a; xe9; x6b; x0a;
  xe9; x6c; x0a; xe9; x6d; x0a; xe9; x6e;
  x0a; xe9; x6f; x0a; xe9; x70; x0a; xe9;
  x71; x0a; xe9; x72; x0a; xe9; x73; x0a;
  xe9; x74; x0a; xe9; x75; x0a; xe9; x76;
  x0a; xe9; x77; x0a; xe9; x78; x0a; xe9;
  x79; x0a; xe9; x7a; x0a; xe9; x7b; x0a;
  xe9; x7c; x0a; xe9; x7d; x0a; xe9; x7e;
  x0a; xe9; xa1; x0a; xe9; xa2; x0a; xe9;
  xa3; x0a; xe9; xa4; x0a; xe9; xa5; x0a;
  xe9; xa6; x0a; xe9; xa7; x0a; xe9; xa8;
  x0a; xe9; xa9; x0a; xe9; xaa; x0a; xe9;
  xab; x0a; xe9; xac; x0a; xe9; xad; x0a;
  xe9; xae; x0a; xe9; xaf; x0a; xe9; xb0;
  x0a; xe9; xb1; x0a; xe9; xb2; x0a; xe9;
  xb3; x0a; xe9; xb4; x0a; xe9; xb5; x0a;
  xe9; xb6; x0a; xe9; xb7; x0a; xe9; xb8;
  x0a; xe9; xb9; x0a; xe9; xba; x0a; xe9;
  xbb; x0a; xe9; xbc; x0a; xe9; xbd; x0a;
  xe9; xbe; x0a; xe9; xbf; x0a; xe9; xc0;
  x0a; xe9; xc1; x0a; xe9; xc2; x0a; xe9;
  xc3; x0a; xe9; xc4; x0a; xe9; xc5; x0a;
  xe9; xc6; x0a; xe9; xc7; x0a; xe9; xc8;
  x0a; xe9; xc9; x0a; xe9; xca; x0a; xe9;
  xcb; x0a; xe9; xcc; x0a; xe9; xcd; x0a;
  xe9; xce; x0a; xe9; xcf; x0a; xe9; xd0;
  x0a; xe9; xd1; x0a; xe9; xd2; x0a; xe9;
  xd3; x0a; xe9; xd4; x0a; xe9; xd5; x0a
].
(* tests/test_data/whatwg/big5_whatwg_test_encode_out.txt, entries 45824..46079 *)
Definition big5_encode_out_179 : list byte := [
  xe9; xd6; x0a; xe9; xd7; x0a; xe9; xd8;
  x0a; xe9; xd9; x0a; xe9; xda; x0a; xe9;
  xdb; x0a; xe9; xdc; x0a; xe9; xdd; x0a;
  xe9; xde; x0a; xe9; xdf; x0a; xe9; xe0;
  x0a; xe9; xe1; x0a; xe9; xe2; x0a; xe9;
  xe3; x0a; xe9; xe4; x0a; xe9; xe5; x0a;
  xe9; xe6; x0a; xe9; xe7; x0a; xe9; xe8;
  x0a; xe9; xe9; x0a; xe9; xea; x0a; xe9;
  xeb; x0a; xe9; xec; x0a; xe9; xed; x0a;
  xe9; xee; x0a; xe9; xef; x0a; xe9; xf0;
  x0a; xe9; xf1; x0a; xe9; xf2; x0a; xe9;
  xf3; x0a; xe9; xf4; x0a; xe9; xf5; x0a;
  xe9; xf6; x0a; xe9; xf7; x0a; xe9; xf8;
  x0a; xe9; xf9; x0a; xe9; xfa; x0a; xe9;
  xfb; x0a; xe9; xfc; x0a; xe9; xfd; x0a;
  xe9; xfe; x0a; xea; x40; x0a; xea; x41;
  x0a; xea; x42; x0a; xea; x43; x0a; xea;
  x44; x0a; xea; x45; x0a; xea; x46; x0a;
  xea; x47; x0a; xea; x48; x0a; xea; x49;
  x0a; xea; x4a; x0a; xea; x4b; x0a; xea;
  x4c; x0a; xea; x4d; x0a; xea; x4e; x0a;
  xea; x4f; x0a; xea; x50; x0a; xea; x51;
  x0a; xea; x52; x0a; xea; x53; x0a; xea;
  x54; x0a; xea; x55; x0a; xea; x56; x0a;
  xea; x57; x0a; xea; x58; x0a; xea; x59;
  x0a; xea; x5a; x0a; xea; x5b; x0a; xea;
  x5c; x0a; xea; x5d; x0a; xea; x5e; x0a;
  xea; x5f; x0a; xea; x60; x0a; xea; x61;
  x0a; xea; x62; x0a; xea; x63; x0a; xea;
  x64; x0a; xea; x65; x0a; xea; x66; x0a;
  xea; x67; x0a; xea; x68; x0a; xea; x69;
  x0a; xea; x6a; x0a; xea; x6b; x0a; xea
].
(* tests/test_data/whatwg/big5_whatwg_test_encode_out.txt, entries 46080..46335 *)
Definition big5_encode_out_180 : list byte := [
  x6c; x0a; xea; x6d; x0a; xea; x6e; x0a;
  xea; x6f; x0a; xea; x70; x0a; xea; x71;
  x0a; xea; x72; x0a; xea; x73; x0a; xea;
  x74; x0a; xea; x75; x0a; xea; x76; x0a;
  xea; x77; x0a; xea; x78; x0a; xea; x79;
  x0a; xea; x7a; x0a; xea; x7b; x0a; xea;
  x7c; x0a; xea; x7d; x0a; xea; x7e; x0a;
  xea; xa1; x0a; xea; xa2; x0a; xea; xa3;
  x0a; xea; xa4; x0a; xea; xa5; x0a; xea;
  xa6; x0a; xea; xa7; x0a; xea; xa8; x0a;
  xea; xa9; x0a; xea; xaa; x0a; xea; xab;
  x0a; xea; xac; x0a; xea; xad; x0a; xea;
  xae; x0a; xea; xaf; x0a; xea; xb0; x0a;
  xea; xb1; x0a; xea; xb2; x0a; xea; xb3;
  x0a; xea; xb4; x0a; xea; xb5; x0a; xea;
  xb6; x0a; xea; xb7; x0a; xea; xb8; x0a;
  xea; xb9; x0a; xea; xba; x0a; xea; xbb;
  x0a; xea; xbc; x0a; xea; xbd; x0a; xea;
  xbe; x0a; xea; xbf; x0a; xea; xc0; x0a;
  xea; xc1; x0a; xea; xc2; x0a; xea; xc3;
  x0a; xea; xc4; x0a; xea; xc5; x0a; xea;
  xc6; x0a; xea; xc7; x0a; xea; xc8; x0a;
  xea; xc9; x0a; xea; xca; x0a; xea; xcb;
  x0a; xea; xcc; x0a; xea; xcd; x0a; xea;
  xce; x0a; xea; xcf; x0a; xea; xd0; x0a;
  xea; xd1; x0a; xea; xd2; x0a; xea; xd3;
  x0a; xea; xd4; x0a; xea; xd5; x0a; xea;
  xd6; x0a; xea; xd7; x0a; xea; xd8; x0a;
  xea; xd9; x0a; xea; xda; x0a; xea; xdb;
  x0a; xea; xdc; x0a; xea; xdd; x0a; xea;
  xde; x0a; xea; xdf; x0a; xea; xe0; x0a;
  xea; xe1; x0a; xea; xe2; x0a; xea; xe3
].
(* tests/test_data/whatwg/big5_whatwg_test_encode_out.txt, entries 46336..46591 *)
Definition big5_encode_out_181 : list byte := [
  x0a; xea; xe4; x0a; xea; xe5; x0a; xea;
  xe6; x0a; xea; xe7; x0a; xea; xe8; x0a;
  xea; xe9; x0a; xea; xea; x0a; xea; xeb;
  x0a; xea; xec; x0a; xea; xed; x0a; xea;
  xee; x0a; xea; xef; x0a; xea; xf0; x0a;
  xea; xf1; x0a; xea; xf2; x0a; xea; xf3;
  x0a; xea; xf4; x0a; xea; xf5; x0a; xea;
  xf6; x0a; xea; xf7; x0a; xea; xf8; x0a;
  xea; xf9; x0a; xea; xfa; x0a; xea; xfb;
  x0a; xea; xfc; x0a; xea; xfd; x0a; xea;
  xfe; x0a; xeb; x40; x0a; xeb; x41; x0a;
  xeb; x42; x0a; xeb; x43; x0a; xeb; x44;
  x0a; xeb; x45; x0a; xeb; x46; x0a; xeb;
  x47; x0a; xeb; x48; x0a; xeb; x49; x0a;
  xeb; x4a; x0a; xeb; x4b; x0a; xeb; x4c;
  x0a; xeb; x4d; x0a; xeb; x4e; x0a; xeb;
  x4f; x0a; xeb; x50; x0a; xeb; x51; x0a;
  xeb; x52; x0a; xeb; x53; x0a; xeb; x54;
  x0a; xeb; x55; x0a; xeb; x56; x0a; xeb;
  x57; x0a; xeb; x58; x0a; xeb; x59; x0a;
  xeb; x5a; x0a; xeb; x5b; x0a; xeb; x5c;
  x0a; xeb; x5d; x0a; xeb; x5e; x0a; xeb;
  x5f; x0a; xeb; x60; x0a; xeb; x61; x0a;
  xeb; x62; x0a; xeb; x63; x0a; xeb; x64;
  x0a; xeb; x65; x0a; xeb; x66; x0a; xeb;
  x67; x0a; xeb; x68; x0a; xeb; x69; x0a;
  xeb; x6a; x0a; xeb; x6b; x0a; xeb; x6c;
  x0a; xeb; x6d; x0a; xeb; x6e; x0a; xeb;
  x6f; x0a; xeb; x70; x0a; xeb; x71; x0a;
  xeb; x72; x0a; xeb; x73; x0a; xeb; x74;
  x0a; xeb; x75; x0a; xeb; x76; x0a; xeb;
  x77; x0a; xeb; x78; x0a; xeb; x79; x0a
].
(* tests/test_data/whatwg/big5_whatwg_test_encode_out.txt, entries 46592..46847 *)
Definition big5_encode_out_182 : list byte := [
  xeb; x7a; x0a; xeb; x7b; x0a; xeb; x7c;
  x0a; xeb; x7d; x0a; xeb; x7e; x0a; xeb;
  xa1; x0a; xeb; xa2; x0a; xeb; xa3; x0a;
  xeb; xa4; x0a; xeb; xa5; x0a; xeb; xa6;
  x0a; xeb; xa7; x0a; xeb; xa8; x0a; xeb;
  xa9; x0a; xeb; xaa; x0a; xeb; xab; x0a;
  xeb; xac; x0a; xeb; xad; x0a; xeb; xae;
  x0a; xeb; xaf; x0a; xeb; xb0; x0a; xeb;
  xb1; x0a; xeb; xb2; x0a; xeb; xb3; x0a;
  xeb; xb4; x0a; xeb; xb5; x0a; xeb; xb6;
  x0a; xeb; xb7; x0a; xeb; xb8; x0a; xeb;
  xb9; x0a; xeb; xba; x0a; xeb; xbb; x0a;
  xeb; xbc; x0a; xeb; xbd; x0a; xeb; xbe;
  x0a; xeb; xbf; x0a; xeb; xc0; x0a; xeb;
  xc1; x0a; xeb; xc2; x0a; xeb; xc3; x0a;
  xeb; xc4; x0a; xeb; xc5; x0a; xeb; xc6;
  x0a; xeb; xc7; x0a; xeb; xc8; x0a; xeb;
  xca; x0a; xeb; xcb; x0a; xeb; xcc; x0a;
  xeb; xcd; x0a; xeb; xce; x0a; xeb; xcf;
  x0a; xeb; xd0; x0a; xeb; xd1; x0a; xeb;
  xd2; x0a; xeb; xd3; x0a; xeb; xd4; x0a;
  xeb; xd5; x0a; xeb; xd6; x0a; xeb; xd7;
  x0a; xeb; xd8; x0a; xeb; xd9; x0a; xeb;
  xda; x0a; xeb; xdb; x0a; xeb; xdc; x0a;
  xeb; xdd; x0a; xeb; xde; x0a; xeb; xdf;
  x0a; xeb; xe0; x0a; xeb; xe1; x0a; xeb;
  xe2; x0a; xeb; xe3; x0a; xeb; xe4; x0a;
  xeb; xe5; x0a; xeb; xe6; x0a; xeb; xe7;
  x0a; xeb; xe8; x0a; xeb; xe9; x0a; xeb;
  xea; x0a; xeb; xeb; x0a; xeb; xec; x0a;
  xeb; xed; x0a; xeb; xee; x0a; xeb; xef;
  x0a; xeb; xf0; x0a; xeb; xf1; x0a; xeb
].
(* tests/test_data/whatwg/big5_whatwg_test_encode_out.txt, entries 46848..47103 *)
Definition big5_encode_out_183 : list byte := [
  xf2; x0a; xeb; xf3; x0a; xeb; xf4; x0a;
  xeb; xf5; x0a; xeb; xf6; x0a; xeb; xf7;
  x0a; xeb; xf8; x0a; xeb; xf9; x0a; xeb;
  xfa; x0a; xeb; xfb; x0a; xeb; xfc; x0a;
  xeb; xfd; x0a; xeb; xfe; x0a; xec; x40;
  x0a; xec; x41; x0a; xec; x42; x0a; xec;
  x43; x0a; xec; x44; x0a; xec; x45; x0a;
  xec; x46; x0a; xec; x47; x0a; xec; x48;
  x0a; xec; x49; x0a; xec; x4a; x0a; xec;
  x4b; x0a; xec; x4c; x0a; xec; x4d; x0a;
  xec; x4e; x0a; xec; x4f; x0a; xec; x50;
  x0a; xec; x51; x0a; xec; x52; x0a; xec;
  x53; x0a; xec; x54; x0a; xec; x55; x0a;
  xec; x56; x0a; xec; x57; x0a; xec; x58;
  x0a; xec; x59; x0a; xec; x5a; x0a; xec;
  x5b; x0a; xec; x5c; x0a; xec; x5d; x0a;
  xec; x5e; x0a; xec; x5f; x0a; xec; x60;
  x0a; xec; x61; x0a; xec; x62; x0a; xec;
  x63; x0a; xec; x64; x0a; xec; x65; x0a;
  xec; x66; x0a; xec; x67; x0a; xec; x68;
  x0a; xec; x69; x0a; xec; x6a; x0a; xec;
  x6b; x0a; xec; x6c; x0a; xec; x6d; x0a;
  xec; x6e; x0a; xec; x6f; x0a; xec; x70;
  x0a; xec; x71; x0a; xec; x72; x0a; xec;
  x73; x0a; xec; x74; x0a; xec; x75; x0a;
  xec; x76; x0a; xec; x77; x0a; xec; x78;
  x0a; xec; x79; x0a; xec; x7a; x0a; xec;
  x7b; x0a; xec; x7c; x0a; xec; x7d; x0a;
  xec; x7e; x0a; xec; xa1; x0a; xec; xa2;
  x0a; xec; xa3; x0a; xec; xa4; x0a; xec;
  xa5; x0a; xec; xa6; x0a; xec; xa7; x0a;
  xec; xa8; x0a; xec; xa9; x0a; xec; xaa
].
(* tests/test_data/whatwg/big5_whatwg_test_encode_out.txt, entries 47104..47359 *)
Definition big5_encode_out_184 : list byte := [
  x0a; xec; xab; x0a; xec; xac; x0a; xec;
  xad; x0a; xec; xae; x0a; xec; xaf; x0a;
  xec; xb0; x0a; xec; xb1; x0a; xec; xb2;
  x0a; xec; xb3; x0a; xec; xb4; x0a; xec;
  xb5; x0a; xec; xb6; x0a; xec; xb7; x0a;
  xec; xb8; x0a; xec; xb9; x0a; xec; xba;
  x0a; xec; xbb; x0a; xec; xbc; x0a; xec;
  xbd; x0a; xec; xbe; x0a; xec; xbf; x0a;
  xec; xc0; x0a; xec; xc1; x0a; xec; xc2;
  x0a; xec; xc3; x0a; xec; xc4; x0a; xec;
  xc5; x0a; xec; xc6; x0a; xec; xc7; x0a;
  xec; xc8; x0a; xec; xc9; x0a; xec; xca;
  x0a; xec; xcb; x0a; xec; xcc; x0a; xec;
  xcd; x0a; xec; xce; x0a; xec; xcf; x0a;
  xec; xd0; x0a; xec; xd1; x0a; xec; xd2;
  x0a; xec; xd3; x0a; xec; xd4; x0a; xec;
  xd5; x0a; xec; xd6; x0a; xec; xd7; x0a;
  xec; xd8; x0a; xec; xd9; x0a; xec; xda;
  x0a; xec; xdb; x0a; xec; xdc; x0a; xec;
  xdd; x0a; xec; xde; x0a; xec; xdf; x0a;
  xec; xe0; x0a; xec; xe1; x0a; xec; xe2;
  x0a; xec; xe3; x0a; xec; xe4; x0a; xec;
  xe5; x0a; xec; xe6; x0a; xec; xe7; x0a;
  xec; xe8; x0a; xec; xe9; x0a; xec; xea;
  x0a; xec; xeb; x0a; xec; xec; x0a; xec;
  xed; x0a; xec; xee; x0a; xec; xef; x0a;
  xec; xf0; x0a; xec; xf1; x0a; xec; xf2;
  x0a; xec; xf3; x0a; xec; xf4; x0a; xec;
  xf5; x0a; xec; xf6; x0a; xec; xf7; x0a;
  xec; xf8; x0a; xec; xf9; x0a; xec; xfa;
  x0a; xec; xfb; x0a; xec; xfc; x0a; xec;
  xfd; x0a; xec; xfe; x0a; xed; x40; x0a
].
(* tests/test_data/whatwg/big5_whatwg_test_encode_out.txt, entries 47360..47615 *)
Definition big5_encode_out_185 : list byte := [
  xed; x41; x0a; xed; x42; x0a; xed; x43;
  x0a; xed; x44; x0a; xed; x45; x0a; xed;
  x46; x0a; xed; x47; x0a; xed; x48; x0a;
  xed; x49; x0a; xed; x4a; x0a; xed; x4b;
  x0a; xed; x4c; x0a; xed; x4d; x0a; xed;
  x4e; x0a; xed; x4f; x0a; xed; x50; x0a;
  xed; x51; x0a; xed; x52; x0a; xed; x53;
  x0a; xed; x54; x0a; xed; x55; x0a; xed;
  x56; x0a; xed; x57; x0a; xed; x58; x0a;
  xed; x59; x0a; xed; x5a; x0a; xed; x5b;
  x0a; xed; x5c; x0a; xed; x5d; x0a; xed;
  x5e; x0a; xed; x5f; x0a; xed; x60; x0a;
  xed; x61; x0a; xed; x62; x0a; xed; x63;
  x0a; xed; x64; x0a; xed; x65; x0a; xed;
  x66; x0a; xed; x67; x0a; xed; x68; x0a;
  xed; x69; x0a; xed; x6a; x0a; xed; x6b;
  x0a; xed; x6c; x0a; xed; x6d; x0a; xed;
  x6e; x0a; xed; x6f; x0a; xed; x70; x0a;
  xed; x71; x0a; xed; x72; x0a; xed; x73;
  x0a; xed; x74; x0a; xed; x75; x0a; xed;
  x76; x0a; xed; x77; x0a; xed; x78; x0a;
  xed; x79; x0a; xed; x7a; x0a; xed; x7b;
  x0a; xed; x7c; x0a; xed; x7d; x0a; xed;
  x7e; x0a; xed; xa1; x0a; xed; xa2; x0a;
  xed; xa3; x0a; xed; xa4; x0a; xed; xa5;
  x0a; xed; xa6; x0a; xed; xa7; x0a; xed;
  xa8; x0a; xed; xa9; x0a; xed; xaa; x0a;
  xed; xab; x0a; xed; xac; x0a; xed; xad;
  x0a; xed; xae; x0a; xed; xaf; x0a; xed;
  xb0; x0a; xed; xb1; x0a; xed; xb2; x0a;
  xed; xb3; x0a; xed; xb4; x0a; xed; xb5;
  x0a; xed; xb6; x0a; xed; xb7; x0a; xed
].
(* tests/test_data/whatwg/big5_whatwg_test_encode_out.txt, entries 47616..47871 *)
Definition big5_encode_out_186 : list byte := [
  xb8; x0a; xed; xb9; x0a; xed; xba; x0a;
  xed; xbb; x0a; xed; xbc; x0a; xed; xbd;
  x0a; xed; xbe; x0a; xed; xbf; x0a; xed;
  xc0; x0a; xed; xc1; x0a; xed; xc2; x0a;
  xed; xc3; x0a; xed; xc4; x0a; xed; xc5;
  x0a; xed; xc6; x0a; xed; xc7; x0a; xed;
  xc8; x0a; xed; xc9; x0a; xed; xcb; x0a;
  xed; xcc; x0a; xed; xcd; x0a; xed; xce;
  x0a; xed; xcf; x0a; xed; xd0; x0a; xed;
  xd1; x0a; xed; xd2; x0a; xed; xd3; x0a;
  xed; xd4; x0a; xed; xd5; x0a; xed; xd6;
  x0a; xed; xd7; x0a; xed; xd8; x0a; xed;
  xd9; x0a; xed; xda; x0a; xed; xdb; x0a;
  xed; xdc; x0a; xed; xdd; x0a; xed; xde;
  x0a; xed; xdf; x0a; xed; xe0; x0a; xed;
  xe1; x0a; xed; xe2; x0a; xed; xe3; x0a;
  xed; xe4; x0a; xed; xe5; x0a; xed; xe6;
  x0a; xed; xe7; x0a; xed; xe8; x0a; xed;
  xe9; x0a; xed; xea; x0a; xed; xeb; x0a;
  xed; xec; x0a; xed; xed; x0a; xed; xee;
  x0a; xed; xef; x0a; xed; xf0; x0a; xed;
  xf1; x0a; xed; xf2; x0a; xed; xf3; x0a;
  xed; xf4; x0a; xed; xf5; x0a; xed; xf6;
  x0a; xed; xf7; x0a; xed; xf8; x0a; xed;
  xf9; x0a; xed; xfa; x0a; xed; xfb; x0a;
  xed; xfc; x0a; xed; xfd; x0a; xed; xfe;
  x0a; xee; x40; x0a; xee; x41; x0a; xee;
  x42; x0a; xee; x43; x0a; xee; x44; x0a;
  xee; x45; x0a; xee; x46; x0a; xee; x47;
  x0a; xee; x48; x0a; xee; x49; x0a; xee;
  x4a; x0a; xee; x4b; x0a; xee; x4c; x0a;
  xee; x4d; x0a; xee; x4e; x0a; xee; x4f
].
(* tests/test_data/whatwg/big5_whatwg_test_encode_out.txt, entries 47872..48127 *)
Definition big5_encode_out_187 : list byte := [
  x0a; xee; x50; x0a; xee; x51; x0a; xee;
  x52; x0a; xee; x53; x0a; xee; x54; x0a;
  xee; x55; x0a; xee; x56; x0a; xee; x57;
  x0a; xee; x58; x0a; xee; x59; x0a; xee;
  x5a; x0a; xee; x5b; x0a; xee; x5c; x0a;
  xee; x5d; x0a; xee; x5e; x0a; xee; x5f;
  x0a; xee; x60; x0a; xee; x61; x0a; xee;
  x62; x0a; xee; x63; x0a; xee; x64; x0a;
  xee; x65; x0a; xee; x66; x0a; xee; x67;
  x0a; xee; x68; x0a; xee; x69; x0a; xee;
  x6a; x0a; xee; x6b; x0a; xee; x6c; x0a;
  xee; x6d; x0a; xee; x6e; x0a; xee; x6f;
  x0a; xee; x70; x0a; xee; x71; x0a; xee;
  x72; x0a; xee; x73; x0a; xee; x74; x0a;
  xee; x75; x0a; xee; x76; x0a; xee; x77;
  x0a; xee; x78; x0a; xee; x79; x0a; xee;
  x7a; x0a; xee; x7b; x0a; xee; x7c; x0a;
  xee; x7d; x0a; xee; x7e; x0a; xee; xa1;
  x0a; xee; xa2; x0a; xee; xa3; x0a; xee;
  xa4; x0a; xee; xa5; x0a; xee; xa6; x0a;
  xee; xa7; x0a; xee; xa8; x0a; xee; xa9;
  x0a; xee; xaa; x0a; xee; xab; x0a; xee;
  xac; x0a; xee; xad; x0a; xee; xae; x0a;
  xee; xaf; x0a; xee; xb0; x0a; xee; xb1;
  x0a; xee; xb2; x0a; xee; xb3; x0a; xee;
  xb4; x0a; xee; xb5; x0a; xee; xb6; x0a;
  xee; xb7; x0a; xee; xb8; x0a; xee; xb9;
  x0a; xee; xba; x0a; xee; xbb; x0a; xee;
  xbc; x0a; xee; xbd; x0a; xee; xbe; x0a;
  xee; xbf; x0a; xee; xc0; x0a; xee; xc1;
  x0a; xee; xc2; x0a; xee; xc3; x0a; xee;
  xc4; x0a; xee; xc5; x0a; xee; xc6; x0a
].
(* tests/test_data/whatwg/big5_whatwg_test_encode_out.txt, entries 48128..48383 *)
Definition big5_encode_out_188 : list byte := [
  xee; xc7; x0a; xee; xc8; x0a; xee; xc9;
  x0a; xee; xca; x0a; xee; xcb; x0a; xee;
  xcc; x0a; xee; xcd; x0a; xee; xce; x0a;
  xee; xcf; x0a; xee; xd0; x0a; xee; xd1;
  x0a; xee; xd2; x0a; xee; xd3; x0a; xee;
  xd4; x0a; xee; xd5; x0a; xee; xd6; x0a;
  xee; xd7; x0a; xee; xd8; x0a; xee; xd9;
  x0a; xee; xda; x0a; xee; xdb; x0a; xee;
  xdc; x0a; xee; xdd; x0a; xee; xde; x0a;
  xee; xdf; x0a; xee; xe0; x0a; xee; xe1;
  x0a; xee; xe2; x0a; xee; xe3; x0a; xee;
  xe4; x0a; xee; xe5; x0a; xee; xe6; x0a;
  xee; xe7; x0a; xee; xe8; x0a; xee; xe9;
  x0a; xee; xea; x0a; xee; xeb; x0a; xee;
  xec; x0a; xee; xed; x0a; xee; xee; x0a;
  xee; xef; x0a; xee; xf0; x0a; xee; xf1;
  x0a; xee; xf2; x0a; xee; xf3; x0a; xee;
  xf4; x0a; xee; xf5; x0a; xee; xf6; x0a;
  xee; xf7; x0a; xee; xf8; x0a; xee; xf9;
  x0a; xee; xfa; x0a; xee; xfb; x0a; xee;
  xfc; x0a; xee; xfd; x0a; xee; xfe; x0a;
  xef; x40; x0a; xef; x41; x0a; xef; x42;
  x0a; xef; x43; x0a; xef; x44; x0a; xef;
  x45; x0a; xef; x46; x0a; xef; x47; x0a;
  xef; x48; x0a; xef; x49; x0a; xef; x4a;
  x0a; xef; x4b; x0a; xef; x4c; x0a; xef;
  x4d; x0a; xef; x4e; x0a; xef; x4f; x0a;
  xef; x50; x0a; xef; x51; x0a; xef; x52;
  x0a; xef; x53; x0a; xef; x54; x0a; xef;
  x55; x0a; xef; x56; x0a; xef; x57; x0a;
  xef; x58; x0a; xef; x59; x0a; xef; x5a;
  x0a; xef; x5b; x0a; xef; x5c; x0a; xef
].
(* tests/test_data/whatwg/big5_whatwg_test_encode_out.txt, entries 48384..48639 *)
Definition big5_encode_out_189 : list byte := [
  x5d; x0a; xef; x5e; x0a; xef; x5f; x0a;
  xef; x60; x0a; xef; x61; x0a; xef; x62;
  x0a; xef; x63; x0a; xef; x64; x0a; xef;
  x65; x0a; xef; x66; x0a; xef; x67; x0a;
  xef; x68; x0a; xef; x69; x0a; xef; x6a;
  x0a; xef; x6b; x0a; xef; x6c; x0a; xef;
  x6d; x0a; xef; x6e; x0a; xef; x6f; x0a;
  xef; x70; x0a; xef; x71; x0a; xef; x72;
  x0a; xef; x73; x0a; xef; x74; x0a; xef;
  x75; x0a; xef; x76; x0a; xef; x77; x0a;
  xef; x78; x0a; xef; x79; x0a; xef; x7a;
  x0a; xef; x7b; x0a; xef; x7c; x0a; xef;
  x7d; x0a; xef; x7e; x0a; xef; xa1; x0a;
  xef; xa2; x0a; xef; xa3; x0a; xef; xa4;
  x0a; xef; xa5; x0a; xef; xa6; x0a; xef;
  xa7; x0a; xef; xa8; x0a; xef; xa9; x0a;
  xef; xaa; x0a; xef; xab; x0a; xef; xac;
  x0a; xef; xad; x0a; xef; xae; x0a; xef;
  xaf; x0a; xef; xb0; x0a; xef; xb1; x0a;
  xef; xb2; x0a; xef; xb3; x0a; xef; xb4;
  x0a; xef; xb5; x0a; xef; xb6; x0a; xef;
  xb7; x0a; xef; xb8; x0a; xef; xb9; x0a;
  xef; xba; x0a; xef; xbb; x0a; xef; xbc;
  x0a; xef; xbd; x0a; xef; xbe; x0a; xef;
  xbf; x0a; xef; xc0; x0a; xef; xc1; x0a;
  xef; xc2; x0a; xef; xc3; x0a; xef; xc4;
  x0a; xef; xc5; x0a; xef; xc6; x0a; xef;
  xc7; x0a; xef; xc8; x0a; xef; xc9; x0a;
  xef; xca; x0a; xef; xcb; x0a; xef; xcc;
  x0a; xef; xcd; x0a; xef; xce; x0a; xef;
  xcf; x0a; xef; xd0; x0a; xef; xd1; x0a;
  xef; xd2; x0a; xef; xd3; x0a; xef; xd4
].
(* tests/test_data/whatwg/big5_whatwg_test_encode_out.txt, entries 48640..48895 *)
Definition big5_encode_out_190 : list byte := [
  x0a; xef; xd5; x0a; xef; xd6; x0a; xef;
  xd7; x0a; xef; xd8; x0a; xef; xd9; x0a;
  xef; xda; x0a; xef; xdb; x0a; xef; xdc;
  x0a; xef; xdd; x0a; xef; xde; x0a; xef;
  xdf; x0a; xef; xe0; x0a; xef; xe1; x0a;
  xef; xe2; x0a; xef; xe3; x0a; xef; xe4;
  x0a; xef; xe5; x0a; xef; xe6; x0a; xef;
  xe7; x0a; xef; xe8; x0a; xef; xe9; x0a;
  xef; xea; x0a; xef; xeb; x0a; xef; xec;
  x0a; xef; xed; x0a; xef; xee; x0a; xef;
  xef; x0a; xef; xf0; x0a; xef; xf1; x0a;
  xef; xf2; x0a; xef; xf3; x0a; xef; xf4;
  x0a; xef; xf5; x0a; xef; xf6; x0a; xef;
  xf7; x0a; xef; xf8; x0a; xef; xfa; x0a;
  xef; xfb; x0a; xef; xfc; x0a; xef; xfd;
  x0a; xef; xfe; x0a; xf0; x40; x0a; xf0;
  x41; x0a; xf0; x42; x0a; xf0; x43; x0a;
  xf0; x44; x0a; xf0; x45; x0a; xf0; x46;
  x0a; xf0; x47; x0a; xf0; x48; x0a; xf0;
  x49; x0a; xf0; x4a; x0a; xf0; x4b; x0a;
  xf0; x4c; x0a; xf0; x4d; x0a; xf0; x4e;
  x0a; xf0; x4f; x0a; xf0; x50; x0a; xf0;
  x51; x0a; xf0; x52; x0a; xf0; x53; x0a;
  xf0; x54; x0a; xf0; x55; x0a; xf0; x56;
  x0a; xf0; x57; x0a; xf0; x58; x0a; xf0;
  x59; x0a; xf0; x5a; x0a; xf0; x5b; x0a;
  xf0; x5c; x0a; xf0; x5d; x0a; xf0; x5e;
  x0a; xf0; x5f; x0a; xf0; x60; x0a; xf0;
  x61; x0a; xf0; x62; x0a; xf0; x63; x0a;
  xf0; x64; x0a; xf0; x65; x0a; xf0; x66;
  x0a; xf0; x67; x0a; xf0; x68; x0a; xf0;
  x69; x0a; xf0; x6a; x0a; xf0; x6b; x0a
].
(* tests/test_data/whatwg/big5_whatwg_test_encode_out.txt, entries 48896..49151 *)
Definition big5_encode_out_191 : list byte := [
  xf0; x6c; x0a; xf0; x6d; x0a; xf0; x6e;
  x0a; xf0; x6f; x0a; xf0; x70; x0a; xf0;
  x71; x0a; xf0; x72; x0a; xf0; x73; x0a;
  xf0; x74; x0a; xf0; x75; x0a; xf0; x76;
  x0a; xf0; x77; x0a; xf0; x78; x0a; xf0;
  x79; x0a; xf0; x7a; x0a; xf0; x7b; x0a;
  xf0; x7c; x0a; xf0; x7d; x0a; xf0; x7e;
  x0a; xf0; xa1; x0a; xf0; xa2; x0a; xf0;
  xa3; x0a; xf0; xa4; x0a; xf0; xa5; x0a;
  xf0; xa6; x0a; xf0; xa7; x0a; xf0; xa8;
  x0a; xf0; xa9; x0a; xf0; xaa; x0a; xf0;
  xab; x0a; xf0; xac; x0a; xf0; xad; x0a;
  xf0; xae; x0a; xf0; xaf; x0a; xf0; xb0;
  x0a; xf0; xb1; x0a; xf0; xb2; x0a; xf0;
  xb3; x0a; xf0; xb4; x0a; xf0; xb5; x0a;
  xf0; xb6; x0a; xf0; xb7; x0a; xf0; xb8;
  x0a; xf0; xb9; x0a; xf0; xba; x0a; xf0;
  xbb; x0a; xf0; xbc; x0a; xf0; xbd; x0a;
  xf0; xbe; x0a; xf0; xbf; x0a; xf0; xc0;
  x0a; xf0; xc1; x0a; xf0; xc2; x0a; xf0;
  xc3; x0a; xf0; xc4; x0a; xf0; xc5; x0a;
  xf0; xc6; x0a; xf0; xc7; x0a; xf0; xc8;
  x0a; xf0; xc9; x0a; xf0; xca; x0a; xf0;
  xcb; x0a; xf0; xcc; x0a; xf0; xcd; x0a;
  xf0; xce; x0a; xf0; xcf; x0a; xf0; xd0;
  x0a; xf0; xd1; x0a; xf0; xd2; x0a; xf0;
  xd3; x0a; xf0; xd4; x0a; xf0; xd5; x0a;
  xf0; xd6; x0a; xf0; xd7; x0a; xf0; xd8;
  x0a; xf0; xd9; x0a; xf0; xda; x0a; xf0;
  xdb; x0a; xf0; xdc; x0a; xf0; xdd; x0a;
  xf0; xde; x0a; xf0; xdf; x0a; xf0; xe0;
  x0a; xf0; xe1; x0a; xf0; xe2; x0a; xf0
].
(* tests/test_data/whatwg/big5_whatwg_test_encode_out.txt, entries 49152..49407 *)
Definition big5_encode_out_192 : list byte := [
  xe3; x0a; xf0; xe4; x0a; xf0; xe5; x0a;
  xf0; xe6; x0a; xf0; xe7; x0a; xf0; xe8;
  x0a; xf0; xe9; x0a; xf0; xea; x0a; xf0;
  xeb; x0a; xf0; xec; x0a; xf0; xed; x0a;
  xf0; xee; x0a; xf0; xef; x0a; xf0; xf0;
  x0a; xf0; xf1; x0a; xf0; xf2; x0a; xf0;
  xf3; x0a; xf0; xf4; x0a; xf0; xf5; x0a;
  xf0; xf6; x0a; xf0; xf7; x0a; xf0; xf8;
  x0a; xf0; xf9; x0a; xf0; xfa; x0a; xf0;
  xfb; x0a; xf0; xfc; x0a; xf0; xfd; x0a;
  xf0; xfe; x0a; xf1; x40; x0a; xf1; x41;
  x0a; xf1; x42; x0a; xf1; x43; x0a; xf1;
  x44; x0a; xf1; x45; x0a; xf1; x46; x0a;
  xf1; x47; x0a; xf1; x48; x0a; xf1; x49;
  x0a; xf1; x4a; x0a; xf1; x4b; x0a; xf1;
  x4c; x0a; xf1; x4d; x0a; xf1; x4e; x0a;
  xf1; x4f; x0a; xf1; x50; x0a; xf1; x51;
  x0a; xf1; x52; x0a; xf1; x53; x0a; xf1;
  x54; x0a; xf1; x55; x0a; xf1; x56; x0a;
  xf1; x57; x0a; xf1; x58; x0a; xf1; x59;
  x0a; xf1; x5a; x0a; xf1; x5b; x0a; xf1;
  x5c; x0a; xf1; x5d; x0a; xf1; x5e; x0a;
  xf1; x5f; x0a; xf1; x60; x0a; xf1; x61;
  x0a; xf1; x62; x0a; xf1; x63; x0a; xf1;
  x64; x0a; xf1; x65; x0a; xf1; x66; x0a;
  xf1; x67; x0a; xf1; x68; x0a; xf1; x69;
  x0a; xf1; x6a; x0a; xf1; x6b; x0a; xf1;
  x6c; x0a; xf1; x6d; x0a; xf1; x6e; x0a;
  xf1; x6f; x0a; xf1; x70; x0a; xf1; x71;
  x0a; xf1; x72; x0a; xf1; x73; x0a; xf1;
  x74; x0a; xf1; x75; x0a; xf1; x76; x0a;
  xf1; x77; x0a; xf1; x78; x0a; xf1; x79
].
(* tests/test_data/whatwg/big5_whatwg_test_encode_out.txt, entries 49408..49663 *)
Definition big5_encode_out_193 : list byte := [
  x0a; xf1; x7a; x0a; xf1; x7b; x0a; xf1;
  x7c; x0a; xf1; x7d; x0a; xf1; x7e; x0a;
  xf1; xa1; x0a; xf1; xa2; x0a; xf1; xa3;
  x0a; xf1; xa4; x0a; xf1; xa5; x0a; xf1;
  xa6; x0a; xf1; xa7; x0a; xf1; xa8; x0a;
  xf1; xa9; x0a; xf1; xaa; x0a; xf1; xab;
  x0a; xf1; xac; x0a; xf1; xad; x0a; xf1;
  xae; x0a; xf1; xaf; x0a; xf1; xb0; x0a;
  xf1; xb1; x0a; xf1; xb2; x0a; xf1; xb3;
  x0a; xf1; xb4; x0a; xf1; xb5; x0a; xf1;
  xb6; x0a; xf1; xb7; x0a; xf1; xb8; x0a;
  xf1; xb9; x0a; xf1; xba; x0a; xf1; xbb;
  x0a; xf1; xbc; x0a; xf1; xbd; x0a; xf1;
  xbe; x0a; xf1; xbf; x0a; xf1; xc0; x0a;
  xf1; xc1; x0a; xf1; xc2; x0a; xf1; xc3;
  x0a; xf1; xc4; x0a; xf1; xc5; x0a; xf1;
  xc6; x0a; xf1; xc7; x0a; xf1; xc8; x0a;
  xf1; xc9; x0a; xf1; xca; x0a; xf1; xcb;
  x0a; xf1; xcc; x0a; xf1; xcd; x0a; xf1;
  xce; x0a; xf1; xcf; x0a; xf1; xd0; x0a;
  xf1; xd1; x0a; xf1; xd2; x0a; xf1; xd3;
  x0a; xf1; xd4; x0a; xf1; xd5; x0a; xf1;
  xd6; x0a; xf1; xd7; x0a; xf1; xd8; x0a;
  xf1; xd9; x0a; xf1; xda; x0a; xf1; xdb;
  x0a; xf1; xdc; x0a; xf1; xdd; x0a; xf1;
  xde; x0a; xf1; xdf; x0a; xf1; xe0; x0a;
  xf1; xe1; x0a; xf1; xe2; x0a; xf1; xe4;
  x0a; xf1; xe5; x0a; xf1; xe6; x0a; xf1;
  xe7; x0a; xf1; xe8; x0a; xf1; xe9; x0a;
  xf1; xea; x0a; xf1; xeb; x0a; xf1; xec;
  x0a; xf1; xed; x0a; xf1; xee; x0a; xf1;
  xef; x0a; xf1; xf0; x0a; xf1; xf1; x0a
].
(* tests/test_data/whatwg/big5_whatwg_test_encode_out.txt, entries 49664..49919 *)
Definition big5_encode_out_194 : list byte := [
  xf1; xf2; x0a; xf1; xf3; x0a; xf1; xf4;
  x0a; xf1; xf5; x0a; xf1; xf6; x0a; xf1;
  xf7; x0a; xf1; xf8; x0a; xf1; xf9; x0a;
  xf1; xfa; x0a; xf1; xfb; x0a; xf1; xfc;
  x0a; xf1; xfd; x0a; xf1; xfe; x0a; xf2;
  x40; x0a; xf2; x41; x0a; xf2; x42; x0a;
  xf2; x43; x0a; xf2; x44; x0a; xf2; x45;
  x0a; xf2; x46; x0a; xf2; x47; x0a; xf2;
  x48; x0a; xf2; x49; x0a; xf2; x4a; x0a;
  xf2; x4b; x0a; xf2; x4c; x0a; xf2; x4d;
  x0a; xf2; x4e; x0a; xf2; x4f; x0a; xf2;
  x50; x0a; xf2; x51; x0a; xf2; x52; x0a;
  xf2; x53; x0a; xf2; x54; x0a; xf2; x55;
  x0a; xf2; x56; x0a; xf2; x57; x0a; xf2;
  x58; x0a; xf2; x59; x0a; xf2; x5a; x0a;
  xf2; x5b; x0a; xf2; x5c; x0a; xf2; x5d;
  x0a; xf2; x5e; x0a; xf2; x5f; x0a; xf2;
  x60; x0a; xf2; x61; x0a; xf2; x62; x0a;
  xf2; x63; x0a; xf2; x64; x0a; xf2; x65;
  x0a; xf2; x66; x0a; xf2; x67; x0a; xf2;
  x68; x0a; xf2; x69; x0a; xf2; x6a; x0a;
  xf2; x6b; x0a; xf2; x6c; x0a; xf2; x6d;
  x0a; xf2; x6e; x0a; xf2; x6f; x0a; xf2;
  x70; x0a; xf2; x71; x0a; xf2; x72; x0a;
  xf2; x73; x0a; xf2; x74; x0a; xf2; x75;
  x0a; xf2; x76; x0a; xf2; x77; x0a; xf2;
  x78; x0a; xf2; x79; x0a; xf2; x7a; x0a;
  xf2; x7b; x0a; xf2; x7c; x0a; xf2; x7d;
  x0a; xf2; x7e; x0a; xf2; xa1; x0a; xf2;
  xa2; x0a; xf2; xa3; x0a; xf2; xa4; x0a;
  xf2; xa5; x0a; xf2; xa6; x0a; xf2; xa7;
  x0a; xf2; xa8; x0a; xf2; xa9; x0a; xf2
].
(* tests/test_data/whatwg/big5_whatwg_test_encode_out.txt, entries 49920..50175 *)
Definition big5_encode_out_195 : list byte := [
  xaa; x0a; xf2; xab; x0a; xf2; xac; x0a;
  xf2; xad; x0a; xf2; xae; x0a; xf2; xaf;
  x0a; xf2; xb0; x0a; xf2; xb1; x0a; xf2;
  xb2; x0a; xf2; xb3; x0a; xf2; xb4; x0a;
  xf2; xb5; x0a; xf2; xb6; x0a; xf2; xb7;
  x0a; xf2; xb8; x0a; xf2; xb9; x0a; xf2;
  xba; x0a; xf2; xbb; x0a; xf2; xbc; x0a;
  xf2; xbd; x0a; xf2; xbe; x0a; xf2; xbf;
  x0a; xf2; xc0; x0a; xf2; xc1; x0a; xf2;
  xc2; x0a; xf2; xc3; x0a; xf2; xc4; x0a;
  xf2; xc5; x0a; xf2; xc6; x0a; xf2; xc7;
  x0a; xf2; xc8; x0a; xf2; xc9; x0a; xf2;
  xca; x0a; xf2; xcb; x0a; xf2; xcc; x0a;
  xf2; xcd; x0a; xf2; xce; x0a; xf2; xcf;
  x0a; xf2; xd0; x0a; xf2; xd1; x0a; xf2;
  xd2; x0a; xf2; xd3; x0a; xf2; xd4; x0a;
  xf2; xd5; x0a; xf2; xd6; x0a; xf2; xd7;
  x0a; xf2; xd8; x0a; xf2; xd9; x0a; xf2;
  xda; x0a; xf2; xdb; x0a; xf2; xdc; x0a;
  xf2; xdd; x0a; xf2; xde; x0a; xf2; xdf;
  x0a; xf2; xe0; x0a; xf2; xe1; x0a; xf2;
  xe2; x0a; xf2; xe3; x0a; xf2; xe4; x0a;
  xf2; xe5; x0a; xf2; xe6; x0a; xf2; xe7;
  x0a; xf2; xe8; x0a; xf2; xe9; x0a; xf2;
  xea; x0a; xf2; xeb; x0a; xf2; xec; x0a;
  xf2; xed; x0a; xf2; xee; x0a; xf2; xef;
  x0a; xf2; xf0; x0a; xf2; xf1; x0a; xf2;
  xf2; x0a; xf2; xf3; x0a; xf2; xf4; x0a;
  xf2; xf5; x0a; xf2; xf6; x0a; xf2; xf7;
  x0a; xf2; xf8; x0a; xf2; xf9; x0a; xf2;
  xfa; x0a; xf2; xfb; x0a; xf2; xfc; x0a;
  xf2; xfd; x0a; xf2; xfe; x0a; xf3; x40
].
(* tests/test_data/whatwg/big5_whatwg_test_encode_out.txt, entries 50176..50431 *)
Definition big5_encode_out_196 : list byte := [
  x0a; xf3; x41; x0a; xf3; x42; x0a; xf3;
  x43; x0a; xf3; x44; x0a; xf3; x45; x0a;
  xf3; x46; x0a; xf3; x47; x0a; xf3; x48;
  x0a; xf3; x49; x0a; xf3; x4a; x0a; xf3;
  x4b; x0a; xf3; x4c; x0a; xf3; x4d; x0a;
  xf3; x4e; x0a; xf3; x4f; x0a; xf3; x50;
  x0a; xf3; x51; x0a; xf3; x52; x0a; xf3;
  x53; x0a; xf3; x54; x0a; xf3; x55; x0a;
  xf3; x56; x0a; xf3; x57; x0a; xf3; x58;
  x0a; xf3; x59; x0a; xf3; x5a; x0a; xf3;
  x5b; x0a; xf3; x5c; x0a; xf3; x5d; x0a;
  xf3; x5e; x0a; xf3; x5f; x0a; xf3; x60;
  x0a; xf3; x61; x0a; xf3; x62; x0a; xf3;
  x63; x0a; xf3; x64; x0a; xf3; x65; x0a;
  xf3; x66; x0a; xf3; x67; x0a; xf3; x68;
  x0a; xf3; x69; x0a; xf3; x6a; x0a; xf3;
  x6b; x0a; xf3; x6c; x0a; xf3; x6d; x0a;
  xf3; x6e; x0a; xf3; x6f; x0a; xf3; x70;
  x0a; xf3; x71; x0a; xf3; x72; x0a; xf3;
  x73; x0a; xf3; x74; x0a; xf3; x75; x0a;
  xf3; x76; x0a; xf3; x77; x0a; xf3; x78;
  x0a; xf3; x79; x0a; xf3; x7a; x0a; xf3;
  x7b; x0a; xf3; x7c; x0a; xf3; x7d; x0a;
  xf3; x7e; x0a; xf3; xa1; x0a; xf3; xa2;
  x0a; xf3; xa3; x0a; xf3; xa4; x0a; xf3;
  xa5; x0a; xf3; xa6; x0a; xf3; xa7; x0a;
  xf3; xa8; x0a; xf3; xa9; x0a; xf3; xaa;
  x0a; xf3; xab; x0a; xf3; xac; x0a; xf3;
  xad; x0a; xf3; xae; x0a; xf3; xaf; x0a;
  xf3; xb0; x0a; xf3; xb1; x0a; xf3; xb2;
  x0a; xf3; xb3; x0a; xf3; xb4; x0a; xf3;
  xb5; x0a; xf3; xb6; x0a; xf3; xb7; x0a
].
(* tests/test_data/whatwg/big5_whatwg_test_encode_out.txt, entries 50432..50687 *)
Definition big5_encode_out_197 : list byte := [
  xf3; xb8; x0a; xf3; xb9; x0a; xf3; xba;
  x0a; xf3; xbb; x0a; xf3; xbc; x0a; xf3;
  xbd; x0a; xf3; xbe; x0a; xf3; xbf; x0a;
  xf3; xc0; x0a; xf3; xc1; x0a; xf3; xc2;
  x0a; xf3; xc3; x0a; xf3; xc4; x0a; xf3;
  xc5; x0a; xf3; xc6; x0a; xf3; xc7; x0a;
  xf3; xc8; x0a; xf3; xc9; x0a; xf3; xca;
  x0a; xf3; xcb; x0a; xf3; xcc; x0a; xf3;
  xcd; x0a; xf3; xce; x0a; xf3; xcf; x0a;
  xf3; xd0; x0a; xf3; xd1; x0a; xf3; xd2;
  x0a; xf3; xd3; x0a; xf3; xd4; x0a; xf3;
  xd5; x0a; xf3; xd6; x0a; xf3; xd7; x0a;
  xf3; xd8; x0a; xf3; xd9; x0a; xf3; xda;
  x0a; xf3; xdb; x0a; xf3; xdc; x0a; xf3;
  xdd; x0a; xf3; xde; x0a; xf3; xdf; x0a;
  xf3; xe0; x0a; xf3; xe1; x0a; xf3; xe2;
  x0a; xf3; xe3; x0a; xf3; xe4; x0a; xf3;
  xe5; x0a; xf3; xe6; x0a; xf3; xe7; x0a;
  xf3; xe8; x0a; xf3; xe9; x0a; xf3; xea;
  x0a; xf3; xeb; x0a; xf3; xec; x0a; xf3;
  xed; x0a; xf3; xee; x0a; xf3; xef; x0a;
  xf3; xf0; x0a; xf3; xf1; x0a; xf3; xf2;
  x0a; xf3; xf3; x0a; xf3; xf4; x0a; xf3;
  xf5; x0a; xf3; xf6; x0a; xf3; xf7; x0a;
  xf3; xf8; x0a; xf3; xf9; x0a; xf3; xfa;
  x0a; xf3; xfb; x0a; xf3; xfc; x0a; xf3;
  xfd; x0a; xf3; xfe; x0a; xf4; x40; x0a;
  xf4; x41; x0a; xf4; x42; x0a; xf4; x43;
  x0a; xf4; x44; x0a; xf4; x45; x0a; xf4;
  x46; x0a; xf4; x47; x0a; xf4; x48; x0a;
  xf4; x49; x0a; xf4; x4a; x0a; xf4; x4b;
  x0a; xf4; x4c; x0a; xf4; x4d; x0a; xf4
].
(* tests/test_data/whatwg/big5_whatwg_test_encode_out.txt, entries 50688..50943 *)
Definition big5_encode_out_198 : list byte := [
  x4e; x0a; xf4; x4f; x0a; xf4; x50; x0a;
  xf4; x51; x0a; xf4; x52; x0a; xf4; x53;
  x0a; xf4; x54; x0a; xf4; x55; x0a; xf4;
  x56; x0a; xf4; x57; x0a; xf4; x58; x0a;
  xf4; x59; x0a; xf4; x5a; x0a; xf4; x5b;
  x0a; xf4; x5c; x0a; xf4; x5d; x0a; xf4;
  x5e; x0a; xf4; x5f; x0a; xf4; x60; x0a;
  xf4; x61; x0a; xf4; x62; x0a; xf4; x63;
  x0a; xf4; x64; x0a; xf4; x65; x0a; xf4;
  x66; x0a; xf4; x67; x0a; xf4; x68; x0a;
  xf4; x69; x0a; xf4; x6a; x0a; xf4; x6b;
  x0a; xf4; x6c; x0a; xf4; x6d; x0a; xf4;
  x6e; x0a; xf4; x6f; x0a; xf4; x70; x0a;
  xf4; x71; x0a; xf4; x72; x0a; xf4; x73;
  x0a; xf4; x74; x0a; xf4; x75; x0a; xf4;
  x76; x0a; xf4; x77; x0a; xf4; x78; x0a;
  xf4; x79; x0a; xf4; x7a; x0a; xf4; x7b;
  x0a; xf4; x7c; x0a; xf4; x7d; x0a; xf4;
  x7e; x0a; xf4; xa1; x0a; xf4; xa2; x0a;
  xf4; xa3; x0a; xf4; xa4; x0a; xf4; xa5;
  x0a; xf4; xa6; x0a; xf4; xa7; x0a; xf4;
  xa8; x0a; xf4; xa9; x0a; xf4; xaa; x0a;
  xf4; xab; x0a; xf4; xac; x0a; xf4; xad;
  x0a; xf4; xae; x0a; xf4; xaf; x0a; xf4;
  xb0; x0a; xf4; xb1; x0a; xf4; xb2; x0a;
  xf4; xb3; x0a; xf4; xb4; x0a; xf4; xb5;
  x0a; xf4; xb6; x0a; xf4; xb7; x0a; xf4;
  xb8; x0a; xf4; xb9; x0a; xf4; xba; x0a;
  xf4; xbb; x0a; xf4; xbc; x0a; xf4; xbd;
  x0a; xf4; xbe; x0a; xf4; xbf; x0a; xf4;
  xc0; x0a; xf4; xc1; x0a; xf4; xc2; x0a;
  xf4; xc3; x0a; xf4; xc4; x0a; xf4; xc5
].
(* tests/test_data/whatwg/big5_whatwg_test_encode_out.txt, entries 50944..51199 *)
Definition big5_encode_out_199 : list byte := [
  x0a; xf4; xc6; x0a; xf4; xc7; x0a; xf4;
  xc8; x0a; xf4; xc9; x0a; xf4; xca; x0a;
  xf4; xcb; x0a; xf4; xcc; x0a; xf4; xcd;
  x0a; xf4; xce; x0a; xf4; xcf; x0a; xf4;
  xd0; x0a; xf4; xd1; x0a; xf4; xd2; x0a;
  xf4; xd3; x0a; xf4; xd4; x0a; xf4; xd5;
  x0a; xf4; xd6; x0a; xf4; xd7; x0a; xf4;
  xd8; x0a; xf4; xd9; x0a; xf4; xda; x0a;
  xf4; xdb; x0a; xf4; xdc; x0a; xf4; xdd;
  x0a; xf4; xde; x0a; xf4; xdf; x0a; xf4;
  xe0; x0a; xf4; xe1; x0a; xf4; xe2; x0a;
  xf4; xe3; x0a; xf4; xe4; x0a; xf4; xe5;
  x0a; xf4; xe6; x0a; xf4; xe7; x0a; xf4;
  xe8; x0a; xf4; xe9; x0a; xf4; xea; x0a;
  xf4; xeb; x0a; xf4; xec; x0a; xf4; xed;
  x0a; xf4; xee; x0a; xf4; xef; x0a; xf4;
  xf0; x0a; xf4; xf1; x0a; xf4; xf2; x0a;
  xf4; xf3; x0a; xf4; xf4; x0a; xf4; xf5;
  x0a; xf4; xf6; x0a; xf4; xf7; x0a; xf4;
  xf8; x0a; xf4; xf9; x0a; xf4; xfa; x0a;
  xf4; xfb; x0a; xf4; xfc; x0a; xf4; xfd;
  x0a; xf4; xfe; x0a; xf5; x40; x0a; xf5;
  x41; x0a; xf5; x42; x0a; xf5; x43; x0a;
  xf5; x44; x0a; xf5; x45; x0a; xf5; x46;
  x0a; xf5; x47; x0a; xf5; x48; x0a; xf5;
  x49; x0a; xf5; x4a; x0a; xf5; x4b; x0a;
  xf5; x4c; x0a; xf5; x4d; x0a; xf5; x4e;
  x0a; xf5; x4f; x0a; xf5; x50; x0a; xf5;
  x51; x0a; xf5; x52; x0a; xf5; x53; x0a;
  xf5; x54; x0a; xf5; x55; x0a; xf5; x56;
  x0a; xf5; x57; x0a; xf5; x58; x0a; xf5;
  x59; x0a; xf5; x5a; x0a; xf5; x5b; x0a
].
(* tests/test_data/whatwg/big5_whatwg_test_encode_out.txt, entries 51200..51455 *)
Definition big5_encode_out_200 : list byte := [
  xf5; x5c; x0a; xf5; x5d; x0a; xf5; x5e;
  x0a; xf5; x5f; x0a; xf5; x60; x0a; xf5;
  x61; x0a; xf5; x62; x0a; xf5; x63; x0a;
  xf5; x64; x0a; xf5; x65; x0a; xf5; x66;
  x0a; xf5; x67; x0a; xf5; x68; x0a; xf5;
  x69; x0a; xf5; x6a; x0a; xf5; x6b; x0a;
  xf5; x6c; x0a; xf5; x6d; x0a; xf5; x6e;
  x0a; xf5; x6f; x0a; xf5; x70; x0a; xf5;
  x71; x0a; xf5; x72; x0a; xf5; x73; x0a;
  xf5; x74; x0a; xf5; x75; x0a; xf5; x76;
  x0a; xf5; x77; x0a; xf5; x78; x0a; xf5;
  x79; x0a; xf5; x7a; x0a; xf5; x7b; x0a;
  xf5; x7c; x0a; xf5; x7d; x0a; xf5; x7e;
  x0a; xf5; xa1; x0a; xf5; xa2; x0a; xf5;
  xa3; x0a; xf5; xa4; x0a; xf5; xa5; x0a;
  xf5; xa6; x0a; xf5; xa7; x0a; xf5; xa8;
  x0a; xf5; xa9; x0a; xf5; xaa; x0a; xf5;
  xab; x0a; xf5; xac; x0a; xf5; xad; x0a;
  xf5; xae; x0a; xf5; xaf; x0a; xf5; xb0;
  x0a; xf5; xb1; x0a; xf5; xb2; x0a; xf5;
  xb3; x0a; xf5; xb4; x0a; xf5; xb5; x0a;
  xf5; xb6; x0a; xf5; xb7; x0a; xf5; xb8;
  x0a; xf5; xb9; x0a; xf5; xba; x0a; xf5;
  xbb; x0a; xf5; xbc; x0a; xf5; xbd; x0a;
  xf5; xbe; x0a; xf5; xbf; x0a; xf5; xc0;
  x0a; xf5; xc1; x0a; xf5; xc2; x0a; xf5;
  xc3; x0a; xf5; xc4; x0a; xf5; xc5; x0a;
  xf5; xc6; x0a; xf5; xc7; x0a; xf5; xc8;
  x0a; xf5; xc9; x0a; xf5; xca; x0a; xf5;
  xcb; x0a; xf5; xcc; x0a; xf5; xcd; x0a;
  xf5; xce; x0a; xf5; xcf; x0a; xf5; xd0;
  x0a; xf5; xd1; x0a; xf5; xd2; x0a; xf5
].
(* tests/test_data/whatwg/big5_whatwg_test_encode_out.txt, entries 51456..51711 *)
Definition big5_encode_out_201 : list byte := [
  xd3; x0a; xf5; xd4; x0a; xf5; xd5; x0a;
  xf5; xd6; x0a; xf5; xd7; x0a; xf5; xd8;
  x0a; xf5; xd9; x0a; xf5; xda; x0a; xf5;
  xdb; x0a; xf5; xdc; x0a; xf5; xdd; x0a;
  xf5; xde; x0a; xf5; xdf; x0a; xf5; xe0;
  x0a; xf5; xe1; x0a; xf5; xe2; x0a; xf5;
  xe3; x0a; xf5; xe4; x0a; xf5; xe5; x0a;
  xf5; xe6; x0a; xf5; xe7; x0a; xf5; xe9;
  x0a; xf5; xea; x0a; xf5; xeb; x0a; xf5;
  xec; x0a; xf5; xed; x0a; xf5; xee; x0a;
  xf5; xef; x0a; xf5; xf0; x0a; xf5; xf1;
  x0a; xf5; xf2; x0a; xf5; xf3; x0a; xf5;
  xf4; x0a; xf5; xf5; x0a; xf5; xf6; x0a;
  xf5; xf7; x0a; xf5; xf8; x0a; xf5; xf9;
  x0a; xf5; xfa; x0a; xf5; xfb; x0a; xf5;
  xfc; x0a; xf5; xfd; x0a; xf5; xfe; x0a;
  xf6; x40; x0a; xf6; x41; x0a; xf6; x42;
  x0a; xf6; x43; x0a; xf6; x44; x0a; xf6;
  x45; x0a; xf6; x46; x0a; xf6; x47; x0a;
  xf6; x48; x0a; xf6; x49; x0a; xf6; x4a;
  x0a; xf6; x4b; x0a; xf6; x4c; x0a; xf6;
  x4d; x0a; xf6; x4e; x0a; xf6; x4f; x0a;
  xf6; x50; x0a; xf6; x51; x0a; xf6; x52;
  x0a; xf6; x53; x0a; xf6; x54; x0a; xf6;
  x55; x0a; xf6; x56; x0a; xf6; x57; x0a;
  xf6; x58; x0a; xf6; x59; x0a; xf6; x5a;
  x0a; xf6; x5b; x0a; xf6; x5c; x0a; xf6;
  x5d; x0a; xf6; x5e; x0a; xf6; x5f; x0a;
  xf6; x60; x0a; xf6; x61; x0a; xf6; x62;
  x0a; xf6; x63; x0a; xf6; x64; x0a; xf6;
  x65; x0a; xf6; x66; x0a; xf6; x67; x0a;
  xf6; x68; x0a; xf6; x69; x0a; xf6; x6a
].
(* tests/test_data/whatwg/big5_whatwg_test_encode_out.txt, entries 51712..51967 *)
Definition big5_encode_out_202 : list byte := [
  x0a; xf6; x6b; x0a; xf6; x6c; x0a; xf6;
  x6d; x0a; xf6; x6e; x0a; xf6; x6f; x0a;
  xf6; x70; x0a; xf6; x71; x0a; xf6; x72;
  x0a; xf6; x73; x0a; xf6; x74; x0a; xf6;
  x75; x0a; xf6; x76; x0a; xf6; x77; x0a;
  xf6; x78; x0a; xf6; x79; x0a; xf6; x7a;
  x0a; xf6; x7b; x0a; xf6; x7c; x0a; xf6;
  x7d; x0a; xf6; x7e; x0a; xf6; xa1; x0a;
  xf6; xa2; x0a; xf6; xa3; x0a; xf6; xa4;
  x0a; xf6; xa5; x0a; xf6; xa6; x0a; xf6;
  xa7; x0a; xf6; xa8; x0a; xf6; xa9; x0a;
  xf6; xaa; x0a; xf6; xab; x0a; xf6; xac;
  x0a; xf6; xad; x0a; xf6; xae; x0a; xf6;
  xaf; x0a; xf6; xb0; x0a; xf6; xb1; x0a;
  xf6; xb2; x0a; xf6; xb3; x0a; xf6; xb4;
  x0a; xf6; xb5; x0a; xf6; xb6; x0a; xf6;
  xb7; x0a; xf6; xb8; x0a; xf6; xb9; x0a;
  xf6; xba; x0a; xf6; xbb; x0a; xf6; xbc;
  x0a; xf6; xbd; x0a; xf6; xbe; x0a; xf6;
  xbf; x0a; xf6; xc0; x0a; xf6; xc1; x0a;
  xf6; xc2; x0a; xf6; xc3; x0a; xf6; xc4;
  x0a; xf6; xc5; x0a; xf6; xc6; x0a; xf6;
  xc7; x0a; xf6; xc8; x0a; xf6; xc9; x0a;
  xf6; xca; x0a; xf6; xcb; x0a; xf6; xcc;
  x0a; xf6; xcd; x0a; xf6; xce; x0a; xf6;
  xcf; x0a; xf6; xd0; x0a; xf6; xd1; x0a;
  xf6; xd2; x0a; xf6; xd3; x0a; xf6; xd4;
  x0a; xf6; xd5; x0a; xf6; xd6; x0a; xf6;
  xd7; x0a; xf6; xd8; x0a; xf6; xd9; x0a;
  xf6; xda; x0a; xf6; xdb; x0a; xf6; xdc;
  x0a; xf6; xdd; x0a; xf6; xde; x0a; xf6;
  xdf; x0a; xf6; xe0; x0a; xf6; xe1; x0a
].
(* tests/test_data/whatwg/big5_whatwg_test_encode_out.txt, entries 51968..52223 *)
Definition big5_encode_out_203 : list byte := [
  xf6; xe2; x0a; xf6; xe3; x0a; xf6; xe4;
  x0a; xf6; xe5; x0a; xf6; xe6; x0a; xf6;
  xe7; x0a; xf6; xe8; x0a; xf6; xe9; x0a;
  xf6; xea; x0a; xf6; xeb; x0a; xf6; xec;
  x0a; xf6; xed; x0a; xf6; xee; x0a; xf6;
  xef; x0a; xf6; xf0; x0a; xf6; xf1; x0a;
  xf6; xf2; x0a; xf6; xf3; x0a; xf6; xf4;
  x0a; xf6; xf5; x0a; xf6; xf6; x0a; xf6;
  xf7; x0a; xf6; xf8; x0a; xf6; xf9; x0a;
  xf6; xfa; x0a; xf6; xfb; x0a; xf6; xfc;
  x0a; xf6; xfd; x0a; xf6; xfe; x0a; xf7;
  x40; x0a; xf7; x41; x0a; xf7; x42; x0a;
  xf7; x43; x0a; xf7; x44; x0a; xf7; x45;
  x0a; xf7; x46; x0a; xf7; x47; x0a; xf7;
  x48; x0a; xf7; x49; x0a; xf7; x4a; x0a;
  xf7; x4b; x0a; xf7; x4c; x0a; xf7; x4d;
  x0a; xf7; x4e; x0a; xf7; x4f; x0a; xf7;
  x50; x0a; xf7; x51; x0a; xf7; x52; x0a;
  xf7; x53; x0a; xf7; x54; x0a; xf7; x55;
  x0a; xf7; x56; x0a; xf7; x57; x0a; xf7;
  x58; x0a; xf7; x59; x0a; xf7; x5a; x0a;
  xf7; x5b; x0a; xf7; x5c; x0a; xf7; x5d;
  x0a; xf7; x5e; x0a; xf7; x5f; x0a; xf7;
  x60; x0a; xf7; x61; x0a; xf7; x62; x0a;
  xf7; x63; x0a; xf7; x64; x0a; xf7; x65;
  x0a; xf7; x66; x0a; xf7; x67; x0a; xf7;
  x68; x0a; xf7; x69; x0a; xf7; x6a; x0a;
  xf7; x6b; x0a; xf7; x6c; x0a; xf7; x6d;
  x0a; xf7; x6e; x0a; xf7; x6f; x0a; xf7;
  x70; x0a; xf7; x71; x0a; xf7; x72; x0a;
  xf7; x73; x0a; xf7; x74; x0a; xf7; x75;
  x0a; xf7; x76; x0a; xf7; x77; x0a; xf7
].
(* tests/test_data/whatwg/big5_whatwg_test_encode_out.txt, entries 52224..52479 *)
Definition big5_encode_out_204 : list byte := [
  x78; x0a; xf7; x79; x0a; xf7; x7a; x0a;
  xf7; x7b; x0a; xf7; x7c; x0a; xf7; x7d;
  x0a; xf7; x7e; x0a; xf7; xa1; x0a; xf7;
  xa2; x0a; xf7; xa3; x0a; xf7; xa4; x0a;
  xf7; xa5; x0a; xf7; xa6; x0a; xf7; xa7;
  x0a; xf7; xa8; x0a; xf7; xa9; x0a; xf7;
  xaa; x0a; xf7; xab; x0a; xf7; xac; x0a;
  xf7; xad; x0a; xf7; xae; x0a; xf7; xaf;
  x0a; xf7; xb0; x0a; xf7; xb1; x0a; xf7;
  xb2; x0a; xf7; xb3; x0a; xf7; xb4; x0a;
  xf7; xb5; x0a; xf7; xb6; x0a; xf7; xb7;
  x0a; xf7; xb8; x0a; xf7; xb9; x0a; xf7;
  xba; x0a; xf7; xbb; x0a; xf7; xbc; x0a;
  xf7; xbd; x0a; xf7; xbe; x0a; xf7; xbf;
  x0a; xf7; xc0; x0a; xf7; xc1; x0a; xf7;
  xc2; x0a; xf7; xc3; x0a; xf7; xc4; x0a;
  xf7; xc5; x0a; xf7; xc6; x0a; xf7; xc7;
  x0a; xf7; xc8; x0a; xf7; xc9; x0a; xf7;
  xca; x0a; xf7; xcb; x0a; xf7; xcc; x0a;
  xf7; xcd; x0a; xf7; xce; x0a; xf7; xcf;
  x0a; xf7; xd0; x0a; xf7; xd1; x0a; xf7;
  xd2; x0a; xf7; xd3; x0a; xf7; xd4; x0a;
  xf7; xd5; x0a; xf7; xd6; x0a; xf7; xd7;
  x0a; xf7; xd8; x0a; xf7; xd9; x0a; xf7;
  xda; x0a; xf7; xdb; x0a; xf7; xdc; x0a;
  xf7; xdd; x0a; xf7; xde; x0a; xf7; xdf;
  x0a; xf7; xe0; x0a; xf7; xe1; x0a; xf7;
  xe2; x0a; xf7; xe3; x0a; xf7; xe4; x0a;
  xf7; xe5; x0a; xf7; xe6; x0a; xf7; xe7;
  x0a; xf7; xe8; x0a; xf7; xe9; x0a; xf7;
  xea; x0a; xf7; xeb; x0a; xf7; xec; x0a;
  xf7; xed; x0a; xf7; xee; x0a; xf7; xef
].
(* tests/test_data/whatwg/big5_whatwg_test_encode_out.txt, entries 52480..52735 *)
Definition big5_encode_out_205 : list byte := [
  x0a; xf7; xf0; x0a; xf7; xf1; x0a; xf7;
  xf2; x0a; xf7; xf3; x0a; xf7; xf4; x0a;
  xf7; xf5; x0a; xf7; xf6; x0a; xf7; xf7;
  x0a; xf7; xf8; x0a; xf7; xf9; x0a; xf7;
  xfa; x0a; xf7; xfb; x0a; xf7; xfc; x0a;
  xf7; xfd; x0a; xf7; xfe; x0a; xf8; x40;
  x0a; xf8; x41; x0a; xf8; x42; x0a; xf8;
  x43; x0a; xf8; x44; x0a; xf8; x45; x0a;
  xf8; x46; x0a; xf8; x47; x0a; xf8; x48;
  x0a; xf8; x49; x0a; xf8; x4a; x0a; xf8;
  x4b; x0a; xf8; x4c; x0a; xf8; x4d; x0a;
  xf8; x4e; x0a; xf8; x4f; x0a; xf8; x50;
  x0a; xf8; x51; x0a; xf8; x52; x0a; xf8;
  x53; x0a; xf8; x54; x0a; xf8; x55; x0a;
  xf8; x56; x0a; xf8; x57; x0a; xf8; x58;
  x0a; xf8; x59; x0a; xf8; x5a; x0a; xf8;
  x5b; x0a; xf8; x5c; x0a; xf8; x5d; x0a;
  xf8; x5e; x0a; xf8; x5f; x0a; xf8; x60;
  x0a; xf8; x61; x0a; xf8; x62; x0a; xf8;
  x63; x0a; xf8; x64; x0a; xf8; x65; x0a;
  xf8; x66; x0a; xf8; x67; x0a; xf8; x68;
  x0a; xf8; x69; x0a; xf8; x6a; x0a; xf8;
  x6b; x0a; xf8; x6c; x0a; xf8; x6e; x0a;
  xf8; x6f; x0a; xf8; x70; x0a; xf8; x71;
  x0a; xf8; x72; x0a; xf8; x73; x0a; xf8;
  x74; x0a; xf8; x75; x0a; xf8; x76; x0a;
  xf8; x77; x0a; xf8; x78; x0a; xf8; x79;
  x0a; xf8; x7a; x0a; xf8; x7b; x0a; xf8;
  x7c; x0a; xf8; x7d; x0a; xf8; x7e; x0a;
  xf8; xa1; x0a; xf8; xa2; x0a; xf8; xa3;
  x0a; xf8; xa4; x0a; xf8; xa5; x0a; xf8;
  xa6; x0a; xf8; xa7; x0a; xf8; xa8; x0a
].
(* tests/test_data/whatwg/big5_whatwg_test_encode_out.txt, entries 52736..52991 *)
Definition big5_encode_out_206 : list byte := [
  xf8; xa9; x0a; xf8; xaa; x0a; xf8; xab;
  x0a; xf8; xac; x0a; xf8; xad; x0a; xf8;
  xae; x0a; xf8; xaf; x0a; xf8; xb0; x0a;
  xf8; xb1; x0a; xf8; xb2; x0a; xf8; xb3;
  x0a; xf8; xb4; x0a; xf8; xb5; x0a; xf8;
  xb6; x0a; xf8; xb7; x0a; xf8; xb8; x0a;
  xf8; xb9; x0a; xf8; xba; x0a; xf8; xbb;
  x0a; xf8; xbc; x0a; xf8; xbd; x0a; xf8;
  xbe; x0a; xf8; xbf; x0a; xf8; xc0; x0a;
  xf8; xc1; x0a; xf8; xc2; x0a; xf8; xc3;
  x0a; xf8; xc4; x0a; xf8; xc5; x0a; xf8;
  xc6; x0a; xf8; xc7; x0a; xf8; xc8; x0a;
  xf8; xc9; x0a; xf8; xca; x0a; xf8; xcb;
  x0a; xf8; xcc; x0a; xf8; xcd; x0a; xf8;
  xce; x0a; xf8; xcf; x0a; xf8; xd0; x0a;
  xf8; xd1; x0a; xf8; xd2; x0a; xf8; xd3;
  x0a; xf8; xd4; x0a; xf8; xd5; x0a; xf8;
  xd6; x0a; xf8; xd7; x0a; xf8; xd8; x0a;
  xf8; xd9; x0a; xf8; xda; x0a; xf8; xdb;
  x0a; xf8; xdc; x0a; xf8; xdd; x0a; xf8;
  xde; x0a; xf8; xdf; x0a; xf8; xe0; x0a;
  xf8; xe1; x0a; xf8; xe2; x0a; xf8; xe3;
  x0a; xf8; xe4; x0a; xf8; xe5; x0a; xf8;
  xe6; x0a; xf8; xe7; x0a; xf8; xe8; x0a;
  xf8; xe9; x0a; xf8; xea; x0a; xf8; xeb;
  x0a; xf8; xec; x0a; xf8; xed; x0a; xf8;
  xee; x0a; xf8; xef; x0a; xf8; xf0; x0a;
  xf8; xf1; x0a; xf8; xf2; x0a; xf8; xf3;
  x0a; xf8; xf4; x0a; xf8; xf5; x0a; xf8;
  xf6; x0a; xf8; xf7; x0a; xf8; xf8; x0a;
  xf8; xf9; x0a; xf8; xfa; x0a; xf8; xfb;
  x0a; xf8; xfc; x0a; xf8; xfd; x0a; xf8
].
(* tests/test_data/whatwg/big5_whatwg_test_encode_out.txt, entries 52992..53247 *)
Definition big5_encode_out_207 : list byte := [
  xfe; x0a; xf9; x40; x0a; xf9; x41; x0a;
  xf9; x42; x0a; xf9; x43; x0a; xf9; x44;
  x0a; xf9; x45; x0a; xf9; x46; x0a; xf9;
  x47; x0a; xf9; x48; x0a; xf9; x49; x0a;
  xf9; x4a; x0a; xf9; x4b; x0a; xf9; x4c;
  x0a; xf9; x4d; x0a; xf9; x4e; x0a; xf9;
  x4f; x0a; xf9; x50; x0a; xf9; x51; x0a;
  xf9; x52; x0a; xf9; x53; x0a; xf9; x54;
  x0a; xf9; x55; x0a; xf9; x56; x0a; xf9;
  x57; x0a; xf9; x58; x0a; xf9; x59; x0a;
  xf9; x5a; x0a; xf9; x5b; x0a; xf9; x5c;
  x0a; xf9; x5d; x0a; xf9; x5e; x0a; xf9;
  x5f; x0a; xf9; x60; x0a; xf9; x61; x0a;
  xf9; x62; x0a; xf9; x63; x0a; xf9; x64;
  x0a; xf9; x65; x0a; xf9; x66; x0a; xf9;
  x67; x0a; xf9; x68; x0a; xf9; x69; x0a;
  xf9; x6a; x0a; xf9; x6b; x0a; xf9; x6c;
  x0a; xf9; x6d; x0a; xf9; x6e; x0a; xf9;
  x6f; x0a; xf9; x70; x0a; xf9; x71; x0a;
  xf9; x72; x0a; xf9; x73; x0a; xf9; x74;
  x0a; xf9; x75; x0a; xf9; x76; x0a; xf9;
  x77; x0a; xf9; x78; x0a; xf9; x79; x0a;
  xf9; x7a; x0a; xf9; x7b; x0a; xf9; x7c;
  x0a; xf9; x7d; x0a; xf9; x7e; x0a; xf9;
  xa1; x0a; xf9; xa2; x0a; xf9; xa3; x0a;
  xf9; xa4; x0a; xf9; xa5; x0a; xf9; xa6;
  x0a; xf9; xa7; x0a; xf9; xa8; x0a; xf9;
  xa9; x0a; xf9; xaa; x0a; xf9; xab; x0a;
  xf9; xac; x0a; xf9; xad; x0a; xf9; xae;
  x0a; xf9; xaf; x0a; xf9; xb0; x0a; xf9;
  xb1; x0a; xf9; xb2; x0a; xf9; xb3; x0a;
  xf9; xb4; x0a; xf9; xb5; x0a; xf9; xb6
].
(* tests/test_data/whatwg/big5_whatwg_test_encode_out.txt, entries 53248..53503 *)
Definition big5_encode_out_208 : list byte := [
  x0a; xf9; xb7; x0a; xf9; xb8; x0a; xf9;
  xb9; x0a; xf9; xba; x0a; xf9; xbb; x0a;
  xf9; xbc; x0a; xf9; xbd; x0a; xf9; xbe;
  x0a; xf9; xbf; x0a; xf9; xc0; x0a; xf9;
  xc1; x0a; xf9; xc2; x0a; xf9; xc3; x0a;
  xf9; xc5; x0a; xf9; xc6; x0a; xf9; xc7;
  x0a; xf9; xc8; x0a; xf9; xc9; x0a; xf9;
  xca; x0a; xf9; xcb; x0a; xf9; xcc; x0a;
  xf9; xcd; x0a; xf9; xce; x0a; xf9; xcf;
  x0a; xf9; xd0; x0a; xf9; xd1; x0a; xf9;
  xd2; x0a; xf9; xd3; x0a; xf9; xd4; x0a;
  xf9; xd5; x0a; xf9; xd6; x0a; xf9; xd8;
  x0a; xf9; xd9; x0a; xf9; xda; x0a; xf9;
  xdb; x0a; xf9; xdc; x0a; xf9; xdd; x0a;
  xf9; xde; x0a; xf9; xdf; x0a; xf9; xe0;
  x0a; xf9; xe1; x0a; xf9; xe2; x0a; xf9;
  xe3; x0a; xf9; xe4; x0a; xf9; xe5; x0a;
  xf9; xe6; x0a; xf9; xe7; x0a; xf9; xe8;
  x0a; xf9; xe9; x0a; xf9; xea; x0a; xf9;
  xeb; x0a; xf9; xec; x0a; xf9; xed; x0a;
  xf9; xee; x0a; xf9; xef; x0a; xf9; xf0;
  x0a; xf9; xf1; x0a; xf9; xf2; x0a; xf9;
  xf3; x0a; xf9; xf4; x0a; xf9; xf5; x0a;
  xf9; xf6; x0a; xf9; xf7; x0a; xf9; xf8;
  x0a; xf9; xf9; x0a; xf9; xfe; x0a; xfa;
  x40; x0a; xfa; x41; x0a; xfa; x42; x0a;
  xfa; x43; x0a; xfa; x44; x0a; xfa; x45;
  x0a; xfa; x46; x0a; xfa; x47; x0a; xfa;
  x48; x0a; xfa; x49; x0a; xfa; x4a; x0a;
  xfa; x4b; x0a; xfa; x4c; x0a; xfa; x4d;
  x0a; xfa; x4e; x0a; xfa; x4f; x0a; xfa;
  x50; x0a; xfa; x51; x0a; xfa; x52; x0a
].
(* tests/test_data/whatwg/big5_whatwg_test_encode_out.txt, entries 53504..53759 *)
Definition big5_encode_out_209 : list byte := [
  xfa; x53; x0a; xfa; x54; x0a; xfa; x55;
  x0a; xfa; x56; x0a; xfa; x57; x0a; xfa;
  x58; x0a; xfa; x59; x0a; xfa; x5a; x0a;
  xfa; x5b; x0a; xfa; x5c; x0a; xfa; x5d;
  x0a; xfa; x5e; x0a; xfa; x60; x0a; xfa;
  x61; x0a; xfa; x62; x0a; xfa; x63; x0a;
  xfa; x64; x0a; xfa; x65; x0a; xfa; x67;
  x0a; xfa; x68; x0a; xfa; x69; x0a; xfa;
  x6a; x0a; xfa; x6b; x0a; xfa; x6c; x0a;
  xfa; x6d; x0a; xfa; x6e; x0a; xfa; x6f;
  x0a; xfa; x70; x0a; xfa; x71; x0a; xfa;
  x72; x0a; xfa; x73; x0a; xfa; x74; x0a;
  xfa; x75; x0a; xfa; x76; x0a; xfa; x77;
  x0a; xfa; x78; x0a; xfa; x79; x0a; xfa;
  x7a; x0a; xfa; x7b; x0a; xfa; x7c; x0a;
  xfa; x7d; x0a; xfa; x7e; x0a; xfa; xa1;
  x0a; xfa; xa2; x0a; xfa; xa3; x0a; xfa;
  xa4; x0a; xfa; xa5; x0a; xfa; xa6; x0a;
  xfa; xa7; x0a; xfa; xa8; x0a; xfa; xa9;
  x0a; xfa; xaa; x0a; xfa; xab; x0a; xfa;
  xac; x0a; xfa; xad; x0a; xfa; xae; x0a;
  xfa; xaf; x0a; xfa; xb0; x0a; xfa; xb1;
  x0a; xfa; xb2; x0a; xfa; xb3; x0a; xfa;
  xb4; x0a; xfa; xb5; x0a; xfa; xb6; x0a;
  xfa; xb7; x0a; xfa; xb8; x0a; xfa; xb9;
  x0a; xfa; xba; x0a; xfa; xbb; x0a; xfa;
  xbc; x0a; xfa; xbe; x0a; xfa; xbf; x0a;
  xfa; xc0; x0a; xfa; xc1; x0a; xfa; xc2;
  x0a; xfa; xc3; x0a; xfa; xc4; x0a; xfa;
  xc6; x0a; xfa; xc7; x0a; xfa; xc8; x0a;
  xfa; xc9; x0a; xfa; xca; x0a; xfa; xcb;
  x0a; xfa; xcc; x0a; xfa; xcd; x0a; xfa
].
(* tests/test_data/whatwg/big5_whatwg_test_encode_out.txt, entries 53760..54015 *)
Definition big5_encode_out_210 : list byte := [
  xce; x0a; xfa; xcf; x0a; xfa; xd0; x0a;
  xfa; xd1; x0a; xfa; xd2; x0a; xfa; xd3;
  x0a; xfa; xd4; x0a; xfa; xd6; x0a; xfa;
  xd7; x0a; xfa; xd8; x0a; xfa; xd9; x0a;
  xfa; xda; x0a; xfa; xdb; x0a; xfa; xdc;
  x0a; xfa; xdd; x0a; xfa; xde; x0a; xfa;
  xdf; x0a; xfa; xe0; x0a; xfa; xe1; x0a;
  xfa; xe2; x0a; xfa; xe3; x0a; xfa; xe4;
  x0a; xfa; xe5; x0a; xfa; xe6; x0a; xfa;
  xe7; x0a; xfa; xe8; x0a; xfa; xe9; x0a;
  xfa; xea; x0a; xfa; xeb; x0a; xfa; xec;
  x0a; xfa; xed; x0a; xfa; xee; x0a; xfa;
  xef; x0a; xfa; xf0; x0a; xfa; xf1; x0a;
  xfa; xf2; x0a; xfa; xf3; x0a; xfa; xf4;
  x0a; xfa; xf5; x0a; xfa; xf6; x0a; xfa;
  xf7; x0a; xfa; xf8; x0a; xfa; xf9; x0a;
  xfa; xfa; x0a; xfa; xfb; x0a; xfa; xfc;
  x0a; xfa; xfd; x0a; xfa; xfe; x0a; xfb;
  x40; x0a; xfb; x41; x0a; xfb; x42; x0a;
  xfb; x43; x0a; xfb; x44; x0a; xfb; x45;
  x0a; xfb; x46; x0a; xfb; x47; x0a; xfb;
  x49; x0a; xfb; x4a; x0a; xfb; x4b; x0a;
  xfb; x4c; x0a; xfb; x4d; x0a; xfb; x4e;
  x0a; xfb; x4f; x0a; xfb; x50; x0a; xfb;
  x51; x0a; xfb; x52; x0a; xfb; x53; x0a;
  xfb; x54; x0a; xfb; x55; x0a; xfb; x56;
  x0a; xfb; x57; x0a; xfb; x58; x0a; xfb;
  x59; x0a; xfb; x5a; x0a; xfb; x5b; x0a;
  xfb; x5c; x0a; xfb; x5d; x0a; xfb; x5e;
  x0a; xfb; x5f; x0a; xfb; x60; x0a; xfb;
  x61; x0a; xfb; x62; x0a; xfb; x63; x0a;
  xfb; x64; x0a; xfb; x65; x0a; xfb; x66
].
(* tests/test_data/whatwg/big5_whatwg_test_encode_out.txt, entries 54016..54271 *)
Definition big5_encode_out_211 : list byte := [
  x0a; xfb; x67; x0a; xfb; x68; x0a; xfb;
  x69; x0a; xfb; x6a; x0a; xfb; x6b; x0a;
  xfb; x6c; x0a; xfb; x6d; x0a; xfb; x6e;
  x0a; xfb; x6f; x0a; xfb; x70; x0a; xfb;
  x71; x0a; xfb; x72; x0a; xfb; x73; x0a;
  xfb; x74; x0a; xfb; x75; x0a; xfb; x76;
  x0a; xfb; x77; x0a; xfb; x78; x0a; xfb;
  x79; x0a; xfb; x7a; x0a; xfb; x7b; x0a;
  xfb; x7c; x0a; xfb; x7d; x0a; xfb; x7e;
  x0a; xfb; xa1; x0a; xfb; xa2; x0a; xfb;
  xa3; x0a; xfb; xa4; x0a; xfb; xa5; x0a;
  xfb; xa6; x0a; xfb; xa7; x0a; xfb; xa8;
  x0a; xfb; xa9; x0a; xfb; xaa; x0a; xfb;
  xab; x0a; xfb; xac; x0a; xfb; xad; x0a;
  xfb; xae; x0a; xfb; xaf; x0a; xfb; xb0;
  x0a; xfb; xb1; x0a; xfb; xb2; x0a; xfb;
  xb3; x0a; xfb; xb4; x0a; xfb; xb5; x0a;
  xfb; xb6; x0a; xfb; xb7; x0a; xfb; xb9;
  x0a; xfb; xba; x0a; xfb; xbb; x0a; xfb;
  xbc; x0a; xfb; xbd; x0a; xfb; xbe; x0a;
  xfb; xbf; x0a; xfb; xc0; x0a; xfb; xc1;
  x0a; xfb; xc2; x0a; xfb; xc3; x0a; xfb;
  xc4; x0a; xfb; xc5; x0a; xfb; xc6; x0a;
  xfb; xc7; x0a; xfb; xc8; x0a; xfb; xc9;
  x0a; xfb; xca; x0a; xfb; xcb; x0a; xfb;
  xcc; x0a; xfb; xcd; x0a; xfb; xce; x0a;
  xfb; xcf; x0a; xfb; xd0; x0a; xfb; xd1;
  x0a; xfb; xd2; x0a; xfb; xd3; x0a; xfb;
  xd4; x0a; xfb; xd5; x0a; xfb; xd6; x0a;
  xfb; xd7; x0a; xfb; xd8; x0a; xfb; xd9;
  x0a; xfb; xda; x0a; xfb; xdb; x0a; xfb;
  xdc; x0a; xfb; xdd; x0a; xfb; xde; x0a
].
(* tests/test_data/whatwg/big5_whatwg_test_encode_out.txt, entries 54272..54527 *)
Definition big5_encode_out_212 : list byte := [
  xfb; xdf; x0a; xfb; xe0; x0a; xfb; xe1;
  x0a; xfb; xe2; x0a; xfb; xe3; x0a; xfb;
  xe4; x0a; xfb; xe5; x0a; xfb; xe6; x0a;
  xfb; xe7; x0a; xfb; xe8; x0a; xfb; xe9;
  x0a; xfb; xea; x0a; xfb; xeb; x0a; xfb;
  xec; x0a; xfb; xed; x0a; xfb; xee; x0a;
  xfb; xef; x0a; xfb; xf0; x0a; xfb; xf1;
  x0a; xfb; xf2; x0a; xfb; xf4; x0a; xfb;
  xf5; x0a; xfb; xf6; x0a; xfb; xf7; x0a;
  xfb; xf8; x0a; xfb; xfa; x0a; xfb; xfb;
  x0a; xfb; xfc; x0a; xfb; xfe; x0a; xfc;
  x40; x0a; xfc; x41; x0a; xfc; x42; x0a;
  xfc; x43; x0a; xfc; x44; x0a; xfc; x45;
  x0a; xfc; x46; x0a; xfc; x47; x0a; xfc;
  x48; x0a; xfc; x49; x0a; xfc; x4a; x0a;
  xfc; x4b; x0a; xfc; x4c; x0a; xfc; x4d;
  x0a; xfc; x4e; x0a; xfc; x50; x0a; xfc;
  x51; x0a; xfc; x52; x0a; xfc; x53; x0a;
  xfc; x54; x0a; xfc; x55; x0a; xfc; x56;
  x0a; xfc; x57; x0a; xfc; x58; x0a; xfc;
  x59; x0a; xfc; x5a; x0a; xfc; x5b; x0a;
  xfc; x5c; x0a; xfc; x5d; x0a; xfc; x5e;
  x0a; xfc; x5f; x0a; xfc; x60; x0a; xfc;
  x61; x0a; xfc; x62; x0a; xfc; x63; x0a;
  xfc; x64; x0a; xfc; x65; x0a; xfc; x66;
  x0a; xfc; x67; x0a; xfc; x68; x0a; xfc;
  x69; x0a; xfc; x6a; x0a; xfc; x6b; x0a;
  xfc; x6d; x0a; xfc; x6e; x0a; xfc; x6f;
  x0a; xfc; x70; x0a; xfc; x71; x0a; xfc;
  x72; x0a; xfc; x73; x0a; xfc; x74; x0a;
  xfc; x75; x0a; xfc; x76; x0a; xfc; x77;
  x0a; xfc; x78; x0a; xfc; x79; x0a; xfc
].
(* tests/test_data/whatwg/big5_whatwg_test_encode_out.txt, entries 54528..54783 *)
Definition big5_encode_out_213 : list byte := [
  x7a; x0a; xfc; x7b; x0a; xfc; x7c; x0a;
  xfc; x7d; x0a; xfc; x7e; x0a; xfc; xa1;
  x0a; xfc; xa2; x0a; xfc; xa3; x0a; xfc;
  xa4; x0a; xfc; xa5; x0a; xfc; xa6; x0a;
  xfc; xa7; x0a; xfc; xa8; x0a; xfc; xa9;
  x0a; xfc; xaa; x0a; xfc; xab; x0a; xfc;
  xac; x0a; xfc; xad; x0a; xfc; xae; x0a;
  xfc; xaf; x0a; xfc; xb0; x0a; xfc; xb1;
  x0a; xfc; xb2; x0a; xfc; xb3; x0a; xfc;
  xb4; x0a; xfc; xb5; x0a; xfc; xb6; x0a;
  xfc; xb7; x0a; xfc; xb8; x0a; xfc; xba;
  x0a; xfc; xbb; x0a; xfc; xbc; x0a; xfc;
  xbd; x0a; xfc; xbe; x0a; xfc; xbf; x0a;
  xfc; xc0; x0a; xfc; xc1; x0a; xfc; xc2;
  x0a; xfc; xc3; x0a; xfc; xc4; x0a; xfc;
  xc5; x0a; xfc; xc6; x0a; xfc; xc7; x0a;
  xfc; xc8; x0a; xfc; xc9; x0a; xfc; xca;
  x0a; xfc; xcb; x0a; xfc; xcc; x0a; xfc;
  xcd; x0a; xfc; xce; x0a; xfc; xcf; x0a;
  xfc; xd0; x0a; xfc; xd1; x0a; xfc; xd2;
  x0a; xfc; xd4; x0a; xfc; xd5; x0a; xfc;
  xd6; x0a; xfc; xd7; x0a; xfc; xd8; x0a;
  xfc; xd9; x0a; xfc; xda; x0a; xfc; xdb;
  x0a; xfc; xdc; x0a; xfc; xdd; x0a; xfc;
  xde; x0a; xfc; xdf; x0a; xfc; xe0; x0a;
  xfc; xe1; x0a; xfc; xe3; x0a; xfc; xe4;
  x0a; xfc; xe5; x0a; xfc; xe6; x0a; xfc;
  xe7; x0a; xfc; xe8; x0a; xfc; xe9; x0a;
  xfc; xea; x0a; xfc; xeb; x0a; xfc; xec;
  x0a; xfc; xed; x0a; xfc; xee; x0a; xfc;
  xef; x0a; xfc; xf0; x0a; xfc; xf2; x0a;
  xfc; xf3; x0a; xfc; xf4; x0a; xfc; xf5
].
(* tests/test_data/whatwg/big5_whatwg_test_encode_out.txt, entries 54784..55039 *)
Definition big5_encode_out_214 : list byte := [
  x0a; xfc; xf6; x0a; xfc; xf7; x0a; xfc;
  xf8; x0a; xfc; xf9; x0a; xfc; xfa; x0a;
  xfc; xfb; x0a; xfc; xfc; x0a; xfc; xfd;
  x0a; xfc; xfe; x0a; xfd; x40; x0a; xfd;
  x41; x0a; xfd; x42; x0a; xfd; x43; x0a;
  xfd; x44; x0a; xfd; x45; x0a; xfd; x46;
  x0a; xfd; x47; x0a; xfd; x48; x0a; xfd;
  x49; x0a; xfd; x4a; x0a; xfd; x4b; x0a;
  xfd; x4c; x0a; xfd; x4d; x0a; xfd; x4e;
  x0a; xfd; x4f; x0a; xfd; x50; x0a; xfd;
  x51; x0a; xfd; x52; x0a; xfd; x53; x0a;
  xfd; x54; x0a; xfd; x55; x0a; xfd; x56;
  x0a; xfd; x57; x0a; xfd; x58; x0a; xfd;
  x59; x0a; xfd; x5a; x0a; xfd; x5b; x0a;
  xfd; x5c; x0a; xfd; x5d; x0a; xfd; x5e;
  x0a; xfd; x5f; x0a; xfd; x60; x0a; xfd;
  x61; x0a; xfd; x62; x0a; xfd; x63; x0a;
  xfd; x65; x0a; xfd; x66; x0a; xfd; x67;
  x0a; xfd; x68; x0a; xfd; x69; x0a; xfd;
  x6a; x0a; xfd; x6b; x0a; xfd; x6c; x0a;
  xfd; x6d; x0a; xfd; x6e; x0a; xfd; x6f;
  x0a; xfd; x70; x0a; xfd; x71; x0a; xfd;
  x72; x0a; xfd; x73; x0a; xfd; x74; x0a;
  xfd; x75; x0a; xfd; x76; x0a; xfd; x77;
  x0a; xfd; x78; x0a; xfd; x79; x0a; xfd;
  x7a; x0a; xfd; x7b; x0a; xfd; x7c; x0a;
  xfd; x7d; x0a; xfd; x7e; x0a; xfd; xa1;
  x0a; xfd; xa2; x0a; xfd; xa3; x0a; xfd;
  xa4; x0a; xfd; xa5; x0a; xfd; xa6; x0a;
  xfd; xa7; x0a; xfd; xa8; x0a; xfd; xa9;
  x0a; xfd; xaa; x0a; xfd; xab; x0a; xfd;
  xac; x0a; xfd; xad; x0a; xfd; xae; x0a
].
(* tests/test_data/whatwg/big5_whatwg_test_encode_out.txt, entries 55040..55295 *)
Definition big5_encode_out_215 : list byte := [
  xfd; xaf; x0a; xfd; xb0; x0a; xfd; xb1;
  x0a; xfd; xb2; x0a; xfd; xb3; x0a; xfd;
  xb4; x0a; xfd; xb5; x0a; xfd; xb6; x0a;
  xfd; xb9; x0a; xfd; xba; x0a; xfd; xbc;
  x0a; xfd; xbd; x0a; xfd; xbe; x0a; xfd;
  xbf; x0a; xfd; xc0; x0a; xfd; xc1; x0a;
  xfd; xc2; x0a; xfd; xc3; x0a; xfd; xc4;
  x0a; xfd; xc5; x0a; xfd; xc6; x0a; xfd;
  xc7; x0a; xfd; xc8; x0a; xfd; xc9; x0a;
  xfd; xca; x0a; xfd; xcb; x0a; xfd; xcc;
  x0a; xfd; xcd; x0a; xfd; xce; x0a; xfd;
  xcf; x0a; xfd; xd0; x0a; xfd; xd1; x0a;
  xfd; xd2; x0a; xfd; xd3; x0a; xfd; xd4;
  x0a; xfd; xd5; x0a; xfd; xd6; x0a; xfd;
  xd7; x0a; xfd; xd8; x0a; xfd; xd9; x0a;
  xfd; xda; x0a; xfd; xdb; x0a; xfd; xdc;
  x0a; xfd; xdd; x0a; xfd; xde; x0a; xfd;
  xdf; x0a; xfd; xe0; x0a; xfd; xe1; x0a;
  xfd; xe2; x0a; xfd; xe3; x0a; xfd; xe4;
  x0a; xfd; xe5; x0a; xfd; xe6; x0a; xfd;
  xe7; x0a; xfd; xe8; x0a; xfd; xe9; x0a;
  xfd; xea; x0a; xfd; xeb; x0a; xfd; xec;
  x0a; xfd; xed; x0a; xfd; xee; x0a; xfd;
  xef; x0a; xfd; xf0; x0a; xfd; xf2; x0a;
  xfd; xf3; x0a; xfd; xf4; x0a; xfd; xf5;
  x0a; xfd; xf6; x0a; xfd; xf7; x0a; xfd;
  xf8; x0a; xfd; xf9; x0a; xfd; xfa; x0a;
  xfd; xfb; x0a; xfd; xfc; x0a; xfd; xfd;
  x0a; xfd; xfe; x0a; xfe; x40; x0a; xfe;
  x41; x0a; xfe; x42; x0a; xfe; x43; x0a;
  xfe; x44; x0a; xfe; x45; x0a; xfe; x46;
  x0a; xfe; x47; x0a; xfe; x48; x0a; xfe
].
(* tests/test_data/whatwg/big5_whatwg_test_encode_out.txt, entries 55296..55551 *)
Definition big5_encode_out_216 : list byte := [
  x49; x0a; xfe; x4a; x0a; xfe; x4b; x0a;
  xfe; x4c; x0a; xfe; x4d; x0a; xfe; x4e;
  x0a; xfe; x4f; x0a; xfe; x50; x0a; xfe;
  x51; x0a; xfe; x53; x0a; xfe; x54; x0a;
  xfe; x55; x0a; xfe; x56; x0a; xfe; x57;
  x0a; xfe; x58; x0a; xfe; x59; x0a; xfe;
  x5a; x0a; xfe; x5b; x0a; xfe; x5c; x0a;
  xfe; x5d; x0a; xfe; x5e; x0a; xfe; x5f;
  x0a; xfe; x60; x0a; xfe; x61; x0a; xfe;
  x62; x0a; xfe; x63; x0a; xfe; x64; x0a;
  xfe; x65; x0a; xfe; x66; x0a; xfe; x67;
  x0a; xfe; x68; x0a; xfe; x69; x0a; xfe;
  x6a; x0a; xfe; x6b; x0a; xfe; x6c; x0a;
  xfe; x6d; x0a; xfe; x6e; x0a; xfe; x70;
  x0a; xfe; x71; x0a; xfe; x72; x0a; xfe;
  x73; x0a; xfe; x74; x0a; xfe; x75; x0a;
  xfe; x76; x0a; xfe; x77; x0a; xfe; x78;
  x0a; xfe; x79; x0a; xfe; x7a; x0a; xfe;
  x7b; x0a; xfe; x7c; x0a; xfe; x7d; x0a;
  xfe; x7e; x0a; xfe; xa1; x0a; xfe; xa2;
  x0a; xfe; xa3; x0a; xfe; xa4; x0a; xfe;
  xa5; x0a; xfe; xa6; x0a; xfe; xa7; x0a;
  xfe; xa8; x0a; xfe; xa9; x0a; xfe; xab;
  x0a; xfe; xac; x0a; xfe; xad; x0a; xfe;
  xae; x0a; xfe; xaf; x0a; xfe; xb0; x0a;
  xfe; xb1; x0a; xfe; xb2; x0a; xfe; xb3;
  x0a; xfe; xb4; x0a; xfe; xb5; x0a; xfe;
  xb6; x0a; xfe; xb7; x0a; xfe; xb8; x0a;
  xfe; xb9; x0a; xfe; xba; x0a; xfe; xbb;
  x0a; xfe; xbc; x0a; xfe; xbd; x0a; xfe;
  xbe; x0a; xfe; xbf; x0a; xfe; xc0; x0a;
  xfe; xc2; x0a; xfe; xc3; x0a; xfe; xc4
].
(* tests/test_data/whatwg/big5_whatwg_test_encode_out.txt, entries 55552..55735 *)
Definition big5_encode_out_217 : list byte := [
  x0a; xfe; xc5; x0a; xfe; xc6; x0a; xfe;
  xc7; x0a; xfe; xc8; x0a; xfe; xc9; x0a;
  xfe; xca; x0a; xfe; xcb; x0a; xfe; xcc;
  x0a; xfe; xcd; x0a; xfe; xce; x0a; xfe;
  xcf; x0a; xfe; xd0; x0a; xfe; xd1; x0a;
  xfe; xd2; x0a; xfe; xd3; x0a; xfe; xd4;
  x0a; xfe; xd5; x0a; xfe; xd6; x0a; xfe;
  xd7; x0a; xfe; xd8; x0a; xfe; xd9; x0a;
  xfe; xda; x0a; xfe; xdb; x0a; xfe; xdc;
  x0a; xfe; xde; x0a; xfe; xdf; x0a; xfe;
  xe0; x0a; xfe; xe1; x0a; xfe; xe2; x0a;
  xfe; xe3; x0a; xfe; xe4; x0a; xfe; xe5;
  x0a; xfe; xe6; x0a; xfe; xe7; x0a; xfe;
  xe8; x0a; xfe; xe9; x0a; xfe; xea; x0a;
  xfe; xeb; x0a; xfe; xec; x0a; xfe; xed;
  x0a; xfe; xee; x0a; xfe; xef; x0a; xfe;
  xf0; x0a; xfe; xf1; x0a; xfe; xf2; x0a;
  xfe; xf3; x0a; xfe; xf4; x0a; xfe; xf5;
  x0a; xfe; xf6; x0a; xfe; xf7; x0a; xfe;
  xf8; x0a; xfe; xf9; x0a; xfe; xfa; x0a;
  xfe; xfb; x0a; xfe; xfc; x0a; xfe; xfd;
  x0a; xfe; xfe; x0a; x88; x62; x0a; x88;
  x64; x0a; x88; xa3; x0a; x88; xa5; x0a
].
(* tests/test_data/whatwg/big5_whatwg_test_encode_out.txt: the whole table *)
Definition big5_encode_out : list byte :=
  big5_encode_out_0 ++
  big5_encode_out_1 ++
  big5_encode_out_2 ++
  big5_encode_out_3 ++
  big5_encode_out_4 ++
  big5_encode_out_5 ++
  big5_encode_out_6 ++
  big5_encode_out_7 ++
  big5_encode_out_8 ++
  big5_encode_out_9 ++
  big5_encode_out_10 ++
  big5_encode_out_11 ++
  big5_encode_out_12 ++
  big5_encode_out_13 ++
  big5_encode_out_14 ++
  big5_encode_out_15 ++
  big5_encode_out_16 ++
  big5_encode_out_17 ++
  big5_encode_out_18 ++
  big5_encode_out_19 ++
  big5_encode_out_20 ++
  big5_encode_out_21 ++
  big5_encode_out_22 ++
  big5_encode_out_23 ++
  big5_encode_out_24 ++
  big5_encode_out_25 ++
  big5_encode_out_26 ++
  big5_encode_out_27 ++
  big5_encode_out_28 ++
  big5_encode_out_29 ++
  big5_encode_out_30 ++
  big5_encode_out_31 ++
  big5_encode_out_32 ++
  big5_encode_out_33 ++
  big5_encode_out_34 ++
  big5_encode_out_35 ++
  big5_encode_out_36 ++
  big5_encode_out_37 ++
  big5_encode_out_38 ++
  big5_encode_out_39 ++
  big5_encode_out_40 ++
  big5_encode_out_41 ++
  big5_encode_out_42 ++
  big5_encode_out_43 ++
  big5_encode_out_44 ++
  big5_encode_out_45 ++
  big5_encode_out_46 ++
  big5_encode_out_47 ++
  big5_encode_out_48 ++
  big5_encode_out_49 ++
  big5_encode_out_50 ++
  big5_encode_out_51 ++
  big5_encode_out_52 ++
  big5_encode_out_53 ++
  big5_encode_out_54 ++
  big5_encode_out_55 ++
  big5_encode_out_56 ++
  big5_encode_out_57 ++
  big5_encode_out_58 ++
  big5_encode_out_59 ++
  big5_encode_out_60 ++
  big5_encode_out_61 ++
  big5_encode_out_62 ++
  big5_encode_out_63 ++
  big5_encode_out_64 ++
  big5_encode_out_65 ++
  big5_encode_out_66 ++
  big5_encode_out_67 ++
  big5_encode_out_68 ++
  big5_encode_out_69 ++
  big5_encode_out_70 ++
  big5_encode_out_71 ++
  big5_encode_out_72 ++
  big5_encode_out_73 ++
  big5_encode_out_74 ++
  big5_encode_out_75 ++
  big5_encode_out_76 ++
  big5_encode_out_77 ++
  big5_encode_out_78 ++
  big5_encode_out_79 ++
  big5_encode_out_80 ++
  big5_encode_out_81 ++
  big5_encode_out_82 ++
  big5_encode_out_83 ++
  big5_encode_out_84 ++
  big5_encode_out_85 ++
  big5_encode_out_86 ++
  big5_encode_out_87 ++
  big5_encode_out_88 ++
  big5_encode_out_89 ++
  big5_encode_out_90 ++
  big5_encode_out_91 ++
  big5_encode_out_92 ++
  big5_encode_out_93 ++
  big5_encode_out_94 ++
  big5_encode_out_95 ++
  big5_encode_out_96 ++
  big5_encode_out_97 ++
  big5_encode_out_98 ++
  big5_encode_out_99 ++
  big5_encode_out_100 ++
  big5_encode_out_101 ++
  big5_encode_out_102 ++
  big5_encode_out_103 ++
  big5_encode_out_104 ++
  big5_encode_out_105 ++
  big5_encode_out_106 ++
  big5_encode_out_107 ++
  big5_encode_out_108 ++
  big5_encode_out_109 ++
  big5_encode_out_110 ++
  big5_encode_out_111 ++
  big5_encode_out_112 ++
  big5_encode_out_113 ++
  big5_encode_out_114 ++
  big5_encode_out_115 ++
  big5_encode_out_116 ++
  big5_encode_out_117 ++
  big5_encode_out_118 ++
  big5_encode_out_119 ++
  big5_encode_out_120 ++
  big5_encode_out_121 ++
  big5_encode_out_122 ++
  big5_encode_out_123 ++
  big5_encode_out_124 ++
  big5_encode_out_125 ++
  big5_encode_out_126 ++
  big5_encode_out_127 ++
  big5_encode_out_128 ++
  big5_encode_out_129 ++
  big5_encode_out_130 ++
  big5_encode_out_131 ++
  big5_encode_out_132 ++
  big5_encode_out_133 ++
  big5_encode_out_134 ++
  big5_encode_out_135 ++
  big5_encode_out_136 ++
  big5_encode_out_137 ++
  big5_encode_out_138 ++
  big5_encode_out_139 ++
  big5_encode_out_140 ++
  big5_encode_out_141 ++
  big5_encode_out_142 ++
  big5_encode_out_143 ++
  big5_encode_out_144 ++
  big5_encode_out_145 ++
  big5_encode_out_146 ++
  big5_encode_out_147 ++
  big5_encode_out_148 ++
  big5_encode_out_149 ++
  big5_encode_out_150 ++
  big5_encode_out_151 ++
  big5_encode_out_152 ++
  big5_encode_out_153 ++
  big5_encode_out_154 ++
  big5_encode_out_155 ++
  big5_encode_out_156 ++
  big5_encode_out_157 ++
  big5_encode_out_158 ++
  big5_encode_out_159 ++
  big5_encode_out_160 ++
  big5_encode_out_161 ++
  big5_encode_out_162 ++
  big5_encode_out_163 ++
  big5_encode_out_164 ++
  big5_encode_out_165 ++
  big5_encode_out_166 ++
  big5_encode_out_167 ++
  big5_encode_out_168 ++
  big5_encode_out_169 ++
  big5_encode_out_170 ++
  big5_encode_out_171 ++
  big5_encode_out_172 ++
  big5_encode_out_173 ++
  big5_encode_out_174 ++
  big5_encode_out_175 ++
  big5_encode_out_176 ++
  big5_encode_out_177 ++
  big5_encode_out_178 ++
  big5_encode_out_179 ++
  big5_encode_out_180 ++
  big5_encode_out_181 ++
  big5_encode_out_182 ++
  big5_encode_out_183 ++
  big5_encode_out_184 ++
  big5_encode_out_185 ++
  big5_encode_out_186 ++
  big5_encode_out_187 ++
  big5_encode_out_188 ++
  big5_encode_out_189 ++
  big5_encode_out_190 ++
  big5_encode_out_191 ++
  big5_encode_out_192 ++
  big5_encode_out_193 ++
  big5_encode_out_194 ++
  big5_encode_out_195 ++
  big5_encode_out_196 ++
  big5_encode_out_197 ++
  big5_encode_out_198 ++
  big5_encode_out_199 ++
  big5_encode_out_200 ++
  big5_encode_out_201 ++
  big5_encode_out_202 ++
  big5_encode_out_203 ++
  big5_encode_out_204 ++
  big5_encode_out_205 ++
  big5_encode_out_206 ++
  big5_encode_out_207 ++
  big5_encode_out_208 ++
  big5_encode_out_209 ++
  big5_encode_out_210 ++
  big5_encode_out_211 ++
  big5_encode_out_212 ++
  big5_encode_out_213 ++
  big5_encode_out_214 ++
  big5_encode_out_215 ++
  big5_encode_out_216 ++
  big5_encode_out_217.

(* tests/test_data/whatwg/shiftjis_whatwg_test_decode_in.txt, entries 0..255 *)
Definition shiftjis_decode_in_0 : list byte := [
  x01; x0a; x02; x0a; x03; x0a; x04; x0a;
  x05; x0a; x06; x0a; x07; x0a; x08; x0a;
  x09; x0a; x0a; x0a; x0b; x0a; x0c; x0a;
  x0d; x0a; x0e; x0a; x0f; x0a; x10; x0a;
  x11; x0a; x12; x0a; x13; x0a; x14; x0a;
  x15; x0a; x16; x0a; x17; x0a; x18; x0a;
  x19; x0a; x1a; x0a; x1b; x0a; x1c; x0a;
  x1d; x0a; x1e; x0a; x1f; x0a; x20; x0a;
  x21; x0a; x22; x0a; x23; x0a; x24; x0a;
  x25; x0a; x26; x0a; x27; x0a; x28; x0a;
  x29; x0a; x2a; x0a; x2b; x0a; x2c; x0a;
  x2d; x0a; x2e; x0a; x2f; x0a; x30; x0a;
  x31; x0a; x32; x0a; x33; x0a; x34; x0a;
  x35; x0a; x36; x0a; x37; x0a; x38; x0a;
  x39; x0a; x3a; x0a; x3b; x0a; x3c; x0a;
  x3d; x0a; x3e; x0a; x3f; x0a; x40; x0a;
  x41; x0a; x42; x0a; x43; x0a; x44; x0a;
  x45; x0a; x46; x0a; x47; x0a; x48; x0a;
  x49; x0a; x4a; x0a; x4b; x0a; x4c; x0a;
  x4d; x0a; x4e; x0a; x4f; x0a; x50; x0a;
  x51; x0a; x52; x0a; x53; x0a; x54; x0a;
  x55; x0a; x56; x0a; x57; x0a; x58; x0a;
  x59; x0a; x5a; x0a; x5b; x0a; x5c; x0a;
  x5d; x0a; x5e; x0a; x5f; x0a; x60; x0a;
  x61; x0a; x62; x0a; x63; x0a; x64; x0a;
  x65; x0a; x66; x0a; x67; x0a; x68; x0a;
  x69; x0a; x6a; x0a; x6b; x0a; x6c; x0a;
  x6d; x0a; x6e; x0a; x6f; x0a; x70; x0a;
  x71; x0a; x72; x0a; x73; x0a; x74; x0a;
  x75; x0a; x76; x0a; x77; x0a; x78; x0a;
  x79; x0a; x7a; x0a; x7b; x0a; x7c; x0a;
  x7d; x0a; x7e; x0a; x7f; x0a; x80; x0a
].
(* tests/test_data/whatwg/shiftjis_whatwg_test_decode_in.txt, entries 256..511 *)
Definition shiftjis_decode_in_1 : list byte := [
  x81; x40; x0a; x81; x41; x0a; x81; x42;
  x0a; x81; x43; x0a; x81; x44; x0a; x81;
  x45; x0a; x81; x46; x0a; x81; x47; x0a;
  x81; x48; x0a; x81; x49; x0a; x81; x4a;
  x0a; x81; x4b; x0a; x81; x4c; x0a; x81;
  x4d; x0a; x81; x4e; x0a; x81; x4f; x0a;
  x81; x50; x0a; x81; x51; x0a; x81; x52;
  x0a; x81; x53; x0a; x81; x54; x0a; x81;
  x55; x0a; x81; x56; x0a; x81; x57; x0a;
  x81; x58; x0a; x81; x59; x0a; x81; x5a;
  x0a; x81; x5b; x0a; x81; x5c; x0a; x81;
  x5d; x0a; x81; x5e; x0a; x81; x5f; x0a;
  x81; x60; x0a; x81; x61; x0a; x81; x62;
  x0a; x81; x63; x0a; x81; x64; x0a; x81;
  x65; x0a; x81; x66; x0a; x81; x67; x0a;
  x81; x68; x0a; x81; x69; x0a; x81; x6a;
  x0a; x81; x6b; x0a; x81; x6c; x0a; x81;
  x6d; x0a; x81; x6e; x0a; x81; x6f; x0a;
  x81; x70; x0a; x81; x71; x0a; x81; x72;
  x0a; x81; x73; x0a; x81; x74; x0a; x81;
  x75; x0a; x81; x76; x0a; x81; x77; x0a;
  x81; x78; x0a; x81; x79; x0a; x81; x7a;
  x0a; x81; x7b; x0a; x81; x7c; x0a; x81;
  x7d; x0a; x81; x7e; x0a; x81; x80; x0a;
  x81; x81; x0a; x81; x82; x0a; x81; x83;
  x0a; x81; x84; x0a; x81; x85; x0a; x81;
  x86; x0a; x81; x87; x0a; x81; x88; x0a;
  x81; x89; x0a; x81; x8a; x0a; x81; x8b;
  x0a; x81; x8c; x0a; x81; x8d; x0a; x81;
  x8e; x0a; x81; x8f; x0a; x81; x90; x0a;
  x81; x91; x0a; x81; x92; x0a; x81; x93;
  x0a; x81; x94; x0a; x81; x95; x0a; x81
].
(* tests/test_data/whatwg/shiftjis_whatwg_test_decode_in.txt, entries 512..767 *)
Definition shiftjis_decode_in_2 : list byte := [
  x96; x0a; x81; x97; x0a; x81; x98; x0a;
  x81; x99; x0a; x81; x9a; x0a; x81; x9b;
  x0a; x81; x9c; x0a; x81; x9d; x0a; x81;
  x9e; x0a; x81; x9f; x0a; x81; xa0; x0a;
  x81; xa1; x0a; x81; xa2; x0a; x81; xa3;
  x0a; x81; xa4; x0a; x81; xa5; x0a; x81;
  xa6; x0a; x81; xa7; x0a; x81; xa8; x0a;
  x81; xa9; x0a; x81; xaa; x0a; x81; xab;
  x0a; x81; xac; x0a; x81; xb8; x0a; x81;
  xb9; x0a; x81; xba; x0a; x81; xbb; x0a;
  x81; xbc; x0a; x81; xbd; x0a; x81; xbe;
  x0a; x81; xbf; x0a; x81; xc8; x0a; x81;
  xc9; x0a; x81; xca; x0a; x81; xcb; x0a;
  x81; xcc; x0a; x81; xcd; x0a; x81; xce;
  x0a; x81; xda; x0a; x81; xdb; x0a; x81;
  xdc; x0a; x81; xdd; x0a; x81; xde; x0a;
  x81; xdf; x0a; x81; xe0; x0a; x81; xe1;
  x0a; x81; xe2; x0a; x81; xe3; x0a; x81;
  xe4; x0a; x81; xe5; x0a; x81; xe6; x0a;
  x81; xe7; x0a; x81; xe8; x0a; x81; xf0;
  x0a; x81; xf1; x0a; x81; xf2; x0a; x81;
  xf3; x0a; x81; xf4; x0a; x81; xf5; x0a;
  x81; xf6; x0a; x81; xf7; x0a; x81; xfc;
  x0a; x82; x4f; x0a; x82; x50; x0a; x82;
  x51; x0a; x82; x52; x0a; x82; x53; x0a;
  x82; x54; x0a; x82; x55; x0a; x82; x56;
  x0a; x82; x57; x0a; x82; x58; x0a; x82;
  x60; x0a; x82; x61; x0a; x82; x62; x0a;
  x82; x63; x0a; x82; x64; x0a; x82; x65;
  x0a; x82; x66; x0a; x82; x67; x0a; x82;
  x68; x0a; x82; x69; x0a; x82; x6a; x0a;
  x82; x6b; x0a; x82; x6c; x0a; x82; x6d
].
(* tests/test_data/whatwg/shiftjis_whatwg_test_decode_in.txt, entries 768..1023 *)
Definition shiftjis_decode_in_3 : list byte := [
  x0a; x82; x6e; x0a; x82; x6f; x0a; x82;
  x70; x0a; x82; x71; x0a; x82; x72; x0a;
  x82; x73; x0a; x82; x74; x0a; x82; x75;
  x0a; x82; x76; x0a; x82; x77; x0a; x82;
  x78; x0a; x82; x79; x0a; x82; x81; x0a;
  x82; x82; x0a; x82; x83; x0a; x82; x84;
  x0a; x82; x85; x0a; x82; x86; x0a; x82;
  x87; x0a; x82; x88; x0a; x82; x89; x0a;
  x82; x8a; x0a; x82; x8b; x0a; x82; x8c;
  x0a; x82; x8d; x0a; x82; x8e; x0a; x82;
  x8f; x0a; x82; x90; x0a; x82; x91; x0a;
  x82; x92; x0a; x82; x93; x0a; x82; x94;
  x0a; x82; x95; x0a; x82; x96; x0a; x82;
  x97; x0a; x82; x98; x0a; x82; x99; x0a;
  x82; x9a; x0a; x82; x9f; x0a; x82; xa0;
  x0a; x82; xa1; x0a; x82; xa2; x0a; x82;
  xa3; x0a; x82; xa4; x0a; x82; xa5; x0a;
  x82; xa6; x0a; x82; xa7; x0a; x82; xa8;
  x0a; x82; xa9; x0a; x82; xaa; x0a; x82;
  xab; x0a; x82; xac; x0a; x82; xad; x0a;
  x82; xae; x0a; x82; xaf; x0a; x82; xb0;
  x0a; x82; xb1; x0a; x82; xb2; x0a; x82;
  xb3; x0a; x82; xb4; x0a; x82; xb5; x0a;
  x82; xb6; x0a; x82; xb7; x0a; x82; xb8;
  x0a; x82; xb9; x0a; x82; xba; x0a; x82;
  xbb; x0a; x82; xbc; x0a; x82; xbd; x0a;
  x82; xbe; x0a; x82; xbf; x0a; x82; xc0;
  x0a; x82; xc1; x0a; x82; xc2; x0a; x82;
  xc3; x0a; x82; xc4; x0a; x82; xc5; x0a;
  x82; xc6; x0a; x82; xc7; x0a; x82; xc8;
  x0a; x82; xc9; x0a; x82; xca; x0a; x82;
  xcb; x0a; x82; xcc; x0a; x82; xcd; x0a
].
(* tests/test_data/whatwg/shiftjis_whatwg_test_decode_in.txt, entries 1024..1279 *)
Definition shiftjis_decode_in_4 : list byte := [
  x82; xce; x0a; x82; xcf; x0a; x82; xd0;
  x0a; x82; xd1; x0a; x82; xd2; x0a; x82;
  xd3; x0a; x82; xd4; x0a; x82; xd5; x0a;
  x82; xd6; x0a; x82; xd7; x0a; x82; xd8;
  x0a; x82; xd9; x0a; x82; xda; x0a; x82;
  xdb; x0a; x82; xdc; x0a; x82; xdd; x0a;
  x82; xde; x0a; x82; xdf; x0a; x82; xe0;
  x0a; x82; xe1; x0a; x82; xe2; x0a; x82;
  xe3; x0a; x82; xe4; x0a; x82; xe5; x0a;
  x82; xe6; x0a; x82; xe7; x0a; x82; xe8;
  x0a; x82; xe9; x0a; x82; xea; x0a; x82;
  xeb; x0a; x82; xec; x0a; x82; xed; x0a;
  x82; xee; x0a; x82; xef; x0a; x82; xf0;
  x0a; x82; xf1; x0a; x83; x40; x0a; x83;
  x41; x0a; x83; x42; x0a; x83; x43; x0a;
  x83; x44; x0a; x83; x45; x0a; x83; x46;
  x0a; x83; x47; x0a; x83; x48; x0a; x83;
  x49; x0a; x83; x4a; x0a; x83; x4b; x0a;
  x83; x4c; x0a; x83; x4d; x0a; x83; x4e;
  x0a; x83; x4f; x0a; x83; x50; x0a; x83;
  x51; x0a; x83; x52; x0a; x83; x53; x0a;
  x83; x54; x0a; x83; x55; x0a; x83; x56;
  x0a; x83; x57; x0a; x83; x58; x0a; x83;
  x59; x0a; x83; x5a; x0a; x83; x5b; x0a;
  x83; x5c; x0a; x83; x5d; x0a; x83; x5e;
  x0a; x83; x5f; x0a; x83; x60; x0a; x83;
  x61; x0a; x83; x62; x0a; x83; x63; x0a;
  x83; x64; x0a; x83; x65; x0a; x83; x66;
  x0a; x83; x67; x0a; x83; x68; x0a; x83;
  x69; x0a; x83; x6a; x0a; x83; x6b; x0a;
  x83; x6c; x0a; x83; x6d; x0a; x83; x6e;
  x0a; x83; x6f; x0a; x83; x70; x0a; x83
].
(* tests/test_data/whatwg/shiftjis_whatwg_test_decode_in.txt, entries 1280..1535 *)
Definition shiftjis_decode_in_5 : list byte := [
  x71; x0a; x83; x72; x0a; x83; x73; x0a;
  x83; x74; x0a; x83; x75; x0a; x83; x76;
  x0a; x83; x77; x0a; x83; x78; x0a; x83;
  x79; x0a; x83; x7a; x0a; x83; x7b; x0a;
  x83; x7c; x0a; x83; x7d; x0a; x83; x7e;
  x0a; x83; x80; x0a; x83; x81; x0a; x83;
  x82; x0a; x83; x83; x0a; x83; x84; x0a;
  x83; x85; x0a; x83; x86; x0a; x83; x87;
  x0a; x83; x88; x0a; x83; x89; x0a; x83;
  x8a; x0a; x83; x8b; x0a; x83; x8c; x0a;
  x83; x8d; x0a; x83; x8e; x0a; x83; x8f;
  x0a; x83; x90; x0a; x83; x91; x0a; x83;
  x92; x0a; x83; x93; x0a; x83; x94; x0a;
  x83; x95; x0a; x83; x96; x0a; x83; x9f;
  x0a; x83; xa0; x0a; x83; xa1; x0a; x83;
  xa2; x0a; x83; xa3; x0a; x83; xa4; x0a;
  x83; xa5; x0a; x83; xa6; x0a; x83; xa7;
  x0a; x83; xa8; x0a; x83; xa9; x0a; x83;
  xaa; x0a; x83; xab; x0a; x83; xac; x0a;
  x83; xad; x0a; x83; xae; x0a; x83; xaf;
  x0a; x83; xb0; x0a; x83; xb1; x0a; x83;
  xb2; x0a; x83; xb3; x0a; x83; xb4; x0a;
  x83; xb5; x0a; x83; xb6; x0a; x83; xbf;
  x0a; x83; xc0; x0a; x83; xc1; x0a; x83;
  xc2; x0a; x83; xc3; x0a; x83; xc4; x0a;
  x83; xc5; x0a; x83; xc6; x0a; x83; xc7;
  x0a; x83; xc8; x0a; x83; xc9; x0a; x83;
  xca; x0a; x83; xcb; x0a; x83; xcc; x0a;
  x83; xcd; x0a; x83; xce; x0a; x83; xcf;
  x0a; x83; xd0; x0a; x83; xd1; x0a; x83;
  xd2; x0a; x83; xd3; x0a; x83; xd4; x0a;
  x83; xd5; x0a; x83; xd6; x0a; x84; x40
].
(* tests/test_data/whatwg/shiftjis_whatwg_test_decode_in.txt, entries 1536..1791 *)
Definition shiftjis_decode_in_6 : list byte := [
  x0a; x84; x41; x0a; x84; x42; x0a; x84;
  x43; x0a; x84; x44; x0a; x84; x45; x0a;
  x84; x46; x0a; x84; x47; x0a; x84; x48;
  x0a; x84; x49; x0a; x84; x4a; x0a; x84;
  x4b; x0a; x84; x4c; x0a; x84; x4d; x0a;
  x84; x4e; x0a; x84; x4f; x0a; x84; x50;
  x0a; x84; x51; x0a; x84; x52; x0a; x84;
  x53; x0a; x84; x54; x0a; x84; x55; x0a;
  x84; x56; x0a; x84; x57; x0a; x84; x58;
  x0a; x84; x59; x0a; x84; x5a; x0a; x84;
  x5b; x0a; x84; x5c; x0a; x84; x5d; x0a;
  x84; x5e; x0a; x84; x5f; x0a; x84; x60;
  x0a; x84; x70; x0a; x84; x71; x0a; x84;
  x72; x0a; x84; x73; x0a; x84; x74; x0a;
  x84; x75; x0a; x84; x76; x0a; x84; x77;
  x0a; x84; x78; x0a; x84; x79; x0a; x84;
  x7a; x0a; x84; x7b; x0a; x84; x7c; x0a;
  x84; x7d; x0a; x84; x7e; x0a; x84; x80;
  x0a; x84; x81; x0a; x84; x82; x0a; x84;
  x83; x0a; x84; x84; x0a; x84; x85; x0a;
  x84; x86; x0a; x84; x87; x0a; x84; x88;
  x0a; x84; x89; x0a; x84; x8a; x0a; x84;
  x8b; x0a; x84; x8c; x0a; x84; x8d; x0a;
  x84; x8e; x0a; x84; x8f; x0a; x84; x90;
  x0a; x84; x91; x0a; x84; x9f; x0a; x84;
  xa0; x0a; x84; xa1; x0a; x84; xa2; x0a;
  x84; xa3; x0a; x84; xa4; x0a; x84; xa5;
  x0a; x84; xa6; x0a; x84; xa7; x0a; x84;
  xa8; x0a; x84; xa9; x0a; x84; xaa; x0a;
  x84; xab; x0a; x84; xac; x0a; x84; xad;
  x0a; x84; xae; x0a; x84; xaf; x0a; x84;
  xb0; x0a; x84; xb1; x0a; x84; xb2; x0a
].
(* tests/test_data/whatwg/shiftjis_whatwg_test_decode_in.txt, entries 1792..2047 *)
Definition shiftjis_decode_in_7 : list byte := [
  x84; xb3; x0a; x84; xb4; x0a; x84; xb5;
  x0a; x84; xb6; x0a; x84; xb7; x0a; x84;
  xb8; x0a; x84; xb9; x0a; x84; xba; x0a;
  x84; xbb; x0a; x84; xbc; x0a; x84; xbd;
  x0a; x84; xbe; x0a; x87; x40; x0a; x87;
  x41; x0a; x87; x42; x0a; x87; x43; x0a;
  x87; x44; x0a; x87; x45; x0a; x87; x46;
  x0a; x87; x47; x0a; x87; x48; x0a; x87;
  x49; x0a; x87; x4a; x0a; x87; x4b; x0a;
  x87; x4c; x0a; x87; x4d; x0a; x87; x4e;
  x0a; x87; x4f; x0a; x87; x50; x0a; x87;
  x51; x0a; x87; x52; x0a; x87; x53; x0a;
  x87; x54; x0a; x87; x55; x0a; x87; x56;
  x0a; x87; x57; x0a; x87; x58; x0a; x87;
  x59; x0a; x87; x5a; x0a; x87; x5b; x0a;
  x87; x5c; x0a; x87; x5d; x0a; x87; x5f;
  x0a; x87; x60; x0a; x87; x61; x0a; x87;
  x62; x0a; x87; x63; x0a; x87; x64; x0a;
  x87; x65; x0a; x87; x66; x0a; x87; x67;
  x0a; x87; x68; x0a; x87; x69; x0a; x87;
  x6a; x0a; x87; x6b; x0a; x87; x6c; x0a;
  x87; x6d; x0a; x87; x6e; x0a; x87; x6f;
  x0a; x87; x70; x0a; x87; x71; x0a; x87;
  x72; x0a; x87; x73; x0a; x87; x74; x0a;
  x87; x75; x0a; x87; x7e; x0a; x87; x80;
  x0a; x87; x81; x0a; x87; x82; x0a; x87;
  x83; x0a; x87; x84; x0a; x87; x85; x0a;
  x87; x86; x0a; x87; x87; x0a; x87; x88;
  x0a; x87; x89; x0a; x87; x8a; x0a; x87;
  x8b; x0a; x87; x8c; x0a; x87; x8d; x0a;
  x87; x8e; x0a; x87; x8f; x0a; x87; x90;
  x0a; x87; x91; x0a; x87; x92; x0a; x87
].
(* tests/test_data/whatwg/shiftjis_whatwg_test_decode_in.txt, entries 2048..2303 *)
Definition shiftjis_decode_in_8 : list byte := [
  x93; x0a; x87; x94; x0a; x87; x95; x0a;
  x87; x96; x0a; x87; x97; x0a; x87; x98;
  x0a; x87; x99; x0a; x87; x9a; x0a; x87;
  x9b; x0a; x87; x9c; x0a; x88; x9f; x0a;
  x88; xa0; x0a; x88; xa1; x0a; x88; xa2;
  x0a; x88; xa3; x0a; x88; xa4; x0a; x88;
  xa5; x0a; x88; xa6; x0a; x88; xa7; x0a;
  x88; xa8; x0a; x88; xa9; x0a; x88; xaa;
  x0a; x88; xab; x0a; x88; xac; x0a; x88;
  xad; x0a; x88; xae; x0a; x88; xaf; x0a;
  x88; xb0; x0a; x88; xb1; x0a; x88; xb2;
  x0a; x88; xb3; x0a; x88; xb4; x0a; x88;
  xb5; x0a; x88; xb6; x0a; x88; xb7; x0a;
  x88; xb8; x0a; x88; xb9; x0a; x88; xba;
  x0a; x88; xbb; x0a; x88; xbc; x0a; x88;
  xbd; x0a; x88; xbe; x0a; x88; xbf; x0a;
  x88; xc0; x0a; x88; xc1; x0a; x88; xc2;
  x0a; x88; xc3; x0a; x88; xc4; x0a; x88;
  xc5; x0a; x88; xc6; x0a; x88; xc7; x0a;
  x88; xc8; x0a; x88; xc9; x0a; x88; xca;
  x0a; x88; xcb; x0a; x88; xcc; x0a; x88;
  xcd; x0a; x88; xce; x0a; x88; xcf; x0a;
  x88; xd0; x0a; x88; xd1; x0a; x88; xd2;
  x0a; x88; xd3; x0a; x88; xd4; x0a; x88;
  xd5; x0a; x88; xd6; x0a; x88; xd7; x0a;
  x88; xd8; x0a; x88; xd9; x0a; x88; xda;
  x0a; x88; xdb; x0a; x88; xdc; x0a; x88;
  xdd; x0a; x88; xde; x0a; x88; xdf; x0a;
  x88; xe0; x0a; x88; xe1; x0a; x88; xe2;
  x0a; x88; xe3; x0a; x88; xe4; x0a; x88;
  xe5; x0a; x88; xe6; x0a; x88; xe7; x0a;
  x88; xe8; x0a; x88; xe9; x0a; x88; xea
].
(* tests/test_data/whatwg/shiftjis_whatwg_test_decode_in.txt, entries 2304..2559 *)
Definition shiftjis_decode_in_9 : list byte := [
  x0a; x88; xeb; x0a; x88; xec; x0a; x88;
  xed; x0a; x88; xee; x0a; x88; xef; x0a;
  x88; xf0; x0a; x88; xf1; x0a; x88; xf2;
  x0a; x88; xf3; x0a; x88; xf4; x0a; x88;
  xf5; x0a; x88; xf6; x0a; x88; xf7; x0a;
  x88; xf8; x0a; x88; xf9; x0a; x88; xfa;
  x0a; x88; xfb; x0a; x88; xfc; x0a; x89;
  x40; x0a; x89; x41; x0a; x89; x42; x0a;
  x89; x43; x0a; x89; x44; x0a; x89; x45;
  x0a; x89; x46; x0a; x89; x47; x0a; x89;
  x48; x0a; x89; x49; x0a; x89; x4a; x0a;
  x89; x4b; x0a; x89; x4c; x0a; x89; x4d;
  x0a; x89; x4e; x0a; x89; x4f; x0a; x89;
  x50; x0a; x89; x51; x0a; x89; x52; x0a;
  x89; x53; x0a; x89; x54; x0a; x89; x55;
  x0a; x89; x56; x0a; x89; x57; x0a; x89;
  x58; x0a; x89; x59; x0a; x89; x5a; x0a;
  x89; x5b; x0a; x89; x5c; x0a; x89; x5d;
  x0a; x89; x5e; x0a; x89; x5f; x0a; x89;
  x60; x0a; x89; x61; x0a; x89; x62; x0a;
  x89; x63; x0a; x89; x64; x0a; x89; x65;
  x0a; x89; x66; x0a; x89; x67; x0a; x89;
  x68; x0a; x89; x69; x0a; x89; x6a; x0a;
  x89; x6b; x0a; x89; x6c; x0a; x89; x6d;
  x0a; x89; x6e; x0a; x89; x6f; x0a; x89;
  x70; x0a; x89; x71; x0a; x89; x72; x0a;
  x89; x73; x0a; x89; x74; x0a; x89; x75;
  x0a; x89; x76; x0a; x89; x77; x0a; x89;
  x78; x0a; x89; x79; x0a; x89; x7a; x0a;
  x89; x7b; x0a; x89; x7c; x0a; x89; x7d;
  x0a; x89; x7e; x0a; x89; x80; x0a; x89;
  x81; x0a; x89; x82; x0a; x89; x83; x0a
].
(* tests/test_data/whatwg/shiftjis_whatwg_test_decode_in.txt, entries 2560..2815 *)
Definition shiftjis_decode_in_10 : list byte := [
  x89; x84; x0a; x89; x85; x0a; x89; x86;
  x0a; x89; x87; x0a; x89; x88; x0a; x89;
  x89; x0a; x89; x8a; x0a; x89; x8b; x0a;
  x89; x8c; x0a; x89; x8d; x0a; x89; x8e;
  x0a; x89; x8f; x0a; x89; x90; x0a; x89;
  x91; x0a; x89; x92; x0a; x89; x93; x0a;
  x89; x94; x0a; x89; x95; x0a; x89; x96;
  x0a; x89; x97; x0a; x89; x98; x0a; x89;
  x99; x0a; x89; x9a; x0a; x89; x9b; x0a;
  x89; x9c; x0a; x89; x9d; x0a; x89; x9e;
  x0a; x89; x9f; x0a; x89; xa0; x0a; x89;
  xa1; x0a; x89; xa2; x0a; x89; xa3; x0a;
  x89; xa4; x0a; x89; xa5; x0a; x89; xa6;
  x0a; x89; xa7; x0a; x89; xa8; x0a; x89;
  xa9; x0a; x89; xaa; x0a; x89; xab; x0a;
  x89; xac; x0a; x89; xad; x0a; x89; xae;
  x0a; x89; xaf; x0a; x89; xb0; x0a; x89;
  xb1; x0a; x89; xb2; x0a; x89; xb3; x0a;
  x89; xb4; x0a; x89; xb5; x0a; x89; xb6;
  x0a; x89; xb7; x0a; x89; xb8; x0a; x89;
  xb9; x0a; x89; xba; x0a; x89; xbb; x0a;
  x89; xbc; x0a; x89; xbd; x0a; x89; xbe;
  x0a; x89; xbf; x0a; x89; xc0; x0a; x89;
  xc1; x0a; x89; xc2; x0a; x89; xc3; x0a;
  x89; xc4; x0a; x89; xc5; x0a; x89; xc6;
  x0a; x89; xc7; x0a; x89; xc8; x0a; x89;
  xc9; x0a; x89; xca; x0a; x89; xcb; x0a;
  x89; xcc; x0a; x89; xcd; x0a; x89; xce;
  x0a; x89; xcf; x0a; x89; xd0; x0a; x89;
  xd1; x0a; x89; xd2; x0a; x89; xd3; x0a;
  x89; xd4; x0a; x89; xd5; x0a; x89; xd6;
  x0a; x89; xd7; x0a; x89; xd8; x0a; x89
].
(* tests/test_data/whatwg/shiftjis_whatwg_test_decode_in.txt, entries 2816..3071 *)
Definition shiftjis_decode_in_11 : list byte := [
  xd9; x0a; x89; xda; x0a; x89; xdb; x0a;
  x89; xdc; x0a; x89; xdd; x0a; x89; xde;
  x0a; x89; xdf; x0a; x89; xe0; x0a; x89;
  xe1; x0a; x89; xe2; x0a; x89; xe3; x0a;
  x89; xe4; x0a; x89; xe5; x0a; x89; xe6;
  x0a; x89; xe7; x0a; x89; xe8; x0a; x89;
  xe9; x0a; x89; xea; x0a; x89; xeb; x0a;
  x89; xec; x0a; x89; xed; x0a; x89; xee;
  x0a; x89; xef; x0a; x89; xf0; x0a; x89;
  xf1; x0a; x89; xf2; x0a; x89; xf3; x0a;
  x89; xf4; x0a; x89; xf5; x0a; x89; xf6;
  x0a; x89; xf7; x0a; x89; xf8; x0a; x89;
  xf9; x0a; x89; xfa; x0a; x89; xfb; x0a;
  x89; xfc; x0a; x8a; x40; x0a; x8a; x41;
  x0a; x8a; x42; x0a; x8a; x43; x0a; x8a;
  x44; x0a; x8a; x45; x0a; x8a; x46; x0a;
  x8a; x47; x0a; x8a; x48; x0a; x8a; x49;
  x0a; x8a; x4a; x0a; x8a; x4b; x0a; x8a;
  x4c; x0a; x8a; x4d; x0a; x8a; x4e; x0a;
  x8a; x4f; x0a; x8a; x50; x0a; x8a; x51;
  x0a; x8a; x52; x0a; x8a; x53; x0a; x8a;
  x54; x0a; x8a; x55; x0a; x8a; x56; x0a;
  x8a; x57; x0a; x8a; x58; x0a; x8a; x59;
  x0a; x8a; x5a; x0a; x8a; x5b; x0a; x8a;
  x5c; x0a; x8a; x5d; x0a; x8a; x5e; x0a;
  x8a; x5f; x0a; x8a; x60; x0a; x8a; x61;
  x0a; x8a; x62; x0a; x8a; x63; x0a; x8a;
  x64; x0a; x8a; x65; x0a; x8a; x66; x0a;
  x8a; x67; x0a; x8a; x68; x0a; x8a; x69;
  x0a; x8a; x6a; x0a; x8a; x6b; x0a; x8a;
  x6c; x0a; x8a; x6d; x0a; x8a; x6e; x0a;
  x8a; x6f; x0a; x8a; x70; x0a; x8a; x71
].
(* tests/test_data/whatwg/shiftjis_whatwg_test_decode_in.txt, entries 3072..3327 *)
Definition shiftjis_decode_in_12 : list byte := [
  x0a; x8a; x72; x0a; x8a; x73; x0a; x8a;
  x74; x0a; x8a; x75; x0a; x8a; x76; x0a;
  x8a; x77; x0a; x8a; x78; x0a; x8a; x79;
  x0a; x8a; x7a; x0a; x8a; x7b; x0a; x8a;
  x7c; x0a; x8a; x7d; x0a; x8a; x7e; x0a;
  x8a; x80; x0a; x8a; x81; x0a; x8a; x82;
  x0a; x8a; x83; x0a; x8a; x84; x0a; x8a;
  x85; x0a; x8a; x86; x0a; x8a; x87; x0a;
  x8a; x88; x0a; x8a; x89; x0a; x8a; x8a;
  x0a; x8a; x8b; x0a; x8a; x8c; x0a; x8a;
  x8d; x0a; x8a; x8e; x0a; x8a; x8f; x0a;
  x8a; x90; x0a; x8a; x91; x0a; x8a; x92;
  x0a; x8a; x93; x0a; x8a; x94; x0a; x8a;
  x95; x0a; x8a; x96; x0a; x8a; x97; x0a;
  x8a; x98; x0a; x8a; x99; x0a; x8a; x9a;
  x0a; x8a; x9b; x0a; x8a; x9c; x0a; x8a;
  x9d; x0a; x8a; x9e; x0a; x8a; x9f; x0a;
  x8a; xa0; x0a; x8a; xa1; x0a; x8a; xa2;
  x0a; x8a; xa3; x0a; x8a; xa4; x0a; x8a;
  xa5; x0a; x8a; xa6; x0a; x8a; xa7; x0a;
  x8a; xa8; x0a; x8a; xa9; x0a; x8a; xaa;
  x0a; x8a; xab; x0a; x8a; xac; x0a; x8a;
  xad; x0a; x8a; xae; x0a; x8a; xaf; x0a;
  x8a; xb0; x0a; x8a; xb1; x0a; x8a; xb2;
  x0a; x8a; xb3; x0a; x8a; xb4; x0a; x8a;
  xb5; x0a; x8a; xb6; x0a; x8a; xb7; x0a;
  x8a; xb8; x0a; x8a; xb9; x0a; x8a; xba;
  x0a; x8a; xbb; x0a; x8a; xbc; x0a; x8a;
  xbd; x0a; x8a; xbe; x0a; x8a; xbf; x0a;
  x8a; xc0; x0a; x8a; xc1; x0a; x8a; xc2;
  x0a; x8a; xc3; x0a; x8a; xc4; x0a; x8a;
  xc5; x0a; x8a; xc6; x0a; x8a; xc7; x0a
].
(* tests/test_data/whatwg/shiftjis_whatwg_test_decode_in.txt, entries 3328..3583 *)
Definition shiftjis_decode_in_13 : list byte := [
  x8a; xc8; x0a; x8a; xc9; x0a; x8a; xca;
  x0a; x8a; xcb; x0a; x8a; xcc; x0a; x8a;
  xcd; x0a; x8a; xce; x0a; x8a; xcf; x0a;
  x8a; xd0; x0a; x8a; xd1; x0a; x8a; xd2;
  x0a; x8a; xd3; x0a; x8a; xd4; x0a; x8a;
  xd5; x0a; x8a; xd6; x0a; x8a; xd7; x0a;
  x8a; xd8; x0a; x8a; xd9; x0a; x8a; xda;
  x0a; x8a; xdb; x0a; x8a; xdc; x0a; x8a;
  xdd; x0a; x8a; xde; x0a; x8a; xdf; x0a;
  x8a; xe0; x0a; x8a; xe1; x0a; x8a; xe2;
  x0a; x8a; xe3; x0a; x8a; xe4; x0a; x8a;
  xe5; x0a; x8a; xe6; x0a; x8a; xe7; x0a;
  x8a; xe8; x0a; x8a; xe9; x0a; x8a; xea;
  x0a; x8a; xeb; x0a; x8a; xec; x0a; x8a;
  xed; x0a; x8a; xee; x0a; x8a; xef; x0a;
  x8a; xf0; x0a; x8a; xf1; x0a; x8a; xf2;
  x0a; x8a; xf3; x0a; x8a; xf4; x0a; x8a;
  xf5; x0a; x8a; xf6; x0a; x8a; xf7; x0a;
  x8a; xf8; x0a; x8a; xf9; x0a; x8a; xfa;
  x0a; x8a; xfb; x0a; x8a; xfc; x0a; x8b;
  x40; x0a; x8b; x41; x0a; x8b; x42; x0a;
  x8b; x43; x0a; x8b; x44; x0a; x8b; x45;
  x0a; x8b; x46; x0a; x8b; x47; x0a; x8b;
  x48; x0a; x8b; x49; x0a; x8b; x4a; x0a;
  x8b; x4b; x0a; x8b; x4c; x0a; x8b; x4d;
  x0a; x8b; x4e; x0a; x8b; x4f; x0a; x8b;
  x50; x0a; x8b; x51; x0a; x8b; x52; x0a;
  x8b; x53; x0a; x8b; x54; x0a; x8b; x55;
  x0a; x8b; x56; x0a; x8b; x57; x0a; x8b;
  x58; x0a; x8b; x59; x0a; x8b; x5a; x0a;
  x8b; x5b; x0a; x8b; x5c; x0a; x8b; x5d;
  x0a; x8b; x5e; x0a; x8b; x5f; x0a; x8b
].
(* tests/test_data/whatwg/shiftjis_whatwg_test_decode_in.txt, entries 3584..3839 *)
Definition shiftjis_decode_in_14 : list byte := [
  x60; x0a; x8b; x61; x0a; x8b; x62; x0a;
  x8b; x63; x0a; x8b; x64; x0a; x8b; x65;
  x0a; x8b; x66; x0a; x8b; x67; x0a; x8b;
  x68; x0a; x8b; x69; x0a; x8b; x6a; x0a;
  x8b; x6b; x0a; x8b; x6c; x0a; x8b; x6d;
  x0a; x8b; x6e; x0a; x8b; x6f; x0a; x8b;
  x70; x0a; x8b; x71; x0a; x8b; x72; x0a;
  x8b; x73; x0a; x8b; x74; x0a; x8b; x75;
  x0a; x8b; x76; x0a; x8b; x77; x0a; x8b;
  x78; x0a; x8b; x79; x0a; x8b; x7a; x0a;
  x8b; x7b; x0a; x8b; x7c; x0a; x8b; x7d;
  x0a; x8b; x7e; x0a; x8b; x80; x0a; x8b;
  x81; x0a; x8b; x82; x0a; x8b; x83; x0a;
  x8b; x84; x0a; x8b; x85; x0a; x8b; x86;
  x0a; x8b; x87; x0a; x8b; x88; x0a; x8b;
  x89; x0a; x8b; x8a; x0a; x8b; x8b; x0a;
  x8b; x8c; x0a; x8b; x8d; x0a; x8b; x8e;
  x0a; x8b; x8f; x0a; x8b; x90; x0a; x8b;
  x91; x0a; x8b; x92; x0a; x8b; x93; x0a;
  x8b; x94; x0a; x8b; x95; x0a; x8b; x96;
  x0a; x8b; x97; x0a; x8b; x98; x0a; x8b;
  x99; x0a; x8b; x9a; x0a; x8b; x9b; x0a;
  x8b; x9c; x0a; x8b; x9d; x0a; x8b; x9e;
  x0a; x8b; x9f; x0a; x8b; xa0; x0a; x8b;
  xa1; x0a; x8b; xa2; x0a; x8b; xa3; x0a;
  x8b; xa4; x0a; x8b; xa5; x0a; x8b; xa6;
  x0a; x8b; xa7; x0a; x8b; xa8; x0a; x8b;
  xa9; x0a; x8b; xaa; x0a; x8b; xab; x0a;
  x8b; xac; x0a; x8b; xad; x0a; x8b; xae;
  x0a; x8b; xaf; x0a; x8b; xb0; x0a; x8b;
  xb1; x0a; x8b; xb2; x0a; x8b; xb3; x0a;
  x8b; xb4; x0a; x8b; xb5; x0a; x8b; xb6
].
(* tests/test_data/whatwg/shiftjis_whatwg_test_decode_in.txt, entries 3840..4095 *)
Definition shiftjis_decode_in_15 : list byte := [
  x0a; x8b; xb7; x0a; x8b; xb8; x0a; x8b;
  xb9; x0a; x8b; xba; x0a; x8b; xbb; x0a;
  x8b; xbc; x0a; x8b; xbd; x0a; x8b; xbe;
  x0a; x8b; xbf; x0a; x8b; xc0; x0a; x8b;
  xc1; x0a; x8b; xc2; x0a; x8b; xc3; x0a;
  x8b; xc4; x0a; x8b; xc5; x0a; x8b; xc6;
  x0a; x8b; xc7; x0a; x8b; xc8; x0a; x8b;
  xc9; x0a; x8b; xca; x0a; x8b; xcb; x0a;
  x8b; xcc; x0a; x8b; xcd; x0a; x8b; xce;
  x0a; x8b; xcf; x0a; x8b; xd0; x0a; x8b;
  xd1; x0a; x8b; xd2; x0a; x8b; xd3; x0a;
  x8b; xd4; x0a; x8b; xd5; x0a; x8b; xd6;
  x0a; x8b; xd7; x0a; x8b; xd8; x0a; x8b;
  xd9; x0a; x8b; xda; x0a; x8b; xdb; x0a;
  x8b; xdc; x0a; x8b; xdd; x0a; x8b; xde;
  x0a; x8b; xdf; x0a; x8b; xe0; x0a; x8b;
  xe1; x0a; x8b; xe2; x0a; x8b; xe3; x0a;
  x8b; xe4; x0a; x8b; xe5; x0a; x8b; xe6;
  x0a; x8b; xe7; x0a; x8b; xe8; x0a; x8b;
  xe9; x0a; x8b; xea; x0a; x8b; xeb; x0a;
  x8b; xec; x0a; x8b; xed; x0a; x8b; xee;
  x0a; x8b; xef; x0a; x8b; xf0; x0a; x8b;
  xf1; x0a; x8b; xf2; x0a; x8b; xf3; x0a;
  x8b; xf4; x0a; x8b; xf5; x0a; x8b; xf6;
  x0a; x8b; xf7; x0a; x8b; xf8; x0a; x8b;
  xf9; x0a; x8b; xfa; x0a; x8b; xfb; x0a;
  x8b; xfc; x0a; x8c; x40; x0a; x8c; x41;
  x0a; x8c; x42; x0a; x8c; x43; x0a; x8c;
  x44; x0a; x8c; x45; x0a; x8c; x46; x0a;
  x8c; x47; x0a; x8c; x48; x0a; x8c; x49;
  x0a; x8c; x4a; x0a; x8c; x4b; x0a; x8c;
  x4c; x0a; x8c; x4d; x0a; x8c; x4e; x0a
].
(* tests/test_data/whatwg/shiftjis_whatwg_test_decode_in.txt, entries 4096..4351 *)
Definition shiftjis_decode_in_16 : list byte := [
  x8c; x4f; x0a; x8c; x50; x0a; x8c; x51;
  x0a; x8c; x52; x0a; x8c; x53; x0a; x8c;
  x54; x0a; x8c; x55; x0a; x8c; x56; x0a;
  x8c; x57; x0a; x8c; x58; x0a; x8c; x59;
  x0a; x8c; x5a; x0a; x8c; x5b; x0a; x8c;
  x5c; x0a; x8c; x5d; x0a; x8c; x5e; x0a;
  x8c; x5f; x0a; x8c; x60; x0a; x8c; x61;
  x0a; x8c; x62; x0a; x8c; x63; x0a; x8c;
  x64; x0a; x8c; x65; x0a; x8c; x66; x0a;
  x8c; x67; x0a; x8c; x68; x0a; x8c; x69;
  x0a; x8c; x6a; x0a; x8c; x6b; x0a; x8c;
  x6c; x0a; x8c; x6d; x0a; x8c; x6e; x0a;
  x8c; x6f; x0a; x8c; x70; x0a; x8c; x71;
  x0a; x8c; x72; x0a; x8c; x73; x0a; x8c;
  x74; x0a; x8c; x75; x0a; x8c; x76; x0a;
  x8c; x77; x0a; x8c; x78; x0a; x8c; x79;
  x0a; x8c; x7a; x0a; x8c; x7b; x0a; x8c;
  x7c; x0a; x8c; x7d; x0a; x8c; x7e; x0a;
  x8c; x80; x0a; x8c; x81; x0a; x8c; x82;
  x0a; x8c; x83; x0a; x8c; x84; x0a; x8c;
  x85; x0a; x8c; x86; x0a; x8c; x87; x0a;
  x8c; x88; x0a; x8c; x89; x0a; x8c; x8a;
  x0a; x8c; x8b; x0a; x8c; x8c; x0a; x8c;
  x8d; x0a; x8c; x8e; x0a; x8c; x8f; x0a;
  x8c; x90; x0a; x8c; x91; x0a; x8c; x92;
  x0a; x8c; x93; x0a; x8c; x94; x0a; x8c;
  x95; x0a; x8c; x96; x0a; x8c; x97; x0a;
  x8c; x98; x0a; x8c; x99; x0a; x8c; x9a;
  x0a; x8c; x9b; x0a; x8c; x9c; x0a; x8c;
  x9d; x0a; x8c; x9e; x0a; x8c; x9f; x0a;
  x8c; xa0; x0a; x8c; xa1; x0a; x8c; xa2;
  x0a; x8c; xa3; x0a; x8c; xa4; x0a; x8c
].
(* tests/test_data/whatwg/shiftjis_whatwg_test_decode_in.txt, entries 4352..4607 *)
Definition shiftjis_decode_in_17 : list byte := [
  xa5; x0a; x8c; xa6; x0a; x8c; xa7; x0a;
  x8c; xa8; x0a; x8c; xa9; x0a; x8c; xaa;
  x0a; x8c; xab; x0a; x8c; xac; x0a; x8c;
  xad; x0a; x8c; xae; x0a; x8c; xaf; x0a;
  x8c; xb0; x0a; x8c; xb1; x0a; x8c; xb2;
  x0a; x8c; xb3; x0a; x8c; xb4; x0a; x8c;
  xb5; x0a; x8c; xb6; x0a; x8c; xb7; x0a;
  x8c; xb8; x0a; x8c; xb9; x0a; x8c; xba;
  x0a; x8c; xbb; x0a; x8c; xbc; x0a; x8c;
  xbd; x0a; x8c; xbe; x0a; x8c; xbf; x0a;
  x8c; xc0; x0a; x8c; xc1; x0a; x8c; xc2;
  x0a; x8c; xc3; x0a; x8c; xc4; x0a; x8c;
  xc5; x0a; x8c; xc6; x0a; x8c; xc7; x0a;
  x8c; xc8; x0a; x8c; xc9; x0a; x8c; xca;
  x0a; x8c; xcb; x0a; x8c; xcc; x0a; x8c;
  xcd; x0a; x8c; xce; x0a; x8c; xcf; x0a;
  x8c; xd0; x0a; x8c; xd1; x0a; x8c; xd2;
  x0a; x8c; xd3; x0a; x8c; xd4; x0a; x8c;
  xd5; x0a; x8c; xd6; x0a; x8c; xd7; x0a;
  x8c; xd8; x0a; x8c; xd9; x0a; x8c; xda;
  x0a; x8c; xdb; x0a; x8c; xdc; x0a; x8c;
  xdd; x0a; x8c; xde; x0a; x8c; xdf; x0a;
  x8c; xe0; x0a; x8c; xe1; x0a; x8c; xe2;
  x0a; x8c; xe3; x0a; x8c; xe4; x0a; x8c;
  xe5; x0a; x8c; xe6; x0a; x8c; xe7; x0a;
  x8c; xe8; x0a; x8c; xe9; x0a; x8c; xea;
  x0a; x8c; xeb; x0a; x8c; xec; x0a; x8c;
  xed; x0a; x8c; xee; x0a; x8c; xef; x0a;
  x8c; xf0; x0a; x8c; xf1; x0a; x8c; xf2;
  x0a; x8c; xf3; x0a; x8c; xf4; x0a; x8c;
  xf5; x0a; x8c; xf6; x0a; x8c; xf7; x0a;
  x8c; xf8; x0a; x8c; xf9; x0a; x8c; xfa
].
(* tests/test_data/whatwg/shiftjis_whatwg_test_decode_in.txt, entries 4608..4863 *)
Definition shiftjis_decode_in_18 : list byte := [
  x0a; x8c; xfb; x0a; x8c; xfc; x0a; x8d;
  x40; x0a; x8d; x41; x0a; x8d; x42; x0a;
  x8d; x43; x0a; x8d; x44; x0a; x8d; x45;
  x0a; x8d; x46; x0a; x8d; x47; x0a; x8d;
  x48; x0a; x8d; x49; x0a; x8d; x4a; x0a;
  x8d; x4b; x0a; x8d; x4c; x0a; x8d; x4d;
  x0a; x8d; x4e; x0a; x8d; x4f; x0a; x8d;
  x50; x0a; x8d; x51; x0a; x8d; x52; x0a;
  x8d; x53; x0a; x8d; x54; x0a; x8d; x55;
  x0a; x8d; x56; x0a; x8d; x57; x0a; x8d;
  x58; x0a; x8d; x59; x0a; x8d; x5a; x0a;
  x8d; x5b; x0a; x8d; x5c; x0a; x8d; x5d;
  x0a; x8d; x5e; x0a; x8d; x5f; x0a; x8d;
  x60; x0a; x8d; x61; x0a; x8d; x62; x0a;
  x8d; x63; x0a; x8d; x64; x0a; x8d; x65;
  x0a; x8d; x66; x0a; x8d; x67; x0a; x8d;
  x68; x0a; x8d; x69; x0a; x8d; x6a; x0a;
  x8d; x6b; x0a; x8d; x6c; x0a; x8d; x6d;
  x0a; x8d; x6e; x0a; x8d; x6f; x0a; x8d;
  x70; x0a; x8d; x71; x0a; x8d; x72; x0a;
  x8d; x73; x0a; x8d; x74; x0a; x8d; x75;
  x0a; x8d; x76; x0a; x8d; x77; x0a; x8d;
  x78; x0a; x8d; x79; x0a; x8d; x7a; x0a;
  x8d; x7b; x0a; x8d; x7c; x0a; x8d; x7d;
  x0a; x8d; x7e; x0a; x8d; x80; x0a; x8d;
  x81; x0a; x8d; x82; x0a; x8d; x83; x0a;
  x8d; x84; x0a; x8d; x85; x0a; x8d; x86;
  x0a; x8d; x87; x0a; x8d; x88; x0a; x8d;
  x89; x0a; x8d; x8a; x0a; x8d; x8b; x0a;
  x8d; x8c; x0a; x8d; x8d; x0a; x8d; x8e;
  x0a; x8d; x8f; x0a; x8d; x90; x0a; x8d;
  x91; x0a; x8d; x92; x0a; x8d; x93; x0a
].
(* tests/test_data/whatwg/shiftjis_whatwg_test_decode_in.txt, entries 4864..5119 *)
Definition shiftjis_decode_in_19 : list byte := [
  x8d; x94; x0a; x8d; x95; x0a; x8d; x96;
  x0a; x8d; x97; x0a; x8d; x98; x0a; x8d;
  x99; x0a; x8d; x9a; x0a; x8d; x9b; x0a;
  x8d; x9c; x0a; x8d; x9d; x0a; x8d; x9e;
  x0a; x8d; x9f; x0a; x8d; xa0; x0a; x8d;
  xa1; x0a; x8d; xa2; x0a; x8d; xa3; x0a;
  x8d; xa4; x0a; x8d; xa5; x0a; x8d; xa6;
  x0a; x8d; xa7; x0a; x8d; xa8; x0a; x8d;
  xa9; x0a; x8d; xaa; x0a; x8d; xab; x0a;
  x8d; xac; x0a; x8d; xad; x0a; x8d; xae;
  x0a; x8d; xaf; x0a; x8d; xb0; x0a; x8d;
  xb1; x0a; x8d; xb2; x0a; x8d; xb3; x0a;
  x8d; xb4; x0a; x8d; xb5; x0a; x8d; xb6;
  x0a; x8d; xb7; x0a; x8d; xb8; x0a; x8d;
  xb9; x0a; x8d; xba; x0a; x8d; xbb; x0a;
  x8d; xbc; x0a; x8d; xbd; x0a; x8d; xbe;
  x0a; x8d; xbf; x0a; x8d; xc0; x0a; x8d;
  xc1; x0a; x8d; xc2; x0a; x8d; xc3; x0a;
  x8d; xc4; x0a; x8d; xc5; x0a; x8d; xc6;
  x0a; x8d; xc7; x0a; x8d; xc8; x0a; x8d;
  xc9; x0a; x8d; xca; x0a; x8d; xcb; x0a;
  x8d; xcc; x0a; x8d; xcd; x0a; x8d; xce;
  x0a; x8d; xcf; x0a; x8d; xd0; x0a; x8d;
  xd1; x0a; x8d; xd2; x0a; x8d; xd3; x0a;
  x8d; xd4; x0a; x8d; xd5; x0a; x8d; xd6;
  x0a; x8d; xd7; x0a; x8d; xd8; x0a; x8d;
  xd9; x0a; x8d; xda; x0a; x8d; xdb; x0a;
  x8d; xdc; x0a; x8d; xdd; x0a; x8d; xde;
  x0a; x8d; xdf; x0a; x8d; xe0; x0a; x8d;
  xe1; x0a; x8d; xe2; x0a; x8d; xe3; x0a;
  x8d; xe4; x0a; x8d; xe5; x0a; x8d; xe6;
  x0a; x8d; xe7; x0a; x8d; xe8; x0a; x8d
].
(* tests/test_data/whatwg/shiftjis_whatwg_test_decode_in.txt, entries 5120..5375 *)
Definition shiftjis_decode_in_20 : list byte := [
  xe9; x0a; x8d; xea; x0a; x8d; xeb; x0a;
  x8d; xec; x0a; x8d; xed; x0a; x8d; xee;
  x0a; x8d; xef; x0a; x8d; xf0; x0a; x8d;
  xf1; x0a; x8d; xf2; x0a; x8d; xf3; x0a;
  x8d; xf4; x0a; x8d; xf5; x0a; x8d; xf6;
  x0a; x8d; xf7; x0a; x8d; xf8; x0a; x8d;
  xf9; x0a; x8d; xfa; x0a; x8d; xfb; x0a;
  x8d; xfc; x0a; x8e; x40; x0a; x8e; x41;
  x0a; x8e; x42; x0a; x8e; x43; x0a; x8e;
  x44; x0a; x8e; x45; x0a; x8e; x46; x0a;
  x8e; x47; x0a; x8e; x48; x0a; x8e; x49;
  x0a; x8e; x4a; x0a; x8e; x4b; x0a; x8e;
  x4c; x0a; x8e; x4d; x0a; x8e; x4e; x0a;
  x8e; x4f; x0a; x8e; x50; x0a; x8e; x51;
  x0a; x8e; x52; x0a; x8e; x53; x0a; x8e;
  x54; x0a; x8e; x55; x0a; x8e; x56; x0a;
  x8e; x57; x0a; x8e; x58; x0a; x8e; x59;
  x0a; x8e; x5a; x0a; x8e; x5b; x0a; x8e;
  x5c; x0a; x8e; x5d; x0a; x8e; x5e; x0a;
  x8e; x5f; x0a; x8e; x60; x0a; x8e; x61;
  x0a; x8e; x62; x0a; x8e; x63; x0a; x8e;
  x64; x0a; x8e; x65; x0a; x8e; x66; x0a;
  x8e; x67; x0a; x8e; x68; x0a; x8e; x69;
  x0a; x8e; x6a; x0a; x8e; x6b; x0a; x8e;
  x6c; x0a; x8e; x6d; x0a; x8e; x6e; x0a;
  x8e; x6f; x0a; x8e; x70; x0a; x8e; x71;
  x0a; x8e; x72; x0a; x8e; x73; x0a; x8e;
  x74; x0a; x8e; x75; x0a; x8e; x76; x0a;
  x8e; x77; x0a; x8e; x78; x0a; x8e; x79;
  x0a; x8e; x7a; x0a; x8e; x7b; x0a; x8e;
  x7c; x0a; x8e; x7d; x0a; x8e; x7e; x0a;
  x8e; x80; x0a; x8e; x81; x0a; x8e; x82
].
(* tests/test_data/whatwg/shiftjis_whatwg_test_decode_in.txt, entries 5376..5631 *)
Definition shiftjis_decode_in_21 : list byte := [
  x0a; x8e; x83; x0a; x8e; x84; x0a; x8e;
  x85; x0a; x8e; x86; x0a; x8e; x87; x0a;
  x8e; x88; x0a; x8e; x89; x0a; x8e; x8a;
  x0a; x8e; x8b; x0a; x8e; x8c; x0a; x8e;
  x8d; x0a; x8e; x8e; x0a; x8e; x8f; x0a;
  x8e; x90; x0a; x8e; x91; x0a; x8e; x92;
  x0a; x8e; x93; x0a; x8e; x94; x0a; x8e;
  x95; x0a; x8e; x96; x0a; x8e; x97; x0a;
  x8e; x98; x0a; x8e; x99; x0a; x8e; x9a;
  x0a; x8e; x9b; x0a; x8e; x9c; x0a; x8e;
  x9d; x0a; x8e; x9e; x0a; x8e; x9f; x0a;
  x8e; xa0; x0a; x8e; xa1; x0a; x8e; xa2;
  x0a; x8e; xa3; x0a; x8e; xa4; x0a; x8e;
  xa5; x0a; x8e; xa6; x0a; x8e; xa7; x0a;
  x8e; xa8; x0a; x8e; xa9; x0a; x8e; xaa;
  x0a; x8e; xab; x0a; x8e; xac; x0a; x8e;
  xad; x0a; x8e; xae; x0a; x8e; xaf; x0a;
  x8e; xb0; x0a; x8e; xb1; x0a; x8e; xb2;
  x0a; x8e; xb3; x0a; x8e; xb4; x0a; x8e;
  xb5; x0a; x8e; xb6; x0a; x8e; xb7; x0a;
  x8e; xb8; x0a; x8e; xb9; x0a; x8e; xba;
  x0a; x8e; xbb; x0a; x8e; xbc; x0a; x8e;
  xbd; x0a; x8e; xbe; x0a; x8e; xbf; x0a;
  x8e; xc0; x0a; x8e; xc1; x0a; x8e; xc2;
  x0a; x8e; xc3; x0a; x8e; xc4; x0a; x8e;
  xc5; x0a; x8e; xc6; x0a; x8e; xc7; x0a;
  x8e; xc8; x0a; x8e; xc9; x0a; x8e; xca;
  x0a; x8e; xcb; x0a; x8e; xcc; x0a; x8e;
  xcd; x0a; x8e; xce; x0a; x8e; xcf; x0a;
  x8e; xd0; x0a; x8e; xd1; x0a; x8e; xd2;
  x0a; x8e; xd3; x0a; x8e; xd4; x0a; x8e;
  xd5; x0a; x8e; xd6; x0a; x8e; xd7; x0a
].
(* tests/test_data/whatwg/shiftjis_whatwg_test_decode_in.txt, entries 5632..5887 *)
Definition shiftjis_decode_in_22 : list byte := [
  x8e; xd8; x0a; x8e; xd9; x0a; x8e; xda;
  x0a; x8e; xdb; x0a; x8e; xdc; x0a; x8e;
  xdd; x0a; x8e; xde; x0a; x8e; xdf; x0a;
  x8e; xe0; x0a; x8e; xe1; x0a; x8e; xe2;
  x0a; x8e; xe3; x0a; x8e; xe4; x0a; x8e;
  xe5; x0a; x8e; xe6; x0a; x8e; xe7; x0a;
  x8e; xe8; x0a; x8e; xe9; x0a; x8e; xea;
  x0a; x8e; xeb; x0a; x8e; xec; x0a; x8e;
  xed; x0a; x8e; xee; x0a; x8e; xef; x0a;
  x8e; xf0; x0a; x8e; xf1; x0a; x8e; xf2;
  x0a; x8e; xf3; x0a; x8e; xf4; x0a; x8e;
  xf5; x0a; x8e; xf6; x0a; x8e; xf7; x0a;
  x8e; xf8; x0a; x8e; xf9; x0a; x8e; xfa;
  x0a; x8e; xfb; x0a; x8e; xfc; x0a; x8f;
  x40; x0a; x8f; x41; x0a; x8f; x42; x0a;
  x8f; x43; x0a; x8f; x44; x0a; x8f; x45;
  x0a; x8f; x46; x0a; x8f; x47; x0a; x8f;
  x48; x0a; x8f; x49; x0a; x8f; x4a; x0a;
  x8f; x4b; x0a; x8f; x4c; x0a; x8f; x4d;
  x0a; x8f; x4e; x0a; x8f; x4f; x0a; x8f;
  x50; x0a; x8f; x51; x0a; x8f; x52; x0a;
  x8f; x53; x0a; x8f; x54; x0a; x8f; x55;
  x0a; x8f; x56; x0a; x8f; x57; x0a; x8f;
  x58; x0a; x8f; x59; x0a; x8f; x5a; x0a;
  x8f; x5b; x0a; x8f; x5c; x0a; x8f; x5d;
  x0a; x8f; x5e; x0a; x8f; x5f; x0a; x8f;
  x60; x0a; x8f; x61; x0a; x8f; x62; x0a;
  x8f; x63; x0a; x8f; x64; x0a; x8f; x65;
  x0a; x8f; x66; x0a; x8f; x67; x0a; x8f;
  x68; x0a; x8f; x69; x0a; x8f; x6a; x0a;
  x8f; x6b; x0a; x8f; x6c; x0a; x8f; x6d;
  x0a; x8f; x6e; x0a; x8f; x6f; x0a; x8f
].
(* tests/test_data/whatwg/shiftjis_whatwg_test_decode_in.txt, entries 5888..6143 *)
Definition shiftjis_decode_in_23 : list byte := [
  x70; x0a; x8f; x71; x0a; x8f; x72; x0a;
  x8f; x73; x0a; x8f; x74; x0a; x8f; x75;
  x0a; x8f; x76; x0a; x8f; x77; x0a; x8f;
  x78; x0a; x8f; x79; x0a; x8f; x7a; x0a;
  x8f; x7b; x0a; x8f; x7c; x0a; x8f; x7d;
  x0a; x8f; x7e; x0a; x8f; x80; x0a; x8f;
  x81; x0a; x8f; x82; x0a; x8f; x83; x0a;
  x8f; x84; x0a; x8f; x85; x0a; x8f; x86;
  x0a; x8f; x87; x0a; x8f; x88; x0a; x8f;
  x89; x0a; x8f; x8a; x0a; x8f; x8b; x0a;
  x8f; x8c; x0a; x8f; x8d; x0a; x8f; x8e;
  x0a; x8f; x8f; x0a; x8f; x90; x0a; x8f;
  x91; x0a; x8f; x92; x0a; x8f; x93; x0a;
  x8f; x94; x0a; x8f; x95; x0a; x8f; x96;
  x0a; x8f; x97; x0a; x8f; x98; x0a; x8f;
  x99; x0a; x8f; x9a; x0a; x8f; x9b; x0a;
  x8f; x9c; x0a; x8f; x9d; x0a; x8f; x9e;
  x0a; x8f; x9f; x0a; x8f; xa0; x0a; x8f;
  xa1; x0a; x8f; xa2; x0a; x8f; xa3; x0a;
  x8f; xa4; x0a; x8f; xa5; x0a; x8f; xa6;
  x0a; x8f; xa7; x0a; x8f; xa8; x0a; x8f;
  xa9; x0a; x8f; xaa; x0a; x8f; xab; x0a;
  x8f; xac; x0a; x8f; xad; x0a; x8f; xae;
  x0a; x8f; xaf; x0a; x8f; xb0; x0a; x8f;
  xb1; x0a; x8f; xb2; x0a; x8f; xb3; x0a;
  x8f; xb4; x0a; x8f; xb5; x0a; x8f; xb6;
  x0a; x8f; xb7; x0a; x8f; xb8; x0a; x8f;
  xb9; x0a; x8f; xba; x0a; x8f; xbb; x0a;
  x8f; xbc; x0a; x8f; xbd; x0a; x8f; xbe;
  x0a; x8f; xbf; x0a; x8f; xc0; x0a; x8f;
  xc1; x0a; x8f; xc2; x0a; x8f; xc3; x0a;
  x8f; xc4; x0a; x8f; xc5; x0a; x8f; xc6
].
(* tests/test_data/whatwg/shiftjis_whatwg_test_decode_in.txt, entries 6144..6399 *)
Definition shiftjis_decode_in_24 : list byte := [
  x0a; x8f; xc7; x0a; x8f; xc8; x0a; x8f;
  xc9; x0a; x8f; xca; x0a; x8f; xcb; x0a;
  x8f; xcc; x0a; x8f; xcd; x0a; x8f; xce;
  x0a; x8f; xcf; x0a; x8f; xd0; x0a; x8f;
  xd1; x0a; x8f; xd2; x0a; x8f; xd3; x0a;
  x8f; xd4; x0a; x8f; xd5; x0a; x8f; xd6;
  x0a; x8f; xd7; x0a; x8f; xd8; x0a; x8f;
  xd9; x0a; x8f; xda; x0a; x8f; xdb; x0a;
  x8f; xdc; x0a; x8f; xdd; x0a; x8f; xde;
  x0a; x8f; xdf; x0a; x8f; xe0; x0a; x8f;
  xe1; x0a; x8f; xe2; x0a; x8f; xe3; x0a;
  x8f; xe4; x0a; x8f; xe5; x0a; x8f; xe6;
  x0a; x8f; xe7; x0a; x8f; xe8; x0a; x8f;
  xe9; x0a; x8f; xea; x0a; x8f; xeb; x0a;
  x8f; xec; x0a; x8f; xed; x0a; x8f; xee;
  x0a; x8f; xef; x0a; x8f; xf0; x0a; x8f;
  xf1; x0a; x8f; xf2; x0a; x8f; xf3; x0a;
  x8f; xf4; x0a; x8f; xf5; x0a; x8f; xf6;
  x0a; x8f; xf7; x0a; x8f; xf8; x0a; x8f;
  xf9; x0a; x8f; xfa; x0a; x8f; xfb; x0a;
  x8f; xfc; x0a; x90; x40; x0a; x90; x41;
  x0a; x90; x42; x0a; x90; x43; x0a; x90;
  x44; x0a; x90; x45; x0a; x90; x46; x0a;
  x90; x47; x0a; x90; x48; x0a; x90; x49;
  x0a; x90; x4a; x0a; x90; x4b; x0a; x90;
  x4c; x0a; x90; x4d; x0a; x90; x4e; x0a;
  x90; x4f; x0a; x90; x50; x0a; x90; x51;
  x0a; x90; x52; x0a; x90; x53; x0a; x90;
  x54; x0a; x90; x55; x0a; x90; x56; x0a;
  x90; x57; x0a; x90; x58; x0a; x90; x59;
  x0a; x90; x5a; x0a; x90; x5b; x0a; x90;
  x5c; x0a; x90; x5d; x0a; x90; x5e; x0a
].
(* tests/test_data/whatwg/shiftjis_whatwg_test_decode_in.txt, entries 6400..6655 *)
Definition shiftjis_decode_in_25 : list byte := [
  x90; x5f; x0a; x90; x60; x0a; x90; x61;
  x0a; x90; x62; x0a; x90; x63; x0a; x90;
  x64; x0a; x90; x65; x0a; x90; x66; x0a;
  x90; x67; x0a; x90; x68; x0a; x90; x69;
  x0a; x90; x6a; x0a; x90; x6b; x0a; x90;
  x6c; x0a; x90; x6d; x0a; x90; x6e; x0a;
  x90; x6f; x0a; x90; x70; x0a; x90; x71;
  x0a; x90; x72; x0a; x90; x73; x0a; x90;
  x74; x0a; x90; x75; x0a; x90; x76; x0a;
  x90; x77; x0a; x90; x78; x0a; x90; x79;
  x0a; x90; x7a; x0a; x90; x7b; x0a; x90;
  x7c; x0a; x90; x7d; x0a; x90; x7e; x0a;
  x90; x80; x0a; x90; x81; x0a; x90; x82;
  x0a; x90; x83; x0a; x90; x84; x0a; x90;
  x85; x0a; x90; x86; x0a; x90; x87; x0a;
  x90; x88; x0a; x90; x89; x0a; x90; x8a;
  x0a; x90; x8b; x0a; x90; x8c; x0a; x90;
  x8d; x0a; x90; x8e; x0a; x90; x8f; x0a;
  x90; x90; x0a; x90; x91; x0a; x90; x92;
  x0a; x90; x93; x0a; x90; x94; x0a; x90;
  x95; x0a; x90; x96; x0a; x90; x97; x0a;
  x90; x98; x0a; x90; x99; x0a; x90; x9a;
  x0a; x90; x9b; x0a; x90; x9c; x0a; x90;
  x9d; x0a; x90; x9e; x0a; x90; x9f; x0a;
  x90; xa0; x0a; x90; xa1; x0a; x90; xa2;
  x0a; x90; xa3; x0a; x90; xa4; x0a; x90;
  xa5; x0a; x90; xa6; x0a; x90; xa7; x0a;
  x90; xa8; x0a; x90; xa9; x0a; x90; xaa;
  x0a; x90; xab; x0a; x90; xac; x0a; x90;
  xad; x0a; x90; xae; x0a; x90; xaf; x0a;
  x90; xb0; x0a; x90; xb1; x0a; x90; xb2;
  x0a; x90; xb3; x0a; x90; xb4; x0a; x90
].
(* tests/test_data/whatwg/shiftjis_whatwg_test_decode_in.txt, entries 6656..6911 *)
Definition shiftjis_decode_in_26 : list byte := [
  xb5; x0a; x90; xb6; x0a; x90; xb7; x0a;
  x90; xb8; x0a; x90; xb9; x0a; x90; xba;
  x0a; x90; xbb; x0a; x90; xbc; x0a; x90;
  xbd; x0a; x90; xbe; x0a; x90; xbf; x0a;
  x90; xc0; x0a; x90; xc1; x0a; x90; xc2;
  x0a; x90; xc3; x0a; x90; xc4; x0a; x90;
  xc5; x0a; x90; xc6; x0a; x90; xc7; x0a;
  x90; xc8; x0a; x90; xc9; x0a; x90; xca;
  x0a; x90; xcb; x0a; x90; xcc; x0a; x90;
  xcd; x0a; x90; xce; x0a; x90; xcf; x0a;
  x90; xd0; x0a; x90; xd1; x0a; x90; xd2;
  x0a; x90; xd3; x0a; x90; xd4; x0a; x90;
  xd5; x0a; x90; xd6; x0a; x90; xd7; x0a;
  x90; xd8; x0a; x90; xd9; x0a; x90; xda;
  x0a; x90; xdb; x0a; x90; xdc; x0a; x90;
  xdd; x0a; x90; xde; x0a; x90; xdf; x0a;
  x90; xe0; x0a; x90; xe1; x0a; x90; xe2;
  x0a; x90; xe3; x0a; x90; xe4; x0a; x90;
  xe5; x0a; x90; xe6; x0a; x90; xe7; x0a;
  x90; xe8; x0a; x90; xe9; x0a; x90; xea;
  x0a; x90; xeb; x0a; x90; xec; x0a; x90;
  xed; x0a; x90; xee; x0a; x90; xef; x0a;
  x90; xf0; x0a; x90; xf1; x0a; x90; xf2;
  x0a; x90; xf3; x0a; x90; xf4; x0a; x90;
  xf5; x0a; x90; xf6; x0a; x90; xf7; x0a;
  x90; xf8; x0a; x90; xf9; x0a; x90; xfa;
  x0a; x90; xfb; x0a; x90; xfc; x0a; x91;
  x40; x0a; x91; x41; x0a; x91; x42; x0a;
  x91; x43; x0a; x91; x44; x0a; x91; x45;
  x0a; x91; x46; x0a; x91; x47; x0a; x91;
  x48; x0a; x91; x49; x0a; x91; x4a; x0a;
  x91; x4b; x0a; x91; x4c; x0a; x91; x4d
].
(* tests/test_data/whatwg/shiftjis_whatwg_test_decode_in.txt, entries 6912..7167 *)
Definition shiftjis_decode_in_27 : list byte := [
  x0a; x91; x4e; x0a; x91; x4f; x0a; x91;
  x50; x0a; x91; x51; x0a; x91; x52; x0a;
  x91; x53; x0a; x91; x54; x0a; x91; x55;
  x0a; x91; x56; x0a; x91; x57; x0a; x91;
  x58; x0a; x91; x59; x0a; x91; x5a; x0a;
  x91; x5b; x0a; x91; x5c; x0a; x91; x5d;
  x0a; x91; x5e; x0a; x91; x5f; x0a; x91;
  x60; x0a; x91; x61; x0a; x91; x62; x0a;
  x91; x63; x0a; x91; x64; x0a; x91; x65;
  x0a; x91; x66; x0a; x91; x67; x0a; x91;
  x68; x0a; x91; x69; x0a; x91; x6a; x0a;
  x91; x6b; x0a; x91; x6c; x0a; x91; x6d;
  x0a; x91; x6e; x0a; x91; x6f; x0a; x91;
  x70; x0a; x91; x71; x0a; x91; x72; x0a;
  x91; x73; x0a; x91; x74; x0a; x91; x75;
  x0a; x91; x76; x0a; x91; x77; x0a; x91;
  x78; x0a; x91; x79; x0a; x91; x7a; x0a;
  x91; x7b; x0a; x91; x7c; x0a; x91; x7d;
  x0a; x91; x7e; x0a; x91; x80; x0a; x91;
  x81; x0a; x91; x82; x0a; x91; x83; x0a;
  x91; x84; x0a; x91; x85; x0a; x91; x86;
  x0a; x91; x87; x0a; x91; x88; x0a; x91;
  x89; x0a; x91; x8a; x0a; x91; x8b; x0a;
  x91; x8c; x0a; x91; x8d; x0a; x91; x8e;
  x0a; x91; x8f; x0a; x91; x90; x0a; x91;
  x91; x0a; x91; x92; x0a; x91; x93; x0a;
  x91; x94; x0a; x91; x95; x0a; x91; x96;
  x0a; x91; x97; x0a; x91; x98; x0a; x91;
  x99; x0a; x91; x9a; x0a; x91; x9b; x0a;
  x91; x9c; x0a; x91; x9d; x0a; x91; x9e;
  x0a; x91; x9f; x0a; x91; xa0; x0a; x91;
  xa1; x0a; x91; xa2; x0a; x91; xa3; x0a
].
(* tests/test_data/whatwg/shiftjis_whatwg_test_decode_in.txt, entries 7168..7423 *)
Definition shiftjis_decode_in_28 : list byte := [
  x91; xa4; x0a; x91; xa5; x0a; x91; xa6;
  x0a; x91; xa7; x0a; x91; xa8; x0a; x91;
  xa9; x0a; x91; xaa; x0a; x91; xab; x0a;
  x91; xac; x0a; x91; xad; x0a; x91; xae;
  x0a; x91; xaf; x0a; x91; xb0; x0a; x91;
  xb1; x0a; x91; xb2; x0a; x91; xb3; x0a;
  x91; xb4; x0a; x91; xb5; x0a; x91; xb6;
  x0a; x91; xb7; x0a; x91; xb8; x0a; x91;
  xb9; x0a; x91; xba; x0a; x91; xbb; x0a;
  x91; xbc; x0a; x91; xbd; x0a; x91; xbe;
  x0a; x91; xbf; x0a; x91; xc0; x0a; x91;
  xc1; x0a; x91; xc2; x0a; x91; xc3; x0a;
  x91; xc4; x0a; x91; xc5; x0a; x91; xc6;
  x0a; x91; xc7; x0a; x91; xc8; x0a; x91;
  xc9; x0a; x91; xca; x0a; x91; xcb; x0a;
  x91; xcc; x0a; x91; xcd; x0a; x91; xce;
  x0a; x91; xcf; x0a; x91; xd0; x0a; x91;
  xd1; x0a; x91; xd2; x0a; x91; xd3; x0a;
  x91; xd4; x0a; x91; xd5; x0a; x91; xd6;
  x0a; x91; xd7; x0a; x91; xd8; x0a; x91;
  xd9; x0a; x91; xda; x0a; x91; xdb; x0a;
  x91; xdc; x0a; x91; xdd; x0a; x91; xde;
  x0a; x91; xdf; x0a; x91; xe0; x0a; x91;
  xe1; x0a; x91; xe2; x0a; x91; xe3; x0a;
  x91; xe4; x0a; x91; xe5; x0a; x91; xe6;
  x0a; x91; xe7; x0a; x91; xe8; x0a; x91;
  xe9; x0a; x91; xea; x0a; x91; xeb; x0a;
  x91; xec; x0a; x91; xed; x0a; x91; xee;
  x0a; x91; xef; x0a; x91; xf0; x0a; x91;
  xf1; x0a; x91; xf2; x0a; x91; xf3; x0a;
  x91; xf4; x0a; x91; xf5; x0a; x91; xf6;
  x0a; x91; xf7; x0a; x91; xf8; x0a; x91
].
(* tests/test_data/whatwg/shiftjis_whatwg_test_decode_in.txt, entries 7424..7679 *)
Definition shiftjis_decode_in_29 : list byte := [
  xf9; x0a; x91; xfa; x0a; x91; xfb; x0a;
  x91; xfc; x0a; x92; x40; x0a; x92; x41;
  x0a; x92; x42; x0a; x92; x43; x0a; x92;
  x44; x0a; x92; x45; x0a; x92; x46; x0a;
  x92; x47; x0a; x92; x48; x0a; x92; x49;
  x0a; x92; x4a; x0a; x92; x4b; x0a; x92;
  x4c; x0a; x92; x4d; x0a; x92; x4e; x0a;
  x92; x4f; x0a; x92; x50; x0a; x92; x51;
  x0a; x92; x52; x0a; x92; x53; x0a; x92;
  x54; x0a; x92; x55; x0a; x92; x56; x0a;
  x92; x57; x0a; x92; x58; x0a; x92; x59;
  x0a; x92; x5a; x0a; x92; x5b; x0a; x92;
  x5c; x0a; x92; x5d; x0a; x92; x5e; x0a;
  x92; x5f; x0a; x92; x60; x0a; x92; x61;
  x0a; x92; x62; x0a; x92; x63; x0a; x92;
  x64; x0a; x92; x65; x0a; x92; x66; x0a;
  x92; x67; x0a; x92; x68; x0a; x92; x69;
  x0a; x92; x6a; x0a; x92; x6b; x0a; x92;
  x6c; x0a; x92; x6d; x0a; x92; x6e; x0a;
  x92; x6f; x0a; x92; x70; x0a; x92; x71;
  x0a; x92; x72; x0a; x92; x73; x0a; x92;
  x74; x0a; x92; x75; x0a; x92; x76; x0a;
  x92; x77; x0a; x92; x78; x0a; x92; x79;
  x0a; x92; x7a; x0a; x92; x7b; x0a; x92;
  x7c; x0a; x92; x7d; x0a; x92; x7e; x0a;
  x92; x80; x0a; x92; x81; x0a; x92; x82;
  x0a; x92; x83; x0a; x92; x84; x0a; x92;
  x85; x0a; x92; x86; x0a; x92; x87; x0a;
  x92; x88; x0a; x92; x89; x0a; x92; x8a;
  x0a; x92; x8b; x0a; x92; x8c; x0a; x92;
  x8d; x0a; x92; x8e; x0a; x92; x8f; x0a;
  x92; x90; x0a; x92; x91; x0a; x92; x92
].
(* tests/test_data/whatwg/shiftjis_whatwg_test_decode_in.txt, entries 7680..7935 *)
Definition shiftjis_decode_in_30 : list byte := [
  x0a; x92; x93; x0a; x92; x94; x0a; x92;
  x95; x0a; x92; x96; x0a; x92; x97; x0a;
  x92; x98; x0a; x92; x99; x0a; x92; x9a;
  x0a; x92; x9b; x0a; x92; x9c; x0a; x92;
  x9d; x0a; x92; x9e; x0a; x92; x9f; x0a;
  x92; xa0; x0a; x92; xa1; x0a; x92; xa2;
  x0a; x92; xa3; x0a; x92; xa4; x0a; x92;
  xa5; x0a; x92; xa6; x0a; x92; xa7; x0a;
  x92; xa8; x0a; x92; xa9; x0a; x92; xaa;
  x0a; x92; xab; x0a; x92; xac; x0a; x92;
  xad; x0a; x92; xae; x0a; x92; xaf; x0a;
  x92; xb0; x0a; x92; xb1; x0a; x92; xb2;
  x0a; x92; xb3; x0a; x92; xb4; x0a; x92;
  xb5; x0a; x92; xb6; x0a; x92; xb7; x0a;
  x92; xb8; x0a; x92; xb9; x0a; x92; xba;
  x0a; x92; xbb; x0a; x92; xbc; x0a; x92;
  xbd; x0a; x92; xbe; x0a; x92; xbf; x0a;
  x92; xc0; x0a; x92; xc1; x0a; x92; xc2;
  x0a; x92; xc3; x0a; x92; xc4; x0a; x92;
  xc5; x0a; x92; xc6; x0a; x92; xc7; x0a;
  x92; xc8; x0a; x92; xc9; x0a; x92; xca;
  x0a; x92; xcb; x0a; x92; xcc; x0a; x92;
  xcd; x0a; x92; xce; x0a; x92; xcf; x0a;
  x92; xd0; x0a; x92; xd1; x0a; x92; xd2;
  x0a; x92; xd3; x0a; x92; xd4; x0a; x92;
  xd5; x0a; x92; xd6; x0a; x92; xd7; x0a;
  x92; xd8; x0a; x92; xd9; x0a; x92; xda;
  x0a; x92; xdb; x0a; x92; xdc; x0a; x92;
  xdd; x0a; x92; xde; x0a; x92; xdf; x0a;
  x92; xe0; x0a; x92; xe1; x0a; x92; xe2;
  x0a; x92; xe3; x0a; x92; xe4; x0a; x92;
  xe5; x0a; x92; xe6; x0a; x92; xe7; x0a
].
(* tests/test_data/whatwg/shiftjis_whatwg_test_decode_in.txt, entries 7936..8191 *)
Definition shiftjis_decode_in_31 : list byte := [
  x92; xe8; x0a; x92; xe9; x0a; x92; xea;
  x0a; x92; xeb; x0a; x92; xec; x0a; x92;
  xed; x0a; x92; xee; x0a; x92; xef; x0a;
  x92; xf0; x0a; x92; xf1; x0a; x92; xf2;
  x0a; x92; xf3; x0a; x92; xf4; x0a; x92;
  xf5; x0a; x92; xf6; x0a; x92; xf7; x0a;
  x92; xf8; x0a; x92; xf9; x0a; x92; xfa;
  x0a; x92; xfb; x0a; x92; xfc; x0a; x93;
  x40; x0a; x93; x41; x0a; x93; x42; x0a;
  x93; x43; x0a; x93; x44; x0a; x93; x45;
  x0a; x93; x46; x0a; x93; x47; x0a; x93;
  x48; x0a; x93; x49; x0a; x93; x4a; x0a;
  x93; x4b; x0a; x93; x4c; x0a; x93; x4d;
  x0a; x93; x4e; x0a; x93; x4f; x0a; x93;
  x50; x0a; x93; x51; x0a; x93; x52; x0a;
  x93; x53; x0a; x93; x54; x0a; x93; x55;
  x0a; x93; x56; x0a; x93; x57; x0a; x93;
  x58; x0a; x93; x59; x0a; x93; x5a; x0a;
  x93; x5b; x0a; x93; x5c; x0a; x93; x5d;
  x0a; x93; x5e; x0a; x93; x5f; x0a; x93;
  x60; x0a; x93; x61; x0a; x93; x62; x0a;
  x93; x63; x0a; x93; x64; x0a; x93; x65;
  x0a; x93; x66; x0a; x93; x67; x0a; x93;
  x68; x0a; x93; x69; x0a; x93; x6a; x0a;
  x93; x6b; x0a; x93; x6c; x0a; x93; x6d;
  x0a; x93; x6e; x0a; x93; x6f; x0a; x93;
  x70; x0a; x93; x71; x0a; x93; x72; x0a;
  x93; x73; x0a; x93; x74; x0a; x93; x75;
  x0a; x93; x76; x0a; x93; x77; x0a; x93;
  x78; x0a; x93; x79; x0a; x93; x7a; x0a;
  x93; x7b; x0a; x93; x7c; x0a; x93; x7d;
  x0a; x93; x7e; x0a; x93; x80; x0a; x93
].
(* tests/test_data/whatwg/shiftjis_whatwg_test_decode_in.txt, entries 8192..8447 *)
Definition shiftjis_decode_in_32 : list byte := [
  x81; x0a; x93; x82; x0a; x93; x83; x0a;
  x93; x84; x0a; x93; x85; x0a; x93; x86;
  x0a; x93; x87; x0a; x93; x88; x0a; x93;
  x89; x0a; x93; x8a; x0a; x93; x8b; x0a;
  x93; x8c; x0a; x93; x8d; x0a; x93; x8e;
  x0a; x93; x8f; x0a; x93; x90; x0a; x93;
  x91; x0a; x93; x92; x0a; x93; x93; x0a;
  x93; x94; x0a; x93; x95; x0a; x93; x96;
  x0a; x93; x97; x0a; x93; x98; x0a; x93;
  x99; x0a; x93; x9a; x0a; x93; x9b; x0a;
  x93; x9c; x0a; x93; x9d; x0a; x93; x9e;
  x0a; x93; x9f; x0a; x93; xa0; x0a; x93;
  xa1; x0a; x93; xa2; x0a; x93; xa3; x0a;
  x93; xa4; x0a; x93; xa5; x0a; x93; xa6;
  x0a; x93; xa7; x0a; x93; xa8; x0a; x93;
  xa9; x0a; x93; xaa; x0a; x93; xab; x0a;
  x93; xac; x0a; x93; xad; x0a; x93; xae;
  x0a; x93; xaf; x0a; x93; xb0; x0a; x93;
  xb1; x0a; x93; xb2; x0a; x93; xb3; x0a;
  x93; xb4; x0a; x93; xb5; x0a; x93; xb6;
  x0a; x93; xb7; x0a; x93; xb8; x0a; x93;
  xb9; x0a; x93; xba; x0a; x93; xbb; x0a;
  x93; xbc; x0a; x93; xbd; x0a; x93; xbe;
  x0a; x93; xbf; x0a; x93; xc0; x0a; x93;
  xc1; x0a; x93; xc2; x0a; x93; xc3; x0a;
  x93; xc4; x0a; x93; xc5; x0a; x93; xc6;
  x0a; x93; xc7; x0a; x93; xc8; x0a; x93;
  xc9; x0a; x93; xca; x0a; x93; xcb; x0a;
  x93; xcc; x0a; x93; xcd; x0a; x93; xce;
  x0a; x93; xcf; x0a; x93; xd0; x0a; x93;
  xd1; x0a; x93; xd2; x0a; x93; xd3; x0a;
  x93; xd4; x0a; x93; xd5; x0a; x93; xd6
].
(* tests/test_data/whatwg/shiftjis_whatwg_test_decode_in.txt, entries 8448..8703 *)
Definition shiftjis_decode_in_33 : list byte := [
  x0a; x93; xd7; x0a; x93; xd8; x0a; x93;
  xd9; x0a; x93; xda; x0a; x93; xdb; x0a;
  x93; xdc; x0a; x93; xdd; x0a; x93; xde;
  x0a; x93; xdf; x0a; x93; xe0; x0a; x93;
  xe1; x0a; x93; xe2; x0a; x93; xe3; x0a;
  x93; xe4; x0a; x93; xe5; x0a; x93; xe6;
  x0a; x93; xe7; x0a; x93; xe8; x0a; x93;
  xe9; x0a; x93; xea; x0a; x93; xeb; x0a;
  x93; xec; x0a; x93; xed; x0a; x93; xee;
  x0a; x93; xef; x0a; x93; xf0; x0a; x93;
  xf1; x0a; x93; xf2; x0a; x93; xf3; x0a;
  x93; xf4; x0a; x93; xf5; x0a; x93; xf6;
  x0a; x93; xf7; x0a; x93; xf8; x0a; x93;
  xf9; x0a; x93; xfa; x0a; x93; xfb; x0a;
  x93; xfc; x0a; x94; x40; x0a; x94; x41;
  x0a; x94; x42; x0a; x94; x43; x0a; x94;
  x44; x0a; x94; x45; x0a; x94; x46; x0a;
  x94; x47; x0a; x94; x48; x0a; x94; x49;
  x0a; x94; x4a; x0a; x94; x4b; x0a; x94;
  x4c; x0a; x94; x4d; x0a; x94; x4e; x0a;
  x94; x4f; x0a; x94; x50; x0a; x94; x51;
  x0a; x94; x52; x0a; x94; x53; x0a; x94;
  x54; x0a; x94; x55; x0a; x94; x56; x0a;
  x94; x57; x0a; x94; x58; x0a; x94; x59;
  x0a; x94; x5a; x0a; x94; x5b; x0a; x94;
  x5c; x0a; x94; x5d; x0a; x94; x5e; x0a;
  x94; x5f; x0a; x94; x60; x0a; x94; x61;
  x0a; x94; x62; x0a; x94; x63; x0a; x94;
  x64; x0a; x94; x65; x0a; x94; x66; x0a;
  x94; x67; x0a; x94; x68; x0a; x94; x69;
  x0a; x94; x6a; x0a; x94; x6b; x0a; x94;
  x6c; x0a; x94; x6d; x0a; x94; x6e; x0a
].
(* tests/test_data/whatwg/shiftjis_whatwg_test_decode_in.txt, entries 8704..8959 *)
Definition shiftjis_decode_in_34 : list byte := [
  x94; x6f; x0a; x94; x70; x0a; x94; x71;
  x0a; x94; x72; x0a; x94; x73; x0a; x94;
  x74; x0a; x94; x75; x0a; x94; x76; x0a;
  x94; x77; x0a; x94; x78; x0a; x94; x79;
  x0a; x94; x7a; x0a; x94; x7b; x0a; x94;
  x7c; x0a; x94; x7d; x0a; x94; x7e; x0a;
  x94; x80; x0a; x94; x81; x0a; x94; x82;
  x0a; x94; x83; x0a; x94; x84; x0a; x94;
  x85; x0a; x94; x86; x0a; x94; x87; x0a;
  x94; x88; x0a; x94; x89; x0a; x94; x8a;
  x0a; x94; x8b; x0a; x94; x8c; x0a; x94;
  x8d; x0a; x94; x8e; x0a; x94; x8f; x0a;
  x94; x90; x0a; x94; x91; x0a; x94; x92;
  x0a; x94; x93; x0a; x94; x94; x0a; x94;
  x95; x0a; x94; x96; x0a; x94; x97; x0a;
  x94; x98; x0a; x94; x99; x0a; x94; x9a;
  x0a; x94; x9b; x0a; x94; x9c; x0a; x94;
  x9d; x0a; x94; x9e; x0a; x94; x9f; x0a;
  x94; xa0; x0a; x94; xa1; x0a; x94; xa2;
  x0a; x94; xa3; x0a; x94; xa4; x0a; x94;
  xa5; x0a; x94; xa6; x0a; x94; xa7; x0a;
  x94; xa8; x0a; x94; xa9; x0a; x94; xaa;
  x0a; x94; xab; x0a; x94; xac; x0a; x94;
  xad; x0a; x94; xae; x0a; x94; xaf; x0a;
  x94; xb0; x0a; x94; xb1; x0a; x94; xb2;
  x0a; x94; xb3; x0a; x94; xb4; x0a; x94;
  xb5; x0a; x94; xb6; x0a; x94; xb7; x0a;
  x94; xb8; x0a; x94; xb9; x0a; x94; xba;
  x0a; x94; xbb; x0a; x94; xbc; x0a; x94;
  xbd; x0a; x94; xbe; x0a; x94; xbf; x0a;
  x94; xc0; x0a; x94; xc1; x0a; x94; xc2;
  x0a; x94; xc3; x0a; x94; xc4; x0a; x94
].
(* tests/test_data/whatwg/shiftjis_whatwg_test_decode_in.txt, entries 8960..9215 *)
Definition shiftjis_decode_in_35 : list byte := [
  xc5; x0a; x94; xc6; x0a; x94; xc7; x0a;
  x94; xc8; x0a; x94; xc9; x0a; x94; xca;
  x0a; x94; xcb; x0a; x94; xcc; x0a; x94;
  xcd; x0a; x94; xce; x0a; x94; xcf; x0a;
  x94; xd0; x0a; x94; xd1; x0a; x94; xd2;
  x0a; x94; xd3; x0a; x94; xd4; x0a; x94;
  xd5; x0a; x94; xd6; x0a; x94; xd7; x0a;
  x94; xd8; x0a; x94; xd9; x0a; x94; xda;
  x0a; x94; xdb; x0a; x94; xdc; x0a; x94;
  xdd; x0a; x94; xde; x0a; x94; xdf; x0a;
  x94; xe0; x0a; x94; xe1; x0a; x94; xe2;
  x0a; x94; xe3; x0a; x94; xe4; x0a; x94;
  xe5; x0a; x94; xe6; x0a; x94; xe7; x0a;
  x94; xe8; x0a; x94; xe9; x0a; x94; xea;
  x0a; x94; xeb; x0a; x94; xec; x0a; x94;
  xed; x0a; x94; xee; x0a; x94; xef; x0a;
  x94; xf0; x0a; x94; xf1; x0a; x94; xf2;
  x0a; x94; xf3; x0a; x94; xf4; x0a; x94;
  xf5; x0a; x94; xf6; x0a; x94; xf7; x0a;
  x94; xf8; x0a; x94; xf9; x0a; x94; xfa;
  x0a; x94; xfb; x0a; x94; xfc; x0a; x95;
  x40; x0a; x95; x41; x0a; x95; x42; x0a;
  x95; x43; x0a; x95; x44; x0a; x95; x45;
  x0a; x95; x46; x0a; x95; x47; x0a; x95;
  x48; x0a; x95; x49; x0a; x95; x4a; x0a;
  x95; x4b; x0a; x95; x4c; x0a; x95; x4d;
  x0a; x95; x4e; x0a; x95; x4f; x0a; x95;
  x50; x0a; x95; x51; x0a; x95; x52; x0a;
  x95; x53; x0a; x95; x54; x0a; x95; x55;
  x0a; x95; x56; x0a; x95; x57; x0a; x95;
  x58; x0a; x95; x59; x0a; x95; x5a; x0a;
  x95; x5b; x0a; x95; x5c; x0a; x95; x5d
].
(* tests/test_data/whatwg/shiftjis_whatwg_test_decode_in.txt, entries 9216..9471 *)
Definition shiftjis_decode_in_36 : list byte := [
  x0a; x95; x5e; x0a; x95; x5f; x0a; x95;
  x60; x0a; x95; x61; x0a; x95; x62; x0a;
  x95; x63; x0a; x95; x64; x0a; x95; x65;
  x0a; x95; x66; x0a; x95; x67; x0a; x95;
  x68; x0a; x95; x69; x0a; x95; x6a; x0a;
  x95; x6b; x0a; x95; x6c; x0a; x95; x6d;
  x0a; x95; x6e; x0a; x95; x6f; x0a; x95;
  x70; x0a; x95; x71; x0a; x95; x72; x0a;
  x95; x73; x0a; x95; x74; x0a; x95; x75;
  x0a; x95; x76; x0a; x95; x77; x0a; x95;
  x78; x0a; x95; x79; x0a; x95; x7a; x0a;
  x95; x7b; x0a; x95; x7c; x0a; x95; x7d;
  x0a; x95; x7e; x0a; x95; x80; x0a; x95;
  x81; x0a; x95; x82; x0a; x95; x83; x0a;
  x95; x84; x0a; x95; x85; x0a; x95; x86;
  x0a; x95; x87; x0a; x95; x88; x0a; x95;
  x89; x0a; x95; x8a; x0a; x95; x8b; x0a;
  x95; x8c; x0a; x95; x8d; x0a; x95; x8e;
  x0a; x95; x8f; x0a; x95; x90; x0a; x95;
  x91; x0a; x95; x92; x0a; x95; x93; x0a;
  x95; x94; x0a; x95; x95; x0a; x95; x96;
  x0a; x95; x97; x0a; x95; x98; x0a; x95;
  x99; x0a; x95; x9a; x0a; x95; x9b; x0a;
  x95; x9c; x0a; x95; x9d; x0a; x95; x9e;
  x0a; x95; x9f; x0a; x95; xa0; x0a; x95;
  xa1; x0a; x95; xa2; x0a; x95; xa3; x0a;
  x95; xa4; x0a; x95; xa5; x0a; x95; xa6;
  x0a; x95; xa7; x0a; x95; xa8; x0a; x95;
  xa9; x0a; x95; xaa; x0a; x95; xab; x0a;
  x95; xac; x0a; x95; xad; x0a; x95; xae;
  x0a; x95; xaf; x0a; x95; xb0; x0a; x95;
  xb1; x0a; x95; xb2; x0a; x95; xb3; x0a
].
(* tests/test_data/whatwg/shiftjis_whatwg_test_decode_in.txt, entries 9472..9727 *)
Definition shiftjis_decode_in_37 : list byte := [
  x95; xb4; x0a; x95; xb5; x0a; x95; xb6;
  x0a; x95; xb7; x0a; x95; xb8; x0a; x95;
  xb9; x0a; x95; xba; x0a; x95; xbb; x0a;
  x95; xbc; x0a; x95; xbd; x0a; x95; xbe;
  x0a; x95; xbf; x0a; x95; xc0; x0a; x95;
  xc1; x0a; x95; xc2; x0a; x95; xc3; x0a;
  x95; xc4; x0a; x95; xc5; x0a; x95; xc6;
  x0a; x95; xc7; x0a; x95; xc8; x0a; x95;
  xc9; x0a; x95; xca; x0a; x95; xcb; x0a;
  x95; xcc; x0a; x95; xcd; x0a; x95; xce;
  x0a; x95; xcf; x0a; x95; xd0; x0a; x95;
  xd1; x0a; x95; xd2; x0a; x95; xd3; x0a;
  x95; xd4; x0a; x95; xd5; x0a; x95; xd6;
  x0a; x95; xd7; x0a; x95; xd8; x0a; x95;
  xd9; x0a; x95; xda; x0a; x95; xdb; x0a;
  x95; xdc; x0a; x95; xdd; x0a; x95; xde;
  x0a; x95; xdf; x0a; x95; xe0; x0a; x95;
  xe1; x0a; x95; xe2; x0a; x95; xe3; x0a;
  x95; xe4; x0a; x95; xe5; x0a; x95; xe6;
  x0a; x95; xe7; x0a; x95; xe8; x0a; x95;
  xe9; x0a; x95; xea; x0a; x95; xeb; x0a;
  x95; xec; x0a; x95; xed; x0a; x95; xee;
  x0a; x95; xef; x0a; x95; xf0; x0a; x95;
  xf1; x0a; x95; xf2; x0a; x95; xf3; x0a;
  x95; xf4; x0a; x95; xf5; x0a; x95; xf6;
  x0a; x95; xf7; x0a; x95; xf8; x0a; x95;
  xf9; x0a; x95; xfa; x0a; x95; xfb; x0a;
  x95; xfc; x0a; x96; x40; x0a; x96; x41;
  x0a; x96; x42; x0a; x96; x43; x0a; x96;
  x44; x0a; x96; x45; x0a; x96; x46; x0a;
  x96; x47; x0a; x96; x48; x0a; x96; x49;
  x0a; x96; x4a; x0a; x96; x4b; x0a; x96
].
(* tests/test_data/whatwg/shiftjis_whatwg_test_decode_in.txt, entries 9728..9983 *)
Definition shiftjis_decode_in_38 : list byte := [
  x4c; x0a; x96; x4d; x0a; x96; x4e; x0a;
  x96; x4f; x0a; x96; x50; x0a; x96; x51;
  x0a; x96; x52; x0a; x96; x53; x0a; x96;
  x54; x0a; x96; x55; x0a; x96; x56; x0a;
  x96; x57; x0a; x96; x58; x0a; x96; x59;
  x0a; x96; x5a; x0a; x96; x5b; x0a; x96;
  x5c; x0a; x96; x5d; x0a; x96; x5e; x0a;
  x96; x5f; x0a; x96; x60; x0a; x96; x61;
  x0a; x96; x62; x0a; x96; x63; x0a; x96;
  x64; x0a; x96; x65; x0a; x96; x66; x0a;
  x96; x67; x0a; x96; x68; x0a; x96; x69;
  x0a; x96; x6a; x0a; x96; x6b; x0a; x96;
  x6c; x0a; x96; x6d; x0a; x96; x6e; x0a;
  x96; x6f; x0a; x96; x70; x0a; x96; x71;
  x0a; x96; x72; x0a; x96; x73; x0a; x96;
  x74; x0a; x96; x75; x0a; x96; x76; x0a;
  x96; x77; x0a; x96; x78; x0a; x96; x79;
  x0a; x96; x7a; x0a; x96; x7b; x0a; x96;
  x7c; x0a; x96; x7d; x0a; x96; x7e; x0a;
  x96; x80; x0a; x96; x81; x0a; x96; x82;
  x0a; x96; x83; x0a; x96; x84; x0a; x96;
  x85; x0a; x96; x86; x0a; x96; x87; x0a;
  x96; x88; x0a; x96; x89; x0a; x96; x8a;
  x0a; x96; x8b; x0a; x96; x8c; x0a; x96;
  x8d; x0a; x96; x8e; x0a; x96; x8f; x0a;
  x96; x90; x0a; x96; x91; x0a; x96; x92;
  x0a; x96; x93; x0a; x96; x94; x0a; x96;
  x95; x0a; x96; x96; x0a; x96; x97; x0a;
  x96; x98; x0a; x96; x99; x0a; x96; x9a;
  x0a; x96; x9b; x0a; x96; x9c; x0a; x96;
  x9d; x0a; x96; x9e; x0a; x96; x9f; x0a;
  x96; xa0; x0a; x96; xa1; x0a; x96; xa2
].
(* tests/test_data/whatwg/shiftjis_whatwg_test_decode_in.txt, entries 9984..10239 *)
Definition shiftjis_decode_in_39 : list byte := [
  x0a; x96; xa3; x0a; x96; xa4; x0a; x96;
  xa5; x0a; x96; xa6; x0a; x96; xa7; x0a;
  x96; xa8; x0a; x96; xa9; x0a; x96; xaa;
  x0a; x96; xab; x0a; x96; xac; x0a; x96;
  xad; x0a; x96; xae; x0a; x96; xaf; x0a;
  x96; xb0; x0a; x96; xb1; x0a; x96; xb2;
  x0a; x96; xb3; x0a; x96; xb4; x0a; x96;
  xb5; x0a; x96; xb6; x0a; x96; xb7; x0a;
  x96; xb8; x0a; x96; xb9; x0a; x96; xba;
  x0a; x96; xbb; x0a; x96; xbc; x0a; x96;
  xbd; x0a; x96; xbe; x0a; x96; xbf; x0a;
  x96; xc0; x0a; x96; xc1; x0a; x96; xc2;
  x0a; x96; xc3; x0a; x96; xc4; x0a; x96;
  xc5; x0a; x96; xc6; x0a; x96; xc7; x0a;
  x96; xc8; x0a; x96; xc9; x0a; x96; xca;
  x0a; x96; xcb; x0a; x96; xcc; x0a; x96;
  xcd; x0a; x96; xce; x0a; x96; xcf; x0a;
  x96; xd0; x0a; x96; xd1; x0a; x96; xd2;
  x0a; x96; xd3; x0a; x96; xd4; x0a; x96;
  xd5; x0a; x96; xd6; x0a; x96; xd7; x0a;
  x96; xd8; x0a; x96; xd9; x0a; x96; xda;
  x0a; x96; xdb; x0a; x96; xdc; x0a; x96;
  xdd; x0a; x96; xde; x0a; x96; xdf; x0a;
  x96; xe0; x0a; x96; xe1; x0a; x96; xe2;
  x0a; x96; xe3; x0a; x96; xe4; x0a; x96;
  xe5; x0a; x96; xe6; x0a; x96; xe7; x0a;
  x96; xe8; x0a; x96; xe9; x0a; x96; xea;
  x0a; x96; xeb; x0a; x96; xec; x0a; x96;
  xed; x0a; x96; xee; x0a; x96; xef; x0a;
  x96; xf0; x0a; x96; xf1; x0a; x96; xf2;
  x0a; x96; xf3; x0a; x96; xf4; x0a; x96;
  xf5; x0a; x96; xf6; x0a; x96; xf7; x0a
].
(* tests/test_data/whatwg/shiftjis_whatwg_test_decode_in.txt, entries 10240..10495 *)
Definition shiftjis_decode_in_40 : list byte := [
  x96; xf8; x0a; x96; xf9; x0a; x96; xfa;
  x0a; x96; xfb; x0a; x96; xfc; x0a; x97;
  x40; x0a; x97; x41; x0a; x97; x42; x0a;
  x97; x43; x0a; x97; x44; x0a; x97; x45;
  x0a; x97; x46; x0a; x97; x47; x0a; x97;
  x48; x0a; x97; x49; x0a; x97; x4a; x0a;
  x97; x4b; x0a; x97; x4c; x0a; x97; x4d;
  x0a; x97; x4e; x0a; x97; x4f; x0a; x97;
  x50; x0a; x97; x51; x0a; x97; x52; x0a;
  x97; x53; x0a; x97; x54; x0a; x97; x55;
  x0a; x97; x56; x0a; x97; x57; x0a; x97;
  x58; x0a; x97; x59; x0a; x97; x5a; x0a;
  x97; x5b; x0a; x97; x5c; x0a; x97; x5d;
  x0a; x97; x5e; x0a; x97; x5f; x0a; x97;
  x60; x0a; x97; x61; x0a; x97; x62; x0a;
  x97; x63; x0a; x97; x64; x0a; x97; x65;
  x0a; x97; x66; x0a; x97; x67; x0a; x97;
  x68; x0a; x97; x69; x0a; x97; x6a; x0a;
  x97; x6b; x0a; x97; x6c; x0a; x97; x6d;
  x0a; x97; x6e; x0a; x97; x6f; x0a; x97;
  x70; x0a; x97; x71; x0a; x97; x72; x0a;
  x97; x73; x0a; x97; x74; x0a; x97; x75;
  x0a; x97; x76; x0a; x97; x77; x0a; x97;
  x78; x0a; x97; x79; x0a; x97; x7a; x0a;
  x97; x7b; x0a; x97; x7c; x0a; x97; x7d;
  x0a; x97; x7e; x0a; x97; x80; x0a; x97;
  x81; x0a; x97; x82; x0a; x97; x83; x0a;
  x97; x84; x0a; x97; x85; x0a; x97; x86;
  x0a; x97; x87; x0a; x97; x88; x0a; x97;
  x89; x0a; x97; x8a; x0a; x97; x8b; x0a;
  x97; x8c; x0a; x97; x8d; x0a; x97; x8e;
  x0a; x97; x8f; x0a; x97; x90; x0a; x97
].
(* tests/test_data/whatwg/shiftjis_whatwg_test_decode_in.txt, entries 10496..10751 *)
Definition shiftjis_decode_in_41 : list byte := [
  x91; x0a; x97; x92; x0a; x97; x93; x0a;
  x97; x94; x0a; x97; x95; x0a; x97; x96;
  x0a; x97; x97; x0a; x97; x98; x0a; x97;
  x99; x0a; x97; x9a; x0a; x97; x9b; x0a;
  x97; x9c; x0a; x97; x9d; x0a; x97; x9e;
  x0a; x97; x9f; x0a; x97; xa0; x0a; x97;
  xa1; x0a; x97; xa2; x0a; x97; xa3; x0a;
  x97; xa4; x0a; x97; xa5; x0a; x97; xa6;
  x0a; x97; xa7; x0a; x97; xa8; x0a; x97;
  xa9; x0a; x97; xaa; x0a; x97; xab; x0a;
  x97; xac; x0a; x97; xad; x0a; x97; xae;
  x0a; x97; xaf; x0a; x97; xb0; x0a; x97;
  xb1; x0a; x97; xb2; x0a; x97; xb3; x0a;
  x97; xb4; x0a; x97; xb5; x0a; x97; xb6;
  x0a; x97; xb7; x0a; x97; xb8; x0a; x97;
  xb9; x0a; x97; xba; x0a; x97; xbb; x0a;
  x97; xbc; x0a; x97; xbd; x0a; x97; xbe;
  x0a; x97; xbf; x0a; x97; xc0; x0a; x97;
  xc1; x0a; x97; xc2; x0a; x97; xc3; x0a;
  x97; xc4; x0a; x97; xc5; x0a; x97; xc6;
  x0a; x97; xc7; x0a; x97; xc8; x0a; x97;
  xc9; x0a; x97; xca; x0a; x97; xcb; x0a;
  x97; xcc; x0a; x97; xcd; x0a; x97; xce;
  x0a; x97; xcf; x0a; x97; xd0; x0a; x97;
  xd1; x0a; x97; xd2; x0a; x97; xd3; x0a;
  x97; xd4; x0a; x97; xd5; x0a; x97; xd6;
  x0a; x97; xd7; x0a; x97; xd8; x0a; x97;
  xd9; x0a; x97; xda; x0a; x97; xdb; x0a;
  x97; xdc; x0a; x97; xdd; x0a; x97; xde;
  x0a; x97; xdf; x0a; x97; xe0; x0a; x97;
  xe1; x0a; x97; xe2; x0a; x97; xe3; x0a;
  x97; xe4; x0a; x97; xe5; x0a; x97; xe6
].
(* tests/test_data/whatwg/shiftjis_whatwg_test_decode_in.txt, entries 10752..11007 *)
Definition shiftjis_decode_in_42 : list byte := [
  x0a; x97; xe7; x0a; x97; xe8; x0a; x97;
  xe9; x0a; x97; xea; x0a; x97; xeb; x0a;
  x97; xec; x0a; x97; xed; x0a; x97; xee;
  x0a; x97; xef; x0a; x97; xf0; x0a; x97;
  xf1; x0a; x97; xf2; x0a; x97; xf3; x0a;
  x97; xf4; x0a; x97; xf5; x0a; x97; xf6;
  x0a; x97; xf7; x0a; x97; xf8; x0a; x97;
  xf9; x0a; x97; xfa; x0a; x97; xfb; x0a;
  x97; xfc; x0a; x98; x40; x0a; x98; x41;
  x0a; x98; x42; x0a; x98; x43; x0a; x98;
  x44; x0a; x98; x45; x0a; x98; x46; x0a;
  x98; x47; x0a; x98; x48; x0a; x98; x49;
  x0a; x98; x4a; x0a; x98; x4b; x0a; x98;
  x4c; x0a; x98; x4d; x0a; x98; x4e; x0a;
  x98; x4f; x0a; x98; x50; x0a; x98; x51;
  x0a; x98; x52; x0a; x98; x53; x0a; x98;
  x54; x0a; x98; x55; x0a; x98; x56; x0a;
  x98; x57; x0a; x98; x58; x0a; x98; x59;
  x0a; x98; x5a; x0a; x98; x5b; x0a; x98;
  x5c; x0a; x98; x5d; x0a; x98; x5e; x0a;
  x98; x5f; x0a; x98; x60; x0a; x98; x61;
  x0a; x98; x62; x0a; x98; x63; x0a; x98;
  x64; x0a; x98; x65; x0a; x98; x66; x0a;
  x98; x67; x0a; x98; x68; x0a; x98; x69;
  x0a; x98; x6a; x0a; x98; x6b; x0a; x98;
  x6c; x0a; x98; x6d; x0a; x98; x6e; x0a;
  x98; x6f; x0a; x98; x70; x0a; x98; x71;
  x0a; x98; x72; x0a; x98; x9f; x0a; x98;
  xa0; x0a; x98; xa1; x0a; x98; xa2; x0a;
  x98; xa3; x0a; x98; xa4; x0a; x98; xa5;
  x0a; x98; xa6; x0a; x98; xa7; x0a; x98;
  xa8; x0a; x98; xa9; x0a; x98; xaa; x0a
].
(* tests/test_data/whatwg/shiftjis_whatwg_test_decode_in.txt, entries 11008..11263 *)
Definition shiftjis_decode_in_43 : list byte := [
  x98; xab; x0a; x98; xac; x0a; x98; xad;
  x0a; x98; xae; x0a; x98; xaf; x0a; x98;
  xb0; x0a; x98; xb1; x0a; x98; xb2; x0a;
  x98; xb3; x0a; x98; xb4; x0a; x98; xb5;
  x0a; x98; xb6; x0a; x98; xb7; x0a; x98;
  xb8; x0a; x98; xb9; x0a; x98; xba; x0a;
  x98; xbb; x0a; x98; xbc; x0a; x98; xbd;
  x0a; x98; xbe; x0a; x98; xbf; x0a; x98;
  xc0; x0a; x98; xc1; x0a; x98; xc2; x0a;
  x98; xc3; x0a; x98; xc4; x0a; x98; xc5;
  x0a; x98; xc6; x0a; x98; xc7; x0a; x98;
  xc8; x0a; x98; xc9; x0a; x98; xca; x0a;
  x98; xcb; x0a; x98; xcc; x0a; x98; xcd;
  x0a; x98; xce; x0a; x98; xcf; x0a; x98;
  xd0; x0a; x98; xd1; x0a; x98; xd2; x0a;
  x98; xd3; x0a; x98; xd4; x0a; x98; xd5;
  x0a; x98; xd6; x0a; x98; xd7; x0a; x98;
  xd8; x0a; x98; xd9; x0a; x98; xda; x0a;
  x98; xdb; x0a; x98; xdc; x0a; x98; xdd;
  x0a; x98; xde; x0a; x98; xdf; x0a; x98;
  xe0; x0a; x98; xe1; x0a; x98; xe2; x0a;
  x98; xe3; x0a; x98; xe4; x0a; x98; xe5;
  x0a; x98; xe6; x0a; x98; xe7; x0a; x98;
  xe8; x0a; x98; xe9; x0a; x98; xea; x0a;
  x98; xeb; x0a; x98; xec; x0a; x98; xed;
  x0a; x98; xee; x0a; x98; xef; x0a; x98;
  xf0; x0a; x98; xf1; x0a; x98; xf2; x0a;
  x98; xf3; x0a; x98; xf4; x0a; x98; xf5;
  x0a; x98; xf6; x0a; x98; xf7; x0a; x98;
  xf8; x0a; x98; xf9; x0a; x98; xfa; x0a;
  x98; xfb; x0a; x98; xfc; x0a; x99; x40;
  x0a; x99; x41; x0a; x99; x42; x0a; x99
].
(* tests/test_data/whatwg/shiftjis_whatwg_test_decode_in.txt, entries 11264..11519 *)
Definition shiftjis_decode_in_44 : list byte := [
  x43; x0a; x99; x44; x0a; x99; x45; x0a;
  x99; x46; x0a; x99; x47; x0a; x99; x48;
  x0a; x99; x49; x0a; x99; x4a; x0a; x99;
  x4b; x0a; x99; x4c; x0a; x99; x4d; x0a;
  x99; x4e; x0a; x99; x4f; x0a; x99; x50;
  x0a; x99; x51; x0a; x99; x52; x0a; x99;
  x53; x0a; x99; x54; x0a; x99; x55; x0a;
  x99; x56; x0a; x99; x57; x0a; x99; x58;
  x0a; x99; x59; x0a; x99; x5a; x0a; x99;
  x5b; x0a; x99; x5c; x0a; x99; x5d; x0a;
  x99; x5e; x0a; x99; x5f; x0a; x99; x60;
  x0a; x99; x61; x0a; x99; x62; x0a; x99;
  x63; x0a; x99; x64; x0a; x99; x65; x0a;
  x99; x66; x0a; x99; x67; x0a; x99; x68;
  x0a; x99; x69; x0a; x99; x6a; x0a; x99;
  x6b; x0a; x99; x6c; x0a; x99; x6d; x0a;
  x99; x6e; x0a; x99; x6f; x0a; x99; x70;
  x0a; x99; x71; x0a; x99; x72; x0a; x99;
  x73; x0a; x99; x74; x0a; x99; x75; x0a;
  x99; x76; x0a; x99; x77; x0a; x99; x78;
  x0a; x99; x79; x0a; x99; x7a; x0a; x99;
  x7b; x0a; x99; x7c; x0a; x99; x7d; x0a;
  x99; x7e; x0a; x99; x80; x0a; x99; x81;
  x0a; x99; x82; x0a; x99; x83; x0a; x99;
  x84; x0a; x99; x85; x0a; x99; x86; x0a;
  x99; x87; x0a; x99; x88; x0a; x99; x89;
  x0a; x99; x8a; x0a; x99; x8b; x0a; x99;
  x8c; x0a; x99; x8d; x0a; x99; x8e; x0a;
  x99; x8f; x0a; x99; x90; x0a; x99; x91;
  x0a; x99; x92; x0a; x99; x93; x0a; x99;
  x94; x0a; x99; x95; x0a; x99; x96; x0a;
  x99; x97; x0a; x99; x98; x0a; x99; x99
].
(* tests/test_data/whatwg/shiftjis_whatwg_test_decode_in.txt, entries 11520..11775 *)
Definition shiftjis_decode_in_45 : list byte := [
  x0a; x99; x9a; x0a; x99; x9b; x0a; x99;
  x9c; x0a; x99; x9d; x0a; x99; x9e; x0a;
  x99; x9f; x0a; x99; xa0; x0a; x99; xa1;
  x0a; x99; xa2; x0a; x99; xa3; x0a; x99;
  xa4; x0a; x99; xa5; x0a; x99; xa6; x0a;
  x99; xa7; x0a; x99; xa8; x0a; x99; xa9;
  x0a; x99; xaa; x0a; x99; xab; x0a; x99;
  xac; x0a; x99; xad; x0a; x99; xae; x0a;
  x99; xaf; x0a; x99; xb0; x0a; x99; xb1;
  x0a; x99; xb2; x0a; x99; xb3; x0a; x99;
  xb4; x0a; x99; xb5; x0a; x99; xb6; x0a;
  x99; xb7; x0a; x99; xb8; x0a; x99; xb9;
  x0a; x99; xba; x0a; x99; xbb; x0a; x99;
  xbc; x0a; x99; xbd; x0a; x99; xbe; x0a;
  x99; xbf; x0a; x99; xc0; x0a; x99; xc1;
  x0a; x99; xc2; x0a; x99; xc3; x0a; x99;
  xc4; x0a; x99; xc5; x0a; x99; xc6; x0a;
  x99; xc7; x0a; x99; xc8; x0a; x99; xc9;
  x0a; x99; xca; x0a; x99; xcb; x0a; x99;
  xcc; x0a; x99; xcd; x0a; x99; xce; x0a;
  x99; xcf; x0a; x99; xd0; x0a; x99; xd1;
  x0a; x99; xd2; x0a; x99; xd3; x0a; x99;
  xd4; x0a; x99; xd5; x0a; x99; xd6; x0a;
  x99; xd7; x0a; x99; xd8; x0a; x99; xd9;
  x0a; x99; xda; x0a; x99; xdb; x0a; x99;
  xdc; x0a; x99; xdd; x0a; x99; xde; x0a;
  x99; xdf; x0a; x99; xe0; x0a; x99; xe1;
  x0a; x99; xe2; x0a; x99; xe3; x0a; x99;
  xe4; x0a; x99; xe5; x0a; x99; xe6; x0a;
  x99; xe7; x0a; x99; xe8; x0a; x99; xe9;
  x0a; x99; xea; x0a; x99; xeb; x0a; x99;
  xec; x0a; x99; xed; x0a; x99; xee; x0a
].
(* tests/test_data/whatwg/shiftjis_whatwg_test_decode_in.txt, entries 11776..12031 *)
Definition shiftjis_decode_in_46 : list byte := [
  x99; xef; x0a; x99; xf0; x0a; x99; xf1;
  x0a; x99; xf2; x0a; x99; xf3; x0a; x99;
  xf4; x0a; x99; xf5; x0a; x99; xf6; x0a;
  x99; xf7; x0a; x99; xf8; x0a; x99; xf9;
  x0a; x99; xfa; x0a; x99; xfb; x0a; x99;
  xfc; x0a; x9a; x40; x0a; x9a; x41; x0a;
  x9a; x42; x0a; x9a; x43; x0a; x9a; x44;
  x0a; x9a; x45; x0a; x9a; x46; x0a; x9a;
  x47; x0a; x9a; x48; x0a; x9a; x49; x0a;
  x9a; x4a; x0a; x9a; x4b; x0a; x9a; x4c;
  x0a; x9a; x4d; x0a; x9a; x4e; x0a; x9a;
  x4f; x0a; x9a; x50; x0a; x9a; x51; x0a;
  x9a; x52; x0a; x9a; x53; x0a; x9a; x54;
  x0a; x9a; x55; x0a; x9a; x56; x0a; x9a;
  x57; x0a; x9a; x58; x0a; x9a; x59; x0a;
  x9a; x5a; x0a; x9a; x5b; x0a; x9a; x5c;
  x0a; x9a; x5d; x0a; x9a; x5e; x0a; x9a;
  x5f; x0a; x9a; x60; x0a; x9a; x61; x0a;
  x9a; x62; x0a; x9a; x63; x0a; x9a; x64;
  x0a; x9a; x65; x0a; x9a; x66; x0a; x9a;
  x67; x0a; x9a; x68; x0a; x9a; x69; x0a;
  x9a; x6a; x0a; x9a; x6b; x0a; x9a; x6c;
  x0a; x9a; x6d; x0a; x9a; x6e; x0a; x9a;
  x6f; x0a; x9a; x70; x0a; x9a; x71; x0a;
  x9a; x72; x0a; x9a; x73; x0a; x9a; x74;
  x0a; x9a; x75; x0a; x9a; x76; x0a; x9a;
  x77; x0a; x9a; x78; x0a; x9a; x79; x0a;
  x9a; x7a; x0a; x9a; x7b; x0a; x9a; x7c;
  x0a; x9a; x7d; x0a; x9a; x7e; x0a; x9a;
  x80; x0a; x9a; x81; x0a; x9a; x82; x0a;
  x9a; x83; x0a; x9a; x84; x0a; x9a; x85;
  x0a; x9a; x86; x0a; x9a; x87; x0a; x9a
].
(* tests/test_data/whatwg/shiftjis_whatwg_test_decode_in.txt, entries 12032..12287 *)
Definition shiftjis_decode_in_47 : list byte := [
  x88; x0a; x9a; x89; x0a; x9a; x8a; x0a;
  x9a; x8b; x0a; x9a; x8c; x0a; x9a; x8d;
  x0a; x9a; x8e; x0a; x9a; x8f; x0a; x9a;
  x90; x0a; x9a; x91; x0a; x9a; x92; x0a;
  x9a; x93; x0a; x9a; x94; x0a; x9a; x95;
  x0a; x9a; x96; x0a; x9a; x97; x0a; x9a;
  x98; x0a; x9a; x99; x0a; x9a; x9a; x0a;
  x9a; x9b; x0a; x9a; x9c; x0a; x9a; x9d;
  x0a; x9a; x9e; x0a; x9a; x9f; x0a; x9a;
  xa0; x0a; x9a; xa1; x0a; x9a; xa2; x0a;
  x9a; xa3; x0a; x9a; xa4; x0a; x9a; xa5;
  x0a; x9a; xa6; x0a; x9a; xa7; x0a; x9a;
  xa8; x0a; x9a; xa9; x0a; x9a; xaa; x0a;
  x9a; xab; x0a; x9a; xac; x0a; x9a; xad;
  x0a; x9a; xae; x0a; x9a; xaf; x0a; x9a;
  xb0; x0a; x9a; xb1; x0a; x9a; xb2; x0a;
  x9a; xb3; x0a; x9a; xb4; x0a; x9a; xb5;
  x0a; x9a; xb6; x0a; x9a; xb7; x0a; x9a;
  xb8; x0a; x9a; xb9; x0a; x9a; xba; x0a;
  x9a; xbb; x0a; x9a; xbc; x0a; x9a; xbd;
  x0a; x9a; xbe; x0a; x9a; xbf; x0a; x9a;
  xc0; x0a; x9a; xc1; x0a; x9a; xc2; x0a;
  x9a; xc3; x0a; x9a; xc4; x0a; x9a; xc5;
  x0a; x9a; xc6; x0a; x9a; xc7; x0a; x9a;
  xc8; x0a; x9a; xc9; x0a; x9a; xca; x0a;
  x9a; xcb; x0a; x9a; xcc; x0a; x9a; xcd;
  x0a; x9a; xce; x0a; x9a; xcf; x0a; x9a;
  xd0; x0a; x9a; xd1; x0a; x9a; xd2; x0a;
  x9a; xd3; x0a; x9a; xd4; x0a; x9a; xd5;
  x0a; x9a; xd6; x0a; x9a; xd7; x0a; x9a;
  xd8; x0a; x9a; xd9; x0a; x9a; xda; x0a;
  x9a; xdb; x0a; x9a; xdc; x0a; x9a; xdd
].
(* tests/test_data/whatwg/shiftjis_whatwg_test_decode_in.txt, entries 12288..12543 *)
Definition shiftjis_decode_in_48 : list byte := [
  x0a; x9a; xde; x0a; x9a; xdf; x0a; x9a;
  xe0; x0a; x9a; xe1; x0a; x9a; xe2; x0a;
  x9a; xe3; x0a; x9a; xe4; x0a; x9a; xe5;
  x0a; x9a; xe6; x0a; x9a; xe7; x0a; x9a;
  xe8; x0a; x9a; xe9; x0a; x9a; xea; x0a;
  x9a; xeb; x0a; x9a; xec; x0a; x9a; xed;
  x0a; x9a; xee; x0a; x9a; xef; x0a; x9a;
  xf0; x0a; x9a; xf1; x0a; x9a; xf2; x0a;
  x9a; xf3; x0a; x9a; xf4; x0a; x9a; xf5;
  x0a; x9a; xf6; x0a; x9a; xf7; x0a; x9a;
  xf8; x0a; x9a; xf9; x0a; x9a; xfa; x0a;
  x9a; xfb; x0a; x9a; xfc; x0a; x9b; x40;
  x0a; x9b; x41; x0a; x9b; x42; x0a; x9b;
  x43; x0a; x9b; x44; x0a; x9b; x45; x0a;
  x9b; x46; x0a; x9b; x47; x0a; x9b; x48;
  x0a; x9b; x49; x0a; x9b; x4a; x0a; x9b;
  x4b; x0a; x9b; x4c; x0a; x9b; x4d; x0a;
  x9b; x4e; x0a; x9b; x4f; x0a; x9b; x50;
  x0a; x9b; x51; x0a; x9b; x52; x0a; x9b;
  x53; x0a; x9b; x54; x0a; x9b; x55; x0a;
  x9b; x56; x0a; x9b; x57; x0a; x9b; x58;
  x0a; x9b; x59; x0a; x9b; x5a; x0a; x9b;
  x5b; x0a; x9b; x5c; x0a; x9b; x5d; x0a;
  x9b; x5e; x0a; x9b; x5f; x0a; x9b; x60;
  x0a; x9b; x61; x0a; x9b; x62; x0a; x9b;
  x63; x0a; x9b; x64; x0a; x9b; x65; x0a;
  x9b; x66; x0a; x9b; x67; x0a; x9b; x68;
  x0a; x9b; x69; x0a; x9b; x6a; x0a; x9b;
  x6b; x0a; x9b; x6c; x0a; x9b; x6d; x0a;
  x9b; x6e; x0a; x9b; x6f; x0a; x9b; x70;
  x0a; x9b; x71; x0a; x9b; x72; x0a; x9b;
  x73; x0a; x9b; x74; x0a; x9b; x75; x0a
].
(* tests/test_data/whatwg/shiftjis_whatwg_test_decode_in.txt, entries 12544..12799 *)
Definition shiftjis_decode_in_49 : list byte := [
  x9b; x76; x0a; x9b; x77; x0a; x9b; x78;
  x0a; x9b; x79; x0a; x9b; x7a; x0a; x9b;
  x7b; x0a; x9b; x7c; x0a; x9b; x7d; x0a;
  x9b; x7e; x0a; x9b; x80; x0a; x9b; x81;
  x0a; x9b; x82; x0a; x9b; x83; x0a; x9b;
  x84; x0a; x9b; x85; x0a; x9b; x86; x0a;
  x9b; x87; x0a; x9b; x88; x0a; x9b; x89;
  x0a; x9b; x8a; x0a; x9b; x8b; x0a; x9b;
  x8c; x0a; x9b; x8d; x0a; x9b; x8e; x0a;
  x9b; x8f; x0a; x9b; x90; x0a; x9b; x91;
  x0a; x9b; x92; x0a; x9b; x93; x0a; x9b;
  x94; x0a; x9b; x95; x0a; x9b; x96; x0a;
  x9b; x97; x0a; x9b; x98; x0a; x9b; x99;
  x0a; x9b; x9a; x0a; x9b; x9b; x0a; x9b;
  x9c; x0a; x9b; x9d; x0a; x9b; x9e; x0a;
  x9b; x9f; x0a; x9b; xa0; x0a; x9b; xa1;
  x0a; x9b; xa2; x0a; x9b; xa3; x0a; x9b;
  xa4; x0a; x9b; xa5; x0a; x9b; xa6; x0a;
  x9b; xa7; x0a; x9b; xa8; x0a; x9b; xa9;
  x0a; x9b; xaa; x0a; x9b; xab; x0a; x9b;
  xac; x0a; x9b; xad; x0a; x9b; xae; x0a;
  x9b; xaf; x0a; x9b; xb0; x0a; x9b; xb1;
  x0a; x9b; xb2; x0a; x9b; xb3; x0a; x9b;
  xb4; x0a; x9b; xb5; x0a; x9b; xb6; x0a;
  x9b; xb7; x0a; x9b; xb8; x0a; x9b; xb9;
  x0a; x9b; xba; x0a; x9b; xbb; x0a; x9b;
  xbc; x0a; x9b; xbd; x0a; x9b; xbe; x0a;
  x9b; xbf; x0a; x9b; xc0; x0a; x9b; xc1;
  x0a; x9b; xc2; x0a; x9b; xc3; x0a; x9b;
  xc4; x0a; x9b; xc5; x0a; x9b; xc6; x0a;
  x9b; xc7; x0a; x9b; xc8; x0a; x9b; xc9;
  x0a; x9b; xca; x0a; x9b; xcb; x0a; x9b
].
(* tests/test_data/whatwg/shiftjis_whatwg_test_decode_in.txt, entries 12800..13055 *)
Definition shiftjis_decode_in_50 : list byte := [
  xcc; x0a; x9b; xcd; x0a; x9b; xce; x0a;
  x9b; xcf; x0a; x9b; xd0; x0a; x9b; xd1;
  x0a; x9b; xd2; x0a; x9b; xd3; x0a; x9b;
  xd4; x0a; x9b; xd5; x0a; x9b; xd6; x0a;
  x9b; xd7; x0a; x9b; xd8; x0a; x9b; xd9;
  x0a; x9b; xda; x0a; x9b; xdb; x0a; x9b;
  xdc; x0a; x9b; xdd; x0a; x9b; xde; x0a;
  x9b; xdf; x0a; x9b; xe0; x0a; x9b; xe1;
  x0a; x9b; xe2; x0a; x9b; xe3; x0a; x9b;
  xe4; x0a; x9b; xe5; x0a; x9b; xe6; x0a;
  x9b; xe7; x0a; x9b; xe8; x0a; x9b; xe9;
  x0a; x9b; xea; x0a; x9b; xeb; x0a; x9b;
  xec; x0a; x9b; xed; x0a; x9b; xee; x0a;
  x9b; xef; x0a; x9b; xf0; x0a; x9b; xf1;
  x0a; x9b; xf2; x0a; x9b; xf3; x0a; x9b;
  xf4; x0a; x9b; xf5; x0a; x9b; xf6; x0a;
  x9b; xf7; x0a; x9b; xf8; x0a; x9b; xf9;
  x0a; x9b; xfa; x0a; x9b; xfb; x0a; x9b;
  xfc; x0a; x9c; x40; x0a; x9c; x41; x0a;
  x9c; x42; x0a; x9c; x43; x0a; x9c; x44;
  x0a; x9c; x45; x0a; x9c; x46; x0a; x9c;
  x47; x0a; x9c; x48; x0a; x9c; x49; x0a;
  x9c; x4a; x0a; x9c; x4b; x0a; x9c; x4c;
  x0a; x9c; x4d; x0a; x9c; x4e; x0a; x9c;
  x4f; x0a; x9c; x50; x0a; x9c; x51; x0a;
  x9c; x52; x0a; x9c; x53; x0a; x9c; x54;
  x0a; x9c; x55; x0a; x9c; x56; x0a; x9c;
  x57; x0a; x9c; x58; x0a; x9c; x59; x0a;
  x9c; x5a; x0a; x9c; x5b; x0a; x9c; x5c;
  x0a; x9c; x5d; x0a; x9c; x5e; x0a; x9c;
  x5f; x0a; x9c; x60; x0a; x9c; x61; x0a;
  x9c; x62; x0a; x9c; x63; x0a; x9c; x64
].
(* tests/test_data/whatwg/shiftjis_whatwg_test_decode_in.txt, entries 13056..13311 *)
Definition shiftjis_decode_in_51 : list byte := [
  x0a; x9c; x65; x0a; x9c; x66; x0a; x9c;
  x67; x0a; x9c; x68; x0a; x9c; x69; x0a;
  x9c; x6a; x0a; x9c; x6b; x0a; x9c; x6c;
  x0a; x9c; x6d; x0a; x9c; x6e; x0a; x9c;
  x6f; x0a; x9c; x70; x0a; x9c; x71; x0a;
  x9c; x72; x0a; x9c; x73; x0a; x9c; x74;
  x0a; x9c; x75; x0a; x9c; x76; x0a; x9c;
  x77; x0a; x9c; x78; x0a; x9c; x79; x0a;
  x9c; x7a; x0a; x9c; x7b; x0a; x9c; x7c;
  x0a; x9c; x7d; x0a; x9c; x7e; x0a; x9c;
  x80; x0a; x9c; x81; x0a; x9c; x82; x0a;
  x9c; x83; x0a; x9c; x84; x0a; x9c; x85;
  x0a; x9c; x86; x0a; x9c; x87; x0a; x9c;
  x88; x0a; x9c; x89; x0a; x9c; x8a; x0a;
  x9c; x8b; x0a; x9c; x8c; x0a; x9c; x8d;
  x0a; x9c; x8e; x0a; x9c; x8f; x0a; x9c;
  x90; x0a; x9c; x91; x0a; x9c; x92; x0a;
  x9c; x93; x0a; x9c; x94; x0a; x9c; x95;
  x0a; x9c; x96; x0a; x9c; x97; x0a; x9c;
  x98; x0a; x9c; x99; x0a; x9c; x9a; x0a;
  x9c; x9b; x0a; x9c; x9c; x0a; x9c; x9d;
  x0a; x9c; x9e; x0a; x9c; x9f; x0a; x9c;
  xa0; x0a; x9c; xa1; x0a; x9c; xa2; x0a;
  x9c; xa3; x0a; x9c; xa4; x0a; x9c; xa5;
  x0a; x9c; xa6; x0a; x9c; xa7; x0a; x9c;
  xa8; x0a; x9c; xa9; x0a; x9c; xaa; x0a;
  x9c; xab; x0a; x9c; xac; x0a; x9c; xad;
  x0a; x9c; xae; x0a; x9c; xaf; x0a; x9c;
  xb0; x0a; x9c; xb1; x0a; x9c; xb2; x0a;
  x9c; xb3; x0a; x9c; xb4; x0a; x9c; xb5;
  x0a; x9c; xb6; x0a; x9c; xb7; x0a; x9c;
  xb8; x0a; x9c; xb9; x0a; x9c; xba; x0a
].
(* tests/test_data/whatwg/shiftjis_whatwg_test_decode_in.txt, entries 13312..13567 *)
Definition shiftjis_decode_in_52 : list byte := [
  x9c; xbb; x0a; x9c; xbc; x0a; x9c; xbd;
  x0a; x9c; xbe; x0a; x9c; xbf; x0a; x9c;
  xc0; x0a; x9c; xc1; x0a; x9c; xc2; x0a;
  x9c; xc3; x0a; x9c; xc4; x0a; x9c; xc5;
  x0a; x9c; xc6; x0a; x9c; xc7; x0a; x9c;
  xc8; x0a; x9c; xc9; x0a; x9c; xca; x0a;
  x9c; xcb; x0a; x9c; xcc; x0a; x9c; xcd;
  x0a; x9c; xce; x0a; x9c; xcf; x0a; x9c;
  xd0; x0a; x9c; xd1; x0a; x9c; xd2; x0a;
  x9c; xd3; x0a; x9c; xd4; x0a; x9c; xd5;
  x0a; x9c; xd6; x0a; x9c; xd7; x0a; x9c;
  xd8; x0a; x9c; xd9; x0a; x9c; xda; x0a;
  x9c; xdb; x0a; x9c; xdc; x0a; x9c; xdd;
  x0a; x9c; xde; x0a; x9c; xdf; x0a; x9c;
  xe0; x0a; x9c; xe1; x0a; x9c; xe2; x0a;
  x9c; xe3; x0a; x9c; xe4; x0a; x9c; xe5;
  x0a; x9c; xe6; x0a; x9c; xe7; x0a; x9c;
  xe8; x0a; x9c; xe9; x0a; x9c; xea; x0a;
  x9c; xeb; x0a; x9c; xec; x0a; x9c; xed;
  x0a; x9c; xee; x0a; x9c; xef; x0a; x9c;
  xf0; x0a; x9c; xf1; x0a; x9c; xf2; x0a;
  x9c; xf3; x0a; x9c; xf4; x0a; x9c; xf5;
  x0a; x9c; xf6; x0a; x9c; xf7; x0a; x9c;
  xf8; x0a; x9c; xf9; x0a; x9c; xfa; x0a;
  x9c; xfb; x0a; x9c; xfc; x0a; x9d; x40;
  x0a; x9d; x41; x0a; x9d; x42; x0a; x9d;
  x43; x0a; x9d; x44; x0a; x9d; x45; x0a;
  x9d; x46; x0a; x9d; x47; x0a; x9d; x48;
  x0a; x9d; x49; x0a; x9d; x4a; x0a; x9d;
  x4b; x0a; x9d; x4c; x0a; x9d; x4d; x0a;
  x9d; x4e; x0a; x9d; x4f; x0a; x9d; x50;
  x0a; x9d; x51; x0a; x9d; x52; x0a; x9d
].
(* tests/test_data/whatwg/shiftjis_whatwg_test_decode_in.txt, entries 13568..13823 *)
Definition shiftjis_decode_in_53 : list byte := [
  x53; x0a; x9d; x54; x0a; x9d; x55; x0a;
  x9d; x56; x0a; x9d; x57; x0a; x9d; x58;
  x0a; x9d; x59; x0a; x9d; x5a; x0a; x9d;
  x5b; x0a; x9d; x5c; x0a; x9d; x5d; x0a;
  x9d; x5e; x0a; x9d; x5f; x0a; x9d; x60;
  x0a; x9d; x61; x0a; x9d; x62; x0a; x9d;
  x63; x0a; x9d; x64; x0a; x9d; x65; x0a;
  x9d; x66; x0a; x9d; x67; x0a; x9d; x68;
  x0a; x9d; x69; x0a; x9d; x6a; x0a; x9d;
  x6b; x0a; x9d; x6c; x0a; x9d; x6d; x0a;
  x9d; x6e; x0a; x9d; x6f; x0a; x9d; x70;
  x0a; x9d; x71; x0a; x9d; x72; x0a; x9d;
  x73; x0a; x9d; x74; x0a; x9d; x75; x0a;
  x9d; x76; x0a; x9d; x77; x0a; x9d; x78;
  x0a; x9d; x79; x0a; x9d; x7a; x0a; x9d;
  x7b; x0a; x9d; x7c; x0a; x9d; x7d; x0a;
  x9d; x7e; x0a; x9d; x80; x0a; x9d; x81;
  x0a; x9d; x82; x0a; x9d; x83; x0a; x9d;
  x84; x0a; x9d; x85; x0a; x9d; x86; x0a;
  x9d; x87; x0a; x9d; x88; x0a; x9d; x89;
  x0a; x9d; x8a; x0a; x9d; x8b; x0a; x9d;
  x8c; x0a; x9d; x8d; x0a; x9d; x8e; x0a;
  x9d; x8f; x0a; x9d; x90; x0a; x9d; x91;
  x0a; x9d; x92; x0a; x9d; x93; x0a; x9d;
  x94; x0a; x9d; x95; x0a; x9d; x96; x0a;
  x9d; x97; x0a; x9d; x98; x0a; x9d; x99;
  x0a; x9d; x9a; x0a; x9d; x9b; x0a; x9d;
  x9c; x0a; x9d; x9d; x0a; x9d; x9e; x0a;
  x9d; x9f; x0a; x9d; xa0; x0a; x9d; xa1;
  x0a; x9d; xa2; x0a; x9d; xa3; x0a; x9d;
  xa4; x0a; x9d; xa5; x0a; x9d; xa6; x0a;
  x9d; xa7; x0a; x9d; xa8; x0a; x9d; xa9
].
(* tests/test_data/whatwg/shiftjis_whatwg_test_decode_in.txt, entries 13824..14079 *)
Definition shiftjis_decode_in_54 : list byte := [
  x0a; x9d; xaa; x0a; x9d; xab; x0a; x9d;
  xac; x0a; x9d; xad; x0a; x9d; xae; x0a;
  x9d; xaf; x0a; x9d; xb0; x0a; x9d; xb1;
  x0a; x9d; xb2; x0a; x9d; xb3; x0a; x9d;
  xb4; x0a; x9d; xb5; x0a; x9d; xb6; x0a;
  x9d; xb7; x0a; x9d; xb8; x0a; x9d; xb9;
  x0a; x9d; xba; x0a; x9d; xbb; x0a; x9d;
  xbc; x0a; x9d; xbd; x0a; x9d; xbe; x0a;
  x9d; xbf; x0a; x9d; xc0; x0a; x9d; xc1;
  x0a; x9d; xc2; x0a; x9d; xc3; x0a; x9d;
  xc4; x0a; x9d; xc5; x0a; x9d; xc6; x0a;
  x9d; xc7; x0a; x9d; xc8; x0a; x9d; xc9;
  x0a; x9d; xca; x0a; x9d; xcb; x0a; x9d;
  xcc; x0a; x9d; xcd; x0a; x9d; xce; x0a;
  x9d; xcf; x0a; x9d; xd0; x0a; x9d; xd1;
  x0a; x9d; xd2; x0a; x9d; xd3; x0a; x9d;
  xd4; x0a; x9d; xd5; x0a; x9d; xd6; x0a;
  x9d; xd7; x0a; x9d; xd8; x0a; x9d; xd9;
  x0a; x9d; xda; x0a; x9d; xdb; x0a; x9d;
  xdc; x0a; x9d; xdd; x0a; x9d; xde; x0a;
  x9d; xdf; x0a; x9d; xe0; x0a; x9d; xe1;
  x0a; x9d; xe2; x0a; x9d; xe3; x0a; x9d;
  xe4; x0a; x9d; xe5; x0a; x9d; xe6; x0a;
  x9d; xe7; x0a; x9d; xe8; x0a; x9d; xe9;
  x0a; x9d; xea; x0a; x9d; xeb; x0a; x9d;
  xec; x0a; x9d; xed; x0a; x9d; xee; x0a;
  x9d; xef; x0a; x9d; xf0; x0a; x9d; xf1;
  x0a; x9d; xf2; x0a; x9d; xf3; x0a; x9d;
  xf4; x0a; x9d; xf5; x0a; x9d; xf6; x0a;
  x9d; xf7; x0a; x9d; xf8; x0a; x9d; xf9;
  x0a; x9d; xfa; x0a; x9d; xfb; x0a; x9d;
  xfc; x0a; x9e; x40; x0a; x9e; x41; x0a
].
(* tests/test_data/whatwg/shiftjis_whatwg_test_decode_in.txt, entries 14080..14335 *)
Definition shiftjis_decode_in_55 : list byte := [
  x9e; x42; x0a; x9e; x43; x0a; x9e; x44;
  x0a; x9e; x45; x0a; x9e; x46; x0a; x9e;
  x47; x0a; x9e; x48; x0a; x9e; x49; x0a;
  x9e; x4a; x0a; x9e; x4b; x0a; x9e; x4c;
  x0a; x9e; x4d; x0a; x9e; x4e; x0a; x9e;
  x4f; x0a; x9e; x50; x0a; x9e; x51; x0a;
  x9e; x52; x0a; x9e; x53; x0a; x9e; x54;
  x0a; x9e; x55; x0a; x9e; x56; x0a; x9e;
  x57; x0a; x9e; x58; x0a; x9e; x59; x0a;
  x9e; x5a; x0a; x9e; x5b; x0a; x9e; x5c;
  x0a; x9e; x5d; x0a; x9e; x5e; x0a; x9e;
  x5f; x0a; x9e; x60; x0a; x9e; x61; x0a;
  x9e; x62; x0a; x9e; x63; x0a; x9e; x64;
  x0a; x9e; x65; x0a; x9e; x66; x0a; x9e;
  x67; x0a; x9e; x68; x0a; x9e; x69; x0a;
  x9e; x6a; x0a; x9e; x6b; x0a; x9e; x6c;
  x0a; x9e; x6d; x0a; x9e; x6e; x0a; x9e;
  x6f; x0a; x9e; x70; x0a; x9e; x71; x0a;
  x9e; x72; x0a; x9e; x73; x0a; x9e; x74;
  x0a; x9e; x75; x0a; x9e; x76; x0a; x9e;
  x77; x0a; x9e; x78; x0a; x9e; x79; x0a;
  x9e; x7a; x0a; x9e; x7b; x0a; x9e; x7c;
  x0a; x9e; x7d; x0a; x9e; x7e; x0a; x9e;
  x80; x0a; x9e; x81; x0a; x9e; x82; x0a;
  x9e; x83; x0a; x9e; x84; x0a; x9e; x85;
  x0a; x9e; x86; x0a; x9e; x87; x0a; x9e;
  x88; x0a; x9e; x89; x0a; x9e; x8a; x0a;
  x9e; x8b; x0a; x9e; x8c; x0a; x9e; x8d;
  x0a; x9e; x8e; x0a; x9e; x8f; x0a; x9e;
  x90; x0a; x9e; x91; x0a; x9e; x92; x0a;
  x9e; x93; x0a; x9e; x94; x0a; x9e; x95;
  x0a; x9e; x96; x0a; x9e; x97; x0a; x9e
].
(* tests/test_data/whatwg/shiftjis_whatwg_test_decode_in.txt, entries 14336..14591 *)
Definition shiftjis_decode_in_56 : list byte := [
  x98; x0a; x9e; x99; x0a; x9e; x9a; x0a;
  x9e; x9b; x0a; x9e; x9c; x0a; x9e; x9d;
  x0a; x9e; x9e; x0a; x9e; x9f; x0a; x9e;
  xa0; x0a; x9e; xa1; x0a; x9e; xa2; x0a;
  x9e; xa3; x0a; x9e; xa4; x0a; x9e; xa5;
  x0a; x9e; xa6; x0a; x9e; xa7; x0a; x9e;
  xa8; x0a; x9e; xa9; x0a; x9e; xaa; x0a;
  x9e; xab; x0a; x9e; xac; x0a; x9e; xad;
  x0a; x9e; xae; x0a; x9e; xaf; x0a; x9e;
  xb0; x0a; x9e; xb1; x0a; x9e; xb2; x0a;
  x9e; xb3; x0a; x9e; xb4; x0a; x9e; xb5;
  x0a; x9e; xb6; x0a; x9e; xb7; x0a; x9e;
  xb8; x0a; x9e; xb9; x0a; x9e; xba; x0a;
  x9e; xbb; x0a; x9e; xbc; x0a; x9e; xbd;
  x0a; x9e; xbe; x0a; x9e; xbf; x0a; x9e;
  xc0; x0a; x9e; xc1; x0a; x9e; xc2; x0a;
  x9e; xc3; x0a; x9e; xc4; x0a; x9e; xc5;
  x0a; x9e; xc6; x0a; x9e; xc7; x0a; x9e;
  xc8; x0a; x9e; xc9; x0a; x9e; xca; x0a;
  x9e; xcb; x0a; x9e; xcc; x0a; x9e; xcd;
  x0a; x9e; xce; x0a; x9e; xcf; x0a; x9e;
  xd0; x0a; x9e; xd1; x0a; x9e; xd2; x0a;
  x9e; xd3; x0a; x9e; xd4; x0a; x9e; xd5;
  x0a; x9e; xd6; x0a; x9e; xd7; x0a; x9e;
  xd8; x0a; x9e; xd9; x0a; x9e; xda; x0a;
  x9e; xdb; x0a; x9e; xdc; x0a; x9e; xdd;
  x0a; x9e; xde; x0a; x9e; xdf; x0a; x9e;
  xe0; x0a; x9e; xe1; x0a; x9e; xe2; x0a;
  x9e; xe3; x0a; x9e; xe4; x0a; x9e; xe5;
  x0a; x9e; xe6; x0a; x9e; xe7; x0a; x9e;
  xe8; x0a; x9e; xe9; x0a; x9e; xea; x0a;
  x9e; xeb; x0a; x9e; xec; x0a; x9e; xed
].
(* tests/test_data/whatwg/shiftjis_whatwg_test_decode_in.txt, entries 14592..14847 *)
Definition shiftjis_decode_in_57 : list byte := [
  x0a; x9e; xee; x0a; x9e; xef; x0a; x9e;
  xf0; x0a; x9e; xf1; x0a; x9e; xf2; x0a;
  x9e; xf3; x0a; x9e; xf4; x0a; x9e; xf5;
  x0a; x9e; xf6; x0a; x9e; xf7; x0a; x9e;
  xf8; x0a; x9e; xf9; x0a; x9e; xfa; x0a;
  x9e; xfb; x0a; x9e; xfc; x0a; x9f; x40;
  x0a; x9f; x41; x0a; x9f; x42; x0a; x9f;
  x43; x0a; x9f; x44; x0a; x9f; x45; x0a;
  x9f; x46; x0a; x9f; x47; x0a; x9f; x48;
  x0a; x9f; x49; x0a; x9f; x4a; x0a; x9f;
  x4b; x0a; x9f; x4c; x0a; x9f; x4d; x0a;
  x9f; x4e; x0a; x9f; x4f; x0a; x9f; x50;
  x0a; x9f; x51; x0a; x9f; x52; x0a; x9f;
  x53; x0a; x9f; x54; x0a; x9f; x55; x0a;
  x9f; x56; x0a; x9f; x57; x0a; x9f; x58;
  x0a; x9f; x59; x0a; x9f; x5a; x0a; x9f;
  x5b; x0a; x9f; x5c; x0a; x9f; x5d; x0a;
  x9f; x5e; x0a; x9f; x5f; x0a; x9f; x60;
  x0a; x9f; x61; x0a; x9f; x62; x0a; x9f;
  x63; x0a; x9f; x64; x0a; x9f; x65; x0a;
  x9f; x66; x0a; x9f; x67; x0a; x9f; x68;
  x0a; x9f; x69; x0a; x9f; x6a; x0a; x9f;
  x6b; x0a; x9f; x6c; x0a; x9f; x6d; x0a;
  x9f; x6e; x0a; x9f; x6f; x0a; x9f; x70;
  x0a; x9f; x71; x0a; x9f; x72; x0a; x9f;
  x73; x0a; x9f; x74; x0a; x9f; x75; x0a;
  x9f; x76; x0a; x9f; x77; x0a; x9f; x78;
  x0a; x9f; x79; x0a; x9f; x7a; x0a; x9f;
  x7b; x0a; x9f; x7c; x0a; x9f; x7d; x0a;
  x9f; x7e; x0a; x9f; x80; x0a; x9f; x81;
  x0a; x9f; x82; x0a; x9f; x83; x0a; x9f;
  x84; x0a; x9f; x85; x0a; x9f; x86; x0a
].
(* tests/test_data/whatwg/shiftjis_whatwg_test_decode_in.txt, entries 14848..15103 *)
Definition shiftjis_decode_in_58 : list byte := [
  x9f; x87; x0a; x9f; x88; x0a; x9f; x89;
  x0a; x9f; x8a; x0a; x9f; x8b; x0a; x9f;
  x8c; x0a; x9f; x8d; x0a; x9f; x8e; x0a;
  x9f; x8f; x0a; x9f; x90; x0a; x9f; x91;
  x0a; x9f; x92; x0a; x9f; x93; x0a; x9f;
  x94; x0a; x9f; x95; x0a; x9f; x96; x0a;
  x9f; x97; x0a; x9f; x98; x0a; x9f; x99;
  x0a; x9f; x9a; x0a; x9f; x9b; x0a; x9f;
  x9c; x0a; x9f; x9d; x0a; x9f; x9e; x0a;
  x9f; x9f; x0a; x9f; xa0; x0a; x9f; xa1;
  x0a; x9f; xa2; x0a; x9f; xa3; x0a; x9f;
  xa4; x0a; x9f; xa5; x0a; x9f; xa6; x0a;
  x9f; xa7; x0a; x9f; xa8; x0a; x9f; xa9;
  x0a; x9f; xaa; x0a; x9f; xab; x0a; x9f;
  xac; x0a; x9f; xad; x0a; x9f; xae; x0a;
  x9f; xaf; x0a; x9f; xb0; x0a; x9f; xb1;
  x0a; x9f; xb2; x0a; x9f; xb3; x0a; x9f;
  xb4; x0a; x9f; xb5; x0a; x9f; xb6; x0a;
  x9f; xb7; x0a; x9f; xb8; x0a; x9f; xb9;
  x0a; x9f; xba; x0a; x9f; xbb; x0a; x9f;
  xbc; x0a; x9f; xbd; x0a; x9f; xbe; x0a;
  x9f; xbf; x0a; x9f; xc0; x0a; x9f; xc1;
  x0a; x9f; xc2; x0a; x9f; xc3; x0a; x9f;
  xc4; x0a; x9f; xc5; x0a; x9f; xc6; x0a;
  x9f; xc7; x0a; x9f; xc8; x0a; x9f; xc9;
  x0a; x9f; xca; x0a; x9f; xcb; x0a; x9f;
  xcc; x0a; x9f; xcd; x0a; x9f; xce; x0a;
  x9f; xcf; x0a; x9f; xd0; x0a; x9f; xd1;
  x0a; x9f; xd2; x0a; x9f; xd3; x0a; x9f;
  xd4; x0a; x9f; xd5; x0a; x9f; xd6; x0a;
  x9f; xd7; x0a; x9f; xd8; x0a; x9f; xd9;
  x0a; x9f; xda; x0a; x9f; xdb; x0a; x9f
].
(* tests/test_data/whatwg/shiftjis_whatwg_test_decode_in.txt, entries 15104..15359 *)
Definition shiftjis_decode_in_59 : list byte := [
  xdc; x0a; x9f; xdd; x0a; x9f; xde; x0a;
  x9f; xdf; x0a; x9f; xe0; x0a; x9f; xe1;
  x0a; x9f; xe2; x0a; x9f; xe3; x0a; x9f;
  xe4; x0a; x9f; xe5; x0a; x9f; xe6; x0a;
  x9f; xe7; x0a; x9f; xe8; x0a; x9f; xe9;
  x0a; x9f; xea; x0a; x9f; xeb; x0a; x9f;
  xec; x0a; x9f; xed; x0a; x9f; xee; x0a;
  x9f; xef; x0a; x9f; xf0; x0a; x9f; xf1;
  x0a; x9f; xf2; x0a; x9f; xf3; x0a; x9f;
  xf4; x0a; x9f; xf5; x0a; x9f; xf6; x0a;
  x9f; xf7; x0a; x9f; xf8; x0a; x9f; xf9;
  x0a; x9f; xfa; x0a; x9f; xfb; x0a; x9f;
  xfc; x0a; xe0; x40; x0a; xe0; x41; x0a;
  xe0; x42; x0a; xe0; x43; x0a; xe0; x44;
  x0a; xe0; x45; x0a; xe0; x46; x0a; xe0;
  x47; x0a; xe0; x48; x0a; xe0; x49; x0a;
  xe0; x4a; x0a; xe0; x4b; x0a; xe0; x4c;
  x0a; xe0; x4d; x0a; xe0; x4e; x0a; xe0;
  x4f; x0a; xe0; x50; x0a; xe0; x51; x0a;
  xe0; x52; x0a; xe0; x53; x0a; xe0; x54;
  x0a; xe0; x55; x0a; xe0; x56; x0a; xe0;
  x57; x0a; xe0; x58; x0a; xe0; x59; x0a;
  xe0; x5a; x0a; xe0; x5b; x0a; xe0; x5c;
  x0a; xe0; x5d; x0a; xe0; x5e; x0a; xe0;
  x5f; x0a; xe0; x60; x0a; xe0; x61; x0a;
  xe0; x62; x0a; xe0; x63; x0a; xe0; x64;
  x0a; xe0; x65; x0a; xe0; x66; x0a; xe0;
  x67; x0a; xe0; x68; x0a; xe0; x69; x0a;
  xe0; x6a; x0a; xe0; x6b; x0a; xe0; x6c;
  x0a; xe0; x6d; x0a; xe0; x6e; x0a; xe0;
  x6f; x0a; xe0; x70; x0a; xe0; x71; x0a;
  xe0; x72; x0a; xe0; x73; x0a; xe0; x74
].
(* tests/test_data/whatwg/shiftjis_whatwg_test_decode_in.txt, entries 15360..15615 *)
Definition shiftjis_decode_in_60 : list byte := [
  x0a; xe0; x75; x0a; xe0; x76; x0a; xe0;
  x77; x0a; xe0; x78; x0a; xe0; x79; x0a;
  xe0; x7a; x0a; xe0; x7b; x0a; xe0; x7c;
  x0a; xe0; x7d; x0a; xe0; x7e; x0a; xe0;
  x80; x0a; xe0; x81; x0a; xe0; x82; x0a;
  xe0; x83; x0a; xe0; x84; x0a; xe0; x85;
  x0a; xe0; x86; x0a; xe0; x87; x0a; xe0;
  x88; x0a; xe0; x89; x0a; xe0; x8a; x0a;
  xe0; x8b; x0a; xe0; x8c; x0a; xe0; x8d;
  x0a; xe0; x8e; x0a; xe0; x8f; x0a; xe0;
  x90; x0a; xe0; x91; x0a; xe0; x92; x0a;
  xe0; x93; x0a; xe0; x94; x0a; xe0; x95;
  x0a; xe0; x96; x0a; xe0; x97; x0a; xe0;
  x98; x0a; xe0; x99; x0a; xe0; x9a; x0a;
  xe0; x9b; x0a; xe0; x9c; x0a; xe0; x9d;
  x0a; xe0; x9e; x0a; xe0; x9f; x0a; xe0;
  xa0; x0a; xe0; xa1; x0a; xe0; xa2; x0a;
  xe0; xa3; x0a; xe0; xa4; x0a; xe0; xa5;
  x0a; xe0; xa6; x0a; xe0; xa7; x0a; xe0;
  xa8; x0a; xe0; xa9; x0a; xe0; xaa; x0a;
  xe0; xab; x0a; xe0; xac; x0a; xe0; xad;
  x0a; xe0; xae; x0a; xe0; xaf; x0a; xe0;
  xb0; x0a; xe0; xb1; x0a; xe0; xb2; x0a;
  xe0; xb3; x0a; xe0; xb4; x0a; xe0; xb5;
  x0a; xe0; xb6; x0a; xe0; xb7; x0a; xe0;
  xb8; x0a; xe0; xb9; x0a; xe0; xba; x0a;
  xe0; xbb; x0a; xe0; xbc; x0a; xe0; xbd;
  x0a; xe0; xbe; x0a; xe0; xbf; x0a; xe0;
  xc0; x0a; xe0; xc1; x0a; xe0; xc2; x0a;
  xe0; xc3; x0a; xe0; xc4; x0a; xe0; xc5;
  x0a; xe0; xc6; x0a; xe0; xc7; x0a; xe0;
  xc8; x0a; xe0; xc9; x0a; xe0; xca; x0a
].
(* tests/test_data/whatwg/shiftjis_whatwg_test_decode_in.txt, entries 15616..15871 *)
Definition shiftjis_decode_in_61 : list byte := [
  xe0; xcb; x0a; xe0; xcc; x0a; xe0; xcd;
  x0a; xe0; xce; x0a; xe0; xcf; x0a; xe0;
  xd0; x0a; xe0; xd1; x0a; xe0; xd2; x0a;
  xe0; xd3; x0a; xe0; xd4; x0a; xe0; xd5;
  x0a; xe0; xd6; x0a; xe0; xd7; x0a; xe0;
  xd8; x0a; xe0; xd9; x0a; xe0; xda; x0a;
  xe0; xdb; x0a; xe0; xdc; x0a; xe0; xdd;
  x0a; xe0; xde; x0a; xe0; xdf; x0a; xe0;
  xe0; x0a; xe0; xe1; x0a; xe0; xe2; x0a;
  xe0; xe3; x0a; xe0; xe4; x0a; xe0; xe5;
  x0a; xe0; xe6; x0a; xe0; xe7; x0a; xe0;
  xe8; x0a; xe0; xe9; x0a; xe0; xea; x0a;
  xe0; xeb; x0a; xe0; xec; x0a; xe0; xed;
  x0a; xe0; xee; x0a; xe0; xef; x0a; xe0;
  xf0; x0a; xe0; xf1; x0a; xe0; xf2; x0a;
  xe0; xf3; x0a; xe0; xf4; x0a; xe0; xf5;
  x0a; xe0; xf6; x0a; xe0; xf7; x0a; xe0;
  xf8; x0a; xe0; xf9; x0a; xe0; xfa; x0a;
  xe0; xfb; x0a; xe0; xfc; x0a; xe1; x40;
  x0a; xe1; x41; x0a; xe1; x42; x0a; xe1;
  x43; x0a; xe1; x44; x0a; xe1; x45; x0a;
  xe1; x46; x0a; xe1; x47; x0a; xe1; x48;
  x0a; xe1; x49; x0a; xe1; x4a; x0a; xe1;
  x4b; x0a; xe1; x4c; x0a; xe1; x4d; x0a;
  xe1; x4e; x0a; xe1; x4f; x0a; xe1; x50;
  x0a; xe1; x51; x0a; xe1; x52; x0a; xe1;
  x53; x0a; xe1; x54; x0a; xe1; x55; x0a;
  xe1; x56; x0a; xe1; x57; x0a; xe1; x58;
  x0a; xe1; x59; x0a; xe1; x5a; x0a; xe1;
  x5b; x0a; xe1; x5c; x0a; xe1; x5d; x0a;
  xe1; x5e; x0a; xe1; x5f; x0a; xe1; x60;
  x0a; xe1; x61; x0a; xe1; x62; x0a; xe1
].
(* tests/test_data/whatwg/shiftjis_whatwg_test_decode_in.txt, entries 15872..16127 *)
Definition shiftjis_decode_in_62 : list byte := [
  x63; x0a; xe1; x64; x0a; xe1; x65; x0a;
  xe1; x66; x0a; xe1; x67; x0a; xe1; x68;
  x0a; xe1; x69; x0a; xe1; x6a; x0a; xe1;
  x6b; x0a; xe1; x6c; x0a; xe1; x6d; x0a;
  xe1; x6e; x0a; xe1; x6f; x0a; xe1; x70;
  x0a; xe1; x71; x0a; xe1; x72; x0a; xe1;
  x73; x0a; xe1; x74; x0a; xe1; x75; x0a;
  xe1; x76; x0a; xe1; x77; x0a; xe1; x78;
  x0a; xe1; x79; x0a; xe1; x7a; x0a; xe1;
  x7b; x0a; xe1; x7c; x0a; xe1; x7d; x0a;
  xe1; x7e; x0a; xe1; x80; x0a; xe1; x81;
  x0a; xe1; x82; x0a; xe1; x83; x0a; xe1;
  x84; x0a; xe1; x85; x0a; xe1; x86; x0a;
  xe1; x87; x0a; xe1; x88; x0a; xe1; x89;
  x0a; xe1; x8a; x0a; xe1; x8b; x0a; xe1;
  x8c; x0a; xe1; x8d; x0a; xe1; x8e; x0a;
  xe1; x8f; x0a; xe1; x90; x0a; xe1; x91;
  x0a; xe1; x92; x0a; xe1; x93; x0a; xe1;
  x94; x0a; xe1; x95; x0a; xe1; x96; x0a;
  xe1; x97; x0a; xe1; x98; x0a; xe1; x99;
  x0a; xe1; x9a; x0a; xe1; x9b; x0a; xe1;
  x9c; x0a; xe1; x9d; x0a; xe1; x9e; x0a;
  xe1; x9f; x0a; xe1; xa0; x0a; xe1; xa1;
  x0a; xe1; xa2; x0a; xe1; xa3; x0a; xe1;
  xa4; x0a; xe1; xa5; x0a; xe1; xa6; x0a;
  xe1; xa7; x0a; xe1; xa8; x0a; xe1; xa9;
  x0a; xe1; xaa; x0a; xe1; xab; x0a; xe1;
  xac; x0a; xe1; xad; x0a; xe1; xae; x0a;
  xe1; xaf; x0a; xe1; xb0; x0a; xe1; xb1;
  x0a; xe1; xb2; x0a; xe1; xb3; x0a; xe1;
  xb4; x0a; xe1; xb5; x0a; xe1; xb6; x0a;
  xe1; xb7; x0a; xe1; xb8; x0a; xe1; xb9
].
(* tests/test_data/whatwg/shiftjis_whatwg_test_decode_in.txt, entries 16128..16383 *)
Definition shiftjis_decode_in_63 : list byte := [
  x0a; xe1; xba; x0a; xe1; xbb; x0a; xe1;
  xbc; x0a; xe1; xbd; x0a; xe1; xbe; x0a;
  xe1; xbf; x0a; xe1; xc0; x0a; xe1; xc1;
  x0a; xe1; xc2; x0a; xe1; xc3; x0a; xe1;
  xc4; x0a; xe1; xc5; x0a; xe1; xc6; x0a;
  xe1; xc7; x0a; xe1; xc8; x0a; xe1; xc9;
  x0a; xe1; xca; x0a; xe1; xcb; x0a; xe1;
  xcc; x0a; xe1; xcd; x0a; xe1; xce; x0a;
  xe1; xcf; x0a; xe1; xd0; x0a; xe1; xd1;
  x0a; xe1; xd2; x0a; xe1; xd3; x0a; xe1;
  xd4; x0a; xe1; xd5; x0a; xe1; xd6; x0a;
  xe1; xd7; x0a; xe1; xd8; x0a; xe1; xd9;
  x0a; xe1; xda; x0a; xe1; xdb; x0a; xe1;
  xdc; x0a; xe1; xdd; x0a; xe1; xde; x0a;
  xe1; xdf; x0a; xe1; xe0; x0a; xe1; xe1;
  x0a; xe1; xe2; x0a; xe1; xe3; x0a; xe1;
  xe4; x0a; xe1; xe5; x0a; xe1; xe6; x0a;
  xe1; xe7; x0a; xe1; xe8; x0a; xe1; xe9;
  x0a; xe1; xea; x0a; xe1; xeb; x0a; xe1;
  xec; x0a; xe1; xed; x0a; xe1; xee; x0a;
  xe1; xef; x0a; xe1; xf0; x0a; xe1; xf1;
  x0a; xe1; xf2; x0a; xe1; xf3; x0a; xe1;
  xf4; x0a; xe1; xf5; x0a; xe1; xf6; x0a;
  xe1; xf7; x0a; xe1; xf8; x0a; xe1; xf9;
  x0a; xe1; xfa; x0a; xe1; xfb; x0a; xe1;
  xfc; x0a; xe2; x40; x0a; xe2; x41; x0a;
  xe2; x42; x0a; xe2; x43; x0a; xe2; x44;
  x0a; xe2; x45; x0a; xe2; x46; x0a; xe2;
  x47; x0a; xe2; x48; x0a; xe2; x49; x0a;
  xe2; x4a; x0a; xe2; x4b; x0a; xe2; x4c;
  x0a; xe2; x4d; x0a; xe2; x4e; x0a; xe2;
  x4f; x0a; xe2; x50; x0a; xe2; x51; x0a
].
(* tests/test_data/whatwg/shiftjis_whatwg_test_decode_in.txt, entries 16384..16639 *)
Definition shiftjis_decode_in_64 : list byte := [
  xe2; x52; x0a; xe2; x53; x0a; xe2; x54;
  x0a; xe2; x55; x0a; xe2; x56; x0a; xe2;
  x57; x0a; xe2; x58; x0a; xe2; x59; x0a;
  xe2; x5a; x0a; xe2; x5b; x0a; xe2; x5c;
  x0a; xe2; x5d; x0a; xe2; x5e; x0a; xe2;
  x5f; x0a; xe2; x60; x0a; xe2; x61; x0a;
  xe2; x62; x0a; xe2; x63; x0a; xe2; x64;
  x0a; xe2; x65; x0a; xe2; x66; x0a; xe2;
  x67; x0a; xe2; x68; x0a; xe2; x69; x0a;
  xe2; x6a; x0a; xe2; x6b; x0a; xe2; x6c;
  x0a; xe2; x6d; x0a; xe2; x6e; x0a; xe2;
  x6f; x0a; xe2; x70; x0a; xe2; x71; x0a;
  xe2; x72; x0a; xe2; x73; x0a; xe2; x74;
  x0a; xe2; x75; x0a; xe2; x76; x0a; xe2;
  x77; x0a; xe2; x78; x0a; xe2; x79; x0a;
  xe2; x7a; x0a; xe2; x7b; x0a; xe2; x7c;
  x0a; xe2; x7d; x0a; xe2; x7e; x0a; xe2;
  x80; x0a; xe2; x81; x0a; xe2; x82; x0a;
  xe2; x83; x0a; xe2; x84; x0a; xe2; x85;
  x0a; xe2; x86; x0a; xe2; x87; x0a; xe2;
  x88; x0a; xe2; x89; x0a; xe2; x8a; x0a;
  xe2; x8b; x0a; xe2; x8c; x0a; xe2; x8d;
  x0a; xe2; x8e; x0a; xe2; x8f; x0a; xe2;
  x90; x0a; xe2; x91; x0a; xe2; x92; x0a;
  xe2; x93; x0a; xe2; x94; x0a; xe2; x95;
  x0a; xe2; x96; x0a; xe2; x97; x0a; xe2;
  x98; x0a; xe2; x99; x0a; xe2; x9a; x0a;
  xe2; x9b; x0a; xe2; x9c; x0a; xe2; x9d;
  x0a; xe2; x9e; x0a; xe2; x9f; x0a; xe2;
  xa0; x0a; xe2; xa1; x0a; xe2; xa2; x0a;
  xe2; xa3; x0a; xe2; xa4; x0a; xe2; xa5;
  x0a; xe2; xa6; x0a; xe2; xa7; x0a; xe2
].
(* tests/test_data/whatwg/shiftjis_whatwg_test_decode_in.txt, entries 16640..16895 *)
Definition shiftjis_decode_in_65 : list byte := [
  xa8; x0a; xe2; xa9; x0a; xe2; xaa; x0a;
  xe2; xab; x0a; xe2; xac; x0a; xe2; xad;
  x0a; xe2; xae; x0a; xe2; xaf; x0a; xe2;
  xb0; x0a; xe2; xb1; x0a; xe2; xb2; x0a;
  xe2; xb3; x0a; xe2; xb4; x0a; xe2; xb5;
  x0a; xe2; xb6; x0a; xe2; xb7; x0a; xe2;
  xb8; x0a; xe2; xb9; x0a; xe2; xba; x0a;
  xe2; xbb; x0a; xe2; xbc; x0a; xe2; xbd;
  x0a; xe2; xbe; x0a; xe2; xbf; x0a; xe2;
  xc0; x0a; xe2; xc1; x0a; xe2; xc2; x0a;
  xe2; xc3; x0a; xe2; xc4; x0a; xe2; xc5;
  x0a; xe2; xc6; x0a; xe2; xc7; x0a; xe2;
  xc8; x0a; xe2; xc9; x0a; xe2; xca; x0a;
  xe2; xcb; x0a; xe2; xcc; x0a; xe2; xcd;
  x0a; xe2; xce; x0a; xe2; xcf; x0a; xe2;
  xd0; x0a; xe2; xd1; x0a; xe2; xd2; x0a;
  xe2; xd3; x0a; xe2; xd4; x0a; xe2; xd5;
  x0a; xe2; xd6; x0a; xe2; xd7; x0a; xe2;
  xd8; x0a; xe2; xd9; x0a; xe2; xda; x0a;
  xe2; xdb; x0a; xe2; xdc; x0a; xe2; xdd;
  x0a; xe2; xde; x0a; xe2; xdf; x0a; xe2;
  xe0; x0a; xe2; xe1; x0a; xe2; xe2; x0a;
  xe2; xe3; x0a; xe2; xe4; x0a; xe2; xe5;
  x0a; xe2; xe6; x0a; xe2; xe7; x0a; xe2;
  xe8; x0a; xe2; xe9; x0a; xe2; xea; x0a;
  xe2; xeb; x0a; xe2; xec; x0a; xe2; xed;
  x0a; xe2; xee; x0a; xe2; xef; x0a; xe2;
  xf0; x0a; xe2; xf1; x0a; xe2; xf2; x0a;
  xe2; xf3; x0a; xe2; xf4; x0a; xe2; xf5;
  x0a; xe2; xf6; x0a; xe2; xf7; x0a; xe2;
  xf8; x0a; xe2; xf9; x0a; xe2; xfa; x0a;
  xe2; xfb; x0a; xe2; xfc; x0a; xe3; x40
].
(* tests/test_data/whatwg/shiftjis_whatwg_test_decode_in.txt, entries 16896..17151 *)
Definition shiftjis_decode_in_66 : list byte := [
  x0a; xe3; x41; x0a; xe3; x42; x0a; xe3;
  x43; x0a; xe3; x44; x0a; xe3; x45; x0a;
  xe3; x46; x0a; xe3; x47; x0a; xe3; x48;
  x0a; xe3; x49; x0a; xe3; x4a; x0a; xe3;
  x4b; x0a; xe3; x4c; x0a; xe3; x4d; x0a;
  xe3; x4e; x0a; xe3; x4f; x0a; xe3; x50;
  x0a; xe3; x51; x0a; xe3; x52; x0a; xe3;
  x53; x0a; xe3; x54; x0a; xe3; x55; x0a;
  xe3; x56; x0a; xe3; x57; x0a; xe3; x58;
  x0a; xe3; x59; x0a; xe3; x5a; x0a; xe3;
  x5b; x0a; xe3; x5c; x0a; xe3; x5d; x0a;
  xe3; x5e; x0a; xe3; x5f; x0a; xe3; x60;
  x0a; xe3; x61; x0a; xe3; x62; x0a; xe3;
  x63; x0a; xe3; x64; x0a; xe3; x65; x0a;
  xe3; x66; x0a; xe3; x67; x0a; xe3; x68;
  x0a; xe3; x69; x0a; xe3; x6a; x0a; xe3;
  x6b; x0a; xe3; x6c; x0a; xe3; x6d; x0a;
  xe3; x6e; x0a; xe3; x6f; x0a; xe3; x70;
  x0a; xe3; x71; x0a; xe3; x72; x0a; xe3;
  x73; x0a; xe3; x74; x0a; xe3; x75; x0a;
  xe3; x76; x0a; xe3; x77; x0a; xe3; x78;
  x0a; xe3; x79; x0a; xe3; x7a; x0a; xe3;
  x7b; x0a; xe3; x7c; x0a; xe3; x7d; x0a;
  xe3; x7e; x0a; xe3; x80; x0a; xe3; x81;
  x0a; xe3; x82; x0a; xe3; x83; x0a; xe3;
  x84; x0a; xe3; x85; x0a; xe3; x86; x0a;
  xe3; x87; x0a; xe3; x88; x0a; xe3; x89;
  x0a; xe3; x8a; x0a; xe3; x8b; x0a; xe3;
  x8c; x0a; xe3; x8d; x0a; xe3; x8e; x0a;
  xe3; x8f; x0a; xe3; x90; x0a; xe3; x91;
  x0a; xe3; x92; x0a; xe3; x93; x0a; xe3;
  x94; x0a; xe3; x95; x0a; xe3; x96; x0a
].
(* tests/test_data/whatwg/shiftjis_whatwg_test_decode_in.txt, entries 17152..17407 *)
Definition shiftjis_decode_in_67 : list byte := [
  xe3; x97; x0a; xe3; x98; x0a; xe3; x99;
  x0a; xe3; x9a; x0a; xe3; x9b; x0a; xe3;
  x9c; x0a; xe3; x9d; x0a; xe3; x9e; x0a;
  xe3; x9f; x0a; xe3; xa0; x0a; xe3; xa1;
  x0a; xe3; xa2; x0a; xe3; xa3; x0a; xe3;
  xa4; x0a; xe3; xa5; x0a; xe3; xa6; x0a;
  xe3; xa7; x0a; xe3; xa8; x0a; xe3; xa9;
  x0a; xe3; xaa; x0a; xe3; xab; x0a; xe3;
  xac; x0a; xe3; xad; x0a; xe3; xae; x0a;
  xe3; xaf; x0a; xe3; xb0; x0a; xe3; xb1;
  x0a; xe3; xb2; x0a; xe3; xb3; x0a; xe3;
  xb4; x0a; xe3; xb5; x0a; xe3; xb6; x0a;
  xe3; xb7; x0a; xe3; xb8; x0a; xe3; xb9;
  x0a; xe3; xba; x0a; xe3; xbb; x0a; xe3;
  xbc; x0a; xe3; xbd; x0a; xe3; xbe; x0a;
  xe3; xbf; x0a; xe3; xc0; x0a; xe3; xc1;
  x0a; xe3; xc2; x0a; xe3; xc3; x0a; xe3;
  xc4; x0a; xe3; xc5; x0a; xe3; xc6; x0a;
  xe3; xc7; x0a; xe3; xc8; x0a; xe3; xc9;
  x0a; xe3; xca; x0a; xe3; xcb; x0a; xe3;
  xcc; x0a; xe3; xcd; x0a; xe3; xce; x0a;
  xe3; xcf; x0a; xe3; xd0; x0a; xe3; xd1;
  x0a; xe3; xd2; x0a; xe3; xd3; x0a; xe3;
  xd4; x0a; xe3; xd5; x0a; xe3; xd6; x0a;
  xe3; xd7; x0a; xe3; xd8; x0a; xe3; xd9;
  x0a; xe3; xda; x0a; xe3; xdb; x0a; xe3;
  xdc; x0a; xe3; xdd; x0a; xe3; xde; x0a;
  xe3; xdf; x0a; xe3; xe0; x0a; xe3; xe1;
  x0a; xe3; xe2; x0a; xe3; xe3; x0a; xe3;
  xe4; x0a; xe3; xe5; x0a; xe3; xe6; x0a;
  xe3; xe7; x0a; xe3; xe8; x0a; xe3; xe9;
  x0a; xe3; xea; x0a; xe3; xeb; x0a; xe3
].
(* tests/test_data/whatwg/shiftjis_whatwg_test_decode_in.txt, entries 17408..17663 *)
Definition shiftjis_decode_in_68 : list byte := [
  xec; x0a; xe3; xed; x0a; xe3; xee; x0a;
  xe3; xef; x0a; xe3; xf0; x0a; xe3; xf1;
  x0a; xe3; xf2; x0a; xe3; xf3; x0a; xe3;
  xf4; x0a; xe3; xf5; x0a; xe3; xf6; x0a;
  xe3; xf7; x0a; xe3; xf8; x0a; xe3; xf9;
  x0a; xe3; xfa; x0a; xe3; xfb; x0a; xe3;
  xfc; x0a; xe4; x40; x0a; xe4; x41; x0a;
  xe4; x42; x0a; xe4; x43; x0a; xe4; x44;
  x0a; xe4; x45; x0a; xe4; x46; x0a; xe4;
  x47; x0a; xe4; x48; x0a; xe4; x49; x0a;
  xe4; x4a; x0a; xe4; x4b; x0a; xe4; x4c;
  x0a; xe4; x4d; x0a; xe4; x4e; x0a; xe4;
  x4f; x0a; xe4; x50; x0a; xe4; x51; x0a;
  xe4; x52; x0a; xe4; x53; x0a; xe4; x54;
  x0a; xe4; x55; x0a; xe4; x56; x0a; xe4;
  x57; x0a; xe4; x58; x0a; xe4; x59; x0a;
  xe4; x5a; x0a; xe4; x5b; x0a; xe4; x5c;
  x0a; xe4; x5d; x0a; xe4; x5e; x0a; xe4;
  x5f; x0a; xe4; x60; x0a; xe4; x61; x0a;
  xe4; x62; x0a; xe4; x63; x0a; xe4; x64;
  x0a; xe4; x65; x0a; xe4; x66; x0a; xe4;
  x67; x0a; xe4; x68; x0a; xe4; x69; x0a;
  xe4; x6a; x0a; xe4; x6b; x0a; xe4; x6c;
  x0a; xe4; x6d; x0a; xe4; x6e; x0a; xe4;
  x6f; x0a; xe4; x70; x0a; xe4; x71; x0a;
  xe4; x72; x0a; xe4; x73; x0a; xe4; x74;
  x0a; xe4; x75; x0a; xe4; x76; x0a; xe4;
  x77; x0a; xe4; x78; x0a; xe4; x79; x0a;
  xe4; x7a; x0a; xe4; x7b; x0a; xe4; x7c;
  x0a; xe4; x7d; x0a; xe4; x7e; x0a; xe4;
  x80; x0a; xe4; x81; x0a; xe4; x82; x0a;
  xe4; x83; x0a; xe4; x84; x0a; xe4; x85
].
(* tests/test_data/whatwg/shiftjis_whatwg_test_decode_in.txt, entries 17664..17919 *)
Definition shiftjis_decode_in_69 : list byte := [
  x0a; xe4; x86; x0a; xe4; x87; x0a; xe4;
  x88; x0a; xe4; x89; x0a; xe4; x8a; x0a;
  xe4; x8b; x0a; xe4; x8c; x0a; xe4; x8d;
  x0a; xe4; x8e; x0a; xe4; x8f; x0a; xe4;
  x90; x0a; xe4; x91; x0a; xe4; x92; x0a;
  xe4; x93; x0a; xe4; x94; x0a; xe4; x95;
  x0a; xe4; x96; x0a; xe4; x97; x0a; xe4;
  x98; x0a; xe4; x99; x0a; xe4; x9a; x0a;
  xe4; x9b; x0a; xe4; x9c; x0a; xe4; x9d;
  x0a; xe4; x9e; x0a; xe4; x9f; x0a; xe4;
  xa0; x0a; xe4; xa1; x0a; xe4; xa2; x0a;
  xe4; xa3; x0a; xe4; xa4; x0a; xe4; xa5;
  x0a; xe4; xa6; x0a; xe4; xa7; x0a; xe4;
  xa8; x0a; xe4; xa9; x0a; xe4; xaa; x0a;
  xe4; xab; x0a; xe4; xac; x0a; xe4; xad;
  x0a; xe4; xae; x0a; xe4; xaf; x0a; xe4;
  xb0; x0a; xe4; xb1; x0a; xe4; xb2; x0a;
  xe4; xb3; x0a; xe4; xb4; x0a; xe4; xb5;
  x0a; xe4; xb6; x0a; xe4; xb7; x0a; xe4;
  xb8; x0a; xe4; xb9; x0a; xe4; xba; x0a;
  xe4; xbb; x0a; xe4; xbc; x0a; xe4; xbd;
  x0a; xe4; xbe; x0a; xe4; xbf; x0a; xe4;
  xc0; x0a; xe4; xc1; x0a; xe4; xc2; x0a;
  xe4; xc3; x0a; xe4; xc4; x0a; xe4; xc5;
  x0a; xe4; xc6; x0a; xe4; xc7; x0a; xe4;
  xc8; x0a; xe4; xc9; x0a; xe4; xca; x0a;
  xe4; xcb; x0a; xe4; xcc; x0a; xe4; xcd;
  x0a; xe4; xce; x0a; xe4; xcf; x0a; xe4;
  xd0; x0a; xe4; xd1; x0a; xe4; xd2; x0a;
  xe4; xd3; x0a; xe4; xd4; x0a; xe4; xd5;
  x0a; xe4; xd6; x0a; xe4; xd7; x0a; xe4;
  xd8; x0a; xe4; xd9; x0a; xe4; xda; x0a
].
(* tests/test_data/whatwg/shiftjis_whatwg_test_decode_in.txt, entries 17920..18175 *)
Definition shiftjis_decode_in_70 : list byte := [
  xe4; xdb; x0a; xe4; xdc; x0a; xe4; xdd;
  x0a; xe4; xde; x0a; xe4; xdf; x0a; xe4;
  xe0; x0a; xe4; xe1; x0a; xe4; xe2; x0a;
  xe4; xe3; x0a; xe4; xe4; x0a; xe4; xe5;
  x0a; xe4; xe6; x0a; xe4; xe7; x0a; xe4;
  xe8; x0a; xe4; xe9; x0a; xe4; xea; x0a;
  xe4; xeb; x0a; xe4; xec; x0a; xe4; xed;
  x0a; xe4; xee; x0a; xe4; xef; x0a; xe4;
  xf0; x0a; xe4; xf1; x0a; xe4; xf2; x0a;
  xe4; xf3; x0a; xe4; xf4; x0a; xe4; xf5;
  x0a; xe4; xf6; x0a; xe4; xf7; x0a; xe4;
  xf8; x0a; xe4; xf9; x0a; xe4; xfa; x0a;
  xe4; xfb; x0a; xe4; xfc; x0a; xe5; x40;
  x0a; xe5; x41; x0a; xe5; x42; x0a; xe5;
  x43; x0a; xe5; x44; x0a; xe5; x45; x0a;
  xe5; x46; x0a; xe5; x47; x0a; xe5; x48;
  x0a; xe5; x49; x0a; xe5; x4a; x0a; xe5;
  x4b; x0a; xe5; x4c; x0a; xe5; x4d; x0a;
  xe5; x4e; x0a; xe5; x4f; x0a; xe5; x50;
  x0a; xe5; x51; x0a; xe5; x52; x0a; xe5;
  x53; x0a; xe5; x54; x0a; xe5; x55; x0a;
  xe5; x56; x0a; xe5; x57; x0a; xe5; x58;
  x0a; xe5; x59; x0a; xe5; x5a; x0a; xe5;
  x5b; x0a; xe5; x5c; x0a; xe5; x5d; x0a;
  xe5; x5e; x0a; xe5; x5f; x0a; xe5; x60;
  x0a; xe5; x61; x0a; xe5; x62; x0a; xe5;
  x63; x0a; xe5; x64; x0a; xe5; x65; x0a;
  xe5; x66; x0a; xe5; x67; x0a; xe5; x68;
  x0a; xe5; x69; x0a; xe5; x6a; x0a; xe5;
  x6b; x0a; xe5; x6c; x0a; xe5; x6d; x0a;
  xe5; x6e; x0a; xe5; x6f; x0a; xe5; x70;
  x0a; xe5; x71; x0a; xe5; x72; x0a; xe5
].
(* tests/test_data/whatwg/shiftjis_whatwg_test_decode_in.txt, entries 18176..18431 *)
Definition shiftjis_decode_in_71 : list byte := [
  x73; x0a; xe5; x74; x0a; xe5; x75; x0a;
  xe5; x76; x0a; xe5; x77; x0a; xe5; x78;
  x0a; xe5; x79; x0a; xe5; x7a; x0a; xe5;
  x7b; x0a; xe5; x7c; x0a; xe5; x7d; x0a;
  xe5; x7e; x0a; xe5; x80; x0a; xe5; x81;
  x0a; xe5; x82; x0a; xe5; x83; x0a; xe5;
  x84; x0a; xe5; x85; x0a; xe5; x86; x0a;
  xe5; x87; x0a; xe5; x88; x0a; xe5; x89;
  x0a; xe5; x8a; x0a; xe5; x8b; x0a; xe5;
  x8c; x0a; xe5; x8d; x0a; xe5; x8e; x0a;
  xe5; x8f; x0a; xe5; x90; x0a; xe5; x91;
  x0a; xe5; x92; x0a; xe5; x93; x0a; xe5;
  x94; x0a; xe5; x95; x0a; xe5; x96; x0a;
  xe5; x97; x0a; xe5; x98; x0a; xe5; x99;
  x0a; xe5; x9a; x0a; xe5; x9b; x0a; xe5;
  x9c; x0a; xe5; x9d; x0a; xe5; x9e; x0a;
  xe5; x9f; x0a; xe5; xa0; x0a; xe5; xa1;
  x0a; xe5; xa2; x0a; xe5; xa3; x0a; xe5;
  xa4; x0a; xe5; xa5; x0a; xe5; xa6; x0a;
  xe5; xa7; x0a; xe5; xa8; x0a; xe5; xa9;
  x0a; xe5; xaa; x0a; xe5; xab; x0a; xe5;
  xac; x0a; xe5; xad; x0a; xe5; xae; x0a;
  xe5; xaf; x0a; xe5; xb0; x0a; xe5; xb1;
  x0a; xe5; xb2; x0a; xe5; xb3; x0a; xe5;
  xb4; x0a; xe5; xb5; x0a; xe5; xb6; x0a;
  xe5; xb7; x0a; xe5; xb8; x0a; xe5; xb9;
  x0a; xe5; xba; x0a; xe5; xbb; x0a; xe5;
  xbc; x0a; xe5; xbd; x0a; xe5; xbe; x0a;
  xe5; xbf; x0a; xe5; xc0; x0a; xe5; xc1;
  x0a; xe5; xc2; x0a; xe5; xc3; x0a; xe5;
  xc4; x0a; xe5; xc5; x0a; xe5; xc6; x0a;
  xe5; xc7; x0a; xe5; xc8; x0a; xe5; xc9
].
(* tests/test_data/whatwg/shiftjis_whatwg_test_decode_in.txt, entries 18432..18687 *)
Definition shiftjis_decode_in_72 : list byte := [
  x0a; xe5; xca; x0a; xe5; xcb; x0a; xe5;
  xcc; x0a; xe5; xcd; x0a; xe5; xce; x0a;
  xe5; xcf; x0a; xe5; xd0; x0a; xe5; xd1;
  x0a; xe5; xd2; x0a; xe5; xd3; x0a; xe5;
  xd4; x0a; xe5; xd5; x0a; xe5; xd6; x0a;
  xe5; xd7; x0a; xe5; xd8; x0a; xe5; xd9;
  x0a; xe5; xda; x0a; xe5; xdb; x0a; xe5;
  xdc; x0a; xe5; xdd; x0a; xe5; xde; x0a;
  xe5; xdf; x0a; xe5; xe0; x0a; xe5; xe1;
  x0a; xe5; xe2; x0a; xe5; xe3; x0a; xe5;
  xe4; x0a; xe5; xe5; x0a; xe5; xe6; x0a;
  xe5; xe7; x0a; xe5; xe8; x0a; xe5; xe9;
  x0a; xe5; xea; x0a; xe5; xeb; x0a; xe5;
  xec; x0a; xe5; xed; x0a; xe5; xee; x0a;
  xe5; xef; x0a; xe5; xf0; x0a; xe5; xf1;
  x0a; xe5; xf2; x0a; xe5; xf3; x0a; xe5;
  xf4; x0a; xe5; xf5; x0a; xe5; xf6; x0a;
  xe5; xf7; x0a; xe5; xf8; x0a; xe5; xf9;
  x0a; xe5; xfa; x0a; xe5; xfb; x0a; xe5;
  xfc; x0a; xe6; x40; x0a; xe6; x41; x0a;
  xe6; x42; x0a; xe6; x43; x0a; xe6; x44;
  x0a; xe6; x45; x0a; xe6; x46; x0a; xe6;
  x47; x0a; xe6; x48; x0a; xe6; x49; x0a;
  xe6; x4a; x0a; xe6; x4b; x0a; xe6; x4c;
  x0a; xe6; x4d; x0a; xe6; x4e; x0a; xe6;
  x4f; x0a; xe6; x50; x0a; xe6; x51; x0a;
  xe6; x52; x0a; xe6; x53; x0a; xe6; x54;
  x0a; xe6; x55; x0a; xe6; x56; x0a; xe6;
  x57; x0a; xe6; x58; x0a; xe6; x59; x0a;
  xe6; x5a; x0a; xe6; x5b; x0a; xe6; x5c;
  x0a; xe6; x5d; x0a; xe6; x5e; x0a; xe6;
  x5f; x0a; xe6; x60; x0a; xe6; x61; x0a
].
(* tests/test_data/whatwg/shiftjis_whatwg_test_decode_in.txt, entries 18688..18943 *)
Definition shiftjis_decode_in_73 : list byte := [
  xe6; x62; x0a; xe6; x63; x0a; xe6; x64;
  x0a; xe6; x65; x0a; xe6; x66; x0a; xe6;
  x67; x0a; xe6; x68; x0a; xe6; x69; x0a;
  xe6; x6a; x0a; xe6; x6b; x0a; xe6; x6c;
  x0a; xe6; x6d; x0a; xe6; x6e; x0a; xe6;
  x6f; x0a; xe6; x70; x0a; xe6; x71; x0a;
  xe6; x72; x0a; xe6; x73; x0a; xe6; x74;
  x0a; xe6; x75; x0a; xe6; x76; x0a; xe6;
  x77; x0a; xe6; x78; x0a; xe6; x79; x0a;
  xe6; x7a; x0a; xe6; x7b; x0a; xe6; x7c;
  x0a; xe6; x7d; x0a; xe6; x7e; x0a; xe6;
  x80; x0a; xe6; x81; x0a; xe6; x82; x0a;
  xe6; x83; x0a; xe6; x84; x0a; xe6; x85;
  x0a; xe6; x86; x0a; xe6; x87; x0a; xe6;
  x88; x0a; xe6; x89; x0a; xe6; x8a; x0a;
  xe6; x8b; x0a; xe6; x8c; x0a; xe6; x8d;
  x0a; xe6; x8e; x0a; xe6; x8f; x0a; xe6;
  x90; x0a; xe6; x91; x0a; xe6; x92; x0a;
  xe6; x93; x0a; xe6; x94; x0a; xe6; x95;
  x0a; xe6; x96; x0a; xe6; x97; x0a; xe6;
  x98; x0a; xe6; x99; x0a; xe6; x9a; x0a;
  xe6; x9b; x0a; xe6; x9c; x0a; xe6; x9d;
  x0a; xe6; x9e; x0a; xe6; x9f; x0a; xe6;
  xa0; x0a; xe6; xa1; x0a; xe6; xa2; x0a;
  xe6; xa3; x0a; xe6; xa4; x0a; xe6; xa5;
  x0a; xe6; xa6; x0a; xe6; xa7; x0a; xe6;
  xa8; x0a; xe6; xa9; x0a; xe6; xaa; x0a;
  xe6; xab; x0a; xe6; xac; x0a; xe6; xad;
  x0a; xe6; xae; x0a; xe6; xaf; x0a; xe6;
  xb0; x0a; xe6; xb1; x0a; xe6; xb2; x0a;
  xe6; xb3; x0a; xe6; xb4; x0a; xe6; xb5;
  x0a; xe6; xb6; x0a; xe6; xb7; x0a; xe6
].
(* tests/test_data/whatwg/shiftjis_whatwg_test_decode_in.txt, entries 18944..19199 *)
Definition shiftjis_decode_in_74 : list byte := [
  xb8; x0a; xe6; xb9; x0a; xe6; xba; x0a;
  xe6; xbb; x0a; xe6; xbc; x0a; xe6; xbd;
  x0a; xe6; xbe; x0a; xe6; xbf; x0a; xe6;
  xc0; x0a; xe6; xc1; x0a; xe6; xc2; x0a;
  xe6; xc3; x0a; xe6; xc4; x0a; xe6; xc5;
  x0a; xe6; xc6; x0a; xe6; xc7; x0a; xe6;
  xc8; x0a; xe6; xc9; x0a; xe6; xca; x0a;
  xe6; xcb; x0a; xe6; xcc; x0a; xe6; xcd;
  x0a; xe6; xce; x0a; xe6; xcf; x0a; xe6;
  xd0; x0a; xe6; xd1; x0a; xe6; xd2; x0a;
  xe6; xd3; x0a; xe6; xd4; x0a; xe6; xd5;
  x0a; xe6; xd6; x0a; xe6; xd7; x0a; xe6;
  xd8; x0a; xe6; xd9; x0a; xe6; xda; x0a;
  xe6; xdb; x0a; xe6; xdc; x0a; xe6; xdd;
  x0a; xe6; xde; x0a; xe6; xdf; x0a; xe6;
  xe0; x0a; xe6; xe1; x0a; xe6; xe2; x0a;
  xe6; xe3; x0a; xe6; xe4; x0a; xe6; xe5;
  x0a; xe6; xe6; x0a; xe6; xe7; x0a; xe6;
  xe8; x0a; xe6; xe9; x0a; xe6; xea; x0a;
  xe6; xeb; x0a; xe6; xec; x0a; xe6; xed;
  x0a; xe6; xee; x0a; xe6; xef; x0a; xe6;
  xf0; x0a; xe6; xf1; x0a; xe6; xf2; x0a;
  xe6; xf3; x0a; xe6; xf4; x0a; xe6; xf5;
  x0a; xe6; xf6; x0a; xe6; xf7; x0a; xe6;
  xf8; x0a; xe6; xf9; x0a; xe6; xfa; x0a;
  xe6; xfb; x0a; xe6; xfc; x0a; xe7; x40;
  x0a; xe7; x41; x0a; xe7; x42; x0a; xe7;
  x43; x0a; xe7; x44; x0a; xe7; x45; x0a;
  xe7; x46; x0a; xe7; x47; x0a; xe7; x48;
  x0a; xe7; x49; x0a; xe7; x4a; x0a; xe7;
  x4b; x0a; xe7; x4c; x0a; xe7; x4d; x0a;
  xe7; x4e; x0a; xe7; x4f; x0a; xe7; x50
].
(* tests/test_data/whatwg/shiftjis_whatwg_test_decode_in.txt, entries 19200..19455 *)
Definition shiftjis_decode_in_75 : list byte := [
  x0a; xe7; x51; x0a; xe7; x52; x0a; xe7;
  x53; x0a; xe7; x54; x0a; xe7; x55; x0a;
  xe7; x56; x0a; xe7; x57; x0a; xe7; x58;
  x0a; xe7; x59; x0a; xe7; x5a; x0a; xe7;
  x5b; x0a; xe7; x5c; x0a; xe7; x5d; x0a;
  xe7; x5e; x0a; xe7; x5f; x0a; xe7; x60;
  x0a; xe7; x61; x0a; xe7; x62; x0a; xe7;
  x63; x0a; xe7; x64; x0a; xe7; x65; x0a;
  xe7; x66; x0a; xe7; x67; x0a; xe7; x68;
  x0a; xe7; x69; x0a; xe7; x6a; x0a; xe7;
  x6b; x0a; xe7; x6c; x0a; xe7; x6d; x0a;
  xe7; x6e; x0a; xe7; x6f; x0a; xe7; x70;
  x0a; xe7; x71; x0a; xe7; x72; x0a; xe7;
  x73; x0a; xe7; x74; x0a; xe7; x75; x0a;
  xe7; x76; x0a; xe7; x77; x0a; xe7; x78;
  x0a; xe7; x79; x0a; xe7; x7a; x0a; xe7;
  x7b; x0a; xe7; x7c; x0a; xe7; x7d; x0a;
  xe7; x7e; x0a; xe7; x80; x0a; xe7; x81;
  x0a; xe7; x82; x0a; xe7; x83; x0a; xe7;
  x84; x0a; xe7; x85; x0a; xe7; x86; x0a;
  xe7; x87; x0a; xe7; x88; x0a; xe7; x89;
  x0a; xe7; x8a; x0a; xe7; x8b; x0a; xe7;
  x8c; x0a; xe7; x8d; x0a; xe7; x8e; x0a;
  xe7; x8f; x0a; xe7; x90; x0a; xe7; x91;
  x0a; xe7; x92; x0a; xe7; x93; x0a; xe7;
  x94; x0a; xe7; x95; x0a; xe7; x96; x0a;
  xe7; x97; x0a; xe7; x98; x0a; xe7; x99;
  x0a; xe7; x9a; x0a; xe7; x9b; x0a; xe7;
  x9c; x0a; xe7; x9d; x0a; xe7; x9e; x0a;
  xe7; x9f; x0a; xe7; xa0; x0a; xe7; xa1;
  x0a; xe7; xa2; x0a; xe7; xa3; x0a; xe7;
  xa4; x0a; xe7; xa5; x0a; xe7; xa6; x0a
].
(* tests/test_data/whatwg/shiftjis_whatwg_test_decode_in.txt, entries 19456..19711 *)
Definition shiftjis_decode_in_76 : list byte := [
  xe7; xa7; x0a; xe7; xa8; x0a; xe7; xa9;
  x0a; xe7; xaa; x0a; xe7; xab; x0a; xe7;
  xac; x0a; xe7; xad; x0a; xe7; xae; x0a;
  xe7; xaf; x0a; xe7; xb0; x0a; xe7; xb1;
  x0a; xe7; xb2; x0a; xe7; xb3; x0a; xe7;
  xb4; x0a; xe7; xb5; x0a; xe7; xb6; x0a;
  xe7; xb7; x0a; xe7; xb8; x0a; xe7; xb9;
  x0a; xe7; xba; x0a; xe7; xbb; x0a; xe7;
  xbc; x0a; xe7; xbd; x0a; xe7; xbe; x0a;
  xe7; xbf; x0a; xe7; xc0; x0a; xe7; xc1;
  x0a; xe7; xc2; x0a; xe7; xc3; x0a; xe7;
  xc4; x0a; xe7; xc5; x0a; xe7; xc6; x0a;
  xe7; xc7; x0a; xe7; xc8; x0a; xe7; xc9;
  x0a; xe7; xca; x0a; xe7; xcb; x0a; xe7;
  xcc; x0a; xe7; xcd; x0a; xe7; xce; x0a;
  xe7; xcf; x0a; xe7; xd0; x0a; xe7; xd1;
  x0a; xe7; xd2; x0a; xe7; xd3; x0a; xe7;
  xd4; x0a; xe7; xd5; x0a; xe7; xd6; x0a;
  xe7; xd7; x0a; xe7; xd8; x0a; xe7; xd9;
  x0a; xe7; xda; x0a; xe7; xdb; x0a; xe7;
  xdc; x0a; xe7; xdd; x0a; xe7; xde; x0a;
  xe7; xdf; x0a; xe7; xe0; x0a; xe7; xe1;
  x0a; xe7; xe2; x0a; xe7; xe3; x0a; xe7;
  xe4; x0a; xe7; xe5; x0a; xe7; xe6; x0a;
  xe7; xe7; x0a; xe7; xe8; x0a; xe7; xe9;
  x0a; xe7; xea; x0a; xe7; xeb; x0a; xe7;
  xec; x0a; xe7; xed; x0a; xe7; xee; x0a;
  xe7; xef; x0a; xe7; xf0; x0a; xe7; xf1;
  x0a; xe7; xf2; x0a; xe7; xf3; x0a; xe7;
  xf4; x0a; xe7; xf5; x0a; xe7; xf6; x0a;
  xe7; xf7; x0a; xe7; xf8; x0a; xe7; xf9;
  x0a; xe7; xfa; x0a; xe7; xfb; x0a; xe7
].
(* tests/test_data/whatwg/shiftjis_whatwg_test_decode_in.txt, entries 19712..19967 *)
Definition shiftjis_decode_in_77 : list byte := [
  xfc; x0a; xe8; x40; x0a; xe8; x41; x0a;
  xe8; x42; x0a; xe8; x43; x0a; xe8; x44;
  x0a; xe8; x45; x0a; xe8; x46; x0a; xe8;
  x47; x0a; xe8; x48; x0a; xe8; x49; x0a;
  xe8; x4a; x0a; xe8; x4b; x0a; xe8; x4c;
  x0a; xe8; x4d; x0a; xe8; x4e; x0a; xe8;
  x4f; x0a; xe8; x50; x0a; xe8; x51; x0a;
  xe8; x52; x0a; xe8; x53; x0a; xe8; x54;
  x0a; xe8; x55; x0a; xe8; x56; x0a; xe8;
  x57; x0a; xe8; x58; x0a; xe8; x59; x0a;
  xe8; x5a; x0a; xe8; x5b; x0a; xe8; x5c;
  x0a; xe8; x5d; x0a; xe8; x5e; x0a; xe8;
  x5f; x0a; xe8; x60; x0a; xe8; x61; x0a;
  xe8; x62; x0a; xe8; x63; x0a; xe8; x64;
  x0a; xe8; x65; x0a; xe8; x66; x0a; xe8;
  x67; x0a; xe8; x68; x0a; xe8; x69; x0a;
  xe8; x6a; x0a; xe8; x6b; x0a; xe8; x6c;
  x0a; xe8; x6d; x0a; xe8; x6e; x0a; xe8;
  x6f; x0a; xe8; x70; x0a; xe8; x71; x0a;
  xe8; x72; x0a; xe8; x73; x0a; xe8; x74;
  x0a; xe8; x75; x0a; xe8; x76; x0a; xe8;
  x77; x0a; xe8; x78; x0a; xe8; x79; x0a;
  xe8; x7a; x0a; xe8; x7b; x0a; xe8; x7c;
  x0a; xe8; x7d; x0a; xe8; x7e; x0a; xe8;
  x80; x0a; xe8; x81; x0a; xe8; x82; x0a;
  xe8; x83; x0a; xe8; x84; x0a; xe8; x85;
  x0a; xe8; x86; x0a; xe8; x87; x0a; xe8;
  x88; x0a; xe8; x89; x0a; xe8; x8a; x0a;
  xe8; x8b; x0a; xe8; x8c; x0a; xe8; x8d;
  x0a; xe8; x8e; x0a; xe8; x8f; x0a; xe8;
  x90; x0a; xe8; x91; x0a; xe8; x92; x0a;
  xe8; x93; x0a; xe8; x94; x0a; xe8; x95
].
(* tests/test_data/whatwg/shiftjis_whatwg_test_decode_in.txt, entries 19968..20223 *)
Definition shiftjis_decode_in_78 : list byte := [
  x0a; xe8; x96; x0a; xe8; x97; x0a; xe8;
  x98; x0a; xe8; x99; x0a; xe8; x9a; x0a;
  xe8; x9b; x0a; xe8; x9c; x0a; xe8; x9d;
  x0a; xe8; x9e; x0a; xe8; x9f; x0a; xe8;
  xa0; x0a; xe8; xa1; x0a; xe8; xa2; x0a;
  xe8; xa3; x0a; xe8; xa4; x0a; xe8; xa5;
  x0a; xe8; xa6; x0a; xe8; xa7; x0a; xe8;
  xa8; x0a; xe8; xa9; x0a; xe8; xaa; x0a;
  xe8; xab; x0a; xe8; xac; x0a; xe8; xad;
  x0a; xe8; xae; x0a; xe8; xaf; x0a; xe8;
  xb0; x0a; xe8; xb1; x0a; xe8; xb2; x0a;
  xe8; xb3; x0a; xe8; xb4; x0a; xe8; xb5;
  x0a; xe8; xb6; x0a; xe8; xb7; x0a; xe8;
  xb8; x0a; xe8; xb9; x0a; xe8; xba; x0a;
  xe8; xbb; x0a; xe8; xbc; x0a; xe8; xbd;
  x0a; xe8; xbe; x0a; xe8; xbf; x0a; xe8;
  xc0; x0a; xe8; xc1; x0a; xe8; xc2; x0a;
  xe8; xc3; x0a; xe8; xc4; x0a; xe8; xc5;
  x0a; xe8; xc6; x0a; xe8; xc7; x0a; xe8;
  xc8; x0a; xe8; xc9; x0a; xe8; xca; x0a;
  xe8; xcb; x0a; xe8; xcc; x0a; xe8; xcd;
  x0a; xe8; xce; x0a; xe8; xcf; x0a; xe8;
  xd0; x0a; xe8; xd1; x0a; xe8; xd2; x0a;
  xe8; xd3; x0a; xe8; xd4; x0a; xe8; xd5;
  x0a; xe8; xd6; x0a; xe8; xd7; x0a; xe8;
  xd8; x0a; xe8; xd9; x0a; xe8; xda; x0a;
  xe8; xdb; x0a; xe8; xdc; x0a; xe8; xdd;
  x0a; xe8; xde; x0a; xe8; xdf; x0a; xe8;
  xe0; x0a; xe8; xe1; x0a; xe8; xe2; x0a;
  xe8; xe3; x0a; xe8; xe4; x0a; xe8; xe5;
  x0a; xe8; xe6; x0a; xe8; xe7; x0a; xe8;
  xe8; x0a; xe8; xe9; x0a; xe8; xea; x0a
].
(* tests/test_data/whatwg/shiftjis_whatwg_test_decode_in.txt, entries 20224..20479 *)
Definition shiftjis_decode_in_79 : list byte := [
  xe8; xeb; x0a; xe8; xec; x0a; xe8; xed;
  x0a; xe8; xee; x0a; xe8; xef; x0a; xe8;
  xf0; x0a; xe8; xf1; x0a; xe8; xf2; x0a;
  xe8; xf3; x0a; xe8; xf4; x0a; xe8; xf5;
  x0a; xe8; xf6; x0a; xe8; xf7; x0a; xe8;
  xf8; x0a; xe8; xf9; x0a; xe8; xfa; x0a;
  xe8; xfb; x0a; xe8; xfc; x0a; xe9; x40;
  x0a; xe9; x41; x0a; xe9; x42; x0a; xe9;
  x43; x0a; xe9; x44; x0a; xe9; x45; x0a;
  xe9; x46; x0a; xe9; x47; x0a; xe9; x48;
  x0a; xe9; x49; x0a; xe9; x4a; x0a; xe9;
  x4b; x0a; xe9; x4c; x0a; xe9; x4d; x0a;
  xe9; x4e; x0a; xe9; x4f; x0a; xe9; x50;
  x0a; xe9; x51; x0a; xe9; x52; x0a; xe9;
  x53; x0a; xe9; x54; x0a; xe9; x55; x0a;
  xe9; x56; x0a; xe9; x57; x0a; xe9; x58;
  x0a; xe9; x59; x0a; xe9; x5a; x0a; xe9;
  x5b; x0a; xe9; x5c; x0a; xe9; x5d; x0a;
  xe9; x5e; x0a; xe9; x5f; x0a; xe9; x60;
  x0a; xe9; x61; x0a; xe9; x62; x0a; xe9;
  x63; x0a; xe9; x64; x0a; xe9; x65; x0a;
  xe9; x66; x0a; xe9; x67; x0a; xe9; x68;
  x0a; xe9; x69; x0a; xe9; x6a; x0a; xe9;
  x6b; x0a; xe9; x6c; x0a; xe9; x6d; x0a;
  xe9; x6e; x0a; xe9; x6f; x0a; xe9; x70;
  x0a; xe9; x71; x0a; xe9; x72; x0a; xe9;
  x73; x0a; xe9; x74; x0a; xe9; x75; x0a;
  xe9; x76; x0a; xe9; x77; x0a; xe9; x78;
  x0a; xe9; x79; x0a; xe9; x7a; x0a; xe9;
  x7b; x0a; xe9; x7c; x0a; xe9; x7d; x0a;
  xe9; x7e; x0a; xe9; x80; x0a; xe9; x81;
  x0a; xe9; x82; x0a; xe9; x83; x0a; xe9
].
(* tests/test_data/whatwg/shiftjis_whatwg_test_decode_in.txt, entries 20480..20735 *)
Definition shiftjis_decode_in_80 : list byte := [
  x84; x0a; xe9; x85; x0a; xe9; x86; x0a;
  xe9; x87; x0a; xe9; x88; x0a; xe9; x89;
  x0a; xe9; x8a; x0a; xe9; x8b; x0a; xe9;
  x8c; x0a; xe9; x8d; x0a; xe9; x8e; x0a;
  xe9; x8f; x0a; xe9; x90; x0a; xe9; x91;
  x0a; xe9; x92; x0a; xe9; x93; x0a; xe9;
  x94; x0a; xe9; x95; x0a; xe9; x96; x0a;
  xe9; x97; x0a; xe9; x98; x0a; xe9; x99;
  x0a; xe9; x9a; x0a; xe9; x9b; x0a; xe9;
  x9c; x0a; xe9; x9d; x0a; xe9; x9e; x0a;
  xe9; x9f; x0a; xe9; xa0; x0a; xe9; xa1;
  x0a; xe9; xa2; x0a; xe9; xa3; x0a; xe9;
  xa4; x0a; xe9; xa5; x0a; xe9; xa6; x0a;
  xe9; xa7; x0a; xe9; xa8; x0a; xe9; xa9;
  x0a; xe9; xaa; x0a; xe9; xab; x0a; xe9;
  xac; x0a; xe9; xad; x0a; xe9; xae; x0a;
  xe9; xaf; x0a; xe9; xb0; x0a; xe9; xb1;
  x0a; xe9; xb2; x0a; xe9; xb3; x0a; xe9;
  xb4; x0a; xe9; xb5; x0a; xe9; xb6; x0a;
  xe9; xb7; x0a; xe9; xb8; x0a; xe9; xb9;
  x0a; xe9; xba; x0a; xe9; xbb; x0a; xe9;
  xbc; x0a; xe9; xbd; x0a; xe9; xbe; x0a;
  xe9; xbf; x0a; xe9; xc0; x0a; xe9; xc1;
  x0a; xe9; xc2; x0a; xe9; xc3; x0a; xe9;
  xc4; x0a; xe9; xc5; x0a; xe9; xc6; x0a;
  xe9; xc7; x0a; xe9; xc8; x0a; xe9; xc9;
  x0a; xe9; xca; x0a; xe9; xcb; x0a; xe9;
  xcc; x0a; xe9; xcd; x0a; xe9; xce; x0a;
  xe9; xcf; x0a; xe9; xd0; x0a; xe9; xd1;
  x0a; xe9; xd2; x0a; xe9; xd3; x0a; xe9;
  xd4; x0a; xe9; xd5; x0a; xe9; xd6; x0a;
  xe9; xd7; x0a; xe9; xd8; x0a; xe9; xd9
].
(* tests/test_data/whatwg/shiftjis_whatwg_test_decode_in.txt, entries 20736..20991 *)
Definition shiftjis_decode_in_81 : list byte := [
  x0a; xe9; xda; x0a; xe9; xdb; x0a; xe9;
  xdc; x0a; xe9; xdd; x0a; xe9; xde; x0a;
  xe9; xdf; x0a; xe9; xe0; x0a; xe9; xe1;
  x0a; xe9; xe2; x0a; xe9; xe3; x0a; xe9;
  xe4; x0a; xe9; xe5; x0a; xe9; xe6; x0a;
  xe9; xe7; x0a; xe9; xe8; x0a; xe9; xe9;
  x0a; xe9; xea; x0a; xe9; xeb; x0a; xe9;
  xec; x0a; xe9; xed; x0a; xe9; xee; x0a;
  xe9; xef; x0a; xe9; xf0; x0a; xe9; xf1;
  x0a; xe9; xf2; x0a; xe9; xf3; x0a; xe9;
  xf4; x0a; xe9; xf5; x0a; xe9; xf6; x0a;
  xe9; xf7; x0a; xe9; xf8; x0a; xe9; xf9;
  x0a; xe9; xfa; x0a; xe9; xfb; x0a; xe9;
  xfc; x0a; xea; x40; x0a; xea; x41; x0a;
  xea; x42; x0a; xea; x43; x0a; xea; x44;
  x0a; xea; x45; x0a; xea; x46; x0a; xea;
  x47; x0a; xea; x48; x0a; xea; x49; x0a;
  xea; x4a; x0a; xea; x4b; x0a; xea; x4c;
  x0a; xea; x4d; x0a; xea; x4e; x0a; xea;
  x4f; x0a; xea; x50; x0a; xea; x51; x0a;
  xea; x52; x0a; xea; x53; x0a; xea; x54;
  x0a; xea; x55; x0a; xea; x56; x0a; xea;
  x57; x0a; xea; x58; x0a; xea; x59; x0a;
  xea; x5a; x0a; xea; x5b; x0a; xea; x5c;
  x0a; xea; x5d; x0a; xea; x5e; x0a; xea;
  x5f; x0a; xea; x60; x0a; xea; x61; x0a;
  xea; x62; x0a; xea; x63; x0a; xea; x64;
  x0a; xea; x65; x0a; xea; x66; x0a; xea;
  x67; x0a; xea; x68; x0a; xea; x69; x0a;
  xea; x6a; x0a; xea; x6b; x0a; xea; x6c;
  x0a; xea; x6d; x0a; xea; x6e; x0a; xea;
  x6f; x0a; xea; x70; x0a; xea; x71; x0a
].
(* tests/test_data/whatwg/shiftjis_whatwg_test_decode_in.txt, entries 20992..21247 *)
Definition shiftjis_decode_in_82 : list byte := [
  xea; x72; x0a; xea; x73; x0a; xea; x74;
  x0a; xea; x75; x0a; xea; x76; x0a; xea;
  x77; x0a; xea; x78; x0a; xea; x79; x0a;
  xea; x7a; x0a; xea; x7b; x0a; xea; x7c;
  x0a; xea; x7d; x0a; xea; x7e; x0a; xea;
  x80; x0a; xea; x81; x0a; xea; x82; x0a;
  xea; x83; x0a; xea; x84; x0a; xea; x85;
  x0a; xea; x86; x0a; xea; x87; x0a; xea;
  x88; x0a; xea; x89; x0a; xea; x8a; x0a;
  xea; x8b; x0a; xea; x8c; x0a; xea; x8d;
  x0a; xea; x8e; x0a; xea; x8f; x0a; xea;
  x90; x0a; xea; x91; x0a; xea; x92; x0a;
  xea; x93; x0a; xea; x94; x0a; xea; x95;
  x0a; xea; x96; x0a; xea; x97; x0a; xea;
  x98; x0a; xea; x99; x0a; xea; x9a; x0a;
  xea; x9b; x0a; xea; x9c; x0a; xea; x9d;
  x0a; xea; x9e; x0a; xea; x9f; x0a; xea;
  xa0; x0a; xea; xa1; x0a; xea; xa2; x0a;
  xea; xa3; x0a; xea; xa4; x0a; xed; x40;
  x0a; xed; x41; x0a; xed; x42; x0a; xed;
  x43; x0a; xed; x44; x0a; xed; x45; x0a;
  xed; x46; x0a; xed; x47; x0a; xed; x48;
  x0a; xed; x49; x0a; xed; x4a; x0a; xed;
  x4b; x0a; xed; x4c; x0a; xed; x4d; x0a;
  xed; x4e; x0a; xed; x4f; x0a; xed; x50;
  x0a; xed; x51; x0a; xed; x52; x0a; xed;
  x53; x0a; xed; x54; x0a; xed; x55; x0a;
  xed; x56; x0a; xed; x57; x0a; xed; x58;
  x0a; xed; x59; x0a; xed; x5a; x0a; xed;
  x5b; x0a; xed; x5c; x0a; xed; x5d; x0a;
  xed; x5e; x0a; xed; x5f; x0a; xed; x60;
  x0a; xed; x61; x0a; xed; x62; x0a; xed
].
(* tests/test_data/whatwg/shiftjis_whatwg_test_decode_in.txt, entries 21248..21503 *)
Definition shiftjis_decode_in_83 : list byte := [
  x63; x0a; xed; x64; x0a; xed; x65; x0a;
  xed; x66; x0a; xed; x67; x0a; xed; x68;
  x0a; xed; x69; x0a; xed; x6a; x0a; xed;
  x6b; x0a; xed; x6c; x0a; xed; x6d; x0a;
  xed; x6e; x0a; xed; x6f; x0a; xed; x70;
  x0a; xed; x71; x0a; xed; x72; x0a; xed;
  x73; x0a; xed; x74; x0a; xed; x75; x0a;
  xed; x76; x0a; xed; x77; x0a; xed; x78;
  x0a; xed; x79; x0a; xed; x7a; x0a; xed;
  x7b; x0a; xed; x7c; x0a; xed; x7d; x0a;
  xed; x7e; x0a; xed; x80; x0a; xed; x81;
  x0a; xed; x82; x0a; xed; x83; x0a; xed;
  x84; x0a; xed; x85; x0a; xed; x86; x0a;
  xed; x87; x0a; xed; x88; x0a; xed; x89;
  x0a; xed; x8a; x0a; xed; x8b; x0a; xed;
  x8c; x0a; xed; x8d; x0a; xed; x8e; x0a;
  xed; x8f; x0a; xed; x90; x0a; xed; x91;
  x0a; xed; x92; x0a; xed; x93; x0a; xed;
  x94; x0a; xed; x95; x0a; xed; x96; x0a;
  xed; x97; x0a; xed; x98; x0a; xed; x99;
  x0a; xed; x9a; x0a; xed; x9b; x0a; xed;
  x9c; x0a; xed; x9d; x0a; xed; x9e; x0a;
  xed; x9f; x0a; xed; xa0; x0a; xed; xa1;
  x0a; xed; xa2; x0a; xed; xa3; x0a; xed;
  xa4; x0a; xed; xa5; x0a; xed; xa6; x0a;
  xed; xa7; x0a; xed; xa8; x0a; xed; xa9;
  x0a; xed; xaa; x0a; xed; xab; x0a; xed;
  xac; x0a; xed; xad; x0a; xed; xae; x0a;
  xed; xaf; x0a; xed; xb0; x0a; xed; xb1;
  x0a; xed; xb2; x0a; xed; xb3; x0a; xed;
  xb4; x0a; xed; xb5; x0a; xed; xb6; x0a;
  xed; xb7; x0a; xed; xb8; x0a; xed; xb9
].
(* tests/test_data/whatwg/shiftjis_whatwg_test_decode_in.txt, entries 21504..21759 *)
Definition shiftjis_decode_in_84 : list byte := [
  x0a; xed; xba; x0a; xed; xbb; x0a; xed;
  xbc; x0a; xed; xbd; x0a; xed; xbe; x0a;
  xed; xbf; x0a; xed; xc0; x0a; xed; xc1;
  x0a; xed; xc2; x0a; xed; xc3; x0a; xed;
  xc4; x0a; xed; xc5; x0a; xed; xc6; x0a;
  xed; xc7; x0a; xed; xc8; x0a; xed; xc9;
  x0a; xed; xca; x0a; xed; xcb; x0a; xed;
  xcc; x0a; xed; xcd; x0a; xed; xce; x0a;
  xed; xcf; x0a; xed; xd0; x0a; xed; xd1;
  x0a; xed; xd2; x0a; xed; xd3; x0a; xed;
  xd4; x0a; xed; xd5; x0a; xed; xd6; x0a;
  xed; xd7; x0a; xed; xd8; x0a; xed; xd9;
  x0a; xed; xda; x0a; xed; xdb; x0a; xed;
  xdc; x0a; xed; xdd; x0a; xed; xde; x0a;
  xed; xdf; x0a; xed; xe0; x0a; xed; xe1;
  x0a; xed; xe2; x0a; xed; xe3; x0a; xed;
  xe4; x0a; xed; xe5; x0a; xed; xe6; x0a;
  xed; xe7; x0a; xed; xe8; x0a; xed; xe9;
  x0a; xed; xea; x0a; xed; xeb; x0a; xed;
  xec; x0a; xed; xed; x0a; xed; xee; x0a;
  xed; xef; x0a; xed; xf0; x0a; xed; xf1;
  x0a; xed; xf2; x0a; xed; xf3; x0a; xed;
  xf4; x0a; xed; xf5; x0a; xed; xf6; x0a;
  xed; xf7; x0a; xed; xf8; x0a; xed; xf9;
  x0a; xed; xfa; x0a; xed; xfb; x0a; xed;
  xfc; x0a; xee; x40; x0a; xee; x41; x0a;
  xee; x42; x0a; xee; x43; x0a; xee; x44;
  x0a; xee; x45; x0a; xee; x46; x0a; xee;
  x47; x0a; xee; x48; x0a; xee; x49; x0a;
  xee; x4a; x0a; xee; x4b; x0a; xee; x4c;
  x0a; xee; x4d; x0a; xee; x4e; x0a; xee;
  x4f; x0a; xee; x50; x0a; xee; x51; x0a
].
(* tests/test_data/whatwg/shiftjis_whatwg_test_decode_in.txt, entries 21760..22015 *)
Definition shiftjis_decode_in_85 : list byte := [
  xee; x52; x0a; xee; x53; x0a; xee; x54;
  x0a; xee; x55; x0a; xee; x56; x0a; xee;
  x57; x0a; xee; x58; x0a; xee; x59; x0a;
  xee; x5a; x0a; xee; x5b; x0a; xee; x5c;
  x0a; xee; x5d; x0a; xee; x5e; x0a; xee;
  x5f; x0a; xee; x60; x0a; xee; x61; x0a;
  xee; x62; x0a; xee; x63; x0a; xee; x64;
  x0a; xee; x65; x0a; xee; x66; x0a; xee;
  x67; x0a; xee; x68; x0a; xee; x69; x0a;
  xee; x6a; x0a; xee; x6b; x0a; xee; x6c;
  x0a; xee; x6d; x0a; xee; x6e; x0a; xee;
  x6f; x0a; xee; x70; x0a; xee; x71; x0a;
  xee; x72; x0a; xee; x73; x0a; xee; x74;
  x0a; xee; x75; x0a; xee; x76; x0a; xee;
  x77; x0a; xee; x78; x0a; xee; x79; x0a;
  xee; x7a; x0a; xee; x7b; x0a; xee; x7c;
  x0a; xee; x7d; x0a; xee; x7e; x0a; xee;
  x80; x0a; xee; x81; x0a; xee; x82; x0a;
  xee; x83; x0a; xee; x84; x0a; xee; x85;
  x0a; xee; x86; x0a; xee; x87; x0a; xee;
  x88; x0a; xee; x89; x0a; xee; x8a; x0a;
  xee; x8b; x0a; xee; x8c; x0a; xee; x8d;
  x0a; xee; x8e; x0a; xee; x8f; x0a; xee;
  x90; x0a; xee; x91; x0a; xee; x92; x0a;
  xee; x93; x0a; xee; x94; x0a; xee; x95;
  x0a; xee; x96; x0a; xee; x97; x0a; xee;
  x98; x0a; xee; x99; x0a; xee; x9a; x0a;
  xee; x9b; x0a; xee; x9c; x0a; xee; x9d;
  x0a; xee; x9e; x0a; xee; x9f; x0a; xee;
  xa0; x0a; xee; xa1; x0a; xee; xa2; x0a;
  xee; xa3; x0a; xee; xa4; x0a; xee; xa5;
  x0a; xee; xa6; x0a; xee; xa7; x0a; xee
].
(* tests/test_data/whatwg/shiftjis_whatwg_test_decode_in.txt, entries 22016..22271 *)
Definition shiftjis_decode_in_86 : list byte := [
  xa8; x0a; xee; xa9; x0a; xee; xaa; x0a;
  xee; xab; x0a; xee; xac; x0a; xee; xad;
  x0a; xee; xae; x0a; xee; xaf; x0a; xee;
  xb0; x0a; xee; xb1; x0a; xee; xb2; x0a;
  xee; xb3; x0a; xee; xb4; x0a; xee; xb5;
  x0a; xee; xb6; x0a; xee; xb7; x0a; xee;
  xb8; x0a; xee; xb9; x0a; xee; xba; x0a;
  xee; xbb; x0a; xee; xbc; x0a; xee; xbd;
  x0a; xee; xbe; x0a; xee; xbf; x0a; xee;
  xc0; x0a; xee; xc1; x0a; xee; xc2; x0a;
  xee; xc3; x0a; xee; xc4; x0a; xee; xc5;
  x0a; xee; xc6; x0a; xee; xc7; x0a; xee;
  xc8; x0a; xee; xc9; x0a; xee; xca; x0a;
  xee; xcb; x0a; xee; xcc; x0a; xee; xcd;
  x0a; xee; xce; x0a; xee; xcf; x0a; xee;
  xd0; x0a; xee; xd1; x0a; xee; xd2; x0a;
  xee; xd3; x0a; xee; xd4; x0a; xee; xd5;
  x0a; xee; xd6; x0a; xee; xd7; x0a; xee;
  xd8; x0a; xee; xd9; x0a; xee; xda; x0a;
  xee; xdb; x0a; xee; xdc; x0a; xee; xdd;
  x0a; xee; xde; x0a; xee; xdf; x0a; xee;
  xe0; x0a; xee; xe1; x0a; xee; xe2; x0a;
  xee; xe3; x0a; xee; xe4; x0a; xee; xe5;
  x0a; xee; xe6; x0a; xee; xe7; x0a; xee;
  xe8; x0a; xee; xe9; x0a; xee; xea; x0a;
  xee; xeb; x0a; xee; xec; x0a; xee; xef;
  x0a; xee; xf0; x0a; xee; xf1; x0a; xee;
  xf2; x0a; xee; xf3; x0a; xee; xf4; x0a;
  xee; xf5; x0a; xee; xf6; x0a; xee; xf7;
  x0a; xee; xf8; x0a; xee; xf9; x0a; xee;
  xfa; x0a; xee; xfb; x0a; xee; xfc; x0a;
  xfa; x40; x0a; xfa; x41; x0a; xfa; x42
].
(* tests/test_data/whatwg/shiftjis_whatwg_test_decode_in.txt, entries 22272..22527 *)
Definition shiftjis_decode_in_87 : list byte := [
  x0a; xfa; x43; x0a; xfa; x44; x0a; xfa;
  x45; x0a; xfa; x46; x0a; xfa; x47; x0a;
  xfa; x48; x0a; xfa; x49; x0a; xfa; x4a;
  x0a; xfa; x4b; x0a; xfa; x4c; x0a; xfa;
  x4d; x0a; xfa; x4e; x0a; xfa; x4f; x0a;
  xfa; x50; x0a; xfa; x51; x0a; xfa; x52;
  x0a; xfa; x53; x0a; xfa; x54; x0a; xfa;
  x55; x0a; xfa; x56; x0a; xfa; x57; x0a;
  xfa; x58; x0a; xfa; x59; x0a; xfa; x5a;
  x0a; xfa; x5b; x0a; xfa; x5c; x0a; xfa;
  x5d; x0a; xfa; x5e; x0a; xfa; x5f; x0a;
  xfa; x60; x0a; xfa; x61; x0a; xfa; x62;
  x0a; xfa; x63; x0a; xfa; x64; x0a; xfa;
  x65; x0a; xfa; x66; x0a; xfa; x67; x0a;
  xfa; x68; x0a; xfa; x69; x0a; xfa; x6a;
  x0a; xfa; x6b; x0a; xfa; x6c; x0a; xfa;
  x6d; x0a; xfa; x6e; x0a; xfa; x6f; x0a;
  xfa; x70; x0a; xfa; x71; x0a; xfa; x72;
  x0a; xfa; x73; x0a; xfa; x74; x0a; xfa;
  x75; x0a; xfa; x76; x0a; xfa; x77; x0a;
  xfa; x78; x0a; xfa; x79; x0a; xfa; x7a;
  x0a; xfa; x7b; x0a; xfa; x7c; x0a; xfa;
  x7d; x0a; xfa; x7e; x0a; xfa; x80; x0a;
  xfa; x81; x0a; xfa; x82; x0a; xfa; x83;
  x0a; xfa; x84; x0a; xfa; x85; x0a; xfa;
  x86; x0a; xfa; x87; x0a; xfa; x88; x0a;
  xfa; x89; x0a; xfa; x8a; x0a; xfa; x8b;
  x0a; xfa; x8c; x0a; xfa; x8d; x0a; xfa;
  x8e; x0a; xfa; x8f; x0a; xfa; x90; x0a;
  xfa; x91; x0a; xfa; x92; x0a; xfa; x93;
  x0a; xfa; x94; x0a; xfa; x95; x0a; xfa;
  x96; x0a; xfa; x97; x0a; xfa; x98; x0a
].
(* tests/test_data/whatwg/shiftjis_whatwg_test_decode_in.txt, entries 22528..22783 *)
Definition shiftjis_decode_in_88 : list byte := [
  xfa; x99; x0a; xfa; x9a; x0a; xfa; x9b;
  x0a; xfa; x9c; x0a; xfa; x9d; x0a; xfa;
  x9e; x0a; xfa; x9f; x0a; xfa; xa0; x0a;
  xfa; xa1; x0a; xfa; xa2; x0a; xfa; xa3;
  x0a; xfa; xa4; x0a; xfa; xa5; x0a; xfa;
  xa6; x0a; xfa; xa7; x0a; xfa; xa8; x0a;
  xfa; xa9; x0a; xfa; xaa; x0a; xfa; xab;
  x0a; xfa; xac; x0a; xfa; xad; x0a; xfa;
  xae; x0a; xfa; xaf; x0a; xfa; xb0; x0a;
  xfa; xb1; x0a; xfa; xb2; x0a; xfa; xb3;
  x0a; xfa; xb4; x0a; xfa; xb5; x0a; xfa;
  xb6; x0a; xfa; xb7; x0a; xfa; xb8; x0a;
  xfa; xb9; x0a; xfa; xba; x0a; xfa; xbb;
  x0a; xfa; xbc; x0a; xfa; xbd; x0a; xfa;
  xbe; x0a; xfa; xbf; x0a; xfa; xc0; x0a;
  xfa; xc1; x0a; xfa; xc2; x0a; xfa; xc3;
  x0a; xfa; xc4; x0a; xfa; xc5; x0a; xfa;
  xc6; x0a; xfa; xc7; x0a; xfa; xc8; x0a;
  xfa; xc9; x0a; xfa; xca; x0a; xfa; xcb;
  x0a; xfa; xcc; x0a; xfa; xcd; x0a; xfa;
  xce; x0a; xfa; xcf; x0a; xfa; xd0; x0a;
  xfa; xd1; x0a; xfa; xd2; x0a; xfa; xd3;
  x0a; xfa; xd4; x0a; xfa; xd5; x0a; xfa;
  xd6; x0a; xfa; xd7; x0a; xfa; xd8; x0a;
  xfa; xd9; x0a; xfa; xda; x0a; xfa; xdb;
  x0a; xfa; xdc; x0a; xfa; xdd; x0a; xfa;
  xde; x0a; xfa; xdf; x0a; xfa; xe0; x0a;
  xfa; xe1; x0a; xfa; xe2; x0a; xfa; xe3;
  x0a; xfa; xe4; x0a; xfa; xe5; x0a; xfa;
  xe6; x0a; xfa; xe7; x0a; xfa; xe8; x0a;
  xfa; xe9; x0a; xfa; xea; x0a; xfa; xeb;
  x0a; xfa; xec; x0a; xfa; xed; x0a; xfa
].
(* tests/test_data/whatwg/shiftjis_whatwg_test_decode_in.txt, entries 22784..23039 *)
Definition shiftjis_decode_in_89 : list byte := [
  xee; x0a; xfa; xef; x0a; xfa; xf0; x0a;
  xfa; xf1; x0a; xfa; xf2; x0a; xfa; xf3;
  x0a; xfa; xf4; x0a; xfa; xf5; x0a; xfa;
  xf6; x0a; xfa; xf7; x0a; xfa; xf8; x0a;
  xfa; xf9; x0a; xfa; xfa; x0a; xfa; xfb;
  x0a; xfa; xfc; x0a; xfb; x40; x0a; xfb;
  x41; x0a; xfb; x42; x0a; xfb; x43; x0a;
  xfb; x44; x0a; xfb; x45; x0a; xfb; x46;
  x0a; xfb; x47; x0a; xfb; x48; x0a; xfb;
  x49; x0a; xfb; x4a; x0a; xfb; x4b; x0a;
  xfb; x4c; x0a; xfb; x4d; x0a; xfb; x4e;
  x0a; xfb; x4f; x0a; xfb; x50; x0a; xfb;
  x51; x0a; xfb; x52; x0a; xfb; x53; x0a;
  xfb; x54; x0a; xfb; x55; x0a; xfb; x56;
  x0a; xfb; x57; x0a; xfb; x58; x0a; xfb;
  x59; x0a; xfb; x5a; x0a; xfb; x5b; x0a;
  xfb; x5c; x0a; xfb; x5d; x0a; xfb; x5e;
  x0a; xfb; x5f; x0a; xfb; x60; x0a; xfb;
  x61; x0a; xfb; x62; x0a; xfb; x63; x0a;
  xfb; x64; x0a; xfb; x65; x0a; xfb; x66;
  x0a; xfb; x67; x0a; xfb; x68; x0a; xfb;
  x69; x0a; xfb; x6a; x0a; xfb; x6b; x0a;
  xfb; x6c; x0a; xfb; x6d; x0a; xfb; x6e;
  x0a; xfb; x6f; x0a; xfb; x70; x0a; xfb;
  x71; x0a; xfb; x72; x0a; xfb; x73; x0a;
  xfb; x74; x0a; xfb; x75; x0a; xfb; x76;
  x0a; xfb; x77; x0a; xfb; x78; x0a; xfb;
  x79; x0a; xfb; x7a; x0a; xfb; x7b; x0a;
  xfb; x7c; x0a; xfb; x7d; x0a; xfb; x7e;
  x0a; xfb; x80; x0a; xfb; x81; x0a; xfb;
  x82; x0a; xfb; x83; x0a; xfb; x84; x0a;
  xfb; x85; x0a; xfb; x86; x0a; xfb; x87
].
(* tests/test_data/whatwg/shiftjis_whatwg_test_decode_in.txt, entries 23040..23295 *)
Definition shiftjis_decode_in_90 : list byte := [
  x0a; xfb; x88; x0a; xfb; x89; x0a; xfb;
  x8a; x0a; xfb; x8b; x0a; xfb; x8c; x0a;
  xfb; x8d; x0a; xfb; x8e; x0a; xfb; x8f;
  x0a; xfb; x90; x0a; xfb; x91; x0a; xfb;
  x92; x0a; xfb; x93; x0a; xfb; x94; x0a;
  xfb; x95; x0a; xfb; x96; x0a; xfb; x97;
  x0a; xfb; x98; x0a; xfb; x99; x0a; xfb;
  x9a; x0a; xfb; x9b; x0a; xfb; x9c; x0a;
  xfb; x9d; x0a; xfb; x9e; x0a; xfb; x9f;
  x0a; xfb; xa0; x0a; xfb; xa1; x0a; xfb;
  xa2; x0a; xfb; xa3; x0a; xfb; xa4; x0a;
  xfb; xa5; x0a; xfb; xa6; x0a; xfb; xa7;
  x0a; xfb; xa8; x0a; xfb; xa9; x0a; xfb;
  xaa; x0a; xfb; xab; x0a; xfb; xac; x0a;
  xfb; xad; x0a; xfb; xae; x0a; xfb; xaf;
  x0a; xfb; xb0; x0a; xfb; xb1; x0a; xfb;
  xb2; x0a; xfb; xb3; x0a; xfb; xb4; x0a;
  xfb; xb5; x0a; xfb; xb6; x0a; xfb; xb7;
  x0a; xfb; xb8; x0a; xfb; xb9; x0a; xfb;
  xba; x0a; xfb; xbb; x0a; xfb; xbc; x0a;
  xfb; xbd; x0a; xfb; xbe; x0a; xfb; xbf;
  x0a; xfb; xc0; x0a; xfb; xc1; x0a; xfb;
  xc2; x0a; xfb; xc3; x0a; xfb; xc4; x0a;
  xfb; xc5; x0a; xfb; xc6; x0a; xfb; xc7;
  x0a; xfb; xc8; x0a; xfb; xc9; x0a; xfb;
  xca; x0a; xfb; xcb; x0a; xfb; xcc; x0a;
  xfb; xcd; x0a; xfb; xce; x0a; xfb; xcf;
  x0a; xfb; xd0; x0a; xfb; xd1; x0a; xfb;
  xd2; x0a; xfb; xd3; x0a; xfb; xd4; x0a;
  xfb; xd5; x0a; xfb; xd6; x0a; xfb; xd7;
  x0a; xfb; xd8; x0a; xfb; xd9; x0a; xfb;
  xda; x0a; xfb; xdb; x0a; xfb; xdc; x0a
].
(* tests/test_data/whatwg/shiftjis_whatwg_test_decode_in.txt, entries 23296..23427 *)
Definition shiftjis_decode_in_91 : list byte := [
  xfb; xdd; x0a; xfb; xde; x0a; xfb; xdf;
  x0a; xfb; xe0; x0a; xfb; xe1; x0a; xfb;
  xe2; x0a; xfb; xe3; x0a; xfb; xe4; x0a;
  xfb; xe5; x0a; xfb; xe6; x0a; xfb; xe7;
  x0a; xfb; xe8; x0a; xfb; xe9; x0a; xfb;
  xea; x0a; xfb; xeb; x0a; xfb; xec; x0a;
  xfb; xed; x0a; xfb; xee; x0a; xfb; xef;
  x0a; xfb; xf0; x0a; xfb; xf1; x0a; xfb;
  xf2; x0a; xfb; xf3; x0a; xfb; xf4; x0a;
  xfb; xf5; x0a; xfb; xf6; x0a; xfb; xf7;
  x0a; xfb; xf8; x0a; xfb; xf9; x0a; xfb;
  xfa; x0a; xfb; xfb; x0a; xfb; xfc; x0a;
  xfc; x40; x0a; xfc; x41; x0a; xfc; x42;
  x0a; xfc; x43; x0a; xfc; x44; x0a; xfc;
  x45; x0a; xfc; x46; x0a; xfc; x47; x0a;
  xfc; x48; x0a; xfc; x49; x0a; xfc; x4a;
  x0a; xfc; x4b; x0a
].
(* tests/test_data/whatwg/shiftjis_whatwg_test_decode_in.txt: the whole table *)
Definition shiftjis_decode_in : list byte :=
  shiftjis_decode_in_0 ++
  shiftjis_decode_in_1 ++
  shiftjis_decode_in_2 ++
  shiftjis_decode_in_3 ++
  shiftjis_decode_in_4 ++
  shiftjis_decode_in_5 ++
  shiftjis_decode_in_6 ++
  shiftjis_decode_in_7 ++
  shiftjis_decode_in_8 ++
  shiftjis_decode_in_9 ++
  shiftjis_decode_in_10 ++
  shiftjis_decode_in_11 ++
  shiftjis_decode_in_12 ++
  shiftjis_decode_in_13 ++
  shiftjis_decode_in_14 ++
  shiftjis_decode_in_15 ++
  shiftjis_decode_in_16 ++
  shiftjis_decode_in_17 ++
  shiftjis_decode_in_18 ++
  shiftjis_decode_in_19 ++
  shiftjis_decode_in_20 ++
  shiftjis_decode_in_21 ++
  shiftjis_decode_in_22 ++
  shiftjis_decode_in_23 ++
  shiftjis_decode_in_24 ++
  shiftjis_decode_in_25 ++
  shiftjis_decode_in_26 ++
  shiftjis_decode_in_27 ++
  shiftjis_decode_in_28 ++
  shiftjis_decode_in_29 ++
  shiftjis_decode_in_30 ++
  shiftjis_decode_in_31 ++
  shiftjis_decode_in_32 ++
  shiftjis_decode_in_33 ++
  shiftjis_decode_in_34 ++
  shiftjis_decode_in_35 ++
  shiftjis_decode_in_36 ++
  shiftjis_decode_in_37 ++
  shiftjis_decode_in_38 ++
  shiftjis_decode_in_39 ++
  shiftjis_decode_in_40 ++
  shiftjis_decode_in_41 ++
  shiftjis_decode_in_42 ++
  shiftjis_decode_in_43 ++
  shiftjis_decode_in_44 ++
  shiftjis_decode_in_45 ++
  shiftjis_decode_in_46 ++
  shiftjis_decode_in_47 ++
  shiftjis_decode_in_48 ++
  shiftjis_decode_in_49 ++
  shiftjis_decode_in_50 ++
  shiftjis_decode_in_51 ++
  shiftjis_decode_in_52 ++
  shiftjis_decode_in_53 ++
  shiftjis_decode_in_54 ++
  shiftjis_decode_in_55 ++
  shiftjis_decode_in_56 ++
  shiftjis_decode_in_57 ++
  shiftjis_decode_in_58 ++
  shiftjis_decode_in_59 ++
  shiftjis_decode_in_60 ++
  shiftjis_decode_in_61 ++
  shiftjis_decode_in_62 ++
  shiftjis_decode_in_63 ++
  shiftjis_decode_in_64 ++
  shiftjis_decode_in_65 ++
  shiftjis_decode_in_66 ++
  shiftjis_decode_in_67 ++
  shiftjis_decode_in_68 ++
  shiftjis_decode_in_69 ++
  shiftjis_decode_in_70 ++
  shiftjis_decode_in_71 ++
  shiftjis_decode_in_72 ++
  shiftjis_decode_in_73 ++
  shiftjis_decode_in_74 ++
  shiftjis_decode_in_75 ++
  shiftjis_decode_in_76 ++
  shiftjis_decode_in_77 ++
  shiftjis_decode_in_78 ++
  shiftjis_decode_in_79 ++
  shiftjis_decode_in_80 ++
  shiftjis_decode_in_81 ++
  shiftjis_decode_in_82 ++
  shiftjis_decode_in_83 ++
  shiftjis_decode_in_84 ++
  shiftjis_decode_in_85 ++
  shiftjis_decode_in_86 ++
  shiftjis_decode_in_87 ++
  shiftjis_decode_in_88 ++
  shiftjis_decode_in_89 ++
  shiftjis_decode_in_90 ++
  shiftjis_decode_in_91.

(* tests/test_data/whatwg/shiftjis_whatwg_test_decode_out.txt, entries 0..255 *)
Definition shiftjis_decode_out_0 : list byte := [
  x01; x0a; x02; x0a; x03; x0a; x04; x0a;
  x05; x0a; x06; x0a; x07; x0a; x08; x0a;
  x09; x0a; x0a; x0a; x0b; x0a; x0c; x0a;
  x0d; x0a; x0e; x0a; x0f; x0a; x10; x0a;
  x11; x0a; x12; x0a; x13; x0a; x14; x0a;
  x15; x0a; x16; x0a; x17; x0a; x18; x0a;
  x19; x0a; x1a; x0a; x1b; x0a; x1c; x0a;
  x1d; x0a; x1e; x0a; x1f; x0a; x20; x0a;
  x21; x0a; x22; x0a; x23; x0a; x24; x0a;
  x25; x0a; x26; x0a; x27; x0a; x28; x0a;
  x29; x0a; x2a; x0a; x2b; x0a; x2c; x0a;
  x2d; x0a; x2e; x0a; x2f; x0a; x30; x0a;
  x31; x0a; x32; x0a; x33; x0a; x34; x0a;
  x35; x0a; x36; x0a; x37; x0a; x38; x0a;
  x39; x0a; x3a; x0a; x3b; x0a; x3c; x0a;
  x3d; x0a; x3e; x0a; x3f; x0a; x40; x0a;
  x41; x0a; x42; x0a; x43; x0a; x44; x0a;
  x45; x0a; x46; x0a; x47; x0a; x48; x0a;
  x49; x0a; x4a; x0a; x4b; x0a; x4c; x0a;
  x4d; x0a; x4e; x0a; x4f; x0a; x50; x0a;
  x51; x0a; x52; x0a; x53; x0a; x54; x0a;
  x55; x0a; x56; x0a; x57; x0a; x58; x0a;
  x59; x0a; x5a; x0a; x5b; x0a; x5c; x0a;
  x5d; x0a; x5e; x0a; x5f; x0a; x60; x0a;
  x61; x0a; x62; x0a; x63; x0a; x64; x0a;
  x65; x0a; x66; x0a; x67; x0a; x68; x0a;
  x69; x0a; x6a; x0a; x6b; x0a; x6c; x0a;
  x6d; x0a; x6e; x0a; x6f; x0a; x70; x0a;
  x71; x0a; x72; x0a; x73; x0a; x74; x0a;
  x75; x0a; x76; x0a; x77; x0a; x78; x0a;
  x79; x0a; x7a; x0a; x7b; x0a; x7c; x0a;
  x7d; x0a; x7e; x0a; x7f; x0a; xc2; x80
].
(* tests/test_data/whatwg/shiftjis_whatwg_test_decode_out.txt, entries 256..511 *)
Definition shiftjis_decode_out_1 : list byte := [
  x0a; xe3; x80; x80; x0a; xe3; x80; x81;
  x0a; xe3; x80; x82; x0a; xef; xbc; x8c;
  x0a; xef; xbc; x8e; x0a; xe3; x83; xbb;
  x0a; xef; xbc; x9a; x0a; xef; xbc; x9b;
  x0a; xef; xbc; x9f; x0a; xef; xbc; x81;
  x0a; xe3; x82; x9b; x0a; xe3; x82; x9c;
  x0a; xc2; xb4; x0a; xef; xbd; x80; x0a;
  xc2; xa8; x0a; xef; xbc; xbe; x0a; xef;
  xbf; xa3; x0a; xef; xbc; xbf; x0a; xe3;
  x83; xbd; x0a; xe3; x83; xbe; x0a; xe3;
  x82; x9d; x0a; xe3; x82; x9e; x0a; xe3;
  x80; x83; x0a; xe4; xbb; x9d; x0a; xe3;
  x80; x85; x0a; xe3; x80; x86; x0a; xe3;
  x80; x87; x0a; xe3; x83; xbc; x0a; xe2;
  x80; x95; x0a; xe2; x80; x90; x0a; xef;
  xbc; x8f; x0a; xef; xbc; xbc; x0a; xef;
  xbd; x9e; x0a; xe2; x88; xa5; x0a; xef;
  xbd; x9c; x0a; xe2; x80; xa6; x0a; xe2;
  x80; xa5; x0a; xe2; x80; x98; x0a; xe2;
  x80; x99; x0a; xe2; x80; x9c; x0a; xe2;
  x80; x9d; x0a; xef; xbc; x88; x0a; xef;
  xbc; x89; x0a; xe3; x80; x94; x0a; xe3;
  x80; x95; x0a; xef; xbc; xbb; x0a; xef;
  xbc; xbd; x0a; xef; xbd; x9b; x0a; xef;
  xbd; x9d; x0a; xe3; x80; x88; x0a; xe3;
  x80; x89; x0a; xe3; x80; x8a; x0a; xe3;
  x80; x8b; x0a; xe3; x80; x8c; x0a; xe3;
  x80; x8d; x0a; xe3; x80; x8e; x0a; xe3;
  x80; x8f; x0a; xe3; x80; x90; x0a; xe3;
  x80; x91; x0a; xef; xbc; x8b; x0a; xef;
  xbc; x8d; x0a; xc2; xb1; x0a; xc3; x97;
  x0a; xc3; xb7; x0a; xef; xbc; x9d; x0a
].
(* tests/test_data/whatwg/shiftjis_whatwg_test_decode_out.txt, entries 512..767 *)
Definition shiftjis_decode_out_2 : list byte := [
  xe2; x89; xa0; x0a; xef; xbc; x9c; x0a;
  xef; xbc; x9e; x0a; xe2; x89; xa6; x0a;
  xe2; x89; xa7; x0a; xe2; x88; x9e; x0a;
  xe2; x88; xb4; x0a; xe2; x99; x82; x0a;
  xe2; x99; x80; x0a; xc2; xb0; x0a; xe2;
  x80; xb2; x0a; xe2; x80; xb3; x0a; xe2;
  x84; x83; x0a; xef; xbf; xa5; x0a; xef;
  xbc; x84; x0a; xef; xbf; xa0; x0a; xef;
  xbf; xa1; x0a; xef; xbc; x85; x0a; xef;
  xbc; x83; x0a; xef; xbc; x86; x0a; xef;
  xbc; x8a; x0a; xef; xbc; xa0; x0a; xc2;
  xa7; x0a; xe2; x98; x86; x0a; xe2; x98;
  x85; x0a; xe2; x97; x8b; x0a; xe2; x97;
  x8f; x0a; xe2; x97; x8e; x0a; xe2; x97;
  x87; x0a; xe2; x97; x86; x0a; xe2; x96;
  xa1; x0a; xe2; x96; xa0; x0a; xe2; x96;
  xb3; x0a; xe2; x96; xb2; x0a; xe2; x96;
  xbd; x0a; xe2; x96; xbc; x0a; xe2; x80;
  xbb; x0a; xe3; x80; x92; x0a; xe2; x86;
  x92; x0a; xe2; x86; x90; x0a; xe2; x86;
  x91; x0a; xe2; x86; x93; x0a; xe3; x80;
  x93; x0a; xe2; x88; x88; x0a; xe2; x88;
  x8b; x0a; xe2; x8a; x86; x0a; xe2; x8a;
  x87; x0a; xe2; x8a; x82; x0a; xe2; x8a;
  x83; x0a; xe2; x88; xaa; x0a; xe2; x88;
  xa9; x0a; xe2; x88; xa7; x0a; xe2; x88;
  xa8; x0a; xef; xbf; xa2; x0a; xe2; x87;
  x92; x0a; xe2; x87; x94; x0a; xe2; x88;
  x80; x0a; xe2; x88; x83; x0a; xe2; x88;
  xa0; x0a; xe2; x8a; xa5; x0a; xe2; x8c;
  x92; x0a; xe2; x88; x82; x0a; xe2; x88;
  x87; x0a; xe2; x89; xa1; x0a; xe2; x89
].
(* tests/test_data/whatwg/shiftjis_whatwg_test_decode_out.txt, entries 768..1023 *)
Definition shiftjis_decode_out_3 : list byte := [
  x92; x0a; xe2; x89; xaa; x0a; xe2; x89;
  xab; x0a; xe2; x88; x9a; x0a; xe2; x88;
  xbd; x0a; xe2; x88; x9d; x0a; xe2; x88;
  xb5; x0a; xe2; x88; xab; x0a; xe2; x88;
  xac; x0a; xe2; x84; xab; x0a; xe2; x80;
  xb0; x0a; xe2; x99; xaf; x0a; xe2; x99;
  xad; x0a; xe2; x99; xaa; x0a; xe2; x80;
  xa0; x0a; xe2; x80; xa1; x0a; xc2; xb6;
  x0a; xe2; x97; xaf; x0a; xef; xbc; x90;
  x0a; xef; xbc; x91; x0a; xef; xbc; x92;
  x0a; xef; xbc; x93; x0a; xef; xbc; x94;
  x0a; xef; xbc; x95; x0a; xef; xbc; x96;
  x0a; xef; xbc; x97; x0a; xef; xbc; x98;
  x0a; xef; xbc; x99; x0a; xef; xbc; xa1;
  x0a; xef; xbc; xa2; x0a; xef; xbc; xa3;
  x0a; xef; xbc; xa4; x0a; xef; xbc; xa5;
  x0a; xef; xbc; xa6; x0a; xef; xbc; xa7;
  x0a; xef; xbc; xa8; x0a; xef; xbc; xa9;
  x0a; xef; xbc; xaa; x0a; xef; xbc; xab;
  x0a; xef; xbc; xac; x0a; xef; xbc; xad;
  x0a; xef; xbc; xae; x0a; xef; xbc; xaf;
  x0a; xef; xbc; xb0; x0a; xef; xbc; xb1;
  x0a; xef; xbc; xb2; x0a; xef; xbc; xb3;
  x0a; xef; xbc; xb4; x0a; xef; xbc; xb5;
  x0a; xef; xbc; xb6; x0a; xef; xbc; xb7;
  x0a; xef; xbc; xb8; x0a; xef; xbc; xb9;
  x0a; xef; xbc; xba; x0a; xef; xbd; x81;
  x0a; xef; xbd; x82; x0a; xef; xbd; x83;
  x0a; xef; xbd; x84; x0a; xef; xbd; x85;
  x0a; xef; xbd; x86; x0a; xef; xbd; x87;
  x0a; xef; xbd; x88; x0a; xef; xbd; x89;
  x0a; xef; xbd; x8a; x0a; xef; xbd; x8b
].
(* tests/test_data/whatwg/shiftjis_whatwg_test_decode_out.txt, entries 1024..1279 *)
Definition shiftjis_decode_out_4 : list byte := [
  x0a; xef; xbd; x8c; x0a; xef; xbd; x8d;
  x0a; xef; xbd; x8e; x0a; xef; xbd; x8f;
  x0a; xef; xbd; x90; x0a; xef; xbd; x91;
  x0a; xef; xbd; x92; x0a; xef; xbd; x93;
  x0a; xef; xbd; x94; x0a; xef; xbd; x95;
  x0a; xef; xbd; x96; x0a; xef; xbd; x97;
  x0a; xef; xbd; x98; x0a; xef; xbd; x99;
  x0a; xef; xbd; x9a; x0a; xe3; x81; x81;
  x0a; xe3; x81; x82; x0a; xe3; x81; x83;
  x0a; xe3; x81; x84; x0a; xe3; x81; x85;
  x0a; xe3; x81; x86; x0a; xe3; x81; x87;
  x0a; xe3; x81; x88; x0a; xe3; x81; x89;
  x0a; xe3; x81; x8a; x0a; xe3; x81; x8b;
  x0a; xe3; x81; x8c; x0a; xe3; x81; x8d;
  x0a; xe3; x81; x8e; x0a; xe3; x81; x8f;
  x0a; xe3; x81; x90; x0a; xe3; x81; x91;
  x0a; xe3; x81; x92; x0a; xe3; x81; x93;
  x0a; xe3; x81; x94; x0a; xe3; x81; x95;
  x0a; xe3; x81; x96; x0a; xe3; x81; x97;
  x0a; xe3; x81; x98; x0a; xe3; x81; x99;
  x0a; xe3; x81; x9a; x0a; xe3; x81; x9b;
  x0a; xe3; x81; x9c; x0a; xe3; x81; x9d;
  x0a; xe3; x81; x9e; x0a; xe3; x81; x9f;
  x0a; xe3; x81; xa0; x0a; xe3; x81; xa1;
  x0a; xe3; x81; xa2; x0a; xe3; x81; xa3;
  x0a; xe3; x81; xa4; x0a; xe3; x81; xa5;
  x0a; xe3; x81; xa6; x0a; xe3; x81; xa7;
  x0a; xe3; x81; xa8; x0a; xe3; x81; xa9;
  x0a; xe3; x81; xaa; x0a; xe3; x81; xab;
  x0a; xe3; x81; xac; x0a; xe3; x81; xad;
  x0a; xe3; x81; xae; x0a; xe3; x81; xaf;
  x0a; xe3; x81; xb0; x0a; xe3; x81; xb1
].
(* tests/test_data/whatwg/shiftjis_whatwg_test_decode_out.txt, entries 1280..1535 *)
Definition shiftjis_decode_out_5 : list byte := [
  x0a; xe3; x81; xb2; x0a; xe3; x81; xb3;
  x0a; xe3; x81; xb4; x0a; xe3; x81; xb5;
  x0a; xe3; x81; xb6; x0a; xe3; x81; xb7;
  x0a; xe3; x81; xb8; x0a; xe3; x81; xb9;
  x0a; xe3; x81; xba; x0a; xe3; x81; xbb;
  x0a; xe3; x81; xbc; x0a; xe3; x81; xbd;
  x0a; xe3; x81; xbe; x0a; xe3; x81; xbf;
  x0a; xe3; x82; x80; x0a; xe3; x82; x81;
  x0a; xe3; x82; x82; x0a; xe3; x82; x83;
  x0a; xe3; x82; x84; x0a; xe3; x82; x85;
  x0a; xe3; x82; x86; x0a; xe3; x82; x87;
  x0a; xe3; x82; x88; x0a; xe3; x82; x89;
  x0a; xe3; x82; x8a; x0a; xe3; x82; x8b;
  x0a; xe3; x82; x8c; x0a; xe3; x82; x8d;
  x0a; xe3; x82; x8e; x0a; xe3; x82; x8f;
  x0a; xe3; x82; x90; x0a; xe3; x82; x91;
  x0a; xe3; x82; x92; x0a; xe3; x82; x93;
  x0a; xe3; x82; xa1; x0a; xe3; x82; xa2;
  x0a; xe3; x82; xa3; x0a; xe3; x82; xa4;
  x0a; xe3; x82; xa5; x0a; xe3; x82; xa6;
  x0a; xe3; x82; xa7; x0a; xe3; x82; xa8;
  x0a; xe3; x82; xa9; x0a; xe3; x82; xaa;
  x0a; xe3; x82; xab; x0a; xe3; x82; xac;
  x0a; xe3; x82; xad; x0a; xe3; x82; xae;
  x0a; xe3; x82; xaf; x0a; xe3; x82; xb0;
  x0a; xe3; x82; xb1; x0a; xe3; x82; xb2;
  x0a; xe3; x82; xb3; x0a; xe3; x82; xb4;
  x0a; xe3; x82; xb5; x0a; xe3; x82; xb6;
  x0a; xe3; x82; xb7; x0a; xe3; x82; xb8;
  x0a; xe3; x82; xb9; x0a; xe3; x82; xba;
  x0a; xe3; x82; xbb; x0a; xe3; x82; xbc;
  x0a; xe3; x82; xbd; x0a; xe3; x82; xbe
].
(* tests/test_data/whatwg/shiftjis_whatwg_test_decode_out.txt, entries 1536..1791 *)
Definition shiftjis_decode_out_6 : list byte := [
  x0a; xe3; x82; xbf; x0a; xe3; x83; x80;
  x0a; xe3; x83; x81; x0a; xe3; x83; x82;
  x0a; xe3; x83; x83; x0a; xe3; x83; x84;
  x0a; xe3; x83; x85; x0a; xe3; x83; x86;
  x0a; xe3; x83; x87; x0a; xe3; x83; x88;
  x0a; xe3; x83; x89; x0a; xe3; x83; x8a;
  x0a; xe3; x83; x8b; x0a; xe3; x83; x8c;
  x0a; xe3; x83; x8d; x0a; xe3; x83; x8e;
  x0a; xe3; x83; x8f; x0a; xe3; x83; x90;
  x0a; xe3; x83; x91; x0a; xe3; x83; x92;
  x0a; xe3; x83; x93; x0a; xe3; x83; x94;
  x0a; xe3; x83; x95; x0a; xe3; x83; x96;
  x0a; xe3; x83; x97; x0a; xe3; x83; x98;
  x0a; xe3; x83; x99; x0a; xe3; x83; x9a;
  x0a; xe3; x83; x9b; x0a; xe3; x83; x9c;
  x0a; xe3; x83; x9d; x0a; xe3; x83; x9e;
  x0a; xe3; x83; x9f; x0a; xe3; x83; xa0;
  x0a; xe3; x83; xa1; x0a; xe3; x83; xa2;
  x0a; xe3; x83; xa3; x0a; xe3; x83; xa4;
  x0a; xe3; x83; xa5; x0a; xe3; x83; xa6;
  x0a; xe3; x83; xa7; x0a; xe3; x83; xa8;
  x0a; xe3; x83; xa9; x0a; xe3; x83; xaa;
  x0a; xe3; x83; xab; x0a; xe3; x83; xac;
  x0a; xe3; x83; xad; x0a; xe3; x83; xae;
  x0a; xe3; x83; xaf; x0a; xe3; x83; xb0;
  x0a; xe3; x83; xb1; x0a; xe3; x83; xb2;
  x0a; xe3; x83; xb3; x0a; xe3; x83; xb4;
  x0a; xe3; x83; xb5; x0a; xe3; x83; xb6;
  x0a; xce; x91; x0a; xce; x92; x0a; xce;
  x93; x0a; xce; x94; x0a; xce; x95; x0a;
  xce; x96; x0a; xce; x97; x0a; xce; x98;
  x0a; xce; x99; x0a; xce; x9a; x0a; xce
].
(* tests/test_data/whatwg/shiftjis_whatwg_test_decode_out.txt, entries 1792..2047 *)
Definition shiftjis_decode_out_7 : list byte := [
  x9b; x0a; xce; x9c; x0a; xce; x9d; x0a;
  xce; x9e; x0a; xce; x9f; x0a; xce; xa0;
  x0a; xce; xa1; x0a; xce; xa3; x0a; xce;
  xa4; x0a; xce; xa5; x0a; xce; xa6; x0a;
  xce; xa7; x0a; xce; xa8; x0a; xce; xa9;
  x0a; xce; xb1; x0a; xce; xb2; x0a; xce;
  xb3; x0a; xce; xb4; x0a; xce; xb5; x0a;
  xce; xb6; x0a; xce; xb7; x0a; xce; xb8;
  x0a; xce; xb9; x0a; xce; xba; x0a; xce;
  xbb; x0a; xce; xbc; x0a; xce; xbd; x0a;
  xce; xbe; x0a; xce; xbf; x0a; xcf; x80;
  x0a; xcf; x81; x0a; xcf; x83; x0a; xcf;
  x84; x0a; xcf; x85; x0a; xcf; x86; x0a;
  xcf; x87; x0a; xcf; x88; x0a; xcf; x89;
  x0a; xd0; x90; x0a; xd0; x91; x0a; xd0;
  x92; x0a; xd0; x93; x0a; xd0; x94; x0a;
  xd0; x95; x0a; xd0; x81; x0a; xd0; x96;
  x0a; xd0; x97; x0a; xd0; x98; x0a; xd0;
  x99; x0a; xd0; x9a; x0a; xd0; x9b; x0a;
  xd0; x9c; x0a; xd0; x9d; x0a; xd0; x9e;
  x0a; xd0; x9f; x0a; xd0; xa0; x0a; xd0;
  xa1; x0a; xd0; xa2; x0a; xd0; xa3; x0a;
  xd0; xa4; x0a; xd0; xa5; x0a; xd0; xa6;
  x0a; xd0; xa7; x0a; xd0; xa8; x0a; xd0;
  xa9; x0a; xd0; xaa; x0a; xd0; xab; x0a;
  xd0; xac; x0a; xd0; xad; x0a; xd0; xae;
  x0a; xd0; xaf; x0a; xd0; xb0; x0a; xd0;
  xb1; x0a; xd0; xb2; x0a; xd0; xb3; x0a;
  xd0; xb4; x0a; xd0; xb5; x0a; xd1; x91;
  x0a; xd0; xb6; x0a; xd0; xb7; x0a; xd0;
  xb8; x0a; xd0; xb9; x0a; xd0; xba; x0a;
  xd0; xbb; x0a; xd0; xbc; x0a; xd0; xbd
].
(* tests/test_data/whatwg/shiftjis_whatwg_test_decode_out.txt, entries 2048..2303 *)
Definition shiftjis_decode_out_8 : list byte := [
  x0a; xd0; xbe; x0a; xd0; xbf; x0a; xd1;
  x80; x0a; xd1; x81; x0a; xd1; x82; x0a;
  xd1; x83; x0a; xd1; x84; x0a; xd1; x85;
  x0a; xd1; x86; x0a; xd1; x87; x0a; xd1;
  x88; x0a; xd1; x89; x0a; xd1; x8a; x0a;
  xd1; x8b; x0a; xd1; x8c; x0a; xd1; x8d;
  x0a; xd1; x8e; x0a; xd1; x8f; x0a; xe2;
  x94; x80; x0a; xe2; x94; x82; x0a; xe2;
  x94; x8c; x0a; xe2; x94; x90; x0a; xe2;
  x94; x98; x0a; xe2; x94; x94; x0a; xe2;
  x94; x9c; x0a; xe2; x94; xac; x0a; xe2;
  x94; xa4; x0a; xe2; x94; xb4; x0a; xe2;
  x94; xbc; x0a; xe2; x94; x81; x0a; xe2;
  x94; x83; x0a; xe2; x94; x8f; x0a; xe2;
  x94; x93; x0a; xe2; x94; x9b; x0a; xe2;
  x94; x97; x0a; xe2; x94; xa3; x0a; xe2;
  x94; xb3; x0a; xe2; x94; xab; x0a; xe2;
  x94; xbb; x0a; xe2; x95; x8b; x0a; xe2;
  x94; xa0; x0a; xe2; x94; xaf; x0a; xe2;
  x94; xa8; x0a; xe2; x94; xb7; x0a; xe2;
  x94; xbf; x0a; xe2; x94; x9d; x0a; xe2;
  x94; xb0; x0a; xe2; x94; xa5; x0a; xe2;
  x94; xb8; x0a; xe2; x95; x82; x0a; xe2;
  x91; xa0; x0a; xe2; x91; xa1; x0a; xe2;
  x91; xa2; x0a; xe2; x91; xa3; x0a; xe2;
  x91; xa4; x0a; xe2; x91; xa5; x0a; xe2;
  x91; xa6; x0a; xe2; x91; xa7; x0a; xe2;
  x91; xa8; x0a; xe2; x91; xa9; x0a; xe2;
  x91; xaa; x0a; xe2; x91; xab; x0a; xe2;
  x91; xac; x0a; xe2; x91; xad; x0a; xe2;
  x91; xae; x0a; xe2; x91; xaf; x0a; xe2;
  x91; xb0; x0a; xe2; x91; xb1; x0a; xe2
].
(* tests/test_data/whatwg/shiftjis_whatwg_test_decode_out.txt, entries 2304..2559 *)
Definition shiftjis_decode_out_9 : list byte := [
  x91; xb2; x0a; xe2; x91; xb3; x0a; xe2;
  x85; xa0; x0a; xe2; x85; xa1; x0a; xe2;
  x85; xa2; x0a; xe2; x85; xa3; x0a; xe2;
  x85; xa4; x0a; xe2; x85; xa5; x0a; xe2;
  x85; xa6; x0a; xe2; x85; xa7; x0a; xe2;
  x85; xa8; x0a; xe2; x85; xa9; x0a; xe3;
  x8d; x89; x0a; xe3; x8c; x94; x0a; xe3;
  x8c; xa2; x0a; xe3; x8d; x8d; x0a; xe3;
  x8c; x98; x0a; xe3; x8c; xa7; x0a; xe3;
  x8c; x83; x0a; xe3; x8c; xb6; x0a; xe3;
  x8d; x91; x0a; xe3; x8d; x97; x0a; xe3;
  x8c; x8d; x0a; xe3; x8c; xa6; x0a; xe3;
  x8c; xa3; x0a; xe3; x8c; xab; x0a; xe3;
  x8d; x8a; x0a; xe3; x8c; xbb; x0a; xe3;
  x8e; x9c; x0a; xe3; x8e; x9d; x0a; xe3;
  x8e; x9e; x0a; xe3; x8e; x8e; x0a; xe3;
  x8e; x8f; x0a; xe3; x8f; x84; x0a; xe3;
  x8e; xa1; x0a; xe3; x8d; xbb; x0a; xe3;
  x80; x9d; x0a; xe3; x80; x9f; x0a; xe2;
  x84; x96; x0a; xe3; x8f; x8d; x0a; xe2;
  x84; xa1; x0a; xe3; x8a; xa4; x0a; xe3;
  x8a; xa5; x0a; xe3; x8a; xa6; x0a; xe3;
  x8a; xa7; x0a; xe3; x8a; xa8; x0a; xe3;
  x88; xb1; x0a; xe3; x88; xb2; x0a; xe3;
  x88; xb9; x0a; xe3; x8d; xbe; x0a; xe3;
  x8d; xbd; x0a; xe3; x8d; xbc; x0a; xe2;
  x89; x92; x0a; xe2; x89; xa1; x0a; xe2;
  x88; xab; x0a; xe2; x88; xae; x0a; xe2;
  x88; x91; x0a; xe2; x88; x9a; x0a; xe2;
  x8a; xa5; x0a; xe2; x88; xa0; x0a; xe2;
  x88; x9f; x0a; xe2; x8a; xbf; x0a; xe2;
  x88; xb5; x0a; xe2; x88; xa9; x0a; xe2
].
(* tests/test_data/whatwg/shiftjis_whatwg_test_decode_out.txt, entries 2560..2815 *)
Definition shiftjis_decode_out_10 : list byte := [
  x88; xaa; x0a; xe4; xba; x9c; x0a; xe5;
  x94; x96; x0a; xe5; xa8; x83; x0a; xe9;
  x98; xbf; x0a; xe5; x93; x80; x0a; xe6;
  x84; x9b; x0a; xe6; x8c; xa8; x0a; xe5;
  xa7; xb6; x0a; xe9; x80; xa2; x0a; xe8;
  x91; xb5; x0a; xe8; x8c; x9c; x0a; xe7;
  xa9; x90; x0a; xe6; x82; xaa; x0a; xe6;
  x8f; xa1; x0a; xe6; xb8; xa5; x0a; xe6;
  x97; xad; x0a; xe8; x91; xa6; x0a; xe8;
  x8a; xa6; x0a; xe9; xaf; xb5; x0a; xe6;
  xa2; x93; x0a; xe5; x9c; xa7; x0a; xe6;
  x96; xa1; x0a; xe6; x89; xb1; x0a; xe5;
  xae; x9b; x0a; xe5; xa7; x90; x0a; xe8;
  x99; xbb; x0a; xe9; xa3; xb4; x0a; xe7;
  xb5; xa2; x0a; xe7; xb6; xbe; x0a; xe9;
  xae; x8e; x0a; xe6; x88; x96; x0a; xe7;
  xb2; x9f; x0a; xe8; xa2; xb7; x0a; xe5;
  xae; x89; x0a; xe5; xba; xb5; x0a; xe6;
  x8c; x89; x0a; xe6; x9a; x97; x0a; xe6;
  xa1; x88; x0a; xe9; x97; x87; x0a; xe9;
  x9e; x8d; x0a; xe6; x9d; x8f; x0a; xe4;
  xbb; xa5; x0a; xe4; xbc; x8a; x0a; xe4;
  xbd; x8d; x0a; xe4; xbe; x9d; x0a; xe5;
  x81; x89; x0a; xe5; x9b; xb2; x0a; xe5;
  xa4; xb7; x0a; xe5; xa7; x94; x0a; xe5;
  xa8; x81; x0a; xe5; xb0; x89; x0a; xe6;
  x83; x9f; x0a; xe6; x84; x8f; x0a; xe6;
  x85; xb0; x0a; xe6; x98; x93; x0a; xe6;
  xa4; x85; x0a; xe7; x82; xba; x0a; xe7;
  x95; x8f; x0a; xe7; x95; xb0; x0a; xe7;
  xa7; xbb; x0a; xe7; xb6; xad; x0a; xe7;
  xb7; xaf; x0a; xe8; x83; x83; x0a; xe8
].
(* tests/test_data/whatwg/shiftjis_whatwg_test_decode_out.txt, entries 2816..3071 *)
Definition shiftjis_decode_out_11 : list byte := [
  x90; x8e; x0a; xe8; xa1; xa3; x0a; xe8;
  xac; x82; x0a; xe9; x81; x95; x0a; xe9;
  x81; xba; x0a; xe5; x8c; xbb; x0a; xe4;
  xba; x95; x0a; xe4; xba; xa5; x0a; xe5;
  x9f; x9f; x0a; xe8; x82; xb2; x0a; xe9;
  x83; x81; x0a; xe7; xa3; xaf; x0a; xe4;
  xb8; x80; x0a; xe5; xa3; xb1; x0a; xe6;
  xba; xa2; x0a; xe9; x80; xb8; x0a; xe7;
  xa8; xb2; x0a; xe8; x8c; xa8; x0a; xe8;
  x8a; x8b; x0a; xe9; xb0; xaf; x0a; xe5;
  x85; x81; x0a; xe5; x8d; xb0; x0a; xe5;
  x92; xbd; x0a; xe5; x93; xa1; x0a; xe5;
  x9b; xa0; x0a; xe5; xa7; xbb; x0a; xe5;
  xbc; x95; x0a; xe9; xa3; xb2; x0a; xe6;
  xb7; xab; x0a; xe8; x83; xa4; x0a; xe8;
  x94; xad; x0a; xe9; x99; xa2; x0a; xe9;
  x99; xb0; x0a; xe9; x9a; xa0; x0a; xe9;
  x9f; xbb; x0a; xe5; x90; x8b; x0a; xe5;
  x8f; xb3; x0a; xe5; xae; x87; x0a; xe7;
  x83; x8f; x0a; xe7; xbe; xbd; x0a; xe8;
  xbf; x82; x0a; xe9; x9b; xa8; x0a; xe5;
  x8d; xaf; x0a; xe9; xb5; x9c; x0a; xe7;
  xaa; xba; x0a; xe4; xb8; x91; x0a; xe7;
  xa2; x93; x0a; xe8; x87; xbc; x0a; xe6;
  xb8; xa6; x0a; xe5; x98; x98; x0a; xe5;
  x94; x84; x0a; xe6; xac; x9d; x0a; xe8;
  x94; x9a; x0a; xe9; xb0; xbb; x0a; xe5;
  xa7; xa5; x0a; xe5; x8e; xa9; x0a; xe6;
  xb5; xa6; x0a; xe7; x93; x9c; x0a; xe9;
  x96; x8f; x0a; xe5; x99; x82; x0a; xe4;
  xba; x91; x0a; xe9; x81; x8b; x0a; xe9;
  x9b; xb2; x0a; xe8; x8d; x8f; x0a; xe9
].
(* tests/test_data/whatwg/shiftjis_whatwg_test_decode_out.txt, entries 3072..3327 *)
Definition shiftjis_decode_out_12 : list byte := [
  xa4; x8c; x0a; xe5; x8f; xa1; x0a; xe5;
  x96; xb6; x0a; xe5; xac; xb0; x0a; xe5;
  xbd; xb1; x0a; xe6; x98; xa0; x0a; xe6;
  x9b; xb3; x0a; xe6; xa0; x84; x0a; xe6;
  xb0; xb8; x0a; xe6; xb3; xb3; x0a; xe6;
  xb4; xa9; x0a; xe7; x91; x9b; x0a; xe7;
  x9b; x88; x0a; xe7; xa9; x8e; x0a; xe9;
  xa0; xb4; x0a; xe8; x8b; xb1; x0a; xe8;
  xa1; x9b; x0a; xe8; xa9; xa0; x0a; xe9;
  x8b; xad; x0a; xe6; xb6; xb2; x0a; xe7;
  x96; xab; x0a; xe7; x9b; x8a; x0a; xe9;
  xa7; x85; x0a; xe6; x82; xa6; x0a; xe8;
  xac; x81; x0a; xe8; xb6; x8a; x0a; xe9;
  x96; xb2; x0a; xe6; xa6; x8e; x0a; xe5;
  x8e; xad; x0a; xe5; x86; x86; x0a; xe5;
  x9c; x92; x0a; xe5; xa0; xb0; x0a; xe5;
  xa5; x84; x0a; xe5; xae; xb4; x0a; xe5;
  xbb; xb6; x0a; xe6; x80; xa8; x0a; xe6;
  x8e; xa9; x0a; xe6; x8f; xb4; x0a; xe6;
  xb2; xbf; x0a; xe6; xbc; x94; x0a; xe7;
  x82; x8e; x0a; xe7; x84; x94; x0a; xe7;
  x85; x99; x0a; xe7; x87; x95; x0a; xe7;
  x8c; xbf; x0a; xe7; xb8; x81; x0a; xe8;
  x89; xb6; x0a; xe8; x8b; x91; x0a; xe8;
  x96; x97; x0a; xe9; x81; xa0; x0a; xe9;
  x89; x9b; x0a; xe9; xb4; x9b; x0a; xe5;
  xa1; xa9; x0a; xe6; x96; xbc; x0a; xe6;
  xb1; x9a; x0a; xe7; x94; xa5; x0a; xe5;
  x87; xb9; x0a; xe5; xa4; xae; x0a; xe5;
  xa5; xa5; x0a; xe5; xbe; x80; x0a; xe5;
  xbf; x9c; x0a; xe6; x8a; xbc; x0a; xe6;
  x97; xba; x0a; xe6; xa8; xaa; x0a; xe6
].
(* tests/test_data/whatwg/shiftjis_whatwg_test_decode_out.txt, entries 3328..3583 *)
Definition shiftjis_decode_out_13 : list byte := [
  xac; xa7; x0a; xe6; xae; xb4; x0a; xe7;
  x8e; x8b; x0a; xe7; xbf; x81; x0a; xe8;
  xa5; x96; x0a; xe9; xb4; xac; x0a; xe9;
  xb4; x8e; x0a; xe9; xbb; x84; x0a; xe5;
  xb2; xa1; x0a; xe6; xb2; x96; x0a; xe8;
  x8d; xbb; x0a; xe5; x84; x84; x0a; xe5;
  xb1; x8b; x0a; xe6; x86; xb6; x0a; xe8;
  x87; x86; x0a; xe6; xa1; xb6; x0a; xe7;
  x89; xa1; x0a; xe4; xb9; x99; x0a; xe4;
  xbf; xba; x0a; xe5; x8d; xb8; x0a; xe6;
  x81; xa9; x0a; xe6; xb8; xa9; x0a; xe7;
  xa9; x8f; x0a; xe9; x9f; xb3; x0a; xe4;
  xb8; x8b; x0a; xe5; x8c; x96; x0a; xe4;
  xbb; xae; x0a; xe4; xbd; x95; x0a; xe4;
  xbc; xbd; x0a; xe4; xbe; xa1; x0a; xe4;
  xbd; xb3; x0a; xe5; x8a; xa0; x0a; xe5;
  x8f; xaf; x0a; xe5; x98; x89; x0a; xe5;
  xa4; x8f; x0a; xe5; xab; x81; x0a; xe5;
  xae; xb6; x0a; xe5; xaf; xa1; x0a; xe7;
  xa7; x91; x0a; xe6; x9a; x87; x0a; xe6;
  x9e; x9c; x0a; xe6; x9e; xb6; x0a; xe6;
  xad; x8c; x0a; xe6; xb2; xb3; x0a; xe7;
  x81; xab; x0a; xe7; x8f; x82; x0a; xe7;
  xa6; x8d; x0a; xe7; xa6; xbe; x0a; xe7;
  xa8; xbc; x0a; xe7; xae; x87; x0a; xe8;
  x8a; xb1; x0a; xe8; x8b; x9b; x0a; xe8;
  x8c; x84; x0a; xe8; x8d; xb7; x0a; xe8;
  x8f; xaf; x0a; xe8; x8f; x93; x0a; xe8;
  x9d; xa6; x0a; xe8; xaa; xb2; x0a; xe5;
  x98; xa9; x0a; xe8; xb2; xa8; x0a; xe8;
  xbf; xa6; x0a; xe9; x81; x8e; x0a; xe9;
  x9c; x9e; x0a; xe8; x9a; x8a; x0a; xe4
].
(* tests/test_data/whatwg/shiftjis_whatwg_test_decode_out.txt, entries 3584..3839 *)
Definition shiftjis_decode_out_14 : list byte := [
  xbf; x84; x0a; xe5; xb3; xa8; x0a; xe6;
  x88; x91; x0a; xe7; x89; x99; x0a; xe7;
  x94; xbb; x0a; xe8; x87; xa5; x0a; xe8;
  x8a; xbd; x0a; xe8; x9b; xbe; x0a; xe8;
  xb3; x80; x0a; xe9; x9b; x85; x0a; xe9;
  xa4; x93; x0a; xe9; xa7; x95; x0a; xe4;
  xbb; x8b; x0a; xe4; xbc; x9a; x0a; xe8;
  xa7; xa3; x0a; xe5; x9b; x9e; x0a; xe5;
  xa1; x8a; x0a; xe5; xa3; x8a; x0a; xe5;
  xbb; xbb; x0a; xe5; xbf; xab; x0a; xe6;
  x80; xaa; x0a; xe6; x82; x94; x0a; xe6;
  x81; xa2; x0a; xe6; x87; x90; x0a; xe6;
  x88; x92; x0a; xe6; x8b; x90; x0a; xe6;
  x94; xb9; x0a; xe9; xad; x81; x0a; xe6;
  x99; xa6; x0a; xe6; xa2; xb0; x0a; xe6;
  xb5; xb7; x0a; xe7; x81; xb0; x0a; xe7;
  x95; x8c; x0a; xe7; x9a; x86; x0a; xe7;
  xb5; xb5; x0a; xe8; x8a; xa5; x0a; xe8;
  x9f; xb9; x0a; xe9; x96; x8b; x0a; xe9;
  x9a; x8e; x0a; xe8; xb2; x9d; x0a; xe5;
  x87; xb1; x0a; xe5; x8a; xbe; x0a; xe5;
  xa4; x96; x0a; xe5; x92; xb3; x0a; xe5;
  xae; xb3; x0a; xe5; xb4; x96; x0a; xe6;
  x85; xa8; x0a; xe6; xa6; x82; x0a; xe6;
  xb6; xaf; x0a; xe7; xa2; x8d; x0a; xe8;
  x93; x8b; x0a; xe8; xa1; x97; x0a; xe8;
  xa9; xb2; x0a; xe9; x8e; xa7; x0a; xe9;
  xaa; xb8; x0a; xe6; xb5; xac; x0a; xe9;
  xa6; xa8; x0a; xe8; x9b; x99; x0a; xe5;
  x9e; xa3; x0a; xe6; x9f; xbf; x0a; xe8;
  x9b; x8e; x0a; xe9; x88; x8e; x0a; xe5;
  x8a; x83; x0a; xe5; x9a; x87; x0a; xe5
].
(* tests/test_data/whatwg/shiftjis_whatwg_test_decode_out.txt, entries 3840..4095 *)
Definition shiftjis_decode_out_15 : list byte := [
  x90; x84; x0a; xe5; xbb; x93; x0a; xe6;
  x8b; xa1; x0a; xe6; x92; xb9; x0a; xe6;
  xa0; xbc; x0a; xe6; xa0; xb8; x0a; xe6;
  xae; xbb; x0a; xe7; x8d; xb2; x0a; xe7;
  xa2; xba; x0a; xe7; xa9; xab; x0a; xe8;
  xa6; x9a; x0a; xe8; xa7; x92; x0a; xe8;
  xb5; xab; x0a; xe8; xbc; x83; x0a; xe9;
  x83; xad; x0a; xe9; x96; xa3; x0a; xe9;
  x9a; x94; x0a; xe9; x9d; xa9; x0a; xe5;
  xad; xa6; x0a; xe5; xb2; xb3; x0a; xe6;
  xa5; xbd; x0a; xe9; xa1; x8d; x0a; xe9;
  xa1; x8e; x0a; xe6; x8e; x9b; x0a; xe7;
  xac; xa0; x0a; xe6; xa8; xab; x0a; xe6;
  xa9; xbf; x0a; xe6; xa2; xb6; x0a; xe9;
  xb0; x8d; x0a; xe6; xbd; x9f; x0a; xe5;
  x89; xb2; x0a; xe5; x96; x9d; x0a; xe6;
  x81; xb0; x0a; xe6; x8b; xac; x0a; xe6;
  xb4; xbb; x0a; xe6; xb8; x87; x0a; xe6;
  xbb; x91; x0a; xe8; x91; x9b; x0a; xe8;
  xa4; x90; x0a; xe8; xbd; x84; x0a; xe4;
  xb8; x94; x0a; xe9; xb0; xb9; x0a; xe5;
  x8f; xb6; x0a; xe6; xa4; x9b; x0a; xe6;
  xa8; xba; x0a; xe9; x9e; x84; x0a; xe6;
  xa0; xaa; x0a; xe5; x85; x9c; x0a; xe7;
  xab; x83; x0a; xe8; x92; xb2; x0a; xe9;
  x87; x9c; x0a; xe9; x8e; x8c; x0a; xe5;
  x99; x9b; x0a; xe9; xb4; xa8; x0a; xe6;
  xa0; xa2; x0a; xe8; x8c; x85; x0a; xe8;
  x90; xb1; x0a; xe7; xb2; xa5; x0a; xe5;
  x88; x88; x0a; xe8; x8b; x85; x0a; xe7;
  x93; xa6; x0a; xe4; xb9; xbe; x0a; xe4;
  xbe; x83; x0a; xe5; x86; xa0; x0a; xe5
].
(* tests/test_data/whatwg/shiftjis_whatwg_test_decode_out.txt, entries 4096..4351 *)
Definition shiftjis_decode_out_16 : list byte := [
  xaf; x92; x0a; xe5; x88; x8a; x0a; xe5;
  x8b; x98; x0a; xe5; x8b; xa7; x0a; xe5;
  xb7; xbb; x0a; xe5; x96; x9a; x0a; xe5;
  xa0; xaa; x0a; xe5; xa7; xa6; x0a; xe5;
  xae; x8c; x0a; xe5; xae; x98; x0a; xe5;
  xaf; x9b; x0a; xe5; xb9; xb2; x0a; xe5;
  xb9; xb9; x0a; xe6; x82; xa3; x0a; xe6;
  x84; x9f; x0a; xe6; x85; xa3; x0a; xe6;
  x86; xbe; x0a; xe6; x8f; x9b; x0a; xe6;
  x95; xa2; x0a; xe6; x9f; x91; x0a; xe6;
  xa1; x93; x0a; xe6; xa3; xba; x0a; xe6;
  xac; xbe; x0a; xe6; xad; x93; x0a; xe6;
  xb1; x97; x0a; xe6; xbc; xa2; x0a; xe6;
  xbe; x97; x0a; xe6; xbd; x85; x0a; xe7;
  x92; xb0; x0a; xe7; x94; x98; x0a; xe7;
  x9b; xa3; x0a; xe7; x9c; x8b; x0a; xe7;
  xab; xbf; x0a; xe7; xae; xa1; x0a; xe7;
  xb0; xa1; x0a; xe7; xb7; xa9; x0a; xe7;
  xbc; xb6; x0a; xe7; xbf; xb0; x0a; xe8;
  x82; x9d; x0a; xe8; x89; xa6; x0a; xe8;
  x8e; x9e; x0a; xe8; xa6; xb3; x0a; xe8;
  xab; x8c; x0a; xe8; xb2; xab; x0a; xe9;
  x82; x84; x0a; xe9; x91; x91; x0a; xe9;
  x96; x93; x0a; xe9; x96; x91; x0a; xe9;
  x96; xa2; x0a; xe9; x99; xa5; x0a; xe9;
  x9f; x93; x0a; xe9; xa4; xa8; x0a; xe8;
  x88; x98; x0a; xe4; xb8; xb8; x0a; xe5;
  x90; xab; x0a; xe5; xb2; xb8; x0a; xe5;
  xb7; x8c; x0a; xe7; x8e; xa9; x0a; xe7;
  x99; x8c; x0a; xe7; x9c; xbc; x0a; xe5;
  xb2; xa9; x0a; xe7; xbf; xab; x0a; xe8;
  xb4; x8b; x0a; xe9; x9b; x81; x0a; xe9
].
(* tests/test_data/whatwg/shiftjis_whatwg_test_decode_out.txt, entries 4352..4607 *)
Definition shiftjis_decode_out_17 : list byte := [
  xa0; x91; x0a; xe9; xa1; x94; x0a; xe9;
  xa1; x98; x0a; xe4; xbc; x81; x0a; xe4;
  xbc; x8e; x0a; xe5; x8d; xb1; x0a; xe5;
  x96; x9c; x0a; xe5; x99; xa8; x0a; xe5;
  x9f; xba; x0a; xe5; xa5; x87; x0a; xe5;
  xac; x89; x0a; xe5; xaf; x84; x0a; xe5;
  xb2; x90; x0a; xe5; xb8; x8c; x0a; xe5;
  xb9; xbe; x0a; xe5; xbf; x8c; x0a; xe6;
  x8f; xae; x0a; xe6; x9c; xba; x0a; xe6;
  x97; x97; x0a; xe6; x97; xa2; x0a; xe6;
  x9c; x9f; x0a; xe6; xa3; x8b; x0a; xe6;
  xa3; x84; x0a; xe6; xa9; x9f; x0a; xe5;
  xb8; xb0; x0a; xe6; xaf; x85; x0a; xe6;
  xb0; x97; x0a; xe6; xb1; xbd; x0a; xe7;
  x95; xbf; x0a; xe7; xa5; x88; x0a; xe5;
  xad; xa3; x0a; xe7; xa8; x80; x0a; xe7;
  xb4; x80; x0a; xe5; xbe; xbd; x0a; xe8;
  xa6; x8f; x0a; xe8; xa8; x98; x0a; xe8;
  xb2; xb4; x0a; xe8; xb5; xb7; x0a; xe8;
  xbb; x8c; x0a; xe8; xbc; x9d; x0a; xe9;
  xa3; xa2; x0a; xe9; xa8; x8e; x0a; xe9;
  xac; xbc; x0a; xe4; xba; x80; x0a; xe5;
  x81; xbd; x0a; xe5; x84; x80; x0a; xe5;
  xa6; x93; x0a; xe5; xae; x9c; x0a; xe6;
  x88; xaf; x0a; xe6; x8a; x80; x0a; xe6;
  x93; xac; x0a; xe6; xac; xba; x0a; xe7;
  x8a; xa0; x0a; xe7; x96; x91; x0a; xe7;
  xa5; x87; x0a; xe7; xbe; xa9; x0a; xe8;
  x9f; xbb; x0a; xe8; xaa; xbc; x0a; xe8;
  xad; xb0; x0a; xe6; x8e; xac; x0a; xe8;
  x8f; x8a; x0a; xe9; x9e; xa0; x0a; xe5;
  x90; x89; x0a; xe5; x90; x83; x0a; xe5
].
(* tests/test_data/whatwg/shiftjis_whatwg_test_decode_out.txt, entries 4608..4863 *)
Definition shiftjis_decode_out_18 : list byte := [
  x96; xab; x0a; xe6; xa1; x94; x0a; xe6;
  xa9; x98; x0a; xe8; xa9; xb0; x0a; xe7;
  xa0; xa7; x0a; xe6; x9d; xb5; x0a; xe9;
  xbb; x8d; x0a; xe5; x8d; xb4; x0a; xe5;
  xae; xa2; x0a; xe8; x84; x9a; x0a; xe8;
  x99; x90; x0a; xe9; x80; x86; x0a; xe4;
  xb8; x98; x0a; xe4; xb9; x85; x0a; xe4;
  xbb; x87; x0a; xe4; xbc; x91; x0a; xe5;
  x8f; x8a; x0a; xe5; x90; xb8; x0a; xe5;
  xae; xae; x0a; xe5; xbc; x93; x0a; xe6;
  x80; xa5; x0a; xe6; x95; x91; x0a; xe6;
  x9c; xbd; x0a; xe6; xb1; x82; x0a; xe6;
  xb1; xb2; x0a; xe6; xb3; xa3; x0a; xe7;
  x81; xb8; x0a; xe7; x90; x83; x0a; xe7;
  xa9; xb6; x0a; xe7; xaa; xae; x0a; xe7;
  xac; x88; x0a; xe7; xb4; x9a; x0a; xe7;
  xb3; xbe; x0a; xe7; xb5; xa6; x0a; xe6;
  x97; xa7; x0a; xe7; x89; x9b; x0a; xe5;
  x8e; xbb; x0a; xe5; xb1; x85; x0a; xe5;
  xb7; xa8; x0a; xe6; x8b; x92; x0a; xe6;
  x8b; xa0; x0a; xe6; x8c; x99; x0a; xe6;
  xb8; xa0; x0a; xe8; x99; x9a; x0a; xe8;
  xa8; xb1; x0a; xe8; xb7; x9d; x0a; xe9;
  x8b; xb8; x0a; xe6; xbc; x81; x0a; xe7;
  xa6; xa6; x0a; xe9; xad; x9a; x0a; xe4;
  xba; xa8; x0a; xe4; xba; xab; x0a; xe4;
  xba; xac; x0a; xe4; xbe; x9b; x0a; xe4;
  xbe; xa0; x0a; xe5; x83; x91; x0a; xe5;
  x85; x87; x0a; xe7; xab; xb6; x0a; xe5;
  x85; xb1; x0a; xe5; x87; xb6; x0a; xe5;
  x8d; x94; x0a; xe5; x8c; xa1; x0a; xe5;
  x8d; xbf; x0a; xe5; x8f; xab; x0a; xe5
].
(* tests/test_data/whatwg/shiftjis_whatwg_test_decode_out.txt, entries 4864..5119 *)
Definition shiftjis_decode_out_19 : list byte := [
  x96; xac; x0a; xe5; xa2; x83; x0a; xe5;
  xb3; xa1; x0a; xe5; xbc; xb7; x0a; xe5;
  xbd; x8a; x0a; xe6; x80; xaf; x0a; xe6;
  x81; x90; x0a; xe6; x81; xad; x0a; xe6;
  x8c; x9f; x0a; xe6; x95; x99; x0a; xe6;
  xa9; x8b; x0a; xe6; xb3; x81; x0a; xe7;
  x8b; x82; x0a; xe7; x8b; xad; x0a; xe7;
  x9f; xaf; x0a; xe8; x83; xb8; x0a; xe8;
  x84; x85; x0a; xe8; x88; x88; x0a; xe8;
  x95; x8e; x0a; xe9; x83; xb7; x0a; xe9;
  x8f; xa1; x0a; xe9; x9f; xbf; x0a; xe9;
  xa5; x97; x0a; xe9; xa9; x9a; x0a; xe4;
  xbb; xb0; x0a; xe5; x87; x9d; x0a; xe5;
  xb0; xad; x0a; xe6; x9a; x81; x0a; xe6;
  xa5; xad; x0a; xe5; xb1; x80; x0a; xe6;
  x9b; xb2; x0a; xe6; xa5; xb5; x0a; xe7;
  x8e; x89; x0a; xe6; xa1; x90; x0a; xe7;
  xb2; x81; x0a; xe5; x83; x85; x0a; xe5;
  x8b; xa4; x0a; xe5; x9d; x87; x0a; xe5;
  xb7; xbe; x0a; xe9; x8c; xa6; x0a; xe6;
  x96; xa4; x0a; xe6; xac; xa3; x0a; xe6;
  xac; xbd; x0a; xe7; x90; xb4; x0a; xe7;
  xa6; x81; x0a; xe7; xa6; xbd; x0a; xe7;
  xad; x8b; x0a; xe7; xb7; x8a; x0a; xe8;
  x8a; xb9; x0a; xe8; x8f; x8c; x0a; xe8;
  xa1; xbf; x0a; xe8; xa5; x9f; x0a; xe8;
  xac; xb9; x0a; xe8; xbf; x91; x0a; xe9;
  x87; x91; x0a; xe5; x90; x9f; x0a; xe9;
  x8a; x80; x0a; xe4; xb9; x9d; x0a; xe5;
  x80; xb6; x0a; xe5; x8f; xa5; x0a; xe5;
  x8c; xba; x0a; xe7; x8b; x97; x0a; xe7;
  x8e; x96; x0a; xe7; x9f; xa9; x0a; xe8
].
(* tests/test_data/whatwg/shiftjis_whatwg_test_decode_out.txt, entries 5120..5375 *)
Definition shiftjis_decode_out_20 : list byte := [
  x8b; xa6; x0a; xe8; xba; xaf; x0a; xe9;
  xa7; x86; x0a; xe9; xa7; x88; x0a; xe9;
  xa7; x92; x0a; xe5; x85; xb7; x0a; xe6;
  x84; x9a; x0a; xe8; x99; x9e; x0a; xe5;
  x96; xb0; x0a; xe7; xa9; xba; x0a; xe5;
  x81; xb6; x0a; xe5; xaf; x93; x0a; xe9;
  x81; x87; x0a; xe9; x9a; x85; x0a; xe4;
  xb8; xb2; x0a; xe6; xab; x9b; x0a; xe9;
  x87; xa7; x0a; xe5; xb1; x91; x0a; xe5;
  xb1; x88; x0a; xe6; x8e; x98; x0a; xe7;
  xaa; x9f; x0a; xe6; xb2; x93; x0a; xe9;
  x9d; xb4; x0a; xe8; xbd; xa1; x0a; xe7;
  xaa; xaa; x0a; xe7; x86; x8a; x0a; xe9;
  x9a; x88; x0a; xe7; xb2; x82; x0a; xe6;
  xa0; x97; x0a; xe7; xb9; xb0; x0a; xe6;
  xa1; x91; x0a; xe9; x8d; xac; x0a; xe5;
  x8b; xb2; x0a; xe5; x90; x9b; x0a; xe8;
  x96; xab; x0a; xe8; xa8; x93; x0a; xe7;
  xbe; xa4; x0a; xe8; xbb; x8d; x0a; xe9;
  x83; xa1; x0a; xe5; x8d; xa6; x0a; xe8;
  xa2; x88; x0a; xe7; xa5; x81; x0a; xe4;
  xbf; x82; x0a; xe5; x82; xbe; x0a; xe5;
  x88; x91; x0a; xe5; x85; x84; x0a; xe5;
  x95; x93; x0a; xe5; x9c; xad; x0a; xe7;
  x8f; xaa; x0a; xe5; x9e; x8b; x0a; xe5;
  xa5; x91; x0a; xe5; xbd; xa2; x0a; xe5;
  xbe; x84; x0a; xe6; x81; xb5; x0a; xe6;
  x85; xb6; x0a; xe6; x85; xa7; x0a; xe6;
  x86; xa9; x0a; xe6; x8e; xb2; x0a; xe6;
  x90; xba; x0a; xe6; x95; xac; x0a; xe6;
  x99; xaf; x0a; xe6; xa1; x82; x0a; xe6;
  xb8; x93; x0a; xe7; x95; xa6; x0a; xe7
].
(* tests/test_data/whatwg/shiftjis_whatwg_test_decode_out.txt, entries 5376..5631 *)
Definition shiftjis_decode_out_21 : list byte := [
  xa8; xbd; x0a; xe7; xb3; xbb; x0a; xe7;
  xb5; x8c; x0a; xe7; xb6; x99; x0a; xe7;
  xb9; x8b; x0a; xe7; xbd; xab; x0a; xe8;
  x8c; x8e; x0a; xe8; x8d; x8a; x0a; xe8;
  x9b; x8d; x0a; xe8; xa8; x88; x0a; xe8;
  xa9; xa3; x0a; xe8; xad; xa6; x0a; xe8;
  xbb; xbd; x0a; xe9; xa0; x9a; x0a; xe9;
  xb6; x8f; x0a; xe8; x8a; xb8; x0a; xe8;
  xbf; x8e; x0a; xe9; xaf; xa8; x0a; xe5;
  x8a; x87; x0a; xe6; x88; x9f; x0a; xe6;
  x92; x83; x0a; xe6; xbf; x80; x0a; xe9;
  x9a; x99; x0a; xe6; xa1; x81; x0a; xe5;
  x82; x91; x0a; xe6; xac; xa0; x0a; xe6;
  xb1; xba; x0a; xe6; xbd; x94; x0a; xe7;
  xa9; xb4; x0a; xe7; xb5; x90; x0a; xe8;
  xa1; x80; x0a; xe8; xa8; xa3; x0a; xe6;
  x9c; x88; x0a; xe4; xbb; xb6; x0a; xe5;
  x80; xb9; x0a; xe5; x80; xa6; x0a; xe5;
  x81; xa5; x0a; xe5; x85; xbc; x0a; xe5;
  x88; xb8; x0a; xe5; x89; xa3; x0a; xe5;
  x96; xa7; x0a; xe5; x9c; x8f; x0a; xe5;
  xa0; x85; x0a; xe5; xab; x8c; x0a; xe5;
  xbb; xba; x0a; xe6; x86; xb2; x0a; xe6;
  x87; xb8; x0a; xe6; x8b; xb3; x0a; xe6;
  x8d; xb2; x0a; xe6; xa4; x9c; x0a; xe6;
  xa8; xa9; x0a; xe7; x89; xbd; x0a; xe7;
  x8a; xac; x0a; xe7; x8c; xae; x0a; xe7;
  xa0; x94; x0a; xe7; xa1; xaf; x0a; xe7;
  xb5; xb9; x0a; xe7; x9c; x8c; x0a; xe8;
  x82; xa9; x0a; xe8; xa6; x8b; x0a; xe8;
  xac; x99; x0a; xe8; xb3; xa2; x0a; xe8;
  xbb; x92; x0a; xe9; x81; xa3; x0a; xe9
].
(* tests/test_data/whatwg/shiftjis_whatwg_test_decode_out.txt, entries 5632..5887 *)
Definition shiftjis_decode_out_22 : list byte := [
  x8d; xb5; x0a; xe9; x99; xba; x0a; xe9;
  xa1; x95; x0a; xe9; xa8; x93; x0a; xe9;
  xb9; xb8; x0a; xe5; x85; x83; x0a; xe5;
  x8e; x9f; x0a; xe5; x8e; xb3; x0a; xe5;
  xb9; xbb; x0a; xe5; xbc; xa6; x0a; xe6;
  xb8; x9b; x0a; xe6; xba; x90; x0a; xe7;
  x8e; x84; x0a; xe7; x8f; xbe; x0a; xe7;
  xb5; x83; x0a; xe8; x88; xb7; x0a; xe8;
  xa8; x80; x0a; xe8; xab; xba; x0a; xe9;
  x99; x90; x0a; xe4; xb9; x8e; x0a; xe5;
  x80; x8b; x0a; xe5; x8f; xa4; x0a; xe5;
  x91; xbc; x0a; xe5; x9b; xba; x0a; xe5;
  xa7; x91; x0a; xe5; xad; xa4; x0a; xe5;
  xb7; xb1; x0a; xe5; xba; xab; x0a; xe5;
  xbc; xa7; x0a; xe6; x88; xb8; x0a; xe6;
  x95; x85; x0a; xe6; x9e; xaf; x0a; xe6;
  xb9; x96; x0a; xe7; x8b; x90; x0a; xe7;
  xb3; x8a; x0a; xe8; xa2; xb4; x0a; xe8;
  x82; xa1; x0a; xe8; x83; xa1; x0a; xe8;
  x8f; xb0; x0a; xe8; x99; x8e; x0a; xe8;
  xaa; x87; x0a; xe8; xb7; xa8; x0a; xe9;
  x88; xb7; x0a; xe9; x9b; x87; x0a; xe9;
  xa1; xa7; x0a; xe9; xbc; x93; x0a; xe4;
  xba; x94; x0a; xe4; xba; x92; x0a; xe4;
  xbc; x8d; x0a; xe5; x8d; x88; x0a; xe5;
  x91; x89; x0a; xe5; x90; xbe; x0a; xe5;
  xa8; xaf; x0a; xe5; xbe; x8c; x0a; xe5;
  xbe; xa1; x0a; xe6; x82; x9f; x0a; xe6;
  xa2; xa7; x0a; xe6; xaa; x8e; x0a; xe7;
  x91; x9a; x0a; xe7; xa2; x81; x0a; xe8;
  xaa; x9e; x0a; xe8; xaa; xa4; x0a; xe8;
  xad; xb7; x0a; xe9; x86; x90; x0a; xe4
].
(* tests/test_data/whatwg/shiftjis_whatwg_test_decode_out.txt, entries 5888..6143 *)
Definition shiftjis_decode_out_23 : list byte := [
  xb9; x9e; x0a; xe9; xaf; x89; x0a; xe4;
  xba; xa4; x0a; xe4; xbd; xbc; x0a; xe4;
  xbe; xaf; x0a; xe5; x80; x99; x0a; xe5;
  x80; x96; x0a; xe5; x85; x89; x0a; xe5;
  x85; xac; x0a; xe5; x8a; x9f; x0a; xe5;
  x8a; xb9; x0a; xe5; x8b; xbe; x0a; xe5;
  x8e; x9a; x0a; xe5; x8f; xa3; x0a; xe5;
  x90; x91; x0a; xe5; x90; x8e; x0a; xe5;
  x96; x89; x0a; xe5; x9d; x91; x0a; xe5;
  x9e; xa2; x0a; xe5; xa5; xbd; x0a; xe5;
  xad; x94; x0a; xe5; xad; x9d; x0a; xe5;
  xae; x8f; x0a; xe5; xb7; xa5; x0a; xe5;
  xb7; xa7; x0a; xe5; xb7; xb7; x0a; xe5;
  xb9; xb8; x0a; xe5; xba; x83; x0a; xe5;
  xba; x9a; x0a; xe5; xba; xb7; x0a; xe5;
  xbc; x98; x0a; xe6; x81; x92; x0a; xe6;
  x85; x8c; x0a; xe6; x8a; x97; x0a; xe6;
  x8b; x98; x0a; xe6; x8e; xa7; x0a; xe6;
  x94; xbb; x0a; xe6; x98; x82; x0a; xe6;
  x99; x83; x0a; xe6; x9b; xb4; x0a; xe6;
  x9d; xad; x0a; xe6; xa0; xa1; x0a; xe6;
  xa2; x97; x0a; xe6; xa7; x8b; x0a; xe6;
  xb1; x9f; x0a; xe6; xb4; xaa; x0a; xe6;
  xb5; xa9; x0a; xe6; xb8; xaf; x0a; xe6;
  xba; x9d; x0a; xe7; x94; xb2; x0a; xe7;
  x9a; x87; x0a; xe7; xa1; xac; x0a; xe7;
  xa8; xbf; x0a; xe7; xb3; xa0; x0a; xe7;
  xb4; x85; x0a; xe7; xb4; x98; x0a; xe7;
  xb5; x9e; x0a; xe7; xb6; xb1; x0a; xe8;
  x80; x95; x0a; xe8; x80; x83; x0a; xe8;
  x82; xaf; x0a; xe8; x82; xb1; x0a; xe8;
  x85; x94; x0a; xe8; x86; x8f; x0a; xe8
].
(* tests/test_data/whatwg/shiftjis_whatwg_test_decode_out.txt, entries 6144..6399 *)
Definition shiftjis_decode_out_24 : list byte := [
  x88; xaa; x0a; xe8; x8d; x92; x0a; xe8;
  xa1; x8c; x0a; xe8; xa1; xa1; x0a; xe8;
  xac; x9b; x0a; xe8; xb2; xa2; x0a; xe8;
  xb3; xbc; x0a; xe9; x83; x8a; x0a; xe9;
  x85; xb5; x0a; xe9; x89; xb1; x0a; xe7;
  xa0; xbf; x0a; xe9; x8b; xbc; x0a; xe9;
  x96; xa4; x0a; xe9; x99; x8d; x0a; xe9;
  xa0; x85; x0a; xe9; xa6; x99; x0a; xe9;
  xab; x98; x0a; xe9; xb4; xbb; x0a; xe5;
  x89; x9b; x0a; xe5; x8a; xab; x0a; xe5;
  x8f; xb7; x0a; xe5; x90; x88; x0a; xe5;
  xa3; x95; x0a; xe6; x8b; xb7; x0a; xe6;
  xbf; xa0; x0a; xe8; xb1; xaa; x0a; xe8;
  xbd; x9f; x0a; xe9; xba; xb9; x0a; xe5;
  x85; x8b; x0a; xe5; x88; xbb; x0a; xe5;
  x91; x8a; x0a; xe5; x9b; xbd; x0a; xe7;
  xa9; x80; x0a; xe9; x85; xb7; x0a; xe9;
  xb5; xa0; x0a; xe9; xbb; x92; x0a; xe7;
  x8d; x84; x0a; xe6; xbc; x89; x0a; xe8;
  x85; xb0; x0a; xe7; x94; x91; x0a; xe5;
  xbf; xbd; x0a; xe6; x83; x9a; x0a; xe9;
  xaa; xa8; x0a; xe7; x8b; x9b; x0a; xe8;
  xbe; xbc; x0a; xe6; xad; xa4; x0a; xe9;
  xa0; x83; x0a; xe4; xbb; x8a; x0a; xe5;
  x9b; xb0; x0a; xe5; x9d; xa4; x0a; xe5;
  xa2; xbe; x0a; xe5; xa9; x9a; x0a; xe6;
  x81; xa8; x0a; xe6; x87; x87; x0a; xe6;
  x98; x8f; x0a; xe6; x98; x86; x0a; xe6;
  xa0; xb9; x0a; xe6; xa2; xb1; x0a; xe6;
  xb7; xb7; x0a; xe7; x97; x95; x0a; xe7;
  xb4; xba; x0a; xe8; x89; xae; x0a; xe9;
  xad; x82; x0a; xe4; xba; x9b; x0a; xe4
].
(* tests/test_data/whatwg/shiftjis_whatwg_test_decode_out.txt, entries 6400..6655 *)
Definition shiftjis_decode_out_25 : list byte := [
  xbd; x90; x0a; xe5; x8f; x89; x0a; xe5;
  x94; x86; x0a; xe5; xb5; xaf; x0a; xe5;
  xb7; xa6; x0a; xe5; xb7; xae; x0a; xe6;
  x9f; xbb; x0a; xe6; xb2; x99; x0a; xe7;
  x91; xb3; x0a; xe7; xa0; x82; x0a; xe8;
  xa9; x90; x0a; xe9; x8e; x96; x0a; xe8;
  xa3; x9f; x0a; xe5; x9d; x90; x0a; xe5;
  xba; xa7; x0a; xe6; x8c; xab; x0a; xe5;
  x82; xb5; x0a; xe5; x82; xac; x0a; xe5;
  x86; x8d; x0a; xe6; x9c; x80; x0a; xe5;
  x93; x89; x0a; xe5; xa1; x9e; x0a; xe5;
  xa6; xbb; x0a; xe5; xae; xb0; x0a; xe5;
  xbd; xa9; x0a; xe6; x89; x8d; x0a; xe6;
  x8e; xa1; x0a; xe6; xa0; xbd; x0a; xe6;
  xad; xb3; x0a; xe6; xb8; x88; x0a; xe7;
  x81; xbd; x0a; xe9; x87; x87; x0a; xe7;
  x8a; x80; x0a; xe7; xa0; x95; x0a; xe7;
  xa0; xa6; x0a; xe7; xa5; xad; x0a; xe6;
  x96; x8e; x0a; xe7; xb4; xb0; x0a; xe8;
  x8f; x9c; x0a; xe8; xa3; x81; x0a; xe8;
  xbc; x89; x0a; xe9; x9a; x9b; x0a; xe5;
  x89; xa4; x0a; xe5; x9c; xa8; x0a; xe6;
  x9d; x90; x0a; xe7; xbd; xaa; x0a; xe8;
  xb2; xa1; x0a; xe5; x86; xb4; x0a; xe5;
  x9d; x82; x0a; xe9; x98; xaa; x0a; xe5;
  xa0; xba; x0a; xe6; xa6; x8a; x0a; xe8;
  x82; xb4; x0a; xe5; x92; xb2; x0a; xe5;
  xb4; x8e; x0a; xe5; x9f; xbc; x0a; xe7;
  xa2; x95; x0a; xe9; xb7; xba; x0a; xe4;
  xbd; x9c; x0a; xe5; x89; x8a; x0a; xe5;
  x92; x8b; x0a; xe6; x90; xbe; x0a; xe6;
  x98; xa8; x0a; xe6; x9c; x94; x0a; xe6
].
(* tests/test_data/whatwg/shiftjis_whatwg_test_decode_out.txt, entries 6656..6911 *)
Definition shiftjis_decode_out_26 : list byte := [
  x9f; xb5; x0a; xe7; xaa; x84; x0a; xe7;
  xad; x96; x0a; xe7; xb4; xa2; x0a; xe9;
  x8c; xaf; x0a; xe6; xa1; x9c; x0a; xe9;
  xae; xad; x0a; xe7; xac; xb9; x0a; xe5;
  x8c; x99; x0a; xe5; x86; x8a; x0a; xe5;
  x88; xb7; x0a; xe5; xaf; x9f; x0a; xe6;
  x8b; xb6; x0a; xe6; x92; xae; x0a; xe6;
  x93; xa6; x0a; xe6; x9c; xad; x0a; xe6;
  xae; xba; x0a; xe8; x96; xa9; x0a; xe9;
  x9b; x91; x0a; xe7; x9a; x90; x0a; xe9;
  xaf; x96; x0a; xe6; x8d; x8c; x0a; xe9;
  x8c; x86; x0a; xe9; xae; xab; x0a; xe7;
  x9a; xbf; x0a; xe6; x99; x92; x0a; xe4;
  xb8; x89; x0a; xe5; x82; x98; x0a; xe5;
  x8f; x82; x0a; xe5; xb1; xb1; x0a; xe6;
  x83; xa8; x0a; xe6; x92; x92; x0a; xe6;
  x95; xa3; x0a; xe6; xa1; x9f; x0a; xe7;
  x87; xa6; x0a; xe7; x8f; x8a; x0a; xe7;
  x94; xa3; x0a; xe7; xae; x97; x0a; xe7;
  xba; x82; x0a; xe8; x9a; x95; x0a; xe8;
  xae; x83; x0a; xe8; xb3; x9b; x0a; xe9;
  x85; xb8; x0a; xe9; xa4; x90; x0a; xe6;
  x96; xac; x0a; xe6; x9a; xab; x0a; xe6;
  xae; x8b; x0a; xe4; xbb; x95; x0a; xe4;
  xbb; x94; x0a; xe4; xbc; xba; x0a; xe4;
  xbd; xbf; x0a; xe5; x88; xba; x0a; xe5;
  x8f; xb8; x0a; xe5; x8f; xb2; x0a; xe5;
  x97; xa3; x0a; xe5; x9b; x9b; x0a; xe5;
  xa3; xab; x0a; xe5; xa7; x8b; x0a; xe5;
  xa7; x89; x0a; xe5; xa7; xbf; x0a; xe5;
  xad; x90; x0a; xe5; xb1; x8d; x0a; xe5;
  xb8; x82; x0a; xe5; xb8; xab; x0a; xe5
].
(* tests/test_data/whatwg/shiftjis_whatwg_test_decode_out.txt, entries 6912..7167 *)
Definition shiftjis_decode_out_27 : list byte := [
  xbf; x97; x0a; xe6; x80; x9d; x0a; xe6;
  x8c; x87; x0a; xe6; x94; xaf; x0a; xe5;
  xad; x9c; x0a; xe6; x96; xaf; x0a; xe6;
  x96; xbd; x0a; xe6; x97; xa8; x0a; xe6;
  x9e; x9d; x0a; xe6; xad; xa2; x0a; xe6;
  xad; xbb; x0a; xe6; xb0; x8f; x0a; xe7;
  x8d; x85; x0a; xe7; xa5; x89; x0a; xe7;
  xa7; x81; x0a; xe7; xb3; xb8; x0a; xe7;
  xb4; x99; x0a; xe7; xb4; xab; x0a; xe8;
  x82; xa2; x0a; xe8; x84; x82; x0a; xe8;
  x87; xb3; x0a; xe8; xa6; x96; x0a; xe8;
  xa9; x9e; x0a; xe8; xa9; xa9; x0a; xe8;
  xa9; xa6; x0a; xe8; xaa; x8c; x0a; xe8;
  xab; xae; x0a; xe8; xb3; x87; x0a; xe8;
  xb3; x9c; x0a; xe9; x9b; x8c; x0a; xe9;
  xa3; xbc; x0a; xe6; xad; xaf; x0a; xe4;
  xba; x8b; x0a; xe4; xbc; xbc; x0a; xe4;
  xbe; x8d; x0a; xe5; x85; x90; x0a; xe5;
  xad; x97; x0a; xe5; xaf; xba; x0a; xe6;
  x85; x88; x0a; xe6; x8c; x81; x0a; xe6;
  x99; x82; x0a; xe6; xac; xa1; x0a; xe6;
  xbb; x8b; x0a; xe6; xb2; xbb; x0a; xe7;
  x88; xbe; x0a; xe7; x92; xbd; x0a; xe7;
  x97; x94; x0a; xe7; xa3; x81; x0a; xe7;
  xa4; xba; x0a; xe8; x80; x8c; x0a; xe8;
  x80; xb3; x0a; xe8; x87; xaa; x0a; xe8;
  x92; x94; x0a; xe8; xbe; x9e; x0a; xe6;
  xb1; x90; x0a; xe9; xb9; xbf; x0a; xe5;
  xbc; x8f; x0a; xe8; xad; x98; x0a; xe9;
  xb4; xab; x0a; xe7; xab; xba; x0a; xe8;
  xbb; xb8; x0a; xe5; xae; x8d; x0a; xe9;
  x9b; xab; x0a; xe4; xb8; x83; x0a; xe5
].
(* tests/test_data/whatwg/shiftjis_whatwg_test_decode_out.txt, entries 7168..7423 *)
Definition shiftjis_decode_out_28 : list byte := [
  x8f; xb1; x0a; xe5; x9f; xb7; x0a; xe5;
  xa4; xb1; x0a; xe5; xab; x89; x0a; xe5;
  xae; xa4; x0a; xe6; x82; x89; x0a; xe6;
  xb9; xbf; x0a; xe6; xbc; x86; x0a; xe7;
  x96; xbe; x0a; xe8; xb3; xaa; x0a; xe5;
  xae; x9f; x0a; xe8; x94; x80; x0a; xe7;
  xaf; xa0; x0a; xe5; x81; xb2; x0a; xe6;
  x9f; xb4; x0a; xe8; x8a; x9d; x0a; xe5;
  xb1; xa1; x0a; xe8; x95; x8a; x0a; xe7;
  xb8; x9e; x0a; xe8; x88; x8e; x0a; xe5;
  x86; x99; x0a; xe5; xb0; x84; x0a; xe6;
  x8d; xa8; x0a; xe8; xb5; xa6; x0a; xe6;
  x96; x9c; x0a; xe7; x85; xae; x0a; xe7;
  xa4; xbe; x0a; xe7; xb4; x97; x0a; xe8;
  x80; x85; x0a; xe8; xac; x9d; x0a; xe8;
  xbb; x8a; x0a; xe9; x81; xae; x0a; xe8;
  x9b; x87; x0a; xe9; x82; xaa; x0a; xe5;
  x80; x9f; x0a; xe5; x8b; xba; x0a; xe5;
  xb0; xba; x0a; xe6; x9d; x93; x0a; xe7;
  x81; xbc; x0a; xe7; x88; xb5; x0a; xe9;
  x85; x8c; x0a; xe9; x87; x88; x0a; xe9;
  x8c; xab; x0a; xe8; x8b; xa5; x0a; xe5;
  xaf; x82; x0a; xe5; xbc; xb1; x0a; xe6;
  x83; xb9; x0a; xe4; xb8; xbb; x0a; xe5;
  x8f; x96; x0a; xe5; xae; x88; x0a; xe6;
  x89; x8b; x0a; xe6; x9c; xb1; x0a; xe6;
  xae; x8a; x0a; xe7; x8b; xa9; x0a; xe7;
  x8f; xa0; x0a; xe7; xa8; xae; x0a; xe8;
  x85; xab; x0a; xe8; xb6; xa3; x0a; xe9;
  x85; x92; x0a; xe9; xa6; x96; x0a; xe5;
  x84; x92; x0a; xe5; x8f; x97; x0a; xe5;
  x91; xaa; x0a; xe5; xaf; xbf; x0a; xe6
].
(* tests/test_data/whatwg/shiftjis_whatwg_test_decode_out.txt, entries 7424..7679 *)
Definition shiftjis_decode_out_29 : list byte := [
  x8e; x88; x0a; xe6; xa8; xb9; x0a; xe7;
  xb6; xac; x0a; xe9; x9c; x80; x0a; xe5;
  x9b; x9a; x0a; xe5; x8f; x8e; x0a; xe5;
  x91; xa8; x0a; xe5; xae; x97; x0a; xe5;
  xb0; xb1; x0a; xe5; xb7; x9e; x0a; xe4;
  xbf; xae; x0a; xe6; x84; x81; x0a; xe6;
  x8b; xbe; x0a; xe6; xb4; xb2; x0a; xe7;
  xa7; x80; x0a; xe7; xa7; x8b; x0a; xe7;
  xb5; x82; x0a; xe7; xb9; x8d; x0a; xe7;
  xbf; x92; x0a; xe8; x87; xad; x0a; xe8;
  x88; x9f; x0a; xe8; x92; x90; x0a; xe8;
  xa1; x86; x0a; xe8; xa5; xb2; x0a; xe8;
  xae; x90; x0a; xe8; xb9; xb4; x0a; xe8;
  xbc; xaf; x0a; xe9; x80; xb1; x0a; xe9;
  x85; x8b; x0a; xe9; x85; xac; x0a; xe9;
  x9b; x86; x0a; xe9; x86; x9c; x0a; xe4;
  xbb; x80; x0a; xe4; xbd; x8f; x0a; xe5;
  x85; x85; x0a; xe5; x8d; x81; x0a; xe5;
  xbe; x93; x0a; xe6; x88; x8e; x0a; xe6;
  x9f; x94; x0a; xe6; xb1; x81; x0a; xe6;
  xb8; x8b; x0a; xe7; x8d; xa3; x0a; xe7;
  xb8; xa6; x0a; xe9; x87; x8d; x0a; xe9;
  x8a; x83; x0a; xe5; x8f; x94; x0a; xe5;
  xa4; x99; x0a; xe5; xae; xbf; x0a; xe6;
  xb7; x91; x0a; xe7; xa5; x9d; x0a; xe7;
  xb8; xae; x0a; xe7; xb2; x9b; x0a; xe5;
  xa1; xbe; x0a; xe7; x86; x9f; x0a; xe5;
  x87; xba; x0a; xe8; xa1; x93; x0a; xe8;
  xbf; xb0; x0a; xe4; xbf; x8a; x0a; xe5;
  xb3; xbb; x0a; xe6; x98; xa5; x0a; xe7;
  x9e; xac; x0a; xe7; xab; xa3; x0a; xe8;
  x88; x9c; x0a; xe9; xa7; xbf; x0a; xe5
].
(* tests/test_data/whatwg/shiftjis_whatwg_test_decode_out.txt, entries 7680..7935 *)
Definition shiftjis_decode_out_30 : list byte := [
  x87; x86; x0a; xe5; xbe; xaa; x0a; xe6;
  x97; xac; x0a; xe6; xa5; xaf; x0a; xe6;
  xae; x89; x0a; xe6; xb7; xb3; x0a; xe6;
  xba; x96; x0a; xe6; xbd; xa4; x0a; xe7;
  x9b; xbe; x0a; xe7; xb4; x94; x0a; xe5;
  xb7; xa1; x0a; xe9; x81; xb5; x0a; xe9;
  x86; x87; x0a; xe9; xa0; x86; x0a; xe5;
  x87; xa6; x0a; xe5; x88; x9d; x0a; xe6;
  x89; x80; x0a; xe6; x9a; x91; x0a; xe6;
  x9b; x99; x0a; xe6; xb8; x9a; x0a; xe5;
  xba; xb6; x0a; xe7; xb7; x92; x0a; xe7;
  xbd; xb2; x0a; xe6; x9b; xb8; x0a; xe8;
  x96; xaf; x0a; xe8; x97; xb7; x0a; xe8;
  xab; xb8; x0a; xe5; x8a; xa9; x0a; xe5;
  x8f; x99; x0a; xe5; xa5; xb3; x0a; xe5;
  xba; x8f; x0a; xe5; xbe; x90; x0a; xe6;
  x81; x95; x0a; xe9; x8b; xa4; x0a; xe9;
  x99; xa4; x0a; xe5; x82; xb7; x0a; xe5;
  x84; x9f; x0a; xe5; x8b; x9d; x0a; xe5;
  x8c; xa0; x0a; xe5; x8d; x87; x0a; xe5;
  x8f; xac; x0a; xe5; x93; xa8; x0a; xe5;
  x95; x86; x0a; xe5; x94; xb1; x0a; xe5;
  x98; x97; x0a; xe5; xa5; xa8; x0a; xe5;
  xa6; xbe; x0a; xe5; xa8; xbc; x0a; xe5;
  xae; xb5; x0a; xe5; xb0; x86; x0a; xe5;
  xb0; x8f; x0a; xe5; xb0; x91; x0a; xe5;
  xb0; x9a; x0a; xe5; xba; x84; x0a; xe5;
  xba; x8a; x0a; xe5; xbb; xa0; x0a; xe5;
  xbd; xb0; x0a; xe6; x89; xbf; x0a; xe6;
  x8a; x84; x0a; xe6; x8b; x9b; x0a; xe6;
  x8e; x8c; x0a; xe6; x8d; xb7; x0a; xe6;
  x98; x87; x0a; xe6; x98; x8c; x0a; xe6
].
(* tests/test_data/whatwg/shiftjis_whatwg_test_decode_out.txt, entries 7936..8191 *)
Definition shiftjis_decode_out_31 : list byte := [
  x98; xad; x0a; xe6; x99; xb6; x0a; xe6;
  x9d; xbe; x0a; xe6; xa2; xa2; x0a; xe6;
  xa8; x9f; x0a; xe6; xa8; xb5; x0a; xe6;
  xb2; xbc; x0a; xe6; xb6; x88; x0a; xe6;
  xb8; x89; x0a; xe6; xb9; x98; x0a; xe7;
  x84; xbc; x0a; xe7; x84; xa6; x0a; xe7;
  x85; xa7; x0a; xe7; x97; x87; x0a; xe7;
  x9c; x81; x0a; xe7; xa1; x9d; x0a; xe7;
  xa4; x81; x0a; xe7; xa5; xa5; x0a; xe7;
  xa7; xb0; x0a; xe7; xab; xa0; x0a; xe7;
  xac; x91; x0a; xe7; xb2; xa7; x0a; xe7;
  xb4; xb9; x0a; xe8; x82; x96; x0a; xe8;
  x8f; x96; x0a; xe8; x92; x8b; x0a; xe8;
  x95; x89; x0a; xe8; xa1; x9d; x0a; xe8;
  xa3; xb3; x0a; xe8; xa8; x9f; x0a; xe8;
  xa8; xbc; x0a; xe8; xa9; x94; x0a; xe8;
  xa9; xb3; x0a; xe8; xb1; xa1; x0a; xe8;
  xb3; x9e; x0a; xe9; x86; xa4; x0a; xe9;
  x89; xa6; x0a; xe9; x8d; xbe; x0a; xe9;
  x90; x98; x0a; xe9; x9a; x9c; x0a; xe9;
  x9e; x98; x0a; xe4; xb8; x8a; x0a; xe4;
  xb8; x88; x0a; xe4; xb8; x9e; x0a; xe4;
  xb9; x97; x0a; xe5; x86; x97; x0a; xe5;
  x89; xb0; x0a; xe5; x9f; x8e; x0a; xe5;
  xa0; xb4; x0a; xe5; xa3; x8c; x0a; xe5;
  xac; xa2; x0a; xe5; xb8; xb8; x0a; xe6;
  x83; x85; x0a; xe6; x93; xbe; x0a; xe6;
  x9d; xa1; x0a; xe6; x9d; x96; x0a; xe6;
  xb5; x84; x0a; xe7; x8a; xb6; x0a; xe7;
  x95; xb3; x0a; xe7; xa9; xa3; x0a; xe8;
  x92; xb8; x0a; xe8; xad; xb2; x0a; xe9;
  x86; xb8; x0a; xe9; x8c; xa0; x0a; xe5
].
(* tests/test_data/whatwg/shiftjis_whatwg_test_decode_out.txt, entries 8192..8447 *)
Definition shiftjis_decode_out_32 : list byte := [
  x98; xb1; x0a; xe5; x9f; xb4; x0a; xe9;
  xa3; xbe; x0a; xe6; x8b; xad; x0a; xe6;
  xa4; x8d; x0a; xe6; xae; x96; x0a; xe7;
  x87; xad; x0a; xe7; xb9; x94; x0a; xe8;
  x81; xb7; x0a; xe8; x89; xb2; x0a; xe8;
  xa7; xa6; x0a; xe9; xa3; x9f; x0a; xe8;
  x9d; x95; x0a; xe8; xbe; xb1; x0a; xe5;
  xb0; xbb; x0a; xe4; xbc; xb8; x0a; xe4;
  xbf; xa1; x0a; xe4; xbe; xb5; x0a; xe5;
  x94; x87; x0a; xe5; xa8; xa0; x0a; xe5;
  xaf; x9d; x0a; xe5; xaf; xa9; x0a; xe5;
  xbf; x83; x0a; xe6; x85; x8e; x0a; xe6;
  x8c; xaf; x0a; xe6; x96; xb0; x0a; xe6;
  x99; x8b; x0a; xe6; xa3; xae; x0a; xe6;
  xa6; x9b; x0a; xe6; xb5; xb8; x0a; xe6;
  xb7; xb1; x0a; xe7; x94; xb3; x0a; xe7;
  x96; xb9; x0a; xe7; x9c; x9f; x0a; xe7;
  xa5; x9e; x0a; xe7; xa7; xa6; x0a; xe7;
  xb4; xb3; x0a; xe8; x87; xa3; x0a; xe8;
  x8a; xaf; x0a; xe8; x96; xaa; x0a; xe8;
  xa6; xaa; x0a; xe8; xa8; xba; x0a; xe8;
  xba; xab; x0a; xe8; xbe; x9b; x0a; xe9;
  x80; xb2; x0a; xe9; x87; x9d; x0a; xe9;
  x9c; x87; x0a; xe4; xba; xba; x0a; xe4;
  xbb; x81; x0a; xe5; x88; x83; x0a; xe5;
  xa1; xb5; x0a; xe5; xa3; xac; x0a; xe5;
  xb0; x8b; x0a; xe7; x94; x9a; x0a; xe5;
  xb0; xbd; x0a; xe8; x85; x8e; x0a; xe8;
  xa8; x8a; x0a; xe8; xbf; x85; x0a; xe9;
  x99; xa3; x0a; xe9; x9d; xad; x0a; xe7;
  xac; xa5; x0a; xe8; xab; x8f; x0a; xe9;
  xa0; x88; x0a; xe9; x85; xa2; x0a; xe5
].
(* tests/test_data/whatwg/shiftjis_whatwg_test_decode_out.txt, entries 8448..8703 *)
Definition shiftjis_decode_out_33 : list byte := [
  x9b; xb3; x0a; xe5; x8e; xa8; x0a; xe9;
  x80; x97; x0a; xe5; x90; xb9; x0a; xe5;
  x9e; x82; x0a; xe5; xb8; xa5; x0a; xe6;
  x8e; xa8; x0a; xe6; xb0; xb4; x0a; xe7;
  x82; x8a; x0a; xe7; x9d; xa1; x0a; xe7;
  xb2; x8b; x0a; xe7; xbf; xa0; x0a; xe8;
  xa1; xb0; x0a; xe9; x81; x82; x0a; xe9;
  x85; x94; x0a; xe9; x8c; x90; x0a; xe9;
  x8c; x98; x0a; xe9; x9a; x8f; x0a; xe7;
  x91; x9e; x0a; xe9; xab; x84; x0a; xe5;
  xb4; x87; x0a; xe5; xb5; xa9; x0a; xe6;
  x95; xb0; x0a; xe6; x9e; xa2; x0a; xe8;
  xb6; xa8; x0a; xe9; x9b; x9b; x0a; xe6;
  x8d; xae; x0a; xe6; x9d; x89; x0a; xe6;
  xa4; x99; x0a; xe8; x8f; x85; x0a; xe9;
  xa0; x97; x0a; xe9; x9b; x80; x0a; xe8;
  xa3; xbe; x0a; xe6; xbe; x84; x0a; xe6;
  x91; xba; x0a; xe5; xaf; xb8; x0a; xe4;
  xb8; x96; x0a; xe7; x80; xac; x0a; xe7;
  x95; x9d; x0a; xe6; x98; xaf; x0a; xe5;
  x87; x84; x0a; xe5; x88; xb6; x0a; xe5;
  x8b; xa2; x0a; xe5; xa7; x93; x0a; xe5;
  xbe; x81; x0a; xe6; x80; xa7; x0a; xe6;
  x88; x90; x0a; xe6; x94; xbf; x0a; xe6;
  x95; xb4; x0a; xe6; x98; x9f; x0a; xe6;
  x99; xb4; x0a; xe6; xa3; xb2; x0a; xe6;
  xa0; x96; x0a; xe6; xad; xa3; x0a; xe6;
  xb8; x85; x0a; xe7; x89; xb2; x0a; xe7;
  x94; x9f; x0a; xe7; x9b; x9b; x0a; xe7;
  xb2; xbe; x0a; xe8; x81; x96; x0a; xe5;
  xa3; xb0; x0a; xe8; xa3; xbd; x0a; xe8;
  xa5; xbf; x0a; xe8; xaa; xa0; x0a; xe8
].
(* tests/test_data/whatwg/shiftjis_whatwg_test_decode_out.txt, entries 8704..8959 *)
Definition shiftjis_decode_out_34 : list byte := [
  xaa; x93; x0a; xe8; xab; x8b; x0a; xe9;
  x80; x9d; x0a; xe9; x86; x92; x0a; xe9;
  x9d; x92; x0a; xe9; x9d; x99; x0a; xe6;
  x96; x89; x0a; xe7; xa8; x8e; x0a; xe8;
  x84; x86; x0a; xe9; x9a; xbb; x0a; xe5;
  xb8; xad; x0a; xe6; x83; x9c; x0a; xe6;
  x88; x9a; x0a; xe6; x96; xa5; x0a; xe6;
  x98; x94; x0a; xe6; x9e; x90; x0a; xe7;
  x9f; xb3; x0a; xe7; xa9; x8d; x0a; xe7;
  xb1; x8d; x0a; xe7; xb8; xbe; x0a; xe8;
  x84; x8a; x0a; xe8; xb2; xac; x0a; xe8;
  xb5; xa4; x0a; xe8; xb7; xa1; x0a; xe8;
  xb9; x9f; x0a; xe7; xa2; xa9; x0a; xe5;
  x88; x87; x0a; xe6; x8b; x99; x0a; xe6;
  x8e; xa5; x0a; xe6; x91; x82; x0a; xe6;
  x8a; x98; x0a; xe8; xa8; xad; x0a; xe7;
  xaa; x83; x0a; xe7; xaf; x80; x0a; xe8;
  xaa; xac; x0a; xe9; x9b; xaa; x0a; xe7;
  xb5; xb6; x0a; xe8; x88; x8c; x0a; xe8;
  x9d; x89; x0a; xe4; xbb; x99; x0a; xe5;
  x85; x88; x0a; xe5; x8d; x83; x0a; xe5;
  x8d; xa0; x0a; xe5; xae; xa3; x0a; xe5;
  xb0; x82; x0a; xe5; xb0; x96; x0a; xe5;
  xb7; x9d; x0a; xe6; x88; xa6; x0a; xe6;
  x89; x87; x0a; xe6; x92; xb0; x0a; xe6;
  xa0; x93; x0a; xe6; xa0; xb4; x0a; xe6;
  xb3; x89; x0a; xe6; xb5; x85; x0a; xe6;
  xb4; x97; x0a; xe6; x9f; x93; x0a; xe6;
  xbd; x9c; x0a; xe7; x85; x8e; x0a; xe7;
  x85; xbd; x0a; xe6; x97; x8b; x0a; xe7;
  xa9; xbf; x0a; xe7; xae; xad; x0a; xe7;
  xb7; x9a; x0a; xe7; xb9; x8a; x0a; xe7
].
(* tests/test_data/whatwg/shiftjis_whatwg_test_decode_out.txt, entries 8960..9215 *)
Definition shiftjis_decode_out_35 : list byte := [
  xbe; xa8; x0a; xe8; x85; xba; x0a; xe8;
  x88; x9b; x0a; xe8; x88; xb9; x0a; xe8;
  x96; xa6; x0a; xe8; xa9; xae; x0a; xe8;
  xb3; x8e; x0a; xe8; xb7; xb5; x0a; xe9;
  x81; xb8; x0a; xe9; x81; xb7; x0a; xe9;
  x8a; xad; x0a; xe9; x8a; x91; x0a; xe9;
  x96; x83; x0a; xe9; xae; xae; x0a; xe5;
  x89; x8d; x0a; xe5; x96; x84; x0a; xe6;
  xbc; xb8; x0a; xe7; x84; xb6; x0a; xe5;
  x85; xa8; x0a; xe7; xa6; x85; x0a; xe7;
  xb9; x95; x0a; xe8; x86; xb3; x0a; xe7;
  xb3; x8e; x0a; xe5; x99; x8c; x0a; xe5;
  xa1; x91; x0a; xe5; xb2; xa8; x0a; xe6;
  x8e; xaa; x0a; xe6; x9b; xbe; x0a; xe6;
  x9b; xbd; x0a; xe6; xa5; x9a; x0a; xe7;
  x8b; x99; x0a; xe7; x96; x8f; x0a; xe7;
  x96; x8e; x0a; xe7; xa4; x8e; x0a; xe7;
  xa5; x96; x0a; xe7; xa7; x9f; x0a; xe7;
  xb2; x97; x0a; xe7; xb4; xa0; x0a; xe7;
  xb5; x84; x0a; xe8; x98; x87; x0a; xe8;
  xa8; xb4; x0a; xe9; x98; xbb; x0a; xe9;
  x81; xa1; x0a; xe9; xbc; xa0; x0a; xe5;
  x83; xa7; x0a; xe5; x89; xb5; x0a; xe5;
  x8f; x8c; x0a; xe5; x8f; xa2; x0a; xe5;
  x80; x89; x0a; xe5; x96; xaa; x0a; xe5;
  xa3; xae; x0a; xe5; xa5; x8f; x0a; xe7;
  x88; xbd; x0a; xe5; xae; x8b; x0a; xe5;
  xb1; xa4; x0a; xe5; x8c; x9d; x0a; xe6;
  x83; xa3; x0a; xe6; x83; xb3; x0a; xe6;
  x8d; x9c; x0a; xe6; x8e; x83; x0a; xe6;
  x8c; xbf; x0a; xe6; x8e; xbb; x0a; xe6;
  x93; x8d; x0a; xe6; x97; xa9; x0a; xe6
].
(* tests/test_data/whatwg/shiftjis_whatwg_test_decode_out.txt, entries 9216..9471 *)
Definition shiftjis_decode_out_36 : list byte := [
  x9b; xb9; x0a; xe5; xb7; xa3; x0a; xe6;
  xa7; x8d; x0a; xe6; xa7; xbd; x0a; xe6;
  xbc; x95; x0a; xe7; x87; xa5; x0a; xe4;
  xba; x89; x0a; xe7; x97; xa9; x0a; xe7;
  x9b; xb8; x0a; xe7; xaa; x93; x0a; xe7;
  xb3; x9f; x0a; xe7; xb7; x8f; x0a; xe7;
  xb6; x9c; x0a; xe8; x81; xa1; x0a; xe8;
  x8d; x89; x0a; xe8; x8d; x98; x0a; xe8;
  x91; xac; x0a; xe8; x92; xbc; x0a; xe8;
  x97; xbb; x0a; xe8; xa3; x85; x0a; xe8;
  xb5; xb0; x0a; xe9; x80; x81; x0a; xe9;
  x81; xad; x0a; xe9; x8e; x97; x0a; xe9;
  x9c; x9c; x0a; xe9; xa8; x92; x0a; xe5;
  x83; x8f; x0a; xe5; xa2; x97; x0a; xe6;
  x86; x8e; x0a; xe8; x87; x93; x0a; xe8;
  x94; xb5; x0a; xe8; xb4; x88; x0a; xe9;
  x80; xa0; x0a; xe4; xbf; x83; x0a; xe5;
  x81; xb4; x0a; xe5; x89; x87; x0a; xe5;
  x8d; xb3; x0a; xe6; x81; xaf; x0a; xe6;
  x8d; x89; x0a; xe6; x9d; x9f; x0a; xe6;
  xb8; xac; x0a; xe8; xb6; xb3; x0a; xe9;
  x80; x9f; x0a; xe4; xbf; x97; x0a; xe5;
  xb1; x9e; x0a; xe8; xb3; x8a; x0a; xe6;
  x97; x8f; x0a; xe7; xb6; x9a; x0a; xe5;
  x8d; x92; x0a; xe8; xa2; x96; x0a; xe5;
  x85; xb6; x0a; xe6; x8f; x83; x0a; xe5;
  xad; x98; x0a; xe5; xad; xab; x0a; xe5;
  xb0; x8a; x0a; xe6; x90; x8d; x0a; xe6;
  x9d; x91; x0a; xe9; x81; x9c; x0a; xe4;
  xbb; x96; x0a; xe5; xa4; x9a; x0a; xe5;
  xa4; xaa; x0a; xe6; xb1; xb0; x0a; xe8;
  xa9; x91; x0a; xe5; x94; xbe; x0a; xe5
].
(* tests/test_data/whatwg/shiftjis_whatwg_test_decode_out.txt, entries 9472..9727 *)
Definition shiftjis_decode_out_37 : list byte := [
  xa0; x95; x0a; xe5; xa6; xa5; x0a; xe6;
  x83; xb0; x0a; xe6; x89; x93; x0a; xe6;
  x9f; x81; x0a; xe8; x88; xb5; x0a; xe6;
  xa5; x95; x0a; xe9; x99; x80; x0a; xe9;
  xa7; x84; x0a; xe9; xa8; xa8; x0a; xe4;
  xbd; x93; x0a; xe5; xa0; x86; x0a; xe5;
  xaf; xbe; x0a; xe8; x80; x90; x0a; xe5;
  xb2; xb1; x0a; xe5; xb8; xaf; x0a; xe5;
  xbe; x85; x0a; xe6; x80; xa0; x0a; xe6;
  x85; x8b; x0a; xe6; x88; xb4; x0a; xe6;
  x9b; xbf; x0a; xe6; xb3; xb0; x0a; xe6;
  xbb; x9e; x0a; xe8; x83; x8e; x0a; xe8;
  x85; xbf; x0a; xe8; x8b; x94; x0a; xe8;
  xa2; x8b; x0a; xe8; xb2; xb8; x0a; xe9;
  x80; x80; x0a; xe9; x80; xae; x0a; xe9;
  x9a; x8a; x0a; xe9; xbb; x9b; x0a; xe9;
  xaf; x9b; x0a; xe4; xbb; xa3; x0a; xe5;
  x8f; xb0; x0a; xe5; xa4; xa7; x0a; xe7;
  xac; xac; x0a; xe9; x86; x8d; x0a; xe9;
  xa1; x8c; x0a; xe9; xb7; xb9; x0a; xe6;
  xbb; x9d; x0a; xe7; x80; xa7; x0a; xe5;
  x8d; x93; x0a; xe5; x95; x84; x0a; xe5;
  xae; x85; x0a; xe6; x89; x98; x0a; xe6;
  x8a; x9e; x0a; xe6; x8b; x93; x0a; xe6;
  xb2; xa2; x0a; xe6; xbf; xaf; x0a; xe7;
  x90; xa2; x0a; xe8; xa8; x97; x0a; xe9;
  x90; xb8; x0a; xe6; xbf; x81; x0a; xe8;
  xab; xbe; x0a; xe8; x8c; xb8; x0a; xe5;
  x87; xa7; x0a; xe8; x9b; xb8; x0a; xe5;
  x8f; xaa; x0a; xe5; x8f; xa9; x0a; xe4;
  xbd; x86; x0a; xe9; x81; x94; x0a; xe8;
  xbe; xb0; x0a; xe5; xa5; xaa; x0a; xe8
].
(* tests/test_data/whatwg/shiftjis_whatwg_test_decode_out.txt, entries 9728..9983 *)
Definition shiftjis_decode_out_38 : list byte := [
  x84; xb1; x0a; xe5; xb7; xbd; x0a; xe7;
  xab; xaa; x0a; xe8; xbe; xbf; x0a; xe6;
  xa3; x9a; x0a; xe8; xb0; xb7; x0a; xe7;
  x8b; xb8; x0a; xe9; xb1; x88; x0a; xe6;
  xa8; xbd; x0a; xe8; xaa; xb0; x0a; xe4;
  xb8; xb9; x0a; xe5; x8d; x98; x0a; xe5;
  x98; x86; x0a; xe5; x9d; xa6; x0a; xe6;
  x8b; x85; x0a; xe6; x8e; xa2; x0a; xe6;
  x97; xa6; x0a; xe6; xad; x8e; x0a; xe6;
  xb7; xa1; x0a; xe6; xb9; x9b; x0a; xe7;
  x82; xad; x0a; xe7; x9f; xad; x0a; xe7;
  xab; xaf; x0a; xe7; xae; xaa; x0a; xe7;
  xb6; xbb; x0a; xe8; x80; xbd; x0a; xe8;
  x83; x86; x0a; xe8; x9b; x8b; x0a; xe8;
  xaa; x95; x0a; xe9; x8d; x9b; x0a; xe5;
  x9b; xa3; x0a; xe5; xa3; x87; x0a; xe5;
  xbc; xbe; x0a; xe6; x96; xad; x0a; xe6;
  x9a; x96; x0a; xe6; xaa; x80; x0a; xe6;
  xae; xb5; x0a; xe7; x94; xb7; x0a; xe8;
  xab; x87; x0a; xe5; x80; xa4; x0a; xe7;
  x9f; xa5; x0a; xe5; x9c; xb0; x0a; xe5;
  xbc; x9b; x0a; xe6; x81; xa5; x0a; xe6;
  x99; xba; x0a; xe6; xb1; xa0; x0a; xe7;
  x97; xb4; x0a; xe7; xa8; x9a; x0a; xe7;
  xbd; xae; x0a; xe8; x87; xb4; x0a; xe8;
  x9c; x98; x0a; xe9; x81; x85; x0a; xe9;
  xa6; xb3; x0a; xe7; xaf; x89; x0a; xe7;
  x95; x9c; x0a; xe7; xab; xb9; x0a; xe7;
  xad; x91; x0a; xe8; x93; x84; x0a; xe9;
  x80; x90; x0a; xe7; xa7; xa9; x0a; xe7;
  xaa; x92; x0a; xe8; x8c; xb6; x0a; xe5;
  xab; xa1; x0a; xe7; x9d; x80; x0a; xe4
].
(* tests/test_data/whatwg/shiftjis_whatwg_test_decode_out.txt, entries 9984..10239 *)
Definition shiftjis_decode_out_39 : list byte := [
  xb8; xad; x0a; xe4; xbb; xb2; x0a; xe5;
  xae; x99; x0a; xe5; xbf; xa0; x0a; xe6;
  x8a; xbd; x0a; xe6; x98; xbc; x0a; xe6;
  x9f; xb1; x0a; xe6; xb3; xa8; x0a; xe8;
  x99; xab; x0a; xe8; xa1; xb7; x0a; xe8;
  xa8; xbb; x0a; xe9; x85; x8e; x0a; xe9;
  x8b; xb3; x0a; xe9; xa7; x90; x0a; xe6;
  xa8; x97; x0a; xe7; x80; xa6; x0a; xe7;
  x8c; xaa; x0a; xe8; x8b; xa7; x0a; xe8;
  x91; x97; x0a; xe8; xb2; xaf; x0a; xe4;
  xb8; x81; x0a; xe5; x85; x86; x0a; xe5;
  x87; x8b; x0a; xe5; x96; x8b; x0a; xe5;
  xaf; xb5; x0a; xe5; xb8; x96; x0a; xe5;
  xb8; xb3; x0a; xe5; xba; x81; x0a; xe5;
  xbc; x94; x0a; xe5; xbc; xb5; x0a; xe5;
  xbd; xab; x0a; xe5; xbe; xb4; x0a; xe6;
  x87; xb2; x0a; xe6; x8c; x91; x0a; xe6;
  x9a; xa2; x0a; xe6; x9c; x9d; x0a; xe6;
  xbd; xae; x0a; xe7; x89; x92; x0a; xe7;
  x94; xba; x0a; xe7; x9c; xba; x0a; xe8;
  x81; xb4; x0a; xe8; x84; xb9; x0a; xe8;
  x85; xb8; x0a; xe8; x9d; xb6; x0a; xe8;
  xaa; xbf; x0a; xe8; xab; x9c; x0a; xe8;
  xb6; x85; x0a; xe8; xb7; xb3; x0a; xe9;
  x8a; x9a; x0a; xe9; x95; xb7; x0a; xe9;
  xa0; x82; x0a; xe9; xb3; xa5; x0a; xe5;
  x8b; x85; x0a; xe6; x8d; x97; x0a; xe7;
  x9b; xb4; x0a; xe6; x9c; x95; x0a; xe6;
  xb2; x88; x0a; xe7; x8f; x8d; x0a; xe8;
  xb3; x83; x0a; xe9; x8e; xae; x0a; xe9;
  x99; xb3; x0a; xe6; xb4; xa5; x0a; xe5;
  xa2; x9c; x0a; xe6; xa4; x8e; x0a; xe6
].
(* tests/test_data/whatwg/shiftjis_whatwg_test_decode_out.txt, entries 10240..10495 *)
Definition shiftjis_decode_out_40 : list byte := [
  xa7; x8c; x0a; xe8; xbf; xbd; x0a; xe9;
  x8e; x9a; x0a; xe7; x97; x9b; x0a; xe9;
  x80; x9a; x0a; xe5; xa1; x9a; x0a; xe6;
  xa0; x82; x0a; xe6; x8e; xb4; x0a; xe6;
  xa7; xbb; x0a; xe4; xbd; x83; x0a; xe6;
  xbc; xac; x0a; xe6; x9f; x98; x0a; xe8;
  xbe; xbb; x0a; xe8; x94; xa6; x0a; xe7;
  xb6; xb4; x0a; xe9; x8d; x94; x0a; xe6;
  xa4; xbf; x0a; xe6; xbd; xb0; x0a; xe5;
  x9d; xaa; x0a; xe5; xa3; xb7; x0a; xe5;
  xac; xac; x0a; xe7; xb4; xac; x0a; xe7;
  x88; xaa; x0a; xe5; x90; x8a; x0a; xe9;
  x87; xa3; x0a; xe9; xb6; xb4; x0a; xe4;
  xba; xad; x0a; xe4; xbd; x8e; x0a; xe5;
  x81; x9c; x0a; xe5; x81; xb5; x0a; xe5;
  x89; x83; x0a; xe8; xb2; x9e; x0a; xe5;
  x91; x88; x0a; xe5; xa0; xa4; x0a; xe5;
  xae; x9a; x0a; xe5; xb8; x9d; x0a; xe5;
  xba; x95; x0a; xe5; xba; xad; x0a; xe5;
  xbb; xb7; x0a; xe5; xbc; x9f; x0a; xe6;
  x82; x8c; x0a; xe6; x8a; xb5; x0a; xe6;
  x8c; xba; x0a; xe6; x8f; x90; x0a; xe6;
  xa2; xaf; x0a; xe6; xb1; x80; x0a; xe7;
  xa2; x87; x0a; xe7; xa6; x8e; x0a; xe7;
  xa8; x8b; x0a; xe7; xb7; xa0; x0a; xe8;
  x89; x87; x0a; xe8; xa8; x82; x0a; xe8;
  xab; xa6; x0a; xe8; xb9; x84; x0a; xe9;
  x80; x93; x0a; xe9; x82; xb8; x0a; xe9;
  x84; xad; x0a; xe9; x87; x98; x0a; xe9;
  xbc; x8e; x0a; xe6; xb3; xa5; x0a; xe6;
  x91; x98; x0a; xe6; x93; xa2; x0a; xe6;
  x95; xb5; x0a; xe6; xbb; xb4; x0a; xe7
].
(* tests/test_data/whatwg/shiftjis_whatwg_test_decode_out.txt, entries 10496..10751 *)
Definition shiftjis_decode_out_41 : list byte := [
  x9a; x84; x0a; xe7; xac; x9b; x0a; xe9;
  x81; xa9; x0a; xe9; x8f; x91; x0a; xe6;
  xba; xba; x0a; xe5; x93; xb2; x0a; xe5;
  xbe; xb9; x0a; xe6; x92; xa4; x0a; xe8;
  xbd; x8d; x0a; xe8; xbf; xad; x0a; xe9;
  x89; x84; x0a; xe5; x85; xb8; x0a; xe5;
  xa1; xab; x0a; xe5; xa4; xa9; x0a; xe5;
  xb1; x95; x0a; xe5; xba; x97; x0a; xe6;
  xb7; xbb; x0a; xe7; xba; x8f; x0a; xe7;
  x94; x9c; x0a; xe8; xb2; xbc; x0a; xe8;
  xbb; xa2; x0a; xe9; xa1; x9b; x0a; xe7;
  x82; xb9; x0a; xe4; xbc; x9d; x0a; xe6;
  xae; xbf; x0a; xe6; xbe; xb1; x0a; xe7;
  x94; xb0; x0a; xe9; x9b; xbb; x0a; xe5;
  x85; x8e; x0a; xe5; x90; x90; x0a; xe5;
  xa0; xb5; x0a; xe5; xa1; x97; x0a; xe5;
  xa6; xac; x0a; xe5; xb1; xa0; x0a; xe5;
  xbe; x92; x0a; xe6; x96; x97; x0a; xe6;
  x9d; x9c; x0a; xe6; xb8; xa1; x0a; xe7;
  x99; xbb; x0a; xe8; x8f; x9f; x0a; xe8;
  xb3; xad; x0a; xe9; x80; x94; x0a; xe9;
  x83; xbd; x0a; xe9; x8d; x8d; x0a; xe7;
  xa0; xa5; x0a; xe7; xa0; xba; x0a; xe5;
  x8a; xaa; x0a; xe5; xba; xa6; x0a; xe5;
  x9c; x9f; x0a; xe5; xa5; xb4; x0a; xe6;
  x80; x92; x0a; xe5; x80; x92; x0a; xe5;
  x85; x9a; x0a; xe5; x86; xac; x0a; xe5;
  x87; x8d; x0a; xe5; x88; x80; x0a; xe5;
  x94; x90; x0a; xe5; xa1; x94; x0a; xe5;
  xa1; x98; x0a; xe5; xa5; x97; x0a; xe5;
  xae; x95; x0a; xe5; xb3; xb6; x0a; xe5;
  xb6; x8b; x0a; xe6; x82; xbc; x0a; xe6
].
(* tests/test_data/whatwg/shiftjis_whatwg_test_decode_out.txt, entries 10752..11007 *)
Definition shiftjis_decode_out_42 : list byte := [
  x8a; x95; x0a; xe6; x90; xad; x0a; xe6;
  x9d; xb1; x0a; xe6; xa1; x83; x0a; xe6;
  xa2; xbc; x0a; xe6; xa3; x9f; x0a; xe7;
  x9b; x97; x0a; xe6; xb7; x98; x0a; xe6;
  xb9; xaf; x0a; xe6; xb6; x9b; x0a; xe7;
  x81; xaf; x0a; xe7; x87; x88; x0a; xe5;
  xbd; x93; x0a; xe7; x97; x98; x0a; xe7;
  xa5; xb7; x0a; xe7; xad; x89; x0a; xe7;
  xad; x94; x0a; xe7; xad; x92; x0a; xe7;
  xb3; x96; x0a; xe7; xb5; xb1; x0a; xe5;
  x88; xb0; x0a; xe8; x91; xa3; x0a; xe8;
  x95; xa9; x0a; xe8; x97; xa4; x0a; xe8;
  xa8; x8e; x0a; xe8; xac; x84; x0a; xe8;
  xb1; x86; x0a; xe8; xb8; x8f; x0a; xe9;
  x80; x83; x0a; xe9; x80; x8f; x0a; xe9;
  x90; x99; x0a; xe9; x99; xb6; x0a; xe9;
  xa0; xad; x0a; xe9; xa8; xb0; x0a; xe9;
  x97; x98; x0a; xe5; x83; x8d; x0a; xe5;
  x8b; x95; x0a; xe5; x90; x8c; x0a; xe5;
  xa0; x82; x0a; xe5; xb0; x8e; x0a; xe6;
  x86; xa7; x0a; xe6; x92; x9e; x0a; xe6;
  xb4; x9e; x0a; xe7; x9e; xb3; x0a; xe7;
  xab; xa5; x0a; xe8; x83; xb4; x0a; xe8;
  x90; x84; x0a; xe9; x81; x93; x0a; xe9;
  x8a; x85; x0a; xe5; xb3; xa0; x0a; xe9;
  xb4; x87; x0a; xe5; x8c; xbf; x0a; xe5;
  xbe; x97; x0a; xe5; xbe; xb3; x0a; xe6;
  xb6; x9c; x0a; xe7; x89; xb9; x0a; xe7;
  x9d; xa3; x0a; xe7; xa6; xbf; x0a; xe7;
  xaf; xa4; x0a; xe6; xaf; x92; x0a; xe7;
  x8b; xac; x0a; xe8; xaa; xad; x0a; xe6;
  xa0; x83; x0a; xe6; xa9; xa1; x0a; xe5
].
(* tests/test_data/whatwg/shiftjis_whatwg_test_decode_out.txt, entries 11008..11263 *)
Definition shiftjis_decode_out_43 : list byte := [
  x87; xb8; x0a; xe7; xaa; x81; x0a; xe6;
  xa4; xb4; x0a; xe5; xb1; x8a; x0a; xe9;
  xb3; xb6; x0a; xe8; x8b; xab; x0a; xe5;
  xaf; x85; x0a; xe9; x85; x89; x0a; xe7;
  x80; x9e; x0a; xe5; x99; xb8; x0a; xe5;
  xb1; xaf; x0a; xe6; x83; x87; x0a; xe6;
  x95; xa6; x0a; xe6; xb2; x8c; x0a; xe8;
  xb1; x9a; x0a; xe9; x81; x81; x0a; xe9;
  xa0; x93; x0a; xe5; x91; x91; x0a; xe6;
  x9b; x87; x0a; xe9; x88; x8d; x0a; xe5;
  xa5; x88; x0a; xe9; x82; xa3; x0a; xe5;
  x86; x85; x0a; xe4; xb9; x8d; x0a; xe5;
  x87; xaa; x0a; xe8; x96; x99; x0a; xe8;
  xac; x8e; x0a; xe7; x81; x98; x0a; xe6;
  x8d; xba; x0a; xe9; x8d; x8b; x0a; xe6;
  xa5; xa2; x0a; xe9; xa6; xb4; x0a; xe7;
  xb8; x84; x0a; xe7; x95; xb7; x0a; xe5;
  x8d; x97; x0a; xe6; xa5; xa0; x0a; xe8;
  xbb; x9f; x0a; xe9; x9b; xa3; x0a; xe6;
  xb1; x9d; x0a; xe4; xba; x8c; x0a; xe5;
  xb0; xbc; x0a; xe5; xbc; x90; x0a; xe8;
  xbf; xa9; x0a; xe5; x8c; x82; x0a; xe8;
  xb3; x91; x0a; xe8; x82; x89; x0a; xe8;
  x99; xb9; x0a; xe5; xbb; xbf; x0a; xe6;
  x97; xa5; x0a; xe4; xb9; xb3; x0a; xe5;
  x85; xa5; x0a; xe5; xa6; x82; x0a; xe5;
  xb0; xbf; x0a; xe9; x9f; xae; x0a; xe4;
  xbb; xbb; x0a; xe5; xa6; x8a; x0a; xe5;
  xbf; x8d; x0a; xe8; xaa; x8d; x0a; xe6;
  xbf; xa1; x0a; xe7; xa6; xb0; x0a; xe7;
  xa5; xa2; x0a; xe5; xaf; xa7; x0a; xe8;
  x91; xb1; x0a; xe7; x8c; xab; x0a; xe7
].
(* tests/test_data/whatwg/shiftjis_whatwg_test_decode_out.txt, entries 11264..11519 *)
Definition shiftjis_decode_out_44 : list byte := [
  x86; xb1; x0a; xe5; xb9; xb4; x0a; xe5;
  xbf; xb5; x0a; xe6; x8d; xbb; x0a; xe6;
  x92; x9a; x0a; xe7; x87; x83; x0a; xe7;
  xb2; x98; x0a; xe4; xb9; x83; x0a; xe5;
  xbb; xbc; x0a; xe4; xb9; x8b; x0a; xe5;
  x9f; x9c; x0a; xe5; x9a; xa2; x0a; xe6;
  x82; xa9; x0a; xe6; xbf; x83; x0a; xe7;
  xb4; x8d; x0a; xe8; x83; xbd; x0a; xe8;
  x84; xb3; x0a; xe8; x86; xbf; x0a; xe8;
  xbe; xb2; x0a; xe8; xa6; x97; x0a; xe8;
  x9a; xa4; x0a; xe5; xb7; xb4; x0a; xe6;
  x8a; x8a; x0a; xe6; x92; xad; x0a; xe8;
  xa6; x87; x0a; xe6; x9d; xb7; x0a; xe6;
  xb3; xa2; x0a; xe6; xb4; xbe; x0a; xe7;
  x90; xb6; x0a; xe7; xa0; xb4; x0a; xe5;
  xa9; x86; x0a; xe7; xbd; xb5; x0a; xe8;
  x8a; xad; x0a; xe9; xa6; xac; x0a; xe4;
  xbf; xb3; x0a; xe5; xbb; x83; x0a; xe6;
  x8b; x9d; x0a; xe6; x8e; x92; x0a; xe6;
  x95; x97; x0a; xe6; x9d; xaf; x0a; xe7;
  x9b; x83; x0a; xe7; x89; x8c; x0a; xe8;
  x83; x8c; x0a; xe8; x82; xba; x0a; xe8;
  xbc; xa9; x0a; xe9; x85; x8d; x0a; xe5;
  x80; x8d; x0a; xe5; x9f; xb9; x0a; xe5;
  xaa; x92; x0a; xe6; xa2; x85; x0a; xe6;
  xa5; xb3; x0a; xe7; x85; xa4; x0a; xe7;
  x8b; xbd; x0a; xe8; xb2; xb7; x0a; xe5;
  xa3; xb2; x0a; xe8; xb3; xa0; x0a; xe9;
  x99; xaa; x0a; xe9; x80; x99; x0a; xe8;
  x9d; xbf; x0a; xe7; xa7; xa4; x0a; xe7;
  x9f; xa7; x0a; xe8; x90; xa9; x0a; xe4;
  xbc; xaf; x0a; xe5; x89; xa5; x0a; xe5
].
(* tests/test_data/whatwg/shiftjis_whatwg_test_decode_out.txt, entries 11520..11775 *)
Definition shiftjis_decode_out_45 : list byte := [
  x8d; x9a; x0a; xe6; x8b; x8d; x0a; xe6;
  x9f; x8f; x0a; xe6; xb3; x8a; x0a; xe7;
  x99; xbd; x0a; xe7; xae; x94; x0a; xe7;
  xb2; x95; x0a; xe8; x88; xb6; x0a; xe8;
  x96; x84; x0a; xe8; xbf; xab; x0a; xe6;
  x9b; x9d; x0a; xe6; xbc; xa0; x0a; xe7;
  x88; x86; x0a; xe7; xb8; x9b; x0a; xe8;
  x8e; xab; x0a; xe9; xa7; x81; x0a; xe9;
  xba; xa6; x0a; xe5; x87; xbd; x0a; xe7;
  xae; xb1; x0a; xe7; xa1; xb2; x0a; xe7;
  xae; xb8; x0a; xe8; x82; x87; x0a; xe7;
  xad; x88; x0a; xe6; xab; xa8; x0a; xe5;
  xb9; xa1; x0a; xe8; x82; x8c; x0a; xe7;
  x95; x91; x0a; xe7; x95; xa0; x0a; xe5;
  x85; xab; x0a; xe9; x89; xa2; x0a; xe6;
  xba; x8c; x0a; xe7; x99; xba; x0a; xe9;
  x86; x97; x0a; xe9; xab; xaa; x0a; xe4;
  xbc; x90; x0a; xe7; xbd; xb0; x0a; xe6;
  x8a; x9c; x0a; xe7; xad; x8f; x0a; xe9;
  x96; xa5; x0a; xe9; xb3; xa9; x0a; xe5;
  x99; xba; x0a; xe5; xa1; x99; x0a; xe8;
  x9b; xa4; x0a; xe9; x9a; xbc; x0a; xe4;
  xbc; xb4; x0a; xe5; x88; xa4; x0a; xe5;
  x8d; x8a; x0a; xe5; x8f; x8d; x0a; xe5;
  x8f; x9b; x0a; xe5; xb8; x86; x0a; xe6;
  x90; xac; x0a; xe6; x96; x91; x0a; xe6;
  x9d; xbf; x0a; xe6; xb0; xbe; x0a; xe6;
  xb1; x8e; x0a; xe7; x89; x88; x0a; xe7;
  x8a; xaf; x0a; xe7; x8f; xad; x0a; xe7;
  x95; x94; x0a; xe7; xb9; x81; x0a; xe8;
  x88; xac; x0a; xe8; x97; xa9; x0a; xe8;
  xb2; xa9; x0a; xe7; xaf; x84; x0a; xe9
].
(* tests/test_data/whatwg/shiftjis_whatwg_test_decode_out.txt, entries 11776..12031 *)
Definition shiftjis_decode_out_46 : list byte := [
  x87; x86; x0a; xe7; x85; xa9; x0a; xe9;
  xa0; x92; x0a; xe9; xa3; xaf; x0a; xe6;
  x8c; xbd; x0a; xe6; x99; xa9; x0a; xe7;
  x95; xaa; x0a; xe7; x9b; xa4; x0a; xe7;
  xa3; x90; x0a; xe8; x95; x83; x0a; xe8;
  x9b; xae; x0a; xe5; x8c; xaa; x0a; xe5;
  x8d; x91; x0a; xe5; x90; xa6; x0a; xe5;
  xa6; x83; x0a; xe5; xba; x87; x0a; xe5;
  xbd; xbc; x0a; xe6; x82; xb2; x0a; xe6;
  x89; x89; x0a; xe6; x89; xb9; x0a; xe6;
  x8a; xab; x0a; xe6; x96; x90; x0a; xe6;
  xaf; x94; x0a; xe6; xb3; x8c; x0a; xe7;
  x96; xb2; x0a; xe7; x9a; xae; x0a; xe7;
  xa2; x91; x0a; xe7; xa7; x98; x0a; xe7;
  xb7; x8b; x0a; xe7; xbd; xb7; x0a; xe8;
  x82; xa5; x0a; xe8; xa2; xab; x0a; xe8;
  xaa; xb9; x0a; xe8; xb2; xbb; x0a; xe9;
  x81; xbf; x0a; xe9; x9d; x9e; x0a; xe9;
  xa3; x9b; x0a; xe6; xa8; x8b; x0a; xe7;
  xb0; xb8; x0a; xe5; x82; x99; x0a; xe5;
  xb0; xbe; x0a; xe5; xbe; xae; x0a; xe6;
  x9e; x87; x0a; xe6; xaf; x98; x0a; xe7;
  x90; xb5; x0a; xe7; x9c; x89; x0a; xe7;
  xbe; x8e; x0a; xe9; xbc; xbb; x0a; xe6;
  x9f; x8a; x0a; xe7; xa8; x97; x0a; xe5;
  x8c; xb9; x0a; xe7; x96; x8b; x0a; xe9;
  xab; xad; x0a; xe5; xbd; xa6; x0a; xe8;
  x86; x9d; x0a; xe8; x8f; xb1; x0a; xe8;
  x82; x98; x0a; xe5; xbc; xbc; x0a; xe5;
  xbf; x85; x0a; xe7; x95; xa2; x0a; xe7;
  xad; x86; x0a; xe9; x80; xbc; x0a; xe6;
  xa1; xa7; x0a; xe5; xa7; xab; x0a; xe5
].
(* tests/test_data/whatwg/shiftjis_whatwg_test_decode_out.txt, entries 12032..12287 *)
Definition shiftjis_decode_out_47 : list byte := [
  xaa; x9b; x0a; xe7; xb4; x90; x0a; xe7;
  x99; xbe; x0a; xe8; xac; xac; x0a; xe4;
  xbf; xb5; x0a; xe5; xbd; xaa; x0a; xe6;
  xa8; x99; x0a; xe6; xb0; xb7; x0a; xe6;
  xbc; x82; x0a; xe7; x93; xa2; x0a; xe7;
  xa5; xa8; x0a; xe8; xa1; xa8; x0a; xe8;
  xa9; x95; x0a; xe8; xb1; xb9; x0a; xe5;
  xbb; x9f; x0a; xe6; x8f; x8f; x0a; xe7;
  x97; x85; x0a; xe7; xa7; x92; x0a; xe8;
  x8b; x97; x0a; xe9; x8c; xa8; x0a; xe9;
  x8b; xb2; x0a; xe8; x92; x9c; x0a; xe8;
  x9b; xad; x0a; xe9; xb0; xad; x0a; xe5;
  x93; x81; x0a; xe5; xbd; xac; x0a; xe6;
  x96; x8c; x0a; xe6; xb5; x9c; x0a; xe7;
  x80; x95; x0a; xe8; xb2; xa7; x0a; xe8;
  xb3; x93; x0a; xe9; xa0; xbb; x0a; xe6;
  x95; x8f; x0a; xe7; x93; xb6; x0a; xe4;
  xb8; x8d; x0a; xe4; xbb; x98; x0a; xe5;
  x9f; xa0; x0a; xe5; xa4; xab; x0a; xe5;
  xa9; xa6; x0a; xe5; xaf; x8c; x0a; xe5;
  x86; xa8; x0a; xe5; xb8; x83; x0a; xe5;
  xba; x9c; x0a; xe6; x80; x96; x0a; xe6;
  x89; xb6; x0a; xe6; x95; xb7; x0a; xe6;
  x96; xa7; x0a; xe6; x99; xae; x0a; xe6;
  xb5; xae; x0a; xe7; x88; xb6; x0a; xe7;
  xac; xa6; x0a; xe8; x85; x90; x0a; xe8;
  x86; x9a; x0a; xe8; x8a; x99; x0a; xe8;
  xad; x9c; x0a; xe8; xb2; xa0; x0a; xe8;
  xb3; xa6; x0a; xe8; xb5; xb4; x0a; xe9;
  x98; x9c; x0a; xe9; x99; x84; x0a; xe4;
  xbe; xae; x0a; xe6; x92; xab; x0a; xe6;
  xad; xa6; x0a; xe8; x88; x9e; x0a; xe8
].
(* tests/test_data/whatwg/shiftjis_whatwg_test_decode_out.txt, entries 12288..12543 *)
Definition shiftjis_decode_out_48 : list byte := [
  x91; xa1; x0a; xe8; x95; xaa; x0a; xe9;
  x83; xa8; x0a; xe5; xb0; x81; x0a; xe6;
  xa5; x93; x0a; xe9; xa2; xa8; x0a; xe8;
  x91; xba; x0a; xe8; x95; x97; x0a; xe4;
  xbc; x8f; x0a; xe5; x89; xaf; x0a; xe5;
  xbe; xa9; x0a; xe5; xb9; x85; x0a; xe6;
  x9c; x8d; x0a; xe7; xa6; x8f; x0a; xe8;
  x85; xb9; x0a; xe8; xa4; x87; x0a; xe8;
  xa6; x86; x0a; xe6; xb7; xb5; x0a; xe5;
  xbc; x97; x0a; xe6; x89; x95; x0a; xe6;
  xb2; xb8; x0a; xe4; xbb; x8f; x0a; xe7;
  x89; xa9; x0a; xe9; xae; x92; x0a; xe5;
  x88; x86; x0a; xe5; x90; xbb; x0a; xe5;
  x99; xb4; x0a; xe5; xa2; xb3; x0a; xe6;
  x86; xa4; x0a; xe6; x89; xae; x0a; xe7;
  x84; x9a; x0a; xe5; xa5; xae; x0a; xe7;
  xb2; x89; x0a; xe7; xb3; x9e; x0a; xe7;
  xb4; x9b; x0a; xe9; x9b; xb0; x0a; xe6;
  x96; x87; x0a; xe8; x81; x9e; x0a; xe4;
  xb8; x99; x0a; xe4; xbd; xb5; x0a; xe5;
  x85; xb5; x0a; xe5; xa1; x80; x0a; xe5;
  xb9; xa3; x0a; xe5; xb9; xb3; x0a; xe5;
  xbc; x8a; x0a; xe6; x9f; x84; x0a; xe4;
  xb8; xa6; x0a; xe8; x94; xbd; x0a; xe9;
  x96; x89; x0a; xe9; x99; x9b; x0a; xe7;
  xb1; xb3; x0a; xe9; xa0; x81; x0a; xe5;
  x83; xbb; x0a; xe5; xa3; x81; x0a; xe7;
  x99; x96; x0a; xe7; xa2; xa7; x0a; xe5;
  x88; xa5; x0a; xe7; x9e; xa5; x0a; xe8;
  x94; x91; x0a; xe7; xae; x86; x0a; xe5;
  x81; x8f; x0a; xe5; xa4; x89; x0a; xe7;
  x89; x87; x0a; xe7; xaf; x87; x0a; xe7
].
(* tests/test_data/whatwg/shiftjis_whatwg_test_decode_out.txt, entries 12544..12799 *)
Definition shiftjis_decode_out_49 : list byte := [
  xb7; xa8; x0a; xe8; xbe; xba; x0a; xe8;
  xbf; x94; x0a; xe9; x81; x8d; x0a; xe4;
  xbe; xbf; x0a; xe5; x8b; x89; x0a; xe5;
  xa8; xa9; x0a; xe5; xbc; x81; x0a; xe9;
  x9e; xad; x0a; xe4; xbf; x9d; x0a; xe8;
  x88; x97; x0a; xe9; x8b; xaa; x0a; xe5;
  x9c; x83; x0a; xe6; x8d; x95; x0a; xe6;
  xad; xa9; x0a; xe7; x94; xab; x0a; xe8;
  xa3; x9c; x0a; xe8; xbc; x94; x0a; xe7;
  xa9; x82; x0a; xe5; x8b; x9f; x0a; xe5;
  xa2; x93; x0a; xe6; x85; x95; x0a; xe6;
  x88; x8a; x0a; xe6; x9a; xae; x0a; xe6;
  xaf; x8d; x0a; xe7; xb0; xbf; x0a; xe8;
  x8f; xa9; x0a; xe5; x80; xa3; x0a; xe4;
  xbf; xb8; x0a; xe5; x8c; x85; x0a; xe5;
  x91; x86; x0a; xe5; xa0; xb1; x0a; xe5;
  xa5; x89; x0a; xe5; xae; x9d; x0a; xe5;
  xb3; xb0; x0a; xe5; xb3; xaf; x0a; xe5;
  xb4; xa9; x0a; xe5; xba; x96; x0a; xe6;
  x8a; xb1; x0a; xe6; x8d; xa7; x0a; xe6;
  x94; xbe; x0a; xe6; x96; xb9; x0a; xe6;
  x9c; x8b; x0a; xe6; xb3; x95; x0a; xe6;
  xb3; xa1; x0a; xe7; x83; xb9; x0a; xe7;
  xa0; xb2; x0a; xe7; xb8; xab; x0a; xe8;
  x83; x9e; x0a; xe8; x8a; xb3; x0a; xe8;
  x90; x8c; x0a; xe8; x93; xac; x0a; xe8;
  x9c; x82; x0a; xe8; xa4; x92; x0a; xe8;
  xa8; xaa; x0a; xe8; xb1; x8a; x0a; xe9;
  x82; xa6; x0a; xe9; x8b; x92; x0a; xe9;
  xa3; xbd; x0a; xe9; xb3; xb3; x0a; xe9;
  xb5; xac; x0a; xe4; xb9; x8f; x0a; xe4;
  xba; xa1; x0a; xe5; x82; x8d; x0a; xe5
].
(* tests/test_data/whatwg/shiftjis_whatwg_test_decode_out.txt, entries 12800..13055 *)
Definition shiftjis_decode_out_50 : list byte := [
  x89; x96; x0a; xe5; x9d; x8a; x0a; xe5;
  xa6; xa8; x0a; xe5; xb8; xbd; x0a; xe5;
  xbf; x98; x0a; xe5; xbf; x99; x0a; xe6;
  x88; xbf; x0a; xe6; x9a; xb4; x0a; xe6;
  x9c; x9b; x0a; xe6; x9f; x90; x0a; xe6;
  xa3; x92; x0a; xe5; x86; x92; x0a; xe7;
  xb4; xa1; x0a; xe8; x82; xaa; x0a; xe8;
  x86; xa8; x0a; xe8; xac; x80; x0a; xe8;
  xb2; x8c; x0a; xe8; xb2; xbf; x0a; xe9;
  x89; xbe; x0a; xe9; x98; xb2; x0a; xe5;
  x90; xa0; x0a; xe9; xa0; xac; x0a; xe5;
  x8c; x97; x0a; xe5; x83; x95; x0a; xe5;
  x8d; x9c; x0a; xe5; xa2; xa8; x0a; xe6;
  x92; xb2; x0a; xe6; x9c; xb4; x0a; xe7;
  x89; xa7; x0a; xe7; x9d; xa6; x0a; xe7;
  xa9; x86; x0a; xe9; x87; xa6; x0a; xe5;
  x8b; x83; x0a; xe6; xb2; xa1; x0a; xe6;
  xae; x86; x0a; xe5; xa0; x80; x0a; xe5;
  xb9; x8c; x0a; xe5; xa5; x94; x0a; xe6;
  x9c; xac; x0a; xe7; xbf; xbb; x0a; xe5;
  x87; xa1; x0a; xe7; x9b; x86; x0a; xe6;
  x91; xa9; x0a; xe7; xa3; xa8; x0a; xe9;
  xad; x94; x0a; xe9; xba; xbb; x0a; xe5;
  x9f; x8b; x0a; xe5; xa6; xb9; x0a; xe6;
  x98; xa7; x0a; xe6; x9e; x9a; x0a; xe6;
  xaf; x8e; x0a; xe5; x93; xa9; x0a; xe6;
  xa7; x99; x0a; xe5; xb9; x95; x0a; xe8;
  x86; x9c; x0a; xe6; x9e; x95; x0a; xe9;
  xae; xaa; x0a; xe6; x9f; xbe; x0a; xe9;
  xb1; x92; x0a; xe6; xa1; x9d; x0a; xe4;
  xba; xa6; x0a; xe4; xbf; xa3; x0a; xe5;
  x8f; x88; x0a; xe6; x8a; xb9; x0a; xe6
].
(* tests/test_data/whatwg/shiftjis_whatwg_test_decode_out.txt, entries 13056..13311 *)
Definition shiftjis_decode_out_51 : list byte := [
  x9c; xab; x0a; xe6; xb2; xab; x0a; xe8;
  xbf; x84; x0a; xe4; xbe; xad; x0a; xe7;
  xb9; xad; x0a; xe9; xba; xbf; x0a; xe4;
  xb8; x87; x0a; xe6; x85; xa2; x0a; xe6;
  xba; x80; x0a; xe6; xbc; xab; x0a; xe8;
  x94; x93; x0a; xe5; x91; xb3; x0a; xe6;
  x9c; xaa; x0a; xe9; xad; x85; x0a; xe5;
  xb7; xb3; x0a; xe7; xae; x95; x0a; xe5;
  xb2; xac; x0a; xe5; xaf; x86; x0a; xe8;
  x9c; x9c; x0a; xe6; xb9; x8a; x0a; xe8;
  x93; x91; x0a; xe7; xa8; x94; x0a; xe8;
  x84; x88; x0a; xe5; xa6; x99; x0a; xe7;
  xb2; x8d; x0a; xe6; xb0; x91; x0a; xe7;
  x9c; xa0; x0a; xe5; x8b; x99; x0a; xe5;
  xa4; xa2; x0a; xe7; x84; xa1; x0a; xe7;
  x89; x9f; x0a; xe7; x9f; x9b; x0a; xe9;
  x9c; xa7; x0a; xe9; xb5; xa1; x0a; xe6;
  xa4; x8b; x0a; xe5; xa9; xbf; x0a; xe5;
  xa8; x98; x0a; xe5; x86; xa5; x0a; xe5;
  x90; x8d; x0a; xe5; x91; xbd; x0a; xe6;
  x98; x8e; x0a; xe7; x9b; x9f; x0a; xe8;
  xbf; xb7; x0a; xe9; x8a; x98; x0a; xe9;
  xb3; xb4; x0a; xe5; xa7; xaa; x0a; xe7;
  x89; x9d; x0a; xe6; xbb; x85; x0a; xe5;
  x85; x8d; x0a; xe6; xa3; x89; x0a; xe7;
  xb6; xbf; x0a; xe7; xb7; xac; x0a; xe9;
  x9d; xa2; x0a; xe9; xba; xba; x0a; xe6;
  x91; xb8; x0a; xe6; xa8; xa1; x0a; xe8;
  x8c; x82; x0a; xe5; xa6; x84; x0a; xe5;
  xad; x9f; x0a; xe6; xaf; x9b; x0a; xe7;
  x8c; x9b; x0a; xe7; x9b; xb2; x0a; xe7;
  xb6; xb2; x0a; xe8; x80; x97; x0a; xe8
].
(* tests/test_data/whatwg/shiftjis_whatwg_test_decode_out.txt, entries 13312..13567 *)
Definition shiftjis_decode_out_52 : list byte := [
  x92; x99; x0a; xe5; x84; xb2; x0a; xe6;
  x9c; xa8; x0a; xe9; xbb; x99; x0a; xe7;
  x9b; xae; x0a; xe6; x9d; xa2; x0a; xe5;
  x8b; xbf; x0a; xe9; xa4; x85; x0a; xe5;
  xb0; xa4; x0a; xe6; x88; xbb; x0a; xe7;
  xb1; xbe; x0a; xe8; xb2; xb0; x0a; xe5;
  x95; x8f; x0a; xe6; x82; xb6; x0a; xe7;
  xb4; x8b; x0a; xe9; x96; x80; x0a; xe5;
  x8c; x81; x0a; xe4; xb9; x9f; x0a; xe5;
  x86; xb6; x0a; xe5; xa4; x9c; x0a; xe7;
  x88; xba; x0a; xe8; x80; xb6; x0a; xe9;
  x87; x8e; x0a; xe5; xbc; xa5; x0a; xe7;
  x9f; xa2; x0a; xe5; x8e; x84; x0a; xe5;
  xbd; xb9; x0a; xe7; xb4; x84; x0a; xe8;
  x96; xac; x0a; xe8; xa8; xb3; x0a; xe8;
  xba; x8d; x0a; xe9; x9d; x96; x0a; xe6;
  x9f; xb3; x0a; xe8; x96; xae; x0a; xe9;
  x91; x93; x0a; xe6; x84; x89; x0a; xe6;
  x84; x88; x0a; xe6; xb2; xb9; x0a; xe7;
  x99; x92; x0a; xe8; xab; xad; x0a; xe8;
  xbc; xb8; x0a; xe5; x94; xaf; x0a; xe4;
  xbd; x91; x0a; xe5; x84; xaa; x0a; xe5;
  x8b; x87; x0a; xe5; x8f; x8b; x0a; xe5;
  xae; xa5; x0a; xe5; xb9; xbd; x0a; xe6;
  x82; xa0; x0a; xe6; x86; x82; x0a; xe6;
  x8f; x96; x0a; xe6; x9c; x89; x0a; xe6;
  x9f; x9a; x0a; xe6; xb9; xa7; x0a; xe6;
  xb6; x8c; x0a; xe7; x8c; xb6; x0a; xe7;
  x8c; xb7; x0a; xe7; x94; xb1; x0a; xe7;
  xa5; x90; x0a; xe8; xa3; x95; x0a; xe8;
  xaa; x98; x0a; xe9; x81; x8a; x0a; xe9;
  x82; x91; x0a; xe9; x83; xb5; x0a; xe9
].
(* tests/test_data/whatwg/shiftjis_whatwg_test_decode_out.txt, entries 13568..13823 *)
Definition shiftjis_decode_out_53 : list byte := [
  x9b; x84; x0a; xe8; x9e; x8d; x0a; xe5;
  xa4; x95; x0a; xe4; xba; x88; x0a; xe4;
  xbd; x99; x0a; xe4; xb8; x8e; x0a; xe8;
  xaa; x89; x0a; xe8; xbc; xbf; x0a; xe9;
  xa0; x90; x0a; xe5; x82; xad; x0a; xe5;
  xb9; xbc; x0a; xe5; xa6; x96; x0a; xe5;
  xae; xb9; x0a; xe5; xba; xb8; x0a; xe6;
  x8f; x9a; x0a; xe6; x8f; xba; x0a; xe6;
  x93; x81; x0a; xe6; x9b; x9c; x0a; xe6;
  xa5; x8a; x0a; xe6; xa7; x98; x0a; xe6;
  xb4; x8b; x0a; xe6; xba; xb6; x0a; xe7;
  x86; x94; x0a; xe7; x94; xa8; x0a; xe7;
  xaa; xaf; x0a; xe7; xbe; x8a; x0a; xe8;
  x80; x80; x0a; xe8; x91; x89; x0a; xe8;
  x93; x89; x0a; xe8; xa6; x81; x0a; xe8;
  xac; xa1; x0a; xe8; xb8; x8a; x0a; xe9;
  x81; xa5; x0a; xe9; x99; xbd; x0a; xe9;
  xa4; x8a; x0a; xe6; x85; xbe; x0a; xe6;
  x8a; x91; x0a; xe6; xac; xb2; x0a; xe6;
  xb2; x83; x0a; xe6; xb5; xb4; x0a; xe7;
  xbf; x8c; x0a; xe7; xbf; xbc; x0a; xe6;
  xb7; x80; x0a; xe7; xbe; x85; x0a; xe8;
  x9e; xba; x0a; xe8; xa3; xb8; x0a; xe6;
  x9d; xa5; x0a; xe8; x8e; xb1; x0a; xe9;
  xa0; xbc; x0a; xe9; x9b; xb7; x0a; xe6;
  xb4; x9b; x0a; xe7; xb5; xa1; x0a; xe8;
  x90; xbd; x0a; xe9; x85; xaa; x0a; xe4;
  xb9; xb1; x0a; xe5; x8d; xb5; x0a; xe5;
  xb5; x90; x0a; xe6; xac; x84; x0a; xe6;
  xbf; xab; x0a; xe8; x97; x8d; x0a; xe8;
  x98; xad; x0a; xe8; xa6; xa7; x0a; xe5;
  x88; xa9; x0a; xe5; x90; x8f; x0a; xe5
].
(* tests/test_data/whatwg/shiftjis_whatwg_test_decode_out.txt, entries 13824..14079 *)
Definition shiftjis_decode_out_54 : list byte := [
  xb1; xa5; x0a; xe6; x9d; x8e; x0a; xe6;
  xa2; xa8; x0a; xe7; x90; x86; x0a; xe7;
  x92; x83; x0a; xe7; x97; xa2; x0a; xe8;
  xa3; x8f; x0a; xe8; xa3; xa1; x0a; xe9;
  x87; x8c; x0a; xe9; x9b; xa2; x0a; xe9;
  x99; xb8; x0a; xe5; xbe; x8b; x0a; xe7;
  x8e; x87; x0a; xe7; xab; x8b; x0a; xe8;
  x91; x8e; x0a; xe6; x8e; xa0; x0a; xe7;
  x95; xa5; x0a; xe5; x8a; x89; x0a; xe6;
  xb5; x81; x0a; xe6; xba; x9c; x0a; xe7;
  x90; x89; x0a; xe7; x95; x99; x0a; xe7;
  xa1; xab; x0a; xe7; xb2; x92; x0a; xe9;
  x9a; x86; x0a; xe7; xab; x9c; x0a; xe9;
  xbe; x8d; x0a; xe4; xbe; xb6; x0a; xe6;
  x85; xae; x0a; xe6; x97; x85; x0a; xe8;
  x99; x9c; x0a; xe4; xba; x86; x0a; xe4;
  xba; xae; x0a; xe5; x83; x9a; x0a; xe4;
  xb8; xa1; x0a; xe5; x87; x8c; x0a; xe5;
  xaf; xae; x0a; xe6; x96; x99; x0a; xe6;
  xa2; x81; x0a; xe6; xb6; xbc; x0a; xe7;
  x8c; x9f; x0a; xe7; x99; x82; x0a; xe7;
  x9e; xad; x0a; xe7; xa8; x9c; x0a; xe7;
  xb3; xa7; x0a; xe8; x89; xaf; x0a; xe8;
  xab; x92; x0a; xe9; x81; xbc; x0a; xe9;
  x87; x8f; x0a; xe9; x99; xb5; x0a; xe9;
  xa0; x98; x0a; xe5; x8a; x9b; x0a; xe7;
  xb7; x91; x0a; xe5; x80; xab; x0a; xe5;
  x8e; x98; x0a; xe6; x9e; x97; x0a; xe6;
  xb7; x8b; x0a; xe7; x87; x90; x0a; xe7;
  x90; xb3; x0a; xe8; x87; xa8; x0a; xe8;
  xbc; xaa; x0a; xe9; x9a; xa3; x0a; xe9;
  xb1; x97; x0a; xe9; xba; x9f; x0a; xe7
].
(* tests/test_data/whatwg/shiftjis_whatwg_test_decode_out.txt, entries 14080..14335 *)
Definition shiftjis_decode_out_55 : list byte := [
  x91; xa0; x0a; xe5; xa1; x81; x0a; xe6;
  xb6; x99; x0a; xe7; xb4; xaf; x0a; xe9;
  xa1; x9e; x0a; xe4; xbb; xa4; x0a; xe4;
  xbc; xb6; x0a; xe4; xbe; x8b; x0a; xe5;
  x86; xb7; x0a; xe5; x8a; xb1; x0a; xe5;
  xb6; xba; x0a; xe6; x80; x9c; x0a; xe7;
  x8e; xb2; x0a; xe7; xa4; xbc; x0a; xe8;
  x8b; x93; x0a; xe9; x88; xb4; x0a; xe9;
  x9a; xb7; x0a; xe9; x9b; xb6; x0a; xe9;
  x9c; x8a; x0a; xe9; xba; x97; x0a; xe9;
  xbd; xa2; x0a; xe6; x9a; xa6; x0a; xe6;
  xad; xb4; x0a; xe5; x88; x97; x0a; xe5;
  x8a; xa3; x0a; xe7; x83; x88; x0a; xe8;
  xa3; x82; x0a; xe5; xbb; x89; x0a; xe6;
  x81; x8b; x0a; xe6; x86; x90; x0a; xe6;
  xbc; xa3; x0a; xe7; x85; x89; x0a; xe7;
  xb0; xbe; x0a; xe7; xb7; xb4; x0a; xe8;
  x81; xaf; x0a; xe8; x93; xae; x0a; xe9;
  x80; xa3; x0a; xe9; x8c; xac; x0a; xe5;
  x91; x82; x0a; xe9; xad; xaf; x0a; xe6;
  xab; x93; x0a; xe7; x82; x89; x0a; xe8;
  xb3; x82; x0a; xe8; xb7; xaf; x0a; xe9;
  x9c; xb2; x0a; xe5; x8a; xb4; x0a; xe5;
  xa9; x81; x0a; xe5; xbb; x8a; x0a; xe5;
  xbc; x84; x0a; xe6; x9c; x97; x0a; xe6;
  xa5; xbc; x0a; xe6; xa6; x94; x0a; xe6;
  xb5; xaa; x0a; xe6; xbc; x8f; x0a; xe7;
  x89; xa2; x0a; xe7; x8b; xbc; x0a; xe7;
  xaf; xad; x0a; xe8; x80; x81; x0a; xe8;
  x81; xbe; x0a; xe8; x9d; x8b; x0a; xe9;
  x83; x8e; x0a; xe5; x85; xad; x0a; xe9;
  xba; x93; x0a; xe7; xa6; x84; x0a; xe8
].
(* tests/test_data/whatwg/shiftjis_whatwg_test_decode_out.txt, entries 14336..14591 *)
Definition shiftjis_decode_out_56 : list byte := [
  x82; x8b; x0a; xe9; x8c; xb2; x0a; xe8;
  xab; x96; x0a; xe5; x80; xad; x0a; xe5;
  x92; x8c; x0a; xe8; xa9; xb1; x0a; xe6;
  xad; xaa; x0a; xe8; xb3; x84; x0a; xe8;
  x84; x87; x0a; xe6; x83; x91; x0a; xe6;
  x9e; xa0; x0a; xe9; xb7; xb2; x0a; xe4;
  xba; x99; x0a; xe4; xba; x98; x0a; xe9;
  xb0; x90; x0a; xe8; xa9; xab; x0a; xe8;
  x97; x81; x0a; xe8; x95; xa8; x0a; xe6;
  xa4; x80; x0a; xe6; xb9; xbe; x0a; xe7;
  xa2; x97; x0a; xe8; x85; x95; x0a; xe5;
  xbc; x8c; x0a; xe4; xb8; x90; x0a; xe4;
  xb8; x95; x0a; xe4; xb8; xaa; x0a; xe4;
  xb8; xb1; x0a; xe4; xb8; xb6; x0a; xe4;
  xb8; xbc; x0a; xe4; xb8; xbf; x0a; xe4;
  xb9; x82; x0a; xe4; xb9; x96; x0a; xe4;
  xb9; x98; x0a; xe4; xba; x82; x0a; xe4;
  xba; x85; x0a; xe8; xb1; xab; x0a; xe4;
  xba; x8a; x0a; xe8; x88; x92; x0a; xe5;
  xbc; x8d; x0a; xe4; xba; x8e; x0a; xe4;
  xba; x9e; x0a; xe4; xba; x9f; x0a; xe4;
  xba; xa0; x0a; xe4; xba; xa2; x0a; xe4;
  xba; xb0; x0a; xe4; xba; xb3; x0a; xe4;
  xba; xb6; x0a; xe4; xbb; x8e; x0a; xe4;
  xbb; x8d; x0a; xe4; xbb; x84; x0a; xe4;
  xbb; x86; x0a; xe4; xbb; x82; x0a; xe4;
  xbb; x97; x0a; xe4; xbb; x9e; x0a; xe4;
  xbb; xad; x0a; xe4; xbb; x9f; x0a; xe4;
  xbb; xb7; x0a; xe4; xbc; x89; x0a; xe4;
  xbd; x9a; x0a; xe4; xbc; xb0; x0a; xe4;
  xbd; x9b; x0a; xe4; xbd; x9d; x0a; xe4;
  xbd; x97; x0a; xe4; xbd; x87; x0a; xe4
].
(* tests/test_data/whatwg/shiftjis_whatwg_test_decode_out.txt, entries 14592..14847 *)
Definition shiftjis_decode_out_57 : list byte := [
  xbd; xb6; x0a; xe4; xbe; x88; x0a; xe4;
  xbe; x8f; x0a; xe4; xbe; x98; x0a; xe4;
  xbd; xbb; x0a; xe4; xbd; xa9; x0a; xe4;
  xbd; xb0; x0a; xe4; xbe; x91; x0a; xe4;
  xbd; xaf; x0a; xe4; xbe; x86; x0a; xe4;
  xbe; x96; x0a; xe5; x84; x98; x0a; xe4;
  xbf; x94; x0a; xe4; xbf; x9f; x0a; xe4;
  xbf; x8e; x0a; xe4; xbf; x98; x0a; xe4;
  xbf; x9b; x0a; xe4; xbf; x91; x0a; xe4;
  xbf; x9a; x0a; xe4; xbf; x90; x0a; xe4;
  xbf; xa4; x0a; xe4; xbf; xa5; x0a; xe5;
  x80; x9a; x0a; xe5; x80; xa8; x0a; xe5;
  x80; x94; x0a; xe5; x80; xaa; x0a; xe5;
  x80; xa5; x0a; xe5; x80; x85; x0a; xe4;
  xbc; x9c; x0a; xe4; xbf; xb6; x0a; xe5;
  x80; xa1; x0a; xe5; x80; xa9; x0a; xe5;
  x80; xac; x0a; xe4; xbf; xbe; x0a; xe4;
  xbf; xaf; x0a; xe5; x80; x91; x0a; xe5;
  x80; x86; x0a; xe5; x81; x83; x0a; xe5;
  x81; x87; x0a; xe6; x9c; x83; x0a; xe5;
  x81; x95; x0a; xe5; x81; x90; x0a; xe5;
  x81; x88; x0a; xe5; x81; x9a; x0a; xe5;
  x81; x96; x0a; xe5; x81; xac; x0a; xe5;
  x81; xb8; x0a; xe5; x82; x80; x0a; xe5;
  x82; x9a; x0a; xe5; x82; x85; x0a; xe5;
  x82; xb4; x0a; xe5; x82; xb2; x0a; xe5;
  x83; x89; x0a; xe5; x83; x8a; x0a; xe5;
  x82; xb3; x0a; xe5; x83; x82; x0a; xe5;
  x83; x96; x0a; xe5; x83; x9e; x0a; xe5;
  x83; xa5; x0a; xe5; x83; xad; x0a; xe5;
  x83; xa3; x0a; xe5; x83; xae; x0a; xe5;
  x83; xb9; x0a; xe5; x83; xb5; x0a; xe5
].
(* tests/test_data/whatwg/shiftjis_whatwg_test_decode_out.txt, entries 14848..15103 *)
Definition shiftjis_decode_out_58 : list byte := [
  x84; x89; x0a; xe5; x84; x81; x0a; xe5;
  x84; x82; x0a; xe5; x84; x96; x0a; xe5;
  x84; x95; x0a; xe5; x84; x94; x0a; xe5;
  x84; x9a; x0a; xe5; x84; xa1; x0a; xe5;
  x84; xba; x0a; xe5; x84; xb7; x0a; xe5;
  x84; xbc; x0a; xe5; x84; xbb; x0a; xe5;
  x84; xbf; x0a; xe5; x85; x80; x0a; xe5;
  x85; x92; x0a; xe5; x85; x8c; x0a; xe5;
  x85; x94; x0a; xe5; x85; xa2; x0a; xe7;
  xab; xb8; x0a; xe5; x85; xa9; x0a; xe5;
  x85; xaa; x0a; xe5; x85; xae; x0a; xe5;
  x86; x80; x0a; xe5; x86; x82; x0a; xe5;
  x9b; x98; x0a; xe5; x86; x8c; x0a; xe5;
  x86; x89; x0a; xe5; x86; x8f; x0a; xe5;
  x86; x91; x0a; xe5; x86; x93; x0a; xe5;
  x86; x95; x0a; xe5; x86; x96; x0a; xe5;
  x86; xa4; x0a; xe5; x86; xa6; x0a; xe5;
  x86; xa2; x0a; xe5; x86; xa9; x0a; xe5;
  x86; xaa; x0a; xe5; x86; xab; x0a; xe5;
  x86; xb3; x0a; xe5; x86; xb1; x0a; xe5;
  x86; xb2; x0a; xe5; x86; xb0; x0a; xe5;
  x86; xb5; x0a; xe5; x86; xbd; x0a; xe5;
  x87; x85; x0a; xe5; x87; x89; x0a; xe5;
  x87; x9b; x0a; xe5; x87; xa0; x0a; xe8;
  x99; x95; x0a; xe5; x87; xa9; x0a; xe5;
  x87; xad; x0a; xe5; x87; xb0; x0a; xe5;
  x87; xb5; x0a; xe5; x87; xbe; x0a; xe5;
  x88; x84; x0a; xe5; x88; x8b; x0a; xe5;
  x88; x94; x0a; xe5; x88; x8e; x0a; xe5;
  x88; xa7; x0a; xe5; x88; xaa; x0a; xe5;
  x88; xae; x0a; xe5; x88; xb3; x0a; xe5;
  x88; xb9; x0a; xe5; x89; x8f; x0a; xe5
].
(* tests/test_data/whatwg/shiftjis_whatwg_test_decode_out.txt, entries 15104..15359 *)
Definition shiftjis_decode_out_59 : list byte := [
  x89; x84; x0a; xe5; x89; x8b; x0a; xe5;
  x89; x8c; x0a; xe5; x89; x9e; x0a; xe5;
  x89; x94; x0a; xe5; x89; xaa; x0a; xe5;
  x89; xb4; x0a; xe5; x89; xa9; x0a; xe5;
  x89; xb3; x0a; xe5; x89; xbf; x0a; xe5;
  x89; xbd; x0a; xe5; x8a; x8d; x0a; xe5;
  x8a; x94; x0a; xe5; x8a; x92; x0a; xe5;
  x89; xb1; x0a; xe5; x8a; x88; x0a; xe5;
  x8a; x91; x0a; xe8; xbe; xa8; x0a; xe8;
  xbe; xa7; x0a; xe5; x8a; xac; x0a; xe5;
  x8a; xad; x0a; xe5; x8a; xbc; x0a; xe5;
  x8a; xb5; x0a; xe5; x8b; x81; x0a; xe5;
  x8b; x8d; x0a; xe5; x8b; x97; x0a; xe5;
  x8b; x9e; x0a; xe5; x8b; xa3; x0a; xe5;
  x8b; xa6; x0a; xe9; xa3; xad; x0a; xe5;
  x8b; xa0; x0a; xe5; x8b; xb3; x0a; xe5;
  x8b; xb5; x0a; xe5; x8b; xb8; x0a; xe5;
  x8b; xb9; x0a; xe5; x8c; x86; x0a; xe5;
  x8c; x88; x0a; xe7; x94; xb8; x0a; xe5;
  x8c; x8d; x0a; xe5; x8c; x90; x0a; xe5;
  x8c; x8f; x0a; xe5; x8c; x95; x0a; xe5;
  x8c; x9a; x0a; xe5; x8c; xa3; x0a; xe5;
  x8c; xaf; x0a; xe5; x8c; xb1; x0a; xe5;
  x8c; xb3; x0a; xe5; x8c; xb8; x0a; xe5;
  x8d; x80; x0a; xe5; x8d; x86; x0a; xe5;
  x8d; x85; x0a; xe4; xb8; x97; x0a; xe5;
  x8d; x89; x0a; xe5; x8d; x8d; x0a; xe5;
  x87; x96; x0a; xe5; x8d; x9e; x0a; xe5;
  x8d; xa9; x0a; xe5; x8d; xae; x0a; xe5;
  xa4; x98; x0a; xe5; x8d; xbb; x0a; xe5;
  x8d; xb7; x0a; xe5; x8e; x82; x0a; xe5;
  x8e; x96; x0a; xe5; x8e; xa0; x0a; xe5
].
(* tests/test_data/whatwg/shiftjis_whatwg_test_decode_out.txt, entries 15360..15615 *)
Definition shiftjis_decode_out_60 : list byte := [
  x8e; xa6; x0a; xe5; x8e; xa5; x0a; xe5;
  x8e; xae; x0a; xe5; x8e; xb0; x0a; xe5;
  x8e; xb6; x0a; xe5; x8f; x83; x0a; xe7;
  xb0; x92; x0a; xe9; x9b; x99; x0a; xe5;
  x8f; x9f; x0a; xe6; x9b; xbc; x0a; xe7;
  x87; xae; x0a; xe5; x8f; xae; x0a; xe5;
  x8f; xa8; x0a; xe5; x8f; xad; x0a; xe5;
  x8f; xba; x0a; xe5; x90; x81; x0a; xe5;
  x90; xbd; x0a; xe5; x91; x80; x0a; xe5;
  x90; xac; x0a; xe5; x90; xad; x0a; xe5;
  x90; xbc; x0a; xe5; x90; xae; x0a; xe5;
  x90; xb6; x0a; xe5; x90; xa9; x0a; xe5;
  x90; x9d; x0a; xe5; x91; x8e; x0a; xe5;
  x92; x8f; x0a; xe5; x91; xb5; x0a; xe5;
  x92; x8e; x0a; xe5; x91; x9f; x0a; xe5;
  x91; xb1; x0a; xe5; x91; xb7; x0a; xe5;
  x91; xb0; x0a; xe5; x92; x92; x0a; xe5;
  x91; xbb; x0a; xe5; x92; x80; x0a; xe5;
  x91; xb6; x0a; xe5; x92; x84; x0a; xe5;
  x92; x90; x0a; xe5; x92; x86; x0a; xe5;
  x93; x87; x0a; xe5; x92; xa2; x0a; xe5;
  x92; xb8; x0a; xe5; x92; xa5; x0a; xe5;
  x92; xac; x0a; xe5; x93; x84; x0a; xe5;
  x93; x88; x0a; xe5; x92; xa8; x0a; xe5;
  x92; xab; x0a; xe5; x93; x82; x0a; xe5;
  x92; xa4; x0a; xe5; x92; xbe; x0a; xe5;
  x92; xbc; x0a; xe5; x93; x98; x0a; xe5;
  x93; xa5; x0a; xe5; x93; xa6; x0a; xe5;
  x94; x8f; x0a; xe5; x94; x94; x0a; xe5;
  x93; xbd; x0a; xe5; x93; xae; x0a; xe5;
  x93; xad; x0a; xe5; x93; xba; x0a; xe5;
  x93; xa2; x0a; xe5; x94; xb9; x0a; xe5
].
(* tests/test_data/whatwg/shiftjis_whatwg_test_decode_out.txt, entries 15616..15871 *)
Definition shiftjis_decode_out_61 : list byte := [
  x95; x80; x0a; xe5; x95; xa3; x0a; xe5;
  x95; x8c; x0a; xe5; x94; xae; x0a; xe5;
  x95; x9c; x0a; xe5; x95; x85; x0a; xe5;
  x95; x96; x0a; xe5; x95; x97; x0a; xe5;
  x94; xb8; x0a; xe5; x94; xb3; x0a; xe5;
  x95; x9d; x0a; xe5; x96; x99; x0a; xe5;
  x96; x80; x0a; xe5; x92; xaf; x0a; xe5;
  x96; x8a; x0a; xe5; x96; x9f; x0a; xe5;
  x95; xbb; x0a; xe5; x95; xbe; x0a; xe5;
  x96; x98; x0a; xe5; x96; x9e; x0a; xe5;
  x96; xae; x0a; xe5; x95; xbc; x0a; xe5;
  x96; x83; x0a; xe5; x96; xa9; x0a; xe5;
  x96; x87; x0a; xe5; x96; xa8; x0a; xe5;
  x97; x9a; x0a; xe5; x97; x85; x0a; xe5;
  x97; x9f; x0a; xe5; x97; x84; x0a; xe5;
  x97; x9c; x0a; xe5; x97; xa4; x0a; xe5;
  x97; x94; x0a; xe5; x98; x94; x0a; xe5;
  x97; xb7; x0a; xe5; x98; x96; x0a; xe5;
  x97; xbe; x0a; xe5; x97; xbd; x0a; xe5;
  x98; x9b; x0a; xe5; x97; xb9; x0a; xe5;
  x99; x8e; x0a; xe5; x99; x90; x0a; xe7;
  x87; x9f; x0a; xe5; x98; xb4; x0a; xe5;
  x98; xb6; x0a; xe5; x98; xb2; x0a; xe5;
  x98; xb8; x0a; xe5; x99; xab; x0a; xe5;
  x99; xa4; x0a; xe5; x98; xaf; x0a; xe5;
  x99; xac; x0a; xe5; x99; xaa; x0a; xe5;
  x9a; x86; x0a; xe5; x9a; x80; x0a; xe5;
  x9a; x8a; x0a; xe5; x9a; xa0; x0a; xe5;
  x9a; x94; x0a; xe5; x9a; x8f; x0a; xe5;
  x9a; xa5; x0a; xe5; x9a; xae; x0a; xe5;
  x9a; xb6; x0a; xe5; x9a; xb4; x0a; xe5;
  x9b; x82; x0a; xe5; x9a; xbc; x0a; xe5
].
(* tests/test_data/whatwg/shiftjis_whatwg_test_decode_out.txt, entries 15872..16127 *)
Definition shiftjis_decode_out_62 : list byte := [
  x9b; x81; x0a; xe5; x9b; x83; x0a; xe5;
  x9b; x80; x0a; xe5; x9b; x88; x0a; xe5;
  x9b; x8e; x0a; xe5; x9b; x91; x0a; xe5;
  x9b; x93; x0a; xe5; x9b; x97; x0a; xe5;
  x9b; xae; x0a; xe5; x9b; xb9; x0a; xe5;
  x9c; x80; x0a; xe5; x9b; xbf; x0a; xe5;
  x9c; x84; x0a; xe5; x9c; x89; x0a; xe5;
  x9c; x88; x0a; xe5; x9c; x8b; x0a; xe5;
  x9c; x8d; x0a; xe5; x9c; x93; x0a; xe5;
  x9c; x98; x0a; xe5; x9c; x96; x0a; xe5;
  x97; x87; x0a; xe5; x9c; x9c; x0a; xe5;
  x9c; xa6; x0a; xe5; x9c; xb7; x0a; xe5;
  x9c; xb8; x0a; xe5; x9d; x8e; x0a; xe5;
  x9c; xbb; x0a; xe5; x9d; x80; x0a; xe5;
  x9d; x8f; x0a; xe5; x9d; xa9; x0a; xe5;
  x9f; x80; x0a; xe5; x9e; x88; x0a; xe5;
  x9d; xa1; x0a; xe5; x9d; xbf; x0a; xe5;
  x9e; x89; x0a; xe5; x9e; x93; x0a; xe5;
  x9e; xa0; x0a; xe5; x9e; xb3; x0a; xe5;
  x9e; xa4; x0a; xe5; x9e; xaa; x0a; xe5;
  x9e; xb0; x0a; xe5; x9f; x83; x0a; xe5;
  x9f; x86; x0a; xe5; x9f; x94; x0a; xe5;
  x9f; x92; x0a; xe5; x9f; x93; x0a; xe5;
  xa0; x8a; x0a; xe5; x9f; x96; x0a; xe5;
  x9f; xa3; x0a; xe5; xa0; x8b; x0a; xe5;
  xa0; x99; x0a; xe5; xa0; x9d; x0a; xe5;
  xa1; xb2; x0a; xe5; xa0; xa1; x0a; xe5;
  xa1; xa2; x0a; xe5; xa1; x8b; x0a; xe5;
  xa1; xb0; x0a; xe6; xaf; x80; x0a; xe5;
  xa1; x92; x0a; xe5; xa0; xbd; x0a; xe5;
  xa1; xb9; x0a; xe5; xa2; x85; x0a; xe5;
  xa2; xb9; x0a; xe5; xa2; x9f; x0a; xe5
].
(* tests/test_data/whatwg/shiftjis_whatwg_test_decode_out.txt, entries 16128..16383 *)
Definition shiftjis_decode_out_63 : list byte := [
  xa2; xab; x0a; xe5; xa2; xba; x0a; xe5;
  xa3; x9e; x0a; xe5; xa2; xbb; x0a; xe5;
  xa2; xb8; x0a; xe5; xa2; xae; x0a; xe5;
  xa3; x85; x0a; xe5; xa3; x93; x0a; xe5;
  xa3; x91; x0a; xe5; xa3; x97; x0a; xe5;
  xa3; x99; x0a; xe5; xa3; x98; x0a; xe5;
  xa3; xa5; x0a; xe5; xa3; x9c; x0a; xe5;
  xa3; xa4; x0a; xe5; xa3; x9f; x0a; xe5;
  xa3; xaf; x0a; xe5; xa3; xba; x0a; xe5;
  xa3; xb9; x0a; xe5; xa3; xbb; x0a; xe5;
  xa3; xbc; x0a; xe5; xa3; xbd; x0a; xe5;
  xa4; x82; x0a; xe5; xa4; x8a; x0a; xe5;
  xa4; x90; x0a; xe5; xa4; x9b; x0a; xe6;
  xa2; xa6; x0a; xe5; xa4; xa5; x0a; xe5;
  xa4; xac; x0a; xe5; xa4; xad; x0a; xe5;
  xa4; xb2; x0a; xe5; xa4; xb8; x0a; xe5;
  xa4; xbe; x0a; xe7; xab; x92; x0a; xe5;
  xa5; x95; x0a; xe5; xa5; x90; x0a; xe5;
  xa5; x8e; x0a; xe5; xa5; x9a; x0a; xe5;
  xa5; x98; x0a; xe5; xa5; xa2; x0a; xe5;
  xa5; xa0; x0a; xe5; xa5; xa7; x0a; xe5;
  xa5; xac; x0a; xe5; xa5; xa9; x0a; xe5;
  xa5; xb8; x0a; xe5; xa6; x81; x0a; xe5;
  xa6; x9d; x0a; xe4; xbd; x9e; x0a; xe4;
  xbe; xab; x0a; xe5; xa6; xa3; x0a; xe5;
  xa6; xb2; x0a; xe5; xa7; x86; x0a; xe5;
  xa7; xa8; x0a; xe5; xa7; x9c; x0a; xe5;
  xa6; x8d; x0a; xe5; xa7; x99; x0a; xe5;
  xa7; x9a; x0a; xe5; xa8; xa5; x0a; xe5;
  xa8; x9f; x0a; xe5; xa8; x91; x0a; xe5;
  xa8; x9c; x0a; xe5; xa8; x89; x0a; xe5;
  xa8; x9a; x0a; xe5; xa9; x80; x0a; xe5
].
(* tests/test_data/whatwg/shiftjis_whatwg_test_decode_out.txt, entries 16384..16639 *)
Definition shiftjis_decode_out_64 : list byte := [
  xa9; xac; x0a; xe5; xa9; x89; x0a; xe5;
  xa8; xb5; x0a; xe5; xa8; xb6; x0a; xe5;
  xa9; xa2; x0a; xe5; xa9; xaa; x0a; xe5;
  xaa; x9a; x0a; xe5; xaa; xbc; x0a; xe5;
  xaa; xbe; x0a; xe5; xab; x8b; x0a; xe5;
  xab; x82; x0a; xe5; xaa; xbd; x0a; xe5;
  xab; xa3; x0a; xe5; xab; x97; x0a; xe5;
  xab; xa6; x0a; xe5; xab; xa9; x0a; xe5;
  xab; x96; x0a; xe5; xab; xba; x0a; xe5;
  xab; xbb; x0a; xe5; xac; x8c; x0a; xe5;
  xac; x8b; x0a; xe5; xac; x96; x0a; xe5;
  xac; xb2; x0a; xe5; xab; x90; x0a; xe5;
  xac; xaa; x0a; xe5; xac; xb6; x0a; xe5;
  xac; xbe; x0a; xe5; xad; x83; x0a; xe5;
  xad; x85; x0a; xe5; xad; x80; x0a; xe5;
  xad; x91; x0a; xe5; xad; x95; x0a; xe5;
  xad; x9a; x0a; xe5; xad; x9b; x0a; xe5;
  xad; xa5; x0a; xe5; xad; xa9; x0a; xe5;
  xad; xb0; x0a; xe5; xad; xb3; x0a; xe5;
  xad; xb5; x0a; xe5; xad; xb8; x0a; xe6;
  x96; x88; x0a; xe5; xad; xba; x0a; xe5;
  xae; x80; x0a; xe5; xae; x83; x0a; xe5;
  xae; xa6; x0a; xe5; xae; xb8; x0a; xe5;
  xaf; x83; x0a; xe5; xaf; x87; x0a; xe5;
  xaf; x89; x0a; xe5; xaf; x94; x0a; xe5;
  xaf; x90; x0a; xe5; xaf; xa4; x0a; xe5;
  xaf; xa6; x0a; xe5; xaf; xa2; x0a; xe5;
  xaf; x9e; x0a; xe5; xaf; xa5; x0a; xe5;
  xaf; xab; x0a; xe5; xaf; xb0; x0a; xe5;
  xaf; xb6; x0a; xe5; xaf; xb3; x0a; xe5;
  xb0; x85; x0a; xe5; xb0; x87; x0a; xe5;
  xb0; x88; x0a; xe5; xb0; x8d; x0a; xe5
].
(* tests/test_data/whatwg/shiftjis_whatwg_test_decode_out.txt, entries 16640..16895 *)
Definition shiftjis_decode_out_65 : list byte := [
  xb0; x93; x0a; xe5; xb0; xa0; x0a; xe5;
  xb0; xa2; x0a; xe5; xb0; xa8; x0a; xe5;
  xb0; xb8; x0a; xe5; xb0; xb9; x0a; xe5;
  xb1; x81; x0a; xe5; xb1; x86; x0a; xe5;
  xb1; x8e; x0a; xe5; xb1; x93; x0a; xe5;
  xb1; x90; x0a; xe5; xb1; x8f; x0a; xe5;
  xad; xb1; x0a; xe5; xb1; xac; x0a; xe5;
  xb1; xae; x0a; xe4; xb9; xa2; x0a; xe5;
  xb1; xb6; x0a; xe5; xb1; xb9; x0a; xe5;
  xb2; x8c; x0a; xe5; xb2; x91; x0a; xe5;
  xb2; x94; x0a; xe5; xa6; x9b; x0a; xe5;
  xb2; xab; x0a; xe5; xb2; xbb; x0a; xe5;
  xb2; xb6; x0a; xe5; xb2; xbc; x0a; xe5;
  xb2; xb7; x0a; xe5; xb3; x85; x0a; xe5;
  xb2; xbe; x0a; xe5; xb3; x87; x0a; xe5;
  xb3; x99; x0a; xe5; xb3; xa9; x0a; xe5;
  xb3; xbd; x0a; xe5; xb3; xba; x0a; xe5;
  xb3; xad; x0a; xe5; xb6; x8c; x0a; xe5;
  xb3; xaa; x0a; xe5; xb4; x8b; x0a; xe5;
  xb4; x95; x0a; xe5; xb4; x97; x0a; xe5;
  xb5; x9c; x0a; xe5; xb4; x9f; x0a; xe5;
  xb4; x9b; x0a; xe5; xb4; x91; x0a; xe5;
  xb4; x94; x0a; xe5; xb4; xa2; x0a; xe5;
  xb4; x9a; x0a; xe5; xb4; x99; x0a; xe5;
  xb4; x98; x0a; xe5; xb5; x8c; x0a; xe5;
  xb5; x92; x0a; xe5; xb5; x8e; x0a; xe5;
  xb5; x8b; x0a; xe5; xb5; xac; x0a; xe5;
  xb5; xb3; x0a; xe5; xb5; xb6; x0a; xe5;
  xb6; x87; x0a; xe5; xb6; x84; x0a; xe5;
  xb6; x82; x0a; xe5; xb6; xa2; x0a; xe5;
  xb6; x9d; x0a; xe5; xb6; xac; x0a; xe5;
  xb6; xae; x0a; xe5; xb6; xbd; x0a; xe5
].
(* tests/test_data/whatwg/shiftjis_whatwg_test_decode_out.txt, entries 16896..17151 *)
Definition shiftjis_decode_out_66 : list byte := [
  xb6; x90; x0a; xe5; xb6; xb7; x0a; xe5;
  xb6; xbc; x0a; xe5; xb7; x89; x0a; xe5;
  xb7; x8d; x0a; xe5; xb7; x93; x0a; xe5;
  xb7; x92; x0a; xe5; xb7; x96; x0a; xe5;
  xb7; x9b; x0a; xe5; xb7; xab; x0a; xe5;
  xb7; xb2; x0a; xe5; xb7; xb5; x0a; xe5;
  xb8; x8b; x0a; xe5; xb8; x9a; x0a; xe5;
  xb8; x99; x0a; xe5; xb8; x91; x0a; xe5;
  xb8; x9b; x0a; xe5; xb8; xb6; x0a; xe5;
  xb8; xb7; x0a; xe5; xb9; x84; x0a; xe5;
  xb9; x83; x0a; xe5; xb9; x80; x0a; xe5;
  xb9; x8e; x0a; xe5; xb9; x97; x0a; xe5;
  xb9; x94; x0a; xe5; xb9; x9f; x0a; xe5;
  xb9; xa2; x0a; xe5; xb9; xa4; x0a; xe5;
  xb9; x87; x0a; xe5; xb9; xb5; x0a; xe5;
  xb9; xb6; x0a; xe5; xb9; xba; x0a; xe9;
  xba; xbc; x0a; xe5; xb9; xbf; x0a; xe5;
  xba; xa0; x0a; xe5; xbb; x81; x0a; xe5;
  xbb; x82; x0a; xe5; xbb; x88; x0a; xe5;
  xbb; x90; x0a; xe5; xbb; x8f; x0a; xe5;
  xbb; x96; x0a; xe5; xbb; xa3; x0a; xe5;
  xbb; x9d; x0a; xe5; xbb; x9a; x0a; xe5;
  xbb; x9b; x0a; xe5; xbb; xa2; x0a; xe5;
  xbb; xa1; x0a; xe5; xbb; xa8; x0a; xe5;
  xbb; xa9; x0a; xe5; xbb; xac; x0a; xe5;
  xbb; xb1; x0a; xe5; xbb; xb3; x0a; xe5;
  xbb; xb0; x0a; xe5; xbb; xb4; x0a; xe5;
  xbb; xb8; x0a; xe5; xbb; xbe; x0a; xe5;
  xbc; x83; x0a; xe5; xbc; x89; x0a; xe5;
  xbd; x9d; x0a; xe5; xbd; x9c; x0a; xe5;
  xbc; x8b; x0a; xe5; xbc; x91; x0a; xe5;
  xbc; x96; x0a; xe5; xbc; xa9; x0a; xe5
].
(* tests/test_data/whatwg/shiftjis_whatwg_test_decode_out.txt, entries 17152..17407 *)
Definition shiftjis_decode_out_67 : list byte := [
  xbc; xad; x0a; xe5; xbc; xb8; x0a; xe5;
  xbd; x81; x0a; xe5; xbd; x88; x0a; xe5;
  xbd; x8c; x0a; xe5; xbd; x8e; x0a; xe5;
  xbc; xaf; x0a; xe5; xbd; x91; x0a; xe5;
  xbd; x96; x0a; xe5; xbd; x97; x0a; xe5;
  xbd; x99; x0a; xe5; xbd; xa1; x0a; xe5;
  xbd; xad; x0a; xe5; xbd; xb3; x0a; xe5;
  xbd; xb7; x0a; xe5; xbe; x83; x0a; xe5;
  xbe; x82; x0a; xe5; xbd; xbf; x0a; xe5;
  xbe; x8a; x0a; xe5; xbe; x88; x0a; xe5;
  xbe; x91; x0a; xe5; xbe; x87; x0a; xe5;
  xbe; x9e; x0a; xe5; xbe; x99; x0a; xe5;
  xbe; x98; x0a; xe5; xbe; xa0; x0a; xe5;
  xbe; xa8; x0a; xe5; xbe; xad; x0a; xe5;
  xbe; xbc; x0a; xe5; xbf; x96; x0a; xe5;
  xbf; xbb; x0a; xe5; xbf; xa4; x0a; xe5;
  xbf; xb8; x0a; xe5; xbf; xb1; x0a; xe5;
  xbf; x9d; x0a; xe6; x82; xb3; x0a; xe5;
  xbf; xbf; x0a; xe6; x80; xa1; x0a; xe6;
  x81; xa0; x0a; xe6; x80; x99; x0a; xe6;
  x80; x90; x0a; xe6; x80; xa9; x0a; xe6;
  x80; x8e; x0a; xe6; x80; xb1; x0a; xe6;
  x80; x9b; x0a; xe6; x80; x95; x0a; xe6;
  x80; xab; x0a; xe6; x80; xa6; x0a; xe6;
  x80; x8f; x0a; xe6; x80; xba; x0a; xe6;
  x81; x9a; x0a; xe6; x81; x81; x0a; xe6;
  x81; xaa; x0a; xe6; x81; xb7; x0a; xe6;
  x81; x9f; x0a; xe6; x81; x8a; x0a; xe6;
  x81; x86; x0a; xe6; x81; x8d; x0a; xe6;
  x81; xa3; x0a; xe6; x81; x83; x0a; xe6;
  x81; xa4; x0a; xe6; x81; x82; x0a; xe6;
  x81; xac; x0a; xe6; x81; xab; x0a; xe6
].
(* tests/test_data/whatwg/shiftjis_whatwg_test_decode_out.txt, entries 17408..17663 *)
Definition shiftjis_decode_out_68 : list byte := [
  x81; x99; x0a; xe6; x82; x81; x0a; xe6;
  x82; x8d; x0a; xe6; x83; xa7; x0a; xe6;
  x82; x83; x0a; xe6; x82; x9a; x0a; xe6;
  x82; x84; x0a; xe6; x82; x9b; x0a; xe6;
  x82; x96; x0a; xe6; x82; x97; x0a; xe6;
  x82; x92; x0a; xe6; x82; xa7; x0a; xe6;
  x82; x8b; x0a; xe6; x83; xa1; x0a; xe6;
  x82; xb8; x0a; xe6; x83; xa0; x0a; xe6;
  x83; x93; x0a; xe6; x82; xb4; x0a; xe5;
  xbf; xb0; x0a; xe6; x82; xbd; x0a; xe6;
  x83; x86; x0a; xe6; x82; xb5; x0a; xe6;
  x83; x98; x0a; xe6; x85; x8d; x0a; xe6;
  x84; x95; x0a; xe6; x84; x86; x0a; xe6;
  x83; xb6; x0a; xe6; x83; xb7; x0a; xe6;
  x84; x80; x0a; xe6; x83; xb4; x0a; xe6;
  x83; xba; x0a; xe6; x84; x83; x0a; xe6;
  x84; xa1; x0a; xe6; x83; xbb; x0a; xe6;
  x83; xb1; x0a; xe6; x84; x8d; x0a; xe6;
  x84; x8e; x0a; xe6; x85; x87; x0a; xe6;
  x84; xbe; x0a; xe6; x84; xa8; x0a; xe6;
  x84; xa7; x0a; xe6; x85; x8a; x0a; xe6;
  x84; xbf; x0a; xe6; x84; xbc; x0a; xe6;
  x84; xac; x0a; xe6; x84; xb4; x0a; xe6;
  x84; xbd; x0a; xe6; x85; x82; x0a; xe6;
  x85; x84; x0a; xe6; x85; xb3; x0a; xe6;
  x85; xb7; x0a; xe6; x85; x98; x0a; xe6;
  x85; x99; x0a; xe6; x85; x9a; x0a; xe6;
  x85; xab; x0a; xe6; x85; xb4; x0a; xe6;
  x85; xaf; x0a; xe6; x85; xa5; x0a; xe6;
  x85; xb1; x0a; xe6; x85; x9f; x0a; xe6;
  x85; x9d; x0a; xe6; x85; x93; x0a; xe6;
  x85; xb5; x0a; xe6; x86; x99; x0a; xe6
].
(* tests/test_data/whatwg/shiftjis_whatwg_test_decode_out.txt, entries 17664..17919 *)
Definition shiftjis_decode_out_69 : list byte := [
  x86; x96; x0a; xe6; x86; x87; x0a; xe6;
  x86; xac; x0a; xe6; x86; x94; x0a; xe6;
  x86; x9a; x0a; xe6; x86; x8a; x0a; xe6;
  x86; x91; x0a; xe6; x86; xab; x0a; xe6;
  x86; xae; x0a; xe6; x87; x8c; x0a; xe6;
  x87; x8a; x0a; xe6; x87; x89; x0a; xe6;
  x87; xb7; x0a; xe6; x87; x88; x0a; xe6;
  x87; x83; x0a; xe6; x87; x86; x0a; xe6;
  x86; xba; x0a; xe6; x87; x8b; x0a; xe7;
  xbd; xb9; x0a; xe6; x87; x8d; x0a; xe6;
  x87; xa6; x0a; xe6; x87; xa3; x0a; xe6;
  x87; xb6; x0a; xe6; x87; xba; x0a; xe6;
  x87; xb4; x0a; xe6; x87; xbf; x0a; xe6;
  x87; xbd; x0a; xe6; x87; xbc; x0a; xe6;
  x87; xbe; x0a; xe6; x88; x80; x0a; xe6;
  x88; x88; x0a; xe6; x88; x89; x0a; xe6;
  x88; x8d; x0a; xe6; x88; x8c; x0a; xe6;
  x88; x94; x0a; xe6; x88; x9b; x0a; xe6;
  x88; x9e; x0a; xe6; x88; xa1; x0a; xe6;
  x88; xaa; x0a; xe6; x88; xae; x0a; xe6;
  x88; xb0; x0a; xe6; x88; xb2; x0a; xe6;
  x88; xb3; x0a; xe6; x89; x81; x0a; xe6;
  x89; x8e; x0a; xe6; x89; x9e; x0a; xe6;
  x89; xa3; x0a; xe6; x89; x9b; x0a; xe6;
  x89; xa0; x0a; xe6; x89; xa8; x0a; xe6;
  x89; xbc; x0a; xe6; x8a; x82; x0a; xe6;
  x8a; x89; x0a; xe6; x89; xbe; x0a; xe6;
  x8a; x92; x0a; xe6; x8a; x93; x0a; xe6;
  x8a; x96; x0a; xe6; x8b; x94; x0a; xe6;
  x8a; x83; x0a; xe6; x8a; x94; x0a; xe6;
  x8b; x97; x0a; xe6; x8b; x91; x0a; xe6;
  x8a; xbb; x0a; xe6; x8b; x8f; x0a; xe6
].
(* tests/test_data/whatwg/shiftjis_whatwg_test_decode_out.txt, entries 17920..18175 *)
Definition shiftjis_decode_out_70 : list byte := [
  x8b; xbf; x0a; xe6; x8b; x86; x0a; xe6;
  x93; x94; x0a; xe6; x8b; x88; x0a; xe6;
  x8b; x9c; x0a; xe6; x8b; x8c; x0a; xe6;
  x8b; x8a; x0a; xe6; x8b; x82; x0a; xe6;
  x8b; x87; x0a; xe6; x8a; x9b; x0a; xe6;
  x8b; x89; x0a; xe6; x8c; x8c; x0a; xe6;
  x8b; xae; x0a; xe6; x8b; xb1; x0a; xe6;
  x8c; xa7; x0a; xe6; x8c; x82; x0a; xe6;
  x8c; x88; x0a; xe6; x8b; xaf; x0a; xe6;
  x8b; xb5; x0a; xe6; x8d; x90; x0a; xe6;
  x8c; xbe; x0a; xe6; x8d; x8d; x0a; xe6;
  x90; x9c; x0a; xe6; x8d; x8f; x0a; xe6;
  x8e; x96; x0a; xe6; x8e; x8e; x0a; xe6;
  x8e; x80; x0a; xe6; x8e; xab; x0a; xe6;
  x8d; xb6; x0a; xe6; x8e; xa3; x0a; xe6;
  x8e; x8f; x0a; xe6; x8e; x89; x0a; xe6;
  x8e; x9f; x0a; xe6; x8e; xb5; x0a; xe6;
  x8d; xab; x0a; xe6; x8d; xa9; x0a; xe6;
  x8e; xbe; x0a; xe6; x8f; xa9; x0a; xe6;
  x8f; x80; x0a; xe6; x8f; x86; x0a; xe6;
  x8f; xa3; x0a; xe6; x8f; x89; x0a; xe6;
  x8f; x92; x0a; xe6; x8f; xb6; x0a; xe6;
  x8f; x84; x0a; xe6; x90; x96; x0a; xe6;
  x90; xb4; x0a; xe6; x90; x86; x0a; xe6;
  x90; x93; x0a; xe6; x90; xa6; x0a; xe6;
  x90; xb6; x0a; xe6; x94; x9d; x0a; xe6;
  x90; x97; x0a; xe6; x90; xa8; x0a; xe6;
  x90; x8f; x0a; xe6; x91; xa7; x0a; xe6;
  x91; xaf; x0a; xe6; x91; xb6; x0a; xe6;
  x91; x8e; x0a; xe6; x94; xaa; x0a; xe6;
  x92; x95; x0a; xe6; x92; x93; x0a; xe6;
  x92; xa5; x0a; xe6; x92; xa9; x0a; xe6
].
(* tests/test_data/whatwg/shiftjis_whatwg_test_decode_out.txt, entries 18176..18431 *)
Definition shiftjis_decode_out_71 : list byte := [
  x92; x88; x0a; xe6; x92; xbc; x0a; xe6;
  x93; x9a; x0a; xe6; x93; x92; x0a; xe6;
  x93; x85; x0a; xe6; x93; x87; x0a; xe6;
  x92; xbb; x0a; xe6; x93; x98; x0a; xe6;
  x93; x82; x0a; xe6; x93; xb1; x0a; xe6;
  x93; xa7; x0a; xe8; x88; x89; x0a; xe6;
  x93; xa0; x0a; xe6; x93; xa1; x0a; xe6;
  x8a; xac; x0a; xe6; x93; xa3; x0a; xe6;
  x93; xaf; x0a; xe6; x94; xac; x0a; xe6;
  x93; xb6; x0a; xe6; x93; xb4; x0a; xe6;
  x93; xb2; x0a; xe6; x93; xba; x0a; xe6;
  x94; x80; x0a; xe6; x93; xbd; x0a; xe6;
  x94; x98; x0a; xe6; x94; x9c; x0a; xe6;
  x94; x85; x0a; xe6; x94; xa4; x0a; xe6;
  x94; xa3; x0a; xe6; x94; xab; x0a; xe6;
  x94; xb4; x0a; xe6; x94; xb5; x0a; xe6;
  x94; xb7; x0a; xe6; x94; xb6; x0a; xe6;
  x94; xb8; x0a; xe7; x95; x8b; x0a; xe6;
  x95; x88; x0a; xe6; x95; x96; x0a; xe6;
  x95; x95; x0a; xe6; x95; x8d; x0a; xe6;
  x95; x98; x0a; xe6; x95; x9e; x0a; xe6;
  x95; x9d; x0a; xe6; x95; xb2; x0a; xe6;
  x95; xb8; x0a; xe6; x96; x82; x0a; xe6;
  x96; x83; x0a; xe8; xae; x8a; x0a; xe6;
  x96; x9b; x0a; xe6; x96; x9f; x0a; xe6;
  x96; xab; x0a; xe6; x96; xb7; x0a; xe6;
  x97; x83; x0a; xe6; x97; x86; x0a; xe6;
  x97; x81; x0a; xe6; x97; x84; x0a; xe6;
  x97; x8c; x0a; xe6; x97; x92; x0a; xe6;
  x97; x9b; x0a; xe6; x97; x99; x0a; xe6;
  x97; xa0; x0a; xe6; x97; xa1; x0a; xe6;
  x97; xb1; x0a; xe6; x9d; xb2; x0a; xe6
].
(* tests/test_data/whatwg/shiftjis_whatwg_test_decode_out.txt, entries 18432..18687 *)
Definition shiftjis_decode_out_72 : list byte := [
  x98; x8a; x0a; xe6; x98; x83; x0a; xe6;
  x97; xbb; x0a; xe6; x9d; xb3; x0a; xe6;
  x98; xb5; x0a; xe6; x98; xb6; x0a; xe6;
  x98; xb4; x0a; xe6; x98; x9c; x0a; xe6;
  x99; x8f; x0a; xe6; x99; x84; x0a; xe6;
  x99; x89; x0a; xe6; x99; x81; x0a; xe6;
  x99; x9e; x0a; xe6; x99; x9d; x0a; xe6;
  x99; xa4; x0a; xe6; x99; xa7; x0a; xe6;
  x99; xa8; x0a; xe6; x99; x9f; x0a; xe6;
  x99; xa2; x0a; xe6; x99; xb0; x0a; xe6;
  x9a; x83; x0a; xe6; x9a; x88; x0a; xe6;
  x9a; x8e; x0a; xe6; x9a; x89; x0a; xe6;
  x9a; x84; x0a; xe6; x9a; x98; x0a; xe6;
  x9a; x9d; x0a; xe6; x9b; x81; x0a; xe6;
  x9a; xb9; x0a; xe6; x9b; x89; x0a; xe6;
  x9a; xbe; x0a; xe6; x9a; xbc; x0a; xe6;
  x9b; x84; x0a; xe6; x9a; xb8; x0a; xe6;
  x9b; x96; x0a; xe6; x9b; x9a; x0a; xe6;
  x9b; xa0; x0a; xe6; x98; xbf; x0a; xe6;
  x9b; xa6; x0a; xe6; x9b; xa9; x0a; xe6;
  x9b; xb0; x0a; xe6; x9b; xb5; x0a; xe6;
  x9b; xb7; x0a; xe6; x9c; x8f; x0a; xe6;
  x9c; x96; x0a; xe6; x9c; x9e; x0a; xe6;
  x9c; xa6; x0a; xe6; x9c; xa7; x0a; xe9;
  x9c; xb8; x0a; xe6; x9c; xae; x0a; xe6;
  x9c; xbf; x0a; xe6; x9c; xb6; x0a; xe6;
  x9d; x81; x0a; xe6; x9c; xb8; x0a; xe6;
  x9c; xb7; x0a; xe6; x9d; x86; x0a; xe6;
  x9d; x9e; x0a; xe6; x9d; xa0; x0a; xe6;
  x9d; x99; x0a; xe6; x9d; xa3; x0a; xe6;
  x9d; xa4; x0a; xe6; x9e; x89; x0a; xe6;
  x9d; xb0; x0a; xe6; x9e; xa9; x0a; xe6
].
(* tests/test_data/whatwg/shiftjis_whatwg_test_decode_out.txt, entries 18688..18943 *)
Definition shiftjis_decode_out_73 : list byte := [
  x9d; xbc; x0a; xe6; x9d; xaa; x0a; xe6;
  x9e; x8c; x0a; xe6; x9e; x8b; x0a; xe6;
  x9e; xa6; x0a; xe6; x9e; xa1; x0a; xe6;
  x9e; x85; x0a; xe6; x9e; xb7; x0a; xe6;
  x9f; xaf; x0a; xe6; x9e; xb4; x0a; xe6;
  x9f; xac; x0a; xe6; x9e; xb3; x0a; xe6;
  x9f; xa9; x0a; xe6; x9e; xb8; x0a; xe6;
  x9f; xa4; x0a; xe6; x9f; x9e; x0a; xe6;
  x9f; x9d; x0a; xe6; x9f; xa2; x0a; xe6;
  x9f; xae; x0a; xe6; x9e; xb9; x0a; xe6;
  x9f; x8e; x0a; xe6; x9f; x86; x0a; xe6;
  x9f; xa7; x0a; xe6; xaa; x9c; x0a; xe6;
  xa0; x9e; x0a; xe6; xa1; x86; x0a; xe6;
  xa0; xa9; x0a; xe6; xa1; x80; x0a; xe6;
  xa1; x8d; x0a; xe6; xa0; xb2; x0a; xe6;
  xa1; x8e; x0a; xe6; xa2; xb3; x0a; xe6;
  xa0; xab; x0a; xe6; xa1; x99; x0a; xe6;
  xa1; xa3; x0a; xe6; xa1; xb7; x0a; xe6;
  xa1; xbf; x0a; xe6; xa2; x9f; x0a; xe6;
  xa2; x8f; x0a; xe6; xa2; xad; x0a; xe6;
  xa2; x94; x0a; xe6; xa2; x9d; x0a; xe6;
  xa2; x9b; x0a; xe6; xa2; x83; x0a; xe6;
  xaa; xae; x0a; xe6; xa2; xb9; x0a; xe6;
  xa1; xb4; x0a; xe6; xa2; xb5; x0a; xe6;
  xa2; xa0; x0a; xe6; xa2; xba; x0a; xe6;
  xa4; x8f; x0a; xe6; xa2; x8d; x0a; xe6;
  xa1; xbe; x0a; xe6; xa4; x81; x0a; xe6;
  xa3; x8a; x0a; xe6; xa4; x88; x0a; xe6;
  xa3; x98; x0a; xe6; xa4; xa2; x0a; xe6;
  xa4; xa6; x0a; xe6; xa3; xa1; x0a; xe6;
  xa4; x8c; x0a; xe6; xa3; x8d; x0a; xe6;
  xa3; x94; x0a; xe6; xa3; xa7; x0a; xe6
].
(* tests/test_data/whatwg/shiftjis_whatwg_test_decode_out.txt, entries 18944..19199 *)
Definition shiftjis_decode_out_74 : list byte := [
  xa3; x95; x0a; xe6; xa4; xb6; x0a; xe6;
  xa4; x92; x0a; xe6; xa4; x84; x0a; xe6;
  xa3; x97; x0a; xe6; xa3; xa3; x0a; xe6;
  xa4; xa5; x0a; xe6; xa3; xb9; x0a; xe6;
  xa3; xa0; x0a; xe6; xa3; xaf; x0a; xe6;
  xa4; xa8; x0a; xe6; xa4; xaa; x0a; xe6;
  xa4; x9a; x0a; xe6; xa4; xa3; x0a; xe6;
  xa4; xa1; x0a; xe6; xa3; x86; x0a; xe6;
  xa5; xb9; x0a; xe6; xa5; xb7; x0a; xe6;
  xa5; x9c; x0a; xe6; xa5; xb8; x0a; xe6;
  xa5; xab; x0a; xe6; xa5; x94; x0a; xe6;
  xa5; xbe; x0a; xe6; xa5; xae; x0a; xe6;
  xa4; xb9; x0a; xe6; xa5; xb4; x0a; xe6;
  xa4; xbd; x0a; xe6; xa5; x99; x0a; xe6;
  xa4; xb0; x0a; xe6; xa5; xa1; x0a; xe6;
  xa5; x9e; x0a; xe6; xa5; x9d; x0a; xe6;
  xa6; x81; x0a; xe6; xa5; xaa; x0a; xe6;
  xa6; xb2; x0a; xe6; xa6; xae; x0a; xe6;
  xa7; x90; x0a; xe6; xa6; xbf; x0a; xe6;
  xa7; x81; x0a; xe6; xa7; x93; x0a; xe6;
  xa6; xbe; x0a; xe6; xa7; x8e; x0a; xe5;
  xaf; xa8; x0a; xe6; xa7; x8a; x0a; xe6;
  xa7; x9d; x0a; xe6; xa6; xbb; x0a; xe6;
  xa7; x83; x0a; xe6; xa6; xa7; x0a; xe6;
  xa8; xae; x0a; xe6; xa6; x91; x0a; xe6;
  xa6; xa0; x0a; xe6; xa6; x9c; x0a; xe6;
  xa6; x95; x0a; xe6; xa6; xb4; x0a; xe6;
  xa7; x9e; x0a; xe6; xa7; xa8; x0a; xe6;
  xa8; x82; x0a; xe6; xa8; x9b; x0a; xe6;
  xa7; xbf; x0a; xe6; xac; x8a; x0a; xe6;
  xa7; xb9; x0a; xe6; xa7; xb2; x0a; xe6;
  xa7; xa7; x0a; xe6; xa8; x85; x0a; xe6
].
(* tests/test_data/whatwg/shiftjis_whatwg_test_decode_out.txt, entries 19200..19455 *)
Definition shiftjis_decode_out_75 : list byte := [
  xa6; xb1; x0a; xe6; xa8; x9e; x0a; xe6;
  xa7; xad; x0a; xe6; xa8; x94; x0a; xe6;
  xa7; xab; x0a; xe6; xa8; x8a; x0a; xe6;
  xa8; x92; x0a; xe6; xab; x81; x0a; xe6;
  xa8; xa3; x0a; xe6; xa8; x93; x0a; xe6;
  xa9; x84; x0a; xe6; xa8; x8c; x0a; xe6;
  xa9; xb2; x0a; xe6; xa8; xb6; x0a; xe6;
  xa9; xb8; x0a; xe6; xa9; x87; x0a; xe6;
  xa9; xa2; x0a; xe6; xa9; x99; x0a; xe6;
  xa9; xa6; x0a; xe6; xa9; x88; x0a; xe6;
  xa8; xb8; x0a; xe6; xa8; xa2; x0a; xe6;
  xaa; x90; x0a; xe6; xaa; x8d; x0a; xe6;
  xaa; xa0; x0a; xe6; xaa; x84; x0a; xe6;
  xaa; xa2; x0a; xe6; xaa; xa3; x0a; xe6;
  xaa; x97; x0a; xe8; x98; x97; x0a; xe6;
  xaa; xbb; x0a; xe6; xab; x83; x0a; xe6;
  xab; x82; x0a; xe6; xaa; xb8; x0a; xe6;
  xaa; xb3; x0a; xe6; xaa; xac; x0a; xe6;
  xab; x9e; x0a; xe6; xab; x91; x0a; xe6;
  xab; x9f; x0a; xe6; xaa; xaa; x0a; xe6;
  xab; x9a; x0a; xe6; xab; xaa; x0a; xe6;
  xab; xbb; x0a; xe6; xac; x85; x0a; xe8;
  x98; x96; x0a; xe6; xab; xba; x0a; xe6;
  xac; x92; x0a; xe6; xac; x96; x0a; xe9;
  xac; xb1; x0a; xe6; xac; x9f; x0a; xe6;
  xac; xb8; x0a; xe6; xac; xb7; x0a; xe7;
  x9b; x9c; x0a; xe6; xac; xb9; x0a; xe9;
  xa3; xae; x0a; xe6; xad; x87; x0a; xe6;
  xad; x83; x0a; xe6; xad; x89; x0a; xe6;
  xad; x90; x0a; xe6; xad; x99; x0a; xe6;
  xad; x94; x0a; xe6; xad; x9b; x0a; xe6;
  xad; x9f; x0a; xe6; xad; xa1; x0a; xe6
].
(* tests/test_data/whatwg/shiftjis_whatwg_test_decode_out.txt, entries 19456..19711 *)
Definition shiftjis_decode_out_76 : list byte := [
  xad; xb8; x0a; xe6; xad; xb9; x0a; xe6;
  xad; xbf; x0a; xe6; xae; x80; x0a; xe6;
  xae; x84; x0a; xe6; xae; x83; x0a; xe6;
  xae; x8d; x0a; xe6; xae; x98; x0a; xe6;
  xae; x95; x0a; xe6; xae; x9e; x0a; xe6;
  xae; xa4; x0a; xe6; xae; xaa; x0a; xe6;
  xae; xab; x0a; xe6; xae; xaf; x0a; xe6;
  xae; xb2; x0a; xe6; xae; xb1; x0a; xe6;
  xae; xb3; x0a; xe6; xae; xb7; x0a; xe6;
  xae; xbc; x0a; xe6; xaf; x86; x0a; xe6;
  xaf; x8b; x0a; xe6; xaf; x93; x0a; xe6;
  xaf; x9f; x0a; xe6; xaf; xac; x0a; xe6;
  xaf; xab; x0a; xe6; xaf; xb3; x0a; xe6;
  xaf; xaf; x0a; xe9; xba; xbe; x0a; xe6;
  xb0; x88; x0a; xe6; xb0; x93; x0a; xe6;
  xb0; x94; x0a; xe6; xb0; x9b; x0a; xe6;
  xb0; xa4; x0a; xe6; xb0; xa3; x0a; xe6;
  xb1; x9e; x0a; xe6; xb1; x95; x0a; xe6;
  xb1; xa2; x0a; xe6; xb1; xaa; x0a; xe6;
  xb2; x82; x0a; xe6; xb2; x8d; x0a; xe6;
  xb2; x9a; x0a; xe6; xb2; x81; x0a; xe6;
  xb2; x9b; x0a; xe6; xb1; xbe; x0a; xe6;
  xb1; xa8; x0a; xe6; xb1; xb3; x0a; xe6;
  xb2; x92; x0a; xe6; xb2; x90; x0a; xe6;
  xb3; x84; x0a; xe6; xb3; xb1; x0a; xe6;
  xb3; x93; x0a; xe6; xb2; xbd; x0a; xe6;
  xb3; x97; x0a; xe6; xb3; x85; x0a; xe6;
  xb3; x9d; x0a; xe6; xb2; xae; x0a; xe6;
  xb2; xb1; x0a; xe6; xb2; xbe; x0a; xe6;
  xb2; xba; x0a; xe6; xb3; x9b; x0a; xe6;
  xb3; xaf; x0a; xe6; xb3; x99; x0a; xe6;
  xb3; xaa; x0a; xe6; xb4; x9f; x0a; xe8
].
(* tests/test_data/whatwg/shiftjis_whatwg_test_decode_out.txt, entries 19712..19967 *)
Definition shiftjis_decode_out_77 : list byte := [
  xa1; x8d; x0a; xe6; xb4; xb6; x0a; xe6;
  xb4; xab; x0a; xe6; xb4; xbd; x0a; xe6;
  xb4; xb8; x0a; xe6; xb4; x99; x0a; xe6;
  xb4; xb5; x0a; xe6; xb4; xb3; x0a; xe6;
  xb4; x92; x0a; xe6; xb4; x8c; x0a; xe6;
  xb5; xa3; x0a; xe6; xb6; x93; x0a; xe6;
  xb5; xa4; x0a; xe6; xb5; x9a; x0a; xe6;
  xb5; xb9; x0a; xe6; xb5; x99; x0a; xe6;
  xb6; x8e; x0a; xe6; xb6; x95; x0a; xe6;
  xbf; xa4; x0a; xe6; xb6; x85; x0a; xe6;
  xb7; xb9; x0a; xe6; xb8; x95; x0a; xe6;
  xb8; x8a; x0a; xe6; xb6; xb5; x0a; xe6;
  xb7; x87; x0a; xe6; xb7; xa6; x0a; xe6;
  xb6; xb8; x0a; xe6; xb7; x86; x0a; xe6;
  xb7; xac; x0a; xe6; xb7; x9e; x0a; xe6;
  xb7; x8c; x0a; xe6; xb7; xa8; x0a; xe6;
  xb7; x92; x0a; xe6; xb7; x85; x0a; xe6;
  xb7; xba; x0a; xe6; xb7; x99; x0a; xe6;
  xb7; xa4; x0a; xe6; xb7; x95; x0a; xe6;
  xb7; xaa; x0a; xe6; xb7; xae; x0a; xe6;
  xb8; xad; x0a; xe6; xb9; xae; x0a; xe6;
  xb8; xae; x0a; xe6; xb8; x99; x0a; xe6;
  xb9; xb2; x0a; xe6; xb9; x9f; x0a; xe6;
  xb8; xbe; x0a; xe6; xb8; xa3; x0a; xe6;
  xb9; xab; x0a; xe6; xb8; xab; x0a; xe6;
  xb9; xb6; x0a; xe6; xb9; x8d; x0a; xe6;
  xb8; x9f; x0a; xe6; xb9; x83; x0a; xe6;
  xb8; xba; x0a; xe6; xb9; x8e; x0a; xe6;
  xb8; xa4; x0a; xe6; xbb; xbf; x0a; xe6;
  xb8; x9d; x0a; xe6; xb8; xb8; x0a; xe6;
  xba; x82; x0a; xe6; xba; xaa; x0a; xe6;
  xba; x98; x0a; xe6; xbb; x89; x0a; xe6
].
(* tests/test_data/whatwg/shiftjis_whatwg_test_decode_out.txt, entries 19968..20223 *)
Definition shiftjis_decode_out_78 : list byte := [
  xba; xb7; x0a; xe6; xbb; x93; x0a; xe6;
  xba; xbd; x0a; xe6; xba; xaf; x0a; xe6;
  xbb; x84; x0a; xe6; xba; xb2; x0a; xe6;
  xbb; x94; x0a; xe6; xbb; x95; x0a; xe6;
  xba; x8f; x0a; xe6; xba; xa5; x0a; xe6;
  xbb; x82; x0a; xe6; xba; x9f; x0a; xe6;
  xbd; x81; x0a; xe6; xbc; x91; x0a; xe7;
  x81; x8c; x0a; xe6; xbb; xac; x0a; xe6;
  xbb; xb8; x0a; xe6; xbb; xbe; x0a; xe6;
  xbc; xbf; x0a; xe6; xbb; xb2; x0a; xe6;
  xbc; xb1; x0a; xe6; xbb; xaf; x0a; xe6;
  xbc; xb2; x0a; xe6; xbb; x8c; x0a; xe6;
  xbc; xbe; x0a; xe6; xbc; x93; x0a; xe6;
  xbb; xb7; x0a; xe6; xbe; x86; x0a; xe6;
  xbd; xba; x0a; xe6; xbd; xb8; x0a; xe6;
  xbe; x81; x0a; xe6; xbe; x80; x0a; xe6;
  xbd; xaf; x0a; xe6; xbd; x9b; x0a; xe6;
  xbf; xb3; x0a; xe6; xbd; xad; x0a; xe6;
  xbe; x82; x0a; xe6; xbd; xbc; x0a; xe6;
  xbd; x98; x0a; xe6; xbe; x8e; x0a; xe6;
  xbe; x91; x0a; xe6; xbf; x82; x0a; xe6;
  xbd; xa6; x0a; xe6; xbe; xb3; x0a; xe6;
  xbe; xa3; x0a; xe6; xbe; xa1; x0a; xe6;
  xbe; xa4; x0a; xe6; xbe; xb9; x0a; xe6;
  xbf; x86; x0a; xe6; xbe; xaa; x0a; xe6;
  xbf; x9f; x0a; xe6; xbf; x95; x0a; xe6;
  xbf; xac; x0a; xe6; xbf; x94; x0a; xe6;
  xbf; x98; x0a; xe6; xbf; xb1; x0a; xe6;
  xbf; xae; x0a; xe6; xbf; x9b; x0a; xe7;
  x80; x89; x0a; xe7; x80; x8b; x0a; xe6;
  xbf; xba; x0a; xe7; x80; x91; x0a; xe7;
  x80; x81; x0a; xe7; x80; x8f; x0a; xe6
].
(* tests/test_data/whatwg/shiftjis_whatwg_test_decode_out.txt, entries 20224..20479 *)
Definition shiftjis_decode_out_79 : list byte := [
  xbf; xbe; x0a; xe7; x80; x9b; x0a; xe7;
  x80; x9a; x0a; xe6; xbd; xb4; x0a; xe7;
  x80; x9d; x0a; xe7; x80; x98; x0a; xe7;
  x80; x9f; x0a; xe7; x80; xb0; x0a; xe7;
  x80; xbe; x0a; xe7; x80; xb2; x0a; xe7;
  x81; x91; x0a; xe7; x81; xa3; x0a; xe7;
  x82; x99; x0a; xe7; x82; x92; x0a; xe7;
  x82; xaf; x0a; xe7; x83; xb1; x0a; xe7;
  x82; xac; x0a; xe7; x82; xb8; x0a; xe7;
  x82; xb3; x0a; xe7; x82; xae; x0a; xe7;
  x83; x9f; x0a; xe7; x83; x8b; x0a; xe7;
  x83; x9d; x0a; xe7; x83; x99; x0a; xe7;
  x84; x89; x0a; xe7; x83; xbd; x0a; xe7;
  x84; x9c; x0a; xe7; x84; x99; x0a; xe7;
  x85; xa5; x0a; xe7; x85; x95; x0a; xe7;
  x86; x88; x0a; xe7; x85; xa6; x0a; xe7;
  x85; xa2; x0a; xe7; x85; x8c; x0a; xe7;
  x85; x96; x0a; xe7; x85; xac; x0a; xe7;
  x86; x8f; x0a; xe7; x87; xbb; x0a; xe7;
  x86; x84; x0a; xe7; x86; x95; x0a; xe7;
  x86; xa8; x0a; xe7; x86; xac; x0a; xe7;
  x87; x97; x0a; xe7; x86; xb9; x0a; xe7;
  x86; xbe; x0a; xe7; x87; x92; x0a; xe7;
  x87; x89; x0a; xe7; x87; x94; x0a; xe7;
  x87; x8e; x0a; xe7; x87; xa0; x0a; xe7;
  x87; xac; x0a; xe7; x87; xa7; x0a; xe7;
  x87; xb5; x0a; xe7; x87; xbc; x0a; xe7;
  x87; xb9; x0a; xe7; x87; xbf; x0a; xe7;
  x88; x8d; x0a; xe7; x88; x90; x0a; xe7;
  x88; x9b; x0a; xe7; x88; xa8; x0a; xe7;
  x88; xad; x0a; xe7; x88; xac; x0a; xe7;
  x88; xb0; x0a; xe7; x88; xb2; x0a; xe7
].
(* tests/test_data/whatwg/shiftjis_whatwg_test_decode_out.txt, entries 20480..20735 *)
Definition shiftjis_decode_out_80 : list byte := [
  x88; xbb; x0a; xe7; x88; xbc; x0a; xe7;
  x88; xbf; x0a; xe7; x89; x80; x0a; xe7;
  x89; x86; x0a; xe7; x89; x8b; x0a; xe7;
  x89; x98; x0a; xe7; x89; xb4; x0a; xe7;
  x89; xbe; x0a; xe7; x8a; x82; x0a; xe7;
  x8a; x81; x0a; xe7; x8a; x87; x0a; xe7;
  x8a; x92; x0a; xe7; x8a; x96; x0a; xe7;
  x8a; xa2; x0a; xe7; x8a; xa7; x0a; xe7;
  x8a; xb9; x0a; xe7; x8a; xb2; x0a; xe7;
  x8b; x83; x0a; xe7; x8b; x86; x0a; xe7;
  x8b; x84; x0a; xe7; x8b; x8e; x0a; xe7;
  x8b; x92; x0a; xe7; x8b; xa2; x0a; xe7;
  x8b; xa0; x0a; xe7; x8b; xa1; x0a; xe7;
  x8b; xb9; x0a; xe7; x8b; xb7; x0a; xe5;
  x80; x8f; x0a; xe7; x8c; x97; x0a; xe7;
  x8c; x8a; x0a; xe7; x8c; x9c; x0a; xe7;
  x8c; x96; x0a; xe7; x8c; x9d; x0a; xe7;
  x8c; xb4; x0a; xe7; x8c; xaf; x0a; xe7;
  x8c; xa9; x0a; xe7; x8c; xa5; x0a; xe7;
  x8c; xbe; x0a; xe7; x8d; x8e; x0a; xe7;
  x8d; x8f; x0a; xe9; xbb; x98; x0a; xe7;
  x8d; x97; x0a; xe7; x8d; xaa; x0a; xe7;
  x8d; xa8; x0a; xe7; x8d; xb0; x0a; xe7;
  x8d; xb8; x0a; xe7; x8d; xb5; x0a; xe7;
  x8d; xbb; x0a; xe7; x8d; xba; x0a; xe7;
  x8f; x88; x0a; xe7; x8e; xb3; x0a; xe7;
  x8f; x8e; x0a; xe7; x8e; xbb; x0a; xe7;
  x8f; x80; x0a; xe7; x8f; xa5; x0a; xe7;
  x8f; xae; x0a; xe7; x8f; x9e; x0a; xe7;
  x92; xa2; x0a; xe7; x90; x85; x0a; xe7;
  x91; xaf; x0a; xe7; x90; xa5; x0a; xe7;
  x8f; xb8; x0a; xe7; x90; xb2; x0a; xe7
].
(* tests/test_data/whatwg/shiftjis_whatwg_test_decode_out.txt, entries 20736..20991 *)
Definition shiftjis_decode_out_81 : list byte := [
  x90; xba; x0a; xe7; x91; x95; x0a; xe7;
  x90; xbf; x0a; xe7; x91; x9f; x0a; xe7;
  x91; x99; x0a; xe7; x91; x81; x0a; xe7;
  x91; x9c; x0a; xe7; x91; xa9; x0a; xe7;
  x91; xb0; x0a; xe7; x91; xa3; x0a; xe7;
  x91; xaa; x0a; xe7; x91; xb6; x0a; xe7;
  x91; xbe; x0a; xe7; x92; x8b; x0a; xe7;
  x92; x9e; x0a; xe7; x92; xa7; x0a; xe7;
  x93; x8a; x0a; xe7; x93; x8f; x0a; xe7;
  x93; x94; x0a; xe7; x8f; xb1; x0a; xe7;
  x93; xa0; x0a; xe7; x93; xa3; x0a; xe7;
  x93; xa7; x0a; xe7; x93; xa9; x0a; xe7;
  x93; xae; x0a; xe7; x93; xb2; x0a; xe7;
  x93; xb0; x0a; xe7; x93; xb1; x0a; xe7;
  x93; xb8; x0a; xe7; x93; xb7; x0a; xe7;
  x94; x84; x0a; xe7; x94; x83; x0a; xe7;
  x94; x85; x0a; xe7; x94; x8c; x0a; xe7;
  x94; x8e; x0a; xe7; x94; x8d; x0a; xe7;
  x94; x95; x0a; xe7; x94; x93; x0a; xe7;
  x94; x9e; x0a; xe7; x94; xa6; x0a; xe7;
  x94; xac; x0a; xe7; x94; xbc; x0a; xe7;
  x95; x84; x0a; xe7; x95; x8d; x0a; xe7;
  x95; x8a; x0a; xe7; x95; x89; x0a; xe7;
  x95; x9b; x0a; xe7; x95; x86; x0a; xe7;
  x95; x9a; x0a; xe7; x95; xa9; x0a; xe7;
  x95; xa4; x0a; xe7; x95; xa7; x0a; xe7;
  x95; xab; x0a; xe7; x95; xad; x0a; xe7;
  x95; xb8; x0a; xe7; x95; xb6; x0a; xe7;
  x96; x86; x0a; xe7; x96; x87; x0a; xe7;
  x95; xb4; x0a; xe7; x96; x8a; x0a; xe7;
  x96; x89; x0a; xe7; x96; x82; x0a; xe7;
  x96; x94; x0a; xe7; x96; x9a; x0a; xe7
].
(* tests/test_data/whatwg/shiftjis_whatwg_test_decode_out.txt, entries 20992..21247 *)
Definition shiftjis_decode_out_82 : list byte := [
  x96; x9d; x0a; xe7; x96; xa5; x0a; xe7;
  x96; xa3; x0a; xe7; x97; x82; x0a; xe7;
  x96; xb3; x0a; xe7; x97; x83; x0a; xe7;
  x96; xb5; x0a; xe7; x96; xbd; x0a; xe7;
  x96; xb8; x0a; xe7; x96; xbc; x0a; xe7;
  x96; xb1; x0a; xe7; x97; x8d; x0a; xe7;
  x97; x8a; x0a; xe7; x97; x92; x0a; xe7;
  x97; x99; x0a; xe7; x97; xa3; x0a; xe7;
  x97; x9e; x0a; xe7; x97; xbe; x0a; xe7;
  x97; xbf; x0a; xe7; x97; xbc; x0a; xe7;
  x98; x81; x0a; xe7; x97; xb0; x0a; xe7;
  x97; xba; x0a; xe7; x97; xb2; x0a; xe7;
  x97; xb3; x0a; xe7; x98; x8b; x0a; xe7;
  x98; x8d; x0a; xe7; x98; x89; x0a; xe7;
  x98; x9f; x0a; xe7; x98; xa7; x0a; xe7;
  x98; xa0; x0a; xe7; x98; xa1; x0a; xe7;
  x98; xa2; x0a; xe7; x98; xa4; x0a; xe7;
  x98; xb4; x0a; xe7; x98; xb0; x0a; xe7;
  x98; xbb; x0a; xe7; x99; x87; x0a; xe7;
  x99; x88; x0a; xe7; x99; x86; x0a; xe7;
  x99; x9c; x0a; xe7; x99; x98; x0a; xe7;
  x99; xa1; x0a; xe7; x99; xa2; x0a; xe7;
  x99; xa8; x0a; xe7; x99; xa9; x0a; xe7;
  x99; xaa; x0a; xe7; x99; xa7; x0a; xe7;
  x99; xac; x0a; xe7; x99; xb0; x0a; xe7;
  x99; xb2; x0a; xe7; x99; xb6; x0a; xe7;
  x99; xb8; x0a; xe7; x99; xbc; x0a; xe7;
  x9a; x80; x0a; xe7; x9a; x83; x0a; xe7;
  x9a; x88; x0a; xe7; x9a; x8b; x0a; xe7;
  x9a; x8e; x0a; xe7; x9a; x96; x0a; xe7;
  x9a; x93; x0a; xe7; x9a; x99; x0a; xe7;
  x9a; x9a; x0a; xe7; x9a; xb0; x0a; xe7
].
(* tests/test_data/whatwg/shiftjis_whatwg_test_decode_out.txt, entries 21248..21503 *)
Definition shiftjis_decode_out_83 : list byte := [
  x9a; xb4; x0a; xe7; x9a; xb8; x0a; xe7;
  x9a; xb9; x0a; xe7; x9a; xba; x0a; xe7;
  x9b; x82; x0a; xe7; x9b; x8d; x0a; xe7;
  x9b; x96; x0a; xe7; x9b; x92; x0a; xe7;
  x9b; x9e; x0a; xe7; x9b; xa1; x0a; xe7;
  x9b; xa5; x0a; xe7; x9b; xa7; x0a; xe7;
  x9b; xaa; x0a; xe8; x98; xaf; x0a; xe7;
  x9b; xbb; x0a; xe7; x9c; x88; x0a; xe7;
  x9c; x87; x0a; xe7; x9c; x84; x0a; xe7;
  x9c; xa9; x0a; xe7; x9c; xa4; x0a; xe7;
  x9c; x9e; x0a; xe7; x9c; xa5; x0a; xe7;
  x9c; xa6; x0a; xe7; x9c; x9b; x0a; xe7;
  x9c; xb7; x0a; xe7; x9c; xb8; x0a; xe7;
  x9d; x87; x0a; xe7; x9d; x9a; x0a; xe7;
  x9d; xa8; x0a; xe7; x9d; xab; x0a; xe7;
  x9d; x9b; x0a; xe7; x9d; xa5; x0a; xe7;
  x9d; xbf; x0a; xe7; x9d; xbe; x0a; xe7;
  x9d; xb9; x0a; xe7; x9e; x8e; x0a; xe7;
  x9e; x8b; x0a; xe7; x9e; x91; x0a; xe7;
  x9e; xa0; x0a; xe7; x9e; x9e; x0a; xe7;
  x9e; xb0; x0a; xe7; x9e; xb6; x0a; xe7;
  x9e; xb9; x0a; xe7; x9e; xbf; x0a; xe7;
  x9e; xbc; x0a; xe7; x9e; xbd; x0a; xe7;
  x9e; xbb; x0a; xe7; x9f; x87; x0a; xe7;
  x9f; x8d; x0a; xe7; x9f; x97; x0a; xe7;
  x9f; x9a; x0a; xe7; x9f; x9c; x0a; xe7;
  x9f; xa3; x0a; xe7; x9f; xae; x0a; xe7;
  x9f; xbc; x0a; xe7; xa0; x8c; x0a; xe7;
  xa0; x92; x0a; xe7; xa4; xa6; x0a; xe7;
  xa0; xa0; x0a; xe7; xa4; xaa; x0a; xe7;
  xa1; x85; x0a; xe7; xa2; x8e; x0a; xe7;
  xa1; xb4; x0a; xe7; xa2; x86; x0a; xe7
].
(* tests/test_data/whatwg/shiftjis_whatwg_test_decode_out.txt, entries 21504..21759 *)
Definition shiftjis_decode_out_84 : list byte := [
  xa1; xbc; x0a; xe7; xa2; x9a; x0a; xe7;
  xa2; x8c; x0a; xe7; xa2; xa3; x0a; xe7;
  xa2; xb5; x0a; xe7; xa2; xaa; x0a; xe7;
  xa2; xaf; x0a; xe7; xa3; x91; x0a; xe7;
  xa3; x86; x0a; xe7; xa3; x8b; x0a; xe7;
  xa3; x94; x0a; xe7; xa2; xbe; x0a; xe7;
  xa2; xbc; x0a; xe7; xa3; x85; x0a; xe7;
  xa3; x8a; x0a; xe7; xa3; xac; x0a; xe7;
  xa3; xa7; x0a; xe7; xa3; x9a; x0a; xe7;
  xa3; xbd; x0a; xe7; xa3; xb4; x0a; xe7;
  xa4; x87; x0a; xe7; xa4; x92; x0a; xe7;
  xa4; x91; x0a; xe7; xa4; x99; x0a; xe7;
  xa4; xac; x0a; xe7; xa4; xab; x0a; xe7;
  xa5; x80; x0a; xe7; xa5; xa0; x0a; xe7;
  xa5; x97; x0a; xe7; xa5; x9f; x0a; xe7;
  xa5; x9a; x0a; xe7; xa5; x95; x0a; xe7;
  xa5; x93; x0a; xe7; xa5; xba; x0a; xe7;
  xa5; xbf; x0a; xe7; xa6; x8a; x0a; xe7;
  xa6; x9d; x0a; xe7; xa6; xa7; x0a; xe9;
  xbd; x8b; x0a; xe7; xa6; xaa; x0a; xe7;
  xa6; xae; x0a; xe7; xa6; xb3; x0a; xe7;
  xa6; xb9; x0a; xe7; xa6; xba; x0a; xe7;
  xa7; x89; x0a; xe7; xa7; x95; x0a; xe7;
  xa7; xa7; x0a; xe7; xa7; xac; x0a; xe7;
  xa7; xa1; x0a; xe7; xa7; xa3; x0a; xe7;
  xa8; x88; x0a; xe7; xa8; x8d; x0a; xe7;
  xa8; x98; x0a; xe7; xa8; x99; x0a; xe7;
  xa8; xa0; x0a; xe7; xa8; x9f; x0a; xe7;
  xa6; x80; x0a; xe7; xa8; xb1; x0a; xe7;
  xa8; xbb; x0a; xe7; xa8; xbe; x0a; xe7;
  xa8; xb7; x0a; xe7; xa9; x83; x0a; xe7;
  xa9; x97; x0a; xe7; xa9; x89; x0a; xe7
].
(* tests/test_data/whatwg/shiftjis_whatwg_test_decode_out.txt, entries 21760..22015 *)
Definition shiftjis_decode_out_85 : list byte := [
  xa9; xa1; x0a; xe7; xa9; xa2; x0a; xe7;
  xa9; xa9; x0a; xe9; xbe; x9d; x0a; xe7;
  xa9; xb0; x0a; xe7; xa9; xb9; x0a; xe7;
  xa9; xbd; x0a; xe7; xaa; x88; x0a; xe7;
  xaa; x97; x0a; xe7; xaa; x95; x0a; xe7;
  xaa; x98; x0a; xe7; xaa; x96; x0a; xe7;
  xaa; xa9; x0a; xe7; xab; x88; x0a; xe7;
  xaa; xb0; x0a; xe7; xaa; xb6; x0a; xe7;
  xab; x85; x0a; xe7; xab; x84; x0a; xe7;
  xaa; xbf; x0a; xe9; x82; x83; x0a; xe7;
  xab; x87; x0a; xe7; xab; x8a; x0a; xe7;
  xab; x8d; x0a; xe7; xab; x8f; x0a; xe7;
  xab; x95; x0a; xe7; xab; x93; x0a; xe7;
  xab; x99; x0a; xe7; xab; x9a; x0a; xe7;
  xab; x9d; x0a; xe7; xab; xa1; x0a; xe7;
  xab; xa2; x0a; xe7; xab; xa6; x0a; xe7;
  xab; xad; x0a; xe7; xab; xb0; x0a; xe7;
  xac; x82; x0a; xe7; xac; x8f; x0a; xe7;
  xac; x8a; x0a; xe7; xac; x86; x0a; xe7;
  xac; xb3; x0a; xe7; xac; x98; x0a; xe7;
  xac; x99; x0a; xe7; xac; x9e; x0a; xe7;
  xac; xb5; x0a; xe7; xac; xa8; x0a; xe7;
  xac; xb6; x0a; xe7; xad; x90; x0a; xe7;
  xad; xba; x0a; xe7; xac; x84; x0a; xe7;
  xad; x8d; x0a; xe7; xac; x8b; x0a; xe7;
  xad; x8c; x0a; xe7; xad; x85; x0a; xe7;
  xad; xb5; x0a; xe7; xad; xa5; x0a; xe7;
  xad; xb4; x0a; xe7; xad; xa7; x0a; xe7;
  xad; xb0; x0a; xe7; xad; xb1; x0a; xe7;
  xad; xac; x0a; xe7; xad; xae; x0a; xe7;
  xae; x9d; x0a; xe7; xae; x98; x0a; xe7;
  xae; x9f; x0a; xe7; xae; x8d; x0a; xe7
].
(* tests/test_data/whatwg/shiftjis_whatwg_test_decode_out.txt, entries 22016..22271 *)
Definition shiftjis_decode_out_86 : list byte := [
  xae; x9c; x0a; xe7; xae; x9a; x0a; xe7;
  xae; x8b; x0a; xe7; xae; x92; x0a; xe7;
  xae; x8f; x0a; xe7; xad; x9d; x0a; xe7;
  xae; x99; x0a; xe7; xaf; x8b; x0a; xe7;
  xaf; x81; x0a; xe7; xaf; x8c; x0a; xe7;
  xaf; x8f; x0a; xe7; xae; xb4; x0a; xe7;
  xaf; x86; x0a; xe7; xaf; x9d; x0a; xe7;
  xaf; xa9; x0a; xe7; xb0; x91; x0a; xe7;
  xb0; x94; x0a; xe7; xaf; xa6; x0a; xe7;
  xaf; xa5; x0a; xe7; xb1; xa0; x0a; xe7;
  xb0; x80; x0a; xe7; xb0; x87; x0a; xe7;
  xb0; x93; x0a; xe7; xaf; xb3; x0a; xe7;
  xaf; xb7; x0a; xe7; xb0; x97; x0a; xe7;
  xb0; x8d; x0a; xe7; xaf; xb6; x0a; xe7;
  xb0; xa3; x0a; xe7; xb0; xa7; x0a; xe7;
  xb0; xaa; x0a; xe7; xb0; x9f; x0a; xe7;
  xb0; xb7; x0a; xe7; xb0; xab; x0a; xe7;
  xb0; xbd; x0a; xe7; xb1; x8c; x0a; xe7;
  xb1; x83; x0a; xe7; xb1; x94; x0a; xe7;
  xb1; x8f; x0a; xe7; xb1; x80; x0a; xe7;
  xb1; x90; x0a; xe7; xb1; x98; x0a; xe7;
  xb1; x9f; x0a; xe7; xb1; xa4; x0a; xe7;
  xb1; x96; x0a; xe7; xb1; xa5; x0a; xe7;
  xb1; xac; x0a; xe7; xb1; xb5; x0a; xe7;
  xb2; x83; x0a; xe7; xb2; x90; x0a; xe7;
  xb2; xa4; x0a; xe7; xb2; xad; x0a; xe7;
  xb2; xa2; x0a; xe7; xb2; xab; x0a; xe7;
  xb2; xa1; x0a; xe7; xb2; xa8; x0a; xe7;
  xb2; xb3; x0a; xe7; xb2; xb2; x0a; xe7;
  xb2; xb1; x0a; xe7; xb2; xae; x0a; xe7;
  xb2; xb9; x0a; xe7; xb2; xbd; x0a; xe7;
  xb3; x80; x0a; xe7; xb3; x85; x0a; xe7
].
(* tests/test_data/whatwg/shiftjis_whatwg_test_decode_out.txt, entries 22272..22527 *)
Definition shiftjis_decode_out_87 : list byte := [
  xb3; x82; x0a; xe7; xb3; x98; x0a; xe7;
  xb3; x92; x0a; xe7; xb3; x9c; x0a; xe7;
  xb3; xa2; x0a; xe9; xac; xbb; x0a; xe7;
  xb3; xaf; x0a; xe7; xb3; xb2; x0a; xe7;
  xb3; xb4; x0a; xe7; xb3; xb6; x0a; xe7;
  xb3; xba; x0a; xe7; xb4; x86; x0a; xe7;
  xb4; x82; x0a; xe7; xb4; x9c; x0a; xe7;
  xb4; x95; x0a; xe7; xb4; x8a; x0a; xe7;
  xb5; x85; x0a; xe7; xb5; x8b; x0a; xe7;
  xb4; xae; x0a; xe7; xb4; xb2; x0a; xe7;
  xb4; xbf; x0a; xe7; xb4; xb5; x0a; xe7;
  xb5; x86; x0a; xe7; xb5; xb3; x0a; xe7;
  xb5; x96; x0a; xe7; xb5; x8e; x0a; xe7;
  xb5; xb2; x0a; xe7; xb5; xa8; x0a; xe7;
  xb5; xae; x0a; xe7; xb5; x8f; x0a; xe7;
  xb5; xa3; x0a; xe7; xb6; x93; x0a; xe7;
  xb6; x89; x0a; xe7; xb5; x9b; x0a; xe7;
  xb6; x8f; x0a; xe7; xb5; xbd; x0a; xe7;
  xb6; x9b; x0a; xe7; xb6; xba; x0a; xe7;
  xb6; xae; x0a; xe7; xb6; xa3; x0a; xe7;
  xb6; xb5; x0a; xe7; xb7; x87; x0a; xe7;
  xb6; xbd; x0a; xe7; xb6; xab; x0a; xe7;
  xb8; xbd; x0a; xe7; xb6; xa2; x0a; xe7;
  xb6; xaf; x0a; xe7; xb7; x9c; x0a; xe7;
  xb6; xb8; x0a; xe7; xb6; x9f; x0a; xe7;
  xb6; xb0; x0a; xe7; xb7; x98; x0a; xe7;
  xb7; x9d; x0a; xe7; xb7; xa4; x0a; xe7;
  xb7; x9e; x0a; xe7; xb7; xbb; x0a; xe7;
  xb7; xb2; x0a; xe7; xb7; xa1; x0a; xe7;
  xb8; x85; x0a; xe7; xb8; x8a; x0a; xe7;
  xb8; xa3; x0a; xe7; xb8; xa1; x0a; xe7;
  xb8; x92; x0a; xe7; xb8; xb1; x0a; xe7
].
(* tests/test_data/whatwg/shiftjis_whatwg_test_decode_out.txt, entries 22528..22783 *)
Definition shiftjis_decode_out_88 : list byte := [
  xb8; x9f; x0a; xe7; xb8; x89; x0a; xe7;
  xb8; x8b; x0a; xe7; xb8; xa2; x0a; xe7;
  xb9; x86; x0a; xe7; xb9; xa6; x0a; xe7;
  xb8; xbb; x0a; xe7; xb8; xb5; x0a; xe7;
  xb8; xb9; x0a; xe7; xb9; x83; x0a; xe7;
  xb8; xb7; x0a; xe7; xb8; xb2; x0a; xe7;
  xb8; xba; x0a; xe7; xb9; xa7; x0a; xe7;
  xb9; x9d; x0a; xe7; xb9; x96; x0a; xe7;
  xb9; x9e; x0a; xe7; xb9; x99; x0a; xe7;
  xb9; x9a; x0a; xe7; xb9; xb9; x0a; xe7;
  xb9; xaa; x0a; xe7; xb9; xa9; x0a; xe7;
  xb9; xbc; x0a; xe7; xb9; xbb; x0a; xe7;
  xba; x83; x0a; xe7; xb7; x95; x0a; xe7;
  xb9; xbd; x0a; xe8; xbe; xae; x0a; xe7;
  xb9; xbf; x0a; xe7; xba; x88; x0a; xe7;
  xba; x89; x0a; xe7; xba; x8c; x0a; xe7;
  xba; x92; x0a; xe7; xba; x90; x0a; xe7;
  xba; x93; x0a; xe7; xba; x94; x0a; xe7;
  xba; x96; x0a; xe7; xba; x8e; x0a; xe7;
  xba; x9b; x0a; xe7; xba; x9c; x0a; xe7;
  xbc; xb8; x0a; xe7; xbc; xba; x0a; xe7;
  xbd; x85; x0a; xe7; xbd; x8c; x0a; xe7;
  xbd; x8d; x0a; xe7; xbd; x8e; x0a; xe7;
  xbd; x90; x0a; xe7; xbd; x91; x0a; xe7;
  xbd; x95; x0a; xe7; xbd; x94; x0a; xe7;
  xbd; x98; x0a; xe7; xbd; x9f; x0a; xe7;
  xbd; xa0; x0a; xe7; xbd; xa8; x0a; xe7;
  xbd; xa9; x0a; xe7; xbd; xa7; x0a; xe7;
  xbd; xb8; x0a; xe7; xbe; x82; x0a; xe7;
  xbe; x86; x0a; xe7; xbe; x83; x0a; xe7;
  xbe; x88; x0a; xe7; xbe; x87; x0a; xe7;
  xbe; x8c; x0a; xe7; xbe; x94; x0a; xe7
].
(* tests/test_data/whatwg/shiftjis_whatwg_test_decode_out.txt, entries 22784..23039 *)
Definition shiftjis_decode_out_89 : list byte := [
  xbe; x9e; x0a; xe7; xbe; x9d; x0a; xe7;
  xbe; x9a; x0a; xe7; xbe; xa3; x0a; xe7;
  xbe; xaf; x0a; xe7; xbe; xb2; x0a; xe7;
  xbe; xb9; x0a; xe7; xbe; xae; x0a; xe7;
  xbe; xb6; x0a; xe7; xbe; xb8; x0a; xe8;
  xad; xb1; x0a; xe7; xbf; x85; x0a; xe7;
  xbf; x86; x0a; xe7; xbf; x8a; x0a; xe7;
  xbf; x95; x0a; xe7; xbf; x94; x0a; xe7;
  xbf; xa1; x0a; xe7; xbf; xa6; x0a; xe7;
  xbf; xa9; x0a; xe7; xbf; xb3; x0a; xe7;
  xbf; xb9; x0a; xe9; xa3; x9c; x0a; xe8;
  x80; x86; x0a; xe8; x80; x84; x0a; xe8;
  x80; x8b; x0a; xe8; x80; x92; x0a; xe8;
  x80; x98; x0a; xe8; x80; x99; x0a; xe8;
  x80; x9c; x0a; xe8; x80; xa1; x0a; xe8;
  x80; xa8; x0a; xe8; x80; xbf; x0a; xe8;
  x80; xbb; x0a; xe8; x81; x8a; x0a; xe8;
  x81; x86; x0a; xe8; x81; x92; x0a; xe8;
  x81; x98; x0a; xe8; x81; x9a; x0a; xe8;
  x81; x9f; x0a; xe8; x81; xa2; x0a; xe8;
  x81; xa8; x0a; xe8; x81; xb3; x0a; xe8;
  x81; xb2; x0a; xe8; x81; xb0; x0a; xe8;
  x81; xb6; x0a; xe8; x81; xb9; x0a; xe8;
  x81; xbd; x0a; xe8; x81; xbf; x0a; xe8;
  x82; x84; x0a; xe8; x82; x86; x0a; xe8;
  x82; x85; x0a; xe8; x82; x9b; x0a; xe8;
  x82; x93; x0a; xe8; x82; x9a; x0a; xe8;
  x82; xad; x0a; xe5; x86; x90; x0a; xe8;
  x82; xac; x0a; xe8; x83; x9b; x0a; xe8;
  x83; xa5; x0a; xe8; x83; x99; x0a; xe8;
  x83; x9d; x0a; xe8; x83; x84; x0a; xe8;
  x83; x9a; x0a; xe8; x83; x96; x0a; xe8
].
(* tests/test_data/whatwg/shiftjis_whatwg_test_decode_out.txt, entries 23040..23295 *)
Definition shiftjis_decode_out_90 : list byte := [
  x84; x89; x0a; xe8; x83; xaf; x0a; xe8;
  x83; xb1; x0a; xe8; x84; x9b; x0a; xe8;
  x84; xa9; x0a; xe8; x84; xa3; x0a; xe8;
  x84; xaf; x0a; xe8; x85; x8b; x0a; xe9;
  x9a; x8b; x0a; xe8; x85; x86; x0a; xe8;
  x84; xbe; x0a; xe8; x85; x93; x0a; xe8;
  x85; x91; x0a; xe8; x83; xbc; x0a; xe8;
  x85; xb1; x0a; xe8; x85; xae; x0a; xe8;
  x85; xa5; x0a; xe8; x85; xa6; x0a; xe8;
  x85; xb4; x0a; xe8; x86; x83; x0a; xe8;
  x86; x88; x0a; xe8; x86; x8a; x0a; xe8;
  x86; x80; x0a; xe8; x86; x82; x0a; xe8;
  x86; xa0; x0a; xe8; x86; x95; x0a; xe8;
  x86; xa4; x0a; xe8; x86; xa3; x0a; xe8;
  x85; x9f; x0a; xe8; x86; x93; x0a; xe8;
  x86; xa9; x0a; xe8; x86; xb0; x0a; xe8;
  x86; xb5; x0a; xe8; x86; xbe; x0a; xe8;
  x86; xb8; x0a; xe8; x86; xbd; x0a; xe8;
  x87; x80; x0a; xe8; x87; x82; x0a; xe8;
  x86; xba; x0a; xe8; x87; x89; x0a; xe8;
  x87; x8d; x0a; xe8; x87; x91; x0a; xe8;
  x87; x99; x0a; xe8; x87; x98; x0a; xe8;
  x87; x88; x0a; xe8; x87; x9a; x0a; xe8;
  x87; x9f; x0a; xe8; x87; xa0; x0a; xe8;
  x87; xa7; x0a; xe8; x87; xba; x0a; xe8;
  x87; xbb; x0a; xe8; x87; xbe; x0a; xe8;
  x88; x81; x0a; xe8; x88; x82; x0a; xe8;
  x88; x85; x0a; xe8; x88; x87; x0a; xe8;
  x88; x8a; x0a; xe8; x88; x8d; x0a; xe8;
  x88; x90; x0a; xe8; x88; x96; x0a; xe8;
  x88; xa9; x0a; xe8; x88; xab; x0a; xe8;
  x88; xb8; x0a; xe8; x88; xb3; x0a; xe8
].
(* tests/test_data/whatwg/shiftjis_whatwg_test_decode_out.txt, entries 23296..23551 *)
Definition shiftjis_decode_out_91 : list byte := [
  x89; x80; x0a; xe8; x89; x99; x0a; xe8;
  x89; x98; x0a; xe8; x89; x9d; x0a; xe8;
  x89; x9a; x0a; xe8; x89; x9f; x0a; xe8;
  x89; xa4; x0a; xe8; x89; xa2; x0a; xe8;
  x89; xa8; x0a; xe8; x89; xaa; x0a; xe8;
  x89; xab; x0a; xe8; x88; xae; x0a; xe8;
  x89; xb1; x0a; xe8; x89; xb7; x0a; xe8;
  x89; xb8; x0a; xe8; x89; xbe; x0a; xe8;
  x8a; x8d; x0a; xe8; x8a; x92; x0a; xe8;
  x8a; xab; x0a; xe8; x8a; x9f; x0a; xe8;
  x8a; xbb; x0a; xe8; x8a; xac; x0a; xe8;
  x8b; xa1; x0a; xe8; x8b; xa3; x0a; xe8;
  x8b; x9f; x0a; xe8; x8b; x92; x0a; xe8;
  x8b; xb4; x0a; xe8; x8b; xb3; x0a; xe8;
  x8b; xba; x0a; xe8; x8e; x93; x0a; xe8;
  x8c; x83; x0a; xe8; x8b; xbb; x0a; xe8;
  x8b; xb9; x0a; xe8; x8b; x9e; x0a; xe8;
  x8c; x86; x0a; xe8; x8b; x9c; x0a; xe8;
  x8c; x89; x0a; xe8; x8b; x99; x0a; xe8;
  x8c; xb5; x0a; xe8; x8c; xb4; x0a; xe8;
  x8c; x96; x0a; xe8; x8c; xb2; x0a; xe8;
  x8c; xb1; x0a; xe8; x8d; x80; x0a; xe8;
  x8c; xb9; x0a; xe8; x8d; x90; x0a; xe8;
  x8d; x85; x0a; xe8; x8c; xaf; x0a; xe8;
  x8c; xab; x0a; xe8; x8c; x97; x0a; xe8;
  x8c; x98; x0a; xe8; x8e; x85; x0a; xe8;
  x8e; x9a; x0a; xe8; x8e; xaa; x0a; xe8;
  x8e; x9f; x0a; xe8; x8e; xa2; x0a; xe8;
  x8e; x96; x0a; xe8; x8c; xa3; x0a; xe8;
  x8e; x8e; x0a; xe8; x8e; x87; x0a; xe8;
  x8e; x8a; x0a; xe8; x8d; xbc; x0a; xe8;
  x8e; xb5; x0a; xe8; x8d; xb3; x0a; xe8
].
(* tests/test_data/whatwg/shiftjis_whatwg_test_decode_out.txt, entries 23552..23807 *)
Definition shiftjis_decode_out_92 : list byte := [
  x8d; xb5; x0a; xe8; x8e; xa0; x0a; xe8;
  x8e; x89; x0a; xe8; x8e; xa8; x0a; xe8;
  x8f; xb4; x0a; xe8; x90; x93; x0a; xe8;
  x8f; xab; x0a; xe8; x8f; x8e; x0a; xe8;
  x8f; xbd; x0a; xe8; x90; x83; x0a; xe8;
  x8f; x98; x0a; xe8; x90; x8b; x0a; xe8;
  x8f; x81; x0a; xe8; x8f; xb7; x0a; xe8;
  x90; x87; x0a; xe8; x8f; xa0; x0a; xe8;
  x8f; xb2; x0a; xe8; x90; x8d; x0a; xe8;
  x90; xa2; x0a; xe8; x90; xa0; x0a; xe8;
  x8e; xbd; x0a; xe8; x90; xb8; x0a; xe8;
  x94; x86; x0a; xe8; x8f; xbb; x0a; xe8;
  x91; xad; x0a; xe8; x90; xaa; x0a; xe8;
  x90; xbc; x0a; xe8; x95; x9a; x0a; xe8;
  x92; x84; x0a; xe8; x91; xb7; x0a; xe8;
  x91; xab; x0a; xe8; x92; xad; x0a; xe8;
  x91; xae; x0a; xe8; x92; x82; x0a; xe8;
  x91; xa9; x0a; xe8; x91; x86; x0a; xe8;
  x90; xac; x0a; xe8; x91; xaf; x0a; xe8;
  x91; xb9; x0a; xe8; x90; xb5; x0a; xe8;
  x93; x8a; x0a; xe8; x91; xa2; x0a; xe8;
  x92; xb9; x0a; xe8; x92; xbf; x0a; xe8;
  x92; x9f; x0a; xe8; x93; x99; x0a; xe8;
  x93; x8d; x0a; xe8; x92; xbb; x0a; xe8;
  x93; x9a; x0a; xe8; x93; x90; x0a; xe8;
  x93; x81; x0a; xe8; x93; x86; x0a; xe8;
  x93; x96; x0a; xe8; x92; xa1; x0a; xe8;
  x94; xa1; x0a; xe8; x93; xbf; x0a; xe8;
  x93; xb4; x0a; xe8; x94; x97; x0a; xe8;
  x94; x98; x0a; xe8; x94; xac; x0a; xe8;
  x94; x9f; x0a; xe8; x94; x95; x0a; xe8;
  x94; x94; x0a; xe8; x93; xbc; x0a; xe8
].
(* tests/test_data/whatwg/shiftjis_whatwg_test_decode_out.txt, entries 23808..24063 *)
Definition shiftjis_decode_out_93 : list byte := [
  x95; x80; x0a; xe8; x95; xa3; x0a; xe8;
  x95; x98; x0a; xe8; x95; x88; x0a; xe8;
  x95; x81; x0a; xe8; x98; x82; x0a; xe8;
  x95; x8b; x0a; xe8; x95; x95; x0a; xe8;
  x96; x80; x0a; xe8; x96; xa4; x0a; xe8;
  x96; x88; x0a; xe8; x96; x91; x0a; xe8;
  x96; x8a; x0a; xe8; x96; xa8; x0a; xe8;
  x95; xad; x0a; xe8; x96; x94; x0a; xe8;
  x96; x9b; x0a; xe8; x97; xaa; x0a; xe8;
  x96; x87; x0a; xe8; x96; x9c; x0a; xe8;
  x95; xb7; x0a; xe8; x95; xbe; x0a; xe8;
  x96; x90; x0a; xe8; x97; x89; x0a; xe8;
  x96; xba; x0a; xe8; x97; x8f; x0a; xe8;
  x96; xb9; x0a; xe8; x97; x90; x0a; xe8;
  x97; x95; x0a; xe8; x97; x9d; x0a; xe8;
  x97; xa5; x0a; xe8; x97; x9c; x0a; xe8;
  x97; xb9; x0a; xe8; x98; x8a; x0a; xe8;
  x98; x93; x0a; xe8; x98; x8b; x0a; xe8;
  x97; xbe; x0a; xe8; x97; xba; x0a; xe8;
  x98; x86; x0a; xe8; x98; xa2; x0a; xe8;
  x98; x9a; x0a; xe8; x98; xb0; x0a; xe8;
  x98; xbf; x0a; xe8; x99; x8d; x0a; xe4;
  xb9; x95; x0a; xe8; x99; x94; x0a; xe8;
  x99; x9f; x0a; xe8; x99; xa7; x0a; xe8;
  x99; xb1; x0a; xe8; x9a; x93; x0a; xe8;
  x9a; xa3; x0a; xe8; x9a; xa9; x0a; xe8;
  x9a; xaa; x0a; xe8; x9a; x8b; x0a; xe8;
  x9a; x8c; x0a; xe8; x9a; xb6; x0a; xe8;
  x9a; xaf; x0a; xe8; x9b; x84; x0a; xe8;
  x9b; x86; x0a; xe8; x9a; xb0; x0a; xe8;
  x9b; x89; x0a; xe8; xa0; xa3; x0a; xe8;
  x9a; xab; x0a; xe8; x9b; x94; x0a; xe8
].
(* tests/test_data/whatwg/shiftjis_whatwg_test_decode_out.txt, entries 24064..24319 *)
Definition shiftjis_decode_out_94 : list byte := [
  x9b; x9e; x0a; xe8; x9b; xa9; x0a; xe8;
  x9b; xac; x0a; xe8; x9b; x9f; x0a; xe8;
  x9b; x9b; x0a; xe8; x9b; xaf; x0a; xe8;
  x9c; x92; x0a; xe8; x9c; x86; x0a; xe8;
  x9c; x88; x0a; xe8; x9c; x80; x0a; xe8;
  x9c; x83; x0a; xe8; x9b; xbb; x0a; xe8;
  x9c; x91; x0a; xe8; x9c; x89; x0a; xe8;
  x9c; x8d; x0a; xe8; x9b; xb9; x0a; xe8;
  x9c; x8a; x0a; xe8; x9c; xb4; x0a; xe8;
  x9c; xbf; x0a; xe8; x9c; xb7; x0a; xe8;
  x9c; xbb; x0a; xe8; x9c; xa5; x0a; xe8;
  x9c; xa9; x0a; xe8; x9c; x9a; x0a; xe8;
  x9d; xa0; x0a; xe8; x9d; x9f; x0a; xe8;
  x9d; xb8; x0a; xe8; x9d; x8c; x0a; xe8;
  x9d; x8e; x0a; xe8; x9d; xb4; x0a; xe8;
  x9d; x97; x0a; xe8; x9d; xa8; x0a; xe8;
  x9d; xae; x0a; xe8; x9d; x99; x0a; xe8;
  x9d; x93; x0a; xe8; x9d; xa3; x0a; xe8;
  x9d; xaa; x0a; xe8; xa0; x85; x0a; xe8;
  x9e; xa2; x0a; xe8; x9e; x9f; x0a; xe8;
  x9e; x82; x0a; xe8; x9e; xaf; x0a; xe8;
  x9f; x8b; x0a; xe8; x9e; xbd; x0a; xe8;
  x9f; x80; x0a; xe8; x9f; x90; x0a; xe9;
  x9b; x96; x0a; xe8; x9e; xab; x0a; xe8;
  x9f; x84; x0a; xe8; x9e; xb3; x0a; xe8;
  x9f; x87; x0a; xe8; x9f; x86; x0a; xe8;
  x9e; xbb; x0a; xe8; x9f; xaf; x0a; xe8;
  x9f; xb2; x0a; xe8; x9f; xa0; x0a; xe8;
  xa0; x8f; x0a; xe8; xa0; x8d; x0a; xe8;
  x9f; xbe; x0a; xe8; x9f; xb6; x0a; xe8;
  x9f; xb7; x0a; xe8; xa0; x8e; x0a; xe8;
  x9f; x92; x0a; xe8; xa0; x91; x0a; xe8
].
(* tests/test_data/whatwg/shiftjis_whatwg_test_decode_out.txt, entries 24320..24575 *)
Definition shiftjis_decode_out_95 : list byte := [
  xa0; x96; x0a; xe8; xa0; x95; x0a; xe8;
  xa0; xa2; x0a; xe8; xa0; xa1; x0a; xe8;
  xa0; xb1; x0a; xe8; xa0; xb6; x0a; xe8;
  xa0; xb9; x0a; xe8; xa0; xa7; x0a; xe8;
  xa0; xbb; x0a; xe8; xa1; x84; x0a; xe8;
  xa1; x82; x0a; xe8; xa1; x92; x0a; xe8;
  xa1; x99; x0a; xe8; xa1; x9e; x0a; xe8;
  xa1; xa2; x0a; xe8; xa1; xab; x0a; xe8;
  xa2; x81; x0a; xe8; xa1; xbe; x0a; xe8;
  xa2; x9e; x0a; xe8; xa1; xb5; x0a; xe8;
  xa1; xbd; x0a; xe8; xa2; xb5; x0a; xe8;
  xa1; xb2; x0a; xe8; xa2; x82; x0a; xe8;
  xa2; x97; x0a; xe8; xa2; x92; x0a; xe8;
  xa2; xae; x0a; xe8; xa2; x99; x0a; xe8;
  xa2; xa2; x0a; xe8; xa2; x8d; x0a; xe8;
  xa2; xa4; x0a; xe8; xa2; xb0; x0a; xe8;
  xa2; xbf; x0a; xe8; xa2; xb1; x0a; xe8;
  xa3; x83; x0a; xe8; xa3; x84; x0a; xe8;
  xa3; x94; x0a; xe8; xa3; x98; x0a; xe8;
  xa3; x99; x0a; xe8; xa3; x9d; x0a; xe8;
  xa3; xb9; x0a; xe8; xa4; x82; x0a; xe8;
  xa3; xbc; x0a; xe8; xa3; xb4; x0a; xe8;
  xa3; xa8; x0a; xe8; xa3; xb2; x0a; xe8;
  xa4; x84; x0a; xe8; xa4; x8c; x0a; xe8;
  xa4; x8a; x0a; xe8; xa4; x93; x0a; xe8;
  xa5; x83; x0a; xe8; xa4; x9e; x0a; xe8;
  xa4; xa5; x0a; xe8; xa4; xaa; x0a; xe8;
  xa4; xab; x0a; xe8; xa5; x81; x0a; xe8;
  xa5; x84; x0a; xe8; xa4; xbb; x0a; xe8;
  xa4; xb6; x0a; xe8; xa4; xb8; x0a; xe8;
  xa5; x8c; x0a; xe8; xa4; x9d; x0a; xe8;
  xa5; xa0; x0a; xe8; xa5; x9e; x0a; xe8
].
(* tests/test_data/whatwg/shiftjis_whatwg_test_decode_out.txt, entries 24576..24831 *)
Definition shiftjis_decode_out_96 : list byte := [
  xa5; xa6; x0a; xe8; xa5; xa4; x0a; xe8;
  xa5; xad; x0a; xe8; xa5; xaa; x0a; xe8;
  xa5; xaf; x0a; xe8; xa5; xb4; x0a; xe8;
  xa5; xb7; x0a; xe8; xa5; xbe; x0a; xe8;
  xa6; x83; x0a; xe8; xa6; x88; x0a; xe8;
  xa6; x8a; x0a; xe8; xa6; x93; x0a; xe8;
  xa6; x98; x0a; xe8; xa6; xa1; x0a; xe8;
  xa6; xa9; x0a; xe8; xa6; xa6; x0a; xe8;
  xa6; xac; x0a; xe8; xa6; xaf; x0a; xe8;
  xa6; xb2; x0a; xe8; xa6; xba; x0a; xe8;
  xa6; xbd; x0a; xe8; xa6; xbf; x0a; xe8;
  xa7; x80; x0a; xe8; xa7; x9a; x0a; xe8;
  xa7; x9c; x0a; xe8; xa7; x9d; x0a; xe8;
  xa7; xa7; x0a; xe8; xa7; xb4; x0a; xe8;
  xa7; xb8; x0a; xe8; xa8; x83; x0a; xe8;
  xa8; x96; x0a; xe8; xa8; x90; x0a; xe8;
  xa8; x8c; x0a; xe8; xa8; x9b; x0a; xe8;
  xa8; x9d; x0a; xe8; xa8; xa5; x0a; xe8;
  xa8; xb6; x0a; xe8; xa9; x81; x0a; xe8;
  xa9; x9b; x0a; xe8; xa9; x92; x0a; xe8;
  xa9; x86; x0a; xe8; xa9; x88; x0a; xe8;
  xa9; xbc; x0a; xe8; xa9; xad; x0a; xe8;
  xa9; xac; x0a; xe8; xa9; xa2; x0a; xe8;
  xaa; x85; x0a; xe8; xaa; x82; x0a; xe8;
  xaa; x84; x0a; xe8; xaa; xa8; x0a; xe8;
  xaa; xa1; x0a; xe8; xaa; x91; x0a; xe8;
  xaa; xa5; x0a; xe8; xaa; xa6; x0a; xe8;
  xaa; x9a; x0a; xe8; xaa; xa3; x0a; xe8;
  xab; x84; x0a; xe8; xab; x8d; x0a; xe8;
  xab; x82; x0a; xe8; xab; x9a; x0a; xe8;
  xab; xab; x0a; xe8; xab; xb3; x0a; xe8;
  xab; xa7; x0a; xe8; xab; xa4; x0a; xe8
].
(* tests/test_data/whatwg/shiftjis_whatwg_test_decode_out.txt, entries 24832..25087 *)
Definition shiftjis_decode_out_97 : list byte := [
  xab; xb1; x0a; xe8; xac; x94; x0a; xe8;
  xab; xa0; x0a; xe8; xab; xa2; x0a; xe8;
  xab; xb7; x0a; xe8; xab; x9e; x0a; xe8;
  xab; x9b; x0a; xe8; xac; x8c; x0a; xe8;
  xac; x87; x0a; xe8; xac; x9a; x0a; xe8;
  xab; xa1; x0a; xe8; xac; x96; x0a; xe8;
  xac; x90; x0a; xe8; xac; x97; x0a; xe8;
  xac; xa0; x0a; xe8; xac; xb3; x0a; xe9;
  x9e; xab; x0a; xe8; xac; xa6; x0a; xe8;
  xac; xab; x0a; xe8; xac; xbe; x0a; xe8;
  xac; xa8; x0a; xe8; xad; x81; x0a; xe8;
  xad; x8c; x0a; xe8; xad; x8f; x0a; xe8;
  xad; x8e; x0a; xe8; xad; x89; x0a; xe8;
  xad; x96; x0a; xe8; xad; x9b; x0a; xe8;
  xad; x9a; x0a; xe8; xad; xab; x0a; xe8;
  xad; x9f; x0a; xe8; xad; xac; x0a; xe8;
  xad; xaf; x0a; xe8; xad; xb4; x0a; xe8;
  xad; xbd; x0a; xe8; xae; x80; x0a; xe8;
  xae; x8c; x0a; xe8; xae; x8e; x0a; xe8;
  xae; x92; x0a; xe8; xae; x93; x0a; xe8;
  xae; x96; x0a; xe8; xae; x99; x0a; xe8;
  xae; x9a; x0a; xe8; xb0; xba; x0a; xe8;
  xb1; x81; x0a; xe8; xb0; xbf; x0a; xe8;
  xb1; x88; x0a; xe8; xb1; x8c; x0a; xe8;
  xb1; x8e; x0a; xe8; xb1; x90; x0a; xe8;
  xb1; x95; x0a; xe8; xb1; xa2; x0a; xe8;
  xb1; xac; x0a; xe8; xb1; xb8; x0a; xe8;
  xb1; xba; x0a; xe8; xb2; x82; x0a; xe8;
  xb2; x89; x0a; xe8; xb2; x85; x0a; xe8;
  xb2; x8a; x0a; xe8; xb2; x8d; x0a; xe8;
  xb2; x8e; x0a; xe8; xb2; x94; x0a; xe8;
  xb1; xbc; x0a; xe8; xb2; x98; x0a; xe6
].
(* tests/test_data/whatwg/shiftjis_whatwg_test_decode_out.txt, entries 25088..25343 *)
Definition shiftjis_decode_out_98 : list byte := [
  x88; x9d; x0a; xe8; xb2; xad; x0a; xe8;
  xb2; xaa; x0a; xe8; xb2; xbd; x0a; xe8;
  xb2; xb2; x0a; xe8; xb2; xb3; x0a; xe8;
  xb2; xae; x0a; xe8; xb2; xb6; x0a; xe8;
  xb3; x88; x0a; xe8; xb3; x81; x0a; xe8;
  xb3; xa4; x0a; xe8; xb3; xa3; x0a; xe8;
  xb3; x9a; x0a; xe8; xb3; xbd; x0a; xe8;
  xb3; xba; x0a; xe8; xb3; xbb; x0a; xe8;
  xb4; x84; x0a; xe8; xb4; x85; x0a; xe8;
  xb4; x8a; x0a; xe8; xb4; x87; x0a; xe8;
  xb4; x8f; x0a; xe8; xb4; x8d; x0a; xe8;
  xb4; x90; x0a; xe9; xbd; x8e; x0a; xe8;
  xb4; x93; x0a; xe8; xb3; x8d; x0a; xe8;
  xb4; x94; x0a; xe8; xb4; x96; x0a; xe8;
  xb5; xa7; x0a; xe8; xb5; xad; x0a; xe8;
  xb5; xb1; x0a; xe8; xb5; xb3; x0a; xe8;
  xb6; x81; x0a; xe8; xb6; x99; x0a; xe8;
  xb7; x82; x0a; xe8; xb6; xbe; x0a; xe8;
  xb6; xba; x0a; xe8; xb7; x8f; x0a; xe8;
  xb7; x9a; x0a; xe8; xb7; x96; x0a; xe8;
  xb7; x8c; x0a; xe8; xb7; x9b; x0a; xe8;
  xb7; x8b; x0a; xe8; xb7; xaa; x0a; xe8;
  xb7; xab; x0a; xe8; xb7; x9f; x0a; xe8;
  xb7; xa3; x0a; xe8; xb7; xbc; x0a; xe8;
  xb8; x88; x0a; xe8; xb8; x89; x0a; xe8;
  xb7; xbf; x0a; xe8; xb8; x9d; x0a; xe8;
  xb8; x9e; x0a; xe8; xb8; x90; x0a; xe8;
  xb8; x9f; x0a; xe8; xb9; x82; x0a; xe8;
  xb8; xb5; x0a; xe8; xb8; xb0; x0a; xe8;
  xb8; xb4; x0a; xe8; xb9; x8a; x0a; xe8;
  xb9; x87; x0a; xe8; xb9; x89; x0a; xe8;
  xb9; x8c; x0a; xe8; xb9; x90; x0a; xe8
].
(* tests/test_data/whatwg/shiftjis_whatwg_test_decode_out.txt, entries 25344..25599 *)
Definition shiftjis_decode_out_99 : list byte := [
  xb9; x88; x0a; xe8; xb9; x99; x0a; xe8;
  xb9; xa4; x0a; xe8; xb9; xa0; x0a; xe8;
  xb8; xaa; x0a; xe8; xb9; xa3; x0a; xe8;
  xb9; x95; x0a; xe8; xb9; xb6; x0a; xe8;
  xb9; xb2; x0a; xe8; xb9; xbc; x0a; xe8;
  xba; x81; x0a; xe8; xba; x87; x0a; xe8;
  xba; x85; x0a; xe8; xba; x84; x0a; xe8;
  xba; x8b; x0a; xe8; xba; x8a; x0a; xe8;
  xba; x93; x0a; xe8; xba; x91; x0a; xe8;
  xba; x94; x0a; xe8; xba; x99; x0a; xe8;
  xba; xaa; x0a; xe8; xba; xa1; x0a; xe8;
  xba; xac; x0a; xe8; xba; xb0; x0a; xe8;
  xbb; x86; x0a; xe8; xba; xb1; x0a; xe8;
  xba; xbe; x0a; xe8; xbb; x85; x0a; xe8;
  xbb; x88; x0a; xe8; xbb; x8b; x0a; xe8;
  xbb; x9b; x0a; xe8; xbb; xa3; x0a; xe8;
  xbb; xbc; x0a; xe8; xbb; xbb; x0a; xe8;
  xbb; xab; x0a; xe8; xbb; xbe; x0a; xe8;
  xbc; x8a; x0a; xe8; xbc; x85; x0a; xe8;
  xbc; x95; x0a; xe8; xbc; x92; x0a; xe8;
  xbc; x99; x0a; xe8; xbc; x93; x0a; xe8;
  xbc; x9c; x0a; xe8; xbc; x9f; x0a; xe8;
  xbc; x9b; x0a; xe8; xbc; x8c; x0a; xe8;
  xbc; xa6; x0a; xe8; xbc; xb3; x0a; xe8;
  xbc; xbb; x0a; xe8; xbc; xb9; x0a; xe8;
  xbd; x85; x0a; xe8; xbd; x82; x0a; xe8;
  xbc; xbe; x0a; xe8; xbd; x8c; x0a; xe8;
  xbd; x89; x0a; xe8; xbd; x86; x0a; xe8;
  xbd; x8e; x0a; xe8; xbd; x97; x0a; xe8;
  xbd; x9c; x0a; xe8; xbd; xa2; x0a; xe8;
  xbd; xa3; x0a; xe8; xbd; xa4; x0a; xe8;
  xbe; x9c; x0a; xe8; xbe; x9f; x0a; xe8
].
(* tests/test_data/whatwg/shiftjis_whatwg_test_decode_out.txt, entries 25600..25855 *)
Definition shiftjis_decode_out_100 : list byte := [
  xbe; xa3; x0a; xe8; xbe; xad; x0a; xe8;
  xbe; xaf; x0a; xe8; xbe; xb7; x0a; xe8;
  xbf; x9a; x0a; xe8; xbf; xa5; x0a; xe8;
  xbf; xa2; x0a; xe8; xbf; xaa; x0a; xe8;
  xbf; xaf; x0a; xe9; x82; x87; x0a; xe8;
  xbf; xb4; x0a; xe9; x80; x85; x0a; xe8;
  xbf; xb9; x0a; xe8; xbf; xba; x0a; xe9;
  x80; x91; x0a; xe9; x80; x95; x0a; xe9;
  x80; xa1; x0a; xe9; x80; x8d; x0a; xe9;
  x80; x9e; x0a; xe9; x80; x96; x0a; xe9;
  x80; x8b; x0a; xe9; x80; xa7; x0a; xe9;
  x80; xb6; x0a; xe9; x80; xb5; x0a; xe9;
  x80; xb9; x0a; xe8; xbf; xb8; x0a; xe9;
  x81; x8f; x0a; xe9; x81; x90; x0a; xe9;
  x81; x91; x0a; xe9; x81; x92; x0a; xe9;
  x80; x8e; x0a; xe9; x81; x89; x0a; xe9;
  x80; xbe; x0a; xe9; x81; x96; x0a; xe9;
  x81; x98; x0a; xe9; x81; x9e; x0a; xe9;
  x81; xa8; x0a; xe9; x81; xaf; x0a; xe9;
  x81; xb6; x0a; xe9; x9a; xa8; x0a; xe9;
  x81; xb2; x0a; xe9; x82; x82; x0a; xe9;
  x81; xbd; x0a; xe9; x82; x81; x0a; xe9;
  x82; x80; x0a; xe9; x82; x8a; x0a; xe9;
  x82; x89; x0a; xe9; x82; x8f; x0a; xe9;
  x82; xa8; x0a; xe9; x82; xaf; x0a; xe9;
  x82; xb1; x0a; xe9; x82; xb5; x0a; xe9;
  x83; xa2; x0a; xe9; x83; xa4; x0a; xe6;
  x89; x88; x0a; xe9; x83; x9b; x0a; xe9;
  x84; x82; x0a; xe9; x84; x92; x0a; xe9;
  x84; x99; x0a; xe9; x84; xb2; x0a; xe9;
  x84; xb0; x0a; xe9; x85; x8a; x0a; xe9;
  x85; x96; x0a; xe9; x85; x98; x0a; xe9
].
(* tests/test_data/whatwg/shiftjis_whatwg_test_decode_out.txt, entries 25856..26111 *)
Definition shiftjis_decode_out_101 : list byte := [
  x85; xa3; x0a; xe9; x85; xa5; x0a; xe9;
  x85; xa9; x0a; xe9; x85; xb3; x0a; xe9;
  x85; xb2; x0a; xe9; x86; x8b; x0a; xe9;
  x86; x89; x0a; xe9; x86; x82; x0a; xe9;
  x86; xa2; x0a; xe9; x86; xab; x0a; xe9;
  x86; xaf; x0a; xe9; x86; xaa; x0a; xe9;
  x86; xb5; x0a; xe9; x86; xb4; x0a; xe9;
  x86; xba; x0a; xe9; x87; x80; x0a; xe9;
  x87; x81; x0a; xe9; x87; x89; x0a; xe9;
  x87; x8b; x0a; xe9; x87; x90; x0a; xe9;
  x87; x96; x0a; xe9; x87; x9f; x0a; xe9;
  x87; xa1; x0a; xe9; x87; x9b; x0a; xe9;
  x87; xbc; x0a; xe9; x87; xb5; x0a; xe9;
  x87; xb6; x0a; xe9; x88; x9e; x0a; xe9;
  x87; xbf; x0a; xe9; x88; x94; x0a; xe9;
  x88; xac; x0a; xe9; x88; x95; x0a; xe9;
  x88; x91; x0a; xe9; x89; x9e; x0a; xe9;
  x89; x97; x0a; xe9; x89; x85; x0a; xe9;
  x89; x89; x0a; xe9; x89; xa4; x0a; xe9;
  x89; x88; x0a; xe9; x8a; x95; x0a; xe9;
  x88; xbf; x0a; xe9; x89; x8b; x0a; xe9;
  x89; x90; x0a; xe9; x8a; x9c; x0a; xe9;
  x8a; x96; x0a; xe9; x8a; x93; x0a; xe9;
  x8a; x9b; x0a; xe9; x89; x9a; x0a; xe9;
  x8b; x8f; x0a; xe9; x8a; xb9; x0a; xe9;
  x8a; xb7; x0a; xe9; x8b; xa9; x0a; xe9;
  x8c; x8f; x0a; xe9; x8b; xba; x0a; xe9;
  x8d; x84; x0a; xe9; x8c; xae; x0a; xe9;
  x8c; x99; x0a; xe9; x8c; xa2; x0a; xe9;
  x8c; x9a; x0a; xe9; x8c; xa3; x0a; xe9;
  x8c; xba; x0a; xe9; x8c; xb5; x0a; xe9;
  x8c; xbb; x0a; xe9; x8d; x9c; x0a; xe9
].
(* tests/test_data/whatwg/shiftjis_whatwg_test_decode_out.txt, entries 26112..26367 *)
Definition shiftjis_decode_out_102 : list byte := [
  x8d; xa0; x0a; xe9; x8d; xbc; x0a; xe9;
  x8d; xae; x0a; xe9; x8d; x96; x0a; xe9;
  x8e; xb0; x0a; xe9; x8e; xac; x0a; xe9;
  x8e; xad; x0a; xe9; x8e; x94; x0a; xe9;
  x8e; xb9; x0a; xe9; x8f; x96; x0a; xe9;
  x8f; x97; x0a; xe9; x8f; xa8; x0a; xe9;
  x8f; xa5; x0a; xe9; x8f; x98; x0a; xe9;
  x8f; x83; x0a; xe9; x8f; x9d; x0a; xe9;
  x8f; x90; x0a; xe9; x8f; x88; x0a; xe9;
  x8f; xa4; x0a; xe9; x90; x9a; x0a; xe9;
  x90; x94; x0a; xe9; x90; x93; x0a; xe9;
  x90; x83; x0a; xe9; x90; x87; x0a; xe9;
  x90; x90; x0a; xe9; x90; xb6; x0a; xe9;
  x90; xab; x0a; xe9; x90; xb5; x0a; xe9;
  x90; xa1; x0a; xe9; x90; xba; x0a; xe9;
  x91; x81; x0a; xe9; x91; x92; x0a; xe9;
  x91; x84; x0a; xe9; x91; x9b; x0a; xe9;
  x91; xa0; x0a; xe9; x91; xa2; x0a; xe9;
  x91; x9e; x0a; xe9; x91; xaa; x0a; xe9;
  x88; xa9; x0a; xe9; x91; xb0; x0a; xe9;
  x91; xb5; x0a; xe9; x91; xb7; x0a; xe9;
  x91; xbd; x0a; xe9; x91; x9a; x0a; xe9;
  x91; xbc; x0a; xe9; x91; xbe; x0a; xe9;
  x92; x81; x0a; xe9; x91; xbf; x0a; xe9;
  x96; x82; x0a; xe9; x96; x87; x0a; xe9;
  x96; x8a; x0a; xe9; x96; x94; x0a; xe9;
  x96; x96; x0a; xe9; x96; x98; x0a; xe9;
  x96; x99; x0a; xe9; x96; xa0; x0a; xe9;
  x96; xa8; x0a; xe9; x96; xa7; x0a; xe9;
  x96; xad; x0a; xe9; x96; xbc; x0a; xe9;
  x96; xbb; x0a; xe9; x96; xb9; x0a; xe9;
  x96; xbe; x0a; xe9; x97; x8a; x0a; xe6
].
(* tests/test_data/whatwg/shiftjis_whatwg_test_decode_out.txt, entries 26368..26623 *)
Definition shiftjis_decode_out_103 : list byte := [
  xbf; xb6; x0a; xe9; x97; x83; x0a; xe9;
  x97; x8d; x0a; xe9; x97; x8c; x0a; xe9;
  x97; x95; x0a; xe9; x97; x94; x0a; xe9;
  x97; x96; x0a; xe9; x97; x9c; x0a; xe9;
  x97; xa1; x0a; xe9; x97; xa5; x0a; xe9;
  x97; xa2; x0a; xe9; x98; xa1; x0a; xe9;
  x98; xa8; x0a; xe9; x98; xae; x0a; xe9;
  x98; xaf; x0a; xe9; x99; x82; x0a; xe9;
  x99; x8c; x0a; xe9; x99; x8f; x0a; xe9;
  x99; x8b; x0a; xe9; x99; xb7; x0a; xe9;
  x99; x9c; x0a; xe9; x99; x9e; x0a; xe9;
  x99; x9d; x0a; xe9; x99; x9f; x0a; xe9;
  x99; xa6; x0a; xe9; x99; xb2; x0a; xe9;
  x99; xac; x0a; xe9; x9a; x8d; x0a; xe9;
  x9a; x98; x0a; xe9; x9a; x95; x0a; xe9;
  x9a; x97; x0a; xe9; x9a; xaa; x0a; xe9;
  x9a; xa7; x0a; xe9; x9a; xb1; x0a; xe9;
  x9a; xb2; x0a; xe9; x9a; xb0; x0a; xe9;
  x9a; xb4; x0a; xe9; x9a; xb6; x0a; xe9;
  x9a; xb8; x0a; xe9; x9a; xb9; x0a; xe9;
  x9b; x8e; x0a; xe9; x9b; x8b; x0a; xe9;
  x9b; x89; x0a; xe9; x9b; x8d; x0a; xe8;
  xa5; x8d; x0a; xe9; x9b; x9c; x0a; xe9;
  x9c; x8d; x0a; xe9; x9b; x95; x0a; xe9;
  x9b; xb9; x0a; xe9; x9c; x84; x0a; xe9;
  x9c; x86; x0a; xe9; x9c; x88; x0a; xe9;
  x9c; x93; x0a; xe9; x9c; x8e; x0a; xe9;
  x9c; x91; x0a; xe9; x9c; x8f; x0a; xe9;
  x9c; x96; x0a; xe9; x9c; x99; x0a; xe9;
  x9c; xa4; x0a; xe9; x9c; xaa; x0a; xe9;
  x9c; xb0; x0a; xe9; x9c; xb9; x0a; xe9;
  x9c; xbd; x0a; xe9; x9c; xbe; x0a; xe9
].
(* tests/test_data/whatwg/shiftjis_whatwg_test_decode_out.txt, entries 26624..26879 *)
Definition shiftjis_decode_out_104 : list byte := [
  x9d; x84; x0a; xe9; x9d; x86; x0a; xe9;
  x9d; x88; x0a; xe9; x9d; x82; x0a; xe9;
  x9d; x89; x0a; xe9; x9d; x9c; x0a; xe9;
  x9d; xa0; x0a; xe9; x9d; xa4; x0a; xe9;
  x9d; xa6; x0a; xe9; x9d; xa8; x0a; xe5;
  x8b; x92; x0a; xe9; x9d; xab; x0a; xe9;
  x9d; xb1; x0a; xe9; x9d; xb9; x0a; xe9;
  x9e; x85; x0a; xe9; x9d; xbc; x0a; xe9;
  x9e; x81; x0a; xe9; x9d; xba; x0a; xe9;
  x9e; x86; x0a; xe9; x9e; x8b; x0a; xe9;
  x9e; x8f; x0a; xe9; x9e; x90; x0a; xe9;
  x9e; x9c; x0a; xe9; x9e; xa8; x0a; xe9;
  x9e; xa6; x0a; xe9; x9e; xa3; x0a; xe9;
  x9e; xb3; x0a; xe9; x9e; xb4; x0a; xe9;
  x9f; x83; x0a; xe9; x9f; x86; x0a; xe9;
  x9f; x88; x0a; xe9; x9f; x8b; x0a; xe9;
  x9f; x9c; x0a; xe9; x9f; xad; x0a; xe9;
  xbd; x8f; x0a; xe9; x9f; xb2; x0a; xe7;
  xab; x9f; x0a; xe9; x9f; xb6; x0a; xe9;
  x9f; xb5; x0a; xe9; xa0; x8f; x0a; xe9;
  xa0; x8c; x0a; xe9; xa0; xb8; x0a; xe9;
  xa0; xa4; x0a; xe9; xa0; xa1; x0a; xe9;
  xa0; xb7; x0a; xe9; xa0; xbd; x0a; xe9;
  xa1; x86; x0a; xe9; xa1; x8f; x0a; xe9;
  xa1; x8b; x0a; xe9; xa1; xab; x0a; xe9;
  xa1; xaf; x0a; xe9; xa1; xb0; x0a; xe9;
  xa1; xb1; x0a; xe9; xa1; xb4; x0a; xe9;
  xa1; xb3; x0a; xe9; xa2; xaa; x0a; xe9;
  xa2; xaf; x0a; xe9; xa2; xb1; x0a; xe9;
  xa2; xb6; x0a; xe9; xa3; x84; x0a; xe9;
  xa3; x83; x0a; xe9; xa3; x86; x0a; xe9;
  xa3; xa9; x0a; xe9; xa3; xab; x0a; xe9
].
(* tests/test_data/whatwg/shiftjis_whatwg_test_decode_out.txt, entries 26880..27135 *)
Definition shiftjis_decode_out_105 : list byte := [
  xa4; x83; x0a; xe9; xa4; x89; x0a; xe9;
  xa4; x92; x0a; xe9; xa4; x94; x0a; xe9;
  xa4; x98; x0a; xe9; xa4; xa1; x0a; xe9;
  xa4; x9d; x0a; xe9; xa4; x9e; x0a; xe9;
  xa4; xa4; x0a; xe9; xa4; xa0; x0a; xe9;
  xa4; xac; x0a; xe9; xa4; xae; x0a; xe9;
  xa4; xbd; x0a; xe9; xa4; xbe; x0a; xe9;
  xa5; x82; x0a; xe9; xa5; x89; x0a; xe9;
  xa5; x85; x0a; xe9; xa5; x90; x0a; xe9;
  xa5; x8b; x0a; xe9; xa5; x91; x0a; xe9;
  xa5; x92; x0a; xe9; xa5; x8c; x0a; xe9;
  xa5; x95; x0a; xe9; xa6; x97; x0a; xe9;
  xa6; x98; x0a; xe9; xa6; xa5; x0a; xe9;
  xa6; xad; x0a; xe9; xa6; xae; x0a; xe9;
  xa6; xbc; x0a; xe9; xa7; x9f; x0a; xe9;
  xa7; x9b; x0a; xe9; xa7; x9d; x0a; xe9;
  xa7; x98; x0a; xe9; xa7; x91; x0a; xe9;
  xa7; xad; x0a; xe9; xa7; xae; x0a; xe9;
  xa7; xb1; x0a; xe9; xa7; xb2; x0a; xe9;
  xa7; xbb; x0a; xe9; xa7; xb8; x0a; xe9;
  xa8; x81; x0a; xe9; xa8; x8f; x0a; xe9;
  xa8; x85; x0a; xe9; xa7; xa2; x0a; xe9;
  xa8; x99; x0a; xe9; xa8; xab; x0a; xe9;
  xa8; xb7; x0a; xe9; xa9; x85; x0a; xe9;
  xa9; x82; x0a; xe9; xa9; x80; x0a; xe9;
  xa9; x83; x0a; xe9; xa8; xbe; x0a; xe9;
  xa9; x95; x0a; xe9; xa9; x8d; x0a; xe9;
  xa9; x9b; x0a; xe9; xa9; x97; x0a; xe9;
  xa9; x9f; x0a; xe9; xa9; xa2; x0a; xe9;
  xa9; xa5; x0a; xe9; xa9; xa4; x0a; xe9;
  xa9; xa9; x0a; xe9; xa9; xab; x0a; xe9;
  xa9; xaa; x0a; xe9; xaa; xad; x0a; xe9
].
(* tests/test_data/whatwg/shiftjis_whatwg_test_decode_out.txt, entries 27136..27391 *)
Definition shiftjis_decode_out_106 : list byte := [
  xaa; xb0; x0a; xe9; xaa; xbc; x0a; xe9;
  xab; x80; x0a; xe9; xab; x8f; x0a; xe9;
  xab; x91; x0a; xe9; xab; x93; x0a; xe9;
  xab; x94; x0a; xe9; xab; x9e; x0a; xe9;
  xab; x9f; x0a; xe9; xab; xa2; x0a; xe9;
  xab; xa3; x0a; xe9; xab; xa6; x0a; xe9;
  xab; xaf; x0a; xe9; xab; xab; x0a; xe9;
  xab; xae; x0a; xe9; xab; xb4; x0a; xe9;
  xab; xb1; x0a; xe9; xab; xb7; x0a; xe9;
  xab; xbb; x0a; xe9; xac; x86; x0a; xe9;
  xac; x98; x0a; xe9; xac; x9a; x0a; xe9;
  xac; x9f; x0a; xe9; xac; xa2; x0a; xe9;
  xac; xa3; x0a; xe9; xac; xa5; x0a; xe9;
  xac; xa7; x0a; xe9; xac; xa8; x0a; xe9;
  xac; xa9; x0a; xe9; xac; xaa; x0a; xe9;
  xac; xae; x0a; xe9; xac; xaf; x0a; xe9;
  xac; xb2; x0a; xe9; xad; x84; x0a; xe9;
  xad; x83; x0a; xe9; xad; x8f; x0a; xe9;
  xad; x8d; x0a; xe9; xad; x8e; x0a; xe9;
  xad; x91; x0a; xe9; xad; x98; x0a; xe9;
  xad; xb4; x0a; xe9; xae; x93; x0a; xe9;
  xae; x83; x0a; xe9; xae; x91; x0a; xe9;
  xae; x96; x0a; xe9; xae; x97; x0a; xe9;
  xae; x9f; x0a; xe9; xae; xa0; x0a; xe9;
  xae; xa8; x0a; xe9; xae; xb4; x0a; xe9;
  xaf; x80; x0a; xe9; xaf; x8a; x0a; xe9;
  xae; xb9; x0a; xe9; xaf; x86; x0a; xe9;
  xaf; x8f; x0a; xe9; xaf; x91; x0a; xe9;
  xaf; x92; x0a; xe9; xaf; xa3; x0a; xe9;
  xaf; xa2; x0a; xe9; xaf; xa4; x0a; xe9;
  xaf; x94; x0a; xe9; xaf; xa1; x0a; xe9;
  xb0; xba; x0a; xe9; xaf; xb2; x0a; xe9
].
(* tests/test_data/whatwg/shiftjis_whatwg_test_decode_out.txt, entries 27392..27647 *)
Definition shiftjis_decode_out_107 : list byte := [
  xaf; xb1; x0a; xe9; xaf; xb0; x0a; xe9;
  xb0; x95; x0a; xe9; xb0; x94; x0a; xe9;
  xb0; x89; x0a; xe9; xb0; x93; x0a; xe9;
  xb0; x8c; x0a; xe9; xb0; x86; x0a; xe9;
  xb0; x88; x0a; xe9; xb0; x92; x0a; xe9;
  xb0; x8a; x0a; xe9; xb0; x84; x0a; xe9;
  xb0; xae; x0a; xe9; xb0; x9b; x0a; xe9;
  xb0; xa5; x0a; xe9; xb0; xa4; x0a; xe9;
  xb0; xa1; x0a; xe9; xb0; xb0; x0a; xe9;
  xb1; x87; x0a; xe9; xb0; xb2; x0a; xe9;
  xb1; x86; x0a; xe9; xb0; xbe; x0a; xe9;
  xb1; x9a; x0a; xe9; xb1; xa0; x0a; xe9;
  xb1; xa7; x0a; xe9; xb1; xb6; x0a; xe9;
  xb1; xb8; x0a; xe9; xb3; xa7; x0a; xe9;
  xb3; xac; x0a; xe9; xb3; xb0; x0a; xe9;
  xb4; x89; x0a; xe9; xb4; x88; x0a; xe9;
  xb3; xab; x0a; xe9; xb4; x83; x0a; xe9;
  xb4; x86; x0a; xe9; xb4; xaa; x0a; xe9;
  xb4; xa6; x0a; xe9; xb6; xaf; x0a; xe9;
  xb4; xa3; x0a; xe9; xb4; x9f; x0a; xe9;
  xb5; x84; x0a; xe9; xb4; x95; x0a; xe9;
  xb4; x92; x0a; xe9; xb5; x81; x0a; xe9;
  xb4; xbf; x0a; xe9; xb4; xbe; x0a; xe9;
  xb5; x86; x0a; xe9; xb5; x88; x0a; xe9;
  xb5; x9d; x0a; xe9; xb5; x9e; x0a; xe9;
  xb5; xa4; x0a; xe9; xb5; x91; x0a; xe9;
  xb5; x90; x0a; xe9; xb5; x99; x0a; xe9;
  xb5; xb2; x0a; xe9; xb6; x89; x0a; xe9;
  xb6; x87; x0a; xe9; xb6; xab; x0a; xe9;
  xb5; xaf; x0a; xe9; xb5; xba; x0a; xe9;
  xb6; x9a; x0a; xe9; xb6; xa4; x0a; xe9;
  xb6; xa9; x0a; xe9; xb6; xb2; x0a; xe9
].
(* tests/test_data/whatwg/shiftjis_whatwg_test_decode_out.txt, entries 27648..27903 *)
Definition shiftjis_decode_out_108 : list byte := [
  xb7; x84; x0a; xe9; xb7; x81; x0a; xe9;
  xb6; xbb; x0a; xe9; xb6; xb8; x0a; xe9;
  xb6; xba; x0a; xe9; xb7; x86; x0a; xe9;
  xb7; x8f; x0a; xe9; xb7; x82; x0a; xe9;
  xb7; x99; x0a; xe9; xb7; x93; x0a; xe9;
  xb7; xb8; x0a; xe9; xb7; xa6; x0a; xe9;
  xb7; xad; x0a; xe9; xb7; xaf; x0a; xe9;
  xb7; xbd; x0a; xe9; xb8; x9a; x0a; xe9;
  xb8; x9b; x0a; xe9; xb8; x9e; x0a; xe9;
  xb9; xb5; x0a; xe9; xb9; xb9; x0a; xe9;
  xb9; xbd; x0a; xe9; xba; x81; x0a; xe9;
  xba; x88; x0a; xe9; xba; x8b; x0a; xe9;
  xba; x8c; x0a; xe9; xba; x92; x0a; xe9;
  xba; x95; x0a; xe9; xba; x91; x0a; xe9;
  xba; x9d; x0a; xe9; xba; xa5; x0a; xe9;
  xba; xa9; x0a; xe9; xba; xb8; x0a; xe9;
  xba; xaa; x0a; xe9; xba; xad; x0a; xe9;
  x9d; xa1; x0a; xe9; xbb; x8c; x0a; xe9;
  xbb; x8e; x0a; xe9; xbb; x8f; x0a; xe9;
  xbb; x90; x0a; xe9; xbb; x94; x0a; xe9;
  xbb; x9c; x0a; xe9; xbb; x9e; x0a; xe9;
  xbb; x9d; x0a; xe9; xbb; xa0; x0a; xe9;
  xbb; xa5; x0a; xe9; xbb; xa8; x0a; xe9;
  xbb; xaf; x0a; xe9; xbb; xb4; x0a; xe9;
  xbb; xb6; x0a; xe9; xbb; xb7; x0a; xe9;
  xbb; xb9; x0a; xe9; xbb; xbb; x0a; xe9;
  xbb; xbc; x0a; xe9; xbb; xbd; x0a; xe9;
  xbc; x87; x0a; xe9; xbc; x88; x0a; xe7;
  x9a; xb7; x0a; xe9; xbc; x95; x0a; xe9;
  xbc; xa1; x0a; xe9; xbc; xac; x0a; xe9;
  xbc; xbe; x0a; xe9; xbd; x8a; x0a; xe9;
  xbd; x92; x0a; xe9; xbd; x94; x0a; xe9
].
(* tests/test_data/whatwg/shiftjis_whatwg_test_decode_out.txt, entries 27904..28159 *)
Definition shiftjis_decode_out_109 : list byte := [
  xbd; xa3; x0a; xe9; xbd; x9f; x0a; xe9;
  xbd; xa0; x0a; xe9; xbd; xa1; x0a; xe9;
  xbd; xa6; x0a; xe9; xbd; xa7; x0a; xe9;
  xbd; xac; x0a; xe9; xbd; xaa; x0a; xe9;
  xbd; xb7; x0a; xe9; xbd; xb2; x0a; xe9;
  xbd; xb6; x0a; xe9; xbe; x95; x0a; xe9;
  xbe; x9c; x0a; xe9; xbe; xa0; x0a; xe5;
  xa0; xaf; x0a; xe6; xa7; x87; x0a; xe9;
  x81; x99; x0a; xe7; x91; xa4; x0a; xe5;
  x87; x9c; x0a; xe7; x86; x99; x0a; xe7;
  xba; x8a; x0a; xe8; xa4; x9c; x0a; xe9;
  x8d; x88; x0a; xe9; x8a; x88; x0a; xe8;
  x93; x9c; x0a; xe4; xbf; x89; x0a; xe7;
  x82; xbb; x0a; xe6; x98; xb1; x0a; xe6;
  xa3; x88; x0a; xe9; x8b; xb9; x0a; xe6;
  x9b; xbb; x0a; xe5; xbd; x85; x0a; xe4;
  xb8; xa8; x0a; xe4; xbb; xa1; x0a; xe4;
  xbb; xbc; x0a; xe4; xbc; x80; x0a; xe4;
  xbc; x83; x0a; xe4; xbc; xb9; x0a; xe4;
  xbd; x96; x0a; xe4; xbe; x92; x0a; xe4;
  xbe; x8a; x0a; xe4; xbe; x9a; x0a; xe4;
  xbe; x94; x0a; xe4; xbf; x8d; x0a; xe5;
  x81; x80; x0a; xe5; x80; xa2; x0a; xe4;
  xbf; xbf; x0a; xe5; x80; x9e; x0a; xe5;
  x81; x86; x0a; xe5; x81; xb0; x0a; xe5;
  x81; x82; x0a; xe5; x82; x94; x0a; xe5;
  x83; xb4; x0a; xe5; x83; x98; x0a; xe5;
  x85; x8a; x0a; xe5; x85; xa4; x0a; xe5;
  x86; x9d; x0a; xe5; x86; xbe; x0a; xe5;
  x87; xac; x0a; xe5; x88; x95; x0a; xe5;
  x8a; x9c; x0a; xe5; x8a; xa6; x0a; xe5;
  x8b; x80; x0a; xe5; x8b; x9b; x0a; xe5
].
(* tests/test_data/whatwg/shiftjis_whatwg_test_decode_out.txt, entries 28160..28415 *)
Definition shiftjis_decode_out_110 : list byte := [
  x8c; x80; x0a; xe5; x8c; x87; x0a; xe5;
  x8c; xa4; x0a; xe5; x8d; xb2; x0a; xe5;
  x8e; x93; x0a; xe5; x8e; xb2; x0a; xe5;
  x8f; x9d; x0a; xef; xa8; x8e; x0a; xe5;
  x92; x9c; x0a; xe5; x92; x8a; x0a; xe5;
  x92; xa9; x0a; xe5; x93; xbf; x0a; xe5;
  x96; x86; x0a; xe5; x9d; x99; x0a; xe5;
  x9d; xa5; x0a; xe5; x9e; xac; x0a; xe5;
  x9f; x88; x0a; xe5; x9f; x87; x0a; xef;
  xa8; x8f; x0a; xef; xa8; x90; x0a; xe5;
  xa2; x9e; x0a; xe5; xa2; xb2; x0a; xe5;
  xa4; x8b; x0a; xe5; xa5; x93; x0a; xe5;
  xa5; x9b; x0a; xe5; xa5; x9d; x0a; xe5;
  xa5; xa3; x0a; xe5; xa6; xa4; x0a; xe5;
  xa6; xba; x0a; xe5; xad; x96; x0a; xe5;
  xaf; x80; x0a; xe7; x94; xaf; x0a; xe5;
  xaf; x98; x0a; xe5; xaf; xac; x0a; xe5;
  xb0; x9e; x0a; xe5; xb2; xa6; x0a; xe5;
  xb2; xba; x0a; xe5; xb3; xb5; x0a; xe5;
  xb4; xa7; x0a; xe5; xb5; x93; x0a; xef;
  xa8; x91; x0a; xe5; xb5; x82; x0a; xe5;
  xb5; xad; x0a; xe5; xb6; xb8; x0a; xe5;
  xb6; xb9; x0a; xe5; xb7; x90; x0a; xe5;
  xbc; xa1; x0a; xe5; xbc; xb4; x0a; xe5;
  xbd; xa7; x0a; xe5; xbe; xb7; x0a; xe5;
  xbf; x9e; x0a; xe6; x81; x9d; x0a; xe6;
  x82; x85; x0a; xe6; x82; x8a; x0a; xe6;
  x83; x9e; x0a; xe6; x83; x95; x0a; xe6;
  x84; xa0; x0a; xe6; x83; xb2; x0a; xe6;
  x84; x91; x0a; xe6; x84; xb7; x0a; xe6;
  x84; xb0; x0a; xe6; x86; x98; x0a; xe6;
  x88; x93; x0a; xe6; x8a; xa6; x0a; xe6
].
(* tests/test_data/whatwg/shiftjis_whatwg_test_decode_out.txt, entries 28416..28671 *)
Definition shiftjis_decode_out_111 : list byte := [
  x8f; xb5; x0a; xe6; x91; xa0; x0a; xe6;
  x92; x9d; x0a; xe6; x93; x8e; x0a; xe6;
  x95; x8e; x0a; xe6; x98; x80; x0a; xe6;
  x98; x95; x0a; xe6; x98; xbb; x0a; xe6;
  x98; x89; x0a; xe6; x98; xae; x0a; xe6;
  x98; x9e; x0a; xe6; x98; xa4; x0a; xe6;
  x99; xa5; x0a; xe6; x99; x97; x0a; xe6;
  x99; x99; x0a; xef; xa8; x92; x0a; xe6;
  x99; xb3; x0a; xe6; x9a; x99; x0a; xe6;
  x9a; xa0; x0a; xe6; x9a; xb2; x0a; xe6;
  x9a; xbf; x0a; xe6; x9b; xba; x0a; xe6;
  x9c; x8e; x0a; xef; xa4; xa9; x0a; xe6;
  x9d; xa6; x0a; xe6; x9e; xbb; x0a; xe6;
  xa1; x92; x0a; xe6; x9f; x80; x0a; xe6;
  xa0; x81; x0a; xe6; xa1; x84; x0a; xe6;
  xa3; x8f; x0a; xef; xa8; x93; x0a; xe6;
  xa5; xa8; x0a; xef; xa8; x94; x0a; xe6;
  xa6; x98; x0a; xe6; xa7; xa2; x0a; xe6;
  xa8; xb0; x0a; xe6; xa9; xab; x0a; xe6;
  xa9; x86; x0a; xe6; xa9; xb3; x0a; xe6;
  xa9; xbe; x0a; xe6; xab; xa2; x0a; xe6;
  xab; xa4; x0a; xe6; xaf; x96; x0a; xe6;
  xb0; xbf; x0a; xe6; xb1; x9c; x0a; xe6;
  xb2; x86; x0a; xe6; xb1; xaf; x0a; xe6;
  xb3; x9a; x0a; xe6; xb4; x84; x0a; xe6;
  xb6; x87; x0a; xe6; xb5; xaf; x0a; xe6;
  xb6; x96; x0a; xe6; xb6; xac; x0a; xe6;
  xb7; x8f; x0a; xe6; xb7; xb8; x0a; xe6;
  xb7; xb2; x0a; xe6; xb7; xbc; x0a; xe6;
  xb8; xb9; x0a; xe6; xb9; x9c; x0a; xe6;
  xb8; xa7; x0a; xe6; xb8; xbc; x0a; xe6;
  xba; xbf; x0a; xe6; xbe; x88; x0a; xe6
].
(* tests/test_data/whatwg/shiftjis_whatwg_test_decode_out.txt, entries 28672..28927 *)
Definition shiftjis_decode_out_112 : list byte := [
  xbe; xb5; x0a; xe6; xbf; xb5; x0a; xe7;
  x80; x85; x0a; xe7; x80; x87; x0a; xe7;
  x80; xa8; x0a; xe7; x82; x85; x0a; xe7;
  x82; xab; x0a; xe7; x84; x8f; x0a; xe7;
  x84; x84; x0a; xe7; x85; x9c; x0a; xe7;
  x85; x86; x0a; xe7; x85; x87; x0a; xef;
  xa8; x95; x0a; xe7; x87; x81; x0a; xe7;
  x87; xbe; x0a; xe7; x8a; xb1; x0a; xe7;
  x8a; xbe; x0a; xe7; x8c; xa4; x0a; xef;
  xa8; x96; x0a; xe7; x8d; xb7; x0a; xe7;
  x8e; xbd; x0a; xe7; x8f; x89; x0a; xe7;
  x8f; x96; x0a; xe7; x8f; xa3; x0a; xe7;
  x8f; x92; x0a; xe7; x90; x87; x0a; xe7;
  x8f; xb5; x0a; xe7; x90; xa6; x0a; xe7;
  x90; xaa; x0a; xe7; x90; xa9; x0a; xe7;
  x90; xae; x0a; xe7; x91; xa2; x0a; xe7;
  x92; x89; x0a; xe7; x92; x9f; x0a; xe7;
  x94; x81; x0a; xe7; x95; xaf; x0a; xe7;
  x9a; x82; x0a; xe7; x9a; x9c; x0a; xe7;
  x9a; x9e; x0a; xe7; x9a; x9b; x0a; xe7;
  x9a; xa6; x0a; xef; xa8; x97; x0a; xe7;
  x9d; x86; x0a; xe5; x8a; xaf; x0a; xe7;
  xa0; xa1; x0a; xe7; xa1; x8e; x0a; xe7;
  xa1; xa4; x0a; xe7; xa1; xba; x0a; xe7;
  xa4; xb0; x0a; xef; xa8; x98; x0a; xef;
  xa8; x99; x0a; xef; xa8; x9a; x0a; xe7;
  xa6; x94; x0a; xef; xa8; x9b; x0a; xe7;
  xa6; x9b; x0a; xe7; xab; x91; x0a; xe7;
  xab; xa7; x0a; xef; xa8; x9c; x0a; xe7;
  xab; xab; x0a; xe7; xae; x9e; x0a; xef;
  xa8; x9d; x0a; xe7; xb5; x88; x0a; xe7;
  xb5; x9c; x0a; xe7; xb6; xb7; x0a; xe7
].
(* tests/test_data/whatwg/shiftjis_whatwg_test_decode_out.txt, entries 28928..29183 *)
Definition shiftjis_decode_out_113 : list byte := [
  xb6; xa0; x0a; xe7; xb7; x96; x0a; xe7;
  xb9; x92; x0a; xe7; xbd; x87; x0a; xe7;
  xbe; xa1; x0a; xef; xa8; x9e; x0a; xe8;
  x8c; x81; x0a; xe8; x8d; xa2; x0a; xe8;
  x8d; xbf; x0a; xe8; x8f; x87; x0a; xe8;
  x8f; xb6; x0a; xe8; x91; x88; x0a; xe8;
  x92; xb4; x0a; xe8; x95; x93; x0a; xe8;
  x95; x99; x0a; xe8; x95; xab; x0a; xef;
  xa8; x9f; x0a; xe8; x96; xb0; x0a; xef;
  xa8; xa0; x0a; xef; xa8; xa1; x0a; xe8;
  xa0; x87; x0a; xe8; xa3; xb5; x0a; xe8;
  xa8; x92; x0a; xe8; xa8; xb7; x0a; xe8;
  xa9; xb9; x0a; xe8; xaa; xa7; x0a; xe8;
  xaa; xbe; x0a; xe8; xab; x9f; x0a; xef;
  xa8; xa2; x0a; xe8; xab; xb6; x0a; xe8;
  xad; x93; x0a; xe8; xad; xbf; x0a; xe8;
  xb3; xb0; x0a; xe8; xb3; xb4; x0a; xe8;
  xb4; x92; x0a; xe8; xb5; xb6; x0a; xef;
  xa8; xa3; x0a; xe8; xbb; x8f; x0a; xef;
  xa8; xa4; x0a; xef; xa8; xa5; x0a; xe9;
  x81; xa7; x0a; xe9; x83; x9e; x0a; xef;
  xa8; xa6; x0a; xe9; x84; x95; x0a; xe9;
  x84; xa7; x0a; xe9; x87; x9a; x0a; xe9;
  x87; x97; x0a; xe9; x87; x9e; x0a; xe9;
  x87; xad; x0a; xe9; x87; xae; x0a; xe9;
  x87; xa4; x0a; xe9; x87; xa5; x0a; xe9;
  x88; x86; x0a; xe9; x88; x90; x0a; xe9;
  x88; x8a; x0a; xe9; x88; xba; x0a; xe9;
  x89; x80; x0a; xe9; x88; xbc; x0a; xe9;
  x89; x8e; x0a; xe9; x89; x99; x0a; xe9;
  x89; x91; x0a; xe9; x88; xb9; x0a; xe9;
  x89; xa7; x0a; xe9; x8a; xa7; x0a; xe9
].
(* tests/test_data/whatwg/shiftjis_whatwg_test_decode_out.txt, entries 29184..29439 *)
Definition shiftjis_decode_out_114 : list byte := [
  x89; xb7; x0a; xe9; x89; xb8; x0a; xe9;
  x8b; xa7; x0a; xe9; x8b; x97; x0a; xe9;
  x8b; x99; x0a; xe9; x8b; x90; x0a; xef;
  xa8; xa7; x0a; xe9; x8b; x95; x0a; xe9;
  x8b; xa0; x0a; xe9; x8b; x93; x0a; xe9;
  x8c; xa5; x0a; xe9; x8c; xa1; x0a; xe9;
  x8b; xbb; x0a; xef; xa8; xa8; x0a; xe9;
  x8c; x9e; x0a; xe9; x8b; xbf; x0a; xe9;
  x8c; x9d; x0a; xe9; x8c; x82; x0a; xe9;
  x8d; xb0; x0a; xe9; x8d; x97; x0a; xe9;
  x8e; xa4; x0a; xe9; x8f; x86; x0a; xe9;
  x8f; x9e; x0a; xe9; x8f; xb8; x0a; xe9;
  x90; xb1; x0a; xe9; x91; x85; x0a; xe9;
  x91; x88; x0a; xe9; x96; x92; x0a; xef;
  xa7; x9c; x0a; xef; xa8; xa9; x0a; xe9;
  x9a; x9d; x0a; xe9; x9a; xaf; x0a; xe9;
  x9c; xb3; x0a; xe9; x9c; xbb; x0a; xe9;
  x9d; x83; x0a; xe9; x9d; x8d; x0a; xe9;
  x9d; x8f; x0a; xe9; x9d; x91; x0a; xe9;
  x9d; x95; x0a; xe9; xa1; x97; x0a; xe9;
  xa1; xa5; x0a; xef; xa8; xaa; x0a; xef;
  xa8; xab; x0a; xe9; xa4; xa7; x0a; xef;
  xa8; xac; x0a; xe9; xa6; x9e; x0a; xe9;
  xa9; x8e; x0a; xe9; xab; x99; x0a; xe9;
  xab; x9c; x0a; xe9; xad; xb5; x0a; xe9;
  xad; xb2; x0a; xe9; xae; x8f; x0a; xe9;
  xae; xb1; x0a; xe9; xae; xbb; x0a; xe9;
  xb0; x80; x0a; xe9; xb5; xb0; x0a; xe9;
  xb5; xab; x0a; xef; xa8; xad; x0a; xe9;
  xb8; x99; x0a; xe9; xbb; x91; x0a; xe2;
  x85; xb0; x0a; xe2; x85; xb1; x0a; xe2;
  x85; xb2; x0a; xe2; x85; xb3; x0a; xe2
].
(* tests/test_data/whatwg/shiftjis_whatwg_test_decode_out.txt, entries 29440..29695 *)
Definition shiftjis_decode_out_115 : list byte := [
  x85; xb4; x0a; xe2; x85; xb5; x0a; xe2;
  x85; xb6; x0a; xe2; x85; xb7; x0a; xe2;
  x85; xb8; x0a; xe2; x85; xb9; x0a; xef;
  xbf; xa2; x0a; xef; xbf; xa4; x0a; xef;
  xbc; x87; x0a; xef; xbc; x82; x0a; xe2;
  x85; xb0; x0a; xe2; x85; xb1; x0a; xe2;
  x85; xb2; x0a; xe2; x85; xb3; x0a; xe2;
  x85; xb4; x0a; xe2; x85; xb5; x0a; xe2;
  x85; xb6; x0a; xe2; x85; xb7; x0a; xe2;
  x85; xb8; x0a; xe2; x85; xb9; x0a; xe2;
  x85; xa0; x0a; xe2; x85; xa1; x0a; xe2;
  x85; xa2; x0a; xe2; x85; xa3; x0a; xe2;
  x85; xa4; x0a; xe2; x85; xa5; x0a; xe2;
  x85; xa6; x0a; xe2; x85; xa7; x0a; xe2;
  x85; xa8; x0a; xe2; x85; xa9; x0a; xef;
  xbf; xa2; x0a; xef; xbf; xa4; x0a; xef;
  xbc; x87; x0a; xef; xbc; x82; x0a; xe3;
  x88; xb1; x0a; xe2; x84; x96; x0a; xe2;
  x84; xa1; x0a; xe2; x88; xb5; x0a; xe7;
  xba; x8a; x0a; xe8; xa4; x9c; x0a; xe9;
  x8d; x88; x0a; xe9; x8a; x88; x0a; xe8;
  x93; x9c; x0a; xe4; xbf; x89; x0a; xe7;
  x82; xbb; x0a; xe6; x98; xb1; x0a; xe6;
  xa3; x88; x0a; xe9; x8b; xb9; x0a; xe6;
  x9b; xbb; x0a; xe5; xbd; x85; x0a; xe4;
  xb8; xa8; x0a; xe4; xbb; xa1; x0a; xe4;
  xbb; xbc; x0a; xe4; xbc; x80; x0a; xe4;
  xbc; x83; x0a; xe4; xbc; xb9; x0a; xe4;
  xbd; x96; x0a; xe4; xbe; x92; x0a; xe4;
  xbe; x8a; x0a; xe4; xbe; x9a; x0a; xe4;
  xbe; x94; x0a; xe4; xbf; x8d; x0a; xe5;
  x81; x80; x0a; xe5; x80; xa2; x0a; xe4
].
(* tests/test_data/whatwg/shiftjis_whatwg_test_decode_out.txt, entries 29696..29951 *)
Definition shiftjis_decode_out_116 : list byte := [
  xbf; xbf; x0a; xe5; x80; x9e; x0a; xe5;
  x81; x86; x0a; xe5; x81; xb0; x0a; xe5;
  x81; x82; x0a; xe5; x82; x94; x0a; xe5;
  x83; xb4; x0a; xe5; x83; x98; x0a; xe5;
  x85; x8a; x0a; xe5; x85; xa4; x0a; xe5;
  x86; x9d; x0a; xe5; x86; xbe; x0a; xe5;
  x87; xac; x0a; xe5; x88; x95; x0a; xe5;
  x8a; x9c; x0a; xe5; x8a; xa6; x0a; xe5;
  x8b; x80; x0a; xe5; x8b; x9b; x0a; xe5;
  x8c; x80; x0a; xe5; x8c; x87; x0a; xe5;
  x8c; xa4; x0a; xe5; x8d; xb2; x0a; xe5;
  x8e; x93; x0a; xe5; x8e; xb2; x0a; xe5;
  x8f; x9d; x0a; xef; xa8; x8e; x0a; xe5;
  x92; x9c; x0a; xe5; x92; x8a; x0a; xe5;
  x92; xa9; x0a; xe5; x93; xbf; x0a; xe5;
  x96; x86; x0a; xe5; x9d; x99; x0a; xe5;
  x9d; xa5; x0a; xe5; x9e; xac; x0a; xe5;
  x9f; x88; x0a; xe5; x9f; x87; x0a; xef;
  xa8; x8f; x0a; xef; xa8; x90; x0a; xe5;
  xa2; x9e; x0a; xe5; xa2; xb2; x0a; xe5;
  xa4; x8b; x0a; xe5; xa5; x93; x0a; xe5;
  xa5; x9b; x0a; xe5; xa5; x9d; x0a; xe5;
  xa5; xa3; x0a; xe5; xa6; xa4; x0a; xe5;
  xa6; xba; x0a; xe5; xad; x96; x0a; xe5;
  xaf; x80; x0a; xe7; x94; xaf; x0a; xe5;
  xaf; x98; x0a; xe5; xaf; xac; x0a; xe5;
  xb0; x9e; x0a; xe5; xb2; xa6; x0a; xe5;
  xb2; xba; x0a; xe5; xb3; xb5; x0a; xe5;
  xb4; xa7; x0a; xe5; xb5; x93; x0a; xef;
  xa8; x91; x0a; xe5; xb5; x82; x0a; xe5;
  xb5; xad; x0a; xe5; xb6; xb8; x0a; xe5;
  xb6; xb9; x0a; xe5; xb7; x90; x0a; xe5
].
(* tests/test_data/whatwg/shiftjis_whatwg_test_decode_out.txt, entries 29952..30207 *)
Definition shiftjis_decode_out_117 : list byte := [
  xbc; xa1; x0a; xe5; xbc; xb4; x0a; xe5;
  xbd; xa7; x0a; xe5; xbe; xb7; x0a; xe5;
  xbf; x9e; x0a; xe6; x81; x9d; x0a; xe6;
  x82; x85; x0a; xe6; x82; x8a; x0a; xe6;
  x83; x9e; x0a; xe6; x83; x95; x0a; xe6;
  x84; xa0; x0a; xe6; x83; xb2; x0a; xe6;
  x84; x91; x0a; xe6; x84; xb7; x0a; xe6;
  x84; xb0; x0a; xe6; x86; x98; x0a; xe6;
  x88; x93; x0a; xe6; x8a; xa6; x0a; xe6;
  x8f; xb5; x0a; xe6; x91; xa0; x0a; xe6;
  x92; x9d; x0a; xe6; x93; x8e; x0a; xe6;
  x95; x8e; x0a; xe6; x98; x80; x0a; xe6;
  x98; x95; x0a; xe6; x98; xbb; x0a; xe6;
  x98; x89; x0a; xe6; x98; xae; x0a; xe6;
  x98; x9e; x0a; xe6; x98; xa4; x0a; xe6;
  x99; xa5; x0a; xe6; x99; x97; x0a; xe6;
  x99; x99; x0a; xef; xa8; x92; x0a; xe6;
  x99; xb3; x0a; xe6; x9a; x99; x0a; xe6;
  x9a; xa0; x0a; xe6; x9a; xb2; x0a; xe6;
  x9a; xbf; x0a; xe6; x9b; xba; x0a; xe6;
  x9c; x8e; x0a; xef; xa4; xa9; x0a; xe6;
  x9d; xa6; x0a; xe6; x9e; xbb; x0a; xe6;
  xa1; x92; x0a; xe6; x9f; x80; x0a; xe6;
  xa0; x81; x0a; xe6; xa1; x84; x0a; xe6;
  xa3; x8f; x0a; xef; xa8; x93; x0a; xe6;
  xa5; xa8; x0a; xef; xa8; x94; x0a; xe6;
  xa6; x98; x0a; xe6; xa7; xa2; x0a; xe6;
  xa8; xb0; x0a; xe6; xa9; xab; x0a; xe6;
  xa9; x86; x0a; xe6; xa9; xb3; x0a; xe6;
  xa9; xbe; x0a; xe6; xab; xa2; x0a; xe6;
  xab; xa4; x0a; xe6; xaf; x96; x0a; xe6;
  xb0; xbf; x0a; xe6; xb1; x9c; x0a; xe6
].
(* tests/test_data/whatwg/shiftjis_whatwg_test_decode_out.txt, entries 30208..30463 *)
Definition shiftjis_decode_out_118 : list byte := [
  xb2; x86; x0a; xe6; xb1; xaf; x0a; xe6;
  xb3; x9a; x0a; xe6; xb4; x84; x0a; xe6;
  xb6; x87; x0a; xe6; xb5; xaf; x0a; xe6;
  xb6; x96; x0a; xe6; xb6; xac; x0a; xe6;
  xb7; x8f; x0a; xe6; xb7; xb8; x0a; xe6;
  xb7; xb2; x0a; xe6; xb7; xbc; x0a; xe6;
  xb8; xb9; x0a; xe6; xb9; x9c; x0a; xe6;
  xb8; xa7; x0a; xe6; xb8; xbc; x0a; xe6;
  xba; xbf; x0a; xe6; xbe; x88; x0a; xe6;
  xbe; xb5; x0a; xe6; xbf; xb5; x0a; xe7;
  x80; x85; x0a; xe7; x80; x87; x0a; xe7;
  x80; xa8; x0a; xe7; x82; x85; x0a; xe7;
  x82; xab; x0a; xe7; x84; x8f; x0a; xe7;
  x84; x84; x0a; xe7; x85; x9c; x0a; xe7;
  x85; x86; x0a; xe7; x85; x87; x0a; xef;
  xa8; x95; x0a; xe7; x87; x81; x0a; xe7;
  x87; xbe; x0a; xe7; x8a; xb1; x0a; xe7;
  x8a; xbe; x0a; xe7; x8c; xa4; x0a; xef;
  xa8; x96; x0a; xe7; x8d; xb7; x0a; xe7;
  x8e; xbd; x0a; xe7; x8f; x89; x0a; xe7;
  x8f; x96; x0a; xe7; x8f; xa3; x0a; xe7;
  x8f; x92; x0a; xe7; x90; x87; x0a; xe7;
  x8f; xb5; x0a; xe7; x90; xa6; x0a; xe7;
  x90; xaa; x0a; xe7; x90; xa9; x0a; xe7;
  x90; xae; x0a; xe7; x91; xa2; x0a; xe7;
  x92; x89; x0a; xe7; x92; x9f; x0a; xe7;
  x94; x81; x0a; xe7; x95; xaf; x0a; xe7;
  x9a; x82; x0a; xe7; x9a; x9c; x0a; xe7;
  x9a; x9e; x0a; xe7; x9a; x9b; x0a; xe7;
  x9a; xa6; x0a; xef; xa8; x97; x0a; xe7;
  x9d; x86; x0a; xe5; x8a; xaf; x0a; xe7;
  xa0; xa1; x0a; xe7; xa1; x8e; x0a; xe7
].
(* tests/test_data/whatwg/shiftjis_whatwg_test_decode_out.txt, entries 30464..30719 *)
Definition shiftjis_decode_out_119 : list byte := [
  xa1; xa4; x0a; xe7; xa1; xba; x0a; xe7;
  xa4; xb0; x0a; xef; xa8; x98; x0a; xef;
  xa8; x99; x0a; xef; xa8; x9a; x0a; xe7;
  xa6; x94; x0a; xef; xa8; x9b; x0a; xe7;
  xa6; x9b; x0a; xe7; xab; x91; x0a; xe7;
  xab; xa7; x0a; xef; xa8; x9c; x0a; xe7;
  xab; xab; x0a; xe7; xae; x9e; x0a; xef;
  xa8; x9d; x0a; xe7; xb5; x88; x0a; xe7;
  xb5; x9c; x0a; xe7; xb6; xb7; x0a; xe7;
  xb6; xa0; x0a; xe7; xb7; x96; x0a; xe7;
  xb9; x92; x0a; xe7; xbd; x87; x0a; xe7;
  xbe; xa1; x0a; xef; xa8; x9e; x0a; xe8;
  x8c; x81; x0a; xe8; x8d; xa2; x0a; xe8;
  x8d; xbf; x0a; xe8; x8f; x87; x0a; xe8;
  x8f; xb6; x0a; xe8; x91; x88; x0a; xe8;
  x92; xb4; x0a; xe8; x95; x93; x0a; xe8;
  x95; x99; x0a; xe8; x95; xab; x0a; xef;
  xa8; x9f; x0a; xe8; x96; xb0; x0a; xef;
  xa8; xa0; x0a; xef; xa8; xa1; x0a; xe8;
  xa0; x87; x0a; xe8; xa3; xb5; x0a; xe8;
  xa8; x92; x0a; xe8; xa8; xb7; x0a; xe8;
  xa9; xb9; x0a; xe8; xaa; xa7; x0a; xe8;
  xaa; xbe; x0a; xe8; xab; x9f; x0a; xef;
  xa8; xa2; x0a; xe8; xab; xb6; x0a; xe8;
  xad; x93; x0a; xe8; xad; xbf; x0a; xe8;
  xb3; xb0; x0a; xe8; xb3; xb4; x0a; xe8;
  xb4; x92; x0a; xe8; xb5; xb6; x0a; xef;
  xa8; xa3; x0a; xe8; xbb; x8f; x0a; xef;
  xa8; xa4; x0a; xef; xa8; xa5; x0a; xe9;
  x81; xa7; x0a; xe9; x83; x9e; x0a; xef;
  xa8; xa6; x0a; xe9; x84; x95; x0a; xe9;
  x84; xa7; x0a; xe9; x87; x9a; x0a; xe9
].
(* tests/test_data/whatwg/shiftjis_whatwg_test_decode_out.txt, entries 30720..30975 *)
Definition shiftjis_decode_out_120 : list byte := [
  x87; x97; x0a; xe9; x87; x9e; x0a; xe9;
  x87; xad; x0a; xe9; x87; xae; x0a; xe9;
  x87; xa4; x0a; xe9; x87; xa5; x0a; xe9;
  x88; x86; x0a; xe9; x88; x90; x0a; xe9;
  x88; x8a; x0a; xe9; x88; xba; x0a; xe9;
  x89; x80; x0a; xe9; x88; xbc; x0a; xe9;
  x89; x8e; x0a; xe9; x89; x99; x0a; xe9;
  x89; x91; x0a; xe9; x88; xb9; x0a; xe9;
  x89; xa7; x0a; xe9; x8a; xa7; x0a; xe9;
  x89; xb7; x0a; xe9; x89; xb8; x0a; xe9;
  x8b; xa7; x0a; xe9; x8b; x97; x0a; xe9;
  x8b; x99; x0a; xe9; x8b; x90; x0a; xef;
  xa8; xa7; x0a; xe9; x8b; x95; x0a; xe9;
  x8b; xa0; x0a; xe9; x8b; x93; x0a; xe9;
  x8c; xa5; x0a; xe9; x8c; xa1; x0a; xe9;
  x8b; xbb; x0a; xef; xa8; xa8; x0a; xe9;
  x8c; x9e; x0a; xe9; x8b; xbf; x0a; xe9;
  x8c; x9d; x0a; xe9; x8c; x82; x0a; xe9;
  x8d; xb0; x0a; xe9; x8d; x97; x0a; xe9;
  x8e; xa4; x0a; xe9; x8f; x86; x0a; xe9;
  x8f; x9e; x0a; xe9; x8f; xb8; x0a; xe9;
  x90; xb1; x0a; xe9; x91; x85; x0a; xe9;
  x91; x88; x0a; xe9; x96; x92; x0a; xef;
  xa7; x9c; x0a; xef; xa8; xa9; x0a; xe9;
  x9a; x9d; x0a; xe9; x9a; xaf; x0a; xe9;
  x9c; xb3; x0a; xe9; x9c; xbb; x0a; xe9;
  x9d; x83; x0a; xe9; x9d; x8d; x0a; xe9;
  x9d; x8f; x0a; xe9; x9d; x91; x0a; xe9;
  x9d; x95; x0a; xe9; xa1; x97; x0a; xe9;
  xa1; xa5; x0a; xef; xa8; xaa; x0a; xef;
  xa8; xab; x0a; xe9; xa4; xa7; x0a; xef;
  xa8; xac; x0a; xe9; xa6; x9e; x0a; xe9
].
(* tests/test_data/whatwg/shiftjis_whatwg_test_decode_out.txt, entries 30976..31030 *)
Definition shiftjis_decode_out_121 : list byte := [
  xa9; x8e; x0a; xe9; xab; x99; x0a; xe9;
  xab; x9c; x0a; xe9; xad; xb5; x0a; xe9;
  xad; xb2; x0a; xe9; xae; x8f; x0a; xe9;
  xae; xb1; x0a; xe9; xae; xbb; x0a; xe9;
  xb0; x80; x0a; xe9; xb5; xb0; x0a; xe9;
  xb5; xab; x0a; xef; xa8; xad; x0a; xe9;
  xb8; x99; x0a; xe9; xbb; x91; x0a
].
(* tests/test_data/whatwg/shiftjis_whatwg_test_decode_out.txt: the whole table *)
Definition shiftjis_decode_out : list byte :=
  shiftjis_decode_out_0 ++
  shiftjis_decode_out_1 ++
  shiftjis_decode_out_2 ++
  shiftjis_decode_out_3 ++
  shiftjis_decode_out_4 ++
  shiftjis_decode_out_5 ++
  shiftjis_decode_out_6 ++
  shiftjis_decode_out_7 ++
  shiftjis_decode_out_8 ++
  shiftjis_decode_out_9 ++
  shiftjis_decode_out_10 ++
  shiftjis_decode_out_11 ++
  shiftjis_decode_out_12 ++
  shiftjis_decode_out_13 ++
  shiftjis_decode_out_14 ++
  shiftjis_decode_out_15 ++
  shiftjis_decode_out_16 ++
  shiftjis_decode_out_17 ++
  shiftjis_decode_out_18 ++
  shiftjis_decode_out_19 ++
  shiftjis_decode_out_20 ++
  shiftjis_decode_out_21 ++
  shiftjis_decode_out_22 ++
  shiftjis_decode_out_23 ++
  shiftjis_decode_out_24 ++
  shiftjis_decode_out_25 ++
  shiftjis_decode_out_26 ++
  shiftjis_decode_out_27 ++
  shiftjis_decode_out_28 ++
  shiftjis_decode_out_29 ++
  shiftjis_decode_out_30 ++
  shiftjis_decode_out_31 ++
  shiftjis_decode_out_32 ++
  shiftjis_decode_out_33 ++
  shiftjis_decode_out_34 ++
  shiftjis_decode_out_35 ++
  shiftjis_decode_out_36 ++
  shiftjis_decode_out_37 ++
  shiftjis_decode_out_38 ++
  shiftjis_decode_out_39 ++
  shiftjis_decode_out_40 ++
  shiftjis_decode_out_41 ++
  shiftjis_decode_out_42 ++
  shiftjis_decode_out_43 ++
  shiftjis_decode_out_44 ++
  shiftjis_decode_out_45 ++
  shiftjis_decode_out_46 ++
  shiftjis_decode_out_47 ++
  shiftjis_decode_out_48 ++
  shiftjis_decode_out_49 ++
  shiftjis_decode_out_50 ++
  shiftjis_decode_out_51 ++
  shiftjis_decode_out_52 ++
  shiftjis_decode_out_53 ++
  shiftjis_decode_out_54 ++
  shiftjis_decode_out_55 ++
  shiftjis_decode_out_56 ++
  shiftjis_decode_out_57 ++
  shiftjis_decode_out_58 ++
  shiftjis_decode_out_59 ++
  shiftjis_decode_out_60 ++
  shiftjis_decode_out_61 ++
  shiftjis_decode_out_62 ++
  shiftjis_decode_out_63 ++
  shiftjis_decode_out_64 ++
  shiftjis_decode_out_65 ++
  shiftjis_decode_out_66 ++
  shiftjis_decode_out_67 ++
  shiftjis_decode_out_68 ++
  shiftjis_decode_out_69 ++
  shiftjis_decode_out_70 ++
  shiftjis_decode_out_71 ++
  shiftjis_decode_out_72 ++
  shiftjis_decode_out_73 ++
  shiftjis_decode_out_74 ++
  shiftjis_decode_out_75 ++
  shiftjis_decode_out_76 ++
  shiftjis_decode_out_77 ++
  shiftjis_decode_out_78 ++
  shiftjis_decode_out_79 ++
  shiftjis_decode_out_80 ++
  shiftjis_decode_out_81 ++
  shiftjis_decode_out_82 ++
  shiftjis_decode_out_83 ++
  shiftjis_decode_out_84 ++
  shiftjis_decode_out_85 ++
  shiftjis_decode_out_86 ++
  shiftjis_decode_out_87 ++
  shiftjis_decode_out_88 ++
  shiftjis_decode_out_89 ++
  shiftjis_decode_out_90 ++
  shiftjis_decode_out_91 ++
  shiftjis_decode_out_92 ++
  shiftjis_decode_out_93 ++
  shiftjis_decode_out_94 ++
  shiftjis_decode_out_95 ++
  shiftjis_decode_out_96 ++
  shiftjis_decode_out_97 ++
  shiftjis_decode_out_98 ++
  shiftjis_decode_out_99 ++
  shiftjis_decode_out_100 ++
  shiftjis_decode_out_101 ++
  shiftjis_decode_out_102 ++
  shiftjis_decode_out_103 ++
  shiftjis_decode_out_104 ++
  shiftjis_decode_out_105 ++
  shiftjis_decode_out_106 ++
  shiftjis_decode_out_107 ++
  shiftjis_decode_out_108 ++
  shiftjis_decode_out_109 ++
  shiftjis_decode_out_110 ++
  shiftjis_decode_out_111 ++
  shiftjis_decode_out_112 ++
  shiftjis_decode_out_113 ++
  shiftjis_decode_out_114 ++
  shiftjis_decode_out_115 ++
  shiftjis_decode_out_116 ++
  shiftjis_decode_out_117 ++
  shiftjis_decode_out_118 ++
  shiftjis_decode_out_119 ++
  shiftjis_decode_out_120 ++
  shiftjis_decode_out_121.

(* tests/test_data/whatwg/shiftjis_whatwg_test_encode_in.txt, entries 0..255 *)
Definition shiftjis_encode_in_0 : list byte := [
  x01; x0a; x02; x0a; x03; x0a; x04; x0a;
  x05; x0a; x06; x0a; x07; x0a; x08; x0a;
  x09; x0a; x0a; x0a; x0b; x0a; x0c; x0a;
  x0d; x0a; x0e; x0a; x0f; x0a; x10; x0a;
  x11; x0a; x12; x0a; x13; x0a; x14; x0a;
  x15; x0a; x16; x0a; x17; x0a; x18; x0a;
  x19; x0a; x1a; x0a; x1b; x0a; x1c; x0a;
  x1d; x0a; x1e; x0a; x1f; x0a; x20; x0a;
  x21; x0a; x22; x0a; x23; x0a; x24; x0a;
  x25; x0a; x26; x0a; x27; x0a; x28; x0a;
  x29; x0a; x2a; x0a; x2b; x0a; x2c; x0a;
  x2d; x0a; x2e; x0a; x2f; x0a; x30; x0a;
  x31; x0a; x32; x0a; x33; x0a; x34; x0a;
  x35; x0a; x36; x0a; x37; x0a; x38; x0a;
  x39; x0a; x3a; x0a; x3b; x0a; x3c; x0a;
  x3d; x0a; x3e; x0a; x3f; x0a; x40; x0a;
  x41; x0a; x42; x0a; x43; x0a; x44; x0a;
  x45; x0a; x46; x0a; x47; x0a; x48; x0a;
  x49; x0a; x4a; x0a; x4b; x0a; x4c; x0a;
  x4d; x0a; x4e; x0a; x4f; x0a; x50; x0a;
  x51; x0a; x52; x0a; x53; x0a; x54; x0a;
  x55; x0a; x56; x0a; x57; x0a; x58; x0a;
  x59; x0a; x5a; x0a; x5b; x0a; x5c; x0a;
  x5d; x0a; x5e; x0a; x5f; x0a; x60; x0a;
  x61; x0a; x62; x0a; x63; x0a; x64; x0a;
  x65; x0a; x66; x0a; x67; x0a; x68; x0a;
  x69; x0a; x6a; x0a; x6b; x0a; x6c; x0a;
  x6d; x0a; x6e; x0a; x6f; x0a; x70; x0a;
  x71; x0a; x72; x0a; x73; x0a; x74; x0a;
  x75; x0a; x76; x0a; x77; x0a; x78; x0a;
  x79; x0a; x7a; x0a; x7b; x0a; x7c; x0a;
  x7d; x0a; x7e; x0a; x7f; x0a; xc2; x80
].
(* tests/test_data/whatwg/shiftjis_whatwg_test_encode_in.txt, entries 256..511 *)
Definition shiftjis_encode_in_1 : list byte := [
  x0a; xe3; x80; x80; x0a; xe3; x80; x81;
  x0a; xe3; x80; x82; x0a; xef; xbc; x8c;
  x0a; xef; xbc; x8e; x0a; xe3; x83; xbb;
  x0a; xef; xbc; x9a; x0a; xef; xbc; x9b;
  x0a; xef; xbc; x9f; x0a; xef; xbc; x81;
  x0a; xe3; x82; x9b; x0a; xe3; x82; x9c;
  x0a; xc2; xb4; x0a; xef; xbd; x80; x0a;
  xc2; xa8; x0a; xef; xbc; xbe; x0a; xef;
  xbf; xa3; x0a; xef; xbc; xbf; x0a; xe3;
  x83; xbd; x0a; xe3; x83; xbe; x0a; xe3;
  x82; x9d; x0a; xe3; x82; x9e; x0a; xe3;
  x80; x83; x0a; xe4; xbb; x9d; x0a; xe3;
  x80; x85; x0a; xe3; x80; x86; x0a; xe3;
  x80; x87; x0a; xe3; x83; xbc; x0a; xe2;
  x80; x95; x0a; xe2; x80; x90; x0a; xef;
  xbc; x8f; x0a; xef; xbc; xbc; x0a; xef;
  xbd; x9e; x0a; xe2; x88; xa5; x0a; xef;
  xbd; x9c; x0a; xe2; x80; xa6; x0a; xe2;
  x80; xa5; x0a; xe2; x80; x98; x0a; xe2;
  x80; x99; x0a; xe2; x80; x9c; x0a; xe2;
  x80; x9d; x0a; xef; xbc; x88; x0a; xef;
  xbc; x89; x0a; xe3; x80; x94; x0a; xe3;
  x80; x95; x0a; xef; xbc; xbb; x0a; xef;
  xbc; xbd; x0a; xef; xbd; x9b; x0a; xef;
  xbd; x9d; x0a; xe3; x80; x88; x0a; xe3;
  x80; x89; x0a; xe3; x80; x8a; x0a; xe3;
  x80; x8b; x0a; xe3; x80; x8c; x0a; xe3;
  x80; x8d; x0a; xe3; x80; x8e; x0a; xe3;
  x80; x8f; x0a; xe3; x80; x90; x0a; xe3;
  x80; x91; x0a; xef; xbc; x8b; x0a; xef;
  xbc; x8d; x0a; xc2; xb1; x0a; xc3; x97;
  x0a; xc3; xb7; x0a; xef; xbc; x9d; x0a
].
(* tests/test_data/whatwg/shiftjis_whatwg_test_encode_in.txt, entries 512..767 *)
Definition shiftjis_encode_in_2 : list byte := [
  xe2; x89; xa0; x0a; xef; xbc; x9c; x0a;
  xef; xbc; x9e; x0a; xe2; x89; xa6; x0a;
  xe2; x89; xa7; x0a; xe2; x88; x9e; x0a;
  xe2; x88; xb4; x0a; xe2; x99; x82; x0a;
  xe2; x99; x80; x0a; xc2; xb0; x0a; xe2;
  x80; xb2; x0a; xe2; x80; xb3; x0a; xe2;
  x84; x83; x0a; xef; xbf; xa5; x0a; xef;
  xbc; x84; x0a; xef; xbf; xa0; x0a; xef;
  xbf; xa1; x0a; xef; xbc; x85; x0a; xef;
  xbc; x83; x0a; xef; xbc; x86; x0a; xef;
  xbc; x8a; x0a; xef; xbc; xa0; x0a; xc2;
  xa7; x0a; xe2; x98; x86; x0a; xe2; x98;
  x85; x0a; xe2; x97; x8b; x0a; xe2; x97;
  x8f; x0a; xe2; x97; x8e; x0a; xe2; x97;
  x87; x0a; xe2; x97; x86; x0a; xe2; x96;
  xa1; x0a; xe2; x96; xa0; x0a; xe2; x96;
  xb3; x0a; xe2; x96; xb2; x0a; xe2; x96;
  xbd; x0a; xe2; x96; xbc; x0a; xe2; x80;
  xbb; x0a; xe3; x80; x92; x0a; xe2; x86;
  x92; x0a; xe2; x86; x90; x0a; xe2; x86;
  x91; x0a; xe2; x86; x93; x0a; xe3; x80;
  x93; x0a; xe2; x88; x88; x0a; xe2; x88;
  x8b; x0a; xe2; x8a; x86; x0a; xe2; x8a;
  x87; x0a; xe2; x8a; x82; x0a; xe2; x8a;
  x83; x0a; xe2; x88; xaa; x0a; xe2; x88;
  xa9; x0a; xe2; x88; xa7; x0a; xe2; x88;
  xa8; x0a; xef; xbf; xa2; x0a; xe2; x87;
  x92; x0a; xe2; x87; x94; x0a; xe2; x88;
  x80; x0a; xe2; x88; x83; x0a; xe2; x88;
  xa0; x0a; xe2; x8a; xa5; x0a; xe2; x8c;
  x92; x0a; xe2; x88; x82; x0a; xe2; x88;
  x87; x0a; xe2; x89; xa1; x0a; xe2; x89
].
(* tests/test_data/whatwg/shiftjis_whatwg_test_encode_in.txt, entries 768..1023 *)
Definition shiftjis_encode_in_3 : list byte := [
  x92; x0a; xe2; x89; xaa; x0a; xe2; x89;
  xab; x0a; xe2; x88; x9a; x0a; xe2; x88;
  xbd; x0a; xe2; x88; x9d; x0a; xe2; x88;
  xb5; x0a; xe2; x88; xab; x0a; xe2; x88;
  xac; x0a; xe2; x84; xab; x0a; xe2; x80;
  xb0; x0a; xe2; x99; xaf; x0a; xe2; x99;
  xad; x0a; xe2; x99; xaa; x0a; xe2; x80;
  xa0; x0a; xe2; x80; xa1; x0a; xc2; xb6;
  x0a; xe2; x97; xaf; x0a; xef; xbc; x90;
  x0a; xef; xbc; x91; x0a; xef; xbc; x92;
  x0a; xef; xbc; x93; x0a; xef; xbc; x94;
  x0a; xef; xbc; x95; x0a; xef; xbc; x96;
  x0a; xef; xbc; x97; x0a; xef; xbc; x98;
  x0a; xef; xbc; x99; x0a; xef; xbc; xa1;
  x0a; xef; xbc; xa2; x0a; xef; xbc; xa3;
  x0a; xef; xbc; xa4; x0a; xef; xbc; xa5;
  x0a; xef; xbc; xa6; x0a; xef; xbc; xa7;
  x0a; xef; xbc; xa8; x0a; xef; xbc; xa9;
  x0a; xef; xbc; xaa; x0a; xef; xbc; xab;
  x0a; xef; xbc; xac; x0a; xef; xbc; xad;
  x0a; xef; xbc; xae; x0a; xef; xbc; xaf;
  x0a; xef; xbc; xb0; x0a; xef; xbc; xb1;
  x0a; xef; xbc; xb2; x0a; xef; xbc; xb3;
  x0a; xef; xbc; xb4; x0a; xef; xbc; xb5;
  x0a; xef; xbc; xb6; x0a; xef; xbc; xb7;
  x0a; xef; xbc; xb8; x0a; xef; xbc; xb9;
  x0a; xef; xbc; xba; x0a; xef; xbd; x81;
  x0a; xef; xbd; x82; x0a; xef; xbd; x83;
  x0a; xef; xbd; x84; x0a; xef; xbd; x85;
  x0a; xef; xbd; x86; x0a; xef; xbd; x87;
  x0a; xef; xbd; x88; x0a; xef; xbd; x89;
  x0a; xef; xbd; x8a; x0a; xef; xbd; x8b
].
(* tests/test_data/whatwg/shiftjis_whatwg_test_encode_in.txt, entries 1024..1279 *)
Definition shiftjis_encode_in_4 : list byte := [
  x0a; xef; xbd; x8c; x0a; xef; xbd; x8d;
  x0a; xef; xbd; x8e; x0a; xef; xbd; x8f;
  x0a; xef; xbd; x90; x0a; xef; xbd; x91;
  x0a; xef; xbd; x92; x0a; xef; xbd; x93;
  x0a; xef; xbd; x94; x0a; xef; xbd; x95;
  x0a; xef; xbd; x96; x0a; xef; xbd; x97;
  x0a; xef; xbd; x98; x0a; xef; xbd; x99;
  x0a; xef; xbd; x9a; x0a; xe3; x81; x81;
  x0a; xe3; x81; x82; x0a; xe3; x81; x83;
  x0a; xe3; x81; x84; x0a; xe3; x81; x85;
  x0a; xe3; x81; x86; x0a; xe3; x81; x87;
  x0a; xe3; x81; x88; x0a; xe3; x81; x89;
  x0a; xe3; x81; x8a; x0a; xe3; x81; x8b;
  x0a; xe3; x81; x8c; x0a; xe3; x81; x8d;
  x0a; xe3; x81; x8e; x0a; xe3; x81; x8f;
  x0a; xe3; x81; x90; x0a; xe3; x81; x91;
  x0a; xe3; x81; x92; x0a; xe3; x81; x93;
  x0a; xe3; x81; x94; x0a; xe3; x81; x95;
  x0a; xe3; x81; x96; x0a; xe3; x81; x97;
  x0a; xe3; x81; x98; x0a; xe3; x81; x99;
  x0a; xe3; x81; x9a; x0a; xe3; x81; x9b;
  x0a; xe3; x81; x9c; x0a; xe3; x81; x9d;
  x0a; xe3; x81; x9e; x0a; xe3; x81; x9f;
  x0a; xe3; x81; xa0; x0a; xe3; x81; xa1;
  x0a; xe3; x81; xa2; x0a; xe3; x81; xa3;
  x0a; xe3; x81; xa4; x0a; xe3; x81; xa5;
  x0a; xe3; x81; xa6; x0a; xe3; x81; xa7;
  x0a; xe3; x81; xa8; x0a; xe3; x81; xa9;
  x0a; xe3; x81; xaa; x0a; xe3; x81; xab;
  x0a; xe3; x81; xac; x0a; xe3; x81; xad;
  x0a; xe3; x81; xae; x0a; xe3; x81; xaf;
  x0a; xe3; x81; xb0; x0a; xe3; x81; xb1
].
(* tests/test_data/whatwg/shiftjis_whatwg_test_encode_in.txt, entries 1280..1535 *)
Definition shiftjis_encode_in_5 : list byte := [
  x0a; xe3; x81; xb2; x0a; xe3; x81; xb3;
  x0a; xe3; x81; xb4; x0a; xe3; x81; xb5;
  x0a; xe3; x81; xb6; x0a; xe3; x81; xb7;
  x0a; xe3; x81; xb8; x0a; xe3; x81; xb9;
  x0a; xe3; x81; xba; x0a; xe3; x81; xbb;
  x0a; xe3; x81; xbc; x0a; xe3; x81; xbd;
  x0a; xe3; x81; xbe; x0a; xe3; x81; xbf;
  x0a; xe3; x82; x80; x0a; xe3; x82; x81;
  x0a; xe3; x82; x82; x0a; xe3; x82; x83;
  x0a; xe3; x82; x84; x0a; xe3; x82; x85;
  x0a; xe3; x82; x86; x0a; xe3; x82; x87;
  x0a; xe3; x82; x88; x0a; xe3; x82; x89;
  x0a; xe3; x82; x8a; x0a; xe3; x82; x8b;
  x0a; xe3; x82; x8c; x0a; xe3; x82; x8d;
  x0a; xe3; x82; x8e; x0a; xe3; x82; x8f;
  x0a; xe3; x82; x90; x0a; xe3; x82; x91;
  x0a; xe3; x82; x92; x0a; xe3; x82; x93;
  x0a; xe3; x82; xa1; x0a; xe3; x82; xa2;
  x0a; xe3; x82; xa3; x0a; xe3; x82; xa4;
  x0a; xe3; x82; xa5; x0a; xe3; x82; xa6;
  x0a; xe3; x82; xa7; x0a; xe3; x82; xa8;
  x0a; xe3; x82; xa9; x0a; xe3; x82; xaa;
  x0a; xe3; x82; xab; x0a; xe3; x82; xac;
  x0a; xe3; x82; xad; x0a; xe3; x82; xae;
  x0a; xe3; x82; xaf; x0a; xe3; x82; xb0;
  x0a; xe3; x82; xb1; x0a; xe3; x82; xb2;
  x0a; xe3; x82; xb3; x0a; xe3; x82; xb4;
  x0a; xe3; x82; xb5; x0a; xe3; x82; xb6;
  x0a; xe3; x82; xb7; x0a; xe3; x82; xb8;
  x0a; xe3; x82; xb9; x0a; xe3; x82; xba;
  x0a; xe3; x82; xbb; x0a; xe3; x82; xbc;
  x0a; xe3; x82; xbd; x0a; xe3; x82; xbe
].
(* tests/test_data/whatwg/shiftjis_whatwg_test_encode_in.txt, entries 1536..1791 *)
Definition shiftjis_encode_in_6 : list byte := [
  x0a; xe3; x82; xbf; x0a; xe3; x83; x80;
  x0a; xe3; x83; x81; x0a; xe3; x83; x82;
  x0a; xe3; x83; x83; x0a; xe3; x83; x84;
  x0a; xe3; x83; x85; x0a; xe3; x83; x86;
  x0a; xe3; x83; x87; x0a; xe3; x83; x88;
  x0a; xe3; x83; x89; x0a; xe3; x83; x8a;
  x0a; xe3; x83; x8b; x0a; xe3; x83; x8c;
  x0a; xe3; x83; x8d; x0a; xe3; x83; x8e;
  x0a; xe3; x83; x8f; x0a; xe3; x83; x90;
  x0a; xe3; x83; x91; x0a; xe3; x83; x92;
  x0a; xe3; x83; x93; x0a; xe3; x83; x94;
  x0a; xe3; x83; x95; x0a; xe3; x83; x96;
  x0a; xe3; x83; x97; x0a; xe3; x83; x98;
  x0a; xe3; x83; x99; x0a; xe3; x83; x9a;
  x0a; xe3; x83; x9b; x0a; xe3; x83; x9c;
  x0a; xe3; x83; x9d; x0a; xe3; x83; x9e;
  x0a; xe3; x83; x9f; x0a; xe3; x83; xa0;
  x0a; xe3; x83; xa1; x0a; xe3; x83; xa2;
  x0a; xe3; x83; xa3; x0a; xe3; x83; xa4;
  x0a; xe3; x83; xa5; x0a; xe3; x83; xa6;
  x0a; xe3; x83; xa7; x0a; xe3; x83; xa8;
  x0a; xe3; x83; xa9; x0a; xe3; x83; xaa;
  x0a; xe3; x83; xab; x0a; xe3; x83; xac;
  x0a; xe3; x83; xad; x0a; xe3; x83; xae;
  x0a; xe3; x83; xaf; x0a; xe3; x83; xb0;
  x0a; xe3; x83; xb1; x0a; xe3; x83; xb2;
  x0a; xe3; x83; xb3; x0a; xe3; x83; xb4;
  x0a; xe3; x83; xb5; x0a; xe3; x83; xb6;
  x0a; xce; x91; x0a; xce; x92; x0a; xce;
  x93; x0a; xce; x94; x0a; xce; x95; x0a;
  xce; x96; x0a; xce; x97; x0a; xce; x98;
  x0a; xce; x99; x0a; xce; x9a; x0a; xce
].
(* tests/test_data/whatwg/shiftjis_whatwg_test_encode_in.txt, entries 1792..2047 *)
Definition shiftjis_encode_in_7 : list byte := [
  x9b; x0a; xce; x9c; x0a; xce; x9d; x0a;
  xce; x9e; x0a; xce; x9f; x0a; xce; xa0;
  x0a; xce; xa1; x0a; xce; xa3; x0a; xce;
  xa4; x0a; xce; xa5; x0a; xce; xa6; x0a;
  xce; xa7; x0a; xce; xa8; x0a; xce; xa9;
  x0a; xce; xb1; x0a; xce; xb2; x0a; xce;
  xb3; x0a; xce; xb4; x0a; xce; xb5; x0a;
  xce; xb6; x0a; xce; xb7; x0a; xce; xb8;
  x0a; xce; xb9; x0a; xce; xba; x0a; xce;
  xbb; x0a; xce; xbc; x0a; xce; xbd; x0a;
  xce; xbe; x0a; xce; xbf; x0a; xcf; x80;
  x0a; xcf; x81; x0a; xcf; x83; x0a; xcf;
  x84; x0a; xcf; x85; x0a; xcf; x86; x0a;
  xcf; x87; x0a; xcf; x88; x0a; xcf; x89;
  x0a; xd0; x90; x0a; xd0; x91; x0a; xd0;
  x92; x0a; xd0; x93; x0a; xd0; x94; x0a;
  xd0; x95; x0a; xd0; x81; x0a; xd0; x96;
  x0a; xd0; x97; x0a; xd0; x98; x0a; xd0;
  x99; x0a; xd0; x9a; x0a; xd0; x9b; x0a;
  xd0; x9c; x0a; xd0; x9d; x0a; xd0; x9e;
  x0a; xd0; x9f; x0a; xd0; xa0; x0a; xd0;
  xa1; x0a; xd0; xa2; x0a; xd0; xa3; x0a;
  xd0; xa4; x0a; xd0; xa5; x0a; xd0; xa6;
  x0a; xd0; xa7; x0a; xd0; xa8; x0a; xd0;
  xa9; x0a; xd0; xaa; x0a; xd0; xab; x0a;
  xd0; xac; x0a; xd0; xad; x0a; xd0; xae;
  x0a; xd0; xaf; x0a; xd0; xb0; x0a; xd0;
  xb1; x0a; xd0; xb2; x0a; xd0; xb3; x0a;
  xd0; xb4; x0a; xd0; xb5; x0a; xd1; x91;
  x0a; xd0; xb6; x0a; xd0; xb7; x0a; xd0;
  xb8; x0a; xd0; xb9; x0a; xd0; xba; x0a;
  xd0; xbb; x0a; xd0; xbc; x0a; xd0; xbd
].
(* tests/test_data/whatwg/shiftjis_whatwg_test_encode_in.txt, entries 2048..2303 *)
Definition shiftjis_encode_in_8 : list byte := [
  x0a; xd0; xbe; x0a; xd0; xbf; x0a; xd1;
  x80; x0a; xd1; x81; x0a; xd1; x82; x0a;
  xd1; x83; x0a; xd1; x84; x0a; xd1; x85;
  x0a; xd1; x86; x0a; xd1; x87; x0a; xd1;
  x88; x0a; xd1; x89; x0a; xd1; x8a; x0a;
  xd1; x8b; x0a; xd1; x8c; x0a; xd1; x8d;
  x0a; xd1; x8e; x0a; xd1; x8f; x0a; xe2;
  x94; x80; x0a; xe2; x94; x82; x0a; xe2;
  x94; x8c; x0a; xe2; x94; x90; x0a; xe2;
  x94; x98; x0a; xe2; x94; x94; x0a; xe2;
  x94; x9c; x0a; xe2; x94; xac; x0a; xe2;
  x94; xa4; x0a; xe2; x94; xb4; x0a; xe2;
  x94; xbc; x0a; xe2; x94; x81; x0a; xe2;
  x94; x83; x0a; xe2; x94; x8f; x0a; xe2;
  x94; x93; x0a; xe2; x94; x9b; x0a; xe2;
  x94; x97; x0a; xe2; x94; xa3; x0a; xe2;
  x94; xb3; x0a; xe2; x94; xab; x0a; xe2;
  x94; xbb; x0a; xe2; x95; x8b; x0a; xe2;
  x94; xa0; x0a; xe2; x94; xaf; x0a; xe2;
  x94; xa8; x0a; xe2; x94; xb7; x0a; xe2;
  x94; xbf; x0a; xe2; x94; x9d; x0a; xe2;
  x94; xb0; x0a; xe2; x94; xa5; x0a; xe2;
  x94; xb8; x0a; xe2; x95; x82; x0a; xe2;
  x91; xa0; x0a; xe2; x91; xa1; x0a; xe2;
  x91; xa2; x0a; xe2; x91; xa3; x0a; xe2;
  x91; xa4; x0a; xe2; x91; xa5; x0a; xe2;
  x91; xa6; x0a; xe2; x91; xa7; x0a; xe2;
  x91; xa8; x0a; xe2; x91; xa9; x0a; xe2;
  x91; xaa; x0a; xe2; x91; xab; x0a; xe2;
  x91; xac; x0a; xe2; x91; xad; x0a; xe2;
  x91; xae; x0a; xe2; x91; xaf; x0a; xe2;
  x91; xb0; x0a; xe2; x91; xb1; x0a; xe2
].
(* tests/test_data/whatwg/shiftjis_whatwg_test_encode_in.txt, entries 2304..2559 *)
Definition shiftjis_encode_in_9 : list byte := [
  x91; xb2; x0a; xe2; x91; xb3; x0a; xe2;
  x85; xa0; x0a; xe2; x85; xa1; x0a; xe2;
  x85; xa2; x0a; xe2; x85; xa3; x0a; xe2;
  x85; xa4; x0a; xe2; x85; xa5; x0a; xe2;
  x85; xa6; x0a; xe2; x85; xa7; x0a; xe2;
  x85; xa8; x0a; xe2; x85; xa9; x0a; xe3;
  x8d; x89; x0a; xe3; x8c; x94; x0a; xe3;
  x8c; xa2; x0a; xe3; x8d; x8d; x0a; xe3;
  x8c; x98; x0a; xe3; x8c; xa7; x0a; xe3;
  x8c; x83; x0a; xe3; x8c; xb6; x0a; xe3;
  x8d; x91; x0a; xe3; x8d; x97; x0a; xe3;
  x8c; x8d; x0a; xe3; x8c; xa6; x0a; xe3;
  x8c; xa3; x0a; xe3; x8c; xab; x0a; xe3;
  x8d; x8a; x0a; xe3; x8c; xbb; x0a; xe3;
  x8e; x9c; x0a; xe3; x8e; x9d; x0a; xe3;
  x8e; x9e; x0a; xe3; x8e; x8e; x0a; xe3;
  x8e; x8f; x0a; xe3; x8f; x84; x0a; xe3;
  x8e; xa1; x0a; xe3; x8d; xbb; x0a; xe3;
  x80; x9d; x0a; xe3; x80; x9f; x0a; xe2;
  x84; x96; x0a; xe3; x8f; x8d; x0a; xe2;
  x84; xa1; x0a; xe3; x8a; xa4; x0a; xe3;
  x8a; xa5; x0a; xe3; x8a; xa6; x0a; xe3;
  x8a; xa7; x0a; xe3; x8a; xa8; x0a; xe3;
  x88; xb1; x0a; xe3; x88; xb2; x0a; xe3;
  x88; xb9; x0a; xe3; x8d; xbe; x0a; xe3;
  x8d; xbd; x0a; xe3; x8d; xbc; x0a; xe2;
  x88; xae; x0a; xe2; x88; x91; x0a; xe2;
  x88; x9f; x0a; xe2; x8a; xbf; x0a; xe4;
  xba; x9c; x0a; xe5; x94; x96; x0a; xe5;
  xa8; x83; x0a; xe9; x98; xbf; x0a; xe5;
  x93; x80; x0a; xe6; x84; x9b; x0a; xe6;
  x8c; xa8; x0a; xe5; xa7; xb6; x0a; xe9
].
(* tests/test_data/whatwg/shiftjis_whatwg_test_encode_in.txt, entries 2560..2815 *)
Definition shiftjis_encode_in_10 : list byte := [
  x80; xa2; x0a; xe8; x91; xb5; x0a; xe8;
  x8c; x9c; x0a; xe7; xa9; x90; x0a; xe6;
  x82; xaa; x0a; xe6; x8f; xa1; x0a; xe6;
  xb8; xa5; x0a; xe6; x97; xad; x0a; xe8;
  x91; xa6; x0a; xe8; x8a; xa6; x0a; xe9;
  xaf; xb5; x0a; xe6; xa2; x93; x0a; xe5;
  x9c; xa7; x0a; xe6; x96; xa1; x0a; xe6;
  x89; xb1; x0a; xe5; xae; x9b; x0a; xe5;
  xa7; x90; x0a; xe8; x99; xbb; x0a; xe9;
  xa3; xb4; x0a; xe7; xb5; xa2; x0a; xe7;
  xb6; xbe; x0a; xe9; xae; x8e; x0a; xe6;
  x88; x96; x0a; xe7; xb2; x9f; x0a; xe8;
  xa2; xb7; x0a; xe5; xae; x89; x0a; xe5;
  xba; xb5; x0a; xe6; x8c; x89; x0a; xe6;
  x9a; x97; x0a; xe6; xa1; x88; x0a; xe9;
  x97; x87; x0a; xe9; x9e; x8d; x0a; xe6;
  x9d; x8f; x0a; xe4; xbb; xa5; x0a; xe4;
  xbc; x8a; x0a; xe4; xbd; x8d; x0a; xe4;
  xbe; x9d; x0a; xe5; x81; x89; x0a; xe5;
  x9b; xb2; x0a; xe5; xa4; xb7; x0a; xe5;
  xa7; x94; x0a; xe5; xa8; x81; x0a; xe5;
  xb0; x89; x0a; xe6; x83; x9f; x0a; xe6;
  x84; x8f; x0a; xe6; x85; xb0; x0a; xe6;
  x98; x93; x0a; xe6; xa4; x85; x0a; xe7;
  x82; xba; x0a; xe7; x95; x8f; x0a; xe7;
  x95; xb0; x0a; xe7; xa7; xbb; x0a; xe7;
  xb6; xad; x0a; xe7; xb7; xaf; x0a; xe8;
  x83; x83; x0a; xe8; x90; x8e; x0a; xe8;
  xa1; xa3; x0a; xe8; xac; x82; x0a; xe9;
  x81; x95; x0a; xe9; x81; xba; x0a; xe5;
  x8c; xbb; x0a; xe4; xba; x95; x0a; xe4;
  xba; xa5; x0a; xe5; x9f; x9f; x0a; xe8
].
(* tests/test_data/whatwg/shiftjis_whatwg_test_encode_in.txt, entries 2816..3071 *)
Definition shiftjis_encode_in_11 : list byte := [
  x82; xb2; x0a; xe9; x83; x81; x0a; xe7;
  xa3; xaf; x0a; xe4; xb8; x80; x0a; xe5;
  xa3; xb1; x0a; xe6; xba; xa2; x0a; xe9;
  x80; xb8; x0a; xe7; xa8; xb2; x0a; xe8;
  x8c; xa8; x0a; xe8; x8a; x8b; x0a; xe9;
  xb0; xaf; x0a; xe5; x85; x81; x0a; xe5;
  x8d; xb0; x0a; xe5; x92; xbd; x0a; xe5;
  x93; xa1; x0a; xe5; x9b; xa0; x0a; xe5;
  xa7; xbb; x0a; xe5; xbc; x95; x0a; xe9;
  xa3; xb2; x0a; xe6; xb7; xab; x0a; xe8;
  x83; xa4; x0a; xe8; x94; xad; x0a; xe9;
  x99; xa2; x0a; xe9; x99; xb0; x0a; xe9;
  x9a; xa0; x0a; xe9; x9f; xbb; x0a; xe5;
  x90; x8b; x0a; xe5; x8f; xb3; x0a; xe5;
  xae; x87; x0a; xe7; x83; x8f; x0a; xe7;
  xbe; xbd; x0a; xe8; xbf; x82; x0a; xe9;
  x9b; xa8; x0a; xe5; x8d; xaf; x0a; xe9;
  xb5; x9c; x0a; xe7; xaa; xba; x0a; xe4;
  xb8; x91; x0a; xe7; xa2; x93; x0a; xe8;
  x87; xbc; x0a; xe6; xb8; xa6; x0a; xe5;
  x98; x98; x0a; xe5; x94; x84; x0a; xe6;
  xac; x9d; x0a; xe8; x94; x9a; x0a; xe9;
  xb0; xbb; x0a; xe5; xa7; xa5; x0a; xe5;
  x8e; xa9; x0a; xe6; xb5; xa6; x0a; xe7;
  x93; x9c; x0a; xe9; x96; x8f; x0a; xe5;
  x99; x82; x0a; xe4; xba; x91; x0a; xe9;
  x81; x8b; x0a; xe9; x9b; xb2; x0a; xe8;
  x8d; x8f; x0a; xe9; xa4; x8c; x0a; xe5;
  x8f; xa1; x0a; xe5; x96; xb6; x0a; xe5;
  xac; xb0; x0a; xe5; xbd; xb1; x0a; xe6;
  x98; xa0; x0a; xe6; x9b; xb3; x0a; xe6;
  xa0; x84; x0a; xe6; xb0; xb8; x0a; xe6
].
(* tests/test_data/whatwg/shiftjis_whatwg_test_encode_in.txt, entries 3072..3327 *)
Definition shiftjis_encode_in_12 : list byte := [
  xb3; xb3; x0a; xe6; xb4; xa9; x0a; xe7;
  x91; x9b; x0a; xe7; x9b; x88; x0a; xe7;
  xa9; x8e; x0a; xe9; xa0; xb4; x0a; xe8;
  x8b; xb1; x0a; xe8; xa1; x9b; x0a; xe8;
  xa9; xa0; x0a; xe9; x8b; xad; x0a; xe6;
  xb6; xb2; x0a; xe7; x96; xab; x0a; xe7;
  x9b; x8a; x0a; xe9; xa7; x85; x0a; xe6;
  x82; xa6; x0a; xe8; xac; x81; x0a; xe8;
  xb6; x8a; x0a; xe9; x96; xb2; x0a; xe6;
  xa6; x8e; x0a; xe5; x8e; xad; x0a; xe5;
  x86; x86; x0a; xe5; x9c; x92; x0a; xe5;
  xa0; xb0; x0a; xe5; xa5; x84; x0a; xe5;
  xae; xb4; x0a; xe5; xbb; xb6; x0a; xe6;
  x80; xa8; x0a; xe6; x8e; xa9; x0a; xe6;
  x8f; xb4; x0a; xe6; xb2; xbf; x0a; xe6;
  xbc; x94; x0a; xe7; x82; x8e; x0a; xe7;
  x84; x94; x0a; xe7; x85; x99; x0a; xe7;
  x87; x95; x0a; xe7; x8c; xbf; x0a; xe7;
  xb8; x81; x0a; xe8; x89; xb6; x0a; xe8;
  x8b; x91; x0a; xe8; x96; x97; x0a; xe9;
  x81; xa0; x0a; xe9; x89; x9b; x0a; xe9;
  xb4; x9b; x0a; xe5; xa1; xa9; x0a; xe6;
  x96; xbc; x0a; xe6; xb1; x9a; x0a; xe7;
  x94; xa5; x0a; xe5; x87; xb9; x0a; xe5;
  xa4; xae; x0a; xe5; xa5; xa5; x0a; xe5;
  xbe; x80; x0a; xe5; xbf; x9c; x0a; xe6;
  x8a; xbc; x0a; xe6; x97; xba; x0a; xe6;
  xa8; xaa; x0a; xe6; xac; xa7; x0a; xe6;
  xae; xb4; x0a; xe7; x8e; x8b; x0a; xe7;
  xbf; x81; x0a; xe8; xa5; x96; x0a; xe9;
  xb4; xac; x0a; xe9; xb4; x8e; x0a; xe9;
  xbb; x84; x0a; xe5; xb2; xa1; x0a; xe6
].
(* tests/test_data/whatwg/shiftjis_whatwg_test_encode_in.txt, entries 3328..3583 *)
Definition shiftjis_encode_in_13 : list byte := [
  xb2; x96; x0a; xe8; x8d; xbb; x0a; xe5;
  x84; x84; x0a; xe5; xb1; x8b; x0a; xe6;
  x86; xb6; x0a; xe8; x87; x86; x0a; xe6;
  xa1; xb6; x0a; xe7; x89; xa1; x0a; xe4;
  xb9; x99; x0a; xe4; xbf; xba; x0a; xe5;
  x8d; xb8; x0a; xe6; x81; xa9; x0a; xe6;
  xb8; xa9; x0a; xe7; xa9; x8f; x0a; xe9;
  x9f; xb3; x0a; xe4; xb8; x8b; x0a; xe5;
  x8c; x96; x0a; xe4; xbb; xae; x0a; xe4;
  xbd; x95; x0a; xe4; xbc; xbd; x0a; xe4;
  xbe; xa1; x0a; xe4; xbd; xb3; x0a; xe5;
  x8a; xa0; x0a; xe5; x8f; xaf; x0a; xe5;
  x98; x89; x0a; xe5; xa4; x8f; x0a; xe5;
  xab; x81; x0a; xe5; xae; xb6; x0a; xe5;
  xaf; xa1; x0a; xe7; xa7; x91; x0a; xe6;
  x9a; x87; x0a; xe6; x9e; x9c; x0a; xe6;
  x9e; xb6; x0a; xe6; xad; x8c; x0a; xe6;
  xb2; xb3; x0a; xe7; x81; xab; x0a; xe7;
  x8f; x82; x0a; xe7; xa6; x8d; x0a; xe7;
  xa6; xbe; x0a; xe7; xa8; xbc; x0a; xe7;
  xae; x87; x0a; xe8; x8a; xb1; x0a; xe8;
  x8b; x9b; x0a; xe8; x8c; x84; x0a; xe8;
  x8d; xb7; x0a; xe8; x8f; xaf; x0a; xe8;
  x8f; x93; x0a; xe8; x9d; xa6; x0a; xe8;
  xaa; xb2; x0a; xe5; x98; xa9; x0a; xe8;
  xb2; xa8; x0a; xe8; xbf; xa6; x0a; xe9;
  x81; x8e; x0a; xe9; x9c; x9e; x0a; xe8;
  x9a; x8a; x0a; xe4; xbf; x84; x0a; xe5;
  xb3; xa8; x0a; xe6; x88; x91; x0a; xe7;
  x89; x99; x0a; xe7; x94; xbb; x0a; xe8;
  x87; xa5; x0a; xe8; x8a; xbd; x0a; xe8;
  x9b; xbe; x0a; xe8; xb3; x80; x0a; xe9
].
(* tests/test_data/whatwg/shiftjis_whatwg_test_encode_in.txt, entries 3584..3839 *)
Definition shiftjis_encode_in_14 : list byte := [
  x9b; x85; x0a; xe9; xa4; x93; x0a; xe9;
  xa7; x95; x0a; xe4; xbb; x8b; x0a; xe4;
  xbc; x9a; x0a; xe8; xa7; xa3; x0a; xe5;
  x9b; x9e; x0a; xe5; xa1; x8a; x0a; xe5;
  xa3; x8a; x0a; xe5; xbb; xbb; x0a; xe5;
  xbf; xab; x0a; xe6; x80; xaa; x0a; xe6;
  x82; x94; x0a; xe6; x81; xa2; x0a; xe6;
  x87; x90; x0a; xe6; x88; x92; x0a; xe6;
  x8b; x90; x0a; xe6; x94; xb9; x0a; xe9;
  xad; x81; x0a; xe6; x99; xa6; x0a; xe6;
  xa2; xb0; x0a; xe6; xb5; xb7; x0a; xe7;
  x81; xb0; x0a; xe7; x95; x8c; x0a; xe7;
  x9a; x86; x0a; xe7; xb5; xb5; x0a; xe8;
  x8a; xa5; x0a; xe8; x9f; xb9; x0a; xe9;
  x96; x8b; x0a; xe9; x9a; x8e; x0a; xe8;
  xb2; x9d; x0a; xe5; x87; xb1; x0a; xe5;
  x8a; xbe; x0a; xe5; xa4; x96; x0a; xe5;
  x92; xb3; x0a; xe5; xae; xb3; x0a; xe5;
  xb4; x96; x0a; xe6; x85; xa8; x0a; xe6;
  xa6; x82; x0a; xe6; xb6; xaf; x0a; xe7;
  xa2; x8d; x0a; xe8; x93; x8b; x0a; xe8;
  xa1; x97; x0a; xe8; xa9; xb2; x0a; xe9;
  x8e; xa7; x0a; xe9; xaa; xb8; x0a; xe6;
  xb5; xac; x0a; xe9; xa6; xa8; x0a; xe8;
  x9b; x99; x0a; xe5; x9e; xa3; x0a; xe6;
  x9f; xbf; x0a; xe8; x9b; x8e; x0a; xe9;
  x88; x8e; x0a; xe5; x8a; x83; x0a; xe5;
  x9a; x87; x0a; xe5; x90; x84; x0a; xe5;
  xbb; x93; x0a; xe6; x8b; xa1; x0a; xe6;
  x92; xb9; x0a; xe6; xa0; xbc; x0a; xe6;
  xa0; xb8; x0a; xe6; xae; xbb; x0a; xe7;
  x8d; xb2; x0a; xe7; xa2; xba; x0a; xe7
].
(* tests/test_data/whatwg/shiftjis_whatwg_test_encode_in.txt, entries 3840..4095 *)
Definition shiftjis_encode_in_15 : list byte := [
  xa9; xab; x0a; xe8; xa6; x9a; x0a; xe8;
  xa7; x92; x0a; xe8; xb5; xab; x0a; xe8;
  xbc; x83; x0a; xe9; x83; xad; x0a; xe9;
  x96; xa3; x0a; xe9; x9a; x94; x0a; xe9;
  x9d; xa9; x0a; xe5; xad; xa6; x0a; xe5;
  xb2; xb3; x0a; xe6; xa5; xbd; x0a; xe9;
  xa1; x8d; x0a; xe9; xa1; x8e; x0a; xe6;
  x8e; x9b; x0a; xe7; xac; xa0; x0a; xe6;
  xa8; xab; x0a; xe6; xa9; xbf; x0a; xe6;
  xa2; xb6; x0a; xe9; xb0; x8d; x0a; xe6;
  xbd; x9f; x0a; xe5; x89; xb2; x0a; xe5;
  x96; x9d; x0a; xe6; x81; xb0; x0a; xe6;
  x8b; xac; x0a; xe6; xb4; xbb; x0a; xe6;
  xb8; x87; x0a; xe6; xbb; x91; x0a; xe8;
  x91; x9b; x0a; xe8; xa4; x90; x0a; xe8;
  xbd; x84; x0a; xe4; xb8; x94; x0a; xe9;
  xb0; xb9; x0a; xe5; x8f; xb6; x0a; xe6;
  xa4; x9b; x0a; xe6; xa8; xba; x0a; xe9;
  x9e; x84; x0a; xe6; xa0; xaa; x0a; xe5;
  x85; x9c; x0a; xe7; xab; x83; x0a; xe8;
  x92; xb2; x0a; xe9; x87; x9c; x0a; xe9;
  x8e; x8c; x0a; xe5; x99; x9b; x0a; xe9;
  xb4; xa8; x0a; xe6; xa0; xa2; x0a; xe8;
  x8c; x85; x0a; xe8; x90; xb1; x0a; xe7;
  xb2; xa5; x0a; xe5; x88; x88; x0a; xe8;
  x8b; x85; x0a; xe7; x93; xa6; x0a; xe4;
  xb9; xbe; x0a; xe4; xbe; x83; x0a; xe5;
  x86; xa0; x0a; xe5; xaf; x92; x0a; xe5;
  x88; x8a; x0a; xe5; x8b; x98; x0a; xe5;
  x8b; xa7; x0a; xe5; xb7; xbb; x0a; xe5;
  x96; x9a; x0a; xe5; xa0; xaa; x0a; xe5;
  xa7; xa6; x0a; xe5; xae; x8c; x0a; xe5
].
(* tests/test_data/whatwg/shiftjis_whatwg_test_encode_in.txt, entries 4096..4351 *)
Definition shiftjis_encode_in_16 : list byte := [
  xae; x98; x0a; xe5; xaf; x9b; x0a; xe5;
  xb9; xb2; x0a; xe5; xb9; xb9; x0a; xe6;
  x82; xa3; x0a; xe6; x84; x9f; x0a; xe6;
  x85; xa3; x0a; xe6; x86; xbe; x0a; xe6;
  x8f; x9b; x0a; xe6; x95; xa2; x0a; xe6;
  x9f; x91; x0a; xe6; xa1; x93; x0a; xe6;
  xa3; xba; x0a; xe6; xac; xbe; x0a; xe6;
  xad; x93; x0a; xe6; xb1; x97; x0a; xe6;
  xbc; xa2; x0a; xe6; xbe; x97; x0a; xe6;
  xbd; x85; x0a; xe7; x92; xb0; x0a; xe7;
  x94; x98; x0a; xe7; x9b; xa3; x0a; xe7;
  x9c; x8b; x0a; xe7; xab; xbf; x0a; xe7;
  xae; xa1; x0a; xe7; xb0; xa1; x0a; xe7;
  xb7; xa9; x0a; xe7; xbc; xb6; x0a; xe7;
  xbf; xb0; x0a; xe8; x82; x9d; x0a; xe8;
  x89; xa6; x0a; xe8; x8e; x9e; x0a; xe8;
  xa6; xb3; x0a; xe8; xab; x8c; x0a; xe8;
  xb2; xab; x0a; xe9; x82; x84; x0a; xe9;
  x91; x91; x0a; xe9; x96; x93; x0a; xe9;
  x96; x91; x0a; xe9; x96; xa2; x0a; xe9;
  x99; xa5; x0a; xe9; x9f; x93; x0a; xe9;
  xa4; xa8; x0a; xe8; x88; x98; x0a; xe4;
  xb8; xb8; x0a; xe5; x90; xab; x0a; xe5;
  xb2; xb8; x0a; xe5; xb7; x8c; x0a; xe7;
  x8e; xa9; x0a; xe7; x99; x8c; x0a; xe7;
  x9c; xbc; x0a; xe5; xb2; xa9; x0a; xe7;
  xbf; xab; x0a; xe8; xb4; x8b; x0a; xe9;
  x9b; x81; x0a; xe9; xa0; x91; x0a; xe9;
  xa1; x94; x0a; xe9; xa1; x98; x0a; xe4;
  xbc; x81; x0a; xe4; xbc; x8e; x0a; xe5;
  x8d; xb1; x0a; xe5; x96; x9c; x0a; xe5;
  x99; xa8; x0a; xe5; x9f; xba; x0a; xe5
].
(* tests/test_data/whatwg/shiftjis_whatwg_test_encode_in.txt, entries 4352..4607 *)
Definition shiftjis_encode_in_17 : list byte := [
  xa5; x87; x0a; xe5; xac; x89; x0a; xe5;
  xaf; x84; x0a; xe5; xb2; x90; x0a; xe5;
  xb8; x8c; x0a; xe5; xb9; xbe; x0a; xe5;
  xbf; x8c; x0a; xe6; x8f; xae; x0a; xe6;
  x9c; xba; x0a; xe6; x97; x97; x0a; xe6;
  x97; xa2; x0a; xe6; x9c; x9f; x0a; xe6;
  xa3; x8b; x0a; xe6; xa3; x84; x0a; xe6;
  xa9; x9f; x0a; xe5; xb8; xb0; x0a; xe6;
  xaf; x85; x0a; xe6; xb0; x97; x0a; xe6;
  xb1; xbd; x0a; xe7; x95; xbf; x0a; xe7;
  xa5; x88; x0a; xe5; xad; xa3; x0a; xe7;
  xa8; x80; x0a; xe7; xb4; x80; x0a; xe5;
  xbe; xbd; x0a; xe8; xa6; x8f; x0a; xe8;
  xa8; x98; x0a; xe8; xb2; xb4; x0a; xe8;
  xb5; xb7; x0a; xe8; xbb; x8c; x0a; xe8;
  xbc; x9d; x0a; xe9; xa3; xa2; x0a; xe9;
  xa8; x8e; x0a; xe9; xac; xbc; x0a; xe4;
  xba; x80; x0a; xe5; x81; xbd; x0a; xe5;
  x84; x80; x0a; xe5; xa6; x93; x0a; xe5;
  xae; x9c; x0a; xe6; x88; xaf; x0a; xe6;
  x8a; x80; x0a; xe6; x93; xac; x0a; xe6;
  xac; xba; x0a; xe7; x8a; xa0; x0a; xe7;
  x96; x91; x0a; xe7; xa5; x87; x0a; xe7;
  xbe; xa9; x0a; xe8; x9f; xbb; x0a; xe8;
  xaa; xbc; x0a; xe8; xad; xb0; x0a; xe6;
  x8e; xac; x0a; xe8; x8f; x8a; x0a; xe9;
  x9e; xa0; x0a; xe5; x90; x89; x0a; xe5;
  x90; x83; x0a; xe5; x96; xab; x0a; xe6;
  xa1; x94; x0a; xe6; xa9; x98; x0a; xe8;
  xa9; xb0; x0a; xe7; xa0; xa7; x0a; xe6;
  x9d; xb5; x0a; xe9; xbb; x8d; x0a; xe5;
  x8d; xb4; x0a; xe5; xae; xa2; x0a; xe8
].
(* tests/test_data/whatwg/shiftjis_whatwg_test_encode_in.txt, entries 4608..4863 *)
Definition shiftjis_encode_in_18 : list byte := [
  x84; x9a; x0a; xe8; x99; x90; x0a; xe9;
  x80; x86; x0a; xe4; xb8; x98; x0a; xe4;
  xb9; x85; x0a; xe4; xbb; x87; x0a; xe4;
  xbc; x91; x0a; xe5; x8f; x8a; x0a; xe5;
  x90; xb8; x0a; xe5; xae; xae; x0a; xe5;
  xbc; x93; x0a; xe6; x80; xa5; x0a; xe6;
  x95; x91; x0a; xe6; x9c; xbd; x0a; xe6;
  xb1; x82; x0a; xe6; xb1; xb2; x0a; xe6;
  xb3; xa3; x0a; xe7; x81; xb8; x0a; xe7;
  x90; x83; x0a; xe7; xa9; xb6; x0a; xe7;
  xaa; xae; x0a; xe7; xac; x88; x0a; xe7;
  xb4; x9a; x0a; xe7; xb3; xbe; x0a; xe7;
  xb5; xa6; x0a; xe6; x97; xa7; x0a; xe7;
  x89; x9b; x0a; xe5; x8e; xbb; x0a; xe5;
  xb1; x85; x0a; xe5; xb7; xa8; x0a; xe6;
  x8b; x92; x0a; xe6; x8b; xa0; x0a; xe6;
  x8c; x99; x0a; xe6; xb8; xa0; x0a; xe8;
  x99; x9a; x0a; xe8; xa8; xb1; x0a; xe8;
  xb7; x9d; x0a; xe9; x8b; xb8; x0a; xe6;
  xbc; x81; x0a; xe7; xa6; xa6; x0a; xe9;
  xad; x9a; x0a; xe4; xba; xa8; x0a; xe4;
  xba; xab; x0a; xe4; xba; xac; x0a; xe4;
  xbe; x9b; x0a; xe4; xbe; xa0; x0a; xe5;
  x83; x91; x0a; xe5; x85; x87; x0a; xe7;
  xab; xb6; x0a; xe5; x85; xb1; x0a; xe5;
  x87; xb6; x0a; xe5; x8d; x94; x0a; xe5;
  x8c; xa1; x0a; xe5; x8d; xbf; x0a; xe5;
  x8f; xab; x0a; xe5; x96; xac; x0a; xe5;
  xa2; x83; x0a; xe5; xb3; xa1; x0a; xe5;
  xbc; xb7; x0a; xe5; xbd; x8a; x0a; xe6;
  x80; xaf; x0a; xe6; x81; x90; x0a; xe6;
  x81; xad; x0a; xe6; x8c; x9f; x0a; xe6
].
(* tests/test_data/whatwg/shiftjis_whatwg_test_encode_in.txt, entries 4864..5119 *)
Definition shiftjis_encode_in_19 : list byte := [
  x95; x99; x0a; xe6; xa9; x8b; x0a; xe6;
  xb3; x81; x0a; xe7; x8b; x82; x0a; xe7;
  x8b; xad; x0a; xe7; x9f; xaf; x0a; xe8;
  x83; xb8; x0a; xe8; x84; x85; x0a; xe8;
  x88; x88; x0a; xe8; x95; x8e; x0a; xe9;
  x83; xb7; x0a; xe9; x8f; xa1; x0a; xe9;
  x9f; xbf; x0a; xe9; xa5; x97; x0a; xe9;
  xa9; x9a; x0a; xe4; xbb; xb0; x0a; xe5;
  x87; x9d; x0a; xe5; xb0; xad; x0a; xe6;
  x9a; x81; x0a; xe6; xa5; xad; x0a; xe5;
  xb1; x80; x0a; xe6; x9b; xb2; x0a; xe6;
  xa5; xb5; x0a; xe7; x8e; x89; x0a; xe6;
  xa1; x90; x0a; xe7; xb2; x81; x0a; xe5;
  x83; x85; x0a; xe5; x8b; xa4; x0a; xe5;
  x9d; x87; x0a; xe5; xb7; xbe; x0a; xe9;
  x8c; xa6; x0a; xe6; x96; xa4; x0a; xe6;
  xac; xa3; x0a; xe6; xac; xbd; x0a; xe7;
  x90; xb4; x0a; xe7; xa6; x81; x0a; xe7;
  xa6; xbd; x0a; xe7; xad; x8b; x0a; xe7;
  xb7; x8a; x0a; xe8; x8a; xb9; x0a; xe8;
  x8f; x8c; x0a; xe8; xa1; xbf; x0a; xe8;
  xa5; x9f; x0a; xe8; xac; xb9; x0a; xe8;
  xbf; x91; x0a; xe9; x87; x91; x0a; xe5;
  x90; x9f; x0a; xe9; x8a; x80; x0a; xe4;
  xb9; x9d; x0a; xe5; x80; xb6; x0a; xe5;
  x8f; xa5; x0a; xe5; x8c; xba; x0a; xe7;
  x8b; x97; x0a; xe7; x8e; x96; x0a; xe7;
  x9f; xa9; x0a; xe8; x8b; xa6; x0a; xe8;
  xba; xaf; x0a; xe9; xa7; x86; x0a; xe9;
  xa7; x88; x0a; xe9; xa7; x92; x0a; xe5;
  x85; xb7; x0a; xe6; x84; x9a; x0a; xe8;
  x99; x9e; x0a; xe5; x96; xb0; x0a; xe7
].
(* tests/test_data/whatwg/shiftjis_whatwg_test_encode_in.txt, entries 5120..5375 *)
Definition shiftjis_encode_in_20 : list byte := [
  xa9; xba; x0a; xe5; x81; xb6; x0a; xe5;
  xaf; x93; x0a; xe9; x81; x87; x0a; xe9;
  x9a; x85; x0a; xe4; xb8; xb2; x0a; xe6;
  xab; x9b; x0a; xe9; x87; xa7; x0a; xe5;
  xb1; x91; x0a; xe5; xb1; x88; x0a; xe6;
  x8e; x98; x0a; xe7; xaa; x9f; x0a; xe6;
  xb2; x93; x0a; xe9; x9d; xb4; x0a; xe8;
  xbd; xa1; x0a; xe7; xaa; xaa; x0a; xe7;
  x86; x8a; x0a; xe9; x9a; x88; x0a; xe7;
  xb2; x82; x0a; xe6; xa0; x97; x0a; xe7;
  xb9; xb0; x0a; xe6; xa1; x91; x0a; xe9;
  x8d; xac; x0a; xe5; x8b; xb2; x0a; xe5;
  x90; x9b; x0a; xe8; x96; xab; x0a; xe8;
  xa8; x93; x0a; xe7; xbe; xa4; x0a; xe8;
  xbb; x8d; x0a; xe9; x83; xa1; x0a; xe5;
  x8d; xa6; x0a; xe8; xa2; x88; x0a; xe7;
  xa5; x81; x0a; xe4; xbf; x82; x0a; xe5;
  x82; xbe; x0a; xe5; x88; x91; x0a; xe5;
  x85; x84; x0a; xe5; x95; x93; x0a; xe5;
  x9c; xad; x0a; xe7; x8f; xaa; x0a; xe5;
  x9e; x8b; x0a; xe5; xa5; x91; x0a; xe5;
  xbd; xa2; x0a; xe5; xbe; x84; x0a; xe6;
  x81; xb5; x0a; xe6; x85; xb6; x0a; xe6;
  x85; xa7; x0a; xe6; x86; xa9; x0a; xe6;
  x8e; xb2; x0a; xe6; x90; xba; x0a; xe6;
  x95; xac; x0a; xe6; x99; xaf; x0a; xe6;
  xa1; x82; x0a; xe6; xb8; x93; x0a; xe7;
  x95; xa6; x0a; xe7; xa8; xbd; x0a; xe7;
  xb3; xbb; x0a; xe7; xb5; x8c; x0a; xe7;
  xb6; x99; x0a; xe7; xb9; x8b; x0a; xe7;
  xbd; xab; x0a; xe8; x8c; x8e; x0a; xe8;
  x8d; x8a; x0a; xe8; x9b; x8d; x0a; xe8
].
(* tests/test_data/whatwg/shiftjis_whatwg_test_encode_in.txt, entries 5376..5631 *)
Definition shiftjis_encode_in_21 : list byte := [
  xa8; x88; x0a; xe8; xa9; xa3; x0a; xe8;
  xad; xa6; x0a; xe8; xbb; xbd; x0a; xe9;
  xa0; x9a; x0a; xe9; xb6; x8f; x0a; xe8;
  x8a; xb8; x0a; xe8; xbf; x8e; x0a; xe9;
  xaf; xa8; x0a; xe5; x8a; x87; x0a; xe6;
  x88; x9f; x0a; xe6; x92; x83; x0a; xe6;
  xbf; x80; x0a; xe9; x9a; x99; x0a; xe6;
  xa1; x81; x0a; xe5; x82; x91; x0a; xe6;
  xac; xa0; x0a; xe6; xb1; xba; x0a; xe6;
  xbd; x94; x0a; xe7; xa9; xb4; x0a; xe7;
  xb5; x90; x0a; xe8; xa1; x80; x0a; xe8;
  xa8; xa3; x0a; xe6; x9c; x88; x0a; xe4;
  xbb; xb6; x0a; xe5; x80; xb9; x0a; xe5;
  x80; xa6; x0a; xe5; x81; xa5; x0a; xe5;
  x85; xbc; x0a; xe5; x88; xb8; x0a; xe5;
  x89; xa3; x0a; xe5; x96; xa7; x0a; xe5;
  x9c; x8f; x0a; xe5; xa0; x85; x0a; xe5;
  xab; x8c; x0a; xe5; xbb; xba; x0a; xe6;
  x86; xb2; x0a; xe6; x87; xb8; x0a; xe6;
  x8b; xb3; x0a; xe6; x8d; xb2; x0a; xe6;
  xa4; x9c; x0a; xe6; xa8; xa9; x0a; xe7;
  x89; xbd; x0a; xe7; x8a; xac; x0a; xe7;
  x8c; xae; x0a; xe7; xa0; x94; x0a; xe7;
  xa1; xaf; x0a; xe7; xb5; xb9; x0a; xe7;
  x9c; x8c; x0a; xe8; x82; xa9; x0a; xe8;
  xa6; x8b; x0a; xe8; xac; x99; x0a; xe8;
  xb3; xa2; x0a; xe8; xbb; x92; x0a; xe9;
  x81; xa3; x0a; xe9; x8d; xb5; x0a; xe9;
  x99; xba; x0a; xe9; xa1; x95; x0a; xe9;
  xa8; x93; x0a; xe9; xb9; xb8; x0a; xe5;
  x85; x83; x0a; xe5; x8e; x9f; x0a; xe5;
  x8e; xb3; x0a; xe5; xb9; xbb; x0a; xe5
].
(* tests/test_data/whatwg/shiftjis_whatwg_test_encode_in.txt, entries 5632..5887 *)
Definition shiftjis_encode_in_22 : list byte := [
  xbc; xa6; x0a; xe6; xb8; x9b; x0a; xe6;
  xba; x90; x0a; xe7; x8e; x84; x0a; xe7;
  x8f; xbe; x0a; xe7; xb5; x83; x0a; xe8;
  x88; xb7; x0a; xe8; xa8; x80; x0a; xe8;
  xab; xba; x0a; xe9; x99; x90; x0a; xe4;
  xb9; x8e; x0a; xe5; x80; x8b; x0a; xe5;
  x8f; xa4; x0a; xe5; x91; xbc; x0a; xe5;
  x9b; xba; x0a; xe5; xa7; x91; x0a; xe5;
  xad; xa4; x0a; xe5; xb7; xb1; x0a; xe5;
  xba; xab; x0a; xe5; xbc; xa7; x0a; xe6;
  x88; xb8; x0a; xe6; x95; x85; x0a; xe6;
  x9e; xaf; x0a; xe6; xb9; x96; x0a; xe7;
  x8b; x90; x0a; xe7; xb3; x8a; x0a; xe8;
  xa2; xb4; x0a; xe8; x82; xa1; x0a; xe8;
  x83; xa1; x0a; xe8; x8f; xb0; x0a; xe8;
  x99; x8e; x0a; xe8; xaa; x87; x0a; xe8;
  xb7; xa8; x0a; xe9; x88; xb7; x0a; xe9;
  x9b; x87; x0a; xe9; xa1; xa7; x0a; xe9;
  xbc; x93; x0a; xe4; xba; x94; x0a; xe4;
  xba; x92; x0a; xe4; xbc; x8d; x0a; xe5;
  x8d; x88; x0a; xe5; x91; x89; x0a; xe5;
  x90; xbe; x0a; xe5; xa8; xaf; x0a; xe5;
  xbe; x8c; x0a; xe5; xbe; xa1; x0a; xe6;
  x82; x9f; x0a; xe6; xa2; xa7; x0a; xe6;
  xaa; x8e; x0a; xe7; x91; x9a; x0a; xe7;
  xa2; x81; x0a; xe8; xaa; x9e; x0a; xe8;
  xaa; xa4; x0a; xe8; xad; xb7; x0a; xe9;
  x86; x90; x0a; xe4; xb9; x9e; x0a; xe9;
  xaf; x89; x0a; xe4; xba; xa4; x0a; xe4;
  xbd; xbc; x0a; xe4; xbe; xaf; x0a; xe5;
  x80; x99; x0a; xe5; x80; x96; x0a; xe5;
  x85; x89; x0a; xe5; x85; xac; x0a; xe5
].
(* tests/test_data/whatwg/shiftjis_whatwg_test_encode_in.txt, entries 5888..6143 *)
Definition shiftjis_encode_in_23 : list byte := [
  x8a; x9f; x0a; xe5; x8a; xb9; x0a; xe5;
  x8b; xbe; x0a; xe5; x8e; x9a; x0a; xe5;
  x8f; xa3; x0a; xe5; x90; x91; x0a; xe5;
  x90; x8e; x0a; xe5; x96; x89; x0a; xe5;
  x9d; x91; x0a; xe5; x9e; xa2; x0a; xe5;
  xa5; xbd; x0a; xe5; xad; x94; x0a; xe5;
  xad; x9d; x0a; xe5; xae; x8f; x0a; xe5;
  xb7; xa5; x0a; xe5; xb7; xa7; x0a; xe5;
  xb7; xb7; x0a; xe5; xb9; xb8; x0a; xe5;
  xba; x83; x0a; xe5; xba; x9a; x0a; xe5;
  xba; xb7; x0a; xe5; xbc; x98; x0a; xe6;
  x81; x92; x0a; xe6; x85; x8c; x0a; xe6;
  x8a; x97; x0a; xe6; x8b; x98; x0a; xe6;
  x8e; xa7; x0a; xe6; x94; xbb; x0a; xe6;
  x98; x82; x0a; xe6; x99; x83; x0a; xe6;
  x9b; xb4; x0a; xe6; x9d; xad; x0a; xe6;
  xa0; xa1; x0a; xe6; xa2; x97; x0a; xe6;
  xa7; x8b; x0a; xe6; xb1; x9f; x0a; xe6;
  xb4; xaa; x0a; xe6; xb5; xa9; x0a; xe6;
  xb8; xaf; x0a; xe6; xba; x9d; x0a; xe7;
  x94; xb2; x0a; xe7; x9a; x87; x0a; xe7;
  xa1; xac; x0a; xe7; xa8; xbf; x0a; xe7;
  xb3; xa0; x0a; xe7; xb4; x85; x0a; xe7;
  xb4; x98; x0a; xe7; xb5; x9e; x0a; xe7;
  xb6; xb1; x0a; xe8; x80; x95; x0a; xe8;
  x80; x83; x0a; xe8; x82; xaf; x0a; xe8;
  x82; xb1; x0a; xe8; x85; x94; x0a; xe8;
  x86; x8f; x0a; xe8; x88; xaa; x0a; xe8;
  x8d; x92; x0a; xe8; xa1; x8c; x0a; xe8;
  xa1; xa1; x0a; xe8; xac; x9b; x0a; xe8;
  xb2; xa2; x0a; xe8; xb3; xbc; x0a; xe9;
  x83; x8a; x0a; xe9; x85; xb5; x0a; xe9
].
(* tests/test_data/whatwg/shiftjis_whatwg_test_encode_in.txt, entries 6144..6399 *)
Definition shiftjis_encode_in_24 : list byte := [
  x89; xb1; x0a; xe7; xa0; xbf; x0a; xe9;
  x8b; xbc; x0a; xe9; x96; xa4; x0a; xe9;
  x99; x8d; x0a; xe9; xa0; x85; x0a; xe9;
  xa6; x99; x0a; xe9; xab; x98; x0a; xe9;
  xb4; xbb; x0a; xe5; x89; x9b; x0a; xe5;
  x8a; xab; x0a; xe5; x8f; xb7; x0a; xe5;
  x90; x88; x0a; xe5; xa3; x95; x0a; xe6;
  x8b; xb7; x0a; xe6; xbf; xa0; x0a; xe8;
  xb1; xaa; x0a; xe8; xbd; x9f; x0a; xe9;
  xba; xb9; x0a; xe5; x85; x8b; x0a; xe5;
  x88; xbb; x0a; xe5; x91; x8a; x0a; xe5;
  x9b; xbd; x0a; xe7; xa9; x80; x0a; xe9;
  x85; xb7; x0a; xe9; xb5; xa0; x0a; xe9;
  xbb; x92; x0a; xe7; x8d; x84; x0a; xe6;
  xbc; x89; x0a; xe8; x85; xb0; x0a; xe7;
  x94; x91; x0a; xe5; xbf; xbd; x0a; xe6;
  x83; x9a; x0a; xe9; xaa; xa8; x0a; xe7;
  x8b; x9b; x0a; xe8; xbe; xbc; x0a; xe6;
  xad; xa4; x0a; xe9; xa0; x83; x0a; xe4;
  xbb; x8a; x0a; xe5; x9b; xb0; x0a; xe5;
  x9d; xa4; x0a; xe5; xa2; xbe; x0a; xe5;
  xa9; x9a; x0a; xe6; x81; xa8; x0a; xe6;
  x87; x87; x0a; xe6; x98; x8f; x0a; xe6;
  x98; x86; x0a; xe6; xa0; xb9; x0a; xe6;
  xa2; xb1; x0a; xe6; xb7; xb7; x0a; xe7;
  x97; x95; x0a; xe7; xb4; xba; x0a; xe8;
  x89; xae; x0a; xe9; xad; x82; x0a; xe4;
  xba; x9b; x0a; xe4; xbd; x90; x0a; xe5;
  x8f; x89; x0a; xe5; x94; x86; x0a; xe5;
  xb5; xaf; x0a; xe5; xb7; xa6; x0a; xe5;
  xb7; xae; x0a; xe6; x9f; xbb; x0a; xe6;
  xb2; x99; x0a; xe7; x91; xb3; x0a; xe7
].
(* tests/test_data/whatwg/shiftjis_whatwg_test_encode_in.txt, entries 6400..6655 *)
Definition shiftjis_encode_in_25 : list byte := [
  xa0; x82; x0a; xe8; xa9; x90; x0a; xe9;
  x8e; x96; x0a; xe8; xa3; x9f; x0a; xe5;
  x9d; x90; x0a; xe5; xba; xa7; x0a; xe6;
  x8c; xab; x0a; xe5; x82; xb5; x0a; xe5;
  x82; xac; x0a; xe5; x86; x8d; x0a; xe6;
  x9c; x80; x0a; xe5; x93; x89; x0a; xe5;
  xa1; x9e; x0a; xe5; xa6; xbb; x0a; xe5;
  xae; xb0; x0a; xe5; xbd; xa9; x0a; xe6;
  x89; x8d; x0a; xe6; x8e; xa1; x0a; xe6;
  xa0; xbd; x0a; xe6; xad; xb3; x0a; xe6;
  xb8; x88; x0a; xe7; x81; xbd; x0a; xe9;
  x87; x87; x0a; xe7; x8a; x80; x0a; xe7;
  xa0; x95; x0a; xe7; xa0; xa6; x0a; xe7;
  xa5; xad; x0a; xe6; x96; x8e; x0a; xe7;
  xb4; xb0; x0a; xe8; x8f; x9c; x0a; xe8;
  xa3; x81; x0a; xe8; xbc; x89; x0a; xe9;
  x9a; x9b; x0a; xe5; x89; xa4; x0a; xe5;
  x9c; xa8; x0a; xe6; x9d; x90; x0a; xe7;
  xbd; xaa; x0a; xe8; xb2; xa1; x0a; xe5;
  x86; xb4; x0a; xe5; x9d; x82; x0a; xe9;
  x98; xaa; x0a; xe5; xa0; xba; x0a; xe6;
  xa6; x8a; x0a; xe8; x82; xb4; x0a; xe5;
  x92; xb2; x0a; xe5; xb4; x8e; x0a; xe5;
  x9f; xbc; x0a; xe7; xa2; x95; x0a; xe9;
  xb7; xba; x0a; xe4; xbd; x9c; x0a; xe5;
  x89; x8a; x0a; xe5; x92; x8b; x0a; xe6;
  x90; xbe; x0a; xe6; x98; xa8; x0a; xe6;
  x9c; x94; x0a; xe6; x9f; xb5; x0a; xe7;
  xaa; x84; x0a; xe7; xad; x96; x0a; xe7;
  xb4; xa2; x0a; xe9; x8c; xaf; x0a; xe6;
  xa1; x9c; x0a; xe9; xae; xad; x0a; xe7;
  xac; xb9; x0a; xe5; x8c; x99; x0a; xe5
].
(* tests/test_data/whatwg/shiftjis_whatwg_test_encode_in.txt, entries 6656..6911 *)
Definition shiftjis_encode_in_26 : list byte := [
  x86; x8a; x0a; xe5; x88; xb7; x0a; xe5;
  xaf; x9f; x0a; xe6; x8b; xb6; x0a; xe6;
  x92; xae; x0a; xe6; x93; xa6; x0a; xe6;
  x9c; xad; x0a; xe6; xae; xba; x0a; xe8;
  x96; xa9; x0a; xe9; x9b; x91; x0a; xe7;
  x9a; x90; x0a; xe9; xaf; x96; x0a; xe6;
  x8d; x8c; x0a; xe9; x8c; x86; x0a; xe9;
  xae; xab; x0a; xe7; x9a; xbf; x0a; xe6;
  x99; x92; x0a; xe4; xb8; x89; x0a; xe5;
  x82; x98; x0a; xe5; x8f; x82; x0a; xe5;
  xb1; xb1; x0a; xe6; x83; xa8; x0a; xe6;
  x92; x92; x0a; xe6; x95; xa3; x0a; xe6;
  xa1; x9f; x0a; xe7; x87; xa6; x0a; xe7;
  x8f; x8a; x0a; xe7; x94; xa3; x0a; xe7;
  xae; x97; x0a; xe7; xba; x82; x0a; xe8;
  x9a; x95; x0a; xe8; xae; x83; x0a; xe8;
  xb3; x9b; x0a; xe9; x85; xb8; x0a; xe9;
  xa4; x90; x0a; xe6; x96; xac; x0a; xe6;
  x9a; xab; x0a; xe6; xae; x8b; x0a; xe4;
  xbb; x95; x0a; xe4; xbb; x94; x0a; xe4;
  xbc; xba; x0a; xe4; xbd; xbf; x0a; xe5;
  x88; xba; x0a; xe5; x8f; xb8; x0a; xe5;
  x8f; xb2; x0a; xe5; x97; xa3; x0a; xe5;
  x9b; x9b; x0a; xe5; xa3; xab; x0a; xe5;
  xa7; x8b; x0a; xe5; xa7; x89; x0a; xe5;
  xa7; xbf; x0a; xe5; xad; x90; x0a; xe5;
  xb1; x8d; x0a; xe5; xb8; x82; x0a; xe5;
  xb8; xab; x0a; xe5; xbf; x97; x0a; xe6;
  x80; x9d; x0a; xe6; x8c; x87; x0a; xe6;
  x94; xaf; x0a; xe5; xad; x9c; x0a; xe6;
  x96; xaf; x0a; xe6; x96; xbd; x0a; xe6;
  x97; xa8; x0a; xe6; x9e; x9d; x0a; xe6
].
(* tests/test_data/whatwg/shiftjis_whatwg_test_encode_in.txt, entries 6912..7167 *)
Definition shiftjis_encode_in_27 : list byte := [
  xad; xa2; x0a; xe6; xad; xbb; x0a; xe6;
  xb0; x8f; x0a; xe7; x8d; x85; x0a; xe7;
  xa5; x89; x0a; xe7; xa7; x81; x0a; xe7;
  xb3; xb8; x0a; xe7; xb4; x99; x0a; xe7;
  xb4; xab; x0a; xe8; x82; xa2; x0a; xe8;
  x84; x82; x0a; xe8; x87; xb3; x0a; xe8;
  xa6; x96; x0a; xe8; xa9; x9e; x0a; xe8;
  xa9; xa9; x0a; xe8; xa9; xa6; x0a; xe8;
  xaa; x8c; x0a; xe8; xab; xae; x0a; xe8;
  xb3; x87; x0a; xe8; xb3; x9c; x0a; xe9;
  x9b; x8c; x0a; xe9; xa3; xbc; x0a; xe6;
  xad; xaf; x0a; xe4; xba; x8b; x0a; xe4;
  xbc; xbc; x0a; xe4; xbe; x8d; x0a; xe5;
  x85; x90; x0a; xe5; xad; x97; x0a; xe5;
  xaf; xba; x0a; xe6; x85; x88; x0a; xe6;
  x8c; x81; x0a; xe6; x99; x82; x0a; xe6;
  xac; xa1; x0a; xe6; xbb; x8b; x0a; xe6;
  xb2; xbb; x0a; xe7; x88; xbe; x0a; xe7;
  x92; xbd; x0a; xe7; x97; x94; x0a; xe7;
  xa3; x81; x0a; xe7; xa4; xba; x0a; xe8;
  x80; x8c; x0a; xe8; x80; xb3; x0a; xe8;
  x87; xaa; x0a; xe8; x92; x94; x0a; xe8;
  xbe; x9e; x0a; xe6; xb1; x90; x0a; xe9;
  xb9; xbf; x0a; xe5; xbc; x8f; x0a; xe8;
  xad; x98; x0a; xe9; xb4; xab; x0a; xe7;
  xab; xba; x0a; xe8; xbb; xb8; x0a; xe5;
  xae; x8d; x0a; xe9; x9b; xab; x0a; xe4;
  xb8; x83; x0a; xe5; x8f; xb1; x0a; xe5;
  x9f; xb7; x0a; xe5; xa4; xb1; x0a; xe5;
  xab; x89; x0a; xe5; xae; xa4; x0a; xe6;
  x82; x89; x0a; xe6; xb9; xbf; x0a; xe6;
  xbc; x86; x0a; xe7; x96; xbe; x0a; xe8
].
(* tests/test_data/whatwg/shiftjis_whatwg_test_encode_in.txt, entries 7168..7423 *)
Definition shiftjis_encode_in_28 : list byte := [
  xb3; xaa; x0a; xe5; xae; x9f; x0a; xe8;
  x94; x80; x0a; xe7; xaf; xa0; x0a; xe5;
  x81; xb2; x0a; xe6; x9f; xb4; x0a; xe8;
  x8a; x9d; x0a; xe5; xb1; xa1; x0a; xe8;
  x95; x8a; x0a; xe7; xb8; x9e; x0a; xe8;
  x88; x8e; x0a; xe5; x86; x99; x0a; xe5;
  xb0; x84; x0a; xe6; x8d; xa8; x0a; xe8;
  xb5; xa6; x0a; xe6; x96; x9c; x0a; xe7;
  x85; xae; x0a; xe7; xa4; xbe; x0a; xe7;
  xb4; x97; x0a; xe8; x80; x85; x0a; xe8;
  xac; x9d; x0a; xe8; xbb; x8a; x0a; xe9;
  x81; xae; x0a; xe8; x9b; x87; x0a; xe9;
  x82; xaa; x0a; xe5; x80; x9f; x0a; xe5;
  x8b; xba; x0a; xe5; xb0; xba; x0a; xe6;
  x9d; x93; x0a; xe7; x81; xbc; x0a; xe7;
  x88; xb5; x0a; xe9; x85; x8c; x0a; xe9;
  x87; x88; x0a; xe9; x8c; xab; x0a; xe8;
  x8b; xa5; x0a; xe5; xaf; x82; x0a; xe5;
  xbc; xb1; x0a; xe6; x83; xb9; x0a; xe4;
  xb8; xbb; x0a; xe5; x8f; x96; x0a; xe5;
  xae; x88; x0a; xe6; x89; x8b; x0a; xe6;
  x9c; xb1; x0a; xe6; xae; x8a; x0a; xe7;
  x8b; xa9; x0a; xe7; x8f; xa0; x0a; xe7;
  xa8; xae; x0a; xe8; x85; xab; x0a; xe8;
  xb6; xa3; x0a; xe9; x85; x92; x0a; xe9;
  xa6; x96; x0a; xe5; x84; x92; x0a; xe5;
  x8f; x97; x0a; xe5; x91; xaa; x0a; xe5;
  xaf; xbf; x0a; xe6; x8e; x88; x0a; xe6;
  xa8; xb9; x0a; xe7; xb6; xac; x0a; xe9;
  x9c; x80; x0a; xe5; x9b; x9a; x0a; xe5;
  x8f; x8e; x0a; xe5; x91; xa8; x0a; xe5;
  xae; x97; x0a; xe5; xb0; xb1; x0a; xe5
].
(* tests/test_data/whatwg/shiftjis_whatwg_test_encode_in.txt, entries 7424..7679 *)
Definition shiftjis_encode_in_29 : list byte := [
  xb7; x9e; x0a; xe4; xbf; xae; x0a; xe6;
  x84; x81; x0a; xe6; x8b; xbe; x0a; xe6;
  xb4; xb2; x0a; xe7; xa7; x80; x0a; xe7;
  xa7; x8b; x0a; xe7; xb5; x82; x0a; xe7;
  xb9; x8d; x0a; xe7; xbf; x92; x0a; xe8;
  x87; xad; x0a; xe8; x88; x9f; x0a; xe8;
  x92; x90; x0a; xe8; xa1; x86; x0a; xe8;
  xa5; xb2; x0a; xe8; xae; x90; x0a; xe8;
  xb9; xb4; x0a; xe8; xbc; xaf; x0a; xe9;
  x80; xb1; x0a; xe9; x85; x8b; x0a; xe9;
  x85; xac; x0a; xe9; x9b; x86; x0a; xe9;
  x86; x9c; x0a; xe4; xbb; x80; x0a; xe4;
  xbd; x8f; x0a; xe5; x85; x85; x0a; xe5;
  x8d; x81; x0a; xe5; xbe; x93; x0a; xe6;
  x88; x8e; x0a; xe6; x9f; x94; x0a; xe6;
  xb1; x81; x0a; xe6; xb8; x8b; x0a; xe7;
  x8d; xa3; x0a; xe7; xb8; xa6; x0a; xe9;
  x87; x8d; x0a; xe9; x8a; x83; x0a; xe5;
  x8f; x94; x0a; xe5; xa4; x99; x0a; xe5;
  xae; xbf; x0a; xe6; xb7; x91; x0a; xe7;
  xa5; x9d; x0a; xe7; xb8; xae; x0a; xe7;
  xb2; x9b; x0a; xe5; xa1; xbe; x0a; xe7;
  x86; x9f; x0a; xe5; x87; xba; x0a; xe8;
  xa1; x93; x0a; xe8; xbf; xb0; x0a; xe4;
  xbf; x8a; x0a; xe5; xb3; xbb; x0a; xe6;
  x98; xa5; x0a; xe7; x9e; xac; x0a; xe7;
  xab; xa3; x0a; xe8; x88; x9c; x0a; xe9;
  xa7; xbf; x0a; xe5; x87; x86; x0a; xe5;
  xbe; xaa; x0a; xe6; x97; xac; x0a; xe6;
  xa5; xaf; x0a; xe6; xae; x89; x0a; xe6;
  xb7; xb3; x0a; xe6; xba; x96; x0a; xe6;
  xbd; xa4; x0a; xe7; x9b; xbe; x0a; xe7
].
(* tests/test_data/whatwg/shiftjis_whatwg_test_encode_in.txt, entries 7680..7935 *)
Definition shiftjis_encode_in_30 : list byte := [
  xb4; x94; x0a; xe5; xb7; xa1; x0a; xe9;
  x81; xb5; x0a; xe9; x86; x87; x0a; xe9;
  xa0; x86; x0a; xe5; x87; xa6; x0a; xe5;
  x88; x9d; x0a; xe6; x89; x80; x0a; xe6;
  x9a; x91; x0a; xe6; x9b; x99; x0a; xe6;
  xb8; x9a; x0a; xe5; xba; xb6; x0a; xe7;
  xb7; x92; x0a; xe7; xbd; xb2; x0a; xe6;
  x9b; xb8; x0a; xe8; x96; xaf; x0a; xe8;
  x97; xb7; x0a; xe8; xab; xb8; x0a; xe5;
  x8a; xa9; x0a; xe5; x8f; x99; x0a; xe5;
  xa5; xb3; x0a; xe5; xba; x8f; x0a; xe5;
  xbe; x90; x0a; xe6; x81; x95; x0a; xe9;
  x8b; xa4; x0a; xe9; x99; xa4; x0a; xe5;
  x82; xb7; x0a; xe5; x84; x9f; x0a; xe5;
  x8b; x9d; x0a; xe5; x8c; xa0; x0a; xe5;
  x8d; x87; x0a; xe5; x8f; xac; x0a; xe5;
  x93; xa8; x0a; xe5; x95; x86; x0a; xe5;
  x94; xb1; x0a; xe5; x98; x97; x0a; xe5;
  xa5; xa8; x0a; xe5; xa6; xbe; x0a; xe5;
  xa8; xbc; x0a; xe5; xae; xb5; x0a; xe5;
  xb0; x86; x0a; xe5; xb0; x8f; x0a; xe5;
  xb0; x91; x0a; xe5; xb0; x9a; x0a; xe5;
  xba; x84; x0a; xe5; xba; x8a; x0a; xe5;
  xbb; xa0; x0a; xe5; xbd; xb0; x0a; xe6;
  x89; xbf; x0a; xe6; x8a; x84; x0a; xe6;
  x8b; x9b; x0a; xe6; x8e; x8c; x0a; xe6;
  x8d; xb7; x0a; xe6; x98; x87; x0a; xe6;
  x98; x8c; x0a; xe6; x98; xad; x0a; xe6;
  x99; xb6; x0a; xe6; x9d; xbe; x0a; xe6;
  xa2; xa2; x0a; xe6; xa8; x9f; x0a; xe6;
  xa8; xb5; x0a; xe6; xb2; xbc; x0a; xe6;
  xb6; x88; x0a; xe6; xb8; x89; x0a; xe6
].
(* tests/test_data/whatwg/shiftjis_whatwg_test_encode_in.txt, entries 7936..8191 *)
Definition shiftjis_encode_in_31 : list byte := [
  xb9; x98; x0a; xe7; x84; xbc; x0a; xe7;
  x84; xa6; x0a; xe7; x85; xa7; x0a; xe7;
  x97; x87; x0a; xe7; x9c; x81; x0a; xe7;
  xa1; x9d; x0a; xe7; xa4; x81; x0a; xe7;
  xa5; xa5; x0a; xe7; xa7; xb0; x0a; xe7;
  xab; xa0; x0a; xe7; xac; x91; x0a; xe7;
  xb2; xa7; x0a; xe7; xb4; xb9; x0a; xe8;
  x82; x96; x0a; xe8; x8f; x96; x0a; xe8;
  x92; x8b; x0a; xe8; x95; x89; x0a; xe8;
  xa1; x9d; x0a; xe8; xa3; xb3; x0a; xe8;
  xa8; x9f; x0a; xe8; xa8; xbc; x0a; xe8;
  xa9; x94; x0a; xe8; xa9; xb3; x0a; xe8;
  xb1; xa1; x0a; xe8; xb3; x9e; x0a; xe9;
  x86; xa4; x0a; xe9; x89; xa6; x0a; xe9;
  x8d; xbe; x0a; xe9; x90; x98; x0a; xe9;
  x9a; x9c; x0a; xe9; x9e; x98; x0a; xe4;
  xb8; x8a; x0a; xe4; xb8; x88; x0a; xe4;
  xb8; x9e; x0a; xe4; xb9; x97; x0a; xe5;
  x86; x97; x0a; xe5; x89; xb0; x0a; xe5;
  x9f; x8e; x0a; xe5; xa0; xb4; x0a; xe5;
  xa3; x8c; x0a; xe5; xac; xa2; x0a; xe5;
  xb8; xb8; x0a; xe6; x83; x85; x0a; xe6;
  x93; xbe; x0a; xe6; x9d; xa1; x0a; xe6;
  x9d; x96; x0a; xe6; xb5; x84; x0a; xe7;
  x8a; xb6; x0a; xe7; x95; xb3; x0a; xe7;
  xa9; xa3; x0a; xe8; x92; xb8; x0a; xe8;
  xad; xb2; x0a; xe9; x86; xb8; x0a; xe9;
  x8c; xa0; x0a; xe5; x98; xb1; x0a; xe5;
  x9f; xb4; x0a; xe9; xa3; xbe; x0a; xe6;
  x8b; xad; x0a; xe6; xa4; x8d; x0a; xe6;
  xae; x96; x0a; xe7; x87; xad; x0a; xe7;
  xb9; x94; x0a; xe8; x81; xb7; x0a; xe8
].
(* tests/test_data/whatwg/shiftjis_whatwg_test_encode_in.txt, entries 8192..8447 *)
Definition shiftjis_encode_in_32 : list byte := [
  x89; xb2; x0a; xe8; xa7; xa6; x0a; xe9;
  xa3; x9f; x0a; xe8; x9d; x95; x0a; xe8;
  xbe; xb1; x0a; xe5; xb0; xbb; x0a; xe4;
  xbc; xb8; x0a; xe4; xbf; xa1; x0a; xe4;
  xbe; xb5; x0a; xe5; x94; x87; x0a; xe5;
  xa8; xa0; x0a; xe5; xaf; x9d; x0a; xe5;
  xaf; xa9; x0a; xe5; xbf; x83; x0a; xe6;
  x85; x8e; x0a; xe6; x8c; xaf; x0a; xe6;
  x96; xb0; x0a; xe6; x99; x8b; x0a; xe6;
  xa3; xae; x0a; xe6; xa6; x9b; x0a; xe6;
  xb5; xb8; x0a; xe6; xb7; xb1; x0a; xe7;
  x94; xb3; x0a; xe7; x96; xb9; x0a; xe7;
  x9c; x9f; x0a; xe7; xa5; x9e; x0a; xe7;
  xa7; xa6; x0a; xe7; xb4; xb3; x0a; xe8;
  x87; xa3; x0a; xe8; x8a; xaf; x0a; xe8;
  x96; xaa; x0a; xe8; xa6; xaa; x0a; xe8;
  xa8; xba; x0a; xe8; xba; xab; x0a; xe8;
  xbe; x9b; x0a; xe9; x80; xb2; x0a; xe9;
  x87; x9d; x0a; xe9; x9c; x87; x0a; xe4;
  xba; xba; x0a; xe4; xbb; x81; x0a; xe5;
  x88; x83; x0a; xe5; xa1; xb5; x0a; xe5;
  xa3; xac; x0a; xe5; xb0; x8b; x0a; xe7;
  x94; x9a; x0a; xe5; xb0; xbd; x0a; xe8;
  x85; x8e; x0a; xe8; xa8; x8a; x0a; xe8;
  xbf; x85; x0a; xe9; x99; xa3; x0a; xe9;
  x9d; xad; x0a; xe7; xac; xa5; x0a; xe8;
  xab; x8f; x0a; xe9; xa0; x88; x0a; xe9;
  x85; xa2; x0a; xe5; x9b; xb3; x0a; xe5;
  x8e; xa8; x0a; xe9; x80; x97; x0a; xe5;
  x90; xb9; x0a; xe5; x9e; x82; x0a; xe5;
  xb8; xa5; x0a; xe6; x8e; xa8; x0a; xe6;
  xb0; xb4; x0a; xe7; x82; x8a; x0a; xe7
].
(* tests/test_data/whatwg/shiftjis_whatwg_test_encode_in.txt, entries 8448..8703 *)
Definition shiftjis_encode_in_33 : list byte := [
  x9d; xa1; x0a; xe7; xb2; x8b; x0a; xe7;
  xbf; xa0; x0a; xe8; xa1; xb0; x0a; xe9;
  x81; x82; x0a; xe9; x85; x94; x0a; xe9;
  x8c; x90; x0a; xe9; x8c; x98; x0a; xe9;
  x9a; x8f; x0a; xe7; x91; x9e; x0a; xe9;
  xab; x84; x0a; xe5; xb4; x87; x0a; xe5;
  xb5; xa9; x0a; xe6; x95; xb0; x0a; xe6;
  x9e; xa2; x0a; xe8; xb6; xa8; x0a; xe9;
  x9b; x9b; x0a; xe6; x8d; xae; x0a; xe6;
  x9d; x89; x0a; xe6; xa4; x99; x0a; xe8;
  x8f; x85; x0a; xe9; xa0; x97; x0a; xe9;
  x9b; x80; x0a; xe8; xa3; xbe; x0a; xe6;
  xbe; x84; x0a; xe6; x91; xba; x0a; xe5;
  xaf; xb8; x0a; xe4; xb8; x96; x0a; xe7;
  x80; xac; x0a; xe7; x95; x9d; x0a; xe6;
  x98; xaf; x0a; xe5; x87; x84; x0a; xe5;
  x88; xb6; x0a; xe5; x8b; xa2; x0a; xe5;
  xa7; x93; x0a; xe5; xbe; x81; x0a; xe6;
  x80; xa7; x0a; xe6; x88; x90; x0a; xe6;
  x94; xbf; x0a; xe6; x95; xb4; x0a; xe6;
  x98; x9f; x0a; xe6; x99; xb4; x0a; xe6;
  xa3; xb2; x0a; xe6; xa0; x96; x0a; xe6;
  xad; xa3; x0a; xe6; xb8; x85; x0a; xe7;
  x89; xb2; x0a; xe7; x94; x9f; x0a; xe7;
  x9b; x9b; x0a; xe7; xb2; xbe; x0a; xe8;
  x81; x96; x0a; xe5; xa3; xb0; x0a; xe8;
  xa3; xbd; x0a; xe8; xa5; xbf; x0a; xe8;
  xaa; xa0; x0a; xe8; xaa; x93; x0a; xe8;
  xab; x8b; x0a; xe9; x80; x9d; x0a; xe9;
  x86; x92; x0a; xe9; x9d; x92; x0a; xe9;
  x9d; x99; x0a; xe6; x96; x89; x0a; xe7;
  xa8; x8e; x0a; xe8; x84; x86; x0a; xe9
].
(* tests/test_data/whatwg/shiftjis_whatwg_test_encode_in.txt, entries 8704..8959 *)
Definition shiftjis_encode_in_34 : list byte := [
  x9a; xbb; x0a; xe5; xb8; xad; x0a; xe6;
  x83; x9c; x0a; xe6; x88; x9a; x0a; xe6;
  x96; xa5; x0a; xe6; x98; x94; x0a; xe6;
  x9e; x90; x0a; xe7; x9f; xb3; x0a; xe7;
  xa9; x8d; x0a; xe7; xb1; x8d; x0a; xe7;
  xb8; xbe; x0a; xe8; x84; x8a; x0a; xe8;
  xb2; xac; x0a; xe8; xb5; xa4; x0a; xe8;
  xb7; xa1; x0a; xe8; xb9; x9f; x0a; xe7;
  xa2; xa9; x0a; xe5; x88; x87; x0a; xe6;
  x8b; x99; x0a; xe6; x8e; xa5; x0a; xe6;
  x91; x82; x0a; xe6; x8a; x98; x0a; xe8;
  xa8; xad; x0a; xe7; xaa; x83; x0a; xe7;
  xaf; x80; x0a; xe8; xaa; xac; x0a; xe9;
  x9b; xaa; x0a; xe7; xb5; xb6; x0a; xe8;
  x88; x8c; x0a; xe8; x9d; x89; x0a; xe4;
  xbb; x99; x0a; xe5; x85; x88; x0a; xe5;
  x8d; x83; x0a; xe5; x8d; xa0; x0a; xe5;
  xae; xa3; x0a; xe5; xb0; x82; x0a; xe5;
  xb0; x96; x0a; xe5; xb7; x9d; x0a; xe6;
  x88; xa6; x0a; xe6; x89; x87; x0a; xe6;
  x92; xb0; x0a; xe6; xa0; x93; x0a; xe6;
  xa0; xb4; x0a; xe6; xb3; x89; x0a; xe6;
  xb5; x85; x0a; xe6; xb4; x97; x0a; xe6;
  x9f; x93; x0a; xe6; xbd; x9c; x0a; xe7;
  x85; x8e; x0a; xe7; x85; xbd; x0a; xe6;
  x97; x8b; x0a; xe7; xa9; xbf; x0a; xe7;
  xae; xad; x0a; xe7; xb7; x9a; x0a; xe7;
  xb9; x8a; x0a; xe7; xbe; xa8; x0a; xe8;
  x85; xba; x0a; xe8; x88; x9b; x0a; xe8;
  x88; xb9; x0a; xe8; x96; xa6; x0a; xe8;
  xa9; xae; x0a; xe8; xb3; x8e; x0a; xe8;
  xb7; xb5; x0a; xe9; x81; xb8; x0a; xe9
].
(* tests/test_data/whatwg/shiftjis_whatwg_test_encode_in.txt, entries 8960..9215 *)
Definition shiftjis_encode_in_35 : list byte := [
  x81; xb7; x0a; xe9; x8a; xad; x0a; xe9;
  x8a; x91; x0a; xe9; x96; x83; x0a; xe9;
  xae; xae; x0a; xe5; x89; x8d; x0a; xe5;
  x96; x84; x0a; xe6; xbc; xb8; x0a; xe7;
  x84; xb6; x0a; xe5; x85; xa8; x0a; xe7;
  xa6; x85; x0a; xe7; xb9; x95; x0a; xe8;
  x86; xb3; x0a; xe7; xb3; x8e; x0a; xe5;
  x99; x8c; x0a; xe5; xa1; x91; x0a; xe5;
  xb2; xa8; x0a; xe6; x8e; xaa; x0a; xe6;
  x9b; xbe; x0a; xe6; x9b; xbd; x0a; xe6;
  xa5; x9a; x0a; xe7; x8b; x99; x0a; xe7;
  x96; x8f; x0a; xe7; x96; x8e; x0a; xe7;
  xa4; x8e; x0a; xe7; xa5; x96; x0a; xe7;
  xa7; x9f; x0a; xe7; xb2; x97; x0a; xe7;
  xb4; xa0; x0a; xe7; xb5; x84; x0a; xe8;
  x98; x87; x0a; xe8; xa8; xb4; x0a; xe9;
  x98; xbb; x0a; xe9; x81; xa1; x0a; xe9;
  xbc; xa0; x0a; xe5; x83; xa7; x0a; xe5;
  x89; xb5; x0a; xe5; x8f; x8c; x0a; xe5;
  x8f; xa2; x0a; xe5; x80; x89; x0a; xe5;
  x96; xaa; x0a; xe5; xa3; xae; x0a; xe5;
  xa5; x8f; x0a; xe7; x88; xbd; x0a; xe5;
  xae; x8b; x0a; xe5; xb1; xa4; x0a; xe5;
  x8c; x9d; x0a; xe6; x83; xa3; x0a; xe6;
  x83; xb3; x0a; xe6; x8d; x9c; x0a; xe6;
  x8e; x83; x0a; xe6; x8c; xbf; x0a; xe6;
  x8e; xbb; x0a; xe6; x93; x8d; x0a; xe6;
  x97; xa9; x0a; xe6; x9b; xb9; x0a; xe5;
  xb7; xa3; x0a; xe6; xa7; x8d; x0a; xe6;
  xa7; xbd; x0a; xe6; xbc; x95; x0a; xe7;
  x87; xa5; x0a; xe4; xba; x89; x0a; xe7;
  x97; xa9; x0a; xe7; x9b; xb8; x0a; xe7
].
(* tests/test_data/whatwg/shiftjis_whatwg_test_encode_in.txt, entries 9216..9471 *)
Definition shiftjis_encode_in_36 : list byte := [
  xaa; x93; x0a; xe7; xb3; x9f; x0a; xe7;
  xb7; x8f; x0a; xe7; xb6; x9c; x0a; xe8;
  x81; xa1; x0a; xe8; x8d; x89; x0a; xe8;
  x8d; x98; x0a; xe8; x91; xac; x0a; xe8;
  x92; xbc; x0a; xe8; x97; xbb; x0a; xe8;
  xa3; x85; x0a; xe8; xb5; xb0; x0a; xe9;
  x80; x81; x0a; xe9; x81; xad; x0a; xe9;
  x8e; x97; x0a; xe9; x9c; x9c; x0a; xe9;
  xa8; x92; x0a; xe5; x83; x8f; x0a; xe5;
  xa2; x97; x0a; xe6; x86; x8e; x0a; xe8;
  x87; x93; x0a; xe8; x94; xb5; x0a; xe8;
  xb4; x88; x0a; xe9; x80; xa0; x0a; xe4;
  xbf; x83; x0a; xe5; x81; xb4; x0a; xe5;
  x89; x87; x0a; xe5; x8d; xb3; x0a; xe6;
  x81; xaf; x0a; xe6; x8d; x89; x0a; xe6;
  x9d; x9f; x0a; xe6; xb8; xac; x0a; xe8;
  xb6; xb3; x0a; xe9; x80; x9f; x0a; xe4;
  xbf; x97; x0a; xe5; xb1; x9e; x0a; xe8;
  xb3; x8a; x0a; xe6; x97; x8f; x0a; xe7;
  xb6; x9a; x0a; xe5; x8d; x92; x0a; xe8;
  xa2; x96; x0a; xe5; x85; xb6; x0a; xe6;
  x8f; x83; x0a; xe5; xad; x98; x0a; xe5;
  xad; xab; x0a; xe5; xb0; x8a; x0a; xe6;
  x90; x8d; x0a; xe6; x9d; x91; x0a; xe9;
  x81; x9c; x0a; xe4; xbb; x96; x0a; xe5;
  xa4; x9a; x0a; xe5; xa4; xaa; x0a; xe6;
  xb1; xb0; x0a; xe8; xa9; x91; x0a; xe5;
  x94; xbe; x0a; xe5; xa0; x95; x0a; xe5;
  xa6; xa5; x0a; xe6; x83; xb0; x0a; xe6;
  x89; x93; x0a; xe6; x9f; x81; x0a; xe8;
  x88; xb5; x0a; xe6; xa5; x95; x0a; xe9;
  x99; x80; x0a; xe9; xa7; x84; x0a; xe9
].
(* tests/test_data/whatwg/shiftjis_whatwg_test_encode_in.txt, entries 9472..9727 *)
Definition shiftjis_encode_in_37 : list byte := [
  xa8; xa8; x0a; xe4; xbd; x93; x0a; xe5;
  xa0; x86; x0a; xe5; xaf; xbe; x0a; xe8;
  x80; x90; x0a; xe5; xb2; xb1; x0a; xe5;
  xb8; xaf; x0a; xe5; xbe; x85; x0a; xe6;
  x80; xa0; x0a; xe6; x85; x8b; x0a; xe6;
  x88; xb4; x0a; xe6; x9b; xbf; x0a; xe6;
  xb3; xb0; x0a; xe6; xbb; x9e; x0a; xe8;
  x83; x8e; x0a; xe8; x85; xbf; x0a; xe8;
  x8b; x94; x0a; xe8; xa2; x8b; x0a; xe8;
  xb2; xb8; x0a; xe9; x80; x80; x0a; xe9;
  x80; xae; x0a; xe9; x9a; x8a; x0a; xe9;
  xbb; x9b; x0a; xe9; xaf; x9b; x0a; xe4;
  xbb; xa3; x0a; xe5; x8f; xb0; x0a; xe5;
  xa4; xa7; x0a; xe7; xac; xac; x0a; xe9;
  x86; x8d; x0a; xe9; xa1; x8c; x0a; xe9;
  xb7; xb9; x0a; xe6; xbb; x9d; x0a; xe7;
  x80; xa7; x0a; xe5; x8d; x93; x0a; xe5;
  x95; x84; x0a; xe5; xae; x85; x0a; xe6;
  x89; x98; x0a; xe6; x8a; x9e; x0a; xe6;
  x8b; x93; x0a; xe6; xb2; xa2; x0a; xe6;
  xbf; xaf; x0a; xe7; x90; xa2; x0a; xe8;
  xa8; x97; x0a; xe9; x90; xb8; x0a; xe6;
  xbf; x81; x0a; xe8; xab; xbe; x0a; xe8;
  x8c; xb8; x0a; xe5; x87; xa7; x0a; xe8;
  x9b; xb8; x0a; xe5; x8f; xaa; x0a; xe5;
  x8f; xa9; x0a; xe4; xbd; x86; x0a; xe9;
  x81; x94; x0a; xe8; xbe; xb0; x0a; xe5;
  xa5; xaa; x0a; xe8; x84; xb1; x0a; xe5;
  xb7; xbd; x0a; xe7; xab; xaa; x0a; xe8;
  xbe; xbf; x0a; xe6; xa3; x9a; x0a; xe8;
  xb0; xb7; x0a; xe7; x8b; xb8; x0a; xe9;
  xb1; x88; x0a; xe6; xa8; xbd; x0a; xe8
].
(* tests/test_data/whatwg/shiftjis_whatwg_test_encode_in.txt, entries 9728..9983 *)
Definition shiftjis_encode_in_38 : list byte := [
  xaa; xb0; x0a; xe4; xb8; xb9; x0a; xe5;
  x8d; x98; x0a; xe5; x98; x86; x0a; xe5;
  x9d; xa6; x0a; xe6; x8b; x85; x0a; xe6;
  x8e; xa2; x0a; xe6; x97; xa6; x0a; xe6;
  xad; x8e; x0a; xe6; xb7; xa1; x0a; xe6;
  xb9; x9b; x0a; xe7; x82; xad; x0a; xe7;
  x9f; xad; x0a; xe7; xab; xaf; x0a; xe7;
  xae; xaa; x0a; xe7; xb6; xbb; x0a; xe8;
  x80; xbd; x0a; xe8; x83; x86; x0a; xe8;
  x9b; x8b; x0a; xe8; xaa; x95; x0a; xe9;
  x8d; x9b; x0a; xe5; x9b; xa3; x0a; xe5;
  xa3; x87; x0a; xe5; xbc; xbe; x0a; xe6;
  x96; xad; x0a; xe6; x9a; x96; x0a; xe6;
  xaa; x80; x0a; xe6; xae; xb5; x0a; xe7;
  x94; xb7; x0a; xe8; xab; x87; x0a; xe5;
  x80; xa4; x0a; xe7; x9f; xa5; x0a; xe5;
  x9c; xb0; x0a; xe5; xbc; x9b; x0a; xe6;
  x81; xa5; x0a; xe6; x99; xba; x0a; xe6;
  xb1; xa0; x0a; xe7; x97; xb4; x0a; xe7;
  xa8; x9a; x0a; xe7; xbd; xae; x0a; xe8;
  x87; xb4; x0a; xe8; x9c; x98; x0a; xe9;
  x81; x85; x0a; xe9; xa6; xb3; x0a; xe7;
  xaf; x89; x0a; xe7; x95; x9c; x0a; xe7;
  xab; xb9; x0a; xe7; xad; x91; x0a; xe8;
  x93; x84; x0a; xe9; x80; x90; x0a; xe7;
  xa7; xa9; x0a; xe7; xaa; x92; x0a; xe8;
  x8c; xb6; x0a; xe5; xab; xa1; x0a; xe7;
  x9d; x80; x0a; xe4; xb8; xad; x0a; xe4;
  xbb; xb2; x0a; xe5; xae; x99; x0a; xe5;
  xbf; xa0; x0a; xe6; x8a; xbd; x0a; xe6;
  x98; xbc; x0a; xe6; x9f; xb1; x0a; xe6;
  xb3; xa8; x0a; xe8; x99; xab; x0a; xe8
].
(* tests/test_data/whatwg/shiftjis_whatwg_test_encode_in.txt, entries 9984..10239 *)
Definition shiftjis_encode_in_39 : list byte := [
  xa1; xb7; x0a; xe8; xa8; xbb; x0a; xe9;
  x85; x8e; x0a; xe9; x8b; xb3; x0a; xe9;
  xa7; x90; x0a; xe6; xa8; x97; x0a; xe7;
  x80; xa6; x0a; xe7; x8c; xaa; x0a; xe8;
  x8b; xa7; x0a; xe8; x91; x97; x0a; xe8;
  xb2; xaf; x0a; xe4; xb8; x81; x0a; xe5;
  x85; x86; x0a; xe5; x87; x8b; x0a; xe5;
  x96; x8b; x0a; xe5; xaf; xb5; x0a; xe5;
  xb8; x96; x0a; xe5; xb8; xb3; x0a; xe5;
  xba; x81; x0a; xe5; xbc; x94; x0a; xe5;
  xbc; xb5; x0a; xe5; xbd; xab; x0a; xe5;
  xbe; xb4; x0a; xe6; x87; xb2; x0a; xe6;
  x8c; x91; x0a; xe6; x9a; xa2; x0a; xe6;
  x9c; x9d; x0a; xe6; xbd; xae; x0a; xe7;
  x89; x92; x0a; xe7; x94; xba; x0a; xe7;
  x9c; xba; x0a; xe8; x81; xb4; x0a; xe8;
  x84; xb9; x0a; xe8; x85; xb8; x0a; xe8;
  x9d; xb6; x0a; xe8; xaa; xbf; x0a; xe8;
  xab; x9c; x0a; xe8; xb6; x85; x0a; xe8;
  xb7; xb3; x0a; xe9; x8a; x9a; x0a; xe9;
  x95; xb7; x0a; xe9; xa0; x82; x0a; xe9;
  xb3; xa5; x0a; xe5; x8b; x85; x0a; xe6;
  x8d; x97; x0a; xe7; x9b; xb4; x0a; xe6;
  x9c; x95; x0a; xe6; xb2; x88; x0a; xe7;
  x8f; x8d; x0a; xe8; xb3; x83; x0a; xe9;
  x8e; xae; x0a; xe9; x99; xb3; x0a; xe6;
  xb4; xa5; x0a; xe5; xa2; x9c; x0a; xe6;
  xa4; x8e; x0a; xe6; xa7; x8c; x0a; xe8;
  xbf; xbd; x0a; xe9; x8e; x9a; x0a; xe7;
  x97; x9b; x0a; xe9; x80; x9a; x0a; xe5;
  xa1; x9a; x0a; xe6; xa0; x82; x0a; xe6;
  x8e; xb4; x0a; xe6; xa7; xbb; x0a; xe4
].
(* tests/test_data/whatwg/shiftjis_whatwg_test_encode_in.txt, entries 10240..10495 *)
Definition shiftjis_encode_in_40 : list byte := [
  xbd; x83; x0a; xe6; xbc; xac; x0a; xe6;
  x9f; x98; x0a; xe8; xbe; xbb; x0a; xe8;
  x94; xa6; x0a; xe7; xb6; xb4; x0a; xe9;
  x8d; x94; x0a; xe6; xa4; xbf; x0a; xe6;
  xbd; xb0; x0a; xe5; x9d; xaa; x0a; xe5;
  xa3; xb7; x0a; xe5; xac; xac; x0a; xe7;
  xb4; xac; x0a; xe7; x88; xaa; x0a; xe5;
  x90; x8a; x0a; xe9; x87; xa3; x0a; xe9;
  xb6; xb4; x0a; xe4; xba; xad; x0a; xe4;
  xbd; x8e; x0a; xe5; x81; x9c; x0a; xe5;
  x81; xb5; x0a; xe5; x89; x83; x0a; xe8;
  xb2; x9e; x0a; xe5; x91; x88; x0a; xe5;
  xa0; xa4; x0a; xe5; xae; x9a; x0a; xe5;
  xb8; x9d; x0a; xe5; xba; x95; x0a; xe5;
  xba; xad; x0a; xe5; xbb; xb7; x0a; xe5;
  xbc; x9f; x0a; xe6; x82; x8c; x0a; xe6;
  x8a; xb5; x0a; xe6; x8c; xba; x0a; xe6;
  x8f; x90; x0a; xe6; xa2; xaf; x0a; xe6;
  xb1; x80; x0a; xe7; xa2; x87; x0a; xe7;
  xa6; x8e; x0a; xe7; xa8; x8b; x0a; xe7;
  xb7; xa0; x0a; xe8; x89; x87; x0a; xe8;
  xa8; x82; x0a; xe8; xab; xa6; x0a; xe8;
  xb9; x84; x0a; xe9; x80; x93; x0a; xe9;
  x82; xb8; x0a; xe9; x84; xad; x0a; xe9;
  x87; x98; x0a; xe9; xbc; x8e; x0a; xe6;
  xb3; xa5; x0a; xe6; x91; x98; x0a; xe6;
  x93; xa2; x0a; xe6; x95; xb5; x0a; xe6;
  xbb; xb4; x0a; xe7; x9a; x84; x0a; xe7;
  xac; x9b; x0a; xe9; x81; xa9; x0a; xe9;
  x8f; x91; x0a; xe6; xba; xba; x0a; xe5;
  x93; xb2; x0a; xe5; xbe; xb9; x0a; xe6;
  x92; xa4; x0a; xe8; xbd; x8d; x0a; xe8
].
(* tests/test_data/whatwg/shiftjis_whatwg_test_encode_in.txt, entries 10496..10751 *)
Definition shiftjis_encode_in_41 : list byte := [
  xbf; xad; x0a; xe9; x89; x84; x0a; xe5;
  x85; xb8; x0a; xe5; xa1; xab; x0a; xe5;
  xa4; xa9; x0a; xe5; xb1; x95; x0a; xe5;
  xba; x97; x0a; xe6; xb7; xbb; x0a; xe7;
  xba; x8f; x0a; xe7; x94; x9c; x0a; xe8;
  xb2; xbc; x0a; xe8; xbb; xa2; x0a; xe9;
  xa1; x9b; x0a; xe7; x82; xb9; x0a; xe4;
  xbc; x9d; x0a; xe6; xae; xbf; x0a; xe6;
  xbe; xb1; x0a; xe7; x94; xb0; x0a; xe9;
  x9b; xbb; x0a; xe5; x85; x8e; x0a; xe5;
  x90; x90; x0a; xe5; xa0; xb5; x0a; xe5;
  xa1; x97; x0a; xe5; xa6; xac; x0a; xe5;
  xb1; xa0; x0a; xe5; xbe; x92; x0a; xe6;
  x96; x97; x0a; xe6; x9d; x9c; x0a; xe6;
  xb8; xa1; x0a; xe7; x99; xbb; x0a; xe8;
  x8f; x9f; x0a; xe8; xb3; xad; x0a; xe9;
  x80; x94; x0a; xe9; x83; xbd; x0a; xe9;
  x8d; x8d; x0a; xe7; xa0; xa5; x0a; xe7;
  xa0; xba; x0a; xe5; x8a; xaa; x0a; xe5;
  xba; xa6; x0a; xe5; x9c; x9f; x0a; xe5;
  xa5; xb4; x0a; xe6; x80; x92; x0a; xe5;
  x80; x92; x0a; xe5; x85; x9a; x0a; xe5;
  x86; xac; x0a; xe5; x87; x8d; x0a; xe5;
  x88; x80; x0a; xe5; x94; x90; x0a; xe5;
  xa1; x94; x0a; xe5; xa1; x98; x0a; xe5;
  xa5; x97; x0a; xe5; xae; x95; x0a; xe5;
  xb3; xb6; x0a; xe5; xb6; x8b; x0a; xe6;
  x82; xbc; x0a; xe6; x8a; x95; x0a; xe6;
  x90; xad; x0a; xe6; x9d; xb1; x0a; xe6;
  xa1; x83; x0a; xe6; xa2; xbc; x0a; xe6;
  xa3; x9f; x0a; xe7; x9b; x97; x0a; xe6;
  xb7; x98; x0a; xe6; xb9; xaf; x0a; xe6
].
(* tests/test_data/whatwg/shiftjis_whatwg_test_encode_in.txt, entries 10752..11007 *)
Definition shiftjis_encode_in_42 : list byte := [
  xb6; x9b; x0a; xe7; x81; xaf; x0a; xe7;
  x87; x88; x0a; xe5; xbd; x93; x0a; xe7;
  x97; x98; x0a; xe7; xa5; xb7; x0a; xe7;
  xad; x89; x0a; xe7; xad; x94; x0a; xe7;
  xad; x92; x0a; xe7; xb3; x96; x0a; xe7;
  xb5; xb1; x0a; xe5; x88; xb0; x0a; xe8;
  x91; xa3; x0a; xe8; x95; xa9; x0a; xe8;
  x97; xa4; x0a; xe8; xa8; x8e; x0a; xe8;
  xac; x84; x0a; xe8; xb1; x86; x0a; xe8;
  xb8; x8f; x0a; xe9; x80; x83; x0a; xe9;
  x80; x8f; x0a; xe9; x90; x99; x0a; xe9;
  x99; xb6; x0a; xe9; xa0; xad; x0a; xe9;
  xa8; xb0; x0a; xe9; x97; x98; x0a; xe5;
  x83; x8d; x0a; xe5; x8b; x95; x0a; xe5;
  x90; x8c; x0a; xe5; xa0; x82; x0a; xe5;
  xb0; x8e; x0a; xe6; x86; xa7; x0a; xe6;
  x92; x9e; x0a; xe6; xb4; x9e; x0a; xe7;
  x9e; xb3; x0a; xe7; xab; xa5; x0a; xe8;
  x83; xb4; x0a; xe8; x90; x84; x0a; xe9;
  x81; x93; x0a; xe9; x8a; x85; x0a; xe5;
  xb3; xa0; x0a; xe9; xb4; x87; x0a; xe5;
  x8c; xbf; x0a; xe5; xbe; x97; x0a; xe5;
  xbe; xb3; x0a; xe6; xb6; x9c; x0a; xe7;
  x89; xb9; x0a; xe7; x9d; xa3; x0a; xe7;
  xa6; xbf; x0a; xe7; xaf; xa4; x0a; xe6;
  xaf; x92; x0a; xe7; x8b; xac; x0a; xe8;
  xaa; xad; x0a; xe6; xa0; x83; x0a; xe6;
  xa9; xa1; x0a; xe5; x87; xb8; x0a; xe7;
  xaa; x81; x0a; xe6; xa4; xb4; x0a; xe5;
  xb1; x8a; x0a; xe9; xb3; xb6; x0a; xe8;
  x8b; xab; x0a; xe5; xaf; x85; x0a; xe9;
  x85; x89; x0a; xe7; x80; x9e; x0a; xe5
].
(* tests/test_data/whatwg/shiftjis_whatwg_test_encode_in.txt, entries 11008..11263 *)
Definition shiftjis_encode_in_43 : list byte := [
  x99; xb8; x0a; xe5; xb1; xaf; x0a; xe6;
  x83; x87; x0a; xe6; x95; xa6; x0a; xe6;
  xb2; x8c; x0a; xe8; xb1; x9a; x0a; xe9;
  x81; x81; x0a; xe9; xa0; x93; x0a; xe5;
  x91; x91; x0a; xe6; x9b; x87; x0a; xe9;
  x88; x8d; x0a; xe5; xa5; x88; x0a; xe9;
  x82; xa3; x0a; xe5; x86; x85; x0a; xe4;
  xb9; x8d; x0a; xe5; x87; xaa; x0a; xe8;
  x96; x99; x0a; xe8; xac; x8e; x0a; xe7;
  x81; x98; x0a; xe6; x8d; xba; x0a; xe9;
  x8d; x8b; x0a; xe6; xa5; xa2; x0a; xe9;
  xa6; xb4; x0a; xe7; xb8; x84; x0a; xe7;
  x95; xb7; x0a; xe5; x8d; x97; x0a; xe6;
  xa5; xa0; x0a; xe8; xbb; x9f; x0a; xe9;
  x9b; xa3; x0a; xe6; xb1; x9d; x0a; xe4;
  xba; x8c; x0a; xe5; xb0; xbc; x0a; xe5;
  xbc; x90; x0a; xe8; xbf; xa9; x0a; xe5;
  x8c; x82; x0a; xe8; xb3; x91; x0a; xe8;
  x82; x89; x0a; xe8; x99; xb9; x0a; xe5;
  xbb; xbf; x0a; xe6; x97; xa5; x0a; xe4;
  xb9; xb3; x0a; xe5; x85; xa5; x0a; xe5;
  xa6; x82; x0a; xe5; xb0; xbf; x0a; xe9;
  x9f; xae; x0a; xe4; xbb; xbb; x0a; xe5;
  xa6; x8a; x0a; xe5; xbf; x8d; x0a; xe8;
  xaa; x8d; x0a; xe6; xbf; xa1; x0a; xe7;
  xa6; xb0; x0a; xe7; xa5; xa2; x0a; xe5;
  xaf; xa7; x0a; xe8; x91; xb1; x0a; xe7;
  x8c; xab; x0a; xe7; x86; xb1; x0a; xe5;
  xb9; xb4; x0a; xe5; xbf; xb5; x0a; xe6;
  x8d; xbb; x0a; xe6; x92; x9a; x0a; xe7;
  x87; x83; x0a; xe7; xb2; x98; x0a; xe4;
  xb9; x83; x0a; xe5; xbb; xbc; x0a; xe4
].
(* tests/test_data/whatwg/shiftjis_whatwg_test_encode_in.txt, entries 11264..11519 *)
Definition shiftjis_encode_in_44 : list byte := [
  xb9; x8b; x0a; xe5; x9f; x9c; x0a; xe5;
  x9a; xa2; x0a; xe6; x82; xa9; x0a; xe6;
  xbf; x83; x0a; xe7; xb4; x8d; x0a; xe8;
  x83; xbd; x0a; xe8; x84; xb3; x0a; xe8;
  x86; xbf; x0a; xe8; xbe; xb2; x0a; xe8;
  xa6; x97; x0a; xe8; x9a; xa4; x0a; xe5;
  xb7; xb4; x0a; xe6; x8a; x8a; x0a; xe6;
  x92; xad; x0a; xe8; xa6; x87; x0a; xe6;
  x9d; xb7; x0a; xe6; xb3; xa2; x0a; xe6;
  xb4; xbe; x0a; xe7; x90; xb6; x0a; xe7;
  xa0; xb4; x0a; xe5; xa9; x86; x0a; xe7;
  xbd; xb5; x0a; xe8; x8a; xad; x0a; xe9;
  xa6; xac; x0a; xe4; xbf; xb3; x0a; xe5;
  xbb; x83; x0a; xe6; x8b; x9d; x0a; xe6;
  x8e; x92; x0a; xe6; x95; x97; x0a; xe6;
  x9d; xaf; x0a; xe7; x9b; x83; x0a; xe7;
  x89; x8c; x0a; xe8; x83; x8c; x0a; xe8;
  x82; xba; x0a; xe8; xbc; xa9; x0a; xe9;
  x85; x8d; x0a; xe5; x80; x8d; x0a; xe5;
  x9f; xb9; x0a; xe5; xaa; x92; x0a; xe6;
  xa2; x85; x0a; xe6; xa5; xb3; x0a; xe7;
  x85; xa4; x0a; xe7; x8b; xbd; x0a; xe8;
  xb2; xb7; x0a; xe5; xa3; xb2; x0a; xe8;
  xb3; xa0; x0a; xe9; x99; xaa; x0a; xe9;
  x80; x99; x0a; xe8; x9d; xbf; x0a; xe7;
  xa7; xa4; x0a; xe7; x9f; xa7; x0a; xe8;
  x90; xa9; x0a; xe4; xbc; xaf; x0a; xe5;
  x89; xa5; x0a; xe5; x8d; x9a; x0a; xe6;
  x8b; x8d; x0a; xe6; x9f; x8f; x0a; xe6;
  xb3; x8a; x0a; xe7; x99; xbd; x0a; xe7;
  xae; x94; x0a; xe7; xb2; x95; x0a; xe8;
  x88; xb6; x0a; xe8; x96; x84; x0a; xe8
].
(* tests/test_data/whatwg/shiftjis_whatwg_test_encode_in.txt, entries 11520..11775 *)
Definition shiftjis_encode_in_45 : list byte := [
  xbf; xab; x0a; xe6; x9b; x9d; x0a; xe6;
  xbc; xa0; x0a; xe7; x88; x86; x0a; xe7;
  xb8; x9b; x0a; xe8; x8e; xab; x0a; xe9;
  xa7; x81; x0a; xe9; xba; xa6; x0a; xe5;
  x87; xbd; x0a; xe7; xae; xb1; x0a; xe7;
  xa1; xb2; x0a; xe7; xae; xb8; x0a; xe8;
  x82; x87; x0a; xe7; xad; x88; x0a; xe6;
  xab; xa8; x0a; xe5; xb9; xa1; x0a; xe8;
  x82; x8c; x0a; xe7; x95; x91; x0a; xe7;
  x95; xa0; x0a; xe5; x85; xab; x0a; xe9;
  x89; xa2; x0a; xe6; xba; x8c; x0a; xe7;
  x99; xba; x0a; xe9; x86; x97; x0a; xe9;
  xab; xaa; x0a; xe4; xbc; x90; x0a; xe7;
  xbd; xb0; x0a; xe6; x8a; x9c; x0a; xe7;
  xad; x8f; x0a; xe9; x96; xa5; x0a; xe9;
  xb3; xa9; x0a; xe5; x99; xba; x0a; xe5;
  xa1; x99; x0a; xe8; x9b; xa4; x0a; xe9;
  x9a; xbc; x0a; xe4; xbc; xb4; x0a; xe5;
  x88; xa4; x0a; xe5; x8d; x8a; x0a; xe5;
  x8f; x8d; x0a; xe5; x8f; x9b; x0a; xe5;
  xb8; x86; x0a; xe6; x90; xac; x0a; xe6;
  x96; x91; x0a; xe6; x9d; xbf; x0a; xe6;
  xb0; xbe; x0a; xe6; xb1; x8e; x0a; xe7;
  x89; x88; x0a; xe7; x8a; xaf; x0a; xe7;
  x8f; xad; x0a; xe7; x95; x94; x0a; xe7;
  xb9; x81; x0a; xe8; x88; xac; x0a; xe8;
  x97; xa9; x0a; xe8; xb2; xa9; x0a; xe7;
  xaf; x84; x0a; xe9; x87; x86; x0a; xe7;
  x85; xa9; x0a; xe9; xa0; x92; x0a; xe9;
  xa3; xaf; x0a; xe6; x8c; xbd; x0a; xe6;
  x99; xa9; x0a; xe7; x95; xaa; x0a; xe7;
  x9b; xa4; x0a; xe7; xa3; x90; x0a; xe8
].
(* tests/test_data/whatwg/shiftjis_whatwg_test_encode_in.txt, entries 11776..12031 *)
Definition shiftjis_encode_in_46 : list byte := [
  x95; x83; x0a; xe8; x9b; xae; x0a; xe5;
  x8c; xaa; x0a; xe5; x8d; x91; x0a; xe5;
  x90; xa6; x0a; xe5; xa6; x83; x0a; xe5;
  xba; x87; x0a; xe5; xbd; xbc; x0a; xe6;
  x82; xb2; x0a; xe6; x89; x89; x0a; xe6;
  x89; xb9; x0a; xe6; x8a; xab; x0a; xe6;
  x96; x90; x0a; xe6; xaf; x94; x0a; xe6;
  xb3; x8c; x0a; xe7; x96; xb2; x0a; xe7;
  x9a; xae; x0a; xe7; xa2; x91; x0a; xe7;
  xa7; x98; x0a; xe7; xb7; x8b; x0a; xe7;
  xbd; xb7; x0a; xe8; x82; xa5; x0a; xe8;
  xa2; xab; x0a; xe8; xaa; xb9; x0a; xe8;
  xb2; xbb; x0a; xe9; x81; xbf; x0a; xe9;
  x9d; x9e; x0a; xe9; xa3; x9b; x0a; xe6;
  xa8; x8b; x0a; xe7; xb0; xb8; x0a; xe5;
  x82; x99; x0a; xe5; xb0; xbe; x0a; xe5;
  xbe; xae; x0a; xe6; x9e; x87; x0a; xe6;
  xaf; x98; x0a; xe7; x90; xb5; x0a; xe7;
  x9c; x89; x0a; xe7; xbe; x8e; x0a; xe9;
  xbc; xbb; x0a; xe6; x9f; x8a; x0a; xe7;
  xa8; x97; x0a; xe5; x8c; xb9; x0a; xe7;
  x96; x8b; x0a; xe9; xab; xad; x0a; xe5;
  xbd; xa6; x0a; xe8; x86; x9d; x0a; xe8;
  x8f; xb1; x0a; xe8; x82; x98; x0a; xe5;
  xbc; xbc; x0a; xe5; xbf; x85; x0a; xe7;
  x95; xa2; x0a; xe7; xad; x86; x0a; xe9;
  x80; xbc; x0a; xe6; xa1; xa7; x0a; xe5;
  xa7; xab; x0a; xe5; xaa; x9b; x0a; xe7;
  xb4; x90; x0a; xe7; x99; xbe; x0a; xe8;
  xac; xac; x0a; xe4; xbf; xb5; x0a; xe5;
  xbd; xaa; x0a; xe6; xa8; x99; x0a; xe6;
  xb0; xb7; x0a; xe6; xbc; x82; x0a; xe7
].
(* tests/test_data/whatwg/shiftjis_whatwg_test_encode_in.txt, entries 12032..12287 *)
Definition shiftjis_encode_in_47 : list byte := [
  x93; xa2; x0a; xe7; xa5; xa8; x0a; xe8;
  xa1; xa8; x0a; xe8; xa9; x95; x0a; xe8;
  xb1; xb9; x0a; xe5; xbb; x9f; x0a; xe6;
  x8f; x8f; x0a; xe7; x97; x85; x0a; xe7;
  xa7; x92; x0a; xe8; x8b; x97; x0a; xe9;
  x8c; xa8; x0a; xe9; x8b; xb2; x0a; xe8;
  x92; x9c; x0a; xe8; x9b; xad; x0a; xe9;
  xb0; xad; x0a; xe5; x93; x81; x0a; xe5;
  xbd; xac; x0a; xe6; x96; x8c; x0a; xe6;
  xb5; x9c; x0a; xe7; x80; x95; x0a; xe8;
  xb2; xa7; x0a; xe8; xb3; x93; x0a; xe9;
  xa0; xbb; x0a; xe6; x95; x8f; x0a; xe7;
  x93; xb6; x0a; xe4; xb8; x8d; x0a; xe4;
  xbb; x98; x0a; xe5; x9f; xa0; x0a; xe5;
  xa4; xab; x0a; xe5; xa9; xa6; x0a; xe5;
  xaf; x8c; x0a; xe5; x86; xa8; x0a; xe5;
  xb8; x83; x0a; xe5; xba; x9c; x0a; xe6;
  x80; x96; x0a; xe6; x89; xb6; x0a; xe6;
  x95; xb7; x0a; xe6; x96; xa7; x0a; xe6;
  x99; xae; x0a; xe6; xb5; xae; x0a; xe7;
  x88; xb6; x0a; xe7; xac; xa6; x0a; xe8;
  x85; x90; x0a; xe8; x86; x9a; x0a; xe8;
  x8a; x99; x0a; xe8; xad; x9c; x0a; xe8;
  xb2; xa0; x0a; xe8; xb3; xa6; x0a; xe8;
  xb5; xb4; x0a; xe9; x98; x9c; x0a; xe9;
  x99; x84; x0a; xe4; xbe; xae; x0a; xe6;
  x92; xab; x0a; xe6; xad; xa6; x0a; xe8;
  x88; x9e; x0a; xe8; x91; xa1; x0a; xe8;
  x95; xaa; x0a; xe9; x83; xa8; x0a; xe5;
  xb0; x81; x0a; xe6; xa5; x93; x0a; xe9;
  xa2; xa8; x0a; xe8; x91; xba; x0a; xe8;
  x95; x97; x0a; xe4; xbc; x8f; x0a; xe5
].
(* tests/test_data/whatwg/shiftjis_whatwg_test_encode_in.txt, entries 12288..12543 *)
Definition shiftjis_encode_in_48 : list byte := [
  x89; xaf; x0a; xe5; xbe; xa9; x0a; xe5;
  xb9; x85; x0a; xe6; x9c; x8d; x0a; xe7;
  xa6; x8f; x0a; xe8; x85; xb9; x0a; xe8;
  xa4; x87; x0a; xe8; xa6; x86; x0a; xe6;
  xb7; xb5; x0a; xe5; xbc; x97; x0a; xe6;
  x89; x95; x0a; xe6; xb2; xb8; x0a; xe4;
  xbb; x8f; x0a; xe7; x89; xa9; x0a; xe9;
  xae; x92; x0a; xe5; x88; x86; x0a; xe5;
  x90; xbb; x0a; xe5; x99; xb4; x0a; xe5;
  xa2; xb3; x0a; xe6; x86; xa4; x0a; xe6;
  x89; xae; x0a; xe7; x84; x9a; x0a; xe5;
  xa5; xae; x0a; xe7; xb2; x89; x0a; xe7;
  xb3; x9e; x0a; xe7; xb4; x9b; x0a; xe9;
  x9b; xb0; x0a; xe6; x96; x87; x0a; xe8;
  x81; x9e; x0a; xe4; xb8; x99; x0a; xe4;
  xbd; xb5; x0a; xe5; x85; xb5; x0a; xe5;
  xa1; x80; x0a; xe5; xb9; xa3; x0a; xe5;
  xb9; xb3; x0a; xe5; xbc; x8a; x0a; xe6;
  x9f; x84; x0a; xe4; xb8; xa6; x0a; xe8;
  x94; xbd; x0a; xe9; x96; x89; x0a; xe9;
  x99; x9b; x0a; xe7; xb1; xb3; x0a; xe9;
  xa0; x81; x0a; xe5; x83; xbb; x0a; xe5;
  xa3; x81; x0a; xe7; x99; x96; x0a; xe7;
  xa2; xa7; x0a; xe5; x88; xa5; x0a; xe7;
  x9e; xa5; x0a; xe8; x94; x91; x0a; xe7;
  xae; x86; x0a; xe5; x81; x8f; x0a; xe5;
  xa4; x89; x0a; xe7; x89; x87; x0a; xe7;
  xaf; x87; x0a; xe7; xb7; xa8; x0a; xe8;
  xbe; xba; x0a; xe8; xbf; x94; x0a; xe9;
  x81; x8d; x0a; xe4; xbe; xbf; x0a; xe5;
  x8b; x89; x0a; xe5; xa8; xa9; x0a; xe5;
  xbc; x81; x0a; xe9; x9e; xad; x0a; xe4
].
(* tests/test_data/whatwg/shiftjis_whatwg_test_encode_in.txt, entries 12544..12799 *)
Definition shiftjis_encode_in_49 : list byte := [
  xbf; x9d; x0a; xe8; x88; x97; x0a; xe9;
  x8b; xaa; x0a; xe5; x9c; x83; x0a; xe6;
  x8d; x95; x0a; xe6; xad; xa9; x0a; xe7;
  x94; xab; x0a; xe8; xa3; x9c; x0a; xe8;
  xbc; x94; x0a; xe7; xa9; x82; x0a; xe5;
  x8b; x9f; x0a; xe5; xa2; x93; x0a; xe6;
  x85; x95; x0a; xe6; x88; x8a; x0a; xe6;
  x9a; xae; x0a; xe6; xaf; x8d; x0a; xe7;
  xb0; xbf; x0a; xe8; x8f; xa9; x0a; xe5;
  x80; xa3; x0a; xe4; xbf; xb8; x0a; xe5;
  x8c; x85; x0a; xe5; x91; x86; x0a; xe5;
  xa0; xb1; x0a; xe5; xa5; x89; x0a; xe5;
  xae; x9d; x0a; xe5; xb3; xb0; x0a; xe5;
  xb3; xaf; x0a; xe5; xb4; xa9; x0a; xe5;
  xba; x96; x0a; xe6; x8a; xb1; x0a; xe6;
  x8d; xa7; x0a; xe6; x94; xbe; x0a; xe6;
  x96; xb9; x0a; xe6; x9c; x8b; x0a; xe6;
  xb3; x95; x0a; xe6; xb3; xa1; x0a; xe7;
  x83; xb9; x0a; xe7; xa0; xb2; x0a; xe7;
  xb8; xab; x0a; xe8; x83; x9e; x0a; xe8;
  x8a; xb3; x0a; xe8; x90; x8c; x0a; xe8;
  x93; xac; x0a; xe8; x9c; x82; x0a; xe8;
  xa4; x92; x0a; xe8; xa8; xaa; x0a; xe8;
  xb1; x8a; x0a; xe9; x82; xa6; x0a; xe9;
  x8b; x92; x0a; xe9; xa3; xbd; x0a; xe9;
  xb3; xb3; x0a; xe9; xb5; xac; x0a; xe4;
  xb9; x8f; x0a; xe4; xba; xa1; x0a; xe5;
  x82; x8d; x0a; xe5; x89; x96; x0a; xe5;
  x9d; x8a; x0a; xe5; xa6; xa8; x0a; xe5;
  xb8; xbd; x0a; xe5; xbf; x98; x0a; xe5;
  xbf; x99; x0a; xe6; x88; xbf; x0a; xe6;
  x9a; xb4; x0a; xe6; x9c; x9b; x0a; xe6
].
(* tests/test_data/whatwg/shiftjis_whatwg_test_encode_in.txt, entries 12800..13055 *)
Definition shiftjis_encode_in_50 : list byte := [
  x9f; x90; x0a; xe6; xa3; x92; x0a; xe5;
  x86; x92; x0a; xe7; xb4; xa1; x0a; xe8;
  x82; xaa; x0a; xe8; x86; xa8; x0a; xe8;
  xac; x80; x0a; xe8; xb2; x8c; x0a; xe8;
  xb2; xbf; x0a; xe9; x89; xbe; x0a; xe9;
  x98; xb2; x0a; xe5; x90; xa0; x0a; xe9;
  xa0; xac; x0a; xe5; x8c; x97; x0a; xe5;
  x83; x95; x0a; xe5; x8d; x9c; x0a; xe5;
  xa2; xa8; x0a; xe6; x92; xb2; x0a; xe6;
  x9c; xb4; x0a; xe7; x89; xa7; x0a; xe7;
  x9d; xa6; x0a; xe7; xa9; x86; x0a; xe9;
  x87; xa6; x0a; xe5; x8b; x83; x0a; xe6;
  xb2; xa1; x0a; xe6; xae; x86; x0a; xe5;
  xa0; x80; x0a; xe5; xb9; x8c; x0a; xe5;
  xa5; x94; x0a; xe6; x9c; xac; x0a; xe7;
  xbf; xbb; x0a; xe5; x87; xa1; x0a; xe7;
  x9b; x86; x0a; xe6; x91; xa9; x0a; xe7;
  xa3; xa8; x0a; xe9; xad; x94; x0a; xe9;
  xba; xbb; x0a; xe5; x9f; x8b; x0a; xe5;
  xa6; xb9; x0a; xe6; x98; xa7; x0a; xe6;
  x9e; x9a; x0a; xe6; xaf; x8e; x0a; xe5;
  x93; xa9; x0a; xe6; xa7; x99; x0a; xe5;
  xb9; x95; x0a; xe8; x86; x9c; x0a; xe6;
  x9e; x95; x0a; xe9; xae; xaa; x0a; xe6;
  x9f; xbe; x0a; xe9; xb1; x92; x0a; xe6;
  xa1; x9d; x0a; xe4; xba; xa6; x0a; xe4;
  xbf; xa3; x0a; xe5; x8f; x88; x0a; xe6;
  x8a; xb9; x0a; xe6; x9c; xab; x0a; xe6;
  xb2; xab; x0a; xe8; xbf; x84; x0a; xe4;
  xbe; xad; x0a; xe7; xb9; xad; x0a; xe9;
  xba; xbf; x0a; xe4; xb8; x87; x0a; xe6;
  x85; xa2; x0a; xe6; xba; x80; x0a; xe6
].
(* tests/test_data/whatwg/shiftjis_whatwg_test_encode_in.txt, entries 13056..13311 *)
Definition shiftjis_encode_in_51 : list byte := [
  xbc; xab; x0a; xe8; x94; x93; x0a; xe5;
  x91; xb3; x0a; xe6; x9c; xaa; x0a; xe9;
  xad; x85; x0a; xe5; xb7; xb3; x0a; xe7;
  xae; x95; x0a; xe5; xb2; xac; x0a; xe5;
  xaf; x86; x0a; xe8; x9c; x9c; x0a; xe6;
  xb9; x8a; x0a; xe8; x93; x91; x0a; xe7;
  xa8; x94; x0a; xe8; x84; x88; x0a; xe5;
  xa6; x99; x0a; xe7; xb2; x8d; x0a; xe6;
  xb0; x91; x0a; xe7; x9c; xa0; x0a; xe5;
  x8b; x99; x0a; xe5; xa4; xa2; x0a; xe7;
  x84; xa1; x0a; xe7; x89; x9f; x0a; xe7;
  x9f; x9b; x0a; xe9; x9c; xa7; x0a; xe9;
  xb5; xa1; x0a; xe6; xa4; x8b; x0a; xe5;
  xa9; xbf; x0a; xe5; xa8; x98; x0a; xe5;
  x86; xa5; x0a; xe5; x90; x8d; x0a; xe5;
  x91; xbd; x0a; xe6; x98; x8e; x0a; xe7;
  x9b; x9f; x0a; xe8; xbf; xb7; x0a; xe9;
  x8a; x98; x0a; xe9; xb3; xb4; x0a; xe5;
  xa7; xaa; x0a; xe7; x89; x9d; x0a; xe6;
  xbb; x85; x0a; xe5; x85; x8d; x0a; xe6;
  xa3; x89; x0a; xe7; xb6; xbf; x0a; xe7;
  xb7; xac; x0a; xe9; x9d; xa2; x0a; xe9;
  xba; xba; x0a; xe6; x91; xb8; x0a; xe6;
  xa8; xa1; x0a; xe8; x8c; x82; x0a; xe5;
  xa6; x84; x0a; xe5; xad; x9f; x0a; xe6;
  xaf; x9b; x0a; xe7; x8c; x9b; x0a; xe7;
  x9b; xb2; x0a; xe7; xb6; xb2; x0a; xe8;
  x80; x97; x0a; xe8; x92; x99; x0a; xe5;
  x84; xb2; x0a; xe6; x9c; xa8; x0a; xe9;
  xbb; x99; x0a; xe7; x9b; xae; x0a; xe6;
  x9d; xa2; x0a; xe5; x8b; xbf; x0a; xe9;
  xa4; x85; x0a; xe5; xb0; xa4; x0a; xe6
].
(* tests/test_data/whatwg/shiftjis_whatwg_test_encode_in.txt, entries 13312..13567 *)
Definition shiftjis_encode_in_52 : list byte := [
  x88; xbb; x0a; xe7; xb1; xbe; x0a; xe8;
  xb2; xb0; x0a; xe5; x95; x8f; x0a; xe6;
  x82; xb6; x0a; xe7; xb4; x8b; x0a; xe9;
  x96; x80; x0a; xe5; x8c; x81; x0a; xe4;
  xb9; x9f; x0a; xe5; x86; xb6; x0a; xe5;
  xa4; x9c; x0a; xe7; x88; xba; x0a; xe8;
  x80; xb6; x0a; xe9; x87; x8e; x0a; xe5;
  xbc; xa5; x0a; xe7; x9f; xa2; x0a; xe5;
  x8e; x84; x0a; xe5; xbd; xb9; x0a; xe7;
  xb4; x84; x0a; xe8; x96; xac; x0a; xe8;
  xa8; xb3; x0a; xe8; xba; x8d; x0a; xe9;
  x9d; x96; x0a; xe6; x9f; xb3; x0a; xe8;
  x96; xae; x0a; xe9; x91; x93; x0a; xe6;
  x84; x89; x0a; xe6; x84; x88; x0a; xe6;
  xb2; xb9; x0a; xe7; x99; x92; x0a; xe8;
  xab; xad; x0a; xe8; xbc; xb8; x0a; xe5;
  x94; xaf; x0a; xe4; xbd; x91; x0a; xe5;
  x84; xaa; x0a; xe5; x8b; x87; x0a; xe5;
  x8f; x8b; x0a; xe5; xae; xa5; x0a; xe5;
  xb9; xbd; x0a; xe6; x82; xa0; x0a; xe6;
  x86; x82; x0a; xe6; x8f; x96; x0a; xe6;
  x9c; x89; x0a; xe6; x9f; x9a; x0a; xe6;
  xb9; xa7; x0a; xe6; xb6; x8c; x0a; xe7;
  x8c; xb6; x0a; xe7; x8c; xb7; x0a; xe7;
  x94; xb1; x0a; xe7; xa5; x90; x0a; xe8;
  xa3; x95; x0a; xe8; xaa; x98; x0a; xe9;
  x81; x8a; x0a; xe9; x82; x91; x0a; xe9;
  x83; xb5; x0a; xe9; x9b; x84; x0a; xe8;
  x9e; x8d; x0a; xe5; xa4; x95; x0a; xe4;
  xba; x88; x0a; xe4; xbd; x99; x0a; xe4;
  xb8; x8e; x0a; xe8; xaa; x89; x0a; xe8;
  xbc; xbf; x0a; xe9; xa0; x90; x0a; xe5
].
(* tests/test_data/whatwg/shiftjis_whatwg_test_encode_in.txt, entries 13568..13823 *)
Definition shiftjis_encode_in_53 : list byte := [
  x82; xad; x0a; xe5; xb9; xbc; x0a; xe5;
  xa6; x96; x0a; xe5; xae; xb9; x0a; xe5;
  xba; xb8; x0a; xe6; x8f; x9a; x0a; xe6;
  x8f; xba; x0a; xe6; x93; x81; x0a; xe6;
  x9b; x9c; x0a; xe6; xa5; x8a; x0a; xe6;
  xa7; x98; x0a; xe6; xb4; x8b; x0a; xe6;
  xba; xb6; x0a; xe7; x86; x94; x0a; xe7;
  x94; xa8; x0a; xe7; xaa; xaf; x0a; xe7;
  xbe; x8a; x0a; xe8; x80; x80; x0a; xe8;
  x91; x89; x0a; xe8; x93; x89; x0a; xe8;
  xa6; x81; x0a; xe8; xac; xa1; x0a; xe8;
  xb8; x8a; x0a; xe9; x81; xa5; x0a; xe9;
  x99; xbd; x0a; xe9; xa4; x8a; x0a; xe6;
  x85; xbe; x0a; xe6; x8a; x91; x0a; xe6;
  xac; xb2; x0a; xe6; xb2; x83; x0a; xe6;
  xb5; xb4; x0a; xe7; xbf; x8c; x0a; xe7;
  xbf; xbc; x0a; xe6; xb7; x80; x0a; xe7;
  xbe; x85; x0a; xe8; x9e; xba; x0a; xe8;
  xa3; xb8; x0a; xe6; x9d; xa5; x0a; xe8;
  x8e; xb1; x0a; xe9; xa0; xbc; x0a; xe9;
  x9b; xb7; x0a; xe6; xb4; x9b; x0a; xe7;
  xb5; xa1; x0a; xe8; x90; xbd; x0a; xe9;
  x85; xaa; x0a; xe4; xb9; xb1; x0a; xe5;
  x8d; xb5; x0a; xe5; xb5; x90; x0a; xe6;
  xac; x84; x0a; xe6; xbf; xab; x0a; xe8;
  x97; x8d; x0a; xe8; x98; xad; x0a; xe8;
  xa6; xa7; x0a; xe5; x88; xa9; x0a; xe5;
  x90; x8f; x0a; xe5; xb1; xa5; x0a; xe6;
  x9d; x8e; x0a; xe6; xa2; xa8; x0a; xe7;
  x90; x86; x0a; xe7; x92; x83; x0a; xe7;
  x97; xa2; x0a; xe8; xa3; x8f; x0a; xe8;
  xa3; xa1; x0a; xe9; x87; x8c; x0a; xe9
].
(* tests/test_data/whatwg/shiftjis_whatwg_test_encode_in.txt, entries 13824..14079 *)
Definition shiftjis_encode_in_54 : list byte := [
  x9b; xa2; x0a; xe9; x99; xb8; x0a; xe5;
  xbe; x8b; x0a; xe7; x8e; x87; x0a; xe7;
  xab; x8b; x0a; xe8; x91; x8e; x0a; xe6;
  x8e; xa0; x0a; xe7; x95; xa5; x0a; xe5;
  x8a; x89; x0a; xe6; xb5; x81; x0a; xe6;
  xba; x9c; x0a; xe7; x90; x89; x0a; xe7;
  x95; x99; x0a; xe7; xa1; xab; x0a; xe7;
  xb2; x92; x0a; xe9; x9a; x86; x0a; xe7;
  xab; x9c; x0a; xe9; xbe; x8d; x0a; xe4;
  xbe; xb6; x0a; xe6; x85; xae; x0a; xe6;
  x97; x85; x0a; xe8; x99; x9c; x0a; xe4;
  xba; x86; x0a; xe4; xba; xae; x0a; xe5;
  x83; x9a; x0a; xe4; xb8; xa1; x0a; xe5;
  x87; x8c; x0a; xe5; xaf; xae; x0a; xe6;
  x96; x99; x0a; xe6; xa2; x81; x0a; xe6;
  xb6; xbc; x0a; xe7; x8c; x9f; x0a; xe7;
  x99; x82; x0a; xe7; x9e; xad; x0a; xe7;
  xa8; x9c; x0a; xe7; xb3; xa7; x0a; xe8;
  x89; xaf; x0a; xe8; xab; x92; x0a; xe9;
  x81; xbc; x0a; xe9; x87; x8f; x0a; xe9;
  x99; xb5; x0a; xe9; xa0; x98; x0a; xe5;
  x8a; x9b; x0a; xe7; xb7; x91; x0a; xe5;
  x80; xab; x0a; xe5; x8e; x98; x0a; xe6;
  x9e; x97; x0a; xe6; xb7; x8b; x0a; xe7;
  x87; x90; x0a; xe7; x90; xb3; x0a; xe8;
  x87; xa8; x0a; xe8; xbc; xaa; x0a; xe9;
  x9a; xa3; x0a; xe9; xb1; x97; x0a; xe9;
  xba; x9f; x0a; xe7; x91; xa0; x0a; xe5;
  xa1; x81; x0a; xe6; xb6; x99; x0a; xe7;
  xb4; xaf; x0a; xe9; xa1; x9e; x0a; xe4;
  xbb; xa4; x0a; xe4; xbc; xb6; x0a; xe4;
  xbe; x8b; x0a; xe5; x86; xb7; x0a; xe5
].
(* tests/test_data/whatwg/shiftjis_whatwg_test_encode_in.txt, entries 14080..14335 *)
Definition shiftjis_encode_in_55 : list byte := [
  x8a; xb1; x0a; xe5; xb6; xba; x0a; xe6;
  x80; x9c; x0a; xe7; x8e; xb2; x0a; xe7;
  xa4; xbc; x0a; xe8; x8b; x93; x0a; xe9;
  x88; xb4; x0a; xe9; x9a; xb7; x0a; xe9;
  x9b; xb6; x0a; xe9; x9c; x8a; x0a; xe9;
  xba; x97; x0a; xe9; xbd; xa2; x0a; xe6;
  x9a; xa6; x0a; xe6; xad; xb4; x0a; xe5;
  x88; x97; x0a; xe5; x8a; xa3; x0a; xe7;
  x83; x88; x0a; xe8; xa3; x82; x0a; xe5;
  xbb; x89; x0a; xe6; x81; x8b; x0a; xe6;
  x86; x90; x0a; xe6; xbc; xa3; x0a; xe7;
  x85; x89; x0a; xe7; xb0; xbe; x0a; xe7;
  xb7; xb4; x0a; xe8; x81; xaf; x0a; xe8;
  x93; xae; x0a; xe9; x80; xa3; x0a; xe9;
  x8c; xac; x0a; xe5; x91; x82; x0a; xe9;
  xad; xaf; x0a; xe6; xab; x93; x0a; xe7;
  x82; x89; x0a; xe8; xb3; x82; x0a; xe8;
  xb7; xaf; x0a; xe9; x9c; xb2; x0a; xe5;
  x8a; xb4; x0a; xe5; xa9; x81; x0a; xe5;
  xbb; x8a; x0a; xe5; xbc; x84; x0a; xe6;
  x9c; x97; x0a; xe6; xa5; xbc; x0a; xe6;
  xa6; x94; x0a; xe6; xb5; xaa; x0a; xe6;
  xbc; x8f; x0a; xe7; x89; xa2; x0a; xe7;
  x8b; xbc; x0a; xe7; xaf; xad; x0a; xe8;
  x80; x81; x0a; xe8; x81; xbe; x0a; xe8;
  x9d; x8b; x0a; xe9; x83; x8e; x0a; xe5;
  x85; xad; x0a; xe9; xba; x93; x0a; xe7;
  xa6; x84; x0a; xe8; x82; x8b; x0a; xe9;
  x8c; xb2; x0a; xe8; xab; x96; x0a; xe5;
  x80; xad; x0a; xe5; x92; x8c; x0a; xe8;
  xa9; xb1; x0a; xe6; xad; xaa; x0a; xe8;
  xb3; x84; x0a; xe8; x84; x87; x0a; xe6
].
(* tests/test_data/whatwg/shiftjis_whatwg_test_encode_in.txt, entries 14336..14591 *)
Definition shiftjis_encode_in_56 : list byte := [
  x83; x91; x0a; xe6; x9e; xa0; x0a; xe9;
  xb7; xb2; x0a; xe4; xba; x99; x0a; xe4;
  xba; x98; x0a; xe9; xb0; x90; x0a; xe8;
  xa9; xab; x0a; xe8; x97; x81; x0a; xe8;
  x95; xa8; x0a; xe6; xa4; x80; x0a; xe6;
  xb9; xbe; x0a; xe7; xa2; x97; x0a; xe8;
  x85; x95; x0a; xe5; xbc; x8c; x0a; xe4;
  xb8; x90; x0a; xe4; xb8; x95; x0a; xe4;
  xb8; xaa; x0a; xe4; xb8; xb1; x0a; xe4;
  xb8; xb6; x0a; xe4; xb8; xbc; x0a; xe4;
  xb8; xbf; x0a; xe4; xb9; x82; x0a; xe4;
  xb9; x96; x0a; xe4; xb9; x98; x0a; xe4;
  xba; x82; x0a; xe4; xba; x85; x0a; xe8;
  xb1; xab; x0a; xe4; xba; x8a; x0a; xe8;
  x88; x92; x0a; xe5; xbc; x8d; x0a; xe4;
  xba; x8e; x0a; xe4; xba; x9e; x0a; xe4;
  xba; x9f; x0a; xe4; xba; xa0; x0a; xe4;
  xba; xa2; x0a; xe4; xba; xb0; x0a; xe4;
  xba; xb3; x0a; xe4; xba; xb6; x0a; xe4;
  xbb; x8e; x0a; xe4; xbb; x8d; x0a; xe4;
  xbb; x84; x0a; xe4; xbb; x86; x0a; xe4;
  xbb; x82; x0a; xe4; xbb; x97; x0a; xe4;
  xbb; x9e; x0a; xe4; xbb; xad; x0a; xe4;
  xbb; x9f; x0a; xe4; xbb; xb7; x0a; xe4;
  xbc; x89; x0a; xe4; xbd; x9a; x0a; xe4;
  xbc; xb0; x0a; xe4; xbd; x9b; x0a; xe4;
  xbd; x9d; x0a; xe4; xbd; x97; x0a; xe4;
  xbd; x87; x0a; xe4; xbd; xb6; x0a; xe4;
  xbe; x88; x0a; xe4; xbe; x8f; x0a; xe4;
  xbe; x98; x0a; xe4; xbd; xbb; x0a; xe4;
  xbd; xa9; x0a; xe4; xbd; xb0; x0a; xe4;
  xbe; x91; x0a; xe4; xbd; xaf; x0a; xe4
].
(* tests/test_data/whatwg/shiftjis_whatwg_test_encode_in.txt, entries 14592..14847 *)
Definition shiftjis_encode_in_57 : list byte := [
  xbe; x86; x0a; xe4; xbe; x96; x0a; xe5;
  x84; x98; x0a; xe4; xbf; x94; x0a; xe4;
  xbf; x9f; x0a; xe4; xbf; x8e; x0a; xe4;
  xbf; x98; x0a; xe4; xbf; x9b; x0a; xe4;
  xbf; x91; x0a; xe4; xbf; x9a; x0a; xe4;
  xbf; x90; x0a; xe4; xbf; xa4; x0a; xe4;
  xbf; xa5; x0a; xe5; x80; x9a; x0a; xe5;
  x80; xa8; x0a; xe5; x80; x94; x0a; xe5;
  x80; xaa; x0a; xe5; x80; xa5; x0a; xe5;
  x80; x85; x0a; xe4; xbc; x9c; x0a; xe4;
  xbf; xb6; x0a; xe5; x80; xa1; x0a; xe5;
  x80; xa9; x0a; xe5; x80; xac; x0a; xe4;
  xbf; xbe; x0a; xe4; xbf; xaf; x0a; xe5;
  x80; x91; x0a; xe5; x80; x86; x0a; xe5;
  x81; x83; x0a; xe5; x81; x87; x0a; xe6;
  x9c; x83; x0a; xe5; x81; x95; x0a; xe5;
  x81; x90; x0a; xe5; x81; x88; x0a; xe5;
  x81; x9a; x0a; xe5; x81; x96; x0a; xe5;
  x81; xac; x0a; xe5; x81; xb8; x0a; xe5;
  x82; x80; x0a; xe5; x82; x9a; x0a; xe5;
  x82; x85; x0a; xe5; x82; xb4; x0a; xe5;
  x82; xb2; x0a; xe5; x83; x89; x0a; xe5;
  x83; x8a; x0a; xe5; x82; xb3; x0a; xe5;
  x83; x82; x0a; xe5; x83; x96; x0a; xe5;
  x83; x9e; x0a; xe5; x83; xa5; x0a; xe5;
  x83; xad; x0a; xe5; x83; xa3; x0a; xe5;
  x83; xae; x0a; xe5; x83; xb9; x0a; xe5;
  x83; xb5; x0a; xe5; x84; x89; x0a; xe5;
  x84; x81; x0a; xe5; x84; x82; x0a; xe5;
  x84; x96; x0a; xe5; x84; x95; x0a; xe5;
  x84; x94; x0a; xe5; x84; x9a; x0a; xe5;
  x84; xa1; x0a; xe5; x84; xba; x0a; xe5
].
(* tests/test_data/whatwg/shiftjis_whatwg_test_encode_in.txt, entries 14848..15103 *)
Definition shiftjis_encode_in_58 : list byte := [
  x84; xb7; x0a; xe5; x84; xbc; x0a; xe5;
  x84; xbb; x0a; xe5; x84; xbf; x0a; xe5;
  x85; x80; x0a; xe5; x85; x92; x0a; xe5;
  x85; x8c; x0a; xe5; x85; x94; x0a; xe5;
  x85; xa2; x0a; xe7; xab; xb8; x0a; xe5;
  x85; xa9; x0a; xe5; x85; xaa; x0a; xe5;
  x85; xae; x0a; xe5; x86; x80; x0a; xe5;
  x86; x82; x0a; xe5; x9b; x98; x0a; xe5;
  x86; x8c; x0a; xe5; x86; x89; x0a; xe5;
  x86; x8f; x0a; xe5; x86; x91; x0a; xe5;
  x86; x93; x0a; xe5; x86; x95; x0a; xe5;
  x86; x96; x0a; xe5; x86; xa4; x0a; xe5;
  x86; xa6; x0a; xe5; x86; xa2; x0a; xe5;
  x86; xa9; x0a; xe5; x86; xaa; x0a; xe5;
  x86; xab; x0a; xe5; x86; xb3; x0a; xe5;
  x86; xb1; x0a; xe5; x86; xb2; x0a; xe5;
  x86; xb0; x0a; xe5; x86; xb5; x0a; xe5;
  x86; xbd; x0a; xe5; x87; x85; x0a; xe5;
  x87; x89; x0a; xe5; x87; x9b; x0a; xe5;
  x87; xa0; x0a; xe8; x99; x95; x0a; xe5;
  x87; xa9; x0a; xe5; x87; xad; x0a; xe5;
  x87; xb0; x0a; xe5; x87; xb5; x0a; xe5;
  x87; xbe; x0a; xe5; x88; x84; x0a; xe5;
  x88; x8b; x0a; xe5; x88; x94; x0a; xe5;
  x88; x8e; x0a; xe5; x88; xa7; x0a; xe5;
  x88; xaa; x0a; xe5; x88; xae; x0a; xe5;
  x88; xb3; x0a; xe5; x88; xb9; x0a; xe5;
  x89; x8f; x0a; xe5; x89; x84; x0a; xe5;
  x89; x8b; x0a; xe5; x89; x8c; x0a; xe5;
  x89; x9e; x0a; xe5; x89; x94; x0a; xe5;
  x89; xaa; x0a; xe5; x89; xb4; x0a; xe5;
  x89; xa9; x0a; xe5; x89; xb3; x0a; xe5
].
(* tests/test_data/whatwg/shiftjis_whatwg_test_encode_in.txt, entries 15104..15359 *)
Definition shiftjis_encode_in_59 : list byte := [
  x89; xbf; x0a; xe5; x89; xbd; x0a; xe5;
  x8a; x8d; x0a; xe5; x8a; x94; x0a; xe5;
  x8a; x92; x0a; xe5; x89; xb1; x0a; xe5;
  x8a; x88; x0a; xe5; x8a; x91; x0a; xe8;
  xbe; xa8; x0a; xe8; xbe; xa7; x0a; xe5;
  x8a; xac; x0a; xe5; x8a; xad; x0a; xe5;
  x8a; xbc; x0a; xe5; x8a; xb5; x0a; xe5;
  x8b; x81; x0a; xe5; x8b; x8d; x0a; xe5;
  x8b; x97; x0a; xe5; x8b; x9e; x0a; xe5;
  x8b; xa3; x0a; xe5; x8b; xa6; x0a; xe9;
  xa3; xad; x0a; xe5; x8b; xa0; x0a; xe5;
  x8b; xb3; x0a; xe5; x8b; xb5; x0a; xe5;
  x8b; xb8; x0a; xe5; x8b; xb9; x0a; xe5;
  x8c; x86; x0a; xe5; x8c; x88; x0a; xe7;
  x94; xb8; x0a; xe5; x8c; x8d; x0a; xe5;
  x8c; x90; x0a; xe5; x8c; x8f; x0a; xe5;
  x8c; x95; x0a; xe5; x8c; x9a; x0a; xe5;
  x8c; xa3; x0a; xe5; x8c; xaf; x0a; xe5;
  x8c; xb1; x0a; xe5; x8c; xb3; x0a; xe5;
  x8c; xb8; x0a; xe5; x8d; x80; x0a; xe5;
  x8d; x86; x0a; xe5; x8d; x85; x0a; xe4;
  xb8; x97; x0a; xe5; x8d; x89; x0a; xe5;
  x8d; x8d; x0a; xe5; x87; x96; x0a; xe5;
  x8d; x9e; x0a; xe5; x8d; xa9; x0a; xe5;
  x8d; xae; x0a; xe5; xa4; x98; x0a; xe5;
  x8d; xbb; x0a; xe5; x8d; xb7; x0a; xe5;
  x8e; x82; x0a; xe5; x8e; x96; x0a; xe5;
  x8e; xa0; x0a; xe5; x8e; xa6; x0a; xe5;
  x8e; xa5; x0a; xe5; x8e; xae; x0a; xe5;
  x8e; xb0; x0a; xe5; x8e; xb6; x0a; xe5;
  x8f; x83; x0a; xe7; xb0; x92; x0a; xe9;
  x9b; x99; x0a; xe5; x8f; x9f; x0a; xe6
].
(* tests/test_data/whatwg/shiftjis_whatwg_test_encode_in.txt, entries 15360..15615 *)
Definition shiftjis_encode_in_60 : list byte := [
  x9b; xbc; x0a; xe7; x87; xae; x0a; xe5;
  x8f; xae; x0a; xe5; x8f; xa8; x0a; xe5;
  x8f; xad; x0a; xe5; x8f; xba; x0a; xe5;
  x90; x81; x0a; xe5; x90; xbd; x0a; xe5;
  x91; x80; x0a; xe5; x90; xac; x0a; xe5;
  x90; xad; x0a; xe5; x90; xbc; x0a; xe5;
  x90; xae; x0a; xe5; x90; xb6; x0a; xe5;
  x90; xa9; x0a; xe5; x90; x9d; x0a; xe5;
  x91; x8e; x0a; xe5; x92; x8f; x0a; xe5;
  x91; xb5; x0a; xe5; x92; x8e; x0a; xe5;
  x91; x9f; x0a; xe5; x91; xb1; x0a; xe5;
  x91; xb7; x0a; xe5; x91; xb0; x0a; xe5;
  x92; x92; x0a; xe5; x91; xbb; x0a; xe5;
  x92; x80; x0a; xe5; x91; xb6; x0a; xe5;
  x92; x84; x0a; xe5; x92; x90; x0a; xe5;
  x92; x86; x0a; xe5; x93; x87; x0a; xe5;
  x92; xa2; x0a; xe5; x92; xb8; x0a; xe5;
  x92; xa5; x0a; xe5; x92; xac; x0a; xe5;
  x93; x84; x0a; xe5; x93; x88; x0a; xe5;
  x92; xa8; x0a; xe5; x92; xab; x0a; xe5;
  x93; x82; x0a; xe5; x92; xa4; x0a; xe5;
  x92; xbe; x0a; xe5; x92; xbc; x0a; xe5;
  x93; x98; x0a; xe5; x93; xa5; x0a; xe5;
  x93; xa6; x0a; xe5; x94; x8f; x0a; xe5;
  x94; x94; x0a; xe5; x93; xbd; x0a; xe5;
  x93; xae; x0a; xe5; x93; xad; x0a; xe5;
  x93; xba; x0a; xe5; x93; xa2; x0a; xe5;
  x94; xb9; x0a; xe5; x95; x80; x0a; xe5;
  x95; xa3; x0a; xe5; x95; x8c; x0a; xe5;
  x94; xae; x0a; xe5; x95; x9c; x0a; xe5;
  x95; x85; x0a; xe5; x95; x96; x0a; xe5;
  x95; x97; x0a; xe5; x94; xb8; x0a; xe5
].
(* tests/test_data/whatwg/shiftjis_whatwg_test_encode_in.txt, entries 15616..15871 *)
Definition shiftjis_encode_in_61 : list byte := [
  x94; xb3; x0a; xe5; x95; x9d; x0a; xe5;
  x96; x99; x0a; xe5; x96; x80; x0a; xe5;
  x92; xaf; x0a; xe5; x96; x8a; x0a; xe5;
  x96; x9f; x0a; xe5; x95; xbb; x0a; xe5;
  x95; xbe; x0a; xe5; x96; x98; x0a; xe5;
  x96; x9e; x0a; xe5; x96; xae; x0a; xe5;
  x95; xbc; x0a; xe5; x96; x83; x0a; xe5;
  x96; xa9; x0a; xe5; x96; x87; x0a; xe5;
  x96; xa8; x0a; xe5; x97; x9a; x0a; xe5;
  x97; x85; x0a; xe5; x97; x9f; x0a; xe5;
  x97; x84; x0a; xe5; x97; x9c; x0a; xe5;
  x97; xa4; x0a; xe5; x97; x94; x0a; xe5;
  x98; x94; x0a; xe5; x97; xb7; x0a; xe5;
  x98; x96; x0a; xe5; x97; xbe; x0a; xe5;
  x97; xbd; x0a; xe5; x98; x9b; x0a; xe5;
  x97; xb9; x0a; xe5; x99; x8e; x0a; xe5;
  x99; x90; x0a; xe7; x87; x9f; x0a; xe5;
  x98; xb4; x0a; xe5; x98; xb6; x0a; xe5;
  x98; xb2; x0a; xe5; x98; xb8; x0a; xe5;
  x99; xab; x0a; xe5; x99; xa4; x0a; xe5;
  x98; xaf; x0a; xe5; x99; xac; x0a; xe5;
  x99; xaa; x0a; xe5; x9a; x86; x0a; xe5;
  x9a; x80; x0a; xe5; x9a; x8a; x0a; xe5;
  x9a; xa0; x0a; xe5; x9a; x94; x0a; xe5;
  x9a; x8f; x0a; xe5; x9a; xa5; x0a; xe5;
  x9a; xae; x0a; xe5; x9a; xb6; x0a; xe5;
  x9a; xb4; x0a; xe5; x9b; x82; x0a; xe5;
  x9a; xbc; x0a; xe5; x9b; x81; x0a; xe5;
  x9b; x83; x0a; xe5; x9b; x80; x0a; xe5;
  x9b; x88; x0a; xe5; x9b; x8e; x0a; xe5;
  x9b; x91; x0a; xe5; x9b; x93; x0a; xe5;
  x9b; x97; x0a; xe5; x9b; xae; x0a; xe5
].
(* tests/test_data/whatwg/shiftjis_whatwg_test_encode_in.txt, entries 15872..16127 *)
Definition shiftjis_encode_in_62 : list byte := [
  x9b; xb9; x0a; xe5; x9c; x80; x0a; xe5;
  x9b; xbf; x0a; xe5; x9c; x84; x0a; xe5;
  x9c; x89; x0a; xe5; x9c; x88; x0a; xe5;
  x9c; x8b; x0a; xe5; x9c; x8d; x0a; xe5;
  x9c; x93; x0a; xe5; x9c; x98; x0a; xe5;
  x9c; x96; x0a; xe5; x97; x87; x0a; xe5;
  x9c; x9c; x0a; xe5; x9c; xa6; x0a; xe5;
  x9c; xb7; x0a; xe5; x9c; xb8; x0a; xe5;
  x9d; x8e; x0a; xe5; x9c; xbb; x0a; xe5;
  x9d; x80; x0a; xe5; x9d; x8f; x0a; xe5;
  x9d; xa9; x0a; xe5; x9f; x80; x0a; xe5;
  x9e; x88; x0a; xe5; x9d; xa1; x0a; xe5;
  x9d; xbf; x0a; xe5; x9e; x89; x0a; xe5;
  x9e; x93; x0a; xe5; x9e; xa0; x0a; xe5;
  x9e; xb3; x0a; xe5; x9e; xa4; x0a; xe5;
  x9e; xaa; x0a; xe5; x9e; xb0; x0a; xe5;
  x9f; x83; x0a; xe5; x9f; x86; x0a; xe5;
  x9f; x94; x0a; xe5; x9f; x92; x0a; xe5;
  x9f; x93; x0a; xe5; xa0; x8a; x0a; xe5;
  x9f; x96; x0a; xe5; x9f; xa3; x0a; xe5;
  xa0; x8b; x0a; xe5; xa0; x99; x0a; xe5;
  xa0; x9d; x0a; xe5; xa1; xb2; x0a; xe5;
  xa0; xa1; x0a; xe5; xa1; xa2; x0a; xe5;
  xa1; x8b; x0a; xe5; xa1; xb0; x0a; xe6;
  xaf; x80; x0a; xe5; xa1; x92; x0a; xe5;
  xa0; xbd; x0a; xe5; xa1; xb9; x0a; xe5;
  xa2; x85; x0a; xe5; xa2; xb9; x0a; xe5;
  xa2; x9f; x0a; xe5; xa2; xab; x0a; xe5;
  xa2; xba; x0a; xe5; xa3; x9e; x0a; xe5;
  xa2; xbb; x0a; xe5; xa2; xb8; x0a; xe5;
  xa2; xae; x0a; xe5; xa3; x85; x0a; xe5;
  xa3; x93; x0a; xe5; xa3; x91; x0a; xe5
].
(* tests/test_data/whatwg/shiftjis_whatwg_test_encode_in.txt, entries 16128..16383 *)
Definition shiftjis_encode_in_63 : list byte := [
  xa3; x97; x0a; xe5; xa3; x99; x0a; xe5;
  xa3; x98; x0a; xe5; xa3; xa5; x0a; xe5;
  xa3; x9c; x0a; xe5; xa3; xa4; x0a; xe5;
  xa3; x9f; x0a; xe5; xa3; xaf; x0a; xe5;
  xa3; xba; x0a; xe5; xa3; xb9; x0a; xe5;
  xa3; xbb; x0a; xe5; xa3; xbc; x0a; xe5;
  xa3; xbd; x0a; xe5; xa4; x82; x0a; xe5;
  xa4; x8a; x0a; xe5; xa4; x90; x0a; xe5;
  xa4; x9b; x0a; xe6; xa2; xa6; x0a; xe5;
  xa4; xa5; x0a; xe5; xa4; xac; x0a; xe5;
  xa4; xad; x0a; xe5; xa4; xb2; x0a; xe5;
  xa4; xb8; x0a; xe5; xa4; xbe; x0a; xe7;
  xab; x92; x0a; xe5; xa5; x95; x0a; xe5;
  xa5; x90; x0a; xe5; xa5; x8e; x0a; xe5;
  xa5; x9a; x0a; xe5; xa5; x98; x0a; xe5;
  xa5; xa2; x0a; xe5; xa5; xa0; x0a; xe5;
  xa5; xa7; x0a; xe5; xa5; xac; x0a; xe5;
  xa5; xa9; x0a; xe5; xa5; xb8; x0a; xe5;
  xa6; x81; x0a; xe5; xa6; x9d; x0a; xe4;
  xbd; x9e; x0a; xe4; xbe; xab; x0a; xe5;
  xa6; xa3; x0a; xe5; xa6; xb2; x0a; xe5;
  xa7; x86; x0a; xe5; xa7; xa8; x0a; xe5;
  xa7; x9c; x0a; xe5; xa6; x8d; x0a; xe5;
  xa7; x99; x0a; xe5; xa7; x9a; x0a; xe5;
  xa8; xa5; x0a; xe5; xa8; x9f; x0a; xe5;
  xa8; x91; x0a; xe5; xa8; x9c; x0a; xe5;
  xa8; x89; x0a; xe5; xa8; x9a; x0a; xe5;
  xa9; x80; x0a; xe5; xa9; xac; x0a; xe5;
  xa9; x89; x0a; xe5; xa8; xb5; x0a; xe5;
  xa8; xb6; x0a; xe5; xa9; xa2; x0a; xe5;
  xa9; xaa; x0a; xe5; xaa; x9a; x0a; xe5;
  xaa; xbc; x0a; xe5; xaa; xbe; x0a; xe5
].
(* tests/test_data/whatwg/shiftjis_whatwg_test_encode_in.txt, entries 16384..16639 *)
Definition shiftjis_encode_in_64 : list byte := [
  xab; x8b; x0a; xe5; xab; x82; x0a; xe5;
  xaa; xbd; x0a; xe5; xab; xa3; x0a; xe5;
  xab; x97; x0a; xe5; xab; xa6; x0a; xe5;
  xab; xa9; x0a; xe5; xab; x96; x0a; xe5;
  xab; xba; x0a; xe5; xab; xbb; x0a; xe5;
  xac; x8c; x0a; xe5; xac; x8b; x0a; xe5;
  xac; x96; x0a; xe5; xac; xb2; x0a; xe5;
  xab; x90; x0a; xe5; xac; xaa; x0a; xe5;
  xac; xb6; x0a; xe5; xac; xbe; x0a; xe5;
  xad; x83; x0a; xe5; xad; x85; x0a; xe5;
  xad; x80; x0a; xe5; xad; x91; x0a; xe5;
  xad; x95; x0a; xe5; xad; x9a; x0a; xe5;
  xad; x9b; x0a; xe5; xad; xa5; x0a; xe5;
  xad; xa9; x0a; xe5; xad; xb0; x0a; xe5;
  xad; xb3; x0a; xe5; xad; xb5; x0a; xe5;
  xad; xb8; x0a; xe6; x96; x88; x0a; xe5;
  xad; xba; x0a; xe5; xae; x80; x0a; xe5;
  xae; x83; x0a; xe5; xae; xa6; x0a; xe5;
  xae; xb8; x0a; xe5; xaf; x83; x0a; xe5;
  xaf; x87; x0a; xe5; xaf; x89; x0a; xe5;
  xaf; x94; x0a; xe5; xaf; x90; x0a; xe5;
  xaf; xa4; x0a; xe5; xaf; xa6; x0a; xe5;
  xaf; xa2; x0a; xe5; xaf; x9e; x0a; xe5;
  xaf; xa5; x0a; xe5; xaf; xab; x0a; xe5;
  xaf; xb0; x0a; xe5; xaf; xb6; x0a; xe5;
  xaf; xb3; x0a; xe5; xb0; x85; x0a; xe5;
  xb0; x87; x0a; xe5; xb0; x88; x0a; xe5;
  xb0; x8d; x0a; xe5; xb0; x93; x0a; xe5;
  xb0; xa0; x0a; xe5; xb0; xa2; x0a; xe5;
  xb0; xa8; x0a; xe5; xb0; xb8; x0a; xe5;
  xb0; xb9; x0a; xe5; xb1; x81; x0a; xe5;
  xb1; x86; x0a; xe5; xb1; x8e; x0a; xe5
].
(* tests/test_data/whatwg/shiftjis_whatwg_test_encode_in.txt, entries 16640..16895 *)
Definition shiftjis_encode_in_65 : list byte := [
  xb1; x93; x0a; xe5; xb1; x90; x0a; xe5;
  xb1; x8f; x0a; xe5; xad; xb1; x0a; xe5;
  xb1; xac; x0a; xe5; xb1; xae; x0a; xe4;
  xb9; xa2; x0a; xe5; xb1; xb6; x0a; xe5;
  xb1; xb9; x0a; xe5; xb2; x8c; x0a; xe5;
  xb2; x91; x0a; xe5; xb2; x94; x0a; xe5;
  xa6; x9b; x0a; xe5; xb2; xab; x0a; xe5;
  xb2; xbb; x0a; xe5; xb2; xb6; x0a; xe5;
  xb2; xbc; x0a; xe5; xb2; xb7; x0a; xe5;
  xb3; x85; x0a; xe5; xb2; xbe; x0a; xe5;
  xb3; x87; x0a; xe5; xb3; x99; x0a; xe5;
  xb3; xa9; x0a; xe5; xb3; xbd; x0a; xe5;
  xb3; xba; x0a; xe5; xb3; xad; x0a; xe5;
  xb6; x8c; x0a; xe5; xb3; xaa; x0a; xe5;
  xb4; x8b; x0a; xe5; xb4; x95; x0a; xe5;
  xb4; x97; x0a; xe5; xb5; x9c; x0a; xe5;
  xb4; x9f; x0a; xe5; xb4; x9b; x0a; xe5;
  xb4; x91; x0a; xe5; xb4; x94; x0a; xe5;
  xb4; xa2; x0a; xe5; xb4; x9a; x0a; xe5;
  xb4; x99; x0a; xe5; xb4; x98; x0a; xe5;
  xb5; x8c; x0a; xe5; xb5; x92; x0a; xe5;
  xb5; x8e; x0a; xe5; xb5; x8b; x0a; xe5;
  xb5; xac; x0a; xe5; xb5; xb3; x0a; xe5;
  xb5; xb6; x0a; xe5; xb6; x87; x0a; xe5;
  xb6; x84; x0a; xe5; xb6; x82; x0a; xe5;
  xb6; xa2; x0a; xe5; xb6; x9d; x0a; xe5;
  xb6; xac; x0a; xe5; xb6; xae; x0a; xe5;
  xb6; xbd; x0a; xe5; xb6; x90; x0a; xe5;
  xb6; xb7; x0a; xe5; xb6; xbc; x0a; xe5;
  xb7; x89; x0a; xe5; xb7; x8d; x0a; xe5;
  xb7; x93; x0a; xe5; xb7; x92; x0a; xe5;
  xb7; x96; x0a; xe5; xb7; x9b; x0a; xe5
].
(* tests/test_data/whatwg/shiftjis_whatwg_test_encode_in.txt, entries 16896..17151 *)
Definition shiftjis_encode_in_66 : list byte := [
  xb7; xab; x0a; xe5; xb7; xb2; x0a; xe5;
  xb7; xb5; x0a; xe5; xb8; x8b; x0a; xe5;
  xb8; x9a; x0a; xe5; xb8; x99; x0a; xe5;
  xb8; x91; x0a; xe5; xb8; x9b; x0a; xe5;
  xb8; xb6; x0a; xe5; xb8; xb7; x0a; xe5;
  xb9; x84; x0a; xe5; xb9; x83; x0a; xe5;
  xb9; x80; x0a; xe5; xb9; x8e; x0a; xe5;
  xb9; x97; x0a; xe5; xb9; x94; x0a; xe5;
  xb9; x9f; x0a; xe5; xb9; xa2; x0a; xe5;
  xb9; xa4; x0a; xe5; xb9; x87; x0a; xe5;
  xb9; xb5; x0a; xe5; xb9; xb6; x0a; xe5;
  xb9; xba; x0a; xe9; xba; xbc; x0a; xe5;
  xb9; xbf; x0a; xe5; xba; xa0; x0a; xe5;
  xbb; x81; x0a; xe5; xbb; x82; x0a; xe5;
  xbb; x88; x0a; xe5; xbb; x90; x0a; xe5;
  xbb; x8f; x0a; xe5; xbb; x96; x0a; xe5;
  xbb; xa3; x0a; xe5; xbb; x9d; x0a; xe5;
  xbb; x9a; x0a; xe5; xbb; x9b; x0a; xe5;
  xbb; xa2; x0a; xe5; xbb; xa1; x0a; xe5;
  xbb; xa8; x0a; xe5; xbb; xa9; x0a; xe5;
  xbb; xac; x0a; xe5; xbb; xb1; x0a; xe5;
  xbb; xb3; x0a; xe5; xbb; xb0; x0a; xe5;
  xbb; xb4; x0a; xe5; xbb; xb8; x0a; xe5;
  xbb; xbe; x0a; xe5; xbc; x83; x0a; xe5;
  xbc; x89; x0a; xe5; xbd; x9d; x0a; xe5;
  xbd; x9c; x0a; xe5; xbc; x8b; x0a; xe5;
  xbc; x91; x0a; xe5; xbc; x96; x0a; xe5;
  xbc; xa9; x0a; xe5; xbc; xad; x0a; xe5;
  xbc; xb8; x0a; xe5; xbd; x81; x0a; xe5;
  xbd; x88; x0a; xe5; xbd; x8c; x0a; xe5;
  xbd; x8e; x0a; xe5; xbc; xaf; x0a; xe5;
  xbd; x91; x0a; xe5; xbd; x96; x0a; xe5
].
(* tests/test_data/whatwg/shiftjis_whatwg_test_encode_in.txt, entries 17152..17407 *)
Definition shiftjis_encode_in_67 : list byte := [
  xbd; x97; x0a; xe5; xbd; x99; x0a; xe5;
  xbd; xa1; x0a; xe5; xbd; xad; x0a; xe5;
  xbd; xb3; x0a; xe5; xbd; xb7; x0a; xe5;
  xbe; x83; x0a; xe5; xbe; x82; x0a; xe5;
  xbd; xbf; x0a; xe5; xbe; x8a; x0a; xe5;
  xbe; x88; x0a; xe5; xbe; x91; x0a; xe5;
  xbe; x87; x0a; xe5; xbe; x9e; x0a; xe5;
  xbe; x99; x0a; xe5; xbe; x98; x0a; xe5;
  xbe; xa0; x0a; xe5; xbe; xa8; x0a; xe5;
  xbe; xad; x0a; xe5; xbe; xbc; x0a; xe5;
  xbf; x96; x0a; xe5; xbf; xbb; x0a; xe5;
  xbf; xa4; x0a; xe5; xbf; xb8; x0a; xe5;
  xbf; xb1; x0a; xe5; xbf; x9d; x0a; xe6;
  x82; xb3; x0a; xe5; xbf; xbf; x0a; xe6;
  x80; xa1; x0a; xe6; x81; xa0; x0a; xe6;
  x80; x99; x0a; xe6; x80; x90; x0a; xe6;
  x80; xa9; x0a; xe6; x80; x8e; x0a; xe6;
  x80; xb1; x0a; xe6; x80; x9b; x0a; xe6;
  x80; x95; x0a; xe6; x80; xab; x0a; xe6;
  x80; xa6; x0a; xe6; x80; x8f; x0a; xe6;
  x80; xba; x0a; xe6; x81; x9a; x0a; xe6;
  x81; x81; x0a; xe6; x81; xaa; x0a; xe6;
  x81; xb7; x0a; xe6; x81; x9f; x0a; xe6;
  x81; x8a; x0a; xe6; x81; x86; x0a; xe6;
  x81; x8d; x0a; xe6; x81; xa3; x0a; xe6;
  x81; x83; x0a; xe6; x81; xa4; x0a; xe6;
  x81; x82; x0a; xe6; x81; xac; x0a; xe6;
  x81; xab; x0a; xe6; x81; x99; x0a; xe6;
  x82; x81; x0a; xe6; x82; x8d; x0a; xe6;
  x83; xa7; x0a; xe6; x82; x83; x0a; xe6;
  x82; x9a; x0a; xe6; x82; x84; x0a; xe6;
  x82; x9b; x0a; xe6; x82; x96; x0a; xe6
].
(* tests/test_data/whatwg/shiftjis_whatwg_test_encode_in.txt, entries 17408..17663 *)
Definition shiftjis_encode_in_68 : list byte := [
  x82; x97; x0a; xe6; x82; x92; x0a; xe6;
  x82; xa7; x0a; xe6; x82; x8b; x0a; xe6;
  x83; xa1; x0a; xe6; x82; xb8; x0a; xe6;
  x83; xa0; x0a; xe6; x83; x93; x0a; xe6;
  x82; xb4; x0a; xe5; xbf; xb0; x0a; xe6;
  x82; xbd; x0a; xe6; x83; x86; x0a; xe6;
  x82; xb5; x0a; xe6; x83; x98; x0a; xe6;
  x85; x8d; x0a; xe6; x84; x95; x0a; xe6;
  x84; x86; x0a; xe6; x83; xb6; x0a; xe6;
  x83; xb7; x0a; xe6; x84; x80; x0a; xe6;
  x83; xb4; x0a; xe6; x83; xba; x0a; xe6;
  x84; x83; x0a; xe6; x84; xa1; x0a; xe6;
  x83; xbb; x0a; xe6; x83; xb1; x0a; xe6;
  x84; x8d; x0a; xe6; x84; x8e; x0a; xe6;
  x85; x87; x0a; xe6; x84; xbe; x0a; xe6;
  x84; xa8; x0a; xe6; x84; xa7; x0a; xe6;
  x85; x8a; x0a; xe6; x84; xbf; x0a; xe6;
  x84; xbc; x0a; xe6; x84; xac; x0a; xe6;
  x84; xb4; x0a; xe6; x84; xbd; x0a; xe6;
  x85; x82; x0a; xe6; x85; x84; x0a; xe6;
  x85; xb3; x0a; xe6; x85; xb7; x0a; xe6;
  x85; x98; x0a; xe6; x85; x99; x0a; xe6;
  x85; x9a; x0a; xe6; x85; xab; x0a; xe6;
  x85; xb4; x0a; xe6; x85; xaf; x0a; xe6;
  x85; xa5; x0a; xe6; x85; xb1; x0a; xe6;
  x85; x9f; x0a; xe6; x85; x9d; x0a; xe6;
  x85; x93; x0a; xe6; x85; xb5; x0a; xe6;
  x86; x99; x0a; xe6; x86; x96; x0a; xe6;
  x86; x87; x0a; xe6; x86; xac; x0a; xe6;
  x86; x94; x0a; xe6; x86; x9a; x0a; xe6;
  x86; x8a; x0a; xe6; x86; x91; x0a; xe6;
  x86; xab; x0a; xe6; x86; xae; x0a; xe6
].
(* tests/test_data/whatwg/shiftjis_whatwg_test_encode_in.txt, entries 17664..17919 *)
Definition shiftjis_encode_in_69 : list byte := [
  x87; x8c; x0a; xe6; x87; x8a; x0a; xe6;
  x87; x89; x0a; xe6; x87; xb7; x0a; xe6;
  x87; x88; x0a; xe6; x87; x83; x0a; xe6;
  x87; x86; x0a; xe6; x86; xba; x0a; xe6;
  x87; x8b; x0a; xe7; xbd; xb9; x0a; xe6;
  x87; x8d; x0a; xe6; x87; xa6; x0a; xe6;
  x87; xa3; x0a; xe6; x87; xb6; x0a; xe6;
  x87; xba; x0a; xe6; x87; xb4; x0a; xe6;
  x87; xbf; x0a; xe6; x87; xbd; x0a; xe6;
  x87; xbc; x0a; xe6; x87; xbe; x0a; xe6;
  x88; x80; x0a; xe6; x88; x88; x0a; xe6;
  x88; x89; x0a; xe6; x88; x8d; x0a; xe6;
  x88; x8c; x0a; xe6; x88; x94; x0a; xe6;
  x88; x9b; x0a; xe6; x88; x9e; x0a; xe6;
  x88; xa1; x0a; xe6; x88; xaa; x0a; xe6;
  x88; xae; x0a; xe6; x88; xb0; x0a; xe6;
  x88; xb2; x0a; xe6; x88; xb3; x0a; xe6;
  x89; x81; x0a; xe6; x89; x8e; x0a; xe6;
  x89; x9e; x0a; xe6; x89; xa3; x0a; xe6;
  x89; x9b; x0a; xe6; x89; xa0; x0a; xe6;
  x89; xa8; x0a; xe6; x89; xbc; x0a; xe6;
  x8a; x82; x0a; xe6; x8a; x89; x0a; xe6;
  x89; xbe; x0a; xe6; x8a; x92; x0a; xe6;
  x8a; x93; x0a; xe6; x8a; x96; x0a; xe6;
  x8b; x94; x0a; xe6; x8a; x83; x0a; xe6;
  x8a; x94; x0a; xe6; x8b; x97; x0a; xe6;
  x8b; x91; x0a; xe6; x8a; xbb; x0a; xe6;
  x8b; x8f; x0a; xe6; x8b; xbf; x0a; xe6;
  x8b; x86; x0a; xe6; x93; x94; x0a; xe6;
  x8b; x88; x0a; xe6; x8b; x9c; x0a; xe6;
  x8b; x8c; x0a; xe6; x8b; x8a; x0a; xe6;
  x8b; x82; x0a; xe6; x8b; x87; x0a; xe6
].
(* tests/test_data/whatwg/shiftjis_whatwg_test_encode_in.txt, entries 17920..18175 *)
Definition shiftjis_encode_in_70 : list byte := [
  x8a; x9b; x0a; xe6; x8b; x89; x0a; xe6;
  x8c; x8c; x0a; xe6; x8b; xae; x0a; xe6;
  x8b; xb1; x0a; xe6; x8c; xa7; x0a; xe6;
  x8c; x82; x0a; xe6; x8c; x88; x0a; xe6;
  x8b; xaf; x0a; xe6; x8b; xb5; x0a; xe6;
  x8d; x90; x0a; xe6; x8c; xbe; x0a; xe6;
  x8d; x8d; x0a; xe6; x90; x9c; x0a; xe6;
  x8d; x8f; x0a; xe6; x8e; x96; x0a; xe6;
  x8e; x8e; x0a; xe6; x8e; x80; x0a; xe6;
  x8e; xab; x0a; xe6; x8d; xb6; x0a; xe6;
  x8e; xa3; x0a; xe6; x8e; x8f; x0a; xe6;
  x8e; x89; x0a; xe6; x8e; x9f; x0a; xe6;
  x8e; xb5; x0a; xe6; x8d; xab; x0a; xe6;
  x8d; xa9; x0a; xe6; x8e; xbe; x0a; xe6;
  x8f; xa9; x0a; xe6; x8f; x80; x0a; xe6;
  x8f; x86; x0a; xe6; x8f; xa3; x0a; xe6;
  x8f; x89; x0a; xe6; x8f; x92; x0a; xe6;
  x8f; xb6; x0a; xe6; x8f; x84; x0a; xe6;
  x90; x96; x0a; xe6; x90; xb4; x0a; xe6;
  x90; x86; x0a; xe6; x90; x93; x0a; xe6;
  x90; xa6; x0a; xe6; x90; xb6; x0a; xe6;
  x94; x9d; x0a; xe6; x90; x97; x0a; xe6;
  x90; xa8; x0a; xe6; x90; x8f; x0a; xe6;
  x91; xa7; x0a; xe6; x91; xaf; x0a; xe6;
  x91; xb6; x0a; xe6; x91; x8e; x0a; xe6;
  x94; xaa; x0a; xe6; x92; x95; x0a; xe6;
  x92; x93; x0a; xe6; x92; xa5; x0a; xe6;
  x92; xa9; x0a; xe6; x92; x88; x0a; xe6;
  x92; xbc; x0a; xe6; x93; x9a; x0a; xe6;
  x93; x92; x0a; xe6; x93; x85; x0a; xe6;
  x93; x87; x0a; xe6; x92; xbb; x0a; xe6;
  x93; x98; x0a; xe6; x93; x82; x0a; xe6
].
(* tests/test_data/whatwg/shiftjis_whatwg_test_encode_in.txt, entries 18176..18431 *)
Definition shiftjis_encode_in_71 : list byte := [
  x93; xb1; x0a; xe6; x93; xa7; x0a; xe8;
  x88; x89; x0a; xe6; x93; xa0; x0a; xe6;
  x93; xa1; x0a; xe6; x8a; xac; x0a; xe6;
  x93; xa3; x0a; xe6; x93; xaf; x0a; xe6;
  x94; xac; x0a; xe6; x93; xb6; x0a; xe6;
  x93; xb4; x0a; xe6; x93; xb2; x0a; xe6;
  x93; xba; x0a; xe6; x94; x80; x0a; xe6;
  x93; xbd; x0a; xe6; x94; x98; x0a; xe6;
  x94; x9c; x0a; xe6; x94; x85; x0a; xe6;
  x94; xa4; x0a; xe6; x94; xa3; x0a; xe6;
  x94; xab; x0a; xe6; x94; xb4; x0a; xe6;
  x94; xb5; x0a; xe6; x94; xb7; x0a; xe6;
  x94; xb6; x0a; xe6; x94; xb8; x0a; xe7;
  x95; x8b; x0a; xe6; x95; x88; x0a; xe6;
  x95; x96; x0a; xe6; x95; x95; x0a; xe6;
  x95; x8d; x0a; xe6; x95; x98; x0a; xe6;
  x95; x9e; x0a; xe6; x95; x9d; x0a; xe6;
  x95; xb2; x0a; xe6; x95; xb8; x0a; xe6;
  x96; x82; x0a; xe6; x96; x83; x0a; xe8;
  xae; x8a; x0a; xe6; x96; x9b; x0a; xe6;
  x96; x9f; x0a; xe6; x96; xab; x0a; xe6;
  x96; xb7; x0a; xe6; x97; x83; x0a; xe6;
  x97; x86; x0a; xe6; x97; x81; x0a; xe6;
  x97; x84; x0a; xe6; x97; x8c; x0a; xe6;
  x97; x92; x0a; xe6; x97; x9b; x0a; xe6;
  x97; x99; x0a; xe6; x97; xa0; x0a; xe6;
  x97; xa1; x0a; xe6; x97; xb1; x0a; xe6;
  x9d; xb2; x0a; xe6; x98; x8a; x0a; xe6;
  x98; x83; x0a; xe6; x97; xbb; x0a; xe6;
  x9d; xb3; x0a; xe6; x98; xb5; x0a; xe6;
  x98; xb6; x0a; xe6; x98; xb4; x0a; xe6;
  x98; x9c; x0a; xe6; x99; x8f; x0a; xe6
].
(* tests/test_data/whatwg/shiftjis_whatwg_test_encode_in.txt, entries 18432..18687 *)
Definition shiftjis_encode_in_72 : list byte := [
  x99; x84; x0a; xe6; x99; x89; x0a; xe6;
  x99; x81; x0a; xe6; x99; x9e; x0a; xe6;
  x99; x9d; x0a; xe6; x99; xa4; x0a; xe6;
  x99; xa7; x0a; xe6; x99; xa8; x0a; xe6;
  x99; x9f; x0a; xe6; x99; xa2; x0a; xe6;
  x99; xb0; x0a; xe6; x9a; x83; x0a; xe6;
  x9a; x88; x0a; xe6; x9a; x8e; x0a; xe6;
  x9a; x89; x0a; xe6; x9a; x84; x0a; xe6;
  x9a; x98; x0a; xe6; x9a; x9d; x0a; xe6;
  x9b; x81; x0a; xe6; x9a; xb9; x0a; xe6;
  x9b; x89; x0a; xe6; x9a; xbe; x0a; xe6;
  x9a; xbc; x0a; xe6; x9b; x84; x0a; xe6;
  x9a; xb8; x0a; xe6; x9b; x96; x0a; xe6;
  x9b; x9a; x0a; xe6; x9b; xa0; x0a; xe6;
  x98; xbf; x0a; xe6; x9b; xa6; x0a; xe6;
  x9b; xa9; x0a; xe6; x9b; xb0; x0a; xe6;
  x9b; xb5; x0a; xe6; x9b; xb7; x0a; xe6;
  x9c; x8f; x0a; xe6; x9c; x96; x0a; xe6;
  x9c; x9e; x0a; xe6; x9c; xa6; x0a; xe6;
  x9c; xa7; x0a; xe9; x9c; xb8; x0a; xe6;
  x9c; xae; x0a; xe6; x9c; xbf; x0a; xe6;
  x9c; xb6; x0a; xe6; x9d; x81; x0a; xe6;
  x9c; xb8; x0a; xe6; x9c; xb7; x0a; xe6;
  x9d; x86; x0a; xe6; x9d; x9e; x0a; xe6;
  x9d; xa0; x0a; xe6; x9d; x99; x0a; xe6;
  x9d; xa3; x0a; xe6; x9d; xa4; x0a; xe6;
  x9e; x89; x0a; xe6; x9d; xb0; x0a; xe6;
  x9e; xa9; x0a; xe6; x9d; xbc; x0a; xe6;
  x9d; xaa; x0a; xe6; x9e; x8c; x0a; xe6;
  x9e; x8b; x0a; xe6; x9e; xa6; x0a; xe6;
  x9e; xa1; x0a; xe6; x9e; x85; x0a; xe6;
  x9e; xb7; x0a; xe6; x9f; xaf; x0a; xe6
].
(* tests/test_data/whatwg/shiftjis_whatwg_test_encode_in.txt, entries 18688..18943 *)
Definition shiftjis_encode_in_73 : list byte := [
  x9e; xb4; x0a; xe6; x9f; xac; x0a; xe6;
  x9e; xb3; x0a; xe6; x9f; xa9; x0a; xe6;
  x9e; xb8; x0a; xe6; x9f; xa4; x0a; xe6;
  x9f; x9e; x0a; xe6; x9f; x9d; x0a; xe6;
  x9f; xa2; x0a; xe6; x9f; xae; x0a; xe6;
  x9e; xb9; x0a; xe6; x9f; x8e; x0a; xe6;
  x9f; x86; x0a; xe6; x9f; xa7; x0a; xe6;
  xaa; x9c; x0a; xe6; xa0; x9e; x0a; xe6;
  xa1; x86; x0a; xe6; xa0; xa9; x0a; xe6;
  xa1; x80; x0a; xe6; xa1; x8d; x0a; xe6;
  xa0; xb2; x0a; xe6; xa1; x8e; x0a; xe6;
  xa2; xb3; x0a; xe6; xa0; xab; x0a; xe6;
  xa1; x99; x0a; xe6; xa1; xa3; x0a; xe6;
  xa1; xb7; x0a; xe6; xa1; xbf; x0a; xe6;
  xa2; x9f; x0a; xe6; xa2; x8f; x0a; xe6;
  xa2; xad; x0a; xe6; xa2; x94; x0a; xe6;
  xa2; x9d; x0a; xe6; xa2; x9b; x0a; xe6;
  xa2; x83; x0a; xe6; xaa; xae; x0a; xe6;
  xa2; xb9; x0a; xe6; xa1; xb4; x0a; xe6;
  xa2; xb5; x0a; xe6; xa2; xa0; x0a; xe6;
  xa2; xba; x0a; xe6; xa4; x8f; x0a; xe6;
  xa2; x8d; x0a; xe6; xa1; xbe; x0a; xe6;
  xa4; x81; x0a; xe6; xa3; x8a; x0a; xe6;
  xa4; x88; x0a; xe6; xa3; x98; x0a; xe6;
  xa4; xa2; x0a; xe6; xa4; xa6; x0a; xe6;
  xa3; xa1; x0a; xe6; xa4; x8c; x0a; xe6;
  xa3; x8d; x0a; xe6; xa3; x94; x0a; xe6;
  xa3; xa7; x0a; xe6; xa3; x95; x0a; xe6;
  xa4; xb6; x0a; xe6; xa4; x92; x0a; xe6;
  xa4; x84; x0a; xe6; xa3; x97; x0a; xe6;
  xa3; xa3; x0a; xe6; xa4; xa5; x0a; xe6;
  xa3; xb9; x0a; xe6; xa3; xa0; x0a; xe6
].
(* tests/test_data/whatwg/shiftjis_whatwg_test_encode_in.txt, entries 18944..19199 *)
Definition shiftjis_encode_in_74 : list byte := [
  xa3; xaf; x0a; xe6; xa4; xa8; x0a; xe6;
  xa4; xaa; x0a; xe6; xa4; x9a; x0a; xe6;
  xa4; xa3; x0a; xe6; xa4; xa1; x0a; xe6;
  xa3; x86; x0a; xe6; xa5; xb9; x0a; xe6;
  xa5; xb7; x0a; xe6; xa5; x9c; x0a; xe6;
  xa5; xb8; x0a; xe6; xa5; xab; x0a; xe6;
  xa5; x94; x0a; xe6; xa5; xbe; x0a; xe6;
  xa5; xae; x0a; xe6; xa4; xb9; x0a; xe6;
  xa5; xb4; x0a; xe6; xa4; xbd; x0a; xe6;
  xa5; x99; x0a; xe6; xa4; xb0; x0a; xe6;
  xa5; xa1; x0a; xe6; xa5; x9e; x0a; xe6;
  xa5; x9d; x0a; xe6; xa6; x81; x0a; xe6;
  xa5; xaa; x0a; xe6; xa6; xb2; x0a; xe6;
  xa6; xae; x0a; xe6; xa7; x90; x0a; xe6;
  xa6; xbf; x0a; xe6; xa7; x81; x0a; xe6;
  xa7; x93; x0a; xe6; xa6; xbe; x0a; xe6;
  xa7; x8e; x0a; xe5; xaf; xa8; x0a; xe6;
  xa7; x8a; x0a; xe6; xa7; x9d; x0a; xe6;
  xa6; xbb; x0a; xe6; xa7; x83; x0a; xe6;
  xa6; xa7; x0a; xe6; xa8; xae; x0a; xe6;
  xa6; x91; x0a; xe6; xa6; xa0; x0a; xe6;
  xa6; x9c; x0a; xe6; xa6; x95; x0a; xe6;
  xa6; xb4; x0a; xe6; xa7; x9e; x0a; xe6;
  xa7; xa8; x0a; xe6; xa8; x82; x0a; xe6;
  xa8; x9b; x0a; xe6; xa7; xbf; x0a; xe6;
  xac; x8a; x0a; xe6; xa7; xb9; x0a; xe6;
  xa7; xb2; x0a; xe6; xa7; xa7; x0a; xe6;
  xa8; x85; x0a; xe6; xa6; xb1; x0a; xe6;
  xa8; x9e; x0a; xe6; xa7; xad; x0a; xe6;
  xa8; x94; x0a; xe6; xa7; xab; x0a; xe6;
  xa8; x8a; x0a; xe6; xa8; x92; x0a; xe6;
  xab; x81; x0a; xe6; xa8; xa3; x0a; xe6
].
(* tests/test_data/whatwg/shiftjis_whatwg_test_encode_in.txt, entries 19200..19455 *)
Definition shiftjis_encode_in_75 : list byte := [
  xa8; x93; x0a; xe6; xa9; x84; x0a; xe6;
  xa8; x8c; x0a; xe6; xa9; xb2; x0a; xe6;
  xa8; xb6; x0a; xe6; xa9; xb8; x0a; xe6;
  xa9; x87; x0a; xe6; xa9; xa2; x0a; xe6;
  xa9; x99; x0a; xe6; xa9; xa6; x0a; xe6;
  xa9; x88; x0a; xe6; xa8; xb8; x0a; xe6;
  xa8; xa2; x0a; xe6; xaa; x90; x0a; xe6;
  xaa; x8d; x0a; xe6; xaa; xa0; x0a; xe6;
  xaa; x84; x0a; xe6; xaa; xa2; x0a; xe6;
  xaa; xa3; x0a; xe6; xaa; x97; x0a; xe8;
  x98; x97; x0a; xe6; xaa; xbb; x0a; xe6;
  xab; x83; x0a; xe6; xab; x82; x0a; xe6;
  xaa; xb8; x0a; xe6; xaa; xb3; x0a; xe6;
  xaa; xac; x0a; xe6; xab; x9e; x0a; xe6;
  xab; x91; x0a; xe6; xab; x9f; x0a; xe6;
  xaa; xaa; x0a; xe6; xab; x9a; x0a; xe6;
  xab; xaa; x0a; xe6; xab; xbb; x0a; xe6;
  xac; x85; x0a; xe8; x98; x96; x0a; xe6;
  xab; xba; x0a; xe6; xac; x92; x0a; xe6;
  xac; x96; x0a; xe9; xac; xb1; x0a; xe6;
  xac; x9f; x0a; xe6; xac; xb8; x0a; xe6;
  xac; xb7; x0a; xe7; x9b; x9c; x0a; xe6;
  xac; xb9; x0a; xe9; xa3; xae; x0a; xe6;
  xad; x87; x0a; xe6; xad; x83; x0a; xe6;
  xad; x89; x0a; xe6; xad; x90; x0a; xe6;
  xad; x99; x0a; xe6; xad; x94; x0a; xe6;
  xad; x9b; x0a; xe6; xad; x9f; x0a; xe6;
  xad; xa1; x0a; xe6; xad; xb8; x0a; xe6;
  xad; xb9; x0a; xe6; xad; xbf; x0a; xe6;
  xae; x80; x0a; xe6; xae; x84; x0a; xe6;
  xae; x83; x0a; xe6; xae; x8d; x0a; xe6;
  xae; x98; x0a; xe6; xae; x95; x0a; xe6
].
(* tests/test_data/whatwg/shiftjis_whatwg_test_encode_in.txt, entries 19456..19711 *)
Definition shiftjis_encode_in_76 : list byte := [
  xae; x9e; x0a; xe6; xae; xa4; x0a; xe6;
  xae; xaa; x0a; xe6; xae; xab; x0a; xe6;
  xae; xaf; x0a; xe6; xae; xb2; x0a; xe6;
  xae; xb1; x0a; xe6; xae; xb3; x0a; xe6;
  xae; xb7; x0a; xe6; xae; xbc; x0a; xe6;
  xaf; x86; x0a; xe6; xaf; x8b; x0a; xe6;
  xaf; x93; x0a; xe6; xaf; x9f; x0a; xe6;
  xaf; xac; x0a; xe6; xaf; xab; x0a; xe6;
  xaf; xb3; x0a; xe6; xaf; xaf; x0a; xe9;
  xba; xbe; x0a; xe6; xb0; x88; x0a; xe6;
  xb0; x93; x0a; xe6; xb0; x94; x0a; xe6;
  xb0; x9b; x0a; xe6; xb0; xa4; x0a; xe6;
  xb0; xa3; x0a; xe6; xb1; x9e; x0a; xe6;
  xb1; x95; x0a; xe6; xb1; xa2; x0a; xe6;
  xb1; xaa; x0a; xe6; xb2; x82; x0a; xe6;
  xb2; x8d; x0a; xe6; xb2; x9a; x0a; xe6;
  xb2; x81; x0a; xe6; xb2; x9b; x0a; xe6;
  xb1; xbe; x0a; xe6; xb1; xa8; x0a; xe6;
  xb1; xb3; x0a; xe6; xb2; x92; x0a; xe6;
  xb2; x90; x0a; xe6; xb3; x84; x0a; xe6;
  xb3; xb1; x0a; xe6; xb3; x93; x0a; xe6;
  xb2; xbd; x0a; xe6; xb3; x97; x0a; xe6;
  xb3; x85; x0a; xe6; xb3; x9d; x0a; xe6;
  xb2; xae; x0a; xe6; xb2; xb1; x0a; xe6;
  xb2; xbe; x0a; xe6; xb2; xba; x0a; xe6;
  xb3; x9b; x0a; xe6; xb3; xaf; x0a; xe6;
  xb3; x99; x0a; xe6; xb3; xaa; x0a; xe6;
  xb4; x9f; x0a; xe8; xa1; x8d; x0a; xe6;
  xb4; xb6; x0a; xe6; xb4; xab; x0a; xe6;
  xb4; xbd; x0a; xe6; xb4; xb8; x0a; xe6;
  xb4; x99; x0a; xe6; xb4; xb5; x0a; xe6;
  xb4; xb3; x0a; xe6; xb4; x92; x0a; xe6
].
(* tests/test_data/whatwg/shiftjis_whatwg_test_encode_in.txt, entries 19712..19967 *)
Definition shiftjis_encode_in_77 : list byte := [
  xb4; x8c; x0a; xe6; xb5; xa3; x0a; xe6;
  xb6; x93; x0a; xe6; xb5; xa4; x0a; xe6;
  xb5; x9a; x0a; xe6; xb5; xb9; x0a; xe6;
  xb5; x99; x0a; xe6; xb6; x8e; x0a; xe6;
  xb6; x95; x0a; xe6; xbf; xa4; x0a; xe6;
  xb6; x85; x0a; xe6; xb7; xb9; x0a; xe6;
  xb8; x95; x0a; xe6; xb8; x8a; x0a; xe6;
  xb6; xb5; x0a; xe6; xb7; x87; x0a; xe6;
  xb7; xa6; x0a; xe6; xb6; xb8; x0a; xe6;
  xb7; x86; x0a; xe6; xb7; xac; x0a; xe6;
  xb7; x9e; x0a; xe6; xb7; x8c; x0a; xe6;
  xb7; xa8; x0a; xe6; xb7; x92; x0a; xe6;
  xb7; x85; x0a; xe6; xb7; xba; x0a; xe6;
  xb7; x99; x0a; xe6; xb7; xa4; x0a; xe6;
  xb7; x95; x0a; xe6; xb7; xaa; x0a; xe6;
  xb7; xae; x0a; xe6; xb8; xad; x0a; xe6;
  xb9; xae; x0a; xe6; xb8; xae; x0a; xe6;
  xb8; x99; x0a; xe6; xb9; xb2; x0a; xe6;
  xb9; x9f; x0a; xe6; xb8; xbe; x0a; xe6;
  xb8; xa3; x0a; xe6; xb9; xab; x0a; xe6;
  xb8; xab; x0a; xe6; xb9; xb6; x0a; xe6;
  xb9; x8d; x0a; xe6; xb8; x9f; x0a; xe6;
  xb9; x83; x0a; xe6; xb8; xba; x0a; xe6;
  xb9; x8e; x0a; xe6; xb8; xa4; x0a; xe6;
  xbb; xbf; x0a; xe6; xb8; x9d; x0a; xe6;
  xb8; xb8; x0a; xe6; xba; x82; x0a; xe6;
  xba; xaa; x0a; xe6; xba; x98; x0a; xe6;
  xbb; x89; x0a; xe6; xba; xb7; x0a; xe6;
  xbb; x93; x0a; xe6; xba; xbd; x0a; xe6;
  xba; xaf; x0a; xe6; xbb; x84; x0a; xe6;
  xba; xb2; x0a; xe6; xbb; x94; x0a; xe6;
  xbb; x95; x0a; xe6; xba; x8f; x0a; xe6
].
(* tests/test_data/whatwg/shiftjis_whatwg_test_encode_in.txt, entries 19968..20223 *)
Definition shiftjis_encode_in_78 : list byte := [
  xba; xa5; x0a; xe6; xbb; x82; x0a; xe6;
  xba; x9f; x0a; xe6; xbd; x81; x0a; xe6;
  xbc; x91; x0a; xe7; x81; x8c; x0a; xe6;
  xbb; xac; x0a; xe6; xbb; xb8; x0a; xe6;
  xbb; xbe; x0a; xe6; xbc; xbf; x0a; xe6;
  xbb; xb2; x0a; xe6; xbc; xb1; x0a; xe6;
  xbb; xaf; x0a; xe6; xbc; xb2; x0a; xe6;
  xbb; x8c; x0a; xe6; xbc; xbe; x0a; xe6;
  xbc; x93; x0a; xe6; xbb; xb7; x0a; xe6;
  xbe; x86; x0a; xe6; xbd; xba; x0a; xe6;
  xbd; xb8; x0a; xe6; xbe; x81; x0a; xe6;
  xbe; x80; x0a; xe6; xbd; xaf; x0a; xe6;
  xbd; x9b; x0a; xe6; xbf; xb3; x0a; xe6;
  xbd; xad; x0a; xe6; xbe; x82; x0a; xe6;
  xbd; xbc; x0a; xe6; xbd; x98; x0a; xe6;
  xbe; x8e; x0a; xe6; xbe; x91; x0a; xe6;
  xbf; x82; x0a; xe6; xbd; xa6; x0a; xe6;
  xbe; xb3; x0a; xe6; xbe; xa3; x0a; xe6;
  xbe; xa1; x0a; xe6; xbe; xa4; x0a; xe6;
  xbe; xb9; x0a; xe6; xbf; x86; x0a; xe6;
  xbe; xaa; x0a; xe6; xbf; x9f; x0a; xe6;
  xbf; x95; x0a; xe6; xbf; xac; x0a; xe6;
  xbf; x94; x0a; xe6; xbf; x98; x0a; xe6;
  xbf; xb1; x0a; xe6; xbf; xae; x0a; xe6;
  xbf; x9b; x0a; xe7; x80; x89; x0a; xe7;
  x80; x8b; x0a; xe6; xbf; xba; x0a; xe7;
  x80; x91; x0a; xe7; x80; x81; x0a; xe7;
  x80; x8f; x0a; xe6; xbf; xbe; x0a; xe7;
  x80; x9b; x0a; xe7; x80; x9a; x0a; xe6;
  xbd; xb4; x0a; xe7; x80; x9d; x0a; xe7;
  x80; x98; x0a; xe7; x80; x9f; x0a; xe7;
  x80; xb0; x0a; xe7; x80; xbe; x0a; xe7
].
(* tests/test_data/whatwg/shiftjis_whatwg_test_encode_in.txt, entries 20224..20479 *)
Definition shiftjis_encode_in_79 : list byte := [
  x80; xb2; x0a; xe7; x81; x91; x0a; xe7;
  x81; xa3; x0a; xe7; x82; x99; x0a; xe7;
  x82; x92; x0a; xe7; x82; xaf; x0a; xe7;
  x83; xb1; x0a; xe7; x82; xac; x0a; xe7;
  x82; xb8; x0a; xe7; x82; xb3; x0a; xe7;
  x82; xae; x0a; xe7; x83; x9f; x0a; xe7;
  x83; x8b; x0a; xe7; x83; x9d; x0a; xe7;
  x83; x99; x0a; xe7; x84; x89; x0a; xe7;
  x83; xbd; x0a; xe7; x84; x9c; x0a; xe7;
  x84; x99; x0a; xe7; x85; xa5; x0a; xe7;
  x85; x95; x0a; xe7; x86; x88; x0a; xe7;
  x85; xa6; x0a; xe7; x85; xa2; x0a; xe7;
  x85; x8c; x0a; xe7; x85; x96; x0a; xe7;
  x85; xac; x0a; xe7; x86; x8f; x0a; xe7;
  x87; xbb; x0a; xe7; x86; x84; x0a; xe7;
  x86; x95; x0a; xe7; x86; xa8; x0a; xe7;
  x86; xac; x0a; xe7; x87; x97; x0a; xe7;
  x86; xb9; x0a; xe7; x86; xbe; x0a; xe7;
  x87; x92; x0a; xe7; x87; x89; x0a; xe7;
  x87; x94; x0a; xe7; x87; x8e; x0a; xe7;
  x87; xa0; x0a; xe7; x87; xac; x0a; xe7;
  x87; xa7; x0a; xe7; x87; xb5; x0a; xe7;
  x87; xbc; x0a; xe7; x87; xb9; x0a; xe7;
  x87; xbf; x0a; xe7; x88; x8d; x0a; xe7;
  x88; x90; x0a; xe7; x88; x9b; x0a; xe7;
  x88; xa8; x0a; xe7; x88; xad; x0a; xe7;
  x88; xac; x0a; xe7; x88; xb0; x0a; xe7;
  x88; xb2; x0a; xe7; x88; xbb; x0a; xe7;
  x88; xbc; x0a; xe7; x88; xbf; x0a; xe7;
  x89; x80; x0a; xe7; x89; x86; x0a; xe7;
  x89; x8b; x0a; xe7; x89; x98; x0a; xe7;
  x89; xb4; x0a; xe7; x89; xbe; x0a; xe7
].
(* tests/test_data/whatwg/shiftjis_whatwg_test_encode_in.txt, entries 20480..20735 *)
Definition shiftjis_encode_in_80 : list byte := [
  x8a; x82; x0a; xe7; x8a; x81; x0a; xe7;
  x8a; x87; x0a; xe7; x8a; x92; x0a; xe7;
  x8a; x96; x0a; xe7; x8a; xa2; x0a; xe7;
  x8a; xa7; x0a; xe7; x8a; xb9; x0a; xe7;
  x8a; xb2; x0a; xe7; x8b; x83; x0a; xe7;
  x8b; x86; x0a; xe7; x8b; x84; x0a; xe7;
  x8b; x8e; x0a; xe7; x8b; x92; x0a; xe7;
  x8b; xa2; x0a; xe7; x8b; xa0; x0a; xe7;
  x8b; xa1; x0a; xe7; x8b; xb9; x0a; xe7;
  x8b; xb7; x0a; xe5; x80; x8f; x0a; xe7;
  x8c; x97; x0a; xe7; x8c; x8a; x0a; xe7;
  x8c; x9c; x0a; xe7; x8c; x96; x0a; xe7;
  x8c; x9d; x0a; xe7; x8c; xb4; x0a; xe7;
  x8c; xaf; x0a; xe7; x8c; xa9; x0a; xe7;
  x8c; xa5; x0a; xe7; x8c; xbe; x0a; xe7;
  x8d; x8e; x0a; xe7; x8d; x8f; x0a; xe9;
  xbb; x98; x0a; xe7; x8d; x97; x0a; xe7;
  x8d; xaa; x0a; xe7; x8d; xa8; x0a; xe7;
  x8d; xb0; x0a; xe7; x8d; xb8; x0a; xe7;
  x8d; xb5; x0a; xe7; x8d; xbb; x0a; xe7;
  x8d; xba; x0a; xe7; x8f; x88; x0a; xe7;
  x8e; xb3; x0a; xe7; x8f; x8e; x0a; xe7;
  x8e; xbb; x0a; xe7; x8f; x80; x0a; xe7;
  x8f; xa5; x0a; xe7; x8f; xae; x0a; xe7;
  x8f; x9e; x0a; xe7; x92; xa2; x0a; xe7;
  x90; x85; x0a; xe7; x91; xaf; x0a; xe7;
  x90; xa5; x0a; xe7; x8f; xb8; x0a; xe7;
  x90; xb2; x0a; xe7; x90; xba; x0a; xe7;
  x91; x95; x0a; xe7; x90; xbf; x0a; xe7;
  x91; x9f; x0a; xe7; x91; x99; x0a; xe7;
  x91; x81; x0a; xe7; x91; x9c; x0a; xe7;
  x91; xa9; x0a; xe7; x91; xb0; x0a; xe7
].
(* tests/test_data/whatwg/shiftjis_whatwg_test_encode_in.txt, entries 20736..20991 *)
Definition shiftjis_encode_in_81 : list byte := [
  x91; xa3; x0a; xe7; x91; xaa; x0a; xe7;
  x91; xb6; x0a; xe7; x91; xbe; x0a; xe7;
  x92; x8b; x0a; xe7; x92; x9e; x0a; xe7;
  x92; xa7; x0a; xe7; x93; x8a; x0a; xe7;
  x93; x8f; x0a; xe7; x93; x94; x0a; xe7;
  x8f; xb1; x0a; xe7; x93; xa0; x0a; xe7;
  x93; xa3; x0a; xe7; x93; xa7; x0a; xe7;
  x93; xa9; x0a; xe7; x93; xae; x0a; xe7;
  x93; xb2; x0a; xe7; x93; xb0; x0a; xe7;
  x93; xb1; x0a; xe7; x93; xb8; x0a; xe7;
  x93; xb7; x0a; xe7; x94; x84; x0a; xe7;
  x94; x83; x0a; xe7; x94; x85; x0a; xe7;
  x94; x8c; x0a; xe7; x94; x8e; x0a; xe7;
  x94; x8d; x0a; xe7; x94; x95; x0a; xe7;
  x94; x93; x0a; xe7; x94; x9e; x0a; xe7;
  x94; xa6; x0a; xe7; x94; xac; x0a; xe7;
  x94; xbc; x0a; xe7; x95; x84; x0a; xe7;
  x95; x8d; x0a; xe7; x95; x8a; x0a; xe7;
  x95; x89; x0a; xe7; x95; x9b; x0a; xe7;
  x95; x86; x0a; xe7; x95; x9a; x0a; xe7;
  x95; xa9; x0a; xe7; x95; xa4; x0a; xe7;
  x95; xa7; x0a; xe7; x95; xab; x0a; xe7;
  x95; xad; x0a; xe7; x95; xb8; x0a; xe7;
  x95; xb6; x0a; xe7; x96; x86; x0a; xe7;
  x96; x87; x0a; xe7; x95; xb4; x0a; xe7;
  x96; x8a; x0a; xe7; x96; x89; x0a; xe7;
  x96; x82; x0a; xe7; x96; x94; x0a; xe7;
  x96; x9a; x0a; xe7; x96; x9d; x0a; xe7;
  x96; xa5; x0a; xe7; x96; xa3; x0a; xe7;
  x97; x82; x0a; xe7; x96; xb3; x0a; xe7;
  x97; x83; x0a; xe7; x96; xb5; x0a; xe7;
  x96; xbd; x0a; xe7; x96; xb8; x0a; xe7
].
(* tests/test_data/whatwg/shiftjis_whatwg_test_encode_in.txt, entries 20992..21247 *)
Definition shiftjis_encode_in_82 : list byte := [
  x96; xbc; x0a; xe7; x96; xb1; x0a; xe7;
  x97; x8d; x0a; xe7; x97; x8a; x0a; xe7;
  x97; x92; x0a; xe7; x97; x99; x0a; xe7;
  x97; xa3; x0a; xe7; x97; x9e; x0a; xe7;
  x97; xbe; x0a; xe7; x97; xbf; x0a; xe7;
  x97; xbc; x0a; xe7; x98; x81; x0a; xe7;
  x97; xb0; x0a; xe7; x97; xba; x0a; xe7;
  x97; xb2; x0a; xe7; x97; xb3; x0a; xe7;
  x98; x8b; x0a; xe7; x98; x8d; x0a; xe7;
  x98; x89; x0a; xe7; x98; x9f; x0a; xe7;
  x98; xa7; x0a; xe7; x98; xa0; x0a; xe7;
  x98; xa1; x0a; xe7; x98; xa2; x0a; xe7;
  x98; xa4; x0a; xe7; x98; xb4; x0a; xe7;
  x98; xb0; x0a; xe7; x98; xbb; x0a; xe7;
  x99; x87; x0a; xe7; x99; x88; x0a; xe7;
  x99; x86; x0a; xe7; x99; x9c; x0a; xe7;
  x99; x98; x0a; xe7; x99; xa1; x0a; xe7;
  x99; xa2; x0a; xe7; x99; xa8; x0a; xe7;
  x99; xa9; x0a; xe7; x99; xaa; x0a; xe7;
  x99; xa7; x0a; xe7; x99; xac; x0a; xe7;
  x99; xb0; x0a; xe7; x99; xb2; x0a; xe7;
  x99; xb6; x0a; xe7; x99; xb8; x0a; xe7;
  x99; xbc; x0a; xe7; x9a; x80; x0a; xe7;
  x9a; x83; x0a; xe7; x9a; x88; x0a; xe7;
  x9a; x8b; x0a; xe7; x9a; x8e; x0a; xe7;
  x9a; x96; x0a; xe7; x9a; x93; x0a; xe7;
  x9a; x99; x0a; xe7; x9a; x9a; x0a; xe7;
  x9a; xb0; x0a; xe7; x9a; xb4; x0a; xe7;
  x9a; xb8; x0a; xe7; x9a; xb9; x0a; xe7;
  x9a; xba; x0a; xe7; x9b; x82; x0a; xe7;
  x9b; x8d; x0a; xe7; x9b; x96; x0a; xe7;
  x9b; x92; x0a; xe7; x9b; x9e; x0a; xe7
].
(* tests/test_data/whatwg/shiftjis_whatwg_test_encode_in.txt, entries 21248..21503 *)
Definition shiftjis_encode_in_83 : list byte := [
  x9b; xa1; x0a; xe7; x9b; xa5; x0a; xe7;
  x9b; xa7; x0a; xe7; x9b; xaa; x0a; xe8;
  x98; xaf; x0a; xe7; x9b; xbb; x0a; xe7;
  x9c; x88; x0a; xe7; x9c; x87; x0a; xe7;
  x9c; x84; x0a; xe7; x9c; xa9; x0a; xe7;
  x9c; xa4; x0a; xe7; x9c; x9e; x0a; xe7;
  x9c; xa5; x0a; xe7; x9c; xa6; x0a; xe7;
  x9c; x9b; x0a; xe7; x9c; xb7; x0a; xe7;
  x9c; xb8; x0a; xe7; x9d; x87; x0a; xe7;
  x9d; x9a; x0a; xe7; x9d; xa8; x0a; xe7;
  x9d; xab; x0a; xe7; x9d; x9b; x0a; xe7;
  x9d; xa5; x0a; xe7; x9d; xbf; x0a; xe7;
  x9d; xbe; x0a; xe7; x9d; xb9; x0a; xe7;
  x9e; x8e; x0a; xe7; x9e; x8b; x0a; xe7;
  x9e; x91; x0a; xe7; x9e; xa0; x0a; xe7;
  x9e; x9e; x0a; xe7; x9e; xb0; x0a; xe7;
  x9e; xb6; x0a; xe7; x9e; xb9; x0a; xe7;
  x9e; xbf; x0a; xe7; x9e; xbc; x0a; xe7;
  x9e; xbd; x0a; xe7; x9e; xbb; x0a; xe7;
  x9f; x87; x0a; xe7; x9f; x8d; x0a; xe7;
  x9f; x97; x0a; xe7; x9f; x9a; x0a; xe7;
  x9f; x9c; x0a; xe7; x9f; xa3; x0a; xe7;
  x9f; xae; x0a; xe7; x9f; xbc; x0a; xe7;
  xa0; x8c; x0a; xe7; xa0; x92; x0a; xe7;
  xa4; xa6; x0a; xe7; xa0; xa0; x0a; xe7;
  xa4; xaa; x0a; xe7; xa1; x85; x0a; xe7;
  xa2; x8e; x0a; xe7; xa1; xb4; x0a; xe7;
  xa2; x86; x0a; xe7; xa1; xbc; x0a; xe7;
  xa2; x9a; x0a; xe7; xa2; x8c; x0a; xe7;
  xa2; xa3; x0a; xe7; xa2; xb5; x0a; xe7;
  xa2; xaa; x0a; xe7; xa2; xaf; x0a; xe7;
  xa3; x91; x0a; xe7; xa3; x86; x0a; xe7
].
(* tests/test_data/whatwg/shiftjis_whatwg_test_encode_in.txt, entries 21504..21759 *)
Definition shiftjis_encode_in_84 : list byte := [
  xa3; x8b; x0a; xe7; xa3; x94; x0a; xe7;
  xa2; xbe; x0a; xe7; xa2; xbc; x0a; xe7;
  xa3; x85; x0a; xe7; xa3; x8a; x0a; xe7;
  xa3; xac; x0a; xe7; xa3; xa7; x0a; xe7;
  xa3; x9a; x0a; xe7; xa3; xbd; x0a; xe7;
  xa3; xb4; x0a; xe7; xa4; x87; x0a; xe7;
  xa4; x92; x0a; xe7; xa4; x91; x0a; xe7;
  xa4; x99; x0a; xe7; xa4; xac; x0a; xe7;
  xa4; xab; x0a; xe7; xa5; x80; x0a; xe7;
  xa5; xa0; x0a; xe7; xa5; x97; x0a; xe7;
  xa5; x9f; x0a; xe7; xa5; x9a; x0a; xe7;
  xa5; x95; x0a; xe7; xa5; x93; x0a; xe7;
  xa5; xba; x0a; xe7; xa5; xbf; x0a; xe7;
  xa6; x8a; x0a; xe7; xa6; x9d; x0a; xe7;
  xa6; xa7; x0a; xe9; xbd; x8b; x0a; xe7;
  xa6; xaa; x0a; xe7; xa6; xae; x0a; xe7;
  xa6; xb3; x0a; xe7; xa6; xb9; x0a; xe7;
  xa6; xba; x0a; xe7; xa7; x89; x0a; xe7;
  xa7; x95; x0a; xe7; xa7; xa7; x0a; xe7;
  xa7; xac; x0a; xe7; xa7; xa1; x0a; xe7;
  xa7; xa3; x0a; xe7; xa8; x88; x0a; xe7;
  xa8; x8d; x0a; xe7; xa8; x98; x0a; xe7;
  xa8; x99; x0a; xe7; xa8; xa0; x0a; xe7;
  xa8; x9f; x0a; xe7; xa6; x80; x0a; xe7;
  xa8; xb1; x0a; xe7; xa8; xbb; x0a; xe7;
  xa8; xbe; x0a; xe7; xa8; xb7; x0a; xe7;
  xa9; x83; x0a; xe7; xa9; x97; x0a; xe7;
  xa9; x89; x0a; xe7; xa9; xa1; x0a; xe7;
  xa9; xa2; x0a; xe7; xa9; xa9; x0a; xe9;
  xbe; x9d; x0a; xe7; xa9; xb0; x0a; xe7;
  xa9; xb9; x0a; xe7; xa9; xbd; x0a; xe7;
  xaa; x88; x0a; xe7; xaa; x97; x0a; xe7
].
(* tests/test_data/whatwg/shiftjis_whatwg_test_encode_in.txt, entries 21760..22015 *)
Definition shiftjis_encode_in_85 : list byte := [
  xaa; x95; x0a; xe7; xaa; x98; x0a; xe7;
  xaa; x96; x0a; xe7; xaa; xa9; x0a; xe7;
  xab; x88; x0a; xe7; xaa; xb0; x0a; xe7;
  xaa; xb6; x0a; xe7; xab; x85; x0a; xe7;
  xab; x84; x0a; xe7; xaa; xbf; x0a; xe9;
  x82; x83; x0a; xe7; xab; x87; x0a; xe7;
  xab; x8a; x0a; xe7; xab; x8d; x0a; xe7;
  xab; x8f; x0a; xe7; xab; x95; x0a; xe7;
  xab; x93; x0a; xe7; xab; x99; x0a; xe7;
  xab; x9a; x0a; xe7; xab; x9d; x0a; xe7;
  xab; xa1; x0a; xe7; xab; xa2; x0a; xe7;
  xab; xa6; x0a; xe7; xab; xad; x0a; xe7;
  xab; xb0; x0a; xe7; xac; x82; x0a; xe7;
  xac; x8f; x0a; xe7; xac; x8a; x0a; xe7;
  xac; x86; x0a; xe7; xac; xb3; x0a; xe7;
  xac; x98; x0a; xe7; xac; x99; x0a; xe7;
  xac; x9e; x0a; xe7; xac; xb5; x0a; xe7;
  xac; xa8; x0a; xe7; xac; xb6; x0a; xe7;
  xad; x90; x0a; xe7; xad; xba; x0a; xe7;
  xac; x84; x0a; xe7; xad; x8d; x0a; xe7;
  xac; x8b; x0a; xe7; xad; x8c; x0a; xe7;
  xad; x85; x0a; xe7; xad; xb5; x0a; xe7;
  xad; xa5; x0a; xe7; xad; xb4; x0a; xe7;
  xad; xa7; x0a; xe7; xad; xb0; x0a; xe7;
  xad; xb1; x0a; xe7; xad; xac; x0a; xe7;
  xad; xae; x0a; xe7; xae; x9d; x0a; xe7;
  xae; x98; x0a; xe7; xae; x9f; x0a; xe7;
  xae; x8d; x0a; xe7; xae; x9c; x0a; xe7;
  xae; x9a; x0a; xe7; xae; x8b; x0a; xe7;
  xae; x92; x0a; xe7; xae; x8f; x0a; xe7;
  xad; x9d; x0a; xe7; xae; x99; x0a; xe7;
  xaf; x8b; x0a; xe7; xaf; x81; x0a; xe7
].
(* tests/test_data/whatwg/shiftjis_whatwg_test_encode_in.txt, entries 22016..22271 *)
Definition shiftjis_encode_in_86 : list byte := [
  xaf; x8c; x0a; xe7; xaf; x8f; x0a; xe7;
  xae; xb4; x0a; xe7; xaf; x86; x0a; xe7;
  xaf; x9d; x0a; xe7; xaf; xa9; x0a; xe7;
  xb0; x91; x0a; xe7; xb0; x94; x0a; xe7;
  xaf; xa6; x0a; xe7; xaf; xa5; x0a; xe7;
  xb1; xa0; x0a; xe7; xb0; x80; x0a; xe7;
  xb0; x87; x0a; xe7; xb0; x93; x0a; xe7;
  xaf; xb3; x0a; xe7; xaf; xb7; x0a; xe7;
  xb0; x97; x0a; xe7; xb0; x8d; x0a; xe7;
  xaf; xb6; x0a; xe7; xb0; xa3; x0a; xe7;
  xb0; xa7; x0a; xe7; xb0; xaa; x0a; xe7;
  xb0; x9f; x0a; xe7; xb0; xb7; x0a; xe7;
  xb0; xab; x0a; xe7; xb0; xbd; x0a; xe7;
  xb1; x8c; x0a; xe7; xb1; x83; x0a; xe7;
  xb1; x94; x0a; xe7; xb1; x8f; x0a; xe7;
  xb1; x80; x0a; xe7; xb1; x90; x0a; xe7;
  xb1; x98; x0a; xe7; xb1; x9f; x0a; xe7;
  xb1; xa4; x0a; xe7; xb1; x96; x0a; xe7;
  xb1; xa5; x0a; xe7; xb1; xac; x0a; xe7;
  xb1; xb5; x0a; xe7; xb2; x83; x0a; xe7;
  xb2; x90; x0a; xe7; xb2; xa4; x0a; xe7;
  xb2; xad; x0a; xe7; xb2; xa2; x0a; xe7;
  xb2; xab; x0a; xe7; xb2; xa1; x0a; xe7;
  xb2; xa8; x0a; xe7; xb2; xb3; x0a; xe7;
  xb2; xb2; x0a; xe7; xb2; xb1; x0a; xe7;
  xb2; xae; x0a; xe7; xb2; xb9; x0a; xe7;
  xb2; xbd; x0a; xe7; xb3; x80; x0a; xe7;
  xb3; x85; x0a; xe7; xb3; x82; x0a; xe7;
  xb3; x98; x0a; xe7; xb3; x92; x0a; xe7;
  xb3; x9c; x0a; xe7; xb3; xa2; x0a; xe9;
  xac; xbb; x0a; xe7; xb3; xaf; x0a; xe7;
  xb3; xb2; x0a; xe7; xb3; xb4; x0a; xe7
].
(* tests/test_data/whatwg/shiftjis_whatwg_test_encode_in.txt, entries 22272..22527 *)
Definition shiftjis_encode_in_87 : list byte := [
  xb3; xb6; x0a; xe7; xb3; xba; x0a; xe7;
  xb4; x86; x0a; xe7; xb4; x82; x0a; xe7;
  xb4; x9c; x0a; xe7; xb4; x95; x0a; xe7;
  xb4; x8a; x0a; xe7; xb5; x85; x0a; xe7;
  xb5; x8b; x0a; xe7; xb4; xae; x0a; xe7;
  xb4; xb2; x0a; xe7; xb4; xbf; x0a; xe7;
  xb4; xb5; x0a; xe7; xb5; x86; x0a; xe7;
  xb5; xb3; x0a; xe7; xb5; x96; x0a; xe7;
  xb5; x8e; x0a; xe7; xb5; xb2; x0a; xe7;
  xb5; xa8; x0a; xe7; xb5; xae; x0a; xe7;
  xb5; x8f; x0a; xe7; xb5; xa3; x0a; xe7;
  xb6; x93; x0a; xe7; xb6; x89; x0a; xe7;
  xb5; x9b; x0a; xe7; xb6; x8f; x0a; xe7;
  xb5; xbd; x0a; xe7; xb6; x9b; x0a; xe7;
  xb6; xba; x0a; xe7; xb6; xae; x0a; xe7;
  xb6; xa3; x0a; xe7; xb6; xb5; x0a; xe7;
  xb7; x87; x0a; xe7; xb6; xbd; x0a; xe7;
  xb6; xab; x0a; xe7; xb8; xbd; x0a; xe7;
  xb6; xa2; x0a; xe7; xb6; xaf; x0a; xe7;
  xb7; x9c; x0a; xe7; xb6; xb8; x0a; xe7;
  xb6; x9f; x0a; xe7; xb6; xb0; x0a; xe7;
  xb7; x98; x0a; xe7; xb7; x9d; x0a; xe7;
  xb7; xa4; x0a; xe7; xb7; x9e; x0a; xe7;
  xb7; xbb; x0a; xe7; xb7; xb2; x0a; xe7;
  xb7; xa1; x0a; xe7; xb8; x85; x0a; xe7;
  xb8; x8a; x0a; xe7; xb8; xa3; x0a; xe7;
  xb8; xa1; x0a; xe7; xb8; x92; x0a; xe7;
  xb8; xb1; x0a; xe7; xb8; x9f; x0a; xe7;
  xb8; x89; x0a; xe7; xb8; x8b; x0a; xe7;
  xb8; xa2; x0a; xe7; xb9; x86; x0a; xe7;
  xb9; xa6; x0a; xe7; xb8; xbb; x0a; xe7;
  xb8; xb5; x0a; xe7; xb8; xb9; x0a; xe7
].
(* tests/test_data/whatwg/shiftjis_whatwg_test_encode_in.txt, entries 22528..22783 *)
Definition shiftjis_encode_in_88 : list byte := [
  xb9; x83; x0a; xe7; xb8; xb7; x0a; xe7;
  xb8; xb2; x0a; xe7; xb8; xba; x0a; xe7;
  xb9; xa7; x0a; xe7; xb9; x9d; x0a; xe7;
  xb9; x96; x0a; xe7; xb9; x9e; x0a; xe7;
  xb9; x99; x0a; xe7; xb9; x9a; x0a; xe7;
  xb9; xb9; x0a; xe7; xb9; xaa; x0a; xe7;
  xb9; xa9; x0a; xe7; xb9; xbc; x0a; xe7;
  xb9; xbb; x0a; xe7; xba; x83; x0a; xe7;
  xb7; x95; x0a; xe7; xb9; xbd; x0a; xe8;
  xbe; xae; x0a; xe7; xb9; xbf; x0a; xe7;
  xba; x88; x0a; xe7; xba; x89; x0a; xe7;
  xba; x8c; x0a; xe7; xba; x92; x0a; xe7;
  xba; x90; x0a; xe7; xba; x93; x0a; xe7;
  xba; x94; x0a; xe7; xba; x96; x0a; xe7;
  xba; x8e; x0a; xe7; xba; x9b; x0a; xe7;
  xba; x9c; x0a; xe7; xbc; xb8; x0a; xe7;
  xbc; xba; x0a; xe7; xbd; x85; x0a; xe7;
  xbd; x8c; x0a; xe7; xbd; x8d; x0a; xe7;
  xbd; x8e; x0a; xe7; xbd; x90; x0a; xe7;
  xbd; x91; x0a; xe7; xbd; x95; x0a; xe7;
  xbd; x94; x0a; xe7; xbd; x98; x0a; xe7;
  xbd; x9f; x0a; xe7; xbd; xa0; x0a; xe7;
  xbd; xa8; x0a; xe7; xbd; xa9; x0a; xe7;
  xbd; xa7; x0a; xe7; xbd; xb8; x0a; xe7;
  xbe; x82; x0a; xe7; xbe; x86; x0a; xe7;
  xbe; x83; x0a; xe7; xbe; x88; x0a; xe7;
  xbe; x87; x0a; xe7; xbe; x8c; x0a; xe7;
  xbe; x94; x0a; xe7; xbe; x9e; x0a; xe7;
  xbe; x9d; x0a; xe7; xbe; x9a; x0a; xe7;
  xbe; xa3; x0a; xe7; xbe; xaf; x0a; xe7;
  xbe; xb2; x0a; xe7; xbe; xb9; x0a; xe7;
  xbe; xae; x0a; xe7; xbe; xb6; x0a; xe7
].
(* tests/test_data/whatwg/shiftjis_whatwg_test_encode_in.txt, entries 22784..23039 *)
Definition shiftjis_encode_in_89 : list byte := [
  xbe; xb8; x0a; xe8; xad; xb1; x0a; xe7;
  xbf; x85; x0a; xe7; xbf; x86; x0a; xe7;
  xbf; x8a; x0a; xe7; xbf; x95; x0a; xe7;
  xbf; x94; x0a; xe7; xbf; xa1; x0a; xe7;
  xbf; xa6; x0a; xe7; xbf; xa9; x0a; xe7;
  xbf; xb3; x0a; xe7; xbf; xb9; x0a; xe9;
  xa3; x9c; x0a; xe8; x80; x86; x0a; xe8;
  x80; x84; x0a; xe8; x80; x8b; x0a; xe8;
  x80; x92; x0a; xe8; x80; x98; x0a; xe8;
  x80; x99; x0a; xe8; x80; x9c; x0a; xe8;
  x80; xa1; x0a; xe8; x80; xa8; x0a; xe8;
  x80; xbf; x0a; xe8; x80; xbb; x0a; xe8;
  x81; x8a; x0a; xe8; x81; x86; x0a; xe8;
  x81; x92; x0a; xe8; x81; x98; x0a; xe8;
  x81; x9a; x0a; xe8; x81; x9f; x0a; xe8;
  x81; xa2; x0a; xe8; x81; xa8; x0a; xe8;
  x81; xb3; x0a; xe8; x81; xb2; x0a; xe8;
  x81; xb0; x0a; xe8; x81; xb6; x0a; xe8;
  x81; xb9; x0a; xe8; x81; xbd; x0a; xe8;
  x81; xbf; x0a; xe8; x82; x84; x0a; xe8;
  x82; x86; x0a; xe8; x82; x85; x0a; xe8;
  x82; x9b; x0a; xe8; x82; x93; x0a; xe8;
  x82; x9a; x0a; xe8; x82; xad; x0a; xe5;
  x86; x90; x0a; xe8; x82; xac; x0a; xe8;
  x83; x9b; x0a; xe8; x83; xa5; x0a; xe8;
  x83; x99; x0a; xe8; x83; x9d; x0a; xe8;
  x83; x84; x0a; xe8; x83; x9a; x0a; xe8;
  x83; x96; x0a; xe8; x84; x89; x0a; xe8;
  x83; xaf; x0a; xe8; x83; xb1; x0a; xe8;
  x84; x9b; x0a; xe8; x84; xa9; x0a; xe8;
  x84; xa3; x0a; xe8; x84; xaf; x0a; xe8;
  x85; x8b; x0a; xe9; x9a; x8b; x0a; xe8
].
(* tests/test_data/whatwg/shiftjis_whatwg_test_encode_in.txt, entries 23040..23295 *)
Definition shiftjis_encode_in_90 : list byte := [
  x85; x86; x0a; xe8; x84; xbe; x0a; xe8;
  x85; x93; x0a; xe8; x85; x91; x0a; xe8;
  x83; xbc; x0a; xe8; x85; xb1; x0a; xe8;
  x85; xae; x0a; xe8; x85; xa5; x0a; xe8;
  x85; xa6; x0a; xe8; x85; xb4; x0a; xe8;
  x86; x83; x0a; xe8; x86; x88; x0a; xe8;
  x86; x8a; x0a; xe8; x86; x80; x0a; xe8;
  x86; x82; x0a; xe8; x86; xa0; x0a; xe8;
  x86; x95; x0a; xe8; x86; xa4; x0a; xe8;
  x86; xa3; x0a; xe8; x85; x9f; x0a; xe8;
  x86; x93; x0a; xe8; x86; xa9; x0a; xe8;
  x86; xb0; x0a; xe8; x86; xb5; x0a; xe8;
  x86; xbe; x0a; xe8; x86; xb8; x0a; xe8;
  x86; xbd; x0a; xe8; x87; x80; x0a; xe8;
  x87; x82; x0a; xe8; x86; xba; x0a; xe8;
  x87; x89; x0a; xe8; x87; x8d; x0a; xe8;
  x87; x91; x0a; xe8; x87; x99; x0a; xe8;
  x87; x98; x0a; xe8; x87; x88; x0a; xe8;
  x87; x9a; x0a; xe8; x87; x9f; x0a; xe8;
  x87; xa0; x0a; xe8; x87; xa7; x0a; xe8;
  x87; xba; x0a; xe8; x87; xbb; x0a; xe8;
  x87; xbe; x0a; xe8; x88; x81; x0a; xe8;
  x88; x82; x0a; xe8; x88; x85; x0a; xe8;
  x88; x87; x0a; xe8; x88; x8a; x0a; xe8;
  x88; x8d; x0a; xe8; x88; x90; x0a; xe8;
  x88; x96; x0a; xe8; x88; xa9; x0a; xe8;
  x88; xab; x0a; xe8; x88; xb8; x0a; xe8;
  x88; xb3; x0a; xe8; x89; x80; x0a; xe8;
  x89; x99; x0a; xe8; x89; x98; x0a; xe8;
  x89; x9d; x0a; xe8; x89; x9a; x0a; xe8;
  x89; x9f; x0a; xe8; x89; xa4; x0a; xe8;
  x89; xa2; x0a; xe8; x89; xa8; x0a; xe8
].
(* tests/test_data/whatwg/shiftjis_whatwg_test_encode_in.txt, entries 23296..23551 *)
Definition shiftjis_encode_in_91 : list byte := [
  x89; xaa; x0a; xe8; x89; xab; x0a; xe8;
  x88; xae; x0a; xe8; x89; xb1; x0a; xe8;
  x89; xb7; x0a; xe8; x89; xb8; x0a; xe8;
  x89; xbe; x0a; xe8; x8a; x8d; x0a; xe8;
  x8a; x92; x0a; xe8; x8a; xab; x0a; xe8;
  x8a; x9f; x0a; xe8; x8a; xbb; x0a; xe8;
  x8a; xac; x0a; xe8; x8b; xa1; x0a; xe8;
  x8b; xa3; x0a; xe8; x8b; x9f; x0a; xe8;
  x8b; x92; x0a; xe8; x8b; xb4; x0a; xe8;
  x8b; xb3; x0a; xe8; x8b; xba; x0a; xe8;
  x8e; x93; x0a; xe8; x8c; x83; x0a; xe8;
  x8b; xbb; x0a; xe8; x8b; xb9; x0a; xe8;
  x8b; x9e; x0a; xe8; x8c; x86; x0a; xe8;
  x8b; x9c; x0a; xe8; x8c; x89; x0a; xe8;
  x8b; x99; x0a; xe8; x8c; xb5; x0a; xe8;
  x8c; xb4; x0a; xe8; x8c; x96; x0a; xe8;
  x8c; xb2; x0a; xe8; x8c; xb1; x0a; xe8;
  x8d; x80; x0a; xe8; x8c; xb9; x0a; xe8;
  x8d; x90; x0a; xe8; x8d; x85; x0a; xe8;
  x8c; xaf; x0a; xe8; x8c; xab; x0a; xe8;
  x8c; x97; x0a; xe8; x8c; x98; x0a; xe8;
  x8e; x85; x0a; xe8; x8e; x9a; x0a; xe8;
  x8e; xaa; x0a; xe8; x8e; x9f; x0a; xe8;
  x8e; xa2; x0a; xe8; x8e; x96; x0a; xe8;
  x8c; xa3; x0a; xe8; x8e; x8e; x0a; xe8;
  x8e; x87; x0a; xe8; x8e; x8a; x0a; xe8;
  x8d; xbc; x0a; xe8; x8e; xb5; x0a; xe8;
  x8d; xb3; x0a; xe8; x8d; xb5; x0a; xe8;
  x8e; xa0; x0a; xe8; x8e; x89; x0a; xe8;
  x8e; xa8; x0a; xe8; x8f; xb4; x0a; xe8;
  x90; x93; x0a; xe8; x8f; xab; x0a; xe8;
  x8f; x8e; x0a; xe8; x8f; xbd; x0a; xe8
].
(* tests/test_data/whatwg/shiftjis_whatwg_test_encode_in.txt, entries 23552..23807 *)
Definition shiftjis_encode_in_92 : list byte := [
  x90; x83; x0a; xe8; x8f; x98; x0a; xe8;
  x90; x8b; x0a; xe8; x8f; x81; x0a; xe8;
  x8f; xb7; x0a; xe8; x90; x87; x0a; xe8;
  x8f; xa0; x0a; xe8; x8f; xb2; x0a; xe8;
  x90; x8d; x0a; xe8; x90; xa2; x0a; xe8;
  x90; xa0; x0a; xe8; x8e; xbd; x0a; xe8;
  x90; xb8; x0a; xe8; x94; x86; x0a; xe8;
  x8f; xbb; x0a; xe8; x91; xad; x0a; xe8;
  x90; xaa; x0a; xe8; x90; xbc; x0a; xe8;
  x95; x9a; x0a; xe8; x92; x84; x0a; xe8;
  x91; xb7; x0a; xe8; x91; xab; x0a; xe8;
  x92; xad; x0a; xe8; x91; xae; x0a; xe8;
  x92; x82; x0a; xe8; x91; xa9; x0a; xe8;
  x91; x86; x0a; xe8; x90; xac; x0a; xe8;
  x91; xaf; x0a; xe8; x91; xb9; x0a; xe8;
  x90; xb5; x0a; xe8; x93; x8a; x0a; xe8;
  x91; xa2; x0a; xe8; x92; xb9; x0a; xe8;
  x92; xbf; x0a; xe8; x92; x9f; x0a; xe8;
  x93; x99; x0a; xe8; x93; x8d; x0a; xe8;
  x92; xbb; x0a; xe8; x93; x9a; x0a; xe8;
  x93; x90; x0a; xe8; x93; x81; x0a; xe8;
  x93; x86; x0a; xe8; x93; x96; x0a; xe8;
  x92; xa1; x0a; xe8; x94; xa1; x0a; xe8;
  x93; xbf; x0a; xe8; x93; xb4; x0a; xe8;
  x94; x97; x0a; xe8; x94; x98; x0a; xe8;
  x94; xac; x0a; xe8; x94; x9f; x0a; xe8;
  x94; x95; x0a; xe8; x94; x94; x0a; xe8;
  x93; xbc; x0a; xe8; x95; x80; x0a; xe8;
  x95; xa3; x0a; xe8; x95; x98; x0a; xe8;
  x95; x88; x0a; xe8; x95; x81; x0a; xe8;
  x98; x82; x0a; xe8; x95; x8b; x0a; xe8;
  x95; x95; x0a; xe8; x96; x80; x0a; xe8
].
(* tests/test_data/whatwg/shiftjis_whatwg_test_encode_in.txt, entries 23808..24063 *)
Definition shiftjis_encode_in_93 : list byte := [
  x96; xa4; x0a; xe8; x96; x88; x0a; xe8;
  x96; x91; x0a; xe8; x96; x8a; x0a; xe8;
  x96; xa8; x0a; xe8; x95; xad; x0a; xe8;
  x96; x94; x0a; xe8; x96; x9b; x0a; xe8;
  x97; xaa; x0a; xe8; x96; x87; x0a; xe8;
  x96; x9c; x0a; xe8; x95; xb7; x0a; xe8;
  x95; xbe; x0a; xe8; x96; x90; x0a; xe8;
  x97; x89; x0a; xe8; x96; xba; x0a; xe8;
  x97; x8f; x0a; xe8; x96; xb9; x0a; xe8;
  x97; x90; x0a; xe8; x97; x95; x0a; xe8;
  x97; x9d; x0a; xe8; x97; xa5; x0a; xe8;
  x97; x9c; x0a; xe8; x97; xb9; x0a; xe8;
  x98; x8a; x0a; xe8; x98; x93; x0a; xe8;
  x98; x8b; x0a; xe8; x97; xbe; x0a; xe8;
  x97; xba; x0a; xe8; x98; x86; x0a; xe8;
  x98; xa2; x0a; xe8; x98; x9a; x0a; xe8;
  x98; xb0; x0a; xe8; x98; xbf; x0a; xe8;
  x99; x8d; x0a; xe4; xb9; x95; x0a; xe8;
  x99; x94; x0a; xe8; x99; x9f; x0a; xe8;
  x99; xa7; x0a; xe8; x99; xb1; x0a; xe8;
  x9a; x93; x0a; xe8; x9a; xa3; x0a; xe8;
  x9a; xa9; x0a; xe8; x9a; xaa; x0a; xe8;
  x9a; x8b; x0a; xe8; x9a; x8c; x0a; xe8;
  x9a; xb6; x0a; xe8; x9a; xaf; x0a; xe8;
  x9b; x84; x0a; xe8; x9b; x86; x0a; xe8;
  x9a; xb0; x0a; xe8; x9b; x89; x0a; xe8;
  xa0; xa3; x0a; xe8; x9a; xab; x0a; xe8;
  x9b; x94; x0a; xe8; x9b; x9e; x0a; xe8;
  x9b; xa9; x0a; xe8; x9b; xac; x0a; xe8;
  x9b; x9f; x0a; xe8; x9b; x9b; x0a; xe8;
  x9b; xaf; x0a; xe8; x9c; x92; x0a; xe8;
  x9c; x86; x0a; xe8; x9c; x88; x0a; xe8
].
(* tests/test_data/whatwg/shiftjis_whatwg_test_encode_in.txt, entries 24064..24319 *)
Definition shiftjis_encode_in_94 : list byte := [
  x9c; x80; x0a; xe8; x9c; x83; x0a; xe8;
  x9b; xbb; x0a; xe8; x9c; x91; x0a; xe8;
  x9c; x89; x0a; xe8; x9c; x8d; x0a; xe8;
  x9b; xb9; x0a; xe8; x9c; x8a; x0a; xe8;
  x9c; xb4; x0a; xe8; x9c; xbf; x0a; xe8;
  x9c; xb7; x0a; xe8; x9c; xbb; x0a; xe8;
  x9c; xa5; x0a; xe8; x9c; xa9; x0a; xe8;
  x9c; x9a; x0a; xe8; x9d; xa0; x0a; xe8;
  x9d; x9f; x0a; xe8; x9d; xb8; x0a; xe8;
  x9d; x8c; x0a; xe8; x9d; x8e; x0a; xe8;
  x9d; xb4; x0a; xe8; x9d; x97; x0a; xe8;
  x9d; xa8; x0a; xe8; x9d; xae; x0a; xe8;
  x9d; x99; x0a; xe8; x9d; x93; x0a; xe8;
  x9d; xa3; x0a; xe8; x9d; xaa; x0a; xe8;
  xa0; x85; x0a; xe8; x9e; xa2; x0a; xe8;
  x9e; x9f; x0a; xe8; x9e; x82; x0a; xe8;
  x9e; xaf; x0a; xe8; x9f; x8b; x0a; xe8;
  x9e; xbd; x0a; xe8; x9f; x80; x0a; xe8;
  x9f; x90; x0a; xe9; x9b; x96; x0a; xe8;
  x9e; xab; x0a; xe8; x9f; x84; x0a; xe8;
  x9e; xb3; x0a; xe8; x9f; x87; x0a; xe8;
  x9f; x86; x0a; xe8; x9e; xbb; x0a; xe8;
  x9f; xaf; x0a; xe8; x9f; xb2; x0a; xe8;
  x9f; xa0; x0a; xe8; xa0; x8f; x0a; xe8;
  xa0; x8d; x0a; xe8; x9f; xbe; x0a; xe8;
  x9f; xb6; x0a; xe8; x9f; xb7; x0a; xe8;
  xa0; x8e; x0a; xe8; x9f; x92; x0a; xe8;
  xa0; x91; x0a; xe8; xa0; x96; x0a; xe8;
  xa0; x95; x0a; xe8; xa0; xa2; x0a; xe8;
  xa0; xa1; x0a; xe8; xa0; xb1; x0a; xe8;
  xa0; xb6; x0a; xe8; xa0; xb9; x0a; xe8;
  xa0; xa7; x0a; xe8; xa0; xbb; x0a; xe8
].
(* tests/test_data/whatwg/shiftjis_whatwg_test_encode_in.txt, entries 24320..24575 *)
Definition shiftjis_encode_in_95 : list byte := [
  xa1; x84; x0a; xe8; xa1; x82; x0a; xe8;
  xa1; x92; x0a; xe8; xa1; x99; x0a; xe8;
  xa1; x9e; x0a; xe8; xa1; xa2; x0a; xe8;
  xa1; xab; x0a; xe8; xa2; x81; x0a; xe8;
  xa1; xbe; x0a; xe8; xa2; x9e; x0a; xe8;
  xa1; xb5; x0a; xe8; xa1; xbd; x0a; xe8;
  xa2; xb5; x0a; xe8; xa1; xb2; x0a; xe8;
  xa2; x82; x0a; xe8; xa2; x97; x0a; xe8;
  xa2; x92; x0a; xe8; xa2; xae; x0a; xe8;
  xa2; x99; x0a; xe8; xa2; xa2; x0a; xe8;
  xa2; x8d; x0a; xe8; xa2; xa4; x0a; xe8;
  xa2; xb0; x0a; xe8; xa2; xbf; x0a; xe8;
  xa2; xb1; x0a; xe8; xa3; x83; x0a; xe8;
  xa3; x84; x0a; xe8; xa3; x94; x0a; xe8;
  xa3; x98; x0a; xe8; xa3; x99; x0a; xe8;
  xa3; x9d; x0a; xe8; xa3; xb9; x0a; xe8;
  xa4; x82; x0a; xe8; xa3; xbc; x0a; xe8;
  xa3; xb4; x0a; xe8; xa3; xa8; x0a; xe8;
  xa3; xb2; x0a; xe8; xa4; x84; x0a; xe8;
  xa4; x8c; x0a; xe8; xa4; x8a; x0a; xe8;
  xa4; x93; x0a; xe8; xa5; x83; x0a; xe8;
  xa4; x9e; x0a; xe8; xa4; xa5; x0a; xe8;
  xa4; xaa; x0a; xe8; xa4; xab; x0a; xe8;
  xa5; x81; x0a; xe8; xa5; x84; x0a; xe8;
  xa4; xbb; x0a; xe8; xa4; xb6; x0a; xe8;
  xa4; xb8; x0a; xe8; xa5; x8c; x0a; xe8;
  xa4; x9d; x0a; xe8; xa5; xa0; x0a; xe8;
  xa5; x9e; x0a; xe8; xa5; xa6; x0a; xe8;
  xa5; xa4; x0a; xe8; xa5; xad; x0a; xe8;
  xa5; xaa; x0a; xe8; xa5; xaf; x0a; xe8;
  xa5; xb4; x0a; xe8; xa5; xb7; x0a; xe8;
  xa5; xbe; x0a; xe8; xa6; x83; x0a; xe8
].
(* tests/test_data/whatwg/shiftjis_whatwg_test_encode_in.txt, entries 24576..24831 *)
Definition shiftjis_encode_in_96 : list byte := [
  xa6; x88; x0a; xe8; xa6; x8a; x0a; xe8;
  xa6; x93; x0a; xe8; xa6; x98; x0a; xe8;
  xa6; xa1; x0a; xe8; xa6; xa9; x0a; xe8;
  xa6; xa6; x0a; xe8; xa6; xac; x0a; xe8;
  xa6; xaf; x0a; xe8; xa6; xb2; x0a; xe8;
  xa6; xba; x0a; xe8; xa6; xbd; x0a; xe8;
  xa6; xbf; x0a; xe8; xa7; x80; x0a; xe8;
  xa7; x9a; x0a; xe8; xa7; x9c; x0a; xe8;
  xa7; x9d; x0a; xe8; xa7; xa7; x0a; xe8;
  xa7; xb4; x0a; xe8; xa7; xb8; x0a; xe8;
  xa8; x83; x0a; xe8; xa8; x96; x0a; xe8;
  xa8; x90; x0a; xe8; xa8; x8c; x0a; xe8;
  xa8; x9b; x0a; xe8; xa8; x9d; x0a; xe8;
  xa8; xa5; x0a; xe8; xa8; xb6; x0a; xe8;
  xa9; x81; x0a; xe8; xa9; x9b; x0a; xe8;
  xa9; x92; x0a; xe8; xa9; x86; x0a; xe8;
  xa9; x88; x0a; xe8; xa9; xbc; x0a; xe8;
  xa9; xad; x0a; xe8; xa9; xac; x0a; xe8;
  xa9; xa2; x0a; xe8; xaa; x85; x0a; xe8;
  xaa; x82; x0a; xe8; xaa; x84; x0a; xe8;
  xaa; xa8; x0a; xe8; xaa; xa1; x0a; xe8;
  xaa; x91; x0a; xe8; xaa; xa5; x0a; xe8;
  xaa; xa6; x0a; xe8; xaa; x9a; x0a; xe8;
  xaa; xa3; x0a; xe8; xab; x84; x0a; xe8;
  xab; x8d; x0a; xe8; xab; x82; x0a; xe8;
  xab; x9a; x0a; xe8; xab; xab; x0a; xe8;
  xab; xb3; x0a; xe8; xab; xa7; x0a; xe8;
  xab; xa4; x0a; xe8; xab; xb1; x0a; xe8;
  xac; x94; x0a; xe8; xab; xa0; x0a; xe8;
  xab; xa2; x0a; xe8; xab; xb7; x0a; xe8;
  xab; x9e; x0a; xe8; xab; x9b; x0a; xe8;
  xac; x8c; x0a; xe8; xac; x87; x0a; xe8
].
(* tests/test_data/whatwg/shiftjis_whatwg_test_encode_in.txt, entries 24832..25087 *)
Definition shiftjis_encode_in_97 : list byte := [
  xac; x9a; x0a; xe8; xab; xa1; x0a; xe8;
  xac; x96; x0a; xe8; xac; x90; x0a; xe8;
  xac; x97; x0a; xe8; xac; xa0; x0a; xe8;
  xac; xb3; x0a; xe9; x9e; xab; x0a; xe8;
  xac; xa6; x0a; xe8; xac; xab; x0a; xe8;
  xac; xbe; x0a; xe8; xac; xa8; x0a; xe8;
  xad; x81; x0a; xe8; xad; x8c; x0a; xe8;
  xad; x8f; x0a; xe8; xad; x8e; x0a; xe8;
  xad; x89; x0a; xe8; xad; x96; x0a; xe8;
  xad; x9b; x0a; xe8; xad; x9a; x0a; xe8;
  xad; xab; x0a; xe8; xad; x9f; x0a; xe8;
  xad; xac; x0a; xe8; xad; xaf; x0a; xe8;
  xad; xb4; x0a; xe8; xad; xbd; x0a; xe8;
  xae; x80; x0a; xe8; xae; x8c; x0a; xe8;
  xae; x8e; x0a; xe8; xae; x92; x0a; xe8;
  xae; x93; x0a; xe8; xae; x96; x0a; xe8;
  xae; x99; x0a; xe8; xae; x9a; x0a; xe8;
  xb0; xba; x0a; xe8; xb1; x81; x0a; xe8;
  xb0; xbf; x0a; xe8; xb1; x88; x0a; xe8;
  xb1; x8c; x0a; xe8; xb1; x8e; x0a; xe8;
  xb1; x90; x0a; xe8; xb1; x95; x0a; xe8;
  xb1; xa2; x0a; xe8; xb1; xac; x0a; xe8;
  xb1; xb8; x0a; xe8; xb1; xba; x0a; xe8;
  xb2; x82; x0a; xe8; xb2; x89; x0a; xe8;
  xb2; x85; x0a; xe8; xb2; x8a; x0a; xe8;
  xb2; x8d; x0a; xe8; xb2; x8e; x0a; xe8;
  xb2; x94; x0a; xe8; xb1; xbc; x0a; xe8;
  xb2; x98; x0a; xe6; x88; x9d; x0a; xe8;
  xb2; xad; x0a; xe8; xb2; xaa; x0a; xe8;
  xb2; xbd; x0a; xe8; xb2; xb2; x0a; xe8;
  xb2; xb3; x0a; xe8; xb2; xae; x0a; xe8;
  xb2; xb6; x0a; xe8; xb3; x88; x0a; xe8
].
(* tests/test_data/whatwg/shiftjis_whatwg_test_encode_in.txt, entries 25088..25343 *)
Definition shiftjis_encode_in_98 : list byte := [
  xb3; x81; x0a; xe8; xb3; xa4; x0a; xe8;
  xb3; xa3; x0a; xe8; xb3; x9a; x0a; xe8;
  xb3; xbd; x0a; xe8; xb3; xba; x0a; xe8;
  xb3; xbb; x0a; xe8; xb4; x84; x0a; xe8;
  xb4; x85; x0a; xe8; xb4; x8a; x0a; xe8;
  xb4; x87; x0a; xe8; xb4; x8f; x0a; xe8;
  xb4; x8d; x0a; xe8; xb4; x90; x0a; xe9;
  xbd; x8e; x0a; xe8; xb4; x93; x0a; xe8;
  xb3; x8d; x0a; xe8; xb4; x94; x0a; xe8;
  xb4; x96; x0a; xe8; xb5; xa7; x0a; xe8;
  xb5; xad; x0a; xe8; xb5; xb1; x0a; xe8;
  xb5; xb3; x0a; xe8; xb6; x81; x0a; xe8;
  xb6; x99; x0a; xe8; xb7; x82; x0a; xe8;
  xb6; xbe; x0a; xe8; xb6; xba; x0a; xe8;
  xb7; x8f; x0a; xe8; xb7; x9a; x0a; xe8;
  xb7; x96; x0a; xe8; xb7; x8c; x0a; xe8;
  xb7; x9b; x0a; xe8; xb7; x8b; x0a; xe8;
  xb7; xaa; x0a; xe8; xb7; xab; x0a; xe8;
  xb7; x9f; x0a; xe8; xb7; xa3; x0a; xe8;
  xb7; xbc; x0a; xe8; xb8; x88; x0a; xe8;
  xb8; x89; x0a; xe8; xb7; xbf; x0a; xe8;
  xb8; x9d; x0a; xe8; xb8; x9e; x0a; xe8;
  xb8; x90; x0a; xe8; xb8; x9f; x0a; xe8;
  xb9; x82; x0a; xe8; xb8; xb5; x0a; xe8;
  xb8; xb0; x0a; xe8; xb8; xb4; x0a; xe8;
  xb9; x8a; x0a; xe8; xb9; x87; x0a; xe8;
  xb9; x89; x0a; xe8; xb9; x8c; x0a; xe8;
  xb9; x90; x0a; xe8; xb9; x88; x0a; xe8;
  xb9; x99; x0a; xe8; xb9; xa4; x0a; xe8;
  xb9; xa0; x0a; xe8; xb8; xaa; x0a; xe8;
  xb9; xa3; x0a; xe8; xb9; x95; x0a; xe8;
  xb9; xb6; x0a; xe8; xb9; xb2; x0a; xe8
].
(* tests/test_data/whatwg/shiftjis_whatwg_test_encode_in.txt, entries 25344..25599 *)
Definition shiftjis_encode_in_99 : list byte := [
  xb9; xbc; x0a; xe8; xba; x81; x0a; xe8;
  xba; x87; x0a; xe8; xba; x85; x0a; xe8;
  xba; x84; x0a; xe8; xba; x8b; x0a; xe8;
  xba; x8a; x0a; xe8; xba; x93; x0a; xe8;
  xba; x91; x0a; xe8; xba; x94; x0a; xe8;
  xba; x99; x0a; xe8; xba; xaa; x0a; xe8;
  xba; xa1; x0a; xe8; xba; xac; x0a; xe8;
  xba; xb0; x0a; xe8; xbb; x86; x0a; xe8;
  xba; xb1; x0a; xe8; xba; xbe; x0a; xe8;
  xbb; x85; x0a; xe8; xbb; x88; x0a; xe8;
  xbb; x8b; x0a; xe8; xbb; x9b; x0a; xe8;
  xbb; xa3; x0a; xe8; xbb; xbc; x0a; xe8;
  xbb; xbb; x0a; xe8; xbb; xab; x0a; xe8;
  xbb; xbe; x0a; xe8; xbc; x8a; x0a; xe8;
  xbc; x85; x0a; xe8; xbc; x95; x0a; xe8;
  xbc; x92; x0a; xe8; xbc; x99; x0a; xe8;
  xbc; x93; x0a; xe8; xbc; x9c; x0a; xe8;
  xbc; x9f; x0a; xe8; xbc; x9b; x0a; xe8;
  xbc; x8c; x0a; xe8; xbc; xa6; x0a; xe8;
  xbc; xb3; x0a; xe8; xbc; xbb; x0a; xe8;
  xbc; xb9; x0a; xe8; xbd; x85; x0a; xe8;
  xbd; x82; x0a; xe8; xbc; xbe; x0a; xe8;
  xbd; x8c; x0a; xe8; xbd; x89; x0a; xe8;
  xbd; x86; x0a; xe8; xbd; x8e; x0a; xe8;
  xbd; x97; x0a; xe8; xbd; x9c; x0a; xe8;
  xbd; xa2; x0a; xe8; xbd; xa3; x0a; xe8;
  xbd; xa4; x0a; xe8; xbe; x9c; x0a; xe8;
  xbe; x9f; x0a; xe8; xbe; xa3; x0a; xe8;
  xbe; xad; x0a; xe8; xbe; xaf; x0a; xe8;
  xbe; xb7; x0a; xe8; xbf; x9a; x0a; xe8;
  xbf; xa5; x0a; xe8; xbf; xa2; x0a; xe8;
  xbf; xaa; x0a; xe8; xbf; xaf; x0a; xe9
].
(* tests/test_data/whatwg/shiftjis_whatwg_test_encode_in.txt, entries 25600..25855 *)
Definition shiftjis_encode_in_100 : list byte := [
  x82; x87; x0a; xe8; xbf; xb4; x0a; xe9;
  x80; x85; x0a; xe8; xbf; xb9; x0a; xe8;
  xbf; xba; x0a; xe9; x80; x91; x0a; xe9;
  x80; x95; x0a; xe9; x80; xa1; x0a; xe9;
  x80; x8d; x0a; xe9; x80; x9e; x0a; xe9;
  x80; x96; x0a; xe9; x80; x8b; x0a; xe9;
  x80; xa7; x0a; xe9; x80; xb6; x0a; xe9;
  x80; xb5; x0a; xe9; x80; xb9; x0a; xe8;
  xbf; xb8; x0a; xe9; x81; x8f; x0a; xe9;
  x81; x90; x0a; xe9; x81; x91; x0a; xe9;
  x81; x92; x0a; xe9; x80; x8e; x0a; xe9;
  x81; x89; x0a; xe9; x80; xbe; x0a; xe9;
  x81; x96; x0a; xe9; x81; x98; x0a; xe9;
  x81; x9e; x0a; xe9; x81; xa8; x0a; xe9;
  x81; xaf; x0a; xe9; x81; xb6; x0a; xe9;
  x9a; xa8; x0a; xe9; x81; xb2; x0a; xe9;
  x82; x82; x0a; xe9; x81; xbd; x0a; xe9;
  x82; x81; x0a; xe9; x82; x80; x0a; xe9;
  x82; x8a; x0a; xe9; x82; x89; x0a; xe9;
  x82; x8f; x0a; xe9; x82; xa8; x0a; xe9;
  x82; xaf; x0a; xe9; x82; xb1; x0a; xe9;
  x82; xb5; x0a; xe9; x83; xa2; x0a; xe9;
  x83; xa4; x0a; xe6; x89; x88; x0a; xe9;
  x83; x9b; x0a; xe9; x84; x82; x0a; xe9;
  x84; x92; x0a; xe9; x84; x99; x0a; xe9;
  x84; xb2; x0a; xe9; x84; xb0; x0a; xe9;
  x85; x8a; x0a; xe9; x85; x96; x0a; xe9;
  x85; x98; x0a; xe9; x85; xa3; x0a; xe9;
  x85; xa5; x0a; xe9; x85; xa9; x0a; xe9;
  x85; xb3; x0a; xe9; x85; xb2; x0a; xe9;
  x86; x8b; x0a; xe9; x86; x89; x0a; xe9;
  x86; x82; x0a; xe9; x86; xa2; x0a; xe9
].
(* tests/test_data/whatwg/shiftjis_whatwg_test_encode_in.txt, entries 25856..26111 *)
Definition shiftjis_encode_in_101 : list byte := [
  x86; xab; x0a; xe9; x86; xaf; x0a; xe9;
  x86; xaa; x0a; xe9; x86; xb5; x0a; xe9;
  x86; xb4; x0a; xe9; x86; xba; x0a; xe9;
  x87; x80; x0a; xe9; x87; x81; x0a; xe9;
  x87; x89; x0a; xe9; x87; x8b; x0a; xe9;
  x87; x90; x0a; xe9; x87; x96; x0a; xe9;
  x87; x9f; x0a; xe9; x87; xa1; x0a; xe9;
  x87; x9b; x0a; xe9; x87; xbc; x0a; xe9;
  x87; xb5; x0a; xe9; x87; xb6; x0a; xe9;
  x88; x9e; x0a; xe9; x87; xbf; x0a; xe9;
  x88; x94; x0a; xe9; x88; xac; x0a; xe9;
  x88; x95; x0a; xe9; x88; x91; x0a; xe9;
  x89; x9e; x0a; xe9; x89; x97; x0a; xe9;
  x89; x85; x0a; xe9; x89; x89; x0a; xe9;
  x89; xa4; x0a; xe9; x89; x88; x0a; xe9;
  x8a; x95; x0a; xe9; x88; xbf; x0a; xe9;
  x89; x8b; x0a; xe9; x89; x90; x0a; xe9;
  x8a; x9c; x0a; xe9; x8a; x96; x0a; xe9;
  x8a; x93; x0a; xe9; x8a; x9b; x0a; xe9;
  x89; x9a; x0a; xe9; x8b; x8f; x0a; xe9;
  x8a; xb9; x0a; xe9; x8a; xb7; x0a; xe9;
  x8b; xa9; x0a; xe9; x8c; x8f; x0a; xe9;
  x8b; xba; x0a; xe9; x8d; x84; x0a; xe9;
  x8c; xae; x0a; xe9; x8c; x99; x0a; xe9;
  x8c; xa2; x0a; xe9; x8c; x9a; x0a; xe9;
  x8c; xa3; x0a; xe9; x8c; xba; x0a; xe9;
  x8c; xb5; x0a; xe9; x8c; xbb; x0a; xe9;
  x8d; x9c; x0a; xe9; x8d; xa0; x0a; xe9;
  x8d; xbc; x0a; xe9; x8d; xae; x0a; xe9;
  x8d; x96; x0a; xe9; x8e; xb0; x0a; xe9;
  x8e; xac; x0a; xe9; x8e; xad; x0a; xe9;
  x8e; x94; x0a; xe9; x8e; xb9; x0a; xe9
].
(* tests/test_data/whatwg/shiftjis_whatwg_test_encode_in.txt, entries 26112..26367 *)
Definition shiftjis_encode_in_102 : list byte := [
  x8f; x96; x0a; xe9; x8f; x97; x0a; xe9;
  x8f; xa8; x0a; xe9; x8f; xa5; x0a; xe9;
  x8f; x98; x0a; xe9; x8f; x83; x0a; xe9;
  x8f; x9d; x0a; xe9; x8f; x90; x0a; xe9;
  x8f; x88; x0a; xe9; x8f; xa4; x0a; xe9;
  x90; x9a; x0a; xe9; x90; x94; x0a; xe9;
  x90; x93; x0a; xe9; x90; x83; x0a; xe9;
  x90; x87; x0a; xe9; x90; x90; x0a; xe9;
  x90; xb6; x0a; xe9; x90; xab; x0a; xe9;
  x90; xb5; x0a; xe9; x90; xa1; x0a; xe9;
  x90; xba; x0a; xe9; x91; x81; x0a; xe9;
  x91; x92; x0a; xe9; x91; x84; x0a; xe9;
  x91; x9b; x0a; xe9; x91; xa0; x0a; xe9;
  x91; xa2; x0a; xe9; x91; x9e; x0a; xe9;
  x91; xaa; x0a; xe9; x88; xa9; x0a; xe9;
  x91; xb0; x0a; xe9; x91; xb5; x0a; xe9;
  x91; xb7; x0a; xe9; x91; xbd; x0a; xe9;
  x91; x9a; x0a; xe9; x91; xbc; x0a; xe9;
  x91; xbe; x0a; xe9; x92; x81; x0a; xe9;
  x91; xbf; x0a; xe9; x96; x82; x0a; xe9;
  x96; x87; x0a; xe9; x96; x8a; x0a; xe9;
  x96; x94; x0a; xe9; x96; x96; x0a; xe9;
  x96; x98; x0a; xe9; x96; x99; x0a; xe9;
  x96; xa0; x0a; xe9; x96; xa8; x0a; xe9;
  x96; xa7; x0a; xe9; x96; xad; x0a; xe9;
  x96; xbc; x0a; xe9; x96; xbb; x0a; xe9;
  x96; xb9; x0a; xe9; x96; xbe; x0a; xe9;
  x97; x8a; x0a; xe6; xbf; xb6; x0a; xe9;
  x97; x83; x0a; xe9; x97; x8d; x0a; xe9;
  x97; x8c; x0a; xe9; x97; x95; x0a; xe9;
  x97; x94; x0a; xe9; x97; x96; x0a; xe9;
  x97; x9c; x0a; xe9; x97; xa1; x0a; xe9
].
(* tests/test_data/whatwg/shiftjis_whatwg_test_encode_in.txt, entries 26368..26623 *)
Definition shiftjis_encode_in_103 : list byte := [
  x97; xa5; x0a; xe9; x97; xa2; x0a; xe9;
  x98; xa1; x0a; xe9; x98; xa8; x0a; xe9;
  x98; xae; x0a; xe9; x98; xaf; x0a; xe9;
  x99; x82; x0a; xe9; x99; x8c; x0a; xe9;
  x99; x8f; x0a; xe9; x99; x8b; x0a; xe9;
  x99; xb7; x0a; xe9; x99; x9c; x0a; xe9;
  x99; x9e; x0a; xe9; x99; x9d; x0a; xe9;
  x99; x9f; x0a; xe9; x99; xa6; x0a; xe9;
  x99; xb2; x0a; xe9; x99; xac; x0a; xe9;
  x9a; x8d; x0a; xe9; x9a; x98; x0a; xe9;
  x9a; x95; x0a; xe9; x9a; x97; x0a; xe9;
  x9a; xaa; x0a; xe9; x9a; xa7; x0a; xe9;
  x9a; xb1; x0a; xe9; x9a; xb2; x0a; xe9;
  x9a; xb0; x0a; xe9; x9a; xb4; x0a; xe9;
  x9a; xb6; x0a; xe9; x9a; xb8; x0a; xe9;
  x9a; xb9; x0a; xe9; x9b; x8e; x0a; xe9;
  x9b; x8b; x0a; xe9; x9b; x89; x0a; xe9;
  x9b; x8d; x0a; xe8; xa5; x8d; x0a; xe9;
  x9b; x9c; x0a; xe9; x9c; x8d; x0a; xe9;
  x9b; x95; x0a; xe9; x9b; xb9; x0a; xe9;
  x9c; x84; x0a; xe9; x9c; x86; x0a; xe9;
  x9c; x88; x0a; xe9; x9c; x93; x0a; xe9;
  x9c; x8e; x0a; xe9; x9c; x91; x0a; xe9;
  x9c; x8f; x0a; xe9; x9c; x96; x0a; xe9;
  x9c; x99; x0a; xe9; x9c; xa4; x0a; xe9;
  x9c; xaa; x0a; xe9; x9c; xb0; x0a; xe9;
  x9c; xb9; x0a; xe9; x9c; xbd; x0a; xe9;
  x9c; xbe; x0a; xe9; x9d; x84; x0a; xe9;
  x9d; x86; x0a; xe9; x9d; x88; x0a; xe9;
  x9d; x82; x0a; xe9; x9d; x89; x0a; xe9;
  x9d; x9c; x0a; xe9; x9d; xa0; x0a; xe9;
  x9d; xa4; x0a; xe9; x9d; xa6; x0a; xe9
].
(* tests/test_data/whatwg/shiftjis_whatwg_test_encode_in.txt, entries 26624..26879 *)
Definition shiftjis_encode_in_104 : list byte := [
  x9d; xa8; x0a; xe5; x8b; x92; x0a; xe9;
  x9d; xab; x0a; xe9; x9d; xb1; x0a; xe9;
  x9d; xb9; x0a; xe9; x9e; x85; x0a; xe9;
  x9d; xbc; x0a; xe9; x9e; x81; x0a; xe9;
  x9d; xba; x0a; xe9; x9e; x86; x0a; xe9;
  x9e; x8b; x0a; xe9; x9e; x8f; x0a; xe9;
  x9e; x90; x0a; xe9; x9e; x9c; x0a; xe9;
  x9e; xa8; x0a; xe9; x9e; xa6; x0a; xe9;
  x9e; xa3; x0a; xe9; x9e; xb3; x0a; xe9;
  x9e; xb4; x0a; xe9; x9f; x83; x0a; xe9;
  x9f; x86; x0a; xe9; x9f; x88; x0a; xe9;
  x9f; x8b; x0a; xe9; x9f; x9c; x0a; xe9;
  x9f; xad; x0a; xe9; xbd; x8f; x0a; xe9;
  x9f; xb2; x0a; xe7; xab; x9f; x0a; xe9;
  x9f; xb6; x0a; xe9; x9f; xb5; x0a; xe9;
  xa0; x8f; x0a; xe9; xa0; x8c; x0a; xe9;
  xa0; xb8; x0a; xe9; xa0; xa4; x0a; xe9;
  xa0; xa1; x0a; xe9; xa0; xb7; x0a; xe9;
  xa0; xbd; x0a; xe9; xa1; x86; x0a; xe9;
  xa1; x8f; x0a; xe9; xa1; x8b; x0a; xe9;
  xa1; xab; x0a; xe9; xa1; xaf; x0a; xe9;
  xa1; xb0; x0a; xe9; xa1; xb1; x0a; xe9;
  xa1; xb4; x0a; xe9; xa1; xb3; x0a; xe9;
  xa2; xaa; x0a; xe9; xa2; xaf; x0a; xe9;
  xa2; xb1; x0a; xe9; xa2; xb6; x0a; xe9;
  xa3; x84; x0a; xe9; xa3; x83; x0a; xe9;
  xa3; x86; x0a; xe9; xa3; xa9; x0a; xe9;
  xa3; xab; x0a; xe9; xa4; x83; x0a; xe9;
  xa4; x89; x0a; xe9; xa4; x92; x0a; xe9;
  xa4; x94; x0a; xe9; xa4; x98; x0a; xe9;
  xa4; xa1; x0a; xe9; xa4; x9d; x0a; xe9;
  xa4; x9e; x0a; xe9; xa4; xa4; x0a; xe9
].
(* tests/test_data/whatwg/shiftjis_whatwg_test_encode_in.txt, entries 26880..27135 *)
Definition shiftjis_encode_in_105 : list byte := [
  xa4; xa0; x0a; xe9; xa4; xac; x0a; xe9;
  xa4; xae; x0a; xe9; xa4; xbd; x0a; xe9;
  xa4; xbe; x0a; xe9; xa5; x82; x0a; xe9;
  xa5; x89; x0a; xe9; xa5; x85; x0a; xe9;
  xa5; x90; x0a; xe9; xa5; x8b; x0a; xe9;
  xa5; x91; x0a; xe9; xa5; x92; x0a; xe9;
  xa5; x8c; x0a; xe9; xa5; x95; x0a; xe9;
  xa6; x97; x0a; xe9; xa6; x98; x0a; xe9;
  xa6; xa5; x0a; xe9; xa6; xad; x0a; xe9;
  xa6; xae; x0a; xe9; xa6; xbc; x0a; xe9;
  xa7; x9f; x0a; xe9; xa7; x9b; x0a; xe9;
  xa7; x9d; x0a; xe9; xa7; x98; x0a; xe9;
  xa7; x91; x0a; xe9; xa7; xad; x0a; xe9;
  xa7; xae; x0a; xe9; xa7; xb1; x0a; xe9;
  xa7; xb2; x0a; xe9; xa7; xbb; x0a; xe9;
  xa7; xb8; x0a; xe9; xa8; x81; x0a; xe9;
  xa8; x8f; x0a; xe9; xa8; x85; x0a; xe9;
  xa7; xa2; x0a; xe9; xa8; x99; x0a; xe9;
  xa8; xab; x0a; xe9; xa8; xb7; x0a; xe9;
  xa9; x85; x0a; xe9; xa9; x82; x0a; xe9;
  xa9; x80; x0a; xe9; xa9; x83; x0a; xe9;
  xa8; xbe; x0a; xe9; xa9; x95; x0a; xe9;
  xa9; x8d; x0a; xe9; xa9; x9b; x0a; xe9;
  xa9; x97; x0a; xe9; xa9; x9f; x0a; xe9;
  xa9; xa2; x0a; xe9; xa9; xa5; x0a; xe9;
  xa9; xa4; x0a; xe9; xa9; xa9; x0a; xe9;
  xa9; xab; x0a; xe9; xa9; xaa; x0a; xe9;
  xaa; xad; x0a; xe9; xaa; xb0; x0a; xe9;
  xaa; xbc; x0a; xe9; xab; x80; x0a; xe9;
  xab; x8f; x0a; xe9; xab; x91; x0a; xe9;
  xab; x93; x0a; xe9; xab; x94; x0a; xe9;
  xab; x9e; x0a; xe9; xab; x9f; x0a; xe9
].
(* tests/test_data/whatwg/shiftjis_whatwg_test_encode_in.txt, entries 27136..27391 *)
Definition shiftjis_encode_in_106 : list byte := [
  xab; xa2; x0a; xe9; xab; xa3; x0a; xe9;
  xab; xa6; x0a; xe9; xab; xaf; x0a; xe9;
  xab; xab; x0a; xe9; xab; xae; x0a; xe9;
  xab; xb4; x0a; xe9; xab; xb1; x0a; xe9;
  xab; xb7; x0a; xe9; xab; xbb; x0a; xe9;
  xac; x86; x0a; xe9; xac; x98; x0a; xe9;
  xac; x9a; x0a; xe9; xac; x9f; x0a; xe9;
  xac; xa2; x0a; xe9; xac; xa3; x0a; xe9;
  xac; xa5; x0a; xe9; xac; xa7; x0a; xe9;
  xac; xa8; x0a; xe9; xac; xa9; x0a; xe9;
  xac; xaa; x0a; xe9; xac; xae; x0a; xe9;
  xac; xaf; x0a; xe9; xac; xb2; x0a; xe9;
  xad; x84; x0a; xe9; xad; x83; x0a; xe9;
  xad; x8f; x0a; xe9; xad; x8d; x0a; xe9;
  xad; x8e; x0a; xe9; xad; x91; x0a; xe9;
  xad; x98; x0a; xe9; xad; xb4; x0a; xe9;
  xae; x93; x0a; xe9; xae; x83; x0a; xe9;
  xae; x91; x0a; xe9; xae; x96; x0a; xe9;
  xae; x97; x0a; xe9; xae; x9f; x0a; xe9;
  xae; xa0; x0a; xe9; xae; xa8; x0a; xe9;
  xae; xb4; x0a; xe9; xaf; x80; x0a; xe9;
  xaf; x8a; x0a; xe9; xae; xb9; x0a; xe9;
  xaf; x86; x0a; xe9; xaf; x8f; x0a; xe9;
  xaf; x91; x0a; xe9; xaf; x92; x0a; xe9;
  xaf; xa3; x0a; xe9; xaf; xa2; x0a; xe9;
  xaf; xa4; x0a; xe9; xaf; x94; x0a; xe9;
  xaf; xa1; x0a; xe9; xb0; xba; x0a; xe9;
  xaf; xb2; x0a; xe9; xaf; xb1; x0a; xe9;
  xaf; xb0; x0a; xe9; xb0; x95; x0a; xe9;
  xb0; x94; x0a; xe9; xb0; x89; x0a; xe9;
  xb0; x93; x0a; xe9; xb0; x8c; x0a; xe9;
  xb0; x86; x0a; xe9; xb0; x88; x0a; xe9
].
(* tests/test_data/whatwg/shiftjis_whatwg_test_encode_in.txt, entries 27392..27647 *)
Definition shiftjis_encode_in_107 : list byte := [
  xb0; x92; x0a; xe9; xb0; x8a; x0a; xe9;
  xb0; x84; x0a; xe9; xb0; xae; x0a; xe9;
  xb0; x9b; x0a; xe9; xb0; xa5; x0a; xe9;
  xb0; xa4; x0a; xe9; xb0; xa1; x0a; xe9;
  xb0; xb0; x0a; xe9; xb1; x87; x0a; xe9;
  xb0; xb2; x0a; xe9; xb1; x86; x0a; xe9;
  xb0; xbe; x0a; xe9; xb1; x9a; x0a; xe9;
  xb1; xa0; x0a; xe9; xb1; xa7; x0a; xe9;
  xb1; xb6; x0a; xe9; xb1; xb8; x0a; xe9;
  xb3; xa7; x0a; xe9; xb3; xac; x0a; xe9;
  xb3; xb0; x0a; xe9; xb4; x89; x0a; xe9;
  xb4; x88; x0a; xe9; xb3; xab; x0a; xe9;
  xb4; x83; x0a; xe9; xb4; x86; x0a; xe9;
  xb4; xaa; x0a; xe9; xb4; xa6; x0a; xe9;
  xb6; xaf; x0a; xe9; xb4; xa3; x0a; xe9;
  xb4; x9f; x0a; xe9; xb5; x84; x0a; xe9;
  xb4; x95; x0a; xe9; xb4; x92; x0a; xe9;
  xb5; x81; x0a; xe9; xb4; xbf; x0a; xe9;
  xb4; xbe; x0a; xe9; xb5; x86; x0a; xe9;
  xb5; x88; x0a; xe9; xb5; x9d; x0a; xe9;
  xb5; x9e; x0a; xe9; xb5; xa4; x0a; xe9;
  xb5; x91; x0a; xe9; xb5; x90; x0a; xe9;
  xb5; x99; x0a; xe9; xb5; xb2; x0a; xe9;
  xb6; x89; x0a; xe9; xb6; x87; x0a; xe9;
  xb6; xab; x0a; xe9; xb5; xaf; x0a; xe9;
  xb5; xba; x0a; xe9; xb6; x9a; x0a; xe9;
  xb6; xa4; x0a; xe9; xb6; xa9; x0a; xe9;
  xb6; xb2; x0a; xe9; xb7; x84; x0a; xe9;
  xb7; x81; x0a; xe9; xb6; xbb; x0a; xe9;
  xb6; xb8; x0a; xe9; xb6; xba; x0a; xe9;
  xb7; x86; x0a; xe9; xb7; x8f; x0a; xe9;
  xb7; x82; x0a; xe9; xb7; x99; x0a; xe9
].
(* tests/test_data/whatwg/shiftjis_whatwg_test_encode_in.txt, entries 27648..27903 *)
Definition shiftjis_encode_in_108 : list byte := [
  xb7; x93; x0a; xe9; xb7; xb8; x0a; xe9;
  xb7; xa6; x0a; xe9; xb7; xad; x0a; xe9;
  xb7; xaf; x0a; xe9; xb7; xbd; x0a; xe9;
  xb8; x9a; x0a; xe9; xb8; x9b; x0a; xe9;
  xb8; x9e; x0a; xe9; xb9; xb5; x0a; xe9;
  xb9; xb9; x0a; xe9; xb9; xbd; x0a; xe9;
  xba; x81; x0a; xe9; xba; x88; x0a; xe9;
  xba; x8b; x0a; xe9; xba; x8c; x0a; xe9;
  xba; x92; x0a; xe9; xba; x95; x0a; xe9;
  xba; x91; x0a; xe9; xba; x9d; x0a; xe9;
  xba; xa5; x0a; xe9; xba; xa9; x0a; xe9;
  xba; xb8; x0a; xe9; xba; xaa; x0a; xe9;
  xba; xad; x0a; xe9; x9d; xa1; x0a; xe9;
  xbb; x8c; x0a; xe9; xbb; x8e; x0a; xe9;
  xbb; x8f; x0a; xe9; xbb; x90; x0a; xe9;
  xbb; x94; x0a; xe9; xbb; x9c; x0a; xe9;
  xbb; x9e; x0a; xe9; xbb; x9d; x0a; xe9;
  xbb; xa0; x0a; xe9; xbb; xa5; x0a; xe9;
  xbb; xa8; x0a; xe9; xbb; xaf; x0a; xe9;
  xbb; xb4; x0a; xe9; xbb; xb6; x0a; xe9;
  xbb; xb7; x0a; xe9; xbb; xb9; x0a; xe9;
  xbb; xbb; x0a; xe9; xbb; xbc; x0a; xe9;
  xbb; xbd; x0a; xe9; xbc; x87; x0a; xe9;
  xbc; x88; x0a; xe7; x9a; xb7; x0a; xe9;
  xbc; x95; x0a; xe9; xbc; xa1; x0a; xe9;
  xbc; xac; x0a; xe9; xbc; xbe; x0a; xe9;
  xbd; x8a; x0a; xe9; xbd; x92; x0a; xe9;
  xbd; x94; x0a; xe9; xbd; xa3; x0a; xe9;
  xbd; x9f; x0a; xe9; xbd; xa0; x0a; xe9;
  xbd; xa1; x0a; xe9; xbd; xa6; x0a; xe9;
  xbd; xa7; x0a; xe9; xbd; xac; x0a; xe9;
  xbd; xaa; x0a; xe9; xbd; xb7; x0a; xe9
].
(* tests/test_data/whatwg/shiftjis_whatwg_test_encode_in.txt, entries 27904..28159 *)
Definition shiftjis_encode_in_109 : list byte := [
  xbd; xb2; x0a; xe9; xbd; xb6; x0a; xe9;
  xbe; x95; x0a; xe9; xbe; x9c; x0a; xe9;
  xbe; xa0; x0a; xe5; xa0; xaf; x0a; xe6;
  xa7; x87; x0a; xe9; x81; x99; x0a; xe7;
  x91; xa4; x0a; xe5; x87; x9c; x0a; xe7;
  x86; x99; x0a; xe2; x85; xb0; x0a; xe2;
  x85; xb1; x0a; xe2; x85; xb2; x0a; xe2;
  x85; xb3; x0a; xe2; x85; xb4; x0a; xe2;
  x85; xb5; x0a; xe2; x85; xb6; x0a; xe2;
  x85; xb7; x0a; xe2; x85; xb8; x0a; xe2;
  x85; xb9; x0a; xef; xbf; xa4; x0a; xef;
  xbc; x87; x0a; xef; xbc; x82; x0a; xe7;
  xba; x8a; x0a; xe8; xa4; x9c; x0a; xe9;
  x8d; x88; x0a; xe9; x8a; x88; x0a; xe8;
  x93; x9c; x0a; xe4; xbf; x89; x0a; xe7;
  x82; xbb; x0a; xe6; x98; xb1; x0a; xe6;
  xa3; x88; x0a; xe9; x8b; xb9; x0a; xe6;
  x9b; xbb; x0a; xe5; xbd; x85; x0a; xe4;
  xb8; xa8; x0a; xe4; xbb; xa1; x0a; xe4;
  xbb; xbc; x0a; xe4; xbc; x80; x0a; xe4;
  xbc; x83; x0a; xe4; xbc; xb9; x0a; xe4;
  xbd; x96; x0a; xe4; xbe; x92; x0a; xe4;
  xbe; x8a; x0a; xe4; xbe; x9a; x0a; xe4;
  xbe; x94; x0a; xe4; xbf; x8d; x0a; xe5;
  x81; x80; x0a; xe5; x80; xa2; x0a; xe4;
  xbf; xbf; x0a; xe5; x80; x9e; x0a; xe5;
  x81; x86; x0a; xe5; x81; xb0; x0a; xe5;
  x81; x82; x0a; xe5; x82; x94; x0a; xe5;
  x83; xb4; x0a; xe5; x83; x98; x0a; xe5;
  x85; x8a; x0a; xe5; x85; xa4; x0a; xe5;
  x86; x9d; x0a; xe5; x86; xbe; x0a; xe5;
  x87; xac; x0a; xe5; x88; x95; x0a; xe5
].
(* tests/test_data/whatwg/shiftjis_whatwg_test_encode_in.txt, entries 28160..28415 *)
Definition shiftjis_encode_in_110 : list byte := [
  x8a; x9c; x0a; xe5; x8a; xa6; x0a; xe5;
  x8b; x80; x0a; xe5; x8b; x9b; x0a; xe5;
  x8c; x80; x0a; xe5; x8c; x87; x0a; xe5;
  x8c; xa4; x0a; xe5; x8d; xb2; x0a; xe5;
  x8e; x93; x0a; xe5; x8e; xb2; x0a; xe5;
  x8f; x9d; x0a; xef; xa8; x8e; x0a; xe5;
  x92; x9c; x0a; xe5; x92; x8a; x0a; xe5;
  x92; xa9; x0a; xe5; x93; xbf; x0a; xe5;
  x96; x86; x0a; xe5; x9d; x99; x0a; xe5;
  x9d; xa5; x0a; xe5; x9e; xac; x0a; xe5;
  x9f; x88; x0a; xe5; x9f; x87; x0a; xef;
  xa8; x8f; x0a; xef; xa8; x90; x0a; xe5;
  xa2; x9e; x0a; xe5; xa2; xb2; x0a; xe5;
  xa4; x8b; x0a; xe5; xa5; x93; x0a; xe5;
  xa5; x9b; x0a; xe5; xa5; x9d; x0a; xe5;
  xa5; xa3; x0a; xe5; xa6; xa4; x0a; xe5;
  xa6; xba; x0a; xe5; xad; x96; x0a; xe5;
  xaf; x80; x0a; xe7; x94; xaf; x0a; xe5;
  xaf; x98; x0a; xe5; xaf; xac; x0a; xe5;
  xb0; x9e; x0a; xe5; xb2; xa6; x0a; xe5;
  xb2; xba; x0a; xe5; xb3; xb5; x0a; xe5;
  xb4; xa7; x0a; xe5; xb5; x93; x0a; xef;
  xa8; x91; x0a; xe5; xb5; x82; x0a; xe5;
  xb5; xad; x0a; xe5; xb6; xb8; x0a; xe5;
  xb6; xb9; x0a; xe5; xb7; x90; x0a; xe5;
  xbc; xa1; x0a; xe5; xbc; xb4; x0a; xe5;
  xbd; xa7; x0a; xe5; xbe; xb7; x0a; xe5;
  xbf; x9e; x0a; xe6; x81; x9d; x0a; xe6;
  x82; x85; x0a; xe6; x82; x8a; x0a; xe6;
  x83; x9e; x0a; xe6; x83; x95; x0a; xe6;
  x84; xa0; x0a; xe6; x83; xb2; x0a; xe6;
  x84; x91; x0a; xe6; x84; xb7; x0a; xe6
].
(* tests/test_data/whatwg/shiftjis_whatwg_test_encode_in.txt, entries 28416..28671 *)
Definition shiftjis_encode_in_111 : list byte := [
  x84; xb0; x0a; xe6; x86; x98; x0a; xe6;
  x88; x93; x0a; xe6; x8a; xa6; x0a; xe6;
  x8f; xb5; x0a; xe6; x91; xa0; x0a; xe6;
  x92; x9d; x0a; xe6; x93; x8e; x0a; xe6;
  x95; x8e; x0a; xe6; x98; x80; x0a; xe6;
  x98; x95; x0a; xe6; x98; xbb; x0a; xe6;
  x98; x89; x0a; xe6; x98; xae; x0a; xe6;
  x98; x9e; x0a; xe6; x98; xa4; x0a; xe6;
  x99; xa5; x0a; xe6; x99; x97; x0a; xe6;
  x99; x99; x0a; xef; xa8; x92; x0a; xe6;
  x99; xb3; x0a; xe6; x9a; x99; x0a; xe6;
  x9a; xa0; x0a; xe6; x9a; xb2; x0a; xe6;
  x9a; xbf; x0a; xe6; x9b; xba; x0a; xe6;
  x9c; x8e; x0a; xef; xa4; xa9; x0a; xe6;
  x9d; xa6; x0a; xe6; x9e; xbb; x0a; xe6;
  xa1; x92; x0a; xe6; x9f; x80; x0a; xe6;
  xa0; x81; x0a; xe6; xa1; x84; x0a; xe6;
  xa3; x8f; x0a; xef; xa8; x93; x0a; xe6;
  xa5; xa8; x0a; xef; xa8; x94; x0a; xe6;
  xa6; x98; x0a; xe6; xa7; xa2; x0a; xe6;
  xa8; xb0; x0a; xe6; xa9; xab; x0a; xe6;
  xa9; x86; x0a; xe6; xa9; xb3; x0a; xe6;
  xa9; xbe; x0a; xe6; xab; xa2; x0a; xe6;
  xab; xa4; x0a; xe6; xaf; x96; x0a; xe6;
  xb0; xbf; x0a; xe6; xb1; x9c; x0a; xe6;
  xb2; x86; x0a; xe6; xb1; xaf; x0a; xe6;
  xb3; x9a; x0a; xe6; xb4; x84; x0a; xe6;
  xb6; x87; x0a; xe6; xb5; xaf; x0a; xe6;
  xb6; x96; x0a; xe6; xb6; xac; x0a; xe6;
  xb7; x8f; x0a; xe6; xb7; xb8; x0a; xe6;
  xb7; xb2; x0a; xe6; xb7; xbc; x0a; xe6;
  xb8; xb9; x0a; xe6; xb9; x9c; x0a; xe6
].
(* tests/test_data/whatwg/shiftjis_whatwg_test_encode_in.txt, entries 28672..28927 *)
Definition shiftjis_encode_in_112 : list byte := [
  xb8; xa7; x0a; xe6; xb8; xbc; x0a; xe6;
  xba; xbf; x0a; xe6; xbe; x88; x0a; xe6;
  xbe; xb5; x0a; xe6; xbf; xb5; x0a; xe7;
  x80; x85; x0a; xe7; x80; x87; x0a; xe7;
  x80; xa8; x0a; xe7; x82; x85; x0a; xe7;
  x82; xab; x0a; xe7; x84; x8f; x0a; xe7;
  x84; x84; x0a; xe7; x85; x9c; x0a; xe7;
  x85; x86; x0a; xe7; x85; x87; x0a; xef;
  xa8; x95; x0a; xe7; x87; x81; x0a; xe7;
  x87; xbe; x0a; xe7; x8a; xb1; x0a; xe7;
  x8a; xbe; x0a; xe7; x8c; xa4; x0a; xef;
  xa8; x96; x0a; xe7; x8d; xb7; x0a; xe7;
  x8e; xbd; x0a; xe7; x8f; x89; x0a; xe7;
  x8f; x96; x0a; xe7; x8f; xa3; x0a; xe7;
  x8f; x92; x0a; xe7; x90; x87; x0a; xe7;
  x8f; xb5; x0a; xe7; x90; xa6; x0a; xe7;
  x90; xaa; x0a; xe7; x90; xa9; x0a; xe7;
  x90; xae; x0a; xe7; x91; xa2; x0a; xe7;
  x92; x89; x0a; xe7; x92; x9f; x0a; xe7;
  x94; x81; x0a; xe7; x95; xaf; x0a; xe7;
  x9a; x82; x0a; xe7; x9a; x9c; x0a; xe7;
  x9a; x9e; x0a; xe7; x9a; x9b; x0a; xe7;
  x9a; xa6; x0a; xef; xa8; x97; x0a; xe7;
  x9d; x86; x0a; xe5; x8a; xaf; x0a; xe7;
  xa0; xa1; x0a; xe7; xa1; x8e; x0a; xe7;
  xa1; xa4; x0a; xe7; xa1; xba; x0a; xe7;
  xa4; xb0; x0a; xef; xa8; x98; x0a; xef;
  xa8; x99; x0a; xef; xa8; x9a; x0a; xe7;
  xa6; x94; x0a; xef; xa8; x9b; x0a; xe7;
  xa6; x9b; x0a; xe7; xab; x91; x0a; xe7;
  xab; xa7; x0a; xef; xa8; x9c; x0a; xe7;
  xab; xab; x0a; xe7; xae; x9e; x0a; xef
].
(* tests/test_data/whatwg/shiftjis_whatwg_test_encode_in.txt, entries 28928..29183 *)
Definition shiftjis_encode_in_113 : list byte := [
  xa8; x9d; x0a; xe7; xb5; x88; x0a; xe7;
  xb5; x9c; x0a; xe7; xb6; xb7; x0a; xe7;
  xb6; xa0; x0a; xe7; xb7; x96; x0a; xe7;
  xb9; x92; x0a; xe7; xbd; x87; x0a; xe7;
  xbe; xa1; x0a; xef; xa8; x9e; x0a; xe8;
  x8c; x81; x0a; xe8; x8d; xa2; x0a; xe8;
  x8d; xbf; x0a; xe8; x8f; x87; x0a; xe8;
  x8f; xb6; x0a; xe8; x91; x88; x0a; xe8;
  x92; xb4; x0a; xe8; x95; x93; x0a; xe8;
  x95; x99; x0a; xe8; x95; xab; x0a; xef;
  xa8; x9f; x0a; xe8; x96; xb0; x0a; xef;
  xa8; xa0; x0a; xef; xa8; xa1; x0a; xe8;
  xa0; x87; x0a; xe8; xa3; xb5; x0a; xe8;
  xa8; x92; x0a; xe8; xa8; xb7; x0a; xe8;
  xa9; xb9; x0a; xe8; xaa; xa7; x0a; xe8;
  xaa; xbe; x0a; xe8; xab; x9f; x0a; xef;
  xa8; xa2; x0a; xe8; xab; xb6; x0a; xe8;
  xad; x93; x0a; xe8; xad; xbf; x0a; xe8;
  xb3; xb0; x0a; xe8; xb3; xb4; x0a; xe8;
  xb4; x92; x0a; xe8; xb5; xb6; x0a; xef;
  xa8; xa3; x0a; xe8; xbb; x8f; x0a; xef;
  xa8; xa4; x0a; xef; xa8; xa5; x0a; xe9;
  x81; xa7; x0a; xe9; x83; x9e; x0a; xef;
  xa8; xa6; x0a; xe9; x84; x95; x0a; xe9;
  x84; xa7; x0a; xe9; x87; x9a; x0a; xe9;
  x87; x97; x0a; xe9; x87; x9e; x0a; xe9;
  x87; xad; x0a; xe9; x87; xae; x0a; xe9;
  x87; xa4; x0a; xe9; x87; xa5; x0a; xe9;
  x88; x86; x0a; xe9; x88; x90; x0a; xe9;
  x88; x8a; x0a; xe9; x88; xba; x0a; xe9;
  x89; x80; x0a; xe9; x88; xbc; x0a; xe9;
  x89; x8e; x0a; xe9; x89; x99; x0a; xe9
].
(* tests/test_data/whatwg/shiftjis_whatwg_test_encode_in.txt, entries 29184..29438 *)
Definition shiftjis_encode_in_114 : list byte := [
  x89; x91; x0a; xe9; x88; xb9; x0a; xe9;
  x89; xa7; x0a; xe9; x8a; xa7; x0a; xe9;
  x89; xb7; x0a; xe9; x89; xb8; x0a; xe9;
  x8b; xa7; x0a; xe9; x8b; x97; x0a; xe9;
  x8b; x99; x0a; xe9; x8b; x90; x0a; xef;
  xa8; xa7; x0a; xe9; x8b; x95; x0a; xe9;
  x8b; xa0; x0a; xe9; x8b; x93; x0a; xe9;
  x8c; xa5; x0a; xe9; x8c; xa1; x0a; xe9;
  x8b; xbb; x0a; xef; xa8; xa8; x0a; xe9;
  x8c; x9e; x0a; xe9; x8b; xbf; x0a; xe9;
  x8c; x9d; x0a; xe9; x8c; x82; x0a; xe9;
  x8d; xb0; x0a; xe9; x8d; x97; x0a; xe9;
  x8e; xa4; x0a; xe9; x8f; x86; x0a; xe9;
  x8f; x9e; x0a; xe9; x8f; xb8; x0a; xe9;
  x90; xb1; x0a; xe9; x91; x85; x0a; xe9;
  x91; x88; x0a; xe9; x96; x92; x0a; xef;
  xa7; x9c; x0a; xef; xa8; xa9; x0a; xe9;
  x9a; x9d; x0a; xe9; x9a; xaf; x0a; xe9;
  x9c; xb3; x0a; xe9; x9c; xbb; x0a; xe9;
  x9d; x83; x0a; xe9; x9d; x8d; x0a; xe9;
  x9d; x8f; x0a; xe9; x9d; x91; x0a; xe9;
  x9d; x95; x0a; xe9; xa1; x97; x0a; xe9;
  xa1; xa5; x0a; xef; xa8; xaa; x0a; xef;
  xa8; xab; x0a; xe9; xa4; xa7; x0a; xef;
  xa8; xac; x0a; xe9; xa6; x9e; x0a; xe9;
  xa9; x8e; x0a; xe9; xab; x99; x0a; xe9;
  xab; x9c; x0a; xe9; xad; xb5; x0a; xe9;
  xad; xb2; x0a; xe9; xae; x8f; x0a; xe9;
  xae; xb1; x0a; xe9; xae; xbb; x0a; xe9;
  xb0; x80; x0a; xe9; xb5; xb0; x0a; xe9;
  xb5; xab; x0a; xef; xa8; xad; x0a; xe9;
  xb8; x99; x0a; xe9; xbb; x91; x0a
].
(* tests/test_data/whatwg/shiftjis_whatwg_test_encode_in.txt: the whole table *)
Definition shiftjis_encode_in : list byte :=
  shiftjis_encode_in_0 ++
  shiftjis_encode_in_1 ++
  shiftjis_encode_in_2 ++
  shiftjis_encode_in_3 ++
  shiftjis_encode_in_4 ++
  shiftjis_encode_in_5 ++
  shiftjis_encode_in_6 ++
  shiftjis_encode_in_7 ++
  shiftjis_encode_in_8 ++
  shiftjis_encode_in_9 ++
  shiftjis_encode_in_10 ++
  shiftjis_encode_in_11 ++
  shiftjis_encode_in_12 ++
  shiftjis_encode_in_13 ++
  shiftjis_encode_in_14 ++
  shiftjis_encode_in_15 ++
  shiftjis_encode_in_16 ++
  shiftjis_encode_in_17 ++
  shiftjis_encode_in_18 ++
  shiftjis_encode_in_19 ++
  shiftjis_encode_in_20 ++
  shiftjis_encode_in_21 ++
  shiftjis_encode_in_22 ++
  shiftjis_encode_in_23 ++
  shiftjis_encode_in_24 ++
  shiftjis_encode_in_25 ++
  shiftjis_encode_in_26 ++
  shiftjis_encode_in_27 ++
  shiftjis_encode_in_28 ++
  shiftjis_encode_in_29 ++
  shiftjis_encode_in_30 ++
  shiftjis_encode_in_31 ++
  shiftjis_encode_in_32 ++
  shiftjis_encode_in_33 ++
  shiftjis_encode_in_34 ++
  shiftjis_encode_in_35 ++
  shiftjis_encode_in_36 ++
  shiftjis_encode_in_37 ++
  shiftjis_encode_in_38 ++
  shiftjis_encode_in_39 ++
  shiftjis_encode_in_40 ++
  shiftjis_encode_in_41 ++
  shiftjis_encode_in_42 ++
  shiftjis_encode_in_43 ++
  shiftjis_encode_in_44 ++
  shiftjis_encode_in_45 ++
  shiftjis_encode_in_46 ++
  shiftjis_encode_in_47 ++
  shiftjis_encode_in_48 ++
  shiftjis_encode_in_49 ++
  shiftjis_encode_in_50 ++
  shiftjis_encode_in_51 ++
  shiftjis_encode_in_52 ++
  shiftjis_encode_in_53 ++
  shiftjis_encode_in_54 ++
  shiftjis_encode_in_55 ++
  shiftjis_encode_in_56 ++
  shiftjis_encode_in_57 ++
  shiftjis_encode_in_58 ++
  shiftjis_encode_in_59 ++
  shiftjis_encode_in_60 ++
  shiftjis_encode_in_61 ++
  shiftjis_encode_in_62 ++
  shiftjis_encode_in_63 ++
  shiftjis_encode_in_64 ++
  shiftjis_encode_in_65 ++
  shiftjis_encode_in_66 ++
  shiftjis_encode_in_67 ++
  shiftjis_encode_in_68 ++
  shiftjis_encode_in_69 ++
  shiftjis_encode_in_70 ++
  shiftjis_encode_in_71 ++
  shiftjis_encode_in_72 ++
  shiftjis_encode_in_73 ++
  shiftjis_encode_in_74 ++
  shiftjis_encode_in_75 ++
  shiftjis_encode_in_76 ++
  shiftjis_encode_in_77 ++
  shiftjis_encode_in_78 ++
  shiftjis_encode_in_79 ++
  shiftjis_encode_in_80 ++
  shiftjis_encode_in_81 ++
  shiftjis_encode_in_82 ++
  shiftjis_encode_in_83 ++
  shiftjis_encode_in_84 ++
  shiftjis_encode_in_85 ++
  shiftjis_encode_in_86 ++
  shiftjis_encode_in_87 ++
  shiftjis_encode_in_88 ++
  shiftjis_encode_in_89 ++
  shiftjis_encode_in_90 ++
  shiftjis_encode_in_91 ++
  shiftjis_encode_in_92 ++
  shiftjis_encode_in_93 ++
  shiftjis_encode_in_94 ++
  shiftjis_encode_in_95 ++
  shiftjis_encode_in_96 ++
  shiftjis_encode_in_97 ++
  shiftjis_encode_in_98 ++
  shiftjis_encode_in_99 ++
  shiftjis_encode_in_100 ++
  shiftjis_encode_in_101 ++
  shiftjis_encode_in_102 ++
  shiftjis_encode_in_103 ++
  shiftjis_encode_in_104 ++
  shiftjis_encode_in_105 ++
  shiftjis_encode_in_106 ++
  shiftjis_encode_in_107 ++
  shiftjis_encode_in_108 ++
  shiftjis_encode_in_109 ++
  shiftjis_encode_in_110 ++
  shiftjis_encode_in_111 ++
  shiftjis_encode_in_112 ++
  shiftjis_encode_in_113 ++
  shiftjis_encode_in_114.

(* tests/test_data/whatwg/shiftjis_whatwg_test_encode_out.txt, entries 0..255 *)
Definition shiftjis_encode_out_0 : list byte := [
  x01; x0a; x02; x0a; x03; x0a; x04; x0a;
  x05; x0a; x06; x0a; x07; x0a; x08; x0a;
  x09; x0a; x0a; x0a; x0b; x0a; x0c; x0a;
  x0d; x0a; x0e; x0a; x0f; x0a; x10; x0a;
  x11; x0a; x12; x0a; x13; x0a; x14; x0a;
  x15; x0a; x16; x0a; x17; x0a; x18; x0a;
  x19; x0a; x1a; x0a; x1b; x0a; x1c; x0a;
  x1d; x0a; x1e; x0a; x1f; x0a; x20; x0a;
  x21; x0a; x22; x0a; x23; x0a; x24; x0a;
  x25; x0a; x26; x0a; x27; x0a; x28; x0a;
  x29; x0a; x2a; x0a; x2b; x0a; x2c; x0a;
  x2d; x0a; x2e; x0a; x2f; x0a; x30; x0a;
  x31; x0a; x32; x0a; x33; x0a; x34; x0a;
  x35; x0a; x36; x0a; x37; x0a; x38; x0a;
  x39; x0a; x3a; x0a; x3b; x0a; x3c; x0a;
  x3d; x0a; x3e; x0a; x3f; x0a; x40; x0a;
  x41; x0a; x42; x0a; x43; x0a; x44; x0a;
  x45; x0a; x46; x0a; x47; x0a; x48; x0a;
  x49; x0a; x4a; x0a; x4b; x0a; x4c; x0a;
  x4d; x0a; x4e; x0a; x4f; x0a; x50; x0a;
  x51; x0a; x52; x0a; x53; x0a; x54; x0a;
  x55; x0a; x56; x0a; x57; x0a; x58; x0a;
  x59; x0a; x5a; x0a; x5b; x0a; x5c; x0a;
  x5d; x0a; x5e; x0a; x5f; x0a; x60; x0a;
  x61; x0a; x62; x0a; x63; x0a; x64; x0a;
  x65; x0a; x66; x0a; x67; x0a; x68; x0a;
  x69; x0a; x6a; x0a; x6b; x0a; x6c; x0a;
  x6d; x0a; x6e; x0a; x6f; x0a; x70; x0a;
  x71; x0a; x72; x0a; x73; x0a; x74; x0a;
  x75; x0a; x76; x0a; x77; x0a; x78; x0a;
  x79; x0a; x7a; x0a; x7b; x0a; x7c; x0a;
  x7d; x0a; x7e; x0a; x7f; x0a; x80; x0a
].
(* tests/test_data/whatwg/shiftjis_whatwg_test_encode_out.txt, entries 256..511 *)
Definition shiftjis_encode_out_1 : list byte := [
  x81; x40; x0a; x81; x41; x0a; x81; x42;
  x0a; x81; x43; x0a; x81; x44; x0a; x81;
  x45; x0a; x81; x46; x0a; x81; x47; x0a;
  x81; x48; x0a; x81; x49; x0a; x81; x4a;
  x0a; x81; x4b; x0a; x81; x4c; x0a; x81;
  x4d; x0a; x81; x4e; x0a; x81; x4f; x0a;
  x81; x50; x0a; x81; x51; x0a; x81; x52;
  x0a; x81; x53; x0a; x81; x54; x0a; x81;
  x55; x0a; x81; x56; x0a; x81; x57; x0a;
  x81; x58; x0a; x81; x59; x0a; x81; x5a;
  x0a; x81; x5b; x0a; x81; x5c; x0a; x81;
  x5d; x0a; x81; x5e; x0a; x81; x5f; x0a;
  x81; x60; x0a; x81; x61; x0a; x81; x62;
  x0a; x81; x63; x0a; x81; x64; x0a; x81;
  x65; x0a; x81; x66; x0a; x81; x67; x0a;
  x81; x68; x0a; x81; x69; x0a; x81; x6a;
  x0a; x81; x6b; x0a; x81; x6c; x0a; x81;
  x6d; x0a; x81; x6e; x0a; x81; x6f; x0a;
  x81; x70; x0a; x81; x71; x0a; x81; x72;
  x0a; x81; x73; x0a; x81; x74; x0a; x81;
  x75; x0a; x81; x76; x0a; x81; x77; x0a;
  x81; x78; x0a; x81; x79; x0a; x81; x7a;
  x0a; x81; x7b; x0a; x81; x7c; x0a; x81;
  x7d; x0a; x81; x7e; x0a; x81; x80; x0a;
  x81; x81; x0a; x81; x82; x0a; x81; x83;
  x0a; x81; x84; x0a; x81; x85; x0a; x81;
  x86; x0a; x81; x87; x0a; x81; x88; x0a;
  x81; x89; x0a; x81; x8a; x0a; x81; x8b;
  x0a; x81; x8c; x0a; x81; x8d; x0a; x81;
  x8e; x0a; x81; x8f; x0a; x81; x90; x0a;
  x81; x91; x0a; x81; x92; x0a; x81; x93;
  x0a; x81; x94; x0a; x81; x95; x0a; x81
].
(* tests/test_data/whatwg/shiftjis_whatwg_test_encode_out.txt, entries 512..767 *)
Definition shiftjis_encode_out_2 : list byte := [
  x96; x0a; x81; x97; x0a; x81; x98; x0a;
  x81; x99; x0a; x81; x9a; x0a; x81; x9b;
  x0a; x81; x9c; x0a; x81; x9d; x0a; x81;
  x9e; x0a; x81; x9f; x0a; x81; xa0; x0a;
  x81; xa1; x0a; x81; xa2; x0a; x81; xa3;
  x0a; x81; xa4; x0a; x81; xa5; x0a; x81;
  xa6; x0a; x81; xa7; x0a; x81; xa8; x0a;
  x81; xa9; x0a; x81; xaa; x0a; x81; xab;
  x0a; x81; xac; x0a; x81; xb8; x0a; x81;
  xb9; x0a; x81; xba; x0a; x81; xbb; x0a;
  x81; xbc; x0a; x81; xbd; x0a; x81; xbe;
  x0a; x81; xbf; x0a; x81; xc8; x0a; x81;
  xc9; x0a; x81; xca; x0a; x81; xcb; x0a;
  x81; xcc; x0a; x81; xcd; x0a; x81; xce;
  x0a; x81; xda; x0a; x81; xdb; x0a; x81;
  xdc; x0a; x81; xdd; x0a; x81; xde; x0a;
  x81; xdf; x0a; x81; xe0; x0a; x81; xe1;
  x0a; x81; xe2; x0a; x81; xe3; x0a; x81;
  xe4; x0a; x81; xe5; x0a; x81; xe6; x0a;
  x81; xe7; x0a; x81; xe8; x0a; x81; xf0;
  x0a; x81; xf1; x0a; x81; xf2; x0a; x81;
  xf3; x0a; x81; xf4; x0a; x81; xf5; x0a;
  x81; xf6; x0a; x81; xf7; x0a; x81; xfc;
  x0a; x82; x4f; x0a; x82; x50; x0a; x82;
  x51; x0a; x82; x52; x0a; x82; x53; x0a;
  x82; x54; x0a; x82; x55; x0a; x82; x56;
  x0a; x82; x57; x0a; x82; x58; x0a; x82;
  x60; x0a; x82; x61; x0a; x82; x62; x0a;
  x82; x63; x0a; x82; x64; x0a; x82; x65;
  x0a; x82; x66; x0a; x82; x67; x0a; x82;
  x68; x0a; x82; x69; x0a; x82; x6a; x0a;
  x82; x6b; x0a; x82; x6c; x0a; x82; x6d
].
(* tests/test_data/whatwg/shiftjis_whatwg_test_encode_out.txt, entries 768..1023 *)
Definition shiftjis_encode_out_3 : list byte := [
  x0a; x82; x6e; x0a; x82; x6f; x0a; x82;
  x70; x0a; x82; x71; x0a; x82; x72; x0a;
  x82; x73; x0a; x82; x74; x0a; x82; x75;
  x0a; x82; x76; x0a; x82; x77; x0a; x82;
  x78; x0a; x82; x79; x0a; x82; x81; x0a;
  x82; x82; x0a; x82; x83; x0a; x82; x84;
  x0a; x82; x85; x0a; x82; x86; x0a; x82;
  x87; x0a; x82; x88; x0a; x82; x89; x0a;
  x82; x8a; x0a; x82; x8b; x0a; x82; x8c;
  x0a; x82; x8d; x0a; x82; x8e; x0a; x82;
  x8f; x0a; x82; x90; x0a; x82; x91; x0a;
  x82; x92; x0a; x82; x93; x0a; x82; x94;
  x0a; x82; x95; x0a; x82; x96; x0a; x82;
  x97; x0a; x82; x98; x0a; x82; x99; x0a;
  x82; x9a; x0a; x82; x9f; x0a; x82; xa0;
  x0a; x82; xa1; x0a; x82; xa2; x0a; x82;
  xa3; x0a; x82; xa4; x0a; x82; xa5; x0a;
  x82; xa6; x0a; x82; xa7; x0a; x82; xa8;
  x0a; x82; xa9; x0a; x82; xaa; x0a; x82;
  xab; x0a; x82; xac; x0a; x82; xad; x0a;
  x82; xae; x0a; x82; xaf; x0a; x82; xb0;
  x0a; x82; xb1; x0a; x82; xb2; x0a; x82;
  xb3; x0a; x82; xb4; x0a; x82; xb5; x0a;
  x82; xb6; x0a; x82; xb7; x0a; x82; xb8;
  x0a; x82; xb9; x0a; x82; xba; x0a; x82;
  xbb; x0a; x82; xbc; x0a; x82; xbd; x0a;
  x82; xbe; x0a; x82; xbf; x0a; x82; xc0;
  x0a; x82; xc1; x0a; x82; xc2; x0a; x82;
  xc3; x0a; x82; xc4; x0a; x82; xc5; x0a;
  x82; xc6; x0a; x82; xc7; x0a; x82; xc8;
  x0a; x82; xc9; x0a; x82; xca; x0a; x82;
  xcb; x0a; x82; xcc; x0a; x82; xcd; x0a
].
(* tests/test_data/whatwg/shiftjis_whatwg_test_encode_out.txt, entries 1024..1279 *)
Definition shiftjis_encode_out_4 : list byte := [
  x82; xce; x0a; x82; xcf; x0a; x82; xd0;
  x0a; x82; xd1; x0a; x82; xd2; x0a; x82;
  xd3; x0a; x82; xd4; x0a; x82; xd5; x0a;
  x82; xd6; x0a; x82; xd7; x0a; x82; xd8;
  x0a; x82; xd9; x0a; x82; xda; x0a; x82;
  xdb; x0a; x82; xdc; x0a; x82; xdd; x0a;
  x82; xde; x0a; x82; xdf; x0a; x82; xe0;
  x0a; x82; xe1; x0a; x82; xe2; x0a; x82;
  xe3; x0a; x82; xe4; x0a; x82; xe5; x0a;
  x82; xe6; x0a; x82; xe7; x0a; x82; xe8;
  x0a; x82; xe9; x0a; x82; xea; x0a; x82;
  xeb; x0a; x82; xec; x0a; x82; xed; x0a;
  x82; xee; x0a; x82; xef; x0a; x82; xf0;
  x0a; x82; xf1; x0a; x83; x40; x0a; x83;
  x41; x0a; x83; x42; x0a; x83; x43; x0a;
  x83; x44; x0a; x83; x45; x0a; x83; x46;
  x0a; x83; x47; x0a; x83; x48; x0a; x83;
  x49; x0a; x83; x4a; x0a; x83; x4b; x0a;
  x83; x4c; x0a; x83; x4d; x0a; x83; x4e;
  x0a; x83; x4f; x0a; x83; x50; x0a; x83;
  x51; x0a; x83; x52; x0a; x83; x53; x0a;
  x83; x54; x0a; x83; x55; x0a; x83; x56;
  x0a; x83; x57; x0a; x83; x58; x0a; x83;
  x59; x0a; x83; x5a; x0a; x83; x5b; x0a;
  x83; x5c; x0a; x83; x5d; x0a; x83; x5e;
  x0a; x83; x5f; x0a; x83; x60; x0a; x83;
  x61; x0a; x83; x62; x0a; x83; x63; x0a;
  x83; x64; x0a; x83; x65; x0a; x83; x66;
  x0a; x83; x67; x0a; x83; x68; x0a; x83;
  x69; x0a; x83; x6a; x0a; x83; x6b; x0a;
  x83; x6c; x0a; x83; x6d; x0a; x83; x6e;
  x0a; x83; x6f; x0a; x83; x70; x0a; x83
].
(* tests/test_data/whatwg/shiftjis_whatwg_test_encode_out.txt, entries 1280..1535 *)
Definition shiftjis_encode_out_5 : list byte := [
  x71; x0a; x83; x72; x0a; x83; x73; x0a;
  x83; x74; x0a; x83; x75; x0a; x83; x76;
  x0a; x83; x77; x0a; x83; x78; x0a; x83;
  x79; x0a; x83; x7a; x0a; x83; x7b; x0a;
  x83; x7c; x0a; x83; x7d; x0a; x83; x7e;
  x0a; x83; x80; x0a; x83; x81; x0a; x83;
  x82; x0a; x83; x83; x0a; x83; x84; x0a;
  x83; x85; x0a; x83; x86; x0a; x83; x87;
  x0a; x83; x88; x0a; x83; x89; x0a; x83;
  x8a; x0a; x83; x8b; x0a; x83; x8c; x0a;
  x83; x8d; x0a; x83; x8e; x0a; x83; x8f;
  x0a; x83; x90; x0a; x83; x91; x0a; x83;
  x92; x0a; x83; x93; x0a; x83; x94; x0a;
  x83; x95; x0a; x83; x96; x0a; x83; x9f;
  x0a; x83; xa0; x0a; x83; xa1; x0a; x83;
  xa2; x0a; x83; xa3; x0a; x83; xa4; x0a;
  x83; xa5; x0a; x83; xa6; x0a; x83; xa7;
  x0a; x83; xa8; x0a; x83; xa9; x0a; x83;
  xaa; x0a; x83; xab; x0a; x83; xac; x0a;
  x83; xad; x0a; x83; xae; x0a; x83; xaf;
  x0a; x83; xb0; x0a; x83; xb1; x0a; x83;
  xb2; x0a; x83; xb3; x0a; x83; xb4; x0a;
  x83; xb5; x0a; x83; xb6; x0a; x83; xbf;
  x0a; x83; xc0; x0a; x83; xc1; x0a; x83;
  xc2; x0a; x83; xc3; x0a; x83; xc4; x0a;
  x83; xc5; x0a; x83; xc6; x0a; x83; xc7;
  x0a; x83; xc8; x0a; x83; xc9; x0a; x83;
  xca; x0a; x83; xcb; x0a; x83; xcc; x0a;
  x83; xcd; x0a; x83; xce; x0a; x83; xcf;
  x0a; x83; xd0; x0a; x83; xd1; x0a; x83;
  xd2; x0a; x83; xd3; x0a; x83; xd4; x0a;
  x83; xd5; x0a; x83; xd6; x0a; x84; x40
].
(* tests/test_data/whatwg/shiftjis_whatwg_test_encode_out.txt, entries 1536..1791 *)
Definition shiftjis_encode_out_6 : list byte := [
  x0a; x84; x41; x0a; x84; x42; x0a; x84;
  x43; x0a; x84; x44; x0a; x84; x45; x0a;
  x84; x46; x0a; x84; x47; x0a; x84; x48;
  x0a; x84; x49; x0a; x84; x4a; x0a; x84;
  x4b; x0a; x84; x4c; x0a; x84; x4d; x0a;
  x84; x4e; x0a; x84; x4f; x0a; x84; x50;
  x0a; x84; x51; x0a; x84; x52; x0a; x84;
  x53; x0a; x84; x54; x0a; x84; x55; x0a;
  x84; x56; x0a; x84; x57; x0a; x84; x58;
  x0a; x84; x59; x0a; x84; x5a; x0a; x84;
  x5b; x0a; x84; x5c; x0a; x84; x5d; x0a;
  x84; x5e; x0a; x84; x5f; x0a; x84; x60;
  x0a; x84; x70; x0a; x84; x71; x0a; x84;
  x72; x0a; x84; x73; x0a; x84; x74; x0a;
  x84; x75; x0a; x84; x76; x0a; x84; x77;
  x0a; x84; x78; x0a; x84; x79; x0a; x84;
  x7a; x0a; x84; x7b; x0a; x84; x7c; x0a;
  x84; x7d; x0a; x84; x7e; x0a; x84; x80;
  x0a; x84; x81; x0a; x84; x82; x0a; x84;
  x83; x0a; x84; x84; x0a; x84; x85; x0a;
  x84; x86; x0a; x84; x87; x0a; x84; x88;
  x0a; x84; x89; x0a; x84; x8a; x0a; x84;
  x8b; x0a; x84; x8c; x0a; x84; x8d; x0a;
  x84; x8e; x0a; x84; x8f; x0a; x84; x90;
  x0a; x84; x91; x0a; x84; x9f; x0a; x84;
  xa0; x0a; x84; xa1; x0a; x84; xa2; x0a;
  x84; xa3; x0a; x84; xa4; x0a; x84; xa5;
  x0a; x84; xa6; x0a; x84; xa7; x0a; x84;
  xa8; x0a; x84; xa9; x0a; x84; xaa; x0a;
  x84; xab; x0a; x84; xac; x0a; x84; xad;
  x0a; x84; xae; x0a; x84; xaf; x0a; x84;
  xb0; x0a; x84; xb1; x0a; x84; xb2; x0a
].
(* tests/test_data/whatwg/shiftjis_whatwg_test_encode_out.txt, entries 1792..2047 *)
Definition shiftjis_encode_out_7 : list byte := [
  x84; xb3; x0a; x84; xb4; x0a; x84; xb5;
  x0a; x84; xb6; x0a; x84; xb7; x0a; x84;
  xb8; x0a; x84; xb9; x0a; x84; xba; x0a;
  x84; xbb; x0a; x84; xbc; x0a; x84; xbd;
  x0a; x84; xbe; x0a; x87; x40; x0a; x87;
  x41; x0a; x87; x42; x0a; x87; x43; x0a;
  x87; x44; x0a; x87; x45; x0a; x87; x46;
  x0a; x87; x47; x0a; x87; x48; x0a; x87;
  x49; x0a; x87; x4a; x0a; x87; x4b; x0a;
  x87; x4c; x0a; x87; x4d; x0a; x87; x4e;
  x0a; x87; x4f; x0a; x87; x50; x0a; x87;
  x51; x0a; x87; x52; x0a; x87; x53; x0a;
  x87; x54; x0a; x87; x55; x0a; x87; x56;
  x0a; x87; x57; x0a; x87; x58; x0a; x87;
  x59; x0a; x87; x5a; x0a; x87; x5b; x0a;
  x87; x5c; x0a; x87; x5d; x0a; x87; x5f;
  x0a; x87; x60; x0a; x87; x61; x0a; x87;
  x62; x0a; x87; x63; x0a; x87; x64; x0a;
  x87; x65; x0a; x87; x66; x0a; x87; x67;
  x0a; x87; x68; x0a; x87; x69; x0a; x87;
  x6a; x0a; x87; x6b; x0a; x87; x6c; x0a;
  x87; x6d; x0a; x87; x6e; x0a; x87; x6f;
  x0a; x87; x70; x0a; x87; x71; x0a; x87;
  x72; x0a; x87; x73; x0a; x87; x74; x0a;
  x87; x75; x0a; x87; x7e; x0a; x87; x80;
  x0a; x87; x81; x0a; x87; x82; x0a; x87;
  x83; x0a; x87; x84; x0a; x87; x85; x0a;
  x87; x86; x0a; x87; x87; x0a; x87; x88;
  x0a; x87; x89; x0a; x87; x8a; x0a; x87;
  x8b; x0a; x87; x8c; x0a; x87; x8d; x0a;
  x87; x8e; x0a; x87; x8f; x0a; x87; x93;
  x0a; x87; x94; x0a; x87; x98; x0a; x87
].
(* tests/test_data/whatwg/shiftjis_whatwg_test_encode_out.txt, entries 2048..2303 *)
Definition shiftjis_encode_out_8 : list byte := [
  x99; x0a; x88; x9f; x0a; x88; xa0; x0a;
  x88; xa1; x0a; x88; xa2; x0a; x88; xa3;
  x0a; x88; xa4; x0a; x88; xa5; x0a; x88;
  xa6; x0a; x88; xa7; x0a; x88; xa8; x0a;
  x88; xa9; x0a; x88; xaa; x0a; x88; xab;
  x0a; x88; xac; x0a; x88; xad; x0a; x88;
  xae; x0a; x88; xaf; x0a; x88; xb0; x0a;
  x88; xb1; x0a; x88; xb2; x0a; x88; xb3;
  x0a; x88; xb4; x0a; x88; xb5; x0a; x88;
  xb6; x0a; x88; xb7; x0a; x88; xb8; x0a;
  x88; xb9; x0a; x88; xba; x0a; x88; xbb;
  x0a; x88; xbc; x0a; x88; xbd; x0a; x88;
  xbe; x0a; x88; xbf; x0a; x88; xc0; x0a;
  x88; xc1; x0a; x88; xc2; x0a; x88; xc3;
  x0a; x88; xc4; x0a; x88; xc5; x0a; x88;
  xc6; x0a; x88; xc7; x0a; x88; xc8; x0a;
  x88; xc9; x0a; x88; xca; x0a; x88; xcb;
  x0a; x88; xcc; x0a; x88; xcd; x0a; x88;
  xce; x0a; x88; xcf; x0a; x88; xd0; x0a;
  x88; xd1; x0a; x88; xd2; x0a; x88; xd3;
  x0a; x88; xd4; x0a; x88; xd5; x0a; x88;
  xd6; x0a; x88; xd7; x0a; x88; xd8; x0a;
  x88; xd9; x0a; x88; xda; x0a; x88; xdb;
  x0a; x88; xdc; x0a; x88; xdd; x0a; x88;
  xde; x0a; x88; xdf; x0a; x88; xe0; x0a;
  x88; xe1; x0a; x88; xe2; x0a; x88; xe3;
  x0a; x88; xe4; x0a; x88; xe5; x0a; x88;
  xe6; x0a; x88; xe7; x0a; x88; xe8; x0a;
  x88; xe9; x0a; x88; xea; x0a; x88; xeb;
  x0a; x88; xec; x0a; x88; xed; x0a; x88;
  xee; x0a; x88; xef; x0a; x88; xf0; x0a;
  x88; xf1; x0a; x88; xf2; x0a; x88; xf3
].
(* tests/test_data/whatwg/shiftjis_whatwg_test_encode_out.txt, entries 2304..2559 *)
Definition shiftjis_encode_out_9 : list byte := [
  x0a; x88; xf4; x0a; x88; xf5; x0a; x88;
  xf6; x0a; x88; xf7; x0a; x88; xf8; x0a;
  x88; xf9; x0a; x88; xfa; x0a; x88; xfb;
  x0a; x88; xfc; x0a; x89; x40; x0a; x89;
  x41; x0a; x89; x42; x0a; x89; x43; x0a;
  x89; x44; x0a; x89; x45; x0a; x89; x46;
  x0a; x89; x47; x0a; x89; x48; x0a; x89;
  x49; x0a; x89; x4a; x0a; x89; x4b; x0a;
  x89; x4c; x0a; x89; x4d; x0a; x89; x4e;
  x0a; x89; x4f; x0a; x89; x50; x0a; x89;
  x51; x0a; x89; x52; x0a; x89; x53; x0a;
  x89; x54; x0a; x89; x55; x0a; x89; x56;
  x0a; x89; x57; x0a; x89; x58; x0a; x89;
  x59; x0a; x89; x5a; x0a; x89; x5b; x0a;
  x89; x5c; x0a; x89; x5d; x0a; x89; x5e;
  x0a; x89; x5f; x0a; x89; x60; x0a; x89;
  x61; x0a; x89; x62; x0a; x89; x63; x0a;
  x89; x64; x0a; x89; x65; x0a; x89; x66;
  x0a; x89; x67; x0a; x89; x68; x0a; x89;
  x69; x0a; x89; x6a; x0a; x89; x6b; x0a;
  x89; x6c; x0a; x89; x6d; x0a; x89; x6e;
  x0a; x89; x6f; x0a; x89; x70; x0a; x89;
  x71; x0a; x89; x72; x0a; x89; x73; x0a;
  x89; x74; x0a; x89; x75; x0a; x89; x76;
  x0a; x89; x77; x0a; x89; x78; x0a; x89;
  x79; x0a; x89; x7a; x0a; x89; x7b; x0a;
  x89; x7c; x0a; x89; x7d; x0a; x89; x7e;
  x0a; x89; x80; x0a; x89; x81; x0a; x89;
  x82; x0a; x89; x83; x0a; x89; x84; x0a;
  x89; x85; x0a; x89; x86; x0a; x89; x87;
  x0a; x89; x88; x0a; x89; x89; x0a; x89;
  x8a; x0a; x89; x8b; x0a; x89; x8c; x0a
].
(* tests/test_data/whatwg/shiftjis_whatwg_test_encode_out.txt, entries 2560..2815 *)
Definition shiftjis_encode_out_10 : list byte := [
  x89; x8d; x0a; x89; x8e; x0a; x89; x8f;
  x0a; x89; x90; x0a; x89; x91; x0a; x89;
  x92; x0a; x89; x93; x0a; x89; x94; x0a;
  x89; x95; x0a; x89; x96; x0a; x89; x97;
  x0a; x89; x98; x0a; x89; x99; x0a; x89;
  x9a; x0a; x89; x9b; x0a; x89; x9c; x0a;
  x89; x9d; x0a; x89; x9e; x0a; x89; x9f;
  x0a; x89; xa0; x0a; x89; xa1; x0a; x89;
  xa2; x0a; x89; xa3; x0a; x89; xa4; x0a;
  x89; xa5; x0a; x89; xa6; x0a; x89; xa7;
  x0a; x89; xa8; x0a; x89; xa9; x0a; x89;
  xaa; x0a; x89; xab; x0a; x89; xac; x0a;
  x89; xad; x0a; x89; xae; x0a; x89; xaf;
  x0a; x89; xb0; x0a; x89; xb1; x0a; x89;
  xb2; x0a; x89; xb3; x0a; x89; xb4; x0a;
  x89; xb5; x0a; x89; xb6; x0a; x89; xb7;
  x0a; x89; xb8; x0a; x89; xb9; x0a; x89;
  xba; x0a; x89; xbb; x0a; x89; xbc; x0a;
  x89; xbd; x0a; x89; xbe; x0a; x89; xbf;
  x0a; x89; xc0; x0a; x89; xc1; x0a; x89;
  xc2; x0a; x89; xc3; x0a; x89; xc4; x0a;
  x89; xc5; x0a; x89; xc6; x0a; x89; xc7;
  x0a; x89; xc8; x0a; x89; xc9; x0a; x89;
  xca; x0a; x89; xcb; x0a; x89; xcc; x0a;
  x89; xcd; x0a; x89; xce; x0a; x89; xcf;
  x0a; x89; xd0; x0a; x89; xd1; x0a; x89;
  xd2; x0a; x89; xd3; x0a; x89; xd4; x0a;
  x89; xd5; x0a; x89; xd6; x0a; x89; xd7;
  x0a; x89; xd8; x0a; x89; xd9; x0a; x89;
  xda; x0a; x89; xdb; x0a; x89; xdc; x0a;
  x89; xdd; x0a; x89; xde; x0a; x89; xdf;
  x0a; x89; xe0; x0a; x89; xe1; x0a; x89
].
(* tests/test_data/whatwg/shiftjis_whatwg_test_encode_out.txt, entries 2816..3071 *)
Definition shiftjis_encode_out_11 : list byte := [
  xe2; x0a; x89; xe3; x0a; x89; xe4; x0a;
  x89; xe5; x0a; x89; xe6; x0a; x89; xe7;
  x0a; x89; xe8; x0a; x89; xe9; x0a; x89;
  xea; x0a; x89; xeb; x0a; x89; xec; x0a;
  x89; xed; x0a; x89; xee; x0a; x89; xef;
  x0a; x89; xf0; x0a; x89; xf1; x0a; x89;
  xf2; x0a; x89; xf3; x0a; x89; xf4; x0a;
  x89; xf5; x0a; x89; xf6; x0a; x89; xf7;
  x0a; x89; xf8; x0a; x89; xf9; x0a; x89;
  xfa; x0a; x89; xfb; x0a; x89; xfc; x0a;
  x8a; x40; x0a; x8a; x41; x0a; x8a; x42;
  x0a; x8a; x43; x0a; x8a; x44; x0a; x8a;
  x45; x0a; x8a; x46; x0a; x8a; x47; x0a;
  x8a; x48; x0a; x8a; x49; x0a; x8a; x4a;
  x0a; x8a; x4b; x0a; x8a; x4c; x0a; x8a;
  x4d; x0a; x8a; x4e; x0a; x8a; x4f; x0a;
  x8a; x50; x0a; x8a; x51; x0a; x8a; x52;
  x0a; x8a; x53; x0a; x8a; x54; x0a; x8a;
  x55; x0a; x8a; x56; x0a; x8a; x57; x0a;
  x8a; x58; x0a; x8a; x59; x0a; x8a; x5a;
  x0a; x8a; x5b; x0a; x8a; x5c; x0a; x8a;
  x5d; x0a; x8a; x5e; x0a; x8a; x5f; x0a;
  x8a; x60; x0a; x8a; x61; x0a; x8a; x62;
  x0a; x8a; x63; x0a; x8a; x64; x0a; x8a;
  x65; x0a; x8a; x66; x0a; x8a; x67; x0a;
  x8a; x68; x0a; x8a; x69; x0a; x8a; x6a;
  x0a; x8a; x6b; x0a; x8a; x6c; x0a; x8a;
  x6d; x0a; x8a; x6e; x0a; x8a; x6f; x0a;
  x8a; x70; x0a; x8a; x71; x0a; x8a; x72;
  x0a; x8a; x73; x0a; x8a; x74; x0a; x8a;
  x75; x0a; x8a; x76; x0a; x8a; x77; x0a;
  x8a; x78; x0a; x8a; x79; x0a; x8a; x7a
].
(* tests/test_data/whatwg/shiftjis_whatwg_test_encode_out.txt, entries 3072..3327 *)
Definition shiftjis_encode_out_12 : list byte := [
  x0a; x8a; x7b; x0a; x8a; x7c; x0a; x8a;
  x7d; x0a; x8a; x7e; x0a; x8a; x80; x0a;
  x8a; x81; x0a; x8a; x82; x0a; x8a; x83;
  x0a; x8a; x84; x0a; x8a; x85; x0a; x8a;
  x86; x0a; x8a; x87; x0a; x8a; x88; x0a;
  x8a; x89; x0a; x8a; x8a; x0a; x8a; x8b;
  x0a; x8a; x8c; x0a; x8a; x8d; x0a; x8a;
  x8e; x0a; x8a; x8f; x0a; x8a; x90; x0a;
  x8a; x91; x0a; x8a; x92; x0a; x8a; x93;
  x0a; x8a; x94; x0a; x8a; x95; x0a; x8a;
  x96; x0a; x8a; x97; x0a; x8a; x98; x0a;
  x8a; x99; x0a; x8a; x9a; x0a; x8a; x9b;
  x0a; x8a; x9c; x0a; x8a; x9d; x0a; x8a;
  x9e; x0a; x8a; x9f; x0a; x8a; xa0; x0a;
  x8a; xa1; x0a; x8a; xa2; x0a; x8a; xa3;
  x0a; x8a; xa4; x0a; x8a; xa5; x0a; x8a;
  xa6; x0a; x8a; xa7; x0a; x8a; xa8; x0a;
  x8a; xa9; x0a; x8a; xaa; x0a; x8a; xab;
  x0a; x8a; xac; x0a; x8a; xad; x0a; x8a;
  xae; x0a; x8a; xaf; x0a; x8a; xb0; x0a;
  x8a; xb1; x0a; x8a; xb2; x0a; x8a; xb3;
  x0a; x8a; xb4; x0a; x8a; xb5; x0a; x8a;
  xb6; x0a; x8a; xb7; x0a; x8a; xb8; x0a;
  x8a; xb9; x0a; x8a; xba; x0a; x8a; xbb;
  x0a; x8a; xbc; x0a; x8a; xbd; x0a; x8a;
  xbe; x0a; x8a; xbf; x0a; x8a; xc0; x0a;
  x8a; xc1; x0a; x8a; xc2; x0a; x8a; xc3;
  x0a; x8a; xc4; x0a; x8a; xc5; x0a; x8a;
  xc6; x0a; x8a; xc7; x0a; x8a; xc8; x0a;
  x8a; xc9; x0a; x8a; xca; x0a; x8a; xcb;
  x0a; x8a; xcc; x0a; x8a; xcd; x0a; x8a;
  xce; x0a; x8a; xcf; x0a; x8a; xd0; x0a
].
(* tests/test_data/whatwg/shiftjis_whatwg_test_encode_out.txt, entries 3328..3583 *)
Definition shiftjis_encode_out_13 : list byte := [
  x8a; xd1; x0a; x8a; xd2; x0a; x8a; xd3;
  x0a; x8a; xd4; x0a; x8a; xd5; x0a; x8a;
  xd6; x0a; x8a; xd7; x0a; x8a; xd8; x0a;
  x8a; xd9; x0a; x8a; xda; x0a; x8a; xdb;
  x0a; x8a; xdc; x0a; x8a; xdd; x0a; x8a;
  xde; x0a; x8a; xdf; x0a; x8a; xe0; x0a;
  x8a; xe1; x0a; x8a; xe2; x0a; x8a; xe3;
  x0a; x8a; xe4; x0a; x8a; xe5; x0a; x8a;
  xe6; x0a; x8a; xe7; x0a; x8a; xe8; x0a;
  x8a; xe9; x0a; x8a; xea; x0a; x8a; xeb;
  x0a; x8a; xec; x0a; x8a; xed; x0a; x8a;
  xee; x0a; x8a; xef; x0a; x8a; xf0; x0a;
  x8a; xf1; x0a; x8a; xf2; x0a; x8a; xf3;
  x0a; x8a; xf4; x0a; x8a; xf5; x0a; x8a;
  xf6; x0a; x8a; xf7; x0a; x8a; xf8; x0a;
  x8a; xf9; x0a; x8a; xfa; x0a; x8a; xfb;
  x0a; x8a; xfc; x0a; x8b; x40; x0a; x8b;
  x41; x0a; x8b; x42; x0a; x8b; x43; x0a;
  x8b; x44; x0a; x8b; x45; x0a; x8b; x46;
  x0a; x8b; x47; x0a; x8b; x48; x0a; x8b;
  x49; x0a; x8b; x4a; x0a; x8b; x4b; x0a;
  x8b; x4c; x0a; x8b; x4d; x0a; x8b; x4e;
  x0a; x8b; x4f; x0a; x8b; x50; x0a; x8b;
  x51; x0a; x8b; x52; x0a; x8b; x53; x0a;
  x8b; x54; x0a; x8b; x55; x0a; x8b; x56;
  x0a; x8b; x57; x0a; x8b; x58; x0a; x8b;
  x59; x0a; x8b; x5a; x0a; x8b; x5b; x0a;
  x8b; x5c; x0a; x8b; x5d; x0a; x8b; x5e;
  x0a; x8b; x5f; x0a; x8b; x60; x0a; x8b;
  x61; x0a; x8b; x62; x0a; x8b; x63; x0a;
  x8b; x64; x0a; x8b; x65; x0a; x8b; x66;
  x0a; x8b; x67; x0a; x8b; x68; x0a; x8b
].
(* tests/test_data/whatwg/shiftjis_whatwg_test_encode_out.txt, entries 3584..3839 *)
Definition shiftjis_encode_out_14 : list byte := [
  x69; x0a; x8b; x6a; x0a; x8b; x6b; x0a;
  x8b; x6c; x0a; x8b; x6d; x0a; x8b; x6e;
  x0a; x8b; x6f; x0a; x8b; x70; x0a; x8b;
  x71; x0a; x8b; x72; x0a; x8b; x73; x0a;
  x8b; x74; x0a; x8b; x75; x0a; x8b; x76;
  x0a; x8b; x77; x0a; x8b; x78; x0a; x8b;
  x79; x0a; x8b; x7a; x0a; x8b; x7b; x0a;
  x8b; x7c; x0a; x8b; x7d; x0a; x8b; x7e;
  x0a; x8b; x80; x0a; x8b; x81; x0a; x8b;
  x82; x0a; x8b; x83; x0a; x8b; x84; x0a;
  x8b; x85; x0a; x8b; x86; x0a; x8b; x87;
  x0a; x8b; x88; x0a; x8b; x89; x0a; x8b;
  x8a; x0a; x8b; x8b; x0a; x8b; x8c; x0a;
  x8b; x8d; x0a; x8b; x8e; x0a; x8b; x8f;
  x0a; x8b; x90; x0a; x8b; x91; x0a; x8b;
  x92; x0a; x8b; x93; x0a; x8b; x94; x0a;
  x8b; x95; x0a; x8b; x96; x0a; x8b; x97;
  x0a; x8b; x98; x0a; x8b; x99; x0a; x8b;
  x9a; x0a; x8b; x9b; x0a; x8b; x9c; x0a;
  x8b; x9d; x0a; x8b; x9e; x0a; x8b; x9f;
  x0a; x8b; xa0; x0a; x8b; xa1; x0a; x8b;
  xa2; x0a; x8b; xa3; x0a; x8b; xa4; x0a;
  x8b; xa5; x0a; x8b; xa6; x0a; x8b; xa7;
  x0a; x8b; xa8; x0a; x8b; xa9; x0a; x8b;
  xaa; x0a; x8b; xab; x0a; x8b; xac; x0a;
  x8b; xad; x0a; x8b; xae; x0a; x8b; xaf;
  x0a; x8b; xb0; x0a; x8b; xb1; x0a; x8b;
  xb2; x0a; x8b; xb3; x0a; x8b; xb4; x0a;
  x8b; xb5; x0a; x8b; xb6; x0a; x8b; xb7;
  x0a; x8b; xb8; x0a; x8b; xb9; x0a; x8b;
  xba; x0a; x8b; xbb; x0a; x8b; xbc; x0a;
  x8b; xbd; x0a; x8b; xbe; x0a; x8b; xbf
].
(* tests/test_data/whatwg/shiftjis_whatwg_test_encode_out.txt, entries 3840..4095 *)
Definition shiftjis_encode_out_15 : list byte := [
  x0a; x8b; xc0; x0a; x8b; xc1; x0a; x8b;
  xc2; x0a; x8b; xc3; x0a; x8b; xc4; x0a;
  x8b; xc5; x0a; x8b; xc6; x0a; x8b; xc7;
  x0a; x8b; xc8; x0a; x8b; xc9; x0a; x8b;
  xca; x0a; x8b; xcb; x0a; x8b; xcc; x0a;
  x8b; xcd; x0a; x8b; xce; x0a; x8b; xcf;
  x0a; x8b; xd0; x0a; x8b; xd1; x0a; x8b;
  xd2; x0a; x8b; xd3; x0a; x8b; xd4; x0a;
  x8b; xd5; x0a; x8b; xd6; x0a; x8b; xd7;
  x0a; x8b; xd8; x0a; x8b; xd9; x0a; x8b;
  xda; x0a; x8b; xdb; x0a; x8b; xdc; x0a;
  x8b; xdd; x0a; x8b; xde; x0a; x8b; xdf;
  x0a; x8b; xe0; x0a; x8b; xe1; x0a; x8b;
  xe2; x0a; x8b; xe3; x0a; x8b; xe4; x0a;
  x8b; xe5; x0a; x8b; xe6; x0a; x8b; xe7;
  x0a; x8b; xe8; x0a; x8b; xe9; x0a; x8b;
  xea; x0a; x8b; xeb; x0a; x8b; xec; x0a;
  x8b; xed; x0a; x8b; xee; x0a; x8b; xef;
  x0a; x8b; xf0; x0a; x8b; xf1; x0a; x8b;
  xf2; x0a; x8b; xf3; x0a; x8b; xf4; x0a;
  x8b; xf5; x0a; x8b; xf6; x0a; x8b; xf7;
  x0a; x8b; xf8; x0a; x8b; xf9; x0a; x8b;
  xfa; x0a; x8b; xfb; x0a; x8b; xfc; x0a;
  x8c; x40; x0a; x8c; x41; x0a; x8c; x42;
  x0a; x8c; x43; x0a; x8c; x44; x0a; x8c;
  x45; x0a; x8c; x46; x0a; x8c; x47; x0a;
  x8c; x48; x0a; x8c; x49; x0a; x8c; x4a;
  x0a; x8c; x4b; x0a; x8c; x4c; x0a; x8c;
  x4d; x0a; x8c; x4e; x0a; x8c; x4f; x0a;
  x8c; x50; x0a; x8c; x51; x0a; x8c; x52;
  x0a; x8c; x53; x0a; x8c; x54; x0a; x8c;
  x55; x0a; x8c; x56; x0a; x8c; x57; x0a
].
(* tests/test_data/whatwg/shiftjis_whatwg_test_encode_out.txt, entries 4096..4351 *)
Definition shiftjis_encode_out_16 : list byte := [
  x8c; x58; x0a; x8c; x59; x0a; x8c; x5a;
  x0a; x8c; x5b; x0a; x8c; x5c; x0a; x8c;
  x5d; x0a; x8c; x5e; x0a; x8c; x5f; x0a;
  x8c; x60; x0a; x8c; x61; x0a; x8c; x62;
  x0a; x8c; x63; x0a; x8c; x64; x0a; x8c;
  x65; x0a; x8c; x66; x0a; x8c; x67; x0a;
  x8c; x68; x0a; x8c; x69; x0a; x8c; x6a;
  x0a; x8c; x6b; x0a; x8c; x6c; x0a; x8c;
  x6d; x0a; x8c; x6e; x0a; x8c; x6f; x0a;
  x8c; x70; x0a; x8c; x71; x0a; x8c; x72;
  x0a; x8c; x73; x0a; x8c; x74; x0a; x8c;
  x75; x0a; x8c; x76; x0a; x8c; x77; x0a;
  x8c; x78; x0a; x8c; x79; x0a; x8c; x7a;
  x0a; x8c; x7b; x0a; x8c; x7c; x0a; x8c;
  x7d; x0a; x8c; x7e; x0a; x8c; x80; x0a;
  x8c; x81; x0a; x8c; x82; x0a; x8c; x83;
  x0a; x8c; x84; x0a; x8c; x85; x0a; x8c;
  x86; x0a; x8c; x87; x0a; x8c; x88; x0a;
  x8c; x89; x0a; x8c; x8a; x0a; x8c; x8b;
  x0a; x8c; x8c; x0a; x8c; x8d; x0a; x8c;
  x8e; x0a; x8c; x8f; x0a; x8c; x90; x0a;
  x8c; x91; x0a; x8c; x92; x0a; x8c; x93;
  x0a; x8c; x94; x0a; x8c; x95; x0a; x8c;
  x96; x0a; x8c; x97; x0a; x8c; x98; x0a;
  x8c; x99; x0a; x8c; x9a; x0a; x8c; x9b;
  x0a; x8c; x9c; x0a; x8c; x9d; x0a; x8c;
  x9e; x0a; x8c; x9f; x0a; x8c; xa0; x0a;
  x8c; xa1; x0a; x8c; xa2; x0a; x8c; xa3;
  x0a; x8c; xa4; x0a; x8c; xa5; x0a; x8c;
  xa6; x0a; x8c; xa7; x0a; x8c; xa8; x0a;
  x8c; xa9; x0a; x8c; xaa; x0a; x8c; xab;
  x0a; x8c; xac; x0a; x8c; xad; x0a; x8c
].
(* tests/test_data/whatwg/shiftjis_whatwg_test_encode_out.txt, entries 4352..4607 *)
Definition shiftjis_encode_out_17 : list byte := [
  xae; x0a; x8c; xaf; x0a; x8c; xb0; x0a;
  x8c; xb1; x0a; x8c; xb2; x0a; x8c; xb3;
  x0a; x8c; xb4; x0a; x8c; xb5; x0a; x8c;
  xb6; x0a; x8c; xb7; x0a; x8c; xb8; x0a;
  x8c; xb9; x0a; x8c; xba; x0a; x8c; xbb;
  x0a; x8c; xbc; x0a; x8c; xbd; x0a; x8c;
  xbe; x0a; x8c; xbf; x0a; x8c; xc0; x0a;
  x8c; xc1; x0a; x8c; xc2; x0a; x8c; xc3;
  x0a; x8c; xc4; x0a; x8c; xc5; x0a; x8c;
  xc6; x0a; x8c; xc7; x0a; x8c; xc8; x0a;
  x8c; xc9; x0a; x8c; xca; x0a; x8c; xcb;
  x0a; x8c; xcc; x0a; x8c; xcd; x0a; x8c;
  xce; x0a; x8c; xcf; x0a; x8c; xd0; x0a;
  x8c; xd1; x0a; x8c; xd2; x0a; x8c; xd3;
  x0a; x8c; xd4; x0a; x8c; xd5; x0a; x8c;
  xd6; x0a; x8c; xd7; x0a; x8c; xd8; x0a;
  x8c; xd9; x0a; x8c; xda; x0a; x8c; xdb;
  x0a; x8c; xdc; x0a; x8c; xdd; x0a; x8c;
  xde; x0a; x8c; xdf; x0a; x8c; xe0; x0a;
  x8c; xe1; x0a; x8c; xe2; x0a; x8c; xe3;
  x0a; x8c; xe4; x0a; x8c; xe5; x0a; x8c;
  xe6; x0a; x8c; xe7; x0a; x8c; xe8; x0a;
  x8c; xe9; x0a; x8c; xea; x0a; x8c; xeb;
  x0a; x8c; xec; x0a; x8c; xed; x0a; x8c;
  xee; x0a; x8c; xef; x0a; x8c; xf0; x0a;
  x8c; xf1; x0a; x8c; xf2; x0a; x8c; xf3;
  x0a; x8c; xf4; x0a; x8c; xf5; x0a; x8c;
  xf6; x0a; x8c; xf7; x0a; x8c; xf8; x0a;
  x8c; xf9; x0a; x8c; xfa; x0a; x8c; xfb;
  x0a; x8c; xfc; x0a; x8d; x40; x0a; x8d;
  x41; x0a; x8d; x42; x0a; x8d; x43; x0a;
  x8d; x44; x0a; x8d; x45; x0a; x8d; x46
].
(* tests/test_data/whatwg/shiftjis_whatwg_test_encode_out.txt, entries 4608..4863 *)
Definition shiftjis_encode_out_18 : list byte := [
  x0a; x8d; x47; x0a; x8d; x48; x0a; x8d;
  x49; x0a; x8d; x4a; x0a; x8d; x4b; x0a;
  x8d; x4c; x0a; x8d; x4d; x0a; x8d; x4e;
  x0a; x8d; x4f; x0a; x8d; x50; x0a; x8d;
  x51; x0a; x8d; x52; x0a; x8d; x53; x0a;
  x8d; x54; x0a; x8d; x55; x0a; x8d; x56;
  x0a; x8d; x57; x0a; x8d; x58; x0a; x8d;
  x59; x0a; x8d; x5a; x0a; x8d; x5b; x0a;
  x8d; x5c; x0a; x8d; x5d; x0a; x8d; x5e;
  x0a; x8d; x5f; x0a; x8d; x60; x0a; x8d;
  x61; x0a; x8d; x62; x0a; x8d; x63; x0a;
  x8d; x64; x0a; x8d; x65; x0a; x8d; x66;
  x0a; x8d; x67; x0a; x8d; x68; x0a; x8d;
  x69; x0a; x8d; x6a; x0a; x8d; x6b; x0a;
  x8d; x6c; x0a; x8d; x6d; x0a; x8d; x6e;
  x0a; x8d; x6f; x0a; x8d; x70; x0a; x8d;
  x71; x0a; x8d; x72; x0a; x8d; x73; x0a;
  x8d; x74; x0a; x8d; x75; x0a; x8d; x76;
  x0a; x8d; x77; x0a; x8d; x78; x0a; x8d;
  x79; x0a; x8d; x7a; x0a; x8d; x7b; x0a;
  x8d; x7c; x0a; x8d; x7d; x0a; x8d; x7e;
  x0a; x8d; x80; x0a; x8d; x81; x0a; x8d;
  x82; x0a; x8d; x83; x0a; x8d; x84; x0a;
  x8d; x85; x0a; x8d; x86; x0a; x8d; x87;
  x0a; x8d; x88; x0a; x8d; x89; x0a; x8d;
  x8a; x0a; x8d; x8b; x0a; x8d; x8c; x0a;
  x8d; x8d; x0a; x8d; x8e; x0a; x8d; x8f;
  x0a; x8d; x90; x0a; x8d; x91; x0a; x8d;
  x92; x0a; x8d; x93; x0a; x8d; x94; x0a;
  x8d; x95; x0a; x8d; x96; x0a; x8d; x97;
  x0a; x8d; x98; x0a; x8d; x99; x0a; x8d;
  x9a; x0a; x8d; x9b; x0a; x8d; x9c; x0a
].
(* tests/test_data/whatwg/shiftjis_whatwg_test_encode_out.txt, entries 4864..5119 *)
Definition shiftjis_encode_out_19 : list byte := [
  x8d; x9d; x0a; x8d; x9e; x0a; x8d; x9f;
  x0a; x8d; xa0; x0a; x8d; xa1; x0a; x8d;
  xa2; x0a; x8d; xa3; x0a; x8d; xa4; x0a;
  x8d; xa5; x0a; x8d; xa6; x0a; x8d; xa7;
  x0a; x8d; xa8; x0a; x8d; xa9; x0a; x8d;
  xaa; x0a; x8d; xab; x0a; x8d; xac; x0a;
  x8d; xad; x0a; x8d; xae; x0a; x8d; xaf;
  x0a; x8d; xb0; x0a; x8d; xb1; x0a; x8d;
  xb2; x0a; x8d; xb3; x0a; x8d; xb4; x0a;
  x8d; xb5; x0a; x8d; xb6; x0a; x8d; xb7;
  x0a; x8d; xb8; x0a; x8d; xb9; x0a; x8d;
  xba; x0a; x8d; xbb; x0a; x8d; xbc; x0a;
  x8d; xbd; x0a; x8d; xbe; x0a; x8d; xbf;
  x0a; x8d; xc0; x0a; x8d; xc1; x0a; x8d;
  xc2; x0a; x8d; xc3; x0a; x8d; xc4; x0a;
  x8d; xc5; x0a; x8d; xc6; x0a; x8d; xc7;
  x0a; x8d; xc8; x0a; x8d; xc9; x0a; x8d;
  xca; x0a; x8d; xcb; x0a; x8d; xcc; x0a;
  x8d; xcd; x0a; x8d; xce; x0a; x8d; xcf;
  x0a; x8d; xd0; x0a; x8d; xd1; x0a; x8d;
  xd2; x0a; x8d; xd3; x0a; x8d; xd4; x0a;
  x8d; xd5; x0a; x8d; xd6; x0a; x8d; xd7;
  x0a; x8d; xd8; x0a; x8d; xd9; x0a; x8d;
  xda; x0a; x8d; xdb; x0a; x8d; xdc; x0a;
  x8d; xdd; x0a; x8d; xde; x0a; x8d; xdf;
  x0a; x8d; xe0; x0a; x8d; xe1; x0a; x8d;
  xe2; x0a; x8d; xe3; x0a; x8d; xe4; x0a;
  x8d; xe5; x0a; x8d; xe6; x0a; x8d; xe7;
  x0a; x8d; xe8; x0a; x8d; xe9; x0a; x8d;
  xea; x0a; x8d; xeb; x0a; x8d; xec; x0a;
  x8d; xed; x0a; x8d; xee; x0a; x8d; xef;
  x0a; x8d; xf0; x0a; x8d; xf1; x0a; x8d
].
(* tests/test_data/whatwg/shiftjis_whatwg_test_encode_out.txt, entries 5120..5375 *)
Definition shiftjis_encode_out_20 : list byte := [
  xf2; x0a; x8d; xf3; x0a; x8d; xf4; x0a;
  x8d; xf5; x0a; x8d; xf6; x0a; x8d; xf7;
  x0a; x8d; xf8; x0a; x8d; xf9; x0a; x8d;
  xfa; x0a; x8d; xfb; x0a; x8d; xfc; x0a;
  x8e; x40; x0a; x8e; x41; x0a; x8e; x42;
  x0a; x8e; x43; x0a; x8e; x44; x0a; x8e;
  x45; x0a; x8e; x46; x0a; x8e; x47; x0a;
  x8e; x48; x0a; x8e; x49; x0a; x8e; x4a;
  x0a; x8e; x4b; x0a; x8e; x4c; x0a; x8e;
  x4d; x0a; x8e; x4e; x0a; x8e; x4f; x0a;
  x8e; x50; x0a; x8e; x51; x0a; x8e; x52;
  x0a; x8e; x53; x0a; x8e; x54; x0a; x8e;
  x55; x0a; x8e; x56; x0a; x8e; x57; x0a;
  x8e; x58; x0a; x8e; x59; x0a; x8e; x5a;
  x0a; x8e; x5b; x0a; x8e; x5c; x0a; x8e;
  x5d; x0a; x8e; x5e; x0a; x8e; x5f; x0a;
  x8e; x60; x0a; x8e; x61; x0a; x8e; x62;
  x0a; x8e; x63; x0a; x8e; x64; x0a; x8e;
  x65; x0a; x8e; x66; x0a; x8e; x67; x0a;
  x8e; x68; x0a; x8e; x69; x0a; x8e; x6a;
  x0a; x8e; x6b; x0a; x8e; x6c; x0a; x8e;
  x6d; x0a; x8e; x6e; x0a; x8e; x6f; x0a;
  x8e; x70; x0a; x8e; x71; x0a; x8e; x72;
  x0a; x8e; x73; x0a; x8e; x74; x0a; x8e;
  x75; x0a; x8e; x76; x0a; x8e; x77; x0a;
  x8e; x78; x0a; x8e; x79; x0a; x8e; x7a;
  x0a; x8e; x7b; x0a; x8e; x7c; x0a; x8e;
  x7d; x0a; x8e; x7e; x0a; x8e; x80; x0a;
  x8e; x81; x0a; x8e; x82; x0a; x8e; x83;
  x0a; x8e; x84; x0a; x8e; x85; x0a; x8e;
  x86; x0a; x8e; x87; x0a; x8e; x88; x0a;
  x8e; x89; x0a; x8e; x8a; x0a; x8e; x8b
].
(* tests/test_data/whatwg/shiftjis_whatwg_test_encode_out.txt, entries 5376..5631 *)
Definition shiftjis_encode_out_21 : list byte := [
  x0a; x8e; x8c; x0a; x8e; x8d; x0a; x8e;
  x8e; x0a; x8e; x8f; x0a; x8e; x90; x0a;
  x8e; x91; x0a; x8e; x92; x0a; x8e; x93;
  x0a; x8e; x94; x0a; x8e; x95; x0a; x8e;
  x96; x0a; x8e; x97; x0a; x8e; x98; x0a;
  x8e; x99; x0a; x8e; x9a; x0a; x8e; x9b;
  x0a; x8e; x9c; x0a; x8e; x9d; x0a; x8e;
  x9e; x0a; x8e; x9f; x0a; x8e; xa0; x0a;
  x8e; xa1; x0a; x8e; xa2; x0a; x8e; xa3;
  x0a; x8e; xa4; x0a; x8e; xa5; x0a; x8e;
  xa6; x0a; x8e; xa7; x0a; x8e; xa8; x0a;
  x8e; xa9; x0a; x8e; xaa; x0a; x8e; xab;
  x0a; x8e; xac; x0a; x8e; xad; x0a; x8e;
  xae; x0a; x8e; xaf; x0a; x8e; xb0; x0a;
  x8e; xb1; x0a; x8e; xb2; x0a; x8e; xb3;
  x0a; x8e; xb4; x0a; x8e; xb5; x0a; x8e;
  xb6; x0a; x8e; xb7; x0a; x8e; xb8; x0a;
  x8e; xb9; x0a; x8e; xba; x0a; x8e; xbb;
  x0a; x8e; xbc; x0a; x8e; xbd; x0a; x8e;
  xbe; x0a; x8e; xbf; x0a; x8e; xc0; x0a;
  x8e; xc1; x0a; x8e; xc2; x0a; x8e; xc3;
  x0a; x8e; xc4; x0a; x8e; xc5; x0a; x8e;
  xc6; x0a; x8e; xc7; x0a; x8e; xc8; x0a;
  x8e; xc9; x0a; x8e; xca; x0a; x8e; xcb;
  x0a; x8e; xcc; x0a; x8e; xcd; x0a; x8e;
  xce; x0a; x8e; xcf; x0a; x8e; xd0; x0a;
  x8e; xd1; x0a; x8e; xd2; x0a; x8e; xd3;
  x0a; x8e; xd4; x0a; x8e; xd5; x0a; x8e;
  xd6; x0a; x8e; xd7; x0a; x8e; xd8; x0a;
  x8e; xd9; x0a; x8e; xda; x0a; x8e; xdb;
  x0a; x8e; xdc; x0a; x8e; xdd; x0a; x8e;
  xde; x0a; x8e; xdf; x0a; x8e; xe0; x0a
].
(* tests/test_data/whatwg/shiftjis_whatwg_test_encode_out.txt, entries 5632..5887 *)
Definition shiftjis_encode_out_22 : list byte := [
  x8e; xe1; x0a; x8e; xe2; x0a; x8e; xe3;
  x0a; x8e; xe4; x0a; x8e; xe5; x0a; x8e;
  xe6; x0a; x8e; xe7; x0a; x8e; xe8; x0a;
  x8e; xe9; x0a; x8e; xea; x0a; x8e; xeb;
  x0a; x8e; xec; x0a; x8e; xed; x0a; x8e;
  xee; x0a; x8e; xef; x0a; x8e; xf0; x0a;
  x8e; xf1; x0a; x8e; xf2; x0a; x8e; xf3;
  x0a; x8e; xf4; x0a; x8e; xf5; x0a; x8e;
  xf6; x0a; x8e; xf7; x0a; x8e; xf8; x0a;
  x8e; xf9; x0a; x8e; xfa; x0a; x8e; xfb;
  x0a; x8e; xfc; x0a; x8f; x40; x0a; x8f;
  x41; x0a; x8f; x42; x0a; x8f; x43; x0a;
  x8f; x44; x0a; x8f; x45; x0a; x8f; x46;
  x0a; x8f; x47; x0a; x8f; x48; x0a; x8f;
  x49; x0a; x8f; x4a; x0a; x8f; x4b; x0a;
  x8f; x4c; x0a; x8f; x4d; x0a; x8f; x4e;
  x0a; x8f; x4f; x0a; x8f; x50; x0a; x8f;
  x51; x0a; x8f; x52; x0a; x8f; x53; x0a;
  x8f; x54; x0a; x8f; x55; x0a; x8f; x56;
  x0a; x8f; x57; x0a; x8f; x58; x0a; x8f;
  x59; x0a; x8f; x5a; x0a; x8f; x5b; x0a;
  x8f; x5c; x0a; x8f; x5d; x0a; x8f; x5e;
  x0a; x8f; x5f; x0a; x8f; x60; x0a; x8f;
  x61; x0a; x8f; x62; x0a; x8f; x63; x0a;
  x8f; x64; x0a; x8f; x65; x0a; x8f; x66;
  x0a; x8f; x67; x0a; x8f; x68; x0a; x8f;
  x69; x0a; x8f; x6a; x0a; x8f; x6b; x0a;
  x8f; x6c; x0a; x8f; x6d; x0a; x8f; x6e;
  x0a; x8f; x6f; x0a; x8f; x70; x0a; x8f;
  x71; x0a; x8f; x72; x0a; x8f; x73; x0a;
  x8f; x74; x0a; x8f; x75; x0a; x8f; x76;
  x0a; x8f; x77; x0a; x8f; x78; x0a; x8f
].
(* tests/test_data/whatwg/shiftjis_whatwg_test_encode_out.txt, entries 5888..6143 *)
Definition shiftjis_encode_out_23 : list byte := [
  x79; x0a; x8f; x7a; x0a; x8f; x7b; x0a;
  x8f; x7c; x0a; x8f; x7d; x0a; x8f; x7e;
  x0a; x8f; x80; x0a; x8f; x81; x0a; x8f;
  x82; x0a; x8f; x83; x0a; x8f; x84; x0a;
  x8f; x85; x0a; x8f; x86; x0a; x8f; x87;
  x0a; x8f; x88; x0a; x8f; x89; x0a; x8f;
  x8a; x0a; x8f; x8b; x0a; x8f; x8c; x0a;
  x8f; x8d; x0a; x8f; x8e; x0a; x8f; x8f;
  x0a; x8f; x90; x0a; x8f; x91; x0a; x8f;
  x92; x0a; x8f; x93; x0a; x8f; x94; x0a;
  x8f; x95; x0a; x8f; x96; x0a; x8f; x97;
  x0a; x8f; x98; x0a; x8f; x99; x0a; x8f;
  x9a; x0a; x8f; x9b; x0a; x8f; x9c; x0a;
  x8f; x9d; x0a; x8f; x9e; x0a; x8f; x9f;
  x0a; x8f; xa0; x0a; x8f; xa1; x0a; x8f;
  xa2; x0a; x8f; xa3; x0a; x8f; xa4; x0a;
  x8f; xa5; x0a; x8f; xa6; x0a; x8f; xa7;
  x0a; x8f; xa8; x0a; x8f; xa9; x0a; x8f;
  xaa; x0a; x8f; xab; x0a; x8f; xac; x0a;
  x8f; xad; x0a; x8f; xae; x0a; x8f; xaf;
  x0a; x8f; xb0; x0a; x8f; xb1; x0a; x8f;
  xb2; x0a; x8f; xb3; x0a; x8f; xb4; x0a;
  x8f; xb5; x0a; x8f; xb6; x0a; x8f; xb7;
  x0a; x8f; xb8; x0a; x8f; xb9; x0a; x8f;
  xba; x0a; x8f; xbb; x0a; x8f; xbc; x0a;
  x8f; xbd; x0a; x8f; xbe; x0a; x8f; xbf;
  x0a; x8f; xc0; x0a; x8f; xc1; x0a; x8f;
  xc2; x0a; x8f; xc3; x0a; x8f; xc4; x0a;
  x8f; xc5; x0a; x8f; xc6; x0a; x8f; xc7;
  x0a; x8f; xc8; x0a; x8f; xc9; x0a; x8f;
  xca; x0a; x8f; xcb; x0a; x8f; xcc; x0a;
  x8f; xcd; x0a; x8f; xce; x0a; x8f; xcf
].
(* tests/test_data/whatwg/shiftjis_whatwg_test_encode_out.txt, entries 6144..6399 *)
Definition shiftjis_encode_out_24 : list byte := [
  x0a; x8f; xd0; x0a; x8f; xd1; x0a; x8f;
  xd2; x0a; x8f; xd3; x0a; x8f; xd4; x0a;
  x8f; xd5; x0a; x8f; xd6; x0a; x8f; xd7;
  x0a; x8f; xd8; x0a; x8f; xd9; x0a; x8f;
  xda; x0a; x8f; xdb; x0a; x8f; xdc; x0a;
  x8f; xdd; x0a; x8f; xde; x0a; x8f; xdf;
  x0a; x8f; xe0; x0a; x8f; xe1; x0a; x8f;
  xe2; x0a; x8f; xe3; x0a; x8f; xe4; x0a;
  x8f; xe5; x0a; x8f; xe6; x0a; x8f; xe7;
  x0a; x8f; xe8; x0a; x8f; xe9; x0a; x8f;
  xea; x0a; x8f; xeb; x0a; x8f; xec; x0a;
  x8f; xed; x0a; x8f; xee; x0a; x8f; xef;
  x0a; x8f; xf0; x0a; x8f; xf1; x0a; x8f;
  xf2; x0a; x8f; xf3; x0a; x8f; xf4; x0a;
  x8f; xf5; x0a; x8f; xf6; x0a; x8f; xf7;
  x0a; x8f; xf8; x0a; x8f; xf9; x0a; x8f;
  xfa; x0a; x8f; xfb; x0a; x8f; xfc; x0a;
  x90; x40; x0a; x90; x41; x0a; x90; x42;
  x0a; x90; x43; x0a; x90; x44; x0a; x90;
  x45; x0a; x90; x46; x0a; x90; x47; x0a;
  x90; x48; x0a; x90; x49; x0a; x90; x4a;
  x0a; x90; x4b; x0a; x90; x4c; x0a; x90;
  x4d; x0a; x90; x4e; x0a; x90; x4f; x0a;
  x90; x50; x0a; x90; x51; x0a; x90; x52;
  x0a; x90; x53; x0a; x90; x54; x0a; x90;
  x55; x0a; x90; x56; x0a; x90; x57; x0a;
  x90; x58; x0a; x90; x59; x0a; x90; x5a;
  x0a; x90; x5b; x0a; x90; x5c; x0a; x90;
  x5d; x0a; x90; x5e; x0a; x90; x5f; x0a;
  x90; x60; x0a; x90; x61; x0a; x90; x62;
  x0a; x90; x63; x0a; x90; x64; x0a; x90;
  x65; x0a; x90; x66; x0a; x90; x67; x0a
].
(* tests/test_data/whatwg/shiftjis_whatwg_test_encode_out.txt, entries 6400..6655 *)
Definition shiftjis_encode_out_25 : list byte := [
  x90; x68; x0a; x90; x69; x0a; x90; x6a;
  x0a; x90; x6b; x0a; x90; x6c; x0a; x90;
  x6d; x0a; x90; x6e; x0a; x90; x6f; x0a;
  x90; x70; x0a; x90; x71; x0a; x90; x72;
  x0a; x90; x73; x0a; x90; x74; x0a; x90;
  x75; x0a; x90; x76; x0a; x90; x77; x0a;
  x90; x78; x0a; x90; x79; x0a; x90; x7a;
  x0a; x90; x7b; x0a; x90; x7c; x0a; x90;
  x7d; x0a; x90; x7e; x0a; x90; x80; x0a;
  x90; x81; x0a; x90; x82; x0a; x90; x83;
  x0a; x90; x84; x0a; x90; x85; x0a; x90;
  x86; x0a; x90; x87; x0a; x90; x88; x0a;
  x90; x89; x0a; x90; x8a; x0a; x90; x8b;
  x0a; x90; x8c; x0a; x90; x8d; x0a; x90;
  x8e; x0a; x90; x8f; x0a; x90; x90; x0a;
  x90; x91; x0a; x90; x92; x0a; x90; x93;
  x0a; x90; x94; x0a; x90; x95; x0a; x90;
  x96; x0a; x90; x97; x0a; x90; x98; x0a;
  x90; x99; x0a; x90; x9a; x0a; x90; x9b;
  x0a; x90; x9c; x0a; x90; x9d; x0a; x90;
  x9e; x0a; x90; x9f; x0a; x90; xa0; x0a;
  x90; xa1; x0a; x90; xa2; x0a; x90; xa3;
  x0a; x90; xa4; x0a; x90; xa5; x0a; x90;
  xa6; x0a; x90; xa7; x0a; x90; xa8; x0a;
  x90; xa9; x0a; x90; xaa; x0a; x90; xab;
  x0a; x90; xac; x0a; x90; xad; x0a; x90;
  xae; x0a; x90; xaf; x0a; x90; xb0; x0a;
  x90; xb1; x0a; x90; xb2; x0a; x90; xb3;
  x0a; x90; xb4; x0a; x90; xb5; x0a; x90;
  xb6; x0a; x90; xb7; x0a; x90; xb8; x0a;
  x90; xb9; x0a; x90; xba; x0a; x90; xbb;
  x0a; x90; xbc; x0a; x90; xbd; x0a; x90
].
(* tests/test_data/whatwg/shiftjis_whatwg_test_encode_out.txt, entries 6656..6911 *)
Definition shiftjis_encode_out_26 : list byte := [
  xbe; x0a; x90; xbf; x0a; x90; xc0; x0a;
  x90; xc1; x0a; x90; xc2; x0a; x90; xc3;
  x0a; x90; xc4; x0a; x90; xc5; x0a; x90;
  xc6; x0a; x90; xc7; x0a; x90; xc8; x0a;
  x90; xc9; x0a; x90; xca; x0a; x90; xcb;
  x0a; x90; xcc; x0a; x90; xcd; x0a; x90;
  xce; x0a; x90; xcf; x0a; x90; xd0; x0a;
  x90; xd1; x0a; x90; xd2; x0a; x90; xd3;
  x0a; x90; xd4; x0a; x90; xd5; x0a; x90;
  xd6; x0a; x90; xd7; x0a; x90; xd8; x0a;
  x90; xd9; x0a; x90; xda; x0a; x90; xdb;
  x0a; x90; xdc; x0a; x90; xdd; x0a; x90;
  xde; x0a; x90; xdf; x0a; x90; xe0; x0a;
  x90; xe1; x0a; x90; xe2; x0a; x90; xe3;
  x0a; x90; xe4; x0a; x90; xe5; x0a; x90;
  xe6; x0a; x90; xe7; x0a; x90; xe8; x0a;
  x90; xe9; x0a; x90; xea; x0a; x90; xeb;
  x0a; x90; xec; x0a; x90; xed; x0a; x90;
  xee; x0a; x90; xef; x0a; x90; xf0; x0a;
  x90; xf1; x0a; x90; xf2; x0a; x90; xf3;
  x0a; x90; xf4; x0a; x90; xf5; x0a; x90;
  xf6; x0a; x90; xf7; x0a; x90; xf8; x0a;
  x90; xf9; x0a; x90; xfa; x0a; x90; xfb;
  x0a; x90; xfc; x0a; x91; x40; x0a; x91;
  x41; x0a; x91; x42; x0a; x91; x43; x0a;
  x91; x44; x0a; x91; x45; x0a; x91; x46;
  x0a; x91; x47; x0a; x91; x48; x0a; x91;
  x49; x0a; x91; x4a; x0a; x91; x4b; x0a;
  x91; x4c; x0a; x91; x4d; x0a; x91; x4e;
  x0a; x91; x4f; x0a; x91; x50; x0a; x91;
  x51; x0a; x91; x52; x0a; x91; x53; x0a;
  x91; x54; x0a; x91; x55; x0a; x91; x56
].
(* tests/test_data/whatwg/shiftjis_whatwg_test_encode_out.txt, entries 6912..7167 *)
Definition shiftjis_encode_out_27 : list byte := [
  x0a; x91; x57; x0a; x91; x58; x0a; x91;
  x59; x0a; x91; x5a; x0a; x91; x5b; x0a;
  x91; x5c; x0a; x91; x5d; x0a; x91; x5e;
  x0a; x91; x5f; x0a; x91; x60; x0a; x91;
  x61; x0a; x91; x62; x0a; x91; x63; x0a;
  x91; x64; x0a; x91; x65; x0a; x91; x66;
  x0a; x91; x67; x0a; x91; x68; x0a; x91;
  x69; x0a; x91; x6a; x0a; x91; x6b; x0a;
  x91; x6c; x0a; x91; x6d; x0a; x91; x6e;
  x0a; x91; x6f; x0a; x91; x70; x0a; x91;
  x71; x0a; x91; x72; x0a; x91; x73; x0a;
  x91; x74; x0a; x91; x75; x0a; x91; x76;
  x0a; x91; x77; x0a; x91; x78; x0a; x91;
  x79; x0a; x91; x7a; x0a; x91; x7b; x0a;
  x91; x7c; x0a; x91; x7d; x0a; x91; x7e;
  x0a; x91; x80; x0a; x91; x81; x0a; x91;
  x82; x0a; x91; x83; x0a; x91; x84; x0a;
  x91; x85; x0a; x91; x86; x0a; x91; x87;
  x0a; x91; x88; x0a; x91; x89; x0a; x91;
  x8a; x0a; x91; x8b; x0a; x91; x8c; x0a;
  x91; x8d; x0a; x91; x8e; x0a; x91; x8f;
  x0a; x91; x90; x0a; x91; x91; x0a; x91;
  x92; x0a; x91; x93; x0a; x91; x94; x0a;
  x91; x95; x0a; x91; x96; x0a; x91; x97;
  x0a; x91; x98; x0a; x91; x99; x0a; x91;
  x9a; x0a; x91; x9b; x0a; x91; x9c; x0a;
  x91; x9d; x0a; x91; x9e; x0a; x91; x9f;
  x0a; x91; xa0; x0a; x91; xa1; x0a; x91;
  xa2; x0a; x91; xa3; x0a; x91; xa4; x0a;
  x91; xa5; x0a; x91; xa6; x0a; x91; xa7;
  x0a; x91; xa8; x0a; x91; xa9; x0a; x91;
  xaa; x0a; x91; xab; x0a; x91; xac; x0a
].
(* tests/test_data/whatwg/shiftjis_whatwg_test_encode_out.txt, entries 7168..7423 *)
Definition shiftjis_encode_out_28 : list byte := [
  x91; xad; x0a; x91; xae; x0a; x91; xaf;
  x0a; x91; xb0; x0a; x91; xb1; x0a; x91;
  xb2; x0a; x91; xb3; x0a; x91; xb4; x0a;
  x91; xb5; x0a; x91; xb6; x0a; x91; xb7;
  x0a; x91; xb8; x0a; x91; xb9; x0a; x91;
  xba; x0a; x91; xbb; x0a; x91; xbc; x0a;
  x91; xbd; x0a; x91; xbe; x0a; x91; xbf;
  x0a; x91; xc0; x0a; x91; xc1; x0a; x91;
  xc2; x0a; x91; xc3; x0a; x91; xc4; x0a;
  x91; xc5; x0a; x91; xc6; x0a; x91; xc7;
  x0a; x91; xc8; x0a; x91; xc9; x0a; x91;
  xca; x0a; x91; xcb; x0a; x91; xcc; x0a;
  x91; xcd; x0a; x91; xce; x0a; x91; xcf;
  x0a; x91; xd0; x0a; x91; xd1; x0a; x91;
  xd2; x0a; x91; xd3; x0a; x91; xd4; x0a;
  x91; xd5; x0a; x91; xd6; x0a; x91; xd7;
  x0a; x91; xd8; x0a; x91; xd9; x0a; x91;
  xda; x0a; x91; xdb; x0a; x91; xdc; x0a;
  x91; xdd; x0a; x91; xde; x0a; x91; xdf;
  x0a; x91; xe0; x0a; x91; xe1; x0a; x91;
  xe2; x0a; x91; xe3; x0a; x91; xe4; x0a;
  x91; xe5; x0a; x91; xe6; x0a; x91; xe7;
  x0a; x91; xe8; x0a; x91; xe9; x0a; x91;
  xea; x0a; x91; xeb; x0a; x91; xec; x0a;
  x91; xed; x0a; x91; xee; x0a; x91; xef;
  x0a; x91; xf0; x0a; x91; xf1; x0a; x91;
  xf2; x0a; x91; xf3; x0a; x91; xf4; x0a;
  x91; xf5; x0a; x91; xf6; x0a; x91; xf7;
  x0a; x91; xf8; x0a; x91; xf9; x0a; x91;
  xfa; x0a; x91; xfb; x0a; x91; xfc; x0a;
  x92; x40; x0a; x92; x41; x0a; x92; x42;
  x0a; x92; x43; x0a; x92; x44; x0a; x92
].
(* tests/test_data/whatwg/shiftjis_whatwg_test_encode_out.txt, entries 7424..7679 *)
Definition shiftjis_encode_out_29 : list byte := [
  x45; x0a; x92; x46; x0a; x92; x47; x0a;
  x92; x48; x0a; x92; x49; x0a; x92; x4a;
  x0a; x92; x4b; x0a; x92; x4c; x0a; x92;
  x4d; x0a; x92; x4e; x0a; x92; x4f; x0a;
  x92; x50; x0a; x92; x51; x0a; x92; x52;
  x0a; x92; x53; x0a; x92; x54; x0a; x92;
  x55; x0a; x92; x56; x0a; x92; x57; x0a;
  x92; x58; x0a; x92; x59; x0a; x92; x5a;
  x0a; x92; x5b; x0a; x92; x5c; x0a; x92;
  x5d; x0a; x92; x5e; x0a; x92; x5f; x0a;
  x92; x60; x0a; x92; x61; x0a; x92; x62;
  x0a; x92; x63; x0a; x92; x64; x0a; x92;
  x65; x0a; x92; x66; x0a; x92; x67; x0a;
  x92; x68; x0a; x92; x69; x0a; x92; x6a;
  x0a; x92; x6b; x0a; x92; x6c; x0a; x92;
  x6d; x0a; x92; x6e; x0a; x92; x6f; x0a;
  x92; x70; x0a; x92; x71; x0a; x92; x72;
  x0a; x92; x73; x0a; x92; x74; x0a; x92;
  x75; x0a; x92; x76; x0a; x92; x77; x0a;
  x92; x78; x0a; x92; x79; x0a; x92; x7a;
  x0a; x92; x7b; x0a; x92; x7c; x0a; x92;
  x7d; x0a; x92; x7e; x0a; x92; x80; x0a;
  x92; x81; x0a; x92; x82; x0a; x92; x83;
  x0a; x92; x84; x0a; x92; x85; x0a; x92;
  x86; x0a; x92; x87; x0a; x92; x88; x0a;
  x92; x89; x0a; x92; x8a; x0a; x92; x8b;
  x0a; x92; x8c; x0a; x92; x8d; x0a; x92;
  x8e; x0a; x92; x8f; x0a; x92; x90; x0a;
  x92; x91; x0a; x92; x92; x0a; x92; x93;
  x0a; x92; x94; x0a; x92; x95; x0a; x92;
  x96; x0a; x92; x97; x0a; x92; x98; x0a;
  x92; x99; x0a; x92; x9a; x0a; x92; x9b
].
(* tests/test_data/whatwg/shiftjis_whatwg_test_encode_out.txt, entries 7680..7935 *)
Definition shiftjis_encode_out_30 : list byte := [
  x0a; x92; x9c; x0a; x92; x9d; x0a; x92;
  x9e; x0a; x92; x9f; x0a; x92; xa0; x0a;
  x92; xa1; x0a; x92; xa2; x0a; x92; xa3;
  x0a; x92; xa4; x0a; x92; xa5; x0a; x92;
  xa6; x0a; x92; xa7; x0a; x92; xa8; x0a;
  x92; xa9; x0a; x92; xaa; x0a; x92; xab;
  x0a; x92; xac; x0a; x92; xad; x0a; x92;
  xae; x0a; x92; xaf; x0a; x92; xb0; x0a;
  x92; xb1; x0a; x92; xb2; x0a; x92; xb3;
  x0a; x92; xb4; x0a; x92; xb5; x0a; x92;
  xb6; x0a; x92; xb7; x0a; x92; xb8; x0a;
  x92; xb9; x0a; x92; xba; x0a; x92; xbb;
  x0a; x92; xbc; x0a; x92; xbd; x0a; x92;
  xbe; x0a; x92; xbf; x0a; x92; xc0; x0a;
  x92; xc1; x0a; x92; xc2; x0a; x92; xc3;
  x0a; x92; xc4; x0a; x92; xc5; x0a; x92;
  xc6; x0a; x92; xc7; x0a; x92; xc8; x0a;
  x92; xc9; x0a; x92; xca; x0a; x92; xcb;
  x0a; x92; xcc; x0a; x92; xcd; x0a; x92;
  xce; x0a; x92; xcf; x0a; x92; xd0; x0a;
  x92; xd1; x0a; x92; xd2; x0a; x92; xd3;
  x0a; x92; xd4; x0a; x92; xd5; x0a; x92;
  xd6; x0a; x92; xd7; x0a; x92; xd8; x0a;
  x92; xd9; x0a; x92; xda; x0a; x92; xdb;
  x0a; x92; xdc; x0a; x92; xdd; x0a; x92;
  xde; x0a; x92; xdf; x0a; x92; xe0; x0a;
  x92; xe1; x0a; x92; xe2; x0a; x92; xe3;
  x0a; x92; xe4; x0a; x92; xe5; x0a; x92;
  xe6; x0a; x92; xe7; x0a; x92; xe8; x0a;
  x92; xe9; x0a; x92; xea; x0a; x92; xeb;
  x0a; x92; xec; x0a; x92; xed; x0a; x92;
  xee; x0a; x92; xef; x0a; x92; xf0; x0a
].
(* tests/test_data/whatwg/shiftjis_whatwg_test_encode_out.txt, entries 7936..8191 *)
Definition shiftjis_encode_out_31 : list byte := [
  x92; xf1; x0a; x92; xf2; x0a; x92; xf3;
  x0a; x92; xf4; x0a; x92; xf5; x0a; x92;
  xf6; x0a; x92; xf7; x0a; x92; xf8; x0a;
  x92; xf9; x0a; x92; xfa; x0a; x92; xfb;
  x0a; x92; xfc; x0a; x93; x40; x0a; x93;
  x41; x0a; x93; x42; x0a; x93; x43; x0a;
  x93; x44; x0a; x93; x45; x0a; x93; x46;
  x0a; x93; x47; x0a; x93; x48; x0a; x93;
  x49; x0a; x93; x4a; x0a; x93; x4b; x0a;
  x93; x4c; x0a; x93; x4d; x0a; x93; x4e;
  x0a; x93; x4f; x0a; x93; x50; x0a; x93;
  x51; x0a; x93; x52; x0a; x93; x53; x0a;
  x93; x54; x0a; x93; x55; x0a; x93; x56;
  x0a; x93; x57; x0a; x93; x58; x0a; x93;
  x59; x0a; x93; x5a; x0a; x93; x5b; x0a;
  x93; x5c; x0a; x93; x5d; x0a; x93; x5e;
  x0a; x93; x5f; x0a; x93; x60; x0a; x93;
  x61; x0a; x93; x62; x0a; x93; x63; x0a;
  x93; x64; x0a; x93; x65; x0a; x93; x66;
  x0a; x93; x67; x0a; x93; x68; x0a; x93;
  x69; x0a; x93; x6a; x0a; x93; x6b; x0a;
  x93; x6c; x0a; x93; x6d; x0a; x93; x6e;
  x0a; x93; x6f; x0a; x93; x70; x0a; x93;
  x71; x0a; x93; x72; x0a; x93; x73; x0a;
  x93; x74; x0a; x93; x75; x0a; x93; x76;
  x0a; x93; x77; x0a; x93; x78; x0a; x93;
  x79; x0a; x93; x7a; x0a; x93; x7b; x0a;
  x93; x7c; x0a; x93; x7d; x0a; x93; x7e;
  x0a; x93; x80; x0a; x93; x81; x0a; x93;
  x82; x0a; x93; x83; x0a; x93; x84; x0a;
  x93; x85; x0a; x93; x86; x0a; x93; x87;
  x0a; x93; x88; x0a; x93; x89; x0a; x93
].
(* tests/test_data/whatwg/shiftjis_whatwg_test_encode_out.txt, entries 8192..8447 *)
Definition shiftjis_encode_out_32 : list byte := [
  x8a; x0a; x93; x8b; x0a; x93; x8c; x0a;
  x93; x8d; x0a; x93; x8e; x0a; x93; x8f;
  x0a; x93; x90; x0a; x93; x91; x0a; x93;
  x92; x0a; x93; x93; x0a; x93; x94; x0a;
  x93; x95; x0a; x93; x96; x0a; x93; x97;
  x0a; x93; x98; x0a; x93; x99; x0a; x93;
  x9a; x0a; x93; x9b; x0a; x93; x9c; x0a;
  x93; x9d; x0a; x93; x9e; x0a; x93; x9f;
  x0a; x93; xa0; x0a; x93; xa1; x0a; x93;
  xa2; x0a; x93; xa3; x0a; x93; xa4; x0a;
  x93; xa5; x0a; x93; xa6; x0a; x93; xa7;
  x0a; x93; xa8; x0a; x93; xa9; x0a; x93;
  xaa; x0a; x93; xab; x0a; x93; xac; x0a;
  x93; xad; x0a; x93; xae; x0a; x93; xaf;
  x0a; x93; xb0; x0a; x93; xb1; x0a; x93;
  xb2; x0a; x93; xb3; x0a; x93; xb4; x0a;
  x93; xb5; x0a; x93; xb6; x0a; x93; xb7;
  x0a; x93; xb8; x0a; x93; xb9; x0a; x93;
  xba; x0a; x93; xbb; x0a; x93; xbc; x0a;
  x93; xbd; x0a; x93; xbe; x0a; x93; xbf;
  x0a; x93; xc0; x0a; x93; xc1; x0a; x93;
  xc2; x0a; x93; xc3; x0a; x93; xc4; x0a;
  x93; xc5; x0a; x93; xc6; x0a; x93; xc7;
  x0a; x93; xc8; x0a; x93; xc9; x0a; x93;
  xca; x0a; x93; xcb; x0a; x93; xcc; x0a;
  x93; xcd; x0a; x93; xce; x0a; x93; xcf;
  x0a; x93; xd0; x0a; x93; xd1; x0a; x93;
  xd2; x0a; x93; xd3; x0a; x93; xd4; x0a;
  x93; xd5; x0a; x93; xd6; x0a; x93; xd7;
  x0a; x93; xd8; x0a; x93; xd9; x0a; x93;
  xda; x0a; x93; xdb; x0a; x93; xdc; x0a;
  x93; xdd; x0a; x93; xde; x0a; x93; xdf
].
(* tests/test_data/whatwg/shiftjis_whatwg_test_encode_out.txt, entries 8448..8703 *)
Definition shiftjis_encode_out_33 : list byte := [
  x0a; x93; xe0; x0a; x93; xe1; x0a; x93;
  xe2; x0a; x93; xe3; x0a; x93; xe4; x0a;
  x93; xe5; x0a; x93; xe6; x0a; x93; xe7;
  x0a; x93; xe8; x0a; x93; xe9; x0a; x93;
  xea; x0a; x93; xeb; x0a; x93; xec; x0a;
  x93; xed; x0a; x93; xee; x0a; x93; xef;
  x0a; x93; xf0; x0a; x93; xf1; x0a; x93;
  xf2; x0a; x93; xf3; x0a; x93; xf4; x0a;
  x93; xf5; x0a; x93; xf6; x0a; x93; xf7;
  x0a; x93; xf8; x0a; x93; xf9; x0a; x93;
  xfa; x0a; x93; xfb; x0a; x93; xfc; x0a;
  x94; x40; x0a; x94; x41; x0a; x94; x42;
  x0a; x94; x43; x0a; x94; x44; x0a; x94;
  x45; x0a; x94; x46; x0a; x94; x47; x0a;
  x94; x48; x0a; x94; x49; x0a; x94; x4a;
  x0a; x94; x4b; x0a; x94; x4c; x0a; x94;
  x4d; x0a; x94; x4e; x0a; x94; x4f; x0a;
  x94; x50; x0a; x94; x51; x0a; x94; x52;
  x0a; x94; x53; x0a; x94; x54; x0a; x94;
  x55; x0a; x94; x56; x0a; x94; x57; x0a;
  x94; x58; x0a; x94; x59; x0a; x94; x5a;
  x0a; x94; x5b; x0a; x94; x5c; x0a; x94;
  x5d; x0a; x94; x5e; x0a; x94; x5f; x0a;
  x94; x60; x0a; x94; x61; x0a; x94; x62;
  x0a; x94; x63; x0a; x94; x64; x0a; x94;
  x65; x0a; x94; x66; x0a; x94; x67; x0a;
  x94; x68; x0a; x94; x69; x0a; x94; x6a;
  x0a; x94; x6b; x0a; x94; x6c; x0a; x94;
  x6d; x0a; x94; x6e; x0a; x94; x6f; x0a;
  x94; x70; x0a; x94; x71; x0a; x94; x72;
  x0a; x94; x73; x0a; x94; x74; x0a; x94;
  x75; x0a; x94; x76; x0a; x94; x77; x0a
].
(* tests/test_data/whatwg/shiftjis_whatwg_test_encode_out.txt, entries 8704..8959 *)
Definition shiftjis_encode_out_34 : list byte := [
  x94; x78; x0a; x94; x79; x0a; x94; x7a;
  x0a; x94; x7b; x0a; x94; x7c; x0a; x94;
  x7d; x0a; x94; x7e; x0a; x94; x80; x0a;
  x94; x81; x0a; x94; x82; x0a; x94; x83;
  x0a; x94; x84; x0a; x94; x85; x0a; x94;
  x86; x0a; x94; x87; x0a; x94; x88; x0a;
  x94; x89; x0a; x94; x8a; x0a; x94; x8b;
  x0a; x94; x8c; x0a; x94; x8d; x0a; x94;
  x8e; x0a; x94; x8f; x0a; x94; x90; x0a;
  x94; x91; x0a; x94; x92; x0a; x94; x93;
  x0a; x94; x94; x0a; x94; x95; x0a; x94;
  x96; x0a; x94; x97; x0a; x94; x98; x0a;
  x94; x99; x0a; x94; x9a; x0a; x94; x9b;
  x0a; x94; x9c; x0a; x94; x9d; x0a; x94;
  x9e; x0a; x94; x9f; x0a; x94; xa0; x0a;
  x94; xa1; x0a; x94; xa2; x0a; x94; xa3;
  x0a; x94; xa4; x0a; x94; xa5; x0a; x94;
  xa6; x0a; x94; xa7; x0a; x94; xa8; x0a;
  x94; xa9; x0a; x94; xaa; x0a; x94; xab;
  x0a; x94; xac; x0a; x94; xad; x0a; x94;
  xae; x0a; x94; xaf; x0a; x94; xb0; x0a;
  x94; xb1; x0a; x94; xb2; x0a; x94; xb3;
  x0a; x94; xb4; x0a; x94; xb5; x0a; x94;
  xb6; x0a; x94; xb7; x0a; x94; xb8; x0a;
  x94; xb9; x0a; x94; xba; x0a; x94; xbb;
  x0a; x94; xbc; x0a; x94; xbd; x0a; x94;
  xbe; x0a; x94; xbf; x0a; x94; xc0; x0a;
  x94; xc1; x0a; x94; xc2; x0a; x94; xc3;
  x0a; x94; xc4; x0a; x94; xc5; x0a; x94;
  xc6; x0a; x94; xc7; x0a; x94; xc8; x0a;
  x94; xc9; x0a; x94; xca; x0a; x94; xcb;
  x0a; x94; xcc; x0a; x94; xcd; x0a; x94
].
(* tests/test_data/whatwg/shiftjis_whatwg_test_encode_out.txt, entries 8960..9215 *)
Definition shiftjis_encode_out_35 : list byte := [
  xce; x0a; x94; xcf; x0a; x94; xd0; x0a;
  x94; xd1; x0a; x94; xd2; x0a; x94; xd3;
  x0a; x94; xd4; x0a; x94; xd5; x0a; x94;
  xd6; x0a; x94; xd7; x0a; x94; xd8; x0a;
  x94; xd9; x0a; x94; xda; x0a; x94; xdb;
  x0a; x94; xdc; x0a; x94; xdd; x0a; x94;
  xde; x0a; x94; xdf; x0a; x94; xe0; x0a;
  x94; xe1; x0a; x94; xe2; x0a; x94; xe3;
  x0a; x94; xe4; x0a; x94; xe5; x0a; x94;
  xe6; x0a; x94; xe7; x0a; x94; xe8; x0a;
  x94; xe9; x0a; x94; xea; x0a; x94; xeb;
  x0a; x94; xec; x0a; x94; xed; x0a; x94;
  xee; x0a; x94; xef; x0a; x94; xf0; x0a;
  x94; xf1; x0a; x94; xf2; x0a; x94; xf3;
  x0a; x94; xf4; x0a; x94; xf5; x0a; x94;
  xf6; x0a; x94; xf7; x0a; x94; xf8; x0a;
  x94; xf9; x0a; x94; xfa; x0a; x94; xfb;
  x0a; x94; xfc; x0a; x95; x40; x0a; x95;
  x41; x0a; x95; x42; x0a; x95; x43; x0a;
  x95; x44; x0a; x95; x45; x0a; x95; x46;
  x0a; x95; x47; x0a; x95; x48; x0a; x95;
  x49; x0a; x95; x4a; x0a; x95; x4b; x0a;
  x95; x4c; x0a; x95; x4d; x0a; x95; x4e;
  x0a; x95; x4f; x0a; x95; x50; x0a; x95;
  x51; x0a; x95; x52; x0a; x95; x53; x0a;
  x95; x54; x0a; x95; x55; x0a; x95; x56;
  x0a; x95; x57; x0a; x95; x58; x0a; x95;
  x59; x0a; x95; x5a; x0a; x95; x5b; x0a;
  x95; x5c; x0a; x95; x5d; x0a; x95; x5e;
  x0a; x95; x5f; x0a; x95; x60; x0a; x95;
  x61; x0a; x95; x62; x0a; x95; x63; x0a;
  x95; x64; x0a; x95; x65; x0a; x95; x66
].
(* tests/test_data/whatwg/shiftjis_whatwg_test_encode_out.txt, entries 9216..9471 *)
Definition shiftjis_encode_out_36 : list byte := [
  x0a; x95; x67; x0a; x95; x68; x0a; x95;
  x69; x0a; x95; x6a; x0a; x95; x6b; x0a;
  x95; x6c; x0a; x95; x6d; x0a; x95; x6e;
  x0a; x95; x6f; x0a; x95; x70; x0a; x95;
  x71; x0a; x95; x72; x0a; x95; x73; x0a;
  x95; x74; x0a; x95; x75; x0a; x95; x76;
  x0a; x95; x77; x0a; x95; x78; x0a; x95;
  x79; x0a; x95; x7a; x0a; x95; x7b; x0a;
  x95; x7c; x0a; x95; x7d; x0a; x95; x7e;
  x0a; x95; x80; x0a; x95; x81; x0a; x95;
  x82; x0a; x95; x83; x0a; x95; x84; x0a;
  x95; x85; x0a; x95; x86; x0a; x95; x87;
  x0a; x95; x88; x0a; x95; x89; x0a; x95;
  x8a; x0a; x95; x8b; x0a; x95; x8c; x0a;
  x95; x8d; x0a; x95; x8e; x0a; x95; x8f;
  x0a; x95; x90; x0a; x95; x91; x0a; x95;
  x92; x0a; x95; x93; x0a; x95; x94; x0a;
  x95; x95; x0a; x95; x96; x0a; x95; x97;
  x0a; x95; x98; x0a; x95; x99; x0a; x95;
  x9a; x0a; x95; x9b; x0a; x95; x9c; x0a;
  x95; x9d; x0a; x95; x9e; x0a; x95; x9f;
  x0a; x95; xa0; x0a; x95; xa1; x0a; x95;
  xa2; x0a; x95; xa3; x0a; x95; xa4; x0a;
  x95; xa5; x0a; x95; xa6; x0a; x95; xa7;
  x0a; x95; xa8; x0a; x95; xa9; x0a; x95;
  xaa; x0a; x95; xab; x0a; x95; xac; x0a;
  x95; xad; x0a; x95; xae; x0a; x95; xaf;
  x0a; x95; xb0; x0a; x95; xb1; x0a; x95;
  xb2; x0a; x95; xb3; x0a; x95; xb4; x0a;
  x95; xb5; x0a; x95; xb6; x0a; x95; xb7;
  x0a; x95; xb8; x0a; x95; xb9; x0a; x95;
  xba; x0a; x95; xbb; x0a; x95; xbc; x0a
].
(* tests/test_data/whatwg/shiftjis_whatwg_test_encode_out.txt, entries 9472..9727 *)
Definition shiftjis_encode_out_37 : list byte := [
  x95; xbd; x0a; x95; xbe; x0a; x95; xbf;
  x0a; x95; xc0; x0a; x95; xc1; x0a; x95;
  xc2; x0a; x95; xc3; x0a; x95; xc4; x0a;
  x95; xc5; x0a; x95; xc6; x0a; x95; xc7;
  x0a; x95; xc8; x0a; x95; xc9; x0a; x95;
  xca; x0a; x95; xcb; x0a; x95; xcc; x0a;
  x95; xcd; x0a; x95; xce; x0a; x95; xcf;
  x0a; x95; xd0; x0a; x95; xd1; x0a; x95;
  xd2; x0a; x95; xd3; x0a; x95; xd4; x0a;
  x95; xd5; x0a; x95; xd6; x0a; x95; xd7;
  x0a; x95; xd8; x0a; x95; xd9; x0a; x95;
  xda; x0a; x95; xdb; x0a; x95; xdc; x0a;
  x95; xdd; x0a; x95; xde; x0a; x95; xdf;
  x0a; x95; xe0; x0a; x95; xe1; x0a; x95;
  xe2; x0a; x95; xe3; x0a; x95; xe4; x0a;
  x95; xe5; x0a; x95; xe6; x0a; x95; xe7;
  x0a; x95; xe8; x0a; x95; xe9; x0a; x95;
  xea; x0a; x95; xeb; x0a; x95; xec; x0a;
  x95; xed; x0a; x95; xee; x0a; x95; xef;
  x0a; x95; xf0; x0a; x95; xf1; x0a; x95;
  xf2; x0a; x95; xf3; x0a; x95; xf4; x0a;
  x95; xf5; x0a; x95; xf6; x0a; x95; xf7;
  x0a; x95; xf8; x0a; x95; xf9; x0a; x95;
  xfa; x0a; x95; xfb; x0a; x95; xfc; x0a;
  x96; x40; x0a; x96; x41; x0a; x96; x42;
  x0a; x96; x43; x0a; x96; x44; x0a; x96;
  x45; x0a; x96; x46; x0a; x96; x47; x0a;
  x96; x48; x0a; x96; x49; x0a; x96; x4a;
  x0a; x96; x4b; x0a; x96; x4c; x0a; x96;
  x4d; x0a; x96; x4e; x0a; x96; x4f; x0a;
  x96; x50; x0a; x96; x51; x0a; x96; x52;
  x0a; x96; x53; x0a; x96; x54; x0a; x96
].
(* tests/test_data/whatwg/shiftjis_whatwg_test_encode_out.txt, entries 9728..9983 *)
Definition shiftjis_encode_out_38 : list byte := [
  x55; x0a; x96; x56; x0a; x96; x57; x0a;
  x96; x58; x0a; x96; x59; x0a; x96; x5a;
  x0a; x96; x5b; x0a; x96; x5c; x0a; x96;
  x5d; x0a; x96; x5e; x0a; x96; x5f; x0a;
  x96; x60; x0a; x96; x61; x0a; x96; x62;
  x0a; x96; x63; x0a; x96; x64; x0a; x96;
  x65; x0a; x96; x66; x0a; x96; x67; x0a;
  x96; x68; x0a; x96; x69; x0a; x96; x6a;
  x0a; x96; x6b; x0a; x96; x6c; x0a; x96;
  x6d; x0a; x96; x6e; x0a; x96; x6f; x0a;
  x96; x70; x0a; x96; x71; x0a; x96; x72;
  x0a; x96; x73; x0a; x96; x74; x0a; x96;
  x75; x0a; x96; x76; x0a; x96; x77; x0a;
  x96; x78; x0a; x96; x79; x0a; x96; x7a;
  x0a; x96; x7b; x0a; x96; x7c; x0a; x96;
  x7d; x0a; x96; x7e; x0a; x96; x80; x0a;
  x96; x81; x0a; x96; x82; x0a; x96; x83;
  x0a; x96; x84; x0a; x96; x85; x0a; x96;
  x86; x0a; x96; x87; x0a; x96; x88; x0a;
  x96; x89; x0a; x96; x8a; x0a; x96; x8b;
  x0a; x96; x8c; x0a; x96; x8d; x0a; x96;
  x8e; x0a; x96; x8f; x0a; x96; x90; x0a;
  x96; x91; x0a; x96; x92; x0a; x96; x93;
  x0a; x96; x94; x0a; x96; x95; x0a; x96;
  x96; x0a; x96; x97; x0a; x96; x98; x0a;
  x96; x99; x0a; x96; x9a; x0a; x96; x9b;
  x0a; x96; x9c; x0a; x96; x9d; x0a; x96;
  x9e; x0a; x96; x9f; x0a; x96; xa0; x0a;
  x96; xa1; x0a; x96; xa2; x0a; x96; xa3;
  x0a; x96; xa4; x0a; x96; xa5; x0a; x96;
  xa6; x0a; x96; xa7; x0a; x96; xa8; x0a;
  x96; xa9; x0a; x96; xaa; x0a; x96; xab
].
(* tests/test_data/whatwg/shiftjis_whatwg_test_encode_out.txt, entries 9984..10239 *)
Definition shiftjis_encode_out_39 : list byte := [
  x0a; x96; xac; x0a; x96; xad; x0a; x96;
  xae; x0a; x96; xaf; x0a; x96; xb0; x0a;
  x96; xb1; x0a; x96; xb2; x0a; x96; xb3;
  x0a; x96; xb4; x0a; x96; xb5; x0a; x96;
  xb6; x0a; x96; xb7; x0a; x96; xb8; x0a;
  x96; xb9; x0a; x96; xba; x0a; x96; xbb;
  x0a; x96; xbc; x0a; x96; xbd; x0a; x96;
  xbe; x0a; x96; xbf; x0a; x96; xc0; x0a;
  x96; xc1; x0a; x96; xc2; x0a; x96; xc3;
  x0a; x96; xc4; x0a; x96; xc5; x0a; x96;
  xc6; x0a; x96; xc7; x0a; x96; xc8; x0a;
  x96; xc9; x0a; x96; xca; x0a; x96; xcb;
  x0a; x96; xcc; x0a; x96; xcd; x0a; x96;
  xce; x0a; x96; xcf; x0a; x96; xd0; x0a;
  x96; xd1; x0a; x96; xd2; x0a; x96; xd3;
  x0a; x96; xd4; x0a; x96; xd5; x0a; x96;
  xd6; x0a; x96; xd7; x0a; x96; xd8; x0a;
  x96; xd9; x0a; x96; xda; x0a; x96; xdb;
  x0a; x96; xdc; x0a; x96; xdd; x0a; x96;
  xde; x0a; x96; xdf; x0a; x96; xe0; x0a;
  x96; xe1; x0a; x96; xe2; x0a; x96; xe3;
  x0a; x96; xe4; x0a; x96; xe5; x0a; x96;
  xe6; x0a; x96; xe7; x0a; x96; xe8; x0a;
  x96; xe9; x0a; x96; xea; x0a; x96; xeb;
  x0a; x96; xec; x0a; x96; xed; x0a; x96;
  xee; x0a; x96; xef; x0a; x96; xf0; x0a;
  x96; xf1; x0a; x96; xf2; x0a; x96; xf3;
  x0a; x96; xf4; x0a; x96; xf5; x0a; x96;
  xf6; x0a; x96; xf7; x0a; x96; xf8; x0a;
  x96; xf9; x0a; x96; xfa; x0a; x96; xfb;
  x0a; x96; xfc; x0a; x97; x40; x0a; x97;
  x41; x0a; x97; x42; x0a; x97; x43; x0a
].
(* tests/test_data/whatwg/shiftjis_whatwg_test_encode_out.txt, entries 10240..10495 *)
Definition shiftjis_encode_out_40 : list byte := [
  x97; x44; x0a; x97; x45; x0a; x97; x46;
  x0a; x97; x47; x0a; x97; x48; x0a; x97;
  x49; x0a; x97; x4a; x0a; x97; x4b; x0a;
  x97; x4c; x0a; x97; x4d; x0a; x97; x4e;
  x0a; x97; x4f; x0a; x97; x50; x0a; x97;
  x51; x0a; x97; x52; x0a; x97; x53; x0a;
  x97; x54; x0a; x97; x55; x0a; x97; x56;
  x0a; x97; x57; x0a; x97; x58; x0a; x97;
  x59; x0a; x97; x5a; x0a; x97; x5b; x0a;
  x97; x5c; x0a; x97; x5d; x0a; x97; x5e;
  x0a; x97; x5f; x0a; x97; x60; x0a; x97;
  x61; x0a; x97; x62; x0a; x97; x63; x0a;
  x97; x64; x0a; x97; x65; x0a; x97; x66;
  x0a; x97; x67; x0a; x97; x68; x0a; x97;
  x69; x0a; x97; x6a; x0a; x97; x6b; x0a;
  x97; x6c; x0a; x97; x6d; x0a; x97; x6e;
  x0a; x97; x6f; x0a; x97; x70; x0a; x97;
  x71; x0a; x97; x72; x0a; x97; x73; x0a;
  x97; x74; x0a; x97; x75; x0a; x97; x76;
  x0a; x97; x77; x0a; x97; x78; x0a; x97;
  x79; x0a; x97; x7a; x0a; x97; x7b; x0a;
  x97; x7c; x0a; x97; x7d; x0a; x97; x7e;
  x0a; x97; x80; x0a; x97; x81; x0a; x97;
  x82; x0a; x97; x83; x0a; x97; x84; x0a;
  x97; x85; x0a; x97; x86; x0a; x97; x87;
  x0a; x97; x88; x0a; x97; x89; x0a; x97;
  x8a; x0a; x97; x8b; x0a; x97; x8c; x0a;
  x97; x8d; x0a; x97; x8e; x0a; x97; x8f;
  x0a; x97; x90; x0a; x97; x91; x0a; x97;
  x92; x0a; x97; x93; x0a; x97; x94; x0a;
  x97; x95; x0a; x97; x96; x0a; x97; x97;
  x0a; x97; x98; x0a; x97; x99; x0a; x97
].
(* tests/test_data/whatwg/shiftjis_whatwg_test_encode_out.txt, entries 10496..10751 *)
Definition shiftjis_encode_out_41 : list byte := [
  x9a; x0a; x97; x9b; x0a; x97; x9c; x0a;
  x97; x9d; x0a; x97; x9e; x0a; x97; x9f;
  x0a; x97; xa0; x0a; x97; xa1; x0a; x97;
  xa2; x0a; x97; xa3; x0a; x97; xa4; x0a;
  x97; xa5; x0a; x97; xa6; x0a; x97; xa7;
  x0a; x97; xa8; x0a; x97; xa9; x0a; x97;
  xaa; x0a; x97; xab; x0a; x97; xac; x0a;
  x97; xad; x0a; x97; xae; x0a; x97; xaf;
  x0a; x97; xb0; x0a; x97; xb1; x0a; x97;
  xb2; x0a; x97; xb3; x0a; x97; xb4; x0a;
  x97; xb5; x0a; x97; xb6; x0a; x97; xb7;
  x0a; x97; xb8; x0a; x97; xb9; x0a; x97;
  xba; x0a; x97; xbb; x0a; x97; xbc; x0a;
  x97; xbd; x0a; x97; xbe; x0a; x97; xbf;
  x0a; x97; xc0; x0a; x97; xc1; x0a; x97;
  xc2; x0a; x97; xc3; x0a; x97; xc4; x0a;
  x97; xc5; x0a; x97; xc6; x0a; x97; xc7;
  x0a; x97; xc8; x0a; x97; xc9; x0a; x97;
  xca; x0a; x97; xcb; x0a; x97; xcc; x0a;
  x97; xcd; x0a; x97; xce; x0a; x97; xcf;
  x0a; x97; xd0; x0a; x97; xd1; x0a; x97;
  xd2; x0a; x97; xd3; x0a; x97; xd4; x0a;
  x97; xd5; x0a; x97; xd6; x0a; x97; xd7;
  x0a; x97; xd8; x0a; x97; xd9; x0a; x97;
  xda; x0a; x97; xdb; x0a; x97; xdc; x0a;
  x97; xdd; x0a; x97; xde; x0a; x97; xdf;
  x0a; x97; xe0; x0a; x97; xe1; x0a; x97;
  xe2; x0a; x97; xe3; x0a; x97; xe4; x0a;
  x97; xe5; x0a; x97; xe6; x0a; x97; xe7;
  x0a; x97; xe8; x0a; x97; xe9; x0a; x97;
  xea; x0a; x97; xeb; x0a; x97; xec; x0a;
  x97; xed; x0a; x97; xee; x0a; x97; xef
].
(* tests/test_data/whatwg/shiftjis_whatwg_test_encode_out.txt, entries 10752..11007 *)
Definition shiftjis_encode_out_42 : list byte := [
  x0a; x97; xf0; x0a; x97; xf1; x0a; x97;
  xf2; x0a; x97; xf3; x0a; x97; xf4; x0a;
  x97; xf5; x0a; x97; xf6; x0a; x97; xf7;
  x0a; x97; xf8; x0a; x97; xf9; x0a; x97;
  xfa; x0a; x97; xfb; x0a; x97; xfc; x0a;
  x98; x40; x0a; x98; x41; x0a; x98; x42;
  x0a; x98; x43; x0a; x98; x44; x0a; x98;
  x45; x0a; x98; x46; x0a; x98; x47; x0a;
  x98; x48; x0a; x98; x49; x0a; x98; x4a;
  x0a; x98; x4b; x0a; x98; x4c; x0a; x98;
  x4d; x0a; x98; x4e; x0a; x98; x4f; x0a;
  x98; x50; x0a; x98; x51; x0a; x98; x52;
  x0a; x98; x53; x0a; x98; x54; x0a; x98;
  x55; x0a; x98; x56; x0a; x98; x57; x0a;
  x98; x58; x0a; x98; x59; x0a; x98; x5a;
  x0a; x98; x5b; x0a; x98; x5c; x0a; x98;
  x5d; x0a; x98; x5e; x0a; x98; x5f; x0a;
  x98; x60; x0a; x98; x61; x0a; x98; x62;
  x0a; x98; x63; x0a; x98; x64; x0a; x98;
  x65; x0a; x98; x66; x0a; x98; x67; x0a;
  x98; x68; x0a; x98; x69; x0a; x98; x6a;
  x0a; x98; x6b; x0a; x98; x6c; x0a; x98;
  x6d; x0a; x98; x6e; x0a; x98; x6f; x0a;
  x98; x70; x0a; x98; x71; x0a; x98; x72;
  x0a; x98; x9f; x0a; x98; xa0; x0a; x98;
  xa1; x0a; x98; xa2; x0a; x98; xa3; x0a;
  x98; xa4; x0a; x98; xa5; x0a; x98; xa6;
  x0a; x98; xa7; x0a; x98; xa8; x0a; x98;
  xa9; x0a; x98; xaa; x0a; x98; xab; x0a;
  x98; xac; x0a; x98; xad; x0a; x98; xae;
  x0a; x98; xaf; x0a; x98; xb0; x0a; x98;
  xb1; x0a; x98; xb2; x0a; x98; xb3; x0a
].
(* tests/test_data/whatwg/shiftjis_whatwg_test_encode_out.txt, entries 11008..11263 *)
Definition shiftjis_encode_out_43 : list byte := [
  x98; xb4; x0a; x98; xb5; x0a; x98; xb6;
  x0a; x98; xb7; x0a; x98; xb8; x0a; x98;
  xb9; x0a; x98; xba; x0a; x98; xbb; x0a;
  x98; xbc; x0a; x98; xbd; x0a; x98; xbe;
  x0a; x98; xbf; x0a; x98; xc0; x0a; x98;
  xc1; x0a; x98; xc2; x0a; x98; xc3; x0a;
  x98; xc4; x0a; x98; xc5; x0a; x98; xc6;
  x0a; x98; xc7; x0a; x98; xc8; x0a; x98;
  xc9; x0a; x98; xca; x0a; x98; xcb; x0a;
  x98; xcc; x0a; x98; xcd; x0a; x98; xce;
  x0a; x98; xcf; x0a; x98; xd0; x0a; x98;
  xd1; x0a; x98; xd2; x0a; x98; xd3; x0a;
  x98; xd4; x0a; x98; xd5; x0a; x98; xd6;
  x0a; x98; xd7; x0a; x98; xd8; x0a; x98;
  xd9; x0a; x98; xda; x0a; x98; xdb; x0a;
  x98; xdc; x0a; x98; xdd; x0a; x98; xde;
  x0a; x98; xdf; x0a; x98; xe0; x0a; x98;
  xe1; x0a; x98; xe2; x0a; x98; xe3; x0a;
  x98; xe4; x0a; x98; xe5; x0a; x98; xe6;
  x0a; x98; xe7; x0a; x98; xe8; x0a; x98;
  xe9; x0a; x98; xea; x0a; x98; xeb; x0a;
  x98; xec; x0a; x98; xed; x0a; x98; xee;
  x0a; x98; xef; x0a; x98; xf0; x0a; x98;
  xf1; x0a; x98; xf2; x0a; x98; xf3; x0a;
  x98; xf4; x0a; x98; xf5; x0a; x98; xf6;
  x0a; x98; xf7; x0a; x98; xf8; x0a; x98;
  xf9; x0a; x98; xfa; x0a; x98; xfb; x0a;
  x98; xfc; x0a; x99; x40; x0a; x99; x41;
  x0a; x99; x42; x0a; x99; x43; x0a; x99;
  x44; x0a; x99; x45; x0a; x99; x46; x0a;
  x99; x47; x0a; x99; x48; x0a; x99; x49;
  x0a; x99; x4a; x0a; x99; x4b; x0a; x99
].
(* tests/test_data/whatwg/shiftjis_whatwg_test_encode_out.txt, entries 11264..11519 *)
Definition shiftjis_encode_out_44 : list byte := [
  x4c; x0a; x99; x4d; x0a; x99; x4e; x0a;
  x99; x4f; x0a; x99; x50; x0a; x99; x51;
  x0a; x99; x52; x0a; x99; x53; x0a; x99;
  x54; x0a; x99; x55; x0a; x99; x56; x0a;
  x99; x57; x0a; x99; x58; x0a; x99; x59;
  x0a; x99; x5a; x0a; x99; x5b; x0a; x99;
  x5c; x0a; x99; x5d; x0a; x99; x5e; x0a;
  x99; x5f; x0a; x99; x60; x0a; x99; x61;
  x0a; x99; x62; x0a; x99; x63; x0a; x99;
  x64; x0a; x99; x65; x0a; x99; x66; x0a;
  x99; x67; x0a; x99; x68; x0a; x99; x69;
  x0a; x99; x6a; x0a; x99; x6b; x0a; x99;
  x6c; x0a; x99; x6d; x0a; x99; x6e; x0a;
  x99; x6f; x0a; x99; x70; x0a; x99; x71;
  x0a; x99; x72; x0a; x99; x73; x0a; x99;
  x74; x0a; x99; x75; x0a; x99; x76; x0a;
  x99; x77; x0a; x99; x78; x0a; x99; x79;
  x0a; x99; x7a; x0a; x99; x7b; x0a; x99;
  x7c; x0a; x99; x7d; x0a; x99; x7e; x0a;
  x99; x80; x0a; x99; x81; x0a; x99; x82;
  x0a; x99; x83; x0a; x99; x84; x0a; x99;
  x85; x0a; x99; x86; x0a; x99; x87; x0a;
  x99; x88; x0a; x99; x89; x0a; x99; x8a;
  x0a; x99; x8b; x0a; x99; x8c; x0a; x99;
  x8d; x0a; x99; x8e; x0a; x99; x8f; x0a;
  x99; x90; x0a; x99; x91; x0a; x99; x92;
  x0a; x99; x93; x0a; x99; x94; x0a; x99;
  x95; x0a; x99; x96; x0a; x99; x97; x0a;
  x99; x98; x0a; x99; x99; x0a; x99; x9a;
  x0a; x99; x9b; x0a; x99; x9c; x0a; x99;
  x9d; x0a; x99; x9e; x0a; x99; x9f; x0a;
  x99; xa0; x0a; x99; xa1; x0a; x99; xa2
].
(* tests/test_data/whatwg/shiftjis_whatwg_test_encode_out.txt, entries 11520..11775 *)
Definition shiftjis_encode_out_45 : list byte := [
  x0a; x99; xa3; x0a; x99; xa4; x0a; x99;
  xa5; x0a; x99; xa6; x0a; x99; xa7; x0a;
  x99; xa8; x0a; x99; xa9; x0a; x99; xaa;
  x0a; x99; xab; x0a; x99; xac; x0a; x99;
  xad; x0a; x99; xae; x0a; x99; xaf; x0a;
  x99; xb0; x0a; x99; xb1; x0a; x99; xb2;
  x0a; x99; xb3; x0a; x99; xb4; x0a; x99;
  xb5; x0a; x99; xb6; x0a; x99; xb7; x0a;
  x99; xb8; x0a; x99; xb9; x0a; x99; xba;
  x0a; x99; xbb; x0a; x99; xbc; x0a; x99;
  xbd; x0a; x99; xbe; x0a; x99; xbf; x0a;
  x99; xc0; x0a; x99; xc1; x0a; x99; xc2;
  x0a; x99; xc3; x0a; x99; xc4; x0a; x99;
  xc5; x0a; x99; xc6; x0a; x99; xc7; x0a;
  x99; xc8; x0a; x99; xc9; x0a; x99; xca;
  x0a; x99; xcb; x0a; x99; xcc; x0a; x99;
  xcd; x0a; x99; xce; x0a; x99; xcf; x0a;
  x99; xd0; x0a; x99; xd1; x0a; x99; xd2;
  x0a; x99; xd3; x0a; x99; xd4; x0a; x99;
  xd5; x0a; x99; xd6; x0a; x99; xd7; x0a;
  x99; xd8; x0a; x99; xd9; x0a; x99; xda;
  x0a; x99; xdb; x0a; x99; xdc; x0a; x99;
  xdd; x0a; x99; xde; x0a; x99; xdf; x0a;
  x99; xe0; x0a; x99; xe1; x0a; x99; xe2;
  x0a; x99; xe3; x0a; x99; xe4; x0a; x99;
  xe5; x0a; x99; xe6; x0a; x99; xe7; x0a;
  x99; xe8; x0a; x99; xe9; x0a; x99; xea;
  x0a; x99; xeb; x0a; x99; xec; x0a; x99;
  xed; x0a; x99; xee; x0a; x99; xef; x0a;
  x99; xf0; x0a; x99; xf1; x0a; x99; xf2;
  x0a; x99; xf3; x0a; x99; xf4; x0a; x99;
  xf5; x0a; x99; xf6; x0a; x99; xf7; x0a
].
(* tests/test_data/whatwg/shiftjis_whatwg_test_encode_out.txt, entries 11776..12031 *)
Definition shiftjis_encode_out_46 : list byte := [
  x99; xf8; x0a; x99; xf9; x0a; x99; xfa;
  x0a; x99; xfb; x0a; x99; xfc; x0a; x9a;
  x40; x0a; x9a; x41; x0a; x9a; x42; x0a;
  x9a; x43; x0a; x9a; x44; x0a; x9a; x45;
  x0a; x9a; x46; x0a; x9a; x47; x0a; x9a;
  x48; x0a; x9a; x49; x0a; x9a; x4a; x0a;
  x9a; x4b; x0a; x9a; x4c; x0a; x9a; x4d;
  x0a; x9a; x4e; x0a; x9a; x4f; x0a; x9a;
  x50; x0a; x9a; x51; x0a; x9a; x52; x0a;
  x9a; x53; x0a; x9a; x54; x0a; x9a; x55;
  x0a; x9a; x56; x0a; x9a; x57; x0a; x9a;
  x58; x0a; x9a; x59; x0a; x9a; x5a; x0a;
  x9a; x5b; x0a; x9a; x5c; x0a; x9a; x5d;
  x0a; x9a; x5e; x0a; x9a; x5f; x0a; x9a;
  x60; x0a; x9a; x61; x0a; x9a; x62; x0a;
  x9a; x63; x0a; x9a; x64; x0a; x9a; x65;
  x0a; x9a; x66; x0a; x9a; x67; x0a; x9a;
  x68; x0a; x9a; x69; x0a; x9a; x6a; x0a;
  x9a; x6b; x0a; x9a; x6c; x0a; x9a; x6d;
  x0a; x9a; x6e; x0a; x9a; x6f; x0a; x9a;
  x70; x0a; x9a; x71; x0a; x9a; x72; x0a;
  x9a; x73; x0a; x9a; x74; x0a; x9a; x75;
  x0a; x9a; x76; x0a; x9a; x77; x0a; x9a;
  x78; x0a; x9a; x79; x0a; x9a; x7a; x0a;
  x9a; x7b; x0a; x9a; x7c; x0a; x9a; x7d;
  x0a; x9a; x7e; x0a; x9a; x80; x0a; x9a;
  x81; x0a; x9a; x82; x0a; x9a; x83; x0a;
  x9a; x84; x0a; x9a; x85; x0a; x9a; x86;
  x0a; x9a; x87; x0a; x9a; x88; x0a; x9a;
  x89; x0a; x9a; x8a; x0a; x9a; x8b; x0a;
  x9a; x8c; x0a; x9a; x8d; x0a; x9a; x8e;
  x0a; x9a; x8f; x0a; x9a; x90; x0a; x9a
].
(* tests/test_data/whatwg/shiftjis_whatwg_test_encode_out.txt, entries 12032..12287 *)
Definition shiftjis_encode_out_47 : list byte := [
  x91; x0a; x9a; x92; x0a; x9a; x93; x0a;
  x9a; x94; x0a; x9a; x95; x0a; x9a; x96;
  x0a; x9a; x97; x0a; x9a; x98; x0a; x9a;
  x99; x0a; x9a; x9a; x0a; x9a; x9b; x0a;
  x9a; x9c; x0a; x9a; x9d; x0a; x9a; x9e;
  x0a; x9a; x9f; x0a; x9a; xa0; x0a; x9a;
  xa1; x0a; x9a; xa2; x0a; x9a; xa3; x0a;
  x9a; xa4; x0a; x9a; xa5; x0a; x9a; xa6;
  x0a; x9a; xa7; x0a; x9a; xa8; x0a; x9a;
  xa9; x0a; x9a; xaa; x0a; x9a; xab; x0a;
  x9a; xac; x0a; x9a; xad; x0a; x9a; xae;
  x0a; x9a; xaf; x0a; x9a; xb0; x0a; x9a;
  xb1; x0a; x9a; xb2; x0a; x9a; xb3; x0a;
  x9a; xb4; x0a; x9a; xb5; x0a; x9a; xb6;
  x0a; x9a; xb7; x0a; x9a; xb8; x0a; x9a;
  xb9; x0a; x9a; xba; x0a; x9a; xbb; x0a;
  x9a; xbc; x0a; x9a; xbd; x0a; x9a; xbe;
  x0a; x9a; xbf; x0a; x9a; xc0; x0a; x9a;
  xc1; x0a; x9a; xc2; x0a; x9a; xc3; x0a;
  x9a; xc4; x0a; x9a; xc5; x0a; x9a; xc6;
  x0a; x9a; xc7; x0a; x9a; xc8; x0a; x9a;
  xc9; x0a; x9a; xca; x0a; x9a; xcb; x0a;
  x9a; xcc; x0a; x9a; xcd; x0a; x9a; xce;
  x0a; x9a; xcf; x0a; x9a; xd0; x0a; x9a;
  xd1; x0a; x9a; xd2; x0a; x9a; xd3; x0a;
  x9a; xd4; x0a; x9a; xd5; x0a; x9a; xd6;
  x0a; x9a; xd7; x0a; x9a; xd8; x0a; x9a;
  xd9; x0a; x9a; xda; x0a; x9a; xdb; x0a;
  x9a; xdc; x0a; x9a; xdd; x0a; x9a; xde;
  x0a; x9a; xdf; x0a; x9a; xe0; x0a; x9a;
  xe1; x0a; x9a; xe2; x0a; x9a; xe3; x0a;
  x9a; xe4; x0a; x9a; xe5; x0a; x9a; xe6
].
(* tests/test_data/whatwg/shiftjis_whatwg_test_encode_out.txt, entries 12288..12543 *)
Definition shiftjis_encode_out_48 : list byte := [
  x0a; x9a; xe7; x0a; x9a; xe8; x0a; x9a;
  xe9; x0a; x9a; xea; x0a; x9a; xeb; x0a;
  x9a; xec; x0a; x9a; xed; x0a; x9a; xee;
  x0a; x9a; xef; x0a; x9a; xf0; x0a; x9a;
  xf1; x0a; x9a; xf2; x0a; x9a; xf3; x0a;
  x9a; xf4; x0a; x9a; xf5; x0a; x9a; xf6;
  x0a; x9a; xf7; x0a; x9a; xf8; x0a; x9a;
  xf9; x0a; x9a; xfa; x0a; x9a; xfb; x0a;
  x9a; xfc; x0a; x9b; x40; x0a; x9b; x41;
  x0a; x9b; x42; x0a; x9b; x43; x0a; x9b;
  x44; x0a; x9b; x45; x0a; x9b; x46; x0a;
  x9b; x47; x0a; x9b; x48; x0a; x9b; x49;
  x0a; x9b; x4a; x0a; x9b; x4b; x0a; x9b;
  x4c; x0a; x9b; x4d; x0a; x9b; x4e; x0a;
  x9b; x4f; x0a; x9b; x50; x0a; x9b; x51;
  x0a; x9b; x52; x0a; x9b; x53; x0a; x9b;
  x54; x0a; x9b; x55; x0a; x9b; x56; x0a;
  x9b; x57; x0a; x9b; x58; x0a; x9b; x59;
  x0a; x9b; x5a; x0a; x9b; x5b; x0a; x9b;
  x5c; x0a; x9b; x5d; x0a; x9b; x5e; x0a;
  x9b; x5f; x0a; x9b; x60; x0a; x9b; x61;
  x0a; x9b; x62; x0a; x9b; x63; x0a; x9b;
  x64; x0a; x9b; x65; x0a; x9b; x66; x0a;
  x9b; x67; x0a; x9b; x68; x0a; x9b; x69;
  x0a; x9b; x6a; x0a; x9b; x6b; x0a; x9b;
  x6c; x0a; x9b; x6d; x0a; x9b; x6e; x0a;
  x9b; x6f; x0a; x9b; x70; x0a; x9b; x71;
  x0a; x9b; x72; x0a; x9b; x73; x0a; x9b;
  x74; x0a; x9b; x75; x0a; x9b; x76; x0a;
  x9b; x77; x0a; x9b; x78; x0a; x9b; x79;
  x0a; x9b; x7a; x0a; x9b; x7b; x0a; x9b;
  x7c; x0a; x9b; x7d; x0a; x9b; x7e; x0a
].
(* tests/test_data/whatwg/shiftjis_whatwg_test_encode_out.txt, entries 12544..12799 *)
Definition shiftjis_encode_out_49 : list byte := [
  x9b; x80; x0a; x9b; x81; x0a; x9b; x82;
  x0a; x9b; x83; x0a; x9b; x84; x0a; x9b;
  x85; x0a; x9b; x86; x0a; x9b; x87; x0a;
  x9b; x88; x0a; x9b; x89; x0a; x9b; x8a;
  x0a; x9b; x8b; x0a; x9b; x8c; x0a; x9b;
  x8d; x0a; x9b; x8e; x0a; x9b; x8f; x0a;
  x9b; x90; x0a; x9b; x91; x0a; x9b; x92;
  x0a; x9b; x93; x0a; x9b; x94; x0a; x9b;
  x95; x0a; x9b; x96; x0a; x9b; x97; x0a;
  x9b; x98; x0a; x9b; x99; x0a; x9b; x9a;
  x0a; x9b; x9b; x0a; x9b; x9c; x0a; x9b;
  x9d; x0a; x9b; x9e; x0a; x9b; x9f; x0a;
  x9b; xa0; x0a; x9b; xa1; x0a; x9b; xa2;
  x0a; x9b; xa3; x0a; x9b; xa4; x0a; x9b;
  xa5; x0a; x9b; xa6; x0a; x9b; xa7; x0a;
  x9b; xa8; x0a; x9b; xa9; x0a; x9b; xaa;
  x0a; x9b; xab; x0a; x9b; xac; x0a; x9b;
  xad; x0a; x9b; xae; x0a; x9b; xaf; x0a;
  x9b; xb0; x0a; x9b; xb1; x0a; x9b; xb2;
  x0a; x9b; xb3; x0a; x9b; xb4; x0a; x9b;
  xb5; x0a; x9b; xb6; x0a; x9b; xb7; x0a;
  x9b; xb8; x0a; x9b; xb9; x0a; x9b; xba;
  x0a; x9b; xbb; x0a; x9b; xbc; x0a; x9b;
  xbd; x0a; x9b; xbe; x0a; x9b; xbf; x0a;
  x9b; xc0; x0a; x9b; xc1; x0a; x9b; xc2;
  x0a; x9b; xc3; x0a; x9b; xc4; x0a; x9b;
  xc5; x0a; x9b; xc6; x0a; x9b; xc7; x0a;
  x9b; xc8; x0a; x9b; xc9; x0a; x9b; xca;
  x0a; x9b; xcb; x0a; x9b; xcc; x0a; x9b;
  xcd; x0a; x9b; xce; x0a; x9b; xcf; x0a;
  x9b; xd0; x0a; x9b; xd1; x0a; x9b; xd2;
  x0a; x9b; xd3; x0a; x9b; xd4; x0a; x9b
].
(* tests/test_data/whatwg/shiftjis_whatwg_test_encode_out.txt, entries 12800..13055 *)
Definition shiftjis_encode_out_50 : list byte := [
  xd5; x0a; x9b; xd6; x0a; x9b; xd7; x0a;
  x9b; xd8; x0a; x9b; xd9; x0a; x9b; xda;
  x0a; x9b; xdb; x0a; x9b; xdc; x0a; x9b;
  xdd; x0a; x9b; xde; x0a; x9b; xdf; x0a;
  x9b; xe0; x0a; x9b; xe1; x0a; x9b; xe2;
  x0a; x9b; xe3; x0a; x9b; xe4; x0a; x9b;
  xe5; x0a; x9b; xe6; x0a; x9b; xe7; x0a;
  x9b; xe8; x0a; x9b; xe9; x0a; x9b; xea;
  x0a; x9b; xeb; x0a; x9b; xec; x0a; x9b;
  xed; x0a; x9b; xee; x0a; x9b; xef; x0a;
  x9b; xf0; x0a; x9b; xf1; x0a; x9b; xf2;
  x0a; x9b; xf3; x0a; x9b; xf4; x0a; x9b;
  xf5; x0a; x9b; xf6; x0a; x9b; xf7; x0a;
  x9b; xf8; x0a; x9b; xf9; x0a; x9b; xfa;
  x0a; x9b; xfb; x0a; x9b; xfc; x0a; x9c;
  x40; x0a; x9c; x41; x0a; x9c; x42; x0a;
  x9c; x43; x0a; x9c; x44; x0a; x9c; x45;
  x0a; x9c; x46; x0a; x9c; x47; x0a; x9c;
  x48; x0a; x9c; x49; x0a; x9c; x4a; x0a;
  x9c; x4b; x0a; x9c; x4c; x0a; x9c; x4d;
  x0a; x9c; x4e; x0a; x9c; x4f; x0a; x9c;
  x50; x0a; x9c; x51; x0a; x9c; x52; x0a;
  x9c; x53; x0a; x9c; x54; x0a; x9c; x55;
  x0a; x9c; x56; x0a; x9c; x57; x0a; x9c;
  x58; x0a; x9c; x59; x0a; x9c; x5a; x0a;
  x9c; x5b; x0a; x9c; x5c; x0a; x9c; x5d;
  x0a; x9c; x5e; x0a; x9c; x5f; x0a; x9c;
  x60; x0a; x9c; x61; x0a; x9c; x62; x0a;
  x9c; x63; x0a; x9c; x64; x0a; x9c; x65;
  x0a; x9c; x66; x0a; x9c; x67; x0a; x9c;
  x68; x0a; x9c; x69; x0a; x9c; x6a; x0a;
  x9c; x6b; x0a; x9c; x6c; x0a; x9c; x6d
].
(* tests/test_data/whatwg/shiftjis_whatwg_test_encode_out.txt, entries 13056..13311 *)
Definition shiftjis_encode_out_51 : list byte := [
  x0a; x9c; x6e; x0a; x9c; x6f; x0a; x9c;
  x70; x0a; x9c; x71; x0a; x9c; x72; x0a;
  x9c; x73; x0a; x9c; x74; x0a; x9c; x75;
  x0a; x9c; x76; x0a; x9c; x77; x0a; x9c;
  x78; x0a; x9c; x79; x0a; x9c; x7a; x0a;
  x9c; x7b; x0a; x9c; x7c; x0a; x9c; x7d;
  x0a; x9c; x7e; x0a; x9c; x80; x0a; x9c;
  x81; x0a; x9c; x82; x0a; x9c; x83; x0a;
  x9c; x84; x0a; x9c; x85; x0a; x9c; x86;
  x0a; x9c; x87; x0a; x9c; x88; x0a; x9c;
  x89; x0a; x9c; x8a; x0a; x9c; x8b; x0a;
  x9c; x8c; x0a; x9c; x8d; x0a; x9c; x8e;
  x0a; x9c; x8f; x0a; x9c; x90; x0a; x9c;
  x91; x0a; x9c; x92; x0a; x9c; x93; x0a;
  x9c; x94; x0a; x9c; x95; x0a; x9c; x96;
  x0a; x9c; x97; x0a; x9c; x98; x0a; x9c;
  x99; x0a; x9c; x9a; x0a; x9c; x9b; x0a;
  x9c; x9c; x0a; x9c; x9d; x0a; x9c; x9e;
  x0a; x9c; x9f; x0a; x9c; xa0; x0a; x9c;
  xa1; x0a; x9c; xa2; x0a; x9c; xa3; x0a;
  x9c; xa4; x0a; x9c; xa5; x0a; x9c; xa6;
  x0a; x9c; xa7; x0a; x9c; xa8; x0a; x9c;
  xa9; x0a; x9c; xaa; x0a; x9c; xab; x0a;
  x9c; xac; x0a; x9c; xad; x0a; x9c; xae;
  x0a; x9c; xaf; x0a; x9c; xb0; x0a; x9c;
  xb1; x0a; x9c; xb2; x0a; x9c; xb3; x0a;
  x9c; xb4; x0a; x9c; xb5; x0a; x9c; xb6;
  x0a; x9c; xb7; x0a; x9c; xb8; x0a; x9c;
  xb9; x0a; x9c; xba; x0a; x9c; xbb; x0a;
  x9c; xbc; x0a; x9c; xbd; x0a; x9c; xbe;
  x0a; x9c; xbf; x0a; x9c; xc0; x0a; x9c;
  xc1; x0a; x9c; xc2; x0a; x9c; xc3; x0a
].
(* tests/test_data/whatwg/shiftjis_whatwg_test_encode_out.txt, entries 13312..13567 *)
Definition shiftjis_encode_out_52 : list byte := [
  x9c; xc4; x0a; x9c; xc5; x0a; x9c; xc6;
  x0a; x9c; xc7; x0a; x9c; xc8; x0a; x9c;
  xc9; x0a; x9c; xca; x0a; x9c; xcb; x0a;
  x9c; xcc; x0a; x9c; xcd; x0a; x9c; xce;
  x0a; x9c; xcf; x0a; x9c; xd0; x0a; x9c;
  xd1; x0a; x9c; xd2; x0a; x9c; xd3; x0a;
  x9c; xd4; x0a; x9c; xd5; x0a; x9c; xd6;
  x0a; x9c; xd7; x0a; x9c; xd8; x0a; x9c;
  xd9; x0a; x9c; xda; x0a; x9c; xdb; x0a;
  x9c; xdc; x0a; x9c; xdd; x0a; x9c; xde;
  x0a; x9c; xdf; x0a; x9c; xe0; x0a; x9c;
  xe1; x0a; x9c; xe2; x0a; x9c; xe3; x0a;
  x9c; xe4; x0a; x9c; xe5; x0a; x9c; xe6;
  x0a; x9c; xe7; x0a; x9c; xe8; x0a; x9c;
  xe9; x0a; x9c; xea; x0a; x9c; xeb; x0a;
  x9c; xec; x0a; x9c; xed; x0a; x9c; xee;
  x0a; x9c; xef; x0a; x9c; xf0; x0a; x9c;
  xf1; x0a; x9c; xf2; x0a; x9c; xf3; x0a;
  x9c; xf4; x0a; x9c; xf5; x0a; x9c; xf6;
  x0a; x9c; xf7; x0a; x9c; xf8; x0a; x9c;
  xf9; x0a; x9c; xfa; x0a; x9c; xfb; x0a;
  x9c; xfc; x0a; x9d; x40; x0a; x9d; x41;
  x0a; x9d; x42; x0a; x9d; x43; x0a; x9d;
  x44; x0a; x9d; x45; x0a; x9d; x46; x0a;
  x9d; x47; x0a; x9d; x48; x0a; x9d; x49;
  x0a; x9d; x4a; x0a; x9d; x4b; x0a; x9d;
  x4c; x0a; x9d; x4d; x0a; x9d; x4e; x0a;
  x9d; x4f; x0a; x9d; x50; x0a; x9d; x51;
  x0a; x9d; x52; x0a; x9d; x53; x0a; x9d;
  x54; x0a; x9d; x55; x0a; x9d; x56; x0a;
  x9d; x57; x0a; x9d; x58; x0a; x9d; x59;
  x0a; x9d; x5a; x0a; x9d; x5b; x0a; x9d
].
(* tests/test_data/whatwg/shiftjis_whatwg_test_encode_out.txt, entries 13568..13823 *)
Definition shiftjis_encode_out_53 : list byte := [
  x5c; x0a; x9d; x5d; x0a; x9d; x5e; x0a;
  x9d; x5f; x0a; x9d; x60; x0a; x9d; x61;
  x0a; x9d; x62; x0a; x9d; x63; x0a; x9d;
  x64; x0a; x9d; x65; x0a; x9d; x66; x0a;
  x9d; x67; x0a; x9d; x68; x0a; x9d; x69;
  x0a; x9d; x6a; x0a; x9d; x6b; x0a; x9d;
  x6c; x0a; x9d; x6d; x0a; x9d; x6e; x0a;
  x9d; x6f; x0a; x9d; x70; x0a; x9d; x71;
  x0a; x9d; x72; x0a; x9d; x73; x0a; x9d;
  x74; x0a; x9d; x75; x0a; x9d; x76; x0a;
  x9d; x77; x0a; x9d; x78; x0a; x9d; x79;
  x0a; x9d; x7a; x0a; x9d; x7b; x0a; x9d;
  x7c; x0a; x9d; x7d; x0a; x9d; x7e; x0a;
  x9d; x80; x0a; x9d; x81; x0a; x9d; x82;
  x0a; x9d; x83; x0a; x9d; x84; x0a; x9d;
  x85; x0a; x9d; x86; x0a; x9d; x87; x0a;
  x9d; x88; x0a; x9d; x89; x0a; x9d; x8a;
  x0a; x9d; x8b; x0a; x9d; x8c; x0a; x9d;
  x8d; x0a; x9d; x8e; x0a; x9d; x8f; x0a;
  x9d; x90; x0a; x9d; x91; x0a; x9d; x92;
  x0a; x9d; x93; x0a; x9d; x94; x0a; x9d;
  x95; x0a; x9d; x96; x0a; x9d; x97; x0a;
  x9d; x98; x0a; x9d; x99; x0a; x9d; x9a;
  x0a; x9d; x9b; x0a; x9d; x9c; x0a; x9d;
  x9d; x0a; x9d; x9e; x0a; x9d; x9f; x0a;
  x9d; xa0; x0a; x9d; xa1; x0a; x9d; xa2;
  x0a; x9d; xa3; x0a; x9d; xa4; x0a; x9d;
  xa5; x0a; x9d; xa6; x0a; x9d; xa7; x0a;
  x9d; xa8; x0a; x9d; xa9; x0a; x9d; xaa;
  x0a; x9d; xab; x0a; x9d; xac; x0a; x9d;
  xad; x0a; x9d; xae; x0a; x9d; xaf; x0a;
  x9d; xb0; x0a; x9d; xb1; x0a; x9d; xb2
].
(* tests/test_data/whatwg/shiftjis_whatwg_test_encode_out.txt, entries 13824..14079 *)
Definition shiftjis_encode_out_54 : list byte := [
  x0a; x9d; xb3; x0a; x9d; xb4; x0a; x9d;
  xb5; x0a; x9d; xb6; x0a; x9d; xb7; x0a;
  x9d; xb8; x0a; x9d; xb9; x0a; x9d; xba;
  x0a; x9d; xbb; x0a; x9d; xbc; x0a; x9d;
  xbd; x0a; x9d; xbe; x0a; x9d; xbf; x0a;
  x9d; xc0; x0a; x9d; xc1; x0a; x9d; xc2;
  x0a; x9d; xc3; x0a; x9d; xc4; x0a; x9d;
  xc5; x0a; x9d; xc6; x0a; x9d; xc7; x0a;
  x9d; xc8; x0a; x9d; xc9; x0a; x9d; xca;
  x0a; x9d; xcb; x0a; x9d; xcc; x0a; x9d;
  xcd; x0a; x9d; xce; x0a; x9d; xcf; x0a;
  x9d; xd0; x0a; x9d; xd1; x0a; x9d; xd2;
  x0a; x9d; xd3; x0a; x9d; xd4; x0a; x9d;
  xd5; x0a; x9d; xd6; x0a; x9d; xd7; x0a;
  x9d; xd8; x0a; x9d; xd9; x0a; x9d; xda;
  x0a; x9d; xdb; x0a; x9d; xdc; x0a; x9d;
  xdd; x0a; x9d; xde; x0a; x9d; xdf; x0a;
  x9d; xe0; x0a; x9d; xe1; x0a; x9d; xe2;
  x0a; x9d; xe3; x0a; x9d; xe4; x0a; x9d;
  xe5; x0a; x9d; xe6; x0a; x9d; xe7; x0a;
  x9d; xe8; x0a; x9d; xe9; x0a; x9d; xea;
  x0a; x9d; xeb; x0a; x9d; xec; x0a; x9d;
  xed; x0a; x9d; xee; x0a; x9d; xef; x0a;
  x9d; xf0; x0a; x9d; xf1; x0a; x9d; xf2;
  x0a; x9d; xf3; x0a; x9d; xf4; x0a; x9d;
  xf5; x0a; x9d; xf6; x0a; x9d; xf7; x0a;
  x9d; xf8; x0a; x9d; xf9; x0a; x9d; xfa;
  x0a; x9d; xfb; x0a; x9d; xfc; x0a; x9e;
  x40; x0a; x9e; x41; x0a; x9e; x42; x0a;
  x9e; x43; x0a; x9e; x44; x0a; x9e; x45;
  x0a; x9e; x46; x0a; x9e; x47; x0a; x9e;
  x48; x0a; x9e; x49; x0a; x9e; x4a; x0a
].
(* tests/test_data/whatwg/shiftjis_whatwg_test_encode_out.txt, entries 14080..14335 *)
Definition shiftjis_encode_out_55 : list byte := [
  x9e; x4b; x0a; x9e; x4c; x0a; x9e; x4d;
  x0a; x9e; x4e; x0a; x9e; x4f; x0a; x9e;
  x50; x0a; x9e; x51; x0a; x9e; x52; x0a;
  x9e; x53; x0a; x9e; x54; x0a; x9e; x55;
  x0a; x9e; x56; x0a; x9e; x57; x0a; x9e;
  x58; x0a; x9e; x59; x0a; x9e; x5a; x0a;
  x9e; x5b; x0a; x9e; x5c; x0a; x9e; x5d;
  x0a; x9e; x5e; x0a; x9e; x5f; x0a; x9e;
  x60; x0a; x9e; x61; x0a; x9e; x62; x0a;
  x9e; x63; x0a; x9e; x64; x0a; x9e; x65;
  x0a; x9e; x66; x0a; x9e; x67; x0a; x9e;
  x68; x0a; x9e; x69; x0a; x9e; x6a; x0a;
  x9e; x6b; x0a; x9e; x6c; x0a; x9e; x6d;
  x0a; x9e; x6e; x0a; x9e; x6f; x0a; x9e;
  x70; x0a; x9e; x71; x0a; x9e; x72; x0a;
  x9e; x73; x0a; x9e; x74; x0a; x9e; x75;
  x0a; x9e; x76; x0a; x9e; x77; x0a; x9e;
  x78; x0a; x9e; x79; x0a; x9e; x7a; x0a;
  x9e; x7b; x0a; x9e; x7c; x0a; x9e; x7d;
  x0a; x9e; x7e; x0a; x9e; x80; x0a; x9e;
  x81; x0a; x9e; x82; x0a; x9e; x83; x0a;
  x9e; x84; x0a; x9e; x85; x0a; x9e; x86;
  x0a; x9e; x87; x0a; x9e; x88; x0a; x9e;
  x89; x0a; x9e; x8a; x0a; x9e; x8b; x0a;
  x9e; x8c; x0a; x9e; x8d; x0a; x9e; x8e;
  x0a; x9e; x8f; x0a; x9e; x90; x0a; x9e;
  x91; x0a; x9e; x92; x0a; x9e; x93; x0a;
  x9e; x94; x0a; x9e; x95; x0a; x9e; x96;
  x0a; x9e; x97; x0a; x9e; x98; x0a; x9e;
  x99; x0a; x9e; x9a; x0a; x9e; x9b; x0a;
  x9e; x9c; x0a; x9e; x9d; x0a; x9e; x9e;
  x0a; x9e; x9f; x0a; x9e; xa0; x0a; x9e
].
(* tests/test_data/whatwg/shiftjis_whatwg_test_encode_out.txt, entries 14336..14591 *)
Definition shiftjis_encode_out_56 : list byte := [
  xa1; x0a; x9e; xa2; x0a; x9e; xa3; x0a;
  x9e; xa4; x0a; x9e; xa5; x0a; x9e; xa6;
  x0a; x9e; xa7; x0a; x9e; xa8; x0a; x9e;
  xa9; x0a; x9e; xaa; x0a; x9e; xab; x0a;
  x9e; xac; x0a; x9e; xad; x0a; x9e; xae;
  x0a; x9e; xaf; x0a; x9e; xb0; x0a; x9e;
  xb1; x0a; x9e; xb2; x0a; x9e; xb3; x0a;
  x9e; xb4; x0a; x9e; xb5; x0a; x9e; xb6;
  x0a; x9e; xb7; x0a; x9e; xb8; x0a; x9e;
  xb9; x0a; x9e; xba; x0a; x9e; xbb; x0a;
  x9e; xbc; x0a; x9e; xbd; x0a; x9e; xbe;
  x0a; x9e; xbf; x0a; x9e; xc0; x0a; x9e;
  xc1; x0a; x9e; xc2; x0a; x9e; xc3; x0a;
  x9e; xc4; x0a; x9e; xc5; x0a; x9e; xc6;
  x0a; x9e; xc7; x0a; x9e; xc8; x0a; x9e;
  xc9; x0a; x9e; xca; x0a; x9e; xcb; x0a;
  x9e; xcc; x0a; x9e; xcd; x0a; x9e; xce;
  x0a; x9e; xcf; x0a; x9e; xd0; x0a; x9e;
  xd1; x0a; x9e; xd2; x0a; x9e; xd3; x0a;
  x9e; xd4; x0a; x9e; xd5; x0a; x9e; xd6;
  x0a; x9e; xd7; x0a; x9e; xd8; x0a; x9e;
  xd9; x0a; x9e; xda; x0a; x9e; xdb; x0a;
  x9e; xdc; x0a; x9e; xdd; x0a; x9e; xde;
  x0a; x9e; xdf; x0a; x9e; xe0; x0a; x9e;
  xe1; x0a; x9e; xe2; x0a; x9e; xe3; x0a;
  x9e; xe4; x0a; x9e; xe5; x0a; x9e; xe6;
  x0a; x9e; xe7; x0a; x9e; xe8; x0a; x9e;
  xe9; x0a; x9e; xea; x0a; x9e; xeb; x0a;
  x9e; xec; x0a; x9e; xed; x0a; x9e; xee;
  x0a; x9e; xef; x0a; x9e; xf0; x0a; x9e;
  xf1; x0a; x9e; xf2; x0a; x9e; xf3; x0a;
  x9e; xf4; x0a; x9e; xf5; x0a; x9e; xf6
].
(* tests/test_data/whatwg/shiftjis_whatwg_test_encode_out.txt, entries 14592..14847 *)
Definition shiftjis_encode_out_57 : list byte := [
  x0a; x9e; xf7; x0a; x9e; xf8; x0a; x9e;
  xf9; x0a; x9e; xfa; x0a; x9e; xfb; x0a;
  x9e; xfc; x0a; x9f; x40; x0a; x9f; x41;
  x0a; x9f; x42; x0a; x9f; x43; x0a; x9f;
  x44; x0a; x9f; x45; x0a; x9f; x46; x0a;
  x9f; x47; x0a; x9f; x48; x0a; x9f; x49;
  x0a; x9f; x4a; x0a; x9f; x4b; x0a; x9f;
  x4c; x0a; x9f; x4d; x0a; x9f; x4e; x0a;
  x9f; x4f; x0a; x9f; x50; x0a; x9f; x51;
  x0a; x9f; x52; x0a; x9f; x53; x0a; x9f;
  x54; x0a; x9f; x55; x0a; x9f; x56; x0a;
  x9f; x57; x0a; x9f; x58; x0a; x9f; x59;
  x0a; x9f; x5a; x0a; x9f; x5b; x0a; x9f;
  x5c; x0a; x9f; x5d; x0a; x9f; x5e; x0a;
  x9f; x5f; x0a; x9f; x60; x0a; x9f; x61;
  x0a; x9f; x62; x0a; x9f; x63; x0a; x9f;
  x64; x0a; x9f; x65; x0a; x9f; x66; x0a;
  x9f; x67; x0a; x9f; x68; x0a; x9f; x69;
  x0a; x9f; x6a; x0a; x9f; x6b; x0a; x9f;
  x6c; x0a; x9f; x6d; x0a; x9f; x6e; x0a;
  x9f; x6f; x0a; x9f; x70; x0a; x9f; x71;
  x0a; x9f; x72; x0a; x9f; x73; x0a; x9f;
  x74; x0a; x9f; x75; x0a; x9f; x76; x0a;
  x9f; x77; x0a; x9f; x78; x0a; x9f; x79;
  x0a; x9f; x7a; x0a; x9f; x7b; x0a; x9f;
  x7c; x0a; x9f; x7d; x0a; x9f; x7e; x0a;
  x9f; x80; x0a; x9f; x81; x0a; x9f; x82;
  x0a; x9f; x83; x0a; x9f; x84; x0a; x9f;
  x85; x0a; x9f; x86; x0a; x9f; x87; x0a;
  x9f; x88; x0a; x9f; x89; x0a; x9f; x8a;
  x0a; x9f; x8b; x0a; x9f; x8c; x0a; x9f;
  x8d; x0a; x9f; x8e; x0a; x9f; x8f; x0a
].
(* tests/test_data/whatwg/shiftjis_whatwg_test_encode_out.txt, entries 14848..15103 *)
Definition shiftjis_encode_out_58 : list byte := [
  x9f; x90; x0a; x9f; x91; x0a; x9f; x92;
  x0a; x9f; x93; x0a; x9f; x94; x0a; x9f;
  x95; x0a; x9f; x96; x0a; x9f; x97; x0a;
  x9f; x98; x0a; x9f; x99; x0a; x9f; x9a;
  x0a; x9f; x9b; x0a; x9f; x9c; x0a; x9f;
  x9d; x0a; x9f; x9e; x0a; x9f; x9f; x0a;
  x9f; xa0; x0a; x9f; xa1; x0a; x9f; xa2;
  x0a; x9f; xa3; x0a; x9f; xa4; x0a; x9f;
  xa5; x0a; x9f; xa6; x0a; x9f; xa7; x0a;
  x9f; xa8; x0a; x9f; xa9; x0a; x9f; xaa;
  x0a; x9f; xab; x0a; x9f; xac; x0a; x9f;
  xad; x0a; x9f; xae; x0a; x9f; xaf; x0a;
  x9f; xb0; x0a; x9f; xb1; x0a; x9f; xb2;
  x0a; x9f; xb3; x0a; x9f; xb4; x0a; x9f;
  xb5; x0a; x9f; xb6; x0a; x9f; xb7; x0a;
  x9f; xb8; x0a; x9f; xb9; x0a; x9f; xba;
  x0a; x9f; xbb; x0a; x9f; xbc; x0a; x9f;
  xbd; x0a; x9f; xbe; x0a; x9f; xbf; x0a;
  x9f; xc0; x0a; x9f; xc1; x0a; x9f; xc2;
  x0a; x9f; xc3; x0a; x9f; xc4; x0a; x9f;
  xc5; x0a; x9f; xc6; x0a; x9f; xc7; x0a;
  x9f; xc8; x0a; x9f; xc9; x0a; x9f; xca;
  x0a; x9f; xcb; x0a; x9f; xcc; x0a; x9f;
  xcd; x0a; x9f; xce; x0a; x9f; xcf; x0a;
  x9f; xd0; x0a; x9f; xd1; x0a; x9f; xd2;
  x0a; x9f; xd3; x0a; x9f; xd4; x0a; x9f;
  xd5; x0a; x9f; xd6; x0a; x9f; xd7; x0a;
  x9f; xd8; x0a; x9f; xd9; x0a; x9f; xda;
  x0a; x9f; xdb; x0a; x9f; xdc; x0a; x9f;
  xdd; x0a; x9f; xde; x0a; x9f; xdf; x0a;
  x9f; xe0; x0a; x9f; xe1; x0a; x9f; xe2;
  x0a; x9f; xe3; x0a; x9f; xe4; x0a; x9f
].
(* tests/test_data/whatwg/shiftjis_whatwg_test_encode_out.txt, entries 15104..15359 *)
Definition shiftjis_encode_out_59 : list byte := [
  xe5; x0a; x9f; xe6; x0a; x9f; xe7; x0a;
  x9f; xe8; x0a; x9f; xe9; x0a; x9f; xea;
  x0a; x9f; xeb; x0a; x9f; xec; x0a; x9f;
  xed; x0a; x9f; xee; x0a; x9f; xef; x0a;
  x9f; xf0; x0a; x9f; xf1; x0a; x9f; xf2;
  x0a; x9f; xf3; x0a; x9f; xf4; x0a; x9f;
  xf5; x0a; x9f; xf6; x0a; x9f; xf7; x0a;
  x9f; xf8; x0a; x9f; xf9; x0a; x9f; xfa;
  x0a; x9f; xfb; x0a; x9f; xfc; x0a; xe0;
  x40; x0a; xe0; x41; x0a; xe0; x42; x0a;
  xe0; x43; x0a; xe0; x44; x0a; xe0; x45;
  x0a; xe0; x46; x0a; xe0; x47; x0a; xe0;
  x48; x0a; xe0; x49; x0a; xe0; x4a; x0a;
  xe0; x4b; x0a; xe0; x4c; x0a; xe0; x4d;
  x0a; xe0; x4e; x0a; xe0; x4f; x0a; xe0;
  x50; x0a; xe0; x51; x0a; xe0; x52; x0a;
  xe0; x53; x0a; xe0; x54; x0a; xe0; x55;
  x0a; xe0; x56; x0a; xe0; x57; x0a; xe0;
  x58; x0a; xe0; x59; x0a; xe0; x5a; x0a;
  xe0; x5b; x0a; xe0; x5c; x0a; xe0; x5d;
  x0a; xe0; x5e; x0a; xe0; x5f; x0a; xe0;
  x60; x0a; xe0; x61; x0a; xe0; x62; x0a;
  xe0; x63; x0a; xe0; x64; x0a; xe0; x65;
  x0a; xe0; x66; x0a; xe0; x67; x0a; xe0;
  x68; x0a; xe0; x69; x0a; xe0; x6a; x0a;
  xe0; x6b; x0a; xe0; x6c; x0a; xe0; x6d;
  x0a; xe0; x6e; x0a; xe0; x6f; x0a; xe0;
  x70; x0a; xe0; x71; x0a; xe0; x72; x0a;
  xe0; x73; x0a; xe0; x74; x0a; xe0; x75;
  x0a; xe0; x76; x0a; xe0; x77; x0a; xe0;
  x78; x0a; xe0; x79; x0a; xe0; x7a; x0a;
  xe0; x7b; x0a; xe0; x7c; x0a; xe0; x7d
].
(* tests/test_data/whatwg/shiftjis_whatwg_test_encode_out.txt, entries 15360..15615 *)
Definition shiftjis_encode_out_60 : list byte := [
  x0a; xe0; x7e; x0a; xe0; x80; x0a; xe0;
  x81; x0a; xe0; x82; x0a; xe0; x83; x0a;
  xe0; x84; x0a; xe0; x85; x0a; xe0; x86;
  x0a; xe0; x87; x0a; xe0; x88; x0a; xe0;
  x89; x0a; xe0; x8a; x0a; xe0; x8b; x0a;
  xe0; x8c; x0a; xe0; x8d; x0a; xe0; x8e;
  x0a; xe0; x8f; x0a; xe0; x90; x0a; xe0;
  x91; x0a; xe0; x92; x0a; xe0; x93; x0a;
  xe0; x94; x0a; xe0; x95; x0a; xe0; x96;
  x0a; xe0; x97; x0a; xe0; x98; x0a; xe0;
  x99; x0a; xe0; x9a; x0a; xe0; x9b; x0a;
  xe0; x9c; x0a; xe0; x9d; x0a; xe0; x9e;
  x0a; xe0; x9f; x0a; xe0; xa0; x0a; xe0;
  xa1; x0a; xe0; xa2; x0a; xe0; xa3; x0a;
  xe0; xa4; x0a; xe0; xa5; x0a; xe0; xa6;
  x0a; xe0; xa7; x0a; xe0; xa8; x0a; xe0;
  xa9; x0a; xe0; xaa; x0a; xe0; xab; x0a;
  xe0; xac; x0a; xe0; xad; x0a; xe0; xae;
  x0a; xe0; xaf; x0a; xe0; xb0; x0a; xe0;
  xb1; x0a; xe0; xb2; x0a; xe0; xb3; x0a;
  xe0; xb4; x0a; xe0; xb5; x0a; xe0; xb6;
  x0a; xe0; xb7; x0a; xe0; xb8; x0a; xe0;
  xb9; x0a; xe0; xba; x0a; xe0; xbb; x0a;
  xe0; xbc; x0a; xe0; xbd; x0a; xe0; xbe;
  x0a; xe0; xbf; x0a; xe0; xc0; x0a; xe0;
  xc1; x0a; xe0; xc2; x0a; xe0; xc3; x0a;
  xe0; xc4; x0a; xe0; xc5; x0a; xe0; xc6;
  x0a; xe0; xc7; x0a; xe0; xc8; x0a; xe0;
  xc9; x0a; xe0; xca; x0a; xe0; xcb; x0a;
  xe0; xcc; x0a; xe0; xcd; x0a; xe0; xce;
  x0a; xe0; xcf; x0a; xe0; xd0; x0a; xe0;
  xd1; x0a; xe0; xd2; x0a; xe0; xd3; x0a
].
(* tests/test_data/whatwg/shiftjis_whatwg_test_encode_out.txt, entries 15616..15871 *)
Definition shiftjis_encode_out_61 : list byte := [
  xe0; xd4; x0a; xe0; xd5; x0a; xe0; xd6;
  x0a; xe0; xd7; x0a; xe0; xd8; x0a; xe0;
  xd9; x0a; xe0; xda; x0a; xe0; xdb; x0a;
  xe0; xdc; x0a; xe0; xdd; x0a; xe0; xde;
  x0a; xe0; xdf; x0a; xe0; xe0; x0a; xe0;
  xe1; x0a; xe0; xe2; x0a; xe0; xe3; x0a;
  xe0; xe4; x0a; xe0; xe5; x0a; xe0; xe6;
  x0a; xe0; xe7; x0a; xe0; xe8; x0a; xe0;
  xe9; x0a; xe0; xea; x0a; xe0; xeb; x0a;
  xe0; xec; x0a; xe0; xed; x0a; xe0; xee;
  x0a; xe0; xef; x0a; xe0; xf0; x0a; xe0;
  xf1; x0a; xe0; xf2; x0a; xe0; xf3; x0a;
  xe0; xf4; x0a; xe0; xf5; x0a; xe0; xf6;
  x0a; xe0; xf7; x0a; xe0; xf8; x0a; xe0;
  xf9; x0a; xe0; xfa; x0a; xe0; xfb; x0a;
  xe0; xfc; x0a; xe1; x40; x0a; xe1; x41;
  x0a; xe1; x42; x0a; xe1; x43; x0a; xe1;
  x44; x0a; xe1; x45; x0a; xe1; x46; x0a;
  xe1; x47; x0a; xe1; x48; x0a; xe1; x49;
  x0a; xe1; x4a; x0a; xe1; x4b; x0a; xe1;
  x4c; x0a; xe1; x4d; x0a; xe1; x4e; x0a;
  xe1; x4f; x0a; xe1; x50; x0a; xe1; x51;
  x0a; xe1; x52; x0a; xe1; x53; x0a; xe1;
  x54; x0a; xe1; x55; x0a; xe1; x56; x0a;
  xe1; x57; x0a; xe1; x58; x0a; xe1; x59;
  x0a; xe1; x5a; x0a; xe1; x5b; x0a; xe1;
  x5c; x0a; xe1; x5d; x0a; xe1; x5e; x0a;
  xe1; x5f; x0a; xe1; x60; x0a; xe1; x61;
  x0a; xe1; x62; x0a; xe1; x63; x0a; xe1;
  x64; x0a; xe1; x65; x0a; xe1; x66; x0a;
  xe1; x67; x0a; xe1; x68; x0a; xe1; x69;
  x0a; xe1; x6a; x0a; xe1; x6b; x0a; xe1
].
(* tests/test_data/whatwg/shiftjis_whatwg_test_encode_out.txt, entries 15872..16127 *)
Definition shiftjis_encode_out_62 : list byte := [
  x6c; x0a; xe1; x6d; x0a; xe1; x6e; x0a;
  xe1; x6f; x0a; xe1; x70; x0a; xe1; x71;
  x0a; xe1; x72; x0a; xe1; x73; x0a; xe1;
  x74; x0a; xe1; x75; x0a; xe1; x76; x0a;
  xe1; x77; x0a; xe1; x78; x0a; xe1; x79;
  x0a; xe1; x7a; x0a; xe1; x7b; x0a; xe1;
  x7c; x0a; xe1; x7d; x0a; xe1; x7e; x0a;
  xe1; x80; x0a; xe1; x81; x0a; xe1; x82;
  x0a; xe1; x83; x0a; xe1; x84; x0a; xe1;
  x85; x0a; xe1; x86; x0a; xe1; x87; x0a;
  xe1; x88; x0a; xe1; x89; x0a; xe1; x8a;
  x0a; xe1; x8b; x0a; xe1; x8c; x0a; xe1;
  x8d; x0a; xe1; x8e; x0a; xe1; x8f; x0a;
  xe1; x90; x0a; xe1; x91; x0a; xe1; x92;
  x0a; xe1; x93; x0a; xe1; x94; x0a; xe1;
  x95; x0a; xe1; x96; x0a; xe1; x97; x0a;
  xe1; x98; x0a; xe1; x99; x0a; xe1; x9a;
  x0a; xe1; x9b; x0a; xe1; x9c; x0a; xe1;
  x9d; x0a; xe1; x9e; x0a; xe1; x9f; x0a;
  xe1; xa0; x0a; xe1; xa1; x0a; xe1; xa2;
  x0a; xe1; xa3; x0a; xe1; xa4; x0a; xe1;
  xa5; x0a; xe1; xa6; x0a; xe1; xa7; x0a;
  xe1; xa8; x0a; xe1; xa9; x0a; xe1; xaa;
  x0a; xe1; xab; x0a; xe1; xac; x0a; xe1;
  xad; x0a; xe1; xae; x0a; xe1; xaf; x0a;
  xe1; xb0; x0a; xe1; xb1; x0a; xe1; xb2;
  x0a; xe1; xb3; x0a; xe1; xb4; x0a; xe1;
  xb5; x0a; xe1; xb6; x0a; xe1; xb7; x0a;
  xe1; xb8; x0a; xe1; xb9; x0a; xe1; xba;
  x0a; xe1; xbb; x0a; xe1; xbc; x0a; xe1;
  xbd; x0a; xe1; xbe; x0a; xe1; xbf; x0a;
  xe1; xc0; x0a; xe1; xc1; x0a; xe1; xc2
].
(* tests/test_data/whatwg/shiftjis_whatwg_test_encode_out.txt, entries 16128..16383 *)
Definition shiftjis_encode_out_63 : list byte := [
  x0a; xe1; xc3; x0a; xe1; xc4; x0a; xe1;
  xc5; x0a; xe1; xc6; x0a; xe1; xc7; x0a;
  xe1; xc8; x0a; xe1; xc9; x0a; xe1; xca;
  x0a; xe1; xcb; x0a; xe1; xcc; x0a; xe1;
  xcd; x0a; xe1; xce; x0a; xe1; xcf; x0a;
  xe1; xd0; x0a; xe1; xd1; x0a; xe1; xd2;
  x0a; xe1; xd3; x0a; xe1; xd4; x0a; xe1;
  xd5; x0a; xe1; xd6; x0a; xe1; xd7; x0a;
  xe1; xd8; x0a; xe1; xd9; x0a; xe1; xda;
  x0a; xe1; xdb; x0a; xe1; xdc; x0a; xe1;
  xdd; x0a; xe1; xde; x0a; xe1; xdf; x0a;
  xe1; xe0; x0a; xe1; xe1; x0a; xe1; xe2;
  x0a; xe1; xe3; x0a; xe1; xe4; x0a; xe1;
  xe5; x0a; xe1; xe6; x0a; xe1; xe7; x0a;
  xe1; xe8; x0a; xe1; xe9; x0a; xe1; xea;
  x0a; xe1; xeb; x0a; xe1; xec; x0a; xe1;
  xed; x0a; xe1; xee; x0a; xe1; xef; x0a;
  xe1; xf0; x0a; xe1; xf1; x0a; xe1; xf2;
  x0a; xe1; xf3; x0a; xe1; xf4; x0a; xe1;
  xf5; x0a; xe1; xf6; x0a; xe1; xf7; x0a;
  xe1; xf8; x0a; xe1; xf9; x0a; xe1; xfa;
  x0a; xe1; xfb; x0a; xe1; xfc; x0a; xe2;
  x40; x0a; xe2; x41; x0a; xe2; x42; x0a;
  xe2; x43; x0a; xe2; x44; x0a; xe2; x45;
  x0a; xe2; x46; x0a; xe2; x47; x0a; xe2;
  x48; x0a; xe2; x49; x0a; xe2; x4a; x0a;
  xe2; x4b; x0a; xe2; x4c; x0a; xe2; x4d;
  x0a; xe2; x4e; x0a; xe2; x4f; x0a; xe2;
  x50; x0a; xe2; x51; x0a; xe2; x52; x0a;
  xe2; x53; x0a; xe2; x54; x0a; xe2; x55;
  x0a; xe2; x56; x0a; xe2; x57; x0a; xe2;
  x58; x0a; xe2; x59; x0a; xe2; x5a; x0a
].
(* tests/test_data/whatwg/shiftjis_whatwg_test_encode_out.txt, entries 16384..16639 *)
Definition shiftjis_encode_out_64 : list byte := [
  xe2; x5b; x0a; xe2; x5c; x0a; xe2; x5d;
  x0a; xe2; x5e; x0a; xe2; x5f; x0a; xe2;
  x60; x0a; xe2; x61; x0a; xe2; x62; x0a;
  xe2; x63; x0a; xe2; x64; x0a; xe2; x65;
  x0a; xe2; x66; x0a; xe2; x67; x0a; xe2;
  x68; x0a; xe2; x69; x0a; xe2; x6a; x0a;
  xe2; x6b; x0a; xe2; x6c; x0a; xe2; x6d;
  x0a; xe2; x6e; x0a; xe2; x6f; x0a; xe2;
  x70; x0a; xe2; x71; x0a; xe2; x72; x0a;
  xe2; x73; x0a; xe2; x74; x0a; xe2; x75;
  x0a; xe2; x76; x0a; xe2; x77; x0a; xe2;
  x78; x0a; xe2; x79; x0a; xe2; x7a; x0a;
  xe2; x7b; x0a; xe2; x7c; x0a; xe2; x7d;
  x0a; xe2; x7e; x0a; xe2; x80; x0a; xe2;
  x81; x0a; xe2; x82; x0a; xe2; x83; x0a;
  xe2; x84; x0a; xe2; x85; x0a; xe2; x86;
  x0a; xe2; x87; x0a; xe2; x88; x0a; xe2;
  x89; x0a; xe2; x8a; x0a; xe2; x8b; x0a;
  xe2; x8c; x0a; xe2; x8d; x0a; xe2; x8e;
  x0a; xe2; x8f; x0a; xe2; x90; x0a; xe2;
  x91; x0a; xe2; x92; x0a; xe2; x93; x0a;
  xe2; x94; x0a; xe2; x95; x0a; xe2; x96;
  x0a; xe2; x97; x0a; xe2; x98; x0a; xe2;
  x99; x0a; xe2; x9a; x0a; xe2; x9b; x0a;
  xe2; x9c; x0a; xe2; x9d; x0a; xe2; x9e;
  x0a; xe2; x9f; x0a; xe2; xa0; x0a; xe2;
  xa1; x0a; xe2; xa2; x0a; xe2; xa3; x0a;
  xe2; xa4; x0a; xe2; xa5; x0a; xe2; xa6;
  x0a; xe2; xa7; x0a; xe2; xa8; x0a; xe2;
  xa9; x0a; xe2; xaa; x0a; xe2; xab; x0a;
  xe2; xac; x0a; xe2; xad; x0a; xe2; xae;
  x0a; xe2; xaf; x0a; xe2; xb0; x0a; xe2
].
(* tests/test_data/whatwg/shiftjis_whatwg_test_encode_out.txt, entries 16640..16895 *)
Definition shiftjis_encode_out_65 : list byte := [
  xb1; x0a; xe2; xb2; x0a; xe2; xb3; x0a;
  xe2; xb4; x0a; xe2; xb5; x0a; xe2; xb6;
  x0a; xe2; xb7; x0a; xe2; xb8; x0a; xe2;
  xb9; x0a; xe2; xba; x0a; xe2; xbb; x0a;
  xe2; xbc; x0a; xe2; xbd; x0a; xe2; xbe;
  x0a; xe2; xbf; x0a; xe2; xc0; x0a; xe2;
  xc1; x0a; xe2; xc2; x0a; xe2; xc3; x0a;
  xe2; xc4; x0a; xe2; xc5; x0a; xe2; xc6;
  x0a; xe2; xc7; x0a; xe2; xc8; x0a; xe2;
  xc9; x0a; xe2; xca; x0a; xe2; xcb; x0a;
  xe2; xcc; x0a; xe2; xcd; x0a; xe2; xce;
  x0a; xe2; xcf; x0a; xe2; xd0; x0a; xe2;
  xd1; x0a; xe2; xd2; x0a; xe2; xd3; x0a;
  xe2; xd4; x0a; xe2; xd5; x0a; xe2; xd6;
  x0a; xe2; xd7; x0a; xe2; xd8; x0a; xe2;
  xd9; x0a; xe2; xda; x0a; xe2; xdb; x0a;
  xe2; xdc; x0a; xe2; xdd; x0a; xe2; xde;
  x0a; xe2; xdf; x0a; xe2; xe0; x0a; xe2;
  xe1; x0a; xe2; xe2; x0a; xe2; xe3; x0a;
  xe2; xe4; x0a; xe2; xe5; x0a; xe2; xe6;
  x0a; xe2; xe7; x0a; xe2; xe8; x0a; xe2;
  xe9; x0a; xe2; xea; x0a; xe2; xeb; x0a;
  xe2; xec; x0a; xe2; xed; x0a; xe2; xee;
  x0a; xe2; xef; x0a; xe2; xf0; x0a; xe2;
  xf1; x0a; xe2; xf2; x0a; xe2; xf3; x0a;
  xe2; xf4; x0a; xe2; xf5; x0a; xe2; xf6;
  x0a; xe2; xf7; x0a; xe2; xf8; x0a; xe2;
  xf9; x0a; xe2; xfa; x0a; xe2; xfb; x0a;
  xe2; xfc; x0a; xe3; x40; x0a; xe3; x41;
  x0a; xe3; x42; x0a; xe3; x43; x0a; xe3;
  x44; x0a; xe3; x45; x0a; xe3; x46; x0a;
  xe3; x47; x0a; xe3; x48; x0a; xe3; x49
].
(* tests/test_data/whatwg/shiftjis_whatwg_test_encode_out.txt, entries 16896..17151 *)
Definition shiftjis_encode_out_66 : list byte := [
  x0a; xe3; x4a; x0a; xe3; x4b; x0a; xe3;
  x4c; x0a; xe3; x4d; x0a; xe3; x4e; x0a;
  xe3; x4f; x0a; xe3; x50; x0a; xe3; x51;
  x0a; xe3; x52; x0a; xe3; x53; x0a; xe3;
  x54; x0a; xe3; x55; x0a; xe3; x56; x0a;
  xe3; x57; x0a; xe3; x58; x0a; xe3; x59;
  x0a; xe3; x5a; x0a; xe3; x5b; x0a; xe3;
  x5c; x0a; xe3; x5d; x0a; xe3; x5e; x0a;
  xe3; x5f; x0a; xe3; x60; x0a; xe3; x61;
  x0a; xe3; x62; x0a; xe3; x63; x0a; xe3;
  x64; x0a; xe3; x65; x0a; xe3; x66; x0a;
  xe3; x67; x0a; xe3; x68; x0a; xe3; x69;
  x0a; xe3; x6a; x0a; xe3; x6b; x0a; xe3;
  x6c; x0a; xe3; x6d; x0a; xe3; x6e; x0a;
  xe3; x6f; x0a; xe3; x70; x0a; xe3; x71;
  x0a; xe3; x72; x0a; xe3; x73; x0a; xe3;
  x74; x0a; xe3; x75; x0a; xe3; x76; x0a;
  xe3; x77; x0a; xe3; x78; x0a; xe3; x79;
  x0a; xe3; x7a; x0a; xe3; x7b; x0a; xe3;
  x7c; x0a; xe3; x7d; x0a; xe3; x7e; x0a;
  xe3; x80; x0a; xe3; x81; x0a; xe3; x82;
  x0a; xe3; x83; x0a; xe3; x84; x0a; xe3;
  x85; x0a; xe3; x86; x0a; xe3; x87; x0a;
  xe3; x88; x0a; xe3; x89; x0a; xe3; x8a;
  x0a; xe3; x8b; x0a; xe3; x8c; x0a; xe3;
  x8d; x0a; xe3; x8e; x0a; xe3; x8f; x0a;
  xe3; x90; x0a; xe3; x91; x0a; xe3; x92;
  x0a; xe3; x93; x0a; xe3; x94; x0a; xe3;
  x95; x0a; xe3; x96; x0a; xe3; x97; x0a;
  xe3; x98; x0a; xe3; x99; x0a; xe3; x9a;
  x0a; xe3; x9b; x0a; xe3; x9c; x0a; xe3;
  x9d; x0a; xe3; x9e; x0a; xe3; x9f; x0a
].
(* tests/test_data/whatwg/shiftjis_whatwg_test_encode_out.txt, entries 17152..17407 *)
Definition shiftjis_encode_out_67 : list byte := [
  xe3; xa0; x0a; xe3; xa1; x0a; xe3; xa2;
  x0a; xe3; xa3; x0a; xe3; xa4; x0a; xe3;
  xa5; x0a; xe3; xa6; x0a; xe3; xa7; x0a;
  xe3; xa8; x0a; xe3; xa9; x0a; xe3; xaa;
  x0a; xe3; xab; x0a; xe3; xac; x0a; xe3;
  xad; x0a; xe3; xae; x0a; xe3; xaf; x0a;
  xe3; xb0; x0a; xe3; xb1; x0a; xe3; xb2;
  x0a; xe3; xb3; x0a; xe3; xb4; x0a; xe3;
  xb5; x0a; xe3; xb6; x0a; xe3; xb7; x0a;
  xe3; xb8; x0a; xe3; xb9; x0a; xe3; xba;
  x0a; xe3; xbb; x0a; xe3; xbc; x0a; xe3;
  xbd; x0a; xe3; xbe; x0a; xe3; xbf; x0a;
  xe3; xc0; x0a; xe3; xc1; x0a; xe3; xc2;
  x0a; xe3; xc3; x0a; xe3; xc4; x0a; xe3;
  xc5; x0a; xe3; xc6; x0a; xe3; xc7; x0a;
  xe3; xc8; x0a; xe3; xc9; x0a; xe3; xca;
  x0a; xe3; xcb; x0a; xe3; xcc; x0a; xe3;
  xcd; x0a; xe3; xce; x0a; xe3; xcf; x0a;
  xe3; xd0; x0a; xe3; xd1; x0a; xe3; xd2;
  x0a; xe3; xd3; x0a; xe3; xd4; x0a; xe3;
  xd5; x0a; xe3; xd6; x0a; xe3; xd7; x0a;
  xe3; xd8; x0a; xe3; xd9; x0a; xe3; xda;
  x0a; xe3; xdb; x0a; xe3; xdc; x0a; xe3;
  xdd; x0a; xe3; xde; x0a; xe3; xdf; x0a;
  xe3; xe0; x0a; xe3; xe1; x0a; xe3; xe2;
  x0a; xe3; xe3; x0a; xe3; xe4; x0a; xe3;
  xe5; x0a; xe3; xe6; x0a; xe3; xe7; x0a;
  xe3; xe8; x0a; xe3; xe9; x0a; xe3; xea;
  x0a; xe3; xeb; x0a; xe3; xec; x0a; xe3;
  xed; x0a; xe3; xee; x0a; xe3; xef; x0a;
  xe3; xf0; x0a; xe3; xf1; x0a; xe3; xf2;
  x0a; xe3; xf3; x0a; xe3; xf4; x0a; xe3
].
(* tests/test_data/whatwg/shiftjis_whatwg_test_encode_out.txt, entries 17408..17663 *)
Definition shiftjis_encode_out_68 : list byte := [
  xf5; x0a; xe3; xf6; x0a; xe3; xf7; x0a;
  xe3; xf8; x0a; xe3; xf9; x0a; xe3; xfa;
  x0a; xe3; xfb; x0a; xe3; xfc; x0a; xe4;
  x40; x0a; xe4; x41; x0a; xe4; x42; x0a;
  xe4; x43; x0a; xe4; x44; x0a; xe4; x45;
  x0a; xe4; x46; x0a; xe4; x47; x0a; xe4;
  x48; x0a; xe4; x49; x0a; xe4; x4a; x0a;
  xe4; x4b; x0a; xe4; x4c; x0a; xe4; x4d;
  x0a; xe4; x4e; x0a; xe4; x4f; x0a; xe4;
  x50; x0a; xe4; x51; x0a; xe4; x52; x0a;
  xe4; x53; x0a; xe4; x54; x0a; xe4; x55;
  x0a; xe4; x56; x0a; xe4; x57; x0a; xe4;
  x58; x0a; xe4; x59; x0a; xe4; x5a; x0a;
  xe4; x5b; x0a; xe4; x5c; x0a; xe4; x5d;
  x0a; xe4; x5e; x0a; xe4; x5f; x0a; xe4;
  x60; x0a; xe4; x61; x0a; xe4; x62; x0a;
  xe4; x63; x0a; xe4; x64; x0a; xe4; x65;
  x0a; xe4; x66; x0a; xe4; x67; x0a; xe4;
  x68; x0a; xe4; x69; x0a; xe4; x6a; x0a;
  xe4; x6b; x0a; xe4; x6c; x0a; xe4; x6d;
  x0a; xe4; x6e; x0a; xe4; x6f; x0a; xe4;
  x70; x0a; xe4; x71; x0a; xe4; x72; x0a;
  xe4; x73; x0a; xe4; x74; x0a; xe4; x75;
  x0a; xe4; x76; x0a; xe4; x77; x0a; xe4;
  x78; x0a; xe4; x79; x0a; xe4; x7a; x0a;
  xe4; x7b; x0a; xe4; x7c; x0a; xe4; x7d;
  x0a; xe4; x7e; x0a; xe4; x80; x0a; xe4;
  x81; x0a; xe4; x82; x0a; xe4; x83; x0a;
  xe4; x84; x0a; xe4; x85; x0a; xe4; x86;
  x0a; xe4; x87; x0a; xe4; x88; x0a; xe4;
  x89; x0a; xe4; x8a; x0a; xe4; x8b; x0a;
  xe4; x8c; x0a; xe4; x8d; x0a; xe4; x8e
].
(* tests/test_data/whatwg/shiftjis_whatwg_test_encode_out.txt, entries 17664..17919 *)
Definition shiftjis_encode_out_69 : list byte := [
  x0a; xe4; x8f; x0a; xe4; x90; x0a; xe4;
  x91; x0a; xe4; x92; x0a; xe4; x93; x0a;
  xe4; x94; x0a; xe4; x95; x0a; xe4; x96;
  x0a; xe4; x97; x0a; xe4; x98; x0a; xe4;
  x99; x0a; xe4; x9a; x0a; xe4; x9b; x0a;
  xe4; x9c; x0a; xe4; x9d; x0a; xe4; x9e;
  x0a; xe4; x9f; x0a; xe4; xa0; x0a; xe4;
  xa1; x0a; xe4; xa2; x0a; xe4; xa3; x0a;
  xe4; xa4; x0a; xe4; xa5; x0a; xe4; xa6;
  x0a; xe4; xa7; x0a; xe4; xa8; x0a; xe4;
  xa9; x0a; xe4; xaa; x0a; xe4; xab; x0a;
  xe4; xac; x0a; xe4; xad; x0a; xe4; xae;
  x0a; xe4; xaf; x0a; xe4; xb0; x0a; xe4;
  xb1; x0a; xe4; xb2; x0a; xe4; xb3; x0a;
  xe4; xb4; x0a; xe4; xb5; x0a; xe4; xb6;
  x0a; xe4; xb7; x0a; xe4; xb8; x0a; xe4;
  xb9; x0a; xe4; xba; x0a; xe4; xbb; x0a;
  xe4; xbc; x0a; xe4; xbd; x0a; xe4; xbe;
  x0a; xe4; xbf; x0a; xe4; xc0; x0a; xe4;
  xc1; x0a; xe4; xc2; x0a; xe4; xc3; x0a;
  xe4; xc4; x0a; xe4; xc5; x0a; xe4; xc6;
  x0a; xe4; xc7; x0a; xe4; xc8; x0a; xe4;
  xc9; x0a; xe4; xca; x0a; xe4; xcb; x0a;
  xe4; xcc; x0a; xe4; xcd; x0a; xe4; xce;
  x0a; xe4; xcf; x0a; xe4; xd0; x0a; xe4;
  xd1; x0a; xe4; xd2; x0a; xe4; xd3; x0a;
  xe4; xd4; x0a; xe4; xd5; x0a; xe4; xd6;
  x0a; xe4; xd7; x0a; xe4; xd8; x0a; xe4;
  xd9; x0a; xe4; xda; x0a; xe4; xdb; x0a;
  xe4; xdc; x0a; xe4; xdd; x0a; xe4; xde;
  x0a; xe4; xdf; x0a; xe4; xe0; x0a; xe4;
  xe1; x0a; xe4; xe2; x0a; xe4; xe3; x0a
].
(* tests/test_data/whatwg/shiftjis_whatwg_test_encode_out.txt, entries 17920..18175 *)
Definition shiftjis_encode_out_70 : list byte := [
  xe4; xe4; x0a; xe4; xe5; x0a; xe4; xe6;
  x0a; xe4; xe7; x0a; xe4; xe8; x0a; xe4;
  xe9; x0a; xe4; xea; x0a; xe4; xeb; x0a;
  xe4; xec; x0a; xe4; xed; x0a; xe4; xee;
  x0a; xe4; xef; x0a; xe4; xf0; x0a; xe4;
  xf1; x0a; xe4; xf2; x0a; xe4; xf3; x0a;
  xe4; xf4; x0a; xe4; xf5; x0a; xe4; xf6;
  x0a; xe4; xf7; x0a; xe4; xf8; x0a; xe4;
  xf9; x0a; xe4; xfa; x0a; xe4; xfb; x0a;
  xe4; xfc; x0a; xe5; x40; x0a; xe5; x41;
  x0a; xe5; x42; x0a; xe5; x43; x0a; xe5;
  x44; x0a; xe5; x45; x0a; xe5; x46; x0a;
  xe5; x47; x0a; xe5; x48; x0a; xe5; x49;
  x0a; xe5; x4a; x0a; xe5; x4b; x0a; xe5;
  x4c; x0a; xe5; x4d; x0a; xe5; x4e; x0a;
  xe5; x4f; x0a; xe5; x50; x0a; xe5; x51;
  x0a; xe5; x52; x0a; xe5; x53; x0a; xe5;
  x54; x0a; xe5; x55; x0a; xe5; x56; x0a;
  xe5; x57; x0a; xe5; x58; x0a; xe5; x59;
  x0a; xe5; x5a; x0a; xe5; x5b; x0a; xe5;
  x5c; x0a; xe5; x5d; x0a; xe5; x5e; x0a;
  xe5; x5f; x0a; xe5; x60; x0a; xe5; x61;
  x0a; xe5; x62; x0a; xe5; x63; x0a; xe5;
  x64; x0a; xe5; x65; x0a; xe5; x66; x0a;
  xe5; x67; x0a; xe5; x68; x0a; xe5; x69;
  x0a; xe5; x6a; x0a; xe5; x6b; x0a; xe5;
  x6c; x0a; xe5; x6d; x0a; xe5; x6e; x0a;
  xe5; x6f; x0a; xe5; x70; x0a; xe5; x71;
  x0a; xe5; x72; x0a; xe5; x73; x0a; xe5;
  x74; x0a; xe5; x75; x0a; xe5; x76; x0a;
  xe5; x77; x0a; xe5; x78; x0a; xe5; x79;
  x0a; xe5; x7a; x0a; xe5; x7b; x0a; xe5
].
(* tests/test_data/whatwg/shiftjis_whatwg_test_encode_out.txt, entries 18176..18431 *)
Definition shiftjis_encode_out_71 : list byte := [
  x7c; x0a; xe5; x7d; x0a; xe5; x7e; x0a;
  xe5; x80; x0a; xe5; x81; x0a; xe5; x82;
  x0a; xe5; x83; x0a; xe5; x84; x0a; xe5;
  x85; x0a; xe5; x86; x0a; xe5; x87; x0a;
  xe5; x88; x0a; xe5; x89; x0a; xe5; x8a;
  x0a; xe5; x8b; x0a; xe5; x8c; x0a; xe5;
  x8d; x0a; xe5; x8e; x0a; xe5; x8f; x0a;
  xe5; x90; x0a; xe5; x91; x0a; xe5; x92;
  x0a; xe5; x93; x0a; xe5; x94; x0a; xe5;
  x95; x0a; xe5; x96; x0a; xe5; x97; x0a;
  xe5; x98; x0a; xe5; x99; x0a; xe5; x9a;
  x0a; xe5; x9b; x0a; xe5; x9c; x0a; xe5;
  x9d; x0a; xe5; x9e; x0a; xe5; x9f; x0a;
  xe5; xa0; x0a; xe5; xa1; x0a; xe5; xa2;
  x0a; xe5; xa3; x0a; xe5; xa4; x0a; xe5;
  xa5; x0a; xe5; xa6; x0a; xe5; xa7; x0a;
  xe5; xa8; x0a; xe5; xa9; x0a; xe5; xaa;
  x0a; xe5; xab; x0a; xe5; xac; x0a; xe5;
  xad; x0a; xe5; xae; x0a; xe5; xaf; x0a;
  xe5; xb0; x0a; xe5; xb1; x0a; xe5; xb2;
  x0a; xe5; xb3; x0a; xe5; xb4; x0a; xe5;
  xb5; x0a; xe5; xb6; x0a; xe5; xb7; x0a;
  xe5; xb8; x0a; xe5; xb9; x0a; xe5; xba;
  x0a; xe5; xbb; x0a; xe5; xbc; x0a; xe5;
  xbd; x0a; xe5; xbe; x0a; xe5; xbf; x0a;
  xe5; xc0; x0a; xe5; xc1; x0a; xe5; xc2;
  x0a; xe5; xc3; x0a; xe5; xc4; x0a; xe5;
  xc5; x0a; xe5; xc6; x0a; xe5; xc7; x0a;
  xe5; xc8; x0a; xe5; xc9; x0a; xe5; xca;
  x0a; xe5; xcb; x0a; xe5; xcc; x0a; xe5;
  xcd; x0a; xe5; xce; x0a; xe5; xcf; x0a;
  xe5; xd0; x0a; xe5; xd1; x0a; xe5; xd2
].
(* tests/test_data/whatwg/shiftjis_whatwg_test_encode_out.txt, entries 18432..18687 *)
Definition shiftjis_encode_out_72 : list byte := [
  x0a; xe5; xd3; x0a; xe5; xd4; x0a; xe5;
  xd5; x0a; xe5; xd6; x0a; xe5; xd7; x0a;
  xe5; xd8; x0a; xe5; xd9; x0a; xe5; xda;
  x0a; xe5; xdb; x0a; xe5; xdc; x0a; xe5;
  xdd; x0a; xe5; xde; x0a; xe5; xdf; x0a;
  xe5; xe0; x0a; xe5; xe1; x0a; xe5; xe2;
  x0a; xe5; xe3; x0a; xe5; xe4; x0a; xe5;
  xe5; x0a; xe5; xe6; x0a; xe5; xe7; x0a;
  xe5; xe8; x0a; xe5; xe9; x0a; xe5; xea;
  x0a; xe5; xeb; x0a; xe5; xec; x0a; xe5;
  xed; x0a; xe5; xee; x0a; xe5; xef; x0a;
  xe5; xf0; x0a; xe5; xf1; x0a; xe5; xf2;
  x0a; xe5; xf3; x0a; xe5; xf4; x0a; xe5;
  xf5; x0a; xe5; xf6; x0a; xe5; xf7; x0a;
  xe5; xf8; x0a; xe5; xf9; x0a; xe5; xfa;
  x0a; xe5; xfb; x0a; xe5; xfc; x0a; xe6;
  x40; x0a; xe6; x41; x0a; xe6; x42; x0a;
  xe6; x43; x0a; xe6; x44; x0a; xe6; x45;
  x0a; xe6; x46; x0a; xe6; x47; x0a; xe6;
  x48; x0a; xe6; x49; x0a; xe6; x4a; x0a;
  xe6; x4b; x0a; xe6; x4c; x0a; xe6; x4d;
  x0a; xe6; x4e; x0a; xe6; x4f; x0a; xe6;
  x50; x0a; xe6; x51; x0a; xe6; x52; x0a;
  xe6; x53; x0a; xe6; x54; x0a; xe6; x55;
  x0a; xe6; x56; x0a; xe6; x57; x0a; xe6;
  x58; x0a; xe6; x59; x0a; xe6; x5a; x0a;
  xe6; x5b; x0a; xe6; x5c; x0a; xe6; x5d;
  x0a; xe6; x5e; x0a; xe6; x5f; x0a; xe6;
  x60; x0a; xe6; x61; x0a; xe6; x62; x0a;
  xe6; x63; x0a; xe6; x64; x0a; xe6; x65;
  x0a; xe6; x66; x0a; xe6; x67; x0a; xe6;
  x68; x0a; xe6; x69; x0a; xe6; x6a; x0a
].
(* tests/test_data/whatwg/shiftjis_whatwg_test_encode_out.txt, entries 18688..18943 *)
Definition shiftjis_encode_out_73 : list byte := [
  xe6; x6b; x0a; xe6; x6c; x0a; xe6; x6d;
  x0a; xe6; x6e; x0a; xe6; x6f; x0a; xe6;
  x70; x0a; xe6; x71; x0a; xe6; x72; x0a;
  xe6; x73; x0a; xe6; x74; x0a; xe6; x75;
  x0a; xe6; x76; x0a; xe6; x77; x0a; xe6;
  x78; x0a; xe6; x79; x0a; xe6; x7a; x0a;
  xe6; x7b; x0a; xe6; x7c; x0a; xe6; x7d;
  x0a; xe6; x7e; x0a; xe6; x80; x0a; xe6;
  x81; x0a; xe6; x82; x0a; xe6; x83; x0a;
  xe6; x84; x0a; xe6; x85; x0a; xe6; x86;
  x0a; xe6; x87; x0a; xe6; x88; x0a; xe6;
  x89; x0a; xe6; x8a; x0a; xe6; x8b; x0a;
  xe6; x8c; x0a; xe6; x8d; x0a; xe6; x8e;
  x0a; xe6; x8f; x0a; xe6; x90; x0a; xe6;
  x91; x0a; xe6; x92; x0a; xe6; x93; x0a;
  xe6; x94; x0a; xe6; x95; x0a; xe6; x96;
  x0a; xe6; x97; x0a; xe6; x98; x0a; xe6;
  x99; x0a; xe6; x9a; x0a; xe6; x9b; x0a;
  xe6; x9c; x0a; xe6; x9d; x0a; xe6; x9e;
  x0a; xe6; x9f; x0a; xe6; xa0; x0a; xe6;
  xa1; x0a; xe6; xa2; x0a; xe6; xa3; x0a;
  xe6; xa4; x0a; xe6; xa5; x0a; xe6; xa6;
  x0a; xe6; xa7; x0a; xe6; xa8; x0a; xe6;
  xa9; x0a; xe6; xaa; x0a; xe6; xab; x0a;
  xe6; xac; x0a; xe6; xad; x0a; xe6; xae;
  x0a; xe6; xaf; x0a; xe6; xb0; x0a; xe6;
  xb1; x0a; xe6; xb2; x0a; xe6; xb3; x0a;
  xe6; xb4; x0a; xe6; xb5; x0a; xe6; xb6;
  x0a; xe6; xb7; x0a; xe6; xb8; x0a; xe6;
  xb9; x0a; xe6; xba; x0a; xe6; xbb; x0a;
  xe6; xbc; x0a; xe6; xbd; x0a; xe6; xbe;
  x0a; xe6; xbf; x0a; xe6; xc0; x0a; xe6
].
(* tests/test_data/whatwg/shiftjis_whatwg_test_encode_out.txt, entries 18944..19199 *)
Definition shiftjis_encode_out_74 : list byte := [
  xc1; x0a; xe6; xc2; x0a; xe6; xc3; x0a;
  xe6; xc4; x0a; xe6; xc5; x0a; xe6; xc6;
  x0a; xe6; xc7; x0a; xe6; xc8; x0a; xe6;
  xc9; x0a; xe6; xca; x0a; xe6; xcb; x0a;
  xe6; xcc; x0a; xe6; xcd; x0a; xe6; xce;
  x0a; xe6; xcf; x0a; xe6; xd0; x0a; xe6;
  xd1; x0a; xe6; xd2; x0a; xe6; xd3; x0a;
  xe6; xd4; x0a; xe6; xd5; x0a; xe6; xd6;
  x0a; xe6; xd7; x0a; xe6; xd8; x0a; xe6;
  xd9; x0a; xe6; xda; x0a; xe6; xdb; x0a;
  xe6; xdc; x0a; xe6; xdd; x0a; xe6; xde;
  x0a; xe6; xdf; x0a; xe6; xe0; x0a; xe6;
  xe1; x0a; xe6; xe2; x0a; xe6; xe3; x0a;
  xe6; xe4; x0a; xe6; xe5; x0a; xe6; xe6;
  x0a; xe6; xe7; x0a; xe6; xe8; x0a; xe6;
  xe9; x0a; xe6; xea; x0a; xe6; xeb; x0a;
  xe6; xec; x0a; xe6; xed; x0a; xe6; xee;
  x0a; xe6; xef; x0a; xe6; xf0; x0a; xe6;
  xf1; x0a; xe6; xf2; x0a; xe6; xf3; x0a;
  xe6; xf4; x0a; xe6; xf5; x0a; xe6; xf6;
  x0a; xe6; xf7; x0a; xe6; xf8; x0a; xe6;
  xf9; x0a; xe6; xfa; x0a; xe6; xfb; x0a;
  xe6; xfc; x0a; xe7; x40; x0a; xe7; x41;
  x0a; xe7; x42; x0a; xe7; x43; x0a; xe7;
  x44; x0a; xe7; x45; x0a; xe7; x46; x0a;
  xe7; x47; x0a; xe7; x48; x0a; xe7; x49;
  x0a; xe7; x4a; x0a; xe7; x4b; x0a; xe7;
  x4c; x0a; xe7; x4d; x0a; xe7; x4e; x0a;
  xe7; x4f; x0a; xe7; x50; x0a; xe7; x51;
  x0a; xe7; x52; x0a; xe7; x53; x0a; xe7;
  x54; x0a; xe7; x55; x0a; xe7; x56; x0a;
  xe7; x57; x0a; xe7; x58; x0a; xe7; x59
].
(* tests/test_data/whatwg/shiftjis_whatwg_test_encode_out.txt, entries 19200..19455 *)
Definition shiftjis_encode_out_75 : list byte := [
  x0a; xe7; x5a; x0a; xe7; x5b; x0a; xe7;
  x5c; x0a; xe7; x5d; x0a; xe7; x5e; x0a;
  xe7; x5f; x0a; xe7; x60; x0a; xe7; x61;
  x0a; xe7; x62; x0a; xe7; x63; x0a; xe7;
  x64; x0a; xe7; x65; x0a; xe7; x66; x0a;
  xe7; x67; x0a; xe7; x68; x0a; xe7; x69;
  x0a; xe7; x6a; x0a; xe7; x6b; x0a; xe7;
  x6c; x0a; xe7; x6d; x0a; xe7; x6e; x0a;
  xe7; x6f; x0a; xe7; x70; x0a; xe7; x71;
  x0a; xe7; x72; x0a; xe7; x73; x0a; xe7;
  x74; x0a; xe7; x75; x0a; xe7; x76; x0a;
  xe7; x77; x0a; xe7; x78; x0a; xe7; x79;
  x0a; xe7; x7a; x0a; xe7; x7b; x0a; xe7;
  x7c; x0a; xe7; x7d; x0a; xe7; x7e; x0a;
  xe7; x80; x0a; xe7; x81; x0a; xe7; x82;
  x0a; xe7; x83; x0a; xe7; x84; x0a; xe7;
  x85; x0a; xe7; x86; x0a; xe7; x87; x0a;
  xe7; x88; x0a; xe7; x89; x0a; xe7; x8a;
  x0a; xe7; x8b; x0a; xe7; x8c; x0a; xe7;
  x8d; x0a; xe7; x8e; x0a; xe7; x8f; x0a;
  xe7; x90; x0a; xe7; x91; x0a; xe7; x92;
  x0a; xe7; x93; x0a; xe7; x94; x0a; xe7;
  x95; x0a; xe7; x96; x0a; xe7; x97; x0a;
  xe7; x98; x0a; xe7; x99; x0a; xe7; x9a;
  x0a; xe7; x9b; x0a; xe7; x9c; x0a; xe7;
  x9d; x0a; xe7; x9e; x0a; xe7; x9f; x0a;
  xe7; xa0; x0a; xe7; xa1; x0a; xe7; xa2;
  x0a; xe7; xa3; x0a; xe7; xa4; x0a; xe7;
  xa5; x0a; xe7; xa6; x0a; xe7; xa7; x0a;
  xe7; xa8; x0a; xe7; xa9; x0a; xe7; xaa;
  x0a; xe7; xab; x0a; xe7; xac; x0a; xe7;
  xad; x0a; xe7; xae; x0a; xe7; xaf; x0a
].
(* tests/test_data/whatwg/shiftjis_whatwg_test_encode_out.txt, entries 19456..19711 *)
Definition shiftjis_encode_out_76 : list byte := [
  xe7; xb0; x0a; xe7; xb1; x0a; xe7; xb2;
  x0a; xe7; xb3; x0a; xe7; xb4; x0a; xe7;
  xb5; x0a; xe7; xb6; x0a; xe7; xb7; x0a;
  xe7; xb8; x0a; xe7; xb9; x0a; xe7; xba;
  x0a; xe7; xbb; x0a; xe7; xbc; x0a; xe7;
  xbd; x0a; xe7; xbe; x0a; xe7; xbf; x0a;
  xe7; xc0; x0a; xe7; xc1; x0a; xe7; xc2;
  x0a; xe7; xc3; x0a; xe7; xc4; x0a; xe7;
  xc5; x0a; xe7; xc6; x0a; xe7; xc7; x0a;
  xe7; xc8; x0a; xe7; xc9; x0a; xe7; xca;
  x0a; xe7; xcb; x0a; xe7; xcc; x0a; xe7;
  xcd; x0a; xe7; xce; x0a; xe7; xcf; x0a;
  xe7; xd0; x0a; xe7; xd1; x0a; xe7; xd2;
  x0a; xe7; xd3; x0a; xe7; xd4; x0a; xe7;
  xd5; x0a; xe7; xd6; x0a; xe7; xd7; x0a;
  xe7; xd8; x0a; xe7; xd9; x0a; xe7; xda;
  x0a; xe7; xdb; x0a; xe7; xdc; x0a; xe7;
  xdd; x0a; xe7; xde; x0a; xe7; xdf; x0a;
  xe7; xe0; x0a; xe7; xe1; x0a; xe7; xe2;
  x0a; xe7; xe3; x0a; xe7; xe4; x0a; xe7;
  xe5; x0a; xe7; xe6; x0a; xe7; xe7; x0a;
  xe7; xe8; x0a; xe7; xe9; x0a; xe7; xea;
  x0a; xe7; xeb; x0a; xe7; xec; x0a; xe7;
  xed; x0a; xe7; xee; x0a; xe7; xef; x0a;
  xe7; xf0; x0a; xe7; xf1; x0a; xe7; xf2;
  x0a; xe7; xf3; x0a; xe7; xf4; x0a; xe7;
  xf5; x0a; xe7; xf6; x0a; xe7; xf7; x0a;
  xe7; xf8; x0a; xe7; xf9; x0a; xe7; xfa;
  x0a; xe7; xfb; x0a; xe7; xfc; x0a; xe8;
  x40; x0a; xe8; x41; x0a; xe8; x42; x0a;
  xe8; x43; x0a; xe8; x44; x0a; xe8; x45;
  x0a; xe8; x46; x0a; xe8; x47; x0a; xe8
].
(* tests/test_data/whatwg/shiftjis_whatwg_test_encode_out.txt, entries 19712..19967 *)
Definition shiftjis_encode_out_77 : list byte := [
  x48; x0a; xe8; x49; x0a; xe8; x4a; x0a;
  xe8; x4b; x0a; xe8; x4c; x0a; xe8; x4d;
  x0a; xe8; x4e; x0a; xe8; x4f; x0a; xe8;
  x50; x0a; xe8; x51; x0a; xe8; x52; x0a;
  xe8; x53; x0a; xe8; x54; x0a; xe8; x55;
  x0a; xe8; x56; x0a; xe8; x57; x0a; xe8;
  x58; x0a; xe8; x59; x0a; xe8; x5a; x0a;
  xe8; x5b; x0a; xe8; x5c; x0a; xe8; x5d;
  x0a; xe8; x5e; x0a; xe8; x5f; x0a; xe8;
  x60; x0a; xe8; x61; x0a; xe8; x62; x0a;
  xe8; x63; x0a; xe8; x64; x0a; xe8; x65;
  x0a; xe8; x66; x0a; xe8; x67; x0a; xe8;
  x68; x0a; xe8; x69; x0a; xe8; x6a; x0a;
  xe8; x6b; x0a; xe8; x6c; x0a; xe8; x6d;
  x0a; xe8; x6e; x0a; xe8; x6f; x0a; xe8;
  x70; x0a; xe8; x71; x0a; xe8; x72; x0a;
  xe8; x73; x0a; xe8; x74; x0a; xe8; x75;
  x0a; xe8; x76; x0a; xe8; x77; x0a; xe8;
  x78; x0a; xe8; x79; x0a; xe8; x7a; x0a;
  xe8; x7b; x0a; xe8; x7c; x0a; xe8; x7d;
  x0a; xe8; x7e; x0a; xe8; x80; x0a; xe8;
  x81; x0a; xe8; x82; x0a; xe8; x83; x0a;
  xe8; x84; x0a; xe8; x85; x0a; xe8; x86;
  x0a; xe8; x87; x0a; xe8; x88; x0a; xe8;
  x89; x0a; xe8; x8a; x0a; xe8; x8b; x0a;
  xe8; x8c; x0a; xe8; x8d; x0a; xe8; x8e;
  x0a; xe8; x8f; x0a; xe8; x90; x0a; xe8;
  x91; x0a; xe8; x92; x0a; xe8; x93; x0a;
  xe8; x94; x0a; xe8; x95; x0a; xe8; x96;
  x0a; xe8; x97; x0a; xe8; x98; x0a; xe8;
  x99; x0a; xe8; x9a; x0a; xe8; x9b; x0a;
  xe8; x9c; x0a; xe8; x9d; x0a; xe8; x9e
].
(* tests/test_data/whatwg/shiftjis_whatwg_test_encode_out.txt, entries 19968..20223 *)
Definition shiftjis_encode_out_78 : list byte := [
  x0a; xe8; x9f; x0a; xe8; xa0; x0a; xe8;
  xa1; x0a; xe8; xa2; x0a; xe8; xa3; x0a;
  xe8; xa4; x0a; xe8; xa5; x0a; xe8; xa6;
  x0a; xe8; xa7; x0a; xe8; xa8; x0a; xe8;
  xa9; x0a; xe8; xaa; x0a; xe8; xab; x0a;
  xe8; xac; x0a; xe8; xad; x0a; xe8; xae;
  x0a; xe8; xaf; x0a; xe8; xb0; x0a; xe8;
  xb1; x0a; xe8; xb2; x0a; xe8; xb3; x0a;
  xe8; xb4; x0a; xe8; xb5; x0a; xe8; xb6;
  x0a; xe8; xb7; x0a; xe8; xb8; x0a; xe8;
  xb9; x0a; xe8; xba; x0a; xe8; xbb; x0a;
  xe8; xbc; x0a; xe8; xbd; x0a; xe8; xbe;
  x0a; xe8; xbf; x0a; xe8; xc0; x0a; xe8;
  xc1; x0a; xe8; xc2; x0a; xe8; xc3; x0a;
  xe8; xc4; x0a; xe8; xc5; x0a; xe8; xc6;
  x0a; xe8; xc7; x0a; xe8; xc8; x0a; xe8;
  xc9; x0a; xe8; xca; x0a; xe8; xcb; x0a;
  xe8; xcc; x0a; xe8; xcd; x0a; xe8; xce;
  x0a; xe8; xcf; x0a; xe8; xd0; x0a; xe8;
  xd1; x0a; xe8; xd2; x0a; xe8; xd3; x0a;
  xe8; xd4; x0a; xe8; xd5; x0a; xe8; xd6;
  x0a; xe8; xd7; x0a; xe8; xd8; x0a; xe8;
  xd9; x0a; xe8; xda; x0a; xe8; xdb; x0a;
  xe8; xdc; x0a; xe8; xdd; x0a; xe8; xde;
  x0a; xe8; xdf; x0a; xe8; xe0; x0a; xe8;
  xe1; x0a; xe8; xe2; x0a; xe8; xe3; x0a;
  xe8; xe4; x0a; xe8; xe5; x0a; xe8; xe6;
  x0a; xe8; xe7; x0a; xe8; xe8; x0a; xe8;
  xe9; x0a; xe8; xea; x0a; xe8; xeb; x0a;
  xe8; xec; x0a; xe8; xed; x0a; xe8; xee;
  x0a; xe8; xef; x0a; xe8; xf0; x0a; xe8;
  xf1; x0a; xe8; xf2; x0a; xe8; xf3; x0a
].
(* tests/test_data/whatwg/shiftjis_whatwg_test_encode_out.txt, entries 20224..20479 *)
Definition shiftjis_encode_out_79 : list byte := [
  xe8; xf4; x0a; xe8; xf5; x0a; xe8; xf6;
  x0a; xe8; xf7; x0a; xe8; xf8; x0a; xe8;
  xf9; x0a; xe8; xfa; x0a; xe8; xfb; x0a;
  xe8; xfc; x0a; xe9; x40; x0a; xe9; x41;
  x0a; xe9; x42; x0a; xe9; x43; x0a; xe9;
  x44; x0a; xe9; x45; x0a; xe9; x46; x0a;
  xe9; x47; x0a; xe9; x48; x0a; xe9; x49;
  x0a; xe9; x4a; x0a; xe9; x4b; x0a; xe9;
  x4c; x0a; xe9; x4d; x0a; xe9; x4e; x0a;
  xe9; x4f; x0a; xe9; x50; x0a; xe9; x51;
  x0a; xe9; x52; x0a; xe9; x53; x0a; xe9;
  x54; x0a; xe9; x55; x0a; xe9; x56; x0a;
  xe9; x57; x0a; xe9; x58; x0a; xe9; x59;
  x0a; xe9; x5a; x0a; xe9; x5b; x0a; xe9;
  x5c; x0a; xe9; x5d; x0a; xe9; x5e; x0a;
  xe9; x5f; x0a; xe9; x60; x0a; xe9; x61;
  x0a; xe9; x62; x0a; xe9; x63; x0a; xe9;
  x64; x0a; xe9; x65; x0a; xe9; x66; x0a;
  xe9; x67; x0a; xe9; x68; x0a; xe9; x69;
  x0a; xe9; x6a; x0a; xe9; x6b; x0a; xe9;
  x6c; x0a; xe9; x6d; x0a; xe9; x6e; x0a;
  xe9; x6f; x0a; xe9; x70; x0a; xe9; x71;
  x0a; xe9; x72; x0a; xe9; x73; x0a; xe9;
  x74; x0a; xe9; x75; x0a; xe9; x76; x0a;
  xe9; x77; x0a; xe9; x78; x0a; xe9; x79;
  x0a; xe9; x7a; x0a; xe9; x7b; x0a; xe9;
  x7c; x0a; xe9; x7d; x0a; xe9; x7e; x0a;
  xe9; x80; x0a; xe9; x81; x0a; xe9; x82;
  x0a; xe9; x83; x0a; xe9; x84; x0a; xe9;
  x85; x0a; xe9; x86; x0a; xe9; x87; x0a;
  xe9; x88; x0a; xe9; x89; x0a; xe9; x8a;
  x0a; xe9; x8b; x0a; xe9; x8c; x0a; xe9
].
(* tests/test_data/whatwg/shiftjis_whatwg_test_encode_out.txt, entries 20480..20735 *)
Definition shiftjis_encode_out_80 : list byte := [
  x8d; x0a; xe9; x8e; x0a; xe9; x8f; x0a;
  xe9; x90; x0a; xe9; x91; x0a; xe9; x92;
  x0a; xe9; x93; x0a; xe9; x94; x0a; xe9;
  x95; x0a; xe9; x96; x0a; xe9; x97; x0a;
  xe9; x98; x0a; xe9; x99; x0a; xe9; x9a;
  x0a; xe9; x9b; x0a; xe9; x9c; x0a; xe9;
  x9d; x0a; xe9; x9e; x0a; xe9; x9f; x0a;
  xe9; xa0; x0a; xe9; xa1; x0a; xe9; xa2;
  x0a; xe9; xa3; x0a; xe9; xa4; x0a; xe9;
  xa5; x0a; xe9; xa6; x0a; xe9; xa7; x0a;
  xe9; xa8; x0a; xe9; xa9; x0a; xe9; xaa;
  x0a; xe9; xab; x0a; xe9; xac; x0a; xe9;
  xad; x0a; xe9; xae; x0a; xe9; xaf; x0a;
  xe9; xb0; x0a; xe9; xb1; x0a; xe9; xb2;
  x0a; xe9; xb3; x0a; xe9; xb4; x0a; xe9;
  xb5; x0a; xe9; xb6; x0a; xe9; xb7; x0a;
  xe9; xb8; x0a; xe9; xb9; x0a; xe9; xba;
  x0a; xe9; xbb; x0a; xe9; xbc; x0a; xe9;
  xbd; x0a; xe9; xbe; x0a; xe9; xbf; x0a;
  xe9; xc0; x0a; xe9; xc1; x0a; xe9; xc2;
  x0a; xe9; xc3; x0a; xe9; xc4; x0a; xe9;
  xc5; x0a; xe9; xc6; x0a; xe9; xc7; x0a;
  xe9; xc8; x0a; xe9; xc9; x0a; xe9; xca;
  x0a; xe9; xcb; x0a; xe9; xcc; x0a; xe9;
  xcd; x0a; xe9; xce; x0a; xe9; xcf; x0a;
  xe9; xd0; x0a; xe9; xd1; x0a; xe9; xd2;
  x0a; xe9; xd3; x0a; xe9; xd4; x0a; xe9;
  xd5; x0a; xe9; xd6; x0a; xe9; xd7; x0a;
  xe9; xd8; x0a; xe9; xd9; x0a; xe9; xda;
  x0a; xe9; xdb; x0a; xe9; xdc; x0a; xe9;
  xdd; x0a; xe9; xde; x0a; xe9; xdf; x0a;
  xe9; xe0; x0a; xe9; xe1; x0a; xe9; xe2
].
(* tests/test_data/whatwg/shiftjis_whatwg_test_encode_out.txt, entries 20736..20991 *)
Definition shiftjis_encode_out_81 : list byte := [
  x0a; xe9; xe3; x0a; xe9; xe4; x0a; xe9;
  xe5; x0a; xe9; xe6; x0a; xe9; xe7; x0a;
  xe9; xe8; x0a; xe9; xe9; x0a; xe9; xea;
  x0a; xe9; xeb; x0a; xe9; xec; x0a; xe9;
  xed; x0a; xe9; xee; x0a; xe9; xef; x0a;
  xe9; xf0; x0a; xe9; xf1; x0a; xe9; xf2;
  x0a; xe9; xf3; x0a; xe9; xf4; x0a; xe9;
  xf5; x0a; xe9; xf6; x0a; xe9; xf7; x0a;
  xe9; xf8; x0a; xe9; xf9; x0a; xe9; xfa;
  x0a; xe9; xfb; x0a; xe9; xfc; x0a; xea;
  x40; x0a; xea; x41; x0a; xea; x42; x0a;
  xea; x43; x0a; xea; x44; x0a; xea; x45;
  x0a; xea; x46; x0a; xea; x47; x0a; xea;
  x48; x0a; xea; x49; x0a; xea; x4a; x0a;
  xea; x4b; x0a; xea; x4c; x0a; xea; x4d;
  x0a; xea; x4e; x0a; xea; x4f; x0a; xea;
  x50; x0a; xea; x51; x0a; xea; x52; x0a;
  xea; x53; x0a; xea; x54; x0a; xea; x55;
  x0a; xea; x56; x0a; xea; x57; x0a; xea;
  x58; x0a; xea; x59; x0a; xea; x5a; x0a;
  xea; x5b; x0a; xea; x5c; x0a; xea; x5d;
  x0a; xea; x5e; x0a; xea; x5f; x0a; xea;
  x60; x0a; xea; x61; x0a; xea; x62; x0a;
  xea; x63; x0a; xea; x64; x0a; xea; x65;
  x0a; xea; x66; x0a; xea; x67; x0a; xea;
  x68; x0a; xea; x69; x0a; xea; x6a; x0a;
  xea; x6b; x0a; xea; x6c; x0a; xea; x6d;
  x0a; xea; x6e; x0a; xea; x6f; x0a; xea;
  x70; x0a; xea; x71; x0a; xea; x72; x0a;
  xea; x73; x0a; xea; x74; x0a; xea; x75;
  x0a; xea; x76; x0a; xea; x77; x0a; xea;
  x78; x0a; xea; x79; x0a; xea; x7a; x0a
].
(* tests/test_data/whatwg/shiftjis_whatwg_test_encode_out.txt, entries 20992..21247 *)
Definition shiftjis_encode_out_82 : list byte := [
  xea; x7b; x0a; xea; x7c; x0a; xea; x7d;
  x0a; xea; x7e; x0a; xea; x80; x0a; xea;
  x81; x0a; xea; x82; x0a; xea; x83; x0a;
  xea; x84; x0a; xea; x85; x0a; xea; x86;
  x0a; xea; x87; x0a; xea; x88; x0a; xea;
  x89; x0a; xea; x8a; x0a; xea; x8b; x0a;
  xea; x8c; x0a; xea; x8d; x0a; xea; x8e;
  x0a; xea; x8f; x0a; xea; x90; x0a; xea;
  x91; x0a; xea; x92; x0a; xea; x93; x0a;
  xea; x94; x0a; xea; x95; x0a; xea; x96;
  x0a; xea; x97; x0a; xea; x98; x0a; xea;
  x99; x0a; xea; x9a; x0a; xea; x9b; x0a;
  xea; x9c; x0a; xea; x9d; x0a; xea; x9e;
  x0a; xea; x9f; x0a; xea; xa0; x0a; xea;
  xa1; x0a; xea; xa2; x0a; xea; xa3; x0a;
  xea; xa4; x0a; xfa; x40; x0a; xfa; x41;
  x0a; xfa; x42; x0a; xfa; x43; x0a; xfa;
  x44; x0a; xfa; x45; x0a; xfa; x46; x0a;
  xfa; x47; x0a; xfa; x48; x0a; xfa; x49;
  x0a; xfa; x55; x0a; xfa; x56; x0a; xfa;
  x57; x0a; xfa; x5c; x0a; xfa; x5d; x0a;
  xfa; x5e; x0a; xfa; x5f; x0a; xfa; x60;
  x0a; xfa; x61; x0a; xfa; x62; x0a; xfa;
  x63; x0a; xfa; x64; x0a; xfa; x65; x0a;
  xfa; x66; x0a; xfa; x67; x0a; xfa; x68;
  x0a; xfa; x69; x0a; xfa; x6a; x0a; xfa;
  x6b; x0a; xfa; x6c; x0a; xfa; x6d; x0a;
  xfa; x6e; x0a; xfa; x6f; x0a; xfa; x70;
  x0a; xfa; x71; x0a; xfa; x72; x0a; xfa;
  x73; x0a; xfa; x74; x0a; xfa; x75; x0a;
  xfa; x76; x0a; xfa; x77; x0a; xfa; x78;
  x0a; xfa; x79; x0a; xfa; x7a; x0a; xfa
].
(* tests/test_data/whatwg/shiftjis_whatwg_test_encode_out.txt, entries 21248..21503 *)
Definition shiftjis_encode_out_83 : list byte := [
  x7b; x0a; xfa; x7c; x0a; xfa; x7d; x0a;
  xfa; x7e; x0a; xfa; x80; x0a; xfa; x81;
  x0a; xfa; x82; x0a; xfa; x83; x0a; xfa;
  x84; x0a; xfa; x85; x0a; xfa; x86; x0a;
  xfa; x87; x0a; xfa; x88; x0a; xfa; x89;
  x0a; xfa; x8a; x0a; xfa; x8b; x0a; xfa;
  x8c; x0a; xfa; x8d; x0a; xfa; x8e; x0a;
  xfa; x8f; x0a; xfa; x90; x0a; xfa; x91;
  x0a; xfa; x92; x0a; xfa; x93; x0a; xfa;
  x94; x0a; xfa; x95; x0a; xfa; x96; x0a;
  xfa; x97; x0a; xfa; x98; x0a; xfa; x99;
  x0a; xfa; x9a; x0a; xfa; x9b; x0a; xfa;
  x9c; x0a; xfa; x9d; x0a; xfa; x9e; x0a;
  xfa; x9f; x0a; xfa; xa0; x0a; xfa; xa1;
  x0a; xfa; xa2; x0a; xfa; xa3; x0a; xfa;
  xa4; x0a; xfa; xa5; x0a; xfa; xa6; x0a;
  xfa; xa7; x0a; xfa; xa8; x0a; xfa; xa9;
  x0a; xfa; xaa; x0a; xfa; xab; x0a; xfa;
  xac; x0a; xfa; xad; x0a; xfa; xae; x0a;
  xfa; xaf; x0a; xfa; xb0; x0a; xfa; xb1;
  x0a; xfa; xb2; x0a; xfa; xb3; x0a; xfa;
  xb4; x0a; xfa; xb5; x0a; xfa; xb6; x0a;
  xfa; xb7; x0a; xfa; xb8; x0a; xfa; xb9;
  x0a; xfa; xba; x0a; xfa; xbb; x0a; xfa;
  xbc; x0a; xfa; xbd; x0a; xfa; xbe; x0a;
  xfa; xbf; x0a; xfa; xc0; x0a; xfa; xc1;
  x0a; xfa; xc2; x0a; xfa; xc3; x0a; xfa;
  xc4; x0a; xfa; xc5; x0a; xfa; xc6; x0a;
  xfa; xc7; x0a; xfa; xc8; x0a; xfa; xc9;
  x0a; xfa; xca; x0a; xfa; xcb; x0a; xfa;
  xcc; x0a; xfa; xcd; x0a; xfa; xce; x0a;
  xfa; xcf; x0a; xfa; xd0; x0a; xfa; xd1
].
(* tests/test_data/whatwg/shiftjis_whatwg_test_encode_out.txt, entries 21504..21759 *)
Definition shiftjis_encode_out_84 : list byte := [
  x0a; xfa; xd2; x0a; xfa; xd3; x0a; xfa;
  xd4; x0a; xfa; xd5; x0a; xfa; xd6; x0a;
  xfa; xd7; x0a; xfa; xd8; x0a; xfa; xd9;
  x0a; xfa; xda; x0a; xfa; xdb; x0a; xfa;
  xdc; x0a; xfa; xdd; x0a; xfa; xde; x0a;
  xfa; xdf; x0a; xfa; xe0; x0a; xfa; xe1;
  x0a; xfa; xe2; x0a; xfa; xe3; x0a; xfa;
  xe4; x0a; xfa; xe5; x0a; xfa; xe6; x0a;
  xfa; xe7; x0a; xfa; xe8; x0a; xfa; xe9;
  x0a; xfa; xea; x0a; xfa; xeb; x0a; xfa;
  xec; x0a; xfa; xed; x0a; xfa; xee; x0a;
  xfa; xef; x0a; xfa; xf0; x0a; xfa; xf1;
  x0a; xfa; xf2; x0a; xfa; xf3; x0a; xfa;
  xf4; x0a; xfa; xf5; x0a; xfa; xf6; x0a;
  xfa; xf7; x0a; xfa; xf8; x0a; xfa; xf9;
  x0a; xfa; xfa; x0a; xfa; xfb; x0a; xfa;
  xfc; x0a; xfb; x40; x0a; xfb; x41; x0a;
  xfb; x42; x0a; xfb; x43; x0a; xfb; x44;
  x0a; xfb; x45; x0a; xfb; x46; x0a; xfb;
  x47; x0a; xfb; x48; x0a; xfb; x49; x0a;
  xfb; x4a; x0a; xfb; x4b; x0a; xfb; x4c;
  x0a; xfb; x4d; x0a; xfb; x4e; x0a; xfb;
  x4f; x0a; xfb; x50; x0a; xfb; x51; x0a;
  xfb; x52; x0a; xfb; x53; x0a; xfb; x54;
  x0a; xfb; x55; x0a; xfb; x56; x0a; xfb;
  x57; x0a; xfb; x58; x0a; xfb; x59; x0a;
  xfb; x5a; x0a; xfb; x5b; x0a; xfb; x5c;
  x0a; xfb; x5d; x0a; xfb; x5e; x0a; xfb;
  x5f; x0a; xfb; x60; x0a; xfb; x61; x0a;
  xfb; x62; x0a; xfb; x63; x0a; xfb; x64;
  x0a; xfb; x65; x0a; xfb; x66; x0a; xfb;
  x67; x0a; xfb; x68; x0a; xfb; x69; x0a
].
(* tests/test_data/whatwg/shiftjis_whatwg_test_encode_out.txt, entries 21760..22015 *)
Definition shiftjis_encode_out_85 : list byte := [
  xfb; x6a; x0a; xfb; x6b; x0a; xfb; x6c;
  x0a; xfb; x6d; x0a; xfb; x6e; x0a; xfb;
  x6f; x0a; xfb; x70; x0a; xfb; x71; x0a;
  xfb; x72; x0a; xfb; x73; x0a; xfb; x74;
  x0a; xfb; x75; x0a; xfb; x76; x0a; xfb;
  x77; x0a; xfb; x78; x0a; xfb; x79; x0a;
  xfb; x7a; x0a; xfb; x7b; x0a; xfb; x7c;
  x0a; xfb; x7d; x0a; xfb; x7e; x0a; xfb;
  x80; x0a; xfb; x81; x0a; xfb; x82; x0a;
  xfb; x83; x0a; xfb; x84; x0a; xfb; x85;
  x0a; xfb; x86; x0a; xfb; x87; x0a; xfb;
  x88; x0a; xfb; x89; x0a; xfb; x8a; x0a;
  xfb; x8b; x0a; xfb; x8c; x0a; xfb; x8d;
  x0a; xfb; x8e; x0a; xfb; x8f; x0a; xfb;
  x90; x0a; xfb; x91; x0a; xfb; x92; x0a;
  xfb; x93; x0a; xfb; x94; x0a; xfb; x95;
  x0a; xfb; x96; x0a; xfb; x97; x0a; xfb;
  x98; x0a; xfb; x99; x0a; xfb; x9a; x0a;
  xfb; x9b; x0a; xfb; x9c; x0a; xfb; x9d;
  x0a; xfb; x9e; x0a; xfb; x9f; x0a; xfb;
  xa0; x0a; xfb; xa1; x0a; xfb; xa2; x0a;
  xfb; xa3; x0a; xfb; xa4; x0a; xfb; xa5;
  x0a; xfb; xa6; x0a; xfb; xa7; x0a; xfb;
  xa8; x0a; xfb; xa9; x0a; xfb; xaa; x0a;
  xfb; xab; x0a; xfb; xac; x0a; xfb; xad;
  x0a; xfb; xae; x0a; xfb; xaf; x0a; xfb;
  xb0; x0a; xfb; xb1; x0a; xfb; xb2; x0a;
  xfb; xb3; x0a; xfb; xb4; x0a; xfb; xb5;
  x0a; xfb; xb6; x0a; xfb; xb7; x0a; xfb;
  xb8; x0a; xfb; xb9; x0a; xfb; xba; x0a;
  xfb; xbb; x0a; xfb; xbc; x0a; xfb; xbd;
  x0a; xfb; xbe; x0a; xfb; xbf; x0a; xfb
].
(* tests/test_data/whatwg/shiftjis_whatwg_test_encode_out.txt, entries 22016..22233 *)
Definition shiftjis_encode_out_86 : list byte := [
  xc0; x0a; xfb; xc1; x0a; xfb; xc2; x0a;
  xfb; xc3; x0a; xfb; xc4; x0a; xfb; xc5;
  x0a; xfb; xc6; x0a; xfb; xc7; x0a; xfb;
  xc8; x0a; xfb; xc9; x0a; xfb; xca; x0a;
  xfb; xcb; x0a; xfb; xcc; x0a; xfb; xcd;
  x0a; xfb; xce; x0a; xfb; xcf; x0a; xfb;
  xd0; x0a; xfb; xd1; x0a; xfb; xd2; x0a;
  xfb; xd3; x0a; xfb; xd4; x0a; xfb; xd5;
  x0a; xfb; xd6; x0a; xfb; xd7; x0a; xfb;
  xd8; x0a; xfb; xd9; x0a; xfb; xda; x0a;
  xfb; xdb; x0a; xfb; xdc; x0a; xfb; xdd;
  x0a; xfb; xde; x0a; xfb; xdf; x0a; xfb;
  xe0; x0a; xfb; xe1; x0a; xfb; xe2; x0a;
  xfb; xe3; x0a; xfb; xe4; x0a; xfb; xe5;
  x0a; xfb; xe6; x0a; xfb; xe7; x0a; xfb;
  xe8; x0a; xfb; xe9; x0a; xfb; xea; x0a;
  xfb; xeb; x0a; xfb; xec; x0a; xfb; xed;
  x0a; xfb; xee; x0a; xfb; xef; x0a; xfb;
  xf0; x0a; xfb; xf1; x0a; xfb; xf2; x0a;
  xfb; xf3; x0a; xfb; xf4; x0a; xfb; xf5;
  x0a; xfb; xf6; x0a; xfb; xf7; x0a; xfb;
  xf8; x0a; xfb; xf9; x0a; xfb; xfa; x0a;
  xfb; xfb; x0a; xfb; xfc; x0a; xfc; x40;
  x0a; xfc; x41; x0a; xfc; x42; x0a; xfc;
  x43; x0a; xfc; x44; x0a; xfc; x45; x0a;
  xfc; x46; x0a; xfc; x47; x0a; xfc; x48;
  x0a; xfc; x49; x0a; xfc; x4a; x0a; xfc;
  x4b; x0a
].
(* tests/test_data/whatwg/shiftjis_whatwg_test_encode_out.txt: the whole table *)
Definition shiftjis_encode_out : list byte :=
  shiftjis_encode_out_0 ++
  shiftjis_encode_out_1 ++
  shiftjis_encode_out_2 ++
  shiftjis_encode_out_3 ++
  shiftjis_encode_out_4 ++
  shiftjis_encode_out_5 ++
  shiftjis_encode_out_6 ++
  shiftjis_encode_out_7 ++
  shiftjis_encode_out_8 ++
  shiftjis_encode_out_9 ++
  shiftjis_encode_out_10 ++
  shiftjis_encode_out_11 ++
  shiftjis_encode_out_12 ++
  shiftjis_encode_out_13 ++
  shiftjis_encode_out_14 ++
  shiftjis_encode_out_15 ++
  shiftjis_encode_out_16 ++
  shiftjis_encode_out_17 ++
  shiftjis_encode_out_18 ++
  shiftjis_encode_out_19 ++
  shiftjis_encode_out_20 ++
  shiftjis_encode_out_21 ++
  shiftjis_encode_out_22 ++
  shiftjis_encode_out_23 ++
  shiftjis_encode_out_24 ++
  shiftjis_encode_out_25 ++
  shiftjis_encode_out_26 ++
  shiftjis_encode_out_27 ++
  shiftjis_encode_out_28 ++
  shiftjis_encode_out_29 ++
  shiftjis_encode_out_30 ++
  shiftjis_encode_out_31 ++
  shiftjis_encode_out_32 ++
  shiftjis_encode_out_33 ++
  shiftjis_encode_out_34 ++
  shiftjis_encode_out_35 ++
  shiftjis_encode_out_36 ++
  shiftjis_encode_out_37 ++
  shiftjis_encode_out_38 ++
  shiftjis_encode_out_39 ++
  shiftjis_encode_out_40 ++
  shiftjis_encode_out_41 ++
  shiftjis_encode_out_42 ++
  shiftjis_encode_out_43 ++
  shiftjis_encode_out_44 ++
  shiftjis_encode_out_45 ++
  shiftjis_encode_out_46 ++
  shiftjis_encode_out_47 ++
  shiftjis_encode_out_48 ++
  shiftjis_encode_out_49 ++
  shiftjis_encode_out_50 ++
  shiftjis_encode_out_51 ++
  shiftjis_encode_out_52 ++
  shiftjis_encode_out_53 ++
  shiftjis_encode_out_54 ++
  shiftjis_encode_out_55 ++
  shiftjis_encode_out_56 ++
  shiftjis_encode_out_57 ++
  shiftjis_encode_out_58 ++
  shiftjis_encode_out_59 ++
  shiftjis_encode_out_60 ++
  shiftjis_encode_out_61 ++
  shiftjis_encode_out_62 ++
  shiftjis_encode_out_63 ++
  shiftjis_encode_out_64 ++
  shiftjis_encode_out_65 ++
  shiftjis_encode_out_66 ++
  shiftjis_encode_out_67 ++
  shiftjis_encode_out_68 ++
  shiftjis_encode_out_69 ++
  shiftjis_encode_out_70 ++
  shiftjis_encode_out_71 ++
  shiftjis_encode_out_72 ++
  shiftjis_encode_out_73 ++
  shiftjis_encode_out_74 ++
  shiftjis_encode_out_75 ++
  shiftjis_encode_out_76 ++
  shiftjis_encode_out_77 ++
  shiftjis_encode_out_78 ++
  shiftjis_encode_out_79 ++
  shiftjis_encode_out_80 ++
  shiftjis_encode_out_81 ++
  shiftjis_encode_out_82 ++
  shiftjis_encode_out_83 ++
  shiftjis_encode_out_84 ++
  shiftjis_encode_out_85 ++
  shiftjis_encode_out_86.

