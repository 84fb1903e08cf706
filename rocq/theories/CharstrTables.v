(** Generated by tools/gen_charstr.py from src/charstr.c. *)
From Verif Require Import Base.

(** src/charstr.c:10-81 case_table[].lower, as unsigned char *)
Definition case_table_lower : list Z :=
  [0x00; 0x01; 0x02; 0x03; 0x04; 0x05; 0x06; 0x07; 0x08; 0x09; 0x0a; 0x0b; 0x0c; 0x0d; 0x0e; 0x0f;
   0x10; 0x11; 0x12; 0x13; 0x14; 0x15; 0x16; 0x17; 0x18; 0x19; 0x1a; 0x1b; 0x1c; 0x1d; 0x1e; 0x1f;
   0x20; 0x21; 0x22; 0x23; 0x24; 0x25; 0x26; 0x27; 0x28; 0x29; 0x2a; 0x2b; 0x2c; 0x2d; 0x2e; 0x2f;
   0x30; 0x31; 0x32; 0x33; 0x34; 0x35; 0x36; 0x37; 0x38; 0x39; 0x3a; 0x3b; 0x3c; 0x3d; 0x3e; 0x3f;
   0x40; 0x61; 0x62; 0x63; 0x64; 0x65; 0x66; 0x67; 0x68; 0x69; 0x6a; 0x6b; 0x6c; 0x6d; 0x6e; 0x6f;
   0x70; 0x71; 0x72; 0x73; 0x74; 0x75; 0x76; 0x77; 0x78; 0x79; 0x7a; 0x5b; 0x5c; 0x5d; 0x5e; 0x5f;
   0x60; 0x61; 0x62; 0x63; 0x64; 0x65; 0x66; 0x67; 0x68; 0x69; 0x6a; 0x6b; 0x6c; 0x6d; 0x6e; 0x6f;
   0x70; 0x71; 0x72; 0x73; 0x74; 0x75; 0x76; 0x77; 0x78; 0x79; 0x7a; 0x7b; 0x7c; 0x7d; 0x7e; 0x7f;
   0x80; 0x81; 0x82; 0x83; 0x84; 0x85; 0x86; 0x87; 0x88; 0x89; 0x8a; 0x8b; 0x8c; 0x8d; 0x8e; 0x8f;
   0x90; 0x91; 0x92; 0x93; 0x94; 0x95; 0x96; 0x97; 0x98; 0x99; 0x9a; 0x9b; 0x9c; 0x9d; 0x9e; 0x9f;
   0xa0; 0xa1; 0xa2; 0xa3; 0xa4; 0xa5; 0xa6; 0xa7; 0xa8; 0xa9; 0xaa; 0xab; 0xac; 0xad; 0xae; 0xaf;
   0xb0; 0xb1; 0xb2; 0xb3; 0xb4; 0xb5; 0xb6; 0xb7; 0xb8; 0xb9; 0xba; 0xbb; 0xbc; 0xbd; 0xbe; 0xbf;
   0xc0; 0xc1; 0xc2; 0xc3; 0xc4; 0xc5; 0xc6; 0xc7; 0xc8; 0xc9; 0xca; 0xcb; 0xcc; 0xcd; 0xce; 0xcf;
   0xd0; 0xd1; 0xd2; 0xd3; 0xd4; 0xd5; 0xd6; 0xd7; 0xd8; 0xd9; 0xda; 0xdb; 0xdc; 0xdd; 0xde; 0xdf;
   0xe0; 0xe1; 0xe2; 0xe3; 0xe4; 0xe5; 0xe6; 0xe7; 0xe8; 0xe9; 0xea; 0xeb; 0xec; 0xed; 0xee; 0xef;
   0xf0; 0xf1; 0xf2; 0xf3; 0xf4; 0xf5; 0xf6; 0xf7; 0xf8; 0xf9; 0xfa; 0xfb; 0xfc; 0xfd; 0xfe; 0xff].

(** src/charstr.c:10-81 case_table[].upper, as unsigned char *)
Definition case_table_upper : list Z :=
  [0x00; 0x01; 0x02; 0x03; 0x04; 0x05; 0x06; 0x07; 0x08; 0x09; 0x0a; 0x0b; 0x0c; 0x0d; 0x0e; 0x0f;
   0x10; 0x11; 0x12; 0x13; 0x14; 0x15; 0x16; 0x17; 0x18; 0x19; 0x1a; 0x1b; 0x1c; 0x1d; 0x1e; 0x1f;
   0x20; 0x21; 0x22; 0x23; 0x24; 0x25; 0x26; 0x27; 0x28; 0x29; 0x2a; 0x2b; 0x2c; 0x2d; 0x2e; 0x2f;
   0x30; 0x31; 0x32; 0x33; 0x34; 0x35; 0x36; 0x37; 0x38; 0x39; 0x3a; 0x3b; 0x3c; 0x3d; 0x3e; 0x3f;
   0x40; 0x41; 0x42; 0x43; 0x44; 0x45; 0x46; 0x47; 0x48; 0x49; 0x4a; 0x4b; 0x4c; 0x4d; 0x4e; 0x4f;
   0x50; 0x51; 0x52; 0x53; 0x54; 0x55; 0x56; 0x57; 0x58; 0x59; 0x5a; 0x5b; 0x5c; 0x5d; 0x5e; 0x5f;
   0x60; 0x41; 0x42; 0x43; 0x44; 0x45; 0x46; 0x47; 0x48; 0x49; 0x4a; 0x4b; 0x4c; 0x4d; 0x4e; 0x4f;
   0x50; 0x51; 0x52; 0x53; 0x54; 0x55; 0x56; 0x57; 0x58; 0x59; 0x5a; 0x7b; 0x7c; 0x7d; 0x7e; 0x7f;
   0x80; 0x81; 0x82; 0x83; 0x84; 0x85; 0x86; 0x87; 0x88; 0x89; 0x8a; 0x8b; 0x8c; 0x8d; 0x8e; 0x8f;
   0x90; 0x91; 0x92; 0x93; 0x94; 0x95; 0x96; 0x97; 0x98; 0x99; 0x9a; 0x9b; 0x9c; 0x9d; 0x9e; 0x9f;
   0xa0; 0xa1; 0xa2; 0xa3; 0xa4; 0xa5; 0xa6; 0xa7; 0xa8; 0xa9; 0xaa; 0xab; 0xac; 0xad; 0xae; 0xaf;
   0xb0; 0xb1; 0xb2; 0xb3; 0xb4; 0xb5; 0xb6; 0xb7; 0xb8; 0xb9; 0xba; 0xbb; 0xbc; 0xbd; 0xbe; 0xbf;
   0xc0; 0xc1; 0xc2; 0xc3; 0xc4; 0xc5; 0xc6; 0xc7; 0xc8; 0xc9; 0xca; 0xcb; 0xcc; 0xcd; 0xce; 0xcf;
   0xd0; 0xd1; 0xd2; 0xd3; 0xd4; 0xd5; 0xd6; 0xd7; 0xd8; 0xd9; 0xda; 0xdb; 0xdc; 0xdd; 0xde; 0xdf;
   0xe0; 0xe1; 0xe2; 0xe3; 0xe4; 0xe5; 0xe6; 0xe7; 0xe8; 0xe9; 0xea; 0xeb; 0xec; 0xed; 0xee; 0xef;
   0xf0; 0xf1; 0xf2; 0xf3; 0xf4; 0xf5; 0xf6; 0xf7; 0xf8; 0xf9; 0xfa; 0xfb; 0xfc; 0xfd; 0xfe; 0xff].

(** include/charstr.h:34 *)
Definition CHARSTR_CONTROL : Z := 0x0001.
(** include/charstr.h:35 *)
Definition CHARSTR_DIGIT : Z := 0x0002.
(** include/charstr.h:36 *)
Definition CHARSTR_LOWER : Z := 0x0004.
(** include/charstr.h:37 *)
Definition CHARSTR_UPPER : Z := 0x0008.
(** include/charstr.h:38 *)
Definition CHARSTR_HT : Z := 0x0010.
(** include/charstr.h:39 *)
Definition CHARSTR_LF : Z := 0x0020.
(** include/charstr.h:40 *)
Definition CHARSTR_FF : Z := 0x0040.
(** include/charstr.h:41 *)
Definition CHARSTR_CR : Z := 0x0080.
(** include/charstr.h:42 *)
Definition CHARSTR_SPACE : Z := 0x0100.
(** include/charstr.h:43 *)
Definition CHARSTR_OCTAL : Z := 0x0200.
(** include/charstr.h:44 *)
Definition CHARSTR_HEX : Z := 0x0400.
(** include/charstr.h:45 *)
Definition CHARSTR_UNDER : Z := 0x0800.
(** include/charstr.h:46 *)
Definition CHARSTR_PRINT : Z := 0x1000.

(** src/charstr.c:113-242 char_class; C zero-fills the last 128 entries. *)
Definition char_class : list Z :=
  [CHARSTR_CONTROL;
   CHARSTR_CONTROL;
   CHARSTR_CONTROL;
   CHARSTR_CONTROL;
   CHARSTR_CONTROL;
   CHARSTR_CONTROL;
   CHARSTR_CONTROL;
   CHARSTR_CONTROL;
   Z.lor CHARSTR_CONTROL CHARSTR_LF;
   Z.lor CHARSTR_CONTROL CHARSTR_HT;
   Z.lor CHARSTR_CONTROL CHARSTR_FF;
   Z.lor CHARSTR_CONTROL CHARSTR_CR;
   CHARSTR_CONTROL;
   CHARSTR_CONTROL;
   CHARSTR_CONTROL;
   CHARSTR_CONTROL;
   CHARSTR_CONTROL;
   CHARSTR_CONTROL;
   CHARSTR_CONTROL;
   CHARSTR_CONTROL;
   CHARSTR_CONTROL;
   CHARSTR_CONTROL;
   CHARSTR_CONTROL;
   CHARSTR_CONTROL;
   CHARSTR_CONTROL;
   CHARSTR_CONTROL;
   CHARSTR_CONTROL;
   CHARSTR_CONTROL;
   CHARSTR_CONTROL;
   CHARSTR_CONTROL;
   CHARSTR_CONTROL;
   CHARSTR_CONTROL;
   Z.lor CHARSTR_PRINT CHARSTR_SPACE;
   CHARSTR_PRINT;
   CHARSTR_PRINT;
   CHARSTR_PRINT;
   CHARSTR_PRINT;
   CHARSTR_PRINT;
   CHARSTR_PRINT;
   CHARSTR_PRINT;
   CHARSTR_PRINT;
   CHARSTR_PRINT;
   CHARSTR_PRINT;
   CHARSTR_PRINT;
   CHARSTR_PRINT;
   CHARSTR_PRINT;
   CHARSTR_PRINT;
   CHARSTR_PRINT;
   Z.lor (Z.lor (Z.lor CHARSTR_PRINT CHARSTR_DIGIT) CHARSTR_HEX) CHARSTR_OCTAL;
   Z.lor (Z.lor (Z.lor CHARSTR_PRINT CHARSTR_DIGIT) CHARSTR_HEX) CHARSTR_OCTAL;
   Z.lor (Z.lor (Z.lor CHARSTR_PRINT CHARSTR_DIGIT) CHARSTR_HEX) CHARSTR_OCTAL;
   Z.lor (Z.lor (Z.lor CHARSTR_PRINT CHARSTR_DIGIT) CHARSTR_HEX) CHARSTR_OCTAL;
   Z.lor (Z.lor (Z.lor CHARSTR_PRINT CHARSTR_DIGIT) CHARSTR_HEX) CHARSTR_OCTAL;
   Z.lor (Z.lor (Z.lor CHARSTR_PRINT CHARSTR_DIGIT) CHARSTR_HEX) CHARSTR_OCTAL;
   Z.lor (Z.lor (Z.lor CHARSTR_PRINT CHARSTR_DIGIT) CHARSTR_HEX) CHARSTR_OCTAL;
   Z.lor (Z.lor (Z.lor CHARSTR_PRINT CHARSTR_DIGIT) CHARSTR_HEX) CHARSTR_OCTAL;
   Z.lor (Z.lor CHARSTR_PRINT CHARSTR_DIGIT) CHARSTR_HEX;
   Z.lor (Z.lor CHARSTR_PRINT CHARSTR_DIGIT) CHARSTR_HEX;
   CHARSTR_PRINT;
   CHARSTR_PRINT;
   CHARSTR_PRINT;
   CHARSTR_PRINT;
   CHARSTR_PRINT;
   CHARSTR_PRINT;
   CHARSTR_PRINT;
   Z.lor (Z.lor CHARSTR_PRINT CHARSTR_UPPER) CHARSTR_HEX;
   Z.lor (Z.lor CHARSTR_PRINT CHARSTR_UPPER) CHARSTR_HEX;
   Z.lor (Z.lor CHARSTR_PRINT CHARSTR_UPPER) CHARSTR_HEX;
   Z.lor (Z.lor CHARSTR_PRINT CHARSTR_UPPER) CHARSTR_HEX;
   Z.lor (Z.lor CHARSTR_PRINT CHARSTR_UPPER) CHARSTR_HEX;
   Z.lor (Z.lor CHARSTR_PRINT CHARSTR_UPPER) CHARSTR_HEX;
   Z.lor CHARSTR_PRINT CHARSTR_UPPER;
   Z.lor CHARSTR_PRINT CHARSTR_UPPER;
   Z.lor CHARSTR_PRINT CHARSTR_UPPER;
   Z.lor CHARSTR_PRINT CHARSTR_UPPER;
   Z.lor CHARSTR_PRINT CHARSTR_UPPER;
   Z.lor CHARSTR_PRINT CHARSTR_UPPER;
   Z.lor CHARSTR_PRINT CHARSTR_UPPER;
   Z.lor CHARSTR_PRINT CHARSTR_UPPER;
   Z.lor CHARSTR_PRINT CHARSTR_UPPER;
   Z.lor CHARSTR_PRINT CHARSTR_UPPER;
   Z.lor CHARSTR_PRINT CHARSTR_UPPER;
   Z.lor CHARSTR_PRINT CHARSTR_UPPER;
   Z.lor CHARSTR_PRINT CHARSTR_UPPER;
   Z.lor CHARSTR_PRINT CHARSTR_UPPER;
   Z.lor CHARSTR_PRINT CHARSTR_UPPER;
   Z.lor CHARSTR_PRINT CHARSTR_UPPER;
   Z.lor CHARSTR_PRINT CHARSTR_UPPER;
   Z.lor CHARSTR_PRINT CHARSTR_UPPER;
   Z.lor CHARSTR_PRINT CHARSTR_UPPER;
   Z.lor CHARSTR_PRINT CHARSTR_UPPER;
   CHARSTR_PRINT;
   CHARSTR_PRINT;
   CHARSTR_PRINT;
   CHARSTR_PRINT;
   Z.lor CHARSTR_PRINT CHARSTR_UNDER;
   CHARSTR_PRINT;
   Z.lor (Z.lor CHARSTR_PRINT CHARSTR_LOWER) CHARSTR_HEX;
   Z.lor (Z.lor CHARSTR_PRINT CHARSTR_LOWER) CHARSTR_HEX;
   Z.lor (Z.lor CHARSTR_PRINT CHARSTR_LOWER) CHARSTR_HEX;
   Z.lor (Z.lor CHARSTR_PRINT CHARSTR_LOWER) CHARSTR_HEX;
   Z.lor (Z.lor CHARSTR_PRINT CHARSTR_LOWER) CHARSTR_HEX;
   Z.lor (Z.lor CHARSTR_PRINT CHARSTR_LOWER) CHARSTR_HEX;
   Z.lor CHARSTR_PRINT CHARSTR_LOWER;
   Z.lor CHARSTR_PRINT CHARSTR_LOWER;
   Z.lor CHARSTR_PRINT CHARSTR_LOWER;
   Z.lor CHARSTR_PRINT CHARSTR_LOWER;
   Z.lor CHARSTR_PRINT CHARSTR_LOWER;
   Z.lor CHARSTR_PRINT CHARSTR_LOWER;
   Z.lor CHARSTR_PRINT CHARSTR_LOWER;
   Z.lor CHARSTR_PRINT CHARSTR_LOWER;
   Z.lor CHARSTR_PRINT CHARSTR_LOWER;
   Z.lor CHARSTR_PRINT CHARSTR_LOWER;
   Z.lor CHARSTR_PRINT CHARSTR_LOWER;
   Z.lor CHARSTR_PRINT CHARSTR_LOWER;
   Z.lor CHARSTR_PRINT CHARSTR_LOWER;
   Z.lor CHARSTR_PRINT CHARSTR_LOWER;
   Z.lor CHARSTR_PRINT CHARSTR_LOWER;
   Z.lor CHARSTR_PRINT CHARSTR_LOWER;
   Z.lor CHARSTR_PRINT CHARSTR_LOWER;
   Z.lor CHARSTR_PRINT CHARSTR_LOWER;
   Z.lor CHARSTR_PRINT CHARSTR_LOWER;
   Z.lor CHARSTR_PRINT CHARSTR_LOWER;
   CHARSTR_PRINT;
   CHARSTR_PRINT;
   CHARSTR_PRINT;
   CHARSTR_PRINT;
   CHARSTR_CONTROL]
  ++ repeat 0 128.

(** src/charstr.c:296-319 digit_value *)
Definition digit_value : list Z :=
  [0; 0; 0; 0; 0; 0; 0; 0; 0; 0; 0; 0; 0; 0; 0; 0;
   0; 0; 0; 0; 0; 0; 0; 0; 0; 0; 0; 0; 0; 0; 0; 0;
   0; 0; 0; 0; 0; 0; 0; 0; 0; 0; 0; 0; 0; 0; 0; 0;
   0; 1; 2; 3; 4; 5; 6; 7; 8; 9; 0; 0; 0; 0; 0; 0;
   0; 10; 11; 12; 13; 14; 15; 0; 0; 0; 0; 0; 0; 0; 0; 0;
   0; 0; 0; 0; 0; 0; 0; 0; 0; 0; 0; 0; 0; 0; 0; 0;
   0; 10; 11; 12; 13; 14; 15; 0; 0; 0; 0; 0; 0; 0; 0; 0;
   0; 0; 0; 0; 0; 0; 0; 0; 0; 0; 0; 0; 0; 0; 0; 0;
   0; 0; 0; 0; 0; 0; 0; 0; 0; 0; 0; 0; 0; 0; 0; 0;
   0; 0; 0; 0; 0; 0; 0; 0; 0; 0; 0; 0; 0; 0; 0; 0;
   0; 0; 0; 0; 0; 0; 0; 0; 0; 0; 0; 0; 0; 0; 0; 0;
   0; 0; 0; 0; 0; 0; 0; 0; 0; 0; 0; 0; 0; 0; 0; 0;
   0; 0; 0; 0; 0; 0; 0; 0; 0; 0; 0; 0; 0; 0; 0; 0;
   0; 0; 0; 0; 0; 0; 0; 0; 0; 0; 0; 0; 0; 0; 0; 0;
   0; 0; 0; 0; 0; 0; 0; 0; 0; 0; 0; 0; 0; 0; 0; 0;
   0; 0; 0; 0; 0; 0; 0; 0; 0; 0; 0; 0; 0; 0; 0; 0].

(** src/charstr.c:571-604 url_encoder.table: the strings without their NUL *)
Definition url_table : list (list Z) :=
  [[37; 48; 48]; [37; 48; 49]; [37; 48; 50]; [37; 48; 51]; [37; 48; 52]; [37; 48; 53]; [37; 48; 54]; [37; 48; 55];
   [37; 48; 56]; [37; 48; 57]; [37; 48; 65]; [37; 48; 66]; [37; 48; 67]; [37; 48; 68]; [37; 48; 69]; [37; 48; 70];
   [37; 49; 48]; [37; 49; 49]; [37; 49; 50]; [37; 49; 51]; [37; 49; 52]; [37; 49; 53]; [37; 49; 54]; [37; 49; 55];
   [37; 49; 56]; [37; 49; 57]; [37; 49; 65]; [37; 49; 66]; [37; 49; 67]; [37; 49; 68]; [37; 49; 69]; [37; 49; 70];
   [43]; [37; 50; 49]; [34]; [37; 50; 51]; [37; 50; 52]; [37; 50; 53]; [37; 50; 54]; [37; 50; 55];
   [37; 50; 56]; [37; 50; 57]; [37; 50; 65]; [37; 50; 66]; [37; 50; 67]; [45]; [46]; [47];
   [48]; [49]; [50]; [51]; [52]; [53]; [54]; [55];
   [56]; [57]; [37; 51; 65]; [37; 51; 66]; [60]; [37; 51; 68]; [62]; [37; 51; 70];
   [37; 52; 48]; [65]; [66]; [67]; [68]; [69]; [70]; [71];
   [72]; [73]; [74]; [75]; [76]; [77]; [78]; [79];
   [80]; [81]; [82]; [83]; [84]; [85]; [86]; [87];
   [88]; [89]; [90]; [37; 53; 66]; [92]; [37; 53; 68]; [94]; [95];
   [96]; [97]; [98]; [99]; [100]; [101]; [102]; [103];
   [104]; [105]; [106]; [107]; [108]; [109]; [110]; [111];
   [112]; [113]; [114]; [115]; [116]; [117]; [118]; [119];
   [120]; [121]; [122]; [123]; [124]; [125]; [126]; [37; 55; 70];
   [37; 56; 48]; [37; 56; 49]; [37; 56; 50]; [37; 56; 51]; [37; 56; 52]; [37; 56; 53]; [37; 56; 54]; [37; 56; 55];
   [37; 56; 56]; [37; 56; 57]; [37; 56; 65]; [37; 56; 66]; [37; 56; 67]; [37; 56; 68]; [37; 56; 69]; [37; 56; 70];
   [37; 57; 48]; [37; 57; 49]; [37; 57; 50]; [37; 57; 51]; [37; 57; 52]; [37; 57; 53]; [37; 57; 54]; [37; 57; 55];
   [37; 57; 56]; [37; 57; 57]; [37; 57; 65]; [37; 57; 66]; [37; 57; 67]; [37; 57; 68]; [37; 57; 69]; [37; 57; 70];
   [37; 65; 48]; [37; 65; 49]; [37; 65; 50]; [37; 65; 51]; [37; 65; 52]; [37; 65; 53]; [37; 65; 54]; [37; 65; 55];
   [37; 65; 56]; [37; 65; 57]; [37; 65; 65]; [37; 65; 66]; [37; 65; 67]; [37; 65; 68]; [37; 65; 69]; [37; 65; 70];
   [37; 66; 48]; [37; 66; 49]; [37; 66; 50]; [37; 66; 51]; [37; 66; 52]; [37; 66; 53]; [37; 66; 54]; [37; 66; 55];
   [37; 66; 56]; [37; 66; 57]; [37; 66; 65]; [37; 66; 66]; [37; 66; 67]; [37; 66; 68]; [37; 66; 69]; [37; 66; 70];
   [37; 67; 48]; [37; 67; 49]; [37; 67; 50]; [37; 67; 51]; [37; 67; 52]; [37; 67; 53]; [37; 67; 54]; [37; 67; 55];
   [37; 67; 56]; [37; 67; 57]; [37; 67; 65]; [37; 67; 66]; [37; 67; 67]; [37; 67; 68]; [37; 67; 69]; [37; 67; 70];
   [37; 68; 48]; [37; 68; 49]; [37; 68; 50]; [37; 68; 51]; [37; 68; 52]; [37; 68; 53]; [37; 68; 54]; [37; 68; 55];
   [37; 68; 56]; [37; 68; 57]; [37; 68; 65]; [37; 68; 66]; [37; 68; 67]; [37; 68; 68]; [37; 68; 69]; [37; 68; 70];
   [37; 69; 48]; [37; 69; 49]; [37; 69; 50]; [37; 69; 51]; [37; 69; 52]; [37; 69; 53]; [37; 69; 54]; [37; 69; 55];
   [37; 69; 56]; [37; 69; 57]; [37; 69; 65]; [37; 69; 66]; [37; 69; 67]; [37; 69; 68]; [37; 69; 69]; [37; 69; 70];
   [37; 70; 48]; [37; 70; 49]; [37; 70; 50]; [37; 70; 51]; [37; 70; 52]; [37; 70; 53]; [37; 70; 54]; [37; 70; 55];
   [37; 70; 56]; [37; 70; 57]; [37; 70; 65]; [37; 70; 66]; [37; 70; 67]; [37; 70; 68]; [37; 70; 69]; [37; 70; 70]].
