(* Generated by tools/gen_teletex.py from /repo/asn1crypto/_teletex_codec.py:71-329. *)
Require Import Verif.Base.

(* DECODING_TABLE: code point of each byte, 65534 (U+FFFE) = undefined *)
Definition teletex_table : list Z :=
  [0; 1; 2; 3; 4; 5; 6; 7; 8; 9; 10; 11; 12; 13; 14; 15;
   16; 17; 18; 19; 20; 21; 22; 23; 24; 25; 26; 27; 28; 29; 30; 31;
   32; 33; 34; 65534; 65534; 37; 38; 39; 40; 41; 42; 43; 44; 45; 46; 47;
   48; 49; 50; 51; 52; 53; 54; 55; 56; 57; 58; 59; 60; 61; 62; 63;
   64; 65; 66; 67; 68; 69; 70; 71; 72; 73; 74; 75; 76; 77; 78; 79;
   80; 81; 82; 83; 84; 85; 86; 87; 88; 89; 90; 91; 65534; 93; 65534; 95;
   65534; 97; 98; 99; 100; 101; 102; 103; 104; 105; 106; 107; 108; 109; 110; 111;
   112; 113; 114; 115; 116; 117; 118; 119; 120; 121; 122; 65534; 124; 65534; 65534; 127;
   128; 129; 130; 131; 132; 133; 134; 135; 136; 137; 138; 139; 140; 141; 142; 143;
   144; 145; 146; 147; 148; 149; 150; 151; 152; 153; 154; 155; 156; 157; 158; 159;
   160; 161; 162; 163; 36; 165; 35; 167; 164; 65534; 65534; 171; 65534; 65534; 65534; 65534;
   176; 177; 178; 179; 215; 181; 182; 183; 247; 65534; 65534; 187; 188; 189; 190; 191;
   65534; 768; 769; 770; 771; 772; 774; 775; 776; 65534; 778; 807; 818; 779; 808; 780;
   65534; 65534; 65534; 65534; 65534; 65534; 65534; 65534; 65534; 65534; 65534; 65534; 65534; 65534; 65534; 65534;
   8486; 198; 208; 170; 294; 65534; 306; 319; 321; 216; 338; 186; 222; 358; 330; 329;
   312; 230; 273; 240; 295; 305; 307; 320; 322; 248; 339; 223; 254; 359; 331; 65534].
