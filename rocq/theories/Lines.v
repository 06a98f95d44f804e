(** * Lines: every operand of every line of the table does what its text says

    Runs1 to Runs6 treat the 290 different uses of operand functions.  Here they are put back into the lines of the
    table. *)
From Coq Require Import Lia.
From Verif Require Import Base Float Lexer LexFacts Operand Catalogue Table Parse Operands Footprint Encode Reach Outcomes Source SourceText Cxx Exec Functions SpecRuns.
From Verif Require Import Runs Runs1 Runs2 Runs3 Runs4 Runs5 Runs6.
Local Open Scope string_scope.
Local Open Scope list_scope.
Open Scope Z_scope.

Definition all_pairs : list (targ * opnd) := pairs_1 ++ pairs_2 ++ pairs_3 ++ pairs_4 ++ pairs_5 ++ pairs_6.
Lemma all_run : Forall operand_runs all_pairs.
Proof.
  unfold all_pairs. repeat (apply Forall_app; split); [exact pairs_1_run|exact pairs_2_run|exact pairs_3_run|
  exact pairs_4_run|exact pairs_5_run|exact pairs_6_run].
Qed.

(** For each line of the table, where its operands are in [all_pairs]. *)
Definition places : list (list nat) :=
  [[0; 1; 2; 3; 4; 3; 5; 3; 6];
   [0; 1; 4; 3; 5; 3; 6];
   [0; 1; 2; 3; 4; 3; 6];
   [0; 1; 4; 3; 6];
   [0; 1; 2; 3; 4; 3; 5];
   [0; 1; 4; 3; 5];
   [0; 1; 2; 3; 4];
   [0; 1; 4];
   [7; 8; 4; 3; 283; 9];
   [7; 8; 4; 3; 283; 3; 10];
   [7; 11; 8; 4; 3; 284; 9];
   [7; 11; 8; 4; 3; 284; 3; 10];
   [7; 12; 8; 4; 3; 285; 9];
   [7; 12; 8; 4; 3; 285; 3; 10];
   [8; 283; 3; 13; 9];
   [8; 283; 3; 13; 3; 10];
   [11; 8; 284; 3; 13; 9];
   [12; 8; 285; 3; 13; 9];
   [12; 8; 285; 3; 13; 3; 10];
   [14; 15; 16; 4; 3; 277; 3; 17];
   [18; 19; 4; 3; 278; 3; 17];
   [4; 3; 20];
   [21; 4];
   [22; 4; 3; 23];
   [24; 25; 4; 26; 3; 5; 3; 17];
   [24; 25; 4; 26; 3; 5; 3; 286];
   [24; 25; 4; 26; 3; 5; 3; 27];
   [4; 26; 3; 5; 3; 17; 3; 10];
   [4; 26; 3; 5; 3; 10; 3; 286];
   [4; 26; 3; 5; 3; 286; 3; 10];
   [4; 26; 3; 5; 3; 27; 3; 10];
   [28; 29];
   [28];
   [30; 31; 32; 4; 26; 3; 33; 3; 34];
   [31; 32; 35; 3; 36; 3; 33; 3; 34];
   [37; 4; 26; 3; 38; 39; 3; 40; 41];
   [37; 4; 26; 3; 38; 39; 3; 40; 287];
   [37; 4; 26; 3; 38; 39; 3; 42; 43; 44];
   [45; 4; 26; 3; 5; 3; 38; 17; 3; 46; 10];
   [45; 4; 26; 3; 5; 3; 38; 10; 3; 46; 286];
   [45; 4; 26; 3; 5; 3; 38; 286; 3; 46; 10];
   [45; 4; 26; 3; 5; 3; 42; 47; 3; 46; 10];
   [4; 26; 3; 38; 39; 3; 40; 41; 3; 34];
   [4; 26; 3; 38; 39; 3; 40; 287; 3; 34];
   [4; 26; 3; 38; 39; 3; 42; 43; 44; 3; 34];
   [37; 4; 26; 3; 5; 3; 38; 17];
   [37; 4; 26; 3; 5; 3; 38; 286];
   [37; 4; 26; 3; 5; 3; 42; 47];
   [48; 49; 32; 4; 26; 3; 50; 51; 3; 52; 53; 3; 34];
   [48; 49; 32; 4; 26; 3; 50; 51; 3; 52; 288; 3; 34];
   [48; 49; 32; 4; 26; 3; 50; 51; 3; 42; 54; 55; 3; 34];
   [49; 32; 35; 3; 36; 3; 50; 56; 3; 57; 53; 3; 34];
   [49; 32; 35; 3; 36; 3; 50; 56; 3; 57; 288; 3; 34];
   [49; 32; 35; 3; 36; 3; 50; 56; 3; 42; 58; 55; 3; 34];
   [59];
   [59; 33; 31];
   [59; 60];
   [59; 33; 31; 3; 60];
   [4; 3; 17];
   [4; 3; 17; 3; 61];
   [4; 3; 286];
   [4; 3; 286; 3; 61];
   [4; 3; 27];
   [4; 3; 27; 3; 61];
   [4; 3; 62];
   [4; 3; 62; 3; 63];
   [64; 65; 4; 3; 38; 39];
   [4; 3; 66];
   [67; 37; 65; 4; 26; 3; 38; 39; 3; 40; 41];
   [67; 37; 65; 4; 26; 3; 38; 39; 3; 40; 287];
   [67; 37; 65; 4; 26; 3; 38; 39; 3; 68; 43; 44];
   [69; 4; 70; 3; 71; 51; 3; 72; 54; 73];
   [74; 75; 65; 4; 26; 3; 5; 3; 38; 17; 3; 46; 10];
   [74; 75; 65; 4; 26; 3; 5; 3; 38; 10; 3; 46; 286];
   [74; 75; 65; 4; 26; 3; 5; 3; 38; 286; 3; 46; 10];
   [74; 75; 65; 4; 26; 3; 5; 3; 68; 47; 3; 46; 10];
   [74; 76; 4; 70; 3; 71; 5; 3; 72; 3; 77; 78];
   [67; 4; 26; 3; 38; 39; 3; 40; 41; 3; 34];
   [67; 4; 26; 3; 38; 39; 3; 40; 287; 3; 34];
   [67; 4; 26; 3; 38; 39; 3; 68; 43; 44; 3; 34];
   [79; 80; 37; 65; 4; 26; 3; 5; 3; 38; 17];
   [79; 80; 37; 65; 4; 26; 3; 5; 3; 38; 286];
   [79; 80; 37; 65; 4; 26; 3; 5; 3; 68; 47];
   [74; 76; 4; 70; 3; 5; 3; 72];
   [48; 49; 69; 32; 4; 26; 3; 50; 51; 3; 52; 53; 3; 34];
   [48; 49; 69; 32; 4; 26; 3; 50; 51; 3; 52; 288; 3; 34];
   [48; 49; 69; 32; 4; 26; 3; 50; 51; 3; 68; 54; 55; 3; 34];
   [49; 81; 32; 35; 3; 36; 3; 50; 56; 3; 57; 53; 3; 34];
   [49; 81; 32; 35; 3; 36; 3; 50; 56; 3; 57; 288; 3; 34];
   [49; 81; 32; 35; 3; 36; 3; 50; 56; 3; 68; 58; 55; 3; 34];
   [82; 83; 84; 85; 86; 4; 26; 3; 5; 87; 3; 17; 88; 3; 10];
   [82; 89; 90; 4; 26; 3; 5; 87; 3; 10; 91; 3; 286];
   [82; 92; 89; 93; 90; 4; 26; 3; 5; 87; 3; 286; 91; 3; 10];
   [82; 83; 84; 85; 86; 4; 26; 3; 5; 87; 3; 94; 3; 10];
   [95; 96; 97; 25; 4; 26; 3; 5; 3; 17];
   [95; 96; 97; 25; 4; 26; 3; 5; 3; 286];
   [95; 96; 97; 25; 4; 26; 3; 5; 3; 27];
   [98; 99; 100; 101; 4; 26; 3; 5; 3; 17; 3; 10];
   [102; 99; 100; 101; 4; 26; 3; 5; 3; 17; 3; 10];
   [98; 99; 100; 101; 4; 26; 3; 5; 3; 103; 3; 10];
   [102; 99; 100; 101; 4; 26; 3; 5; 3; 103; 3; 10];
   [67; 104; 105; 106; 65; 4; 26; 3; 40; 41; 107];
   [67; 104; 105; 106; 65; 4; 26; 3; 40; 287; 107];
   [67; 104; 105; 106; 65; 4; 26; 3; 68; 43; 44; 107];
   [67; 108; 105; 109; 4; 26; 3; 40; 41; 107];
   [67; 108; 105; 109; 4; 26; 3; 40; 287; 107];
   [104; 110; 37; 4; 26; 3; 40; 41; 111];
   [104; 110; 37; 4; 26; 3; 40; 287; 111];
   [104; 110; 37; 4; 26; 3; 27; 43; 44; 111];
   [112; 113; 65; 4; 26; 3; 40; 41; 114];
   [112; 113; 65; 4; 26; 3; 40; 287; 114];
   [112; 113; 65; 4; 26; 3; 27; 43; 44];
   [115; 116; 117; 4; 3; 50; 118; 119; 3; 120; 121; 122];
   [115; 116; 123; 4; 3; 50; 118; 119; 3; 71; 289];
   [115; 116; 123; 4; 3; 50; 118; 119; 3; 124; 3; 125];
   [69; 123; 4; 3; 71; 5; 126; 3; 127; 3; 128];
   [115; 129; 123; 4; 3; 5; 119; 3; 71; 286; 3; 130; 10; 126];
   [115; 129; 123; 4; 3; 5; 119; 3; 124; 3; 125; 3; 130; 10; 126];
   [115; 129; 123; 4; 3; 5; 119; 3; 71; 10; 126; 3; 130; 286];
   [115; 131; 117; 4; 3; 5; 119; 3; 120; 17; 122; 3; 132; 10; 133];
   [134; 4; 3; 5; 126; 3; 127; 3; 128; 3; 135; 78];
   [115; 136; 117; 4; 3; 118; 119; 3; 120; 121; 122];
   [115; 136; 123; 4; 3; 118; 119; 3; 50; 289];
   [115; 136; 123; 4; 3; 50; 118; 119; 3; 124; 3; 125];
   [134; 123; 4; 3; 5; 126; 3; 127; 3; 128];
   [137; 138; 139; 32; 4; 3; 50; 118; 119; 3; 120; 121; 122; 3; 34];
   [140; 141; 142; 32; 4; 3; 50; 118; 119; 3; 71; 286; 3; 34];
   [140; 141; 142; 32; 4; 3; 50; 118; 119; 3; 124; 3; 125; 3; 34];
   [138; 143; 144; 32; 35; 3; 36; 3; 50; 118; 119; 3; 120; 121; 122; 3; 34];
   [141; 145; 144; 32; 35; 3; 36; 3; 50; 118; 119; 3; 71; 289; 3; 34];
   [141; 145; 144; 32; 35; 3; 36; 3; 50; 118; 119; 3; 124; 3; 125; 3; 34];
   [146; 32; 35; 3; 36; 3; 147; 3; 148; 3; 34];
   [30; 146; 32; 4; 26; 3; 147; 3; 148; 3; 34];
   [149; 4; 3; 150; 3; 5; 3; 17];
   [149; 4; 3; 150; 3; 5; 3; 286];
   [149; 4; 3; 150; 3; 5; 3; 27];
   [150; 3; 5; 149; 3; 17];
   [150; 3; 5; 149; 3; 286];
   [150; 3; 5; 149; 3; 27];
   [151; 65; 152; 4; 26; 3; 46; 5; 3; 38; 17];
   [151; 65; 152; 4; 26; 3; 46; 5; 3; 38; 286];
   [151; 65; 152; 4; 26; 3; 46; 5; 3; 27; 47];
   [153; 154; 155; 4; 70; 3; 71; 5; 3; 156];
   [157; 158; 4; 26; 3; 130; 5; 159; 3; 160; 17; 161; 3; 46; 10; 162];
   [158; 4; 26; 3; 130; 5; 3; 160; 286; 3; 46; 10];
   [158; 4; 26; 3; 130; 5; 3; 163; 164; 3; 46; 10];
   [165; 166; 4; 3; 5; 3; 17; 3; 10];
   [165; 166; 4; 3; 5; 3; 10; 3; 286];
   [165; 166; 4; 3; 5; 3; 286; 3; 10];
   [165; 166; 4; 3; 5; 3; 27; 3; 10];
   [166; 167; 4; 26; 3; 5; 3; 17; 3; 34];
   [166; 167; 4; 26; 3; 5; 3; 286; 3; 34];
   [166; 167; 4; 26; 3; 5; 3; 27; 3; 34];
   [151; 4; 26; 3; 46; 5; 3; 38; 17; 3; 168];
   [151; 4; 26; 3; 46; 5; 3; 38; 286; 3; 168];
   [151; 4; 26; 3; 46; 5; 3; 38; 27; 3; 168];
   [30; 165; 166; 152; 32; 4; 26; 3; 5; 3; 17; 3; 34];
   [30; 165; 166; 152; 32; 4; 26; 3; 5; 3; 286; 3; 34];
   [30; 165; 166; 152; 32; 4; 26; 3; 5; 3; 27; 3; 34];
   [165; 166; 152; 32; 35; 3; 36; 3; 5; 3; 17; 3; 34];
   [165; 166; 152; 32; 35; 3; 36; 3; 5; 3; 286; 3; 34];
   [165; 166; 152; 32; 35; 3; 36; 3; 5; 3; 27; 3; 34];
   [166; 169; 4; 26; 3; 170; 17];
   [166; 169; 4; 26; 3; 170; 286];
   [166; 169; 4; 26; 3; 27; 171];
   [4; 3; 170; 17];
   [4; 3; 170; 286];
   [4; 3; 27; 171];
   [172; 173; 4; 3; 279];
   [174; 86; 4; 26; 3; 175; 5; 3; 17; 3; 10];
   [174; 86; 4; 26; 3; 175; 5; 3; 17; 3; 10; 3; 176];
   [174; 86; 177; 3; 4; 26; 3; 175; 5; 3; 17; 3; 10];
   [174; 86; 177; 3; 4; 26; 3; 175; 5; 3; 17; 3; 10; 3; 176];
   [174; 178; 4; 26; 3; 71; 5; 3; 286; 3; 10];
   [174; 178; 4; 26; 3; 71; 5; 3; 286; 3; 10; 3; 179];
   [174; 178; 177; 3; 4; 26; 3; 71; 5; 3; 286; 3; 10];
   [174; 178; 177; 3; 4; 26; 3; 71; 5; 3; 286; 3; 10; 3; 179];
   [180; 181; 4; 26; 3; 40; 5; 3; 17];
   [180; 181; 4; 26; 3; 40; 5; 3; 17; 3; 168];
   [180; 181; 177; 3; 4; 26; 3; 40; 5; 3; 17];
   [180; 181; 177; 3; 4; 26; 3; 40; 5; 3; 17; 3; 168];
   [180; 181; 4; 26; 3; 40; 5; 3; 286];
   [180; 181; 4; 26; 3; 40; 5; 3; 286; 3; 168];
   [180; 181; 177; 3; 4; 26; 3; 40; 5; 3; 286];
   [180; 181; 177; 3; 4; 26; 3; 40; 5; 3; 286; 3; 168];
   [180; 181; 4; 26; 3; 40; 5; 3; 27];
   [180; 181; 4; 26; 3; 40; 5; 3; 27; 3; 168];
   [180; 181; 177; 3; 4; 26; 3; 40; 5; 3; 27];
   [180; 181; 177; 3; 4; 26; 3; 40; 5; 3; 27; 3; 168];
   [182; 152; 183; 177; 3; 4; 26; 3; 184; 5; 3; 170; 17];
   [182; 152; 183; 177; 3; 4; 26; 3; 184; 5; 3; 170; 286];
   [182; 152; 183; 177; 3; 4; 26; 3; 184; 5; 3; 170; 27];
   [185; 178; 4; 70; 3; 186; 5; 3; 62; 187];
   [188; 86; 189; 177; 3; 4; 26; 3; 5; 3; 17; 3; 10; 3; 190];
   [188; 86; 189; 4; 26; 3; 5; 3; 17; 3; 10; 3; 190];
   [188; 4; 26; 3; 5; 3; 27; 3; 10; 3; 191];
   [188; 4; 26; 3; 5; 3; 286; 3; 10; 3; 191];
   [49; 81; 4; 3; 5; 3; 17; 3; 10];
   [49; 81; 4; 3; 5; 3; 10; 3; 286];
   [49; 81; 4; 3; 5; 3; 286; 3; 10];
   [49; 81; 4; 3; 5; 3; 68; 3; 10];
   [4; 3; 5; 3; 17; 3; 34];
   [4; 3; 5; 3; 286; 3; 34];
   [4; 3; 5; 3; 27; 3; 34];
   [192; 177; 3; 4; 3; 5; 3; 17; 3; 10];
   [192; 177; 3; 4; 3; 5; 3; 193; 3; 10];
   [192; 177; 3; 4; 3; 5; 3; 17; 3; 194];
   [192; 177; 3; 4; 3; 5; 3; 193; 3; 194];
   [195; 152; 4; 26; 3; 5; 3; 17];
   [195; 152; 4; 26; 3; 5; 3; 286];
   [195; 152; 4; 26; 3; 5; 3; 27];
   [196];
   [196];
   [196];
   [196];
   [196];
   [196];
   [197; 196];
   [198; 4; 3; 40; 41];
   [198; 4; 3; 40; 287];
   [198; 4; 3; 68; 43; 44];
   [199; 200; 201; 202; 203; 280; 3; 13; 3; 10];
   [199; 200; 201; 202; 203; 280; 3; 13; 3; 204];
   [205; 206; 200; 201; 207; 203; 280; 3; 13; 3; 10];
   [205; 206; 200; 201; 207; 203; 280; 3; 13; 3; 204];
   [199; 200; 208; 202; 203; 4; 3; 280; 3; 10];
   [199; 200; 208; 202; 203; 4; 3; 280; 3; 204];
   [205; 209; 200; 208; 207; 203; 4; 3; 280; 3; 10];
   [205; 209; 200; 208; 207; 203; 4; 3; 280; 3; 204];
   [210; 4; 3; 211; 3; 34];
   [212; 213; 214; 215; 76; 4; 26; 3; 216; 5; 217; 3; 17; 218; 3; 52; 10];
   [212; 219; 214; 215; 76; 4; 26; 3; 216; 5; 217; 3; 220; 3; 52; 10];
   [221; 212; 213; 222; 76; 223; 4; 26; 3; 5; 217; 3; 17; 218; 3; 10];
   [221; 212; 219; 222; 76; 223; 4; 26; 3; 5; 217; 3; 220; 3; 10];
   [224; 212; 213; 32; 35; 3; 36; 3; 5; 217; 3; 17; 218; 3; 34];
   [224; 212; 219; 32; 35; 3; 36; 3; 5; 217; 3; 220; 3; 34];
   [225; 226; 227; 281; 3; 13];
   [227; 281; 3; 13];
   [228; 227; 281; 3; 13];
   [229; 230; 231; 232; 233; 234; 235; 3; 4; 3; 5; 3; 17; 3; 204; 3; 236; 3; 237];
   [238; 229; 230; 239; 240; 233; 241; 235; 3; 4; 3; 5; 3; 17; 3; 242; 3; 236; 3; 237];
   [243; 244; 230; 245; 3; 4; 3; 5; 3; 17; 3; 204; 3; 246; 3; 247];
   [248; 249; 233; 229; 230; 235; 3; 4; 3; 5; 3; 17; 3; 204; 3; 236; 3; 237];
   [250; 238; 251; 233; 229; 230; 235; 3; 4; 3; 5; 3; 17; 3; 242; 3; 236; 3; 237];
   [252; 253; 254; 233; 230; 245; 3; 4; 3; 5; 3; 17; 3; 204];
   [255; 256; 257; 258; 230; 235; 3; 4; 3; 5; 3; 17; 3; 204; 3; 236; 3; 237];
   [238; 255; 256; 257; 258; 230; 235; 3; 4; 3; 5; 3; 17; 3; 242; 3; 236; 3; 237];
   [243; 259; 231; 260; 230; 245; 3; 4; 3; 5; 3; 17; 3; 204; 3; 261; 3; 247];
   [262; 229; 230; 4; 3; 5; 3; 204; 3; 236; 3; 237];
   [238; 262; 229; 230; 4; 3; 5; 3; 17; 3; 242; 3; 236; 3; 237];
   [263; 256; 230; 235; 3; 4; 3; 5; 3; 17; 3; 204; 3; 236; 3; 237];
   [238; 263; 256; 230; 235; 3; 4; 3; 5; 3; 17; 3; 242; 3; 236; 3; 237];
   [230; 4; 3; 5; 3; 264; 3; 204; 3; 237];
   [238; 230; 4; 3; 5; 3; 264; 3; 242; 3; 237];
   [225; 265; 266; 4; 3; 281];
   [225; 265; 266; 267; 3; 4; 3; 282];
   [268; 227; 4; 3; 281];
   [269; 227; 4; 3; 281];
   [270; 271; 272; 277; 3; 13];
   [273; 274; 196; 3; 275];
   [273; 274; 275];
   [275];
   [275];
   [276; 275];
   [275]]%nat.

Definition at_place (k : nat) : targ * opnd := nth k all_pairs (ANum 0, OComma).
Definition ends (l : list (list nat)) : bool := forallb (forallb (fun k => Nat.ltb k 290)) l.

Lemma places_end : ends places = true.
Proof. vm_compute. reflexivity. Qed.
Lemma all_length : List.length all_pairs = 290%nat.
Proof. vm_compute. reflexivity. Qed.
Lemma places_refs : map (map (fun k => fst (at_place k))) places = references.
Proof. vm_compute. reflexivity. Qed.
Lemma places_operands : map (map (fun k => snd (at_place k))) places = map i_operands table.
Proof. vm_compute. reflexivity. Qed.

Lemma place_runs : forall k, (k < 290)%nat -> operand_runs (at_place k).
Proof.
  intros k H. unfold at_place. apply (proj1 (Forall_forall _ _) all_run). apply nth_In. rewrite all_length. exact H.
Qed.

Lemma nth_map : forall A B (f : A -> B) l k y, nth_error (map f l) k = Some y -> exists x, nth_error l k = Some x /\ y = f x.
Proof.
  intros A B f l. induction l as [|a l IH]; intros [|k] y H; cbn in *; try discriminate.
  - injection H as <-. exists a. auto.
  - apply IH. exact H.
Qed.

Lemma line_places : forall k line i, nth_error references k = Some line -> nth_error table k = Some i ->
  exists ps, line = map (fun k => fst (at_place k)) ps /\ i_operands i = map (fun k => snd (at_place k)) ps /\
    Forall (fun k => k < 290)%nat ps.
Proof.
  intros k line i A B. rewrite <- places_refs in A. apply nth_map in A as (ps & P & ->). exists ps.
  split; [reflexivity| ]. split.
  - pose proof places_operands as E. apply (f_equal (fun l => nth_error l k)) in E.
    rewrite !nth_error_map, P, B in E. cbn in E. injection E as E. symmetry. exact E.
  - pose proof places_end as E. unfold ends in E. rewrite forallb_forall in E.
    specialize (E ps (nth_error_In _ _ P)). rewrite forallb_forall in E. apply Forall_forall. intros x X.
    apply PeanoNat.Nat.ltb_lt. apply E. exact X.
Qed.

Lemma references_length : List.length references = List.length table.
Proof.
  rewrite <- (map_length i_operands table), <- places_operands, <- places_refs, !map_length. reflexivity.
Qed.

Lemma operands_run : forall k line i, nth_error references k = Some line -> nth_error table k = Some i ->
  List.length line = List.length (i_operands i) /\
  forall n r o, nth_error line n = Some r -> nth_error (i_operands i) n = Some o ->
  forall e s, kind_ok (kind (s_tok s)) -> (value (s_op s) < 2 ^ 64)%N ->
  run_ref functions enumerators e r s = run_operand e o s.
Proof.
  intros k line i A B. destruct (line_places k line i A B) as (ps & -> & -> & F).
  split; [rewrite !map_length; reflexivity| ]. intros n r o R O e s K V.
  apply nth_map in R as (x & X & ->). rewrite nth_error_map, X in O. cbn in O. injection O as <-.
  apply (place_runs x); [|exact K|exact V].
  apply (proj1 (Forall_forall _ _) F). apply nth_error_In in X. exact X.
Qed.

(** ** A whole instruction *)

Lemma line_runs : forall e ps m rm s0 k n s, Forall (fun k => k < 290)%nat ps ->
  forallb lit_ok_deep (map (fun k => snd (at_place k)) ps) = true ->
  inv m rm s0 s -> sub (masks (map (fun k => snd (at_place k)) ps)) m ->
  sub (reuse_masks (map (fun k => snd (at_place k)) ps)) rm ->
  run_line functions enumerators e (map (fun k => fst (at_place k)) ps) n s k =
  run_operands e (map (fun k => snd (at_place k)) ps) n s k.
Proof.
  intros e ps m rm s0 k. induction ps as [|p ps IH]; intros n s F L I M R; [reflexivity| ].
  cbn [map run_line run_operands forallb masks reuse_masks fold_right] in *.
  apply Bool.andb_true_iff in L as (L1 & L2). apply sub_lor_inv in M as (M1 & M2), R as (R1 & R2).
  inversion F as [|? ? P F']; subst.
  assert (E : run_ref functions enumerators e (fst (at_place p)) s = run_operand e (snd (at_place p)) s).
  { apply (place_runs p P); [exact (inv_tok _ _ _ _ I)|exact (inv_word _ _ _ _ I)]. }
  rewrite E. destruct (run_operand e (snd (at_place p)) s) as [s1|d|d|w|u|] eqn:O; try reflexivity.
  cbn [scored]. apply IH; try assumption. exact (operand_footprint e _ L1 m rm s0 s I M1 R1 s1 O).
Qed.

Lemma not_land : forall v k, (v < 2 ^ 64)%N -> (k < 2 ^ 64)%N -> N.land (N.lxor v (2 ^ 64 - 1)) k = N.ldiff k v.
Proof.
  intros v k V K. apply N.bits_inj. intros j. rewrite N.land_spec, N.lxor_spec, N.ldiff_spec.
  change (2 ^ 64 - 1)%N with (N.ones 64). destruct (N.ltb_spec j 64) as [J|J].
  - rewrite N.ones_spec_low by exact J. destruct (N.testbit v j), (N.testbit k j); reflexivity.
  - rewrite (bits_small k 64 j K J), Bool.andb_false_r. reflexivity.
Qed.

Lemma instruction_runs : forall k line i, nth_error references k = Some line -> nth_error table k = Some i ->
  forall e c op, (value op < 2 ^ 64)%N ->
  parse_line functions enumerators e line i c op = parse_insn e i c op.
Proof.
  intros k line i A B e c op V. destruct (line_places k line i A B) as (ps & -> & P & F).
  unfold parse_line, parse_insn. rewrite P.
  assert (O : (i_opcode i < 2 ^ 64)%N).
  { pose proof table_opcodes as T. rewrite forallb_forall in T. apply N.ltb_lt. apply (T i).
    apply nth_error_In in B. exact B. }
  assert (L : forallb lit_ok_deep (i_operands i) = true).
  { pose proof table_lits as T. rewrite forallb_forall in T. apply (T i). apply nth_error_In in B. exact B. }
  unfold add_bits. destruct (_ && _); [reflexivity| ]. cbn [bind].
  destruct (tokenize c) as [(t, c1)|d|d|w|u|] eqn:T; try reflexivity. cbn [bind value].
  assert (W : (N.lor (value op) (i_opcode i) < 2 ^ 64)%N) by (apply lor_lt; assumption).
  rewrite (not_land _ _ W) by reflexivity.
  change (N.ldiff (7 * 2 ^ 16) (N.lor (value op) (i_opcode i))) with (andnot (shl64 7 16) (N.lor (value op) (i_opcode i))).
  destruct (_ && _); [reflexivity| ].
  rewrite P in L.
  apply line_runs with (m := masks (map (fun k => snd (at_place k)) ps))
    (rm := reuse_masks (map (fun k => snd (at_place k)) ps))
    (s0 := St c1 t (Opcode (N.lor (value op) (i_opcode i)) (reuse op) (sched op))); try assumption.
  - split; cbn; [eapply token_ok; exact T|exact W|reflexivity| |reflexivity].
    exists 0%N. split; [symmetry; apply N.lor_0_r|apply sub_0].
  - apply sub_refl.
  - apply sub_refl.
Qed.

(** ** From the text *)

Lemma texts_run : forall fs hs enums others refs,
  read_functions operand_h = Some (fs, enums) -> read_functions helper_cpp = Some (hs, others) ->
  read_refs table_h = Some refs ->
  List.length refs = List.length table /\
  forall k line i, nth_error refs k = Some line -> nth_error table k = Some i ->
  List.length line = List.length (i_operands i) /\
  (forall n r o, nth_error line n = Some r -> nth_error (i_operands i) n = Some o ->
   forall e s, kind_ok (kind (s_tok s)) -> (value (s_op s) < 2 ^ 64)%N ->
   run_ref (fs ++ hs) enums e r s = run_operand e o s) /\
  (forall e c op, (value op < 2 ^ 64)%N -> parse_line (fs ++ hs) enums e line i c op = parse_insn e i c op).
Proof.
  intros fs hs enums others refs A B C. rewrite operand_h_read in A. injection A as <- <-.
  rewrite helper_cpp_read in B. injection B as <- <-. rewrite table_h_read in C. injection C as <-.
  split; [exact references_length| ]. intros k line i K I. change (operand_functions ++ helper_functions) with functions.
  destruct (operands_run k line i K I) as (L & R). split; [exact L| ]. split; [exact R| ].
  apply (instruction_runs k); assumption.
Qed.
