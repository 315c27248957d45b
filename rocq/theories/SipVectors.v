(** Generated by tools/gen_sipvec.py: the test vectors of
    siphash/siphash_test.go evaluated on the model (these are tests of the
    transcription, not proofs). *)
From Coq Require Import ZArith.
From Verif Require Import Words SipModel SipAsmModel SipAsmProg.
Open Scope N_scope.

Definition vec_key : list N := map N.of_nat (seq 0 16).
Definition vec_k0 := le_load (firstn 8 vec_key).
Definition vec_k1 := le_load (skipn 8 vec_key).
Definition vec_in (i : nat) : list N := map N.of_nat (seq 0 i).

(** siphash_test.go:66-131 *)
Definition golden_ref : list (list N) := [
  [49; 14; 14; 221; 71; 219; 111; 114];
  [253; 103; 220; 147; 197; 57; 248; 116];
  [90; 79; 169; 217; 9; 128; 108; 13];
  [45; 126; 251; 215; 150; 102; 103; 133];
  [183; 135; 113; 39; 224; 148; 39; 207];
  [141; 166; 153; 205; 100; 85; 118; 24];
  [206; 227; 254; 88; 110; 70; 201; 203];
  [55; 209; 1; 139; 245; 0; 2; 171];
  [98; 36; 147; 154; 121; 245; 245; 147];
  [176; 228; 169; 11; 223; 130; 0; 158];
  [243; 185; 221; 148; 197; 187; 93; 122];
  [167; 173; 107; 34; 70; 47; 179; 244];
  [251; 229; 14; 134; 188; 143; 30; 117];
  [144; 61; 132; 192; 39; 86; 234; 20];
  [238; 242; 122; 142; 144; 202; 35; 247];
  [229; 69; 190; 73; 97; 202; 41; 161];
  [219; 155; 194; 87; 127; 204; 42; 63];
  [148; 71; 190; 44; 245; 233; 154; 105];
  [156; 211; 141; 150; 240; 179; 193; 75];
  [189; 97; 121; 167; 29; 201; 109; 187];
  [152; 238; 162; 26; 242; 92; 214; 190];
  [199; 103; 59; 46; 176; 203; 242; 208];
  [136; 62; 163; 227; 149; 103; 83; 147];
  [200; 206; 92; 205; 140; 3; 12; 168];
  [148; 175; 73; 246; 198; 80; 173; 184];
  [234; 184; 133; 138; 222; 146; 225; 188];
  [243; 21; 187; 91; 184; 53; 216; 23];
  [173; 207; 107; 7; 99; 97; 46; 47];
  [165; 201; 29; 167; 172; 170; 77; 222];
  [113; 101; 149; 135; 102; 80; 162; 166];
  [40; 239; 73; 92; 83; 163; 135; 173];
  [66; 195; 65; 216; 250; 146; 216; 50];
  [206; 124; 242; 114; 47; 81; 39; 113];
  [227; 120; 89; 249; 70; 35; 243; 167];
  [56; 18; 5; 187; 26; 176; 224; 18];
  [174; 151; 161; 15; 212; 52; 224; 21];
  [180; 163; 21; 8; 190; 255; 77; 49];
  [129; 57; 98; 41; 240; 144; 121; 2];
  [77; 12; 244; 158; 229; 212; 220; 202];
  [92; 115; 51; 106; 118; 216; 191; 154];
  [208; 167; 4; 83; 107; 169; 62; 14];
  [146; 89; 88; 252; 214; 66; 12; 173];
  [169; 21; 194; 155; 200; 6; 115; 24];
  [149; 43; 121; 243; 188; 10; 166; 212];
  [242; 29; 242; 228; 29; 69; 53; 249];
  [135; 87; 117; 25; 4; 143; 83; 169];
  [16; 165; 108; 245; 223; 205; 154; 219];
  [235; 117; 9; 92; 205; 152; 108; 208];
  [81; 169; 203; 158; 203; 163; 18; 230];
  [150; 175; 173; 252; 44; 230; 102; 199];
  [114; 254; 82; 151; 90; 67; 100; 238];
  [90; 22; 69; 178; 118; 213; 146; 161];
  [178; 116; 203; 142; 191; 135; 135; 10];
  [111; 155; 180; 32; 61; 231; 179; 129];
  [234; 236; 178; 163; 11; 34; 168; 127];
  [153; 36; 164; 60; 193; 49; 87; 36];
  [189; 131; 141; 58; 175; 191; 141; 183];
  [11; 26; 42; 50; 101; 213; 26; 234];
  [19; 80; 121; 163; 35; 28; 230; 96];
  [147; 43; 40; 70; 228; 215; 6; 102];
  [225; 145; 95; 92; 177; 236; 164; 108];
  [243; 37; 150; 92; 161; 109; 98; 159];
  [87; 95; 242; 142; 96; 56; 27; 229];
  [114; 69; 6; 235; 76; 50; 138; 149]].
(** siphash_test.go:133-198 *)
Definition golden_ref128 : list (list N) := [
  [163; 129; 127; 4; 186; 37; 168; 230; 109; 246; 114; 20; 199; 85; 2; 147];
  [218; 135; 193; 216; 107; 153; 175; 68; 52; 118; 89; 17; 155; 34; 252; 69];
  [129; 119; 34; 141; 164; 164; 93; 199; 252; 163; 139; 222; 246; 10; 255; 228];
  [156; 112; 182; 12; 82; 103; 169; 78; 95; 51; 182; 176; 41; 133; 237; 81];
  [248; 129; 100; 193; 45; 156; 143; 175; 125; 15; 110; 124; 123; 205; 85; 121];
  [19; 104; 135; 89; 128; 119; 111; 136; 84; 82; 122; 7; 105; 14; 150; 39];
  [20; 238; 202; 51; 139; 32; 134; 19; 72; 94; 160; 48; 143; 215; 161; 94];
  [161; 241; 235; 190; 216; 219; 193; 83; 192; 184; 74; 166; 31; 240; 130; 57];
  [59; 98; 169; 186; 98; 88; 245; 97; 15; 131; 226; 100; 243; 20; 151; 180];
  [38; 68; 153; 6; 10; 217; 186; 171; 196; 127; 139; 2; 187; 109; 113; 237];
  [0; 17; 13; 195; 120; 20; 105; 86; 201; 84; 71; 211; 243; 208; 251; 186];
  [1; 81; 197; 104; 56; 107; 102; 119; 162; 180; 220; 111; 129; 229; 220; 24];
  [214; 38; 178; 102; 144; 94; 243; 88; 130; 99; 77; 246; 133; 50; 193; 37];
  [152; 105; 226; 71; 233; 192; 139; 16; 208; 41; 147; 79; 196; 185; 82; 247];
  [49; 252; 239; 172; 102; 215; 222; 156; 126; 199; 72; 95; 228; 73; 73; 2];
  [84; 147; 233; 153; 51; 176; 168; 17; 126; 8; 236; 15; 151; 207; 195; 217];
  [110; 226; 164; 202; 103; 176; 84; 187; 253; 51; 21; 191; 133; 35; 5; 119];
  [71; 61; 6; 232; 115; 141; 184; 152; 84; 192; 102; 196; 122; 228; 119; 64];
  [164; 38; 229; 228; 35; 191; 72; 133; 41; 77; 164; 129; 254; 174; 247; 35];
  [120; 1; 119; 49; 207; 101; 250; 176; 116; 213; 32; 137; 82; 81; 46; 177];
  [158; 37; 252; 131; 63; 34; 144; 115; 62; 147; 68; 165; 232; 56; 57; 235];
  [86; 142; 73; 90; 190; 82; 90; 33; 138; 34; 20; 205; 62; 7; 29; 18];
  [74; 41; 181; 69; 82; 209; 107; 154; 70; 156; 16; 82; 142; 255; 10; 174];
  [201; 209; 132; 221; 213; 169; 245; 224; 207; 140; 226; 154; 154; 191; 105; 28];
  [45; 180; 121; 174; 120; 189; 80; 216; 136; 42; 138; 23; 138; 97; 50; 173];
  [142; 206; 95; 4; 45; 94; 68; 123; 80; 81; 185; 234; 203; 141; 143; 111];
  [156; 11; 83; 180; 179; 195; 7; 232; 126; 174; 224; 134; 120; 20; 31; 102];
  [171; 242; 72; 175; 105; 166; 234; 228; 191; 211; 235; 47; 18; 158; 235; 148];
  [6; 100; 218; 22; 104; 87; 75; 136; 185; 53; 243; 2; 115; 88; 174; 244];
  [170; 75; 157; 196; 191; 51; 125; 233; 12; 212; 253; 60; 70; 124; 106; 183];
  [234; 92; 127; 71; 31; 175; 107; 222; 43; 26; 215; 212; 104; 109; 34; 135];
  [41; 57; 176; 24; 50; 35; 250; 252; 23; 35; 222; 79; 82; 196; 61; 53];
  [124; 57; 86; 202; 94; 234; 252; 62; 54; 62; 157; 85; 101; 70; 235; 104];
  [119; 198; 7; 113; 70; 240; 28; 50; 182; 182; 157; 95; 78; 169; 255; 207];
  [55; 166; 152; 108; 184; 132; 126; 223; 9; 37; 240; 241; 48; 155; 84; 222];
  [167; 5; 240; 230; 157; 169; 168; 249; 7; 36; 26; 46; 146; 60; 140; 200];
  [61; 196; 125; 31; 41; 196; 72; 70; 30; 158; 118; 237; 144; 79; 103; 17];
  [13; 98; 191; 1; 230; 252; 14; 26; 13; 60; 71; 81; 197; 211; 105; 43];
  [140; 3; 70; 139; 202; 124; 102; 158; 228; 253; 94; 8; 75; 190; 231; 181];
  [82; 138; 91; 185; 59; 175; 44; 156; 68; 115; 204; 229; 208; 210; 43; 217];
  [223; 106; 48; 30; 149; 201; 93; 173; 151; 174; 12; 200; 198; 145; 59; 216];
  [128; 17; 137; 144; 44; 133; 127; 57; 231; 53; 145; 40; 94; 112; 182; 219];
  [230; 23; 52; 106; 201; 194; 49; 187; 54; 80; 174; 52; 204; 202; 12; 91];
  [39; 217; 52; 55; 239; 183; 33; 170; 64; 24; 33; 220; 236; 90; 223; 137];
  [137; 35; 125; 157; 237; 156; 94; 120; 216; 177; 201; 177; 102; 204; 115; 66];
  [74; 109; 128; 145; 191; 94; 125; 101; 17; 137; 250; 148; 162; 80; 177; 76];
  [14; 51; 249; 96; 85; 231; 174; 137; 63; 252; 14; 61; 207; 73; 41; 2];
  [230; 28; 67; 43; 114; 11; 25; 209; 142; 200; 216; 75; 220; 99; 21; 27];
  [247; 229; 174; 245; 73; 247; 130; 207; 55; 144; 85; 166; 8; 38; 155; 22];
  [67; 141; 3; 15; 208; 183; 165; 79; 168; 55; 242; 173; 32; 26; 100; 3];
  [165; 144; 211; 238; 79; 191; 4; 227; 36; 126; 13; 39; 242; 134; 66; 63];
  [95; 226; 193; 161; 114; 254; 147; 196; 177; 92; 211; 124; 174; 249; 245; 56];
  [44; 151; 50; 92; 189; 6; 179; 110; 178; 19; 61; 208; 139; 58; 1; 124];
  [146; 200; 20; 34; 122; 107; 202; 148; 159; 240; 101; 159; 0; 42; 211; 158];
  [220; 232; 80; 17; 11; 216; 50; 140; 251; 213; 8; 65; 214; 145; 29; 135];
  [103; 241; 73; 132; 199; 218; 121; 18; 72; 227; 43; 181; 146; 37; 131; 218];
  [25; 56; 242; 207; 114; 213; 78; 233; 126; 148; 22; 111; 169; 29; 42; 54];
  [116; 72; 30; 150; 70; 237; 73; 254; 15; 98; 36; 48; 22; 4; 105; 142];
  [87; 252; 165; 222; 152; 169; 214; 216; 0; 100; 56; 208; 88; 61; 138; 29];
  [159; 236; 222; 28; 239; 220; 28; 190; 212; 118; 54; 116; 217; 87; 83; 89];
  [227; 4; 12; 0; 235; 40; 241; 83; 102; 202; 115; 203; 216; 114; 231; 64];
  [118; 151; 0; 154; 106; 131; 29; 254; 204; 169; 28; 89; 147; 103; 15; 122];
  [88; 83; 84; 35; 33; 245; 103; 160; 5; 213; 71; 164; 240; 71; 89; 189];
  [81; 80; 209; 119; 47; 80; 131; 74; 80; 62; 6; 154; 151; 63; 189; 124]].

Example golden64 : map (fun i => le_store 8 (sip_hash vec_k0 vec_k1 (vec_in i))) (seq 0 64) = golden_ref.
Proof. vm_compute. reflexivity. Qed.
Example golden128 : map (fun i => let '(a, b) := sip_hash128 vec_k0 vec_k1 (vec_in i) in le_store 8 a ++ le_store 8 b)
  (seq 0 64) = golden_ref128.
Proof. vm_compute. reflexivity. Qed.
Example golden64_asm : map (fun i => option_map (fun o => le_store 8 (hd 0 o))
    (mrun 2000 (Call vec_k0 vec_k1 4096 (vec_in i)) asm_hash_prog (entry (repeat 77 10)))) (seq 0 64)
  = map Some golden_ref.
Proof. vm_compute. reflexivity. Qed.
Example golden_digest : map (fun i => option_map (fun d => sip_sum (sip_write_d (sip_write_d d (firstn 5 (vec_in i))) (skipn 5 (vec_in i))) [])
    (sip_new vec_key)) (seq 0 64) = map Some golden_ref.
Proof. vm_compute. reflexivity. Qed.
(** siphash_test.go:17-52 *)
Example golden_misc :
  sip_hash 0 0 [72; 101; 108; 108; 111; 32; 119; 111; 114; 108; 100] = 0xc9e8a3021f3822d9 /\
  sip_hash 0 0 [] = 0x1e924b9d737700d7 /\
  sip_hash 0 0 [49;50;51;52;53;54;55;56;49;50;51] = 0xf95d77ccdb0649f /\
  sip_hash 0 0 (repeat 0 8) = 0xe849e8bb6ffe2567 /\
  sip_hash 0 0 (repeat 0 1535) = 0xe74d1c0ab64b2afa.
Proof. vm_compute. auto. Qed.
(** siphashpg/siphash_test.go uses the same table. *)
Example golden_pg : map (fun i => option_map (fun r => le_store 8 (fst r)) (pg_siphash (vec_in i) vec_key 2%Z 4%Z false)) (seq 0 64)
  = map Some golden_ref.
Proof. vm_compute. reflexivity. Qed.
