(** Test vectors of keccakpg/keccak_test.go and keccak_vectors_test.go, evaluated on the
    model: evidence that the model was transcribed faithfully. *)
From Coq Require Import NArith ZArith List.
From Verif Require Import Words Mem KeccakModel.
Import ListNotations.
Open Scope N_scope.

Definition digest (bits : Z) (m : list N) : res (list N) :=
  let h := [m] in
  ' (h, k, _) <~ Write (fun _ n => n) (S (length m)) h (newKeccak bits stdRounds) (mkSlice 0 0 (length m) (length m)) ;;
  ' (h, s) <~ Sum (fun _ n => n) h k nil_slice ;; Ok (read h s).
Definition check (v : Z * list N * list N) : bool :=
  let '(bits, m, d) := v in match digest bits m with Ok x => if list_eq_dec N.eq_dec x d then true else false | _ => false end.
Definition vectors : list (Z * list N * list N) := [
  (224%Z, [],
   [247; 24; 55; 80; 43; 168; 225; 8; 55; 189; 216; 211; 101; 173; 184; 85; 145; 137; 86; 2; 252; 85; 43; 72; 183; 57; 10; 189]);
  (224%Z, [75; 101; 99; 99; 97; 107; 45; 50; 50; 52; 32; 84; 101; 115; 116; 32; 72; 97; 115; 104],
   [48; 4; 91; 52; 148; 110; 27; 46; 9; 22; 19; 54; 47; 210; 42; 160; 142; 43; 234; 254; 197; 232; 218; 238; 66; 194; 230; 101]);
  (256%Z, [],
   [197; 210; 70; 1; 134; 247; 35; 60; 146; 126; 125; 178; 220; 199; 3; 192; 229; 0; 182; 83; 202; 130; 39; 59; 123; 250; 216; 4; 93; 133; 164; 112]);
  (256%Z, [75; 101; 99; 99; 97; 107; 45; 50; 53; 54; 32; 84; 101; 115; 116; 32; 72; 97; 115; 104],
   [168; 215; 27; 7; 244; 175; 38; 164; 255; 33; 2; 127; 98; 255; 96; 38; 127; 249; 85; 201; 99; 240; 66; 196; 109; 165; 46; 227; 207; 175; 61; 60]);
  (384%Z, [],
   [44; 35; 20; 106; 99; 162; 154; 207; 153; 231; 59; 136; 248; 194; 78; 170; 125; 198; 10; 167; 113; 120; 12; 204; 0; 106; 251; 250; 143; 226; 71; 155; 45; 210; 178; 19; 98; 51; 116; 65; 172; 18; 181; 21; 145; 25; 87; 255]);
  (384%Z, [75; 101; 99; 99; 97; 107; 45; 51; 56; 52; 32; 84; 101; 115; 116; 32; 72; 97; 115; 104],
   [226; 19; 253; 116; 175; 12; 95; 249; 27; 66; 60; 139; 206; 236; 215; 1; 248; 221; 100; 236; 24; 253; 111; 146; 96; 252; 158; 193; 237; 189; 34; 48; 166; 144; 134; 101; 188; 217; 251; 244; 26; 153; 161; 138; 125; 158; 68; 110]);
  (512%Z, [],
   [14; 171; 66; 222; 76; 60; 235; 146; 53; 252; 145; 172; 255; 231; 70; 178; 156; 41; 168; 195; 102; 183; 198; 14; 78; 103; 196; 102; 243; 106; 67; 4; 192; 15; 169; 202; 249; 216; 121; 118; 186; 70; 155; 203; 224; 103; 19; 180; 53; 240; 145; 239; 39; 105; 251; 22; 12; 218; 179; 61; 54; 112; 104; 14]);
  (512%Z, [75; 101; 99; 99; 97; 107; 45; 53; 49; 50; 32; 84; 101; 115; 116; 32; 72; 97; 115; 104],
   [150; 238; 71; 24; 220; 186; 60; 116; 97; 155; 161; 250; 127; 87; 223; 231; 118; 157; 63; 102; 152; 168; 179; 63; 161; 1; 131; 137; 112; 161; 49; 230; 33; 204; 253; 5; 254; 255; 188; 17; 128; 242; 99; 194; 127; 26; 218; 180; 96; 149; 214; 241; 37; 51; 20; 114; 75; 92; 191; 120; 40; 101; 142; 106]);
  (224%Z, [204],
   [169; 202; 181; 158; 180; 10; 16; 178; 70; 41; 15; 45; 96; 134; 227; 46; 54; 137; 250; 241; 210; 107; 71; 12; 137; 159; 40; 2]);
  (256%Z, [204],
   [238; 173; 109; 191; 199; 52; 10; 86; 202; 237; 192; 68; 105; 106; 22; 136; 112; 84; 154; 106; 127; 111; 86; 150; 30; 132; 165; 75; 217; 151; 11; 138]);
  (384%Z, [204],
   [27; 132; 230; 42; 70; 229; 162; 1; 134; 23; 84; 175; 93; 201; 92; 74; 26; 105; 202; 244; 167; 150; 174; 64; 86; 128; 22; 30; 41; 87; 38; 65; 245; 250; 30; 134; 65; 215; 149; 131; 54; 238; 123; 17; 197; 143; 115; 233]);
  (512%Z, [204],
   [134; 48; 193; 60; 189; 6; 110; 167; 75; 190; 127; 228; 104; 254; 193; 222; 225; 14; 220; 18; 84; 251; 76; 27; 124; 95; 214; 155; 100; 110; 68; 22; 11; 140; 224; 29; 5; 160; 144; 140; 167; 144; 223; 176; 128; 244; 181; 19; 188; 59; 98; 37; 236; 231; 168; 16; 55; 20; 65; 165; 172; 102; 110; 185]);
  (224%Z, [167; 70; 39; 50; 40; 18; 47; 56; 28; 59; 70; 228; 241],
   [241; 34; 190; 57; 201; 26; 108; 23; 205; 89; 0; 245; 49; 230; 128; 213; 76; 237; 239; 212; 240; 227; 209; 19; 210; 101; 67; 212]);
  (256%Z, [167; 70; 39; 50; 40; 18; 47; 56; 28; 59; 70; 228; 241],
   [50; 33; 90; 232; 130; 4; 167; 130; 182; 45; 24; 16; 217; 69; 222; 73; 148; 141; 228; 88; 96; 15; 94; 30; 56; 150; 206; 202; 46; 211; 41; 43]);
  (384%Z, [167; 70; 39; 50; 40; 18; 47; 56; 28; 59; 70; 228; 241],
   [61; 165; 73; 118; 178; 145; 223; 119; 241; 11; 249; 94; 155; 126; 249; 251; 47; 136; 222; 7; 93; 223; 102; 80; 186; 120; 133; 144; 244; 226; 227; 200; 48; 211; 183; 223; 192; 25; 54; 86; 176; 161; 133; 227; 170; 217; 170; 90]);
  (512%Z, [167; 70; 39; 50; 40; 18; 47; 56; 28; 59; 70; 228; 241],
   [155; 83; 180; 16; 185; 245; 220; 233; 10; 119; 36; 77; 180; 7; 163; 208; 244; 137; 141; 17; 45; 0; 68; 168; 246; 106; 249; 51; 226; 102; 102; 222; 99; 235; 210; 164; 50; 45; 143; 229; 37; 171; 53; 76; 233; 103; 107; 106; 20; 208; 206; 107; 61; 36; 230; 205; 88; 50; 190; 160; 197; 21; 60; 239]);
  (224%Z, [170; 253; 201; 36; 61; 61; 74; 9; 101; 88; 163; 96; 204; 39; 200; 216; 98; 240; 190; 115; 219; 94; 136; 170; 85],
   [28; 30; 117; 141; 135; 57; 154; 54; 191; 124; 138; 46; 106; 85; 206; 106; 79; 12; 73; 135; 55; 149; 105; 89; 149; 159; 210; 172]);
  (256%Z, [170; 253; 201; 36; 61; 61; 74; 9; 101; 88; 163; 96; 204; 39; 200; 216; 98; 240; 190; 115; 219; 94; 136; 170; 85],
   [111; 255; 160; 112; 184; 101; 190; 62; 231; 102; 220; 45; 180; 155; 106; 165; 92; 54; 159; 125; 227; 112; 58; 218; 38; 18; 215; 84; 20; 92; 1; 230]);
  (384%Z, [170; 253; 201; 36; 61; 61; 74; 9; 101; 88; 163; 96; 204; 39; 200; 216; 98; 240; 190; 115; 219; 94; 136; 170; 85],
   [4; 53; 229; 76; 1; 108; 7; 145; 103; 125; 219; 198; 186; 221; 85; 209; 70; 117; 66; 150; 179; 17; 50; 176; 177; 192; 181; 206; 74; 237; 176; 58; 234; 169; 162; 220; 81; 87; 215; 175; 32; 184; 227; 109; 117; 225; 204; 0]);
  (512%Z, [170; 253; 201; 36; 61; 61; 74; 9; 101; 88; 163; 96; 204; 39; 200; 216; 98; 240; 190; 115; 219; 94; 136; 170; 85],
   [71; 11; 221; 141; 112; 152; 117; 200; 230; 248; 133; 145; 185; 125; 100; 134; 197; 240; 59; 84; 191; 201; 5; 117; 116; 131; 224; 19; 246; 58; 108; 86; 152; 77; 69; 24; 212; 92; 45; 34; 152; 234; 219; 68; 175; 58; 12; 53; 167; 107; 87; 61; 69; 47; 87; 71; 132; 77; 58; 216; 248; 74; 46; 133]);
  (224%Z, [81; 42; 109; 41; 46; 103; 236; 178; 254; 72; 107; 254; 146; 102; 9; 83; 167; 84; 132; 255; 76; 79; 46; 202; 43; 10; 240; 237; 205; 212; 51; 156; 107; 46; 228; 229; 66],
   [53; 241; 171; 18; 99; 33; 31; 115; 141; 63; 151; 208; 228; 132; 12; 56; 126; 9; 54; 159; 35; 191; 146; 57; 21; 13; 3; 6]);
  (256%Z, [81; 42; 109; 41; 46; 103; 236; 178; 254; 72; 107; 254; 146; 102; 9; 83; 167; 84; 132; 255; 76; 79; 46; 202; 43; 10; 240; 237; 205; 212; 51; 156; 107; 46; 228; 229; 66],
   [154; 12; 29; 80; 165; 157; 191; 101; 127; 103; 19; 199; 149; 237; 20; 225; 242; 59; 78; 170; 19; 124; 85; 64; 170; 205; 176; 167; 227; 44; 41; 252]);
  (384%Z, [81; 42; 109; 41; 46; 103; 236; 178; 254; 72; 107; 254; 146; 102; 9; 83; 167; 84; 132; 255; 76; 79; 46; 202; 43; 10; 240; 237; 205; 212; 51; 156; 107; 46; 228; 229; 66],
   [199; 61; 24; 222; 7; 166; 90; 204; 126; 45; 139; 42; 81; 0; 42; 226; 140; 188; 75; 10; 110; 231; 248; 26; 107; 72; 63; 129; 166; 223; 143; 246; 179; 63; 99; 42; 110; 99; 18; 136; 140; 167; 20; 130; 28; 11; 19; 223]);
  (512%Z, [81; 42; 109; 41; 46; 103; 236; 178; 254; 72; 107; 254; 146; 102; 9; 83; 167; 84; 132; 255; 76; 79; 46; 202; 43; 10; 240; 237; 205; 212; 51; 156; 107; 46; 228; 229; 66],
   [18; 223; 146; 216; 137; 215; 186; 13; 240; 91; 205; 2; 217; 222; 88; 201; 127; 72; 19; 18; 105; 103; 255; 120; 189; 247; 89; 198; 108; 76; 190; 157; 246; 138; 179; 26; 2; 86; 199; 118; 115; 11; 178; 93; 238; 207; 145; 240; 153; 120; 104; 172; 139; 184; 109; 247; 160; 252; 17; 12; 176; 164; 222; 93]);
  (224%Z, [190; 150; 132; 190; 112; 52; 8; 96; 55; 60; 156; 72; 43; 165; 23; 232; 153; 252; 129; 186; 170; 18; 229; 198; 215; 114; 121; 117; 209; 212; 27; 168; 190; 247; 136; 205; 181; 207; 70; 6; 201; 193; 199; 246; 26; 237; 89; 249; 125],
   [4; 128; 239; 133; 25; 195; 47; 137; 198; 91; 141; 212; 80; 2; 94; 196; 156; 189; 173; 166; 196; 207; 207; 198; 251; 79; 28; 97]);
  (256%Z, [190; 150; 132; 190; 112; 52; 8; 96; 55; 60; 156; 72; 43; 165; 23; 232; 153; 252; 129; 186; 170; 18; 229; 198; 215; 114; 121; 117; 209; 212; 27; 168; 190; 247; 136; 205; 181; 207; 70; 6; 201; 193; 199; 246; 26; 237; 89; 249; 125],
   [177; 249; 144; 32; 75; 246; 48; 86; 154; 62; 220; 99; 72; 100; 39; 71; 134; 244; 12; 225; 197; 113; 101; 238; 50; 208; 226; 159; 93; 12; 104; 81]);
  (384%Z, [190; 150; 132; 190; 112; 52; 8; 96; 55; 60; 156; 72; 43; 165; 23; 232; 153; 252; 129; 186; 170; 18; 229; 198; 215; 114; 121; 117; 209; 212; 27; 168; 190; 247; 136; 205; 181; 207; 70; 6; 201; 193; 199; 246; 26; 237; 89; 249; 125],
   [182; 157; 64; 169; 2; 7; 237; 178; 12; 0; 104; 244; 2; 0; 140; 14; 100; 48; 11; 137; 161; 182; 175; 121; 48; 112; 139; 38; 60; 121; 10; 8; 127; 58; 219; 180; 200; 66; 149; 210; 51; 146; 224; 105; 47; 53; 189; 188]);
  (512%Z, [190; 150; 132; 190; 112; 52; 8; 96; 55; 60; 156; 72; 43; 165; 23; 232; 153; 252; 129; 186; 170; 18; 229; 198; 215; 114; 121; 117; 209; 212; 27; 168; 190; 247; 136; 205; 181; 207; 70; 6; 201; 193; 199; 246; 26; 237; 89; 249; 125],
   [101; 144; 255; 251; 115; 17; 171; 125; 171; 55; 15; 181; 24; 204; 193; 155; 170; 154; 247; 200; 65; 121; 173; 176; 2; 248; 250; 205; 60; 68; 175; 40; 48; 168; 77; 241; 226; 194; 64; 35; 104; 204; 54; 97; 74; 110; 162; 41; 3; 6; 62; 87; 208; 14; 197; 17; 164; 106; 154; 3; 254; 56; 25; 247]);
  (224%Z, [149; 209; 71; 74; 90; 171; 93; 36; 34; 172; 166; 228; 129; 24; 120; 51; 166; 33; 43; 210; 208; 249; 20; 81; 166; 125; 215; 134; 223; 201; 29; 254; 213; 27; 53; 244; 126; 29; 235; 138; 138; 180; 185; 203; 103; 183; 1; 121; 204; 38; 245; 83; 174; 123; 86; 153; 105; 206; 21; 27; 141],
   [123; 186; 192; 192; 241; 146; 210; 196; 121; 52; 131; 88; 210; 36; 126; 76; 8; 150; 106; 81; 47; 115; 212; 4; 69; 181; 46; 199]);
  (256%Z, [149; 209; 71; 74; 90; 171; 93; 36; 34; 172; 166; 228; 129; 24; 120; 51; 166; 33; 43; 210; 208; 249; 20; 81; 166; 125; 215; 134; 223; 201; 29; 254; 213; 27; 53; 244; 126; 29; 235; 138; 138; 180; 185; 203; 103; 183; 1; 121; 204; 38; 245; 83; 174; 123; 86; 153; 105; 206; 21; 27; 141],
   [109; 167; 51; 129; 125; 200; 38; 232; 218; 119; 59; 236; 167; 51; 129; 49; 171; 115; 150; 65; 113; 4; 237; 162; 89; 112; 152; 12; 78; 178; 161; 95]);
  (384%Z, [149; 209; 71; 74; 90; 171; 93; 36; 34; 172; 166; 228; 129; 24; 120; 51; 166; 33; 43; 210; 208; 249; 20; 81; 166; 125; 215; 134; 223; 201; 29; 254; 213; 27; 53; 244; 126; 29; 235; 138; 138; 180; 185; 203; 103; 183; 1; 121; 204; 38; 245; 83; 174; 123; 86; 153; 105; 206; 21; 27; 141],
   [252; 97; 156; 169; 129; 12; 170; 227; 99; 155; 63; 198; 97; 56; 140; 69; 65; 103; 39; 30; 101; 237; 10; 46; 94; 139; 199; 24; 173; 33; 185; 237; 232; 149; 166; 88; 201; 70; 220; 47; 177; 91; 51; 53; 77; 254; 64; 42]);
  (512%Z, [149; 209; 71; 74; 90; 171; 93; 36; 34; 172; 166; 228; 129; 24; 120; 51; 166; 33; 43; 210; 208; 249; 20; 81; 166; 125; 215; 134; 223; 201; 29; 254; 213; 27; 53; 244; 126; 29; 235; 138; 138; 180; 185; 203; 103; 183; 1; 121; 204; 38; 245; 83; 174; 123; 86; 153; 105; 206; 21; 27; 141],
   [158; 191; 206; 162; 219; 22; 118; 238; 230; 177; 3; 17; 149; 67; 198; 4; 157; 235; 216; 251; 143; 30; 1; 165; 171; 91; 52; 142; 41; 25; 225; 76; 140; 254; 142; 84; 47; 42; 183; 71; 176; 253; 74; 76; 62; 238; 64; 25; 187; 4; 110; 36; 191; 226; 9; 31; 185; 198; 93; 202; 82; 123; 113; 173]);
  (224%Z, [19; 189; 40; 17; 246; 237; 43; 111; 4; 255; 56; 149; 172; 238; 215; 190; 248; 220; 212; 94; 177; 33; 121; 27; 193; 148; 160; 248; 6; 32; 107; 255; 195; 185; 40; 28; 43; 48; 139; 26; 114; 156; 224; 8; 17; 157; 211; 6; 110; 147; 120; 172; 220; 197; 10; 152; 168; 46; 32; 115; 136; 0; 182; 205; 219; 229; 254; 150; 148; 173; 109],
   [138; 42; 230; 185; 170; 123; 30; 8; 248; 199; 220; 59; 245; 174; 135; 102; 96; 211; 15; 121; 57; 23; 20; 161; 117; 56; 16; 145]);
  (256%Z, [19; 189; 40; 17; 246; 237; 43; 111; 4; 255; 56; 149; 172; 238; 215; 190; 248; 220; 212; 94; 177; 33; 121; 27; 193; 148; 160; 248; 6; 32; 107; 255; 195; 185; 40; 28; 43; 48; 139; 26; 114; 156; 224; 8; 17; 157; 211; 6; 110; 147; 120; 172; 220; 197; 10; 152; 168; 46; 32; 115; 136; 0; 182; 205; 219; 229; 254; 150; 148; 173; 109],
   [106; 118; 159; 147; 242; 85; 176; 120; 254; 115; 175; 246; 143; 4; 34; 162; 121; 147; 153; 32; 228; 105; 11; 74; 255; 14; 67; 60; 250; 61; 61; 243]);
  (384%Z, [19; 189; 40; 17; 246; 237; 43; 111; 4; 255; 56; 149; 172; 238; 215; 190; 248; 220; 212; 94; 177; 33; 121; 27; 193; 148; 160; 248; 6; 32; 107; 255; 195; 185; 40; 28; 43; 48; 139; 26; 114; 156; 224; 8; 17; 157; 211; 6; 110; 147; 120; 172; 220; 197; 10; 152; 168; 46; 32; 115; 136; 0; 182; 205; 219; 229; 254; 150; 148; 173; 109],
   [177; 21; 169; 150; 139; 5; 76; 147; 76; 57; 109; 129; 136; 186; 12; 51; 162; 60; 113; 137; 206; 136; 177; 222; 74; 6; 205; 49; 151; 146; 210; 134; 71; 234; 225; 216; 143; 176; 184; 116; 67; 228; 98; 146; 165; 198; 69; 232]);
  (512%Z, [19; 189; 40; 17; 246; 237; 43; 111; 4; 255; 56; 149; 172; 238; 215; 190; 248; 220; 212; 94; 177; 33; 121; 27; 193; 148; 160; 248; 6; 32; 107; 255; 195; 185; 40; 28; 43; 48; 139; 26; 114; 156; 224; 8; 17; 157; 211; 6; 110; 147; 120; 172; 220; 197; 10; 152; 168; 46; 32; 115; 136; 0; 182; 205; 219; 229; 254; 150; 148; 173; 109],
   [72; 252; 40; 47; 55; 163; 225; 251; 93; 244; 210; 218; 31; 113; 151; 236; 137; 154; 229; 115; 202; 8; 223; 85; 14; 97; 238; 132; 126; 235; 29; 36; 192; 116; 255; 70; 188; 174; 226; 36; 236; 125; 140; 234; 66; 86; 21; 79; 12; 77; 67; 78; 104; 40; 52; 246; 216; 39; 191; 189; 247; 81; 18; 245]);
  (224%Z, [30; 237; 156; 186; 23; 154; 0; 158; 194; 236; 85; 8; 119; 61; 211; 5; 71; 124; 161; 23; 230; 213; 105; 230; 107; 95; 100; 198; 188; 100; 128; 28; 226; 90; 132; 36; 206; 74; 38; 213; 117; 184; 166; 251; 16; 234; 211; 253; 25; 146; 237; 221; 238; 194; 235; 231; 21; 13; 201; 143; 99; 173; 195; 35; 126; 245; 123; 145; 57; 122; 168; 167],
   [112; 43; 25; 6; 166; 61; 15; 146; 74; 254; 195; 187; 94; 92; 87; 66; 232; 95; 152; 52; 234; 111; 83; 6; 100; 72; 17; 161]);
  (256%Z, [30; 237; 156; 186; 23; 154; 0; 158; 194; 236; 85; 8; 119; 61; 211; 5; 71; 124; 161; 23; 230; 213; 105; 230; 107; 95; 100; 198; 188; 100; 128; 28; 226; 90; 132; 36; 206; 74; 38; 213; 117; 184; 166; 251; 16; 234; 211; 253; 25; 146; 237; 221; 238; 194; 235; 231; 21; 13; 201; 143; 99; 173; 195; 35; 126; 245; 123; 145; 57; 122; 168; 167],
   [192; 109; 212; 38; 22; 56; 196; 74; 252; 177; 134; 240; 175; 93; 226; 14; 165; 58; 166; 51; 22; 251; 183; 23; 40; 248; 116; 255; 61; 172; 235; 13]);
  (384%Z, [30; 237; 156; 186; 23; 154; 0; 158; 194; 236; 85; 8; 119; 61; 211; 5; 71; 124; 161; 23; 230; 213; 105; 230; 107; 95; 100; 198; 188; 100; 128; 28; 226; 90; 132; 36; 206; 74; 38; 213; 117; 184; 166; 251; 16; 234; 211; 253; 25; 146; 237; 221; 238; 194; 235; 231; 21; 13; 201; 143; 99; 173; 195; 35; 126; 245; 123; 145; 57; 122; 168; 167],
   [200; 250; 239; 117; 126; 109; 123; 10; 244; 109; 161; 229; 124; 113; 171; 180; 170; 247; 204; 145; 197; 205; 195; 59; 168; 167; 56; 23; 43; 149; 222; 8; 126; 196; 201; 38; 146; 203; 64; 238; 55; 135; 188; 227; 32; 111; 183; 234]);
  (512%Z, [30; 237; 156; 186; 23; 154; 0; 158; 194; 236; 85; 8; 119; 61; 211; 5; 71; 124; 161; 23; 230; 213; 105; 230; 107; 95; 100; 198; 188; 100; 128; 28; 226; 90; 132; 36; 206; 74; 38; 213; 117; 184; 166; 251; 16; 234; 211; 253; 25; 146; 237; 221; 238; 194; 235; 231; 21; 13; 201; 143; 99; 173; 195; 35; 126; 245; 123; 145; 57; 122; 168; 167],
   [107; 75; 15; 18; 104; 99; 85; 42; 111; 64; 244; 94; 41; 93; 199; 155; 155; 162; 168; 142; 167; 195; 178; 246; 7; 172; 26; 132; 49; 169; 120; 68; 194; 167; 182; 100; 68; 63; 178; 60; 5; 115; 157; 245; 73; 79; 233; 130; 77; 184; 11; 127; 62; 103; 135; 33; 66; 241; 126; 44; 85; 68; 225; 239]);
  (224%Z, [186; 91; 103; 181; 236; 58; 63; 250; 226; 193; 157; 216; 23; 106; 46; 247; 92; 12; 217; 3; 114; 93; 69; 201; 203; 112; 9; 169; 0; 192; 176; 202; 122; 41; 103; 169; 90; 230; 130; 105; 166; 219; 248; 70; 108; 123; 104; 68; 161; 214; 8; 172; 102; 31; 126; 255; 0; 83; 142; 50; 61; 181; 242; 198; 68; 183; 139; 45; 72; 222; 26; 8; 170],
   [191; 33; 1; 81; 18; 32; 183; 223; 229; 75; 18; 124; 36; 118; 234; 173; 253; 78; 171; 127; 208; 246; 189; 209; 147; 7; 138; 200]);
  (256%Z, [186; 91; 103; 181; 236; 58; 63; 250; 226; 193; 157; 216; 23; 106; 46; 247; 92; 12; 217; 3; 114; 93; 69; 201; 203; 112; 9; 169; 0; 192; 176; 202; 122; 41; 103; 169; 90; 230; 130; 105; 166; 219; 248; 70; 108; 123; 104; 68; 161; 214; 8; 172; 102; 31; 126; 255; 0; 83; 142; 50; 61; 181; 242; 198; 68; 183; 139; 45; 72; 222; 26; 8; 170],
   [181; 216; 75; 24; 9; 232; 59; 94; 117; 170; 83; 189; 238; 121; 227; 169; 127; 63; 227; 167; 211; 22; 46; 189; 73; 8; 36; 15; 246; 145; 49; 216]);
  (384%Z, [186; 91; 103; 181; 236; 58; 63; 250; 226; 193; 157; 216; 23; 106; 46; 247; 92; 12; 217; 3; 114; 93; 69; 201; 203; 112; 9; 169; 0; 192; 176; 202; 122; 41; 103; 169; 90; 230; 130; 105; 166; 219; 248; 70; 108; 123; 104; 68; 161; 214; 8; 172; 102; 31; 126; 255; 0; 83; 142; 50; 61; 181; 242; 198; 68; 183; 139; 45; 72; 222; 26; 8; 170],
   [244; 242; 27; 183; 69; 147; 170; 16; 125; 193; 149; 255; 82; 163; 249; 8; 22; 204; 234; 232; 211; 235; 157; 69; 119; 178; 139; 73; 195; 57; 131; 122; 82; 112; 10; 98; 235; 66; 30; 140; 161; 200; 127; 69; 99; 16; 246; 44]);
  (512%Z, [186; 91; 103; 181; 236; 58; 63; 250; 226; 193; 157; 216; 23; 106; 46; 247; 92; 12; 217; 3; 114; 93; 69; 201; 203; 112; 9; 169; 0; 192; 176; 202; 122; 41; 103; 169; 90; 230; 130; 105; 166; 219; 248; 70; 108; 123; 104; 68; 161; 214; 8; 172; 102; 31; 126; 255; 0; 83; 142; 50; 61; 181; 242; 198; 68; 183; 139; 45; 72; 222; 26; 8; 170],
   [126; 236; 123; 115; 0; 86; 177; 189; 79; 111; 252; 24; 111; 180; 85; 145; 229; 12; 217; 60; 246; 228; 252; 149; 136; 137; 248; 45; 63; 50; 197; 199; 77; 3; 164; 188; 247; 210; 117; 66; 152; 241; 52; 105; 138; 244; 85; 155; 14; 41; 186; 170; 54; 92; 192; 13; 176; 213; 29; 64; 113; 121; 197; 109]);
  (224%Z, [8; 70; 31; 0; 108; 255; 76; 198; 75; 117; 44; 149; 114; 135; 229; 160; 250; 171; 192; 92; 155; 255; 137; 210; 63; 217; 2; 211; 36; 199; 153; 3; 180; 143; 203; 143; 143; 75; 1; 243; 228; 221; 180; 131; 89; 61; 37; 240; 0; 56; 102; 152; 245; 173; 231; 250; 173; 233; 97; 95; 220; 80; 211; 39; 133; 234; 81; 212; 152; 148; 228; 91; 170; 61; 199; 7; 226; 36; 104; 140; 100; 8; 182; 139; 17],
   [90; 138; 199; 83; 62; 19; 84; 6; 139; 86; 76; 205; 33; 78; 178; 162; 224; 151; 221; 96; 224; 139; 214; 159; 199; 130; 176; 175]);
  (256%Z, [8; 70; 31; 0; 108; 255; 76; 198; 75; 117; 44; 149; 114; 135; 229; 160; 250; 171; 192; 92; 155; 255; 137; 210; 63; 217; 2; 211; 36; 199; 153; 3; 180; 143; 203; 143; 143; 75; 1; 243; 228; 221; 180; 131; 89; 61; 37; 240; 0; 56; 102; 152; 245; 173; 231; 250; 173; 233; 97; 95; 220; 80; 211; 39; 133; 234; 81; 212; 152; 148; 228; 91; 170; 61; 199; 7; 226; 36; 104; 140; 100; 8; 182; 139; 17],
   [126; 115; 142; 142; 179; 212; 125; 24; 233; 125; 135; 199; 179; 252; 104; 31; 134; 65; 120; 131; 206; 217; 43; 169; 60; 48; 119; 129; 43; 189; 23; 231]);
  (384%Z, [8; 70; 31; 0; 108; 255; 76; 198; 75; 117; 44; 149; 114; 135; 229; 160; 250; 171; 192; 92; 155; 255; 137; 210; 63; 217; 2; 211; 36; 199; 153; 3; 180; 143; 203; 143; 143; 75; 1; 243; 228; 221; 180; 131; 89; 61; 37; 240; 0; 56; 102; 152; 245; 173; 231; 250; 173; 233; 97; 95; 220; 80; 211; 39; 133; 234; 81; 212; 152; 148; 228; 91; 170; 61; 199; 7; 226; 36; 104; 140; 100; 8; 182; 139; 17],
   [128; 118; 63; 181; 70; 136; 241; 34; 38; 148; 48; 152; 10; 163; 171; 224; 144; 145; 2; 11; 140; 250; 107; 222; 14; 220; 44; 99; 174; 216; 184; 186; 9; 124; 219; 121; 184; 252; 127; 81; 23; 80; 143; 202; 72; 100; 161; 77]);
  (512%Z, [8; 70; 31; 0; 108; 255; 76; 198; 75; 117; 44; 149; 114; 135; 229; 160; 250; 171; 192; 92; 155; 255; 137; 210; 63; 217; 2; 211; 36; 199; 153; 3; 180; 143; 203; 143; 143; 75; 1; 243; 228; 221; 180; 131; 89; 61; 37; 240; 0; 56; 102; 152; 245; 173; 231; 250; 173; 233; 97; 95; 220; 80; 211; 39; 133; 234; 81; 212; 152; 148; 228; 91; 170; 61; 199; 7; 226; 36; 104; 140; 100; 8; 182; 139; 17],
   [19; 19; 2; 59; 117; 62; 209; 114; 127; 19; 204; 103; 166; 75; 152; 154; 139; 246; 84; 131; 36; 223; 152; 84; 216; 213; 169; 99; 237; 61; 134; 2; 87; 254; 101; 34; 185; 198; 214; 203; 27; 202; 223; 50; 44; 152; 86; 1; 186; 54; 247; 230; 113; 16; 25; 32; 148; 170; 143; 152; 105; 164; 88; 168]);
  (224%Z, [56; 161; 10; 53; 44; 165; 174; 223; 168; 225; 156; 100; 120; 125; 142; 156; 58; 117; 219; 243; 184; 103; 75; 250; 178; 155; 93; 191; 193; 90; 99; 209; 15; 174; 102; 205; 26; 110; 109; 36; 82; 213; 87; 150; 126; 170; 216; 154; 76; 152; 68; 151; 135; 176; 179; 22; 76; 165; 183; 23; 169; 63; 36; 235; 11; 80; 108; 235; 112; 203; 188; 184; 215; 43; 42; 114; 153; 63; 144; 154; 173; 146; 240; 68; 224; 181; 162; 201; 172; 156; 177; 106; 12; 162; 248; 31; 73],
   [235; 230; 214; 30; 138; 148; 110; 13; 69; 211; 136; 159; 158; 54; 10; 205; 58; 26; 125; 108; 75; 19; 7; 68; 142; 110; 115; 87]);
  (256%Z, [56; 161; 10; 53; 44; 165; 174; 223; 168; 225; 156; 100; 120; 125; 142; 156; 58; 117; 219; 243; 184; 103; 75; 250; 178; 155; 93; 191; 193; 90; 99; 209; 15; 174; 102; 205; 26; 110; 109; 36; 82; 213; 87; 150; 126; 170; 216; 154; 76; 152; 68; 151; 135; 176; 179; 22; 76; 165; 183; 23; 169; 63; 36; 235; 11; 80; 108; 235; 112; 203; 188; 184; 215; 43; 42; 114; 153; 63; 144; 154; 173; 146; 240; 68; 224; 181; 162; 201; 172; 156; 177; 106; 12; 162; 248; 31; 73],
   [149; 95; 31; 126; 78; 84; 102; 11; 38; 243; 0; 134; 242; 221; 218; 237; 211; 40; 19; 84; 124; 27; 149; 211; 5; 216; 130; 104; 43; 79; 247; 160]);
  (384%Z, [56; 161; 10; 53; 44; 165; 174; 223; 168; 225; 156; 100; 120; 125; 142; 156; 58; 117; 219; 243; 184; 103; 75; 250; 178; 155; 93; 191; 193; 90; 99; 209; 15; 174; 102; 205; 26; 110; 109; 36; 82; 213; 87; 150; 126; 170; 216; 154; 76; 152; 68; 151; 135; 176; 179; 22; 76; 165; 183; 23; 169; 63; 36; 235; 11; 80; 108; 235; 112; 203; 188; 184; 215; 43; 42; 114; 153; 63; 144; 154; 173; 146; 240; 68; 224; 181; 162; 201; 172; 156; 177; 106; 12; 162; 248; 31; 73],
   [70; 248; 123; 192; 120; 73; 233; 81; 4; 230; 124; 195; 220; 113; 189; 193; 9; 193; 16; 43; 251; 26; 205; 254; 47; 106; 35; 23; 59; 82; 191; 131; 108; 224; 12; 215; 165; 165; 255; 231; 211; 187; 143; 171; 51; 222; 206; 223]);
  (512%Z, [56; 161; 10; 53; 44; 165; 174; 223; 168; 225; 156; 100; 120; 125; 142; 156; 58; 117; 219; 243; 184; 103; 75; 250; 178; 155; 93; 191; 193; 90; 99; 209; 15; 174; 102; 205; 26; 110; 109; 36; 82; 213; 87; 150; 126; 170; 216; 154; 76; 152; 68; 151; 135; 176; 179; 22; 76; 165; 183; 23; 169; 63; 36; 235; 11; 80; 108; 235; 112; 203; 188; 184; 215; 43; 42; 114; 153; 63; 144; 154; 173; 146; 240; 68; 224; 181; 162; 201; 172; 156; 177; 106; 12; 162; 248; 31; 73],
   [133; 98; 206; 147; 153; 128; 102; 35; 178; 105; 87; 18; 38; 106; 243; 212; 193; 79; 119; 210; 68; 145; 67; 55; 146; 70; 150; 44; 34; 57; 140; 129; 53; 68; 167; 222; 228; 196; 132; 127; 9; 211; 203; 228; 55; 52; 155; 127; 198; 115; 138; 201; 112; 117; 181; 221; 158; 42; 221; 110; 202; 166; 16; 244]);
  (224%Z, [241; 60; 151; 44; 82; 203; 60; 196; 164; 223; 40; 201; 127; 45; 241; 28; 224; 137; 184; 21; 70; 107; 232; 136; 99; 36; 62; 179; 24; 194; 173; 177; 164; 23; 203; 16; 65; 48; 133; 152; 84; 23; 32; 25; 123; 155; 28; 181; 186; 35; 24; 189; 85; 116; 209; 223; 33; 116; 175; 20; 136; 65; 73; 186; 155; 47; 68; 109; 96; 157; 242; 64; 206; 51; 85; 153; 149; 123; 142; 200; 8; 118; 217; 160; 133; 174; 8; 73; 7; 188; 89; 97; 178; 11; 245; 246; 202; 88; 213; 218; 179; 138; 219],
   [226; 89; 74; 99; 59; 45; 198; 113; 253; 13; 223; 211; 191; 114; 56; 51; 44; 66; 85; 32; 130; 124; 82; 79; 176; 225; 151; 120]);
  (256%Z, [241; 60; 151; 44; 82; 203; 60; 196; 164; 223; 40; 201; 127; 45; 241; 28; 224; 137; 184; 21; 70; 107; 232; 136; 99; 36; 62; 179; 24; 194; 173; 177; 164; 23; 203; 16; 65; 48; 133; 152; 84; 23; 32; 25; 123; 155; 28; 181; 186; 35; 24; 189; 85; 116; 209; 223; 33; 116; 175; 20; 136; 65; 73; 186; 155; 47; 68; 109; 96; 157; 242; 64; 206; 51; 85; 153; 149; 123; 142; 200; 8; 118; 217; 160; 133; 174; 8; 73; 7; 188; 89; 97; 178; 11; 245; 246; 202; 88; 213; 218; 179; 138; 219],
   [82; 203; 197; 219; 228; 155; 0; 150; 99; 196; 63; 7; 157; 209; 128; 227; 138; 119; 83; 55; 120; 6; 42; 114; 162; 158; 134; 74; 88; 82; 41; 34]);
  (384%Z, [241; 60; 151; 44; 82; 203; 60; 196; 164; 223; 40; 201; 127; 45; 241; 28; 224; 137; 184; 21; 70; 107; 232; 136; 99; 36; 62; 179; 24; 194; 173; 177; 164; 23; 203; 16; 65; 48; 133; 152; 84; 23; 32; 25; 123; 155; 28; 181; 186; 35; 24; 189; 85; 116; 209; 223; 33; 116; 175; 20; 136; 65; 73; 186; 155; 47; 68; 109; 96; 157; 242; 64; 206; 51; 85; 153; 149; 123; 142; 200; 8; 118; 217; 160; 133; 174; 8; 73; 7; 188; 89; 97; 178; 11; 245; 246; 202; 88; 213; 218; 179; 138; 219],
   [164; 229; 238; 19; 15; 193; 5; 129; 140; 209; 160; 222; 116; 241; 8; 91; 155; 77; 147; 136; 156; 80; 157; 195; 162; 8; 181; 35; 13; 57; 216; 243; 4; 187; 64; 63; 114; 191; 12; 245; 224; 44; 76; 74; 8; 49; 243; 40]);
  (512%Z, [241; 60; 151; 44; 82; 203; 60; 196; 164; 223; 40; 201; 127; 45; 241; 28; 224; 137; 184; 21; 70; 107; 232; 136; 99; 36; 62; 179; 24; 194; 173; 177; 164; 23; 203; 16; 65; 48; 133; 152; 84; 23; 32; 25; 123; 155; 28; 181; 186; 35; 24; 189; 85; 116; 209; 223; 33; 116; 175; 20; 136; 65; 73; 186; 155; 47; 68; 109; 96; 157; 242; 64; 206; 51; 85; 153; 149; 123; 142; 200; 8; 118; 217; 160; 133; 174; 8; 73; 7; 188; 89; 97; 178; 11; 245; 246; 202; 88; 213; 218; 179; 138; 219],
   [95; 150; 140; 198; 236; 247; 28; 88; 138; 60; 59; 166; 136; 88; 187; 255; 150; 134; 31; 102; 192; 115; 63; 214; 31; 169; 26; 71; 154; 73; 97; 141; 242; 45; 148; 144; 33; 157; 248; 0; 141; 199; 136; 64; 174; 2; 44; 93; 65; 175; 43; 137; 13; 2; 20; 229; 98; 218; 141; 240; 203; 63; 133; 34]);
  (224%Z, [227; 87; 128; 235; 151; 153; 173; 76; 119; 83; 93; 77; 219; 104; 60; 243; 62; 243; 103; 113; 83; 39; 207; 76; 74; 88; 237; 156; 189; 205; 212; 134; 246; 105; 248; 1; 137; 213; 73; 169; 54; 79; 168; 42; 81; 165; 38; 84; 236; 114; 27; 179; 170; 185; 93; 206; 180; 168; 106; 106; 250; 147; 130; 109; 185; 35; 81; 126; 146; 143; 51; 227; 251; 168; 80; 212; 86; 96; 239; 131; 185; 135; 106; 204; 175; 162; 169; 152; 122; 37; 75; 19; 124; 110; 20; 10; 33; 105; 30; 16; 105; 65; 56; 72],
   [35; 71; 100; 170; 232; 195; 155; 21; 113; 215; 116; 27; 177; 118; 255; 134; 36; 96; 112; 236; 154; 201; 122; 27; 46; 179; 84; 114]);
  (256%Z, [227; 87; 128; 235; 151; 153; 173; 76; 119; 83; 93; 77; 219; 104; 60; 243; 62; 243; 103; 113; 83; 39; 207; 76; 74; 88; 237; 156; 189; 205; 212; 134; 246; 105; 248; 1; 137; 213; 73; 169; 54; 79; 168; 42; 81; 165; 38; 84; 236; 114; 27; 179; 170; 185; 93; 206; 180; 168; 106; 106; 250; 147; 130; 109; 185; 35; 81; 126; 146; 143; 51; 227; 251; 168; 80; 212; 86; 96; 239; 131; 185; 135; 106; 204; 175; 162; 169; 152; 122; 37; 75; 19; 124; 110; 20; 10; 33; 105; 30; 16; 105; 65; 56; 72],
   [58; 141; 252; 253; 27; 54; 32; 3; 221; 250; 23; 145; 7; 39; 83; 158; 100; 177; 128; 33; 171; 186; 1; 139; 95; 88; 215; 31; 122; 68; 151; 51]);
  (384%Z, [227; 87; 128; 235; 151; 153; 173; 76; 119; 83; 93; 77; 219; 104; 60; 243; 62; 243; 103; 113; 83; 39; 207; 76; 74; 88; 237; 156; 189; 205; 212; 134; 246; 105; 248; 1; 137; 213; 73; 169; 54; 79; 168; 42; 81; 165; 38; 84; 236; 114; 27; 179; 170; 185; 93; 206; 180; 168; 106; 106; 250; 147; 130; 109; 185; 35; 81; 126; 146; 143; 51; 227; 251; 168; 80; 212; 86; 96; 239; 131; 185; 135; 106; 204; 175; 162; 169; 152; 122; 37; 75; 19; 124; 110; 20; 10; 33; 105; 30; 16; 105; 65; 56; 72],
   [159; 181; 112; 5; 2; 224; 25; 38; 130; 79; 70; 233; 246; 24; 148; 249; 72; 125; 188; 248; 174; 98; 23; 32; 60; 133; 96; 111; 151; 85; 102; 83; 147; 118; 214; 35; 157; 176; 74; 239; 155; 244; 140; 164; 241; 145; 169; 11]);
  (512%Z, [227; 87; 128; 235; 151; 153; 173; 76; 119; 83; 93; 77; 219; 104; 60; 243; 62; 243; 103; 113; 83; 39; 207; 76; 74; 88; 237; 156; 189; 205; 212; 134; 246; 105; 248; 1; 137; 213; 73; 169; 54; 79; 168; 42; 81; 165; 38; 84; 236; 114; 27; 179; 170; 185; 93; 206; 180; 168; 106; 106; 250; 147; 130; 109; 185; 35; 81; 126; 146; 143; 51; 227; 251; 168; 80; 212; 86; 96; 239; 131; 185; 135; 106; 204; 175; 162; 169; 152; 122; 37; 75; 19; 124; 110; 20; 10; 33; 105; 30; 16; 105; 65; 56; 72],
   [231; 20; 148; 97; 249; 205; 0; 183; 28; 33; 108; 80; 4; 27; 62; 218; 151; 7; 215; 54; 13; 76; 33; 116; 12; 68; 194; 18; 37; 106; 49; 218; 57; 143; 224; 151; 8; 228; 80; 234; 78; 40; 38; 183; 236; 32; 190; 247; 108; 210; 251; 217; 208; 150; 175; 111; 119; 248; 74; 188; 46; 79; 176; 147]);
  (224%Z, [117; 142; 163; 254; 167; 56; 151; 61; 176; 184; 190; 126; 89; 155; 190; 244; 81; 147; 115; 214; 230; 220; 215; 25; 94; 168; 133; 252; 153; 29; 137; 103; 98; 153; 39; 89; 194; 160; 144; 2; 145; 47; 176; 142; 12; 181; 183; 111; 73; 22; 42; 235; 140; 248; 123; 23; 44; 243; 173; 25; 2; 83; 223; 97; 47; 119; 177; 240; 197; 50; 227; 181; 252; 153; 194; 211; 31; 143; 101; 1; 22; 149; 160; 135; 163; 94; 228; 238; 229; 227; 52; 195; 105; 216; 238; 93; 41; 246; 149; 129; 93; 134; 109; 169; 157; 243; 247; 148; 3],
   [121; 212; 120; 180; 188; 94; 111; 194; 212; 6; 187; 28; 56; 52; 165; 206; 57; 122; 136; 232; 1; 53; 245; 93; 143; 227; 44; 94]);
  (256%Z, [117; 142; 163; 254; 167; 56; 151; 61; 176; 184; 190; 126; 89; 155; 190; 244; 81; 147; 115; 214; 230; 220; 215; 25; 94; 168; 133; 252; 153; 29; 137; 103; 98; 153; 39; 89; 194; 160; 144; 2; 145; 47; 176; 142; 12; 181; 183; 111; 73; 22; 42; 235; 140; 248; 123; 23; 44; 243; 173; 25; 2; 83; 223; 97; 47; 119; 177; 240; 197; 50; 227; 181; 252; 153; 194; 211; 31; 143; 101; 1; 22; 149; 160; 135; 163; 94; 228; 238; 229; 227; 52; 195; 105; 216; 238; 93; 41; 246; 149; 129; 93; 134; 109; 169; 157; 243; 247; 148; 3],
   [55; 81; 206; 8; 117; 13; 146; 126; 181; 195; 174; 76; 166; 42; 112; 58; 72; 29; 134; 164; 250; 28; 1; 30; 129; 43; 75; 192; 162; 254; 240; 141]);
  (384%Z, [117; 142; 163; 254; 167; 56; 151; 61; 176; 184; 190; 126; 89; 155; 190; 244; 81; 147; 115; 214; 230; 220; 215; 25; 94; 168; 133; 252; 153; 29; 137; 103; 98; 153; 39; 89; 194; 160; 144; 2; 145; 47; 176; 142; 12; 181; 183; 111; 73; 22; 42; 235; 140; 248; 123; 23; 44; 243; 173; 25; 2; 83; 223; 97; 47; 119; 177; 240; 197; 50; 227; 181; 252; 153; 194; 211; 31; 143; 101; 1; 22; 149; 160; 135; 163; 94; 228; 238; 229; 227; 52; 195; 105; 216; 238; 93; 41; 246; 149; 129; 93; 134; 109; 169; 157; 243; 247; 148; 3],
   [125; 24; 37; 77; 70; 161; 77; 3; 131; 236; 86; 172; 156; 162; 253; 167; 136; 90; 230; 115; 70; 140; 159; 59; 69; 186; 121; 44; 44; 35; 201; 255; 130; 73; 30; 106; 236; 161; 93; 7; 106; 211; 163; 67; 44; 250; 101; 12]);
  (512%Z, [117; 142; 163; 254; 167; 56; 151; 61; 176; 184; 190; 126; 89; 155; 190; 244; 81; 147; 115; 214; 230; 220; 215; 25; 94; 168; 133; 252; 153; 29; 137; 103; 98; 153; 39; 89; 194; 160; 144; 2; 145; 47; 176; 142; 12; 181; 183; 111; 73; 22; 42; 235; 140; 248; 123; 23; 44; 243; 173; 25; 2; 83; 223; 97; 47; 119; 177; 240; 197; 50; 227; 181; 252; 153; 194; 211; 31; 143; 101; 1; 22; 149; 160; 135; 163; 94; 228; 238; 229; 227; 52; 195; 105; 216; 238; 93; 41; 246; 149; 129; 93; 134; 109; 169; 157; 243; 247; 148; 3],
   [90; 41; 112; 213; 236; 52; 106; 142; 78; 29; 93; 30; 87; 220; 34; 246; 135; 93; 223; 28; 227; 98; 107; 73; 169; 17; 9; 224; 222; 153; 16; 51; 233; 50; 248; 131; 182; 167; 149; 1; 109; 80; 20; 226; 104; 48; 74; 190; 47; 117; 119; 80; 90; 171; 0; 149; 105; 17; 120; 31; 7; 93; 17; 58]);
  (224%Z, [98; 111; 104; 193; 138; 105; 166; 89; 1; 89; 169; 196; 107; 224; 61; 89; 101; 105; 143; 45; 172; 61; 231; 121; 184; 120; 179; 217; 196; 33; 224; 242; 27; 149; 90; 22; 199; 21; 193; 236; 30; 34; 206; 62; 182; 69; 184; 180; 242; 99; 246; 6; 96; 234; 48; 40; 152; 30; 235; 214; 200; 195; 163; 103; 40; 91; 105; 28; 142; 229; 105; 68; 167; 205; 18; 23; 153; 126; 29; 156; 33; 98; 11; 83; 107; 219; 213; 222; 137; 37; 255; 113; 222; 198; 251; 192; 102; 36; 171; 107; 33; 227; 41; 129; 61; 233; 13; 30; 87; 45; 251; 137; 161; 129; 32; 195; 246; 6; 53; 93; 37],
   [189; 108; 134; 89; 147; 8; 46; 199; 179; 128; 140; 19; 253; 20; 15; 224; 192; 102; 123; 62; 229; 27; 159; 143; 31; 77; 255; 216]);
  (256%Z, [98; 111; 104; 193; 138; 105; 166; 89; 1; 89; 169; 196; 107; 224; 61; 89; 101; 105; 143; 45; 172; 61; 231; 121; 184; 120; 179; 217; 196; 33; 224; 242; 27; 149; 90; 22; 199; 21; 193; 236; 30; 34; 206; 62; 182; 69; 184; 180; 242; 99; 246; 6; 96; 234; 48; 40; 152; 30; 235; 214; 200; 195; 163; 103; 40; 91; 105; 28; 142; 229; 105; 68; 167; 205; 18; 23; 153; 126; 29; 156; 33; 98; 11; 83; 107; 219; 213; 222; 137; 37; 255; 113; 222; 198; 251; 192; 102; 36; 171; 107; 33; 227; 41; 129; 61; 233; 13; 30; 87; 45; 251; 137; 161; 129; 32; 195; 246; 6; 53; 93; 37],
   [30; 206; 135; 228; 74; 153; 245; 157; 38; 65; 20; 24; 251; 135; 147; 104; 159; 248; 169; 198; 239; 117; 89; 144; 86; 8; 125; 140; 153; 91; 206; 30]);
  (384%Z, [98; 111; 104; 193; 138; 105; 166; 89; 1; 89; 169; 196; 107; 224; 61; 89; 101; 105; 143; 45; 172; 61; 231; 121; 184; 120; 179; 217; 196; 33; 224; 242; 27; 149; 90; 22; 199; 21; 193; 236; 30; 34; 206; 62; 182; 69; 184; 180; 242; 99; 246; 6; 96; 234; 48; 40; 152; 30; 235; 214; 200; 195; 163; 103; 40; 91; 105; 28; 142; 229; 105; 68; 167; 205; 18; 23; 153; 126; 29; 156; 33; 98; 11; 83; 107; 219; 213; 222; 137; 37; 255; 113; 222; 198; 251; 192; 102; 36; 171; 107; 33; 227; 41; 129; 61; 233; 13; 30; 87; 45; 251; 137; 161; 129; 32; 195; 246; 6; 53; 93; 37],
   [143; 153; 3; 44; 180; 155; 176; 34; 238; 95; 179; 36; 70; 225; 211; 154; 160; 252; 215; 73; 116; 30; 71; 150; 151; 157; 75; 234; 90; 177; 176; 77; 36; 21; 146; 236; 96; 88; 229; 75; 142; 201; 234; 178; 116; 238; 99; 45]);
  (512%Z, [98; 111; 104; 193; 138; 105; 166; 89; 1; 89; 169; 196; 107; 224; 61; 89; 101; 105; 143; 45; 172; 61; 231; 121; 184; 120; 179; 217; 196; 33; 224; 242; 27; 149; 90; 22; 199; 21; 193; 236; 30; 34; 206; 62; 182; 69; 184; 180; 242; 99; 246; 6; 96; 234; 48; 40; 152; 30; 235; 214; 200; 195; 163; 103; 40; 91; 105; 28; 142; 229; 105; 68; 167; 205; 18; 23; 153; 126; 29; 156; 33; 98; 11; 83; 107; 219; 213; 222; 137; 37; 255; 113; 222; 198; 251; 192; 102; 36; 171; 107; 33; 227; 41; 129; 61; 233; 13; 30; 87; 45; 251; 137; 161; 129; 32; 195; 246; 6; 53; 93; 37],
   [11; 61; 188; 119; 3; 50; 130; 62; 104; 100; 112; 216; 66; 16; 77; 59; 60; 20; 82; 246; 79; 27; 204; 113; 197; 243; 250; 209; 192; 217; 63; 33; 239; 189; 72; 215; 60; 125; 73; 9; 34; 123; 6; 176; 109; 84; 5; 122; 116; 224; 60; 54; 217; 193; 6; 235; 167; 148; 17; 241; 230; 225; 207; 254]);
  (224%Z, [89; 174; 32; 182; 247; 224; 179; 199; 169; 137; 175; 178; 131; 36; 164; 15; 202; 37; 216; 101; 28; 241; 244; 106; 227; 131; 239; 109; 132; 65; 88; 122; 161; 192; 76; 62; 59; 248; 142; 129; 49; 206; 97; 69; 207; 184; 151; 61; 150; 30; 132; 50; 178; 2; 250; 90; 243; 224; 157; 98; 95; 170; 216; 37; 188; 25; 218; 155; 92; 108; 32; 208; 42; 189; 162; 252; 197; 139; 91; 211; 254; 80; 123; 242; 1; 38; 63; 48; 84; 56; 25; 81; 12; 18; 188; 35; 226; 221; 180; 247; 17; 208; 135; 168; 110; 219; 27; 53; 83; 19; 54; 58; 45; 233; 150; 184; 145; 2; 94; 20; 112; 54; 8; 116; 1; 204; 243; 202; 120; 21; 191; 60; 73],
   [116; 13; 60; 180; 85; 19; 49; 115; 236; 101; 42; 160; 71; 9; 239; 15; 84; 159; 25; 169; 212; 204; 107; 236; 158; 135; 107; 90]);
  (256%Z, [89; 174; 32; 182; 247; 224; 179; 199; 169; 137; 175; 178; 131; 36; 164; 15; 202; 37; 216; 101; 28; 241; 244; 106; 227; 131; 239; 109; 132; 65; 88; 122; 161; 192; 76; 62; 59; 248; 142; 129; 49; 206; 97; 69; 207; 184; 151; 61; 150; 30; 132; 50; 178; 2; 250; 90; 243; 224; 157; 98; 95; 170; 216; 37; 188; 25; 218; 155; 92; 108; 32; 208; 42; 189; 162; 252; 197; 139; 91; 211; 254; 80; 123; 242; 1; 38; 63; 48; 84; 56; 25; 81; 12; 18; 188; 35; 226; 221; 180; 247; 17; 208; 135; 168; 110; 219; 27; 53; 83; 19; 54; 58; 45; 233; 150; 184; 145; 2; 94; 20; 112; 54; 8; 116; 1; 204; 243; 202; 120; 21; 191; 60; 73],
   [236; 9; 99; 20; 226; 247; 59; 106; 112; 39; 255; 250; 2; 16; 76; 47; 109; 209; 135; 242; 12; 116; 52; 69; 190; 253; 75; 92; 3; 75; 50; 149]);
  (384%Z, [89; 174; 32; 182; 247; 224; 179; 199; 169; 137; 175; 178; 131; 36; 164; 15; 202; 37; 216; 101; 28; 241; 244; 106; 227; 131; 239; 109; 132; 65; 88; 122; 161; 192; 76; 62; 59; 248; 142; 129; 49; 206; 97; 69; 207; 184; 151; 61; 150; 30; 132; 50; 178; 2; 250; 90; 243; 224; 157; 98; 95; 170; 216; 37; 188; 25; 218; 155; 92; 108; 32; 208; 42; 189; 162; 252; 197; 139; 91; 211; 254; 80; 123; 242; 1; 38; 63; 48; 84; 56; 25; 81; 12; 18; 188; 35; 226; 221; 180; 247; 17; 208; 135; 168; 110; 219; 27; 53; 83; 19; 54; 58; 45; 233; 150; 184; 145; 2; 94; 20; 112; 54; 8; 116; 1; 204; 243; 202; 120; 21; 191; 60; 73],
   [250; 233; 152; 209; 7; 78; 48; 242; 234; 10; 139; 159; 226; 89; 253; 46; 42; 54; 128; 73; 149; 235; 231; 227; 165; 173; 52; 134; 91; 26; 51; 22; 103; 82; 151; 254; 142; 51; 238; 248; 173; 204; 2; 190; 140; 71; 101; 190]);
  (512%Z, [89; 174; 32; 182; 247; 224; 179; 199; 169; 137; 175; 178; 131; 36; 164; 15; 202; 37; 216; 101; 28; 241; 244; 106; 227; 131; 239; 109; 132; 65; 88; 122; 161; 192; 76; 62; 59; 248; 142; 129; 49; 206; 97; 69; 207; 184; 151; 61; 150; 30; 132; 50; 178; 2; 250; 90; 243; 224; 157; 98; 95; 170; 216; 37; 188; 25; 218; 155; 92; 108; 32; 208; 42; 189; 162; 252; 197; 139; 91; 211; 254; 80; 123; 242; 1; 38; 63; 48; 84; 56; 25; 81; 12; 18; 188; 35; 226; 221; 180; 247; 17; 208; 135; 168; 110; 219; 27; 53; 83; 19; 54; 58; 45; 233; 150; 184; 145; 2; 94; 20; 112; 54; 8; 116; 1; 204; 243; 202; 120; 21; 191; 60; 73],
   [203; 223; 176; 208; 231; 32; 248; 114; 89; 221; 13; 11; 78; 156; 83; 25; 231; 248; 138; 174; 247; 247; 171; 47; 161; 202; 99; 154; 250; 1; 96; 130; 47; 150; 179; 195; 87; 164; 137; 76; 229; 60; 215; 19; 250; 178; 58; 208; 82; 232; 86; 95; 163; 179; 165; 35; 203; 156; 227; 154; 107; 213; 53; 204]);
  (224%Z, [183; 113; 213; 206; 245; 209; 164; 26; 147; 209; 86; 67; 215; 24; 29; 42; 46; 240; 168; 232; 77; 145; 129; 47; 32; 237; 33; 241; 71; 190; 247; 50; 191; 58; 96; 239; 64; 103; 195; 115; 75; 133; 188; 140; 212; 113; 120; 15; 16; 220; 158; 130; 145; 181; 131; 57; 166; 119; 185; 96; 33; 143; 113; 231; 147; 242; 121; 122; 234; 52; 148; 6; 81; 40; 41; 6; 93; 55; 187; 85; 234; 121; 111; 164; 245; 111; 216; 137; 107; 73; 178; 205; 25; 180; 50; 21; 173; 150; 124; 113; 43; 36; 229; 3; 45; 6; 82; 50; 224; 44; 18; 116; 9; 210; 237; 65; 70; 185; 215; 93; 118; 61; 82; 219; 152; 217; 73; 211; 176; 254; 214; 168; 5; 47; 187],
   [37; 148; 21; 58; 194; 222; 104; 31; 77; 238; 52; 15; 163; 68; 236; 56; 135; 115; 163; 119; 213; 184; 158; 80; 50; 84; 253; 46]);
  (256%Z, [183; 113; 213; 206; 245; 209; 164; 26; 147; 209; 86; 67; 215; 24; 29; 42; 46; 240; 168; 232; 77; 145; 129; 47; 32; 237; 33; 241; 71; 190; 247; 50; 191; 58; 96; 239; 64; 103; 195; 115; 75; 133; 188; 140; 212; 113; 120; 15; 16; 220; 158; 130; 145; 181; 131; 57; 166; 119; 185; 96; 33; 143; 113; 231; 147; 242; 121; 122; 234; 52; 148; 6; 81; 40; 41; 6; 93; 55; 187; 85; 234; 121; 111; 164; 245; 111; 216; 137; 107; 73; 178; 205; 25; 180; 50; 21; 173; 150; 124; 113; 43; 36; 229; 3; 45; 6; 82; 50; 224; 44; 18; 116; 9; 210; 237; 65; 70; 185; 215; 93; 118; 61; 82; 219; 152; 217; 73; 211; 176; 254; 214; 168; 5; 47; 187],
   [189; 111; 84; 146; 88; 42; 124; 27; 17; 99; 4; 222; 40; 49; 77; 249; 255; 254; 149; 176; 218; 17; 175; 82; 254; 148; 64; 167; 23; 163; 72; 89]);
  (384%Z, [183; 113; 213; 206; 245; 209; 164; 26; 147; 209; 86; 67; 215; 24; 29; 42; 46; 240; 168; 232; 77; 145; 129; 47; 32; 237; 33; 241; 71; 190; 247; 50; 191; 58; 96; 239; 64; 103; 195; 115; 75; 133; 188; 140; 212; 113; 120; 15; 16; 220; 158; 130; 145; 181; 131; 57; 166; 119; 185; 96; 33; 143; 113; 231; 147; 242; 121; 122; 234; 52; 148; 6; 81; 40; 41; 6; 93; 55; 187; 85; 234; 121; 111; 164; 245; 111; 216; 137; 107; 73; 178; 205; 25; 180; 50; 21; 173; 150; 124; 113; 43; 36; 229; 3; 45; 6; 82; 50; 224; 44; 18; 116; 9; 210; 237; 65; 70; 185; 215; 93; 118; 61; 82; 219; 152; 217; 73; 211; 176; 254; 214; 168; 5; 47; 187],
   [143; 253; 246; 164; 117; 45; 23; 212; 150; 248; 173; 238; 113; 22; 189; 42; 240; 164; 183; 38; 187; 63; 76; 95; 133; 190; 44; 157; 252; 52; 5; 90; 80; 158; 79; 224; 22; 147; 13; 153; 81; 167; 33; 37; 83; 226; 233; 8]);
  (512%Z, [183; 113; 213; 206; 245; 209; 164; 26; 147; 209; 86; 67; 215; 24; 29; 42; 46; 240; 168; 232; 77; 145; 129; 47; 32; 237; 33; 241; 71; 190; 247; 50; 191; 58; 96; 239; 64; 103; 195; 115; 75; 133; 188; 140; 212; 113; 120; 15; 16; 220; 158; 130; 145; 181; 131; 57; 166; 119; 185; 96; 33; 143; 113; 231; 147; 242; 121; 122; 234; 52; 148; 6; 81; 40; 41; 6; 93; 55; 187; 85; 234; 121; 111; 164; 245; 111; 216; 137; 107; 73; 178; 205; 25; 180; 50; 21; 173; 150; 124; 113; 43; 36; 229; 3; 45; 6; 82; 50; 224; 44; 18; 116; 9; 210; 237; 65; 70; 185; 215; 93; 118; 61; 82; 219; 152; 217; 73; 211; 176; 254; 214; 168; 5; 47; 187],
   [158; 222; 235; 16; 238; 27; 123; 184; 241; 106; 40; 13; 140; 195; 237; 165; 233; 9; 197; 84; 65; 157; 220; 82; 59; 105; 236; 237; 242; 173; 243; 179; 201; 188; 102; 254; 243; 101; 52; 36; 113; 196; 88; 18; 111; 8; 58; 59; 142; 124; 12; 157; 157; 119; 233; 249; 1; 150; 183; 31; 154; 173; 244; 146]);
  (224%Z, [179; 45; 149; 176; 185; 170; 210; 168; 129; 109; 230; 208; 109; 31; 134; 0; 133; 5; 189; 140; 20; 18; 79; 110; 154; 22; 59; 90; 42; 222; 85; 248; 53; 208; 236; 56; 128; 239; 80; 112; 13; 59; 37; 228; 44; 192; 175; 5; 12; 205; 27; 229; 229; 85; 178; 48; 135; 224; 77; 123; 249; 129; 54; 34; 120; 12; 115; 19; 161; 149; 79; 135; 64; 182; 238; 45; 63; 113; 247; 104; 221; 65; 127; 82; 4; 130; 189; 58; 8; 212; 242; 34; 180; 238; 157; 189; 1; 84; 71; 179; 53; 7; 221; 80; 243; 171; 66; 71; 197; 222; 154; 138; 189; 98; 168; 222; 206; 160; 30; 59; 135; 200; 185; 39; 245; 176; 139; 235; 55; 103; 76; 111; 142; 56; 12; 4],
   [66; 39; 92; 41; 105; 55; 116; 87; 88; 255; 43; 123; 238; 154; 137; 113; 145; 174; 135; 228; 43; 209; 1; 152; 217; 70; 108; 25]);
  (256%Z, [179; 45; 149; 176; 185; 170; 210; 168; 129; 109; 230; 208; 109; 31; 134; 0; 133; 5; 189; 140; 20; 18; 79; 110; 154; 22; 59; 90; 42; 222; 85; 248; 53; 208; 236; 56; 128; 239; 80; 112; 13; 59; 37; 228; 44; 192; 175; 5; 12; 205; 27; 229; 229; 85; 178; 48; 135; 224; 77; 123; 249; 129; 54; 34; 120; 12; 115; 19; 161; 149; 79; 135; 64; 182; 238; 45; 63; 113; 247; 104; 221; 65; 127; 82; 4; 130; 189; 58; 8; 212; 242; 34; 180; 238; 157; 189; 1; 84; 71; 179; 53; 7; 221; 80; 243; 171; 66; 71; 197; 222; 154; 138; 189; 98; 168; 222; 206; 160; 30; 59; 135; 200; 185; 39; 245; 176; 139; 235; 55; 103; 76; 111; 142; 56; 12; 4],
   [231; 23; 167; 118; 148; 72; 171; 190; 95; 239; 129; 135; 149; 74; 136; 172; 86; 222; 209; 210; 46; 99; 148; 10; 184; 13; 2; 149; 133; 162; 25; 33]);
  (384%Z, [179; 45; 149; 176; 185; 170; 210; 168; 129; 109; 230; 208; 109; 31; 134; 0; 133; 5; 189; 140; 20; 18; 79; 110; 154; 22; 59; 90; 42; 222; 85; 248; 53; 208; 236; 56; 128; 239; 80; 112; 13; 59; 37; 228; 44; 192; 175; 5; 12; 205; 27; 229; 229; 85; 178; 48; 135; 224; 77; 123; 249; 129; 54; 34; 120; 12; 115; 19; 161; 149; 79; 135; 64; 182; 238; 45; 63; 113; 247; 104; 221; 65; 127; 82; 4; 130; 189; 58; 8; 212; 242; 34; 180; 238; 157; 189; 1; 84; 71; 179; 53; 7; 221; 80; 243; 171; 66; 71; 197; 222; 154; 138; 189; 98; 168; 222; 206; 160; 30; 59; 135; 200; 185; 39; 245; 176; 139; 235; 55; 103; 76; 111; 142; 56; 12; 4],
   [39; 142; 131; 207; 241; 255; 108; 196; 179; 172; 65; 243; 135; 157; 168; 122; 230; 59; 83; 91; 67; 129; 94; 39; 54; 135; 164; 204; 81; 152; 85; 180; 82; 203; 106; 240; 25; 139; 185; 253; 15; 62; 67; 115; 155; 192; 205; 215]);
  (512%Z, [179; 45; 149; 176; 185; 170; 210; 168; 129; 109; 230; 208; 109; 31; 134; 0; 133; 5; 189; 140; 20; 18; 79; 110; 154; 22; 59; 90; 42; 222; 85; 248; 53; 208; 236; 56; 128; 239; 80; 112; 13; 59; 37; 228; 44; 192; 175; 5; 12; 205; 27; 229; 229; 85; 178; 48; 135; 224; 77; 123; 249; 129; 54; 34; 120; 12; 115; 19; 161; 149; 79; 135; 64; 182; 238; 45; 63; 113; 247; 104; 221; 65; 127; 82; 4; 130; 189; 58; 8; 212; 242; 34; 180; 238; 157; 189; 1; 84; 71; 179; 53; 7; 221; 80; 243; 171; 66; 71; 197; 222; 154; 138; 189; 98; 168; 222; 206; 160; 30; 59; 135; 200; 185; 39; 245; 176; 139; 235; 55; 103; 76; 111; 142; 56; 12; 4],
   [166; 5; 79; 252; 61; 129; 89; 27; 233; 100; 196; 176; 4; 163; 162; 17; 66; 54; 91; 89; 238; 152; 178; 135; 61; 72; 130; 147; 249; 58; 141; 113; 84; 191; 114; 16; 0; 18; 198; 13; 60; 148; 24; 246; 175; 142; 166; 99; 114; 203; 71; 3; 245; 246; 56; 29; 230; 212; 185; 185; 140; 255; 30; 144]);
  (224%Z, [234; 64; 232; 60; 177; 139; 58; 36; 44; 30; 204; 108; 205; 11; 120; 83; 164; 57; 218; 178; 197; 105; 207; 198; 220; 56; 161; 159; 92; 144; 172; 191; 118; 174; 249; 234; 55; 66; 255; 59; 84; 239; 125; 54; 235; 124; 228; 255; 28; 154; 179; 188; 17; 156; 255; 107; 233; 60; 3; 226; 8; 120; 51; 53; 192; 171; 129; 55; 190; 91; 16; 205; 198; 111; 243; 248; 154; 27; 221; 198; 161; 238; 215; 79; 80; 76; 190; 114; 144; 105; 11; 178; 149; 168; 114; 185; 227; 254; 44; 238; 158; 108; 103; 196; 29; 184; 239; 215; 216; 99; 207; 16; 248; 64; 254; 97; 142; 121; 54; 218; 61; 202; 92; 166; 223; 147; 63; 36; 246; 149; 75; 160; 128; 26; 18; 148; 205; 141; 126; 102; 223; 175; 236],
   [191; 225; 91; 181; 31; 104; 15; 47; 72; 159; 15; 222; 179; 47; 39; 16; 144; 160; 157; 21; 99; 242; 159; 234; 249; 33; 4; 224]);
  (256%Z, [234; 64; 232; 60; 177; 139; 58; 36; 44; 30; 204; 108; 205; 11; 120; 83; 164; 57; 218; 178; 197; 105; 207; 198; 220; 56; 161; 159; 92; 144; 172; 191; 118; 174; 249; 234; 55; 66; 255; 59; 84; 239; 125; 54; 235; 124; 228; 255; 28; 154; 179; 188; 17; 156; 255; 107; 233; 60; 3; 226; 8; 120; 51; 53; 192; 171; 129; 55; 190; 91; 16; 205; 198; 111; 243; 248; 154; 27; 221; 198; 161; 238; 215; 79; 80; 76; 190; 114; 144; 105; 11; 178; 149; 168; 114; 185; 227; 254; 44; 238; 158; 108; 103; 196; 29; 184; 239; 215; 216; 99; 207; 16; 248; 64; 254; 97; 142; 121; 54; 218; 61; 202; 92; 166; 223; 147; 63; 36; 246; 149; 75; 160; 128; 26; 18; 148; 205; 141; 126; 102; 223; 175; 236],
   [52; 77; 18; 156; 34; 131; 89; 70; 60; 64; 85; 93; 148; 33; 61; 1; 86; 39; 229; 135; 28; 4; 241; 6; 160; 254; 239; 147; 97; 205; 236; 182]);
  (384%Z, [234; 64; 232; 60; 177; 139; 58; 36; 44; 30; 204; 108; 205; 11; 120; 83; 164; 57; 218; 178; 197; 105; 207; 198; 220; 56; 161; 159; 92; 144; 172; 191; 118; 174; 249; 234; 55; 66; 255; 59; 84; 239; 125; 54; 235; 124; 228; 255; 28; 154; 179; 188; 17; 156; 255; 107; 233; 60; 3; 226; 8; 120; 51; 53; 192; 171; 129; 55; 190; 91; 16; 205; 198; 111; 243; 248; 154; 27; 221; 198; 161; 238; 215; 79; 80; 76; 190; 114; 144; 105; 11; 178; 149; 168; 114; 185; 227; 254; 44; 238; 158; 108; 103; 196; 29; 184; 239; 215; 216; 99; 207; 16; 248; 64; 254; 97; 142; 121; 54; 218; 61; 202; 92; 166; 223; 147; 63; 36; 246; 149; 75; 160; 128; 26; 18; 148; 205; 141; 126; 102; 223; 175; 236],
   [254; 104; 2; 80; 202; 177; 251; 219; 106; 200; 128; 13; 220; 40; 231; 1; 0; 223; 141; 170; 227; 141; 162; 112; 4; 135; 42; 176; 93; 64; 177; 90; 233; 62; 180; 66; 102; 227; 1; 79; 9; 96; 3; 139; 40; 37; 44; 123]);
  (512%Z, [234; 64; 232; 60; 177; 139; 58; 36; 44; 30; 204; 108; 205; 11; 120; 83; 164; 57; 218; 178; 197; 105; 207; 198; 220; 56; 161; 159; 92; 144; 172; 191; 118; 174; 249; 234; 55; 66; 255; 59; 84; 239; 125; 54; 235; 124; 228; 255; 28; 154; 179; 188; 17; 156; 255; 107; 233; 60; 3; 226; 8; 120; 51; 53; 192; 171; 129; 55; 190; 91; 16; 205; 198; 111; 243; 248; 154; 27; 221; 198; 161; 238; 215; 79; 80; 76; 190; 114; 144; 105; 11; 178; 149; 168; 114; 185; 227; 254; 44; 238; 158; 108; 103; 196; 29; 184; 239; 215; 216; 99; 207; 16; 248; 64; 254; 97; 142; 121; 54; 218; 61; 202; 92; 166; 223; 147; 63; 36; 246; 149; 75; 160; 128; 26; 18; 148; 205; 141; 126; 102; 223; 175; 236],
   [93; 168; 59; 126; 34; 25; 51; 205; 103; 250; 42; 248; 201; 147; 77; 183; 76; 232; 34; 33; 44; 153; 224; 238; 1; 245; 34; 11; 79; 225; 233; 176; 56; 142; 66; 227; 40; 161; 209; 116; 230; 54; 143; 87; 115; 133; 48; 66; 84; 58; 155; 73; 58; 148; 182; 37; 152; 11; 115; 223; 63; 63; 204; 187]);
  (224%Z, [21; 125; 91; 126; 69; 7; 246; 109; 154; 38; 116; 118; 211; 56; 49; 231; 187; 118; 141; 77; 4; 204; 52; 56; 218; 18; 249; 1; 2; 99; 234; 95; 202; 251; 222; 37; 121; 219; 47; 107; 88; 249; 17; 213; 147; 213; 247; 159; 176; 95; 227; 89; 110; 63; 168; 15; 242; 247; 97; 209; 176; 229; 112; 128; 5; 92; 17; 140; 83; 229; 60; 219; 99; 5; 82; 97; 215; 201; 178; 179; 155; 217; 10; 204; 50; 82; 12; 187; 219; 218; 44; 79; 216; 133; 109; 188; 238; 23; 49; 50; 162; 103; 145; 152; 218; 248; 48; 7; 169; 181; 197; 21; 17; 174; 73; 118; 108; 121; 42; 41; 82; 3; 136; 68; 78; 190; 254; 40; 37; 111; 179; 61; 66; 96; 67; 156; 186; 115; 169; 71; 158; 224; 12; 99],
   [109; 115; 95; 183; 87; 145; 53; 246; 27; 119; 27; 43; 176; 216; 21; 20; 205; 233; 201; 119; 172; 207; 111; 234; 246; 237; 235; 240]);
  (256%Z, [21; 125; 91; 126; 69; 7; 246; 109; 154; 38; 116; 118; 211; 56; 49; 231; 187; 118; 141; 77; 4; 204; 52; 56; 218; 18; 249; 1; 2; 99; 234; 95; 202; 251; 222; 37; 121; 219; 47; 107; 88; 249; 17; 213; 147; 213; 247; 159; 176; 95; 227; 89; 110; 63; 168; 15; 242; 247; 97; 209; 176; 229; 112; 128; 5; 92; 17; 140; 83; 229; 60; 219; 99; 5; 82; 97; 215; 201; 178; 179; 155; 217; 10; 204; 50; 82; 12; 187; 219; 218; 44; 79; 216; 133; 109; 188; 238; 23; 49; 50; 162; 103; 145; 152; 218; 248; 48; 7; 169; 181; 197; 21; 17; 174; 73; 118; 108; 121; 42; 41; 82; 3; 136; 68; 78; 190; 254; 40; 37; 111; 179; 61; 66; 96; 67; 156; 186; 115; 169; 71; 158; 224; 12; 99],
   [76; 231; 194; 185; 53; 242; 31; 195; 76; 94; 86; 217; 64; 165; 85; 197; 147; 135; 42; 236; 47; 137; 109; 228; 230; 143; 42; 1; 112; 96; 245; 53]);
  (384%Z, [21; 125; 91; 126; 69; 7; 246; 109; 154; 38; 116; 118; 211; 56; 49; 231; 187; 118; 141; 77; 4; 204; 52; 56; 218; 18; 249; 1; 2; 99; 234; 95; 202; 251; 222; 37; 121; 219; 47; 107; 88; 249; 17; 213; 147; 213; 247; 159; 176; 95; 227; 89; 110; 63; 168; 15; 242; 247; 97; 209; 176; 229; 112; 128; 5; 92; 17; 140; 83; 229; 60; 219; 99; 5; 82; 97; 215; 201; 178; 179; 155; 217; 10; 204; 50; 82; 12; 187; 219; 218; 44; 79; 216; 133; 109; 188; 238; 23; 49; 50; 162; 103; 145; 152; 218; 248; 48; 7; 169; 181; 197; 21; 17; 174; 73; 118; 108; 121; 42; 41; 82; 3; 136; 68; 78; 190; 254; 40; 37; 111; 179; 61; 66; 96; 67; 156; 186; 115; 169; 71; 158; 224; 12; 99],
   [81; 27; 19; 229; 63; 211; 83; 250; 77; 56; 239; 12; 248; 241; 175; 48; 218; 85; 72; 40; 165; 253; 28; 83; 236; 65; 247; 61; 154; 202; 108; 84; 172; 121; 114; 201; 51; 175; 74; 47; 199; 171; 133; 44; 166; 58; 27; 166]);
  (512%Z, [21; 125; 91; 126; 69; 7; 246; 109; 154; 38; 116; 118; 211; 56; 49; 231; 187; 118; 141; 77; 4; 204; 52; 56; 218; 18; 249; 1; 2; 99; 234; 95; 202; 251; 222; 37; 121; 219; 47; 107; 88; 249; 17; 213; 147; 213; 247; 159; 176; 95; 227; 89; 110; 63; 168; 15; 242; 247; 97; 209; 176; 229; 112; 128; 5; 92; 17; 140; 83; 229; 60; 219; 99; 5; 82; 97; 215; 201; 178; 179; 155; 217; 10; 204; 50; 82; 12; 187; 219; 218; 44; 79; 216; 133; 109; 188; 238; 23; 49; 50; 162; 103; 145; 152; 218; 248; 48; 7; 169; 181; 197; 21; 17; 174; 73; 118; 108; 121; 42; 41; 82; 3; 136; 68; 78; 190; 254; 40; 37; 111; 179; 61; 66; 96; 67; 156; 186; 115; 169; 71; 158; 224; 12; 99],
   [114; 222; 145; 132; 190; 181; 198; 163; 126; 162; 195; 149; 115; 77; 13; 84; 18; 153; 26; 87; 207; 252; 193; 63; 249; 181; 250; 15; 32; 70; 238; 135; 198; 24; 17; 254; 142; 242; 71; 2; 57; 213; 6; 108; 34; 1; 115; 222; 94; 190; 65; 136; 94; 216; 172; 174; 57; 127; 179; 149; 230; 202; 154; 238]);
  (224%Z, [131; 107; 52; 181; 21; 71; 111; 97; 63; 228; 71; 164; 224; 195; 243; 184; 242; 9; 16; 172; 137; 163; 151; 112; 85; 201; 96; 210; 213; 210; 183; 43; 216; 172; 199; 21; 169; 3; 83; 33; 184; 103; 3; 164; 17; 221; 224; 70; 109; 88; 165; 151; 105; 103; 42; 166; 10; 213; 135; 184; 72; 29; 228; 187; 165; 82; 161; 100; 87; 121; 120; 149; 1; 236; 83; 213; 64; 185; 4; 130; 31; 50; 176; 189; 24; 85; 176; 78; 72; 72; 249; 248; 207; 233; 235; 216; 145; 27; 233; 87; 129; 167; 89; 215; 173; 151; 36; 167; 16; 45; 190; 87; 103; 118; 183; 198; 50; 188; 57; 185; 181; 225; 144; 87; 226; 38; 85; 42; 89; 148; 193; 219; 179; 181; 199; 135; 26; 17; 245; 83; 112; 17; 4; 76; 83],
   [109; 147; 21; 49; 69; 144; 76; 235; 224; 232; 166; 108; 39; 43; 237; 244; 240; 208; 163; 197; 58; 179; 2; 100; 19; 84; 49; 167]);
  (256%Z, [131; 107; 52; 181; 21; 71; 111; 97; 63; 228; 71; 164; 224; 195; 243; 184; 242; 9; 16; 172; 137; 163; 151; 112; 85; 201; 96; 210; 213; 210; 183; 43; 216; 172; 199; 21; 169; 3; 83; 33; 184; 103; 3; 164; 17; 221; 224; 70; 109; 88; 165; 151; 105; 103; 42; 166; 10; 213; 135; 184; 72; 29; 228; 187; 165; 82; 161; 100; 87; 121; 120; 149; 1; 236; 83; 213; 64; 185; 4; 130; 31; 50; 176; 189; 24; 85; 176; 78; 72; 72; 249; 248; 207; 233; 235; 216; 145; 27; 233; 87; 129; 167; 89; 215; 173; 151; 36; 167; 16; 45; 190; 87; 103; 118; 183; 198; 50; 188; 57; 185; 181; 225; 144; 87; 226; 38; 85; 42; 89; 148; 193; 219; 179; 181; 199; 135; 26; 17; 245; 83; 112; 17; 4; 76; 83],
   [36; 182; 157; 138; 179; 91; 172; 203; 217; 47; 148; 225; 183; 11; 7; 196; 192; 236; 241; 78; 174; 172; 75; 107; 133; 96; 150; 109; 91; 224; 134; 243]);
  (384%Z, [131; 107; 52; 181; 21; 71; 111; 97; 63; 228; 71; 164; 224; 195; 243; 184; 242; 9; 16; 172; 137; 163; 151; 112; 85; 201; 96; 210; 213; 210; 183; 43; 216; 172; 199; 21; 169; 3; 83; 33; 184; 103; 3; 164; 17; 221; 224; 70; 109; 88; 165; 151; 105; 103; 42; 166; 10; 213; 135; 184; 72; 29; 228; 187; 165; 82; 161; 100; 87; 121; 120; 149; 1; 236; 83; 213; 64; 185; 4; 130; 31; 50; 176; 189; 24; 85; 176; 78; 72; 72; 249; 248; 207; 233; 235; 216; 145; 27; 233; 87; 129; 167; 89; 215; 173; 151; 36; 167; 16; 45; 190; 87; 103; 118; 183; 198; 50; 188; 57; 185; 181; 225; 144; 87; 226; 38; 85; 42; 89; 148; 193; 219; 179; 181; 199; 135; 26; 17; 245; 83; 112; 17; 4; 76; 83],
   [85; 76; 240; 10; 154; 175; 224; 223; 200; 212; 158; 160; 50; 136; 181; 42; 237; 67; 165; 16; 78; 34; 184; 56; 228; 15; 222; 115; 88; 73; 27; 87; 116; 223; 69; 92; 242; 236; 115; 197; 58; 123; 48; 98; 122; 20; 42; 65]);
  (512%Z, [131; 107; 52; 181; 21; 71; 111; 97; 63; 228; 71; 164; 224; 195; 243; 184; 242; 9; 16; 172; 137; 163; 151; 112; 85; 201; 96; 210; 213; 210; 183; 43; 216; 172; 199; 21; 169; 3; 83; 33; 184; 103; 3; 164; 17; 221; 224; 70; 109; 88; 165; 151; 105; 103; 42; 166; 10; 213; 135; 184; 72; 29; 228; 187; 165; 82; 161; 100; 87; 121; 120; 149; 1; 236; 83; 213; 64; 185; 4; 130; 31; 50; 176; 189; 24; 85; 176; 78; 72; 72; 249; 248; 207; 233; 235; 216; 145; 27; 233; 87; 129; 167; 89; 215; 173; 151; 36; 167; 16; 45; 190; 87; 103; 118; 183; 198; 50; 188; 57; 185; 181; 225; 144; 87; 226; 38; 85; 42; 89; 148; 193; 219; 179; 181; 199; 135; 26; 17; 245; 83; 112; 17; 4; 76; 83],
   [182; 120; 250; 118; 85; 88; 73; 112; 222; 219; 188; 115; 161; 109; 120; 64; 147; 91; 16; 77; 6; 220; 180; 104; 221; 217; 129; 77; 108; 244; 67; 250; 111; 146; 69; 130; 77; 191; 243; 171; 95; 255; 239; 36; 178; 156; 178; 151; 135; 150; 243; 126; 123; 73; 177; 104; 45; 89; 247; 158; 60; 22; 158; 129]);
  (224%Z, [202; 118; 211; 161; 37; 149; 168; 23; 104; 38; 23; 0; 104; 72; 103; 85; 71; 211; 232; 245; 12; 34; 16; 249; 175; 144; 108; 14; 124; 229; 11; 68; 96; 24; 111; 231; 4; 87; 169; 232; 121; 231; 159; 212; 209; 166; 136; 199; 10; 52; 115; 97; 200; 71; 186; 13; 214; 170; 82; 147; 110; 175; 142; 88; 161; 190; 47; 92; 28; 112; 78; 32; 20; 109; 54; 106; 235; 56; 83; 190; 217; 222; 155; 239; 233; 86; 154; 200; 170; 234; 55; 169; 251; 113; 57; 161; 161; 167; 213; 199; 72; 96; 90; 141; 239; 178; 151; 134; 158; 190; 221; 113; 214; 21; 165; 218; 35; 73; 109; 17; 225; 26; 187; 177; 38; 178; 6; 250; 10; 119; 151; 238; 125; 225; 23; 152; 96; 18; 208; 54; 45; 206; 247; 117; 194; 254; 20; 90; 218; 107; 218; 28; 203; 50; 107; 246; 68],
   [146; 111; 224; 4; 75; 18; 66; 45; 62; 75; 250; 82; 197; 146; 82; 172; 201; 29; 191; 9; 196; 136; 174; 157; 49; 199; 235; 99]);
  (256%Z, [202; 118; 211; 161; 37; 149; 168; 23; 104; 38; 23; 0; 104; 72; 103; 85; 71; 211; 232; 245; 12; 34; 16; 249; 175; 144; 108; 14; 124; 229; 11; 68; 96; 24; 111; 231; 4; 87; 169; 232; 121; 231; 159; 212; 209; 166; 136; 199; 10; 52; 115; 97; 200; 71; 186; 13; 214; 170; 82; 147; 110; 175; 142; 88; 161; 190; 47; 92; 28; 112; 78; 32; 20; 109; 54; 106; 235; 56; 83; 190; 217; 222; 155; 239; 233; 86; 154; 200; 170; 234; 55; 169; 251; 113; 57; 161; 161; 167; 213; 199; 72; 96; 90; 141; 239; 178; 151; 134; 158; 190; 221; 113; 214; 21; 165; 218; 35; 73; 109; 17; 225; 26; 187; 177; 38; 178; 6; 250; 10; 119; 151; 238; 125; 225; 23; 152; 96; 18; 208; 54; 45; 206; 247; 117; 194; 254; 20; 90; 218; 107; 218; 28; 203; 50; 107; 246; 68],
   [200; 103; 104; 246; 195; 73; 235; 50; 59; 216; 45; 177; 150; 118; 225; 11; 216; 174; 159; 112; 87; 118; 53; 86; 187; 182; 208; 182; 113; 230; 15; 42]);
  (384%Z, [202; 118; 211; 161; 37; 149; 168; 23; 104; 38; 23; 0; 104; 72; 103; 85; 71; 211; 232; 245; 12; 34; 16; 249; 175; 144; 108; 14; 124; 229; 11; 68; 96; 24; 111; 231; 4; 87; 169; 232; 121; 231; 159; 212; 209; 166; 136; 199; 10; 52; 115; 97; 200; 71; 186; 13; 214; 170; 82; 147; 110; 175; 142; 88; 161; 190; 47; 92; 28; 112; 78; 32; 20; 109; 54; 106; 235; 56; 83; 190; 217; 222; 155; 239; 233; 86; 154; 200; 170; 234; 55; 169; 251; 113; 57; 161; 161; 167; 213; 199; 72; 96; 90; 141; 239; 178; 151; 134; 158; 190; 221; 113; 214; 21; 165; 218; 35; 73; 109; 17; 225; 26; 187; 177; 38; 178; 6; 250; 10; 119; 151; 238; 125; 225; 23; 152; 96; 18; 208; 54; 45; 206; 247; 117; 194; 254; 20; 90; 218; 107; 218; 28; 203; 50; 107; 246; 68],
   [212; 184; 207; 178; 254; 91; 99; 187; 91; 182; 120; 185; 139; 70; 90; 45; 253; 35; 223; 244; 152; 231; 120; 238; 5; 53; 165; 192; 119; 112; 90; 162; 202; 47; 3; 152; 50; 186; 234; 15; 115; 86; 9; 179; 228; 225; 140; 247]);
  (512%Z, [202; 118; 211; 161; 37; 149; 168; 23; 104; 38; 23; 0; 104; 72; 103; 85; 71; 211; 232; 245; 12; 34; 16; 249; 175; 144; 108; 14; 124; 229; 11; 68; 96; 24; 111; 231; 4; 87; 169; 232; 121; 231; 159; 212; 209; 166; 136; 199; 10; 52; 115; 97; 200; 71; 186; 13; 214; 170; 82; 147; 110; 175; 142; 88; 161; 190; 47; 92; 28; 112; 78; 32; 20; 109; 54; 106; 235; 56; 83; 190; 217; 222; 155; 239; 233; 86; 154; 200; 170; 234; 55; 169; 251; 113; 57; 161; 161; 167; 213; 199; 72; 96; 90; 141; 239; 178; 151; 134; 158; 190; 221; 113; 214; 21; 165; 218; 35; 73; 109; 17; 225; 26; 187; 177; 38; 178; 6; 250; 10; 119; 151; 238; 125; 225; 23; 152; 96; 18; 208; 54; 45; 206; 247; 117; 194; 254; 20; 90; 218; 107; 218; 28; 203; 50; 107; 246; 68],
   [158; 212; 238; 232; 127; 86; 174; 39; 65; 232; 228; 214; 86; 35; 228; 209; 250; 58; 161; 17; 246; 74; 133; 246; 110; 153; 9; 59; 174; 217; 144; 254; 29; 120; 141; 106; 75; 225; 167; 42; 102; 21; 40; 30; 180; 94; 27; 111; 182; 10; 254; 253; 217; 57; 135; 247; 148; 8; 75; 218; 150; 47; 172; 127]);
  (224%Z, [179; 159; 235; 130; 131; 234; 220; 99; 232; 24; 75; 81; 223; 90; 227; 253; 65; 170; 200; 169; 99; 187; 11; 225; 205; 8; 170; 88; 103; 216; 217; 16; 198; 105; 34; 30; 115; 36; 51; 96; 100; 111; 101; 83; 209; 202; 5; 168; 78; 141; 192; 222; 5; 182; 65; 158; 195; 73; 202; 153; 68; 128; 25; 61; 1; 201; 37; 37; 243; 251; 61; 206; 251; 8; 175; 198; 210; 105; 71; 189; 187; 253; 133; 25; 63; 83; 181; 6; 9; 198; 20; 9; 5; 197; 58; 102; 134; 181; 142; 83; 163; 25; 165; 123; 150; 35; 49; 237; 233; 129; 73; 175; 61; 227; 17; 138; 129; 157; 164; 215; 103; 6; 160; 66; 75; 78; 29; 41; 16; 176; 237; 38; 175; 97; 209; 80; 235; 203; 70; 89; 93; 66; 102; 160; 189; 127; 101; 27; 164; 125; 12; 127; 23; 156; 162; 133; 69; 0; 125; 146; 232; 65; 157; 72; 253; 251; 215; 68; 206],
   [51; 34; 250; 114; 122; 0; 137; 245; 0; 166; 169; 157; 103; 65; 154; 118; 199; 175; 119; 239; 40; 147; 232; 211; 133; 180; 39; 32]);
  (256%Z, [179; 159; 235; 130; 131; 234; 220; 99; 232; 24; 75; 81; 223; 90; 227; 253; 65; 170; 200; 169; 99; 187; 11; 225; 205; 8; 170; 88; 103; 216; 217; 16; 198; 105; 34; 30; 115; 36; 51; 96; 100; 111; 101; 83; 209; 202; 5; 168; 78; 141; 192; 222; 5; 182; 65; 158; 195; 73; 202; 153; 68; 128; 25; 61; 1; 201; 37; 37; 243; 251; 61; 206; 251; 8; 175; 198; 210; 105; 71; 189; 187; 253; 133; 25; 63; 83; 181; 6; 9; 198; 20; 9; 5; 197; 58; 102; 134; 181; 142; 83; 163; 25; 165; 123; 150; 35; 49; 237; 233; 129; 73; 175; 61; 227; 17; 138; 129; 157; 164; 215; 103; 6; 160; 66; 75; 78; 29; 41; 16; 176; 237; 38; 175; 97; 209; 80; 235; 203; 70; 89; 93; 66; 102; 160; 189; 127; 101; 27; 164; 125; 12; 127; 23; 156; 162; 133; 69; 0; 125; 146; 232; 65; 157; 72; 253; 251; 215; 68; 206],
   [148; 46; 57; 226; 48; 162; 37; 31; 253; 178; 248; 82; 2; 135; 28; 152; 89; 112; 8; 64; 27; 50; 47; 249; 132; 12; 201; 12; 200; 91; 51; 125]);
  (384%Z, [179; 159; 235; 130; 131; 234; 220; 99; 232; 24; 75; 81; 223; 90; 227; 253; 65; 170; 200; 169; 99; 187; 11; 225; 205; 8; 170; 88; 103; 216; 217; 16; 198; 105; 34; 30; 115; 36; 51; 96; 100; 111; 101; 83; 209; 202; 5; 168; 78; 141; 192; 222; 5; 182; 65; 158; 195; 73; 202; 153; 68; 128; 25; 61; 1; 201; 37; 37; 243; 251; 61; 206; 251; 8; 175; 198; 210; 105; 71; 189; 187; 253; 133; 25; 63; 83; 181; 6; 9; 198; 20; 9; 5; 197; 58; 102; 134; 181; 142; 83; 163; 25; 165; 123; 150; 35; 49; 237; 233; 129; 73; 175; 61; 227; 17; 138; 129; 157; 164; 215; 103; 6; 160; 66; 75; 78; 29; 41; 16; 176; 237; 38; 175; 97; 209; 80; 235; 203; 70; 89; 93; 66; 102; 160; 189; 127; 101; 27; 164; 125; 12; 127; 23; 156; 162; 133; 69; 0; 125; 146; 232; 65; 157; 72; 253; 251; 215; 68; 206],
   [208; 206; 2; 89; 170; 238; 165; 186; 239; 245; 41; 41; 66; 60; 61; 160; 122; 140; 117; 25; 95; 134; 215; 51; 167; 24; 209; 196; 106; 30; 64; 170; 212; 4; 117; 12; 65; 215; 161; 88; 231; 159; 39; 136; 48; 180; 192; 122]);
  (512%Z, [179; 159; 235; 130; 131; 234; 220; 99; 232; 24; 75; 81; 223; 90; 227; 253; 65; 170; 200; 169; 99; 187; 11; 225; 205; 8; 170; 88; 103; 216; 217; 16; 198; 105; 34; 30; 115; 36; 51; 96; 100; 111; 101; 83; 209; 202; 5; 168; 78; 141; 192; 222; 5; 182; 65; 158; 195; 73; 202; 153; 68; 128; 25; 61; 1; 201; 37; 37; 243; 251; 61; 206; 251; 8; 175; 198; 210; 105; 71; 189; 187; 253; 133; 25; 63; 83; 181; 6; 9; 198; 20; 9; 5; 197; 58; 102; 134; 181; 142; 83; 163; 25; 165; 123; 150; 35; 49; 237; 233; 129; 73; 175; 61; 227; 17; 138; 129; 157; 164; 215; 103; 6; 160; 66; 75; 78; 29; 41; 16; 176; 237; 38; 175; 97; 209; 80; 235; 203; 70; 89; 93; 66; 102; 160; 189; 127; 101; 27; 164; 125; 12; 127; 23; 156; 162; 133; 69; 0; 125; 146; 232; 65; 157; 72; 253; 251; 215; 68; 206],
   [150; 173; 22; 56; 105; 174; 47; 253; 184; 155; 150; 244; 220; 112; 14; 206; 39; 209; 244; 218; 175; 188; 95; 184; 26; 142; 149; 19; 198; 234; 94; 43; 106; 139; 204; 244; 228; 154; 41; 74; 243; 38; 248; 114; 116; 6; 97; 98; 154; 183; 128; 88; 17; 85; 129; 14; 73; 36; 36; 194; 79; 141; 29; 211]);
  (224%Z, [87; 110; 243; 82; 13; 48; 183; 164; 137; 155; 140; 13; 94; 53; 158; 69; 197; 24; 154; 221; 16; 14; 67; 190; 66; 154; 2; 251; 61; 229; 255; 79; 143; 208; 231; 157; 150; 99; 172; 202; 114; 205; 41; 201; 69; 130; 177; 146; 146; 165; 87; 197; 177; 49; 82; 151; 209; 104; 251; 181; 78; 158; 46; 205; 19; 128; 156; 43; 95; 206; 153; 142; 220; 101; 112; 84; 94; 20; 153; 219; 231; 251; 116; 212; 124; 215; 243; 88; 35; 178; 18; 176; 91; 243; 245; 167; 156; 170; 52; 34; 79; 221; 103; 13; 51; 95; 203; 16; 111; 93; 146; 195; 148; 111; 68; 211; 175; 203; 174; 46; 65; 172; 85; 77; 142; 103; 89; 243; 50; 183; 107; 232; 154; 3; 36; 170; 18; 197; 72; 45; 30; 163; 238; 137; 222; 212; 147; 111; 62; 60; 8; 4; 54; 245; 57; 250; 19; 126; 116; 198; 211; 56; 155; 223; 90; 69; 7; 76; 71; 188; 123; 32; 176; 148; 132; 7; 166; 109; 133; 94; 47],
   [62; 248; 212; 166; 187; 142; 23; 35; 116; 232; 6; 232; 214; 93; 95; 129; 179; 253; 179; 98; 153; 222; 28; 12; 204; 38; 220; 101]);
  (256%Z, [87; 110; 243; 82; 13; 48; 183; 164; 137; 155; 140; 13; 94; 53; 158; 69; 197; 24; 154; 221; 16; 14; 67; 190; 66; 154; 2; 251; 61; 229; 255; 79; 143; 208; 231; 157; 150; 99; 172; 202; 114; 205; 41; 201; 69; 130; 177; 146; 146; 165; 87; 197; 177; 49; 82; 151; 209; 104; 251; 181; 78; 158; 46; 205; 19; 128; 156; 43; 95; 206; 153; 142; 220; 101; 112; 84; 94; 20; 153; 219; 231; 251; 116; 212; 124; 215; 243; 88; 35; 178; 18; 176; 91; 243; 245; 167; 156; 170; 52; 34; 79; 221; 103; 13; 51; 95; 203; 16; 111; 93; 146; 195; 148; 111; 68; 211; 175; 203; 174; 46; 65; 172; 85; 77; 142; 103; 89; 243; 50; 183; 107; 232; 154; 3; 36; 170; 18; 197; 72; 45; 30; 163; 238; 137; 222; 212; 147; 111; 62; 60; 8; 4; 54; 245; 57; 250; 19; 126; 116; 198; 211; 56; 155; 223; 90; 69; 7; 76; 71; 188; 123; 32; 176; 148; 132; 7; 166; 109; 133; 94; 47],
   [68; 126; 218; 146; 60; 254; 17; 18; 166; 241; 163; 228; 199; 53; 191; 142; 233; 228; 242; 174; 231; 222; 102; 106; 71; 47; 248; 207; 15; 198; 83; 21]);
  (384%Z, [87; 110; 243; 82; 13; 48; 183; 164; 137; 155; 140; 13; 94; 53; 158; 69; 197; 24; 154; 221; 16; 14; 67; 190; 66; 154; 2; 251; 61; 229; 255; 79; 143; 208; 231; 157; 150; 99; 172; 202; 114; 205; 41; 201; 69; 130; 177; 146; 146; 165; 87; 197; 177; 49; 82; 151; 209; 104; 251; 181; 78; 158; 46; 205; 19; 128; 156; 43; 95; 206; 153; 142; 220; 101; 112; 84; 94; 20; 153; 219; 231; 251; 116; 212; 124; 215; 243; 88; 35; 178; 18; 176; 91; 243; 245; 167; 156; 170; 52; 34; 79; 221; 103; 13; 51; 95; 203; 16; 111; 93; 146; 195; 148; 111; 68; 211; 175; 203; 174; 46; 65; 172; 85; 77; 142; 103; 89; 243; 50; 183; 107; 232; 154; 3; 36; 170; 18; 197; 72; 45; 30; 163; 238; 137; 222; 212; 147; 111; 62; 60; 8; 4; 54; 245; 57; 250; 19; 126; 116; 198; 211; 56; 155; 223; 90; 69; 7; 76; 71; 188; 123; 32; 176; 148; 132; 7; 166; 109; 133; 94; 47],
   [210; 220; 73; 192; 69; 83; 240; 154; 140; 61; 125; 181; 29; 232; 144; 167; 29; 188; 16; 254; 78; 145; 12; 104; 186; 92; 165; 221; 179; 19; 208; 166; 131; 117; 39; 92; 41; 27; 77; 235; 65; 244; 94; 53; 165; 88; 191; 119]);
  (512%Z, [87; 110; 243; 82; 13; 48; 183; 164; 137; 155; 140; 13; 94; 53; 158; 69; 197; 24; 154; 221; 16; 14; 67; 190; 66; 154; 2; 251; 61; 229; 255; 79; 143; 208; 231; 157; 150; 99; 172; 202; 114; 205; 41; 201; 69; 130; 177; 146; 146; 165; 87; 197; 177; 49; 82; 151; 209; 104; 251; 181; 78; 158; 46; 205; 19; 128; 156; 43; 95; 206; 153; 142; 220; 101; 112; 84; 94; 20; 153; 219; 231; 251; 116; 212; 124; 215; 243; 88; 35; 178; 18; 176; 91; 243; 245; 167; 156; 170; 52; 34; 79; 221; 103; 13; 51; 95; 203; 16; 111; 93; 146; 195; 148; 111; 68; 211; 175; 203; 174; 46; 65; 172; 85; 77; 142; 103; 89; 243; 50; 183; 107; 232; 154; 3; 36; 170; 18; 197; 72; 45; 30; 163; 238; 137; 222; 212; 147; 111; 62; 60; 8; 4; 54; 245; 57; 250; 19; 126; 116; 198; 211; 56; 155; 223; 90; 69; 7; 76; 71; 188; 123; 32; 176; 148; 132; 7; 166; 109; 133; 94; 47],
   [11; 20; 105; 62; 99; 32; 102; 141; 100; 235; 179; 191; 110; 235; 129; 170; 252; 219; 115; 32; 236; 222; 128; 162; 69; 120; 109; 27; 10; 128; 138; 21; 199; 23; 220; 142; 136; 19; 191; 100; 191; 74; 165; 124; 41; 195; 62; 145; 61; 108; 225; 135; 158; 82; 225; 145; 159; 184; 62; 74; 32; 142; 218; 164]);
  (224%Z, [203; 42; 35; 79; 69; 226; 236; 213; 134; 56; 149; 164; 81; 211; 137; 163; 105; 170; 185; 156; 254; 240; 213; 201; 255; 202; 30; 110; 99; 247; 99; 181; 193; 79; 185; 180; 120; 49; 60; 142; 140; 14; 254; 179; 172; 149; 0; 207; 95; 217; 55; 145; 183; 137; 230; 126; 172; 18; 253; 3; 142; 37; 71; 204; 142; 15; 201; 219; 89; 31; 51; 161; 228; 144; 124; 100; 169; 34; 221; 162; 62; 201; 130; 115; 16; 179; 6; 9; 133; 84; 164; 167; 143; 5; 2; 98; 219; 91; 84; 91; 21; 158; 31; 241; 220; 166; 235; 115; 75; 135; 35; 67; 184; 66; 197; 126; 175; 207; 218; 132; 5; 238; 219; 180; 142; 243; 46; 153; 105; 109; 19; 89; 121; 35; 92; 58; 5; 54; 78; 55; 28; 45; 118; 241; 144; 47; 29; 131; 20; 109; 249; 73; 92; 10; 108; 87; 215; 191; 158; 231; 126; 128; 249; 120; 122; 238; 39; 190; 31; 225; 38; 205; 201; 239; 137; 58; 74; 125; 203; 188; 54; 126; 64; 254; 78; 30; 233; 11; 66; 234; 37; 175; 1],
   [165; 118; 40; 28; 250; 168; 157; 206; 251; 29; 55; 119; 36; 0; 186; 76; 171; 206; 239; 51; 203; 162; 248; 51; 51; 106; 116; 242]);
  (256%Z, [203; 42; 35; 79; 69; 226; 236; 213; 134; 56; 149; 164; 81; 211; 137; 163; 105; 170; 185; 156; 254; 240; 213; 201; 255; 202; 30; 110; 99; 247; 99; 181; 193; 79; 185; 180; 120; 49; 60; 142; 140; 14; 254; 179; 172; 149; 0; 207; 95; 217; 55; 145; 183; 137; 230; 126; 172; 18; 253; 3; 142; 37; 71; 204; 142; 15; 201; 219; 89; 31; 51; 161; 228; 144; 124; 100; 169; 34; 221; 162; 62; 201; 130; 115; 16; 179; 6; 9; 133; 84; 164; 167; 143; 5; 2; 98; 219; 91; 84; 91; 21; 158; 31; 241; 220; 166; 235; 115; 75; 135; 35; 67; 184; 66; 197; 126; 175; 207; 218; 132; 5; 238; 219; 180; 142; 243; 46; 153; 105; 109; 19; 89; 121; 35; 92; 58; 5; 54; 78; 55; 28; 45; 118; 241; 144; 47; 29; 131; 20; 109; 249; 73; 92; 10; 108; 87; 215; 191; 158; 231; 126; 128; 249; 120; 122; 238; 39; 190; 31; 225; 38; 205; 201; 239; 137; 58; 74; 125; 203; 188; 54; 126; 64; 254; 78; 30; 233; 11; 66; 234; 37; 175; 1],
   [21; 1; 152; 138; 85; 55; 42; 193; 176; 183; 136; 73; 243; 183; 225; 7; 224; 191; 31; 44; 186; 246; 112; 222; 127; 21; 172; 187; 26; 0; 173; 61]);
  (384%Z, [203; 42; 35; 79; 69; 226; 236; 213; 134; 56; 149; 164; 81; 211; 137; 163; 105; 170; 185; 156; 254; 240; 213; 201; 255; 202; 30; 110; 99; 247; 99; 181; 193; 79; 185; 180; 120; 49; 60; 142; 140; 14; 254; 179; 172; 149; 0; 207; 95; 217; 55; 145; 183; 137; 230; 126; 172; 18; 253; 3; 142; 37; 71; 204; 142; 15; 201; 219; 89; 31; 51; 161; 228; 144; 124; 100; 169; 34; 221; 162; 62; 201; 130; 115; 16; 179; 6; 9; 133; 84; 164; 167; 143; 5; 2; 98; 219; 91; 84; 91; 21; 158; 31; 241; 220; 166; 235; 115; 75; 135; 35; 67; 184; 66; 197; 126; 175; 207; 218; 132; 5; 238; 219; 180; 142; 243; 46; 153; 105; 109; 19; 89; 121; 35; 92; 58; 5; 54; 78; 55; 28; 45; 118; 241; 144; 47; 29; 131; 20; 109; 249; 73; 92; 10; 108; 87; 215; 191; 158; 231; 126; 128; 249; 120; 122; 238; 39; 190; 31; 225; 38; 205; 201; 239; 137; 58; 74; 125; 203; 188; 54; 126; 64; 254; 78; 30; 233; 11; 66; 234; 37; 175; 1],
   [247; 129; 6; 241; 14; 108; 31; 28; 165; 25; 15; 229; 65; 52; 81; 69; 238; 37; 188; 81; 211; 193; 203; 170; 160; 76; 13; 178; 163; 186; 37; 132; 221; 211; 15; 58; 136; 155; 148; 187; 203; 149; 115; 205; 148; 23; 87; 76]);
  (512%Z, [203; 42; 35; 79; 69; 226; 236; 213; 134; 56; 149; 164; 81; 211; 137; 163; 105; 170; 185; 156; 254; 240; 213; 201; 255; 202; 30; 110; 99; 247; 99; 181; 193; 79; 185; 180; 120; 49; 60; 142; 140; 14; 254; 179; 172; 149; 0; 207; 95; 217; 55; 145; 183; 137; 230; 126; 172; 18; 253; 3; 142; 37; 71; 204; 142; 15; 201; 219; 89; 31; 51; 161; 228; 144; 124; 100; 169; 34; 221; 162; 62; 201; 130; 115; 16; 179; 6; 9; 133; 84; 164; 167; 143; 5; 2; 98; 219; 91; 84; 91; 21; 158; 31; 241; 220; 166; 235; 115; 75; 135; 35; 67; 184; 66; 197; 126; 175; 207; 218; 132; 5; 238; 219; 180; 142; 243; 46; 153; 105; 109; 19; 89; 121; 35; 92; 58; 5; 54; 78; 55; 28; 45; 118; 241; 144; 47; 29; 131; 20; 109; 249; 73; 92; 10; 108; 87; 215; 191; 158; 231; 126; 128; 249; 120; 122; 238; 39; 190; 31; 225; 38; 205; 201; 239; 137; 58; 74; 125; 203; 188; 54; 126; 64; 254; 78; 30; 233; 11; 66; 234; 37; 175; 1],
   [106; 244; 255; 76; 66; 48; 81; 227; 48; 106; 206; 129; 46; 92; 250; 133; 83; 43; 115; 222; 239; 13; 254; 96; 29; 38; 48; 99; 35; 137; 208; 250; 178; 161; 9; 33; 77; 50; 80; 141; 35; 145; 119; 86; 101; 184; 122; 148; 209; 223; 41; 219; 18; 20; 203; 72; 222; 193; 13; 189; 61; 140; 245; 145]);
  (224%Z, [238; 203; 184; 253; 250; 77; 166; 33; 112; 253; 6; 114; 127; 105; 125; 129; 248; 63; 96; 31; 246; 30; 71; 129; 5; 211; 203; 117; 2; 242; 200; 155; 243; 232; 245; 110; 221; 70; 157; 4; 152; 7; 163; 136; 130; 167; 238; 251; 200; 95; 201; 169; 80; 149; 46; 159; 168; 75; 138; 254; 189; 60; 231; 130; 212; 218; 89; 128; 2; 130; 123; 30; 185; 136; 130; 234; 31; 10; 143; 122; 169; 206; 1; 58; 110; 155; 196; 98; 251; 102; 200; 212; 161; 141; 162; 20; 1; 225; 185; 51; 86; 235; 18; 243; 114; 91; 109; 177; 104; 79; 35; 0; 169; 139; 154; 17; 158; 93; 39; 255; 112; 74; 255; 182; 24; 225; 39; 8; 231; 126; 110; 95; 52; 19; 154; 90; 65; 19; 31; 209; 214; 51; 108; 39; 42; 143; 195; 112; 128; 240; 65; 199; 19; 65; 190; 230; 171; 85; 12; 180; 162; 10; 109; 219; 106; 142; 2; 153; 242; 177; 75; 199; 48; 197; 75; 139; 28; 28; 72; 123; 73; 75; 220; 207; 211; 165; 53; 53; 171; 47; 35; 21; 144; 191; 44; 64; 98; 253; 42; 213; 143; 144; 106; 45; 13],
   [205; 181; 0; 116; 8; 18; 160; 215; 12; 104; 208; 9; 125; 204; 122; 202; 134; 236; 6; 108; 137; 211; 102; 66; 135; 154; 116; 165]);
  (256%Z, [238; 203; 184; 253; 250; 77; 166; 33; 112; 253; 6; 114; 127; 105; 125; 129; 248; 63; 96; 31; 246; 30; 71; 129; 5; 211; 203; 117; 2; 242; 200; 155; 243; 232; 245; 110; 221; 70; 157; 4; 152; 7; 163; 136; 130; 167; 238; 251; 200; 95; 201; 169; 80; 149; 46; 159; 168; 75; 138; 254; 189; 60; 231; 130; 212; 218; 89; 128; 2; 130; 123; 30; 185; 136; 130; 234; 31; 10; 143; 122; 169; 206; 1; 58; 110; 155; 196; 98; 251; 102; 200; 212; 161; 141; 162; 20; 1; 225; 185; 51; 86; 235; 18; 243; 114; 91; 109; 177; 104; 79; 35; 0; 169; 139; 154; 17; 158; 93; 39; 255; 112; 74; 255; 182; 24; 225; 39; 8; 231; 126; 110; 95; 52; 19; 154; 90; 65; 19; 31; 209; 214; 51; 108; 39; 42; 143; 195; 112; 128; 240; 65; 199; 19; 65; 190; 230; 171; 85; 12; 180; 162; 10; 109; 219; 106; 142; 2; 153; 242; 177; 75; 199; 48; 197; 75; 139; 28; 28; 72; 123; 73; 75; 220; 207; 211; 165; 53; 53; 171; 47; 35; 21; 144; 191; 44; 64; 98; 253; 42; 213; 143; 144; 106; 45; 13],
   [203; 55; 19; 165; 213; 171; 188; 106; 247; 47; 139; 56; 167; 1; 199; 18; 105; 179; 181; 28; 98; 236; 81; 22; 249; 106; 208; 212; 42; 16; 253; 144]);
  (384%Z, [238; 203; 184; 253; 250; 77; 166; 33; 112; 253; 6; 114; 127; 105; 125; 129; 248; 63; 96; 31; 246; 30; 71; 129; 5; 211; 203; 117; 2; 242; 200; 155; 243; 232; 245; 110; 221; 70; 157; 4; 152; 7; 163; 136; 130; 167; 238; 251; 200; 95; 201; 169; 80; 149; 46; 159; 168; 75; 138; 254; 189; 60; 231; 130; 212; 218; 89; 128; 2; 130; 123; 30; 185; 136; 130; 234; 31; 10; 143; 122; 169; 206; 1; 58; 110; 155; 196; 98; 251; 102; 200; 212; 161; 141; 162; 20; 1; 225; 185; 51; 86; 235; 18; 243; 114; 91; 109; 177; 104; 79; 35; 0; 169; 139; 154; 17; 158; 93; 39; 255; 112; 74; 255; 182; 24; 225; 39; 8; 231; 126; 110; 95; 52; 19; 154; 90; 65; 19; 31; 209; 214; 51; 108; 39; 42; 143; 195; 112; 128; 240; 65; 199; 19; 65; 190; 230; 171; 85; 12; 180; 162; 10; 109; 219; 106; 142; 2; 153; 242; 177; 75; 199; 48; 197; 75; 139; 28; 28; 72; 123; 73; 75; 220; 207; 211; 165; 53; 53; 171; 47; 35; 21; 144; 191; 44; 64; 98; 253; 42; 213; 143; 144; 106; 45; 13],
   [122; 159; 225; 63; 227; 49; 129; 33; 186; 187; 52; 10; 59; 4; 93; 200; 157; 27; 226; 208; 236; 5; 128; 44; 146; 84; 254; 195; 158; 252; 222; 22; 60; 81; 77; 205; 186; 63; 249; 63; 155; 9; 116; 134; 194; 1; 35; 133]);
  (512%Z, [238; 203; 184; 253; 250; 77; 166; 33; 112; 253; 6; 114; 127; 105; 125; 129; 248; 63; 96; 31; 246; 30; 71; 129; 5; 211; 203; 117; 2; 242; 200; 155; 243; 232; 245; 110; 221; 70; 157; 4; 152; 7; 163; 136; 130; 167; 238; 251; 200; 95; 201; 169; 80; 149; 46; 159; 168; 75; 138; 254; 189; 60; 231; 130; 212; 218; 89; 128; 2; 130; 123; 30; 185; 136; 130; 234; 31; 10; 143; 122; 169; 206; 1; 58; 110; 155; 196; 98; 251; 102; 200; 212; 161; 141; 162; 20; 1; 225; 185; 51; 86; 235; 18; 243; 114; 91; 109; 177; 104; 79; 35; 0; 169; 139; 154; 17; 158; 93; 39; 255; 112; 74; 255; 182; 24; 225; 39; 8; 231; 126; 110; 95; 52; 19; 154; 90; 65; 19; 31; 209; 214; 51; 108; 39; 42; 143; 195; 112; 128; 240; 65; 199; 19; 65; 190; 230; 171; 85; 12; 180; 162; 10; 109; 219; 106; 142; 2; 153; 242; 177; 75; 199; 48; 197; 75; 139; 28; 28; 72; 123; 73; 75; 220; 207; 211; 165; 53; 53; 171; 47; 35; 21; 144; 191; 44; 64; 98; 253; 42; 213; 143; 144; 106; 45; 13],
   [239; 38; 161; 186; 243; 61; 77; 224; 71; 189; 210; 206; 52; 115; 110; 4; 46; 205; 51; 170; 86; 159; 252; 12; 184; 30; 207; 166; 110; 159; 135; 218; 141; 2; 94; 203; 162; 75; 203; 24; 126; 66; 1; 4; 111; 185; 154; 2; 223; 166; 241; 191; 136; 236; 43; 136; 222; 33; 108; 247; 89; 250; 196; 29]);
  (224%Z, [45; 132; 39; 67; 61; 12; 97; 242; 217; 108; 254; 128; 207; 30; 147; 34; 101; 161; 145; 54; 92; 59; 97; 170; 163; 214; 220; 192; 57; 246; 186; 42; 213; 42; 106; 140; 195; 15; 193; 15; 112; 94; 107; 119; 5; 16; 89; 119; 250; 73; 108; 28; 112; 138; 39; 122; 18; 67; 4; 241; 252; 64; 145; 30; 116; 65; 209; 181; 231; 123; 149; 26; 173; 123; 1; 253; 93; 177; 179; 119; 209; 101; 176; 91; 191; 137; 128; 66; 227; 150; 96; 202; 248; 178; 121; 254; 82; 41; 209; 168; 219; 134; 192; 153; 158; 214; 94; 83; 208; 28; 203; 196; 180; 49; 115; 204; 249; 146; 179; 161; 69; 134; 246; 186; 66; 245; 254; 48; 175; 168; 174; 64; 197; 223; 41; 150; 111; 147; 70; 218; 95; 139; 53; 241; 106; 29; 227; 171; 109; 224; 244; 119; 216; 216; 102; 9; 24; 6; 14; 136; 185; 185; 233; 202; 106; 66; 7; 3; 59; 135; 168; 18; 219; 245; 84; 77; 57; 228; 136; 32; 16; 248; 43; 108; 224; 5; 248; 232; 255; 111; 227; 195; 128; 107; 194; 183; 60; 43; 131; 175; 183; 4; 52; 86; 41; 48; 79; 159; 134; 53; 135; 18; 233; 250; 227; 202; 62],
   [124; 201; 238; 187; 224; 223; 70; 163; 152; 35; 63; 163; 18; 134; 248; 165; 48; 41; 43; 83; 228; 139; 165; 75; 106; 228; 4; 114]);
  (256%Z, [45; 132; 39; 67; 61; 12; 97; 242; 217; 108; 254; 128; 207; 30; 147; 34; 101; 161; 145; 54; 92; 59; 97; 170; 163; 214; 220; 192; 57; 246; 186; 42; 213; 42; 106; 140; 195; 15; 193; 15; 112; 94; 107; 119; 5; 16; 89; 119; 250; 73; 108; 28; 112; 138; 39; 122; 18; 67; 4; 241; 252; 64; 145; 30; 116; 65; 209; 181; 231; 123; 149; 26; 173; 123; 1; 253; 93; 177; 179; 119; 209; 101; 176; 91; 191; 137; 128; 66; 227; 150; 96; 202; 248; 178; 121; 254; 82; 41; 209; 168; 219; 134; 192; 153; 158; 214; 94; 83; 208; 28; 203; 196; 180; 49; 115; 204; 249; 146; 179; 161; 69; 134; 246; 186; 66; 245; 254; 48; 175; 168; 174; 64; 197; 223; 41; 150; 111; 147; 70; 218; 95; 139; 53; 241; 106; 29; 227; 171; 109; 224; 244; 119; 216; 216; 102; 9; 24; 6; 14; 136; 185; 185; 233; 202; 106; 66; 7; 3; 59; 135; 168; 18; 219; 245; 84; 77; 57; 228; 136; 32; 16; 248; 43; 108; 224; 5; 248; 232; 255; 111; 227; 195; 128; 107; 194; 183; 60; 43; 131; 175; 183; 4; 52; 86; 41; 48; 79; 159; 134; 53; 135; 18; 233; 250; 227; 202; 62],
   [215; 21; 95; 109; 58; 144; 128; 31; 94; 84; 118; 137; 56; 159; 246; 42; 96; 76; 129; 183; 193; 88; 61; 146; 4; 172; 107; 1; 148; 240; 232; 221]);
  (384%Z, [45; 132; 39; 67; 61; 12; 97; 242; 217; 108; 254; 128; 207; 30; 147; 34; 101; 161; 145; 54; 92; 59; 97; 170; 163; 214; 220; 192; 57; 246; 186; 42; 213; 42; 106; 140; 195; 15; 193; 15; 112; 94; 107; 119; 5; 16; 89; 119; 250; 73; 108; 28; 112; 138; 39; 122; 18; 67; 4; 241; 252; 64; 145; 30; 116; 65; 209; 181; 231; 123; 149; 26; 173; 123; 1; 253; 93; 177; 179; 119; 209; 101; 176; 91; 191; 137; 128; 66; 227; 150; 96; 202; 248; 178; 121; 254; 82; 41; 209; 168; 219; 134; 192; 153; 158; 214; 94; 83; 208; 28; 203; 196; 180; 49; 115; 204; 249; 146; 179; 161; 69; 134; 246; 186; 66; 245; 254; 48; 175; 168; 174; 64; 197; 223; 41; 150; 111; 147; 70; 218; 95; 139; 53; 241; 106; 29; 227; 171; 109; 224; 244; 119; 216; 216; 102; 9; 24; 6; 14; 136; 185; 185; 233; 202; 106; 66; 7; 3; 59; 135; 168; 18; 219; 245; 84; 77; 57; 228; 136; 32; 16; 248; 43; 108; 224; 5; 248; 232; 255; 111; 227; 195; 128; 107; 194; 183; 60; 43; 131; 175; 183; 4; 52; 86; 41; 48; 79; 159; 134; 53; 135; 18; 233; 250; 227; 202; 62],
   [162; 155; 203; 137; 253; 43; 137; 0; 103; 130; 8; 139; 249; 164; 171; 147; 158; 171; 175; 246; 244; 238; 252; 49; 176; 26; 102; 183; 60; 223; 11; 151; 125; 148; 94; 5; 29; 126; 159; 2; 241; 156; 243; 42; 212; 190; 186; 108]);
  (512%Z, [45; 132; 39; 67; 61; 12; 97; 242; 217; 108; 254; 128; 207; 30; 147; 34; 101; 161; 145; 54; 92; 59; 97; 170; 163; 214; 220; 192; 57; 246; 186; 42; 213; 42; 106; 140; 195; 15; 193; 15; 112; 94; 107; 119; 5; 16; 89; 119; 250; 73; 108; 28; 112; 138; 39; 122; 18; 67; 4; 241; 252; 64; 145; 30; 116; 65; 209; 181; 231; 123; 149; 26; 173; 123; 1; 253; 93; 177; 179; 119; 209; 101; 176; 91; 191; 137; 128; 66; 227; 150; 96; 202; 248; 178; 121; 254; 82; 41; 209; 168; 219; 134; 192; 153; 158; 214; 94; 83; 208; 28; 203; 196; 180; 49; 115; 204; 249; 146; 179; 161; 69; 134; 246; 186; 66; 245; 254; 48; 175; 168; 174; 64; 197; 223; 41; 150; 111; 147; 70; 218; 95; 139; 53; 241; 106; 29; 227; 171; 109; 224; 244; 119; 216; 216; 102; 9; 24; 6; 14; 136; 185; 185; 233; 202; 106; 66; 7; 3; 59; 135; 168; 18; 219; 245; 84; 77; 57; 228; 136; 32; 16; 248; 43; 108; 224; 5; 248; 232; 255; 111; 227; 195; 128; 107; 194; 183; 60; 43; 131; 175; 183; 4; 52; 86; 41; 48; 79; 159; 134; 53; 135; 18; 233; 250; 227; 202; 62],
   [250; 238; 70; 46; 75; 206; 209; 42; 213; 77; 55; 87; 214; 68; 57; 110; 217; 32; 48; 55; 116; 22; 97; 174; 163; 43; 204; 173; 174; 86; 140; 75; 220; 146; 94; 218; 118; 97; 14; 150; 79; 190; 63; 178; 107; 51; 188; 11; 193; 35; 221; 249; 181; 40; 113; 83; 23; 206; 92; 146; 224; 10; 201; 111]);
  (224%Z, [56; 117; 185; 36; 12; 243; 224; 168; 181; 156; 101; 133; 64; 242; 106; 112; 28; 241; 136; 73; 110; 44; 33; 116; 120; 139; 18; 111; 210; 148; 2; 214; 167; 84; 83; 186; 6; 53; 40; 77; 8; 131; 95; 64; 5; 26; 42; 150; 131; 220; 146; 175; 185; 56; 55; 25; 25; 18; 49; 23; 3; 121; 186; 111; 74; 220; 129; 111; 236; 187; 15; 156; 68; 107; 120; 91; 245; 32; 121; 104; 65; 229; 136; 120; 183; 60; 88; 211; 235; 176; 151; 206; 71; 97; 253; 234; 190; 21; 222; 47; 49; 157; 251; 175; 23; 66; 205; 235; 56; 149; 89; 199; 136; 19; 26; 103; 147; 225; 147; 133; 102; 97; 55; 108; 129; 206; 149; 104; 218; 25; 170; 105; 37; 180; 127; 253; 119; 164; 60; 122; 14; 117; 140; 55; 214; 146; 84; 144; 159; 240; 251; 212; 21; 239; 142; 185; 55; 188; 212; 159; 145; 70; 139; 73; 151; 76; 7; 220; 129; 154; 189; 103; 57; 93; 176; 224; 88; 116; 255; 131; 221; 218; 184; 149; 52; 74; 189; 14; 113; 17; 178; 223; 158; 88; 215; 109; 133; 173; 152; 16; 107; 54; 41; 88; 38; 190; 4; 212; 53; 97; 85; 149; 96; 94; 75; 75; 184; 36; 179; 60; 74; 254; 181; 231; 187; 13; 25; 249; 9],
   [234; 233; 17; 230; 102; 97; 220; 211; 71; 43; 69; 138; 72; 183; 71; 48; 70; 137; 35; 199; 171; 202; 199; 243; 17; 240; 36; 99]);
  (256%Z, [56; 117; 185; 36; 12; 243; 224; 168; 181; 156; 101; 133; 64; 242; 106; 112; 28; 241; 136; 73; 110; 44; 33; 116; 120; 139; 18; 111; 210; 148; 2; 214; 167; 84; 83; 186; 6; 53; 40; 77; 8; 131; 95; 64; 5; 26; 42; 150; 131; 220; 146; 175; 185; 56; 55; 25; 25; 18; 49; 23; 3; 121; 186; 111; 74; 220; 129; 111; 236; 187; 15; 156; 68; 107; 120; 91; 245; 32; 121; 104; 65; 229; 136; 120; 183; 60; 88; 211; 235; 176; 151; 206; 71; 97; 253; 234; 190; 21; 222; 47; 49; 157; 251; 175; 23; 66; 205; 235; 56; 149; 89; 199; 136; 19; 26; 103; 147; 225; 147; 133; 102; 97; 55; 108; 129; 206; 149; 104; 218; 25; 170; 105; 37; 180; 127; 253; 119; 164; 60; 122; 14; 117; 140; 55; 214; 146; 84; 144; 159; 240; 251; 212; 21; 239; 142; 185; 55; 188; 212; 159; 145; 70; 139; 73; 151; 76; 7; 220; 129; 154; 189; 103; 57; 93; 176; 224; 88; 116; 255; 131; 221; 218; 184; 149; 52; 74; 189; 14; 113; 17; 178; 223; 158; 88; 215; 109; 133; 173; 152; 16; 107; 54; 41; 88; 38; 190; 4; 212; 53; 97; 85; 149; 96; 94; 75; 75; 184; 36; 179; 60; 74; 254; 181; 231; 187; 13; 25; 249; 9],
   [85; 144; 187; 117; 36; 125; 124; 208; 179; 86; 32; 240; 6; 43; 144; 255; 178; 162; 77; 228; 18; 32; 237; 98; 157; 158; 154; 122; 188; 173; 251; 81]);
  (384%Z, [56; 117; 185; 36; 12; 243; 224; 168; 181; 156; 101; 133; 64; 242; 106; 112; 28; 241; 136; 73; 110; 44; 33; 116; 120; 139; 18; 111; 210; 148; 2; 214; 167; 84; 83; 186; 6; 53; 40; 77; 8; 131; 95; 64; 5; 26; 42; 150; 131; 220; 146; 175; 185; 56; 55; 25; 25; 18; 49; 23; 3; 121; 186; 111; 74; 220; 129; 111; 236; 187; 15; 156; 68; 107; 120; 91; 245; 32; 121; 104; 65; 229; 136; 120; 183; 60; 88; 211; 235; 176; 151; 206; 71; 97; 253; 234; 190; 21; 222; 47; 49; 157; 251; 175; 23; 66; 205; 235; 56; 149; 89; 199; 136; 19; 26; 103; 147; 225; 147; 133; 102; 97; 55; 108; 129; 206; 149; 104; 218; 25; 170; 105; 37; 180; 127; 253; 119; 164; 60; 122; 14; 117; 140; 55; 214; 146; 84; 144; 159; 240; 251; 212; 21; 239; 142; 185; 55; 188; 212; 159; 145; 70; 139; 73; 151; 76; 7; 220; 129; 154; 189; 103; 57; 93; 176; 224; 88; 116; 255; 131; 221; 218; 184; 149; 52; 74; 189; 14; 113; 17; 178; 223; 158; 88; 215; 109; 133; 173; 152; 16; 107; 54; 41; 88; 38; 190; 4; 212; 53; 97; 85; 149; 96; 94; 75; 75; 184; 36; 179; 60; 74; 254; 181; 231; 187; 13; 25; 249; 9],
   [104; 164; 124; 125; 18; 78; 138; 234; 92; 254; 239; 122; 157; 140; 167; 170; 141; 246; 238; 230; 101; 45; 227; 163; 133; 35; 31; 41; 188; 75; 152; 58; 236; 138; 242; 166; 19; 41; 182; 75; 181; 154; 69; 183; 122; 56; 228; 223]);
  (512%Z, [56; 117; 185; 36; 12; 243; 224; 168; 181; 156; 101; 133; 64; 242; 106; 112; 28; 241; 136; 73; 110; 44; 33; 116; 120; 139; 18; 111; 210; 148; 2; 214; 167; 84; 83; 186; 6; 53; 40; 77; 8; 131; 95; 64; 5; 26; 42; 150; 131; 220; 146; 175; 185; 56; 55; 25; 25; 18; 49; 23; 3; 121; 186; 111; 74; 220; 129; 111; 236; 187; 15; 156; 68; 107; 120; 91; 245; 32; 121; 104; 65; 229; 136; 120; 183; 60; 88; 211; 235; 176; 151; 206; 71; 97; 253; 234; 190; 21; 222; 47; 49; 157; 251; 175; 23; 66; 205; 235; 56; 149; 89; 199; 136; 19; 26; 103; 147; 225; 147; 133; 102; 97; 55; 108; 129; 206; 149; 104; 218; 25; 170; 105; 37; 180; 127; 253; 119; 164; 60; 122; 14; 117; 140; 55; 214; 146; 84; 144; 159; 240; 251; 212; 21; 239; 142; 185; 55; 188; 212; 159; 145; 70; 139; 73; 151; 76; 7; 220; 129; 154; 189; 103; 57; 93; 176; 224; 88; 116; 255; 131; 221; 218; 184; 149; 52; 74; 189; 14; 113; 17; 178; 223; 158; 88; 215; 109; 133; 173; 152; 16; 107; 54; 41; 88; 38; 190; 4; 212; 53; 97; 85; 149; 96; 94; 75; 75; 184; 36; 179; 60; 74; 254; 181; 231; 187; 13; 25; 249; 9],
   [255; 246; 119; 187; 88; 144; 156; 21; 142; 166; 119; 190; 112; 66; 83; 80; 91; 16; 106; 249; 52; 246; 57; 171; 254; 198; 59; 208; 198; 48; 151; 170; 75; 240; 50; 254; 146; 65; 73; 221; 153; 29; 51; 94; 28; 68; 192; 34; 14; 77; 19; 203; 196; 27; 106; 152; 251; 90; 5; 250; 163; 254; 21; 179]);
  (224%Z, [97; 114; 241; 151; 26; 110; 30; 78; 97; 112; 175; 186; 217; 93; 95; 236; 153; 191; 105; 178; 75; 103; 75; 193; 125; 215; 128; 17; 97; 94; 80; 45; 230; 245; 107; 134; 177; 167; 29; 63; 67; 72; 8; 114; 24; 172; 123; 125; 9; 48; 41; 147; 190; 39; 46; 74; 89; 25; 104; 174; 241; 138; 18; 98; 214; 101; 97; 13; 16; 112; 238; 145; 204; 141; 163; 110; 31; 132; 26; 105; 167; 166; 130; 197; 128; 232; 54; 148; 29; 33; 217; 9; 163; 175; 193; 240; 185; 99; 225; 202; 90; 177; 147; 225; 36; 161; 165; 61; 241; 197; 135; 71; 14; 88; 129; 251; 84; 218; 225; 176; 216; 64; 240; 200; 249; 209; 176; 76; 100; 91; 161; 4; 28; 125; 141; 191; 34; 3; 10; 98; 58; 161; 86; 56; 179; 217; 154; 44; 64; 15; 247; 111; 50; 82; 7; 154; 248; 141; 43; 55; 243; 94; 230; 108; 26; 215; 128; 26; 40; 211; 211; 136; 172; 69; 11; 151; 213; 240; 247; 158; 69; 65; 117; 83; 86; 179; 177; 165; 105; 107; 2; 63; 57; 171; 122; 181; 242; 141; 244; 32; 41; 54; 188; 151; 57; 59; 147; 188; 145; 92; 177; 89; 234; 27; 215; 160; 164; 20; 203; 75; 122; 26; 195; 175; 104; 245; 13; 121; 240; 201; 199; 49; 78; 117; 15; 125; 2; 250; 165; 139; 250],
   [161; 235; 66; 251; 7; 146; 54; 31; 13; 104; 9; 162; 232; 220; 6; 47; 9; 242; 133; 91; 57; 188; 44; 75; 127; 84; 49; 30]);
  (256%Z, [97; 114; 241; 151; 26; 110; 30; 78; 97; 112; 175; 186; 217; 93; 95; 236; 153; 191; 105; 178; 75; 103; 75; 193; 125; 215; 128; 17; 97; 94; 80; 45; 230; 245; 107; 134; 177; 167; 29; 63; 67; 72; 8; 114; 24; 172; 123; 125; 9; 48; 41; 147; 190; 39; 46; 74; 89; 25; 104; 174; 241; 138; 18; 98; 214; 101; 97; 13; 16; 112; 238; 145; 204; 141; 163; 110; 31; 132; 26; 105; 167; 166; 130; 197; 128; 232; 54; 148; 29; 33; 217; 9; 163; 175; 193; 240; 185; 99; 225; 202; 90; 177; 147; 225; 36; 161; 165; 61; 241; 197; 135; 71; 14; 88; 129; 251; 84; 218; 225; 176; 216; 64; 240; 200; 249; 209; 176; 76; 100; 91; 161; 4; 28; 125; 141; 191; 34; 3; 10; 98; 58; 161; 86; 56; 179; 217; 154; 44; 64; 15; 247; 111; 50; 82; 7; 154; 248; 141; 43; 55; 243; 94; 230; 108; 26; 215; 128; 26; 40; 211; 211; 136; 172; 69; 11; 151; 213; 240; 247; 158; 69; 65; 117; 83; 86; 179; 177; 165; 105; 107; 2; 63; 57; 171; 122; 181; 242; 141; 244; 32; 41; 54; 188; 151; 57; 59; 147; 188; 145; 92; 177; 89; 234; 27; 215; 160; 164; 20; 203; 75; 122; 26; 195; 175; 104; 245; 13; 121; 240; 201; 199; 49; 78; 117; 15; 125; 2; 250; 165; 139; 250],
   [78; 165; 36; 231; 5; 2; 2; 132; 177; 130; 132; 227; 70; 131; 114; 85; 144; 225; 238; 86; 90; 111; 245; 152; 237; 77; 66; 177; 201; 135; 71; 30]);
  (384%Z, [97; 114; 241; 151; 26; 110; 30; 78; 97; 112; 175; 186; 217; 93; 95; 236; 153; 191; 105; 178; 75; 103; 75; 193; 125; 215; 128; 17; 97; 94; 80; 45; 230; 245; 107; 134; 177; 167; 29; 63; 67; 72; 8; 114; 24; 172; 123; 125; 9; 48; 41; 147; 190; 39; 46; 74; 89; 25; 104; 174; 241; 138; 18; 98; 214; 101; 97; 13; 16; 112; 238; 145; 204; 141; 163; 110; 31; 132; 26; 105; 167; 166; 130; 197; 128; 232; 54; 148; 29; 33; 217; 9; 163; 175; 193; 240; 185; 99; 225; 202; 90; 177; 147; 225; 36; 161; 165; 61; 241; 197; 135; 71; 14; 88; 129; 251; 84; 218; 225; 176; 216; 64; 240; 200; 249; 209; 176; 76; 100; 91; 161; 4; 28; 125; 141; 191; 34; 3; 10; 98; 58; 161; 86; 56; 179; 217; 154; 44; 64; 15; 247; 111; 50; 82; 7; 154; 248; 141; 43; 55; 243; 94; 230; 108; 26; 215; 128; 26; 40; 211; 211; 136; 172; 69; 11; 151; 213; 240; 247; 158; 69; 65; 117; 83; 86; 179; 177; 165; 105; 107; 2; 63; 57; 171; 122; 181; 242; 141; 244; 32; 41; 54; 188; 151; 57; 59; 147; 188; 145; 92; 177; 89; 234; 27; 215; 160; 164; 20; 203; 75; 122; 26; 195; 175; 104; 245; 13; 121; 240; 201; 199; 49; 78; 117; 15; 125; 2; 250; 165; 139; 250],
   [175; 217; 75; 6; 31; 53; 75; 4; 208; 113; 131; 38; 215; 225; 10; 107; 89; 140; 227; 28; 195; 156; 82; 210; 101; 214; 207; 4; 228; 217; 238; 117; 204; 32; 1; 73; 54; 118; 0; 49; 46; 117; 20; 166; 47; 15; 9; 100]);
  (512%Z, [97; 114; 241; 151; 26; 110; 30; 78; 97; 112; 175; 186; 217; 93; 95; 236; 153; 191; 105; 178; 75; 103; 75; 193; 125; 215; 128; 17; 97; 94; 80; 45; 230; 245; 107; 134; 177; 167; 29; 63; 67; 72; 8; 114; 24; 172; 123; 125; 9; 48; 41; 147; 190; 39; 46; 74; 89; 25; 104; 174; 241; 138; 18; 98; 214; 101; 97; 13; 16; 112; 238; 145; 204; 141; 163; 110; 31; 132; 26; 105; 167; 166; 130; 197; 128; 232; 54; 148; 29; 33; 217; 9; 163; 175; 193; 240; 185; 99; 225; 202; 90; 177; 147; 225; 36; 161; 165; 61; 241; 197; 135; 71; 14; 88; 129; 251; 84; 218; 225; 176; 216; 64; 240; 200; 249; 209; 176; 76; 100; 91; 161; 4; 28; 125; 141; 191; 34; 3; 10; 98; 58; 161; 86; 56; 179; 217; 154; 44; 64; 15; 247; 111; 50; 82; 7; 154; 248; 141; 43; 55; 243; 94; 230; 108; 26; 215; 128; 26; 40; 211; 211; 136; 172; 69; 11; 151; 213; 240; 247; 158; 69; 65; 117; 83; 86; 179; 177; 165; 105; 107; 2; 63; 57; 171; 122; 181; 242; 141; 244; 32; 41; 54; 188; 151; 57; 59; 147; 188; 145; 92; 177; 89; 234; 27; 215; 160; 164; 20; 203; 75; 122; 26; 195; 175; 104; 245; 13; 121; 240; 201; 199; 49; 78; 117; 15; 125; 2; 250; 165; 139; 250],
   [165; 172; 35; 212; 160; 213; 51; 203; 157; 138; 104; 135; 63; 92; 183; 73; 34; 132; 88; 212; 60; 230; 189; 5; 54; 200; 115; 55; 119; 181; 230; 227; 242; 143; 211; 107; 255; 230; 144; 2; 160; 119; 123; 167; 79; 239; 34; 222; 63; 172; 76; 129; 139; 72; 66; 129; 108; 96; 148; 73; 111; 150; 133; 85]);
  (224%Z, [166; 254; 48; 220; 252; 218; 26; 50; 158; 130; 171; 80; 227; 43; 95; 80; 235; 37; 200; 115; 197; 210; 48; 88; 96; 168; 53; 174; 206; 230; 38; 74; 163; 106; 71; 66; 153; 34; 196; 184; 179; 175; 208; 13; 161; 96; 53; 131; 14; 219; 137; 120; 49; 196; 231; 176; 15; 44; 35; 252; 11; 21; 253; 195; 13; 133; 251; 112; 195; 12; 67; 28; 99; 142; 26; 37; 181; 28; 175; 29; 126; 139; 5; 11; 127; 137; 191; 179; 15; 89; 240; 242; 15; 236; 255; 61; 99; 154; 188; 66; 85; 179; 134; 143; 196; 93; 216; 30; 71; 235; 18; 171; 64; 242; 170; 199; 53; 223; 93; 29; 193; 173; 153; 124; 239; 196; 216; 54; 184; 84; 206; 233; 172; 2; 144; 0; 54; 243; 134; 127; 224; 216; 74; 255; 243; 123; 222; 51; 8; 194; 32; 108; 98; 196; 116; 51; 117; 9; 65; 8; 135; 124; 115; 184; 123; 37; 70; 254; 5; 234; 19; 123; 237; 252; 6; 162; 121; 98; 116; 9; 154; 13; 85; 77; 168; 247; 215; 34; 58; 72; 203; 243; 27; 125; 236; 170; 30; 188; 139; 20; 87; 99; 227; 103; 49; 104; 193; 177; 183; 21; 193; 205; 153; 236; 211; 221; 178; 56; 176; 96; 73; 136; 94; 202; 217; 52; 124; 36; 54; 223; 243; 44; 119; 31; 52; 163; 133; 135; 164; 74; 130; 197; 211; 209; 55; 160; 60; 170; 39; 230; 108; 143; 246],
   [34; 113; 85; 89; 173; 21; 113; 119; 34; 177; 250; 5; 131; 153; 96; 144; 199; 156; 61; 241; 108; 193; 230; 224; 246; 211; 232; 152]);
  (256%Z, [166; 254; 48; 220; 252; 218; 26; 50; 158; 130; 171; 80; 227; 43; 95; 80; 235; 37; 200; 115; 197; 210; 48; 88; 96; 168; 53; 174; 206; 230; 38; 74; 163; 106; 71; 66; 153; 34; 196; 184; 179; 175; 208; 13; 161; 96; 53; 131; 14; 219; 137; 120; 49; 196; 231; 176; 15; 44; 35; 252; 11; 21; 253; 195; 13; 133; 251; 112; 195; 12; 67; 28; 99; 142; 26; 37; 181; 28; 175; 29; 126; 139; 5; 11; 127; 137; 191; 179; 15; 89; 240; 242; 15; 236; 255; 61; 99; 154; 188; 66; 85; 179; 134; 143; 196; 93; 216; 30; 71; 235; 18; 171; 64; 242; 170; 199; 53; 223; 93; 29; 193; 173; 153; 124; 239; 196; 216; 54; 184; 84; 206; 233; 172; 2; 144; 0; 54; 243; 134; 127; 224; 216; 74; 255; 243; 123; 222; 51; 8; 194; 32; 108; 98; 196; 116; 51; 117; 9; 65; 8; 135; 124; 115; 184; 123; 37; 70; 254; 5; 234; 19; 123; 237; 252; 6; 162; 121; 98; 116; 9; 154; 13; 85; 77; 168; 247; 215; 34; 58; 72; 203; 243; 27; 125; 236; 170; 30; 188; 139; 20; 87; 99; 227; 103; 49; 104; 193; 177; 183; 21; 193; 205; 153; 236; 211; 221; 178; 56; 176; 96; 73; 136; 94; 202; 217; 52; 124; 36; 54; 223; 243; 44; 119; 31; 52; 163; 133; 135; 164; 74; 130; 197; 211; 209; 55; 160; 60; 170; 39; 230; 108; 143; 246],
   [33; 111; 195; 37; 249; 66; 238; 208; 132; 1; 82; 122; 143; 65; 192; 136; 82; 124; 100; 121; 52; 38; 34; 201; 7; 234; 8; 255; 50; 144; 248; 198]);
  (384%Z, [166; 254; 48; 220; 252; 218; 26; 50; 158; 130; 171; 80; 227; 43; 95; 80; 235; 37; 200; 115; 197; 210; 48; 88; 96; 168; 53; 174; 206; 230; 38; 74; 163; 106; 71; 66; 153; 34; 196; 184; 179; 175; 208; 13; 161; 96; 53; 131; 14; 219; 137; 120; 49; 196; 231; 176; 15; 44; 35; 252; 11; 21; 253; 195; 13; 133; 251; 112; 195; 12; 67; 28; 99; 142; 26; 37; 181; 28; 175; 29; 126; 139; 5; 11; 127; 137; 191; 179; 15; 89; 240; 242; 15; 236; 255; 61; 99; 154; 188; 66; 85; 179; 134; 143; 196; 93; 216; 30; 71; 235; 18; 171; 64; 242; 170; 199; 53; 223; 93; 29; 193; 173; 153; 124; 239; 196; 216; 54; 184; 84; 206; 233; 172; 2; 144; 0; 54; 243; 134; 127; 224; 216; 74; 255; 243; 123; 222; 51; 8; 194; 32; 108; 98; 196; 116; 51; 117; 9; 65; 8; 135; 124; 115; 184; 123; 37; 70; 254; 5; 234; 19; 123; 237; 252; 6; 162; 121; 98; 116; 9; 154; 13; 85; 77; 168; 247; 215; 34; 58; 72; 203; 243; 27; 125; 236; 170; 30; 188; 139; 20; 87; 99; 227; 103; 49; 104; 193; 177; 183; 21; 193; 205; 153; 236; 211; 221; 178; 56; 176; 96; 73; 136; 94; 202; 217; 52; 124; 36; 54; 223; 243; 44; 119; 31; 52; 163; 133; 135; 164; 74; 130; 197; 211; 209; 55; 160; 60; 170; 39; 230; 108; 143; 246],
   [254; 153; 241; 156; 121; 168; 144; 128; 226; 255; 144; 152; 29; 222; 145; 153; 69; 66; 212; 188; 193; 39; 106; 130; 209; 162; 229; 56; 80; 52; 27; 154; 213; 66; 44; 234; 184; 30; 105; 218; 229; 233; 29; 197; 255; 96; 225; 163]);
  (512%Z, [166; 254; 48; 220; 252; 218; 26; 50; 158; 130; 171; 80; 227; 43; 95; 80; 235; 37; 200; 115; 197; 210; 48; 88; 96; 168; 53; 174; 206; 230; 38; 74; 163; 106; 71; 66; 153; 34; 196; 184; 179; 175; 208; 13; 161; 96; 53; 131; 14; 219; 137; 120; 49; 196; 231; 176; 15; 44; 35; 252; 11; 21; 253; 195; 13; 133; 251; 112; 195; 12; 67; 28; 99; 142; 26; 37; 181; 28; 175; 29; 126; 139; 5; 11; 127; 137; 191; 179; 15; 89; 240; 242; 15; 236; 255; 61; 99; 154; 188; 66; 85; 179; 134; 143; 196; 93; 216; 30; 71; 235; 18; 171; 64; 242; 170; 199; 53; 223; 93; 29; 193; 173; 153; 124; 239; 196; 216; 54; 184; 84; 206; 233; 172; 2; 144; 0; 54; 243; 134; 127; 224; 216; 74; 255; 243; 123; 222; 51; 8; 194; 32; 108; 98; 196; 116; 51; 117; 9; 65; 8; 135; 124; 115; 184; 123; 37; 70; 254; 5; 234; 19; 123; 237; 252; 6; 162; 121; 98; 116; 9; 154; 13; 85; 77; 168; 247; 215; 34; 58; 72; 203; 243; 27; 125; 236; 170; 30; 188; 139; 20; 87; 99; 227; 103; 49; 104; 193; 177; 183; 21; 193; 205; 153; 236; 211; 221; 178; 56; 176; 96; 73; 136; 94; 202; 217; 52; 124; 36; 54; 223; 243; 44; 119; 31; 52; 163; 133; 135; 164; 74; 130; 197; 211; 209; 55; 160; 60; 170; 39; 230; 108; 143; 246],
   [214; 84; 42; 47; 6; 84; 185; 184; 116; 166; 39; 211; 213; 55; 100; 166; 91; 29; 242; 192; 206; 195; 188; 208; 180; 176; 136; 250; 161; 9; 94; 84; 241; 121; 151; 87; 196; 55; 31; 141; 84; 78; 41; 141; 96; 14; 33; 225; 27; 47; 144; 210; 149; 113; 38; 33; 35; 26; 9; 197; 139; 5; 167; 4]);
  (224%Z, [209; 137; 11; 71; 4; 225; 105; 194; 142; 68; 221; 246; 42; 16; 145; 69; 4; 4; 145; 5; 57; 252; 45; 174; 178; 110; 138; 207; 69; 51; 176; 36; 229; 33; 92; 45; 2; 130; 13; 216; 251; 44; 252; 23; 67; 149; 92; 186; 207; 240; 248; 243; 93; 251; 181; 227; 249; 66; 243; 98; 71; 246; 130; 17; 213; 24; 243; 246; 1; 170; 225; 42; 28; 220; 0; 11; 171; 67; 212; 201; 115; 242; 135; 232; 7; 65; 221; 31; 207; 108; 52; 242; 230; 180; 182; 195; 19; 208; 28; 79; 243; 203; 249; 22; 111; 38; 148; 111; 24; 239; 45; 88; 39; 27; 169; 35; 63; 9; 166; 183; 123; 253; 79; 72; 179; 110; 179; 215; 61; 17; 51; 196; 248; 66; 167; 220; 57; 7; 246; 128; 176; 183; 115; 36; 44; 17; 227; 221; 151; 58; 68; 50; 126; 167; 206; 169; 192; 248; 224; 125; 104; 43; 102; 81; 229; 6; 181; 135; 85; 159; 224; 30; 215; 33; 0; 11; 175; 87; 10; 22; 251; 221; 158; 162; 159; 163; 222; 244; 190; 145; 32; 88; 50; 26; 139; 114; 12; 92; 16; 46; 72; 166; 231; 237; 111; 136; 56; 212; 0; 221; 87; 208; 110; 237; 188; 209; 83; 35; 248; 109; 133; 92; 148; 178; 30; 65; 177; 78; 201; 225; 187; 200; 1; 146; 17; 253; 136; 19; 140; 145; 249; 171; 189; 155; 179; 145; 77; 38; 193; 221; 194; 22; 115; 210; 213; 18; 99; 179; 157; 102; 231; 65; 217; 36; 207; 43; 25; 44; 93; 44; 26; 20; 1; 38; 163; 214; 74; 44; 119; 190; 108; 44; 110; 190; 133; 153; 151; 138; 233; 11; 211; 108; 187; 154; 246; 77; 7; 137; 16; 196; 9; 74; 179; 191; 57; 156; 52; 242; 171; 142; 248; 67; 233; 254; 27; 248; 139; 244; 67; 186; 33; 228; 55; 126; 95; 73; 192; 127; 217; 101; 59; 82; 110; 20; 86; 34; 55; 240; 45; 17; 185; 4; 188; 166; 172; 49; 174; 114; 26; 67; 227; 196; 145; 10; 36; 175; 111; 77; 128; 192; 49; 193; 9; 252; 15; 228; 159; 21; 39; 75; 202; 146; 189; 160; 76; 59; 65; 150; 193; 146; 246; 206; 72; 156; 99; 168; 6; 172; 252; 137; 90; 181; 44; 173; 101; 124; 23; 131; 181; 40; 225; 45; 14; 216; 86; 225; 248; 252; 145; 242; 170; 253; 250; 10; 146; 73; 141; 104; 83; 7; 114; 238; 115; 179; 89; 252; 241; 65; 141; 16; 150; 196; 107; 52; 220; 249; 14; 91; 70; 139; 187; 41; 112; 190; 203; 215; 0; 137; 207; 176; 57; 214; 76; 197; 15; 255; 94; 239; 38; 56; 77; 52; 242; 69; 21; 166; 85; 139; 6; 161; 253; 216; 143; 16; 80; 197; 189; 120; 204; 110; 216; 61; 76; 43; 14; 136; 42; 235; 207; 132; 175; 176; 67; 13; 11; 240; 159; 47; 180; 43; 139; 69; 137; 21; 128; 147; 167; 112; 154; 174; 117; 167; 144; 145; 14; 33; 30; 225; 51; 63; 251; 111; 216; 7; 120; 218; 59; 247; 56; 88; 151; 142; 157; 214; 71; 151; 136; 65; 177; 128; 1; 219; 170; 234; 67; 202; 12; 10; 3; 219; 185; 188; 243; 12; 231; 106; 111; 75; 44; 242; 169; 182; 83; 27; 62; 64; 81; 231; 224; 80; 144; 205; 66; 27; 198; 108; 71; 49; 231; 18; 42; 209; 41; 252; 66; 222; 220; 131; 187; 70; 14; 63; 136; 153; 146; 251; 211; 202; 7; 38; 134; 229; 107; 114; 199; 32; 251; 201; 141; 114; 62; 247; 242; 71; 40; 111; 119; 204; 221; 199; 40; 115; 142; 148; 27; 26; 116; 212; 241; 102; 113; 194; 31; 221; 86; 67; 161; 21; 221; 188; 184; 142; 231; 236; 103; 234; 102; 253; 43; 206; 113; 141; 246; 224; 133; 212; 181; 252; 113; 167; 38; 150; 99; 106; 143; 123; 58; 104; 175; 165; 26; 137; 103; 113; 250; 170; 127; 31; 130; 116; 48; 172; 94; 128; 137; 219; 192; 212; 23; 94; 27; 34; 160; 87; 188; 95; 23; 36; 234; 220; 26; 65; 231; 143; 163; 172; 170; 139; 151; 229; 242; 225; 158; 249; 213; 154; 225; 43; 4; 231; 240; 232; 166; 33; 224; 152; 166; 105; 16; 226; 165; 237; 33; 2; 184; 36; 205; 62; 160; 68; 168; 84; 241; 205; 11; 51; 230; 30; 127; 115; 116; 20; 178; 149; 53; 73; 242; 93; 211; 77; 25; 170; 25; 129; 222; 124; 213; 100; 159; 246; 198; 54; 74; 79; 37; 49; 46; 246; 35; 149; 167; 71; 171; 136; 170; 215; 34; 192; 90; 236; 64; 222; 234; 142; 238; 94; 119; 158; 244; 88; 166; 136; 64; 188; 107; 213; 210; 154; 212; 15; 152; 179; 174; 1; 11; 98; 19; 55; 42; 187; 123; 184; 184],
   [151; 73; 91; 254; 218; 241; 202; 177; 142; 133; 25; 11; 55; 71; 41; 245; 84; 63; 163; 241; 205; 136; 67; 129; 86; 240; 26; 12]);
  (256%Z, [209; 137; 11; 71; 4; 225; 105; 194; 142; 68; 221; 246; 42; 16; 145; 69; 4; 4; 145; 5; 57; 252; 45; 174; 178; 110; 138; 207; 69; 51; 176; 36; 229; 33; 92; 45; 2; 130; 13; 216; 251; 44; 252; 23; 67; 149; 92; 186; 207; 240; 248; 243; 93; 251; 181; 227; 249; 66; 243; 98; 71; 246; 130; 17; 213; 24; 243; 246; 1; 170; 225; 42; 28; 220; 0; 11; 171; 67; 212; 201; 115; 242; 135; 232; 7; 65; 221; 31; 207; 108; 52; 242; 230; 180; 182; 195; 19; 208; 28; 79; 243; 203; 249; 22; 111; 38; 148; 111; 24; 239; 45; 88; 39; 27; 169; 35; 63; 9; 166; 183; 123; 253; 79; 72; 179; 110; 179; 215; 61; 17; 51; 196; 248; 66; 167; 220; 57; 7; 246; 128; 176; 183; 115; 36; 44; 17; 227; 221; 151; 58; 68; 50; 126; 167; 206; 169; 192; 248; 224; 125; 104; 43; 102; 81; 229; 6; 181; 135; 85; 159; 224; 30; 215; 33; 0; 11; 175; 87; 10; 22; 251; 221; 158; 162; 159; 163; 222; 244; 190; 145; 32; 88; 50; 26; 139; 114; 12; 92; 16; 46; 72; 166; 231; 237; 111; 136; 56; 212; 0; 221; 87; 208; 110; 237; 188; 209; 83; 35; 248; 109; 133; 92; 148; 178; 30; 65; 177; 78; 201; 225; 187; 200; 1; 146; 17; 253; 136; 19; 140; 145; 249; 171; 189; 155; 179; 145; 77; 38; 193; 221; 194; 22; 115; 210; 213; 18; 99; 179; 157; 102; 231; 65; 217; 36; 207; 43; 25; 44; 93; 44; 26; 20; 1; 38; 163; 214; 74; 44; 119; 190; 108; 44; 110; 190; 133; 153; 151; 138; 233; 11; 211; 108; 187; 154; 246; 77; 7; 137; 16; 196; 9; 74; 179; 191; 57; 156; 52; 242; 171; 142; 248; 67; 233; 254; 27; 248; 139; 244; 67; 186; 33; 228; 55; 126; 95; 73; 192; 127; 217; 101; 59; 82; 110; 20; 86; 34; 55; 240; 45; 17; 185; 4; 188; 166; 172; 49; 174; 114; 26; 67; 227; 196; 145; 10; 36; 175; 111; 77; 128; 192; 49; 193; 9; 252; 15; 228; 159; 21; 39; 75; 202; 146; 189; 160; 76; 59; 65; 150; 193; 146; 246; 206; 72; 156; 99; 168; 6; 172; 252; 137; 90; 181; 44; 173; 101; 124; 23; 131; 181; 40; 225; 45; 14; 216; 86; 225; 248; 252; 145; 242; 170; 253; 250; 10; 146; 73; 141; 104; 83; 7; 114; 238; 115; 179; 89; 252; 241; 65; 141; 16; 150; 196; 107; 52; 220; 249; 14; 91; 70; 139; 187; 41; 112; 190; 203; 215; 0; 137; 207; 176; 57; 214; 76; 197; 15; 255; 94; 239; 38; 56; 77; 52; 242; 69; 21; 166; 85; 139; 6; 161; 253; 216; 143; 16; 80; 197; 189; 120; 204; 110; 216; 61; 76; 43; 14; 136; 42; 235; 207; 132; 175; 176; 67; 13; 11; 240; 159; 47; 180; 43; 139; 69; 137; 21; 128; 147; 167; 112; 154; 174; 117; 167; 144; 145; 14; 33; 30; 225; 51; 63; 251; 111; 216; 7; 120; 218; 59; 247; 56; 88; 151; 142; 157; 214; 71; 151; 136; 65; 177; 128; 1; 219; 170; 234; 67; 202; 12; 10; 3; 219; 185; 188; 243; 12; 231; 106; 111; 75; 44; 242; 169; 182; 83; 27; 62; 64; 81; 231; 224; 80; 144; 205; 66; 27; 198; 108; 71; 49; 231; 18; 42; 209; 41; 252; 66; 222; 220; 131; 187; 70; 14; 63; 136; 153; 146; 251; 211; 202; 7; 38; 134; 229; 107; 114; 199; 32; 251; 201; 141; 114; 62; 247; 242; 71; 40; 111; 119; 204; 221; 199; 40; 115; 142; 148; 27; 26; 116; 212; 241; 102; 113; 194; 31; 221; 86; 67; 161; 21; 221; 188; 184; 142; 231; 236; 103; 234; 102; 253; 43; 206; 113; 141; 246; 224; 133; 212; 181; 252; 113; 167; 38; 150; 99; 106; 143; 123; 58; 104; 175; 165; 26; 137; 103; 113; 250; 170; 127; 31; 130; 116; 48; 172; 94; 128; 137; 219; 192; 212; 23; 94; 27; 34; 160; 87; 188; 95; 23; 36; 234; 220; 26; 65; 231; 143; 163; 172; 170; 139; 151; 229; 242; 225; 158; 249; 213; 154; 225; 43; 4; 231; 240; 232; 166; 33; 224; 152; 166; 105; 16; 226; 165; 237; 33; 2; 184; 36; 205; 62; 160; 68; 168; 84; 241; 205; 11; 51; 230; 30; 127; 115; 116; 20; 178; 149; 53; 73; 242; 93; 211; 77; 25; 170; 25; 129; 222; 124; 213; 100; 159; 246; 198; 54; 74; 79; 37; 49; 46; 246; 35; 149; 167; 71; 171; 136; 170; 215; 34; 192; 90; 236; 64; 222; 234; 142; 238; 94; 119; 158; 244; 88; 166; 136; 64; 188; 107; 213; 210; 154; 212; 15; 152; 179; 174; 1; 11; 98; 19; 55; 42; 187; 123; 184; 184],
   [199; 73; 11; 5; 177; 114; 161; 219; 170; 166; 111; 170; 130; 49; 8; 212; 76; 130; 241; 232; 42; 65; 253; 87; 253; 149; 0; 15; 48; 222; 116; 126]);
  (384%Z, [209; 137; 11; 71; 4; 225; 105; 194; 142; 68; 221; 246; 42; 16; 145; 69; 4; 4; 145; 5; 57; 252; 45; 174; 178; 110; 138; 207; 69; 51; 176; 36; 229; 33; 92; 45; 2; 130; 13; 216; 251; 44; 252; 23; 67; 149; 92; 186; 207; 240; 248; 243; 93; 251; 181; 227; 249; 66; 243; 98; 71; 246; 130; 17; 213; 24; 243; 246; 1; 170; 225; 42; 28; 220; 0; 11; 171; 67; 212; 201; 115; 242; 135; 232; 7; 65; 221; 31; 207; 108; 52; 242; 230; 180; 182; 195; 19; 208; 28; 79; 243; 203; 249; 22; 111; 38; 148; 111; 24; 239; 45; 88; 39; 27; 169; 35; 63; 9; 166; 183; 123; 253; 79; 72; 179; 110; 179; 215; 61; 17; 51; 196; 248; 66; 167; 220; 57; 7; 246; 128; 176; 183; 115; 36; 44; 17; 227; 221; 151; 58; 68; 50; 126; 167; 206; 169; 192; 248; 224; 125; 104; 43; 102; 81; 229; 6; 181; 135; 85; 159; 224; 30; 215; 33; 0; 11; 175; 87; 10; 22; 251; 221; 158; 162; 159; 163; 222; 244; 190; 145; 32; 88; 50; 26; 139; 114; 12; 92; 16; 46; 72; 166; 231; 237; 111; 136; 56; 212; 0; 221; 87; 208; 110; 237; 188; 209; 83; 35; 248; 109; 133; 92; 148; 178; 30; 65; 177; 78; 201; 225; 187; 200; 1; 146; 17; 253; 136; 19; 140; 145; 249; 171; 189; 155; 179; 145; 77; 38; 193; 221; 194; 22; 115; 210; 213; 18; 99; 179; 157; 102; 231; 65; 217; 36; 207; 43; 25; 44; 93; 44; 26; 20; 1; 38; 163; 214; 74; 44; 119; 190; 108; 44; 110; 190; 133; 153; 151; 138; 233; 11; 211; 108; 187; 154; 246; 77; 7; 137; 16; 196; 9; 74; 179; 191; 57; 156; 52; 242; 171; 142; 248; 67; 233; 254; 27; 248; 139; 244; 67; 186; 33; 228; 55; 126; 95; 73; 192; 127; 217; 101; 59; 82; 110; 20; 86; 34; 55; 240; 45; 17; 185; 4; 188; 166; 172; 49; 174; 114; 26; 67; 227; 196; 145; 10; 36; 175; 111; 77; 128; 192; 49; 193; 9; 252; 15; 228; 159; 21; 39; 75; 202; 146; 189; 160; 76; 59; 65; 150; 193; 146; 246; 206; 72; 156; 99; 168; 6; 172; 252; 137; 90; 181; 44; 173; 101; 124; 23; 131; 181; 40; 225; 45; 14; 216; 86; 225; 248; 252; 145; 242; 170; 253; 250; 10; 146; 73; 141; 104; 83; 7; 114; 238; 115; 179; 89; 252; 241; 65; 141; 16; 150; 196; 107; 52; 220; 249; 14; 91; 70; 139; 187; 41; 112; 190; 203; 215; 0; 137; 207; 176; 57; 214; 76; 197; 15; 255; 94; 239; 38; 56; 77; 52; 242; 69; 21; 166; 85; 139; 6; 161; 253; 216; 143; 16; 80; 197; 189; 120; 204; 110; 216; 61; 76; 43; 14; 136; 42; 235; 207; 132; 175; 176; 67; 13; 11; 240; 159; 47; 180; 43; 139; 69; 137; 21; 128; 147; 167; 112; 154; 174; 117; 167; 144; 145; 14; 33; 30; 225; 51; 63; 251; 111; 216; 7; 120; 218; 59; 247; 56; 88; 151; 142; 157; 214; 71; 151; 136; 65; 177; 128; 1; 219; 170; 234; 67; 202; 12; 10; 3; 219; 185; 188; 243; 12; 231; 106; 111; 75; 44; 242; 169; 182; 83; 27; 62; 64; 81; 231; 224; 80; 144; 205; 66; 27; 198; 108; 71; 49; 231; 18; 42; 209; 41; 252; 66; 222; 220; 131; 187; 70; 14; 63; 136; 153; 146; 251; 211; 202; 7; 38; 134; 229; 107; 114; 199; 32; 251; 201; 141; 114; 62; 247; 242; 71; 40; 111; 119; 204; 221; 199; 40; 115; 142; 148; 27; 26; 116; 212; 241; 102; 113; 194; 31; 221; 86; 67; 161; 21; 221; 188; 184; 142; 231; 236; 103; 234; 102; 253; 43; 206; 113; 141; 246; 224; 133; 212; 181; 252; 113; 167; 38; 150; 99; 106; 143; 123; 58; 104; 175; 165; 26; 137; 103; 113; 250; 170; 127; 31; 130; 116; 48; 172; 94; 128; 137; 219; 192; 212; 23; 94; 27; 34; 160; 87; 188; 95; 23; 36; 234; 220; 26; 65; 231; 143; 163; 172; 170; 139; 151; 229; 242; 225; 158; 249; 213; 154; 225; 43; 4; 231; 240; 232; 166; 33; 224; 152; 166; 105; 16; 226; 165; 237; 33; 2; 184; 36; 205; 62; 160; 68; 168; 84; 241; 205; 11; 51; 230; 30; 127; 115; 116; 20; 178; 149; 53; 73; 242; 93; 211; 77; 25; 170; 25; 129; 222; 124; 213; 100; 159; 246; 198; 54; 74; 79; 37; 49; 46; 246; 35; 149; 167; 71; 171; 136; 170; 215; 34; 192; 90; 236; 64; 222; 234; 142; 238; 94; 119; 158; 244; 88; 166; 136; 64; 188; 107; 213; 210; 154; 212; 15; 152; 179; 174; 1; 11; 98; 19; 55; 42; 187; 123; 184; 184],
   [150; 172; 103; 214; 201; 11; 232; 30; 127; 94; 240; 82; 196; 205; 229; 44; 137; 31; 72; 254; 158; 56; 119; 88; 218; 93; 205; 241; 58; 7; 247; 93; 225; 127; 192; 60; 97; 55; 153; 154; 177; 222; 12; 233; 14; 21; 234; 213]);
  (512%Z, [209; 137; 11; 71; 4; 225; 105; 194; 142; 68; 221; 246; 42; 16; 145; 69; 4; 4; 145; 5; 57; 252; 45; 174; 178; 110; 138; 207; 69; 51; 176; 36; 229; 33; 92; 45; 2; 130; 13; 216; 251; 44; 252; 23; 67; 149; 92; 186; 207; 240; 248; 243; 93; 251; 181; 227; 249; 66; 243; 98; 71; 246; 130; 17; 213; 24; 243; 246; 1; 170; 225; 42; 28; 220; 0; 11; 171; 67; 212; 201; 115; 242; 135; 232; 7; 65; 221; 31; 207; 108; 52; 242; 230; 180; 182; 195; 19; 208; 28; 79; 243; 203; 249; 22; 111; 38; 148; 111; 24; 239; 45; 88; 39; 27; 169; 35; 63; 9; 166; 183; 123; 253; 79; 72; 179; 110; 179; 215; 61; 17; 51; 196; 248; 66; 167; 220; 57; 7; 246; 128; 176; 183; 115; 36; 44; 17; 227; 221; 151; 58; 68; 50; 126; 167; 206; 169; 192; 248; 224; 125; 104; 43; 102; 81; 229; 6; 181; 135; 85; 159; 224; 30; 215; 33; 0; 11; 175; 87; 10; 22; 251; 221; 158; 162; 159; 163; 222; 244; 190; 145; 32; 88; 50; 26; 139; 114; 12; 92; 16; 46; 72; 166; 231; 237; 111; 136; 56; 212; 0; 221; 87; 208; 110; 237; 188; 209; 83; 35; 248; 109; 133; 92; 148; 178; 30; 65; 177; 78; 201; 225; 187; 200; 1; 146; 17; 253; 136; 19; 140; 145; 249; 171; 189; 155; 179; 145; 77; 38; 193; 221; 194; 22; 115; 210; 213; 18; 99; 179; 157; 102; 231; 65; 217; 36; 207; 43; 25; 44; 93; 44; 26; 20; 1; 38; 163; 214; 74; 44; 119; 190; 108; 44; 110; 190; 133; 153; 151; 138; 233; 11; 211; 108; 187; 154; 246; 77; 7; 137; 16; 196; 9; 74; 179; 191; 57; 156; 52; 242; 171; 142; 248; 67; 233; 254; 27; 248; 139; 244; 67; 186; 33; 228; 55; 126; 95; 73; 192; 127; 217; 101; 59; 82; 110; 20; 86; 34; 55; 240; 45; 17; 185; 4; 188; 166; 172; 49; 174; 114; 26; 67; 227; 196; 145; 10; 36; 175; 111; 77; 128; 192; 49; 193; 9; 252; 15; 228; 159; 21; 39; 75; 202; 146; 189; 160; 76; 59; 65; 150; 193; 146; 246; 206; 72; 156; 99; 168; 6; 172; 252; 137; 90; 181; 44; 173; 101; 124; 23; 131; 181; 40; 225; 45; 14; 216; 86; 225; 248; 252; 145; 242; 170; 253; 250; 10; 146; 73; 141; 104; 83; 7; 114; 238; 115; 179; 89; 252; 241; 65; 141; 16; 150; 196; 107; 52; 220; 249; 14; 91; 70; 139; 187; 41; 112; 190; 203; 215; 0; 137; 207; 176; 57; 214; 76; 197; 15; 255; 94; 239; 38; 56; 77; 52; 242; 69; 21; 166; 85; 139; 6; 161; 253; 216; 143; 16; 80; 197; 189; 120; 204; 110; 216; 61; 76; 43; 14; 136; 42; 235; 207; 132; 175; 176; 67; 13; 11; 240; 159; 47; 180; 43; 139; 69; 137; 21; 128; 147; 167; 112; 154; 174; 117; 167; 144; 145; 14; 33; 30; 225; 51; 63; 251; 111; 216; 7; 120; 218; 59; 247; 56; 88; 151; 142; 157; 214; 71; 151; 136; 65; 177; 128; 1; 219; 170; 234; 67; 202; 12; 10; 3; 219; 185; 188; 243; 12; 231; 106; 111; 75; 44; 242; 169; 182; 83; 27; 62; 64; 81; 231; 224; 80; 144; 205; 66; 27; 198; 108; 71; 49; 231; 18; 42; 209; 41; 252; 66; 222; 220; 131; 187; 70; 14; 63; 136; 153; 146; 251; 211; 202; 7; 38; 134; 229; 107; 114; 199; 32; 251; 201; 141; 114; 62; 247; 242; 71; 40; 111; 119; 204; 221; 199; 40; 115; 142; 148; 27; 26; 116; 212; 241; 102; 113; 194; 31; 221; 86; 67; 161; 21; 221; 188; 184; 142; 231; 236; 103; 234; 102; 253; 43; 206; 113; 141; 246; 224; 133; 212; 181; 252; 113; 167; 38; 150; 99; 106; 143; 123; 58; 104; 175; 165; 26; 137; 103; 113; 250; 170; 127; 31; 130; 116; 48; 172; 94; 128; 137; 219; 192; 212; 23; 94; 27; 34; 160; 87; 188; 95; 23; 36; 234; 220; 26; 65; 231; 143; 163; 172; 170; 139; 151; 229; 242; 225; 158; 249; 213; 154; 225; 43; 4; 231; 240; 232; 166; 33; 224; 152; 166; 105; 16; 226; 165; 237; 33; 2; 184; 36; 205; 62; 160; 68; 168; 84; 241; 205; 11; 51; 230; 30; 127; 115; 116; 20; 178; 149; 53; 73; 242; 93; 211; 77; 25; 170; 25; 129; 222; 124; 213; 100; 159; 246; 198; 54; 74; 79; 37; 49; 46; 246; 35; 149; 167; 71; 171; 136; 170; 215; 34; 192; 90; 236; 64; 222; 234; 142; 238; 94; 119; 158; 244; 88; 166; 136; 64; 188; 107; 213; 210; 154; 212; 15; 152; 179; 174; 1; 11; 98; 19; 55; 42; 187; 123; 184; 184],
   [110; 1; 6; 36; 224; 194; 88; 159; 82; 167; 250; 187; 117; 176; 119; 200; 109; 240; 78; 75; 230; 252; 115; 109; 208; 3; 70; 35; 19; 112; 169; 160; 246; 113; 94; 104; 63; 151; 51; 34; 108; 106; 173; 25; 71; 235; 70; 108; 125; 183; 153; 121; 221; 54; 124; 51; 144; 13; 151; 39; 189; 186; 36; 169])].
Example keccak_vectors : forallb check vectors = true.
Proof. vm_compute. reflexivity. Qed.
