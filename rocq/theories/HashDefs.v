(** Definitions used only to state the properties of the digest algorithms. *)
From Verif Require Import Base Crypto Hash.

(** the oracles [C] with the actual digest algorithms *)
Definition with_digests (C : Crypto) : Crypto :=
  Build_Crypto real_hash (@x_generate C) (@x_public C) (@x_sign C) (@x_verify C) (@x_argon2id C) (@x_random16 C).

(** published test vectors, those of /repo/src/crypto/hash.rs:66-96: code, message, digest *)
Definition digest_vectors : list (bytes * bytes * bytes) :=
  [(s2b "E", [0; 1; 2],
    [225; 190; 77; 122; 138; 181; 86; 10; 164; 25; 158; 234; 51; 152; 73; 186; 142; 41; 61; 85; 202; 10; 129; 0; 103; 38; 209; 132; 81; 158; 100; 127]);
   (s2b "0D", [0; 1; 2],
    [225; 190; 77; 122; 138; 181; 86; 10; 164; 25; 158; 234; 51; 152; 73; 186; 142; 41; 61; 85; 202; 10; 129; 0; 103; 38; 209; 132; 81; 158; 100; 127; 91; 73; 184; 47; 128; 90; 83; 140; 104; 145; 92; 26; 232; 3; 92; 144; 15; 209; 212; 177; 57; 2; 146; 15; 208; 94; 20; 80; 130; 47; 54; 222]);
   (s2b "F", s2b "abc",
    [189; 221; 129; 60; 99; 66; 57; 114; 49; 113; 239; 63; 238; 152; 87; 155; 148; 150; 78; 59; 177; 203; 62; 66; 114; 98; 200; 192; 104; 213; 35; 25]);
   (s2b "0E", s2b "The quick brown fox jumps over the lazy dog",
    [168; 173; 212; 189; 221; 253; 147; 228; 135; 125; 39; 70; 230; 40; 23; 177; 22; 54; 74; 31; 167; 188; 20; 141; 149; 9; 11; 199; 51; 59; 54; 115; 248; 36; 1; 207; 122; 162; 228; 203; 30; 205; 144; 41; 110; 63; 20; 203; 84; 19; 248; 237; 119; 190; 115; 4; 91; 19; 145; 76; 220; 214; 169; 24]);
   (s2b "G", [0; 1; 2],
    [232; 249; 28; 110; 242; 50; 160; 65; 69; 42; 176; 225; 73; 7; 12; 221; 125; 209; 118; 158; 117; 179; 165; 146; 27; 227; 120; 118; 196; 92; 153; 0]);
   (s2b "H", s2b "abc",
    [58; 152; 93; 167; 79; 226; 37; 178; 4; 92; 23; 45; 107; 211; 144; 189; 133; 95; 8; 110; 62; 157; 82; 91; 70; 191; 226; 69; 17; 67; 21; 50]);
   (s2b "0F", s2b "abc",
    [183; 81; 133; 11; 26; 87; 22; 138; 86; 147; 205; 146; 75; 107; 9; 110; 8; 246; 33; 130; 116; 68; 247; 13; 136; 79; 93; 2; 64; 210; 113; 46; 16; 225; 22; 233; 25; 42; 243; 201; 26; 126; 197; 118; 71; 227; 147; 64; 87; 52; 11; 76; 244; 8; 213; 165; 101; 146; 248; 39; 78; 236; 83; 240]);
   (s2b "I", s2b "abc",
    [186; 120; 22; 191; 143; 1; 207; 234; 65; 65; 64; 222; 93; 174; 34; 35; 176; 3; 97; 163; 150; 23; 122; 156; 180; 16; 255; 97; 242; 0; 21; 173]);
   (s2b "0G", s2b "abc",
    [221; 175; 53; 161; 147; 97; 122; 186; 204; 65; 115; 73; 174; 32; 65; 49; 18; 230; 250; 78; 137; 169; 126; 162; 10; 158; 238; 230; 75; 85; 211; 154; 33; 146; 153; 42; 39; 79; 193; 168; 54; 186; 60; 35; 163; 254; 235; 189; 69; 77; 68; 35; 100; 60; 232; 14; 42; 154; 201; 79; 165; 76; 164; 159])].

(** longer messages: the bytes 0, 1, ... 250, 0, 1, ... as in the test vectors of BLAKE3 *)
Definition counting (n : N) : bytes := map (fun i => N.of_nat i mod 251) (seq 0 (N.to_nat n)).
(** code, length of the message, digest: for BLAKE3 from its published test vectors, for the others
    from the implementations in OpenSSL, at the lengths where padding and blocks change *)
Definition long_vectors : list (bytes * N * bytes) :=
  [(s2b "E", 0, [175; 19; 73; 185; 245; 249; 161; 166; 160; 64; 77; 234; 54; 220; 201; 73; 155; 203; 37; 201; 173; 193; 18; 183; 204; 154; 147; 202; 228; 31; 50; 98]);
   (s2b "E", 1, [45; 58; 222; 223; 241; 27; 97; 241; 76; 136; 110; 53; 175; 160; 54; 115; 109; 205; 135; 167; 77; 39; 181; 193; 81; 2; 37; 208; 245; 146; 226; 19]);
   (s2b "E", 1024, [66; 33; 71; 57; 240; 149; 164; 6; 243; 252; 131; 222; 184; 137; 116; 74; 192; 13; 248; 49; 193; 13; 170; 85; 24; 155; 93; 18; 28; 133; 90; 247]);
   (s2b "E", 1025, [208; 2; 120; 174; 71; 235; 39; 179; 79; 174; 207; 103; 180; 254; 38; 63; 130; 213; 65; 41; 22; 193; 255; 217; 124; 140; 183; 251; 129; 75; 132; 68]);
   (s2b "E", 2048, [231; 118; 182; 2; 140; 124; 210; 42; 77; 11; 161; 130; 168; 191; 98; 32; 93; 46; 245; 118; 70; 126; 131; 142; 214; 242; 82; 155; 133; 251; 162; 74]);
   (s2b "E", 2049, [95; 77; 114; 244; 13; 122; 95; 130; 177; 92; 162; 178; 228; 75; 29; 227; 194; 239; 134; 196; 38; 201; 92; 26; 240; 182; 135; 149; 34; 86; 48; 48]);
   (s2b "E", 3073, [113; 36; 180; 149; 1; 1; 47; 129; 204; 127; 17; 202; 6; 158; 201; 34; 108; 236; 184; 162; 200; 80; 207; 230; 68; 227; 39; 210; 45; 62; 28; 211]);
   (s2b "E", 5120, [156; 173; 193; 95; 237; 139; 93; 133; 69; 98; 178; 106; 149; 54; 217; 112; 124; 173; 237; 169; 177; 67; 151; 143; 49; 154; 179; 66; 48; 83; 88; 51]);
   (s2b "F", 0, [14; 87; 81; 192; 38; 229; 67; 178; 232; 171; 46; 176; 96; 153; 218; 161; 209; 229; 223; 71; 119; 143; 119; 135; 250; 171; 69; 205; 241; 47; 227; 168]);
   (s2b "F", 128, [195; 88; 47; 113; 235; 178; 190; 102; 250; 93; 215; 80; 248; 11; 170; 233; 117; 84; 243; 176; 21; 102; 60; 139; 227; 119; 207; 203; 36; 136; 193; 209]);
   (s2b "F", 129, [247; 243; 196; 107; 162; 86; 79; 244; 196; 193; 98; 218; 31; 91; 96; 95; 159; 28; 74; 166; 162; 6; 82; 169; 249; 163; 55; 193; 162; 245; 185; 201]);
   (s2b "F", 257, [34; 126; 21; 237; 100; 238; 142; 147; 235; 123; 197; 56; 40; 247; 110; 237; 151; 79; 44; 74; 177; 64; 140; 61; 8; 242; 18; 183; 248; 214; 153; 4]);
   (s2b "0E", 0, [120; 106; 2; 247; 66; 1; 89; 3; 198; 198; 253; 133; 37; 82; 210; 114; 145; 47; 71; 64; 225; 88; 71; 97; 138; 134; 226; 23; 247; 31; 84; 25; 210; 94; 16; 49; 175; 238; 88; 83; 19; 137; 100; 68; 147; 78; 176; 75; 144; 58; 104; 91; 20; 72; 183; 85; 213; 111; 112; 26; 254; 155; 226; 206]);
   (s2b "0E", 128, [35; 25; 227; 120; 156; 71; 226; 218; 165; 254; 128; 127; 97; 190; 194; 161; 166; 83; 127; 160; 63; 25; 255; 50; 232; 126; 236; 191; 214; 75; 126; 14; 140; 207; 244; 57; 172; 51; 59; 4; 15; 25; 176; 196; 221; 209; 26; 97; 226; 74; 193; 254; 15; 16; 160; 57; 128; 108; 93; 204; 13; 163; 209; 21]);
   (s2b "0E", 129, [245; 151; 17; 212; 74; 3; 29; 95; 151; 169; 65; 60; 6; 93; 30; 97; 76; 65; 126; 222; 153; 133; 144; 50; 95; 73; 186; 210; 253; 68; 77; 62; 68; 24; 190; 25; 174; 196; 225; 20; 73; 172; 26; 87; 32; 120; 152; 188; 87; 215; 106; 27; 207; 53; 102; 41; 44; 32; 198; 131; 165; 196; 100; 143]);
   (s2b "0E", 257, [156; 164; 14; 45; 222; 233; 67; 109; 187; 208; 142; 252; 101; 219; 175; 72; 112; 5; 159; 94; 179; 215; 110; 253; 32; 36; 26; 229; 191; 19; 198; 15; 37; 11; 136; 46; 165; 197; 100; 131; 130; 87; 163; 252; 149; 196; 150; 129; 154; 206; 44; 100; 144; 181; 91; 38; 133; 53; 32; 141; 252; 49; 130; 44]);
   (s2b "G", 0, [105; 33; 122; 48; 121; 144; 128; 148; 225; 17; 33; 208; 66; 53; 74; 124; 31; 85; 182; 72; 44; 161; 165; 30; 27; 37; 13; 253; 30; 208; 238; 249]);
   (s2b "G", 64, [86; 243; 78; 139; 150; 85; 126; 144; 193; 242; 75; 82; 208; 200; 157; 81; 8; 106; 207; 27; 0; 246; 52; 207; 29; 222; 146; 51; 184; 234; 170; 62]);
   (s2b "G", 65, [27; 83; 238; 148; 170; 243; 78; 75; 21; 157; 72; 222; 53; 44; 127; 6; 97; 208; 164; 14; 223; 249; 90; 11; 22; 57; 180; 9; 14; 151; 68; 114]);
   (s2b "G", 129, [91; 209; 105; 230; 124; 130; 194; 194; 233; 142; 247; 0; 139; 223; 38; 31; 45; 223; 48; 177; 192; 15; 158; 127; 39; 91; 179; 232; 162; 141; 201; 162]);
   (s2b "H", 0, [167; 255; 198; 248; 191; 30; 215; 102; 81; 193; 71; 86; 160; 97; 214; 98; 245; 128; 255; 77; 228; 59; 73; 250; 130; 216; 10; 75; 128; 248; 67; 74]);
   (s2b "H", 135, [253; 237; 143; 217; 214; 85; 28; 96; 30; 235; 59; 124; 107; 197; 229; 207; 216; 170; 209; 208; 21; 183; 233; 170; 169; 201; 185; 71; 82; 49; 213; 226]);
   (s2b "H", 136, [207; 60; 207; 249; 36; 128; 162; 145; 96; 194; 211; 131; 23; 196; 48; 225; 71; 73; 191; 238; 23; 136; 16; 105; 87; 223; 231; 63; 140; 73; 48; 229]);
   (s2b "H", 137, [206; 157; 125; 201; 9; 19; 238; 93; 146; 116; 80; 25; 71; 154; 83; 82; 198; 214; 39; 155; 239; 24; 237; 7; 220; 10; 131; 238; 128; 132; 218; 202]);
   (s2b "H", 272, [183; 204; 213; 91; 108; 44; 63; 161; 68; 201; 224; 98; 64; 89; 41; 73; 117; 163; 72; 176; 47; 50; 26; 190; 40; 151; 1; 211; 1; 47; 119; 148]);
   (s2b "0F", 0, [166; 159; 115; 204; 162; 58; 154; 197; 200; 181; 103; 220; 24; 90; 117; 110; 151; 201; 130; 22; 79; 226; 88; 89; 224; 209; 220; 193; 71; 92; 128; 166; 21; 178; 18; 58; 241; 245; 249; 76; 17; 227; 233; 64; 44; 58; 197; 88; 245; 0; 25; 157; 149; 182; 211; 227; 1; 117; 133; 134; 40; 29; 205; 38]);
   (s2b "0F", 71, [60; 204; 133; 13; 83; 161; 40; 122; 247; 180; 86; 11; 46; 240; 212; 62; 181; 217; 168; 13; 98; 160; 233; 207; 29; 188; 4; 1; 53; 146; 17; 4; 212; 57; 81; 104; 233; 11; 252; 135; 23; 115; 235; 179; 75; 202; 27; 214; 112; 86; 225; 204; 125; 199; 164; 143; 247; 195; 22; 125; 56; 159; 17; 124]);
   (s2b "0F", 72, [93; 99; 242; 187; 233; 113; 169; 131; 172; 104; 71; 72; 1; 6; 228; 225; 38; 78; 227; 160; 190; 253; 121; 149; 73; 20; 225; 216; 110; 121; 91; 46; 24; 35; 143; 18; 252; 94; 70; 203; 156; 199; 142; 253; 236; 97; 10; 147; 100; 124; 192; 78; 28; 35; 216; 202; 170; 106; 88; 194; 29; 210; 108; 7]);
   (s2b "0F", 73, [146; 29; 155; 123; 43; 15; 48; 102; 161; 100; 109; 187; 5; 140; 151; 156; 179; 146; 93; 236; 15; 140; 38; 159; 170; 167; 249; 100; 142; 115; 70; 90; 229; 94; 197; 39; 37; 125; 93; 94; 28; 253; 191; 93; 103; 153; 190; 161; 0; 75; 97; 134; 245; 16; 140; 116; 227; 185; 47; 233; 36; 22; 101; 88]);
   (s2b "0F", 144, [225; 149; 27; 139; 203; 88; 202; 117; 163; 74; 248; 10; 122; 43; 118; 92; 173; 66; 87; 254; 56; 58; 121; 181; 91; 242; 31; 24; 11; 117; 246; 229; 176; 143; 9; 89; 136; 81; 238; 234; 125; 19; 72; 99; 135; 97; 141; 108; 107; 248; 140; 242; 60; 0; 136; 163; 247; 131; 245; 154; 6; 214; 4; 147]);
   (s2b "I", 0, [227; 176; 196; 66; 152; 252; 28; 20; 154; 251; 244; 200; 153; 111; 185; 36; 39; 174; 65; 228; 100; 155; 147; 76; 164; 149; 153; 27; 120; 82; 184; 85]);
   (s2b "I", 55, [70; 62; 178; 142; 114; 248; 46; 10; 150; 192; 164; 204; 83; 105; 12; 87; 18; 129; 19; 31; 103; 42; 162; 41; 224; 212; 90; 229; 155; 89; 139; 89]);
   (s2b "I", 56, [218; 42; 228; 214; 179; 103; 72; 242; 163; 24; 242; 62; 122; 177; 223; 223; 69; 172; 220; 157; 4; 155; 216; 14; 89; 222; 130; 166; 8; 149; 245; 98]);
   (s2b "I", 63, [41; 175; 38; 134; 253; 83; 55; 74; 54; 176; 132; 102; 148; 204; 52; 33; 119; 228; 40; 209; 100; 117; 21; 240; 120; 120; 77; 105; 205; 185; 228; 136]);
   (s2b "I", 64, [253; 234; 185; 172; 243; 113; 3; 98; 189; 38; 88; 205; 201; 162; 158; 143; 156; 117; 127; 207; 152; 17; 96; 58; 140; 68; 124; 209; 217; 21; 17; 8]);
   (s2b "I", 119, [218; 24; 121; 126; 215; 195; 167; 119; 240; 132; 127; 66; 151; 36; 162; 216; 205; 81; 56; 230; 237; 40; 149; 195; 250; 26; 109; 57; 209; 143; 126; 198]);
   (s2b "I", 120, [245; 43; 35; 219; 31; 187; 109; 237; 137; 239; 66; 162; 60; 224; 200; 146; 44; 69; 242; 92; 80; 181; 104; 169; 59; 241; 192; 117; 66; 11; 187; 124]);
   (s2b "0G", 0, [207; 131; 225; 53; 126; 239; 184; 189; 241; 84; 40; 80; 214; 109; 128; 7; 214; 32; 228; 5; 11; 87; 21; 220; 131; 244; 169; 33; 211; 108; 233; 206; 71; 208; 209; 60; 93; 133; 242; 176; 255; 131; 24; 210; 135; 126; 236; 47; 99; 185; 49; 189; 71; 65; 122; 129; 165; 56; 50; 122; 249; 39; 218; 62]);
   (s2b "0G", 111, [161; 161; 17; 68; 155; 25; 141; 155; 31; 83; 139; 173; 127; 63; 193; 2; 43; 58; 91; 26; 94; 144; 160; 188; 134; 13; 232; 81; 39; 70; 203; 195; 21; 153; 230; 200; 52; 222; 58; 50; 53; 50; 122; 240; 181; 31; 245; 123; 247; 172; 241; 151; 74; 115; 1; 77; 156; 57; 83; 129; 46; 220; 124; 141]);
   (s2b "0G", 112, [197; 251; 215; 49; 209; 157; 42; 225; 24; 15; 0; 27; 231; 44; 44; 26; 171; 161; 215; 176; 148; 179; 116; 136; 128; 226; 69; 147; 184; 225; 23; 167; 80; 225; 28; 27; 216; 103; 204; 47; 150; 218; 206; 140; 139; 116; 171; 210; 213; 196; 242; 54; 190; 68; 78; 119; 211; 13; 25; 22; 23; 64; 112; 185]);
   (s2b "0G", 127, [234; 184; 150; 116; 254; 170; 52; 226; 122; 235; 238; 255; 60; 10; 77; 112; 7; 11; 184; 114; 213; 233; 241; 134; 207; 29; 187; 222; 229; 23; 182; 227; 87; 36; 214; 41; 255; 2; 90; 91; 7; 24; 94; 145; 26; 218; 126; 60; 138; 207; 131; 10; 160; 228; 247; 23; 119; 189; 45; 68; 245; 4; 247; 240]);
   (s2b "0G", 128, [29; 255; 213; 227; 173; 183; 29; 69; 210; 36; 89; 57; 102; 85; 33; 174; 0; 26; 49; 122; 3; 114; 10; 69; 115; 43; 161; 144; 12; 163; 184; 53; 31; 197; 201; 180; 202; 81; 62; 186; 111; 128; 188; 123; 29; 31; 218; 212; 171; 209; 52; 145; 203; 130; 77; 97; 176; 141; 140; 14; 21; 97; 179; 247]);
   (s2b "0G", 240, [108; 72; 70; 108; 159; 108; 7; 228; 171; 118; 44; 105; 107; 126; 235; 53; 207; 226; 54; 252; 167; 54; 131; 229; 250; 184; 115; 172; 52; 137; 180; 210; 235; 61; 122; 252; 206; 126; 129; 101; 219; 191; 55; 173; 237; 59; 91; 12; 136; 156; 11; 126; 15; 23; 144; 168; 51; 13; 134; 119; 66; 157; 145; 165])].
