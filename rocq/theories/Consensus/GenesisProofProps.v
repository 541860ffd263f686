(** C117, continued: the first block of mainnet with its proof. *)

From Coq Require Import String ZArith List Bool Lia.
From Verif Require Import Lib.Res Lib.Bytes BinProt.Codec BinProt.CodecSpec Wire.Types Wire.WireProps Convert.Conv Convert.BlockConv Convert.ConvSpec
  Convert.Block Convert.View Hashing.Command Ledger.AccountWire Consensus.Chain Consensus.ConsensusSpec Consensus.Genesis Consensus.GenesisProps.
From Verif Require Import Consensus.GenesisProof.
Import ListNotations.
Local Open Scope list_scope.
Local Open Scope Z_scope.

Definition C_proof : conv := Ver (Ver (Ver (Ver C_ProtocolStateProof))).
Definition the_proof : val := match mainnet_proof with Ok p => p | _ => VUnit end.

(** No text of the configuration makes it panic, and the proof that is read is
    a value of its type that has an encoding. *)
Theorem C117_mainnet_reads : exists p, mainnet_proof = Ok p /\ base_val C_proof ProtocolStateProofV1 p /\
  u64s_below ProtocolStateProofV1 (up C_proof p).
Proof.
  exists the_proof. split; [vm_compute; reflexivity|]. split; [concrete|leaf].
Qed.

(** The fixture
    /repo/protocol/test-fixtures/src/data/genesis-3NKeMoncuHab5ScarV5ViyF16cJPT4taWNSaTLS64Dp67wuXigPZ.hex,
    the first block as the network sends it. *)
Definition genesis_fixture : list Z := List.concat
  [[1; 1; 1; 1; 232; 149; 55; 214; 162; 25; 166; 75; 189; 7; 127; 231; 219; 235; 171; 161; 183; 9; 227; 123; 211; 166; 117; 103; 24; 130; 127; 33;
    8; 154; 124; 2; 1; 1; 1; 232; 149; 55; 214; 162; 25; 166; 75; 189; 7; 127; 231; 219; 235; 171; 161; 183; 9; 227; 123; 211; 166; 117; 103; 24;
    130; 127; 33; 8; 154; 124; 2; 1; 1; 1; 1; 1; 1; 133; 246; 174; 16; 42; 48; 61; 19; 82; 234; 190; 184; 70; 31; 98; 164; 122; 104; 123;
    109; 205; 231; 98; 51; 185; 32; 113; 104; 160; 172; 247; 44; 1; 32; 0; 0; 0; 0; 0; 0; 0; 0; 0; 0; 0; 0; 0; 0; 0; 0; 0;
    0; 0; 0; 0; 0; 0; 0; 0; 0; 0; 0; 0; 0; 0; 0; 1; 32; 0; 0; 0; 0; 0; 0; 0; 0; 0; 0; 0; 0; 0; 0; 0;
    0; 0; 0; 0; 0; 0; 0; 0; 0; 0; 0; 0; 0; 0; 0; 0; 0; 1; 1; 181; 11; 37; 86; 222; 164; 71; 87; 148; 33; 179; 28; 45;
    105; 84; 101; 213; 139; 62; 8; 151; 254; 200; 87; 145; 171; 231; 120; 24; 23; 162; 33; 1; 133; 246; 174; 16; 42; 48; 61; 19; 82; 234; 190; 184;
    70; 31; 98; 164; 122; 104; 123; 109; 205; 231; 98; 51; 185; 32; 113; 104; 160; 172; 247; 44; 1; 133; 246; 174; 16; 42; 48; 61; 19; 82; 234; 190];
   [184; 70; 31; 98; 164; 122; 104; 123; 109; 205; 231; 98; 51; 185; 32; 113; 104; 160; 172; 247; 44; 1; 1; 1; 2; 1; 1; 252; 0; 100; 123; 61;
    120; 1; 0; 0; 1; 1; 1; 1; 1; 1; 1; 0; 1; 1; 77; 11; 1; 1; 1; 1; 1; 7; 1; 1; 7; 1; 1; 7; 1; 1; 7; 1;
    1; 7; 1; 1; 7; 1; 1; 7; 1; 1; 7; 1; 1; 7; 1; 1; 7; 1; 32; 53; 244; 225; 27; 90; 245; 27; 20; 46; 133; 161; 139; 72;
    149; 134; 197; 202; 111; 219; 132; 174; 118; 213; 198; 225; 235; 65; 209; 57; 198; 171; 8; 1; 1; 252; 65; 147; 233; 64; 5; 78; 45; 11; 1; 1;
    1; 1; 0; 1; 1; 254; 228; 27; 1; 1; 0; 1; 1; 1; 1; 1; 133; 246; 174; 16; 42; 48; 61; 19; 82; 234; 190; 184; 70; 31; 98; 164;
    122; 104; 123; 109; 205; 231; 98; 51; 185; 32; 113; 104; 160; 172; 247; 44; 1; 1; 252; 65; 147; 233; 64; 5; 78; 45; 11; 1; 0; 0; 0; 0;
    0; 0; 0; 0; 0; 0; 0; 0; 0; 0; 0; 0; 0; 0; 0; 0; 0; 0; 0; 0; 0; 0; 0; 0; 0; 0; 0; 0; 1; 0; 0; 0;
    0; 0; 0; 0; 0; 0; 0; 0; 0; 0; 0; 0; 0; 0; 0; 0; 0; 0; 0; 0; 0; 0; 0; 0; 0; 0; 0; 0; 0; 1; 0; 0];
   [0; 0; 0; 0; 0; 0; 0; 0; 0; 0; 0; 0; 0; 0; 0; 0; 0; 0; 0; 0; 0; 0; 0; 0; 0; 0; 0; 0; 0; 0; 1; 1;
    1; 1; 1; 1; 1; 1; 133; 246; 174; 16; 42; 48; 61; 19; 82; 234; 190; 184; 70; 31; 98; 164; 122; 104; 123; 109; 205; 231; 98; 51; 185; 32;
    113; 104; 160; 172; 247; 44; 1; 1; 252; 65; 147; 233; 64; 5; 78; 45; 11; 1; 37; 127; 117; 208; 167; 148; 99; 11; 218; 242; 217; 7; 37; 244;
    201; 93; 161; 26; 189; 134; 47; 184; 162; 248; 138; 185; 76; 65; 250; 11; 141; 53; 1; 0; 0; 0; 0; 0; 0; 0; 0; 0; 0; 0; 0; 0;
    0; 0; 0; 0; 0; 0; 0; 0; 0; 0; 0; 0; 0; 0; 0; 0; 0; 0; 0; 1; 232; 149; 55; 214; 162; 25; 166; 75; 189; 7; 127; 231;
    219; 235; 171; 161; 183; 9; 227; 123; 211; 166; 117; 103; 24; 130; 127; 33; 8; 154; 124; 2; 1; 1; 2; 1; 1; 1; 15; 72; 198; 91; 210; 95;
    133; 243; 228; 234; 78; 254; 190; 183; 91; 121; 123; 215; 67; 96; 59; 224; 75; 78; 173; 132; 86; 152; 183; 107; 211; 49; 0; 1; 1; 15; 72; 198;
    91; 210; 95; 133; 243; 228; 234; 78; 254; 190; 183; 91; 121; 123; 215; 67; 96; 59; 224; 75; 78; 173; 132; 86; 152; 183; 107; 211; 49; 0; 1; 1];
   [15; 72; 198; 91; 210; 95; 133; 243; 228; 234; 78; 254; 190; 183; 91; 121; 123; 215; 67; 96; 59; 224; 75; 78; 173; 132; 86; 152; 183; 107; 211; 49;
    0; 1; 1; 1; 1; 1; 254; 34; 1; 1; 1; 254; 228; 27; 1; 1; 7; 1; 1; 0; 1; 1; 252; 0; 100; 123; 61; 120; 1; 0; 0; 1;
    1; 1; 1; 1; 1; 1; 1; 1; 1; 0; 1; 1; 252; 121; 215; 41; 181; 28; 39; 193; 117; 1; 252; 177; 69; 226; 80; 236; 8; 202; 237; 0;
    1; 1; 252; 162; 251; 142; 99; 151; 173; 193; 166; 1; 252; 41; 154; 49; 79; 238; 111; 174; 209; 0; 1; 1; 252; 8; 141; 109; 99; 189; 195; 43;
    116; 1; 252; 146; 35; 21; 166; 177; 139; 152; 35; 0; 1; 0; 1; 1; 252; 233; 78; 164; 46; 109; 130; 11; 10; 1; 252; 96; 7; 155; 155; 38;
    83; 108; 146; 0; 1; 0; 0; 12; 70; 105; 180; 220; 175; 187; 48; 186; 84; 66; 150; 44; 14; 53; 40; 24; 179; 151; 21; 106; 165; 156; 0; 126;
    31; 42; 249; 137; 185; 56; 1; 0; 64; 95; 183; 17; 234; 233; 252; 167; 136; 117; 219; 141; 182; 97; 137; 197; 109; 66; 111; 234; 6; 143; 40; 38;
    254; 92; 176; 176; 175; 224; 106; 14; 1; 0; 1; 1; 252; 31; 138; 207; 54; 145; 161; 144; 127; 1; 252; 226; 22; 55; 69; 238; 101; 31; 187; 0];
   [1; 1; 1; 1; 0; 1; 1; 252; 12; 197; 105; 202; 109; 51; 161; 8; 1; 252; 139; 134; 18; 125; 250; 15; 240; 195; 0; 1; 1; 0; 1; 1;
    252; 137; 0; 179; 254; 154; 214; 139; 123; 1; 252; 17; 40; 185; 106; 141; 210; 243; 179; 0; 1; 1; 0; 1; 1; 252; 193; 7; 53; 134; 112; 184;
    207; 115; 1; 252; 156; 231; 235; 195; 37; 236; 155; 114; 0; 1; 1; 0; 1; 1; 252; 37; 79; 171; 87; 40; 182; 91; 10; 1; 252; 242; 128; 235;
    58; 131; 152; 175; 177; 0; 1; 1; 0; 1; 1; 252; 185; 42; 167; 86; 180; 112; 115; 173; 1; 252; 252; 158; 241; 213; 35; 249; 79; 54; 0; 1;
    1; 0; 1; 1; 252; 0; 124; 47; 142; 98; 28; 135; 89; 1; 252; 135; 204; 38; 162; 115; 246; 199; 156; 0; 1; 1; 0; 1; 1; 252; 175; 242;
    182; 158; 29; 130; 84; 35; 1; 252; 126; 245; 125; 246; 209; 107; 185; 213; 0; 1; 1; 0; 1; 1; 252; 246; 134; 144; 160; 208; 247; 123; 20; 1;
    252; 104; 42; 36; 64; 206; 98; 94; 98; 0; 1; 1; 0; 1; 1; 252; 14; 173; 86; 50; 99; 27; 198; 175; 1; 252; 251; 225; 31; 161; 16; 114;
    128; 9; 0; 1; 1; 0; 1; 1; 252; 145; 65; 172; 202; 190; 30; 88; 249; 1; 252; 166; 201; 183; 62; 153; 213; 30; 87; 0; 1; 1; 0; 1];
   [1; 252; 189; 195; 100; 205; 163; 80; 78; 170; 1; 252; 104; 197; 254; 193; 10; 231; 20; 216; 0; 1; 1; 0; 1; 1; 252; 109; 222; 94; 130; 223;
    172; 29; 178; 1; 252; 165; 7; 219; 197; 23; 162; 8; 254; 0; 1; 1; 0; 1; 1; 252; 127; 170; 230; 233; 214; 15; 78; 130; 1; 252; 44; 127;
    185; 78; 152; 58; 246; 252; 0; 1; 1; 0; 1; 1; 252; 202; 4; 27; 113; 43; 136; 49; 195; 1; 252; 41; 38; 174; 182; 199; 172; 57; 145; 0;
    1; 1; 0; 1; 1; 252; 239; 81; 129; 253; 71; 143; 15; 220; 1; 252; 135; 149; 59; 196; 67; 122; 169; 0; 0; 1; 1; 0; 1; 1; 252; 191;
    50; 134; 209; 30; 216; 56; 96; 1; 252; 171; 5; 170; 162; 112; 188; 179; 249; 0; 1; 1; 0; 1; 1; 252; 90; 71; 175; 229; 224; 210; 117; 148;
    1; 252; 246; 210; 195; 174; 2; 167; 203; 209; 0; 1; 1; 0; 1; 1; 252; 4; 124; 45; 249; 246; 15; 120; 190; 1; 252; 84; 226; 251; 50; 145;
    88; 61; 225; 0; 0; 1; 0; 1; 1; 1; 0; 1; 0; 1; 0; 1; 0; 0; 1; 198; 10; 82; 68; 118; 175; 70; 192; 77; 87; 18; 70; 213;
    223; 215; 59; 130; 211; 74; 92; 197; 13; 62; 39; 157; 212; 233; 98; 57; 135; 156; 27; 185; 132; 15; 174; 20; 213; 69; 104; 130; 121; 30; 130; 125];
   [27; 33; 190; 148; 161; 115; 201; 110; 20; 158; 10; 34; 106; 247; 212; 116; 49; 214; 4; 1; 1; 1; 1; 1; 1; 0; 1; 1; 252; 19; 117; 49;
    184; 18; 183; 112; 198; 1; 252; 8; 62; 72; 154; 51; 204; 117; 22; 0; 1; 1; 0; 1; 1; 252; 209; 184; 202; 177; 162; 176; 193; 72; 1; 252;
    206; 177; 113; 192; 227; 4; 102; 27; 0; 1; 1; 0; 1; 1; 252; 111; 191; 230; 172; 201; 179; 130; 51; 1; 252; 99; 24; 118; 249; 88; 67; 151;
    121; 0; 1; 1; 0; 1; 1; 252; 151; 135; 136; 233; 6; 43; 58; 221; 1; 252; 199; 161; 68; 41; 64; 230; 122; 221; 0; 1; 1; 0; 1; 1;
    252; 203; 159; 156; 244; 48; 229; 232; 198; 1; 252; 221; 156; 160; 205; 101; 187; 221; 7; 0; 1; 1; 0; 1; 1; 252; 19; 26; 105; 135; 162; 89;
    44; 83; 1; 252; 123; 111; 101; 42; 176; 188; 33; 169; 0; 1; 1; 0; 1; 1; 252; 139; 7; 16; 143; 177; 119; 156; 226; 1; 252; 238; 12; 107;
    223; 0; 95; 92; 248; 0; 1; 1; 0; 1; 1; 252; 135; 156; 176; 7; 45; 167; 189; 29; 1; 252; 160; 38; 95; 233; 226; 151; 27; 77; 0; 1;
    1; 0; 1; 1; 252; 17; 95; 128; 86; 124; 116; 117; 156; 1; 252; 232; 241; 206; 250; 105; 99; 254; 161; 0; 1; 1; 0; 1; 1; 252; 77; 96];
   [233; 219; 223; 138; 43; 92; 1; 252; 155; 247; 16; 242; 140; 113; 140; 90; 0; 1; 1; 0; 1; 1; 252; 72; 107; 224; 81; 92; 179; 192; 34; 1;
    252; 237; 109; 169; 64; 115; 139; 136; 166; 0; 1; 1; 0; 1; 1; 252; 110; 100; 118; 94; 181; 215; 7; 144; 1; 252; 18; 142; 78; 219; 57; 139;
    198; 193; 0; 1; 1; 0; 1; 1; 252; 201; 43; 63; 55; 94; 227; 69; 68; 1; 252; 229; 205; 140; 252; 21; 199; 64; 157; 0; 1; 1; 0; 1;
    1; 252; 78; 170; 188; 75; 132; 130; 152; 66; 1; 252; 188; 183; 175; 208; 215; 39; 169; 151; 0; 1; 1; 0; 1; 1; 252; 119; 110; 253; 255; 91;
    61; 202; 153; 1; 252; 148; 66; 92; 21; 85; 106; 230; 239; 0; 1; 1; 0; 1; 1; 252; 84; 153; 151; 33; 113; 178; 125; 75; 1; 252; 64; 200;
    147; 97; 224; 162; 31; 149; 0; 1; 1; 0; 1; 1; 252; 179; 71; 7; 178; 190; 204; 209; 44; 1; 252; 29; 2; 100; 242; 60; 222; 209; 91; 0;
    0; 1; 1; 1; 1; 1; 0; 1; 1; 252; 19; 117; 49; 184; 18; 183; 112; 198; 1; 252; 8; 62; 72; 154; 51; 204; 117; 22; 0; 1; 1; 0;
    1; 1; 252; 209; 184; 202; 177; 162; 176; 193; 72; 1; 252; 206; 177; 113; 192; 227; 4; 102; 27; 0; 1; 1; 0; 1; 1; 252; 111; 191; 230; 172];
   [201; 179; 130; 51; 1; 252; 99; 24; 118; 249; 88; 67; 151; 121; 0; 1; 1; 0; 1; 1; 252; 151; 135; 136; 233; 6; 43; 58; 221; 1; 252; 199;
    161; 68; 41; 64; 230; 122; 221; 0; 1; 1; 0; 1; 1; 252; 203; 159; 156; 244; 48; 229; 232; 198; 1; 252; 221; 156; 160; 205; 101; 187; 221; 7;
    0; 1; 1; 0; 1; 1; 252; 19; 26; 105; 135; 162; 89; 44; 83; 1; 252; 123; 111; 101; 42; 176; 188; 33; 169; 0; 1; 1; 0; 1; 1; 252;
    139; 7; 16; 143; 177; 119; 156; 226; 1; 252; 238; 12; 107; 223; 0; 95; 92; 248; 0; 1; 1; 0; 1; 1; 252; 135; 156; 176; 7; 45; 167; 189;
    29; 1; 252; 160; 38; 95; 233; 226; 151; 27; 77; 0; 1; 1; 0; 1; 1; 252; 17; 95; 128; 86; 124; 116; 117; 156; 1; 252; 232; 241; 206; 250;
    105; 99; 254; 161; 0; 1; 1; 0; 1; 1; 252; 77; 96; 233; 219; 223; 138; 43; 92; 1; 252; 155; 247; 16; 242; 140; 113; 140; 90; 0; 1; 1;
    0; 1; 1; 252; 72; 107; 224; 81; 92; 179; 192; 34; 1; 252; 237; 109; 169; 64; 115; 139; 136; 166; 0; 1; 1; 0; 1; 1; 252; 110; 100; 118;
    94; 181; 215; 7; 144; 1; 252; 18; 142; 78; 219; 57; 139; 198; 193; 0; 1; 1; 0; 1; 1; 252; 201; 43; 63; 55; 94; 227; 69; 68; 1; 252];
   [229; 205; 140; 252; 21; 199; 64; 157; 0; 1; 1; 0; 1; 1; 252; 78; 170; 188; 75; 132; 130; 152; 66; 1; 252; 188; 183; 175; 208; 215; 39; 169;
    151; 0; 1; 1; 0; 1; 1; 252; 119; 110; 253; 255; 91; 61; 202; 153; 1; 252; 148; 66; 92; 21; 85; 106; 230; 239; 0; 1; 1; 0; 1; 1;
    252; 84; 153; 151; 33; 113; 178; 125; 75; 1; 252; 64; 200; 147; 97; 224; 162; 31; 149; 0; 1; 1; 0; 1; 1; 252; 179; 71; 7; 178; 190; 204;
    209; 44; 1; 252; 29; 2; 100; 242; 60; 222; 209; 91; 0; 0; 0; 1; 0; 1; 2; 156; 132; 184; 13; 248; 187; 125; 185; 167; 118; 72; 105; 93;
    192; 44; 8; 153; 109; 59; 108; 225; 90; 155; 202; 87; 157; 212; 209; 239; 44; 168; 49; 70; 250; 69; 189; 170; 2; 11; 19; 232; 19; 101; 162; 223;
    38; 133; 192; 125; 53; 93; 235; 136; 226; 173; 246; 169; 135; 105; 171; 100; 23; 115; 53; 156; 132; 184; 13; 248; 187; 125; 185; 167; 118; 72; 105; 93;
    192; 44; 8; 153; 109; 59; 108; 225; 90; 155; 202; 87; 157; 212; 209; 239; 44; 168; 49; 70; 250; 69; 189; 170; 2; 11; 19; 232; 19; 101; 162; 223;
    38; 133; 192; 125; 53; 93; 235; 136; 226; 173; 246; 169; 135; 105; 171; 100; 23; 115; 53; 1; 2; 1; 1; 1; 1; 0; 1; 1; 252; 12; 197; 105];
   [202; 109; 51; 161; 8; 1; 252; 139; 134; 18; 125; 250; 15; 240; 195; 0; 1; 1; 0; 1; 1; 252; 137; 0; 179; 254; 154; 214; 139; 123; 1; 252;
    17; 40; 185; 106; 141; 210; 243; 179; 0; 1; 1; 0; 1; 1; 252; 193; 7; 53; 134; 112; 184; 207; 115; 1; 252; 156; 231; 235; 195; 37; 236; 155;
    114; 0; 1; 1; 0; 1; 1; 252; 37; 79; 171; 87; 40; 182; 91; 10; 1; 252; 242; 128; 235; 58; 131; 152; 175; 177; 0; 1; 1; 0; 1; 1;
    252; 185; 42; 167; 86; 180; 112; 115; 173; 1; 252; 252; 158; 241; 213; 35; 249; 79; 54; 0; 1; 1; 0; 1; 1; 252; 0; 124; 47; 142; 98; 28;
    135; 89; 1; 252; 135; 204; 38; 162; 115; 246; 199; 156; 0; 1; 1; 0; 1; 1; 252; 175; 242; 182; 158; 29; 130; 84; 35; 1; 252; 126; 245; 125;
    246; 209; 107; 185; 213; 0; 1; 1; 0; 1; 1; 252; 246; 134; 144; 160; 208; 247; 123; 20; 1; 252; 104; 42; 36; 64; 206; 98; 94; 98; 0; 1;
    1; 0; 1; 1; 252; 14; 173; 86; 50; 99; 27; 198; 175; 1; 252; 251; 225; 31; 161; 16; 114; 128; 9; 0; 1; 1; 0; 1; 1; 252; 145; 65;
    172; 202; 190; 30; 88; 249; 1; 252; 166; 201; 183; 62; 153; 213; 30; 87; 0; 1; 1; 0; 1; 1; 252; 189; 195; 100; 205; 163; 80; 78; 170; 1];
   [252; 104; 197; 254; 193; 10; 231; 20; 216; 0; 1; 1; 0; 1; 1; 252; 109; 222; 94; 130; 223; 172; 29; 178; 1; 252; 165; 7; 219; 197; 23; 162;
    8; 254; 0; 1; 1; 0; 1; 1; 252; 127; 170; 230; 233; 214; 15; 78; 130; 1; 252; 44; 127; 185; 78; 152; 58; 246; 252; 0; 1; 1; 0; 1;
    1; 252; 202; 4; 27; 113; 43; 136; 49; 195; 1; 252; 41; 38; 174; 182; 199; 172; 57; 145; 0; 1; 1; 0; 1; 1; 252; 239; 81; 129; 253; 71;
    143; 15; 220; 1; 252; 135; 149; 59; 196; 67; 122; 169; 0; 0; 1; 1; 0; 1; 1; 252; 191; 50; 134; 209; 30; 216; 56; 96; 1; 252; 171; 5;
    170; 162; 112; 188; 179; 249; 0; 1; 1; 0; 1; 1; 252; 90; 71; 175; 229; 224; 210; 117; 148; 1; 252; 246; 210; 195; 174; 2; 167; 203; 209; 0;
    1; 1; 0; 1; 1; 252; 4; 124; 45; 249; 246; 15; 120; 190; 1; 252; 84; 226; 251; 50; 145; 88; 61; 225; 0; 0; 1; 1; 1; 1; 0; 1;
    1; 252; 12; 197; 105; 202; 109; 51; 161; 8; 1; 252; 139; 134; 18; 125; 250; 15; 240; 195; 0; 1; 1; 0; 1; 1; 252; 137; 0; 179; 254; 154;
    214; 139; 123; 1; 252; 17; 40; 185; 106; 141; 210; 243; 179; 0; 1; 1; 0; 1; 1; 252; 193; 7; 53; 134; 112; 184; 207; 115; 1; 252; 156; 231];
   [235; 195; 37; 236; 155; 114; 0; 1; 1; 0; 1; 1; 252; 37; 79; 171; 87; 40; 182; 91; 10; 1; 252; 242; 128; 235; 58; 131; 152; 175; 177; 0;
    1; 1; 0; 1; 1; 252; 185; 42; 167; 86; 180; 112; 115; 173; 1; 252; 252; 158; 241; 213; 35; 249; 79; 54; 0; 1; 1; 0; 1; 1; 252; 0;
    124; 47; 142; 98; 28; 135; 89; 1; 252; 135; 204; 38; 162; 115; 246; 199; 156; 0; 1; 1; 0; 1; 1; 252; 175; 242; 182; 158; 29; 130; 84; 35;
    1; 252; 126; 245; 125; 246; 209; 107; 185; 213; 0; 1; 1; 0; 1; 1; 252; 246; 134; 144; 160; 208; 247; 123; 20; 1; 252; 104; 42; 36; 64; 206;
    98; 94; 98; 0; 1; 1; 0; 1; 1; 252; 14; 173; 86; 50; 99; 27; 198; 175; 1; 252; 251; 225; 31; 161; 16; 114; 128; 9; 0; 1; 1; 0;
    1; 1; 252; 145; 65; 172; 202; 190; 30; 88; 249; 1; 252; 166; 201; 183; 62; 153; 213; 30; 87; 0; 1; 1; 0; 1; 1; 252; 189; 195; 100; 205;
    163; 80; 78; 170; 1; 252; 104; 197; 254; 193; 10; 231; 20; 216; 0; 1; 1; 0; 1; 1; 252; 109; 222; 94; 130; 223; 172; 29; 178; 1; 252; 165;
    7; 219; 197; 23; 162; 8; 254; 0; 1; 1; 0; 1; 1; 252; 127; 170; 230; 233; 214; 15; 78; 130; 1; 252; 44; 127; 185; 78; 152; 58; 246; 252];
   [0; 1; 1; 0; 1; 1; 252; 202; 4; 27; 113; 43; 136; 49; 195; 1; 252; 41; 38; 174; 182; 199; 172; 57; 145; 0; 1; 1; 0; 1; 1; 252;
    239; 81; 129; 253; 71; 143; 15; 220; 1; 252; 135; 149; 59; 196; 67; 122; 169; 0; 0; 1; 1; 0; 1; 1; 252; 191; 50; 134; 209; 30; 216; 56;
    96; 1; 252; 171; 5; 170; 162; 112; 188; 179; 249; 0; 1; 1; 0; 1; 1; 252; 90; 71; 175; 229; 224; 210; 117; 148; 1; 252; 246; 210; 195; 174;
    2; 167; 203; 209; 0; 1; 1; 0; 1; 1; 252; 4; 124; 45; 249; 246; 15; 120; 190; 1; 252; 84; 226; 251; 50; 145; 88; 61; 225; 0; 0; 1;
    1; 1; 1; 14; 80; 25; 239; 89; 91; 121; 111; 135; 46; 218; 232; 116; 223; 62; 107; 209; 233; 68; 36; 174; 215; 186; 77; 122; 197; 254; 90; 226;
    37; 36; 21; 1; 1; 206; 206; 146; 74; 241; 40; 155; 34; 111; 187; 108; 190; 248; 9; 185; 68; 34; 169; 217; 31; 7; 130; 173; 160; 216; 126; 252;
    131; 208; 25; 185; 27; 1; 1; 74; 78; 233; 216; 206; 243; 126; 112; 77; 87; 131; 110; 43; 212; 44; 105; 100; 102; 226; 113; 151; 225; 102; 229; 164;
    172; 135; 175; 111; 23; 169; 36; 1; 1; 222; 126; 87; 237; 2; 53; 237; 19; 21; 238; 124; 118; 88; 47; 232; 94; 241; 52; 16; 87; 26; 117; 55];
   [188; 215; 189; 57; 25; 242; 102; 236; 30; 1; 5; 141; 30; 248; 226; 74; 207; 53; 230; 143; 64; 68; 128; 50; 67; 82; 233; 33; 100; 91; 195; 84;
    176; 86; 68; 231; 189; 78; 179; 168; 14; 157; 19; 210; 61; 68; 85; 92; 86; 147; 36; 6; 125; 130; 129; 118; 50; 164; 180; 139; 227; 20; 38; 113;
    1; 160; 152; 115; 25; 114; 117; 208; 40; 79; 5; 153; 132; 222; 90; 211; 9; 28; 82; 63; 144; 219; 103; 146; 82; 107; 54; 179; 208; 147; 107; 218;
    138; 168; 170; 130; 17; 39; 72; 225; 170; 251; 45; 157; 83; 200; 91; 219; 200; 185; 248; 149; 253; 60; 242; 133; 64; 154; 222; 36; 208; 119; 198; 177;
    251; 136; 75; 232; 237; 3; 166; 9; 32; 122; 21; 126; 168; 192; 251; 37; 126; 81; 24; 229; 72; 217; 199; 213; 159; 88; 88; 202; 21; 59; 159; 120;
    80; 98; 49; 61; 37; 14; 36; 226; 3; 41; 20; 1; 1; 173; 177; 175; 207; 175; 254; 117; 105; 101; 107; 84; 213; 206; 57; 247; 193; 26; 85; 149;
    143; 99; 244; 50; 239; 186; 154; 169; 99; 52; 227; 240; 19; 1; 1; 13; 25; 237; 186; 203; 156; 240; 43; 191; 92; 28; 16; 83; 212; 34; 71; 149;
    38; 133; 80; 56; 192; 114; 119; 42; 10; 151; 15; 58; 84; 213; 37; 1; 1; 137; 172; 112; 82; 195; 111; 80; 168; 155; 205; 6; 11; 166; 127; 169];
   [68; 109; 254; 176; 182; 216; 10; 116; 239; 97; 125; 212; 175; 102; 204; 32; 57; 1; 1; 1; 172; 93; 16; 85; 230; 220; 133; 230; 150; 205; 226; 228;
    205; 88; 228; 17; 117; 86; 98; 45; 230; 22; 192; 75; 52; 39; 235; 207; 78; 121; 33; 57; 1; 1; 162; 224; 84; 198; 91; 145; 75; 46; 204; 163;
    169; 186; 163; 53; 160; 214; 165; 1; 156; 251; 177; 156; 224; 115; 234; 213; 46; 31; 15; 150; 63; 48; 1; 1; 222; 100; 191; 243; 22; 51; 131; 175;
    34; 104; 119; 77; 41; 249; 115; 130; 101; 105; 37; 163; 132; 110; 8; 209; 185; 219; 253; 129; 7; 9; 80; 8; 1; 1; 26; 121; 201; 32; 103; 175;
    58; 147; 227; 142; 59; 122; 181; 81; 237; 48; 203; 37; 152; 190; 61; 83; 26; 252; 179; 22; 31; 244; 100; 82; 121; 12; 1; 5; 255; 219; 78; 144;
    157; 119; 41; 101; 117; 239; 22; 45; 183; 49; 88; 22; 147; 168; 174; 26; 38; 40; 233; 215; 177; 20; 246; 230; 72; 50; 48; 10; 23; 230; 252; 218;
    0; 99; 33; 210; 111; 104; 226; 150; 139; 8; 72; 118; 54; 7; 248; 50; 249; 173; 176; 186; 167; 26; 21; 185; 47; 121; 136; 37; 207; 230; 245; 252;
    199; 82; 57; 61; 203; 252; 148; 18; 86; 194; 186; 132; 153; 211; 34; 40; 174; 26; 221; 18; 13; 15; 190; 204; 217; 56; 146; 51; 40; 136; 194; 113];
   [100; 185; 11; 52; 26; 151; 168; 130; 197; 69; 79; 88; 104; 168; 214; 135; 150; 179; 241; 142; 245; 66; 128; 238; 63; 150; 40; 58; 195; 24; 29; 135;
    208; 171; 74; 153; 206; 200; 133; 179; 212; 222; 81; 176; 188; 163; 43; 48; 110; 190; 206; 141; 202; 26; 135; 43; 192; 239; 196; 29; 1; 1; 64; 18;
    138; 220; 50; 60; 236; 210; 75; 95; 77; 239; 248; 52; 190; 150; 12; 144; 165; 201; 125; 22; 206; 109; 18; 62; 222; 140; 149; 178; 191; 60; 1; 1;
    146; 245; 252; 220; 12; 76; 211; 246; 222; 66; 121; 72; 176; 120; 49; 46; 11; 55; 68; 182; 73; 50; 181; 90; 246; 20; 28; 232; 254; 110; 216; 44;
    1; 1; 76; 177; 225; 188; 236; 132; 63; 171; 126; 55; 120; 15; 68; 136; 13; 88; 235; 250; 60; 40; 180; 192; 201; 19; 174; 65; 73; 90; 91; 207;
    91; 25; 1; 192; 200; 77; 254; 161; 83; 6; 187; 150; 39; 21; 185; 33; 192; 17; 127; 222; 159; 63; 157; 255; 169; 115; 79; 202; 151; 124; 174; 134;
    84; 144; 55; 173; 108; 242; 89; 255; 234; 209; 141; 58; 253; 56; 47; 65; 14; 119; 26; 61; 93; 15; 38; 20; 84; 250; 105; 150; 147; 216; 28; 69;
    204; 128; 60; 1; 1; 1; 1; 1; 1; 1; 0; 0; 0; 0; 0; 0; 0; 0; 0; 0; 0; 0; 0; 0; 0; 0; 0; 0; 0; 0; 0; 0];
   [0; 0; 0; 0; 0; 0; 0; 0; 0; 187; 42; 237; 202; 35; 122; 207; 25; 113; 71; 61; 51; 212; 91; 101; 143; 84; 238; 120; 99; 240; 169; 223;
    83; 124; 147; 18; 10; 163; 181; 116; 27; 1; 1; 1; 1; 0; 0; 0; 0; 0; 0; 0; 0; 0; 0; 0; 0; 0; 0; 0; 0; 0; 0; 0;
    0; 0; 0; 0; 0; 0; 0; 0; 0; 0; 0; 0; 187; 42; 237; 202; 35; 122; 207; 25; 113; 71; 61; 51; 212; 91; 101; 143; 84; 238; 120; 99;
    240; 169; 223; 83; 124; 147; 18; 10; 163; 181; 116; 27; 1; 1; 1; 1; 0; 0; 0; 0; 0; 0; 0; 0; 0; 0; 0; 0; 0; 0; 0; 0;
    0; 0; 0; 0; 0; 0; 0; 0; 0; 0; 0; 0; 0; 0; 0; 187; 42; 237; 202; 35; 122; 207; 25; 113; 71; 61; 51; 212; 91; 101; 143; 84;
    238; 120; 99; 240; 169; 223; 83; 124; 147; 18; 10; 163; 181; 116; 27; 1; 1; 1; 1; 0; 0; 0; 0; 0; 0; 0; 0; 0; 0; 0; 0; 0;
    0; 0; 0; 0; 0; 0; 0; 0; 0; 0; 0; 0; 0; 0; 0; 0; 0; 0; 187; 42; 237; 202; 35; 122; 207; 25; 113; 71; 61; 51; 212; 91;
    101; 143; 84; 238; 120; 99; 240; 169; 223; 83; 124; 147; 18; 10; 163; 181; 116; 27; 1; 1; 5; 1; 1; 1; 0; 0; 0; 0; 0; 0; 0; 0];
   [0; 0; 0; 0; 0; 0; 0; 0; 0; 0; 0; 0; 0; 0; 0; 0; 0; 0; 0; 0; 0; 0; 0; 187; 42; 237; 202; 35; 122; 207; 25; 113;
    71; 61; 51; 212; 91; 101; 143; 84; 238; 120; 99; 240; 169; 223; 83; 124; 147; 18; 10; 163; 181; 116; 27; 1; 1; 1; 0; 0; 0; 0; 0; 0;
    0; 0; 0; 0; 0; 0; 0; 0; 0; 0; 0; 0; 0; 0; 0; 0; 0; 0; 0; 0; 0; 0; 0; 0; 0; 187; 42; 237; 202; 35; 122; 207;
    25; 113; 71; 61; 51; 212; 91; 101; 143; 84; 238; 120; 99; 240; 169; 223; 83; 124; 147; 18; 10; 163; 181; 116; 27; 1; 1; 1; 0; 0; 0; 0;
    0; 0; 0; 0; 0; 0; 0; 0; 0; 0; 0; 0; 0; 0; 0; 0; 0; 0; 0; 0; 0; 0; 0; 0; 0; 0; 0; 187; 42; 237; 202; 35;
    122; 207; 25; 113; 71; 61; 51; 212; 91; 101; 143; 84; 238; 120; 99; 240; 169; 223; 83; 124; 147; 18; 10; 163; 181; 116; 27; 1; 1; 1; 0; 0;
    0; 0; 0; 0; 0; 0; 0; 0; 0; 0; 0; 0; 0; 0; 0; 0; 0; 0; 0; 0; 0; 0; 0; 0; 0; 0; 0; 0; 0; 187; 42; 237;
    202; 35; 122; 207; 25; 113; 71; 61; 51; 212; 91; 101; 143; 84; 238; 120; 99; 240; 169; 223; 83; 124; 147; 18; 10; 163; 181; 116; 27; 1; 1; 1];
   [0; 0; 0; 0; 0; 0; 0; 0; 0; 0; 0; 0; 0; 0; 0; 0; 0; 0; 0; 0; 0; 0; 0; 0; 0; 0; 0; 0; 0; 0; 0; 187;
    42; 237; 202; 35; 122; 207; 25; 113; 71; 61; 51; 212; 91; 101; 143; 84; 238; 120; 99; 240; 169; 223; 83; 124; 147; 18; 10; 163; 181; 116; 27; 1;
    1; 1; 0; 0; 0; 0; 0; 0; 0; 0; 0; 0; 0; 0; 0; 0; 0; 0; 0; 0; 0; 0; 0; 0; 0; 0; 0; 0; 0; 0; 0; 0;
    0; 187; 42; 237; 202; 35; 122; 207; 25; 113; 71; 61; 51; 212; 91; 101; 143; 84; 238; 120; 99; 240; 169; 223; 83; 124; 147; 18; 10; 163; 181; 116;
    27; 1; 1; 1; 17; 1; 0; 0; 0; 0; 0; 0; 0; 0; 0; 0; 0; 0; 0; 0; 0; 0; 0; 0; 0; 0; 0; 0; 0; 0; 0; 0;
    0; 0; 0; 0; 0; 187; 42; 237; 202; 35; 122; 207; 25; 113; 71; 61; 51; 212; 91; 101; 143; 84; 238; 120; 99; 240; 169; 223; 83; 124; 147; 18;
    10; 163; 181; 116; 27; 1; 0; 0; 0; 0; 0; 0; 0; 0; 0; 0; 0; 0; 0; 0; 0; 0; 0; 0; 0; 0; 0; 0; 0; 0; 0; 0;
    0; 0; 0; 0; 0; 187; 42; 237; 202; 35; 122; 207; 25; 113; 71; 61; 51; 212; 91; 101; 143; 84; 238; 120; 99; 240; 169; 223; 83; 124; 147; 18];
   [10; 163; 181; 116; 27; 1; 0; 0; 0; 0; 0; 0; 0; 0; 0; 0; 0; 0; 0; 0; 0; 0; 0; 0; 0; 0; 0; 0; 0; 0; 0; 0;
    0; 0; 0; 0; 0; 187; 42; 237; 202; 35; 122; 207; 25; 113; 71; 61; 51; 212; 91; 101; 143; 84; 238; 120; 99; 240; 169; 223; 83; 124; 147; 18;
    10; 163; 181; 116; 27; 1; 0; 0; 0; 0; 0; 0; 0; 0; 0; 0; 0; 0; 0; 0; 0; 0; 0; 0; 0; 0; 0; 0; 0; 0; 0; 0;
    0; 0; 0; 0; 0; 187; 42; 237; 202; 35; 122; 207; 25; 113; 71; 61; 51; 212; 91; 101; 143; 84; 238; 120; 99; 240; 169; 223; 83; 124; 147; 18;
    10; 163; 181; 116; 27; 1; 0; 0; 0; 0; 0; 0; 0; 0; 0; 0; 0; 0; 0; 0; 0; 0; 0; 0; 0; 0; 0; 0; 0; 0; 0; 0;
    0; 0; 0; 0; 0; 187; 42; 237; 202; 35; 122; 207; 25; 113; 71; 61; 51; 212; 91; 101; 143; 84; 238; 120; 99; 240; 169; 223; 83; 124; 147; 18;
    10; 163; 181; 116; 27; 1; 0; 0; 0; 0; 0; 0; 0; 0; 0; 0; 0; 0; 0; 0; 0; 0; 0; 0; 0; 0; 0; 0; 0; 0; 0; 0;
    0; 0; 0; 0; 0; 187; 42; 237; 202; 35; 122; 207; 25; 113; 71; 61; 51; 212; 91; 101; 143; 84; 238; 120; 99; 240; 169; 223; 83; 124; 147; 18];
   [10; 163; 181; 116; 27; 1; 0; 0; 0; 0; 0; 0; 0; 0; 0; 0; 0; 0; 0; 0; 0; 0; 0; 0; 0; 0; 0; 0; 0; 0; 0; 0;
    0; 0; 0; 0; 0; 187; 42; 237; 202; 35; 122; 207; 25; 113; 71; 61; 51; 212; 91; 101; 143; 84; 238; 120; 99; 240; 169; 223; 83; 124; 147; 18;
    10; 163; 181; 116; 27; 1; 0; 0; 0; 0; 0; 0; 0; 0; 0; 0; 0; 0; 0; 0; 0; 0; 0; 0; 0; 0; 0; 0; 0; 0; 0; 0;
    0; 0; 0; 0; 0; 187; 42; 237; 202; 35; 122; 207; 25; 113; 71; 61; 51; 212; 91; 101; 143; 84; 238; 120; 99; 240; 169; 223; 83; 124; 147; 18;
    10; 163; 181; 116; 27; 1; 0; 0; 0; 0; 0; 0; 0; 0; 0; 0; 0; 0; 0; 0; 0; 0; 0; 0; 0; 0; 0; 0; 0; 0; 0; 0;
    0; 0; 0; 0; 0; 187; 42; 237; 202; 35; 122; 207; 25; 113; 71; 61; 51; 212; 91; 101; 143; 84; 238; 120; 99; 240; 169; 223; 83; 124; 147; 18;
    10; 163; 181; 116; 27; 1; 0; 0; 0; 0; 0; 0; 0; 0; 0; 0; 0; 0; 0; 0; 0; 0; 0; 0; 0; 0; 0; 0; 0; 0; 0; 0;
    0; 0; 0; 0; 0; 187; 42; 237; 202; 35; 122; 207; 25; 113; 71; 61; 51; 212; 91; 101; 143; 84; 238; 120; 99; 240; 169; 223; 83; 124; 147; 18];
   [10; 163; 181; 116; 27; 1; 0; 0; 0; 0; 0; 0; 0; 0; 0; 0; 0; 0; 0; 0; 0; 0; 0; 0; 0; 0; 0; 0; 0; 0; 0; 0;
    0; 0; 0; 0; 0; 187; 42; 237; 202; 35; 122; 207; 25; 113; 71; 61; 51; 212; 91; 101; 143; 84; 238; 120; 99; 240; 169; 223; 83; 124; 147; 18;
    10; 163; 181; 116; 27; 1; 0; 0; 0; 0; 0; 0; 0; 0; 0; 0; 0; 0; 0; 0; 0; 0; 0; 0; 0; 0; 0; 0; 0; 0; 0; 0;
    0; 0; 0; 0; 0; 187; 42; 237; 202; 35; 122; 207; 25; 113; 71; 61; 51; 212; 91; 101; 143; 84; 238; 120; 99; 240; 169; 223; 83; 124; 147; 18;
    10; 163; 181; 116; 27; 1; 0; 0; 0; 0; 0; 0; 0; 0; 0; 0; 0; 0; 0; 0; 0; 0; 0; 0; 0; 0; 0; 0; 0; 0; 0; 0;
    0; 0; 0; 0; 0; 187; 42; 237; 202; 35; 122; 207; 25; 113; 71; 61; 51; 212; 91; 101; 143; 84; 238; 120; 99; 240; 169; 223; 83; 124; 147; 18;
    10; 163; 181; 116; 27; 1; 0; 0; 0; 0; 0; 0; 0; 0; 0; 0; 0; 0; 0; 0; 0; 0; 0; 0; 0; 0; 0; 0; 0; 0; 0; 0;
    0; 0; 0; 0; 0; 187; 42; 237; 202; 35; 122; 207; 25; 113; 71; 61; 51; 212; 91; 101; 143; 84; 238; 120; 99; 240; 169; 223; 83; 124; 147; 18];
   [10; 163; 181; 116; 27; 1; 0; 0; 0; 0; 0; 0; 0; 0; 0; 0; 0; 0; 0; 0; 0; 0; 0; 0; 0; 0; 0; 0; 0; 0; 0; 0;
    0; 0; 0; 0; 0; 187; 42; 237; 202; 35; 122; 207; 25; 113; 71; 61; 51; 212; 91; 101; 143; 84; 238; 120; 99; 240; 169; 223; 83; 124; 147; 18;
    10; 163; 181; 116; 27; 1; 0; 0; 0; 0; 0; 0; 0; 0; 0; 0; 0; 0; 0; 0; 0; 0; 0; 0; 0; 0; 0; 0; 0; 0; 0; 0;
    0; 0; 0; 0; 0; 187; 42; 237; 202; 35; 122; 207; 25; 113; 71; 61; 51; 212; 91; 101; 143; 84; 238; 120; 99; 240; 169; 223; 83; 124; 147; 18;
    10; 163; 181; 116; 27; 1; 0; 0; 0; 0; 0; 0; 0; 0; 0; 0; 0; 0; 0; 0; 0; 0; 0; 0; 0; 0; 0; 0; 0; 0; 0; 0;
    0; 0; 0; 0; 0; 187; 42; 237; 202; 35; 122; 207; 25; 113; 71; 61; 51; 212; 91; 101; 143; 84; 238; 120; 99; 240; 169; 223; 83; 124; 147; 18;
    10; 163; 181; 116; 27; 1; 0; 0; 0; 0; 0; 0; 0; 0; 0; 0; 0; 0; 0; 0; 0; 0; 0; 0; 0; 0; 0; 0; 0; 0; 0; 0;
    0; 0; 0; 0; 0; 187; 42; 237; 202; 35; 122; 207; 25; 113; 71; 61; 51; 212; 91; 101; 143; 84; 238; 120; 99; 240; 169; 223; 83; 124; 147; 18];
   [10; 163; 181; 116; 27; 1; 0; 0; 0; 0; 0; 0; 0; 0; 0; 0; 0; 0; 0; 0; 0; 0; 0; 0; 0; 0; 0; 0; 0; 0; 0; 0;
    0; 0; 0; 0; 0; 187; 42; 237; 202; 35; 122; 207; 25; 113; 71; 61; 51; 212; 91; 101; 143; 84; 238; 120; 99; 240; 169; 223; 83; 124; 147; 18;
    10; 163; 181; 116; 27; 1; 0; 0; 0; 0; 0; 0; 0; 0; 0; 0; 0; 0; 0; 0; 0; 0; 0; 0; 0; 0; 0; 0; 0; 0; 0; 0;
    0; 0; 0; 0; 0; 187; 42; 237; 202; 35; 122; 207; 25; 113; 71; 61; 51; 212; 91; 101; 143; 84; 238; 120; 99; 240; 169; 223; 83; 124; 147; 18;
    10; 163; 181; 116; 27; 1; 0; 0; 0; 0; 0; 0; 0; 0; 0; 0; 0; 0; 0; 0; 0; 0; 0; 0; 0; 0; 0; 0; 0; 0; 0; 0;
    0; 0; 0; 0; 0; 187; 42; 237; 202; 35; 122; 207; 25; 113; 71; 61; 51; 212; 91; 101; 143; 84; 238; 120; 99; 240; 169; 223; 83; 124; 147; 18;
    10; 163; 181; 116; 27; 1; 0; 0; 0; 0; 0; 0; 0; 0; 0; 0; 0; 0; 0; 0; 0; 0; 0; 0; 0; 0; 0; 0; 0; 0; 0; 0;
    0; 0; 0; 0; 0; 187; 42; 237; 202; 35; 122; 207; 25; 113; 71; 61; 51; 212; 91; 101; 143; 84; 238; 120; 99; 240; 169; 223; 83; 124; 147; 18];
   [10; 163; 181; 116; 27; 1; 0; 0; 0; 0; 0; 0; 0; 0; 0; 0; 0; 0; 0; 0; 0; 0; 0; 0; 0; 0; 0; 0; 0; 0; 0; 0;
    0; 0; 0; 0; 0; 187; 42; 237; 202; 35; 122; 207; 25; 113; 71; 61; 51; 212; 91; 101; 143; 84; 238; 120; 99; 240; 169; 223; 83; 124; 147; 18;
    10; 163; 181; 116; 27; 1; 0; 0; 0; 0; 0; 0; 0; 0; 0; 0; 0; 0; 0; 0; 0; 0; 0; 0; 0; 0; 0; 0; 0; 0; 0; 0;
    0; 0; 0; 0; 0; 187; 42; 237; 202; 35; 122; 207; 25; 113; 71; 61; 51; 212; 91; 101; 143; 84; 238; 120; 99; 240; 169; 223; 83; 124; 147; 18;
    10; 163; 181; 116; 27; 1; 0; 0; 0; 0; 0; 0; 0; 0; 0; 0; 0; 0; 0; 0; 0; 0; 0; 0; 0; 0; 0; 0; 0; 0; 0; 0;
    0; 0; 0; 0; 0; 187; 42; 237; 202; 35; 122; 207; 25; 113; 71; 61; 51; 212; 91; 101; 143; 84; 238; 120; 99; 240; 169; 223; 83; 124; 147; 18;
    10; 163; 181; 116; 27; 1; 0; 0; 0; 0; 0; 0; 0; 0; 0; 0; 0; 0; 0; 0; 0; 0; 0; 0; 0; 0; 0; 0; 0; 0; 0; 0;
    0; 0; 0; 0; 0; 187; 42; 237; 202; 35; 122; 207; 25; 113; 71; 61; 51; 212; 91; 101; 143; 84; 238; 120; 99; 240; 169; 223; 83; 124; 147; 18];
   [10; 163; 181; 116; 27; 1; 0; 0; 0; 0; 0; 0; 0; 0; 0; 0; 0; 0; 0; 0; 0; 0; 0; 0; 0; 0; 0; 0; 0; 0; 0; 0;
    0; 0; 0; 0; 0; 187; 42; 237; 202; 35; 122; 207; 25; 113; 71; 61; 51; 212; 91; 101; 143; 84; 238; 120; 99; 240; 169; 223; 83; 124; 147; 18;
    10; 163; 181; 116; 27; 1; 0; 0; 0; 0; 0; 0; 0; 0; 0; 0; 0; 0; 0; 0; 0; 0; 0; 0; 0; 0; 0; 0; 0; 0; 0; 0;
    0; 0; 0; 0; 0; 187; 42; 237; 202; 35; 122; 207; 25; 113; 71; 61; 51; 212; 91; 101; 143; 84; 238; 120; 99; 240; 169; 223; 83; 124; 147; 18;
    10; 163; 181; 116; 27; 1; 0; 0; 0; 0; 0; 0; 0; 0; 0; 0; 0; 0; 0; 0; 0; 0; 0; 0; 0; 0; 0; 0; 0; 0; 0; 0;
    0; 0; 0; 0; 0; 187; 42; 237; 202; 35; 122; 207; 25; 113; 71; 61; 51; 212; 91; 101; 143; 84; 238; 120; 99; 240; 169; 223; 83; 124; 147; 18;
    10; 163; 181; 116; 27; 1; 0; 0; 0; 0; 0; 0; 0; 0; 0; 0; 0; 0; 0; 0; 0; 0; 0; 0; 0; 0; 0; 0; 0; 0; 0; 0;
    0; 0; 0; 0; 0; 187; 42; 237; 202; 35; 122; 207; 25; 113; 71; 61; 51; 212; 91; 101; 143; 84; 238; 120; 99; 240; 169; 223; 83; 124; 147; 18];
   [10; 163; 181; 116; 27; 1; 0; 0; 0; 0; 0; 0; 0; 0; 0; 0; 0; 0; 0; 0; 0; 0; 0; 0; 0; 0; 0; 0; 0; 0; 0; 0;
    0; 0; 0; 0; 0; 187; 42; 237; 202; 35; 122; 207; 25; 113; 71; 61; 51; 212; 91; 101; 143; 84; 238; 120; 99; 240; 169; 223; 83; 124; 147; 18;
    10; 163; 181; 116; 27; 1; 0; 0; 0; 0; 0; 0; 0; 0; 0; 0; 0; 0; 0; 0; 0; 0; 0; 0; 0; 0; 0; 0; 0; 0; 0; 0;
    0; 0; 0; 0; 0; 187; 42; 237; 202; 35; 122; 207; 25; 113; 71; 61; 51; 212; 91; 101; 143; 84; 238; 120; 99; 240; 169; 223; 83; 124; 147; 18;
    10; 163; 181; 116; 27; 1; 0; 0; 0; 0; 0; 0; 0; 0; 0; 0; 0; 0; 0; 0; 0; 0; 0; 0; 0; 0; 0; 0; 0; 0; 0; 0;
    0; 0; 0; 0; 0; 187; 42; 237; 202; 35; 122; 207; 25; 113; 71; 61; 51; 212; 91; 101; 143; 84; 238; 120; 99; 240; 169; 223; 83; 124; 147; 18;
    10; 163; 181; 116; 27; 1; 0; 0; 0; 0; 0; 0; 0; 0; 0; 0; 0; 0; 0; 0; 0; 0; 0; 0; 0; 0; 0; 0; 0; 0; 0; 0;
    0; 0; 0; 0; 0; 187; 42; 237; 202; 35; 122; 207; 25; 113; 71; 61; 51; 212; 91; 101; 143; 84; 238; 120; 99; 240; 169; 223; 83; 124; 147; 18];
   [10; 163; 181; 116; 27; 39; 166; 117; 62; 60; 22; 185; 137; 33; 213; 61; 24; 84; 2; 232; 116; 243; 24; 168; 25; 253; 242; 243; 172; 102; 103; 38;
    32; 69; 170; 138; 38; 102; 78; 124; 166; 254; 147; 241; 81; 240; 105; 80; 139; 130; 106; 213; 208; 108; 113; 84; 147; 24; 203; 201; 17; 218; 107; 116;
    208; 110; 254; 40; 6; 1; 0; 0; 0; 0; 0; 0; 0; 0; 0; 0; 0; 0; 0; 0; 0; 0; 0; 0; 0; 0; 0; 0; 0; 0; 0; 0;
    0; 0; 0; 0; 0; 187; 42; 237; 202; 35; 122; 207; 25; 113; 71; 61; 51; 212; 91; 101; 143; 84; 238; 120; 99; 240; 169; 223; 83; 124; 147; 18;
    10; 163; 181; 116; 27; 1; 0; 0; 0; 0; 0; 0; 0; 0; 0; 0; 0; 0; 0; 0; 0; 0; 0; 0; 0; 0; 0; 0; 0; 0; 0; 0;
    0; 0; 0; 0; 0; 187; 42; 237; 202; 35; 122; 207; 25; 113; 71; 61; 51; 212; 91; 101; 143; 84; 238; 120; 99; 240; 169; 223; 83; 124; 147; 18;
    10; 163; 181; 116; 27; 1; 1; 1; 46; 83; 96; 91; 128; 26; 215; 254; 167; 69; 233; 118; 106; 221; 141; 169; 237; 51; 88; 157; 117; 143; 179; 57;
    254; 212; 12; 50; 156; 89; 170; 39; 1; 1; 183; 122; 135; 136; 176; 127; 124; 209; 201; 198; 22; 24; 117; 92; 202; 61; 13; 48; 58; 123; 9; 97];
   [36; 206; 12; 2; 220; 95; 69; 26; 15; 3; 1; 1; 46; 30; 104; 115; 29; 0; 184; 71; 32; 3; 136; 35; 119; 126; 198; 82; 45; 154; 30; 158;
    54; 89; 32; 195; 231; 206; 6; 74; 222; 12; 46; 30; 1; 1; 217; 109; 98; 229; 74; 10; 73; 211; 164; 76; 145; 158; 180; 176; 137; 51; 61; 100;
    162; 54; 237; 205; 161; 146; 18; 116; 172; 105; 3; 186; 217; 55; 1; 5; 113; 113; 21; 229; 151; 19; 200; 79; 136; 186; 190; 46; 192; 41; 37; 24;
    6; 13; 44; 200; 43; 84; 233; 169; 201; 162; 210; 168; 124; 233; 30; 21; 105; 148; 226; 112; 242; 132; 165; 87; 196; 24; 175; 235; 250; 172; 162; 121;
    76; 138; 246; 164; 118; 203; 27; 148; 120; 194; 5; 232; 169; 1; 23; 15; 216; 45; 56; 113; 120; 66; 189; 227; 23; 21; 126; 223; 24; 106; 91; 42;
    90; 194; 160; 53; 160; 105; 177; 138; 27; 183; 144; 216; 161; 182; 14; 38; 195; 125; 105; 44; 132; 115; 170; 154; 36; 107; 184; 94; 92; 67; 35; 205;
    12; 90; 105; 228; 185; 206; 26; 225; 96; 249; 97; 68; 124; 49; 174; 46; 204; 227; 167; 141; 250; 36; 45; 140; 83; 232; 148; 103; 204; 152; 109; 253;
    51; 45; 185; 135; 215; 108; 102; 231; 115; 90; 71; 239; 52; 233; 15; 40; 1; 1; 93; 217; 60; 155; 44; 63; 206; 227; 15; 163; 73; 96; 242; 71];
   [47; 205; 4; 217; 222; 132; 134; 246; 53; 201; 185; 109; 119; 111; 174; 49; 34; 31; 1; 1; 168; 79; 148; 160; 214; 214; 75; 224; 185; 112; 73; 185;
    42; 226; 197; 138; 140; 185; 62; 121; 33; 121; 250; 181; 127; 163; 44; 70; 149; 171; 231; 36; 1; 1; 44; 124; 106; 165; 18; 59; 65; 170; 142; 172;
    232; 90; 126; 238; 184; 235; 178; 34; 25; 201; 53; 59; 146; 118; 113; 17; 153; 170; 168; 1; 130; 23; 1; 1; 1; 22; 235; 162; 235; 218; 159; 234;
    196; 66; 226; 158; 249; 41; 63; 92; 69; 118; 147; 61; 83; 26; 110; 60; 7; 81; 142; 53; 34; 65; 5; 95; 61; 1; 1; 220; 245; 178; 225; 36;
    83; 184; 54; 156; 66; 14; 118; 173; 160; 251; 108; 110; 23; 63; 34; 113; 170; 25; 236; 109; 184; 1; 1; 18; 97; 22; 5; 1; 1; 53; 54; 45;
    152; 111; 32; 197; 152; 229; 60; 61; 224; 184; 252; 65; 48; 4; 132; 36; 49; 114; 175; 137; 60; 201; 156; 161; 153; 170; 22; 22; 60; 1; 1; 240;
    149; 30; 106; 56; 95; 180; 234; 139; 94; 44; 240; 232; 158; 84; 128; 122; 153; 147; 139; 10; 182; 156; 119; 241; 185; 178; 16; 160; 93; 21; 46; 1;
    5; 181; 201; 141; 58; 136; 30; 170; 213; 96; 13; 137; 146; 13; 255; 131; 2; 80; 121; 210; 123; 222; 60; 234; 221; 20; 66; 91; 252; 138; 64; 211];
   [16; 238; 128; 43; 234; 244; 221; 186; 243; 182; 150; 152; 104; 157; 126; 118; 182; 112; 202; 166; 93; 219; 217; 33; 151; 34; 122; 176; 200; 223; 186; 54;
    36; 107; 223; 35; 14; 192; 122; 145; 83; 25; 198; 6; 173; 147; 12; 65; 221; 127; 9; 114; 34; 173; 162; 119; 106; 72; 78; 117; 95; 235; 45; 73;
    28; 224; 13; 54; 204; 43; 96; 118; 194; 49; 132; 4; 108; 10; 42; 6; 32; 133; 33; 86; 68; 254; 41; 84; 154; 98; 82; 2; 80; 85; 189; 251;
    28; 55; 190; 250; 157; 128; 198; 40; 251; 139; 63; 127; 83; 22; 145; 44; 23; 84; 38; 160; 173; 154; 131; 219; 120; 8; 71; 214; 54; 241; 204; 171;
    9; 1; 1; 192; 68; 22; 40; 1; 37; 25; 215; 111; 239; 1; 7; 67; 77; 197; 107; 177; 116; 231; 209; 97; 12; 222; 47; 200; 109; 106; 167; 43;
    117; 173; 26; 1; 1; 205; 113; 200; 175; 225; 167; 25; 242; 229; 232; 63; 206; 121; 65; 251; 154; 49; 62; 43; 146; 98; 72; 10; 250; 104; 103; 93;
    207; 171; 100; 178; 10; 1; 1; 229; 128; 9; 61; 36; 4; 6; 246; 104; 75; 49; 60; 228; 6; 105; 189; 91; 161; 200; 223; 62; 213; 60; 237; 47;
    71; 60; 3; 122; 241; 154; 8; 1; 1; 1; 1; 0; 0; 1; 0; 0; 0; 1; 232; 149; 55; 214; 162; 25; 166; 75; 189; 7; 127; 231; 219; 235];
   [171; 161; 183; 9; 227; 123; 211; 166; 117; 103; 24; 130; 127; 33; 8; 154; 124; 2; 0; 1; 2; 0; 0; 0; 0]].

(** The first block made from the configuration is that block, and whoever
    reads the fixture gets it. *)
Theorem C117_mainnet_block : forall checked, exists p b, mainnet_proof = Ok p /\ from_genesis_config checked (mainnet p) = Ok b /\
  try_into_binprot checked C_block ExternalTransitionV1 b = Ok genesis_fixture /\
  valid_state (cstate_of (state_val b)) /\
  forall cap i, 1 <= cap -> Forall (fun ch => ch <> []) i -> List.concat i = genesis_fixture ->
    try_from_binprot cap checked C_block ExternalTransitionV1 i = Ok b.
Proof.
  intros checked. destruct C117_mainnet_reads as (p & P & B & U). exists p.
  pose proof (C117_mainnet_typed p B) as W. pose proof (C117_mainnet_encodable p U) as X.
  destruct (from_genesis_config checked (mainnet p)) as [b|e|] eqn:H.
  2, 3: exfalso; revert H; unfold from_genesis_config;
    (assert (M : mul32 checked (g_sub_windows_per_window (mainnet p)) (int_of (field C_ProtocolConstants "slots_per_sub_window" (g_constants (mainnet p)))) = Ok 77)
      by (destruct checked; vm_compute; reflexivity)); rewrite M; discriminate.
  exists b. split; [exact P|]. split; [reflexivity|].
  assert (E : try_into_binprot checked C_block ExternalTransitionV1 b = Ok genesis_fixture).
  { enough (Q : match from_genesis_config checked (mainnet (match mainnet_proof with Ok p => p | _ => VUnit end)) with
                | Ok b => try_into_binprot checked C_block ExternalTransitionV1 b | _ => Panic end = Ok genesis_fixture)
      by (rewrite P, H in Q; exact Q).
    clear. destruct checked; vm_compute; reflexivity. }
  split; [exact E|]. split; [exact (proj1 (C117_mainnet_valid checked p b B H))|].
  intros cap i Hc F J. destruct (C117_wire cap checked (mainnet p) b W X H Hc) as (bs & E' & _ & R).
  rewrite E in E'. injection E' as <-. exact (R i F J).
Qed.

(** Example: the fixture is not empty, and the proof is most of it. *)
Example C117_mainnet_block_ex : Z.of_nat (List.length genesis_fixture) = 8217 /\
  firstn 830 (skipn 1 genesis_fixture) = genesis_state_bytes /\ skipn (List.length genesis_fixture - 50) genesis_fixture = genesis_tail_bytes.
Proof. vm_compute. repeat split. Qed.

Print Assumptions C117_mainnet_reads.
Print Assumptions C117_mainnet_block.
