(** GENERATED by tools/gen_tables.py from the Go source: a transcription of literals, no logic. *)
From Coq Require Import ZArith List.
Import ListNotations.
Open Scope Z_scope.

(** internal/tilegroup/quantizer.go:5-6353 *)
Definition Quantizer_Matrix : list (list (list Z)) :=
 [[[32; 43; 73; 97; 43; 67; 94; 110; 73; 94; 137; 150; 97; 110; 150; 200; 32; 32; 38; 51; 68; 84; 95; 109;
   32; 35; 40; 49; 63; 76; 89; 102; 38; 40; 54; 65; 78; 91; 98; 106; 51; 49; 65; 82; 97; 111; 113; 121;
   68; 63; 78; 97; 117; 134; 138; 142; 84; 76; 91; 111; 134; 152; 159; 168; 95; 89; 98; 113; 138; 159;
   183; 199; 109; 102; 106; 121; 142; 168; 199; 220; 32; 31; 31; 34; 36; 44; 48; 59; 65; 80; 83; 91; 97;
   104; 111; 119; 31; 32; 32; 33; 34; 41; 44; 54; 59; 72; 75; 83; 90; 97; 104; 112; 31; 32; 33; 35; 36;
   42; 45; 54; 59; 71; 74; 81; 86; 93; 100; 107; 34; 33; 35; 39; 42; 47; 51; 58; 63; 74; 76; 81; 84; 90;
   97; 105; 36; 34; 36; 42; 48; 54; 57; 64; 68; 79; 81; 88; 91; 96; 102; 105; 44; 41; 42; 47; 54; 63; 67;
   75; 79; 90; 92; 95; 100; 102; 109; 112; 48; 44; 45; 51; 57; 67; 71; 80; 85; 96; 99; 107; 108; 111; 117;
   120; 59; 54; 54; 58; 64; 75; 80; 92; 98; 110; 113; 115; 116; 122; 125; 130; 65; 59; 59; 63; 68; 79; 85;
   98; 105; 118; 121; 127; 130; 134; 135; 140; 80; 72; 71; 74; 79; 90; 96; 110; 118; 134; 137; 140; 143;
   144; 146; 152; 83; 75; 74; 76; 81; 92; 99; 113; 121; 137; 140; 151; 152; 155; 158; 165; 91; 83; 81; 81;
   88; 95; 107; 115; 127; 140; 151; 159; 166; 169; 173; 179; 97; 90; 86; 84; 91; 100; 108; 116; 130; 143;
   152; 166; 174; 182; 189; 193; 104; 97; 93; 90; 96; 102; 111; 122; 134; 144; 155; 169; 182; 191; 200;
   210; 111; 104; 100; 97; 102; 109; 117; 125; 135; 146; 158; 173; 189; 200; 210; 220; 119; 112; 107; 105;
   105; 112; 120; 130; 140; 152; 165; 179; 193; 210; 220; 231; 32; 31; 31; 31; 31; 32; 34; 35; 36; 39; 44;
   46; 48; 54; 59; 62; 65; 71; 80; 81; 83; 88; 91; 94; 97; 101; 104; 107; 111; 115; 119; 123; 31; 32; 32;
   32; 32; 32; 34; 34; 35; 38; 42; 44; 46; 51; 56; 59; 62; 68; 76; 77; 78; 84; 86; 89; 92; 95; 99; 102;
   105; 109; 113; 116; 31; 32; 32; 32; 32; 32; 33; 34; 34; 37; 41; 42; 44; 49; 54; 56; 59; 65; 72; 73; 75;
   80; 83; 86; 90; 93; 97; 101; 104; 108; 112; 116; 31; 32; 32; 32; 33; 33; 34; 35; 35; 38; 41; 43; 45;
   49; 54; 56; 59; 64; 72; 73; 74; 79; 82; 85; 88; 91; 94; 97; 101; 104; 107; 111; 31; 32; 32; 33; 33; 34;
   35; 36; 36; 39; 42; 44; 45; 50; 54; 56; 59; 64; 71; 72; 74; 78; 81; 84; 86; 89; 93; 96; 100; 104; 107;
   111; 32; 32; 32; 33; 34; 35; 37; 37; 38; 40; 42; 44; 46; 49; 53; 55; 58; 63; 69; 70; 72; 76; 79; 82;
   85; 89; 93; 96; 99; 102; 106; 109; 34; 34; 33; 34; 35; 37; 39; 41; 42; 45; 47; 49; 51; 54; 58; 60; 63;
   68; 74; 75; 76; 80; 81; 82; 84; 87; 90; 93; 97; 101; 105; 110; 35; 34; 34; 35; 36; 37; 41; 43; 45; 47;
   50; 52; 53; 57; 61; 63; 65; 70; 76; 77; 79; 82; 84; 86; 89; 91; 92; 93; 96; 100; 103; 107; 36; 35; 34;
   35; 36; 38; 42; 45; 48; 50; 54; 55; 57; 60; 64; 66; 68; 73; 79; 80; 81; 85; 88; 90; 91; 93; 96; 99;
   102; 103; 105; 107; 39; 38; 37; 38; 39; 40; 45; 47; 50; 54; 58; 59; 61; 65; 69; 71; 73; 78; 84; 85; 86;
   91; 92; 92; 95; 98; 100; 101; 103; 106; 110; 114; 44; 42; 41; 41; 42; 42; 47; 50; 54; 58; 63; 65; 67;
   71; 75; 77; 79; 84; 90; 91; 92; 95; 95; 97; 100; 101; 102; 105; 109; 111; 112; 114; 46; 44; 42; 43; 44;
   44; 49; 52; 55; 59; 65; 67; 69; 74; 78; 80; 82; 87; 93; 94; 95; 98; 100; 103; 102; 105; 108; 110; 111;
   113; 117; 121; 48; 46; 44; 45; 45; 46; 51; 53; 57; 61; 67; 69; 71; 76; 80; 83; 85; 90; 96; 97; 99; 103;
   107; 105; 108; 111; 111; 113; 117; 119; 120; 122; 54; 51; 49; 49; 50; 49; 54; 57; 60; 65; 71; 74; 76;
   82; 87; 89; 92; 97; 104; 105; 106; 111; 110; 111; 114; 113; 116; 120; 120; 121; 125; 130; 59; 56; 54;
   54; 54; 53; 58; 61; 64; 69; 75; 78; 80; 87; 92; 95; 98; 103; 110; 111; 113; 115; 115; 119; 116; 120;
   122; 122; 125; 129; 130; 130; 62; 59; 56; 56; 56; 55; 60; 63; 66; 71; 77; 80; 83; 89; 95; 98; 101; 107;
   114; 115; 117; 119; 123; 121; 125; 126; 125; 129; 131; 131; 135; 140; 65; 62; 59; 59; 59; 58; 63; 65;
   68; 73; 79; 82; 85; 92; 98; 101; 105; 111; 118; 119; 121; 126; 127; 128; 130; 130; 134; 133; 135; 140;
   140; 140; 71; 68; 65; 64; 64; 63; 68; 70; 73; 78; 84; 87; 90; 97; 103; 107; 111; 117; 125; 126; 128;
   134; 132; 136; 133; 138; 137; 140; 143; 142; 145; 150; 80; 76; 72; 72; 71; 69; 74; 76; 79; 84; 90; 93;
   96; 104; 110; 114; 118; 125; 134; 135; 137; 139; 140; 139; 143; 142; 144; 146; 146; 151; 152; 151; 81;
   77; 73; 73; 72; 70; 75; 77; 80; 85; 91; 94; 97; 105; 111; 115; 119; 126; 135; 137; 138; 144; 147; 146;
   148; 149; 151; 150; 156; 155; 157; 163; 83; 78; 75; 74; 74; 72; 76; 79; 81; 86; 92; 95; 99; 106; 113;
   117; 121; 128; 137; 138; 140; 147; 151; 156; 152; 157; 155; 161; 158; 162; 165; 164; 88; 84; 80; 79;
   78; 76; 80; 82; 85; 91; 95; 98; 103; 111; 115; 119; 126; 134; 139; 144; 147; 152; 154; 158; 163; 159;
   165; 163; 168; 168; 169; 176; 91; 86; 83; 82; 81; 79; 81; 84; 88; 92; 95; 100; 107; 110; 115; 123; 127;
   132; 140; 147; 151; 154; 159; 161; 166; 171; 169; 173; 173; 176; 179; 177; 94; 89; 86; 85; 84; 82; 82;
   86; 90; 92; 97; 103; 105; 111; 119; 121; 128; 136; 139; 146; 156; 158; 161; 166; 168; 174; 179; 178;
   180; 183; 183; 190; 97; 92; 90; 88; 86; 85; 84; 89; 91; 95; 100; 102; 108; 114; 116; 125; 130; 133;
   143; 148; 152; 163; 166; 168; 174; 176; 182; 187; 189; 188; 193; 191; 101; 95; 93; 91; 89; 89; 87; 91;
   93; 98; 101; 105; 111; 113; 120; 126; 130; 138; 142; 149; 157; 159; 171; 174; 176; 183; 184; 191; 195;
   199; 197; 204; 104; 99; 97; 94; 93; 93; 90; 92; 96; 100; 102; 108; 111; 116; 122; 125; 134; 137; 144;
   151; 155; 165; 169; 179; 182; 184; 191; 193; 200; 204; 210; 206; 107; 102; 101; 97; 96; 96; 93; 93; 99;
   101; 105; 110; 113; 120; 122; 129; 133; 140; 146; 150; 161; 163; 173; 178; 187; 191; 193; 200; 202;
   210; 214; 222; 111; 105; 104; 101; 100; 99; 97; 96; 102; 103; 109; 111; 117; 120; 125; 131; 135; 143;
   146; 156; 158; 168; 173; 180; 189; 195; 200; 202; 210; 212; 220; 224; 115; 109; 108; 104; 104; 102;
   101; 100; 103; 106; 111; 113; 119; 121; 129; 131; 140; 142; 151; 155; 162; 168; 176; 183; 188; 199;
   204; 210; 212; 220; 222; 230; 119; 113; 112; 107; 107; 106; 105; 103; 105; 110; 112; 117; 120; 125;
   130; 135; 140; 145; 152; 157; 165; 169; 179; 183; 193; 197; 210; 214; 220; 222; 231; 232; 123; 116;
   116; 111; 111; 109; 110; 107; 107; 114; 114; 121; 122; 130; 130; 140; 140; 150; 151; 163; 164; 176;
   177; 190; 191; 204; 206; 222; 224; 230; 232; 242; 32; 42; 75; 91; 33; 42; 69; 86; 37; 58; 84; 91; 49;
   71; 103; 110; 65; 84; 125; 128; 80; 97; 142; 152; 91; 100; 145; 178; 104; 112; 146; 190; 32; 33; 37;
   49; 65; 80; 91; 104; 42; 42; 58; 71; 84; 97; 100; 112; 75; 69; 84; 103; 125; 142; 145; 146; 91; 86; 91;
   110; 128; 152; 178; 190; 32; 32; 36; 53; 65; 87; 93; 99; 31; 33; 34; 49; 59; 78; 86; 93; 32; 34; 36;
   50; 59; 77; 82; 89; 34; 37; 42; 54; 63; 79; 80; 88; 36; 38; 48; 60; 68; 84; 86; 90; 44; 43; 53; 71; 79;
   95; 94; 97; 48; 46; 56; 76; 85; 102; 105; 105; 58; 54; 63; 87; 98; 116; 112; 115; 65; 58; 68; 92; 105;
   124; 122; 124; 79; 70; 79; 104; 118; 141; 135; 135; 82; 72; 81; 106; 121; 144; 149; 146; 91; 80; 88;
   106; 130; 148; 162; 159; 97; 86; 94; 107; 128; 157; 167; 171; 103; 93; 98; 114; 131; 150; 174; 186;
   110; 100; 101; 117; 138; 161; 183; 193; 118; 107; 105; 118; 136; 157; 182; 203; 32; 31; 32; 34; 36; 44;
   48; 58; 65; 79; 82; 91; 97; 103; 110; 118; 32; 33; 34; 37; 38; 43; 46; 54; 58; 70; 72; 80; 86; 93; 100;
   107; 36; 34; 36; 42; 48; 53; 56; 63; 68; 79; 81; 88; 94; 98; 101; 105; 53; 49; 50; 54; 60; 71; 76; 87;
   92; 104; 106; 106; 107; 114; 117; 118; 65; 59; 59; 63; 68; 79; 85; 98; 105; 118; 121; 130; 128; 131;
   138; 136; 87; 78; 77; 79; 84; 95; 102; 116; 124; 141; 144; 148; 157; 150; 161; 157; 93; 86; 82; 80; 86;
   94; 105; 112; 122; 135; 149; 162; 167; 174; 183; 182; 99; 93; 89; 88; 90; 97; 105; 115; 124; 135; 146;
   159; 171; 186; 193; 203; 32; 31; 32; 34; 36; 44; 53; 59; 65; 79; 87; 90; 93; 96; 99; 102; 31; 32; 32;
   34; 35; 42; 51; 56; 62; 75; 82; 85; 88; 91; 94; 97; 31; 32; 33; 33; 34; 41; 49; 54; 59; 72; 78; 82; 86;
   90; 93; 97; 31; 32; 33; 34; 35; 41; 49; 54; 59; 71; 78; 81; 84; 87; 90; 93; 32; 32; 34; 35; 36; 42; 50;
   54; 59; 71; 77; 80; 82; 86; 89; 93; 32; 33; 35; 37; 38; 42; 49; 53; 58; 69; 75; 78; 82; 86; 89; 92; 34;
   34; 37; 39; 42; 48; 54; 58; 63; 73; 79; 78; 80; 83; 88; 92; 35; 34; 37; 41; 45; 50; 57; 61; 65; 76; 82;
   83; 84; 84; 87; 90; 36; 34; 38; 43; 48; 54; 60; 64; 68; 78; 84; 87; 86; 89; 90; 90; 39; 37; 40; 45; 50;
   58; 65; 69; 73; 84; 89; 89; 91; 91; 93; 96; 44; 41; 43; 48; 53; 63; 71; 75; 79; 90; 95; 93; 94; 95; 97;
   97; 46; 43; 44; 49; 55; 65; 73; 78; 82; 93; 98; 100; 98; 100; 99; 103; 48; 45; 46; 51; 56; 67; 76; 80;
   85; 96; 102; 102; 105; 102; 105; 104; 53; 49; 50; 54; 60; 71; 82; 87; 92; 103; 109; 107; 107; 110; 107;
   111; 58; 54; 54; 58; 63; 75; 87; 92; 98; 110; 116; 115; 112; 111; 115; 112; 61; 57; 56; 60; 66; 77; 89;
   95; 101; 114; 120; 118; 119; 118; 116; 120; 65; 60; 58; 63; 68; 79; 92; 98; 105; 118; 124; 123; 122;
   123; 124; 121; 71; 65; 63; 68; 73; 84; 97; 103; 111; 125; 132; 132; 130; 128; 127; 130; 79; 72; 70; 74;
   79; 90; 104; 110; 118; 133; 141; 136; 135; 135; 135; 131; 81; 74; 71; 75; 80; 91; 105; 112; 119; 135;
   142; 140; 140; 138; 139; 142; 82; 75; 72; 76; 81; 92; 106; 113; 121; 136; 144; 151; 149; 149; 146; 143;
   88; 80; 77; 80; 85; 97; 108; 115; 126; 142; 149; 153; 153; 152; 152; 154; 91; 83; 80; 81; 88; 100; 106;
   114; 130; 142; 148; 155; 162; 160; 159; 155; 94; 85; 83; 82; 91; 100; 105; 118; 131; 137; 153; 160;
   165; 167; 166; 168; 97; 88; 86; 85; 94; 100; 107; 123; 128; 140; 157; 161; 167; 173; 171; 169; 100; 91;
   89; 87; 97; 100; 111; 121; 127; 145; 152; 164; 173; 178; 182; 181; 103; 94; 93; 90; 98; 101; 114; 120;
   131; 144; 150; 170; 174; 180; 186; 183; 107; 97; 96; 93; 100; 104; 117; 119; 136; 142; 155; 168; 177;
   187; 191; 198; 110; 101; 100; 97; 101; 108; 117; 123; 138; 141; 161; 165; 183; 188; 193; 200; 114; 104;
   104; 100; 103; 112; 117; 127; 137; 146; 159; 167; 185; 190; 201; 206; 118; 108; 107; 103; 105; 115;
   118; 131; 136; 151; 157; 172; 182; 197; 203; 208; 122; 111; 111; 107; 107; 119; 119; 136; 136; 156;
   156; 178; 179; 203; 204; 217; 32; 31; 31; 31; 32; 32; 34; 35; 36; 39; 44; 46; 48; 53; 58; 61; 65; 71;
   79; 81; 82; 88; 91; 94; 97; 100; 103; 107; 110; 114; 118; 122; 31; 32; 32; 32; 32; 33; 34; 34; 34; 37;
   41; 43; 45; 49; 54; 57; 60; 65; 72; 74; 75; 80; 83; 85; 88; 91; 94; 97; 101; 104; 108; 111; 32; 32; 33;
   33; 34; 35; 37; 37; 38; 40; 43; 44; 46; 50; 54; 56; 58; 63; 70; 71; 72; 77; 80; 83; 86; 89; 93; 96;
   100; 104; 107; 111; 34; 34; 33; 34; 35; 37; 39; 41; 43; 45; 48; 49; 51; 54; 58; 60; 63; 68; 74; 75; 76;
   80; 81; 82; 85; 87; 90; 93; 97; 100; 103; 107; 36; 35; 34; 35; 36; 38; 42; 45; 48; 50; 53; 55; 56; 60;
   63; 66; 68; 73; 79; 80; 81; 85; 88; 91; 94; 97; 98; 100; 101; 103; 105; 107; 44; 42; 41; 41; 42; 42;
   48; 50; 54; 58; 63; 65; 67; 71; 75; 77; 79; 84; 90; 91; 92; 97; 100; 100; 100; 100; 101; 104; 108; 112;
   115; 119; 53; 51; 49; 49; 50; 49; 54; 57; 60; 65; 71; 73; 76; 82; 87; 89; 92; 97; 104; 105; 106; 108;
   106; 105; 107; 111; 114; 117; 117; 117; 118; 119; 59; 56; 54; 54; 54; 53; 58; 61; 64; 69; 75; 78; 80;
   87; 92; 95; 98; 103; 110; 112; 113; 115; 114; 118; 123; 121; 120; 119; 123; 127; 131; 136; 65; 62; 59;
   59; 59; 58; 63; 65; 68; 73; 79; 82; 85; 92; 98; 101; 105; 111; 118; 119; 121; 126; 130; 131; 128; 127;
   131; 136; 138; 137; 136; 136; 79; 75; 72; 71; 71; 69; 73; 76; 78; 84; 90; 93; 96; 103; 110; 114; 118;
   125; 133; 135; 136; 142; 142; 137; 140; 145; 144; 142; 141; 146; 151; 156; 87; 82; 78; 78; 77; 75; 79;
   82; 84; 89; 95; 98; 102; 109; 116; 120; 124; 132; 141; 142; 144; 149; 148; 153; 157; 152; 150; 155;
   161; 159; 157; 156; 90; 85; 82; 81; 80; 78; 78; 83; 87; 89; 93; 100; 102; 107; 115; 118; 123; 132; 136;
   140; 151; 153; 155; 160; 161; 164; 170; 168; 165; 167; 172; 178; 93; 88; 86; 84; 82; 82; 80; 84; 86;
   91; 94; 98; 105; 107; 112; 119; 122; 130; 135; 140; 149; 153; 162; 165; 167; 173; 174; 177; 183; 185;
   182; 179; 96; 91; 90; 87; 86; 86; 83; 84; 89; 91; 95; 100; 102; 110; 111; 118; 123; 128; 135; 138; 149;
   152; 160; 167; 173; 178; 180; 187; 188; 190; 197; 203; 99; 94; 93; 90; 89; 89; 88; 87; 90; 93; 97; 99;
   105; 107; 115; 116; 124; 127; 135; 139; 146; 152; 159; 166; 171; 182; 186; 191; 193; 201; 203; 204;
   102; 97; 97; 93; 93; 92; 92; 90; 90; 96; 97; 103; 104; 111; 112; 120; 121; 130; 131; 142; 143; 154;
   155; 168; 169; 181; 183; 198; 200; 206; 208; 217; 31; 44; 79; 96; 32; 41; 72; 90; 32; 42; 71; 86; 34;
   48; 73; 83; 34; 54; 78; 89; 41; 63; 90; 95; 45; 67; 96; 102; 54; 75; 110; 111; 60; 79; 118; 123; 72;
   90; 133; 135; 75; 92; 136; 149; 83; 100; 142; 160; 88; 100; 140; 173; 94; 101; 144; 180; 101; 108; 141;
   188; 108; 115; 151; 197; 31; 32; 32; 34; 34; 41; 45; 54; 60; 72; 75; 83; 88; 94; 101; 108; 44; 41; 42;
   48; 54; 63; 67; 75; 79; 90; 92; 100; 100; 101; 108; 115; 79; 72; 71; 73; 78; 90; 96; 110; 118; 133;
   136; 142; 140; 144; 141; 151; 96; 90; 86; 83; 89; 95; 102; 111; 123; 135; 149; 160; 173; 180; 188; 197;
   32; 32; 36; 53; 65; 87; 93; 99; 31; 32; 35; 51; 62; 82; 88; 94; 31; 33; 34; 49; 59; 78; 86; 93; 31; 33;
   35; 49; 59; 78; 84; 90; 32; 34; 36; 50; 59; 77; 82; 89; 32; 35; 38; 49; 58; 75; 82; 89; 34; 37; 42; 54;
   63; 79; 80; 88; 35; 37; 45; 57; 65; 82; 84; 87; 36; 38; 48; 60; 68; 84; 86; 90; 39; 40; 50; 65; 73; 89;
   91; 93; 44; 43; 53; 71; 79; 95; 94; 97; 46; 44; 55; 73; 82; 98; 98; 99; 48; 46; 56; 76; 85; 102; 105;
   105; 53; 50; 60; 82; 92; 109; 107; 107; 58; 54; 63; 87; 98; 116; 112; 115; 61; 56; 66; 89; 101; 120;
   119; 116; 65; 58; 68; 92; 105; 124; 122; 124; 71; 63; 73; 97; 111; 132; 130; 127; 79; 70; 79; 104; 118;
   141; 135; 135; 81; 71; 80; 105; 119; 142; 140; 139; 82; 72; 81; 106; 121; 144; 149; 146; 88; 77; 85;
   108; 126; 149; 153; 152; 91; 80; 88; 106; 130; 148; 162; 159; 94; 83; 91; 105; 131; 153; 165; 166; 97;
   86; 94; 107; 128; 157; 167; 171; 100; 89; 97; 111; 127; 152; 173; 182; 103; 93; 98; 114; 131; 150; 174;
   186; 107; 96; 100; 117; 136; 155; 177; 191; 110; 100; 101; 117; 138; 161; 183; 193; 114; 104; 103; 117;
   137; 159; 185; 201; 118; 107; 105; 118; 136; 157; 182; 203; 122; 111; 107; 119; 136; 156; 179; 204; 32;
   31; 31; 31; 32; 32; 34; 35; 36; 39; 44; 46; 48; 53; 58; 61; 65; 71; 79; 81; 82; 88; 91; 94; 97; 100;
   103; 107; 110; 114; 118; 122; 32; 32; 33; 33; 34; 35; 37; 37; 38; 40; 43; 44; 46; 50; 54; 56; 58; 63;
   70; 71; 72; 77; 80; 83; 86; 89; 93; 96; 100; 104; 107; 111; 36; 35; 34; 35; 36; 38; 42; 45; 48; 50; 53;
   55; 56; 60; 63; 66; 68; 73; 79; 80; 81; 85; 88; 91; 94; 97; 98; 100; 101; 103; 105; 107; 53; 51; 49;
   49; 50; 49; 54; 57; 60; 65; 71; 73; 76; 82; 87; 89; 92; 97; 104; 105; 106; 108; 106; 105; 107; 111;
   114; 117; 117; 117; 118; 119; 65; 62; 59; 59; 59; 58; 63; 65; 68; 73; 79; 82; 85; 92; 98; 101; 105;
   111; 118; 119; 121; 126; 130; 131; 128; 127; 131; 136; 138; 137; 136; 136; 87; 82; 78; 78; 77; 75; 79;
   82; 84; 89; 95; 98; 102; 109; 116; 120; 124; 132; 141; 142; 144; 149; 148; 153; 157; 152; 150; 155;
   161; 159; 157; 156; 93; 88; 86; 84; 82; 82; 80; 84; 86; 91; 94; 98; 105; 107; 112; 119; 122; 130; 135;
   140; 149; 153; 162; 165; 167; 173; 174; 177; 183; 185; 182; 179; 99; 94; 93; 90; 89; 89; 88; 87; 90;
   93; 97; 99; 105; 107; 115; 116; 124; 127; 135; 139; 146; 152; 159; 166; 171; 182; 186; 191; 193; 201;
   203; 204];
 [35; 46; 57; 66; 46; 60; 69; 71; 57; 69; 90; 90; 66; 71; 90; 109; 31; 38; 47; 50; 57; 63; 67; 71; 38;
   47; 46; 47; 52; 57; 62; 67; 47; 46; 54; 57; 61; 66; 67; 68; 50; 47; 57; 66; 72; 77; 75; 75; 57; 52; 61;
   72; 82; 88; 86; 84; 63; 57; 66; 77; 88; 96; 95; 95; 67; 62; 67; 75; 86; 95; 104; 107; 71; 67; 68; 75;
   84; 95; 107; 113; 32; 30; 33; 41; 49; 49; 50; 54; 57; 63; 65; 68; 70; 72; 74; 76; 30; 32; 35; 42; 46;
   45; 46; 49; 52; 57; 58; 62; 64; 67; 70; 72; 33; 35; 39; 45; 47; 45; 46; 49; 51; 56; 57; 60; 62; 64; 66;
   69; 41; 42; 45; 48; 50; 49; 50; 52; 53; 57; 58; 59; 60; 61; 64; 67; 49; 46; 47; 50; 53; 53; 54; 55; 56;
   60; 61; 64; 64; 65; 66; 66; 49; 45; 45; 49; 53; 58; 60; 62; 63; 67; 68; 67; 69; 68; 70; 70; 50; 46; 46;
   50; 54; 60; 61; 65; 67; 71; 71; 74; 73; 73; 74; 74; 54; 49; 49; 52; 55; 62; 65; 71; 73; 78; 79; 78; 77;
   78; 78; 78; 57; 52; 51; 53; 56; 63; 67; 73; 76; 82; 83; 84; 84; 84; 82; 83; 63; 57; 56; 57; 60; 67; 71;
   78; 82; 89; 90; 90; 89; 88; 87; 88; 65; 58; 57; 58; 61; 68; 71; 79; 83; 90; 91; 94; 93; 93; 92; 93; 68;
   62; 60; 59; 64; 67; 74; 78; 84; 90; 94; 98; 99; 98; 98; 98; 70; 64; 62; 60; 64; 69; 73; 77; 84; 89; 93;
   99; 102; 103; 104; 104; 72; 67; 64; 61; 65; 68; 73; 78; 84; 88; 93; 98; 103; 106; 108; 109; 74; 70; 66;
   64; 66; 70; 74; 78; 82; 87; 92; 98; 104; 108; 111; 112; 76; 72; 69; 67; 66; 70; 74; 78; 83; 88; 93; 98;
   104; 109; 112; 116; 32; 31; 30; 32; 33; 36; 41; 45; 49; 48; 49; 50; 50; 52; 54; 56; 57; 60; 63; 64; 65;
   67; 68; 69; 70; 71; 72; 73; 74; 75; 76; 78; 31; 31; 31; 33; 34; 38; 42; 45; 47; 47; 47; 47; 48; 50; 52;
   53; 54; 57; 60; 61; 61; 63; 64; 65; 66; 67; 68; 69; 70; 71; 72; 74; 30; 31; 32; 33; 35; 40; 42; 44; 46;
   45; 45; 45; 46; 47; 49; 51; 52; 54; 57; 58; 58; 61; 62; 63; 64; 66; 67; 68; 70; 71; 72; 74; 32; 33; 33;
   35; 37; 41; 43; 45; 47; 46; 45; 46; 46; 47; 49; 50; 51; 54; 57; 57; 58; 60; 61; 62; 63; 64; 65; 66; 67;
   68; 69; 70; 33; 34; 35; 37; 39; 43; 45; 46; 47; 46; 45; 46; 46; 47; 49; 50; 51; 53; 56; 57; 57; 59; 60;
   61; 62; 63; 64; 65; 66; 68; 69; 70; 36; 38; 40; 41; 43; 47; 47; 47; 48; 46; 45; 46; 46; 47; 48; 49; 50;
   52; 54; 55; 55; 57; 58; 59; 61; 62; 64; 65; 66; 67; 68; 69; 41; 42; 42; 43; 45; 47; 48; 49; 50; 49; 49;
   49; 50; 50; 52; 52; 53; 55; 57; 58; 58; 60; 59; 59; 60; 61; 61; 63; 64; 66; 67; 69; 45; 45; 44; 45; 46;
   47; 49; 50; 51; 51; 51; 51; 52; 52; 53; 54; 55; 57; 59; 59; 60; 61; 61; 62; 63; 63; 63; 63; 63; 64; 65;
   66; 49; 47; 46; 47; 47; 48; 50; 51; 53; 53; 53; 54; 54; 54; 55; 56; 56; 58; 60; 61; 61; 63; 64; 64; 64;
   64; 65; 66; 66; 66; 66; 66; 48; 47; 45; 46; 46; 46; 49; 51; 53; 54; 55; 56; 56; 57; 58; 59; 60; 61; 63;
   64; 64; 66; 66; 65; 66; 67; 67; 67; 67; 68; 69; 70; 49; 47; 45; 45; 45; 45; 49; 51; 53; 55; 58; 59; 60;
   61; 62; 63; 63; 65; 67; 67; 68; 69; 67; 68; 69; 68; 68; 69; 70; 70; 70; 70; 50; 47; 45; 46; 46; 46; 49;
   51; 54; 56; 59; 60; 60; 62; 64; 64; 65; 67; 69; 69; 70; 70; 71; 71; 70; 70; 71; 71; 71; 71; 72; 74; 50;
   48; 46; 46; 46; 46; 50; 52; 54; 56; 60; 60; 61; 63; 65; 66; 67; 68; 71; 71; 71; 73; 74; 72; 73; 74; 73;
   73; 74; 74; 74; 74; 52; 50; 47; 47; 47; 47; 50; 52; 54; 57; 61; 62; 63; 66; 68; 69; 70; 72; 75; 75; 75;
   77; 75; 75; 76; 75; 75; 76; 75; 75; 76; 77; 54; 52; 49; 49; 49; 48; 52; 53; 55; 58; 62; 64; 65; 68; 71;
   72; 73; 75; 78; 78; 79; 79; 78; 79; 77; 78; 78; 77; 78; 79; 78; 78; 56; 53; 51; 50; 50; 49; 52; 54; 56;
   59; 63; 64; 66; 69; 72; 73; 75; 77; 80; 80; 81; 81; 82; 80; 81; 81; 79; 81; 80; 79; 81; 82; 57; 54; 52;
   51; 51; 50; 53; 55; 56; 60; 63; 65; 67; 70; 73; 75; 76; 79; 82; 82; 83; 85; 84; 83; 84; 83; 84; 82; 82;
   84; 83; 82; 60; 57; 54; 54; 53; 52; 55; 57; 58; 61; 65; 67; 68; 72; 75; 77; 79; 82; 85; 85; 86; 88; 86;
   87; 85; 86; 85; 85; 86; 84; 85; 86; 63; 60; 57; 57; 56; 54; 57; 59; 60; 63; 67; 69; 71; 75; 78; 80; 82;
   85; 89; 89; 90; 90; 90; 89; 89; 88; 88; 88; 87; 88; 88; 87; 64; 61; 58; 57; 57; 55; 58; 59; 61; 64; 67;
   69; 71; 75; 78; 80; 82; 85; 89; 90; 91; 92; 93; 92; 92; 91; 91; 90; 91; 90; 90; 92; 65; 61; 58; 58; 57;
   55; 58; 60; 61; 64; 68; 70; 71; 75; 79; 81; 83; 86; 90; 91; 91; 94; 94; 96; 93; 94; 93; 94; 92; 93; 93;
   92; 67; 63; 61; 60; 59; 57; 60; 61; 63; 66; 69; 70; 73; 77; 79; 81; 85; 88; 90; 92; 94; 96; 96; 97; 98;
   95; 97; 95; 96; 95; 95; 96; 68; 64; 62; 61; 60; 58; 59; 61; 64; 66; 67; 71; 74; 75; 78; 82; 84; 86; 90;
   93; 94; 96; 98; 98; 99; 100; 98; 99; 98; 98; 98; 97; 69; 65; 63; 62; 61; 59; 59; 62; 64; 65; 68; 71;
   72; 75; 79; 80; 83; 87; 89; 92; 96; 97; 98; 100; 100; 101; 102; 101; 101; 101; 100; 102; 70; 66; 64;
   63; 62; 61; 60; 63; 64; 66; 69; 70; 73; 76; 77; 81; 84; 85; 89; 92; 93; 98; 99; 100; 102; 102; 103;
   104; 104; 103; 104; 102; 71; 67; 66; 64; 63; 62; 61; 63; 64; 67; 68; 70; 74; 75; 78; 81; 83; 86; 88;
   91; 94; 95; 100; 101; 102; 104; 104; 105; 106; 107; 105; 107; 72; 68; 67; 65; 64; 64; 61; 63; 65; 67;
   68; 71; 73; 75; 78; 79; 84; 85; 88; 91; 93; 97; 98; 102; 103; 104; 106; 106; 108; 108; 109; 107; 73;
   69; 68; 66; 65; 65; 63; 63; 66; 67; 69; 71; 73; 76; 77; 81; 82; 85; 88; 90; 94; 95; 99; 101; 104; 105;
   106; 109; 108; 110; 111; 112; 74; 70; 70; 67; 66; 66; 64; 63; 66; 67; 70; 71; 74; 75; 78; 80; 82; 86;
   87; 91; 92; 96; 98; 101; 104; 106; 108; 108; 111; 111; 112; 113; 75; 71; 71; 68; 68; 67; 66; 64; 66;
   68; 70; 71; 74; 75; 79; 79; 84; 84; 88; 90; 93; 95; 98; 101; 103; 107; 108; 110; 111; 113; 113; 115;
   76; 72; 72; 69; 69; 68; 67; 65; 66; 69; 70; 72; 74; 76; 78; 81; 83; 85; 88; 90; 93; 95; 98; 100; 104;
   105; 109; 111; 112; 113; 116; 115; 78; 74; 74; 70; 70; 69; 69; 66; 66; 70; 70; 74; 74; 77; 78; 82; 82;
   86; 87; 92; 92; 96; 97; 102; 102; 107; 107; 112; 113; 115; 115; 118; 31; 47; 60; 66; 40; 45; 54; 61;
   46; 56; 64; 64; 48; 61; 75; 73; 54; 65; 85; 82; 61; 69; 92; 92; 64; 68; 90; 102; 68; 71; 87; 105; 31;
   40; 46; 48; 54; 61; 64; 68; 47; 45; 56; 61; 65; 69; 68; 71; 60; 54; 64; 75; 85; 92; 90; 87; 66; 61; 64;
   73; 82; 92; 102; 105; 32; 37; 48; 52; 57; 66; 68; 71; 30; 40; 46; 48; 52; 60; 63; 66; 33; 43; 47; 47;
   51; 59; 60; 63; 42; 47; 50; 50; 53; 60; 59; 62; 49; 48; 53; 54; 57; 62; 62; 62; 49; 46; 53; 61; 64; 69;
   66; 66; 50; 46; 54; 64; 67; 73; 72; 70; 54; 49; 55; 68; 73; 80; 76; 75; 57; 50; 56; 70; 76; 84; 80; 79;
   63; 55; 60; 75; 82; 92; 87; 84; 64; 56; 61; 75; 83; 93; 93; 89; 68; 59; 64; 74; 86; 94; 98; 94; 70; 62;
   66; 73; 83; 96; 99; 98; 72; 64; 66; 75; 83; 92; 101; 104; 74; 67; 66; 74; 84; 94; 103; 106; 76; 69; 67;
   73; 82; 91; 101; 109; 32; 30; 33; 42; 49; 49; 50; 54; 57; 63; 64; 68; 70; 72; 74; 76; 37; 40; 43; 47;
   48; 46; 46; 49; 50; 55; 56; 59; 62; 64; 67; 69; 48; 46; 47; 50; 53; 53; 54; 55; 56; 60; 61; 64; 66; 66;
   66; 67; 52; 48; 47; 50; 54; 61; 64; 68; 70; 75; 75; 74; 73; 75; 74; 73; 57; 52; 51; 53; 57; 64; 67; 73;
   76; 82; 83; 86; 83; 83; 84; 82; 66; 60; 59; 60; 62; 69; 73; 80; 84; 92; 93; 94; 96; 92; 94; 91; 68; 63;
   60; 59; 62; 66; 72; 76; 80; 87; 93; 98; 99; 101; 103; 101; 71; 66; 63; 62; 62; 66; 70; 75; 79; 84; 89;
   94; 98; 104; 106; 109; 32; 31; 37; 42; 48; 49; 52; 54; 57; 63; 66; 67; 68; 69; 71; 72; 31; 31; 38; 42;
   47; 47; 50; 52; 54; 60; 63; 64; 65; 66; 67; 68; 30; 32; 40; 42; 46; 45; 48; 50; 52; 57; 60; 62; 63; 65;
   66; 68; 32; 34; 41; 44; 46; 45; 48; 49; 51; 57; 59; 61; 62; 63; 64; 65; 33; 36; 43; 45; 47; 46; 47; 49;
   51; 56; 59; 60; 60; 62; 63; 65; 37; 40; 47; 47; 47; 45; 47; 48; 50; 54; 57; 58; 60; 61; 62; 63; 42; 43;
   47; 48; 50; 49; 50; 52; 53; 57; 60; 58; 59; 60; 62; 63; 45; 44; 47; 49; 51; 51; 52; 54; 55; 59; 61; 61;
   61; 60; 61; 61; 49; 46; 48; 50; 53; 53; 54; 55; 57; 60; 62; 63; 62; 63; 62; 62; 48; 46; 47; 50; 53; 56;
   57; 59; 60; 64; 66; 65; 65; 64; 64; 65; 49; 45; 46; 49; 53; 58; 61; 62; 64; 67; 69; 67; 66; 66; 66; 65;
   49; 46; 46; 49; 53; 59; 62; 64; 65; 69; 71; 70; 68; 68; 67; 68; 50; 46; 46; 50; 54; 59; 64; 65; 67; 71;
   73; 72; 72; 70; 70; 69; 52; 48; 47; 50; 54; 61; 66; 68; 71; 75; 77; 74; 73; 73; 71; 72; 54; 50; 49; 52;
   55; 62; 68; 71; 73; 78; 80; 78; 76; 74; 75; 73; 55; 51; 49; 52; 56; 63; 69; 72; 75; 80; 82; 80; 79; 78;
   76; 77; 57; 52; 50; 53; 56; 64; 70; 73; 76; 82; 84; 82; 80; 80; 79; 77; 60; 54; 52; 55; 58; 65; 72; 75;
   79; 85; 88; 86; 84; 82; 81; 81; 63; 57; 55; 58; 60; 67; 75; 78; 82; 89; 92; 88; 87; 85; 84; 81; 64; 58;
   55; 58; 61; 68; 75; 78; 82; 89; 92; 90; 89; 87; 86; 86; 64; 59; 56; 58; 61; 68; 75; 79; 83; 90; 93; 95;
   93; 91; 89; 87; 67; 61; 58; 60; 63; 69; 76; 79; 85; 92; 95; 96; 94; 92; 91; 91; 68; 62; 59; 60; 64; 71;
   74; 78; 86; 91; 94; 96; 98; 96; 94; 91; 69; 62; 60; 60; 65; 70; 72; 79; 85; 88; 95; 98; 99; 98; 97; 96;
   70; 63; 62; 60; 66; 69; 73; 81; 83; 89; 96; 97; 99; 101; 98; 97; 71; 64; 63; 61; 67; 68; 74; 79; 82;
   90; 93; 98; 102; 102; 102; 101; 72; 65; 64; 62; 66; 68; 75; 78; 83; 89; 92; 100; 101; 103; 104; 102;
   73; 66; 65; 63; 66; 69; 75; 76; 84; 87; 93; 98; 102; 105; 106; 107; 74; 67; 67; 64; 66; 70; 74; 77; 84;
   86; 94; 96; 103; 105; 106; 107; 75; 68; 68; 65; 66; 71; 74; 78; 83; 87; 93; 96; 103; 105; 109; 109; 76;
   69; 69; 66; 67; 72; 73; 80; 82; 88; 91; 97; 101; 107; 109; 110; 77; 70; 70; 67; 67; 73; 73; 81; 81; 90;
   90; 99; 99; 108; 108; 113; 32; 31; 30; 32; 33; 37; 42; 45; 49; 48; 49; 49; 50; 52; 54; 55; 57; 60; 63;
   64; 64; 67; 68; 69; 70; 71; 72; 73; 74; 75; 76; 77; 31; 31; 32; 34; 36; 40; 43; 44; 46; 46; 45; 46; 46;
   48; 50; 51; 52; 54; 57; 58; 59; 61; 62; 62; 63; 64; 65; 66; 67; 68; 69; 70; 37; 38; 40; 41; 43; 47; 47;
   47; 48; 47; 46; 46; 46; 47; 49; 49; 50; 52; 55; 55; 56; 58; 59; 60; 62; 63; 64; 65; 67; 68; 69; 70; 42;
   42; 42; 44; 45; 47; 48; 49; 50; 50; 49; 49; 50; 50; 52; 52; 53; 55; 58; 58; 58; 60; 60; 60; 60; 61; 62;
   63; 64; 65; 66; 67; 48; 47; 46; 46; 47; 47; 50; 51; 53; 53; 53; 53; 54; 54; 55; 56; 56; 58; 60; 61; 61;
   63; 64; 65; 66; 67; 66; 66; 66; 66; 67; 67; 49; 47; 45; 45; 46; 45; 49; 51; 53; 56; 58; 59; 59; 61; 62;
   63; 64; 65; 67; 68; 68; 69; 71; 70; 69; 68; 68; 69; 70; 71; 72; 73; 52; 50; 48; 48; 47; 47; 50; 52; 54;
   57; 61; 62; 64; 66; 68; 69; 70; 72; 75; 75; 75; 76; 74; 72; 73; 74; 75; 75; 74; 74; 73; 73; 54; 52; 50;
   49; 49; 48; 52; 54; 55; 59; 62; 64; 65; 68; 71; 72; 73; 75; 78; 78; 79; 79; 78; 79; 81; 79; 78; 76; 77;
   78; 80; 81; 57; 54; 52; 51; 51; 50; 53; 55; 57; 60; 64; 65; 67; 71; 73; 75; 76; 79; 82; 82; 83; 85; 86;
   85; 83; 82; 83; 84; 84; 83; 82; 81; 63; 60; 57; 57; 56; 54; 57; 59; 60; 64; 67; 69; 71; 75; 78; 80; 82;
   85; 89; 89; 90; 92; 91; 88; 89; 90; 89; 87; 86; 87; 88; 90; 66; 63; 60; 59; 59; 57; 60; 61; 62; 66; 69;
   71; 73; 77; 80; 82; 84; 88; 92; 92; 93; 95; 94; 95; 96; 93; 92; 93; 94; 93; 91; 90; 67; 64; 62; 61; 60;
   58; 58; 61; 63; 65; 67; 70; 72; 74; 78; 80; 82; 86; 88; 90; 95; 96; 96; 98; 97; 98; 100; 98; 96; 96;
   97; 99; 68; 65; 63; 62; 60; 60; 59; 61; 62; 65; 66; 68; 72; 73; 76; 79; 80; 84; 87; 89; 93; 94; 98; 99;
   99; 102; 101; 102; 103; 103; 101; 99; 69; 66; 65; 63; 62; 61; 60; 60; 63; 64; 66; 68; 70; 73; 74; 78;
   80; 82; 85; 87; 91; 92; 96; 98; 101; 102; 103; 105; 105; 105; 107; 108; 71; 67; 66; 64; 63; 62; 62; 61;
   62; 64; 66; 67; 70; 71; 75; 76; 79; 81; 84; 86; 89; 91; 94; 97; 98; 102; 104; 106; 106; 109; 109; 108;
   72; 68; 68; 65; 65; 63; 63; 61; 62; 65; 65; 68; 69; 72; 73; 77; 77; 81; 81; 86; 87; 91; 91; 96; 97;
   101; 102; 107; 107; 109; 110; 113; 31; 49; 63; 69; 32; 45; 57; 65; 36; 46; 56; 62; 43; 49; 57; 60; 46;
   53; 60; 63; 45; 58; 67; 66; 46; 59; 71; 70; 50; 62; 78; 74; 52; 64; 82; 80; 57; 67; 89; 85; 59; 68; 90;
   91; 62; 71; 91; 96; 63; 69; 89; 101; 65; 68; 89; 103; 67; 70; 86; 105; 69; 72; 88; 107; 31; 32; 36; 43;
   46; 45; 46; 50; 52; 57; 59; 62; 63; 65; 67; 69; 49; 45; 46; 49; 53; 58; 59; 62; 64; 67; 68; 71; 69; 68;
   70; 72; 63; 57; 56; 57; 60; 67; 71; 78; 82; 89; 90; 91; 89; 89; 86; 88; 69; 65; 62; 60; 63; 66; 70; 74;
   80; 85; 91; 96; 101; 103; 105; 107; 32; 37; 48; 52; 57; 66; 68; 71; 31; 38; 47; 50; 54; 63; 65; 67; 30;
   40; 46; 48; 52; 60; 63; 66; 32; 41; 46; 48; 51; 59; 62; 64; 33; 43; 47; 47; 51; 59; 60; 63; 37; 47; 47;
   47; 50; 57; 60; 62; 42; 47; 50; 50; 53; 60; 59; 62; 45; 47; 51; 52; 55; 61; 61; 61; 49; 48; 53; 54; 57;
   62; 62; 62; 48; 47; 53; 57; 60; 66; 65; 64; 49; 46; 53; 61; 64; 69; 66; 66; 49; 46; 53; 62; 65; 71; 68;
   67; 50; 46; 54; 64; 67; 73; 72; 70; 52; 47; 54; 66; 71; 77; 73; 71; 54; 49; 55; 68; 73; 80; 76; 75; 55;
   49; 56; 69; 75; 82; 79; 76; 57; 50; 56; 70; 76; 84; 80; 79; 60; 52; 58; 72; 79; 88; 84; 81; 63; 55; 60;
   75; 82; 92; 87; 84; 64; 55; 61; 75; 82; 92; 89; 86; 64; 56; 61; 75; 83; 93; 93; 89; 67; 58; 63; 76; 85;
   95; 94; 91; 68; 59; 64; 74; 86; 94; 98; 94; 69; 60; 65; 72; 85; 95; 99; 97; 70; 62; 66; 73; 83; 96; 99;
   98; 71; 63; 67; 74; 82; 93; 102; 102; 72; 64; 66; 75; 83; 92; 101; 104; 73; 65; 66; 75; 84; 93; 102;
   106; 74; 67; 66; 74; 84; 94; 103; 106; 75; 68; 66; 74; 83; 93; 103; 109; 76; 69; 67; 73; 82; 91; 101;
   109; 77; 70; 67; 73; 81; 90; 99; 108; 32; 31; 30; 32; 33; 37; 42; 45; 49; 48; 49; 49; 50; 52; 54; 55;
   57; 60; 63; 64; 64; 67; 68; 69; 70; 71; 72; 73; 74; 75; 76; 77; 37; 38; 40; 41; 43; 47; 47; 47; 48; 47;
   46; 46; 46; 47; 49; 49; 50; 52; 55; 55; 56; 58; 59; 60; 62; 63; 64; 65; 67; 68; 69; 70; 48; 47; 46; 46;
   47; 47; 50; 51; 53; 53; 53; 53; 54; 54; 55; 56; 56; 58; 60; 61; 61; 63; 64; 65; 66; 67; 66; 66; 66; 66;
   67; 67; 52; 50; 48; 48; 47; 47; 50; 52; 54; 57; 61; 62; 64; 66; 68; 69; 70; 72; 75; 75; 75; 76; 74; 72;
   73; 74; 75; 75; 74; 74; 73; 73; 57; 54; 52; 51; 51; 50; 53; 55; 57; 60; 64; 65; 67; 71; 73; 75; 76; 79;
   82; 82; 83; 85; 86; 85; 83; 82; 83; 84; 84; 83; 82; 81; 66; 63; 60; 59; 59; 57; 60; 61; 62; 66; 69; 71;
   73; 77; 80; 82; 84; 88; 92; 92; 93; 95; 94; 95; 96; 93; 92; 93; 94; 93; 91; 90; 68; 65; 63; 62; 60; 60;
   59; 61; 62; 65; 66; 68; 72; 73; 76; 79; 80; 84; 87; 89; 93; 94; 98; 99; 99; 102; 101; 102; 103; 103;
   101; 99; 71; 67; 66; 64; 63; 62; 62; 61; 62; 64; 66; 67; 70; 71; 75; 76; 79; 81; 84; 86; 89; 91; 94;
   97; 98; 102; 104; 106; 106; 109; 109; 108]];
 [[32; 41; 69; 92; 41; 63; 88; 103; 69; 88; 127; 140; 92; 103; 140; 184; 32; 32; 37; 47; 62; 78; 90; 102;
   32; 35; 39; 46; 58; 72; 84; 96; 37; 39; 51; 60; 71; 84; 93; 100; 47; 46; 60; 73; 87; 100; 106; 113; 62;
   58; 71; 87; 105; 121; 129; 132; 78; 72; 84; 100; 121; 140; 148; 155; 90; 84; 93; 106; 129; 148; 169;
   183; 102; 96; 100; 113; 132; 155; 183; 201; 32; 31; 31; 32; 36; 39; 47; 54; 61; 71; 80; 86; 92; 98;
   104; 111; 31; 32; 32; 33; 34; 37; 44; 50; 56; 65; 73; 79; 85; 91; 98; 105; 31; 32; 33; 34; 36; 39; 45;
   50; 56; 64; 71; 77; 82; 88; 94; 100; 32; 33; 34; 36; 40; 42; 47; 51; 57; 65; 71; 76; 80; 85; 91; 98;
   36; 34; 36; 40; 48; 50; 56; 60; 65; 73; 79; 84; 86; 90; 95; 98; 39; 37; 39; 42; 50; 54; 60; 65; 70; 78;
   84; 89; 95; 96; 102; 105; 47; 44; 45; 47; 56; 60; 69; 75; 81; 89; 95; 100; 102; 104; 109; 112; 54; 50;
   50; 51; 60; 65; 75; 82; 89; 97; 104; 109; 110; 114; 117; 121; 61; 56; 56; 57; 65; 70; 81; 89; 97; 106;
   113; 119; 122; 126; 125; 130; 71; 65; 64; 65; 73; 78; 89; 97; 106; 117; 125; 131; 134; 134; 136; 141;
   80; 73; 71; 71; 79; 84; 95; 104; 113; 125; 134; 140; 142; 145; 146; 152; 86; 79; 77; 76; 84; 89; 100;
   109; 119; 131; 140; 147; 154; 157; 160; 165; 92; 85; 82; 80; 86; 95; 102; 110; 122; 134; 142; 154; 162;
   168; 174; 178; 98; 91; 88; 85; 90; 96; 104; 114; 126; 134; 145; 157; 168; 176; 184; 193; 104; 98; 94;
   91; 95; 102; 109; 117; 125; 136; 146; 160; 174; 184; 193; 201; 111; 105; 100; 98; 98; 105; 112; 121;
   130; 141; 152; 165; 178; 193; 201; 210; 32; 31; 31; 31; 31; 32; 32; 34; 36; 38; 39; 44; 47; 49; 54; 59;
   61; 65; 71; 76; 80; 83; 86; 89; 92; 95; 98; 101; 104; 108; 111; 114; 31; 32; 32; 32; 32; 32; 33; 34;
   35; 37; 38; 42; 45; 47; 51; 56; 58; 62; 68; 72; 76; 78; 82; 85; 88; 90; 93; 96; 99; 102; 105; 109; 31;
   32; 32; 32; 32; 32; 33; 33; 34; 36; 37; 41; 44; 46; 50; 54; 56; 60; 65; 70; 73; 76; 79; 82; 85; 88; 91;
   95; 98; 101; 105; 109; 31; 32; 32; 32; 32; 33; 33; 34; 35; 36; 38; 41; 44; 45; 49; 54; 56; 59; 65; 69;
   72; 75; 78; 81; 84; 86; 89; 92; 95; 98; 101; 104; 31; 32; 32; 32; 33; 34; 34; 35; 36; 38; 39; 42; 45;
   46; 50; 54; 56; 59; 64; 68; 71; 74; 77; 79; 82; 85; 88; 91; 94; 97; 100; 104; 32; 32; 32; 33; 34; 35;
   36; 37; 38; 39; 40; 42; 45; 46; 49; 53; 55; 58; 63; 66; 69; 72; 74; 78; 81; 84; 87; 90; 93; 96; 99;
   102; 32; 33; 33; 33; 34; 36; 36; 38; 40; 41; 42; 44; 47; 48; 51; 55; 57; 60; 65; 68; 71; 73; 76; 78;
   80; 82; 85; 88; 91; 95; 98; 102; 34; 34; 33; 34; 35; 37; 38; 39; 42; 44; 45; 47; 50; 51; 54; 58; 60;
   63; 68; 71; 74; 76; 79; 82; 85; 86; 87; 88; 90; 93; 96; 99; 36; 35; 34; 35; 36; 38; 40; 42; 48; 50; 50;
   54; 56; 57; 60; 64; 65; 68; 73; 76; 79; 81; 84; 86; 86; 88; 90; 93; 95; 97; 98; 100; 38; 37; 36; 36;
   38; 39; 41; 44; 50; 51; 52; 56; 58; 60; 63; 67; 68; 71; 76; 79; 82; 84; 87; 87; 90; 93; 94; 95; 96;
   100; 103; 106; 39; 38; 37; 38; 39; 40; 42; 45; 50; 52; 54; 58; 60; 62; 65; 69; 70; 73; 78; 81; 84; 86;
   89; 92; 95; 95; 96; 99; 102; 104; 105; 106; 44; 42; 41; 41; 42; 42; 44; 47; 54; 56; 58; 63; 66; 68; 71;
   75; 77; 79; 84; 88; 90; 92; 95; 97; 97; 99; 102; 103; 103; 106; 109; 113; 47; 45; 44; 44; 45; 45; 47;
   50; 56; 58; 60; 66; 69; 71; 75; 79; 81; 84; 89; 92; 95; 97; 100; 100; 102; 105; 104; 106; 109; 111;
   112; 113; 49; 47; 46; 45; 46; 46; 48; 51; 57; 60; 62; 68; 71; 73; 77; 81; 83; 87; 92; 95; 98; 100; 103;
   105; 107; 106; 109; 112; 112; 113; 117; 120; 54; 51; 50; 49; 50; 49; 51; 54; 60; 63; 65; 71; 75; 77;
   82; 87; 89; 92; 97; 101; 104; 106; 109; 112; 110; 113; 114; 114; 117; 121; 121; 121; 59; 56; 54; 54;
   54; 53; 55; 58; 64; 67; 69; 75; 79; 81; 87; 92; 94; 98; 103; 107; 110; 113; 116; 114; 117; 118; 117;
   121; 122; 122; 125; 129; 61; 58; 56; 56; 56; 55; 57; 60; 65; 68; 70; 77; 81; 83; 89; 94; 97; 101; 106;
   110; 113; 116; 119; 120; 122; 121; 126; 124; 125; 130; 130; 130; 65; 62; 60; 59; 59; 58; 60; 63; 68;
   71; 73; 79; 84; 87; 92; 98; 101; 105; 111; 115; 118; 121; 124; 128; 125; 129; 128; 131; 133; 132; 135;
   139; 71; 68; 65; 65; 64; 63; 65; 68; 73; 76; 78; 84; 89; 92; 97; 103; 106; 111; 117; 122; 125; 128;
   131; 131; 134; 132; 134; 136; 136; 140; 141; 140; 76; 72; 70; 69; 68; 66; 68; 71; 76; 79; 81; 88; 92;
   95; 101; 107; 110; 115; 122; 127; 130; 133; 136; 136; 138; 139; 141; 140; 145; 143; 146; 151; 80; 76;
   73; 72; 71; 69; 71; 74; 79; 82; 84; 90; 95; 98; 104; 110; 113; 118; 125; 130; 134; 137; 140; 146; 142;
   146; 145; 149; 146; 150; 152; 151; 83; 78; 76; 75; 74; 72; 73; 76; 81; 84; 86; 92; 97; 100; 106; 113;
   116; 121; 128; 133; 137; 140; 144; 147; 152; 148; 154; 151; 156; 155; 156; 162; 86; 82; 79; 78; 77; 74;
   76; 79; 84; 87; 89; 95; 100; 103; 109; 116; 119; 124; 131; 136; 140; 144; 147; 150; 154; 159; 157; 160;
   160; 162; 165; 162; 89; 85; 82; 81; 79; 78; 78; 82; 86; 87; 92; 97; 100; 105; 112; 114; 120; 128; 131;
   136; 146; 147; 150; 155; 156; 161; 166; 165; 167; 169; 169; 175; 92; 88; 85; 84; 82; 81; 80; 85; 86;
   90; 95; 97; 102; 107; 110; 117; 122; 125; 134; 138; 142; 152; 154; 156; 162; 163; 168; 173; 174; 174;
   178; 176; 95; 90; 88; 86; 85; 84; 82; 86; 88; 93; 95; 99; 105; 106; 113; 118; 121; 129; 132; 139; 146;
   148; 159; 161; 163; 169; 170; 176; 180; 183; 181; 187; 98; 93; 91; 89; 88; 87; 85; 87; 90; 94; 96; 102;
   104; 109; 114; 117; 126; 128; 134; 141; 145; 154; 157; 166; 168; 170; 176; 178; 184; 188; 193; 188;
   101; 96; 95; 92; 91; 90; 88; 88; 93; 95; 99; 103; 106; 112; 114; 121; 124; 131; 136; 140; 149; 151;
   160; 165; 173; 176; 178; 184; 186; 192; 196; 203; 104; 99; 98; 95; 94; 93; 91; 90; 95; 96; 102; 103;
   109; 112; 117; 122; 125; 133; 136; 145; 146; 156; 160; 167; 174; 180; 184; 186; 193; 194; 201; 204;
   108; 102; 101; 98; 97; 96; 95; 93; 97; 100; 104; 106; 111; 113; 121; 122; 130; 132; 140; 143; 150; 155;
   162; 169; 174; 183; 188; 192; 194; 201; 202; 210; 111; 105; 105; 101; 100; 99; 98; 96; 98; 103; 105;
   109; 112; 117; 121; 125; 130; 135; 141; 146; 152; 156; 165; 169; 178; 181; 193; 196; 201; 202; 210;
   211; 114; 109; 109; 104; 104; 102; 102; 99; 100; 106; 106; 113; 113; 120; 121; 129; 130; 139; 140; 151;
   151; 162; 162; 175; 176; 187; 188; 203; 204; 210; 211; 219; 32; 42; 69; 88; 33; 42; 64; 83; 36; 56; 77;
   88; 46; 67; 93; 105; 60; 79; 112; 122; 75; 92; 130; 144; 86; 95; 136; 167; 98; 105; 136; 177; 32; 33;
   36; 46; 60; 75; 86; 98; 42; 42; 56; 67; 79; 92; 95; 105; 69; 64; 77; 93; 112; 130; 136; 136; 88; 83;
   88; 105; 122; 144; 167; 177; 32; 32; 36; 47; 65; 79; 90; 96; 31; 32; 35; 44; 60; 72; 84; 90; 32; 34;
   36; 45; 59; 71; 80; 87; 32; 35; 40; 47; 60; 71; 78; 85; 36; 37; 48; 56; 68; 78; 83; 87; 39; 40; 50; 60;
   73; 84; 91; 94; 47; 45; 56; 69; 84; 95; 101; 101; 53; 50; 60; 75; 92; 103; 108; 110; 61; 56; 65; 81;
   100; 113; 116; 118; 71; 64; 73; 89; 111; 125; 129; 129; 79; 70; 79; 95; 118; 133; 142; 138; 86; 76; 84;
   100; 124; 140; 153; 150; 92; 82; 89; 101; 121; 148; 157; 161; 98; 88; 93; 108; 124; 141; 163; 174; 104;
   94; 95; 110; 129; 151; 171; 181; 110; 100; 98; 111; 127; 147; 169; 188; 32; 31; 32; 32; 36; 39; 47; 53;
   61; 71; 79; 86; 92; 98; 104; 110; 32; 32; 34; 35; 37; 40; 45; 50; 56; 64; 70; 76; 82; 88; 94; 100; 36;
   35; 36; 40; 48; 50; 56; 60; 65; 73; 79; 84; 89; 93; 95; 98; 47; 44; 45; 47; 56; 60; 69; 75; 81; 89; 95;
   100; 101; 108; 110; 111; 65; 60; 59; 60; 68; 73; 84; 92; 100; 111; 118; 124; 121; 124; 129; 127; 79;
   72; 71; 71; 78; 84; 95; 103; 113; 125; 133; 140; 148; 141; 151; 147; 90; 84; 80; 78; 83; 91; 101; 108;
   116; 129; 142; 153; 157; 163; 171; 169; 96; 90; 87; 85; 87; 94; 101; 110; 118; 129; 138; 150; 161; 174;
   181; 188; 32; 31; 32; 32; 36; 44; 47; 53; 65; 73; 79; 87; 90; 93; 96; 99; 31; 32; 32; 33; 35; 42; 45;
   51; 62; 69; 75; 83; 86; 88; 91; 94; 31; 32; 32; 33; 35; 41; 44; 49; 60; 67; 72; 80; 84; 87; 90; 94; 31;
   32; 33; 33; 35; 41; 44; 49; 59; 66; 71; 79; 82; 84; 87; 90; 32; 32; 34; 34; 36; 42; 45; 50; 59; 65; 71;
   78; 80; 83; 87; 90; 32; 33; 35; 36; 38; 42; 45; 49; 58; 64; 69; 76; 80; 83; 86; 88; 32; 33; 35; 36; 40;
   44; 47; 51; 60; 66; 71; 76; 78; 81; 85; 89; 34; 34; 36; 38; 42; 48; 50; 54; 63; 69; 73; 80; 82; 81; 84;
   86; 36; 34; 37; 40; 48; 54; 56; 60; 68; 74; 78; 84; 83; 86; 87; 87; 38; 36; 39; 41; 49; 56; 58; 63; 71;
   77; 81; 86; 88; 88; 90; 93; 39; 37; 40; 42; 50; 58; 60; 65; 73; 79; 84; 90; 91; 92; 94; 93; 44; 41; 42;
   45; 53; 63; 66; 71; 79; 85; 90; 96; 94; 96; 96; 99; 47; 44; 45; 47; 56; 66; 69; 75; 84; 90; 95; 99;
   101; 98; 101; 99; 49; 46; 47; 48; 57; 67; 71; 77; 86; 93; 97; 103; 103; 105; 102; 106; 53; 49; 50; 51;
   60; 71; 75; 82; 92; 99; 103; 111; 108; 107; 110; 107; 58; 54; 54; 55; 63; 75; 79; 87; 98; 105; 110;
   114; 114; 113; 111; 115; 61; 56; 56; 57; 65; 77; 81; 89; 100; 107; 113; 118; 116; 117; 118; 116; 65;
   60; 59; 60; 68; 79; 84; 92; 105; 112; 118; 126; 124; 122; 121; 124; 71; 65; 64; 65; 73; 84; 89; 97;
   111; 119; 125; 130; 129; 129; 129; 125; 76; 69; 68; 69; 76; 88; 92; 101; 115; 123; 130; 134; 134; 131;
   132; 135; 79; 72; 70; 71; 79; 90; 95; 104; 118; 127; 133; 143; 142; 141; 138; 136; 82; 75; 73; 74; 81;
   92; 97; 106; 121; 130; 136; 146; 145; 144; 144; 145; 86; 78; 76; 77; 84; 95; 100; 109; 124; 133; 140;
   147; 153; 151; 150; 146; 89; 81; 79; 78; 87; 95; 99; 112; 124; 130; 145; 152; 156; 157; 156; 158; 92;
   84; 82; 80; 89; 95; 101; 116; 121; 132; 148; 151; 157; 163; 161; 159; 95; 86; 85; 83; 92; 95; 105; 114;
   120; 136; 143; 155; 163; 167; 171; 170; 98; 89; 88; 85; 93; 95; 108; 113; 124; 136; 141; 160; 163; 169;
   174; 171; 101; 92; 91; 88; 94; 98; 110; 112; 128; 133; 146; 158; 166; 175; 179; 185; 104; 95; 94; 91;
   95; 101; 110; 115; 129; 132; 151; 154; 171; 175; 181; 186; 107; 98; 97; 94; 96; 105; 110; 119; 128;
   136; 149; 156; 173; 177; 188; 192; 110; 101; 100; 97; 98; 108; 111; 123; 127; 141; 147; 161; 169; 183;
   188; 193; 114; 104; 104; 100; 100; 111; 111; 126; 127; 145; 145; 166; 166; 189; 190; 201; 32; 31; 31;
   31; 32; 32; 32; 34; 36; 38; 39; 44; 47; 49; 53; 58; 61; 65; 71; 76; 79; 82; 86; 89; 92; 95; 98; 101;
   104; 107; 110; 114; 31; 32; 32; 32; 32; 33; 33; 34; 34; 36; 37; 41; 44; 46; 49; 54; 56; 60; 65; 69; 72;
   75; 78; 81; 84; 86; 89; 92; 95; 98; 101; 104; 32; 32; 32; 33; 34; 35; 35; 36; 37; 39; 40; 42; 45; 47;
   50; 54; 56; 59; 64; 68; 70; 73; 76; 79; 82; 85; 88; 91; 94; 97; 100; 104; 32; 33; 33; 33; 34; 36; 36;
   38; 40; 41; 42; 45; 47; 48; 51; 55; 57; 60; 65; 69; 71; 74; 77; 78; 80; 83; 85; 88; 91; 94; 97; 100;
   36; 35; 35; 35; 36; 38; 40; 42; 48; 49; 50; 53; 56; 57; 60; 63; 65; 68; 73; 76; 79; 81; 84; 87; 89; 92;
   93; 94; 95; 96; 98; 100; 44; 42; 41; 41; 42; 42; 44; 48; 54; 56; 58; 63; 66; 67; 71; 75; 77; 79; 84;
   88; 90; 92; 95; 95; 95; 95; 95; 98; 101; 105; 108; 111; 47; 45; 44; 44; 45; 45; 47; 50; 56; 58; 60; 66;
   69; 71; 75; 79; 81; 84; 89; 92; 95; 97; 100; 99; 101; 105; 108; 110; 110; 110; 111; 111; 53; 51; 49;
   49; 50; 49; 51; 54; 60; 63; 65; 71; 75; 77; 82; 87; 89; 92; 97; 101; 104; 106; 109; 112; 116; 114; 113;
   112; 115; 119; 123; 126; 65; 62; 60; 59; 59; 58; 60; 63; 68; 71; 73; 79; 84; 86; 92; 98; 100; 105; 111;
   115; 118; 121; 124; 124; 121; 120; 124; 128; 129; 128; 127; 127; 73; 69; 67; 66; 65; 64; 66; 69; 74;
   77; 79; 85; 90; 93; 99; 105; 107; 112; 119; 123; 127; 130; 133; 130; 132; 136; 136; 133; 132; 136; 141;
   145; 79; 75; 72; 71; 71; 69; 71; 73; 78; 81; 84; 90; 95; 97; 103; 110; 113; 118; 125; 130; 133; 136;
   140; 145; 148; 143; 141; 146; 151; 149; 147; 145; 87; 83; 80; 79; 78; 76; 76; 80; 84; 86; 90; 96; 99;
   103; 111; 114; 118; 126; 130; 134; 143; 146; 147; 152; 151; 155; 160; 158; 154; 156; 161; 166; 90; 86;
   84; 82; 80; 80; 78; 82; 83; 88; 91; 94; 101; 103; 108; 114; 116; 124; 129; 134; 142; 145; 153; 156;
   157; 163; 163; 166; 171; 173; 169; 166; 93; 88; 87; 84; 83; 83; 81; 81; 86; 88; 92; 96; 98; 105; 107;
   113; 117; 122; 129; 131; 141; 144; 151; 157; 163; 167; 169; 175; 175; 177; 183; 189; 96; 91; 90; 87;
   87; 86; 85; 84; 87; 90; 94; 96; 101; 102; 110; 111; 118; 121; 129; 132; 138; 144; 150; 156; 161; 171;
   174; 179; 181; 188; 188; 190; 99; 94; 94; 90; 90; 88; 89; 86; 87; 93; 93; 99; 99; 106; 107; 115; 116;
   124; 125; 135; 136; 145; 146; 158; 159; 170; 171; 185; 186; 192; 193; 201; 31; 44; 73; 93; 32; 41; 67;
   87; 32; 42; 65; 83; 33; 44; 66; 81; 34; 54; 74; 86; 37; 58; 79; 92; 44; 66; 90; 98; 49; 71; 99; 107;
   56; 77; 107; 117; 65; 84; 119; 129; 72; 90; 127; 141; 78; 95; 133; 151; 84; 95; 132; 163; 89; 95; 136;
   169; 95; 101; 132; 175; 101; 108; 141; 183; 31; 32; 32; 33; 34; 37; 44; 49; 56; 65; 72; 78; 84; 89; 95;
   101; 44; 41; 42; 44; 54; 58; 66; 71; 77; 84; 90; 95; 95; 95; 101; 108; 73; 67; 65; 66; 74; 79; 90; 99;
   107; 119; 127; 133; 132; 136; 132; 141; 93; 87; 83; 81; 86; 92; 98; 107; 117; 129; 141; 151; 163; 169;
   175; 183; 32; 32; 36; 47; 65; 79; 90; 96; 31; 32; 35; 45; 62; 75; 86; 91; 31; 32; 35; 44; 60; 72; 84;
   90; 31; 33; 35; 44; 59; 71; 82; 87; 32; 34; 36; 45; 59; 71; 80; 87; 32; 35; 38; 45; 58; 69; 80; 86; 32;
   35; 40; 47; 60; 71; 78; 85; 34; 36; 42; 50; 63; 73; 82; 84; 36; 37; 48; 56; 68; 78; 83; 87; 38; 39; 49;
   58; 71; 81; 88; 90; 39; 40; 50; 60; 73; 84; 91; 94; 44; 42; 53; 66; 79; 90; 94; 96; 47; 45; 56; 69; 84;
   95; 101; 101; 49; 47; 57; 71; 86; 97; 103; 102; 53; 50; 60; 75; 92; 103; 108; 110; 58; 54; 63; 79; 98;
   110; 114; 111; 61; 56; 65; 81; 100; 113; 116; 118; 65; 59; 68; 84; 105; 118; 124; 121; 71; 64; 73; 89;
   111; 125; 129; 129; 76; 68; 76; 92; 115; 130; 134; 132; 79; 70; 79; 95; 118; 133; 142; 138; 82; 73; 81;
   97; 121; 136; 145; 144; 86; 76; 84; 100; 124; 140; 153; 150; 89; 79; 87; 99; 124; 145; 156; 156; 92;
   82; 89; 101; 121; 148; 157; 161; 95; 85; 92; 105; 120; 143; 163; 171; 98; 88; 93; 108; 124; 141; 163;
   174; 101; 91; 94; 110; 128; 146; 166; 179; 104; 94; 95; 110; 129; 151; 171; 181; 107; 97; 96; 110; 128;
   149; 173; 188; 110; 100; 98; 111; 127; 147; 169; 188; 114; 104; 100; 111; 127; 145; 166; 190; 32; 31;
   31; 31; 32; 32; 32; 34; 36; 38; 39; 44; 47; 49; 53; 58; 61; 65; 71; 76; 79; 82; 86; 89; 92; 95; 98;
   101; 104; 107; 110; 114; 32; 32; 32; 33; 34; 35; 35; 36; 37; 39; 40; 42; 45; 47; 50; 54; 56; 59; 64;
   68; 70; 73; 76; 79; 82; 85; 88; 91; 94; 97; 100; 104; 36; 35; 35; 35; 36; 38; 40; 42; 48; 49; 50; 53;
   56; 57; 60; 63; 65; 68; 73; 76; 79; 81; 84; 87; 89; 92; 93; 94; 95; 96; 98; 100; 47; 45; 44; 44; 45;
   45; 47; 50; 56; 58; 60; 66; 69; 71; 75; 79; 81; 84; 89; 92; 95; 97; 100; 99; 101; 105; 108; 110; 110;
   110; 111; 111; 65; 62; 60; 59; 59; 58; 60; 63; 68; 71; 73; 79; 84; 86; 92; 98; 100; 105; 111; 115; 118;
   121; 124; 124; 121; 120; 124; 128; 129; 128; 127; 127; 79; 75; 72; 71; 71; 69; 71; 73; 78; 81; 84; 90;
   95; 97; 103; 110; 113; 118; 125; 130; 133; 136; 140; 145; 148; 143; 141; 146; 151; 149; 147; 145; 90;
   86; 84; 82; 80; 80; 78; 82; 83; 88; 91; 94; 101; 103; 108; 114; 116; 124; 129; 134; 142; 145; 153; 156;
   157; 163; 163; 166; 171; 173; 169; 166; 96; 91; 90; 87; 87; 86; 85; 84; 87; 90; 94; 96; 101; 102; 110;
   111; 118; 121; 129; 132; 138; 144; 150; 156; 161; 171; 174; 179; 181; 188; 188; 190];
 [33; 45; 56; 64; 45; 58; 66; 69; 56; 66; 86; 87; 64; 69; 87; 105; 31; 38; 47; 48; 54; 61; 66; 69; 38;
   47; 47; 46; 50; 55; 61; 65; 47; 47; 53; 55; 58; 63; 65; 66; 48; 46; 55; 62; 67; 72; 73; 73; 54; 50; 58;
   67; 76; 83; 84; 82; 61; 55; 63; 72; 83; 91; 92; 92; 66; 61; 65; 73; 84; 92; 101; 103; 69; 65; 66; 73;
   82; 92; 103; 109; 32; 30; 33; 38; 49; 48; 50; 52; 55; 60; 63; 66; 68; 70; 72; 74; 30; 31; 35; 41; 46;
   46; 46; 48; 51; 55; 58; 60; 63; 65; 68; 70; 33; 35; 39; 44; 47; 46; 46; 47; 50; 53; 56; 58; 60; 62; 65;
   67; 38; 41; 44; 47; 49; 48; 47; 48; 50; 53; 55; 58; 58; 60; 62; 65; 49; 46; 47; 49; 53; 53; 54; 54; 56;
   58; 60; 62; 62; 63; 64; 64; 48; 46; 46; 48; 53; 54; 56; 57; 59; 61; 63; 65; 67; 66; 68; 68; 50; 46; 46;
   47; 54; 56; 61; 63; 65; 68; 70; 72; 71; 71; 72; 72; 52; 48; 47; 48; 54; 57; 63; 66; 69; 72; 75; 76; 75;
   76; 76; 76; 55; 51; 50; 50; 56; 59; 65; 69; 73; 77; 79; 81; 81; 81; 80; 80; 60; 55; 53; 53; 58; 61; 68;
   72; 77; 82; 85; 87; 87; 85; 84; 85; 63; 58; 56; 55; 60; 63; 70; 75; 79; 85; 89; 91; 91; 90; 89; 90; 66;
   60; 58; 58; 62; 65; 72; 76; 81; 87; 91; 94; 96; 95; 95; 95; 68; 63; 60; 58; 62; 67; 71; 75; 81; 87; 91;
   96; 99; 100; 100; 100; 70; 65; 62; 60; 63; 66; 71; 76; 81; 85; 90; 95; 100; 103; 104; 105; 72; 68; 65;
   62; 64; 68; 72; 76; 80; 84; 89; 95; 100; 104; 107; 108; 74; 70; 67; 65; 64; 68; 72; 76; 80; 85; 90; 95;
   100; 105; 108; 111; 32; 31; 30; 31; 33; 36; 38; 41; 49; 49; 48; 49; 50; 51; 52; 54; 55; 57; 60; 62; 63;
   65; 66; 67; 68; 69; 70; 71; 72; 73; 74; 75; 31; 31; 31; 32; 34; 38; 40; 42; 47; 47; 47; 47; 48; 48; 50;
   52; 53; 54; 57; 59; 60; 61; 63; 64; 65; 66; 67; 67; 68; 69; 70; 71; 30; 31; 31; 32; 35; 39; 41; 42; 46;
   46; 46; 45; 46; 47; 48; 50; 51; 52; 55; 57; 58; 59; 60; 62; 63; 64; 65; 67; 68; 69; 70; 71; 31; 32; 32;
   33; 36; 40; 41; 43; 46; 46; 45; 45; 46; 46; 47; 49; 50; 51; 54; 56; 57; 58; 59; 61; 62; 63; 63; 64; 65;
   66; 67; 68; 33; 34; 35; 36; 39; 43; 44; 45; 47; 46; 46; 45; 46; 47; 47; 49; 50; 51; 53; 55; 56; 57; 58;
   59; 60; 61; 62; 63; 65; 66; 67; 68; 36; 38; 39; 40; 43; 47; 47; 47; 48; 47; 46; 45; 46; 46; 47; 48; 49;
   50; 52; 53; 54; 55; 56; 58; 59; 61; 62; 63; 64; 65; 66; 66; 38; 40; 41; 41; 44; 47; 47; 48; 49; 48; 48;
   47; 47; 47; 48; 49; 50; 51; 53; 54; 55; 56; 58; 58; 58; 59; 60; 61; 62; 64; 65; 66; 41; 42; 42; 43; 45;
   47; 48; 48; 50; 50; 49; 49; 50; 50; 50; 52; 52; 53; 55; 56; 57; 58; 59; 60; 61; 61; 61; 61; 62; 63; 63;
   64; 49; 47; 46; 46; 47; 48; 49; 50; 53; 53; 53; 53; 54; 54; 54; 55; 56; 56; 58; 59; 60; 61; 62; 63; 62;
   62; 63; 64; 64; 64; 64; 64; 49; 47; 46; 46; 46; 47; 48; 50; 53; 53; 54; 55; 55; 55; 56; 57; 58; 58; 60;
   61; 62; 63; 64; 64; 64; 65; 65; 65; 65; 66; 67; 68; 48; 47; 46; 45; 46; 46; 48; 49; 53; 54; 54; 55; 56;
   56; 57; 58; 59; 60; 61; 63; 63; 64; 65; 66; 67; 66; 66; 67; 68; 68; 68; 68; 49; 47; 45; 45; 45; 45; 47;
   49; 53; 55; 55; 58; 59; 60; 61; 62; 63; 63; 65; 66; 67; 68; 69; 69; 68; 68; 69; 69; 69; 69; 70; 71; 50;
   48; 46; 46; 46; 46; 47; 50; 54; 55; 56; 59; 61; 61; 63; 64; 65; 66; 68; 69; 70; 71; 72; 71; 71; 72; 71;
   71; 72; 72; 72; 71; 51; 48; 47; 46; 47; 46; 47; 50; 54; 55; 56; 60; 61; 62; 64; 66; 66; 67; 69; 70; 71;
   72; 73; 73; 74; 73; 73; 74; 73; 73; 74; 75; 52; 50; 48; 47; 47; 47; 48; 50; 54; 56; 57; 61; 63; 64; 66;
   68; 69; 70; 72; 74; 75; 75; 76; 77; 75; 76; 76; 75; 76; 77; 76; 75; 54; 52; 50; 49; 49; 48; 49; 52; 55;
   57; 58; 62; 64; 66; 68; 71; 72; 73; 75; 77; 78; 79; 80; 78; 79; 78; 77; 78; 78; 77; 78; 79; 55; 53; 51;
   50; 50; 49; 50; 52; 56; 58; 59; 63; 65; 66; 69; 72; 73; 74; 77; 78; 79; 80; 81; 81; 81; 80; 81; 80; 80;
   81; 80; 79; 57; 54; 52; 51; 51; 50; 51; 53; 56; 58; 60; 63; 66; 67; 70; 73; 74; 76; 79; 80; 82; 83; 84;
   85; 83; 84; 83; 83; 83; 82; 82; 83; 60; 57; 55; 54; 53; 52; 53; 55; 58; 60; 61; 65; 68; 69; 72; 75; 77;
   79; 82; 84; 85; 86; 87; 86; 87; 85; 85; 85; 84; 86; 85; 84; 62; 59; 57; 56; 55; 53; 54; 56; 59; 61; 63;
   66; 69; 70; 74; 77; 78; 80; 84; 86; 87; 88; 90; 89; 89; 88; 88; 87; 88; 87; 87; 88; 63; 60; 58; 57; 56;
   54; 55; 57; 60; 62; 63; 67; 70; 71; 75; 78; 79; 82; 85; 87; 89; 90; 91; 93; 91; 91; 90; 91; 89; 90; 90;
   89; 65; 61; 59; 58; 57; 55; 56; 58; 61; 63; 64; 68; 71; 72; 75; 79; 80; 83; 86; 88; 90; 91; 93; 94; 95;
   92; 94; 92; 93; 92; 91; 93; 66; 63; 60; 59; 58; 56; 58; 59; 62; 64; 65; 69; 72; 73; 76; 80; 81; 84; 87;
   90; 91; 93; 94; 95; 96; 97; 95; 95; 95; 95; 95; 93; 67; 64; 62; 61; 59; 58; 58; 60; 63; 64; 66; 69; 71;
   73; 77; 78; 81; 85; 86; 89; 93; 94; 95; 97; 97; 98; 99; 97; 97; 97; 96; 98; 68; 65; 63; 62; 60; 59; 58;
   61; 62; 64; 67; 68; 71; 74; 75; 79; 81; 83; 87; 89; 91; 95; 96; 97; 99; 98; 100; 100; 100; 99; 100; 98;
   69; 66; 64; 63; 61; 61; 59; 61; 62; 65; 66; 68; 72; 73; 76; 78; 80; 84; 85; 88; 91; 92; 97; 98; 98;
   101; 100; 102; 102; 103; 101; 102; 70; 67; 65; 63; 62; 62; 60; 61; 63; 65; 66; 69; 71; 73; 76; 77; 81;
   83; 85; 88; 90; 94; 95; 99; 100; 100; 103; 102; 104; 104; 105; 103; 71; 67; 67; 64; 63; 63; 61; 61; 64;
   65; 67; 69; 71; 74; 75; 78; 80; 83; 85; 87; 91; 92; 95; 97; 100; 102; 102; 105; 104; 106; 106; 108; 72;
   68; 68; 65; 65; 64; 62; 62; 64; 65; 68; 69; 72; 73; 76; 78; 80; 83; 84; 88; 89; 93; 95; 97; 100; 102;
   104; 104; 107; 106; 108; 108; 73; 69; 69; 66; 66; 65; 64; 63; 64; 66; 68; 69; 72; 73; 77; 77; 81; 82;
   86; 87; 90; 92; 95; 97; 99; 103; 104; 106; 106; 109; 108; 110; 74; 70; 70; 67; 67; 66; 65; 63; 64; 67;
   68; 70; 72; 74; 76; 78; 80; 82; 85; 87; 90; 91; 95; 96; 100; 101; 105; 106; 108; 108; 111; 110; 75; 71;
   71; 68; 68; 66; 66; 64; 64; 68; 68; 71; 71; 75; 75; 79; 79; 83; 84; 88; 89; 93; 93; 98; 98; 102; 103;
   108; 108; 110; 110; 113; 31; 47; 57; 65; 40; 45; 52; 61; 46; 55; 61; 63; 47; 60; 70; 72; 52; 64; 79;
   81; 59; 68; 87; 90; 63; 66; 88; 99; 66; 69; 85; 102; 31; 40; 46; 47; 52; 59; 63; 66; 47; 45; 55; 60;
   64; 68; 66; 69; 57; 52; 61; 70; 79; 87; 88; 85; 65; 61; 63; 72; 81; 90; 99; 102; 32; 35; 48; 50; 57;
   63; 68; 70; 30; 38; 46; 46; 52; 58; 63; 65; 33; 41; 47; 46; 51; 56; 60; 63; 39; 46; 48; 47; 51; 55; 58;
   61; 49; 48; 53; 54; 57; 60; 61; 61; 48; 46; 53; 56; 60; 64; 65; 65; 50; 46; 54; 61; 66; 70; 71; 69; 52;
   47; 54; 63; 71; 75; 75; 74; 55; 49; 56; 65; 74; 79; 79; 78; 60; 53; 58; 68; 79; 85; 85; 82; 63; 55; 60;
   70; 82; 89; 91; 87; 66; 58; 62; 72; 84; 91; 95; 91; 68; 60; 64; 71; 81; 94; 97; 96; 70; 62; 65; 73; 81;
   89; 98; 101; 72; 65; 65; 72; 82; 92; 100; 103; 74; 67; 65; 71; 79; 89; 98; 105; 32; 30; 33; 39; 49; 48;
   50; 52; 55; 60; 63; 66; 68; 70; 72; 74; 35; 38; 41; 46; 48; 46; 46; 47; 49; 53; 55; 58; 60; 62; 65; 67;
   48; 46; 47; 48; 53; 53; 54; 54; 56; 58; 60; 62; 64; 65; 65; 65; 50; 46; 46; 47; 54; 56; 61; 63; 65; 68;
   70; 72; 71; 73; 72; 71; 57; 52; 51; 51; 57; 60; 66; 71; 74; 79; 82; 84; 81; 81; 82; 79; 63; 58; 56; 55;
   60; 64; 70; 75; 79; 85; 89; 91; 94; 89; 92; 89; 68; 63; 60; 58; 61; 65; 71; 75; 79; 85; 91; 95; 97; 98;
   100; 98; 70; 65; 63; 61; 61; 65; 69; 74; 78; 82; 87; 91; 96; 101; 103; 105; 32; 31; 35; 38; 48; 49; 50;
   52; 57; 61; 63; 67; 68; 69; 70; 71; 31; 31; 37; 40; 47; 47; 48; 50; 54; 57; 60; 63; 64; 65; 66; 67; 30;
   32; 38; 40; 46; 45; 46; 48; 52; 55; 58; 61; 63; 64; 65; 67; 31; 33; 38; 41; 46; 45; 46; 48; 52; 55; 57;
   60; 61; 62; 63; 64; 33; 36; 41; 44; 47; 46; 46; 47; 51; 54; 56; 59; 60; 61; 63; 64; 37; 40; 45; 47; 47;
   45; 46; 47; 50; 52; 54; 57; 59; 61; 62; 62; 39; 41; 46; 47; 48; 47; 47; 48; 51; 54; 55; 57; 58; 59; 61;
   62; 42; 43; 46; 48; 50; 49; 50; 50; 53; 56; 57; 60; 60; 59; 60; 60; 49; 46; 48; 49; 53; 53; 54; 54; 57;
   59; 60; 63; 61; 62; 61; 61; 48; 46; 47; 48; 53; 55; 55; 56; 58; 61; 62; 64; 64; 63; 63; 64; 48; 46; 46;
   48; 53; 56; 56; 57; 60; 62; 64; 66; 65; 65; 65; 64; 49; 45; 45; 47; 53; 58; 59; 61; 64; 66; 67; 69; 67;
   67; 66; 67; 50; 46; 46; 48; 54; 59; 61; 63; 66; 68; 70; 71; 71; 68; 69; 67; 51; 47; 47; 48; 54; 60; 61;
   64; 68; 70; 71; 73; 72; 72; 70; 71; 52; 48; 47; 48; 54; 61; 63; 66; 71; 73; 75; 77; 75; 73; 74; 71; 54;
   50; 49; 50; 55; 62; 65; 68; 73; 76; 78; 79; 78; 76; 74; 75; 55; 51; 49; 50; 56; 63; 65; 69; 74; 77; 79;
   81; 79; 78; 78; 75; 57; 52; 50; 51; 56; 64; 66; 70; 76; 79; 82; 85; 83; 81; 79; 79; 60; 54; 53; 53; 58;
   65; 68; 72; 79; 82; 85; 87; 85; 84; 82; 80; 62; 56; 54; 55; 60; 66; 69; 74; 81; 84; 87; 88; 87; 85; 84;
   84; 63; 57; 55; 56; 60; 67; 70; 75; 82; 86; 89; 92; 91; 89; 87; 84; 64; 59; 56; 57; 61; 68; 71; 75; 83;
   87; 90; 93; 92; 90; 89; 89; 66; 60; 58; 58; 62; 69; 72; 76; 84; 88; 91; 94; 95; 93; 91; 89; 67; 61; 59;
   58; 63; 68; 71; 78; 83; 86; 93; 96; 96; 96; 94; 94; 68; 62; 60; 59; 64; 67; 71; 79; 81; 86; 94; 95; 97;
   98; 96; 94; 69; 63; 61; 60; 65; 66; 72; 77; 80; 88; 91; 96; 99; 99; 100; 98; 70; 64; 62; 60; 65; 66;
   73; 76; 81; 87; 89; 97; 98; 100; 101; 99; 71; 65; 64; 61; 65; 67; 73; 74; 82; 85; 90; 95; 99; 102; 103;
   104; 72; 65; 65; 62; 65; 68; 72; 75; 82; 83; 92; 93; 100; 102; 103; 104; 73; 66; 66; 63; 65; 69; 72;
   76; 81; 85; 90; 93; 100; 102; 105; 106; 74; 67; 67; 64; 65; 70; 71; 77; 79; 86; 89; 94; 98; 103; 105;
   106; 75; 68; 68; 65; 65; 71; 71; 78; 78; 87; 87; 96; 96; 105; 105; 109; 32; 31; 30; 31; 33; 37; 39; 42;
   49; 48; 48; 49; 50; 51; 52; 54; 55; 57; 60; 62; 63; 64; 66; 67; 68; 69; 70; 71; 72; 73; 74; 75; 31; 31;
   32; 33; 36; 40; 41; 43; 46; 46; 46; 45; 46; 47; 48; 50; 51; 52; 54; 56; 57; 59; 60; 61; 62; 63; 64; 65;
   65; 66; 67; 68; 35; 37; 38; 38; 41; 45; 46; 46; 48; 47; 46; 45; 46; 47; 47; 49; 49; 50; 53; 54; 55; 56;
   58; 59; 60; 61; 62; 64; 65; 66; 67; 68; 38; 40; 40; 41; 44; 47; 47; 48; 49; 48; 48; 47; 48; 48; 48; 50;
   50; 51; 53; 55; 56; 57; 58; 58; 59; 60; 60; 61; 62; 63; 64; 65; 48; 47; 46; 46; 47; 47; 48; 50; 53; 53;
   53; 53; 54; 54; 54; 55; 56; 56; 58; 60; 60; 61; 62; 63; 64; 65; 65; 65; 65; 65; 65; 65; 49; 47; 45; 45;
   46; 45; 47; 49; 53; 55; 56; 58; 59; 60; 61; 62; 63; 64; 65; 66; 67; 68; 69; 68; 67; 66; 66; 67; 68; 69;
   70; 71; 50; 48; 46; 46; 46; 46; 47; 50; 54; 55; 56; 59; 61; 61; 63; 65; 65; 66; 68; 69; 70; 71; 72; 71;
   71; 72; 73; 73; 72; 72; 71; 71; 52; 50; 48; 48; 47; 47; 48; 50; 54; 56; 57; 61; 63; 64; 66; 68; 69; 70;
   72; 74; 75; 75; 76; 78; 79; 77; 76; 74; 75; 76; 77; 78; 57; 54; 52; 52; 51; 50; 51; 53; 57; 58; 60; 64;
   66; 68; 71; 73; 74; 76; 79; 81; 82; 83; 84; 83; 81; 80; 81; 82; 82; 81; 79; 78; 61; 57; 55; 55; 54; 52;
   54; 56; 59; 61; 62; 66; 68; 70; 73; 76; 77; 79; 82; 84; 86; 87; 88; 86; 86; 88; 87; 85; 83; 85; 86; 87;
   63; 60; 58; 57; 56; 54; 55; 57; 60; 62; 64; 67; 70; 71; 75; 78; 79; 82; 85; 87; 89; 90; 91; 93; 94; 91;
   89; 90; 92; 90; 89; 87; 67; 63; 61; 60; 59; 57; 57; 60; 63; 64; 66; 69; 71; 73; 77; 79; 81; 85; 87; 88;
   92; 93; 94; 96; 95; 96; 97; 95; 93; 93; 94; 96; 68; 64; 63; 61; 60; 59; 58; 60; 61; 64; 65; 67; 71; 72;
   75; 78; 79; 83; 85; 87; 91; 92; 95; 96; 97; 99; 98; 99; 100; 100; 98; 96; 69; 65; 64; 62; 61; 61; 59;
   59; 62; 63; 65; 67; 68; 72; 73; 76; 78; 81; 84; 85; 89; 90; 93; 96; 98; 99; 100; 102; 102; 102; 103;
   105; 70; 66; 65; 63; 63; 62; 61; 60; 61; 63; 65; 66; 69; 70; 74; 74; 78; 79; 82; 84; 87; 89; 91; 94;
   96; 100; 101; 103; 103; 105; 105; 105; 71; 67; 67; 64; 64; 62; 62; 60; 61; 64; 64; 67; 67; 71; 71; 75;
   75; 79; 80; 84; 84; 89; 89; 94; 94; 98; 99; 104; 104; 106; 106; 109; 31; 49; 61; 69; 32; 45; 55; 64;
   36; 46; 54; 61; 41; 47; 54; 59; 46; 53; 59; 62; 46; 56; 62; 65; 46; 59; 68; 68; 48; 61; 73; 73; 51; 63;
   77; 78; 54; 65; 82; 84; 57; 67; 86; 89; 60; 69; 88; 93; 62; 67; 86; 98; 64; 66; 87; 100; 65; 68; 83;
   102; 67; 70; 86; 103; 31; 32; 36; 41; 46; 46; 46; 48; 51; 54; 57; 60; 62; 64; 65; 67; 49; 45; 46; 47;
   53; 56; 59; 61; 63; 65; 67; 69; 67; 66; 68; 70; 61; 55; 54; 54; 59; 62; 68; 73; 77; 82; 86; 88; 86; 87;
   83; 86; 69; 64; 61; 59; 62; 65; 68; 73; 78; 84; 89; 93; 98; 100; 102; 103; 32; 35; 48; 50; 57; 63; 68;
   70; 31; 37; 47; 48; 54; 60; 64; 66; 30; 38; 46; 46; 52; 58; 63; 65; 31; 38; 46; 46; 52; 57; 61; 63; 33;
   41; 47; 46; 51; 56; 60; 63; 37; 45; 47; 46; 50; 54; 59; 62; 39; 46; 48; 47; 51; 55; 58; 61; 42; 46; 50;
   50; 53; 57; 60; 60; 49; 48; 53; 54; 57; 60; 61; 61; 48; 47; 53; 55; 58; 62; 64; 63; 48; 46; 53; 56; 60;
   64; 65; 65; 49; 45; 53; 59; 64; 67; 67; 66; 50; 46; 54; 61; 66; 70; 71; 69; 51; 47; 54; 61; 68; 71; 72;
   70; 52; 47; 54; 63; 71; 75; 75; 74; 54; 49; 55; 65; 73; 78; 78; 74; 55; 49; 56; 65; 74; 79; 79; 78; 57;
   50; 56; 66; 76; 82; 83; 79; 60; 53; 58; 68; 79; 85; 85; 82; 62; 54; 60; 69; 81; 87; 87; 84; 63; 55; 60;
   70; 82; 89; 91; 87; 64; 56; 61; 71; 83; 90; 92; 89; 66; 58; 62; 72; 84; 91; 95; 91; 67; 59; 63; 71; 83;
   93; 96; 94; 68; 60; 64; 71; 81; 94; 97; 96; 69; 61; 65; 72; 80; 91; 99; 100; 70; 62; 65; 73; 81; 89;
   98; 101; 71; 64; 65; 73; 82; 90; 99; 103; 72; 65; 65; 72; 82; 92; 100; 103; 73; 66; 65; 72; 81; 90;
   100; 105; 74; 67; 65; 71; 79; 89; 98; 105; 75; 68; 65; 71; 78; 87; 96; 105; 32; 31; 30; 31; 33; 37; 39;
   42; 49; 48; 48; 49; 50; 51; 52; 54; 55; 57; 60; 62; 63; 64; 66; 67; 68; 69; 70; 71; 72; 73; 74; 75; 35;
   37; 38; 38; 41; 45; 46; 46; 48; 47; 46; 45; 46; 47; 47; 49; 49; 50; 53; 54; 55; 56; 58; 59; 60; 61; 62;
   64; 65; 66; 67; 68; 48; 47; 46; 46; 47; 47; 48; 50; 53; 53; 53; 53; 54; 54; 54; 55; 56; 56; 58; 60; 60;
   61; 62; 63; 64; 65; 65; 65; 65; 65; 65; 65; 50; 48; 46; 46; 46; 46; 47; 50; 54; 55; 56; 59; 61; 61; 63;
   65; 65; 66; 68; 69; 70; 71; 72; 71; 71; 72; 73; 73; 72; 72; 71; 71; 57; 54; 52; 52; 51; 50; 51; 53; 57;
   58; 60; 64; 66; 68; 71; 73; 74; 76; 79; 81; 82; 83; 84; 83; 81; 80; 81; 82; 82; 81; 79; 78; 63; 60; 58;
   57; 56; 54; 55; 57; 60; 62; 64; 67; 70; 71; 75; 78; 79; 82; 85; 87; 89; 90; 91; 93; 94; 91; 89; 90; 92;
   90; 89; 87; 68; 64; 63; 61; 60; 59; 58; 60; 61; 64; 65; 67; 71; 72; 75; 78; 79; 83; 85; 87; 91; 92; 95;
   96; 97; 99; 98; 99; 100; 100; 98; 96; 70; 66; 65; 63; 63; 62; 61; 60; 61; 63; 65; 66; 69; 70; 74; 74;
   78; 79; 82; 84; 87; 89; 91; 94; 96; 100; 101; 103; 103; 105; 105; 105]];
 [[32; 38; 63; 86; 38; 56; 78; 97; 63; 78; 113; 130; 86; 97; 130; 169; 32; 32; 35; 46; 57; 76; 85; 96; 32;
   34; 37; 45; 54; 70; 79; 90; 35; 37; 48; 56; 64; 79; 87; 93; 46; 45; 56; 70; 80; 96; 100; 105; 57; 54;
   64; 80; 93; 111; 121; 122; 76; 70; 79; 96; 111; 134; 138; 144; 85; 79; 87; 100; 121; 138; 156; 168; 96;
   90; 93; 105; 122; 144; 168; 184; 32; 31; 31; 32; 34; 39; 44; 49; 58; 65; 71; 81; 87; 93; 98; 104; 31;
   32; 32; 32; 34; 38; 41; 46; 54; 60; 66; 75; 81; 86; 92; 98; 31; 32; 33; 34; 36; 39; 42; 46; 53; 59; 64;
   73; 78; 83; 88; 94; 32; 32; 34; 35; 37; 40; 42; 46; 52; 58; 63; 71; 75; 80; 86; 92; 34; 34; 36; 37; 42;
   47; 50; 53; 59; 65; 70; 77; 82; 85; 89; 92; 39; 38; 39; 40; 47; 54; 58; 62; 68; 73; 78; 85; 90; 90; 96;
   98; 44; 41; 42; 42; 50; 58; 63; 68; 74; 79; 84; 91; 96; 98; 102; 104; 49; 46; 46; 46; 53; 62; 68; 73;
   81; 87; 92; 99; 103; 107; 109; 112; 58; 54; 53; 52; 59; 68; 74; 81; 90; 97; 102; 110; 114; 118; 117;
   121; 65; 60; 59; 58; 65; 73; 79; 87; 97; 105; 111; 120; 125; 125; 126; 130; 71; 66; 64; 63; 70; 78; 84;
   92; 102; 111; 117; 127; 133; 134; 136; 141; 81; 75; 73; 71; 77; 85; 91; 99; 110; 120; 127; 137; 143;
   145; 148; 152; 87; 81; 78; 75; 82; 90; 96; 103; 114; 125; 133; 143; 150; 156; 160; 163; 93; 86; 83; 80;
   85; 90; 98; 107; 118; 125; 134; 145; 156; 163; 169; 177; 98; 92; 88; 86; 89; 96; 102; 109; 117; 126;
   136; 148; 160; 169; 176; 184; 104; 98; 94; 92; 92; 98; 104; 112; 121; 130; 141; 152; 163; 177; 184;
   191; 32; 31; 31; 31; 31; 32; 32; 34; 34; 36; 39; 41; 44; 48; 49; 54; 58; 59; 65; 69; 71; 80; 81; 83;
   87; 90; 93; 95; 98; 101; 104; 107; 31; 32; 32; 32; 32; 32; 32; 34; 34; 35; 38; 39; 42; 46; 47; 51; 55;
   57; 62; 66; 68; 76; 77; 78; 83; 85; 88; 90; 93; 96; 99; 101; 31; 32; 32; 32; 32; 32; 32; 33; 34; 34;
   38; 39; 41; 45; 46; 50; 54; 55; 60; 64; 66; 73; 75; 76; 81; 83; 86; 89; 92; 95; 98; 101; 31; 32; 32;
   32; 32; 32; 32; 33; 34; 34; 37; 38; 41; 44; 45; 49; 53; 54; 59; 63; 65; 72; 74; 75; 79; 81; 84; 86; 89;
   91; 94; 97; 31; 32; 32; 32; 33; 33; 34; 35; 36; 36; 39; 40; 42; 45; 46; 50; 53; 54; 59; 63; 64; 71; 73;
   74; 78; 80; 83; 85; 88; 91; 94; 97; 32; 32; 32; 32; 33; 34; 34; 36; 36; 37; 40; 40; 42; 45; 46; 49; 53;
   54; 58; 62; 63; 70; 72; 73; 77; 79; 82; 85; 87; 90; 92; 95; 32; 32; 32; 32; 34; 34; 35; 37; 37; 38; 40;
   41; 42; 45; 46; 49; 52; 54; 58; 61; 63; 69; 71; 72; 75; 78; 80; 83; 86; 89; 92; 95; 34; 34; 33; 33; 35;
   36; 37; 39; 41; 42; 45; 46; 47; 50; 51; 54; 57; 59; 63; 66; 68; 74; 75; 76; 80; 81; 82; 83; 85; 87; 90;
   93; 34; 34; 34; 34; 36; 36; 37; 41; 42; 45; 47; 48; 50; 53; 53; 56; 59; 61; 65; 68; 70; 76; 77; 78; 82;
   83; 85; 88; 89; 90; 92; 93; 36; 35; 34; 34; 36; 37; 38; 42; 45; 48; 50; 51; 54; 56; 57; 60; 63; 64; 68;
   71; 73; 79; 80; 81; 85; 87; 89; 89; 90; 93; 96; 99; 39; 38; 38; 37; 39; 40; 40; 45; 47; 50; 54; 55; 58;
   61; 62; 65; 68; 69; 73; 76; 78; 84; 85; 86; 90; 89; 90; 93; 96; 97; 98; 99; 41; 39; 39; 38; 40; 40; 41;
   46; 48; 51; 55; 56; 59; 62; 63; 67; 70; 71; 75; 78; 80; 86; 87; 88; 91; 93; 96; 97; 97; 99; 102; 105;
   44; 42; 41; 41; 42; 42; 42; 47; 50; 54; 58; 59; 63; 66; 68; 71; 74; 75; 79; 83; 84; 90; 91; 92; 96; 98;
   98; 99; 102; 104; 104; 105; 48; 46; 45; 44; 45; 45; 45; 50; 53; 56; 61; 62; 66; 70; 71; 76; 79; 80; 85;
   88; 90; 96; 97; 98; 101; 100; 102; 105; 105; 105; 109; 112; 49; 47; 46; 45; 46; 46; 46; 51; 53; 57; 62;
   63; 68; 71; 73; 77; 81; 82; 87; 90; 92; 98; 99; 100; 103; 106; 107; 106; 109; 112; 112; 112; 54; 51;
   50; 49; 50; 49; 49; 54; 56; 60; 65; 67; 71; 76; 77; 82; 86; 87; 92; 96; 97; 104; 105; 106; 110; 110;
   109; 113; 114; 113; 116; 120; 58; 55; 54; 53; 53; 53; 52; 57; 59; 63; 68; 70; 74; 79; 81; 86; 90; 91;
   97; 100; 102; 109; 110; 111; 114; 114; 118; 116; 117; 121; 121; 120; 59; 57; 55; 54; 54; 54; 54; 59;
   61; 64; 69; 71; 75; 80; 82; 87; 91; 93; 99; 102; 104; 111; 112; 113; 117; 121; 120; 122; 124; 122; 125;
   129; 65; 62; 60; 59; 59; 58; 58; 63; 65; 68; 73; 75; 79; 85; 87; 92; 97; 99; 105; 109; 111; 118; 120;
   121; 125; 124; 125; 127; 126; 130; 130; 129; 69; 66; 64; 63; 63; 62; 61; 66; 68; 71; 76; 78; 83; 88;
   90; 96; 100; 102; 109; 113; 115; 123; 125; 126; 129; 130; 131; 130; 134; 133; 135; 139; 71; 68; 66; 65;
   64; 63; 63; 68; 70; 73; 78; 80; 84; 90; 92; 97; 102; 104; 111; 115; 117; 125; 127; 128; 133; 136; 134;
   139; 136; 139; 141; 140; 80; 76; 73; 72; 71; 70; 69; 74; 76; 79; 84; 86; 90; 96; 98; 104; 109; 111;
   118; 123; 125; 134; 136; 137; 142; 138; 143; 140; 144; 144; 144; 149; 81; 77; 75; 74; 73; 72; 71; 75;
   77; 80; 85; 87; 91; 97; 99; 105; 110; 112; 120; 125; 127; 136; 137; 139; 143; 148; 145; 148; 148; 150;
   152; 149; 83; 78; 76; 75; 74; 73; 72; 76; 78; 81; 86; 88; 92; 98; 100; 106; 111; 113; 121; 126; 128;
   137; 139; 140; 145; 149; 153; 153; 154; 155; 155; 161; 87; 83; 81; 79; 78; 77; 75; 80; 82; 85; 90; 91;
   96; 101; 103; 110; 114; 117; 125; 129; 133; 142; 143; 145; 150; 151; 156; 159; 160; 160; 163; 161; 90;
   85; 83; 81; 80; 79; 78; 81; 83; 87; 89; 93; 98; 100; 106; 110; 114; 121; 124; 130; 136; 138; 148; 149;
   151; 156; 157; 162; 166; 168; 166; 172; 93; 88; 86; 84; 83; 82; 80; 82; 85; 89; 90; 96; 98; 102; 107;
   109; 118; 120; 125; 131; 134; 143; 145; 153; 156; 157; 163; 164; 169; 172; 177; 172; 95; 90; 89; 86;
   85; 85; 83; 83; 88; 89; 93; 97; 99; 105; 106; 113; 116; 122; 127; 130; 139; 140; 148; 153; 159; 162;
   164; 169; 170; 176; 179; 185; 98; 93; 92; 89; 88; 87; 86; 85; 89; 90; 96; 97; 102; 105; 109; 114; 117;
   124; 126; 134; 136; 144; 148; 154; 160; 166; 169; 170; 176; 177; 184; 186; 101; 96; 95; 91; 91; 90; 89;
   87; 90; 93; 97; 99; 104; 105; 112; 113; 121; 122; 130; 133; 139; 144; 150; 155; 160; 168; 172; 176;
   177; 184; 185; 191; 104; 99; 98; 94; 94; 92; 92; 90; 92; 96; 98; 102; 104; 109; 112; 116; 121; 125;
   130; 135; 141; 144; 152; 155; 163; 166; 177; 179; 184; 185; 191; 192; 107; 101; 101; 97; 97; 95; 95;
   93; 93; 99; 99; 105; 105; 112; 112; 120; 120; 129; 129; 139; 140; 149; 149; 161; 161; 172; 172; 185;
   186; 191; 192; 199; 32; 38; 62; 86; 32; 40; 58; 80; 34; 51; 68; 85; 44; 61; 85; 101; 54; 69; 98; 117;
   72; 84; 118; 136; 82; 89; 129; 157; 92; 98; 127; 165; 32; 32; 34; 44; 54; 72; 82; 92; 38; 40; 51; 61;
   69; 84; 89; 98; 62; 58; 68; 85; 98; 118; 129; 127; 86; 80; 85; 101; 117; 136; 157; 165; 32; 32; 36; 44;
   58; 79; 88; 93; 31; 32; 35; 41; 54; 73; 81; 88; 32; 33; 36; 42; 53; 71; 78; 84; 32; 34; 38; 42; 52; 69;
   76; 82; 34; 36; 44; 50; 59; 75; 81; 84; 39; 39; 50; 58; 68; 84; 88; 90; 44; 42; 53; 63; 74; 90; 97; 97;
   49; 46; 57; 67; 81; 97; 104; 105; 57; 53; 63; 74; 90; 108; 111; 113; 65; 59; 68; 79; 97; 118; 123; 122;
   71; 64; 73; 84; 102; 125; 135; 131; 81; 72; 80; 91; 110; 135; 145; 141; 87; 77; 85; 96; 114; 140; 148;
   151; 92; 83; 88; 102; 117; 133; 153; 163; 98; 88; 89; 103; 121; 141; 160; 169; 103; 94; 92; 103; 119;
   137; 158; 175; 32; 31; 32; 32; 34; 39; 44; 49; 57; 65; 71; 81; 87; 92; 98; 103; 32; 32; 33; 34; 36; 39;
   42; 46; 53; 59; 64; 72; 77; 83; 88; 94; 36; 35; 36; 38; 44; 50; 53; 57; 63; 68; 73; 80; 85; 88; 89; 92;
   44; 41; 42; 42; 50; 58; 63; 67; 74; 79; 84; 91; 96; 102; 103; 103; 58; 54; 53; 52; 59; 68; 74; 81; 90;
   97; 102; 110; 114; 117; 121; 119; 79; 73; 71; 69; 75; 84; 90; 97; 108; 118; 125; 135; 140; 133; 141;
   137; 88; 81; 78; 76; 81; 88; 97; 104; 111; 123; 135; 145; 148; 153; 160; 158; 93; 88; 84; 82; 84; 90;
   97; 105; 113; 122; 131; 141; 151; 163; 169; 175; 32; 31; 32; 32; 36; 39; 44; 53; 58; 65; 79; 81; 88;
   90; 93; 96; 31; 32; 32; 32; 35; 38; 42; 51; 55; 62; 75; 77; 83; 86; 88; 91; 31; 32; 32; 32; 35; 38; 41;
   50; 54; 60; 73; 75; 81; 84; 88; 91; 31; 32; 32; 33; 34; 37; 41; 49; 53; 59; 72; 74; 79; 82; 84; 87; 32;
   32; 33; 34; 36; 39; 42; 50; 53; 59; 71; 72; 78; 81; 84; 87; 32; 32; 34; 34; 37; 40; 42; 49; 53; 58; 70;
   71; 77; 80; 83; 85; 32; 33; 34; 35; 38; 40; 42; 49; 52; 58; 69; 70; 76; 78; 82; 86; 34; 34; 35; 37; 42;
   45; 48; 54; 57; 63; 73; 75; 79; 79; 81; 83; 34; 34; 36; 37; 44; 47; 50; 56; 59; 65; 75; 77; 81; 83; 84;
   84; 36; 34; 37; 38; 48; 51; 54; 60; 63; 68; 78; 80; 85; 85; 86; 89; 39; 37; 39; 40; 50; 54; 58; 65; 68;
   73; 84; 85; 88; 89; 90; 89; 40; 38; 40; 41; 51; 55; 59; 67; 70; 75; 85; 87; 91; 92; 92; 95; 44; 41; 42;
   43; 53; 58; 63; 71; 74; 79; 90; 91; 97; 94; 97; 95; 47; 44; 45; 46; 56; 61; 66; 75; 79; 85; 95; 97; 99;
   101; 98; 102; 49; 46; 46; 47; 57; 62; 67; 77; 81; 86; 97; 99; 104; 102; 105; 102; 53; 49; 50; 50; 60;
   65; 71; 82; 86; 92; 103; 105; 109; 108; 106; 110; 57; 53; 53; 53; 63; 68; 74; 86; 90; 97; 108; 110;
   111; 112; 113; 110; 59; 54; 54; 54; 64; 69; 75; 87; 91; 98; 111; 112; 119; 117; 115; 118; 65; 60; 59;
   58; 68; 73; 79; 92; 97; 105; 118; 119; 123; 123; 122; 119; 69; 63; 62; 62; 71; 76; 83; 96; 100; 109;
   122; 124; 127; 125; 125; 128; 71; 65; 64; 63; 73; 78; 84; 97; 102; 111; 125; 127; 135; 134; 131; 129;
   79; 72; 71; 70; 79; 84; 90; 104; 109; 118; 133; 135; 137; 136; 136; 137; 81; 74; 72; 71; 80; 85; 91;
   105; 110; 120; 135; 137; 145; 143; 141; 138; 82; 75; 73; 72; 81; 86; 92; 106; 111; 121; 136; 139; 147;
   148; 147; 149; 87; 79; 77; 76; 85; 90; 96; 110; 114; 125; 140; 143; 148; 154; 151; 149; 90; 82; 80; 78;
   87; 89; 99; 108; 113; 129; 135; 146; 153; 157; 160; 159; 92; 84; 83; 81; 88; 90; 102; 106; 117; 128;
   133; 150; 153; 158; 163; 160; 95; 87; 85; 83; 88; 92; 103; 105; 120; 125; 137; 148; 155; 164; 168; 173;
   98; 89; 88; 85; 89; 95; 103; 108; 121; 124; 141; 144; 160; 164; 169; 174; 100; 92; 91; 88; 90; 98; 103;
   111; 120; 127; 139; 146; 161; 165; 175; 179; 103; 94; 94; 90; 92; 101; 103; 114; 119; 131; 137; 150;
   158; 170; 175; 180; 106; 97; 97; 93; 93; 104; 104; 118; 118; 135; 135; 154; 155; 175; 176; 187; 32; 31;
   31; 31; 32; 32; 32; 34; 34; 36; 39; 40; 44; 47; 49; 53; 57; 59; 65; 69; 71; 79; 81; 82; 87; 90; 92; 95;
   98; 100; 103; 106; 31; 32; 32; 32; 32; 32; 33; 34; 34; 34; 37; 38; 41; 44; 46; 49; 53; 54; 60; 63; 65;
   72; 74; 75; 79; 82; 84; 87; 89; 92; 94; 97; 32; 32; 32; 32; 33; 34; 34; 35; 36; 37; 39; 40; 42; 45; 46;
   50; 53; 54; 59; 62; 64; 71; 72; 73; 77; 80; 83; 85; 88; 91; 94; 97; 32; 32; 32; 33; 34; 34; 35; 37; 37;
   38; 40; 41; 43; 46; 47; 50; 53; 54; 58; 62; 63; 70; 71; 72; 76; 78; 81; 83; 85; 88; 90; 93; 36; 35; 35;
   34; 36; 37; 38; 42; 44; 48; 50; 51; 53; 56; 57; 60; 63; 64; 68; 71; 73; 79; 80; 81; 85; 87; 88; 88; 89;
   90; 92; 93; 39; 38; 38; 37; 39; 40; 40; 45; 47; 51; 54; 55; 58; 61; 62; 65; 68; 69; 73; 76; 78; 84; 85;
   86; 90; 89; 90; 92; 95; 98; 101; 104; 44; 42; 41; 41; 42; 42; 42; 48; 50; 54; 58; 59; 63; 66; 67; 71;
   74; 75; 79; 83; 84; 90; 91; 92; 96; 99; 102; 103; 103; 103; 103; 104; 53; 51; 50; 49; 50; 49; 49; 54;
   56; 60; 65; 67; 71; 75; 77; 82; 86; 87; 92; 96; 97; 104; 105; 106; 110; 108; 106; 105; 108; 111; 114;
   118; 58; 55; 54; 53; 53; 53; 52; 57; 59; 63; 68; 70; 74; 79; 81; 86; 90; 91; 97; 100; 102; 109; 110;
   111; 114; 113; 117; 120; 121; 120; 119; 118; 65; 62; 60; 59; 59; 58; 58; 63; 65; 68; 73; 75; 79; 85;
   86; 92; 97; 98; 105; 109; 111; 118; 120; 121; 125; 129; 128; 125; 124; 127; 131; 135; 79; 75; 73; 72;
   71; 70; 69; 73; 75; 78; 84; 85; 90; 95; 97; 103; 108; 111; 118; 122; 125; 133; 135; 136; 140; 135; 133;
   137; 141; 139; 137; 135; 81; 77; 75; 74; 72; 71; 70; 75; 77; 80; 85; 87; 91; 97; 99; 105; 110; 112;
   119; 124; 127; 135; 137; 139; 143; 146; 150; 148; 144; 146; 150; 154; 88; 83; 81; 79; 78; 77; 76; 79;
   81; 85; 88; 91; 97; 99; 104; 109; 111; 119; 123; 127; 135; 137; 145; 147; 148; 153; 153; 155; 160; 161;
   158; 155; 90; 86; 84; 82; 81; 80; 78; 79; 83; 85; 89; 92; 94; 101; 102; 108; 112; 117; 123; 125; 134;
   136; 143; 148; 154; 157; 158; 164; 164; 165; 170; 175; 93; 88; 88; 84; 84; 83; 82; 81; 84; 86; 90; 92;
   97; 98; 105; 106; 113; 115; 122; 125; 131; 136; 141; 147; 151; 160; 163; 168; 169; 175; 175; 176; 96;
   91; 91; 87; 87; 85; 86; 83; 84; 89; 89; 95; 95; 102; 102; 110; 110; 118; 119; 128; 129; 137; 138; 149;
   149; 159; 160; 173; 174; 179; 180; 187; 31; 39; 65; 90; 32; 38; 60; 84; 32; 39; 59; 81; 33; 40; 58; 78;
   34; 47; 65; 83; 37; 54; 73; 89; 41; 58; 79; 94; 46; 62; 86; 102; 53; 68; 97; 112; 60; 73; 105; 123; 65;
   78; 111; 134; 74; 85; 120; 143; 79; 90; 125; 154; 84; 90; 128; 158; 89; 95; 124; 164; 94; 101; 131;
   170; 31; 32; 32; 33; 34; 37; 41; 46; 53; 60; 65; 74; 79; 84; 89; 94; 39; 38; 39; 40; 47; 54; 58; 62;
   68; 73; 78; 85; 90; 90; 95; 101; 65; 60; 59; 58; 65; 73; 79; 86; 97; 105; 111; 120; 125; 128; 124; 131;
   90; 84; 81; 78; 83; 89; 94; 102; 112; 123; 134; 143; 154; 158; 164; 170; 32; 32; 36; 44; 58; 79; 88;
   93; 31; 32; 35; 42; 55; 75; 83; 88; 31; 32; 35; 41; 54; 73; 81; 88; 31; 32; 34; 41; 53; 72; 79; 84; 32;
   33; 36; 42; 53; 71; 78; 84; 32; 34; 37; 42; 53; 70; 77; 83; 32; 34; 38; 42; 52; 69; 76; 82; 34; 35; 42;
   48; 57; 73; 79; 81; 34; 36; 44; 50; 59; 75; 81; 84; 36; 37; 48; 54; 63; 78; 85; 86; 39; 39; 50; 58; 68;
   84; 88; 90; 40; 40; 51; 59; 70; 85; 91; 92; 44; 42; 53; 63; 74; 90; 97; 97; 47; 45; 56; 66; 79; 95; 99;
   98; 49; 46; 57; 67; 81; 97; 104; 105; 53; 50; 60; 71; 86; 103; 109; 106; 57; 53; 63; 74; 90; 108; 111;
   113; 59; 54; 64; 75; 91; 111; 119; 115; 65; 59; 68; 79; 97; 118; 123; 122; 69; 62; 71; 83; 100; 122;
   127; 125; 71; 64; 73; 84; 102; 125; 135; 131; 79; 71; 79; 90; 109; 133; 137; 136; 81; 72; 80; 91; 110;
   135; 145; 141; 82; 73; 81; 92; 111; 136; 147; 147; 87; 77; 85; 96; 114; 140; 148; 151; 90; 80; 87; 99;
   113; 135; 153; 160; 92; 83; 88; 102; 117; 133; 153; 163; 95; 85; 88; 103; 120; 137; 155; 168; 98; 88;
   89; 103; 121; 141; 160; 169; 100; 91; 90; 103; 120; 139; 161; 175; 103; 94; 92; 103; 119; 137; 158;
   175; 106; 97; 93; 104; 118; 135; 155; 176; 32; 31; 31; 31; 32; 32; 32; 34; 34; 36; 39; 40; 44; 47; 49;
   53; 57; 59; 65; 69; 71; 79; 81; 82; 87; 90; 92; 95; 98; 100; 103; 106; 32; 32; 32; 32; 33; 34; 34; 35;
   36; 37; 39; 40; 42; 45; 46; 50; 53; 54; 59; 62; 64; 71; 72; 73; 77; 80; 83; 85; 88; 91; 94; 97; 36; 35;
   35; 34; 36; 37; 38; 42; 44; 48; 50; 51; 53; 56; 57; 60; 63; 64; 68; 71; 73; 79; 80; 81; 85; 87; 88; 88;
   89; 90; 92; 93; 44; 42; 41; 41; 42; 42; 42; 48; 50; 54; 58; 59; 63; 66; 67; 71; 74; 75; 79; 83; 84; 90;
   91; 92; 96; 99; 102; 103; 103; 103; 103; 104; 58; 55; 54; 53; 53; 53; 52; 57; 59; 63; 68; 70; 74; 79;
   81; 86; 90; 91; 97; 100; 102; 109; 110; 111; 114; 113; 117; 120; 121; 120; 119; 118; 79; 75; 73; 72;
   71; 70; 69; 73; 75; 78; 84; 85; 90; 95; 97; 103; 108; 111; 118; 122; 125; 133; 135; 136; 140; 135; 133;
   137; 141; 139; 137; 135; 88; 83; 81; 79; 78; 77; 76; 79; 81; 85; 88; 91; 97; 99; 104; 109; 111; 119;
   123; 127; 135; 137; 145; 147; 148; 153; 153; 155; 160; 161; 158; 155; 93; 88; 88; 84; 84; 83; 82; 81;
   84; 86; 90; 92; 97; 98; 105; 106; 113; 115; 122; 125; 131; 136; 141; 147; 151; 160; 163; 168; 169; 175;
   175; 176];
 [32; 45; 53; 63; 45; 55; 62; 67; 53; 62; 80; 84; 63; 67; 84; 101; 31; 36; 47; 48; 52; 60; 64; 67; 36;
   43; 47; 46; 49; 55; 59; 63; 47; 47; 53; 54; 55; 60; 63; 64; 48; 46; 54; 61; 65; 70; 71; 71; 52; 49; 55;
   65; 71; 78; 81; 79; 60; 55; 60; 70; 78; 89; 89; 89; 64; 59; 63; 71; 81; 89; 97; 99; 67; 63; 64; 71; 79;
   89; 99; 104; 32; 30; 33; 36; 44; 48; 49; 51; 54; 57; 60; 64; 67; 68; 70; 72; 30; 31; 35; 39; 44; 46;
   46; 47; 50; 53; 55; 59; 61; 64; 66; 68; 33; 35; 39; 43; 46; 46; 45; 47; 49; 51; 53; 57; 59; 61; 63; 65;
   36; 39; 43; 47; 47; 46; 45; 46; 48; 50; 52; 55; 57; 58; 61; 63; 44; 44; 46; 47; 50; 51; 51; 51; 53; 54;
   56; 59; 61; 61; 63; 62; 48; 46; 46; 46; 51; 54; 55; 56; 58; 60; 61; 64; 65; 64; 66; 66; 49; 46; 45; 45;
   51; 55; 58; 60; 62; 63; 65; 68; 69; 69; 69; 69; 51; 47; 47; 46; 51; 56; 60; 62; 65; 67; 69; 72; 73; 74;
   73; 73; 54; 50; 49; 48; 53; 58; 62; 65; 70; 73; 75; 78; 79; 79; 77; 77; 57; 53; 51; 50; 54; 60; 63; 67;
   73; 76; 79; 82; 84; 83; 82; 82; 60; 55; 53; 52; 56; 61; 65; 69; 75; 79; 82; 86; 88; 87; 86; 87; 64; 59;
   57; 55; 59; 64; 68; 72; 78; 82; 86; 90; 93; 92; 91; 92; 67; 61; 59; 57; 61; 65; 69; 73; 79; 84; 88; 93;
   95; 96; 96; 96; 68; 64; 61; 58; 61; 64; 69; 74; 79; 83; 87; 92; 96; 99; 100; 101; 70; 66; 63; 61; 63;
   66; 69; 73; 77; 82; 86; 91; 96; 100; 103; 104; 72; 68; 65; 63; 62; 66; 69; 73; 77; 82; 87; 92; 96; 101;
   104; 106; 32; 31; 30; 30; 33; 35; 36; 41; 44; 49; 48; 48; 49; 50; 51; 52; 54; 55; 57; 59; 60; 63; 64;
   65; 67; 68; 68; 69; 70; 71; 72; 73; 31; 31; 31; 31; 34; 36; 38; 42; 44; 47; 47; 47; 47; 48; 48; 50; 51;
   52; 54; 56; 57; 60; 61; 61; 63; 64; 65; 66; 67; 67; 68; 69; 30; 31; 31; 31; 35; 37; 39; 42; 44; 47; 46;
   46; 46; 47; 47; 48; 50; 51; 53; 54; 55; 58; 59; 60; 61; 63; 64; 65; 66; 67; 68; 69; 30; 31; 31; 32; 35;
   37; 40; 42; 44; 46; 45; 45; 45; 46; 46; 47; 49; 50; 52; 53; 54; 57; 58; 58; 60; 61; 62; 63; 63; 64; 65;
   66; 33; 34; 35; 35; 39; 41; 43; 45; 46; 47; 46; 46; 45; 46; 47; 47; 49; 49; 51; 53; 53; 56; 57; 57; 59;
   60; 61; 62; 63; 64; 65; 66; 35; 36; 37; 37; 41; 43; 45; 46; 46; 47; 46; 46; 45; 46; 46; 47; 48; 49; 50;
   52; 53; 55; 56; 56; 58; 59; 60; 61; 62; 63; 64; 64; 36; 38; 39; 40; 43; 45; 47; 47; 47; 48; 46; 46; 45;
   46; 46; 47; 48; 48; 50; 51; 52; 54; 55; 55; 57; 58; 58; 59; 61; 62; 63; 64; 41; 42; 42; 42; 45; 46; 47;
   48; 49; 50; 49; 49; 49; 50; 50; 50; 51; 52; 53; 54; 55; 57; 58; 58; 60; 60; 59; 59; 60; 61; 61; 62; 44;
   44; 44; 44; 46; 46; 47; 49; 50; 51; 51; 51; 51; 51; 51; 52; 53; 53; 54; 56; 56; 59; 59; 59; 61; 61; 61;
   62; 63; 62; 62; 62; 49; 47; 47; 46; 47; 47; 48; 50; 51; 53; 53; 53; 53; 54; 54; 54; 55; 55; 56; 58; 58;
   60; 61; 61; 63; 63; 64; 63; 63; 64; 65; 66; 48; 47; 46; 45; 46; 46; 46; 49; 51; 53; 54; 54; 55; 56; 56;
   57; 58; 59; 60; 61; 61; 63; 64; 64; 65; 65; 64; 65; 66; 66; 66; 66; 48; 47; 46; 45; 46; 46; 46; 49; 51;
   53; 54; 55; 56; 57; 57; 58; 59; 60; 61; 62; 63; 65; 65; 65; 66; 67; 68; 67; 67; 67; 68; 69; 49; 47; 46;
   45; 45; 45; 45; 49; 51; 53; 55; 56; 58; 59; 60; 61; 62; 62; 63; 65; 65; 67; 68; 68; 69; 70; 69; 69; 69;
   70; 69; 69; 50; 48; 47; 46; 46; 46; 46; 50; 51; 54; 56; 57; 59; 61; 62; 63; 64; 65; 66; 68; 68; 70; 71;
   71; 72; 71; 71; 72; 71; 71; 71; 72; 51; 48; 47; 46; 47; 46; 46; 50; 51; 54; 56; 57; 60; 62; 62; 64; 65;
   66; 67; 69; 69; 71; 72; 72; 73; 74; 74; 72; 73; 74; 73; 73; 52; 50; 48; 47; 47; 47; 47; 50; 52; 54; 57;
   58; 61; 63; 64; 66; 68; 68; 70; 72; 72; 75; 75; 75; 77; 76; 75; 76; 76; 74; 75; 76; 54; 51; 50; 49; 49;
   48; 48; 51; 53; 55; 58; 59; 62; 64; 65; 68; 70; 70; 73; 74; 75; 77; 78; 78; 79; 78; 79; 78; 77; 78; 77;
   77; 55; 52; 51; 50; 49; 49; 48; 52; 53; 55; 59; 60; 62; 65; 66; 68; 70; 71; 73; 75; 76; 78; 79; 79; 80;
   81; 80; 80; 81; 79; 79; 81; 57; 54; 53; 52; 51; 50; 50; 53; 54; 56; 60; 61; 63; 66; 67; 70; 73; 73; 76;
   78; 79; 82; 82; 83; 84; 83; 83; 83; 82; 83; 82; 81; 59; 56; 54; 53; 53; 52; 51; 54; 56; 58; 61; 62; 65;
   68; 69; 72; 74; 75; 78; 80; 81; 84; 85; 85; 86; 86; 86; 84; 85; 84; 84; 85; 60; 57; 55; 54; 53; 53; 52;
   55; 56; 58; 61; 63; 65; 68; 69; 72; 75; 76; 79; 81; 82; 85; 86; 86; 88; 88; 87; 88; 86; 87; 87; 85; 63;
   60; 58; 57; 56; 55; 54; 57; 59; 60; 63; 65; 67; 70; 71; 75; 77; 78; 82; 84; 85; 89; 89; 90; 92; 89; 91;
   89; 90; 89; 88; 89; 64; 61; 59; 58; 57; 56; 55; 58; 59; 61; 64; 65; 68; 71; 72; 75; 78; 79; 82; 85; 86;
   89; 90; 91; 93; 94; 92; 92; 91; 91; 92; 90; 65; 61; 60; 58; 57; 56; 55; 58; 59; 61; 64; 65; 68; 71; 72;
   75; 78; 79; 83; 85; 86; 90; 91; 91; 93; 94; 95; 94; 94; 94; 93; 94; 67; 63; 61; 60; 59; 58; 57; 60; 61;
   63; 65; 66; 69; 72; 73; 77; 79; 80; 84; 86; 88; 92; 93; 93; 95; 95; 96; 97; 96; 95; 96; 94; 68; 64; 63;
   61; 60; 59; 58; 60; 61; 63; 65; 67; 70; 71; 74; 76; 78; 81; 83; 86; 88; 89; 94; 94; 95; 97; 97; 98; 99;
   99; 97; 99; 68; 65; 64; 62; 61; 60; 58; 59; 61; 64; 64; 68; 69; 71; 74; 75; 79; 80; 83; 86; 87; 91; 92;
   95; 96; 97; 99; 99; 100; 100; 101; 99; 69; 66; 65; 63; 62; 61; 59; 59; 62; 63; 65; 67; 69; 72; 72; 76;
   78; 80; 83; 84; 88; 89; 92; 94; 97; 98; 99; 101; 100; 102; 102; 104; 70; 67; 66; 63; 63; 62; 61; 60;
   63; 63; 66; 67; 69; 71; 73; 76; 77; 81; 82; 85; 86; 90; 91; 94; 96; 99; 100; 100; 103; 102; 104; 104;
   71; 67; 67; 64; 64; 63; 62; 61; 62; 64; 66; 67; 70; 71; 74; 74; 78; 79; 83; 84; 87; 89; 91; 94; 95; 99;
   100; 102; 102; 104; 104; 106; 72; 68; 68; 65; 65; 64; 63; 61; 62; 65; 66; 68; 69; 71; 73; 75; 77; 79;
   82; 84; 87; 88; 92; 93; 96; 97; 101; 102; 104; 104; 106; 106; 73; 69; 69; 66; 66; 64; 64; 62; 62; 66;
   66; 69; 69; 72; 73; 76; 77; 81; 81; 85; 85; 89; 90; 94; 94; 99; 99; 104; 104; 106; 106; 108; 31; 47;
   54; 64; 38; 46; 50; 60; 46; 53; 57; 62; 46; 56; 66; 71; 50; 59; 74; 79; 57; 64; 82; 88; 61; 65; 85; 97;
   65; 67; 82; 99; 31; 38; 46; 46; 50; 57; 61; 65; 47; 46; 53; 56; 59; 64; 65; 67; 54; 50; 57; 66; 74; 82;
   85; 82; 64; 60; 62; 71; 79; 88; 97; 99; 32; 34; 48; 49; 54; 63; 67; 69; 31; 36; 46; 46; 50; 58; 62; 65;
   33; 40; 47; 46; 49; 56; 59; 62; 37; 44; 47; 45; 48; 54; 57; 60; 44; 46; 51; 51; 53; 59; 60; 61; 48; 46;
   53; 56; 58; 64; 64; 64; 49; 45; 53; 58; 62; 67; 70; 68; 51; 47; 54; 60; 65; 71; 73; 72; 54; 49; 55; 62;
   70; 77; 77; 76; 57; 51; 56; 64; 73; 82; 83; 81; 60; 53; 58; 65; 75; 85; 89; 85; 64; 57; 61; 68; 78; 89;
   93; 89; 66; 59; 63; 69; 79; 91; 94; 93; 68; 61; 63; 71; 79; 87; 96; 98; 70; 63; 63; 70; 80; 89; 97;
   100; 72; 65; 63; 69; 77; 86; 95; 102; 32; 31; 33; 37; 44; 48; 49; 51; 54; 57; 60; 64; 66; 68; 70; 72;
   34; 36; 40; 44; 46; 46; 45; 47; 49; 51; 53; 57; 59; 61; 63; 65; 48; 46; 47; 47; 51; 53; 53; 54; 55; 56;
   58; 61; 63; 63; 63; 63; 49; 46; 46; 45; 51; 56; 58; 60; 62; 64; 65; 68; 69; 71; 70; 69; 54; 50; 49; 48;
   53; 58; 62; 65; 70; 73; 75; 78; 79; 79; 80; 77; 63; 58; 56; 54; 59; 64; 67; 71; 77; 82; 85; 89; 91; 87;
   89; 86; 67; 62; 59; 57; 60; 64; 70; 73; 77; 83; 89; 93; 94; 96; 97; 95; 69; 65; 62; 60; 61; 64; 68; 72;
   76; 81; 85; 89; 93; 98; 100; 102; 32; 31; 34; 37; 48; 48; 49; 52; 54; 57; 63; 64; 67; 68; 69; 69; 31;
   31; 35; 38; 47; 47; 47; 50; 51; 54; 60; 61; 63; 64; 65; 66; 31; 32; 36; 39; 46; 46; 46; 48; 50; 53; 58;
   59; 62; 63; 65; 66; 30; 32; 36; 40; 46; 45; 45; 48; 49; 52; 57; 58; 60; 61; 62; 63; 33; 36; 40; 43; 47;
   46; 46; 47; 49; 51; 56; 57; 59; 60; 62; 63; 35; 38; 42; 45; 47; 46; 45; 47; 48; 50; 55; 56; 58; 60; 61;
   61; 37; 40; 44; 47; 47; 46; 45; 47; 48; 50; 54; 55; 57; 58; 60; 61; 42; 43; 45; 47; 50; 50; 49; 50; 51;
   53; 57; 58; 59; 58; 59; 59; 44; 44; 46; 47; 51; 51; 51; 52; 53; 54; 59; 59; 60; 61; 61; 60; 49; 46; 47;
   48; 53; 53; 53; 54; 55; 57; 60; 61; 63; 62; 62; 63; 48; 46; 46; 47; 53; 54; 56; 57; 58; 60; 64; 64; 64;
   64; 64; 63; 48; 45; 46; 46; 53; 55; 56; 58; 59; 61; 65; 65; 66; 66; 65; 66; 49; 45; 45; 46; 53; 56; 58;
   61; 62; 64; 67; 68; 70; 67; 68; 66; 50; 46; 46; 46; 54; 56; 59; 63; 65; 66; 70; 71; 70; 71; 68; 70; 51;
   47; 47; 47; 54; 57; 60; 64; 65; 68; 71; 72; 73; 71; 72; 70; 52; 48; 47; 47; 54; 57; 61; 66; 68; 71; 75;
   75; 76; 75; 73; 73; 54; 49; 49; 48; 55; 58; 62; 68; 70; 73; 77; 78; 77; 77; 76; 74; 54; 50; 49; 49; 55;
   59; 62; 68; 70; 74; 78; 79; 81; 79; 77; 78; 57; 52; 51; 50; 56; 60; 64; 70; 73; 76; 82; 82; 83; 82; 81;
   78; 59; 54; 52; 52; 58; 61; 65; 72; 74; 78; 84; 85; 85; 83; 82; 82; 60; 54; 53; 52; 58; 62; 65; 72; 75;
   79; 85; 86; 89; 87; 85; 82; 63; 57; 56; 55; 60; 64; 67; 75; 77; 82; 89; 90; 90; 88; 87; 86; 64; 58; 57;
   55; 61; 64; 68; 75; 78; 82; 89; 90; 93; 91; 89; 87; 64; 59; 57; 56; 61; 65; 68; 75; 78; 83; 90; 91; 94;
   93; 92; 91; 66; 60; 59; 57; 63; 66; 69; 77; 79; 84; 91; 93; 94; 95; 93; 91; 67; 61; 60; 58; 63; 65; 70;
   75; 78; 85; 88; 93; 96; 97; 97; 95; 68; 62; 61; 59; 63; 64; 71; 74; 79; 84; 87; 94; 96; 97; 98; 96; 69;
   63; 62; 60; 63; 65; 71; 72; 80; 82; 88; 93; 96; 99; 100; 101; 70; 64; 63; 60; 63; 66; 70; 73; 80; 81;
   89; 90; 97; 99; 100; 101; 71; 65; 64; 61; 63; 67; 70; 74; 78; 82; 88; 90; 97; 99; 102; 103; 72; 65; 65;
   62; 63; 68; 69; 75; 77; 83; 86; 92; 95; 100; 102; 103; 73; 66; 66; 63; 63; 69; 69; 76; 76; 84; 84; 93;
   93; 101; 101; 105; 32; 31; 31; 30; 33; 35; 37; 42; 44; 49; 48; 48; 49; 50; 51; 52; 54; 54; 57; 59; 60;
   63; 64; 64; 66; 67; 68; 69; 70; 71; 72; 73; 31; 31; 32; 32; 36; 38; 40; 43; 44; 46; 46; 45; 45; 46; 47;
   48; 49; 50; 52; 54; 54; 57; 58; 59; 60; 61; 62; 63; 64; 65; 65; 66; 34; 35; 36; 36; 40; 42; 44; 45; 46;
   47; 46; 46; 45; 46; 47; 47; 49; 49; 51; 52; 53; 56; 57; 57; 59; 60; 61; 62; 63; 64; 65; 66; 37; 38; 39;
   40; 43; 45; 47; 47; 47; 48; 47; 46; 46; 46; 47; 47; 48; 49; 50; 52; 52; 55; 55; 56; 57; 58; 59; 60; 60;
   61; 62; 63; 48; 47; 46; 46; 47; 47; 47; 50; 51; 53; 53; 53; 53; 54; 54; 54; 55; 55; 56; 58; 58; 60; 61;
   61; 63; 63; 63; 63; 63; 63; 63; 63; 48; 47; 46; 45; 46; 46; 46; 50; 51; 53; 54; 55; 56; 56; 57; 57; 58;
   59; 60; 61; 62; 64; 64; 65; 66; 65; 64; 65; 66; 67; 68; 69; 49; 47; 46; 45; 46; 45; 45; 49; 51; 53; 56;
   56; 58; 59; 60; 61; 62; 62; 64; 65; 65; 67; 68; 68; 69; 70; 71; 71; 70; 70; 69; 69; 52; 50; 48; 48; 47;
   47; 47; 50; 52; 54; 57; 58; 61; 63; 64; 66; 68; 68; 70; 72; 72; 75; 75; 75; 77; 75; 74; 72; 73; 74; 75;
   76; 54; 51; 50; 49; 49; 48; 48; 51; 53; 55; 58; 59; 62; 65; 65; 68; 70; 70; 73; 74; 75; 77; 78; 78; 79;
   78; 79; 80; 80; 78; 77; 76; 57; 54; 53; 52; 51; 50; 50; 53; 54; 57; 60; 61; 64; 66; 68; 71; 73; 74; 76;
   78; 79; 82; 82; 83; 84; 85; 84; 82; 81; 82; 83; 84; 63; 60; 58; 57; 56; 55; 54; 57; 59; 60; 64; 65; 67;
   70; 71; 75; 77; 78; 82; 84; 85; 89; 89; 90; 91; 88; 87; 88; 89; 88; 86; 84; 64; 61; 59; 58; 57; 56; 55;
   58; 59; 61; 64; 65; 68; 71; 72; 75; 78; 79; 82; 85; 86; 90; 90; 91; 93; 93; 94; 93; 90; 90; 92; 93; 67;
   63; 62; 60; 59; 58; 57; 59; 60; 63; 64; 66; 70; 70; 73; 76; 77; 81; 83; 85; 89; 90; 93; 94; 94; 96; 96;
   96; 97; 97; 95; 93; 68; 64; 63; 61; 60; 60; 58; 58; 61; 62; 64; 66; 67; 71; 71; 75; 77; 79; 82; 83; 87;
   88; 91; 93; 95; 97; 97; 99; 99; 99; 100; 101; 69; 65; 65; 62; 62; 61; 60; 59; 61; 62; 64; 65; 68; 68;
   72; 73; 76; 77; 81; 82; 85; 87; 89; 92; 93; 97; 98; 100; 100; 102; 102; 101; 69; 66; 66; 63; 63; 61;
   61; 59; 60; 63; 63; 66; 66; 70; 70; 73; 74; 78; 78; 82; 82; 86; 87; 91; 91; 95; 96; 101; 101; 103; 103;
   105; 31; 48; 57; 68; 32; 46; 53; 63; 36; 46; 51; 60; 40; 46; 50; 58; 44; 51; 54; 61; 46; 54; 60; 64;
   45; 56; 64; 67; 47; 57; 68; 71; 49; 58; 73; 77; 52; 60; 76; 82; 54; 62; 79; 87; 58; 64; 82; 91; 60; 66;
   84; 95; 62; 64; 84; 97; 64; 66; 81; 99; 65; 68; 83; 100; 31; 32; 36; 40; 44; 46; 45; 47; 49; 52; 54;
   58; 60; 62; 64; 65; 48; 46; 46; 46; 51; 54; 56; 57; 58; 60; 62; 64; 66; 64; 66; 68; 57; 53; 51; 50; 54;
   60; 64; 68; 73; 76; 79; 82; 84; 84; 81; 83; 68; 63; 60; 58; 61; 64; 67; 71; 77; 82; 87; 91; 95; 97; 99;
   100; 32; 34; 48; 49; 54; 63; 67; 69; 31; 35; 47; 47; 51; 60; 63; 65; 31; 36; 46; 46; 50; 58; 62; 65;
   30; 36; 46; 45; 49; 57; 60; 62; 33; 40; 47; 46; 49; 56; 59; 62; 35; 42; 47; 45; 48; 55; 58; 61; 37; 44;
   47; 45; 48; 54; 57; 60; 42; 45; 50; 49; 51; 57; 59; 59; 44; 46; 51; 51; 53; 59; 60; 61; 49; 47; 53; 53;
   55; 60; 63; 62; 48; 46; 53; 56; 58; 64; 64; 64; 48; 46; 53; 56; 59; 65; 66; 65; 49; 45; 53; 58; 62; 67;
   70; 68; 50; 46; 54; 59; 65; 70; 70; 68; 51; 47; 54; 60; 65; 71; 73; 72; 52; 47; 54; 61; 68; 75; 76; 73;
   54; 49; 55; 62; 70; 77; 77; 76; 54; 49; 55; 62; 70; 78; 81; 77; 57; 51; 56; 64; 73; 82; 83; 81; 59; 52;
   58; 65; 74; 84; 85; 82; 60; 53; 58; 65; 75; 85; 89; 85; 63; 56; 60; 67; 77; 89; 90; 87; 64; 57; 61; 68;
   78; 89; 93; 89; 64; 57; 61; 68; 78; 90; 94; 92; 66; 59; 63; 69; 79; 91; 94; 93; 67; 60; 63; 70; 78; 88;
   96; 97; 68; 61; 63; 71; 79; 87; 96; 98; 69; 62; 63; 71; 80; 88; 96; 100; 70; 63; 63; 70; 80; 89; 97;
   100; 71; 64; 63; 70; 78; 88; 97; 102; 72; 65; 63; 69; 77; 86; 95; 102; 73; 66; 63; 69; 76; 84; 93; 101;
   32; 31; 31; 30; 33; 35; 37; 42; 44; 49; 48; 48; 49; 50; 51; 52; 54; 54; 57; 59; 60; 63; 64; 64; 66; 67;
   68; 69; 70; 71; 72; 73; 34; 35; 36; 36; 40; 42; 44; 45; 46; 47; 46; 46; 45; 46; 47; 47; 49; 49; 51; 52;
   53; 56; 57; 57; 59; 60; 61; 62; 63; 64; 65; 66; 48; 47; 46; 46; 47; 47; 47; 50; 51; 53; 53; 53; 53; 54;
   54; 54; 55; 55; 56; 58; 58; 60; 61; 61; 63; 63; 63; 63; 63; 63; 63; 63; 49; 47; 46; 45; 46; 45; 45; 49;
   51; 53; 56; 56; 58; 59; 60; 61; 62; 62; 64; 65; 65; 67; 68; 68; 69; 70; 71; 71; 70; 70; 69; 69; 54; 51;
   50; 49; 49; 48; 48; 51; 53; 55; 58; 59; 62; 65; 65; 68; 70; 70; 73; 74; 75; 77; 78; 78; 79; 78; 79; 80;
   80; 78; 77; 76; 63; 60; 58; 57; 56; 55; 54; 57; 59; 60; 64; 65; 67; 70; 71; 75; 77; 78; 82; 84; 85; 89;
   89; 90; 91; 88; 87; 88; 89; 88; 86; 84; 67; 63; 62; 60; 59; 58; 57; 59; 60; 63; 64; 66; 70; 70; 73; 76;
   77; 81; 83; 85; 89; 90; 93; 94; 94; 96; 96; 96; 97; 97; 95; 93; 69; 65; 65; 62; 62; 61; 60; 59; 61; 62;
   64; 65; 68; 68; 72; 73; 76; 77; 81; 82; 85; 87; 89; 92; 93; 97; 98; 100; 100; 102; 102; 101]];
 [[32; 37; 58; 81; 37; 54; 72; 91; 58; 72; 102; 121; 81; 91; 121; 156; 32; 32; 35; 42; 53; 68; 78; 90; 32;
   33; 36; 42; 51; 64; 74; 84; 35; 36; 46; 52; 60; 72; 80; 87; 42; 42; 52; 63; 73; 84; 92; 98; 53; 51; 60;
   73; 86; 100; 109; 114; 68; 64; 72; 84; 100; 117; 128; 133; 78; 74; 80; 92; 109; 128; 140; 155; 90; 84;
   87; 98; 114; 133; 155; 168; 32; 31; 31; 32; 34; 36; 41; 47; 54; 59; 65; 74; 82; 87; 92; 97; 31; 32; 32;
   32; 34; 35; 39; 45; 50; 55; 61; 69; 76; 81; 87; 92; 31; 32; 33; 33; 35; 36; 40; 44; 49; 54; 59; 67; 73;
   78; 83; 88; 32; 32; 33; 35; 37; 38; 41; 45; 49; 53; 58; 65; 71; 75; 80; 86; 34; 34; 35; 37; 39; 42; 46;
   50; 54; 58; 63; 70; 76; 80; 84; 85; 36; 35; 36; 38; 42; 48; 52; 56; 60; 64; 68; 75; 80; 85; 90; 91; 41;
   39; 40; 41; 46; 52; 57; 62; 67; 71; 75; 83; 88; 92; 95; 97; 47; 45; 44; 45; 50; 56; 62; 69; 75; 79; 84;
   91; 97; 100; 102; 104; 54; 50; 49; 49; 54; 60; 67; 75; 82; 87; 92; 100; 106; 110; 109; 112; 59; 55; 54;
   53; 58; 64; 71; 79; 87; 92; 98; 106; 112; 117; 117; 121; 65; 61; 59; 58; 63; 68; 75; 84; 92; 98; 105;
   114; 120; 125; 126; 130; 74; 69; 67; 65; 70; 75; 83; 91; 100; 106; 114; 123; 131; 135; 137; 140; 82;
   76; 73; 71; 76; 80; 88; 97; 106; 112; 120; 131; 139; 144; 148; 150; 87; 81; 78; 75; 80; 85; 92; 100;
   110; 117; 125; 135; 144; 150; 155; 162; 92; 87; 83; 80; 84; 90; 95; 102; 109; 117; 126; 137; 148; 155;
   162; 168; 97; 92; 88; 86; 85; 91; 97; 104; 112; 121; 130; 140; 150; 162; 168; 174; 32; 31; 31; 31; 31;
   31; 32; 32; 34; 35; 36; 39; 41; 44; 47; 48; 54; 56; 59; 64; 65; 71; 74; 80; 82; 83; 87; 90; 92; 95; 97;
   100; 31; 32; 32; 32; 32; 32; 32; 33; 34; 35; 35; 38; 40; 42; 45; 46; 51; 53; 56; 61; 62; 68; 71; 76;
   78; 78; 83; 85; 88; 90; 92; 95; 31; 32; 32; 32; 32; 32; 32; 33; 34; 34; 35; 38; 39; 42; 45; 45; 50; 52;
   55; 60; 61; 67; 69; 74; 76; 77; 81; 84; 87; 89; 92; 95; 31; 32; 32; 32; 32; 32; 32; 33; 33; 34; 34; 37;
   38; 41; 44; 44; 49; 51; 54; 58; 59; 65; 68; 72; 74; 75; 79; 81; 84; 86; 88; 90; 31; 32; 32; 32; 33; 33;
   33; 34; 35; 36; 36; 39; 40; 42; 44; 45; 49; 51; 54; 58; 59; 64; 67; 71; 73; 74; 78; 80; 83; 85; 88; 90;
   31; 32; 32; 32; 33; 33; 34; 34; 35; 36; 36; 39; 40; 42; 45; 45; 50; 51; 54; 58; 59; 64; 67; 71; 73; 74;
   78; 80; 82; 84; 86; 89; 32; 32; 32; 32; 33; 34; 35; 36; 37; 38; 38; 40; 41; 42; 45; 46; 49; 51; 53; 57;
   58; 63; 65; 69; 71; 72; 75; 78; 80; 83; 86; 89; 32; 33; 33; 33; 34; 34; 36; 36; 38; 39; 40; 42; 43; 44;
   47; 47; 51; 53; 55; 59; 60; 65; 67; 71; 73; 73; 77; 78; 80; 82; 84; 86; 34; 34; 34; 33; 35; 35; 37; 38;
   39; 42; 42; 45; 46; 47; 50; 51; 54; 56; 58; 62; 63; 68; 70; 74; 76; 76; 80; 82; 84; 85; 85; 86; 35; 35;
   34; 34; 36; 36; 38; 39; 42; 46; 47; 49; 50; 52; 55; 55; 59; 60; 62; 66; 67; 72; 74; 78; 79; 80; 83; 84;
   85; 87; 90; 92; 36; 35; 35; 34; 36; 36; 38; 40; 42; 47; 48; 50; 52; 54; 56; 57; 60; 61; 64; 67; 68; 73;
   75; 79; 80; 81; 85; 87; 90; 91; 91; 92; 39; 38; 38; 37; 39; 39; 40; 42; 45; 49; 50; 54; 55; 58; 60; 61;
   65; 66; 69; 72; 73; 78; 80; 84; 86; 86; 90; 91; 91; 92; 95; 97; 41; 40; 39; 38; 40; 40; 41; 43; 46; 50;
   52; 55; 57; 60; 62; 63; 67; 69; 71; 75; 75; 80; 83; 86; 88; 89; 92; 93; 95; 97; 97; 98; 44; 42; 42; 41;
   42; 42; 42; 44; 47; 52; 54; 58; 60; 63; 66; 67; 71; 73; 75; 79; 79; 84; 86; 90; 92; 92; 96; 98; 98; 98;
   101; 104; 47; 45; 45; 44; 44; 45; 45; 47; 50; 55; 56; 60; 62; 66; 69; 70; 75; 77; 79; 83; 84; 89; 91;
   95; 97; 97; 100; 99; 102; 105; 104; 104; 48; 46; 45; 44; 45; 45; 46; 47; 51; 55; 57; 61; 63; 67; 70;
   71; 76; 78; 80; 84; 85; 90; 93; 96; 98; 99; 102; 106; 106; 105; 108; 111; 54; 51; 50; 49; 49; 50; 49;
   51; 54; 59; 60; 65; 67; 71; 75; 76; 82; 84; 87; 91; 92; 97; 100; 104; 106; 106; 110; 108; 109; 112;
   112; 111; 56; 53; 52; 51; 51; 51; 51; 53; 56; 60; 61; 66; 69; 73; 77; 78; 84; 86; 89; 93; 94; 100; 102;
   106; 108; 109; 112; 113; 115; 114; 116; 119; 59; 56; 55; 54; 54; 54; 53; 55; 58; 62; 64; 69; 71; 75;
   79; 80; 87; 89; 92; 97; 98; 103; 106; 110; 112; 113; 117; 118; 117; 121; 121; 119; 64; 61; 60; 58; 58;
   58; 57; 59; 62; 66; 67; 72; 75; 79; 83; 84; 91; 93; 97; 102; 103; 109; 112; 116; 118; 119; 122; 121;
   125; 123; 125; 128; 65; 62; 61; 59; 59; 59; 58; 60; 63; 67; 68; 73; 75; 79; 84; 85; 92; 94; 98; 103;
   105; 111; 114; 118; 120; 121; 125; 129; 126; 129; 130; 129; 71; 68; 67; 65; 64; 64; 63; 65; 68; 72; 73;
   78; 80; 84; 89; 90; 97; 100; 103; 109; 111; 117; 120; 125; 127; 128; 133; 130; 134; 133; 133; 137; 74;
   71; 69; 68; 67; 67; 65; 67; 70; 74; 75; 80; 83; 86; 91; 93; 100; 102; 106; 112; 114; 120; 123; 128;
   131; 131; 135; 137; 137; 138; 140; 137; 80; 76; 74; 72; 71; 71; 69; 71; 74; 78; 79; 84; 86; 90; 95; 96;
   104; 106; 110; 116; 118; 125; 128; 134; 136; 137; 142; 141; 142; 143; 143; 147; 82; 78; 76; 74; 73; 73;
   71; 73; 76; 79; 80; 86; 88; 92; 97; 98; 106; 108; 112; 118; 120; 127; 131; 136; 139; 139; 144; 147;
   148; 147; 150; 148; 83; 78; 77; 75; 74; 74; 72; 73; 76; 80; 81; 86; 89; 92; 97; 99; 106; 109; 113; 119;
   121; 128; 131; 137; 139; 140; 145; 150; 152; 155; 152; 157; 87; 83; 81; 79; 78; 78; 75; 77; 80; 83; 85;
   90; 92; 96; 100; 102; 110; 112; 117; 122; 125; 133; 135; 142; 144; 145; 150; 151; 155; 158; 162; 158;
   90; 85; 84; 81; 80; 80; 78; 78; 82; 84; 87; 91; 93; 98; 99; 106; 108; 113; 118; 121; 129; 130; 137;
   141; 147; 150; 151; 156; 156; 161; 164; 169; 92; 88; 87; 84; 83; 82; 80; 80; 84; 85; 90; 91; 95; 98;
   102; 106; 109; 115; 117; 125; 126; 134; 137; 142; 148; 152; 155; 156; 162; 162; 168; 170; 95; 90; 89;
   86; 85; 84; 83; 82; 85; 87; 91; 92; 97; 98; 105; 105; 112; 114; 121; 123; 129; 133; 138; 143; 147; 155;
   158; 161; 162; 168; 168; 174; 97; 92; 92; 88; 88; 86; 86; 84; 85; 90; 91; 95; 97; 101; 104; 108; 112;
   116; 121; 125; 130; 133; 140; 143; 150; 152; 162; 164; 168; 168; 174; 175; 100; 95; 95; 90; 90; 89; 89;
   86; 86; 92; 92; 97; 98; 104; 104; 111; 111; 119; 119; 128; 129; 137; 137; 147; 148; 157; 158; 169; 170;
   174; 175; 181; 32; 35; 59; 83; 32; 36; 57; 78; 34; 47; 65; 82; 41; 53; 78; 97; 51; 61; 92; 111; 65; 73;
   108; 129; 75; 81; 117; 148; 86; 92; 119; 154; 32; 32; 34; 41; 51; 65; 75; 86; 35; 36; 47; 53; 61; 73;
   81; 92; 59; 57; 65; 78; 92; 108; 117; 119; 83; 78; 82; 97; 111; 129; 148; 154; 32; 31; 35; 44; 53; 65;
   82; 90; 31; 32; 34; 41; 50; 61; 76; 85; 31; 33; 35; 42; 49; 59; 73; 81; 32; 34; 37; 42; 49; 58; 71; 79;
   34; 35; 41; 48; 54; 63; 76; 81; 36; 36; 46; 54; 60; 68; 80; 87; 41; 40; 49; 60; 67; 76; 88; 93; 47; 44;
   53; 66; 75; 84; 97; 101; 53; 50; 57; 71; 82; 92; 106; 108; 58; 54; 61; 75; 87; 98; 112; 116; 65; 59;
   66; 79; 92; 105; 120; 124; 74; 67; 73; 86; 100; 113; 131; 134; 82; 73; 79; 92; 105; 120; 139; 142; 87;
   78; 83; 96; 110; 125; 144; 153; 92; 83; 84; 97; 114; 132; 150; 157; 97; 88; 86; 97; 111; 128; 147; 163;
   32; 31; 31; 32; 34; 36; 41; 47; 53; 58; 65; 74; 82; 87; 92; 97; 31; 32; 33; 34; 35; 36; 40; 44; 50; 54;
   59; 67; 73; 78; 83; 88; 35; 34; 35; 37; 41; 46; 49; 53; 57; 61; 66; 73; 79; 83; 84; 86; 44; 41; 42; 42;
   48; 54; 60; 66; 71; 75; 79; 86; 92; 96; 97; 97; 53; 50; 49; 49; 54; 60; 67; 75; 82; 87; 92; 100; 105;
   110; 114; 111; 65; 61; 59; 58; 63; 68; 76; 84; 92; 98; 105; 113; 120; 125; 132; 128; 82; 76; 73; 71;
   76; 80; 88; 97; 106; 112; 120; 131; 139; 144; 150; 147; 90; 85; 81; 79; 81; 87; 93; 101; 108; 116; 124;
   134; 142; 153; 157; 163; 32; 31; 31; 32; 35; 36; 44; 47; 53; 62; 65; 79; 82; 88; 90; 93; 31; 32; 32;
   32; 35; 35; 42; 45; 51; 59; 62; 75; 78; 83; 86; 88; 31; 32; 32; 32; 34; 35; 41; 45; 50; 58; 61; 74; 76;
   82; 85; 88; 31; 32; 32; 33; 34; 34; 41; 44; 49; 57; 59; 72; 74; 79; 82; 84; 31; 32; 33; 34; 35; 36; 42;
   44; 49; 57; 59; 71; 73; 79; 81; 84; 32; 32; 33; 34; 36; 36; 42; 45; 50; 57; 59; 71; 73; 78; 80; 82; 32;
   33; 34; 35; 37; 38; 42; 45; 49; 56; 58; 69; 71; 76; 79; 83; 32; 33; 34; 36; 39; 40; 44; 47; 51; 58; 60;
   71; 73; 76; 78; 80; 34; 34; 35; 37; 41; 42; 48; 50; 54; 61; 63; 73; 76; 81; 81; 80; 35; 34; 36; 38; 45;
   47; 52; 55; 59; 65; 67; 77; 79; 82; 83; 86; 36; 34; 36; 38; 46; 48; 54; 56; 60; 66; 68; 78; 80; 85; 87;
   86; 39; 37; 39; 40; 48; 50; 58; 60; 65; 71; 73; 84; 86; 89; 88; 91; 41; 39; 40; 41; 49; 51; 60; 62; 67;
   74; 76; 86; 88; 91; 93; 91; 44; 41; 42; 43; 51; 53; 63; 66; 71; 78; 79; 90; 92; 97; 94; 97; 47; 44; 44;
   45; 53; 56; 66; 69; 75; 82; 84; 95; 97; 98; 101; 98; 48; 45; 45; 46; 54; 56; 67; 70; 76; 83; 85; 96;
   98; 104; 101; 105; 53; 49; 50; 50; 57; 60; 71; 75; 82; 90; 92; 103; 106; 107; 108; 105; 55; 51; 51; 51;
   59; 61; 72; 77; 84; 92; 94; 106; 108; 111; 110; 112; 58; 54; 54; 54; 61; 63; 75; 79; 87; 95; 98; 110;
   112; 117; 116; 113; 63; 58; 58; 57; 65; 67; 78; 83; 91; 100; 103; 116; 118; 119; 119; 121; 65; 60; 59;
   58; 66; 68; 79; 84; 92; 102; 105; 118; 120; 127; 124; 122; 71; 65; 64; 63; 71; 73; 84; 89; 97; 108;
   111; 125; 127; 129; 129; 130; 74; 68; 67; 66; 73; 75; 86; 91; 100; 110; 113; 128; 131; 135; 134; 130;
   79; 72; 71; 70; 77; 79; 90; 95; 104; 115; 118; 133; 136; 140; 139; 140; 82; 75; 73; 72; 79; 81; 92; 97;
   105; 117; 120; 136; 139; 145; 142; 140; 82; 75; 74; 72; 79; 81; 92; 97; 106; 117; 121; 136; 139; 148;
   150; 149; 87; 79; 78; 76; 83; 85; 96; 100; 110; 120; 125; 141; 144; 148; 153; 150; 89; 82; 81; 78; 83;
   87; 97; 99; 113; 118; 128; 139; 145; 153; 157; 161; 92; 84; 83; 80; 84; 89; 97; 101; 114; 116; 132;
   135; 150; 153; 157; 162; 94; 86; 85; 82; 85; 92; 97; 104; 112; 119; 130; 136; 151; 154; 163; 166; 97;
   88; 88; 85; 86; 94; 97; 107; 111; 123; 128; 140; 147; 159; 163; 167; 99; 91; 91; 87; 87; 97; 97; 110;
   110; 126; 126; 144; 144; 163; 163; 173; 32; 31; 31; 31; 31; 32; 32; 32; 34; 35; 36; 39; 41; 44; 47; 48;
   53; 55; 58; 63; 65; 71; 74; 79; 82; 82; 87; 89; 92; 94; 97; 99; 31; 32; 32; 32; 32; 32; 33; 33; 34; 34;
   34; 37; 39; 41; 44; 45; 49; 51; 54; 58; 60; 65; 68; 72; 75; 75; 79; 82; 84; 86; 88; 91; 31; 32; 32; 32;
   33; 33; 34; 34; 35; 36; 36; 39; 40; 42; 44; 45; 50; 51; 54; 58; 59; 64; 67; 71; 73; 74; 78; 81; 83; 85;
   88; 91; 32; 32; 32; 33; 34; 34; 35; 36; 37; 38; 38; 40; 41; 43; 45; 46; 50; 51; 54; 57; 58; 63; 66; 70;
   72; 72; 76; 78; 80; 82; 85; 87; 35; 35; 34; 34; 35; 36; 37; 39; 41; 45; 46; 48; 49; 51; 53; 54; 57; 59;
   61; 65; 66; 71; 73; 77; 79; 79; 83; 83; 84; 85; 86; 87; 36; 35; 35; 34; 36; 36; 38; 40; 42; 47; 48; 50;
   51; 53; 56; 56; 60; 61; 63; 67; 68; 73; 75; 79; 81; 81; 85; 87; 89; 92; 94; 97; 44; 42; 41; 41; 42; 42;
   42; 44; 48; 52; 54; 58; 60; 63; 66; 67; 71; 72; 75; 78; 79; 84; 86; 90; 92; 92; 96; 97; 97; 97; 97; 97;
   47; 45; 45; 44; 44; 45; 45; 47; 50; 55; 56; 60; 62; 66; 69; 70; 75; 77; 79; 83; 84; 89; 91; 95; 97; 97;
   100; 99; 101; 104; 107; 110; 53; 51; 50; 49; 49; 50; 49; 51; 54; 59; 60; 65; 67; 71; 75; 76; 82; 84;
   87; 91; 92; 97; 100; 104; 105; 106; 110; 113; 114; 112; 111; 110; 62; 59; 58; 57; 57; 57; 56; 58; 61;
   65; 66; 71; 74; 78; 82; 83; 90; 92; 95; 100; 102; 108; 110; 115; 117; 117; 120; 118; 116; 119; 123;
   126; 65; 62; 61; 59; 59; 59; 58; 60; 63; 67; 68; 73; 76; 79; 84; 85; 92; 94; 98; 103; 105; 111; 113;
   118; 120; 121; 125; 128; 132; 130; 128; 126; 79; 75; 74; 72; 71; 71; 69; 71; 73; 77; 78; 84; 86; 90;
   95; 96; 103; 106; 110; 116; 118; 125; 128; 133; 136; 136; 141; 139; 135; 136; 140; 144; 82; 78; 76; 74;
   73; 73; 71; 73; 76; 79; 80; 86; 88; 92; 97; 98; 106; 108; 112; 118; 120; 127; 131; 136; 139; 139; 144;
   145; 150; 151; 147; 144; 88; 83; 82; 79; 79; 78; 76; 76; 81; 82; 85; 89; 91; 97; 98; 104; 107; 111;
   117; 119; 127; 129; 135; 140; 145; 148; 148; 153; 153; 154; 159; 163; 90; 86; 85; 82; 81; 80; 79; 78;
   81; 83; 87; 88; 93; 94; 101; 101; 108; 110; 116; 119; 124; 129; 134; 139; 142; 150; 153; 157; 157; 163;
   163; 163; 93; 88; 88; 84; 84; 82; 83; 80; 80; 86; 86; 91; 91; 97; 98; 105; 105; 112; 113; 121; 122;
   130; 130; 140; 140; 149; 150; 161; 162; 166; 167; 173; 31; 36; 62; 88; 32; 35; 58; 82; 32; 36; 57; 79;
   33; 38; 56; 76; 34; 42; 61; 81; 34; 48; 66; 85; 39; 51; 74; 91; 44; 56; 82; 98; 49; 60; 90; 107; 54;
   63; 95; 117; 60; 68; 102; 127; 68; 75; 110; 135; 75; 81; 117; 145; 79; 85; 120; 148; 84; 89; 116; 153;
   88; 94; 123; 159; 31; 32; 32; 33; 34; 34; 39; 44; 49; 54; 60; 68; 75; 79; 84; 88; 36; 35; 36; 38; 42;
   48; 51; 56; 60; 63; 68; 75; 81; 85; 89; 94; 62; 58; 57; 56; 61; 66; 74; 82; 90; 95; 102; 110; 117; 120;
   116; 123; 88; 82; 79; 76; 81; 85; 91; 98; 107; 117; 127; 135; 145; 148; 153; 159; 32; 31; 35; 44; 53;
   65; 82; 90; 31; 32; 35; 42; 51; 62; 78; 86; 31; 32; 34; 41; 50; 61; 76; 85; 31; 32; 34; 41; 49; 59; 74;
   82; 31; 33; 35; 42; 49; 59; 73; 81; 32; 33; 36; 42; 50; 59; 73; 80; 32; 34; 37; 42; 49; 58; 71; 79; 32;
   34; 39; 44; 51; 60; 73; 78; 34; 35; 41; 48; 54; 63; 76; 81; 35; 36; 45; 52; 59; 67; 79; 83; 36; 36; 46;
   54; 60; 68; 80; 87; 39; 39; 48; 58; 65; 73; 86; 88; 41; 40; 49; 60; 67; 76; 88; 93; 44; 42; 51; 63; 71;
   79; 92; 94; 47; 44; 53; 66; 75; 84; 97; 101; 48; 45; 54; 67; 76; 85; 98; 101; 53; 50; 57; 71; 82; 92;
   106; 108; 55; 51; 59; 72; 84; 94; 108; 110; 58; 54; 61; 75; 87; 98; 112; 116; 63; 58; 65; 78; 91; 103;
   118; 119; 65; 59; 66; 79; 92; 105; 120; 124; 71; 64; 71; 84; 97; 111; 127; 129; 74; 67; 73; 86; 100;
   113; 131; 134; 79; 71; 77; 90; 104; 118; 136; 139; 82; 73; 79; 92; 105; 120; 139; 142; 82; 74; 79; 92;
   106; 121; 139; 150; 87; 78; 83; 96; 110; 125; 144; 153; 89; 81; 83; 97; 113; 128; 145; 157; 92; 83; 84;
   97; 114; 132; 150; 157; 94; 85; 85; 97; 112; 130; 151; 163; 97; 88; 86; 97; 111; 128; 147; 163; 99; 91;
   87; 97; 110; 126; 144; 163; 32; 31; 31; 31; 31; 32; 32; 32; 34; 35; 36; 39; 41; 44; 47; 48; 53; 55; 58;
   63; 65; 71; 74; 79; 82; 82; 87; 89; 92; 94; 97; 99; 31; 32; 32; 32; 33; 33; 34; 34; 35; 36; 36; 39; 40;
   42; 44; 45; 50; 51; 54; 58; 59; 64; 67; 71; 73; 74; 78; 81; 83; 85; 88; 91; 35; 35; 34; 34; 35; 36; 37;
   39; 41; 45; 46; 48; 49; 51; 53; 54; 57; 59; 61; 65; 66; 71; 73; 77; 79; 79; 83; 83; 84; 85; 86; 87; 44;
   42; 41; 41; 42; 42; 42; 44; 48; 52; 54; 58; 60; 63; 66; 67; 71; 72; 75; 78; 79; 84; 86; 90; 92; 92; 96;
   97; 97; 97; 97; 97; 53; 51; 50; 49; 49; 50; 49; 51; 54; 59; 60; 65; 67; 71; 75; 76; 82; 84; 87; 91; 92;
   97; 100; 104; 105; 106; 110; 113; 114; 112; 111; 110; 65; 62; 61; 59; 59; 59; 58; 60; 63; 67; 68; 73;
   76; 79; 84; 85; 92; 94; 98; 103; 105; 111; 113; 118; 120; 121; 125; 128; 132; 130; 128; 126; 82; 78;
   76; 74; 73; 73; 71; 73; 76; 79; 80; 86; 88; 92; 97; 98; 106; 108; 112; 118; 120; 127; 131; 136; 139;
   139; 144; 145; 150; 151; 147; 144; 90; 86; 85; 82; 81; 80; 79; 78; 81; 83; 87; 88; 93; 94; 101; 101;
   108; 110; 116; 119; 124; 129; 134; 139; 142; 150; 153; 157; 157; 163; 163; 163];
 [32; 45; 51; 61; 45; 54; 59; 65; 51; 59; 75; 81; 61; 65; 81; 97; 31; 34; 46; 47; 50; 57; 61; 65; 34; 39;
   47; 45; 48; 53; 57; 61; 46; 47; 52; 52; 54; 58; 61; 62; 47; 45; 52; 58; 62; 65; 68; 68; 50; 48; 54; 62;
   68; 73; 77; 76; 57; 53; 58; 65; 73; 82; 86; 86; 61; 57; 61; 68; 77; 86; 91; 95; 65; 61; 62; 68; 76; 86;
   95; 100; 32; 31; 33; 36; 41; 49; 49; 50; 52; 54; 57; 61; 64; 67; 68; 70; 31; 31; 34; 39; 42; 47; 46;
   47; 49; 51; 53; 57; 60; 62; 64; 66; 33; 34; 37; 42; 44; 47; 46; 46; 47; 49; 51; 55; 57; 59; 61; 63; 36;
   39; 42; 47; 47; 48; 46; 46; 47; 48; 50; 53; 55; 57; 59; 61; 41; 42; 44; 47; 48; 50; 49; 50; 50; 52; 53;
   56; 58; 60; 61; 60; 49; 47; 47; 48; 50; 53; 53; 54; 54; 55; 56; 59; 61; 63; 64; 64; 49; 46; 46; 46; 49;
   53; 55; 57; 59; 60; 61; 64; 66; 67; 67; 67; 50; 47; 46; 46; 50; 54; 57; 61; 63; 64; 66; 69; 70; 72; 71;
   71; 52; 49; 47; 47; 50; 54; 59; 63; 66; 68; 70; 73; 75; 77; 75; 75; 54; 51; 49; 48; 52; 55; 60; 64; 68;
   71; 73; 76; 79; 80; 79; 79; 57; 53; 51; 50; 53; 56; 61; 66; 70; 73; 76; 80; 82; 84; 83; 84; 61; 57; 55;
   53; 56; 59; 64; 69; 73; 76; 80; 84; 87; 89; 88; 88; 64; 60; 57; 55; 58; 61; 66; 70; 75; 79; 82; 87; 91;
   93; 93; 93; 67; 62; 59; 57; 60; 63; 67; 72; 77; 80; 84; 89; 93; 95; 96; 97; 68; 64; 61; 59; 61; 64; 67;
   71; 75; 79; 83; 88; 93; 96; 99; 100; 70; 66; 63; 61; 60; 64; 67; 71; 75; 79; 84; 88; 93; 97; 100; 102;
   32; 31; 31; 30; 33; 33; 36; 38; 41; 47; 49; 48; 49; 49; 50; 50; 52; 53; 54; 56; 57; 60; 61; 63; 64; 65;
   67; 67; 68; 69; 70; 71; 31; 31; 31; 31; 34; 34; 38; 40; 42; 46; 47; 47; 47; 47; 48; 48; 50; 50; 52; 54;
   54; 57; 58; 60; 61; 61; 63; 64; 65; 65; 66; 67; 31; 31; 31; 31; 34; 35; 39; 40; 42; 46; 47; 46; 46; 46;
   47; 47; 49; 50; 51; 53; 53; 56; 57; 59; 60; 60; 62; 63; 64; 65; 66; 67; 30; 31; 31; 32; 34; 35; 40; 41;
   42; 45; 46; 45; 45; 45; 46; 46; 47; 48; 49; 51; 52; 54; 55; 57; 58; 58; 60; 61; 62; 62; 63; 64; 33; 34;
   34; 34; 37; 38; 42; 43; 44; 46; 47; 46; 46; 45; 46; 46; 47; 48; 49; 51; 51; 53; 55; 56; 57; 57; 59; 60;
   61; 62; 63; 64; 33; 34; 35; 35; 38; 39; 43; 44; 45; 47; 47; 46; 46; 45; 46; 46; 47; 48; 49; 51; 51; 53;
   54; 56; 57; 57; 59; 60; 60; 61; 62; 62; 36; 38; 39; 40; 42; 43; 47; 47; 47; 47; 48; 46; 46; 45; 46; 46;
   47; 47; 48; 49; 50; 52; 53; 54; 55; 55; 57; 58; 59; 60; 61; 62; 38; 40; 40; 41; 43; 44; 47; 47; 48; 48;
   49; 48; 47; 47; 47; 47; 48; 49; 49; 51; 51; 53; 54; 55; 56; 56; 58; 58; 58; 59; 60; 60; 41; 42; 42; 42;
   44; 45; 47; 48; 48; 50; 50; 49; 49; 49; 50; 50; 50; 51; 52; 53; 53; 55; 56; 57; 58; 58; 60; 61; 61; 61;
   60; 60; 47; 46; 46; 45; 46; 47; 47; 48; 50; 52; 52; 52; 52; 52; 53; 53; 53; 54; 55; 55; 56; 58; 58; 60;
   60; 61; 62; 61; 61; 62; 63; 64; 49; 47; 47; 46; 47; 47; 48; 49; 50; 52; 53; 53; 53; 53; 54; 54; 54; 55;
   55; 56; 56; 58; 59; 60; 61; 61; 63; 63; 64; 64; 64; 64; 48; 47; 46; 45; 46; 46; 46; 48; 49; 52; 53; 54;
   55; 55; 56; 56; 57; 58; 58; 59; 60; 61; 62; 63; 64; 64; 66; 65; 65; 65; 66; 67; 49; 47; 46; 45; 46; 46;
   46; 47; 49; 52; 53; 55; 55; 57; 57; 58; 59; 59; 60; 61; 61; 63; 64; 65; 66; 66; 67; 67; 67; 68; 67; 67;
   49; 47; 46; 45; 45; 45; 45; 47; 49; 52; 53; 55; 57; 58; 59; 60; 61; 62; 62; 63; 63; 65; 66; 67; 68; 68;
   69; 70; 69; 68; 69; 70; 50; 48; 47; 46; 46; 46; 46; 47; 50; 53; 54; 56; 57; 59; 61; 61; 63; 64; 64; 66;
   66; 68; 69; 70; 70; 71; 72; 70; 71; 72; 71; 70; 50; 48; 47; 46; 46; 46; 46; 47; 50; 53; 54; 56; 58; 60;
   61; 61; 63; 64; 65; 66; 67; 68; 69; 71; 71; 71; 73; 74; 73; 72; 73; 74; 52; 50; 49; 47; 47; 47; 47; 48;
   50; 53; 54; 57; 59; 61; 63; 63; 66; 67; 68; 70; 70; 72; 73; 75; 75; 75; 77; 75; 75; 76; 75; 74; 53; 50;
   50; 48; 48; 48; 47; 49; 51; 54; 55; 58; 59; 62; 64; 64; 67; 68; 69; 71; 71; 73; 74; 76; 77; 77; 78; 78;
   78; 76; 77; 78; 54; 52; 51; 49; 49; 49; 48; 49; 52; 55; 55; 58; 60; 62; 64; 65; 68; 69; 71; 73; 73; 75;
   76; 78; 79; 79; 80; 80; 79; 80; 79; 78; 56; 54; 53; 51; 51; 51; 49; 51; 53; 55; 56; 59; 61; 63; 66; 66;
   70; 71; 73; 75; 76; 78; 79; 81; 82; 82; 83; 81; 83; 81; 81; 82; 57; 54; 53; 52; 51; 51; 50; 51; 53; 56;
   56; 60; 61; 63; 66; 67; 70; 71; 73; 76; 76; 79; 80; 82; 82; 83; 84; 85; 83; 84; 84; 82; 60; 57; 56; 54;
   53; 53; 52; 53; 55; 58; 58; 61; 63; 65; 68; 68; 72; 73; 75; 78; 79; 82; 83; 85; 86; 86; 88; 86; 87; 86;
   85; 86; 61; 58; 57; 55; 55; 54; 53; 54; 56; 58; 59; 62; 64; 66; 69; 69; 73; 74; 76; 79; 80; 83; 84; 86;
   87; 88; 89; 89; 88; 88; 88; 86; 63; 60; 59; 57; 56; 56; 54; 55; 57; 60; 60; 63; 65; 67; 70; 71; 75; 76;
   78; 81; 82; 85; 86; 89; 90; 90; 92; 91; 91; 90; 89; 91; 64; 61; 60; 58; 57; 57; 55; 56; 58; 60; 61; 64;
   66; 68; 70; 71; 75; 77; 79; 82; 82; 86; 87; 90; 91; 91; 93; 93; 93; 92; 93; 91; 65; 61; 60; 58; 57; 57;
   55; 56; 58; 61; 61; 64; 66; 68; 71; 71; 75; 77; 79; 82; 83; 86; 88; 90; 91; 91; 93; 94; 95; 95; 93; 95;
   67; 63; 62; 60; 59; 59; 57; 58; 60; 62; 63; 66; 67; 69; 72; 73; 77; 78; 80; 83; 84; 88; 89; 92; 93; 93;
   95; 95; 96; 96; 97; 95; 67; 64; 63; 61; 60; 60; 58; 58; 61; 61; 63; 65; 67; 70; 70; 74; 75; 78; 80; 81;
   85; 86; 89; 91; 93; 94; 95; 97; 97; 98; 98; 100; 68; 65; 64; 62; 61; 60; 59; 58; 61; 61; 64; 65; 67;
   69; 71; 73; 75; 78; 79; 83; 83; 87; 88; 91; 93; 95; 96; 97; 99; 98; 100; 100; 69; 65; 65; 62; 62; 61;
   60; 59; 61; 62; 64; 65; 68; 68; 72; 72; 76; 76; 80; 81; 84; 86; 88; 90; 92; 95; 96; 98; 98; 100; 100;
   101; 70; 66; 66; 63; 63; 62; 61; 60; 60; 63; 64; 66; 67; 69; 71; 73; 75; 77; 79; 81; 84; 85; 88; 89;
   93; 93; 97; 98; 100; 100; 102; 101; 71; 67; 67; 64; 64; 62; 62; 60; 60; 64; 64; 67; 67; 70; 70; 74; 74;
   78; 78; 82; 82; 86; 86; 91; 91; 95; 95; 100; 100; 101; 101; 104; 31; 47; 53; 63; 36; 47; 50; 59; 46;
   52; 55; 61; 45; 53; 63; 70; 49; 55; 71; 77; 54; 58; 77; 86; 59; 61; 81; 94; 63; 65; 80; 95; 31; 36; 46;
   45; 49; 54; 59; 63; 47; 47; 52; 53; 55; 58; 61; 65; 53; 50; 55; 63; 71; 77; 81; 80; 63; 59; 61; 70; 77;
   86; 94; 95; 32; 33; 45; 49; 52; 57; 64; 68; 31; 34; 45; 46; 49; 53; 60; 64; 33; 37; 46; 45; 47; 51; 57;
   61; 37; 43; 47; 45; 47; 50; 55; 59; 42; 44; 49; 49; 50; 53; 58; 60; 49; 47; 52; 53; 54; 57; 61; 63; 48;
   46; 51; 57; 59; 61; 66; 67; 50; 46; 52; 59; 63; 66; 71; 71; 52; 47; 53; 61; 66; 71; 75; 74; 54; 49; 54;
   62; 68; 73; 79; 79; 57; 51; 55; 64; 70; 76; 83; 83; 61; 55; 58; 66; 73; 80; 87; 87; 64; 57; 60; 68; 75;
   83; 91; 91; 66; 59; 61; 69; 77; 84; 93; 95; 68; 61; 61; 68; 77; 86; 94; 97; 70; 63; 61; 67; 75; 83; 92;
   98; 32; 31; 33; 37; 42; 49; 48; 50; 52; 54; 57; 61; 64; 66; 68; 70; 33; 34; 37; 43; 44; 47; 46; 46; 47;
   49; 51; 55; 57; 59; 61; 63; 45; 45; 46; 47; 49; 52; 51; 52; 53; 54; 55; 58; 60; 61; 61; 61; 49; 46; 45;
   45; 49; 53; 57; 59; 61; 62; 64; 66; 68; 69; 68; 67; 52; 49; 47; 47; 50; 54; 59; 63; 66; 68; 70; 73; 75;
   77; 77; 75; 57; 53; 51; 50; 53; 57; 61; 66; 71; 73; 76; 80; 83; 84; 86; 83; 64; 60; 57; 55; 58; 61; 66;
   71; 75; 79; 83; 87; 91; 93; 94; 92; 68; 64; 61; 59; 60; 63; 67; 71; 74; 79; 83; 87; 91; 95; 97; 98; 32;
   31; 33; 37; 45; 48; 49; 50; 52; 56; 57; 63; 64; 67; 68; 68; 31; 31; 34; 38; 45; 47; 47; 48; 50; 53; 54;
   60; 61; 63; 64; 65; 31; 32; 34; 39; 45; 46; 46; 47; 49; 52; 53; 59; 60; 62; 64; 65; 30; 32; 35; 40; 44;
   46; 45; 46; 48; 51; 52; 57; 58; 60; 61; 62; 33; 35; 37; 42; 46; 47; 45; 46; 47; 50; 51; 56; 57; 60; 61;
   62; 33; 36; 38; 43; 46; 47; 46; 46; 47; 50; 51; 56; 57; 59; 60; 60; 37; 40; 43; 47; 47; 47; 45; 46; 47;
   49; 50; 54; 55; 57; 59; 61; 39; 41; 43; 47; 48; 48; 47; 47; 48; 50; 51; 55; 56; 57; 58; 59; 42; 43; 44;
   47; 49; 50; 49; 50; 50; 53; 53; 57; 58; 60; 60; 59; 47; 46; 46; 48; 51; 52; 53; 53; 53; 55; 56; 60; 61;
   61; 61; 62; 49; 46; 47; 48; 52; 53; 53; 54; 54; 56; 57; 60; 61; 63; 63; 62; 48; 46; 46; 47; 51; 53; 56;
   56; 57; 59; 60; 64; 64; 65; 64; 65; 48; 45; 46; 46; 51; 53; 57; 57; 59; 61; 61; 65; 66; 66; 67; 65; 49;
   45; 45; 46; 51; 53; 58; 59; 61; 63; 64; 67; 68; 70; 67; 68; 50; 46; 46; 46; 52; 54; 59; 61; 63; 65; 66;
   70; 71; 70; 71; 68; 50; 46; 46; 46; 52; 54; 59; 61; 64; 66; 67; 71; 71; 73; 71; 72; 52; 48; 47; 47; 53;
   54; 61; 63; 66; 70; 71; 75; 75; 75; 74; 72; 53; 49; 48; 48; 53; 55; 61; 64; 67; 71; 72; 76; 77; 77; 75;
   76; 54; 50; 49; 49; 54; 55; 62; 65; 68; 72; 73; 78; 79; 80; 79; 76; 56; 51; 51; 50; 55; 56; 63; 66; 70;
   74; 76; 81; 82; 81; 80; 80; 57; 52; 51; 50; 55; 56; 64; 66; 70; 75; 76; 82; 83; 85; 83; 80; 60; 54; 54;
   52; 57; 58; 65; 68; 72; 77; 79; 85; 86; 86; 85; 84; 61; 56; 55; 53; 58; 59; 66; 69; 73; 79; 80; 86; 87;
   89; 87; 84; 63; 57; 56; 55; 59; 60; 67; 70; 75; 80; 82; 89; 90; 91; 89; 89; 64; 58; 57; 56; 60; 61; 68;
   71; 75; 81; 83; 90; 91; 93; 91; 89; 64; 59; 58; 56; 60; 61; 68; 71; 75; 81; 83; 90; 91; 94; 94; 93; 66;
   60; 59; 57; 61; 63; 69; 72; 77; 82; 84; 92; 93; 94; 95; 93; 67; 61; 60; 58; 61; 63; 69; 70; 78; 80; 85;
   90; 93; 96; 97; 97; 68; 62; 61; 59; 61; 64; 68; 71; 77; 79; 86; 88; 94; 96; 97; 98; 69; 63; 62; 59; 61;
   65; 68; 72; 76; 80; 85; 88; 94; 95; 99; 99; 70; 63; 63; 60; 61; 66; 67; 73; 75; 81; 83; 89; 92; 97; 98;
   99; 70; 64; 64; 61; 61; 67; 67; 74; 74; 82; 82; 90; 90; 98; 98; 102; 32; 31; 31; 30; 33; 33; 37; 39;
   42; 47; 49; 48; 48; 49; 50; 50; 52; 53; 54; 56; 57; 60; 61; 63; 64; 64; 66; 67; 68; 69; 70; 70; 31; 31;
   32; 32; 35; 36; 40; 41; 43; 46; 46; 46; 45; 45; 46; 46; 48; 49; 50; 51; 52; 54; 56; 57; 58; 59; 60; 61;
   62; 63; 63; 64; 33; 34; 34; 35; 37; 38; 43; 43; 44; 46; 47; 46; 46; 45; 46; 46; 47; 48; 49; 51; 51; 54;
   55; 56; 57; 58; 59; 60; 61; 62; 63; 64; 37; 38; 39; 40; 42; 43; 47; 47; 47; 48; 48; 47; 46; 46; 46; 46;
   47; 48; 49; 50; 50; 52; 53; 55; 56; 56; 57; 58; 59; 59; 60; 61; 45; 45; 45; 44; 46; 46; 47; 48; 49; 51;
   52; 51; 51; 51; 52; 52; 53; 53; 54; 55; 55; 57; 58; 59; 60; 60; 61; 61; 61; 61; 61; 61; 48; 47; 46; 46;
   47; 47; 47; 48; 50; 52; 53; 53; 53; 53; 54; 54; 54; 55; 55; 56; 56; 58; 59; 60; 61; 61; 63; 63; 64; 65;
   66; 67; 49; 47; 46; 45; 45; 46; 45; 47; 49; 53; 53; 56; 57; 58; 59; 59; 61; 61; 62; 63; 64; 65; 66; 67;
   68; 68; 69; 69; 68; 68; 67; 67; 50; 48; 47; 46; 46; 46; 46; 47; 50; 53; 54; 56; 57; 59; 61; 61; 63; 64;
   65; 66; 66; 68; 69; 70; 71; 71; 72; 70; 71; 72; 73; 74; 52; 50; 49; 48; 47; 47; 47; 48; 50; 53; 54; 57;
   59; 61; 63; 64; 66; 67; 68; 70; 70; 72; 73; 75; 75; 75; 77; 78; 77; 76; 75; 74; 56; 53; 52; 51; 50; 50;
   49; 50; 53; 55; 56; 59; 61; 63; 65; 66; 70; 71; 72; 74; 75; 77; 79; 80; 81; 81; 82; 80; 79; 80; 81; 82;
   57; 54; 53; 52; 51; 51; 50; 51; 53; 56; 57; 60; 61; 64; 66; 67; 71; 72; 73; 76; 76; 79; 80; 82; 83; 83;
   84; 85; 86; 85; 83; 82; 63; 60; 59; 57; 56; 56; 54; 55; 57; 60; 60; 64; 65; 67; 70; 71; 75; 76; 78; 81;
   82; 85; 86; 89; 90; 90; 92; 90; 88; 88; 89; 90; 64; 61; 60; 58; 57; 57; 55; 56; 58; 61; 61; 64; 66; 68;
   71; 71; 75; 77; 79; 82; 83; 86; 87; 90; 91; 91; 93; 93; 94; 94; 92; 90; 67; 63; 62; 60; 60; 59; 57; 57;
   60; 61; 63; 65; 66; 70; 70; 73; 75; 77; 80; 81; 85; 86; 89; 91; 93; 94; 94; 96; 96; 95; 97; 98; 68; 64;
   64; 61; 61; 60; 59; 58; 60; 61; 63; 64; 67; 67; 71; 71; 74; 75; 79; 80; 83; 85; 87; 89; 91; 94; 95; 97;
   97; 99; 98; 98; 68; 65; 65; 62; 62; 60; 61; 59; 59; 62; 62; 65; 65; 68; 68; 72; 72; 76; 76; 80; 80; 84;
   84; 89; 89; 93; 93; 97; 98; 99; 99; 102; 31; 48; 56; 67; 32; 46; 52; 62; 35; 47; 50; 60; 40; 47; 49;
   57; 43; 50; 53; 60; 46; 53; 56; 63; 45; 53; 61; 66; 46; 54; 65; 70; 48; 54; 70; 75; 50; 55; 72; 80; 52;
   56; 75; 85; 56; 59; 79; 89; 58; 61; 81; 93; 60; 63; 82; 94; 62; 64; 79; 96; 63; 66; 81; 97; 31; 32; 35;
   40; 43; 46; 45; 46; 48; 50; 52; 56; 58; 60; 62; 63; 48; 46; 47; 47; 50; 53; 53; 54; 54; 55; 56; 59; 61;
   63; 64; 66; 56; 52; 50; 49; 53; 56; 61; 65; 70; 72; 75; 79; 81; 82; 79; 81; 67; 62; 60; 57; 60; 63; 66;
   70; 75; 80; 85; 89; 93; 94; 96; 97; 32; 33; 45; 49; 52; 57; 64; 68; 31; 34; 45; 47; 50; 54; 61; 64; 31;
   34; 45; 46; 49; 53; 60; 64; 30; 35; 44; 45; 48; 52; 58; 61; 33; 37; 46; 45; 47; 51; 57; 61; 33; 38; 46;
   46; 47; 51; 57; 60; 37; 43; 47; 45; 47; 50; 55; 59; 39; 43; 48; 47; 48; 51; 56; 58; 42; 44; 49; 49; 50;
   53; 58; 60; 47; 46; 51; 53; 53; 56; 61; 61; 49; 47; 52; 53; 54; 57; 61; 63; 48; 46; 51; 56; 57; 60; 64;
   64; 48; 46; 51; 57; 59; 61; 66; 67; 49; 45; 51; 58; 61; 64; 68; 67; 50; 46; 52; 59; 63; 66; 71; 71; 50;
   46; 52; 59; 64; 67; 71; 71; 52; 47; 53; 61; 66; 71; 75; 74; 53; 48; 53; 61; 67; 72; 77; 75; 54; 49; 54;
   62; 68; 73; 79; 79; 56; 51; 55; 63; 70; 76; 82; 80; 57; 51; 55; 64; 70; 76; 83; 83; 60; 54; 57; 65; 72;
   79; 86; 85; 61; 55; 58; 66; 73; 80; 87; 87; 63; 56; 59; 67; 75; 82; 90; 89; 64; 57; 60; 68; 75; 83; 91;
   91; 64; 58; 60; 68; 75; 83; 91; 94; 66; 59; 61; 69; 77; 84; 93; 95; 67; 60; 61; 69; 78; 85; 93; 97; 68;
   61; 61; 68; 77; 86; 94; 97; 69; 62; 61; 68; 76; 85; 94; 99; 70; 63; 61; 67; 75; 83; 92; 98; 70; 64; 61;
   67; 74; 82; 90; 98; 32; 31; 31; 30; 33; 33; 37; 39; 42; 47; 49; 48; 48; 49; 50; 50; 52; 53; 54; 56; 57;
   60; 61; 63; 64; 64; 66; 67; 68; 69; 70; 70; 33; 34; 34; 35; 37; 38; 43; 43; 44; 46; 47; 46; 46; 45; 46;
   46; 47; 48; 49; 51; 51; 54; 55; 56; 57; 58; 59; 60; 61; 62; 63; 64; 45; 45; 45; 44; 46; 46; 47; 48; 49;
   51; 52; 51; 51; 51; 52; 52; 53; 53; 54; 55; 55; 57; 58; 59; 60; 60; 61; 61; 61; 61; 61; 61; 49; 47; 46;
   45; 45; 46; 45; 47; 49; 53; 53; 56; 57; 58; 59; 59; 61; 61; 62; 63; 64; 65; 66; 67; 68; 68; 69; 69; 68;
   68; 67; 67; 52; 50; 49; 48; 47; 47; 47; 48; 50; 53; 54; 57; 59; 61; 63; 64; 66; 67; 68; 70; 70; 72; 73;
   75; 75; 75; 77; 78; 77; 76; 75; 74; 57; 54; 53; 52; 51; 51; 50; 51; 53; 56; 57; 60; 61; 64; 66; 67; 71;
   72; 73; 76; 76; 79; 80; 82; 83; 83; 84; 85; 86; 85; 83; 82; 64; 61; 60; 58; 57; 57; 55; 56; 58; 61; 61;
   64; 66; 68; 71; 71; 75; 77; 79; 82; 83; 86; 87; 90; 91; 91; 93; 93; 94; 94; 92; 90; 68; 64; 64; 61; 61;
   60; 59; 58; 60; 61; 63; 64; 67; 67; 71; 71; 74; 75; 79; 80; 83; 85; 87; 89; 91; 94; 95; 97; 97; 99; 98;
   98]];
 [[32; 34; 53; 75; 34; 49; 64; 81; 53; 64; 91; 112; 75; 81; 112; 140; 32; 32; 34; 39; 50; 62; 76; 84; 32;
   33; 35; 40; 48; 59; 71; 79; 34; 35; 39; 46; 53; 63; 74; 81; 39; 40; 46; 56; 65; 75; 86; 92; 50; 48; 53;
   65; 78; 90; 101; 106; 62; 59; 63; 75; 90; 105; 118; 123; 76; 71; 74; 86; 101; 118; 134; 142; 84; 79;
   81; 92; 106; 123; 142; 153; 32; 31; 31; 32; 33; 36; 39; 44; 48; 54; 59; 66; 74; 81; 86; 91; 31; 32; 32;
   32; 33; 35; 38; 42; 46; 51; 56; 63; 70; 77; 81; 86; 31; 32; 32; 33; 34; 35; 38; 41; 45; 49; 54; 60; 67;
   73; 77; 82; 32; 32; 33; 34; 36; 37; 40; 42; 45; 49; 53; 59; 66; 71; 75; 80; 33; 33; 34; 36; 38; 42; 44;
   46; 50; 53; 57; 63; 69; 74; 78; 80; 36; 35; 35; 37; 42; 48; 50; 54; 57; 60; 64; 69; 75; 80; 84; 85; 39;
   38; 38; 40; 44; 50; 54; 58; 61; 65; 69; 74; 80; 85; 89; 91; 44; 42; 41; 42; 46; 54; 58; 63; 67; 71; 75;
   80; 86; 91; 95; 97; 48; 46; 45; 45; 50; 57; 61; 67; 71; 76; 80; 86; 93; 98; 101; 104; 54; 51; 49; 49;
   53; 60; 65; 71; 76; 82; 87; 93; 100; 105; 109; 112; 59; 56; 54; 53; 57; 64; 69; 75; 80; 87; 92; 99;
   106; 112; 116; 120; 66; 63; 60; 59; 63; 69; 74; 80; 86; 93; 99; 107; 115; 121; 125; 129; 74; 70; 67;
   66; 69; 75; 80; 86; 93; 100; 106; 115; 123; 130; 135; 138; 81; 77; 73; 71; 74; 80; 85; 91; 98; 105;
   112; 121; 130; 137; 142; 148; 86; 81; 77; 75; 78; 84; 89; 95; 101; 109; 116; 125; 135; 142; 147; 153;
   91; 86; 82; 80; 80; 85; 91; 97; 104; 112; 120; 129; 138; 148; 153; 159; 32; 31; 31; 31; 31; 31; 32; 32;
   33; 34; 36; 36; 39; 41; 44; 46; 48; 52; 54; 58; 59; 65; 66; 71; 74; 80; 81; 83; 86; 89; 91; 93; 31; 32;
   32; 32; 32; 32; 32; 32; 33; 34; 35; 35; 38; 39; 42; 44; 46; 50; 51; 56; 56; 62; 63; 68; 71; 76; 77; 78;
   82; 84; 86; 88; 31; 32; 32; 32; 32; 32; 32; 32; 33; 34; 35; 35; 38; 39; 42; 44; 46; 49; 51; 55; 56; 61;
   63; 67; 70; 75; 77; 78; 81; 84; 86; 88; 31; 32; 32; 32; 32; 32; 32; 32; 33; 33; 34; 34; 37; 38; 41; 42;
   44; 48; 49; 53; 54; 59; 60; 65; 68; 72; 74; 75; 78; 80; 82; 84; 31; 32; 32; 32; 32; 33; 33; 33; 34; 34;
   35; 35; 38; 39; 41; 43; 45; 48; 49; 53; 54; 59; 60; 65; 67; 72; 73; 74; 77; 80; 82; 84; 31; 32; 32; 32;
   33; 33; 33; 34; 35; 35; 36; 36; 39; 40; 42; 44; 45; 48; 50; 53; 54; 59; 60; 64; 67; 71; 73; 74; 77; 79;
   81; 83; 32; 32; 32; 32; 33; 33; 34; 35; 36; 36; 37; 38; 40; 40; 42; 44; 45; 48; 49; 53; 53; 58; 59; 63;
   66; 70; 71; 72; 75; 78; 80; 83; 32; 32; 32; 32; 33; 34; 35; 35; 36; 37; 38; 38; 40; 41; 42; 44; 46; 48;
   49; 53; 53; 58; 59; 63; 65; 69; 71; 72; 74; 77; 79; 80; 33; 33; 33; 33; 34; 35; 36; 36; 38; 39; 42; 42;
   44; 45; 46; 48; 50; 52; 53; 57; 57; 62; 63; 67; 69; 73; 74; 75; 78; 79; 80; 81; 34; 34; 34; 33; 34; 35;
   36; 37; 39; 39; 42; 43; 45; 46; 47; 49; 51; 53; 54; 58; 58; 63; 64; 68; 70; 74; 75; 76; 79; 81; 84; 86;
   36; 35; 35; 34; 35; 36; 37; 38; 42; 42; 48; 48; 50; 51; 54; 55; 57; 59; 60; 63; 64; 68; 69; 73; 75; 79;
   80; 81; 84; 85; 85; 86; 36; 35; 35; 34; 35; 36; 38; 38; 42; 43; 48; 49; 51; 52; 54; 55; 57; 59; 60; 64;
   64; 68; 69; 73; 75; 79; 80; 81; 84; 86; 88; 91; 39; 38; 38; 37; 38; 39; 40; 40; 44; 45; 50; 51; 54; 55;
   58; 59; 61; 64; 65; 68; 69; 73; 74; 78; 80; 84; 85; 86; 89; 91; 91; 91; 41; 39; 39; 38; 39; 40; 40; 41;
   45; 46; 51; 52; 55; 56; 59; 61; 63; 65; 67; 70; 70; 75; 76; 80; 82; 86; 87; 88; 91; 92; 94; 96; 44; 42;
   42; 41; 41; 42; 42; 42; 46; 47; 54; 54; 58; 59; 63; 65; 67; 70; 71; 75; 75; 79; 80; 84; 86; 90; 91; 92;
   95; 97; 97; 97; 46; 44; 44; 42; 43; 44; 44; 44; 48; 49; 55; 55; 59; 61; 65; 67; 69; 72; 74; 77; 78; 82;
   83; 87; 89; 93; 94; 95; 98; 98; 100; 103; 48; 46; 46; 44; 45; 45; 45; 46; 50; 51; 57; 57; 61; 63; 67;
   69; 71; 74; 76; 80; 80; 85; 86; 90; 93; 96; 98; 99; 101; 104; 104; 103; 52; 50; 49; 48; 48; 48; 48; 48;
   52; 53; 59; 59; 64; 65; 70; 72; 74; 78; 80; 84; 85; 90; 91; 95; 97; 101; 103; 104; 106; 106; 107; 110;
   54; 51; 51; 49; 49; 50; 49; 49; 53; 54; 60; 60; 65; 67; 71; 74; 76; 80; 82; 86; 87; 92; 93; 97; 100;
   104; 105; 106; 109; 112; 112; 110; 58; 56; 55; 53; 53; 53; 53; 53; 57; 58; 63; 64; 68; 70; 75; 77; 80;
   84; 86; 91; 91; 97; 98; 103; 105; 110; 111; 112; 115; 114; 115; 118; 59; 56; 56; 54; 54; 54; 53; 53;
   57; 58; 64; 64; 69; 70; 75; 78; 80; 85; 87; 91; 92; 98; 99; 103; 106; 110; 112; 113; 116; 119; 120;
   119; 65; 62; 61; 59; 59; 59; 58; 58; 62; 63; 68; 68; 73; 75; 79; 82; 85; 90; 92; 97; 98; 105; 106; 111;
   114; 118; 120; 121; 124; 123; 123; 126; 66; 63; 63; 60; 60; 60; 59; 59; 63; 64; 69; 69; 74; 76; 80; 83;
   86; 91; 93; 98; 99; 106; 107; 112; 115; 119; 121; 122; 125; 128; 129; 126; 71; 68; 67; 65; 65; 64; 63;
   63; 67; 68; 73; 73; 78; 80; 84; 87; 90; 95; 97; 103; 103; 111; 112; 117; 120; 125; 127; 128; 131; 132;
   132; 135; 74; 71; 70; 68; 67; 67; 66; 65; 69; 70; 75; 75; 80; 82; 86; 89; 93; 97; 100; 105; 106; 114;
   115; 120; 123; 128; 130; 131; 135; 135; 138; 136; 80; 76; 75; 72; 72; 71; 70; 69; 73; 74; 79; 79; 84;
   86; 90; 93; 96; 101; 104; 110; 110; 118; 119; 125; 128; 134; 136; 137; 140; 142; 140; 144; 81; 77; 77;
   74; 73; 73; 71; 71; 74; 75; 80; 80; 85; 87; 91; 94; 98; 103; 105; 111; 112; 120; 121; 127; 130; 136;
   137; 139; 142; 145; 148; 144; 83; 78; 78; 75; 74; 74; 72; 72; 75; 76; 81; 81; 86; 88; 92; 95; 99; 104;
   106; 112; 113; 121; 122; 128; 131; 137; 139; 140; 144; 148; 150; 155; 86; 82; 81; 78; 77; 77; 75; 74;
   78; 79; 84; 84; 89; 91; 95; 98; 101; 106; 109; 115; 116; 124; 125; 131; 135; 140; 142; 144; 147; 149;
   153; 155; 89; 84; 84; 80; 80; 79; 78; 77; 79; 81; 85; 86; 91; 92; 97; 98; 104; 106; 112; 114; 119; 123;
   128; 132; 135; 142; 145; 148; 149; 153; 154; 159; 91; 86; 86; 82; 82; 81; 80; 79; 80; 84; 85; 88; 91;
   94; 97; 100; 104; 107; 112; 115; 120; 123; 129; 132; 138; 140; 148; 150; 153; 154; 159; 159; 93; 88;
   88; 84; 84; 83; 83; 80; 81; 86; 86; 91; 91; 96; 97; 103; 103; 110; 110; 118; 119; 126; 126; 135; 136;
   144; 144; 155; 155; 159; 159; 164; 32; 35; 51; 77; 32; 36; 50; 72; 34; 42; 54; 75; 38; 51; 67; 87; 48;
   59; 80; 103; 60; 68; 92; 119; 72; 79; 104; 135; 81; 86; 112; 144; 32; 32; 34; 38; 48; 60; 72; 81; 35;
   36; 42; 51; 59; 68; 79; 86; 51; 50; 54; 67; 80; 92; 104; 112; 77; 72; 75; 87; 103; 119; 135; 144; 32;
   31; 33; 40; 51; 65; 79; 87; 31; 32; 33; 39; 49; 61; 74; 82; 31; 32; 34; 38; 47; 59; 71; 79; 32; 33; 36;
   40; 48; 58; 69; 77; 33; 34; 38; 44; 52; 62; 72; 78; 36; 35; 42; 51; 58; 68; 78; 84; 39; 38; 44; 54; 63;
   73; 84; 89; 44; 41; 46; 59; 69; 79; 90; 96; 48; 45; 50; 62; 74; 85; 96; 103; 53; 49; 53; 66; 79; 92;
   103; 111; 58; 54; 57; 70; 84; 98; 110; 118; 66; 60; 63; 75; 90; 106; 119; 126; 74; 67; 69; 81; 97; 113;
   128; 134; 81; 73; 75; 86; 102; 120; 135; 143; 86; 78; 78; 90; 106; 124; 140; 147; 91; 82; 80; 90; 103;
   119; 137; 151; 32; 31; 31; 32; 33; 36; 39; 44; 48; 53; 58; 66; 74; 81; 86; 91; 31; 32; 32; 33; 34; 35;
   38; 41; 45; 49; 54; 60; 67; 73; 78; 82; 33; 33; 34; 36; 38; 42; 44; 46; 50; 53; 57; 63; 69; 75; 78; 80;
   40; 39; 38; 40; 44; 51; 54; 59; 62; 66; 70; 75; 81; 86; 90; 90; 51; 49; 47; 48; 52; 58; 63; 69; 74; 79;
   84; 90; 97; 102; 106; 103; 65; 61; 59; 58; 62; 68; 73; 79; 85; 92; 98; 106; 113; 120; 124; 119; 79; 74;
   71; 69; 72; 78; 84; 90; 96; 103; 110; 119; 128; 135; 140; 137; 87; 82; 79; 77; 78; 84; 89; 96; 103;
   111; 118; 126; 134; 143; 147; 151; 32; 31; 31; 32; 33; 36; 40; 44; 51; 53; 65; 66; 79; 81; 87; 90; 31;
   32; 32; 32; 33; 35; 39; 42; 49; 51; 62; 63; 75; 77; 83; 85; 31; 32; 32; 32; 33; 35; 39; 42; 49; 51; 61;
   62; 74; 76; 82; 85; 31; 32; 32; 33; 33; 34; 38; 41; 47; 49; 59; 60; 72; 74; 79; 81; 31; 32; 32; 33; 34;
   35; 38; 41; 47; 49; 59; 60; 71; 73; 79; 81; 32; 32; 33; 34; 35; 36; 39; 42; 48; 50; 59; 60; 71; 72; 78;
   80; 32; 32; 33; 35; 36; 37; 40; 42; 48; 49; 58; 59; 69; 71; 77; 80; 32; 33; 33; 35; 36; 38; 41; 42; 48;
   49; 58; 59; 69; 70; 75; 77; 33; 33; 34; 36; 38; 41; 44; 46; 52; 53; 62; 63; 72; 74; 78; 78; 34; 34; 34;
   37; 39; 42; 45; 48; 53; 54; 63; 64; 73; 75; 80; 83; 36; 34; 35; 38; 42; 48; 51; 54; 58; 60; 68; 69; 78;
   80; 84; 83; 36; 35; 35; 38; 42; 48; 51; 54; 59; 60; 68; 69; 79; 80; 85; 87; 39; 37; 38; 40; 44; 50; 54;
   58; 63; 65; 73; 74; 84; 85; 89; 88; 40; 38; 39; 41; 45; 51; 56; 59; 65; 67; 75; 76; 85; 87; 90; 93; 44;
   41; 41; 43; 46; 53; 59; 63; 69; 71; 79; 80; 90; 91; 96; 93; 46; 43; 43; 44; 48; 55; 60; 65; 72; 73; 82;
   83; 93; 94; 97; 100; 48; 45; 45; 46; 50; 56; 62; 67; 74; 76; 85; 86; 96; 98; 103; 100; 52; 48; 48; 49;
   52; 59; 65; 70; 78; 80; 90; 91; 101; 103; 105; 107; 53; 49; 49; 50; 53; 60; 66; 71; 79; 82; 92; 93;
   103; 105; 111; 107; 58; 53; 53; 53; 57; 63; 69; 74; 83; 86; 97; 98; 109; 111; 113; 115; 58; 54; 54; 54;
   57; 63; 70; 75; 84; 87; 98; 99; 110; 112; 118; 115; 65; 60; 59; 58; 62; 68; 74; 79; 89; 92; 105; 106;
   118; 119; 122; 123; 66; 61; 60; 59; 63; 69; 75; 80; 90; 93; 106; 107; 119; 121; 126; 123; 71; 65; 65;
   63; 67; 73; 79; 84; 94; 97; 111; 112; 125; 127; 131; 132; 74; 68; 67; 66; 69; 75; 81; 86; 97; 100; 113;
   115; 128; 130; 134; 132; 79; 72; 72; 70; 73; 79; 85; 90; 101; 104; 118; 119; 133; 135; 141; 140; 81;
   74; 73; 71; 75; 80; 86; 91; 102; 105; 120; 121; 135; 137; 143; 140; 82; 75; 74; 72; 75; 81; 87; 92;
   103; 106; 121; 122; 136; 139; 147; 151; 86; 78; 78; 75; 78; 84; 90; 95; 106; 109; 124; 125; 140; 142;
   147; 151; 88; 81; 80; 77; 80; 86; 90; 98; 105; 112; 122; 127; 140; 144; 152; 155; 91; 83; 82; 79; 80;
   88; 90; 100; 103; 114; 119; 130; 137; 148; 151; 155; 93; 85; 85; 81; 81; 90; 90; 102; 103; 117; 117;
   134; 134; 151; 152; 160; 32; 31; 31; 31; 31; 32; 32; 32; 33; 34; 36; 36; 39; 40; 44; 46; 48; 52; 53;
   58; 58; 65; 66; 71; 74; 79; 81; 82; 86; 88; 91; 93; 31; 32; 32; 32; 32; 32; 32; 33; 33; 34; 34; 35; 37;
   38; 41; 43; 45; 48; 49; 53; 54; 60; 61; 65; 68; 72; 74; 75; 78; 81; 83; 85; 31; 32; 32; 32; 32; 33; 33;
   33; 34; 34; 35; 35; 38; 39; 41; 43; 45; 48; 49; 53; 54; 59; 60; 65; 67; 72; 73; 74; 78; 80; 82; 85; 32;
   32; 32; 33; 33; 34; 35; 35; 36; 37; 38; 38; 40; 41; 43; 44; 46; 49; 50; 53; 54; 58; 59; 63; 66; 70; 71;
   72; 75; 77; 79; 81; 33; 33; 33; 33; 34; 35; 36; 36; 38; 39; 42; 42; 44; 45; 46; 48; 50; 52; 53; 57; 57;
   62; 63; 67; 69; 73; 75; 75; 78; 80; 80; 81; 36; 35; 35; 34; 35; 36; 37; 38; 41; 42; 48; 48; 50; 51; 53;
   55; 56; 59; 60; 63; 63; 68; 69; 73; 75; 79; 80; 81; 84; 86; 88; 90; 40; 39; 39; 38; 38; 39; 40; 41; 44;
   45; 51; 51; 54; 56; 59; 60; 62; 65; 66; 69; 70; 74; 75; 79; 81; 85; 86; 87; 90; 90; 90; 90; 44; 42; 42;
   41; 41; 42; 42; 42; 46; 48; 54; 54; 58; 59; 63; 65; 67; 70; 71; 74; 75; 79; 80; 84; 86; 90; 91; 92; 95;
   98; 100; 102; 51; 49; 49; 47; 47; 48; 48; 48; 52; 53; 58; 59; 63; 65; 69; 72; 74; 78; 79; 83; 84; 89;
   90; 94; 97; 101; 102; 103; 106; 105; 103; 103; 53; 51; 51; 49; 49; 50; 49; 49; 53; 54; 60; 60; 65; 67;
   71; 73; 76; 80; 82; 86; 87; 92; 93; 97; 100; 104; 105; 106; 109; 112; 114; 117; 65; 62; 61; 59; 59; 59;
   58; 58; 62; 63; 68; 68; 73; 75; 79; 82; 85; 90; 92; 97; 98; 105; 106; 111; 113; 118; 120; 121; 124;
   122; 119; 117; 66; 63; 62; 60; 60; 60; 59; 59; 63; 64; 69; 69; 74; 76; 80; 83; 86; 91; 93; 98; 99; 106;
   107; 112; 115; 119; 121; 122; 125; 127; 130; 134; 79; 75; 74; 72; 71; 71; 69; 69; 72; 73; 78; 79; 84;
   85; 90; 93; 96; 101; 103; 109; 110; 118; 119; 125; 128; 133; 135; 136; 140; 140; 137; 134; 81; 77; 76;
   74; 73; 72; 71; 70; 74; 75; 80; 80; 85; 87; 91; 94; 98; 103; 105; 111; 112; 119; 121; 127; 130; 135;
   137; 139; 142; 144; 148; 151; 87; 83; 82; 79; 79; 78; 77; 75; 78; 80; 84; 85; 89; 90; 96; 97; 103; 105;
   111; 113; 118; 122; 126; 131; 134; 141; 143; 147; 147; 152; 151; 152; 90; 85; 85; 81; 81; 80; 80; 77;
   78; 83; 83; 87; 88; 93; 93; 100; 100; 107; 107; 115; 115; 123; 123; 132; 132; 140; 140; 151; 151; 155;
   155; 160; 31; 36; 53; 81; 32; 35; 51; 76; 32; 35; 49; 73; 32; 37; 49; 71; 33; 41; 53; 74; 34; 48; 60;
   80; 37; 50; 65; 85; 41; 53; 71; 91; 45; 56; 76; 98; 49; 60; 82; 105; 54; 63; 87; 112; 61; 69; 93; 121;
   68; 75; 100; 130; 74; 80; 105; 137; 78; 84; 109; 142; 83; 88; 114; 148; 31; 32; 32; 32; 33; 34; 37; 41;
   45; 49; 54; 61; 68; 74; 78; 83; 36; 35; 35; 37; 41; 48; 50; 53; 56; 60; 63; 69; 75; 80; 84; 88; 53; 51;
   49; 49; 53; 60; 65; 71; 76; 82; 87; 93; 100; 105; 109; 114; 81; 76; 73; 71; 74; 80; 85; 91; 98; 105;
   112; 121; 130; 137; 142; 148; 32; 31; 33; 40; 51; 65; 79; 87; 31; 32; 33; 39; 49; 62; 75; 83; 31; 32;
   33; 39; 49; 61; 74; 82; 31; 32; 33; 38; 47; 59; 72; 79; 31; 32; 34; 38; 47; 59; 71; 79; 32; 33; 35; 39;
   48; 59; 71; 78; 32; 33; 36; 40; 48; 58; 69; 77; 32; 33; 36; 41; 48; 58; 69; 75; 33; 34; 38; 44; 52; 62;
   72; 78; 34; 34; 39; 45; 53; 63; 73; 80; 36; 35; 42; 51; 58; 68; 78; 84; 36; 35; 42; 51; 59; 68; 79; 85;
   39; 38; 44; 54; 63; 73; 84; 89; 40; 39; 45; 56; 65; 75; 85; 90; 44; 41; 46; 59; 69; 79; 90; 96; 46; 43;
   48; 60; 72; 82; 93; 97; 48; 45; 50; 62; 74; 85; 96; 103; 52; 48; 52; 65; 78; 90; 101; 105; 53; 49; 53;
   66; 79; 92; 103; 111; 58; 53; 57; 69; 83; 97; 109; 113; 58; 54; 57; 70; 84; 98; 110; 118; 65; 59; 62;
   74; 89; 105; 118; 122; 66; 60; 63; 75; 90; 106; 119; 126; 71; 65; 67; 79; 94; 111; 125; 131; 74; 67;
   69; 81; 97; 113; 128; 134; 79; 72; 73; 85; 101; 118; 133; 141; 81; 73; 75; 86; 102; 120; 135; 143; 82;
   74; 75; 87; 103; 121; 136; 147; 86; 78; 78; 90; 106; 124; 140; 147; 88; 80; 80; 90; 105; 122; 140; 152;
   91; 82; 80; 90; 103; 119; 137; 151; 93; 85; 81; 90; 103; 117; 134; 152; 32; 31; 31; 31; 31; 32; 32; 32;
   33; 34; 36; 36; 39; 40; 44; 46; 48; 52; 53; 58; 58; 65; 66; 71; 74; 79; 81; 82; 86; 88; 91; 93; 31; 32;
   32; 32; 32; 33; 33; 33; 34; 34; 35; 35; 38; 39; 41; 43; 45; 48; 49; 53; 54; 59; 60; 65; 67; 72; 73; 74;
   78; 80; 82; 85; 33; 33; 33; 33; 34; 35; 36; 36; 38; 39; 42; 42; 44; 45; 46; 48; 50; 52; 53; 57; 57; 62;
   63; 67; 69; 73; 75; 75; 78; 80; 80; 81; 40; 39; 39; 38; 38; 39; 40; 41; 44; 45; 51; 51; 54; 56; 59; 60;
   62; 65; 66; 69; 70; 74; 75; 79; 81; 85; 86; 87; 90; 90; 90; 90; 51; 49; 49; 47; 47; 48; 48; 48; 52; 53;
   58; 59; 63; 65; 69; 72; 74; 78; 79; 83; 84; 89; 90; 94; 97; 101; 102; 103; 106; 105; 103; 103; 65; 62;
   61; 59; 59; 59; 58; 58; 62; 63; 68; 68; 73; 75; 79; 82; 85; 90; 92; 97; 98; 105; 106; 111; 113; 118;
   120; 121; 124; 122; 119; 117; 79; 75; 74; 72; 71; 71; 69; 69; 72; 73; 78; 79; 84; 85; 90; 93; 96; 101;
   103; 109; 110; 118; 119; 125; 128; 133; 135; 136; 140; 140; 137; 134; 87; 83; 82; 79; 79; 78; 77; 75;
   78; 80; 84; 85; 89; 90; 96; 97; 103; 105; 111; 113; 118; 122; 126; 131; 134; 141; 143; 147; 147; 152;
   151; 152];
 [32; 46; 49; 58; 46; 53; 55; 62; 49; 55; 70; 78; 58; 62; 78; 91; 31; 34; 42; 47; 49; 54; 60; 64; 34; 39;
   45; 46; 47; 51; 56; 59; 42; 45; 48; 49; 50; 53; 57; 60; 47; 46; 49; 55; 58; 61; 65; 66; 49; 47; 50; 58;
   65; 69; 73; 74; 54; 51; 53; 61; 69; 76; 82; 83; 60; 56; 57; 65; 73; 82; 89; 92; 64; 59; 60; 66; 74; 83;
   92; 96; 32; 31; 31; 35; 40; 49; 48; 49; 50; 52; 54; 57; 61; 64; 66; 68; 31; 31; 32; 37; 41; 47; 47; 46;
   48; 49; 51; 54; 57; 60; 62; 64; 31; 32; 34; 39; 43; 46; 46; 45; 46; 47; 49; 52; 55; 57; 59; 61; 35; 37;
   39; 44; 46; 47; 46; 45; 46; 47; 48; 51; 53; 56; 57; 59; 40; 41; 43; 46; 48; 50; 49; 48; 49; 49; 51; 53;
   55; 57; 59; 59; 49; 47; 46; 47; 50; 53; 53; 53; 54; 54; 55; 57; 59; 61; 62; 62; 48; 47; 46; 46; 49; 53;
   54; 55; 56; 57; 58; 60; 62; 64; 65; 65; 49; 46; 45; 45; 48; 53; 55; 58; 60; 61; 62; 64; 66; 68; 69; 69;
   50; 48; 46; 46; 49; 54; 56; 60; 61; 63; 65; 67; 69; 71; 72; 72; 52; 49; 47; 47; 49; 54; 57; 61; 63; 66;
   68; 71; 73; 75; 76; 77; 54; 51; 49; 48; 51; 55; 58; 62; 65; 68; 71; 74; 76; 78; 80; 81; 57; 54; 52; 51;
   53; 57; 60; 64; 67; 71; 74; 77; 80; 83; 84; 85; 61; 57; 55; 53; 55; 59; 62; 66; 69; 73; 76; 80; 84; 87;
   89; 89; 64; 60; 57; 56; 57; 61; 64; 68; 71; 75; 78; 83; 87; 90; 92; 94; 66; 62; 59; 57; 59; 62; 65; 69;
   72; 76; 80; 84; 89; 92; 94; 96; 68; 64; 61; 59; 59; 62; 65; 69; 72; 77; 81; 85; 89; 94; 96; 98; 32; 31;
   31; 30; 31; 33; 35; 36; 40; 41; 49; 49; 48; 48; 49; 50; 50; 52; 52; 54; 54; 57; 57; 60; 61; 63; 64; 65;
   66; 67; 68; 69; 31; 31; 31; 31; 32; 34; 37; 38; 41; 42; 47; 47; 47; 47; 47; 47; 48; 49; 50; 52; 52; 54;
   55; 57; 58; 60; 61; 61; 63; 64; 64; 65; 31; 31; 31; 31; 32; 35; 37; 39; 41; 42; 47; 47; 47; 46; 46; 47;
   48; 49; 49; 51; 51; 54; 54; 56; 57; 59; 60; 61; 62; 63; 64; 65; 30; 31; 31; 32; 33; 35; 38; 40; 42; 42;
   46; 46; 45; 45; 45; 45; 46; 47; 47; 49; 49; 52; 52; 54; 55; 57; 58; 58; 60; 61; 61; 62; 31; 32; 32; 33;
   34; 37; 39; 41; 43; 43; 46; 46; 46; 45; 45; 46; 46; 47; 47; 49; 49; 51; 52; 54; 55; 57; 57; 58; 59; 60;
   61; 62; 33; 34; 35; 35; 37; 39; 41; 43; 44; 45; 47; 47; 46; 46; 45; 46; 46; 47; 47; 49; 49; 51; 51; 53;
   54; 56; 57; 57; 58; 59; 60; 61; 35; 37; 37; 38; 39; 41; 44; 46; 46; 46; 47; 47; 46; 46; 45; 46; 46; 47;
   47; 48; 48; 50; 51; 52; 53; 55; 56; 56; 57; 58; 59; 61; 36; 38; 39; 40; 41; 43; 46; 47; 47; 47; 48; 47;
   46; 46; 45; 46; 46; 46; 47; 48; 48; 50; 50; 52; 53; 54; 55; 55; 56; 57; 58; 58; 40; 41; 41; 42; 43; 44;
   46; 47; 48; 48; 50; 49; 49; 49; 48; 49; 49; 49; 49; 51; 51; 52; 53; 54; 55; 57; 57; 58; 59; 59; 59; 59;
   41; 42; 42; 42; 43; 45; 46; 47; 48; 48; 50; 50; 49; 49; 49; 49; 50; 50; 50; 52; 52; 53; 53; 55; 56; 57;
   58; 58; 59; 60; 61; 62; 49; 47; 47; 46; 46; 47; 47; 48; 50; 50; 53; 53; 53; 53; 53; 54; 54; 54; 54; 55;
   55; 56; 57; 58; 59; 60; 61; 61; 62; 62; 62; 62; 49; 47; 47; 46; 46; 47; 47; 47; 49; 50; 53; 53; 53; 53;
   54; 54; 54; 54; 54; 55; 56; 57; 57; 59; 59; 61; 61; 62; 63; 63; 64; 65; 48; 47; 47; 45; 46; 46; 46; 46;
   49; 49; 53; 53; 54; 54; 55; 56; 56; 57; 57; 58; 58; 60; 60; 61; 62; 63; 64; 64; 65; 66; 65; 65; 48; 47;
   46; 45; 45; 46; 46; 46; 49; 49; 53; 53; 54; 55; 56; 57; 57; 58; 58; 59; 60; 61; 61; 63; 63; 65; 65; 65;
   66; 66; 67; 68; 49; 47; 46; 45; 45; 45; 45; 45; 48; 49; 53; 54; 55; 56; 58; 59; 60; 61; 61; 62; 62; 63;
   64; 65; 66; 67; 68; 68; 69; 70; 69; 68; 50; 47; 47; 45; 46; 46; 46; 46; 49; 49; 54; 54; 56; 57; 59; 60;
   60; 62; 62; 63; 64; 65; 65; 67; 68; 69; 69; 70; 70; 70; 71; 71; 50; 48; 48; 46; 46; 46; 46; 46; 49; 50;
   54; 54; 56; 57; 60; 60; 61; 63; 63; 65; 65; 67; 67; 68; 69; 71; 71; 71; 72; 73; 72; 71; 52; 49; 49; 47;
   47; 47; 47; 46; 49; 50; 54; 54; 57; 58; 61; 62; 63; 65; 65; 67; 67; 69; 70; 71; 72; 73; 74; 74; 75; 74;
   74; 75; 52; 50; 49; 47; 47; 47; 47; 47; 49; 50; 54; 54; 57; 58; 61; 62; 63; 65; 66; 68; 68; 70; 71; 72;
   73; 75; 75; 75; 76; 77; 77; 75; 54; 52; 51; 49; 49; 49; 48; 48; 51; 52; 55; 55; 58; 59; 62; 63; 65; 67;
   68; 70; 70; 73; 73; 75; 76; 78; 78; 78; 79; 78; 78; 79; 54; 52; 51; 49; 49; 49; 48; 48; 51; 52; 55; 56;
   58; 60; 62; 64; 65; 67; 68; 70; 71; 73; 74; 75; 76; 78; 78; 79; 80; 81; 81; 79; 57; 54; 54; 52; 51; 51;
   50; 50; 52; 53; 56; 57; 60; 61; 63; 65; 67; 69; 70; 73; 73; 76; 77; 79; 80; 82; 82; 83; 84; 83; 82; 83;
   57; 55; 54; 52; 52; 51; 51; 50; 53; 53; 57; 57; 60; 61; 64; 65; 67; 70; 71; 73; 74; 77; 77; 79; 80; 82;
   83; 83; 84; 85; 85; 83; 60; 57; 56; 54; 54; 53; 52; 52; 54; 55; 58; 59; 61; 63; 65; 67; 68; 71; 72; 75;
   75; 79; 79; 82; 83; 85; 86; 86; 87; 87; 86; 87; 61; 58; 57; 55; 55; 54; 53; 53; 55; 56; 59; 59; 62; 63;
   66; 68; 69; 72; 73; 76; 76; 80; 80; 83; 84; 86; 87; 88; 89; 89; 89; 87; 63; 60; 59; 57; 57; 56; 55; 54;
   57; 57; 60; 61; 63; 65; 67; 69; 71; 73; 75; 78; 78; 82; 82; 85; 86; 89; 89; 90; 91; 92; 90; 91; 64; 61;
   60; 58; 57; 57; 56; 55; 57; 58; 61; 61; 64; 65; 68; 69; 71; 74; 75; 78; 78; 82; 83; 86; 87; 89; 90; 91;
   92; 93; 94; 91; 65; 61; 61; 58; 58; 57; 56; 55; 58; 58; 61; 62; 64; 65; 68; 70; 71; 74; 75; 78; 79; 83;
   83; 86; 88; 90; 91; 91; 93; 94; 94; 96; 66; 63; 62; 60; 59; 58; 57; 56; 59; 59; 62; 63; 65; 66; 69; 70;
   72; 75; 76; 79; 80; 84; 84; 87; 89; 91; 92; 93; 94; 94; 96; 96; 67; 64; 63; 61; 60; 59; 58; 57; 59; 60;
   62; 63; 66; 66; 70; 70; 73; 74; 77; 78; 81; 83; 85; 87; 89; 92; 93; 94; 94; 96; 96; 97; 68; 64; 64; 61;
   61; 60; 59; 58; 59; 61; 62; 64; 65; 67; 69; 71; 72; 74; 77; 78; 81; 82; 85; 86; 89; 90; 94; 94; 96; 96;
   98; 97; 69; 65; 65; 62; 62; 61; 61; 58; 59; 62; 62; 65; 65; 68; 68; 71; 71; 75; 75; 79; 79; 83; 83; 87;
   87; 91; 91; 96; 96; 97; 97; 99; 31; 47; 50; 61; 36; 47; 47; 57; 43; 50; 50; 58; 45; 53; 58; 65; 47; 54;
   66; 74; 52; 56; 70; 82; 57; 60; 75; 90; 61; 63; 77; 93; 31; 36; 43; 45; 47; 52; 57; 61; 47; 47; 50; 53;
   54; 56; 60; 63; 50; 47; 50; 58; 66; 70; 75; 77; 61; 57; 58; 65; 74; 82; 90; 93; 32; 32; 40; 49; 51; 57;
   63; 67; 31; 33; 41; 47; 49; 54; 59; 63; 31; 35; 43; 46; 47; 51; 57; 60; 35; 39; 46; 46; 47; 50; 55; 58;
   41; 43; 48; 49; 49; 52; 57; 59; 49; 47; 50; 53; 54; 57; 60; 62; 48; 46; 49; 54; 57; 60; 64; 65; 49; 45;
   48; 56; 61; 64; 67; 69; 50; 46; 49; 57; 63; 67; 71; 73; 52; 48; 50; 58; 65; 71; 75; 77; 54; 50; 51; 59;
   67; 73; 78; 81; 57; 52; 53; 61; 69; 77; 82; 85; 61; 55; 56; 63; 72; 80; 86; 88; 64; 58; 58; 65; 73; 82;
   89; 92; 66; 59; 59; 66; 75; 84; 91; 94; 68; 61; 59; 65; 72; 81; 89; 95; 32; 31; 31; 35; 41; 49; 48; 49;
   50; 52; 54; 57; 61; 64; 66; 68; 32; 33; 35; 39; 43; 47; 46; 45; 46; 48; 50; 52; 55; 58; 59; 61; 40; 41;
   43; 46; 48; 50; 49; 48; 49; 50; 51; 53; 56; 58; 59; 59; 49; 47; 46; 46; 49; 53; 54; 56; 57; 58; 59; 61;
   63; 65; 66; 65; 51; 49; 47; 47; 49; 54; 57; 61; 63; 65; 67; 69; 72; 73; 75; 72; 57; 54; 51; 50; 52; 57;
   60; 64; 67; 71; 73; 77; 80; 82; 84; 81; 63; 59; 57; 55; 57; 60; 64; 67; 71; 75; 78; 82; 86; 89; 91; 89;
   67; 63; 60; 58; 59; 62; 65; 69; 73; 77; 81; 85; 88; 92; 94; 95; 32; 31; 32; 37; 40; 48; 49; 49; 51; 52;
   57; 58; 63; 64; 67; 67; 31; 31; 33; 38; 41; 47; 47; 47; 49; 50; 54; 55; 60; 61; 63; 64; 31; 31; 33; 38;
   41; 47; 47; 47; 49; 49; 54; 54; 59; 60; 63; 64; 30; 32; 33; 40; 42; 46; 45; 45; 47; 48; 52; 52; 57; 58;
   60; 61; 31; 33; 35; 41; 43; 46; 46; 45; 47; 48; 51; 52; 57; 57; 60; 61; 33; 36; 37; 43; 44; 47; 46; 46;
   47; 47; 51; 52; 56; 57; 59; 60; 35; 38; 39; 45; 46; 47; 46; 45; 47; 47; 50; 51; 55; 56; 58; 60; 37; 40;
   41; 47; 47; 47; 46; 45; 46; 47; 50; 50; 54; 55; 57; 58; 41; 42; 43; 47; 48; 49; 49; 48; 49; 50; 52; 53;
   57; 57; 59; 58; 42; 43; 43; 47; 48; 50; 49; 49; 50; 50; 53; 54; 57; 58; 60; 61; 49; 46; 47; 48; 50; 53;
   53; 53; 54; 54; 57; 57; 60; 61; 62; 61; 49; 46; 47; 48; 50; 53; 53; 54; 54; 55; 57; 57; 61; 61; 63; 64;
   48; 46; 46; 47; 49; 53; 54; 56; 57; 57; 60; 60; 64; 64; 65; 64; 48; 45; 46; 46; 49; 53; 55; 56; 58; 58;
   61; 61; 65; 65; 66; 67; 49; 45; 45; 46; 48; 53; 56; 58; 61; 61; 64; 64; 67; 68; 69; 67; 49; 46; 46; 46;
   49; 53; 57; 59; 62; 62; 65; 66; 69; 69; 70; 70; 50; 46; 46; 46; 49; 54; 57; 59; 63; 64; 67; 67; 71; 71;
   73; 71; 51; 47; 47; 47; 49; 54; 58; 61; 64; 66; 69; 70; 73; 74; 74; 74; 52; 48; 48; 47; 50; 54; 58; 61;
   65; 66; 71; 71; 75; 75; 77; 74; 54; 50; 49; 48; 51; 55; 59; 62; 67; 68; 73; 73; 77; 78; 78; 78; 54; 50;
   50; 49; 51; 55; 59; 62; 67; 68; 73; 74; 78; 78; 81; 78; 57; 52; 52; 50; 52; 56; 60; 64; 69; 70; 76; 77;
   82; 82; 83; 82; 57; 52; 52; 51; 53; 57; 61; 64; 69; 71; 77; 77; 82; 83; 85; 82; 60; 54; 54; 52; 55; 58;
   62; 65; 71; 72; 79; 79; 85; 86; 87; 86; 61; 56; 55; 53; 56; 59; 63; 66; 72; 73; 80; 81; 86; 87; 88; 86;
   63; 57; 57; 55; 57; 60; 64; 67; 73; 75; 82; 82; 89; 90; 92; 90; 64; 58; 58; 55; 58; 61; 65; 68; 73; 75;
   82; 83; 89; 90; 92; 90; 64; 59; 58; 56; 58; 61; 65; 68; 74; 75; 83; 83; 90; 91; 94; 95; 66; 60; 59; 57;
   59; 62; 66; 69; 75; 76; 84; 85; 91; 92; 94; 95; 67; 61; 60; 58; 59; 63; 66; 70; 74; 77; 82; 85; 91; 93;
   96; 96; 68; 62; 61; 58; 59; 64; 65; 71; 72; 78; 81; 86; 89; 94; 95; 96; 68; 62; 62; 59; 59; 65; 65; 71;
   71; 79; 79; 87; 87; 95; 95; 98; 32; 31; 31; 30; 31; 33; 35; 37; 41; 42; 49; 49; 48; 48; 49; 49; 50; 51;
   52; 54; 54; 57; 57; 60; 61; 63; 64; 64; 66; 67; 68; 68; 31; 31; 31; 32; 33; 36; 38; 40; 42; 43; 46; 46;
   46; 45; 45; 46; 46; 47; 48; 50; 50; 52; 52; 54; 56; 57; 58; 59; 60; 61; 62; 62; 32; 33; 33; 33; 35; 37;
   39; 41; 43; 43; 47; 47; 46; 46; 45; 46; 46; 47; 48; 49; 50; 52; 52; 54; 55; 57; 58; 58; 59; 60; 61; 62;
   37; 38; 38; 40; 41; 43; 45; 47; 47; 47; 48; 48; 47; 46; 46; 46; 46; 47; 47; 48; 49; 50; 51; 52; 53; 55;
   55; 56; 57; 58; 58; 59; 40; 41; 41; 42; 43; 44; 46; 47; 48; 48; 50; 50; 49; 49; 48; 49; 49; 49; 50; 51;
   51; 52; 53; 55; 56; 57; 58; 58; 59; 59; 59; 59; 48; 47; 47; 46; 46; 47; 47; 47; 49; 50; 53; 53; 53; 53;
   53; 53; 54; 54; 54; 55; 55; 56; 57; 58; 59; 60; 61; 61; 62; 63; 64; 65; 49; 47; 47; 45; 46; 46; 46; 46;
   49; 49; 53; 53; 54; 55; 56; 57; 57; 58; 58; 59; 59; 60; 61; 62; 63; 64; 65; 65; 66; 66; 65; 65; 49; 47;
   47; 45; 45; 46; 45; 45; 48; 49; 53; 54; 56; 56; 58; 59; 59; 61; 61; 62; 62; 64; 64; 65; 66; 67; 68; 68;
   69; 70; 71; 71; 51; 49; 49; 47; 47; 47; 47; 46; 49; 50; 54; 54; 57; 58; 61; 62; 63; 64; 65; 67; 67; 69;
   69; 71; 72; 73; 73; 74; 75; 74; 72; 71; 52; 50; 49; 48; 48; 47; 47; 47; 50; 50; 54; 55; 57; 58; 61; 62;
   64; 66; 66; 68; 68; 70; 71; 72; 73; 75; 75; 75; 76; 77; 78; 79; 57; 54; 54; 52; 51; 51; 50; 50; 52; 53;
   57; 57; 60; 61; 64; 65; 67; 69; 71; 73; 73; 76; 77; 79; 80; 82; 82; 83; 84; 82; 81; 79; 58; 55; 54; 52;
   52; 52; 51; 50; 53; 54; 57; 57; 60; 61; 64; 66; 67; 70; 71; 73; 74; 77; 77; 79; 81; 82; 83; 83; 85; 85;
   86; 87; 63; 60; 59; 57; 57; 56; 55; 54; 57; 57; 60; 61; 64; 65; 67; 69; 71; 73; 75; 77; 78; 82; 82; 85;
   86; 89; 89; 90; 91; 91; 89; 87; 64; 61; 60; 58; 57; 57; 56; 55; 57; 58; 61; 61; 64; 65; 68; 69; 71; 74;
   75; 78; 78; 82; 83; 86; 87; 90; 90; 91; 92; 93; 94; 95; 67; 63; 63; 60; 60; 59; 58; 57; 59; 60; 62; 63;
   65; 66; 69; 70; 73; 74; 77; 78; 81; 83; 85; 87; 88; 92; 92; 94; 94; 96; 95; 95; 67; 64; 64; 61; 61; 60;
   60; 58; 58; 61; 61; 64; 64; 67; 67; 70; 71; 74; 74; 78; 78; 82; 82; 86; 86; 90; 90; 95; 95; 96; 96; 98;
   31; 48; 52; 64; 31; 47; 49; 60; 33; 46; 48; 57; 38; 47; 47; 56; 42; 49; 50; 57; 46; 53; 54; 61; 46; 53;
   57; 64; 45; 53; 61; 68; 46; 54; 64; 71; 48; 54; 66; 75; 50; 55; 68; 78; 52; 57; 71; 83; 56; 59; 73; 87;
   58; 61; 75; 90; 60; 62; 76; 92; 62; 64; 78; 94; 31; 31; 33; 38; 42; 46; 46; 45; 46; 48; 50; 52; 56; 58;
   60; 62; 48; 47; 46; 47; 49; 53; 53; 53; 54; 54; 55; 57; 59; 61; 62; 64; 52; 49; 48; 47; 50; 54; 57; 61;
   64; 66; 68; 71; 73; 75; 76; 78; 64; 60; 57; 56; 57; 61; 64; 68; 71; 75; 78; 83; 87; 90; 92; 94; 32; 32;
   40; 49; 51; 57; 63; 67; 31; 33; 41; 47; 49; 54; 60; 63; 31; 33; 41; 47; 49; 54; 59; 63; 30; 33; 42; 45;
   47; 52; 57; 60; 31; 35; 43; 46; 47; 51; 57; 60; 33; 37; 44; 46; 47; 51; 56; 59; 35; 39; 46; 46; 47; 50;
   55; 58; 37; 41; 47; 46; 46; 50; 54; 57; 41; 43; 48; 49; 49; 52; 57; 59; 42; 43; 48; 49; 50; 53; 57; 60;
   49; 47; 50; 53; 54; 57; 60; 62; 49; 47; 50; 53; 54; 57; 61; 63; 48; 46; 49; 54; 57; 60; 64; 65; 48; 46;
   49; 55; 58; 61; 65; 66; 49; 45; 48; 56; 61; 64; 67; 69; 49; 46; 49; 57; 62; 65; 69; 70; 50; 46; 49; 57;
   63; 67; 71; 73; 51; 47; 49; 58; 64; 69; 73; 74; 52; 48; 50; 58; 65; 71; 75; 77; 54; 49; 51; 59; 67; 73;
   77; 78; 54; 50; 51; 59; 67; 73; 78; 81; 57; 52; 52; 60; 69; 76; 82; 83; 57; 52; 53; 61; 69; 77; 82; 85;
   60; 54; 55; 62; 71; 79; 85; 87; 61; 55; 56; 63; 72; 80; 86; 88; 63; 57; 57; 64; 73; 82; 89; 92; 64; 58;
   58; 65; 73; 82; 89; 92; 64; 58; 58; 65; 74; 83; 90; 94; 66; 59; 59; 66; 75; 84; 91; 94; 67; 60; 59; 66;
   74; 82; 91; 96; 68; 61; 59; 65; 72; 81; 89; 95; 68; 62; 59; 65; 71; 79; 87; 95; 32; 31; 31; 30; 31; 33;
   35; 37; 41; 42; 49; 49; 48; 48; 49; 49; 50; 51; 52; 54; 54; 57; 57; 60; 61; 63; 64; 64; 66; 67; 68; 68;
   32; 33; 33; 33; 35; 37; 39; 41; 43; 43; 47; 47; 46; 46; 45; 46; 46; 47; 48; 49; 50; 52; 52; 54; 55; 57;
   58; 58; 59; 60; 61; 62; 40; 41; 41; 42; 43; 44; 46; 47; 48; 48; 50; 50; 49; 49; 48; 49; 49; 49; 50; 51;
   51; 52; 53; 55; 56; 57; 58; 58; 59; 59; 59; 59; 49; 47; 47; 45; 46; 46; 46; 46; 49; 49; 53; 53; 54; 55;
   56; 57; 57; 58; 58; 59; 59; 60; 61; 62; 63; 64; 65; 65; 66; 66; 65; 65; 51; 49; 49; 47; 47; 47; 47; 46;
   49; 50; 54; 54; 57; 58; 61; 62; 63; 64; 65; 67; 67; 69; 69; 71; 72; 73; 73; 74; 75; 74; 72; 71; 57; 54;
   54; 52; 51; 51; 50; 50; 52; 53; 57; 57; 60; 61; 64; 65; 67; 69; 71; 73; 73; 76; 77; 79; 80; 82; 82; 83;
   84; 82; 81; 79; 63; 60; 59; 57; 57; 56; 55; 54; 57; 57; 60; 61; 64; 65; 67; 69; 71; 73; 75; 77; 78; 82;
   82; 85; 86; 89; 89; 90; 91; 91; 89; 87; 67; 63; 63; 60; 60; 59; 58; 57; 59; 60; 62; 63; 65; 66; 69; 70;
   73; 74; 77; 78; 81; 83; 85; 87; 88; 92; 92; 94; 94; 96; 95; 95]];
 [[32; 34; 49; 72; 34; 48; 60; 79; 49; 60; 82; 104; 72; 79; 104; 134; 32; 32; 34; 38; 46; 56; 68; 78; 32;
   33; 35; 39; 45; 54; 64; 74; 34; 35; 39; 45; 51; 58; 68; 76; 38; 39; 45; 54; 61; 69; 78; 86; 46; 45; 51;
   61; 71; 80; 90; 99; 56; 54; 58; 69; 80; 92; 103; 113; 68; 64; 68; 78; 90; 103; 117; 128; 78; 74; 76;
   86; 99; 113; 128; 140; 32; 31; 31; 31; 32; 34; 36; 39; 44; 48; 54; 59; 65; 71; 80; 83; 31; 32; 32; 32;
   32; 34; 35; 38; 42; 46; 51; 56; 62; 68; 76; 78; 31; 32; 32; 32; 32; 33; 34; 37; 41; 44; 49; 54; 59; 65;
   72; 75; 31; 32; 32; 33; 34; 35; 36; 39; 42; 45; 50; 54; 59; 64; 71; 74; 32; 32; 32; 34; 35; 37; 38; 40;
   42; 46; 49; 53; 58; 63; 69; 72; 34; 34; 33; 35; 37; 39; 42; 45; 47; 51; 54; 58; 63; 68; 74; 76; 36; 35;
   34; 36; 38; 42; 48; 50; 54; 57; 60; 64; 68; 73; 79; 81; 39; 38; 37; 39; 40; 45; 50; 54; 58; 61; 65; 69;
   73; 78; 84; 86; 44; 42; 41; 42; 42; 47; 54; 58; 63; 67; 71; 75; 79; 84; 90; 92; 48; 46; 44; 45; 46; 51;
   57; 61; 67; 71; 76; 80; 85; 90; 96; 99; 54; 51; 49; 50; 49; 54; 60; 65; 71; 76; 82; 87; 92; 97; 104;
   106; 59; 56; 54; 54; 53; 58; 64; 69; 75; 80; 87; 92; 98; 103; 110; 113; 65; 62; 59; 59; 58; 63; 68; 73;
   79; 85; 92; 98; 105; 111; 118; 121; 71; 68; 65; 64; 63; 68; 73; 78; 84; 90; 97; 103; 111; 117; 125;
   128; 80; 76; 72; 71; 69; 74; 79; 84; 90; 96; 104; 110; 118; 125; 134; 137; 83; 78; 75; 74; 72; 76; 81;
   86; 92; 99; 106; 113; 121; 128; 137; 140; 32; 31; 31; 31; 31; 31; 31; 32; 32; 34; 34; 36; 36; 39; 39;
   44; 44; 48; 48; 54; 54; 59; 59; 65; 65; 71; 71; 80; 80; 83; 83; 87; 31; 32; 32; 32; 32; 32; 32; 32; 32;
   34; 34; 35; 35; 38; 38; 42; 42; 46; 46; 51; 51; 56; 56; 62; 62; 68; 68; 76; 76; 78; 78; 83; 31; 32; 32;
   32; 32; 32; 32; 32; 32; 34; 34; 35; 35; 38; 38; 42; 42; 46; 46; 51; 51; 56; 56; 62; 62; 68; 68; 76; 76;
   78; 78; 83; 31; 32; 32; 32; 32; 32; 32; 32; 32; 33; 33; 34; 34; 37; 37; 41; 41; 44; 44; 49; 49; 54; 54;
   59; 59; 65; 65; 72; 72; 75; 75; 79; 31; 32; 32; 32; 32; 32; 32; 32; 32; 33; 33; 34; 34; 37; 37; 41; 41;
   44; 44; 49; 49; 54; 54; 59; 59; 65; 65; 72; 72; 75; 75; 79; 31; 32; 32; 32; 32; 33; 33; 34; 34; 35; 35;
   36; 36; 39; 39; 42; 42; 45; 45; 50; 50; 54; 54; 59; 59; 64; 64; 71; 71; 74; 74; 77; 31; 32; 32; 32; 32;
   33; 33; 34; 34; 35; 35; 36; 36; 39; 39; 42; 42; 45; 45; 50; 50; 54; 54; 59; 59; 64; 64; 71; 71; 74; 74;
   77; 32; 32; 32; 32; 32; 34; 34; 35; 35; 37; 37; 38; 38; 40; 40; 42; 42; 46; 46; 49; 49; 53; 53; 58; 58;
   63; 63; 69; 69; 72; 72; 75; 32; 32; 32; 32; 32; 34; 34; 35; 35; 37; 37; 38; 38; 40; 40; 42; 42; 46; 46;
   49; 49; 53; 53; 58; 58; 63; 63; 69; 69; 72; 72; 75; 34; 34; 34; 33; 33; 35; 35; 37; 37; 39; 39; 42; 42;
   45; 45; 47; 47; 51; 51; 54; 54; 58; 58; 63; 63; 68; 68; 74; 74; 76; 76; 80; 34; 34; 34; 33; 33; 35; 35;
   37; 37; 39; 39; 42; 42; 45; 45; 47; 47; 51; 51; 54; 54; 58; 58; 63; 63; 68; 68; 74; 74; 76; 76; 80; 36;
   35; 35; 34; 34; 36; 36; 38; 38; 42; 42; 48; 48; 50; 50; 54; 54; 57; 57; 60; 60; 64; 64; 68; 68; 73; 73;
   79; 79; 81; 81; 84; 36; 35; 35; 34; 34; 36; 36; 38; 38; 42; 42; 48; 48; 50; 50; 54; 54; 57; 57; 60; 60;
   64; 64; 68; 68; 73; 73; 79; 79; 81; 81; 84; 39; 38; 38; 37; 37; 39; 39; 40; 40; 45; 45; 50; 50; 54; 54;
   58; 58; 61; 61; 65; 65; 69; 69; 73; 73; 78; 78; 84; 84; 86; 86; 90; 39; 38; 38; 37; 37; 39; 39; 40; 40;
   45; 45; 50; 50; 54; 54; 58; 58; 61; 61; 65; 65; 69; 69; 73; 73; 78; 78; 84; 84; 86; 86; 90; 44; 42; 42;
   41; 41; 42; 42; 42; 42; 47; 47; 54; 54; 58; 58; 63; 63; 67; 67; 71; 71; 75; 75; 79; 79; 84; 84; 90; 90;
   92; 92; 96; 44; 42; 42; 41; 41; 42; 42; 42; 42; 47; 47; 54; 54; 58; 58; 63; 63; 67; 67; 71; 71; 75; 75;
   79; 79; 84; 84; 90; 90; 92; 92; 96; 48; 46; 46; 44; 44; 45; 45; 46; 46; 51; 51; 57; 57; 61; 61; 67; 67;
   71; 71; 76; 76; 80; 80; 85; 85; 90; 90; 96; 96; 99; 99; 102; 48; 46; 46; 44; 44; 45; 45; 46; 46; 51;
   51; 57; 57; 61; 61; 67; 67; 71; 71; 76; 76; 80; 80; 85; 85; 90; 90; 96; 96; 99; 99; 102; 54; 51; 51;
   49; 49; 50; 50; 49; 49; 54; 54; 60; 60; 65; 65; 71; 71; 76; 76; 82; 82; 87; 87; 92; 92; 97; 97; 104;
   104; 106; 106; 109; 54; 51; 51; 49; 49; 50; 50; 49; 49; 54; 54; 60; 60; 65; 65; 71; 71; 76; 76; 82; 82;
   87; 87; 92; 92; 97; 97; 104; 104; 106; 106; 109; 59; 56; 56; 54; 54; 54; 54; 53; 53; 58; 58; 64; 64;
   69; 69; 75; 75; 80; 80; 87; 87; 92; 92; 98; 98; 103; 103; 110; 110; 113; 113; 116; 59; 56; 56; 54; 54;
   54; 54; 53; 53; 58; 58; 64; 64; 69; 69; 75; 75; 80; 80; 87; 87; 92; 92; 98; 98; 103; 103; 110; 110;
   113; 113; 116; 65; 62; 62; 59; 59; 59; 59; 58; 58; 63; 63; 68; 68; 73; 73; 79; 79; 85; 85; 92; 92; 98;
   98; 105; 105; 111; 111; 118; 118; 121; 121; 124; 65; 62; 62; 59; 59; 59; 59; 58; 58; 63; 63; 68; 68;
   73; 73; 79; 79; 85; 85; 92; 92; 98; 98; 105; 105; 111; 111; 118; 118; 121; 121; 124; 71; 68; 68; 65;
   65; 64; 64; 63; 63; 68; 68; 73; 73; 78; 78; 84; 84; 90; 90; 97; 97; 103; 103; 111; 111; 117; 117; 125;
   125; 128; 128; 132; 71; 68; 68; 65; 65; 64; 64; 63; 63; 68; 68; 73; 73; 78; 78; 84; 84; 90; 90; 97; 97;
   103; 103; 111; 111; 117; 117; 125; 125; 128; 128; 132; 80; 76; 76; 72; 72; 71; 71; 69; 69; 74; 74; 79;
   79; 84; 84; 90; 90; 96; 96; 104; 104; 110; 110; 118; 118; 125; 125; 134; 134; 137; 137; 141; 80; 76;
   76; 72; 72; 71; 71; 69; 69; 74; 74; 79; 79; 84; 84; 90; 90; 96; 96; 104; 104; 110; 110; 118; 118; 125;
   125; 134; 134; 137; 137; 141; 83; 78; 78; 75; 75; 74; 74; 72; 72; 76; 76; 81; 81; 86; 86; 92; 92; 99;
   99; 106; 106; 113; 113; 121; 121; 128; 128; 137; 137; 140; 140; 144; 83; 78; 78; 75; 75; 74; 74; 72;
   72; 76; 76; 81; 81; 86; 86; 92; 92; 99; 99; 106; 106; 113; 113; 121; 121; 128; 128; 137; 137; 140; 140;
   144; 87; 83; 83; 79; 79; 77; 77; 75; 75; 80; 80; 84; 84; 90; 90; 96; 96; 102; 102; 109; 109; 116; 116;
   124; 124; 132; 132; 141; 141; 144; 144; 149; 32; 35; 51; 75; 32; 36; 50; 71; 34; 42; 54; 73; 37; 50;
   65; 84; 45; 56; 76; 96; 54; 63; 87; 110; 65; 73; 97; 125; 75; 81; 106; 136; 32; 32; 34; 37; 45; 54; 65;
   75; 35; 36; 42; 50; 56; 63; 73; 81; 51; 50; 54; 65; 76; 87; 97; 106; 75; 71; 73; 84; 96; 110; 125; 136;
   32; 31; 32; 36; 44; 53; 65; 79; 31; 32; 32; 35; 42; 51; 62; 75; 31; 32; 33; 34; 41; 49; 59; 72; 32; 32;
   34; 36; 42; 50; 59; 71; 32; 33; 35; 38; 42; 49; 58; 69; 34; 34; 37; 42; 48; 54; 63; 73; 36; 34; 38; 48;
   54; 60; 68; 78; 39; 37; 40; 50; 58; 65; 73; 84; 44; 41; 43; 53; 63; 71; 79; 90; 48; 45; 46; 56; 67; 76;
   85; 96; 53; 49; 50; 60; 71; 82; 92; 103; 58; 54; 54; 63; 75; 87; 98; 110; 65; 60; 58; 68; 79; 92; 105;
   118; 71; 65; 63; 73; 84; 97; 111; 125; 79; 72; 70; 79; 90; 104; 118; 133; 82; 75; 72; 81; 92; 106; 121;
   136; 32; 31; 31; 32; 32; 34; 36; 39; 44; 48; 53; 58; 65; 71; 79; 82; 31; 32; 32; 32; 33; 34; 34; 37;
   41; 45; 49; 54; 60; 65; 72; 75; 32; 32; 33; 34; 35; 37; 38; 40; 43; 46; 50; 54; 58; 63; 70; 72; 36; 35;
   34; 36; 38; 42; 48; 50; 53; 56; 60; 63; 68; 73; 79; 81; 44; 42; 41; 42; 42; 48; 54; 58; 63; 67; 71; 75;
   79; 84; 90; 92; 53; 51; 49; 50; 49; 54; 60; 65; 71; 76; 82; 87; 92; 97; 104; 106; 65; 62; 59; 59; 58;
   63; 68; 73; 79; 85; 92; 98; 105; 111; 118; 121; 79; 75; 72; 71; 69; 73; 78; 84; 90; 96; 103; 110; 118;
   125; 133; 136; 32; 31; 31; 32; 32; 36; 36; 44; 44; 53; 53; 65; 65; 79; 79; 87; 31; 32; 32; 32; 32; 35;
   35; 42; 42; 51; 51; 62; 62; 75; 75; 82; 31; 32; 32; 32; 32; 35; 35; 42; 42; 51; 51; 62; 62; 75; 75; 82;
   31; 32; 32; 33; 33; 34; 34; 41; 41; 49; 49; 59; 59; 72; 72; 78; 31; 32; 32; 33; 33; 34; 34; 41; 41; 49;
   49; 59; 59; 72; 72; 78; 32; 32; 32; 34; 34; 36; 36; 42; 42; 50; 50; 59; 59; 71; 71; 77; 32; 32; 32; 34;
   34; 36; 36; 42; 42; 50; 50; 59; 59; 71; 71; 77; 32; 33; 33; 35; 35; 38; 38; 42; 42; 49; 49; 58; 58; 69;
   69; 75; 32; 33; 33; 35; 35; 38; 38; 42; 42; 49; 49; 58; 58; 69; 69; 75; 34; 34; 34; 37; 37; 42; 42; 48;
   48; 54; 54; 63; 63; 73; 73; 79; 34; 34; 34; 37; 37; 42; 42; 48; 48; 54; 54; 63; 63; 73; 73; 79; 36; 34;
   34; 38; 38; 48; 48; 54; 54; 60; 60; 68; 68; 78; 78; 84; 36; 34; 34; 38; 38; 48; 48; 54; 54; 60; 60; 68;
   68; 78; 78; 84; 39; 37; 37; 40; 40; 50; 50; 58; 58; 65; 65; 73; 73; 84; 84; 89; 39; 37; 37; 40; 40; 50;
   50; 58; 58; 65; 65; 73; 73; 84; 84; 89; 44; 41; 41; 43; 43; 53; 53; 63; 63; 71; 71; 79; 79; 90; 90; 95;
   44; 41; 41; 43; 43; 53; 53; 63; 63; 71; 71; 79; 79; 90; 90; 95; 48; 45; 45; 46; 46; 56; 56; 67; 67; 76;
   76; 85; 85; 96; 96; 102; 48; 45; 45; 46; 46; 56; 56; 67; 67; 76; 76; 85; 85; 96; 96; 102; 53; 49; 49;
   50; 50; 60; 60; 71; 71; 82; 82; 92; 92; 103; 103; 109; 53; 49; 49; 50; 50; 60; 60; 71; 71; 82; 82; 92;
   92; 103; 103; 109; 58; 54; 54; 54; 54; 63; 63; 75; 75; 87; 87; 98; 98; 110; 110; 116; 58; 54; 54; 54;
   54; 63; 63; 75; 75; 87; 87; 98; 98; 110; 110; 116; 65; 60; 60; 58; 58; 68; 68; 79; 79; 92; 92; 105;
   105; 118; 118; 124; 65; 60; 60; 58; 58; 68; 68; 79; 79; 92; 92; 105; 105; 118; 118; 124; 71; 65; 65;
   63; 63; 73; 73; 84; 84; 97; 97; 111; 111; 125; 125; 132; 71; 65; 65; 63; 63; 73; 73; 84; 84; 97; 97;
   111; 111; 125; 125; 132; 79; 72; 72; 70; 70; 79; 79; 90; 90; 104; 104; 118; 118; 133; 133; 141; 79; 72;
   72; 70; 70; 79; 79; 90; 90; 104; 104; 118; 118; 133; 133; 141; 82; 75; 75; 72; 72; 81; 81; 92; 92; 106;
   106; 121; 121; 136; 136; 144; 82; 75; 75; 72; 72; 81; 81; 92; 92; 106; 106; 121; 121; 136; 136; 144;
   87; 79; 79; 76; 76; 84; 84; 96; 96; 109; 109; 124; 124; 141; 141; 149; 32; 31; 31; 31; 31; 32; 32; 32;
   32; 34; 34; 36; 36; 39; 39; 44; 44; 48; 48; 53; 53; 58; 58; 65; 65; 71; 71; 79; 79; 82; 82; 87; 31; 32;
   32; 32; 32; 32; 32; 33; 33; 34; 34; 34; 34; 37; 37; 41; 41; 45; 45; 49; 49; 54; 54; 60; 60; 65; 65; 72;
   72; 75; 75; 79; 31; 32; 32; 32; 32; 32; 32; 33; 33; 34; 34; 34; 34; 37; 37; 41; 41; 45; 45; 49; 49; 54;
   54; 60; 60; 65; 65; 72; 72; 75; 75; 79; 32; 32; 32; 33; 33; 34; 34; 35; 35; 37; 37; 38; 38; 40; 40; 43;
   43; 46; 46; 50; 50; 54; 54; 58; 58; 63; 63; 70; 70; 72; 72; 76; 32; 32; 32; 33; 33; 34; 34; 35; 35; 37;
   37; 38; 38; 40; 40; 43; 43; 46; 46; 50; 50; 54; 54; 58; 58; 63; 63; 70; 70; 72; 72; 76; 36; 35; 35; 34;
   34; 36; 36; 38; 38; 42; 42; 48; 48; 50; 50; 53; 53; 56; 56; 60; 60; 63; 63; 68; 68; 73; 73; 79; 79; 81;
   81; 84; 36; 35; 35; 34; 34; 36; 36; 38; 38; 42; 42; 48; 48; 50; 50; 53; 53; 56; 56; 60; 60; 63; 63; 68;
   68; 73; 73; 79; 79; 81; 81; 84; 44; 42; 42; 41; 41; 42; 42; 42; 42; 48; 48; 54; 54; 58; 58; 63; 63; 67;
   67; 71; 71; 75; 75; 79; 79; 84; 84; 90; 90; 92; 92; 96; 44; 42; 42; 41; 41; 42; 42; 42; 42; 48; 48; 54;
   54; 58; 58; 63; 63; 67; 67; 71; 71; 75; 75; 79; 79; 84; 84; 90; 90; 92; 92; 96; 53; 51; 51; 49; 49; 50;
   50; 49; 49; 54; 54; 60; 60; 65; 65; 71; 71; 76; 76; 82; 82; 87; 87; 92; 92; 97; 97; 104; 104; 106; 106;
   109; 53; 51; 51; 49; 49; 50; 50; 49; 49; 54; 54; 60; 60; 65; 65; 71; 71; 76; 76; 82; 82; 87; 87; 92;
   92; 97; 97; 104; 104; 106; 106; 109; 65; 62; 62; 59; 59; 59; 59; 58; 58; 63; 63; 68; 68; 73; 73; 79;
   79; 85; 85; 92; 92; 98; 98; 105; 105; 111; 111; 118; 118; 121; 121; 124; 65; 62; 62; 59; 59; 59; 59;
   58; 58; 63; 63; 68; 68; 73; 73; 79; 79; 85; 85; 92; 92; 98; 98; 105; 105; 111; 111; 118; 118; 121; 121;
   124; 79; 75; 75; 72; 72; 71; 71; 69; 69; 73; 73; 78; 78; 84; 84; 90; 90; 96; 96; 103; 103; 110; 110;
   118; 118; 125; 125; 133; 133; 136; 136; 141; 79; 75; 75; 72; 72; 71; 71; 69; 69; 73; 73; 78; 78; 84;
   84; 90; 90; 96; 96; 103; 103; 110; 110; 118; 118; 125; 125; 133; 133; 136; 136; 141; 87; 82; 82; 78;
   78; 77; 77; 75; 75; 79; 79; 84; 84; 89; 89; 95; 95; 102; 102; 109; 109; 116; 116; 124; 124; 132; 132;
   141; 141; 144; 144; 149; 31; 36; 53; 79; 32; 35; 51; 75; 32; 34; 49; 72; 32; 36; 50; 71; 33; 38; 49;
   69; 34; 42; 54; 73; 34; 48; 60; 78; 37; 50; 65; 84; 41; 53; 71; 90; 45; 56; 76; 96; 49; 60; 82; 103;
   54; 63; 87; 110; 60; 68; 92; 118; 65; 73; 97; 125; 72; 79; 104; 133; 75; 81; 106; 136; 31; 32; 32; 32;
   33; 34; 34; 37; 41; 45; 49; 54; 60; 65; 72; 75; 36; 35; 34; 36; 38; 42; 48; 50; 53; 56; 60; 63; 68; 73;
   79; 81; 53; 51; 49; 50; 49; 54; 60; 65; 71; 76; 82; 87; 92; 97; 104; 106; 79; 75; 72; 71; 69; 73; 78;
   84; 90; 96; 103; 110; 118; 125; 133; 136; 32; 31; 32; 36; 44; 53; 65; 79; 31; 32; 32; 35; 42; 51; 62;
   75; 31; 32; 32; 35; 42; 51; 62; 75; 31; 32; 33; 34; 41; 49; 59; 72; 31; 32; 33; 34; 41; 49; 59; 72; 32;
   32; 34; 36; 42; 50; 59; 71; 32; 32; 34; 36; 42; 50; 59; 71; 32; 33; 35; 38; 42; 49; 58; 69; 32; 33; 35;
   38; 42; 49; 58; 69; 34; 34; 37; 42; 48; 54; 63; 73; 34; 34; 37; 42; 48; 54; 63; 73; 36; 34; 38; 48; 54;
   60; 68; 78; 36; 34; 38; 48; 54; 60; 68; 78; 39; 37; 40; 50; 58; 65; 73; 84; 39; 37; 40; 50; 58; 65; 73;
   84; 44; 41; 43; 53; 63; 71; 79; 90; 44; 41; 43; 53; 63; 71; 79; 90; 48; 45; 46; 56; 67; 76; 85; 96; 48;
   45; 46; 56; 67; 76; 85; 96; 53; 49; 50; 60; 71; 82; 92; 103; 53; 49; 50; 60; 71; 82; 92; 103; 58; 54;
   54; 63; 75; 87; 98; 110; 58; 54; 54; 63; 75; 87; 98; 110; 65; 60; 58; 68; 79; 92; 105; 118; 65; 60; 58;
   68; 79; 92; 105; 118; 71; 65; 63; 73; 84; 97; 111; 125; 71; 65; 63; 73; 84; 97; 111; 125; 79; 72; 70;
   79; 90; 104; 118; 133; 79; 72; 70; 79; 90; 104; 118; 133; 82; 75; 72; 81; 92; 106; 121; 136; 82; 75;
   72; 81; 92; 106; 121; 136; 87; 79; 76; 84; 96; 109; 124; 141; 32; 31; 31; 31; 31; 32; 32; 32; 32; 34;
   34; 36; 36; 39; 39; 44; 44; 48; 48; 53; 53; 58; 58; 65; 65; 71; 71; 79; 79; 82; 82; 87; 31; 32; 32; 32;
   32; 32; 32; 33; 33; 34; 34; 34; 34; 37; 37; 41; 41; 45; 45; 49; 49; 54; 54; 60; 60; 65; 65; 72; 72; 75;
   75; 79; 32; 32; 32; 33; 33; 34; 34; 35; 35; 37; 37; 38; 38; 40; 40; 43; 43; 46; 46; 50; 50; 54; 54; 58;
   58; 63; 63; 70; 70; 72; 72; 76; 36; 35; 35; 34; 34; 36; 36; 38; 38; 42; 42; 48; 48; 50; 50; 53; 53; 56;
   56; 60; 60; 63; 63; 68; 68; 73; 73; 79; 79; 81; 81; 84; 44; 42; 42; 41; 41; 42; 42; 42; 42; 48; 48; 54;
   54; 58; 58; 63; 63; 67; 67; 71; 71; 75; 75; 79; 79; 84; 84; 90; 90; 92; 92; 96; 53; 51; 51; 49; 49; 50;
   50; 49; 49; 54; 54; 60; 60; 65; 65; 71; 71; 76; 76; 82; 82; 87; 87; 92; 92; 97; 97; 104; 104; 106; 106;
   109; 65; 62; 62; 59; 59; 59; 59; 58; 58; 63; 63; 68; 68; 73; 73; 79; 79; 85; 85; 92; 92; 98; 98; 105;
   105; 111; 111; 118; 118; 121; 121; 124; 79; 75; 75; 72; 72; 71; 71; 69; 69; 73; 73; 78; 78; 84; 84; 90;
   90; 96; 96; 103; 103; 110; 110; 118; 118; 125; 125; 133; 133; 136; 136; 141];
 [32; 46; 47; 57; 46; 53; 54; 60; 47; 54; 66; 75; 57; 60; 75; 89; 31; 34; 42; 47; 48; 52; 57; 61; 34; 39;
   45; 46; 46; 49; 53; 57; 42; 45; 48; 49; 50; 52; 55; 58; 47; 46; 49; 54; 56; 58; 61; 64; 48; 46; 50; 56;
   61; 65; 68; 71; 52; 49; 52; 58; 65; 71; 75; 79; 57; 53; 55; 61; 68; 75; 82; 86; 61; 57; 58; 64; 71; 79;
   86; 91; 32; 31; 30; 33; 36; 41; 49; 48; 49; 50; 52; 54; 57; 60; 63; 65; 31; 31; 31; 34; 38; 42; 47; 47;
   47; 48; 50; 52; 54; 57; 60; 61; 30; 31; 32; 35; 40; 42; 46; 45; 45; 46; 47; 49; 52; 54; 57; 58; 33; 34;
   35; 39; 43; 45; 47; 46; 45; 46; 47; 49; 51; 53; 56; 57; 36; 38; 40; 43; 47; 47; 48; 46; 45; 46; 47; 48;
   50; 52; 54; 55; 41; 42; 42; 45; 47; 48; 50; 49; 49; 50; 50; 52; 53; 55; 57; 58; 49; 47; 46; 47; 48; 50;
   53; 53; 53; 54; 54; 55; 56; 58; 60; 61; 48; 47; 45; 46; 46; 49; 53; 54; 55; 56; 57; 58; 60; 61; 63; 64;
   49; 47; 45; 45; 45; 49; 53; 55; 58; 60; 61; 62; 63; 65; 67; 68; 50; 48; 46; 46; 46; 50; 54; 56; 60; 61;
   63; 65; 67; 68; 71; 71; 52; 50; 47; 47; 47; 50; 54; 57; 61; 63; 66; 68; 70; 72; 75; 75; 54; 52; 49; 49;
   48; 52; 55; 58; 62; 65; 68; 71; 73; 75; 78; 79; 57; 54; 52; 51; 50; 53; 56; 60; 63; 67; 70; 73; 76; 79;
   82; 83; 60; 57; 54; 53; 52; 55; 58; 61; 65; 68; 72; 75; 79; 82; 85; 86; 63; 60; 57; 56; 54; 57; 60; 63;
   67; 71; 75; 78; 82; 85; 89; 90; 65; 61; 58; 57; 55; 58; 61; 64; 68; 71; 75; 79; 83; 86; 90; 91; 32; 31;
   31; 30; 30; 33; 33; 36; 36; 41; 41; 49; 49; 48; 48; 49; 49; 50; 50; 52; 52; 54; 54; 57; 57; 60; 60; 63;
   63; 65; 65; 67; 31; 31; 31; 31; 31; 34; 34; 38; 38; 42; 42; 47; 47; 47; 47; 47; 47; 48; 48; 50; 50; 52;
   52; 54; 54; 57; 57; 60; 60; 61; 61; 63; 31; 31; 31; 31; 31; 34; 34; 38; 38; 42; 42; 47; 47; 47; 47; 47;
   47; 48; 48; 50; 50; 52; 52; 54; 54; 57; 57; 60; 60; 61; 61; 63; 30; 31; 31; 32; 32; 35; 35; 40; 40; 42;
   42; 46; 46; 45; 45; 45; 45; 46; 46; 47; 47; 49; 49; 52; 52; 54; 54; 57; 57; 58; 58; 60; 30; 31; 31; 32;
   32; 35; 35; 40; 40; 42; 42; 46; 46; 45; 45; 45; 45; 46; 46; 47; 47; 49; 49; 52; 52; 54; 54; 57; 57; 58;
   58; 60; 33; 34; 34; 35; 35; 39; 39; 43; 43; 45; 45; 47; 47; 46; 46; 45; 45; 46; 46; 47; 47; 49; 49; 51;
   51; 53; 53; 56; 56; 57; 57; 59; 33; 34; 34; 35; 35; 39; 39; 43; 43; 45; 45; 47; 47; 46; 46; 45; 45; 46;
   46; 47; 47; 49; 49; 51; 51; 53; 53; 56; 56; 57; 57; 59; 36; 38; 38; 40; 40; 43; 43; 47; 47; 47; 47; 48;
   48; 46; 46; 45; 45; 46; 46; 47; 47; 48; 48; 50; 50; 52; 52; 54; 54; 55; 55; 57; 36; 38; 38; 40; 40; 43;
   43; 47; 47; 47; 47; 48; 48; 46; 46; 45; 45; 46; 46; 47; 47; 48; 48; 50; 50; 52; 52; 54; 54; 55; 55; 57;
   41; 42; 42; 42; 42; 45; 45; 47; 47; 48; 48; 50; 50; 49; 49; 49; 49; 50; 50; 50; 50; 52; 52; 53; 53; 55;
   55; 57; 57; 58; 58; 60; 41; 42; 42; 42; 42; 45; 45; 47; 47; 48; 48; 50; 50; 49; 49; 49; 49; 50; 50; 50;
   50; 52; 52; 53; 53; 55; 55; 57; 57; 58; 58; 60; 49; 47; 47; 46; 46; 47; 47; 48; 48; 50; 50; 53; 53; 53;
   53; 53; 53; 54; 54; 54; 54; 55; 55; 56; 56; 58; 58; 60; 60; 61; 61; 62; 49; 47; 47; 46; 46; 47; 47; 48;
   48; 50; 50; 53; 53; 53; 53; 53; 53; 54; 54; 54; 54; 55; 55; 56; 56; 58; 58; 60; 60; 61; 61; 62; 48; 47;
   47; 45; 45; 46; 46; 46; 46; 49; 49; 53; 53; 54; 54; 55; 55; 56; 56; 57; 57; 58; 58; 60; 60; 61; 61; 63;
   63; 64; 64; 66; 48; 47; 47; 45; 45; 46; 46; 46; 46; 49; 49; 53; 53; 54; 54; 55; 55; 56; 56; 57; 57; 58;
   58; 60; 60; 61; 61; 63; 63; 64; 64; 66; 49; 47; 47; 45; 45; 45; 45; 45; 45; 49; 49; 53; 53; 55; 55; 58;
   58; 60; 60; 61; 61; 62; 62; 63; 63; 65; 65; 67; 67; 68; 68; 69; 49; 47; 47; 45; 45; 45; 45; 45; 45; 49;
   49; 53; 53; 55; 55; 58; 58; 60; 60; 61; 61; 62; 62; 63; 63; 65; 65; 67; 67; 68; 68; 69; 50; 48; 48; 46;
   46; 46; 46; 46; 46; 50; 50; 54; 54; 56; 56; 60; 60; 61; 61; 63; 63; 65; 65; 67; 67; 68; 68; 71; 71; 71;
   71; 72; 50; 48; 48; 46; 46; 46; 46; 46; 46; 50; 50; 54; 54; 56; 56; 60; 60; 61; 61; 63; 63; 65; 65; 67;
   67; 68; 68; 71; 71; 71; 71; 72; 52; 50; 50; 47; 47; 47; 47; 47; 47; 50; 50; 54; 54; 57; 57; 61; 61; 63;
   63; 66; 66; 68; 68; 70; 70; 72; 72; 75; 75; 75; 75; 76; 52; 50; 50; 47; 47; 47; 47; 47; 47; 50; 50; 54;
   54; 57; 57; 61; 61; 63; 63; 66; 66; 68; 68; 70; 70; 72; 72; 75; 75; 75; 75; 76; 54; 52; 52; 49; 49; 49;
   49; 48; 48; 52; 52; 55; 55; 58; 58; 62; 62; 65; 65; 68; 68; 71; 71; 73; 73; 75; 75; 78; 78; 79; 79; 80;
   54; 52; 52; 49; 49; 49; 49; 48; 48; 52; 52; 55; 55; 58; 58; 62; 62; 65; 65; 68; 68; 71; 71; 73; 73; 75;
   75; 78; 78; 79; 79; 80; 57; 54; 54; 52; 52; 51; 51; 50; 50; 53; 53; 56; 56; 60; 60; 63; 63; 67; 67; 70;
   70; 73; 73; 76; 76; 79; 79; 82; 82; 83; 83; 84; 57; 54; 54; 52; 52; 51; 51; 50; 50; 53; 53; 56; 56; 60;
   60; 63; 63; 67; 67; 70; 70; 73; 73; 76; 76; 79; 79; 82; 82; 83; 83; 84; 60; 57; 57; 54; 54; 53; 53; 52;
   52; 55; 55; 58; 58; 61; 61; 65; 65; 68; 68; 72; 72; 75; 75; 79; 79; 82; 82; 85; 85; 86; 86; 88; 60; 57;
   57; 54; 54; 53; 53; 52; 52; 55; 55; 58; 58; 61; 61; 65; 65; 68; 68; 72; 72; 75; 75; 79; 79; 82; 82; 85;
   85; 86; 86; 88; 63; 60; 60; 57; 57; 56; 56; 54; 54; 57; 57; 60; 60; 63; 63; 67; 67; 71; 71; 75; 75; 78;
   78; 82; 82; 85; 85; 89; 89; 90; 90; 92; 63; 60; 60; 57; 57; 56; 56; 54; 54; 57; 57; 60; 60; 63; 63; 67;
   67; 71; 71; 75; 75; 78; 78; 82; 82; 85; 85; 89; 89; 90; 90; 92; 65; 61; 61; 58; 58; 57; 57; 55; 55; 58;
   58; 61; 61; 64; 64; 68; 68; 71; 71; 75; 75; 79; 79; 83; 83; 86; 86; 90; 90; 91; 91; 93; 65; 61; 61; 58;
   58; 57; 57; 55; 55; 58; 58; 61; 61; 64; 64; 68; 68; 71; 71; 75; 75; 79; 79; 83; 83; 86; 86; 90; 90; 91;
   91; 93; 67; 63; 63; 60; 60; 59; 59; 57; 57; 60; 60; 62; 62; 66; 66; 69; 69; 72; 72; 76; 76; 80; 80; 84;
   84; 88; 88; 92; 92; 93; 93; 95; 31; 47; 50; 60; 36; 47; 47; 56; 43; 50; 50; 57; 46; 53; 57; 64; 46; 54;
   64; 71; 50; 55; 68; 78; 54; 58; 72; 85; 59; 61; 75; 90; 31; 36; 43; 46; 46; 50; 54; 59; 47; 47; 50; 53;
   54; 55; 58; 61; 50; 47; 50; 57; 64; 68; 72; 75; 60; 56; 57; 64; 71; 78; 85; 90; 32; 31; 37; 48; 49; 52;
   57; 63; 31; 31; 38; 47; 47; 50; 54; 60; 30; 32; 40; 46; 45; 48; 52; 57; 33; 36; 43; 47; 46; 47; 51; 56;
   37; 40; 47; 47; 45; 47; 50; 54; 42; 43; 47; 50; 49; 50; 53; 57; 49; 46; 48; 53; 53; 54; 57; 60; 48; 46;
   47; 53; 56; 57; 60; 64; 49; 45; 46; 53; 58; 61; 64; 67; 50; 46; 46; 54; 59; 64; 67; 71; 52; 48; 47; 54;
   61; 66; 71; 75; 54; 50; 49; 55; 62; 68; 73; 78; 57; 52; 50; 56; 64; 70; 76; 82; 60; 54; 52; 58; 65; 72;
   79; 85; 63; 57; 55; 60; 67; 75; 82; 89; 64; 59; 56; 61; 68; 75; 83; 90; 32; 31; 30; 33; 37; 42; 49; 48;
   49; 50; 52; 54; 57; 60; 63; 64; 31; 31; 32; 36; 40; 43; 46; 46; 45; 46; 48; 50; 52; 54; 57; 59; 37; 38;
   40; 43; 47; 47; 48; 47; 46; 46; 47; 49; 50; 52; 55; 56; 48; 47; 46; 47; 47; 50; 53; 53; 53; 54; 54; 55;
   56; 58; 60; 61; 49; 47; 45; 46; 45; 49; 53; 56; 58; 59; 61; 62; 64; 65; 67; 68; 52; 50; 48; 47; 47; 50;
   54; 57; 61; 64; 66; 68; 70; 72; 75; 75; 57; 54; 52; 51; 50; 53; 57; 60; 64; 67; 71; 73; 76; 79; 82; 83;
   63; 60; 57; 56; 54; 57; 60; 64; 67; 71; 75; 78; 82; 85; 89; 90; 32; 31; 31; 37; 37; 48; 48; 49; 49; 52;
   52; 57; 57; 63; 63; 66; 31; 31; 31; 38; 38; 47; 47; 47; 47; 50; 50; 54; 54; 60; 60; 63; 31; 31; 31; 38;
   38; 47; 47; 47; 47; 50; 50; 54; 54; 60; 60; 63; 30; 32; 32; 40; 40; 46; 46; 45; 45; 48; 48; 52; 52; 57;
   57; 60; 30; 32; 32; 40; 40; 46; 46; 45; 45; 48; 48; 52; 52; 57; 57; 60; 33; 36; 36; 43; 43; 47; 47; 46;
   46; 47; 47; 51; 51; 56; 56; 59; 33; 36; 36; 43; 43; 47; 47; 46; 46; 47; 47; 51; 51; 56; 56; 59; 37; 40;
   40; 47; 47; 47; 47; 45; 45; 47; 47; 50; 50; 54; 54; 57; 37; 40; 40; 47; 47; 47; 47; 45; 45; 47; 47; 50;
   50; 54; 54; 57; 42; 43; 43; 47; 47; 50; 50; 49; 49; 50; 50; 53; 53; 57; 57; 60; 42; 43; 43; 47; 47; 50;
   50; 49; 49; 50; 50; 53; 53; 57; 57; 60; 49; 46; 46; 48; 48; 53; 53; 53; 53; 54; 54; 57; 57; 60; 60; 62;
   49; 46; 46; 48; 48; 53; 53; 53; 53; 54; 54; 57; 57; 60; 60; 62; 48; 46; 46; 47; 47; 53; 53; 56; 56; 57;
   57; 60; 60; 64; 64; 66; 48; 46; 46; 47; 47; 53; 53; 56; 56; 57; 57; 60; 60; 64; 64; 66; 49; 45; 45; 46;
   46; 53; 53; 58; 58; 61; 61; 64; 64; 67; 67; 69; 49; 45; 45; 46; 46; 53; 53; 58; 58; 61; 61; 64; 64; 67;
   67; 69; 50; 46; 46; 46; 46; 54; 54; 59; 59; 64; 64; 67; 67; 71; 71; 73; 50; 46; 46; 46; 46; 54; 54; 59;
   59; 64; 64; 67; 67; 71; 71; 73; 52; 48; 48; 47; 47; 54; 54; 61; 61; 66; 66; 71; 71; 75; 75; 77; 52; 48;
   48; 47; 47; 54; 54; 61; 61; 66; 66; 71; 71; 75; 75; 77; 54; 50; 50; 49; 49; 55; 55; 62; 62; 68; 68; 73;
   73; 78; 78; 80; 54; 50; 50; 49; 49; 55; 55; 62; 62; 68; 68; 73; 73; 78; 78; 80; 57; 52; 52; 50; 50; 56;
   56; 64; 64; 70; 70; 76; 76; 82; 82; 84; 57; 52; 52; 50; 50; 56; 56; 64; 64; 70; 70; 76; 76; 82; 82; 84;
   60; 54; 54; 52; 52; 58; 58; 65; 65; 72; 72; 79; 79; 85; 85; 88; 60; 54; 54; 52; 52; 58; 58; 65; 65; 72;
   72; 79; 79; 85; 85; 88; 63; 57; 57; 55; 55; 60; 60; 67; 67; 75; 75; 82; 82; 89; 89; 92; 63; 57; 57; 55;
   55; 60; 60; 67; 67; 75; 75; 82; 82; 89; 89; 92; 64; 59; 59; 56; 56; 61; 61; 68; 68; 75; 75; 83; 83; 90;
   90; 93; 64; 59; 59; 56; 56; 61; 61; 68; 68; 75; 75; 83; 83; 90; 90; 93; 66; 60; 60; 57; 57; 63; 63; 69;
   69; 77; 77; 84; 84; 92; 92; 95; 32; 31; 31; 30; 30; 33; 33; 37; 37; 42; 42; 49; 49; 48; 48; 49; 49; 50;
   50; 52; 52; 54; 54; 57; 57; 60; 60; 63; 63; 64; 64; 66; 31; 31; 31; 32; 32; 36; 36; 40; 40; 43; 43; 46;
   46; 46; 46; 45; 45; 46; 46; 48; 48; 50; 50; 52; 52; 54; 54; 57; 57; 59; 59; 60; 31; 31; 31; 32; 32; 36;
   36; 40; 40; 43; 43; 46; 46; 46; 46; 45; 45; 46; 46; 48; 48; 50; 50; 52; 52; 54; 54; 57; 57; 59; 59; 60;
   37; 38; 38; 40; 40; 43; 43; 47; 47; 47; 47; 48; 48; 47; 47; 46; 46; 46; 46; 47; 47; 49; 49; 50; 50; 52;
   52; 55; 55; 56; 56; 57; 37; 38; 38; 40; 40; 43; 43; 47; 47; 47; 47; 48; 48; 47; 47; 46; 46; 46; 46; 47;
   47; 49; 49; 50; 50; 52; 52; 55; 55; 56; 56; 57; 48; 47; 47; 46; 46; 47; 47; 47; 47; 50; 50; 53; 53; 53;
   53; 53; 53; 54; 54; 54; 54; 55; 55; 56; 56; 58; 58; 60; 60; 61; 61; 63; 48; 47; 47; 46; 46; 47; 47; 47;
   47; 50; 50; 53; 53; 53; 53; 53; 53; 54; 54; 54; 54; 55; 55; 56; 56; 58; 58; 60; 60; 61; 61; 63; 49; 47;
   47; 45; 45; 46; 46; 45; 45; 49; 49; 53; 53; 56; 56; 58; 58; 59; 59; 61; 61; 62; 62; 64; 64; 65; 65; 67;
   67; 68; 68; 69; 49; 47; 47; 45; 45; 46; 46; 45; 45; 49; 49; 53; 53; 56; 56; 58; 58; 59; 59; 61; 61; 62;
   62; 64; 64; 65; 65; 67; 67; 68; 68; 69; 52; 50; 50; 48; 48; 47; 47; 47; 47; 50; 50; 54; 54; 57; 57; 61;
   61; 64; 64; 66; 66; 68; 68; 70; 70; 72; 72; 75; 75; 75; 75; 77; 52; 50; 50; 48; 48; 47; 47; 47; 47; 50;
   50; 54; 54; 57; 57; 61; 61; 64; 64; 66; 66; 68; 68; 70; 70; 72; 72; 75; 75; 75; 75; 77; 57; 54; 54; 52;
   52; 51; 51; 50; 50; 53; 53; 57; 57; 60; 60; 64; 64; 67; 67; 71; 71; 73; 73; 76; 76; 79; 79; 82; 82; 83;
   83; 84; 57; 54; 54; 52; 52; 51; 51; 50; 50; 53; 53; 57; 57; 60; 60; 64; 64; 67; 67; 71; 71; 73; 73; 76;
   76; 79; 79; 82; 82; 83; 83; 84; 63; 60; 60; 57; 57; 56; 56; 54; 54; 57; 57; 60; 60; 64; 64; 67; 67; 71;
   71; 75; 75; 78; 78; 82; 82; 85; 85; 89; 89; 90; 90; 92; 63; 60; 60; 57; 57; 56; 56; 54; 54; 57; 57; 60;
   60; 64; 64; 67; 67; 71; 71; 75; 75; 78; 78; 82; 82; 85; 85; 89; 89; 90; 90; 92; 66; 63; 63; 60; 60; 59;
   59; 57; 57; 60; 60; 62; 62; 66; 66; 69; 69; 73; 73; 77; 77; 80; 80; 84; 84; 88; 88; 92; 92; 93; 93; 95;
   31; 48; 52; 63; 31; 47; 50; 60; 32; 46; 48; 57; 36; 47; 47; 56; 40; 47; 47; 54; 43; 50; 50; 57; 46; 53;
   54; 60; 46; 53; 57; 64; 45; 53; 61; 67; 46; 54; 64; 71; 48; 54; 66; 75; 50; 55; 68; 78; 52; 56; 70; 82;
   54; 58; 72; 85; 57; 60; 75; 89; 59; 61; 75; 90; 31; 31; 32; 36; 40; 43; 46; 46; 45; 46; 48; 50; 52; 54;
   57; 59; 48; 47; 46; 47; 47; 50; 53; 53; 53; 54; 54; 55; 56; 58; 60; 61; 52; 50; 48; 47; 47; 50; 54; 57;
   61; 64; 66; 68; 70; 72; 75; 75; 63; 60; 57; 56; 54; 57; 60; 64; 67; 71; 75; 78; 82; 85; 89; 90; 32; 31;
   37; 48; 49; 52; 57; 63; 31; 31; 38; 47; 47; 50; 54; 60; 31; 31; 38; 47; 47; 50; 54; 60; 30; 32; 40; 46;
   45; 48; 52; 57; 30; 32; 40; 46; 45; 48; 52; 57; 33; 36; 43; 47; 46; 47; 51; 56; 33; 36; 43; 47; 46; 47;
   51; 56; 37; 40; 47; 47; 45; 47; 50; 54; 37; 40; 47; 47; 45; 47; 50; 54; 42; 43; 47; 50; 49; 50; 53; 57;
   42; 43; 47; 50; 49; 50; 53; 57; 49; 46; 48; 53; 53; 54; 57; 60; 49; 46; 48; 53; 53; 54; 57; 60; 48; 46;
   47; 53; 56; 57; 60; 64; 48; 46; 47; 53; 56; 57; 60; 64; 49; 45; 46; 53; 58; 61; 64; 67; 49; 45; 46; 53;
   58; 61; 64; 67; 50; 46; 46; 54; 59; 64; 67; 71; 50; 46; 46; 54; 59; 64; 67; 71; 52; 48; 47; 54; 61; 66;
   71; 75; 52; 48; 47; 54; 61; 66; 71; 75; 54; 50; 49; 55; 62; 68; 73; 78; 54; 50; 49; 55; 62; 68; 73; 78;
   57; 52; 50; 56; 64; 70; 76; 82; 57; 52; 50; 56; 64; 70; 76; 82; 60; 54; 52; 58; 65; 72; 79; 85; 60; 54;
   52; 58; 65; 72; 79; 85; 63; 57; 55; 60; 67; 75; 82; 89; 63; 57; 55; 60; 67; 75; 82; 89; 64; 59; 56; 61;
   68; 75; 83; 90; 64; 59; 56; 61; 68; 75; 83; 90; 66; 60; 57; 63; 69; 77; 84; 92; 32; 31; 31; 30; 30; 33;
   33; 37; 37; 42; 42; 49; 49; 48; 48; 49; 49; 50; 50; 52; 52; 54; 54; 57; 57; 60; 60; 63; 63; 64; 64; 66;
   31; 31; 31; 32; 32; 36; 36; 40; 40; 43; 43; 46; 46; 46; 46; 45; 45; 46; 46; 48; 48; 50; 50; 52; 52; 54;
   54; 57; 57; 59; 59; 60; 37; 38; 38; 40; 40; 43; 43; 47; 47; 47; 47; 48; 48; 47; 47; 46; 46; 46; 46; 47;
   47; 49; 49; 50; 50; 52; 52; 55; 55; 56; 56; 57; 48; 47; 47; 46; 46; 47; 47; 47; 47; 50; 50; 53; 53; 53;
   53; 53; 53; 54; 54; 54; 54; 55; 55; 56; 56; 58; 58; 60; 60; 61; 61; 63; 49; 47; 47; 45; 45; 46; 46; 45;
   45; 49; 49; 53; 53; 56; 56; 58; 58; 59; 59; 61; 61; 62; 62; 64; 64; 65; 65; 67; 67; 68; 68; 69; 52; 50;
   50; 48; 48; 47; 47; 47; 47; 50; 50; 54; 54; 57; 57; 61; 61; 64; 64; 66; 66; 68; 68; 70; 70; 72; 72; 75;
   75; 75; 75; 77; 57; 54; 54; 52; 52; 51; 51; 50; 50; 53; 53; 57; 57; 60; 60; 64; 64; 67; 67; 71; 71; 73;
   73; 76; 76; 79; 79; 82; 82; 83; 83; 84; 63; 60; 60; 57; 57; 56; 56; 54; 54; 57; 57; 60; 60; 64; 64; 67;
   67; 71; 71; 75; 75; 78; 78; 82; 82; 85; 85; 89; 89; 90; 90; 92]];
 [[32; 33; 45; 62; 33; 39; 51; 64; 45; 51; 71; 87; 62; 64; 87; 108; 31; 32; 32; 35; 42; 51; 59; 69; 32;
   32; 33; 35; 41; 49; 56; 65; 32; 33; 35; 38; 43; 49; 56; 64; 35; 35; 38; 48; 54; 59; 66; 73; 42; 41; 43;
   54; 63; 71; 77; 85; 51; 49; 49; 59; 71; 81; 89; 97; 59; 56; 56; 66; 77; 89; 98; 108; 69; 65; 64; 73;
   85; 97; 108; 119; 32; 31; 31; 31; 32; 34; 35; 38; 41; 45; 48; 54; 59; 65; 71; 80; 31; 32; 32; 32; 32;
   34; 35; 37; 40; 43; 46; 51; 56; 62; 68; 76; 31; 32; 32; 32; 32; 33; 34; 36; 38; 41; 44; 49; 54; 59; 65;
   72; 31; 32; 32; 33; 34; 35; 36; 38; 40; 42; 45; 50; 54; 59; 64; 71; 32; 32; 32; 34; 35; 37; 38; 39; 41;
   43; 46; 49; 53; 58; 63; 69; 34; 34; 33; 35; 37; 39; 42; 44; 46; 48; 51; 54; 58; 63; 68; 74; 35; 35; 34;
   36; 38; 42; 46; 48; 50; 53; 55; 59; 62; 67; 72; 78; 38; 37; 36; 38; 39; 44; 48; 51; 54; 57; 59; 63; 67;
   71; 76; 82; 41; 40; 38; 40; 41; 46; 50; 54; 57; 60; 63; 67; 71; 75; 80; 86; 45; 43; 41; 42; 43; 48; 53;
   57; 60; 65; 68; 72; 76; 81; 85; 91; 48; 46; 44; 45; 46; 51; 55; 59; 63; 68; 71; 76; 80; 85; 90; 96; 54;
   51; 49; 50; 49; 54; 59; 63; 67; 72; 76; 82; 87; 92; 97; 104; 59; 56; 54; 54; 53; 58; 62; 67; 71; 76;
   80; 87; 92; 98; 103; 110; 65; 62; 59; 59; 58; 63; 67; 71; 75; 81; 85; 92; 98; 105; 111; 118; 71; 68;
   65; 64; 63; 68; 72; 76; 80; 85; 90; 97; 103; 111; 117; 125; 80; 76; 72; 71; 69; 74; 78; 82; 86; 91; 96;
   104; 110; 118; 125; 134; 32; 31; 31; 31; 31; 31; 31; 32; 32; 32; 34; 34; 35; 36; 38; 39; 41; 44; 45;
   48; 48; 53; 54; 57; 59; 62; 65; 67; 71; 72; 80; 80; 31; 31; 32; 32; 32; 32; 32; 32; 32; 32; 34; 34; 35;
   35; 37; 38; 40; 42; 43; 46; 46; 51; 52; 55; 56; 59; 62; 64; 68; 69; 76; 76; 31; 32; 32; 32; 32; 32; 32;
   32; 32; 32; 34; 34; 35; 35; 37; 38; 40; 42; 43; 46; 46; 51; 51; 55; 56; 59; 62; 64; 68; 69; 76; 76; 31;
   32; 32; 32; 32; 32; 32; 32; 32; 32; 33; 33; 34; 34; 36; 38; 39; 41; 42; 45; 45; 49; 50; 53; 54; 57; 60;
   62; 66; 66; 73; 73; 31; 32; 32; 32; 32; 32; 32; 32; 32; 33; 33; 33; 34; 34; 36; 37; 38; 41; 41; 44; 44;
   49; 49; 52; 54; 56; 59; 61; 65; 65; 72; 72; 31; 32; 32; 32; 32; 32; 33; 33; 33; 33; 34; 34; 35; 35; 37;
   38; 39; 41; 42; 45; 45; 49; 49; 52; 54; 56; 59; 61; 64; 65; 72; 72; 31; 32; 32; 32; 32; 33; 33; 33; 34;
   34; 35; 35; 36; 36; 38; 39; 40; 42; 42; 45; 45; 49; 50; 52; 54; 56; 59; 60; 64; 65; 71; 71; 32; 32; 32;
   32; 32; 33; 33; 34; 34; 34; 35; 35; 36; 37; 38; 39; 40; 42; 43; 45; 45; 49; 49; 52; 54; 56; 59; 60; 64;
   64; 70; 70; 32; 32; 32; 32; 32; 33; 34; 34; 35; 35; 37; 37; 38; 38; 39; 40; 41; 42; 43; 46; 46; 49; 49;
   52; 53; 55; 58; 59; 63; 63; 69; 69; 32; 32; 32; 32; 33; 33; 34; 34; 35; 35; 37; 37; 38; 38; 40; 41; 41;
   43; 43; 46; 46; 49; 50; 52; 54; 56; 58; 60; 63; 64; 70; 70; 34; 34; 34; 33; 33; 34; 35; 35; 37; 37; 39;
   39; 42; 42; 44; 45; 46; 47; 48; 51; 51; 54; 54; 57; 58; 60; 63; 64; 68; 68; 74; 74; 34; 34; 34; 33; 33;
   34; 35; 35; 37; 37; 39; 39; 42; 42; 44; 45; 46; 47; 48; 51; 51; 54; 54; 57; 58; 60; 63; 64; 68; 68; 74;
   74; 35; 35; 35; 34; 34; 35; 36; 36; 38; 38; 42; 42; 46; 47; 48; 49; 50; 52; 53; 55; 55; 58; 59; 61; 62;
   64; 67; 68; 72; 72; 78; 78; 36; 35; 35; 34; 34; 35; 36; 37; 38; 38; 42; 42; 47; 48; 50; 50; 52; 54; 54;
   57; 57; 59; 60; 62; 64; 66; 68; 69; 73; 73; 79; 79; 38; 37; 37; 36; 36; 37; 38; 38; 39; 40; 44; 44; 48;
   50; 51; 52; 54; 56; 57; 59; 59; 62; 63; 65; 67; 69; 71; 72; 76; 76; 82; 82; 39; 38; 38; 38; 37; 38; 39;
   39; 40; 41; 45; 45; 49; 50; 52; 54; 55; 58; 58; 61; 61; 64; 65; 67; 69; 71; 73; 74; 78; 78; 84; 84; 41;
   40; 40; 39; 38; 39; 40; 40; 41; 41; 46; 46; 50; 52; 54; 55; 57; 60; 60; 63; 63; 67; 67; 70; 71; 73; 75;
   77; 80; 81; 86; 86; 44; 42; 42; 41; 41; 41; 42; 42; 42; 43; 47; 47; 52; 54; 56; 58; 60; 63; 64; 67; 67;
   71; 71; 74; 75; 77; 79; 81; 84; 85; 90; 90; 45; 43; 43; 42; 41; 42; 42; 43; 43; 43; 48; 48; 53; 54; 57;
   58; 60; 64; 65; 68; 68; 72; 72; 75; 76; 78; 81; 82; 85; 86; 91; 91; 48; 46; 46; 45; 44; 45; 45; 45; 46;
   46; 51; 51; 55; 57; 59; 61; 63; 67; 68; 71; 71; 75; 76; 79; 80; 83; 85; 87; 90; 91; 96; 96; 48; 46; 46;
   45; 44; 45; 45; 45; 46; 46; 51; 51; 55; 57; 59; 61; 63; 67; 68; 71; 71; 75; 76; 79; 80; 83; 85; 87; 90;
   91; 96; 96; 53; 51; 51; 49; 49; 49; 49; 49; 49; 49; 54; 54; 58; 59; 62; 64; 67; 71; 72; 75; 75; 81; 81;
   85; 86; 89; 91; 93; 97; 97; 103; 103; 54; 52; 51; 50; 49; 49; 50; 49; 49; 50; 54; 54; 59; 60; 63; 65;
   67; 71; 72; 76; 76; 81; 82; 85; 87; 89; 92; 94; 97; 98; 104; 104; 57; 55; 55; 53; 52; 52; 52; 52; 52;
   52; 57; 57; 61; 62; 65; 67; 70; 74; 75; 79; 79; 85; 85; 89; 90; 93; 96; 98; 102; 102; 108; 108; 59; 56;
   56; 54; 54; 54; 54; 54; 53; 54; 58; 58; 62; 64; 67; 69; 71; 75; 76; 80; 80; 86; 87; 90; 92; 95; 98; 99;
   103; 104; 110; 110; 62; 59; 59; 57; 56; 56; 56; 56; 55; 56; 60; 60; 64; 66; 69; 71; 73; 77; 78; 83; 83;
   89; 89; 93; 95; 98; 101; 103; 107; 108; 114; 114; 65; 62; 62; 60; 59; 59; 59; 59; 58; 58; 63; 63; 67;
   68; 71; 73; 75; 79; 81; 85; 85; 91; 92; 96; 98; 101; 105; 106; 111; 111; 118; 118; 67; 64; 64; 62; 61;
   61; 60; 60; 59; 60; 64; 64; 68; 69; 72; 74; 77; 81; 82; 87; 87; 93; 94; 98; 99; 103; 106; 108; 113;
   113; 120; 120; 71; 68; 68; 66; 65; 64; 64; 64; 63; 63; 68; 68; 72; 73; 76; 78; 80; 84; 85; 90; 90; 97;
   97; 102; 103; 107; 111; 113; 117; 118; 125; 125; 72; 69; 69; 66; 65; 65; 65; 64; 63; 64; 68; 68; 72;
   73; 76; 78; 81; 85; 86; 91; 91; 97; 98; 102; 104; 108; 111; 113; 118; 119; 126; 126; 80; 76; 76; 73;
   72; 72; 71; 70; 69; 70; 74; 74; 78; 79; 82; 84; 86; 90; 91; 96; 96; 103; 104; 108; 110; 114; 118; 120;
   125; 126; 134; 134; 80; 76; 76; 73; 72; 72; 71; 70; 69; 70; 74; 74; 78; 79; 82; 84; 86; 90; 91; 96; 96;
   103; 104; 108; 110; 114; 118; 120; 125; 126; 134; 134; 32; 34; 43; 62; 32; 34; 42; 59; 33; 37; 44; 58;
   35; 43; 54; 68; 41; 48; 64; 79; 49; 54; 71; 91; 57; 60; 78; 101; 66; 68; 86; 111; 32; 32; 33; 35; 41;
   49; 57; 66; 34; 34; 37; 43; 48; 54; 60; 68; 43; 42; 44; 54; 64; 71; 78; 86; 62; 59; 58; 68; 79; 91;
   101; 111; 32; 31; 32; 36; 44; 53; 62; 73; 31; 32; 32; 35; 42; 51; 59; 69; 31; 32; 33; 34; 41; 49; 57;
   66; 32; 32; 34; 36; 42; 50; 57; 65; 32; 33; 35; 38; 42; 49; 56; 64; 34; 34; 37; 42; 48; 54; 61; 69; 35;
   34; 38; 47; 52; 59; 65; 73; 38; 36; 40; 49; 56; 63; 69; 77; 41; 39; 41; 51; 60; 67; 74; 81; 44; 42; 43;
   54; 64; 72; 79; 86; 48; 45; 46; 56; 67; 76; 83; 91; 53; 49; 50; 60; 71; 82; 90; 99; 58; 54; 54; 63; 75;
   87; 95; 105; 65; 60; 58; 68; 79; 92; 102; 112; 71; 65; 63; 73; 84; 97; 108; 119; 79; 72; 70; 79; 90;
   104; 115; 127; 32; 31; 31; 32; 32; 34; 35; 38; 41; 44; 48; 53; 58; 65; 71; 79; 31; 32; 32; 32; 33; 34;
   34; 36; 39; 42; 45; 49; 54; 60; 65; 72; 32; 32; 33; 34; 35; 37; 38; 40; 41; 43; 46; 50; 54; 58; 63; 70;
   36; 35; 34; 36; 38; 42; 47; 49; 51; 54; 56; 60; 63; 68; 73; 79; 44; 42; 41; 42; 42; 48; 52; 56; 60; 64;
   67; 71; 75; 79; 84; 90; 53; 51; 49; 50; 49; 54; 59; 63; 67; 72; 76; 82; 87; 92; 97; 104; 62; 59; 57;
   57; 56; 61; 65; 69; 74; 79; 83; 90; 95; 102; 108; 115; 73; 69; 66; 65; 64; 69; 73; 77; 81; 86; 91; 99;
   105; 112; 119; 127; 32; 31; 31; 32; 32; 34; 36; 38; 44; 44; 53; 53; 62; 65; 73; 79; 31; 32; 32; 32; 32;
   34; 35; 37; 42; 43; 51; 51; 60; 62; 70; 75; 31; 32; 32; 32; 32; 34; 35; 37; 42; 43; 51; 51; 59; 62; 69;
   75; 31; 32; 32; 32; 32; 33; 35; 36; 41; 42; 50; 50; 58; 60; 67; 73; 31; 32; 32; 32; 33; 33; 34; 36; 41;
   41; 49; 49; 57; 59; 66; 72; 31; 32; 32; 33; 33; 34; 35; 37; 41; 42; 49; 49; 57; 59; 66; 71; 32; 32; 32;
   33; 34; 35; 36; 38; 42; 43; 50; 50; 57; 59; 65; 71; 32; 32; 32; 34; 34; 35; 37; 38; 42; 43; 49; 49; 56;
   59; 65; 70; 32; 32; 33; 34; 35; 37; 38; 39; 42; 43; 49; 49; 56; 58; 64; 69; 32; 33; 33; 34; 35; 37; 39;
   40; 43; 44; 50; 50; 56; 58; 64; 69; 34; 34; 34; 36; 37; 39; 42; 44; 48; 48; 54; 54; 61; 63; 69; 73; 34;
   34; 34; 36; 37; 39; 42; 44; 48; 48; 54; 54; 61; 63; 69; 73; 35; 34; 34; 37; 38; 42; 47; 48; 52; 53; 59;
   59; 65; 67; 73; 77; 36; 35; 34; 37; 38; 43; 48; 49; 54; 54; 60; 60; 66; 68; 74; 78; 38; 36; 36; 38; 40;
   44; 49; 51; 56; 57; 63; 63; 69; 71; 77; 81; 39; 38; 37; 40; 40; 45; 50; 52; 58; 58; 65; 65; 71; 73; 79;
   84; 41; 39; 39; 41; 41; 46; 51; 54; 60; 60; 67; 67; 74; 76; 81; 86; 44; 41; 41; 42; 43; 48; 53; 56; 63;
   64; 71; 71; 78; 79; 85; 90; 44; 42; 42; 43; 43; 48; 54; 56; 64; 64; 72; 72; 79; 81; 86; 91; 48; 45; 45;
   46; 46; 51; 56; 59; 67; 67; 76; 76; 83; 85; 91; 96; 48; 45; 45; 46; 46; 51; 56; 59; 67; 67; 76; 76; 83;
   85; 91; 96; 53; 49; 49; 49; 49; 54; 59; 62; 71; 71; 81; 81; 89; 91; 98; 103; 53; 50; 49; 50; 50; 54;
   60; 63; 71; 72; 82; 82; 90; 92; 99; 103; 57; 53; 52; 52; 52; 57; 62; 65; 74; 75; 85; 85; 94; 96; 103;
   108; 58; 54; 54; 54; 54; 58; 63; 67; 75; 76; 87; 87; 95; 98; 105; 110; 61; 57; 57; 56; 56; 60; 66; 69;
   77; 78; 89; 89; 98; 101; 108; 114; 65; 60; 60; 59; 58; 63; 68; 71; 79; 80; 92; 92; 102; 105; 112; 118;
   67; 62; 61; 60; 60; 64; 69; 72; 81; 82; 94; 94; 103; 106; 114; 120; 71; 66; 65; 64; 63; 68; 73; 76; 84;
   85; 97; 97; 108; 111; 119; 125; 72; 66; 66; 64; 64; 68; 73; 76; 85; 86; 98; 98; 108; 111; 119; 125; 79;
   73; 72; 71; 70; 74; 79; 82; 90; 91; 104; 104; 115; 118; 127; 133; 79; 73; 72; 71; 70; 74; 79; 82; 90;
   91; 104; 104; 115; 118; 127; 133; 32; 31; 31; 31; 31; 31; 32; 32; 32; 32; 34; 34; 35; 36; 38; 39; 41;
   44; 44; 48; 48; 53; 53; 57; 58; 61; 65; 67; 71; 72; 79; 79; 31; 32; 32; 32; 32; 32; 32; 32; 32; 33; 34;
   34; 34; 35; 36; 38; 39; 41; 42; 45; 45; 49; 50; 53; 54; 57; 60; 62; 66; 66; 73; 73; 31; 32; 32; 32; 32;
   32; 32; 32; 33; 33; 34; 34; 34; 34; 36; 37; 39; 41; 42; 45; 45; 49; 49; 52; 54; 57; 60; 61; 65; 66; 72;
   72; 32; 32; 32; 32; 32; 33; 33; 34; 34; 34; 36; 36; 37; 37; 38; 40; 41; 42; 43; 46; 46; 49; 50; 52; 54;
   56; 59; 60; 64; 64; 71; 71; 32; 32; 32; 32; 33; 33; 34; 34; 35; 35; 37; 37; 38; 38; 40; 40; 41; 43; 43;
   46; 46; 49; 50; 52; 54; 56; 58; 60; 63; 64; 70; 70; 34; 34; 34; 33; 33; 34; 35; 35; 37; 37; 39; 39; 42;
   43; 44; 45; 46; 48; 48; 51; 51; 54; 54; 57; 58; 60; 63; 64; 68; 68; 74; 74; 36; 35; 35; 35; 34; 35; 36;
   37; 38; 39; 42; 42; 47; 48; 49; 50; 51; 53; 54; 56; 56; 59; 60; 62; 63; 66; 68; 69; 73; 73; 79; 79; 38;
   37; 37; 36; 36; 37; 38; 38; 39; 40; 44; 44; 48; 49; 51; 52; 54; 56; 56; 59; 59; 62; 63; 65; 67; 69; 71;
   72; 76; 76; 82; 82; 44; 42; 42; 41; 41; 41; 42; 42; 42; 43; 48; 48; 52; 54; 56; 58; 60; 63; 64; 67; 67;
   71; 71; 74; 75; 77; 79; 81; 84; 85; 90; 90; 44; 43; 43; 42; 41; 42; 43; 43; 43; 44; 48; 48; 53; 54; 57;
   58; 60; 64; 64; 67; 67; 71; 72; 75; 76; 78; 80; 82; 85; 86; 91; 91; 53; 51; 51; 50; 49; 49; 50; 49; 49;
   50; 54; 54; 59; 60; 63; 65; 67; 71; 72; 76; 76; 81; 82; 85; 87; 89; 92; 94; 97; 98; 104; 104; 53; 51;
   51; 50; 49; 49; 50; 49; 49; 50; 54; 54; 59; 60; 63; 65; 67; 71; 72; 76; 76; 81; 82; 85; 87; 89; 92; 94;
   97; 98; 104; 104; 62; 60; 59; 58; 57; 57; 57; 56; 56; 56; 61; 61; 65; 66; 69; 71; 74; 78; 79; 83; 83;
   89; 90; 94; 95; 98; 102; 103; 108; 108; 115; 115; 65; 62; 62; 60; 59; 59; 59; 59; 58; 58; 63; 63; 67;
   68; 71; 73; 76; 79; 81; 85; 85; 91; 92; 96; 98; 101; 105; 106; 111; 111; 118; 118; 73; 70; 69; 67; 66;
   66; 65; 65; 64; 64; 69; 69; 73; 74; 77; 79; 81; 85; 86; 91; 91; 98; 99; 103; 105; 108; 112; 114; 119;
   119; 127; 127; 79; 75; 75; 73; 72; 71; 71; 70; 69; 69; 73; 73; 77; 78; 81; 84; 86; 90; 91; 96; 96; 103;
   103; 108; 110; 114; 118; 120; 125; 125; 133; 133; 31; 34; 44; 65; 32; 34; 43; 62; 32; 33; 41; 59; 32;
   35; 43; 59; 32; 37; 43; 58; 34; 39; 48; 63; 34; 42; 53; 67; 36; 44; 57; 71; 39; 46; 60; 76; 42; 48; 64;
   81; 45; 51; 67; 85; 50; 54; 72; 92; 54; 58; 76; 98; 60; 63; 80; 105; 66; 68; 85; 111; 73; 74; 91; 118;
   31; 32; 32; 32; 32; 34; 34; 36; 39; 42; 45; 50; 54; 60; 66; 73; 34; 34; 33; 35; 37; 39; 42; 44; 46; 48;
   51; 54; 58; 63; 68; 74; 44; 43; 41; 43; 43; 48; 53; 57; 60; 64; 67; 72; 76; 80; 85; 91; 65; 62; 59; 59;
   58; 63; 67; 71; 76; 81; 85; 92; 98; 105; 111; 118; 32; 31; 32; 36; 44; 53; 62; 73; 31; 32; 32; 35; 42;
   51; 60; 70; 31; 32; 32; 35; 42; 51; 59; 69; 31; 32; 32; 35; 41; 50; 58; 67; 31; 32; 33; 34; 41; 49; 57;
   66; 31; 32; 33; 35; 41; 49; 57; 66; 32; 32; 34; 36; 42; 50; 57; 65; 32; 32; 34; 37; 42; 49; 56; 65; 32;
   33; 35; 38; 42; 49; 56; 64; 32; 33; 35; 39; 43; 50; 56; 64; 34; 34; 37; 42; 48; 54; 61; 69; 34; 34; 37;
   42; 48; 54; 61; 69; 35; 34; 38; 47; 52; 59; 65; 73; 36; 34; 38; 48; 54; 60; 66; 74; 38; 36; 40; 49; 56;
   63; 69; 77; 39; 37; 40; 50; 58; 65; 71; 79; 41; 39; 41; 51; 60; 67; 74; 81; 44; 41; 43; 53; 63; 71; 78;
   85; 44; 42; 43; 54; 64; 72; 79; 86; 48; 45; 46; 56; 67; 76; 83; 91; 48; 45; 46; 56; 67; 76; 83; 91; 53;
   49; 49; 59; 71; 81; 89; 98; 53; 49; 50; 60; 71; 82; 90; 99; 57; 52; 52; 62; 74; 85; 94; 103; 58; 54;
   54; 63; 75; 87; 95; 105; 61; 57; 56; 66; 77; 89; 98; 108; 65; 60; 58; 68; 79; 92; 102; 112; 67; 61; 60;
   69; 81; 94; 103; 114; 71; 65; 63; 73; 84; 97; 108; 119; 72; 66; 64; 73; 85; 98; 108; 119; 79; 72; 70;
   79; 90; 104; 115; 127; 79; 72; 70; 79; 90; 104; 115; 127; 32; 31; 31; 31; 31; 31; 32; 32; 32; 32; 34;
   34; 35; 36; 38; 39; 41; 44; 44; 48; 48; 53; 53; 57; 58; 61; 65; 67; 71; 72; 79; 79; 31; 32; 32; 32; 32;
   32; 32; 32; 33; 33; 34; 34; 34; 34; 36; 37; 39; 41; 42; 45; 45; 49; 49; 52; 54; 57; 60; 61; 65; 66; 72;
   72; 32; 32; 32; 32; 33; 33; 34; 34; 35; 35; 37; 37; 38; 38; 40; 40; 41; 43; 43; 46; 46; 49; 50; 52; 54;
   56; 58; 60; 63; 64; 70; 70; 36; 35; 35; 35; 34; 35; 36; 37; 38; 39; 42; 42; 47; 48; 49; 50; 51; 53; 54;
   56; 56; 59; 60; 62; 63; 66; 68; 69; 73; 73; 79; 79; 44; 42; 42; 41; 41; 41; 42; 42; 42; 43; 48; 48; 52;
   54; 56; 58; 60; 63; 64; 67; 67; 71; 71; 74; 75; 77; 79; 81; 84; 85; 90; 90; 53; 51; 51; 50; 49; 49; 50;
   49; 49; 50; 54; 54; 59; 60; 63; 65; 67; 71; 72; 76; 76; 81; 82; 85; 87; 89; 92; 94; 97; 98; 104; 104;
   62; 60; 59; 58; 57; 57; 57; 56; 56; 56; 61; 61; 65; 66; 69; 71; 74; 78; 79; 83; 83; 89; 90; 94; 95; 98;
   102; 103; 108; 108; 115; 115; 73; 70; 69; 67; 66; 66; 65; 65; 64; 64; 69; 69; 73; 74; 77; 79; 81; 85;
   86; 91; 91; 98; 99; 103; 105; 108; 112; 114; 119; 119; 127; 127];
 [31; 42; 47; 53; 42; 48; 50; 54; 47; 50; 61; 67; 53; 54; 67; 78; 31; 32; 38; 48; 47; 50; 53; 57; 32; 35;
   42; 47; 45; 47; 50; 54; 38; 42; 47; 48; 45; 47; 49; 52; 48; 47; 48; 53; 53; 54; 56; 58; 47; 45; 45; 53;
   58; 61; 63; 65; 50; 47; 47; 54; 61; 66; 69; 72; 53; 50; 49; 56; 63; 69; 73; 77; 57; 54; 52; 58; 65; 72;
   77; 82; 32; 31; 30; 33; 36; 41; 47; 49; 49; 49; 50; 52; 54; 57; 60; 63; 31; 31; 31; 34; 38; 42; 46; 47;
   47; 47; 48; 50; 52; 54; 57; 60; 30; 31; 32; 35; 40; 42; 45; 46; 45; 45; 46; 47; 49; 52; 54; 57; 33; 34;
   35; 39; 43; 45; 47; 46; 46; 45; 46; 47; 49; 51; 53; 56; 36; 38; 40; 43; 47; 47; 47; 47; 46; 45; 46; 47;
   48; 50; 52; 54; 41; 42; 42; 45; 47; 48; 50; 50; 49; 49; 50; 50; 52; 53; 55; 57; 47; 46; 45; 47; 47; 50;
   52; 52; 52; 52; 53; 53; 55; 56; 58; 60; 49; 47; 46; 46; 47; 50; 52; 53; 54; 55; 55; 56; 57; 58; 60; 62;
   49; 47; 45; 46; 46; 49; 52; 54; 55; 57; 58; 59; 60; 61; 63; 65; 49; 47; 45; 45; 45; 49; 52; 55; 57; 59;
   60; 61; 63; 64; 66; 68; 50; 48; 46; 46; 46; 50; 53; 55; 58; 60; 61; 63; 65; 67; 68; 71; 52; 50; 47; 47;
   47; 50; 53; 56; 59; 61; 63; 66; 68; 70; 72; 75; 54; 52; 49; 49; 48; 52; 55; 57; 60; 63; 65; 68; 71; 73;
   75; 78; 57; 54; 52; 51; 50; 53; 56; 58; 61; 64; 67; 70; 73; 76; 79; 82; 60; 57; 54; 53; 52; 55; 58; 60;
   63; 66; 68; 72; 75; 79; 82; 85; 63; 60; 57; 56; 54; 57; 60; 62; 65; 68; 71; 75; 78; 82; 85; 89; 32; 31;
   31; 30; 30; 32; 33; 34; 36; 37; 41; 41; 47; 49; 49; 48; 49; 49; 49; 50; 50; 52; 52; 54; 54; 56; 57; 58;
   60; 60; 63; 63; 31; 31; 31; 31; 31; 32; 34; 35; 38; 38; 42; 42; 46; 48; 47; 47; 47; 47; 47; 48; 48; 50;
   50; 51; 52; 53; 54; 55; 57; 57; 60; 60; 31; 31; 31; 31; 31; 33; 34; 35; 38; 39; 42; 42; 46; 47; 47; 47;
   47; 47; 47; 48; 48; 49; 50; 51; 52; 53; 54; 55; 57; 57; 60; 60; 30; 31; 31; 31; 31; 33; 35; 36; 39; 40;
   42; 42; 46; 47; 46; 46; 46; 45; 46; 47; 47; 48; 48; 50; 50; 51; 52; 53; 55; 55; 58; 58; 30; 31; 31; 31;
   32; 33; 35; 36; 40; 40; 42; 42; 45; 46; 46; 45; 45; 45; 45; 46; 46; 47; 47; 49; 49; 51; 52; 52; 54; 54;
   57; 57; 32; 32; 33; 33; 33; 35; 37; 38; 41; 42; 43; 43; 46; 47; 46; 46; 45; 45; 45; 46; 46; 47; 47; 49;
   49; 50; 51; 52; 54; 54; 57; 57; 33; 34; 34; 35; 35; 37; 39; 40; 43; 43; 45; 45; 47; 47; 46; 46; 46; 45;
   45; 46; 46; 47; 47; 49; 49; 50; 51; 52; 53; 54; 56; 56; 34; 35; 35; 36; 36; 38; 40; 41; 44; 44; 45; 45;
   47; 47; 47; 46; 46; 45; 45; 46; 46; 47; 47; 48; 49; 50; 51; 51; 53; 53; 55; 55; 36; 38; 38; 39; 40; 41;
   43; 44; 47; 47; 47; 47; 47; 48; 47; 46; 46; 45; 45; 46; 46; 46; 47; 48; 48; 49; 50; 50; 52; 52; 54; 54;
   37; 38; 39; 40; 40; 42; 43; 44; 47; 47; 47; 47; 48; 48; 47; 47; 46; 45; 46; 46; 46; 47; 47; 48; 48; 49;
   50; 51; 52; 52; 55; 55; 41; 42; 42; 42; 42; 43; 45; 45; 47; 47; 48; 48; 50; 50; 50; 49; 49; 49; 49; 50;
   50; 50; 50; 51; 52; 52; 53; 54; 55; 55; 57; 57; 41; 42; 42; 42; 42; 43; 45; 45; 47; 47; 48; 48; 50; 50;
   50; 49; 49; 49; 49; 50; 50; 50; 50; 51; 52; 52; 53; 54; 55; 55; 57; 57; 47; 46; 46; 46; 45; 46; 47; 47;
   47; 48; 50; 50; 52; 52; 52; 52; 52; 52; 52; 53; 53; 53; 53; 54; 55; 55; 56; 56; 58; 58; 60; 60; 49; 48;
   47; 47; 46; 47; 47; 47; 48; 48; 50; 50; 52; 53; 53; 53; 53; 53; 53; 54; 54; 54; 54; 55; 55; 56; 56; 57;
   58; 58; 60; 60; 49; 47; 47; 46; 46; 46; 46; 47; 47; 47; 50; 50; 52; 53; 53; 54; 54; 55; 55; 55; 55; 56;
   56; 57; 57; 58; 58; 59; 60; 60; 62; 62; 48; 47; 47; 46; 45; 46; 46; 46; 46; 47; 49; 49; 52; 53; 54; 54;
   55; 55; 56; 56; 56; 57; 57; 58; 58; 59; 60; 60; 61; 62; 63; 63; 49; 47; 47; 46; 45; 45; 46; 46; 46; 46;
   49; 49; 52; 53; 54; 55; 55; 57; 57; 58; 58; 59; 59; 60; 60; 61; 61; 62; 63; 63; 65; 65; 49; 47; 47; 45;
   45; 45; 45; 45; 45; 45; 49; 49; 52; 53; 55; 55; 57; 58; 59; 60; 60; 61; 61; 62; 62; 63; 63; 64; 65; 65;
   67; 67; 49; 47; 47; 46; 45; 45; 45; 45; 45; 46; 49; 49; 52; 53; 55; 56; 57; 59; 59; 60; 60; 61; 61; 62;
   63; 63; 64; 65; 66; 66; 68; 68; 50; 48; 48; 47; 46; 46; 46; 46; 46; 46; 50; 50; 53; 54; 55; 56; 58; 60;
   60; 61; 61; 63; 63; 65; 65; 66; 67; 67; 68; 69; 71; 71; 50; 48; 48; 47; 46; 46; 46; 46; 46; 46; 50; 50;
   53; 54; 55; 56; 58; 60; 60; 61; 61; 63; 63; 65; 65; 66; 67; 67; 68; 69; 71; 71; 52; 50; 49; 48; 47; 47;
   47; 47; 46; 47; 50; 50; 53; 54; 56; 57; 59; 61; 61; 63; 63; 66; 66; 67; 68; 69; 70; 71; 72; 72; 74; 74;
   52; 50; 50; 48; 47; 47; 47; 47; 47; 47; 50; 50; 53; 54; 56; 57; 59; 61; 61; 63; 63; 66; 66; 68; 68; 69;
   70; 71; 72; 73; 75; 75; 54; 51; 51; 50; 49; 49; 49; 48; 48; 48; 51; 51; 54; 55; 57; 58; 60; 62; 62; 65;
   65; 67; 68; 69; 70; 71; 72; 73; 74; 75; 77; 77; 54; 52; 52; 50; 49; 49; 49; 49; 48; 48; 52; 52; 55; 55;
   57; 58; 60; 62; 63; 65; 65; 68; 68; 70; 71; 72; 73; 74; 75; 76; 78; 78; 56; 53; 53; 51; 51; 50; 50; 50;
   49; 49; 52; 52; 55; 56; 58; 59; 61; 63; 63; 66; 66; 69; 69; 71; 72; 73; 75; 75; 77; 77; 80; 80; 57; 54;
   54; 52; 52; 51; 51; 51; 50; 50; 53; 53; 56; 56; 58; 60; 61; 63; 64; 67; 67; 70; 70; 72; 73; 75; 76; 77;
   79; 79; 82; 82; 58; 55; 55; 53; 52; 52; 52; 51; 50; 51; 54; 54; 56; 57; 59; 60; 62; 64; 65; 67; 67; 71;
   71; 73; 74; 75; 77; 78; 80; 80; 83; 83; 60; 57; 57; 55; 54; 54; 53; 53; 52; 52; 55; 55; 58; 58; 60; 61;
   63; 65; 66; 68; 68; 72; 72; 74; 75; 77; 79; 80; 82; 82; 85; 85; 60; 57; 57; 55; 54; 54; 54; 53; 52; 52;
   55; 55; 58; 58; 60; 62; 63; 65; 66; 69; 69; 72; 73; 75; 76; 77; 79; 80; 82; 82; 85; 85; 63; 60; 60; 58;
   57; 57; 56; 55; 54; 55; 57; 57; 60; 60; 62; 63; 65; 67; 68; 71; 71; 74; 75; 77; 78; 80; 82; 83; 85; 85;
   89; 89; 63; 60; 60; 58; 57; 57; 56; 55; 54; 55; 57; 57; 60; 60; 62; 63; 65; 67; 68; 71; 71; 74; 75; 77;
   78; 80; 82; 83; 85; 85; 89; 89; 31; 42; 47; 54; 33; 44; 45; 51; 40; 47; 46; 50; 47; 50; 54; 57; 45; 49;
   59; 64; 48; 50; 61; 70; 51; 52; 63; 75; 55; 55; 66; 79; 31; 33; 40; 47; 45; 48; 51; 55; 42; 44; 47; 50;
   49; 50; 52; 55; 47; 45; 46; 54; 59; 61; 63; 66; 54; 51; 50; 57; 64; 70; 75; 79; 32; 31; 37; 48; 49; 52;
   56; 61; 31; 31; 38; 47; 47; 50; 53; 57; 30; 32; 40; 46; 45; 48; 51; 55; 33; 36; 43; 47; 46; 47; 50; 54;
   37; 40; 47; 47; 45; 47; 49; 52; 42; 43; 47; 50; 49; 50; 53; 56; 47; 46; 48; 52; 53; 53; 55; 58; 48; 46;
   47; 53; 55; 56; 58; 61; 48; 45; 46; 53; 57; 59; 61; 63; 49; 45; 46; 53; 58; 62; 64; 66; 50; 46; 46; 54;
   59; 64; 66; 69; 52; 48; 47; 54; 61; 66; 70; 73; 54; 50; 49; 55; 62; 68; 72; 76; 57; 52; 50; 56; 64; 70;
   75; 79; 60; 54; 52; 58; 65; 72; 77; 82; 63; 57; 55; 60; 67; 75; 80; 86; 32; 31; 30; 33; 37; 42; 47; 48;
   48; 49; 50; 52; 54; 57; 60; 63; 31; 31; 32; 36; 40; 43; 46; 46; 45; 45; 46; 48; 50; 52; 54; 57; 37; 38;
   40; 43; 47; 47; 48; 47; 46; 46; 46; 47; 49; 50; 52; 55; 48; 47; 46; 47; 47; 50; 52; 53; 53; 53; 54; 54;
   55; 56; 58; 60; 49; 47; 45; 46; 45; 49; 53; 55; 57; 58; 59; 61; 62; 64; 65; 67; 52; 50; 48; 47; 47; 50;
   53; 56; 59; 62; 64; 66; 68; 70; 72; 75; 56; 53; 51; 50; 49; 53; 55; 58; 61; 64; 66; 70; 72; 75; 77; 80;
   61; 57; 55; 54; 52; 56; 58; 61; 63; 66; 69; 73; 76; 79; 82; 86; 32; 31; 31; 35; 37; 42; 48; 48; 49; 49;
   52; 52; 56; 57; 61; 63; 31; 31; 31; 36; 38; 42; 47; 47; 47; 47; 50; 50; 54; 54; 58; 60; 31; 31; 31; 36;
   38; 42; 47; 47; 47; 47; 50; 50; 53; 54; 57; 60; 30; 32; 32; 37; 39; 42; 46; 46; 46; 46; 48; 48; 52; 52;
   56; 58; 30; 32; 32; 37; 40; 42; 46; 46; 45; 45; 48; 48; 51; 52; 55; 57; 32; 33; 34; 39; 41; 44; 46; 46;
   45; 45; 48; 48; 51; 51; 54; 57; 33; 35; 36; 40; 43; 45; 47; 46; 46; 46; 47; 47; 50; 51; 54; 56; 34; 37;
   37; 42; 44; 45; 47; 47; 45; 46; 47; 47; 50; 51; 53; 55; 37; 40; 40; 45; 47; 47; 47; 47; 45; 46; 47; 47;
   49; 50; 52; 54; 37; 40; 40; 45; 47; 47; 48; 47; 46; 46; 47; 47; 49; 50; 53; 55; 42; 43; 43; 46; 47; 48;
   50; 50; 49; 49; 50; 50; 53; 53; 56; 57; 42; 43; 43; 46; 47; 48; 50; 50; 49; 49; 50; 50; 53; 53; 56; 57;
   47; 46; 46; 47; 48; 50; 52; 52; 53; 53; 53; 53; 55; 56; 58; 60; 49; 47; 46; 47; 48; 50; 53; 53; 53; 54;
   54; 54; 56; 57; 59; 60; 48; 46; 46; 47; 47; 50; 53; 53; 55; 55; 56; 56; 58; 58; 61; 62; 48; 46; 46; 46;
   47; 50; 53; 54; 56; 56; 57; 57; 59; 60; 62; 64; 48; 46; 45; 46; 46; 49; 53; 54; 57; 57; 59; 59; 61; 61;
   63; 65; 49; 45; 45; 45; 46; 49; 53; 55; 58; 59; 61; 61; 63; 64; 66; 67; 49; 46; 45; 46; 46; 49; 53; 55;
   58; 59; 62; 62; 64; 64; 66; 68; 50; 47; 46; 46; 46; 50; 54; 55; 59; 60; 64; 64; 66; 67; 69; 71; 50; 47;
   46; 46; 46; 50; 54; 55; 59; 60; 64; 64; 66; 67; 69; 71; 52; 48; 48; 47; 47; 50; 54; 56; 61; 61; 66; 66;
   69; 70; 72; 74; 52; 48; 48; 47; 47; 50; 54; 56; 61; 61; 66; 66; 70; 71; 73; 75; 53; 50; 49; 48; 48; 51;
   55; 57; 62; 62; 68; 68; 71; 72; 75; 77; 54; 50; 50; 49; 49; 52; 55; 57; 62; 63; 68; 68; 72; 73; 76; 78;
   55; 51; 51; 50; 49; 52; 56; 58; 63; 63; 69; 69; 74; 75; 78; 80; 57; 52; 52; 51; 50; 53; 56; 58; 64; 64;
   70; 70; 75; 76; 79; 82; 58; 53; 53; 51; 51; 54; 57; 59; 64; 65; 71; 71; 76; 77; 80; 83; 60; 55; 54; 53;
   52; 55; 58; 60; 65; 66; 72; 72; 77; 79; 82; 85; 60; 55; 55; 53; 53; 55; 59; 60; 65; 66; 73; 73; 78; 79;
   83; 85; 63; 58; 57; 56; 55; 58; 60; 62; 67; 68; 75; 75; 80; 82; 86; 89; 63; 58; 57; 56; 55; 58; 60; 62;
   67; 68; 75; 75; 80; 82; 86; 89; 32; 31; 31; 30; 30; 32; 33; 34; 37; 37; 42; 42; 47; 49; 48; 48; 48; 49;
   49; 50; 50; 52; 52; 53; 54; 55; 57; 58; 60; 60; 63; 63; 31; 31; 31; 32; 32; 33; 35; 37; 40; 40; 43; 43;
   46; 47; 46; 46; 46; 45; 46; 47; 47; 48; 48; 50; 50; 51; 52; 53; 55; 55; 58; 58; 31; 31; 31; 32; 32; 34;
   36; 37; 40; 40; 43; 43; 46; 46; 46; 46; 45; 45; 45; 46; 46; 48; 48; 49; 50; 51; 52; 53; 54; 55; 57; 57;
   35; 36; 36; 37; 37; 39; 40; 42; 45; 45; 46; 46; 47; 47; 47; 46; 46; 45; 46; 46; 46; 47; 47; 48; 49; 50;
   51; 51; 53; 53; 56; 56; 37; 38; 38; 39; 40; 41; 43; 44; 47; 47; 47; 47; 48; 48; 47; 47; 46; 46; 46; 46;
   46; 47; 47; 48; 49; 49; 50; 51; 52; 53; 55; 55; 42; 42; 42; 42; 42; 44; 45; 45; 47; 47; 48; 48; 50; 50;
   50; 50; 49; 49; 49; 50; 50; 50; 50; 51; 52; 52; 53; 54; 55; 55; 58; 58; 48; 47; 47; 46; 46; 46; 47; 47;
   47; 48; 50; 50; 52; 53; 53; 53; 53; 53; 53; 54; 54; 54; 54; 55; 55; 56; 56; 57; 58; 59; 60; 60; 48; 47;
   47; 46; 46; 46; 46; 47; 47; 47; 50; 50; 52; 53; 53; 54; 54; 55; 55; 55; 55; 56; 56; 57; 57; 58; 58; 59;
   60; 60; 62; 62; 49; 47; 47; 46; 45; 45; 46; 45; 45; 46; 49; 49; 53; 53; 55; 56; 57; 58; 58; 59; 59; 61;
   61; 62; 62; 63; 64; 64; 65; 65; 67; 67; 49; 47; 47; 46; 45; 45; 46; 46; 46; 46; 49; 49; 53; 54; 55; 56;
   57; 59; 59; 60; 60; 61; 61; 62; 63; 63; 64; 65; 66; 66; 68; 68; 52; 50; 50; 48; 48; 48; 47; 47; 47; 47;
   50; 50; 53; 54; 56; 57; 59; 61; 62; 64; 64; 66; 66; 68; 68; 69; 70; 71; 72; 73; 75; 75; 52; 50; 50; 48;
   48; 48; 47; 47; 47; 47; 50; 50; 53; 54; 56; 57; 59; 61; 62; 64; 64; 66; 66; 68; 68; 69; 70; 71; 72; 73;
   75; 75; 56; 54; 53; 52; 51; 51; 50; 50; 49; 49; 53; 53; 55; 56; 58; 59; 61; 63; 64; 66; 66; 69; 70; 71;
   72; 74; 75; 76; 77; 78; 80; 80; 57; 54; 54; 52; 52; 51; 51; 51; 50; 50; 53; 53; 56; 57; 58; 60; 61; 64;
   64; 67; 67; 70; 71; 72; 73; 75; 76; 77; 79; 79; 82; 82; 61; 58; 57; 56; 55; 54; 54; 53; 52; 53; 56; 56;
   58; 59; 61; 62; 63; 66; 66; 69; 69; 72; 73; 75; 76; 78; 79; 80; 82; 83; 86; 86; 63; 60; 60; 58; 57; 57;
   56; 55; 54; 55; 57; 57; 60; 60; 62; 64; 65; 67; 68; 71; 71; 74; 75; 77; 78; 80; 82; 83; 85; 85; 89; 89;
   31; 42; 49; 57; 31; 42; 47; 54; 32; 42; 45; 52; 35; 45; 46; 51; 40; 47; 46; 50; 43; 48; 49; 53; 46; 50;
   53; 56; 46; 50; 55; 58; 46; 49; 57; 61; 46; 49; 59; 64; 47; 50; 60; 67; 48; 50; 61; 71; 50; 52; 63; 73;
   52; 53; 64; 76; 55; 55; 66; 79; 58; 58; 68; 82; 31; 31; 32; 35; 40; 43; 46; 46; 46; 46; 47; 48; 50; 52;
   55; 58; 42; 42; 42; 45; 47; 48; 50; 50; 49; 49; 50; 50; 52; 53; 55; 58; 49; 47; 45; 46; 46; 49; 53; 55;
   57; 59; 60; 61; 63; 64; 66; 68; 57; 54; 52; 51; 50; 53; 56; 58; 61; 64; 67; 71; 73; 76; 79; 82; 32; 31;
   37; 48; 49; 52; 56; 61; 31; 31; 38; 47; 47; 50; 54; 58; 31; 31; 38; 47; 47; 50; 53; 57; 30; 32; 39; 46;
   46; 48; 52; 56; 30; 32; 40; 46; 45; 48; 51; 55; 32; 34; 41; 46; 45; 48; 51; 54; 33; 36; 43; 47; 46; 47;
   50; 54; 34; 37; 44; 47; 45; 47; 50; 53; 37; 40; 47; 47; 45; 47; 49; 52; 37; 40; 47; 48; 46; 47; 49; 53;
   42; 43; 47; 50; 49; 50; 53; 56; 42; 43; 47; 50; 49; 50; 53; 56; 47; 46; 48; 52; 53; 53; 55; 58; 49; 46;
   48; 53; 53; 54; 56; 59; 48; 46; 47; 53; 55; 56; 58; 61; 48; 46; 47; 53; 56; 57; 59; 62; 48; 45; 46; 53;
   57; 59; 61; 63; 49; 45; 46; 53; 58; 61; 63; 66; 49; 45; 46; 53; 58; 62; 64; 66; 50; 46; 46; 54; 59; 64;
   66; 69; 50; 46; 46; 54; 59; 64; 66; 69; 52; 48; 47; 54; 61; 66; 69; 72; 52; 48; 47; 54; 61; 66; 70; 73;
   53; 49; 48; 55; 62; 68; 71; 75; 54; 50; 49; 55; 62; 68; 72; 76; 55; 51; 49; 56; 63; 69; 74; 78; 57; 52;
   50; 56; 64; 70; 75; 79; 58; 53; 51; 57; 64; 71; 76; 80; 60; 54; 52; 58; 65; 72; 77; 82; 60; 55; 53; 59;
   65; 73; 78; 83; 63; 57; 55; 60; 67; 75; 80; 86; 63; 57; 55; 60; 67; 75; 80; 86; 32; 31; 31; 30; 30; 32;
   33; 34; 37; 37; 42; 42; 47; 49; 48; 48; 48; 49; 49; 50; 50; 52; 52; 53; 54; 55; 57; 58; 60; 60; 63; 63;
   31; 31; 31; 32; 32; 34; 36; 37; 40; 40; 43; 43; 46; 46; 46; 46; 45; 45; 45; 46; 46; 48; 48; 49; 50; 51;
   52; 53; 54; 55; 57; 57; 37; 38; 38; 39; 40; 41; 43; 44; 47; 47; 47; 47; 48; 48; 47; 47; 46; 46; 46; 46;
   46; 47; 47; 48; 49; 49; 50; 51; 52; 53; 55; 55; 48; 47; 47; 46; 46; 46; 47; 47; 47; 48; 50; 50; 52; 53;
   53; 53; 53; 53; 53; 54; 54; 54; 54; 55; 55; 56; 56; 57; 58; 59; 60; 60; 49; 47; 47; 46; 45; 45; 46; 45;
   45; 46; 49; 49; 53; 53; 55; 56; 57; 58; 58; 59; 59; 61; 61; 62; 62; 63; 64; 64; 65; 65; 67; 67; 52; 50;
   50; 48; 48; 48; 47; 47; 47; 47; 50; 50; 53; 54; 56; 57; 59; 61; 62; 64; 64; 66; 66; 68; 68; 69; 70; 71;
   72; 73; 75; 75; 56; 54; 53; 52; 51; 51; 50; 50; 49; 49; 53; 53; 55; 56; 58; 59; 61; 63; 64; 66; 66; 69;
   70; 71; 72; 74; 75; 76; 77; 78; 80; 80; 61; 58; 57; 56; 55; 54; 54; 53; 52; 53; 56; 56; 58; 59; 61; 62;
   63; 66; 66; 69; 69; 72; 73; 75; 76; 78; 79; 80; 82; 83; 86; 86]];
 [[32; 33; 42; 55; 33; 38; 46; 57; 42; 46; 63; 75; 55; 57; 75; 92; 31; 32; 32; 34; 38; 46; 52; 63; 32; 32;
   32; 34; 37; 44; 49; 59; 32; 32; 35; 37; 40; 45; 49; 58; 34; 34; 37; 42; 47; 52; 56; 65; 38; 37; 40; 47;
   54; 60; 65; 73; 46; 44; 45; 52; 60; 69; 75; 84; 52; 49; 49; 56; 65; 75; 82; 92; 63; 59; 58; 65; 73; 84;
   92; 105; 32; 31; 31; 31; 32; 32; 34; 36; 38; 41; 44; 48; 54; 58; 61; 65; 31; 32; 32; 32; 32; 32; 34;
   35; 38; 40; 42; 46; 51; 55; 58; 62; 31; 32; 32; 32; 32; 32; 33; 34; 37; 38; 41; 44; 49; 53; 56; 59; 31;
   32; 32; 33; 33; 33; 35; 36; 38; 40; 42; 45; 49; 53; 56; 59; 32; 32; 32; 33; 34; 34; 36; 37; 39; 40; 42;
   45; 49; 53; 55; 59; 32; 32; 32; 33; 34; 35; 37; 38; 40; 41; 42; 46; 49; 52; 55; 58; 34; 34; 33; 35; 36;
   37; 39; 42; 44; 46; 47; 51; 54; 57; 60; 63; 36; 35; 34; 36; 37; 38; 42; 48; 50; 52; 54; 57; 60; 63; 65;
   68; 38; 38; 37; 38; 39; 40; 44; 50; 52; 54; 57; 60; 64; 67; 69; 72; 41; 40; 38; 40; 40; 41; 46; 52; 54;
   57; 60; 63; 67; 70; 73; 75; 44; 42; 41; 42; 42; 42; 47; 54; 57; 60; 63; 67; 71; 74; 77; 79; 48; 46; 44;
   45; 45; 46; 51; 57; 60; 63; 67; 71; 76; 79; 82; 85; 54; 51; 49; 49; 49; 49; 54; 60; 64; 67; 71; 76; 82;
   86; 89; 92; 58; 55; 53; 53; 53; 52; 57; 63; 67; 70; 74; 79; 86; 90; 93; 97; 61; 58; 56; 56; 55; 55; 60;
   65; 69; 73; 77; 82; 89; 93; 97; 101; 65; 62; 59; 59; 59; 58; 63; 68; 72; 75; 79; 85; 92; 97; 101; 105;
   32; 31; 31; 31; 31; 31; 31; 31; 32; 32; 32; 33; 34; 34; 36; 36; 38; 39; 41; 44; 44; 47; 48; 50; 54; 54;
   58; 59; 61; 65; 65; 70; 31; 31; 31; 32; 32; 32; 32; 32; 32; 32; 32; 33; 34; 34; 35; 35; 38; 38; 40; 42;
   42; 46; 47; 49; 52; 52; 56; 57; 59; 63; 63; 67; 31; 31; 32; 32; 32; 32; 32; 32; 32; 32; 32; 33; 34; 34;
   35; 35; 38; 38; 40; 42; 42; 45; 46; 48; 51; 51; 55; 56; 58; 62; 62; 67; 31; 32; 32; 32; 32; 32; 32; 32;
   32; 32; 32; 33; 34; 34; 35; 35; 37; 38; 39; 42; 42; 45; 45; 47; 50; 50; 54; 55; 57; 61; 61; 65; 31; 32;
   32; 32; 32; 32; 32; 32; 32; 32; 32; 33; 33; 34; 34; 34; 37; 37; 38; 41; 41; 44; 44; 46; 49; 49; 53; 54;
   56; 59; 59; 64; 31; 32; 32; 32; 32; 32; 32; 32; 32; 32; 32; 33; 33; 34; 34; 34; 37; 37; 38; 41; 41; 44;
   44; 46; 49; 49; 53; 54; 56; 59; 59; 64; 31; 32; 32; 32; 32; 32; 33; 33; 33; 33; 33; 34; 35; 35; 36; 36;
   38; 39; 40; 42; 42; 44; 45; 47; 49; 49; 53; 54; 56; 59; 59; 63; 31; 32; 32; 32; 32; 32; 33; 33; 33; 34;
   34; 35; 35; 36; 36; 36; 38; 39; 40; 42; 42; 45; 45; 47; 50; 50; 53; 54; 56; 59; 59; 63; 32; 32; 32; 32;
   32; 32; 33; 33; 34; 34; 34; 35; 36; 36; 37; 37; 39; 39; 40; 42; 42; 45; 45; 47; 49; 49; 53; 54; 55; 59;
   59; 63; 32; 32; 32; 32; 32; 32; 33; 34; 34; 35; 35; 36; 37; 37; 38; 38; 40; 40; 41; 42; 42; 45; 46; 47;
   49; 49; 52; 53; 55; 58; 58; 62; 32; 32; 32; 32; 32; 32; 33; 34; 34; 35; 35; 36; 37; 37; 38; 38; 40; 40;
   41; 42; 42; 45; 46; 47; 49; 49; 52; 53; 55; 58; 58; 62; 33; 33; 33; 33; 33; 33; 34; 35; 35; 36; 36; 38;
   39; 40; 42; 42; 43; 44; 45; 46; 46; 49; 50; 51; 53; 53; 56; 57; 59; 62; 62; 66; 34; 34; 34; 34; 33; 33;
   35; 35; 36; 37; 37; 39; 39; 41; 42; 42; 44; 45; 46; 47; 47; 50; 51; 52; 54; 54; 57; 58; 60; 63; 63; 67;
   34; 34; 34; 34; 34; 34; 35; 36; 36; 37; 37; 40; 41; 42; 45; 45; 46; 47; 48; 50; 50; 52; 53; 54; 56; 56;
   59; 60; 62; 65; 65; 69; 36; 35; 35; 35; 34; 34; 36; 36; 37; 38; 38; 42; 42; 45; 48; 48; 50; 50; 52; 54;
   54; 56; 57; 58; 60; 60; 63; 64; 65; 68; 68; 72; 36; 35; 35; 35; 34; 34; 36; 36; 37; 38; 38; 42; 42; 45;
   48; 48; 50; 50; 52; 54; 54; 56; 57; 58; 60; 60; 63; 64; 65; 68; 68; 72; 38; 38; 38; 37; 37; 37; 38; 38;
   39; 40; 40; 43; 44; 46; 50; 50; 52; 53; 54; 57; 57; 59; 60; 61; 64; 64; 67; 68; 69; 72; 72; 76; 39; 38;
   38; 38; 37; 37; 39; 39; 39; 40; 40; 44; 45; 47; 50; 50; 53; 54; 55; 58; 58; 60; 61; 62; 65; 65; 68; 69;
   70; 73; 73; 77; 41; 40; 40; 39; 38; 38; 40; 40; 40; 41; 41; 45; 46; 48; 52; 52; 54; 55; 57; 60; 60; 62;
   63; 65; 67; 67; 70; 71; 73; 75; 75; 79; 44; 42; 42; 42; 41; 41; 42; 42; 42; 42; 42; 46; 47; 50; 54; 54;
   57; 58; 60; 63; 63; 66; 67; 68; 71; 71; 74; 75; 77; 79; 79; 83; 44; 42; 42; 42; 41; 41; 42; 42; 42; 42;
   42; 46; 47; 50; 54; 54; 57; 58; 60; 63; 63; 66; 67; 68; 71; 71; 74; 75; 77; 79; 79; 83; 47; 46; 45; 45;
   44; 44; 44; 45; 45; 45; 45; 49; 50; 52; 56; 56; 59; 60; 62; 66; 66; 69; 70; 72; 75; 75; 78; 79; 81; 84;
   84; 88; 48; 47; 46; 45; 44; 44; 45; 45; 45; 46; 46; 50; 51; 53; 57; 57; 60; 61; 63; 67; 67; 70; 71; 73;
   76; 76; 79; 80; 82; 85; 85; 89; 50; 49; 48; 47; 46; 46; 47; 47; 47; 47; 47; 51; 52; 54; 58; 58; 61; 62;
   65; 68; 68; 72; 73; 75; 78; 78; 82; 83; 85; 88; 88; 92; 54; 52; 51; 50; 49; 49; 49; 50; 49; 49; 49; 53;
   54; 56; 60; 60; 64; 65; 67; 71; 71; 75; 76; 78; 82; 82; 86; 87; 89; 92; 92; 96; 54; 52; 51; 50; 49; 49;
   49; 50; 49; 49; 49; 53; 54; 56; 60; 60; 64; 65; 67; 71; 71; 75; 76; 78; 82; 82; 86; 87; 89; 92; 92; 96;
   58; 56; 55; 54; 53; 53; 53; 53; 53; 52; 52; 56; 57; 59; 63; 63; 67; 68; 70; 74; 74; 78; 79; 82; 86; 86;
   90; 91; 93; 97; 97; 101; 59; 57; 56; 55; 54; 54; 54; 54; 54; 53; 53; 57; 58; 60; 64; 64; 68; 69; 71;
   75; 75; 79; 80; 83; 87; 87; 91; 92; 94; 98; 98; 102; 61; 59; 58; 57; 56; 56; 56; 56; 55; 55; 55; 59;
   60; 62; 65; 65; 69; 70; 73; 77; 77; 81; 82; 85; 89; 89; 93; 94; 97; 101; 101; 105; 65; 63; 62; 61; 59;
   59; 59; 59; 59; 58; 58; 62; 63; 65; 68; 68; 72; 73; 75; 79; 79; 84; 85; 88; 92; 92; 97; 98; 101; 105;
   105; 109; 65; 63; 62; 61; 59; 59; 59; 59; 59; 58; 58; 62; 63; 65; 68; 68; 72; 73; 75; 79; 79; 84; 85;
   88; 92; 92; 97; 98; 101; 105; 105; 109; 70; 67; 67; 65; 64; 64; 63; 63; 63; 62; 62; 66; 67; 69; 72; 72;
   76; 77; 79; 83; 83; 88; 89; 92; 96; 96; 101; 102; 105; 109; 109; 114; 32; 32; 42; 56; 32; 33; 41; 53;
   32; 35; 42; 52; 34; 37; 50; 59; 38; 40; 58; 68; 44; 45; 66; 78; 50; 50; 71; 86; 61; 58; 79; 97; 32; 32;
   32; 34; 38; 44; 50; 61; 32; 33; 35; 37; 40; 45; 50; 58; 42; 41; 42; 50; 58; 66; 71; 79; 56; 53; 52; 59;
   68; 78; 86; 97; 32; 31; 32; 35; 39; 44; 53; 65; 31; 32; 32; 35; 38; 42; 51; 62; 31; 32; 33; 34; 37; 41;
   49; 59; 31; 32; 34; 35; 38; 42; 49; 59; 32; 32; 34; 36; 39; 42; 49; 58; 32; 33; 35; 37; 40; 42; 49; 58;
   34; 34; 37; 41; 44; 48; 54; 63; 36; 34; 38; 46; 50; 54; 60; 68; 38; 37; 40; 47; 52; 57; 64; 72; 41; 39;
   41; 49; 54; 60; 67; 76; 44; 41; 43; 51; 57; 63; 71; 79; 48; 45; 46; 54; 60; 67; 76; 85; 53; 49; 50; 57;
   64; 71; 82; 92; 57; 53; 53; 60; 67; 74; 86; 97; 61; 56; 56; 63; 69; 77; 89; 100; 65; 60; 58; 66; 72;
   79; 92; 105; 32; 31; 31; 31; 32; 32; 34; 36; 38; 41; 44; 48; 53; 57; 61; 65; 31; 32; 32; 32; 32; 33;
   34; 34; 37; 39; 41; 45; 49; 53; 56; 60; 32; 32; 33; 34; 34; 35; 37; 38; 40; 41; 43; 46; 50; 53; 56; 58;
   35; 35; 34; 35; 36; 37; 41; 46; 47; 49; 51; 54; 57; 60; 63; 66; 39; 38; 37; 38; 39; 40; 44; 50; 52; 54;
   57; 60; 64; 67; 69; 72; 44; 42; 41; 42; 42; 42; 48; 54; 57; 60; 63; 67; 71; 74; 77; 79; 53; 51; 49; 49;
   49; 49; 54; 60; 64; 67; 71; 76; 82; 86; 89; 92; 65; 62; 59; 59; 58; 58; 63; 68; 72; 76; 79; 85; 92; 97;
   100; 105; 32; 31; 31; 31; 32; 32; 35; 36; 39; 44; 44; 51; 53; 58; 65; 65; 31; 32; 32; 32; 32; 32; 35;
   35; 38; 42; 42; 49; 52; 56; 63; 63; 31; 32; 32; 32; 32; 32; 35; 35; 38; 42; 42; 49; 51; 55; 62; 62; 31;
   32; 32; 32; 32; 32; 34; 35; 37; 41; 41; 48; 50; 54; 61; 61; 31; 32; 32; 32; 33; 33; 34; 34; 37; 41; 41;
   47; 49; 53; 59; 59; 31; 32; 32; 32; 33; 33; 34; 34; 37; 41; 41; 47; 49; 53; 59; 59; 31; 32; 32; 33; 34;
   34; 35; 36; 38; 42; 42; 48; 49; 53; 59; 59; 32; 32; 32; 33; 34; 34; 36; 36; 38; 42; 42; 48; 50; 53; 59;
   59; 32; 32; 32; 33; 34; 34; 36; 37; 39; 42; 42; 48; 49; 53; 58; 58; 32; 32; 33; 34; 35; 35; 37; 38; 40;
   42; 42; 48; 49; 52; 58; 58; 32; 32; 33; 34; 35; 35; 37; 38; 40; 42; 42; 48; 49; 52; 58; 58; 33; 33; 33;
   35; 36; 36; 40; 41; 43; 46; 46; 52; 53; 56; 62; 62; 34; 34; 34; 35; 37; 37; 41; 42; 44; 48; 48; 53; 54;
   57; 63; 63; 34; 34; 34; 35; 37; 37; 43; 44; 46; 50; 50; 55; 56; 59; 65; 65; 36; 35; 34; 36; 38; 38; 46;
   48; 50; 54; 54; 58; 60; 63; 68; 68; 36; 35; 34; 36; 38; 38; 46; 48; 50; 54; 54; 58; 60; 63; 68; 68; 38;
   37; 37; 38; 40; 40; 47; 50; 52; 57; 57; 62; 64; 67; 72; 72; 39; 38; 37; 39; 40; 40; 48; 50; 53; 58; 58;
   63; 65; 68; 73; 73; 41; 39; 39; 40; 41; 41; 49; 51; 54; 60; 60; 66; 67; 70; 76; 76; 44; 41; 41; 42; 43;
   43; 51; 53; 57; 63; 63; 69; 71; 74; 79; 79; 44; 41; 41; 42; 43; 43; 51; 53; 57; 63; 63; 69; 71; 74; 79;
   79; 47; 44; 44; 44; 45; 45; 53; 56; 59; 66; 66; 73; 75; 78; 84; 84; 48; 45; 45; 45; 46; 46; 54; 56; 60;
   67; 67; 74; 76; 79; 85; 85; 50; 47; 46; 47; 47; 47; 55; 58; 61; 68; 68; 76; 78; 82; 88; 88; 53; 50; 49;
   50; 50; 50; 57; 60; 64; 71; 71; 79; 82; 86; 92; 92; 53; 50; 49; 50; 50; 50; 57; 60; 64; 71; 71; 79; 82;
   86; 92; 92; 57; 54; 53; 53; 53; 53; 60; 63; 67; 74; 74; 83; 86; 90; 97; 97; 58; 55; 54; 54; 54; 54; 61;
   63; 68; 75; 75; 84; 87; 91; 98; 98; 61; 57; 56; 56; 56; 56; 63; 65; 69; 77; 77; 86; 89; 93; 100; 100;
   65; 61; 60; 59; 58; 58; 66; 68; 72; 79; 79; 89; 92; 97; 105; 105; 65; 61; 60; 59; 58; 58; 66; 68; 72;
   79; 79; 89; 92; 97; 105; 105; 70; 65; 64; 63; 62; 62; 70; 72; 76; 83; 83; 93; 96; 101; 109; 109; 32;
   31; 31; 31; 31; 31; 31; 32; 32; 32; 32; 33; 34; 34; 36; 36; 38; 39; 41; 44; 44; 47; 48; 50; 53; 53; 57;
   58; 61; 65; 65; 70; 31; 32; 32; 32; 32; 32; 32; 32; 32; 32; 32; 33; 34; 34; 35; 35; 37; 38; 39; 41; 41;
   44; 45; 47; 50; 50; 54; 55; 57; 61; 61; 65; 31; 32; 32; 32; 32; 32; 32; 32; 32; 33; 33; 33; 34; 34; 34;
   34; 37; 37; 39; 41; 41; 44; 45; 46; 49; 49; 53; 54; 56; 60; 60; 64; 31; 32; 32; 32; 32; 32; 33; 33; 33;
   34; 34; 35; 35; 35; 36; 36; 38; 39; 40; 42; 42; 44; 45; 47; 50; 50; 53; 54; 56; 59; 59; 63; 32; 32; 32;
   32; 33; 33; 34; 34; 34; 35; 35; 36; 37; 37; 38; 38; 40; 40; 41; 43; 43; 45; 46; 47; 50; 50; 53; 54; 56;
   58; 58; 62; 32; 32; 32; 32; 33; 33; 34; 34; 34; 35; 35; 36; 37; 37; 38; 38; 40; 40; 41; 43; 43; 45; 46;
   47; 50; 50; 53; 54; 56; 58; 58; 62; 35; 35; 35; 34; 34; 34; 35; 36; 36; 37; 37; 40; 41; 43; 46; 46; 47;
   48; 49; 51; 51; 53; 54; 55; 57; 57; 60; 61; 63; 66; 66; 70; 36; 35; 35; 35; 34; 34; 36; 36; 37; 38; 38;
   41; 42; 44; 48; 48; 50; 50; 51; 53; 53; 56; 56; 58; 60; 60; 63; 63; 65; 68; 68; 72; 39; 38; 38; 37; 37;
   37; 38; 38; 39; 40; 40; 43; 44; 46; 50; 50; 52; 53; 54; 57; 57; 59; 60; 61; 64; 64; 67; 68; 69; 72; 72;
   76; 44; 42; 42; 41; 41; 41; 42; 42; 42; 42; 42; 46; 48; 50; 54; 54; 57; 58; 60; 63; 63; 66; 67; 68; 71;
   71; 74; 75; 77; 79; 79; 83; 44; 42; 42; 41; 41; 41; 42; 42; 42; 42; 42; 46; 48; 50; 54; 54; 57; 58; 60;
   63; 63; 66; 67; 68; 71; 71; 74; 75; 77; 79; 79; 83; 51; 49; 49; 48; 47; 47; 48; 48; 48; 48; 48; 52; 53;
   55; 58; 58; 62; 63; 66; 69; 69; 73; 74; 76; 79; 79; 83; 84; 86; 89; 89; 93; 53; 52; 51; 50; 49; 49; 49;
   50; 49; 49; 49; 53; 54; 56; 60; 60; 64; 65; 67; 71; 71; 75; 76; 78; 82; 82; 86; 87; 89; 92; 92; 96; 58;
   56; 55; 54; 53; 53; 53; 53; 53; 52; 52; 56; 57; 59; 63; 63; 67; 68; 70; 74; 74; 78; 79; 82; 86; 86; 90;
   91; 93; 97; 97; 101; 65; 63; 62; 61; 59; 59; 59; 59; 58; 58; 58; 62; 63; 65; 68; 68; 72; 73; 76; 79;
   79; 84; 85; 88; 92; 92; 97; 98; 100; 105; 105; 109; 65; 63; 62; 61; 59; 59; 59; 59; 58; 58; 58; 62; 63;
   65; 68; 68; 72; 73; 76; 79; 79; 84; 85; 88; 92; 92; 97; 98; 100; 105; 105; 109; 31; 32; 44; 58; 32; 32;
   42; 55; 32; 33; 41; 53; 32; 34; 42; 53; 32; 34; 42; 53; 32; 35; 42; 52; 34; 37; 48; 57; 35; 38; 54; 63;
   37; 40; 57; 67; 39; 41; 60; 70; 41; 43; 63; 74; 45; 46; 67; 79; 50; 50; 71; 86; 54; 53; 74; 90; 57; 56;
   77; 93; 61; 58; 79; 97; 31; 32; 32; 32; 32; 32; 34; 35; 37; 39; 41; 45; 50; 54; 57; 61; 32; 32; 33; 34;
   34; 35; 37; 38; 40; 41; 43; 46; 50; 53; 56; 58; 44; 42; 41; 42; 42; 42; 48; 54; 57; 60; 63; 67; 71; 74;
   77; 79; 58; 55; 53; 53; 53; 52; 57; 63; 67; 70; 74; 79; 86; 90; 93; 97; 32; 31; 32; 35; 39; 44; 53; 65;
   31; 32; 32; 35; 38; 42; 52; 63; 31; 32; 32; 35; 38; 42; 51; 62; 31; 32; 32; 34; 37; 41; 50; 61; 31; 32;
   33; 34; 37; 41; 49; 59; 31; 32; 33; 34; 37; 41; 49; 59; 31; 32; 34; 35; 38; 42; 49; 59; 32; 32; 34; 36;
   38; 42; 50; 59; 32; 32; 34; 36; 39; 42; 49; 58; 32; 33; 35; 37; 40; 42; 49; 58; 32; 33; 35; 37; 40; 42;
   49; 58; 33; 33; 36; 40; 43; 46; 53; 62; 34; 34; 37; 41; 44; 48; 54; 63; 34; 34; 37; 43; 46; 50; 56; 65;
   36; 34; 38; 46; 50; 54; 60; 68; 36; 34; 38; 46; 50; 54; 60; 68; 38; 37; 40; 47; 52; 57; 64; 72; 39; 37;
   40; 48; 53; 58; 65; 73; 41; 39; 41; 49; 54; 60; 67; 76; 44; 41; 43; 51; 57; 63; 71; 79; 44; 41; 43; 51;
   57; 63; 71; 79; 47; 44; 45; 53; 59; 66; 75; 84; 48; 45; 46; 54; 60; 67; 76; 85; 50; 46; 47; 55; 61; 68;
   78; 88; 53; 49; 50; 57; 64; 71; 82; 92; 53; 49; 50; 57; 64; 71; 82; 92; 57; 53; 53; 60; 67; 74; 86; 97;
   58; 54; 54; 61; 68; 75; 87; 98; 61; 56; 56; 63; 69; 77; 89; 100; 65; 60; 58; 66; 72; 79; 92; 105; 65;
   60; 58; 66; 72; 79; 92; 105; 70; 64; 62; 70; 76; 83; 96; 109; 32; 31; 31; 31; 31; 31; 31; 32; 32; 32;
   32; 33; 34; 34; 36; 36; 38; 39; 41; 44; 44; 47; 48; 50; 53; 53; 57; 58; 61; 65; 65; 70; 31; 32; 32; 32;
   32; 32; 32; 32; 32; 33; 33; 33; 34; 34; 34; 34; 37; 37; 39; 41; 41; 44; 45; 46; 49; 49; 53; 54; 56; 60;
   60; 64; 32; 32; 32; 32; 33; 33; 34; 34; 34; 35; 35; 36; 37; 37; 38; 38; 40; 40; 41; 43; 43; 45; 46; 47;
   50; 50; 53; 54; 56; 58; 58; 62; 35; 35; 35; 34; 34; 34; 35; 36; 36; 37; 37; 40; 41; 43; 46; 46; 47; 48;
   49; 51; 51; 53; 54; 55; 57; 57; 60; 61; 63; 66; 66; 70; 39; 38; 38; 37; 37; 37; 38; 38; 39; 40; 40; 43;
   44; 46; 50; 50; 52; 53; 54; 57; 57; 59; 60; 61; 64; 64; 67; 68; 69; 72; 72; 76; 44; 42; 42; 41; 41; 41;
   42; 42; 42; 42; 42; 46; 48; 50; 54; 54; 57; 58; 60; 63; 63; 66; 67; 68; 71; 71; 74; 75; 77; 79; 79; 83;
   53; 52; 51; 50; 49; 49; 49; 50; 49; 49; 49; 53; 54; 56; 60; 60; 64; 65; 67; 71; 71; 75; 76; 78; 82; 82;
   86; 87; 89; 92; 92; 96; 65; 63; 62; 61; 59; 59; 59; 59; 58; 58; 58; 62; 63; 65; 68; 68; 72; 73; 76; 79;
   79; 84; 85; 88; 92; 92; 97; 98; 100; 105; 105; 109];
 [31; 41; 46; 51; 41; 48; 48; 51; 46; 48; 58; 62; 51; 51; 62; 71; 31; 31; 38; 44; 47; 48; 50; 55; 31; 32;
   40; 44; 45; 46; 47; 52; 38; 40; 47; 47; 46; 46; 47; 50; 44; 44; 47; 50; 51; 51; 52; 54; 47; 45; 46; 51;
   54; 56; 57; 60; 48; 46; 46; 51; 56; 61; 63; 66; 50; 47; 47; 52; 57; 63; 66; 70; 55; 52; 50; 54; 60; 66;
   70; 76; 32; 31; 30; 33; 34; 36; 41; 49; 48; 49; 49; 50; 52; 54; 55; 57; 31; 31; 31; 34; 36; 38; 42; 47;
   47; 47; 47; 48; 50; 51; 53; 54; 30; 31; 32; 34; 37; 40; 42; 46; 45; 45; 45; 46; 47; 49; 50; 52; 33; 34;
   34; 37; 40; 42; 44; 47; 46; 46; 45; 46; 47; 49; 50; 51; 34; 36; 37; 40; 42; 45; 46; 47; 46; 46; 45; 46;
   47; 48; 49; 50; 36; 38; 40; 42; 45; 47; 47; 48; 47; 46; 45; 46; 47; 48; 49; 50; 41; 42; 42; 44; 46; 47;
   48; 50; 50; 49; 49; 50; 50; 51; 52; 53; 49; 47; 46; 47; 47; 48; 50; 53; 53; 53; 53; 54; 54; 55; 56; 56;
   48; 47; 45; 46; 46; 47; 50; 53; 54; 54; 55; 56; 57; 58; 58; 59; 49; 47; 45; 46; 46; 46; 49; 53; 54; 55;
   57; 58; 59; 60; 60; 61; 49; 47; 45; 45; 45; 45; 49; 53; 55; 57; 58; 60; 61; 62; 63; 63; 50; 48; 46; 46;
   46; 46; 50; 54; 56; 58; 60; 61; 63; 65; 66; 67; 52; 50; 47; 47; 47; 47; 50; 54; 57; 59; 61; 63; 66; 68;
   69; 70; 54; 51; 49; 49; 48; 48; 51; 55; 58; 60; 62; 65; 68; 70; 71; 73; 55; 53; 50; 50; 49; 49; 52; 56;
   58; 60; 63; 66; 69; 71; 73; 74; 57; 54; 52; 51; 50; 50; 53; 56; 59; 61; 63; 67; 70; 73; 74; 76; 32; 31;
   31; 31; 30; 30; 33; 33; 34; 36; 36; 40; 41; 44; 49; 49; 48; 48; 49; 49; 49; 50; 50; 51; 52; 52; 54; 54;
   55; 57; 57; 59; 31; 31; 31; 31; 31; 31; 33; 34; 36; 38; 38; 41; 42; 44; 48; 48; 47; 47; 47; 47; 47; 48;
   49; 49; 50; 50; 52; 52; 53; 55; 55; 57; 31; 31; 31; 31; 31; 31; 34; 34; 36; 38; 38; 41; 42; 44; 47; 47;
   47; 47; 47; 47; 47; 48; 48; 49; 50; 50; 51; 52; 53; 54; 54; 56; 31; 31; 31; 31; 31; 31; 34; 35; 36; 39;
   39; 41; 42; 44; 47; 47; 46; 46; 46; 46; 46; 47; 47; 48; 49; 49; 50; 51; 52; 53; 53; 55; 30; 31; 31; 31;
   32; 32; 34; 35; 37; 40; 40; 42; 42; 44; 46; 46; 45; 45; 45; 45; 45; 46; 46; 47; 47; 47; 49; 49; 50; 52;
   52; 54; 30; 31; 31; 31; 32; 32; 34; 35; 37; 40; 40; 42; 42; 44; 46; 46; 45; 45; 45; 45; 45; 46; 46; 47;
   47; 47; 49; 49; 50; 52; 52; 54; 33; 33; 34; 34; 34; 34; 37; 38; 40; 42; 42; 44; 44; 45; 47; 47; 46; 46;
   46; 45; 45; 46; 46; 47; 47; 47; 49; 49; 50; 51; 51; 53; 33; 34; 34; 35; 35; 35; 38; 39; 40; 43; 43; 44;
   45; 46; 47; 47; 46; 46; 46; 45; 45; 46; 46; 47; 47; 47; 49; 49; 50; 51; 51; 53; 34; 36; 36; 36; 37; 37;
   40; 40; 42; 45; 45; 45; 46; 46; 47; 47; 46; 46; 46; 45; 45; 46; 46; 47; 47; 47; 48; 49; 49; 50; 50; 52;
   36; 38; 38; 39; 40; 40; 42; 43; 45; 47; 47; 47; 47; 47; 48; 48; 47; 46; 46; 45; 45; 46; 46; 46; 47; 47;
   48; 48; 49; 50; 50; 51; 36; 38; 38; 39; 40; 40; 42; 43; 45; 47; 47; 47; 47; 47; 48; 48; 47; 46; 46; 45;
   45; 46; 46; 46; 47; 47; 48; 48; 49; 50; 50; 51; 40; 41; 41; 41; 42; 42; 44; 44; 45; 47; 47; 48; 48; 49;
   50; 50; 49; 49; 49; 48; 48; 49; 49; 49; 49; 49; 51; 51; 51; 52; 52; 54; 41; 42; 42; 42; 42; 42; 44; 45;
   46; 47; 47; 48; 48; 49; 50; 50; 50; 49; 49; 49; 49; 50; 50; 50; 50; 50; 51; 52; 52; 53; 53; 55; 44; 44;
   44; 44; 44; 44; 45; 46; 46; 47; 47; 49; 49; 50; 51; 51; 51; 51; 51; 51; 51; 51; 51; 51; 52; 52; 53; 53;
   54; 54; 54; 56; 49; 48; 47; 47; 46; 46; 47; 47; 47; 48; 48; 50; 50; 51; 53; 53; 53; 53; 53; 53; 53; 54;
   54; 54; 54; 54; 55; 55; 56; 56; 56; 58; 49; 48; 47; 47; 46; 46; 47; 47; 47; 48; 48; 50; 50; 51; 53; 53;
   53; 53; 53; 53; 53; 54; 54; 54; 54; 54; 55; 55; 56; 56; 56; 58; 48; 47; 47; 46; 45; 45; 46; 46; 46; 47;
   47; 49; 50; 51; 53; 53; 54; 54; 54; 55; 55; 56; 56; 56; 57; 57; 58; 58; 58; 59; 59; 60; 48; 47; 47; 46;
   45; 45; 46; 46; 46; 46; 46; 49; 49; 51; 53; 53; 54; 54; 55; 55; 55; 56; 56; 57; 57; 57; 58; 58; 59; 60;
   60; 61; 49; 47; 47; 46; 45; 45; 46; 46; 46; 46; 46; 49; 49; 51; 53; 53; 54; 55; 55; 57; 57; 57; 58; 58;
   59; 59; 60; 60; 60; 61; 61; 63; 49; 47; 47; 46; 45; 45; 45; 45; 45; 45; 45; 48; 49; 51; 53; 53; 55; 55;
   57; 58; 58; 59; 60; 60; 61; 61; 62; 62; 63; 63; 63; 65; 49; 47; 47; 46; 45; 45; 45; 45; 45; 45; 45; 48;
   49; 51; 53; 53; 55; 55; 57; 58; 58; 59; 60; 60; 61; 61; 62; 62; 63; 63; 63; 65; 50; 48; 48; 47; 46; 46;
   46; 46; 46; 46; 46; 49; 50; 51; 54; 54; 56; 56; 57; 59; 59; 61; 61; 62; 63; 63; 64; 64; 65; 66; 66; 67;
   50; 49; 48; 47; 46; 46; 46; 46; 46; 46; 46; 49; 50; 51; 54; 54; 56; 56; 58; 60; 60; 61; 61; 62; 63; 63;
   65; 65; 66; 67; 67; 68; 51; 49; 49; 48; 47; 47; 47; 47; 47; 46; 46; 49; 50; 51; 54; 54; 56; 57; 58; 60;
   60; 62; 62; 63; 65; 65; 66; 66; 67; 68; 68; 70; 52; 50; 50; 49; 47; 47; 47; 47; 47; 47; 47; 49; 50; 52;
   54; 54; 57; 57; 59; 61; 61; 63; 63; 65; 66; 66; 68; 68; 69; 70; 70; 72; 52; 50; 50; 49; 47; 47; 47; 47;
   47; 47; 47; 49; 50; 52; 54; 54; 57; 57; 59; 61; 61; 63; 63; 65; 66; 66; 68; 68; 69; 70; 70; 72; 54; 52;
   51; 50; 49; 49; 49; 49; 48; 48; 48; 51; 51; 53; 55; 55; 58; 58; 60; 62; 62; 64; 65; 66; 68; 68; 70; 70;
   71; 73; 73; 74; 54; 52; 52; 51; 49; 49; 49; 49; 49; 48; 48; 51; 52; 53; 55; 55; 58; 58; 60; 62; 62; 64;
   65; 66; 68; 68; 70; 71; 72; 73; 73; 75; 55; 53; 53; 52; 50; 50; 50; 50; 49; 49; 49; 51; 52; 54; 56; 56;
   58; 59; 60; 63; 63; 65; 66; 67; 69; 69; 71; 72; 73; 74; 74; 76; 57; 55; 54; 53; 52; 52; 51; 51; 50; 50;
   50; 52; 53; 54; 56; 56; 59; 60; 61; 63; 63; 66; 67; 68; 70; 70; 73; 73; 74; 76; 76; 78; 57; 55; 54; 53;
   52; 52; 51; 51; 50; 50; 50; 52; 53; 54; 56; 56; 59; 60; 61; 63; 63; 66; 67; 68; 70; 70; 73; 73; 74; 76;
   76; 78; 59; 57; 56; 55; 54; 54; 53; 53; 52; 51; 51; 54; 55; 56; 58; 58; 60; 61; 63; 65; 65; 67; 68; 70;
   72; 72; 74; 75; 76; 78; 78; 80; 31; 38; 47; 52; 32; 40; 45; 49; 39; 47; 45; 48; 44; 47; 51; 53; 46; 47;
   56; 58; 47; 46; 59; 64; 48; 47; 61; 68; 53; 50; 64; 73; 31; 32; 39; 44; 46; 47; 48; 53; 38; 40; 47; 47;
   47; 46; 47; 50; 47; 45; 45; 51; 56; 59; 61; 64; 52; 49; 48; 53; 58; 64; 68; 73; 32; 31; 37; 45; 48; 49;
   52; 57; 31; 31; 38; 45; 47; 47; 50; 54; 30; 32; 40; 44; 45; 45; 48; 52; 33; 35; 42; 46; 46; 45; 47; 51;
   35; 37; 44; 46; 46; 45; 47; 51; 37; 40; 47; 47; 47; 45; 47; 50; 42; 43; 47; 49; 50; 49; 50; 53; 49; 46;
   48; 52; 53; 53; 54; 57; 48; 46; 47; 51; 54; 55; 57; 59; 48; 45; 46; 51; 54; 57; 59; 61; 49; 45; 46; 51;
   55; 58; 61; 64; 50; 46; 46; 52; 56; 59; 64; 67; 52; 48; 47; 53; 57; 61; 66; 71; 54; 49; 48; 54; 58; 62;
   68; 73; 55; 51; 49; 54; 58; 63; 69; 74; 57; 52; 50; 55; 59; 64; 70; 76; 32; 31; 30; 33; 35; 37; 42; 49;
   48; 48; 49; 50; 52; 54; 55; 57; 31; 31; 32; 35; 37; 40; 43; 46; 46; 45; 45; 46; 48; 49; 51; 52; 37; 38;
   40; 42; 44; 47; 47; 48; 47; 46; 46; 46; 47; 48; 49; 50; 45; 45; 44; 46; 46; 47; 49; 52; 51; 51; 51; 52;
   53; 54; 54; 55; 48; 47; 45; 46; 46; 47; 50; 53; 54; 54; 55; 56; 57; 58; 58; 59; 49; 47; 45; 45; 45; 45;
   49; 53; 55; 57; 58; 59; 61; 62; 63; 64; 52; 50; 48; 47; 47; 47; 50; 54; 57; 59; 61; 64; 66; 68; 69; 70;
   57; 54; 52; 51; 51; 50; 53; 57; 59; 61; 64; 67; 71; 73; 74; 76; 32; 31; 31; 33; 37; 37; 45; 48; 48; 49;
   49; 51; 52; 54; 57; 57; 31; 31; 31; 34; 38; 38; 45; 47; 47; 47; 47; 50; 50; 52; 55; 55; 31; 31; 31; 34;
   38; 38; 45; 47; 47; 47; 47; 49; 50; 51; 54; 54; 31; 31; 32; 34; 39; 39; 45; 46; 46; 46; 46; 48; 49; 51;
   53; 53; 30; 32; 32; 35; 40; 40; 44; 46; 45; 45; 45; 47; 48; 49; 52; 52; 30; 32; 32; 35; 40; 40; 44; 46;
   45; 45; 45; 47; 48; 49; 52; 52; 33; 34; 35; 37; 42; 42; 46; 47; 46; 45; 45; 47; 47; 49; 51; 51; 33; 35;
   36; 38; 43; 43; 46; 47; 46; 46; 46; 47; 47; 49; 51; 51; 35; 37; 37; 40; 44; 44; 46; 47; 46; 45; 45; 47;
   47; 48; 51; 51; 37; 39; 40; 43; 47; 47; 47; 47; 47; 45; 45; 46; 47; 48; 50; 50; 37; 39; 40; 43; 47; 47;
   47; 47; 47; 45; 45; 46; 47; 48; 50; 50; 41; 42; 42; 44; 47; 47; 49; 49; 49; 48; 48; 49; 50; 51; 52; 52;
   42; 42; 43; 44; 47; 47; 49; 50; 50; 49; 49; 50; 50; 51; 53; 53; 44; 44; 44; 45; 47; 47; 50; 51; 51; 51;
   51; 52; 52; 53; 54; 54; 49; 47; 46; 47; 48; 48; 52; 53; 53; 53; 53; 54; 54; 55; 57; 57; 49; 47; 46; 47;
   48; 48; 52; 53; 53; 53; 53; 54; 54; 55; 57; 57; 48; 46; 46; 46; 47; 47; 51; 53; 54; 55; 55; 56; 57; 58;
   59; 59; 48; 46; 46; 46; 47; 47; 51; 53; 54; 56; 56; 57; 57; 58; 60; 60; 48; 46; 45; 46; 46; 46; 51; 53;
   54; 57; 57; 58; 59; 60; 61; 61; 49; 46; 45; 45; 46; 46; 51; 53; 55; 58; 58; 61; 61; 62; 64; 64; 49; 46;
   45; 45; 46; 46; 51; 53; 55; 58; 58; 61; 61; 62; 64; 64; 50; 47; 46; 46; 46; 46; 52; 54; 56; 59; 59; 62;
   63; 64; 66; 66; 50; 47; 46; 46; 46; 46; 52; 54; 56; 59; 59; 63; 64; 65; 67; 67; 51; 48; 47; 47; 47; 47;
   52; 54; 56; 60; 60; 64; 65; 66; 68; 68; 52; 48; 48; 47; 47; 47; 53; 54; 57; 61; 61; 65; 66; 68; 71; 71;
   52; 48; 48; 47; 47; 47; 53; 54; 57; 61; 61; 65; 66; 68; 71; 71; 54; 50; 49; 49; 48; 48; 54; 55; 58; 62;
   62; 67; 68; 70; 73; 73; 54; 51; 50; 49; 49; 49; 54; 55; 58; 62; 62; 67; 68; 70; 73; 73; 55; 51; 51; 50;
   49; 49; 54; 56; 58; 63; 63; 68; 69; 71; 74; 74; 57; 53; 52; 51; 50; 50; 55; 56; 59; 64; 64; 69; 70; 73;
   76; 76; 57; 53; 52; 51; 50; 50; 55; 56; 59; 64; 64; 69; 70; 73; 76; 76; 59; 55; 54; 53; 52; 52; 57; 58;
   61; 65; 65; 70; 72; 74; 78; 78; 32; 31; 31; 31; 30; 30; 33; 33; 35; 37; 37; 41; 42; 44; 49; 49; 48; 48;
   48; 49; 49; 50; 50; 51; 52; 52; 54; 54; 55; 57; 57; 59; 31; 31; 31; 31; 32; 32; 34; 35; 37; 39; 39; 42;
   42; 44; 47; 47; 46; 46; 46; 46; 46; 47; 47; 48; 48; 48; 50; 51; 51; 53; 53; 55; 31; 31; 31; 32; 32; 32;
   35; 36; 37; 40; 40; 42; 43; 44; 46; 46; 46; 46; 45; 45; 45; 46; 46; 47; 48; 48; 49; 50; 51; 52; 52; 54;
   33; 34; 34; 34; 35; 35; 37; 38; 40; 43; 43; 44; 44; 45; 47; 47; 46; 46; 46; 45; 45; 46; 46; 47; 47; 47;
   49; 49; 50; 51; 51; 53; 37; 38; 38; 39; 40; 40; 42; 43; 44; 47; 47; 47; 47; 47; 48; 48; 47; 47; 46; 46;
   46; 46; 46; 47; 47; 47; 48; 49; 49; 50; 50; 52; 37; 38; 38; 39; 40; 40; 42; 43; 44; 47; 47; 47; 47; 47;
   48; 48; 47; 47; 46; 46; 46; 46; 46; 47; 47; 47; 48; 49; 49; 50; 50; 52; 45; 45; 45; 45; 44; 44; 46; 46;
   46; 47; 47; 49; 49; 50; 52; 52; 51; 51; 51; 51; 51; 52; 52; 52; 53; 53; 54; 54; 54; 55; 55; 57; 48; 47;
   47; 46; 46; 46; 47; 47; 47; 47; 47; 49; 50; 51; 53; 53; 53; 53; 53; 53; 53; 54; 54; 54; 54; 54; 55; 55;
   56; 56; 56; 58; 48; 47; 47; 46; 45; 45; 46; 46; 46; 47; 47; 49; 50; 51; 53; 53; 54; 54; 54; 55; 55; 56;
   56; 56; 57; 57; 58; 58; 58; 59; 59; 61; 49; 47; 47; 46; 45; 45; 45; 46; 45; 45; 45; 48; 49; 51; 53; 53;
   55; 56; 57; 58; 58; 59; 59; 60; 61; 61; 62; 62; 63; 64; 64; 65; 49; 47; 47; 46; 45; 45; 45; 46; 45; 45;
   45; 48; 49; 51; 53; 53; 55; 56; 57; 58; 58; 59; 59; 60; 61; 61; 62; 62; 63; 64; 64; 65; 51; 50; 49; 48;
   47; 47; 47; 47; 47; 46; 46; 49; 50; 52; 54; 54; 56; 57; 58; 61; 61; 62; 63; 64; 65; 65; 67; 67; 68; 69;
   69; 70; 52; 50; 50; 49; 48; 48; 47; 47; 47; 47; 47; 50; 50; 52; 54; 54; 57; 57; 59; 61; 61; 63; 64; 65;
   66; 66; 68; 68; 69; 70; 70; 72; 54; 52; 51; 51; 49; 49; 49; 49; 48; 48; 48; 51; 51; 53; 55; 55; 58; 58;
   60; 62; 62; 64; 65; 66; 68; 68; 70; 70; 71; 73; 73; 74; 57; 55; 54; 53; 52; 52; 51; 51; 51; 50; 50; 52;
   53; 54; 57; 57; 59; 60; 61; 64; 64; 66; 67; 68; 71; 71; 73; 73; 74; 76; 76; 78; 57; 55; 54; 53; 52; 52;
   51; 51; 51; 50; 50; 52; 53; 54; 57; 57; 59; 60; 61; 64; 64; 66; 67; 68; 71; 71; 73; 73; 74; 76; 76; 78;
   31; 37; 49; 54; 31; 38; 47; 51; 32; 40; 45; 49; 34; 42; 45; 49; 37; 44; 45; 48; 39; 47; 45; 48; 42; 47;
   49; 51; 47; 48; 53; 55; 46; 47; 55; 58; 46; 46; 57; 60; 46; 46; 58; 62; 47; 46; 59; 65; 48; 47; 61; 68;
   50; 48; 62; 70; 51; 49; 63; 71; 53; 50; 64; 73; 31; 31; 32; 34; 37; 39; 42; 47; 46; 46; 46; 47; 48; 50;
   51; 53; 37; 38; 40; 42; 44; 47; 47; 48; 47; 46; 46; 46; 47; 48; 49; 50; 49; 47; 45; 45; 45; 45; 49; 53;
   55; 57; 58; 59; 61; 62; 63; 64; 54; 51; 49; 49; 48; 48; 51; 55; 58; 60; 62; 65; 68; 70; 71; 73; 32; 31;
   37; 45; 48; 49; 52; 57; 31; 31; 38; 45; 47; 47; 50; 55; 31; 31; 38; 45; 47; 47; 50; 54; 31; 32; 39; 45;
   46; 46; 49; 53; 30; 32; 40; 44; 45; 45; 48; 52; 30; 32; 40; 44; 45; 45; 48; 52; 33; 35; 42; 46; 46; 45;
   47; 51; 33; 36; 43; 46; 46; 46; 47; 51; 35; 37; 44; 46; 46; 45; 47; 51; 37; 40; 47; 47; 47; 45; 47; 50;
   37; 40; 47; 47; 47; 45; 47; 50; 41; 42; 47; 49; 49; 48; 50; 52; 42; 43; 47; 49; 50; 49; 50; 53; 44; 44;
   47; 50; 51; 51; 52; 54; 49; 46; 48; 52; 53; 53; 54; 57; 49; 46; 48; 52; 53; 53; 54; 57; 48; 46; 47; 51;
   54; 55; 57; 59; 48; 46; 47; 51; 54; 56; 57; 60; 48; 45; 46; 51; 54; 57; 59; 61; 49; 45; 46; 51; 55; 58;
   61; 64; 49; 45; 46; 51; 55; 58; 61; 64; 50; 46; 46; 52; 56; 59; 63; 66; 50; 46; 46; 52; 56; 59; 64; 67;
   51; 47; 47; 52; 56; 60; 65; 68; 52; 48; 47; 53; 57; 61; 66; 71; 52; 48; 47; 53; 57; 61; 66; 71; 54; 49;
   48; 54; 58; 62; 68; 73; 54; 50; 49; 54; 58; 62; 68; 73; 55; 51; 49; 54; 58; 63; 69; 74; 57; 52; 50; 55;
   59; 64; 70; 76; 57; 52; 50; 55; 59; 64; 70; 76; 59; 54; 52; 57; 61; 65; 72; 78; 32; 31; 31; 31; 30; 30;
   33; 33; 35; 37; 37; 41; 42; 44; 49; 49; 48; 48; 48; 49; 49; 50; 50; 51; 52; 52; 54; 54; 55; 57; 57; 59;
   31; 31; 31; 32; 32; 32; 35; 36; 37; 40; 40; 42; 43; 44; 46; 46; 46; 46; 45; 45; 45; 46; 46; 47; 48; 48;
   49; 50; 51; 52; 52; 54; 37; 38; 38; 39; 40; 40; 42; 43; 44; 47; 47; 47; 47; 47; 48; 48; 47; 47; 46; 46;
   46; 46; 46; 47; 47; 47; 48; 49; 49; 50; 50; 52; 45; 45; 45; 45; 44; 44; 46; 46; 46; 47; 47; 49; 49; 50;
   52; 52; 51; 51; 51; 51; 51; 52; 52; 52; 53; 53; 54; 54; 54; 55; 55; 57; 48; 47; 47; 46; 45; 45; 46; 46;
   46; 47; 47; 49; 50; 51; 53; 53; 54; 54; 54; 55; 55; 56; 56; 56; 57; 57; 58; 58; 58; 59; 59; 61; 49; 47;
   47; 46; 45; 45; 45; 46; 45; 45; 45; 48; 49; 51; 53; 53; 55; 56; 57; 58; 58; 59; 59; 60; 61; 61; 62; 62;
   63; 64; 64; 65; 52; 50; 50; 49; 48; 48; 47; 47; 47; 47; 47; 50; 50; 52; 54; 54; 57; 57; 59; 61; 61; 63;
   64; 65; 66; 66; 68; 68; 69; 70; 70; 72; 57; 55; 54; 53; 52; 52; 51; 51; 51; 50; 50; 52; 53; 54; 57; 57;
   59; 60; 61; 64; 64; 66; 67; 68; 71; 71; 73; 73; 74; 76; 76; 78]];
 [[32; 32; 38; 51; 32; 35; 40; 49; 38; 40; 54; 64; 51; 49; 64; 81; 31; 32; 32; 34; 35; 41; 47; 53; 32; 32;
   32; 33; 34; 40; 44; 50; 32; 32; 34; 35; 37; 41; 45; 51; 34; 33; 35; 39; 42; 47; 51; 55; 35; 34; 37; 42;
   48; 53; 57; 61; 41; 40; 41; 47; 53; 60; 65; 70; 47; 44; 45; 51; 57; 65; 71; 77; 53; 50; 51; 55; 61; 70;
   77; 85; 32; 31; 31; 31; 31; 32; 32; 34; 36; 38; 39; 44; 47; 49; 54; 59; 31; 32; 32; 32; 32; 32; 33; 34;
   35; 37; 38; 42; 45; 47; 51; 56; 31; 32; 32; 32; 32; 32; 33; 33; 34; 36; 37; 41; 44; 46; 50; 54; 31; 32;
   32; 32; 32; 33; 33; 34; 35; 36; 38; 41; 44; 45; 49; 54; 31; 32; 32; 32; 33; 34; 34; 35; 36; 38; 39; 42;
   45; 46; 50; 54; 32; 32; 32; 33; 34; 35; 36; 37; 38; 39; 40; 42; 45; 46; 49; 53; 32; 33; 33; 33; 34; 36;
   36; 38; 40; 41; 42; 44; 47; 48; 51; 55; 34; 34; 33; 34; 35; 37; 38; 39; 42; 44; 45; 47; 50; 51; 54; 58;
   36; 35; 34; 35; 36; 38; 40; 42; 48; 50; 50; 54; 56; 57; 60; 64; 38; 37; 36; 36; 38; 39; 41; 44; 50; 51;
   52; 56; 58; 60; 63; 67; 39; 38; 37; 38; 39; 40; 42; 45; 50; 52; 54; 58; 60; 62; 65; 69; 44; 42; 41; 41;
   42; 42; 44; 47; 54; 56; 58; 63; 66; 68; 71; 75; 47; 45; 44; 44; 45; 45; 47; 50; 56; 58; 60; 66; 69; 71;
   75; 79; 49; 47; 46; 45; 46; 46; 48; 51; 57; 60; 62; 68; 71; 73; 77; 81; 54; 51; 50; 49; 50; 49; 51; 54;
   60; 63; 65; 71; 75; 77; 82; 87; 59; 56; 54; 54; 54; 53; 55; 58; 64; 67; 69; 75; 79; 81; 87; 92; 32; 31;
   31; 31; 31; 31; 31; 31; 31; 32; 32; 32; 32; 34; 34; 35; 36; 36; 38; 39; 39; 42; 44; 44; 47; 48; 49; 53;
   54; 55; 59; 59; 31; 31; 31; 31; 32; 32; 32; 32; 32; 32; 32; 32; 33; 34; 34; 34; 35; 35; 37; 39; 39; 41;
   43; 43; 46; 47; 48; 51; 52; 53; 57; 57; 31; 31; 32; 32; 32; 32; 32; 32; 32; 32; 32; 32; 33; 34; 34; 34;
   35; 35; 37; 38; 38; 41; 42; 43; 45; 46; 47; 51; 51; 53; 56; 56; 31; 31; 32; 32; 32; 32; 32; 32; 32; 32;
   32; 32; 33; 34; 34; 34; 35; 35; 37; 38; 38; 41; 42; 42; 45; 46; 47; 51; 51; 52; 56; 56; 31; 32; 32; 32;
   32; 32; 32; 32; 32; 32; 32; 32; 33; 33; 33; 34; 34; 34; 36; 37; 37; 40; 41; 41; 44; 45; 46; 49; 50; 51;
   54; 54; 31; 32; 32; 32; 32; 32; 32; 32; 32; 32; 32; 32; 33; 33; 33; 34; 34; 34; 36; 37; 37; 40; 41; 41;
   44; 44; 45; 49; 49; 50; 54; 54; 31; 32; 32; 32; 32; 32; 32; 32; 32; 33; 33; 33; 33; 34; 34; 34; 35; 35;
   36; 38; 38; 40; 41; 41; 44; 45; 45; 49; 49; 50; 54; 54; 31; 32; 32; 32; 32; 32; 32; 33; 33; 33; 34; 34;
   34; 35; 35; 35; 36; 36; 38; 39; 39; 41; 42; 42; 44; 45; 46; 49; 50; 51; 54; 54; 31; 32; 32; 32; 32; 32;
   32; 33; 33; 33; 34; 34; 34; 35; 35; 36; 36; 36; 38; 39; 39; 41; 42; 42; 45; 45; 46; 49; 50; 51; 54; 54;
   32; 32; 32; 32; 32; 32; 33; 33; 33; 34; 34; 34; 35; 35; 35; 36; 37; 37; 38; 39; 39; 41; 42; 42; 45; 45;
   46; 49; 49; 51; 54; 54; 32; 32; 32; 32; 32; 32; 33; 34; 34; 34; 35; 35; 36; 37; 37; 37; 38; 38; 39; 40;
   40; 42; 42; 43; 45; 46; 46; 49; 49; 50; 53; 53; 32; 32; 32; 32; 32; 32; 33; 34; 34; 34; 35; 35; 36; 37;
   37; 37; 38; 38; 39; 40; 40; 42; 42; 43; 45; 46; 46; 49; 49; 50; 53; 53; 32; 33; 33; 33; 33; 33; 33; 34;
   34; 35; 36; 36; 36; 38; 38; 39; 40; 40; 41; 42; 42; 44; 44; 45; 47; 47; 48; 51; 51; 52; 55; 55; 34; 34;
   34; 34; 33; 33; 34; 35; 35; 35; 37; 37; 38; 39; 39; 41; 42; 42; 44; 45; 45; 47; 47; 48; 50; 51; 51; 54;
   54; 55; 58; 58; 34; 34; 34; 34; 33; 33; 34; 35; 35; 35; 37; 37; 38; 39; 39; 41; 42; 42; 44; 45; 45; 47;
   47; 48; 50; 51; 51; 54; 54; 55; 58; 58; 35; 34; 34; 34; 34; 34; 34; 35; 36; 36; 37; 37; 39; 41; 41; 43;
   45; 45; 47; 47; 47; 49; 50; 51; 53; 53; 54; 57; 57; 58; 61; 61; 36; 35; 35; 35; 34; 34; 35; 36; 36; 37;
   38; 38; 40; 42; 42; 45; 48; 48; 50; 50; 50; 53; 54; 54; 56; 57; 57; 59; 60; 61; 64; 64; 36; 35; 35; 35;
   34; 34; 35; 36; 36; 37; 38; 38; 40; 42; 42; 45; 48; 48; 50; 50; 50; 53; 54; 54; 56; 57; 57; 59; 60; 61;
   64; 64; 38; 37; 37; 37; 36; 36; 36; 38; 38; 38; 39; 39; 41; 44; 44; 47; 50; 50; 51; 52; 52; 55; 56; 56;
   58; 59; 60; 62; 63; 64; 67; 67; 39; 39; 38; 38; 37; 37; 38; 39; 39; 39; 40; 40; 42; 45; 45; 47; 50; 50;
   52; 54; 54; 56; 58; 58; 60; 61; 62; 64; 65; 66; 69; 69; 39; 39; 38; 38; 37; 37; 38; 39; 39; 39; 40; 40;
   42; 45; 45; 47; 50; 50; 52; 54; 54; 56; 58; 58; 60; 61; 62; 64; 65; 66; 69; 69; 42; 41; 41; 41; 40; 40;
   40; 41; 41; 41; 42; 42; 44; 47; 47; 49; 53; 53; 55; 56; 56; 60; 61; 62; 64; 65; 66; 69; 69; 70; 73; 73;
   44; 43; 42; 42; 41; 41; 41; 42; 42; 42; 42; 42; 44; 47; 47; 50; 54; 54; 56; 58; 58; 61; 63; 64; 66; 67;
   68; 71; 71; 72; 75; 75; 44; 43; 43; 42; 41; 41; 41; 42; 42; 42; 43; 43; 45; 48; 48; 51; 54; 54; 56; 58;
   58; 62; 64; 64; 66; 67; 68; 71; 72; 73; 76; 76; 47; 46; 45; 45; 44; 44; 44; 44; 45; 45; 45; 45; 47; 50;
   50; 53; 56; 56; 58; 60; 60; 64; 66; 66; 69; 70; 71; 74; 75; 76; 79; 79; 48; 47; 46; 46; 45; 44; 45; 45;
   45; 45; 46; 46; 47; 51; 51; 53; 57; 57; 59; 61; 61; 65; 67; 67; 70; 71; 72; 75; 76; 77; 80; 80; 49; 48;
   47; 47; 46; 45; 45; 46; 46; 46; 46; 46; 48; 51; 51; 54; 57; 57; 60; 62; 62; 66; 68; 68; 71; 72; 73; 77;
   77; 78; 81; 81; 53; 51; 51; 51; 49; 49; 49; 49; 49; 49; 49; 49; 51; 54; 54; 57; 59; 59; 62; 64; 64; 69;
   71; 71; 74; 75; 77; 81; 81; 83; 86; 86; 54; 52; 51; 51; 50; 49; 49; 50; 50; 49; 49; 49; 51; 54; 54; 57;
   60; 60; 63; 65; 65; 69; 71; 72; 75; 76; 77; 81; 82; 83; 87; 87; 55; 53; 53; 52; 51; 50; 50; 51; 51; 51;
   50; 50; 52; 55; 55; 58; 61; 61; 64; 66; 66; 70; 72; 73; 76; 77; 78; 83; 83; 85; 88; 88; 59; 57; 56; 56;
   54; 54; 54; 54; 54; 54; 53; 53; 55; 58; 58; 61; 64; 64; 67; 69; 69; 73; 75; 76; 79; 80; 81; 86; 87; 88;
   92; 92; 59; 57; 56; 56; 54; 54; 54; 54; 54; 54; 53; 53; 55; 58; 58; 61; 64; 64; 67; 69; 69; 73; 75; 76;
   79; 80; 81; 86; 87; 88; 92; 92; 32; 32; 37; 52; 32; 33; 36; 49; 32; 34; 38; 49; 34; 37; 44; 54; 35; 38;
   49; 60; 40; 42; 55; 69; 46; 46; 59; 76; 52; 51; 64; 83; 32; 32; 32; 34; 35; 40; 46; 52; 32; 33; 34; 37;
   38; 42; 46; 51; 37; 36; 38; 44; 49; 55; 59; 64; 52; 49; 49; 54; 60; 69; 76; 83; 32; 31; 32; 32; 36; 44;
   47; 53; 31; 32; 32; 33; 35; 42; 45; 51; 31; 32; 32; 33; 35; 41; 44; 49; 31; 32; 33; 33; 35; 41; 44; 49;
   32; 32; 34; 34; 36; 42; 45; 50; 32; 33; 35; 36; 38; 42; 45; 49; 32; 33; 35; 36; 40; 44; 47; 51; 34; 34;
   36; 38; 42; 48; 50; 54; 36; 34; 37; 40; 48; 54; 56; 60; 38; 36; 39; 41; 49; 56; 58; 63; 39; 37; 40; 42;
   50; 58; 60; 65; 44; 41; 42; 45; 53; 63; 66; 71; 47; 44; 45; 47; 56; 66; 69; 75; 49; 46; 47; 48; 57; 67;
   71; 77; 53; 49; 50; 51; 60; 71; 75; 82; 58; 54; 54; 55; 63; 75; 79; 87; 32; 31; 31; 31; 32; 32; 32; 34;
   36; 38; 39; 44; 47; 49; 53; 58; 31; 32; 32; 32; 32; 33; 33; 34; 34; 36; 37; 41; 44; 46; 49; 54; 32; 32;
   32; 33; 34; 35; 35; 36; 37; 39; 40; 42; 45; 47; 50; 54; 32; 33; 33; 33; 34; 36; 36; 38; 40; 41; 42; 45;
   47; 48; 51; 55; 36; 35; 35; 35; 36; 38; 40; 42; 48; 49; 50; 53; 56; 57; 60; 63; 44; 42; 41; 41; 42; 42;
   44; 48; 54; 56; 58; 63; 66; 67; 71; 75; 47; 45; 44; 44; 45; 45; 47; 50; 56; 58; 60; 66; 69; 71; 75; 79;
   53; 51; 49; 49; 50; 49; 51; 54; 60; 63; 65; 71; 75; 77; 82; 87; 32; 31; 31; 31; 32; 32; 32; 35; 36; 38;
   44; 44; 47; 53; 53; 59; 31; 32; 32; 32; 32; 32; 33; 35; 35; 37; 43; 43; 46; 52; 52; 57; 31; 32; 32; 32;
   32; 32; 33; 35; 35; 37; 42; 42; 45; 51; 51; 56; 31; 32; 32; 32; 32; 32; 33; 35; 35; 37; 42; 42; 45; 51;
   51; 56; 31; 32; 32; 32; 32; 32; 33; 34; 35; 36; 41; 41; 44; 49; 49; 54; 31; 32; 32; 32; 32; 33; 33; 34;
   34; 36; 41; 41; 44; 49; 49; 54; 31; 32; 32; 32; 33; 33; 33; 35; 35; 36; 41; 41; 44; 49; 49; 54; 32; 32;
   32; 32; 33; 34; 34; 36; 36; 38; 42; 42; 45; 49; 49; 54; 32; 32; 32; 33; 34; 34; 34; 36; 36; 38; 42; 42;
   45; 50; 50; 54; 32; 32; 32; 33; 34; 34; 35; 37; 37; 38; 42; 42; 45; 49; 49; 54; 32; 32; 33; 33; 35; 35;
   36; 38; 38; 39; 42; 42; 45; 49; 49; 53; 32; 32; 33; 33; 35; 35; 36; 38; 38; 39; 42; 42; 45; 49; 49; 53;
   32; 33; 33; 33; 35; 36; 36; 39; 40; 41; 44; 44; 47; 51; 51; 55; 34; 34; 34; 34; 36; 37; 38; 42; 42; 44;
   48; 48; 50; 54; 54; 58; 34; 34; 34; 34; 36; 37; 38; 42; 42; 44; 48; 48; 50; 54; 54; 58; 35; 34; 34; 34;
   37; 37; 39; 44; 45; 46; 50; 50; 53; 57; 57; 61; 36; 35; 34; 35; 37; 38; 40; 47; 48; 49; 54; 54; 56; 60;
   60; 64; 36; 35; 34; 35; 37; 38; 40; 47; 48; 49; 54; 54; 56; 60; 60; 64; 38; 37; 36; 37; 39; 40; 41; 48;
   49; 51; 56; 56; 58; 63; 63; 67; 39; 38; 37; 38; 40; 40; 42; 49; 50; 52; 58; 58; 60; 65; 65; 69; 39; 38;
   37; 38; 40; 40; 42; 49; 50; 52; 58; 58; 60; 65; 65; 69; 42; 40; 40; 40; 42; 42; 44; 51; 52; 55; 61; 61;
   64; 69; 69; 73; 44; 42; 41; 41; 42; 43; 45; 52; 53; 56; 63; 63; 66; 71; 71; 75; 44; 42; 41; 41; 43; 43;
   45; 52; 54; 56; 63; 63; 66; 72; 72; 76; 47; 45; 44; 44; 45; 45; 47; 54; 56; 58; 66; 66; 69; 75; 75; 79;
   48; 46; 45; 45; 46; 46; 48; 55; 56; 59; 67; 67; 70; 76; 76; 80; 49; 47; 46; 46; 47; 47; 48; 56; 57; 60;
   67; 67; 71; 77; 77; 81; 53; 50; 49; 49; 49; 49; 51; 58; 59; 62; 71; 71; 74; 81; 81; 86; 53; 51; 49; 49;
   50; 50; 51; 59; 60; 63; 71; 71; 75; 82; 82; 87; 55; 52; 51; 51; 51; 51; 53; 60; 61; 64; 72; 72; 76; 83;
   83; 88; 58; 55; 54; 54; 54; 54; 55; 62; 63; 67; 75; 75; 79; 87; 87; 92; 58; 55; 54; 54; 54; 54; 55; 62;
   63; 67; 75; 75; 79; 87; 87; 92; 32; 31; 31; 31; 31; 31; 31; 32; 32; 32; 32; 32; 32; 34; 34; 35; 36; 36;
   38; 39; 39; 42; 44; 44; 47; 48; 49; 53; 53; 55; 58; 58; 31; 32; 32; 32; 32; 32; 32; 32; 32; 32; 32; 32;
   33; 34; 34; 34; 35; 35; 37; 38; 38; 40; 42; 42; 45; 46; 47; 50; 51; 52; 55; 55; 31; 32; 32; 32; 32; 32;
   32; 32; 32; 32; 33; 33; 33; 34; 34; 34; 34; 34; 36; 37; 37; 40; 41; 41; 44; 45; 46; 49; 49; 51; 54; 54;
   31; 32; 32; 32; 32; 32; 32; 32; 33; 33; 33; 33; 33; 34; 34; 34; 35; 35; 37; 38; 38; 40; 41; 41; 44; 45;
   46; 49; 49; 51; 54; 54; 32; 32; 32; 32; 32; 32; 33; 33; 34; 34; 35; 35; 35; 36; 36; 37; 37; 37; 39; 40;
   40; 42; 42; 43; 45; 46; 47; 49; 50; 51; 54; 54; 32; 32; 32; 32; 32; 33; 33; 34; 34; 34; 35; 35; 36; 37;
   37; 37; 38; 38; 40; 40; 40; 42; 43; 43; 45; 46; 47; 49; 50; 51; 54; 54; 32; 33; 33; 33; 33; 33; 33; 34;
   34; 35; 36; 36; 36; 38; 38; 39; 40; 40; 41; 42; 42; 44; 45; 45; 47; 48; 48; 51; 51; 53; 55; 55; 35; 35;
   35; 35; 34; 34; 35; 36; 36; 37; 38; 38; 39; 42; 42; 44; 47; 47; 48; 49; 49; 51; 52; 52; 54; 55; 56; 58;
   59; 60; 62; 62; 36; 35; 35; 35; 35; 34; 35; 36; 36; 37; 38; 38; 40; 42; 42; 45; 48; 48; 49; 50; 50; 52;
   53; 54; 56; 56; 57; 59; 60; 61; 63; 63; 38; 37; 37; 37; 36; 36; 36; 38; 38; 38; 39; 39; 41; 44; 44; 46;
   49; 49; 51; 52; 52; 55; 56; 56; 58; 59; 60; 62; 63; 64; 67; 67; 44; 43; 42; 42; 41; 41; 41; 42; 42; 42;
   42; 42; 44; 48; 48; 50; 54; 54; 56; 58; 58; 61; 63; 63; 66; 67; 67; 71; 71; 72; 75; 75; 44; 43; 42; 42;
   41; 41; 41; 42; 42; 42; 42; 42; 44; 48; 48; 50; 54; 54; 56; 58; 58; 61; 63; 63; 66; 67; 67; 71; 71; 72;
   75; 75; 47; 46; 45; 45; 44; 44; 44; 45; 45; 45; 45; 45; 47; 50; 50; 53; 56; 56; 58; 60; 60; 64; 66; 66;
   69; 70; 71; 74; 75; 76; 79; 79; 53; 52; 51; 51; 49; 49; 49; 49; 50; 49; 49; 49; 51; 54; 54; 57; 60; 60;
   63; 65; 65; 69; 71; 72; 75; 76; 77; 81; 82; 83; 87; 87; 53; 52; 51; 51; 49; 49; 49; 49; 50; 49; 49; 49;
   51; 54; 54; 57; 60; 60; 63; 65; 65; 69; 71; 72; 75; 76; 77; 81; 82; 83; 87; 87; 59; 57; 56; 56; 54; 54;
   54; 54; 54; 54; 53; 53; 55; 58; 58; 61; 64; 64; 67; 69; 69; 73; 75; 76; 79; 80; 81; 86; 87; 88; 92; 92;
   31; 32; 38; 53; 32; 32; 37; 51; 32; 32; 36; 49; 32; 33; 36; 49; 32; 34; 38; 50; 32; 35; 39; 49; 33; 36;
   41; 51; 34; 37; 44; 54; 35; 38; 49; 60; 37; 40; 51; 63; 38; 40; 52; 65; 42; 43; 56; 71; 45; 45; 58; 75;
   47; 47; 60; 77; 51; 50; 63; 82; 55; 54; 67; 87; 31; 32; 32; 32; 32; 32; 33; 34; 35; 37; 38; 42; 45; 47;
   51; 55; 32; 32; 32; 33; 34; 35; 36; 37; 38; 40; 40; 43; 45; 47; 50; 54; 38; 37; 36; 36; 38; 39; 41; 44;
   49; 51; 52; 56; 58; 60; 63; 67; 53; 51; 49; 49; 50; 49; 51; 54; 60; 63; 65; 71; 75; 77; 82; 87; 32; 31;
   32; 32; 36; 44; 47; 53; 31; 32; 32; 33; 35; 43; 46; 52; 31; 32; 32; 33; 35; 42; 45; 51; 31; 32; 32; 33;
   35; 42; 45; 51; 31; 32; 32; 33; 35; 41; 44; 49; 31; 32; 32; 33; 34; 41; 44; 49; 31; 32; 33; 33; 35; 41;
   44; 49; 32; 32; 33; 34; 36; 42; 45; 49; 32; 32; 34; 34; 36; 42; 45; 50; 32; 32; 34; 35; 37; 42; 45; 49;
   32; 33; 35; 36; 38; 42; 45; 49; 32; 33; 35; 36; 38; 42; 45; 49; 32; 33; 35; 36; 40; 44; 47; 51; 34; 34;
   36; 38; 42; 48; 50; 54; 34; 34; 36; 38; 42; 48; 50; 54; 35; 34; 37; 39; 45; 50; 53; 57; 36; 34; 37; 40;
   48; 54; 56; 60; 36; 34; 37; 40; 48; 54; 56; 60; 38; 36; 39; 41; 49; 56; 58; 63; 39; 37; 40; 42; 50; 58;
   60; 65; 39; 37; 40; 42; 50; 58; 60; 65; 42; 40; 42; 44; 52; 61; 64; 69; 44; 41; 42; 45; 53; 63; 66; 71;
   44; 41; 43; 45; 54; 63; 66; 72; 47; 44; 45; 47; 56; 66; 69; 75; 48; 45; 46; 48; 56; 67; 70; 76; 49; 46;
   47; 48; 57; 67; 71; 77; 53; 49; 49; 51; 59; 71; 74; 81; 53; 49; 50; 51; 60; 71; 75; 82; 55; 51; 51; 53;
   61; 72; 76; 83; 58; 54; 54; 55; 63; 75; 79; 87; 58; 54; 54; 55; 63; 75; 79; 87; 32; 31; 31; 31; 31; 31;
   31; 32; 32; 32; 32; 32; 32; 34; 34; 35; 36; 36; 38; 39; 39; 42; 44; 44; 47; 48; 49; 53; 53; 55; 58; 58;
   31; 32; 32; 32; 32; 32; 32; 32; 32; 32; 33; 33; 33; 34; 34; 34; 34; 34; 36; 37; 37; 40; 41; 41; 44; 45;
   46; 49; 49; 51; 54; 54; 32; 32; 32; 32; 32; 32; 33; 33; 34; 34; 35; 35; 35; 36; 36; 37; 37; 37; 39; 40;
   40; 42; 42; 43; 45; 46; 47; 49; 50; 51; 54; 54; 32; 33; 33; 33; 33; 33; 33; 34; 34; 35; 36; 36; 36; 38;
   38; 39; 40; 40; 41; 42; 42; 44; 45; 45; 47; 48; 48; 51; 51; 53; 55; 55; 36; 35; 35; 35; 35; 34; 35; 36;
   36; 37; 38; 38; 40; 42; 42; 45; 48; 48; 49; 50; 50; 52; 53; 54; 56; 56; 57; 59; 60; 61; 63; 63; 44; 43;
   42; 42; 41; 41; 41; 42; 42; 42; 42; 42; 44; 48; 48; 50; 54; 54; 56; 58; 58; 61; 63; 63; 66; 67; 67; 71;
   71; 72; 75; 75; 47; 46; 45; 45; 44; 44; 44; 45; 45; 45; 45; 45; 47; 50; 50; 53; 56; 56; 58; 60; 60; 64;
   66; 66; 69; 70; 71; 74; 75; 76; 79; 79; 53; 52; 51; 51; 49; 49; 49; 49; 50; 49; 49; 49; 51; 54; 54; 57;
   60; 60; 63; 65; 65; 69; 71; 72; 75; 76; 77; 81; 82; 83; 87; 87];
 [31; 38; 47; 49; 38; 47; 46; 46; 47; 46; 54; 57; 49; 46; 57; 66; 31; 31; 35; 42; 48; 47; 49; 51; 31; 32;
   36; 42; 46; 45; 46; 48; 35; 36; 41; 45; 47; 45; 46; 48; 42; 42; 45; 48; 50; 49; 50; 51; 48; 46; 47; 50;
   53; 53; 54; 54; 47; 45; 45; 49; 53; 57; 59; 60; 49; 46; 46; 50; 54; 59; 61; 64; 51; 48; 48; 51; 54; 60;
   64; 68; 32; 31; 30; 31; 33; 36; 38; 41; 49; 49; 48; 49; 50; 51; 52; 54; 31; 31; 31; 32; 34; 38; 40; 42;
   47; 47; 47; 47; 48; 48; 50; 52; 30; 31; 31; 32; 35; 39; 41; 42; 46; 46; 46; 45; 46; 47; 48; 50; 31; 32;
   32; 33; 36; 40; 41; 43; 46; 46; 45; 45; 46; 46; 47; 49; 33; 34; 35; 36; 39; 43; 44; 45; 47; 46; 46; 45;
   46; 47; 47; 49; 36; 38; 39; 40; 43; 47; 47; 47; 48; 47; 46; 45; 46; 46; 47; 48; 38; 40; 41; 41; 44; 47;
   47; 48; 49; 48; 48; 47; 47; 47; 48; 49; 41; 42; 42; 43; 45; 47; 48; 48; 50; 50; 49; 49; 50; 50; 50; 52;
   49; 47; 46; 46; 47; 48; 49; 50; 53; 53; 53; 53; 54; 54; 54; 55; 49; 47; 46; 46; 46; 47; 48; 50; 53; 53;
   54; 55; 55; 55; 56; 57; 48; 47; 46; 45; 46; 46; 48; 49; 53; 54; 54; 55; 56; 56; 57; 58; 49; 47; 45; 45;
   45; 45; 47; 49; 53; 55; 55; 58; 59; 60; 61; 62; 50; 48; 46; 46; 46; 46; 47; 50; 54; 55; 56; 59; 61; 61;
   63; 64; 51; 48; 47; 46; 47; 46; 47; 50; 54; 55; 56; 60; 61; 62; 64; 66; 52; 50; 48; 47; 47; 47; 48; 50;
   54; 56; 57; 61; 63; 64; 66; 68; 54; 52; 50; 49; 49; 48; 49; 52; 55; 57; 58; 62; 64; 66; 68; 71; 32; 31;
   31; 31; 30; 30; 31; 33; 33; 34; 36; 36; 38; 41; 41; 45; 49; 49; 49; 48; 48; 49; 49; 49; 50; 50; 51; 52;
   52; 53; 54; 54; 31; 31; 31; 31; 31; 31; 31; 34; 34; 35; 38; 38; 39; 42; 42; 45; 48; 48; 47; 47; 47; 47;
   47; 47; 49; 49; 49; 50; 50; 51; 53; 53; 31; 31; 31; 31; 31; 31; 32; 34; 34; 35; 38; 38; 40; 42; 42; 45;
   47; 47; 47; 47; 47; 47; 47; 47; 48; 48; 48; 49; 50; 50; 52; 52; 31; 31; 31; 31; 31; 31; 32; 34; 34; 36;
   38; 38; 40; 42; 42; 45; 47; 47; 47; 47; 47; 47; 46; 47; 48; 48; 48; 49; 49; 50; 52; 52; 30; 31; 31; 31;
   31; 31; 32; 35; 35; 36; 39; 39; 41; 42; 42; 44; 46; 46; 46; 46; 46; 45; 45; 45; 46; 47; 47; 48; 48; 48;
   50; 50; 30; 31; 31; 31; 31; 32; 32; 35; 35; 36; 40; 40; 41; 42; 42; 44; 46; 46; 46; 45; 45; 45; 45; 45;
   46; 46; 46; 47; 47; 48; 49; 49; 31; 31; 32; 32; 32; 32; 33; 35; 36; 37; 40; 40; 41; 43; 43; 44; 46; 46;
   46; 45; 45; 45; 45; 45; 46; 46; 46; 47; 47; 48; 49; 49; 33; 34; 34; 34; 35; 35; 35; 38; 38; 40; 43; 43;
   43; 44; 44; 46; 47; 47; 46; 46; 46; 45; 45; 45; 46; 46; 47; 47; 47; 48; 49; 49; 33; 34; 34; 34; 35; 35;
   36; 38; 39; 40; 43; 43; 44; 45; 45; 46; 47; 47; 46; 46; 46; 45; 45; 45; 46; 46; 47; 47; 47; 48; 49; 49;
   34; 35; 35; 36; 36; 36; 37; 40; 40; 41; 44; 44; 45; 45; 45; 46; 47; 47; 47; 46; 46; 45; 45; 45; 46; 46;
   46; 47; 47; 48; 49; 49; 36; 38; 38; 38; 39; 40; 40; 43; 43; 44; 47; 47; 47; 47; 47; 47; 48; 48; 47; 46;
   46; 45; 45; 45; 46; 46; 46; 46; 47; 47; 48; 48; 36; 38; 38; 38; 39; 40; 40; 43; 43; 44; 47; 47; 47; 47;
   47; 47; 48; 48; 47; 46; 46; 45; 45; 45; 46; 46; 46; 46; 47; 47; 48; 48; 38; 39; 40; 40; 41; 41; 41; 43;
   44; 45; 47; 47; 47; 48; 48; 48; 49; 49; 48; 48; 48; 47; 47; 47; 47; 47; 47; 48; 48; 48; 49; 49; 41; 42;
   42; 42; 42; 42; 43; 44; 45; 45; 47; 47; 48; 48; 48; 49; 50; 50; 50; 49; 49; 49; 49; 49; 50; 50; 50; 50;
   50; 51; 52; 52; 41; 42; 42; 42; 42; 42; 43; 44; 45; 45; 47; 47; 48; 48; 48; 49; 50; 50; 50; 49; 49; 49;
   49; 49; 50; 50; 50; 50; 50; 51; 52; 52; 45; 45; 45; 45; 44; 44; 44; 46; 46; 46; 47; 47; 48; 49; 49; 50;
   51; 51; 51; 51; 51; 51; 51; 51; 52; 52; 52; 52; 52; 52; 53; 53; 49; 48; 47; 47; 46; 46; 46; 47; 47; 47;
   48; 48; 49; 50; 50; 51; 53; 53; 53; 53; 53; 53; 53; 53; 54; 54; 54; 54; 54; 54; 55; 55; 49; 48; 47; 47;
   46; 46; 46; 47; 47; 47; 48; 48; 49; 50; 50; 51; 53; 53; 53; 53; 53; 53; 53; 53; 54; 54; 54; 54; 54; 54;
   55; 55; 49; 47; 47; 47; 46; 46; 46; 46; 46; 47; 47; 47; 48; 50; 50; 51; 53; 53; 53; 54; 54; 54; 55; 55;
   55; 55; 55; 56; 56; 56; 57; 57; 48; 47; 47; 47; 46; 45; 45; 46; 46; 46; 46; 46; 48; 49; 49; 51; 53; 53;
   54; 54; 54; 55; 55; 56; 56; 56; 56; 57; 57; 58; 58; 58; 48; 47; 47; 47; 46; 45; 45; 46; 46; 46; 46; 46;
   48; 49; 49; 51; 53; 53; 54; 54; 54; 55; 55; 56; 56; 56; 56; 57; 57; 58; 58; 58; 49; 47; 47; 47; 45; 45;
   45; 45; 45; 45; 45; 45; 47; 49; 49; 51; 53; 53; 54; 55; 55; 57; 57; 58; 58; 59; 59; 60; 60; 60; 61; 61;
   49; 47; 47; 46; 45; 45; 45; 45; 45; 45; 45; 45; 47; 49; 49; 51; 53; 53; 55; 55; 55; 57; 58; 58; 59; 60;
   60; 61; 61; 61; 62; 62; 49; 47; 47; 47; 45; 45; 45; 45; 45; 45; 45; 45; 47; 49; 49; 51; 53; 53; 55; 56;
   56; 58; 58; 59; 59; 60; 60; 61; 61; 62; 63; 63; 50; 49; 48; 48; 46; 46; 46; 46; 46; 46; 46; 46; 47; 50;
   50; 52; 54; 54; 55; 56; 56; 58; 59; 59; 61; 61; 61; 63; 63; 63; 64; 64; 50; 49; 48; 48; 47; 46; 46; 46;
   46; 46; 46; 46; 47; 50; 50; 52; 54; 54; 55; 56; 56; 59; 60; 60; 61; 61; 62; 63; 63; 64; 65; 65; 51; 49;
   48; 48; 47; 46; 46; 47; 47; 46; 46; 46; 47; 50; 50; 52; 54; 54; 55; 56; 56; 59; 60; 60; 61; 62; 62; 64;
   64; 64; 66; 66; 52; 50; 49; 49; 48; 47; 47; 47; 47; 47; 46; 46; 48; 50; 50; 52; 54; 54; 56; 57; 57; 60;
   61; 61; 63; 63; 64; 66; 66; 67; 68; 68; 52; 50; 50; 49; 48; 47; 47; 47; 47; 47; 47; 47; 48; 50; 50; 52;
   54; 54; 56; 57; 57; 60; 61; 61; 63; 63; 64; 66; 66; 67; 68; 68; 53; 51; 50; 50; 48; 48; 48; 48; 48; 48;
   47; 47; 48; 51; 51; 52; 54; 54; 56; 58; 58; 60; 61; 62; 63; 64; 64; 67; 67; 68; 69; 69; 54; 53; 52; 52;
   50; 49; 49; 49; 49; 49; 48; 48; 49; 52; 52; 53; 55; 55; 57; 58; 58; 61; 62; 63; 64; 65; 66; 68; 68; 69;
   71; 71; 54; 53; 52; 52; 50; 49; 49; 49; 49; 49; 48; 48; 49; 52; 52; 53; 55; 55; 57; 58; 58; 61; 62; 63;
   64; 65; 66; 68; 68; 69; 71; 71; 31; 38; 47; 50; 31; 40; 46; 48; 36; 44; 47; 47; 42; 47; 50; 50; 47; 48;
   53; 54; 46; 46; 54; 60; 48; 46; 55; 64; 50; 48; 56; 67; 31; 31; 36; 42; 47; 46; 48; 50; 38; 40; 44; 47;
   48; 46; 46; 48; 47; 46; 47; 50; 53; 54; 55; 56; 50; 48; 47; 50; 54; 60; 64; 67; 32; 31; 35; 38; 48; 49;
   50; 52; 31; 31; 37; 40; 47; 47; 48; 50; 30; 32; 38; 40; 46; 45; 46; 48; 31; 33; 38; 41; 46; 45; 46; 48;
   33; 36; 41; 44; 47; 46; 46; 47; 37; 40; 45; 47; 47; 45; 46; 47; 39; 41; 46; 47; 48; 47; 47; 48; 42; 43;
   46; 48; 50; 49; 50; 50; 49; 46; 48; 49; 53; 53; 54; 54; 48; 46; 47; 48; 53; 55; 55; 56; 48; 46; 46; 48;
   53; 56; 56; 57; 49; 45; 45; 47; 53; 58; 59; 61; 50; 46; 46; 48; 54; 59; 61; 63; 51; 47; 47; 48; 54; 60;
   61; 64; 52; 48; 47; 48; 54; 61; 63; 66; 54; 50; 49; 50; 55; 62; 65; 68; 32; 31; 30; 31; 33; 37; 39; 42;
   49; 48; 48; 49; 50; 51; 52; 54; 31; 31; 32; 33; 36; 40; 41; 43; 46; 46; 46; 45; 46; 47; 48; 50; 35; 37;
   38; 38; 41; 45; 46; 46; 48; 47; 46; 45; 46; 47; 47; 49; 38; 40; 40; 41; 44; 47; 47; 48; 49; 48; 48; 47;
   48; 48; 48; 50; 48; 47; 46; 46; 47; 47; 48; 50; 53; 53; 53; 53; 54; 54; 54; 55; 49; 47; 45; 45; 46; 45;
   47; 49; 53; 55; 56; 58; 59; 60; 61; 62; 50; 48; 46; 46; 46; 46; 47; 50; 54; 55; 56; 59; 61; 61; 63; 65;
   52; 50; 48; 48; 47; 47; 48; 50; 54; 56; 57; 61; 63; 64; 66; 68; 32; 31; 31; 31; 35; 37; 38; 47; 48; 48;
   49; 49; 50; 52; 52; 54; 31; 31; 31; 32; 36; 38; 39; 46; 47; 47; 48; 48; 49; 50; 50; 53; 31; 31; 31; 32;
   37; 38; 40; 46; 47; 47; 47; 47; 48; 50; 50; 52; 31; 31; 31; 32; 37; 38; 40; 46; 47; 47; 47; 47; 48; 50;
   50; 52; 30; 31; 32; 32; 38; 39; 40; 45; 46; 46; 45; 45; 46; 48; 48; 50; 30; 31; 32; 33; 38; 40; 41; 45;
   46; 46; 45; 45; 46; 48; 48; 50; 31; 32; 33; 33; 38; 40; 41; 45; 46; 46; 45; 45; 46; 48; 48; 50; 33; 35;
   35; 36; 41; 43; 43; 46; 47; 46; 45; 45; 46; 47; 47; 49; 33; 35; 36; 36; 41; 43; 44; 46; 47; 46; 46; 46;
   46; 47; 47; 49; 34; 36; 37; 37; 42; 44; 45; 47; 47; 47; 45; 45; 46; 47; 47; 49; 37; 39; 40; 41; 45; 47;
   47; 47; 47; 47; 45; 45; 46; 47; 47; 48; 37; 39; 40; 41; 45; 47; 47; 47; 47; 47; 45; 45; 46; 47; 47; 48;
   39; 40; 41; 42; 46; 47; 47; 48; 48; 48; 47; 47; 47; 48; 48; 50; 42; 42; 43; 43; 46; 47; 48; 50; 50; 50;
   49; 49; 50; 50; 50; 52; 42; 42; 43; 43; 46; 47; 48; 50; 50; 50; 49; 49; 50; 50; 50; 52; 45; 45; 44; 45;
   47; 47; 48; 51; 51; 51; 51; 51; 52; 52; 52; 54; 49; 47; 46; 47; 48; 48; 49; 52; 53; 53; 53; 53; 54; 54;
   54; 55; 49; 47; 46; 47; 48; 48; 49; 52; 53; 53; 53; 53; 54; 54; 54; 55; 48; 47; 46; 46; 47; 47; 48; 52;
   53; 53; 55; 55; 55; 56; 56; 57; 48; 46; 46; 46; 46; 47; 48; 52; 53; 54; 56; 56; 56; 57; 57; 59; 48; 46;
   46; 46; 46; 47; 48; 52; 53; 54; 56; 56; 56; 57; 57; 59; 49; 46; 45; 45; 46; 46; 47; 52; 53; 54; 57; 57;
   58; 60; 60; 61; 49; 46; 45; 45; 45; 46; 47; 52; 53; 55; 58; 58; 59; 61; 61; 62; 49; 46; 45; 45; 46; 46;
   47; 52; 53; 55; 58; 58; 60; 61; 61; 63; 50; 47; 46; 46; 46; 46; 48; 53; 54; 55; 59; 59; 61; 63; 63; 65;
   50; 48; 46; 46; 46; 46; 48; 53; 54; 55; 59; 59; 61; 64; 64; 65; 51; 48; 47; 47; 47; 47; 48; 53; 54; 55;
   60; 60; 61; 64; 64; 66; 52; 49; 48; 48; 47; 47; 48; 53; 54; 56; 61; 61; 63; 66; 66; 68; 52; 49; 48; 48;
   47; 47; 48; 53; 54; 56; 61; 61; 63; 66; 66; 68; 53; 50; 48; 48; 48; 48; 49; 54; 54; 56; 61; 61; 63; 67;
   67; 69; 54; 51; 50; 50; 49; 49; 50; 55; 55; 57; 62; 62; 65; 68; 68; 71; 54; 51; 50; 50; 49; 49; 50; 55;
   55; 57; 62; 62; 65; 68; 68; 71; 32; 31; 31; 31; 30; 30; 31; 33; 33; 34; 37; 37; 39; 42; 42; 45; 49; 49;
   48; 48; 48; 49; 49; 49; 50; 50; 51; 52; 52; 53; 54; 54; 31; 31; 31; 31; 31; 31; 32; 35; 35; 36; 39; 39;
   40; 42; 42; 45; 47; 47; 47; 46; 46; 46; 46; 46; 47; 48; 48; 49; 49; 50; 51; 51; 31; 31; 31; 31; 32; 32;
   33; 35; 36; 37; 40; 40; 41; 43; 43; 44; 46; 46; 46; 46; 46; 45; 45; 45; 46; 46; 47; 48; 48; 48; 50; 50;
   31; 32; 32; 32; 32; 33; 33; 36; 36; 37; 41; 41; 42; 43; 43; 45; 47; 47; 46; 46; 46; 45; 45; 45; 46; 46;
   47; 48; 48; 48; 50; 50; 35; 36; 37; 37; 38; 38; 38; 41; 41; 42; 45; 45; 46; 46; 46; 47; 48; 48; 47; 46;
   46; 46; 45; 46; 46; 46; 47; 47; 47; 48; 49; 49; 37; 38; 38; 38; 39; 40; 40; 43; 43; 44; 47; 47; 47; 47;
   47; 47; 48; 48; 47; 47; 47; 46; 46; 46; 46; 46; 47; 47; 47; 48; 49; 49; 38; 39; 40; 40; 40; 41; 41; 43;
   44; 45; 47; 47; 47; 48; 48; 48; 49; 49; 48; 48; 48; 47; 47; 47; 48; 48; 48; 48; 48; 49; 50; 50; 47; 46;
   46; 46; 45; 45; 45; 46; 46; 47; 47; 47; 48; 50; 50; 51; 52; 52; 52; 52; 52; 52; 52; 52; 53; 53; 53; 53;
   53; 54; 55; 55; 48; 47; 47; 47; 46; 46; 46; 47; 47; 47; 47; 47; 48; 50; 50; 51; 53; 53; 53; 53; 53; 53;
   53; 53; 54; 54; 54; 54; 54; 54; 55; 55; 48; 47; 47; 47; 46; 46; 46; 46; 46; 47; 47; 47; 48; 50; 50; 51;
   53; 53; 53; 54; 54; 54; 55; 55; 55; 55; 55; 56; 56; 56; 57; 57; 49; 48; 47; 47; 45; 45; 45; 45; 46; 45;
   45; 45; 47; 49; 49; 51; 53; 53; 55; 56; 56; 57; 58; 58; 59; 59; 60; 61; 61; 61; 62; 62; 49; 48; 47; 47;
   45; 45; 45; 45; 46; 45; 45; 45; 47; 49; 49; 51; 53; 53; 55; 56; 56; 57; 58; 58; 59; 59; 60; 61; 61; 61;
   62; 62; 50; 49; 48; 48; 46; 46; 46; 46; 46; 46; 46; 46; 47; 50; 50; 52; 54; 54; 55; 56; 56; 58; 59; 60;
   61; 61; 61; 63; 63; 63; 65; 65; 52; 50; 50; 50; 48; 48; 48; 47; 47; 47; 47; 47; 48; 50; 50; 52; 54; 54;
   56; 57; 57; 60; 61; 61; 63; 64; 64; 66; 66; 67; 68; 68; 52; 50; 50; 50; 48; 48; 48; 47; 47; 47; 47; 47;
   48; 50; 50; 52; 54; 54; 56; 57; 57; 60; 61; 61; 63; 64; 64; 66; 66; 67; 68; 68; 54; 53; 52; 52; 50; 50;
   50; 49; 49; 49; 48; 48; 50; 52; 52; 54; 55; 55; 57; 59; 59; 61; 62; 63; 65; 65; 66; 68; 68; 69; 71; 71;
   31; 37; 48; 52; 31; 38; 47; 50; 31; 39; 46; 48; 32; 40; 46; 48; 35; 43; 46; 47; 39; 47; 47; 47; 40; 47;
   48; 48; 42; 47; 50; 50; 47; 48; 53; 54; 47; 47; 53; 56; 46; 47; 54; 57; 46; 46; 55; 61; 47; 46; 55; 63;
   48; 47; 55; 64; 49; 47; 56; 66; 51; 49; 57; 68; 31; 31; 31; 32; 35; 39; 40; 42; 47; 47; 46; 46; 47; 48;
   49; 51; 37; 38; 39; 40; 43; 47; 47; 47; 48; 47; 47; 46; 46; 47; 47; 49; 48; 47; 46; 46; 46; 47; 48; 50;
   53; 53; 54; 55; 55; 55; 56; 57; 52; 50; 48; 48; 47; 47; 48; 50; 54; 56; 57; 61; 63; 64; 66; 68; 32; 31;
   35; 38; 48; 49; 50; 52; 31; 31; 36; 39; 47; 48; 49; 50; 31; 31; 37; 40; 47; 47; 48; 50; 31; 31; 37; 40;
   47; 47; 48; 50; 30; 32; 38; 40; 46; 45; 46; 48; 30; 32; 38; 41; 46; 45; 46; 48; 31; 33; 38; 41; 46; 45;
   46; 48; 33; 35; 41; 43; 47; 45; 46; 47; 33; 36; 41; 44; 47; 46; 46; 47; 34; 37; 42; 45; 47; 45; 46; 47;
   37; 40; 45; 47; 47; 45; 46; 47; 37; 40; 45; 47; 47; 45; 46; 47; 39; 41; 46; 47; 48; 47; 47; 48; 42; 43;
   46; 48; 50; 49; 50; 50; 42; 43; 46; 48; 50; 49; 50; 50; 45; 44; 47; 48; 51; 51; 52; 52; 49; 46; 48; 49;
   53; 53; 54; 54; 49; 46; 48; 49; 53; 53; 54; 54; 48; 46; 47; 48; 53; 55; 55; 56; 48; 46; 46; 48; 53; 56;
   56; 57; 48; 46; 46; 48; 53; 56; 56; 57; 49; 45; 46; 47; 53; 57; 58; 60; 49; 45; 45; 47; 53; 58; 59; 61;
   49; 45; 46; 47; 53; 58; 60; 61; 50; 46; 46; 48; 54; 59; 61; 63; 50; 46; 46; 48; 54; 59; 61; 64; 51; 47;
   47; 48; 54; 60; 61; 64; 52; 48; 47; 48; 54; 61; 63; 66; 52; 48; 47; 48; 54; 61; 63; 66; 53; 48; 48; 49;
   54; 61; 63; 67; 54; 50; 49; 50; 55; 62; 65; 68; 54; 50; 49; 50; 55; 62; 65; 68; 32; 31; 31; 31; 30; 30;
   31; 33; 33; 34; 37; 37; 39; 42; 42; 45; 49; 49; 48; 48; 48; 49; 49; 49; 50; 50; 51; 52; 52; 53; 54; 54;
   31; 31; 31; 31; 32; 32; 33; 35; 36; 37; 40; 40; 41; 43; 43; 44; 46; 46; 46; 46; 46; 45; 45; 45; 46; 46;
   47; 48; 48; 48; 50; 50; 35; 36; 37; 37; 38; 38; 38; 41; 41; 42; 45; 45; 46; 46; 46; 47; 48; 48; 47; 46;
   46; 46; 45; 46; 46; 46; 47; 47; 47; 48; 49; 49; 38; 39; 40; 40; 40; 41; 41; 43; 44; 45; 47; 47; 47; 48;
   48; 48; 49; 49; 48; 48; 48; 47; 47; 47; 48; 48; 48; 48; 48; 49; 50; 50; 48; 47; 47; 47; 46; 46; 46; 47;
   47; 47; 47; 47; 48; 50; 50; 51; 53; 53; 53; 53; 53; 53; 53; 53; 54; 54; 54; 54; 54; 54; 55; 55; 49; 48;
   47; 47; 45; 45; 45; 45; 46; 45; 45; 45; 47; 49; 49; 51; 53; 53; 55; 56; 56; 57; 58; 58; 59; 59; 60; 61;
   61; 61; 62; 62; 50; 49; 48; 48; 46; 46; 46; 46; 46; 46; 46; 46; 47; 50; 50; 52; 54; 54; 55; 56; 56; 58;
   59; 60; 61; 61; 61; 63; 63; 63; 65; 65; 52; 50; 50; 50; 48; 48; 48; 47; 47; 47; 47; 47; 48; 50; 50; 52;
   54; 54; 56; 57; 57; 60; 61; 61; 63; 64; 64; 66; 66; 67; 68; 68]];
 [[32; 32; 35; 43; 32; 34; 37; 43; 35; 37; 48; 54; 43; 43; 54; 65; 31; 31; 32; 32; 34; 37; 43; 47; 31; 32;
   32; 32; 34; 36; 41; 44; 32; 32; 33; 34; 35; 38; 42; 45; 32; 32; 34; 35; 37; 39; 42; 46; 34; 34; 35; 37;
   41; 45; 49; 52; 37; 36; 38; 39; 45; 51; 56; 59; 43; 41; 42; 42; 49; 56; 63; 67; 47; 44; 45; 46; 52; 59;
   67; 71; 32; 31; 31; 31; 31; 31; 32; 32; 34; 35; 36; 39; 41; 44; 47; 48; 31; 32; 32; 32; 32; 32; 32; 33;
   34; 35; 35; 38; 40; 42; 45; 46; 31; 32; 32; 32; 32; 32; 32; 33; 34; 34; 35; 38; 39; 42; 45; 45; 31; 32;
   32; 32; 32; 32; 32; 33; 33; 34; 34; 37; 38; 41; 44; 44; 31; 32; 32; 32; 33; 33; 33; 34; 35; 36; 36; 39;
   40; 42; 44; 45; 31; 32; 32; 32; 33; 33; 34; 34; 35; 36; 36; 39; 40; 42; 45; 45; 32; 32; 32; 32; 33; 34;
   35; 36; 37; 38; 38; 40; 41; 42; 45; 46; 32; 33; 33; 33; 34; 34; 36; 36; 38; 39; 40; 42; 43; 44; 47; 47;
   34; 34; 34; 33; 35; 35; 37; 38; 39; 42; 42; 45; 46; 47; 50; 51; 35; 35; 34; 34; 36; 36; 38; 39; 42; 46;
   47; 49; 50; 52; 55; 55; 36; 35; 35; 34; 36; 36; 38; 40; 42; 47; 48; 50; 52; 54; 56; 57; 39; 38; 38; 37;
   39; 39; 40; 42; 45; 49; 50; 54; 55; 58; 60; 61; 41; 40; 39; 38; 40; 40; 41; 43; 46; 50; 52; 55; 57; 60;
   62; 63; 44; 42; 42; 41; 42; 42; 42; 44; 47; 52; 54; 58; 60; 63; 66; 67; 47; 45; 45; 44; 44; 45; 45; 47;
   50; 55; 56; 60; 62; 66; 69; 70; 48; 46; 45; 44; 45; 45; 46; 47; 51; 55; 57; 61; 63; 67; 70; 71; 32; 31;
   31; 31; 31; 31; 31; 31; 31; 31; 31; 32; 32; 32; 32; 34; 34; 34; 35; 36; 36; 38; 39; 39; 41; 44; 44; 45;
   47; 48; 48; 51; 31; 31; 31; 31; 31; 31; 31; 32; 32; 32; 32; 32; 32; 32; 33; 34; 34; 34; 35; 35; 35; 37;
   39; 39; 40; 43; 43; 44; 46; 47; 47; 50; 31; 31; 32; 32; 32; 32; 32; 32; 32; 32; 32; 32; 32; 32; 33; 34;
   34; 34; 35; 35; 35; 37; 38; 38; 40; 42; 42; 43; 45; 46; 46; 49; 31; 31; 32; 32; 32; 32; 32; 32; 32; 32;
   32; 32; 32; 32; 33; 34; 34; 34; 35; 35; 35; 37; 38; 38; 40; 42; 42; 43; 45; 46; 46; 49; 31; 31; 32; 32;
   32; 32; 32; 32; 32; 32; 32; 32; 32; 32; 33; 34; 34; 34; 34; 35; 35; 36; 38; 38; 39; 42; 42; 42; 45; 45;
   45; 48; 31; 31; 32; 32; 32; 32; 32; 32; 32; 32; 32; 32; 32; 32; 33; 33; 33; 34; 34; 34; 34; 36; 37; 37;
   38; 41; 41; 41; 44; 44; 44; 47; 31; 31; 32; 32; 32; 32; 32; 32; 32; 32; 32; 32; 32; 32; 33; 33; 33; 34;
   34; 34; 34; 36; 37; 37; 38; 41; 41; 41; 44; 44; 44; 47; 31; 32; 32; 32; 32; 32; 32; 32; 32; 32; 32; 33;
   33; 33; 33; 34; 34; 34; 34; 35; 35; 36; 38; 38; 39; 41; 41; 42; 44; 45; 45; 47; 31; 32; 32; 32; 32; 32;
   32; 32; 33; 33; 33; 33; 33; 33; 34; 35; 35; 35; 36; 36; 36; 37; 39; 39; 40; 42; 42; 42; 44; 45; 45; 48;
   31; 32; 32; 32; 32; 32; 32; 32; 33; 33; 33; 33; 34; 34; 34; 35; 35; 35; 36; 36; 36; 38; 39; 39; 40; 42;
   42; 42; 45; 45; 45; 48; 31; 32; 32; 32; 32; 32; 32; 32; 33; 33; 33; 33; 34; 34; 34; 35; 35; 35; 36; 36;
   36; 38; 39; 39; 40; 42; 42; 42; 45; 45; 45; 48; 32; 32; 32; 32; 32; 32; 32; 33; 33; 33; 33; 34; 35; 35;
   35; 36; 36; 36; 37; 37; 37; 39; 40; 40; 41; 42; 42; 43; 45; 45; 45; 48; 32; 32; 32; 32; 32; 32; 32; 33;
   33; 34; 34; 35; 35; 35; 36; 37; 37; 37; 38; 38; 38; 39; 40; 40; 41; 42; 42; 43; 45; 46; 46; 48; 32; 32;
   32; 32; 32; 32; 32; 33; 33; 34; 34; 35; 35; 35; 36; 37; 37; 37; 38; 38; 38; 39; 40; 40; 41; 42; 42; 43;
   45; 46; 46; 48; 32; 33; 33; 33; 33; 33; 33; 33; 34; 34; 34; 35; 36; 36; 36; 38; 38; 38; 39; 40; 40; 41;
   42; 42; 43; 44; 44; 45; 47; 47; 47; 50; 34; 34; 34; 34; 34; 33; 33; 34; 35; 35; 35; 36; 37; 37; 38; 39;
   39; 40; 42; 42; 42; 44; 45; 45; 46; 47; 47; 48; 50; 51; 51; 53; 34; 34; 34; 34; 34; 33; 33; 34; 35; 35;
   35; 36; 37; 37; 38; 39; 39; 40; 42; 42; 42; 44; 45; 45; 46; 47; 47; 48; 50; 51; 51; 53; 34; 34; 34; 34;
   34; 34; 34; 34; 35; 35; 35; 36; 37; 37; 38; 40; 40; 41; 43; 44; 44; 45; 46; 46; 47; 49; 49; 49; 51; 52;
   52; 54; 35; 35; 35; 35; 34; 34; 34; 34; 36; 36; 36; 37; 38; 38; 39; 42; 42; 43; 46; 47; 47; 48; 49; 49;
   50; 52; 52; 53; 55; 55; 55; 57; 36; 35; 35; 35; 35; 34; 34; 35; 36; 36; 36; 37; 38; 38; 40; 42; 42; 44;
   47; 48; 48; 50; 50; 50; 52; 54; 54; 54; 56; 57; 57; 58; 36; 35; 35; 35; 35; 34; 34; 35; 36; 36; 36; 37;
   38; 38; 40; 42; 42; 44; 47; 48; 48; 50; 50; 50; 52; 54; 54; 54; 56; 57; 57; 58; 38; 37; 37; 37; 36; 36;
   36; 36; 37; 38; 38; 39; 39; 39; 41; 44; 44; 45; 48; 50; 50; 51; 52; 52; 54; 56; 56; 57; 58; 59; 59; 61;
   39; 39; 38; 38; 38; 37; 37; 38; 39; 39; 39; 40; 40; 40; 42; 45; 45; 46; 49; 50; 50; 52; 54; 54; 55; 58;
   58; 58; 60; 61; 61; 63; 39; 39; 38; 38; 38; 37; 37; 38; 39; 39; 39; 40; 40; 40; 42; 45; 45; 46; 49; 50;
   50; 52; 54; 54; 55; 58; 58; 58; 60; 61; 61; 63; 41; 40; 40; 40; 39; 38; 38; 39; 40; 40; 40; 41; 41; 41;
   43; 46; 46; 47; 50; 52; 52; 54; 55; 55; 57; 60; 60; 60; 62; 63; 63; 66; 44; 43; 42; 42; 42; 41; 41; 41;
   42; 42; 42; 42; 42; 42; 44; 47; 47; 49; 52; 54; 54; 56; 58; 58; 60; 63; 63; 64; 66; 67; 67; 69; 44; 43;
   42; 42; 42; 41; 41; 41; 42; 42; 42; 42; 42; 42; 44; 47; 47; 49; 52; 54; 54; 56; 58; 58; 60; 63; 63; 64;
   66; 67; 67; 69; 45; 44; 43; 43; 42; 41; 41; 42; 42; 42; 42; 43; 43; 43; 45; 48; 48; 49; 53; 54; 54; 57;
   58; 58; 60; 64; 64; 65; 67; 68; 68; 70; 47; 46; 45; 45; 45; 44; 44; 44; 44; 45; 45; 45; 45; 45; 47; 50;
   50; 51; 55; 56; 56; 58; 60; 60; 62; 66; 66; 67; 69; 70; 70; 73; 48; 47; 46; 46; 45; 44; 44; 45; 45; 45;
   45; 45; 46; 46; 47; 51; 51; 52; 55; 57; 57; 59; 61; 61; 63; 67; 67; 68; 70; 71; 71; 74; 48; 47; 46; 46;
   45; 44; 44; 45; 45; 45; 45; 45; 46; 46; 47; 51; 51; 52; 55; 57; 57; 59; 61; 61; 63; 67; 67; 68; 70; 71;
   71; 74; 51; 50; 49; 49; 48; 47; 47; 47; 48; 48; 48; 48; 48; 48; 50; 53; 53; 54; 57; 58; 58; 61; 63; 63;
   66; 69; 69; 70; 73; 74; 74; 77; 31; 32; 35; 43; 32; 33; 34; 41; 32; 34; 36; 42; 32; 35; 38; 42; 34; 37;
   43; 49; 37; 40; 49; 56; 42; 43; 53; 63; 46; 46; 56; 67; 31; 32; 32; 32; 34; 37; 42; 46; 32; 33; 34; 35;
   37; 40; 43; 46; 35; 34; 36; 38; 43; 49; 53; 56; 43; 41; 42; 42; 49; 56; 63; 67; 32; 31; 31; 32; 35; 36;
   44; 47; 31; 32; 32; 32; 35; 35; 42; 45; 31; 32; 32; 32; 34; 35; 41; 45; 31; 32; 32; 33; 34; 34; 41; 44;
   31; 32; 33; 34; 35; 36; 42; 44; 32; 32; 33; 34; 36; 36; 42; 45; 32; 33; 34; 35; 37; 38; 42; 45; 32; 33;
   34; 36; 39; 40; 44; 47; 34; 34; 35; 37; 41; 42; 48; 50; 35; 34; 36; 38; 45; 47; 52; 55; 36; 34; 36; 38;
   46; 48; 54; 56; 39; 37; 39; 40; 48; 50; 58; 60; 41; 39; 40; 41; 49; 51; 60; 62; 44; 41; 42; 43; 51; 53;
   63; 66; 47; 44; 44; 45; 53; 56; 66; 69; 48; 45; 45; 46; 54; 56; 67; 70; 32; 31; 31; 31; 31; 32; 32; 32;
   34; 35; 36; 39; 41; 44; 47; 48; 31; 32; 32; 32; 32; 32; 33; 33; 34; 34; 34; 37; 39; 41; 44; 45; 31; 32;
   32; 32; 33; 33; 34; 34; 35; 36; 36; 39; 40; 42; 44; 45; 32; 32; 32; 33; 34; 34; 35; 36; 37; 38; 38; 40;
   41; 43; 45; 46; 35; 35; 34; 34; 35; 36; 37; 39; 41; 45; 46; 48; 49; 51; 53; 54; 36; 35; 35; 34; 36; 36;
   38; 40; 42; 47; 48; 50; 51; 53; 56; 56; 44; 42; 41; 41; 42; 42; 42; 44; 48; 52; 54; 58; 60; 63; 66; 67;
   47; 45; 45; 44; 44; 45; 45; 47; 50; 55; 56; 60; 62; 66; 69; 70; 32; 31; 31; 31; 31; 32; 32; 32; 35; 36;
   36; 40; 44; 44; 47; 53; 31; 31; 32; 32; 32; 32; 32; 33; 35; 35; 35; 39; 43; 43; 46; 52; 31; 32; 32; 32;
   32; 32; 32; 33; 35; 35; 35; 39; 42; 42; 45; 51; 31; 32; 32; 32; 32; 32; 32; 33; 35; 35; 35; 39; 42; 42;
   45; 51; 31; 32; 32; 32; 32; 32; 32; 33; 34; 35; 35; 39; 41; 41; 45; 50; 31; 32; 32; 32; 32; 33; 33; 33;
   34; 34; 34; 38; 41; 41; 44; 49; 31; 32; 32; 32; 32; 33; 33; 33; 34; 34; 34; 38; 41; 41; 44; 49; 31; 32;
   32; 32; 32; 33; 33; 33; 34; 35; 35; 38; 41; 41; 44; 49; 31; 32; 32; 32; 33; 34; 34; 34; 35; 36; 36; 39;
   42; 42; 44; 49; 32; 32; 32; 32; 33; 34; 34; 34; 36; 36; 36; 39; 42; 42; 45; 50; 32; 32; 32; 32; 33; 34;
   34; 34; 36; 36; 36; 39; 42; 42; 45; 50; 32; 32; 32; 32; 33; 35; 35; 35; 37; 37; 37; 40; 42; 42; 45; 49;
   32; 32; 33; 33; 34; 35; 35; 36; 37; 38; 38; 41; 42; 42; 45; 49; 32; 32; 33; 33; 34; 35; 35; 36; 37; 38;
   38; 41; 42; 42; 45; 49; 32; 33; 33; 33; 34; 36; 36; 36; 39; 40; 40; 42; 44; 44; 47; 51; 34; 34; 34; 34;
   35; 37; 37; 38; 41; 42; 42; 45; 48; 48; 50; 54; 34; 34; 34; 34; 35; 37; 37; 38; 41; 42; 42; 45; 48; 48;
   50; 54; 34; 34; 34; 34; 35; 37; 37; 38; 42; 43; 43; 46; 49; 49; 51; 55; 35; 35; 34; 34; 36; 38; 38; 39;
   45; 47; 47; 50; 52; 52; 55; 59; 36; 35; 34; 34; 36; 38; 38; 40; 46; 48; 48; 51; 54; 54; 56; 60; 36; 35;
   34; 34; 36; 38; 38; 40; 46; 48; 48; 51; 54; 54; 56; 60; 38; 37; 36; 36; 37; 40; 40; 41; 47; 49; 49; 53;
   56; 56; 58; 63; 39; 38; 37; 37; 39; 40; 40; 42; 48; 50; 50; 54; 58; 58; 60; 65; 39; 38; 37; 37; 39; 40;
   40; 42; 48; 50; 50; 54; 58; 58; 60; 65; 41; 40; 39; 39; 40; 41; 41; 43; 49; 51; 51; 56; 60; 60; 62; 67;
   44; 42; 41; 41; 42; 43; 43; 45; 51; 53; 53; 59; 63; 63; 66; 71; 44; 42; 41; 41; 42; 43; 43; 45; 51; 53;
   53; 59; 63; 63; 66; 71; 44; 43; 42; 42; 42; 43; 43; 45; 51; 54; 54; 59; 64; 64; 67; 72; 47; 45; 44; 44;
   44; 45; 45; 47; 53; 56; 56; 61; 66; 66; 69; 75; 48; 46; 45; 45; 45; 46; 46; 48; 54; 56; 56; 62; 67; 67;
   70; 76; 48; 46; 45; 45; 45; 46; 46; 48; 54; 56; 56; 62; 67; 67; 70; 76; 51; 49; 47; 47; 48; 48; 48; 50;
   56; 58; 58; 64; 69; 69; 73; 79; 32; 31; 31; 31; 31; 31; 31; 31; 31; 32; 32; 32; 32; 32; 32; 34; 34; 34;
   35; 36; 36; 38; 39; 39; 41; 44; 44; 44; 47; 48; 48; 51; 31; 31; 32; 32; 32; 32; 32; 32; 32; 32; 32; 32;
   32; 32; 33; 34; 34; 34; 35; 35; 35; 37; 38; 38; 40; 42; 42; 43; 45; 46; 46; 49; 31; 32; 32; 32; 32; 32;
   32; 32; 32; 32; 32; 32; 33; 33; 33; 34; 34; 34; 34; 34; 34; 36; 37; 37; 39; 41; 41; 42; 44; 45; 45; 47;
   31; 32; 32; 32; 32; 32; 32; 32; 32; 32; 32; 32; 33; 33; 33; 34; 34; 34; 34; 34; 34; 36; 37; 37; 39; 41;
   41; 42; 44; 45; 45; 47; 31; 32; 32; 32; 32; 32; 32; 32; 33; 33; 33; 33; 34; 34; 34; 35; 35; 35; 36; 36;
   36; 37; 39; 39; 40; 42; 42; 42; 44; 45; 45; 48; 32; 32; 32; 32; 32; 33; 33; 33; 34; 34; 34; 35; 35; 35;
   36; 37; 37; 37; 38; 38; 38; 40; 40; 40; 41; 43; 43; 43; 45; 46; 46; 48; 32; 32; 32; 32; 32; 33; 33; 33;
   34; 34; 34; 35; 35; 35; 36; 37; 37; 37; 38; 38; 38; 40; 40; 40; 41; 43; 43; 43; 45; 46; 46; 48; 32; 33;
   33; 33; 33; 33; 33; 33; 34; 34; 34; 35; 36; 36; 36; 38; 38; 38; 39; 40; 40; 41; 42; 42; 43; 45; 45; 45;
   47; 48; 48; 50; 35; 35; 35; 35; 34; 34; 34; 34; 35; 36; 36; 37; 37; 37; 39; 41; 41; 42; 45; 46; 46; 47;
   48; 48; 49; 51; 51; 51; 53; 54; 54; 56; 36; 35; 35; 35; 35; 34; 34; 35; 36; 36; 36; 37; 38; 38; 40; 42;
   42; 43; 47; 48; 48; 49; 50; 50; 51; 53; 53; 54; 56; 56; 56; 58; 36; 35; 35; 35; 35; 34; 34; 35; 36; 36;
   36; 37; 38; 38; 40; 42; 42; 43; 47; 48; 48; 49; 50; 50; 51; 53; 53; 54; 56; 56; 56; 58; 40; 39; 39; 39;
   39; 38; 38; 38; 39; 39; 39; 40; 41; 41; 42; 45; 45; 46; 50; 51; 51; 53; 54; 54; 56; 59; 59; 59; 61; 62;
   62; 64; 44; 43; 42; 42; 41; 41; 41; 41; 42; 42; 42; 42; 42; 42; 44; 48; 48; 49; 52; 54; 54; 56; 58; 58;
   60; 63; 63; 64; 66; 67; 67; 69; 44; 43; 42; 42; 41; 41; 41; 41; 42; 42; 42; 42; 42; 42; 44; 48; 48; 49;
   52; 54; 54; 56; 58; 58; 60; 63; 63; 64; 66; 67; 67; 69; 47; 46; 45; 45; 45; 44; 44; 44; 44; 45; 45; 45;
   45; 45; 47; 50; 50; 51; 55; 56; 56; 58; 60; 60; 62; 66; 66; 67; 69; 70; 70; 73; 53; 52; 51; 51; 50; 49;
   49; 49; 49; 50; 50; 49; 49; 49; 51; 54; 54; 55; 59; 60; 60; 63; 65; 65; 67; 71; 71; 72; 75; 76; 76; 79;
   31; 32; 36; 44; 32; 32; 35; 42; 32; 32; 35; 41; 32; 33; 34; 41; 32; 34; 36; 42; 32; 34; 36; 42; 32; 35;
   38; 42; 33; 36; 40; 44; 34; 37; 42; 48; 35; 38; 47; 52; 35; 38; 48; 54; 38; 40; 50; 58; 40; 41; 51; 60;
   42; 43; 53; 63; 45; 45; 56; 66; 46; 46; 56; 67; 31; 32; 32; 32; 32; 32; 32; 33; 34; 35; 35; 38; 40; 42;
   45; 46; 32; 32; 32; 33; 34; 34; 35; 36; 37; 38; 38; 40; 41; 43; 45; 46; 36; 35; 35; 34; 36; 36; 38; 40;
   42; 47; 48; 50; 51; 53; 56; 56; 44; 42; 41; 41; 42; 42; 42; 44; 48; 52; 54; 58; 60; 63; 66; 67; 32; 31;
   31; 32; 35; 36; 44; 47; 31; 32; 32; 32; 35; 35; 43; 46; 31; 32; 32; 32; 35; 35; 42; 45; 31; 32; 32; 32;
   35; 35; 42; 45; 31; 32; 32; 32; 34; 35; 41; 45; 31; 32; 32; 33; 34; 34; 41; 44; 31; 32; 32; 33; 34; 34;
   41; 44; 31; 32; 32; 33; 34; 35; 41; 44; 31; 32; 33; 34; 35; 36; 42; 44; 32; 32; 33; 34; 36; 36; 42; 45;
   32; 32; 33; 34; 36; 36; 42; 45; 32; 32; 33; 35; 37; 37; 42; 45; 32; 33; 34; 35; 37; 38; 42; 45; 32; 33;
   34; 35; 37; 38; 42; 45; 32; 33; 34; 36; 39; 40; 44; 47; 34; 34; 35; 37; 41; 42; 48; 50; 34; 34; 35; 37;
   41; 42; 48; 50; 34; 34; 35; 37; 42; 43; 49; 51; 35; 34; 36; 38; 45; 47; 52; 55; 36; 34; 36; 38; 46; 48;
   54; 56; 36; 34; 36; 38; 46; 48; 54; 56; 38; 36; 37; 40; 47; 49; 56; 58; 39; 37; 39; 40; 48; 50; 58; 60;
   39; 37; 39; 40; 48; 50; 58; 60; 41; 39; 40; 41; 49; 51; 60; 62; 44; 41; 42; 43; 51; 53; 63; 66; 44; 41;
   42; 43; 51; 53; 63; 66; 44; 42; 42; 43; 51; 54; 64; 67; 47; 44; 44; 45; 53; 56; 66; 69; 48; 45; 45; 46;
   54; 56; 67; 70; 48; 45; 45; 46; 54; 56; 67; 70; 51; 47; 48; 48; 56; 58; 69; 73; 32; 31; 31; 31; 31; 31;
   31; 31; 31; 32; 32; 32; 32; 32; 32; 34; 34; 34; 35; 36; 36; 38; 39; 39; 41; 44; 44; 44; 47; 48; 48; 51;
   31; 32; 32; 32; 32; 32; 32; 32; 32; 32; 32; 32; 33; 33; 33; 34; 34; 34; 34; 34; 34; 36; 37; 37; 39; 41;
   41; 42; 44; 45; 45; 47; 31; 32; 32; 32; 32; 32; 32; 32; 33; 33; 33; 33; 34; 34; 34; 35; 35; 35; 36; 36;
   36; 37; 39; 39; 40; 42; 42; 42; 44; 45; 45; 48; 32; 32; 32; 32; 32; 33; 33; 33; 34; 34; 34; 35; 35; 35;
   36; 37; 37; 37; 38; 38; 38; 40; 40; 40; 41; 43; 43; 43; 45; 46; 46; 48; 35; 35; 35; 35; 34; 34; 34; 34;
   35; 36; 36; 37; 37; 37; 39; 41; 41; 42; 45; 46; 46; 47; 48; 48; 49; 51; 51; 51; 53; 54; 54; 56; 36; 35;
   35; 35; 35; 34; 34; 35; 36; 36; 36; 37; 38; 38; 40; 42; 42; 43; 47; 48; 48; 49; 50; 50; 51; 53; 53; 54;
   56; 56; 56; 58; 44; 43; 42; 42; 41; 41; 41; 41; 42; 42; 42; 42; 42; 42; 44; 48; 48; 49; 52; 54; 54; 56;
   58; 58; 60; 63; 63; 64; 66; 67; 67; 69; 47; 46; 45; 45; 45; 44; 44; 44; 44; 45; 45; 45; 45; 45; 47; 50;
   50; 51; 55; 56; 56; 58; 60; 60; 62; 66; 66; 67; 69; 70; 70; 73];
 [31; 37; 47; 47; 37; 44; 47; 45; 47; 47; 53; 53; 47; 45; 53; 59; 31; 31; 34; 37; 43; 48; 47; 49; 31; 32;
   35; 40; 43; 46; 45; 46; 34; 35; 39; 43; 45; 46; 45; 46; 37; 40; 43; 47; 47; 47; 45; 46; 43; 43; 45; 47;
   49; 50; 50; 50; 48; 46; 46; 47; 50; 53; 55; 55; 47; 45; 45; 45; 50; 55; 58; 60; 49; 46; 46; 46; 50; 55;
   60; 61; 32; 31; 31; 30; 33; 33; 36; 38; 41; 47; 49; 48; 49; 49; 50; 50; 31; 31; 31; 31; 34; 34; 38; 40;
   42; 46; 47; 47; 47; 47; 48; 48; 31; 31; 31; 31; 34; 35; 39; 40; 42; 46; 47; 46; 46; 46; 47; 47; 30; 31;
   31; 32; 34; 35; 40; 41; 42; 45; 46; 45; 45; 45; 46; 46; 33; 34; 34; 34; 37; 38; 42; 43; 44; 46; 47; 46;
   46; 45; 46; 46; 33; 34; 35; 35; 38; 39; 43; 44; 45; 47; 47; 46; 46; 45; 46; 46; 36; 38; 39; 40; 42; 43;
   47; 47; 47; 47; 48; 46; 46; 45; 46; 46; 38; 40; 40; 41; 43; 44; 47; 47; 48; 48; 49; 48; 47; 47; 47; 47;
   41; 42; 42; 42; 44; 45; 47; 48; 48; 50; 50; 49; 49; 49; 50; 50; 47; 46; 46; 45; 46; 47; 47; 48; 50; 52;
   52; 52; 52; 52; 53; 53; 49; 47; 47; 46; 47; 47; 48; 49; 50; 52; 53; 53; 53; 53; 54; 54; 48; 47; 46; 45;
   46; 46; 46; 48; 49; 52; 53; 54; 55; 55; 56; 56; 49; 47; 46; 45; 46; 46; 46; 47; 49; 52; 53; 55; 55; 57;
   57; 58; 49; 47; 46; 45; 45; 45; 45; 47; 49; 52; 53; 55; 57; 58; 59; 60; 50; 48; 47; 46; 46; 46; 46; 47;
   50; 53; 54; 56; 57; 59; 61; 61; 50; 48; 47; 46; 46; 46; 46; 47; 50; 53; 54; 56; 58; 60; 61; 61; 32; 31;
   31; 31; 31; 30; 30; 31; 33; 33; 33; 35; 36; 36; 38; 41; 41; 43; 47; 49; 49; 49; 48; 48; 49; 49; 49; 49;
   50; 50; 50; 51; 31; 31; 31; 31; 31; 31; 31; 31; 33; 34; 34; 36; 37; 37; 39; 42; 42; 43; 47; 48; 48; 48;
   47; 47; 47; 47; 47; 48; 49; 49; 49; 50; 31; 31; 31; 31; 31; 31; 31; 32; 34; 34; 34; 37; 38; 38; 40; 42;
   42; 43; 46; 47; 47; 47; 47; 47; 47; 47; 47; 47; 48; 48; 48; 49; 31; 31; 31; 31; 31; 31; 31; 32; 34; 34;
   34; 37; 38; 38; 40; 42; 42; 43; 46; 47; 47; 47; 47; 47; 47; 47; 47; 47; 48; 48; 48; 49; 31; 31; 31; 31;
   31; 31; 31; 32; 34; 35; 35; 37; 39; 39; 40; 42; 42; 43; 46; 47; 47; 46; 46; 46; 46; 46; 46; 46; 47; 47;
   47; 48; 30; 31; 31; 31; 31; 32; 32; 32; 34; 35; 35; 38; 40; 40; 41; 42; 42; 43; 45; 46; 46; 46; 45; 45;
   45; 45; 45; 45; 46; 46; 46; 47; 30; 31; 31; 31; 31; 32; 32; 32; 34; 35; 35; 38; 40; 40; 41; 42; 42; 43;
   45; 46; 46; 46; 45; 45; 45; 45; 45; 45; 46; 46; 46; 47; 31; 31; 32; 32; 32; 32; 32; 33; 35; 36; 36; 38;
   40; 40; 41; 43; 43; 43; 46; 46; 46; 46; 45; 45; 45; 45; 45; 45; 46; 46; 46; 47; 33; 33; 34; 34; 34; 34;
   34; 35; 37; 38; 38; 41; 42; 42; 43; 44; 44; 45; 46; 47; 47; 46; 46; 46; 46; 45; 45; 45; 46; 46; 46; 47;
   33; 34; 34; 34; 35; 35; 35; 36; 38; 39; 39; 41; 43; 43; 44; 45; 45; 45; 47; 47; 47; 46; 46; 46; 46; 45;
   45; 45; 46; 46; 46; 47; 33; 34; 34; 34; 35; 35; 35; 36; 38; 39; 39; 41; 43; 43; 44; 45; 45; 45; 47; 47;
   47; 46; 46; 46; 46; 45; 45; 45; 46; 46; 46; 47; 35; 36; 37; 37; 37; 38; 38; 38; 41; 41; 41; 44; 46; 46;
   46; 46; 46; 46; 47; 47; 47; 47; 46; 46; 46; 45; 45; 45; 46; 46; 46; 47; 36; 37; 38; 38; 39; 40; 40; 40;
   42; 43; 43; 46; 47; 47; 47; 47; 47; 47; 47; 48; 48; 47; 46; 46; 46; 45; 45; 45; 46; 46; 46; 46; 36; 37;
   38; 38; 39; 40; 40; 40; 42; 43; 43; 46; 47; 47; 47; 47; 47; 47; 47; 48; 48; 47; 46; 46; 46; 45; 45; 45;
   46; 46; 46; 46; 38; 39; 40; 40; 40; 41; 41; 41; 43; 44; 44; 46; 47; 47; 47; 48; 48; 48; 48; 49; 49; 48;
   48; 48; 47; 47; 47; 47; 47; 47; 47; 48; 41; 42; 42; 42; 42; 42; 42; 43; 44; 45; 45; 46; 47; 47; 48; 48;
   48; 49; 50; 50; 50; 50; 49; 49; 49; 49; 49; 49; 50; 50; 50; 50; 41; 42; 42; 42; 42; 42; 42; 43; 44; 45;
   45; 46; 47; 47; 48; 48; 48; 49; 50; 50; 50; 50; 49; 49; 49; 49; 49; 49; 50; 50; 50; 50; 43; 43; 43; 43;
   43; 43; 43; 43; 45; 45; 45; 46; 47; 47; 48; 49; 49; 49; 50; 51; 51; 50; 50; 50; 50; 50; 50; 50; 50; 50;
   50; 51; 47; 47; 46; 46; 46; 45; 45; 46; 46; 47; 47; 47; 47; 47; 48; 50; 50; 50; 52; 52; 52; 52; 52; 52;
   52; 52; 52; 52; 53; 53; 53; 53; 49; 48; 47; 47; 47; 46; 46; 46; 47; 47; 47; 47; 48; 48; 49; 50; 50; 51;
   52; 53; 53; 53; 53; 53; 53; 53; 53; 53; 54; 54; 54; 54; 49; 48; 47; 47; 47; 46; 46; 46; 47; 47; 47; 47;
   48; 48; 49; 50; 50; 51; 52; 53; 53; 53; 53; 53; 53; 53; 53; 53; 54; 54; 54; 54; 49; 48; 47; 47; 46; 46;
   46; 46; 46; 46; 46; 47; 47; 47; 48; 50; 50; 50; 52; 53; 53; 53; 54; 54; 54; 55; 55; 55; 55; 55; 55; 56;
   48; 47; 47; 47; 46; 45; 45; 45; 46; 46; 46; 46; 46; 46; 48; 49; 49; 50; 52; 53; 53; 54; 54; 54; 55; 55;
   55; 56; 56; 56; 56; 57; 48; 47; 47; 47; 46; 45; 45; 45; 46; 46; 46; 46; 46; 46; 48; 49; 49; 50; 52; 53;
   53; 54; 54; 54; 55; 55; 55; 56; 56; 56; 56; 57; 49; 47; 47; 47; 46; 45; 45; 45; 46; 46; 46; 46; 46; 46;
   47; 49; 49; 50; 52; 53; 53; 54; 55; 55; 55; 57; 57; 57; 57; 58; 58; 58; 49; 47; 47; 47; 46; 45; 45; 45;
   45; 45; 45; 45; 45; 45; 47; 49; 49; 50; 52; 53; 53; 55; 55; 55; 57; 58; 58; 59; 59; 60; 60; 60; 49; 47;
   47; 47; 46; 45; 45; 45; 45; 45; 45; 45; 45; 45; 47; 49; 49; 50; 52; 53; 53; 55; 55; 55; 57; 58; 58; 59;
   59; 60; 60; 60; 49; 48; 47; 47; 46; 45; 45; 45; 45; 45; 45; 45; 45; 45; 47; 49; 49; 50; 52; 53; 53; 55;
   56; 56; 57; 59; 59; 59; 60; 60; 60; 61; 50; 49; 48; 48; 47; 46; 46; 46; 46; 46; 46; 46; 46; 46; 47; 50;
   50; 50; 53; 54; 54; 55; 56; 56; 57; 59; 59; 60; 61; 61; 61; 62; 50; 49; 48; 48; 47; 46; 46; 46; 46; 46;
   46; 46; 46; 46; 47; 50; 50; 50; 53; 54; 54; 55; 56; 56; 58; 60; 60; 60; 61; 61; 61; 63; 50; 49; 48; 48;
   47; 46; 46; 46; 46; 46; 46; 46; 46; 46; 47; 50; 50; 50; 53; 54; 54; 55; 56; 56; 58; 60; 60; 60; 61; 61;
   61; 63; 51; 50; 49; 49; 48; 47; 47; 47; 47; 47; 47; 47; 46; 46; 48; 50; 50; 51; 53; 54; 54; 56; 57; 57;
   58; 60; 60; 61; 62; 63; 63; 64; 31; 38; 47; 48; 31; 40; 46; 45; 35; 43; 47; 46; 39; 47; 47; 45; 43; 47;
   50; 50; 47; 47; 53; 55; 46; 46; 53; 58; 48; 46; 54; 59; 31; 31; 35; 39; 43; 47; 46; 48; 38; 40; 43; 47;
   47; 47; 46; 46; 47; 46; 47; 47; 50; 53; 53; 54; 48; 45; 46; 45; 50; 55; 58; 59; 32; 31; 33; 37; 45; 48;
   49; 50; 31; 31; 34; 38; 45; 47; 47; 48; 31; 32; 34; 39; 45; 46; 46; 47; 30; 32; 35; 40; 44; 46; 45; 46;
   33; 35; 37; 42; 46; 47; 45; 46; 33; 36; 38; 43; 46; 47; 46; 46; 37; 40; 43; 47; 47; 47; 45; 46; 39; 41;
   43; 47; 48; 48; 47; 47; 42; 43; 44; 47; 49; 50; 49; 50; 47; 46; 46; 48; 51; 52; 53; 53; 49; 46; 47; 48;
   52; 53; 53; 54; 48; 46; 46; 47; 51; 53; 56; 56; 48; 45; 46; 46; 51; 53; 57; 57; 49; 45; 45; 46; 51; 53;
   58; 59; 50; 46; 46; 46; 52; 54; 59; 61; 50; 46; 46; 46; 52; 54; 59; 61; 32; 31; 31; 30; 33; 33; 37; 39;
   42; 47; 49; 48; 48; 49; 50; 50; 31; 31; 32; 32; 35; 36; 40; 41; 43; 46; 46; 46; 45; 45; 46; 46; 33; 34;
   34; 35; 37; 38; 43; 43; 44; 46; 47; 46; 46; 45; 46; 46; 37; 38; 39; 40; 42; 43; 47; 47; 47; 48; 48; 47;
   46; 46; 46; 46; 45; 45; 45; 44; 46; 46; 47; 48; 49; 51; 52; 51; 51; 51; 52; 52; 48; 47; 46; 46; 47; 47;
   47; 48; 50; 52; 53; 53; 53; 53; 54; 54; 49; 47; 46; 45; 45; 46; 45; 47; 49; 53; 53; 56; 57; 58; 59; 59;
   50; 48; 47; 46; 46; 46; 46; 47; 50; 53; 54; 56; 57; 59; 61; 61; 32; 31; 31; 31; 33; 37; 37; 38; 45; 48;
   48; 49; 49; 49; 50; 52; 31; 31; 31; 31; 33; 38; 38; 39; 45; 47; 47; 48; 48; 48; 49; 51; 31; 31; 31; 31;
   34; 38; 38; 40; 45; 47; 47; 47; 47; 47; 48; 50; 31; 31; 31; 31; 34; 38; 38; 40; 45; 47; 47; 47; 47; 47;
   48; 50; 31; 31; 32; 32; 34; 39; 39; 40; 45; 46; 46; 46; 46; 46; 47; 49; 30; 31; 32; 32; 35; 40; 40; 41;
   44; 46; 46; 45; 45; 45; 46; 48; 30; 31; 32; 32; 35; 40; 40; 41; 44; 46; 46; 45; 45; 45; 46; 48; 31; 32;
   33; 33; 35; 40; 40; 41; 45; 46; 46; 45; 45; 45; 46; 48; 33; 34; 35; 35; 37; 42; 42; 43; 46; 47; 47; 46;
   45; 45; 46; 47; 33; 35; 36; 36; 38; 43; 43; 44; 46; 47; 47; 46; 46; 46; 46; 47; 33; 35; 36; 36; 38; 43;
   43; 44; 46; 47; 47; 46; 46; 46; 46; 47; 35; 37; 38; 38; 41; 45; 45; 46; 47; 47; 47; 46; 45; 45; 46; 47;
   37; 39; 40; 40; 43; 47; 47; 47; 47; 47; 47; 46; 45; 45; 46; 47; 37; 39; 40; 40; 43; 47; 47; 47; 47; 47;
   47; 46; 45; 45; 46; 47; 39; 40; 41; 41; 43; 47; 47; 47; 48; 48; 48; 47; 47; 47; 47; 48; 42; 42; 43; 43;
   44; 47; 47; 48; 49; 50; 50; 49; 49; 49; 50; 50; 42; 42; 43; 43; 44; 47; 47; 48; 49; 50; 50; 49; 49; 49;
   50; 50; 43; 43; 43; 43; 45; 47; 47; 48; 50; 50; 50; 50; 50; 50; 50; 51; 47; 46; 46; 46; 46; 48; 48; 48;
   51; 52; 52; 52; 53; 53; 53; 53; 49; 47; 46; 46; 47; 48; 48; 49; 52; 53; 53; 53; 53; 53; 54; 54; 49; 47;
   46; 46; 47; 48; 48; 49; 52; 53; 53; 53; 53; 53; 54; 54; 48; 47; 46; 46; 46; 47; 47; 48; 52; 53; 53; 54;
   55; 55; 55; 56; 48; 47; 46; 46; 46; 47; 47; 48; 51; 53; 53; 54; 56; 56; 56; 57; 48; 47; 46; 46; 46; 47;
   47; 48; 51; 53; 53; 54; 56; 56; 56; 57; 48; 47; 45; 45; 46; 46; 46; 47; 51; 53; 53; 55; 57; 57; 57; 59;
   49; 46; 45; 45; 45; 46; 46; 47; 51; 53; 53; 56; 58; 58; 59; 61; 49; 46; 45; 45; 45; 46; 46; 47; 51; 53;
   53; 56; 58; 58; 59; 61; 49; 47; 45; 45; 45; 46; 46; 47; 52; 53; 53; 56; 58; 58; 60; 62; 50; 48; 46; 46;
   46; 46; 46; 48; 52; 54; 54; 57; 59; 59; 61; 63; 50; 48; 46; 46; 46; 46; 46; 48; 52; 54; 54; 57; 59; 59;
   61; 64; 50; 48; 46; 46; 46; 46; 46; 48; 52; 54; 54; 57; 59; 59; 61; 64; 51; 49; 47; 47; 47; 47; 47; 48;
   52; 54; 54; 58; 60; 60; 62; 65; 32; 31; 31; 31; 31; 30; 30; 31; 33; 33; 33; 35; 37; 37; 39; 42; 42; 43;
   47; 49; 49; 48; 48; 48; 48; 49; 49; 49; 50; 50; 50; 51; 31; 31; 31; 31; 31; 31; 31; 32; 34; 35; 35; 37;
   39; 39; 40; 42; 42; 43; 46; 47; 47; 47; 47; 47; 47; 46; 46; 47; 48; 48; 48; 49; 31; 31; 31; 31; 32; 32;
   32; 33; 35; 36; 36; 38; 40; 40; 41; 43; 43; 43; 46; 46; 46; 46; 46; 46; 45; 45; 45; 45; 46; 46; 46; 47;
   31; 31; 31; 31; 32; 32; 32; 33; 35; 36; 36; 38; 40; 40; 41; 43; 43; 43; 46; 46; 46; 46; 46; 46; 45; 45;
   45; 45; 46; 46; 46; 47; 33; 33; 34; 34; 34; 35; 35; 35; 37; 38; 38; 41; 43; 43; 43; 44; 44; 45; 46; 47;
   47; 46; 46; 46; 46; 45; 45; 45; 46; 46; 46; 47; 37; 38; 38; 38; 39; 40; 40; 40; 42; 43; 43; 45; 47; 47;
   47; 47; 47; 47; 48; 48; 48; 47; 47; 47; 46; 46; 46; 46; 46; 46; 46; 47; 37; 38; 38; 38; 39; 40; 40; 40;
   42; 43; 43; 45; 47; 47; 47; 47; 47; 47; 48; 48; 48; 47; 47; 47; 46; 46; 46; 46; 46; 46; 46; 47; 38; 39;
   40; 40; 40; 41; 41; 41; 43; 44; 44; 46; 47; 47; 47; 48; 48; 48; 48; 49; 49; 48; 48; 48; 47; 47; 47; 47;
   48; 48; 48; 48; 45; 45; 45; 45; 45; 44; 44; 45; 46; 46; 46; 47; 47; 47; 48; 49; 49; 50; 51; 52; 52; 52;
   51; 51; 51; 51; 51; 52; 52; 52; 52; 52; 48; 47; 47; 47; 46; 46; 46; 46; 47; 47; 47; 47; 47; 47; 48; 50;
   50; 50; 52; 53; 53; 53; 53; 53; 53; 53; 53; 53; 54; 54; 54; 54; 48; 47; 47; 47; 46; 46; 46; 46; 47; 47;
   47; 47; 47; 47; 48; 50; 50; 50; 52; 53; 53; 53; 53; 53; 53; 53; 53; 53; 54; 54; 54; 54; 49; 48; 47; 47;
   46; 45; 45; 45; 46; 46; 46; 46; 46; 46; 47; 49; 49; 50; 52; 53; 53; 54; 54; 54; 55; 56; 56; 56; 57; 57;
   57; 58; 49; 48; 47; 47; 46; 45; 45; 45; 45; 46; 46; 45; 45; 45; 47; 49; 49; 50; 53; 53; 53; 55; 56; 56;
   57; 58; 58; 58; 59; 59; 59; 60; 49; 48; 47; 47; 46; 45; 45; 45; 45; 46; 46; 45; 45; 45; 47; 49; 49; 50;
   53; 53; 53; 55; 56; 56; 57; 58; 58; 58; 59; 59; 59; 60; 50; 49; 48; 48; 47; 46; 46; 46; 46; 46; 46; 46;
   46; 46; 47; 50; 50; 50; 53; 54; 54; 55; 56; 56; 57; 59; 59; 60; 61; 61; 61; 62; 52; 51; 50; 50; 49; 48;
   48; 48; 47; 47; 47; 47; 47; 47; 48; 50; 50; 51; 53; 54; 54; 56; 57; 57; 59; 61; 61; 62; 63; 64; 64; 65;
   31; 37; 48; 49; 31; 38; 47; 47; 31; 39; 46; 46; 31; 40; 46; 45; 34; 42; 47; 45; 35; 43; 47; 46; 39; 47;
   47; 45; 40; 47; 48; 47; 42; 47; 50; 49; 46; 48; 52; 53; 47; 48; 53; 53; 47; 47; 53; 56; 47; 46; 53; 57;
   46; 46; 53; 58; 48; 46; 54; 59; 48; 46; 54; 59; 31; 31; 31; 31; 34; 35; 39; 40; 42; 46; 47; 47; 47; 46;
   48; 48; 37; 38; 39; 40; 42; 43; 47; 47; 47; 48; 48; 47; 46; 46; 46; 46; 48; 47; 46; 46; 47; 47; 47; 48;
   50; 52; 53; 53; 53; 53; 54; 54; 49; 47; 46; 45; 45; 46; 45; 47; 49; 53; 53; 56; 57; 58; 59; 59; 32; 31;
   33; 37; 45; 48; 49; 50; 31; 31; 33; 38; 45; 47; 48; 49; 31; 31; 34; 38; 45; 47; 47; 48; 31; 31; 34; 38;
   45; 47; 47; 48; 31; 32; 34; 39; 45; 46; 46; 47; 30; 32; 35; 40; 44; 46; 45; 46; 30; 32; 35; 40; 44; 46;
   45; 46; 31; 33; 35; 40; 45; 46; 45; 46; 33; 35; 37; 42; 46; 47; 45; 46; 33; 36; 38; 43; 46; 47; 46; 46;
   33; 36; 38; 43; 46; 47; 46; 46; 35; 38; 41; 45; 47; 47; 45; 46; 37; 40; 43; 47; 47; 47; 45; 46; 37; 40;
   43; 47; 47; 47; 45; 46; 39; 41; 43; 47; 48; 48; 47; 47; 42; 43; 44; 47; 49; 50; 49; 50; 42; 43; 44; 47;
   49; 50; 49; 50; 43; 43; 45; 47; 50; 50; 50; 50; 47; 46; 46; 48; 51; 52; 53; 53; 49; 46; 47; 48; 52; 53;
   53; 54; 49; 46; 47; 48; 52; 53; 53; 54; 48; 46; 46; 47; 52; 53; 55; 55; 48; 46; 46; 47; 51; 53; 56; 56;
   48; 46; 46; 47; 51; 53; 56; 56; 48; 45; 46; 46; 51; 53; 57; 57; 49; 45; 45; 46; 51; 53; 58; 59; 49; 45;
   45; 46; 51; 53; 58; 59; 49; 45; 45; 46; 52; 53; 58; 60; 50; 46; 46; 46; 52; 54; 59; 61; 50; 46; 46; 46;
   52; 54; 59; 61; 50; 46; 46; 46; 52; 54; 59; 61; 51; 47; 47; 47; 52; 54; 60; 62; 32; 31; 31; 31; 31; 30;
   30; 31; 33; 33; 33; 35; 37; 37; 39; 42; 42; 43; 47; 49; 49; 48; 48; 48; 48; 49; 49; 49; 50; 50; 50; 51;
   31; 31; 31; 31; 32; 32; 32; 33; 35; 36; 36; 38; 40; 40; 41; 43; 43; 43; 46; 46; 46; 46; 46; 46; 45; 45;
   45; 45; 46; 46; 46; 47; 33; 33; 34; 34; 34; 35; 35; 35; 37; 38; 38; 41; 43; 43; 43; 44; 44; 45; 46; 47;
   47; 46; 46; 46; 46; 45; 45; 45; 46; 46; 46; 47; 37; 38; 38; 38; 39; 40; 40; 40; 42; 43; 43; 45; 47; 47;
   47; 47; 47; 47; 48; 48; 48; 47; 47; 47; 46; 46; 46; 46; 46; 46; 46; 47; 45; 45; 45; 45; 45; 44; 44; 45;
   46; 46; 46; 47; 47; 47; 48; 49; 49; 50; 51; 52; 52; 52; 51; 51; 51; 51; 51; 52; 52; 52; 52; 52; 48; 47;
   47; 47; 46; 46; 46; 46; 47; 47; 47; 47; 47; 47; 48; 50; 50; 50; 52; 53; 53; 53; 53; 53; 53; 53; 53; 53;
   54; 54; 54; 54; 49; 48; 47; 47; 46; 45; 45; 45; 45; 46; 46; 45; 45; 45; 47; 49; 49; 50; 53; 53; 53; 55;
   56; 56; 57; 58; 58; 58; 59; 59; 59; 60; 50; 49; 48; 48; 47; 46; 46; 46; 46; 46; 46; 46; 46; 46; 47; 50;
   50; 50; 53; 54; 54; 55; 56; 56; 57; 59; 59; 60; 61; 61; 61; 62]];
 [[32; 32; 34; 38; 32; 33; 35; 39; 34; 35; 39; 45; 38; 39; 45; 54; 31; 31; 32; 32; 33; 34; 37; 41; 31; 32;
   32; 32; 33; 34; 36; 39; 32; 32; 32; 33; 34; 35; 37; 40; 32; 32; 33; 34; 35; 36; 38; 41; 33; 33; 34; 35;
   37; 39; 41; 44; 34; 34; 35; 36; 39; 43; 46; 49; 37; 36; 37; 38; 41; 46; 51; 54; 41; 39; 40; 41; 44; 49;
   54; 58; 32; 31; 31; 31; 31; 31; 31; 32; 32; 34; 34; 36; 36; 39; 39; 44; 31; 32; 32; 32; 32; 32; 32; 32;
   32; 34; 34; 35; 35; 38; 38; 42; 31; 32; 32; 32; 32; 32; 32; 32; 32; 34; 34; 35; 35; 38; 38; 42; 31; 32;
   32; 32; 32; 32; 32; 32; 32; 33; 33; 34; 34; 37; 37; 41; 31; 32; 32; 32; 32; 32; 32; 32; 32; 33; 33; 34;
   34; 37; 37; 41; 31; 32; 32; 32; 32; 33; 33; 34; 34; 35; 35; 36; 36; 39; 39; 42; 31; 32; 32; 32; 32; 33;
   33; 34; 34; 35; 35; 36; 36; 39; 39; 42; 32; 32; 32; 32; 32; 34; 34; 35; 35; 37; 37; 38; 38; 40; 40; 42;
   32; 32; 32; 32; 32; 34; 34; 35; 35; 37; 37; 38; 38; 40; 40; 42; 34; 34; 34; 33; 33; 35; 35; 37; 37; 39;
   39; 42; 42; 45; 45; 47; 34; 34; 34; 33; 33; 35; 35; 37; 37; 39; 39; 42; 42; 45; 45; 47; 36; 35; 35; 34;
   34; 36; 36; 38; 38; 42; 42; 48; 48; 50; 50; 54; 36; 35; 35; 34; 34; 36; 36; 38; 38; 42; 42; 48; 48; 50;
   50; 54; 39; 38; 38; 37; 37; 39; 39; 40; 40; 45; 45; 50; 50; 54; 54; 58; 39; 38; 38; 37; 37; 39; 39; 40;
   40; 45; 45; 50; 50; 54; 54; 58; 44; 42; 42; 41; 41; 42; 42; 42; 42; 47; 47; 54; 54; 58; 58; 63; 32; 31;
   31; 31; 31; 31; 31; 31; 31; 31; 31; 31; 31; 32; 32; 32; 32; 33; 34; 34; 34; 35; 36; 36; 36; 37; 39; 39;
   39; 41; 44; 44; 31; 31; 31; 31; 31; 31; 31; 31; 31; 32; 32; 32; 32; 32; 32; 32; 32; 33; 34; 34; 34; 34;
   35; 35; 35; 37; 39; 39; 39; 41; 43; 43; 31; 31; 32; 32; 32; 32; 32; 32; 32; 32; 32; 32; 32; 32; 32; 32;
   32; 33; 34; 34; 34; 34; 35; 35; 35; 37; 38; 38; 38; 40; 42; 42; 31; 31; 32; 32; 32; 32; 32; 32; 32; 32;
   32; 32; 32; 32; 32; 32; 32; 33; 34; 34; 34; 34; 35; 35; 35; 37; 38; 38; 38; 40; 42; 42; 31; 31; 32; 32;
   32; 32; 32; 32; 32; 32; 32; 32; 32; 32; 32; 32; 32; 33; 34; 34; 34; 34; 35; 35; 35; 37; 38; 38; 38; 40;
   42; 42; 31; 31; 32; 32; 32; 32; 32; 32; 32; 32; 32; 32; 32; 32; 32; 32; 32; 33; 34; 34; 34; 34; 35; 35;
   35; 36; 38; 38; 38; 39; 41; 41; 31; 31; 32; 32; 32; 32; 32; 32; 32; 32; 32; 32; 32; 32; 32; 32; 32; 33;
   33; 33; 33; 34; 34; 34; 34; 36; 37; 37; 37; 39; 41; 41; 31; 31; 32; 32; 32; 32; 32; 32; 32; 32; 32; 32;
   32; 32; 32; 32; 32; 33; 33; 33; 33; 34; 34; 34; 34; 36; 37; 37; 37; 39; 41; 41; 31; 31; 32; 32; 32; 32;
   32; 32; 32; 32; 32; 32; 32; 32; 32; 32; 32; 33; 33; 33; 33; 34; 34; 34; 34; 36; 37; 37; 37; 39; 41; 41;
   31; 32; 32; 32; 32; 32; 32; 32; 32; 32; 33; 33; 33; 33; 33; 33; 33; 34; 34; 34; 34; 35; 35; 35; 35; 37;
   38; 38; 38; 40; 41; 41; 31; 32; 32; 32; 32; 32; 32; 32; 32; 33; 33; 33; 33; 33; 34; 34; 34; 34; 35; 35;
   35; 36; 36; 36; 36; 38; 39; 39; 39; 40; 42; 42; 31; 32; 32; 32; 32; 32; 32; 32; 32; 33; 33; 33; 33; 33;
   34; 34; 34; 34; 35; 35; 35; 36; 36; 36; 36; 38; 39; 39; 39; 40; 42; 42; 31; 32; 32; 32; 32; 32; 32; 32;
   32; 33; 33; 33; 33; 33; 34; 34; 34; 34; 35; 35; 35; 36; 36; 36; 36; 38; 39; 39; 39; 40; 42; 42; 32; 32;
   32; 32; 32; 32; 32; 32; 32; 33; 33; 33; 33; 34; 34; 34; 34; 35; 36; 36; 36; 36; 37; 37; 37; 38; 40; 40;
   40; 41; 42; 42; 32; 32; 32; 32; 32; 32; 32; 32; 32; 33; 34; 34; 34; 34; 35; 35; 35; 36; 37; 37; 37; 37;
   38; 38; 38; 39; 40; 40; 40; 41; 42; 42; 32; 32; 32; 32; 32; 32; 32; 32; 32; 33; 34; 34; 34; 34; 35; 35;
   35; 36; 37; 37; 37; 37; 38; 38; 38; 39; 40; 40; 40; 41; 42; 42; 32; 32; 32; 32; 32; 32; 32; 32; 32; 33;
   34; 34; 34; 34; 35; 35; 35; 36; 37; 37; 37; 37; 38; 38; 38; 39; 40; 40; 40; 41; 42; 42; 33; 33; 33; 33;
   33; 33; 33; 33; 33; 34; 34; 34; 34; 35; 36; 36; 36; 37; 38; 38; 38; 39; 40; 40; 40; 41; 42; 42; 42; 44;
   45; 45; 34; 34; 34; 34; 34; 34; 33; 33; 33; 34; 35; 35; 35; 36; 37; 37; 37; 38; 39; 39; 39; 41; 42; 42;
   42; 44; 45; 45; 45; 46; 47; 47; 34; 34; 34; 34; 34; 34; 33; 33; 33; 34; 35; 35; 35; 36; 37; 37; 37; 38;
   39; 39; 39; 41; 42; 42; 42; 44; 45; 45; 45; 46; 47; 47; 34; 34; 34; 34; 34; 34; 33; 33; 33; 34; 35; 35;
   35; 36; 37; 37; 37; 38; 39; 39; 39; 41; 42; 42; 42; 44; 45; 45; 45; 46; 47; 47; 35; 34; 34; 34; 34; 34;
   34; 34; 34; 35; 36; 36; 36; 36; 37; 37; 37; 39; 41; 41; 41; 43; 45; 45; 45; 46; 47; 47; 47; 49; 50; 50;
   36; 35; 35; 35; 35; 35; 34; 34; 34; 35; 36; 36; 36; 37; 38; 38; 38; 40; 42; 42; 42; 45; 48; 48; 48; 49;
   50; 50; 50; 52; 54; 54; 36; 35; 35; 35; 35; 35; 34; 34; 34; 35; 36; 36; 36; 37; 38; 38; 38; 40; 42; 42;
   42; 45; 48; 48; 48; 49; 50; 50; 50; 52; 54; 54; 36; 35; 35; 35; 35; 35; 34; 34; 34; 35; 36; 36; 36; 37;
   38; 38; 38; 40; 42; 42; 42; 45; 48; 48; 48; 49; 50; 50; 50; 52; 54; 54; 37; 37; 37; 37; 37; 36; 36; 36;
   36; 37; 38; 38; 38; 38; 39; 39; 39; 41; 44; 44; 44; 46; 49; 49; 49; 51; 52; 52; 52; 54; 56; 56; 39; 39;
   38; 38; 38; 38; 37; 37; 37; 38; 39; 39; 39; 40; 40; 40; 40; 42; 45; 45; 45; 47; 50; 50; 50; 52; 54; 54;
   54; 56; 58; 58; 39; 39; 38; 38; 38; 38; 37; 37; 37; 38; 39; 39; 39; 40; 40; 40; 40; 42; 45; 45; 45; 47;
   50; 50; 50; 52; 54; 54; 54; 56; 58; 58; 39; 39; 38; 38; 38; 38; 37; 37; 37; 38; 39; 39; 39; 40; 40; 40;
   40; 42; 45; 45; 45; 47; 50; 50; 50; 52; 54; 54; 54; 56; 58; 58; 41; 41; 40; 40; 40; 39; 39; 39; 39; 40;
   40; 40; 40; 41; 41; 41; 41; 44; 46; 46; 46; 49; 52; 52; 52; 54; 56; 56; 56; 58; 60; 60; 44; 43; 42; 42;
   42; 41; 41; 41; 41; 41; 42; 42; 42; 42; 42; 42; 42; 45; 47; 47; 47; 50; 54; 54; 54; 56; 58; 58; 58; 60;
   63; 63; 44; 43; 42; 42; 42; 41; 41; 41; 41; 41; 42; 42; 42; 42; 42; 42; 42; 45; 47; 47; 47; 50; 54; 54;
   54; 56; 58; 58; 58; 60; 63; 63; 31; 32; 34; 39; 32; 32; 34; 38; 32; 33; 34; 38; 32; 33; 36; 40; 33; 34;
   38; 42; 34; 36; 41; 47; 37; 38; 44; 52; 40; 40; 46; 56; 31; 32; 32; 32; 33; 34; 37; 40; 32; 32; 33; 33;
   34; 36; 38; 40; 34; 34; 34; 36; 38; 41; 44; 46; 39; 38; 38; 40; 42; 47; 52; 56; 32; 31; 31; 32; 32; 36;
   36; 44; 31; 32; 32; 32; 32; 35; 35; 42; 31; 32; 32; 32; 32; 35; 35; 42; 31; 32; 32; 33; 33; 34; 34; 41;
   31; 32; 32; 33; 33; 34; 34; 41; 32; 32; 32; 34; 34; 36; 36; 42; 32; 32; 32; 34; 34; 36; 36; 42; 32; 33;
   33; 35; 35; 38; 38; 42; 32; 33; 33; 35; 35; 38; 38; 42; 34; 34; 34; 37; 37; 42; 42; 48; 34; 34; 34; 37;
   37; 42; 42; 48; 36; 34; 34; 38; 38; 48; 48; 54; 36; 34; 34; 38; 38; 48; 48; 54; 39; 37; 37; 40; 40; 50;
   50; 58; 39; 37; 37; 40; 40; 50; 50; 58; 44; 41; 41; 43; 43; 53; 53; 63; 32; 31; 31; 31; 31; 32; 32; 32;
   32; 34; 34; 36; 36; 39; 39; 44; 31; 32; 32; 32; 32; 32; 32; 33; 33; 34; 34; 34; 34; 37; 37; 41; 31; 32;
   32; 32; 32; 32; 32; 33; 33; 34; 34; 34; 34; 37; 37; 41; 32; 32; 32; 33; 33; 34; 34; 35; 35; 37; 37; 38;
   38; 40; 40; 43; 32; 32; 32; 33; 33; 34; 34; 35; 35; 37; 37; 38; 38; 40; 40; 43; 36; 35; 35; 34; 34; 36;
   36; 38; 38; 42; 42; 48; 48; 50; 50; 53; 36; 35; 35; 34; 34; 36; 36; 38; 38; 42; 42; 48; 48; 50; 50; 53;
   44; 42; 42; 41; 41; 42; 42; 42; 42; 48; 48; 54; 54; 58; 58; 63; 32; 31; 31; 31; 31; 32; 32; 32; 32; 34;
   36; 36; 36; 39; 44; 44; 31; 31; 31; 31; 31; 32; 32; 32; 32; 34; 35; 35; 35; 39; 43; 43; 31; 32; 32; 32;
   32; 32; 32; 32; 32; 34; 35; 35; 35; 38; 42; 42; 31; 32; 32; 32; 32; 32; 32; 32; 32; 34; 35; 35; 35; 38;
   42; 42; 31; 32; 32; 32; 32; 32; 32; 32; 32; 34; 35; 35; 35; 38; 42; 42; 31; 32; 32; 32; 32; 32; 32; 32;
   32; 34; 35; 35; 35; 38; 41; 41; 31; 32; 32; 32; 32; 32; 33; 33; 33; 33; 34; 34; 34; 37; 41; 41; 31; 32;
   32; 32; 32; 32; 33; 33; 33; 33; 34; 34; 34; 37; 41; 41; 31; 32; 32; 32; 32; 32; 33; 33; 33; 33; 34; 34;
   34; 37; 41; 41; 31; 32; 32; 32; 32; 33; 33; 33; 33; 34; 35; 35; 35; 38; 41; 41; 32; 32; 32; 32; 32; 33;
   34; 34; 34; 35; 36; 36; 36; 39; 42; 42; 32; 32; 32; 32; 32; 33; 34; 34; 34; 35; 36; 36; 36; 39; 42; 42;
   32; 32; 32; 32; 32; 33; 34; 34; 34; 35; 36; 36; 36; 39; 42; 42; 32; 32; 32; 32; 32; 33; 34; 34; 34; 36;
   37; 37; 37; 40; 42; 42; 32; 32; 33; 33; 33; 34; 35; 35; 35; 37; 38; 38; 38; 40; 42; 42; 32; 32; 33; 33;
   33; 34; 35; 35; 35; 37; 38; 38; 38; 40; 42; 42; 32; 32; 33; 33; 33; 34; 35; 35; 35; 37; 38; 38; 38; 40;
   42; 42; 33; 33; 33; 33; 33; 34; 36; 36; 36; 38; 40; 40; 40; 42; 45; 45; 34; 34; 34; 34; 34; 35; 37; 37;
   37; 39; 42; 42; 42; 45; 48; 48; 34; 34; 34; 34; 34; 35; 37; 37; 37; 39; 42; 42; 42; 45; 48; 48; 34; 34;
   34; 34; 34; 35; 37; 37; 37; 39; 42; 42; 42; 45; 48; 48; 35; 34; 34; 34; 34; 36; 37; 37; 37; 41; 45; 45;
   45; 47; 50; 50; 36; 35; 34; 34; 34; 36; 38; 38; 38; 43; 48; 48; 48; 51; 54; 54; 36; 35; 34; 34; 34; 36;
   38; 38; 38; 43; 48; 48; 48; 51; 54; 54; 36; 35; 34; 34; 34; 36; 38; 38; 38; 43; 48; 48; 48; 51; 54; 54;
   37; 37; 36; 36; 36; 38; 39; 39; 39; 44; 49; 49; 49; 52; 56; 56; 39; 38; 37; 37; 37; 39; 40; 40; 40; 45;
   50; 50; 50; 54; 58; 58; 39; 38; 37; 37; 37; 39; 40; 40; 40; 45; 50; 50; 50; 54; 58; 58; 39; 38; 37; 37;
   37; 39; 40; 40; 40; 45; 50; 50; 50; 54; 58; 58; 41; 40; 39; 39; 39; 40; 42; 42; 42; 46; 52; 52; 52; 56;
   60; 60; 44; 42; 41; 41; 41; 42; 43; 43; 43; 48; 53; 53; 53; 58; 63; 63; 44; 42; 41; 41; 41; 42; 43; 43;
   43; 48; 53; 53; 53; 58; 63; 63; 32; 31; 31; 31; 31; 31; 31; 31; 31; 31; 32; 32; 32; 32; 32; 32; 32; 33;
   34; 34; 34; 35; 36; 36; 36; 37; 39; 39; 39; 41; 44; 44; 31; 31; 32; 32; 32; 32; 32; 32; 32; 32; 32; 32;
   32; 32; 32; 32; 32; 33; 34; 34; 34; 34; 35; 35; 35; 37; 38; 38; 38; 40; 42; 42; 31; 31; 32; 32; 32; 32;
   32; 32; 32; 32; 32; 32; 32; 32; 33; 33; 33; 33; 34; 34; 34; 34; 34; 34; 34; 36; 37; 37; 37; 39; 41; 41;
   31; 31; 32; 32; 32; 32; 32; 32; 32; 32; 32; 32; 32; 32; 33; 33; 33; 33; 34; 34; 34; 34; 34; 34; 34; 36;
   37; 37; 37; 39; 41; 41; 31; 31; 32; 32; 32; 32; 32; 32; 32; 32; 32; 32; 32; 32; 33; 33; 33; 33; 34; 34;
   34; 34; 34; 34; 34; 36; 37; 37; 37; 39; 41; 41; 32; 32; 32; 32; 32; 32; 32; 32; 32; 33; 33; 33; 33; 33;
   34; 34; 34; 34; 35; 35; 35; 36; 36; 36; 36; 38; 39; 39; 39; 40; 42; 42; 32; 32; 32; 32; 32; 32; 33; 33;
   33; 33; 34; 34; 34; 34; 35; 35; 35; 36; 37; 37; 37; 37; 38; 38; 38; 39; 40; 40; 40; 42; 43; 43; 32; 32;
   32; 32; 32; 32; 33; 33; 33; 33; 34; 34; 34; 34; 35; 35; 35; 36; 37; 37; 37; 37; 38; 38; 38; 39; 40; 40;
   40; 42; 43; 43; 32; 32; 32; 32; 32; 32; 33; 33; 33; 33; 34; 34; 34; 34; 35; 35; 35; 36; 37; 37; 37; 37;
   38; 38; 38; 39; 40; 40; 40; 42; 43; 43; 34; 34; 34; 34; 34; 34; 33; 33; 33; 34; 35; 35; 35; 36; 37; 37;
   37; 38; 39; 39; 39; 41; 43; 43; 43; 44; 45; 45; 45; 46; 48; 48; 36; 35; 35; 35; 35; 35; 34; 34; 34; 35;
   36; 36; 36; 37; 38; 38; 38; 40; 42; 42; 42; 45; 48; 48; 48; 49; 50; 50; 50; 52; 53; 53; 36; 35; 35; 35;
   35; 35; 34; 34; 34; 35; 36; 36; 36; 37; 38; 38; 38; 40; 42; 42; 42; 45; 48; 48; 48; 49; 50; 50; 50; 52;
   53; 53; 36; 35; 35; 35; 35; 35; 34; 34; 34; 35; 36; 36; 36; 37; 38; 38; 38; 40; 42; 42; 42; 45; 48; 48;
   48; 49; 50; 50; 50; 52; 53; 53; 39; 39; 38; 38; 38; 38; 37; 37; 37; 38; 39; 39; 39; 40; 40; 40; 40; 42;
   45; 45; 45; 47; 51; 51; 51; 52; 54; 54; 54; 56; 58; 58; 44; 43; 42; 42; 42; 41; 41; 41; 41; 41; 42; 42;
   42; 42; 42; 42; 42; 45; 48; 48; 48; 50; 54; 54; 54; 56; 58; 58; 58; 60; 63; 63; 44; 43; 42; 42; 42; 41;
   41; 41; 41; 41; 42; 42; 42; 42; 42; 42; 42; 45; 48; 48; 48; 50; 54; 54; 54; 56; 58; 58; 58; 60; 63; 63;
   31; 32; 34; 39; 32; 32; 34; 38; 32; 32; 34; 38; 32; 32; 33; 37; 32; 32; 33; 37; 32; 33; 35; 39; 32; 33;
   35; 39; 32; 34; 37; 40; 32; 34; 37; 40; 34; 35; 39; 45; 34; 35; 39; 45; 35; 36; 43; 51; 35; 36; 43; 51;
   38; 39; 45; 54; 38; 39; 45; 54; 42; 42; 48; 58; 31; 32; 32; 32; 32; 32; 32; 32; 32; 34; 34; 35; 35; 38;
   38; 42; 32; 32; 32; 32; 32; 33; 33; 34; 34; 35; 35; 36; 36; 39; 39; 42; 34; 34; 34; 33; 33; 35; 35; 37;
   37; 39; 39; 43; 43; 45; 45; 48; 39; 38; 38; 37; 37; 39; 39; 40; 40; 45; 45; 51; 51; 54; 54; 58; 32; 31;
   31; 32; 32; 36; 36; 44; 31; 31; 31; 32; 32; 35; 35; 43; 31; 32; 32; 32; 32; 35; 35; 42; 31; 32; 32; 32;
   32; 35; 35; 42; 31; 32; 32; 32; 32; 35; 35; 42; 31; 32; 32; 32; 32; 35; 35; 41; 31; 32; 32; 33; 33; 34;
   34; 41; 31; 32; 32; 33; 33; 34; 34; 41; 31; 32; 32; 33; 33; 34; 34; 41; 31; 32; 32; 33; 33; 35; 35; 41;
   32; 32; 32; 34; 34; 36; 36; 42; 32; 32; 32; 34; 34; 36; 36; 42; 32; 32; 32; 34; 34; 36; 36; 42; 32; 32;
   32; 34; 34; 37; 37; 42; 32; 33; 33; 35; 35; 38; 38; 42; 32; 33; 33; 35; 35; 38; 38; 42; 32; 33; 33; 35;
   35; 38; 38; 42; 33; 33; 33; 36; 36; 40; 40; 45; 34; 34; 34; 37; 37; 42; 42; 48; 34; 34; 34; 37; 37; 42;
   42; 48; 34; 34; 34; 37; 37; 42; 42; 48; 35; 34; 34; 37; 37; 45; 45; 50; 36; 34; 34; 38; 38; 48; 48; 54;
   36; 34; 34; 38; 38; 48; 48; 54; 36; 34; 34; 38; 38; 48; 48; 54; 37; 36; 36; 39; 39; 49; 49; 56; 39; 37;
   37; 40; 40; 50; 50; 58; 39; 37; 37; 40; 40; 50; 50; 58; 39; 37; 37; 40; 40; 50; 50; 58; 41; 39; 39; 42;
   42; 52; 52; 60; 44; 41; 41; 43; 43; 53; 53; 63; 44; 41; 41; 43; 43; 53; 53; 63; 32; 31; 31; 31; 31; 31;
   31; 31; 31; 31; 32; 32; 32; 32; 32; 32; 32; 33; 34; 34; 34; 35; 36; 36; 36; 37; 39; 39; 39; 41; 44; 44;
   31; 31; 32; 32; 32; 32; 32; 32; 32; 32; 32; 32; 32; 32; 33; 33; 33; 33; 34; 34; 34; 34; 34; 34; 34; 36;
   37; 37; 37; 39; 41; 41; 31; 31; 32; 32; 32; 32; 32; 32; 32; 32; 32; 32; 32; 32; 33; 33; 33; 33; 34; 34;
   34; 34; 34; 34; 34; 36; 37; 37; 37; 39; 41; 41; 32; 32; 32; 32; 32; 32; 33; 33; 33; 33; 34; 34; 34; 34;
   35; 35; 35; 36; 37; 37; 37; 37; 38; 38; 38; 39; 40; 40; 40; 42; 43; 43; 32; 32; 32; 32; 32; 32; 33; 33;
   33; 33; 34; 34; 34; 34; 35; 35; 35; 36; 37; 37; 37; 37; 38; 38; 38; 39; 40; 40; 40; 42; 43; 43; 36; 35;
   35; 35; 35; 35; 34; 34; 34; 35; 36; 36; 36; 37; 38; 38; 38; 40; 42; 42; 42; 45; 48; 48; 48; 49; 50; 50;
   50; 52; 53; 53; 36; 35; 35; 35; 35; 35; 34; 34; 34; 35; 36; 36; 36; 37; 38; 38; 38; 40; 42; 42; 42; 45;
   48; 48; 48; 49; 50; 50; 50; 52; 53; 53; 44; 43; 42; 42; 42; 41; 41; 41; 41; 41; 42; 42; 42; 42; 42; 42;
   42; 45; 48; 48; 48; 50; 54; 54; 54; 56; 58; 58; 58; 60; 63; 63];
 [31; 34; 42; 47; 34; 39; 45; 46; 42; 45; 48; 49; 47; 46; 49; 54; 31; 31; 32; 35; 39; 45; 48; 48; 31; 31;
   33; 37; 41; 44; 46; 46; 32; 33; 35; 39; 42; 45; 46; 45; 35; 37; 39; 43; 45; 47; 47; 46; 39; 41; 42; 45;
   47; 48; 48; 47; 45; 44; 45; 47; 48; 50; 51; 51; 48; 46; 46; 47; 48; 51; 53; 54; 48; 46; 45; 46; 47; 51;
   54; 56; 32; 31; 31; 30; 30; 33; 33; 36; 36; 41; 41; 49; 49; 48; 48; 49; 31; 31; 31; 31; 31; 34; 34; 38;
   38; 42; 42; 47; 47; 47; 47; 47; 31; 31; 31; 31; 31; 34; 34; 38; 38; 42; 42; 47; 47; 47; 47; 47; 30; 31;
   31; 32; 32; 35; 35; 40; 40; 42; 42; 46; 46; 45; 45; 45; 30; 31; 31; 32; 32; 35; 35; 40; 40; 42; 42; 46;
   46; 45; 45; 45; 33; 34; 34; 35; 35; 39; 39; 43; 43; 45; 45; 47; 47; 46; 46; 45; 33; 34; 34; 35; 35; 39;
   39; 43; 43; 45; 45; 47; 47; 46; 46; 45; 36; 38; 38; 40; 40; 43; 43; 47; 47; 47; 47; 48; 48; 46; 46; 45;
   36; 38; 38; 40; 40; 43; 43; 47; 47; 47; 47; 48; 48; 46; 46; 45; 41; 42; 42; 42; 42; 45; 45; 47; 47; 48;
   48; 50; 50; 49; 49; 49; 41; 42; 42; 42; 42; 45; 45; 47; 47; 48; 48; 50; 50; 49; 49; 49; 49; 47; 47; 46;
   46; 47; 47; 48; 48; 50; 50; 53; 53; 53; 53; 53; 49; 47; 47; 46; 46; 47; 47; 48; 48; 50; 50; 53; 53; 53;
   53; 53; 48; 47; 47; 45; 45; 46; 46; 46; 46; 49; 49; 53; 53; 54; 54; 55; 48; 47; 47; 45; 45; 46; 46; 46;
   46; 49; 49; 53; 53; 54; 54; 55; 49; 47; 47; 45; 45; 45; 45; 45; 45; 49; 49; 53; 53; 55; 55; 58; 32; 31;
   31; 31; 31; 31; 30; 30; 30; 32; 33; 33; 33; 35; 36; 36; 36; 39; 41; 41; 41; 45; 49; 49; 49; 49; 48; 48;
   48; 49; 49; 49; 31; 31; 31; 31; 31; 31; 31; 31; 31; 32; 34; 34; 34; 35; 37; 37; 37; 39; 42; 42; 42; 45;
   48; 48; 48; 48; 48; 48; 48; 48; 48; 48; 31; 31; 31; 31; 31; 31; 31; 31; 31; 33; 34; 34; 34; 36; 38; 38;
   38; 40; 42; 42; 42; 45; 47; 47; 47; 47; 47; 47; 47; 47; 47; 47; 31; 31; 31; 31; 31; 31; 31; 31; 31; 33;
   34; 34; 34; 36; 38; 38; 38; 40; 42; 42; 42; 45; 47; 47; 47; 47; 47; 47; 47; 47; 47; 47; 31; 31; 31; 31;
   31; 31; 31; 31; 31; 33; 34; 34; 34; 36; 38; 38; 38; 40; 42; 42; 42; 45; 47; 47; 47; 47; 47; 47; 47; 47;
   47; 47; 31; 31; 31; 31; 31; 31; 31; 31; 31; 33; 35; 35; 35; 37; 39; 39; 39; 41; 42; 42; 42; 44; 47; 47;
   47; 46; 46; 46; 46; 46; 46; 46; 30; 31; 31; 31; 31; 31; 32; 32; 32; 33; 35; 35; 35; 37; 40; 40; 40; 41;
   42; 42; 42; 44; 46; 46; 46; 46; 45; 45; 45; 45; 45; 45; 30; 31; 31; 31; 31; 31; 32; 32; 32; 33; 35; 35;
   35; 37; 40; 40; 40; 41; 42; 42; 42; 44; 46; 46; 46; 46; 45; 45; 45; 45; 45; 45; 30; 31; 31; 31; 31; 31;
   32; 32; 32; 33; 35; 35; 35; 37; 40; 40; 40; 41; 42; 42; 42; 44; 46; 46; 46; 46; 45; 45; 45; 45; 45; 45;
   32; 32; 33; 33; 33; 33; 33; 33; 33; 35; 37; 37; 37; 39; 41; 41; 41; 42; 43; 43; 43; 45; 47; 47; 47; 46;
   46; 46; 46; 45; 45; 45; 33; 34; 34; 34; 34; 35; 35; 35; 35; 37; 39; 39; 39; 41; 43; 43; 43; 44; 45; 45;
   45; 46; 47; 47; 47; 47; 46; 46; 46; 46; 45; 45; 33; 34; 34; 34; 34; 35; 35; 35; 35; 37; 39; 39; 39; 41;
   43; 43; 43; 44; 45; 45; 45; 46; 47; 47; 47; 47; 46; 46; 46; 46; 45; 45; 33; 34; 34; 34; 34; 35; 35; 35;
   35; 37; 39; 39; 39; 41; 43; 43; 43; 44; 45; 45; 45; 46; 47; 47; 47; 47; 46; 46; 46; 46; 45; 45; 35; 35;
   36; 36; 36; 37; 37; 37; 37; 39; 41; 41; 41; 43; 45; 45; 45; 45; 46; 46; 46; 47; 47; 47; 47; 47; 46; 46;
   46; 46; 45; 45; 36; 37; 38; 38; 38; 39; 40; 40; 40; 41; 43; 43; 43; 45; 47; 47; 47; 47; 47; 47; 47; 47;
   48; 48; 48; 47; 46; 46; 46; 46; 45; 45; 36; 37; 38; 38; 38; 39; 40; 40; 40; 41; 43; 43; 43; 45; 47; 47;
   47; 47; 47; 47; 47; 47; 48; 48; 48; 47; 46; 46; 46; 46; 45; 45; 36; 37; 38; 38; 38; 39; 40; 40; 40; 41;
   43; 43; 43; 45; 47; 47; 47; 47; 47; 47; 47; 47; 48; 48; 48; 47; 46; 46; 46; 46; 45; 45; 39; 39; 40; 40;
   40; 41; 41; 41; 41; 42; 44; 44; 44; 45; 47; 47; 47; 47; 48; 48; 48; 48; 49; 49; 49; 48; 48; 48; 48; 47;
   47; 47; 41; 42; 42; 42; 42; 42; 42; 42; 42; 43; 45; 45; 45; 46; 47; 47; 47; 48; 48; 48; 48; 49; 50; 50;
   50; 50; 49; 49; 49; 49; 49; 49; 41; 42; 42; 42; 42; 42; 42; 42; 42; 43; 45; 45; 45; 46; 47; 47; 47; 48;
   48; 48; 48; 49; 50; 50; 50; 50; 49; 49; 49; 49; 49; 49; 41; 42; 42; 42; 42; 42; 42; 42; 42; 43; 45; 45;
   45; 46; 47; 47; 47; 48; 48; 48; 48; 49; 50; 50; 50; 50; 49; 49; 49; 49; 49; 49; 45; 45; 45; 45; 45; 44;
   44; 44; 44; 45; 46; 46; 46; 47; 47; 47; 47; 48; 49; 49; 49; 50; 51; 51; 51; 51; 51; 51; 51; 51; 51; 51;
   49; 48; 47; 47; 47; 47; 46; 46; 46; 47; 47; 47; 47; 47; 48; 48; 48; 49; 50; 50; 50; 51; 53; 53; 53; 53;
   53; 53; 53; 53; 53; 53; 49; 48; 47; 47; 47; 47; 46; 46; 46; 47; 47; 47; 47; 47; 48; 48; 48; 49; 50; 50;
   50; 51; 53; 53; 53; 53; 53; 53; 53; 53; 53; 53; 49; 48; 47; 47; 47; 47; 46; 46; 46; 47; 47; 47; 47; 47;
   48; 48; 48; 49; 50; 50; 50; 51; 53; 53; 53; 53; 53; 53; 53; 53; 53; 53; 49; 48; 47; 47; 47; 46; 46; 46;
   46; 46; 47; 47; 47; 47; 47; 47; 47; 48; 50; 50; 50; 51; 53; 53; 53; 53; 53; 53; 53; 54; 54; 54; 48; 48;
   47; 47; 47; 46; 45; 45; 45; 46; 46; 46; 46; 46; 46; 46; 46; 48; 49; 49; 49; 51; 53; 53; 53; 53; 54; 54;
   54; 55; 55; 55; 48; 48; 47; 47; 47; 46; 45; 45; 45; 46; 46; 46; 46; 46; 46; 46; 46; 48; 49; 49; 49; 51;
   53; 53; 53; 53; 54; 54; 54; 55; 55; 55; 48; 48; 47; 47; 47; 46; 45; 45; 45; 46; 46; 46; 46; 46; 46; 46;
   46; 48; 49; 49; 49; 51; 53; 53; 53; 53; 54; 54; 54; 55; 55; 55; 49; 48; 47; 47; 47; 46; 45; 45; 45; 45;
   46; 46; 46; 46; 46; 46; 46; 47; 49; 49; 49; 51; 53; 53; 53; 54; 55; 55; 55; 56; 57; 57; 49; 48; 47; 47;
   47; 46; 45; 45; 45; 45; 45; 45; 45; 45; 45; 45; 45; 47; 49; 49; 49; 51; 53; 53; 53; 54; 55; 55; 55; 57;
   58; 58; 49; 48; 47; 47; 47; 46; 45; 45; 45; 45; 45; 45; 45; 45; 45; 45; 45; 47; 49; 49; 49; 51; 53; 53;
   53; 54; 55; 55; 55; 57; 58; 58; 31; 34; 42; 48; 31; 35; 42; 46; 33; 37; 44; 46; 36; 41; 46; 46; 40; 44;
   48; 48; 45; 46; 49; 51; 47; 47; 50; 54; 47; 46; 49; 55; 31; 31; 33; 36; 40; 45; 47; 47; 34; 35; 37; 41;
   44; 46; 47; 46; 42; 42; 44; 46; 48; 49; 50; 49; 48; 46; 46; 46; 48; 51; 54; 55; 32; 31; 31; 37; 37; 48;
   48; 49; 31; 31; 31; 38; 38; 47; 47; 47; 31; 31; 31; 38; 38; 47; 47; 47; 30; 32; 32; 40; 40; 46; 46; 45;
   30; 32; 32; 40; 40; 46; 46; 45; 33; 36; 36; 43; 43; 47; 47; 46; 33; 36; 36; 43; 43; 47; 47; 46; 37; 40;
   40; 47; 47; 47; 47; 45; 37; 40; 40; 47; 47; 47; 47; 45; 42; 43; 43; 47; 47; 50; 50; 49; 42; 43; 43; 47;
   47; 50; 50; 49; 49; 46; 46; 48; 48; 53; 53; 53; 49; 46; 46; 48; 48; 53; 53; 53; 48; 46; 46; 47; 47; 53;
   53; 56; 48; 46; 46; 47; 47; 53; 53; 56; 49; 45; 45; 46; 46; 53; 53; 58; 32; 31; 31; 30; 30; 33; 33; 37;
   37; 42; 42; 49; 49; 48; 48; 49; 31; 31; 31; 32; 32; 36; 36; 40; 40; 43; 43; 46; 46; 46; 46; 45; 31; 31;
   31; 32; 32; 36; 36; 40; 40; 43; 43; 46; 46; 46; 46; 45; 37; 38; 38; 40; 40; 43; 43; 47; 47; 47; 47; 48;
   48; 47; 47; 46; 37; 38; 38; 40; 40; 43; 43; 47; 47; 47; 47; 48; 48; 47; 47; 46; 48; 47; 47; 46; 46; 47;
   47; 47; 47; 50; 50; 53; 53; 53; 53; 53; 48; 47; 47; 46; 46; 47; 47; 47; 47; 50; 50; 53; 53; 53; 53; 53;
   49; 47; 47; 45; 45; 46; 46; 45; 45; 49; 49; 53; 53; 56; 56; 58; 32; 31; 31; 31; 31; 33; 37; 37; 37; 42;
   48; 48; 48; 48; 49; 49; 31; 31; 31; 31; 31; 34; 37; 37; 37; 42; 47; 47; 47; 48; 48; 48; 31; 31; 31; 31;
   31; 34; 38; 38; 38; 42; 47; 47; 47; 47; 47; 47; 31; 31; 31; 31; 31; 34; 38; 38; 38; 42; 47; 47; 47; 47;
   47; 47; 31; 31; 31; 31; 31; 34; 38; 38; 38; 42; 47; 47; 47; 47; 47; 47; 31; 31; 32; 32; 32; 35; 39; 39;
   39; 42; 46; 46; 46; 46; 46; 46; 30; 31; 32; 32; 32; 35; 40; 40; 40; 42; 46; 46; 46; 45; 45; 45; 30; 31;
   32; 32; 32; 35; 40; 40; 40; 42; 46; 46; 46; 45; 45; 45; 30; 31; 32; 32; 32; 35; 40; 40; 40; 42; 46; 46;
   46; 45; 45; 45; 32; 33; 34; 34; 34; 37; 41; 41; 41; 44; 46; 46; 46; 46; 45; 45; 33; 34; 36; 36; 36; 39;
   43; 43; 43; 45; 47; 47; 47; 46; 46; 46; 33; 34; 36; 36; 36; 39; 43; 43; 43; 45; 47; 47; 47; 46; 46; 46;
   33; 34; 36; 36; 36; 39; 43; 43; 43; 45; 47; 47; 47; 46; 46; 46; 35; 36; 38; 38; 38; 41; 45; 45; 45; 46;
   47; 47; 47; 46; 45; 45; 37; 38; 40; 40; 40; 43; 47; 47; 47; 47; 47; 47; 47; 46; 45; 45; 37; 38; 40; 40;
   40; 43; 47; 47; 47; 47; 47; 47; 47; 46; 45; 45; 37; 38; 40; 40; 40; 43; 47; 47; 47; 47; 47; 47; 47; 46;
   45; 45; 39; 40; 41; 41; 41; 44; 47; 47; 47; 48; 49; 49; 49; 48; 47; 47; 42; 42; 43; 43; 43; 45; 47; 47;
   47; 48; 50; 50; 50; 50; 49; 49; 42; 42; 43; 43; 43; 45; 47; 47; 47; 48; 50; 50; 50; 50; 49; 49; 42; 42;
   43; 43; 43; 45; 47; 47; 47; 48; 50; 50; 50; 50; 49; 49; 45; 45; 44; 44; 44; 46; 47; 47; 47; 49; 51; 51;
   51; 51; 51; 51; 49; 48; 46; 46; 46; 47; 48; 48; 48; 50; 53; 53; 53; 53; 53; 53; 49; 48; 46; 46; 46; 47;
   48; 48; 48; 50; 53; 53; 53; 53; 53; 53; 49; 48; 46; 46; 46; 47; 48; 48; 48; 50; 53; 53; 53; 53; 53; 53;
   48; 47; 46; 46; 46; 47; 47; 47; 47; 50; 53; 53; 53; 54; 54; 54; 48; 47; 46; 46; 46; 46; 47; 47; 47; 50;
   53; 53; 53; 54; 56; 56; 48; 47; 46; 46; 46; 46; 47; 47; 47; 50; 53; 53; 53; 54; 56; 56; 48; 47; 46; 46;
   46; 46; 47; 47; 47; 50; 53; 53; 53; 54; 56; 56; 48; 47; 45; 45; 45; 46; 46; 46; 46; 49; 53; 53; 53; 55;
   57; 57; 49; 47; 45; 45; 45; 45; 46; 46; 46; 49; 53; 53; 53; 56; 58; 58; 49; 47; 45; 45; 45; 45; 46; 46;
   46; 49; 53; 53; 53; 56; 58; 58; 32; 31; 31; 31; 31; 31; 30; 30; 30; 32; 33; 33; 33; 35; 37; 37; 37; 39;
   42; 42; 42; 45; 49; 49; 49; 48; 48; 48; 48; 48; 49; 49; 31; 31; 31; 31; 31; 31; 31; 31; 31; 33; 34; 34;
   34; 36; 38; 38; 38; 40; 42; 42; 42; 45; 48; 48; 48; 47; 47; 47; 47; 47; 47; 47; 31; 31; 31; 31; 31; 32;
   32; 32; 32; 34; 36; 36; 36; 38; 40; 40; 40; 41; 43; 43; 43; 44; 46; 46; 46; 46; 46; 46; 46; 45; 45; 45;
   31; 31; 31; 31; 31; 32; 32; 32; 32; 34; 36; 36; 36; 38; 40; 40; 40; 41; 43; 43; 43; 44; 46; 46; 46; 46;
   46; 46; 46; 45; 45; 45; 31; 31; 31; 31; 31; 32; 32; 32; 32; 34; 36; 36; 36; 38; 40; 40; 40; 41; 43; 43;
   43; 44; 46; 46; 46; 46; 46; 46; 46; 45; 45; 45; 33; 34; 34; 34; 34; 35; 35; 35; 35; 37; 39; 39; 39; 41;
   43; 43; 43; 44; 45; 45; 45; 46; 47; 47; 47; 47; 46; 46; 46; 46; 45; 45; 37; 37; 38; 38; 38; 39; 40; 40;
   40; 41; 43; 43; 43; 45; 47; 47; 47; 47; 47; 47; 47; 47; 48; 48; 48; 47; 47; 47; 47; 46; 46; 46; 37; 37;
   38; 38; 38; 39; 40; 40; 40; 41; 43; 43; 43; 45; 47; 47; 47; 47; 47; 47; 47; 47; 48; 48; 48; 47; 47; 47;
   47; 46; 46; 46; 37; 37; 38; 38; 38; 39; 40; 40; 40; 41; 43; 43; 43; 45; 47; 47; 47; 47; 47; 47; 47; 47;
   48; 48; 48; 47; 47; 47; 47; 46; 46; 46; 42; 42; 42; 42; 42; 42; 42; 42; 42; 44; 45; 45; 45; 46; 47; 47;
   47; 48; 48; 48; 48; 49; 50; 50; 50; 50; 50; 50; 50; 49; 49; 49; 48; 47; 47; 47; 47; 46; 46; 46; 46; 46;
   47; 47; 47; 47; 47; 47; 47; 49; 50; 50; 50; 51; 53; 53; 53; 53; 53; 53; 53; 53; 53; 53; 48; 47; 47; 47;
   47; 46; 46; 46; 46; 46; 47; 47; 47; 47; 47; 47; 47; 49; 50; 50; 50; 51; 53; 53; 53; 53; 53; 53; 53; 53;
   53; 53; 48; 47; 47; 47; 47; 46; 46; 46; 46; 46; 47; 47; 47; 47; 47; 47; 47; 49; 50; 50; 50; 51; 53; 53;
   53; 53; 53; 53; 53; 53; 53; 53; 48; 48; 47; 47; 47; 46; 45; 45; 45; 46; 46; 46; 46; 46; 46; 46; 46; 48;
   50; 50; 50; 51; 53; 53; 53; 54; 54; 54; 54; 55; 56; 56; 49; 48; 47; 47; 47; 46; 45; 45; 45; 45; 46; 46;
   46; 45; 45; 45; 45; 47; 49; 49; 49; 51; 53; 53; 53; 54; 56; 56; 56; 57; 58; 58; 49; 48; 47; 47; 47; 46;
   45; 45; 45; 45; 46; 46; 46; 45; 45; 45; 45; 47; 49; 49; 49; 51; 53; 53; 53; 54; 56; 56; 56; 57; 58; 58;
   31; 33; 42; 48; 31; 34; 42; 47; 31; 34; 42; 47; 31; 35; 42; 45; 31; 35; 42; 45; 34; 39; 45; 46; 34; 39;
   45; 46; 38; 43; 47; 46; 38; 43; 47; 46; 42; 45; 48; 50; 42; 45; 48; 50; 48; 47; 50; 53; 48; 47; 50; 53;
   47; 46; 50; 54; 47; 46; 50; 54; 47; 45; 49; 56; 31; 31; 31; 31; 31; 34; 34; 38; 38; 42; 42; 48; 48; 47;
   47; 47; 33; 34; 34; 35; 35; 39; 39; 43; 43; 45; 45; 47; 47; 46; 46; 45; 42; 42; 42; 42; 42; 45; 45; 47;
   47; 48; 48; 50; 50; 50; 50; 49; 48; 47; 47; 45; 45; 46; 46; 46; 46; 50; 50; 53; 53; 54; 54; 56; 32; 31;
   31; 37; 37; 48; 48; 49; 31; 31; 31; 37; 37; 47; 47; 48; 31; 31; 31; 38; 38; 47; 47; 47; 31; 31; 31; 38;
   38; 47; 47; 47; 31; 31; 31; 38; 38; 47; 47; 47; 31; 32; 32; 39; 39; 46; 46; 46; 30; 32; 32; 40; 40; 46;
   46; 45; 30; 32; 32; 40; 40; 46; 46; 45; 30; 32; 32; 40; 40; 46; 46; 45; 32; 34; 34; 41; 41; 46; 46; 45;
   33; 36; 36; 43; 43; 47; 47; 46; 33; 36; 36; 43; 43; 47; 47; 46; 33; 36; 36; 43; 43; 47; 47; 46; 35; 38;
   38; 45; 45; 47; 47; 45; 37; 40; 40; 47; 47; 47; 47; 45; 37; 40; 40; 47; 47; 47; 47; 45; 37; 40; 40; 47;
   47; 47; 47; 45; 39; 41; 41; 47; 47; 49; 49; 47; 42; 43; 43; 47; 47; 50; 50; 49; 42; 43; 43; 47; 47; 50;
   50; 49; 42; 43; 43; 47; 47; 50; 50; 49; 45; 44; 44; 47; 47; 51; 51; 51; 49; 46; 46; 48; 48; 53; 53; 53;
   49; 46; 46; 48; 48; 53; 53; 53; 49; 46; 46; 48; 48; 53; 53; 53; 48; 46; 46; 47; 47; 53; 53; 54; 48; 46;
   46; 47; 47; 53; 53; 56; 48; 46; 46; 47; 47; 53; 53; 56; 48; 46; 46; 47; 47; 53; 53; 56; 48; 45; 45; 46;
   46; 53; 53; 57; 49; 45; 45; 46; 46; 53; 53; 58; 49; 45; 45; 46; 46; 53; 53; 58; 32; 31; 31; 31; 31; 31;
   30; 30; 30; 32; 33; 33; 33; 35; 37; 37; 37; 39; 42; 42; 42; 45; 49; 49; 49; 48; 48; 48; 48; 48; 49; 49;
   31; 31; 31; 31; 31; 32; 32; 32; 32; 34; 36; 36; 36; 38; 40; 40; 40; 41; 43; 43; 43; 44; 46; 46; 46; 46;
   46; 46; 46; 45; 45; 45; 31; 31; 31; 31; 31; 32; 32; 32; 32; 34; 36; 36; 36; 38; 40; 40; 40; 41; 43; 43;
   43; 44; 46; 46; 46; 46; 46; 46; 46; 45; 45; 45; 37; 37; 38; 38; 38; 39; 40; 40; 40; 41; 43; 43; 43; 45;
   47; 47; 47; 47; 47; 47; 47; 47; 48; 48; 48; 47; 47; 47; 47; 46; 46; 46; 37; 37; 38; 38; 38; 39; 40; 40;
   40; 41; 43; 43; 43; 45; 47; 47; 47; 47; 47; 47; 47; 47; 48; 48; 48; 47; 47; 47; 47; 46; 46; 46; 48; 47;
   47; 47; 47; 46; 46; 46; 46; 46; 47; 47; 47; 47; 47; 47; 47; 49; 50; 50; 50; 51; 53; 53; 53; 53; 53; 53;
   53; 53; 53; 53; 48; 47; 47; 47; 47; 46; 46; 46; 46; 46; 47; 47; 47; 47; 47; 47; 47; 49; 50; 50; 50; 51;
   53; 53; 53; 53; 53; 53; 53; 53; 53; 53; 49; 48; 47; 47; 47; 46; 45; 45; 45; 45; 46; 46; 46; 45; 45; 45;
   45; 47; 49; 49; 49; 51; 53; 53; 53; 54; 56; 56; 56; 57; 58; 58]];
 [[32; 32; 32; 35; 32; 32; 33; 35; 32; 33; 35; 38; 35; 35; 38; 46; 31; 31; 31; 32; 32; 32; 34; 35; 31; 32;
   32; 32; 32; 33; 34; 35; 31; 32; 32; 32; 32; 33; 33; 34; 32; 32; 32; 33; 34; 34; 35; 36; 32; 32; 32; 34;
   35; 35; 36; 38; 32; 33; 33; 34; 35; 36; 38; 40; 34; 34; 33; 35; 36; 38; 39; 42; 35; 35; 34; 36; 38; 40;
   42; 48; 32; 31; 31; 31; 31; 31; 31; 31; 32; 32; 32; 33; 34; 34; 36; 36; 31; 31; 31; 32; 32; 32; 32; 32;
   32; 32; 32; 33; 34; 34; 35; 35; 31; 31; 32; 32; 32; 32; 32; 32; 32; 32; 32; 33; 34; 34; 35; 35; 31; 32;
   32; 32; 32; 32; 32; 32; 32; 32; 32; 33; 34; 34; 35; 35; 31; 32; 32; 32; 32; 32; 32; 32; 32; 32; 32; 33;
   33; 34; 34; 34; 31; 32; 32; 32; 32; 32; 32; 32; 32; 32; 32; 33; 33; 34; 34; 34; 31; 32; 32; 32; 32; 32;
   33; 33; 33; 33; 33; 34; 35; 35; 36; 36; 31; 32; 32; 32; 32; 32; 33; 33; 33; 34; 34; 35; 35; 36; 36; 36;
   32; 32; 32; 32; 32; 32; 33; 33; 34; 34; 34; 35; 36; 36; 37; 37; 32; 32; 32; 32; 32; 32; 33; 34; 34; 35;
   35; 36; 37; 37; 38; 38; 32; 32; 32; 32; 32; 32; 33; 34; 34; 35; 35; 36; 37; 37; 38; 38; 33; 33; 33; 33;
   33; 33; 34; 35; 35; 36; 36; 38; 39; 40; 42; 42; 34; 34; 34; 34; 33; 33; 35; 35; 36; 37; 37; 39; 39; 41;
   42; 42; 34; 34; 34; 34; 34; 34; 35; 36; 36; 37; 37; 40; 41; 42; 45; 45; 36; 35; 35; 35; 34; 34; 36; 36;
   37; 38; 38; 42; 42; 45; 48; 48; 36; 35; 35; 35; 34; 34; 36; 36; 37; 38; 38; 42; 42; 45; 48; 48; 32; 31;
   31; 31; 31; 31; 31; 31; 31; 31; 31; 31; 31; 31; 31; 31; 32; 32; 32; 32; 32; 32; 33; 34; 34; 34; 34; 35;
   36; 36; 36; 37; 31; 31; 31; 31; 31; 31; 31; 31; 31; 31; 31; 31; 32; 32; 32; 32; 32; 32; 32; 32; 32; 32;
   33; 34; 34; 34; 34; 35; 35; 35; 35; 37; 31; 31; 31; 31; 31; 31; 32; 32; 32; 32; 32; 32; 32; 32; 32; 32;
   32; 32; 32; 32; 32; 33; 33; 34; 34; 34; 34; 35; 35; 35; 35; 36; 31; 31; 31; 32; 32; 32; 32; 32; 32; 32;
   32; 32; 32; 32; 32; 32; 32; 32; 32; 32; 32; 33; 33; 34; 34; 34; 34; 35; 35; 35; 35; 36; 31; 31; 31; 32;
   32; 32; 32; 32; 32; 32; 32; 32; 32; 32; 32; 32; 32; 32; 32; 32; 32; 33; 33; 34; 34; 34; 34; 35; 35; 35;
   35; 36; 31; 31; 31; 32; 32; 32; 32; 32; 32; 32; 32; 32; 32; 32; 32; 32; 32; 32; 32; 32; 32; 33; 33; 34;
   34; 34; 34; 35; 35; 35; 35; 36; 31; 31; 32; 32; 32; 32; 32; 32; 32; 32; 32; 32; 32; 32; 32; 32; 32; 32;
   32; 32; 32; 33; 33; 34; 34; 34; 34; 34; 35; 35; 35; 36; 31; 31; 32; 32; 32; 32; 32; 32; 32; 32; 32; 32;
   32; 32; 32; 32; 32; 32; 32; 32; 32; 33; 33; 33; 33; 33; 34; 34; 34; 34; 34; 35; 31; 31; 32; 32; 32; 32;
   32; 32; 32; 32; 32; 32; 32; 32; 32; 32; 32; 32; 32; 32; 32; 33; 33; 33; 33; 33; 34; 34; 34; 34; 34; 35;
   31; 31; 32; 32; 32; 32; 32; 32; 32; 32; 32; 32; 32; 32; 32; 32; 32; 32; 32; 32; 32; 33; 33; 33; 33; 33;
   34; 34; 34; 34; 34; 35; 31; 31; 32; 32; 32; 32; 32; 32; 32; 32; 32; 32; 32; 32; 32; 32; 32; 32; 32; 32;
   32; 33; 33; 33; 33; 33; 34; 34; 34; 34; 34; 35; 31; 31; 32; 32; 32; 32; 32; 32; 32; 32; 32; 32; 33; 33;
   33; 33; 33; 33; 33; 33; 33; 33; 34; 34; 34; 34; 34; 35; 35; 35; 35; 36; 31; 32; 32; 32; 32; 32; 32; 32;
   32; 32; 32; 33; 33; 33; 33; 33; 33; 33; 33; 33; 33; 34; 34; 35; 35; 35; 35; 36; 36; 36; 36; 37; 31; 32;
   32; 32; 32; 32; 32; 32; 32; 32; 32; 33; 33; 33; 33; 33; 33; 34; 34; 34; 34; 34; 35; 35; 35; 35; 36; 36;
   36; 36; 36; 37; 31; 32; 32; 32; 32; 32; 32; 32; 32; 32; 32; 33; 33; 33; 33; 33; 33; 34; 34; 34; 34; 34;
   35; 35; 35; 35; 36; 36; 36; 36; 36; 37; 31; 32; 32; 32; 32; 32; 32; 32; 32; 32; 32; 33; 33; 33; 33; 33;
   33; 34; 34; 34; 34; 34; 35; 35; 35; 35; 36; 36; 36; 36; 36; 37; 32; 32; 32; 32; 32; 32; 32; 32; 32; 32;
   32; 33; 33; 33; 33; 33; 34; 34; 34; 34; 34; 35; 35; 36; 36; 36; 36; 37; 37; 37; 37; 38; 32; 32; 32; 32;
   32; 32; 32; 32; 32; 32; 32; 33; 33; 34; 34; 34; 34; 35; 35; 35; 35; 35; 36; 36; 36; 36; 37; 37; 38; 38;
   38; 39; 32; 32; 32; 32; 32; 32; 32; 32; 32; 32; 32; 33; 33; 34; 34; 34; 34; 35; 35; 35; 35; 36; 36; 37;
   37; 37; 37; 38; 38; 38; 38; 39; 32; 32; 32; 32; 32; 32; 32; 32; 32; 32; 32; 33; 33; 34; 34; 34; 34; 35;
   35; 35; 35; 36; 36; 37; 37; 37; 37; 38; 38; 38; 38; 39; 32; 32; 32; 32; 32; 32; 32; 32; 32; 32; 32; 33;
   33; 34; 34; 34; 34; 35; 35; 35; 35; 36; 36; 37; 37; 37; 37; 38; 38; 38; 38; 39; 32; 32; 33; 33; 33; 33;
   33; 33; 33; 33; 33; 33; 34; 34; 34; 34; 35; 35; 36; 36; 36; 36; 37; 38; 38; 38; 38; 39; 40; 40; 40; 41;
   33; 33; 33; 33; 33; 33; 33; 33; 33; 33; 33; 34; 34; 35; 35; 35; 35; 36; 36; 36; 36; 37; 38; 39; 39; 39;
   40; 41; 42; 42; 42; 42; 34; 34; 34; 34; 34; 34; 34; 33; 33; 33; 33; 34; 35; 35; 35; 35; 36; 36; 37; 37;
   37; 38; 39; 39; 39; 39; 41; 42; 42; 42; 42; 43; 34; 34; 34; 34; 34; 34; 34; 33; 33; 33; 33; 34; 35; 35;
   35; 35; 36; 36; 37; 37; 37; 38; 39; 39; 39; 39; 41; 42; 42; 42; 42; 43; 34; 34; 34; 34; 34; 34; 34; 33;
   33; 33; 33; 34; 35; 35; 35; 35; 36; 36; 37; 37; 37; 38; 39; 39; 39; 39; 41; 42; 42; 42; 42; 43; 34; 34;
   34; 34; 34; 34; 34; 34; 34; 34; 34; 34; 35; 36; 36; 36; 36; 37; 37; 37; 37; 38; 40; 41; 41; 41; 42; 44;
   45; 45; 45; 45; 35; 35; 35; 35; 35; 35; 34; 34; 34; 34; 34; 35; 36; 36; 36; 36; 37; 37; 38; 38; 38; 39;
   41; 42; 42; 42; 44; 46; 47; 47; 47; 48; 36; 35; 35; 35; 35; 35; 35; 34; 34; 34; 34; 35; 36; 36; 36; 36;
   37; 38; 38; 38; 38; 40; 42; 42; 42; 42; 45; 47; 48; 48; 48; 49; 36; 35; 35; 35; 35; 35; 35; 34; 34; 34;
   34; 35; 36; 36; 36; 36; 37; 38; 38; 38; 38; 40; 42; 42; 42; 42; 45; 47; 48; 48; 48; 49; 36; 35; 35; 35;
   35; 35; 35; 34; 34; 34; 34; 35; 36; 36; 36; 36; 37; 38; 38; 38; 38; 40; 42; 42; 42; 42; 45; 47; 48; 48;
   48; 49; 37; 37; 36; 36; 36; 36; 36; 35; 35; 35; 35; 36; 37; 37; 37; 37; 38; 39; 39; 39; 39; 41; 42; 43;
   43; 43; 45; 48; 49; 49; 49; 50; 31; 31; 32; 35; 32; 32; 32; 35; 32; 32; 33; 34; 32; 32; 34; 36; 32; 33;
   35; 38; 33; 33; 36; 40; 34; 34; 37; 42; 35; 34; 38; 48; 31; 32; 32; 32; 32; 33; 34; 35; 31; 32; 32; 32;
   33; 33; 34; 34; 32; 32; 33; 34; 35; 36; 37; 38; 35; 35; 34; 36; 38; 40; 42; 48; 32; 31; 31; 31; 32; 32;
   35; 36; 31; 32; 32; 32; 32; 32; 35; 35; 31; 32; 32; 32; 32; 32; 35; 35; 31; 32; 32; 32; 32; 32; 34; 35;
   31; 32; 32; 32; 33; 33; 34; 34; 31; 32; 32; 32; 33; 33; 34; 34; 31; 32; 32; 33; 34; 34; 35; 36; 32; 32;
   32; 33; 34; 34; 36; 36; 32; 32; 32; 33; 34; 34; 36; 37; 32; 32; 33; 34; 35; 35; 37; 38; 32; 32; 33; 34;
   35; 35; 37; 38; 33; 33; 33; 35; 36; 36; 40; 41; 34; 34; 34; 35; 37; 37; 41; 42; 34; 34; 34; 35; 37; 37;
   43; 44; 36; 35; 34; 36; 38; 38; 46; 48; 36; 35; 34; 36; 38; 38; 46; 48; 32; 31; 31; 31; 31; 31; 31; 32;
   32; 32; 32; 33; 34; 34; 36; 36; 31; 32; 32; 32; 32; 32; 32; 32; 32; 32; 32; 33; 34; 34; 35; 35; 31; 32;
   32; 32; 32; 32; 32; 32; 32; 33; 33; 33; 34; 34; 34; 34; 31; 32; 32; 32; 32; 32; 33; 33; 33; 34; 34; 35;
   35; 35; 36; 36; 32; 32; 32; 32; 33; 33; 34; 34; 34; 35; 35; 36; 37; 37; 38; 38; 32; 32; 32; 32; 33; 33;
   34; 34; 34; 35; 35; 36; 37; 37; 38; 38; 35; 35; 35; 34; 34; 34; 35; 36; 36; 37; 37; 40; 41; 43; 46; 46;
   36; 35; 35; 35; 34; 34; 36; 36; 37; 38; 38; 41; 42; 44; 48; 48; 32; 31; 31; 31; 31; 31; 31; 32; 32; 32;
   32; 33; 35; 36; 36; 36; 31; 31; 31; 31; 31; 31; 32; 32; 32; 32; 32; 33; 35; 35; 35; 35; 31; 31; 32; 32;
   32; 32; 32; 32; 32; 32; 32; 33; 35; 35; 35; 35; 31; 32; 32; 32; 32; 32; 32; 32; 32; 32; 32; 33; 35; 35;
   35; 35; 31; 32; 32; 32; 32; 32; 32; 32; 32; 32; 32; 33; 35; 35; 35; 35; 31; 32; 32; 32; 32; 32; 32; 32;
   32; 32; 32; 33; 35; 35; 35; 35; 31; 32; 32; 32; 32; 32; 32; 32; 32; 32; 32; 33; 34; 35; 35; 35; 31; 32;
   32; 32; 32; 32; 32; 32; 32; 32; 32; 33; 34; 35; 35; 35; 31; 32; 32; 32; 32; 32; 32; 32; 33; 33; 33; 33;
   34; 34; 34; 34; 31; 32; 32; 32; 32; 32; 32; 32; 33; 33; 33; 33; 34; 34; 34; 34; 31; 32; 32; 32; 32; 32;
   32; 32; 33; 33; 33; 33; 34; 34; 34; 34; 31; 32; 32; 32; 32; 32; 33; 33; 33; 33; 33; 34; 35; 35; 35; 35;
   31; 32; 32; 32; 32; 32; 33; 33; 34; 34; 34; 34; 35; 36; 36; 36; 32; 32; 32; 32; 32; 32; 33; 34; 34; 34;
   34; 35; 36; 36; 36; 36; 32; 32; 32; 32; 32; 32; 33; 34; 34; 34; 34; 35; 36; 36; 36; 36; 32; 32; 32; 32;
   32; 32; 33; 34; 34; 34; 34; 35; 36; 36; 36; 36; 32; 32; 32; 32; 32; 32; 33; 34; 34; 34; 34; 35; 36; 37;
   37; 37; 32; 32; 32; 33; 33; 33; 33; 34; 35; 35; 35; 36; 37; 38; 38; 38; 32; 32; 32; 33; 33; 33; 34; 35;
   35; 35; 35; 36; 37; 38; 38; 38; 32; 32; 32; 33; 33; 33; 34; 35; 35; 35; 35; 36; 37; 38; 38; 38; 32; 32;
   32; 33; 33; 33; 34; 35; 35; 35; 35; 36; 37; 38; 38; 38; 32; 33; 33; 33; 33; 33; 34; 35; 36; 36; 36; 37;
   39; 40; 40; 40; 33; 33; 33; 33; 33; 33; 35; 36; 36; 36; 36; 38; 40; 41; 41; 41; 34; 34; 34; 34; 34; 34;
   35; 36; 37; 37; 37; 39; 41; 42; 42; 42; 34; 34; 34; 34; 34; 34; 35; 36; 37; 37; 37; 39; 41; 42; 42; 42;
   34; 34; 34; 34; 34; 34; 35; 36; 37; 37; 37; 39; 41; 42; 42; 42; 34; 34; 34; 34; 34; 34; 35; 37; 37; 37;
   37; 40; 43; 44; 44; 44; 35; 35; 34; 34; 34; 34; 36; 37; 38; 38; 38; 41; 45; 47; 47; 47; 36; 35; 35; 34;
   34; 34; 36; 37; 38; 38; 38; 42; 46; 48; 48; 48; 36; 35; 35; 34; 34; 34; 36; 37; 38; 38; 38; 42; 46; 48;
   48; 48; 36; 35; 35; 34; 34; 34; 36; 37; 38; 38; 38; 42; 46; 48; 48; 48; 37; 36; 36; 36; 36; 36; 37; 38;
   39; 39; 39; 42; 46; 49; 49; 49; 32; 31; 31; 31; 31; 31; 31; 31; 31; 31; 31; 31; 31; 32; 32; 32; 32; 32;
   32; 32; 32; 32; 33; 34; 34; 34; 34; 35; 36; 36; 36; 37; 31; 31; 31; 32; 32; 32; 32; 32; 32; 32; 32; 32;
   32; 32; 32; 32; 32; 32; 32; 32; 32; 33; 33; 34; 34; 34; 34; 35; 35; 35; 35; 36; 31; 31; 32; 32; 32; 32;
   32; 32; 32; 32; 32; 32; 32; 32; 32; 32; 32; 32; 32; 32; 32; 33; 33; 34; 34; 34; 34; 34; 35; 35; 35; 36;
   31; 31; 32; 32; 32; 32; 32; 32; 32; 32; 32; 32; 32; 32; 32; 32; 32; 33; 33; 33; 33; 33; 33; 34; 34; 34;
   34; 34; 34; 34; 34; 36; 31; 31; 32; 32; 32; 32; 32; 32; 32; 32; 32; 32; 32; 32; 32; 32; 32; 33; 33; 33;
   33; 33; 33; 34; 34; 34; 34; 34; 34; 34; 34; 36; 31; 31; 32; 32; 32; 32; 32; 32; 32; 32; 32; 32; 32; 32;
   32; 32; 32; 33; 33; 33; 33; 33; 33; 34; 34; 34; 34; 34; 34; 34; 34; 36; 31; 32; 32; 32; 32; 32; 32; 32;
   32; 32; 32; 33; 33; 33; 33; 33; 33; 33; 34; 34; 34; 34; 35; 35; 35; 35; 35; 36; 36; 36; 36; 37; 32; 32;
   32; 32; 32; 32; 32; 32; 32; 32; 32; 33; 33; 34; 34; 34; 34; 34; 35; 35; 35; 35; 36; 36; 36; 36; 37; 37;
   37; 37; 37; 38; 32; 32; 32; 32; 32; 32; 32; 32; 33; 33; 33; 33; 34; 34; 34; 34; 34; 35; 35; 35; 35; 36;
   36; 37; 37; 37; 37; 38; 38; 38; 38; 39; 32; 32; 32; 32; 32; 32; 32; 32; 33; 33; 33; 33; 34; 34; 34; 34;
   34; 35; 35; 35; 35; 36; 36; 37; 37; 37; 37; 38; 38; 38; 38; 39; 32; 32; 32; 32; 32; 32; 32; 32; 33; 33;
   33; 33; 34; 34; 34; 34; 34; 35; 35; 35; 35; 36; 36; 37; 37; 37; 37; 38; 38; 38; 38; 39; 33; 33; 33; 33;
   33; 33; 33; 33; 33; 33; 33; 34; 34; 35; 35; 35; 35; 36; 36; 36; 36; 37; 38; 39; 39; 39; 40; 41; 42; 42;
   42; 42; 35; 35; 35; 35; 35; 35; 34; 34; 34; 34; 34; 35; 35; 36; 36; 36; 36; 37; 37; 37; 37; 39; 40; 41;
   41; 41; 43; 45; 46; 46; 46; 46; 36; 35; 35; 35; 35; 35; 35; 35; 34; 34; 34; 35; 36; 36; 36; 36; 37; 38;
   38; 38; 38; 40; 41; 42; 42; 42; 44; 47; 48; 48; 48; 49; 36; 35; 35; 35; 35; 35; 35; 35; 34; 34; 34; 35;
   36; 36; 36; 36; 37; 38; 38; 38; 38; 40; 41; 42; 42; 42; 44; 47; 48; 48; 48; 49; 36; 35; 35; 35; 35; 35;
   35; 35; 34; 34; 34; 35; 36; 36; 36; 36; 37; 38; 38; 38; 38; 40; 41; 42; 42; 42; 44; 47; 48; 48; 48; 49;
   31; 31; 32; 36; 31; 32; 32; 35; 32; 32; 32; 35; 32; 32; 32; 35; 32; 32; 33; 34; 32; 32; 33; 34; 32; 32;
   34; 36; 32; 32; 34; 36; 32; 32; 34; 37; 32; 33; 35; 38; 32; 33; 35; 38; 33; 33; 36; 41; 34; 34; 37; 42;
   34; 34; 37; 44; 35; 34; 38; 48; 35; 34; 38; 48; 31; 31; 32; 32; 32; 32; 32; 32; 32; 32; 32; 33; 34; 34;
   35; 35; 31; 32; 32; 32; 32; 32; 32; 32; 32; 33; 33; 33; 34; 34; 34; 34; 32; 32; 32; 32; 33; 33; 34; 34;
   34; 35; 35; 36; 37; 37; 38; 38; 36; 35; 35; 35; 34; 34; 36; 36; 37; 38; 38; 41; 42; 44; 48; 48; 32; 31;
   31; 31; 32; 32; 35; 36; 31; 31; 31; 32; 32; 32; 35; 35; 31; 32; 32; 32; 32; 32; 35; 35; 31; 32; 32; 32;
   32; 32; 35; 35; 31; 32; 32; 32; 32; 32; 35; 35; 31; 32; 32; 32; 32; 32; 35; 35; 31; 32; 32; 32; 32; 32;
   34; 35; 31; 32; 32; 32; 32; 32; 34; 35; 31; 32; 32; 32; 33; 33; 34; 34; 31; 32; 32; 32; 33; 33; 34; 34;
   31; 32; 32; 32; 33; 33; 34; 34; 31; 32; 32; 33; 33; 33; 35; 35; 31; 32; 32; 33; 34; 34; 35; 36; 32; 32;
   32; 33; 34; 34; 36; 36; 32; 32; 32; 33; 34; 34; 36; 36; 32; 32; 32; 33; 34; 34; 36; 36; 32; 32; 32; 33;
   34; 34; 36; 37; 32; 32; 33; 33; 35; 35; 37; 38; 32; 32; 33; 34; 35; 35; 37; 38; 32; 32; 33; 34; 35; 35;
   37; 38; 32; 32; 33; 34; 35; 35; 37; 38; 32; 33; 33; 34; 36; 36; 39; 40; 33; 33; 33; 35; 36; 36; 40; 41;
   34; 34; 34; 35; 37; 37; 41; 42; 34; 34; 34; 35; 37; 37; 41; 42; 34; 34; 34; 35; 37; 37; 41; 42; 34; 34;
   34; 35; 37; 37; 43; 44; 35; 34; 34; 36; 38; 38; 45; 47; 36; 35; 34; 36; 38; 38; 46; 48; 36; 35; 34; 36;
   38; 38; 46; 48; 36; 35; 34; 36; 38; 38; 46; 48; 37; 36; 36; 37; 39; 39; 46; 49; 32; 31; 31; 31; 31; 31;
   31; 31; 31; 31; 31; 31; 31; 32; 32; 32; 32; 32; 32; 32; 32; 32; 33; 34; 34; 34; 34; 35; 36; 36; 36; 37;
   31; 31; 32; 32; 32; 32; 32; 32; 32; 32; 32; 32; 32; 32; 32; 32; 32; 32; 32; 32; 32; 33; 33; 34; 34; 34;
   34; 34; 35; 35; 35; 36; 31; 31; 32; 32; 32; 32; 32; 32; 32; 32; 32; 32; 32; 32; 32; 32; 32; 33; 33; 33;
   33; 33; 33; 34; 34; 34; 34; 34; 34; 34; 34; 36; 31; 32; 32; 32; 32; 32; 32; 32; 32; 32; 32; 33; 33; 33;
   33; 33; 33; 33; 34; 34; 34; 34; 35; 35; 35; 35; 35; 36; 36; 36; 36; 37; 32; 32; 32; 32; 32; 32; 32; 32;
   33; 33; 33; 33; 34; 34; 34; 34; 34; 35; 35; 35; 35; 36; 36; 37; 37; 37; 37; 38; 38; 38; 38; 39; 32; 32;
   32; 32; 32; 32; 32; 32; 33; 33; 33; 33; 34; 34; 34; 34; 34; 35; 35; 35; 35; 36; 36; 37; 37; 37; 37; 38;
   38; 38; 38; 39; 35; 35; 35; 35; 35; 35; 34; 34; 34; 34; 34; 35; 35; 36; 36; 36; 36; 37; 37; 37; 37; 39;
   40; 41; 41; 41; 43; 45; 46; 46; 46; 46; 36; 35; 35; 35; 35; 35; 35; 35; 34; 34; 34; 35; 36; 36; 36; 36;
   37; 38; 38; 38; 38; 40; 41; 42; 42; 42; 44; 47; 48; 48; 48; 49];
 [31; 32; 38; 46; 32; 34; 41; 46; 38; 41; 47; 47; 46; 46; 47; 52; 31; 31; 30; 34; 36; 39; 42; 48; 31; 31;
   31; 34; 37; 40; 42; 47; 30; 31; 32; 35; 39; 41; 42; 46; 34; 34; 35; 39; 42; 44; 45; 47; 36; 37; 39; 42;
   46; 47; 47; 47; 39; 40; 41; 44; 47; 47; 48; 49; 42; 42; 42; 45; 47; 48; 48; 50; 48; 47; 46; 47; 47; 49;
   50; 53; 32; 31; 31; 31; 30; 30; 33; 33; 34; 36; 36; 40; 41; 44; 49; 49; 31; 31; 31; 31; 31; 31; 33; 34;
   36; 38; 38; 41; 42; 44; 48; 48; 31; 31; 31; 31; 31; 31; 34; 34; 36; 38; 38; 41; 42; 44; 47; 47; 31; 31;
   31; 31; 31; 31; 34; 35; 36; 39; 39; 41; 42; 44; 47; 47; 30; 31; 31; 31; 32; 32; 34; 35; 37; 40; 40; 42;
   42; 44; 46; 46; 30; 31; 31; 31; 32; 32; 34; 35; 37; 40; 40; 42; 42; 44; 46; 46; 33; 33; 34; 34; 34; 34;
   37; 38; 40; 42; 42; 44; 44; 45; 47; 47; 33; 34; 34; 35; 35; 35; 38; 39; 40; 43; 43; 44; 45; 46; 47; 47;
   34; 36; 36; 36; 37; 37; 40; 40; 42; 45; 45; 45; 46; 46; 47; 47; 36; 38; 38; 39; 40; 40; 42; 43; 45; 47;
   47; 47; 47; 47; 48; 48; 36; 38; 38; 39; 40; 40; 42; 43; 45; 47; 47; 47; 47; 47; 48; 48; 40; 41; 41; 41;
   42; 42; 44; 44; 45; 47; 47; 48; 48; 49; 50; 50; 41; 42; 42; 42; 42; 42; 44; 45; 46; 47; 47; 48; 48; 49;
   50; 50; 44; 44; 44; 44; 44; 44; 45; 46; 46; 47; 47; 49; 49; 50; 51; 51; 49; 48; 47; 47; 46; 46; 47; 47;
   47; 48; 48; 50; 50; 51; 53; 53; 49; 48; 47; 47; 46; 46; 47; 47; 47; 48; 48; 50; 50; 51; 53; 53; 32; 31;
   31; 31; 31; 31; 31; 30; 30; 30; 30; 31; 33; 33; 33; 33; 34; 36; 36; 36; 36; 38; 40; 41; 41; 41; 44; 47;
   49; 49; 49; 49; 31; 31; 31; 31; 31; 31; 31; 31; 30; 30; 30; 32; 33; 34; 34; 34; 35; 36; 37; 37; 37; 39;
   41; 42; 42; 42; 44; 47; 48; 48; 48; 48; 31; 31; 31; 31; 31; 31; 31; 31; 31; 31; 31; 32; 33; 34; 34; 34;
   36; 37; 38; 38; 38; 39; 41; 42; 42; 42; 44; 46; 48; 48; 48; 47; 31; 31; 31; 31; 31; 31; 31; 31; 31; 31;
   31; 32; 34; 34; 34; 34; 36; 37; 38; 38; 38; 40; 41; 42; 42; 42; 44; 46; 47; 47; 47; 47; 31; 31; 31; 31;
   31; 31; 31; 31; 31; 31; 31; 32; 34; 34; 34; 34; 36; 37; 38; 38; 38; 40; 41; 42; 42; 42; 44; 46; 47; 47;
   47; 47; 31; 31; 31; 31; 31; 31; 31; 31; 31; 31; 31; 32; 34; 34; 34; 34; 36; 37; 38; 38; 38; 40; 41; 42;
   42; 42; 44; 46; 47; 47; 47; 47; 31; 31; 31; 31; 31; 31; 31; 31; 31; 31; 31; 33; 34; 35; 35; 35; 36; 38;
   39; 39; 39; 40; 41; 42; 42; 42; 44; 46; 47; 47; 47; 47; 30; 31; 31; 31; 31; 31; 31; 31; 31; 31; 31; 33;
   34; 35; 35; 35; 37; 38; 39; 39; 39; 41; 42; 42; 42; 42; 44; 46; 46; 46; 46; 46; 30; 30; 31; 31; 31; 31;
   31; 31; 32; 32; 32; 33; 34; 35; 35; 35; 37; 39; 40; 40; 40; 41; 42; 42; 42; 42; 44; 45; 46; 46; 46; 46;
   30; 30; 31; 31; 31; 31; 31; 31; 32; 32; 32; 33; 34; 35; 35; 35; 37; 39; 40; 40; 40; 41; 42; 42; 42; 42;
   44; 45; 46; 46; 46; 46; 30; 30; 31; 31; 31; 31; 31; 31; 32; 32; 32; 33; 34; 35; 35; 35; 37; 39; 40; 40;
   40; 41; 42; 42; 42; 42; 44; 45; 46; 46; 46; 46; 31; 32; 32; 32; 32; 32; 33; 33; 33; 33; 33; 34; 36; 37;
   37; 37; 38; 40; 41; 41; 41; 42; 43; 43; 43; 43; 44; 46; 46; 46; 46; 46; 33; 33; 33; 34; 34; 34; 34; 34;
   34; 34; 34; 36; 37; 38; 38; 38; 40; 41; 42; 42; 42; 43; 44; 44; 44; 44; 45; 46; 47; 47; 47; 46; 33; 34;
   34; 34; 34; 34; 35; 35; 35; 35; 35; 37; 38; 39; 39; 39; 40; 42; 43; 43; 43; 44; 44; 45; 45; 45; 46; 47;
   47; 47; 47; 47; 33; 34; 34; 34; 34; 34; 35; 35; 35; 35; 35; 37; 38; 39; 39; 39; 40; 42; 43; 43; 43; 44;
   44; 45; 45; 45; 46; 47; 47; 47; 47; 47; 33; 34; 34; 34; 34; 34; 35; 35; 35; 35; 35; 37; 38; 39; 39; 39;
   40; 42; 43; 43; 43; 44; 44; 45; 45; 45; 46; 47; 47; 47; 47; 47; 34; 35; 36; 36; 36; 36; 36; 37; 37; 37;
   37; 38; 40; 40; 40; 40; 42; 44; 45; 45; 45; 45; 45; 46; 46; 46; 46; 47; 47; 47; 47; 47; 36; 36; 37; 37;
   37; 37; 38; 38; 39; 39; 39; 40; 41; 42; 42; 42; 44; 46; 46; 46; 46; 47; 47; 47; 47; 47; 47; 47; 47; 47;
   47; 47; 36; 37; 38; 38; 38; 38; 39; 39; 40; 40; 40; 41; 42; 43; 43; 43; 45; 46; 47; 47; 47; 47; 47; 47;
   47; 47; 47; 47; 48; 48; 48; 47; 36; 37; 38; 38; 38; 38; 39; 39; 40; 40; 40; 41; 42; 43; 43; 43; 45; 46;
   47; 47; 47; 47; 47; 47; 47; 47; 47; 47; 48; 48; 48; 47; 36; 37; 38; 38; 38; 38; 39; 39; 40; 40; 40; 41;
   42; 43; 43; 43; 45; 46; 47; 47; 47; 47; 47; 47; 47; 47; 47; 47; 48; 48; 48; 47; 38; 39; 39; 40; 40; 40;
   40; 41; 41; 41; 41; 42; 43; 44; 44; 44; 45; 47; 47; 47; 47; 47; 48; 48; 48; 48; 48; 48; 49; 49; 49; 48;
   40; 41; 41; 41; 41; 41; 41; 42; 42; 42; 42; 43; 44; 44; 44; 44; 45; 47; 47; 47; 47; 48; 48; 48; 48; 48;
   49; 49; 50; 50; 50; 49; 41; 42; 42; 42; 42; 42; 42; 42; 42; 42; 42; 43; 44; 45; 45; 45; 46; 47; 47; 47;
   47; 48; 48; 48; 48; 48; 49; 50; 50; 50; 50; 50; 41; 42; 42; 42; 42; 42; 42; 42; 42; 42; 42; 43; 44; 45;
   45; 45; 46; 47; 47; 47; 47; 48; 48; 48; 48; 48; 49; 50; 50; 50; 50; 50; 41; 42; 42; 42; 42; 42; 42; 42;
   42; 42; 42; 43; 44; 45; 45; 45; 46; 47; 47; 47; 47; 48; 48; 48; 48; 48; 49; 50; 50; 50; 50; 50; 44; 44;
   44; 44; 44; 44; 44; 44; 44; 44; 44; 44; 45; 46; 46; 46; 46; 47; 47; 47; 47; 48; 49; 49; 49; 49; 50; 51;
   51; 51; 51; 51; 47; 47; 46; 46; 46; 46; 46; 46; 45; 45; 45; 46; 46; 47; 47; 47; 47; 47; 47; 47; 47; 48;
   49; 50; 50; 50; 51; 52; 52; 52; 52; 52; 49; 48; 48; 47; 47; 47; 47; 46; 46; 46; 46; 46; 47; 47; 47; 47;
   47; 47; 48; 48; 48; 49; 50; 50; 50; 50; 51; 52; 53; 53; 53; 53; 49; 48; 48; 47; 47; 47; 47; 46; 46; 46;
   46; 46; 47; 47; 47; 47; 47; 47; 48; 48; 48; 49; 50; 50; 50; 50; 51; 52; 53; 53; 53; 53; 49; 48; 48; 47;
   47; 47; 47; 46; 46; 46; 46; 46; 47; 47; 47; 47; 47; 47; 48; 48; 48; 49; 50; 50; 50; 50; 51; 52; 53; 53;
   53; 53; 49; 48; 47; 47; 47; 47; 47; 46; 46; 46; 46; 46; 46; 47; 47; 47; 47; 47; 47; 47; 47; 48; 49; 50;
   50; 50; 51; 52; 53; 53; 53; 53; 31; 31; 37; 48; 31; 31; 38; 47; 31; 32; 40; 46; 34; 36; 43; 47; 37; 39;
   46; 47; 39; 41; 47; 48; 42; 43; 47; 50; 48; 46; 48; 53; 31; 31; 31; 34; 37; 39; 42; 48; 31; 31; 32; 36;
   39; 41; 43; 46; 37; 38; 40; 43; 46; 47; 47; 48; 48; 47; 46; 47; 47; 48; 50; 53; 32; 31; 31; 33; 37; 37;
   45; 48; 31; 31; 31; 34; 38; 38; 45; 47; 31; 31; 31; 34; 38; 38; 45; 47; 31; 31; 32; 34; 39; 39; 45; 46;
   30; 32; 32; 35; 40; 40; 44; 46; 30; 32; 32; 35; 40; 40; 44; 46; 33; 34; 35; 37; 42; 42; 46; 47; 33; 35;
   36; 38; 43; 43; 46; 47; 35; 37; 37; 40; 44; 44; 46; 47; 37; 39; 40; 43; 47; 47; 47; 47; 37; 39; 40; 43;
   47; 47; 47; 47; 41; 42; 42; 44; 47; 47; 49; 49; 42; 42; 43; 44; 47; 47; 49; 50; 44; 44; 44; 45; 47; 47;
   50; 51; 49; 47; 46; 47; 48; 48; 52; 53; 49; 47; 46; 47; 48; 48; 52; 53; 32; 31; 31; 31; 30; 30; 33; 33;
   35; 37; 37; 41; 42; 44; 49; 49; 31; 31; 31; 31; 32; 32; 34; 35; 37; 39; 39; 42; 42; 44; 47; 47; 31; 31;
   31; 32; 32; 32; 35; 36; 37; 40; 40; 42; 43; 44; 46; 46; 33; 34; 34; 34; 35; 35; 37; 38; 40; 43; 43; 44;
   44; 45; 47; 47; 37; 38; 38; 39; 40; 40; 42; 43; 44; 47; 47; 47; 47; 47; 48; 48; 37; 38; 38; 39; 40; 40;
   42; 43; 44; 47; 47; 47; 47; 47; 48; 48; 45; 45; 45; 45; 44; 44; 46; 46; 46; 47; 47; 49; 49; 50; 52; 52;
   48; 47; 47; 46; 46; 46; 47; 47; 47; 47; 47; 49; 50; 51; 53; 53; 32; 31; 31; 31; 31; 31; 33; 35; 37; 37;
   37; 40; 45; 48; 48; 48; 31; 31; 31; 31; 31; 31; 33; 36; 37; 37; 37; 41; 45; 48; 48; 48; 31; 31; 31; 31;
   31; 31; 34; 36; 38; 38; 38; 41; 45; 47; 47; 47; 31; 31; 31; 31; 31; 31; 34; 37; 38; 38; 38; 41; 45; 47;
   47; 47; 31; 31; 31; 31; 31; 31; 34; 37; 38; 38; 38; 41; 45; 47; 47; 47; 31; 31; 31; 31; 31; 31; 34; 37;
   38; 38; 38; 41; 45; 47; 47; 47; 31; 31; 31; 32; 32; 32; 34; 37; 39; 39; 39; 41; 45; 46; 46; 46; 30; 31;
   31; 32; 32; 32; 34; 38; 39; 39; 39; 42; 44; 46; 46; 46; 30; 31; 32; 32; 32; 32; 35; 38; 40; 40; 40; 42;
   44; 46; 46; 46; 30; 31; 32; 32; 32; 32; 35; 38; 40; 40; 40; 42; 44; 46; 46; 46; 30; 31; 32; 32; 32; 32;
   35; 38; 40; 40; 40; 42; 44; 46; 46; 46; 31; 32; 33; 33; 33; 33; 36; 39; 41; 41; 41; 43; 45; 46; 46; 46;
   33; 34; 34; 35; 35; 35; 37; 40; 42; 42; 42; 44; 46; 47; 47; 47; 33; 34; 35; 36; 36; 36; 38; 41; 43; 43;
   43; 44; 46; 47; 47; 47; 33; 34; 35; 36; 36; 36; 38; 41; 43; 43; 43; 44; 46; 47; 47; 47; 33; 34; 35; 36;
   36; 36; 38; 41; 43; 43; 43; 44; 46; 47; 47; 47; 35; 36; 37; 37; 37; 37; 40; 43; 44; 44; 44; 45; 46; 47;
   47; 47; 36; 37; 38; 39; 39; 39; 42; 44; 46; 46; 46; 47; 47; 47; 47; 47; 37; 38; 39; 40; 40; 40; 43; 45;
   47; 47; 47; 47; 47; 47; 47; 47; 37; 38; 39; 40; 40; 40; 43; 45; 47; 47; 47; 47; 47; 47; 47; 47; 37; 38;
   39; 40; 40; 40; 43; 45; 47; 47; 47; 47; 47; 47; 47; 47; 39; 39; 40; 41; 41; 41; 43; 46; 47; 47; 47; 48;
   48; 48; 48; 48; 41; 41; 42; 42; 42; 42; 44; 46; 47; 47; 47; 48; 49; 49; 49; 49; 42; 42; 42; 43; 43; 43;
   44; 46; 47; 47; 47; 48; 49; 50; 50; 50; 42; 42; 42; 43; 43; 43; 44; 46; 47; 47; 47; 48; 49; 50; 50; 50;
   42; 42; 42; 43; 43; 43; 44; 46; 47; 47; 47; 48; 49; 50; 50; 50; 44; 44; 44; 44; 44; 44; 45; 47; 47; 47;
   47; 49; 50; 51; 51; 51; 47; 46; 46; 46; 46; 46; 46; 47; 48; 48; 48; 49; 51; 52; 52; 52; 49; 48; 47; 46;
   46; 46; 47; 48; 48; 48; 48; 50; 52; 53; 53; 53; 49; 48; 47; 46; 46; 46; 47; 48; 48; 48; 48; 50; 52; 53;
   53; 53; 49; 48; 47; 46; 46; 46; 47; 48; 48; 48; 48; 50; 52; 53; 53; 53; 49; 48; 47; 46; 46; 46; 47; 47;
   47; 47; 47; 49; 52; 53; 53; 53; 32; 31; 31; 31; 31; 31; 31; 30; 30; 30; 30; 31; 33; 33; 33; 33; 35; 36;
   37; 37; 37; 39; 41; 42; 42; 42; 44; 47; 49; 49; 49; 49; 31; 31; 31; 31; 31; 31; 31; 31; 31; 31; 31; 32;
   34; 34; 34; 34; 36; 37; 38; 38; 38; 39; 41; 42; 42; 42; 44; 46; 48; 48; 48; 48; 31; 31; 31; 31; 31; 31;
   31; 31; 32; 32; 32; 33; 34; 35; 35; 35; 37; 38; 39; 39; 39; 40; 42; 42; 42; 42; 44; 46; 47; 47; 47; 47;
   31; 31; 31; 31; 31; 31; 32; 32; 32; 32; 32; 33; 35; 36; 36; 36; 37; 39; 40; 40; 40; 41; 42; 43; 43; 43;
   44; 46; 46; 46; 46; 46; 31; 31; 31; 31; 31; 31; 32; 32; 32; 32; 32; 33; 35; 36; 36; 36; 37; 39; 40; 40;
   40; 41; 42; 43; 43; 43; 44; 46; 46; 46; 46; 46; 31; 31; 31; 31; 31; 31; 32; 32; 32; 32; 32; 33; 35; 36;
   36; 36; 37; 39; 40; 40; 40; 41; 42; 43; 43; 43; 44; 46; 46; 46; 46; 46; 33; 33; 34; 34; 34; 34; 34; 34;
   35; 35; 35; 36; 37; 38; 38; 38; 40; 42; 43; 43; 43; 43; 44; 44; 44; 44; 45; 46; 47; 47; 47; 47; 35; 36;
   36; 37; 37; 37; 37; 38; 38; 38; 38; 39; 40; 41; 41; 41; 43; 44; 45; 45; 45; 46; 46; 46; 46; 46; 47; 47;
   48; 48; 48; 47; 37; 37; 38; 38; 38; 38; 39; 39; 40; 40; 40; 41; 42; 43; 43; 43; 44; 46; 47; 47; 47; 47;
   47; 47; 47; 47; 47; 48; 48; 48; 48; 47; 37; 37; 38; 38; 38; 38; 39; 39; 40; 40; 40; 41; 42; 43; 43; 43;
   44; 46; 47; 47; 47; 47; 47; 47; 47; 47; 47; 48; 48; 48; 48; 47; 37; 37; 38; 38; 38; 38; 39; 39; 40; 40;
   40; 41; 42; 43; 43; 43; 44; 46; 47; 47; 47; 47; 47; 47; 47; 47; 47; 48; 48; 48; 48; 47; 40; 41; 41; 41;
   41; 41; 41; 42; 42; 42; 42; 43; 44; 44; 44; 44; 45; 47; 47; 47; 47; 48; 48; 48; 48; 48; 49; 49; 50; 50;
   50; 49; 45; 45; 45; 45; 45; 45; 45; 44; 44; 44; 44; 45; 46; 46; 46; 46; 46; 47; 47; 47; 47; 48; 49; 49;
   49; 49; 50; 51; 52; 52; 52; 52; 48; 48; 47; 47; 47; 47; 46; 46; 46; 46; 46; 46; 47; 47; 47; 47; 47; 47;
   47; 47; 47; 48; 49; 50; 50; 50; 51; 52; 53; 53; 53; 53; 48; 48; 47; 47; 47; 47; 46; 46; 46; 46; 46; 46;
   47; 47; 47; 47; 47; 47; 47; 47; 47; 48; 49; 50; 50; 50; 51; 52; 53; 53; 53; 53; 48; 48; 47; 47; 47; 47;
   46; 46; 46; 46; 46; 46; 47; 47; 47; 47; 47; 47; 47; 47; 47; 48; 49; 50; 50; 50; 51; 52; 53; 53; 53; 53;
   31; 31; 37; 48; 31; 31; 38; 47; 31; 31; 38; 47; 31; 32; 39; 46; 31; 32; 40; 46; 31; 32; 40; 46; 34; 35;
   42; 47; 34; 36; 43; 47; 36; 37; 44; 47; 38; 40; 47; 47; 38; 40; 47; 47; 41; 42; 47; 49; 42; 43; 47; 50;
   44; 44; 47; 51; 48; 46; 48; 53; 48; 46; 48; 53; 31; 31; 31; 31; 31; 31; 34; 34; 36; 38; 38; 41; 42; 44;
   48; 48; 31; 31; 31; 32; 32; 32; 35; 36; 37; 40; 40; 42; 43; 44; 46; 46; 37; 38; 38; 39; 40; 40; 42; 43;
   44; 47; 47; 47; 47; 47; 48; 48; 48; 47; 47; 46; 46; 46; 47; 47; 47; 47; 47; 49; 50; 51; 53; 53; 32; 31;
   31; 33; 37; 37; 45; 48; 31; 31; 31; 33; 37; 37; 45; 48; 31; 31; 31; 34; 38; 38; 45; 47; 31; 31; 31; 34;
   38; 38; 45; 47; 31; 31; 31; 34; 38; 38; 45; 47; 31; 31; 31; 34; 38; 38; 45; 47; 31; 31; 32; 34; 39; 39;
   45; 46; 30; 31; 32; 34; 39; 39; 44; 46; 30; 32; 32; 35; 40; 40; 44; 46; 30; 32; 32; 35; 40; 40; 44; 46;
   30; 32; 32; 35; 40; 40; 44; 46; 31; 33; 33; 36; 41; 41; 45; 46; 33; 34; 35; 37; 42; 42; 46; 47; 33; 35;
   36; 38; 43; 43; 46; 47; 33; 35; 36; 38; 43; 43; 46; 47; 33; 35; 36; 38; 43; 43; 46; 47; 35; 37; 37; 40;
   44; 44; 46; 47; 36; 38; 39; 42; 46; 46; 47; 47; 37; 39; 40; 43; 47; 47; 47; 47; 37; 39; 40; 43; 47; 47;
   47; 47; 37; 39; 40; 43; 47; 47; 47; 47; 39; 40; 41; 43; 47; 47; 48; 48; 41; 42; 42; 44; 47; 47; 49; 49;
   42; 42; 43; 44; 47; 47; 49; 50; 42; 42; 43; 44; 47; 47; 49; 50; 42; 42; 43; 44; 47; 47; 49; 50; 44; 44;
   44; 45; 47; 47; 50; 51; 47; 46; 46; 46; 48; 48; 51; 52; 49; 47; 46; 47; 48; 48; 52; 53; 49; 47; 46; 47;
   48; 48; 52; 53; 49; 47; 46; 47; 48; 48; 52; 53; 49; 47; 46; 47; 47; 47; 52; 53; 32; 31; 31; 31; 31; 31;
   31; 30; 30; 30; 30; 31; 33; 33; 33; 33; 35; 36; 37; 37; 37; 39; 41; 42; 42; 42; 44; 47; 49; 49; 49; 49;
   31; 31; 31; 31; 31; 31; 31; 31; 32; 32; 32; 33; 34; 35; 35; 35; 37; 38; 39; 39; 39; 40; 42; 42; 42; 42;
   44; 46; 47; 47; 47; 47; 31; 31; 31; 31; 31; 31; 32; 32; 32; 32; 32; 33; 35; 36; 36; 36; 37; 39; 40; 40;
   40; 41; 42; 43; 43; 43; 44; 46; 46; 46; 46; 46; 33; 33; 34; 34; 34; 34; 34; 34; 35; 35; 35; 36; 37; 38;
   38; 38; 40; 42; 43; 43; 43; 43; 44; 44; 44; 44; 45; 46; 47; 47; 47; 47; 37; 37; 38; 38; 38; 38; 39; 39;
   40; 40; 40; 41; 42; 43; 43; 43; 44; 46; 47; 47; 47; 47; 47; 47; 47; 47; 47; 48; 48; 48; 48; 47; 37; 37;
   38; 38; 38; 38; 39; 39; 40; 40; 40; 41; 42; 43; 43; 43; 44; 46; 47; 47; 47; 47; 47; 47; 47; 47; 47; 48;
   48; 48; 48; 47; 45; 45; 45; 45; 45; 45; 45; 44; 44; 44; 44; 45; 46; 46; 46; 46; 46; 47; 47; 47; 47; 48;
   49; 49; 49; 49; 50; 51; 52; 52; 52; 52; 48; 48; 47; 47; 47; 47; 46; 46; 46; 46; 46; 46; 47; 47; 47; 47;
   47; 47; 47; 47; 47; 48; 49; 50; 50; 50; 51; 52; 53; 53; 53; 53]];
 [[31; 32; 32; 32; 32; 32; 32; 33; 32; 32; 33; 34; 32; 33; 34; 35; 31; 31; 31; 31; 32; 32; 32; 33; 31; 32;
   32; 32; 32; 32; 32; 33; 31; 32; 32; 32; 32; 32; 32; 33; 31; 32; 32; 32; 32; 32; 32; 33; 32; 32; 32; 32;
   33; 33; 34; 35; 32; 32; 32; 32; 33; 34; 34; 35; 32; 32; 32; 32; 34; 34; 35; 36; 33; 33; 33; 33; 35; 35;
   36; 38; 32; 31; 31; 31; 31; 31; 31; 31; 31; 31; 31; 32; 32; 32; 32; 34; 31; 31; 31; 31; 31; 31; 31; 32;
   32; 32; 32; 32; 32; 32; 33; 34; 31; 31; 32; 32; 32; 32; 32; 32; 32; 32; 32; 32; 32; 32; 33; 34; 31; 31;
   32; 32; 32; 32; 32; 32; 32; 32; 32; 32; 32; 32; 33; 34; 31; 31; 32; 32; 32; 32; 32; 32; 32; 32; 32; 32;
   32; 32; 33; 34; 31; 31; 32; 32; 32; 32; 32; 32; 32; 32; 32; 32; 32; 32; 33; 33; 31; 31; 32; 32; 32; 32;
   32; 32; 32; 32; 32; 32; 32; 32; 33; 33; 31; 32; 32; 32; 32; 32; 32; 32; 32; 32; 32; 33; 33; 33; 33; 34;
   31; 32; 32; 32; 32; 32; 32; 32; 33; 33; 33; 33; 33; 33; 34; 35; 31; 32; 32; 32; 32; 32; 32; 32; 33; 33;
   33; 33; 34; 34; 34; 35; 31; 32; 32; 32; 32; 32; 32; 32; 33; 33; 33; 33; 34; 34; 34; 35; 32; 32; 32; 32;
   32; 32; 32; 33; 33; 33; 33; 34; 35; 35; 35; 36; 32; 32; 32; 32; 32; 32; 32; 33; 33; 34; 34; 35; 35; 35;
   36; 37; 32; 32; 32; 32; 32; 32; 32; 33; 33; 34; 34; 35; 35; 35; 36; 37; 32; 33; 33; 33; 33; 33; 33; 33;
   34; 34; 34; 35; 36; 36; 36; 38; 34; 34; 34; 34; 34; 33; 33; 34; 35; 35; 35; 36; 37; 37; 38; 39; 32; 31;
   31; 31; 31; 31; 31; 31; 31; 31; 31; 31; 31; 31; 31; 31; 31; 31; 31; 31; 31; 32; 32; 32; 32; 32; 32; 32;
   32; 33; 34; 34; 31; 31; 31; 31; 31; 31; 31; 31; 31; 31; 31; 31; 31; 31; 31; 31; 32; 32; 32; 32; 32; 32;
   32; 32; 32; 32; 32; 32; 32; 33; 34; 34; 31; 31; 31; 31; 31; 31; 31; 31; 31; 31; 31; 31; 31; 31; 32; 32;
   32; 32; 32; 32; 32; 32; 32; 32; 32; 32; 32; 32; 33; 33; 34; 34; 31; 31; 31; 31; 32; 32; 32; 32; 32; 32;
   32; 32; 32; 32; 32; 32; 32; 32; 32; 32; 32; 32; 32; 32; 32; 32; 32; 32; 33; 33; 34; 34; 31; 31; 31; 32;
   32; 32; 32; 32; 32; 32; 32; 32; 32; 32; 32; 32; 32; 32; 32; 32; 32; 32; 32; 32; 32; 32; 32; 32; 33; 33;
   34; 34; 31; 31; 31; 32; 32; 32; 32; 32; 32; 32; 32; 32; 32; 32; 32; 32; 32; 32; 32; 32; 32; 32; 32; 32;
   32; 32; 32; 32; 33; 33; 34; 34; 31; 31; 31; 32; 32; 32; 32; 32; 32; 32; 32; 32; 32; 32; 32; 32; 32; 32;
   32; 32; 32; 32; 32; 32; 32; 32; 32; 32; 33; 33; 34; 34; 31; 31; 31; 32; 32; 32; 32; 32; 32; 32; 32; 32;
   32; 32; 32; 32; 32; 32; 32; 32; 32; 32; 32; 32; 32; 32; 32; 32; 33; 33; 34; 34; 31; 31; 31; 32; 32; 32;
   32; 32; 32; 32; 32; 32; 32; 32; 32; 32; 32; 32; 32; 32; 32; 32; 32; 32; 32; 32; 32; 32; 33; 33; 34; 34;
   31; 31; 31; 32; 32; 32; 32; 32; 32; 32; 32; 32; 32; 32; 32; 32; 32; 32; 32; 32; 32; 32; 32; 32; 32; 32;
   32; 32; 33; 33; 33; 33; 31; 31; 31; 32; 32; 32; 32; 32; 32; 32; 32; 32; 32; 32; 32; 32; 32; 32; 32; 32;
   32; 32; 32; 32; 32; 32; 32; 33; 33; 33; 33; 33; 31; 31; 31; 32; 32; 32; 32; 32; 32; 32; 32; 32; 32; 32;
   32; 32; 32; 32; 32; 32; 32; 32; 32; 32; 32; 32; 32; 33; 33; 33; 33; 33; 31; 31; 31; 32; 32; 32; 32; 32;
   32; 32; 32; 32; 32; 32; 32; 32; 32; 32; 32; 32; 32; 32; 32; 32; 32; 32; 32; 33; 33; 33; 33; 33; 31; 31;
   31; 32; 32; 32; 32; 32; 32; 32; 32; 32; 32; 32; 32; 32; 32; 32; 32; 32; 32; 32; 32; 32; 32; 32; 32; 33;
   33; 33; 33; 33; 31; 31; 32; 32; 32; 32; 32; 32; 32; 32; 32; 32; 32; 32; 32; 32; 32; 32; 32; 32; 32; 33;
   33; 33; 33; 33; 33; 33; 33; 33; 34; 34; 31; 31; 32; 32; 32; 32; 32; 32; 32; 32; 32; 32; 32; 32; 32; 32;
   33; 33; 33; 33; 33; 33; 33; 33; 33; 33; 33; 33; 34; 34; 34; 34; 31; 32; 32; 32; 32; 32; 32; 32; 32; 32;
   32; 32; 32; 32; 32; 33; 33; 33; 33; 33; 33; 33; 33; 33; 33; 33; 33; 34; 34; 34; 35; 35; 31; 32; 32; 32;
   32; 32; 32; 32; 32; 32; 32; 32; 32; 32; 32; 33; 33; 33; 33; 33; 33; 33; 33; 34; 34; 34; 34; 34; 34; 35;
   35; 35; 31; 32; 32; 32; 32; 32; 32; 32; 32; 32; 32; 32; 32; 32; 32; 33; 33; 33; 33; 33; 33; 33; 33; 34;
   34; 34; 34; 34; 34; 35; 35; 35; 31; 32; 32; 32; 32; 32; 32; 32; 32; 32; 32; 32; 32; 32; 32; 33; 33; 33;
   33; 33; 33; 33; 33; 34; 34; 34; 34; 34; 34; 35; 35; 35; 31; 32; 32; 32; 32; 32; 32; 32; 32; 32; 32; 32;
   32; 32; 32; 33; 33; 33; 33; 33; 33; 33; 33; 34; 34; 34; 34; 34; 34; 35; 35; 35; 32; 32; 32; 32; 32; 32;
   32; 32; 32; 32; 32; 32; 32; 32; 33; 33; 33; 33; 33; 33; 33; 34; 34; 34; 34; 34; 34; 34; 35; 35; 35; 35;
   32; 32; 32; 32; 32; 32; 32; 32; 32; 32; 32; 32; 32; 32; 33; 33; 33; 33; 33; 33; 33; 34; 34; 34; 35; 35;
   35; 35; 35; 35; 36; 36; 32; 32; 32; 32; 32; 32; 32; 32; 32; 32; 32; 32; 32; 32; 33; 33; 33; 34; 34; 34;
   34; 34; 34; 35; 35; 35; 35; 35; 35; 36; 36; 36; 32; 32; 32; 32; 32; 32; 32; 32; 32; 32; 32; 32; 32; 32;
   33; 33; 33; 34; 34; 34; 34; 34; 35; 35; 35; 35; 35; 35; 36; 36; 37; 37; 32; 32; 32; 32; 32; 32; 32; 32;
   32; 32; 32; 32; 32; 32; 33; 33; 33; 34; 34; 34; 34; 34; 35; 35; 35; 35; 35; 35; 36; 36; 37; 37; 32; 32;
   32; 32; 32; 32; 32; 32; 32; 32; 32; 32; 32; 32; 33; 33; 33; 34; 34; 34; 34; 34; 35; 35; 35; 35; 35; 35;
   36; 36; 37; 37; 32; 32; 32; 32; 32; 32; 32; 32; 32; 32; 33; 33; 33; 33; 33; 33; 34; 34; 34; 34; 34; 34;
   35; 35; 35; 35; 35; 35; 36; 36; 37; 37; 32; 32; 33; 33; 33; 33; 33; 33; 33; 33; 33; 33; 33; 33; 33; 34;
   34; 34; 34; 34; 34; 35; 35; 35; 36; 36; 36; 36; 36; 37; 38; 38; 33; 33; 33; 33; 33; 33; 33; 33; 33; 33;
   33; 33; 33; 33; 33; 34; 34; 35; 35; 35; 35; 35; 35; 36; 36; 36; 36; 36; 37; 38; 38; 38; 34; 34; 34; 34;
   34; 34; 34; 34; 34; 33; 33; 33; 33; 33; 34; 34; 35; 35; 35; 35; 35; 35; 36; 36; 37; 37; 37; 37; 38; 38;
   39; 39; 34; 34; 34; 34; 34; 34; 34; 34; 34; 33; 33; 33; 33; 33; 34; 34; 35; 35; 35; 35; 35; 35; 36; 36;
   37; 37; 37; 37; 38; 38; 39; 39; 31; 31; 32; 32; 31; 32; 32; 32; 32; 32; 32; 32; 32; 32; 32; 33; 32; 32;
   33; 34; 32; 32; 34; 34; 32; 33; 34; 35; 33; 33; 35; 36; 31; 31; 32; 32; 32; 32; 32; 33; 31; 32; 32; 32;
   32; 32; 33; 33; 32; 32; 32; 32; 33; 34; 34; 35; 32; 32; 32; 33; 34; 34; 35; 36; 32; 31; 31; 31; 31; 32;
   32; 32; 31; 31; 32; 32; 32; 32; 32; 33; 31; 32; 32; 32; 32; 32; 32; 33; 31; 32; 32; 32; 32; 32; 32; 33;
   31; 32; 32; 32; 32; 32; 32; 33; 31; 32; 32; 32; 32; 33; 33; 33; 31; 32; 32; 32; 32; 33; 33; 33; 31; 32;
   32; 32; 32; 33; 33; 33; 31; 32; 32; 32; 33; 34; 34; 34; 32; 32; 32; 32; 33; 34; 34; 34; 32; 32; 32; 32;
   33; 34; 34; 34; 32; 32; 32; 32; 33; 35; 35; 35; 32; 32; 33; 33; 34; 35; 35; 36; 32; 32; 33; 33; 34; 35;
   35; 36; 32; 33; 33; 33; 34; 36; 36; 36; 34; 34; 34; 34; 35; 37; 37; 38; 32; 31; 31; 31; 31; 31; 31; 31;
   31; 32; 32; 32; 32; 32; 32; 34; 31; 31; 32; 32; 32; 32; 32; 32; 32; 32; 32; 32; 32; 32; 33; 34; 31; 32;
   32; 32; 32; 32; 32; 32; 32; 32; 32; 32; 33; 33; 33; 34; 31; 32; 32; 32; 32; 32; 32; 32; 32; 32; 32; 32;
   33; 33; 33; 34; 31; 32; 32; 32; 32; 32; 32; 32; 33; 33; 33; 33; 34; 34; 34; 35; 32; 32; 32; 32; 32; 33;
   33; 33; 34; 34; 34; 35; 35; 35; 36; 37; 32; 32; 32; 32; 32; 33; 33; 33; 34; 34; 34; 35; 35; 35; 36; 37;
   32; 33; 33; 33; 33; 33; 33; 33; 34; 34; 34; 35; 36; 36; 36; 38; 32; 31; 31; 31; 31; 31; 31; 31; 31; 32;
   32; 32; 32; 32; 32; 34; 31; 31; 31; 31; 31; 31; 31; 31; 32; 32; 32; 32; 32; 32; 33; 34; 31; 31; 31; 32;
   32; 32; 32; 32; 32; 32; 32; 32; 32; 32; 33; 34; 31; 31; 32; 32; 32; 32; 32; 32; 32; 32; 32; 32; 32; 32;
   33; 34; 31; 31; 32; 32; 32; 32; 32; 32; 32; 32; 32; 32; 32; 32; 33; 34; 31; 31; 32; 32; 32; 32; 32; 32;
   32; 32; 32; 32; 32; 32; 33; 34; 31; 31; 32; 32; 32; 32; 32; 32; 32; 32; 32; 32; 32; 32; 33; 34; 31; 31;
   32; 32; 32; 32; 32; 32; 32; 32; 32; 32; 32; 32; 33; 34; 31; 31; 32; 32; 32; 32; 32; 32; 32; 32; 32; 32;
   32; 32; 33; 34; 31; 32; 32; 32; 32; 32; 32; 32; 32; 32; 32; 32; 32; 32; 33; 33; 31; 32; 32; 32; 32; 32;
   32; 32; 32; 32; 33; 33; 33; 33; 33; 33; 31; 32; 32; 32; 32; 32; 32; 32; 32; 32; 33; 33; 33; 33; 33; 33;
   31; 32; 32; 32; 32; 32; 32; 32; 32; 32; 33; 33; 33; 33; 33; 33; 31; 32; 32; 32; 32; 32; 32; 32; 32; 32;
   33; 33; 33; 33; 33; 33; 31; 32; 32; 32; 32; 32; 32; 32; 32; 33; 33; 33; 33; 33; 33; 34; 31; 32; 32; 32;
   32; 32; 32; 32; 33; 33; 33; 33; 33; 33; 34; 34; 31; 32; 32; 32; 32; 32; 32; 32; 33; 33; 34; 34; 34; 34;
   34; 35; 32; 32; 32; 32; 32; 32; 32; 33; 33; 33; 34; 34; 34; 34; 34; 35; 32; 32; 32; 32; 32; 32; 32; 33;
   33; 33; 34; 34; 34; 34; 34; 35; 32; 32; 32; 32; 32; 32; 32; 33; 33; 33; 34; 34; 34; 34; 34; 35; 32; 32;
   32; 32; 32; 32; 32; 33; 33; 33; 34; 34; 34; 34; 34; 35; 32; 32; 32; 32; 32; 32; 32; 33; 33; 34; 34; 34;
   34; 34; 35; 35; 32; 32; 32; 32; 32; 32; 32; 33; 33; 34; 35; 35; 35; 35; 35; 36; 32; 32; 32; 32; 33; 33;
   33; 33; 33; 34; 35; 35; 35; 35; 36; 36; 32; 32; 32; 32; 33; 33; 33; 33; 34; 34; 35; 35; 35; 35; 36; 37;
   32; 32; 32; 32; 33; 33; 33; 33; 34; 34; 35; 35; 35; 35; 36; 37; 32; 32; 32; 32; 33; 33; 33; 33; 34; 34;
   35; 35; 35; 35; 36; 37; 32; 32; 32; 33; 33; 33; 33; 33; 34; 34; 35; 35; 35; 35; 36; 37; 32; 33; 33; 33;
   33; 33; 33; 33; 34; 35; 36; 36; 36; 36; 36; 38; 33; 33; 33; 33; 33; 33; 33; 34; 34; 35; 36; 36; 36; 36;
   37; 38; 34; 34; 34; 34; 34; 34; 34; 34; 35; 36; 37; 37; 37; 37; 38; 39; 34; 34; 34; 34; 34; 34; 34; 34;
   35; 36; 37; 37; 37; 37; 38; 39; 32; 31; 31; 31; 31; 31; 31; 31; 31; 31; 31; 31; 31; 31; 31; 31; 31; 32;
   32; 32; 32; 32; 32; 32; 32; 32; 32; 32; 32; 33; 34; 34; 31; 31; 31; 31; 31; 31; 31; 31; 31; 32; 32; 32;
   32; 32; 32; 32; 32; 32; 32; 32; 32; 32; 32; 32; 32; 32; 32; 32; 33; 33; 34; 34; 31; 31; 31; 32; 32; 32;
   32; 32; 32; 32; 32; 32; 32; 32; 32; 32; 32; 32; 32; 32; 32; 32; 32; 32; 32; 32; 32; 32; 33; 33; 34; 34;
   31; 31; 32; 32; 32; 32; 32; 32; 32; 32; 32; 32; 32; 32; 32; 32; 32; 32; 32; 32; 32; 32; 32; 32; 32; 32;
   32; 33; 33; 33; 34; 34; 31; 31; 32; 32; 32; 32; 32; 32; 32; 32; 32; 32; 32; 32; 32; 32; 32; 32; 32; 32;
   32; 32; 32; 33; 33; 33; 33; 33; 33; 33; 34; 34; 31; 31; 32; 32; 32; 32; 32; 32; 32; 32; 32; 32; 32; 32;
   32; 32; 32; 32; 32; 32; 32; 32; 32; 33; 33; 33; 33; 33; 33; 33; 34; 34; 31; 31; 32; 32; 32; 32; 32; 32;
   32; 32; 32; 32; 32; 32; 32; 32; 32; 32; 32; 32; 32; 32; 32; 33; 33; 33; 33; 33; 33; 33; 34; 34; 31; 31;
   32; 32; 32; 32; 32; 32; 32; 32; 32; 32; 32; 32; 32; 32; 32; 33; 33; 33; 33; 33; 33; 33; 33; 33; 33; 33;
   33; 34; 34; 34; 31; 32; 32; 32; 32; 32; 32; 32; 32; 32; 32; 32; 32; 32; 32; 33; 33; 33; 33; 33; 33; 33;
   33; 33; 34; 34; 34; 34; 34; 34; 35; 35; 32; 32; 32; 32; 32; 32; 32; 32; 32; 32; 32; 32; 32; 32; 33; 33;
   33; 33; 33; 33; 33; 34; 34; 34; 34; 34; 34; 34; 35; 35; 36; 36; 32; 32; 32; 32; 32; 32; 32; 32; 32; 32;
   33; 33; 33; 33; 33; 33; 34; 34; 34; 34; 34; 34; 35; 35; 35; 35; 35; 35; 36; 36; 37; 37; 32; 32; 32; 32;
   32; 32; 32; 32; 32; 32; 33; 33; 33; 33; 33; 33; 34; 34; 34; 34; 34; 34; 35; 35; 35; 35; 35; 35; 36; 36;
   37; 37; 32; 32; 32; 32; 32; 32; 32; 32; 32; 32; 33; 33; 33; 33; 33; 33; 34; 34; 34; 34; 34; 34; 35; 35;
   35; 35; 35; 35; 36; 36; 37; 37; 32; 32; 32; 32; 32; 32; 32; 32; 32; 32; 33; 33; 33; 33; 33; 33; 34; 34;
   34; 34; 34; 34; 35; 35; 35; 35; 35; 35; 36; 36; 37; 37; 32; 33; 33; 33; 33; 33; 33; 33; 33; 33; 33; 33;
   33; 33; 33; 34; 34; 34; 34; 34; 34; 35; 35; 36; 36; 36; 36; 36; 36; 37; 38; 38; 34; 34; 34; 34; 34; 34;
   34; 34; 34; 33; 33; 33; 33; 33; 34; 34; 35; 35; 35; 35; 35; 35; 36; 36; 37; 37; 37; 37; 38; 38; 39; 39;
   31; 31; 32; 32; 31; 32; 32; 32; 31; 32; 32; 32; 31; 32; 32; 32; 31; 32; 32; 32; 32; 32; 32; 33; 32; 32;
   32; 33; 32; 32; 33; 33; 32; 32; 33; 34; 32; 32; 33; 34; 32; 32; 33; 34; 32; 32; 34; 35; 32; 33; 34; 35;
   32; 33; 34; 35; 33; 33; 35; 36; 34; 34; 36; 37; 31; 31; 31; 31; 31; 32; 32; 32; 32; 32; 32; 32; 32; 32;
   33; 34; 31; 32; 32; 32; 32; 32; 32; 32; 32; 32; 32; 32; 33; 33; 33; 34; 32; 32; 32; 32; 32; 32; 32; 33;
   33; 33; 33; 34; 34; 34; 35; 36; 32; 32; 32; 32; 32; 33; 33; 33; 34; 34; 34; 35; 35; 35; 36; 37; 32; 31;
   31; 31; 31; 32; 32; 32; 31; 31; 31; 31; 32; 32; 32; 33; 31; 31; 32; 32; 32; 32; 32; 33; 31; 32; 32; 32;
   32; 32; 32; 33; 31; 32; 32; 32; 32; 32; 32; 33; 31; 32; 32; 32; 32; 32; 32; 33; 31; 32; 32; 32; 32; 32;
   32; 33; 31; 32; 32; 32; 32; 32; 32; 33; 31; 32; 32; 32; 32; 32; 32; 33; 31; 32; 32; 32; 32; 32; 32; 33;
   31; 32; 32; 32; 32; 33; 33; 33; 31; 32; 32; 32; 32; 33; 33; 33; 31; 32; 32; 32; 32; 33; 33; 33; 31; 32;
   32; 32; 32; 33; 33; 33; 31; 32; 32; 32; 32; 33; 33; 33; 31; 32; 32; 32; 33; 33; 33; 34; 31; 32; 32; 32;
   33; 34; 34; 34; 32; 32; 32; 32; 33; 34; 34; 34; 32; 32; 32; 32; 33; 34; 34; 34; 32; 32; 32; 32; 33; 34;
   34; 34; 32; 32; 32; 32; 33; 34; 34; 34; 32; 32; 32; 32; 33; 34; 34; 35; 32; 32; 32; 32; 33; 35; 35; 35;
   32; 32; 33; 33; 33; 35; 35; 36; 32; 32; 33; 33; 34; 35; 35; 36; 32; 32; 33; 33; 34; 35; 35; 36; 32; 32;
   33; 33; 34; 35; 35; 36; 32; 32; 33; 33; 34; 35; 35; 36; 32; 33; 33; 33; 34; 36; 36; 36; 33; 33; 33; 33;
   34; 36; 36; 37; 34; 34; 34; 34; 35; 37; 37; 38; 34; 34; 34; 34; 35; 37; 37; 38; 32; 31; 31; 31; 31; 31;
   31; 31; 31; 31; 31; 31; 31; 31; 31; 31; 31; 32; 32; 32; 32; 32; 32; 32; 32; 32; 32; 32; 32; 33; 34; 34;
   31; 31; 31; 32; 32; 32; 32; 32; 32; 32; 32; 32; 32; 32; 32; 32; 32; 32; 32; 32; 32; 32; 32; 32; 32; 32;
   32; 32; 33; 33; 34; 34; 31; 31; 32; 32; 32; 32; 32; 32; 32; 32; 32; 32; 32; 32; 32; 32; 32; 32; 32; 32;
   32; 32; 32; 33; 33; 33; 33; 33; 33; 33; 34; 34; 31; 31; 32; 32; 32; 32; 32; 32; 32; 32; 32; 32; 32; 32;
   32; 32; 32; 32; 32; 32; 32; 32; 32; 33; 33; 33; 33; 33; 33; 33; 34; 34; 31; 32; 32; 32; 32; 32; 32; 32;
   32; 32; 32; 32; 32; 32; 32; 33; 33; 33; 33; 33; 33; 33; 33; 33; 34; 34; 34; 34; 34; 34; 35; 35; 32; 32;
   32; 32; 32; 32; 32; 32; 32; 32; 33; 33; 33; 33; 33; 33; 34; 34; 34; 34; 34; 34; 35; 35; 35; 35; 35; 35;
   36; 36; 37; 37; 32; 32; 32; 32; 32; 32; 32; 32; 32; 32; 33; 33; 33; 33; 33; 33; 34; 34; 34; 34; 34; 34;
   35; 35; 35; 35; 35; 35; 36; 36; 37; 37; 32; 33; 33; 33; 33; 33; 33; 33; 33; 33; 33; 33; 33; 33; 33; 34;
   34; 34; 34; 34; 34; 35; 35; 36; 36; 36; 36; 36; 36; 37; 38; 38];
 [31; 31; 34; 38; 31; 32; 35; 40; 34; 35; 39; 43; 38; 40; 43; 47; 31; 31; 31; 30; 34; 35; 37; 40; 31; 31;
   31; 31; 34; 35; 38; 41; 31; 31; 31; 31; 35; 36; 39; 41; 30; 31; 31; 32; 35; 36; 40; 42; 34; 34; 35; 35;
   39; 40; 43; 44; 35; 35; 36; 36; 40; 41; 44; 45; 37; 38; 39; 40; 43; 44; 47; 47; 40; 41; 41; 42; 44; 45;
   47; 48; 32; 31; 31; 31; 31; 30; 30; 31; 33; 33; 33; 35; 36; 36; 38; 41; 31; 31; 31; 31; 31; 31; 31; 31;
   33; 34; 34; 36; 37; 37; 39; 42; 31; 31; 31; 31; 31; 31; 31; 32; 34; 34; 34; 37; 38; 38; 40; 42; 31; 31;
   31; 31; 31; 31; 31; 32; 34; 34; 34; 37; 38; 38; 40; 42; 31; 31; 31; 31; 31; 31; 31; 32; 34; 35; 35; 37;
   39; 39; 40; 42; 30; 31; 31; 31; 31; 32; 32; 32; 34; 35; 35; 38; 40; 40; 41; 42; 30; 31; 31; 31; 31; 32;
   32; 32; 34; 35; 35; 38; 40; 40; 41; 42; 31; 31; 32; 32; 32; 32; 32; 33; 35; 36; 36; 38; 40; 40; 41; 43;
   33; 33; 34; 34; 34; 34; 34; 35; 37; 38; 38; 41; 42; 42; 43; 44; 33; 34; 34; 34; 35; 35; 35; 36; 38; 39;
   39; 41; 43; 43; 44; 45; 33; 34; 34; 34; 35; 35; 35; 36; 38; 39; 39; 41; 43; 43; 44; 45; 35; 36; 37; 37;
   37; 38; 38; 38; 41; 41; 41; 44; 46; 46; 46; 46; 36; 37; 38; 38; 39; 40; 40; 40; 42; 43; 43; 46; 47; 47;
   47; 47; 36; 37; 38; 38; 39; 40; 40; 40; 42; 43; 43; 46; 47; 47; 47; 47; 38; 39; 40; 40; 40; 41; 41; 41;
   43; 44; 44; 46; 47; 47; 47; 48; 41; 42; 42; 42; 42; 42; 42; 43; 44; 45; 45; 46; 47; 47; 48; 48; 32; 31;
   31; 31; 31; 31; 31; 31; 31; 30; 30; 30; 30; 30; 31; 32; 33; 33; 33; 33; 33; 34; 35; 36; 36; 36; 36; 37;
   38; 40; 41; 41; 31; 31; 31; 31; 31; 31; 31; 31; 31; 31; 30; 30; 30; 30; 31; 32; 33; 34; 34; 34; 34; 35;
   36; 37; 37; 37; 37; 37; 39; 40; 42; 42; 31; 31; 31; 31; 31; 31; 31; 31; 31; 31; 31; 31; 31; 31; 31; 32;
   33; 34; 34; 34; 34; 35; 36; 37; 37; 37; 37; 38; 39; 40; 42; 42; 31; 31; 31; 31; 31; 31; 31; 31; 31; 31;
   31; 31; 31; 31; 32; 32; 34; 34; 34; 34; 34; 35; 36; 38; 38; 38; 38; 38; 40; 41; 42; 42; 31; 31; 31; 31;
   31; 31; 31; 31; 31; 31; 31; 31; 31; 31; 32; 33; 34; 34; 34; 34; 34; 35; 37; 38; 38; 38; 38; 39; 40; 41;
   42; 42; 31; 31; 31; 31; 31; 31; 31; 31; 31; 31; 31; 31; 31; 31; 32; 33; 34; 34; 34; 34; 34; 35; 37; 38;
   38; 38; 38; 39; 40; 41; 42; 42; 31; 31; 31; 31; 31; 31; 31; 31; 31; 31; 31; 31; 31; 31; 32; 33; 34; 34;
   34; 34; 34; 35; 37; 38; 38; 38; 38; 39; 40; 41; 42; 42; 31; 31; 31; 31; 31; 31; 31; 31; 31; 31; 31; 31;
   31; 31; 32; 33; 34; 34; 34; 34; 34; 36; 37; 38; 38; 38; 38; 39; 40; 41; 42; 42; 31; 31; 31; 31; 31; 31;
   31; 31; 31; 31; 31; 31; 31; 31; 32; 33; 34; 35; 35; 35; 35; 36; 37; 38; 39; 39; 39; 39; 40; 41; 42; 42;
   30; 31; 31; 31; 31; 31; 31; 31; 31; 31; 31; 31; 31; 31; 32; 33; 34; 35; 35; 35; 35; 36; 37; 39; 39; 39;
   39; 40; 40; 41; 42; 42; 30; 30; 31; 31; 31; 31; 31; 31; 31; 31; 32; 32; 32; 32; 32; 33; 34; 35; 35; 35;
   35; 36; 38; 39; 40; 40; 40; 40; 41; 42; 42; 42; 30; 30; 31; 31; 31; 31; 31; 31; 31; 31; 32; 32; 32; 32;
   32; 33; 34; 35; 35; 35; 35; 36; 38; 39; 40; 40; 40; 40; 41; 42; 42; 42; 30; 30; 31; 31; 31; 31; 31; 31;
   31; 31; 32; 32; 32; 32; 32; 33; 34; 35; 35; 35; 35; 36; 38; 39; 40; 40; 40; 40; 41; 42; 42; 42; 30; 30;
   31; 31; 31; 31; 31; 31; 31; 31; 32; 32; 32; 32; 32; 33; 34; 35; 35; 35; 35; 36; 38; 39; 40; 40; 40; 40;
   41; 42; 42; 42; 31; 31; 31; 32; 32; 32; 32; 32; 32; 32; 32; 32; 32; 32; 33; 34; 35; 36; 36; 36; 36; 37;
   38; 40; 40; 40; 40; 41; 41; 42; 43; 43; 32; 32; 32; 32; 33; 33; 33; 33; 33; 33; 33; 33; 33; 33; 34; 35;
   36; 37; 37; 37; 37; 38; 39; 41; 41; 41; 41; 42; 42; 43; 43; 43; 33; 33; 33; 34; 34; 34; 34; 34; 34; 34;
   34; 34; 34; 34; 35; 36; 37; 38; 38; 38; 38; 39; 41; 42; 42; 42; 42; 43; 43; 44; 44; 44; 33; 34; 34; 34;
   34; 34; 34; 34; 35; 35; 35; 35; 35; 35; 36; 37; 38; 39; 39; 39; 39; 40; 41; 43; 43; 43; 43; 43; 44; 44;
   45; 45; 33; 34; 34; 34; 34; 34; 34; 34; 35; 35; 35; 35; 35; 35; 36; 37; 38; 39; 39; 39; 39; 40; 41; 43;
   43; 43; 43; 43; 44; 44; 45; 45; 33; 34; 34; 34; 34; 34; 34; 34; 35; 35; 35; 35; 35; 35; 36; 37; 38; 39;
   39; 39; 39; 40; 41; 43; 43; 43; 43; 43; 44; 44; 45; 45; 33; 34; 34; 34; 34; 34; 34; 34; 35; 35; 35; 35;
   35; 35; 36; 37; 38; 39; 39; 39; 39; 40; 41; 43; 43; 43; 43; 43; 44; 44; 45; 45; 34; 35; 35; 35; 35; 35;
   35; 36; 36; 36; 36; 36; 36; 36; 37; 38; 39; 40; 40; 40; 40; 41; 42; 44; 44; 44; 44; 44; 45; 45; 45; 45;
   35; 36; 36; 36; 37; 37; 37; 37; 37; 37; 38; 38; 38; 38; 38; 39; 41; 41; 41; 41; 41; 42; 44; 45; 46; 46;
   46; 46; 46; 46; 46; 46; 36; 37; 37; 38; 38; 38; 38; 38; 38; 39; 39; 39; 39; 39; 40; 41; 42; 43; 43; 43;
   43; 44; 45; 46; 47; 47; 47; 47; 47; 47; 47; 47; 36; 37; 37; 38; 38; 38; 38; 38; 39; 39; 40; 40; 40; 40;
   40; 41; 42; 43; 43; 43; 43; 44; 46; 47; 47; 47; 47; 47; 47; 47; 47; 47; 36; 37; 37; 38; 38; 38; 38; 38;
   39; 39; 40; 40; 40; 40; 40; 41; 42; 43; 43; 43; 43; 44; 46; 47; 47; 47; 47; 47; 47; 47; 47; 47; 36; 37;
   37; 38; 38; 38; 38; 38; 39; 39; 40; 40; 40; 40; 40; 41; 42; 43; 43; 43; 43; 44; 46; 47; 47; 47; 47; 47;
   47; 47; 47; 47; 37; 37; 38; 38; 39; 39; 39; 39; 39; 40; 40; 40; 40; 40; 41; 42; 43; 43; 43; 43; 43; 44;
   46; 47; 47; 47; 47; 47; 47; 47; 47; 47; 38; 39; 39; 40; 40; 40; 40; 40; 40; 40; 41; 41; 41; 41; 41; 42;
   43; 44; 44; 44; 44; 45; 46; 47; 47; 47; 47; 47; 47; 48; 48; 48; 40; 40; 40; 41; 41; 41; 41; 41; 41; 41;
   42; 42; 42; 42; 42; 43; 44; 44; 44; 44; 44; 45; 46; 47; 47; 47; 47; 47; 48; 48; 48; 48; 41; 42; 42; 42;
   42; 42; 42; 42; 42; 42; 42; 42; 42; 42; 43; 43; 44; 45; 45; 45; 45; 45; 46; 47; 47; 47; 47; 47; 48; 48;
   48; 48; 41; 42; 42; 42; 42; 42; 42; 42; 42; 42; 42; 42; 42; 42; 43; 43; 44; 45; 45; 45; 45; 45; 46; 47;
   47; 47; 47; 47; 48; 48; 48; 48; 31; 31; 35; 37; 31; 31; 36; 38; 31; 32; 37; 39; 31; 32; 37; 40; 34; 36;
   40; 43; 35; 37; 42; 44; 38; 40; 45; 47; 41; 42; 45; 47; 31; 31; 31; 31; 34; 35; 38; 41; 31; 31; 32; 32;
   36; 37; 40; 42; 35; 36; 37; 37; 40; 42; 45; 45; 37; 38; 39; 40; 43; 44; 47; 47; 32; 31; 31; 31; 33; 37;
   37; 38; 31; 31; 31; 31; 33; 38; 38; 39; 31; 31; 31; 31; 34; 38; 38; 40; 31; 31; 31; 31; 34; 38; 38; 40;
   31; 31; 32; 32; 34; 39; 39; 40; 30; 31; 32; 32; 35; 40; 40; 41; 30; 31; 32; 32; 35; 40; 40; 41; 31; 32;
   33; 33; 35; 40; 40; 41; 33; 34; 35; 35; 37; 42; 42; 43; 33; 35; 36; 36; 38; 43; 43; 44; 33; 35; 36; 36;
   38; 43; 43; 44; 35; 37; 38; 38; 41; 45; 45; 46; 37; 39; 40; 40; 43; 47; 47; 47; 37; 39; 40; 40; 43; 47;
   47; 47; 39; 40; 41; 41; 43; 47; 47; 47; 42; 42; 43; 43; 44; 47; 47; 48; 32; 31; 31; 31; 31; 30; 30; 31;
   33; 33; 33; 35; 37; 37; 39; 42; 31; 31; 31; 31; 31; 31; 31; 32; 34; 35; 35; 37; 39; 39; 40; 42; 31; 31;
   31; 31; 32; 32; 32; 33; 35; 36; 36; 38; 40; 40; 41; 43; 31; 31; 31; 31; 32; 32; 32; 33; 35; 36; 36; 38;
   40; 40; 41; 43; 33; 33; 34; 34; 34; 35; 35; 35; 37; 38; 38; 41; 43; 43; 43; 44; 37; 38; 38; 38; 39; 40;
   40; 40; 42; 43; 43; 45; 47; 47; 47; 47; 37; 38; 38; 38; 39; 40; 40; 40; 42; 43; 43; 45; 47; 47; 47; 47;
   38; 39; 40; 40; 40; 41; 41; 41; 43; 44; 44; 46; 47; 47; 47; 48; 32; 31; 31; 31; 31; 31; 31; 31; 33; 35;
   37; 37; 37; 37; 38; 42; 31; 31; 31; 31; 31; 31; 31; 31; 33; 35; 37; 37; 37; 37; 39; 42; 31; 31; 31; 31;
   31; 31; 31; 32; 33; 35; 38; 38; 38; 38; 39; 42; 31; 31; 31; 31; 31; 31; 31; 32; 34; 36; 38; 38; 38; 38;
   40; 42; 31; 31; 31; 31; 31; 31; 31; 32; 34; 36; 38; 38; 38; 38; 40; 42; 31; 31; 31; 31; 31; 31; 31; 32;
   34; 36; 38; 38; 38; 38; 40; 42; 31; 31; 31; 31; 31; 31; 31; 32; 34; 36; 38; 38; 38; 38; 40; 42; 31; 31;
   31; 31; 31; 31; 31; 32; 34; 36; 38; 38; 38; 38; 40; 42; 31; 31; 31; 31; 32; 32; 32; 32; 34; 36; 39; 39;
   39; 39; 40; 42; 30; 31; 31; 32; 32; 32; 32; 32; 34; 37; 39; 39; 39; 39; 40; 42; 30; 31; 31; 32; 32; 32;
   32; 33; 35; 37; 40; 40; 40; 40; 41; 42; 30; 31; 31; 32; 32; 32; 32; 33; 35; 37; 40; 40; 40; 40; 41; 42;
   30; 31; 31; 32; 32; 32; 32; 33; 35; 37; 40; 40; 40; 40; 41; 42; 30; 31; 31; 32; 32; 32; 32; 33; 35; 37;
   40; 40; 40; 40; 41; 42; 31; 31; 32; 32; 33; 33; 33; 33; 35; 38; 40; 40; 40; 40; 41; 43; 32; 32; 33; 33;
   34; 34; 34; 34; 36; 39; 41; 41; 41; 41; 42; 44; 33; 33; 34; 35; 35; 35; 35; 35; 37; 40; 42; 42; 42; 42;
   43; 44; 33; 34; 35; 35; 36; 36; 36; 36; 38; 40; 43; 43; 43; 43; 44; 45; 33; 34; 35; 35; 36; 36; 36; 36;
   38; 40; 43; 43; 43; 43; 44; 45; 33; 34; 35; 35; 36; 36; 36; 36; 38; 40; 43; 43; 43; 43; 44; 45; 33; 34;
   35; 35; 36; 36; 36; 36; 38; 40; 43; 43; 43; 43; 44; 45; 34; 35; 36; 37; 37; 37; 37; 37; 39; 42; 44; 44;
   44; 44; 45; 45; 35; 36; 37; 38; 38; 38; 38; 39; 41; 43; 45; 45; 45; 45; 46; 46; 36; 37; 38; 39; 39; 39;
   39; 40; 42; 44; 47; 47; 47; 47; 47; 47; 37; 38; 39; 40; 40; 40; 40; 41; 43; 45; 47; 47; 47; 47; 47; 47;
   37; 38; 39; 40; 40; 40; 40; 41; 43; 45; 47; 47; 47; 47; 47; 47; 37; 38; 39; 40; 40; 40; 40; 41; 43; 45;
   47; 47; 47; 47; 47; 47; 37; 38; 39; 40; 40; 40; 40; 41; 43; 45; 47; 47; 47; 47; 47; 47; 39; 39; 40; 41;
   41; 41; 41; 42; 43; 45; 47; 47; 47; 47; 47; 48; 40; 41; 41; 42; 42; 42; 42; 42; 44; 45; 47; 47; 47; 47;
   47; 48; 42; 42; 42; 43; 43; 43; 43; 43; 44; 46; 47; 47; 47; 47; 48; 48; 42; 42; 42; 43; 43; 43; 43; 43;
   44; 46; 47; 47; 47; 47; 48; 48; 32; 31; 31; 31; 31; 31; 31; 31; 31; 30; 30; 30; 30; 30; 31; 32; 33; 33;
   33; 33; 33; 34; 35; 36; 37; 37; 37; 37; 39; 40; 42; 42; 31; 31; 31; 31; 31; 31; 31; 31; 31; 31; 31; 31;
   31; 31; 31; 32; 33; 34; 34; 34; 34; 35; 36; 37; 38; 38; 38; 38; 39; 41; 42; 42; 31; 31; 31; 31; 31; 31;
   31; 31; 31; 31; 31; 31; 31; 31; 32; 33; 34; 35; 35; 35; 35; 36; 37; 38; 39; 39; 39; 39; 40; 41; 42; 42;
   31; 31; 31; 31; 31; 31; 31; 31; 31; 32; 32; 32; 32; 32; 32; 33; 35; 35; 35; 35; 35; 37; 38; 39; 40; 40;
   40; 40; 41; 42; 43; 43; 31; 31; 31; 31; 31; 31; 31; 31; 32; 32; 32; 32; 32; 32; 33; 34; 35; 36; 36; 36;
   36; 37; 38; 39; 40; 40; 40; 40; 41; 42; 43; 43; 31; 31; 31; 31; 31; 31; 31; 31; 32; 32; 32; 32; 32; 32;
   33; 34; 35; 36; 36; 36; 36; 37; 38; 39; 40; 40; 40; 40; 41; 42; 43; 43; 31; 31; 31; 31; 31; 31; 31; 31;
   32; 32; 32; 32; 32; 32; 33; 34; 35; 36; 36; 36; 36; 37; 38; 39; 40; 40; 40; 40; 41; 42; 43; 43; 31; 31;
   32; 32; 32; 32; 32; 32; 32; 32; 33; 33; 33; 33; 33; 34; 35; 36; 36; 36; 36; 37; 39; 40; 41; 41; 41; 41;
   42; 42; 43; 43; 33; 33; 33; 34; 34; 34; 34; 34; 34; 34; 35; 35; 35; 35; 35; 36; 37; 38; 38; 38; 38; 39;
   41; 42; 43; 43; 43; 43; 43; 44; 44; 44; 35; 35; 35; 36; 36; 36; 36; 36; 36; 37; 37; 37; 37; 37; 38; 39;
   40; 40; 40; 40; 40; 42; 43; 44; 45; 45; 45; 45; 45; 45; 46; 46; 37; 37; 38; 38; 38; 38; 38; 38; 39; 39;
   40; 40; 40; 40; 40; 41; 42; 43; 43; 43; 43; 44; 45; 47; 47; 47; 47; 47; 47; 47; 47; 47; 37; 37; 38; 38;
   38; 38; 38; 38; 39; 39; 40; 40; 40; 40; 40; 41; 42; 43; 43; 43; 43; 44; 45; 47; 47; 47; 47; 47; 47; 47;
   47; 47; 37; 37; 38; 38; 38; 38; 38; 38; 39; 39; 40; 40; 40; 40; 40; 41; 42; 43; 43; 43; 43; 44; 45; 47;
   47; 47; 47; 47; 47; 47; 47; 47; 37; 37; 38; 38; 38; 38; 38; 38; 39; 39; 40; 40; 40; 40; 40; 41; 42; 43;
   43; 43; 43; 44; 45; 47; 47; 47; 47; 47; 47; 47; 47; 47; 38; 39; 39; 40; 40; 40; 40; 40; 40; 40; 41; 41;
   41; 41; 41; 42; 43; 44; 44; 44; 44; 45; 46; 47; 47; 47; 47; 47; 47; 47; 48; 48; 42; 42; 42; 42; 42; 42;
   42; 42; 42; 42; 42; 42; 42; 42; 43; 44; 44; 45; 45; 45; 45; 45; 46; 47; 47; 47; 47; 47; 48; 48; 48; 48;
   31; 31; 35; 37; 31; 31; 35; 38; 31; 31; 36; 38; 31; 31; 36; 38; 31; 32; 36; 39; 31; 32; 37; 40; 31; 32;
   37; 40; 31; 33; 38; 40; 33; 35; 40; 42; 34; 36; 40; 43; 34; 36; 40; 43; 36; 38; 43; 45; 38; 40; 45; 47;
   38; 40; 45; 47; 39; 41; 45; 47; 42; 43; 46; 47; 31; 31; 31; 31; 31; 31; 31; 31; 33; 34; 34; 36; 38; 38;
   39; 42; 31; 31; 31; 31; 32; 32; 32; 33; 35; 36; 36; 38; 40; 40; 41; 43; 35; 35; 36; 36; 36; 37; 37; 38;
   40; 40; 40; 43; 45; 45; 45; 46; 37; 38; 38; 38; 39; 40; 40; 40; 42; 43; 43; 45; 47; 47; 47; 47; 32; 31;
   31; 31; 33; 37; 37; 38; 31; 31; 31; 31; 33; 37; 37; 39; 31; 31; 31; 31; 33; 38; 38; 39; 31; 31; 31; 31;
   34; 38; 38; 40; 31; 31; 31; 31; 34; 38; 38; 40; 31; 31; 31; 31; 34; 38; 38; 40; 31; 31; 31; 31; 34; 38;
   38; 40; 31; 31; 31; 31; 34; 38; 38; 40; 31; 31; 32; 32; 34; 39; 39; 40; 30; 31; 32; 32; 34; 39; 39; 40;
   30; 31; 32; 32; 35; 40; 40; 41; 30; 31; 32; 32; 35; 40; 40; 41; 30; 31; 32; 32; 35; 40; 40; 41; 30; 31;
   32; 32; 35; 40; 40; 41; 31; 32; 33; 33; 35; 40; 40; 41; 32; 33; 34; 34; 36; 41; 41; 42; 33; 34; 35; 35;
   37; 42; 42; 43; 33; 35; 36; 36; 38; 43; 43; 44; 33; 35; 36; 36; 38; 43; 43; 44; 33; 35; 36; 36; 38; 43;
   43; 44; 33; 35; 36; 36; 38; 43; 43; 44; 34; 36; 37; 37; 39; 44; 44; 45; 35; 37; 38; 38; 41; 45; 45; 46;
   36; 38; 39; 39; 42; 47; 47; 47; 37; 39; 40; 40; 43; 47; 47; 47; 37; 39; 40; 40; 43; 47; 47; 47; 37; 39;
   40; 40; 43; 47; 47; 47; 37; 39; 40; 40; 43; 47; 47; 47; 39; 40; 41; 41; 43; 47; 47; 47; 40; 41; 42; 42;
   44; 47; 47; 47; 42; 42; 43; 43; 44; 47; 47; 48; 42; 42; 43; 43; 44; 47; 47; 48; 32; 31; 31; 31; 31; 31;
   31; 31; 31; 30; 30; 30; 30; 30; 31; 32; 33; 33; 33; 33; 33; 34; 35; 36; 37; 37; 37; 37; 39; 40; 42; 42;
   31; 31; 31; 31; 31; 31; 31; 31; 31; 31; 31; 31; 31; 31; 32; 33; 34; 35; 35; 35; 35; 36; 37; 38; 39; 39;
   39; 39; 40; 41; 42; 42; 31; 31; 31; 31; 31; 31; 31; 31; 32; 32; 32; 32; 32; 32; 33; 34; 35; 36; 36; 36;
   36; 37; 38; 39; 40; 40; 40; 40; 41; 42; 43; 43; 31; 31; 31; 31; 31; 31; 31; 31; 32; 32; 32; 32; 32; 32;
   33; 34; 35; 36; 36; 36; 36; 37; 38; 39; 40; 40; 40; 40; 41; 42; 43; 43; 33; 33; 33; 34; 34; 34; 34; 34;
   34; 34; 35; 35; 35; 35; 35; 36; 37; 38; 38; 38; 38; 39; 41; 42; 43; 43; 43; 43; 43; 44; 44; 44; 37; 37;
   38; 38; 38; 38; 38; 38; 39; 39; 40; 40; 40; 40; 40; 41; 42; 43; 43; 43; 43; 44; 45; 47; 47; 47; 47; 47;
   47; 47; 47; 47; 37; 37; 38; 38; 38; 38; 38; 38; 39; 39; 40; 40; 40; 40; 40; 41; 42; 43; 43; 43; 43; 44;
   45; 47; 47; 47; 47; 47; 47; 47; 47; 47; 38; 39; 39; 40; 40; 40; 40; 40; 40; 40; 41; 41; 41; 41; 41; 42;
   43; 44; 44; 44; 44; 45; 46; 47; 47; 47; 47; 47; 47; 47; 48; 48]];
 [[31; 31; 31; 32; 31; 32; 32; 32; 31; 32; 32; 32; 32; 32; 32; 33; 31; 31; 31; 31; 31; 31; 32; 32; 31; 32;
   32; 32; 32; 32; 32; 32; 31; 32; 32; 32; 32; 32; 32; 32; 31; 32; 32; 32; 32; 32; 32; 32; 31; 32; 32; 32;
   32; 32; 32; 32; 31; 32; 32; 32; 32; 32; 32; 32; 32; 32; 32; 32; 32; 32; 33; 33; 32; 32; 32; 32; 32; 32;
   33; 33; 32; 31; 31; 31; 31; 31; 31; 31; 31; 31; 31; 31; 31; 31; 31; 31; 31; 31; 31; 31; 31; 31; 31; 31;
   31; 31; 31; 31; 32; 32; 32; 32; 31; 31; 31; 31; 31; 31; 32; 32; 32; 32; 32; 32; 32; 32; 32; 32; 31; 31;
   31; 32; 32; 32; 32; 32; 32; 32; 32; 32; 32; 32; 32; 32; 31; 31; 31; 32; 32; 32; 32; 32; 32; 32; 32; 32;
   32; 32; 32; 32; 31; 31; 31; 32; 32; 32; 32; 32; 32; 32; 32; 32; 32; 32; 32; 32; 31; 31; 32; 32; 32; 32;
   32; 32; 32; 32; 32; 32; 32; 32; 32; 32; 31; 31; 32; 32; 32; 32; 32; 32; 32; 32; 32; 32; 32; 32; 32; 32;
   31; 31; 32; 32; 32; 32; 32; 32; 32; 32; 32; 32; 32; 32; 32; 32; 31; 31; 32; 32; 32; 32; 32; 32; 32; 32;
   32; 32; 32; 32; 32; 32; 31; 31; 32; 32; 32; 32; 32; 32; 32; 32; 32; 32; 32; 32; 32; 32; 31; 31; 32; 32;
   32; 32; 32; 32; 32; 32; 32; 32; 33; 33; 33; 33; 31; 32; 32; 32; 32; 32; 32; 32; 32; 32; 32; 33; 33; 33;
   33; 33; 31; 32; 32; 32; 32; 32; 32; 32; 32; 32; 32; 33; 33; 33; 33; 33; 31; 32; 32; 32; 32; 32; 32; 32;
   32; 32; 32; 33; 33; 33; 33; 33; 31; 32; 32; 32; 32; 32; 32; 32; 32; 32; 32; 33; 33; 33; 33; 33; 32; 31;
   31; 31; 31; 31; 31; 31; 31; 31; 31; 31; 31; 31; 31; 31; 31; 31; 31; 31; 31; 31; 31; 31; 31; 31; 31; 31;
   31; 31; 31; 32; 31; 31; 31; 31; 31; 31; 31; 31; 31; 31; 31; 31; 31; 31; 31; 31; 31; 31; 31; 31; 31; 31;
   31; 31; 32; 32; 32; 32; 32; 32; 32; 32; 31; 31; 31; 31; 31; 31; 31; 31; 31; 31; 31; 31; 31; 31; 31; 31;
   31; 31; 31; 31; 31; 31; 31; 32; 32; 32; 32; 32; 32; 32; 32; 32; 31; 31; 31; 31; 31; 31; 31; 31; 31; 31;
   31; 31; 31; 31; 31; 31; 31; 31; 31; 31; 31; 32; 32; 32; 32; 32; 32; 32; 32; 32; 32; 32; 31; 31; 31; 31;
   31; 31; 31; 31; 31; 31; 31; 32; 32; 32; 32; 32; 32; 32; 32; 32; 32; 32; 32; 32; 32; 32; 32; 32; 32; 32;
   32; 32; 31; 31; 31; 31; 31; 32; 32; 32; 32; 32; 32; 32; 32; 32; 32; 32; 32; 32; 32; 32; 32; 32; 32; 32;
   32; 32; 32; 32; 32; 32; 32; 32; 31; 31; 31; 31; 31; 32; 32; 32; 32; 32; 32; 32; 32; 32; 32; 32; 32; 32;
   32; 32; 32; 32; 32; 32; 32; 32; 32; 32; 32; 32; 32; 32; 31; 31; 31; 31; 31; 32; 32; 32; 32; 32; 32; 32;
   32; 32; 32; 32; 32; 32; 32; 32; 32; 32; 32; 32; 32; 32; 32; 32; 32; 32; 32; 32; 31; 31; 31; 31; 31; 32;
   32; 32; 32; 32; 32; 32; 32; 32; 32; 32; 32; 32; 32; 32; 32; 32; 32; 32; 32; 32; 32; 32; 32; 32; 32; 32;
   31; 31; 31; 31; 31; 32; 32; 32; 32; 32; 32; 32; 32; 32; 32; 32; 32; 32; 32; 32; 32; 32; 32; 32; 32; 32;
   32; 32; 32; 32; 32; 32; 31; 31; 31; 31; 31; 32; 32; 32; 32; 32; 32; 32; 32; 32; 32; 32; 32; 32; 32; 32;
   32; 32; 32; 32; 32; 32; 32; 32; 32; 32; 32; 32; 31; 31; 31; 31; 32; 32; 32; 32; 32; 32; 32; 32; 32; 32;
   32; 32; 32; 32; 32; 32; 32; 32; 32; 32; 32; 32; 32; 32; 32; 32; 32; 32; 31; 31; 31; 31; 32; 32; 32; 32;
   32; 32; 32; 32; 32; 32; 32; 32; 32; 32; 32; 32; 32; 32; 32; 32; 32; 32; 32; 32; 32; 32; 32; 32; 31; 31;
   31; 31; 32; 32; 32; 32; 32; 32; 32; 32; 32; 32; 32; 32; 32; 32; 32; 32; 32; 32; 32; 32; 32; 32; 32; 32;
   32; 32; 32; 32; 31; 31; 31; 31; 32; 32; 32; 32; 32; 32; 32; 32; 32; 32; 32; 32; 32; 32; 32; 32; 32; 32;
   32; 32; 32; 32; 32; 32; 32; 32; 32; 32; 31; 31; 31; 31; 32; 32; 32; 32; 32; 32; 32; 32; 32; 32; 32; 32;
   32; 32; 32; 32; 32; 32; 32; 32; 32; 32; 32; 32; 32; 32; 32; 32; 31; 31; 31; 31; 32; 32; 32; 32; 32; 32;
   32; 32; 32; 32; 32; 32; 32; 32; 32; 32; 32; 32; 32; 32; 32; 32; 32; 32; 32; 32; 32; 32; 31; 31; 31; 31;
   32; 32; 32; 32; 32; 32; 32; 32; 32; 32; 32; 32; 32; 32; 32; 32; 32; 32; 32; 32; 32; 32; 32; 32; 32; 32;
   32; 32; 31; 31; 31; 31; 32; 32; 32; 32; 32; 32; 32; 32; 32; 32; 32; 32; 32; 32; 32; 32; 32; 32; 32; 32;
   32; 32; 32; 32; 32; 32; 32; 32; 31; 31; 31; 31; 32; 32; 32; 32; 32; 32; 32; 32; 32; 32; 32; 32; 32; 32;
   32; 32; 32; 32; 32; 32; 32; 32; 32; 32; 32; 32; 32; 32; 31; 31; 31; 31; 32; 32; 32; 32; 32; 32; 32; 32;
   32; 32; 32; 32; 32; 32; 32; 32; 32; 32; 32; 32; 32; 32; 32; 32; 32; 32; 32; 32; 31; 31; 31; 32; 32; 32;
   32; 32; 32; 32; 32; 32; 32; 32; 32; 32; 32; 32; 32; 32; 32; 32; 32; 32; 32; 32; 32; 32; 32; 32; 32; 33;
   31; 31; 31; 32; 32; 32; 32; 32; 32; 32; 32; 32; 32; 32; 32; 32; 32; 32; 32; 32; 32; 32; 32; 32; 33; 33;
   33; 33; 33; 33; 33; 33; 31; 31; 32; 32; 32; 32; 32; 32; 32; 32; 32; 32; 32; 32; 32; 32; 32; 32; 32; 32;
   32; 32; 32; 33; 33; 33; 33; 33; 33; 33; 33; 33; 31; 32; 32; 32; 32; 32; 32; 32; 32; 32; 32; 32; 32; 32;
   32; 32; 32; 32; 32; 32; 32; 32; 33; 33; 33; 33; 33; 33; 33; 33; 33; 33; 31; 32; 32; 32; 32; 32; 32; 32;
   32; 32; 32; 32; 32; 32; 32; 32; 32; 32; 32; 32; 32; 32; 33; 33; 33; 33; 33; 33; 33; 33; 33; 33; 31; 32;
   32; 32; 32; 32; 32; 32; 32; 32; 32; 32; 32; 32; 32; 32; 32; 32; 32; 32; 32; 32; 33; 33; 33; 33; 33; 33;
   33; 33; 33; 33; 31; 32; 32; 32; 32; 32; 32; 32; 32; 32; 32; 32; 32; 32; 32; 32; 32; 32; 32; 32; 32; 32;
   33; 33; 33; 33; 33; 33; 33; 33; 33; 33; 31; 32; 32; 32; 32; 32; 32; 32; 32; 32; 32; 32; 32; 32; 32; 32;
   32; 32; 32; 32; 32; 32; 33; 33; 33; 33; 33; 33; 33; 33; 33; 33; 31; 32; 32; 32; 32; 32; 32; 32; 32; 32;
   32; 32; 32; 32; 32; 32; 32; 32; 32; 32; 32; 32; 33; 33; 33; 33; 33; 33; 33; 33; 33; 33; 31; 32; 32; 32;
   32; 32; 32; 32; 32; 32; 32; 32; 32; 32; 32; 32; 32; 32; 32; 32; 32; 32; 33; 33; 33; 33; 33; 33; 33; 33;
   33; 33; 32; 32; 32; 32; 32; 32; 32; 32; 32; 32; 32; 32; 32; 32; 32; 32; 32; 32; 32; 32; 32; 33; 33; 33;
   33; 33; 33; 33; 33; 33; 33; 33; 31; 31; 31; 32; 31; 32; 32; 32; 31; 32; 32; 32; 31; 32; 32; 32; 31; 32;
   32; 32; 31; 32; 32; 33; 32; 32; 32; 33; 32; 32; 32; 33; 31; 31; 31; 31; 31; 31; 32; 32; 31; 32; 32; 32;
   32; 32; 32; 32; 31; 32; 32; 32; 32; 32; 32; 32; 32; 32; 32; 32; 32; 33; 33; 33; 32; 31; 31; 31; 31; 31;
   31; 32; 31; 31; 31; 31; 31; 31; 32; 32; 31; 31; 32; 32; 32; 32; 32; 32; 31; 32; 32; 32; 32; 32; 32; 32;
   31; 32; 32; 32; 32; 32; 32; 32; 31; 32; 32; 32; 32; 32; 32; 32; 31; 32; 32; 32; 32; 32; 32; 32; 31; 32;
   32; 32; 32; 32; 32; 32; 31; 32; 32; 32; 32; 32; 32; 32; 31; 32; 32; 32; 32; 32; 32; 32; 31; 32; 32; 32;
   32; 32; 32; 32; 31; 32; 32; 32; 32; 32; 33; 33; 31; 32; 32; 32; 32; 32; 33; 33; 32; 32; 32; 32; 32; 32;
   33; 34; 32; 32; 32; 32; 32; 32; 33; 34; 32; 32; 32; 32; 32; 32; 33; 34; 32; 31; 31; 31; 31; 31; 31; 31;
   31; 31; 31; 31; 31; 32; 32; 32; 31; 31; 31; 32; 32; 32; 32; 32; 32; 32; 32; 32; 32; 32; 32; 32; 31; 31;
   32; 32; 32; 32; 32; 32; 32; 32; 32; 32; 32; 32; 32; 32; 31; 31; 32; 32; 32; 32; 32; 32; 32; 32; 32; 32;
   32; 32; 32; 32; 31; 31; 32; 32; 32; 32; 32; 32; 32; 32; 32; 32; 32; 32; 32; 32; 31; 31; 32; 32; 32; 32;
   32; 32; 32; 32; 32; 32; 32; 32; 32; 32; 31; 32; 32; 32; 32; 32; 32; 32; 32; 32; 32; 33; 33; 33; 33; 33;
   32; 32; 32; 32; 32; 32; 32; 32; 32; 32; 32; 33; 33; 34; 34; 34; 32; 31; 31; 31; 31; 31; 31; 31; 31; 31;
   31; 31; 31; 32; 32; 32; 31; 31; 31; 31; 31; 31; 31; 31; 31; 31; 31; 31; 32; 32; 32; 32; 31; 31; 31; 31;
   31; 31; 31; 31; 31; 31; 31; 32; 32; 32; 32; 32; 31; 31; 31; 31; 32; 32; 32; 32; 32; 32; 32; 32; 32; 32;
   32; 32; 31; 31; 31; 32; 32; 32; 32; 32; 32; 32; 32; 32; 32; 32; 32; 32; 31; 31; 32; 32; 32; 32; 32; 32;
   32; 32; 32; 32; 32; 32; 32; 32; 31; 31; 32; 32; 32; 32; 32; 32; 32; 32; 32; 32; 32; 32; 32; 32; 31; 31;
   32; 32; 32; 32; 32; 32; 32; 32; 32; 32; 32; 32; 32; 32; 31; 31; 32; 32; 32; 32; 32; 32; 32; 32; 32; 32;
   32; 32; 32; 32; 31; 31; 32; 32; 32; 32; 32; 32; 32; 32; 32; 32; 32; 32; 32; 32; 31; 31; 32; 32; 32; 32;
   32; 32; 32; 32; 32; 32; 32; 32; 32; 32; 31; 31; 32; 32; 32; 32; 32; 32; 32; 32; 32; 32; 32; 32; 32; 32;
   31; 31; 32; 32; 32; 32; 32; 32; 32; 32; 32; 32; 32; 32; 32; 32; 31; 31; 32; 32; 32; 32; 32; 32; 32; 32;
   32; 32; 32; 32; 32; 32; 31; 31; 32; 32; 32; 32; 32; 32; 32; 32; 32; 32; 32; 32; 32; 32; 31; 31; 32; 32;
   32; 32; 32; 32; 32; 32; 32; 32; 32; 32; 32; 33; 31; 31; 32; 32; 32; 32; 32; 32; 32; 32; 32; 32; 32; 32;
   32; 33; 31; 31; 32; 32; 32; 32; 32; 32; 32; 32; 32; 32; 32; 32; 32; 33; 31; 31; 32; 32; 32; 32; 32; 32;
   32; 32; 32; 32; 32; 32; 32; 33; 31; 31; 32; 32; 32; 32; 32; 32; 32; 32; 32; 32; 32; 32; 32; 33; 31; 31;
   32; 32; 32; 32; 32; 32; 32; 32; 32; 32; 32; 32; 32; 33; 31; 31; 32; 32; 32; 32; 32; 32; 32; 32; 32; 32;
   32; 33; 33; 33; 31; 32; 32; 32; 32; 32; 32; 32; 32; 32; 32; 32; 33; 33; 33; 33; 31; 32; 32; 32; 32; 32;
   32; 32; 32; 32; 32; 32; 33; 33; 33; 33; 31; 32; 32; 32; 32; 32; 32; 32; 32; 32; 32; 33; 33; 33; 33; 34;
   32; 32; 32; 32; 32; 32; 32; 32; 32; 32; 32; 33; 33; 33; 34; 34; 32; 32; 32; 32; 32; 32; 32; 32; 32; 32;
   32; 33; 33; 33; 34; 34; 32; 32; 32; 32; 32; 32; 32; 32; 32; 32; 32; 33; 33; 33; 34; 34; 32; 32; 32; 32;
   32; 32; 32; 32; 32; 32; 32; 33; 33; 33; 34; 34; 32; 32; 32; 32; 32; 32; 32; 32; 32; 32; 32; 33; 33; 33;
   34; 34; 32; 32; 32; 32; 32; 32; 32; 32; 32; 32; 32; 33; 33; 33; 34; 34; 32; 32; 32; 32; 32; 32; 32; 32;
   32; 32; 32; 33; 33; 33; 34; 34; 32; 31; 31; 31; 31; 31; 31; 31; 31; 31; 31; 31; 31; 31; 31; 31; 31; 31;
   31; 31; 31; 31; 31; 31; 31; 32; 32; 32; 32; 32; 32; 32; 31; 31; 31; 31; 31; 31; 31; 31; 31; 31; 31; 31;
   31; 31; 31; 31; 31; 31; 31; 31; 31; 31; 32; 32; 32; 32; 32; 32; 32; 32; 32; 32; 31; 31; 31; 31; 31; 32;
   32; 32; 32; 32; 32; 32; 32; 32; 32; 32; 32; 32; 32; 32; 32; 32; 32; 32; 32; 32; 32; 32; 32; 32; 32; 32;
   31; 31; 31; 31; 32; 32; 32; 32; 32; 32; 32; 32; 32; 32; 32; 32; 32; 32; 32; 32; 32; 32; 32; 32; 32; 32;
   32; 32; 32; 32; 32; 32; 31; 31; 31; 32; 32; 32; 32; 32; 32; 32; 32; 32; 32; 32; 32; 32; 32; 32; 32; 32;
   32; 32; 32; 32; 32; 32; 32; 32; 32; 32; 32; 32; 31; 31; 31; 32; 32; 32; 32; 32; 32; 32; 32; 32; 32; 32;
   32; 32; 32; 32; 32; 32; 32; 32; 32; 32; 32; 32; 32; 32; 32; 32; 32; 32; 31; 31; 31; 32; 32; 32; 32; 32;
   32; 32; 32; 32; 32; 32; 32; 32; 32; 32; 32; 32; 32; 32; 32; 32; 32; 32; 32; 32; 32; 32; 32; 32; 31; 31;
   31; 32; 32; 32; 32; 32; 32; 32; 32; 32; 32; 32; 32; 32; 32; 32; 32; 32; 32; 32; 32; 32; 32; 32; 32; 32;
   32; 32; 32; 32; 31; 31; 31; 32; 32; 32; 32; 32; 32; 32; 32; 32; 32; 32; 32; 32; 32; 32; 32; 32; 32; 32;
   32; 32; 32; 32; 32; 32; 32; 32; 32; 32; 31; 31; 31; 32; 32; 32; 32; 32; 32; 32; 32; 32; 32; 32; 32; 32;
   32; 32; 32; 32; 32; 32; 32; 32; 32; 32; 32; 32; 32; 32; 32; 32; 31; 31; 31; 32; 32; 32; 32; 32; 32; 32;
   32; 32; 32; 32; 32; 32; 32; 32; 32; 32; 32; 32; 32; 32; 32; 32; 32; 32; 32; 32; 32; 32; 31; 31; 32; 32;
   32; 32; 32; 32; 32; 32; 32; 32; 32; 32; 32; 32; 32; 32; 32; 32; 32; 32; 32; 32; 33; 33; 33; 33; 33; 33;
   33; 33; 31; 32; 32; 32; 32; 32; 32; 32; 32; 32; 32; 32; 32; 32; 32; 32; 32; 32; 32; 32; 32; 32; 33; 33;
   33; 33; 33; 33; 33; 33; 33; 33; 32; 32; 32; 32; 32; 32; 32; 32; 32; 32; 32; 32; 32; 32; 32; 32; 32; 32;
   32; 32; 32; 33; 33; 33; 33; 33; 33; 33; 33; 33; 33; 33; 32; 32; 32; 32; 32; 32; 32; 32; 32; 32; 32; 32;
   32; 32; 32; 32; 32; 32; 32; 32; 32; 33; 33; 33; 33; 34; 34; 34; 34; 34; 34; 34; 32; 32; 32; 32; 32; 32;
   32; 32; 32; 32; 32; 32; 32; 32; 32; 33; 33; 33; 33; 33; 33; 33; 33; 33; 34; 34; 34; 34; 34; 34; 34; 34;
   31; 31; 31; 32; 31; 31; 31; 32; 31; 32; 32; 32; 31; 32; 32; 32; 31; 32; 32; 32; 31; 32; 32; 32; 31; 32;
   32; 32; 31; 32; 32; 32; 31; 32; 32; 32; 31; 32; 32; 32; 31; 32; 32; 32; 32; 32; 32; 33; 32; 32; 32; 33;
   32; 32; 32; 33; 32; 32; 32; 33; 32; 32; 32; 33; 31; 31; 31; 31; 31; 31; 31; 31; 31; 31; 31; 32; 32; 32;
   32; 32; 31; 31; 32; 32; 32; 32; 32; 32; 32; 32; 32; 32; 32; 32; 32; 32; 31; 31; 32; 32; 32; 32; 32; 32;
   32; 32; 32; 32; 32; 32; 32; 32; 32; 32; 32; 32; 32; 32; 32; 32; 32; 32; 32; 33; 33; 33; 33; 33; 32; 31;
   31; 31; 31; 31; 31; 32; 31; 31; 31; 31; 31; 31; 32; 32; 31; 31; 31; 31; 31; 31; 32; 32; 31; 31; 32; 32;
   32; 32; 32; 32; 31; 31; 32; 32; 32; 32; 32; 32; 31; 32; 32; 32; 32; 32; 32; 32; 31; 32; 32; 32; 32; 32;
   32; 32; 31; 32; 32; 32; 32; 32; 32; 32; 31; 32; 32; 32; 32; 32; 32; 32; 31; 32; 32; 32; 32; 32; 32; 32;
   31; 32; 32; 32; 32; 32; 32; 32; 31; 32; 32; 32; 32; 32; 32; 32; 31; 32; 32; 32; 32; 32; 32; 32; 31; 32;
   32; 32; 32; 32; 32; 32; 31; 32; 32; 32; 32; 32; 32; 32; 31; 32; 32; 32; 32; 32; 32; 32; 31; 32; 32; 32;
   32; 32; 32; 32; 31; 32; 32; 32; 32; 32; 32; 32; 31; 32; 32; 32; 32; 32; 32; 32; 31; 32; 32; 32; 32; 32;
   32; 32; 31; 32; 32; 32; 32; 32; 32; 32; 31; 32; 32; 32; 32; 32; 32; 33; 31; 32; 32; 32; 32; 32; 33; 33;
   31; 32; 32; 32; 32; 32; 33; 33; 31; 32; 32; 32; 32; 32; 33; 33; 32; 32; 32; 32; 32; 32; 33; 34; 32; 32;
   32; 32; 32; 32; 33; 34; 32; 32; 32; 32; 32; 32; 33; 34; 32; 32; 32; 32; 32; 32; 33; 34; 32; 32; 32; 32;
   32; 32; 33; 34; 32; 32; 32; 32; 32; 32; 33; 34; 32; 32; 32; 32; 32; 32; 33; 34; 32; 31; 31; 31; 31; 31;
   31; 31; 31; 31; 31; 31; 31; 31; 31; 31; 31; 31; 31; 31; 31; 31; 31; 31; 31; 32; 32; 32; 32; 32; 32; 32;
   31; 31; 31; 31; 31; 32; 32; 32; 32; 32; 32; 32; 32; 32; 32; 32; 32; 32; 32; 32; 32; 32; 32; 32; 32; 32;
   32; 32; 32; 32; 32; 32; 31; 31; 31; 32; 32; 32; 32; 32; 32; 32; 32; 32; 32; 32; 32; 32; 32; 32; 32; 32;
   32; 32; 32; 32; 32; 32; 32; 32; 32; 32; 32; 32; 31; 31; 31; 32; 32; 32; 32; 32; 32; 32; 32; 32; 32; 32;
   32; 32; 32; 32; 32; 32; 32; 32; 32; 32; 32; 32; 32; 32; 32; 32; 32; 32; 31; 31; 31; 32; 32; 32; 32; 32;
   32; 32; 32; 32; 32; 32; 32; 32; 32; 32; 32; 32; 32; 32; 32; 32; 32; 32; 32; 32; 32; 32; 32; 32; 31; 31;
   31; 32; 32; 32; 32; 32; 32; 32; 32; 32; 32; 32; 32; 32; 32; 32; 32; 32; 32; 32; 32; 32; 32; 32; 32; 32;
   32; 32; 32; 32; 31; 32; 32; 32; 32; 32; 32; 32; 32; 32; 32; 32; 32; 32; 32; 32; 32; 32; 32; 32; 32; 32;
   33; 33; 33; 33; 33; 33; 33; 33; 33; 33; 32; 32; 32; 32; 32; 32; 32; 32; 32; 32; 32; 32; 32; 32; 32; 32;
   32; 32; 32; 32; 32; 33; 33; 33; 33; 34; 34; 34; 34; 34; 34; 34];
 [31; 31; 31; 34; 31; 31; 31; 35; 31; 31; 32; 35; 34; 35; 35; 39; 31; 31; 31; 31; 30; 31; 33; 33; 31; 31;
   31; 31; 31; 32; 34; 34; 31; 31; 31; 31; 31; 32; 34; 34; 31; 31; 31; 31; 31; 32; 35; 35; 30; 31; 31; 31;
   32; 32; 35; 35; 31; 32; 32; 32; 32; 33; 36; 36; 33; 34; 34; 35; 35; 36; 39; 39; 33; 34; 34; 35; 35; 36;
   39; 39; 32; 31; 31; 31; 31; 31; 31; 30; 30; 30; 30; 31; 33; 33; 33; 33; 31; 31; 31; 31; 31; 31; 31; 31;
   30; 30; 30; 32; 33; 34; 34; 34; 31; 31; 31; 31; 31; 31; 31; 31; 31; 31; 31; 32; 33; 34; 34; 34; 31; 31;
   31; 31; 31; 31; 31; 31; 31; 31; 31; 32; 34; 34; 34; 34; 31; 31; 31; 31; 31; 31; 31; 31; 31; 31; 31; 32;
   34; 34; 34; 34; 31; 31; 31; 31; 31; 31; 31; 31; 31; 31; 31; 32; 34; 34; 34; 34; 31; 31; 31; 31; 31; 31;
   31; 31; 31; 31; 31; 33; 34; 35; 35; 35; 30; 31; 31; 31; 31; 31; 31; 31; 31; 31; 31; 33; 34; 35; 35; 35;
   30; 30; 31; 31; 31; 31; 31; 31; 32; 32; 32; 33; 34; 35; 35; 35; 30; 30; 31; 31; 31; 31; 31; 31; 32; 32;
   32; 33; 34; 35; 35; 35; 30; 30; 31; 31; 31; 31; 31; 31; 32; 32; 32; 33; 34; 35; 35; 35; 31; 32; 32; 32;
   32; 32; 33; 33; 33; 33; 33; 34; 36; 37; 37; 37; 33; 33; 33; 34; 34; 34; 34; 34; 34; 34; 34; 36; 37; 38;
   38; 38; 33; 34; 34; 34; 34; 34; 35; 35; 35; 35; 35; 37; 38; 39; 39; 39; 33; 34; 34; 34; 34; 34; 35; 35;
   35; 35; 35; 37; 38; 39; 39; 39; 33; 34; 34; 34; 34; 34; 35; 35; 35; 35; 35; 37; 38; 39; 39; 39; 32; 31;
   31; 31; 31; 31; 31; 31; 31; 31; 31; 31; 31; 30; 30; 30; 30; 30; 30; 30; 30; 31; 31; 32; 33; 33; 33; 33;
   33; 33; 33; 34; 31; 31; 31; 31; 31; 31; 31; 31; 31; 31; 31; 31; 31; 31; 30; 30; 30; 30; 30; 30; 30; 31;
   31; 32; 33; 33; 33; 33; 33; 33; 33; 34; 31; 31; 31; 31; 31; 31; 31; 31; 31; 31; 31; 31; 31; 31; 31; 30;
   30; 30; 30; 30; 30; 31; 32; 32; 33; 34; 34; 34; 34; 34; 34; 34; 31; 31; 31; 31; 31; 31; 31; 31; 31; 31;
   31; 31; 31; 31; 31; 31; 31; 31; 31; 31; 31; 31; 32; 33; 33; 34; 34; 34; 34; 34; 34; 35; 31; 31; 31; 31;
   31; 31; 31; 31; 31; 31; 31; 31; 31; 31; 31; 31; 31; 31; 31; 31; 31; 31; 32; 33; 33; 34; 34; 34; 34; 34;
   34; 35; 31; 31; 31; 31; 31; 31; 31; 31; 31; 31; 31; 31; 31; 31; 31; 31; 31; 31; 31; 31; 31; 32; 32; 33;
   34; 34; 34; 34; 34; 34; 34; 35; 31; 31; 31; 31; 31; 31; 31; 31; 31; 31; 31; 31; 31; 31; 31; 31; 31; 31;
   31; 31; 31; 32; 32; 33; 34; 34; 34; 34; 34; 34; 34; 35; 31; 31; 31; 31; 31; 31; 31; 31; 31; 31; 31; 31;
   31; 31; 31; 31; 31; 31; 31; 31; 31; 32; 32; 33; 34; 34; 34; 34; 34; 34; 34; 35; 31; 31; 31; 31; 31; 31;
   31; 31; 31; 31; 31; 31; 31; 31; 31; 31; 31; 31; 31; 31; 31; 32; 32; 33; 34; 34; 34; 34; 34; 34; 34; 35;
   31; 31; 31; 31; 31; 31; 31; 31; 31; 31; 31; 31; 31; 31; 31; 31; 31; 31; 31; 31; 31; 32; 32; 33; 34; 34;
   34; 34; 34; 34; 34; 35; 31; 31; 31; 31; 31; 31; 31; 31; 31; 31; 31; 31; 31; 31; 31; 31; 31; 31; 31; 31;
   31; 32; 32; 33; 34; 34; 34; 34; 34; 34; 34; 35; 31; 31; 31; 31; 31; 31; 31; 31; 31; 31; 31; 31; 31; 31;
   31; 31; 31; 31; 31; 31; 31; 32; 32; 33; 34; 35; 35; 35; 35; 35; 35; 35; 31; 31; 31; 31; 31; 31; 31; 31;
   31; 31; 31; 31; 31; 31; 31; 31; 31; 31; 31; 31; 31; 32; 33; 33; 34; 35; 35; 35; 35; 35; 35; 35; 30; 31;
   31; 31; 31; 31; 31; 31; 31; 31; 31; 31; 31; 31; 31; 31; 31; 31; 31; 31; 31; 32; 33; 33; 34; 35; 35; 35;
   35; 35; 35; 36; 30; 30; 31; 31; 31; 31; 31; 31; 31; 31; 31; 31; 31; 31; 31; 31; 31; 31; 31; 31; 31; 32;
   33; 34; 34; 35; 35; 35; 35; 35; 35; 36; 30; 30; 30; 31; 31; 31; 31; 31; 31; 31; 31; 31; 31; 31; 31; 32;
   32; 32; 32; 32; 32; 32; 33; 34; 34; 35; 35; 35; 35; 35; 35; 36; 30; 30; 30; 31; 31; 31; 31; 31; 31; 31;
   31; 31; 31; 31; 31; 32; 32; 32; 32; 32; 32; 32; 33; 34; 34; 35; 35; 35; 35; 35; 35; 36; 30; 30; 30; 31;
   31; 31; 31; 31; 31; 31; 31; 31; 31; 31; 31; 32; 32; 32; 32; 32; 32; 32; 33; 34; 34; 35; 35; 35; 35; 35;
   35; 36; 30; 30; 30; 31; 31; 31; 31; 31; 31; 31; 31; 31; 31; 31; 31; 32; 32; 32; 32; 32; 32; 32; 33; 34;
   34; 35; 35; 35; 35; 35; 35; 36; 30; 30; 30; 31; 31; 31; 31; 31; 31; 31; 31; 31; 31; 31; 31; 32; 32; 32;
   32; 32; 32; 32; 33; 34; 34; 35; 35; 35; 35; 35; 35; 36; 30; 30; 30; 31; 31; 31; 31; 31; 31; 31; 31; 31;
   31; 31; 31; 32; 32; 32; 32; 32; 32; 32; 33; 34; 34; 35; 35; 35; 35; 35; 35; 36; 31; 31; 31; 31; 31; 32;
   32; 32; 32; 32; 32; 32; 32; 32; 32; 32; 32; 32; 32; 32; 32; 33; 34; 34; 35; 36; 36; 36; 36; 36; 36; 37;
   31; 31; 32; 32; 32; 32; 32; 32; 32; 32; 32; 32; 33; 33; 33; 33; 33; 33; 33; 33; 33; 34; 34; 35; 36; 37;
   37; 37; 37; 37; 37; 37; 32; 32; 32; 33; 33; 33; 33; 33; 33; 33; 33; 33; 33; 33; 34; 34; 34; 34; 34; 34;
   34; 34; 35; 36; 37; 37; 37; 37; 37; 37; 37; 38; 33; 33; 33; 33; 33; 34; 34; 34; 34; 34; 34; 34; 34; 34;
   34; 34; 34; 34; 34; 34; 34; 35; 36; 37; 37; 38; 38; 38; 38; 38; 38; 39; 33; 33; 34; 34; 34; 34; 34; 34;
   34; 34; 34; 35; 35; 35; 35; 35; 35; 35; 35; 35; 35; 36; 37; 37; 38; 39; 39; 39; 39; 39; 39; 40; 33; 33;
   34; 34; 34; 34; 34; 34; 34; 34; 34; 35; 35; 35; 35; 35; 35; 35; 35; 35; 35; 36; 37; 37; 38; 39; 39; 39;
   39; 39; 39; 40; 33; 33; 34; 34; 34; 34; 34; 34; 34; 34; 34; 35; 35; 35; 35; 35; 35; 35; 35; 35; 35; 36;
   37; 37; 38; 39; 39; 39; 39; 39; 39; 40; 33; 33; 34; 34; 34; 34; 34; 34; 34; 34; 34; 35; 35; 35; 35; 35;
   35; 35; 35; 35; 35; 36; 37; 37; 38; 39; 39; 39; 39; 39; 39; 40; 33; 33; 34; 34; 34; 34; 34; 34; 34; 34;
   34; 35; 35; 35; 35; 35; 35; 35; 35; 35; 35; 36; 37; 37; 38; 39; 39; 39; 39; 39; 39; 40; 33; 33; 34; 34;
   34; 34; 34; 34; 34; 34; 34; 35; 35; 35; 35; 35; 35; 35; 35; 35; 35; 36; 37; 37; 38; 39; 39; 39; 39; 39;
   39; 40; 34; 34; 34; 35; 35; 35; 35; 35; 35; 35; 35; 35; 35; 36; 36; 36; 36; 36; 36; 36; 36; 37; 37; 38;
   39; 40; 40; 40; 40; 40; 40; 40; 31; 31; 31; 34; 31; 31; 31; 35; 31; 31; 31; 35; 31; 32; 32; 36; 31; 32;
   32; 36; 31; 33; 33; 37; 34; 36; 36; 40; 34; 36; 36; 40; 31; 31; 31; 31; 31; 31; 34; 34; 31; 31; 31; 32;
   32; 33; 36; 36; 31; 31; 31; 32; 32; 33; 36; 36; 34; 35; 35; 36; 36; 37; 40; 40; 32; 31; 31; 31; 31; 31;
   33; 35; 31; 31; 31; 31; 31; 31; 33; 36; 31; 31; 31; 31; 31; 31; 34; 36; 31; 31; 31; 31; 31; 31; 34; 37;
   31; 31; 31; 31; 31; 31; 34; 37; 31; 31; 31; 31; 31; 31; 34; 37; 31; 31; 31; 32; 32; 32; 34; 37; 30; 31;
   31; 32; 32; 32; 34; 38; 30; 31; 32; 32; 32; 32; 35; 38; 30; 31; 32; 32; 32; 32; 35; 38; 30; 31; 32; 32;
   32; 32; 35; 38; 31; 32; 33; 33; 33; 33; 36; 39; 33; 34; 34; 35; 35; 35; 37; 40; 33; 34; 35; 36; 36; 36;
   38; 41; 33; 34; 35; 36; 36; 36; 38; 41; 33; 34; 35; 36; 36; 36; 38; 41; 32; 31; 31; 31; 31; 31; 31; 30;
   30; 30; 30; 31; 33; 33; 33; 33; 31; 31; 31; 31; 31; 31; 31; 31; 31; 31; 31; 32; 34; 34; 34; 34; 31; 31;
   31; 31; 31; 31; 31; 31; 32; 32; 32; 33; 34; 35; 35; 35; 31; 31; 31; 31; 31; 31; 32; 32; 32; 32; 32; 33;
   35; 36; 36; 36; 31; 31; 31; 31; 31; 31; 32; 32; 32; 32; 32; 33; 35; 36; 36; 36; 31; 31; 31; 31; 31; 31;
   32; 32; 32; 32; 32; 33; 35; 36; 36; 36; 33; 33; 34; 34; 34; 34; 34; 34; 35; 35; 35; 36; 37; 38; 38; 38;
   35; 36; 36; 37; 37; 37; 37; 38; 38; 38; 38; 39; 40; 41; 41; 41; 32; 31; 31; 31; 31; 31; 31; 31; 31; 31;
   31; 32; 33; 34; 35; 37; 31; 31; 31; 31; 31; 31; 31; 31; 31; 31; 31; 32; 33; 34; 35; 37; 31; 31; 31; 31;
   31; 31; 31; 31; 31; 31; 31; 32; 33; 34; 36; 37; 31; 31; 31; 31; 31; 31; 31; 31; 31; 31; 31; 32; 33; 35;
   36; 38; 31; 31; 31; 31; 31; 31; 31; 31; 31; 31; 31; 32; 34; 35; 36; 38; 31; 31; 31; 31; 31; 31; 31; 31;
   31; 31; 31; 33; 34; 35; 37; 38; 31; 31; 31; 31; 31; 31; 31; 31; 31; 31; 31; 33; 34; 35; 37; 38; 31; 31;
   31; 31; 31; 31; 31; 31; 31; 31; 31; 33; 34; 35; 37; 38; 31; 31; 31; 31; 31; 31; 31; 31; 31; 31; 31; 33;
   34; 35; 37; 38; 31; 31; 31; 31; 31; 31; 31; 31; 31; 31; 31; 33; 34; 35; 37; 38; 31; 31; 31; 31; 31; 31;
   31; 31; 31; 31; 31; 33; 34; 35; 37; 38; 31; 31; 31; 31; 31; 31; 31; 31; 31; 31; 31; 33; 34; 35; 37; 38;
   31; 31; 31; 31; 31; 32; 32; 32; 32; 32; 32; 33; 34; 36; 37; 39; 31; 31; 31; 31; 31; 32; 32; 32; 32; 32;
   32; 33; 34; 36; 37; 39; 30; 31; 31; 31; 31; 32; 32; 32; 32; 32; 32; 33; 34; 36; 38; 39; 30; 31; 31; 31;
   32; 32; 32; 32; 32; 32; 32; 33; 35; 36; 38; 40; 30; 31; 31; 31; 32; 32; 32; 32; 32; 32; 32; 33; 35; 36;
   38; 40; 30; 31; 31; 31; 32; 32; 32; 32; 32; 32; 32; 33; 35; 36; 38; 40; 30; 31; 31; 31; 32; 32; 32; 32;
   32; 32; 32; 33; 35; 36; 38; 40; 30; 31; 31; 31; 32; 32; 32; 32; 32; 32; 32; 33; 35; 36; 38; 40; 30; 31;
   31; 31; 32; 32; 32; 32; 32; 32; 32; 33; 35; 36; 38; 40; 31; 31; 31; 32; 32; 33; 33; 33; 33; 33; 33; 34;
   35; 37; 38; 40; 31; 32; 32; 33; 33; 33; 33; 33; 33; 33; 33; 35; 36; 37; 39; 41; 32; 32; 33; 33; 34; 34;
   34; 34; 34; 34; 34; 35; 37; 38; 40; 41; 33; 33; 34; 34; 34; 35; 35; 35; 35; 35; 35; 36; 37; 39; 40; 42;
   33; 34; 34; 35; 35; 36; 36; 36; 36; 36; 36; 37; 38; 40; 41; 43; 33; 34; 34; 35; 35; 36; 36; 36; 36; 36;
   36; 37; 38; 40; 41; 43; 33; 34; 34; 35; 35; 36; 36; 36; 36; 36; 36; 37; 38; 40; 41; 43; 33; 34; 34; 35;
   35; 36; 36; 36; 36; 36; 36; 37; 38; 40; 41; 43; 33; 34; 34; 35; 35; 36; 36; 36; 36; 36; 36; 37; 38; 40;
   41; 43; 33; 34; 34; 35; 35; 36; 36; 36; 36; 36; 36; 37; 38; 40; 41; 43; 34; 34; 35; 35; 36; 36; 36; 36;
   36; 36; 36; 38; 39; 40; 42; 44; 32; 31; 31; 31; 31; 31; 31; 31; 31; 31; 31; 31; 31; 31; 30; 30; 30; 30;
   30; 30; 30; 31; 31; 32; 33; 33; 33; 33; 33; 33; 33; 34; 31; 31; 31; 31; 31; 31; 31; 31; 31; 31; 31; 31;
   31; 31; 31; 31; 31; 31; 31; 31; 31; 31; 32; 32; 33; 34; 34; 34; 34; 34; 34; 34; 31; 31; 31; 31; 31; 31;
   31; 31; 31; 31; 31; 31; 31; 31; 31; 31; 31; 31; 31; 31; 31; 31; 32; 33; 34; 34; 34; 34; 34; 34; 34; 35;
   31; 31; 31; 31; 31; 31; 31; 31; 31; 31; 31; 31; 31; 31; 31; 31; 31; 31; 31; 31; 31; 32; 33; 33; 34; 35;
   35; 35; 35; 35; 35; 35; 31; 31; 31; 31; 31; 31; 31; 31; 31; 31; 31; 31; 31; 31; 31; 32; 32; 32; 32; 32;
   32; 32; 33; 34; 34; 35; 35; 35; 35; 35; 35; 36; 31; 31; 31; 31; 31; 31; 31; 31; 31; 31; 31; 31; 32; 32;
   32; 32; 32; 32; 32; 32; 32; 33; 33; 34; 35; 36; 36; 36; 36; 36; 36; 36; 31; 31; 31; 31; 31; 31; 31; 31;
   31; 31; 31; 31; 32; 32; 32; 32; 32; 32; 32; 32; 32; 33; 33; 34; 35; 36; 36; 36; 36; 36; 36; 36; 31; 31;
   31; 31; 31; 31; 31; 31; 31; 31; 31; 31; 32; 32; 32; 32; 32; 32; 32; 32; 32; 33; 33; 34; 35; 36; 36; 36;
   36; 36; 36; 36; 31; 31; 31; 31; 31; 31; 31; 31; 31; 31; 31; 31; 32; 32; 32; 32; 32; 32; 32; 32; 32; 33;
   33; 34; 35; 36; 36; 36; 36; 36; 36; 36; 31; 31; 31; 31; 31; 31; 31; 31; 31; 31; 31; 31; 32; 32; 32; 32;
   32; 32; 32; 32; 32; 33; 33; 34; 35; 36; 36; 36; 36; 36; 36; 36; 31; 31; 31; 31; 31; 31; 31; 31; 31; 31;
   31; 31; 32; 32; 32; 32; 32; 32; 32; 32; 32; 33; 33; 34; 35; 36; 36; 36; 36; 36; 36; 36; 32; 32; 32; 32;
   32; 33; 33; 33; 33; 33; 33; 33; 33; 33; 33; 33; 33; 33; 33; 33; 33; 34; 35; 35; 36; 37; 37; 37; 37; 37;
   37; 38; 33; 33; 33; 33; 34; 34; 34; 34; 34; 34; 34; 34; 34; 34; 34; 35; 35; 35; 35; 35; 35; 35; 36; 37;
   37; 38; 38; 38; 38; 38; 38; 39; 34; 34; 34; 35; 35; 35; 35; 35; 35; 35; 35; 35; 36; 36; 36; 36; 36; 36;
   36; 36; 36; 37; 37; 38; 39; 40; 40; 40; 40; 40; 40; 40; 35; 35; 36; 36; 36; 37; 37; 37; 37; 37; 37; 37;
   37; 37; 38; 38; 38; 38; 38; 38; 38; 38; 39; 40; 40; 41; 41; 41; 41; 41; 41; 42; 37; 37; 37; 38; 38; 38;
   38; 38; 38; 38; 38; 38; 39; 39; 39; 40; 40; 40; 40; 40; 40; 40; 41; 41; 42; 43; 43; 43; 43; 43; 43; 44;
   31; 31; 31; 34; 31; 31; 31; 34; 31; 31; 31; 35; 31; 31; 31; 35; 31; 31; 31; 35; 31; 31; 31; 35; 31; 32;
   32; 36; 31; 32; 32; 36; 31; 32; 32; 36; 31; 32; 32; 36; 31; 32; 32; 36; 32; 33; 33; 37; 33; 35; 35; 39;
   34; 36; 36; 40; 34; 36; 36; 40; 34; 36; 36; 40; 31; 31; 31; 31; 31; 31; 31; 31; 31; 31; 31; 32; 33; 34;
   34; 34; 31; 31; 31; 31; 31; 31; 32; 32; 32; 32; 32; 33; 35; 36; 36; 36; 31; 31; 31; 31; 31; 31; 32; 32;
   32; 32; 32; 33; 35; 36; 36; 36; 34; 34; 35; 35; 35; 35; 36; 36; 36; 36; 36; 37; 39; 40; 40; 40; 32; 31;
   31; 31; 31; 31; 33; 35; 31; 31; 31; 31; 31; 31; 33; 35; 31; 31; 31; 31; 31; 31; 33; 36; 31; 31; 31; 31;
   31; 31; 33; 36; 31; 31; 31; 31; 31; 31; 34; 36; 31; 31; 31; 31; 31; 31; 34; 37; 31; 31; 31; 31; 31; 31;
   34; 37; 31; 31; 31; 31; 31; 31; 34; 37; 31; 31; 31; 31; 31; 31; 34; 37; 31; 31; 31; 31; 31; 31; 34; 37;
   31; 31; 31; 31; 31; 31; 34; 37; 31; 31; 31; 31; 31; 31; 34; 37; 31; 31; 31; 32; 32; 32; 34; 37; 31; 31;
   31; 32; 32; 32; 34; 37; 30; 31; 31; 32; 32; 32; 34; 38; 30; 31; 32; 32; 32; 32; 35; 38; 30; 31; 32; 32;
   32; 32; 35; 38; 30; 31; 32; 32; 32; 32; 35; 38; 30; 31; 32; 32; 32; 32; 35; 38; 30; 31; 32; 32; 32; 32;
   35; 38; 30; 31; 32; 32; 32; 32; 35; 38; 31; 31; 32; 33; 33; 33; 35; 38; 31; 32; 33; 33; 33; 33; 36; 39;
   32; 33; 34; 34; 34; 34; 37; 40; 33; 34; 34; 35; 35; 35; 37; 40; 33; 34; 35; 36; 36; 36; 38; 41; 33; 34;
   35; 36; 36; 36; 38; 41; 33; 34; 35; 36; 36; 36; 38; 41; 33; 34; 35; 36; 36; 36; 38; 41; 33; 34; 35; 36;
   36; 36; 38; 41; 33; 34; 35; 36; 36; 36; 38; 41; 34; 35; 36; 36; 36; 36; 39; 42; 32; 31; 31; 31; 31; 31;
   31; 31; 31; 31; 31; 31; 31; 31; 30; 30; 30; 30; 30; 30; 30; 31; 31; 32; 33; 33; 33; 33; 33; 33; 33; 34;
   31; 31; 31; 31; 31; 31; 31; 31; 31; 31; 31; 31; 31; 31; 31; 31; 31; 31; 31; 31; 31; 31; 32; 33; 34; 34;
   34; 34; 34; 34; 34; 35; 31; 31; 31; 31; 31; 31; 31; 31; 31; 31; 31; 31; 31; 31; 31; 32; 32; 32; 32; 32;
   32; 32; 33; 34; 34; 35; 35; 35; 35; 35; 35; 36; 31; 31; 31; 31; 31; 31; 31; 31; 31; 31; 31; 31; 32; 32;
   32; 32; 32; 32; 32; 32; 32; 33; 33; 34; 35; 36; 36; 36; 36; 36; 36; 36; 31; 31; 31; 31; 31; 31; 31; 31;
   31; 31; 31; 31; 32; 32; 32; 32; 32; 32; 32; 32; 32; 33; 33; 34; 35; 36; 36; 36; 36; 36; 36; 36; 31; 31;
   31; 31; 31; 31; 31; 31; 31; 31; 31; 31; 32; 32; 32; 32; 32; 32; 32; 32; 32; 33; 33; 34; 35; 36; 36; 36;
   36; 36; 36; 36; 33; 33; 33; 33; 34; 34; 34; 34; 34; 34; 34; 34; 34; 34; 34; 35; 35; 35; 35; 35; 35; 35;
   36; 37; 37; 38; 38; 38; 38; 38; 38; 39; 35; 35; 36; 36; 36; 37; 37; 37; 37; 37; 37; 37; 37; 37; 38; 38;
   38; 38; 38; 38; 38; 38; 39; 40; 40; 41; 41; 41; 41; 41; 41; 42]];
 [[31; 31; 31; 31; 31; 32; 32; 32; 31; 32; 32; 32; 31; 32; 32; 32; 31; 31; 31; 31; 31; 31; 31; 31; 31; 31;
   31; 31; 31; 31; 31; 31; 31; 31; 31; 32; 32; 32; 32; 32; 31; 31; 32; 32; 32; 32; 32; 32; 31; 31; 32; 32;
   32; 32; 32; 32; 31; 31; 32; 32; 32; 32; 32; 32; 31; 31; 32; 32; 32; 32; 32; 32; 31; 31; 32; 32; 32; 32;
   32; 32; 32; 31; 31; 31; 31; 31; 31; 31; 31; 31; 31; 31; 31; 31; 31; 31; 31; 31; 31; 31; 31; 31; 31; 31;
   31; 31; 31; 31; 31; 31; 31; 31; 31; 31; 31; 31; 31; 31; 31; 31; 31; 31; 31; 31; 31; 31; 31; 31; 31; 31;
   31; 31; 31; 31; 31; 31; 31; 31; 31; 31; 31; 31; 31; 31; 31; 31; 31; 31; 31; 31; 31; 31; 31; 31; 31; 32;
   32; 32; 32; 32; 31; 31; 31; 31; 31; 32; 32; 32; 32; 32; 32; 32; 32; 32; 32; 32; 31; 31; 31; 31; 31; 32;
   32; 32; 32; 32; 32; 32; 32; 32; 32; 32; 31; 31; 31; 31; 31; 32; 32; 32; 32; 32; 32; 32; 32; 32; 32; 32;
   31; 31; 31; 31; 31; 32; 32; 32; 32; 32; 32; 32; 32; 32; 32; 32; 31; 31; 31; 31; 31; 32; 32; 32; 32; 32;
   32; 32; 32; 32; 32; 32; 31; 31; 31; 31; 31; 32; 32; 32; 32; 32; 32; 32; 32; 32; 32; 32; 31; 31; 31; 31;
   32; 32; 32; 32; 32; 32; 32; 32; 32; 32; 32; 32; 31; 31; 31; 31; 32; 32; 32; 32; 32; 32; 32; 32; 32; 32;
   32; 32; 31; 31; 31; 31; 32; 32; 32; 32; 32; 32; 32; 32; 32; 32; 32; 32; 31; 31; 31; 31; 32; 32; 32; 32;
   32; 32; 32; 32; 32; 32; 32; 32; 31; 31; 31; 31; 32; 32; 32; 32; 32; 32; 32; 32; 32; 32; 32; 32; 32; 31;
   31; 31; 31; 31; 31; 31; 31; 31; 31; 31; 31; 31; 31; 31; 31; 31; 31; 31; 31; 31; 31; 31; 31; 31; 31; 31;
   31; 31; 31; 31; 31; 31; 31; 31; 31; 31; 31; 31; 31; 31; 31; 31; 31; 31; 31; 31; 31; 31; 31; 31; 31; 31;
   31; 31; 31; 31; 31; 31; 31; 31; 31; 31; 31; 31; 31; 31; 31; 31; 31; 31; 31; 31; 31; 31; 31; 31; 31; 31;
   31; 31; 31; 31; 31; 31; 31; 31; 31; 31; 31; 31; 31; 31; 31; 31; 31; 31; 31; 31; 31; 31; 31; 31; 31; 31;
   31; 31; 31; 31; 31; 31; 31; 31; 31; 31; 31; 31; 31; 31; 31; 31; 31; 31; 31; 31; 31; 31; 31; 31; 31; 31;
   31; 31; 31; 31; 31; 31; 31; 31; 31; 31; 31; 31; 31; 31; 31; 31; 31; 31; 31; 31; 31; 31; 31; 31; 31; 31;
   31; 31; 31; 31; 31; 31; 31; 31; 31; 31; 31; 31; 31; 31; 31; 31; 31; 31; 31; 31; 31; 31; 31; 31; 31; 31;
   31; 31; 31; 31; 31; 31; 31; 31; 31; 31; 31; 31; 31; 31; 31; 31; 31; 31; 31; 31; 31; 31; 31; 31; 31; 31;
   31; 31; 31; 31; 31; 31; 31; 31; 31; 31; 31; 31; 31; 31; 31; 31; 31; 31; 31; 31; 31; 31; 31; 31; 31; 31;
   31; 31; 31; 31; 31; 31; 31; 31; 31; 31; 31; 31; 31; 32; 32; 32; 32; 32; 32; 32; 31; 31; 31; 31; 31; 31;
   31; 31; 31; 31; 31; 31; 31; 31; 31; 31; 31; 31; 31; 31; 31; 32; 32; 32; 32; 32; 32; 32; 32; 32; 32; 32;
   31; 31; 31; 31; 31; 31; 31; 31; 31; 31; 32; 32; 32; 32; 32; 32; 32; 32; 32; 32; 32; 32; 32; 32; 32; 32;
   32; 32; 32; 32; 32; 32; 31; 31; 31; 31; 31; 31; 31; 31; 31; 32; 32; 32; 32; 32; 32; 32; 32; 32; 32; 32;
   32; 32; 32; 32; 32; 32; 32; 32; 32; 32; 32; 32; 31; 31; 31; 31; 31; 31; 31; 31; 31; 32; 32; 32; 32; 32;
   32; 32; 32; 32; 32; 32; 32; 32; 32; 32; 32; 32; 32; 32; 32; 32; 32; 32; 31; 31; 31; 31; 31; 31; 31; 31;
   31; 32; 32; 32; 32; 32; 32; 32; 32; 32; 32; 32; 32; 32; 32; 32; 32; 32; 32; 32; 32; 32; 32; 32; 31; 31;
   31; 31; 31; 31; 31; 31; 31; 32; 32; 32; 32; 32; 32; 32; 32; 32; 32; 32; 32; 32; 32; 32; 32; 32; 32; 32;
   32; 32; 32; 32; 31; 31; 31; 31; 31; 31; 31; 31; 31; 32; 32; 32; 32; 32; 32; 32; 32; 32; 32; 32; 32; 32;
   32; 32; 32; 32; 32; 32; 32; 32; 32; 32; 31; 31; 31; 31; 31; 31; 31; 31; 31; 32; 32; 32; 32; 32; 32; 32;
   32; 32; 32; 32; 32; 32; 32; 32; 32; 32; 32; 32; 32; 32; 32; 32; 31; 31; 31; 31; 31; 31; 31; 31; 31; 32;
   32; 32; 32; 32; 32; 32; 32; 32; 32; 32; 32; 32; 32; 32; 32; 32; 32; 32; 32; 32; 32; 32; 31; 31; 31; 31;
   31; 31; 31; 31; 31; 32; 32; 32; 32; 32; 32; 32; 32; 32; 32; 32; 32; 32; 32; 32; 32; 32; 32; 32; 32; 32;
   32; 32; 31; 31; 31; 31; 31; 31; 31; 31; 31; 32; 32; 32; 32; 32; 32; 32; 32; 32; 32; 32; 32; 32; 32; 32;
   32; 32; 32; 32; 32; 32; 32; 32; 31; 31; 31; 31; 31; 31; 31; 31; 31; 32; 32; 32; 32; 32; 32; 32; 32; 32;
   32; 32; 32; 32; 32; 32; 32; 32; 32; 32; 32; 32; 32; 32; 31; 31; 31; 31; 31; 31; 31; 31; 31; 32; 32; 32;
   32; 32; 32; 32; 32; 32; 32; 32; 32; 32; 32; 32; 32; 32; 32; 32; 32; 32; 32; 32; 31; 31; 31; 31; 31; 31;
   31; 31; 32; 32; 32; 32; 32; 32; 32; 32; 32; 32; 32; 32; 32; 32; 32; 32; 32; 32; 32; 32; 32; 32; 32; 32;
   31; 31; 31; 31; 31; 31; 31; 31; 32; 32; 32; 32; 32; 32; 32; 32; 32; 32; 32; 32; 32; 32; 32; 32; 32; 32;
   32; 32; 32; 32; 32; 32; 31; 31; 31; 31; 31; 31; 31; 31; 32; 32; 32; 32; 32; 32; 32; 32; 32; 32; 32; 32;
   32; 32; 32; 32; 32; 32; 32; 32; 32; 32; 32; 32; 31; 31; 31; 31; 31; 31; 31; 31; 32; 32; 32; 32; 32; 32;
   32; 32; 32; 32; 32; 32; 32; 32; 32; 32; 32; 32; 32; 32; 32; 32; 32; 32; 31; 31; 31; 31; 31; 31; 31; 32;
   32; 32; 32; 32; 32; 32; 32; 32; 32; 32; 32; 32; 32; 32; 32; 32; 32; 32; 32; 32; 32; 32; 32; 32; 31; 31;
   31; 31; 31; 31; 31; 32; 32; 32; 32; 32; 32; 32; 32; 32; 32; 32; 32; 32; 32; 32; 32; 32; 32; 32; 32; 32;
   32; 32; 32; 32; 31; 31; 31; 31; 31; 31; 31; 32; 32; 32; 32; 32; 32; 32; 32; 32; 32; 32; 32; 32; 32; 32;
   32; 32; 32; 32; 32; 32; 32; 32; 32; 32; 31; 31; 31; 31; 31; 31; 31; 32; 32; 32; 32; 32; 32; 32; 32; 32;
   32; 32; 32; 32; 32; 32; 32; 32; 32; 32; 32; 32; 32; 32; 32; 32; 31; 31; 31; 31; 31; 31; 31; 32; 32; 32;
   32; 32; 32; 32; 32; 32; 32; 32; 32; 32; 32; 32; 32; 32; 32; 32; 32; 32; 32; 32; 32; 32; 31; 31; 31; 31;
   31; 31; 31; 32; 32; 32; 32; 32; 32; 32; 32; 32; 32; 32; 32; 32; 32; 32; 32; 32; 32; 32; 32; 32; 32; 32;
   32; 32; 31; 31; 31; 31; 31; 31; 31; 32; 32; 32; 32; 32; 32; 32; 32; 32; 32; 32; 32; 32; 32; 32; 32; 32;
   32; 32; 32; 32; 32; 32; 32; 32; 31; 31; 31; 31; 31; 31; 31; 31; 31; 32; 32; 32; 31; 32; 32; 32; 31; 32;
   32; 32; 31; 32; 32; 32; 31; 32; 32; 32; 31; 32; 32; 32; 31; 31; 31; 31; 31; 31; 31; 31; 31; 31; 32; 32;
   32; 32; 32; 32; 31; 31; 32; 32; 32; 32; 32; 32; 31; 31; 32; 32; 32; 32; 32; 32; 32; 31; 31; 31; 31; 31;
   31; 31; 31; 31; 31; 31; 31; 31; 31; 31; 31; 31; 31; 31; 31; 31; 31; 31; 31; 31; 31; 31; 32; 32; 32; 32;
   31; 31; 31; 32; 32; 32; 32; 32; 31; 31; 32; 32; 32; 32; 32; 32; 31; 31; 32; 32; 32; 32; 32; 32; 31; 31;
   32; 32; 32; 32; 32; 32; 31; 31; 32; 32; 32; 32; 32; 32; 31; 31; 32; 32; 32; 32; 32; 32; 31; 31; 32; 32;
   32; 32; 32; 32; 31; 31; 32; 32; 32; 32; 32; 32; 31; 31; 32; 32; 32; 32; 32; 32; 31; 31; 32; 32; 32; 32;
   32; 32; 31; 31; 32; 32; 32; 32; 32; 32; 31; 31; 32; 32; 32; 32; 32; 32; 32; 31; 31; 31; 31; 31; 31; 31;
   31; 31; 31; 31; 31; 31; 31; 31; 31; 31; 31; 31; 31; 31; 31; 31; 31; 31; 31; 31; 31; 31; 31; 31; 31; 31;
   31; 31; 31; 32; 32; 32; 32; 32; 32; 32; 32; 32; 32; 32; 31; 31; 31; 31; 32; 32; 32; 32; 32; 32; 32; 32;
   32; 32; 32; 32; 31; 31; 31; 32; 32; 32; 32; 32; 32; 32; 32; 32; 32; 32; 32; 32; 31; 31; 31; 32; 32; 32;
   32; 32; 32; 32; 32; 32; 32; 32; 32; 32; 31; 31; 31; 32; 32; 32; 32; 32; 32; 32; 32; 32; 32; 32; 32; 32;
   31; 31; 31; 32; 32; 32; 32; 32; 32; 32; 32; 32; 32; 32; 32; 32; 32; 31; 31; 31; 31; 31; 31; 31; 31; 31;
   31; 31; 31; 31; 31; 31; 31; 31; 31; 31; 31; 31; 31; 31; 31; 31; 31; 31; 31; 31; 31; 31; 31; 31; 31; 31;
   31; 31; 31; 31; 31; 31; 31; 31; 31; 31; 31; 31; 31; 31; 31; 31; 31; 31; 31; 31; 31; 31; 31; 31; 31; 31;
   31; 31; 31; 31; 31; 31; 31; 31; 31; 31; 31; 31; 31; 31; 31; 31; 31; 31; 31; 31; 31; 31; 31; 31; 31; 31;
   31; 31; 31; 31; 31; 31; 31; 31; 31; 31; 31; 31; 31; 31; 31; 31; 32; 32; 32; 32; 32; 32; 32; 32; 31; 31;
   31; 31; 31; 31; 32; 32; 32; 32; 32; 32; 32; 32; 32; 32; 31; 31; 31; 31; 31; 32; 32; 32; 32; 32; 32; 32;
   32; 32; 32; 32; 31; 31; 31; 31; 32; 32; 32; 32; 32; 32; 32; 32; 32; 32; 32; 32; 31; 31; 31; 31; 32; 32;
   32; 32; 32; 32; 32; 32; 32; 32; 32; 32; 31; 31; 31; 31; 32; 32; 32; 32; 32; 32; 32; 32; 32; 32; 32; 32;
   31; 31; 31; 31; 32; 32; 32; 32; 32; 32; 32; 32; 32; 32; 32; 32; 31; 31; 31; 31; 32; 32; 32; 32; 32; 32;
   32; 32; 32; 32; 32; 32; 31; 31; 31; 31; 32; 32; 32; 32; 32; 32; 32; 32; 32; 32; 32; 32; 31; 31; 31; 31;
   32; 32; 32; 32; 32; 32; 32; 32; 32; 32; 32; 32; 31; 31; 31; 31; 32; 32; 32; 32; 32; 32; 32; 32; 32; 32;
   32; 32; 31; 31; 31; 31; 32; 32; 32; 32; 32; 32; 32; 32; 32; 32; 32; 32; 31; 31; 31; 31; 32; 32; 32; 32;
   32; 32; 32; 32; 32; 32; 32; 32; 31; 31; 31; 31; 32; 32; 32; 32; 32; 32; 32; 32; 32; 32; 32; 32; 31; 31;
   31; 31; 32; 32; 32; 32; 32; 32; 32; 32; 32; 32; 32; 32; 31; 31; 31; 31; 32; 32; 32; 32; 32; 32; 32; 32;
   32; 32; 32; 32; 31; 31; 31; 31; 32; 32; 32; 32; 32; 32; 32; 32; 32; 32; 32; 32; 31; 31; 31; 31; 32; 32;
   32; 32; 32; 32; 32; 32; 32; 32; 32; 32; 31; 31; 31; 31; 32; 32; 32; 32; 32; 32; 32; 32; 32; 32; 32; 32;
   31; 31; 31; 31; 32; 32; 32; 32; 32; 32; 32; 32; 32; 32; 32; 32; 31; 31; 31; 32; 32; 32; 32; 32; 32; 32;
   32; 32; 32; 32; 32; 32; 31; 31; 31; 32; 32; 32; 32; 32; 32; 32; 32; 32; 32; 32; 32; 32; 31; 31; 31; 32;
   32; 32; 32; 32; 32; 32; 32; 32; 32; 32; 32; 32; 31; 31; 31; 32; 32; 32; 32; 32; 32; 32; 32; 32; 32; 32;
   32; 32; 31; 31; 31; 32; 32; 32; 32; 32; 32; 32; 32; 32; 32; 32; 32; 32; 31; 31; 31; 32; 32; 32; 32; 32;
   32; 32; 32; 32; 32; 32; 32; 32; 32; 31; 31; 31; 31; 31; 31; 31; 31; 31; 31; 31; 31; 31; 31; 31; 31; 31;
   31; 31; 31; 31; 31; 31; 31; 31; 31; 31; 31; 31; 31; 31; 31; 31; 31; 31; 31; 31; 31; 31; 31; 31; 31; 31;
   31; 31; 31; 31; 31; 31; 31; 31; 31; 31; 31; 31; 31; 31; 31; 31; 31; 31; 31; 31; 31; 31; 31; 31; 31; 31;
   31; 31; 31; 31; 31; 31; 31; 31; 31; 31; 31; 31; 31; 31; 31; 31; 31; 31; 31; 31; 31; 31; 31; 31; 31; 31;
   31; 31; 31; 31; 31; 31; 31; 31; 31; 31; 31; 31; 31; 31; 31; 31; 31; 31; 31; 31; 31; 31; 31; 31; 31; 31;
   32; 32; 32; 32; 32; 32; 31; 31; 31; 31; 31; 31; 31; 31; 31; 32; 32; 32; 32; 32; 32; 32; 32; 32; 32; 32;
   32; 32; 32; 32; 32; 32; 32; 32; 32; 32; 32; 32; 31; 31; 31; 31; 31; 31; 31; 31; 32; 32; 32; 32; 32; 32;
   32; 32; 32; 32; 32; 32; 32; 32; 32; 32; 32; 32; 32; 32; 32; 32; 32; 32; 31; 31; 31; 31; 31; 31; 31; 32;
   32; 32; 32; 32; 32; 32; 32; 32; 32; 32; 32; 32; 32; 32; 32; 32; 32; 32; 32; 32; 32; 32; 32; 32; 31; 31;
   31; 31; 31; 31; 31; 32; 32; 32; 32; 32; 32; 32; 32; 32; 32; 32; 32; 32; 32; 32; 32; 32; 32; 32; 32; 32;
   32; 32; 32; 32; 31; 31; 31; 31; 31; 31; 32; 32; 32; 32; 32; 32; 32; 32; 32; 32; 32; 32; 32; 32; 32; 32;
   32; 32; 32; 32; 32; 32; 32; 32; 32; 32; 31; 31; 31; 31; 31; 31; 32; 32; 32; 32; 32; 32; 32; 32; 32; 32;
   32; 32; 32; 32; 32; 32; 32; 32; 32; 32; 32; 32; 32; 32; 32; 32; 31; 31; 31; 31; 31; 31; 32; 32; 32; 32;
   32; 32; 32; 32; 32; 32; 32; 32; 32; 32; 32; 32; 32; 32; 32; 32; 32; 32; 32; 32; 32; 32; 31; 31; 31; 31;
   31; 31; 32; 32; 32; 32; 32; 32; 32; 32; 32; 32; 32; 32; 32; 32; 32; 32; 32; 32; 32; 32; 32; 32; 32; 32;
   32; 32; 31; 31; 31; 31; 31; 31; 32; 32; 32; 32; 32; 32; 32; 32; 32; 32; 32; 32; 32; 32; 32; 32; 32; 32;
   32; 32; 32; 32; 32; 32; 32; 32; 31; 31; 31; 31; 31; 31; 32; 32; 32; 32; 32; 32; 32; 32; 32; 32; 32; 32;
   32; 32; 32; 32; 32; 32; 32; 32; 32; 32; 32; 32; 32; 32; 31; 31; 31; 31; 31; 31; 32; 32; 32; 32; 32; 32;
   32; 32; 32; 32; 32; 32; 32; 32; 32; 32; 32; 32; 32; 32; 32; 32; 32; 32; 32; 32; 31; 31; 31; 31; 31; 31;
   32; 32; 32; 32; 32; 32; 32; 32; 32; 32; 32; 32; 32; 32; 32; 32; 32; 32; 32; 32; 32; 32; 32; 32; 32; 32;
   31; 31; 31; 31; 31; 31; 31; 31; 31; 31; 31; 31; 31; 31; 32; 32; 31; 32; 32; 32; 31; 32; 32; 32; 31; 32;
   32; 32; 31; 32; 32; 32; 31; 32; 32; 32; 31; 32; 32; 32; 31; 32; 32; 32; 31; 32; 32; 32; 31; 32; 32; 32;
   31; 32; 32; 32; 31; 32; 32; 32; 31; 32; 32; 32; 31; 31; 31; 31; 31; 31; 31; 31; 31; 31; 31; 31; 31; 31;
   31; 31; 31; 31; 31; 31; 32; 32; 32; 32; 32; 32; 32; 32; 32; 32; 32; 32; 31; 31; 31; 32; 32; 32; 32; 32;
   32; 32; 32; 32; 32; 32; 32; 32; 31; 31; 31; 32; 32; 32; 32; 32; 32; 32; 32; 32; 32; 32; 32; 32; 32; 31;
   31; 31; 31; 31; 31; 31; 31; 31; 31; 31; 31; 31; 31; 31; 31; 31; 31; 31; 31; 31; 31; 31; 31; 31; 31; 31;
   31; 31; 31; 31; 31; 31; 31; 31; 31; 31; 31; 31; 31; 31; 31; 31; 31; 31; 31; 31; 31; 31; 31; 31; 32; 32;
   32; 32; 31; 31; 31; 32; 32; 32; 32; 32; 31; 31; 31; 32; 32; 32; 32; 32; 31; 31; 32; 32; 32; 32; 32; 32;
   31; 31; 32; 32; 32; 32; 32; 32; 31; 31; 32; 32; 32; 32; 32; 32; 31; 31; 32; 32; 32; 32; 32; 32; 31; 31;
   32; 32; 32; 32; 32; 32; 31; 31; 32; 32; 32; 32; 32; 32; 31; 31; 32; 32; 32; 32; 32; 32; 31; 31; 32; 32;
   32; 32; 32; 32; 31; 31; 32; 32; 32; 32; 32; 32; 31; 31; 32; 32; 32; 32; 32; 32; 31; 31; 32; 32; 32; 32;
   32; 32; 31; 31; 32; 32; 32; 32; 32; 32; 31; 31; 32; 32; 32; 32; 32; 32; 31; 31; 32; 32; 32; 32; 32; 32;
   31; 31; 32; 32; 32; 32; 32; 32; 31; 31; 32; 32; 32; 32; 32; 32; 31; 31; 32; 32; 32; 32; 32; 32; 31; 31;
   32; 32; 32; 32; 32; 32; 31; 31; 32; 32; 32; 32; 32; 32; 31; 31; 32; 32; 32; 32; 32; 32; 31; 31; 32; 32;
   32; 32; 32; 32; 31; 31; 32; 32; 32; 32; 32; 32; 31; 31; 32; 32; 32; 32; 32; 32; 32; 31; 31; 31; 31; 31;
   31; 31; 31; 31; 31; 31; 31; 31; 31; 31; 31; 31; 31; 31; 31; 31; 31; 31; 31; 31; 31; 31; 31; 31; 31; 31;
   31; 31; 31; 31; 31; 31; 31; 31; 31; 31; 31; 31; 31; 31; 31; 31; 31; 31; 31; 31; 31; 31; 31; 31; 31; 31;
   31; 31; 31; 31; 31; 31; 31; 31; 31; 31; 31; 31; 31; 31; 31; 32; 32; 32; 32; 32; 32; 32; 32; 32; 32; 32;
   32; 32; 32; 32; 32; 32; 32; 32; 32; 32; 32; 32; 31; 31; 31; 31; 31; 31; 31; 32; 32; 32; 32; 32; 32; 32;
   32; 32; 32; 32; 32; 32; 32; 32; 32; 32; 32; 32; 32; 32; 32; 32; 32; 32; 31; 31; 31; 31; 31; 31; 32; 32;
   32; 32; 32; 32; 32; 32; 32; 32; 32; 32; 32; 32; 32; 32; 32; 32; 32; 32; 32; 32; 32; 32; 32; 32; 31; 31;
   31; 31; 31; 31; 32; 32; 32; 32; 32; 32; 32; 32; 32; 32; 32; 32; 32; 32; 32; 32; 32; 32; 32; 32; 32; 32;
   32; 32; 32; 32; 31; 31; 31; 31; 31; 31; 32; 32; 32; 32; 32; 32; 32; 32; 32; 32; 32; 32; 32; 32; 32; 32;
   32; 32; 32; 32; 32; 32; 32; 32; 32; 32; 31; 31; 31; 31; 31; 31; 32; 32; 32; 32; 32; 32; 32; 32; 32; 32;
   32; 32; 32; 32; 32; 32; 32; 32; 32; 32; 32; 32; 32; 32; 32; 32];
 [31; 31; 31; 31; 31; 31; 31; 31; 31; 31; 31; 31; 31; 31; 31; 31; 31; 31; 31; 31; 31; 31; 31; 30; 31; 31;
   31; 31; 31; 31; 31; 31; 31; 31; 31; 31; 31; 31; 31; 31; 31; 31; 31; 31; 31; 31; 31; 31; 31; 31; 31; 31;
   31; 31; 31; 31; 31; 31; 31; 31; 31; 31; 31; 31; 31; 31; 31; 31; 31; 31; 31; 31; 30; 31; 31; 31; 31; 31;
   31; 31; 32; 31; 31; 31; 31; 31; 31; 31; 31; 31; 31; 31; 31; 30; 30; 30; 31; 31; 31; 31; 31; 31; 31; 31;
   31; 31; 31; 31; 31; 31; 30; 30; 31; 31; 31; 31; 31; 31; 31; 31; 31; 31; 31; 31; 31; 31; 31; 30; 31; 31;
   31; 31; 31; 31; 31; 31; 31; 31; 31; 31; 31; 31; 31; 31; 31; 31; 31; 31; 31; 31; 31; 31; 31; 31; 31; 31;
   31; 31; 31; 31; 31; 31; 31; 31; 31; 31; 31; 31; 31; 31; 31; 31; 31; 31; 31; 31; 31; 31; 31; 31; 31; 31;
   31; 31; 31; 31; 31; 31; 31; 31; 31; 31; 31; 31; 31; 31; 31; 31; 31; 31; 31; 31; 31; 31; 31; 31; 31; 31;
   31; 31; 31; 31; 31; 31; 31; 31; 31; 31; 31; 31; 31; 31; 31; 31; 31; 31; 31; 31; 31; 31; 31; 31; 31; 31;
   31; 31; 31; 31; 31; 31; 31; 31; 31; 31; 31; 31; 31; 31; 31; 31; 31; 31; 31; 31; 31; 31; 31; 31; 31; 31;
   31; 31; 31; 31; 31; 31; 31; 31; 31; 31; 31; 31; 31; 31; 31; 31; 31; 31; 31; 31; 31; 31; 31; 31; 31; 31;
   31; 31; 30; 31; 31; 31; 31; 31; 31; 31; 31; 31; 31; 31; 31; 31; 31; 31; 30; 30; 31; 31; 31; 31; 31; 31;
   31; 31; 31; 31; 31; 31; 31; 31; 30; 30; 30; 31; 31; 31; 31; 31; 31; 31; 31; 31; 31; 31; 31; 32; 32; 31;
   31; 31; 31; 31; 31; 31; 31; 31; 31; 31; 31; 31; 31; 31; 31; 31; 31; 31; 31; 31; 31; 31; 31; 31; 30; 30;
   30; 30; 30; 30; 31; 31; 31; 31; 31; 31; 31; 31; 31; 31; 31; 31; 31; 31; 31; 31; 31; 31; 31; 31; 31; 31;
   31; 31; 31; 31; 30; 30; 30; 30; 30; 30; 31; 31; 31; 31; 31; 31; 31; 31; 31; 31; 31; 31; 31; 31; 31; 31;
   31; 31; 31; 31; 31; 31; 31; 31; 31; 31; 31; 30; 30; 30; 30; 30; 31; 31; 31; 31; 31; 31; 31; 31; 31; 31;
   31; 31; 31; 31; 31; 31; 31; 31; 31; 31; 31; 31; 31; 31; 31; 31; 31; 31; 30; 30; 30; 30; 31; 31; 31; 31;
   31; 31; 31; 31; 31; 31; 31; 31; 31; 31; 31; 31; 31; 31; 31; 31; 31; 31; 31; 31; 31; 31; 31; 31; 31; 30;
   30; 30; 31; 31; 31; 31; 31; 31; 31; 31; 31; 31; 31; 31; 31; 31; 31; 31; 31; 31; 31; 31; 31; 31; 31; 31;
   31; 31; 31; 31; 31; 31; 31; 31; 31; 31; 31; 31; 31; 31; 31; 31; 31; 31; 31; 31; 31; 31; 31; 31; 31; 31;
   31; 31; 31; 31; 31; 31; 31; 31; 31; 31; 31; 31; 31; 31; 31; 31; 31; 31; 31; 31; 31; 31; 31; 31; 31; 31;
   31; 31; 31; 31; 31; 31; 31; 31; 31; 31; 31; 31; 31; 31; 31; 31; 31; 31; 31; 31; 31; 31; 31; 31; 31; 31;
   31; 31; 31; 31; 31; 31; 31; 31; 31; 31; 31; 31; 31; 31; 31; 31; 31; 31; 31; 31; 31; 31; 31; 31; 31; 31;
   31; 31; 31; 31; 31; 31; 31; 31; 31; 31; 31; 31; 31; 31; 31; 31; 31; 31; 31; 31; 31; 31; 31; 31; 31; 31;
   31; 31; 31; 31; 31; 31; 31; 31; 31; 31; 31; 31; 31; 31; 31; 31; 31; 31; 31; 31; 31; 31; 31; 31; 31; 31;
   31; 31; 31; 31; 31; 31; 31; 31; 31; 31; 31; 31; 31; 31; 31; 31; 31; 31; 31; 31; 31; 31; 31; 31; 31; 31;
   31; 31; 31; 31; 31; 31; 31; 31; 31; 31; 31; 31; 31; 31; 31; 31; 31; 31; 31; 31; 31; 31; 31; 31; 31; 31;
   31; 31; 31; 31; 31; 31; 31; 31; 31; 31; 31; 31; 31; 31; 31; 31; 31; 31; 31; 31; 31; 31; 31; 31; 31; 31;
   31; 31; 31; 31; 31; 31; 31; 31; 31; 31; 31; 31; 31; 31; 31; 31; 31; 31; 31; 31; 31; 31; 31; 31; 31; 31;
   31; 31; 31; 31; 31; 31; 31; 31; 31; 31; 31; 31; 31; 31; 31; 31; 31; 31; 31; 31; 31; 31; 31; 31; 31; 31;
   31; 31; 31; 31; 31; 31; 31; 31; 31; 31; 31; 31; 31; 31; 31; 31; 31; 31; 31; 31; 31; 31; 31; 31; 31; 31;
   31; 31; 31; 31; 31; 31; 31; 31; 31; 31; 31; 31; 31; 31; 31; 31; 31; 31; 31; 31; 31; 31; 31; 31; 31; 31;
   31; 31; 31; 31; 31; 31; 31; 31; 31; 31; 31; 31; 31; 31; 31; 31; 31; 31; 31; 31; 31; 31; 31; 31; 31; 31;
   31; 31; 31; 31; 31; 31; 31; 31; 31; 31; 31; 31; 31; 31; 31; 31; 31; 31; 31; 31; 31; 31; 31; 31; 31; 31;
   31; 31; 31; 31; 31; 31; 31; 31; 31; 31; 31; 31; 31; 31; 31; 31; 31; 31; 31; 31; 31; 31; 31; 31; 31; 31;
   31; 31; 31; 31; 31; 31; 31; 31; 31; 31; 31; 31; 31; 31; 31; 31; 31; 31; 31; 31; 31; 31; 31; 31; 31; 31;
   31; 31; 31; 31; 31; 31; 31; 31; 31; 31; 31; 31; 31; 31; 31; 31; 31; 31; 31; 31; 31; 31; 31; 31; 31; 31;
   31; 31; 31; 31; 31; 31; 31; 31; 31; 31; 31; 31; 31; 31; 31; 31; 31; 31; 31; 31; 31; 31; 31; 31; 31; 31;
   31; 31; 31; 31; 31; 31; 31; 31; 31; 31; 31; 31; 31; 31; 31; 31; 31; 31; 31; 31; 31; 31; 31; 31; 31; 31;
   31; 31; 31; 31; 31; 31; 31; 31; 31; 31; 31; 31; 31; 31; 31; 31; 31; 31; 31; 31; 31; 31; 31; 31; 31; 31;
   31; 31; 31; 31; 31; 31; 31; 31; 31; 31; 31; 31; 31; 31; 31; 31; 31; 31; 31; 31; 31; 31; 31; 31; 31; 31;
   31; 31; 31; 31; 31; 31; 31; 31; 31; 31; 31; 31; 31; 31; 31; 31; 31; 31; 31; 31; 31; 31; 31; 31; 31; 31;
   31; 31; 31; 31; 31; 31; 31; 31; 31; 31; 31; 31; 31; 31; 31; 31; 31; 31; 31; 31; 31; 31; 31; 31; 31; 31;
   31; 31; 31; 31; 31; 31; 31; 31; 31; 31; 31; 31; 31; 31; 31; 31; 31; 31; 31; 31; 31; 31; 31; 31; 30; 30;
   31; 31; 31; 31; 31; 31; 31; 31; 31; 31; 31; 31; 31; 31; 31; 31; 31; 31; 31; 31; 31; 31; 31; 31; 31; 31;
   31; 31; 31; 31; 30; 30; 30; 31; 31; 31; 31; 31; 31; 31; 31; 31; 31; 31; 31; 31; 31; 31; 31; 31; 31; 31;
   31; 31; 31; 31; 31; 31; 31; 31; 31; 31; 30; 30; 30; 30; 31; 31; 31; 31; 31; 31; 31; 31; 31; 31; 31; 31;
   31; 31; 31; 31; 31; 31; 31; 31; 31; 31; 31; 31; 31; 31; 31; 31; 30; 30; 30; 30; 30; 31; 31; 31; 31; 31;
   31; 31; 31; 31; 31; 31; 31; 31; 31; 31; 31; 31; 31; 31; 31; 31; 31; 31; 31; 31; 31; 31; 30; 30; 30; 30;
   30; 31; 31; 31; 31; 31; 31; 31; 31; 31; 31; 31; 31; 31; 31; 31; 31; 31; 31; 31; 31; 31; 31; 31; 31; 31;
   32; 32; 30; 30; 30; 30; 30; 31; 31; 31; 31; 31; 31; 31; 31; 31; 31; 31; 31; 31; 31; 31; 31; 31; 31; 31;
   31; 31; 31; 31; 31; 31; 32; 32; 31; 31; 31; 31; 31; 31; 31; 31; 31; 31; 31; 31; 31; 31; 31; 31; 31; 31;
   31; 31; 31; 31; 31; 31; 31; 31; 32; 32; 30; 31; 32; 32; 31; 31; 31; 31; 31; 31; 31; 30; 31; 31; 31; 31;
   31; 31; 31; 31; 31; 31; 31; 31; 31; 31; 32; 32; 31; 31; 31; 31; 31; 31; 32; 32; 32; 31; 31; 31; 31; 31;
   31; 31; 31; 31; 31; 31; 31; 31; 31; 31; 31; 31; 31; 31; 31; 31; 31; 31; 31; 31; 31; 31; 31; 31; 31; 31;
   31; 31; 31; 31; 31; 31; 31; 31; 31; 31; 31; 31; 31; 31; 31; 31; 31; 31; 31; 31; 31; 31; 31; 31; 31; 31;
   31; 31; 31; 31; 31; 31; 31; 31; 31; 31; 31; 31; 31; 31; 31; 31; 31; 31; 31; 31; 31; 31; 31; 31; 31; 31;
   31; 31; 31; 31; 31; 31; 31; 31; 31; 31; 31; 31; 31; 31; 31; 31; 31; 32; 32; 32; 31; 31; 31; 31; 31; 32;
   32; 32; 30; 31; 31; 31; 31; 32; 32; 32; 30; 31; 31; 31; 32; 32; 32; 32; 32; 31; 31; 31; 31; 31; 31; 31;
   31; 31; 31; 31; 31; 31; 30; 30; 31; 31; 31; 31; 31; 31; 31; 31; 31; 31; 31; 31; 31; 31; 31; 31; 31; 31;
   31; 31; 31; 31; 31; 31; 31; 31; 31; 31; 31; 31; 31; 31; 31; 31; 31; 31; 31; 31; 31; 31; 31; 31; 31; 31;
   31; 31; 31; 31; 31; 31; 31; 31; 31; 31; 31; 31; 31; 31; 31; 31; 31; 31; 31; 32; 31; 31; 31; 31; 31; 31;
   31; 31; 31; 31; 31; 31; 32; 32; 32; 32; 31; 31; 31; 31; 31; 31; 31; 31; 31; 31; 31; 31; 32; 32; 32; 32;
   31; 31; 31; 31; 31; 31; 31; 31; 31; 31; 31; 31; 32; 32; 32; 32; 32; 31; 31; 31; 31; 31; 31; 31; 31; 31;
   31; 31; 31; 31; 31; 31; 31; 31; 31; 31; 31; 31; 31; 31; 31; 31; 31; 31; 31; 31; 31; 31; 31; 31; 31; 31;
   31; 31; 31; 31; 31; 31; 31; 31; 31; 31; 31; 31; 31; 31; 31; 31; 31; 31; 31; 31; 31; 31; 31; 31; 31; 31;
   31; 31; 31; 31; 31; 31; 31; 31; 31; 31; 31; 31; 31; 31; 31; 31; 31; 31; 31; 31; 31; 31; 31; 31; 31; 31;
   31; 31; 31; 31; 31; 31; 31; 31; 31; 31; 31; 31; 31; 31; 31; 31; 31; 31; 31; 31; 31; 31; 31; 31; 31; 31;
   31; 31; 31; 31; 31; 31; 31; 31; 31; 31; 31; 31; 31; 31; 31; 31; 31; 31; 31; 31; 31; 31; 31; 31; 31; 31;
   31; 31; 31; 31; 31; 31; 31; 31; 31; 31; 31; 31; 31; 31; 31; 31; 31; 31; 31; 31; 31; 31; 31; 31; 31; 31;
   31; 31; 31; 31; 31; 31; 31; 31; 31; 31; 31; 31; 31; 31; 31; 31; 31; 31; 31; 31; 31; 31; 31; 31; 31; 31;
   31; 31; 31; 31; 31; 31; 31; 31; 31; 31; 31; 31; 31; 31; 31; 31; 31; 31; 31; 31; 31; 31; 31; 31; 31; 31;
   31; 31; 31; 31; 31; 31; 31; 31; 31; 31; 31; 31; 31; 31; 31; 31; 31; 31; 31; 31; 31; 31; 31; 31; 31; 31;
   31; 31; 31; 31; 31; 31; 31; 31; 31; 31; 31; 31; 31; 31; 31; 31; 31; 31; 31; 31; 31; 31; 31; 31; 31; 31;
   31; 31; 31; 31; 31; 31; 31; 31; 31; 31; 31; 31; 31; 31; 31; 31; 31; 31; 31; 31; 31; 31; 31; 31; 31; 31;
   31; 31; 31; 31; 31; 31; 31; 31; 31; 31; 31; 31; 31; 31; 31; 31; 31; 31; 31; 31; 31; 31; 31; 31; 31; 31;
   31; 31; 31; 31; 31; 31; 31; 31; 31; 31; 31; 31; 31; 31; 31; 31; 31; 31; 31; 31; 31; 31; 31; 31; 31; 31;
   31; 31; 31; 31; 31; 31; 31; 31; 31; 31; 31; 31; 31; 31; 31; 31; 31; 31; 31; 31; 31; 31; 31; 31; 31; 31;
   31; 31; 31; 31; 32; 32; 32; 32; 32; 32; 31; 31; 31; 31; 31; 31; 31; 31; 31; 31; 32; 32; 32; 32; 32; 32;
   31; 31; 31; 31; 31; 31; 31; 31; 31; 32; 32; 32; 32; 32; 32; 32; 31; 31; 31; 31; 31; 31; 31; 31; 31; 32;
   32; 32; 32; 32; 32; 32; 30; 31; 31; 31; 31; 31; 31; 31; 31; 32; 32; 32; 32; 32; 32; 32; 30; 31; 31; 31;
   31; 31; 31; 31; 31; 32; 32; 32; 32; 32; 32; 32; 30; 30; 31; 31; 31; 31; 31; 31; 32; 32; 32; 32; 32; 32;
   32; 32; 30; 30; 31; 31; 31; 31; 31; 31; 32; 32; 32; 32; 32; 32; 32; 32; 30; 30; 31; 31; 31; 31; 31; 31;
   32; 32; 32; 32; 32; 32; 32; 32; 32; 31; 31; 31; 31; 31; 31; 31; 31; 31; 31; 31; 31; 31; 31; 31; 31; 31;
   31; 31; 31; 31; 31; 31; 31; 31; 31; 30; 30; 30; 30; 30; 31; 31; 31; 31; 31; 31; 31; 31; 31; 31; 31; 31;
   31; 31; 31; 31; 31; 31; 31; 31; 31; 31; 31; 31; 31; 31; 31; 31; 31; 30; 30; 30; 31; 31; 31; 31; 31; 31;
   31; 31; 31; 31; 31; 31; 31; 31; 31; 31; 31; 31; 31; 31; 31; 31; 31; 31; 31; 31; 31; 31; 31; 31; 31; 31;
   31; 31; 31; 31; 31; 31; 31; 31; 31; 31; 31; 31; 31; 31; 31; 31; 31; 31; 31; 31; 31; 31; 31; 31; 31; 31;
   31; 31; 31; 31; 31; 31; 31; 31; 31; 31; 31; 31; 31; 31; 31; 31; 31; 31; 31; 31; 31; 31; 31; 31; 31; 31;
   31; 31; 31; 31; 31; 31; 31; 31; 31; 31; 31; 31; 31; 31; 31; 31; 31; 31; 31; 31; 31; 31; 31; 31; 31; 31;
   31; 31; 31; 31; 31; 31; 31; 31; 31; 31; 31; 31; 31; 31; 31; 31; 31; 31; 31; 31; 31; 31; 31; 31; 31; 31;
   31; 31; 31; 31; 31; 31; 31; 31; 31; 31; 31; 31; 31; 31; 31; 31; 31; 31; 31; 31; 31; 31; 31; 31; 31; 31;
   31; 31; 31; 31; 31; 31; 31; 31; 31; 31; 31; 31; 31; 31; 31; 31; 31; 31; 31; 31; 31; 31; 31; 31; 31; 31;
   31; 31; 31; 31; 31; 31; 31; 31; 31; 31; 31; 31; 31; 31; 31; 31; 31; 31; 31; 31; 31; 31; 31; 31; 31; 31;
   31; 31; 31; 31; 31; 31; 31; 32; 32; 32; 31; 31; 31; 31; 31; 31; 31; 31; 31; 31; 31; 31; 31; 31; 31; 31;
   31; 31; 31; 31; 31; 31; 31; 31; 31; 32; 32; 32; 32; 32; 32; 32; 31; 31; 31; 31; 31; 31; 31; 31; 31; 31;
   31; 31; 31; 31; 31; 31; 31; 31; 31; 31; 31; 31; 31; 32; 32; 32; 32; 32; 32; 32; 32; 32; 31; 31; 31; 31;
   31; 31; 31; 31; 31; 31; 31; 31; 31; 31; 31; 31; 31; 31; 31; 31; 31; 31; 31; 32; 32; 32; 32; 32; 32; 32;
   32; 32; 31; 31; 31; 31; 31; 31; 31; 31; 31; 31; 31; 31; 31; 31; 31; 31; 31; 31; 31; 31; 31; 31; 31; 32;
   32; 32; 32; 32; 32; 32; 32; 32; 31; 31; 31; 31; 31; 31; 31; 31; 31; 31; 31; 31; 31; 31; 31; 31; 31; 31;
   31; 31; 31; 31; 31; 32; 32; 32; 32; 32; 32; 32; 32; 32; 31; 31; 31; 31; 31; 31; 31; 31; 31; 31; 31; 31;
   31; 31; 31; 31; 31; 31; 31; 31; 31; 31; 31; 32; 32; 32; 32; 32; 32; 32; 32; 32; 31; 31; 31; 31; 31; 31;
   31; 31; 31; 31; 31; 31; 31; 31; 31; 31; 31; 31; 31; 31; 31; 31; 31; 32; 32; 32; 32; 32; 32; 32; 32; 32;
   31; 31; 31; 31; 31; 31; 31; 31; 31; 31; 31; 31; 31; 31; 31; 31; 31; 31; 31; 31; 31; 31; 31; 31; 31; 31;
   31; 31; 31; 31; 31; 31; 31; 31; 31; 31; 31; 31; 31; 31; 31; 31; 31; 31; 31; 31; 31; 31; 31; 31; 31; 32;
   31; 31; 32; 32; 31; 31; 32; 32; 30; 31; 32; 32; 31; 31; 31; 31; 31; 31; 31; 31; 31; 31; 31; 31; 31; 31;
   31; 30; 31; 31; 31; 31; 31; 31; 31; 31; 31; 31; 31; 31; 31; 31; 31; 31; 31; 31; 31; 31; 31; 31; 31; 31;
   31; 31; 31; 31; 31; 32; 32; 32; 31; 31; 31; 31; 31; 31; 31; 31; 31; 31; 31; 31; 32; 32; 32; 32; 32; 31;
   31; 31; 31; 31; 31; 31; 31; 31; 31; 31; 31; 31; 31; 31; 31; 31; 31; 31; 31; 31; 31; 31; 31; 31; 31; 31;
   31; 31; 31; 31; 31; 31; 31; 31; 31; 31; 31; 31; 31; 31; 31; 31; 31; 31; 31; 31; 31; 31; 31; 31; 31; 31;
   31; 31; 31; 31; 31; 31; 31; 31; 31; 31; 31; 31; 31; 31; 31; 31; 31; 31; 31; 31; 31; 31; 31; 31; 31; 31;
   31; 31; 31; 31; 31; 31; 31; 31; 31; 31; 31; 31; 31; 31; 31; 31; 31; 31; 31; 31; 31; 31; 31; 31; 31; 31;
   31; 31; 31; 31; 31; 31; 31; 31; 31; 31; 31; 31; 31; 31; 31; 31; 31; 31; 31; 31; 31; 31; 31; 31; 31; 31;
   31; 31; 31; 31; 31; 31; 31; 31; 31; 31; 31; 31; 31; 31; 31; 31; 31; 31; 31; 31; 31; 31; 31; 31; 31; 31;
   31; 31; 31; 31; 31; 31; 31; 31; 31; 31; 31; 31; 31; 31; 31; 31; 31; 31; 31; 31; 31; 31; 31; 31; 31; 31;
   31; 31; 31; 31; 31; 32; 32; 32; 31; 31; 31; 31; 31; 32; 32; 32; 31; 31; 31; 31; 31; 32; 32; 32; 31; 31;
   31; 31; 31; 32; 32; 32; 30; 31; 31; 31; 31; 32; 32; 32; 30; 31; 31; 31; 31; 32; 32; 32; 30; 31; 31; 31;
   32; 32; 32; 32; 30; 31; 31; 31; 32; 32; 32; 32; 30; 31; 31; 31; 32; 32; 32; 32; 32; 31; 31; 31; 31; 31;
   31; 31; 31; 31; 31; 31; 31; 31; 31; 31; 31; 31; 31; 31; 31; 31; 31; 31; 31; 31; 31; 30; 30; 30; 30; 30;
   31; 31; 31; 31; 31; 31; 31; 31; 31; 31; 31; 31; 31; 31; 31; 31; 31; 31; 31; 31; 31; 31; 31; 31; 31; 31;
   31; 31; 31; 31; 31; 31; 31; 31; 31; 31; 31; 31; 31; 31; 31; 31; 31; 31; 31; 31; 31; 31; 31; 31; 31; 31;
   31; 31; 31; 31; 31; 31; 31; 31; 31; 31; 31; 31; 31; 31; 31; 31; 31; 31; 31; 31; 31; 31; 31; 31; 31; 31;
   31; 31; 31; 31; 31; 31; 31; 31; 31; 31; 31; 31; 31; 31; 31; 31; 31; 31; 31; 31; 31; 31; 31; 31; 31; 31;
   31; 31; 31; 31; 31; 31; 31; 31; 31; 31; 31; 31; 31; 31; 31; 31; 31; 31; 31; 31; 31; 32; 32; 32; 31; 31;
   31; 31; 31; 31; 31; 31; 31; 31; 31; 31; 31; 31; 31; 31; 31; 31; 31; 31; 31; 31; 31; 32; 32; 32; 32; 32;
   32; 32; 32; 32; 31; 31; 31; 31; 31; 31; 31; 31; 31; 31; 31; 31; 31; 31; 31; 31; 31; 31; 31; 31; 31; 31;
   31; 32; 32; 32; 32; 32; 32; 32; 32; 32; 31; 31; 31; 31; 31; 31; 31; 31; 31; 31; 31; 31; 31; 31; 31; 31;
   31; 31; 31; 31; 31; 31; 31; 32; 32; 32; 32; 32; 32; 32; 32; 32]]].

