(** * Reference mappings of the single byte code pages

    The code point of each byte from 0x80 to 0xff, or None when unassigned, taken from the
    mapping tables published by the Unicode Consortium (as shipped in the CPython codecs of
    the same name), not from the code that is modelled. Bytes below 0x80 are ASCII. *)
From Verif Require Import Base.

Definition std_iso8859_1 : list (option N) :=
  [Some 128; Some 129; Some 130; Some 131; Some 132; Some 133; Some 134; Some 135; Some 136; Some 137; Some 138; Some 139; Some 140; Some 141; Some 142; Some 143; Some 144; Some 145; Some 146; Some 147; Some 148; Some 149; Some 150; Some 151; Some 152; Some 153; Some 154; Some 155; Some 156; Some 157; Some 158; Some 159; Some 160; Some 161; Some 162; Some 163; Some 164; Some 165; Some 166; Some 167; Some 168; Some 169; Some 170; Some 171; Some 172; Some 173; Some 174; Some 175; Some 176; Some 177; Some 178; Some 179; Some 180; Some 181; Some 182; Some 183; Some 184; Some 185; Some 186; Some 187; Some 188; Some 189; Some 190; Some 191; Some 192; Some 193; Some 194; Some 195; Some 196; Some 197; Some 198; Some 199; Some 200; Some 201; Some 202; Some 203; Some 204; Some 205; Some 206; Some 207; Some 208; Some 209; Some 210; Some 211; Some 212; Some 213; Some 214; Some 215; Some 216; Some 217; Some 218; Some 219; Some 220; Some 221; Some 222; Some 223; Some 224; Some 225; Some 226; Some 227; Some 228; Some 229; Some 230; Some 231; Some 232; Some 233; Some 234; Some 235; Some 236; Some 237; Some 238; Some 239; Some 240; Some 241; Some 242; Some 243; Some 244; Some 245; Some 246; Some 247; Some 248; Some 249; Some 250; Some 251; Some 252; Some 253; Some 254; Some 255].

Definition std_iso8859_10 : list (option N) :=
  [Some 128; Some 129; Some 130; Some 131; Some 132; Some 133; Some 134; Some 135; Some 136; Some 137; Some 138; Some 139; Some 140; Some 141; Some 142; Some 143; Some 144; Some 145; Some 146; Some 147; Some 148; Some 149; Some 150; Some 151; Some 152; Some 153; Some 154; Some 155; Some 156; Some 157; Some 158; Some 159; Some 160; Some 260; Some 274; Some 290; Some 298; Some 296; Some 310; Some 167; Some 315; Some 272; Some 352; Some 358; Some 381; Some 173; Some 362; Some 330; Some 176; Some 261; Some 275; Some 291; Some 299; Some 297; Some 311; Some 183; Some 316; Some 273; Some 353; Some 359; Some 382; Some 8213; Some 363; Some 331; Some 256; Some 193; Some 194; Some 195; Some 196; Some 197; Some 198; Some 302; Some 268; Some 201; Some 280; Some 203; Some 278; Some 205; Some 206; Some 207; Some 208; Some 325; Some 332; Some 211; Some 212; Some 213; Some 214; Some 360; Some 216; Some 370; Some 218; Some 219; Some 220; Some 221; Some 222; Some 223; Some 257; Some 225; Some 226; Some 227; Some 228; Some 229; Some 230; Some 303; Some 269; Some 233; Some 281; Some 235; Some 279; Some 237; Some 238; Some 239; Some 240; Some 326; Some 333; Some 243; Some 244; Some 245; Some 246; Some 361; Some 248; Some 371; Some 250; Some 251; Some 252; Some 253; Some 254; Some 312].

Definition std_iso8859_11 : list (option N) :=
  [Some 128; Some 129; Some 130; Some 131; Some 132; Some 133; Some 134; Some 135; Some 136; Some 137; Some 138; Some 139; Some 140; Some 141; Some 142; Some 143; Some 144; Some 145; Some 146; Some 147; Some 148; Some 149; Some 150; Some 151; Some 152; Some 153; Some 154; Some 155; Some 156; Some 157; Some 158; Some 159; Some 160; Some 3585; Some 3586; Some 3587; Some 3588; Some 3589; Some 3590; Some 3591; Some 3592; Some 3593; Some 3594; Some 3595; Some 3596; Some 3597; Some 3598; Some 3599; Some 3600; Some 3601; Some 3602; Some 3603; Some 3604; Some 3605; Some 3606; Some 3607; Some 3608; Some 3609; Some 3610; Some 3611; Some 3612; Some 3613; Some 3614; Some 3615; Some 3616; Some 3617; Some 3618; Some 3619; Some 3620; Some 3621; Some 3622; Some 3623; Some 3624; Some 3625; Some 3626; Some 3627; Some 3628; Some 3629; Some 3630; Some 3631; Some 3632; Some 3633; Some 3634; Some 3635; Some 3636; Some 3637; Some 3638; Some 3639; Some 3640; Some 3641; Some 3642; None; None; None; None; Some 3647; Some 3648; Some 3649; Some 3650; Some 3651; Some 3652; Some 3653; Some 3654; Some 3655; Some 3656; Some 3657; Some 3658; Some 3659; Some 3660; Some 3661; Some 3662; Some 3663; Some 3664; Some 3665; Some 3666; Some 3667; Some 3668; Some 3669; Some 3670; Some 3671; Some 3672; Some 3673; Some 3674; Some 3675; None; None; None; None].

Definition std_iso8859_13 : list (option N) :=
  [Some 128; Some 129; Some 130; Some 131; Some 132; Some 133; Some 134; Some 135; Some 136; Some 137; Some 138; Some 139; Some 140; Some 141; Some 142; Some 143; Some 144; Some 145; Some 146; Some 147; Some 148; Some 149; Some 150; Some 151; Some 152; Some 153; Some 154; Some 155; Some 156; Some 157; Some 158; Some 159; Some 160; Some 8221; Some 162; Some 163; Some 164; Some 8222; Some 166; Some 167; Some 216; Some 169; Some 342; Some 171; Some 172; Some 173; Some 174; Some 198; Some 176; Some 177; Some 178; Some 179; Some 8220; Some 181; Some 182; Some 183; Some 248; Some 185; Some 343; Some 187; Some 188; Some 189; Some 190; Some 230; Some 260; Some 302; Some 256; Some 262; Some 196; Some 197; Some 280; Some 274; Some 268; Some 201; Some 377; Some 278; Some 290; Some 310; Some 298; Some 315; Some 352; Some 323; Some 325; Some 211; Some 332; Some 213; Some 214; Some 215; Some 370; Some 321; Some 346; Some 362; Some 220; Some 379; Some 381; Some 223; Some 261; Some 303; Some 257; Some 263; Some 228; Some 229; Some 281; Some 275; Some 269; Some 233; Some 378; Some 279; Some 291; Some 311; Some 299; Some 316; Some 353; Some 324; Some 326; Some 243; Some 333; Some 245; Some 246; Some 247; Some 371; Some 322; Some 347; Some 363; Some 252; Some 380; Some 382; Some 8217].

Definition std_iso8859_14 : list (option N) :=
  [Some 128; Some 129; Some 130; Some 131; Some 132; Some 133; Some 134; Some 135; Some 136; Some 137; Some 138; Some 139; Some 140; Some 141; Some 142; Some 143; Some 144; Some 145; Some 146; Some 147; Some 148; Some 149; Some 150; Some 151; Some 152; Some 153; Some 154; Some 155; Some 156; Some 157; Some 158; Some 159; Some 160; Some 7682; Some 7683; Some 163; Some 266; Some 267; Some 7690; Some 167; Some 7808; Some 169; Some 7810; Some 7691; Some 7922; Some 173; Some 174; Some 376; Some 7710; Some 7711; Some 288; Some 289; Some 7744; Some 7745; Some 182; Some 7766; Some 7809; Some 7767; Some 7811; Some 7776; Some 7923; Some 7812; Some 7813; Some 7777; Some 192; Some 193; Some 194; Some 195; Some 196; Some 197; Some 198; Some 199; Some 200; Some 201; Some 202; Some 203; Some 204; Some 205; Some 206; Some 207; Some 372; Some 209; Some 210; Some 211; Some 212; Some 213; Some 214; Some 7786; Some 216; Some 217; Some 218; Some 219; Some 220; Some 221; Some 374; Some 223; Some 224; Some 225; Some 226; Some 227; Some 228; Some 229; Some 230; Some 231; Some 232; Some 233; Some 234; Some 235; Some 236; Some 237; Some 238; Some 239; Some 373; Some 241; Some 242; Some 243; Some 244; Some 245; Some 246; Some 7787; Some 248; Some 249; Some 250; Some 251; Some 252; Some 253; Some 375; Some 255].

Definition std_iso8859_15 : list (option N) :=
  [Some 128; Some 129; Some 130; Some 131; Some 132; Some 133; Some 134; Some 135; Some 136; Some 137; Some 138; Some 139; Some 140; Some 141; Some 142; Some 143; Some 144; Some 145; Some 146; Some 147; Some 148; Some 149; Some 150; Some 151; Some 152; Some 153; Some 154; Some 155; Some 156; Some 157; Some 158; Some 159; Some 160; Some 161; Some 162; Some 163; Some 8364; Some 165; Some 352; Some 167; Some 353; Some 169; Some 170; Some 171; Some 172; Some 173; Some 174; Some 175; Some 176; Some 177; Some 178; Some 179; Some 381; Some 181; Some 182; Some 183; Some 382; Some 185; Some 186; Some 187; Some 338; Some 339; Some 376; Some 191; Some 192; Some 193; Some 194; Some 195; Some 196; Some 197; Some 198; Some 199; Some 200; Some 201; Some 202; Some 203; Some 204; Some 205; Some 206; Some 207; Some 208; Some 209; Some 210; Some 211; Some 212; Some 213; Some 214; Some 215; Some 216; Some 217; Some 218; Some 219; Some 220; Some 221; Some 222; Some 223; Some 224; Some 225; Some 226; Some 227; Some 228; Some 229; Some 230; Some 231; Some 232; Some 233; Some 234; Some 235; Some 236; Some 237; Some 238; Some 239; Some 240; Some 241; Some 242; Some 243; Some 244; Some 245; Some 246; Some 247; Some 248; Some 249; Some 250; Some 251; Some 252; Some 253; Some 254; Some 255].

Definition std_iso8859_16 : list (option N) :=
  [Some 128; Some 129; Some 130; Some 131; Some 132; Some 133; Some 134; Some 135; Some 136; Some 137; Some 138; Some 139; Some 140; Some 141; Some 142; Some 143; Some 144; Some 145; Some 146; Some 147; Some 148; Some 149; Some 150; Some 151; Some 152; Some 153; Some 154; Some 155; Some 156; Some 157; Some 158; Some 159; Some 160; Some 260; Some 261; Some 321; Some 8364; Some 8222; Some 352; Some 167; Some 353; Some 169; Some 536; Some 171; Some 377; Some 173; Some 378; Some 379; Some 176; Some 177; Some 268; Some 322; Some 381; Some 8221; Some 182; Some 183; Some 382; Some 269; Some 537; Some 187; Some 338; Some 339; Some 376; Some 380; Some 192; Some 193; Some 194; Some 258; Some 196; Some 262; Some 198; Some 199; Some 200; Some 201; Some 202; Some 203; Some 204; Some 205; Some 206; Some 207; Some 272; Some 323; Some 210; Some 211; Some 212; Some 336; Some 214; Some 346; Some 368; Some 217; Some 218; Some 219; Some 220; Some 280; Some 538; Some 223; Some 224; Some 225; Some 226; Some 259; Some 228; Some 263; Some 230; Some 231; Some 232; Some 233; Some 234; Some 235; Some 236; Some 237; Some 238; Some 239; Some 273; Some 324; Some 242; Some 243; Some 244; Some 337; Some 246; Some 347; Some 369; Some 249; Some 250; Some 251; Some 252; Some 281; Some 539; Some 255].

Definition std_iso8859_2 : list (option N) :=
  [Some 128; Some 129; Some 130; Some 131; Some 132; Some 133; Some 134; Some 135; Some 136; Some 137; Some 138; Some 139; Some 140; Some 141; Some 142; Some 143; Some 144; Some 145; Some 146; Some 147; Some 148; Some 149; Some 150; Some 151; Some 152; Some 153; Some 154; Some 155; Some 156; Some 157; Some 158; Some 159; Some 160; Some 260; Some 728; Some 321; Some 164; Some 317; Some 346; Some 167; Some 168; Some 352; Some 350; Some 356; Some 377; Some 173; Some 381; Some 379; Some 176; Some 261; Some 731; Some 322; Some 180; Some 318; Some 347; Some 711; Some 184; Some 353; Some 351; Some 357; Some 378; Some 733; Some 382; Some 380; Some 340; Some 193; Some 194; Some 258; Some 196; Some 313; Some 262; Some 199; Some 268; Some 201; Some 280; Some 203; Some 282; Some 205; Some 206; Some 270; Some 272; Some 323; Some 327; Some 211; Some 212; Some 336; Some 214; Some 215; Some 344; Some 366; Some 218; Some 368; Some 220; Some 221; Some 354; Some 223; Some 341; Some 225; Some 226; Some 259; Some 228; Some 314; Some 263; Some 231; Some 269; Some 233; Some 281; Some 235; Some 283; Some 237; Some 238; Some 271; Some 273; Some 324; Some 328; Some 243; Some 244; Some 337; Some 246; Some 247; Some 345; Some 367; Some 250; Some 369; Some 252; Some 253; Some 355; Some 729].

Definition std_iso8859_3 : list (option N) :=
  [Some 128; Some 129; Some 130; Some 131; Some 132; Some 133; Some 134; Some 135; Some 136; Some 137; Some 138; Some 139; Some 140; Some 141; Some 142; Some 143; Some 144; Some 145; Some 146; Some 147; Some 148; Some 149; Some 150; Some 151; Some 152; Some 153; Some 154; Some 155; Some 156; Some 157; Some 158; Some 159; Some 160; Some 294; Some 728; Some 163; Some 164; None; Some 292; Some 167; Some 168; Some 304; Some 350; Some 286; Some 308; Some 173; None; Some 379; Some 176; Some 295; Some 178; Some 179; Some 180; Some 181; Some 293; Some 183; Some 184; Some 305; Some 351; Some 287; Some 309; Some 189; None; Some 380; Some 192; Some 193; Some 194; None; Some 196; Some 266; Some 264; Some 199; Some 200; Some 201; Some 202; Some 203; Some 204; Some 205; Some 206; Some 207; None; Some 209; Some 210; Some 211; Some 212; Some 288; Some 214; Some 215; Some 284; Some 217; Some 218; Some 219; Some 220; Some 364; Some 348; Some 223; Some 224; Some 225; Some 226; None; Some 228; Some 267; Some 265; Some 231; Some 232; Some 233; Some 234; Some 235; Some 236; Some 237; Some 238; Some 239; None; Some 241; Some 242; Some 243; Some 244; Some 289; Some 246; Some 247; Some 285; Some 249; Some 250; Some 251; Some 252; Some 365; Some 349; Some 729].

Definition std_iso8859_4 : list (option N) :=
  [Some 128; Some 129; Some 130; Some 131; Some 132; Some 133; Some 134; Some 135; Some 136; Some 137; Some 138; Some 139; Some 140; Some 141; Some 142; Some 143; Some 144; Some 145; Some 146; Some 147; Some 148; Some 149; Some 150; Some 151; Some 152; Some 153; Some 154; Some 155; Some 156; Some 157; Some 158; Some 159; Some 160; Some 260; Some 312; Some 342; Some 164; Some 296; Some 315; Some 167; Some 168; Some 352; Some 274; Some 290; Some 358; Some 173; Some 381; Some 175; Some 176; Some 261; Some 731; Some 343; Some 180; Some 297; Some 316; Some 711; Some 184; Some 353; Some 275; Some 291; Some 359; Some 330; Some 382; Some 331; Some 256; Some 193; Some 194; Some 195; Some 196; Some 197; Some 198; Some 302; Some 268; Some 201; Some 280; Some 203; Some 278; Some 205; Some 206; Some 298; Some 272; Some 325; Some 332; Some 310; Some 212; Some 213; Some 214; Some 215; Some 216; Some 370; Some 218; Some 219; Some 220; Some 360; Some 362; Some 223; Some 257; Some 225; Some 226; Some 227; Some 228; Some 229; Some 230; Some 303; Some 269; Some 233; Some 281; Some 235; Some 279; Some 237; Some 238; Some 299; Some 273; Some 326; Some 333; Some 311; Some 244; Some 245; Some 246; Some 247; Some 248; Some 371; Some 250; Some 251; Some 252; Some 361; Some 363; Some 729].

Definition std_iso8859_5 : list (option N) :=
  [Some 128; Some 129; Some 130; Some 131; Some 132; Some 133; Some 134; Some 135; Some 136; Some 137; Some 138; Some 139; Some 140; Some 141; Some 142; Some 143; Some 144; Some 145; Some 146; Some 147; Some 148; Some 149; Some 150; Some 151; Some 152; Some 153; Some 154; Some 155; Some 156; Some 157; Some 158; Some 159; Some 160; Some 1025; Some 1026; Some 1027; Some 1028; Some 1029; Some 1030; Some 1031; Some 1032; Some 1033; Some 1034; Some 1035; Some 1036; Some 173; Some 1038; Some 1039; Some 1040; Some 1041; Some 1042; Some 1043; Some 1044; Some 1045; Some 1046; Some 1047; Some 1048; Some 1049; Some 1050; Some 1051; Some 1052; Some 1053; Some 1054; Some 1055; Some 1056; Some 1057; Some 1058; Some 1059; Some 1060; Some 1061; Some 1062; Some 1063; Some 1064; Some 1065; Some 1066; Some 1067; Some 1068; Some 1069; Some 1070; Some 1071; Some 1072; Some 1073; Some 1074; Some 1075; Some 1076; Some 1077; Some 1078; Some 1079; Some 1080; Some 1081; Some 1082; Some 1083; Some 1084; Some 1085; Some 1086; Some 1087; Some 1088; Some 1089; Some 1090; Some 1091; Some 1092; Some 1093; Some 1094; Some 1095; Some 1096; Some 1097; Some 1098; Some 1099; Some 1100; Some 1101; Some 1102; Some 1103; Some 8470; Some 1105; Some 1106; Some 1107; Some 1108; Some 1109; Some 1110; Some 1111; Some 1112; Some 1113; Some 1114; Some 1115; Some 1116; Some 167; Some 1118; Some 1119].

Definition std_iso8859_6 : list (option N) :=
  [Some 128; Some 129; Some 130; Some 131; Some 132; Some 133; Some 134; Some 135; Some 136; Some 137; Some 138; Some 139; Some 140; Some 141; Some 142; Some 143; Some 144; Some 145; Some 146; Some 147; Some 148; Some 149; Some 150; Some 151; Some 152; Some 153; Some 154; Some 155; Some 156; Some 157; Some 158; Some 159; Some 160; None; None; None; Some 164; None; None; None; None; None; None; None; Some 1548; Some 173; None; None; None; None; None; None; None; None; None; None; None; None; None; Some 1563; None; None; None; Some 1567; None; Some 1569; Some 1570; Some 1571; Some 1572; Some 1573; Some 1574; Some 1575; Some 1576; Some 1577; Some 1578; Some 1579; Some 1580; Some 1581; Some 1582; Some 1583; Some 1584; Some 1585; Some 1586; Some 1587; Some 1588; Some 1589; Some 1590; Some 1591; Some 1592; Some 1593; Some 1594; None; None; None; None; None; Some 1600; Some 1601; Some 1602; Some 1603; Some 1604; Some 1605; Some 1606; Some 1607; Some 1608; Some 1609; Some 1610; Some 1611; Some 1612; Some 1613; Some 1614; Some 1615; Some 1616; Some 1617; Some 1618; None; None; None; None; None; None; None; None; None; None; None; None; None].

Definition std_iso8859_7 : list (option N) :=
  [Some 128; Some 129; Some 130; Some 131; Some 132; Some 133; Some 134; Some 135; Some 136; Some 137; Some 138; Some 139; Some 140; Some 141; Some 142; Some 143; Some 144; Some 145; Some 146; Some 147; Some 148; Some 149; Some 150; Some 151; Some 152; Some 153; Some 154; Some 155; Some 156; Some 157; Some 158; Some 159; Some 160; Some 8216; Some 8217; Some 163; Some 8364; Some 8367; Some 166; Some 167; Some 168; Some 169; Some 890; Some 171; Some 172; Some 173; None; Some 8213; Some 176; Some 177; Some 178; Some 179; Some 900; Some 901; Some 902; Some 183; Some 904; Some 905; Some 906; Some 187; Some 908; Some 189; Some 910; Some 911; Some 912; Some 913; Some 914; Some 915; Some 916; Some 917; Some 918; Some 919; Some 920; Some 921; Some 922; Some 923; Some 924; Some 925; Some 926; Some 927; Some 928; Some 929; None; Some 931; Some 932; Some 933; Some 934; Some 935; Some 936; Some 937; Some 938; Some 939; Some 940; Some 941; Some 942; Some 943; Some 944; Some 945; Some 946; Some 947; Some 948; Some 949; Some 950; Some 951; Some 952; Some 953; Some 954; Some 955; Some 956; Some 957; Some 958; Some 959; Some 960; Some 961; Some 962; Some 963; Some 964; Some 965; Some 966; Some 967; Some 968; Some 969; Some 970; Some 971; Some 972; Some 973; Some 974; None].

Definition std_iso8859_8 : list (option N) :=
  [Some 128; Some 129; Some 130; Some 131; Some 132; Some 133; Some 134; Some 135; Some 136; Some 137; Some 138; Some 139; Some 140; Some 141; Some 142; Some 143; Some 144; Some 145; Some 146; Some 147; Some 148; Some 149; Some 150; Some 151; Some 152; Some 153; Some 154; Some 155; Some 156; Some 157; Some 158; Some 159; Some 160; None; Some 162; Some 163; Some 164; Some 165; Some 166; Some 167; Some 168; Some 169; Some 215; Some 171; Some 172; Some 173; Some 174; Some 175; Some 176; Some 177; Some 178; Some 179; Some 180; Some 181; Some 182; Some 183; Some 184; Some 185; Some 247; Some 187; Some 188; Some 189; Some 190; None; None; None; None; None; None; None; None; None; None; None; None; None; None; None; None; None; None; None; None; None; None; None; None; None; None; None; None; None; None; None; None; Some 8215; Some 1488; Some 1489; Some 1490; Some 1491; Some 1492; Some 1493; Some 1494; Some 1495; Some 1496; Some 1497; Some 1498; Some 1499; Some 1500; Some 1501; Some 1502; Some 1503; Some 1504; Some 1505; Some 1506; Some 1507; Some 1508; Some 1509; Some 1510; Some 1511; Some 1512; Some 1513; Some 1514; None; None; Some 8206; Some 8207; None].

Definition std_iso8859_9 : list (option N) :=
  [Some 128; Some 129; Some 130; Some 131; Some 132; Some 133; Some 134; Some 135; Some 136; Some 137; Some 138; Some 139; Some 140; Some 141; Some 142; Some 143; Some 144; Some 145; Some 146; Some 147; Some 148; Some 149; Some 150; Some 151; Some 152; Some 153; Some 154; Some 155; Some 156; Some 157; Some 158; Some 159; Some 160; Some 161; Some 162; Some 163; Some 164; Some 165; Some 166; Some 167; Some 168; Some 169; Some 170; Some 171; Some 172; Some 173; Some 174; Some 175; Some 176; Some 177; Some 178; Some 179; Some 180; Some 181; Some 182; Some 183; Some 184; Some 185; Some 186; Some 187; Some 188; Some 189; Some 190; Some 191; Some 192; Some 193; Some 194; Some 195; Some 196; Some 197; Some 198; Some 199; Some 200; Some 201; Some 202; Some 203; Some 204; Some 205; Some 206; Some 207; Some 286; Some 209; Some 210; Some 211; Some 212; Some 213; Some 214; Some 215; Some 216; Some 217; Some 218; Some 219; Some 220; Some 304; Some 350; Some 223; Some 224; Some 225; Some 226; Some 227; Some 228; Some 229; Some 230; Some 231; Some 232; Some 233; Some 234; Some 235; Some 236; Some 237; Some 238; Some 239; Some 287; Some 241; Some 242; Some 243; Some 244; Some 245; Some 246; Some 247; Some 248; Some 249; Some 250; Some 251; Some 252; Some 305; Some 351; Some 255].

Definition std_koi8_r : list (option N) :=
  [Some 9472; Some 9474; Some 9484; Some 9488; Some 9492; Some 9496; Some 9500; Some 9508; Some 9516; Some 9524; Some 9532; Some 9600; Some 9604; Some 9608; Some 9612; Some 9616; Some 9617; Some 9618; Some 9619; Some 8992; Some 9632; Some 8729; Some 8730; Some 8776; Some 8804; Some 8805; Some 160; Some 8993; Some 176; Some 178; Some 183; Some 247; Some 9552; Some 9553; Some 9554; Some 1105; Some 9555; Some 9556; Some 9557; Some 9558; Some 9559; Some 9560; Some 9561; Some 9562; Some 9563; Some 9564; Some 9565; Some 9566; Some 9567; Some 9568; Some 9569; Some 1025; Some 9570; Some 9571; Some 9572; Some 9573; Some 9574; Some 9575; Some 9576; Some 9577; Some 9578; Some 9579; Some 9580; Some 169; Some 1102; Some 1072; Some 1073; Some 1094; Some 1076; Some 1077; Some 1092; Some 1075; Some 1093; Some 1080; Some 1081; Some 1082; Some 1083; Some 1084; Some 1085; Some 1086; Some 1087; Some 1103; Some 1088; Some 1089; Some 1090; Some 1091; Some 1078; Some 1074; Some 1100; Some 1099; Some 1079; Some 1096; Some 1101; Some 1097; Some 1095; Some 1098; Some 1070; Some 1040; Some 1041; Some 1062; Some 1044; Some 1045; Some 1060; Some 1043; Some 1061; Some 1048; Some 1049; Some 1050; Some 1051; Some 1052; Some 1053; Some 1054; Some 1055; Some 1071; Some 1056; Some 1057; Some 1058; Some 1059; Some 1046; Some 1042; Some 1068; Some 1067; Some 1047; Some 1064; Some 1069; Some 1065; Some 1063; Some 1066].

Definition std_koi8_u : list (option N) :=
  [Some 9472; Some 9474; Some 9484; Some 9488; Some 9492; Some 9496; Some 9500; Some 9508; Some 9516; Some 9524; Some 9532; Some 9600; Some 9604; Some 9608; Some 9612; Some 9616; Some 9617; Some 9618; Some 9619; Some 8992; Some 9632; Some 8729; Some 8730; Some 8776; Some 8804; Some 8805; Some 160; Some 8993; Some 176; Some 178; Some 183; Some 247; Some 9552; Some 9553; Some 9554; Some 1105; Some 1108; Some 9556; Some 1110; Some 1111; Some 9559; Some 9560; Some 9561; Some 9562; Some 9563; Some 1169; Some 9565; Some 9566; Some 9567; Some 9568; Some 9569; Some 1025; Some 1028; Some 9571; Some 1030; Some 1031; Some 9574; Some 9575; Some 9576; Some 9577; Some 9578; Some 1168; Some 9580; Some 169; Some 1102; Some 1072; Some 1073; Some 1094; Some 1076; Some 1077; Some 1092; Some 1075; Some 1093; Some 1080; Some 1081; Some 1082; Some 1083; Some 1084; Some 1085; Some 1086; Some 1087; Some 1103; Some 1088; Some 1089; Some 1090; Some 1091; Some 1078; Some 1074; Some 1100; Some 1099; Some 1079; Some 1096; Some 1101; Some 1097; Some 1095; Some 1098; Some 1070; Some 1040; Some 1041; Some 1062; Some 1044; Some 1045; Some 1060; Some 1043; Some 1061; Some 1048; Some 1049; Some 1050; Some 1051; Some 1052; Some 1053; Some 1054; Some 1055; Some 1071; Some 1056; Some 1057; Some 1058; Some 1059; Some 1046; Some 1042; Some 1068; Some 1067; Some 1047; Some 1064; Some 1069; Some 1065; Some 1063; Some 1066].

Definition std_mac_arabic : list (option N) :=
  [Some 196; Some 160; Some 199; Some 201; Some 209; Some 214; Some 220; Some 225; Some 224; Some 226; Some 228; Some 1722; Some 171; Some 231; Some 233; Some 232; Some 234; Some 235; Some 237; Some 8230; Some 238; Some 239; Some 241; Some 243; Some 187; Some 244; Some 246; Some 247; Some 250; Some 249; Some 251; Some 252; Some 32; Some 33; Some 34; Some 35; Some 36; Some 1642; Some 38; Some 39; Some 40; Some 41; Some 42; Some 43; Some 1548; Some 45; Some 46; Some 47; Some 1632; Some 1633; Some 1634; Some 1635; Some 1636; Some 1637; Some 1638; Some 1639; Some 1640; Some 1641; Some 58; Some 1563; Some 60; Some 61; Some 62; Some 1567; Some 10058; Some 1569; Some 1570; Some 1571; Some 1572; Some 1573; Some 1574; Some 1575; Some 1576; Some 1577; Some 1578; Some 1579; Some 1580; Some 1581; Some 1582; Some 1583; Some 1584; Some 1585; Some 1586; Some 1587; Some 1588; Some 1589; Some 1590; Some 1591; Some 1592; Some 1593; Some 1594; Some 91; Some 92; Some 93; Some 94; Some 95; Some 1600; Some 1601; Some 1602; Some 1603; Some 1604; Some 1605; Some 1606; Some 1607; Some 1608; Some 1609; Some 1610; Some 1611; Some 1612; Some 1613; Some 1614; Some 1615; Some 1616; Some 1617; Some 1618; Some 1662; Some 1657; Some 1670; Some 1749; Some 1700; Some 1711; Some 1672; Some 1681; Some 123; Some 124; Some 125; Some 1688; Some 1746].

Definition std_mac_central_eur_roman : list (option N) :=
  [Some 196; Some 256; Some 257; Some 201; Some 260; Some 214; Some 220; Some 225; Some 261; Some 268; Some 228; Some 269; Some 262; Some 263; Some 233; Some 377; Some 378; Some 270; Some 237; Some 271; Some 274; Some 275; Some 278; Some 243; Some 279; Some 244; Some 246; Some 245; Some 250; Some 282; Some 283; Some 252; Some 8224; Some 176; Some 280; Some 163; Some 167; Some 8226; Some 182; Some 223; Some 174; Some 169; Some 8482; Some 281; Some 168; Some 8800; Some 291; Some 302; Some 303; Some 298; Some 8804; Some 8805; Some 299; Some 310; Some 8706; Some 8721; Some 322; Some 315; Some 316; Some 317; Some 318; Some 313; Some 314; Some 325; Some 326; Some 323; Some 172; Some 8730; Some 324; Some 327; Some 8710; Some 171; Some 187; Some 8230; Some 160; Some 328; Some 336; Some 213; Some 337; Some 332; Some 8211; Some 8212; Some 8220; Some 8221; Some 8216; Some 8217; Some 247; Some 9674; Some 333; Some 340; Some 341; Some 344; Some 8249; Some 8250; Some 345; Some 342; Some 343; Some 352; Some 8218; Some 8222; Some 353; Some 346; Some 347; Some 193; Some 356; Some 357; Some 205; Some 381; Some 382; Some 362; Some 211; Some 212; Some 363; Some 366; Some 218; Some 367; Some 368; Some 369; Some 370; Some 371; Some 221; Some 253; Some 311; Some 379; Some 321; Some 380; Some 290; Some 711].

Definition std_mac_croatian : list (option N) :=
  [Some 196; Some 197; Some 199; Some 201; Some 209; Some 214; Some 220; Some 225; Some 224; Some 226; Some 228; Some 227; Some 229; Some 231; Some 233; Some 232; Some 234; Some 235; Some 237; Some 236; Some 238; Some 239; Some 241; Some 243; Some 242; Some 244; Some 246; Some 245; Some 250; Some 249; Some 251; Some 252; Some 8224; Some 176; Some 162; Some 163; Some 167; Some 8226; Some 182; Some 223; Some 174; Some 352; Some 8482; Some 180; Some 168; Some 8800; Some 381; Some 216; Some 8734; Some 177; Some 8804; Some 8805; Some 8710; Some 181; Some 8706; Some 8721; Some 8719; Some 353; Some 8747; Some 170; Some 186; Some 937; Some 382; Some 248; Some 191; Some 161; Some 172; Some 8730; Some 402; Some 8776; Some 262; Some 171; Some 268; Some 8230; Some 160; Some 192; Some 195; Some 213; Some 338; Some 339; Some 272; Some 8212; Some 8220; Some 8221; Some 8216; Some 8217; Some 247; Some 9674; Some 63743; Some 169; Some 8260; Some 8364; Some 8249; Some 8250; Some 198; Some 187; Some 8211; Some 183; Some 8218; Some 8222; Some 8240; Some 194; Some 263; Some 193; Some 269; Some 200; Some 205; Some 206; Some 207; Some 204; Some 211; Some 212; Some 273; Some 210; Some 218; Some 219; Some 217; Some 305; Some 710; Some 732; Some 175; Some 960; Some 203; Some 730; Some 184; Some 202; Some 230; Some 711].

Definition std_mac_cyrillic : list (option N) :=
  [Some 1040; Some 1041; Some 1042; Some 1043; Some 1044; Some 1045; Some 1046; Some 1047; Some 1048; Some 1049; Some 1050; Some 1051; Some 1052; Some 1053; Some 1054; Some 1055; Some 1056; Some 1057; Some 1058; Some 1059; Some 1060; Some 1061; Some 1062; Some 1063; Some 1064; Some 1065; Some 1066; Some 1067; Some 1068; Some 1069; Some 1070; Some 1071; Some 8224; Some 176; Some 1168; Some 163; Some 167; Some 8226; Some 182; Some 1030; Some 174; Some 169; Some 8482; Some 1026; Some 1106; Some 8800; Some 1027; Some 1107; Some 8734; Some 177; Some 8804; Some 8805; Some 1110; Some 181; Some 1169; Some 1032; Some 1028; Some 1108; Some 1031; Some 1111; Some 1033; Some 1113; Some 1034; Some 1114; Some 1112; Some 1029; Some 172; Some 8730; Some 402; Some 8776; Some 8710; Some 171; Some 187; Some 8230; Some 160; Some 1035; Some 1115; Some 1036; Some 1116; Some 1109; Some 8211; Some 8212; Some 8220; Some 8221; Some 8216; Some 8217; Some 247; Some 8222; Some 1038; Some 1118; Some 1039; Some 1119; Some 8470; Some 1025; Some 1105; Some 1103; Some 1072; Some 1073; Some 1074; Some 1075; Some 1076; Some 1077; Some 1078; Some 1079; Some 1080; Some 1081; Some 1082; Some 1083; Some 1084; Some 1085; Some 1086; Some 1087; Some 1088; Some 1089; Some 1090; Some 1091; Some 1092; Some 1093; Some 1094; Some 1095; Some 1096; Some 1097; Some 1098; Some 1099; Some 1100; Some 1101; Some 1102; Some 8364].

Definition std_mac_farsi : list (option N) :=
  [Some 196; Some 160; Some 199; Some 201; Some 209; Some 214; Some 220; Some 225; Some 224; Some 226; Some 228; Some 1722; Some 171; Some 231; Some 233; Some 232; Some 234; Some 235; Some 237; Some 8230; Some 238; Some 239; Some 241; Some 243; Some 187; Some 244; Some 246; Some 247; Some 250; Some 249; Some 251; Some 252; Some 32; Some 33; Some 34; Some 35; Some 36; Some 1642; Some 38; Some 39; Some 40; Some 41; Some 42; Some 43; Some 1548; Some 45; Some 46; Some 47; Some 1776; Some 1777; Some 1778; Some 1779; Some 1780; Some 1781; Some 1782; Some 1783; Some 1784; Some 1785; Some 58; Some 1563; Some 60; Some 61; Some 62; Some 1567; Some 10058; Some 1569; Some 1570; Some 1571; Some 1572; Some 1573; Some 1574; Some 1575; Some 1576; Some 1577; Some 1578; Some 1579; Some 1580; Some 1581; Some 1582; Some 1583; Some 1584; Some 1585; Some 1586; Some 1587; Some 1588; Some 1589; Some 1590; Some 1591; Some 1592; Some 1593; Some 1594; Some 91; Some 92; Some 93; Some 94; Some 95; Some 1600; Some 1601; Some 1602; Some 1603; Some 1604; Some 1605; Some 1606; Some 1607; Some 1608; Some 1609; Some 1610; Some 1611; Some 1612; Some 1613; Some 1614; Some 1615; Some 1616; Some 1617; Some 1618; Some 1662; Some 1657; Some 1670; Some 1749; Some 1700; Some 1711; Some 1672; Some 1681; Some 123; Some 124; Some 125; Some 1688; Some 1746].

Definition std_windows1250 : list (option N) :=
  [Some 8364; None; Some 8218; None; Some 8222; Some 8230; Some 8224; Some 8225; None; Some 8240; Some 352; Some 8249; Some 346; Some 356; Some 381; Some 377; None; Some 8216; Some 8217; Some 8220; Some 8221; Some 8226; Some 8211; Some 8212; None; Some 8482; Some 353; Some 8250; Some 347; Some 357; Some 382; Some 378; Some 160; Some 711; Some 728; Some 321; Some 164; Some 260; Some 166; Some 167; Some 168; Some 169; Some 350; Some 171; Some 172; Some 173; Some 174; Some 379; Some 176; Some 177; Some 731; Some 322; Some 180; Some 181; Some 182; Some 183; Some 184; Some 261; Some 351; Some 187; Some 317; Some 733; Some 318; Some 380; Some 340; Some 193; Some 194; Some 258; Some 196; Some 313; Some 262; Some 199; Some 268; Some 201; Some 280; Some 203; Some 282; Some 205; Some 206; Some 270; Some 272; Some 323; Some 327; Some 211; Some 212; Some 336; Some 214; Some 215; Some 344; Some 366; Some 218; Some 368; Some 220; Some 221; Some 354; Some 223; Some 341; Some 225; Some 226; Some 259; Some 228; Some 314; Some 263; Some 231; Some 269; Some 233; Some 281; Some 235; Some 283; Some 237; Some 238; Some 271; Some 273; Some 324; Some 328; Some 243; Some 244; Some 337; Some 246; Some 247; Some 345; Some 367; Some 250; Some 369; Some 252; Some 253; Some 355; Some 729].

Definition std_windows1251 : list (option N) :=
  [Some 1026; Some 1027; Some 8218; Some 1107; Some 8222; Some 8230; Some 8224; Some 8225; Some 8364; Some 8240; Some 1033; Some 8249; Some 1034; Some 1036; Some 1035; Some 1039; Some 1106; Some 8216; Some 8217; Some 8220; Some 8221; Some 8226; Some 8211; Some 8212; None; Some 8482; Some 1113; Some 8250; Some 1114; Some 1116; Some 1115; Some 1119; Some 160; Some 1038; Some 1118; Some 1032; Some 164; Some 1168; Some 166; Some 167; Some 1025; Some 169; Some 1028; Some 171; Some 172; Some 173; Some 174; Some 1031; Some 176; Some 177; Some 1030; Some 1110; Some 1169; Some 181; Some 182; Some 183; Some 1105; Some 8470; Some 1108; Some 187; Some 1112; Some 1029; Some 1109; Some 1111; Some 1040; Some 1041; Some 1042; Some 1043; Some 1044; Some 1045; Some 1046; Some 1047; Some 1048; Some 1049; Some 1050; Some 1051; Some 1052; Some 1053; Some 1054; Some 1055; Some 1056; Some 1057; Some 1058; Some 1059; Some 1060; Some 1061; Some 1062; Some 1063; Some 1064; Some 1065; Some 1066; Some 1067; Some 1068; Some 1069; Some 1070; Some 1071; Some 1072; Some 1073; Some 1074; Some 1075; Some 1076; Some 1077; Some 1078; Some 1079; Some 1080; Some 1081; Some 1082; Some 1083; Some 1084; Some 1085; Some 1086; Some 1087; Some 1088; Some 1089; Some 1090; Some 1091; Some 1092; Some 1093; Some 1094; Some 1095; Some 1096; Some 1097; Some 1098; Some 1099; Some 1100; Some 1101; Some 1102; Some 1103].

Definition std_windows1252 : list (option N) :=
  [Some 8364; None; Some 8218; Some 402; Some 8222; Some 8230; Some 8224; Some 8225; Some 710; Some 8240; Some 352; Some 8249; Some 338; None; Some 381; None; None; Some 8216; Some 8217; Some 8220; Some 8221; Some 8226; Some 8211; Some 8212; Some 732; Some 8482; Some 353; Some 8250; Some 339; None; Some 382; Some 376; Some 160; Some 161; Some 162; Some 163; Some 164; Some 165; Some 166; Some 167; Some 168; Some 169; Some 170; Some 171; Some 172; Some 173; Some 174; Some 175; Some 176; Some 177; Some 178; Some 179; Some 180; Some 181; Some 182; Some 183; Some 184; Some 185; Some 186; Some 187; Some 188; Some 189; Some 190; Some 191; Some 192; Some 193; Some 194; Some 195; Some 196; Some 197; Some 198; Some 199; Some 200; Some 201; Some 202; Some 203; Some 204; Some 205; Some 206; Some 207; Some 208; Some 209; Some 210; Some 211; Some 212; Some 213; Some 214; Some 215; Some 216; Some 217; Some 218; Some 219; Some 220; Some 221; Some 222; Some 223; Some 224; Some 225; Some 226; Some 227; Some 228; Some 229; Some 230; Some 231; Some 232; Some 233; Some 234; Some 235; Some 236; Some 237; Some 238; Some 239; Some 240; Some 241; Some 242; Some 243; Some 244; Some 245; Some 246; Some 247; Some 248; Some 249; Some 250; Some 251; Some 252; Some 253; Some 254; Some 255].

Definition std_windows1253 : list (option N) :=
  [Some 8364; None; Some 8218; Some 402; Some 8222; Some 8230; Some 8224; Some 8225; None; Some 8240; None; Some 8249; None; None; None; None; None; Some 8216; Some 8217; Some 8220; Some 8221; Some 8226; Some 8211; Some 8212; None; Some 8482; None; Some 8250; None; None; None; None; Some 160; Some 901; Some 902; Some 163; Some 164; Some 165; Some 166; Some 167; Some 168; Some 169; None; Some 171; Some 172; Some 173; Some 174; Some 8213; Some 176; Some 177; Some 178; Some 179; Some 900; Some 181; Some 182; Some 183; Some 904; Some 905; Some 906; Some 187; Some 908; Some 189; Some 910; Some 911; Some 912; Some 913; Some 914; Some 915; Some 916; Some 917; Some 918; Some 919; Some 920; Some 921; Some 922; Some 923; Some 924; Some 925; Some 926; Some 927; Some 928; Some 929; None; Some 931; Some 932; Some 933; Some 934; Some 935; Some 936; Some 937; Some 938; Some 939; Some 940; Some 941; Some 942; Some 943; Some 944; Some 945; Some 946; Some 947; Some 948; Some 949; Some 950; Some 951; Some 952; Some 953; Some 954; Some 955; Some 956; Some 957; Some 958; Some 959; Some 960; Some 961; Some 962; Some 963; Some 964; Some 965; Some 966; Some 967; Some 968; Some 969; Some 970; Some 971; Some 972; Some 973; Some 974; None].

Definition std_windows1254 : list (option N) :=
  [Some 8364; None; Some 8218; Some 402; Some 8222; Some 8230; Some 8224; Some 8225; Some 710; Some 8240; Some 352; Some 8249; Some 338; None; None; None; None; Some 8216; Some 8217; Some 8220; Some 8221; Some 8226; Some 8211; Some 8212; Some 732; Some 8482; Some 353; Some 8250; Some 339; None; None; Some 376; Some 160; Some 161; Some 162; Some 163; Some 164; Some 165; Some 166; Some 167; Some 168; Some 169; Some 170; Some 171; Some 172; Some 173; Some 174; Some 175; Some 176; Some 177; Some 178; Some 179; Some 180; Some 181; Some 182; Some 183; Some 184; Some 185; Some 186; Some 187; Some 188; Some 189; Some 190; Some 191; Some 192; Some 193; Some 194; Some 195; Some 196; Some 197; Some 198; Some 199; Some 200; Some 201; Some 202; Some 203; Some 204; Some 205; Some 206; Some 207; Some 286; Some 209; Some 210; Some 211; Some 212; Some 213; Some 214; Some 215; Some 216; Some 217; Some 218; Some 219; Some 220; Some 304; Some 350; Some 223; Some 224; Some 225; Some 226; Some 227; Some 228; Some 229; Some 230; Some 231; Some 232; Some 233; Some 234; Some 235; Some 236; Some 237; Some 238; Some 239; Some 287; Some 241; Some 242; Some 243; Some 244; Some 245; Some 246; Some 247; Some 248; Some 249; Some 250; Some 251; Some 252; Some 305; Some 351; Some 255].

Definition std_windows1255 : list (option N) :=
  [Some 8364; None; Some 8218; Some 402; Some 8222; Some 8230; Some 8224; Some 8225; Some 710; Some 8240; None; Some 8249; None; None; None; None; None; Some 8216; Some 8217; Some 8220; Some 8221; Some 8226; Some 8211; Some 8212; Some 732; Some 8482; None; Some 8250; None; None; None; None; Some 160; Some 161; Some 162; Some 163; Some 8362; Some 165; Some 166; Some 167; Some 168; Some 169; Some 215; Some 171; Some 172; Some 173; Some 174; Some 175; Some 176; Some 177; Some 178; Some 179; Some 180; Some 181; Some 182; Some 183; Some 184; Some 185; Some 247; Some 187; Some 188; Some 189; Some 190; Some 191; Some 1456; Some 1457; Some 1458; Some 1459; Some 1460; Some 1461; Some 1462; Some 1463; Some 1464; Some 1465; None; Some 1467; Some 1468; Some 1469; Some 1470; Some 1471; Some 1472; Some 1473; Some 1474; Some 1475; Some 1520; Some 1521; Some 1522; Some 1523; Some 1524; None; None; None; None; None; None; None; Some 1488; Some 1489; Some 1490; Some 1491; Some 1492; Some 1493; Some 1494; Some 1495; Some 1496; Some 1497; Some 1498; Some 1499; Some 1500; Some 1501; Some 1502; Some 1503; Some 1504; Some 1505; Some 1506; Some 1507; Some 1508; Some 1509; Some 1510; Some 1511; Some 1512; Some 1513; Some 1514; None; None; Some 8206; Some 8207; None].

Definition std_windows1256 : list (option N) :=
  [Some 8364; Some 1662; Some 8218; Some 402; Some 8222; Some 8230; Some 8224; Some 8225; Some 710; Some 8240; Some 1657; Some 8249; Some 338; Some 1670; Some 1688; Some 1672; Some 1711; Some 8216; Some 8217; Some 8220; Some 8221; Some 8226; Some 8211; Some 8212; Some 1705; Some 8482; Some 1681; Some 8250; Some 339; Some 8204; Some 8205; Some 1722; Some 160; Some 1548; Some 162; Some 163; Some 164; Some 165; Some 166; Some 167; Some 168; Some 169; Some 1726; Some 171; Some 172; Some 173; Some 174; Some 175; Some 176; Some 177; Some 178; Some 179; Some 180; Some 181; Some 182; Some 183; Some 184; Some 185; Some 1563; Some 187; Some 188; Some 189; Some 190; Some 1567; Some 1729; Some 1569; Some 1570; Some 1571; Some 1572; Some 1573; Some 1574; Some 1575; Some 1576; Some 1577; Some 1578; Some 1579; Some 1580; Some 1581; Some 1582; Some 1583; Some 1584; Some 1585; Some 1586; Some 1587; Some 1588; Some 1589; Some 1590; Some 215; Some 1591; Some 1592; Some 1593; Some 1594; Some 1600; Some 1601; Some 1602; Some 1603; Some 224; Some 1604; Some 226; Some 1605; Some 1606; Some 1607; Some 1608; Some 231; Some 232; Some 233; Some 234; Some 235; Some 1609; Some 1610; Some 238; Some 239; Some 1611; Some 1612; Some 1613; Some 1614; Some 244; Some 1615; Some 1616; Some 247; Some 1617; Some 249; Some 1618; Some 251; Some 252; Some 8206; Some 8207; Some 1746].

Definition std_windows1257 : list (option N) :=
  [Some 8364; None; Some 8218; None; Some 8222; Some 8230; Some 8224; Some 8225; None; Some 8240; None; Some 8249; None; Some 168; Some 711; Some 184; None; Some 8216; Some 8217; Some 8220; Some 8221; Some 8226; Some 8211; Some 8212; None; Some 8482; None; Some 8250; None; Some 175; Some 731; None; Some 160; None; Some 162; Some 163; Some 164; None; Some 166; Some 167; Some 216; Some 169; Some 342; Some 171; Some 172; Some 173; Some 174; Some 198; Some 176; Some 177; Some 178; Some 179; Some 180; Some 181; Some 182; Some 183; Some 248; Some 185; Some 343; Some 187; Some 188; Some 189; Some 190; Some 230; Some 260; Some 302; Some 256; Some 262; Some 196; Some 197; Some 280; Some 274; Some 268; Some 201; Some 377; Some 278; Some 290; Some 310; Some 298; Some 315; Some 352; Some 323; Some 325; Some 211; Some 332; Some 213; Some 214; Some 215; Some 370; Some 321; Some 346; Some 362; Some 220; Some 379; Some 381; Some 223; Some 261; Some 303; Some 257; Some 263; Some 228; Some 229; Some 281; Some 275; Some 269; Some 233; Some 378; Some 279; Some 291; Some 311; Some 299; Some 316; Some 353; Some 324; Some 326; Some 243; Some 333; Some 245; Some 246; Some 247; Some 371; Some 322; Some 347; Some 363; Some 252; Some 380; Some 382; Some 729].

Definition std_windows1258 : list (option N) :=
  [Some 8364; None; Some 8218; Some 402; Some 8222; Some 8230; Some 8224; Some 8225; Some 710; Some 8240; None; Some 8249; Some 338; None; None; None; None; Some 8216; Some 8217; Some 8220; Some 8221; Some 8226; Some 8211; Some 8212; Some 732; Some 8482; None; Some 8250; Some 339; None; None; Some 376; Some 160; Some 161; Some 162; Some 163; Some 164; Some 165; Some 166; Some 167; Some 168; Some 169; Some 170; Some 171; Some 172; Some 173; Some 174; Some 175; Some 176; Some 177; Some 178; Some 179; Some 180; Some 181; Some 182; Some 183; Some 184; Some 185; Some 186; Some 187; Some 188; Some 189; Some 190; Some 191; Some 192; Some 193; Some 194; Some 258; Some 196; Some 197; Some 198; Some 199; Some 200; Some 201; Some 202; Some 203; Some 768; Some 205; Some 206; Some 207; Some 272; Some 209; Some 777; Some 211; Some 212; Some 416; Some 214; Some 215; Some 216; Some 217; Some 218; Some 219; Some 220; Some 431; Some 771; Some 223; Some 224; Some 225; Some 226; Some 259; Some 228; Some 229; Some 230; Some 231; Some 232; Some 233; Some 234; Some 235; Some 769; Some 237; Some 238; Some 239; Some 273; Some 241; Some 803; Some 243; Some 244; Some 417; Some 246; Some 247; Some 248; Some 249; Some 250; Some 251; Some 252; Some 432; Some 8363; Some 255].

Definition std_windows874 : list (option N) :=
  [Some 8364; None; None; None; None; Some 8230; None; None; None; None; None; None; None; None; None; None; None; Some 8216; Some 8217; Some 8220; Some 8221; Some 8226; Some 8211; Some 8212; None; None; None; None; None; None; None; None; Some 160; Some 3585; Some 3586; Some 3587; Some 3588; Some 3589; Some 3590; Some 3591; Some 3592; Some 3593; Some 3594; Some 3595; Some 3596; Some 3597; Some 3598; Some 3599; Some 3600; Some 3601; Some 3602; Some 3603; Some 3604; Some 3605; Some 3606; Some 3607; Some 3608; Some 3609; Some 3610; Some 3611; Some 3612; Some 3613; Some 3614; Some 3615; Some 3616; Some 3617; Some 3618; Some 3619; Some 3620; Some 3621; Some 3622; Some 3623; Some 3624; Some 3625; Some 3626; Some 3627; Some 3628; Some 3629; Some 3630; Some 3631; Some 3632; Some 3633; Some 3634; Some 3635; Some 3636; Some 3637; Some 3638; Some 3639; Some 3640; Some 3641; Some 3642; None; None; None; None; Some 3647; Some 3648; Some 3649; Some 3650; Some 3651; Some 3652; Some 3653; Some 3654; Some 3655; Some 3656; Some 3657; Some 3658; Some 3659; Some 3660; Some 3661; Some 3662; Some 3663; Some 3664; Some 3665; Some 3666; Some 3667; Some 3668; Some 3669; Some 3670; Some 3671; Some 3672; Some 3673; Some 3674; Some 3675; None; None; None; None].
